(** Model of the circular message buffer: lib/msg_queue.c and the reader in
    tools/messages.c. The buffer size is a parameter [mx]; the real one is
    [MSGQ_BUFFER_MAX]. *)
From Verif Require Import Base.

(** include/msg_queue.h:28, MSGQ_BUFFER_MAX. *)
Definition MSGQ_BUFFER_MAX : Z := 2 * 1024 * 1024.

(** include/msg_queue.h:58-73, struct msg_queue; only buffer indices in
    [0,mx) exist. *)
Record msgq := mk_msgq { mq_buf : Z -> Z; mq_top : Z; mq_bottom : Z; mq_dist : Z }.

(** The zero-initialised global (lib/msg_queue.c:33). *)
Definition msgq_init : msgq := mk_msgq (fun _ => 0) 0 0 0.

(** Outcome: new queue, access outside the buffer, or loop fuel exhausted. *)
Inductive mres := M_ok (q : msgq) | M_UB | M_fuel.

(** strlen of the string at [pos]; [None] if no NUL before index [pos+fuel]. *)
Fixpoint strlen_at (fuel : nat) (buf : Z -> Z) (pos : Z) : option Z :=
  match fuel with
  | O => None
  | S f => if buf pos =? 0 then Some 0
           else match strlen_at f buf (pos + 1) with
                | Some n => Some (n + 1)
                | None => None
                end
  end.

(** lib/msg_queue.c:73-79, the inner while: skip NULs. Result: bottom and
    travel, or [None] when the fuel runs out. *)
Fixpoint skip_nuls (f : nat) (mx : Z) (buf : Z -> Z) (bottom travel : Z) : option (Z * Z) :=
  match f with
  | O => None
  | S f' => if buf bottom =? 0
            then skip_nuls f' mx buf ((bottom + 1) mod mx) (travel + 1)
            else Some (bottom, travel)
  end.

Inductive eres := E_ok (bottom dist : Z) | E_UB | E_fuel.

(** lib/msg_queue.c:67-82, the eviction loop. [distance + msg_size] is size_t
    arithmetic. *)
Fixpoint evict (f : nat) (fin : nat) (mx : Z) (buf : Z -> Z) (bottom dist size : Z) : eres :=
  match f with
  | O => E_fuel
  | S f' =>
      if u64 (dist + size) >=? mx then
        match strlen_at (Z.to_nat (mx - bottom)) buf bottom with
        | None => E_UB
        | Some n =>
            match skip_nuls fin mx buf ((bottom + (n + 1)) mod mx) (n + 1) with
            | None => E_fuel
            | Some (bottom', travel') => evict f' fin mx buf bottom' (dist - travel') size
            end
        end
      else E_ok bottom dist
  end.

(** lib/msg_queue.c:38-94, msgq_strpush, for a message whose text is the C
    string [s] (msg_size = length + 1).  Each loop gets fuel [f]. *)
Definition msgq_strpush (f : nat) (mx : Z) (q : msgq) (s : list Z) : mres :=
  let size := zlen s + 1 in
  match s with
  | [] => M_ok q
  | _ =>
      if size >? mx then M_ok q
      else
        let wrap := mq_top q + size >=? mx in
        let buf := if wrap then mem_write (mq_buf q) (mq_top q) (repeat 0 (Z.to_nat (mx - mq_top q)))
                   else mq_buf q in
        let dist := if wrap then mq_dist q + (mx - mq_top q) else mq_dist q in
        let top := if wrap then 0 else mq_top q in
        match evict f f mx buf (mq_bottom q) dist size with
        | E_UB => M_UB
        | E_fuel => M_fuel
        | E_ok bottom dist' =>
            if negb ((0 <=? top) && (top + size <=? mx)) then M_UB
            else M_ok (mk_msgq (mem_write buf top (s ++ [0])) ((top + size) mod mx)
                               bottom (dist' + size))
        end
  end.

(** Pushing messages one after the other. *)
Fixpoint push_all (f : nat) (mx : Z) (q : msgq) (l : list (list Z)) : mres :=
  match l with
  | [] => M_ok q
  | s :: l' => match msgq_strpush f mx q s with
               | M_ok q' => push_all f mx q' l'
               | r => r
               end
  end.

(** tools/messages.c:60-70, msgq_print: the characters put on stdout. *)
Fixpoint msgq_print_loop (n : nat) (mx : Z) (buf : Z -> Z) (bottom : Z) : list Z :=
  match n with
  | O => []
  | S n' => buf bottom :: msgq_print_loop n' mx buf ((bottom + 1) mod mx)
  end.

Definition msgq_print (mx : Z) (q : msgq) : list Z :=
  msgq_print_loop (Z.to_nat (mq_dist q)) mx (mq_buf q) (mq_bottom q).
