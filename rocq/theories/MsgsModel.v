(** The command "ulp messages" (tools/messages.c), and the order in which libpulp
    stores a message (lib/msg_queue.c). *)
From Verif Require Import Base TextModel MsgQModel IntrModel CliModel.

(** ** The tool *)

(** tools/messages.c:43-57, get_msgq_address: the objects from libpulp's on. *)
Fixpoint first_queue (l : list dynobj) : Z :=
  match l with
  | [] => 0
  | o :: t => if negb (ext o 4 =? 0) then ext o 4 else first_queue t
  end.
Definition get_msgq_address (p : process) : Z := first_queue (skipn (p_libpulp p) (p_targets p)).

(** include/msg_queue.h:58-73: sizeof(struct msg_queue), and its fields in the bytes
    read from the target; the three ints follow the buffer. *)
Definition QUEUE_SIZE : nat := (Z.to_nat MSGQ_BUFFER_MAX + 12)%nat.
Definition queue_in (b : list Z) : msgq :=
  let n := Z.to_nat MSGQ_BUFFER_MAX in
  mk_msgq (fun i => nth (Z.to_nat i) b 0) (s32 (fld b n 4)) (s32 (fld b (n + 4) 4)) (s32 (fld b (n + 8) 4)).

(** tools/messages.c:60-70, msgq_print, on values that come from another process.
    [None]: an access outside the buffer. *)
Fixpoint print_checked (n : nat) (buf : Z -> Z) (bottom : Z) : option (list Z) :=
  match n with
  | O => Some []
  | S n' =>
      if (0 <=? bottom) && (bottom <? MSGQ_BUFFER_MAX)
      then match print_checked n' buf (Z.rem (bottom + 1) MSGQ_BUFFER_MAX) with
           | Some out => Some (buf bottom :: out)
           | None => None
           end
      else None
  end.

(** A process as the system offers it to the tool: its memory, its /proc entries,
    whether attaching for [initialize_data_structures], attaching for the queue and
    detaching succeed. *)
Record osproc := mk_os { os_t : target; os_pf : procfs; os_attach1 : bool; os_attach2 : bool; os_detach : bool }.

(** tools/messages.c:95-133, print_message_buffer (debug is always false): the
    result and what is printed. [None]: undefined behaviour. read_memory returns 0
    or a positive number. *)
Definition print_message_buffer (o : osproc) (p : process) : option (Z * list Z) :=
  let a := get_msgq_address p in
  if a =? 0 then Some (1, [])
  else if negb (os_attach2 o) then Some (1, [])
  else
    let r := trd (os_t o) a QUEUE_SIZE in
    if negb (os_detach o) then Some (1, [])
    else match r with
         | None => Some (1, [])
         | Some b =>
             let q := queue_in b in
             match print_checked (Z.to_nat (mq_dist q)) (mq_buf q) (mq_bottom q) with
             | Some out => Some (0, out)
             | None => None
             end
         end.

(** tools/messages.c:135-170, run_messages: the exit status and what is printed.
    [os pid]: the processes of the system. *)
Definition run_messages (os : Z -> osproc) (wildcard : list Z) : option (Z * list Z) :=
  if negb (isnumber (Some wildcard)) then Some (1, [])
  else
    let o := os (atoi_any wildcard) in
    match initialize_data_structures (os_t o) (os_pf o) (os_attach1 o) with
    | I_ok p =>
        match print_message_buffer o p with
        | None => None
        | Some (r, out) => Some (if 0 <? r then 1 else r, out)
        end
    | I_err _ => Some (1, [])
    | _ => None
    end.

(** ** libpulp, store by store *)

(** The stores of msgq_strpush to the queue. *)
Inductive store := St_byte (i v : Z) | St_top (v : Z) | St_bottom (v : Z) | St_dist (v : Z).
Definition do_store (q : msgq) (s : store) : msgq :=
  match s with
  | St_byte i v => mk_msgq (mem_write (mq_buf q) i [v]) (mq_top q) (mq_bottom q) (mq_dist q)
  | St_top v => mk_msgq (mq_buf q) v (mq_bottom q) (mq_dist q)
  | St_bottom v => mk_msgq (mq_buf q) (mq_top q) v (mq_dist q)
  | St_dist v => mk_msgq (mq_buf q) (mq_top q) (mq_bottom q) v
  end.

(** memset and memcpy: one byte after the other. *)
Fixpoint byte_stores (a : Z) (l : list Z) : list store :=
  match l with
  | [] => []
  | c :: t => St_byte a c :: byte_stores (a + 1) t
  end.

(** lib/msg_queue.c:38-94, msgq_strpush: its stores in the order of the program.
    [None]: the push does not end, or leaves the buffer. *)
Definition strpush_stores (f : nat) (mx : Z) (q : msgq) (s : list Z) : option (list store) :=
  let size := zlen s + 1 in
  match s with
  | [] => Some []
  | _ =>
      if size >? mx then Some []
      else
        let wrap := mq_top q + size >=? mx in
        let zeros := if wrap then repeat 0 (Z.to_nat (mx - mq_top q)) else [] in
        let buf := mem_write (mq_buf q) (mq_top q) zeros in
        let dist := if wrap then mq_dist q + (mx - mq_top q) else mq_dist q in
        let top := if wrap then 0 else mq_top q in
        match evict f f mx buf (mq_bottom q) dist size with
        | E_UB | E_fuel => None
        | E_ok bottom dist' =>
            if negb ((0 <=? top) && (top + size <=? mx)) then None
            else Some (byte_stores (mq_top q) zeros ++ byte_stores top (s ++ [0]) ++
                       [St_top ((top + size) mod mx); St_bottom bottom; St_dist (dist' + size)])
        end
  end.
