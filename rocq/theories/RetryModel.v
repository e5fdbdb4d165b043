(** Requests to the kernel that are retried while another tracer holds the
    target (tools/ptrace.c). *)
From Verif Require Import Base PtModel.

(** Linux error numbers (asm-generic/errno-base.h). EFAULT is in PtModel. *)
Definition EPERM : Z := 1.
Definition ESRCH : Z := 3.
Definition EIO : Z := 5.
Definition EBUSY : Z := 16.
Definition EINVAL : Z := 22.

(** tools/ptrace.c:52, PTRACE_TIMEOUT, in seconds. *)
Definition PTRACE_TIMEOUT : Z := 5.

Section Retry.
  (** The world outside the tool. [request w]: one call of ptrace in the world
      [w]: what it returns, errno after it (0 before it) and the world after it.
      [nap w]: usleep. [clock w]: time(NULL), and the world after it. *)
  Variable W : Type.
  Variable request : W -> Z * Z * W.
  Variable nap : W -> W.
  Variable clock : W -> Z * W.

  (** tools/ptrace.c:78, 87-92: another tracer holds the target. *)
  Definition held (errno : Z) : bool := (errno =? EBUSY) || (errno =? EPERM).

  (** tools/ptrace.c:94-99: the answers for which the loop is left. *)
  Definition final (errno : Z) : bool :=
    (errno =? EIO) || (errno =? EFAULT) || (errno =? EINVAL) || (errno =? ESRCH) || (errno =? 0).

  (** tools/ptrace.c:83-102, the loop, [t0] being the time it was entered.
      [None]: still in the loop when the fuel is used up. The difference of two
      times is assumed not to overflow. *)
  Fixpoint retry_loop (fuel : nat) (t0 : Z) (w : W) : option (Z * Z * W) :=
    match fuel with
    | O => None
    | S f =>
        let '(ret, errno, w1) := request w in
        if negb (held errno) && final errno then Some (ret, errno, w1)
        else
          let w2 := if held errno then nap w1 else w1 in
          let '(t1, w3) := clock w2 in
          if t1 - t0 <? PTRACE_TIMEOUT then retry_loop f t0 w3 else Some (ret, errno, w3)
    end.

  (** tools/ptrace.c:66-105, ulp_ptrace: its result, errno after it and the
      world after it. usleep and time are taken to leave errno alone. *)
  Definition ulp_ptrace (fuel : nat) (w : W) : option (Z * Z * W) :=
    let '(ret, errno, w1) := request w in
    if negb (held errno) then Some (ret, errno, w1)
    else let '(t0, w2) := clock w1 in retry_loop fuel t0 w2.
End Retry.

(** ** Writing to a target that other tracers hold from time to time *)

(** The target's memory, the number of requests made so far and the number of
    readings of the clock so far. *)
Record tworld := mk_tw { tw_mem : mem; tw_req : nat; tw_clk : nat }.

Section Target.
  (** [ok]: accessible bytes. [free n]: no one else holds the target at the
      [n]-th request. [secs n]: the [n]-th reading of the clock. *)
  Variable ok : Z -> bool.
  Variable free : nat -> bool.
  Variable secs : nat -> Z.

  Definition tw_clock (w : tworld) : Z * tworld :=
    (secs (tw_clk w), mk_tw (tw_mem w) (tw_req w) (S (tw_clk w))).
  Definition tw_nap (w : tworld) : tworld := w.

  (** ptrace(PTRACE_POKEDATA): EBUSY while the target is held, EIO for an
      inaccessible word. *)
  Definition poke_request (a v : Z) (w : tworld) : Z * Z * tworld :=
    if negb (free (tw_req w)) then (-1, EBUSY, mk_tw (tw_mem w) (S (tw_req w)) (tw_clk w))
    else if word_ok ok a then (0, 0, mk_tw (poke (tw_mem w) a v) (S (tw_req w)) (tw_clk w))
    else (-1, EIO, mk_tw (tw_mem w) (S (tw_req w)) (tw_clk w)).

  (** ptrace(PTRACE_PEEKDATA): returns the word. *)
  Definition peek_request (a : Z) (w : tworld) : Z * Z * tworld :=
    if negb (free (tw_req w)) then (-1, EBUSY, mk_tw (tw_mem w) (S (tw_req w)) (tw_clk w))
    else if word_ok ok a then (peek (tw_mem w) a, 0, mk_tw (tw_mem w) (S (tw_req w)) (tw_clk w))
    else (-1, EIO, mk_tw (tw_mem w) (S (tw_req w)) (tw_clk w)).

  (** tools/ptrace.c:118-126, the loop over whole words. *)
  Fixpoint write_longs_busy (fuel : nat) (w : tworld) (a : Z) (k : nat) (buf : list Z)
    : option (bool * tworld * Z * list Z) :=
    match k with
    | O => Some (true, w, a, buf)
    | S k' =>
        match ulp_ptrace _ (poke_request a (le_dec (firstn 8 buf))) tw_nap tw_clock fuel w with
        | None => None
        | Some (_, errno, w1) =>
            if negb (errno =? 0) then Some (false, w1, a, buf)
            else write_longs_busy fuel w1 (u64 (a + 8)) k' (skipn 8 buf)
        end
    end.

  (** tools/ptrace.c:111-143, write_bytes_ptrace. *)
  Definition write_bytes_busy (fuel : nat) (w : tworld) (a : Z) (buf : list Z) : option (Z * tworld) :=
    let n := zlen buf in
    match write_longs_busy fuel w a (Z.to_nat (n / 8)) buf with
    | None => None
    | Some (done, w1, a1, rest) =>
        if negb done then Some (1, w1)
        else if n mod 8 =? 0 then Some (0, w1)
        else
          match ulp_ptrace _ (peek_request a1) tw_nap tw_clock fuel w1 with
          | None => None
          | Some (remainder, errno, w2) =>
              if negb (errno =? 0) then Some (1, w2)
              else
                let k := Z.to_nat (n mod 8) in
                let merged := le_dec (firstn k rest ++ skipn k (le_enc 8 remainder)) in
                match ulp_ptrace _ (poke_request a1 merged) tw_nap tw_clock fuel w2 with
                | None => None
                | Some (_, errno, w3) => if negb (errno =? 0) then Some (1, w3) else Some (0, w3)
                end
          end
    end.
End Target.
