(** Real time, clocks and patience. *)
From Verif Require Import Base PtModel.

(** Real time is counted in nanoseconds. *)
Definition SEC : Z := 1000000000.

(** One look at the thread: what waitpid said, and when (in real time) the clock was read
    after it. *)
Record look := mk_look { lk_at : Z; lk_says : wait_ev }.

(** The answer decides nothing: no change, another process, or a change that is neither an end
    nor a stop. *)
Definition undecided (w : wait_ev) : Prop :=
  match w with
  | WNothing | WOther => True
  | WError => False
  | WStatus s => WIFEXITED s = false /\ WCOREDUMP s = false /\ WIFSTOPPED s = false
  end.

(** The answer means that the routine cannot be waited for any more. *)
Definition lost (w : wait_ev) : Prop :=
  match w with
  | WError => True
  | WStatus s => WIFEXITED s = true \/ WCOREDUMP s = true
  | _ => False
  end.

(** A clock that shows whole seconds and that nobody sets. *)
Definition steady (clock : Z -> Z) : Prop := exists off, forall r, clock r = (r + off) / SEC.

(** What the loop sees of the looks [ls], with the given clock. *)
Definition seen (clock : Z -> Z) (ls : list look) : list (wait_ev * Z) := map (fun l => (lk_says l, clock (lk_at l))) ls.

(** Two looks are at most [gap] apart, the first at most [gap] after [start]. *)
Fixpoint looks_every (gap start : Z) (ls : list look) : Prop :=
  match ls with
  | [] => True
  | l :: t => start <= lk_at l <= start + gap /\ looks_every gap (lk_at l) t
  end.
