(** What the user expects when other tools trace the target at the same time. *)
From Verif Require Import Base PtModel PtSpec RetryModel.

(** The requests of a kind change what can be seen of the target (through
    [view]) only if they succeed, and then in the way [act] says; looking at the
    clock and sleeping change nothing. *)
Definition changes_by {W V : Type} (view : W -> V) (act : V -> Z -> V -> Prop)
    (request : W -> Z * Z * W) : Prop :=
  forall w ret errno w', request w = (ret, errno, w') ->
    (errno = 0 /\ act (view w) ret (view w')) \/ (errno <> 0 /\ view w' = view w).
Definition idle {W V : Type} (view : W -> V) (nap : W -> W) (clock : W -> Z * W) : Prop :=
  (forall w, view (nap w) = view w) /\ (forall w t w', clock w = (t, w') -> view w' = view w).

(** Whenever the tool makes a request, the others let go of the target less than
    five seconds later: [k] requests after the first, and none of the times read
    in between is five seconds away from the time of the first refusal. *)
Definition shared_fairly (free : nat -> bool) (secs : nat -> Z) : Prop :=
  forall n t, exists k, free (n + k)%nat = true /\ forall j, (0 < j < k)%nat -> secs (t + j)%nat - secs t < 5.

(** The clock does not stand still. *)
Definition clock_runs (secs : nat -> Z) : Prop := forall t d, exists j, secs (t + j)%nat - secs t >= d.
