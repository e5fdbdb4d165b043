(** What it means for a thread to be inside the allocator. *)
From Verif Require Import Base LockModel.

(** Some thread has an interposed call between its entry and its return. *)
Definition inside (s : kstate) : Prop :=
  exists st, In st (k_threads s) /\ (In Counted st \/ In Early st).

(** Every call in progress was made after libpulp's constructor had run. *)
Definition no_early (s : kstate) : Prop :=
  forall st, In st (k_threads s) -> ~ In Early st.

(** The dynamic linker's mutexes are both free. *)
Definition linker_idle (s : kstate) : Prop := k_dl s = Some (0, 0).

(** Number of interposed calls in progress. *)
Definition calls_in (st : list frame) : Z :=
  Z.of_nat (length (filter (fun f => match f with Counted => true | _ => false end) st)).
Definition calls (s : kstate) : Z := fold_right Z.add 0 (map calls_in (k_threads s)).

Definition no_fork (evs : list kevent) : Prop := forall i, ~ In (KFork i) evs.

(** Calls that were in progress in other threads when the process forked: they
    do not exist in the child and never return there. *)
Fixpoint lost (s : kstate) (evs : list kevent) : Z :=
  match evs with
  | [] => 0
  | ev :: t =>
      match kstep s ev with
      | None => 0
      | Some s' => match ev with
                   | KFork _ => calls s - calls s' + lost s' t
                   | _ => lost s' t
                   end
      end
  end.
