(** Property theorems about stopping the target's threads (C31). *)
From Verif Require Import Base BaseFacts PtModel HjModel HjSpec HjProofs.

(** Under every interleaving of the scan with the creation and termination of
    threads: when hijacking succeeds, every thread of the process is stopped and on
    the tool's list. *)
Theorem C31_all_stopped :
  forall l s, proc_threads l -> hsteps Plain (h_init l) s -> h_phase s = HSuccess -> all_stopped s.
Proof.
  intros l s (N & _) ST P. pose proof (inv_steps _ _ (inv_init l N) ST) as I.
  intros tid t IN.
  assert (K : In tid (h_known s)).
  { apply (i_succ s I P). unfold tids. apply (in_map fst) in IN. exact IN. }
  split; [|exact K]. apply (state_unique (h_threads s) tid); [apply I|exact IN|apply (i_known s I tid K)].
Qed.
Print Assumptions C31_all_stopped.

(** And stays so: from then on nothing in the process can change. *)
Theorem C31_stays_stopped :
  forall l s s', proc_threads l -> hsteps Plain (h_init l) s -> h_phase s = HSuccess -> ~ hstep Plain s s'.
Proof.
  intros l s s' PT ST P H. pose proof (C31_all_stopped l s PT ST P) as A.
  assert (NA : forall l1 tid t l2, h_threads s = l1 ++ (tid, t) :: l2 -> active t -> False).
  { intros l1 tid t l2 E AC. apply AC. apply (A tid t). rewrite E. apply in_mid. }
  inversion H; subst; try congruence; try (eapply NA; [eassumption|assumption]).
  eapply NA; [eassumption|unfold active; discriminate].
Qed.
Print Assumptions C31_stays_stopped.

(** When hijacking fails and no detach request was refused and no waitpid failed,
    every thread has been released, and the answer says so. *)
Theorem C31_failure_releases_partial :
  forall l s c, proc_threads l -> hsteps Plain (h_init l) s -> h_phase s = HFailed c ->
    h_dfail s = false -> all_released s /\ c = ETHRDATTACH.
Proof.
  intros l s c (N & _) ST P D. pose proof (inv_steps _ _ (inv_init l N) ST) as I.
  destruct (i_failed s I c P) as (K & C). split.
  - intros tid t IN. destruct t; [reflexivity| |]; exfalso;
      destruct (i_att s I tid _ IN ltac:(discriminate)) as [A|[A|A]]; try congruence; rewrite K in A; contradiction.
  - destruct (h_fatal s) eqn:F; [|exact C]. pose proof (i_fatal s I F). congruence.
Qed.
Print Assumptions C31_failure_releases_partial.

(** A process that creates a thread while the tool scans it, and loses another. *)
Ltac side :=
  first [reflexivity | (unfold active; discriminate) | lia | (cbn; tauto) | (cbn; intuition discriminate) | (cbn; lia)].
(** Add one step to the run in the context. *)
Tactic Notation "fwd" uconstr(L) :=
  match goal with
  | H : hsteps ?q ?a ?b |- _ =>
      let X := fresh "X" in
      eassert (X : hsteps q a _) by (eapply hs_step; [exact H|eapply L; side]);
      clear H; rename X into H;
      cbn [h_init h_threads h_cur h_buf h_known h_loop h_fatal h_dfail h_phase set_threads set_phase
           map length app Nat.add Nat.sub Nat.ltb Nat.leb Nat.min set_tstate fst Z.eqb Pos.eqb] in H
  end.

Definition mid_case : hstate :=
  mk_h [(10, TStopped); (12, TStopped)] 2 [] [12; 10] false false false HSuccess.
Example C31_case : proc_threads [10; 11] /\ hsteps Plain (h_init [10; 11]) mid_case /\ h_phase mid_case = HSuccess.
Proof.
  split; [split; [repeat constructor; cbn; intuition discriminate|repeat constructor; lia]|].
  split; [|reflexivity].
  assert (H : hsteps Plain (h_init [10; 11]) (h_init [10; 11])) by constructor.
  (* the main thread is listed, attached and stops *)
  fwd (st_deliver Plain _ [] 10 TRun [(11, TRun)]).
  fwd (st_attach Plain _ 10 [] [] [(11, TRun)]).
  (* thread 11 creates thread 12 and ends before it is listed *)
  fwd (st_clone Plain _ [(10, TAttaching)] 11 TRun [] 12).
  fwd (st_exit Plain _ [(10, TAttaching)] 11 TRun [(12, TRun)]).
  fwd (st_stop Plain _ [] 10 [(12, TRun)]).
  fwd (st_attached Plain _ 10 [] [(12, TRun)]).
  fwd (st_deliver Plain _ [(10, TStopped)] 12 TRun []).
  fwd (st_attach Plain _ 12 [] [(10, TStopped)] []).
  fwd (st_stop Plain _ [(10, TStopped)] 12 []).
  fwd (st_attached Plain _ 12 [(10, TStopped)] []).
  fwd st_eof.
  (* second pass: nothing new *)
  fwd st_again.
  fwd (st_deliver Plain _ [] 10 TStopped [(12, TStopped)]).
  fwd (st_known Plain _ 10 []).
  fwd (st_deliver Plain _ [(10, TStopped)] 12 TStopped []).
  fwd (st_known Plain _ 12 []).
  fwd st_eof.
  fwd st_success.
  exact H.
Qed.

(** Finding: when reading the registers of a freshly attached thread fails and it
    cannot be detached either, or waitpid fails, the thread stays attached and
    stopped, although the answer is the one for "everything was released". *)
Theorem C31_left_behind_refuted :
  exists l s, proc_threads l /\ hsteps Plain (h_init l) s /\ h_phase s = HFailed ETHRDATTACH /\ ~ all_released s.
Proof.
  exists [10], (mk_h [(10, TStopped)] 1 [] [] true false true (HFailed ETHRDATTACH)).
  split; [split; [repeat constructor; cbn; tauto|repeat constructor; lia]|].
  split; [|split; [reflexivity|intros A; specialize (A 10 TStopped (or_introl eq_refl)); discriminate]].
  assert (H : hsteps Plain (h_init [10]) (h_init [10])) by constructor.
  fwd (st_deliver Plain _ [] 10 TRun []).
  fwd (st_attach Plain _ 10 [] [] []).
  fwd (st_stop Plain _ [] 10 []).
  fwd (st_getregs_detach_error Plain _ 10).
  fwd st_failed.
  exact H.
Qed.
Print Assumptions C31_left_behind_refuted.

(** Finding: a listing that resumes by counting entries can skip a thread, and
    then one pass without news is not enough: hijacking succeeds with a running
    thread. *)
Theorem C31_counting_listing_refuted :
  exists l s, proc_threads l /\ hsteps CountingListing (h_init l) s /\ h_phase s = HSuccess /\ ~ all_stopped s.
Proof.
  exists [10; 11], (mk_h [(10, TStopped); (12, TRun)] 2 [] [10] false false false HSuccess).
  split; [split; [repeat constructor; cbn; intuition discriminate|repeat constructor; lia]|].
  split; [|split; [reflexivity|intros A; destruct (A 12 TRun (or_intror (or_introl eq_refl))); discriminate]].
  assert (H : hsteps CountingListing (h_init [10; 11]) (h_init [10; 11])) by constructor.
  (* first pass: 11 is created anew each time before it is listed *)
  fwd (st_deliver _ _ [] 10 TRun [(11, TRun)]).
  fwd (st_attach _ _ 10 [] [] [(11, TRun)]).
  fwd (st_stop _ _ [] 10 [(11, TRun)]).
  fwd (st_attached _ _ 10 [] [(11, TRun)]).
  fwd (st_clone _ _ [(10, TStopped)] 11 TRun [] 13).
  fwd (st_exit_under_cursor _ _ [(10, TStopped)] 11 TRun [(13, TRun)]).
  fwd st_eof.
  fwd st_again.
  (* second pass *)
  fwd (st_deliver _ _ [] 10 TStopped [(13, TRun)]).
  fwd (st_known _ _ 10 []).
  fwd (st_clone _ _ [(10, TStopped)] 13 TRun [] 12).
  fwd (st_exit_under_cursor _ _ [(10, TStopped)] 13 TRun [(12, TRun)]).
  fwd st_eof.
  fwd st_success.
  exact H.
Qed.
Print Assumptions C31_counting_listing_refuted.

(** Finding: a thread that executes another program while the tool scans takes over
    the number of the first thread, which the tool has already on its list: it is
    never attached, and hijacking succeeds. *)
Theorem C31_exec_refuted :
  exists l s, proc_threads l /\ hsteps Exec (h_init l) s /\ h_phase s = HSuccess /\ ~ all_stopped s.
Proof.
  exists [10; 11], (mk_h [(10, TRun)] 1 [] [10] false false false HSuccess).
  split; [split; [repeat constructor; cbn; intuition discriminate|repeat constructor; lia]|].
  split; [|split; [reflexivity|intros A; destruct (A 10 TRun (or_introl eq_refl)); discriminate]].
  assert (H : hsteps Exec (h_init [10; 11]) (h_init [10; 11])) by constructor.
  fwd (st_deliver _ _ [] 10 TRun [(11, TRun)]).
  fwd (st_attach _ _ 10 [] [] [(11, TRun)]).
  fwd (st_stop _ _ [] 10 [(11, TRun)]).
  fwd (st_attached _ _ 10 [] [(11, TRun)]).
  fwd (st_exec _ _ [(10, TStopped)] 11 TRun [] 10 TStopped [(11, TRun)]).
  fwd st_eof.
  fwd st_again.
  fwd (st_deliver _ _ [] 10 TRun []).
  fwd (st_known _ _ 10 []).
  fwd st_eof.
  fwd st_success.
  exact H.
Qed.
Print Assumptions C31_exec_refuted.
