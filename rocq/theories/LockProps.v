(** Property theorems about requests and the allocator (C30). *)
From Verif Require Import Base BaseFacts InsnQModel LibModel LibSpec LibInv LockModel LockSpec LockProofs.

(** A patch request leaves everything libpulp knows as it was, except possibly
    its error state. *)
Definition same_patches (st st' : lstate) : Prop :=
  s_patches st' = s_patches st /\ s_roots st' = s_roots st /\ s_universe st' = s_universe st /\
  s_ctr st' = s_ctr st /\ s_q st' = s_q st.

(** C30, first half, the case left out being calls made before libpulp's
    constructor ran: in every state that any number of threads can reach in any
    interleaving (with forks), a request goes ahead only if no thread is inside
    an allocation or loading function and the dynamic linker's locks are free.
    [2 ^ 32] bounds the number of calls in progress at once. *)
Theorem C30_proceeds_only_if_free_partial :
  forall evs s st s' st',
    krun k_start evs = Some s -> no_early s -> lost k_start evs + calls s < 2 ^ 32 ->
    krequest s st = (K_proceed, s', st') -> ~ inside s /\ linker_idle s.
Proof.
  intros evs s st s' st' R NE B Q.
  apply krequest_spec in Q. destruct Q as (_ & P & _). apply proj1 in P. destruct (P eq_refl) as [I F].
  split; [|exact I]. apply calls_zero_not_inside; [exact NE|].
  rewrite (krun_start_flag evs s R) in F.
  pose proof (lost_nonneg evs k_start). pose proof (sum_nonneg (k_threads s)).
  unfold calls in *. apply s32_zero in F; lia.
Qed.
Print Assumptions C30_proceeds_only_if_free_partial.

(** The same, seen from the requests: while a thread is inside (or the linker's
    locks are taken) no request changes any patch, and a request to a libpulp
    without error and without pending work is answered with EAGAIN. *)
Theorem C30_inside_means_EAGAIN_partial :
  forall evs s e m junk buf st fuel lib_name,
    krun k_start evs = Some s -> no_early s -> lost k_start evs + calls s < 2 ^ 32 ->
    inside s \/ ~ linker_idle s ->
    forall s' st' ans,
    (apply_in s e m junk buf st = Some (s', st', ans) \/
     revert_in fuel s e m lib_name st = Some (s', st', ans)) ->
    same_patches st st' /\ s' = s /\
    (s_err st = 0 -> q_empty (s_q st) -> ans = EAGAIN).
Proof.
  intros evs s e m junk buf st fuel lib_name R NE B I s' st' ans H.
  assert (K : forall st0, krequest s st0 = (K_crash, s, st0) \/
            exists st1, krequest s st0 = (K_busy, s, st1) /\ same_patches st0 st1).
  { intros st0. destruct (krequest s st0) as [[a s1] st1] eqn:Q.
    pose proof (krequest_spec s st0 a s1 st1 Q) as (C & P & -> & _ & X).
    destruct a.
    - left. unfold krequest in Q. destruct (asunsafe_trylock s) as [[[? []] ?]|]; congruence.
    - right. exists st1. split; [reflexivity|]. exact X.
    - exfalso. pose proof (C30_proceeds_only_if_free_partial evs s st0 s st1 R NE B Q). tauto. }
  assert (SP : forall v, same_patches st (set_err st v)) by (intros; repeat split).
  assert (SPr : same_patches st st) by (repeat split).
  unfold apply_in, revert_in, ENONE in H.
  destruct (Z.eqb_spec (s_err st) 0) as [E|E]; cbn [negb] in H.
  2: { destruct H as [H|H]; apply Some_inj in H; inversion H; subst; (split; [exact SPr|split; [reflexivity|intros; contradiction]]). }
  destruct (ensure_emptiness_cases (s_q st) (s_err st)) as [[EQ Hq]|[EQ Hq]];
    rewrite EQ in H; cbn [negb Z.eqb] in H.
  - destruct H as [H|H]; apply Some_inj in H; inversion H; subst;
      (split; [apply SP|split; [reflexivity|intros; contradiction]]).
  - destruct (K (set_err st (s_err st))) as [Q|(st1 & Q & S)]; rewrite Q in H.
    + destruct H as [H|H]; discriminate H.
    + destruct H as [H|H]; apply Some_inj in H; inversion H; subst; (split; [exact S|split; auto]).
Qed.
Print Assumptions C30_inside_means_EAGAIN_partial.

(** C30, second half: without a fork, whatever the interleaving, the counter is
    exactly the number of calls in progress, ... *)
Theorem C30_calls_are_counted :
  forall evs s, krun k_start evs = Some s -> no_fork evs -> calls s < 2 ^ 31 -> k_flag s = calls s.
Proof.
  intros evs s R NF B. rewrite (krun_start_flag evs s R), (lost_no_fork evs k_start NF), Z.add_0_r.
  pose proof (sum_nonneg (k_threads s)). unfold calls in *. unfold s32, u32.
  rewrite Z.mod_small by lia. cbv zeta.
  destruct (_ <? 2 ^ 31) eqn:C; [reflexivity|lia].
Qed.
Print Assumptions C30_calls_are_counted.

(** ... a request does not disturb it, ... *)
Theorem C30_request_keeps_count :
  forall s st ans s' st', krequest s st = (ans, s', st') -> s' = s.
Proof. intros s st ans s' st' Q. apply krequest_spec in Q. tauto. Qed.
Print Assumptions C30_request_keeps_count.

(** ... and when nobody is inside, the request does go ahead. *)
Theorem C30_free_means_proceed :
  forall evs s st, krun k_start evs = Some s -> no_fork evs -> ~ inside s -> linker_idle s ->
    krequest s st = (K_proceed, s, st).
Proof.
  intros evs s st R NF NI I. destruct (krequest s st) as [[a s1] st1] eqn:Q.
  apply krequest_spec in Q as (_ & P & -> & S & _).
  assert (F : k_flag s = 0).
  { rewrite (krun_start_flag evs s R), (lost_no_fork evs k_start NF), (not_inside_calls s NI). reflexivity. }
  assert (a = K_proceed) as -> by (apply P; auto).
  rewrite S by reflexivity. reflexivity.
Qed.
Print Assumptions C30_free_means_proceed.

(** The request of this model is the request of the patch state machine
    (LibModel), with the lock's answer put in. *)
Theorem C30_apply_is_the_state_machine :
  forall s e m junk buf st, k_dl s = Some (0, 0) ->
    apply_in s e m junk buf st =
    match ulp_apply_patch (negb (k_flag s =? 0)) e m junk buf st with
    | Some (st', ans) => Some (s, st', ans)
    | None => None
    end.
Proof.
  intros s e m junk buf st D. destruct s as [th fl ini dl]. cbn in D. subst dl.
  unfold apply_in, ulp_apply_patch.
  destruct (negb (s_err st =? ENONE)); [reflexivity|].
  destruct (insnq_ensure_emptiness (s_q st) (s_err st)) as [r err'].
  destruct (negb (r =? 0)); [reflexivity|].
  unfold krequest, asunsafe_trylock, dl_locks_held.
  cbn [negb orb andb Z.leb Z.eqb Z.compare k_dl k_flag k_threads k_init].
  destruct (Z.eqb_spec fl 0) as [->|F]; cbn [negb]; [|reflexivity].
  unfold asunsafe_unlock. change (Z.land 1 0) with 0. cbn [k_dl k_threads k_init].
  destruct (load_patch _ _ _ _ _) as [[? ?]|]; reflexivity.
Qed.
Print Assumptions C30_apply_is_the_state_machine.

(** Two threads inside malloc, one of them having called it from the real
    dlclose: three calls, EAGAIN.  When they have returned the request goes
    ahead. *)
Definition k_busy : list kevent :=
  [KInit (0, 0); KSpawn; KCall 0 true; KEnter 0; KCall 1 false; KCall 0 false; KEnter 0; KEnter 1].

Definition k_idle_lib : lstate := mk_ls [] [] 0 0 0 (mk_insnq 3 0 0 (fun _ => 0)).

Example C30_case :
  exists s, krun k_start k_busy = Some s /\ no_early s /\ lost k_start k_busy + calls s = 3 /\
    inside s /\ no_fork k_busy /\ krequest s k_idle_lib = (K_busy, s, k_idle_lib) /\
  exists s2, krun k_start (k_busy ++ [KLeave 1; KLeave 0; KLeave 0]) = Some s2 /\ ~ inside s2 /\
    krequest s2 k_idle_lib = (K_proceed, s2, k_idle_lib).
Proof.
  eexists. split; [reflexivity|]. split; [|split; [reflexivity|split; [|split; [|split; [reflexivity|]]]]].
  - intros st H F. cbn in H. destruct H as [<-|[<-|[]]]; cbn in F; intuition discriminate.
  - exists [Counted; Counted]. cbn. auto.
  - intros i H. cbn in H. intuition discriminate.
  - eexists. split; [reflexivity|]. split; [|reflexivity].
    intros (st & H & F). cbn in H. destruct H as [<-|[<-|[]]]; cbn in F; intuition.
Qed.

(** Without [no_early], C30 fails: a thread that entered malloc before libpulp's
    constructor ran is not counted, and a request goes ahead while it is still
    inside. *)
Theorem C30_startup_refuted :
  exists evs s st s' st', krun k_start evs = Some s /\ no_fork evs /\ inside s /\
    krequest s st = (K_proceed, s', st').
Proof.
  exists [KSpawn; KCall 1 false; KInit (0, 0)]. eexists. exists k_idle_lib. do 2 eexists.
  split; [reflexivity|]. split; [intros i H; cbn in H; intuition discriminate|].
  split; [|reflexivity]. exists [Early]. cbn. auto.
Qed.
Print Assumptions C30_startup_refuted.

(** A contended loader lock has the value 2: libpulp's assertion then puts it in
    its error state.  The first request is answered with EAGAIN, and every later
    one with EUNKNOWN, even when the lock is free again. *)
Theorem C30_contended_refuted :
  exists evs s e m junk buf st' evs2 s2,
    krun k_start evs = Some s /\ no_early s /\
    apply_in s e m junk buf k_idle_lib = Some (s, st', EAGAIN) /\
    krun s evs2 = Some s2 /\ ~ inside s2 /\ linker_idle s2 /\
    forall buf2, apply_in s2 e m junk buf2 st' = Some (s2, st', EUNKNOWN).
Proof.
  exists [KInit (0, 0); KDl (2, 0)]. eexists.
  exists (mk_dlenv [] [] [] (fun _ => 0) (fun _ _ => 0) (fun _ => None)).
  exists (fun _ => 0), 0, []. eexists. exists [KDl (0, 0)]. eexists.
  split; [reflexivity|]. split; [intros st H F; cbn in H; destruct H as [<-|[]]; contradiction|].
  split; [reflexivity|]. split; [reflexivity|].
  split; [intros (st & H & F); cbn in H; destruct H as [<-|[]]; cbn in F; intuition|].
  split; [reflexivity|]. intros buf2. reflexivity.
Qed.
Print Assumptions C30_contended_refuted.

(** A process forked while another thread is inside malloc counts that call for
    ever: nobody is inside in the child, and every request is answered EAGAIN. *)
Theorem C30_fork_refuted :
  exists evs s, krun k_start evs = Some s /\ no_early s /\ ~ inside s /\ linker_idle s /\
    forall evs2 s2 st, krun s evs2 = Some s2 -> no_fork evs2 -> calls s2 < 2 ^ 31 -> linker_idle s2 ->
      krequest s2 st = (K_busy, s2, st).
Proof.
  exists [KInit (0, 0); KSpawn; KCall 1 false; KEnter 1; KFork 0]. eexists.
  split; [reflexivity|]. split; [intros st H F; cbn in H; destruct H as [<-|[]]; contradiction|].
  split; [intros (st & H & F); cbn in H; destruct H as [<-|[]]; cbn in F; intuition|].
  split; [reflexivity|]. intros evs2 s2 st R NF B L.
  pose proof (krun_flag evs2 _ s2 1 R eq_refl) as F. rewrite (lost_no_fork evs2 _ NF) in F.
  destruct (krequest s2 st) as [[a s3] st3] eqn:Q.
  pose proof Q as Q2. unfold krequest, asunsafe_trylock, dl_locks_held in Q2. rewrite L in Q2.
  cbn [negb orb andb Z.leb Z.eqb Z.compare] in Q2.
  destruct (Z.eqb_spec (k_flag s2) 0) as [Z|Z].
  - exfalso. rewrite Z in F. symmetry in F. pose proof (sum_nonneg (k_threads s2)). unfold calls in *.
    apply s32_zero in F; lia.
  - pose proof (krequest_spec _ _ _ _ _ Q) as (_ & _ & -> & _). inversion Q2; subst. reflexivity.
Qed.
Print Assumptions C30_fork_refuted.

(** A request that arrives before libpulp's constructor found the linker's locks
    dereferences a null pointer. *)
Theorem C30_early_request_refuted :
  exists s st, krun k_start [] = Some s /\ fst (fst (krequest s st)) = K_crash.
Proof. exists k_start, k_idle_lib. split; reflexivity. Qed.
Print Assumptions C30_early_request_refuted.
