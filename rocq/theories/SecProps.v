(** C104: the system call filter of the target is suspended only when asked for, only
    where libpulp runs, and is in force again afterwards. *)
From Verif Require Import Base StrModel LibModel PtModel TrModel SecModel SecSpec SecProofs.

Definition all_detach (rs : list preq) : Prop := forall r i, In r rs -> detaches (pr_ans r i).
(** No library function sets errno to 0: the message of disable_seccomp keeps an error
    an error. *)
Definition errno_stays (rs : list preq) : Prop := forall r i, In r rs -> sa_debug (pr_ans r i) <> 0.

Lemma all_outcome opt : forall rs ks ks' s, untouched ks -> all_detach rs -> trigger_all opt rs ks = (ks', s) ->
  untouched ks' /\
  Forall (fun x => exists r, In r rs /\ start_ok opt (pr_main r) x /\ (errno_stays rs -> start_susp opt (pr_main r) x)) s.
Proof.
  induction rs as [|r rs IH]; intros ks ks' s U D E; cbn [trigger_all] in E.
  { injection E as <- <-. split; [exact U|constructor]. }
  destruct (trigger_process opt r ks) as [[res k1] s1] eqn:E1. destruct (trigger_all opt rs k1) as [k2 s2] eqn:E2. injection E as <- <-.
  destruct (process_outcome _ _ _ _ _ _ U E1) as (P1 & P2 & _ & _ & P5 & _).
  assert (U1 : untouched k1).
  { intros t. destruct (k1 t) eqn:K; [reflexivity|]. exfalso. destruct (P5 t) as (j & X); [rewrite K; discriminate|].
    apply X, D. left. reflexivity. }
  assert (D2 : all_detach rs) by (intros x i Hx; apply D; right; exact Hx).
  destruct (IH k1 k2 s2 U1 D2 E2) as [U2 F]. split; [exact U2|]. apply Forall_app. split.
  - rewrite Forall_forall in P1 |- *. intros x Hx. exists r. split; [left; reflexivity|]. split; [apply P1, Hx|].
    intros H. assert (P : forall j, sa_debug (pr_ans r j) <> 0) by (intros j; apply H; left; reflexivity).
    specialize (P2 P). rewrite Forall_forall in P2. apply P2, Hx.
  - eapply Forall_impl; [|exact F]. intros x (r0 & X1 & X2 & X3). exists r0. split; [right; exact X1|]. split; [exact X2|].
    intros H. apply X3. intros y i Hy. apply H. right. exact Hy.
Qed.

(** Whenever a routine of libpulp is started, the only filter that can be suspended is
    that of the thread it is started in, only for applying a livepatch, and only if
    the option was given and the tool has the capability; in the end every thread is
    released with its filter in force. *)
Theorem C104_only_as_asked : forall opt capable many rs ks res ks' starts,
  untouched ks -> all_detach rs ->
  run_trigger opt capable many rs ks = (res, ks', starts) ->
  (forall s t, In s starts -> suspended (st_threads s) t ->
     opt = true /\ capable = true /\ st_routine s = R_trigger /\ t = st_main s) /\
  untouched ks'.
Proof.
  intros opt capable many rs ks res ks' starts U D E. unfold run_trigger in E.
  destruct (opt && negb capable) eqn:B; [injection E as _ <- <-; split; [intros s t []|exact U]|].
  destruct (trigger_all opt rs ks) as [k s] eqn:E1. injection E as _ <- <-.
  destruct (all_outcome _ _ _ _ _ U D E1) as [U1 F]. split; [|exact U1].
  intros x t Hx Hs. rewrite Forall_forall in F. destruct (F x Hx) as (r & _ & (M & O) & _). unfold suspended in Hs.
  destruct (st_routine x) eqn:R; [exfalso; exact (O t Hs)|]. destruct (O t Hs) as [-> ->].
  split; [reflexivity|]. split; [destruct capable; [reflexivity|discriminate B]|]. split; [reflexivity|symmetry; exact M].
Qed.
Print Assumptions C104_only_as_asked.

(** With the option, libpulp's routine that applies a livepatch never runs under the
    filter. *)
Theorem C104_applied_without_filter : forall capable many rs ks res ks' starts,
  untouched ks -> all_detach rs -> errno_stays rs ->
  run_trigger true capable many rs ks = (res, ks', starts) ->
  forall s, In s starts -> st_routine s = R_trigger -> suspended (st_threads s) (st_main s).
Proof.
  intros capable many rs ks res ks' starts U D H E s Hs R. unfold run_trigger in E.
  destruct (true && negb capable); [injection E as _ _ <-; destruct Hs|].
  destruct (trigger_all true rs ks) as [k st] eqn:E1. injection E as _ _ <-.
  destruct (all_outcome _ _ _ _ _ U D E1) as [_ F]. rewrite Forall_forall in F. destruct (F s Hs) as (r & _ & (M & _) & X).
  unfold suspended. rewrite M. apply (X H); [exact R|reflexivity].
Qed.
Print Assumptions C104_applied_without_filter.

(** Without the option no filter is ever suspended, even if detaching fails. *)
Theorem C104_not_asked : forall r ks res ks' starts, untouched ks ->
  trigger_process false r ks = (res, ks', starts) ->
  (forall t, ~ suspended ks' t) /\ (forall s t, In s starts -> ~ suspended (st_threads s) t).
Proof.
  intros r ks res ks' starts U E. destruct (process_outcome _ _ _ _ _ _ U E) as (P1 & _ & _ & P4 & _).
  split; [intros t H; destruct (P4 t H) as [X _]; discriminate X|].
  intros s t Hs H. rewrite Forall_forall in P1. destruct (P1 s Hs) as [_ O]. unfold suspended in H.
  destruct (st_routine s); [exact (O t H)|]. destruct (O t H) as [X _]. discriminate X.
Qed.
Print Assumptions C104_not_asked.

(** A filter that is still suspended when the tool is done with a process is that of
    its main thread, from which the kernel would not let the tool detach. *)
Theorem C104_left_suspended : forall opt r ks res ks' starts t, untouched ks ->
  trigger_process opt r ks = (res, ks', starts) -> suspended ks' t ->
  opt = true /\ t = pr_main r /\
  exists i tids, sa_hijack (pr_ans r i) = HjOk tids /\ In (pr_main r) tids /\ sa_detach (pr_ans r i) (pr_main r) = false.
Proof.
  intros opt r ks res ks' starts t U E H. destruct (process_outcome _ _ _ _ _ _ U E) as (_ & _ & _ & P4 & _ & P6).
  destruct (P4 t H) as [-> ->]. split; [reflexivity|]. split; [reflexivity|]. exact (P6 _ H).
Qed.
Print Assumptions C104_left_suspended.

(** If the kernel does not let the tool suspend the filter, libpulp is not asked to
    apply the livepatch, and the livepatch is not reported as applied. *)
Theorem C104_refused_not_applied : forall r ks res ks' starts, untouched ks ->
  (forall i, sa_setopt (pr_ans r i) <> 0 /\ sa_debug (pr_ans r i) <> 0 /\ sa_warn (pr_ans r i) <> 0) ->
  trigger_process true r ks = (res, ks', starts) ->
  (forall s, In s starts -> st_routine s = R_revert_all) /\
  (q_revert (pr_req r) = false -> res <> 0).
Proof.
  intros r ks res ks' starts U H E.
  assert (N : forall i, setopt_answer (pr_main r) (pr_ans r i) <> 0).
  { intros i. unfold setopt_answer, ESRCH. destruct (existsb _ _); [apply H|discriminate]. }
  split.
  - destruct (process_outcome _ _ _ _ _ _ U E) as (_ & _ & P3 & _).
    assert (F : Forall (fun x => st_routine x = R_revert_all) starts).
    { apply P3; [|reflexivity]. intros j. split; [apply H|apply N]. }
    rewrite Forall_forall in F. exact F.
  - intros Q. unfold trigger_process in E. destruct (trigger_one_process _ _ _ _) as [res0 evs] eqn:E1.
    destruct (replay _ _ _ _ _ _) as [k s] eqn:E2. injection E as <- _ _.
    assert (A : forall j, apply_answer true (pr_main r) (pr_ans r j) <> 0).
    { intros j. unfold apply_answer, apply_start, disable_seccomp. destruct (sa_buffer (pr_ans r j)); cbn [negb]; [|discriminate].
      destruct (Z.eqb_spec (setopt_answer (pr_main r) (pr_ans r j)) 0) as [X|_]; [destruct (N j X)|]. cbn [negb andb].
      destruct (H j) as (_ & H2 & H3). destruct (Z.eqb_spec (sa_debug (pr_ans r j)) 0); [contradiction|]. exact H3. }
    assert (M1 : -1 <> 0) by discriminate. unfold trigger_one_process in E1.
    destruct (p_compatible (pr_pre r)); cbn [negb] in E1; [|injection E1 as <- _; discriminate].
    destruct (q_patch (pr_req r) && negb (p_metadata (pr_pre r))); [injection E1 as <- _; discriminate|].
    destruct (q_patch (pr_req r)); cbn [andb] in E1.
    + destruct (Z.eqb_spec (p_load (pr_pre r)) 0); cbn [negb] in E1; [|injection E1 as <- _; assumption].
      destruct (Z.eqb_spec (p_sanity (pr_pre r)) 0); cbn [negb] in E1; [|injection E1 as <- _; assumption].
      destruct (trigger_loop _ _ _ _ _) as [x evs1] eqn:E3.
      destruct (loop_result _ _ _ _ Q A _ _ _ _ _ M1 E3) as [X1 X2].
      destruct x as [x|x]; [injection E1 as <- _; congruence|]. destruct (Z.eqb_spec x 0); [congruence|]. injection E1 as <- _. assumption.
    + destruct (trigger_loop _ _ _ _ _) as [x evs1] eqn:E3.
      destruct (loop_result _ _ _ _ Q A _ _ _ _ _ M1 E3) as [X1 X2].
      destruct x as [x|x]; [injection E1 as <- _; congruence|]. destruct (Z.eqb_spec x 0); [congruence|]. injection E1 as <- _. assumption.
Qed.
Print Assumptions C104_refused_not_applied.

(** Without CAP_SYS_ADMIN nothing is done at all. *)
Theorem C104_needs_capability : forall many rs ks, run_trigger true false many rs ks = (EPERM, ks, []).
Proof. reflexivity. Qed.
Print Assumptions C104_needs_capability.

(** ** Cases *)

Definition sec_ok (busy : bool) : sattempt :=
  mk_sa (HjOk [71; 70; 72]) 0 true (if busy then 11 else 0) true 0 5 5 (if busy then 11 else 0) (fun _ => true) (fun _ => true).
Definition sec_denied : sattempt :=
  mk_sa (HjOk [71; 70; 72]) 0 true 0 true 1 1 1 0 (fun _ => true) (fun _ => true).
Definition sec_stuck : sattempt :=
  mk_sa (HjOk [71; 70; 72]) 0 true 0 true 0 5 5 0 (fun _ => true) (fun t => negb (t =? 70)).
Definition sec_req (rv : bool) (ans : nat -> sattempt) : preq :=
  mk_preq 70 (mk_treq true rv false) (mk_tpre true true 0 0) ans 5.
Definition sec_none : kst := fun _ => Free.

(** The first attempt finds libpulp busy, the second succeeds: the filter of the main
    thread is suspended both times. Then another livepatch of the same process. *)
Definition sec_rs : list preq := [sec_req false (fun i => sec_ok (Nat.eqb i 0)); sec_req false (fun _ => sec_ok false)].
Example C104_only_as_asked_case : untouched sec_none /\ all_detach sec_rs /\ errno_stays sec_rs /\
  exists ks' s1 s2 s3, run_trigger true true 0 sec_rs sec_none = (0, ks', [s1; s2; s3]) /\
    map st_routine [s1; s2; s3] = [R_trigger; R_trigger; R_trigger] /\
    map (fun s => map (st_threads s) [70; 71; 72; 73]) [s1; s2; s3] =
      [[Held true; Held false; Held false; Free]; [Held true; Held false; Held false; Free]; [Held true; Held false; Held false; Free]].
Proof.
  split; [intros t; reflexivity|]. split.
  { intros r i [<-|[<-|[]]] t Ht; reflexivity. }
  split.
  { intros r i [<-|[<-|[]]]; [destruct i as [|i]|]; discriminate. }
  do 4 eexists. split; [reflexivity|]. split; reflexivity.
Qed.

Example C104_refused_case :
  (forall i : nat, sa_setopt (pr_ans (sec_req false (fun _ => sec_denied)) i) <> 0) /\
  exists ks', trigger_process true (sec_req false (fun _ => sec_denied)) sec_none = (1, ks', []).
Proof. split; [discriminate|]. eexists. vm_compute. reflexivity. Qed.

(** The kernel refuses to detach from the main thread: its filter stays suspended, as
    C104_left_suspended allows, until the tool ends. *)
Example C104_left_case : exists ks' s, trigger_process true (sec_req false (fun _ => sec_stuck)) sec_none = (0, ks', s) /\ suspended ks' 70 /\ ks' 71 = Free.
Proof. do 2 eexists. split; [reflexivity|]. split; reflexivity. Qed.

Example C104_not_asked_case : exists ks' s, trigger_process false (sec_req true (fun _ => sec_ok false)) sec_none = (0, ks', s) /\
  map st_routine s = [R_revert_all; R_trigger] /\ map (fun s => st_threads s 70) s = [Held false; Held false].
Proof. do 2 eexists. split; [reflexivity|]. split; reflexivity. Qed.

(** The option does not reach everything libpulp is asked to do: with --revert-all the
    livepatches of a library are reverted under the filter, although the option was
    given and the kernel grants everything. *)
Theorem C104_revert_under_filter_refuted : exists rs ks' s1 s2,
  all_detach rs /\ errno_stays rs /\
  run_trigger true true 0 rs sec_none = (0, ks', [s1; s2]) /\
  st_routine s1 = R_revert_all /\ ~ suspended (st_threads s1) (st_main s1) /\
  st_routine s2 = R_trigger /\ suspended (st_threads s2) (st_main s2).
Proof.
  exists [sec_req true (fun _ => sec_ok false)]. do 3 eexists. split; [intros r i [<-|[]] t Ht; reflexivity|].
  split; [intros r i [<-|[]]; discriminate|]. split; [reflexivity|]. repeat split. discriminate.
Qed.
Print Assumptions C104_revert_under_filter_refuted.

(** ** How often libpulp is asked *)

(** The limit of C100 is one for each routine. For one process and one livepatch
    libpulp is asked at most once in every attempt, and once more if what was there is
    reverted first: a command waits at most that many times the limit. *)
Definition asks (ev : tev) : nat := match ev with EvRevert _ | EvApply _ => 1 | _ => 0 end.
Definition asked (evs : list tev) : nat := fold_right (fun ev n => asks ev + n)%nat 0%nat evs.

Lemma asked_app a b : asked (a ++ b) = (asked a + asked b)%nat.
Proof. induction a as [|x a IH]; [reflexivity|]. change (asks x + asked (a ++ b) = asks x + asked a + asked b)%nat. rewrite IH. lia. Qed.

Lemma replay_asked opt main ans evs : forall n ks ks' s, replay opt main ans n evs ks = (ks', s) -> (List.length s <= asked evs)%nat.
Proof.
  induction evs as [|ev evs IH]; intros n ks ks' s E; cbn [replay] in E; [injection E as _ <-; cbn; lia|]. cbv zeta in E.
  destruct (call_effect opt main (ans (pred (match ev with EvHijack _ => S n | _ => n end))) ev ks) as [k1 s1] eqn:E1.
  destruct (replay opt main ans _ evs k1) as [k2 s2] eqn:E2. injection E as _ <-. rewrite app_length. apply IH in E2.
  assert (L : (List.length s1 <= asks ev)%nat).
  { destruct ev; cbn [call_effect asks] in *; try (injection E1 as _ <-; cbn; lia).
    - unfold revert_effect in E1. destruct (sa_rbuf _); injection E1 as _ <-; cbn; lia.
    - unfold apply_effect in E1. destruct (negb _); [injection E1 as _ <-; cbn; lia|]. cbv zeta in E1. destruct (apply_start _ _ _); injection E1 as _ <-; cbn; lia. }
  change (asked (ev :: evs)) with (asks ev + asked evs)%nat. lia.
Qed.

Lemma attempt_asked q a result r stop evs : one_attempt q a result = (r, stop, evs) ->
  (asked evs <= 1)%nat \/ stop = true /\ q_revert q && q_patch q = true /\ (asked evs <= 2)%nat.
Proof.
  intros E. unfold one_attempt in E.
  destruct (q_stack q) eqn:Q; cbn [andb] in E; [destruct (negb (at_range a =? 0)); cbv iota zeta in E|]; cbv iota zeta in E.
  { injection E as _ _ <-. left. destruct (result =? 0); cbn; lia. }
  all: destruct (q_revert q); [destruct (negb ((if q_patch q && _ then 0 else _) =? 0))|]; destruct (q_patch q); cbn [andb negb] in E;
    injection E as _ <- <-; match goal with |- context [if ?b then [] else [EvSleep]] => destruct b end;
    cbn [app asked fold_right asks orb andb]; solve [left; lia | right; repeat split; lia].
Qed.

Lemma loop_asked q ans : forall retry i result r evs, trigger_loop q ans retry i result = (r, evs) ->
  (asked evs <= retry + if q_revert q && q_patch q then 1 else 0)%nat.
Proof.
  induction retry as [|n IH]; intros i result r evs E; cbn [trigger_loop] in E; [injection E as _ <-; cbn; lia|]. cbv zeta in E.
  destruct (_ || _) in E; [injection E as _ <-; cbn; lia|].
  destruct (one_attempt q (ans i) result) as [[result1 stop] evs1] eqn:E1. apply attempt_asked in E1.
  assert (C : forall h rest, asked (EvHijack h :: evs1 ++ rest) = (asked evs1 + asked rest)%nat)
    by (intros h rest; change (asked (EvHijack h :: evs1 ++ rest)) with (asked (evs1 ++ rest)); apply asked_app).
  destruct stop.
  - injection E as _ <-. rewrite C. change (asked []) with 0%nat. destruct E1 as [L|(_ & -> & L)]; lia.
  - destruct (trigger_loop q ans n (S i) result1) as [r2 rest] eqn:E2. injection E as _ <-. apply IH in E2. rewrite C.
    destruct E1 as [L|(K & _)]; [lia|discriminate].
Qed.

Theorem C100_routines_per_command : forall opt r ks res ks' starts,
  trigger_process opt r ks = (res, ks', starts) ->
  (List.length starts <= pr_retries r + if q_revert (pr_req r) && q_patch (pr_req r) then 1 else 0)%nat.
Proof.
  intros opt r ks res ks' starts E. unfold trigger_process in E.
  destruct (trigger_one_process _ _ _ _) as [res0 evs] eqn:E1. destruct (replay _ _ _ _ _ _) as [k s] eqn:E2. injection E as _ _ <-.
  apply replay_asked in E2. unfold trigger_one_process in E1.
  set (b := (pr_retries r + _)%nat). assert (Z0 : (asked [] <= b)%nat) by (cbn; lia).
  destruct (p_compatible (pr_pre r)); cbn [negb] in E1; [|injection E1 as _ <-; lia].
  destruct (q_patch (pr_req r) && negb (p_metadata (pr_pre r))); [injection E1 as _ <-; lia|].
  destruct (q_patch (pr_req r) && negb (p_load (pr_pre r) =? 0)); [injection E1 as _ <-; lia|].
  destruct (q_patch (pr_req r) && negb (p_sanity (pr_pre r) =? 0)); [injection E1 as _ <-; lia|].
  destruct (trigger_loop _ _ _ _ _) as [x evs1] eqn:E3. apply loop_asked in E3. fold b in E3.
  assert (evs = evs1) by (destruct x; injection E1; auto). subst evs1. lia.
Qed.
Print Assumptions C100_routines_per_command.

(** The number is reached: the reverting routine is not answered in time four times
    (62: ETIME), the fifth time it succeeds and the applying routine follows. *)
Example C100_routines_case :
  let late i := mk_sa (HjOk [70]) 0 true (if Nat.eqb i 4 then 0 else 62) true 0 5 5 62 (fun _ => true) (fun _ => true) in
  map st_routine (snd (trigger_process false (sec_req true late) sec_none)) =
    [R_revert_all; R_revert_all; R_revert_all; R_revert_all; R_revert_all; R_trigger].
Proof. vm_compute. reflexivity. Qed.
