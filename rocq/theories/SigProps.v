(** Property theorems about the signals of a process the tool attaches to (C85). *)
From Verif Require Import Base SigModel SigSpec SigProofs.

(** Any number of attaches, routines and releases, at any time, interleaved in any
    way with the signals sent to the thread and taken by it: if the thread stopped
    for the tool only because of its attaches and because its routines had
    finished, and nobody used job control meanwhile, then the process cannot tell:
    the same signals are received in the same order as without the tool, and the
    same are pending.  Missing: other stops; see [C85_lost_refuted],
    [C85_timeout_refuted] and [C85_sigcont_refuted]. *)
Theorem C85_transparent_partial :
  forall l t t' log,
    at_work t -> run l t Idle = Some (t', Idle, log) ->
    no_job_control t log -> undisturbed log ->
    as_if_alone t log t'.
Proof.
  intros l t t' log (S & T & J & L) E N U.
  assert (R : rel t t Idle).
  { destruct t as [p st tr job lib]. cbn in S, T, J, L. subst. constructor. intros g I. apply N. left. exact I. }
  destruct (run_rel _ _ _ _ _ _ _ R E) as (l0 & o0 & t0 & N0 & R0 & V0 & RL).
  - intros g I. apply N. right. exact I.
  - exact U.
  - apply rel_idle in RL. subst t0. exists l0, o0. split; [exact N0|]. split; [exact R0|exact V0].
Qed.
Print Assumptions C85_transparent_partial.

(** Whatever happens, every signal is accounted for: of each kind, what was pending,
    sent, added by an attach (a SIGSTOP), raised by the end of a routine (a
    SIGTRAP) or given back is now pending, was received by the process, was told to
    the tool (and so is lost), was merged with a pending one, or was discarded by
    job control. *)
Theorem C85_accounting :
  forall l t ph t' ph' log g,
    run l t ph = Some (t', ph', log) ->
    occurs (fun x => x =? g) (k_pend t) + how_many O_sent g log + how_many O_back g log +
      (if SIGSTOP =? g then attaches log else 0) + (if SIGTRAP =? g then traps log else 0) =
    occurs (fun x => x =? g) (k_pend t') + how_many O_got g log + how_many O_report g log +
      how_many O_merged g log + how_many O_discarded g log.
Proof.
  intros l t ph t' ph' log g E. pose proof (run_net _ _ _ _ _ _ g E) as N. rewrite net_counts in N.
  unfold occ in N. lia.
Qed.
Print Assumptions C85_accounting.

(** A process that is stopped by job control stays so, receives nothing, and when
    SIGCONT is sent to it afterwards it continues as if the tool had not been. *)
Theorem C85_stopped_process :
  forall l t t' log,
    k_state t = JobStopped -> k_traced t = false -> k_job t = true -> k_lib t = false ->
    run l t Idle = Some (t', Idle, log) -> no_job_control t log -> undisturbed log ->
    (t' = dead \/ k_state t' = JobStopped) /\
    (t' <> dead -> exists t2 o, send SIGCONT t' = Some (t2, o) /\ as_if_alone t (log ++ o) t2).
Proof.
  intros l t t' log S T J L E N U.
  assert (R : rel2 t t Idle).
  { destruct t as [p st tr job lib]. cbn in S, T, J, L. subst. constructor; [intros g I; apply N; left; exact I|left; reflexivity]. }
  destruct (run_rel2 _ _ _ _ _ _ _ R E) as (l0 & o0 & t0 & N0 & R0 & V0 & RL).
  - intros g I. apply N. right. exact I.
  - exact U.
  - inversion RL; subst.
    + split; [right; reflexivity|]. intros _. destruct (cont_same p q H H0) as (o & o' & A & B & VO & VO').
      exists (mk_task (p ++ [SIGCONT]) Running false false false), o'. split; [exact B|].
      exists (l0 ++ [Send SIGCONT]), (o0 ++ o ++ []). split; [|split].
      * intros a I. apply in_app_or in I. destruct I as [I|[<-|[]]]; [exact (N0 a I)|left; eauto].
      * rewrite run_app, R0. cbn [run step]. rewrite A. reflexivity.
      * rewrite app_nil_r, !visible_app, V0, VO, VO'. reflexivity.
    + split; [left; reflexivity|]. intros X. exfalso. apply X. reflexivity.
Qed.
Print Assumptions C85_stopped_process.

(** *** Cases *)

Definition idle_task : task := mk_task [] Running false false false.
Definition stopped_task : task := mk_task [] JobStopped false true false.

(** One patch: attach, stop, routine, its end, release; SIGUSR1 and SIGTERM arrive
    while the thread is held and are received afterwards, in order. *)
Definition calm : list act :=
  [Tool; Take 19; Tool; Send 10; Tool; Enter; Trap; Tool; Send 15; Finish; Take 10; Take 15].
Example C85_case :
  at_work idle_task /\
  match run calm idle_task Idle with
  | Some (t', Idle, log) => t' = idle_task /\ no_job_control idle_task log /\ undisturbed log /\
      visible log = [O_sent 10; O_sent 15; O_got 10; O_got 15] /\ In O_released log /\ traps log = 1
  | _ => False
  end.
Proof.
  split; [repeat split|].
  assert (X : match run calm idle_task Idle with
    | Some (t', Idle, log) => t' = idle_task /\
        forallb (fun o => match o with O_sent g => negb (jc g) | _ => true end) log = true /\
        forallb (fun o => match o with O_report g => (g =? 19) || (g =? 5) | O_failed => false | _ => true end) log = true /\
        visible log = [O_sent 10; O_sent 15; O_got 10; O_got 15] /\ In O_released log /\ traps log = 1
    | _ => False end) by (vm_compute; intuition auto).
  destruct (run calm idle_task Idle) as [[[t' [| | | |]] log]|]; try contradiction.
  destruct X as (A & B & C & D). split; [exact A|]. split; [apply nj_check; [reflexivity|exact B]|]. split; [apply und_check; exact C|exact D].
Qed.

(** A stopped process that is looked at (as `ulp patches` does). *)
Example C85_stopped_case :
  match run [Tool; Tool; Send 10; Finish; Tool; Tool; Finish] stopped_task Idle with
  | Some (t', Idle, log) => k_pend t' = [19; 10] /\ k_state t' = JobStopped /\ undisturbed log /\
      match send SIGCONT t' with Some (t2, _) => t2 = mk_task [10; 18] Running false false false | None => False end
  | _ => False
  end.
Proof.
  cbn [run step]. cbv delta [stopped_task] beta. cbn. split; [reflexivity|]. split; [reflexivity|]. split; [apply und_check; reflexivity|reflexivity].
Qed.

(** *** What is not so *)

(** A signal that is taken between the attach and its SIGSTOP is lost: attach
    accepts any stop, and PTRACE_DETACH drops the signal.  The SIGSTOP is still
    pending then: the process stops after the tool has released it and reported
    success, although nobody stopped it.  This is so for every signal but those of
    job control and SIGKILL. *)
Theorem C85_lost_refuted :
  forall g, ~ job_control g -> g <> SIGKILL ->
  exists l t' log,
    run l idle_task Idle = Some (t', Idle, log) /\
    visible log = [O_sent g; O_got SIGSTOP] /\ In O_released log /\ ~ In O_failed log /\
    k_state t' = JobStopped /\ k_pend t' = [].
Proof.
  intros g N NK.
  assert (K : (g =? SIGKILL) = false) by (apply Z.eqb_neq; exact NK).
  assert (G19 : (g =? 19) = false) by (apply Z.eqb_neq; intros ->; apply N; unfold job_control; lia).
  assert (G19' : (19 =? g) = false) by (rewrite Z.eqb_sym; exact G19).
  exists [Tool; Send g; Take g; Tool; Finish; Take 19], (mk_task [] JobStopped false true false),
    [O_attach; O_sent g; O_report g; O_released; O_got SIGSTOP].
  split; [|split; [reflexivity|split; [cbn; tauto|split; [cbn; intuition discriminate|split; reflexivity]]]].
  cbn [run]. change (step Tool idle_task Idle) with (Some (mk_task [19] Running true false false, Waiting, [O_attach])). cbv iota beta.
  assert (S1 : step (Send g) (mk_task [19] Running true false false) Waiting =
    Some (mk_task [19; g] Running true false false, Waiting, [O_sent g])).
  { cbn [step]. unfold send. cbn [k_state]. rewrite K, (queue_clean _ _ _ _ _ N). cbn [existsb]. rewrite G19. cbn [orb].
    rewrite andb_false_r. reflexivity. }
  assert (S2 : step (Take g) (mk_task [19; g] Running true false false) Waiting =
    Some (mk_task [19] (Traced g) true false false, Waiting, [O_report g])).
  { cbn [step]. unfold take. cbn [k_pend existsb k_state k_traced k_job k_lib]. rewrite G19, Z.eqb_refl. cbn [orb negb].
    cbn [take_one]. rewrite G19', Z.eqb_refl. reflexivity. }
  rewrite S1, S2. reflexivity.
Qed.
Print Assumptions C85_lost_refuted.

(** The same while a routine runs: the tool takes the stop for the end of the
    routine, drops the signal, and releases the thread successfully although the
    routine was interrupted. *)
Theorem C85_interrupted_refuted :
  exists l t' log,
    run l idle_task Idle = Some (t', Idle, log) /\
    visible log = [O_sent 10] /\ In O_released log /\ starts log = 1 /\ traps log = 0 /\ k_pend t' = [].
Proof.
  exists [Tool; Take 19; Tool; Tool; Enter; Send 10; Take 10; Tool; Finish].
  do 2 eexists. split; [vm_compute; reflexivity|]. vm_compute. tauto.
Qed.
Print Assumptions C85_interrupted_refuted.

(** A routine that takes longer than the timeout: the process is killed by the
    breakpoint at the end of the routine, although nobody sent it a signal. *)
Theorem C85_timeout_refuted :
  exists l log, run l idle_task Idle = Some (dead, Idle, log) /\ visible log = [O_got SIGTRAP] /\ In O_failed log.
Proof.
  exists [Tool; Take 19; Tool; Tool; Enter; Timeout; Tool; Trap].
  eexists. split; [vm_compute; reflexivity|]. vm_compute. tauto.
Qed.
Print Assumptions C85_timeout_refuted.

(** A timeout that comes just when the thread has stopped does no harm: the thread
    is back in its program, untraced, with the signals it had pending, has
    received none, and the failure is reported. *)
Theorem C85_late_stop_released :
  forall t g, k_state t = Traced g ->
  exists t' log,
    run [Timeout; Tool] t Routine = Some (t', Idle, log) /\
    k_state t' = (if k_job t then JobStopped else Running) /\
    k_traced t' = false /\ k_lib t' = false /\ k_pend t' = k_pend t /\ k_job t' = k_job t /\
    log = [O_failed].
Proof.
  intros t g H. cbn [run step]. unfold timeout, restore, ptrace_setregs, ptrace_detach. rewrite H.
  cbn [k_state k_pend k_traced k_job k_lib tool tracer_gone].
  destruct (k_job t) eqn:Ej; do 2 eexists; (split; [reflexivity|]); cbn; auto 8.
Qed.
Print Assumptions C85_late_stop_released.

Example C85_late_stop_case :
  exists t log, run [Tool; Take 19; Tool; Tool; Enter; Send 10; Trap] idle_task Idle = Some (t, Routine, log) /\
    k_state t = Traced SIGTRAP /\ k_pend t = [10] /\ k_lib t = true.
Proof. do 2 eexists. split; [vm_compute; reflexivity|]. vm_compute. auto. Qed.

(** A pending SIGCONT is discarded by the attach: its handler does not run. *)
Theorem C85_sigcont_refuted :
  exists l t' log,
    run l idle_task Idle = Some (t', Idle, log) /\ undisturbed log /\
    visible log = [O_sent SIGCONT] /\ k_pend t' = [] /\ k_state t' = Running.
Proof.
  exists [Send 18; Tool; Take 19; Tool; Finish]. do 2 eexists. split; [vm_compute; reflexivity|].
  split; [apply und_check; reflexivity|vm_compute; auto].
Qed.
Print Assumptions C85_sigcont_refuted.

(** A process that is stopped by job control is never patched, however often the
    tool tries: the SIGSTOP of the attach stops the routine before its first
    instruction. *)
Theorem C85_stopped_unpatched_refuted :
  forall l t t' ph' log,
    k_state t = JobStopped -> k_traced t = false -> k_job t = true ->
    run l t Idle = Some (t', ph', log) ->
    ~ In (O_sent SIGCONT) log -> ~ In O_failed log -> one_start false log = true ->
    ~ In O_trap log.
Proof.
  intros l t t' ph' log S T J E NC NF OS. apply (run_stopped l t Idle false t' ph' log); auto. right. right. auto.
Qed.
Print Assumptions C85_stopped_unpatched_refuted.

(** Two attempts. *)
Example C85_stopped_unpatched_case :
  match run [Tool; Tool; Tool; Take 19; Tool; Finish; Tool; Tool; Tool; Take 19; Tool; Finish] stopped_task Idle with
  | Some (t', Idle, log) => t' = stopped_task /\ starts log = 2 /\ attaches log = 2 /\ one_start false log = true
  | _ => False
  end.
Proof. vm_compute. auto. Qed.
