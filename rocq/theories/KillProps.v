(** C86: the tool dies while it patches a process. *)
From Coq Require Import String Bool Lia.
From Verif Require Import Base BaseFacts InsnQModel MetaModel StrModel DlModel LibModel LibSpec LibExample LibProps
  SigModel TrModel ReplModel KillModel KillSpec KillProofs.

(** C86, the part that holds.  A process with the threads [found], which run their
    program; the tool serves the requests [reqs] in it (reverting, applying, or one
    after the other in one critical section) and dies after any number [n] of its
    actions.  Then the process has ended; or its main thread is lost: it never gets
    back to its program; or every thread is in its own program, and libpulp and all of the
    memory are as before or as if the tool had finished.  So no program ever runs with half
    of a livepatch.  Missing: that the process goes on
    ([C86_killed_refuted], [C86_stopped_refuted]). *)
Theorem C86_all_or_nothing_partial :
  forall (main : Z) (found : list Z) (reqs : list request) (p p' : proc) (acts : list tact) (n : nat),
    NoDup found -> In main found ->
    attempt_acts reqs p = Some (acts, p') ->
    let w := after_death main found acts p n in
    ended w \/
    (exists t, In (main, t) (w_threads w) /\ lost t) \/
    (in_own_program w /\ (same_proc (w_proc w) p \/ same_proc (w_proc w) p')).
Proof.
  intros main found reqs p p' acts n ND I A w.
  apply (point_death main found p p'); [exact I|].
  apply (script_run main found p p' I ND reqs acts A).
Qed.
Print Assumptions C86_all_or_nothing_partial.

(** What the tool does, action by action, is what the requests do: when it dies
    after its last action, all threads run undisturbed and the process is as
    the operations of the tool (C01-C16) leave it. *)
Theorem C86_complete :
  forall (main : Z) (found : list Z) (reqs : list request) (p p' : proc) (acts : list tact) (n : nat),
    NoDup found -> In main found ->
    attempt_acts reqs p = Some (acts, p') ->
    (List.length (script found acts) <= n)%nat ->
    exists q, same_proc q p' /\ after_death main found acts p n = before found q.
Proof.
  intros main found reqs p p' acts n ND I A L. unfold after_death. rewrite firstn_all2 by exact L.
  destruct (script_run main found p p' I ND reqs acts A) as (_ & q & E & ->). exists q. split; [exact E|].
  unfold tool_dies, before. cbn [w_threads w_proc]. rewrite map_map. cbn [fst snd].
  change (gone at_ease) with at_ease.
  assert (X : forall f : task -> bool, f at_ease = false ->
    existsb (fun p0 : Z * task => f (snd p0)) (map (fun x => (x, at_ease)) found) = false).
  { intros f F. apply not_true_iff_false. intros H. apply existsb_exists in H. destruct H as (y & Y & D).
    apply in_map_iff in Y. destruct Y as (x & <- & _). cbn [snd] in D. congruence. }
  rewrite (X is_dead eq_refl), (X k_job eq_refl). reflexivity.
Qed.
Print Assumptions C86_complete.

(** Alone, a request leaves what the tool's operation leaves. *)
Theorem C86_single_request :
  forall (r : request) (p p' : proc) (acts : list tact),
    attempt_acts [r] p = Some (acts, p') -> exists ans, serve r p = Some (p', ans).
Proof.
  intros r p p' acts H. cbn [attempt_acts] in H. destruct (request_acts r p); [|discriminate].
  destruct (serve r p) as [[p1 ans]|]; [|discriminate]. exists ans.
  destruct r; destruct (_ =? 0) in H; injection H as _ <-; reflexivity.
Qed.
Print Assumptions C86_single_request.

(** Dying while it attaches, the tool leaves libpulp and the memory untouched;
    and SIGCONT makes every thread as it was. *)
Theorem C86_attaching :
  forall (main : Z) (found : list Z) (acts : list tact) (p : proc) (n : nat),
    (n <= List.length found)%nat ->
    let w := after_death main found acts p n in
    w_proc w = p /\
    forall tid t, In (tid, t) (w_threads w) ->
      t = at_ease \/ exists log, run [Send SIGCONT; Take SIGCONT] t Idle = Some (at_ease, Idle, log).
Proof.
  intros main found acts p n L w. unfold w, after_death.
  destruct (attach_prefix main found acts n p L) as (st & -> & C).
  destruct (calm_death found st p C) as [E T]. split; [exact E|]. intros tid t H.
  destruct (T _ H) as [X|X]; cbn [snd] in X; rewrite X; [left; reflexivity|]. right. eexists. vm_compute. reflexivity.
Qed.
Print Assumptions C86_attaching.

(** Two threads; the livepatches of a library are replaced by a new one. *)
Definition kill_reqs : list request := [R_revert false w_env libfoo; R_apply 7 false w_env 0 (w_buf 3 P3)].
Definition kill_single : list request := [R_apply 7 false w_env 0 (w_buf 3 P3)].

Definition kill_test (o : option (list tact * proc)) : bool :=
  match o with
  | Some (a, p') => Nat.eqb (List.length a) 24 && forallb (bytes_eqb (repeat 3 32)) (reported p') &&
                    Nat.eqb (List.length (reported p')) 1
  | None => false
  end.
Lemma kill_test_ok o : kill_test o = true ->
  exists acts p', o = Some (acts, p') /\ List.length acts = 24%nat /\ reported p' = [repeat 3 32].
Proof.
  destruct o as [[a p']|]; cbn [kill_test]; [|discriminate]. intros X. exists a, p'. split; [reflexivity|].
  apply andb_prop in X. destruct X as [X X3]. apply andb_prop in X. destruct X as [X1 X2].
  apply Nat.eqb_eq in X1, X3. split; [exact X1|].
  destruct (reported p') as [|i [|? ?]]; try discriminate. cbn [forallb] in X2. rewrite andb_true_r in X2.
  apply bytes_eqb_eq in X2. rewrite <- X2. reflexivity.
Qed.
Lemma kill_acts_ok : kill_test (attempt_acts kill_reqs w_start) = true.
Proof. vm_compute. reflexivity. Qed.
Lemma kill_acts : exists acts p', attempt_acts kill_reqs w_start = Some (acts, p') /\
  List.length acts = 24%nat /\ reported p' = [repeat 3 32].
Proof. exact (kill_test_ok _ kill_acts_ok). Qed.

Example C86_case :
  exists acts p', NoDup [100; 101] /\ In 100 [100; 101] /\ attempt_acts kill_reqs w_start = Some (acts, p') /\
    List.length (script [100; 101] acts) = 30%nat /\ reported w_start = [] /\ reported p' = [repeat 3 32].
Proof.
  destruct kill_acts as (acts & p' & A & L & R). exists acts, p'.
  split; [repeat constructor; cbn; intuition discriminate|]. split; [left; reflexivity|]. split; [exact A|].
  split; [|split; [reflexivity|exact R]]. unfold script. rewrite !app_length, L. reflexivity.
Qed.

(** ** Findings *)

Definition on_acts (f : list tact -> bool) (o : option (list tact * proc)) : bool :=
  match o with Some (a, _) => f a | None => false end.
Lemma on_acts_some f o acts p' : on_acts f o = true -> o = Some (acts, p') -> f acts = true.
Proof. intros H ->. exact H. Qed.
Lemma on_acts_ex f o : on_acts f o = true -> exists acts p', o = Some (acts, p') /\ f acts = true.
Proof. destruct o as [[a p']|]; [|discriminate]. intros H. exists a, p'. split; [reflexivity|exact H]. Qed.
Lemma dead_state t : is_dead t = true -> k_state t = Dead.
Proof. unfold is_dead. destruct (k_state t); try discriminate. reflexivity. Qed.

Definition all_dead (n : nat) (p : proc) (a : list tact) : bool :=
  forallb (fun x => is_dead (snd x)) (w_threads (after_death 100 [100; 101] a p n)).
Lemma all_dead_ended n p a : all_dead n p a = true -> ended (after_death 100 [100; 101] a p n).
Proof.
  unfold all_dead, ended. intros X. rewrite forallb_forall in X. intros x I. apply dead_state, X, I.
Qed.
Lemma kill_5 : on_acts (all_dead 5 w_start) (attempt_acts kill_reqs w_start) = true.
Proof. vm_compute. reflexivity. Qed.

(** Killing the tool (or pressing ^C) after the routine of libpulp has returned
    kills the process, although the livepatch would have been applied. *)
Theorem C86_killed_refuted :
  exists acts p' n, attempt_acts kill_reqs w_start = Some (acts, p') /\ reported p' = [repeat 3 32] /\
    ended (after_death 100 [100; 101] acts w_start n).
Proof.
  destruct kill_acts as (acts & p' & A & _ & R). exists acts, p', 5%nat. split; [exact A|]. split; [exact R|].
  apply all_dead_ended. exact (on_acts_some _ _ _ _ kill_5 A).
Qed.
Print Assumptions C86_killed_refuted.

Definition hit (n : nat) (p : proc) (a : list tact) : bool :=
  existsb (fun x => (fst x =? 100) && (is_dead (snd x) || k_lib (snd x))) (w_threads (after_death 100 [100; 101] a p n)).
Lemma hit_ok n p a : hit n p a = true ->
  exists t, In (100, t) (w_threads (after_death 100 [100; 101] a p n)) /\ (k_state t = Dead \/ k_lib t = true).
Proof.
  unfold hit. intros X. apply existsb_exists in X. destruct X as ([tid t] & I & E). cbn [fst snd] in E.
  apply andb_prop in E. destruct E as [E1 E2]. apply Z.eqb_eq in E1. subst tid. exists t. split; [exact I|].
  apply orb_prop in E2. destruct E2 as [E2|E2]; [left; apply dead_state, E2|right; exact E2].
Qed.
Lemma kill_between : on_acts (fun a => forallb (fun n => hit n w_start a) (seq 4 26)) (attempt_acts kill_reqs w_start) = true.
Proof. vm_compute. reflexivity. Qed.

(** In the example this is so at every point from the start of the first routine
    until the tool has detached from the main thread: the process is ended or the main
    thread does not go on with its program. *)
Theorem C86_no_survivor_refuted :
  exists acts p', attempt_acts kill_reqs w_start = Some (acts, p') /\
    forall n, (4 <= n < 4 + 26)%nat ->
      exists t, In (100, t) (w_threads (after_death 100 [100; 101] acts w_start n)) /\
        (k_state t = Dead \/ k_lib t = true).
Proof.
  destruct kill_acts as (acts & p' & A & _ & R). exists acts, p'. split; [exact A|].
  pose proof (on_acts_some _ _ _ _ kill_between A) as X. rewrite forallb_forall in X. intros n N. apply hit_ok, X.
  apply in_seq. exact N.
Qed.
Print Assumptions C86_no_survivor_refuted.

Definition all_stopped (n : nat) (p : proc) (a : list tact) : bool :=
  forallb (fun x => match k_state (snd x) with JobStopped => true | _ => false end)
    (w_threads (after_death 100 [100; 101] a p n)).
Lemma kill_1 : on_acts (all_stopped 1 w_start) (attempt_acts kill_single w_start) = true.
Proof. vm_compute. reflexivity. Qed.

(** Killed while it attaches, the tool leaves the process stopped: it goes on
    only if somebody sends SIGCONT. *)
Theorem C86_stopped_refuted :
  exists acts p', attempt_acts kill_single w_start = Some (acts, p') /\
    forall tid t, In (tid, t) (w_threads (after_death 100 [100; 101] acts w_start 1)) -> k_state t = JobStopped.
Proof.
  destruct (on_acts_ex _ _ kill_1) as (acts & p' & A & X). exists acts, p'. split; [exact A|].
  unfold all_stopped in X. rewrite forallb_forall in X. intros tid t I. specialize (X _ I). cbn [snd] in X.
  clear - X. destruct (k_state t); try discriminate. reflexivity.
Qed.
Print Assumptions C86_stopped_refuted.

(** The actions are those of an attempt of `ulp trigger --revert-all` (C87): the
    process they end in is the one the attempt ends in, so nothing is applied
    after reverting failed. *)
Theorem C86_attempt_is_replace :
  forall (v : visit) (name buf : list Z) (p p' : proc) (acts : list tact),
    attempt_acts [R_revert (v_busy1 v) (v_env1 v) name; R_apply (v_rax v) (v_busy2 v) (v_env2 v) (v_junk v) buf] p
      = Some (acts, p') ->
    exists r stop answers, replace_attempt name buf v p = Some (p', r, stop, answers).
Proof.
  intros v name buf p p' acts H. unfold replace_attempt. cbn [attempt_acts] in H.
  destruct (request_acts (R_revert _ _ _) p) as [a1|]; [|discriminate]. cbn [serve] in H.
  destruct (tool_revert_patches_from_lib _ _ _ _ _ _) as [[p1 r0]|]; [|discriminate].
  destruct (((r0 =? ENOTARGETLIB) || (r0 =? ENOPATCH))%bool) eqn:E.
  - cbn [Z.eqb negb] in *.
    destruct (request_acts (R_apply _ _ _ _ _) p1) as [a2|]; [|discriminate]. 
    destruct (tool_apply_patch _ _ _ _ _ _ _) as [[p2 a]|]; [|discriminate].
    destruct (a =? 0); injection H as _ <-; eauto.
  - destruct (r0 =? 0); cbn [negb].
    + destruct (request_acts (R_apply _ _ _ _ _) p1) as [a2|]; [|discriminate].
      destruct (tool_apply_patch _ _ _ _ _ _ _) as [[p2 a]|]; [|discriminate].
      destruct (a =? 0); injection H as _ <-; eauto.
    + injection H as _ <-. eauto.
Qed.
Print Assumptions C86_attempt_is_replace.
