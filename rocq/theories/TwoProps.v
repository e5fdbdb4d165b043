(** C91: several tools at the same time. *)
From Coq Require Import Bool Lia.
From Verif Require Import Base InsnQModel TrModel DlModel StrModel MetaModel LibModel ReplModel LibSpec LibProofs LibProps LibExample TwoModel TwoSpec TwoProofs.

(** At any time at most one tool is at work on the process. *)
Theorem C91_one_at_a_time : forall main threads p0 l w i j,
  Forall (starts_ok main threads) l -> acts threads l (quiet p0) = Some w ->
  is_inside w i -> is_inside w j -> i = j.
Proof.
  intros main threads p0 l w i j Hl E. destruct (reach main threads p0 l _ w Hl (owned_quiet main threads p0) (serially_quiet p0) E) as [O _].
  eapply one_inside; eauto.
Qed.
Print Assumptions C91_one_at_a_time.

(** Whatever the schedule: when nobody is at work, the process is as if the visits had been
    made one after the other, in the order in which they ended, with the same answers. *)
Theorem C91_as_if_serial : forall main threads p0 l w,
  Forall (starts_ok main threads) l -> acts threads l (quiet p0) = Some w -> at_rest w ->
  serial p0 (w_log w) (w_proc w).
Proof.
  intros main threads p0 l w Hl E R. destruct (reach main threads p0 l _ w Hl (owned_quiet main threads p0) (serially_quiet p0) E) as [_ (p1 & S & _ & Q)].
  rewrite <- (Q R). exact S.
Qed.
Print Assumptions C91_as_if_serial.

(** A tool is only refused while another one holds the process, and then it has stopped
    nothing: a tool that has got the first thread gets them all. *)
Theorem C91_first_come : forall main threads p0 l w i s t todo held w',
  Forall (starts_ok main threads) l -> Forall (main_first main) l -> acts threads l (quiet p0) = Some w ->
  w_phase w i = Scanning s (t :: todo) held -> act threads (AAttach i) w = Some w' ->
  (exists h, w_phase w' i = Scanning s todo h /\ In t h) \/
  (held = [] /\ w_phase w' i = Leaving [] /\ exists j, j <> i /\ w_tracer w main = Some j).
Proof.
  intros main threads p0 l w i s t todo held w' Hl Hm E Ei A.
  destruct (reach main threads p0 l _ w Hl (owned_quiet main threads p0) (serially_quiet p0) E) as [O _].
  assert (ML : forall k, main_last main (w_phase w k)).
  { apply (reach_main main threads l (quiet p0) w Hm); [intros k; exact I|exact E]. }
  cbn [act] in A. rewrite Ei in A. destruct (existsb (Z.eqb t) held) eqn:Et.
  { injection A as <-. left. exists held. cbn [w_phase]. rewrite set_same. split; [reflexivity|]. apply existsb_in. exact Et. }
  destruct (w_tracer w t) as [j|] eqn:Tt; injection A as <-; cbn [w_phase]; rewrite set_same.
  2: { left. exists (t :: held). split; [reflexivity|left; reflexivity]. }
  right. assert (Nt : ~ In t held) by (rewrite <- existsb_in; congruence).
  assert (Nj : j <> i).
  { intros ->. apply Nt. apply (ow_tracer main threads w O) in Tt. rewrite Ei in Tt. exact Tt. }
  assert (Mj : w_tracer w main = Some j).
  { apply (ow_tracer main threads w O) in Tt. apply (ow_tracer main threads w O). pose proof (ML j) as X.
    destruct (w_phase w j) as [|s' td h|s' h a|h]; cbn [held_of main_last] in *.
    - destruct Tt.
    - destruct X as [(-> & _)|[h' ->]]; [destruct Tt|apply in_or_app; right; left; reflexivity].
    - destruct X as [h' ->]. apply in_or_app; right; left; reflexivity.
    - destruct X as [->|[h' ->]]; [destruct Tt|apply in_or_app; right; left; reflexivity]. }
  assert (H0 : held = []).
  { pose proof (ML i) as X. rewrite Ei in X. cbn [main_last] in X. destruct X as [(X & _)|[h' X]]; [exact X|].
    exfalso. apply Nj. assert (Y : w_tracer w main = Some i); [|congruence].
    apply (ow_tracer main threads w O). rewrite Ei. cbn [held_of]. rewrite X. apply in_or_app; right; left; reflexivity. }
  rewrite H0. eauto.
Qed.
Print Assumptions C91_first_come.

(** What was done by all tools together is a history in the sense of C01: calls go to the
    newest patch, whichever tool applied it. *)
Theorem C91_calls_follow_newest_patch : forall F eb m stale threads l w,
  functions_ok F eb m -> acts threads l (quiet (fresh m stale)) = Some w ->
  (forall tr1 ev ans tr2 p, w_trace w = tr1 ++ (ev, ans) :: tr2 -> history (fresh m stale) tr1 p -> event_ok F eb p ev) ->
  s_err (p_lib (w_proc w)) = 0 -> no_pending (w_proc w) ->
  forall f, In f F -> calls_go (p_mem (w_proc w)) (eb f) f (route (log_of (w_trace w)) f).
Proof.
  intros F eb m stale threads l w HF E Hok He Hn.
  pose proof (reach_trace threads (fresh m stale) l (quiet (fresh m stale)) w (hist_start _) E) as H.
  assert (C : forall tr p, history (fresh m stale) tr p ->
    (forall tr1 ev ans tr2 q, tr = tr1 ++ (ev, ans) :: tr2 -> history (fresh m stale) tr1 q -> event_ok F eb q ev) ->
    clean_history F eb (fresh m stale) tr p).
  { clear. induction 1 as [|tr p ev p' ans H IH D]; intros Hok; [constructor|].
    eapply clean_step; [apply IH|eapply Hok; [reflexivity|exact H]|exact D].
    intros tr1 ev1 ans1 tr2 q -> Hq. eapply (Hok tr1 ev1 ans1 (tr2 ++ [(ev, ans)]) q); [rewrite <- app_assoc; reflexivity|exact Hq]. }
  apply (C01_calls_follow_newest_patch F eb m stale (w_trace w) (w_proc w)); auto.
Qed.
Print Assumptions C91_calls_follow_newest_patch.

(** A visit alone is what the tool does: applying a patch, replacing the patches of a library. *)
Theorem C91_visit_is_apply : forall threads te rax busy e junk buf p ans p',
  session_run (apply_session threads te rax busy e junk buf) [] p ans p' ->
  exists r, tool_apply_patch te rax busy e junk buf p = Some (p', r) /\
    match ans with
    | [a] => not_run rax a = true /\ r = EHOOKNOTRUN
    | [a; x] => r = merged a x
    | _ => False
    end.
Proof. exact apply_visit. Qed.
Print Assumptions C91_visit_is_apply.
Theorem C91_visit_is_replace : forall threads lib buf v p ans p',
  session_run (replace_session threads lib buf v) [] p ans p' ->
  exists r stop answers, replace_attempt lib buf v p = Some (p', r, stop, answers).
Proof. exact replace_visit. Qed.
Print Assumptions C91_visit_is_replace.

(** *** Three tools at one process *)

Definition tw_threads : list Z := [100; 101; 102].
Definition tw_apply (k : Z) (p : pmeta) : session := apply_session (tw_threads ++ tw_threads) env_ok 0 false w_env 0 (w_buf k p).
(** The first tool gets in, the second is refused and comes again, a third one looks. *)
Definition tw_actions : list action :=
  [AStart 0 (tw_apply 1 P1); AStart 1 (tw_apply 3 P3); AAttach 0; AAttach 1; AAttach 0; AProgram w_mem; ADetach 1; AAttach 0; AAttach 0;
   AStart 1 (tw_apply 3 P3); AAttach 0; AAttach 0; AEnter 0; ARun 0; AAttach 1; ADetach 1; ARun 0; ARun 0; ADetach 0; ADetach 0; ADetach 0;
   AStart 2 (look 100); AAttach 2; AEnter 2; ARun 2; ADetach 2; ADetach 2; ADetach 0;
   AStart 1 (tw_apply 3 P3)] ++ repeat (AAttach 1) 6 ++ [AEnter 1; ARun 1; ARun 1; ARun 1; ADetach 1; ADetach 1; ADetach 1; ADetach 1].

Definition tw_ok (w : world) : bool :=
  (match map snd (w_log w) with
   | [Refused; Refused; Finished [0; 0]; Finished []; Finished [0; 0]] => true
   | _ => false
   end) &&
  (match map (fun e => fst (fst e)) (w_log w) with [1; 1; 0; 2; 1]%nat => true | _ => false end) &&
  (match w_phase w 0, w_phase w 1, w_phase w 2 with Idle, Idle, Idle => true | _, _, _ => false end) &&
  (match reported (w_proc w) with [a; b] => bytes_eqb a (repeat 3 32) && bytes_eqb b (repeat 1 32) | _ => false end).

Example C91_case :
  Forall (starts_ok 100 tw_threads) tw_actions /\ Forall (main_first 100) tw_actions /\
  (match acts tw_threads tw_actions (quiet w_start) with Some w => tw_ok w = true | None => False end).
Proof.
  assert (A : forall k p, stops 100 tw_threads (tw_apply k p)).
  { intros k p. split; [left; reflexivity|]. intros _ x X. cbn [tw_apply apply_session se_threads]. apply in_or_app. left. exact X. }
  assert (B : stops 100 tw_threads (look 100)).
  { split; [left; reflexivity|]. intros X. exfalso. apply X. reflexivity. }
  split; [|split].
  - unfold tw_actions. apply Forall_app. split; [|apply Forall_app; split];
      repeat (apply Forall_cons; [cbn [starts_ok]; first [exact I|apply A|exact B]|]); apply Forall_nil.
  - unfold tw_actions. apply Forall_app. split; [|apply Forall_app; split];
      repeat (apply Forall_cons; [cbn [main_first]; first [exact I|eexists; reflexivity]|]); apply Forall_nil.
  - vm_compute. reflexivity.
Qed.

(** In this world calls of f go where the tool that came last wants them. *)
Definition tw_actions2 : list action := filter (fun a => match a with AProgram _ => false | _ => true end) tw_actions.
Example C91_calls_case : exists w,
  acts tw_threads tw_actions2 (quiet w_start) = Some w /\ functions_ok w_F (fun _ => false) w_mem /\
  (forall tr1 ev ans tr2 p, w_trace w = tr1 ++ (ev, ans) :: tr2 -> history w_start tr1 p -> event_ok w_F (fun _ => false) p ev) /\
  s_err (p_lib (w_proc w)) = 0 /\ no_pending (w_proc w) /\ route (log_of (w_trace w)) w_f = Some 3146240.
Proof.
  destruct (acts tw_threads tw_actions2 (quiet w_start)) as [w|] eqn:E.
  2: { exfalso. assert (X : (match acts tw_threads tw_actions2 (quiet w_start) with None => true | _ => false end) = false) by (vm_compute; reflexivity).
       rewrite E in X. discriminate. }
  exists w. split; [reflexivity|]. split; [exact w_functions|].
  assert (X : (match acts tw_threads tw_actions2 (quiet w_start) with
    | Some w => (s_err (p_lib (w_proc w)) =? 0) && (q_num (s_q (p_lib (w_proc w))) =? 0) && (q_size (s_q (p_lib (w_proc w))) =? 0) &&
        (match route (log_of (w_trace w)) w_f with Some x => x =? 3146240 | None => false end)
    | None => false end) = true) by (vm_compute; reflexivity).
  rewrite E in X. apply andb_prop in X. destruct X as [X R]. apply andb_prop in X. destruct X as [X X3]. apply andb_prop in X. destruct X as [X1 X2].
  assert (T : Forall (fun e => forall p, event_ok w_F (fun _ => false) p (fst e)) (w_trace w)).
  { refine (from_acts tw_threads (fun ev => forall p, event_ok w_F (fun _ => false) p ev) tw_actions2 (quiet w_start) w _ _ _ E); [|intros i; exact I|constructor].
    assert (A1 : action_sends (fun ev => forall p, event_ok w_F (fun _ => false) p ev) (AStart 0 (tw_apply 1 P1))).
    { intros acc ev N. cbn [tw_apply apply_session se_next] in N. destruct acc as [|a [|b acc]]; [injection N as <-; w_ok| |discriminate].
      destruct (not_run 0 a); [discriminate|]. injection N as <-. w_ok. }
    assert (A3 : action_sends (fun ev => forall p, event_ok w_F (fun _ => false) p ev) (AStart 1 (tw_apply 3 P3))).
    { intros acc ev N. cbn [tw_apply apply_session se_next] in N. destruct acc as [|a [|b acc]]; [injection N as <-; w_ok| |discriminate].
      destruct (not_run 0 a); [discriminate|]. injection N as <-. w_ok. }
    unfold tw_actions2, tw_actions. cbn [filter app repeat].
    repeat (apply Forall_cons; [first [exact A1|exact A3|exact I|intros acc ev N; discriminate]|]). apply Forall_nil. }
  split. { intros tr1 ev ans tr2 p Et _. rewrite Et in T. apply Forall_app in T. destruct T as [_ T]. inversion T as [|? ? T1 T2]; subst. apply T1. }
  clear E T. split; [apply Z.eqb_eq; exact X1|]. split; [split; apply Z.eqb_eq; assumption|].
  destruct (route (log_of (w_trace w)) w_f) as [x|]; [|discriminate]. apply Z.eqb_eq in R. congruence.
Qed.

(** *** The main thread has to come first *)

(** Otherwise two tools can keep each other out, and both give up. *)
Theorem C91_order_needed : exists main threads p0 l w s1 s2,
  Forall (starts_ok main threads) l /\ acts threads l (quiet p0) = Some w /\ at_rest w /\
  w_log w = [(0%nat, s1, Refused); (1%nat, s2, Refused)] /\
  (forall a i s, In a l -> a = AStart i s -> s = s1 \/ s = s2).
Proof.
  pose (s1 := mk_ses [100; 101] (se_next (tw_apply 1 P1))). pose (s2 := mk_ses [101; 100] (se_next (tw_apply 3 P3))).
  exists 100, [100; 101], w_start, [AStart 0 s1; AStart 1 s2; AAttach 0; AAttach 1; AAttach 0; AAttach 1].
  eexists. exists s1, s2. split; [|split; [|split; [|split]]].
  - assert (X : forall s, (s = s1 \/ s = s2) -> stops 100 [100; 101] s).
    { intros s [-> | ->]; (split; [cbn; auto|intros _ x X; cbn in *; tauto]). }
    apply Forall_cons; [apply X; auto|]. apply Forall_cons; [apply X; auto|]. repeat (apply Forall_cons; [exact I|]). apply Forall_nil.
  - cbv -[s1 s2 w_start w_env w_buf tw_apply P1 P3 env_ok]. reflexivity.
  - intros i. unfold is_inside. cbn [w_phase]. destruct i as [|[|i]]; cbn; auto.
  - reflexivity.
  - intros a i s Ia ->. destruct Ia as [X|[X|[X|[X|[X|[X|[]]]]]]]; try discriminate; injection X as <- <-; auto.
Qed.
Print Assumptions C91_order_needed.
