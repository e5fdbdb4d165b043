(** C102: forks. *)
From Coq Require Import String.
From Verif Require Import Base BaseFacts InsnQModel InsnQSpec MetaModel StrModel X86Model X86Spec DlModel
  LibModel LibSpec LibProofs LibInv LibMem LibExample LibProps FrkModel FrkSpec.

Lemma nth_set {A} i (x : A) l j : nth_error (set_at i x l) j = if Nat.eqb j i then match nth_error l j with Some _ => Some x | None => None end else nth_error l j.
Proof.
  revert l j. induction i as [|i IH]; intros [|y l] [|j]; cbn [set_at nth_error Nat.eqb]; try reflexivity; [destruct (Nat.eqb j i); reflexivity|].
  apply IH.
Qed.
Lemma len_set {A} i (x : A) l : List.length (set_at i x l) = List.length l.
Proof. revert l. induction i as [|i IH]; intros [|y l]; cbn [set_at List.length]; auto. Qed.
Lemma nth_snoc {A} (l : list A) x j : nth_error (l ++ [x]) j = if Nat.eqb j (List.length l) then Some x else nth_error l j.
Proof.
  destruct (Nat.eqb_spec j (List.length l)) as [->|N]; [rewrite nth_error_app2 by lia; rewrite Nat.sub_diag; reflexivity|].
  destruct (Nat.lt_ge_cases j (List.length l)); [apply nth_error_app1; lia|].
  rewrite nth_error_app2 by lia. replace (nth_error l j) with (@None A) by (symmetry; apply nth_error_None; lia).
  destruct (j - List.length l)%nat as [|[|k]] eqn:E; [lia|reflexivity|reflexivity].
Qed.
Lemma lives_snoc first tr x : lives first (tr ++ [x]) = life_step (lives first tr) x.
Proof. unfold lives. apply fold_left_app. Qed.

(** What is kept for every live process: [Q] of its life and its state. *)
Definition all_live (Q : lifeline -> proc -> Prop) (ls : list lifeline) (s : system) : Prop :=
  List.length ls = List.length s /\ forall j p, nth_error s j = Some (Some p) -> exists l, nth_error ls j = Some l /\ Q l p.

Lemma step_live Q ev s s' ans ls :
  all_live Q ls s -> sys_step ev s = Some (s', ans) ->
  (forall i e p p' l, ev = SEvent i e -> nth_error s i = Some (Some p) -> nth_error ls i = Some l -> Q l p -> do_event e p = Some (p', ans) ->
     Q (mk_life (l_mem l) (l_stale l) (l_trace l ++ [(e, ans)])) p') ->
  (forall i m stale, ev = SExec i m stale -> Q (mk_life m stale []) (fresh m stale)) ->
  all_live Q (life_step ls (ev, ans)) s'.
Proof.
  intros [HL HQ] HS HE HX. destruct ev as [i e|i|i m stale|i]; cbn [sys_step life_step] in *;
    (destruct (nth_error s i) as [[p|]|] eqn:EN; try discriminate); destruct (HQ _ _ EN) as (l & E1 & E2).
  - destruct (do_event e p) as [[p' a]|] eqn:ED; [|discriminate]. injection HS as <- <-. rewrite E1. split; [rewrite !len_set; exact HL|].
    intros j q. rewrite !nth_set. destruct (Nat.eqb_spec j i) as [->|N]; [|apply HQ]. rewrite EN, E1. intros G. injection G as <-. eexists. split; [reflexivity|]. eauto.
  - injection HS as <- <-. rewrite E1. split; [rewrite !app_length, HL; reflexivity|]. intros j q. rewrite !nth_snoc, HL.
    destruct (Nat.eqb j (List.length s)); [|apply HQ]. intros G. injection G as <-. eauto.
  - injection HS as <- <-. split; [rewrite !len_set; exact HL|]. intros j q. rewrite !nth_set. destruct (Nat.eqb_spec j i) as [->|N]; [|apply HQ].
    rewrite EN, E1. intros G. injection G as <-. eexists. split; [reflexivity|]. eauto.
  - injection HS as <- <-. split; [rewrite len_set; exact HL|]. intros j q. rewrite nth_set. destruct (Nat.eqb_spec j i) as [->|N]; [|apply HQ].
    rewrite EN. discriminate.
Qed.

(** Every process of the system is in a state that a single process reaches through the events of its life: those of its ancestors up to the forks (since the
    last exec), then its own. So everything proved of [history] (C01-C04, C07, C09-C14) holds of every process, with that life. *)
Theorem C102_every_process_has_one_life : forall first tr s j p,
  sys_history [Some (fresh (l_mem first) (l_stale first))] tr s -> l_trace first = [] -> nth_error s j = Some (Some p) ->
  exists l, life first tr j = Some l /\ history (fresh (l_mem l) (l_stale l)) (l_trace l) p.
Proof.
  intros first tr s j p H H0. cut (all_live (fun l p => history (fresh (l_mem l) (l_stale l)) (l_trace l) p) (lives first tr) s); [intros [_ A]; apply A|].
  induction H as [|tr s ev s' ans H IH E].
  - split; [reflexivity|]. intros [|[|k]] q; cbn; try discriminate. intros G. injection G as <-. exists first. split; [reflexivity|]. rewrite H0. constructor.
  - rewrite lives_snoc. eapply step_live; [exact IH|exact E| |].
    + intros i e q q' l _ _ _ Q D. cbn [l_mem l_stale l_trace]. econstructor; eauto.
    + intros i m stale _. constructor.
Qed.
Print Assumptions C102_every_process_has_one_life.

(** In every process, calls go where the newest patch of its life, still applied in that life, says. *)
Theorem C102_calls_follow_the_life : forall F eb first tr s j p,
  clean_sys F eb first tr s -> l_trace first = [] -> nth_error s j = Some (Some p) -> s_err (p_lib p) = 0 -> no_pending p ->
  exists l, life first tr j = Some l /\
    (forall f, In f (F (l_mem l)) -> calls_go (p_mem p) (eb (l_mem l) f) f (route (log_of (l_trace l)) f)) /\
    reported p = map en_id (log_of (l_trace l)).
Proof.
  intros F eb first tr s j p H H0 HN HE HP.
  assert (A : all_live (fun l p => functions_ok (F (l_mem l)) (eb (l_mem l)) (l_mem l) /\
                clean_history (F (l_mem l)) (eb (l_mem l)) (fresh (l_mem l) (l_stale l)) (l_trace l) p) (lives first tr) s).
  { clear HN HE HP. induction H as [FO|tr s ev s' ans H IH E C].
    - split; [reflexivity|]. intros [|[|k]] q; cbn; try discriminate. intros G. injection G as <-. exists first. split; [reflexivity|]. rewrite H0. split; [exact FO|constructor].
    - rewrite lives_snoc. eapply step_live; [exact IH|exact E| |].
      + intros i e q q' l -> N1 N2 [Q1 Q2] D. cbn [l_mem l_stale l_trace]. split; [exact Q1|]. econstructor; [exact Q2| |exact D]. eapply C; [exact N1|exact N2].
      + intros i m stale ->. cbn [l_mem l_stale l_trace]. split; [exact C|constructor]. }
  destruct A as [_ A]. destruct (A _ _ HN) as (l & L1 & L2 & L3). exists l. split; [exact L1|]. split.
  - intros f I. eapply C01_calls_follow_newest_patch; eauto.
  - assert (L4 : history (fresh (l_mem l) (l_stale l)) (l_trace l) p) by (clear -L3; induction L3; econstructor; eauto).
    destruct (history_corr _ _ _ _ L4 (or_introl HE)) as [[C _] _]. apply (pcorr_ids _ _ C).
Qed.
Print Assumptions C102_calls_follow_the_life.

(** A child starts as its parent is, code and records alike, and has the next index. *)
Theorem C102_child_starts_as_parent : forall i s s' ans p,
  sys_step (SFork i) s = Some (s', ans) -> nth_error s i = Some (Some p) ->
  ans = zlen s /\ nth_error s' i = Some (Some p) /\ nth_error s' (List.length s) = Some (Some p).
Proof.
  intros i s s' ans p H E. cbn [sys_step] in H. rewrite E in H. injection H as <- <-. split; [reflexivity|]. rewrite !nth_snoc, Nat.eqb_refl. split; [|reflexivity].
  destruct (Nat.eqb_spec i (List.length s)) as [->|N]; [reflexivity|exact E].
Qed.
Print Assumptions C102_child_starts_as_parent.

(** Nothing that happens to one process changes another: not the parent's requests the child, nor the child's the parent. *)
Theorem C102_independent : forall ev s s' ans j q,
  sys_step ev s = Some (s', ans) -> nth_error s j = Some q -> j <> about ev -> nth_error s' j = Some q.
Proof.
  intros ev s s' ans j q H E N. destruct ev as [i e|i|i m stale|i]; cbn [sys_step about] in *;
    (destruct (nth_error s i) as [[p|]|] eqn:EN; try discriminate).
  - destruct (do_event e p) as [[p' a]|]; [|discriminate]. injection H as <- <-. rewrite nth_set. destruct (Nat.eqb_spec j i); [contradiction|exact E].
  - injection H as <- <-. rewrite nth_snoc. assert (j < List.length s)%nat by (apply nth_error_Some; congruence). destruct (Nat.eqb_spec j (List.length s)); [lia|exact E].
  - injection H as <- <-. rewrite nth_set. destruct (Nat.eqb_spec j i); [contradiction|exact E].
  - injection H as <- <-. rewrite nth_set. destruct (Nat.eqb_spec j i); [contradiction|exact E].
Qed.
Print Assumptions C102_independent.

(** A process that executes a program has no livepatch left, whatever was applied before. *)
Theorem C102_exec_starts_again : forall i m stale s s' ans,
  sys_step (SExec i m stale) s = Some (s', ans) -> exists p, nth_error s' i = Some (Some p) /\ reported p = [] /\ s_err (p_lib p) = 0 /\ no_pending p /\ p_mem p = m.
Proof.
  intros i m stale s s' ans H. cbn [sys_step] in H. destruct (nth_error s i) as [[p|]|] eqn:E; try discriminate. injection H as <- <-.
  exists (fresh m stale). rewrite nth_set, Nat.eqb_refl, E. repeat split.
Qed.
Print Assumptions C102_exec_starts_again.

(** Process 0 applies patch 1 and forks; the child (1) gets patch 3 and reverts 1; the parent is asked to revert 1 as well, forks again (2), and 2 executes
    the program anew. *)
Definition f_events : list sys_event :=
  [SEvent 0 (ap 1 P1); SEvent 0 ex; SFork 0; SEvent 1 (ap 3 P3); SEvent 1 ex; SEvent 1 (rv 1 P1); SEvent 1 ex; SFork 0; SExec 2 w_mem (fun _ => 0); SExit 0].
Fixpoint sys_run (evs : list sys_event) (s : system) : option (system * list Z) :=
  match evs with
  | [] => Some (s, [])
  | ev :: t => match sys_step ev s with
               | None => None
               | Some (s1, a) => match sys_run t s1 with None => None | Some (s2, l) => Some (s2, a :: l) end
               end
  end.
Definition f_first : lifeline := mk_life w_mem (fun _ => 0) [].
Example C102_case :
  match sys_run f_events [Some w_start] with
  | Some ([None; Some p1; Some p2], l) =>
      l = [0; 0; 1; 0; 0; 0; 0; 2; 0; 0] /\ s_err (p_lib p1) = 0 /\ q_num (s_q (p_lib p1)) = 0 /\ reported p1 = [repeat 3 32] /\ reported p2 = [] /\
      match life f_first (combine f_events l) 1 with Some l1 => route (log_of (l_trace l1)) w_f = Some 3146240 | None => False end
  | _ => False
  end.
Proof. vm_compute. auto 10. Qed.

Lemma sys_run_clean F eb first evs tr0 s0 s l :
  clean_sys (fun _ => F) (fun _ => eb) first tr0 s0 ->
  Forall (fun ev => match ev with SEvent _ e => forall p, event_ok F eb p e | SExec _ m _ => functions_ok F eb m | _ => True end) evs ->
  sys_run evs s0 = Some (s, l) -> clean_sys (fun _ => F) (fun _ => eb) first (tr0 ++ combine evs l) s.
Proof.
  intros H HF. revert tr0 s0 l H. induction HF as [|ev t Hev HF IH]; intros tr0 s0 l H R; cbn [sys_run] in R.
  - injection R as <- <-. cbn [combine]. rewrite app_nil_r. exact H.
  - destruct (sys_step ev s0) as [[s1 a]|] eqn:E; [|discriminate]. destruct (sys_run t s1) as [[s2 l2]|] eqn:E2; [|discriminate]. injection R as <- <-.
    cbn [combine]. change ((ev, a) :: combine t l2) with ([(ev, a)] ++ combine t l2). rewrite app_assoc. apply IH with (s0 := s1); [|exact E2].
    econstructor; [exact H|exact E|]. destruct ev; auto.
Qed.
(** The hypotheses of C102_calls_follow_the_life are met by that system. *)
Example C102_calls_case : exists s l, clean_sys (fun _ => w_F) (fun _ _ => false) f_first (combine f_events l) s /\ l = [0; 0; 1; 0; 0; 0; 0; 2; 0; 0].
Proof.
  destruct (sys_run f_events [Some w_start]) as [[s l]|] eqn:E.
  2:{ exfalso. assert (X : match sys_run f_events [Some w_start] with None => true | _ => false end = false) by (vm_compute; reflexivity). rewrite E in X. discriminate X. }
  exists s, l. split.
  - apply (sys_run_clean w_F (fun _ => false) f_first f_events [] [Some w_start]); [constructor; exact w_functions| |exact E].
    unfold f_events. repeat (apply Forall_cons; [first [exact I|exact w_functions|w_ok]|]). constructor.
  - assert (X : match sys_run f_events [Some w_start] with Some (_, l) => l | None => [] end = [0; 0; 1; 0; 0; 0; 0; 2; 0; 0]) by (vm_compute; reflexivity).
    rewrite E in X. exact X.
Qed.
