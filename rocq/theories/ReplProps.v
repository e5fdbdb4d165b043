(** C87: replacing the livepatches of a library. *)
From Coq Require Import String Bool Lia.
From Verif Require Import Base BaseFacts InsnQModel MetaModel StrModel X86Model X86Spec DlModel HjModel TrModel
  LibModel LibSpec LibExample LibInv LibMem LibProps ReplModel ReplSpec ReplProofs.

(** C87, the part that holds.  Any process with a history of livepatching in which no writes are
    pending; the tool replaces the livepatches of the library [lib] by the one in
    [buf], retrying as often as it likes, the program running in between.  If the process is not
    in an error state afterwards (C07): when success is reported, calls go to the
    new patch first and else where they went without the old patches of the library,
    and these are the patches listed; when failure is reported, the process is as
    before, or the old patches of the library are gone.  Missing: that a failure
    leaves the old patches applied ([C87_replaced_by_nothing_refuted],
    [C87_not_loaded_refuted]). *)
Theorem C87_replace_partial :
  forall (F : list Z) (eb : Z -> bool) (m : mem) (stale : Z -> Z) (tr : list (event * Z)) (p : proc)
         (retries : nat) (lib buf : list Z) (vs : nat -> visit) (p' : proc) (r : Z),
    functions_ok F eb m -> clean_history F eb (fresh m stale) tr p -> no_pending p ->
    visits_ok F eb buf vs ->
    replace retries lib buf vs p = Some (p', r) -> s_err (p_lib p') = 0 ->
    let old := log_of tr in
    let rest := without_lib (lib_key lib) old in
    no_pending p' /\
    (r = 0 -> exists k md, parse_metadata_from_mem (v_junk (vs k)) buf = P_ok md /\
       let new := entry_of (v_env2 (vs k)) md :: rest in
       follows F eb p' new /\ reported p' = map en_id new) /\
    (r <> 0 -> (follows F eb p' old /\ reported p' = map en_id old) \/
               (follows F eb p' rest /\ reported p' = map en_id rest)).
Proof.
  intros F eb m stale tr p retries lib buf vs p' r HF C NP HV H E old rest. unfold replace in H.
  destruct (replace_loop _ _ _ _ _ _ _) as [[[q x] l]|] eqn:R; [|discriminate]. injection H as -> ->.
  destruct (loop_spec F eb m stale HF lib buf vs HV _ _ _ _ _ _ _ _ C (fun _ => NP) R (or_introl E))
    as (_ & tr' & C' & NP' & S).
  assert (FO : follows F eb p' (log_of tr')).
  { intros f Hf. apply (C01_calls_follow_newest_patch F eb m stale tr' p' HF C' E NP' f Hf). }
  assert (RE : reported p' = map en_id (log_of tr')).
  { destruct (history_corr _ _ _ _ (clean_is_history _ _ _ _ _ C') (or_introl E)) as [[G _] _]. apply pcorr_ids. exact G. }
  split; [exact NP'|]. split.
  - intros Z0. destruct S as [[_ S]|[[S _]|(_ & k & md & Hp & L)]].
    + exfalso. apply S; [discriminate|exact Z0].
    + contradiction.
    + exists k, md. split; [exact Hp|]. cbn zeta. unfold rest, old. rewrite <- L. auto.
  - intros N. destruct S as [[L _]|[[_ L]|[S _]]]; [left|right|contradiction]; unfold rest, old; rewrite <- L; auto.
Qed.
Print Assumptions C87_replace_partial.

(** The requests are made exactly as the retry loop of C39 makes them. *)
Theorem C87_is_trigger :
  forall (retries : nat) (lib buf : list Z) (vs : nat -> visit) (p p' : proc) (r : Z),
    replace retries lib buf vs p = Some (p', r) ->
    exists ans, fst (trigger_one_process (mk_treq true true false) (mk_tpre true true 0 0) ans retries) = r.
Proof.
  intros retries lib buf vs p p' r H. unfold replace in H.
  destruct (replace_loop _ _ _ _ _ _ _) as [[[q x] l]|] eqn:R; [|discriminate]. injection H as -> ->.
  exists (fun k => let a := nth k l (0, 0) in mk_attempt 0 0 (fst a) (snd a) 0).
  pose proof (loop_is_trigger _ _ _ _ _ _ _ _ _ _ R (fun k => let a := nth k l (0, 0) in mk_attempt 0 0 (fst a) (snd a) 0)
    (fun k => eq_refl)) as G.
  unfold trigger_one_process. cbn [p_compatible p_metadata p_load p_sanity q_patch negb andb Z.eqb].
  destruct (trigger_loop _ _ _ _ _) as [[y|y] evs]; cbn [fst] in G; [discriminate|]. injection G as ->.
  cbn [fst]. destruct (Z.eqb_spec r 0); congruence.
Qed.
Print Assumptions C87_is_trigger.

(** ** The example: a patch for libfoo and one for libbar are applied. *)
Definition P7 := w_patch 7 libbar [zs "b"] [] [].
Definition rp_events : list event := [ap 1 P1; ex; ap 7 P7; ex].
Definition free : visit := mk_visit (fun m => m) false w_env false w_env 0 0.
Definition busy_revert : visit := mk_visit (fun m => m) true w_env false w_env 0 0.
Definition w_env_nodl : dlenv :=
  mk_dlenv (e_prog w_env) (e_libs w_env) (e_libs2 w_env) (fun _ => 0) (e_dlsym w_env) (e_laddr w_env).
Definition no_dlopen : visit := mk_visit (fun m => m) false w_env false w_env_nodl 0 0.

Lemma rp_events_ok : Forall (fun ev => forall p, event_ok w_F (fun _ => false) p ev) rp_events.
Proof. unfold rp_events. repeat (apply Forall_cons; [w_ok|]). constructor. Qed.

Lemma w_visits_ok buf vs :
  (forall k, vs k = free \/ vs k = busy_revert \/ vs k = no_dlopen) ->
  match parse_metadata_from_mem 0 buf with
  | P_ok md => ok_repl w_env md && ok_repl w_env_nodl md && negb (md_type md =? 2)
  | _ => true
  end = true ->
  visits_ok w_F (fun _ => false) buf vs.
Proof.
  intros V Hb i.
  assert (X : v_run (vs i) = (fun m => m) /\ (v_env2 (vs i) = w_env \/ v_env2 (vs i) = w_env_nodl) /\ v_junk (vs i) = 0)
    by (destruct (V i) as [->|[->| ->]]; repeat split; auto).
  destruct X as (-> & X & ->). split; [intros; reflexivity|].
  split; [destruct X as [->| ->]; exact w_env_sane|]. intros md Hp.
  rewrite Hp in Hb. apply andb_prop in Hb. destruct Hb as [Hb H0]. apply andb_prop in Hb. destruct Hb as [Hb1 Hb2].
  split; [destruct (Z.eqb_spec (md_type md) 2); [discriminate|assumption]|].
  assert (Hb : ok_repl (v_env2 (vs i)) md = true) by (destruct X as [->| ->]; assumption). clear Hb1 Hb2 X.
  unfold ok_repl in Hb. apply andb_true_iff in Hb. destruct Hb as [Hb H3]. apply andb_true_iff in Hb. destruct Hb as [H1 H2]. split.
  - intros f g Hin. rewrite forallb_forall in H1. specialize (H1 _ Hin). cbn [fst] in H1.
    apply existsb_exists in H1. destruct H1 as (y & Hy & E). apply Z.eqb_eq in E. subst. exact Hy.
  - intros r pa x f Hr Ha Hx Hf Hw. rewrite forallb_forall in H2. specialize (H2 _ Hr).
    destruct Ha as [[Ha _]|[_ (base & Ha & Hpa)]]; [rewrite Ha in H2; discriminate|].
    rewrite Ha in H3. rewrite forallb_forall in H3. specialize (H3 _ Hr). rewrite forallb_forall in H3.
    specialize (H3 _ Hf). unfold in_window, body, slot in Hw. lia.
Qed.

(** What the tool reports, and the patches listed before and after. *)
Definition rp_test (buf : list Z) (vs : nat -> visit) (r : Z) (ids : list Z) (x : option (proc * list Z)) : bool :=
  match x with
  | Some (p, l) =>
      forallb (Z.eqb 0) l && Nat.eqb (List.length l) 4 && (s_err (p_lib p) =? 0) &&
      (q_num (s_q (p_lib p)) =? 0) && (q_size (s_q (p_lib p)) =? 0) &&
      match replace 10 libfoo buf vs p with
      | Some (p', r') => (r' =? r) && (s_err (p_lib p') =? 0) &&
                         bytes_eqb (map (fun id => nth 0 id 0) (reported p')) ids
      | None => false
      end
  | None => false
  end.

Definition rp_clean (x : option (proc * list Z)) : Prop :=
  forall p l, x = Some (p, l) -> clean_history w_F (fun _ => false) w_start (combine rp_events l) p.
Lemma rp_is_clean : rp_clean (run rp_events w_start).
Proof. intros p l E. apply run_clean; [exact rp_events_ok|exact E]. Qed.

Lemma rp_world buf vs r ids x : rp_test buf vs r ids x = true -> rp_clean x ->
  exists p p', clean_history w_F (fun _ => false) w_start (combine rp_events [0; 0; 0; 0]) p /\ no_pending p /\
    s_err (p_lib p) = 0 /\ replace 10 libfoo buf vs p = Some (p', r) /\ s_err (p_lib p') = 0 /\
    map (fun id => nth 0 id 0) (reported p') = ids.
Proof.
  intros T E. destruct x as [[p l]|]; [|discriminate T]. cbn [rp_test] in T.
  apply andb_prop in T. destruct T as [T T6]. apply andb_prop in T. destruct T as [T T5].
  apply andb_prop in T. destruct T as [T T4]. apply andb_prop in T. destruct T as [T T3].
  apply andb_prop in T. destruct T as [T1 T2].
  destruct (replace 10 libfoo buf vs p) as [[p' r']|] eqn:R; [|discriminate].
  apply andb_prop in T6. destruct T6 as [T6 T8]. apply andb_prop in T6. destruct T6 as [T6 T7].
  apply Z.eqb_eq in T3, T4, T5, T6, T7. apply bytes_eqb_eq in T8. subst r'. exists p, p'.
  assert (L : l = [0; 0; 0; 0]).
  { apply Nat.eqb_eq in T2. do 5 (destruct l as [|? l]; try discriminate). cbn [forallb] in T1.
    repeat match goal with H : _ && _ = true |- _ => apply andb_prop in H; destruct H as [?Q ?R] end.
    repeat match goal with H : (0 =? _) = true |- _ => apply Z.eqb_eq in H; rewrite <- H end. reflexivity. }
  split; [rewrite <- L; exact (E p l eq_refl)|].
  split; [split; assumption|]. split; [exact T3|]. split; [exact R|]. split; assumption.
Qed.

Lemma rp_log : map en_id (log_of (combine rp_events [0; 0; 0; 0])) = [repeat 7 32; repeat 1 32].
Proof. vm_compute. reflexivity. Qed.
Lemma rp_rest : map en_id (without_lib (lib_key libfoo) (log_of (combine rp_events [0; 0; 0; 0]))) = [repeat 7 32].
Proof. vm_compute. reflexivity. Qed.
Lemma rp_route : route (log_of (combine rp_events [0; 0; 0; 0])) w_f <> None.
Proof. vm_compute. discriminate. Qed.
Lemma rp_route_rest : route (without_lib (lib_key libfoo) (log_of (combine rp_events [0; 0; 0; 0]))) w_f = None.
Proof. vm_compute. reflexivity. Qed.

(** Patch 3 replaces patch 1; the process is busy at the first visit. *)
Lemma rp_ok : rp_test (w_buf 3 P3) (fun k => match k with O => busy_revert | _ => free end) 0 [3; 7] (run rp_events w_start) = true.
Proof. vm_compute. reflexivity. Qed.
Example C87_case :
  let vs := fun k => match k with O => busy_revert | _ => free end in
  functions_ok w_F (fun _ => false) w_mem /\ visits_ok w_F (fun _ => false) (w_buf 3 P3) vs /\
  exists p p', clean_history w_F (fun _ => false) w_start (combine rp_events [0; 0; 0; 0]) p /\ no_pending p /\
    s_err (p_lib p) = 0 /\ replace 10 libfoo (w_buf 3 P3) vs p = Some (p', 0) /\ s_err (p_lib p') = 0 /\
    map (fun id => nth 0 id 0) (reported p') = [3; 7].
Proof.
  split; [exact w_functions|]. split; [|exact (rp_world _ _ _ _ _ rp_ok rp_is_clean)].
  apply w_visits_ok; [intros [|k]; auto|vm_compute; reflexivity].
Qed.

(** ** Findings *)

Lemma rp_lost buf vs r : r <> 0 -> visits_ok w_F (fun _ => false) buf vs ->
  rp_test buf vs r [7] (run rp_events w_start) = true ->
  exists p p' g, clean_history w_F (fun _ => false) w_start (combine rp_events [0; 0; 0; 0]) p /\ no_pending p /\
    s_err (p_lib p) = 0 /\ replace 10 libfoo buf vs p = Some (p', r) /\ s_err (p_lib p') = 0 /\
    calls_go (p_mem p) false w_f (Some g) /\ calls_go (p_mem p') false w_f None.
Proof.
  intros N V T. destruct (rp_world _ _ _ _ _ T rp_is_clean) as (p & p' & C & NP & E & R & E' & L).
  pose proof (C01_calls_follow_newest_patch _ _ _ _ _ _ w_functions C E NP w_f (or_introl eq_refl)) as G.
  destruct (C87_replace_partial _ _ _ _ _ _ _ _ _ _ _ _ w_functions C NP V R E') as (_ & _ & X). specialize (X N).
  destruct (route (log_of (combine rp_events [0; 0; 0; 0])) w_f) as [g|] eqn:Eg; [|exfalso; exact (rp_route Eg)].
  exists p, p', g. split; [exact C|]. split; [exact NP|]. split; [exact E|]. split; [exact R|]. split; [exact E'|].
  split; [exact G|]. destruct X as [[_ X]|[X _]].
  - exfalso. rewrite X, rp_log in L. discriminate L.
  - specialize (X w_f (or_introl eq_refl)). rewrite rp_route_rest in X. exact X.
Qed.

(** The new patch depends on the one it replaces: libpulp refuses it, but only after the old one has
    been reverted; so a request that fails, and whose failure was certain, has removed
    the fix. *)
Lemma rp_dep : rp_test (w_buf 2 P2) (fun _ => free) EDEPEND [7] (run rp_events w_start) = true.
Proof. vm_compute. reflexivity. Qed.
Theorem C87_replaced_by_nothing_refuted :
  exists p p' g, clean_history w_F (fun _ => false) w_start (combine rp_events [0; 0; 0; 0]) p /\ no_pending p /\
    s_err (p_lib p) = 0 /\ replace 10 libfoo (w_buf 2 P2) (fun _ => free) p = Some (p', EDEPEND) /\ s_err (p_lib p') = 0 /\
    calls_go (p_mem p) false w_f (Some g) /\ calls_go (p_mem p') false w_f None.
Proof.
  apply rp_lost; [discriminate| |exact rp_dep]. apply w_visits_ok; [auto|vm_compute; reflexivity].
Qed.
Print Assumptions C87_replaced_by_nothing_refuted.

(** The dynamic linker cannot load the patch's container. *)
Lemma rp_dl : rp_test (w_buf 3 P3) (fun _ => no_dlopen) EDLOPEN [7] (run rp_events w_start) = true.
Proof. vm_compute. reflexivity. Qed.
Theorem C87_not_loaded_refuted :
  exists p p' g, clean_history w_F (fun _ => false) w_start (combine rp_events [0; 0; 0; 0]) p /\ no_pending p /\
    s_err (p_lib p) = 0 /\ replace 10 libfoo (w_buf 3 P3) (fun _ => no_dlopen) p = Some (p', EDLOPEN) /\ s_err (p_lib p') = 0 /\
    calls_go (p_mem p) false w_f (Some g) /\ calls_go (p_mem p') false w_f None.
Proof.
  apply rp_lost; [discriminate| |exact rp_dl]. apply w_visits_ok; [auto|vm_compute; reflexivity].
Qed.
Print Assumptions C87_not_loaded_refuted.
