(** Invariants of the patch list over histories, and its correspondence with the
    abstract log. *)
From Verif Require Import Base BaseFacts InsnQModel InsnQSpec InsnQProofs MetaModel StrModel
  X86Model X86Spec X86Proofs DlModel LibModel LibSpec LibProofs.

(** ** Outcomes of the entry points *)

Lemma set_err_id st : set_err st (s_err st) = st.
Proof. destruct st; reflexivity. Qed.

Definition q_empty (q : insnq) : Prop := q_num q <= 0 /\ q_size q <= 0.

Lemma ensure_emptiness_cases q err :
  (insnq_ensure_emptiness q err = (1, EINSNQ) /\ ~ q_empty q) \/
  (insnq_ensure_emptiness q err = (0, err) /\ q_empty q).
Proof.
  unfold insnq_ensure_emptiness, q_empty.
  destruct (Z.gtb_spec (q_num q) 0); destruct (Z.gtb_spec (q_size q) 0); cbn [orb];
    (left; split; [reflexivity|lia]) || (right; split; [reflexivity|lia]).
Qed.

(** Common gate of both entry points (lib/ulp.c:152-166 and 187-201). *)
Inductive gate (busy : bool) (st : lstate) : lstate -> Z -> Prop :=
| gate_err : s_err st <> 0 -> gate busy st st (s_err st)
| gate_queue : s_err st = 0 -> ~ q_empty (s_q st) -> gate busy st (set_err st EINSNQ) EINSNQ
| gate_busy : s_err st = 0 -> q_empty (s_q st) -> busy = true -> gate busy st st EAGAIN.

Lemma apply_outcome busy e m junk buf st st' ans :
  ulp_apply_patch busy e m junk buf st = Some (st', ans) ->
  gate busy st st' ans \/
  (s_err st = 0 /\ q_empty (s_q st) /\ busy = false /\ load_outcome e m junk buf st st' ans).
Proof.
  unfold ulp_apply_patch, ENONE. destruct (Z.eqb_spec (s_err st) 0) as [E|E]; cbn [negb].
  2:{ intros H. injection H as <- <-. left. constructor. exact E. }
  destruct (ensure_emptiness_cases (s_q st) (s_err st)) as [[-> Hq]|[-> Hq]].
  - cbn [negb Z.eqb]. intros H. injection H as <- <-. left. apply gate_queue; auto.
  - cbn [negb Z.eqb]. rewrite set_err_id. destruct busy.
    + intros H. injection H as <- <-. left. apply gate_busy; auto.
    + intros H. right. repeat split; auto; try (apply Hq). apply load_patch_outcome. exact H.
Qed.

(** A sequence of permitted single reversals. *)
Inductive revert_chain (m : mem) : lstate -> list (list Z) -> lstate -> Prop :=
| rc_nil st : revert_chain m st [] st
| rc_cons st id ids st1 st2 :
    ulp_can_revert_patch st id = 0 -> ulp_revert_patch m id st = (st1, 0) ->
    revert_chain m st1 ids st2 -> revert_chain m st (id :: ids) st2.

Definition lib_match (base : list Z) (p : apatch) : bool := strncmp_eq base (a_lib p) ULP_PATH_LEN.

Lemma can_revert_success m id st :
  ulp_can_revert_patch st id = 0 -> exists st1, ulp_revert_patch m id st = (st1, 0).
Proof.
  intros H. apply can_revert_iff in H. destruct H as [H _].
  destruct (ulp_revert_patch m id st) as [st1 r] eqn:E. exists st1. f_equal.
  apply revert_patch_lists in E. destruct E as (_ & _ & [E|E] & _ & E5); auto.
  destruct E5 as [_ E5]; [rewrite E; discriminate|]. apply state_remove_none in E5. contradiction.
Qed.

Lemma revert_all_loop_chain fuel m base todo ret st st' ret' b :
  revert_all_loop fuel m base todo ret st = Some (st', ret', b) ->
  b = false /\ revert_chain m st (map a_id (filter (lib_match base) todo)) st' /\
  ret' = if existsb (lib_match base) todo then 0 else ret.
Proof.
  revert todo ret st; induction fuel as [|fuel IH]; intros todo ret st H;
    destruct todo as [|p next]; cbn [revert_all_loop] in H;
    try discriminate; try (injection H as <- <- <-; repeat split; constructor).
  fold (lib_match base p) in H. cbn [filter existsb].
  destruct (lib_match base p) eqn:El.
  - destruct (Z.eqb_spec (ulp_can_revert_patch st (a_id p)) 0) as [E|E]; cbn [negb] in H.
    + destruct (can_revert_success m _ _ E) as [st1 E1]. rewrite E1 in H. cbn [negb Z.eqb] in H.
      apply IH in H. destruct H as (H1 & H2 & H3). split; [exact H1|]. split.
      * cbn [map]. eapply rc_cons; eauto.
      * rewrite H3. cbn [orb]. destruct (existsb _ next); reflexivity.
    + apply IH in H. destruct H as (H1 & H2 & H3). split; [exact H1|].
      cbn [filter] in H2. rewrite El in H2. cbn [map] in H2. inversion H2; subst. contradiction.
  - apply IH in H. exact H.
Qed.

Lemma revert_all_outcome fuel busy e m name st st' ans :
  ulp_revert_patches_from_lib fuel busy e m name st = Some (st', ans) ->
  gate busy st st' ans \/
  (s_err st = 0 /\ q_empty (s_q st) /\ busy = false /\
   ((st' = st /\ ans = EOVERFLOW) \/
    (existsb (lib_match (get_basename name)) (s_patches st) = false /\ st' = st /\
     ans = if get_loaded_library_base_addr (e_prog e) (e_libs e) (get_basename name) =? 255
           then ENOTARGETLIB else ENOPATCH) \/
    (existsb (lib_match (get_basename name)) (s_patches st) = true /\ ans = 0 /\
     revert_chain m st (map a_id (filter (lib_match (get_basename name)) (s_patches st))) st'))).
Proof.
  unfold ulp_revert_patches_from_lib, ENONE. destruct (Z.eqb_spec (s_err st) 0) as [E|E]; cbn [negb].
  2:{ intros H. injection H as <- <-. left. constructor. exact E. }
  destruct (ensure_emptiness_cases (s_q st) (s_err st)) as [[-> Hq]|[-> Hq]].
  - cbn [negb Z.eqb]. intros H. injection H as <- <-. left. apply gate_queue; auto.
  - cbn [negb Z.eqb]. rewrite set_err_id. destruct busy.
    + intros H. injection H as <- <-. left. apply gate_busy; auto.
    + intros H. right. repeat split; auto; try (apply Hq).
      unfold revert_all_patches_from_lib in H.
      destruct (_ <=? _); [injection H as <- <-; left; auto|]. right.
      destruct (revert_all_loop _ _ _ _ _ _) as [[[st1 r] b]|] eqn:El; [|discriminate].
      apply revert_all_loop_chain in El. destruct El as (-> & Hc & Hr).
      destruct (existsb (lib_match (get_basename name)) (s_patches st)) eqn:Ex.
      * right. subst r. cbn in H. injection H as <- <-. auto.
      * left. subst r. rewrite Z.eqb_refl in H. cbn [andb] in H.
        assert (G : filter (lib_match (get_basename name)) (s_patches st) = []).
        { clear -Ex. induction (s_patches st) as [|p t IH]; [reflexivity|]. cbn [existsb filter] in *.
          apply orb_false_iff in Ex. destruct Ex as [-> Ex]. auto. }
        rewrite G in Hc. inversion Hc; subst.
        destruct (_ =? 255); cbn [negb] in H; injection H as <- <-; auto.
Qed.

(** ** Unconditional list invariant *)

Lemma chain_linv m st ids st' : revert_chain m st ids st' -> linv st -> linv st'.
Proof.
  induction 1 as [|st id ids st1 st2 H1 H2 H3 IH]; auto.
  intros H. apply IH. eapply revert_patch_linv; eauto. apply can_revert_iff in H1. tauto.
Qed.

Lemma load_linv e m junk buf st st' ans :
  load_outcome e m junk buf st st' ans -> linv st -> linv st'.
Proof.
  intros H Hi. destruct H as [ans Ha|md st' ans Hp Ht Hc Hr|md st1 st2 ans Hp Ht Hb Hd Ha Hh Hu Hx]; auto.
  - eapply revert_patch_linv; eauto. apply can_revert_iff in Hc. tauto.
  - apply state_update_some in Hu. destruct Hu as (us & _ & ->).
    apply apply_all_lists in Hx. destruct Hx as (X1 & X2 & X3 & _).
    cbn [set_patches s_patches s_roots] in *.
    destruct Hi as [A B C].
    assert (G : linv st2).
    { constructor.
      - rewrite X1. cbn [map a_id]. constructor; auto.
        intros Hin. apply get_applied_iff in Hin. congruence.
      - rewrite X1. cbn [deps_older a_deps]. split; auto.
        apply check_deps_iff in Hd. rewrite Forall_forall in *. intros d Hin. apply Hd. apply in_rev. exact Hin.
      - apply X3. exact C. }
    destruct (ans =? 0); auto. eapply linv_ext; [| |exact G]; reflexivity.
Qed.

Lemma gate_linv busy st st' ans : gate busy st st' ans -> linv st -> linv st'.
Proof. intros []; auto. apply linv_ext; reflexivity. Qed.

Lemma event_linv ev p p' ans :
  do_event ev p = Some (p', ans) -> linv (p_lib p) -> linv (p_lib p').
Proof.
  intros H Hi. destruct ev as [busy e junk buf|busy e name| |te|m']; cbn [do_event] in H.
  - destruct (ulp_apply_patch _ _ _ _ _ _) as [[st a]|] eqn:E; [|discriminate]. injection H as <- <-. cbn.
    apply apply_outcome in E. destruct E as [E|(_ & _ & _ & E)]; [eapply gate_linv; eauto|eapply load_linv; eauto].
  - destruct (ulp_revert_patches_from_lib _ _ _ _ _ _) as [[st a]|] eqn:E; [|discriminate]. injection H as <- <-. cbn.
    apply revert_all_outcome in E.
    destruct E as [E|(_ & _ & _ & [(-> & _)|[(_ & -> & _)|(_ & _ & E)]])]; auto.
    + eapply gate_linv; eauto.
    + eapply chain_linv; eauto.
  - injection H as <- <-. cbn. unfold ENONE.
    destruct (_ =? 0); [|destruct (_ =? EUSRBLOCKED)]; auto; eapply linv_ext; try exact Hi; reflexivity.
  - destruct (insnq_interpret_from_process _ _ _ _) as [[[r q] t]|]; [|discriminate]. injection H as <- <-.
    eapply linv_ext; try exact Hi; reflexivity.
  - injection H as <- <-. exact Hi.
Qed.

Lemma fresh_linv m stale : linv (p_lib (fresh m stale)).
Proof. constructor; cbn; auto; constructor. Qed.

Lemma history_linv m stale tr p : history (fresh m stale) tr p -> linv (p_lib p).
Proof.
  induction 1 as [|tr p ev p' ans H IH E]; [apply fresh_linv|]. eapply event_linv; eauto.
Qed.

(** ** Correspondence with the log *)

Definition pcorr (a : apatch) (en : entry) : Prop :=
  a_id a = en_id en /\ a_lib a = en_lib en /\ a_deps a = rev (en_deps en) /\
  map (fun u => (au_patched u, au_target u)) (a_units a) = en_repl en.

Definition entry_at (a : Z) (en : entry) : list (list Z * Z) :=
  map (fun p => (en_id en, snd p)) (rev (filter (fun p => fst p =? a) (en_repl en))).

Definition corr (st : lstate) (L : list entry) : Prop :=
  Forall2 pcorr (s_patches st) L /\
  (forall a, active_at (s_roots st) a = flat_map (entry_at a) L).

Definition keep (id : list Z) {B} (x : list Z * B) : bool := negb (bytes_eqb (fst x) id).

Lemma filter_all {A} (f : A -> bool) l : (forall x, In x l -> f x = true) -> filter f l = l.
Proof.
  induction l as [|x l IH]; intros H; [reflexivity|]. cbn [filter].
  rewrite (H x (or_introl eq_refl)). f_equal. apply IH. intros y Hy. apply H. right. exact Hy.
Qed.

Lemma filter_none {A} (f : A -> bool) l : (forall x, In x l -> f x = false) -> filter f l = [].
Proof.
  induction l as [|x l IH]; intros H; [reflexivity|]. cbn [filter].
  rewrite (H x (or_introl eq_refl)). apply IH. intros y Hy. apply H. right. exact Hy.
Qed.

Lemma entry_at_ids a en x : In x (entry_at a en) -> fst x = en_id en.
Proof. unfold entry_at. rewrite in_map_iff. intros (p & <- & _). reflexivity. Qed.

Lemma flat_map_without id a L :
  flat_map (entry_at a) (without_id id L) = filter (keep id) (flat_map (entry_at a) L).
Proof.
  induction L as [|en L IH]; [reflexivity|]. cbn [without_id filter flat_map]. rewrite filter_app.
  fold (without_id id L). destruct (bytes_eqb (en_id en) id) eqn:E; cbn [negb].
  - rewrite IH. rewrite (filter_none (keep id) (entry_at a en)); [reflexivity|].
    intros x Hx. apply entry_at_ids in Hx. unfold keep. rewrite Hx, E. reflexivity.
  - cbn [flat_map]. rewrite IH. f_equal. symmetry. apply filter_all.
    intros x Hx. apply entry_at_ids in Hx. unfold keep. rewrite Hx, E. reflexivity.
Qed.

Lemma active_drop id ds :
  map (fun d => (d_pid d, d_target d)) (filter d_active (map (drop_id id) ds)) =
  filter (keep id) (map (fun d => (d_pid d, d_target d)) (filter d_active ds)).
Proof.
  induction ds as [|d ds IH]; [reflexivity|]. cbn [map filter].
  assert (Hd : drop_id id d = if bytes_eqb (d_pid d) id then deactivate d else d) by reflexivity.
  rewrite Hd. clear Hd. destruct (bytes_eqb (d_pid d) id) eqn:E.
  - cbn [deactivate d_active filter]. destruct (d_active d); [|exact IH].
    cbn [map filter]. unfold keep at 1. cbn [fst]. rewrite E. exact IH.
  - destruct (d_active d); [|exact IH]. cbn [map filter]. unfold keep at 1. cbn [fst]. rewrite E.
    cbn [negb]. rewrite IH. reflexivity.
Qed.

Lemma pcorr_ids ps L : Forall2 pcorr ps L -> map a_id ps = map en_id L.
Proof. induction 1 as [|p en ps L H1 H2 IH]; cbn; [reflexivity|]. destruct H1 as [-> _]. congruence. Qed.

Lemma remove_corr id ps ps' L :
  NoDup (map a_id ps) -> Forall2 pcorr ps L -> state_remove id ps = Some ps' ->
  Forall2 pcorr ps' (without_id id L).
Proof.
  intros Hn Hc. revert ps' Hn. induction Hc as [|p en ps L H1 H2 IH]; intros ps' Hn Hr; [discriminate|].
  cbn [state_remove] in Hr. cbn [without_id filter].
  destruct H1 as (E1 & E2 & E3 & E4). rewrite <- E1.
  cbn [map] in Hn. apply NoDup_cons_iff in Hn. destruct Hn as [Hn1 Hn2].
  destruct (bytes_eqb (a_id p) id) eqn:E; cbn [negb].
  - injection Hr as <-. apply bytes_eqb_eq in E. fold (without_id id L).
    replace (without_id id L) with L; [exact H2|]. symmetry. apply filter_all.
    intros x Hx. apply negb_true_iff, bytes_eqb_neq. intros Ex. apply Hn1. rewrite E.
    rewrite (pcorr_ids _ _ H2). rewrite <- Ex. apply in_map. exact Hx.
  - fold (without_id id L). destruct (state_remove id ps) as [t'|] eqn:Et; [|discriminate].
    injection Hr as <-. constructor; [repeat split; auto|]. apply IH; auto.
Qed.

Lemma revert_corr m id st st' L :
  linv st -> corr st L -> ulp_revert_patch m id st = (st', 0) -> corr st' (without_id id L).
Proof.
  intros Hi [C1 C2] H. apply revert_patch_lists in H. destruct H as (_ & H2 & _ & H4 & _).
  specialize (H4 eq_refl). split.
  - eapply remove_corr; eauto. apply li_ids. exact Hi.
  - intros a. rewrite H2. unfold active_at. rewrite detours_at_drop, active_drop.
    fold (active_at (s_roots st) a). rewrite C2, flat_map_without. reflexivity.
Qed.

Lemma chain_corr m st ids st' L :
  revert_chain m st ids st' -> linv st -> corr st L -> corr st' (fold_left (fun l id => without_id id l) ids L).
Proof.
  intros H. revert L. induction H as [|st id ids st1 st2 H1 H2 H3 IH]; intros L Hi Hc; [exact Hc|].
  cbn [fold_left]. apply IH.
  - eapply revert_patch_linv; eauto. apply can_revert_iff in H1. tauto.
  - eapply revert_corr; eauto.
Qed.

Lemma fold_without ids L :
  fold_left (fun l id => without_id id l) ids L =
  filter (fun en => negb (existsb (fun id => bytes_eqb (en_id en) id) ids)) L.
Proof.
  revert L; induction ids as [|id ids IH]; intros L.
  - cbn. symmetry. apply filter_all. reflexivity.
  - cbn [fold_left]. rewrite IH. unfold without_id. clear IH.
    induction L as [|en L IH]; [reflexivity|]. cbn [filter existsb].
    destruct (bytes_eqb (en_id en) id) eqn:E; cbn [negb orb filter]; [exact IH|].
    destruct (existsb _ ids); cbn [negb]; [exact IH|]. rewrite IH. reflexivity.
Qed.

Lemma firstn_firstn_same {A} n (l : list A) : firstn n (firstn n l) = firstn n l.
Proof. rewrite firstn_firstn, Nat.min_id. reflexivity. Qed.

Lemma map_filter_corr (f : apatch -> bool) (g : entry -> bool) ps L :
  Forall2 pcorr ps L -> Forall2 (fun p en => f p = g en) ps L ->
  map a_id (filter f ps) = map en_id (filter g L) /\ existsb f ps = existsb g L.
Proof.
  induction 1 as [|p en ps L H1 H2 IH]; intros H; [split; reflexivity|].
  inversion H as [|? ? ? ? E1 E2]; subst. cbn [filter existsb]. rewrite E1.
  destruct (IH E2) as [G1 G2]. destruct (g en).
  - cbn. destruct H1 as [-> _]. split; congruence.
  - split; auto.
Qed.

(** Patches store their library name already cut to 256 characters. *)
Definition libs_cut (L : list entry) : Prop := Forall (fun en => firstn 256 (en_lib en) = en_lib en) L.

Lemma lib_match_corr name ps L :
  Forall2 pcorr ps L -> libs_cut L ->
  Forall2 (fun p en => lib_match (get_basename name) p = bytes_eqb (en_lib en) (lib_key name)) ps L.
Proof.
  unfold libs_cut. intros H0. induction H0 as [|p en ps L H1 H2 IH]; intros H; constructor.
  - apply Forall_inv in H. destruct H1 as (_ & E & _). unfold lib_match, strncmp_eq, ULP_PATH_LEN.
    change (Z.to_nat 256) with 256%nat. rewrite E, H. fold (lib_key name).
    destruct (bytes_eqb (en_lib en) (lib_key name)) eqn:B.
    + apply bytes_eqb_eq in B. rewrite B. apply bytes_eqb_refl.
    + apply bytes_eqb_neq in B. apply bytes_eqb_neq. congruence.
  - apply IH. apply Forall_inv_tail in H. exact H.
Qed.

Lemma without_lib_eq key L :
  NoDup (map en_id L) ->
  filter (fun en => negb (existsb (fun id => bytes_eqb (en_id en) id)
           (map en_id (filter (fun en => bytes_eqb (en_lib en) key) L)))) L = without_lib key L.
Proof.
  intros Hn. unfold without_lib. apply filter_ext_in. intros en Hin. f_equal.
  destruct (bytes_eqb (en_lib en) key) eqn:E.
  - apply existsb_exists. exists (en_id en). split; [|apply bytes_eqb_refl].
    apply in_map. apply filter_In. auto.
  - apply not_true_is_false. intros H. apply existsb_exists in H. destruct H as (id & H1 & H2).
    apply bytes_eqb_eq in H2. apply in_map_iff in H1. destruct H1 as (en2 & H1 & H3).
    apply filter_In in H3. destruct H3 as [H3 H4].
    assert (en2 = en); [|congruence].
    assert (Heq : en_id en2 = en_id en) by congruence.
    clear -Hn Hin Heq H3. induction L as [|x L IH]; [destruct Hin|].
    cbn [map] in Hn. apply NoDup_cons_iff in Hn. destruct Hn as [N1 N2].
    destruct Hin as [->|Hin]; destruct H3 as [->|H3]; auto.
    + exfalso. apply N1. rewrite <- Heq. apply in_map. exact H3.
    + exfalso. apply N1. rewrite Heq. apply in_map. exact Hin.
Qed.

Definition alive (st : lstate) : Prop := s_err st = 0 \/ s_err st = EUSRBLOCKED.

Lemma libs_cut_filter f L : libs_cut L -> libs_cut (filter f L).
Proof.
  unfold libs_cut. rewrite !Forall_forall. intros H x Hx. apply filter_In in Hx. apply H. tauto.
Qed.

Lemma new_detours_active id u a pairs rest :
  map (fun d => (d_pid d, d_target d)) (filter d_active (new_detours id u a pairs ++ rest)) =
  map (fun p => (id, snd p)) (rev (filter (fun p => fst p =? a) pairs)) ++
  map (fun d => (d_pid d, d_target d)) (filter d_active rest).
Proof.
  unfold new_detours. rewrite filter_app, map_app. f_equal.
  induction (rev (filter (fun p => fst p =? a) pairs)) as [|x l IH]; [reflexivity|]. cbn. f_equal. exact IH.
Qed.

Lemma replacements_pairs e md :
  replacements e md = unit_pairs e (get_basename (md_name md)) (e_dlopen e (md_so md)) (md_units md).
Proof. reflexivity. Qed.

Lemma load_corr e m junk buf st st' ans L busy :
  load_outcome e m junk buf st st' ans -> linv st -> corr st L -> libs_cut L ->
  alive st' ->
  corr st' (log_step L (EvApply busy e junk buf, ans)) /\
  libs_cut (log_step L (EvApply busy e junk buf, ans)).
Proof.
  intros H Hi Hc Hl Hal. cbn [log_step].
  destruct H as [ans Ha|md st' ans Hp Ht Hcr Hr|md st1 st2 ans Hp Ht Hb Hd Ha Hh Hu Hx].
  - destruct (Z.eqb_spec ans 0); [contradiction|]. auto.
  - destruct (can_revert_success m _ _ Hcr) as [st1 E]. rewrite E in Hr. injection Hr as <- <-.
    cbn [Z.eqb]. rewrite Hp, Ht. cbn [Z.eqb]. split; [eapply revert_corr; eauto|].
    apply libs_cut_filter. exact Hl.
  - destruct (Z.eqb_spec ans 0) as [->|Hne].
    2:{ exfalso. destruct Hal as [Hal|Hal]; cbn in Hal; discriminate. }
    rewrite Hp, Ht. cbn [Z.eqb].
    apply state_update_some in Hu. destruct Hu as (us & Hus & ->).
    apply apply_all_lists in Hx. destruct Hx as (X1 & X2 & X3 & X4).
    cbn [set_patches s_patches s_roots s_universe] in *.
    destruct Hc as [C1 C2]. split.
    + split.
      * rewrite X1. constructor; [|exact C1]. unfold pcorr, entry_of. cbn. repeat split; auto.
        rewrite (resolve_units_pairs _ _ _ _ _ _ Hus). reflexivity.
      * intros a. unfold active_at. rewrite (X4 eq_refl a), new_detours_active.
        fold (active_at (s_roots st) a). rewrite C2. reflexivity.
    + constructor; [|exact Hl]. apply firstn_firstn_same.
Qed.

Lemma dead_absorbing ev p p' ans :
  do_event ev p = Some (p', ans) -> alive (p_lib p') -> alive (p_lib p).
Proof.
  unfold alive. intros H Ha. destruct (Z.eq_dec (s_err (p_lib p)) 0) as [E|E]; [auto|]. right.
  destruct ev as [busy e junk buf|busy e name| |te|m']; cbn [do_event] in H.
  - destruct (ulp_apply_patch _ _ _ _ _ _) as [[st a]|] eqn:Ex; [|discriminate]. injection H as <- <-. cbn in Ha.
    apply apply_outcome in Ex. destruct Ex as [Ex|(Ex & _)]; [|contradiction].
    inversion Ex; subst; try contradiction. destruct Ha; congruence.
  - destruct (ulp_revert_patches_from_lib _ _ _ _ _ _) as [[st a]|] eqn:Ex; [|discriminate]. injection H as <- <-. cbn in Ha.
    apply revert_all_outcome in Ex. destruct Ex as [Ex|(Ex & _)]; [|contradiction].
    inversion Ex; subst; try contradiction. destruct Ha; congruence.
  - injection H as <- <-. cbn in Ha. unfold ENONE in *.
    destruct (Z.eqb_spec (s_err (p_lib p)) 0); [contradiction|].
    destruct (Z.eqb_spec (s_err (p_lib p)) EUSRBLOCKED); auto. destruct Ha; congruence.
  - destruct (insnq_interpret_from_process _ _ _ _) as [[[r q] t]|]; [|discriminate]. injection H as <- <-.
    cbn in Ha. destruct Ha; congruence.
  - injection H as <- <-. cbn in Ha. destruct Ha; congruence.
Qed.

Lemma corr_ext st st' L :
  s_patches st' = s_patches st -> s_roots st' = s_roots st -> corr st L -> corr st' L.
Proof. intros E1 E2 [A B]. split; rewrite ?E1; auto. intros a. rewrite E2. auto. Qed.

Lemma event_corr ev p p' ans L :
  do_event ev p = Some (p', ans) -> linv (p_lib p) ->
  corr (p_lib p) L -> libs_cut L -> alive (p_lib p') ->
  corr (p_lib p') (log_step L (ev, ans)) /\ libs_cut (log_step L (ev, ans)).
Proof.
  intros H Hi Hc Hl Ha. destruct ev as [busy e junk buf|busy e name| |te|m']; cbn [do_event] in H.
  - destruct (ulp_apply_patch _ _ _ _ _ _) as [[st a]|] eqn:Ex; [|discriminate]. injection H as <- <-.
    cbn [p_lib] in *. apply apply_outcome in Ex. destruct Ex as [Ex|(_ & _ & _ & Ex)].
    + assert (a <> 0 /\ s_patches st = s_patches (p_lib p) /\ s_roots st = s_roots (p_lib p)) as (G1 & G2 & G3).
      { inversion Ex; subst; repeat split; auto; discriminate. }
      cbn [log_step]. destruct (Z.eqb_spec a 0); [contradiction|]. split; auto. eapply corr_ext; eauto.
    + eapply load_corr; eauto.
  - destruct (ulp_revert_patches_from_lib _ _ _ _ _ _) as [[st a]|] eqn:Ex; [|discriminate]. injection H as <- <-.
    cbn [p_lib] in *. apply revert_all_outcome in Ex. cbn [log_step].
    destruct Ex as [Ex|(_ & _ & _ & [(-> & ->)|[(Hm & -> & ->)|(Hm & -> & Hch)]])].
    + assert (a <> 0 /\ s_patches st = s_patches (p_lib p) /\ s_roots st = s_roots (p_lib p)) as (G1 & G2 & G3).
      { inversion Ex; subst; repeat split; auto; discriminate. }
      destruct (Z.eqb_spec a 0); [contradiction|]. split; auto. eapply corr_ext; eauto.
    + cbn. auto.
    + destruct (_ =? 255); cbn; auto.
    + cbn [Z.eqb]. destruct Hc as [C1 C2].
      pose proof (lib_match_corr name _ _ C1 Hl) as Hlm.
      destruct (map_filter_corr _ (fun en => bytes_eqb (en_lib en) (lib_key name)) _ _ C1 Hlm) as [G1 _].
      pose proof (chain_corr _ _ _ _ L Hch Hi (conj C1 C2)) as Hcc.
      rewrite fold_without, G1, without_lib_eq in Hcc.
      * split; auto. apply libs_cut_filter. exact Hl.
      * rewrite <- (pcorr_ids _ _ C1). apply li_ids. exact Hi.
  - injection H as <- <-. cbn [log_step p_lib]. split; auto. unfold ENONE.
    destruct (_ =? 0); [|destruct (_ =? EUSRBLOCKED)]; first [exact Hc | eapply corr_ext; try exact Hc; reflexivity].
  - destruct (insnq_interpret_from_process _ _ _ _) as [[[r q] t]|]; [|discriminate]. injection H as <- <-.
    cbn [log_step p_lib]. split; auto.
  - injection H as <- <-. auto.
Qed.

Lemma log_of_snoc tr x : log_of (tr ++ [x]) = log_step (log_of tr) x.
Proof. unfold log_of. rewrite fold_left_app. reflexivity. Qed.

Lemma history_corr m stale tr p :
  history (fresh m stale) tr p -> alive (p_lib p) ->
  corr (p_lib p) (log_of tr) /\ libs_cut (log_of tr).
Proof.
  induction 1 as [|tr p ev p' ans H IH E]; intros Ha.
  - split; [split; [constructor|reflexivity]|constructor].
  - rewrite log_of_snoc. destruct (IH (dead_absorbing _ _ _ _ E Ha)) as [H1 H2].
    eapply event_corr; eauto. eapply history_linv; eauto.
Qed.
