(** Proofs about the patch list and the detour lists (no memory). *)
From Verif Require Import Base BaseFacts InsnQModel InsnQSpec InsnQProofs MetaModel StrModel
  X86Model X86Spec X86Proofs DlModel LibModel LibSpec.

(** ** Detour lists *)

Definition detours_at (roots : list droot) (a : Z) : list detour :=
  match find (fun r => r_addr r =? a) roots with
  | Some r => r_detours r
  | None => []
  end.

Definition active_at (roots : list droot) (a : Z) : list (list Z * Z) :=
  map (fun d => (d_pid d, d_target d)) (filter d_active (detours_at roots a)).

Lemma detours_at_push_present roots a d b :
  has_root roots a = true ->
  detours_at (push_detour roots a d) b = if b =? a then d :: detours_at roots b else detours_at roots b.
Proof.
  unfold detours_at, has_root. induction roots as [|r t IH]; [discriminate|].
  cbn [existsb push_detour find]. destruct (Z.eqb_spec (r_addr r) a) as [E|E]; cbn [orb]; intros H.
  - cbn [find r_addr r_detours]. subst a.
    destruct (Z.eqb_spec (r_addr r) b) as [E2|E2]; destruct (Z.eqb_spec b (r_addr r)); try lia; reflexivity.
  - cbn [find]. destruct (Z.eqb_spec (r_addr r) b) as [E2|E2].
    + destruct (Z.eqb_spec b a); [lia|reflexivity].
    + apply IH. exact H.
Qed.

Lemma ensure_root_has st a : has_root (s_roots (ensure_root st a)) a = true.
Proof.
  unfold ensure_root. destruct (has_root (s_roots st) a) eqn:E; [exact E|].
  cbn. rewrite Z.eqb_refl. reflexivity.
Qed.

Lemma ensure_root_detours st a b :
  detours_at (s_roots (ensure_root st a)) b = detours_at (s_roots st) b.
Proof.
  unfold ensure_root. destruct (has_root (s_roots st) a) eqn:E; [reflexivity|].
  cbn. unfold detours_at. cbn [find r_addr].
  destruct (Z.eqb_spec a b) as [<-|]; [|reflexivity]. cbn [r_detours].
  destruct (find (fun r => r_addr r =? a) (s_roots st)) as [r|] eqn:F; [|reflexivity].
  exfalso. apply find_some in F. destruct F as [F1 F2].
  unfold has_root in E. assert (existsb (fun r => r_addr r =? a) (s_roots st) = true); [|congruence].
  apply existsb_exists. eauto.
Qed.

(** The state after one unit was recorded (lib/ulp.c:658-674). *)
Definition record_unit (st : lstate) (id : list Z) (old new : Z) : lstate :=
  let st1 := ensure_root st old in
  set_roots st1 (push_detour (s_roots st1) old (mk_detour id (s_universe st1) new true)).

Lemma record_unit_fields st id old new :
  s_patches (record_unit st id old new) = s_patches st /\
  s_universe (record_unit st id old new) = s_universe st /\
  s_err (record_unit st id old new) = s_err st /\
  s_q (record_unit st id old new) = s_q st.
Proof.
  unfold record_unit, ensure_root. destruct (has_root (s_roots st) old); repeat split; reflexivity.
Qed.

Lemma record_unit_detours st id old new b :
  detours_at (s_roots (record_unit st id old new)) b =
  if b =? old then mk_detour id (s_universe st) new true :: detours_at (s_roots st) b
  else detours_at (s_roots st) b.
Proof.
  unfold record_unit. cbn [set_roots s_roots].
  rewrite detours_at_push_present by apply ensure_root_has. rewrite ensure_root_detours.
  replace (s_universe (ensure_root st old)) with (s_universe st)
    by (unfold ensure_root; destruct (has_root _ _); reflexivity).
  reflexivity.
Qed.

Lemma push_detour_addrs roots a d : map r_addr (push_detour roots a d) = map r_addr roots.
Proof.
  induction roots as [|r t IH]; [reflexivity|]. cbn [push_detour].
  destruct (r_addr r =? a); cbn; [reflexivity|]. rewrite IH. reflexivity.
Qed.

Lemma record_unit_addrs st id old new :
  map r_addr (s_roots (record_unit st id old new)) =
  if has_root (s_roots st) old then map r_addr (s_roots st) else old :: map r_addr (s_roots st).
Proof.
  unfold record_unit. cbn [set_roots s_roots]. rewrite push_detour_addrs.
  unfold ensure_root. destruct (has_root _ _); reflexivity.
Qed.

Lemma has_root_iff roots a : has_root roots a = true <-> In a (map r_addr roots).
Proof.
  unfold has_root. rewrite existsb_exists, in_map_iff. split.
  - intros (r & H1 & H2). exists r. split; [lia|auto].
  - intros (r & H1 & H2). exists r. split; [auto|lia].
Qed.

(** ** apply_units without looking at the queue *)

Lemma apply_units_step e m libname h id u us st :
  apply_units e m libname h id (u :: us) st =
  let old := get_loaded_symbol_addr (e_prog e) (e_libs2 e) libname (u_old u) (u_addr u) in
  let new := e_dlsym e h (u_new u) in
  if old =? 0 then (st, ENOOLDFUNC)
  else if new =? 0 then (st, ENONEWFUNC)
  else
    let st1 := record_unit st id old new in
    if looks_patchable m old
    then apply_units e m libname h id us (set_qe st1 (submit (s_q st1, s_err st1) (patch_req m old new true)))
    else (set_qe st1 (s_q st1, s_err st1), ENOPATCHABLE).
Proof.
  cbn [apply_units]. cbv zeta.
  destruct (_ =? 0); [reflexivity|]. destruct (_ =? 0); [reflexivity|].
  fold (record_unit st id (get_loaded_symbol_addr (e_prog e) (e_libs2 e) libname (u_old u) (u_addr u))
          (e_dlsym e h (u_new u))).
  rewrite patch_addr_eq.
  destruct (looks_patchable m _); reflexivity.
Qed.

(** The replacements, as pairs, of a list of units. *)
Definition unit_pairs (e : dlenv) (libname : list Z) (h : Z) (us : list munit) : list (Z * Z) :=
  map (fun u => (get_loaded_symbol_addr (e_prog e) (e_libs2 e) libname (u_old u) (u_addr u),
                 e_dlsym e h (u_new u))) us.

(** The detours (newest first) that a list of replacements adds to [a]. *)
Definition new_detours (id : list Z) (universe : Z) (a : Z) (pairs : list (Z * Z)) : list detour :=
  map (fun p => mk_detour id universe (snd p) true) (rev (filter (fun p => fst p =? a) pairs)).

Lemma apply_units_lists e m libname h id us st st' ret :
  apply_units e m libname h id us st = (st', ret) ->
  s_patches st' = s_patches st /\ s_universe st' = s_universe st /\
  (ret = 0 -> forall a, detours_at (s_roots st') a =
     new_detours id (s_universe st) a (unit_pairs e libname h us) ++ detours_at (s_roots st) a).
Proof.
  revert st; induction us as [|u us IH]; intros st H.
  - cbn in H. injection H as <- <-. repeat split; auto.
  - rewrite apply_units_step in H. cbv zeta in H.
    destruct (_ =? 0); [injection H as <- <-; repeat split; auto; discriminate|].
    destruct (_ =? 0); [injection H as <- <-; repeat split; auto; discriminate|].
    set (old := get_loaded_symbol_addr _ _ _ _ _) in *. set (new := e_dlsym e h (u_new u)) in *.
    destruct (record_unit_fields st id old new) as (F1 & F2 & F3 & F4).
    destruct (looks_patchable m old).
    + apply IH in H. cbn [set_qe s_patches s_universe s_roots] in H. rewrite F1, F2 in H.
      destruct H as (H1 & H2 & H3). repeat split; auto. intros Hr a.
      rewrite (H3 Hr a), record_unit_detours. unfold new_detours, unit_pairs. cbn [map filter fst].
      fold old. fold new. rewrite (Z.eqb_sym a old).
      destruct (old =? a); [|reflexivity].
      cbn [rev]. rewrite map_app, <- app_assoc. reflexivity.
    + injection H as <- <-. cbn [set_qe s_patches s_universe s_roots]. repeat split; auto. discriminate.
Qed.

Lemma apply_refs_lists e h tb ti pb refs st st' ret :
  apply_refs e h tb ti pb refs st = Some (st', ret) ->
  s_patches st' = s_patches st /\ s_universe st' = s_universe st /\ s_roots st' = s_roots st.
Proof.
  revert st; induction refs as [|r refs IH]; intros st H.
  - cbn in H. injection H as <- <-. auto.
  - cbn [apply_refs] in H. destruct (rf_poff r =? 0).
    + destruct (rf_name r); [|discriminate]. destruct (_ =? 0); [injection H as <- <-; auto|].
      apply IH in H. exact H.
    + apply IH in H. exact H.
Qed.

(** ** Reverting without looking at the queue *)

Definition drop_id (id : list Z) (d : detour) : detour :=
  if bytes_eqb (d_pid d) id then deactivate d else d.

Definition root_drop (id : list Z) (r : droot) : droot :=
  mk_droot (r_index r) (r_addr r) (map (drop_id id) (r_detours r)).

Lemma revert_detours_fst m a id pre todo qe :
  fst (revert_detours m a id pre todo qe) = pre ++ map (drop_id id) todo.
Proof.
  revert pre qe; induction todo as [|d t IH]; intros pre qe.
  - cbn. rewrite app_nil_r. reflexivity.
  - cbn [revert_detours map]. unfold drop_id at 1. destruct (bytes_eqb (d_pid d) id);
      rewrite IH, <- app_assoc; reflexivity.
Qed.

Lemma revert_roots_fst m id roots qe :
  fst (revert_roots m id roots qe) = map (root_drop id) roots.
Proof.
  revert qe; induction roots as [|r t IH]; intros qe; [reflexivity|].
  cbn [revert_roots map].
  pose proof (revert_detours_fst m (r_addr r) id [] (r_detours r) qe) as H.
  destruct (revert_detours m (r_addr r) id [] (r_detours r) qe) as [ds qe1]. cbn [fst app] in H. subst ds.
  specialize (IH qe1). destruct (revert_roots m id t qe1) as [t' qe2]. cbn [fst] in *. subst t'. reflexivity.
Qed.

Lemma detours_at_drop id roots a :
  detours_at (map (root_drop id) roots) a = map (drop_id id) (detours_at roots a).
Proof.
  unfold detours_at. induction roots as [|r t IH]; [reflexivity|].
  cbn [map find root_drop r_addr]. destruct (r_addr r =? a); [reflexivity|]. exact IH.
Qed.

Lemma revert_patch_lists m id st st' ret :
  ulp_revert_patch m id st = (st', ret) ->
  s_universe st' = u64 (s_universe st + 1) /\
  s_roots st' = map (root_drop id) (s_roots st) /\
  (ret = 0 \/ ret = ESTATE) /\
  (ret = 0 -> state_remove id (s_patches st) = Some (s_patches st')) /\
  (ret <> 0 -> s_patches st' = s_patches st /\ state_remove id (s_patches st) = None).
Proof.
  unfold ulp_revert_patch.
  pose proof (revert_roots_fst m id (s_roots (next_universe st)) (s_q (next_universe st), s_err (next_universe st))) as H.
  destruct (revert_roots _ _ _ _) as [roots qe]. cbn [fst] in H. subst roots.
  change (s_patches (set_qe _ qe)) with (s_patches st).
  destruct (state_remove id (s_patches st)) as [ps|] eqn:E; intros H; injection H as <- <-; cbn.
  - repeat split; auto; congruence.
  - repeat split; auto; unfold ESTATE; try lia; try congruence.
Qed.

(** ** The patch list *)

Lemma state_remove_some id ps ps' :
  state_remove id ps = Some ps' ->
  exists l1 p l2, ps = l1 ++ p :: l2 /\ ps' = l1 ++ l2 /\ a_id p = id /\
    Forall (fun x => a_id x <> id) l1.
Proof.
  revert ps'; induction ps as [|p t IH]; intros ps' H; [discriminate|].
  cbn [state_remove] in H. destruct (bytes_eqb (a_id p) id) eqn:E.
  - apply bytes_eqb_eq in E. injection H as <-. exists [], p, t. auto.
  - destruct (state_remove id t) as [t'|]; [|discriminate]. injection H as <-.
    destruct (IH t' eq_refl) as (l1 & x & l2 & -> & -> & H1 & H2).
    apply bytes_eqb_neq in E. exists (p :: l1), x, l2. repeat split; auto.
Qed.

Lemma state_remove_none id ps : state_remove id ps = None <-> ~ In id (map a_id ps).
Proof.
  induction ps as [|p t IH]; [cbn; tauto|]. cbn [state_remove map In].
  destruct (bytes_eqb (a_id p) id) eqn:E.
  - apply bytes_eqb_eq in E. split; [discriminate|]. intros H. exfalso. apply H. auto.
  - apply bytes_eqb_neq in E. destruct (state_remove id t); split; intros H.
    + discriminate.
    + exfalso. assert (Some l = None); [|discriminate]. apply IH. tauto.
    + apply proj1 in IH. specialize (IH eq_refl). tauto.
    + reflexivity.
Qed.

Lemma get_applied_iff st id :
  ulp_get_applied_patch st id = true <-> In id (map a_id (s_patches st)).
Proof.
  unfold ulp_get_applied_patch. rewrite existsb_exists, in_map_iff. split.
  - intros (p & H1 & H2). apply bytes_eqb_eq in H2. eauto.
  - intros (p & H1 & H2). exists p. split; auto. apply bytes_eqb_eq. exact H1.
Qed.

Lemma check_deps_iff st deps :
  check_patch_dependencies st deps = 0 <-> Forall (fun d => In d (map a_id (s_patches st))) deps.
Proof.
  unfold check_patch_dependencies.
  assert (G : forallb (fun d => existsb (fun p => bytes_eqb (a_id p) d) (s_patches st)) deps = true <->
              Forall (fun d => In d (map a_id (s_patches st))) deps).
  { rewrite forallb_forall, Forall_forall. split; intros H d Hd; specialize (H d Hd).
    - apply get_applied_iff. exact H.
    - apply get_applied_iff in H. exact H. }
  destruct (forallb _ _).
  - split; [intros _; apply G; reflexivity|reflexivity].
  - split; [unfold EDEPEND; discriminate|]. intros H. apply G in H. discriminate.
Qed.

(** Who depends on [id]? *)
Definition depended (ps : list apatch) (id : list Z) : Prop := exists p, In p ps /\ In id (a_deps p).

Lemma can_revert_iff st id :
  ulp_can_revert_patch st id = 0 <-> In id (map a_id (s_patches st)) /\ ~ depended (s_patches st) id.
Proof.
  unfold ulp_can_revert_patch.
  assert (G : existsb (fun p => existsb (fun d => bytes_eqb d id) (a_deps p)) (s_patches st) = true <->
              depended (s_patches st) id).
  { unfold depended. rewrite existsb_exists. split.
    - intros (p & H1 & H2). apply existsb_exists in H2. destruct H2 as (d & H2 & H3).
      apply bytes_eqb_eq in H3. subst. eauto.
    - intros (p & H1 & H2). exists p. split; auto. apply existsb_exists. exists id. split; auto. apply bytes_eqb_refl. }
  destruct (ulp_get_applied_patch st id) eqn:E; cbn [negb].
  - apply get_applied_iff in E. destruct (existsb _ _).
    + split; [unfold EDEPEND; discriminate|]. intros [_ H]. exfalso. apply H. apply G. reflexivity.
    + split; [|reflexivity]. intros _. split; auto. intros H. apply G in H. discriminate.
  - split; [unfold ENOTAPPLIED; discriminate|]. intros [H _]. apply get_applied_iff in H. congruence.
Qed.

(** Dependencies are applied and older. *)
Fixpoint deps_older (ps : list apatch) : Prop :=
  match ps with
  | [] => True
  | p :: t => Forall (fun d => In d (map a_id t)) (a_deps p) /\ deps_older t
  end.

Lemma deps_older_remove l1 p l2 :
  deps_older (l1 ++ p :: l2) -> ~ depended (l1 ++ p :: l2) (a_id p) -> deps_older (l1 ++ l2).
Proof.
  induction l1 as [|x l1 IH]; intros H Hd.
  - cbn in *. tauto.
  - cbn [app deps_older] in *. destruct H as [H1 H2]. split.
    + rewrite Forall_forall in *. intros d Hdin. specialize (H1 d Hdin).
      rewrite map_app in *. cbn [map] in H1. apply in_app_or in H1. apply in_or_app.
      destruct H1 as [H1|[H1|H1]]; auto.
      exfalso. apply Hd. exists x. split; [left; reflexivity|]. rewrite H1. exact Hdin.
    + apply IH; auto. intros (q & Hq1 & Hq2). apply Hd. exists q. split; auto. right. exact Hq1.
Qed.

(** The unconditional invariant of the lists. *)
Record linv (st : lstate) : Prop := {
  li_ids : NoDup (map a_id (s_patches st));
  li_deps : deps_older (s_patches st);
  li_roots : NoDup (map r_addr (s_roots st))
}.

Lemma linv_ext st st' :
  s_patches st' = s_patches st -> map r_addr (s_roots st') = map r_addr (s_roots st) -> linv st -> linv st'.
Proof. intros H1 H2 [A B C]. constructor; rewrite ?H1, ?H2; auto. Qed.

Lemma record_unit_nodup st id old new :
  NoDup (map r_addr (s_roots st)) -> NoDup (map r_addr (s_roots (record_unit st id old new))).
Proof.
  intros H. rewrite record_unit_addrs. destruct (has_root (s_roots st) old) eqn:E; auto.
  constructor; auto. rewrite <- has_root_iff. congruence.
Qed.

Lemma apply_units_nodup e m libname h id us st st' ret :
  apply_units e m libname h id us st = (st', ret) ->
  NoDup (map r_addr (s_roots st)) -> NoDup (map r_addr (s_roots st')).
Proof.
  revert st; induction us as [|u us IH]; intros st H Hn.
  - cbn in H. injection H as <- <-. auto.
  - rewrite apply_units_step in H. cbv zeta in H.
    destruct (_ =? 0); [injection H as <- <-; auto|].
    destruct (_ =? 0); [injection H as <- <-; auto|].
    destruct (looks_patchable m _).
    + apply IH in H; auto. apply record_unit_nodup. exact Hn.
    + injection H as <- <-. apply record_unit_nodup. exact Hn.
Qed.

Lemma root_drop_addrs id roots : map r_addr (map (root_drop id) roots) = map r_addr roots.
Proof. rewrite map_map. apply map_ext. reflexivity. Qed.

Lemma NoDup_remove_mid {A B} (f : A -> B) l1 x l2 :
  NoDup (map f (l1 ++ x :: l2)) -> NoDup (map f (l1 ++ l2)).
Proof. rewrite !map_app. cbn. apply NoDup_remove_1. Qed.

Lemma revert_patch_linv m id st st' ret :
  ulp_revert_patch m id st = (st', ret) -> ~ depended (s_patches st) id -> linv st -> linv st'.
Proof.
  intros H Hd [A B C]. apply revert_patch_lists in H. destruct H as (_ & H2 & [H3|H3] & H4 & H5).
  - specialize (H4 H3). apply state_remove_some in H4. destruct H4 as (l1 & p & l2 & E1 & E2 & E3 & _).
    constructor.
    + rewrite E2. rewrite E1 in A. eapply NoDup_remove_mid; eauto.
    + rewrite E2. rewrite E1 in B, Hd. eapply deps_older_remove; eauto. rewrite E3. exact Hd.
    + rewrite H2, root_drop_addrs. exact C.
  - destruct H5 as [H5 _]; [rewrite H3; discriminate|]. constructor; rewrite ?H5; auto.
    rewrite H2, root_drop_addrs. exact C.
Qed.

Lemma apply_all_lists e m h md st st' ret :
  ulp_apply_all_units e m h md st = Some (st', ret) ->
  s_patches st' = s_patches st /\ s_universe st' = u64 (s_universe st + 1) /\
  (NoDup (map r_addr (s_roots st)) -> NoDup (map r_addr (s_roots st'))) /\
  (ret = 0 -> forall a, detours_at (s_roots st') a =
     new_detours (md_id md) (u64 (s_universe st + 1)) a
       (unit_pairs e (get_basename (md_name md)) h (md_units md)) ++ detours_at (s_roots st) a).
Proof.
  unfold ulp_apply_all_units.
  destruct (apply_units _ _ _ _ _ _ _) as [st1 r1] eqn:E. intros H.
  pose proof (apply_units_lists _ _ _ _ _ _ _ _ _ E) as (L1 & L2 & L3).
  pose proof (apply_units_nodup _ _ _ _ _ _ _ _ _ E) as LN.
  change (s_patches (next_universe st)) with (s_patches st) in *.
  change (s_universe (next_universe st)) with (u64 (s_universe st + 1)) in *.
  change (s_roots (next_universe st)) with (s_roots st) in *.
  destruct (Z.eqb_spec r1 0) as [E0|E0]; cbn [negb] in H.
  2:{ injection H as <- <-. repeat split; auto. }
  destruct (_ =? 255); [injection H as <- <-; repeat split; auto; discriminate|].
  destruct (e_laddr e h) as [la|]; [|injection H as <- <-; repeat split; auto; discriminate].
  destruct (la =? 0); [injection H as <- <-; repeat split; auto; discriminate|].
  apply apply_refs_lists in H. destruct H as (R1 & R2 & R3).
  rewrite R1, R2, R3. repeat split; auto.
Qed.

Lemma state_update_some e m h md st st' :
  ulp_state_update e m h md st = Some st' ->
  exists us, resolve_units e m (get_basename (md_name md)) h (md_units md) = Some us /\
    st' = set_patches st (mk_apatch (md_id md) (lib_key (md_name md)) (firstn 256 (md_so md)) us (rev (md_deps md)) :: s_patches st).
Proof.
  unfold ulp_state_update. destruct (resolve_units _ _ _ _ _) as [us|]; [|discriminate].
  intros H. injection H as <-. exists us. split; reflexivity.
Qed.

Lemma resolve_units_pairs e m libname h us l :
  resolve_units e m libname h us = Some l ->
  map (fun u => (au_patched u, au_target u)) l = unit_pairs e libname h us.
Proof.
  revert l; induction us as [|u us IH]; intros l H; cbn [resolve_units] in H.
  - injection H as <-. reflexivity.
  - destruct (_ =? 0); [discriminate|]. destruct (_ =? 0); [discriminate|].
    destruct (resolve_units _ _ _ _ us); [|discriminate]. injection H as <-.
    cbn. f_equal. apply IH. reflexivity.
Qed.

(** ** What load_patch can do: the complete list of outcomes. *)
Inductive load_outcome (e : dlenv) (m : mem) (junk : Z) (buf : list Z) (st : lstate)
  : lstate -> Z -> Prop :=
| lo_fail ans : ans <> 0 -> load_outcome e m junk buf st st ans
| lo_revert md st' ans :
    parse_metadata_from_mem junk buf = P_ok md -> md_type md = 2 ->
    ulp_can_revert_patch st (md_id md) = 0 ->
    ulp_revert_patch m (md_id md) st = (st', ans) -> load_outcome e m junk buf st st' ans
| lo_apply md st1 st2 ans :
    parse_metadata_from_mem junk buf = P_ok md -> md_type md = 1 ->
    check_build_id (e_libs e) (md_bid_len md) (md_bid md) = N_match true ->
    check_patch_dependencies st (md_deps md) = 0 ->
    ulp_get_applied_patch st (md_id md) = false ->
    e_dlopen e (md_so md) <> 0 ->
    ulp_state_update e m (e_dlopen e (md_so md)) md st = Some st1 ->
    ulp_apply_all_units e m (e_dlopen e (md_so md)) md st1 = Some (st2, ans) ->
    load_outcome e m junk buf st (if ans =? 0 then st2 else set_err st2 EUNKNOWN) ans.

Lemma read_name_err {A} c src k code (Q : Z -> Prop) :
  Q EINVALIDULP ->
  (forall s c' src', k s c' src' = P_err code -> Q code) ->
  @read_name A c src k = P_err code -> Q code.
Proof.
  intros HQ Hk. unfold read_name. destruct (read_int 4 c src) as [[c' n] src1].
  destruct (n <? 1); [intros H; injection H as <-; exact HQ|].
  destruct (read_from_mem c' src1) as [got src2].
  destruct (_ <? _); [discriminate|]. destruct (_ <? _); [intros H; injection H as <-; exact HQ|]. apply Hk.
Qed.

Lemma read_rname_err {A} c src k code (Q : Z -> Prop) :
  Q EINVALIDULP ->
  (forall s c' src', k s c' src' = P_err code -> Q code) ->
  @read_rname A c src k = P_err code -> Q code.
Proof.
  intros HQ Hk. unfold read_rname. destruct (read_int 4 c src) as [[c' n] src1].
  destruct (n <? 4); [intros H; injection H as <-; exact HQ|].
  destruct (read_from_mem c' src1) as [got src2].
  destruct (_ <? _); [intros H; injection H as <-; exact HQ|]. apply Hk.
Qed.

Lemma parse_units_err {A} fuel j c src acc k code (Q : Z -> Prop) :
  Q EINVALIDULP -> (forall l c' s, k l c' s = P_err code -> Q code) ->
  @parse_units A fuel j c src acc k = P_err code -> Q code.
Proof.
  intros HQ Hk. revert j c src acc; induction fuel as [|fuel IH]; intros j c src acc; cbn [parse_units];
    destruct (j <=? 0); try apply Hk; try discriminate.
  apply read_name_err; auto. intros s c1 src1. apply read_name_err; auto. intros s2 c2 src2.
  destruct (read_int 8 0 src2) as [[a n] src3]. destruct (n <? 1); [intros H; injection H as <-; exact HQ|]. apply IH.
Qed.

Lemma parse_deps_err {A} fuel j src acc k code (Q : Z -> Prop) :
  Q EINVALIDULP -> (forall l s, k l s = P_err code -> Q code) ->
  @parse_deps A fuel j src acc k = P_err code -> Q code.
Proof.
  intros HQ Hk. revert j src acc; induction fuel as [|fuel IH]; intros j src acc; cbn [parse_deps];
    destruct (j <=? 0); try apply Hk; try discriminate.
  destruct (read_from_mem 32 src) as [got src1]. destruct (_ <? _); [intros H; injection H as <-; exact HQ|]. apply IH.
Qed.

Lemma parse_refs_err {A} fuel j c src acc k code (Q : Z -> Prop) :
  Q EINVALIDULP -> (forall l s, k l s = P_err code -> Q code) ->
  @parse_refs A fuel j c src acc k = P_err code -> Q code.
Proof.
  intros HQ Hk. revert j c src acc; induction fuel as [|fuel IH]; intros j c src acc; cbn [parse_refs];
    destruct (j <=? 0); try apply Hk; try discriminate.
  apply read_rname_err; auto. intros s c1 src1. apply read_rname_err; auto. intros s2 c2 src2.
  destruct (read_int 8 0 src2) as [[a n] src3]. destruct (n <? 8); [intros H; injection H as <-; exact HQ|].
  destruct (read_int 8 0 src3) as [[a2 n2] src4]. destruct (n2 <? 8); [intros H; injection H as <-; exact HQ|].
  destruct (read_int 1 0 src4) as [[a3 n3] src5]. destruct (n3 <? 1); [intros H; injection H as <-; exact HQ|]. apply IH.
Qed.

(** A parse error is never 0. *)
Lemma parse_err_codes junk buf code :
  parse_metadata_from_mem junk buf = P_err code -> code = EINVALIDULP \/ code = 1.
Proof.
  unfold parse_metadata_from_mem. destruct (parse_metadata_raw junk buf) as [| |c|[md r]] eqn:E; try discriminate.
  intros H. injection H as <-. revert E. unfold parse_metadata_raw.
  set (Q := fun c : Z => c = EINVALIDULP \/ c = 1).
  assert (HQ : Q EINVALIDULP) by (left; reflexivity).
  change (c = EINVALIDULP \/ c = 1) with (Q c).
  destruct (read_int 1 0 buf) as [[ty n] src1]. destruct (n <? 1); [intros H; injection H as <-; exact HQ|].
  destruct (read_from_mem 32 src1) as [id src2]. destruct (_ <? 32); [intros H; injection H as <-; exact HQ|].
  apply read_name_err; auto. intros so c1 src3. destruct so; [intros H; injection H as <-; exact HQ|].
  destruct (read_int 4 c1 src3) as [[c2 n2] src4]. destruct (n2 <? 1); [intros H; injection H as <-; exact HQ|].
  destruct (read_from_mem c2 src4) as [bid src5]. destruct (_ <? _); [intros H; injection H as <-; exact HQ|].
  apply read_name_err; auto. intros nm c3 src6. destruct (ty =? 2); [discriminate|].
  destruct (read_int 4 0 src6) as [[nu n4] src7]. destruct (n4 <? 1); [intros H; injection H as <-; right; reflexivity|].
  apply parse_units_err; auto. intros us c4 src8.
  destruct (read_int 4 c4 src8) as [[nd n5] src9]. destruct (n5 <? 1); [intros H; injection H as <-; exact HQ|].
  apply parse_deps_err; auto. intros ds src10.
  destruct (read_int 4 0 src10) as [[nr n6] src11]. destruct (n6 <? 4); [intros H; injection H as <-; exact HQ|].
  apply parse_refs_err; auto. intros rs src12. discriminate.
Qed.

Lemma load_patch_outcome e m junk buf st st' ans :
  load_patch e m junk buf st = Some (st', ans) -> load_outcome e m junk buf st st' ans.
Proof.
  unfold load_patch. destruct (parse_metadata_from_mem junk buf) as [| |c|md] eqn:Ep; try discriminate.
  - intros H. injection H as <- <-. apply lo_fail.
    destruct (parse_err_codes _ _ _ Ep); subst; unfold EINVALIDULP; lia.
  - destruct (Z.eqb_spec (md_type md) 2) as [E2|E2].
    + destruct (Z.eqb_spec (ulp_can_revert_patch st (md_id md)) 0) as [Er|Er]; cbn [negb]; intros H.
      * apply (Some_inj) in H. eapply lo_revert; eauto.
      * injection H as <- <-. apply lo_fail. exact Er.
    + unfold check_patch_sanity.
      destruct (check_build_id _ _ _) as [| |[|]] eqn:Eb; try discriminate.
      2:{ unfold EBUILDID. cbn [negb Z.eqb]. intros H. injection H as <- <-. apply lo_fail. discriminate. }
      destruct (Z.eqb_spec (check_patch_dependencies st (md_deps md)) 0) as [Ed|Ed]; cbn [negb].
      2:{ destruct (Z.eqb_spec (check_patch_dependencies st (md_deps md)) 0); [contradiction|].
          cbn [negb]. intros H. injection H as <- <-. apply lo_fail. exact Ed. }
      destruct (ulp_get_applied_patch st (md_id md)) eqn:Ea.
      { unfold EAPPLIED. cbn [negb Z.eqb]. intros H. injection H as <- <-. apply lo_fail. discriminate. }
      cbn [negb Z.eqb].
      destruct (Z.eqb_spec (e_dlopen e (md_so md)) 0) as [Eh|Eh].
      { intros H. injection H as <- <-. apply lo_fail. discriminate. }
      destruct (Z.eqb_spec (md_type md) 1) as [E1|E1].
      * destruct (ulp_state_update _ _ _ _ _) as [st1|] eqn:Eu.
        2:{ intros H. injection H as <- <-. apply lo_fail. discriminate. }
        destruct (ulp_apply_all_units _ _ _ _ _) as [[st2 r]|] eqn:Ex; [|discriminate].
        intros H.
        assert (G : st' = (if r =? 0 then st2 else set_err st2 EUNKNOWN) /\ ans = r).
        { destruct (Z.eqb_spec r 0); cbn [negb] in H; injection H as <- <-; auto. }
        destruct G as [-> ->]. eapply lo_apply; eauto.
      * destruct (md_type md =? 0); intros H; injection H as <- <-; apply lo_fail; discriminate.
Qed.
