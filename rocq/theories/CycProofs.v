(** Proofs about repeated apply/revert cycles (C51). *)
From Verif Require Import Base BaseFacts InsnQModel InsnQSpec InsnQProofs MetaModel StrModel
  X86Model X86Spec X86Proofs DlModel LibModel LibSpec LibProofs LibInv LibMem CycSpec.

(** ** Counting detours *)

Definition of_id (id : list Z) (d : detour) : bool := bytes_eqb (d_pid d) id.
Definition rcount (id : list Z) (r : droot) : Z := zlen (filter (of_id id) (r_detours r)).
Definition dcount (id : list Z) (roots : list droot) : Z := fold_right Z.add 0 (map (rcount id) roots).

Lemma rcount_nonneg id r : 0 <= rcount id r.
Proof. apply zlen_nonneg. Qed.

Lemma dcount_nonneg id roots : 0 <= dcount id roots.
Proof.
  unfold dcount. induction roots as [|r t IH]; cbn [map fold_right]; [lia|].
  pose proof (rcount_nonneg id r). lia.
Qed.

Lemma dcount_cons id r t : dcount id (r :: t) = rcount id r + dcount id t.
Proof. reflexivity. Qed.

Lemma dcount_drop id id' roots : dcount id (map (root_drop id') roots) = dcount id roots.
Proof.
  induction roots as [|r t IH]; [reflexivity|]. cbn [map]. rewrite !dcount_cons, IH. f_equal.
  unfold rcount, root_drop. cbn [r_detours]. induction (r_detours r) as [|d ds IHd]; [reflexivity|].
  cbn [map filter].
  assert (E : of_id id (drop_id id' d) = of_id id d)
    by (unfold of_id, drop_id, deactivate; destruct (bytes_eqb (d_pid d) id'); reflexivity).
  rewrite E. destruct (of_id id d); [rewrite !zlen_cons, IHd; reflexivity|exact IHd].
Qed.

Lemma dcount_push id roots a d :
  has_root roots a = true ->
  dcount id (push_detour roots a d) = dcount id roots + (if of_id id d then 1 else 0).
Proof.
  induction roots as [|r t IH]; [discriminate|]. unfold has_root. cbn [existsb push_detour].
  destruct (r_addr r =? a); cbn [orb]; intros H; rewrite !dcount_cons.
  - unfold rcount at 1. cbn [r_detours filter]. unfold rcount. destruct (of_id id d); rewrite ?zlen_cons; lia.
  - rewrite (IH H). lia.
Qed.

Lemma record_unit_count id st pid old new :
  dcount id (s_roots (record_unit st pid old new)) =
  dcount id (s_roots st) + (if bytes_eqb pid id then 1 else 0).
Proof.
  unfold record_unit. cbn [set_roots s_roots]. rewrite dcount_push by apply ensure_root_has.
  cbn [of_id d_pid]. unfold of_id. cbn [d_pid]. f_equal. unfold ensure_root. destruct (has_root _ _); [reflexivity|].
  cbn [set_roots s_roots]. rewrite dcount_cons. reflexivity.
Qed.

Lemma apply_units_count id e m libname h pid us st st' :
  apply_units e m libname h pid us st = (st', 0) ->
  dcount id (s_roots st') = dcount id (s_roots st) + (if bytes_eqb pid id then zlen us else 0).
Proof.
  revert st; induction us as [|u us IH]; intros st H.
  - cbn in H. injection H as <-. change (zlen (@nil munit)) with 0. destruct (bytes_eqb pid id); lia.
  - rewrite apply_units_step in H. cbv zeta in H.
    destruct (_ =? 0); [discriminate|]. destruct (_ =? 0); [discriminate|].
    destruct (looks_patchable m _); [|discriminate].
    apply IH in H. rewrite H. cbn [set_qe s_roots]. rewrite record_unit_count, zlen_cons.
    destruct (bytes_eqb pid id); lia.
Qed.

Lemma apply_all_count id e m h md st st' :
  ulp_apply_all_units e m h md st = Some (st', 0) ->
  dcount id (s_roots st') =
  dcount id (s_roots st) + (if bytes_eqb (md_id md) id then zlen (md_units md) else 0).
Proof.
  unfold ulp_apply_all_units. destruct (apply_units _ _ _ _ _ _ _) as [st1 r1] eqn:E.
  destruct (Z.eqb_spec r1 0) as [->|Hr]; cbn [negb].
  2:{ intros H. apply Some_inj in H. congruence. }
  destruct (_ =? 255); [intros H; apply Some_inj in H; discriminate|].
  destruct (e_laddr e h) as [la|]; [|intros H; apply Some_inj in H; discriminate].
  destruct (la =? 0); [intros H; apply Some_inj in H; discriminate|].
  intros H. apply apply_refs_lists in H. destruct H as (_ & _ & ->).
  apply (apply_units_count id) in E. exact E.
Qed.

Lemma chain_count id m st ids st' :
  revert_chain m st ids st' -> dcount id (s_roots st') = dcount id (s_roots st).
Proof.
  induction 1 as [|st x ids st1 st2 H1 H2 H3 IH]; [reflexivity|]. rewrite IH.
  apply revert_patch_lists in H2. destruct H2 as (_ & -> & _). apply dcount_drop.
Qed.

Lemma event_count id ev p p' ans :
  do_event ev p = Some (p', ans) -> alive (p_lib p') ->
  dcount id (s_roots (p_lib p')) = dcount id (s_roots (p_lib p)) + made_by id (ev, ans).
Proof.
  intros H Ha. destruct ev as [busy e junk buf|busy e name| |te|m']; cbn [do_event made_by] in *.
  - destruct (ulp_apply_patch _ _ _ _ _ _) as [[st a]|] eqn:Ex; [|discriminate]. injection H as <- <-.
    cbn [p_lib] in *. apply apply_outcome in Ex. destruct Ex as [Ex|(_ & _ & _ & Ex)].
    + assert (a <> 0) by (inversion Ex; subst; auto; discriminate).
      apply gate_alive in Ex; auto. subst. destruct (Z.eqb_spec a 0); [contradiction|lia].
    + destruct Ex as [ans Hans|md st' ans Hp Hty Hcr Hrv|md st1 st2 ans Hp Hty Hb Hd Hap Hh Hu Hx].
      * destruct (Z.eqb_spec ans 0); [contradiction|lia].
      * rewrite Hp, Hty. apply revert_patch_lists in Hrv. destruct Hrv as (_ & -> & _).
        rewrite dcount_drop. cbn [Z.eqb Pos.eqb]. destruct (ans =? 0); lia.
      * destruct (Z.eqb_spec ans 0) as [->|Hne].
        2:{ exfalso. destruct Ha as [Ha|Ha]; cbn in Ha; discriminate. }
        rewrite Hp, Hty. cbn [Z.eqb Pos.eqb].
        apply state_update_some in Hu. destruct Hu as (us & Hus & ->).
        apply (apply_all_count id) in Hx. exact Hx.
  - destruct (ulp_revert_patches_from_lib _ _ _ _ _ _) as [[st a]|] eqn:Ex; [|discriminate]. injection H as <- <-.
    cbn [p_lib] in *. apply revert_all_outcome in Ex. rewrite Z.add_0_r.
    destruct Ex as [Ex|(_ & _ & _ & [(-> & ->)|[(Hm & -> & ->)|(Hm & -> & Hch)]])]; auto.
    + apply gate_alive in Ex; auto. subst. reflexivity.
    + eapply chain_count. exact Hch.
  - injection H as <- <-. cbn [p_lib]. rewrite Z.add_0_r. unfold ENONE.
    destruct (_ =? 0); [|destruct (_ =? EUSRBLOCKED)]; reflexivity.
  - destruct (insnq_interpret_from_process _ _ _ _) as [[[r q] t]|] eqn:Ex; [|discriminate]. injection H as <- <-.
    rewrite Z.add_0_r. reflexivity.
  - injection H as <- <-. rewrite Z.add_0_r. reflexivity.
Qed.

Lemma made_snoc id tr x : replacements_made id (tr ++ [x]) = replacements_made id tr + made_by id x.
Proof.
  unfold replacements_made. rewrite map_app, fold_right_app. cbn [map fold_right]. rewrite Z.add_0_r.
  induction (map (made_by id) tr) as [|y l IH]; cbn [fold_right]; lia.
Qed.

Lemma history_count id m stale tr p :
  history (fresh m stale) tr p -> alive (p_lib p) ->
  dcount id (s_roots (p_lib p)) = replacements_made id tr.
Proof.
  induction 1 as [|tr p ev p' ans H IH E]; intros Ha; [reflexivity|].
  rewrite made_snoc, <- IH by (eapply dead_absorbing; eauto). eapply event_count; eauto.
Qed.

(** ** The writes of a reversal *)

Lemma patch_req_size m f g enable : 24 <= req_size (patch_req m f g enable) <= 40.
Proof.
  unfold patch_req. destruct enable; cbn [req_size].
  - rewrite patched_prologue_len. destruct (is_endbr64 m f); cbn; lia.
  - cbn. lia.
Qed.

(** One write per detour of the patch, as long as they fit. *)
Lemma revert_detours_writes m a id todo pre q err ds q' err' :
  looks_patchable m a = true -> err <> EINSNQ ->
  revert_detours m a id pre todo (q, err) = (ds, (q', err')) ->
  let n := zlen (filter (of_id id) todo) in
  (err' = err /\ q_num q' = q_num q + n /\ q_size q + 24 * n <= q_size q' <= q_size q + 40 * n) \/
  (err' = EINSNQ /\ q_size q + 40 * n > INSN_BUFFER_MAX).
Proof.
  intros HL. revert pre q err. induction todo as [|d t IH]; intros pre q err He H.
  - cbn in H. injection H as <- <- <-. change (zlen (filter (of_id id) [])) with 0. left. lia.
  - cbn [revert_detours] in H. cbn [filter]. change (bytes_eqb (d_pid d) id) with (of_id id d) in H. destruct (of_id id d).
    2:{ exact (IH _ _ _ He H). }
    assert (G : exists r, 24 <= req_size r <= 40 /\
               revert_detours m a id (pre ++ [deactivate d]) t (submit (q, err) r) = (ds, (q', err'))).
    { destruct (find d_active (pre ++ deactivate d :: t)) as [x|]; rewrite patch_addr_eq, HL in H; cbn [fst] in H;
        (eexists; split; [|exact H]; apply patch_req_size). }
    destruct G as (r & Hr & H'). rewrite zlen_cons. set (n := zlen (filter (of_id id) t)) in *.
    pose proof (zlen_nonneg (filter (of_id id) t)) as Hn. fold n in Hn.
    rewrite submit_unfold in H'. destruct (try_insert q r) as [q1|] eqn:E.
    + destruct (try_insert_size _ _ _ E) as [S1 S2].
      destruct (IH _ _ _ He H') as [(-> & I2 & I3)|(-> & I2)]; [left|right]; [repeat split; lia|split; [reflexivity|lia]].
    + right. pose proof (revert_detours_dead m a id t (pre ++ [deactivate d]) (q, EINSNQ) eq_refl) as X.
      rewrite H' in X. cbn [snd] in X. split; [exact X|].
      assert (~ q_size q + req_size r <= INSN_BUFFER_MAX); [|lia].
      intros Hf. apply try_insert_fits in Hf. destruct Hf as [q1 Hq1]. congruence.
Qed.

Lemma revert_roots_writes m id roots q err roots' q' err' :
  (forall r, In r roots -> looks_patchable m (r_addr r) = true) -> err <> EINSNQ ->
  revert_roots m id roots (q, err) = (roots', (q', err')) ->
  let n := dcount id roots in
  (err' = err /\ q_num q' = q_num q + n /\ q_size q + 24 * n <= q_size q' <= q_size q + 40 * n) \/
  (err' = EINSNQ /\ q_size q + 40 * n > INSN_BUFFER_MAX).
Proof.
  revert q err roots' q' err'; induction roots as [|r t IH]; intros q err roots' q' err' HL He H.
  - cbn in H. injection H as <- <- <-. left. cbn. lia.
  - cbn [revert_roots] in H.
    destruct (revert_detours m (r_addr r) id [] (r_detours r) (q, err)) as [ds [q1 err1]] eqn:E1.
    destruct (revert_roots m id t (q1, err1)) as [t' [q2 err2]] eqn:E2. injection H as <- <- <-.
    cbn zeta. rewrite dcount_cons. unfold rcount.
    pose proof (dcount_nonneg id t) as Hd.
    apply revert_detours_writes in E1; auto; [|apply HL; left; reflexivity]. cbn zeta in E1.
    set (n := zlen (filter (of_id id) (r_detours r))) in *.
    destruct E1 as [(-> & A1 & A2)|(-> & A2)].
    + apply IH in E2; auto; [|intros r0 Hr0; apply HL; right; exact Hr0]. cbn zeta in E2.
      destruct E2 as [(-> & B1 & B2)|(-> & B2)]; [left|right]; [repeat split; lia|split; [reflexivity|lia]].
    + right. pose proof (revert_roots_dead m id t (q1, EINSNQ) eq_refl) as X. rewrite E2 in X. cbn [snd] in X.
      split; [exact X|lia].
Qed.

Lemma revert_patch_writes m id st st' ret :
  (forall r, In r (s_roots st) -> looks_patchable m (r_addr r) = true) -> s_err st <> EINSNQ ->
  ulp_revert_patch m id st = (st', ret) ->
  let n := dcount id (s_roots st) in
  (s_err st' = s_err st /\ q_num (s_q st') = q_num (s_q st) + n /\
   q_size (s_q st) + 24 * n <= q_size (s_q st') <= q_size (s_q st) + 40 * n) \/
  (s_err st' = EINSNQ /\ q_size (s_q st) + 40 * n > INSN_BUFFER_MAX).
Proof.
  intros HL He H. unfold ulp_revert_patch in H. change (s_roots (next_universe st)) with (s_roots st) in H.
  change (s_q (next_universe st)) with (s_q st) in H. change (s_err (next_universe st)) with (s_err st) in H.
  destruct (revert_roots m id (s_roots st) (s_q st, s_err st)) as [roots [q' err']] eqn:E.
  assert (G : s_q st' = q' /\ s_err st' = err').
  { destruct (state_remove _ _); apply pair_equal_spec in H; destruct H as [<- _]; auto. }
  destruct G as [-> ->]. eapply revert_roots_writes; eauto.
Qed.

(** The queue never outgrows its buffer. *)
Lemma tied_size F eb m st rs : tied F eb m st rs -> 0 <= q_size (s_q st) <= INSN_BUFFER_MAX.
Proof. intros (T & _). apply (qi_size _ _ T). Qed.

(** In a clean history every root is a patchable function. *)
Lemma clean_roots_patchable F eb m stale tr p :
  functions_ok F eb m -> clean_history F eb (fresh m stale) tr p -> s_err (p_lib p) = 0 -> no_pending p ->
  forall r, In r (s_roots (p_lib p)) -> looks_patchable (p_mem p) (r_addr r) = true.
Proof.
  intros HF H He [Hn1 Hn2] r Hr.
  destruct (clean_tied _ _ _ _ _ _ HF H (or_introl He)) as (rs & Ht).
  assert (rs = []) by (eapply qinv_empty_iff; [apply Ht|split; lia]). subst rs.
  eapply entry_ok_looks. eapply (tied_entry _ _ _ _ Ht). apply Ht. exact Hr.
Qed.

(** ** Applications do not depend on the detours *)

(** Two libpulp states that differ at most in their detours, counters and the
    stale contents of the queue buffer. *)
Definition sim (s1 s2 : lstate) : Prop :=
  s_patches s1 = s_patches s2 /\ s_err s1 = s_err s2 /\
  q_num (s_q s1) = q_num (s_q s2) /\ q_size (s_q s1) = q_size (s_q s2).

Lemma submit_sim q1 q2 err r :
  q_num q1 = q_num q2 -> q_size q1 = q_size q2 ->
  let a := submit (q1, err) r in let b := submit (q2, err) r in
  snd a = snd b /\ q_num (fst a) = q_num (fst b) /\ q_size (fst a) = q_size (fst b).
Proof.
  intros Hn Hs. cbn zeta. rewrite !submit_unfold.
  destruct (try_insert q1 r) as [a|] eqn:E1; destruct (try_insert q2 r) as [b|] eqn:E2; cbn [fst snd]; auto.
  - apply try_insert_size in E1. apply try_insert_size in E2. repeat split; lia.
  - exfalso. destruct (proj1 (try_insert_fits q2 r)) as [x Hx]; [|congruence].
    rewrite <- Hs. apply try_insert_fits. eauto.
  - exfalso. destruct (proj1 (try_insert_fits q1 r)) as [x Hx]; [|congruence].
    rewrite Hs. apply try_insert_fits. eauto.
Qed.

Lemma set_qe_sim s1 s2 r :
  sim s1 s2 ->
  sim (set_qe s1 (submit (s_q s1, s_err s1) r)) (set_qe s2 (submit (s_q s2, s_err s2) r)).
Proof.
  intros (A & B & C & D). pose proof (submit_sim (s_q s1) (s_q s2) (s_err s1) r C D) as (E1 & E2 & E3).
  unfold sim. cbn [set_qe s_patches s_err s_q]. rewrite <- B. auto.
Qed.

Lemma record_unit_sim s1 s2 id old new : sim s1 s2 -> sim (record_unit s1 id old new) (record_unit s2 id old new).
Proof.
  unfold sim. intros (A & B & C & D).
  destruct (record_unit_fields s1 id old new) as (-> & _ & -> & ->).
  destruct (record_unit_fields s2 id old new) as (-> & _ & -> & ->). auto.
Qed.

Lemma apply_units_sim e m libname h id us s1 s2 s1' ret :
  sim s1 s2 -> apply_units e m libname h id us s1 = (s1', ret) ->
  exists s2', apply_units e m libname h id us s2 = (s2', ret) /\ sim s1' s2'.
Proof.
  revert s1 s2; induction us as [|u us IH]; intros s1 s2 HS H.
  - cbn in H. injection H as <- <-. exists s2. auto.
  - rewrite apply_units_step in *. cbv zeta in *.
    destruct (_ =? 0); [injection H as <- <-; eauto|]. destruct (_ =? 0); [injection H as <- <-; eauto|].
    set (old := get_loaded_symbol_addr _ _ _ _ _) in *. set (new := e_dlsym e h (u_new u)) in *.
    pose proof (record_unit_sim _ _ id old new HS) as HR.
    destruct (looks_patchable m old).
    + eapply IH; [|exact H]. apply set_qe_sim. exact HR.
    + apply pair_equal_spec in H. destruct H as [<- <-]. eexists. split; [reflexivity|].
      destruct HR as (A & B & C & D). repeat split; assumption.
Qed.

Lemma apply_refs_sim e h tb ti pb refs s1 s2 s1' ret :
  sim s1 s2 -> apply_refs e h tb ti pb refs s1 = Some (s1', ret) ->
  exists s2', apply_refs e h tb ti pb refs s2 = Some (s2', ret) /\ sim s1' s2'.
Proof.
  revert s1 s2; induction refs as [|r refs IH]; intros s1 s2 HS H.
  - cbn in H. injection H as <- <-. exists s2. auto.
  - cbn [apply_refs] in *. destruct (rf_poff r =? 0).
    + destruct (rf_name r) as [nm|]; [|discriminate]. destruct (_ =? 0); [injection H as <- <-; eauto|].
      rewrite memwrite_submit in *. eapply IH; [|exact H]. apply set_qe_sim. exact HS.
    + rewrite memwrite_submit in *. eapply IH; [|exact H]. apply set_qe_sim. exact HS.
Qed.

Lemma apply_all_sim e m h md s1 s2 s1' ret :
  sim s1 s2 -> ulp_apply_all_units e m h md s1 = Some (s1', ret) ->
  exists s2', ulp_apply_all_units e m h md s2 = Some (s2', ret) /\ sim s1' s2'.
Proof.
  intros HS H. unfold ulp_apply_all_units in *.
  destruct (apply_units e m (get_basename (md_name md)) h (md_id md) (md_units md) (next_universe s1)) as [t1 r1] eqn:E.
  assert (HS0 : sim (next_universe s1) (next_universe s2)) by exact HS.
  destruct (apply_units_sim _ _ _ _ _ _ _ _ _ _ HS0 E) as (t2 & E2 & HS2). rewrite E2.
  destruct (negb (r1 =? 0)); [injection H as <- <-; eauto|].
  destruct (_ =? 255); [injection H as <- <-; eauto|].
  destruct (e_laddr e h) as [la|]; [|injection H as <- <-; eauto].
  destruct (la =? 0); [injection H as <- <-; eauto|].
  eapply apply_refs_sim; eauto.
Qed.

Lemma load_patch_sim e m junk buf s1 s2 s1' ans md :
  sim s1 s2 -> parse_metadata_from_mem junk buf = P_ok md -> md_type md = 1 ->
  load_patch e m junk buf s1 = Some (s1', ans) ->
  exists s2', load_patch e m junk buf s2 = Some (s2', ans) /\ sim s1' s2'.
Proof.
  intros HS Hp Ht H. unfold load_patch in *. rewrite Hp in *. rewrite Ht in *. cbn [Z.eqb Pos.eqb] in *.
  pose proof HS as (A & B & C & D).
  assert (EC : check_patch_sanity e md s2 = check_patch_sanity e md s1)
    by (unfold check_patch_sanity, check_patch_dependencies, ulp_get_applied_patch; rewrite A; reflexivity).
  rewrite EC. destruct (check_patch_sanity e md s1) as [r|]; [|discriminate].
  destruct (negb (r =? 0)); [injection H as <- <-; eauto|].
  destruct (_ =? 0); [injection H as <- <-; eauto|].
  unfold ulp_state_update in *. destruct (resolve_units _ _ _ _ _) as [us|]; [|injection H as <- <-; eauto].
  destruct (ulp_apply_all_units e m (e_dlopen e (md_so md)) md (set_patches s1 _)) as [[t1 r1]|] eqn:E; [|discriminate].
  eapply apply_all_sim in E.
  - destruct E as (t2 & E2 & HS2).
    cbn zeta. rewrite E2.
    destruct (negb (r1 =? 0)); injection H as <- <-; eexists; (split; [reflexivity|]); auto.
    destruct HS2 as (? & ? & ? & ?); repeat split; auto.
  - unfold sim. cbn [set_patches s_patches s_err s_q]. rewrite A. auto.
Qed.
