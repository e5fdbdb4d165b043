(** Proofs about processes that load and unload libraries. *)
From Verif Require Import Base BaseFacts InsnQModel InsnQSpec InsnQProofs MetaModel StrModel
  X86Model X86Spec X86Proofs DlModel LibModel LibSpec LibProofs LibInv LibMem UnlSpec.

Lemma patch_req_near m f g en x : window_exists f ->
  ~ (f - 14 <= x < f + 6) -> forall pm, req_mem (patch_req m f g en) pm x = pm x.
Proof.
  intros [W1 W2] N pm. unfold patch_req. destruct en; cbn [req_mem]; apply mem_write_out.
  - rewrite u64_id, patched_prologue_len by lia. destruct (is_endbr64 m f); lia.
  - change (zlen [102; 144]) with 2. rewrite u64_id by (destruct (is_endbr64 m f); lia). destruct (is_endbr64 m f); lia.
Qed.

Section Code.
Variable F : list Z.
Variable eb : Z -> bool.

Lemma other_step m pm f g en R : clear_of F eb f -> code_ok F eb pm R -> code_ok F eb (req_mem (patch_req m f g en) pm) R.
Proof.
  intros C. apply code_ok_ext. intros a x Ha Hx. destruct (C a Ha) as [W N]. symmetry. apply patch_req_near; [exact W|]. apply N. exact Hx.
Qed.

Lemma revert_detours_other m a id todo pre q err rs R ds q' err' :
  clear_of F eb a -> qinv q rs -> err <> EINSNQ -> code_ok F eb (mem_of rs m) R ->
  revert_detours m a id pre todo (q, err) = (ds, (q', err')) -> err' <> EINSNQ ->
  err' = err /\ exists rs', qinv q' rs' /\ code_ok F eb (mem_of rs' m) R.
Proof.
  intros C. revert pre q err rs. induction todo as [|d t IH]; intros pre q err rs Hq He Hc H He'.
  - cbn in H. injection H as <- <- <-. split; auto. exists rs. auto.
  - cbn [revert_detours] in H. destruct (bytes_eqb (d_pid d) id); [|exact (IH _ _ _ _ Hq He Hc H He')].
    assert (G : revert_detours m a id (pre ++ [deactivate d]) t (q, err) = (ds, (q', err')) \/
                exists g en, revert_detours m a id (pre ++ [deactivate d]) t (submit (q, err) (patch_req m a g en)) = (ds, (q', err'))).
    { destruct (find d_active _) as [x|]; rewrite patch_addr_eq in H; destruct (looks_patchable m a); cbn [fst] in H; eauto. }
    destruct G as [G|(g & en & G)]; [exact (IH _ _ _ _ Hq He Hc G He')|].
    destruct (submit (q, err) (patch_req m a g en)) as [q1 err1] eqn:Es.
    destruct (submit_ok _ _ _ _ _ _ Hq (patch_req_ok m a g en) Es He) as [[-> Hq1]| -> ].
    + eapply (IH _ _ _ _ Hq1 He); [|exact G|exact He']. rewrite mem_of_app. apply other_step; assumption.
    + exfalso. apply He'. pose proof (revert_detours_dead m a id t (pre ++ [deactivate d]) (q1, EINSNQ) eq_refl) as X.
      rewrite G in X. exact X.
Qed.

Lemma revert_detours_none m a id todo pre qe : todo = [] -> revert_detours m a id pre todo qe = (pre, qe).
Proof. intros ->. reflexivity. Qed.

Definition placed (a : Z) : Prop := In a F \/ clear_of F eb a.

Lemma in_F_dec a : In a F \/ ~ In a F.
Proof. destruct (in_dec Z.eq_dec a F); auto. Qed.

Lemma revert_roots_code2 m id roots q err rs R roots' q' err' :
  frame F eb -> (forall r, In r roots -> r_detours r <> [] -> placed (r_addr r)) -> NoDup (map r_addr roots) ->
  (forall f, In f F -> entry_ok m (eb f) f) ->
  qinv q rs -> err <> EINSNQ ->
  code_ok F eb (mem_of rs m) R -> (forall r, In r roots -> R (r_addr r) = acts (r_detours r)) ->
  revert_roots m id roots (q, err) = (roots', (q', err')) -> err' <> EINSNQ ->
  err' = err /\ exists rs', qinv q' rs' /\
    code_ok F eb (mem_of rs' m) (fun b => if has_root roots b then filter (keep id) (R b) else R b).
Proof.
  intros HF Hin Hnd Hm. revert q err rs R roots' q' err'.
  induction roots as [|r t IH]; intros q err rs R roots' q' err' Hq He Hc HR H He'.
  - cbn in H. injection H as <- <- <-. split; auto. exists rs. auto.
  - cbn [revert_roots] in H. cbn [map] in Hnd. apply NoDup_cons_iff in Hnd. destruct Hnd as [Hn1 Hn2].
    destruct (revert_detours m (r_addr r) id [] (r_detours r) (q, err)) as [ds [q1 err1]] eqn:E1.
    destruct (revert_roots m id t (q1, err1)) as [t' [q2 err2]] eqn:E2. injection H as <- <- <-.
    assert (He1 : err1 <> EINSNQ).
    { intros ->. apply He'. pose proof (revert_roots_dead m id t (q1, EINSNQ) eq_refl) as X. rewrite E2 in X. exact X. }
    assert (Hds : acts ds = filter (keep id) (acts (r_detours r))).
    { pose proof (revert_detours_fst m (r_addr r) id [] (r_detours r) (q, err)) as X. rewrite E1 in X.
      cbn [fst app] in X. subst ds. unfold acts. apply active_drop. }
    assert (S1 : err1 = err /\ exists rs1, qinv q1 rs1 /\ code_ok F eb (mem_of rs1 m) (fun b => if b =? r_addr r then acts ds else R b)).
    { destruct (in_F_dec (r_addr r)) as [I|NI].
      - eapply revert_detours_code; try eassumption. apply HR. left. reflexivity.
      - assert (NF : forall X, code_ok F eb X R -> code_ok F eb X (fun b => if b =? r_addr r then acts ds else R b)).
        { intros X. apply code_ok_R. intros f Hf. destruct (Z.eqb_spec f (r_addr r)) as [->|]; [contradiction|reflexivity]. }
        destruct (r_detours r) as [|d0 dl] eqn:ED.
        + cbn in E1. injection E1 as <- <- <-. split; [reflexivity|]. exists rs. auto.
        + destruct (Hin r (or_introl eq_refl)) as [I|C]; [rewrite ED; discriminate|contradiction|].
          destruct (revert_detours_other _ _ _ _ _ _ _ _ R _ _ _ C Hq He Hc E1 He1) as (-> & rs1 & Q1 & C1). split; [reflexivity|]. exists rs1. auto. }
    destruct S1 as (-> & rs1 & Hq1 & Hc1).
    eapply IH in E2; eauto.
    + destruct E2 as (-> & rs2 & Hq2 & Hc2). split; auto. exists rs2. split; auto.
      eapply code_ok_R; [|exact Hc2]. intros f Hf. cbn beta. unfold has_root. cbn [existsb].
      rewrite (Z.eqb_sym (r_addr r) f). fold (has_root t f).
      destruct (Z.eqb_spec f (r_addr r)) as [->|Hne]; cbn [orb]; [|reflexivity].
      destruct (has_root t (r_addr r)) eqn:X; [apply has_root_iff in X; contradiction|].
      rewrite Hds. rewrite (HR r (or_introl eq_refl)). reflexivity.
    + intros r0 Hr0. apply Hin. right. exact Hr0.
    + intros r0 Hr0. cbn beta. destruct (Z.eqb_spec (r_addr r0) (r_addr r)) as [E|E].
      * exfalso. apply Hn1. rewrite <- E. apply in_map. exact Hr0.
      * apply HR. right. exact Hr0.
Qed.

Definition tied2 (m : mem) (st : lstate) (rs : list req) : Prop :=
  qinv (s_q st) rs /\ (forall a, detours_at (s_roots st) a <> [] -> placed a) /\
  code_ok F eb (mem_of rs m) (active_at (s_roots st)).

Lemma detours_at_root roots r : NoDup (map r_addr roots) -> In r roots -> detours_at roots (r_addr r) = r_detours r.
Proof.
  unfold detours_at. intros Hn Hr. induction roots as [|x t IH]; [destruct Hr|]. cbn [find]. cbn [map] in Hn.
  apply NoDup_cons_iff in Hn. destruct Hn as [N1 N2]. destruct Hr as [->|Hr].
  - rewrite Z.eqb_refl. reflexivity.
  - destruct (Z.eqb_spec (r_addr x) (r_addr r)) as [E|E]; [|apply IH; auto].
    exfalso. apply N1. rewrite E. apply in_map. exact Hr.
Qed.

Lemma revert_patch_tied2 m id st rs st' ret :
  frame F eb -> linv st -> (forall f, In f F -> entry_ok m (eb f) f) ->
  tied2 m st rs -> s_err st <> EINSNQ ->
  ulp_revert_patch m id st = (st', ret) -> s_err st' <> EINSNQ ->
  s_err st' = s_err st /\ exists rs', tied2 m st' rs'.
Proof.
  intros HF Hl Hm (T1 & T2 & T3) He H He'.
  pose proof (revert_patch_lists _ _ _ _ _ H) as (_ & L2 & _).
  unfold ulp_revert_patch in H. change (s_roots (next_universe st)) with (s_roots st) in H.
  change (s_q (next_universe st)) with (s_q st) in H. change (s_err (next_universe st)) with (s_err st) in H.
  destruct (revert_roots m id (s_roots st) (s_q st, s_err st)) as [roots [q' err']] eqn:E.
  assert (G : s_q st' = q' /\ s_err st' = err').
  { destruct (state_remove _ _); injection H as <- <-; auto. }
  destruct G as [G1 G2]. rewrite G2 in *.
  eapply revert_roots_code2 in E; eauto.
  - destruct E as (E1 & rs' & E2 & E3). split; auto. exists rs'. split; [rewrite G1; exact E2|]. split.
    + intros a Ha. apply T2. intros X. apply Ha. rewrite L2, detours_at_drop, X. reflexivity.
    + eapply code_ok_R; [|exact E3]. intros f Hf. cbn beta. rewrite L2, active_at_drop.
      destruct (has_root (s_roots st) f) eqn:X; [reflexivity|]. rewrite active_at_no_root by exact X. reflexivity.
  - intros r Hr Hd. apply T2. rewrite detours_at_root; auto. apply li_roots. exact Hl.
  - apply li_roots. exact Hl.
  - intros r Hr. apply active_at_root; auto. apply li_roots. exact Hl.
Qed.

Lemma chain_tied2 m st ids st' rs :
  revert_chain m st ids st' ->
  frame F eb -> linv st -> (forall f, In f F -> entry_ok m (eb f) f) ->
  tied2 m st rs -> s_err st <> EINSNQ -> s_err st' <> EINSNQ ->
  s_err st' = s_err st /\ exists rs', tied2 m st' rs'.
Proof.
  intros H HF. revert rs. induction H as [|st id ids st1 st2 H1 H2 H3 IH]; intros rs Hl Hm Ht He He'; eauto.
  assert (He1 : s_err st1 <> EINSNQ) by (intros X; apply He'; eapply chain_dead; eauto).
  destruct (revert_patch_tied2 _ _ _ _ _ _ HF Hl Hm Ht He H2 He1) as (E & rs1 & Ht1).
  rewrite <- E. eapply IH; eauto.
  eapply revert_patch_linv; eauto. apply can_revert_iff in H1. tauto.
Qed.

Lemma apply_units_code2 e m libname h id us st st' rs :
  frame F eb -> (forall f, In f F -> entry_ok m (eb f) f) ->
  (forall f g, In (f, g) (unit_pairs e libname h us) -> In f F \/ clear_of F eb f \/ ~ exists endbr, livepatchable m endbr f) ->
  tied2 m st rs -> s_err st <> EINSNQ ->
  apply_units e m libname h id us st = (st', 0) -> s_err st' <> EINSNQ ->
  s_err st' = s_err st /\ exists rs', tied2 m st' rs'.
Proof.
  intros HF Hm. revert st rs; induction us as [|u us IH]; intros st rs Hp Ht He H He'.
  - cbn in H. injection H as <-. eauto.
  - rewrite apply_units_step in H. cbv zeta in H.
    destruct (_ =? 0); [discriminate|]. destruct (_ =? 0); [discriminate|].
    set (old := get_loaded_symbol_addr _ _ _ _ _) in *. set (new := e_dlsym e h (u_new u)) in *.
    destruct (looks_patchable m old) eqn:EL; [|discriminate].
    assert (Ho : placed old).
    { destruct (Hp old new) as [X|[X|X]]; [left; reflexivity|left; exact X|right; exact X|]. exfalso. apply X.
      eapply looks_livepatchable; eassumption. }
    destruct (record_unit_fields st id old new) as (F1 & F2 & F3 & F4).
    rewrite F3, F4 in H. destruct Ht as (T1 & T2 & T3).
    destruct (submit (s_q st, s_err st) (patch_req m old new true)) as [q1 err1] eqn:Es.
    destruct (submit_ok _ _ _ _ _ _ T1 (patch_req_ok m old new true) Es He) as [[-> Hq1]| -> ].
    + eapply IH in H; eauto.
      * intros f g Hfg. apply (Hp f g). right. exact Hfg.
      * split; [exact Hq1|]. cbn [set_qe s_roots]. split.
        { intros a Ha. rewrite record_unit_detours in Ha. destruct (Z.eqb_spec a old) as [E|]; [rewrite E; exact Ho|]. apply T2. exact Ha. }
        rewrite mem_of_app. cbn [mem_of fold_left].
        destruct (in_F_dec old) as [I|NI].
        { eapply code_ok_R; [|eapply (enable_step F eb m _ old new _ id (active_at (s_roots st) old)); eauto].
          intros f Hf. cbn beta. unfold active_at. rewrite record_unit_detours.
          destruct (Z.eqb_spec f old) as [->|Hne]; [|reflexivity]. reflexivity. }
        { destruct Ho as [Ho|Ho]; [contradiction|]. eapply code_ok_R; [|apply (other_step m _ old new true (active_at (s_roots st))); assumption].
          intros f Hf. unfold active_at. rewrite record_unit_detours. destruct (Z.eqb_spec f old) as [E|]; [rewrite E in Hf; contradiction|reflexivity]. }
    + exfalso. apply He'. eapply apply_units_dead; eauto.
Qed.

Lemma apply_refs_code2 e h tb ti pb refs m st st' rs :
  (forall n, 0 <= e_dlsym e h n < 2 ^ 64) ->
  (forall r pa x f, In r refs ->
     (rf_poff r = 0 /\ exists name, rf_name r = Some name /\ pa = e_dlsym e h name) \/
     (rf_poff r <> 0 /\ pa = u64 (pb + rf_poff r)) ->
     pa <= x < pa + 16 -> In f F -> ~ in_window (eb f) f x) ->
  tied2 m st rs -> s_err st <> EINSNQ ->
  apply_refs e h tb ti pb refs st = Some (st', 0) -> s_err st' <> EINSNQ ->
  s_err st' = s_err st /\ exists rs', tied2 m st' rs'.
Proof.
  intros Hsane. revert st rs; induction refs as [|r refs IH]; intros st rs Hr Ht He H He'.
  - cbn in H. injection H as <-. eauto.
  - cbn [apply_refs] in H. fold (ref_data tb ti r) in H.
    assert (G : exists pa, 0 <= pa < 2 ^ 64 /\
       ((rf_poff r = 0 /\ exists name, rf_name r = Some name /\ pa = e_dlsym e h name) \/
        (rf_poff r <> 0 /\ pa = u64 (pb + rf_poff r))) /\
       apply_refs e h tb ti pb refs (set_qe st (submit (s_q st, s_err st) (RWrite pa (ref_data tb ti r)))) = Some (st', 0)).
    { destruct (Z.eqb_spec (rf_poff r) 0) as [E0|E0].
      - destruct (rf_name r) as [name|]; [|discriminate].
        destruct (e_dlsym e h name =? 0); [discriminate|]. exists (e_dlsym e h name).
        split; [apply Hsane|]. split; [left; eauto|rewrite <- memwrite_submit; exact H].
      - exists (u64 (pb + rf_poff r)). split; [unfold u64; apply Z.mod_pos_bound; lia|]. split; [right; auto|rewrite <- memwrite_submit; exact H]. }
    clear H. destruct G as (pa & Hpa & Hcase & H).
    destruct (ref_data_ok tb ti r) as [Hb Hlen].
    destruct Ht as (T1 & T2 & T3).
    destruct (submit (s_q st, s_err st) (RWrite pa (ref_data tb ti r))) as [q1 err1] eqn:Es.
    destruct (submit_ok _ _ _ _ _ _ T1 (conj Hpa Hb : req_ok (RWrite pa (ref_data tb ti r))) Es He) as [[-> Hq1]| -> ].
    + eapply IH in H; eauto.
      * intros r0 pa0 x f Hin. apply Hr. right. exact Hin.
      * split; [exact Hq1|]. cbn [set_qe s_roots]. split; [exact T2|].
        rewrite mem_of_app. cbn [mem_of fold_left req_mem].
        eapply code_ok_ext; [|exact T3]. intros f x Hf Hx. symmetry. apply mem_write_out.
        assert (~ (pa <= x < pa + 16)).
        { intros X. apply (Hr r pa x f (or_introl eq_refl) Hcase X Hf). exact Hx. }
        lia.
    + exfalso. apply He'. eapply apply_refs_dead; eauto.
Qed.

Lemma apply_all_code2 e m h md st st' rs :
  frame F eb -> (forall f, In f F -> entry_ok m (eb f) f) -> h = e_dlopen e (md_so md) ->
  env_sane e ->
  (forall f g, In (f, g) (replacements e md) -> In f F \/ clear_of F eb f \/ ~ exists endbr, livepatchable m endbr f) ->
  (forall r pa x f, In r (md_refs md) -> ref_address e md r pa ->
     pa <= x < pa + 16 -> In f F -> ~ in_window (eb f) f x) ->
  tied2 m st rs -> s_err st <> EINSNQ ->
  ulp_apply_all_units e m h md st = Some (st', 0) -> s_err st' <> EINSNQ ->
  s_err st' = s_err st /\ exists rs', tied2 m st' rs'.
Proof.
  intros HF Hm Hh Hs Hp Hr Ht He H He'. unfold ulp_apply_all_units in H.
  destruct (apply_units _ _ _ _ _ _ _) as [st1 r1] eqn:E.
  destruct (Z.eqb_spec r1 0) as [->|E0]; cbn [negb] in H; [|injection H as <- ->; contradiction].
  destruct (_ =? 255); [discriminate|]. destruct (e_laddr e h) as [la|] eqn:El; [|discriminate].
  destruct (la =? 0); [discriminate|].
  assert (He1 : s_err st1 <> EINSNQ) by (intros X; apply He'; eapply apply_refs_dead; eauto).
  eapply apply_units_code2 in E; eauto; [|rewrite Hh; exact Hp].
  destruct E as (E1 & rs1 & Ht1). rewrite E1 in He1.
  eapply apply_refs_code2 in H; eauto.
  - destruct H as (E2 & H). split; [etransitivity; [exact E2|exact E1]|exact H].
  - intros r pa x f Hin Hc. apply (Hr r pa x f Hin). unfold ref_address. rewrite <- Hh.
    destruct Hc as [Hc|[Hc1 Hc2]]; [left; exact Hc|right; split; auto]. exists la. auto.
  - rewrite E1. exact He1.
Qed.

Lemma event_tied2 ev p p' ans rs :
  frame F eb -> linv (p_lib p) -> careful_event F eb p ev -> do_event ev p = Some (p', ans) ->
  alive (p_lib p') -> tied2 (p_mem p) (p_lib p) rs ->
  exists rs', tied2 (p_mem p') (p_lib p') rs'.
Proof.
  intros HF Hl Hok H Ha Ht. pose proof (alive_err _ Ha) as He'.
  assert (ENT : rs = [] -> forall f, In f F -> entry_ok (p_mem p) (eb f) f).
  { intros -> f Hf. destruct Ht as (_ & _ & Ht). eapply route_ok_entry. apply Ht. exact Hf. }
  destruct ev as [busy e junk buf|busy e name| |te|m']; cbn [do_event] in H.
  - destruct (ulp_apply_patch _ _ _ _ _ _) as [[st a]|] eqn:Ex; [|discriminate]. injection H as <- <-.
    cbn [p_lib p_mem] in *. apply apply_outcome in Ex. destruct Ex as [Ex|(E0 & Eq & _ & Ex)].
    { apply gate_alive in Ex; auto. subst. eauto. }
    assert (rs = []) by (eapply qinv_empty_iff; [apply Ht|exact Eq]). specialize (ENT H). subst rs.
    assert (He : s_err (p_lib p) <> EINSNQ) by (rewrite E0; discriminate).
    destruct Hok as [Hsane Hok].
    destruct Ex as [ans Hans|md st' ans Hp Hty Hcr Hrv|md st1 st2 ans Hp Hty Hb Hd Hap Hh Hu Hx].
    + eauto.
    + eapply revert_patch_tied2 in Hrv; eauto. destruct Hrv as (_ & Hrv). exact Hrv.
    + destruct (Z.eqb_spec ans 0) as [->|Hne].
      2:{ exfalso. destruct Ha as [Ha|Ha]; cbn in Ha; discriminate. }
      apply state_update_some in Hu. destruct Hu as (us & Hus & ->).
      destruct (Hok md Hp) as [Hok1 Hok2].
      eapply apply_all_code2 in Hx; eauto. destruct Hx as (_ & Hx). exact Hx.
  - destruct (ulp_revert_patches_from_lib _ _ _ _ _ _) as [[st a]|] eqn:Ex; [|discriminate]. injection H as <- <-.
    cbn [p_lib p_mem] in *. apply revert_all_outcome in Ex.
    destruct Ex as [Ex|(E0 & Eq & _ & [(-> & ->)|[(Hm & -> & ->)|(Hm & -> & Hch)]])]; eauto.
    { apply gate_alive in Ex; auto. subst. eauto. }
    assert (rs = []) by (eapply qinv_empty_iff; [apply Ht|exact Eq]). specialize (ENT H). subst rs.
    eapply chain_tied2 in Hch; eauto; [|rewrite E0; discriminate].
    destruct Hch as (_ & Hch). exact Hch.
  - injection H as <- <-. exists rs. cbn [p_lib p_mem]. unfold ENONE.
    destruct (_ =? 0); [|destruct (_ =? EUSRBLOCKED)]; exact Ht.
  - destruct (insnq_interpret_from_process _ _ _ _) as [[[r q] t]|] eqn:Ex; [|discriminate]. injection H as <- <-.
    cbn [p_lib p_mem set_qe] in *. destruct Ht as (T1 & T2 & T3).
    pose proof (interpret_cases _ _ _ _ _ _ _ T1 Hok Ex) as G.
    destruct G as [(-> & -> & _)|[(-> & -> & _)|(-> & -> & _)]].
    + exists rs. split; auto.
    + exists rs. split; [exact T1|]. split; [exact T2|]. rewrite perform_all_mem. cbn [t_mem s_roots].
      eapply code_ok_ext; [|exact T3]. intros f x _ _. symmetry. apply mem_of_twice.
    + exists []. split; [eapply qinv_reset; exact T1|]. split; [exact T2|]. rewrite perform_all_mem. exact T3.
  - injection H as <- <-. cbn [p_lib p_mem] in *. exists rs. destruct Ht as (T1 & T2 & T3).
    split; auto. split; auto. eapply code_ok_ext; [|exact T3]. intros f x Hf Hx. apply mem_of_ext.
    symmetry. eapply Hok; eauto.
Qed.

End Code.

(** ** Histories *)

Lemma careful_is_history F eb p0 tr p : careful_history F eb p0 tr p -> history p0 tr p.
Proof. induction 1; econstructor; eauto. Qed.

Lemma history_app p0 tr1 p1 tr2 p2 : history p0 tr1 p1 -> history p1 tr2 p2 -> history p0 (tr1 ++ tr2) p2.
Proof.
  intros H1. induction 1 as [|tr p ev p' ans H IH E]; [rewrite app_nil_r; exact H1|].
  rewrite app_assoc. econstructor; eauto.
Qed.

(** Every detour ever recorded stems from a successful application. *)
Definition detours_known (tr : list (event * Z)) (st : lstate) : Prop :=
  forall a d, In d (detours_at (s_roots st) a) -> replaced_by tr (d_pid d) a.

Lemma replaced_by_more tr tr' id f : replaced_by tr id f -> replaced_by (tr ++ tr') id f.
Proof.
  intros (busy & e & junk & buf & md & g & H1 & H2). exists busy, e, junk, buf, md, g. split; [apply in_or_app; left; exact H1|exact H2].
Qed.

Lemma known_drop tr id st st' : s_roots st' = map (root_drop id) (s_roots st) -> detours_known tr st -> detours_known tr st'.
Proof.
  intros E K a d. rewrite E, detours_at_drop. intros H. apply in_map_iff in H. destruct H as (d0 & <- & H). apply K in H.
  unfold drop_id, deactivate. destruct (bytes_eqb _ _); exact H.
Qed.

Lemma chain_known tr m st ids st' : revert_chain m st ids st' -> detours_known tr st -> detours_known tr st'.
Proof.
  induction 1 as [|st id ids st1 st2 H1 H2 H3 IH]; auto. intros K. apply IH. apply revert_patch_lists in H2. destruct H2 as (_ & H2 & _).
  eapply known_drop; eauto.
Qed.

Lemma event_known tr ev p p' ans :
  do_event ev p = Some (p', ans) -> alive (p_lib p') -> detours_known tr (p_lib p) -> detours_known (tr ++ [(ev, ans)]) (p_lib p').
Proof.
  intros H Ha K.
  assert (KM : forall x st, s_roots st = s_roots (p_lib p) -> detours_known (tr ++ x) st) by (intros x st E a d I; rewrite E in I; apply replaced_by_more, K; exact I).
  destruct ev as [busy e junk buf|busy e name| |te|m']; cbn [do_event] in H.
  - destruct (ulp_apply_patch _ _ _ _ _ _) as [[st a]|] eqn:Ex; [|discriminate]. injection H as <- <-.
    cbn [p_lib p_mem] in *. apply apply_outcome in Ex. destruct Ex as [Ex|(E0 & Eq & _ & Ex)].
    { apply gate_alive in Ex; auto. subst. apply KM; reflexivity. }
    destruct Ex as [ans Hans|md st' ans Hp Hty Hcr Hrv|md st1 st2 ans Hp Hty Hb Hd Hap Hh Hu Hx].
    + apply KM; reflexivity.
    + apply revert_patch_lists in Hrv. destruct Hrv as (_ & Hrv & _). eapply known_drop; [exact Hrv|apply KM; reflexivity].
    + destruct (Z.eqb_spec ans 0) as [->|Hne].
      2:{ exfalso. destruct Ha as [Ha|Ha]; cbn in Ha; discriminate. }
      apply state_update_some in Hu. destruct Hu as (us & Hus & ->).
      apply apply_all_lists in Hx. destruct Hx as (_ & _ & _ & Hx). specialize (Hx eq_refl).
      intros a d. rewrite Hx. intros I. apply in_app_or in I. destruct I as [I|I]; [|eapply KM; [|exact I]; reflexivity].
      unfold new_detours in I. apply in_map_iff in I. destruct I as ([f g] & <- & I). apply in_rev in I.
      apply filter_In in I. destruct I as [I Ef]. cbn [fst] in Ef. apply Z.eqb_eq in Ef. subst f. cbn [d_pid].
      exists busy, e, junk, buf, md, g. split; [apply in_or_app; right; left; reflexivity|]. split; [exact Hp|]. split; [lia|].
      split; [reflexivity|]. rewrite replacements_pairs. exact I.
  - destruct (ulp_revert_patches_from_lib _ _ _ _ _ _) as [[st a]|] eqn:Ex; [|discriminate]. injection H as <- <-.
    cbn [p_lib p_mem] in *. apply revert_all_outcome in Ex.
    destruct Ex as [Ex|(E0 & Eq & _ & [(-> & ->)|[(Hm & -> & ->)|(Hm & -> & Hch)]])]; try (apply KM; reflexivity).
    { apply gate_alive in Ex; auto. subst. apply KM; reflexivity. }
    eapply chain_known; [exact Hch|apply KM; reflexivity].
  - injection H as <- <-. cbn [p_lib p_mem]. unfold ENONE.
    destruct (_ =? 0); [|destruct (_ =? EUSRBLOCKED)]; apply KM; reflexivity.
  - destruct (insnq_interpret_from_process _ _ _ _) as [[[r q] t]|] eqn:Ex; [|discriminate]. injection H as <- <-. apply KM; reflexivity.
  - injection H as <- <-. apply KM; reflexivity.
Qed.

Lemma history_known m stale tr p : history (fresh m stale) tr p -> alive (p_lib p) -> detours_known tr (p_lib p).
Proof.
  induction 1 as [|tr p ev p' ans H IH E]; intros Ha; [intros a d []|].
  eapply event_known; eauto. apply IH. eapply dead_absorbing; eauto.
Qed.

Lemma careful_tied2 F eb p0 tr p rs0 :
  frame F eb -> linv (p_lib p0) -> tied2 F eb (p_mem p0) (p_lib p0) rs0 -> careful_history F eb p0 tr p -> alive (p_lib p) ->
  exists rs, tied2 F eb (p_mem p) (p_lib p) rs.
Proof.
  intros HF Hl Ht. induction 1 as [|tr p ev p' ans H IH Hok E]; intros Ha; [eauto|].
  destruct (IH (dead_absorbing _ _ _ _ E Ha)) as (rs & Ht').
  assert (L : linv (p_lib p)) by (clear - Hl H; apply careful_is_history in H; induction H; auto; eapply event_linv; eauto).
  eapply event_tied2; eauto.
Qed.

(** ** What a revert writes *)

Lemma revert_detours_reqs m a id todo pre q err rs ds q' err' :
  qinv q rs -> err <> EINSNQ ->
  revert_detours m a id pre todo (q, err) = (ds, (q', err')) -> err' <> EINSNQ ->
  err' = err /\ exists rs', qinv q' (rs ++ rs') /\
    (forall r, In r rs' -> (exists g en, r = patch_req m a g en) /\ looks_patchable m a = true /\ exists d, In d todo /\ d_pid d = id).
Proof.
  revert pre q err rs. induction todo as [|d t IH]; intros pre q err rs Hq He H He'.
  - cbn in H. injection H as <- <- <-. split; auto. exists []. rewrite app_nil_r. split; [exact Hq|intros r []].
  - cbn [revert_detours] in H.
    assert (NEXT : forall q1 rs1, qinv q1 (rs ++ rs1) -> (forall r, In r rs1 -> (exists g en, r = patch_req m a g en) /\ looks_patchable m a = true /\ exists d', In d' (d :: t) /\ d_pid d' = id) ->
              forall pre1, revert_detours m a id pre1 t (q1, err) = (ds, (q', err')) ->
              err' = err /\ exists rs', qinv q' (rs ++ rs') /\
                (forall r, In r rs' -> (exists g en, r = patch_req m a g en) /\ looks_patchable m a = true /\ exists d', In d' (d :: t) /\ d_pid d' = id)).
    { intros q1 rs1 Q1 A1 pre1 G. destruct (IH _ _ _ _ Q1 He G He') as (E & rs2 & Q2 & A2). split; [exact E|].
      exists (rs1 ++ rs2). rewrite app_assoc. split; [exact Q2|]. intros r I. apply in_app_or in I. destruct I as [I|I]; [apply A1; exact I|].
      destruct (A2 r I) as (B1 & B2 & d' & B3 & B4). split; [exact B1|]. split; [exact B2|]. exists d'. split; [right; exact B3|exact B4]. }
    assert (Q0 : qinv q (rs ++ [])) by (rewrite app_nil_r; exact Hq).
    destruct (bytes_eqb (d_pid d) id) eqn:EB; [|exact (NEXT q [] Q0 ltac:(intros r []) _ H)].
    apply bytes_eqb_eq in EB.
    assert (G : revert_detours m a id (pre ++ [deactivate d]) t (q, err) = (ds, (q', err')) \/
                (looks_patchable m a = true /\ exists g en, revert_detours m a id (pre ++ [deactivate d]) t (submit (q, err) (patch_req m a g en)) = (ds, (q', err')))).
    { destruct (find d_active _) as [x|]; rewrite patch_addr_eq in H; destruct (looks_patchable m a); cbn [fst] in H; eauto. }
    destruct G as [G|(L & g & en & G)]; [exact (NEXT q [] Q0 ltac:(intros r []) _ G)|].
    destruct (submit (q, err) (patch_req m a g en)) as [q1 err1] eqn:Es.
    destruct (submit_ok _ _ _ _ _ _ Hq (patch_req_ok m a g en) Es He) as [[-> Hq1]| -> ].
    + apply (NEXT q1 [patch_req m a g en] Hq1) with (pre1 := pre ++ [deactivate d]); [|exact G].
      intros r [<-|[]]. split; [eauto|]. split; [exact L|]. exists d. split; [left; reflexivity|exact EB].
    + exfalso. apply He'. pose proof (revert_detours_dead m a id t (pre ++ [deactivate d]) (q1, EINSNQ) eq_refl) as X.
      rewrite G in X. exact X.
Qed.

Lemma revert_roots_reqs m id roots q err rs roots' q' err' :
  qinv q rs -> err <> EINSNQ ->
  revert_roots m id roots (q, err) = (roots', (q', err')) -> err' <> EINSNQ ->
  err' = err /\ exists rs', qinv q' (rs ++ rs') /\
    (forall r, In r rs' -> exists x g en d, In x roots /\ r = patch_req m (r_addr x) g en /\ looks_patchable m (r_addr x) = true /\
       In d (r_detours x) /\ d_pid d = id).
Proof.
  revert q err rs roots' q' err'. induction roots as [|x t IH]; intros q err rs roots' q' err' Hq He H He'.
  - cbn in H. injection H as <- <- <-. split; auto. exists []. rewrite app_nil_r. split; [exact Hq|intros r []].
  - cbn [revert_roots] in H.
    destruct (revert_detours m (r_addr x) id [] (r_detours x) (q, err)) as [ds [q1 err1]] eqn:E1.
    destruct (revert_roots m id t (q1, err1)) as [t' [q2 err2]] eqn:E2. injection H as <- <- <-.
    assert (He1 : err1 <> EINSNQ).
    { intros ->. apply He'. pose proof (revert_roots_dead m id t (q1, EINSNQ) eq_refl) as X. rewrite E2 in X. exact X. }
    destruct (revert_detours_reqs _ _ _ _ _ _ _ _ _ _ _ Hq He E1 He1) as (-> & rs1 & Q1 & A1).
    destruct (IH _ _ _ _ _ _ Q1 He E2 He') as (-> & rs2 & Q2 & A2). split; [reflexivity|].
    exists (rs1 ++ rs2). rewrite app_assoc. split; [exact Q2|]. intros r I. apply in_app_or in I. destruct I as [I|I].
    + destruct (A1 r I) as ((g & en & B1) & B2 & d & B3 & B4). exists x, g, en, d. split; [left; reflexivity|]. auto.
    + destruct (A2 r I) as (y & g & en & d & B1 & B2). exists y, g, en, d. split; [right; exact B1|exact B2].
Qed.
