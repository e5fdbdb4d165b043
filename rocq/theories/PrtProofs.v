(** Proofs about histories on POWER. *)
From Verif Require Import Base BaseFacts InsnQModel InsnQSpec InsnQProofs StrModel X86Proofs DlModel LibModel LibSpec
  LibProofs LibInv LibMem PpcModel PpcSpec PpcProofs PrtModel PrtSpec.

(** ** The lists *)

Lemma apply_pairs_step patch id old new us st :
  apply_pairs patch id ((old, new) :: us) st =
  if old =? 0 then (st, ENOOLDFUNC)
  else if new =? 0 then (st, ENONEWFUNC)
  else
    let st1 := record_unit st id old new in
    let '(qe, rc) := patch (s_q st1, s_err st1) old new true in
    if rc >? 0 then (set_qe st1 qe, rc) else apply_pairs patch id us (set_qe st1 qe).
Proof. reflexivity. Qed.

Lemma apply_pairs_lists patch id ps st st' ret :
  apply_pairs patch id ps st = (st', ret) ->
  s_patches st' = s_patches st /\ s_universe st' = s_universe st /\
  (ret = 0 -> forall a, detours_at (s_roots st') a =
     new_detours id (s_universe st) a ps ++ detours_at (s_roots st) a).
Proof.
  revert st; induction ps as [|[old new] us IH]; intros st H.
  - cbn in H. injection H as <- <-. repeat split; auto.
  - rewrite apply_pairs_step in H.
    destruct (old =? 0); [injection H as <- <-; repeat split; auto; discriminate|].
    destruct (new =? 0); [injection H as <- <-; repeat split; auto; discriminate|].
    cbv zeta in H. destruct (record_unit_fields st id old new) as (F1 & F2 & F3 & F4).
    destruct (patch _ old new true) as [qe rc]. destruct (Z.gtb_spec rc 0) as [Hrc|Hrc].
    + injection H as <- <-. cbn [set_qe s_patches s_universe s_roots]. repeat split; auto. lia.
    + apply IH in H. cbn [set_qe s_patches s_universe s_roots] in H. rewrite F1, F2 in H.
      destruct H as (H1 & H2 & H3). repeat split; auto. intros Hr a.
      rewrite (H3 Hr a), record_unit_detours. unfold new_detours. cbn [map filter fst].
      rewrite (Z.eqb_sym a old). destruct (old =? a); [|reflexivity].
      cbn [rev]. rewrite map_app, <- app_assoc. reflexivity.
Qed.

Lemma apply_pairs_nodup patch id ps st st' ret :
  apply_pairs patch id ps st = (st', ret) ->
  NoDup (map r_addr (s_roots st)) -> NoDup (map r_addr (s_roots st')).
Proof.
  revert st; induction ps as [|[old new] us IH]; intros st H Hn.
  - cbn in H. injection H as <- <-. auto.
  - rewrite apply_pairs_step in H.
    destruct (old =? 0); [injection H as <- <-; auto|].
    destruct (new =? 0); [injection H as <- <-; auto|].
    cbv zeta in H. destruct (patch _ old new true) as [qe rc]. destruct (rc >? 0).
    + injection H as <- <-. apply record_unit_nodup. exact Hn.
    + apply IH in H; auto. apply record_unit_nodup. exact Hn.
Qed.

Lemma revert_detours_by_fst patch a id pre todo qe :
  fst (revert_detours_by patch a id pre todo qe) = pre ++ map (drop_id id) todo.
Proof.
  revert pre qe; induction todo as [|d t IH]; intros pre qe.
  - cbn. rewrite app_nil_r. reflexivity.
  - cbn [revert_detours_by map]. unfold drop_id at 1. destruct (bytes_eqb (d_pid d) id);
      rewrite IH, <- app_assoc; reflexivity.
Qed.

Lemma revert_roots_by_fst patch id roots qe :
  fst (revert_roots_by patch id roots qe) = map (root_drop id) roots.
Proof.
  revert qe; induction roots as [|r t IH]; intros qe; [reflexivity|].
  cbn [revert_roots_by map].
  pose proof (revert_detours_by_fst patch (r_addr r) id [] (r_detours r) qe) as H.
  destruct (revert_detours_by patch (r_addr r) id [] (r_detours r) qe) as [ds qe1]. cbn [fst app] in H. subst ds.
  specialize (IH qe1). destruct (revert_roots_by patch id t qe1) as [t' qe2]. cbn [fst] in *. subst t'. reflexivity.
Qed.

Lemma revert_by_lists patch id st st' ret :
  revert_patch_by patch id st = (st', ret) ->
  s_roots st' = map (root_drop id) (s_roots st) /\
  (ret = 0 -> state_remove id (s_patches st) = Some (s_patches st')) /\
  (ret <> 0 -> s_patches st' = s_patches st /\ state_remove id (s_patches st) = None).
Proof.
  unfold revert_patch_by.
  pose proof (revert_roots_by_fst patch id (s_roots (next_universe st)) (s_q (next_universe st), s_err (next_universe st))) as H.
  destruct (revert_roots_by _ _ _ _) as [roots qe]. cbn [fst] in H. subst roots.
  change (s_patches (set_qe _ qe)) with (s_patches st).
  destruct (state_remove id (s_patches st)) as [ps|] eqn:E; intros H; injection H as <- <-; cbn;
    repeat split; auto; unfold ESTATE; try lia; try congruence.
Qed.

(** ** One write of the entry *)

Definition area (T g : Z) : list Z := concat (map (le_enc 4) (ulp_prologue_words T)) ++ le_enc 8 g.

Definition patched (T : Z) (en : bool) (f off g : Z) (pm : mem) : mem :=
  if en then mem_write (mem_write pm (f - 52) (area T g)) (f + off) (le_enc 4 (branch_word (f + off) (f - 52)))
  else mem_write pm (f + off) (le_enc 4 NOP_WORD).

Lemma submit_snd_dead qe r : snd qe = EINSNQ -> snd (submit qe r) = EINSNQ.
Proof. destruct qe as [q e]. cbn [snd]. intros ->. apply submit_dead. Qed.

Lemma ppc_patch_dead T m qe f g en : snd qe = EINSNQ -> snd (fst (ppc_patch_addr T m qe f g en)) = EINSNQ.
Proof.
  intros H. destruct en; [rewrite ppc_patch_eq|rewrite ppc_skip_eq]; destruct (get_branch_offset m f); cbn [fst];
    repeat apply submit_snd_dead; exact H.
Qed.

Lemma ppc_patch_effect T m f off g en q err rs q' err' rc :
  ppc_livepatchable m f off -> 52 <= f -> f + off + 4 < 2 ^ 64 ->
  qinv q rs -> Forall req_ok rs -> err <> EINSNQ ->
  ppc_patch_addr T m (q, err) f g en = ((q', err'), rc) -> err' <> EINSNQ ->
  rc = 0 /\ err' = err /\ exists rs', qinv q' rs' /\ Forall req_ok rs' /\
    mem_of rs' m = patched T en f off g (mem_of rs m).
Proof.
  intros HL Hf1 Hf2 Hq Hok He H He'.
  assert (Ho : off = 0 \/ off = 8) by (destruct HL as [_ [[-> _]|[-> _]]]; auto).
  pose proof (get_branch_offset_ok _ _ _ HL) as HO.
  assert (U1 : u64 (f - 52) = f - 52) by (apply u64_range; lia).
  assert (U2 : u64 (f + off) = f + off) by (apply u64_range; lia).
  destruct en.
  - rewrite ppc_patch_eq, HO in H.
    destruct (submit (q, err) (ppc_area_req T f g)) as [q1 e1] eqn:E1.
    destruct (submit (q1, e1) (ppc_branch_req f off)) as [q2 e2] eqn:E2. injection H as <- <- <-.
    destruct (submit_ok _ _ _ _ _ _ Hq (area_req_ok T f g) E1 He) as [[-> Hq1]| ->].
    2:{ exfalso. apply He'. pose proof (submit_snd_dead (q1, EINSNQ) (ppc_branch_req f off) eq_refl) as X.
        rewrite E2 in X. exact X. }
    destruct (submit_ok _ _ _ _ _ _ Hq1 (word_req_ok (f + off) _) E2 He) as [[-> Hq2]| ->]; [|contradiction].
    repeat split; auto. eexists. split; [exact Hq2|]. split.
    + rewrite !Forall_app. repeat split; auto; constructor; try apply Forall_nil; [apply area_req_ok|apply word_req_ok].
    + rewrite !mem_of_app. cbn [mem_of fold_left req_mem ppc_area_req ppc_branch_req]. rewrite U1, U2. reflexivity.
  - rewrite ppc_skip_eq, HO in H.
    destruct (submit (q, err) (ppc_nop_req f off)) as [q1 e1] eqn:E1. injection H as <- <- <-.
    destruct (submit_ok _ _ _ _ _ _ Hq (word_req_ok (f + off) _) E1 He) as [[-> Hq1]| ->]; [|contradiction].
    repeat split; auto. eexists. split; [exact Hq1|]. split.
    + rewrite Forall_app. repeat split; auto; constructor; try apply Forall_nil; apply word_req_ok.
    + rewrite mem_of_app. cbn [mem_of fold_left req_mem ppc_nop_req]. rewrite U2. reflexivity.
Qed.

Lemma mem_of_bytes rs m : Forall req_ok rs -> (forall x, is_byte (m x)) -> forall x, is_byte (mem_of rs m x).
Proof.
  intros H. revert m. induction H as [|r rs Hr _ IH]; intros m Hm; [exact Hm|].
  cbn [mem_of fold_left]. apply IH. destruct r as [a l|s]; cbn [req_mem]; [|exact Hm].
  intros x. apply mem_write_bytes; [apply Hm|apply Hr].
Qed.

(** ** The code of the functions *)

Section Code.
Variable T : Z.
Variable F : list Z.
Variable off : Z -> Z.
Variable m0 : mem.
Hypothesis HF : pfunctions_ok F off m0.

Definition pcode_at (m : mem) (f : Z) (l : list (list Z * Z)) : Prop :=
  (forall x, f <= x < f + off f -> m x = m0 x) /\
  match l with
  | [] => word_at m (f + off f) = NOP_WORD
  | (_, g) :: _ => ppc_redir T m f (off f) g
  end.
Definition pcode (m : mem) (R : Z -> list (list Z * Z)) : Prop := forall f, In f F -> pcode_at m f (R f).

Lemma off_cases f : In f F -> off f = 0 \/ off f = 8.
Proof. intros Hf. destruct (po_code _ _ _ HF f Hf) as [_ [[-> _]|[-> _]]]; auto. Qed.

Lemma word_at_ext m1 m2 a : (forall x, a <= x < a + 4 -> m1 x = m2 x) -> word_at m1 a = word_at m2 a.
Proof.
  intros H. unfold word_at. f_equal. apply mem_read_ext. intros k Hk. apply H. lia.
Qed.

Lemma pcode_at_ext m1 m2 f l : In f F ->
  (forall x, pguard f (off f) x -> m1 x = m2 x) -> pcode_at m1 f l -> pcode_at m2 f l.
Proof.
  intros Hf H [H1 H2]. pose proof (off_cases f Hf) as Ho. unfold pguard in H. split.
  - intros x Hx. rewrite <- H by lia. apply H1. exact Hx.
  - destruct l as [|[i g] l]; [|destruct H2 as [H2 H3]; split].
    + rewrite <- H2. apply word_at_ext. intros x Hx. symmetry. apply H. lia.
    + rewrite <- H2. apply word_at_ext. intros x Hx. symmetry. apply H. lia.
    + rewrite <- H3. apply mem_read_ext. intros k Hk. symmetry. apply H. lia.
Qed.

Lemma pcode_R m R1 R2 : (forall f, In f F -> R1 f = R2 f) -> pcode m R1 -> pcode m R2.
Proof. intros H H1 f Hf. rewrite <- H by exact Hf. apply H1. exact Hf. Qed.

Lemma pcode_livepatchable m R : (forall x, is_byte (m x)) -> pcode m R ->
  forall f, In f F -> ppc_livepatchable m f (off f).
Proof.
  intros Hb Hc f Hf. destruct (Hc f Hf) as [H1 H2]. split; [exact Hb|].
  assert (S2 : slot_ok m f (off f)).
  { destruct (R f) as [|[i g] l]; [left; exact H2|right; apply H2]. }
  destruct (po_code _ _ _ HF f Hf) as [_ [[E _]|(E & E1 & _)]]; rewrite E in *; [left; auto|right].
  split; [reflexivity|]. split; [|exact S2]. intros X. apply E1. unfold slot_ok in *.
  replace (word_at m0 (f + 0)) with (word_at m (f + 0)); [exact X|].
  apply word_at_ext. intros x Hx. apply H1. lia.
Qed.

Lemma patched_code pm R en f g i rest :
  In f F -> pcode pm R ->
  pcode (patched T en f (off f) g pm) (fun a => if a =? f then (if en then (i, g) :: rest else []) else R a).
Proof.
  intros Hf Hc. pose proof (off_cases f Hf) as Ho.
  assert (La : zlen (area T g) = 52) by reflexivity.
  assert (Lb : forall w, zlen (le_enc 4 w) = 4) by reflexivity.
  assert (Out : forall x, ~ pguard f (off f) x \/ f <= x < f + off f -> patched T en f (off f) g pm x = pm x).
  { intros x Hx. unfold pguard in Hx. unfold patched. destruct en; rewrite !mem_write_out by (rewrite ?La, ?Lb; lia); reflexivity. }
  intros a Ha. destruct (Z.eqb_spec a f) as [->|Hne].
  - split.
    + intros x Hx. rewrite Out by auto. apply (proj1 (Hc f Hf)). exact Hx.
    + destruct en; unfold patched.
      * split.
        -- unfold word_at. set (br := le_enc 4 _). change 4%nat with (length br). rewrite mem_read_write_same.
           apply le_dec_enc_id. apply branch_word_range.
        -- rewrite mem_read_write_out by (rewrite Lb; change (Z.of_nat 52) with 52; lia).
           change 52%nat with (length (area T g)). apply mem_read_write_same.
      * unfold word_at. change 4%nat with (length (le_enc 4 NOP_WORD)) at 1. rewrite mem_read_write_same. reflexivity.
  - eapply pcode_at_ext; [exact Ha| |apply Hc; exact Ha]. intros x Hx. symmetry. apply Out. left. intros Hx2.
    apply Hne. eapply (po_apart _ _ _ HF); eauto.
Qed.

(** ** Reverting *)

Lemma revert_detours_by_dead m a id todo pre qe :
  snd qe = EINSNQ -> snd (snd (revert_detours_by (ppc_patch_addr T m) a id pre todo qe)) = EINSNQ.
Proof.
  revert pre qe; induction todo as [|d t IH]; intros pre qe H; [exact H|].
  cbn [revert_detours_by]. destruct (bytes_eqb (d_pid d) id); [|apply IH; exact H].
  apply IH. destruct (find d_active _); apply ppc_patch_dead; exact H.
Qed.

Lemma revert_detours_by_code m a id todo pre q err rs R ds q' err' :
  In a F -> (forall f, In f F -> ppc_livepatchable m f (off f)) ->
  qinv q rs -> Forall req_ok rs -> err <> EINSNQ ->
  pcode (mem_of rs m) R -> R a = acts (pre ++ todo) ->
  revert_detours_by (ppc_patch_addr T m) a id pre todo (q, err) = (ds, (q', err')) -> err' <> EINSNQ ->
  err' = err /\ exists rs', qinv q' rs' /\ Forall req_ok rs' /\
    pcode (mem_of rs' m) (fun b => if b =? a then acts ds else R b).
Proof.
  intros Ha Hm. destruct (po_addr _ _ _ HF a Ha) as [A1 A2]. revert pre q err rs R.
  induction todo as [|d t IH]; intros pre q err rs R Hq Hok He Hc HR H He'.
  - cbn in H. injection H as <- <- <-. split; auto. exists rs. split; [exact Hq|]. split; [exact Hok|].
    eapply pcode_R; [|exact Hc]. intros f Hf. destruct (Z.eqb_spec f a) as [->|]; auto.
    rewrite HR, app_nil_r. reflexivity.
  - cbn [revert_detours_by] in H. destruct (bytes_eqb (d_pid d) id).
    + pose proof (acts_find (pre ++ deactivate d :: t)) as HA.
      assert (G : exists g en, pcode (patched T en a (off a) g (mem_of rs m))
                    (fun b => if b =? a then acts (pre ++ deactivate d :: t) else R b) /\
                 revert_detours_by (ppc_patch_addr T m) a id (pre ++ [deactivate d]) t
                   (fst (ppc_patch_addr T m (q, err) a g en)) = (ds, (q', err'))).
      { destruct (find d_active (pre ++ deactivate d :: t)) as [x|].
        - destruct HA as [rest HA]. exists (d_target x), true. split; [|exact H]. rewrite HA.
          exact (patched_code _ _ true a (d_target x) (d_pid x) rest Ha Hc).
        - exists 0, false. split; [|exact H]. rewrite HA. exact (patched_code _ _ false a 0 [] [] Ha Hc). }
      destruct G as (g & en & Hc1 & H1). clear H HA.
      destruct (ppc_patch_addr T m (q, err) a g en) as [[q1 err1] rc] eqn:E1. cbn [fst] in H1.
      assert (He1 : err1 <> EINSNQ).
      { intros ->. apply He'. pose proof (revert_detours_by_dead m a id t (pre ++ [deactivate d]) (q1, EINSNQ) eq_refl) as X.
        rewrite H1 in X. exact X. }
      destruct (ppc_patch_effect _ _ _ _ _ _ _ _ _ _ _ _ (Hm a Ha) A1 A2 Hq Hok He E1 He1) as (_ & -> & rs1 & Q1 & Q2 & Q3).
      rewrite <- Q3 in Hc1.
      destruct (IH (pre ++ [deactivate d]) q1 err rs1 _ Q1 Q2 He Hc1) as (-> & rs2 & P1 & P2 & P3); auto.
      { cbn beta. rewrite Z.eqb_refl, <- app_assoc. reflexivity. }
      split; auto. exists rs2. split; [exact P1|]. split; [exact P2|].
      eapply pcode_R; [|exact P3]. intros b Hb. cbn beta. destruct (b =? a); reflexivity.
    + eapply IH; eauto. rewrite HR, <- app_assoc. reflexivity.
Qed.

Lemma revert_roots_by_dead m id roots qe :
  snd qe = EINSNQ -> snd (snd (revert_roots_by (ppc_patch_addr T m) id roots qe)) = EINSNQ.
Proof.
  revert qe; induction roots as [|r t IH]; intros qe H; [exact H|]. cbn [revert_roots_by].
  pose proof (revert_detours_by_dead m (r_addr r) id (r_detours r) [] qe H) as X.
  destruct (revert_detours_by _ _ _ _ _ _) as [ds qe1]. cbn [snd] in X. specialize (IH qe1 X).
  destruct (revert_roots_by _ id t qe1) as [t' qe2]. exact IH.
Qed.

Lemma revert_roots_by_code m id roots q err rs R roots' q' err' :
  (forall r, In r roots -> In (r_addr r) F) -> NoDup (map r_addr roots) ->
  (forall f, In f F -> ppc_livepatchable m f (off f)) ->
  qinv q rs -> Forall req_ok rs -> err <> EINSNQ ->
  pcode (mem_of rs m) R -> (forall r, In r roots -> R (r_addr r) = acts (r_detours r)) ->
  revert_roots_by (ppc_patch_addr T m) id roots (q, err) = (roots', (q', err')) -> err' <> EINSNQ ->
  err' = err /\ exists rs', qinv q' rs' /\ Forall req_ok rs' /\
    pcode (mem_of rs' m) (fun b => if has_root roots b then filter (keep id) (R b) else R b).
Proof.
  intros Hin Hnd Hm. revert q err rs R roots' q' err'.
  induction roots as [|r t IH]; intros q err rs R roots' q' err' Hq Hok He Hc HR H He'.
  - cbn in H. injection H as <- <- <-. split; auto. exists rs. auto.
  - cbn [revert_roots_by] in H. cbn [map] in Hnd. apply NoDup_cons_iff in Hnd. destruct Hnd as [Hn1 Hn2].
    destruct (revert_detours_by (ppc_patch_addr T m) (r_addr r) id [] (r_detours r) (q, err)) as [ds [q1 err1]] eqn:E1.
    destruct (revert_roots_by (ppc_patch_addr T m) id t (q1, err1)) as [t' [q2 err2]] eqn:E2. injection H as <- <- <-.
    assert (He1 : err1 <> EINSNQ).
    { intros ->. apply He'. pose proof (revert_roots_by_dead m id t (q1, EINSNQ) eq_refl) as X. rewrite E2 in X. exact X. }
    assert (Hds : acts ds = filter (keep id) (acts (r_detours r))).
    { pose proof (revert_detours_by_fst (ppc_patch_addr T m) (r_addr r) id [] (r_detours r) (q, err)) as X. rewrite E1 in X.
      cbn [fst app] in X. subst ds. unfold acts. apply active_drop. }
    eapply revert_detours_by_code in E1; eauto; [|apply Hin; left; reflexivity|cbn [app]; apply HR; left; reflexivity].
    destruct E1 as (-> & rs1 & Hq1 & Hok1 & Hc1).
    eapply IH in E2; eauto.
    + destruct E2 as (-> & rs2 & Hq2 & Hok2 & Hc2). split; auto. exists rs2. split; auto. split; auto.
      eapply pcode_R; [|exact Hc2]. intros f Hf. cbn beta. unfold has_root. cbn [existsb].
      rewrite (Z.eqb_sym (r_addr r) f). fold (has_root t f).
      destruct (Z.eqb_spec f (r_addr r)) as [->|Hne]; cbn [orb]; [|reflexivity].
      destruct (has_root t (r_addr r)) eqn:X; [apply has_root_iff in X; contradiction|].
      rewrite Hds. rewrite (HR r (or_introl eq_refl)). reflexivity.
    + intros r0 Hr0. apply Hin. right. exact Hr0.
    + intros r0 Hr0. cbn beta. destruct (Z.eqb_spec (r_addr r0) (r_addr r)) as [E|E].
      * exfalso. apply Hn1. rewrite <- E. apply in_map. exact Hr0.
      * apply HR. right. exact Hr0.
Qed.

(** ** The invariant *)

Record ptied (m : mem) (st : lstate) (rs : list req) : Prop := {
  pt_q : qinv (s_q st) rs;
  pt_ok : Forall req_ok rs;
  pt_in : roots_in F (s_roots st);
  pt_code : pcode (mem_of rs m) (active_at (s_roots st));
  pt_bytes : forall x, is_byte (m x)
}.

Lemma revert_patch_by_tied m id st rs st' ret :
  NoDup (map r_addr (s_roots st)) -> (forall f, In f F -> ppc_livepatchable m f (off f)) ->
  ptied m st rs -> s_err st <> EINSNQ ->
  revert_patch_by (ppc_patch_addr T m) id st = (st', ret) -> s_err st' <> EINSNQ ->
  s_err st' = s_err st /\ exists rs', ptied m st' rs'.
Proof.
  intros Hl Hm [T1 T2 T3 T4 T5] He H He'.
  pose proof (revert_by_lists _ _ _ _ _ H) as (L2 & _).
  unfold revert_patch_by in H. change (s_roots (next_universe st)) with (s_roots st) in H.
  change (s_q (next_universe st)) with (s_q st) in H. change (s_err (next_universe st)) with (s_err st) in H.
  destruct (revert_roots_by (ppc_patch_addr T m) id (s_roots st) (s_q st, s_err st)) as [roots [q' err']] eqn:E.
  assert (G : s_q st' = q' /\ s_err st' = err').
  { destruct (state_remove _ _); injection H as <- <-; auto. }
  destruct G as [G1 G2]. rewrite G2 in *.
  eapply revert_roots_by_code in E; eauto.
  - destruct E as (E1 & rs' & E2 & E3 & E4). split; auto. exists rs'. constructor; auto.
    + rewrite G1; exact E2.
    + intros r Hr. rewrite L2 in Hr. apply in_map_iff in Hr. destruct Hr as (r0 & <- & Hr0). apply (T3 r0 Hr0).
    + eapply pcode_R; [|exact E4]. intros f Hf. cbn beta. rewrite L2, active_at_drop.
      destruct (has_root (s_roots st) f) eqn:X; [reflexivity|]. rewrite active_at_no_root by exact X. reflexivity.
  - intros r Hr. apply active_at_root; auto.
Qed.

Lemma apply_pairs_dead m id ps st st' ret :
  apply_pairs (ppc_patch_addr T m) id ps st = (st', ret) -> s_err st = EINSNQ -> s_err st' = EINSNQ.
Proof.
  revert st; induction ps as [|[old new] us IH]; intros st H He.
  - cbn in H. injection H as <- <-. exact He.
  - rewrite apply_pairs_step in H.
    destruct (old =? 0); [injection H as <- <-; exact He|].
    destruct (new =? 0); [injection H as <- <-; exact He|].
    cbv zeta in H. destruct (record_unit_fields st id old new) as (F1 & F2 & F3 & F4).
    rewrite F3, F4 in H. pose proof (ppc_patch_dead T m (s_q st, s_err st) old new true He) as X.
    destruct (ppc_patch_addr T m (s_q st, s_err st) old new true) as [[q e] rc]. cbn [fst snd] in X. subst e.
    destruct (rc >? 0); [injection H as <- <-; reflexivity|]. eapply IH; [exact H|reflexivity].
Qed.

Lemma apply_pairs_code m id ps st st' rs :
  (forall f, In f F -> ppc_livepatchable m f (off f)) ->
  (forall f g, In (f, g) ps -> In f F) ->
  ptied m st rs -> s_err st <> EINSNQ ->
  apply_pairs (ppc_patch_addr T m) id ps st = (st', 0) -> s_err st' <> EINSNQ ->
  s_err st' = s_err st /\ exists rs', ptied m st' rs'.
Proof.
  intros Hm. revert st rs; induction ps as [|[old new] us IH]; intros st rs Hp Ht He H He'.
  - cbn in H. injection H as <-. eauto.
  - rewrite apply_pairs_step in H. destruct (old =? 0); [discriminate H|]. destruct (new =? 0); [discriminate H|].
    cbv zeta in H. destruct (record_unit_fields st id old new) as (F1 & F2 & F3 & F4). rewrite F3, F4 in H.
    assert (Ho : In old F) by (eapply Hp; left; reflexivity).
    destruct (po_addr _ _ _ HF old Ho) as [A1 A2].
    destruct (ppc_patch_addr T m (s_q st, s_err st) old new true) as [[q1 e1] rc] eqn:E1.
    assert (He1 : e1 <> EINSNQ).
    { intros ->. apply He'. destruct (rc >? 0); [injection H as <- _; reflexivity|].
      eapply apply_pairs_dead; [exact H|reflexivity]. }
    destruct Ht as [T1 T2 T3 T4 T5].
    destruct (ppc_patch_effect _ _ _ _ _ _ _ _ _ _ _ _ (Hm old Ho) A1 A2 T1 T2 He E1 He1) as (-> & -> & rs1 & Q1 & Q2 & Q3).
    change (0 >? 0) with false in H. cbv iota in H.
    eapply (IH _ rs1) in H; auto.
    + intros f g Hfg. apply (Hp f g). right. exact Hfg.
    + constructor; auto.
      * cbn [set_qe s_roots]. apply record_unit_roots_in; auto.
      * cbn [set_qe s_roots]. rewrite Q3.
        eapply pcode_R; [|eapply (patched_code _ _ true old new id (active_at (s_roots st) old)); eauto].
        intros f Hf. cbn beta. unfold active_at. rewrite record_unit_detours.
        destruct (Z.eqb_spec f old) as [->|Hne]; reflexivity.
Qed.

(** ** Requests *)

Lemma ptied_ext m st st' rs :
  s_q st' = s_q st -> s_roots st' = s_roots st -> ptied m st rs -> ptied m st' rs.
Proof. intros E1 E2 [A B C D E]. constructor; rewrite ?E1, ?E2; auto. Qed.

Lemma request_outcome busy load st st' ans :
  ppc_request busy load st = (st', ans) ->
  (gate busy st st' ans) \/ (s_err st = 0 /\ q_empty (s_q st) /\ load st = (st', ans)).
Proof.
  unfold ppc_request, ENONE. destruct (Z.eqb_spec (s_err st) 0) as [E|E]; cbn [negb].
  2:{ intros H. injection H as <- <-. left. constructor. exact E. }
  destruct (ensure_emptiness_cases (s_q st) (s_err st)) as [[-> Hq]|[-> Hq]].
  - cbn [negb Z.eqb]. intros H. injection H as <- <-. left. apply gate_queue; auto.
  - cbn [negb Z.eqb]. rewrite set_err_id. destruct busy.
    + intros H. injection H as <- <-. left. apply gate_busy; auto.
    + intros H. right. auto.
Qed.

(** Everything we know of a process at some point of its history, unless the
    library gave up. *)
Record pinv (p : proc) (L : list entry) : Prop := {
  pi_corr : corr (p_lib p) L;
  pi_ids : NoDup (map a_id (s_patches (p_lib p)));
  pi_roots : NoDup (map r_addr (s_roots (p_lib p)));
  pi_tied : exists rs, ptied (p_mem p) (p_lib p) rs
}.

Lemma pinv_ext p p' L :
  s_patches (p_lib p') = s_patches (p_lib p) -> s_roots (p_lib p') = s_roots (p_lib p) ->
  s_q (p_lib p') = s_q (p_lib p) -> p_mem p' = p_mem p -> pinv p L -> pinv p' L.
Proof.
  intros E1 E2 E3 E4 [A B C [rs D]]. constructor; rewrite ?E1, ?E2; auto.
  - eapply corr_ext; eauto.
  - exists rs. rewrite E4. eapply ptied_ext; eauto.
Qed.

Lemma gate_pinv busy p st ans L :
  gate busy (p_lib p) st ans -> alive st -> pinv p L -> ans <> 0 /\ pinv (mk_proc st (p_mem p)) L.
Proof.
  intros G Ha H. assert (E : st = p_lib p) by (eapply gate_alive; eauto). subst st. split.
  - inversion G; subst; auto; discriminate.
  - destruct p. exact H.
Qed.

Lemma pinv_quiet p L : pinv p L -> q_empty (s_q (p_lib p)) ->
  ptied (p_mem p) (p_lib p) [] /\ forall f, In f F -> ppc_livepatchable (p_mem p) f (off f).
Proof.
  intros [_ _ _ [rs D]] Hq. assert (rs = []) by (eapply qinv_empty_iff; [apply D|exact Hq]). subst rs.
  split; [exact D|]. eapply pcode_livepatchable; [apply D|exact (pt_code _ _ _ D)].
Qed.

Lemma remove_ids id ps ps' : state_remove id ps = Some ps' -> NoDup (map a_id ps) -> NoDup (map a_id ps').
Proof.
  intros H Hn. apply state_remove_some in H. destruct H as (l1 & p & l2 & -> & -> & _).
  eapply NoDup_remove_mid; eauto.
Qed.

Lemma event_pinv ev p p' ans L :
  pevent_ok F off p ev -> do_pevent T ev p = Some (p', ans) -> alive (p_lib p') ->
  pinv p L -> pinv p' (plog_step L (ev, ans)).
Proof.
  intros Hok H Ha Hp. pose proof (alive_err _ Ha) as He'.
  destruct ev as [busy id lib deps pairs|busy id| |te|m']; cbn [do_pevent plog_step] in *.
  - destruct (ppc_request _ _ _) as [st a] eqn:Ex. injection H as <- <-. cbn [p_lib] in *.
    apply request_outcome in Ex. destruct Ex as [Ex|(E0 & Eq & Ex)].
    { destruct (gate_pinv _ _ _ _ _ Ex Ha Hp) as [N G]. destruct (Z.eqb_spec a 0); [contradiction|exact G]. }
    destruct (pinv_quiet _ _ Hp Eq) as [Ht Hm].
    assert (He : s_err (p_lib p) <> EINSNQ) by (rewrite E0; discriminate).
    assert (Same : forall c, c <> 0 -> (p_lib p, c) = (st, a) -> pinv (mk_proc st (p_mem p))
              (if a =? 0 then mk_entry id lib pairs deps :: L else L)).
    { intros c Hc E. injection E as <- <-. destruct (Z.eqb_spec c 0); [contradiction|]. destruct p; exact Hp. }
    unfold ppc_load_apply in Ex. cbv zeta in Ex.
    destruct (Z.eqb_spec (check_patch_dependencies (p_lib p) deps) 0) as [Ed|Ed]; cbn [negb] in Ex;
      [|eapply Same; eauto].
    destruct (ulp_get_applied_patch (p_lib p) id) eqn:Eg; [eapply Same; [|exact Ex]; discriminate|].
    destruct (existsb _ pairs); [eapply Same; [|exact Ex]; discriminate|].
    set (a0 := mk_apatch _ _ _ _ _) in Ex.
    destruct (apply_pairs _ _ _ _) as [st2 ret] eqn:E2.
    destruct (Z.eqb_spec ret 0) as [->|Hne]; cbn [negb] in Ex; injection Ex as <- <-.
    2:{ exfalso. destruct Ha as [Ha|Ha]; cbn in Ha; discriminate. }
    cbn [Z.eqb].
    pose proof (apply_pairs_lists _ _ _ _ _ _ E2) as (X1 & X2 & X3).
    pose proof (apply_pairs_nodup _ _ _ _ _ _ E2) as X4.
    eapply (apply_pairs_code _ _ _ _ _ []) in E2; auto; cbn [set_patches next_universe s_patches s_roots s_err s_q s_universe] in *.
    + destruct E2 as (_ & rs & E2). destruct Hp as [C1 C2 C3 _]. constructor; cbn [p_lib p_mem].
      * destruct C1 as [C1 C1']. split.
        -- rewrite X1. constructor; [|exact C1]. unfold pcorr, a0. cbn. repeat split; auto.
           rewrite map_map. clear. induction pairs as [|[x y] l IH]; [reflexivity|]. cbn. f_equal. exact IH.
        -- intros b. unfold active_at. rewrite (X3 eq_refl b), new_detours_active.
           fold (active_at (s_roots (p_lib p)) b). rewrite C1'. reflexivity.
      * rewrite X1. cbn [map a0 a_id]. constructor; [|exact C2]. intros Hin.
        apply get_applied_iff in Hin. congruence.
      * apply X4. exact C3.
      * eauto.
    + intros f g Hfg. apply (Hok f g Hfg).
    + eapply ptied_ext; [| |exact Ht]; reflexivity.
  - destruct (ppc_request _ _ _) as [st a] eqn:Ex. injection H as <- <-. cbn [p_lib] in *.
    apply request_outcome in Ex. destruct Ex as [Ex|(E0 & Eq & Ex)].
    { destruct (gate_pinv _ _ _ _ _ Ex Ha Hp) as [N G]. destruct (Z.eqb_spec a 0); [contradiction|exact G]. }
    destruct (pinv_quiet _ _ Hp Eq) as [Ht Hm].
    assert (He : s_err (p_lib p) <> EINSNQ) by (rewrite E0; discriminate).
    unfold ppc_load_revert in Ex. cbv zeta in Ex.
    destruct (Z.eqb_spec (ulp_can_revert_patch (p_lib p) id) 0) as [Ec|Ec]; cbn [negb] in Ex.
    2:{ injection Ex as <- <-. destruct (Z.eqb_spec (ulp_can_revert_patch (p_lib p) id) 0); [contradiction|]. destruct p; exact Hp. }
    pose proof (revert_by_lists _ _ _ _ _ Ex) as (X1 & X2 & X3).
    destruct (Z.eqb_spec a 0) as [->|Hne].
    2:{ exfalso. destruct (X3 Hne) as [_ X]. apply state_remove_none in X. apply can_revert_iff in Ec. apply X. apply Ec. }
    specialize (X2 eq_refl).
    pose proof (pi_roots _ _ Hp) as HN.
    eapply revert_patch_by_tied in Ex; eauto. destruct Ex as (_ & Hx).
    destruct Hp as [[C1 C1'] C2 C3 _]. constructor; cbn [p_lib p_mem]; auto.
    + split.
      * eapply remove_corr; eauto.
      * intros b. rewrite X1, active_at_drop, C1', flat_map_without. reflexivity.
    + eapply remove_ids; eauto.
    + rewrite X1, root_drop_addrs. exact C3.
  - destruct (ulp_enable_or_disable_patching (p_lib p)) as [st a] eqn:Ex. injection H as <- <-.
    unfold ulp_enable_or_disable_patching in Ex. injection Ex as <- _. cbn [p_lib] in *.
    destruct (_ =? ENONE); [|destruct (_ =? EUSRBLOCKED)]; (eapply pinv_ext; [..|exact Hp]; reflexivity).
  - destruct (insnq_interpret_from_process _ _ _ _) as [[[r q] t]|] eqn:Ex; [|discriminate H]. injection H as <- <-.
    destruct Hp as [C1 C2 C3 [rs [T1 T2 T3 T4 T5]]]. constructor; cbn [p_lib p_mem set_qe s_patches s_roots] in *; auto.
    pose proof (interpret_cases _ _ _ _ _ _ _ T1 Hok Ex) as G.
    destruct G as [(-> & -> & _)|[(-> & -> & _)|(-> & -> & _)]].
    + exists rs. constructor; auto.
    + exists rs. constructor; auto; rewrite perform_all_mem; cbn [t_mem s_roots].
      * intros f Hf. eapply pcode_at_ext; [exact Hf| |apply T4; exact Hf]. intros x _. symmetry. apply mem_of_twice.
      * apply mem_of_bytes; auto.
    + exists []. constructor; auto; [eapply qinv_reset; exact T1|..]; rewrite perform_all_mem; cbn [t_mem].
      * exact T4.
      * apply mem_of_bytes; auto.
  - injection H as <- <-. destruct Hok as [Hb Hok]. destruct Hp as [C1 C2 C3 [rs [T1 T2 T3 T4 T5]]].
    constructor; cbn [p_lib p_mem] in *; auto. exists rs. constructor; auto.
    intros f Hf. eapply pcode_at_ext; [exact Hf| |apply T4; exact Hf]. intros x Hx. apply mem_of_ext.
    symmetry. eapply Hok; eauto.
Qed.

Lemma pdead_absorbing ev p p' ans :
  do_pevent T ev p = Some (p', ans) -> alive (p_lib p') -> alive (p_lib p).
Proof.
  unfold alive. intros H Ha. destruct (Z.eq_dec (s_err (p_lib p)) 0) as [E|E]; [auto|]. right.
  assert (R : forall busy load st a, ppc_request busy load (p_lib p) = (st, a) ->
              s_err st = 0 \/ s_err st = EUSRBLOCKED -> s_err (p_lib p) = EUSRBLOCKED).
  { intros busy load st a Ex Hs. apply request_outcome in Ex. destruct Ex as [Ex|(Ex & _)]; [|contradiction].
    inversion Ex; subst; try contradiction. destruct Hs; congruence. }
  destruct ev as [busy id lib deps pairs|busy id| |te|m']; cbn [do_pevent] in H.
  - destruct (ppc_request _ _ _) as [st a] eqn:Ex. injection H as <- <-. eapply R; eauto.
  - destruct (ppc_request _ _ _) as [st a] eqn:Ex. injection H as <- <-. eapply R; eauto.
  - injection H as <- <-. cbn [p_lib] in Ha. unfold ENONE in *.
    destruct (Z.eqb_spec (s_err (p_lib p)) 0); [contradiction|].
    destruct (Z.eqb_spec (s_err (p_lib p)) EUSRBLOCKED); auto. destruct Ha; congruence.
  - destruct (insnq_interpret_from_process _ _ _ _) as [[[r q] t]|]; [|discriminate H]. injection H as <- <-.
    cbn in Ha. destruct Ha; congruence.
  - injection H as <- <-. cbn in Ha. destruct Ha; congruence.
Qed.

Lemma plog_snoc tr x : plog_of (tr ++ [x]) = plog_step (plog_of tr) x.
Proof. unfold plog_of. rewrite fold_left_app. reflexivity. Qed.

Lemma history_pinv stale tr p : (forall x, is_byte (m0 x)) ->
  phistory T F off (fresh m0 stale) tr p -> alive (p_lib p) -> pinv p (plog_of tr).
Proof.
  intros Hb. induction 1 as [|tr p ev p' ans H IH Hok E]; intros Ha.
  - constructor.
    + split; [constructor|reflexivity].
    + constructor.
    + constructor.
    + exists []. constructor; cbn [p_lib p_mem fresh s_q s_roots].
      * apply qinv_empty.
      * constructor.
      * intros r [].
      * intros f Hf. split; [reflexivity|]. cbn. apply (po_plain _ _ _ HF). exact Hf.
      * exact Hb.
  - rewrite plog_snoc. eapply event_pinv; eauto. apply IH. eapply pdead_absorbing; eauto.
Qed.

Lemma plog_sane p0 tr p : phistory T F off p0 tr p -> log_sane (plog_of tr).
Proof.
  induction 1 as [|tr p ev p' ans H IH Hok E]; [intros en f g []|].
  rewrite plog_snoc. destruct ev as [busy id lib deps pairs|busy id| |te|m']; cbn [plog_step]; auto.
  - destruct (ans =? 0); auto. intros en f g [<-|Hen]; [|apply IH; exact Hen]. cbn. intros Hfg. apply (Hok f g Hfg).
  - destruct (ans =? 0); auto. intros en f g Hen. apply filter_In in Hen. apply IH. tauto.
Qed.

(** ** Executing the entry *)

Lemma redir_goes m f o g : off f = o -> In f F -> 0 <= T < 2 ^ 64 -> T mod 4 = 0 -> 0 <= g < 2 ^ 64 ->
  ppc_redir T m f o g -> ppc_calls_go T m f o (Some g).
Proof.
  intros <- Hf HT HTa Hg HR. pose proof (off_cases f Hf) as Ho. destruct (po_addr _ _ _ HF f Hf) as [A1 A2].
  intros regs lr ctr H1 HS.
  destruct (redir_runs T m f (off f) g regs lr ctr HT HTa Ho A1 ltac:(lia) HR H1 ltac:(lia)) as (g' & trail & Hrun & _ & Htr & H12 & H5 & Hr).
  set (m2 := mem_write _ _ _) in Hrun. exists g', (f - 12), trail, m2.
  assert (L8 : forall v, zlen (le_enc 8 v) = 8) by reflexivity.
  split; [exact Hrun|]. split; [exact Htr|]. split.
  { unfold m2. rewrite !mem_read_write_out by (rewrite L8; change (Z.of_nat 8) with 8; lia).
    destruct HR as [_ HP]. apply (tail_at m (f - 52) (ulp_prologue_words T) (le_enc 8 g)) in HP. change (4 * zlen (ulp_prologue_words T)) with 44 in HP.
    change (length (le_enc 8 g)) with 8%nat in HP. replace (f - 12 + 4) with (f - 52 + 44) by lia. rewrite HP.
    apply le_dec_enc_id. exact Hg. }
  split; [exact H12|]. split; [exact H5|]. split; [exact Hr|]. split; [|split].
  - unfold m2. rewrite mem_read_write_out by (rewrite L8; change (Z.of_nat 8) with 8; lia).
    change 8%nat with (length (le_enc 8 (regs 5))). apply mem_read_write_same.
  - unfold m2. change 8%nat with (length (le_enc 8 (regs 6))) at 1. apply mem_read_write_same.
  - intros x Hx. unfold m2. rewrite !mem_write_out by (rewrite L8; lia). reflexivity.
Qed.

Lemma plain_goes m f o : off f = o -> In f F -> word_at m (f + o) = NOP_WORD -> ppc_calls_go T m f o None.
Proof.
  intros <- Hf W regs lr ctr. destruct (po_addr _ _ _ HF f Hf) as [A1 A2]. pose proof (off_cases f Hf) as Ho.
  eexists. split.
  - eapply runs_step with (c := mk_cpu _ _ _ _ _). { apply step_nop. exact W. }
    rewrite u64_range by lia. apply runs_here.
  - intros r. unfold gset. rewrite Z.lor_0_r. destruct (Z.eqb_spec r 0) as [->|]; reflexivity.
Qed.

Lemma ppc_routing stale tr p : 0 <= T < 2 ^ 64 -> T mod 4 = 0 -> (forall x, is_byte (m0 x)) ->
  phistory T F off (fresh m0 stale) tr p -> alive (p_lib p) -> no_pending p ->
  forall f, In f F ->
    ppc_calls_go T (p_mem p) f (off f) (route (plog_of tr) f) /\
    (forall x, f <= x < f + off f -> p_mem p x = m0 x).
Proof.
  intros HT HTa Hb Hh Ha Hn f Hf.
  destruct (history_pinv _ _ _ Hb Hh Ha) as [[C1 C2] _ _ [rs D]].
  assert (rs = []) by (eapply qinv_empty_iff; [apply D|destruct Hn; split; lia]). subst rs.
  pose proof (pt_code _ _ _ D f Hf) as [K1 K2]. cbn [mem_of fold_left] in *. rewrite C2 in K2. split; [|exact K1].
  destruct (route (plog_of tr) f) as [g|] eqn:Er.
  - pose proof (route_in _ _ _ Er) as (en & Hen & Hfg).
    rewrite route_flat in Er. destruct (flat_map _ _) as [|[x y] l]; [discriminate Er|]. injection Er as ->.
    apply redir_goes; auto. eapply plog_sane; eauto.
  - rewrite route_flat in Er. destruct (flat_map _ _) as [|[x y] l]; [|discriminate Er].
    apply plain_goes; auto.
Qed.
End Code.
