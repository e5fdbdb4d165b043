(** The code of the process follows the detour tables. *)
From Verif Require Import Base BaseFacts InsnQModel InsnQSpec InsnQProofs MetaModel StrModel
  X86Model X86Spec X86Proofs DlModel LibModel LibSpec LibProofs LibInv.

(** ** Memory after pending requests *)

Definition mem_of (rs : list req) (m : mem) : mem := fold_left (fun m r => req_mem r m) rs m.

Lemma mem_of_app rs1 rs2 m : mem_of (rs1 ++ rs2) m = mem_of rs2 (mem_of rs1 m).
Proof. unfold mem_of. apply fold_left_app. Qed.

Lemma perform_all_mem rs t : t_mem (perform_all rs t) = mem_of rs (t_mem t).
Proof.
  revert t; induction rs as [|r rs IH]; intros t; [reflexivity|].
  change (perform_all (r :: rs) t) with (perform_all rs (perform t r)). rewrite IH. destruct r; reflexivity.
Qed.

Lemma mem_of_shape rs x : (exists v, forall m, mem_of rs m x = v) \/ (forall m, mem_of rs m x = m x).
Proof.
  induction rs as [|r rs IH] using rev_ind; [right; reflexivity|].
  assert (G : forall m, mem_of (rs ++ [r]) m x = req_mem r (mem_of rs m) x) by (intros m; rewrite mem_of_app; reflexivity).
  destruct r as [a bs|s]; cbn [req_mem] in G.
  - destruct (Z_le_gt_dec a x) as [H1|H1]; [destruct (Z_lt_ge_dec x (a + zlen bs)) as [H2|H2]|].
    + left. eexists. intros m. rewrite G. apply mem_write_in. lia.
    + destruct IH as [[v IH]|IH]; [left; exists v|right]; intros m; rewrite G, mem_write_out by lia; apply IH.
    + destruct IH as [[v IH]|IH]; [left; exists v|right]; intros m; rewrite G, mem_write_out by lia; apply IH.
  - destruct IH as [[v IH]|IH]; [left; exists v|right]; intros m; rewrite G; apply IH.
Qed.

Lemma mem_of_twice rs m x : mem_of rs (mem_of rs m) x = mem_of rs m x.
Proof. destruct (mem_of_shape rs x) as [[v H]|H]; rewrite ?H; reflexivity. Qed.

Lemma mem_of_ext rs m1 m2 x : m1 x = m2 x -> mem_of rs m1 x = mem_of rs m2 x.
Proof. intros E. destruct (mem_of_shape rs x) as [[v H]|H]; rewrite !H; auto. Qed.

(** ** The queue *)

Lemma submit_dead q r : snd (submit (q, EINSNQ) r) = EINSNQ.
Proof. rewrite submit_unfold. destruct (try_insert q r); reflexivity. Qed.

Lemma submit_ok q err rs r q' err' :
  qinv q rs -> req_ok r -> submit (q, err) r = (q', err') -> err <> EINSNQ ->
  (err' = err /\ qinv q' (rs ++ [r])) \/ err' = EINSNQ.
Proof.
  intros Hq Hr H He. rewrite submit_unfold in H. destruct (try_insert q r) as [q1|] eqn:E.
  - injection H as <- <-. left. split; auto. eapply try_insert_inv; eauto.
  - injection H as <- <-. right. reflexivity.
Qed.

Lemma qinv_empty_iff q rs : qinv q rs -> q_empty q -> rs = [].
Proof.
  intros [H1 H2 H3 H4] [E1 _]. rewrite H1 in E1. destruct rs; [reflexivity|].
  rewrite zlen_cons in E1. pose proof (zlen_nonneg rs). lia.
Qed.

Lemma qinv_reset q rs : qinv q rs -> qinv (insnq_reset q) [].
Proof.
  intros [H1 H2 H3 H4]. constructor; cbn; auto; [unfold INSN_BUFFER_MAX; lia|constructor].
Qed.

(** What one execution of the queue by the tool can do when memory writes do
    not fail. *)
Lemma interpret_cases te rq rs t c q' t' :
  qinv rq rs -> (forall i, te_wf te i = None) ->
  insnq_interpret_from_process te true rq t = Some (c, q', t') ->
  (q' = rq /\ t' = t /\ c <> 0) \/ (q' = rq /\ t' = perform_all rs t /\ c <> 0) \/
  (q' = insnq_reset rq /\ t' = perform_all rs t /\ c = 0).
Proof.
  intros Hq Hwf H.
  destruct (Z.eq_dec (te_rd_hdr te) 0) as [E1|E1].
  2:{ unfold insnq_interpret_from_process, insnq_get_from_remote_process in H. cbn [negb] in H.
      destruct (Z.eqb_spec (te_rd_hdr te) 0); [contradiction|]. cbn in H. injection H as <- <- <-.
      left. repeat split; auto. discriminate. }
  assert (HS : 0 <= q_size rq <= INSN_BUFFER_MAX) by apply (qi_size _ _ Hq).
  assert (HV : q_version rq = INSNQ_CURR_VERSION) by apply (qi_ver _ _ Hq).
  assert (HM : INSN_BUFFER_MAX < 2 ^ 32) by reflexivity.
  assert (Hu : u32 (q_size rq) = q_size rq) by (unfold u32; apply Z.mod_small; lia).
  destruct (Z.eq_dec (te_rd_body te) 0) as [E2|E2]; [|destruct (Z.eq_dec (q_size rq) 0) as [E3|E3]].
  1,2: right; set (te0 := mk_tool_env (te_rd_hdr te) 0 0 (te_wf te));
    destruct (get_from_remote_ok te0 rq rs Hq E1 eq_refl) as (q & Hg & Hn & Hs & Henc);
    assert (Hg' : insnq_get_from_remote_process te rq = (0, q));
    [rewrite <- Hg; unfold insnq_get_from_remote_process; cbn [te_rd_hdr te_rd_body te0]; rewrite Hu, ?E2, ?E3; reflexivity|];
    unfold insnq_interpret_from_process in H; cbn [negb] in H; rewrite Hg' in H; cbn [negb Z.eqb] in H;
    rewrite Hs in H; (destruct (Z.gtb_spec (q_size rq) INSN_BUFFER_MAX); [lia|]);
    unfold insnq_interpret in H; rewrite Hn, (qi_num _ _ Hq), Hs in H;
    (destruct (Z.ltb_spec (zlen rs) 0); [pose proof (zlen_nonneg rs); lia|]);
    replace (Z.to_nat (zlen rs)) with (length rs) in H by (unfold zlen; lia);
    rewrite (loop_encoded _ _ _ rs (q_size rq) 0 t (perform_all rs t)) in H; auto; try lia;
    try (apply tool_runs; auto);
    cbn [negb Z.eqb] in H; destruct (te_upd te =? 0); cbn [negb] in H; injection H as <- <- <-;
    [right|left]; repeat split; discriminate.
  left. unfold insnq_interpret_from_process, insnq_get_from_remote_process in H. cbn [negb] in H.
  rewrite E1, HV, Hu in H. cbn [negb Z.eqb] in H.
  change (INSNQ_CURR_VERSION >? INSNQ_CURR_VERSION) with false in H. cbv iota in H.
  destruct (Z.eqb_spec (q_size rq) 0); [contradiction|].
  destruct (Z.gtb_spec (q_size rq) INSN_BUFFER_MAX); [lia|].
  destruct (Z.eqb_spec (te_rd_body te) 0) as [|E4]; [contradiction|]. cbn [negb] in H.
  destruct (Z.eqb_spec (te_rd_body te) 0) as [|E5]; [contradiction|]. cbn [negb] in H.
  injection H as <- <- <-. auto.
Qed.

(** ** Routing *)

Definition acts (ds : list detour) : list (list Z * Z) :=
  map (fun d => (d_pid d, d_target d)) (filter d_active ds).

Definition route_ok (m : mem) (e : bool) (f : Z) (l : list (list Z * Z)) : Prop :=
  match l with
  | [] => plain_bytes m e f
  | (_, g) :: _ => redir_bytes m e f g
  end.

Lemma route_ok_entry m e f l : route_ok m e f l -> entry_ok m e f.
Proof. destruct l as [|[i g] l]; cbn; intros H; [left|right; exists g]; exact H. Qed.

Lemma route_ok_ext m1 m2 e f l :
  (forall x, in_window e f x -> m1 x = m2 x) -> route_ok m1 e f l -> route_ok m2 e f l.
Proof. destruct l as [|[i g] l]; cbn; intros H; [apply plain_bytes_ext|apply redir_bytes_ext]; exact H. Qed.

Lemma route_ok_endbr m f l : route_ok m true f l -> mem_read m f 4 = [243; 15; 30; 250].
Proof.
  destruct l as [|[i g] l]; cbn.
  - intros [H _]. exact H.
  - intros (_ & _ & H). apply mem_read_6_4 in H. exact H.
Qed.

Definition ref_data (tb ti : Z) (r : mref) : list Z :=
  if rf_tls r then le_enc 8 (u64 ti) ++ le_enc 8 (u64 (rf_toff r - TLS_DTV_OFFSET))
  else le_enc 8 (u64 (tb + rf_toff r)).

Lemma ref_data_ok tb ti r : bytes_ok (ref_data tb ti r) /\ zlen (ref_data tb ti r) <= 16.
Proof.
  unfold ref_data. destruct (rf_tls r).
  - rewrite bytes_ok_app, zlen_app. unfold zlen. rewrite !le_enc_length. split; [split; apply le_enc_bytes|lia].
  - unfold zlen. rewrite le_enc_length. split; [apply le_enc_bytes|lia].
Qed.

Section Code.
Variable F : list Z.
Variable eb : Z -> bool.

(** Facts about the functions that do not depend on the memory. *)
Record frame : Prop := {
  fr_addr : forall f, In f F -> addr_ok f;
  fr_disj : forall f g x, In f F -> In g F -> in_window (eb f) f x -> in_window (eb g) g x -> f = g
}.

Definition code_ok (m : mem) (R : Z -> list (list Z * Z)) : Prop :=
  forall f, In f F -> route_ok m (eb f) f (R f).

Lemma code_ok_ext m1 m2 R :
  (forall f x, In f F -> in_window (eb f) f x -> m1 x = m2 x) -> code_ok m1 R -> code_ok m2 R.
Proof. intros H H1 f Hf. eapply route_ok_ext; [|apply H1; exact Hf]. intros x. apply H. exact Hf. Qed.

Lemma window_dec e f x : in_window e f x \/ ~ in_window e f x.
Proof. unfold in_window. lia. Qed.

(** One redirection request. *)
Lemma enable_step m pm f g R i rest :
  frame -> In f F -> (forall f, In f F -> entry_ok m (eb f) f) -> code_ok pm R ->
  code_ok (req_mem (patch_req m f g true) pm) (fun a => if a =? f then (i, g) :: rest else R a).
Proof.
  intros HF Hf Hm Hc.
  destruct (enable_effect m pm (eb f) f g (fr_addr HF f Hf) (entry_ok_endbr _ _ _ (Hm f Hf))) as [H1 H2].
  intros a Ha. destruct (Z.eqb_spec a f) as [->|Hne]; [exact H1|].
  eapply route_ok_ext; [|apply Hc; exact Ha]. intros x Hx. symmetry. apply H2. intros Hx2.
  apply Hne. eapply (fr_disj HF); eauto.
Qed.

Lemma disable_step m pm f R :
  frame -> In f F -> (forall f, In f F -> entry_ok m (eb f) f) -> code_ok pm R ->
  code_ok (req_mem (patch_req m f 0 false) pm) (fun a => if a =? f then [] else R a).
Proof.
  intros HF Hf Hm Hc.
  destruct (disable_effect m pm (eb f) f (fr_addr HF f Hf) (entry_ok_endbr _ _ _ (Hm f Hf))) as [H1 H2].
  { intros E. pose proof (Hc f Hf) as G. rewrite E in G. eapply route_ok_endbr. exact G. }
  intros a Ha. destruct (Z.eqb_spec a f) as [->|Hne]; [exact H1|].
  eapply route_ok_ext; [|apply Hc; exact Ha]. intros x Hx. symmetry. apply H2. intros Hx2.
  apply Hne. eapply (fr_disj HF); eauto.
Qed.

Lemma code_ok_R m R1 R2 : (forall f, In f F -> R1 f = R2 f) -> code_ok m R1 -> code_ok m R2.
Proof. intros H H1 f Hf. rewrite <- H by exact Hf. apply H1. exact Hf. Qed.

(** ** Reverting *)

Lemma acts_find ds :
  match find d_active ds with
  | None => acts ds = []
  | Some d => exists rest, acts ds = (d_pid d, d_target d) :: rest
  end.
Proof.
  unfold acts. induction ds as [|d ds IH]; [reflexivity|]. cbn [find filter].
  destruct (d_active d); [cbn; eauto|]. exact IH.
Qed.

Lemma revert_detours_dead m a id todo pre qe :
  snd qe = EINSNQ -> snd (snd (revert_detours m a id pre todo qe)) = EINSNQ.
Proof.
  revert pre qe; induction todo as [|d t IH]; intros pre qe H; [exact H|].
  cbn [revert_detours]. destruct (bytes_eqb (d_pid d) id); [|apply IH; exact H].
  apply IH. destruct qe as [q err]. cbn [snd] in H. subst err.
  destruct (find d_active _); rewrite patch_addr_eq; destruct (looks_patchable m a); cbn [fst];
    try apply submit_dead; reflexivity.
Qed.

Lemma revert_detours_code m a id todo pre q err rs R ds q' err' :
  frame -> In a F -> (forall f, In f F -> entry_ok m (eb f) f) ->
  qinv q rs -> err <> EINSNQ ->
  code_ok (mem_of rs m) R -> R a = acts (pre ++ todo) ->
  revert_detours m a id pre todo (q, err) = (ds, (q', err')) -> err' <> EINSNQ ->
  err' = err /\ exists rs', qinv q' rs' /\
    code_ok (mem_of rs' m) (fun b => if b =? a then acts ds else R b).
Proof.
  intros HF Ha Hm. revert pre q err rs R.
  induction todo as [|d t IH]; intros pre q err rs R Hq He Hc HR H He'.
  - cbn in H. injection H as <- <- <-. split; auto. exists rs. split; auto.
    eapply code_ok_R; [|exact Hc]. intros f Hf. destruct (Z.eqb_spec f a) as [->|]; auto.
    rewrite HR, app_nil_r. reflexivity.
  - cbn [revert_detours] in H. destruct (bytes_eqb (d_pid d) id).
    + pose proof (acts_find (pre ++ deactivate d :: t)) as HA.
      assert (HL : looks_patchable m a = true) by (eapply entry_ok_looks; apply Hm; exact Ha).
      assert (G : exists r R', req_ok r /\ code_ok (req_mem r (mem_of rs m)) R' /\
                 R' a = acts (pre ++ deactivate d :: t) /\ (forall b, b <> a -> R' b = R b) /\
                 revert_detours m a id (pre ++ [deactivate d]) t (submit (q, err) r) = (ds, (q', err'))).
      { destruct (find d_active (pre ++ deactivate d :: t)) as [x|].
        - destruct HA as [rest HA]. rewrite patch_addr_eq, HL in H. cbn [fst] in H.
          exists (patch_req m a (d_target x) true). eexists. split; [apply patch_req_ok|].
          split; [eapply enable_step; eauto|]. cbn beta. rewrite Z.eqb_refl. rewrite HA.
          split; [reflexivity|]. split; [|exact H].
          intros b Hb. destruct (Z.eqb_spec b a); [contradiction|reflexivity].
        - rewrite patch_addr_eq, HL in H. cbn [fst] in H.
          exists (patch_req m a 0 false). eexists. split; [apply patch_req_ok|].
          split; [eapply disable_step; eauto|]. cbn beta. rewrite Z.eqb_refl. rewrite HA.
          split; [reflexivity|]. split; [|exact H].
          intros b Hb. destruct (Z.eqb_spec b a); [contradiction|reflexivity]. }
      destruct G as (r & R' & Hr & Hc' & HR' & Hoth & H').
      destruct (submit (q, err) r) as [q1 err1] eqn:Es.
      destruct (submit_ok _ _ _ _ _ _ Hq Hr Es He) as [[-> Hq1]| -> ].
      * assert (Hc2 : code_ok (mem_of (rs ++ [r]) m) R') by (rewrite mem_of_app; exact Hc').
        assert (HR2 : R' a = acts ((pre ++ [deactivate d]) ++ t)) by (rewrite <- app_assoc; exact HR').
        destruct (IH _ _ _ _ _ Hq1 He Hc2 HR2 H' He') as (E1 & rs' & H1 & H2).
        split; auto. exists rs'. split; auto.
        eapply code_ok_R; [|exact H2]. intros f Hf. cbn beta.
        destruct (Z.eqb_spec f a) as [->|Hne]; auto.
      * exfalso. apply He'.
        pose proof (revert_detours_dead m a id t (pre ++ [deactivate d]) (q1, EINSNQ) eq_refl) as X.
        rewrite H' in X. exact X.
    + assert (HR2 : R a = acts ((pre ++ [d]) ++ t)) by (rewrite <- app_assoc; exact HR).
      exact (IH _ _ _ _ _ Hq He Hc HR2 H He').
Qed.

Lemma revert_roots_dead m id roots qe :
  snd qe = EINSNQ -> snd (snd (revert_roots m id roots qe)) = EINSNQ.
Proof.
  revert qe; induction roots as [|r t IH]; intros qe H; [exact H|]. cbn [revert_roots].
  pose proof (revert_detours_dead m (r_addr r) id (r_detours r) [] qe H) as X.
  destruct (revert_detours _ _ _ _ _ _) as [ds qe1]. cbn [snd] in X. specialize (IH qe1 X).
  destruct (revert_roots m id t qe1) as [t' qe2]. exact IH.
Qed.

Lemma revert_roots_code m id roots q err rs R roots' q' err' :
  frame -> (forall r, In r roots -> In (r_addr r) F) -> NoDup (map r_addr roots) ->
  (forall f, In f F -> entry_ok m (eb f) f) ->
  qinv q rs -> err <> EINSNQ ->
  code_ok (mem_of rs m) R -> (forall r, In r roots -> R (r_addr r) = acts (r_detours r)) ->
  revert_roots m id roots (q, err) = (roots', (q', err')) -> err' <> EINSNQ ->
  err' = err /\ exists rs', qinv q' rs' /\
    code_ok (mem_of rs' m) (fun b => if has_root roots b then filter (keep id) (R b) else R b).
Proof.
  intros HF Hin Hnd Hm. revert q err rs R roots' q' err'.
  induction roots as [|r t IH]; intros q err rs R roots' q' err' Hq He Hc HR H He'.
  - cbn in H. injection H as <- <- <-. split; auto. exists rs. auto.
  - cbn [revert_roots] in H. cbn [map] in Hnd. apply NoDup_cons_iff in Hnd. destruct Hnd as [Hn1 Hn2].
    destruct (revert_detours m (r_addr r) id [] (r_detours r) (q, err)) as [ds [q1 err1]] eqn:E1.
    destruct (revert_roots m id t (q1, err1)) as [t' [q2 err2]] eqn:E2. injection H as <- <- <-.
    assert (He1 : err1 <> EINSNQ).
    { intros ->. apply He'. pose proof (revert_roots_dead m id t (q1, EINSNQ) eq_refl) as X. rewrite E2 in X. exact X. }
    assert (Hds : acts ds = filter (keep id) (acts (r_detours r))).
    { pose proof (revert_detours_fst m (r_addr r) id [] (r_detours r) (q, err)) as X. rewrite E1 in X.
      cbn [fst app] in X. subst ds. unfold acts. apply active_drop. }
    eapply revert_detours_code in E1; eauto; [|apply Hin; left; reflexivity|cbn [app]; apply HR; left; reflexivity].
    destruct E1 as (-> & rs1 & Hq1 & Hc1).
    eapply IH in E2; eauto.
    + destruct E2 as (-> & rs2 & Hq2 & Hc2). split; auto. exists rs2. split; auto.
      eapply code_ok_R; [|exact Hc2]. intros f Hf. cbn beta. unfold has_root. cbn [existsb].
      rewrite (Z.eqb_sym (r_addr r) f). fold (has_root t f).
      destruct (Z.eqb_spec f (r_addr r)) as [->|Hne]; cbn [orb]; [|reflexivity].
      destruct (has_root t (r_addr r)) eqn:X; [apply has_root_iff in X; contradiction|].
      rewrite Hds. rewrite (HR r (or_introl eq_refl)). reflexivity.
    + intros r0 Hr0. apply Hin. right. exact Hr0.
    + intros r0 Hr0. cbn beta. destruct (Z.eqb_spec (r_addr r0) (r_addr r)) as [E|E].
      * exfalso. apply Hn1. rewrite <- E. apply in_map. exact Hr0.
      * apply HR. right. exact Hr0.
Qed.

Lemma active_at_root roots r :
  NoDup (map r_addr roots) -> In r roots -> active_at roots (r_addr r) = acts (r_detours r).
Proof.
  unfold active_at, detours_at, acts. intros Hn Hr. f_equal. f_equal.
  induction roots as [|x t IH]; [destruct Hr|]. cbn [find]. cbn [map] in Hn.
  apply NoDup_cons_iff in Hn. destruct Hn as [N1 N2]. destruct Hr as [->|Hr].
  - rewrite Z.eqb_refl. reflexivity.
  - destruct (Z.eqb_spec (r_addr x) (r_addr r)) as [E|E]; [|apply IH; auto].
    exfalso. apply N1. rewrite E. apply in_map. exact Hr.
Qed.

Lemma active_at_no_root roots a : has_root roots a = false -> active_at roots a = [].
Proof.
  unfold active_at, detours_at. intros H. destruct (find _ roots) as [r|] eqn:E; [|reflexivity].
  exfalso. apply find_some in E. destruct E as [E1 E2].
  assert (has_root roots a = true); [|congruence]. unfold has_root. apply existsb_exists. eauto.
Qed.

Lemma active_at_drop id roots a :
  active_at (map (root_drop id) roots) a = filter (keep id) (active_at roots a).
Proof. unfold active_at. rewrite detours_at_drop. apply active_drop. Qed.

Definition roots_in (roots : list droot) : Prop := forall r, In r roots -> In (r_addr r) F.

(** The invariant tying the process to its tables: [m] is the memory. *)
Definition tied (m : mem) (st : lstate) (rs : list req) : Prop :=
  qinv (s_q st) rs /\ roots_in (s_roots st) /\ code_ok (mem_of rs m) (active_at (s_roots st)).

Lemma revert_patch_tied m id st rs st' ret :
  frame -> linv st -> (forall f, In f F -> entry_ok m (eb f) f) ->
  tied m st rs -> s_err st <> EINSNQ ->
  ulp_revert_patch m id st = (st', ret) -> s_err st' <> EINSNQ ->
  s_err st' = s_err st /\ exists rs', tied m st' rs'.
Proof.
  intros HF Hl Hm (T1 & T2 & T3) He H He'.
  pose proof (revert_patch_lists _ _ _ _ _ H) as (_ & L2 & _).
  unfold ulp_revert_patch in H. change (s_roots (next_universe st)) with (s_roots st) in H.
  change (s_q (next_universe st)) with (s_q st) in H. change (s_err (next_universe st)) with (s_err st) in H.
  destruct (revert_roots m id (s_roots st) (s_q st, s_err st)) as [roots [q' err']] eqn:E.
  assert (G : s_q st' = q' /\ s_err st' = err').
  { destruct (state_remove _ _); injection H as <- <-; auto. }
  destruct G as [G1 G2]. rewrite G2 in *.
  eapply revert_roots_code in E; eauto.
  - destruct E as (E1 & rs' & E2 & E3). split; auto. exists rs'. split; [rewrite G1; exact E2|]. split.
    + intros r Hr. rewrite L2 in Hr. apply in_map_iff in Hr. destruct Hr as (r0 & <- & Hr0). apply (T2 r0 Hr0).
    + eapply code_ok_R; [|exact E3]. intros f Hf. cbn beta. rewrite L2, active_at_drop.
      destruct (has_root (s_roots st) f) eqn:X; [reflexivity|]. rewrite active_at_no_root by exact X. reflexivity.
  - apply li_roots. exact Hl.
  - intros r Hr. apply active_at_root; auto. apply li_roots. exact Hl.
Qed.

Lemma revert_dead m id st st' ret :
  ulp_revert_patch m id st = (st', ret) -> s_err st = EINSNQ -> s_err st' = EINSNQ.
Proof.
  unfold ulp_revert_patch. intros H He.
  pose proof (revert_roots_dead m id (s_roots (next_universe st)) (s_q (next_universe st), s_err (next_universe st)) He) as X.
  destruct (revert_roots _ _ _ _) as [roots qe]. destruct (state_remove _ _); injection H as <- <-; exact X.
Qed.

Lemma chain_dead m st ids st' : revert_chain m st ids st' -> s_err st = EINSNQ -> s_err st' = EINSNQ.
Proof. induction 1 as [|st id ids st1 st2 H1 H2 H3 IH]; auto. intros H. apply IH. eapply revert_dead; eauto. Qed.

Lemma chain_tied m st ids st' rs :
  revert_chain m st ids st' ->
  frame -> linv st -> (forall f, In f F -> entry_ok m (eb f) f) ->
  tied m st rs -> s_err st <> EINSNQ -> s_err st' <> EINSNQ ->
  s_err st' = s_err st /\ exists rs', tied m st' rs'.
Proof.
  intros H HF. revert rs. induction H as [|st id ids st1 st2 H1 H2 H3 IH]; intros rs Hl Hm Ht He He'; eauto.
  assert (He1 : s_err st1 <> EINSNQ) by (intros X; apply He'; eapply chain_dead; eauto).
  destruct (revert_patch_tied _ _ _ _ _ _ HF Hl Hm Ht He H2 He1) as (E & rs1 & Ht1).
  rewrite <- E. eapply IH; eauto.
  eapply revert_patch_linv; eauto. apply can_revert_iff in H1. tauto.
Qed.

(** ** Applying *)

Lemma apply_units_dead e m libname h id us st st' ret :
  apply_units e m libname h id us st = (st', ret) -> s_err st = EINSNQ -> s_err st' = EINSNQ.
Proof.
  revert st; induction us as [|u us IH]; intros st H He.
  - cbn in H. injection H as <- <-. exact He.
  - rewrite apply_units_step in H. cbv zeta in H.
    destruct (_ =? 0); [injection H as <- <-; exact He|].
    destruct (_ =? 0); [injection H as <- <-; exact He|].
    set (old := get_loaded_symbol_addr _ _ _ _ _) in *. set (new := e_dlsym e h (u_new u)) in *.
    destruct (record_unit_fields st id old new) as (F1 & F2 & F3 & F4).
    rewrite F3, F4, He in H.
    destruct (looks_patchable m old); [|injection H as <- <-; reflexivity].
    apply IH in H; [exact H|]. cbn [set_qe s_err]. apply submit_dead.
Qed.

Lemma looks_livepatchable m f : looks_patchable m f = true -> exists endbr, livepatchable m endbr f.
Proof.
  unfold looks_patchable. intros H. exists (is_endbr64 m f). unfold livepatchable, nops_at, slot.
  pose proof (is_endbr64_iff m f) as G. destruct (is_endbr64 m f).
  - split; [apply G; reflexivity|]. lia.
  - split; [intros X; apply G in X; discriminate|]. lia.
Qed.

Lemma record_unit_roots_in st id old new :
  roots_in (s_roots st) -> In old F -> roots_in (s_roots (record_unit st id old new)).
Proof.
  intros H Ho r Hr. assert (G : In (r_addr r) (map r_addr (s_roots (record_unit st id old new)))) by (apply in_map; exact Hr).
  rewrite record_unit_addrs in G.
  assert (X : forall a, In a (map r_addr (s_roots st)) -> In a F).
  { intros a Ha. apply in_map_iff in Ha. destruct Ha as (r0 & <- & H0). apply H. exact H0. }
  destruct (has_root (s_roots st) old); [apply X; exact G|]. destruct G as [<-|G]; auto.
Qed.

Lemma apply_units_code e m libname h id us st st' rs :
  frame -> (forall f, In f F -> entry_ok m (eb f) f) ->
  (forall f g, In (f, g) (unit_pairs e libname h us) -> In f F \/ ~ exists endbr, livepatchable m endbr f) ->
  tied m st rs -> s_err st <> EINSNQ ->
  apply_units e m libname h id us st = (st', 0) -> s_err st' <> EINSNQ ->
  s_err st' = s_err st /\ exists rs', tied m st' rs'.
Proof.
  intros HF Hm. revert st rs; induction us as [|u us IH]; intros st rs Hp Ht He H He'.
  - cbn in H. injection H as <-. eauto.
  - rewrite apply_units_step in H. cbv zeta in H.
    destruct (_ =? 0); [discriminate|]. destruct (_ =? 0); [discriminate|].
    set (old := get_loaded_symbol_addr _ _ _ _ _) in *. set (new := e_dlsym e h (u_new u)) in *.
    destruct (looks_patchable m old) eqn:EL; [|discriminate].
    assert (Ho : In old F).
    { destruct (Hp old new) as [X|X]; [left; reflexivity|exact X|]. exfalso. apply X.
      apply looks_livepatchable. exact EL. }
    destruct (record_unit_fields st id old new) as (F1 & F2 & F3 & F4).
    rewrite F3, F4 in H. destruct Ht as (T1 & T2 & T3).
    destruct (submit (s_q st, s_err st) (patch_req m old new true)) as [q1 err1] eqn:Es.
    destruct (submit_ok _ _ _ _ _ _ T1 (patch_req_ok m old new true) Es He) as [[-> Hq1]| -> ].
    + eapply IH in H; eauto.
      * intros f g Hfg. apply (Hp f g). right. exact Hfg.
      * split; [exact Hq1|]. cbn [set_qe s_roots]. split; [apply record_unit_roots_in; auto|].
        rewrite mem_of_app. cbn [mem_of fold_left].
        eapply code_ok_R; [|eapply (enable_step m _ old new _ id (active_at (s_roots st) old)); eauto].
        intros f Hf. cbn beta.
        unfold active_at. rewrite record_unit_detours.
        destruct (Z.eqb_spec f old) as [->|Hne]; [|reflexivity].
        reflexivity.
    + exfalso. apply He'. eapply apply_units_dead; eauto.
Qed.

Lemma apply_refs_dead e h tb ti pb refs st st' ret :
  apply_refs e h tb ti pb refs st = Some (st', ret) -> s_err st = EINSNQ -> s_err st' = EINSNQ.
Proof.
  revert st; induction refs as [|r refs IH]; intros st H He.
  - cbn in H. injection H as <- <-. exact He.
  - cbn [apply_refs] in H. rewrite He in H.
    destruct (rf_poff r =? 0).
    + destruct (rf_name r); [|discriminate]. destruct (_ =? 0); [injection H as <- <-; exact He|].
      apply IH in H; [exact H|]. cbn [set_qe s_err]. rewrite memwrite_submit. apply submit_dead.
    + apply IH in H; [exact H|]. cbn [set_qe s_err]. rewrite memwrite_submit. apply submit_dead.
Qed.

Lemma apply_refs_code e h tb ti pb refs m st st' rs :
  (forall n, 0 <= e_dlsym e h n < 2 ^ 64) ->
  (forall r pa x f, In r refs ->
     (rf_poff r = 0 /\ exists name, rf_name r = Some name /\ pa = e_dlsym e h name) \/
     (rf_poff r <> 0 /\ pa = u64 (pb + rf_poff r)) ->
     pa <= x < pa + 16 -> In f F -> ~ in_window (eb f) f x) ->
  tied m st rs -> s_err st <> EINSNQ ->
  apply_refs e h tb ti pb refs st = Some (st', 0) -> s_err st' <> EINSNQ ->
  s_err st' = s_err st /\ exists rs', tied m st' rs'.
Proof.
  intros Hsane. revert st rs; induction refs as [|r refs IH]; intros st rs Hr Ht He H He'.
  - cbn in H. injection H as <-. eauto.
  - cbn [apply_refs] in H. fold (ref_data tb ti r) in H.
    assert (G : exists pa, 0 <= pa < 2 ^ 64 /\
       ((rf_poff r = 0 /\ exists name, rf_name r = Some name /\ pa = e_dlsym e h name) \/
        (rf_poff r <> 0 /\ pa = u64 (pb + rf_poff r))) /\
       apply_refs e h tb ti pb refs (set_qe st (submit (s_q st, s_err st) (RWrite pa (ref_data tb ti r)))) = Some (st', 0)).
    { destruct (Z.eqb_spec (rf_poff r) 0) as [E0|E0].
      - destruct (rf_name r) as [name|]; [|discriminate].
        destruct (e_dlsym e h name =? 0); [discriminate|]. exists (e_dlsym e h name).
        split; [apply Hsane|]. split; [left; eauto|rewrite <- memwrite_submit; exact H].
      - exists (u64 (pb + rf_poff r)). split; [unfold u64; apply Z.mod_pos_bound; lia|]. split; [right; auto|rewrite <- memwrite_submit; exact H]. }
    clear H. destruct G as (pa & Hpa & Hcase & H).
    destruct (ref_data_ok tb ti r) as [Hb Hlen].
    destruct Ht as (T1 & T2 & T3).
    destruct (submit (s_q st, s_err st) (RWrite pa (ref_data tb ti r))) as [q1 err1] eqn:Es.
    destruct (submit_ok _ _ _ _ _ _ T1 (conj Hpa Hb : req_ok (RWrite pa (ref_data tb ti r))) Es He) as [[-> Hq1]| -> ].
    + eapply IH in H; eauto.
      * intros r0 pa0 x f Hin. apply Hr. right. exact Hin.
      * split; [exact Hq1|]. cbn [set_qe s_roots]. split; [exact T2|].
        rewrite mem_of_app. cbn [mem_of fold_left req_mem].
        eapply code_ok_ext; [|exact T3]. intros f x Hf Hx. symmetry. apply mem_write_out.
        assert (~ (pa <= x < pa + 16)).
        { intros X. apply (Hr r pa x f (or_introl eq_refl) Hcase X Hf). exact Hx. }
        lia.
    + exfalso. apply He'. eapply apply_refs_dead; eauto.
Qed.

Lemma apply_all_code e m h md st st' rs :
  frame -> (forall f, In f F -> entry_ok m (eb f) f) -> h = e_dlopen e (md_so md) ->
  env_sane e ->
  (forall f g, In (f, g) (replacements e md) -> In f F \/ ~ exists endbr, livepatchable m endbr f) ->
  (forall r pa x f, In r (md_refs md) -> ref_address e md r pa ->
     pa <= x < pa + 16 -> In f F -> ~ in_window (eb f) f x) ->
  tied m st rs -> s_err st <> EINSNQ ->
  ulp_apply_all_units e m h md st = Some (st', 0) -> s_err st' <> EINSNQ ->
  s_err st' = s_err st /\ exists rs', tied m st' rs'.
Proof.
  intros HF Hm Hh Hs Hp Hr Ht He H He'. unfold ulp_apply_all_units in H.
  destruct (apply_units _ _ _ _ _ _ _) as [st1 r1] eqn:E.
  destruct (Z.eqb_spec r1 0) as [->|E0]; cbn [negb] in H; [|injection H as <- ->; contradiction].
  destruct (_ =? 255); [discriminate|]. destruct (e_laddr e h) as [la|] eqn:El; [|discriminate].
  destruct (la =? 0); [discriminate|].
  assert (He1 : s_err st1 <> EINSNQ) by (intros X; apply He'; eapply apply_refs_dead; eauto).
  eapply apply_units_code in E; eauto; [|rewrite Hh; exact Hp].
  destruct E as (E1 & rs1 & Ht1). rewrite E1 in He1.
  eapply apply_refs_code in H; eauto.
  - destruct H as (E2 & H). split; [etransitivity; [exact E2|exact E1]|exact H].
  - intros r pa x f Hin Hc. apply (Hr r pa x f Hin). unfold ref_address. rewrite <- Hh.
    destruct Hc as [Hc|[Hc1 Hc2]]; [left; exact Hc|right; split; auto]. exists la. auto.
  - rewrite E1. exact He1.
Qed.

End Code.

(** ** Whole histories *)

Lemma functions_frame F eb m : functions_ok F eb m -> frame F eb.
Proof. intros [H1 H2 H3]. constructor; auto. Qed.

Lemma functions_code F eb m : functions_ok F eb m -> code_ok F eb m (fun _ => []).
Proof.
  intros [H1 H2 H3] f Hf. cbn. destruct (H2 f Hf) as [A B]. unfold plain_bytes.
  destruct (eb f); [split; [exact A|exact B]|exact B].
Qed.

Definition targets_sane (st : lstate) : Prop :=
  forall f x, In x (active_at (s_roots st) f) -> 0 <= snd x < 2 ^ 64.

Lemma tied_ext F eb m st st' rs :
  s_q st' = s_q st -> s_roots st' = s_roots st -> tied F eb m st rs -> tied F eb m st' rs.
Proof. unfold tied. intros -> ->. auto. Qed.

Lemma alive_err st : alive st -> s_err st <> EINSNQ.
Proof. unfold alive. intros [E|E]; rewrite E; discriminate. Qed.

Lemma gate_alive busy st st' ans : gate busy st st' ans -> alive st' -> st' = st.
Proof. intros G H. destruct G; auto. exfalso. apply alive_err in H. apply H. reflexivity. Qed.

Lemma tied_entry F eb m st : tied F eb m st [] -> forall f, In f F -> entry_ok m (eb f) f.
Proof. intros (_ & _ & H) f Hf. eapply route_ok_entry. apply H. exact Hf. Qed.

Lemma event_tied F eb ev p p' ans rs :
  frame F eb -> linv (p_lib p) -> event_ok F eb p ev -> do_event ev p = Some (p', ans) ->
  alive (p_lib p') -> tied F eb (p_mem p) (p_lib p) rs ->
  exists rs', tied F eb (p_mem p') (p_lib p') rs'.
Proof.
  intros HF Hl Hok H Ha Ht. pose proof (alive_err _ Ha) as He'.
  destruct ev as [busy e junk buf|busy e name| |te|m']; cbn [do_event] in H.
  - destruct (ulp_apply_patch _ _ _ _ _ _) as [[st a]|] eqn:Ex; [|discriminate]. injection H as <- <-.
    cbn [p_lib p_mem] in *. apply apply_outcome in Ex. destruct Ex as [Ex|(E0 & Eq & _ & Ex)].
    { apply gate_alive in Ex; auto. subst. eauto. }
    assert (rs = []) by (eapply qinv_empty_iff; [apply Ht|exact Eq]). subst rs.
    pose proof (tied_entry _ _ _ _ Ht) as Hm.
    assert (He : s_err (p_lib p) <> EINSNQ) by (rewrite E0; discriminate).
    destruct Hok as [Hsane Hok].
    destruct Ex as [ans Hans|md st' ans Hp Hty Hcr Hrv|md st1 st2 ans Hp Hty Hb Hd Hap Hh Hu Hx].
    + eauto.
    + eapply revert_patch_tied in Hrv; eauto. destruct Hrv as (_ & Hrv). exact Hrv.
    + destruct (Z.eqb_spec ans 0) as [->|Hne].
      2:{ exfalso. destruct Ha as [Ha|Ha]; cbn in Ha; discriminate. }
      apply state_update_some in Hu. destruct Hu as (us & Hus & ->).
      destruct (Hok md Hp) as [Hok1 Hok2].
      eapply apply_all_code in Hx; eauto. destruct Hx as (_ & Hx). exact Hx.
  - destruct (ulp_revert_patches_from_lib _ _ _ _ _ _) as [[st a]|] eqn:Ex; [|discriminate]. injection H as <- <-.
    cbn [p_lib p_mem] in *. apply revert_all_outcome in Ex.
    destruct Ex as [Ex|(E0 & Eq & _ & [(-> & ->)|[(Hm & -> & ->)|(Hm & -> & Hch)]])]; eauto.
    { apply gate_alive in Ex; auto. subst. eauto. }
    assert (rs = []) by (eapply qinv_empty_iff; [apply Ht|exact Eq]). subst rs.
    eapply chain_tied in Hch; eauto; [|apply (tied_entry _ _ _ _ Ht)|rewrite E0; discriminate].
    destruct Hch as (_ & Hch). exact Hch.
  - injection H as <- <-. exists rs. cbn [p_lib p_mem]. unfold ENONE.
    destruct (_ =? 0); [|destruct (_ =? EUSRBLOCKED)]; exact Ht.
  - destruct (insnq_interpret_from_process _ _ _ _) as [[[r q] t]|] eqn:Ex; [|discriminate]. injection H as <- <-.
    cbn [p_lib p_mem set_qe] in *. destruct Ht as (T1 & T2 & T3).
    pose proof (interpret_cases _ _ _ _ _ _ _ T1 Hok Ex) as G.
    destruct G as [(-> & -> & _)|[(-> & -> & _)|(-> & -> & _)]].
    + exists rs. split; auto.
    + exists rs. split; [exact T1|]. split; [exact T2|]. rewrite perform_all_mem. cbn [t_mem s_roots].
      eapply code_ok_ext; [|exact T3]. intros f x _ _. symmetry. apply mem_of_twice.
    + exists []. split; [eapply qinv_reset; exact T1|]. split; [exact T2|]. rewrite perform_all_mem. exact T3.
  - injection H as <- <-. cbn [p_lib p_mem] in *. exists rs. destruct Ht as (T1 & T2 & T3).
    split; auto. split; auto. eapply code_ok_ext; [|exact T3]. intros f x Hf Hx. apply mem_of_ext.
    symmetry. eapply Hok; eauto.
Qed.

Lemma clean_is_history F eb p0 tr p : clean_history F eb p0 tr p -> history p0 tr p.
Proof. induction 1; econstructor; eauto. Qed.

Lemma clean_tied F eb m stale tr p :
  functions_ok F eb m -> clean_history F eb (fresh m stale) tr p -> alive (p_lib p) ->
  exists rs, tied F eb (p_mem p) (p_lib p) rs.
Proof.
  intros HF. induction 1 as [|tr p ev p' ans H IH Hok E]; intros Ha.
  - exists []. split; [apply qinv_empty|]. split; [intros r []|]. apply functions_code. exact HF.
  - destruct (IH (dead_absorbing _ _ _ _ E Ha)) as (rs & Ht).
    eapply event_tied; eauto. + eapply functions_frame; eauto.
    + eapply history_linv. eapply clean_is_history. exact H.
Qed.

(** Targets of active detours are 64-bit addresses. *)
Definition log_sane (L : list entry) : Prop :=
  forall en f g, In en L -> In (f, g) (en_repl en) -> 0 <= g < 2 ^ 64.

Lemma clean_log_sane F eb p0 tr p : clean_history F eb p0 tr p -> log_sane (log_of tr).
Proof.
  induction 1 as [|tr p ev p' ans H IH Hok E]; [intros en f g []|].
  rewrite log_of_snoc. destruct ev as [busy e junk buf|busy e name| |te|m']; cbn [log_step]; auto.
  - destruct (ans =? 0); auto. destruct (parse_metadata_from_mem junk buf) as [| | |md]; auto.
    destruct (md_type md =? 2).
    + intros en f g Hen. apply filter_In in Hen. apply IH. tauto.
    + intros en f g [<-|Hen]; [|apply IH; exact Hen]. cbn. unfold replacements. rewrite in_map_iff.
      intros (u & Hu & _). injection Hu as _ <-. apply Hok.
  - destruct (ans =? 0); auto. intros en f g Hen. apply filter_In in Hen. apply IH. tauto.
Qed.

Lemma repl_of_filter repl f :
  repl_of repl f = match rev (filter (fun p => fst p =? f) repl) with [] => None | (_, g) :: _ => Some g end.
Proof.
  induction repl as [|[o n] t IH]; [reflexivity|]. cbn [repl_of filter fst]. rewrite IH.
  destruct (o =? f); cbn [rev]; [|destruct (rev _) as [|[x y] l]; reflexivity].
  destruct (rev (filter _ t)) as [|[x y] l]; reflexivity.
Qed.

Lemma route_flat L f :
  route L f = match flat_map (entry_at f) L with [] => None | (_, g) :: _ => Some g end.
Proof.
  induction L as [|en L IH]; [reflexivity|]. cbn [route flat_map]. rewrite repl_of_filter.
  unfold entry_at at 1. destruct (rev _) as [|[x y] l]; cbn; [exact IH|reflexivity].
Qed.

Lemma repl_of_in repl f g : repl_of repl f = Some g -> In (f, g) repl.
Proof.
  revert g; induction repl as [|[o n] t IH]; intros g H; [discriminate|]. cbn [repl_of] in H.
  destruct (repl_of t f) as [g0|].
  - injection H as <-. right. apply IH. reflexivity.
  - destruct (Z.eqb_spec o f) as [->|]; [injection H as <-; left; reflexivity|discriminate].
Qed.

Lemma route_in L f g : route L f = Some g -> exists en, In en L /\ In (f, g) (en_repl en).
Proof.
  induction L as [|en L IH]; intros H; [discriminate|]. cbn [route] in H.
  destruct (repl_of (en_repl en) f) as [g0|] eqn:E.
  - injection H as <-. exists en. split; [left; reflexivity|]. apply repl_of_in. exact E.
  - destruct (IH H) as (x & H1 & H2). exists x. split; [right; exact H1|exact H2].
Qed.

Lemma clean_routing F eb m stale tr p :
  functions_ok F eb m -> clean_history F eb (fresh m stale) tr p ->
  alive (p_lib p) -> no_pending p ->
  forall f, In f F ->
    match route (log_of tr) f with
    | Some g => redirected (p_mem p) (eb f) f g
    | None => unredirected (p_mem p) (eb f) f
    end.
Proof.
  intros HF Hh Ha Hn f Hf.
  destruct (clean_tied _ _ _ _ _ _ HF Hh Ha) as (rs & T1 & T2 & T3).
  assert (rs = []) by (eapply qinv_empty_iff; [exact T1|destruct Hn; split; lia]). subst rs.
  destruct (history_corr _ _ _ _ (clean_is_history _ _ _ _ _ Hh) Ha) as [[C1 C2] _].
  specialize (T3 f Hf). rewrite C2 in T3. cbn [mem_of fold_left] in T3.
  destruct (route (log_of tr) f) as [g|] eqn:Er.
  - pose proof (route_in _ _ _ Er) as (en & Hen & Hfg).
    rewrite route_flat in Er. destruct (flat_map _ _) as [|[x y] l]; [discriminate|]. injection Er as ->.
    cbn in T3. apply redir_bytes_redirected; auto. eapply clean_log_sane; eauto.
  - rewrite route_flat in Er. destruct (flat_map _ _) as [|[x y] l]; [|discriminate].
    apply plain_bytes_unredirected. exact T3.
Qed.
