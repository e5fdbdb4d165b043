(** Proofs about the ppc64le trampoline. *)
From Verif Require Import Base BaseFacts PpcSpec PtrModel PtrSpec.

Lemma u64_id x : 0 <= x < 2 ^ 64 -> u64 x = x.
Proof. unfold u64. intros. apply Z.mod_small. auto. Qed.
Lemma u64_rng x : 0 <= u64 x < 2 ^ 64.
Proof. unfold u64. apply Z.mod_pos_bound. lia. Qed.

Lemma gset_same g r v : gset g r v r = v.
Proof. unfold gset. rewrite Z.eqb_refl. auto. Qed.
Lemma gset_other g r v x : x <> r -> gset g r v x = g x.
Proof. unfold gset. intros. destruct (Z.eqb_spec x r); congruence. Qed.

(** ** Loads and stores *)
Lemma ld8_st8_same m a v : 0 <= v < 2 ^ 64 -> ld8 (st8 m a v) a = v.
Proof.
  intros. unfold ld8, st8.
  pose proof (mem_read_write_same m a (le_enc 8 v)) as E. rewrite le_enc_length in E. rewrite E.
  apply le_dec_enc_id. exact H.
Qed.
Lemma ld8_ext m m' a : (forall x, a <= x < a + 8 -> m x = m' x) -> ld8 m a = ld8 m' a.
Proof. intros. unfold ld8. f_equal. apply mem_read_ext. intros. apply H. lia. Qed.
Lemma st8_out m a v x : ~ (a <= x < a + 8) -> st8 m a v x = m x.
Proof.
  intros. unfold st8. apply mem_write_out. unfold zlen. rewrite le_enc_length. lia.
Qed.
Lemma ld8_st8_other m a v b : a + 8 <= b \/ b + 8 <= a -> ld8 (st8 m a v) b = ld8 m b.
Proof. intros. apply ld8_ext. intros. apply st8_out. lia. Qed.
Lemma ld8_rng m a : (forall x, is_byte (m x)) -> 0 <= ld8 m a < 2 ^ 64.
Proof.
  intros. unfold ld8. pose proof (le_dec_bound (mem_read m a 8) (mem_read_bytes m a 8 H)) as B.
  unfold zlen in B. rewrite mem_read_length in B. exact B.
Qed.
Lemma st8_bytes m a v : (forall x, is_byte (m x)) -> forall x, is_byte (st8 m a v x).
Proof. intros. unfold st8. apply mem_write_bytes; auto. apply le_enc_bytes. Qed.

Lemma gset_rng g r v : (forall x, 0 <= g x < 2 ^ 64) -> 0 <= v < 2 ^ 64 -> forall x, 0 <= gset g r v x < 2 ^ 64.
Proof. intros. unfold gset. destruct (x =? r); auto. Qed.

Definition plain (i : pinsn) : bool := match i with I_tls | I_helper => false | _ => true end.

Lemma exec1_wf w e i st st' : plain i = true -> wf_st st -> exec1 w e i st = Some st' -> wf_st st'.
Proof.
  intros P (A & B & C & D) E.
  destruct i; try discriminate; unfold exec1 in E; apply Some_inj in E; subst st'; unfold wf_st; cbn [tg t_lr t_ctr t_le tm];
    (split; [|split; [|split]]); auto using gset_rng, u64_rng, ld8_rng, st8_bytes.
Qed.
Lemma exec_wf w e l : forall st st', forallb plain l = true -> wf_st st -> exec w e l st = Some st' -> wf_st st'.
Proof.
  induction l as [|i l IH]; cbn [exec forallb]; intros st st' P W E.
  - apply Some_inj in E. subst. auto.
  - apply andb_prop in P as [P1 P2]. destruct (exec1 w e i st) as [s|] eqn:E1; [|discriminate].
    apply (IH s st' P2); [eapply exec1_wf; eassumption|assumption].
Qed.

Lemma exec_plain w e l : forall st, forallb plain l = true -> wf_st st -> exists s, exec w e l st = Some s /\ wf_st s.
Proof.
  induction l as [|i l IH]; cbn [exec forallb]; intros st P W; [eauto|].
  apply andb_prop in P as [P1 P2].
  assert (exists s, exec1 w e i st = Some s) as (s & E) by (destruct i; try discriminate; eexists; reflexivity).
  rewrite E. apply IH; auto. eapply exec1_wf; eassumption.
Qed.

Lemma exec_app w e l1 : forall l2 st,
  exec w e (l1 ++ l2) st = match exec w e l1 st with None => None | Some s => exec w e l2 s end.
Proof.
  induction l1 as [|i l IH]; cbn [exec app]; intros; auto.
  destruct (exec1 w e i st); auto.
Qed.

Section Steps.
Variables (w : pworld) (e : penv) (l : list pinsn) (g : Z -> Z) (lr c : Z) (le : bool) (m : mem).
Let st := mk_tst g lr c le m.
Lemma x_nil : exec w e [] st = Some st. Proof. reflexivity. Qed.
Lemma x_std rs ra d : exec w e (I_std rs ra d :: l) st = exec w e l (mk_tst g lr c le (st8 m (u64 (g ra + d)) (g rs))).
Proof. reflexivity. Qed.
Lemma x_ld rt ra d : exec w e (I_ld rt ra d :: l) st = exec w e l (mk_tst (gset g rt (ld8 m (u64 (g ra + d)))) lr c le m).
Proof. reflexivity. Qed.
Lemma x_addi rt ra d : exec w e (I_addi rt ra d :: l) st = exec w e l (mk_tst (gset g rt (u64 (g ra + d))) lr c le m).
Proof. reflexivity. Qed.
Lemma x_add rt ra rb : exec w e (I_add rt ra rb :: l) st = exec w e l (mk_tst (gset g rt (u64 (g ra + g rb))) lr c le m).
Proof. reflexivity. Qed.
Lemma x_mflr rt : exec w e (I_mflr rt :: l) st = exec w e l (mk_tst (gset g rt lr) lr c le m).
Proof. reflexivity. Qed.
Lemma x_mtlr rt : exec w e (I_mtlr rt :: l) st = exec w e l (mk_tst g (g rt) c le m).
Proof. reflexivity. Qed.
Lemma x_mfctr rt : exec w e (I_mfctr rt :: l) st = exec w e l (mk_tst (gset g rt c) lr c le m).
Proof. reflexivity. Qed.
Lemma x_mtctr rt : exec w e (I_mtctr rt :: l) st = exec w e l (mk_tst g lr (g rt) le m).
Proof. reflexivity. Qed.
Lemma x_cmpd ra rb : exec w e (I_cmpd ra rb :: l) st = exec w e l (mk_tst g lr c (s64 (g ra) <=? s64 (g rb)) m).
Proof. reflexivity. Qed.
Lemma x_toc : exec w e (I_toc :: l) st = exec w e l (mk_tst (gset g 2 (u64 (g 12 + (pw_toc w - pw_tramp w)))) lr c le m).
Proof. reflexivity. Qed.
Lemma x_got : exec w e (I_got :: l) st = exec w e l (mk_tst (gset g 3 (u64 (g 2 + (pw_got w - pw_toc w)))) lr c le m).
Proof. reflexivity. Qed.
Lemma x_bl : exec w e (I_bl_next :: l) st = exec w e l (mk_tst g (u64 (pw_tramp w + RETURN_TO_CALLER)) c le m).
Proof. reflexivity. Qed.
End Steps.
Lemma x_tls' w e st : exec w e [I_tls] st = Some (pe_tls e st). Proof. reflexivity. Qed.
Lemma x_helper' w e st : exec w e [I_helper] st = ulp_stack_helper w e st.
Proof. cbn [exec exec1]. destruct (ulp_stack_helper w e st); reflexivity. Qed.

Lemma tst_eta st : st = mk_tst (tg st) (t_lr st) (t_ctr st) (t_le st) (tm st).
Proof. destruct st. reflexivity. Qed.

Lemma gset_lit g r v x : (x =? r) = false -> gset g r v x = g x.
Proof. unfold gset. intros ->. reflexivity. Qed.

Ltac step1 E :=
  first [ rewrite x_std in E | rewrite x_ld in E | rewrite x_addi in E | rewrite x_add in E | rewrite x_mflr in E
        | rewrite x_mtlr in E | rewrite x_mfctr in E | rewrite x_mtctr in E | rewrite x_cmpd in E | rewrite x_toc in E
        | rewrite x_got in E | rewrite x_bl in E ];
  repeat first [rewrite gset_same in E | rewrite gset_lit in E by reflexivity].
Ltac open_exec W :=
  match goal with |- exists s, exec ?w ?e ?l ?st = Some s /\ _ =>
    let E := fresh "E" in let Ws := fresh "Ws" in let s := fresh "s" in
    destruct (exec_plain w e l st eq_refl W) as (s & E & Ws);
    exists s; split; [exact E|]; split; [exact Ws|]; clear Ws;
    unfold tramp_save, tramp_check, tramp_expand1, tramp_expand2, tramp_push, tramp_return, tramp_pop,
         prologue_effect in E;
    try rewrite (tst_eta st) in E;
    repeat step1 E; rewrite x_nil in E;
    apply Some_inj in E; subst s
  end.
Ltac geval := repeat first [ rewrite gset_same | rewrite gset_lit by reflexivity | rewrite gset_other by lia ].
Ltac ev := cbn [tg t_lr t_ctr t_le tm]; geval.

Opaque exec.

Section W.
Variables (w : pworld) (sl sh : Z).
Hypothesis (WO : world_ok w sl sh).

(** ** Entry *)
Lemma save_eq e area st :
  wf_st st -> room sl sh st -> area_ok sl sh area ->
  exists s, exec w e tramp_save (prologue_effect w area st) = Some s /\ wf_st s /\
    tg s 1 = tg st 1 - 88 /\ tg s 2 = pw_toc w /\ tg s 3 = pw_got w /\
    (forall r, r = 4 \/ 7 <= r <= 11 \/ 13 <= r <= 31 -> tg s r = tg st r) /\
    t_lr s = t_lr st /\
    t_ctr s = ld8 (tm st) (area + 4) /\
    ld8 (tm s) (tg st 1 - 8) = tg st 5 /\ ld8 (tm s) (tg st 1 - 16) = tg st 6 /\
    ld8 (tm s) (tg st 1 - 24) = tg st 2 /\ ld8 (tm s) (tg st 1 - 32) = tg st 3 /\
    ld8 (tm s) (tg st 1 - 48) = t_lr st /\
    (forall x, ~ (tg st 1 - 48 <= x < tg st 1) -> tm s x = tm st x).
Proof.
  intros W R A.
  assert (Wp : wf_st (prologue_effect w area st)).
  { unfold prologue_effect, wf_st; cbn [tg t_lr t_ctr t_le tm]. destruct W as (W1 & W2 & W3 & W4).
    unfold world_ok, area_ok in *.
    repeat split; try lia; try (apply gset_rng; [apply gset_rng; auto|lia]); try (apply st8_bytes; apply st8_bytes; auto).
  }
  open_exec Wp.
  unfold room, world_ok, area_ok, disjoint in *. destruct W as (W1 & W2 & W3 & W4).
  unfold prologue_effect. ev.
  pose proof (W1 1). pose proof (W1 5). pose proof (W1 6). pose proof (W1 2). pose proof (W1 3).
  rewrite !(u64_id (tg st 1 - 8)), !(u64_id (tg st 1 - 16)) by lia.
  rewrite !(u64_id (tg st 1 + _)) by lia.
  rewrite (u64_id (pw_tramp w + (pw_toc w - pw_tramp w))) by lia.
  rewrite (u64_id (area + 4)) by lia.
  replace (pw_tramp w + (pw_toc w - pw_tramp w)) with (pw_toc w) by lia.
  rewrite (u64_id (pw_toc w + (pw_got w - pw_toc w))) by lia.
  repeat split; try lia; auto.
  - intros r Hr. repeat rewrite gset_other by lia. auto.
  - rewrite !ld8_st8_other by lia. auto.
  - repeat first [rewrite ld8_st8_other by lia]. apply ld8_st8_same; lia.
  - repeat first [rewrite ld8_st8_other by lia]. apply ld8_st8_same; lia.
  - repeat first [rewrite ld8_st8_other by lia]. replace (tg st 1 - 24) with (tg st 1 + -24) by lia. apply ld8_st8_same; lia.
  - repeat first [rewrite ld8_st8_other by lia]. replace (tg st 1 - 32) with (tg st 1 + -32) by lia. apply ld8_st8_same; lia.
  - replace (tg st 1 - 48) with (tg st 1 + -48) by lia. apply ld8_st8_same; lia.
  - intros x Hx. rewrite !st8_out by lia. auto.
Qed.

Lemma s64_small v : 0 <= v < 2 ^ 63 -> s64 v = v.
Proof. unfold s64. intros. destruct (Z.ltb_spec v (2 ^ 63)); lia. Qed.

Lemma check_eq e st :
  wf_st st -> tg st 3 = pw_us w -> side_ok w sl sh (tm st) ->
  exists s, exec w e tramp_check st = Some s /\ wf_st s /\
    (forall r, r <> 5 -> r <> 6 -> tg s r = tg st r) /\ t_lr s = t_lr st /\ t_ctr s = t_ctr st /\ tm s = tm st /\
    t_le s = (s_real w (tm st) <=? s_used w (tm st)).
Proof.
  intros W E3 S. open_exec W.
  unfold world_ok, side_ok, s_real, s_used in *. unfold REAL_SIZE, USED_SIZE. ev. rewrite E3.
  rewrite !u64_id by lia. rewrite !Z.add_0_r.
  repeat split; auto.
  - intros. rewrite !gset_other by auto. auto.
  - rewrite !s64_small by lia. auto.
Qed.

Definition same_fields (m m' : mem) : Prop :=
  s_real w m' = s_real w m /\ s_used w m' = s_used w m /\ s_ptr w m' = s_ptr w m.
Lemma same_fields_ext m m' :
  (forall x, pw_us w <= x < pw_us w + 24 -> m' x = m x) -> same_fields m m'.
Proof.
  intros H. unfold same_fields, s_real, s_used, s_ptr.
  repeat split; apply ld8_ext; intros; apply H; lia.
Qed.
Lemma side_ok_fields m m' : same_fields m m' -> side_ok w sl sh m -> side_ok w sl sh m'.
Proof. unfold same_fields, side_ok. intros (-> & -> & ->). auto. Qed.

Lemma in_stack_us x : sl <= x < sh -> ~ (pw_us w <= x < pw_us w + 24).
Proof. destruct WO as (_ & _ & _ & _ & _ & D & _). clear - D. lia. Qed.
Lemma side_stack m x : side_ok w sl sh m -> s_ptr w m <= x < s_ptr w m + s_real w m -> ~ (sl <= x < sh).
Proof. intros (_ & _ & _ & _ & _ & _ & D & _). clear - D. unfold disjoint in D. lia. Qed.
Lemma side_us m x : side_ok w sl sh m -> s_ptr w m <= x < s_ptr w m + s_real w m -> ~ (pw_us w <= x < pw_us w + 24).
Proof. intros (_ & _ & _ & _ & _ & _ & _ & D). clear - D. unfold disjoint in D. lia. Qed.
Lemma side_range m : side_ok w sl sh m -> 0 <= s_used w m <= s_real w m.
Proof. intros (D & _). exact D. Qed.

(** ** Growing the side stack *)
Lemma helper_eq e st s :
  env_ok w sl sh e -> wf_st st -> sl <= tg st 1 <= sh - 32 -> tg st 2 = pw_toc w ->
  side_ok w sl sh (tm st) -> s_real w (tm st) <= s_used w (tm st) ->
  ulp_stack_helper w e st = Some s ->
  wf_st s /\ tg s 3 = pw_us w /\ (forall r, r = 1 \/ r = 2 \/ 13 <= r <= 31 -> tg s r = tg st r) /\
  side_ok w sl sh (tm s) /\ s_used w (tm s) = s_used w (tm st) /\ s_used w (tm s) < s_real w (tm s) /\
  (forall i, 0 <= i < s_used w (tm st) -> tm s (s_ptr w (tm s) + i) = tm st (s_ptr w (tm st) + i)) /\
  (forall x, ~ (sl <= x < tg st 1 + 32) -> ~ (pw_us w <= x < pw_us w + 24) ->
             ~ (s_ptr w (tm s) <= x < s_ptr w (tm s) + s_real w (tm s)) -> tm s x = tm st x).
Proof.
  intros (TO & HO & MO) W R T2 S LE H.
  unfold ulp_stack_helper in H. rewrite T2, Z.eqb_refl in H. cbn [negb] in H.
  destruct (HO st W R) as (Wh & Gh & Mh). set (sth := pe_helper e st) in *. clearbody sth.
  assert (F : same_fields (tm st) (tm sth)).
  { apply same_fields_ext. intros x Hx. apply Mh. unfold world_ok in WO. lia. }
  unfold REAL_SIZE, USED_SIZE, PTR in H. rewrite !Z.add_0_r in H.
  fold (s_real w (tm sth)) in H. fold (s_used w (tm sth)) in H.
  pose proof F as (F1 & F2 & F3). rewrite F1, F2 in H.
  assert (S' := S). unfold side_ok in S'.
  remember (s_real w (tm st)) as real eqn:Er. remember (s_used w (tm st)) as used eqn:Eu.
  remember (s_ptr w (tm st)) as old eqn:Eo.
  destruct (Z.leb_spec real used); [|lia]. cbn [negb] in H.
  assert (WO' := WO). unfold world_ok in WO'.
  assert (U1 : u64 (u64 (real + pw_page w) * 2) = (real + pw_page w) * 2).
  { rewrite (u64_id (real + pw_page w)) by lia. apply u64_id. lia. }
  rewrite U1 in H. clear U1. remember ((real + pw_page w) * 2) as n eqn:En.
  assert (D16 : (16 | n)). { rewrite En. apply Z.divide_mul_l. apply Z.divide_add_r; [apply S'|apply WO']. }
  remember (st8 (tm sth) (pw_us w) n) as m1 eqn:Em1.
  assert (P1 : ld8 m1 (pw_us w + 16) = old).
  { rewrite Em1, ld8_st8_other by lia. exact F3. }
  assert (P2 : ld8 m1 (pw_us w + 8) = used).
  { rewrite Em1, ld8_st8_other by lia. exact F2. }
  rewrite P1 in H.
  destruct (pe_mmap e m1 n) as [new|] eqn:EM; [|discriminate H].
  destruct (MO _ _ _ EM) as (N0 & N1 & N2 & N3 & _). clear MO TO HO.
  destruct (Z.eqb_spec new 0) as [Z0|_]; [clear - Z0 N0; lia|].
  apply Some_inj in H. subst s. cbn [tg t_lr t_ctr t_le tm].
  remember (if old =? 0 then m1 else mem_write m1 new (mem_read m1 old (Z.to_nat real))) as m2 eqn:Em2.
  assert (D1 : forall x, new <= x < new + n -> ~ (pw_us w <= x < pw_us w + 24)).
  { clear - N3. unfold disjoint in N3. lia. }
  assert (D2 : forall x, old <= x < old + real -> ~ (sl <= x < sh)).
  { intros x. destruct S' as (_ & _ & _ & _ & _ & _ & D & _). clear - D. unfold disjoint in D. lia. }
  assert (D3 : forall x, old <= x < old + real -> ~ (pw_us w <= x < pw_us w + 24)).
  { intros x. destruct S' as (_ & _ & _ & _ & _ & _ & _ & D). clear - D. unfold disjoint in D. lia. }
  destruct S' as (S0 & _ & _ & S3 & S4 & S5 & _). 
  destruct WO' as (B0 & B1 & B2 & B3 & B4 & B5 & _ & _ & _ & B6 & _).
  assert (Nn : 0 < n < 2 ^ 62) by (clear - N0 N1 En S0 B6; lia).
  assert (Nr : 0 <= real < n) by (clear - En S0 B6; lia).
  assert (ZL : zlen (mem_read m1 old (Z.to_nat real)) = real).
  { unfold zlen. rewrite mem_read_length. clear - Nr. lia. }
  assert (M2 : forall x, ~ (new <= x < new + n) -> m2 x = m1 x).
  { intros x Hx. rewrite Em2. destruct (old =? 0); auto. apply mem_write_out. rewrite ZL. clear - Hx Nr. lia. }
  remember (st8 m2 (pw_us w + 16) new) as m3 eqn:Em3.
  assert (Bm1 : forall x, is_byte (m1 x)). { rewrite Em1. apply st8_bytes. apply Wh. }
  assert (Bm2 : forall x, is_byte (m2 x)).
  { intros x. rewrite Em2. destruct (old =? 0); auto. apply mem_write_bytes; auto. apply mem_read_bytes. auto. }
  assert (Q1 : s_real w m3 = n).
  { unfold s_real. rewrite Em3, ld8_st8_other by (clear; lia).
    rewrite (ld8_ext m2 m1) by (intros x Hx; apply M2; pose proof (D1 x) as D; clear - D Hx; lia).
    rewrite Em1. apply ld8_st8_same. clear - Nn. lia. }
  assert (Q2 : s_used w m3 = used).
  { unfold s_used. rewrite Em3, ld8_st8_other by (clear; lia).
    rewrite (ld8_ext m2 m1) by (intros x Hx; apply M2; pose proof (D1 x) as D; clear - D Hx; lia). exact P2. }
  assert (Q3 : s_ptr w m3 = new).
  { unfold s_ptr. rewrite Em3. apply ld8_st8_same. clear - N0 N1 Nn. lia. }
  split; [|split; [|split; [|split; [|split; [|split; [|split]]]]]].
  - destruct Wh as (Wa & Wb & Wc & Wd). unfold wf_st. cbn [tg t_lr t_ctr t_le tm].
    split; [apply gset_rng; [auto|clear - B3 B4; lia]|]. split; [auto|]. split; [auto|].
    rewrite Em3. apply st8_bytes. auto.
  - apply gset_same.
  - intros r Hr. rewrite gset_other by (clear - Hr; lia). apply Gh. auto.
  - unfold side_ok. rewrite Q1, Q2, Q3.
    split; [clear - S0 Nr H0; lia|]. split; [rewrite Eu; apply S|]. split; [auto|]. split; [auto|].
    split; [clear - N0; lia|]. split; [clear - N0; lia|]. auto.
  - exact Q2.
  - rewrite Q1, Q2. clear - S0 Nr. lia.
  - intros i Hi. rewrite Q3.
    assert (Hr : 0 <= i < real) by (clear - Hi S0; lia).
    rewrite Em3. pose proof (D1 (new + i)) as D. rewrite st8_out by (clear - D Hr Nr; lia).
    rewrite Em2. destruct (Z.eqb_spec old 0) as [O0|_]; [clear - O0 S5 Hr; lia|].
    rewrite mem_write_in by (rewrite ZL; clear - Hr; lia).
    replace (new + i - new) with i by (clear; lia).
    rewrite mem_read_nth by (clear - Hr; lia). rewrite Z2Nat.id by (clear - Hr; lia).
    pose proof (D2 (old + i)) as Da. pose proof (D3 (old + i)) as Db.
    rewrite Em1. rewrite st8_out by (clear - Db Hr; lia). apply Mh. clear - Da Hr R. lia.
  - rewrite Q1, Q3. intros x X1 X2 X3. rewrite Em3, st8_out by (clear - X2; lia). rewrite M2 by (clear - X3; lia).
    rewrite Em1, st8_out by (clear - X2; lia). apply Mh. auto.
Qed.

Lemma helper_progress e st :
  env_ok w sl sh e -> wf_st st -> sl <= tg st 1 <= sh - 32 -> tg st 2 = pw_toc w ->
  side_ok w sl sh (tm st) -> s_real w (tm st) <= s_used w (tm st) ->
  mmap_grants w e (tm st) ->
  exists s, ulp_stack_helper w e st = Some s.
Proof.
  intros (TO & HO & MO) W R T2 S LE H.
  unfold ulp_stack_helper. rewrite T2, Z.eqb_refl. cbn [negb].
  destruct (HO st W R) as (Wh & Gh & Mh). set (sth := pe_helper e st) in *. clearbody sth.
  assert (F : same_fields (tm st) (tm sth)).
  { apply same_fields_ext. intros x Hx. apply Mh. unfold world_ok in WO. lia. }
  unfold REAL_SIZE, USED_SIZE, PTR. rewrite !Z.add_0_r.
  fold (s_real w (tm sth)). fold (s_used w (tm sth)).
  pose proof F as (F1 & F2 & F3). rewrite F1, F2.
  destruct (Z.leb_spec (s_real w (tm st)) (s_used w (tm st))); [|lia]. cbn [negb].
  assert (S' := S). unfold side_ok in S'. assert (WO' := WO). unfold world_ok in WO'.
  assert (U1 : u64 (u64 (s_real w (tm st) + pw_page w) * 2) = 2 * (s_real w (tm st) + pw_page w)).
  { rewrite (u64_id (s_real w (tm st) + pw_page w)) by lia. rewrite u64_id by lia. lia. }
  rewrite U1. remember (2 * (s_real w (tm st) + pw_page w)) as n eqn:En.
  destruct (pe_mmap e (st8 (tm sth) (pw_us w) n) n) as [new|] eqn:EM.
  - destruct (MO _ _ _ EM) as (N0 & _). destruct (Z.eqb_spec new 0) as [Z0|_]; [clear - Z0 N0; lia|]. eauto.
  - exfalso. subst n. eapply H; [| |exact EM]; unfold s_ptr, s_used; rewrite ld8_st8_other by (clear; lia); auto.
Qed.

Lemma expand1_eq e st :
  wf_st st -> sl + 200 <= tg st 1 <= sh ->
  exists s, exec w e tramp_expand1 st = Some s /\ wf_st s /\
    tg s 1 = tg st 1 - 104 /\ (forall r, r <> 1 -> r <> 4 -> tg s r = tg st r) /\
    ld8 (tm s) (tg st 1 - 8) = tg st 4 /\ ld8 (tm s) (tg st 1 - 16) = tg st 7 /\
    ld8 (tm s) (tg st 1 - 24) = tg st 8 /\ ld8 (tm s) (tg st 1 - 32) = tg st 9 /\
    ld8 (tm s) (tg st 1 - 40) = tg st 10 /\ ld8 (tm s) (tg st 1 - 48) = tg st 11 /\
    ld8 (tm s) (tg st 1 - 56) = t_ctr st /\ ld8 (tm s) (tg st 1 - 64) = t_lr st /\
    (forall x, ~ (tg st 1 - 64 <= x < tg st 1) -> tm s x = tm st x).
Proof.
  intros W R. open_exec W.
  unfold world_ok in *. destruct W as (W1 & W2 & W3 & W4). ev.
  pose proof (W1 1). pose proof (W1 4). pose proof (W1 7). pose proof (W1 8). pose proof (W1 9). pose proof (W1 10). pose proof (W1 11).
  rewrite !(u64_id (tg st 1 + _)) by lia.
  split; [lia|]. split. { intros. geval. auto. }
  assert (X : forall k, tg st 1 - k = tg st 1 + (- k)) by (intros; lia).
  rewrite !(X _). repeat split; try (repeat rewrite ld8_st8_other by lia; apply ld8_st8_same; lia).
  intros. rewrite !st8_out by lia. auto.
Qed.

Lemma expand2_eq e st :
  wf_st st -> sl + 200 <= tg st 1 + 104 <= sh ->
  exists s, exec w e tramp_expand2 st = Some s /\ wf_st s /\ tm s = tm st /\
    let b := tg st 1 + 104 in
    tg s 1 = b /\ (forall r, r = 2 \/ r = 3 \/ 13 <= r <= 31 -> tg s r = tg st r) /\
    tg s 4 = ld8 (tm st) (b - 8) /\ tg s 7 = ld8 (tm st) (b - 16) /\ tg s 8 = ld8 (tm st) (b - 24) /\
    tg s 9 = ld8 (tm st) (b - 32) /\ tg s 10 = ld8 (tm st) (b - 40) /\ tg s 11 = ld8 (tm st) (b - 48) /\
    t_ctr s = ld8 (tm st) (b - 56) /\ t_lr s = ld8 (tm st) (b - 64).
Proof.
  intros W R. open_exec W.
  unfold world_ok in *. destruct W as (W1 & W2 & W3 & W4). ev.
  pose proof (W1 1).
  rewrite (u64_id (tg st 1 + 104)) by lia.
  rewrite !(u64_id (tg st 1 + 104 + _)) by lia.
  cbv zeta.
  assert (X : forall k, tg st 1 + 104 - k = tg st 1 + 104 + (- k)) by (intros; lia).
  rewrite !(X _). repeat split; auto.
  intros. geval. auto.
Qed.

(** From the comparison to .Lcontinue_ulp_prologue. *)
Definition maybe_expand e (st : tst) : option tst :=
  if t_le st then exec w e (tramp_expand1 ++ [I_helper] ++ tramp_expand2) st else Some st.

Lemma expand_eq e st s :
  env_ok w sl sh e -> wf_st st -> sl + 200 <= tg st 1 <= sh -> tg st 2 = pw_toc w -> tg st 3 = pw_us w ->
  side_ok w sl sh (tm st) -> t_le st = (s_real w (tm st) <=? s_used w (tm st)) ->
  maybe_expand e st = Some s ->
  wf_st s /\ tg s 3 = pw_us w /\
  (forall r, r = 1 \/ r = 2 \/ r = 4 \/ 7 <= r <= 11 \/ 13 <= r <= 31 -> tg s r = tg st r) /\
  t_ctr s = t_ctr st /\
  side_ok w sl sh (tm s) /\ s_used w (tm s) = s_used w (tm st) /\ s_used w (tm s) + 16 <= s_real w (tm s) /\
  (forall i, 0 <= i < s_used w (tm st) -> tm s (s_ptr w (tm s) + i) = tm st (s_ptr w (tm st) + i)) /\
  (forall x, ~ (sl <= x < tg st 1) -> ~ (pw_us w <= x < pw_us w + 24) ->
             ~ (s_ptr w (tm s) <= x < s_ptr w (tm s) + s_real w (tm s)) -> tm s x = tm st x).
Proof.
  intros E W R T2 T3 S L H. unfold maybe_expand in H. rewrite L in H.
  assert (MULT : forall a b, (16 | a) -> (16 | b) -> a < b -> a + 16 <= b).
  { intros a b [a' Ha] [b' Hb] Hl. lia. }
  destruct (Z.leb_spec (s_real w (tm st)) (s_used w (tm st))) as [LE|GT].
  - rewrite exec_app in H.
    destruct (expand1_eq e st W R) as (s1 & E1 & W1 & G1 & O1 & A1 & A2 & A3 & A4 & A5 & A6 & A7 & A8 & M1).
    rewrite E1 in H. rewrite exec_app, x_helper' in H.
    destruct (ulp_stack_helper w e s1) as [s2|] eqn:EH; [|discriminate H].
    assert (F : same_fields (tm st) (tm s1)).
    { apply same_fields_ext. intros. apply M1. unfold world_ok in WO. lia. }
    destruct (helper_eq e s1 s2) as (W2 & H3 & HG & HS & HU & HL & HC & HM); auto.
    { lia. } { rewrite O1 by lia. auto. } { eapply side_ok_fields; eauto. }
    { destruct F as (-> & -> & _). auto. }
    destruct (expand2_eq e s2 W2) as (s3 & E3 & W3 & M3 & K).
    { rewrite HG by lia. lia. }
    rewrite E3 in H. apply Some_inj in H. subst s3. cbv zeta in K.
    rewrite (HG 1) in K by lia. rewrite G1 in K. replace (tg st 1 - 104 + 104) with (tg st 1) in K by lia.
    destruct F as (F1 & F2 & F3).
    assert (SAME : forall k, 0 <= k <= 56 -> ld8 (tm s2) (tg st 1 - 64 + k) = ld8 (tm s1) (tg st 1 - 64 + k)).
    { intros k Hk. apply ld8_ext. intros x Hx.
      assert (Sx : sl <= x < sh) by (clear - Hx Hk R; lia).
      apply HM; [rewrite G1; clear - Hx Hk R; lia|apply in_stack_us; auto|].
      intros Hb. exact (side_stack _ x HS Hb Sx). }
    rewrite M3.
    destruct K as (K1 & KO & K4 & K7 & K8 & K9 & K10 & K11 & KC & KL).
    pose proof (SAME 56) as Z8. pose proof (SAME 48) as Z16. pose proof (SAME 40) as Z24. pose proof (SAME 32) as Z32.
    pose proof (SAME 24) as Z40. pose proof (SAME 16) as Z48. pose proof (SAME 8) as Z56.
    replace (tg st 1 - 64 + 56) with (tg st 1 - 8) in Z8 by lia.
    replace (tg st 1 - 64 + 48) with (tg st 1 - 16) in Z16 by lia.
    replace (tg st 1 - 64 + 40) with (tg st 1 - 24) in Z24 by lia.
    replace (tg st 1 - 64 + 32) with (tg st 1 - 32) in Z32 by lia.
    replace (tg st 1 - 64 + 24) with (tg st 1 - 40) in Z40 by lia.
    replace (tg st 1 - 64 + 16) with (tg st 1 - 48) in Z48 by lia.
    replace (tg st 1 - 64 + 8) with (tg st 1 - 56) in Z56 by lia.
    split; [auto|]. split; [rewrite KO by lia; auto|].
    split; [|split; [|split; [|split; [|split; [|split]]]]].
    + intros r Hr.
      assert (r = 1 \/ r = 4 \/ r = 7 \/ r = 8 \/ r = 9 \/ r = 10 \/ r = 11 \/ (r = 2 \/ 13 <= r <= 31)) as D by lia.
      clear - D K1 K4 K7 K8 K9 K10 K11 Z8 Z16 Z24 Z32 Z40 Z48 A1 A2 A3 A4 A5 A6 KO HG O1.
      destruct D as [->|[->|[->|[->|[->|[->|[->|D]]]]]]].
      * exact K1.
      * rewrite K4, Z8 by lia. exact A1.
      * rewrite K7, Z16 by lia. exact A2.
      * rewrite K8, Z24 by lia. exact A3.
      * rewrite K9, Z32 by lia. exact A4.
      * rewrite K10, Z40 by lia. exact A5.
      * rewrite K11, Z48 by lia. exact A6.
      * rewrite KO by lia. rewrite HG by lia. apply O1; lia.
    + rewrite KC, Z56 by lia. exact A7.
    + auto.
    + rewrite HU. exact F2.
    + apply MULT; try apply HS. exact HL.
    + intros i Hi. rewrite HC by (rewrite F2; exact Hi). rewrite F3. apply M1.
      pose proof (side_range _ S) as Rg.
      pose proof (side_stack _ (s_ptr w (tm st) + i) S ltac:(clear - Hi Rg; lia)) as D. clear - D R. lia.
    + intros x X1 X2 X3. rewrite HM; auto. { apply M1. clear - X1 R. lia. } rewrite G1. clear - X1. lia.
  - apply Some_inj in H. subst s. do 6 (split; [auto|]). split; [|split; auto].
    apply MULT; try apply S. exact GT.
Qed.

Lemma expand_progress e st :
  env_ok w sl sh e -> wf_st st -> sl + 200 <= tg st 1 <= sh -> tg st 2 = pw_toc w ->
  side_ok w sl sh (tm st) -> t_le st = (s_real w (tm st) <=? s_used w (tm st)) ->
  mmap_grants w e (tm st) ->
  exists s, maybe_expand e st = Some s.
Proof.
  intros E W R T2 S L H. unfold maybe_expand. rewrite L.
  destruct (Z.leb_spec (s_real w (tm st)) (s_used w (tm st))) as [LE|GT]; [|eauto].
  rewrite exec_app.
  destruct (expand1_eq e st W R) as (s1 & E1 & W1 & G1 & O1 & A1 & A2 & A3 & A4 & A5 & A6 & A7 & A8 & M1).
  rewrite E1. rewrite exec_app, x_helper'.
  assert (F : same_fields (tm st) (tm s1)).
  { apply same_fields_ext. intros. apply M1. unfold world_ok in WO. lia. }
  destruct (helper_progress e s1) as (s2 & EH); auto.
  { lia. } { rewrite O1 by lia. auto. } { eapply side_ok_fields; eauto. }
  { destruct F as (-> & -> & _). auto. }
  { unfold mmap_grants. destruct F as (-> & -> & ->). exact H. }
  rewrite EH. destruct (exec_plain w e tramp_expand2 s2 eq_refl) as (s3 & -> & _); eauto.
  destruct (helper_eq e s1 s2) as (W2 & _); auto.
  { lia. } { rewrite O1 by lia. auto. } { eapply side_ok_fields; eauto. }
  { destruct F as (-> & -> & _). auto. }
Qed.

Lemma push_eq e st :
  wf_st st -> tg st 3 = pw_us w -> side_ok w sl sh (tm st) -> s_used w (tm st) + 16 <= s_real w (tm st) ->
  sl + 200 <= tg st 1 -> tg st 1 + 88 <= sh ->
  exists s, exec w e tramp_push st = Some s /\ wf_st s /\
    let b := tg st 1 + 88 in
    tg s 1 = b /\ (forall r, r = 4 \/ 7 <= r <= 11 \/ 13 <= r <= 31 -> tg s r = tg st r) /\
    tg s 5 = ld8 (tm st) (b - 8) /\ tg s 6 = ld8 (tm st) (b - 16) /\ tg s 3 = ld8 (tm st) (b - 32) /\
    tg s 12 = t_ctr st /\ t_ctr s = t_ctr st /\
    s_real w (tm s) = s_real w (tm st) /\ s_ptr w (tm s) = s_ptr w (tm st) /\ s_used w (tm s) = s_used w (tm st) + 16 /\
    ld8 (tm s) (s_ptr w (tm st) + s_used w (tm st)) = ld8 (tm st) (b - 24) /\
    ld8 (tm s) (s_ptr w (tm st) + s_used w (tm st) + 8) = ld8 (tm st) (b - 48) /\
    (forall x, ~ (pw_us w <= x < pw_us w + 24) ->
               ~ (s_ptr w (tm st) + s_used w (tm st) <= x < s_ptr w (tm st) + s_used w (tm st) + 16) -> tm s x = tm st x).
Proof.
  intros W T3 S U R1 R2. open_exec W.
  unfold world_ok, side_ok, disjoint in *. destruct W as (W1 & W2 & W3 & W4). ev.
  unfold USED_SIZE, PTR. rewrite T3. rewrite (u64_id (pw_us w + 8)), (u64_id (pw_us w + 16)), (u64_id (tg st 1 + 88)) by lia.
  fold (s_used w (tm st)). rewrite (u64_id (s_used w (tm st) + 16)) by lia.
  set (m1 := st8 (tm st) (pw_us w + 8) (s_used w (tm st) + 16)).
  assert (P : ld8 m1 (pw_us w + 16) = s_ptr w (tm st)).
  { unfold m1. rewrite ld8_st8_other by lia. auto. }
  rewrite P. rewrite (u64_id (s_ptr w (tm st) + _)) by lia.
  set (ptr := s_ptr w (tm st)) in *. set (used := s_used w (tm st)) in *.
  rewrite !(u64_id (tg st 1 + 88 + _)) by lia. rewrite !(u64_id (ptr + (used + 16) + _)) by lia.
  cbv zeta. replace (tg st 1 + 88 - 8) with (tg st 1 + 88 + -8) by lia.
  replace (tg st 1 + 88 - 16) with (tg st 1 + 88 + -16) by lia.
  replace (tg st 1 + 88 - 24) with (tg st 1 + 88 + -24) by lia.
  replace (tg st 1 + 88 - 32) with (tg st 1 + 88 + -32) by lia.
  replace (tg st 1 + 88 - 48) with (tg st 1 + 88 + -48) by lia.
  replace (ptr + (used + 16) + -16) with (ptr + used) by lia.
  replace (ptr + (used + 16) + -8) with (ptr + used + 8) by lia.
  assert (K : forall k, -48 <= k <= -8 -> ld8 m1 (tg st 1 + 88 + k) = ld8 (tm st) (tg st 1 + 88 + k)).
  { intros. unfold m1. apply ld8_st8_other. lia. }
  rewrite (K (-24)), (K (-48)) by lia.
  pose proof (ld8_rng (tm st) (tg st 1 + 88 + -24) W4). pose proof (ld8_rng (tm st) (tg st 1 + 88 + -48) W4).
  split; [reflexivity|]. split. { intros. geval. auto. }
  repeat split; auto; unfold s_real, s_ptr, s_used.
  - rewrite !ld8_st8_other by lia. apply K; lia.
  - rewrite !ld8_st8_other by lia. apply K; lia.
  - rewrite !ld8_st8_other by lia. apply K; lia.
  - rewrite !ld8_st8_other by lia. unfold m1. rewrite ld8_st8_other by lia. auto.
  - rewrite !ld8_st8_other by lia. auto.
  - rewrite !ld8_st8_other by lia. unfold m1. apply ld8_st8_same. lia.
  - rewrite ld8_st8_other by lia. apply ld8_st8_same. lia.
  - apply ld8_st8_same. lia.
  - intros x X1 X2. rewrite !st8_out by lia. unfold m1. rewrite st8_out by lia. auto.
Qed.

(** The whole entry. *)
Lemma enter_eq e area st s :
  env_ok w sl sh e -> area_ok sl sh area -> wf_st st -> room sl sh st -> side_ok w sl sh (tm st) ->
  redirected_entry w e area st = Some s ->
  wf_st s /\ tg s 1 = tg st 1 /\ (forall r, 3 <= r <= 10 \/ 13 <= r <= 31 -> tg s r = tg st r) /\
  tg s 12 = ld8 (tm st) (area + 4) /\ t_ctr s = ld8 (tm st) (area + 4) /\ t_lr s = u64 (pw_tramp w + AFTER_CALL) /\
  side_ok w sl sh (tm s) /\ s_used w (tm s) = s_used w (tm st) + 16 /\
  (forall i, 0 <= i < s_used w (tm st) -> tm s (s_ptr w (tm s) + i) = tm st (s_ptr w (tm st) + i)) /\
  ld8 (tm s) (s_ptr w (tm s) + s_used w (tm st)) = tg st 2 /\
  ld8 (tm s) (s_ptr w (tm s) + s_used w (tm st) + 8) = t_lr st /\
  (forall x, ~ (sl <= x < tg st 1) -> ~ (pw_us w <= x < pw_us w + 24) ->
             ~ (s_ptr w (tm s) <= x < s_ptr w (tm s) + s_real w (tm s)) -> tm s x = tm st x).
Proof.
  intros E A W R S H. pose proof E as (TO & HO & MO).
  unfold redirected_entry, tramp_enter in H. rewrite exec_app in H.
  destruct (save_eq e area st W R A) as (s1 & E1 & W1 & G1 & G2 & G3 & GO & GL & GC & A8 & A16 & A24 & A32 & A48 & M1).
  rewrite E1 in H. rewrite exec_app, x_tls' in H.
  unfold room in R.
  destruct (TO s1 W1 G3 G2) as (W2 & T3 & TG & TC & M2). { lia. }
  set (s2 := pe_tls e s1) in *. clearbody s2.
  assert (M12 : forall x, ~ (sl <= x < tg st 1) -> tm s2 x = tm st x).
  { intros x Hx. rewrite M2 by (clear - Hx G1 R; lia). apply M1. clear - Hx R. lia. }
  assert (IU : forall x, pw_us w <= x < pw_us w + 24 -> ~ (sl <= x < tg st 1)).
  { intros x Hx Hs. apply (in_stack_us x); [clear - Hs R; lia|exact Hx]. }
  assert (F2 : same_fields (tm st) (tm s2)). { apply same_fields_ext. intros. apply M12. auto. }
  assert (S2 : side_ok w sl sh (tm s2)) by (eapply side_ok_fields; eauto).
  destruct (check_eq e s2 W2 T3 S2) as (s3 & E3 & W3 & G3' & L3 & C3 & M3 & LE3).
  rewrite E3 in H. fold (maybe_expand e s3) in H.
  destruct (maybe_expand e s3) as [s4|] eqn:E4; [|discriminate H].
  rewrite <- M3 in S2, LE3, F2.
  assert (R3 : tg s3 1 = tg st 1 - 88). { rewrite G3' by (clear; lia). rewrite TG by (clear; lia). exact G1. }
  assert (T3' : tg s3 3 = pw_us w). { rewrite G3' by (clear; lia). exact T3. }
  assert (T2' : tg s3 2 = pw_toc w). { rewrite G3' by (clear; lia). rewrite TG by (clear; lia). exact G2. }
  assert (R3' : sl + 200 <= tg s3 1 <= sh) by (clear - R R3; lia).
  destruct (expand_eq e s3 s4 E W3 R3' T2' T3' S2 LE3 E4) as (W4 & T4 & G4 & C4 & S4 & U4 & R4 & K4 & M4).
  assert (R1 : tg s4 1 = tg st 1 - 88). { rewrite G4 by (clear; lia). exact R3. }
  destruct (push_eq e s4 W4 T4 S4 R4) as (s5 & E5 & W5 & K). { clear - R1 R; lia. } { clear - R1 R; lia. }
  rewrite E5 in H. apply Some_inj in H. subst s. cbn [tg t_lr t_ctr t_le tm]. cbv zeta in K.
  rewrite R1 in K. replace (tg st 1 - 88 + 88) with (tg st 1) in K by (clear; lia).
  destruct K as (K1 & KO & K5 & K6 & K3 & K12 & KC & KR & KP & KU & KT & KL & KM).
  assert (B48 : forall k, 8 <= k <= 48 -> ld8 (tm s4) (tg st 1 - k) = ld8 (tm s1) (tg st 1 - k)).
  { intros k Hk. apply ld8_ext. intros x Hx.
    assert (Sx : sl <= x < sh) by (clear - Hx Hk R; lia).
    rewrite M4.
    - rewrite M3. apply M2. clear - Hx Hk R G1. lia.
    - clear - Hx Hk R R3. lia.
    - apply in_stack_us. auto.
    - intros Hb. exact (side_stack _ x S4 Hb Sx). }
  rewrite (B48 8), A8 in K5 by (clear; lia). rewrite (B48 16), A16 in K6 by (clear; lia). rewrite (B48 32), A32 in K3 by (clear; lia).
  rewrite (B48 24), A24 in KT by (clear; lia). rewrite (B48 48), A48 in KL by (clear; lia).
  assert (CT : t_ctr s4 = ld8 (tm st) (area + 4)) by (clear - C4 C3 TC GC; congruence).
  destruct F2 as (F2r & F2u & F2p).
  assert (U45 : s_used w (tm s4) = s_used w (tm st)) by (clear - U4 F2u; congruence).
  pose proof (side_range _ S4) as Rg4. pose proof (side_range _ S) as Rg.
  split. { destruct W5 as (Wa & Wb & Wc & Wd). split; [exact Wa|]. split; [apply u64_rng|]. split; [exact Wc|exact Wd]. }
  split; [exact K1|].
  split.
  { intros r Hr. assert (r = 3 \/ r = 5 \/ r = 6 \/ (r = 4 \/ 7 <= r <= 10 \/ 13 <= r <= 31)) as D by (clear - Hr; lia).
    destruct D as [->|[->|[->|D]]]; [exact K3|exact K5|exact K6|].
    rewrite KO by (clear - D; lia). rewrite G4 by (clear - D; lia). rewrite G3' by (clear - D; lia).
    rewrite TG by (clear - D; lia). apply GO. clear - D. lia. }
  split; [congruence|]. split; [congruence|]. split; [reflexivity|].
  split.
  { unfold side_ok. rewrite KR, KP, KU. destruct S4 as (a1 & a2 & a3 & a4 & a5 & a6 & a7 & a8).
    split; [clear - R4 a1; lia|]. split; [apply Z.divide_add_r; [exact a2|apply Z.divide_refl]|]. auto 10. }
  split; [rewrite KU, U45; reflexivity|]. rewrite KP.
  split.
  { intros i Hi.
    assert (HB : s_ptr w (tm s4) <= s_ptr w (tm s4) + i < s_ptr w (tm s4) + s_real w (tm s4)) by (clear - Hi Rg4 U45; lia).
    rewrite KM; [|exact (side_us _ _ S4 HB)|clear - Hi U45; lia].
    rewrite K4 by (rewrite F2u; exact Hi). rewrite F2p. rewrite M3. apply M12.
    pose proof (side_stack _ (s_ptr w (tm st) + i) S ltac:(clear - Hi Rg; lia)) as D. clear - D R. lia. }
  rewrite <- U45. split; [exact KT|]. split; [exact KL|].
  intros x X1 X2 X3. rewrite KR in X3. rewrite KM; [|exact X2|clear - X3 R4 Rg4; lia].
  rewrite M4; [|clear - X1 R3; lia|exact X2|exact X3]. rewrite M3. apply M12. exact X1.
Qed.

Lemma enter_progress e area st :
  env_ok w sl sh e -> area_ok sl sh area -> wf_st st -> room sl sh st -> side_ok w sl sh (tm st) ->
  mmap_grants w e (tm st) ->
  exists s, redirected_entry w e area st = Some s.
Proof.
  intros E A W R S H. pose proof E as (TO & HO & MO).
  unfold redirected_entry, tramp_enter. rewrite exec_app.
  destruct (save_eq e area st W R A) as (s1 & E1 & W1 & G1 & G2 & G3 & GO & GL & GC & A8 & A16 & A24 & A32 & A48 & M1).
  rewrite E1. rewrite exec_app, x_tls'.
  unfold room in R.
  destruct (TO s1 W1 G3 G2) as (W2 & T3 & TG & TC & M2). { lia. }
  set (s2 := pe_tls e s1) in *. clearbody s2.
  assert (M12 : forall x, ~ (sl <= x < tg st 1) -> tm s2 x = tm st x).
  { intros x Hx. rewrite M2 by (clear - Hx G1 R; lia). apply M1. clear - Hx R. lia. }
  assert (IU : forall x, pw_us w <= x < pw_us w + 24 -> ~ (sl <= x < tg st 1)).
  { intros x Hx Hs. apply (in_stack_us x); [clear - Hs R; lia|exact Hx]. }
  assert (F2 : same_fields (tm st) (tm s2)). { apply same_fields_ext. intros. apply M12. auto. }
  assert (S2 : side_ok w sl sh (tm s2)) by (eapply side_ok_fields; eauto).
  destruct (check_eq e s2 W2 T3 S2) as (s3 & E3 & W3 & G3' & L3 & C3 & M3 & LE3).
  rewrite E3. fold (maybe_expand e s3).
  rewrite <- M3 in S2, LE3, F2.
  assert (R3 : tg s3 1 = tg st 1 - 88). { rewrite G3' by (clear; lia). rewrite TG by (clear; lia). exact G1. }
  assert (T2' : tg s3 2 = pw_toc w). { rewrite G3' by (clear; lia). rewrite TG by (clear; lia). exact G2. }
  assert (T3' : tg s3 3 = pw_us w). { rewrite G3' by (clear; lia). exact T3. }
  assert (R3' : sl + 200 <= tg s3 1 <= sh) by (clear - R R3; lia).
  assert (H3 : mmap_grants w e (tm s3)).
  { unfold mmap_grants. destruct F2 as (-> & -> & ->). exact H. }
  destruct (expand_progress e s3 E W3 R3' T2' S2 LE3 H3) as (s4 & E4). rewrite E4.
  destruct (expand_eq e s3 s4 E W3 R3' T2' T3' S2 LE3 E4) as (W4 & _).
  destruct (exec_plain w e tramp_push s4 eq_refl W4) as (s5 & E5 & _). rewrite E5. eauto.
Qed.

(** ** Return *)
Lemma return_eq e st :
  wf_st st -> room sl sh st ->
  exists s, exec w e tramp_return st = Some s /\ wf_st s /\
    tg s 1 = tg st 1 - 56 /\ tg s 2 = pw_toc w /\ tg s 3 = pw_got w /\
    (forall r, 4 <= r <= 11 \/ 13 <= r <= 31 -> tg s r = tg st r) /\ t_ctr s = t_ctr st /\
    ld8 (tm s) (tg st 1 - 8) = tg st 3 /\ ld8 (tm s) (tg st 1 - 16) = tg st 12 /\
    (forall x, ~ (tg st 1 - 16 <= x < tg st 1) -> tm s x = tm st x).
Proof.
  intros W R. open_exec W.
  unfold world_ok, room in *. destruct W as (W1 & W2 & W3 & W4). ev. unfold RETURN_TO_CALLER.
  pose proof (W1 1). pose proof (W1 3). pose proof (W1 12).
  rewrite !(u64_id (tg st 1 + _)) by lia.
  rewrite (u64_id (pw_tramp w + 4 * 41)) by lia.
  rewrite (u64_id (pw_tramp w + 4 * 41 + - (4 * 41))) by lia.
  replace (pw_tramp w + 4 * 41 + - (4 * 41) + (pw_toc w - pw_tramp w)) with (pw_toc w) by lia.
  rewrite (u64_id (pw_toc w)) by lia.
  rewrite (u64_id (pw_toc w + (pw_got w - pw_toc w))) by lia.
  replace (tg st 1 - 8) with (tg st 1 + -8) by lia. replace (tg st 1 - 16) with (tg st 1 + -16) by lia.
  repeat split; try lia.
  - intros. geval. auto.
  - rewrite ld8_st8_other by lia. apply ld8_st8_same. lia.
  - apply ld8_st8_same. lia.
  - intros. rewrite !st8_out by lia. auto.
Qed.

Lemma pop_eq e st :
  wf_st st -> tg st 3 = pw_us w -> side_ok w sl sh (tm st) -> 16 <= s_used w (tm st) ->
  sl + 200 <= tg st 1 -> tg st 1 + 56 <= sh ->
  exists s, exec w e tramp_pop st = Some s /\ wf_st s /\
    let b := tg st 1 + 56 in
    tg s 1 = b /\ (forall r, r = 4 \/ r = 7 \/ 9 <= r <= 11 \/ 13 <= r <= 31 -> tg s r = tg st r) /\ t_ctr s = t_ctr st /\
    tg s 3 = ld8 (tm st) (b - 8) /\ tg s 12 = ld8 (tm st) (b - 16) /\
    tg s 2 = ld8 (tm st) (s_ptr w (tm st) + s_used w (tm st) - 16) /\
    t_lr s = ld8 (tm st) (s_ptr w (tm st) + s_used w (tm st) - 8) /\
    s_real w (tm s) = s_real w (tm st) /\ s_ptr w (tm s) = s_ptr w (tm st) /\ s_used w (tm s) = s_used w (tm st) - 16 /\
    (forall x, ~ (pw_us w <= x < pw_us w + 24) -> tm s x = tm st x).
Proof.
  intros W T3 S U R1 R2. open_exec W.
  unfold world_ok, side_ok, disjoint in *. destruct W as (W1 & W2 & W3 & W4). ev.
  unfold USED_SIZE, PTR. rewrite T3. rewrite (u64_id (pw_us w + 8)), (u64_id (pw_us w + 16)), (u64_id (tg st 1 + 56)) by lia.
  fold (s_used w (tm st)). rewrite (u64_id (s_used w (tm st) + -16)) by lia.
  set (m1 := st8 (tm st) (pw_us w + 8) (s_used w (tm st) + -16)).
  assert (P : ld8 m1 (pw_us w + 16) = s_ptr w (tm st)).
  { unfold m1. rewrite ld8_st8_other by lia. auto. }
  rewrite P. rewrite (u64_id (s_ptr w (tm st) + _)) by lia.
  set (ptr := s_ptr w (tm st)) in *. set (used := s_used w (tm st)) in *.
  rewrite !(u64_id (tg st 1 + 56 + _)) by lia. rewrite !(u64_id (ptr + (used + -16) + _)) by lia.
  cbv zeta.
  replace (tg st 1 + 56 - 8) with (tg st 1 + 56 + -8) by lia.
  replace (tg st 1 + 56 - 16) with (tg st 1 + 56 + -16) by lia.
  replace (ptr + (used + -16) + 0) with (ptr + used - 16) by lia.
  replace (ptr + (used + -16) + 8) with (ptr + used - 8) by lia.
  split; [reflexivity|]. split. { intros. geval. auto. }
  repeat split; auto; unfold s_real, s_ptr, s_used; unfold m1.
  - rewrite ld8_st8_other by lia. auto.
  - rewrite ld8_st8_other by lia. auto.
  - rewrite ld8_st8_other by lia. auto.
  - rewrite ld8_st8_other by lia. auto.
  - rewrite ld8_st8_other by lia. auto.
  - rewrite ld8_st8_same by lia. lia.
  - intros. rewrite st8_out by lia. auto.
Qed.

Lemma leave_eq e st :
  env_ok w sl sh e -> wf_st st -> room sl sh st -> side_ok w sl sh (tm st) -> 16 <= s_used w (tm st) ->
  exists s, tramp_leave w e st = Some s /\ wf_st s /\
    tg s 1 = tg st 1 /\ (forall r, r = 3 \/ r = 4 \/ 13 <= r <= 31 -> tg s r = tg st r) /\
    tg s 2 = ld8 (tm st) (s_ptr w (tm st) + s_used w (tm st) - 16) /\
    t_lr s = ld8 (tm st) (s_ptr w (tm st) + s_used w (tm st) - 8) /\
    side_ok w sl sh (tm s) /\
    s_real w (tm s) = s_real w (tm st) /\ s_ptr w (tm s) = s_ptr w (tm st) /\ s_used w (tm s) = s_used w (tm st) - 16 /\
    (forall x, ~ (sl <= x < tg st 1) -> ~ (pw_us w <= x < pw_us w + 24) -> tm s x = tm st x).
Proof.
  intros E W R S U. pose proof E as (TO & HO & MO).
  destruct (return_eq e st W R) as (s1 & E1 & W1 & G1 & G2 & G3 & GO & GC & A8 & A16 & M1).
  unfold tramp_leave. rewrite exec_app, E1, exec_app, x_tls'.
  unfold room in R.
  destruct (TO s1 W1 G3 G2) as (W2 & T3 & TG & TC & M2). { clear - R G1. lia. }
  set (s2 := pe_tls e s1) in *. clearbody s2.
  assert (M12 : forall x, ~ (sl <= x < tg st 1) -> tm s2 x = tm st x).
  { intros x Hx. rewrite M2 by (clear - Hx G1 R; lia). apply M1. clear - Hx R. lia. }
  assert (IU : forall x, pw_us w <= x < pw_us w + 24 -> ~ (sl <= x < tg st 1)).
  { intros x Hx Hs. apply (in_stack_us x); [clear - Hs R; lia|exact Hx]. }
  assert (F2 : same_fields (tm st) (tm s2)). { apply same_fields_ext. intros. apply M12. auto. }
  assert (S2 : side_ok w sl sh (tm s2)) by (eapply side_ok_fields; eauto).
  destruct F2 as (F2r & F2u & F2p).
  assert (R1 : tg s2 1 = tg st 1 - 56) by (rewrite TG by (clear; lia); exact G1).
  destruct (pop_eq e s2 W2 T3 S2) as (s3 & E3 & W3 & K). { rewrite F2u. exact U. } { clear - R1 R. lia. } { clear - R1 R. lia. }
  rewrite E3. exists s3. cbv zeta in K. rewrite R1 in K. replace (tg st 1 - 56 + 56) with (tg st 1) in K by (clear; lia).
  rewrite F2r, F2u, F2p in K.
  destruct K as (K1 & KO & KC & K3 & K12 & K2 & KL & KR & KP & KU & KM).
  split; [reflexivity|]. split; [exact W3|]. split; [exact K1|].
  pose proof (side_range _ S) as Rg.
  assert (TOP : forall x, s_ptr w (tm st) + s_used w (tm st) - 16 <= x < s_ptr w (tm st) + s_used w (tm st) -> tm s2 x = tm st x).
  { intros x Hx. apply M12. pose proof (side_stack _ x S ltac:(clear - Hx Rg U; lia)) as D. clear - D R. lia. }
  split.
  { intros r Hr. assert (r = 3 \/ (r = 4 \/ 13 <= r <= 31)) as D by (clear - Hr; lia). destruct D as [->|D].
    - rewrite K3. rewrite (ld8_ext (tm s2) (tm s1)); [exact A8|]. intros x Hx. apply M2. clear - Hx R G1. lia.
    - rewrite KO by (clear - D; lia). rewrite TG by (clear - D; lia). apply GO. clear - D. lia. }
  split. { rewrite K2. apply ld8_ext. intros x Hx. apply TOP. clear - Hx. lia. }
  split. { rewrite KL. apply ld8_ext. intros x Hx. apply TOP. clear - Hx. lia. }
  split.
  { unfold side_ok. rewrite KR, KP, KU. destruct S as (a1 & a2 & a3 & a4 & a5 & a6 & a7 & a8).
    split; [clear - U a1; lia|]. split; [apply Z.divide_sub_r; [exact a2|apply Z.divide_refl]|]. auto 10. }
  split; [exact KR|]. split; [exact KP|]. split; [exact KU|].
  intros. rewrite KM by auto. auto.
Qed.

(** ** Nested runs *)
Definition kept (st st' : tst) : Prop :=
  s_used w (tm st') = s_used w (tm st) /\
  (forall i, 0 <= i < s_used w (tm st) -> tm st' (s_ptr w (tm st') + i) = tm st (s_ptr w (tm st) + i)).

Lemma kept_trans a b c : kept a b -> kept b c -> kept a c.
Proof.
  intros (U1 & K1) (U2 & K2). split; [lia|]. intros i Hi. rewrite K2 by lia. apply K1. auto.
Qed.

Lemma nested_kept st st' :
  nested w sl sh st st' -> wf_st st -> side_ok w sl sh (tm st) ->
  wf_st st' /\ side_ok w sl sh (tm st') /\ kept st st'.
Proof.
  induction 1 as [st|st1 st2 st3 PS N IH|e e' area st st1 st2 st3 st4 E E' A R EN N1 IH1 R1 LV N2 IH2]; intros W S.
  - split; [auto|]. split; [auto|]. split; auto.
  - destruct PS as (W2 & P1 & P2).
    assert (F : same_fields (tm st1) (tm st2)) by (apply same_fields_ext; auto).
    destruct IH as (W3 & S3 & K3); auto. { eapply side_ok_fields; eauto. }
    split; [auto|]. split; [auto|]. eapply kept_trans; [|exact K3].
    destruct F as (F1 & F2 & F3). split; [auto|]. intros i Hi. rewrite F3. apply P2. lia.
  - destruct (enter_eq e area st st1) as (W1 & G1 & GO & G12 & GC & GL & S1 & U1 & K1 & _ & _ & M1); auto.
    destruct (IH1 W1 S1) as (W2 & S2 & U2 & K2).
    pose proof (side_range _ S) as US. pose proof (side_range _ S2) as US2.
    destruct (leave_eq e' st2) as (s3 & LV' & W3 & G3 & GO3 & _ & _ & S3 & R3 & P3 & U3 & M3); auto.
    { unfold room in *. clear - R R1 G1. lia. } { clear - U1 U2 US. lia. }
    rewrite LV in LV'. apply Some_inj in LV'. subst s3.
    destruct (IH2 W3 S3) as (W4 & S4 & K4).
    split; [auto|]. split; [auto|]. eapply kept_trans; [|exact K4].
    split; [clear - U1 U2 U3; lia|]. intros i Hi. rewrite P3.
    assert (HB : s_ptr w (tm st2) <= s_ptr w (tm st2) + i < s_ptr w (tm st2) + s_real w (tm st2)) by (clear - Hi U1 U2 US2; lia).
    rewrite M3; [|pose proof (side_stack _ _ S2 HB) as D; unfold room in R; clear - D R R1 G1; lia|exact (side_us _ _ S2 HB)].
    rewrite K2 by (clear - Hi U1; lia). apply K1. auto.
Qed.
End W.

(** ** Interruption of the return path *)
Section Sig.
Variables (w : pworld) (sl sh : Z).
Hypothesis (WO : world_ok w sl sh).

Lemma leave_first_part e st sa :
  env_ok w sl sh e -> wf_st st -> room sl sh st -> side_ok w sl sh (tm st) -> 16 <= s_used w (tm st) ->
  exec w e (tramp_return ++ [I_tls] ++ firstn 3 tramp_pop) st = Some sa ->
  tg sa 3 = pw_us w /\ tg sa 6 = s_used w (tm st) - 16 /\ tg sa 1 = tg st 1 - 56 /\
  side_ok w sl sh (tm sa) /\ s_used w (tm sa) = s_used w (tm st) - 16 /\ s_real w (tm sa) = s_real w (tm st).
Proof.
  intros E W R S U H. pose proof E as (TO & HO & MO).
  destruct (return_eq w sl sh WO e st W R) as (s1 & E1 & W1 & G1 & G2 & G3 & GO & GC & A8 & A16 & M1).
  rewrite exec_app, E1, exec_app, x_tls' in H.
  unfold room in R.
  destruct (TO s1 W1 G3 G2) as (W2 & T3 & TG & TC & M2). { clear - R G1. lia. }
  set (s2 := pe_tls e s1) in *. clearbody s2.
  assert (M12 : forall x, ~ (sl <= x < tg st 1) -> tm s2 x = tm st x).
  { intros x Hx. rewrite M2 by (clear - Hx G1 R; lia). apply M1. clear - Hx R. lia. }
  assert (F2 : same_fields w (tm st) (tm s2)).
  { apply same_fields_ext. intros x Hx. apply M12. intros Hs. apply (in_stack_us w sl sh WO x); [clear - Hs R; lia|exact Hx]. }
  assert (S2 : side_ok w sl sh (tm s2)) by (eapply side_ok_fields; eauto).
  destruct F2 as (F2r & F2u & F2p).
  assert (R1 : tg s2 1 = tg st 1 - 56) by (rewrite TG by (clear; lia); exact G1).
  change (firstn 3 tramp_pop) with [I_ld 6 3 USED_SIZE; I_addi 6 6 (-16); I_std 6 3 USED_SIZE] in H.
  rewrite (tst_eta s2) in H. rewrite x_ld in H. rewrite x_addi in H. rewrite x_std, x_nil in H.
  apply Some_inj in H. subst sa. cbn [tg t_lr t_ctr t_le tm]. geval. rewrite T3. unfold USED_SIZE.
  unfold world_ok in WO.
  rewrite (u64_id (pw_us w + 8)) by (clear - WO; lia). fold (s_used w (tm s2)). rewrite F2u.
  pose proof (side_range w sl sh _ S) as Rg.
  assert (B : s_real w (tm st) < 2 ^ 62). { unfold side_ok in S. clear - S. lia. }
  rewrite (u64_id (s_used w (tm st) + -16)) by (clear - U Rg B; lia).
  replace (s_used w (tm st) + -16) with (s_used w (tm st) - 16) by (clear; lia).
  set (m' := st8 (tm s2) (pw_us w + 8) (s_used w (tm st) - 16)).
  assert (Q1 : s_real w m' = s_real w (tm st)).
  { unfold s_real, m'. rewrite ld8_st8_other by (clear; lia). exact F2r. }
  assert (Q2 : s_used w m' = s_used w (tm st) - 16).
  { unfold s_used at 1, m'. apply ld8_st8_same. clear - U Rg B. lia. }
  assert (Q3 : s_ptr w m' = s_ptr w (tm st)).
  { unfold s_ptr, m'. rewrite ld8_st8_other by (clear; lia). exact F2p. }
  split; [reflexivity|]. split; [reflexivity|]. split; [exact R1|].
  split; [|split; [exact Q2|exact Q1]].
  unfold side_ok. rewrite Q1, Q2, Q3. destruct S as (a1 & a2 & a3 & a4 & a5 & a6 & a7 & a8).
  split; [clear - U a1; lia|]. split; [apply Z.divide_sub_r; [exact a2|apply Z.divide_refl]|]. auto 10.
Qed.

Lemma leave_last_part e st s :
  tg st 3 = pw_us w -> 0 <= s_ptr w (tm st) -> 0 <= tg st 6 -> s_ptr w (tm st) + tg st 6 < 2 ^ 62 ->
  exec w e (skipn 3 tramp_pop) st = Some s ->
  t_lr s = ld8 (tm st) (s_ptr w (tm st) + tg st 6 + 8) /\ tg s 2 = ld8 (tm st) (s_ptr w (tm st) + tg st 6).
Proof.
  intros T3 P0 P1 P2 H.
  change (skipn 3 tramp_pop) with
    [I_ld 5 3 PTR; I_add 5 5 6; I_ld 2 5 0; I_ld 8 5 8; I_mtlr 8; I_addi 1 1 56; I_ld 3 1 (-8); I_ld 12 1 (-16)] in H.
  rewrite (tst_eta st) in H. repeat step1 H. rewrite x_nil in H. apply Some_inj in H. subst s.
  cbn [tg t_lr t_ctr t_le tm]. geval. rewrite T3. unfold PTR.
  unfold world_ok in WO. rewrite (u64_id (pw_us w + 16)) by (clear - WO; lia).
  fold (s_ptr w (tm st)). rewrite (u64_id (s_ptr w (tm st) + tg st 6)) by (clear - P0 P1 P2; lia).
  rewrite !u64_id by (clear - P0 P1 P2; lia). rewrite Z.add_0_r. auto.
Qed.
End Sig.
