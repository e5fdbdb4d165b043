(** Proofs for C97. *)
From Coq Require Import Bool Lia.
From Verif Require Import Base BaseFacts InsnQModel LibModel LibSpec DlModel X86Model X86Spec X86Proofs PtModel StrModel
  PostModel PostSpec PostProofs PostProps WinSpec BltModel BltSpec.

(** ** Finding the table *)
Lemma find_from_table before after k : ~ In TABLE before ->
  find_from k (map Some before ++ Some TABLE :: after) TABLE = F_at (k + length before)%nat.
Proof.
  revert k. induction before as [|s t IH]; intros k N; cbn [map app find_from length].
  - rewrite bytes_eqb_refl, Nat.add_0_r. reflexivity.
  - destruct (bytes_eqb TABLE s) eqn:E; [apply bytes_eqb_eq in E; subst s; exfalso; apply N; left; reflexivity|].
    rewrite IH by (intros H; apply N; right; exact H). f_equal. lia.
Qed.
Lemma find_table lb entries : has_table lb entries ->
  exists i addr, find_section_by_name lb TABLE = F_at i /\ nth_error (lb_secs lb) i = Some (mk_esec addr (concat (map (le_enc 8) entries))).
Proof.
  intros (first & before & after & addr & En & N & Es). exists (S (length before)), addr. split; [|exact Es].
  unfold find_section_by_name. rewrite En. cbn [tl]. rewrite find_from_table by exact N. reflexivity.
Qed.

Lemma table_words_enc entries : (forall e, In e entries -> 0 <= e < 2 ^ 64) ->
  forall k, (length (concat (map (le_enc 8) entries)) <= k)%nat -> table_words k (concat (map (le_enc 8) entries)) = Some entries.
Proof.
  induction entries as [|e t IH]; intros H k Hk.
  - destruct k; reflexivity.
  - cbn [map concat] in *. rewrite app_length, le_enc_length in Hk.
    assert (Ed : le_dec (le_enc 8 e) = e) by (apply le_dec_enc_id; apply (H e); left; reflexivity).
    destruct (le_enc 8 e) as [|a1 [|a2 [|a3 [|a4 [|a5 [|a6 [|a7 [|a8 [|x r]]]]]]]]] eqn:E;
      pose proof (le_enc_length 8 e) as L; rewrite E in L; try discriminate L.
    destruct k as [|k]; [lia|]. cbn [app table_words]. rewrite IH; [rewrite Ed; reflexivity| |lia].
    intros x Hx. apply H. right. exact Hx.
Qed.
Lemma table_of_enc entries : (forall e, In e entries -> 0 <= e < 2 ^ 64) -> table_of (concat (map (le_enc 8) entries)) = Some entries.
Proof. intros H. apply table_words_enc; [exact H|lia]. Qed.

(** ** The merging goes through *)
Definition ready (syms : list esym) (secs : list esec) (e : Z) : Prop :=
  forall s, find (fun s => sy_value s =? u64 (e + 14)) syms = Some s ->
    exists a, sec_addr secs (Z.to_nat (sy_shndx s)) = Some a /\
      mergeable (dat secs (Z.to_nat (sy_shndx s))) (u64 (u64 (e + 14) - a)).

Lemma place_ge l off : 0 <= off -> 0 <= place l off.
Proof. intros H. unfold place. destruct (endbr l off); lia. Qed.

Lemma fixup_total syms all : forall entries secs,
  (forall e, In e entries -> In e all) -> apart syms secs all -> (forall e, In e all -> ready syms secs e) ->
  exists secs', nops_fixup syms entries secs = PO_ok secs'.
Proof.
  induction entries as [|e0 t IH]; intros secs Hsub Hap Hr; cbn [nops_fixup]; [eauto|].
  change (ULP_NOPS_LEN - PRE_NOPS_LEN) with 2. change PRE_NOPS_LEN with 14.
  assert (He0 : In e0 all) by (apply Hsub; left; reflexivity).
  assert (X : exists s1, merge_nops_at_addr syms secs (u64 (e0 + 14)) 2 = PO_ok s1).
  { destruct (find (fun s => sy_value s =? u64 (e0 + 14)) syms) as [s|] eqn:F.
    - destruct (Hr e0 He0 s F) as (a & Ha & M). eexists. apply merge_ok. right. exists s, a. auto.
    - eexists. apply merge_ok. left. auto. }
  destruct X as (s1 & E). rewrite E. pose proof (merge_step _ _ _ _ E) as Hst.
  assert (Hst' : steps secs s1) by (econstructor; [exact Hst|constructor]).
  apply IH; [intros x Hx; apply Hsub; right; exact Hx| |].
  - intros e1 e2 j p1 p2 I1 I2 T1 T2. eapply (Hap e1 e2 j p1 p2 I1 I2); eapply target_stable; eauto.
  - intros e He s F. destruct (Hr e He s F) as (a & Ha & M1 & M2 & M3 & M4 & M5).
    destruct (step_facts _ _ Hst) as (_ & A & B & C). exists a. rewrite A. split; [exact Ha|].
    assert (P : place (dat s1 (Z.to_nat (sy_shndx s))) (u64 (u64 (e + 14) - a)) = place (dat secs (Z.to_nat (sy_shndx s))) (u64 (u64 (e + 14) - a))).
    { unfold place. rewrite C by exact M1. reflexivity. }
    unfold mergeable. rewrite P, B. split; [exact M1|]. split; [exact M2|]. split; [exact M3|].
    apply merge_ok in E as [[_ ->]|(s0 & a0 & F0 & Ha0 & M & Es1)]; [auto|].
    destruct M as (N1 & N2 & N3 & N4 & N5).
    assert (Hi : (Z.to_nat (sy_shndx s0) < length secs)%nat).
    { unfold sec_addr in Ha0. apply nth_error_Some. intros E0. rewrite E0 in Ha0. discriminate. }
    rewrite Es1. rewrite dat_put by exact Hi. destruct (Nat.eqb_spec (Z.to_nat (sy_shndx s)) (Z.to_nat (sy_shndx s0))) as [Ei|]; [|auto].
    rewrite Ei in *. set (q := place _ (u64 (u64 (e0 + 14) - a0))) in *. set (p := place _ (u64 (u64 (e + 14) - a))) in *.
    assert (Hq : 0 <= q < zlen (dat secs (Z.to_nat (sy_shndx s0)))) by (pose proof (place_ge (dat secs (Z.to_nat (sy_shndx s0))) _ N1); fold q in H; lia).
    assert (Hp : 0 <= p) by (pose proof (place_ge (dat secs (Z.to_nat (sy_shndx s0))) _ M1) as H; fold p in H; lia).
    assert (q <> p + 1).
    { apply (Hap e e0 (Z.to_nat (sy_shndx s0)) p q He He0).
      - exists s, a. rewrite Ei. auto.
      - exists s0, a0. auto. }
    rewrite !zn_upd by lia. destruct (Z.eqb_spec (p + 1) q); [lia|]. destruct (p =? q); auto.
Qed.

Lemma compiled_ready lb e : 0 <= e -> e + 14 < 2 ^ 64 ->
  no_symbol lb e \/ (exists i off p, as_compiled lb e i off p) -> ready (lb_syms lb) (lb_secs lb) e.
Proof.
  intros R1 R2 Hc s F. assert (U : u64 (e + 14) = e + 14) by (apply Z.mod_small; lia). rewrite U in *.
  destruct Hc as [N|(i & off & p & Fa & L & D & B1 & B2)].
  { apply find_some in F. destruct F as [F1 F2]. apply Z.eqb_eq in F2. exfalso. exact (N s F1 F2). }
  destruct Fa as (s0 & a & F0 & -> & Ha & Eo). assert (s0 = s) by congruence. subst s0. exists a. split; [exact Ha|].
  change (u64 (e + 14 - a)) with ((e + 14 - a) mod 2 ^ 64). rewrite <- Eo.
  assert (Ho : 0 <= off) by (rewrite Eo; apply Z.mod_pos_bound; lia). clear Eo.
  set (i := Z.to_nat (sy_shndx s)) in *.
  assert (Pp : place (dat (lb_secs lb) i) off = p).
  { unfold place. pose proof (endbr_spec (lb_secs lb) i off Ho) as S0. destruct D as [[D ->]|[D ->]].
    - apply S0 in D. rewrite D. reflexivity.
    - destruct (endbr _ _); [exfalso; apply D, S0; reflexivity|reflexivity]. }
  apply byte_at_some in B1. apply byte_at_some in B2.
  rewrite byte_at_zn in L. destruct ((0 <=? off + 3) && (off + 3 <? zlen (dat (lb_secs lb) i))) eqn:EL; [|congruence].
  apply andb_true_iff in EL as [_ EL]. apply Z.ltb_lt in EL.
  unfold mergeable. rewrite Pp. split; [exact Ho|]. split; [lia|]. split; [lia|]. split; [apply B2|left; apply B1].
Qed.

(** ** In memory *)
Lemma merged_in_memory lb lb' entries base text eb m :
  table_ok entries -> layout lb entries base text eb ->
  (forall e, In e entries -> exists i off p, as_compiled lb e i off p) ->
  nops_fixup (lb_syms lb) entries (lb_secs lb) = PO_ok (lb_secs lb') -> loaded_at m base text lb' ->
  functions_ok (entry_points base entries) eb m /\
  (forall f, In f (entry_points base entries) -> one_nop m (eb f) f).
Proof.
  intros Hok Hl Hc E Hm.
  assert (K : forall e, In e entries -> one_nop m (eb (base + (e + 14))) (base + (e + 14)) /\
    (eb (base + (e + 14)) = true -> has_endbr m (base + (e + 14)))).
  { intros e He. destruct (Hc e He) as (i & off & p & Fa & L & D & B1 & B2).
    destruct (ly_where _ _ _ _ _ Hl e i off He Fa) as (Ti & Eb & a & Ha & Ra).
    assert (En : entry_nops (lb_syms lb) (lb_secs lb) e i p) by (exists off; auto).
    destruct (C29_stays_livepatchable _ _ _ _ Hok E e i p He En) as (En' & M1 & M2).
    destruct (steps_facts _ _ (fixup_steps _ _ _ _ E)) as (_ & A2 & _).
    assert (Ha' : sec_addr (lb_secs lb') i = Some a) by (rewrite A2; exact Ha).
    assert (Eo : off = e + 14 - a).
    { destruct Fa as (s & a1 & _ & _ & Ha1 & ->). assert (a1 = a) by congruence. subst a1. apply Z.mod_small. lia. }
    assert (S' : starts_with_endbr (lb_secs lb') i off <-> starts_with_endbr (lb_secs lb) i off).
    { destruct En' as (off' & (s & a1 & Fs & _ & Ha1 & Eo') & D').
      destruct Fa as (s2 & a2 & Fs2 & _ & Ha2 & Eo2). assert (a1 = a) by congruence. assert (a2 = a) by congruence. subst a1 a2.
      assert (Q : off' = off) by congruence. rewrite Q in D'. clear - D D'.
      destruct D as [[D ->]|[D ->]], D' as [[D' X]|[D' X]]; split; intros H; first [assumption|exfalso; first [contradiction|lia|exact (D H)|exact (D' H)]]. }
    split.
    - unfold one_nop, slot.
      assert (Es : (if eb (base + (e + 14)) then base + (e + 14) + 4 else base + (e + 14)) = base + a + p).
      { destruct D as [[D ->]|[D ->]].
        - rewrite (proj2 Eb D). lia.
        - destruct (eb (base + (e + 14))); [exfalso; apply D; apply Eb; reflexivity|lia]. }
      rewrite Es. split.
      + apply (Hm i a p 102 Ti Ha' M1).
      + replace (base + a + p + 1) with (base + a + (p + 1)) by lia. apply (Hm i a (p + 1) 144 Ti Ha' M2).
    - intros Et. apply Eb in Et. apply S' in Et. destruct Et as (T0 & T1 & T2 & T3). unfold has_endbr. cbn [mem_read].
      pose proof (Hm i a off 243 Ti Ha' T0) as Q0. pose proof (Hm i a (off + 1) 15 Ti Ha' T1) as Q1.
      pose proof (Hm i a (off + 2) 30 Ti Ha' T2) as Q2. pose proof (Hm i a (off + 3) 250 Ti Ha' T3) as Q3.
      replace (base + (e + 14)) with (base + a + off) by lia.
      replace (base + a + off + 1 + 1 + 1) with (base + a + (off + 3)) by lia.
      replace (base + a + off + 1 + 1) with (base + a + (off + 2)) by lia.
      replace (base + a + off + 1) with (base + a + (off + 1)) by lia.
      rewrite Q0, Q1, Q2, Q3. reflexivity. }
  assert (U : forall f, In f (entry_points base entries) -> exists e, In e entries /\ f = base + (e + 14)).
  { intros f Hf. apply in_map_iff in Hf. destruct Hf as (e & <- & He). eauto. }
  split.
  - constructor.
    + intros f Hf. destruct (U f Hf) as (e & He & ->). destruct (ly_space _ _ _ _ _ Hl e He). destruct Hok as [R _]. specialize (R e He).
      unfold window_exists. lia.
    + intros f Hf. destruct (U f Hf) as (e & He & ->). destruct (K e He) as [K1 K2]. split.
      * destruct (eb (base + (e + 14))); [apply K2; reflexivity|exact I].
      * right. exact K1.
    + intros f g x Hf Hg Xf Xg. destruct (U f Hf) as (e1 & He1 & ->). destruct (U g Hg) as (e2 & He2 & ->).
      assert (e1 = e2) by (eapply (ly_apart _ _ _ _ _ Hl); eauto). congruence.
  - intros f Hf. destruct (U f Hf) as (e & He & ->). apply (K e He).
Qed.

(** A function without a symbol is left alone. *)
Lemma untouched lb secs' entries e i a p :
  table_ok entries -> nops_fixup (lb_syms lb) entries (lb_secs lb) = PO_ok secs' ->
  In e entries -> no_symbol lb e -> sec_addr (lb_secs lb) i = Some a -> 0 <= p ->
  e + 14 - a <= p <= e + 14 - a + 5 ->
  byte_at secs' i p = byte_at (lb_secs lb) i p.
Proof.
  intros Hok E He N Ha Hp Hr. destruct (C29_only_entry_nops _ _ _ _ Hok E) as (_ & _ & _ & C).
  specialize (C i p). destruct (byte_at secs' i p) as [x|] eqn:E1, (byte_at (lb_secs lb) i p) as [y|] eqn:E2; try reflexivity.
  all: try (destruct (Z.eq_dec x y) as [->|Hne]; [reflexivity|]).
  all: exfalso; destruct C as (_ & _ & e2 & He2 & off & (s & a2 & F & -> & Ha2 & Eo) & D); try congruence.
  all: assert (a2 = a) by congruence; subst a2; destruct Hok as [R A]; pose proof (R e He); pose proof (R e2 He2).
  all: assert (e2 <> e) by (intros ->; apply find_some in F; destruct F as [F1 F2]; apply Z.eqb_eq in F2; exact (N s F1 F2)).
  all: pose proof (Z.div_mod (e2 + 14 - a) (2 ^ 64) ltac:(lia)) as D1; pose proof (Z.mod_pos_bound (e2 + 14 - a) (2 ^ 64) ltac:(lia)).
  all: rewrite <- Eo in *; set (k := (e2 + 14 - a) / 2 ^ 64) in *; clearbody k.
  all: destruct (A e e2 He He2) as [?|Hap]; [congruence|].
  all: assert (Q : p = off + 4 \/ p = off) by (destruct D as [[_ ->]|[_ ->]]; auto).
  all: clear - Hp Hr D1 H H0 H2 Hap Q.
  all: assert (k = 0 \/ k <= -1 \/ 1 <= k) as [->|[|]] by lia; lia.
Qed.

(** ** Between two one-byte nops *)
Lemma redir_stuck m e f g : redir_bytes m e f g ->
  m (slot e f + 1) = (if e then 236 else 240) /\ cpu_step m (slot e f + 1) = None.
Proof.
  intros (_ & _ & H). unfold slot. destruct e.
  - cbn [mem_read] in H. injection H as H1 H2 H3 H4 H5 H6.
    assert (V : m (f + 4 + 1) = 236) by (replace (f + 4 + 1) with (f + 1 + 1 + 1 + 1 + 1) by lia; exact H6).
    split; [exact V|]. unfold cpu_step. rewrite V. reflexivity.
  - cbn [mem_read] in H. injection H as H1 H2. split; [exact H2|]. unfold cpu_step. rewrite H2. reflexivity.
Qed.
