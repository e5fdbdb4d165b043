(** The packer's MD4 against RFC 1320. *)
From Verif Require Import Base BaseFacts Md4Model Md4Spec.

(** ** Words *)

Definition w32 (v : Z) : Prop := 0 <= v < 2 ^ 32.

Lemma u32_w v : w32 (u32 v).
Proof. unfold w32, u32. apply Z.mod_pos_bound. lia. Qed.

Lemma not32 x : w32 x -> u32 (Z.lnot x) = 2 ^ 32 - 1 - x.
Proof.
  unfold w32, u32. intros X.
  unfold Z.lnot. replace (Z.pred (- x)) with (2 ^ 32 - 1 - x + -1 * 2 ^ 32) by lia.
  rewrite Z.mod_add by lia. apply Z.mod_small. lia.
Qed.

Lemma lor_disjoint a b s : 0 <= s -> 0 <= b < 2 ^ s -> Z.lor (a * 2 ^ s) b = a * 2 ^ s + b.
Proof.
  intros Hs Hb.
  assert (L : Z.land (a * 2 ^ s) b = 0).
  { apply Z.bits_inj'. intros n Hn. rewrite Z.land_spec, Z.bits_0.
    destruct (Z.ltb_spec n s).
    - rewrite Z.mul_pow2_bits_low by lia. reflexivity.
    - replace (Z.testbit b n) with false; [apply andb_false_r|]. symmetry.
      destruct (Z.eq_dec b 0) as [->|N]; [apply Z.bits_0|].
      apply Z.bits_above_log2; [lia|]. apply Z.log2_lt_pow2; [lia|].
      apply Z.lt_le_trans with (2 ^ s); [lia|]. apply Z.pow_le_mono_r; lia. }
  rewrite <- Z.lxor_lor by exact L. symmetry. apply Z.add_nocarry_lxor. exact L.
Qed.

Lemma mod32_split v s : 0 <= s <= 32 -> (v * 2 ^ s) mod 2 ^ 32 = (v mod 2 ^ (32 - s)) * 2 ^ s.
Proof.
  intros S. assert (P : 2 ^ 32 = 2 ^ (32 - s) * 2 ^ s) by (rewrite <- Z.pow_add_r by lia; f_equal; lia).
  assert (0 < 2 ^ s) by (apply Z.pow_pos_nonneg; lia).
  assert (0 < 2 ^ (32 - s)) by (apply Z.pow_pos_nonneg; lia).
  rewrite P. apply Z.mul_mod_distr_r; lia.
Qed.

Lemma high_bits v s : w32 v -> 0 <= s <= 32 -> 0 <= v / 2 ^ (32 - s) < 2 ^ s.
Proof.
  unfold w32. intros V S.
  assert (P : 2 ^ 32 = 2 ^ (32 - s) * 2 ^ s) by (rewrite <- Z.pow_add_r by lia; f_equal; lia).
  assert (0 < 2 ^ (32 - s)) by (apply Z.pow_pos_nonneg; lia).
  split; [apply Z.div_pos; lia|]. apply Z.div_lt_upper_bound; lia.
Qed.

Lemma rot_eq v s : w32 v -> 0 <= s <= 32 -> c_rot v s = rotl v s.
Proof.
  intros V S. unfold c_rot, rotl, u32. rewrite Z.shiftl_mul_pow2, Z.shiftr_div_pow2 by lia.
  rewrite mod32_split by lia. apply lor_disjoint; [lia|]. apply high_bits; assumption.
Qed.

Lemma rotl_w v s : w32 v -> 0 <= s <= 32 -> w32 (c_rot v s).
Proof.
  intros V S. rewrite rot_eq by assumption. unfold rotl. rewrite mod32_split by lia.
  pose proof (high_bits v s V S) as B. unfold w32.
  assert (P : 2 ^ 32 = 2 ^ (32 - s) * 2 ^ s) by (rewrite <- Z.pow_add_r by lia; f_equal; lia).
  rewrite P. assert (0 < 2 ^ (32 - s)) by (apply Z.pow_pos_nonneg; lia).
  pose proof (Z.mod_pos_bound v (2 ^ (32 - s)) ltac:(lia)). nia.
Qed.

(** ** Blocks *)

Definition regs_ok (s : regs) : Prop := w32 (gA s) /\ w32 (gB s) /\ w32 (gC s) /\ w32 (gD s).
Definition tup (s : regs) : Z * Z * Z * Z := (gA s, gB s, gC s, gD s).

Definition shift_ok (s : Z) : Prop := 0 <= s <= 32.

Lemma step1 a b c d x s : w32 b -> shift_ok s ->
  c_rot (u32 (a + cF b c d + x)) s = rotl ((a + F b c d + x + 0) mod 2 ^ 32) s.
Proof.
  intros Hb Hs. rewrite rot_eq by (try apply u32_w; exact Hs).
  unfold cF. rewrite not32 by exact Hb. unfold F, u32. rewrite Z.add_0_r. reflexivity.
Qed.
Lemma step2 a b c d x s : shift_ok s ->
  c_rot (u32 (a + cG b c d + x + 0x5A827999)) s = rotl ((a + G b c d + x + 0x5A827999) mod 2 ^ 32) s.
Proof. intros Hs. rewrite rot_eq by (try apply u32_w; exact Hs). reflexivity. Qed.
Lemma step3 a b c d x s : shift_ok s ->
  c_rot (u32 (a + cH b c d + x + 0x6ED9EBA1)) s = rotl ((a + H b c d + x + 0x6ED9EBA1) mod 2 ^ 32) s.
Proof. intros Hs. rewrite rot_eq by (try apply u32_w; exact Hs). reflexivity. Qed.

Lemma quad1 X st i1 s1 i2 s2 i3 s3 i4 s4 :
  regs_ok st -> shift_ok s1 -> shift_ok s2 -> shift_ok s3 -> shift_ok s4 ->
  let st' := fold_left (do_call X)
               [R1 rA rB rC rD i1 s1; R1 rD rA rB rC i2 s2; R1 rC rD rA rB i3 s3; R1 rB rC rD rA i4 s4] st in
  regs_ok st' /\ tup st' = fold_left (op F 0 X) [(i1, s1); (i2, s2); (i3, s3); (i4, s4)] (tup st).
Proof.
  destruct st as [a b c d]. intros (Ha & Hb & Hc & Hd) S1 S2 S3 S4. cbn [gA gB gC gD] in *.
  cbn [fold_left do_call get set gA gB gC gD]. unfold tup, op. cbn [fst snd gA gB gC gD].
  assert (W : forall v s, shift_ok s -> w32 (c_rot (u32 v) s)) by (intros; apply rotl_w; [apply u32_w|assumption]).
  rewrite <- (step1 a b c d (nth i1 X 0) s1) by assumption.
  set (a' := c_rot (u32 (a + cF b c d + nth i1 X 0)) s1).
  assert (Wa : w32 a') by (apply W; assumption).
  rewrite <- (step1 d a' b c (nth i2 X 0) s2) by assumption.
  set (d' := c_rot (u32 (d + cF a' b c + nth i2 X 0)) s2).
  assert (Wd : w32 d') by (apply W; assumption).
  rewrite <- (step1 c d' a' b (nth i3 X 0) s3) by assumption.
  set (c' := c_rot (u32 (c + cF d' a' b + nth i3 X 0)) s3).
  assert (Wc : w32 c') by (apply W; assumption).
  rewrite <- (step1 b c' d' a' (nth i4 X 0) s4) by assumption.
  split; [|reflexivity]. repeat split; cbn [gA gB gC gD]; try apply Wa; try apply Wd; try apply Wc; apply W; assumption.
Qed.

Lemma quad2 X st i1 s1 i2 s2 i3 s3 i4 s4 :
  regs_ok st -> shift_ok s1 -> shift_ok s2 -> shift_ok s3 -> shift_ok s4 ->
  let st' := fold_left (do_call X)
               [R2 rA rB rC rD i1 s1; R2 rD rA rB rC i2 s2; R2 rC rD rA rB i3 s3; R2 rB rC rD rA i4 s4] st in
  regs_ok st' /\ tup st' = fold_left (op G 0x5A827999 X) [(i1, s1); (i2, s2); (i3, s3); (i4, s4)] (tup st).
Proof.
  destruct st as [a b c d]. intros (Ha & Hb & Hc & Hd) S1 S2 S3 S4. cbn [gA gB gC gD] in *.
  cbn [fold_left do_call get set gA gB gC gD]. unfold tup, op. cbn [fst snd gA gB gC gD].
  assert (W : forall v s, shift_ok s -> w32 (c_rot (u32 v) s)) by (intros; apply rotl_w; [apply u32_w|assumption]).
  rewrite <- (step2 a b c d (nth i1 X 0) s1) by assumption.
  set (a' := c_rot (u32 (a + cG b c d + nth i1 X 0 + 0x5A827999)) s1).
  assert (Wa : w32 a') by (apply W; assumption).
  rewrite <- (step2 d a' b c (nth i2 X 0) s2) by assumption.
  set (d' := c_rot (u32 (d + cG a' b c + nth i2 X 0 + 0x5A827999)) s2).
  assert (Wd : w32 d') by (apply W; assumption).
  rewrite <- (step2 c d' a' b (nth i3 X 0) s3) by assumption.
  set (c' := c_rot (u32 (c + cG d' a' b + nth i3 X 0 + 0x5A827999)) s3).
  assert (Wc : w32 c') by (apply W; assumption).
  rewrite <- (step2 b c' d' a' (nth i4 X 0) s4) by assumption.
  split; [|reflexivity]. repeat split; cbn [gA gB gC gD]; try apply Wa; try apply Wd; try apply Wc; apply W; assumption.
Qed.

Lemma quad3 X st i1 s1 i2 s2 i3 s3 i4 s4 :
  regs_ok st -> shift_ok s1 -> shift_ok s2 -> shift_ok s3 -> shift_ok s4 ->
  let st' := fold_left (do_call X)
               [R3 rA rB rC rD i1 s1; R3 rD rA rB rC i2 s2; R3 rC rD rA rB i3 s3; R3 rB rC rD rA i4 s4] st in
  regs_ok st' /\ tup st' = fold_left (op H 0x6ED9EBA1 X) [(i1, s1); (i2, s2); (i3, s3); (i4, s4)] (tup st).
Proof.
  destruct st as [a b c d]. intros (Ha & Hb & Hc & Hd) S1 S2 S3 S4. cbn [gA gB gC gD] in *.
  cbn [fold_left do_call get set gA gB gC gD]. unfold tup, op. cbn [fst snd gA gB gC gD].
  assert (W : forall v s, shift_ok s -> w32 (c_rot (u32 v) s)) by (intros; apply rotl_w; [apply u32_w|assumption]).
  rewrite <- (step3 a b c d (nth i1 X 0) s1) by assumption.
  set (a' := c_rot (u32 (a + cH b c d + nth i1 X 0 + 0x6ED9EBA1)) s1).
  assert (Wa : w32 a') by (apply W; assumption).
  rewrite <- (step3 d a' b c (nth i2 X 0) s2) by assumption.
  set (d' := c_rot (u32 (d + cH a' b c + nth i2 X 0 + 0x6ED9EBA1)) s2).
  assert (Wd : w32 d') by (apply W; assumption).
  rewrite <- (step3 c d' a' b (nth i3 X 0) s3) by assumption.
  set (c' := c_rot (u32 (c + cH d' a' b + nth i3 X 0 + 0x6ED9EBA1)) s3).
  assert (Wc : w32 c') by (apply W; assumption).
  rewrite <- (step3 b c' d' a' (nth i4 X 0) s4) by assumption.
  split; [|reflexivity]. repeat split; cbn [gA gB gC gD]; try apply Wa; try apply Wd; try apply Wc; apply W; assumption.
Qed.

Lemma round1_ok X st : regs_ok st ->
  regs_ok (fold_left (do_call X) round1 st) /\
  tup (fold_left (do_call X) round1 st) = fold_left (op F 0 X) sched1 (tup st).
Proof.
  intros K0.
  change round1 with
   ([ R1 rA rB rC rD  0  3; R1 rD rA rB rC  1  7; R1 rC rD rA rB  2 11; R1 rB rC rD rA  3 19] ++
    [R1 rA rB rC rD  4  3; R1 rD rA rB rC  5  7; R1 rC rD rA rB  6 11; R1 rB rC rD rA  7 19] ++
    [R1 rA rB rC rD  8  3; R1 rD rA rB rC  9  7; R1 rC rD rA rB 10 11; R1 rB rC rD rA 11 19] ++
    [R1 rA rB rC rD 12  3; R1 rD rA rB rC 13  7; R1 rC rD rA rB 14 11; R1 rB rC rD rA 15 19 ]).
  change sched1 with ([(0%nat,3);(1%nat,7);(2%nat,11);(3%nat,19)] ++ [(4%nat,3);(5%nat,7);(6%nat,11);(7%nat,19)]
    ++ [(8%nat,3);(9%nat,7);(10%nat,11);(11%nat,19)] ++ [(12%nat,3);(13%nat,7);(14%nat,11);(15%nat,19)]).
  rewrite !fold_left_app.
  edestruct (quad1 X st 0 3 1 7 2 11 3 19) as [K1 E1]; [exact K0|unfold shift_ok; lia..|].
  edestruct (quad1 X _ 4 3 5 7 6 11 7 19 K1) as [K2 E2]; [unfold shift_ok; lia..|].
  edestruct (quad1 X _ 8 3 9 7 10 11 11 19 K2) as [K3 E3]; [unfold shift_ok; lia..|].
  edestruct (quad1 X _ 12 3 13 7 14 11 15 19 K3) as [K4 E4]; [unfold shift_ok; lia..|].
  split; [exact K4|]. rewrite E4, E3, E2, E1. reflexivity.
Qed.

Lemma round2_ok X st : regs_ok st ->
  regs_ok (fold_left (do_call X) round2 st) /\
  tup (fold_left (do_call X) round2 st) = fold_left (op G 0x5A827999 X) sched2 (tup st).
Proof.
  intros K0.
  change round2 with
   ([ R2 rA rB rC rD  0  3; R2 rD rA rB rC  4  5; R2 rC rD rA rB  8  9; R2 rB rC rD rA 12 13] ++
    [R2 rA rB rC rD  1  3; R2 rD rA rB rC  5  5; R2 rC rD rA rB  9  9; R2 rB rC rD rA 13 13] ++
    [R2 rA rB rC rD  2  3; R2 rD rA rB rC  6  5; R2 rC rD rA rB 10  9; R2 rB rC rD rA 14 13] ++
    [R2 rA rB rC rD  3  3; R2 rD rA rB rC  7  5; R2 rC rD rA rB 11  9; R2 rB rC rD rA 15 13 ]).
  change sched2 with ([(0%nat,3);(4%nat,5);(8%nat,9);(12%nat,13)] ++ [(1%nat,3);(5%nat,5);(9%nat,9);(13%nat,13)]
    ++ [(2%nat,3);(6%nat,5);(10%nat,9);(14%nat,13)] ++ [(3%nat,3);(7%nat,5);(11%nat,9);(15%nat,13)]).
  rewrite !fold_left_app.
  edestruct (quad2 X st 0 3 4 5 8 9 12 13) as [K1 E1]; [exact K0|unfold shift_ok; lia..|].
  edestruct (quad2 X _ 1 3 5 5 9 9 13 13 K1) as [K2 E2]; [unfold shift_ok; lia..|].
  edestruct (quad2 X _ 2 3 6 5 10 9 14 13 K2) as [K3 E3]; [unfold shift_ok; lia..|].
  edestruct (quad2 X _ 3 3 7 5 11 9 15 13 K3) as [K4 E4]; [unfold shift_ok; lia..|].
  split; [exact K4|]. rewrite E4, E3, E2, E1. reflexivity.
Qed.

Lemma round3_ok X st : regs_ok st ->
  regs_ok (fold_left (do_call X) round3 st) /\
  tup (fold_left (do_call X) round3 st) = fold_left (op H 0x6ED9EBA1 X) sched3 (tup st).
Proof.
  intros K0.
  change round3 with
   ([ R3 rA rB rC rD  0  3; R3 rD rA rB rC  8  9; R3 rC rD rA rB  4 11; R3 rB rC rD rA 12 15] ++
    [R3 rA rB rC rD  2  3; R3 rD rA rB rC 10  9; R3 rC rD rA rB  6 11; R3 rB rC rD rA 14 15] ++
    [R3 rA rB rC rD  1  3; R3 rD rA rB rC  9  9; R3 rC rD rA rB  5 11; R3 rB rC rD rA 13 15] ++
    [R3 rA rB rC rD  3  3; R3 rD rA rB rC 11  9; R3 rC rD rA rB  7 11; R3 rB rC rD rA 15 15 ]).
  change sched3 with ([(0%nat,3);(8%nat,9);(4%nat,11);(12%nat,15)] ++ [(2%nat,3);(10%nat,9);(6%nat,11);(14%nat,15)]
    ++ [(1%nat,3);(9%nat,9);(5%nat,11);(13%nat,15)] ++ [(3%nat,3);(11%nat,9);(7%nat,11);(15%nat,15)]).
  rewrite !fold_left_app.
  edestruct (quad3 X st 0 3 8 9 4 11 12 15) as [K1 E1]; [exact K0|unfold shift_ok; lia..|].
  edestruct (quad3 X _ 2 3 10 9 6 11 14 15 K1) as [K2 E2]; [unfold shift_ok; lia..|].
  edestruct (quad3 X _ 1 3 9 9 5 11 13 15 K2) as [K3 E3]; [unfold shift_ok; lia..|].
  edestruct (quad3 X _ 3 3 11 9 7 11 15 15 K3) as [K4 E4]; [unfold shift_ok; lia..|].
  split; [exact K4|]. rewrite E4, E3, E2, E1. reflexivity.
Qed.

Lemma block_ok X st : regs_ok st -> regs_ok (md4_block X st) /\ tup (md4_block X st) = rfc_block (tup st) X.
Proof.
  intros K. unfold md4_block, rfc_block.
  destruct (round1_ok X st K) as [K1 E1]. destruct (round2_ok X _ K1) as [K2 E2].
  destruct (round3_ok X _ K2) as [K3 E3].
  set (st3 := fold_left (do_call X) round3 _) in *. rewrite <- E1, <- E2, <- E3. clearbody st3.
  split; [repeat split; apply u32_w|]. destruct st3 as [a3 b3 c3 d3], st as [a b c d].
  unfold tup. cbn [gA gB gC gD]. unfold u32.
  rewrite (Z.add_comm a3), (Z.add_comm b3), (Z.add_comm c3), (Z.add_comm d3). reflexivity.
Qed.

(** ** Reading words *)

Lemma nth_skipn {A} (l : list A) i p d : nth i (skipn p l) d = nth (p + i) l d.
Proof.
  revert l; induction p as [|p IH]; intros l; [reflexivity|].
  destruct l; [destruct i; reflexivity|]. cbn. apply IH.
Qed.

Lemma word_byte x c : 0 <= x < 2 ^ 24 -> is_byte c ->
  Z.lor (u32 (Z.shiftl x 8)) (Z.land 0x00ff c) = 256 * x + c.
Proof.
  unfold is_byte. intros X C. rewrite Z.shiftl_mul_pow2 by lia. unfold u32.
  rewrite Z.mod_small by lia. rewrite Z.land_comm. change 255 with (Z.ones 8). rewrite Z.land_ones by lia.
  rewrite Z.mod_small by lia. rewrite lor_disjoint by lia. lia.
Qed.

Lemma load_ok b i : bytes_ok b -> 0 <= i < zlen b -> load_at b i = Some (nth (Z.to_nat i) b 0) /\ is_byte (nth (Z.to_nat i) b 0).
Proof.
  intros B I. unfold load_at. destruct (0 <=? i) eqn:E1; [|lia]. destruct (i <? zlen b) eqn:E2; [|lia].
  split; [reflexivity|]. unfold bytes_ok in B. rewrite Forall_forall in B. apply B. apply nth_In.
  unfold zlen in I. lia.
Qed.

Lemma read_word_ok b p : bytes_ok b -> 0 <= p -> p + 4 <= zlen b ->
  read_word b p = Some (nth (Z.to_nat p) b 0 + 256 * nth (Z.to_nat (p + 1)) b 0
                        + 65536 * nth (Z.to_nat (p + 2)) b 0 + 16777216 * nth (Z.to_nat (p + 3)) b 0).
Proof.
  intros B P L. unfold read_word. cbn [fold_left]. unfold read_byte_into.
  replace (p + (3 - 0)) with (p + 3) by lia. replace (p + (3 - 1)) with (p + 2) by lia.
  replace (p + (3 - 2)) with (p + 1) by lia. replace (p + (3 - 3)) with p by lia.
  destruct (load_ok b (p + 3) B ltac:(lia)) as [E3 B3]. destruct (load_ok b (p + 2) B ltac:(lia)) as [E2 B2].
  destruct (load_ok b (p + 1) B ltac:(lia)) as [E1 B1]. destruct (load_ok b p B ltac:(lia)) as [E0 B0].
  rewrite E3, E2, E1, E0.
  set (x3 := nth (Z.to_nat (p + 3)) b 0) in *. set (x2 := nth (Z.to_nat (p + 2)) b 0) in *.
  set (x1 := nth (Z.to_nat (p + 1)) b 0) in *. set (x0 := nth (Z.to_nat p) b 0) in *.
  clearbody x0 x1 x2 x3. unfold is_byte in *.
  rewrite (word_byte 0 x3) by (unfold is_byte; lia).
  rewrite (word_byte (256 * 0 + x3) x2) by (unfold is_byte; lia).
  rewrite (word_byte (256 * (256 * 0 + x3) + x2) x1) by (unfold is_byte; lia).
  rewrite word_byte by (unfold is_byte; lia). f_equal. lia.
Qed.

Lemma skipn_skipn {A} (l : list A) : forall p q, skipn p (skipn q l) = skipn (p + q) l.
Proof.
  intros p q; revert l; induction q as [|q IH]; intros l.
  - rewrite Nat.add_0_r. reflexivity.
  - rewrite Nat.add_succ_r. destruct l; [rewrite !skipn_nil; reflexivity|]. cbn [skipn]. apply IH.
Qed.

Lemma words_cons l : (4 <= length l)%nat ->
  words l = (nth 0 l 0 + 256 * nth 1 l 0 + 65536 * nth 2 l 0 + 16777216 * nth 3 l 0) :: words (skipn 4 l).
Proof. intros H. destruct l as [|a [|b [|c [|d l]]]]; cbn in H; try lia. reflexivity. Qed.

Lemma nth_firstn_lt {A} (l : list A) n i d : (i < n)%nat -> nth i (firstn n l) d = nth i l d.
Proof.
  revert l i; induction n as [|n IH]; intros l i Hi; [lia|].
  destruct l, i; cbn; auto. apply IH. lia.
Qed.

Lemma read_words_ok n : forall b p, bytes_ok b -> 0 <= p -> p + 4 * Z.of_nat n <= zlen b ->
  read_words n b p = Some (words (firstn (4 * n) (skipn (Z.to_nat p) b))).
Proof.
  induction n as [|n IH]; intros b p B P L; [reflexivity|].
  cbn [read_words]. rewrite read_word_ok by (auto; lia). rewrite IH by (auto; lia).
  f_equal. rewrite (words_cons (firstn (4 * S n) _)).
  - rewrite !nth_firstn_lt by lia. rewrite !nth_skipn.
    replace (Z.to_nat p + 0)%nat with (Z.to_nat p) by lia.
    replace (Z.to_nat p + 1)%nat with (Z.to_nat (p + 1)) by lia.
    replace (Z.to_nat p + 2)%nat with (Z.to_nat (p + 2)) by lia.
    replace (Z.to_nat p + 3)%nat with (Z.to_nat (p + 3)) by lia.
    f_equal. f_equal. rewrite skipn_firstn_comm. f_equal; [lia|].
    rewrite skipn_skipn. f_equal. lia.
  - rewrite firstn_length, skipn_length. unfold zlen in L. lia.
Qed.

Lemma md4_blocks_S n b p st : md4_blocks (S n) b p st =
  match read_words 16 b p with None => None | Some X => md4_blocks n b (p + 64) (md4_block X st) end.
Proof. reflexivity. Qed.
Lemma blocks_S n p : blocks (S n) p = words (firstn 64 p) :: blocks n (skipn 64 p).
Proof. reflexivity. Qed.
Lemma fold_cons {A B} (f : A -> B -> A) x l a : fold_left f (x :: l) a = fold_left f l (f a x).
Proof. reflexivity. Qed.
Lemma read_block b p : bytes_ok b -> 0 <= p -> p + 64 <= zlen b ->
  read_words 16 b p = Some (words (firstn 64 (skipn (Z.to_nat p) b))).
Proof. intros B P L. exact (read_words_ok 16 b p B P L). Qed.

Opaque md4_block rfc_block read_words words.

Lemma blocks_loop n : forall b p st, bytes_ok b -> regs_ok st -> 0 <= p -> p + 64 * Z.of_nat n <= zlen b ->
  exists st', md4_blocks n b p st = Some st' /\ regs_ok st' /\
    tup st' = fold_left rfc_block (blocks n (skipn (Z.to_nat p) b)) (tup st).
Proof.
  induction n as [|n IH]; intros b p st B K P L.
  - exists st. auto.
  - rewrite md4_blocks_S, read_block by (auto; lia). rewrite blocks_S, fold_cons.
    generalize (words (firstn 64 (skipn (Z.to_nat p) b))) as X; intros X.
    destruct (block_ok X st K) as [K1 E1]. rewrite <- E1. rewrite skipn_skipn.
    replace (64 + Z.to_nat p)%nat with (Z.to_nat (p + 64)) by lia.
    apply IH; auto; lia.
Qed.

(** ** Padding *)

Lemma store_at_app l x r v : store_at (l ++ x :: r) (zlen l) v = Some (l ++ (v mod 256) :: r).
Proof.
  unfold store_at. rewrite zlen_app, zlen_cons. pose proof (zlen_nonneg l). pose proof (zlen_nonneg r).
  destruct (0 <=? zlen l) eqn:E1; [|lia]. destruct (zlen l <? zlen l + (zlen r + 1)) eqn:E2; [|lia].
  cbn [andb]. f_equal. unfold zlen. rewrite Nat2Z.id.
  rewrite firstn_app, firstn_all, Nat.sub_diag. cbn [firstn]. rewrite app_nil_r. f_equal. f_equal.
  rewrite skipn_app, skipn_all2 by lia. replace (S (length l) - length l)%nat with 1%nat by lia. reflexivity.
Qed.

Lemma put_size_ok n : forall len zeros i pre,
  0 <= len < 2 ^ 61 -> 0 <= zeros < 64 -> 0 <= i -> i + Z.of_nat n <= 8 ->
  zlen pre = len + 1 + zeros + i ->
  put_size n len zeros i (pre ++ repeat 0 n) = Some (pre ++ le_enc n (Z.shiftr (8 * len) (8 * i))).
Proof.
  induction n as [|n IH]; intros len zeros i pre Hl Hz Hi Hn Hp; [reflexivity|].
  cbn [put_size repeat le_enc]. unfold u64. rewrite (Z.mod_small (len + 1 + zeros + i)) by lia.
  rewrite <- Hp, store_at_app. rewrite (Z.mod_small (len * 8)) by lia.
  rewrite (Z.mul_comm len 8).
  replace (pre ++ Z.shiftr (8 * len) (8 * i) mod 256 :: repeat 0 n)
    with ((pre ++ [Z.shiftr (8 * len) (8 * i) mod 256]) ++ repeat 0 n) by (rewrite <- app_assoc; reflexivity).
  rewrite IH; [|lia|lia|lia|lia|rewrite zlen_app, zlen_cons, zlen_nil; lia].
  rewrite <- app_assoc. cbn [app]. f_equal. f_equal. f_equal. f_equal.
  rewrite !Z.shiftr_div_pow2 by lia. replace (8 * (i + 1)) with (8 * i + 8) by lia.
  rewrite Z.pow_add_r by lia. change (2 ^ 8) with 256.
  rewrite Z.div_div by (try lia; apply Z.pow_pos_nonneg; lia). reflexivity.
Qed.

Lemma zeros_ok len : 0 <= len < 2 ^ 61 ->
  0 <= md4_zeros len < 64 /\ (len + 1 + md4_zeros len) mod 64 = 56 /\
  md4_total len = len + 1 + md4_zeros len + 8.
Proof.
  intros L. unfold md4_total, md4_zeros, BLOCK_LENGTH, BLOCK_PADDING, SIZE_FIELD, u64.
  rewrite (Z.mod_small (len + 1)) by lia.
  assert (Q : exists q, len + 1 = 64 * q + (len + 1) mod 64) by (exists ((len + 1) / 64); apply Z.div_mod; lia).
  pose proof (Z.mod_pos_bound (len + 1) 64 ltac:(lia)) as B.
  destruct Q as (q & Q). set (r := (len + 1) mod 64) in *. clearbody r.
  destruct (Z.leb_spec r 56) as [E|E].
  - rewrite (Z.mod_small (len + 1 + (56 - r)) (2 ^ 64)) by lia. rewrite (Z.mod_small (len + 1 + (56 - r) + 8)) by lia.
    repeat split; zdm.
  - rewrite (Z.mod_small (len + 1 + (64 - (r - 56))) (2 ^ 64)) by lia.
    rewrite (Z.mod_small (len + 1 + (64 - (r - 56)) + 8)) by lia. repeat split; zdm.
Qed.

Lemma buffer_ok input : zlen input < 2 ^ 61 ->
  md4_buffer input = Some (input ++ [128] ++ repeat 0 (Z.to_nat (md4_zeros (zlen input))) ++ le_enc 8 (8 * zlen input)).
Proof.
  intros L. pose proof (zlen_nonneg input) as N.
  destruct (zeros_ok (zlen input) ltac:(lia)) as (Z1 & Z2 & Z3).
  unfold md4_buffer. rewrite Z3. destruct (Z.ltb_spec (zlen input + 1 + md4_zeros (zlen input) + 8) (zlen input)); [lia|].
  set (z := md4_zeros (zlen input)) in *.
  replace (Z.to_nat (zlen input + 1 + z + 8 - zlen input)) with (S (Z.to_nat z + 8)) by lia.
  cbn [repeat]. rewrite store_at_app. change (128 mod 256) with 128.
  rewrite repeat_app.
  replace (input ++ 128 :: repeat 0 (Z.to_nat z) ++ repeat 0 8)
    with ((input ++ 128 :: repeat 0 (Z.to_nat z)) ++ repeat 0 8) by (rewrite <- app_assoc; reflexivity).
  rewrite put_size_ok; try lia.
  - rewrite <- app_assoc. cbn [app]. rewrite Z.shiftr_0_r. reflexivity.
  - rewrite zlen_app, zlen_cons. unfold zlen at 2. rewrite repeat_length. lia.
Qed.

Lemma append_word_ok v : append_word v = le_enc 4 v.
Proof.
  unfold append_word. cbn [map le_enc]. change 0x0ff with (Z.ones 8). rewrite !Z.land_ones by lia.
  rewrite !Z.shiftr_div_pow2 by lia. change (2 ^ 8) with 256.
  rewrite !Z.div_div by lia. change (2 ^ (8 * 0)) with 1. rewrite Z.div_1_r. reflexivity.
Qed.

Lemma MD4_ok input : bytes_ok input -> zlen input < 2 ^ 61 ->
  exists p, padded input p /\ MD4 input = Some (rfc_digest p).
Proof.
  intros B L. pose proof (zlen_nonneg input) as N.
  destruct (zeros_ok (zlen input) ltac:(lia)) as (Z1 & Z2 & Z3).
  set (z := md4_zeros (zlen input)) in *.
  exists (input ++ [128] ++ repeat 0 (Z.to_nat z) ++ le_enc 8 (8 * zlen input)). split.
  - exists (Z.to_nat z). split; [reflexivity|]. rewrite Z2Nat.id by lia. split.
    + change 512 with (8 * 64). rewrite Z.mul_mod_distr_l by lia. rewrite Z2. reflexivity.
    + intros f F. change 512 with (8 * 64) in F. rewrite Z.mul_mod_distr_l in F by lia.
      assert (F' : (zlen input + 1 + Z.of_nat f) mod 64 = 56) by lia. clear F.
      assert ((z - Z.of_nat f) mod 64 = 0) by zdm.
      destruct (Z_le_gt_dec z (Z.of_nat f)); [lia|]. rewrite Z.mod_small in H by lia. lia.
  - unfold MD4. rewrite buffer_ok by exact L. fold z.
    set (b := input ++ _).
    assert (Lb : zlen b = md4_total (zlen input)).
    { unfold b. rewrite !zlen_app. unfold zlen at 2 3 4. rewrite repeat_length, le_enc_length. cbn [length]. lia. }
    assert (Bb : bytes_ok b).
    { unfold b, bytes_ok. rewrite !Forall_app. repeat split; [exact B| | |apply le_enc_bytes].
      - constructor; [unfold is_byte; lia|constructor].
      - apply Forall_forall. intros x X. apply repeat_spec in X. unfold is_byte. lia. }
    assert (M : exists q, zlen b = 64 * q).
    { exists (zlen b / 64). apply Z.div_exact; [lia|]. rewrite Lb, Z3. zdm. }
    destruct M as (q & Q).
    assert (D : Z.to_nat (md4_total (zlen input) / BLOCK_LENGTH) = (length b / 64)%nat).
    { rewrite <- Lb. unfold zlen, BLOCK_LENGTH. rewrite <- (Nat2Z.id (length b / 64)).
      f_equal. rewrite div_Zdiv by lia. reflexivity. }
    rewrite D.
    assert (D2 : 64 * Z.of_nat (length b / 64) = zlen b).
    { rewrite div_Zdiv by lia. unfold zlen in *. rewrite Q. change (Z.of_nat 64) with 64.
      rewrite (Z.mul_comm 64 q), Z.div_mul by lia. lia. }
    destruct (blocks_loop (length b / 64) b 0 (mk_regs 0x67452301 0xefcdab89 0x98badcfe 0x10325476) Bb) as (st & S1 & S2 & S3).
    { repeat split; cbn; lia. }
    { lia. }
    { lia. }
    rewrite S1. unfold rfc_digest. cbn [skipn Z.to_nat] in S3. unfold tup in S3. cbn [gA gB gC gD] in S3.
    rewrite <- S3. rewrite !append_word_ok. reflexivity.
Qed.

Lemma padded_fun m p p' : padded m p -> padded m p' -> p = p'.
Proof.
  intros (z & -> & A & B) (z' & -> & A' & B'). specialize (B z' A'). specialize (B' z A).
  replace z' with z by lia. reflexivity.
Qed.
