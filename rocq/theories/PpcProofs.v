(** Proofs about the ppc64le redirection. *)
From Verif Require Import Base BaseFacts InsnQModel InsnQSpec InsnQProofs PpcModel PpcSpec.

Lemma u64_range x : 0 <= x < 2 ^ 64 -> u64 x = x.
Proof. intros H. unfold u64. apply Z.mod_small. exact H. Qed.

Lemma lor_high k l n : 0 <= n -> 0 <= l < 2 ^ n -> Z.lor (k * 2 ^ n) l = k * 2 ^ n + l.
Proof.
  intros Hn Hl.
  assert (H : Z.land (k * 2 ^ n) l = 0).
  { apply Z.bits_inj'. intros i Hi. rewrite Z.land_spec, Z.bits_0.
    destruct (Z.ltb_spec i n).
    - rewrite Z.mul_pow2_bits_low by lia. reflexivity.
    - rewrite <- (Z.mod_small l (2 ^ n)) by lia. rewrite Z.mod_pow2_bits_high by lia. apply andb_false_r. }
  rewrite Z.add_nocarry_lxor by exact H. symmetry. apply Z.lxor_lor. exact H.
Qed.

(** ** The branch word *)
Lemma branch_encoding f off : off = 0 \/ off = 8 ->
  generate_branch_to_prologue (WITH_OFFSET off) = branch_word (f + off) (f - 52).
Proof.
  intros H. unfold branch_word. replace (f - 52 - (f + off)) with (- (52 + off)) by lia.
  destruct H as [-> | ->]; vm_compute; reflexivity.
Qed.

Lemma word_eqb m a w : (forall x, is_byte (m x)) -> 0 <= w < 2 ^ 32 ->
  bytes_eqb (mem_read m a 4) (le_enc 4 w) = (word_at m a =? w).
Proof.
  intros Hb Hw. unfold word_at. destruct (Z.eqb_spec (le_dec (mem_read m a 4)) w) as [E|E].
  - apply bytes_eqb_eq. rewrite <- E. 
    pose proof (le_enc_dec (mem_read m a 4) (mem_read_bytes m a 4 Hb)) as L. rewrite mem_read_length in L. symmetry. exact L.
  - apply bytes_eqb_neq. intros C. apply E. rewrite C. apply le_dec_enc_id. exact Hw.
Qed.

Lemma branch_word_range pc t : 0 <= branch_word pc t < 2 ^ 32.
Proof. unfold branch_word. pose proof (Z.mod_pos_bound (t - pc) (2 ^ 26) ltac:(lia)). lia. Qed.

Lemma offset_matches_iff m f off : (forall x, is_byte (m x)) -> off = 0 \/ off = 8 ->
  offset_matches m f off = true <-> slot_ok m f off.
Proof.
  intros Hb Ho. unfold offset_matches, slot_ok. rewrite (branch_encoding f off Ho).
  change gNop with (le_enc 4 NOP_WORD). rewrite !word_eqb by (try exact Hb; try apply branch_word_range; vm_compute; split; congruence).
  rewrite orb_true_iff, !Z.eqb_eq. reflexivity.
Qed.

Lemma get_branch_offset_ok m f off : ppc_livepatchable m f off -> get_branch_offset m f = Some off.
Proof.
  intros [Hb H]. unfold get_branch_offset. destruct H as [[-> H]|(-> & Hn & H)].
  - rewrite (proj2 (offset_matches_iff m f 0 Hb (or_introl eq_refl)) H). reflexivity.
  - destruct (offset_matches m f 0) eqn:E.
    + apply offset_matches_iff in E; auto. contradiction.
    + rewrite (proj2 (offset_matches_iff m f 8 Hb (or_intror eq_refl)) H). reflexivity.
Qed.

Lemma get_branch_offset_none m f : (forall x, is_byte (m x)) -> ~ slot_ok m f 0 -> ~ slot_ok m f 8 ->
  get_branch_offset m f = None.
Proof.
  intros Hb H0 H8. unfold get_branch_offset.
  destruct (offset_matches m f 0) eqn:E; [apply offset_matches_iff in E; auto; contradiction|].
  destruct (offset_matches m f 8) eqn:E8; [apply offset_matches_iff in E8; auto; contradiction|]. reflexivity.
Qed.

(** ** The bytes placed in front of the function *)
Lemma prologue_bytes T g :
  firstn (Z.to_nat (INSN_SIZE * PPC_PRE_NOPS_LEN)) (prologue_for T g) =
  concat (map (le_enc 4) (ulp_prologue_words T)) ++ le_enc 8 g.
Proof. reflexivity. Qed.

Lemma prologue_len T g : zlen (concat (map (le_enc 4) (ulp_prologue_words T)) ++ le_enc 8 g) = 52.
Proof. reflexivity. Qed.

Lemma prologue_bytes_ok T g : bytes_ok (concat (map (le_enc 4) (ulp_prologue_words T)) ++ le_enc 8 g).
Proof.
  apply bytes_ok_app. split; [|apply le_enc_bytes]. unfold bytes_ok.
  apply Forall_concat. apply Forall_forall. intros l Hl. apply in_map_iff in Hl. destruct Hl as (w & <- & _). apply le_enc_bytes.
Qed.

(** What the window of a function holds when it is redirected to [g]. *)
Definition ppc_redir (T : Z) (m : mem) (f off g : Z) : Prop :=
  word_at m (f + off) = branch_word (f + off) (f - 52) /\
  mem_read m (f - 52) 52 = concat (map (le_enc 4) (ulp_prologue_words T)) ++ le_enc 8 g.

Lemma words_range T : Forall (fun w => 0 <= w < 2 ^ 32) (ulp_prologue_words T).
Proof.
  unfold ulp_prologue_words.
  pose proof (Z.mod_pos_bound (T / 2 ^ 48) (2 ^ 16) ltac:(lia)).
  pose proof (Z.mod_pos_bound (T / 2 ^ 32) (2 ^ 16) ltac:(lia)).
  pose proof (Z.mod_pos_bound (T / 2 ^ 16) (2 ^ 16) ltac:(lia)).
  pose proof (Z.mod_pos_bound T (2 ^ 16) ltac:(lia)).
  repeat constructor; lia.
Qed.

(** The [k]-th word of the area. *)
Lemma words_at m a ws rest k : 
  mem_read m a (length (concat (map (le_enc 4) ws) ++ rest)) = concat (map (le_enc 4) ws) ++ rest ->
  Forall (fun w => 0 <= w < 2 ^ 32) ws -> (k < length ws)%nat ->
  word_at m (a + 4 * Z.of_nat k) = nth k ws 0.
Proof.
  intros H Hw. revert a k H. induction Hw as [|w ws Hw Hws IH]; intros a k H Hk; [cbn in Hk; lia|].
  cbn [map concat] in H. rewrite <- app_assoc in H. rewrite app_length, le_enc_length in H. rewrite mem_read_app in H.
  apply app_eq_length in H; [|rewrite mem_read_length, le_enc_length; reflexivity]. destruct H as [H1 H2].
  destruct k as [|k].
  - cbn [nth]. replace (a + 4 * Z.of_nat 0) with a by lia. unfold word_at. rewrite H1. apply le_dec_enc_id. exact Hw.
  - cbn [nth]. replace (a + 4 * Z.of_nat (S k)) with (a + Z.of_nat 4 + 4 * Z.of_nat k) by lia. apply IH; [exact H2|cbn in Hk; lia].
Qed.

Lemma tail_at m a ws rest :
  mem_read m a (length (concat (map (le_enc 4) ws) ++ rest)) = concat (map (le_enc 4) ws) ++ rest ->
  mem_read m (a + 4 * zlen ws) (length rest) = rest.
Proof.
  revert a. induction ws as [|w ws IH]; intros a H.
  - cbn [map concat app] in H. change (zlen (@nil Z)) with 0. rewrite Z.mul_0_r, Z.add_0_r. exact H.
  - cbn [map concat] in H. rewrite <- app_assoc in H. rewrite app_length, le_enc_length in H. rewrite mem_read_app in H.
    apply app_eq_length in H; [|rewrite mem_read_length, le_enc_length; reflexivity]. destruct H as [_ H2].
    rewrite zlen_cons. replace (a + 4 * (zlen ws + 1)) with (a + Z.of_nat 4 + 4 * zlen ws) by lia. apply IH. exact H2.
Qed.

(** ** Steps *)
Ltac flds :=
  repeat match goal with
  | |- context [fld ?a ?b ?c] => let v := eval vm_compute in (fld a b c) in change (fld a b c) with v
  end.

Ltac one_step H :=
  unfold ppc_step; cbv zeta; cbn [c_pc c_mem c_gpr c_lr c_ctr];
  match goal with |- context [le_dec (mem_read ?m ?a 4)] => change (le_dec (mem_read m a 4)) with (word_at m a) end;
  rewrite H;
  match goal with |- context [?w / 2 ^ 26] => let v := eval vm_compute in (w / 2 ^ 26) in change (w / 2 ^ 26) with v end;
  flds; cbn [Z.eqb Pos.eqb andb].

Lemma step_std5 pc g lr ctr m : word_at m pc = 4171366392 ->
  ppc_step (mk_cpu pc g lr ctr m) = Some (mk_cpu (u64 (pc + 4)) g lr ctr (mem_write m (u64 (g 1 - 8)) (le_enc 8 (g 5)))).
Proof. intros H. one_step H. reflexivity. Qed.
Lemma step_std6 pc g lr ctr m : word_at m pc = 4173463536 ->
  ppc_step (mk_cpu pc g lr ctr m) = Some (mk_cpu (u64 (pc + 4)) g lr ctr (mem_write m (u64 (g 1 - 16)) (le_enc 8 (g 6)))).
Proof. intros H. one_step H. reflexivity. Qed.
Lemma step_rldimi pc g lr ctr m : word_at m pc = 2024538126 ->
  ppc_step (mk_cpu pc g lr ctr m) =
  Some (mk_cpu (u64 (pc + 4)) (gset g 12 ((g 12 / 2 ^ 64) * 2 ^ 64 + (g 5 mod 2 ^ 32) * 2 ^ 32 + g 12 mod 2 ^ 32)) lr ctr m).
Proof. intros H. one_step H. reflexivity. Qed.
Lemma step_mtctr pc g lr ctr m : word_at m pc = 2106131366 ->
  ppc_step (mk_cpu pc g lr ctr m) = Some (mk_cpu (u64 (pc + 4)) g lr (g 12) m).
Proof. intros H. one_step H. reflexivity. Qed.
Lemma step_mflr pc g lr ctr m : word_at m pc = 2091385510 ->
  ppc_step (mk_cpu pc g lr ctr m) = Some (mk_cpu (u64 (pc + 4)) (gset g 5 lr) lr ctr m).
Proof. intros H. one_step H. reflexivity. Qed.
Lemma step_bl4 pc g lr ctr m : word_at m pc = 1207959557 ->
  ppc_step (mk_cpu pc g lr ctr m) = Some (mk_cpu (u64 (pc + 4)) g (u64 (pc + 4)) ctr m).
Proof. intros H. one_step H. reflexivity. Qed.
Lemma step_bctr pc g lr ctr m : word_at m pc = 1317012512 ->
  ppc_step (mk_cpu pc g lr ctr m) = Some (mk_cpu (4 * (ctr / 4)) g lr ctr m).
Proof. intros H. one_step H. reflexivity. Qed.
Lemma step_nop pc g lr ctr m : word_at m pc = NOP_WORD ->
  ppc_step (mk_cpu pc g lr ctr m) = Some (mk_cpu (u64 (pc + 4)) (gset g 0 (Z.lor (g 0) 0)) lr ctr m).
Proof. intros H. unfold NOP_WORD in H. one_step H. reflexivity. Qed.

Lemma imm_fields base h : 0 <= h < 2 ^ 16 -> base mod 2 ^ 16 = 0 ->
  (base + h) / 2 ^ 26 = base / 2 ^ 26 /\ fld (base + h) 21 5 = fld base 21 5 /\
  fld (base + h) 16 5 = fld base 16 5 /\ fld (base + h) 0 16 = h.
Proof.
  intros Hh Hb. unfold fld.
  assert (G : forall n, 16 <= n -> (base + h) / 2 ^ n = base / 2 ^ n).
  { intros n Hn. replace (2 ^ n) with (2 ^ 16 * 2 ^ (n - 16)) by (rewrite <- Z.pow_add_r by lia; f_equal; lia).
    pose proof (Z.pow_pos_nonneg 2 (n - 16) ltac:(lia) ltac:(lia)).
    rewrite <- !Z.div_div by lia. f_equal.
    apply Z.mod_divide in Hb; [|lia]. destruct Hb as [k ->]. 
    rewrite Z.div_mul by lia. rewrite Z.add_comm, Z.div_add by lia. rewrite Z.div_small by lia. reflexivity. }
  rewrite !G by lia. repeat split. change (2 ^ 0) with 1. rewrite Z.div_1_r.
  rewrite Z.add_mod, Hb by lia. rewrite Z.add_0_l, Z.mod_mod by lia. apply Z.mod_small. lia.
Qed.

Ltac imm_step H base Hh :=
  let F := fresh in
  pose proof (imm_fields base _ Hh eq_refl) as F; destruct F as (F1 & F2 & F3 & F4);
  unfold ppc_step; cbv zeta; cbn [c_pc c_mem c_gpr c_lr c_ctr];
  match goal with |- context [le_dec (mem_read ?m ?a 4)] => change (le_dec (mem_read m a 4)) with (word_at m a) end;
  rewrite H, F1, F2, F3, F4;
  match goal with |- context [base / 2 ^ 26] => let v := eval vm_compute in (base / 2 ^ 26) in change (base / 2 ^ 26) with v end;
  repeat match goal with
  | |- context [fld base ?b ?c] => let v := eval vm_compute in (fld base b c) in change (fld base b c) with v
  end; cbn [Z.eqb Pos.eqb andb].

Lemma step_lis5 pc g lr ctr m h : 0 <= h < 2 ^ 16 -> word_at m pc = 1017118720 + h ->
  ppc_step (mk_cpu pc g lr ctr m) = Some (mk_cpu (u64 (pc + 4)) (gset g 5 (u64 (sext 16 h * 2 ^ 16))) lr ctr m).
Proof. intros Hh H. imm_step H 1017118720 Hh. reflexivity. Qed.
Lemma step_lis12 pc g lr ctr m h : 0 <= h < 2 ^ 16 -> word_at m pc = 1031798784 + h ->
  ppc_step (mk_cpu pc g lr ctr m) = Some (mk_cpu (u64 (pc + 4)) (gset g 12 (u64 (sext 16 h * 2 ^ 16))) lr ctr m).
Proof. intros Hh H. imm_step H 1031798784 Hh. reflexivity. Qed.
Lemma step_ori5 pc g lr ctr m h : 0 <= h < 2 ^ 16 -> word_at m pc = 1621426176 + h ->
  ppc_step (mk_cpu pc g lr ctr m) = Some (mk_cpu (u64 (pc + 4)) (gset g 5 (Z.lor (g 5) h)) lr ctr m).
Proof. intros Hh H. imm_step H 1621426176 Hh. reflexivity. Qed.
Lemma step_ori12 pc g lr ctr m h : 0 <= h < 2 ^ 16 -> word_at m pc = 1636564992 + h ->
  ppc_step (mk_cpu pc g lr ctr m) = Some (mk_cpu (u64 (pc + 4)) (gset g 12 (Z.lor (g 12) h)) lr ctr m).
Proof. intros Hh H. imm_step H 1636564992 Hh. reflexivity. Qed.

Lemma step_branch pc g lr ctr m f off : off = 0 \/ off = 8 -> pc = f + off -> 52 <= f -> f + off < 2 ^ 64 ->
  word_at m pc = branch_word pc (f - 52) ->
  ppc_step (mk_cpu pc g lr ctr m) = Some (mk_cpu (f - 52) g lr ctr m).
Proof.
  intros Ho Hpc Hf Hf2 H.
  assert (E : branch_word pc (f - 52) = 18 * 2 ^ 26 + (2 ^ 26 - (52 + off))).
  { unfold branch_word. f_equal. rewrite Hpc. replace (f - 52 - (f + off)) with (- (52 + off)) by lia.
    destruct Ho as [-> | ->]; reflexivity. }
  rewrite E in H.
  destruct Ho as [-> | ->].
  - change (18 * 2 ^ 26 + (2 ^ 26 - (52 + 0))) with 1275068364 in H. one_step H.
    do 2 f_equal. change (sext 26 (4 * 16777203)) with (-52). rewrite Hpc. rewrite u64_range by lia. lia.
  - change (18 * 2 ^ 26 + (2 ^ 26 - (52 + 8))) with 1275068356 in H. one_step H.
    do 2 f_equal. change (sext 26 (4 * 16777201)) with (-60). rewrite Hpc. rewrite u64_range by lia. lia.
Qed.

(** ** The address of the trampoline is put together *)
Lemma half_assembled h l : 0 <= h < 2 ^ 16 -> 0 <= l < 2 ^ 16 ->
  (Z.lor (u64 (sext 16 h * 2 ^ 16)) l) mod 2 ^ 32 = h * 2 ^ 16 + l /\
  0 <= Z.lor (u64 (sext 16 h * 2 ^ 16)) l < 2 ^ 64.
Proof.
  intros Hh Hl. unfold sext, u64. change (2 ^ (16 - 1)) with (2 ^ 15).
  destruct (Z.ltb_spec h (2 ^ 15)).
  - rewrite (Z.mod_small (h * 2 ^ 16) (2 ^ 64)) by lia. rewrite lor_high by lia. split; [apply Z.mod_small; lia|lia].
  - replace ((h - 2 ^ 16) * 2 ^ 16) with ((2 ^ 48 + h - 2 ^ 16) * 2 ^ 16 + (-1) * 2 ^ 64) by lia.
    rewrite (Z.mod_add _ _ (2 ^ 64)) by lia. rewrite (Z.mod_small _ (2 ^ 64)) by lia. rewrite lor_high by lia. split; [|lia].
    replace ((2 ^ 48 + h - 2 ^ 16) * 2 ^ 16 + l) with (h * 2 ^ 16 + l + (2 ^ 32 - 1) * 2 ^ 32) by lia.
    rewrite Z.mod_add by lia. apply Z.mod_small. lia.
Qed.

Lemma assembled T : 0 <= T < 2 ^ 64 ->
  T = ((T / 2 ^ 48) mod 2 ^ 16 * 2 ^ 16 + (T / 2 ^ 32) mod 2 ^ 16) * 2 ^ 32 +
      ((T / 2 ^ 16) mod 2 ^ 16 * 2 ^ 16 + T mod 2 ^ 16).
Proof.
  intros HT. 
  pose proof (Z.div_mod T (2 ^ 16) ltac:(lia)) as E1. 
  pose proof (Z.div_mod (T / 2 ^ 16) (2 ^ 16) ltac:(lia)) as E2.
  pose proof (Z.div_mod (T / 2 ^ 16 / 2 ^ 16) (2 ^ 16) ltac:(lia)) as E3.
  rewrite Z.div_div in E2, E3 by lia. rewrite Z.div_div in E3 by lia.
  change (2 ^ 16 * 2 ^ 16) with (2 ^ 32) in *. change (2 ^ 32 * 2 ^ 16) with (2 ^ 48) in *.
  rewrite (Z.mod_small (T / 2 ^ 48)).
  2:{ split; [apply Z.div_pos; lia|]. apply Z.div_lt_upper_bound; lia. }
  lia.
Qed.

Lemma word_at_write_out m a l b : b + 4 <= a \/ a + zlen l <= b -> word_at (mem_write m a l) b = word_at m b.
Proof. intros H. unfold word_at. f_equal. apply mem_read_write_out. change (Z.of_nat 4) with 4. lia. Qed.

(** Running the redirection code. *)
Lemma redir_runs T m f off x g lr ctr :
  0 <= T < 2 ^ 64 -> T mod 4 = 0 -> off = 0 \/ off = 8 -> 52 <= f -> f + off + 4 <= 2 ^ 64 ->
  ppc_redir T m f off x ->
  16 <= g 1 < 2 ^ 64 -> (g 1 <= f - 52 \/ f <= g 1 - 16) ->
  exists g' trail,
    runs (mk_cpu (f + off) g lr ctr m) trail
         (mk_cpu T g' (f - 12) T (mem_write (mem_write m (g 1 - 8) (le_enc 8 (g 5))) (g 1 - 16) (le_enc 8 (g 6)))) /\
    (exists t, trail = (f + off) :: (f - 52) :: t) /\
    (forall a, In a trail -> ppc_window f off a) /\
    g' 12 = T /\ g' 5 = lr /\ (forall r, r <> 5 -> r <> 12 -> g' r = g r).
Proof.
  intros HT HTa Ho Hf1 Hf2 [HB HP] H1 HS.
  pose proof (fun k => words_at m (f - 52) (ulp_prologue_words T) (le_enc 8 x) k HP (words_range T)) as W.
  set (m1 := mem_write m (g 1 - 8) (le_enc 8 (g 5))).
  set (m2 := mem_write m1 (g 1 - 16) (le_enc 8 (g 6))).
  assert (W1 : forall k, (k < 11)%nat -> word_at m1 (f - 52 + 4 * Z.of_nat k) = nth k (ulp_prologue_words T) 0).
  { intros k Hk. unfold m1. rewrite word_at_write_out; [apply W; exact Hk|]. change (zlen (le_enc 8 (g 5))) with 8. lia. }
  assert (W2 : forall k, (k < 11)%nat -> word_at m2 (f - 52 + 4 * Z.of_nat k) = nth k (ulp_prologue_words T) 0).
  { intros k Hk. unfold m2. rewrite word_at_write_out; [apply W1; exact Hk|]. change (zlen (le_enc 8 (g 6))) with 8. lia. }
  pose proof (Z.mod_pos_bound (T / 2 ^ 48) (2 ^ 16) ltac:(lia)) as B1.
  pose proof (Z.mod_pos_bound (T / 2 ^ 32) (2 ^ 16) ltac:(lia)) as B2.
  pose proof (Z.mod_pos_bound (T / 2 ^ 16) (2 ^ 16) ltac:(lia)) as B3.
  pose proof (Z.mod_pos_bound T (2 ^ 16) ltac:(lia)) as B4.
  pose proof (half_assembled _ _ B1 B2) as [A1 A1r]. pose proof (half_assembled _ _ B3 B4) as [A2 A2r].
  set (h1 := (T / 2 ^ 48) mod 2 ^ 16) in *. set (h2 := (T / 2 ^ 32) mod 2 ^ 16) in *.
  set (h3 := (T / 2 ^ 16) mod 2 ^ 16) in *. set (h4 := T mod 2 ^ 16) in *.
  assert (P : forall k, (k < 11)%nat -> u64 (f - 52 + 4 * Z.of_nat k + 4) = f - 52 + 4 * Z.of_nat (S k)).
  { intros k Hk. rewrite u64_range by lia. lia. }
  eexists _, _. split; [|split; [|split]].
  - eapply runs_step. { apply (step_branch _ _ _ _ _ f off); auto; lia. }
    replace (f - 52) with (f - 52 + 4 * Z.of_nat 0) by lia.
    eapply runs_step. { apply step_std5. rewrite W by (cbn; lia). reflexivity. }
    rewrite P by lia. rewrite (u64_range (g 1 - 8)) by lia. fold m1.
    eapply runs_step. { apply step_std6. rewrite W1 by lia. reflexivity. }
    rewrite P by lia. rewrite (u64_range (g 1 - 16)) by lia. fold m2.
    eapply runs_step. { apply (step_lis5 _ _ _ _ _ h1 B1). rewrite W2 by lia. reflexivity. }
    rewrite P by lia.
    eapply runs_step. { apply (step_ori5 _ _ _ _ _ h2 B2). rewrite W2 by lia. reflexivity. }
    rewrite P by lia.
    eapply runs_step. { apply (step_lis12 _ _ _ _ _ h3 B3). rewrite W2 by lia. reflexivity. }
    rewrite P by lia.
    eapply runs_step. { apply (step_ori12 _ _ _ _ _ h4 B4). rewrite W2 by lia. reflexivity. }
    rewrite P by lia.
    eapply runs_step. { apply step_rldimi. rewrite W2 by lia. reflexivity. }
    rewrite P by lia.
    match goal with |- runs (mk_cpu _ (gset _ 12 ?e) _ _ _) _ _ => assert (E : e = T) end.
    { unfold gset. cbn [Z.eqb Pos.eqb]. rewrite A1, A2.
      rewrite (Z.div_small _ (2 ^ 64)) by exact A2r. rewrite Z.mul_0_l, Z.add_0_l. symmetry. apply assembled. exact HT. }
    rewrite E. clear E.
    eapply runs_step. { apply step_mtctr. rewrite W2 by lia. reflexivity. }
    rewrite P by lia.
    eapply runs_step. { apply step_mflr. rewrite W2 by lia. reflexivity. }
    rewrite P by lia.
    eapply runs_step. { apply step_bl4. rewrite W2 by lia. reflexivity. }
    rewrite P by lia.
    eapply runs_step. { apply step_bctr. rewrite W2 by lia. reflexivity. }
    match goal with |- runs (mk_cpu ?p _ ?l ?c _) _ _ =>
      replace p with T; [replace l with (f - 12) by lia; change c with T; apply runs_here|] end.
    unfold gset. cbn [Z.eqb Pos.eqb]. pose proof (Z.div_mod T 4 ltac:(lia)). lia.
  - eexists. cbn [c_pc]. f_equal. f_equal. lia.
  - intros a Ha. cbn in Ha. unfold ppc_window.
    repeat (destruct Ha as [Ha|Ha]; [lia|]). contradiction.
  - unfold gset. split; [reflexivity|]. split; [reflexivity|]. intros r H5 H12.
    destruct (Z.eqb_spec r 5); [contradiction|]. destruct (Z.eqb_spec r 12); [contradiction|]. reflexivity.
Qed.

(** ** Requests *)
Definition ppc_area_req (T f g : Z) : req :=
  RWrite (u64 (f - 52)) (concat (map (le_enc 4) (ulp_prologue_words T)) ++ le_enc 8 g).
Definition ppc_branch_req (f off : Z) : req := RWrite (u64 (f + off)) (le_enc 4 (branch_word (f + off) (f - 52))).
Definition ppc_nop_req (f off : Z) : req := RWrite (u64 (f + off)) (le_enc 4 NOP_WORD).

Lemma ppc_submit qe a l : ppc_memwrite qe a l = submit qe (RWrite a l).
Proof. destruct qe as [q e]. reflexivity. Qed.

Lemma ppc_patch_eq T m qe f g :
  ppc_patch_addr T m qe f g true =
  match get_branch_offset m f with
  | None => (submit qe (ppc_area_req T f g), PPC_ENOPATCHABLE)
  | Some off => (submit (submit qe (ppc_area_req T f g)) (ppc_branch_req f off), 0)
  end.
Proof.
  unfold ppc_patch_addr, ulp_patch_prologue_layout, ulp_patch_addr_trampoline. rewrite !ppc_submit, prologue_bytes.
  change (INSN_SIZE * PPC_PRE_NOPS_LEN) with 52. fold (ppc_area_req T f g).
  destruct (get_branch_offset m f) as [off|] eqn:E; [|reflexivity]. rewrite ppc_submit.
  unfold ppc_branch_req. rewrite <- (branch_encoding f off); [reflexivity|].
  unfold get_branch_offset in E. destruct (offset_matches m f 0); [left; congruence|].
  destruct (offset_matches m f 8); [right; congruence|discriminate].
Qed.

Lemma ppc_skip_eq T m qe f g :
  ppc_patch_addr T m qe f g false =
  match get_branch_offset m f with
  | None => (qe, PPC_ENOPATCHABLE)
  | Some off => (submit qe (ppc_nop_req f off), 0)
  end.
Proof.
  unfold ppc_patch_addr, ppc_skip_prologue. destruct (get_branch_offset m f); [|reflexivity]. rewrite ppc_submit. reflexivity.
Qed.

Lemma requests_run rs stale m :
  Forall req_ok rs -> total_size rs <= INSN_BUFFER_MAX ->
  exists q, submit_all rs (empty_queue stale, 0) = (q, 0) /\ qinv q rs /\
    insnq_interpret_from_process env_ok true q (mk_tgt m []) =
      Some (0, insnq_reset q, perform_all rs (mk_tgt m [])).
Proof.
  intros Hr Hs.
  assert (G : forall rs2 rs1 q, qinv q rs1 -> Forall req_ok rs2 -> q_size q + total_size rs2 <= INSN_BUFFER_MAX ->
              exists q', submit_all rs2 (q, 0) = (q', 0) /\ qinv q' (rs1 ++ rs2)).
  { induction rs2 as [|r rs2 IH]; intros rs1 q Hq Hok Hsz.
    - exists q. rewrite app_nil_r. split; [reflexivity|exact Hq].
    - inversion Hok; subst. change (total_size (r :: rs2)) with (req_size r + total_size rs2) in Hsz.
      assert (0 <= total_size rs2).
      { clear. induction rs2 as [|r l IH]; [cbn; lia|]. change (total_size (r :: l)) with (req_size r + total_size l). pose proof (req_size_pos r). lia. }
      destruct (proj1 (try_insert_fits q r)) as [q1 Hq1]; [lia|].
      change (submit_all (r :: rs2) (q, 0)) with (submit_all rs2 (submit (q, 0) r)). rewrite submit_unfold, Hq1.
      destruct (IH (rs1 ++ [r]) q1) as (q' & E & I); [eapply try_insert_inv; eauto|assumption| |].
      { destruct (try_insert_size _ _ _ Hq1) as [-> _]. lia. }
      exists q'. rewrite <- app_assoc in I. split; [exact E|exact I]. }
  destruct (G rs [] (empty_queue stale) (qinv_empty stale) Hr ltac:(cbn [empty_queue q_size]; lia)) as (q & E & I).
  exists q. split; [exact E|]. split; [exact I|]. apply (interpret_exact env_ok q rs); auto.
Qed.

Lemma area_req_ok T f g : req_ok (ppc_area_req T f g).
Proof. split; [unfold u64; apply Z.mod_pos_bound; lia|apply prologue_bytes_ok]. Qed.
Lemma word_req_ok a w : req_ok (RWrite (u64 a) (le_enc 4 w)).
Proof. split; [unfold u64; apply Z.mod_pos_bound; lia|apply le_enc_bytes]. Qed.
