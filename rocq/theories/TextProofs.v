(** Proofs about text handling. *)
From Coq Require Import String.
From Verif Require Import Base BaseFacts StrModel TextModel TextSpec.

(** ** Decimal numbers *)

Lemma dec_val_app t c : dec_val (t ++ [c]) = 10 * dec_val t + (c - 48).
Proof. unfold dec_val. rewrite fold_left_app. reflexivity. Qed.

Lemma decimal_digits t v : decimal t v -> forallb isdigit t = true /\ t <> [] /\ dec_val t = v /\ 0 <= v.
Proof.
  induction 1 as [d Hd|t v d H IH Hd].
  - repeat split; try discriminate; try lia.
    + cbn. unfold isdigit. lia.
    + unfold dec_val. cbn. lia.
  - destruct IH as (I1 & I2 & I3 & I4). repeat split; try lia.
    + rewrite forallb_app, I1. cbn. unfold isdigit. lia.
    + destruct t; discriminate.
    + rewrite dec_val_app. lia.
Qed.

Lemma digits_decimal t : forallb isdigit t = true -> t <> [] -> decimal t (dec_val t).
Proof.
  induction t as [|c t IH] using rev_ind; [congruence|].
  intros H _. rewrite forallb_app in H. apply andb_true_iff in H. destruct H as [H1 H2].
  cbn in H2. unfold isdigit in H2.
  replace [c] with [48 + (c - 48)] by (f_equal; lia).
  destruct t as [|x t].
  - cbn [app]. unfold dec_val. cbn. replace (10 * 0 + (48 + (c - 48) - 48)) with (c - 48) by lia.
    constructor. lia.
  - rewrite dec_val_app. replace (48 + (c - 48) - 48) with (c - 48) by lia.
    apply dec_more; [|lia]. apply IH; [exact H1|discriminate].
Qed.

Lemma decimal_no_dot t v : decimal t v -> component t.
Proof.
  intros H. apply decimal_digits in H. destruct H as (H1 & H2 & _). split; [exact H2|].
  intros X. rewrite forallb_forall in H1. apply H1 in X. discriminate X.
Qed.

Lemma decimal_fun t v v' : decimal t v -> decimal t v' -> v = v'.
Proof. intros H H'. apply decimal_digits in H, H'. destruct H as (_ & _ & <- & _), H' as (_ & _ & <- & _). reflexivity. Qed.

Lemma dec_go_spec f : forall n acc, 0 <= n < 10 ^ Z.of_nat f ->
  (0 < f)%nat -> exists t, dec_go f n acc = t ++ acc /\ decimal t n /\ (length t <= f)%nat.
Proof.
  induction f as [|f IH]; intros n acc Hn Hf; [lia|].
  cbn [dec_go]. destruct (Z.ltb_spec n 10) as [L|L].
  - exists [48 + n]. repeat split; [constructor; lia|cbn; lia].
  - assert (Hf' : (0 < f)%nat).
    { destruct f; [|lia]. change (10 ^ Z.of_nat 1) with 10 in Hn. lia. }
    assert (B : 0 <= n / 10 < 10 ^ Z.of_nat f).
    { rewrite Nat2Z.inj_succ, Z.pow_succ_r in Hn by lia. split.
      - apply Z.div_pos; lia.
      - apply Z.div_lt_upper_bound; lia. }
    destruct (IH (n / 10) ((48 + n mod 10) :: acc) B Hf') as (t & T1 & T2 & T3).
    exists (t ++ [48 + n mod 10]). split; [|split].
    + rewrite T1, <- app_assoc. reflexivity.
    + replace n with (10 * (n / 10) + n mod 10) at 2 by (symmetry; apply Z.div_mod; lia).
      apply dec_more; [exact T2|]. pose proof (Z.mod_pos_bound n 10). lia.
    + rewrite app_length. cbn. lia.
Qed.

Lemma dec_go_len f : forall n acc k, 0 <= n < 10 ^ Z.of_nat k -> (0 < k)%nat ->
  (length (dec_go f n acc) <= k + length acc)%nat.
Proof.
  induction f as [|f IH]; intros n acc k Hn Hk; cbn [dec_go]; [lia|].
  destruct (Z.ltb_spec n 10) as [L|L]; [cbn; lia|].
  destruct k as [|[|k]]; [lia|change (10 ^ Z.of_nat 1) with 10 in Hn; lia|].
  rewrite (Nat2Z.inj_succ (S k)), Z.pow_succ_r in Hn by lia.
  etransitivity; [apply (IH _ _ (S k))|cbn [length]; lia].
  - split; [apply Z.div_pos; lia|apply Z.div_lt_upper_bound; lia].
  - lia.
Qed.

Lemma print_dec_spec n : 0 <= n < 10 ^ 20 -> decimal (print_dec n) n.
Proof.
  intros H. destruct (dec_go_spec 20 n [] H) as (t & T1 & T2 & _); [lia|].
  unfold print_dec. rewrite T1, app_nil_r. exact T2.
Qed.

(** ** Versions *)

Lemma span_dot_app t r : ~ In 46 t -> span_dot (t ++ 46 :: r) = (t, r).
Proof.
  induction t as [|x t IH]; intros H; cbn [app span_dot].
  - reflexivity.
  - unfold DOT. destruct (Z.eqb_spec x 46) as [->|_]; [exfalso; apply H; left; reflexivity|].
    rewrite IH; [reflexivity|]. intros X; apply H; right; exact X.
Qed.

Lemma span_dot_end t : ~ In 46 t -> span_dot t = (t, []).
Proof.
  induction t as [|x t IH]; intros H; cbn [app span_dot].
  - reflexivity.
  - unfold DOT. destruct (Z.eqb_spec x 46) as [->|_]; [exfalso; apply H; left; reflexivity|].
    rewrite IH; [reflexivity|]. intros X; apply H; right; exact X.
Qed.

Lemma skip_dots_comp t r : component t -> skip_dots (t ++ r) = t ++ r.
Proof.
  intros [H1 H2]. destruct t as [|x t]; [congruence|]. cbn. unfold DOT.
  destruct (Z.eqb_spec x 46) as [->|_]; [exfalso; apply H2; left; reflexivity|reflexivity].
Qed.

Lemma strtok_comp t r : component t -> strtok_dot (t ++ 46 :: r) = (Some t, r).
Proof.
  intros H. unfold strtok_dot. rewrite skip_dots_comp by exact H.
  destruct H as [H H2]. destruct t as [|x t]; [congruence|].
  change ((x :: t) ++ 46 :: r) with (x :: (t ++ 46 :: r)). cbv iota beta.
  change (x :: t ++ 46 :: r) with ((x :: t) ++ 46 :: r). rewrite span_dot_app by exact H2. reflexivity.
Qed.

Lemma strtok_comp_end t : component t -> strtok_dot t = (Some t, []).
Proof.
  intros H. unfold strtok_dot. rewrite <- (app_nil_r t) at 1. rewrite skip_dots_comp by exact H.
  rewrite app_nil_r. destruct H as [H H2]. destruct t as [|x t]; [congruence|].
  rewrite span_dot_end by exact H2. reflexivity.
Qed.

Lemma strtok_tail t tl : component t -> tail_ok tl -> exists r, strtok_dot (t ++ tl) = (Some t, r).
Proof.
  intros H [->|[r ->]].
  - rewrite app_nil_r, strtok_comp_end by exact H. eauto.
  - rewrite strtok_comp by exact H. eauto.
Qed.

Lemma isnumber_component t : component t -> isnumber (Some t) = forallb isdigit t.
Proof. intros [H _]. destruct t; [congruence|reflexivity]. Qed.

Lemma atoi_small t v : decimal t v -> v <= 65535 -> u64 (atoi t) = v.
Proof.
  intros H L. apply decimal_digits in H. destruct H as (_ & _ & V & P). unfold atoi. rewrite V.
  rewrite Z.min_l by lia. unfold s32, u32. rewrite Z.mod_small by lia.
  destruct (Z.ltb_spec v (2 ^ 31)) as [X|X]; [|lia]. unfold u64. rewrite Z.mod_small; lia.
Qed.

Lemma atoi_big t v : decimal t v -> 65535 < v < 2 ^ 32 \/ 2 ^ 63 <= v -> 65535 < u64 (atoi t).
Proof.
  intros H L. apply decimal_digits in H. destruct H as (_ & _ & V & P). unfold atoi. rewrite V.
  destruct L as [L|L].
  - rewrite Z.min_l by lia. unfold s32, u32. rewrite Z.mod_small by lia.
    destruct (Z.ltb_spec v (2 ^ 31)) as [X|X]; unfold u64; [rewrite Z.mod_small; lia|].
    replace (v - 2 ^ 32) with (v - 2 ^ 32 + 2 ^ 64 + -1 * 2 ^ 64) by lia. rewrite Z.mod_add by lia.
    rewrite Z.mod_small; lia.
  - rewrite Z.min_r by lia. vm_compute. reflexivity.
Qed.

Lemma bad_component_refused t n s acc r :
  component t -> bad_component t -> strtok_dot s = (Some t, r) -> version_loop (S n) s acc = None.
Proof.
  intros C B E. cbn [version_loop]. rewrite E, isnumber_component by exact C.
  destruct (forallb isdigit t) eqn:D; [|reflexivity]. cbn [negb].
  destruct B as [B|(v & B1 & B2)].
  - exfalso. destruct C as [C _]. apply (B (dec_val t)), digits_decimal; assumption.
  - pose proof (atoi_big t v B1 B2) as X. destruct (Z.ltb_spec 65535 (u64 (atoi t))); [reflexivity|lia].
Qed.

Lemma version_step n t r s acc :
  component t -> strtok_dot s = (Some t, r) ->
  version_loop (S n) s acc = None \/
  exists v, version_loop (S n) s acc = version_loop n r (acc ++ [v]).
Proof.
  intros C E. cbn [version_loop]. rewrite E. destruct (isnumber (Some t)); cbn [negb]; [|auto].
  destruct (65535 <? u64 (atoi t)); eauto.
Qed.

Lemma version_good n t r s acc v :
  decimal t v -> v <= 65535 -> strtok_dot s = (Some t, r) ->
  version_loop (S n) s acc = version_loop n r (acc ++ [v]).
Proof.
  intros D L E. cbn [version_loop]. pose proof (decimal_no_dot _ _ D) as C.
  rewrite E, isnumber_component by exact C. rewrite (proj1 (decimal_digits _ _ D)). cbn [negb].
  rewrite (atoi_small t v D L). destruct (Z.ltb_spec 65535 v); [lia|reflexivity].
Qed.

Lemma triplet_val a b c : short a -> short b -> short c ->
  ULP_VERSION_TRIPLET a b c = c + 65536 * b + 4294967296 * a.
Proof.
  unfold short. intros A B C. unfold ULP_VERSION_TRIPLET, u64. rewrite !Z.shiftl_mul_pow2 by lia.
  change (2 ^ 16) with 65536. change (2 ^ 32) with 4294967296. rewrite Z.mod_small; lia.
Qed.

Lemma version_ok ta tb tc a b c tl :
  decimal ta a -> decimal tb b -> decimal tc c -> short a -> short b -> short c -> tail_ok tl ->
  ulp_version_from_string (dotted ta tb tc ++ tl) = ULP_VERSION_TRIPLET a b c.
Proof.
  intros A B C Ha Hb Hc T. unfold short in *. unfold ulp_version_from_string, dotted.
  replace ((ta ++ [46] ++ tb ++ [46] ++ tc) ++ tl) with (ta ++ 46 :: tb ++ 46 :: tc ++ tl)
    by (rewrite <- !app_assoc; reflexivity).
  destruct (strtok_tail tc tl (decimal_no_dot _ _ C) T) as (r & R).
  rewrite (version_good 2 ta _ _ [] a A ltac:(lia) (strtok_comp _ _ (decimal_no_dot _ _ A))).
  rewrite (version_good 1 tb _ _ _ b B ltac:(lia) (strtok_comp _ _ (decimal_no_dot _ _ B))).
  rewrite (version_good 0 tc _ _ _ c C ltac:(lia) R).
  reflexivity.
Qed.

Lemma land_ones_mod v n : 0 <= n -> Z.land v (Z.ones n) = v mod 2 ^ n.
Proof. intros; apply Z.land_ones; lia. Qed.

Lemma mask_shift v k : 0 <= k ->
  Z.shiftr (Z.land v (Z.shiftl 65535 k)) k = Z.shiftr v k mod 65536.
Proof.
  intros H. rewrite Z.shiftr_land. change 65536 with (2 ^ 16). rewrite <- Z.land_ones by lia.
  f_equal. rewrite Z.shiftr_shiftl_l by lia. rewrite Z.sub_diag. reflexivity.
Qed.

Lemma version_fields a b c : short a -> short b -> short c ->
  let v := ULP_VERSION_TRIPLET a b c in
  Z.shiftr (Z.land v 0xFFFF00000000) 32 = a /\ Z.shiftr (Z.land v 0xFFFF0000) 16 = b /\ Z.land v 0xFFFF = c.
Proof.
  intros A B C v. unfold v. rewrite triplet_val by assumption. unfold short in *.
  change 0xFFFF00000000 with (Z.shiftl 65535 32). change 0xFFFF0000 with (Z.shiftl 65535 16).
  rewrite !mask_shift by lia. rewrite !Z.shiftr_div_pow2 by lia.
  change 0xFFFF with (Z.ones 16). rewrite Z.land_ones by lia.
  change (2 ^ 32) with 4294967296. change (2 ^ 16) with 65536.
  repeat split; zdm.
Qed.

(** ** Base names *)

Lemma after_last_none c s : ~ In c s -> after_last c s = None.
Proof.
  induction s as [|x s IH]; intros H; [reflexivity|]. cbn [after_last]. rewrite IH.
  - destruct (Z.eqb_spec x c) as [->|_]; [exfalso; apply H; left; reflexivity|reflexivity].
  - intros X; apply H; right; exact X.
Qed.

Lemma after_last_some c d s : ~ In c s -> after_last c (d ++ c :: s) = Some s.
Proof.
  intros H. induction d as [|x d IH]; cbn [app after_last].
  - rewrite after_last_none by exact H. rewrite Z.eqb_refl. reflexivity.
  - rewrite IH. reflexivity.
Qed.

(** ** Build IDs *)

Lemma hexdigit_unhex d : 0 <= d < 16 -> unhex (hexdigit d) = Some d.
Proof.
  intros H. unfold unhex, hexdigit. destruct (Z.ltb_spec d 10).
  - destruct (48 <=? 48 + d) eqn:E1; [|lia]. destruct (48 + d <=? 57) eqn:E2; [|lia]. cbn. f_equal. lia.
  - destruct (48 <=? 87 + d) eqn:E1; [|lia]. destruct (87 + d <=? 57) eqn:E2; [lia|]. cbn.
    destruct (97 <=? 87 + d) eqn:E3; [|lia]. destruct (87 + d <=? 102) eqn:E4; [|lia]. cbn. f_equal. lia.
Qed.

Lemma hexdigit_lower d : 0 <= d < 16 -> is_lower_hex (hexdigit d).
Proof. intros H. unfold is_lower_hex, hexdigit. destruct (Z.ltb_spec d 10); lia. Qed.

Lemma unhex_iff c : (exists v, unhex c = Some v) <-> is_hex c.
Proof.
  unfold unhex, is_hex. destruct ((48 <=? c) && (c <=? 57)) eqn:E1; [split; [lia|eauto]|].
  destruct ((97 <=? c) && (c <=? 102)) eqn:E2; [split; [lia|eauto]|].
  destruct ((65 <=? c) && (c <=? 70)) eqn:E3; [split; [lia|eauto]|].
  split; [intros [v V]; discriminate|lia].
Qed.

Lemma nibbles b : is_byte b -> 0 <= b / 16 < 16 /\ 0 <= b mod 16 < 16.
Proof. unfold is_byte. intros H. split; zdm. Qed.

Lemma buildid_text_read id : bytes_ok id -> forall rest,
  str_to_buildid_loop (length id) (buildid_to_string id ++ rest) = Some id.
Proof.
  induction 1 as [|b id Hb H IH]; intros rest; [reflexivity|].
  cbn [length str_to_buildid_loop buildid_to_string flat_map app scan_hex2 skipn].
  destruct (nibbles b Hb) as [N1 N2]. rewrite !hexdigit_unhex by assumption.
  unfold buildid_to_string in IH. rewrite IH. f_equal. f_equal. zdm.
Qed.

Lemma buildid_text_length id : length (buildid_to_string id) = (2 * length id)%nat.
Proof. induction id as [|b id IH]; [reflexivity|]. cbn [buildid_to_string flat_map app length] in *. unfold buildid_to_string in IH. lia. Qed.

Lemma buildid_text_chars id : bytes_ok id -> Forall is_lower_hex (buildid_to_string id).
Proof.
  induction 1 as [|b id Hb H IH]; [constructor|]. cbn [buildid_to_string flat_map app].
  destruct (nibbles b Hb) as [N1 N2]. constructor; [|constructor]; auto using hexdigit_lower.
Qed.

Lemma buildid_roundtrip id : is_build_id_value id -> str_to_buildid (buildid_to_string id) = IdOk id.
Proof.
  intros [B L]. unfold str_to_buildid. unfold zlen. rewrite buildid_text_length, L.
  change (Z.of_nat (2 * 20) <? 20) with false. cbv iota.
  pose proof (buildid_text_read id B []) as R. rewrite app_nil_r, L in R. rewrite R. reflexivity.
Qed.

(** ** Descriptions *)

Lemma jget_hit k v t : jget k ((k, v) :: t) = Some v.
Proof. cbn. rewrite (proj2 (bytes_eqb_eq k k) eq_refl). reflexivity. Qed.

Lemma s32_range v : - 2 ^ 31 <= s32 v < 2 ^ 31.
Proof.
  unfold s32, u32. pose proof (Z.mod_pos_bound v (2 ^ 32) ltac:(lia)) as B.
  destruct (Z.ltb_spec (v mod 2 ^ 32) (2 ^ 31)); lia.
Qed.

Lemma get_JINT v : json_get_int (Some (JINT v)) = s32 v.
Proof. cbn [json_get_int JINT]. pose proof (s32_range v). lia. Qed.

Lemma s32_mod v : s32 v mod 2 ^ 32 = v mod 2 ^ 32.
Proof.
  unfold s32, u32. destruct (Z.ltb_spec (v mod 2 ^ 32) (2 ^ 31)).
  - apply Z.mod_mod; lia.
  - replace (v mod 2 ^ 32 - 2 ^ 32) with (v mod 2 ^ 32 + -1 * 2 ^ 32) by lia.
    rewrite Z.mod_add by lia. apply Z.mod_mod; lia.
Qed.

Lemma s32_small v : 0 <= v < 2 ^ 31 -> s32 v = v.
Proof. intros H. unfold s32, u32. rewrite Z.mod_small by lia. destruct (Z.ltb_spec v (2 ^ 31)); lia. Qed.

Lemma mod_down v : u32 (u64 v) = v mod 2 ^ 32.
Proof.
  unfold u32, u64. rewrite (Z.div_mod v (2 ^ 64)) at 2 by lia.
  replace (2 ^ 64) with (2 ^ 32 * 2 ^ 32) at 2 by reflexivity.
  rewrite <- Z.mul_assoc, (Z.mul_comm (2 ^ 32)), Z.add_comm, Z.mod_add by lia. reflexivity.
Qed.

Lemma parse_symbol_written s :
  symbol_ok s ->
  parse_symbol_json (get_json_symbol s) =
    Some (mkSym (sy_name s) (u64 (s32 (sy_offset s))) (sy_size s) (sy_info s) (sy_other s)).
Proof.
  intros (O & S & I & T). unfold is_byte in I, T. unfold parse_symbol_json, get_json_symbol.
  cbn [json_get].
  change (jget (zs "name") _) with (Some (JStr (sy_name s))).
  change (jget (zs "offset") _) with (Some (JINT (sy_offset s))).
  change (jget (zs "size") _) with (Some (JINT (sy_size s))).
  change (jget (zs "st_info") _) with (Some (JINT (sy_info s))).
  change (jget (zs "st_other") _) with (Some (JINT (sy_other s))).
  cbn [json_get_string]. rewrite !get_JINT, mod_down, s32_mod.
  rewrite (s32_small (sy_info s)), (s32_small (sy_other s)) by lia.
  rewrite !Z.mod_small by lia. reflexivity.
Qed.

Definition low_symbol (s : symbol) : Prop := sy_offset s < 2 ^ 31.

Lemma parse_symbols_written l :
  Forall symbol_ok l -> Forall low_symbol l -> parse_symbols_json (map get_json_symbol l) = Some l.
Proof.
  intros H L. induction l as [|s l IH]; [reflexivity|].
  inversion H as [|? ? H1 H2]; subst. inversion L as [|? ? L1 L2]; subst.
  cbn [map parse_symbols_json]. rewrite parse_symbol_written by exact H1. rewrite IH by assumption.
  unfold low_symbol in L1. pose proof H1 as (O & _). rewrite s32_small by lia.
  unfold u64. rewrite Z.mod_small by lia. destruct s; reflexivity.
Qed.

Lemma parse_written i syms :
  is_build_id_value (so_buildid i) ->
  parse_symbols_json (map get_json_symbol (so_symbols i)) = Some syms ->
  parse_so_json (Some (write_ulp_so_info_json i)) = SoOk (mkSo (so_name i) (so_buildid i) syms).
Proof.
  intros B S. unfold parse_so_json, write_ulp_so_info_json. cbn [json_get].
  change (jget (zs "library") _) with
    (Some (JObj [ (zs "name", JStr (so_name i));
                 (zs "buildid", JStr (buildid_to_string (so_buildid i)));
                 (zs "symbols", JArr (map get_json_symbol (so_symbols i))) ])).
  cbv iota. cbn [json_get].
  change (jget (zs "name") _) with (Some (JStr (so_name i))).
  change (jget (zs "buildid") _) with (Some (JStr (buildid_to_string (so_buildid i)))).
  change (jget (zs "symbols") _) with (Some (JArr (map get_json_symbol (so_symbols i)))).
  cbn [json_get_string]. rewrite buildid_roundtrip by exact B. rewrite S. reflexivity.
Qed.

Lemma symbols_eqb_eq a b : symbols_eqb a b = true <-> a = b.
Proof.
  revert b; induction a as [|x a IH]; intros [|y b]; cbn; split; intros H; try discriminate; auto.
  - apply andb_true_iff in H. destruct H as [H1 H2]. apply IH in H2. subst. f_equal.
    unfold symbol_eqb in H1. repeat (apply andb_true_iff in H1; destruct H1 as [H1 ?]).
    apply bytes_eqb_eq in H1. destruct x, y; cbn in *. f_equal; lia || assumption.
  - injection H as -> ->. apply andb_true_iff. split; [|apply IH; reflexivity].
    unfold symbol_eqb. rewrite !Z.eqb_refl, (proj2 (bytes_eqb_eq _ _) eq_refl). reflexivity.
Qed.

Lemma so_info_equal_eq a b : so_info_equal a b = true <-> a = b.
Proof.
  unfold so_info_equal. rewrite !andb_true_iff, !bytes_eqb_eq, symbols_eqb_eq.
  destruct a, b; cbn. split; [intros [[-> ->] ->]; reflexivity|intros H; injection H as -> -> ->; auto].
Qed.

Lemma section_loop_rev l : forall head,
  section_loop l head =
    rev (map (fun s => mkSym (es_name s) (es_value s) (u32 (es_size s)) (es_info s) (es_other s))
           (filter (fun s => match es_name s with [] => false | _ => true end) l)) ++ head.
Proof.
  induction l as [|s l IH]; intros head; [reflexivity|]. cbn [section_loop filter].
  rewrite IH. destruct (es_name s) eqn:E; [reflexivity|].
  cbn [map rev]. rewrite <- app_assoc. rewrite E. reflexivity.
Qed.

(** ** Temporary paths *)

Lemma tmp_conflict random ex f : forall i,
  (forall j, random j <> None) -> tmp_loop random ex f i true = TmpRunning.
Proof.
  induction f as [|f IH]; intros i H; [reflexivity|]. cbn [tmp_loop].
  destruct (random i) eqn:E; [|exfalso; apply (H i E)].
  destruct (ex _); apply IH; exact H.
Qed.
