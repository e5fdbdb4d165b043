(** Proofs about symbol lookup and the build-id check. *)
From Verif Require Import Base BaseFacts StrModel DlModel LibModel LibSpec.

(** ** strstr *)

Lemma is_prefix_iff p l : is_prefix p l = true <-> exists post, l = p ++ post.
Proof.
  revert l; induction p as [|x p IH]; intros l.
  - cbn. split; eauto.
  - destruct l as [|y l]; cbn [is_prefix app].
    + split; [discriminate|]. intros (post & H). discriminate.
    + rewrite andb_true_iff, IH. split.
      * intros [H (post & ->)]. apply Z.eqb_eq in H. subst. eauto.
      * intros (post & H). injection H as -> ->. split; [apply Z.eqb_refl|eauto].
Qed.

Lemma strstr_iff hay needle : strstr hay needle = true <-> substring needle hay.
Proof.
  unfold substring. induction hay as [|c t IH]; cbn [strstr]; rewrite orb_true_iff, is_prefix_iff.
  - split.
    + intros [(post & H)|H]; [|discriminate]. exists [], post. exact H.
    + intros (pre & post & H). left. destruct pre; [eauto|discriminate].
  - rewrite IH. split.
    + intros [(post & H)|(pre & post & H)]; [exists [], post; exact H|exists (c :: pre), post; cbn; congruence].
    + intros (pre & post & H). destruct pre as [|x pre]; [left; eauto|]. right. cbn in H. injection H as <- H. eauto.
Qed.

Lemma strstr_false hay needle : strstr hay needle = false <-> ~ substring needle hay.
Proof. rewrite <- strstr_iff. destruct (strstr hay needle); split; intros; congruence. Qed.

(** ** Lookup *)

Lemma find_symbol_skip before rest name sym :
  (forall x, In x before -> ~ substring name (lb_name x) \/ lb_name x = vdso_name) ->
  dl_find_symbol (before ++ rest) name sym = dl_find_symbol rest name sym.
Proof.
  induction before as [|x t IH]; intros H; [reflexivity|]. cbn [app dl_find_symbol].
  rewrite IH by (intros y Hy; apply H; right; exact Hy).
  destruct (strstr (lb_name x) name) eqn:E; cbn [negb]; [|reflexivity].
  apply strstr_iff in E. destruct (H x (or_introl eq_refl)) as [G|G]; [contradiction|].
  apply bytes_eqb_eq in G. rewrite G. reflexivity.
Qed.

Lemma find_symbol_designated libs name l syms sym :
  designates libs name l -> lb_syms l = Some syms ->
  dl_find_symbol libs name sym = (get_symbol_by_name syms sym, lb_base l).
Proof.
  intros (before & after & -> & Hs & Hv & Hb) Hl. rewrite find_symbol_skip by exact Hb.
  cbn [dl_find_symbol]. apply strstr_iff in Hs. rewrite Hs. cbn [negb].
  destruct (bytes_eqb (lb_name l) vdso_name) eqn:E; [apply bytes_eqb_eq in E; contradiction|].
  rewrite Hl. reflexivity.
Qed.

Lemma find_symbol_not_loaded libs name sym :
  not_loaded libs name -> dl_find_symbol libs name sym = (0, 0).
Proof.
  intros H. rewrite <- (app_nil_r libs). rewrite find_symbol_skip by exact H. reflexivity.
Qed.

Lemma find_base_skip before rest name acc :
  (forall x, In x before -> ~ substring name (lb_name x) \/ lb_name x = vdso_name) ->
  dl_find_base_addr_go (before ++ rest) name acc =
  dl_find_base_addr_go rest name (match before with [] => acc | _ => (255, -1) end).
Proof.
  revert acc. induction before as [|x t IH]; intros acc H; [reflexivity|]. cbn [app dl_find_base_addr_go].
  rewrite IH by (intros y Hy; apply H; right; exact Hy).
  assert (G : match t with [] => (255, -1) | _ => (255, -1) end = (255, -1) :> Z * Z) by (destruct t; reflexivity).
  rewrite G. destruct (bytes_eqb (lb_name x) vdso_name) eqn:E; [reflexivity|].
  destruct (strstr (lb_name x) name) eqn:E2; cbn [negb]; [|reflexivity].
  apply strstr_iff in E2. destruct (H x (or_introl eq_refl)) as [X|X]; [contradiction|].
  apply bytes_eqb_eq in X. congruence.
Qed.

Lemma find_base_designated libs name l :
  designates libs name l -> dl_find_base_addr libs name = (lb_base l, lb_tls l).
Proof.
  intros (before & after & -> & Hs & Hv & Hb). unfold dl_find_base_addr. rewrite find_base_skip by exact Hb.
  cbn [dl_find_base_addr_go]. apply strstr_iff in Hs. rewrite Hs. cbn [negb].
  destruct (bytes_eqb (lb_name l) vdso_name) eqn:E; [apply bytes_eqb_eq in E; contradiction|]. reflexivity.
Qed.

Lemma find_base_not_loaded libs name :
  libs <> [] -> not_loaded libs name -> dl_find_base_addr libs name = (255, -1).
Proof.
  intros Hn H. unfold dl_find_base_addr. rewrite <- (app_nil_r libs). rewrite find_base_skip by exact H.
  destruct libs; [contradiction|reflexivity].
Qed.

(** ** Notes *)

Lemma pad4_len l : zlen (pad4 l) = zlen l + (- zlen l) mod 4.
Proof.
  unfold pad4. rewrite zlen_app. f_equal. unfold zlen at 1. rewrite repeat_length.
  pose proof (Z.mod_pos_bound (- zlen l) 4). lia.
Qed.

Lemma align32_eq v : 0 <= v < 2 ^ 31 -> align32 v = v + (- v) mod 4.
Proof.
  intros H. unfold align32. unfold u32. rewrite Z.mod_small by lia.
  change (2 ^ 32 - 4) with (Z.ldiff (Z.ones 32) (Z.ones 2)).
  replace (Z.land (v + 3) (Z.ldiff (Z.ones 32) (Z.ones 2))) with (Z.ldiff (Z.land (v + 3) (Z.ones 32)) (Z.ones 2)).
  - rewrite Z.land_ones by lia. rewrite Z.mod_small by lia. rewrite Z.ldiff_ones_r by lia.
    rewrite Z.shiftl_mul_pow2, Z.shiftr_div_pow2 by lia. change (2 ^ 2) with 4.
    pose proof (Z.div_mod (v + 3) 4). pose proof (Z.mod_pos_bound (v + 3) 4).
    pose proof (Z.div_mod (- v) 4). pose proof (Z.mod_pos_bound (- v) 4). lia.
  - apply Z.bits_inj. intros n. rewrite !Z.ldiff_spec, !Z.land_spec, Z.ldiff_spec.
    destruct (Z.testbit (v + 3) n), (Z.testbit (Z.ones 32) n), (Z.testbit (Z.ones 2) n); reflexivity.
Qed.

Lemma note_bytes_len n : zlen (note_bytes n) = 12 + zlen (pad4 (nt_name n)) + zlen (pad4 (nt_desc n)).
Proof.
  assert (L : forall v, zlen (le_enc 4 v) = 4) by (intros v; unfold zlen; rewrite le_enc_length; reflexivity).
  unfold note_bytes. rewrite !zlen_app, !L. lia.
Qed.

Lemma sub_bytes_app pre mid post n :
  zlen mid = n -> sub_bytes (pre ++ mid ++ post) (zlen pre) n = Some mid.
Proof.
  intros H. unfold sub_bytes. pose proof (zlen_nonneg pre). pose proof (zlen_nonneg post).
  destruct (Z.leb_spec 0 (zlen pre)); [|lia]. rewrite !zlen_app.
  destruct (Z.leb_spec (zlen pre + n) (zlen pre + (zlen mid + zlen post))); [|lia]. cbn [andb]. f_equal.
  unfold zlen in *. rewrite !Nat2Z.id. rewrite skipn_app_exact.
  rewrite <- H, Nat2Z.id. apply firstn_app_exact.
Qed.

Lemma u32_at_app pre post v :
  0 <= v < 2 ^ 32 -> u32_at (pre ++ le_enc 4 v ++ post) (zlen pre) = Some v.
Proof.
  intros H. unfold u32_at. rewrite sub_bytes_app by (unfold zlen; rewrite le_enc_length; reflexivity).
  f_equal. apply le_dec_enc_id. exact H.
Qed.

Lemma note_fields pre n post :
  note_ok n ->
  let seg := pre ++ note_bytes n ++ post in
  u32_at seg (zlen pre) = Some (zlen (nt_name n)) /\
  u32_at seg (zlen pre + 4) = Some (zlen (nt_desc n)) /\
  u32_at seg (zlen pre + 8) = Some (nt_type n) /\
  (zlen (nt_name n) = 4 -> sub_bytes seg (zlen pre + 16) (zlen (nt_desc n)) = Some (nt_desc n)).
Proof.
  intros (H1 & H2 & H3 & H4 & H5) seg. pose proof (zlen_nonneg (nt_name n)). pose proof (zlen_nonneg (nt_desc n)).
  assert (L : forall v, zlen (le_enc 4 v) = 4) by (intros v; unfold zlen; rewrite le_enc_length; reflexivity).
  subst seg. unfold note_bytes. repeat split.
  - rewrite <- !app_assoc. apply u32_at_app. lia.
  - rewrite <- !app_assoc. rewrite (app_assoc pre).
    replace (zlen pre + 4) with (zlen (pre ++ le_enc 4 (zlen (nt_name n)))) by (rewrite zlen_app, L; lia).
    apply u32_at_app. lia.
  - rewrite <- !app_assoc. rewrite (app_assoc pre), (app_assoc (pre ++ _)).
    replace (zlen pre + 8) with (zlen ((pre ++ le_enc 4 (zlen (nt_name n))) ++ le_enc 4 (zlen (nt_desc n))))
      by (rewrite !zlen_app, !L; lia).
    apply u32_at_app. lia.
  - intros E. unfold pad4. rewrite E. change ((-4) mod 4) with 0. cbn [Z.to_nat repeat]. rewrite app_nil_r.
    rewrite <- !app_assoc. rewrite (app_assoc pre), (app_assoc (pre ++ _)), (app_assoc ((pre ++ _) ++ _)), (app_assoc (((pre ++ _) ++ _) ++ _)).
    replace (zlen pre + 16) with (zlen ((((pre ++ le_enc 4 4) ++ le_enc 4 (zlen (nt_desc n))) ++ le_enc 4 (nt_type n)) ++ nt_name n))
      by (rewrite !zlen_app, !L; lia).
    apply sub_bytes_app. reflexivity.
Qed.

Definition mismatch (bid : list Z) (o : option note) : bool :=
  match o with
  | Some n => (zlen (nt_desc n) =? zlen bid) && negb (bytes_eqb bid (nt_desc n))
  | None => false
  end.

Lemma is_build_id_small n : is_build_id n = true -> 16 <= zlen (note_bytes n).
Proof.
  unfold is_build_id. rewrite note_bytes_len, !pad4_len. intros H.
  pose proof (Z.mod_pos_bound (- zlen (nt_name n)) 4). pose proof (Z.mod_pos_bound (- zlen (nt_desc n)) 4). lia.
Qed.

Lemma find_none_small ns : Forall note_ok ns -> zlen (flat_map note_bytes ns) < 16 -> find is_build_id ns = None.
Proof.
  induction ns as [|n t IH]; intros Hf H; [reflexivity|]. cbn [flat_map find] in *. rewrite zlen_app in H.
  pose proof (zlen_nonneg (flat_map note_bytes t)). pose proof (zlen_nonneg (note_bytes n)).
  destruct (is_build_id n) eqn:E; [apply is_build_id_small in E; lia|].
  apply IH; [apply Forall_inv_tail in Hf; exact Hf|lia].
Qed.

Lemma note_loop_notes bid ns : forall fuel pre,
  Forall note_ok ns -> (length ns < fuel)%nat ->
  note_loop fuel (pre ++ flat_map note_bytes ns) (zlen pre) (zlen (flat_map note_bytes ns)) (zlen bid) bid =
  N_match (mismatch bid (find is_build_id ns)).
Proof.
  induction ns as [|n t IH]; intros fuel pre Hf Hfu; (destruct fuel as [|fuel]; [cbn in Hfu; lia|]).
  - cbn [flat_map note_loop]. reflexivity.
  - cbn [note_loop]. unfold SIZEOF_BUILD_ID_NOTE.
    destruct (Z.leb_spec 16 (zlen (flat_map note_bytes (n :: t)))) as [Hs|Hs]; cbn [negb].
    2:{ rewrite find_none_small by auto. reflexivity. }
    cbn [flat_map] in *. pose proof (Forall_inv Hf) as Hn.
    destruct (note_fields pre n (flat_map note_bytes t) Hn) as (F1 & F2 & F3 & F4). cbv zeta in *.
    rewrite F1, F2, F3. cbn [find]. unfold is_build_id, NT_GNU_BUILD_ID.
    destruct ((nt_type n =? 3) && (zlen (nt_name n) =? 4) && (16 <=? zlen (nt_desc n))) eqn:E.
    + cbn [mismatch]. destruct (zlen (nt_desc n) =? zlen bid); [|reflexivity].
      rewrite F4 by lia. reflexivity.
    + destruct Hn as (N1 & N2 & N3 & N4 & N5).
      pose proof (zlen_nonneg (nt_name n)). pose proof (zlen_nonneg (nt_desc n)).
      rewrite !align32_eq by lia.
      replace (12 + (zlen (nt_name n) + (- zlen (nt_name n)) mod 4) + (zlen (nt_desc n) + (- zlen (nt_desc n)) mod 4))
        with (zlen (note_bytes n)) by (rewrite note_bytes_len, !pad4_len; lia).
      rewrite app_assoc. rewrite <- zlen_app.
      replace (zlen (note_bytes n ++ flat_map note_bytes t) - zlen (note_bytes n)) with (zlen (flat_map note_bytes t))
        by (rewrite zlen_app; lia).
      apply IH; [apply Forall_inv_tail in Hf; exact Hf|cbn in Hfu; lia].
Qed.

Lemma notes_shorter ns : (length ns <= length (flat_map note_bytes ns))%nat.
Proof.
  induction ns as [|n t IH]; [cbn; lia|]. cbn [flat_map length]. rewrite app_length.
  assert (12 <= zlen (note_bytes n)).
  { rewrite note_bytes_len. pose proof (zlen_nonneg (pad4 (nt_name n))). pose proof (zlen_nonneg (pad4 (nt_desc n))). lia. }
  unfold zlen in *. lia.
Qed.

Lemma compare_notes bid segs :
  Forall (Forall note_ok) segs ->
  compare_build_ids (map (fun ns => (flat_map note_bytes ns, zlen (flat_map note_bytes ns))) segs) (zlen bid) bid =
  N_match (existsb (fun ns => mismatch bid (find is_build_id ns)) segs).
Proof.
  induction segs as [|ns t IH]; intros H; [reflexivity|]. cbn [map compare_build_ids existsb].
  pose proof (note_loop_notes bid ns (S (length (flat_map note_bytes ns))) [] (Forall_inv H)) as G.
  cbn [app] in G. change (zlen []) with 0 in G. rewrite G by (pose proof (notes_shorter ns); lia).
  destruct (mismatch bid (find is_build_id ns)); cbn [orb]; [reflexivity|].
  apply IH. apply Forall_inv_tail in H. exact H.
Qed.

Lemma check_notes bid libs segss :
  Forall2 lib_notes libs segss ->
  check_build_id libs (zlen bid) bid =
  N_match (existsb (existsb (fun ns => mismatch bid (find is_build_id ns))) segss).
Proof.
  induction 1 as [|l segs libs segss [H1 H2] H IH]; [reflexivity|]. cbn [check_build_id existsb].
  rewrite H2, compare_notes by exact H1.
  destruct (existsb _ segs); cbn [orb]; [reflexivity|]. exact IH.
Qed.
