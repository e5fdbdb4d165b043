(** Property theorems about patch metadata (C18, C19, C20, C21). *)
From Verif Require Import Base BaseFacts MetaModel MetaSpec MetaProofs MetaRobust.

(** A sample description used to show that hypotheses can be met: two replaced
    functions, one dependency, one plain and one TLS reference. *)
Definition sample : pmeta :=
  mk_pmeta (repeat 7 32) 20 (repeat 170 20) [47; 108; 105; 98; 99] 2
    [mk_munit [102; 49] [103; 49] 4096; mk_munit [102; 50] [103; 50] 8192] 1 [repeat 9 32]
    2 [mk_pref [118] [114] 64 128 false; mk_pref [116] [117] 72 136 true].
Definition sample_path : list Z := [47; 112; 46; 115; 111].

Lemma sample_ok : pmeta_ok sample.
Proof.
  repeat split; try reflexivity; repeat constructor; simpl; try (unfold is_byte, is_cchar); try lia.
Qed.

(** C18. What libpulp parses is exactly what the packer described, in the same
    order, for every description and path that fit the limits - whatever bytes
    follow in the buffer. *)
Theorem C18_metadata_roundtrip :
  forall (p : pmeta) (path : list Z),
    pmeta_ok p -> cstr_ok path -> path <> [] ->
    zlen path + 1 < PATH_MAX ->
    zlen (create_patch_metadata_file p) + 4 + (zlen path + 1) < ULP_METADATA_BUF_LEN ->
    exists b,
      extract_ulp_from_so_to_mem (create_patch_metadata_file p) path = P_ok (Some b) /\
      zlen b < ULP_METADATA_BUF_LEN /\
      forall junk trailing, parse_metadata_from_mem junk (b ++ trailing) = P_ok (seen_patch p path).
Proof.
  intros p path Hp Hc Hne Hl Hs. pose proof (zlen_nonneg path).
  assert (H33 : 33 <= zlen (create_patch_metadata_file p)).
  { rewrite zlen_create by assumption.
    pose proof (zlen_nonneg (pm_bid p)). pose proof (zlen_nonneg (pm_name p)).
    pose proof (zlen_nonneg (pm_deps p)).
    pose proof (zlen_nonneg (flat_map put_unit (pm_units p))).
    pose proof (zlen_nonneg (flat_map put_ref (pm_refs p))). lia. }
  pose proof (extract_fits _ path H33 Hl ltac:(lia)) as Hx.
  eexists. split; [exact Hx|]. split.
  - rewrite !zlen_app, zlen_put_cstr.
    assert (E : zlen (firstn 33 (create_patch_metadata_file p)) + zlen (skipn 33 (create_patch_metadata_file p))
                = zlen (create_patch_metadata_file p)).
    { rewrite <- zlen_app, firstn_skipn. reflexivity. }
    lia.
  - intros junk trailing. unfold parse_metadata_from_mem.
    rewrite (parse_created p path junk _ trailing Hp Hc Hne Hx). reflexivity.
Qed.
Print Assumptions C18_metadata_roundtrip.

Example C18_case :
  pmeta_ok sample /\ cstr_ok sample_path /\ sample_path <> [] /\
  zlen sample_path + 1 < PATH_MAX /\
  zlen (create_patch_metadata_file sample) + 4 + (zlen sample_path + 1) < ULP_METADATA_BUF_LEN.
Proof.
  split; [exact sample_ok|]. split; [repeat constructor; unfold is_cchar; lia|].
  split; [discriminate|]. split; reflexivity.
Qed.

(** C18, limits: what does not fit is refused, never truncated. *)
Theorem C18_oversized_refused :
  forall (p : pmeta) (path : list Z),
    zlen (create_patch_metadata_file p) + 4 + (zlen path + 1) < 2 ^ 32 ->
    PATH_MAX <= zlen path + 1 \/
    ULP_METADATA_BUF_LEN <= zlen (create_patch_metadata_file p) + 4 + (zlen path + 1) ->
    extract_ulp_from_so_to_mem (create_patch_metadata_file p) path = P_ok None.
Proof.
  intros p path Hw H. unfold extract_ulp_from_so_to_mem.
  pose proof (zlen_nonneg path). pose proof (zlen_nonneg (create_patch_metadata_file p)).
  destruct (Z.leb_spec PATH_MAX (zlen path + 1)); [reflexivity|].
  rewrite u32_small by lia.
  destruct (Z.leb_spec ULP_METADATA_BUF_LEN
             (zlen (create_patch_metadata_file p) + (zlen path + 1) + 4)); [reflexivity|lia].
Qed.
Print Assumptions C18_oversized_refused.

Example C18_oversized_case :
  zlen (create_patch_metadata_file sample) + 4 + (zlen (repeat 65 4096) + 1) < 2 ^ 32 /\
  PATH_MAX <= zlen (repeat 65 4096) + 1.
Proof. vm_compute. split; [reflexivity|discriminate]. Qed.

(** C19, termination for every byte string. *)
Theorem C19_parser_terminates :
  forall (junk : Z) (src : list Z),
    bytes_ok src -> parse_metadata_from_mem junk src <> P_fuel.
Proof.
  intros junk src Hb. unfold parse_metadata_from_mem.
  pattern (parse_metadata_raw junk src).
  apply parse_rule; [exact Hb|discriminate|discriminate|discriminate|].
  intros [m l]. discriminate.
Qed.
Print Assumptions C19_parser_terminates.

Example C19_parser_terminates_case :
  bytes_ok (repeat 1 37 ++ [5; 0; 0; 0]) /\
  parse_metadata_from_mem 0 (repeat 1 37 ++ [5; 0; 0; 0]) = P_err EINVALIDULP.
Proof. split; [repeat constructor; unfold is_byte; lia|vm_compute; reflexivity]. Qed.

(** C19, memory safety, the part that holds: no access outside the buffer or an
    allocation unless four consecutive bytes 255 occur in the buffer.
    Missing: a length field of 0xffffffff, see
    [C19_length_wrap_refuted]. *)
Theorem C19_parser_safe_partial :
  forall (junk : Z) (src : list Z),
    bytes_ok src ->
    ~ (exists pre post, src = pre ++ [255; 255; 255; 255] ++ post) ->
    parse_metadata_from_mem junk src <> P_UB.
Proof.
  intros junk src Hb Hw. unfold parse_metadata_from_mem.
  pattern (parse_metadata_raw junk src).
  apply parse_rule; [exact Hb|discriminate|discriminate|intros W; exfalso; exact (Hw W)|].
  intros [m l]. discriminate.
Qed.
Print Assumptions C19_parser_safe_partial.

Example C19_parser_safe_case :
  ~ (exists pre post, create_patch_metadata_file sample = pre ++ [255; 255; 255; 255] ++ post).
Proof.
  intros (pre & post & E).
  assert (H : In 255 (create_patch_metadata_file sample)).
  { rewrite E. apply in_or_app. right. left. reflexivity. }
  vm_compute in H. repeat (destruct H as [H|H]; [discriminate|]). exact H.
Qed.

(** C19, finding: a container path length of 0xffffffff wraps the allocation
    size to zero and the copy overruns it. *)
Theorem C19_length_wrap_refuted :
  exists src, bytes_ok src /\ forall junk, parse_metadata_from_mem junk src = P_UB.
Proof.
  exists (repeat 1 33 ++ [255; 255; 255; 255] ++ [65]). split.
  - repeat constructor; unfold is_byte; lia.
  - intros junk. reflexivity.
Qed.
Print Assumptions C19_length_wrap_refuted.

(** C19, truncation, the part that holds: if parsing a buffer succeeds, the
    metadata was complete in it - extending the buffer by any bytes gives
    the same result; and every proper prefix of a packed patch is rejected.
    Missing: reverse patches, see [C19_truncated_reverse_refuted]. *)
Theorem C19_complete_partial :
  forall (junk : Z) (src ext : list Z) (m : meta),
    bytes_ok src -> parse_metadata_from_mem junk src = P_ok m -> md_type m <> 2 ->
    parse_metadata_from_mem junk (src ++ ext) = P_ok m.
Proof.
  intros junk src ext m Hb Hp Ht. unfold parse_metadata_from_mem in *.
  destruct (parse_metadata_raw junk src) as [| |c|[m' l]] eqn:E; try discriminate.
  injection Hp as ->. rewrite (parse_mono ext junk src Hb m l E Ht). reflexivity.
Qed.
Print Assumptions C19_complete_partial.

Theorem C19_truncated_rejected_partial :
  forall (junk : Z) (p : pmeta) (path b : list Z) (k : nat),
    pmeta_ok p -> cstr_ok path -> path <> [] ->
    extract_ulp_from_so_to_mem (create_patch_metadata_file p) path = P_ok (Some b) ->
    bytes_ok b -> (k < length b)%nat ->
    ~ exists m, parse_metadata_from_mem junk (firstn k b) = P_ok m.
Proof. exact truncated_rejected. Qed.
Print Assumptions C19_truncated_rejected_partial.

Example C19_truncated_case :
  match extract_ulp_from_so_to_mem (create_patch_metadata_file sample) sample_path with
  | P_ok (Some b) => forallb is_byteb b = true /\ (100 < length b)%nat
  | _ => False
  end.
Proof. vm_compute. split; [reflexivity|]. lia. Qed.

(** C19, finding: a reverse patch cut inside its name length field is accepted,
    with a different (empty) name. *)
Theorem C19_truncated_reverse_refuted :
  exists (p : pmeta) (path b : list Z) (k : nat),
    pmeta_ok p /\ cstr_ok path /\ path <> [] /\
    extract_ulp_from_so_to_mem (write_reverse_patch p) path = P_ok (Some b) /\
    (k < length b)%nat /\
    exists m, forall junk, parse_metadata_from_mem junk (firstn k b) = P_ok m /\ md_name m <> pm_name p.
Proof.
  set (p := mk_pmeta (repeat 7 32) 20 (repeat 170 20) (repeat 97 256) 0 [] 0 [] 0 []).
  set (b := match extract_ulp_from_so_to_mem (write_reverse_patch p) sample_path with
            | P_ok (Some b) => b | _ => [] end).
  exists p, sample_path, b, 68%nat.
  split; [|split; [|split; [discriminate|split; [vm_compute; reflexivity|]]]].
  - repeat split; try reflexivity; repeat constructor; simpl; try (unfold is_byte, is_cchar); lia.
  - repeat constructor; unfold is_cchar; lia.
  - split; [vm_compute; lia|]. eexists. intros junk. split; [vm_compute; reflexivity|discriminate].
Qed.
Print Assumptions C19_truncated_reverse_refuted.

(** C20. The reverse metadata parses as a revert request for the same patch. *)
Theorem C20_reverse_identifies_patch :
  forall (p : pmeta) (path : list Z),
    pmeta_ok p -> cstr_ok path -> path <> [] ->
    zlen path + 1 < PATH_MAX ->
    zlen (write_reverse_patch p) + 4 + (zlen path + 1) < ULP_METADATA_BUF_LEN ->
    exists b,
      extract_ulp_from_so_to_mem (write_reverse_patch p) path = P_ok (Some b) /\
      forall junk trailing, parse_metadata_from_mem junk (b ++ trailing) = P_ok (seen_reverse p path).
Proof.
  intros p path Hp Hc Hne Hl Hs. pose proof (zlen_nonneg path).
  assert (H33 : 33 <= zlen (write_reverse_patch p)).
  { unfold write_reverse_patch. rewrite !zlen_app, !zlen_le_enc. change (zlen [2]) with 1.
    destruct Hp as ((Hid & _) & _). replace (zlen (pm_id p)) with 32 by (unfold zlen; lia).
    pose proof (zlen_nonneg (firstn (Z.to_nat (pm_bid_len p)) (pm_bid p))).
    pose proof (zlen_nonneg (pm_name p)). lia. }
  pose proof (extract_fits _ path H33 Hl ltac:(lia)) as Hx.
  eexists. split; [exact Hx|].
  intros junk trailing. unfold parse_metadata_from_mem.
  rewrite (parse_reverse p path junk _ trailing Hp Hc Hne Hx). reflexivity.
Qed.
Print Assumptions C20_reverse_identifies_patch.

Example C20_case :
  zlen (write_reverse_patch sample) + 4 + (zlen sample_path + 1) < ULP_METADATA_BUF_LEN.
Proof. reflexivity. Qed.

(** C21, the part that holds: with the section [data] (at least a header) in the
    zeroed metadata buffer, injecting the path gives either exactly the bytes
    the tool would send followed by zeros, or ENOMEM and an untouched
    buffer; the buffer never grows. Missing: sections shorter than the header,
    see [C21_short_section_refuted]. *)
Theorem C21_gdb_injection_equals_tool_partial :
  forall (data path : list Z),
    33 <= zlen data <= ULP_METADATA_BUF_LEN ->
    let buf := data ++ repeat 0 (Z.to_nat (ULP_METADATA_BUF_LEN - zlen data)) in
    let total := zlen data + 4 + (zlen path + 1) in
    (total <= ULP_METADATA_BUF_LEN ->
       inject_lp_path buf path (zlen data) =
       P_ok (0, firstn 33 data ++ le_enc 4 (zlen path + 1) ++ path ++ [0] ++ skipn 33 data ++
                repeat 0 (Z.to_nat (ULP_METADATA_BUF_LEN - total)))) /\
    (ULP_METADATA_BUF_LEN < total -> inject_lp_path buf path (zlen data) = P_ok (ENOMEM, buf)) /\
    (forall b, extract_ulp_from_so_to_mem data path = P_ok (Some b) ->
       exists n, inject_lp_path buf path (zlen data) = P_ok (0, b ++ repeat 0 n) /\
                 zlen (b ++ repeat 0 n) = ULP_METADATA_BUF_LEN).
Proof.
  intros data path Hd buf total. pose proof (zlen_nonneg path) as Hp.
  assert (H1 : total <= ULP_METADATA_BUF_LEN ->
       inject_lp_path buf path (zlen data) =
       P_ok (0, firstn 33 data ++ le_enc 4 (zlen path + 1) ++ path ++ [0] ++ skipn 33 data ++
                repeat 0 (Z.to_nat (ULP_METADATA_BUF_LEN - total)))).
  { intros Ht. unfold inject_lp_path.
    rewrite Z.gtb_ltb. destruct (Z.ltb_spec ULP_METADATA_BUF_LEN (zlen data + (4 + (zlen path + 1)))); [lia|].
    destruct (Z.ltb_spec (zlen data) 33); [lia|]. f_equal. f_equal.
    assert (L33 : (33 <= length data)%nat) by (unfold zlen in Hd; lia).
    assert (Eb : buf = firstn 33 data ++ skipn 33 data ++ repeat 0 (Z.to_nat (ULP_METADATA_BUF_LEN - zlen data))).
    { unfold buf. rewrite app_assoc, firstn_skipn. reflexivity. }
    assert (Lf : length (firstn 33 data) = 33%nat) by (rewrite firstn_length; lia).
    assert (F1 : firstn 33 buf = firstn 33 data).
    { rewrite Eb. rewrite <- Lf at 1. apply firstn_app_exact. }
    assert (F2 : skipn 33 buf = skipn 33 data ++ repeat 0 (Z.to_nat (ULP_METADATA_BUF_LEN - zlen data))).
    { rewrite Eb. rewrite <- Lf at 1. apply skipn_app_exact. }
    rewrite F1, F2.
    assert (F3 : firstn (Z.to_nat (zlen data - 33))
             (skipn 33 data ++ repeat 0 (Z.to_nat (ULP_METADATA_BUF_LEN - zlen data))) = skipn 33 data).
    { replace (Z.to_nat (zlen data - 33)) with (length (skipn 33 data))
        by (rewrite skipn_length; unfold zlen; lia). apply firstn_app_exact. }
    rewrite F3.
    assert (F4 : skipn (Z.to_nat (zlen data + (4 + (zlen path + 1)))) buf =
                 repeat 0 (Z.to_nat (ULP_METADATA_BUF_LEN - total))).
    { unfold buf.
      replace (Z.to_nat (zlen data + (4 + (zlen path + 1)))) with
        (length data + Z.to_nat (4 + (zlen path + 1)))%nat by (unfold zlen in *; lia).
      rewrite skipn_app, skipn_all2 by lia. simpl app.
      replace (length data + Z.to_nat (4 + (zlen path + 1)) - length data)%nat
        with (Z.to_nat (4 + (zlen path + 1))) by lia.
      replace (Z.to_nat (ULP_METADATA_BUF_LEN - zlen data)) with
        (Z.to_nat (4 + (zlen path + 1)) + Z.to_nat (ULP_METADATA_BUF_LEN - total))%nat
        by (unfold total; lia).
      rewrite repeat_app.
      replace (Z.to_nat (4 + (zlen path + 1))) with (length (repeat 0 (Z.to_nat (4 + (zlen path + 1))))) at 1
        by apply repeat_length.
      apply skipn_app_exact. }
    rewrite F4. rewrite <- !app_assoc. reflexivity. }
  split; [exact H1|]. split.
  - intros Ht. unfold inject_lp_path. rewrite Z.gtb_ltb.
    destruct (Z.ltb_spec ULP_METADATA_BUF_LEN (zlen data + (4 + (zlen path + 1)))); [reflexivity|lia].
  - intros b Hx. apply extract_some in Hx. destruct Hx as (-> & _ & Hs & _).
    assert (Ht : total <= ULP_METADATA_BUF_LEN) by (unfold total; lia).
    exists (Z.to_nat (ULP_METADATA_BUF_LEN - total)). rewrite (H1 Ht). split.
    + f_equal. f_equal. unfold put_cstr. rewrite <- !app_assoc. reflexivity.
    + rewrite !zlen_app, zlen_put_cstr. unfold zlen at 4. rewrite repeat_length.
      assert (E : zlen (firstn 33 data) + zlen (skipn 33 data) = zlen data)
        by (rewrite <- zlen_app, firstn_skipn; reflexivity).
      rewrite Z2Nat.id by lia. unfold total. lia.
Qed.
Print Assumptions C21_gdb_injection_equals_tool_partial.

Example C21_case :
  33 <= zlen (create_patch_metadata_file sample) <= ULP_METADATA_BUF_LEN.
Proof. vm_compute. split; discriminate. Qed.

(** C21, finding: a .ulp section shorter than 33 bytes makes the gdb interface
    move a negative number of bytes. *)
Theorem C21_short_section_refuted :
  forall (data : list Z), zlen data < 33 ->
    inject_lp_path (data ++ repeat 0 (Z.to_nat (ULP_METADATA_BUF_LEN - zlen data))) [47; 97] (zlen data) = P_UB.
Proof.
  intros data Hd. unfold inject_lp_path. rewrite Z.gtb_ltb.
  change (zlen [47; 97]) with 2.
  destruct (Z.ltb_spec ULP_METADATA_BUF_LEN (zlen data + (4 + (2 + 1)))) as [H|H];
    [unfold ULP_METADATA_BUF_LEN in H; lia|].
  destruct (Z.ltb_spec (zlen data) 33); [reflexivity|lia].
Qed.
Print Assumptions C21_short_section_refuted.
