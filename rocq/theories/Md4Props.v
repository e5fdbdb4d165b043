(** Property theorems about patch IDs: C22. *)
From Coq Require Import String.
From Verif Require Import Base BaseFacts StrModel Md4Model Md4Spec Md4Proofs.

(** C22: for every description file the digest is the MD4 of RFC 1320, and no
    access leaves a buffer. *)
Theorem C22_md4_is_rfc1320 :
  forall msg, bytes_ok msg -> zlen msg < 2 ^ 61 ->
    (exists p, padded msg p) /\
    forall p, padded msg p -> MD4 msg = Some (rfc_digest p).
Proof.
  intros msg B L. destruct (MD4_ok msg B L) as (p & P & E). split; [exists p; exact P|].
  intros p' P'. rewrite (padded_fun msg p' p P' P). exact E.
Qed.
Print Assumptions C22_md4_is_rfc1320.

(** The test suite of RFC 1320, A.5, and lengths around the block size. *)
Example C22_md4_case :
  MD4 [] = Some [0x31;0xd6;0xcf;0xe0;0xd1;0x6a;0xe9;0x31;0xb7;0x3c;0x59;0xd7;0xe0;0xc0;0x89;0xc0] /\
  MD4 (zs "abc") = Some [0xa4;0x48;0x01;0x7a;0xaf;0x21;0xd8;0x52;0x5f;0xc1;0x0a;0xe8;0x7a;0xa6;0x72;0x9d] /\
  MD4 (zs "12345678901234567890123456789012345678901234567890123456789012345678901234567890")
    = Some [0xe3;0x3b;0x4d;0xdc;0x9c;0x38;0xf2;0x19;0x9c;0x3e;0x7b;0x16;0x4f;0xcc;0x05;0x36] /\
  padded (zs "abc") (zs "abc" ++ [128] ++ repeat 0 52 ++ [24;0;0;0;0;0;0;0]) /\
  rfc_digest (zs "abc" ++ [128] ++ repeat 0 52 ++ [24;0;0;0;0;0;0;0])
    = [0xa4;0x48;0x01;0x7a;0xaf;0x21;0xd8;0x52;0x5f;0xc1;0x0a;0xe8;0x7a;0xa6;0x72;0x9d].
Proof.
  split; [vm_compute; reflexivity|]. split; [vm_compute; reflexivity|]. split; [vm_compute; reflexivity|].
  split; [|vm_compute; reflexivity].
  exists 52%nat. split; [reflexivity|]. split; [reflexivity|].
  intros f. change (zlen (zs "abc")) with 3. intros F. zdm.
Qed.

(** C22: the 32-byte patch ID is the first 16 bytes of the live patch's build
    ID, filled up with zeros, followed by the digest of the description. *)
Theorem C22_patch_id :
  forall build_id description p,
    bytes_ok description -> zlen description < 2 ^ 31 -> padded description p ->
    exists id first,
      write_patch_id build_id description = Some id /\ length id = 32%nat /\
      id = first ++ rfc_digest p /\ length first = 16%nat /\
      forall i, (i < 16)%nat -> nth i first 0 = nth i build_id 0.
Proof.
  intros bid desc p B L P.
  destruct (C22_md4_is_rfc1320 desc B ltac:(lia)) as [_ M]. unfold write_patch_id. rewrite (M p P).
  set (len := if 16 <? zlen bid then 16 else zlen bid).
  set (w := firstn (Z.to_nat len) bid ++ skipn (Z.to_nat len) (repeat 0 32)).
  assert (Len : 0 <= len <= 16 /\ len <= zlen bid /\ (len < 16 -> len = zlen bid)).
  { unfold len. pose proof (zlen_nonneg bid). destruct (Z.ltb_spec 16 (zlen bid)); lia. }
  assert (Lw : length w = 32%nat).
  { unfold w. rewrite app_length, firstn_length, skipn_length, repeat_length. unfold zlen in *. lia. }
  assert (Ld : length (rfc_digest p) = 16%nat).
  { unfold rfc_digest. destruct (fold_left _ _ _) as [[[a b] c] d].
    rewrite !app_length, !le_enc_length. reflexivity. }
  assert (F16 : firstn 16 (rfc_digest p) = rfc_digest p) by (apply firstn_all2; rewrite Ld; apply le_n).
  rewrite F16. assert (S32 : skipn (16 + 16) w = []) by (apply skipn_all2; rewrite Lw; apply le_n).
  rewrite S32, app_nil_r.
  exists (firstn 16 w ++ rfc_digest p), (firstn 16 w). split; [reflexivity|].
  assert (Lf : length (firstn 16 w) = 16%nat) by (rewrite firstn_length, Lw; reflexivity).
  split; [rewrite app_length, Lf, Ld; reflexivity|]. split; [reflexivity|]. split; [exact Lf|].
  intros i Hi. rewrite nth_firstn_lt by exact Hi. unfold w.
  destruct (Nat.lt_ge_cases i (Z.to_nat len)).
  - rewrite app_nth1 by (rewrite firstn_length; unfold zlen in *; lia). apply nth_firstn_lt. lia.
  - rewrite app_nth2 by (rewrite firstn_length; unfold zlen in *; lia).
    rewrite nth_skipn, nth_repeat. symmetry. apply nth_overflow. unfold zlen in *. lia.
Qed.
Print Assumptions C22_patch_id.

Example C22_patch_id_case :
  write_patch_id [1;2;3] (zs "abc")
  = Some ([1;2;3;0;0;0;0;0;0;0;0;0;0;0;0;0] ++
          [0xa4;0x48;0x01;0x7a;0xaf;0x21;0xd8;0x52;0x5f;0xc1;0x0a;0xe8;0x7a;0xa6;0x72;0x9d]) /\
  option_map (firstn 16) (write_patch_id (map Z.of_nat (seq 0 20)) (zs "abc")) = Some (map Z.of_nat (seq 0 16)).
Proof. vm_compute. auto. Qed.
