(** C78: ulp packer, from the description to the sections of the container. *)
From Coq Require Import String.
From Verif Require Import Base BaseFacts StrModel MetaModel MetaSpec MetaProofs MetaProps DscModel DscSpec DscProofs DscProps
  LibModel LibSpec DlModel NtModel NtSpec NtProps Md4Model Md4Spec Md4Props PtModel PostModel PackModel PackSpec PackProofs.

(** If everything works, the packer exits with 0, leaves no temporary file, changes no
    other section, and the container then asks for what the description says, under an
    ID made of the build ID of the container and the MD4 of the description; its
    reverse section asks for reverting that. *)
Theorem C78_description_to_request : forall fuel e d container target ids bid post p s0 s1 s2 st path,
  desc_ok d -> no_overrides e -> readable e (dd_container d) container -> readable e (dd_target d) target ->
  so_ok container -> so_ok target ->
  Forall2 (dep_means e) (dd_deps d) ids -> Forall id_ok ids -> Forall (item_exists container target) (dd_body d) ->
  zlen bid = 20 -> bytes_ok bid -> bytes_ok (file_of d) -> zlen (file_of d) < 2 ^ 31 -> padded (file_of d) p ->
  works s0 (zs ".ulp") -> works s1 (zs ".ulp.comments") -> works s2 (zs ".ulp.rev") ->
  new_tmp s0 st -> new_tmp s1 st -> new_tmp s2 st ->
  cstr_ok path -> path <> [] -> zlen path + 1 < PATH_MAX ->
  exists st' sec rev_sec md rv,
    run_packer (S fuel) e (file_of d) (Some (note_bytes (gnu_build_id bid) ++ post)) s0 s1 s2 st = PK_done 0 st' /\
    pk_tmps st' = pk_tmps st /\
    (forall n, ~ In n [zs ".ulp"; zs ".ulp.comments"; zs ".ulp.rev"] -> pk_secs st' n = pk_secs st n) /\
    (desc_comments d = [] -> pk_secs st' (zs ".ulp.comments") = pk_secs st (zs ".ulp.comments")) /\
    pk_secs st' (zs ".ulp") = Some sec /\ pk_secs st' (zs ".ulp.rev") = Some rev_sec /\
    request_of d container target ids path md /\ md_id md = firstn 16 bid ++ rfc_digest p /\ revert_of md rv /\
    (zlen sec + 4 + (zlen path + 1) < ULP_METADATA_BUF_LEN -> section_asks sec path md) /\
    (zlen rev_sec + 4 + (zlen path + 1) < ULP_METADATA_BUF_LEN -> section_asks rev_sec path rv).
Proof.
  intros fuel e d container target ids bid post p s0 s1 s2 st path D O Rc Rt Oc Ot Hd Hi Hx Lb Bb Bf Lf P W0 W1 W2 N0 N1 N2 Cp Np Lp.
  destruct (C22_patch_id bid (file_of d) p Bf Lf P) as (id & first & I1 & I2 & I3 & I4 & I5).
  assert (F16 : first = firstn 16 bid).
  { apply (nth_ext _ _ 0 0).
    - rewrite firstn_length, I4. unfold zlen in Lb. lia.
    - intros i Hlt. rewrite I4 in Hlt. rewrite I5 by exact Hlt.
      rewrite <- (firstn_skipn 16 bid) at 1. apply app_nth1. rewrite firstn_length. unfold zlen in Lb. lia. }
  destruct (C47_faithful e id d container target ids D O Rc Rt Hd Hx) as (pm & cm & Pk & M1 & M2 & M3 & M4 & M5 & M6 & M7 & M8 & M9 & M10).
  assert (PI : patch_id (S fuel) (Some (note_bytes (gnu_build_id bid) ++ post)) (file_of d) = Id_ok id).
  { unfold patch_id. rewrite (C42_packer_partial bid post fuel Lb Bb), I1. reflexivity. }
  destruct (run_packer_works (S fuel) e (file_of d) _ s0 s1 s2 st id pm cm Pk PI W0 W1 W2 N0 N1 N2) as (st' & R & T & X).
  assert (OK : pmeta_ok pm).
  { destruct Ot as (T1 & T2 & T3 & T4). pose proof (do_body d D) as DB. unfold pmeta_ok. rewrite M1, M2, M3, M4.
    split; [|split; [exact T2|split; [lia|split; [exact T3|]]]].
    - split; [exact I2|]. rewrite I3, F16. apply Forall_app. split; [exact (bytes_firstn 16 bid Bb)|].
      apply rfc_digest_bytes.
    - split; [exact M8|]. split; [eapply units_ok; [repeat split; eassumption|exact DB|exact M5]|].
      split; [exact M10|]. split.
      { apply Forall_rev in Hi. rewrite <- M7, rev_involutive in Hi. exact Hi. }
      split; [exact M9|]. assert (G : Forall ref_ok (rev (pm_refs pm))) by (eapply refs_ok; [exact Oc|repeat split; eassumption|exact DB|exact M6]).
      apply Forall_rev in G. rewrite rev_involutive in G. exact G. }
  exists st', (create_patch_metadata_file pm), (MetaModel.write_reverse_patch pm), (seen_patch pm path), (seen_reverse pm path).
  split; [exact R|]. split; [exact T|]. split; [|split; [|split; [|split; [|split; [|split; [|split; [|split]]]]]]].
  - intros n Hn. exact (run_frame _ _ _ _ _ _ _ _ _ _ n R Hn).
  - intros C. destruct (C47_comments_partial e id d container target ids pm cm D O Rc Rt Hd Pk) as [C1 _]. rewrite X, (C1 C). reflexivity.
  - rewrite X. reflexivity.
  - rewrite X. reflexivity.
  - constructor; cbn [seen_patch md_type md_so md_name md_bid md_units md_refs md_deps].
    + reflexivity.
    + reflexivity.
    + exact M2.
    + exact M3.
    + exact M5.
    + rewrite <- map_rev. induction M6 as [|i r is rs H H6 IH]; [constructor|]. constructor; [|exact IH].
      exists (pr_target r), (pr_name r). split; [reflexivity|]. split; [reflexivity|]. destruct r; exact H.
    + exact M7.
  - cbn [seen_patch md_id]. rewrite M1, I3, F16. reflexivity.
  - repeat split.
  - intros L. destruct (C18_metadata_roundtrip pm path OK Cp Np Lp L) as (b & B1 & _ & B2). exists b. auto.
  - intros L. exact (C20_reverse_identifies_patch pm path OK Cp Np Lp L).
Qed.
Print Assumptions C78_description_to_request.

(** For every input: if the packer exits with 0, then either nothing is wrong with the
    container, or objcopy failed, or the disk was full, or there was no temporary path
    for the metadata, or the comments could not be embedded (the findings below; the
    statement without these exceptions is false). *)
Theorem C78_success_partial : forall fuel e file note s0 s1 s2 st st',
  run_packer fuel e file note s0 s1 s2 st = PK_done 0 st' ->
  new_tmp s0 st -> new_tmp s1 st -> new_tmp s2 st ->
  exits_zero s0 -> exits_zero s1 -> exits_zero s2 ->
  sg_full s0 = None -> sg_full s1 = None -> sg_full s2 = None ->
  sg_tmp s0 <> None -> starts s1 (zs ".ulp.comments") ->
  exists id m cm,
    patch_id fuel note file = Id_ok id /\ pack e id file = D_ok (m, cm) /\ pk_tmps st' = pk_tmps st /\
    pk_secs st' (zs ".ulp") = Some (create_patch_metadata_file m) /\
    pk_secs st' (zs ".ulp.rev") = Some (MetaModel.write_reverse_patch m) /\
    (forall t, cm = Some t -> pk_secs st' (zs ".ulp.comments") = Some (t ++ [0])) /\
    (forall n, ~ In n [zs ".ulp"; zs ".ulp.comments"; zs ".ulp.rev"] -> pk_secs st' n = pk_secs st n).
Proof.
  intros fuel e file note s0 s1 s2 st st' R N0 N1 N2 X0 X1 X2 F0 F1 F2 T0 S1.
  assert (FR := fun n => run_frame _ _ _ _ _ _ _ _ _ _ n R). unfold run_packer in R.
  destruct (pack e (repeat 0 32) file) as [[m0 cm0]| |]; [|injection R; discriminate|discriminate].
  destruct (patch_id fuel note file) as [id| | |] eqn:PI; [|injection R; discriminate|discriminate|discriminate].
  destruct (pack e id file) as [[m cm]| |] eqn:PK; [|discriminate|discriminate].
  exists id, m, cm. split; [reflexivity|]. split; [exact PK|].
  destruct (sg_tmp s0) as [p0|] eqn:P0; [|contradiction]. destruct (sg_open s0) eqn:O0; cbn [negb] in R; [|injection R; discriminate].
  destruct (embed s0 _ _ _) as [[q|] sa] eqn:E; [|discriminate].
  destruct (Z.eqb_spec q 0) as [->|]; cbn [negb] in R; [|injection R; discriminate].
  destruct (embed_zero _ _ _ _ _ E) as (A1 & A2 & A3 & A4). unfold arg_len in A4. rewrite P0 in A4.
  assert (Z0 : starts s0 (zs ".ulp")) by (repeat split; try assumption; exists p0; split; [exact P0|exact A4]).
  rewrite embed_works in E by assumption. apply (f_equal snd) in E. cbn [snd] in E. subst sa. unfold written in R. rewrite F0 in R.
  set (st1 := rm_tmp (Some p0) (put_section (zs ".ulp") (create_patch_metadata_file m) (add_tmp (Some p0) st))) in *.
  assert (T1 : pk_tmps st1 = pk_tmps st) by exact (rm_add p0 st (N0 p0 P0)).
  assert (U1 : pk_secs st1 (zs ".ulp") = Some (create_patch_metadata_file m)) by reflexivity.
  clearbody st1.
  assert (FIN : forall b stx, (forall q, sg_tmp s2 = Some q -> ~ In q (pk_tmps stx)) -> finish_reverse s2 b m stx = PK_done 0 st' ->
    pk_tmps st' = pk_tmps stx /\ pk_secs st' = set3 (zs ".ulp.rev") (MetaModel.write_reverse_patch m) stx).
  { intros b stx NX H. destruct (finish_zero _ _ _ _ _ H) as [Z2 O2].
    assert (D : forall y, finish_reverse (mk_sg (sg_tmp s2) (sg_open s2) (sg_full s2) y (sg_there s2) (sg_loads s2) (sg_exec s2) (sg_wi s2)) b m stx =
                finish_reverse s2 b m stx) by reflexivity.
    destruct (finish_works (mk_sg (sg_tmp s2) (sg_open s2) (sg_full s2) false (sg_there s2) (sg_loads s2) (sg_exec s2) (sg_wi s2)) b m stx)
      as (sx & FX & TX & SX).
    - split; [exact Z2|]. split; [exact X2|]. auto.
    - exact NX.
    - rewrite D in FX. assert (sx = st') by congruence. subst sx. auto. }
  destruct cm as [t|].
  - unfold write_comments in R. destruct S1 as (B1 & B2 & B3 & p1 & P1 & B4). rewrite P1 in R.
    destruct (sg_open s1); cbn [negb] in R; [|injection R; discriminate]. destruct (sg_short s1); [discriminate|].
    rewrite embed_works in R by (try assumption; repeat split; try assumption; exists p1; split; assumption).
    change (0 =? 0) with true in R. cbn [negb] in R. unfold written in R. rewrite F1 in R.
    assert (NN : ~ In p1 (pk_tmps st1)) by (rewrite T1; exact (N1 p1 P1)).
    pose proof (rm_add p1 st1 NN) as T2.
    set (st2 := rm_tmp (Some p1) (put_section (zs ".ulp.comments") (t ++ [0]) (add_tmp (Some p1) st1))) in *.
    change (rm_tmp (Some p1) (add_tmp (Some p1) st1)) with (mk_pk (pk_secs st1) (pk_tmps st2)) in T2. cbn [pk_tmps] in T2.
    destruct (FIN (Some p1) st2) as [T3 X3]; [intros q Q; rewrite T2, T1; exact (N2 q Q)|exact R|].
    split; [congruence|]. rewrite X3. split; [exact U1|]. split; [reflexivity|]. split; [|rewrite X3 in FR; exact FR].
    intros t' Ht. injection Ht as <-. reflexivity.
  - destruct (FIN (Some p0) st1) as [T3 X3]; [intros q Q; rewrite T1; exact (N2 q Q)|exact R|].
    split; [congruence|]. rewrite X3. split; [exact U1|]. split; [reflexivity|]. split; [discriminate|rewrite X3 in FR; exact FR].
Qed.
Print Assumptions C78_success_partial.

(** A refused description, and a container without a usable build ID: status 1, and
    nothing is changed. *)
Theorem C78_refused : forall fuel e file note s0 s1 s2 st,
  pack e (repeat 0 32) file = D_err \/
  (exists x, pack e (repeat 0 32) file = D_ok x /\
     (note = None \/ exists n, note = Some n /\ packer_get_build_id fuel n = P_none)) ->
  run_packer fuel e file note s0 s1 s2 st = PK_done 1 st.
Proof.
  intros fuel e file note s0 s1 s2 st [H|(x & H & C)]; unfold run_packer; rewrite H; [reflexivity|]. unfold patch_id.
  destruct C as [->|(n & -> & ->)]; reflexivity.
Qed.
Print Assumptions C78_refused.

(** The metadata cannot be embedded, because objcopy is not there, or the container
    does not load, or the path is too long: status 1, and nothing is changed. *)
Theorem C78_embed_refused : forall fuel e file note s0 s1 s2 st id x p,
  pack e (repeat 0 32) file = D_ok x -> patch_id fuel note file = Id_ok id ->
  sg_tmp s0 = Some p -> ~ In p (pk_tmps st) -> sg_open s0 = true ->
  sg_there s0 = false \/ sg_loads s0 = false \/ 120 <= zlen (zs ".ulp") + 1 + zlen p ->
  exists st', run_packer fuel e file note s0 s1 s2 st = PK_done 1 st' /\
    pk_secs st' = pk_secs st /\ pk_tmps st' = pk_tmps st.
Proof.
  intros fuel e file note s0 s1 s2 st id [m0 cm] p P I T N O F. unfold run_packer. rewrite P, I.
  destruct (pack_id e file id _ m0 cm P) as (m & -> & _). rewrite T, O. cbn [negb].
  destruct (embed s0 _ _ _) as [r sa] eqn:E. assert (G : exists q, r = E_ret q /\ q <> 0).
  { unfold embed, embed_patch_metadata_into_elf, arg_len in E. rewrite T in E.
    destruct (sg_there s0); cbn [negb] in E; [|exists ENOENT; split; [congruence|discriminate]].
    destruct (sg_loads s0); cbn [negb] in E; [|exists EINVAL; split; [congruence|discriminate]].
    destruct F as [F|[F|F]]; [discriminate|discriminate|]. apply Z.leb_le in F. rewrite F in E.
    exists EOVERFLOW; split; [congruence|discriminate]. }
  destruct G as (q & -> & Q). pose proof (embed_fail _ _ _ _ _ _ E Q) as ->. destruct (Z.eqb_spec q 0); [contradiction|]. cbn [negb].
  eexists. split; [reflexivity|]. rewrite rm_secs, add_secs. split; [reflexivity|]. exact (rm_add p st N).
Qed.
Print Assumptions C78_embed_refused.

(** No file for the comments can be made: status 1. *)
Theorem C78_comment_file_refused : forall fuel e file note s0 s1 s2 st id m t,
  patch_id fuel note file = Id_ok id -> pack e id file = D_ok (m, Some t) ->
  works s0 (zs ".ulp") -> new_tmp s0 st ->
  sg_tmp s1 = None \/ sg_open s1 = false ->
  exists st', run_packer fuel e file note s0 s1 s2 st = PK_done 1 st' /\
    pk_secs st' (zs ".ulp.comments") = pk_secs st (zs ".ulp.comments") /\
    pk_secs st' (zs ".ulp.rev") = pk_secs st (zs ".ulp.rev").
Proof.
  intros fuel e file note s0 s1 s2 st id m t PI PK W N C1. unfold run_packer. destruct (pack_id e file (repeat 0 32) id _ _ PK) as (m0 & P0 & _). rewrite P0.
  rewrite PI, PK. destruct (stage_works s0 (zs ".ulp") (create_patch_metadata_file m) st W N) as (E & T & X).
  destruct W as ((_ & _ & _ & p & Ep & _) & _ & O & _). rewrite Ep in *. rewrite O. cbn [negb]. rewrite E.
  change (0 =? 0) with true. cbn [negb]. unfold write_comments.
  set (st1 := rm_tmp (Some p) _) in *. clearbody st1.
  assert (X1 : pk_secs st1 (zs ".ulp.comments") = pk_secs st (zs ".ulp.comments")) by (rewrite X; reflexivity).
  assert (X2 : pk_secs st1 (zs ".ulp.rev") = pk_secs st (zs ".ulp.rev")) by (rewrite X; reflexivity).
  destruct (sg_tmp s1) as [p1|].
  - destruct C1 as [C1|C1]; [discriminate|]. rewrite C1. cbn [negb]. eexists. split; [reflexivity|]. rewrite rm_secs, add_secs. split; assumption.
  - eexists. split; [reflexivity|]. rewrite add_secs. split; assumption.
Qed.
Print Assumptions C78_comment_file_refused.

(** Whatever happens, only the three sections change. *)
Theorem C78_other_sections : forall fuel e file note s0 s1 s2 st r st' n,
  run_packer fuel e file note s0 s1 s2 st = PK_done r st' ->
  ~ In n [zs ".ulp"; zs ".ulp.comments"; zs ".ulp.rev"] -> pk_secs st' n = pk_secs st n.
Proof. exact run_frame. Qed.
Print Assumptions C78_other_sections.

(** ** Findings *)

(** The comments cannot be embedded (the container cannot be loaded any more, say): the
    packer reports success, and the section for reverting is that of before. *)
Theorem C78_comment_failure_refuted : forall fuel e file note s0 s1 s2 st id m t,
  patch_id fuel note file = Id_ok id -> pack e id file = D_ok (m, Some t) ->
  works s0 (zs ".ulp") -> new_tmp s0 st ->
  (exists p, sg_tmp s1 = Some p) -> sg_open s1 = true -> sg_short s1 = false -> sg_loads s1 = false ->
  exists st', run_packer fuel e file note s0 s1 s2 st = PK_done 0 st' /\
    pk_secs st' (zs ".ulp") = Some (create_patch_metadata_file m) /\
    pk_secs st' (zs ".ulp.comments") = pk_secs st (zs ".ulp.comments") /\
    pk_secs st' (zs ".ulp.rev") = pk_secs st (zs ".ulp.rev").
Proof.
  intros fuel e file note s0 s1 s2 st id m t PI PK W N (p1 & P1) O1 S1 L1. unfold run_packer. destruct (pack_id e file (repeat 0 32) id _ _ PK) as (m0 & P0 & _). rewrite P0.
  rewrite PI, PK. destruct (stage_works s0 (zs ".ulp") (create_patch_metadata_file m) st W N) as (E & T & X).
  destruct W as ((_ & _ & _ & p & Ep & _) & _ & O & _). rewrite Ep in *. rewrite O. cbn [negb]. rewrite E.
  change (0 =? 0) with true. cbn [negb]. unfold write_comments. rewrite P1, O1, S1. cbn [negb].
  set (st1 := rm_tmp (Some p) _) in *. clearbody st1.
  destruct (embed s1 _ _ _) as [r sa] eqn:E1. assert (G : exists q, r = E_ret q /\ q <> 0).
  { unfold embed, embed_patch_metadata_into_elf in E1. rewrite L1 in E1.
    destruct (sg_there s1); cbn [negb] in E1; [exists EINVAL|exists ENOENT]; split; (congruence || discriminate). }
  destruct G as (q & -> & Q). pose proof (embed_fail _ _ _ _ _ _ E1 Q) as ->. destruct (Z.eqb_spec q 0); [contradiction|]. cbn [negb].
  eexists. split; [reflexivity|]. rewrite rm_secs, add_secs, X. repeat split.
Qed.
Print Assumptions C78_comment_failure_refuted.

(** The last stage fails: status 1, but the container asks for the new patch, and its
    section for reverting is that of before. *)
Theorem C78_half_packed_refuted : forall fuel e file note s0 s1 s2 st id m,
  patch_id fuel note file = Id_ok id -> pack e id file = D_ok (m, None) ->
  works s0 (zs ".ulp") -> new_tmp s0 st -> sg_open s2 = false ->
  exists st', run_packer fuel e file note s0 s1 s2 st = PK_done 1 st' /\
    pk_secs st' (zs ".ulp") = Some (create_patch_metadata_file m) /\
    pk_secs st' (zs ".ulp.rev") = pk_secs st (zs ".ulp.rev").
Proof.
  intros fuel e file note s0 s1 s2 st id m PI PK W N O2. unfold run_packer. destruct (pack_id e file (repeat 0 32) id _ _ PK) as (m0 & P0 & _). rewrite P0.
  rewrite PI, PK. destruct (stage_works s0 (zs ".ulp") (create_patch_metadata_file m) st W N) as (E & T & X).
  destruct W as ((_ & _ & _ & p & Ep & _) & _ & O & _). rewrite Ep in *. rewrite O. cbn [negb]. rewrite E.
  change (0 =? 0) with true. cbn [negb]. unfold finish_reverse, write_reverse. rewrite O2. cbn [negb].
  set (st1 := rm_tmp (Some p) _) in *. clearbody st1.
  destruct (sg_tmp s2); (eexists; split; [reflexivity|]; rewrite rm_secs, add_secs, X; split; reflexivity).
Qed.
Print Assumptions C78_half_packed_refuted.

(** objcopy fails, every time: status 0, and the container is as it was. *)
Theorem C78_objcopy_failure_refuted : forall fuel e file note s0 s1 s2 st id m,
  patch_id fuel note file = Id_ok id -> pack e id file = D_ok (m, None) ->
  starts s0 (zs ".ulp") -> starts s2 (zs ".ulp.rev") -> sg_open s0 = true -> sg_open s2 = true ->
  ~ exits_zero s0 -> ~ exits_zero s2 ->
  exists st', run_packer fuel e file note s0 s1 s2 st = PK_done 0 st' /\ pk_secs st' = pk_secs st.
Proof.
  intros fuel e file note s0 s1 s2 st id m PI PK S0 S2 O0 O2 X0 X2. unfold run_packer. destruct (pack_id e file (repeat 0 32) id _ _ PK) as (m0 & P0 & _). rewrite P0.
  rewrite PI, PK.
  assert (G : forall s name c sx, starts s name -> ~ exits_zero s -> embed s name c sx = (E_ret 0, sx)).
  { intros s name c sx (A & B & C & p & D & F) NX. unfold embed, embed_patch_metadata_into_elf, arg_len. rewrite A, B, C, D. cbn [negb andb].
    replace (120 <=? zlen name + 1 + zlen p) with false by (symmetry; apply Z.leb_gt; lia).
    replace (objcopy_did s) with false.
    - rewrite andb_false_r. destruct c; destruct (WIFEXITED (sg_wi s)); reflexivity.
    - symmetry. apply Bool.not_true_is_false. intros H. apply NX. unfold objcopy_did, WIFEXITED, WEXITSTATUS in H.
      apply andb_prop in H. destruct H as [H1 H2]. split; apply Z.eqb_eq; assumption. }
  rewrite (G s0) by assumption. destruct S0 as (_ & _ & _ & p & Ep & _). rewrite Ep, O0. cbn [negb]. change (0 =? 0) with true. cbn [negb].
  unfold finish_reverse, write_reverse. rewrite (G s2) by assumption. destruct S2 as (_ & _ & _ & p2 & Ep2 & _). rewrite Ep2, O2. cbn [negb].
  change (0 =? 0) with true. eexists. split; [reflexivity|]. reflexivity.
Qed.
Print Assumptions C78_objcopy_failure_refuted.

(** The disk is full: status 0, and the section is cut off. *)
Theorem C78_disk_full_refuted : forall fuel e file note s0 s1 s2 st id m k,
  patch_id fuel note file = Id_ok id -> pack e id file = D_ok (m, None) ->
  starts s0 (zs ".ulp") -> starts s2 (zs ".ulp.rev") -> exits_zero s0 -> exits_zero s2 ->
  sg_open s0 = true -> sg_open s2 = true -> sg_full s0 = Some k ->
  exists st', run_packer fuel e file note s0 s1 s2 st = PK_done 0 st' /\
    pk_secs st' (zs ".ulp") = Some (firstn k (create_patch_metadata_file m)).
Proof.
  intros fuel e file note s0 s1 s2 st id m k PI PK S0 S2 X0 X2 O0 O2 FU. unfold run_packer. destruct (pack_id e file (repeat 0 32) id _ _ PK) as (m0 & P0 & _). rewrite P0.
  rewrite PI, PK. pose proof S0 as (_ & _ & _ & p & Ep & _). rewrite Ep, O0. cbn [negb].
  rewrite embed_works by assumption. change (0 =? 0) with true. cbn [negb].
  pose proof S2 as (_ & _ & _ & p2 & Ep2 & _). unfold finish_reverse, write_reverse. rewrite Ep2, O2. cbn [negb].
  rewrite embed_works by assumption. change (0 =? 0) with true. eexists. split; [reflexivity|]. unfold written. rewrite FU. reflexivity.
Qed.
Print Assumptions C78_disk_full_refuted.

(** The temporary file cannot be opened: it stays. *)
Theorem C78_temporary_left_refuted : forall fuel e file note s0 s1 s2 st id m cm p,
  patch_id fuel note file = Id_ok id -> pack e id file = D_ok (m, cm) -> sg_tmp s0 = Some p -> sg_open s0 = false ->
  exists st', run_packer fuel e file note s0 s1 s2 st = PK_done 1 st' /\ pk_secs st' = pk_secs st /\ pk_tmps st' = p :: pk_tmps st.
Proof.
  intros fuel e file note s0 s1 s2 st id m cm p PI PK T O. unfold run_packer. destruct (pack_id e file (repeat 0 32) id _ _ PK) as (m0 & P0 & _). rewrite P0.
  rewrite PI, PK, T, O. cbn [negb]. eexists. split; [reflexivity|]. split; reflexivity.
Qed.
Print Assumptions C78_temporary_left_refuted.

(** Packing a description without comments into a container that has comments: they
    stay, although they are those of another description. *)
Theorem C78_stale_comments_refuted : forall fuel e d container target ids bid post p s0 s1 s2 st old,
  desc_ok d -> no_overrides e -> readable e (dd_container d) container -> readable e (dd_target d) target ->
  so_ok container -> so_ok target ->
  Forall2 (dep_means e) (dd_deps d) ids -> Forall id_ok ids -> Forall (item_exists container target) (dd_body d) ->
  zlen bid = 20 -> bytes_ok bid -> bytes_ok (file_of d) -> zlen (file_of d) < 2 ^ 31 -> padded (file_of d) p ->
  works s0 (zs ".ulp") -> works s1 (zs ".ulp.comments") -> works s2 (zs ".ulp.rev") ->
  new_tmp s0 st -> new_tmp s1 st -> new_tmp s2 st ->
  desc_comments d = [] -> pk_secs st (zs ".ulp.comments") = Some old ->
  exists st',
    run_packer (S fuel) e (file_of d) (Some (note_bytes (gnu_build_id bid) ++ post)) s0 s1 s2 st = PK_done 0 st' /\
    pk_secs st' (zs ".ulp.comments") = Some old.
Proof.
  intros. destruct (C78_description_to_request fuel e d container target ids bid post p s0 s1 s2 st (zs "x.so"))
    as (st' & sec & rs & md & rv & R & _ & _ & C & _); try assumption.
  - repeat constructor; unfold is_cchar; cbn; lia.
  - discriminate.
  - vm_compute. reflexivity.
  - exists st'. split; [exact R|]. rewrite (C ltac:(assumption)). assumption.
Qed.
Print Assumptions C78_stale_comments_refuted.

(** ** Cases: the description of C47, with and without its comments *)
Definition c78_sg : sgenv := mk_sg (Some (zs "/tmp/ulp-42")) true None false true true true 0.
Definition c78_bid : list Z := repeat 3 20.
Definition c78_st : pkstate :=
  mk_pk (fun n => if bytes_eqb n (zs ".text") then Some [1; 2; 3] else if bytes_eqb n (zs ".ulp.comments") then Some (zs "old" ++ [0]) else None)
        [zs "/tmp/ulp-7"].
Definition c78_quiet : desc :=
  mk_desc [] (zs "lp.so") [zs "dep.ulp"] [] (zs "libx.so") [DFunc (zs "f") (zs "f_new"); DRef true (zs "v") (zs "v_ref")].

Lemma c78_works name : zlen name < 100 -> works c78_sg name.
Proof.
  intros L. split; [|repeat split]. repeat split. exists (zs "/tmp/ulp-42"). split; [reflexivity|]. change (zlen (zs "/tmp/ulp-42")) with 11. lia.
Qed.
Lemma c78_new : new_tmp c78_sg c78_st.
Proof. intros p P. injection P as <-. intros [C|[]]. discriminate C. Qed.
Lemma c78_so : so_ok c47_container /\ so_ok c47_target.
Proof.
  split; (split; [reflexivity|]; split; [repeat constructor; unfold is_byte; lia|]; split;
    [repeat constructor; unfold is_cchar; cbn; lia|repeat constructor; cbn; lia]).
Qed.
Lemma c78_bytes d : forallb (fun b => (0 <=? b) && (b <? 256)) (file_of d) = true -> bytes_ok (file_of d).
Proof.
  intros H. apply Forall_forall. intros x I. rewrite forallb_forall in H. specialize (H x I). unfold is_byte. lia.
Qed.
Lemma c78_quiet_ok : desc_ok c78_quiet.
Proof.
  constructor.
  - split; constructor.
  - split; [split; [chars|no_in]|split; [discriminate|no_start]].
  - constructor; [split; [chars|no_in]|constructor].
  - split; constructor.
  - split; [split; [chars|no_in]|vm_compute; reflexivity].
  - cbn [c78_quiet dd_body]. constructor; [|constructor; [|constructor]].
    + split; [name|split; [name|]]. repeat split; no_start.
    + split; [name|split; [name|]]. discriminate.
Qed.

Example C78_description_to_request_case :
  exists p st' sec rev_sec md rv,
    padded (file_of c47_desc) p /\
    run_packer 1 c47_env (file_of c47_desc) (Some (note_bytes (gnu_build_id c78_bid))) c78_sg c78_sg c78_sg c78_st = PK_done 0 st' /\
    pk_tmps st' = [zs "/tmp/ulp-7"] /\ pk_secs st' (zs ".text") = Some [1; 2; 3] /\
    pk_secs st' (zs ".ulp") = Some sec /\ pk_secs st' (zs ".ulp.rev") = Some rev_sec /\
    request_of c47_desc c47_container c47_target [repeat 5 32] (zs "/lp/lp.so") md /\ md_id md = repeat 3 16 ++ rfc_digest p /\
    section_asks sec (zs "/lp/lp.so") md /\ revert_of md rv /\ section_asks rev_sec (zs "/lp/lp.so") rv.
Proof.
  destruct C47_case_hyps as (D & O & Rc & Rt & Hd & Hx & _). destruct c78_so as [Oc Ot].
  assert (B : bytes_ok (file_of c47_desc)) by (apply c78_bytes; vm_compute; reflexivity).
  destruct (C22_md4_is_rfc1320 (file_of c47_desc) B) as [(p & P) _]; [vm_compute; reflexivity|].
  assert (BB : bytes_ok c78_bid) by (repeat constructor; unfold is_byte; lia).
  assert (IO : Forall id_ok [repeat 5 32]) by (constructor; [split; [reflexivity|repeat constructor; unfold is_byte; lia]|constructor]).
  assert (CP : cstr_ok (zs "/lp/lp.so")) by (repeat constructor; unfold is_cchar; cbn; lia).
  destruct (C78_description_to_request 0 c47_env c47_desc c47_container c47_target [repeat 5 32] c78_bid [] p c78_sg c78_sg c78_sg c78_st (zs "/lp/lp.so")
    D O Rc Rt Oc Ot Hd IO Hx eq_refl BB B eq_refl P (c78_works (zs ".ulp") eq_refl) (c78_works (zs ".ulp.comments") eq_refl)
    (c78_works (zs ".ulp.rev") eq_refl) c78_new c78_new c78_new CP ltac:(discriminate) eq_refl)
    as (st' & sec & rs & md & rv & R & T & F & _ & S1 & S2 & RQ & ID & RV & A1 & A2).
  rewrite app_nil_r in R.
  assert (X : exists sx, run_packer 1 c47_env (file_of c47_desc) (Some (note_bytes (gnu_build_id c78_bid))) c78_sg c78_sg c78_sg c78_st = PK_done 0 sx /\
    option_map zlen (pk_secs sx (zs ".ulp")) = Some 227 /\ option_map zlen (pk_secs sx (zs ".ulp.rev")) = Some 68).
  { eexists. split; [exact R|]. rewrite S1, S2.
    assert (W : forall z, run_packer 1 c47_env (file_of c47_desc) (Some (note_bytes (gnu_build_id c78_bid))) c78_sg c78_sg c78_sg c78_st = PK_done 0 z ->
      option_map zlen (pk_secs z (zs ".ulp")) = Some 227 /\ option_map zlen (pk_secs z (zs ".ulp.rev")) = Some 68).
    { intros z Z0. assert (V : match run_packer 1 c47_env (file_of c47_desc) (Some (note_bytes (gnu_build_id c78_bid))) c78_sg c78_sg c78_sg c78_st with
        | PK_done _ z => option_map zlen (pk_secs z (zs ".ulp")) = Some 227 /\ option_map zlen (pk_secs z (zs ".ulp.rev")) = Some 68 | _ => True end)
        by (vm_compute; split; reflexivity). rewrite Z0 in V. exact V. }
    rewrite <- S1, <- S2. exact (W st' R). }
  destruct X as (sx & Rx & L1 & L2). assert (sx = st') by congruence. subst sx. rewrite S1 in L1. rewrite S2 in L2. cbn [option_map] in L1, L2.
  apply Some_inj in L1. apply Some_inj in L2.
  exists p, st', sec, rs, md, rv. split; [exact P|]. split; [exact R|]. split; [exact T|].
  split; [rewrite F; [reflexivity|intros [C|[C|[C|[]]]]; discriminate C]|].
  split; [exact S1|]. split; [exact S2|]. split; [exact RQ|]. split; [exact ID|].
  assert (LP : zlen (zs "/lp/lp.so") = 9) by reflexivity.
  split; [apply A1; rewrite L1, LP; reflexivity|]. split; [exact RV|]. apply A2. rewrite L2, LP. reflexivity.
Qed.

(** Failures: each case runs. *)
Definition c78_run (d : desc) (s0 s1 s2 : sgenv) : pkres :=
  run_packer 1 c47_env (file_of d) (Some (note_bytes (gnu_build_id c78_bid))) s0 s1 s2 c78_st.
Definition status_of (r : pkres) : option Z := match r with PK_done s _ => Some s | _ => None end.
Definition len_of (n : list Z) (r : pkres) : option Z :=
  match r with PK_done _ st => option_map zlen (pk_secs st n) | _ => None end.
Definition tmps_of (r : pkres) : list (list Z) := match r with PK_done _ st => pk_tmps st | _ => [] end.
Definition noload := mk_sg (Some (zs "/tmp/ulp-43")) true None false true false true 0.
Definition noopen := mk_sg (Some (zs "/tmp/ulp-44")) false None false true true true 0.
Definition nocopy := mk_sg (Some (zs "/tmp/ulp-45")) true None false true true true 256.
Definition nospace := mk_sg (Some (zs "/tmp/ulp-46")) true (Some 40%nat) false true true true 0.

Example C78_success_partial_case : (* and C78_other_sections *)
  status_of (c78_run c78_quiet c78_sg c78_sg c78_sg) = Some 0 /\ tmps_of (c78_run c78_quiet c78_sg c78_sg c78_sg) = [zs "/tmp/ulp-7"] /\
  works c78_sg (zs ".ulp.comments") /\ new_tmp c78_sg c78_st.
Proof. split; [vm_compute; reflexivity|]. split; [vm_compute; reflexivity|]. split; [apply c78_works; reflexivity|apply c78_new]. Qed.

Example C78_refused_case :
  pack c47_env (repeat 0 32) (zs "nosuch.so" ++ [10]) = D_err /\
  run_packer 1 c47_env (file_of c78_quiet) None c78_sg c78_sg c78_sg c78_st = PK_done 1 c78_st.
Proof.
  split; [vm_compute; reflexivity|]. apply C78_refused. right.
  assert (H : match pack c47_env (repeat 0 32) (file_of c78_quiet) with D_ok _ => True | _ => False end) by (vm_compute; exact I).
  destruct (pack c47_env (repeat 0 32) (file_of c78_quiet)) as [x| |]; [|destruct H|destruct H]. exists x. auto.
Qed.

Example C78_embed_refused_case : status_of (c78_run c78_quiet noload c78_sg c78_sg) = Some 1 /\
  len_of (zs ".ulp") (c78_run c78_quiet noload c78_sg c78_sg) = None /\ tmps_of (c78_run c78_quiet noload c78_sg c78_sg) = [zs "/tmp/ulp-7"].
Proof. vm_compute. repeat split. Qed.

(** Success, but there is no section to revert with. *)
Example C78_comment_failure_refuted_case : status_of (c78_run c47_desc c78_sg noload c78_sg) = Some 0 /\
  len_of (zs ".ulp") (c78_run c47_desc c78_sg noload c78_sg) = Some 227 /\ len_of (zs ".ulp.rev") (c78_run c47_desc c78_sg noload c78_sg) = None.
Proof. vm_compute. repeat split. Qed.

Example C78_half_packed_refuted_case : status_of (c78_run c78_quiet c78_sg c78_sg noopen) = Some 1 /\
  len_of (zs ".ulp") (c78_run c78_quiet c78_sg c78_sg noopen) <> None /\ len_of (zs ".ulp.rev") (c78_run c78_quiet c78_sg c78_sg noopen) = None.
Proof. vm_compute. repeat split. discriminate. Qed.

Example C78_objcopy_failure_refuted_case : ~ exits_zero nocopy /\ status_of (c78_run c78_quiet nocopy c78_sg nocopy) = Some 0 /\
  len_of (zs ".ulp") (c78_run c78_quiet nocopy c78_sg nocopy) = None.
Proof. split; [intros [_ C]; vm_compute in C; discriminate|]. vm_compute. repeat split. Qed.

Example C78_disk_full_refuted_case : status_of (c78_run c78_quiet nospace c78_sg c78_sg) = Some 0 /\
  len_of (zs ".ulp") (c78_run c78_quiet nospace c78_sg c78_sg) = Some 40.
Proof. vm_compute. repeat split. Qed.

Example C78_temporary_left_refuted_case : tmps_of (c78_run c78_quiet noopen c78_sg c78_sg) = [zs "/tmp/ulp-44"; zs "/tmp/ulp-7"].
Proof. vm_compute. reflexivity. Qed.

Example C78_stale_comments_refuted_case : desc_ok c78_quiet /\ desc_comments c78_quiet = [] /\ status_of (c78_run c78_quiet c78_sg c78_sg c78_sg) = Some 0 /\
  len_of (zs ".ulp.comments") (c78_run c78_quiet c78_sg c78_sg c78_sg) = Some 4.
Proof. split; [exact c78_quiet_ok|]. split; [reflexivity|]. vm_compute. split; reflexivity. Qed.
