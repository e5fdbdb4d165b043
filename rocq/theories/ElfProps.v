(** Property theorems about libpulp's ELF reader and its gdb interface (C70, C71). *)
From Coq Require Import String.
From Verif Require Import Base BaseFacts StrModel InsnQModel InsnQSpec InsnQProofs InsnQLibProofs MetaModel MetaSpec
  MetaProofs MetaProps X86Model X86Spec DlModel LibModel LibSpec LibProofs LibInv LibMem LibExample LibMore LibProps
  ElfModel ElfSpec ElfProofs.

(** ** C70 *)

(** C70: from a well-formed file whose table of names is not longer than 1280 bytes,
    the section of the given name is read exactly, when it is not empty and fits. *)
Theorem C70_section_exact_partial :
  forall (file name data : list Z) (dest : Z),
    elf_ok 1280 file -> cstr_ok name -> has_section file name data ->
    0 < zlen data <= dest ->
    Get_Elf_Section dest name (Some file) = (false, G_ok data).
Proof.
  intros file name data dest H Hc (i & Hi & Hn & Hf & Hin & Hd) Hz.
  pose proof (ok_bytes _ _ H) as Hb. pose proof (ok_len _ _ H) as Hl.
  assert (0 <= sec_off file i) by (apply num_nonneg; exact Hb).
  assert (0 <= sec_size file i) by (apply num_nonneg; exact Hb).
  assert (Hs : zlen data = sec_size file i) by (rewrite <- Hd; apply bytes_at_len; assumption).
  destruct (section_cases file name dest H Hc) as [(j & Hj & Hnj & Hfj & pos & Hp & E)|(No & _)].
  2:{ exfalso. exact (No i Hi Hn). }
  assert (j = i). { destruct (Z.lt_trichotomy j i) as [C|[C|C]]; [exfalso; apply (Hf j); [lia|exact Hnj]|exact C|
    exfalso; apply (Hfj i); [lia|exact Hn]]. }
  subst j. rewrite E. rewrite Z.gtb_ltb. destruct (Z.ltb_spec dest (sec_size file i)); [lia|]. cbv zeta.
  unfold sec_inside in Hin. rewrite seek_small by lia. rewrite rd_at. fold (sec_data file i). rewrite Hd, Hs, Z.eqb_refl. cbn [negb orb].
  destruct (Z.eqb_spec (sec_size file i) 0); [lia|reflexivity].
Qed.
Print Assumptions C70_section_exact_partial.

(** From such a file nothing else is ever taken for the section: what is
    returned is the whole content of the first section of that name, or EINVAL; it is EINVAL
    when there is no such section, or when it is empty, does not fit or is cut off.
    Sections at an offset of 2^63 or more are left out, see
    [C70_negative_offset_refuted]. *)
Theorem C70_answers_partial :
  forall (file name : list Z) (dest : Z),
    elf_ok 1280 file -> cstr_ok name ->
    (forall i, 0 <= i < e_shnum file -> sec_off file i < 2 ^ 63) ->
    (exists data, has_section file name data /\ 0 < zlen data <= dest /\
       Get_Elf_Section dest name (Some file) = (false, G_ok data)) \/
    ((forall data, has_section file name data -> zlen data = 0 \/ dest < zlen data) /\
     Get_Elf_Section dest name (Some file) = (false, G_err EINVAL)).
Proof.
  intros file name dest H Hc Ho.
  pose proof (ok_bytes _ _ H) as Hb. pose proof (ok_len _ _ H) as Hl.
  assert (U : forall data i, has_section file name data -> 0 <= i < e_shnum file -> sec_name file i name ->
            (forall k, 0 <= k < i -> ~ sec_name file k name) ->
            sec_inside file i /\ sec_data file i = data /\ zlen data = sec_size file i).
  { intros data i (j & Hj & Hnj & Hfj & Hin & Hd) Hi Hn Hf.
    assert (j = i). { destruct (Z.lt_trichotomy j i) as [C|[C|C]]; [exfalso; apply (Hf j); [lia|exact Hnj]|exact C|
      exfalso; apply (Hfj i); [lia|exact Hn]]. }
    subst j. split; [exact Hin|]. split; [exact Hd|]. rewrite <- Hd. unfold sec_data.
    apply bytes_at_len; [apply num_nonneg; exact Hb|apply num_nonneg; exact Hb|exact Hin]. }
  destruct (section_cases file name dest H Hc) as [(j & Hj & Hnj & Hfj & pos & Hp & E)|(No & E)].
  2:{ right. split; [|exact E]. intros data (i & Hi & Hn & _). exfalso. exact (No i Hi Hn). }
  assert (0 <= sec_off file j) by (apply num_nonneg; exact Hb).
  assert (0 <= sec_size file j) by (apply num_nonneg; exact Hb).
  rewrite E. rewrite seek_small by (apply Ho; exact Hj). rewrite rd_at. fold (sec_data file j). cbv zeta.
  rewrite Z.gtb_ltb. destruct (Z.ltb_spec dest (sec_size file j)) as [C|C].
  { right. split; [|reflexivity]. intros data Hd. destruct (U data j Hd Hj Hnj Hfj) as (_ & _ & L). lia. }
  destruct (Z.eqb_spec (zlen (sec_data file j)) (sec_size file j)) as [L|L]; cbn [negb orb].
  - destruct (Z.eqb_spec (sec_size file j) 0) as [S|S].
    + right. split; [|reflexivity]. intros data Hd. destruct (U data j Hd Hj Hnj Hfj) as (_ & _ & L'). lia.
    + left. exists (sec_data file j). split; [|split; [lia|reflexivity]].
      exists j. split; [exact Hj|]. split; [exact Hnj|]. split; [exact Hfj|]. split; [|reflexivity].
      unfold sec_inside. unfold sec_data, bytes_at, zlen in L. rewrite firstn_length, skipn_length in L. unfold zlen. lia.
  - right. split; [|reflexivity]. intros data Hd. destruct (U data j Hd Hj Hnj Hfj) as (Hin & Hd' & L').
    exfalso. apply L. rewrite Hd'. exact L'.
Qed.
Print Assumptions C70_answers_partial.

(** What cannot be opened is ENOENT, what is shorter than a header or does not start with the
    magic number is EINVAL. *)
Theorem C70_not_elf :
  forall (file name : list Z) (dest : Z),
    Get_Elf_Section dest name None = (false, G_err ENOENT) /\
    (zlen file < 64 \/ bytes_at file 0 4 <> [127; 69; 76; 70] ->
     Get_Elf_Section dest name (Some file) = (false, G_err EINVAL)).
Proof.
  intros file name dest. split; [reflexivity|]. intros H. unfold Get_Elf_Section, Elf_Parse_Ehdr.
  assert (L : zlen (rd file 0 64) = Z.min 64 (zlen file)).
  { unfold rd, zlen. rewrite firstn_length, skipn_length. lia. }
  rewrite L. destruct (Z.eqb_spec (Z.min 64 (zlen file)) 64) as [E|E]; cbn [negb]; [|reflexivity].
  destruct H as [H|H]; [lia|].
  replace (firstn 4 (rd file 0 64)) with (bytes_at file 0 4).
  2:{ unfold bytes_at, rd. cbn [Z.to_nat skipn]. rewrite firstn_firstn. reflexivity. }
  apply bytes_eqb_neq in H. rewrite H. reflexivity.
Qed.
Print Assumptions C70_not_elf.

(** An example file: the description [sample] in a section ".ulp". *)
Definition sample_file : list Z := elf_file (zs ".ulp") (create_patch_metadata_file sample) 0.

Lemma bytes_okb l : forallb (fun b => (0 <=? b) && (b <? 256)) l = true -> bytes_ok l.
Proof. intros H. unfold bytes_ok. apply Forall_forall. intros x Hx. rewrite forallb_forall in H. specialize (H x Hx). unfold is_byte. lia. Qed.

Lemma cstr_okb l : forallb (fun b => (0 <? b) && (b <? 256)) l = true -> cstr_ok l.
Proof. intros H. unfold cstr_ok. apply Forall_forall. intros x Hx. rewrite forallb_forall in H. specialize (H x Hx). unfold is_cchar. lia. Qed.

Ltac three i := match goal with H : 0 <= i < ?n |- _ => replace n with 3 in H by (vm_compute; reflexivity);
   assert (i = 0 \/ i = 1 \/ i = 2) as [-> | [-> | ->]] by lia end.

Lemma example_file_ok name data pad :
  let file := elf_file name data pad in
  bytes_ok file -> 64 <= zlen file < 2 ^ 63 -> bytes_at file 0 4 = [127; 69; 76; 70] ->
  e_shentsize file = 64 -> e_shoff file + 64 * 3 <= zlen file -> e_shnum file = 3 -> e_shstrndx file = 1 ->
  sec_inside file 1 -> sec_data file 1 = 0 :: zs ".shstrtab" ++ 0 :: name ++ 0 :: repeat 0 pad ->
  sec_name_off file 0 = 0 -> sec_name_off file 1 = 1 -> sec_name_off file 2 = 11 ->
  cstr_ok name ->
  elf_ok (sec_size file 1) file /\ sec_name file 2 name.
Proof.
  intros file H1 H2 H3 H4 H5 H6 H7 H8 H9 N0 N1 N2 Hc.
  assert (A2 : sec_name file 2 name).
  { split; [exact Hc|]. exists (0 :: zs ".shstrtab" ++ [0]), (repeat 0 pad).
    rewrite H7, H9, N2. split; [|reflexivity]. cbn [app]. rewrite <- app_assoc. reflexivity. }
  clearbody file. split; [|exact A2]. constructor; [exact H1|exact H2|exact H3|exact H4| | |].
  - rewrite H6. exact H5.
  - rewrite H7, H6. split; [lia|]. split; [exact H8|lia].
  - intros i Hi. rewrite H6 in Hi. assert (i = 0 \/ i = 1 \/ i = 2) as [-> | [-> | ->]] by lia.
    + exists []. split; [constructor|]. exists [], (zs ".shstrtab" ++ 0 :: name ++ 0 :: repeat 0 pad).
      rewrite H7, H9, N0. split; reflexivity.
    + exists (zs ".shstrtab"). split; [apply cstr_okb; reflexivity|]. exists [0], (name ++ 0 :: repeat 0 pad).
      rewrite H7, H9, N1. split; reflexivity.
    + exists name. exact A2.
Qed.

Ltac example_file file :=
  let A := fresh in let B := fresh in
  match eval unfold file in file with elf_file ?name ?data ?pad =>
  destruct (example_file_ok name data pad) as (A & B);
    [apply bytes_okb; vm_compute; reflexivity|vm_compute; split; (reflexivity || discriminate)|vm_compute; reflexivity|
     vm_compute; reflexivity|vm_compute; discriminate|vm_compute; reflexivity|vm_compute; reflexivity|vm_compute; discriminate|
     vm_compute; reflexivity|vm_compute; reflexivity|vm_compute; reflexivity|vm_compute; reflexivity|apply cstr_okb; reflexivity|];
  fold file in A, B; split;
  [destruct A as [A1 A2 A3 A4 A5 A6 A7]; constructor; auto;
   destruct A6 as (X & Y & Z1); (split; [exact X|]); (split; [exact Y|]); vm_compute; discriminate
  |exists 2; (split; [vm_compute; split; [discriminate|reflexivity]|]); (split; [exact B|]);
   (split; [|split; [vm_compute; discriminate|vm_compute; reflexivity]]);
   let j := fresh in let Hj := fresh in let X := fresh in let C := fresh in
   intros j Hj X; assert (C : j = 0 \/ j = 1) by lia; destruct C as [-> | ->];
   [assert (S0 : sec_name file 0 []) by (split; [constructor|]; exists [], (zs ".shstrtab" ++ 0 :: name ++ 0 :: repeat 0 pad); split; vm_compute; reflexivity);
    pose proof (sec_name_fun _ _ _ _ X S0) as E; discriminate E
   |assert (S1 : sec_name file 1 (zs ".shstrtab")) by (split; [apply cstr_okb; reflexivity|]; exists [0], (name ++ 0 :: repeat 0 pad); split; vm_compute; reflexivity);
    pose proof (sec_name_fun _ _ _ _ X S1) as E; discriminate E]] end.

Lemma sample_file_ok : elf_ok 1280 sample_file /\ has_section sample_file (zs ".ulp") (create_patch_metadata_file sample).
Proof. example_file sample_file. Qed.

Example C70_case :
  elf_ok 1280 sample_file /\ cstr_ok (zs ".ulp") /\
  has_section sample_file (zs ".ulp") (create_patch_metadata_file sample) /\
  0 < zlen (create_patch_metadata_file sample) <= ULP_METADATA_BUF_LEN /\
  (forall i, 0 <= i < e_shnum sample_file -> sec_off sample_file i < 2 ^ 63).
Proof.
  destruct sample_file_ok as (A & B). split; [exact A|]. split; [apply cstr_okb; reflexivity|]. split; [exact B|].
  split; [vm_compute; split; (reflexivity || discriminate)|].
  intros i Hi. three i; vm_compute; reflexivity.
Qed.

(** C70, finding: the table of names is read into a buffer of 1280 bytes. When it is longer the failure
    is not looked at, and the name is compared with bytes that were never written. *)
Theorem C70_long_names_refuted :
  forall (limit : Z) (file name : list Z) (dest : Z),
    elf_ok limit file -> 0 < e_shnum file -> 1280 < sec_size file (e_shstrndx file) ->
    Get_Elf_Section dest name (Some file) = (false, G_UB).
Proof. exact section_names_too_long. Qed.
Print Assumptions C70_long_names_refuted.

Definition long_names_file : list Z := elf_file (zs ".ulp") (create_patch_metadata_file sample) 1300.

Example C70_long_names_case :
  exists limit, elf_ok limit long_names_file /\ 0 < e_shnum long_names_file /\
    1280 < sec_size long_names_file (e_shstrndx long_names_file).
Proof.
  exists (sec_size long_names_file 1). split; [|split; vm_compute; reflexivity].
  apply (example_file_ok (zs ".ulp") (create_patch_metadata_file sample) 1300);
    try (vm_compute; reflexivity); [apply bytes_okb; vm_compute; reflexivity|vm_compute; split; (reflexivity || discriminate)|
      vm_compute; discriminate|vm_compute; discriminate|apply cstr_okb; reflexivity].
Qed.

(** C70, finding: a section whose offset is 2^63 or more cannot be reached, which is not looked
    at either: the bytes that follow its header are taken for its content. *)
Definition far_file : list Z :=
  let names := 0 :: zs ".shstrtab" ++ 0 :: zs ".ulp" ++ [0] in
  ehdr_bytes (64 + zlen names) 64 4 1 ++ names ++
  shdr_bytes 0 0 0 ++ shdr_bytes 1 64 (zlen names) ++ shdr_bytes 11 (2 ^ 63) 64 ++ shdr_bytes 0 0 0.

Theorem C70_negative_offset_refuted :
  exists (file name : list Z), elf_ok 1280 file /\ sec_name file 2 name /\
    2 ^ 63 <= sec_off file 2 /\ ~ sec_inside file 2 /\
    exists data, Get_Elf_Section ULP_METADATA_BUF_LEN name (Some file) = (false, G_ok data) /\
      data = bytes_at file (sec_hdr file 3) 64.
Proof.
  exists far_file, (zs ".ulp").
  assert (S1 : sec_name far_file 1 (zs ".shstrtab")).
  { split; [apply cstr_okb; reflexivity|]. exists [0], (zs ".ulp" ++ [0]). split; vm_compute; reflexivity. }
  assert (S2 : sec_name far_file 2 (zs ".ulp")).
  { split; [apply cstr_okb; reflexivity|]. exists (0 :: zs ".shstrtab" ++ [0]), []. split; vm_compute; reflexivity. }
  split; [constructor|].
  - apply bytes_okb. vm_compute. reflexivity.
  - vm_compute. split; (reflexivity || discriminate).
  - reflexivity.
  - reflexivity.
  - vm_compute. discriminate.
  - split; [reflexivity|]. split; vm_compute; discriminate.
  - intros i Hi. replace (e_shnum far_file) with 4 in Hi by (vm_compute; reflexivity).
    assert (i = 0 \/ i = 1 \/ i = 2 \/ i = 3) as [-> | [-> | [-> | ->]]] by lia; eauto.
    + exists []. split; [constructor|]. exists [], (zs ".shstrtab" ++ 0 :: zs ".ulp" ++ [0]). split; vm_compute; reflexivity.
    + exists []. split; [constructor|]. exists [], (zs ".shstrtab" ++ 0 :: zs ".ulp" ++ [0]). split; vm_compute; reflexivity.
  - split; [exact S2|]. split; [vm_compute; discriminate|]. split; [vm_compute; intros X; apply X; reflexivity|].
    eexists. split; vm_compute; reflexivity.
Qed.
Print Assumptions C70_negative_offset_refuted.

(** C70, finding: merely reading an ELF file without section headers (the size of a header is 0
    there) fails an assertion: the request is answered EINVAL, and libpulp is in
    its error state from then on, in which it refuses everything (C07). *)
Theorem C70_no_sections_refuted :
  forall (file : list Z) ps env busy e junk name path st t,
    64 <= zlen file -> bytes_at file 0 4 = [127; 69; 76; 70] -> e_shnum file = 0 -> e_shentsize file <> 64 ->
    gdb_ulp ps env busy e junk name (Some file) path st t = Some (set_err st EUNKNOWN, t, EINVAL).
Proof.
  intros file ps env busy e junk name path st t H1 H2 H3 H4. unfold gdb_ulp.
  assert (E : Get_Elf_Section ULP_METADATA_BUF_LEN name (Some file) = (true, G_err EINVAL)); [|rewrite E; reflexivity].
  unfold Get_Elf_Section, Elf_Parse_Ehdr. rewrite rd_at, bytes_at_len by lia. change (negb (64 =? 64)) with false. cbn iota.
  replace (firstn 4 (bytes_at file 0 64)) with (bytes_at file 0 4).
  2:{ unfold bytes_at. cbn [Z.to_nat skipn]. rewrite firstn_firstn. reflexivity. }
  rewrite H2. change (negb (bytes_eqb [127; 69; 76; 70] [127; 69; 76; 70])) with false. cbn iota.
  rewrite <- rd_at, ehdr_at. cbn [h_shentsize h_shnum h_shoff h_shstrndx]. rewrite H3.
  destruct (Z.eqb_spec (e_shentsize file) 64); [contradiction|]. cbn [negb andb].
  change (negb (0 =? 0)) with false. cbn [negb andb]. destruct (Elf_Load_Strtbl _ _ _). reflexivity.
Qed.
Print Assumptions C70_no_sections_refuted.

Example C70_no_sections_case :
  let file := ehdr_bytes 0 0 0 0 in
  64 <= zlen file /\ bytes_at file 0 4 = [127; 69; 76; 70] /\ e_shnum file = 0 /\ e_shentsize file <> 64.
Proof. vm_compute. repeat split; discriminate. Qed.

(** ** C71 *)

(** What a live patch file holds for applying and for reverting the patch [pm]. *)
Definition request_section (pm : pmeta) (name data : list Z) : Prop :=
  (name = zs ".ulp" /\ data = create_patch_metadata_file pm) \/
  (name = zs ".ulp.rev" /\ data = write_reverse_patch pm).

Lemma apply_same_parse busy e m junk b1 b2 st :
  parse_metadata_from_mem junk b1 = parse_metadata_from_mem junk b2 ->
  ulp_apply_patch busy e m junk b1 st = ulp_apply_patch busy e m junk b2 st.
Proof. intros H. unfold ulp_apply_patch, load_patch. rewrite H. reflexivity. Qed.

(** The metadata gdb's entry point hands to libpulp means what the tool's does. *)
Lemma gdb_buffer pm name data path b busy e m junk st :
  pmeta_ok pm -> cstr_ok path -> path <> [] -> request_section pm name data ->
  extract_ulp_from_so_to_mem data path = P_ok (Some b) ->
  33 <= zlen data <= ULP_METADATA_BUF_LEN /\
  exists buf, inject_lp_path (data ++ repeat 0 (Z.to_nat (ULP_METADATA_BUF_LEN - zlen data))) path (zlen data) = P_ok (0, buf) /\
    ulp_apply_patch busy e m junk buf st = ulp_apply_patch busy e m junk b st.
Proof.
  intros Hp Hc Hne Hr Hx.
  assert (A : zlen path + 1 < PATH_MAX /\ zlen data + 4 + (zlen path + 1) < ULP_METADATA_BUF_LEN /\ 33 <= zlen data).
  { unfold extract_ulp_from_so_to_mem in Hx. destruct (Z.leb_spec PATH_MAX (zlen path + 1)); [discriminate|].
    destruct (Z.leb_spec ULP_METADATA_BUF_LEN (u32 (zlen data + (zlen path + 1) + 4))); [discriminate|].
    destruct (Z.ltb_spec (zlen data) 33); [discriminate|].
    destruct (Z.ltb_spec (u32 (zlen data + (zlen path + 1) + 4)) (zlen data + (zlen path + 1) + 4)); [discriminate|].
    split; [assumption|]. split; [lia|assumption]. }
  destruct A as (A1 & A2 & A3). pose proof (zlen_nonneg path). split; [lia|].
  destruct (C21_gdb_injection_equals_tool_partial data path ltac:(lia)) as (_ & _ & G).
  destruct (G b Hx) as (n & G1 & _). exists (b ++ repeat 0 n). split; [exact G1|].
  apply apply_same_parse. destruct Hr as [[_ ->]|[_ ->]].
  - destruct (C18_metadata_roundtrip pm path Hp Hc Hne A1 A2) as (b' & B1 & _ & B2).
    rewrite B1 in Hx. injection Hx as <-. rewrite B2. specialize (B2 junk []). rewrite app_nil_r in B2. symmetry. exact B2.
  - destruct (C20_reverse_identifies_patch pm path Hp Hc Hne A1 A2) as (b' & B1 & B2).
    rewrite B1 in Hx. injection Hx as <-. rewrite B2. specialize (B2 junk []). rewrite app_nil_r in B2. symmetry. exact B2.
Qed.

Lemma request_cstr pm name data : request_section pm name data -> cstr_ok name.
Proof. intros [[-> _]|[-> _]]; apply cstr_okb; reflexivity. Qed.

Lemma request_long pm name data : pmeta_ok pm -> request_section pm name data -> 33 <= zlen data.
Proof.
  intros ([HI _] & _) R.
  assert (G : forall c rest, 33 <= zlen ([c] ++ pm_id pm ++ rest)).
  { intros c rest. unfold zlen. rewrite !app_length, HI. cbn [List.length]. lia. }
  destruct R as [[_ ->]|[_ ->]]; apply G.
Qed.

(** Up to libpulp's answer. *)
Lemma gdb_upto pm name data path b file ps env busy e junk st t :
  pmeta_ok pm -> cstr_ok path -> path <> [] -> request_section pm name data ->
  extract_ulp_from_so_to_mem data path = P_ok (Some b) ->
  elf_ok 1280 file -> has_section file name data ->
  gdb_ulp ps env busy e junk name (Some file) path st t =
  match ulp_apply_patch busy e (l_mem t) junk b st with
  | None => None
  | Some (st1, ret) =>
      if negb (ret =? 0) then Some (st1, t, ret)
      else match insnq_interpret_from_lib ps env (s_q st1) t with
           | None => None
           | Some (ret2, q', t') => Some (set_qe st1 (q', s_err st1), t', ret2)
           end
  end.
Proof.
  intros Hp Hc Hne Hr Hx He Hs.
  destruct (gdb_buffer pm name data path b busy e (l_mem t) junk st Hp Hc Hne Hr Hx) as (L & buf & B1 & B2).
  unfold gdb_ulp. rewrite (C70_section_exact_partial file name data ULP_METADATA_BUF_LEN He (request_cstr _ _ _ Hr) Hs ltac:(lia)).
  rewrite B1. cbn [negb Z.eqb]. change (negb (0 =? 0)) with false. cbn iota. rewrite B2. reflexivity.
Qed.

(** Memory accesses of the tool all succeed. *)
Definition tool_works (te : tool_env) : Prop :=
  te_rd_hdr te = 0 /\ te_rd_body te = 0 /\ te_upd te = 0 /\ forall i, te_wf te i = None.

(** The queue holds requests, and the pages that their writes touch are mapped. *)
Definition writes_mapped (ps : Z) (prot : Z -> option Z) (q : insnq) : Prop :=
  exists rs, qinv q rs /\ Forall (req_mapped ps prot) rs.

(** C71: a request libpulp accepts, made from gdb with the live patch file: gdb_ulp_apply and
    gdb_ulp_revert succeed, and the memory, the protections and libpulp's tables are exactly
    what the tool's operation on the same process leaves. *)
Theorem C71_gdb_equals_tool_partial :
  forall p pm name data path b file k env te rax busy e junk t p1,
    pmeta_ok pm -> cstr_ok path -> path <> [] -> request_section pm name data ->
    extract_ulp_from_so_to_mem data path = P_ok (Some b) ->
    elf_ok 1280 file -> has_section file name data ->
    do_event (EvApply busy e junk b) p = Some (p1, 0) ->
    l_mem t = p_mem p -> 0 <= k -> writes_mapped (2 ^ k) (l_prot t) (s_q (p_lib p1)) ->
    (forall i x, lw_set (env i) x = true /\ lw_restore (env i) x = true) -> tool_works te ->
    exists p' st' t',
      tool_apply_patch te rax busy e junk b p = Some (p', 0) /\
      gdb_ulp (2 ^ k) env busy e junk name (Some file) path (p_lib p) t = Some (st', t', 0) /\
      l_mem t' = p_mem p' /\ (forall x, l_prot t' x = l_prot t x) /\
      s_patches st' = s_patches (p_lib p') /\ s_roots st' = s_roots (p_lib p') /\
      s_universe st' = s_universe (p_lib p') /\ s_ctr st' = s_ctr (p_lib p') /\ s_err st' = s_err (p_lib p') /\
      no_pending p' /\ no_pending (mk_proc st' (l_mem t')).
Proof.
  intros p pm name data path b file k env te rax busy e junk t p1
    Hp Hc Hne Hr Hx Hf Hs Hd Hm Hk (rs & Hq & Hw) Henv (T1 & T2 & T3 & T4).
  rewrite (gdb_upto pm name data path b file (2 ^ k) env busy e junk (p_lib p) t Hp Hc Hne Hr Hx Hf Hs).
  cbn [do_event] in Hd. unfold tool_apply_patch. rewrite Hm.
  destruct (ulp_apply_patch busy e (p_mem p) junk b (p_lib p)) as [[st1 a]|]; [|discriminate].
  injection Hd as <- ->. cbn [p_lib p_mem] in *. change (negb (0 =? 0)) with false. cbn [andb]. cbn iota.
  unfold interpret_and_report.
  rewrite (interpret_exact te (s_q st1) rs (mk_tgt (p_mem p) []) Hq T1 T2 T3 T4). change (negb (0 =? 0)) with false. cbn [andb]. cbn iota.
  destruct (interpret_from_lib_exact k env (s_q st1) rs t Hk Hq (fun i x => proj1 (Henv i x)) (fun i x => proj2 (Henv i x)) Hw)
    as (q' & t' & I1 & I2 & I3 & I4 & I5).
  rewrite I1. eexists _, _, _. split; [reflexivity|]. split; [reflexivity|].
  split; [cbn [p_mem]; rewrite I4, !perform_all_mem, Hm; reflexivity|]. split; [exact I5|].
  split; [reflexivity|]. split; [reflexivity|]. split; [reflexivity|]. split; [reflexivity|]. split; [reflexivity|].
  split; [split; reflexivity|split; [exact I2|exact I3]].
Qed.
Print Assumptions C71_gdb_equals_tool_partial.

(** What libpulp refuses is refused with the same answer, and nothing is written. *)
Theorem C71_same_refusal :
  forall p pm name data path b file ps env busy e junk t p1 ans,
    pmeta_ok pm -> cstr_ok path -> path <> [] -> request_section pm name data ->
    extract_ulp_from_so_to_mem data path = P_ok (Some b) ->
    elf_ok 1280 file -> has_section file name data -> l_mem t = p_mem p ->
    do_event (EvApply busy e junk b) p = Some (p1, ans) -> ans <> 0 ->
    gdb_ulp ps env busy e junk name (Some file) path (p_lib p) t = Some (p_lib p1, t, ans).
Proof.
  intros p pm name data path b file ps env busy e junk t p1 ans Hp Hc Hne Hr Hx Hf Hs Hm Hd Ha.
  rewrite (gdb_upto pm name data path b file ps env busy e junk (p_lib p) t Hp Hc Hne Hr Hx Hf Hs).
  cbn [do_event] in Hd. rewrite Hm. destruct (ulp_apply_patch _ _ _ _ _ _) as [[st1 a]|]; [|discriminate].
  injection Hd as <- ->. destruct (Z.eqb_spec ans 0); [contradiction|]. reflexivity.
Qed.
Print Assumptions C71_same_refusal.

(** A path for which the metadata buffer has no room is refused: no call, no code,
    no list of patches changes. *)
Theorem C71_long_path_refused :
  forall pm name data path file ps env busy e junk st t,
    pmeta_ok pm -> request_section pm name data -> elf_ok 1280 file -> has_section file name data ->
    zlen data <= ULP_METADATA_BUF_LEN -> ULP_METADATA_BUF_LEN < zlen data + 4 + (zlen path + 1) ->
    exists r, gdb_ulp ps env busy e junk name (Some file) path st t = Some (st, t, r) /\ r <> 0.
Proof.
  intros pm name data path file ps env busy e junk st t Hp Hr He Hs L1 L2.
  assert (L0 : 33 <= zlen data) by (eapply request_long; eassumption).
  unfold gdb_ulp. rewrite (C70_section_exact_partial file name data ULP_METADATA_BUF_LEN He (request_cstr _ _ _ Hr) Hs ltac:(lia)).
  destruct (C21_gdb_injection_equals_tool_partial data path (conj L0 L1)) as (_ & G & _). rewrite (G L2).
  exists EINVALIDULP. split; [reflexivity|discriminate].
Qed.
Print Assumptions C71_long_path_refused.

(** Calls go, after a successful request from gdb, where the log of applied patches
    with that request says. *)
Theorem C71_calls_follow_partial :
  forall F eb m stale tr p pm name data path b file k env busy e junk t p1,
    functions_ok F eb m -> clean_history F eb (fresh m stale) tr p ->
    pmeta_ok pm -> cstr_ok path -> path <> [] -> request_section pm name data ->
    extract_ulp_from_so_to_mem data path = P_ok (Some b) ->
    elf_ok 1280 file -> has_section file name data ->
    event_ok F eb p (EvApply busy e junk b) ->
    do_event (EvApply busy e junk b) p = Some (p1, 0) -> s_err (p_lib p1) = 0 ->
    l_mem t = p_mem p -> 0 <= k -> writes_mapped (2 ^ k) (l_prot t) (s_q (p_lib p1)) ->
    (forall i x, lw_set (env i) x = true /\ lw_restore (env i) x = true) ->
    exists st' t',
      gdb_ulp (2 ^ k) env busy e junk name (Some file) path (p_lib p) t = Some (st', t', 0) /\
      forall f, In f F -> calls_go (l_mem t') (eb f) f (route (log_of (tr ++ [(EvApply busy e junk b, 0)])) f).
Proof.
  intros F eb m stale tr p pm name data path b file k env busy e junk t p1
    HF Hh Hp Hc Hne Hr Hx Hf Hs Hok Hd He Hm Hk Hw Henv.
  destruct (C71_gdb_equals_tool_partial p pm name data path b file k env env_ok 0 busy e junk t p1
    Hp Hc Hne Hr Hx Hf Hs Hd Hm Hk Hw Henv) as (p' & st' & t' & A1 & A2 & A3 & _ & _ & _ & _ & _ & A4 & A5 & _).
  { repeat split. }
  exists st', t'. split; [exact A2|]. intros f Hin. rewrite A3.
  destruct (C01_tool_apply_is_events _ _ _ _ _ _ _ _ _ A1) as (p1' & ans & B1 & B2).
  rewrite Hd in B1. injection B1 as <- <-. destruct B2 as [(X & _)|(r & B2 & _)]; [discriminate X|].
  assert (Hh2 : clean_history F eb (fresh m stale) ((tr ++ [(EvApply busy e junk b, 0)]) ++ [(EvExec env_ok, r)]) p').
  { econstructor; [econstructor; [exact Hh|exact Hok|exact Hd]| |exact B2]. intros i. reflexivity. }
  assert (Ep : s_err (p_lib p') = 0).
  { cbn [do_event] in B2. destruct (insnq_interpret_from_process _ _ _ _) as [[[c q'] t2]|]; [|discriminate].
    injection B2 as <- <-. exact He. }
  pose proof (C01_calls_follow_newest_patch F eb m stale _ p' HF Hh2 Ep A5 f Hin) as G.
  rewrite (log_of_snoc (tr ++ [(EvApply busy e junk b, 0)])) in G. exact G.
Qed.
Print Assumptions C71_calls_follow_partial.

(** The example: patch 3 of the example world, in a live patch file, in a process with
    readable and executable pages of 4096 bytes. *)
Definition w_file3 : list Z := elf_file (zs ".ulp") (create_patch_metadata_file P3) 0.
Definition w_t (m : mem) : ltgt := mk_ltgt m (fun _ => Some 5) [].
Definition w_lw : nat -> lw_env := fun _ => mk_lw_env (fun _ => true) (fun _ => true) 0.

Lemma w_file3_ok : elf_ok 1280 w_file3 /\ has_section w_file3 (zs ".ulp") (create_patch_metadata_file P3).
Proof. example_file w_file3. Qed.
Definition w_write3 : req := RWrite 65778 [255; 37; 0; 0; 0; 0; 0; 2; 48; 0; 0; 0; 0; 0; 235; 240].

Lemma unit_f_ok n : cstr_ok n -> unit_ok (mk_munit n (zs "g") 0).
Proof. intros H. unfold unit_ok. cbn. repeat split; try lia; try exact H; try (apply cstr_okb; reflexivity). Qed.

Lemma w_patch_ok k lib fs : 0 <= k < 256 -> cstr_ok lib -> Forall cstr_ok fs -> pmeta_ok (w_patch k lib fs [] []).
Proof.
  intros Hk Hl Hf. unfold pmeta_ok, w_patch. cbn [pm_id pm_bid pm_bid_len pm_name pm_nunits pm_units pm_ndeps pm_deps pm_nrefs pm_refs map].
  split; [unfold id_ok; split; [reflexivity|apply Forall_forall; intros x Hx; apply repeat_spec in Hx; subst; exact Hk]|].
  split; [apply bytes_okb; reflexivity|]. split; [reflexivity|]. split; [exact Hl|].
  split; [unfold zlen; rewrite map_length; reflexivity|].
  split; [apply Forall_forall; intros u Hu; apply in_map_iff in Hu; destruct Hu as (n & <- & Hn); apply unit_f_ok;
    rewrite Forall_forall in Hf; apply Hf; exact Hn|].
  split; [reflexivity|]. split; [constructor|]. split; [reflexivity|constructor].
Qed.

Example C71_case :
  exists b p1, pmeta_ok P3 /\ cstr_ok (w_path 3) /\ w_path 3 <> [] /\
    request_section P3 (zs ".ulp") (create_patch_metadata_file P3) /\
    extract_ulp_from_so_to_mem (create_patch_metadata_file P3) (w_path 3) = P_ok (Some b) /\
    elf_ok 1280 w_file3 /\ has_section w_file3 (zs ".ulp") (create_patch_metadata_file P3) /\
    functions_ok w_F (fun _ => false) w_mem /\ event_ok w_F (fun _ => false) w_start (EvApply false w_env 0 b) /\
    do_event (EvApply false w_env 0 b) w_start = Some (p1, 0) /\ s_err (p_lib p1) = 0 /\
    writes_mapped (2 ^ 12) (l_prot (w_t w_mem)) (s_q (p_lib p1)) /\ tool_works env_ok.
Proof.
  exists (w_buf 3 P3).
  assert (X : match do_event (EvApply false w_env 0 (w_buf 3 P3)) w_start with
    | Some (p1, a) => a = 0 /\ s_err (p_lib p1) = 0 /\ q_num (s_q (p_lib p1)) = 1 /\ q_size (s_q (p_lib p1)) = 32 /\
        q_version (s_q (p_lib p1)) = INSNQ_CURR_VERSION /\
        mem_read (q_buf (s_q (p_lib p1))) 0 32 =
          insn_header ULP_INSN_WRITE 32 ++ le_enc 4 16 ++ le_enc 8 65778 ++
          [255; 37; 0; 0; 0; 0; 0; 2; 48; 0; 0; 0; 0; 0; 235; 240]
    | None => False end) by (vm_compute; auto 10).
  destruct (do_event (EvApply false w_env 0 (w_buf 3 P3)) w_start) as [[p1 a]|]; [|destruct X].
  destruct X as (-> & X1 & X2 & X3 & X4 & X5). exists p1.
  split; [apply w_patch_ok; [lia|apply cstr_okb; reflexivity|repeat constructor; unfold is_cchar; cbn; lia]|].
  split; [apply cstr_okb; reflexivity|]. split; [discriminate|]. split; [left; split; reflexivity|].
  split; [vm_compute; reflexivity|]. split; [apply w_file3_ok|]. split; [apply w_file3_ok|].
  split; [exact w_functions|]. split; [apply w_event_ok; [exact w_env_sane|vm_compute; reflexivity]|].
  split; [reflexivity|]. split; [exact X1|]. split; [|repeat split].
  exists [w_write3]. split.
  - constructor.
    + rewrite X2. reflexivity.
    + rewrite X3. vm_compute. split; discriminate.
    + exact X4.
    + rewrite X3. apply enc_write; [lia|reflexivity|exact X5|]. apply enc_nil.
  - constructor; [|constructor]. split; [reflexivity|]. intros x _. discriminate.
Qed.

(** C71, finding: when a patch fails half-way (C06), the tool still executes the writes that libpulp
    asked for before it failed, gdb does not: the same answer leaves calls of a function
    in different places. *)
Definition w_file6 : list Z := elf_file (zs ".ulp") (create_patch_metadata_file P6) 0.

Lemma w_file6_ok : elf_ok 1280 w_file6 /\ has_section w_file6 (zs ".ulp") (create_patch_metadata_file P6).
Proof. example_file w_file6. Qed.

Theorem C71_failed_application_refuted :
  exists p t e b file name path p' st' t' f g,
    p = fresh w_mem6 (fun _ => 0) /\ l_mem t = p_mem p /\ elf_ok 1280 file /\
    tool_apply_patch env_ok 0 false e 0 b p = Some (p', ENOPATCHABLE) /\
    gdb_ulp 4096 w_lw false e 0 name (Some file) path (p_lib p) t = Some (st', t', ENOPATCHABLE) /\
    calls_go (p_mem p') false f (Some g) /\ calls_go (l_mem t') false f None.
Proof.
  set (p := fresh w_mem6 (fun _ => 0)).
  assert (X : match tool_apply_patch env_ok 0 false w_env 0 (w_buf 6 P6) p with
    | Some (p', r) => r = ENOPATCHABLE /\ cpu_step (p_mem p') w_f = Some (w_f - 14) /\
        cpu_step (p_mem p') (w_f - 14) = Some (6291968)
    | None => False end) by (vm_compute; auto).
  destruct (tool_apply_patch env_ok 0 false w_env 0 (w_buf 6 P6) p) as [[p' r]|] eqn:E; [|contradiction].
  destruct X as (-> & X1 & X2).
  assert (Y : match do_event (EvApply false w_env 0 (w_buf 6 P6)) p with Some (_, a) => a = ENOPATCHABLE | None => False end)
    by (vm_compute; reflexivity).
  destruct (do_event (EvApply false w_env 0 (w_buf 6 P6)) p) as [[p1 a]|] eqn:Ed; [|contradiction]. subst a.
  exists p, (w_t w_mem6), w_env, (w_buf 6 P6), w_file6, (zs ".ulp"), (w_path 6), p', (p_lib p1), (w_t w_mem6), w_f, 6291968.
  split; [reflexivity|]. split; [reflexivity|]. split; [apply w_file6_ok|]. split; [exact E|].
  split; [|split].
  - eapply C71_same_refusal with (pm := P6) (data := create_patch_metadata_file P6) (b := w_buf 6 P6);
      [apply w_patch_ok; [lia|apply cstr_okb; reflexivity|repeat constructor; unfold is_cchar; cbn; lia]
      |apply cstr_okb; reflexivity|discriminate|left; split; reflexivity|vm_compute; reflexivity
      |apply w_file6_ok|apply w_file6_ok|reflexivity|exact Ed|discriminate].
  - exists [w_f; w_f - 14]. split.
    + eapply gt_step; [exact X1|]. eapply gt_step; [exact X2|]. apply gt_here.
    + unfold in_window, body, slot. intros x [<-|[<-|[]]]; lia.
  - exists [w_f; w_f + 1]. split.
    + eapply gt_step; [reflexivity|]. eapply gt_step; [reflexivity|]. apply gt_here.
    + unfold body, slot. intros x [<-|[<-|[]]]; lia.
Qed.
Print Assumptions C71_failed_application_refuted.

(** C71, finding: a request that just fills the buffer is accepted from gdb and refused by the
    tool. *)
Theorem C71_full_buffer_refuted :
  forall (data path : list Z),
    33 <= zlen data -> zlen path + 1 < PATH_MAX -> zlen data + 4 + (zlen path + 1) = ULP_METADATA_BUF_LEN ->
    extract_ulp_from_so_to_mem data path = P_ok None /\
    exists buf, inject_lp_path (data ++ repeat 0 (Z.to_nat (ULP_METADATA_BUF_LEN - zlen data))) path (zlen data) = P_ok (0, buf).
Proof.
  intros data path H1 H2 H3. pose proof (zlen_nonneg path). split.
  - unfold extract_ulp_from_so_to_mem. destruct (Z.leb_spec PATH_MAX (zlen path + 1)); [reflexivity|].
    replace (zlen data + (zlen path + 1) + 4) with ULP_METADATA_BUF_LEN by lia. reflexivity.
  - destruct (C21_gdb_injection_equals_tool_partial data path ltac:(lia)) as (G & _).
    rewrite G by lia. eauto.
Qed.
Print Assumptions C71_full_buffer_refuted.

(** Beside [C71_case]: a path that is too long for the patch there. *)
Example C71_long_path_case :
  zlen (create_patch_metadata_file P3) <= ULP_METADATA_BUF_LEN /\
  ULP_METADATA_BUF_LEN < zlen (create_patch_metadata_file P3) + 4 + (zlen (repeat 97 (Z.to_nat ULP_METADATA_BUF_LEN)) + 1).
Proof.
  assert (0 <= zlen (create_patch_metadata_file P3) <= 300) by (vm_compute; split; discriminate).
  unfold zlen at 3. rewrite repeat_length, Z2Nat.id by (unfold ULP_METADATA_BUF_LEN; lia).
  unfold ULP_METADATA_BUF_LEN. lia.
Qed.

Example C71_full_buffer_case :
  let data := repeat 7 (Z.to_nat (ULP_METADATA_BUF_LEN - 8)) in
  33 <= zlen data /\ zlen (zs "/pp") + 1 < PATH_MAX /\ zlen data + 4 + (zlen (zs "/pp") + 1) = ULP_METADATA_BUF_LEN.
Proof.
  cbv zeta. unfold zlen. rewrite repeat_length, Z2Nat.id by (unfold ULP_METADATA_BUF_LEN; lia).
  split; [unfold ULP_METADATA_BUF_LEN; lia|]. split; reflexivity.
Qed.
