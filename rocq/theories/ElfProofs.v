(** Lemmas about the ELF reader of libpulp. *)
From Coq Require Import String.
From Verif Require Import Base BaseFacts StrModel InsnQModel MetaModel DlModel LibModel ElfModel ElfSpec.

Lemma rd_at file pos n : rd file pos n = bytes_at file pos n.
Proof. reflexivity. Qed.

Lemma bytes_at_len file off n : 0 <= off -> 0 <= n -> off + n <= zlen file -> zlen (bytes_at file off n) = n.
Proof. intros. unfold bytes_at, zlen in *. rewrite firstn_length, skipn_length. lia. Qed.

Lemma skipn_skipn' {A} (a b : nat) (l : list A) : skipn a (skipn b l) = skipn (b + a) l.
Proof.
  revert l; induction b as [|b IH]; intros l; [reflexivity|]. destruct l; [rewrite !skipn_nil; reflexivity|]. apply IH.
Qed.

Lemma skipn_firstn_comm' {A} (a b : nat) (l : list A) : skipn a (firstn b l) = firstn (b - a) (skipn a l).
Proof. revert b l; induction a as [|a IH]; intros b l; [rewrite Nat.sub_0_r; reflexivity|].
  destruct l; [rewrite firstn_nil, !skipn_nil, firstn_nil; reflexivity|]. destruct b; [reflexivity|]. apply IH.
Qed.

Lemma field_at file pos (off n : nat) : 0 <= pos -> (off + n <= 64)%nat ->
  field (rd file pos 64) off n = num_at file (pos + Z.of_nat off) (Z.of_nat n).
Proof.
  intros Hp Hn. unfold field, num_at, rd, bytes_at. f_equal.
  rewrite skipn_firstn_comm', skipn_skipn', firstn_firstn. f_equal; [lia|]. f_equal. lia.
Qed.

Lemma shdr_at file i : 0 <= sec_hdr file i ->
  shdr_of (rd file (sec_hdr file i) 64) = mk_shdr (sec_name_off file i) (sec_off file i) (sec_size file i).
Proof.
  intros H. unfold shdr_of. rewrite !field_at by lia. unfold sec_name_off, sec_off, sec_size.
  f_equal. f_equal. lia.
Qed.

Lemma num_nonneg file off n : bytes_ok file -> 0 <= num_at file off n.
Proof.
  unfold bytes_ok. intros H. unfold num_at. apply le_dec_bound. unfold bytes_at, bytes_ok.
  apply Forall_forall. intros x Hx. rewrite Forall_forall in H. apply H.
  rewrite <- (firstn_skipn (Z.to_nat off) file). apply in_or_app. right.
  rewrite <- (firstn_skipn (Z.to_nat n) (skipn (Z.to_nat off) file)). apply in_or_app. left. exact Hx.
Qed.

Lemma ehdr_at file : ehdr_of (rd file 0 64) =
  mk_ehdr (e_shoff file) (e_shentsize file) (e_shnum file) (e_shstrndx file).
Proof. unfold ehdr_of. rewrite !field_at by lia. reflexivity. Qed.

Lemma parse_ok limit file : elf_ok limit file ->
  Elf_Parse_Ehdr file = Some (mk_ehdr (e_shoff file) (e_shentsize file) (e_shnum file) (e_shstrndx file)).
Proof.
  intros H. unfold Elf_Parse_Ehdr. rewrite rd_at, bytes_at_len by (pose proof (ok_len _ _ H); lia).
  change (negb (64 =? 64)) with false. cbn iota.
  replace (firstn 4 (bytes_at file 0 64)) with (bytes_at file 0 4).
  2:{ unfold bytes_at. cbn [Z.to_nat skipn]. rewrite firstn_firstn. reflexivity. }
  rewrite (ok_magic _ _ H).
  change (negb (bytes_eqb [127; 69; 76; 70] [127; 69; 76; 70])) with false. cbn iota.
  f_equal. apply ehdr_at.
Qed.

Section Table.
Variable file : list Z.
Hypothesis Hb : bytes_ok file.
Hypothesis Ht : e_shoff file + 64 * e_shnum file <= zlen file.

Lemma hdr_read i : 0 <= i < e_shnum file ->
  0 <= sec_hdr file i /\ zlen (rd file (sec_hdr file i) 64) = 64.
Proof.
  intros Hi. assert (0 <= e_shoff file) by (apply num_nonneg; exact Hb).
  assert (H0 : 0 <= sec_hdr file i) by (unfold sec_hdr; lia). split; [exact H0|].
  rewrite rd_at. apply bytes_at_len; [exact H0|lia|]. unfold sec_hdr in *. lia.
Qed.

Lemma get_shdr_finds n : forall i index, 0 <= i -> i <= index < i + Z.of_nat n -> i + Z.of_nat n <= e_shnum file ->
  get_shdr file (sec_hdr file i) n i index =
  (Some (mk_shdr (sec_name_off file index) (sec_off file index) (sec_size file index)), sec_hdr file index + 64).
Proof.
  induction n as [|n IH]; intros i index H0 H1 H2; [lia|]. cbn [get_shdr].
  destruct (hdr_read i) as (G0 & G1); [lia|]. rewrite G1. change (negb (64 =? 64)) with false. cbn iota.
  destruct (Z.eqb_spec index i) as [->|E].
  - rewrite shdr_at by exact G0. reflexivity.
  - replace (sec_hdr file i + 64) with (sec_hdr file (i + 1)) by (unfold sec_hdr; lia). apply IH; lia.
Qed.

Lemma get_shdr_first index : 0 <= index < e_shnum file ->
  get_shdr file (e_shoff file) (Z.to_nat (e_shnum file)) 0 index =
  (Some (mk_shdr (sec_name_off file index) (sec_off file index) (sec_size file index)), sec_hdr file index + 64).
Proof.
  intros H. assert (E : e_shoff file = sec_hdr file 0) by (unfold sec_hdr; lia). rewrite E.
  apply get_shdr_finds; lia.
Qed.
End Table.

Lemma seek_small pos off : off < 2 ^ 63 -> seek pos off = off.
Proof. intros H. unfold seek. destruct (Z.ltb_spec off (2 ^ 63)); [reflexivity|lia]. Qed.

(** The buffer after loading the names, and where the position is. *)
Lemma load_strtbl file h : bytes_ok file -> zlen file < 2 ^ 63 ->
  e_shoff file + 64 * e_shnum file <= zlen file -> e_shstrndx file < e_shnum file ->
  h = mk_ehdr (e_shoff file) (e_shentsize file) (e_shnum file) (e_shstrndx file) ->
  exists pos, 0 <= pos /\
  Elf_Load_Strtbl file 64 h =
  (if sec_size file (e_shstrndx file) >? STRTBL_SIZE_MAX then fill []
   else fill (rd file (seek (sec_hdr file (e_shstrndx file) + 64) (sec_off file (e_shstrndx file)))
                 (sec_size file (e_shstrndx file))), pos).
Proof.
  intros Hb Hl Ht Hi ->. unfold Elf_Load_Strtbl. cbn [h_shoff h_shnum h_shstrndx].
  assert (0 <= e_shoff file) by (apply num_nonneg; exact Hb).
  assert (0 <= e_shnum file) by (apply num_nonneg; exact Hb).
  assert (0 <= e_shstrndx file) by (apply num_nonneg; exact Hb).
  assert (0 <= sec_off file (e_shstrndx file)) by (apply num_nonneg; exact Hb).
  rewrite seek_small by lia.
  rewrite (get_shdr_first file Hb Ht) by lia. cbn [sh_size sh_offset].
  destruct (sec_size file (e_shstrndx file) >? STRTBL_SIZE_MAX).
  - eexists. split; [|reflexivity]. unfold sec_hdr. lia.
  - eexists. split; [|reflexivity].
    match goal with |- 0 <= ?p + zlen ?l => pose proof (zlen_nonneg l); assert (0 <= p); [|lia] end.
    unfold seek. destruct (_ <? _); [lia|unfold sec_hdr; lia].
Qed.

(** Comparing a name. *)
Lemma strcmp_named name n post rest : cstr_ok name -> cstr_ok n ->
  strcmp_buf name (map Some (n ++ 0 :: post) ++ rest) = Some (bytes_eqb name n).
Proof.
  intros Hn. revert n. induction Hn as [|c name Hc Hn IH]; intros n Hm.
  - destruct n as [|d n]; cbn [map app strcmp_buf bytes_eqb]; [reflexivity|].
    inversion Hm; subst. f_equal. destruct (Z.eqb_spec d 0); [unfold is_cchar in *; lia|reflexivity].
  - destruct n as [|d n]; cbn [map app strcmp_buf bytes_eqb].
    + destruct (Z.eqb_spec c 0); [unfold is_cchar in *; lia|reflexivity].
    + inversion Hm; subst. destruct (c =? d); cbn [andb]; [apply IH; assumption|reflexivity].
Qed.

Lemma skipn_map_app {A B} (f : A -> B) (pre l : list A) rest :
  skipn (List.length pre) (map f (pre ++ l) ++ rest) = map f l ++ rest.
Proof. induction pre; [reflexivity|]. exact IHpre. Qed.

Lemma strcmp_sec file i name n : sec_name file i n -> cstr_ok name ->
  strcmp_buf name (skipn (Z.to_nat (sec_name_off file i)) (fill (sec_data file (e_shstrndx file)))) =
  Some (bytes_eqb name n).
Proof.
  intros (Hn & pre & post & E & L) Hc. unfold fill. rewrite E, <- L.
  unfold zlen. rewrite Nat2Z.id, skipn_map_app. apply strcmp_named; assumption.
Qed.

(** The search by name. *)
Lemma by_name_finds file name n : bytes_ok file -> e_shoff file + 64 * e_shnum file <= zlen file ->
  (forall i, 0 <= i < e_shnum file -> exists m, sec_name file i m) -> cstr_ok name ->
  forall i, 0 <= i -> i + Z.of_nat n = e_shnum file ->
  match get_shdr_by_name file (sec_hdr file i) n name (fill (sec_data file (e_shstrndx file))) with
  | F_UB => False
  | F_none => forall j, i <= j < e_shnum file -> ~ sec_name file j name
  | F_shdr s pos => exists j, i <= j < e_shnum file /\ sec_name file j name /\
      (forall k, i <= k < j -> ~ sec_name file k name) /\
      s = mk_shdr (sec_name_off file j) (sec_off file j) (sec_size file j) /\ 0 <= pos
  end.
Proof.
  intros Hb Ht Hn Hc. induction n as [|n IH]; intros i H0 H1; cbn [get_shdr_by_name].
  - intros j Hj. lia.
  - destruct (hdr_read file Hb Ht i) as (G0 & G1); [lia|]. rewrite G1. change (negb (64 =? 64)) with false. cbn iota.
    rewrite shdr_at by exact G0. cbn [sh_name]. destruct (Hn i ltac:(lia)) as (m & Hm).
    rewrite (strcmp_sec file i name m Hm Hc). destruct (bytes_eqb name m) eqn:E.
    + apply bytes_eqb_eq in E. subst m. exists i. split; [lia|]. split; [exact Hm|].
      split; [intros k Hk; lia|]. split; [reflexivity|lia].
    + assert (No : ~ sec_name file i name).
      { intros X. pose proof (strcmp_sec file i name m Hm Hc) as S1. rewrite (strcmp_sec file i name name X Hc) in S1.
        apply bytes_eqb_neq in E. injection S1 as S1. rewrite (proj2 (bytes_eqb_eq name name) eq_refl) in S1.
        symmetry in S1. apply bytes_eqb_eq in S1. contradiction. }
      replace (sec_hdr file i + 64) with (sec_hdr file (i + 1)) by (unfold sec_hdr; lia).
      specialize (IH (i + 1) ltac:(lia) ltac:(lia)).
      destruct (get_shdr_by_name _ _ _ _ _); [exact IH| |].
      * intros j Hj. destruct (Z.eq_dec j i) as [->|Ne]; [exact No|apply IH; lia].
      * destruct IH as (j & J1 & J2 & J3 & J4). exists j. split; [lia|]. split; [exact J2|]. split; [|exact J4].
        intros k Hk. destruct (Z.eq_dec k i) as [->|Ne]; [exact No|apply J3; lia].
Qed.

(** The whole reader on a well-formed file. *)
Lemma section_cases file name dest : elf_ok STRTBL_SIZE_MAX file -> cstr_ok name ->
  (exists j, 0 <= j < e_shnum file /\ sec_name file j name /\ (forall k, 0 <= k < j -> ~ sec_name file k name) /\
     exists pos, 0 <= pos /\
     Get_Elf_Section dest name (Some file) =
     (false, if sec_size file j >? dest then G_err EINVAL
             else let b := rd file (seek pos (sec_off file j)) (sec_size file j) in
                  if negb (zlen b =? sec_size file j) || (sec_size file j =? 0) then G_err EINVAL else G_ok b)) \/
  ((forall j, 0 <= j < e_shnum file -> ~ sec_name file j name) /\
   Get_Elf_Section dest name (Some file) = (false, G_err EINVAL)).
Proof.
  intros H Hc. pose proof (ok_bytes _ _ H) as Hb. pose proof (ok_len _ _ H) as Hl. pose proof (ok_table _ _ H) as Ht.
  destruct (ok_names _ _ H) as (N1 & N2 & N3).
  assert (0 <= e_shnum file) by (apply num_nonneg; exact Hb).
  assert (0 <= e_shoff file) by (apply num_nonneg; exact Hb).
  assert (0 <= sec_size file (e_shstrndx file)) by (apply num_nonneg; exact Hb).
  unfold Get_Elf_Section. rewrite (parse_ok _ _ H). cbn [h_shentsize h_shnum h_shoff].
  rewrite (ok_entsize _ _ H). change (64 =? 64) with true. cbn [negb andb].
  destruct (load_strtbl file (mk_ehdr (e_shoff file) 64 (e_shnum file) (e_shstrndx file)) Hb ltac:(lia) Ht N1)
    as (pos & Hp & El). { rewrite (ok_entsize _ _ H). reflexivity. }
  rewrite El. clear El. rewrite Z.gtb_ltb. destruct (Z.ltb_spec STRTBL_SIZE_MAX (sec_size file (e_shstrndx file))); [lia|].
  unfold sec_inside in N2. rewrite (seek_small _ (sec_off file (e_shstrndx file))) by lia. rewrite rd_at.
  fold (sec_data file (e_shstrndx file)). rewrite seek_small by lia.
  pose proof (by_name_finds file name (Z.to_nat (e_shnum file)) Hb Ht (ok_named _ _ H) Hc 0 ltac:(lia) ltac:(lia)) as B.
  assert (E0 : sec_hdr file 0 = e_shoff file) by (unfold sec_hdr; lia). rewrite E0 in B. clear E0.
  destruct (get_shdr_by_name _ _ _ _ _) as [| |s p]; [destruct B| |].
  - right. split; [exact B|reflexivity].
  - left. destruct B as (j & J1 & J2 & J3 & -> & J5). exists j. split; [exact J1|]. split; [exact J2|].
    split; [exact J3|]. exists p. split; [exact J5|]. cbn [sh_size sh_offset].
    destruct (sec_size file j >? dest); [reflexivity|]. destruct (_ || _); reflexivity.
Qed.

Lemma sec_name_fun file i n1 n2 : sec_name file i n1 -> sec_name file i n2 -> n1 = n2.
Proof.
  intros H1 H2. pose proof (strcmp_sec file i n1 n1 H1 (proj1 H1)) as E1.
  rewrite (strcmp_sec file i n1 n2 H2 (proj1 H1)) in E1. rewrite bytes_eqb_refl in E1.
  injection E1 as E1. apply bytes_eqb_eq. exact E1.
Qed.

(** Names that do not fit the buffer. *)
Lemma skipn_repeat {A} (x : A) n m : skipn n (repeat x m) = repeat x (m - n).
Proof. revert m; induction n as [|n IH]; intros m; [rewrite Nat.sub_0_r; reflexivity|]. destruct m; [reflexivity|]. apply IH. Qed.

Lemma strcmp_unread name n : strcmp_buf name (skipn n (fill [])) = None.
Proof. unfold fill. cbn [map app List.length]. rewrite skipn_repeat. destruct (_ - n)%nat; destruct name; reflexivity. Qed.

Lemma section_names_too_long limit file name dest : elf_ok limit file -> 0 < e_shnum file ->
  STRTBL_SIZE_MAX < sec_size file (e_shstrndx file) ->
  Get_Elf_Section dest name (Some file) = (false, G_UB).
Proof.
  intros H Hn Hs. pose proof (ok_bytes _ _ H) as Hb. pose proof (ok_len _ _ H) as Hl. pose proof (ok_table _ _ H) as Ht.
  destruct (ok_names _ _ H) as (N1 & N2 & N3).
  assert (0 <= e_shoff file) by (apply num_nonneg; exact Hb).
  unfold Get_Elf_Section. rewrite (parse_ok _ _ H). cbn [h_shentsize h_shnum h_shoff].
  rewrite (ok_entsize _ _ H). change (64 =? 64) with true. cbn [negb andb].
  destruct (load_strtbl file (mk_ehdr (e_shoff file) 64 (e_shnum file) (e_shstrndx file)) Hb ltac:(lia) Ht N1)
    as (pos & Hp & El). { rewrite (ok_entsize _ _ H). reflexivity. }
  rewrite El. clear El. rewrite Z.gtb_ltb. destruct (Z.ltb_spec STRTBL_SIZE_MAX (sec_size file (e_shstrndx file))); [|lia].
  rewrite seek_small by lia. assert (E0 : e_shoff file = sec_hdr file 0) by (unfold sec_hdr; lia). rewrite E0.
  destruct (Z.to_nat (e_shnum file)) as [|n] eqn:En; [lia|]. cbn [get_shdr_by_name].
  destruct (hdr_read file Hb Ht 0) as (G0 & G1); [lia|]. rewrite G1. change (negb (64 =? 64)) with false. cbn iota.
  rewrite strcmp_unread. reflexivity.
Qed.
