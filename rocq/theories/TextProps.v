(** Property theorems about text handling: C23, C24, C44-C46, C52-C54. *)
From Coq Require Import String.
From Verif Require Import Base BaseFacts StrModel TextModel TextSpec TextProofs.

(** ** C44 *)

(** C44: a version string a.b.c is parsed to a number from which the three
    components are printed again, whatever follows a further dot. *)
Theorem C44_parse_and_print :
  forall ta tb tc a b c tl,
    decimal ta a -> decimal tb b -> decimal tc c ->
    short a -> short b -> short c -> tail_ok tl ->
    let v := ulp_version_from_string (dotted ta tb tc ++ tl) in
    exists pa pb pc, ulp_version_as_string v = dotted pa pb pc /\
      decimal pa a /\ decimal pb b /\ decimal pc c /\
      zlen (ulp_version_as_string v) + 1 <= 18.
Proof.
  intros ta tb tc a b c tl A B C Ha Hb Hc T v. unfold v.
  rewrite (version_ok ta tb tc a b c tl) by assumption.
  destruct (version_fields a b c Ha Hb Hc) as (F1 & F2 & F3).
  exists (print_dec a), (print_dec b), (print_dec c).
  unfold ulp_version_as_string. rewrite F1, F2, F3.
  assert (P : forall n, short n -> decimal (print_dec n) n /\ (length (print_dec n) <= 5)%nat).
  { intros n N. unfold short in N. split; [apply print_dec_spec; lia|].
    pose proof (dec_go_len 20 n [] 5 ltac:(lia) ltac:(lia)) as L. exact L. }
  destruct (P a Ha) as [Pa La], (P b Hb) as [Pb Lb], (P c Hc) as [Pc Lc].
  repeat split; try assumption.
  unfold zlen. rewrite !app_length. cbn [length]. lia.
Qed.
Print Assumptions C44_parse_and_print.

Example C44_print_case :
  ulp_version_as_string (ulp_version_from_string (zs "0.3.012")) = zs "0.3.12" /\
  ulp_version_as_string (ulp_version_from_string (zs "65535.65535.65535")) = zs "65535.65535.65535".
Proof. vm_compute. auto. Qed.

(** C44: comparing parsed versions as numbers is comparing the triples. *)
Theorem C44_order :
  forall ta tb tc a b c tl ta' tb' tc' a' b' c' tl',
    decimal ta a -> decimal tb b -> decimal tc c -> short a -> short b -> short c -> tail_ok tl ->
    decimal ta' a' -> decimal tb' b' -> decimal tc' c' -> short a' -> short b' -> short c' -> tail_ok tl' ->
    let v := ulp_version_from_string (dotted ta tb tc ++ tl) in
    let v' := ulp_version_from_string (dotted ta' tb' tc' ++ tl') in
    (v < v' <-> lex3 a b c a' b' c') /\
    (v = v' <-> a = a' /\ b = b' /\ c = c').
Proof.
  intros ta tb tc a b c tl ta' tb' tc' a' b' c' tl' A B C Ha Hb Hc T A' B' C' Ha' Hb' Hc' T' v v'.
  unfold v, v'. rewrite (version_ok ta tb tc a b c tl), (version_ok ta' tb' tc' a' b' c' tl') by assumption.
  rewrite !triplet_val by assumption. unfold short, lex3 in *. split; lia.
Qed.
Print Assumptions C44_order.

Example C44_order_case :
  ulp_version_from_string (zs "0.2.65535") < ulp_version_from_string (zs "0.3.0") /\
  ulp_version_from_string (zs "0.3.9") < ulp_version_from_string (zs "0.3.10").
Proof. vm_compute. auto. Qed.

(** C44: malformed components are refused: text that is not a number, numbers
    over 65535, fewer than three components. Missing: numbers from 2^32 to 2^63,
    see [C44_wrapped_component_refuted]. *)
Theorem C44_malformed_refused_partial :
  (forall t1 t2 t3 tl,
     component t1 -> component t2 -> component t3 -> tail_ok tl ->
     bad_component t1 \/ bad_component t2 \/ bad_component t3 ->
     ulp_version_from_string (dotted t1 t2 t3 ++ tl) = 0) /\
  (forall t1 t2, component t1 -> component t2 ->
     ulp_version_from_string [] = 0 /\ ulp_version_from_string t1 = 0 /\
     ulp_version_from_string (t1 ++ [46] ++ t2) = 0).
Proof.
  split.
  - intros t1 t2 t3 tl C1 C2 C3 T B. unfold ulp_version_from_string, dotted.
    replace ((t1 ++ [46] ++ t2 ++ [46] ++ t3) ++ tl) with (t1 ++ 46 :: t2 ++ 46 :: t3 ++ tl)
      by (rewrite <- !app_assoc; reflexivity).
    pose proof (strtok_comp t1 (t2 ++ 46 :: t3 ++ tl) C1) as S1.
    pose proof (strtok_comp t2 (t3 ++ tl) C2) as S2.
    destruct (strtok_tail t3 tl C3 T) as (r & S3).
    destruct B as [B|[B|B]].
    + rewrite (bad_component_refused t1 _ _ _ _ C1 B S1). reflexivity.
    + destruct (version_step 2 t1 _ _ [] C1 S1) as [->|[v ->]]; [reflexivity|].
      rewrite (bad_component_refused t2 _ _ _ _ C2 B S2). reflexivity.
    + destruct (version_step 2 t1 _ _ [] C1 S1) as [->|[v ->]]; [reflexivity|].
      destruct (version_step 1 t2 _ _ ([] ++ [v]) C2 S2) as [->|[w ->]]; [reflexivity|].
      rewrite (bad_component_refused t3 _ _ _ _ C3 B S3). reflexivity.
  - intros t1 t2 C1 C2. split; [reflexivity|]. unfold ulp_version_from_string. split.
    + destruct (version_step 2 t1 _ _ [] C1 (strtok_comp_end t1 C1)) as [->|[v ->]]; reflexivity.
    + destruct (version_step 2 t1 _ _ [] C1 (strtok_comp t1 t2 C1)) as [E|[v E]];
        cbn [app] in *; rewrite E; [reflexivity|].
      destruct (version_step 1 t2 _ _ [v] C2 (strtok_comp_end t2 C2)) as [->|[w ->]]; reflexivity.
Qed.
Print Assumptions C44_malformed_refused_partial.

Example C44_malformed_case :
  bad_component (zs "65536") /\ bad_component (zs "3rc1") /\
  ulp_version_from_string (zs "0.65536.1") = 0 /\ ulp_version_from_string (zs "0.3.3rc1") = 0.
Proof.
  split; [|split; [|vm_compute; auto]].
  - right. exists 65536. split; [|lia]. change (zs "65536") with (zs "6553" ++ [48 + 6]).
    change 65536 with (10 * 6553 + 6). apply dec_more; [|lia].
    change (zs "6553") with (zs "655" ++ [48 + 3]).
    change 6553 with (10 * 655 + 3). apply dec_more; [|lia].
    change (zs "655") with (zs "65" ++ [48 + 5]).
    change 655 with (10 * 65 + 5). apply dec_more; [|lia].
    change (zs "65") with ([48 + 6] ++ [48 + 5]).
    change 65 with (10 * 6 + 5). apply dec_more; [|lia]. constructor; lia.
  - left. intros v D. apply decimal_digits in D. destruct D as (D & _). discriminate D.
Qed.

(** C44 is false as stated: the version 4294967297.0.0 (a component far above
    65535) is accepted and taken for version 1.0.0, because the number is
    converted through int before its range is checked. *)
Theorem C44_wrapped_component_refuted :
  exists t, component t /\ decimal t 4294967297 /\
    ulp_version_from_string (dotted t (zs "0") (zs "0")) =
    ulp_version_from_string (zs "1.0.0") /\
    ulp_version_from_string (zs "1.0.0") <> 0.
Proof.
  exists (zs "4294967297").
  assert (D : decimal (zs "4294967297") 4294967297).
  { change 4294967297 with (dec_val (zs "4294967297")). apply digits_decimal; [reflexivity|discriminate]. }
  split; [apply (decimal_no_dot _ _ D)|]. split; [exact D|]. split; [vm_compute; reflexivity|discriminate].
Qed.
Print Assumptions C44_wrapped_component_refuted.

(** ** C45 *)

Fixpoint mem_str (s : list Z) (l : list (list Z)) : bool :=
  match l with
  | [] => false
  | x :: t => bytes_eqb x s || mem_str s t
  end.
Fixpoint distinct (l : list (list Z)) : bool :=
  match l with
  | [] => true
  | x :: t => negb (mem_str x t) && distinct t
  end.

(** C45 for all codes but the last two: the message is the one listed for the
    code, no two of these codes share a message, and codes up to 255 get the
    system's message. Missing: ENOLIBDL and ENOLIBC, see
    [C45_last_messages_refuted]. *)
Theorem C45_messages_partial :
  forall strerror : Z -> list Z,
    (forall e s, In (e, s) messages -> e < 288 -> libpulp_strerror strerror e = zs s) /\
    (forall e e', 256 <= e < 288 -> 256 <= e' < 288 ->
       libpulp_strerror strerror e = libpulp_strerror strerror e' -> e = e') /\
    (forall e, e < 256 -> libpulp_strerror strerror e = strerror e).
Proof.
  intros strerror.
  assert (A : forall e s, In (e, s) messages -> e < 288 -> libpulp_strerror strerror e = zs s).
  { intros e s H L. cbn [In messages] in H.
    repeat (destruct H as [H|H]; [injection H as <- <-; try (exfalso; lia); vm_compute; reflexivity|]).
    contradiction. }
  split; [exact A|]. split.
  - intros e e' H H' E.
    assert (N : forall k, 256 <= k < 288 ->
              libpulp_strerror strerror k = nth (Z.to_nat (k - 256)) ULP_ERRLIST []).
    { intros k K. unfold libpulp_strerror. change (zlen ULP_ERRLIST) with 33.
      destruct (255 <? k) eqn:E1; [|lia]. destruct (k <? 256 + 33) eqn:E2; [|lia]. cbn [andb].
      change 255 with (Z.ones 8). rewrite Z.land_ones by lia. f_equal. change (2 ^ 8) with 256. zdm. }
    rewrite !N in E by assumption.
    assert (ND : NoDup ULP_ERRLIST).
    { assert (F : forall l, distinct l = true -> NoDup l).
      { induction l as [|x l IH]; intros D; [constructor|]. cbn in D. apply andb_true_iff in D.
        destruct D as [D1 D2]. constructor; [|apply IH; exact D2].
        intros X. assert (M : mem_str x l = true).
        { clear -X. induction l as [|y l IH]; [contradiction|]. cbn. destruct X as [->|X].
          - rewrite (proj2 (bytes_eqb_eq _ _) eq_refl). reflexivity.
          - rewrite (IH X). apply orb_true_r. }
        rewrite M in D1. discriminate D1. }
      apply F. vm_compute. reflexivity. }
    apply (proj1 (NoDup_nth ULP_ERRLIST []) ND) in E; [lia| |];
      change (length ULP_ERRLIST) with 33%nat; lia.
  - intros e L. unfold libpulp_strerror. destruct (255 <? e) eqn:X; [lia|reflexivity].
Qed.
Print Assumptions C45_messages_partial.

Example C45_case :
  libpulp_strerror (fun _ => []) 278 = zs "Function is not livepatchable".
Proof. vm_compute. reflexivity. Qed.

(** C45 is false as stated: ENOLIBDL's message runs into ENOLIBC's, and ENOLIBC
    has none but the system's text for an unknown number. *)
Theorem C45_last_messages_refuted :
  forall strerror : Z -> list Z,
    In (288, "Libdl not found."%string) messages /\
    libpulp_strerror strerror 288 = zs "Libdl not found.Libc not found or unsupported." /\
    In (289, "Libc not found or unsupported."%string) messages /\
    libpulp_strerror strerror 289 = strerror 289.
Proof.
  intros strerror. repeat split; try (vm_compute; reflexivity); cbn [In messages]; tauto.
Qed.
Print Assumptions C45_last_messages_refuted.

(** ** C46 *)

(** C46: the base name of a path is the text after its last slash, whatever the
    directory; a path without slash is its own base name. *)
Theorem C46_basename :
  forall dir base, ~ In 47 base ->
    get_basename (dir ++ [47] ++ base) = base /\ get_basename base = base.
Proof.
  intros dir base H. unfold get_basename, SLASH. cbn [app].
  rewrite after_last_some, after_last_none by exact H. auto.
Qed.
Print Assumptions C46_basename.

(** C46: hence every path has a base name without slash, and replacing the
    directory part does not change it. *)
Theorem C46_directory_irrelevant :
  forall path,
    ~ In 47 (get_basename path) /\
    (path = get_basename path \/ exists dir, path = dir ++ [47] ++ get_basename path) /\
    forall dir', get_basename (dir' ++ [47] ++ path) = get_basename path.
Proof.
  intros path.
  assert (S : (~ In 47 path) \/ exists dir base, path = dir ++ [47] ++ base /\ ~ In 47 base).
  { induction path as [|x path IH]; [left; intros []|].
    destruct IH as [IH|(dir & base & -> & IH)].
    - destruct (Z.eq_dec x 47) as [->|N].
      + right. exists [], path. split; [reflexivity|exact IH].
      + left. intros [X|X]; [congruence|apply (IH X)].
    - right. exists (x :: dir), base. split; [reflexivity|exact IH]. }
  destruct S as [S|(dir & base & E & S)].
  - destruct (C46_basename [] path S) as [_ B]. rewrite B. split; [exact S|]. split; [auto|].
    intros dir'. apply (C46_basename dir' path S).
  - assert (B : get_basename path = base) by (rewrite E; apply C46_basename; exact S).
    rewrite B. split; [exact S|]. split; [right; exists dir; exact E|].
    intros dir'. rewrite E.
    replace (dir' ++ [47] ++ dir ++ [47] ++ base) with ((dir' ++ [47] ++ dir) ++ [47] ++ base)
      by (rewrite <- !app_assoc; reflexivity).
    apply C46_basename. exact S.
Qed.
Print Assumptions C46_directory_irrelevant.

Example C46_case :
  get_basename (zs "/usr/lib64/libc.so.6") = zs "libc.so.6" /\
  get_basename (zs "libc.so.6") = zs "libc.so.6" /\ get_basename (zs "/usr/lib64/") = [].
Proof. vm_compute. auto. Qed.

(** ** C24 *)

(** C24: the text of a build ID is 40 lower-case hexadecimal digits and reads
    back as that build ID. *)
Theorem C24_print_and_read :
  forall id, is_build_id_value id ->
    length (buildid_to_string id) = 40%nat /\
    Forall is_lower_hex (buildid_to_string id) /\
    str_to_buildid (buildid_to_string id) = IdOk id.
Proof.
  intros id H. pose proof H as [B L].
  split; [rewrite buildid_text_length, L; reflexivity|].
  split; [apply buildid_text_chars; exact B|apply buildid_roundtrip; exact H].
Qed.
Print Assumptions C24_print_and_read.

(** C24: distinct build IDs have distinct texts. *)
Theorem C24_injective :
  forall id id', is_build_id_value id -> is_build_id_value id' ->
    buildid_to_string id = buildid_to_string id' -> id = id'.
Proof.
  intros id id' H H' E. pose proof (buildid_roundtrip id H) as R. rewrite E, buildid_roundtrip in R by exact H'.
  congruence.
Qed.
Print Assumptions C24_injective.

Definition w_id : list Z :=
  [51; 138; 164; 209; 108; 152; 221; 167; 175; 23; 12; 200; 226; 181; 157; 37; 155; 213; 212; 244].

Example C24_case :
  is_build_id_value w_id /\ buildid_to_string w_id = zs "338aa4d16c98dda7af170cc8e2b59d259bd5d4f4".
Proof.
  split; [|vm_compute; reflexivity]. split; [|reflexivity].
  unfold w_id, bytes_ok. repeat (apply Forall_cons; [unfold is_byte; lia|]). apply Forall_nil.
Qed.

(** ** C52 *)

(** C52, what is accepted without undefined behaviour: texts that start with 40
    hexadecimal digits give a well-formed build ID, and texts of fewer than 20
    characters are refused. Missing: see [C52_short_text_refuted]. *)
Theorem C52_malformed_partial :
  (forall s rest, length s = 40%nat -> Forall is_hex s ->
     exists id, str_to_buildid (s ++ rest) = IdOk id /\ length id = 20%nat /\ bytes_ok id) /\
  (forall s, (length s < 20)%nat -> str_to_buildid s = IdInvalid).
Proof.
  split.
  - intros s rest L H. unfold str_to_buildid.
    assert (G : forall n s, length s = (2 * n)%nat -> Forall is_hex s ->
              exists id, str_to_buildid_loop n (s ++ rest) = Some id /\ length id = n /\ bytes_ok id).
    { clear. induction n as [|n IH]; intros s L H.
      - exists []. repeat split. constructor.
      - destruct s as [|a [|b s]]; cbn in L; try lia.
        inversion H as [|? ? Ha H']; subst. inversion H' as [|? ? Hb Hs]; subst.
        destruct (IH s ltac:(lia) Hs) as (id & I1 & I2 & I3).
        destruct (proj2 (unhex_iff a) Ha) as (x & X). destruct (proj2 (unhex_iff b) Hb) as (y & Y).
        exists ((16 * x + y) :: id). cbn [app str_to_buildid_loop scan_hex2 skipn]. rewrite X, Y, I1.
        split; [reflexivity|]. split; [cbn; lia|]. constructor; [|exact I3].
        assert (R : forall c v, unhex c = Some v -> 0 <= v < 16).
        { clear. intros c v. unfold unhex. 
          destruct ((48 <=? c) && (c <=? 57)) eqn:E1; [intros E; apply Some_inj in E; lia|].
          destruct ((97 <=? c) && (c <=? 102)) eqn:E2; [intros E; apply Some_inj in E; lia|].
          destruct ((65 <=? c) && (c <=? 70)) eqn:E3; [intros E; apply Some_inj in E; lia|discriminate]. }
        apply R in X, Y. unfold is_byte. lia. }
    destruct (G 20%nat s L H) as (id & I1 & I2 & I3). rewrite I1. exists id. split; [|auto].
    unfold zlen. rewrite app_length, L.
    destruct (Z.ltb_spec (Z.of_nat (40 + length rest)) 20); [lia|reflexivity].
  - intros s L. unfold str_to_buildid. destruct (Z.ltb_spec (zlen s) 20); [reflexivity|]. unfold zlen in *; lia.
Qed.
Print Assumptions C52_malformed_partial.

Example C52_case :
  str_to_buildid (zs "338aa4d16c98dda7af") = IdInvalid /\
  str_to_buildid (zs "338AA4D16C98DDA7AF170CC8E2B59D259BD5D4F4") = IdOk w_id.
Proof. vm_compute. auto. Qed.

(** C52 is false as stated: every text of 20 to 39 hexadecimal digits passes the
    length test (which counts characters where it should count digit pairs) and
    is read past its end. *)
Theorem C52_short_text_refuted :
  forall s, (20 <= length s < 40)%nat -> str_to_buildid s = IdUB.
Proof.
  intros s L. unfold str_to_buildid. destruct (Z.ltb_spec (zlen s) 20); [unfold zlen in *; lia|].
  assert (G : forall n s, (length s < 2 * n)%nat -> str_to_buildid_loop n s = None).
  { clear. induction n as [|n IH]; intros s L; [lia|]. cbn [str_to_buildid_loop].
    destruct s as [|a [|b s]]; [reflexivity|reflexivity|]. cbn [scan_hex2 skipn].
    destruct (unhex a); [|reflexivity]. destruct (unhex b); [|reflexivity].
    rewrite IH; [reflexivity|]. cbn in L. lia. }
  rewrite G; [reflexivity|lia].
Qed.
Print Assumptions C52_short_text_refuted.

Example C52_short_case : (20 <= length (zs "338aa4d16c98dda7af170cc8e2") < 40)%nat.
Proof. cbn. lia. Qed.

(** ** C23 *)

(** C23 for libraries whose symbols lie below 2 GiB: reading the JSON file back
    (through any printer and reader of JSON values that are inverse to each
    other) gives the description the file was written from.
    Missing: symbols at 2^31 and above, see [C23_high_symbol_refuted]. *)
Theorem C23_roundtrip_partial :
  forall (print : json -> list Z) (read : list Z -> option json),
    (forall j, read (print j) = Some j) ->
    forall i, so_info_ok i -> (forall s, In s (so_symbols i) -> sy_offset s < 2 ^ 31) ->
      parse_so_json (read (print (write_ulp_so_info_json i))) = SoOk i.
Proof.
  intros print read RP i [B S] L. rewrite RP.
  rewrite (parse_written i (so_symbols i)); [destruct i; reflexivity|exact B|].
  apply parse_symbols_written; [exact S|]. apply Forall_forall. exact L.
Qed.
Print Assumptions C23_roundtrip_partial.

(** C23: the name, the build ID, and every field of the symbols except the
    offset survive for all libraries. *)
Theorem C23_other_fields_partial :
  forall i, so_info_ok i ->
    exists syms, parse_so_json (Some (write_ulp_so_info_json i)) =
                   SoOk (mkSo (so_name i) (so_buildid i) syms) /\
      Forall2 (fun s s' => sy_name s' = sy_name s /\ sy_size s' = sy_size s /\
                           sy_info s' = sy_info s /\ sy_other s' = sy_other s /\
                           sy_offset s' mod 2 ^ 32 = sy_offset s mod 2 ^ 32)
        (so_symbols i) syms.
Proof.
  intros i [B S].
  assert (G : exists syms, parse_symbols_json (map get_json_symbol (so_symbols i)) = Some syms /\
      Forall2 (fun s s' => sy_name s' = sy_name s /\ sy_size s' = sy_size s /\
                           sy_info s' = sy_info s /\ sy_other s' = sy_other s /\
                           sy_offset s' mod 2 ^ 32 = sy_offset s mod 2 ^ 32)
        (so_symbols i) syms).
  { induction S as [|s l H S IH]; [exists []; split; [reflexivity|constructor]|].
    destruct IH as (syms & I1 & I2). cbn [map parse_symbols_json].
    rewrite parse_symbol_written, I1 by exact H. eexists. split; [reflexivity|].
    constructor; [|exact I2]. cbn. repeat split.
    etransitivity; [apply (mod_down (s32 (sy_offset s)))|apply s32_mod]. }
  destruct G as (syms & G1 & G2). exists syms. split; [|exact G2].
  apply parse_written; assumption.
Qed.
Print Assumptions C23_other_fields_partial.

(** C23: the tool's own test for equal descriptions is equality. *)
Theorem C23_comparison_exact :
  forall a b, so_info_equal a b = true <-> a = b.
Proof. exact so_info_equal_eq. Qed.
Print Assumptions C23_comparison_exact.

Definition w_so (off : Z) : so_info :=
  mkSo (zs "libdozens.so.0") w_id [mkSym (zs "dozen") off 11 18 0; mkSym (zs "cacheline") 16384 4294967295 17 2].

Example C23_case :
  so_info_ok (w_so 4368) /\ parse_so_json (Some (write_ulp_so_info_json (w_so 4368))) = SoOk (w_so 4368).
Proof.
  split; [|vm_compute; reflexivity]. split; [apply C24_case|].
  repeat (apply Forall_cons; [unfold symbol_ok, is_byte; cbn; lia|]). apply Forall_nil.
Qed.

(** C23 is false as stated: an offset of 2^31 comes back as 2^64 - 2^31. *)
Theorem C23_high_symbol_refuted :
  so_info_ok (w_so (2 ^ 31)) /\
  parse_so_json (Some (write_ulp_so_info_json (w_so (2 ^ 31)))) = SoOk (w_so (2 ^ 64 - 2 ^ 31)).
Proof.
  split; [|vm_compute; reflexivity]. split; [apply C24_case|].
  repeat (apply Forall_cons; [unfold symbol_ok, is_byte; cbn; lia|]). apply Forall_nil.
Qed.
Print Assumptions C23_high_symbol_refuted.

(** ** C53 *)

(** C53: the description made from an ELF file has exactly the symbols of its two
    symbol tables that have a name (sizes below 2^32), under the file's base
    name and build ID. *)
Theorem C53_elf_symbols :
  forall dir base id dynsym symtab i,
    ~ In 47 base ->
    (forall e, In e (dynsym ++ symtab) -> 0 <= es_size e < 2 ^ 32) ->
    parse_so_elf (dir ++ [47] ++ base) (Some id) dynsym symtab = Some i ->
    so_name i = base /\ so_buildid i = id /\
    forall s, In s (so_symbols i) <->
      exists e, In e (dynsym ++ symtab) /\ es_name e <> [] /\ s = elf_symbol e.
Proof.
  intros dir base id dynsym symtab i NB SZ E. unfold parse_so_elf in E.
  destruct (negb (zlen id =? 20)); [discriminate|]. apply Some_inj in E. subst i. cbn.
  split; [apply C46_basename; exact NB|]. split; [reflexivity|].
  intros s. unfold build_symbols_list, get_list_of_symbols_in_section.
  rewrite !section_loop_rev, !app_nil_r. rewrite in_app_iff, <- !in_rev, !in_map_iff.
  assert (G : forall l, (forall e, In e l -> 0 <= es_size e < 2 ^ 32) ->
     ((exists x, mkSym (es_name x) (es_value x) (u32 (es_size x)) (es_info x) (es_other x) = s /\
        In x (filter (fun s => match es_name s with [] => false | _ => true end) l)) <->
      exists e, In e l /\ es_name e <> [] /\ s = elf_symbol e)).
  { intros l H. split.
    - intros (x & <- & X). apply filter_In in X. destruct X as [X1 X2]. exists x. split; [exact X1|].
      split; [destruct (es_name x); [discriminate|discriminate]|]. unfold elf_symbol.
      f_equal. unfold u32. apply Z.mod_small. apply H; exact X1.
    - intros (e & X1 & X2 & ->). exists e. split.
      + unfold elf_symbol. f_equal. unfold u32. apply Z.mod_small. apply H; exact X1.
      + apply filter_In. split; [exact X1|]. destruct (es_name e); congruence. }
  rewrite !G by (intros e X; apply SZ, in_app_iff; auto). split.
  - intros [(e & X1 & X2)|(e & X1 & X2)]; exists e; split; auto; apply in_app_iff; auto.
  - intros (e & X1 & X2). apply in_app_iff in X1. destruct X1; [left|right]; exists e; auto.
Qed.
Print Assumptions C53_elf_symbols.

(** C53: after merging debug information, a name the library itself has is
    resolved as before, any other name as in the debug information. *)
Theorem C53_merge_prefers_library :
  forall a b name,
    so_name (merge_ulp_so_infos a b) = so_name a /\
    so_buildid (merge_ulp_so_infos a b) = so_buildid a /\
    get_symbol_with_name (merge_ulp_so_infos a b) name =
      match get_symbol_with_name a name with
      | Some s => Some s
      | None => get_symbol_with_name b name
      end /\
    (forall s, get_symbol_with_name a name = Some s -> sy_name s = name /\ In s (so_symbols a)) /\
    (get_symbol_with_name a name = None -> forall s, In s (so_symbols a) -> sy_name s <> name).
Proof.
  intros a b name. split; [reflexivity|]. split; [reflexivity|]. split; [|split].
  - unfold get_symbol_with_name, merge_ulp_so_infos. cbn.
    induction (so_symbols a) as [|x l IH]; [reflexivity|]. cbn. destruct (bytes_eqb (sy_name x) name); auto.
  - intros s E. apply find_some in E. destruct E as [E1 E2]. apply bytes_eqb_eq in E2. auto.
  - intros E s H X. pose proof (find_none _ _ E s H) as N. cbn in N. rewrite X in N.
    rewrite (proj2 (bytes_eqb_eq _ _) eq_refl) in N. discriminate N.
Qed.
Print Assumptions C53_merge_prefers_library.

Example C53_case :
  match parse_so_elf (zs "/lib/libdozens.so.0") (Some w_id)
          [mkElfSym [] 0 0 0 0; mkElfSym (zs "dozen") 4368 11 18 0]
          [mkElfSym (zs "helper") 4400 8 2 0] with
  | Some i =>
      so_symbols i = [mkSym (zs "dozen") 4368 11 18 0; mkSym (zs "helper") 4400 8 2 0] /\
      option_map sy_offset
        (get_symbol_with_name (merge_ulp_so_infos i (mkSo [] [] [mkSym (zs "dozen") 1 1 1 1; mkSym (zs "x") 2 1 1 1]))
           (zs "dozen")) = Some 4368 /\
      option_map sy_offset
        (get_symbol_with_name (merge_ulp_so_infos i (mkSo [] [] [mkSym (zs "dozen") 1 1 1 1; mkSym (zs "x") 2 1 1 1]))
           (zs "x")) = Some 2
  | None => False
  end.
Proof. vm_compute. auto. Qed.

(** ** C54 *)

(** C54, safety: a path that is returned did not exist when it was tested, and
    is "/tmp/ulp-" followed by a decimal number, within the 24-byte buffer.
    Missing: that a path is returned at all, see [C54_clash_hangs_refuted]. *)
Theorem C54_path_unused_partial :
  forall random ex fuel p,
    (forall i t, random i = Some t -> 0 <= t < 2 ^ 32) ->
    create_path_to_tmp_file random ex fuel = TmpPath p ->
    ex p = false /\ zlen p + 1 <= 24 /\
    exists d t, p = zs "/tmp/ulp-" ++ d /\ decimal d t /\ 0 <= t < 2 ^ 32.
Proof.
  intros random ex fuel p R E. unfold create_path_to_tmp_file in E. destruct fuel as [|f]; [discriminate|].
  cbn [tmp_loop] in E. destruct (random 0%nat) as [t|] eqn:T; [|discriminate].
  pose proof (R _ _ T) as B.
  pose proof (dec_go_len 20 t [] 10 ltac:(lia) ltac:(lia)) as L. change (dec_go 20 t []) with (print_dec t) in L.
  rewrite firstn_all2 in E by (rewrite app_length; cbn [length zs]; cbn [length] in L; lia).
  destruct (ex (zs "/tmp/ulp-" ++ print_dec t)) eqn:X.
  - exfalso. clear -E. assert (H : forall f i, tmp_loop random ex f i true <> TmpPath p).
    { clear. induction f as [|f IH]; intros i; cbn [tmp_loop]; [discriminate|].
      destruct (random i); [|discriminate]. destruct (ex _); apply IH. }
    apply (H f 1%nat). exact E.
  - assert (P : p = zs "/tmp/ulp-" ++ print_dec t) by congruence. rewrite P. split; [exact X|]. split.
    + unfold zlen. rewrite app_length. cbn [length zs] in *. lia.
    + exists (print_dec t), t. repeat split; try lia. apply print_dec_spec. lia.
Qed.
Print Assumptions C54_path_unused_partial.

(** C54: with no clash on the first attempt the path is returned at once. *)
Theorem C54_first_attempt_partial :
  forall random ex fuel t,
    random 0%nat = Some t -> 0 <= t < 2 ^ 32 ->
    (forall p, ex p = false) ->
    exists p, create_path_to_tmp_file random ex (S fuel) = TmpPath p.
Proof.
  intros random ex fuel t T B E. unfold create_path_to_tmp_file. cbn [tmp_loop]. rewrite T, E. eauto.
Qed.
Print Assumptions C54_first_attempt_partial.

Example C54_case :
  create_path_to_tmp_file (fun i => Some (4294967295 - Z.of_nat i)) (fun _ => false) 1 =
    TmpPath (zs "/tmp/ulp-4294967295").
Proof. vm_compute. reflexivity. Qed.

(** C54 is false as stated: once the first candidate exists, the loop never ends,
    however many unused paths there are. *)
Theorem C54_clash_hangs_refuted :
  exists random ex,
    (forall i, exists t, random i = Some t /\ 0 <= t < 2 ^ 32) /\
    (forall p q, ex p = true -> ex q = true -> p = q) /\
    forall fuel, create_path_to_tmp_file random ex fuel = TmpRunning.
Proof.
  exists (fun i => Some (match i with O => 7 | S _ => 8 end)), (bytes_eqb (zs "/tmp/ulp-7")).
  split; [|split].
  - intros [|i]; eexists; split; try reflexivity; lia.
  - intros p q P Q. apply bytes_eqb_eq in P, Q. congruence.
  - intros [|f]; [reflexivity|]. unfold create_path_to_tmp_file.
    assert (U : tmp_loop (fun i => Some (match i with O => 7 | S _ => 8 end)) (bytes_eqb (zs "/tmp/ulp-7")) (S f) 0 false
              = tmp_loop (fun i => Some (match i with O => 7 | S _ => 8 end)) (bytes_eqb (zs "/tmp/ulp-7")) f 1 true)
      by reflexivity.
    rewrite U. apply tmp_conflict. intros [|j]; discriminate.
Qed.
Print Assumptions C54_clash_hangs_refuted.

(** C54, exactly: a path is returned if and only if the first number could be drawn and its path (with the number as %u prints it) does not exist; so after a first
    clash no path is ever returned. *)
Theorem C54_exact :
  forall random ex fuel p,
    (forall i t, random i = Some t -> 0 <= t < 2 ^ 32) ->
    (create_path_to_tmp_file random ex fuel = TmpPath p <->
     (0 < fuel)%nat /\ exists t, random 0%nat = Some t /\ p = zs "/tmp/ulp-" ++ print_dec t /\ ex p = false).
Proof.
  intros random ex fuel p R. unfold create_path_to_tmp_file.
  assert (S : forall f i q, tmp_loop random ex f i true <> TmpPath q).
  { induction f as [|f IH]; intros i q; cbn [tmp_loop]; [discriminate|]. destruct (random i); [|discriminate].
    destruct (ex _); apply IH. }
  destruct fuel as [|f]; cbn [tmp_loop]; [split; [discriminate|intros [H _]; lia]|].
  destruct (random 0%nat) as [t|] eqn:E; [|split; [discriminate|intros (_ & t & H & _); discriminate]].
  assert (P : firstn 23 (zs "/tmp/ulp-" ++ print_dec t) = zs "/tmp/ulp-" ++ print_dec t).
  { apply firstn_all2. pose proof (R _ _ E) as B.
    pose proof (dec_go_len 20 t [] 10 ltac:(lia) ltac:(lia)) as L. change (dec_go 20 t []) with (print_dec t) in L.
    rewrite app_length; cbn [length zs]; cbn [length] in L; lia. }
  rewrite P. destruct (ex (zs "/tmp/ulp-" ++ print_dec t)) eqn:X.
  - split; [intros H; exfalso; exact (S _ _ _ H)|]. intros (_ & t' & H & -> & H2). apply Some_inj in H. subst t'. congruence.
  - split.
    + intros H. injection H as H. split; [lia|]. exists t. subst p. auto.
    + intros (_ & t' & H & -> & _). apply Some_inj in H. subst t'. reflexivity.
Qed.
Print Assumptions C54_exact.
