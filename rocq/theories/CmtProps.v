(** C99: the comments of a description reach the user. *)
From Coq Require Import String.
From Verif Require Import Base BaseFacts StrModel MetaModel MetaSpec MetaProofs DscModel DscSpec DscProofs DscProps LibModel LibSpec
  NtModel NtSpec PackModel PackSpec PackProofs PackProps IntrModel IntrSpec IntrProps CmdModel CmtModel CmtSpec CmtProofs.

Lemma packed_sections fuel e d note st st' :
  packed fuel e d note st st' ->
  (desc_comments d = [] -> pk_secs st' (zs ".ulp.comments") = pk_secs st (zs ".ulp.comments")) /\
  (desc_comments d <> [] -> exists s, pk_secs st' (zs ".ulp.comments") = Some (s ++ [0]) /\
     recorded (de_junk e) 0 (desc_comments d) s /\ forall x, In x s -> x <> 0).
Proof.
  intros [D O (container & target & ids & Rc & Rt & Hd) (s0 & s1 & s2 & W0 & W1 & W2 & N0 & N1 & N2 & R)].
  assert (X : exists id m cm, pack e id (file_of d) = D_ok (m, cm) /\ patch_id fuel note (file_of d) = Id_ok id).
  { unfold run_packer in R. destruct (pack e (repeat 0 32) (file_of d)) as [x| |]; [|injection R; discriminate|discriminate].
    destruct (patch_id fuel note (file_of d)) as [id| | |]; [|injection R; discriminate|discriminate|discriminate].
    destruct (pack e id (file_of d)) as [[m cm]| |] eqn:P; [|discriminate|discriminate]. exists id, m, cm. auto. }
  destruct X as (id & m & cm & P & I).
  destruct (run_packer_works fuel e (file_of d) note s0 s1 s2 st id m cm P I W0 W1 W2 N0 N1 N2) as (st2 & R2 & _ & X).
  rewrite R in R2. injection R2 as R2. subst st2.
  destruct (pack_comments e id d container target ids m cm D O Rc Rt Hd P) as [C1 C2]. split.
  - intros H. rewrite X, (C1 H). reflexivity.
  - intros H. destruct (C2 H) as (s & -> & Rs & Nz). exists s. rewrite X. auto.
Qed.

(** What [ulp dump] writes of the section with the comments, for every container: nothing if there is none or it is empty, the
    text up to the first NUL otherwise; it leaves its buffer exactly if there is no NUL or the size needs more than 32 bits. *)
Theorem C99_dump_exact :
  forall (loads : bool) (sec : option (list Z)) (t : list Z),
    (dump_ulp_comments loads sec = I_ok t <->
       ((loads = false \/ sec = None \/ sec = Some []) /\ t = []) \/
       (loads = true /\ exists a b, sec = Some (a ++ 0 :: b) /\ ~ In 0 a /\ zlen (a ++ 0 :: b) < 2 ^ 32 /\ t = shown a)) /\
    (dump_ulp_comments loads sec = I_ub <->
       loads = true /\ exists s, sec = Some s /\ s <> [] /\ (~ In 0 s \/ 2 ^ 32 <= zlen s)) /\
    dump_ulp_comments loads sec <> I_hang /\ (forall c, dump_ulp_comments loads sec <> I_err c).
Proof.
  intros loads sec t. unfold dump_ulp_comments, extract_ulp_comment_to_mem.
  assert (EX : forall t', (I_ok (A := list Z) [] = I_ok t' <-> t' = [])) by (intros t'; split; [intros E; injection E as E; auto|intros ->; reflexivity]).
  destruct loads; cbn [negb].
  2:{ cbn [ibind]. split; [|split; [|split; [discriminate|intros c; discriminate]]].
      - split; [intros E; injection E as E; left; auto|]. intros [[_ ->]|[C _]]; [reflexivity|discriminate].
      - split; [discriminate|]. intros [C _]; discriminate. }
  destruct sec as [s|].
  2:{ cbn [ibind]. split; [|split; [|split; [discriminate|intros c; discriminate]]].
      - split; [intros E; injection E as E; left; auto|]. intros [[_ ->]|[_ (a & b & C & _)]]; [reflexivity|discriminate].
      - split; [discriminate|]. intros [_ (s & C & _)]; discriminate. }
  destruct s as [|x s].
  { cbn [ibind]. split; [|split; [|split; [discriminate|intros c; discriminate]]].
    - split; [intros E; injection E as E; left; auto|]. intros [[_ ->]|[_ (a & b & C & _)]]; [reflexivity|]. destruct a; discriminate.
    - split; [discriminate|]. intros [_ (s & C & N & _)]. injection C as <-. contradiction. }
  set (s' := x :: s). assert (Ns : s' <> []) by discriminate. clearbody s'. clear x s. rename s' into s.
  pose proof (zlen_nonneg s) as L.
  assert (U : (u32 (zlen s) <? zlen s) = (2 ^ 32 <=? zlen s)).
  { unfold u32. destruct (Z.leb_spec (2 ^ 32) (zlen s)) as [H|H].
    - pose proof (Z.mod_pos_bound (zlen s) (2 ^ 32) ltac:(lia)). apply Z.ltb_lt. lia.
    - rewrite Z.mod_small by lia. apply Z.ltb_irrefl. }
  rewrite U. destruct (Z.leb_spec (2 ^ 32) (zlen s)) as [H|H]; cbn [ibind].
  { split; [|split; [|split; [discriminate|intros c; discriminate]]].
    - split; [discriminate|]. intros [[[C|[C|C]] _]|[_ (a & b & C & _ & B & _)]]; [discriminate|discriminate|congruence|].
      injection C as C. rewrite <- C in B. lia.
    - split; [intros _; split; [reflexivity|]; exists s; auto|reflexivity]. }
  destruct (cut_nul s) as [N|(a & b & E & N)].
  - rewrite (c_string_none s N). cbn [ibind]. split; [|split; [|split; [discriminate|intros c; discriminate]]].
    + split; [discriminate|]. intros [[[C|[C|C]] _]|[_ (a & b & C & _)]]; [discriminate|discriminate|congruence|].
      injection C as C. destruct N. rewrite C. apply in_elt.
    + split; [intros _; split; [reflexivity|]; exists s; auto|reflexivity].
  - assert (CS : c_string s = I_ok a) by (rewrite E; apply c_string_app; exact N). rewrite CS. cbn [ibind].
    split; [|split; [|split; [discriminate|intros c; discriminate]]].
    + split.
      * intros X. injection X as X. right. split; [reflexivity|]. exists a, b. rewrite <- E. split; [reflexivity|].
        split; [intros I; exact (N 0 I eq_refl)|]. split; [exact H|]. symmetry. exact X.
      * intros [[[C|[C|C]] _]|[_ (a' & b' & C & N' & _ & ->)]]; [discriminate|discriminate|congruence|].
        injection C as C. assert (CS' : c_string s = I_ok a').
        { rewrite C. apply c_string_app. intros x I ->. exact (N' I). }
        rewrite CS in CS'. injection CS' as ->. reflexivity.
    + split; [discriminate|]. intros [_ (s2 & C & _ & B)]. injection C as <-. destruct B as [B|B]; [|lia].
      destruct B. rewrite E. apply in_elt.
Qed.
Print Assumptions C99_dump_exact.

(** After a packing in which nothing failed, the container has exactly what the memory of the packer left of the comment lines, and
    that is what [ulp dump] writes after its other output and what the labels of [ulp patches] are taken from. The first comment
    line is always there, whole and first. (The full claim is that all lines are: false, below.) *)
Theorem C99_recorded_partial :
  forall fuel e d note st st' t ts,
    packed fuel e d note st st' -> desc_comments d = t :: ts ->
    exists s more, s = with_newline t ++ more /\ recorded (de_junk e) 0 (desc_comments d) s /\
      pk_secs st' (zs ".ulp.comments") = Some (s ++ [0]) /\
      (zlen s + 1 < 2 ^ 32 ->
         forall sec given real only junk ls, run_dump sec given real only junk = Some (0, ls) ->
           dump_command sec (pk_secs st' (zs ".ulp.comments")) true given real only junk = I_ok (0, ls, shown s)) /\
      (forall labels, cstr_ok s -> has_labels s labels -> relevant_labels (pk_secs st' (zs ".ulp.comments")) = I_ok labels).
Proof.
  intros fuel e d note st st' t ts K C. destruct (packed_sections _ _ _ _ _ _ K) as [_ P].
  destruct P as (s & S1 & S2 & S3); [rewrite C; discriminate|].
  assert (M : exists more, s = with_newline t ++ more).
  { rewrite C in S2. inversion S2; subst; [exists []; rewrite app_nil_r; reflexivity|eexists; reflexivity]. }
  destruct M as (more & M). exists s, more. split; [exact M|]. split; [exact S2|]. split; [exact S1|]. split.
  - intros L sec given real only junk ls R. unfold dump_command. rewrite R. change (0 =? 0) with true. cbv iota.
    destruct (C99_dump_exact true (pk_secs st' (zs ".ulp.comments")) (shown s)) as [[_ X] _].
    rewrite X; [reflexivity|]. right. split; [reflexivity|]. exists s, []. split; [exact S1|].
    split; [intros I; exact (S3 0 I eq_refl)|]. split; [|reflexivity]. rewrite zlen_app. change (zlen [0]) with 1. lia.
  - intros labels Cs H. rewrite S1. apply C59_labels_partial; assumption.
Qed.
Print Assumptions C99_recorded_partial.

(** A description with one comment line, packed with memory that was zero before: the line is shown, and its labels are listed. *)
Theorem C99_one_line_partial :
  forall fuel e d note st st' t,
    packed fuel e d note st st' -> desc_comments d = [t] -> (forall x, de_junk e x = 0) -> zlen t < 2 ^ 31 ->
    (forall sec given real only junk ls, run_dump sec given real only junk = Some (0, ls) ->
       dump_command sec (pk_secs st' (zs ".ulp.comments")) true given real only junk = I_ok (0, ls, shown (all_comments d))) /\
    (forall labels, has_labels (all_comments d) labels -> relevant_labels (pk_secs st' (zs ".ulp.comments")) = I_ok labels).
Proof.
  intros fuel e d note st st' t K C Z L. destruct (C99_recorded_partial _ _ _ _ _ _ t [] K C) as (s & more & _ & R & S1 & S2 & S3).
  assert (A : all_comments d = with_newline t) by (unfold all_comments; rewrite C; apply app_nil_r).
  assert (E : s = with_newline t).
  { rewrite C in R. apply (recorded_unique _ _ _ _ _ R). apply rec_cut. apply Z. }
  rewrite A. subst s. split.
  - intros. apply S2; [|assumption]. rewrite zlen_line. lia.
  - intros labels H. apply S3; [|exact H]. apply Forall_app. split; [|constructor; [unfold is_cchar; lia|constructor]].
    apply (comment_line_ok d); [exact (pkd_desc _ _ _ _ _ _ K)|]. rewrite C. left. reflexivity.
Qed.
Print Assumptions C99_one_line_partial.

(** Finding: of two or more comment lines only the first is ever shown, and the labels in the others are never listed, when the
    memory of the packer was zero before (it is, on Linux: the buffer of 128 KiB is mapped fresh). *)
Theorem C99_later_lines_refuted :
  forall fuel e d note st st' t u ts,
    packed fuel e d note st st' -> desc_comments d = t :: u :: ts -> (forall x, de_junk e x = 0) -> zlen t < 2 ^ 31 ->
    with_newline t <> all_comments d /\
    (forall sec given real only junk ls, run_dump sec given real only junk = Some (0, ls) ->
       dump_command sec (pk_secs st' (zs ".ulp.comments")) true given real only junk = I_ok (0, ls, shown (with_newline t))) /\
    (forall labels, has_labels (with_newline t) labels -> relevant_labels (pk_secs st' (zs ".ulp.comments")) = I_ok labels).
Proof.
  intros fuel e d note st st' t u ts K C Z L. destruct (C99_recorded_partial _ _ _ _ _ _ t (u :: ts) K C) as (s & more & _ & R & S1 & S2 & S3).
  assert (E : s = with_newline t).
  { rewrite C in R. apply (recorded_unique _ _ _ _ _ R). apply rec_cut. apply Z. }
  subst s. split; [|split].
  - unfold all_comments. rewrite C. cbn [map concat]. intros X. apply (f_equal zlen) in X. rewrite !zlen_app, zlen_line, (zlen_line u) in X.
    pose proof (zlen_nonneg u). pose proof (zlen_nonneg (concat (map with_newline ts))). lia.
  - intros. apply S2; [|assumption]. rewrite zlen_line. lia.
  - intros labels H. apply S3; [|exact H]. apply Forall_app. split; [|constructor; [unfold is_cchar; lia|constructor]].
    apply (comment_line_ok d); [exact (pkd_desc _ _ _ _ _ _ K)|]. rewrite C. left. reflexivity.
Qed.
Print Assumptions C99_later_lines_refuted.

(** A description without comments packed into a container that had none: nothing is shown and no label is listed. (With an older
    section left in the container its text is shown: C78_stale_comments_refuted.) *)
Theorem C99_no_comments_partial :
  forall fuel e d note st st',
    packed fuel e d note st st' -> desc_comments d = [] -> pk_secs st (zs ".ulp.comments") = None ->
    relevant_labels (pk_secs st' (zs ".ulp.comments")) = I_ok [] /\
    forall sec loads given real only junk ls, run_dump sec given real only junk = Some (0, ls) ->
      dump_command sec (pk_secs st' (zs ".ulp.comments")) loads given real only junk = I_ok (0, ls, []).
Proof.
  intros fuel e d note st st' K C N. destruct (packed_sections _ _ _ _ _ _ K) as [P _]. rewrite (P C), N. split; [reflexivity|].
  intros sec loads given real only junk ls R. unfold dump_command. rewrite R. change (0 =? 0) with true. cbv iota.
  destruct (C99_dump_exact loads None []) as [[_ X] _]. rewrite X; [reflexivity|]. left. auto.
Qed.
Print Assumptions C99_no_comments_partial.

(** Finding: a section that another tool wrote without a closing NUL, or one of 4 GiB, is read or copied outside the buffer. *)
Theorem C99_unterminated_refuted :
  forall s sec given real only junk ls, run_dump sec given real only junk = Some (0, ls) ->
    s <> [] -> ~ In 0 s \/ 2 ^ 32 <= zlen s -> dump_command sec (Some s) true given real only junk = I_ub.
Proof.
  intros s sec given real only junk ls R N B. unfold dump_command. rewrite R. change (0 =? 0) with true. cbv iota.
  destruct (C99_dump_exact true (Some s) []) as (_ & [_ X] & _). rewrite X; [reflexivity|]. split; [reflexivity|]. exists s. auto.
Qed.
Print Assumptions C99_unterminated_refuted.

(** ** Cases: descriptions with no, one and two comment lines *)
Definition c99_desc (head : list ditem) : desc :=
  mk_desc head (zs "lp.so") [zs "dep.ulp"] [] (zs "libx.so") [DFunc (zs "f") (zs "f_new"); DRef true (zs "v") (zs "v_ref")].
Definition c99_note : option (list Z) := Some (note_bytes (gnu_build_id c78_bid)).
Definition c99_st : pkstate := mk_pk (fun _ => None) [].
Definition c99_after (head : list ditem) : pkstate :=
  match run_packer 1 c47_env (file_of (c99_desc head)) c99_note c78_sg c78_sg c78_sg c99_st with PK_done _ s => s | _ => c99_st end.
Definition c99_one : list ditem := [DComment (zs "F bsc#12.")].
Definition c99_two : list ditem := [DComment (zs "F bsc#12."); DComment (zs " F CVE-2023-1.")].

Lemma c99_ok head : Forall item_ok head -> Forall no_content head -> desc_ok (c99_desc head).
Proof.
  intros H1 H2. destruct c78_quiet_ok as [_ A B C D E]. constructor; [split; assumption|exact A|exact B|exact C|exact D|exact E].
Qed.
Lemma c99_packed head : Forall item_ok head -> Forall no_content head ->
  match run_packer 1 c47_env (file_of (c99_desc head)) c99_note c78_sg c78_sg c78_sg c99_st with PK_done v _ => v =? 0 | _ => false end = true ->
  packed 1 c47_env (c99_desc head) c99_note c99_st (c99_after head).
Proof.
  intros H1 H2 R. constructor.
  - apply c99_ok; assumption.
  - split; reflexivity.
  - exists c47_container, c47_target, [repeat 5 32]. split; [repeat split|]. split; [repeat split|].
    constructor; [|constructor]. split; [reflexivity|]. exists (zs "rest"). reflexivity.
  - exists c78_sg, c78_sg, c78_sg. split; [apply c78_works; reflexivity|]. split; [apply c78_works; reflexivity|].
    split; [apply c78_works; reflexivity|].
    assert (N : new_tmp c78_sg c99_st) by (intros p P []). split; [exact N|]. split; [exact N|]. split; [exact N|].
    unfold c99_after. destruct (run_packer 1 c47_env (file_of (c99_desc head)) c99_note c78_sg c78_sg c78_sg c99_st) as [v s| |];
      [|discriminate R|discriminate R]. apply Z.eqb_eq in R. subst v. reflexivity.
Qed.

Lemma c99_labels rest : has_labels rest [] -> has_labels (zs "F bsc#12." ++ rest) [zs "bsc#12"].
Proof.
  intros H. change (zs "F bsc#12." ++ rest) with (70 :: 32 :: zs "bsc#12" ++ 46 :: rest).
  apply hl_skip; [apply label_first; lia|]. apply hl_skip; [apply label_first; lia|]. apply hl_label.
  - apply (lab_bsc (zs "bsc#") (zs "12")).
    + repeat (apply Forall2_cons; [left; reflexivity|]). apply Forall2_nil.
    + apply Forall_cons; [unfold digit; cbn; lia|]. apply Forall_cons; [unfold digit; cbn; lia|]. apply Forall_nil.
  - intros L. apply label_last in L. unfold digit, letter in L. lia.
  - apply label_first; lia.
  - exact H.
Qed.
Lemma c99_newline : has_labels [10] [].
Proof. apply hl_skip; [apply label_first; lia|apply hl_end]. Qed.

(** What the dump command writes, for one line and for two. *)
Definition c99_dump (head : list ditem) : iout (Z * list dline * list Z) :=
  dump_command (pk_secs (c99_after head) (zs ".ulp")) (pk_secs (c99_after head) (zs ".ulp.comments")) true (zs "/lp/lp.so") None true 0.
Definition c99_text (head : list ditem) : list Z := match c99_dump head with I_ok (_, _, t) => t | _ => [0] end.
Definition c99_lines (head : list ditem) : bool :=
  match run_dump (pk_secs (c99_after head) (zs ".ulp")) (zs "/lp/lp.so") None true 0 with Some (v, l) => v =? 0 | None => false end.

Example C99_recorded_partial_case : (* and C99_one_line_partial *)
  packed 1 c47_env (c99_desc c99_one) c99_note c99_st (c99_after c99_one) /\ desc_comments (c99_desc c99_one) = [zs "F bsc#12."] /\
  (forall x, de_junk c47_env x = 0) /\ has_labels (all_comments (c99_desc c99_one)) [zs "bsc#12"] /\
  relevant_labels (pk_secs (c99_after c99_one) (zs ".ulp.comments")) = I_ok [zs "bsc#12"] /\ c99_lines c99_one = true /\
  c99_text c99_one = zs "* comments: " ++ [10] ++ zs "F bsc#12." ++ [10; 10].
Proof.
  assert (P : packed 1 c47_env (c99_desc c99_one) c99_note c99_st (c99_after c99_one)).
  { apply c99_packed.
    - constructor; [|constructor]. split; [split; [chars|no_in]|vm_compute; reflexivity].
    - constructor; [exact I|constructor].
    - vm_compute. reflexivity. }
  assert (HL : has_labels (all_comments (c99_desc c99_one)) [zs "bsc#12"]) by (apply (c99_labels [10]); exact c99_newline).
  split; [exact P|]. split; [reflexivity|]. split; [reflexivity|]. split; [exact HL|]. split; [|split; vm_compute; reflexivity].
  destruct (C99_one_line_partial _ _ _ _ _ _ (zs "F bsc#12.") P eq_refl (fun _ => eq_refl) eq_refl) as [_ H]. exact (H _ HL).
Qed.

Example C99_later_lines_refuted_case :
  packed 1 c47_env (c99_desc c99_two) c99_note c99_st (c99_after c99_two) /\
  desc_comments (c99_desc c99_two) = [zs "F bsc#12."; zs " F CVE-2023-1."] /\
  has_labels (with_newline (zs "F bsc#12.")) [zs "bsc#12"] /\ label (zs "CVE-2023-1") /\
  relevant_labels (pk_secs (c99_after c99_two) (zs ".ulp.comments")) = I_ok [zs "bsc#12"] /\ c99_lines c99_two = true /\
  c99_text c99_two = zs "* comments: " ++ [10] ++ zs "F bsc#12." ++ [10; 10].
Proof.
  assert (P : packed 1 c47_env (c99_desc c99_two) c99_note c99_st (c99_after c99_two)).
  { apply c99_packed.
    - constructor; [|constructor; [|constructor]]; (split; [split; [chars|no_in]|vm_compute; reflexivity]).
    - constructor; [exact I|constructor; [exact I|constructor]].
    - vm_compute. reflexivity. }
  assert (HL : has_labels (with_newline (zs "F bsc#12.")) [zs "bsc#12"]) by (apply (c99_labels [10]); exact c99_newline).
  split; [exact P|]. split; [reflexivity|]. split; [exact HL|]. split.
  { apply (lab_cve2 (zs "CVE-") (zs "2023") (zs "1")).
    - repeat (apply Forall2_cons; [unfold same_letter; (left; reflexivity) || (right; split; [cbn; lia|reflexivity])|]). apply Forall2_nil.
    - cbn. repeat (apply Forall_cons; [unfold digit; lia|]). apply Forall_nil.
    - cbn. repeat (apply Forall_cons; [unfold digit; lia|]). apply Forall_nil. }
  split; [|split; vm_compute; reflexivity].
  destruct (C99_later_lines_refuted _ _ _ _ _ _ (zs "F bsc#12.") (zs " F CVE-2023-1.") [] P eq_refl (fun _ => eq_refl) eq_refl) as (_ & _ & H).
  exact (H _ HL).
Qed.

Example C99_no_comments_partial_case :
  packed 1 c47_env (c99_desc []) c99_note c99_st (c99_after []) /\ desc_comments (c99_desc []) = [] /\
  pk_secs c99_st (zs ".ulp.comments") = None /\ c99_lines [] = true /\ c99_text [] = [].
Proof.
  split; [|split; [reflexivity|split; [reflexivity|split; vm_compute; reflexivity]]].
  apply c99_packed; [constructor|constructor|vm_compute; reflexivity].
Qed.

Example C99_unterminated_refuted_case : (* and C99_dump_exact *)
  c99_lines c99_one = true /\ ~ In 0 (zs "bsc#1") /\ dump_ulp_comments true (Some (zs "bsc#1")) = I_ub /\
  dump_ulp_comments true (Some (zs "a" ++ 0 :: zs "b")) = I_ok (shown (zs "a")).
Proof. split; [vm_compute; reflexivity|]. split; [no_in|]. split; vm_compute; reflexivity. Qed.
