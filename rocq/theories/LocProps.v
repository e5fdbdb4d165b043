(** C94: a wrong description is reported at the place where it is wrong. *)
From Coq Require Import String Bool Lia.
From Verif Require Import Base BaseFacts StrModel MetaModel DscModel DscSpec DscProofs LocModel LocSpec LocProofs.
Open Scope Z_scope.

(** A message says what is so; it names the first wrong line: the lines before it are not wrong, and
    the lines after it make no difference. *)
Theorem C94_first_wrong_line : forall e file k line col,
  parse_located e file = L_err k line col -> k <> E_empty ->
  exists before l after, lines_are file (before ++ l :: after) /\ line = zlen before + 1 /\
    good_so_far e before /\
    (forall after', parse_lines e (before ++ l :: after') = L_err k line col) /\
    so_wrong e before l k col.
Proof.
  intros e file k line col E NK. destruct (parse_stop e (lines_of file) k line col) as (b & l & a & EL & EM & G & S & W); auto.
  - apply (lines_of_are file).
  - exists b, l, a. rewrite <- EL. split; [apply lines_of_are|auto].
Qed.
Print Assumptions C94_first_wrong_line.

(** The file is called empty only if it has nothing but empty lines and comments. *)
Theorem C94_empty : forall e file line col,
  parse_located e file = L_err E_empty line col ->
  exists lines, lines_are file lines /\ Forall skipped lines /\ line = zlen lines + 1 /\ col = 1.
Proof.
  intros e file line col E. exists (lines_of file). split; [apply lines_of_are|]. apply (parse_empty e); [apply (lines_of_are file)|exact E].
Qed.
Print Assumptions C94_empty.

(** The lines of a file are what they are. *)
Theorem C94_lines_unique : forall file a b, lines_are file a -> lines_are file b -> a = b.
Proof.
  assert (ONE : forall t t' r r' : list Z, ~ In 10 t -> ~ In 10 t' -> t ++ 10 :: r = t' ++ 10 :: r' -> t = t' /\ r = r').
  { induction t as [|c t IH]; intros [|c' t'] r r' N N' E; cbn [app] in E.
    - injection E as ->. auto.
    - injection E as <- _. exfalso. apply N'. left. reflexivity.
    - injection E as -> _. exfalso. apply N. left. reflexivity.
    - injection E as -> E. destruct (IH t' r r') as [-> ->]; auto; intros I; [apply N|apply N']; right; exact I. }
  intros file a. revert file. induction a as [|x a IH]; intros file b (C1 & F1 & T1) (C2 & F2 & T2).
  - cbn in C1. subst file. destruct b as [|y b]; [reflexivity|]. cbn in C2. destruct y; [inversion F2; contradiction|discriminate].
  - destruct b as [|y b]. { cbn in C2. subst file. destruct x; [inversion F1; contradiction|discriminate]. }
    destruct (T1 [] x a eq_refl) as (t & NT & HT). destruct (T2 [] y b eq_refl) as (u & NU & HU).
    cbn [concat] in C1, C2.
    assert (REC : x = y -> concat a = concat b -> x :: a = y :: b).
    { intros -> E. f_equal. apply (IH (concat a)).
      - split; [reflexivity|]. split; [inversion F1; assumption|]. intros bb l aa E2. apply (T1 (y :: bb) l aa). rewrite E2. reflexivity.
      - split; [symmetry; exact E|]. split; [inversion F2; assumption|]. intros bb l aa E2. apply (T2 (y :: bb) l aa). rewrite E2. reflexivity. }
    destruct HT as [->|[-> ->]]; destruct HU as [->|[-> ->]]; cbn [concat app] in *.
    + rewrite <- C2, <- !app_assoc in C1. cbn [app] in C1. destruct (ONE _ _ _ _ NT NU C1) as [-> EC]. apply REC; [reflexivity|exact EC].
    + exfalso. rewrite app_nil_r in C2. apply NU. rewrite C2, <- C1, <- app_assoc. apply in_or_app. right. left. reflexivity.
    + exfalso. rewrite app_nil_r in C1. apply NT. rewrite C1, <- C2, <- app_assoc. apply in_or_app. right. left. reflexivity.
    + rewrite app_nil_r in C1, C2. congruence.
Qed.
Print Assumptions C94_lines_unique.

(** The positions belong to the reader of C47: it reads, refuses or crashes for the same files. *)
Theorem C94_same_reader : forall e file,
  match parse_located e file with
  | L_ok r => parse_description e file = D_ok r
  | L_err _ _ _ => parse_description e file = D_err
  | _ => parse_description e file = D_crash
  end.
Proof. intros e file. rewrite <- (parse_forget e file). destruct (parse_located e file); reflexivity. Qed.
Print Assumptions C94_same_reader.

(** A reference without its separators, for which the packer writes through NULL, is reported by
    the handler at its line. *)
Theorem C94_internal_error : forall e file line col,
  parse_located e file = L_segv line col ->
  exists before l after, lines_are file (before ++ l :: after) /\ line = zlen before + 1 /\ good_so_far e before /\
    (forall after', parse_lines e (before ++ l :: after') = L_segv line col) /\ starts_with l 35.
Proof.
  intros e file line col E. destruct (parse_segv e (lines_of file) line col) as (b & l & a & EL & R); auto.
  - apply (lines_of_are file).
  - exists b, l, a. rewrite <- EL. split; [apply lines_of_are|exact R].
Qed.
Print Assumptions C94_internal_error.

(** Below the message the line is shown as it is in the file, with a caret under the column. *)
Lemma says_of file b l a : ~ In 0 file -> lines_are file (b ++ l :: a) -> exists text, says l text /\ ~ In 10 text /\ chomp l = text.
Proof.
  intros NZ (C & _ & T). destruct (T b l a eq_refl) as (t & NT & H).
  assert (NZL : ~ In 0 l). { intros I. apply NZ. rewrite <- C, concat_app. apply in_or_app. right. cbn [concat]. apply in_or_app. left. exact I. }
  assert (CZ : forall u, ~ In 0 u -> cstr_z u = u).
  { induction u as [|c u IH]; intros N; [reflexivity|]. cbn [cstr_z]. destruct (Z.eqb_spec c 0) as [->|]; [exfalso; apply N; left; reflexivity|].
    rewrite IH; [reflexivity|]. intros I. apply N. right. exact I. }
  exists t. destruct H as [->|[-> ->]].
  - assert (NZT : ~ In 0 t) by (intros I; apply NZL; apply in_or_app; left; exact I).
    split; [split; [left; reflexivity|exact NZT]|]. split; [exact NT|]. unfold chomp. rewrite last_last. change (10 =? NL) with true. cbv iota. rewrite removelast_last. apply CZ. exact NZT.
  - split; [split; [right; auto|exact NZL]|]. split; [exact NT|]. unfold chomp. destruct (Z.eqb_spec (last t 0) NL) as [E|]; [|apply CZ; exact NZL].
    exfalso. destruct t as [|c t]; [discriminate E|]. apply NT. change 10 with NL. rewrite <- E. apply last_in. discriminate.
Qed.
Lemma col_in e b l k col text : so_wrong e b l k col -> chomp l = text -> ~ In 0 l -> 1 <= col <= zlen text + 1.
Proof.
  intros W <- NZ. pose proof (zlen_nonneg (chomp l)) as P.
  assert (AT2 : starts_with l 64 -> 1 <= zlen (chomp l)). { intros (t & ->). destruct (chomp_head 64 t) as (t' & ->); [discriminate|discriminate|]. rewrite zlen_cons. pose proof (zlen_nonneg t'). lia. }
  destruct k; cbn [so_wrong] in W; try contradiction; try (destruct W as (W & _); lia);
    destruct W as (p & c & la & _ & W); try (destruct W as (-> & W); lia); try (destruct W as (-> & S & _); specialize (AT2 S); lia).
  - destruct W as (_ & _ & (pre & post & E & -> & _) & _). rewrite E, !zlen_app. pose proof (zlen_nonneg pre). pose proof (zlen_nonneg name). pose proof (zlen_nonneg post). lia.
  - destruct W as (_ & _ & (t & E) & ->). rewrite E, zlen_app. change (zlen [58]) with 1. pose proof (zlen_nonneg t). lia.
  - destruct W as (_ & _ & _ & ->). lia.
Qed.

Theorem C94_shown : forall e file k line col,
  ~ In 0 file -> parse_located e file = L_err k line col -> k <> E_empty ->
  exists before l after text j, lines_are file (before ++ l :: after) /\ line = zlen before + 1 /\ says l text /\
    show_error file line col = Some (text, repeat 32 (Z.to_nat (col - 1)) ++ 94 :: repeat 126 j) /\
    1 <= col <= zlen text + 1 /\
    forall of_target name, k = E_symbol of_target name ->
      firstn (List.length name) (skipn (Z.to_nat (col - 1)) text) = name /\ j = (List.length name - 1)%nat.
Proof.
  intros e file k line col NZ E NK. destruct (parse_stop e (lines_of file) k line col) as (b & l & a & EL & EM & G & S & W); auto.
  { apply (lines_of_are file). }
  pose proof (lines_of_are file) as LA. rewrite EL in LA. destruct (says_of file b l a NZ LA) as (text & SA & NT & CH).
  assert (NZL : ~ In 0 l). { intros I. apply NZ. destruct LA as (C & _). rewrite <- C, concat_app. apply in_or_app. right. cbn [concat]. apply in_or_app. left. exact I. }
  pose proof (col_in e b l k col text W CH NZL) as HC. destruct (show_text l text col SA NT HC) as (j & SH & SN).
  exists b, l, a, text, j. split; [exact LA|]. split; [exact EM|]. split; [exact SA|]. split.
  - unfold show_error. rewrite EL, EM. replace (Z.to_nat (zlen b + 1 - 1)) with (List.length b) by (unfold zlen; lia).
    rewrite nth_error_app2 by lia. rewrite Nat.sub_diag. cbn [nth_error]. rewrite SH. reflexivity.
  - split; [exact HC|]. intros oft name ->. destruct W as (p & c & la & _ & _ & _ & (pre & post & ET & EC & N58 & HP & _) & _). rewrite CH in ET.
    split; [|eapply SN; eauto]. rewrite EC, ET. replace (Z.to_nat (zlen pre + 1 - 1)) with (List.length pre) by (unfold zlen; lia).
    rewrite skipn_app, skipn_all, Nat.sub_diag. cbn [app skipn]. rewrite firstn_app, firstn_all, Nat.sub_diag. apply app_nil_r.
Qed.
Print Assumptions C94_shown.

(** ** Cases *)
Definition lc_info (p : list Z) : option so_info :=
  if bytes_eqb p (zs "lp.so") then Some (mk_so_info (zs "lp.so") [] [(zs "new", 16)])
  else if bytes_eqb p (zs "lib.so") then Some (mk_so_info (zs "lib.so") [] [(zs "old", 32)]) else None.
Definition lc_env : dsc_env :=
  mk_dsc_env (fun p => match lc_info p with Some _ => true | None => false end) (fun _ => false) lc_info (fun _ => None) None None (fun _ => 0).
Definition nl (l : list (list Z)) : list Z := concat (map (fun t => t ++ [10])%list l).
Definition lc_file (last : list Z) : list Z := nl [zs "! a comment"; zs "lp.so"; []; zs "@lib.so"; zs "old:new"; last].

Example C94_case :
  parse_located lc_env (lc_file (zs "old:knew")) = L_err (E_symbol false (zs "knew")) 6 5 /\
  parse_located lc_env (lc_file (zs "#%old:knew")) = L_err (E_symbol false (zs "knew")) 6 7 /\
  parse_located lc_env (lc_file (zs "gold::new")) = L_err (E_symbol true (zs "gold")) 6 1 /\
  parse_located lc_env (lc_file (zs "old:")) = L_err E_expected 6 4 /\
  parse_located lc_env (lc_file (zs "#old")) = L_segv 6 2 /\
  parse_located lc_env (lc_file (zs "@lib.so")) = L_err E_duplicate 6 1 /\
  parse_located lc_env (nl [zs "lp.so"; zs "*dep.ulp"]) = L_err E_dependency 2 1 /\
  parse_located lc_env (nl [[]; zs "! only"]) = L_err E_empty 3 1 /\
  show_error (lc_file (zs "old:knew")) 6 5 = Some (zs "old:knew", zs "    ^~~~") /\
  show_error (lc_file (zs "old:")) 6 4 = Some (zs "old:", zs "   ^").
Proof. vm_compute. repeat split. Qed.
