From Coq Require Import String.
From Verif Require Import Base BaseFacts StrModel TextModel CliModel CliSpec.

Definition key_of (o : uopt) : key :=
  match o with
  | Verbose => K_v | Quiet => K_q | BuildId => K_b | Revert => K_revert | NoThreads => K_threads
  | Recursive => K_recursive | NoSummary => K_nosummary | OnlyPatched => K_only | NoSeccomp => K_seccomp
  | CheckStack => K_c | Process _ => K_p | User _ => K_u | Output _ => K_o | LivepatchFile _ => K_l
  | Target _ => K_t | Retries _ => K_r | Root _ => K_R | DebugInfo _ => K_d | RevertAll _ => K_revert_all
  | Timeout _ => K_timeout | Color _ => K_color
  end.
Definition has_value (o : uopt) : bool := match value_of o with Some _ => true | None => false end.
Definition ev (o : uopt) : event := Opt (key_of o) (value_of o).
Definition entry (o : uopt) : aopt := mk_opt (name_of o) (letter_of o) (has_value o) (key_of o).
Definition table (stack : bool) (c : option command) : list aopt := options_of stack c ++ argp_own.

Lemma find_long_table stack c o :
  find_long (table stack (Some c)) (name_of o) = if offers stack c o then Some (entry o) else None.
Proof. destruct stack, c, o; reflexivity. Qed.

Lemma find_short_table stack c o l : letter_of o = Some l ->
  find_short (table stack (Some c)) l = if offers stack c o then Some (entry o) else None.
Proof. intros H; destruct o; try discriminate H; injection H as <-; destruct stack, c; reflexivity. Qed.

Lemma split_name o : split_eq (name_of o) = (name_of o, None).
Proof. destruct o; reflexivity. Qed.
Lemma split_name_eq o v : split_eq (name_of o ++ 61 :: v) = (name_of o, Some v).
Proof. destruct o; reflexivity. Qed.
Lemma name_cons o : exists x y t, name_of o = x :: y :: t /\ x <> 45.
Proof. destruct o; do 3 eexists; (split; [reflexivity|discriminate]). Qed.
Lemma letter_not_dash o l : letter_of o = Some l -> l <> 45.
Proof. intros H ->. destruct o; discriminate. Qed.

(** The shape of the words *)
Lemma getopt_long tbl x t ws :
  getopt tbl ((45 :: 45 :: x :: t) :: ws) =
    (let (name, value) := split_eq (x :: t) in
      match find_long tbl name with
      | None => ([Bad], [])
      | Some o =>
          match o_value o, value with
          | false, None => let (es, ar) := getopt tbl ws in (Opt (o_key o) None :: es, ar)
          | false, Some _ => ([Bad], [])
          | true, Some v => let (es, ar) := getopt tbl ws in (Opt (o_key o) (Some v) :: es, ar)
          | true, None =>
              match ws with
              | [] => ([Bad], [])
              | v :: ws'' => let (es, ar) := getopt tbl ws'' in (Opt (o_key o) (Some v) :: es, ar)
              end
          end
      end).
Proof. destruct ws; reflexivity. Qed.

Lemma getopt_short tbl x t ws : x <> 45 ->
  getopt tbl ((45 :: x :: t) :: ws) =
    match letters tbl (x :: t) with
    | (es0, None) => let (es, ar) := getopt tbl ws in (es0 ++ es, ar)
    | (es0, Some k) =>
        match ws with
        | [] => (es0 ++ [Bad], [])
        | v :: ws'' => let (es, ar) := getopt tbl ws'' in (es0 ++ Opt k (Some v) :: es, ar)
        end
    end.
Proof. intros N. destruct ws; cbn [getopt]; rewrite (proj2 (Z.eqb_neq _ _) N); reflexivity. Qed.

Lemma getopt_word tbl w ws : ~ (exists c t, w = 45 :: c :: t) ->
  getopt tbl (w :: ws) = (let (es, ar) := getopt tbl ws in (es, w :: ar)).
Proof.
  intros N. destruct w as [|x [|y t]]; try (destruct ws; reflexivity).
  destruct (Z.eq_dec x 45) as [->|NX]; [contradict N; eauto|].
  destruct ws; cbn [getopt]; rewrite (proj2 (Z.eqb_neq _ _) NX); reflexivity.
Qed.

Lemma ev_none o : value_of o = None -> ev o = Opt (key_of o) None.
Proof. intros V. unfold ev. rewrite V. reflexivity. Qed.
Lemma ev_some o v : value_of o = Some v -> ev o = Opt (key_of o) (Some v).
Proof. intros V. unfold ev. rewrite V. reflexivity. Qed.

Section Table.
  Variables (stack : bool) (c : command).
  Let tbl := table stack (Some c).
  Let off := offers stack c.

  Lemma letters_flags w os : flags w os -> forallb off os = true -> forall t,
    letters tbl (w ++ t) = (map ev os ++ fst (letters tbl t), snd (letters tbl t)).
  Proof.
    induction 1 as [|o l w os V L F IH]; intros O t.
    - cbn [app map]. destruct (letters tbl t); reflexivity.
    - cbn [forallb] in O. apply andb_true_iff in O. destruct O as [O1 O2].
      cbn [app letters map]. unfold tbl at 1. rewrite (find_short_table _ _ o _ L). fold off. rewrite O1.
      unfold entry, has_value. cbn [o_value o_key]. rewrite V, (IH O2), (ev_none o V). reflexivity.
  Qed.
  Lemma letters_bad w os : flags w os -> forallb off os = false -> forall t,
    exists pre, letters tbl (w ++ t) = (map ev pre ++ [Bad], None).
  Proof.
    induction 1 as [|o l w os V L F IH]; intros O t; [discriminate|].
    cbn [app letters]. unfold tbl at 1. rewrite (find_short_table _ _ o _ L). fold off.
    destruct (off o) eqn:O1.
    - cbn [forallb] in O. rewrite O1 in O. destruct (IH O t) as (pre & E).
      unfold entry, has_value. cbn [o_value o_key]. rewrite V, E. exists (o :: pre). cbn [map app]. rewrite (ev_none o V). reflexivity.
    - exists []. reflexivity.
  Qed.
  Lemma letters_value o l v : letter_of o = Some l -> value_of o = Some v ->
    letters tbl (l :: v) = if off o then match v with [] => ([], Some (key_of o)) | _ :: _ => ([ev o], None) end else ([Bad], None).
  Proof.
    intros L V. cbn [letters]. unfold tbl at 1. rewrite (find_short_table _ _ o _ L). fold off.
    destruct (off o); [|reflexivity]. unfold entry, has_value, ev. cbn [o_value o_key]. rewrite V. destruct v; reflexivity.
  Qed.
  Lemma letters_value_sep o l : letter_of o = Some l -> value_of o <> None ->
    letters tbl [l] = if off o then ([], Some (key_of o)) else ([Bad], None).
  Proof.
    intros L V. cbn [letters]. unfold tbl at 1. rewrite (find_short_table _ _ o _ L). fold off.
    destruct (off o); [|reflexivity]. unfold entry, has_value. cbn [o_value o_key]. destruct (value_of o); [reflexivity|contradiction].
  Qed.

  Lemma flags_first w os l t : flags w os -> l <> 45 -> exists x r, w ++ l :: t = x :: r /\ x <> 45.
  Proof.
    intros F N. destruct F as [|o c0 w os V L F]; [exists l, t; auto|].
    exists c0, (w ++ l :: t). split; [reflexivity|]. apply (letter_not_dash o). exact L.
  Qed.
  Lemma flags_first_ne w os : flags w os -> w <> [] -> exists x r, w = x :: r /\ x <> 45.
  Proof.
    intros F N. destruct F as [|o c0 w os V L F]; [contradiction|].
    exists c0, w. split; [reflexivity|]. apply (letter_not_dash o). exact L.
  Qed.

  Lemma getopt_spelled xs os : spelled xs os -> forallb off os = true -> forall ws,
    getopt tbl (xs ++ ws) = (map ev os ++ fst (getopt tbl ws), snd (getopt tbl ws)).
  Proof.
    intros S O ws. destruct S as [o V|o v V|o v V|w os F NE|w os o l v F L V NE|w os o l v F L V]; cbn [app].
    - cbn [forallb] in O. rewrite andb_true_r in O. destruct (name_cons o) as (x & y & t & N & _).
      rewrite N. rewrite getopt_long, <- N, split_name. unfold tbl at 1. rewrite find_long_table. fold off. rewrite O.
      unfold entry, has_value. cbn [o_value o_key]. rewrite V. destruct (getopt tbl ws). cbn [map app fst snd]. unfold ev. rewrite V. reflexivity.
    - cbn [forallb] in O. rewrite andb_true_r in O. destruct (name_cons o) as (x & y & t & N & _).
      rewrite N. cbn [app]. rewrite getopt_long. change (x :: y :: t ++ 61 :: v) with ((x :: y :: t) ++ 61 :: v). rewrite <- N, split_name_eq.
      unfold tbl at 1. rewrite find_long_table. fold off. rewrite O.
      unfold entry, has_value. cbn [o_value o_key]. rewrite V. destruct (getopt tbl ws). cbn [map app fst snd]. unfold ev. rewrite V. reflexivity.
    - cbn [forallb] in O. rewrite andb_true_r in O. destruct (name_cons o) as (x & y & t & N & _).
      rewrite N. rewrite getopt_long, <- N, split_name. unfold tbl at 1. rewrite find_long_table. fold off. rewrite O.
      unfold entry, has_value. cbn [o_value o_key]. rewrite V. destruct (getopt tbl ws). cbn [map app fst snd]. unfold ev. rewrite V. reflexivity.
    - pose proof (letters_flags _ _ F O []) as E. rewrite app_nil_r in E.
      destruct (flags_first_ne _ _ F NE) as (x & r & -> & X). rewrite getopt_short by exact X. rewrite E. cbn [letters fst snd].
      rewrite app_nil_r. destruct (getopt tbl ws). reflexivity.
    - rewrite forallb_app in O. apply andb_true_iff in O. destruct O as [O1 O2]. cbn [forallb] in O2. rewrite andb_true_r in O2.
      pose proof (letters_flags _ _ F O1 (l :: v)) as E. rewrite (letters_value o l v L V), O2 in E.
      destruct v as [|v0 v]; [contradiction|]. cbn [fst snd] in E.
      destruct (flags_first w os l (v0 :: v) F (letter_not_dash o l L)) as (x & r & W & X). rewrite W in E |- *.
      rewrite getopt_short by exact X. rewrite E. destruct (getopt tbl ws). cbn [fst snd]. rewrite map_app. reflexivity.
    - rewrite forallb_app in O. apply andb_true_iff in O. destruct O as [O1 O2]. cbn [forallb] in O2. rewrite andb_true_r in O2.
      pose proof (letters_flags _ _ F O1 [l]) as E. rewrite (letters_value_sep o l L), O2 in E by congruence. cbn [fst snd] in E. rewrite app_nil_r in E.
      destruct (flags_first w os l [] F (letter_not_dash o l L)) as (x & r & W & X). rewrite W in E |- *.
      rewrite getopt_short by exact X. rewrite E. destruct (getopt tbl ws). cbn [fst snd]. rewrite map_app, <- app_assoc. cbn [map app]. rewrite (ev_some o v V). reflexivity.
  Qed.

  Lemma getopt_spelled_bad xs os : spelled xs os -> forallb off os = false -> forall ws,
    exists pre k, fst (getopt tbl (xs ++ ws)) = map ev pre ++ Bad :: k.
  Proof.
    intros S O ws. destruct S as [o V|o v V|o v V|w os F NE|w os o l v F L V NE|w os o l v F L V]; cbn [app].
    - cbn [forallb] in O. rewrite andb_true_r in O. destruct (name_cons o) as (x & y & t & N & _).
      rewrite N. rewrite getopt_long, <- N, split_name. unfold tbl at 1. rewrite find_long_table. fold off. rewrite O.
      exists [], []. reflexivity.
    - cbn [forallb] in O. rewrite andb_true_r in O. destruct (name_cons o) as (x & y & t & N & _).
      rewrite N. cbn [app]. rewrite getopt_long. change (x :: y :: t ++ 61 :: v) with ((x :: y :: t) ++ 61 :: v). rewrite <- N, split_name_eq.
      unfold tbl at 1. rewrite find_long_table. fold off. rewrite O. exists [], []. reflexivity.
    - cbn [forallb] in O. rewrite andb_true_r in O. destruct (name_cons o) as (x & y & t & N & _).
      rewrite N. rewrite getopt_long, <- N, split_name. unfold tbl at 1. rewrite find_long_table. fold off. rewrite O.
      exists [], []. reflexivity.
    - destruct (letters_bad _ _ F O []) as (pre & E). rewrite app_nil_r in E.
      destruct (flags_first_ne _ _ F NE) as (x & r & -> & X). rewrite getopt_short by exact X. rewrite E.
      destruct (getopt tbl ws) as [es ar]. cbn [fst]. exists pre, es. rewrite <- app_assoc. reflexivity.
    - destruct (flags_first w os l v F (letter_not_dash o l L)) as (x & r & W & X).
      destruct (forallb off os) eqn:O1.
      + pose proof (letters_flags _ _ F O1 (l :: v)) as E. rewrite (letters_value o l v L V) in E.
        rewrite forallb_app, O1 in O. cbn [andb forallb] in O. rewrite andb_true_r in O. rewrite O in E. cbn [fst snd] in E.
        rewrite W in E |- *. rewrite getopt_short by exact X. rewrite E. destruct (getopt tbl ws) as [es ar]. cbn [fst].
        exists os, es. rewrite <- app_assoc. reflexivity.
      + destruct (letters_bad _ _ F O1 (l :: v)) as (pre & E). rewrite W in E |- *. rewrite getopt_short by exact X. rewrite E.
        destruct (getopt tbl ws) as [es ar]. cbn [fst]. exists pre, es. rewrite <- app_assoc. reflexivity.
    - destruct (flags_first w os l [] F (letter_not_dash o l L)) as (x & r & W & X).
      destruct (forallb off os) eqn:O1.
      + pose proof (letters_flags _ _ F O1 [l]) as E. rewrite (letters_value_sep o l L) in E by congruence.
        rewrite forallb_app, O1 in O. cbn [andb forallb] in O. rewrite andb_true_r in O. rewrite O in E. cbn [fst snd] in E.
        rewrite W in E |- *. rewrite getopt_short by exact X. rewrite E. 
        match goal with |- context [getopt tbl ?q] => destruct (getopt tbl q) as [es ar] end. cbn [fst].
        exists os, es. rewrite <- app_assoc. reflexivity.
      + destruct (letters_bad _ _ F O1 [l]) as (pre & E). rewrite W in E |- *. rewrite getopt_short by exact X. rewrite E.
        match goal with |- context [getopt tbl ?q] => destruct (getopt tbl q) as [es ar] end. cbn [fst]. exists pre, es. rewrite <- app_assoc. reflexivity.
  Qed.

  Lemma getopt_line ws opts args : line ws opts args -> forallb off opts = true ->
    getopt tbl ws = (map ev opts, args).
  Proof.
    induction 1 as [|w ws opts args N L IH|xs os ws opts args S L IH|ws]; intros O.
    - reflexivity.
    - rewrite getopt_word by exact N. rewrite (IH O). reflexivity.
    - rewrite forallb_app in O. apply andb_true_iff in O. destruct O as [O1 O2].
      rewrite (getopt_spelled _ _ S O1), (IH O2). cbn [fst snd]. rewrite map_app. reflexivity.
    - reflexivity.
  Qed.

  Lemma getopt_line_bad ws opts args : line ws opts args -> forallb off opts = false ->
    exists pre k, fst (getopt tbl ws) = map ev pre ++ Bad :: k.
  Proof.
    induction 1 as [|w ws opts args N L IH|xs os ws opts args S L IH|ws]; intros O; try discriminate.
    - rewrite getopt_word by exact N. destruct (IH O) as (pre & k & E). destruct (getopt tbl ws). exists pre, k. exact E.
    - rewrite forallb_app in O. destruct (forallb off os) eqn:O1.
      + destruct (IH O) as (pre & k & E). rewrite (getopt_spelled _ _ S O1). cbn [fst]. rewrite E.
        exists (os ++ pre), k. rewrite map_app, <- app_assoc. reflexivity.
      + apply (getopt_spelled_bad _ _ S O1).
  Qed.
End Table.

(** ** What the options set *)
Definition bad_opt (o : uopt) : bool :=
  match o with
  | Retries s => atoi_any s <? 1
  | Timeout s => negb (isnumber (Some s)) || (strtol10 s <? 0)
  | _ => false
  end.
Definition apply_opt (a : arguments) (o : uopt) : arguments :=
  match parser_opt a (key_of o) (value_of o) with Next a' => a' | Stop _ => a end.

Lemma parser_opt_ev a o :
  parser_opt a (key_of o) (value_of o) = if bad_opt o then Stop Usage else Next (apply_opt a o).
Proof.
  unfold apply_opt. destruct a, o; cbn [key_of value_of parser_opt bad_opt]; try reflexivity.
  - destruct (atoi_any s <? 1); reflexivity.
  - destruct (isnumber (Some s)); cbn [negb orb]; [|reflexivity]. destruct (strtol10 s <? 0); reflexivity.
Qed.

Lemma run_opts_ev os : forall a,
  run_opts a (map ev os) = if existsb bad_opt os then Stop Usage else Next (fold_left apply_opt os a).
Proof.
  induction os as [|o os IH]; intros a; [reflexivity|].
  cbn [map run_opts existsb fold_left]. unfold ev at 1. cbv beta iota. rewrite parser_opt_ev.
  destruct (bad_opt o); [reflexivity|]. cbn [orb]. apply IH.
Qed.
Lemma run_opts_bad os k : forall a, run_opts a (map ev os ++ Bad :: k) = Stop Usage.
Proof.
  induction os as [|o os IH]; intros a; [reflexivity|].
  cbn [map app run_opts]. unfold ev at 1. cbv beta iota. rewrite parser_opt_ev. destruct (bad_opt o); [reflexivity|]. apply IH.
Qed.

Lemma fold_field {A} (F : arguments -> A) (upd : A -> uopt -> A) os : forall a,
  (forall a o, In o os -> F (apply_opt a o) = upd (F a) o) ->
  F (fold_left apply_opt os a) = fold_left upd os (F a).
Proof.
  induction os as [|o os IH]; intros a H; [reflexivity|]. cbn [fold_left].
  rewrite IH; [|intros; apply H; right; assumption]. rewrite H by (left; reflexivity). reflexivity.
Qed.
Lemma fold_says (f : uopt -> bool) os : forall b, fold_left (fun b o => b || f o) os b = b || existsb f os.
Proof.
  induction os as [|o os IH]; intros b; cbn [fold_left existsb]; [rewrite orb_false_r; reflexivity|].
  rewrite IH, orb_assoc. reflexivity.
Qed.

(** Numbers *)
Lemma numeral_digits s : Forall (fun c => 48 <= c <= 57) s <-> forallb isdigit s = true.
Proof.
  rewrite forallb_forall, Forall_forall. unfold isdigit. split; intros H x X; specialize (H x X); lia.
Qed.
Lemma isnumber_numeral s : isnumber (Some s) = true <-> numeral s.
Proof.
  unfold isnumber, numeral. rewrite numeral_digits. destruct s; [split; [discriminate|intros [H _]; contradiction]|].
  split; [intros H; split; [discriminate|exact H]|intros [_ H]; exact H].
Qed.
Lemma lead_digits_all s : forallb isdigit s = true -> lead_digits s = s.
Proof.
  induction s as [|c s IH]; intros H; [reflexivity|]. cbn [forallb] in H. apply andb_true_iff in H. destruct H as [H1 H2].
  cbn [lead_digits]. rewrite H1, IH by exact H2. reflexivity.
Qed.
Lemma strtol10_digits s : forallb isdigit s = true -> strtol10 s = Z.min (dec_val s) (2 ^ 63 - 1).
Proof.
  intros H. unfold strtol10. rewrite <- (lead_digits_all s H) at 2.
  destruct s as [|c s]; [reflexivity|]. pose proof H as H0. cbn [forallb] in H. apply andb_true_iff in H. destruct H as [H1 H2].
  cbn [skip_blanks]. assert (isspace c = false) as ->.
  { unfold isdigit, isspace in *. lia. }
  assert (C : 48 <= c <= 57) by (unfold isdigit in H1; lia).
  destruct c as [|p|p]; try reflexivity; try lia.
  do 6 (destruct p as [p|p|]; try reflexivity; try lia).
Qed.
Lemma dec_val_nonneg s : forallb isdigit s = true -> 0 <= dec_val s.
Proof.
  unfold dec_val. assert (G : forall v, 0 <= v -> forallb isdigit s = true -> 0 <= fold_left (fun v c => 10 * v + (c - 48)) s v).
  { induction s as [|c s IH]; intros v V H; [exact V|]. cbn [forallb] in H. apply andb_true_iff in H. destruct H as [H1 H2].
    cbn [fold_left]. apply IH; [unfold isdigit in H1; lia|exact H2]. }
  apply G. lia.
Qed.
Lemma atoi_small s : numeral s -> dec_val s <= 2 ^ 31 - 1 -> atoi_any s = dec_val s.
Proof.
  intros [_ N] B. apply numeral_digits in N. unfold atoi_any. rewrite strtol10_digits by exact N.
  pose proof (dec_val_nonneg s N). rewrite Z.min_l by lia. unfold s32, u32.
  rewrite Z.mod_small by lia. destruct (Z.ltb_spec (dec_val s) (2 ^ 31)); lia.
Qed.

Lemma bad_retries opts : numbers_ok opts ->
  existsb bad_opt opts = false <->
  (forall s, In (Retries s) opts -> 1 <= dec_val s) /\ (forall s, In (Timeout s) opts -> numeral s).
Proof.
  intros NO. split.
  - intros E. assert (A : forall o, In o opts -> bad_opt o = false).
    { intros o O. destruct (bad_opt o) eqn:B; [|reflexivity].
      assert (existsb bad_opt opts = true) by (apply existsb_exists; eauto). congruence. }
    split; intros s S; specialize (A _ S); cbn [bad_opt] in A.
    + destruct (NO s S) as [N B]. rewrite atoi_small in A by assumption. lia.
    + apply orb_false_iff in A. destruct A as [A _]. apply negb_false_iff in A. apply isnumber_numeral. exact A.
  - intros [R T]. destruct (existsb bad_opt opts) eqn:E; [|reflexivity]. apply existsb_exists in E.
    destruct E as (o & O & B). destruct o; try discriminate; cbn [bad_opt] in B.
    + destruct (NO s O) as [N L]. rewrite atoi_small in B by assumption. specialize (R s O). lia.
    + specialize (T s O). rewrite (proj2 (isnumber_numeral s) T) in B. cbn [negb orb] in B.
      destruct T as [_ T]. apply numeral_digits in T. rewrite strtol10_digits in B by exact T.
      pose proof (dec_val_nonneg s T). lia.
Qed.

Lemma last_fold {A B} (f : uopt -> option A) (g : A -> B) opts : forall d x,
  fold_left (fun b o => match f o with Some y => g y | None => b end) opts (match x with Some y => g y | None => d end) =
  match fold_left (fun acc o => match f o with Some y => Some y | None => acc end) opts x with Some y => g y | None => d end.
Proof.
  induction opts as [|o os IH]; intros d x; [reflexivity|]. cbn [fold_left].
  destruct (f o) as [y|]; [exact (IH d (Some y))|apply IH].
Qed.

Local Ltac nums := cbn [a_retries a_timeout retries_of timeout_of].

Lemma fold_const {A B} (l : list B) : forall x : A, fold_left (fun x _ => x) l x = x.
Proof. induction l as [|b l IH]; intros x; [reflexivity|apply IH]. Qed.

Section Fields.
  Variables (opts : list uopt).
  Hypothesis NO : numbers_ok opts.
  Hypothesis NB : existsb bad_opt opts = false.
  Let a0 := fold_left apply_opt opts no_arguments.

  Lemma not_bad o : In o opts -> bad_opt o = false.
  Proof.
    intros O. destruct (bad_opt o) eqn:B; [|reflexivity].
    assert (existsb bad_opt opts = true) by (apply existsb_exists; eauto). congruence.
  Qed.
  Lemma apply_next a o : In o opts -> parser_opt a (key_of o) (value_of o) = Next (apply_opt a o).
  Proof. intros O. rewrite parser_opt_ev, (not_bad o O). reflexivity. Qed.

  Lemma opt_field {A} (F : arguments -> option A) (f : uopt -> option A) :
    F no_arguments = None ->
    (forall a o, In o opts -> F (apply_opt a o) = match f o with Some x => Some x | None => F a end) ->
    F a0 = last_of f opts.
  Proof.
    intros N H. unfold a0, last_of. rewrite <- N.
    apply (fold_field F (fun acc o => match f o with Some x => Some x | None => acc end)). exact H.
  Qed.
  Lemma flag_field (F : arguments -> bool) (f : uopt -> bool) :
    F no_arguments = false -> (forall a o, In o opts -> F (apply_opt a o) = F a || f o) ->
    F a0 = existsb f opts.
  Proof.
    intros N H. unfold a0. rewrite (fold_field F (fun b o => b || f o)) by exact H. rewrite fold_says, N. reflexivity.
  Qed.

  Local Ltac fld :=
    intros a o O; pose proof (apply_next a o O) as E; unfold apply_opt in *; destruct a, o;
    cbn [key_of value_of parser_opt] in *; cbn [a_arg a_livepatch a_library a_metadata a_process a_user a_prefix
      a_debuginfo a_command a_retries a_quiet a_verbose a_buildid a_revert a_nothreads a_recursive a_nosummary
      a_onlypatched a_noseccomp a_checkstack a_timeout];
    try (destruct (atoi_any _ <? 1)); try (destruct (isnumber _)); try (destruct (strtol10 _ <? 0));
    rewrite ?orb_false_r, ?orb_true_r; reflexivity.

  Lemma f_process : a_process a0 = last_of process_of opts.
  Proof. apply opt_field; [reflexivity|fld]. Qed.
  Lemma f_library : a_library a0 = last_of library_of opts.
  Proof. apply opt_field; [reflexivity|fld]. Qed.
  Lemma f_user : a_user a0 = last_of (fun o => match o with User s => Some s | _ => None end) opts.
  Proof. apply opt_field; [reflexivity|fld]. Qed.
  Lemma f_output : a_metadata a0 = last_of (fun o => match o with Output s => Some s | _ => None end) opts.
  Proof. apply opt_field; [reflexivity|fld]. Qed.
  Lemma f_livepatch : a_livepatch a0 = last_of (fun o => match o with LivepatchFile s => Some s | _ => None end) opts.
  Proof. apply opt_field; [reflexivity|fld]. Qed.
  Lemma f_prefix : a_prefix a0 = last_of (fun o => match o with Root s => Some s | _ => None end) opts.
  Proof. apply opt_field; [reflexivity|fld]. Qed.
  Lemma f_debuginfo : a_debuginfo a0 = last_of (fun o => match o with DebugInfo s => Some s | _ => None end) opts.
  Proof. apply opt_field; [reflexivity|fld]. Qed.
  Lemma f_quiet : a_quiet a0 = says Quiet opts.
  Proof. apply flag_field; [reflexivity|fld]. Qed.
  Lemma f_verbose : a_verbose a0 = says Verbose opts.
  Proof. apply flag_field; [reflexivity|fld]. Qed.
  Lemma f_buildid : a_buildid a0 = says BuildId opts.
  Proof. apply flag_field; [reflexivity|fld]. Qed.
  Lemma f_revert : a_revert a0 = says Revert opts.
  Proof. apply flag_field; [reflexivity|fld]. Qed.
  Lemma f_nothreads : a_nothreads a0 = says NoThreads opts.
  Proof. apply flag_field; [reflexivity|fld]. Qed.
  Lemma f_recursive : a_recursive a0 = says Recursive opts.
  Proof. apply flag_field; [reflexivity|fld]. Qed.
  Lemma f_nosummary : a_nosummary a0 = says NoSummary opts.
  Proof. apply flag_field; [reflexivity|fld]. Qed.
  Lemma f_onlypatched : a_onlypatched a0 = says OnlyPatched opts.
  Proof. apply flag_field; [reflexivity|fld]. Qed.
  Lemma f_noseccomp : a_noseccomp a0 = says NoSeccomp opts.
  Proof. apply flag_field; [reflexivity|fld]. Qed.
  Lemma f_checkstack : a_checkstack a0 = says CheckStack opts.
  Proof. apply flag_field; [reflexivity|fld]. Qed.
  Lemma f_arg : a_arg a0 = None.
  Proof.
    unfold a0. rewrite (fold_field a_arg (fun x _ => x)); [|fld]. apply fold_const.
  Qed.

  Lemma f_retries : a_retries a0 = match last_of retries_of opts with Some s => dec_val s | None => 1 end.
  Proof.
    unfold a0, last_of. rewrite (fold_field a_retries (fun b o => match retries_of o with Some s => dec_val s | None => b end)).
    - exact (last_fold retries_of dec_val opts 1 None).
    - intros a o O. pose proof (apply_next a o O) as E. unfold apply_opt in *. destruct a, o; cbn [key_of value_of parser_opt] in *; try reflexivity.
      + destruct (atoi_any s <? 1); [discriminate|]. nums. destruct (NO s O). apply atoi_small; assumption.
      + destruct (isnumber (Some s)); [|discriminate]. destruct (strtol10 s <? 0); [discriminate|reflexivity].
  Qed.
  Lemma f_timeout : a_timeout a0 = match last_of timeout_of opts with Some s => Z.min (dec_val s) (2 ^ 63 - 1) | None => 200 end.
  Proof.
    unfold a0, last_of. rewrite (fold_field a_timeout (fun b o => match timeout_of o with Some s => Z.min (dec_val s) (2 ^ 63 - 1) | None => b end)).
    - exact (last_fold timeout_of (fun s => Z.min (dec_val s) (2 ^ 63 - 1)) opts 200 None).
    - intros a o O. pose proof (apply_next a o O) as E. unfold apply_opt in *. destruct a, o; cbn [key_of value_of parser_opt] in *; try reflexivity.
      + destruct (atoi_any s <? 1); [discriminate|]. reflexivity.
      + destruct (isnumber (Some s)) eqn:I; [|discriminate]. destruct (strtol10 s <? 0); [discriminate|].
        nums. apply isnumber_numeral in I. apply strtol10_digits. apply numeral_digits. apply I.
  Qed.
End Fields.

(** ** Arguments *)
Lemma command_word_known c : command_from_string (command_word c) = Some c.
Proof. destruct c; reflexivity. Qed.
Lemma command_known s c : command_from_string s = Some c -> s = command_word c.
Proof.
  unfold command_from_string. intros H.
  destruct (find (fun e => bytes_eqb (fst e) s) command_names) as [[n c']|] eqn:F; [|discriminate].
  cbn [option_map snd] in H. injection H as <-. apply find_some in F. destruct F as [I E]. cbn [fst] in E.
  apply bytes_eqb_eq in E. subst s. cbn [command_names In] in I.
  repeat (destruct I as [I|I]; [injection I as <- <-; reflexivity|]). contradiction.
Qed.
Lemma first_name_found argv c : first_name argv c -> get_command_from_args argv = Some c.
Proof.
  intros (pre & post & -> & N). induction pre as [|w pre IH]; cbn [app get_command_from_args].
  - rewrite command_word_known. reflexivity.
  - destruct (command_from_string w) as [c'|] eqn:E.
    + apply command_known in E. exfalso. exact (N w c' (or_introl eq_refl) E).
    + apply IH. intros w' c' W. apply N. right. exact W.
Qed.

Definition final (c : command) (args : list (list Z)) (a : arguments) : arguments :=
  match args with
  | [] => set_command a c
  | x :: _ => set_arg (set_command a c) x
  end.

Lemma run_args_command a c args :
  run_args a 0 (command_word c :: args) =
    if (1 <? zlen args) || end_error (final c args a) (1 + zlen args) then Stop Usage else Next (final c args a).
Proof.
  cbn [run_args]. unfold parser_arg at 1. change (0 =? 0) with true. cbv iota. rewrite command_word_known.
  destruct args as [|x [|y args]].
  - cbn [run_args final]. reflexivity.
  - cbn [run_args final]. unfold parser_arg. change (0 + 1 =? 0) with false. change (0 + 1 <=? 1) with true. cbv iota. reflexivity.
  - cbn [run_args]. unfold parser_arg. change (0 + 1 =? 0) with false. change (0 + 1 <=? 1) with true. cbv iota.
    change (0 + 1 + 1 =? 0) with false. change (0 + 1 + 1 <=? 1) with false. cbv iota.
    assert (1 <? zlen (x :: y :: args) = true) as ->; [|reflexivity]. rewrite !zlen_cons. pose proof (zlen_nonneg args). lia.
Qed.

Lemma set_command_fields a c :
  a_arg (set_command a c) = a_arg a /\ a_library (set_command a c) = a_library a /\ a_process (set_command a c) = a_process a /\
  a_quiet (set_command a c) = a_quiet a /\ a_verbose (set_command a c) = a_verbose a /\ a_revert (set_command a c) = a_revert a /\
  a_command (set_command a c) = Some c.
Proof. destruct a; repeat split. Qed.
Lemma set_arg_fields a x :
  a_arg (set_arg a x) = Some x /\ a_library (set_arg a x) = a_library a /\ a_process (set_arg a x) = a_process a /\
  a_quiet (set_arg a x) = a_quiet a /\ a_verbose (set_arg a x) = a_verbose a /\ a_revert (set_arg a x) = a_revert a /\
  a_command (set_arg a x) = a_command a.
Proof. destruct a; repeat split. Qed.
Lemma final_fields c args a : a_arg a = None ->
  a_arg (final c args a) = nth_error args 0 /\ a_library (final c args a) = a_library a /\ a_process (final c args a) = a_process a /\
  a_quiet (final c args a) = a_quiet a /\ a_verbose (final c args a) = a_verbose a /\ a_revert (final c args a) = a_revert a /\
  a_command (final c args a) = Some c.
Proof.
  intros N. unfold final. destruct args as [|x args].
  - destruct a; cbn in *. subst. repeat split.
  - destruct a; cbn in *. repeat split.
Qed.

Lemma too_long_ok p : too_long (Some p) = false <-> path_ok p.
Proof. unfold too_long, path_ok, ULP_PATH_LEN. lia. Qed.

Local Ltac arith :=
  repeat match goal with
  | |- context [zlen (@nil (list Z))] => change (zlen (@nil (list Z))) with 0
  | |- context [zlen [?x]] => change (zlen [x]) with 1
  | H : context [zlen (@nil (list Z))] |- _ => change (zlen (@nil (list Z))) with 0 in H
  | H : context [zlen [?x]] |- _ => change (zlen [x]) with 1 in H
  end;
  change (1 <? 0) with false in *; change (1 + 0 <? 1) with false in *; change (1 <? 1 + 0) with false in *;
  change (1 + 0 <? 2) with true in *; change (2 <=? 1 + 0) with false in *;
  change (1 <? 1) with false in *; change (1 + 1 <? 1) with false in *; change (1 <? 1 + 1) with true in *;
  change (1 + 1 <? 2) with false in *; change (2 <=? 1 + 1) with true in *;
  cbn [orb andb nth_error] in *.

Lemma legal_checked opts c args : numbers_ok opts ->
  legal c opts args <->
  existsb bad_opt opts = false /\
  (1 <? zlen args) || end_error (final c args (fold_left apply_opt opts no_arguments)) (1 + zlen args) = false.
Proof.
  intros NO. unfold legal.
  split.
  - intros (QV & LN & R & T & C). assert (NB : existsb bad_opt opts = false) by (apply bad_retries; auto).
    split; [exact NB|].
    destruct (final_fields c args (fold_left apply_opt opts no_arguments) (f_arg opts NB)) as (FA & FL & FP & FQ & FV & FR & FC).
    unfold end_error. rewrite FA, FL, FP, FQ, FV, FR, FC.
    rewrite (f_library opts NB), (f_process opts NB), (f_quiet opts NB), (f_verbose opts NB), (f_revert opts NB).
    assert (Q : says Quiet opts && says Verbose opts = false).
    { destruct (says Quiet opts), (says Verbose opts); try reflexivity. contradiction QV; split; reflexivity. }
    rewrite Q. destruct args as [|x [|y args]]; [| |cbn in LN; lia]; arith.
    + destruct c; try reflexivity; try contradiction.
      * destruct C as [C _]. contradiction.
      * destruct C as [_ C]. destruct (last_of library_of opts); [|contradiction]. destruct C as [-> C]. cbn [orb]. rewrite orb_false_r. apply too_long_ok. exact C.
      * destruct C as [C _]. contradiction.
      * destruct (last_of process_of opts); [reflexivity|contradiction].
    + destruct c; try reflexivity; try discriminate.
      * destruct C as [_ C]. inversion C; subst. apply too_long_ok. assumption.
      * destruct C as [P C]. inversion P; subst. rewrite (proj2 (too_long_ok x)) by assumption. rewrite orb_false_r.
        destruct (last_of library_of opts); [|reflexivity]. destruct C as [-> C]. cbn [orb]. apply too_long_ok. exact C.
      * destruct C as [_ C]. inversion C; subst. apply too_long_ok. assumption.
      * destruct (last_of process_of opts); [reflexivity|contradiction].
  - intros (NB & E). destruct (proj1 (bad_retries opts NO) NB) as [R T].
    destruct (final_fields c args (fold_left apply_opt opts no_arguments) (f_arg opts NB)) as (FA & FL & FP & FQ & FV & FR & FC).
    unfold end_error in E. rewrite FA, FL, FP, FQ, FV, FR, FC in E.
    rewrite (f_library opts NB), (f_process opts NB), (f_quiet opts NB), (f_verbose opts NB), (f_revert opts NB) in E.
    apply orb_false_iff in E. destruct E as [E1 E]. apply orb_false_iff in E. destruct E as [E E3]. apply orb_false_iff in E. destruct E as [_ E2].
    split; [intros [Q V]; rewrite Q, V in E2; discriminate|].
    split; [unfold zlen in E1; lia|]. split; [exact R|]. split; [exact T|].
    destruct args as [|x [|y args]]; [| |rewrite !zlen_cons in E1; pose proof (zlen_nonneg args); lia]; arith.
    + destruct c; try reflexivity; try discriminate.
      * split; [constructor|]. destruct (last_of library_of opts) as [l|]; [|discriminate].
        rewrite orb_false_r in E3. apply orb_false_iff in E3. destruct E3 as [E3 E4]. apply orb_false_iff in E3. destruct E3 as [-> _].
        split; [reflexivity|]. apply too_long_ok. exact E4.
      * destruct (last_of process_of opts); [discriminate|discriminate].
    + destruct c; try discriminate.
      * split; [discriminate|]. constructor; [apply too_long_ok; exact E3|constructor].
      * apply orb_false_iff in E3. destruct E3 as [E3 E4]. split; [constructor; [apply too_long_ok; exact E4|constructor]|].
        destruct (last_of library_of opts) as [l|]; [|discriminate].
        apply orb_false_iff in E3. destruct E3 as [E3 E5]. apply orb_false_iff in E3. destruct E3 as [-> _].
        split; [reflexivity|]. apply too_long_ok. exact E5.
      * split; [discriminate|]. constructor; [apply too_long_ok; exact E3|constructor].
      * destruct (last_of process_of opts); [discriminate|discriminate].
Qed.

(** ** Any line whatsoever *)
Lemma getopt_incl tbl : forall n ws, (List.length ws <= n)%nat -> incl (snd (getopt tbl ws)) ws.
Proof.
  induction n as [|n IH]; intros ws L; [destruct ws; [intros x X; exact X|cbn in L; lia]|].
  destruct ws as [|w ws]; [intros x X; exact X|]. cbn [List.length] in L.
  assert (I1 : incl (snd (getopt tbl ws)) ws) by (apply IH; lia).
  assert (I2 : forall v ws', ws = v :: ws' -> incl (snd (getopt tbl ws')) ws').
  { intros v ws' ->. apply IH. cbn [List.length] in L. lia. }
  assert (J1 : incl (snd (getopt tbl ws)) (w :: ws)) by (apply incl_tl; exact I1).
  assert (J2 : forall v ws', ws = v :: ws' -> incl (snd (getopt tbl ws')) (w :: ws)).
  { intros v ws' E. rewrite E. apply incl_tl, incl_tl. eapply I2. exact E. }
  cbn [getopt]. destruct w as [|d1 [|d2 s]].
  - destruct (getopt tbl ws). cbn [snd] in *. apply incl_cons; [left; reflexivity|exact J1].
  - destruct (getopt tbl ws). cbn [snd] in *. apply incl_cons; [left; reflexivity|exact J1].
  - destruct (negb (d1 =? 45)).
    + destruct (getopt tbl ws). cbn [snd] in *. apply incl_cons; [left; reflexivity|exact J1].
    + destruct (d2 =? 45).
      * destruct s as [|s0 s]; [apply incl_tl, incl_refl|].
        destruct (split_eq (s0 :: s)) as [name [v|]]; destruct (find_long tbl name) as [o|]; try (intros x []).
        -- destruct (o_value o); [|intros x []]. destruct (getopt tbl ws). exact J1.
        -- destruct (o_value o).
           ++ destruct ws as [|v ws']; [intros x []|]. specialize (J2 v ws' eq_refl). destruct (getopt tbl ws'). exact J2.
           ++ destruct (getopt tbl ws). exact J1.
      * destruct (letters tbl (d2 :: s)) as [es0 [k|]].
        -- destruct ws as [|v ws']; [intros x []|]. specialize (J2 v ws' eq_refl). destruct (getopt tbl ws'). exact J2.
        -- destruct (getopt tbl ws). exact J1.
Qed.

Definition opts_inv (a : arguments) : Prop :=
  1 <= a_retries a /\ 0 <= a_timeout a /\ a_arg a = None.
Lemma parser_opt_inv a k v a' : parser_opt a k v = Next a' -> opts_inv a -> opts_inv a'.
Proof.
  intros H. destruct a, k; cbn [parser_opt] in H; try (injection H as <-; exact (fun x => x)); try discriminate.
  - destruct (Z.ltb_spec (atoi_any match v with Some s => s | None => [] end) 1); [discriminate|].
    injection H as <-. unfold opts_inv. nums. tauto.
  - destruct (isnumber _); [|discriminate].
    destruct (Z.ltb_spec (strtol10 match v with Some s => s | None => [] end) 0); [discriminate|].
    injection H as <-. unfold opts_inv. nums. tauto.
Qed.
Lemma run_opts_inv es : forall a a', run_opts a es = Next a' -> opts_inv a -> opts_inv a'.
Proof.
  induction es as [|[k v|] es IH]; intros a a' H I; cbn [run_opts] in H; [injection H as <-; exact I| |discriminate].
  destruct (parser_opt a k v) as [a1|o] eqn:P; [|discriminate]. eapply IH; [exact H|]. eapply parser_opt_inv; eassumption.
Qed.

Lemma run_opts_shown es : forall a o, run_opts a es = Stop o -> o = Usage \/ o = Shown.
Proof.
  induction es as [|[k v|] es IH]; intros a o H; cbn [run_opts] in H; [discriminate| |injection H as <-; auto].
  destruct (parser_opt a k v) as [a1|o1] eqn:P; [eapply IH; exact H|]. injection H as <-.
  destruct a, k; cbn [parser_opt] in P; try discriminate; try (injection P as <-; auto).
  - destruct (_ <? 1); [injection P as <-; auto|discriminate].
  - destruct (isnumber _); [destruct (_ <? 0); [injection P as <-; auto|discriminate]|injection P as <-; auto].
Qed.
Lemma run_args_stop ws : forall n a o, run_args a n ws = Stop o -> o = Usage.
Proof.
  induction ws as [|w ws IH]; intros n a o H; cbn [run_args] in H.
  - destruct (end_error a n); [injection H as <-; reflexivity|discriminate].
  - unfold parser_arg in H. destruct (n =? 0).
    + destruct (command_from_string w); [eapply IH; exact H|injection H as <-; reflexivity].
    + destruct (n <=? 1); [eapply IH; exact H|injection H as <-; reflexivity].
Qed.
Lemma run_args_next a ws a' : run_args a 0 ws = Next a' -> exists c args,
  ws = command_word c :: args /\ (1 <? zlen args) || end_error (final c args a) (1 + zlen args) = false /\ a' = final c args a.
Proof.
  destruct ws as [|w args]; [cbn [run_args]; unfold end_error; cbn; discriminate|].
  intros H. assert (W : exists c, w = command_word c).
  { cbn [run_args] in H. unfold parser_arg at 1 in H. change (0 =? 0) with true in H. cbv iota in H.
    destruct (command_from_string w) as [c|] eqn:E; [|discriminate]. exists c. apply command_known. exact E. }
  destruct W as [c ->]. rewrite run_args_command in H. exists c, args. split; [reflexivity|].
  destruct ((1 <? zlen args) || end_error (final c args a) (1 + zlen args)); [discriminate|].
  injection H as <-. split; reflexivity.
Qed.
