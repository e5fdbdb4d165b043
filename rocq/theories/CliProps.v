(** C75: the command line; C76: commands that look into processes. *)
From Coq Require Import String.
From Verif Require Import Base BaseFacts StrModel TextModel CliModel CliSpec CliProofs.

(** A line that asks for a command with options it has, and gives it what it
    needs, starts that command with exactly those settings (or stops because
    tracing is not allowed). *)
Theorem C75_obeyed_partial :
  forall stack euid scope tool ws c opts args,
    line ws opts (command_word c :: args) -> first_name (tool :: ws) c ->
    (forall o, In o opts -> offers stack c o = true) -> numbers_ok opts -> legal c opts args ->
    setting_ok scope ->
    exists a, settings c opts args a /\
      ((looks_inside c = false \/ may_trace euid scope) ->
         ulp_main stack euid scope (tool :: ws) = Started c a) /\
      (looks_inside c = true -> ~ may_trace euid scope ->
         ulp_main stack euid scope (tool :: ws) = NotPermitted).
Proof.
  intros stack euid scope tool ws c opts args LI FN OF NO LE SO.
  pose proof (proj1 (legal_checked opts c args NO) LE) as [NB EE].
  exists (final c args (fold_left apply_opt opts no_arguments)).
  assert (P : parse_args stack (tool :: ws) = Next (final c args (fold_left apply_opt opts no_arguments))).
  { unfold parse_args. rewrite (first_name_found _ _ FN). cbn [tl]. fold (table stack (Some c)).
    rewrite (getopt_line stack c ws opts _ LI) by (apply forallb_forall; exact OF).
    rewrite run_opts_ev, NB, run_args_command, EE. reflexivity. }
  set (a0 := fold_left apply_opt opts no_arguments) in *.
  assert (FC : a_command (final c args a0) = Some c) by (apply final_fields; apply f_arg; exact NB).
  split.
  - assert (K : forall {A} (F : arguments -> A), (forall a, F (set_command a c) = F a) -> (forall a x, F (set_arg a x) = F a) ->
              F (final c args a0) = F a0).
    { intros A F H1 H2. unfold final. destruct args; [apply H1|rewrite H2; apply H1]. }
    constructor; try (rewrite K; [|intros []; reflexivity|intros [] ?; reflexivity]).
    + exact FC.
    + apply final_fields. apply f_arg. exact NB.
    + apply f_process; exact NB.
    + apply f_user; exact NB.
    + apply f_output; exact NB.
    + apply f_livepatch; exact NB.
    + apply f_library; exact NB.
    + apply f_prefix; exact NB.
    + apply f_debuginfo; exact NB.
    + apply f_retries; assumption.
    + apply f_timeout; assumption.
    + apply f_quiet; exact NB.
    + apply f_verbose; exact NB.
    + apply f_buildid; exact NB.
    + apply f_revert; exact NB.
    + apply f_nothreads; exact NB.
    + apply f_recursive; exact NB.
    + apply f_nosummary; exact NB.
    + apply f_onlypatched; exact NB.
    + apply f_noseccomp; exact NB.
    + apply f_checkstack; exact NB.
  - unfold ulp_main. rewrite P, FC.
    assert (RP : requires_ptrace c = looks_inside c) by (destruct c; reflexivity). rewrite RP.
    destruct (looks_inside c).
    + unfold check_ptrace_scope, may_trace in *. split.
      * intros [?|M]; [discriminate|]. destruct (Z.eqb_spec euid 0); [reflexivity|].
        destruct M as [?|[->| ->]]; [contradiction|reflexivity|reflexivity].
      * intros _ NM. destruct (Z.eqb_spec euid 0); [contradiction NM; auto|].
        destruct scope as [s|]; [|contradiction NM; auto]. destruct SO as (d & D & ->).
        change (Z.min (zlen [d; 10]) 4 =? 2) with true. cbn [nth].
        destruct (Z.eqb_spec d 48) as [->|N]; [contradiction NM; auto|reflexivity].
    + split; [reflexivity|discriminate].
Qed.
Print Assumptions C75_obeyed_partial.

(** "ulp -vr3 --user=jo trigger -p 4711 --revert-all /lib64/libc.so.6" *)
Example C75_obeyed_case :
  let ws := [zs "-vr3"; zs "--user=jo"; zs "trigger"; zs "-p"; zs "4711"; zs "--revert-all"; zs "/lib64/libc.so.6"] in
  let opts := [Verbose; Retries (zs "3"); User (zs "jo"); Process (zs "4711"); RevertAll (zs "/lib64/libc.so.6")] in
  line ws opts [command_word Trigger] /\ first_name (zs "ulp" :: ws) Trigger /\
  (forall o, In o opts -> offers false Trigger o = true) /\ numbers_ok opts /\ legal Trigger opts [] /\
  exists a, ulp_main false 1000 (Some [48; 10]) (zs "ulp" :: ws) = Started Trigger a /\
    a_library a = Some (zs "libc.so.6") /\ a_retries a = 3 /\ a_process a = Some (zs "4711") /\
    a_user a = Some (zs "jo") /\ a_verbose a = true /\ a_timeout a = 200.
Proof.
  cbv zeta. split; [|split; [|split; [|split; [|split]]]].
  - apply (ln_opts [zs "-vr3"] [Verbose; Retries (zs "3")]).
    { apply (sp_value [118] [Verbose] (Retries (zs "3")) 114 [51]); try reflexivity; [|discriminate].
      apply (fl_cons Verbose); [reflexivity|reflexivity|constructor]. }
    apply (ln_opts [zs "--user=jo"] [User (zs "jo")]); [apply (sp_long_eq (User (zs "jo")) (zs "jo")); reflexivity|].
    apply ln_word; [intros (x & t & H); discriminate|].
    apply (ln_opts [zs "-p"; zs "4711"] [Process (zs "4711")]).
    { apply (sp_value_sep [] [] (Process (zs "4711")) 112 (zs "4711")); [constructor|reflexivity|reflexivity]. }
    apply (ln_opts [zs "--revert-all"; zs "/lib64/libc.so.6"] [RevertAll (zs "/lib64/libc.so.6")]).
    { apply (sp_long_sep (RevertAll (zs "/lib64/libc.so.6"))); reflexivity. }
    constructor.
  - exists [zs "ulp"; zs "-vr3"; zs "--user=jo"], [zs "-p"; zs "4711"; zs "--revert-all"; zs "/lib64/libc.so.6"].
    split; [reflexivity|]. intros w c' [<-|[<-|[<-|[]]]]; destruct c'; discriminate.
  - intros o [<-|[<-|[<-|[<-|[<-|[]]]]]]; reflexivity.
  - intros s [E|[E|[E|[E|[E|[]]]]]]; try discriminate E. injection E as <-. split; [split; [discriminate|]|].
    + repeat constructor; discriminate.
    + vm_compute. discriminate.
  - split; [intros [H _]; discriminate H|]. split; [cbn; lia|]. split.
    + intros s [E|[E|[E|[E|[E|[]]]]]]; try discriminate E. injection E as <-. vm_compute. discriminate.
    + split; [intros s [E|[E|[E|[E|[E|[]]]]]]; discriminate E|]. split; [constructor|]. vm_compute. split; [reflexivity|discriminate].
  - eexists. split; [reflexivity|]. repeat split.
Qed.

(** A line that asks for an option the command does not have, or does not give
    the command what it needs, is refused with a message. *)
Theorem C75_refused_partial :
  forall stack euid scope tool ws c opts args,
    line ws opts (command_word c :: args) -> first_name (tool :: ws) c -> numbers_ok opts ->
    (exists o, In o opts /\ offers stack c o = false) \/ ~ legal c opts args ->
    ulp_main stack euid scope (tool :: ws) = Usage.
Proof.
  intros stack euid scope tool ws c opts args LI FN NO BAD.
  unfold ulp_main. assert (P : parse_args stack (tool :: ws) = Stop Usage); [|rewrite P; reflexivity].
  unfold parse_args. rewrite (first_name_found _ _ FN). cbn [tl]. fold (table stack (Some c)).
  destruct (forallb (offers stack c) opts) eqn:O.
  - destruct BAD as [(o & I & F)|NL]; [rewrite forallb_forall in O; rewrite (O o I) in F; discriminate|].
    rewrite (getopt_line stack c ws opts _ LI O), run_opts_ev.
    destruct (existsb bad_opt opts) eqn:NB; [reflexivity|]. rewrite run_args_command.
    match goal with |- (if ?e then _ else _) = _ => destruct e eqn:EE end; [reflexivity|].
    contradiction NL. apply (legal_checked opts c args NO). split; [exact NB|exact EE].
  - destruct (getopt_line_bad stack c ws opts _ LI O) as (pre & k & E).
    destruct (getopt (table stack (Some c)) ws) as [es ar]. cbn [fst] in E. rewrite E, run_opts_bad. reflexivity.
Qed.
Print Assumptions C75_refused_partial.

(** A negative number of retries is refused. *)
Theorem C75_negative_refused :
  forall stack euid scope tool ws c opts args s,
    line ws opts (command_word c :: args) -> first_name (tool :: ws) c ->
    In (Retries (45 :: s)) opts -> numeral s -> dec_val s <= 2 ^ 31 ->
    ulp_main stack euid scope (tool :: ws) = Usage.
Proof.
  intros stack euid scope tool ws c opts args s LI FN IN NU BO.
  unfold ulp_main. assert (P : parse_args stack (tool :: ws) = Stop Usage); [|rewrite P; reflexivity].
  unfold parse_args. rewrite (first_name_found _ _ FN). cbn [tl]. fold (table stack (Some c)).
  destruct (forallb (offers stack c) opts) eqn:O.
  - rewrite (getopt_line stack c ws opts _ LI O), run_opts_ev.
    assert (B : existsb bad_opt opts = true); [|rewrite B; reflexivity].
    apply existsb_exists. exists (Retries (45 :: s)). split; [exact IN|]. cbn [bad_opt].
    destruct NU as [_ NU]. apply numeral_digits in NU.
    assert (L : lead_digits s = s).
    { clear - NU. induction s as [|x s IH]; [reflexivity|]. cbn [forallb] in NU. apply andb_prop in NU. destruct NU as [A B].
      cbn [lead_digits]. rewrite A, (IH B). reflexivity. }
    pose proof (dec_val_nonneg s NU) as NN.
    unfold atoi_any, strtol10. cbn [skip_blanks]. change (isspace 45) with false. cbv iota. rewrite L.
    rewrite Z.max_l by lia. unfold s32, u32.
    destruct (Z.eq_dec (dec_val s) 0) as [Z0|NZ]; [rewrite Z0; reflexivity|].
    assert (M : (- dec_val s) mod 2 ^ 32 = 2 ^ 32 - dec_val s).
    { symmetry. apply (Z.mod_unique _ _ (-1)); lia. }
    rewrite M. destruct (Z.ltb_spec (2 ^ 32 - dec_val s) (2 ^ 31)); apply Z.ltb_lt; lia.
  - destruct (getopt_line_bad stack c ws opts _ LI O) as (pre & k & E).
    destruct (getopt (table stack (Some c)) ws) as [es ar]. cbn [fst] in E. rewrite E, run_opts_bad. reflexivity.
Qed.
Print Assumptions C75_negative_refused.
Example C75_negative_refused_case :
  line [zs "trigger"; zs "-r"; zs "-5"; zs "fix.so"] [Retries (zs "-5")] [zs "trigger"; zs "fix.so"] /\
  ulp_main false 0 None [zs "ulp"; zs "trigger"; zs "-r"; zs "-5"; zs "fix.so"] = Usage.
Proof.
  split; [|vm_compute; reflexivity]. apply ln_word; [intros (x & t & H); discriminate|].
  apply (ln_opts [zs "-r"; zs "-5"] [Retries (zs "-5")]).
  - apply (sp_value_sep [] [] (Retries (zs "-5")) 114 (zs "-5")); [constructor|reflexivity|reflexivity].
  - apply ln_word; [intros (x & t & H); discriminate|]. constructor.
Qed.

(** How the value of -r is read: blanks before the number and anything after it that
    is no digit are passed over; the number may have a plus sign. *)
Theorem C75_retries_read :
  forall a blanks plus s rest,
    Forall (fun c => In c [9; 10; 11; 12; 13; 32]) blanks -> plus = [] \/ plus = [43] ->
    numeral s -> dec_val s <= 2 ^ 31 - 1 ->
    match rest with c :: _ => ~ 48 <= c <= 57 | [] => True end ->
    parser_opt a K_r (Some (blanks ++ plus ++ s ++ rest)) = parser_opt a K_r (Some s).
Proof.
  intros a blanks plus s rest HB HP HN HS HR.
  assert (E : atoi_any (blanks ++ plus ++ s ++ rest) = atoi_any s);
    [|unfold parser_opt; rewrite E; reflexivity].
  pose proof HN as [NE ND]. apply numeral_digits in ND.
  assert (L : lead_digits (s ++ rest) = s).
  { clear - ND HR. induction s as [|c s IH]; cbn [app lead_digits forallb] in *.
    - destruct rest as [|c rest]; [reflexivity|]. cbn [lead_digits]. destruct (isdigit c) eqn:D; [|reflexivity]. unfold isdigit in D. lia.
    - apply andb_true_iff in ND. destruct ND as [A B]. rewrite A, (IH B). reflexivity. }
  assert (K : skip_blanks (blanks ++ plus ++ s ++ rest) = plus ++ s ++ rest).
  { induction HB as [|c l HC HB IH].
    - cbn [app]. destruct HP as [->| ->]; [|reflexivity]. destruct s as [|c s]; [contradiction NE; reflexivity|].
      cbn [app skip_blanks]. cbn [forallb] in ND. apply andb_true_iff in ND. destruct ND as [A _].
      assert (isspace c = false) as ->; [unfold isdigit, isspace in *; lia|reflexivity].
    - cbn [app skip_blanks]. assert (isspace c = true) as ->; [|exact IH].
      unfold isspace. cbn [In] in HC. lia. }
  unfold atoi_any at 1. unfold strtol10. rewrite K. unfold atoi_any. rewrite strtol10_digits by exact ND.
  destruct HP as [->| ->]; cbn [app]; [|rewrite L; reflexivity].
  destruct s as [|c s]; [contradiction NE; reflexivity|]. cbn [app] in *.
  assert (C : 48 <= c <= 57) by (cbn [forallb] in ND; apply andb_true_iff in ND; destruct ND as [A _]; unfold isdigit in A; lia).
  assert (G : forall t, match c :: t with 45 :: u => Z.max (- dec_val (lead_digits u)) (- 2 ^ 63) | 43 :: u => Z.min (dec_val (lead_digits u)) (2 ^ 63 - 1) | u => Z.min (dec_val (lead_digits u)) (2 ^ 63 - 1) end
     = Z.min (dec_val (lead_digits (c :: t))) (2 ^ 63 - 1)).
  { intros t. clear - C. destruct c as [|p|p]; try reflexivity; try lia. do 6 (destruct p as [p|p|]; try reflexivity; try lia). }
  rewrite G, L. reflexivity.
Qed.
Print Assumptions C75_retries_read.
Example C75_retries_read_case :
  match ulp_main false 0 None [zs "ulp"; zs "trigger"; zs "-r"; zs " +7 times"; zs "fix.so"],
        ulp_main false 0 None [zs "ulp"; zs "trigger"; zs "-r"; zs "7"; zs "fix.so"] with
  | Started c a, Started c' a' => c = c' /\ a = a'
  | _, _ => False
  end.
Proof. vm_compute. split; reflexivity. Qed.

(** A line that starts by asking for help or for the version gets it, whatever else
    it says, and nothing is started. *)
Theorem C75_help :
  forall stack euid scope tool w ws,
    In w [zs "--help"; zs "--usage"; zs "--version"; zs "-?"; zs "-V"] ->
    ulp_main stack euid scope (tool :: w :: ws) = Shown.
Proof.
  intros stack euid scope tool w ws I. unfold ulp_main.
  assert (P : parse_args stack (tool :: w :: ws) = Stop Shown); [|rewrite P; reflexivity].
  unfold parse_args. cbn [tl]. set (o := get_command_from_args (tool :: w :: ws)). clearbody o.
  assert (T : exists k rest, (k = K_help \/ k = K_usage \/ k = K_version) /\
    fst (getopt (options_of stack o ++ argp_own) (w :: ws)) = Opt k None :: rest).
  { vm_compute in I. destruct I as [<-|[<-|[<-|[<-|[<-|[]]]]]].
    1-3: cbn [getopt split_eq Z.eqb Pos.eqb negb]; (let s := fresh in
      match goal with |- context[find_long ?tbl ?n] =>
        assert (F : exists a, find_long tbl n = Some a /\ o_value a = false /\ (o_key a = K_help \/ o_key a = K_usage \/ o_key a = K_version))
          by (destruct stack, o as [[]|]; eexists; (split; [vm_compute; reflexivity|]); (split; [reflexivity|]); cbn; auto) end);
      destruct F as (a & -> & V & K); rewrite V; destruct (getopt _ ws) as [es ar]; exists (o_key a), es; (split; [exact K|reflexivity]).
    1-2: cbn [getopt Z.eqb Pos.eqb negb];
      match goal with |- context[letters ?tbl ?n] =>
        assert (F : exists k, letters tbl n = ([Opt k None], None) /\ (k = K_help \/ k = K_usage \/ k = K_version))
          by (destruct stack, o as [[]|]; eexists; (split; [vm_compute; reflexivity|]); cbn; auto) end;
      destruct F as (k & -> & K); destruct (getopt _ ws) as [es ar]; exists k, es; (split; [exact K|reflexivity]). }
  destruct T as (k & rest & K & E). destruct (getopt _ (w :: ws)) as [es ar]. cbn [fst] in E. rewrite E.
  cbn [run_opts]. destruct K as [->|[->| ->]]; reflexivity.
Qed.
Print Assumptions C75_help.
Example C75_help_case :
  ulp_main false 1000 (Some (zs "1" ++ [10])) [zs "ulp"; zs "--usage"; zs "trigger"; zs "--nonsense"] = Shown.
Proof. vm_compute. reflexivity. Qed.

(** Without a command, or with a word that is none, the line is refused (or, if it
    asks for help, help is shown): nothing is started. *)
Theorem C75_no_command :
  forall stack euid scope tool ws,
    (forall c, ~ In (command_word c) ws) ->
    ulp_main stack euid scope (tool :: ws) = Usage \/ ulp_main stack euid scope (tool :: ws) = Shown.
Proof.
  intros stack euid scope tool ws N. unfold ulp_main, parse_args. cbn [tl].
  set (tbl := options_of stack (get_command_from_args (tool :: ws)) ++ argp_own).
  pose proof (getopt_incl tbl _ ws (le_n _)) as IN. destruct (getopt tbl ws) as [es ar]. cbn [snd] in IN.
  destruct (run_opts no_arguments es) as [a|o] eqn:R.
  - destruct (run_args a 0 ar) as [a'|o] eqn:RA; [|left; eapply run_args_stop; exact RA].
    apply run_args_next in RA. destruct RA as (c & args & -> & _). exfalso. apply (N c). apply IN. left. reflexivity.
  - apply run_opts_shown in R. destruct R as [-> | ->]; auto.
Qed.
Print Assumptions C75_no_command.

(** Whatever the line is: what is started has been named on it, and has what it
    needs. *)
Theorem C75_always_checked :
  forall stack euid scope tool ws c a,
    ulp_main stack euid scope (tool :: ws) = Started c a ->
    In (command_word c) ws /\ a_command a = Some c /\
    1 <= a_retries a /\ 0 <= a_timeout a /\ ~ (a_quiet a = true /\ a_verbose a = true) /\
    match c with
    | Patches => a_arg a = None
    | Extract | Packer | Check | SetPatchable | Livepatchable => a_arg a <> None
    | Post | Dump => exists p, a_arg a = Some p /\ path_ok p
    | Trigger =>
        (forall p, a_arg a = Some p -> path_ok p) /\
        (forall l, a_library a = Some l -> path_ok l /\ a_revert a = false) /\
        (a_library a = None -> a_arg a <> None)
    | Messages => a_process a <> None
    end.
Proof.
  intros stack euid scope tool ws c a H. unfold ulp_main, parse_args in H. cbn [tl] in H.
  set (tbl := options_of stack (get_command_from_args (tool :: ws)) ++ argp_own) in *.
  pose proof (getopt_incl tbl _ ws (le_n _)) as IN. destruct (getopt tbl ws) as [es ar]. cbn [snd] in IN.
  destruct (run_opts no_arguments es) as [a0|o] eqn:R.
  2: { destruct (run_opts_shown _ _ _ R) as [-> | ->]; discriminate. }
  apply run_opts_inv in R; [|split; [cbn; lia|split; [cbn; lia|reflexivity]]]. destruct R as (R1 & R2 & R3).
  destruct (run_args a0 0 ar) as [a1|o] eqn:RA; [|apply run_args_stop in RA; subst o; discriminate].
  apply run_args_next in RA. destruct RA as (c1 & args & -> & E & ->).
  destruct (final_fields c1 args a0 R3) as (FA & FL & FP & FQ & FV & FR & FC).
  rewrite FC in H.
  assert (c1 = c /\ final c1 args a0 = a) as [-> <-].
  { destruct (requires_ptrace c1).
    - destruct (check_ptrace_scope euid scope) as [[|]|]; try discriminate. injection H as <- <-. auto.
    - injection H as <- <-. auto. }
  assert (KR : a_retries (final c args a0) = a_retries a0 /\ a_timeout (final c args a0) = a_timeout a0).
  { unfold final. destruct args, a0; split; reflexivity. }
  destruct KR as [-> ->].
  split; [apply IN; left; reflexivity|]. split; [exact FC|]. split; [exact R1|]. split; [exact R2|].
  unfold end_error in E. rewrite FA, FL, FP, FQ, FV, FR, FC in *.
  apply orb_false_iff in E. destruct E as [E1 E]. apply orb_false_iff in E. destruct E as [E E3]. apply orb_false_iff in E. destruct E as [_ E2].
  split; [intros [Q V]; rewrite Q, V in E2; discriminate|].
  destruct args as [|x [|y args]]; [| |rewrite !zlen_cons in E1; pose proof (zlen_nonneg args); lia]; cbn [nth_error] in *.
  - change (1 + zlen (@nil (list Z))) with 1 in E3.
    destruct c; try reflexivity; try discriminate E3.
    + split; [discriminate|]. destruct (a_library a0) as [l|]; [|discriminate E3].
      change (2 <=? 1) with false in E3. cbn [andb] in E3. rewrite orb_false_r in E3.
      apply orb_false_iff in E3. destruct E3 as [E3 E4]. apply orb_false_iff in E3. destruct E3 as [E3 _].
      split; [|discriminate]. intros l0 L. injection L as <-. split; [apply too_long_ok; exact E4|exact E3].
    + destruct (a_process a0); discriminate.
  - change (1 + zlen [x]) with 2 in E3.
    destruct c; try discriminate; try discriminate E3.
    + exists x. split; [reflexivity|]. apply too_long_ok. exact E3.
    + change (2 <=? 2) with true in E3. cbn [andb] in E3.
      apply orb_false_iff in E3. destruct E3 as [E3 E4].
      split; [intros p P; injection P as <-; apply too_long_ok; exact E4|]. split; [|discriminate].
      intros l L. rewrite L in E3. apply orb_false_iff in E3. destruct E3 as [E3 E5]. apply orb_false_iff in E3. destruct E3 as [E3 _].
      split; [apply too_long_ok; exact E5|exact E3].
    + exists x. split; [reflexivity|]. apply too_long_ok. exact E3.
    + destruct (a_process a0); discriminate.
Qed.
Print Assumptions C75_always_checked.

(** Finding: the options are looked up in the table of the first command name
    found anywhere on the line, even in the value of an option. A process called
    "dump" cannot be named before the command. *)
Theorem C75_option_value_refuted :
  exists ws opts args,
    line ws opts (command_word Trigger :: args) /\
    (forall o, In o opts -> offers false Trigger o = true) /\ numbers_ok opts /\ legal Trigger opts args /\
    ulp_main false 0 None (zs "ulp" :: ws) = Usage.
Proof.
  exists [zs "-p"; zs "dump"; zs "trigger"; zs "fix.so"], [Process (zs "dump")], [zs "fix.so"].
  split; [|split; [|split; [|split]]].
  - apply (ln_opts [zs "-p"; zs "dump"] [Process (zs "dump")]).
    { apply (sp_value_sep [] [] (Process (zs "dump")) 112 (zs "dump")); [constructor|reflexivity|reflexivity]. }
    apply ln_word; [intros (x & t & H); discriminate|]. apply ln_word; [intros (x & t & H); discriminate|]. constructor.
  - intros o [<-|[]]. reflexivity.
  - intros s [E|[]]; discriminate E.
  - split; [intros [H _]; discriminate H|]. split; [cbn; lia|]. split; [intros s [E|[]]; discriminate E|].
    split; [intros s [E|[]]; discriminate E|]. split; [constructor; [vm_compute; discriminate|constructor]|]. vm_compute. discriminate.
  - vm_compute. reflexivity.
Qed.
Print Assumptions C75_option_value_refuted.

(** Finding: the number of retries is cut to 32 bits. 4294967296 retries are
    refused as "less than one", and 4294967298 mean two. *)
Theorem C75_retries_wrap_refuted :
  ulp_main false 0 None [zs "ulp"; zs "trigger"; zs "-r"; zs "4294967296"; zs "fix.so"] = Usage /\
  exists a, ulp_main false 0 None [zs "ulp"; zs "trigger"; zs "-r"; zs "4294967298"; zs "fix.so"] = Started Trigger a /\
    a_retries a = 2.
Proof. split; [vm_compute; reflexivity|]. eexists. split; [vm_compute; reflexivity|reflexivity]. Qed.
Print Assumptions C75_retries_wrap_refuted.

(** Finding: a word that is not a number is taken for one if it starts with one. *)
Theorem C75_retries_garbage_refuted :
  exists a, ulp_main false 0 None [zs "ulp"; zs "trigger"; zs "-r"; zs "3x"; zs "fix.so"] = Started Trigger a /\
    a_retries a = 3 /\ ~ numeral (zs "3x").
Proof.
  eexists. split; [vm_compute; reflexivity|]. split; [reflexivity|]. intros [_ F]. inversion F as [|? ? ? F2]; subst.
  inversion F2 as [|? ? X]; subst. vm_compute in X. destruct X as [_ X]. apply X. reflexivity.
Qed.
Print Assumptions C75_retries_garbage_refuted.
