(** C105: colours are written only where they are wanted, and say nothing the text does
    not say. *)
From Coq Require Import String.
From Verif Require Import Base BaseFacts StrModel LibModel TrModel TextModel LogModel DscModel LocModel IntrModel PatModel CmdModel ColModel ColSpec ColProofs.

(** When colours are written. *)
Theorem C105_when : forall e opts,
  no_color_after e opts = false <-> wanted (able (te_no_color e) (te_tty e) (te_term e)) opts.
Proof.
  intros e opts.
  assert (A : check_color_available e = true <-> able (te_no_color e) (te_tty e) (te_term e)).
  { unfold check_color_available, able. destruct (te_no_color e); [split; [discriminate|intros [X _]; discriminate X]|].
    destruct (te_tty e); [|split; [discriminate|intros (_ & X & _); discriminate X]].
    destruct (te_term e) as [t|]; [|split; [discriminate|intros (_ & _ & t & X & _); discriminate X]].
    destruct (bytes_eqb t (zs "dumb")) eqn:B; cbn [negb].
    - apply bytes_eqb_eq in B. split; [discriminate|]. intros (_ & _ & u & X & Y). injection X as <-. contradiction.
    - split; [|reflexivity]. intros _. split; [reflexivity|]. split; [reflexivity|]. exists t. split; [reflexivity|].
      intros ->. rewrite (proj2 (bytes_eqb_eq _ _) eq_refl) in B. discriminate B. }
  unfold no_color_after, wanted. destruct opts as [|o opts0] using rev_ind.
  { cbn [fold_left rev]. rewrite negb_false_iff. exact A. }
  clear IHopts0. rewrite fold_left_app, rev_app_distr. cbn [fold_left rev app]. unfold parse_color.
  destruct (bytes_eqb o (zs "no")) eqn:B1; cbn [orb].
  { apply bytes_eqb_eq in B1. subst o. split; [discriminate|]. intros [[X _]|(_ & X & _)]; [discriminate X|contradiction]. }
  destruct (bytes_eqb o (zs "n")) eqn:B2; cbn [orb].
  { apply bytes_eqb_eq in B2. subst o. split; [discriminate|]. intros [[X _]|(_ & _ & X)]; [discriminate X|contradiction]. }
  assert (N1 : o <> zs "no") by (intros ->; rewrite (proj2 (bytes_eqb_eq _ _) eq_refl) in B1; discriminate B1).
  assert (N2 : o <> zs "n") by (intros ->; rewrite (proj2 (bytes_eqb_eq _ _) eq_refl) in B2; discriminate B2).
  destruct (bytes_eqb o (zs "auto")) eqn:B3.
  - apply bytes_eqb_eq in B3. rewrite negb_false_iff, A. split; [auto|]. intros [[_ X]|(X & _)]; [exact X|contradiction].
  - assert (N3 : o <> zs "auto") by (intros ->; rewrite (proj2 (bytes_eqb_eq _ _) eq_refl) in B3; discriminate B3).
    split; [auto|reflexivity].
Qed.
Print Assumptions C105_when.

(** What `patches` says about a process, with and without colours. *)
Theorem C105_status : forall ce state, (forall n, printable (ce_strerror ce n)) ->
  let word := match remote_status state with
              | St_enabled => (GREEN, zs "enabled")
              | St_disabled_by_user => (YELLOW, zs "disabled by user")
              | St_error e => (RED, zs "disabled (internal error: " ++ libpulp_strerror (ce_strerror ce) e ++ zs ")")
              end in
  shows (status_text ce false state) (cells normal (zs "  Livepatching status: ") ++ cells (in_colour (fst word)) (snd word ++ [10])) /\
  status_text ce true state = zs "  Livepatching status: " ++ snd word ++ [10].
Proof.
  intros ce state H word. unfold status_text.
  assert (P0 : printable (zs "  Livepatching status: ")) by (apply printableb_ok; reflexivity).
  assert (G : forall esc c t, (forall l0, paired l0 (in_colour c) esc [] []) -> printable t ->
    terminal Text normal (zs "  Livepatching status: " ++ (esc ++ t) ++ TERM_COLOR_RESET) =
      (cells normal (zs "  Livepatching status: ") ++ cells (in_colour c) t, (Text, normal))).
  { intros esc c t He Ht.
    assert (X : paired normal normal (zs "  Livepatching status: " ++ (esc ++ t) ++ TERM_COLOR_RESET) (zs "  Livepatching status: " ++ ([] ++ t) ++ [])
      (cells normal (zs "  Livepatching status: ") ++ ([] ++ cells (in_colour c) t) ++ [])).
    { eapply paired_app; [apply paired_text, P0|]. eapply paired_app; [|apply paired_reset]. eapply paired_app; [apply He|apply paired_text, Ht]. }
    destruct X as [X _]. rewrite X. rewrite app_nil_r. reflexivity. }
  assert (L : forall a b c : list Z, (a ++ b ++ c) ++ [10] = a ++ b ++ c ++ [10]) by (intros; rewrite !app_assoc; reflexivity).
  unfold word, change_color, shows. destruct (remote_status state) as [| |e]; cbn [fst snd].
  - split; [|reflexivity]. apply G; [apply paired_green|apply printableb_ok; reflexivity].
  - split; [|reflexivity]. apply G; [apply paired_yellow|apply printableb_ok; reflexivity].
  - split; [|rewrite app_nil_r, L; reflexivity]. rewrite L. apply (G TERM_COLOR_RED RED); [apply paired_red|].
    apply printable_app. split; [apply printableb_ok; reflexivity|]. apply printable_app. split; [apply strerror_printable, H|apply printableb_ok; reflexivity].
Qed.
Print Assumptions C105_status.

(** A line of the report of `trigger` as it is to be seen: the result in yellow, red or
    green, the rest in the normal look. *)
Definition seen_line (strerr : Z -> list Z) (indent : list Z) (r : rline) : list (Z * look) :=
  match r with
  | R_skipped None e => cells (in_colour YELLOW) (indent ++ zs "SKIPPED") ++ cells normal (zs " " ++ libpulp_strerror strerr e ++ [10])
  | R_skipped (Some n) e => cells (in_colour YELLOW) (indent ++ zs "SKIPPED") ++ cells normal (zs " " ++ n ++ zs ": " ++ libpulp_strerror strerr e ++ [10])
  | R_failed n e => cells (in_colour RED) (indent ++ zs "FAILED") ++ cells normal (zs " " ++ n ++ zs ": " ++ libpulp_strerror strerr e ++ [10])
  | R_success n => cells (in_colour GREEN) (indent ++ zs "SUCCESS") ++ cells normal (zs " " ++ n ++ [10])
  end.

Lemma tail_printable n s : printable n -> printable s -> printable (zs " " ++ n ++ zs ": " ++ s ++ [10]).
Proof.
  intros Hn Hs. repeat (apply printable_app; split); try assumption; apply printableb_ok; reflexivity.
Qed.
Lemma tail_printable1 n : printable n -> printable (zs " " ++ n ++ [10]).
Proof. intros Hn. repeat (apply printable_app; split); try assumption; apply printableb_ok; reflexivity. Qed.

Lemma line_paired strerr hide r : (forall n, printable (strerr n)) -> printable (tr_name r) ->
  paired normal normal (line_text false strerr hide r) (line_text true strerr hide r)
    (flat_map (seen_line strerr (zs "    ")) (report_line hide r)).
Proof.
  intros H Hn. unfold line_text, report_line. cbv zeta.
  pose proof (strerror_printable strerr (tr_err r) H) as He.
  destruct (minor (tr_err r)).
  - destruct hide; cbn [negb flat_map]; [apply paired_nil|]. rewrite app_nil_r. cbn [seen_line].
    apply word_then; [apply paired_yellow|apply printableb_ok; reflexivity|apply printableb_ok; reflexivity|apply tail_printable; assumption].
  - destruct (tr_err r =? 0); cbn [negb flat_map seen_line]; rewrite app_nil_r.
    + apply word_then; [apply paired_green|apply printableb_ok; reflexivity|apply printableb_ok; reflexivity|apply tail_printable1; assumption].
    + apply word_then; [apply paired_red|apply printableb_ok; reflexivity|apply printableb_ok; reflexivity|apply tail_printable; assumption].
Qed.

Lemma lines_paired strerr hide rs : (forall n, printable (strerr n)) -> (forall r, In r rs -> printable (tr_name r)) ->
  paired normal normal (flat_map (line_text false strerr hide) rs) (flat_map (line_text true strerr hide) rs)
    (flat_map (seen_line strerr (zs "    ")) (flat_map (report_line hide) rs)).
Proof.
  intros H. induction rs as [|r rs IH]; intros Hn; cbn [flat_map]; [apply paired_nil|].
  rewrite flat_map_app. eapply paired_app; [apply line_paired; [exact H|apply Hn; left; reflexivity]|].
  apply IH. intros x Hx. apply Hn. right. exact Hx.
Qed.

(** The report of `trigger` about a process: the lines of C67's report, in a column or,
    if it is a single one, behind the name; and with colours switched off, the same
    characters. *)
Theorem C105_report : forall strerr name pid rs summarize,
  (forall n, printable (strerr n)) -> printable name -> (forall r, In r rs -> printable (tr_name r)) ->
  match print_patched_unpatched rs summarize with
  | None => report_text false strerr name pid rs summarize = [] /\ report_text true strerr name pid rs summarize = []
  | Some lines => exists column out,
      (summarize = false -> column = true) /\ (List.length lines <> 1%nat -> column = true) /\
      out = cells normal (zs "  " ++ name ++ zs " (pid: " ++ print_int pid ++ zs "):") ++
            (if column then cells normal [10] ++ flat_map (seen_line strerr (zs "    ")) lines
             else flat_map (seen_line strerr (zs " ")) lines) /\
      shows (report_text false strerr name pid rs summarize) out /\
      report_text true strerr name pid rs summarize = map fst out
  end.
Proof.
  intros strerr name pid rs summarize H Hname Hn. unfold print_patched_unpatched, report_text.
  set (err0 := match rs with [] => EUNKNOWN | r :: _ => tr_err r end).
  destruct (report_err rs err0 false) as [err hide]. destruct (report_sum rs err hide true None) as [summarized res] eqn:ES.
  assert (Hres : forall r, res = Some r -> printable (tr_name r)).
  { assert (G : forall l s0 r0 s1 r1, report_sum l err hide s0 r0 = (s1, r1) -> forall r, r1 = Some r -> r0 = Some r \/ In r l).
    { induction l as [|x l IH]; intros s0 r0 s1 r1 E r Hr; cbn [report_sum] in E.
      - injection E as _ <-. auto.
      - destruct (hide && minor (tr_err x)); [destruct (IH _ _ _ _ E r Hr); [auto|right; right; assumption]|].
        destruct (negb (tr_err x =? err)); [destruct (IH _ _ _ _ E r Hr); [auto|right; right; assumption]|].
        destruct (negb (minor (tr_err x))); [|destruct (IH _ _ _ _ E r Hr); [auto|right; right; assumption]].
        destruct r0; destruct (IH _ _ _ _ E r Hr) as [X|X]; [auto|right; right; exact X| |right; right; exact X].
        injection X as <-. right. left. reflexivity. }
    intros r Hr. destruct (G _ _ _ _ _ ES r Hr) as [X|X]; [discriminate X|apply Hn, X]. }
  clear ES.
  assert (HH : printable (zs "  " ++ name ++ zs " (pid: " ++ print_int pid ++ zs "):")).
  { repeat (apply printable_app; split); try (apply printableb_ok; reflexivity); [exact Hname|apply int_printable]. }
  set (hd := zs "  " ++ name ++ zs " (pid: " ++ print_int pid ++ zs "):") in *.
  assert (AS : forall x : list Z, zs "  " ++ name ++ zs " (pid: " ++ print_int pid ++ zs "):" ++ x = hd ++ x).
  { intros x. unfold hd. rewrite <- !app_assoc. reflexivity. }
  pose proof (strerror_printable strerr err H) as He.
  assert (FIN : forall a b o, paired normal normal a b o ->
    shows (hd ++ a) (cells normal hd ++ o) /\ hd ++ b = map fst (cells normal hd ++ o)).
  { intros a b o P. destruct (paired_app _ _ _ _ _ _ _ _ _ (paired_text normal hd HH) P) as [X Y]. split; [exact X|symmetry; exact Y]. }
  clearbody hd.
  assert (LONG : forall h, exists column out, (summarize = false -> column = true) /\ (List.length (flat_map (report_line h) rs) <> 1%nat -> column = true) /\
    out = cells normal hd ++ (if column then cells normal [10] ++ flat_map (seen_line strerr (zs "    ")) (flat_map (report_line h) rs)
                              else flat_map (seen_line strerr (zs " ")) (flat_map (report_line h) rs)) /\
    shows (hd ++ [10] ++ flat_map (line_text false strerr h) rs) out /\ hd ++ [10] ++ flat_map (line_text true strerr h) rs = map fst out).
  { intros h. exists true. eexists. split; [reflexivity|]. split; [reflexivity|]. split; [reflexivity|]. apply FIN.
    eapply paired_app; [apply paired_text; apply printableb_ok; reflexivity|apply lines_paired; assumption]. }
  assert (ONE : forall ln a b, summarize = true -> paired normal normal a b (seen_line strerr (zs " ") ln) ->
    exists column out, (summarize = false -> column = true) /\ (List.length [ln] <> 1%nat -> column = true) /\
    out = cells normal hd ++ (if column then cells normal [10] ++ flat_map (seen_line strerr (zs "    ")) [ln]
                              else flat_map (seen_line strerr (zs " ")) [ln]) /\
    shows (hd ++ a) out /\ hd ++ b = map fst out).
  { intros ln a b Hs P. exists false. eexists. split; [congruence|]. split; [intros X; contradiction X; reflexivity|]. split; [reflexivity|].
    apply FIN. cbn [flat_map]. rewrite app_nil_r. exact P. }
  assert (PB : forall t, printableb t = true -> printable t) by exact printableb_ok.
  destruct res as [r|]; destruct summarized; cbn [andb]; rewrite ?AS; [|apply LONG|split; reflexivity|apply LONG].
  destruct summarize; [|apply LONG].
  specialize (Hres r eq_refl).
  destruct (skippable_error err).
  { apply ONE; [reflexivity|]. cbn [seen_line]. apply word_then; [apply paired_yellow|apply PB; reflexivity|apply PB; reflexivity|].
    repeat (apply printable_app; split); try assumption; apply PB; reflexivity. }
  destruct (negb (err =? 0)).
  - apply ONE; [reflexivity|]. cbn [seen_line]. apply word_then; [apply paired_red|apply PB; reflexivity|apply PB; reflexivity|apply tail_printable; assumption].
  - apply ONE; [reflexivity|]. cbn [seen_line]. apply word_then; [apply paired_green|apply PB; reflexivity|apply PB; reflexivity|apply tail_printable1; assumption].
Qed.
Print Assumptions C105_report.

(** ** packer *)

Lemma lines_concat f : concat (lines_of f) = f.
Proof.
  induction f as [|c t IH]; [reflexivity|]. cbn [lines_of]. destruct (c =? NL) eqn:E.
  - apply Z.eqb_eq in E. subst c. cbn [concat app]. rewrite IH. reflexivity.
  - destruct (lines_of t) as [|l ls]; cbn [concat app] in *; [rewrite <- IH; reflexivity|rewrite IH; reflexivity].
Qed.
Lemma line_printable f l : printable f -> In l (lines_of f) -> printable l.
Proof. intros H I J. apply H. rewrite <- (lines_concat f). apply in_concat. eauto. Qed.
Lemma red_in b l r rest : red b l = (r, rest) -> (forall x, In x r -> In x l) /\ (forall x, In x rest -> In x l).
Proof.
  revert r rest. induction l as [|c t IH]; intros r rest E; cbn [red] in E.
  { injection E as <- <-. auto. }
  destruct (c =? COLON).
  - destruct b; injection E as <- <-; split; intros x X; cbn [In] in *; tauto.
  - destruct (red b t) as [r1 rest1]. injection E as <- <-. destruct (IH _ _ eq_refl) as [A B]. split; intros x X.
    + destruct (c =? NL); cbn [In] in *; [right; auto|]. destruct X; [left; assumption|right; auto].
    + right. auto.
Qed.

(** The line of the description with the part in question in red, and below it the
    carets, in red too. *)
Definition seen_mark (l : list Z) (col : Z) : list (Z * look) :=
  let k := Z.to_nat (col - 1) in
  let '(r, rest) := red (nth k l 0 =? COLON) (skipn k l) in
  cells normal (firstn k l) ++ cells (in_colour RED) r ++ cells normal (no_newline rest ++ [10] ++ repeat 32 (List.length (firstn k l))) ++
  cells (in_colour RED) (94 :: repeat 126 (List.length r - 1)) ++ cells normal [10].

Lemma repeat_printable c n : c <> 27 -> printable (repeat c n).
Proof. intros H X. apply repeat_spec in X. congruence. Qed.

Lemma mark_paired l col : printable l -> paired normal normal (marked_line false l col ++ [10]) (marked_line true l col ++ [10]) (seen_mark l col).
Proof.
  intros H. unfold marked_line, seen_mark. cbv zeta. set (k := Z.to_nat (col - 1)).
  assert (H2 : printable (firstn k l) /\ printable (skipn k l)) by (apply printable_app; rewrite firstn_skipn; exact H).
  destruct H2 as [Hf Hs]. destruct (red (nth k l 0 =? COLON) (skipn k l)) as [r rest] eqn:E.
  destruct (red_in _ _ _ _ E) as [I1 I2].
  assert (Hr : printable r) by (intros X; apply Hs, I1, X).
  assert (Hn : printable (no_newline rest)) by (intros X; apply filter_In in X; apply Hs, I2, X).
  assert (Hsp : printable (repeat 32 (List.length (firstn k l)))) by (apply repeat_printable; lia).
  assert (Hc : printable (94 :: repeat 126 (List.length r - 1))) by (apply printable_cons; split; [lia|apply repeat_printable; lia]).
  assert (H10 : printable [10]) by (apply printableb_ok; reflexivity).
  set (sp := repeat 32 (List.length (firstn k l))) in *. set (ca := 94 :: repeat 126 (List.length r - 1)) in *.
  change (94 :: repeat 126 (List.length r - 1) ++ change_color false TERM_COLOR_RESET) with (ca ++ TERM_COLOR_RESET).
  change (94 :: repeat 126 (List.length r - 1) ++ change_color true TERM_COLOR_RESET) with (ca ++ []).
  clearbody sp ca. unfold change_color. rewrite <- !app_assoc.
  eapply paired_as.
  - eapply paired_app; [apply (paired_text _ (firstn k l)), Hf|]. eapply paired_app; [apply paired_red|]. eapply paired_app; [apply (paired_text _ r), Hr|].
    eapply paired_app; [apply paired_reset|]. eapply paired_app; [apply (paired_text _ (no_newline rest)), Hn|].
    eapply paired_app; [apply (paired_text _ [10]), H10|]. eapply paired_app; [apply (paired_text _ sp), Hsp|]. eapply paired_app; [apply paired_red|].
    eapply paired_app; [apply (paired_text _ ca), Hc|]. eapply paired_app; [apply paired_reset|apply (paired_text _ [10]), H10].
  - reflexivity.
  - reflexivity.
  - rewrite !cells_app. cbn [app]. rewrite <- !app_assoc. reflexivity.
Qed.

(** An error in a description: where it is in bold, "error:" in red, then the message,
    and the line; with colours switched off the same characters, the line and the carets
    being those of C94. *)
Theorem C105_error : forall filename msg open_err file line col,
  printable filename -> printable msg -> printable open_err -> (forall f, file = Some f -> printable f) ->
  let where_ := filename ++ zs ":" ++ print_int line ++ zs ":" ++ print_int col ++ zs ": " in
  let below := match file with
               | None => cells normal (zs "Error opening " ++ filename ++ zs ": " ++ open_err ++ [10])
               | Some f => match nth_error (lines_of f) (Z.to_nat (line - 1)) with
                           | None => cells normal (zs "File is empty or is a directory" ++ [10])
                           | Some l => seen_mark l col
                           end
               end in
  let out := cells (mk_look true None) where_ ++ cells (in_colour RED) (zs "error: ") ++ cells normal (msg ++ [10]) ++ below in
  shows (parse_error_text false filename msg open_err file line col) out /\
  parse_error_text true filename msg open_err file line col = map fst out /\
  (forall f a b, file = Some f -> show_error f line col = Some (a, b) -> map fst below = a ++ [10] ++ b ++ [10]).
Proof.
  intros filename msg open_err file line col Hf Hm Ho Hfile where_ below out.
  assert (PB : forall t, printableb t = true -> printable t) by exact printableb_ok.
  assert (Hw : printable where_).
  { unfold where_. repeat (apply printable_app; split); try apply int_printable; try assumption; apply PB; reflexivity. }
  assert (Hmn : printable (msg ++ [10])) by (apply printable_app; split; [assumption|apply PB; reflexivity]).
  set (tail nc := match file with
    | None => zs "Error opening " ++ filename ++ zs ": " ++ open_err ++ [10]
    | Some f => match nth_error (lines_of f) (Z.to_nat (line - 1)) with
                | None => zs "File is empty or is a directory" ++ [10]
                | Some l => marked_line nc l col ++ [10]
                end
    end).
  assert (B : paired normal normal (tail false) (tail true) below).
  { unfold tail, below. destruct file as [f|].
    - destruct (nth_error (lines_of f) (Z.to_nat (line - 1))) as [l|] eqn:E.
      + apply mark_paired. apply (line_printable f); [apply Hfile; reflexivity|]. eapply nth_error_In. exact E.
      + apply paired_text. apply PB. reflexivity.
    - apply paired_text. repeat (apply printable_app; split); try assumption; apply PB; reflexivity. }
  assert (EQ : forall nc, parse_error_text nc filename msg open_err file line col =
    change_color nc TERM_COLOR_BOLD ++ where_ ++ change_color nc TERM_COLOR_RED ++ zs "error: " ++ change_color nc TERM_COLOR_RESET ++ (msg ++ [10]) ++ tail nc).
  { intros nc. unfold parse_error_text, where_, tail. rewrite <- !app_assoc. reflexivity. }
  assert (P : paired normal normal (parse_error_text false filename msg open_err file line col) (parse_error_text true filename msg open_err file line col) out).
  { rewrite !EQ. unfold change_color, out. eapply paired_as.
    - eapply paired_app; [apply paired_bold|]. eapply paired_app; [apply (paired_text _ where_), Hw|]. eapply paired_app; [apply paired_red|].
      eapply paired_app; [apply (paired_text _ (zs "error: ")), PB; reflexivity|]. eapply paired_app; [apply paired_reset|].
      eapply paired_app; [apply (paired_text _ (msg ++ [10])), Hmn|exact B].
    - reflexivity.
    - reflexivity.
    - reflexivity. }
  destruct P as [P1 P2]. split; [exact P1|]. split; [symmetry; exact P2|].
  intros f a b Ef Es. unfold below. rewrite Ef. unfold show_error in Es.
  destruct (nth_error (lines_of f) (Z.to_nat (line - 1))) as [l|]; [|discriminate Es].
  unfold show_line in Es. unfold seen_mark. cbv zeta in Es |- *.
  destruct (red (nth (Z.to_nat (col - 1)) l 0 =? COLON) (skipn (Z.to_nat (col - 1)) l)) as [r rest].
  injection Es as <- <-. rewrite !map_app, !cells_fst. rewrite <- !app_assoc. reflexivity.
Qed.
Print Assumptions C105_error.

(** ** Without colours *)

Lemma terminal_printable : forall a m l, ~ In 27 (map fst (fst (terminal m l a))).
Proof.
  induction a as [|c a IH]; intros m l; cbn [terminal]; [intros []|]. destruct m as [| |p l1].
  - destruct (Z.eqb_spec c 27); [apply IH|]. specialize (IH Text l). destruct (terminal Text l a) as [o f]. cbn [fst map In] in *. intros [X|X]; [contradiction|auto].
  - destruct (c =? 91); apply IH.
  - destruct (_ && _); [apply IH|]. destruct (c =? 59); [apply IH|]. destruct (c =? 109); apply IH.
Qed.
Lemma shows_printable bytes out : shows bytes out -> printable (map fst out).
Proof. intros H X. apply (terminal_printable bytes Text normal). rewrite H. exact X. Qed.

(** When colours are not wanted, nothing that is written starts an escape sequence. *)
Theorem C105_off : forall e opts strerr asctime filename msg open_err file line col name pid rs summarize state,
  ~ wanted (able (te_no_color e) (te_tty e) (te_term e)) opts ->
  (forall n, printable (strerr n)) -> printable name -> (forall r, In r rs -> printable (tr_name r)) ->
  printable filename -> printable msg -> printable open_err -> (forall f, file = Some f -> printable f) ->
  printable (status_text (mk_cenv strerr asctime) (no_color_after e opts) state) /\
  printable (report_text (no_color_after e opts) strerr name pid rs summarize) /\
  printable (parse_error_text (no_color_after e opts) filename msg open_err file line col).
Proof.
  intros e opts strerr asctime filename msg open_err file line col name pid rs summarize state W H Hn Hr Hf Hm Ho Hfile.
  assert (N : no_color_after e opts = true).
  { destruct (no_color_after e opts) eqn:E; [reflexivity|]. exfalso. apply W, C105_when, E. }
  rewrite N. split; [|split].
  - destruct (C105_status (mk_cenv strerr asctime) state H) as [X Y]. apply shows_printable in X. rewrite map_app, !cells_fst in X. rewrite Y. exact X.
  - pose proof (C105_report strerr name pid rs summarize H Hn Hr) as R. destruct (print_patched_unpatched rs summarize) as [ls|].
    + destruct R as (column & out & _ & _ & _ & X & ->). apply shows_printable in X. exact X.
    + destruct R as [_ ->]. intros [].
  - destruct (C105_error filename msg open_err file line col Hf Hm Ho Hfile) as (X & Y & _). apply shows_printable in X. rewrite Y. exact X.
Qed.
Print Assumptions C105_off.

(** Names are written as they are: a process whose program has an escape sequence in its
    name changes the terminal of the person who runs the tool, whatever --color says. *)
Example C105_hostile_name : forall strerr pid,
  snd (terminal Text normal (report_text true strerr (27 :: zs "[31mx") pid [mk_tres (zs "a.so") 0] true)) = (Text, mk_look false (Some RED)).
Proof.
  intros strerr pid.
  change (report_text true strerr (27 :: zs "[31mx") pid [mk_tres (zs "a.so") 0] true)
    with ((zs "  " ++ 27 :: zs "[31mx (pid: ") ++ print_int pid ++ zs "): SUCCESS a.so" ++ [10]).
  erewrite (terminal_app (zs "  " ++ 27 :: zs "[31mx (pid: ")); [|vm_compute; reflexivity].
  change (mk_look false (Some 31)) with (mk_look false (Some RED)).
  destruct (paired_text (mk_look false (Some RED)) (print_int pid ++ zs "): SUCCESS a.so" ++ [10])) as [X _].
  { apply printable_app. split; [apply int_printable|apply printableb_ok; reflexivity]. }
  rewrite X. reflexivity.
Qed.

(** ** Cases *)

Example C105_when_case :
  no_color_after (mk_term None true (Some (zs "xterm"))) [] = false /\
  no_color_after (mk_term None true (Some (zs "dumb"))) [] = true /\
  no_color_after (mk_term (Some []) true (Some (zs "xterm"))) [zs "yes"; zs "auto"] = true /\
  no_color_after (mk_term (Some []) false None) [zs "no"; zs "yes"] = false.
Proof. repeat split. Qed.

Definition col_strerr (n : Z) : list Z := zs "some error".
Definition col_rs : list tresult := [mk_tres (zs "a.so") 0; mk_tres (zs "b.so") EDEPEND; mk_tres (zs "c.so") EBUILDID].
Example C105_report_case :
  (forall n, printable (col_strerr n)) /\ (forall r, In r col_rs -> printable (tr_name r)) /\
  print_patched_unpatched col_rs true = Some [R_success (zs "a.so"); R_failed (zs "b.so") EDEPEND] /\
  report_text true col_strerr (zs "bash") 7 col_rs true =
    zs "  bash (pid: 7):" ++ [10] ++ zs "    SUCCESS a.so" ++ [10] ++ zs "    FAILED b.so: Dependency failure" ++ [10].
Proof.
  split; [intros n; apply printableb_ok; reflexivity|].
  split; [intros r [<-|[<-|[<-|[]]]]; apply printableb_ok; reflexivity|]. split; vm_compute; reflexivity.
Qed.

Example C105_error_case : forall f, f = zs "lib.so" ++ [10] ++ zs "foo:bar" ++ [10] ->
  printable f /\
  parse_error_text true (zs "d.dsc") (zs "symbol bar not found") [] (Some f) 2 5 =
    zs "d.dsc:2:5: error: symbol bar not found" ++ [10] ++ zs "foo:bar" ++ [10] ++ zs "    ^~~" ++ [10] /\
  In (98, in_colour RED) (fst (terminal Text normal (parse_error_text false (zs "d.dsc") (zs "symbol bar not found") [] (Some f) 2 5))).
Proof.
  intros f ->. split; [apply printableb_ok; reflexivity|]. split; [vm_compute; reflexivity|]. vm_compute.
  repeat (try (left; reflexivity); right).
Qed.

Example C105_status_case : forall ce, status_text ce true EUSRBLOCKED = zs "  Livepatching status: disabled by user" ++ [10].
Proof. reflexivity. Qed.
