(** C44 for every text. *)
From Coq Require Import String Lia.
From Verif Require Import Base BaseFacts StrModel TextModel TextSpec TextProofs VstrSpec.

Lemma skip_only s : (forall c, In c s -> c = 46) -> skip_dots s = [].
Proof.
  induction s as [|c s IH]; intros H; cbn [skip_dots]; [reflexivity|]. rewrite (H c) by (left; reflexivity). cbn.
  apply IH. intros d D. apply H. right. exact D.
Qed.
Lemma skip_front dots s : (forall c, In c dots -> c = 46) -> skip_dots (dots ++ s) = skip_dots s.
Proof.
  induction dots as [|c d IH]; intros H; cbn [app skip_dots]; [reflexivity|]. rewrite (H c) by (left; reflexivity). cbn.
  apply IH. intros x X. apply H. right. exact X.
Qed.
Lemma strtok_front dots s : (forall c, In c dots -> c = 46) -> strtok_dot (dots ++ s) = strtok_dot s.
Proof. intros H. unfold strtok_dot. rewrite skip_front by exact H. reflexivity. Qed.
Lemma dots_pieces d s ts : pieces (46 :: s) ts -> d = 46 -> pieces s ts.
Proof.
  intros P _. inversion P as [? H|dots t rest ts' H C T P' E]; subst.
  - constructor. intros c I. apply H. right. exact I.
  - destruct dots as [|x dots]; cbn [app] in E.
    + exfalso. destruct t as [|y t]; [destruct C as [C _]; contradiction|]. cbn in E. injection E as E _.
      destruct C as [_ C]. apply C. left. symmetry. exact (eq_sym E).
    + injection E as _ E. subst s. constructor; try assumption. intros c I. apply H. right. exact I.
Qed.

(** Every text has its parts. *)
Lemma pieces_total : forall n s, (List.length s <= n)%nat -> exists ts, pieces s ts.
Proof.
  induction n as [|n IH]; intros s L.
  - destruct s; [|cbn in L; lia]. exists []. constructor. intros c [].
  - destruct s as [|c s]; [exists []; constructor; intros c []|]. cbn in L.
    destruct (IH s ltac:(lia)) as [ts P]. destruct (Z.eq_dec c 46) as [->|N].
    + exists ts. inversion P as [? H|dots t rest ts' H C T P' E]; subst.
      * constructor. intros c [<-|I]; auto.
      * apply (pc_more (46 :: dots)); try assumption. intros c [<-|I]; auto.
    + inversion P as [? H|dots t rest ts' H C T P' E]; subst.
      * exists [[c]]. apply (pc_more [] [c] s []).
        -- intros x [].
        -- split; [discriminate|]. intros [X|[]]. congruence.
        -- destruct s as [|d s]; [left; reflexivity|]. right. exists s. rewrite (H d) by (left; reflexivity). reflexivity.
        -- exact P.
      * destruct dots as [|d dots].
        -- exists ((c :: t) :: ts'). apply (pc_more [] (c :: t) rest ts'); try assumption.
           split; [discriminate|]. intros [X|X]; [congruence|]. destruct C as [_ C]. exact (C X).
        -- exists ([c] :: t :: ts'). apply (pc_more [] [c] ((d :: dots) ++ t ++ rest)).
           ++ intros x [].
           ++ split; [discriminate|]. intros [X|[]]. congruence.
           ++ right. exists (dots ++ t ++ rest). rewrite (H d) by (left; reflexivity). reflexivity.
           ++ exact P.
Qed.

(** strtok gives them one after the other. *)
Lemma strtok_pieces s ts : pieces s ts ->
  match ts with
  | [] => strtok_dot s = (None, [])
  | t :: ts' => exists r, strtok_dot s = (Some t, r) /\ pieces r ts'
  end.
Proof.
  intros P. inversion P as [? H|dots t rest ts' H C T P' E]; subst.
  - unfold strtok_dot. rewrite skip_only by exact H. reflexivity.
  - rewrite strtok_front by exact H. destruct T as [->|[r ->]].
    + rewrite app_nil_r, strtok_comp_end by exact C. eauto.
    + rewrite strtok_comp by exact C. exists r. split; [reflexivity|]. apply (dots_pieces 46 r ts' P' eq_refl).
Qed.

Lemma pieces_comp s ts : pieces s ts -> Forall component ts.
Proof. induction 1; constructor; assumption. Qed.

(** One component. *)
Lemma atoi_exact t v : decimal t v ->
  (v < 2 ^ 63 /\ v mod 2 ^ 32 <= 65535 /\ u64 (atoi t) = v mod 2 ^ 32) \/
  ((2 ^ 63 <= v \/ 65535 < v mod 2 ^ 32) /\ 65535 < u64 (atoi t)).
Proof.
  intros D. destruct (Z.lt_ge_cases v (2 ^ 63)) as [L|L]; [|right; split; [left; exact L|]; apply (atoi_big t v D); right; exact L].
  apply decimal_digits in D. destruct D as (_ & _ & V & P). unfold atoi. rewrite V, Z.min_l by lia.
  unfold s32, u32. pose proof (Z.mod_pos_bound v (2 ^ 32) ltac:(lia)) as B. set (w := v mod 2 ^ 32) in *.
  destruct (Z.ltb_spec w (2 ^ 31)) as [X|X].
  - unfold u64. rewrite Z.mod_small by lia. destruct (Z.le_gt_cases w 65535); [left|right]; lia.
  - right. split; [right; lia|]. unfold u64. replace (w - 2 ^ 32) with (w - 2 ^ 32 + 2 ^ 64 + -1 * 2 ^ 64) by lia.
    rewrite Z.mod_add by lia. rewrite Z.mod_small; lia.
Qed.
Lemma step_exact n s t r acc : strtok_dot s = (Some t, r) -> component t ->
  (exists x, taken_for t x /\ version_loop (S n) s acc = version_loop n r (acc ++ [x])) \/
  ((forall x, ~ taken_for t x) /\ version_loop (S n) s acc = None).
Proof.
  intros E C. cbn [version_loop]. rewrite E, isnumber_component by exact C.
  destruct (forallb isdigit t) eqn:D; cbn [negb].
  - pose proof (digits_decimal t D (proj1 C)) as DD. destruct (atoi_exact t _ DD) as [(L & M & A)|(L & A)].
    + left. exists (dec_val t mod 2 ^ 32). split; [exists (dec_val t); auto|]. rewrite A.
      destruct (Z.ltb_spec 65535 (dec_val t mod 2 ^ 32)); [lia|reflexivity].
    + right. split.
      * intros x (v & D' & L' & -> & M). rewrite (decimal_fun _ _ _ D' DD) in *. lia.
      * destruct (Z.ltb_spec 65535 (u64 (atoi t))); [reflexivity|lia].
  - right. split; [|reflexivity]. intros x (v & D' & _). apply decimal_digits in D'. destruct D' as [D' _]. congruence.
Qed.
Lemma taken_fun t x y : taken_for t x -> taken_for t y -> x = y.
Proof. intros (v & D & _ & -> & _) (v' & D' & _ & -> & _). rewrite (decimal_fun _ _ _ D D'). reflexivity. Qed.

(** Every text, whatever is in it, is cut at its dots, and gives the version of its first three parts, if there are
    three and each can be taken for a number of at most 65535; any other text gives 0. *)
Theorem C44_exact :
  forall s, exists ts, pieces s ts /\
    ((exists t1 t2 t3 rest a b c, ts = t1 :: t2 :: t3 :: rest /\ taken_for t1 a /\ taken_for t2 b /\ taken_for t3 c /\
        ulp_version_from_string s = c + 65536 * b + 4294967296 * a) \/
     ((forall t1 t2 t3 rest a b c, ts = t1 :: t2 :: t3 :: rest -> taken_for t1 a -> taken_for t2 b -> ~ taken_for t3 c) /\
      ulp_version_from_string s = 0)).
Proof.
  intros s. destruct (pieces_total _ s (Nat.le_refl _)) as [ts P]. exists ts. split; [exact P|].
  pose proof (pieces_comp _ _ P) as C. unfold ulp_version_from_string.
  assert (SH : forall t x, taken_for t x -> short x).
  { intros t x (v & D & _ & -> & M). pose proof (Z.mod_pos_bound v (2 ^ 32) ltac:(lia)). unfold short. lia. }
  destruct ts as [|t1 ts].
  { right. split; [discriminate|]. apply strtok_pieces in P. cbn [version_loop]. rewrite P. reflexivity. }
  apply strtok_pieces in P. destruct P as (r1 & E1 & P1). inversion C as [|? ? C1 C']; subst.
  destruct (step_exact 2 s t1 r1 [] E1 C1) as [(a & A & ->)|(N & ->)].
  2: { right. split; [|reflexivity]. intros ? ? ? ? a b c E T. injection E as <- _. exfalso. exact (N a T). }
  destruct ts as [|t2 ts].
  { right. split; [intros; discriminate|]. apply strtok_pieces in P1. cbn [version_loop]. rewrite P1. reflexivity. }
  apply strtok_pieces in P1. destruct P1 as (r2 & E2 & P2). inversion C' as [|? ? C2 C'']; subst.
  destruct (step_exact 1 r1 t2 r2 ([] ++ [a]) E2 C2) as [(b & B & ->)|(N & ->)].
  2: { right. split; [|reflexivity]. intros ? ? ? ? a' b c E _ T. injection E as _ <- _. exfalso. exact (N b T). }
  destruct ts as [|t3 ts].
  { right. split; [intros; discriminate|]. apply strtok_pieces in P2. cbn [version_loop]. rewrite P2. reflexivity. }
  apply strtok_pieces in P2. destruct P2 as (r3 & E3 & P3). inversion C'' as [|? ? C3 _]; subst.
  destruct (step_exact 0 r2 t3 r3 (([] ++ [a]) ++ [b]) E3 C3) as [(c & CC & ->)|(N & ->)].
  2: { right. split; [|reflexivity]. intros ? ? ? ? a' b' c E _ _ T. injection E as _ _ <- _. exact (N c T). }
  left. exists t1, t2, t3, ts, a, b, c. repeat (split; [assumption || reflexivity|]).
  cbn [version_loop app]. apply triplet_val; eapply SH; eassumption.
Qed.
Print Assumptions C44_exact.

(** The cut is unique, so this says what each text gives. *)
Theorem C44_pieces_unique : forall s ts ts', pieces s ts -> pieces s ts' -> ts = ts'.
Proof.
  intros s ts ts' P. revert ts'. revert s P. induction ts as [|t ts IH]; intros s P ts' P'.
  - apply strtok_pieces in P. destruct ts' as [|t' ts']; [reflexivity|]. apply strtok_pieces in P'. destruct P' as (r & E & _).
    rewrite P in E. discriminate.
  - apply strtok_pieces in P. destruct P as (r & E & P). destruct ts' as [|t' ts'].
    + apply strtok_pieces in P'. rewrite P' in E. discriminate.
    + apply strtok_pieces in P'. destruct P' as (r' & E' & P'). rewrite E in E'. injection E' as -> ->. f_equal.
      apply (IH r' P ts' P').
Qed.
Print Assumptions C44_pieces_unique.

Example C44_exact_case :
  pieces (zs "0..3.13-beta.x") [zs "0"; zs "3"; zs "13-beta"; zs "x"] /\
  ulp_version_from_string (zs "0..3.13-beta.x") = 0 /\
  pieces (zs ".0..3.13.") [zs "0"; zs "3"; zs "13"] /\ taken_for (zs "13") 13 /\
  ulp_version_from_string (zs ".0..3.13.") = 13 + 65536 * 3.
Proof.
  assert (K : forall t, forallb (fun c => negb (c =? 46)) t = true -> t <> [] -> component t).
  { intros t F N. split; [exact N|]. intros I. rewrite forallb_forall in F. specialize (F 46 I). discriminate. }
  assert (D0 : forall c, In c [] -> c = 46) by (intros c []).
  assert (D1 : forall c, In c [46] -> c = 46) by (intros c [<-|[]]; reflexivity).
  split.
  { change (zs "0..3.13-beta.x") with ([] ++ zs "0" ++ [46] ++ [46] ++ zs "3" ++ [46] ++ zs "13-beta" ++ [46] ++ zs "x" ++ []).
    apply pc_more; [exact D0|apply K; [reflexivity|discriminate]|right; eexists; reflexivity|].
    apply (pc_more [46; 46] (zs "3")); [intros c [<-|[<-|[]]]; reflexivity|apply K; [reflexivity|discriminate]|right; eexists; reflexivity|].
    apply (pc_more [46] (zs "13-beta")); [exact D1|apply K; [reflexivity|discriminate]|right; eexists; reflexivity|].
    apply (pc_more [46] (zs "x")); [exact D1|apply K; [reflexivity|discriminate]|left; reflexivity|]. constructor. exact D0. }
  split; [vm_compute; reflexivity|]. split.
  { change (zs ".0..3.13.") with ([46] ++ zs "0" ++ [46] ++ [46] ++ zs "3" ++ [46] ++ zs "13" ++ [46]).
    apply pc_more; [exact D1|apply K; [reflexivity|discriminate]|right; eexists; reflexivity|].
    apply (pc_more [46; 46] (zs "3")); [intros c [<-|[<-|[]]]; reflexivity|apply K; [reflexivity|discriminate]|right; eexists; reflexivity|].
    apply (pc_more [46] (zs "13")); [exact D1|apply K; [reflexivity|discriminate]|right; eexists; reflexivity|]. constructor. exact D1. }
  split; [|vm_compute; reflexivity].
  exists 13. split; [|vm_compute; split; [reflexivity|]; split; [reflexivity|discriminate]].
  change 13 with (dec_val (zs "13")). apply digits_decimal; [reflexivity|discriminate].
Qed.
