From Coq Require Import String.
From Verif Require Import Base StrModel LibModel TrModel TextModel LogModel DscModel LocModel PatModel CmdModel ColModel ColSpec.

(** ** Text without escape sequences *)

Lemma printable_app a b : printable (a ++ b) <-> printable a /\ printable b.
Proof. unfold printable. rewrite in_app_iff. tauto. Qed.
Lemma printable_cons c t : printable (c :: t) <-> c <> 27 /\ printable t.
Proof. unfold printable. cbn [In]. tauto. Qed.
Definition printableb (t : list Z) : bool := forallb (fun c => negb (c =? 27)) t.
Lemma printableb_ok t : printableb t = true -> printable t.
Proof.
  unfold printableb, printable. rewrite forallb_forall. intros H I. specialize (H 27 I). discriminate H.
Qed.

Lemma num_printable b : 1 < b -> forall fuel n acc, 0 <= n -> printable acc -> printable (num_go fuel b n acc).
Proof.
  intros Hb. assert (D : forall d, 0 <= d -> digit_char d <> 27).
  { intros d Hd. unfold digit_char. destruct (Z.ltb_spec d 10); lia. }
  induction fuel as [|f IH]; intros n acc Hn Ha; cbn [num_go]; [exact Ha|].
  destruct (n <? b); [|apply IH; [apply Z.div_pos; lia|]]; apply printable_cons; split; auto.
  apply D. apply Z.mod_pos_bound. lia.
Qed.
Lemma int_printable z : printable (print_int z).
Proof.
  unfold print_int, print_num. cbv zeta. assert (N : printable []) by (intros []).
  destruct (Z.ltb_spec (s32 z) 0); [apply printable_cons; split; [lia|]|]; apply num_printable; auto; lia.
Qed.
Lemma strerror_printable strerr e : (forall n, printable (strerr n)) -> printable (libpulp_strerror strerr e).
Proof.
  intros H. unfold libpulp_strerror. destruct (_ && _); [|apply H].
  assert (A : forallb printableb ULP_ERRLIST = true) by (vm_compute; reflexivity).
  destruct (nth_in_or_default (Z.to_nat (Z.land e 255)) ULP_ERRLIST []) as [X| ->]; [|intros []].
  rewrite forallb_forall in A. apply printableb_ok, A, X.
Qed.

(** ** Pieces of output *)

(** From look [l] to look [l']: the coloured bytes [a] show the plain text [b]. *)
Definition paired (l l' : look) (a b : list Z) (out : list (Z * look)) : Prop :=
  terminal Text l a = (out, (Text, l')) /\ map fst out = b.

Lemma terminal_app : forall a m l b out m' l', terminal m l a = (out, (m', l')) ->
  terminal m l (a ++ b) = (let (o2, f) := terminal m' l' b in (out ++ o2, f)).
Proof.
  induction a as [|c a IH]; intros m l b out m' l' H; cbn [terminal app] in *.
  { injection H as <- <- <-. destruct (terminal m l b). reflexivity. }
  destruct m as [| |p l1].
  - destruct (c =? 27); [apply IH; exact H|]. destruct (terminal Text l a) as [o f] eqn:E. injection H as <- ->.
    rewrite (IH _ _ _ _ _ _ E). destruct (terminal m' l' b). reflexivity.
  - destruct (c =? 91); apply IH; exact H.
  - destruct (_ && _); [apply IH; exact H|]. destruct (c =? 59); [apply IH; exact H|]. destruct (c =? 109); apply IH; exact H.
Qed.
Lemma paired_app l l1 l2 a1 b1 o1 a2 b2 o2 : paired l l1 a1 b1 o1 -> paired l1 l2 a2 b2 o2 ->
  paired l l2 (a1 ++ a2) (b1 ++ b2) (o1 ++ o2).
Proof.
  intros [E1 <-] [E2 <-]. split; [|apply map_app]. rewrite (terminal_app _ _ _ _ _ _ _ E1), E2. reflexivity.
Qed.
Lemma paired_text l t : printable t -> paired l l t t (cells l t).
Proof.
  intros H. split; [|unfold cells; rewrite map_map; cbn [fst]; apply map_id].
  induction t as [|c t IH]; [reflexivity|]. apply printable_cons in H. destruct H as [H1 H2]. cbn [terminal].
  destruct (Z.eqb_spec c 27); [contradiction|]. rewrite (IH H2). reflexivity.
Qed.
Lemma paired_red l : paired l (in_colour RED) TERM_COLOR_RED [] [].
Proof. split; reflexivity. Qed.
Lemma paired_green l : paired l (in_colour GREEN) TERM_COLOR_GREEN [] [].
Proof. split; reflexivity. Qed.
Lemma paired_yellow l : paired l (in_colour YELLOW) TERM_COLOR_YELLOW [] [].
Proof. split; reflexivity. Qed.
Lemma paired_bold l : paired l (mk_look true None) TERM_COLOR_BOLD [] [].
Proof. split; reflexivity. Qed.
Lemma paired_reset l : paired l normal TERM_COLOR_RESET [] [].
Proof. split; reflexivity. Qed.

Lemma cells_app l a b : cells l (a ++ b) = cells l a ++ cells l b.
Proof. apply map_app. Qed.
Lemma cells_fst l a : map fst (cells l a) = a.
Proof. unfold cells. rewrite map_map. apply map_id. Qed.
Lemma paired_nil l : paired l l [] [] [].
Proof. split; reflexivity. Qed.
Lemma paired_as l l' a b o a' b' o' : paired l l' a b o -> a = a' -> b = b' -> o = o' -> paired l l' a' b' o'.
Proof. intros H -> -> ->. exact H. Qed.
Lemma word_paired esc l indent text : (forall l0, paired l0 l esc [] []) -> printable indent -> printable text ->
  paired normal normal (word false esc indent text) (word true esc indent text) (cells l (indent ++ text)).
Proof.
  intros H Hi Ht. unfold word, change_color. cbn [app]. rewrite app_nil_r.
  eapply paired_as; [eapply paired_app; [apply H|]; eapply paired_app; [apply (paired_text _ indent), Hi|];
    eapply paired_app; [apply (paired_text _ text), Ht|apply paired_reset]|reflexivity|rewrite !app_nil_r; reflexivity|].
  rewrite cells_app, !app_nil_r. reflexivity.
Qed.
Lemma word_then esc l indent text rest : (forall l0, paired l0 l esc [] []) -> printable indent -> printable text -> printable rest ->
  paired normal normal (word false esc indent text ++ rest) (word true esc indent text ++ rest) (cells l (indent ++ text) ++ cells normal rest).
Proof. intros H Hi Ht Hr. eapply paired_app; [apply word_paired; assumption|apply paired_text, Hr]. Qed.
