(** Proofs about the opt-out lists. *)
From Verif Require Import Base BaseFacts TextModel TextSpec TextProofs OptModel OptSpec PcProofs.

Lemma skip_colons_spec s : exists k, s = repeat 58 k ++ skip_colons s /\
  (forall x t, skip_colons s = x :: t -> x <> 58).
Proof.
  induction s as [|x s IH]; cbn [skip_colons].
  - exists 0%nat. split; [reflexivity|discriminate].
  - unfold COLON. destruct (Z.eqb_spec x 58) as [->|N].
    + destruct IH as (k & E & H). exists (S k). split; [cbn; f_equal; exact E|exact H].
    + exists 0%nat. split; [reflexivity|]. intros y t E. congruence.
Qed.

Lemma span_colon_spec s : forall a b, span_colon s = (a, b) ->
  ~ In 58 a /\ ((s = a /\ b = []) \/ s = a ++ 58 :: b).
Proof.
  induction s as [|x s IH]; intros a b H; cbn [span_colon] in H.
  - inversion H; subst. split; [intros []|left; auto].
  - unfold COLON in H. destruct (Z.eqb_spec x 58) as [->|N].
    + inversion H; subst. split; [intros []|right; reflexivity].
    + destruct (span_colon s) as [a' b'] eqn:E. inversion H; subst.
      destruct (IH a' b eq_refl) as (I1 & I2). split.
      * intros [X|X]; [congruence|contradiction].
      * destruct I2 as [[-> ->]| ->]; [left; auto|right; reflexivity].
Qed.

(** Entries of a list that starts with colons. *)
Lemma entry_skip k e s : entry e (repeat 58 k ++ s) <-> entry e s.
Proof.
  induction k as [|k IH]; [reflexivity|]. cbn [repeat app]. rewrite <- IH. clear IH.
  set (t := repeat 58 k ++ s). clearbody t. split.
  - intros (N & C & pre & post & E & P & Q). split; [exact N|]. split; [exact C|].
    destruct pre as [|x pre].
    + destruct e as [|y e]; [contradiction|]. inversion E; subst. exfalso. apply C. left. reflexivity.
    + inversion E; subst. exists pre, post. split; [reflexivity|]. split; [|exact Q].
      destruct P as [P|(p & P)]; [discriminate|]. destruct p as [|z p]; inversion P; subst; [left; reflexivity|].
      right. exists p. reflexivity.
  - intros (N & C & pre & post & E & P & Q). split; [exact N|]. split; [exact C|].
    exists (58 :: pre), post. split; [cbn; f_equal; exact E|]. split; [|exact Q].
    right. destruct P as [->|(p & ->)]; [exists []|exists (58 :: p)]; reflexivity.
Qed.

Lemma entry_nil e : ~ entry e [].
Proof.
  intros (N & _ & pre & post & E & _). destruct pre, e; try discriminate; contradiction.
Qed.

Lemma split_unique (a b x y : list Z) : ~ In 58 a -> ~ In 58 x ->
  a ++ 58 :: b = x ++ 58 :: y -> a = x /\ b = y.
Proof.
  revert x; induction a as [|c a IH]; intros x Ha Hx E; destruct x as [|d x].
  - inversion E. auto.
  - inversion E; subst. exfalso. apply Hx. left. reflexivity.
  - inversion E; subst. exfalso. apply Ha. left. reflexivity.
  - inversion E; subst. destruct (IH x) as [-> ->]; auto; intros X; [apply Ha|apply Hx]; right; exact X.
Qed.

Lemma app_cons_58 (a b pre post e : list Z) : ~ In 58 a -> pre <> [] ->
  (exists p, pre = p ++ [58]) -> a ++ 58 :: b = pre ++ e ++ post ->
  exists p', b = p' ++ e ++ post /\ (p' = [] \/ exists p, p' = p ++ [58]).
Proof.
  intros Ha _ (p & ->) E.
  (* the first colon of pre is the one after a *)
  revert a Ha E. induction p as [|c p IH]; intros a Ha E.
  - cbn in E. destruct a as [|d a]; inversion E; subst; [exists []; auto|].
    exfalso. apply Ha. left. reflexivity.
  - destruct a as [|d a].
    + cbn in E. inversion E; subst. exists (p ++ [58]). split; [reflexivity|]. right. eauto.
    + cbn in E. inversion E as [[E1 E2]]. apply (IH a); [intros X; apply Ha; right; exact X|exact E2].
Qed.

(** The first entry and the others. *)
Lemma entry_first a b e : a <> [] -> ~ In 58 a ->
  (entry e a <-> e = a) /\ (entry e (a ++ 58 :: b) <-> e = a \/ entry e b).
Proof.
  intros Na Ca. split.
  - split.
    + intros (N & C & pre & post & E & P & Q).
      destruct P as [->|(p & ->)].
      * destruct Q as [->|(q & ->)]; [rewrite app_nil_r in E; cbn in E; congruence|].
        exfalso. apply Ca. rewrite E. apply in_or_app. right. apply in_or_app. right. left. reflexivity.
      * exfalso. apply Ca. rewrite E. apply in_or_app. left. apply in_or_app. right. left. reflexivity.
    + intros ->. split; [exact Na|]. split; [exact Ca|]. exists [], []. rewrite app_nil_r. auto.
  - split.
    + intros (N & C & pre & post & E & P & Q).
      destruct P as [->|P].
      * left. cbn in E. destruct Q as [->|(q & ->)].
        -- exfalso. rewrite app_nil_r in E. apply C. rewrite <- E. apply in_or_app. right. left. reflexivity.
        -- destruct (split_unique a b e q Ca C E) as [-> _]. reflexivity.
      * right. destruct (app_cons_58 a b pre post e Ca) as (p' & E' & P'); auto.
        { destruct P as (p & ->). destruct p; discriminate. }
        split; [exact N|]. split; [exact C|]. exists p', post. auto.
    + intros [->|(N & C & pre & post & -> & P & Q)].
      * split; [exact Na|]. split; [exact Ca|]. exists [], (58 :: b). split; [reflexivity|]. split; [auto|right; eauto].
      * split; [exact N|]. split; [exact C|]. exists (a ++ 58 :: pre), post.
        split; [rewrite <- app_assoc; reflexivity|]. split; [|exact Q]. right.
        destruct P as [->|(p & ->)]; [exists a; reflexivity|]. exists (a ++ 58 :: p). rewrite <- app_assoc. reflexivity.
Qed.

Lemma scan_spec (m : list Z -> bool) : forall fuel s, (length s < fuel)%nat ->
  exists b, optout_scan m fuel s = Some b /\ (b = true <-> exists e, entry e s /\ m e = true).
Proof.
  induction fuel as [|f IH]; intros s L; [lia|]. cbn [optout_scan]. unfold strtok_colon.
  destruct (skip_colons_spec s) as (k & E & H).
  assert (Len : (length (skip_colons s) <= length s)%nat) by (rewrite E at 2; rewrite app_length; lia).
  assert (EN : forall e, entry e s <-> entry e (skip_colons s)).
  { intros e. rewrite E at 1. apply entry_skip. }
  destruct (skip_colons s) as [|x t] eqn:S.
  - exists false. split; [reflexivity|]. split; [discriminate|]. intros (e & I & _).
    apply EN in I. exfalso. exact (entry_nil e I).
  - specialize (H x t eq_refl). destruct (span_colon (x :: t)) as [a b] eqn:SP.
    apply span_colon_spec in SP as HH. destruct HH as (Ca & D).
    assert (Na : a <> []).
    { cbn in SP. unfold COLON in SP. destruct (Z.eqb_spec x 58); [contradiction|].
      destruct (span_colon t). inversion SP. discriminate. }
    assert (Lb : (length b < f)%nat).
    { destruct D as [[_ ->]|D]; [cbn in *; destruct f; [cbn in *; lia|cbn; lia]|].
      assert (length (x :: t) = length (a ++ 58 :: b)) by (rewrite D; reflexivity).
      rewrite app_length in H0. cbn [length] in *. lia. }
    destruct (IH b Lb) as (v & IE & IV).
    assert (EE : forall e, entry e s <-> e = a \/ entry e b).
    { intros e. rewrite EN. destruct (entry_first a b e Na Ca) as [F1 F2].
      destruct D as [[D1 D2]|D].
      - rewrite D1, F1, D2. split; [auto|]. intros [X|X]; [exact X|]. exfalso. exact (entry_nil e X).
      - rewrite D. exact F2. }
    destruct (m a) eqn:M.
    + exists true. split; [reflexivity|]. split; [|reflexivity]. intros _. exists a. split; [apply EE; auto|exact M].
    + exists v. split; [exact IE|]. rewrite IV. split.
      * intros (e & I & X). exists e. split; [apply EE; auto|exact X].
      * intros (e & I & X). apply EE in I. destruct I as [->|I]; [congruence|eauto].
Qed.

Lemma id_entry_spec fnm id name e : 0 <= id < 2 ^ 32 ->
  (id_entry_matches fnm id name e = true <-> stands_for fnm id name e).
Proof.
  intros B. unfold id_entry_matches, stands_for, strtoul.
  destruct (isnumber (Some e) && (Z.min (dec_val e) (2 ^ 64 - 1) =? id)) eqn:C.
  - split; [|reflexivity]. intros _. left. apply andb_true_iff in C. destruct C as [C D].
    apply isnumber_decimal in C. destruct C as (v & C). pose proof (decimal_digits _ _ C) as (_ & _ & V & _).
    assert (id = v) by lia. congruence.
  - split.
    + destruct name as [n|]; [|discriminate]. intros F. right. eauto.
    + intros [D|(n & -> & F)]; [|exact F]. exfalso.
      rewrite (proj2 (isnumber_decimal e)) in C by eauto. cbn [andb] in C.
      apply decimal_digits in D. destruct D as (_ & _ & D & _). lia.
Qed.
