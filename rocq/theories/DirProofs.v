(** Proofs for C93. *)
From Coq Require Import Bool Lia.
From Verif Require Import Base BaseFacts DirModel DirSpec.

(** ** Paths *)

Lemma beq_refl a : bytes_eqb a a = true.
Proof. induction a as [|x a IH]; cbn [bytes_eqb]; [reflexivity|]. rewrite Z.eqb_refl, IH. reflexivity. Qed.
Lemma beq_eq a b : bytes_eqb a b = true <-> a = b.
Proof.
  split; [|intros ->; apply beq_refl]. revert b.
  induction a as [|x a IH]; intros [|y b] H; cbn [bytes_eqb] in H; try discriminate; [reflexivity|].
  apply andb_prop in H. destruct H as [H1 H2]. apply Z.eqb_eq in H1. apply IH in H2. congruence.
Qed.

Lemma last_split_none c l : ~ In c l -> last_split c l = None.
Proof.
  induction l as [|x t IH]; intros N; cbn [last_split]; [reflexivity|]. rewrite IH by (intros I; apply N; right; exact I).
  destruct (Z.eqb_spec x c); [|reflexivity]. exfalso. apply N. left. assumption.
Qed.
Lemma last_split_app c p w : ~ In c w -> last_split c (p ++ c :: w) = Some (p, w).
Proof.
  intros N. induction p as [|x p IH]; cbn [app last_split].
  - rewrite last_split_none by exact N. rewrite Z.eqb_refl. reflexivity.
  - rewrite IH. reflexivity.
Qed.
Lemma last_split_some c l a b : last_split c l = Some (a, b) -> l = a ++ c :: b /\ ~ In c b.
Proof.
  revert a b. induction l as [|x t IH]; intros a b H; cbn [last_split] in H; [discriminate|].
  destruct (last_split c t) as [[a' b']|] eqn:E.
  - injection H as <- <-. destruct (IH a' b' eq_refl) as [-> N]. split; [reflexivity|exact N].
  - destruct (Z.eqb_spec x c) as [->|]; [|discriminate]. injection H as <- <-. split; [reflexivity|].
    clear IH. intros I. apply in_split in I. destruct I as (u & v & ->).
    assert (X : last_split c (u ++ c :: v) <> None); [|contradiction].
    clear. induction u as [|y u IH]; cbn [app last_split].
    + destruct (last_split c v) as [[? ?]|]; [discriminate|]. rewrite Z.eqb_refl. discriminate.
    + destruct (last_split c (u ++ c :: v)) as [[? ?]|]; [discriminate|contradiction].
Qed.

Lemma strip_plain w : plain w -> forall p, strip (p ++ w) = p ++ w.
Proof.
  intros (NE & NS) p. assert (W : strip w = w).
  { revert NE NS. induction w as [|x w IH]; intros NE NS; [contradiction|]. cbn [strip].
    destruct w as [|y w]; [cbn [strip]|].
    - destruct (Z.eqb_spec x SLASH) as [->|]; [|reflexivity]. exfalso. apply NS. left. reflexivity.
    - rewrite IH; [reflexivity|discriminate|]. intros I. apply NS. right. exact I. }
  induction p as [|x p IH]; cbn [app strip]; [exact W|]. rewrite IH. destruct (p ++ w) eqn:E; [|reflexivity].
  apply app_eq_nil in E. destruct E as [_ ->]. contradiction.
Qed.

Lemma dirname_below f n w : plain n -> plain w -> dirname (path_of (path_of f n) w) = path_of f n.
Proof.
  intros Hn Hw. unfold dirname. rewrite (strip_plain w Hw (path_of f n ++ [47])) || idtac.
  unfold path_of at 1. rewrite app_assoc. rewrite strip_plain by exact Hw.
  destruct ((path_of f n ++ [47]) ++ w) as [|x l] eqn:E.
  - apply app_eq_nil in E. destruct E as [_ ->]. destruct Hw. contradiction.
  - rewrite <- E. rewrite <- app_assoc. cbn [app]. change 47 with SLASH. rewrite last_split_app by exact (proj2 Hw).
    unfold path_of. rewrite app_assoc. rewrite strip_plain by exact Hn.
    destruct ((f ++ [47]) ++ n) eqn:E2; [|rewrite <- E2; reflexivity].
    apply app_eq_nil in E2. destruct E2 as [_ ->]. destruct Hn. contradiction.
Qed.
Lemma basename_below f w : plain w -> get_basename (path_of f w) = w.
Proof. intros Hw. unfold get_basename, path_of. cbn [app]. change 47 with SLASH. rewrite last_split_app by exact (proj2 Hw). reflexivity. Qed.

Lemma has_so_spec n : has_so n = true <-> exists stem, n = stem ++ dot_so.
Proof.
  unfold has_so. split.
  - destruct (last_split 46 n) as [[a b]|] eqn:E; [|discriminate]. apply last_split_some in E. destruct E as [-> _].
    intros H. apply beq_eq in H. subst. exists a. reflexivity.
  - intros (stem & ->). unfold dot_so. rewrite last_split_app; [reflexivity|]. cbn. intros [X|[X|[]]]; discriminate.
Qed.
Lemma dots_spec n : dots n = true <-> n = [46] \/ n = [46; 46].
Proof. unfold dots. rewrite orb_true_iff, !beq_eq. tauto. Qed.

Lemma zlen_path f n : zlen (path_of f n) = zlen f + 1 + zlen n.
Proof. unfold path_of. rewrite !zlen_app. change (zlen [47]) with 1. lia. Qed.

Lemma NoDup_app2 {A} (a b : list A) : NoDup a -> NoDup b -> (forall x, In x a -> ~ In x b) -> NoDup (a ++ b).
Proof.
  induction a as [|x a IH]; intros Ha Hb D; cbn [app]; [exact Hb|]. inversion Ha; subst. constructor.
  - rewrite in_app_iff. intros [I|I]; [contradiction|]. apply (D x); [left; reflexivity|exact I].
  - apply IH; auto. intros y I. apply D. right. exact I.
Qed.

(** ** The walk *)

Section Walk.
  Variable recursive : bool.
  Variable matches : list Z -> list Z -> bool.
  Variable listing : list Z -> option (list (list Z)).
  Variable is_directory : list Z -> bool.
  Hypothesis SANE : sane_listing listing.
  Notation walk := (trigger_many_ulps recursive matches listing is_directory).
  Notation meant := (meant recursive matches listing is_directory).

  (** The sub-walk of a folder that is entered. *)
  Definition enters (F w n : list Z) : Prop :=
    recursive = true /\ dots n = false /\ is_directory (path_of F n) = true /\ zlen (path_of F n) + 1 + zlen w < 256.

  Lemma each_bad rec F w names : Forall plain names ->
    (forall n, In n names -> enters F w n -> exists l, rec (path_of (path_of F n) w) = W_ok l) ->
    exists l, each recursive matches is_directory rec F w names = W_ok l.
  Proof.
    intros HP H. induction names as [|n t IH]; cbn [each]; [eauto|].
    inversion HP as [|? ? Hn Ht]; subst. destruct IH as (l & E); [exact Ht|intros; apply H; [right; assumption|assumption]|].
    cbv zeta. change (F ++ [SLASH] ++ n) with (path_of F n). rewrite E.
    destruct (ULP_PATH_LEN <=? zlen (path_of F n)) eqn:L; [eauto|]. destruct (dots n) eqn:D; [eauto|].
    destruct (is_directory (path_of F n)) eqn:DI; [|eauto]. destruct (negb recursive) eqn:R; [eauto|]. apply negb_false_iff in R.
    destruct (ULP_PATH_LEN <=? zlen (path_of F n) + zlen w + 1) eqn:L2; [eauto|]. apply Z.leb_gt in L2. unfold ULP_PATH_LEN in L2.
    destruct (H n (or_introl eq_refl)) as (l' & E'). { unfold enters. repeat split; auto. lia. }
    change (path_of F n ++ [SLASH] ++ w) with (path_of (path_of F n) w). rewrite E'. eauto.
  Qed.

  Lemma walk_ends : forall fuel path, plain (get_basename path) -> zlen (dirname path) < 255 ->
    257 <= Z.of_nat fuel + zlen (dirname path) -> exists l, walk fuel path = W_ok l.
  Proof.
    induction fuel as [|f IH]; intros path PW LF FU; [lia|]. cbn [trigger_many_ulps].
    destruct (listing (dirname path)) as [names|] eqn:LI; [|eauto].
    assert (L : (ULP_PATH_LEN <? zlen (dirname path) + 2) = false) by (apply Z.ltb_ge; unfold ULP_PATH_LEN; lia). rewrite L.
    destruct (SANE _ _ LI) as [_ HP]. apply each_bad; [exact HP|].
    intros n I (R & D & DI & LN). pose proof (proj1 (Forall_forall _ _) HP n I) as Hn.
    assert (B : get_basename (path_of (path_of (dirname path) n) (get_basename path)) = get_basename path) by (apply basename_below; exact PW).
    assert (DN : dirname (path_of (path_of (dirname path) n) (get_basename path)) = path_of (dirname path) n) by (apply dirname_below; assumption).
    apply IH.
    - rewrite B. exact PW.
    - rewrite DN. pose proof (zlen_nonneg (get_basename path)). lia.
    - rewrite DN, zlen_path. pose proof (zlen_nonneg n). lia.
  Qed.

  (** What the entries contribute. *)
  Definition contributes (F w n p : list Z) : Prop :=
    n <> [46] /\ n <> [46; 46] /\
    ((is_directory (path_of F n) = false /\ (exists stem, n = stem ++ dot_so) /\ matches w n = true /\
        zlen (path_of F n) < 256 /\ p = path_of F n) \/
     (recursive = true /\ is_directory (path_of F n) = true /\ zlen (path_of F n) + 1 + zlen w < 256 /\ meant w (path_of F n) p)).

  Hypothesis w : list Z.
  Hypothesis PW : plain w.
  Hypothesis NF : no_such_folder matches listing is_directory w.

  Lemma each_in rec F names :
    forall (LI : forall n, In n names -> entry_of listing F n \/ n = [46] \/ n = [46; 46]), Forall plain names ->
    (forall n l, In n names -> enters F w n -> rec (path_of (path_of F n) w) = W_ok l -> forall p, In p l <-> meant w (path_of F n) p) ->
    forall l, each recursive matches is_directory rec F w names = W_ok l ->
    forall p, In p l <-> exists n, In n names /\ contributes F w n p.
  Proof.
    intros LI HP H. induction names as [|n t IH]; intros l E p; cbn [each] in E; cbv zeta in E.
    - injection E as <-. split; [intros []|intros (n & [] & _)].
    - inversion HP as [|? ? Hn Ht]; subst.
      assert (IH' : forall l, each recursive matches is_directory rec F w t = W_ok l -> forall p, In p l <-> exists n, In n t /\ contributes F w n p).
      { apply IH; [intros; apply LI; right; assumption|exact Ht|intros n0 l0 I0; apply H; right; exact I0]. }
      clear IH. change (F ++ [SLASH] ++ n) with (path_of F n) in E.
      assert (SKIP : (forall p, ~ contributes F w n p) -> each recursive matches is_directory rec F w t = W_ok l ->
        In p l <-> exists n0, In n0 (n :: t) /\ contributes F w n0 p).
      { intros N E1. rewrite (IH' l E1 p). split; intros (m & I & C); exists m; [split; [right; exact I|exact C]|].
        destruct I as [->|I]; [exfalso; eapply N; exact C|auto]. }
      destruct (ULP_PATH_LEN <=? zlen (path_of F n)) eqn:L.
      { apply Z.leb_le in L. unfold ULP_PATH_LEN in L. apply SKIP; [|exact E]. intros q (_ & _ & [(_ & _ & _ & X & _)|(_ & _ & X & _)]); [lia|]. pose proof (zlen_nonneg w). lia. }
      apply Z.leb_gt in L. unfold ULP_PATH_LEN in L. destruct (dots n) eqn:D.
      { apply dots_spec in D. apply SKIP; [|exact E]. intros q (X & Y & _). tauto. }
      assert (ND : n <> [46] /\ n <> [46; 46]). { split; intros ->; discriminate D. }
      assert (EN : entry_of listing F n). { destruct (LI n (or_introl eq_refl)) as [X|[X|X]]; [exact X|destruct ND; contradiction|destruct ND; contradiction]. }
      destruct (is_directory (path_of F n)) eqn:DI.
      + destruct (negb recursive) eqn:R; [apply negb_true_iff in R|apply negb_false_iff in R].
        1: { apply SKIP; [|exact E]. intros q (_ & _ & [(X & _)|(X & _)]); congruence. }
        destruct (ULP_PATH_LEN <=? zlen (path_of F n) + zlen w + 1) eqn:L2.
        { apply Z.leb_le in L2. unfold ULP_PATH_LEN in L2. apply SKIP; [|exact E]. intros q (_ & _ & [(X & _)|(_ & _ & X & _)]); [congruence|lia]. }
        apply Z.leb_gt in L2. unfold ULP_PATH_LEN in L2. change (path_of F n ++ [SLASH] ++ w) with (path_of (path_of F n) w) in E.
        destruct (rec (path_of (path_of F n) w)) as [l'| |] eqn:RC; try discriminate.
        assert (Q : has_so n && matches w n = false).
        { destruct (has_so n) eqn:S; [|reflexivity]. cbn [andb]. apply (NF F n EN DI). apply has_so_spec. exact S. }
        rewrite Q in E. destruct (each _ _ _ rec F w t) as [l2| |] eqn:E2; try discriminate. injection E as <-.
        cbn [app]. rewrite in_app_iff, (IH' l2 eq_refl p). rewrite (H n l' (or_introl eq_refl)); [|unfold enters; repeat split; auto; lia|exact RC].
        split.
        * intros [M|(m & I & C)]; [|exists m; split; [right; exact I|exact C]].
          exists n. split; [left; reflexivity|]. split; [apply ND|]. split; [apply ND|]. right. repeat split; auto. lia.
        * intros (m & [<-|I] & C); [|right; eauto]. left. destruct C as (_ & _ & [(X & _)|(_ & _ & _ & M)]); [congruence|exact M].
      + destruct (each _ _ _ rec F w t) as [l2| |] eqn:E2; try discriminate. injection E as <-. cbn [app].
        rewrite in_app_iff, (IH' l2 eq_refl p). split.
        * intros [M|(m & I & C)]; [|exists m; split; [right; exact I|exact C]].
          destruct (has_so n) eqn:S; cbn [andb] in M; [|destruct M]. destruct (matches w n) eqn:MA; [|destruct M].
          destruct M as [<-|[]]. exists n. split; [left; reflexivity|]. split; [apply ND|]. split; [apply ND|]. left.
          apply has_so_spec in S. repeat split; auto.
        * intros (m & [<-|I] & C); [|right; eauto]. left. destruct C as (_ & _ & [(_ & S & MA & _ & ->)|(_ & X & _)]); [|congruence].
          apply has_so_spec in S. rewrite S, MA. left. reflexivity.
  Qed.

  Lemma meant_names F p : meant w F p <-> exists n, entry_of listing F n /\ contributes F w n p.
  Proof.
    split.
    - intros M. destruct M as [F n EN D S MA L|F n p R EN D L M]; exists n; (split; [exact EN|]);
        (destruct EN as (? & _ & _ & N1 & N2); split; [exact N1|split; [exact N2|]]); [left|right]; auto.
    - intros (n & EN & _ & _ & [(D & S & MA & L & ->)|(R & D & L & M)]); [apply meant_here|eapply meant_below]; eauto.
  Qed.

  Lemma walk_in : forall fuel path l, get_basename path = w -> walk fuel path = W_ok l ->
    forall p, In p l <-> meant w (dirname path) p.
  Proof.
    induction fuel as [|f IH]; intros path l B E p; cbn [trigger_many_ulps] in E; [discriminate|].
    rewrite meant_names. destruct (listing (dirname path)) as [names|] eqn:LI.
    2: { injection E as <-. split; [intros []|]. intros (n & (names & X & _) & _). congruence. }
    destruct (_ <? _); [discriminate|]. rewrite B in E. destruct (SANE _ _ LI) as [_ HP].
    rewrite (each_in (walk f) (dirname path) names) with (l := l); [|  |exact HP| |exact E].
    - split; intros (n & I & C); exists n; (split; [|exact C]).
      + exists names. destruct C as (N1 & N2 & _). auto.
      + destruct I as (names' & X & I & _). congruence.
    - intros n I. destruct (dots n) eqn:D; [apply dots_spec in D; auto|]. left. exists names. split; [exact LI|]. split; [exact I|].
      split; intros ->; discriminate D.
    - intros n l' I (R & D & DI & LN) EW q. pose proof (proj1 (Forall_forall _ _) HP n I) as Hn.
      rewrite (IH _ l' (basename_below _ _ PW) EW q), dirname_below by assumption. reflexivity.
  Qed.

  (** *** Once *)
  Lemma meant_form F p : meant w F p -> exists n r, plain n /\ p = path_of F n ++ r /\ (r = [] \/ exists r', r = 47 :: r').
  Proof.
    induction 1 as [F n EN D S MA L|F n p R EN D L M IH].
    - exists n, []. rewrite app_nil_r. split; [|auto]. destruct EN as (names & LI & I & _). apply (proj1 (Forall_forall _ _) (proj2 (SANE _ _ LI)) n I).
    - destruct IH as (n' & r & _ & -> & _). exists n, (47 :: n' ++ r). split; [|split; [|eauto]].
      + destruct EN as (names & LI & I & _). apply (proj1 (Forall_forall _ _) (proj2 (SANE _ _ LI)) n I).
      + unfold path_of. rewrite <- !app_assoc. reflexivity.
  Qed.
  Lemma name_unique a b r r' : ~ In 47 a -> ~ In 47 b -> a ++ r = b ++ r' ->
    (r = [] \/ exists x, r = 47 :: x) -> (r' = [] \/ exists x, r' = 47 :: x) -> a = b.
  Proof.
    revert b. induction a as [|x a IH]; intros [|y b] Na Nb E Hr Hr'; cbn [app] in E.
    - reflexivity.
    - exfalso. destruct Hr as [->|[x ->]]; [discriminate|]. injection E as <- _. apply Nb. left. reflexivity.
    - exfalso. destruct Hr' as [->|[z ->]]; [discriminate|]. injection E as -> _. apply Na. left. reflexivity.
    - injection E as <- E. f_equal. eapply IH; eauto; [intros I; apply Na|intros I; apply Nb]; right; exact I.
  Qed.
  Lemma contributes_unique F n m p : plain n -> plain m -> contributes F w n p -> contributes F w m p -> n = m.
  Proof.
    intros Hn Hm C1 C2.
    assert (G : forall n, plain n -> contributes F w n p -> exists r, p = path_of F n ++ r /\ (r = [] \/ exists x, r = 47 :: x)).
    { intros k Hk (_ & _ & [(_ & _ & _ & _ & ->)|(_ & _ & _ & M)]); [exists []; rewrite app_nil_r; auto|].
      apply meant_form in M. destruct M as (n' & r & _ & -> & _). exists (47 :: n' ++ r). split; [|eauto]. unfold path_of. rewrite <- !app_assoc. reflexivity. }
    destruct (G n Hn C1) as (r & E1 & Hr). destruct (G m Hm C2) as (r' & E2 & Hr'). rewrite E1 in E2. unfold path_of in E2.
    rewrite <- !app_assoc in E2. apply app_inv_head in E2. cbn [app] in E2. injection E2 as E2.
    eapply name_unique; eauto; [apply Hn|apply Hm].
  Qed.

  Lemma each_nodup rec F names :
    forall (LI : forall n, In n names -> entry_of listing F n \/ n = [46] \/ n = [46; 46]), Forall plain names -> NoDup names ->
    (forall n l, In n names -> enters F w n -> rec (path_of (path_of F n) w) = W_ok l -> NoDup l /\ forall p, In p l <-> meant w (path_of F n) p) ->
    forall l, each recursive matches is_directory rec F w names = W_ok l -> NoDup l.
  Proof.
    intros LI HP ND H. induction names as [|n t IH]; intros l E; cbn [each] in E; cbv zeta in E; [injection E as <-; constructor|].
    inversion HP as [|? ? Hn Ht]; subst. inversion ND as [|? ? Nn NDt]; subst.
    assert (IH' : forall l, each recursive matches is_directory rec F w t = W_ok l -> NoDup l).
    { apply IH; [intros; apply LI; right; assumption|exact Ht|exact NDt|intros n0 l0 I0; apply H; right; exact I0]. }
    assert (IN : forall l, each recursive matches is_directory rec F w t = W_ok l -> forall p, In p l -> exists m, In m t /\ contributes F w m p).
    { intros l0 E0 p I. apply (each_in rec F t) with (l := l0); auto; [intros; apply LI; right; assumption|].
      intros n0 l1 I0 EN0 R0. apply (H n0 l1); [right; exact I0|exact EN0|exact R0]. }
    assert (DIS : forall l, each recursive matches is_directory rec F w t = W_ok l -> forall p, contributes F w n p -> ~ In p l).
    { intros l0 E0 p C I. destruct (IN l0 E0 p I) as (m & Im & Cm). apply Nn.
      rewrite (contributes_unique F n m p); auto. apply (proj1 (Forall_forall _ _) Ht m Im). }
    clear IH. change (F ++ [SLASH] ++ n) with (path_of F n) in E.
    destruct (ULP_PATH_LEN <=? zlen (path_of F n)) eqn:L; [auto|]. apply Z.leb_gt in L. unfold ULP_PATH_LEN in L.
    destruct (dots n) eqn:D; [auto|]. assert (N12 : n <> [46] /\ n <> [46; 46]). { split; intros ->; discriminate D. }
    assert (EN : entry_of listing F n). { destruct (LI n (or_introl eq_refl)) as [X|[X|X]]; [exact X|destruct N12; contradiction|destruct N12; contradiction]. }
    destruct (is_directory (path_of F n)) eqn:DI.
    - destruct (negb recursive) eqn:R; [auto|]. apply negb_false_iff in R. destruct (ULP_PATH_LEN <=? zlen (path_of F n) + zlen w + 1) eqn:L2; [auto|].
      apply Z.leb_gt in L2. unfold ULP_PATH_LEN in L2. change (path_of F n ++ [SLASH] ++ w) with (path_of (path_of F n) w) in E.
      destruct (rec (path_of (path_of F n) w)) as [l'| |] eqn:RC; try discriminate.
      assert (Q : has_so n && matches w n = false).
      { destruct (has_so n) eqn:S; [|reflexivity]. cbn [andb]. apply (NF F n EN DI). apply has_so_spec. exact S. }
      rewrite Q in E. destruct (each _ _ _ rec F w t) as [l2| |] eqn:E2; try discriminate. injection E as <-. cbn [app].
      destruct (H n l' (or_introl eq_refl)) as [N1 M1]; [unfold enters; repeat split; auto; lia|exact RC|].
      apply NoDup_app2; [exact N1|apply IH'; reflexivity|].
      intros p I1 I2. apply (DIS l2 eq_refl p); [|exact I2]. split; [apply N12|]. split; [apply N12|]. right. apply M1 in I1. repeat split; auto. lia.
    - destruct (each _ _ _ rec F w t) as [l2| |] eqn:E2; try discriminate. injection E as <-. cbn [app].
      destruct (has_so n) eqn:S; cbn [andb app]; [|apply IH'; reflexivity]. destruct (matches w n) eqn:MA; cbn [app]; [|apply IH'; reflexivity].
      constructor; [|apply IH'; reflexivity]. apply (DIS l2 eq_refl). split; [apply N12|]. split; [apply N12|]. left. apply has_so_spec in S. repeat split; auto.
  Qed.

  Lemma walk_nodup : forall fuel path l, get_basename path = w -> walk fuel path = W_ok l -> NoDup l.
  Proof.
    induction fuel as [|f IH]; intros path l B E; cbn [trigger_many_ulps] in E; [discriminate|].
    destruct (listing (dirname path)) as [names|] eqn:LI; [|injection E as <-; constructor].
    destruct (_ <? _); [discriminate|]. rewrite B in E. destruct (SANE _ _ LI) as [ND HP].
    eapply (each_nodup (walk f) (dirname path) names); [|exact HP|exact ND| |exact E].
    - intros n I. destruct (dots n) eqn:D; [apply dots_spec in D; auto|]. left. exists names. split; [exact LI|]. split; [exact I|].
      split; intros ->; discriminate D.
    - intros n l' I (R & D & DI & LN) EW. pose proof (proj1 (Forall_forall _ _) HP n I) as Hn.
      split; [eapply IH; [apply basename_below; exact PW|exact EW]|].
      intros q. rewrite (walk_in _ _ l' (basename_below _ _ PW) EW q), dirname_below by assumption. reflexivity.
  Qed.
End Walk.
