(** The metadata parser on arbitrary bytes. *)
From Verif Require Import Base BaseFacts MetaModel MetaSpec MetaProofs.

(** [wild src]: four consecutive bytes of value 255 occur in [src]. *)
Definition wild (src : list Z) : Prop :=
  exists pre post, src = pre ++ [255; 255; 255; 255] ++ post.

Definition suf (l' l : list Z) : Prop := exists pre, l = pre ++ l'.

Lemma suf_refl l : suf l l.
Proof. exists []. reflexivity. Qed.

Lemma suf_trans a b c : suf a b -> suf b c -> suf a c.
Proof. intros (p & ->) (q & ->). exists (q ++ p). rewrite app_assoc. reflexivity. Qed.

Lemma suf_length a b : suf a b -> (length a <= length b)%nat.
Proof. intros (p & ->). rewrite app_length. lia. Qed.

Lemma suf_wild a b : suf a b -> wild a -> wild b.
Proof. intros (p & ->) (x & y & ->). exists (p ++ x), y. rewrite app_assoc. reflexivity. Qed.

Lemma suf_bytes a b : suf a b -> bytes_ok b -> bytes_ok a.
Proof. intros (p & ->) H. apply bytes_ok_app in H. tauto. Qed.

Lemma read_from_mem_eq n src got rest :
  0 <= n -> read_from_mem n src = (got, rest) ->
  src = got ++ rest /\ zlen got = Z.min n (zlen src).
Proof.
  intros Hn. unfold read_from_mem. intros [= <- <-].
  split; [symmetry; apply firstn_skipn|]. unfold zlen. rewrite firstn_length. lia.
Qed.

Lemma read_from_mem_suf n src got rest : read_from_mem n src = (got, rest) -> suf rest src.
Proof. unfold read_from_mem. intros [= <- <-]. eexists. symmetry. apply firstn_skipn. Qed.

Lemma read_int_eq n old src v cnt rest :
  read_int n old src = (v, cnt, rest) ->
  exists got, src = got ++ rest /\ zlen got = cnt /\ cnt = Z.min (Z.of_nat n) (zlen src) /\
    v = le_dec (got ++ skipn (length got) (le_enc n old)).
Proof.
  unfold read_int. destruct (read_from_mem (Z.of_nat n) src) as [got rest'] eqn:E.
  intros [= <- <- <-]. apply read_from_mem_eq in E; [|lia]. destruct E as [E1 E2].
  exists got. auto.
Qed.

Lemma read_int_suf n old src v cnt rest :
  read_int n old src = (v, cnt, rest) -> suf rest src.
Proof. intros H. apply read_int_eq in H. destruct H as (got & -> & _). exists got. reflexivity. Qed.

Lemma read_int_len n old src v cnt rest :
  read_int n old src = (v, cnt, rest) -> 1 <= cnt -> (length rest < length src)%nat.
Proof.
  intros H Hc. apply read_int_eq in H. destruct H as (got & -> & E & _).
  rewrite app_length. unfold zlen in E. lia.
Qed.

(** A short read exhausts the source. *)
Lemma read_int_short n old src v cnt rest :
  read_int n old src = (v, cnt, rest) -> cnt <> Z.of_nat n -> rest = [].
Proof.
  intros H Hc. apply read_int_eq in H. destruct H as (got & E & Hg & Hm & _).
  assert (zlen got = zlen src) by lia. subst src. rewrite zlen_app in *.
  destruct rest; [reflexivity|]. rewrite zlen_cons in *. pose proof (zlen_nonneg rest). lia.
Qed.

Lemma read_int_bound n old src v cnt rest :
  read_int n old src = (v, cnt, rest) -> bytes_ok src -> 0 <= v < 2 ^ (8 * Z.of_nat n).
Proof.
  intros H Hb. apply read_int_eq in H. destruct H as (got & -> & Hg & Hm & ->).
  apply bytes_ok_app in Hb. destruct Hb as [Hb _].
  assert (Hb' : bytes_ok (got ++ skipn (length got) (le_enc n old))).
  { apply bytes_ok_app. split; [exact Hb|]. pose proof (le_enc_bytes n old) as Hl.
    rewrite <- (firstn_skipn (length got) (le_enc n old)) in Hl. apply bytes_ok_app in Hl. tauto. }
  apply le_dec_bound in Hb'. rewrite zlen_app in Hb'.
  replace (zlen got + zlen (skipn (length got) (le_enc n old))) with (Z.of_nat n) in Hb'; [exact Hb'|].
  unfold zlen in *. rewrite skipn_length, le_enc_length. lia.
Qed.

Lemma le4_max l : bytes_ok l -> length l = 4%nat -> le_dec l = 2 ^ 32 - 1 -> l = [255; 255; 255; 255].
Proof.
  intros Hb Hl Hv.
  rewrite <- (le_enc_dec l Hb), Hl, Hv. reflexivity.
Qed.

(** *** Reasoning rule for each reading idiom *)

Section Rules.
  Context {A : Type}.
  Variable Q : pres A -> Prop.

  Lemma read_name_rule c src (k : list Z -> Z -> list Z -> pres A) :
    bytes_ok src ->
    Q (P_err EINVALIDULP) ->
    (wild src -> Q P_UB) ->
    (forall s c' src', (length src' < length src)%nat -> suf src' src -> Q (k s c' src')) ->
    Q (read_name c src k).
  Proof.
    intros Hb He Hu Hk. unfold read_name.
    destruct (read_int 4 c src) as [[c' n] src1] eqn:E1.
    destruct (Z.ltb_spec n 1) as [En|En]; [exact He|].
    pose proof (read_int_len _ _ _ _ _ _ E1 En) as L1.
    pose proof (read_int_suf _ _ _ _ _ _ E1) as S1.
    pose proof (read_int_bound _ _ _ _ _ _ E1 Hb) as B1. change (2 ^ (8 * Z.of_nat 4)) with (2 ^ 32) in B1.
    destruct (read_from_mem c' src1) as [got src2] eqn:E2.
    pose proof (read_from_mem_suf _ _ _ _ E2) as S2.
    apply read_from_mem_eq in E2; [|lia]. destruct E2 as [E2 E2'].
    destruct (Z.ltb_spec (u32 (c' + 1)) (zlen got)) as [EU|EU].
    - apply Hu. assert (c' = 2 ^ 32 - 1).
      { destruct (Z.eq_dec c' (2 ^ 32 - 1)) as [|Hne]; [assumption|exfalso].
        rewrite u32_small in EU by lia. lia. }
      assert (Hn4 : n = 4).
      { destruct (Z.eq_dec n 4) as [|Hn]; [assumption|].
        apply (read_int_short _ _ _ _ _ _ E1) in Hn. rewrite Hn in E2'.
        change (zlen (@nil Z)) with 0 in E2'.
        assert (0 <= u32 (c' + 1)) by (apply Z.mod_pos_bound; reflexivity). lia. }
      apply read_int_eq in E1. destruct E1 as (g & -> & Hg & _ & Hv).
      assert (Hg4 : length g = 4%nat) by (unfold zlen in Hg; lia).
      rewrite Hg4, skipn_all2, app_nil_r in Hv by (rewrite le_enc_length; lia).
      apply bytes_ok_app in Hb. destruct Hb as [Hb _].
      exists [], src1. rewrite (le4_max g); [reflexivity|assumption..|congruence].
    - destruct (Z.ltb_spec (zlen got) c') as [EC|EC]; [exact He|].
      apply Hk; [|eapply suf_trans; eassumption].
      apply suf_length in S2. lia.
  Qed.

  Lemma read_rname_rule c src (k : option (list Z) -> Z -> list Z -> pres A) :
    Q (P_err EINVALIDULP) ->
    (forall s c' src', (length src' < length src)%nat -> suf src' src -> Q (k s c' src')) ->
    Q (read_rname c src k).
  Proof.
    intros He Hk. unfold read_rname.
    destruct (read_int 4 c src) as [[c' n] src1] eqn:E1.
    destruct (Z.ltb_spec n 4) as [En|En]; [exact He|].
    pose proof (read_int_len _ _ _ _ _ _ E1 ltac:(lia)) as L1.
    pose proof (read_int_suf _ _ _ _ _ _ E1) as S1.
    destruct (read_from_mem c' src1) as [got src2] eqn:E2.
    pose proof (read_from_mem_suf _ _ _ _ E2) as S2.
    destruct (Z.ltb_spec (zlen got) c') as [EC|EC]; [exact He|].
    apply Hk; [|eapply suf_trans; eassumption].
    apply suf_length in S2. lia.
  Qed.

  Lemma parse_units_rule fuel : forall j c src acc (k : list munit -> Z -> list Z -> pres A),
    bytes_ok src -> (length src < fuel)%nat ->
    Q (P_err EINVALIDULP) -> (wild src -> Q P_UB) ->
    (forall us c' src', suf src' src -> Q (k us c' src')) ->
    Q (parse_units fuel j c src acc k).
  Proof.
    induction fuel as [|fuel IH]; intros j c src acc k Hb Hf He Hu Hk; [lia|].
    cbn [parse_units]. destruct (j <=? 0); [apply Hk, suf_refl|].
    apply read_name_rule; [assumption..|]. intros old c1 src1 L1 S1.
    apply read_name_rule;
      [eapply suf_bytes; eassumption|assumption|intros W; apply Hu; eapply suf_wild; eassumption|].
    intros new c2 src2 L2 S2.
    destruct (read_int 8 0 src2) as [[addr n] src3] eqn:E3.
    destruct (Z.ltb_spec n 1) as [En|En]; [exact He|].
    pose proof (read_int_len _ _ _ _ _ _ E3 En) as L3.
    pose proof (read_int_suf _ _ _ _ _ _ E3) as S3.
    assert (S : suf src3 src) by (eapply suf_trans; [eassumption|eapply suf_trans; eassumption]).
    apply IH; [eapply suf_bytes; eassumption|lia|assumption| |].
    - intros W. apply Hu. eapply suf_wild; eassumption.
    - intros us c' src' S'. apply Hk. eapply suf_trans; eassumption.
  Qed.

  Lemma parse_deps_rule fuel : forall j src acc (k : list (list Z) -> list Z -> pres A),
    (length src < fuel)%nat ->
    Q (P_err EINVALIDULP) ->
    (forall ds src', suf src' src -> Q (k ds src')) ->
    Q (parse_deps fuel j src acc k).
  Proof.
    induction fuel as [|fuel IH]; intros j src acc k Hf He Hk; [lia|].
    cbn [parse_deps]. destruct (j <=? 0); [apply Hk, suf_refl|].
    destruct (read_from_mem 32 src) as [got src1] eqn:E1.
    pose proof (read_from_mem_suf _ _ _ _ E1) as S1.
    apply read_from_mem_eq in E1; [|lia]. destruct E1 as [E1 E1'].
    destruct (Z.ltb_spec (zlen got) 32); [exact He|].
    apply IH; [|assumption|].
    - subst src. rewrite app_length in Hf. unfold zlen in *. lia.
    - intros ds src' S'. apply Hk. eapply suf_trans; eassumption.
  Qed.

  Lemma parse_refs_rule fuel : forall j c src acc (k : list mref -> list Z -> pres A),
    (length src < fuel)%nat ->
    Q (P_err EINVALIDULP) ->
    (forall rs src', Q (k rs src')) ->
    Q (parse_refs fuel j c src acc k).
  Proof.
    induction fuel as [|fuel IH]; intros j c src acc k Hf He Hk; [lia|].
    cbn [parse_refs]. destruct (j <=? 0); [apply Hk|].
    apply read_rname_rule; [assumption|]. intros t c1 src1 L1 S1.
    apply read_rname_rule; [assumption|]. intros nm c2 src2 L2 S2.
    destruct (read_int 8 0 src2) as [[toff n1] src3] eqn:E3.
    destruct (Z.ltb_spec n1 8); [exact He|]. apply read_int_suf, suf_length in E3.
    destruct (read_int 8 0 src3) as [[poff n2] src4] eqn:E4.
    destruct (Z.ltb_spec n2 8); [exact He|]. apply read_int_suf, suf_length in E4.
    destruct (read_int 1 0 src4) as [[tls n3] src5] eqn:E5.
    destruct (Z.ltb_spec n3 1); [exact He|]. apply read_int_suf, suf_length in E5.
    apply IH; [lia|assumption..].
  Qed.

End Rules.

Lemma parse_rule (Q : pres (meta * list Z) -> Prop) junk src :
  bytes_ok src ->
  Q (P_err EINVALIDULP) -> Q (P_err 1) -> (wild src -> Q P_UB) ->
  (forall r, Q (P_ok r)) ->
  Q (parse_metadata_raw junk src).
Proof.
  intros Hb He H1 Hu Hk. unfold parse_metadata_raw.
  destruct (read_int 1 0 src) as [[type n] src1] eqn:E1.
  destruct (Z.ltb_spec n 1) as [En|En]; [exact He|].
  pose proof (read_int_suf _ _ _ _ _ _ E1) as S1.
  destruct (read_from_mem 32 src1) as [id src2] eqn:E2.
  destruct (zlen id <? 32); [exact He|].
  pose proof (suf_trans _ _ _ (read_from_mem_suf _ _ _ _ E2) S1) as S2.
  apply read_name_rule; [eapply suf_bytes; eassumption|assumption|intros W; apply Hu; eapply suf_wild; eassumption|].
  intros so c1 src3 _ S3'. pose proof (suf_trans _ _ _ S3' S2) as S3.
  destruct so as [|s0 so]; [exact He|].
  destruct (read_int 4 c1 src3) as [[c2 n2] src4] eqn:E4.
  destruct (n2 <? 1); [exact He|].
  pose proof (suf_trans _ _ _ (read_int_suf _ _ _ _ _ _ E4) S3) as S4.
  destruct (read_from_mem c2 src4) as [bid src5] eqn:E5.
  destruct (zlen bid <? c2); [exact He|].
  pose proof (suf_trans _ _ _ (read_from_mem_suf _ _ _ _ E5) S4) as S5.
  apply read_name_rule; [eapply suf_bytes; eassumption|assumption|intros W; apply Hu; eapply suf_wild; eassumption|].
  intros name c3 src6 _ S6'. pose proof (suf_trans _ _ _ S6' S5) as S6.
  destruct (type =? 2); [apply Hk|].
  destruct (read_int 4 0 src6) as [[nunits n4] src7] eqn:E7.
  destruct (n4 <? 1); [exact H1|].
  pose proof (suf_trans _ _ _ (read_int_suf _ _ _ _ _ _ E7) S6) as S7.
  apply parse_units_rule;
    [eapply suf_bytes; eassumption|apply suf_length in S7; lia|assumption|
     intros W; apply Hu; eapply suf_wild; eassumption|].
  intros us c4 src8 S8'. pose proof (suf_trans _ _ _ S8' S7) as S8.
  destruct (read_int 4 c4 src8) as [[ndeps n5] src9] eqn:E9.
  destruct (n5 <? 1); [exact He|].
  pose proof (suf_trans _ _ _ (read_int_suf _ _ _ _ _ _ E9) S8) as S9.
  apply parse_deps_rule; [apply suf_length in S9; lia|assumption|].
  intros ds src10 S10'. pose proof (suf_trans _ _ _ S10' S9) as S10.
  destruct (read_int 4 0 src10) as [[nrefs n6] src11] eqn:E11.
  destruct (n6 <? 4); [exact He|].
  pose proof (suf_trans _ _ _ (read_int_suf _ _ _ _ _ _ E11) S10) as S11.
  apply parse_refs_rule; [apply suf_length in S11; lia|assumption|].
  intros rs src'. apply Hk.
Qed.

(** *** Success does not depend on bytes beyond the end *)

Notation pmres := (pres (meta * list Z)).
Definition okp (r : pmres) : Prop := exists m l, r = P_ok (m, l) /\ md_type m <> 2.

Section Extension.
Variable ext : list Z.

Definition same_ok (r1 r2 : pmres) : Prop :=
  forall m l, r1 = P_ok (m, l) -> md_type m <> 2 -> r2 = P_ok (m, l ++ ext).

Lemma same_ok_dead r1 r2 : ~ okp r1 -> same_ok r1 r2.
Proof. intros H m l E Ht. exfalso. apply H. exists m, l. auto. Qed.

Lemma err_dead c : ~ okp (P_err c).
Proof. intros (m & l & E & _). discriminate. Qed.
Lemma ub_dead : ~ okp P_UB.
Proof. intros (m & l & E & _). discriminate. Qed.
Lemma fuel_dead : ~ okp P_fuel.
Proof. intros (m & l & E & _). discriminate. Qed.
#[local] Hint Resolve err_dead ub_dead fuel_dead : core.

Lemma read_from_mem_ext n src got rest :
  read_from_mem n src = (got, rest) -> zlen got = n -> 0 <= n ->
  read_from_mem n (src ++ ext) = (got, rest ++ ext).
Proof.
  intros E Hg Hn. apply read_from_mem_eq in E; [|lia]. destruct E as [-> _].
  rewrite <- app_assoc. apply read_from_mem_app. exact Hg.
Qed.

Lemma read_int_ext n old src v rest :
  read_int n old src = (v, Z.of_nat n, rest) ->
  read_int n old (src ++ ext) = (v, Z.of_nat n, rest ++ ext).
Proof.
  intros E. unfold read_int in *. destruct (read_from_mem (Z.of_nat n) src) as [got rest'] eqn:E'.
  injection E as E1 E2 E3. rewrite (read_from_mem_ext _ _ _ _ E' E2) by lia. congruence.
Qed.

Lemma read_int_nil n old : (0 < n)%nat -> exists v, read_int n old [] = (v, 0, []).
Proof.
  intros Hn. unfold read_int, read_from_mem. change (zlen (@nil Z)) with 0. rewrite Z.min_r by lia.
  simpl. eexists. reflexivity.
Qed.

Lemma read_name_nil {A} c (k : list Z -> Z -> list Z -> pres A) : read_name c [] k = P_err EINVALIDULP.
Proof. unfold read_name. destruct (read_int_nil 4 c ltac:(lia)) as (v & ->). reflexivity. Qed.

Lemma read_rname_nil {A} c (k : option (list Z) -> Z -> list Z -> pres A) : read_rname c [] k = P_err EINVALIDULP.
Proof. unfold read_rname. destruct (read_int_nil 4 c ltac:(lia)) as (v & ->). reflexivity. Qed.

Lemma read_name_mono c src (k k' : list Z -> Z -> list Z -> pmres) :
  bytes_ok src ->
  (forall s c', ~ okp (k s c' [])) ->
  (forall s c' src', suf src' src -> same_ok (k s c' src') (k' s c' (src' ++ ext))) ->
  same_ok (read_name c src k) (read_name c (src ++ ext) k').
Proof.
  intros Hb Hd Hk. unfold read_name.
  destruct (read_int 4 c src) as [[c' n] src1] eqn:E1.
  pose proof (read_int_bound _ _ _ _ _ _ E1 Hb) as B1. change (2 ^ (8 * Z.of_nat 4)) with (2 ^ 32) in B1.
  destruct (Z.ltb_spec n 1) as [En|En]; [apply same_ok_dead; auto|].
  destruct (Z.eq_dec n 4) as [E4|E4].
  - subst n. rewrite (read_int_ext _ _ _ _ _ E1). change (4 <? 1) with false. cbv iota beta.
    change (Z.of_nat 4 <? 1) with false. cbv iota.
    destruct (read_from_mem c' src1) as [got src2] eqn:E2.
    destruct (u32 (c' + 1) <? zlen got) eqn:EU; [apply same_ok_dead; auto|].
    destruct (Z.ltb_spec (zlen got) c') as [EC|EC]; [apply same_ok_dead; auto|].
    pose proof (read_from_mem_suf _ _ _ _ E2) as S2. pose proof (read_int_suf _ _ _ _ _ _ E1) as S1.
    assert (Hg : zlen got = c') by (apply read_from_mem_eq in E2; [destruct E2; lia|lia]).
    rewrite (read_from_mem_ext _ _ _ _ E2 Hg) by lia. rewrite EU.
    destruct (Z.ltb_spec (zlen got) c'); [lia|]. apply Hk. eapply suf_trans; eassumption.
  - apply same_ok_dead. apply (read_int_short _ _ _ _ _ _ E1) in E4. subst src1.
    destruct (read_from_mem c' []) as [got src2] eqn:E2.
    assert (src2 = []).
    { apply read_from_mem_suf in E2. destruct E2 as (p & E2). destruct p; [|discriminate]. auto. }
    subst src2. destruct (_ <? _); auto. destruct (_ <? _); auto.
Qed.

Lemma read_rname_mono c src (k k' : option (list Z) -> Z -> list Z -> pmres) :
  bytes_ok src ->
  (forall s c' src', suf src' src -> same_ok (k s c' src') (k' s c' (src' ++ ext))) ->
  same_ok (read_rname c src k) (read_rname c (src ++ ext) k').
Proof.
  intros Hb Hk. unfold read_rname.
  destruct (read_int 4 c src) as [[c' n] src1] eqn:E1.
  pose proof (read_int_bound _ _ _ _ _ _ E1 Hb) as B1. change (2 ^ (8 * Z.of_nat 4)) with (2 ^ 32) in B1.
  destruct (Z.ltb_spec n 4) as [En|En]; [apply same_ok_dead; auto|].
  assert (n = 4) by (apply read_int_eq in E1; destruct E1 as (? & _ & _ & E & _); lia).
  subst n. rewrite (read_int_ext _ _ _ _ _ E1). change (Z.of_nat 4 <? 4) with false. cbv iota beta.
  destruct (read_from_mem c' src1) as [got src2] eqn:E2.
  destruct (Z.ltb_spec (zlen got) c') as [EC|EC]; [apply same_ok_dead; auto|].
  pose proof (read_from_mem_suf _ _ _ _ E2) as S2. pose proof (read_int_suf _ _ _ _ _ _ E1) as S1.
  assert (Hg : zlen got = c') by (apply read_from_mem_eq in E2; [destruct E2; lia|lia]).
  rewrite (read_from_mem_ext _ _ _ _ E2 Hg) by lia.
  destruct (Z.ltb_spec (zlen got) c'); [lia|]. apply Hk. eapply suf_trans; eassumption.
Qed.

(** An integer field of which [need] bytes are required. *)
Lemma read_int_mono n old src need e (k k' : Z -> list Z -> pmres) :
  (0 < n)%nat -> 1 <= need <= Z.of_nat n ->
  (need < Z.of_nat n -> forall v, ~ okp (k v [])) ->
  (forall v src', suf src' src -> same_ok (k v src') (k' v (src' ++ ext))) ->
  same_ok (let '(v, cnt, src') := read_int n old src in if cnt <? need then P_err e else k v src')
          (let '(v, cnt, src') := read_int n old (src ++ ext) in if cnt <? need then P_err e else k' v src').
Proof.
  intros Hn Hneed Hd Hk.
  destruct (read_int n old src) as [[v cnt] src1] eqn:E1.
  destruct (Z.ltb_spec cnt need) as [E|E]; [apply same_ok_dead; auto|].
  destruct (Z.eq_dec cnt (Z.of_nat n)) as [Ec|Ec].
  - subst cnt. rewrite (read_int_ext _ _ _ _ _ E1).
    destruct (Z.ltb_spec (Z.of_nat n) need); [lia|]. apply Hk. eapply read_int_suf; eassumption.
  - assert (cnt < Z.of_nat n) by (apply read_int_eq in E1; destruct E1 as (? & _ & _ & Hm & _); lia).
    apply (read_int_short _ _ _ _ _ _ E1) in Ec. subst src1. apply same_ok_dead. apply Hd. lia.
Qed.

Lemma parse_units_nil fuel j c acc (k : list munit -> Z -> list Z -> pmres) :
  (forall us c', ~ okp (k us c' [])) -> ~ okp (parse_units fuel j c [] acc k).
Proof.
  intros H. destruct fuel; cbn [parse_units]; destruct (j <=? 0); auto.
  rewrite read_name_nil. auto.
Qed.

Lemma parse_deps_nil fuel j acc (k : list (list Z) -> list Z -> pmres) :
  (forall ds, ~ okp (k ds [])) -> ~ okp (parse_deps fuel j [] acc k).
Proof. intros H. destruct fuel; cbn [parse_deps]; destruct (j <=? 0); auto. simpl. auto. Qed.

Lemma parse_units_mono fuel : forall fuel' j c src acc (k k' : list munit -> Z -> list Z -> pmres),
  bytes_ok src -> (fuel <= fuel')%nat ->
  (forall us c', ~ okp (k us c' [])) ->
  (forall us c' src', suf src' src -> same_ok (k us c' src') (k' us c' (src' ++ ext))) ->
  same_ok (parse_units fuel j c src acc k) (parse_units fuel' j c (src ++ ext) acc k').
Proof.
  induction fuel as [|fuel IH]; intros fuel' j c src acc k k' Hb Hf Hd Hk.
  - cbn [parse_units]. destruct (j <=? 0) eqn:Ej; [|apply same_ok_dead; auto].
    destruct fuel'; cbn [parse_units]; rewrite Ej; apply Hk, suf_refl.
  - destruct fuel' as [|fuel']; [lia|]. cbn [parse_units].
    destruct (j <=? 0) eqn:Ej; [apply Hk, suf_refl|].
    apply read_name_mono; [assumption|intros; rewrite read_name_nil; auto|]. intros old c1 src1 S1.
    apply read_name_mono; [eapply suf_bytes; eassumption| |].
    + intros s c2. destruct (read_int_nil 8 0 ltac:(lia)) as (v & ->). apply err_dead.
    + intros new c2 src2 S2.
      apply (read_int_mono 8 0 src2 1 EINVALIDULP
        (fun v s3 => parse_units fuel (j - 1) c2 s3 (mk_munit old new v :: acc) k)
        (fun v s3 => parse_units fuel' (j - 1) c2 s3 (mk_munit old new v :: acc) k')); [lia..| |].
      * intros _ v. apply parse_units_nil. exact Hd.
      * intros v src3 S3. assert (S : suf src3 src) by (eapply suf_trans; [eassumption|eapply suf_trans; eassumption]).
        apply IH; [eapply suf_bytes; eassumption|lia|assumption|].
        intros us c' src' S'. apply Hk. eapply suf_trans; eassumption.
Qed.

Lemma parse_deps_mono fuel : forall fuel' j src acc (k k' : list (list Z) -> list Z -> pmres),
  (fuel <= fuel')%nat ->
  (forall ds src', suf src' src -> same_ok (k ds src') (k' ds (src' ++ ext))) ->
  same_ok (parse_deps fuel j src acc k) (parse_deps fuel' j (src ++ ext) acc k').
Proof.
  induction fuel as [|fuel IH]; intros fuel' j src acc k k' Hf Hk.
  - cbn [parse_deps]. destruct (j <=? 0) eqn:Ej; [|apply same_ok_dead; auto].
    destruct fuel'; cbn [parse_deps]; rewrite Ej; apply Hk, suf_refl.
  - destruct fuel' as [|fuel']; [lia|]. cbn [parse_deps].
    destruct (j <=? 0) eqn:Ej; [apply Hk, suf_refl|].
    destruct (read_from_mem 32 src) as [got src1] eqn:E1.
    destruct (Z.ltb_spec (zlen got) 32) as [E|E]; [apply same_ok_dead; auto|].
    assert (Hg : zlen got = 32) by (apply read_from_mem_eq in E1; [destruct E1; lia|lia]).
    rewrite (read_from_mem_ext _ _ _ _ E1 Hg) by lia.
    destruct (Z.ltb_spec (zlen got) 32); [lia|].
    apply IH; [lia|]. intros ds src' S'. apply Hk. eapply suf_trans; [eassumption|].
    eapply read_from_mem_suf; eassumption.
Qed.

Lemma parse_refs_mono fuel : forall fuel' j c src acc (k k' : list mref -> list Z -> pmres),
  bytes_ok src -> (fuel <= fuel')%nat ->
  (forall rs src', same_ok (k rs src') (k' rs (src' ++ ext))) ->
  same_ok (parse_refs fuel j c src acc k) (parse_refs fuel' j c (src ++ ext) acc k').
Proof.
  induction fuel as [|fuel IH]; intros fuel' j c src acc k k' Hb Hf Hk.
  - cbn [parse_refs]. destruct (j <=? 0) eqn:Ej; [|apply same_ok_dead; auto].
    destruct fuel'; cbn [parse_refs]; rewrite Ej; apply Hk.
  - destruct fuel' as [|fuel']; [lia|]. cbn [parse_refs].
    destruct (j <=? 0) eqn:Ej; [apply Hk|].
    apply read_rname_mono; [assumption|]. intros t c1 src1 S1.
    apply read_rname_mono; [eapply suf_bytes; eassumption|]. intros nm c2 src2 S2.
    apply (read_int_mono 8 0 src2 8 EINVALIDULP
      (fun toff s3 => let '(poff, n2, src4) := read_int 8 0 s3 in if n2 <? 8 then P_err EINVALIDULP else
          let '(tls, n3, src5) := read_int 1 0 src4 in if n3 <? 1 then P_err EINVALIDULP
          else parse_refs fuel (j - 1) c2 src5 (mk_mref t nm toff poff (negb (tls =? 0)) :: acc) k)
      (fun toff s3 => let '(poff, n2, src4) := read_int 8 0 s3 in if n2 <? 8 then P_err EINVALIDULP else
          let '(tls, n3, src5) := read_int 1 0 src4 in if n3 <? 1 then P_err EINVALIDULP
          else parse_refs fuel' (j - 1) c2 src5 (mk_mref t nm toff poff (negb (tls =? 0)) :: acc) k')); [lia..|].
    intros toff src3 S3.
    apply (read_int_mono 8 0 src3 8 EINVALIDULP
      (fun poff src4 => let '(tls, n3, src5) := read_int 1 0 src4 in if n3 <? 1 then P_err EINVALIDULP
          else parse_refs fuel (j - 1) c2 src5 (mk_mref t nm toff poff (negb (tls =? 0)) :: acc) k)
      (fun poff src4 => let '(tls, n3, src5) := read_int 1 0 src4 in if n3 <? 1 then P_err EINVALIDULP
          else parse_refs fuel' (j - 1) c2 src5 (mk_mref t nm toff poff (negb (tls =? 0)) :: acc) k')); [lia..|].
    intros poff src4 S4.
    apply (read_int_mono 1 0 src4 1 EINVALIDULP
      (fun tls src5 => parse_refs fuel (j - 1) c2 src5 (mk_mref t nm toff poff (negb (tls =? 0)) :: acc) k)
      (fun tls src5 => parse_refs fuel' (j - 1) c2 src5 (mk_mref t nm toff poff (negb (tls =? 0)) :: acc) k')); [lia..|].
    intros tls src5 S5. apply IH; [|lia|assumption].
    eapply suf_bytes; [|exact Hb].
    repeat (eapply suf_trans; [eassumption|]). apply suf_refl.
Qed.

Lemma parse_mono junk src :
  bytes_ok src ->
  same_ok (parse_metadata_raw junk src) (parse_metadata_raw junk (src ++ ext)).
Proof.
  intros Hb. unfold parse_metadata_raw. cbv zeta.
  set (f1 := S (length src)). set (f2 := S (length (src ++ ext))).
  assert (Hf : (f1 <= f2)%nat) by (unfold f1, f2; rewrite app_length; lia). clearbody f1 f2.
  destruct (read_int 1 0 src) as [[type n] src1] eqn:E1.
  destruct (Z.ltb_spec n 1) as [En|En]; [apply same_ok_dead; auto|].
  assert (n = 1) by (apply read_int_eq in E1; destruct E1 as (? & _ & _ & E & _); lia). subst n.
  pose proof (read_int_suf _ _ _ _ _ _ E1) as S1.
  rewrite (read_int_ext _ _ _ _ _ E1). change (Z.of_nat 1 <? 1) with false. cbv iota beta.
  destruct (read_from_mem 32 src1) as [id src2] eqn:E2.
  destruct (Z.ltb_spec (zlen id) 32) as [E|E]; [apply same_ok_dead; auto|].
  pose proof (suf_trans _ _ _ (read_from_mem_suf _ _ _ _ E2) S1) as S2.
  assert (Hg : zlen id = 32) by (apply read_from_mem_eq in E2; [destruct E2; lia|lia]).
  rewrite (read_from_mem_ext _ _ _ _ E2 Hg) by lia.
  destruct (Z.ltb_spec (zlen id) 32); [lia|].
  assert (Ht : type = 2 \/ type <> 2) by lia. destruct Ht as [Ht|Ht].
  { (* reverse patches: nothing to show *)
    subst type. apply same_ok_dead. intros (m & l & Em & Hm).
    revert Em. unfold read_name at 1.
    destruct (read_int 4 junk src2) as [[c' n] src3].
    destruct (n <? 1); [discriminate|]. destruct (read_from_mem c' src3) as [g src4].
    destruct (_ <? _); [discriminate|]. destruct (_ <? _); [discriminate|].
    destruct (cstr_z g); [discriminate|].
    destruct (read_int 4 c' src4) as [[c2 n2] src5]. destruct (n2 <? 1); [discriminate|].
    destruct (read_from_mem c2 src5) as [bid src6]. destruct (_ <? _); [discriminate|].
    unfold read_name. destruct (read_int 4 c2 src6) as [[c3 n3] src7].
    destruct (n3 <? 1); [discriminate|]. destruct (read_from_mem c3 src7) as [g' src8].
    destruct (_ <? _); [discriminate|]. destruct (_ <? _); [discriminate|].
    change (2 =? 2) with true. cbv iota. intros [= <- _]. apply Hm. reflexivity. }
  apply read_name_mono; [eapply suf_bytes; eassumption| |].
  { intros [|s0 s] c'; auto. destruct (read_int_nil 4 c' ltac:(lia)) as (v & ->). apply err_dead. }
  intros so c1 src3 S3'. pose proof (suf_trans _ _ _ S3' S2) as S3.
  destruct so as [|s0 so]; [apply same_ok_dead; auto|].
  assert (Hb3 : bytes_ok src3) by (eapply suf_bytes; eassumption).
  destruct (read_int 4 c1 src3) as [[c2 n2] src4] eqn:E4.
  pose proof (read_int_bound _ _ _ _ _ _ E4 Hb3) as B4. change (2 ^ (8 * Z.of_nat 4)) with (2 ^ 32) in B4.
  destruct (Z.ltb_spec n2 1) as [En2|En2]; [apply same_ok_dead; auto|].
  destruct (Z.eq_dec n2 4) as [Ec|Ec].
  2:{ apply (read_int_short _ _ _ _ _ _ E4) in Ec. subst src4. apply same_ok_dead.
      destruct (read_from_mem c2 []) as [bid src5] eqn:E5.
      assert (src5 = []).
      { apply read_from_mem_suf in E5. destruct E5 as (p & E5). destruct p; [auto|discriminate]. }
      subst src5. destruct (_ <? _); auto. rewrite read_name_nil. auto. }
  subst n2. rewrite (read_int_ext _ _ _ _ _ E4). change (Z.of_nat 4 <? 1) with false. cbv iota beta.
  pose proof (suf_trans _ _ _ (read_int_suf _ _ _ _ _ _ E4) S3) as S4.
  destruct (read_from_mem c2 src4) as [bid src5] eqn:E5.
  destruct (Z.ltb_spec (zlen bid) c2) as [Eb|Eb]; [apply same_ok_dead; auto|].
  assert (Hg5 : zlen bid = c2) by (apply read_from_mem_eq in E5; [destruct E5; lia|lia]).
  rewrite (read_from_mem_ext _ _ _ _ E5 Hg5) by lia.
  destruct (Z.ltb_spec (zlen bid) c2); [lia|].
  pose proof (suf_trans _ _ _ (read_from_mem_suf _ _ _ _ E5) S4) as S5.
  destruct (Z.eqb_spec type 2) as [|_]; [contradiction|].
  apply read_name_mono; [eapply suf_bytes; eassumption| |].
  { intros s c'. destruct (read_int_nil 4 0 ltac:(lia)) as (v & ->). apply err_dead. }
  intros name c3 src6 S6'. pose proof (suf_trans _ _ _ S6' S5) as S6.
  apply (read_int_mono 4 0 src6 1 1
    (fun nunits src7 => parse_units f1 nunits c3 src7 [] (fun units c4 src8 =>
                let '(ndeps, n5, src9) := read_int 4 c4 src8 in
                if n5 <? 1 then P_err EINVALIDULP
                else parse_deps f1 ndeps src9 [] (fun deps src10 =>
                  let '(nrefs, n6, src11) := read_int 4 0 src10 in
                  if n6 <? 4 then P_err EINVALIDULP
                  else parse_refs f1 nrefs ndeps src11 [] (fun refs src12 =>
                    P_ok (mk_meta type id (s0 :: so) c2 bid name units deps refs, src12)))))
    (fun nunits src7 => parse_units f2 nunits c3 src7 [] (fun units c4 src8 =>
                let '(ndeps, n5, src9) := read_int 4 c4 src8 in
                if n5 <? 1 then P_err EINVALIDULP
                else parse_deps f2 ndeps src9 [] (fun deps src10 =>
                  let '(nrefs, n6, src11) := read_int 4 0 src10 in
                  if n6 <? 4 then P_err EINVALIDULP
                  else parse_refs f2 nrefs ndeps src11 [] (fun refs src12 =>
                    P_ok (mk_meta type id (s0 :: so) c2 bid name units deps refs, src12)))))); [lia..| |].
  { intros _ v. apply parse_units_nil. intros us c'. destruct (read_int_nil 4 c' ltac:(lia)) as (w & ->). apply err_dead. }
  intros nunits src7 S7'. pose proof (suf_trans _ _ _ S7' S6) as S7.
  apply parse_units_mono; [eapply suf_bytes; eassumption|assumption| |].
  { intros us c'. destruct (read_int_nil 4 c' ltac:(lia)) as (w & ->). apply err_dead. }
  intros us c4 src8 S8'. pose proof (suf_trans _ _ _ S8' S7) as S8.
  apply (read_int_mono 4 c4 src8 1 EINVALIDULP
    (fun ndeps src9 => parse_deps f1 ndeps src9 [] (fun deps src10 =>
                  let '(nrefs, n6, src11) := read_int 4 0 src10 in
                  if n6 <? 4 then P_err EINVALIDULP
                  else parse_refs f1 nrefs ndeps src11 [] (fun refs src12 =>
                    P_ok (mk_meta type id (s0 :: so) c2 bid name us deps refs, src12))))
    (fun ndeps src9 => parse_deps f2 ndeps src9 [] (fun deps src10 =>
                  let '(nrefs, n6, src11) := read_int 4 0 src10 in
                  if n6 <? 4 then P_err EINVALIDULP
                  else parse_refs f2 nrefs ndeps src11 [] (fun refs src12 =>
                    P_ok (mk_meta type id (s0 :: so) c2 bid name us deps refs, src12))))); [lia..| |].
  { intros _ v. apply parse_deps_nil. intros ds. destruct (read_int_nil 4 0 ltac:(lia)) as (w & ->). apply err_dead. }
  intros ndeps src9 S9'. pose proof (suf_trans _ _ _ S9' S8) as S9.
  apply parse_deps_mono; [assumption|].
  intros ds src10 S10'. pose proof (suf_trans _ _ _ S10' S9) as S10.
  apply (read_int_mono 4 0 src10 4 EINVALIDULP
    (fun nrefs src11 => parse_refs f1 nrefs ndeps src11 [] (fun refs src12 =>
                    P_ok (mk_meta type id (s0 :: so) c2 bid name us ds refs, src12)))
    (fun nrefs src11 => parse_refs f2 nrefs ndeps src11 [] (fun refs src12 =>
                    P_ok (mk_meta type id (s0 :: so) c2 bid name us ds refs, src12)))); [lia..|].
  intros nrefs src11 S11'. apply parse_refs_mono; [|assumption|].
  - eapply suf_bytes; [eapply suf_trans; eassumption|exact Hb].
  - intros rs src12 m l [= <- <-] _. reflexivity.
Qed.

End Extension.

(** *** Proper prefixes of a packed patch *)

Lemma truncated_rejected :
  forall (junk : Z) (p : pmeta) (path b : list Z) (k : nat),
    pmeta_ok p -> cstr_ok path -> path <> [] ->
    extract_ulp_from_so_to_mem (create_patch_metadata_file p) path = P_ok (Some b) ->
    bytes_ok b -> (k < length b)%nat ->
    ~ exists m, parse_metadata_from_mem junk (firstn k b) = P_ok m.
Proof.
  intros junk p path b k Hp Hc Hne Hx Hb Hk (m & Hm). unfold parse_metadata_from_mem in Hm.
  destruct (parse_metadata_raw junk (firstn k b)) as [| |c|[m' l]] eqn:E; try discriminate.
  injection Hm as ->.
  pose proof (parse_created p path junk b [] Hp Hc Hne Hx) as Hfull. rewrite app_nil_r in Hfull.
  assert (Hb' : bytes_ok (firstn k b)).
  { rewrite <- (firstn_skipn k b) in Hb. apply bytes_ok_app in Hb. tauto. }
  assert (Hs : length (skipn k b) <> 0%nat) by (rewrite skipn_length; lia).
  destruct (Z.eq_dec (md_type m) 2) as [Ht|Ht].
  - (* the type byte is the first byte of the file *)
    destruct k as [|k].
    { unfold parse_metadata_raw in E. destruct (read_int_nil 1 0 ltac:(lia)) as (v & Ev).
      cbn [firstn] in E. rewrite Ev in E. discriminate. }
    apply extract_some in Hx. destruct Hx as (-> & _).
    destruct Hp as ((Hid & _) & _). unfold create_patch_metadata_file in E at 1.
    rewrite (proj1 (header_split 1 (pm_id p) _ Hid)) in E.
    cbn [app firstn] in E. unfold parse_metadata_raw in E.
    match type of E with context [read_int 1 0 (1 :: ?r)] =>
      replace (read_int 1 0 (1 :: r)) with (1, 1, r) in E
        by (symmetry; change (1 :: r) with (le_enc 1 1 ++ r); apply read_int_app; simpl; lia) end.
    change (1 <? 1) with false in E. cbv iota beta zeta in E.
    revert E.
    match goal with |- context [read_from_mem 32 ?x] => destruct (read_from_mem 32 x) as [id s2] end.
    destruct (_ <? _); [discriminate|]. unfold read_name at 1.
    destruct (read_int 4 junk s2) as [[c1 n1] s3]. destruct (_ <? _); [discriminate|].
    destruct (read_from_mem c1 s3) as [g s4]. destruct (_ <? _); [discriminate|].
    destruct (_ <? _); [discriminate|]. destruct (cstr_z g); [discriminate|].
    destruct (read_int 4 c1 s4) as [[c2 n2] s5]. destruct (_ <? _); [discriminate|].
    destruct (read_from_mem c2 s5) as [bid s6]. destruct (_ <? _); [discriminate|].
    intros E.
    assert (Q : (fun r : pres (meta * list Z) => forall m l, r = P_ok (m, l) -> md_type m = 1) (P_ok (m, l))).
    { rewrite <- E. unfold read_name at 1.
      destruct (read_int 4 c2 s6) as [[c3 n3] s7]. destruct (_ <? _); [discriminate|].
      destruct (read_from_mem c3 s7) as [g' s8]. destruct (_ <? _); [discriminate|].
      destruct (_ <? _); [discriminate|]. change (1 =? 2) with false. cbv iota.
      destruct (read_int 4 0 s8) as [[nu n4] s9]. destruct (_ <? _); [discriminate|].
      assert (Hu : forall (Q : pres (meta * list Z) -> Prop) fuel j c src acc k,
        Q (P_err EINVALIDULP) -> Q P_UB -> Q P_fuel -> (forall us c' src', Q (k us c' src')) ->
        Q (parse_units fuel j c src acc k)).
      { clear. intros Q fuel. induction fuel as [|fuel IH]; intros j c src acc k He Hu Hf Hk;
          cbn [parse_units]; destruct (j <=? 0); auto.
        unfold read_name. destruct (read_int 4 c src) as [[c3 n3] s7]. destruct (_ <? _); auto.
        destruct (read_from_mem c3 s7) as [g' s8]. destruct (_ <? _); auto.
        destruct (_ <? _); auto. destruct (read_int 4 c3 s8) as [[c4 n4] s9]. destruct (_ <? _); auto.
        destruct (read_from_mem c4 s9) as [g s10]. destruct (_ <? _); auto.
        destruct (_ <? _); auto. destruct (read_int 8 0 s10) as [[a n5] s11]. destruct (_ <? _); auto. }
      apply Hu; [discriminate|discriminate|discriminate|]. intros us c' s10.
      destruct (read_int 4 c' s10) as [[nd n5] s11]. destruct (_ <? _); [discriminate|].
      assert (Hd : forall (Q : pres (meta * list Z) -> Prop) fuel j src acc k,
        Q (P_err EINVALIDULP) -> Q P_fuel -> (forall us src', Q (k us src')) ->
        Q (parse_deps fuel j src acc k)).
      { clear. intros Q fuel. induction fuel as [|fuel IH]; intros j src acc k He Hf Hk;
          cbn [parse_deps]; destruct (j <=? 0); auto.
        destruct (read_from_mem 32 src) as [g' s8]. destruct (_ <? _); auto. }
      apply Hd; [discriminate|discriminate|]. intros ds s12.
      destruct (read_int 4 0 s12) as [[nr n6] s13]. destruct (_ <? _); [discriminate|].
      assert (Hr : forall (Q : pres (meta * list Z) -> Prop) fuel j c src acc k,
        Q (P_err EINVALIDULP) -> Q P_fuel -> (forall us src', Q (k us src')) ->
        Q (parse_refs fuel j c src acc k)).
      { clear. intros Q fuel. induction fuel as [|fuel IH]; intros j c src acc k He Hf Hk;
          cbn [parse_refs]; destruct (j <=? 0); auto.
        unfold read_rname. destruct (read_int 4 c src) as [[c3 n3] s7]. destruct (_ <? _); auto.
        destruct (read_from_mem c3 s7) as [g' s8]. destruct (_ <? _); auto.
        destruct (read_int 4 c3 s8) as [[c4 n4] s9]. destruct (_ <? _); auto.
        destruct (read_from_mem c4 s9) as [g s10]. destruct (_ <? _); auto.
        destruct (read_int 8 0 s10) as [[a n5] s11]. destruct (_ <? _); auto.
        destruct (read_int 8 0 s11) as [[a' n6] s12]. destruct (_ <? _); auto.
        destruct (read_int 1 0 s12) as [[a'' n7] s13]. destruct (_ <? _); auto. }
      apply Hr; [discriminate|discriminate|]. intros rs s14 m9 l9 [= <- _]. reflexivity. }
    specialize (Q m l eq_refl). lia.
  - pose proof (parse_mono (skipn k b) junk (firstn k b) Hb' m l E Ht) as Hx2.
    rewrite firstn_skipn in Hx2. rewrite Hfull in Hx2. injection Hx2 as _ Hl.
    apply (f_equal (@length Z)) in Hl. rewrite app_length in Hl. simpl in Hl. lia.
Qed.
