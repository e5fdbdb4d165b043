(** Proofs about the heap of a request. *)
From Coq Require Import Permutation.
From Verif Require Import Base BaseFacts MetaModel InsnQModel LibModel HeapModel HeapSpec.

(** ** Counting blocks *)
Definition cnt (b : nat) (l : list nat) : nat := count_occ Nat.eq_dec l b.
Definition one (a b : nat) : nat := if Nat.eq_dec a b then 1%nat else 0%nat.

Lemma cnt_nil b : cnt b [] = 0%nat. Proof. reflexivity. Qed.
Lemma cnt_cons b a l : cnt b (a :: l) = (one a b + cnt b l)%nat.
Proof. unfold cnt, one. cbn [count_occ]. destruct (Nat.eq_dec a b); reflexivity. Qed.
Lemma cnt_app b l l' : cnt b (l ++ l') = (cnt b l + cnt b l')%nat.
Proof. apply count_occ_app. Qed.
Lemma cnt_in b l : (0 < cnt b l)%nat <-> In b l.
Proof. symmetry. apply count_occ_In. Qed.
Lemma one_same a : one a a = 1%nat. Proof. unfold one. destruct (Nat.eq_dec a a); [reflexivity|contradiction]. Qed.
Lemma one_neq a b : a <> b -> one a b = 0%nat. Proof. unfold one. destruct (Nat.eq_dec a b); [contradiction|reflexivity]. Qed.
Lemma one_le a b : (one a b <= 1)%nat. Proof. unfold one. destruct (Nat.eq_dec a b); lia. Qed.

Definition opt_l (p : option nat) : list nat := match p with Some b => [b] | None => [] end.
Definition unit_l (u : hunit) : list nat := opt_l (hu_old u) ++ opt_l (hu_new u) ++ [hu_self u].
Definition ref_l (r : href) : list nat := opt_l (hr_target r) ++ opt_l (hr_name r) ++ [hr_self r].
Definition obj_l (o : hobj) : list nat :=
  flat_map unit_l (ho_units o) ++ opt_l (ho_name o) ++ opt_l (ho_bid o) ++ [ho_self o].
Definition obj_opt (o : option hobj) : list nat := match o with Some o => obj_l o | None => [] end.
(** The blocks that free_metadata frees, in its order, and all blocks. *)
Definition freed (hm : hmeta) : list nat :=
  opt_l (hm_so hm) ++ flat_map ref_l (hm_refs hm) ++ obj_opt (hm_obj hm).
Definition blocks (hm : hmeta) : list nat := hm_self hm :: hm_deps hm ++ freed hm.

Lemma flat_map_snoc {A B} (f : A -> list B) l a : flat_map f (l ++ [a]) = flat_map f l ++ f a.
Proof. rewrite flat_map_app. cbn. rewrite app_nil_r. reflexivity. Qed.

Definition free_list (l : list nat) (x : hctx) : hctx := fold_left (fun x b => free b x) l x.

Lemma free_list_app l l' x : free_list (l ++ l') x = free_list l' (free_list l x).
Proof. apply fold_left_app. Qed.
Lemma free_opt_list p x : free_opt p x = free_list (opt_l p) x.
Proof. destruct p; reflexivity. Qed.

Lemma free_refs_list l : forall x,
  fold_left (fun x r => free (hr_self r) (free_opt (hr_name r) (free_opt (hr_target r) x))) l x =
  free_list (flat_map ref_l l) x.
Proof.
  induction l as [|r l IH]; intros x; [reflexivity|]. cbn [fold_left flat_map]. rewrite IH.
  unfold ref_l at 2. rewrite !free_list_app, !free_opt_list. reflexivity.
Qed.
Lemma free_units_list l : forall x,
  fold_left (fun x u => free (hu_self u) (free_opt (hu_new u) (free_opt (hu_old u) x))) l x =
  free_list (flat_map unit_l l) x.
Proof.
  induction l as [|r l IH]; intros x; [reflexivity|]. cbn [fold_left flat_map]. rewrite IH.
  unfold unit_l at 2. rewrite !free_list_app, !free_opt_list. reflexivity.
Qed.

Lemma free_metadata_list hm x : free_metadata hm x = free_list (freed hm) x.
Proof.
  unfold free_metadata, freed. rewrite !free_list_app, free_opt_list, free_refs_list.
  destruct (hm_obj hm) as [o|]; [|reflexivity]. cbn [obj_opt]. unfold obj_l.
  rewrite !free_list_app, free_units_list, !free_opt_list. reflexivity.
Qed.

Lemma free_one b x : (cnt b (x_live x) = 1)%nat ->
  x_n (free b x) = x_n x /\ x_bad (free b x) = x_bad x /\ x_handles (free b x) = x_handles x /\
  forall b', (cnt b' (x_live (free b x)) + one b b' = cnt b' (x_live x))%nat.
Proof.
  intros C. unfold free. assert (I : existsb (Nat.eqb b) (x_live x) = true).
  { apply existsb_exists. exists b. split; [apply cnt_in; lia|apply Nat.eqb_refl]. }
  rewrite I. cbn [x_n x_bad x_handles x_live]. repeat (split; [reflexivity|]). intros b'.
  revert C. generalize (x_live x). intros l.
  assert (G : forall l, (cnt b' (filter (fun y => negb (Nat.eqb b y)) l) =
                         if Nat.eq_dec b b' then 0 else cnt b' l)%nat).
  { clear. induction l as [|a l IH]; [cbn; destruct (Nat.eq_dec b b'); reflexivity|].
    cbn [filter]. destruct (Nat.eqb_spec b a) as [->|N]; cbn [negb].
    - rewrite IH, cnt_cons. destruct (Nat.eq_dec a b'); [reflexivity|]. rewrite one_neq by assumption. reflexivity.
    - rewrite !cnt_cons, IH. destruct (Nat.eq_dec b b') as [->|]; [|reflexivity]. rewrite one_neq by congruence. reflexivity. }
  intros C. rewrite G. destruct (Nat.eq_dec b b') as [<-|N].
  - rewrite one_same. lia.
  - rewrite one_neq by exact N. lia.
Qed.

Lemma free_all l : forall x,
  (forall b, (cnt b l <= cnt b (x_live x) <= 1)%nat) ->
  x_n (free_list l x) = x_n x /\ x_bad (free_list l x) = x_bad x /\ x_handles (free_list l x) = x_handles x /\
  forall b, (cnt b (x_live (free_list l x)) + cnt b l = cnt b (x_live x))%nat.
Proof.
  induction l as [|a l IH]; intros x C.
  - repeat (split; [reflexivity|]). intros b. rewrite cnt_nil. cbn [free_list fold_left]. lia.
  - change (free_list (a :: l) x) with (free_list l (free a x)).
    assert (A : cnt a (x_live x) = 1%nat).
    { specialize (C a). rewrite cnt_cons, one_same in C. lia. }
    destruct (free_one a x A) as (N & B & HH & F).
    destruct (IH (free a x)) as (N' & B' & HH' & F').
    { intros b. specialize (C b). specialize (F b). rewrite cnt_cons in C. lia. }
    rewrite N', B', HH', N, B, HH. repeat (split; [reflexivity|]). intros b.
    specialize (F b). specialize (F' b). rewrite cnt_cons. lia.
Qed.

(** ** The parser *)
Section Parser.
  Variable alloc : nat -> bool.
  Variable x0 : hctx.

  (** Relative to [x0]: what is in use is what was, the structure, and [lost]. *)
  Record inv (hm : hmeta) (lost : list nat) (x : hctx) : Prop := mk_inv {
    iv_cnt : forall b, cnt b (x_live x) = (cnt b (blocks hm) + cnt b lost + cnt b (x_live x0))%nat;
    iv_one : forall b, (cnt b (x_live x) <= 1)%nat;
    iv_new : forall b, (0 < cnt b (x_live x))%nat -> (b < x_n x)%nat;
    iv_mine : forall b, (0 < cnt b (blocks hm) + cnt b lost)%nat -> (x_n x0 <= b)%nat;
    iv_bad : x_bad x = x_bad x0;
    iv_handles : x_handles x = x_handles x0;
    iv_le : (x_n x0 <= x_n x)%nat
  }.
  Definition no_fail (x : hctx) : Prop := forall n, (x_n x0 <= n < x_n x)%nat -> alloc n = true.

  Definition code_ok (c : Z) : Prop := c = 1 \/ c = EINVALIDULP \/ c = ENOMEM.

  Definition good (len : Z) (r : hres) : Prop :=
    match r with
    | H_UB => True
    | H_fuel => True
    | H_end (inl c) hm x =>
        exists lost, inv hm lost x /\ (length lost <= 3)%nat /\ code_ok c /\
          (no_fail x \/ c <> 1) /\ 32 * zlen (hm_deps hm) <= len
    | H_end (inr md) hm x => inv hm [] x /\ no_fail x /\ zlen (hm_deps hm) = zlen (md_deps md) /\
          32 * zlen (hm_deps hm) <= len
    end.

  Lemma calloc_some hm lost x b x1 : inv hm lost x -> no_fail x -> calloc alloc x = (Some b, x1) ->
    inv hm (b :: lost) x1 /\ no_fail x1.
  Proof.
    intros I NF. unfold calloc. destruct (alloc (x_n x)) eqn:A; [|discriminate]. intros E. injection E as <- <-.
    destruct I as [C1 C2 C3 C4 C5 C6 C7].
    assert (Z0 : cnt (x_n x) (x_live x) = 0%nat).
    { destruct (cnt (x_n x) (x_live x)) eqn:Q; [reflexivity|]. specialize (C3 (x_n x)). lia. }
    split; [constructor|]; cbn [x_n x_live x_bad x_handles].
    - intros b. rewrite !cnt_cons, C1. lia.
    - intros b. rewrite cnt_cons. destruct (Nat.eq_dec (x_n x) b) as [<-|N].
      + rewrite one_same, Z0. lia.
      + rewrite one_neq by exact N. apply C2.
    - intros b. rewrite cnt_cons. destruct (Nat.eq_dec (x_n x) b) as [<-|N]; [lia|].
      rewrite one_neq by exact N. intros Q. specialize (C3 b). lia.
    - intros b. rewrite cnt_cons. destruct (Nat.eq_dec (x_n x) b) as [<-|N]; [lia|].
      rewrite one_neq by exact N. intros Q. apply C4. lia.
    - exact C5.
    - exact C6.
    - lia.
    - intros n B. cbn [x_n] in B. destruct (Nat.eq_dec n (x_n x)) as [->|N]; [exact A|]. apply NF. lia.
  Qed.

  Lemma calloc_none hm lost x x1 : inv hm lost x -> calloc alloc x = (None, x1) -> inv hm lost x1.
  Proof.
    intros I. unfold calloc. destruct (alloc (x_n x)) eqn:A; [discriminate|]. intros E. injection E as <-.
    destruct I as [C1 C2 C3 C4 C5 C6 C7].
    constructor; cbn [x_n x_live x_bad x_handles]; auto. intros b Q. specialize (C3 b Q). lia.
  Qed.

  Lemma inv_ext hm lost hm' lost' x :
    (forall b, (cnt b (blocks hm') + cnt b lost' = cnt b (blocks hm) + cnt b lost)%nat) ->
    inv hm lost x -> inv hm' lost' x.
  Proof.
    intros E [C1 C2 C3 C4 C5 C6 C7]. constructor; auto.
    - intros b. rewrite C1, E. reflexivity.
    - intros b Q. apply C4. rewrite <- E. exact Q.
  Qed.

  Lemma bad_end len c hm lost x : inv hm lost x -> (length lost <= 3)%nat -> code_ok c -> no_fail x \/ c <> 1 ->
    32 * zlen (hm_deps hm) <= len ->
    good len (H_end (inl c) hm x).
  Proof. intros. exists lost. auto. Qed.

  Ltac be L := apply (bad_end _ _ _ L);
    [try assumption | try (cbn [length]; lia)
    | first [left; reflexivity | right; left; reflexivity | right; right; reflexivity]
    | first [left; assumption | right; discriminate] | try assumption].

  Lemma hread_name_good len c src hm0 set x lost k :
    inv hm0 lost x -> no_fail x -> (length lost <= 2)%nat -> 32 * zlen (hm_deps hm0) <= len ->
    (forall b x1, inv hm0 (b :: lost) x1 ->
       exists lost', inv (set b) lost' x1 /\ (length lost' <= 3)%nat /\ hm_deps (set b) = hm_deps hm0) ->
    (forall s c' src2 b x1, inv hm0 (b :: lost) x1 -> no_fail x1 -> (length src2 <= length src)%nat -> good len (k s c' src2 b x1)) ->
    good len (hread_name alloc c src hm0 set x k).
  Proof.
    intros I NF LL D S K. unfold hread_name.
    destruct (read_int 4 c src) as [[c' n] src1] eqn:RI.
    assert (L1 : (length src1 <= length src)%nat).
    { unfold read_int, read_from_mem in RI. injection RI as _ _ <-. rewrite skipn_length. lia. }
    destruct (n <? 1).
    - be lost.
    - destruct (calloc alloc x) as [[b|] x1] eqn:CA.
      + destruct (calloc_some _ _ _ _ _ I NF CA) as [I1 NF1].
        destruct (read_from_mem c' src1) as [got src2] eqn:RM.
        assert (L2 : (length src2 <= length src)%nat).
        { unfold read_from_mem in RM. injection RM as _ <-. rewrite skipn_length. lia. }
        destruct (u32 (c' + 1) <? zlen got); [exact Logic.I|].
        destruct (zlen got <? c').
        * destruct (S b x1 I1) as (lost' & I' & LL' & DD). be lost'. rewrite DD. exact D.
        * apply K; assumption.
      + be lost. exact (calloc_none _ _ _ _ I CA).
  Qed.

  Lemma hread_rname_good len c src hm x lost k :
    inv hm lost x -> no_fail x -> (length lost <= 2)%nat -> 32 * zlen (hm_deps hm) <= len ->
    (forall s c' src2 b x1, inv hm (b :: lost) x1 -> no_fail x1 -> good len (k s c' src2 b x1)) ->
    good len (hread_rname alloc c src hm x k).
  Proof.
    intros I NF LL D K. unfold hread_rname.
    destruct (read_int 4 c src) as [[c' n] src1]. destruct (n <? 4).
    - be lost.
    - destruct (calloc alloc x) as [[b|] x1] eqn:CA.
      + destruct (calloc_some _ _ _ _ _ I NF CA) as [I1 NF1].
        destruct (read_from_mem c' src1) as [got src2]. destruct (zlen got <? c').
        * be (b :: lost).
        * apply K; assumption.
      + be lost. exact (calloc_none _ _ _ _ I CA).
  Qed.

  Lemma hparse_units_good len k : forall fuel j c src acc hm o x,
    inv (set_obj hm o) [] x -> no_fail x -> 32 * zlen (hm_deps hm) <= len ->
    (forall us c' src' o' x', inv (set_obj hm o') [] x' -> no_fail x' -> (length src' <= length src)%nat ->
       good len (k us c' src' (set_obj hm o') x')) ->
    good len (hparse_units alloc fuel j c src acc hm o x k).
  Proof.
    induction fuel as [|f IH]; intros j c src acc hm o x I NF D K; cbn [hparse_units];
      (destruct (j <=? 0); [apply K; [exact I|exact NF|lia]|]); [exact Logic.I|].
    destruct (calloc alloc x) as [[u|] x1] eqn:CA.
    - destruct (calloc_some _ _ _ _ _ I NF CA) as [I1 NF1].
      apply (hread_name_good len c src _ _ x1 [u]); auto.
      { intros b x2 I2. exists [b; u]. split; [exact I2|]. split; [cbn; lia|reflexivity]. }
      intros s c1 src1 b1 x2 I2 NF2 L1.
      apply (hread_name_good len c1 src1 _ _ x2 [b1; u]); auto.
      { intros b x3 I3. exists [b; b1; u]. split; [exact I3|]. split; [cbn; lia|reflexivity]. }
      intros s2 c2 src2 b2 x3 I3 NF3 L2.
      destruct (read_int 8 0 src2) as [[addr n] src3] eqn:RI.
      assert (L3 : (length src3 <= length src2)%nat).
      { unfold read_int, read_from_mem in RI. injection RI as _ _ <-. rewrite skipn_length. lia. }
      destruct (n <? 1).
      + be [b2; b1; u].
      + apply IH; auto.
        * revert I3. apply inv_ext. intros b. unfold blocks, freed, set_obj, obj_l.
          cbn [hm_self hm_deps hm_so hm_refs hm_obj obj_opt ho_units ho_name ho_bid ho_self].
          unfold obj_l. cbn [ho_units ho_name ho_bid ho_self]. rewrite flat_map_snoc. unfold unit_l at 2. cbn [hu_old hu_new hu_self opt_l].
          rewrite !cnt_cons, !cnt_app, !cnt_cons, !cnt_nil. lia.
        * intros us c' src' o' x' I' NF' L'. apply K; auto. lia.
    - be (@nil nat). exact (calloc_none _ _ _ _ I CA).
  Qed.

  Lemma hparse_deps_good len k : forall fuel j src acc hm x,
    inv hm [] x -> no_fail x -> 32 * zlen (hm_deps hm) + zlen src <= len -> zlen acc = zlen (hm_deps hm) ->
    (forall ds src' hm' x', inv hm' [] x' -> no_fail x' -> 32 * zlen (hm_deps hm') <= len ->
       zlen (hm_deps hm') = zlen ds -> good len (k ds src' hm' x')) ->
    good len (hparse_deps alloc fuel j src acc hm x k).
  Proof.
    induction fuel as [|f IH]; intros j src acc hm x I NF D A K; cbn [hparse_deps];
      (destruct (j <=? 0); [apply K; auto; [pose proof (zlen_nonneg src); lia|unfold zlen in *; rewrite rev_length; lia]|]);
      [exact Logic.I|].
    assert (D' : 32 * zlen (hm_deps hm) <= len) by (pose proof (zlen_nonneg src); lia).
    destruct (calloc alloc x) as [[d|] x1] eqn:CA.
    - destruct (calloc_some _ _ _ _ _ I NF CA) as [I1 NF1].
      destruct (read_from_mem 32 src) as [got src1] eqn:RM.
      destruct (Z.ltb_spec (zlen got) 32).
      + be [d].
      + assert (Q : zlen got + zlen src1 = zlen src).
        { unfold read_from_mem in RM. injection RM as <- <-. unfold zlen.
          rewrite firstn_length, skipn_length. lia. }
        assert (W : zlen (hm_deps hm ++ [d]) = zlen (hm_deps hm) + 1) by (unfold zlen; rewrite app_length; cbn [length]; lia).
        apply IH; auto.
        * revert I1. apply inv_ext. intros b. unfold blocks, freed, set_deps. cbn [hm_self hm_deps hm_so hm_refs hm_obj].
          rewrite !cnt_cons, !cnt_app, !cnt_cons, !cnt_nil. lia.
        * cbn [set_deps hm_deps]. lia.
        * cbn [set_deps hm_deps]. rewrite W, zlen_cons. lia.
    - be (@nil nat). exact (calloc_none _ _ _ _ I CA).
  Qed.

  Lemma hparse_refs_good len k : forall fuel j c src acc hm x,
    inv hm [] x -> no_fail x -> 32 * zlen (hm_deps hm) <= len ->
    (forall rs src' hm' x', inv hm' [] x' -> no_fail x' -> hm_deps hm' = hm_deps hm ->
       good len (k rs src' hm' x')) ->
    good len (hparse_refs alloc fuel j c src acc hm x k).
  Proof.
    induction fuel as [|f IH]; intros j c src acc hm x I NF D K; cbn [hparse_refs];
      (destruct (j <=? 0); [apply K; auto|]); [exact Logic.I|].
    destruct (calloc alloc x) as [[r|] x1] eqn:CA.
    - destruct (calloc_some _ _ _ _ _ I NF CA) as [I1 NF1].
      apply (hread_rname_good len c src hm x1 [r]); auto.
      intros s c1 src1 b1 x2 I2 NF2.
      apply (hread_rname_good len c1 src1 hm x2 [b1; r]); auto.
      intros s2 c2 src2 b2 x3 I3 NF3.
      destruct (read_int 8 0 src2) as [[toff n1] src3]. destruct (n1 <? 8); [apply (bad_end _ _ _ [b2; b1; r]); auto; right; left; reflexivity|].
      destruct (read_int 8 0 src3) as [[poff n2] src4]. destruct (n2 <? 8); [apply (bad_end _ _ _ [b2; b1; r]); auto; right; left; reflexivity|].
      destruct (read_int 1 0 src4) as [[tls n3] src5]. destruct (n3 <? 1); [apply (bad_end _ _ _ [b2; b1; r]); auto; right; left; reflexivity|].
      apply IH; auto.
      revert I3. apply inv_ext. intros b. unfold blocks, freed, set_refs. cbn [hm_self hm_deps hm_so hm_refs hm_obj].
      rewrite flat_map_snoc. unfold ref_l at 2. cbn [hr_target hr_name hr_self opt_l].
      rewrite !cnt_cons, !cnt_app, !cnt_cons, !cnt_nil. lia.
    - be (@nil nat). exact (calloc_none _ _ _ _ I CA).
  Qed.

  Ltac cntb := let q := fresh "q" in intros q; unfold blocks, freed, set_so, set_obj, set_deps, set_refs;
    cbn [hm_self hm_deps hm_so hm_refs hm_obj obj_opt]; unfold obj_l;
    cbn [ho_units ho_name ho_bid ho_self opt_l flat_map app];
    rewrite ?cnt_cons, ?cnt_app, ?cnt_cons, ?cnt_nil; lia.

  Lemma hparse_good junk src self x :
    inv (mk_hmeta self None None [] []) [] x -> no_fail x ->
    good (zlen src) (hparse alloc junk src (mk_hmeta self None None [] []) x).
  Proof.
    intros I NF. unfold hparse. set (hm := mk_hmeta self None None [] []) in *.
    assert (D0 : 32 * zlen (@nil nat) <= zlen src) by (pose proof (zlen_nonneg src); cbn; lia).
    destruct (read_int 1 0 src) as [[type n] src1] eqn:R1.
    assert (L1 : (length src1 <= length src)%nat).
    { unfold read_int, read_from_mem in R1. injection R1 as _ _ <-. rewrite skipn_length. lia. }
    destruct (n <? 1); [be (@nil nat)|].
    destruct (read_from_mem 32 src1) as [id src2] eqn:R2.
    assert (L2 : (length src2 <= length src)%nat).
    { unfold read_from_mem in R2. injection R2 as _ <-. rewrite skipn_length. lia. }
    destruct (zlen id <? 32); [be (@nil nat)|].
    apply (hread_name_good (zlen src) junk src2 hm (set_so hm) x []); [assumption|assumption|cbn; lia|exact D0| |].
    { intros b x1 I1. exists []. split; [|split; [cbn; lia|reflexivity]].
      revert I1. apply inv_ext. subst hm. cntb. }
    intros so c1 src3 b1 x1 I1 NF1 L3.
    assert (I1' : inv (set_so hm b1) [] x1) by (revert I1; apply inv_ext; subst hm; cntb).
    destruct so as [|so0 so]; [be (@nil nat)|].
    destruct (calloc alloc x1) as [[o|] x2] eqn:CA.
    2:{ be (@nil nat). exact (calloc_none _ _ _ _ I1' CA). }
    destruct (calloc_some _ _ _ _ _ I1' NF1 CA) as [I2 NF2].
    assert (I2' : inv (set_obj (set_so hm b1) (mk_hobj o None None [])) [] x2) by (revert I2; apply inv_ext; subst hm; cntb).
    destruct (read_int 4 c1 src3) as [[c2 n2] src4] eqn:R4.
    assert (L4 : (length src4 <= length src3)%nat).
    { unfold read_int, read_from_mem in R4. injection R4 as _ _ <-. rewrite skipn_length. lia. }
    destruct (n2 <? 1); [be (@nil nat)|].
    destruct (calloc alloc x2) as [[b2|] x3] eqn:CB.
    2:{ be (@nil nat). exact (calloc_none _ _ _ _ I2' CB). }
    destruct (calloc_some _ _ _ _ _ I2' NF2 CB) as [I3 NF3].
    assert (I3' : inv (set_obj (set_so hm b1) (mk_hobj o (Some b2) None [])) [] x3) by (revert I3; apply inv_ext; subst hm; cntb).
    destruct (read_from_mem c2 src4) as [bid src5] eqn:R5.
    assert (L5 : (length src5 <= length src4)%nat).
    { unfold read_from_mem in R5. injection R5 as _ <-. rewrite skipn_length. lia. }
    destruct (zlen bid <? c2); [be (@nil nat)|].
    apply (hread_name_good (zlen src) c2 src5 _ _ x3 []); [assumption|assumption|cbn; lia|exact D0| |].
    { intros b x4 I4. exists []. split; [|split; [cbn; lia|reflexivity]].
      revert I4. apply inv_ext. subst hm. cntb. }
    intros name c3 src6 b3 x4 I4 NF4 L6.
    assert (I4' : inv (set_obj (set_so hm b1) (mk_hobj o (Some b2) (Some b3) [])) [] x4) by (revert I4; apply inv_ext; subst hm; cntb).
    destruct (type =? 2).
    { split; [exact I4'|]. split; [exact NF4|]. split; [reflexivity|exact D0]. }
    destruct (read_int 4 0 src6) as [[nunits n4] src7] eqn:R7.
    assert (L7 : (length src7 <= length src6)%nat).
    { unfold read_int, read_from_mem in R7. injection R7 as _ _ <-. rewrite skipn_length. lia. }
    destruct (n4 <? 1); [be (@nil nat)|].
    apply hparse_units_good; auto.
    intros us c4 src8 o' x5 I5 NF5 L8.
    destruct (read_int 4 c4 src8) as [[ndeps n5] src9] eqn:R9.
    assert (L9 : (length src9 <= length src8)%nat).
    { unfold read_int, read_from_mem in R9. injection R9 as _ _ <-. rewrite skipn_length. lia. }
    destruct (n5 <? 1); [be (@nil nat)|].
    apply hparse_deps_good; auto.
    { cbn [set_obj set_so hm_deps hm]. unfold zlen. cbn [length]. lia. }
    intros ds src10 hm6 x6 I6 NF6 D6 A6.
    destruct (read_int 4 0 src10) as [[nrefs n6] src11].
    destruct (n6 <? 4); [be (@nil nat)|].
    apply hparse_refs_good; auto.
    intros rs src12 hm7 x7 I7 NF7 E7. split; [exact I7|]. split; [exact NF7|]. rewrite E7. auto.
  Qed.
End Parser.

(** ** Without failures the parser is that of MetaModel *)
Definition same {A} (h : hres) (p : pres (meta * A)) : Prop :=
  match h, p with
  | H_UB, P_UB => True
  | H_fuel, P_fuel => True
  | H_end (inl c) _ _, P_err c' => c = c'
  | H_end (inr m) _ _, P_ok (m', _) => m = m'
  | _, _ => False
  end.

Section Refine.
  Variable alloc : nat -> bool.
  Hypothesis ALL : forall n, alloc n = true.

  Lemma calloc_all x : calloc alloc x = (Some (x_n x), mk_hctx (S (x_n x)) (x_n x :: x_live x) (x_bad x) (x_handles x)).
  Proof. unfold calloc. rewrite ALL. reflexivity. Qed.

  Lemma read_name_same {A} c src hm set x k (k' : list Z -> Z -> list Z -> pres (meta * A)) :
    (forall s c' src' b x', same (k s c' src' b x') (k' s c' src')) ->
    same (hread_name alloc c src hm set x k) (read_name c src k').
  Proof.
    intros K. unfold hread_name, read_name. destruct (read_int 4 c src) as [[c' n] src1].
    destruct (n <? 1); [reflexivity|]. rewrite calloc_all. destruct (read_from_mem c' src1) as [got src2].
    destruct (_ <? zlen got); [exact I|]. destruct (zlen got <? c'); [reflexivity|apply K].
  Qed.

  Lemma read_rname_same {A} c src hm x k (k' : option (list Z) -> Z -> list Z -> pres (meta * A)) :
    (forall s c' src' b x', same (k s c' src' b x') (k' s c' src')) ->
    same (hread_rname alloc c src hm x k) (read_rname c src k').
  Proof.
    intros K. unfold hread_rname, read_rname. destruct (read_int 4 c src) as [[c' n] src1].
    destruct (n <? 4); [reflexivity|]. rewrite calloc_all. destruct (read_from_mem c' src1) as [got src2].
    destruct (zlen got <? c'); [reflexivity|apply K].
  Qed.

  Lemma parse_units_same {A} k (k' : list munit -> Z -> list Z -> pres (meta * A)) :
    forall fuel j c src acc hm o x,
    (forall us c' src' hm' x', same (k us c' src' hm' x') (k' us c' src')) ->
    same (hparse_units alloc fuel j c src acc hm o x k) (parse_units fuel j c src acc k').
  Proof.
    induction fuel as [|f IH]; intros j c src acc hm o x K; cbn [hparse_units parse_units];
      (destruct (j <=? 0); [apply K|]); [exact I|].
    rewrite calloc_all. apply read_name_same. intros s c1 src1 b1 x1. apply read_name_same.
    intros s2 c2 src2 b2 x2. destruct (read_int 8 0 src2) as [[addr n] src3]. destruct (n <? 1); [reflexivity|].
    apply IH, K.
  Qed.

  Lemma parse_deps_same {A} k (k' : list (list Z) -> list Z -> pres (meta * A)) :
    forall fuel j src acc hm x,
    (forall ds src' hm' x', same (k ds src' hm' x') (k' ds src')) ->
    same (hparse_deps alloc fuel j src acc hm x k) (parse_deps fuel j src acc k').
  Proof.
    induction fuel as [|f IH]; intros j src acc hm x K; cbn [hparse_deps parse_deps];
      (destruct (j <=? 0); [apply K|]); [exact I|].
    rewrite calloc_all. destruct (read_from_mem 32 src) as [got src1]. destruct (zlen got <? 32); [reflexivity|].
    apply IH, K.
  Qed.

  Lemma parse_refs_same {A} k (k' : list mref -> list Z -> pres (meta * A)) :
    forall fuel j c src acc hm x,
    (forall rs src' hm' x', same (k rs src' hm' x') (k' rs src')) ->
    same (hparse_refs alloc fuel j c src acc hm x k) (parse_refs fuel j c src acc k').
  Proof.
    induction fuel as [|f IH]; intros j c src acc hm x K; cbn [hparse_refs parse_refs];
      (destruct (j <=? 0); [apply K|]); [exact I|].
    rewrite calloc_all. apply read_rname_same. intros s c1 src1 b1 x1. apply read_rname_same.
    intros s2 c2 src2 b2 x2. destruct (read_int 8 0 src2) as [[toff n1] src3]. destruct (n1 <? 8); [reflexivity|].
    destruct (read_int 8 0 src3) as [[poff n2] src4]. destruct (n2 <? 8); [reflexivity|].
    destruct (read_int 1 0 src4) as [[tls n3] src5]. destruct (n3 <? 1); [reflexivity|].
    apply IH, K.
  Qed.

  Lemma parse_same junk src hm x : same (hparse alloc junk src hm x) (parse_metadata_raw junk src).
  Proof.
    unfold hparse, parse_metadata_raw. destruct (read_int 1 0 src) as [[type n] src1].
    destruct (n <? 1); [reflexivity|]. destruct (read_from_mem 32 src1) as [id src2].
    destruct (zlen id <? 32); [reflexivity|]. apply read_name_same. intros so c1 src3 b1 x1.
    destruct so as [|s0 so]; [reflexivity|]. rewrite calloc_all.
    destruct (read_int 4 c1 src3) as [[c2 n2] src4]. destruct (n2 <? 1); [reflexivity|]. rewrite calloc_all.
    destruct (read_from_mem c2 src4) as [bid src5]. destruct (zlen bid <? c2); [reflexivity|].
    apply read_name_same. intros name c3 src6 b3 x4. destruct (type =? 2); [reflexivity|].
    destruct (read_int 4 0 src6) as [[nunits n4] src7]. destruct (n4 <? 1); [reflexivity|].
    apply parse_units_same. intros us c4 src8 hm5 x5.
    destruct (read_int 4 c4 src8) as [[ndeps n5] src9]. destruct (n5 <? 1); [reflexivity|].
    apply parse_deps_same. intros ds src10 hm6 x6.
    destruct (read_int 4 0 src10) as [[nrefs n6] src11]. destruct (n6 <? 4); [reflexivity|].
    apply parse_refs_same. intros rs src12 hm7 x7. reflexivity.
  Qed.

  Lemma load_same e m junk buf st x :
    match hload_patch alloc e m junk buf st x, load_patch e m junk buf st with
    | Some (st', r, _), Some (st'', r') => st' = st'' /\ r = r'
    | None, None => True
    | _, _ => False
    end.
  Proof.
    unfold hload_patch, load_patch, parse_metadata_from_mem. rewrite calloc_all.
    match goal with |- context [hparse alloc junk buf ?h ?y] => pose proof (parse_same junk buf h y) as S end.
    destruct (hparse alloc junk buf _ _) as [| |[c|md] hm x2], (parse_metadata_raw junk buf) as [| |c'|[md' s']];
      cbn [same] in S; try contradiction; try exact I.
    - subst c'. auto.
    - subst md'. destruct (md_type md =? 2).
      + destruct (negb _); [auto|]. destruct (ulp_revert_patch m (md_id md) st). auto.
      + destruct (check_patch_sanity e md st) as [ret|]; [|exact I].
        destruct (negb (ret =? 0)); [auto|]. destruct (_ =? 0); [auto|].
        destruct (md_type md =? 1).
        * destruct (ulp_state_update _ _ _ _ _) as [st1|]; [|auto].
          destruct (ulp_apply_all_units _ _ _ _ _) as [[st2 ret2]|]; [|exact I].
          destruct (negb (ret2 =? 0)); auto.
        * destruct (md_type md =? 0); auto.
  Qed.
End Refine.

(** ** One request *)

Lemma first_block alloc x self x1 : in_order x -> calloc alloc x = (Some self, x1) ->
  inv x (mk_hmeta self None None [] []) [] x1 /\ no_fail alloc x x1.
Proof.
  intros (ND & LT & B). unfold calloc. destruct (alloc (x_n x)) eqn:A; [|discriminate]. intros E. injection E as <- <-.
  assert (Z0 : cnt (x_n x) (x_live x) = 0%nat).
  { destruct (cnt (x_n x) (x_live x)) eqn:Q; [reflexivity|].
    assert (I : In (x_n x) (x_live x)) by (apply cnt_in; lia). apply LT in I. lia. }
  assert (U : forall b, (cnt b (x_live x) <= 1)%nat).
  { intros b. apply (proj1 (NoDup_count_occ Nat.eq_dec (x_live x)) ND). }
  split; [constructor|]; cbn [x_n x_live x_bad x_handles].
  - intros b. unfold blocks, freed. cbn [hm_self hm_deps hm_so hm_refs hm_obj obj_opt opt_l flat_map app].
    rewrite !cnt_cons, !cnt_nil. lia.
  - intros b. rewrite cnt_cons. destruct (Nat.eq_dec (x_n x) b) as [<-|N].
    + rewrite one_same, Z0. lia.
    + rewrite one_neq by exact N. apply U.
  - intros b. rewrite cnt_cons. destruct (Nat.eq_dec (x_n x) b) as [<-|N]; [lia|].
    rewrite one_neq by exact N. intros Q. assert (I : In b (x_live x)) by (apply cnt_in; lia). apply LT in I. lia.
  - intros b. unfold blocks, freed. cbn [hm_self hm_deps hm_so hm_refs hm_obj obj_opt opt_l flat_map app].
    rewrite !cnt_cons, !cnt_nil. destruct (Nat.eq_dec (x_n x) b) as [<-|N]; [lia|]. rewrite one_neq by exact N. lia.
  - reflexivity.
  - reflexivity.
  - lia.
  - intros n Q. cbn [x_n] in Q. replace n with (x_n x) by lia. exact A.
Qed.

Lemma finish x hm lost x2 x3 : in_order x -> inv x hm lost x2 ->
  x_live x3 = x_live x2 -> x_n x3 = x_n x2 -> x_bad x3 = x_bad x2 ->
  in_order (free_metadata hm x3) /\ keeps x (free_metadata hm x3) (hm_self hm :: hm_deps hm ++ lost) /\
  x_n (free_metadata hm x3) = x_n x2 /\ x_handles (free_metadata hm x3) = x_handles x3.
Proof.
  intros (ND & LT & B) [C1 C2 C3 C4 C5 C6 C7] L N BA. rewrite free_metadata_list.
  assert (P : forall b, (cnt b (freed hm) <= cnt b (x_live x3) <= 1)%nat).
  { intros b. rewrite L. split; [|apply C2]. rewrite C1. unfold blocks. rewrite cnt_cons, cnt_app. lia. }
  destruct (free_all (freed hm) x3 P) as (N' & B' & H' & F).
  assert (G : forall b, cnt b (x_live (free_list (freed hm) x3)) =
     (cnt b (hm_self hm :: hm_deps hm ++ lost) + cnt b (x_live x))%nat).
  { intros b. specialize (F b). rewrite L, C1 in F. unfold blocks in F. rewrite !cnt_cons, !cnt_app in *. lia. }
  split; [|split; [|split; [congruence|exact H']]].
  - split; [|split].
    + apply (NoDup_count_occ Nat.eq_dec). intros b. change (cnt b (x_live (free_list (freed hm) x3)) <= 1)%nat.
      specialize (F b). specialize (P b). lia.
    + intros b I. apply cnt_in in I. rewrite N', N. apply C3. specialize (F b). rewrite L in F. lia.
    + rewrite B', BA, C5. exact B.
  - split.
    + apply (Permutation_count_occ Nat.eq_dec). intros b. change (cnt b (x_live (free_list (freed hm) x3)) = cnt b ((hm_self hm :: hm_deps hm ++ lost) ++ x_live x)).
      rewrite G, cnt_app. reflexivity.
    + split; [rewrite N', N; exact C7|]. intros b I. apply cnt_in in I. rewrite N', N.
      assert (Q : (0 < cnt b (blocks hm) + cnt b lost)%nat).
      { unfold blocks. rewrite !cnt_cons, !cnt_app in *. lia. }
      split; [apply C4, Q|]. apply C3. rewrite C1. lia.
Qed.

(** Everything about one request. *)
Definition outcome_ok (alloc : nat -> bool) (e : dlenv) (junk : Z) (buf : list Z) (st : lstate) (x : hctx)
    (st' : lstate) (r : Z) (x' : hctx) : Prop :=
  in_order x' /\
  exists kept, keeps x x' kept /\
    ((ran_out alloc x x' /\ st' = st /\ (r = EINVALIDULP \/ r = ENOMEM) /\ x_handles x' = x_handles x /\
        zlen kept <= 4 + zlen buf / 32) \/
     (~ ran_out alloc x x' /\
        ((st' = st /\ r <> 0 /\ x_handles x' = x_handles x /\ 1 <= zlen kept <= 4 + zlen buf / 32 /\
            ((forall n, alloc n = true) -> parse_metadata_from_mem junk buf = P_err r)) \/
         (exists md, ((forall n, alloc n = true) -> parse_metadata_from_mem junk buf = P_ok md) /\
            (x_handles x' = x_handles x \/ (exists h, h <> 0 /\ h = e_dlopen e (md_so md) /\ x_handles x' = h :: x_handles x)) /\
            zlen kept = 1 + zlen (md_deps md) /\ zlen kept <= 4 + zlen buf / 32)))).

Lemma x_no_run alloc x x2 x' : no_fail alloc x x2 -> x_n x' = x_n x2 -> ~ ran_out alloc x x'.
Proof. intros NF E (n & B & F). rewrite E in B. rewrite (NF n B) in F. discriminate. Qed.

Lemma ran_dec alloc x x' : (ran_out alloc x x') \/ (no_fail alloc x x').
Proof.
  unfold ran_out, no_fail. generalize (x_n x'). intros n. induction n as [|n IH].
  - right. intros m B. lia.
  - destruct IH as [(m & B & F)|NF]; [left; exists m; split; [lia|exact F]|].
    destruct (le_lt_dec (x_n x) n) as [L|L].
    + destruct (alloc n) eqn:A; [right|left; exists n; split; [lia|exact A]].
      intros m B. destruct (Nat.eq_dec m n) as [->|]; [exact A|apply NF; lia].
    + right. intros m B. lia.
Qed.

Lemma request_ok alloc e m junk buf st x st' r x' : in_order x ->
  hload_patch alloc e m junk buf st x = Some (st', r, x') ->
  outcome_ok alloc e junk buf st x st' r x'.
Proof.
  intros OK. unfold hload_patch. destruct (calloc alloc x) as [[self|] x1] eqn:CA.
  - destruct (first_block alloc x self x1 OK CA) as [I1 NF1].
    pose proof (hparse_good alloc x junk buf self x1 I1 NF1) as G.
    assert (S0 : forall kept, 32 * kept <= zlen buf -> kept <= zlen buf / 32).
    { intros kept Q. apply Z.div_le_lower_bound; lia. }
    assert (PS : (forall n, alloc n = true) -> same (hparse alloc junk buf (mk_hmeta self None None [] []) x1) (parse_metadata_raw junk buf))
      by (intros ALL; apply parse_same, ALL).
    destruct (hparse alloc junk buf _ x1) as [| |[c|md] hm x2]; cbn [good] in G; try discriminate.
    + assert (PE : (forall n, alloc n = true) -> parse_metadata_from_mem junk buf = P_err c).
      { intros ALL. specialize (PS ALL). unfold parse_metadata_from_mem.
        destruct (parse_metadata_raw junk buf) as [| |c'|[md' s']]; cbn [same] in PS; try contradiction. subst. reflexivity. }
      destruct G as (lost & I2 & LL & CO & NFC & DD). intros E. injection E as <- <- <-.
      destruct (finish x hm lost x2 x2 OK I2 eq_refl eq_refl eq_refl) as (O & KE & N & HH).
      split; [exact O|]. exists (hm_self hm :: hm_deps hm ++ lost). split; [exact KE|].
      assert (KL : zlen (hm_self hm :: hm_deps hm ++ lost) <= 4 + zlen buf / 32).
      { apply S0 in DD. rewrite zlen_cons. unfold zlen in *. rewrite app_length. lia. }
      assert (K1 : 1 <= zlen (hm_self hm :: hm_deps hm ++ lost)) by (rewrite zlen_cons; pose proof (zlen_nonneg (hm_deps hm ++ lost)); lia).
      assert (HX : x_handles (free_metadata hm x2) = x_handles x) by (rewrite HH; apply (iv_handles _ _ _ _ I2)).
      destruct (ran_dec alloc x x2) as [RO|NF].
      * left. split; [unfold ran_out in *; rewrite N; exact RO|]. split; [reflexivity|].
        split; [|auto]. destruct NFC as [NF|NC].
        -- exfalso. exact (x_no_run alloc x x2 x2 NF eq_refl RO).
        -- destruct CO as [->|[->| ->]]; [contradiction NC; reflexivity|auto|auto].
      * right. split; [exact (x_no_run alloc x x2 _ NF N)|]. left. split; [reflexivity|]. split; [|auto].
        clear PE. destruct CO as [->|[->| ->]]; discriminate.
    + assert (PE : (forall n, alloc n = true) -> parse_metadata_from_mem junk buf = P_ok md).
      { intros ALL. specialize (PS ALL). unfold parse_metadata_from_mem.
        destruct (parse_metadata_raw junk buf) as [| |c'|[md' s']]; cbn [same] in PS; try contradiction. subst. reflexivity. }
      destruct G as (I2 & NF & DE & DD).
      assert (KL : zlen (hm_self hm :: hm_deps hm ++ []) = 1 + zlen (md_deps md)).
      { rewrite app_nil_r, zlen_cons. lia. }
      assert (KB : zlen (hm_self hm :: hm_deps hm ++ []) <= 4 + zlen buf / 32).
      { apply S0 in DD. lia. }
      destruct (finish x hm [] x2 x2 OK I2 eq_refl eq_refl eq_refl) as (O & KE & N & HH).
      assert (HX : x_handles (free_metadata hm x2) = x_handles x) by (rewrite HH; apply (iv_handles _ _ _ _ I2)).
      assert (A : forall st' r, outcome_ok alloc e junk buf st x st' r (free_metadata hm x2)).
      { intros st1 r1. split; [exact O|]. eexists. split; [exact KE|]. right.
        split; [exact (x_no_run alloc x x2 _ NF N)|]. right. exists md. auto. }
      set (h := e_dlopen e (md_so md)) in *.
      destruct (finish x hm [] x2 (opened h x2) OK I2 eq_refl eq_refl eq_refl) as (O' & KE' & N' & HH').
      assert (B : h <> 0 -> forall st' r, outcome_ok alloc e junk buf st x st' r (free_metadata hm (opened h x2))).
      { intros NZ st1 r1. split; [exact O'|]. eexists. split; [exact KE'|]. right.
        split; [exact (x_no_run alloc x x2 _ NF N')|]. right. exists md. split; [exact PE|]. split; [|auto]. right. exists h.
        split; [exact NZ|]. split; [reflexivity|]. rewrite HH'. cbn [opened x_handles]. rewrite (iv_handles _ _ _ _ I2). reflexivity. }
      destruct (md_type md =? 2).
      * destruct (negb _); [intros E; injection E as <- <- <-; apply A|].
        destruct (ulp_revert_patch m (md_id md) st) as [st1 r1]. intros E; injection E as <- <- <-; apply A.
      * destruct (check_patch_sanity e md st) as [ret|]; [|discriminate].
        destruct (negb (ret =? 0)); [intros E; injection E as <- <- <-; apply A|].
        destruct (Z.eqb_spec h 0) as [Q|Q]; [intros E; injection E as <- <- <-; apply A|].
        destruct (md_type md =? 1).
        -- destruct (ulp_state_update e m h md st) as [st1|]; [|intros E; injection E as <- <- <-; apply B; exact Q].
           destruct (ulp_apply_all_units e m h md st1) as [[st2 ret2]|]; [|discriminate].
           destruct (negb (ret2 =? 0)); intros E; injection E as <- <- <-; apply B; exact Q.
        -- destruct (md_type md =? 0); intros E; injection E as <- <- <-; apply B; exact Q.
  - unfold calloc in CA. destruct (alloc (x_n x)) eqn:AL; [discriminate|]. injection CA as <-.
    intros E. injection E as <- <- <-. destruct OK as (ND & LT & BD).
    split.
    + split; [exact ND|]. split; [|exact BD]. intros b I. cbn [x_n]. specialize (LT b I). lia.
    + exists []. split.
      * split; [apply Permutation_refl|]. split; [cbn [x_n]; lia|]. intros b [].
      * left. split; [exists (x_n x); cbn [x_n]; split; [lia|exact AL]|]. split; [reflexivity|]. split; [auto|].
        split; [reflexivity|]. unfold zlen at 1. cbn [length]. pose proof (Z.div_pos (zlen buf) 32 (zlen_nonneg buf)). lia.
Qed.
