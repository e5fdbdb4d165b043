(** Proofs for C92. *)
From Coq Require Import Permutation Bool Lia.
From Verif Require Import Base BaseFacts MetaModel InsnQModel LibModel HeapModel HeapSpec HeapProofs TmdModel TmdSpec.

Lemma bytes_eqb_refl' a : bytes_eqb a a = true.
Proof. induction a as [|x a IH]; cbn [bytes_eqb]; [reflexivity|]. rewrite Z.eqb_refl, IH. reflexivity. Qed.
Lemma bytes_eqb_eq a : forall b, bytes_eqb a b = true -> a = b.
Proof.
  induction a as [|x a IH]; intros [|y b] H; cbn [bytes_eqb] in H; try discriminate; [reflexivity|].
  apply andb_prop in H. destruct H as [H1 H2]. apply Z.eqb_eq in H1. apply IH in H2. congruence.
Qed.

Lemma scn_some name data secs : get_elfscn_by_name name secs = SecData data <-> has_section name data secs.
Proof.
  split.
  - revert data. induction secs as [|[[n|] d] t IH]; intros data H; cbn [get_elfscn_by_name] in H; try discriminate.
    destruct (bytes_eqb n name) eqn:E.
    + injection H as <-. apply bytes_eqb_eq in E. subst. exists [], t. split; [reflexivity|]. intros ? ? [].
    + apply IH in H. destruct H as (b & a & -> & F). exists ((Some n, d) :: b), a. split; [reflexivity|].
      intros n0 d0 [X|X]; [injection X as <- <-; exists n; split; [reflexivity|]; intros ->; rewrite bytes_eqb_refl' in E; discriminate|eauto].
  - intros (b & a & -> & F). induction b as [|[n d] b IH]; cbn [app get_elfscn_by_name].
    + rewrite bytes_eqb_refl'. reflexivity.
    + destruct (F n d (or_introl eq_refl)) as (s & -> & N). destruct (bytes_eqb s name) eqn:E; [apply bytes_eqb_eq in E; contradiction|].
      apply IH. intros; eapply F; right; eauto.
Qed.
Lemma scn_none name secs : get_elfscn_by_name name secs = SecNone <-> no_section name secs.
Proof.
  split.
  - induction secs as [|[[n|] d] t IH]; intros H; cbn [get_elfscn_by_name] in H; try discriminate; [intros ? ? []|].
    destruct (bytes_eqb n name) eqn:E; [discriminate|].
    intros n0 d0 [X|X]; [injection X as <- <-; exists n; split; [reflexivity|]; intros ->; rewrite bytes_eqb_refl' in E; discriminate|eapply IH; eauto].
  - induction secs as [|[n d] t IH]; intros F; cbn [get_elfscn_by_name]; [reflexivity|].
    destruct (F n d (or_introl eq_refl)) as (s & -> & N). destruct (bytes_eqb s name) eqn:E; [apply bytes_eqb_eq in E; contradiction|].
    apply IH. intros ? ? X. eapply F. right. exact X.
Qed.

(** ** Releasing as a list of blocks *)

Fixpoint units_order (l : list hunit) : list nat :=
  match l with [] => [] | u :: t => opt_l (hu_old u) ++ opt_l (hu_new u) ++ units_order t ++ [hu_self u] end.
Fixpoint refs_order (l : list href) : list nat :=
  match l with [] => [] | r :: t => refs_order t ++ opt_l (hr_target r) ++ opt_l (hr_name r) ++ [hr_self r] end.
Definition obj_order (o : option hobj) : list nat :=
  match o with None => [] | Some o => opt_l (ho_bid o) ++ opt_l (ho_name o) ++ units_order (ho_units o) ++ [ho_self o] end.

Lemma release_units_list l : forall x, release_ulp_unit l x = free_list (units_order l) x.
Proof.
  induction l as [|u l IH]; intros x; [reflexivity|]. cbn [release_ulp_unit units_order].
  rewrite !free_list_app, IH, !free_opt_list. reflexivity.
Qed.
Lemma release_deps_list l : forall x, release_ulp_dependency l x = free_list (rev l) x.
Proof.
  induction l as [|u l IH]; intros x; [reflexivity|]. cbn [release_ulp_dependency rev]. rewrite free_list_app, IH. reflexivity.
Qed.
Lemma release_refs_list l : forall x, release_ulp_reference l x = free_list (refs_order l) x.
Proof.
  induction l as [|u l IH]; intros x; [reflexivity|]. cbn [release_ulp_reference refs_order].
  rewrite !free_list_app, IH, !free_opt_list. reflexivity.
Qed.
Lemma release_obj_list o x : release_ulp_object o x = free_list (obj_order o) x.
Proof. destruct o as [o|]; [|reflexivity]. cbn [release_ulp_object obj_order]. rewrite !free_list_app, release_units_list, !free_opt_list. reflexivity. Qed.

Definition all_order (hm : hmeta) : list nat := opt_l (hm_so hm) ++ obj_order (hm_obj hm) ++ rev (hm_deps hm) ++ refs_order (hm_refs hm).

Lemma cnt_units b l : cnt b (units_order l) = cnt b (flat_map unit_l l).
Proof.
  induction l as [|u l IH]; [reflexivity|]. cbn [units_order flat_map]. unfold unit_l at 1. rewrite !cnt_app, IH. lia.
Qed.
Lemma cnt_refs b l : cnt b (refs_order l) = cnt b (flat_map ref_l l).
Proof.
  induction l as [|u l IH]; [reflexivity|]. cbn [refs_order flat_map]. unfold ref_l at 1. rewrite !cnt_app, IH. lia.
Qed.
Lemma cnt_rev b l : cnt b (rev l) = cnt b l.
Proof. induction l as [|a l IH]; [reflexivity|]. cbn [rev]. rewrite cnt_app, IH, !cnt_cons, cnt_nil. lia. Qed.
Lemma cnt_all b hm : (cnt b (all_order hm ++ [hm_self hm]) = cnt b (blocks hm))%nat.
Proof.
  unfold all_order, blocks, freed. rewrite cnt_cons, !cnt_app, cnt_rev, cnt_refs, cnt_cons, cnt_nil.
  destruct (hm_obj hm) as [o|]; cbn [obj_order obj_opt]; [|lia]. unfold obj_l. rewrite !cnt_app, cnt_units. lia.
Qed.

(** All blocks of a livepatch and its buffer are given back. *)
Lemma give_back x hm lost x2 : in_order x -> inv x hm lost x2 ->
  let x3 := free_list (all_order hm ++ [hm_self hm]) x2 in
  in_order x3 /\ keeps x x3 lost /\ x_n x3 = x_n x2.
Proof.
  intros (ND & LT & B) [C1 C2 C3 C4 C5 C6 C7] x3.
  assert (P : forall b, (cnt b (all_order hm ++ [hm_self hm]) <= cnt b (x_live x2) <= 1)%nat).
  { intros b. split; [|apply C2]. rewrite C1, cnt_all. lia. }
  destruct (free_all _ x2 P) as (N' & B' & H' & F). fold x3 in N', B', H', F.
  assert (G : forall b, cnt b (x_live x3) = (cnt b lost + cnt b (x_live x))%nat).
  { intros b. specialize (F b). rewrite C1, cnt_all in F. lia. }
  split; [|split; [|exact N']].
  - split; [|split].
    + apply (NoDup_count_occ Nat.eq_dec). intros b. change (cnt b (x_live x3) <= 1)%nat. specialize (F b). specialize (P b). lia.
    + intros b I. apply cnt_in in I. rewrite N'. apply C3. specialize (F b). lia.
    + rewrite B', C5. exact B.
  - split.
    + apply (Permutation_count_occ Nat.eq_dec). intros b. change (cnt b (x_live x3) = cnt b (lost ++ x_live x)). rewrite G, cnt_app. reflexivity.
    + split; [lia|]. intros b I. apply cnt_in in I. rewrite N'. split; [apply C4; lia|]. apply C3. rewrite C1. lia.
Qed.

(** ** The buffer is not touched by reading *)

Section Self.
  Variables (alloc : nat -> bool) (b : nat).
  Definition selfp (r : hres) : Prop := match r with H_end _ hm _ => hm_self hm = b | _ => True end.

  Lemma name_self c src hm0 set x k : hm_self hm0 = b -> (forall b', hm_self (set b') = b) ->
    (forall s c' src' b' x', selfp (k s c' src' b' x')) -> selfp (hread_name alloc c src hm0 set x k).
  Proof.
    intros H1 H2 K. unfold hread_name. destruct (read_int 4 c src) as [[c' n] src1]. destruct (n <? 1); [exact H1|].
    destruct (calloc alloc x) as [[b'|] x1]; [|exact H1]. destruct (read_from_mem c' src1) as [got src2].
    destruct (_ <? zlen got); [exact I|]. destruct (zlen got <? c'); [apply H2|apply K].
  Qed.
  Lemma rname_self c src hm x k : hm_self hm = b -> (forall s c' src' b' x', selfp (k s c' src' b' x')) -> selfp (hread_rname alloc c src hm x k).
  Proof.
    intros H1 K. unfold hread_rname. destruct (read_int 4 c src) as [[c' n] src1]. destruct (n <? 4); [exact H1|].
    destruct (calloc alloc x) as [[b'|] x1]; [|exact H1]. destruct (read_from_mem c' src1) as [got src2].
    destruct (zlen got <? c'); [exact H1|apply K].
  Qed.
  Lemma units_self k : forall fuel j c src acc hm o x, hm_self hm = b ->
    (forall us c' src' o' x', selfp (k us c' src' (set_obj hm o') x')) -> selfp (hparse_units alloc fuel j c src acc hm o x k).
  Proof.
    induction fuel as [|f IH]; intros j c src acc hm o x H K; cbn [hparse_units]; (destruct (j <=? 0); [apply K|]); [exact I|].
    destruct (calloc alloc x) as [[u|] x1]; [|exact H]. apply name_self; [exact H|intros; exact H|]. intros s c' src' b' x'.
    apply name_self; [exact H|intros; exact H|]. intros s2 c2 src2 b2 x2. destruct (read_int 8 0 src2) as [[a n] src3].
    destruct (n <? 1); [exact H|]. apply IH; [exact H|exact K].
  Qed.
  Lemma deps_self k : forall fuel j src acc hm x, hm_self hm = b ->
    (forall ds src' hm' x', hm_self hm' = b -> selfp (k ds src' hm' x')) -> selfp (hparse_deps alloc fuel j src acc hm x k).
  Proof.
    induction fuel as [|f IH]; intros j src acc hm x H K; cbn [hparse_deps]; (destruct (j <=? 0); [apply K; exact H|]); [exact I|].
    destruct (calloc alloc x) as [[u|] x1]; [|exact H]. destruct (read_from_mem 32 src) as [got src1].
    destruct (zlen got <? 32); [exact H|]. apply IH; [exact H|exact K].
  Qed.
  Lemma refs_self k : forall fuel j c src acc hm x, hm_self hm = b ->
    (forall rs src' hm' x', hm_self hm' = b -> selfp (k rs src' hm' x')) -> selfp (hparse_refs alloc fuel j c src acc hm x k).
  Proof.
    induction fuel as [|f IH]; intros j c src acc hm x H K; cbn [hparse_refs]; (destruct (j <=? 0); [apply K; exact H|]); [exact I|].
    destruct (calloc alloc x) as [[u|] x1]; [|exact H]. apply rname_self; [exact H|]. intros s c' src' b' x'.
    apply rname_self; [exact H|]. intros s2 c2 src2 b2 x2. destruct (read_int 8 0 src2) as [[a n] src3]. destruct (n <? 8); [exact H|].
    destruct (read_int 8 0 src3) as [[a2 n2] src4]. destruct (n2 <? 8); [exact H|].
    destruct (read_int 1 0 src4) as [[a3 n3] src5]. destruct (n3 <? 1); [exact H|]. apply IH; [exact H|exact K].
  Qed.
  Lemma hparse_self junk src hm x : hm_self hm = b -> selfp (hparse alloc junk src hm x).
  Proof.
    intros H. unfold hparse. destruct (read_int 1 0 src) as [[type n] src1].
    destruct (n <? 1); [exact H|]. destruct (read_from_mem 32 src1) as [id src2].
    destruct (zlen id <? 32); [exact H|]. apply name_self; [exact H|intros; exact H|]. intros so c1 src3 b1 x1.
    destruct so as [|s0 so]; [exact H|]. destruct (calloc alloc x1) as [[o|] x2]; [|exact H].
    destruct (read_int 4 c1 src3) as [[c2 n2] src4]. destruct (n2 <? 1); [exact H|]. destruct (calloc alloc x2) as [[b2|] x3]; [|exact H].
    destruct (read_from_mem c2 src4) as [bid src5]. destruct (zlen bid <? c2); [exact H|].
    apply name_self; [exact H|intros; exact H|]. intros name c3 src6 b3 x4. destruct (type =? 2); [exact H|].
    destruct (read_int 4 0 src6) as [[nunits n4] src7]. destruct (n4 <? 1); [exact H|].
    apply units_self; [exact H|]. intros us c4 src8 o' x5.
    destruct (read_int 4 c4 src8) as [[ndeps n5] src9]. destruct (n5 <? 1); [exact H|].
    apply deps_self; [exact H|]. intros ds src10 hm6 x6 H6.
    destruct (read_int 4 0 src10) as [[nrefs n6] src11]. destruct (n6 <? 4); [exact H6|].
    apply refs_self; [exact H6|]. intros rs src12 hm7 x7 H7. exact H7.
  Qed.
End Self.

(** ** One request *)

Lemma release_rested t : rested t -> release_ulp_global_metadata t = t.
Proof. destruct t as [h so o d r f]. cbn. intros (H1 & H2 & H3 & H4 & _). cbn in *. subst. reflexivity. Qed.

Lemma keeps_refl x : keeps x x [].
Proof. split; [apply Permutation_refl|]. split; [lia|intros b []]. Qed.

Section Run.
  Variable alloc : nat -> bool.
  Variable limit : Z.

  (** What a request leaves. *)
  Lemma one_leaves q t r t' : rested t -> trigger_one_process alloc limit q t = Some (r, t') ->
    rested t' /\ exists lost, keeps (t_heap t) (t_heap t') lost /\ (length lost <= 3)%nat /\
      ((forall n, alloc n = true) -> readable q -> lost = []).
  Proof.
    intros R. pose proof R as (R1 & R2 & R3 & R4 & R5). unfold trigger_one_process.
    assert (SAME : forall k, rested (mk_tool (t_heap t) (t_so t) (t_obj t) (t_deps t) (t_refs t) k) /\
       exists lost, keeps (t_heap t) (t_heap t) lost /\ (length lost <= 3)%nat /\ ((forall n, alloc n = true) -> readable q -> lost = [])).
    { intros k. split; [exact R|]. exists []. split; [apply keeps_refl|]. split; [cbn; lia|reflexivity]. }
    assert (ST : rested t /\ exists lost, keeps (t_heap t) (t_heap t) lost /\ (length lost <= 3)%nat /\ ((forall n, alloc n = true) -> readable q -> lost = [])).
    { split; [exact R|]. exists []. split; [apply keeps_refl|]. split; [cbn; lia|reflexivity]. }
    destruct (r_old q) eqn:OLD. { rewrite (release_rested t R). intros E. injection E as <- <-. exact ST. }
    destruct (r_file q) as [f|] eqn:RF. 2: { rewrite (release_rested t R). intros E. injection E as <- <-. exact ST. }
    destruct (extract alloc limit f (r_revert q) (r_path q) t) as [[[[b buf]|] t1]|] eqn:EX; [| |discriminate].
    - assert (X : exists secs data x1, f = FElf secs /\ has_section (section_name (r_revert q)) data secs /\ data <> [] /\
        extract_ulp_from_so_to_mem data (r_path q) = P_ok (Some buf) /\ calloc alloc (t_heap t) = (Some b, x1) /\
        t1 = mk_tool x1 (t_so t) (t_obj t) (t_deps t) (t_refs t) (t_files t)).
      { unfold extract in EX. destruct f as [| | |secs]; try discriminate; destruct (limit <=? t_files t); try discriminate.
        destruct (get_elfscn_by_name _ secs) as [| |[|d0 data]] eqn:G; try discriminate. apply scn_some in G.
        destruct (extract_ulp_from_so_to_mem _ _) as [| | |[bf|]] eqn:XX; try discriminate.
        destruct (calloc alloc (t_heap t)) as [[b'|] x1] eqn:C; [|discriminate]. injection EX as <- <- <-.
        exists secs, (d0 :: data), x1. repeat split; auto. discriminate. }
      destruct X as (secs & data & x1 & -> & HS & DN & XX & C & ->).
      unfold load_patch_info_from_mem. cbn [t_deps t_refs t_heap t_files]. rewrite R3, R4.
      destruct (first_block alloc _ b x1 R5 C) as [I NF].
      pose proof (hparse_good alloc (t_heap t) (r_junk q) buf b x1 I NF) as GD.
      destruct (hparse alloc (r_junk q) buf (mk_hmeta b None None [] []) x1) as [| |res hm x2] eqn:HP; try discriminate.
      intros E. injection E as <- <-. cbn [release_ulp_global_metadata t_heap t_so t_obj t_deps t_refs t_files].
      assert (SELF : hm_self hm = b).
      { pose proof (hparse_self alloc b (r_junk q) buf (mk_hmeta b None None [] []) x1 eq_refl) as S. rewrite HP in S. exact S. }
      assert (OR : free b (release_ulp_reference (hm_refs hm) (release_ulp_dependency (hm_deps hm)
             (release_ulp_object (hm_obj hm) (free_opt (hm_so hm) x2)))) = free_list (all_order hm ++ [hm_self hm]) x2).
      { unfold all_order. rewrite !free_list_app, release_refs_list, release_deps_list, release_obj_list, free_opt_list, SELF. reflexivity. }
      rewrite OR. unfold rested. cbn [t_so t_obj t_deps t_refs t_heap].
      destruct res as [c|md]; cbn [good] in GD.
      + destruct GD as (lost & IV & LL & _). destruct (give_back _ _ _ _ R5 IV) as (O & K & _).
        split; [auto|]. exists lost. split; [exact K|]. split; [exact LL|]. intros ALL RD. exfalso.
        pose proof (parse_same alloc ALL (r_junk q) buf (mk_hmeta b None None [] []) x1) as S. rewrite HP in S.
        apply (RD buf c). { split; [exact OLD|]. exists secs, data. auto. }
        unfold parse_metadata_from_mem. destruct (parse_metadata_raw _ _) as [| |c'|[m' a]]; cbn [same] in S; try contradiction. congruence.
      + destruct GD as (IV & _). destruct (give_back _ _ _ _ R5 IV) as (O & K & _).
        split; [auto|]. exists []. split; [exact K|]. split; [cbn; lia|reflexivity].
    - assert (X : t1 = t \/ t1 = mk_tool (t_heap t) (t_so t) (t_obj t) (t_deps t) (t_refs t) (t_files t + 1)).
      { unfold extract in EX. destruct f as [| | |secs]; try (injection EX as <-; auto); destruct (limit <=? t_files t); try (injection EX as <-; auto).
        destruct (get_elfscn_by_name _ secs) as [| |[|d0 data]]; try discriminate; [injection EX as <-; auto|].
        destruct (extract_ulp_from_so_to_mem _ _) as [| | |[bf|]]; try discriminate; [|injection EX as <-; auto].
        destruct (calloc alloc (t_heap t)) as [[b'|] x1]; discriminate. }
      intros E. injection E as <- <-. destruct X as [->| ->].
      + rewrite (release_rested t R). exact ST.
      + rewrite release_rested by exact R. apply SAME.
  Qed.

  Lemma all_leaves l : forall t rs t', rested t -> trigger_all alloc limit l t = Some (rs, t') ->
    rested t' /\ exists lost, keeps (t_heap t) (t_heap t') lost /\ zlen lost <= 3 * zlen l /\
      ((forall n, alloc n = true) -> Forall readable l -> lost = []).
  Proof.
    induction l as [|q l IH]; intros t rs t' R E; cbn [trigger_all] in E.
    - injection E as <- <-. split; [exact R|]. exists []. split; [apply keeps_refl|]. split; [cbn; lia|reflexivity].
    - destruct (trigger_one_process alloc limit q t) as [[r t1]|] eqn:E1; [|discriminate].
      destruct (trigger_all alloc limit l t1) as [[rs2 t2]|] eqn:E2; [|discriminate]. injection E as <- <-.
      destruct (one_leaves q t r t1 R E1) as (R1 & k1 & (P1 & L1 & B1) & N1 & C1).
      destruct (IH t1 rs2 t2 R1 E2) as (R2 & k2 & (P2 & L2 & B2) & N2 & C2).
      split; [exact R2|]. exists (k2 ++ k1). split.
      + split; [|split; [lia|]].
        * rewrite <- app_assoc. eapply Permutation_trans; [exact P2|]. apply Permutation_app_head. exact P1.
        * intros b I. apply in_app_or in I. destruct I as [I|I]; [specialize (B2 b I)|specialize (B1 b I)]; lia.
      + split; [rewrite zlen_app, zlen_cons; unfold zlen in *; lia|].
        intros A F. inversion F; subst. rewrite C1, C2 by assumption. reflexivity.
  Qed.

  (** The result, when memory and descriptors suffice. *)
  Hypothesis ALL : forall n, alloc n = true.

  Lemma one_result q t r t' : rested t -> t_files t < limit -> trigger_one_process alloc limit q t = Some (r, t') ->
    exists k, answers q r k /\ t_files t' = t_files t + k.
  Proof.
    intros R LIM. pose proof R as (R1 & R2 & R3 & R4 & R5). unfold trigger_one_process.
    destruct (r_old q) eqn:OLD. { intros E. injection E as <- <-. exists 0. split; [apply ans_old; exact OLD|cbn; lia]. }
    destruct (r_file q) as [f|] eqn:RF. 2: { intros E. injection E as <- <-. exists 0. split; [apply ans_library; assumption|cbn; lia]. }
    unfold extract. assert (LT : (limit <=? t_files t) = false) by (apply Z.leb_gt; exact LIM). rewrite LT.
    destruct f as [| | |secs].
    1-3: intros E; injection E as <- <-; exists 0; (split; [eapply ans_unreadable; eauto|cbn; lia]).
    destruct (get_elfscn_by_name _ secs) as [| |[|d0 data]] eqn:G; try discriminate.
    { apply scn_none in G. intros E. injection E as <- <-. exists 0. split; [eapply ans_none; eauto|cbn; lia]. }
    apply scn_some in G.
    assert (H : forall z, extract_ulp_from_so_to_mem (d0 :: data) (r_path q) = z -> holds q z).
    { intros z Ez. split; [exact OLD|]. exists secs, (d0 :: data). repeat split; auto. discriminate. }
    destruct (extract_ulp_from_so_to_mem _ _) as [| | |[bf|]] eqn:XX; try discriminate.
    2: { intros E. injection E as <- <-. exists 1. split; [apply ans_large; auto|reflexivity]. }
    rewrite (calloc_all alloc ALL). unfold load_patch_info_from_mem. cbn [t_deps t_refs t_heap t_files]. rewrite R3, R4.
    match goal with |- context [hparse alloc ?j ?b ?h ?y] => pose proof (parse_same alloc ALL j b h y) as S; destruct (hparse alloc j b h y) as [| |res hm x2] end; try discriminate.
    intros E. injection E as <- <-. exists 0. cbn [release_ulp_global_metadata t_files]. split; [|lia].
    destruct res as [c|md]; cbn [same] in S.
    - apply (ans_invalid q bf); [apply H; reflexivity|]. unfold parse_metadata_from_mem.
      destruct (parse_metadata_raw _ _) as [| |c'|[m' a]]; try contradiction. congruence.
    - apply (ans_read q bf); [apply H; reflexivity|]. unfold parse_metadata_from_mem.
      destruct (parse_metadata_raw _ _) as [| |c'|[m' a]]; try contradiction. congruence.
  Qed.

  Lemma one_runs q t r k : rested t -> t_files t < limit -> answers q r k ->
    exists t', trigger_one_process alloc limit q t = Some (r, t') /\ t_files t' = t_files t + k.
  Proof.
    intros R LIM A. pose proof R as (R1 & R2 & R3 & R4 & R5). unfold trigger_one_process.
    assert (LT : (limit <=? t_files t) = false) by (apply Z.leb_gt; exact LIM).
    assert (X : forall z, holds q z -> r_old q = false /\ exists secs d0 data, r_file q = Some (FElf secs) /\
       get_elfscn_by_name (section_name (r_revert q)) secs = SecData (d0 :: data) /\ extract_ulp_from_so_to_mem (d0 :: data) (r_path q) = z).
    { intros z (O & secs & data & F & HS & DN & XX). split; [exact O|]. destruct data as [|d0 data]; [contradiction|].
      exists secs, d0, data. split; [exact F|]. split; [apply scn_some; exact HS|exact XX]. }
    assert (Y : forall buf, holds q (P_ok (Some buf)) ->
       exists b x1, extract alloc limit (match r_file q with Some f => f | None => FMissing end) (r_revert q) (r_path q) t =
         Some (Some (b, buf), mk_tool x1 (t_so t) (t_obj t) (t_deps t) (t_refs t) (t_files t))).
    { intros buf H. destruct (X _ H) as (O & secs & d0 & data & -> & G & XX). cbn [extract]. rewrite LT, G, XX, (calloc_all alloc ALL). eauto. }
    destruct A as [O|O F|f O F FF|secs O F NS|H|buf c H P|buf md H P].
    - rewrite O. eexists. split; [reflexivity|cbn; lia].
    - rewrite O, F. eexists. split; [reflexivity|cbn; lia].
    - rewrite O, F. unfold extract. rewrite LT. destruct FF as [->|[->| ->]]; (eexists; split; [reflexivity|cbn; lia]).
    - rewrite O, F. unfold extract. rewrite LT. apply scn_none in NS. change (wanted (r_revert q)) with (section_name (r_revert q)) in NS. rewrite NS. eexists. split; [reflexivity|cbn; lia].
    - destruct (X _ H) as (O & secs & d0 & data & F & G & XX). rewrite O, F. unfold extract. rewrite LT, G, XX.
      eexists. split; [reflexivity|reflexivity].
    - destruct (Y _ H) as (b & x1 & EX). destruct (X _ H) as (O & secs & d0 & data & F & G & XX). rewrite O, F in *. rewrite EX.
      unfold load_patch_info_from_mem. cbn [t_deps t_refs t_heap t_files]. rewrite R3, R4.
      match goal with |- context [hparse alloc ?j ?b ?h ?y] => pose proof (parse_same alloc ALL j b h y) as S; destruct (hparse alloc j b h y) as [| |res hm x2] end;
        unfold parse_metadata_from_mem in P; destruct (parse_metadata_raw _ _) as [| |c'|[m' a]]; try discriminate; try contradiction.
      cbn [same] in S. destruct res as [c2|]; [|contradiction]. injection P as <-. subst c2.
      eexists. split; [reflexivity|cbn; lia].
    - destruct (Y _ H) as (b & x1 & EX). destruct (X _ H) as (O & secs & d0 & data & F & G & XX). rewrite O, F in *. rewrite EX.
      unfold load_patch_info_from_mem. cbn [t_deps t_refs t_heap t_files]. rewrite R3, R4.
      match goal with |- context [hparse alloc ?j ?b ?h ?y] => pose proof (parse_same alloc ALL j b h y) as S; destruct (hparse alloc j b h y) as [| |res hm x2] end;
        unfold parse_metadata_from_mem in P; destruct (parse_metadata_raw _ _) as [| |c'|[m' a]]; try discriminate; try contradiction.
      cbn [same] in S. destruct res as [c2|m2]; [contradiction|]. injection P as <-. subst m2.
      eexists. split; [reflexivity|cbn; lia].
  Qed.

  Lemma cost_nonneg q r k : answers q r k -> 0 <= k <= 1.
  Proof. destruct 1; lia. Qed.
  Lemma costs_nonneg l rs n : answers_all l rs n -> 0 <= n.
  Proof. induction 1 as [|q r k l rs n A H IH]; [lia|]. apply cost_nonneg in A. lia. Qed.

  Lemma all_runs l rs n : answers_all l rs n -> forall t, rested t -> t_files t + n < limit ->
    exists t', trigger_all alloc limit l t = Some (rs, t') /\ t_files t' = t_files t + n.
  Proof.
    induction 1 as [|q r k l rs n A H IH]; intros t R LIM.
    - exists t. split; [reflexivity|lia].
    - pose proof (cost_nonneg _ _ _ A) as K. pose proof (costs_nonneg _ _ _ H) as N.
      destruct (one_runs q t r k R) as (t1 & E1 & F1); [lia|exact A|]. destruct (one_leaves q t r t1 R E1) as (R1 & _).
      destruct (IH t1 R1) as (t2 & E2 & F2); [lia|]. exists t2. cbn [trigger_all]. rewrite E1, E2. split; [reflexivity|lia].
  Qed.

  Lemma all_results l : forall t rs t', rested t -> t_files t + zlen l <= limit -> trigger_all alloc limit l t = Some (rs, t') ->
    exists n, answers_all l rs n /\ t_files t' = t_files t + n.
  Proof.
    induction l as [|q l IH]; intros t rs t' R LIM E; cbn [trigger_all] in E.
    - injection E as <- <-. exists 0. split; [constructor|lia].
    - destruct (trigger_one_process alloc limit q t) as [[r t1]|] eqn:E1; [|discriminate].
      destruct (trigger_all alloc limit l t1) as [[rs2 t2]|] eqn:E2; [|discriminate]. injection E as <- <-.
      rewrite zlen_cons in LIM. pose proof (zlen_nonneg l) as ZL.
      destruct (one_result q t r t1 R) as (k & A & F1); [lia|exact E1|]. destruct (one_leaves q t r t1 R E1) as (R1 & _).
      pose proof (cost_nonneg _ _ _ A) as K. destruct (IH t1 rs2 t2 R1) as (n & H & F2); [lia|exact E2|].
      exists (k + n). split; [constructor; assumption|lia].
  Qed.
End Run.

Lemma answers_fun q r k r' k' : answers q r k -> answers q r' k' -> r = r' /\ k = k'.
Proof.
  intros A A'.
  destruct (one_runs (fun _ => true) 1 (fun _ => eq_refl) q tool_start r k) as (t & E & F); [|cbn; lia|exact A|].
  { repeat split; try reflexivity; [constructor|intros b []]. }
  destruct (one_runs (fun _ => true) 1 (fun _ => eq_refl) q tool_start r' k') as (t' & E' & F'); [|cbn; lia|exact A'|].
  { repeat split; try reflexivity; [constructor|intros b []]. }
  rewrite E in E'. injection E' as <- <-. split; [reflexivity|lia].
Qed.
