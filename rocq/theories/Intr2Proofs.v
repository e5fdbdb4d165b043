(** libpulp's exported symbols. *)
From Coq Require Import String.
From Verif Require Import Base BaseFacts StrModel InsnQModel LibModel MetaModel DlModel PtModel PtSpec PtProofs
  NtModel NtSpec NtProofs TextModel IntrModel IntrSpec IntrProofs.

Lemma rd_acc ok m a n : accessible ok a (Z.of_nat n) -> rd ok m a n = Some (mem_read m a n).
Proof. intros A. unfold rd. rewrite vm_span_full by exact A. rewrite Nat.eqb_refl. reflexivity. Qed.

Lemma index_of_some names s i : index_of names s = Some i -> (i < List.length names)%nat /\ nth i names [] = s.
Proof.
  revert i. induction names as [|n names IH]; intros i H; cbn [index_of] in H; [discriminate|].
  destruct (bytes_eqb n s) eqn:E.
  - injection H as <-. apply bytes_eqb_eq in E. cbn. split; [lia|exact E].
  - destruct (index_of names s) as [j|]; [|discriminate]. injection H as <-. destruct (IH j eq_refl). cbn. split; [lia|assumption].
Qed.

Lemma index_of_none names s : index_of names s = None -> forall i, (i < List.length names)%nat -> nth i names [] <> s.
Proof.
  induction names as [|n names IH]; intros H i I; cbn [index_of] in H; [cbn in I; lia|].
  destruct (bytes_eqb n s) eqn:E; [discriminate|]. apply bytes_eqb_neq in E.
  destruct (index_of names s); [discriminate|]. destruct i as [|i]; [exact E|]. cbn. apply IH; [reflexivity|cbn in I; lia].
Qed.

Lemma set_nth_length l i v : List.length (set_nth l i v) = List.length l.
Proof. revert i. induction l as [|x l IH]; intros [|i]; cbn; try reflexivity. rewrite IH. reflexivity. Qed.
Lemma set_nth_same l i v : (i < List.length l)%nat -> nth i (set_nth l i v) 0 = v.
Proof. revert i. induction l as [|x l IH]; intros [|i] H; cbn in *; try lia; try reflexivity. apply IH; lia. Qed.
Lemma set_nth_other l i j v : i <> j -> nth j (set_nth l i v) 0 = nth j l 0.
Proof. revert i j. induction l as [|x l IH]; intros [|i] [|j] H; cbn; try reflexivity; try lia. apply IH. lia. Qed.

Lemma mark_nth (l : list bool) i j : (i < List.length l)%nat ->
  nth j (firstn i l ++ true :: skipn (S i) l) false = if (j =? i)%nat then true else nth j l false.
Proof.
  intros H. destruct (Nat.eqb_spec j i) as [->|N].
  - rewrite app_nth2; rewrite firstn_length_le by lia; [|lia]. rewrite Nat.sub_diag. reflexivity.
  - destruct (Nat.lt_ge_cases j i) as [L|L].
    + rewrite app_nth1 by (rewrite firstn_length_le; lia). rewrite <- (firstn_skipn i l) at 2.
      rewrite app_nth1 by (rewrite firstn_length_le; lia). reflexivity.
    + rewrite app_nth2; rewrite firstn_length_le by lia; [|lia].
      destruct (j - i)%nat as [|k] eqn:K; [lia|]. cbn [nth].
      rewrite <- (firstn_skipn (S i) l) at 2. rewrite app_nth2; rewrite firstn_length_le by lia; [|lia].
      f_equal. lia.
Qed.
Lemma mark_length (l : list bool) i : (i < List.length l)%nat ->
  List.length (firstn i l ++ true :: skipn (S i) l) = List.length l.
Proof. intros H. rewrite app_length, firstn_length_le by lia. cbn [List.length]. rewrite skipn_length. lia. Qed.

Lemma names_len : List.length ext_names = 11%nat.
Proof. reflexivity. Qed.
Lemma names_short i : (List.length (nth i ext_names []) < 30)%nat.
Proof. do 11 (destruct i as [|i]; [cbn; lia|]). cbn. destruct i; cbn; lia. Qed.
Lemma names_inj i j : (i < 11)%nat -> (j < 11)%nat -> nth i ext_names [] = nth j ext_names [] -> i = j.
Proof.
  intros I J H.
  assert (ND : NoDup ext_names).
  { assert (D : forall l : list (list Z), forallb (fun x => Nat.eqb (List.length (filter (bytes_eqb x) l)) 1) l = true -> NoDup l).
    { induction l as [|x l IH]; intros F; [constructor|]. cbn [forallb filter] in F.
      rewrite bytes_eqb_refl in F. apply andb_prop in F. destruct F as [F1 F2]. cbn [List.length] in F1.
      constructor.
      - intros IN. apply Nat.eqb_eq in F1.
        assert (X : In x (filter (bytes_eqb x) l)) by (apply filter_In; split; [exact IN|apply bytes_eqb_refl]).
        destruct (filter (bytes_eqb x) l); [contradiction|cbn in F1; lia].
      - apply IH. rewrite forallb_forall in F2 |- *. intros y Y. specialize (F2 y Y).
        destruct (bytes_eqb y x) eqn:E.
        + apply bytes_eqb_eq in E. subst y. apply Nat.eqb_eq in F1. exfalso.
          assert (X : In x (filter (bytes_eqb x) l)) by (apply filter_In; split; [exact Y|apply bytes_eqb_refl]).
          destruct (filter (bytes_eqb x) l); [contradiction|cbn in F1; lia].
        + exact F2. }
    apply D. vm_compute. reflexivity. }
  apply (proj1 (NoDup_nth ext_names []) ND); assumption.
Qed.

(** The five bytes at a string are "__ulp" exactly if the string starts so. *)
Lemma five_bytes m a s : string_at m a s ->
  (exists r, s = zs "__ulp" ++ r /\ mem_read m a 5 = zs "__ulp" /\ string_at m (a + 5) r) \/
  ((forall r, s <> zs "__ulp" ++ r) /\ mem_read m a 5 <> zs "__ulp").
Proof.
  intros SA. destruct (Nat.le_gt_cases 5 (List.length s)) as [L|L].
  - destruct (string_at_split m a s 5 SA L) as (R & S2). change (Z.of_nat 5) with 5 in S2.
    destruct (bytes_eqb (firstn 5 s) (zs "__ulp")) eqn:E.
    + apply bytes_eqb_eq in E. left. exists (skipn 5 s). rewrite <- E at 1. rewrite firstn_skipn. split; [reflexivity|].
      split; [rewrite R; exact E|exact S2].
    + apply bytes_eqb_neq in E. right. split; [|rewrite R; exact E]. intros r ->. apply E. reflexivity.
  - right. split.
    + intros r ->. rewrite app_length in L. cbn in L. lia.
    + intros E. destruct SA as (C & R & Z0). unfold zlen in Z0.
      rewrite <- (mem_read_nth m a 5 (List.length s) 0) in Z0 by lia. rewrite E in Z0.
      do 5 (destruct s as [|? s]; [cbn in Z0; lia|]). cbn in L. lia.
Qed.

Lemma cstr_z_clean s : cstr_ok s -> cstr_z s = s.
Proof.
  intros C. induction C as [|x s X C IH]; [reflexivity|]. cbn [cstr_z]. unfold is_cchar in X.
  destruct (Z.eqb_spec x 0); [lia|]. rewrite IH. reflexivity.
Qed.

Lemma read_rest t a r : target_ok t -> string_at (t_mem t) a r -> (0 < t_fuel t)%nat -> 0 <= a ->
  a + zlen r + 8 < 2 ^ 64 -> accessible (t_ok t) a (zlen r + 8) -> forall buf, List.length buf = 64%nat ->
  exists buf', read_string_allocated (t_fuel t) (t_ok t) (t_mem t) (t_junk t) a buf = Some (0, buf') /\
    index_of ext_names (cstr_z buf') = index_of ext_names r.
Proof.
  intros (BM & JL & _) SA F A W AC buf BL. unfold read_string_allocated.
  assert (BZ : zlen buf = 64) by (unfold zlen; lia). rewrite BZ. change (Z.to_nat (64 / 8)) with 8%nat.
  destruct (rsa_spec 8 (t_fuel t) (t_ok t) (t_mem t) (t_junk t) a buf r) as (b' & E & X & Y); try assumption.
  - rewrite BL. reflexivity.
  - pose proof (zlen_nonneg r). lia.
  - intros x XX. apply AC. pose proof (Z.mul_div_le (zlen r) 8 ltac:(lia)). lia.
  - exists b'. split; [exact E|]. destruct (Nat.lt_ge_cases (List.length r) (List.length buf)) as [L|L].
    + destruct (X L) as (rest & ->). f_equal. apply cstr_z_app. apply SA.
    + rewrite (Y L). destruct SA as (C & _). rewrite cstr_z_clean by (apply Forall_forall; intros z Z; eapply Forall_forall; [exact C|]; rewrite <- (firstn_skipn (List.length buf) r); apply in_or_app; left; exact Z).
      transitivity (@None nat).
      * destruct (index_of ext_names _) as [i|] eqn:I; [|reflexivity]. apply index_of_some in I. destruct I as [_ I].
        pose proof (names_short i) as S. rewrite I, firstn_length in S. lia.
      * destruct (index_of ext_names r) as [i|] eqn:I; [|reflexivity]. apply index_of_some in I. destruct I as [_ I].
        pose proof (names_short i) as S. rewrite I in S. lia.
Qed.

(** What is stored for name number [i] when it is found with this value. *)
Definition found (base : Z) (text : list Z) (i : nat) (v : Z) : Z :=
  if (i =? 10)%nat then ulp_version_from_string text else u64 (base + v).
Definition full (i : nat) : list Z := zs "__ulp" ++ nth i ext_names [].

Lemma ext_loop_spec t base str text : target_ok t -> (0 < t_fuel t)%nat -> forall l sym e seen,
  symtab_at t str sym l -> NoDup (map ds_name l) -> List.length e = 11%nat -> List.length seen = 11%nat ->
  (forall i, (i < 11)%nat -> nth i seen false = true -> ~ In (full i) (map ds_name l)) ->
  version_at t base l text ->
  exists e', ext_loop (List.length l) t base sym str e seen = I_ok e' /\ List.length e' = 11%nat /\
    forall i, (i < 11)%nat ->
      (forall v, In (mk_dsym (full i) v) l -> nth i e' 0 = found base text i v) /\
      (~ In (full i) (map ds_name l) -> nth i e' 0 = nth i e 0).
Proof.
  intros T F. induction l as [|s l IH]; intros sym e seen ST ND EL SL SE VA.
  - exists e. split; [reflexivity|]. split; [exact EL|]. intros i I. split; [intros v []|reflexivity].
  - inversion ST as [|a0 s0 l0 off r4 r8 L4 L8 OF VB HO SA SP WR AC AW AP ST']; subst.
    cbn [map] in ND. inversion ND as [|? ? NI ND']; subst.
    cbn [List.length ext_loop].
    assert (VA' : version_at t base l text) by (intros v I; apply VA; right; exact I).
    assert (U24 : u64 (sym + 24) = sym + 24) by (apply u64_id; lia).
    assert (SOB : u64 (str + off) = str + off).
    { apply u64_id. pose proof (zlen_nonneg (ds_name s)). lia. }
    pose proof HO as HO2.
    apply holds_app in HO2. destruct HO2 as [H4 _].
    assert (R4 : trd t sym 4 = Some (le_enc 4 off)).
    { unfold trd. rewrite <- (le_enc_length 4 off) at 1. apply holds_rd. exact H4. }
    rewrite R4. rewrite (le_dec_enc_id 4 off) by (change (8 * Z.of_nat 4) with 32; lia). rewrite SOB.
    unfold trd at 1. rewrite rd_acc by (intros x X; apply AC; pose proof (zlen_nonneg (ds_name s)); lia).
    (* steps over a symbol that is none of ours *)
    assert (SKIP : (forall i, (i < 11)%nat -> ds_name s <> full i) ->
      exists e', ext_loop (List.length l) t base (u64 (sym + 24)) str e seen = I_ok e' /\ List.length e' = 11%nat /\
      forall i, (i < 11)%nat ->
      (forall v, In (mk_dsym (full i) v) (s :: l) -> nth i e' 0 = found base text i v) /\
      (~ In (full i) (ds_name s :: map ds_name l) -> nth i e' 0 = nth i e 0)).
    { intros NO. rewrite U24. destruct (IH (sym + 24) e seen ST' ND' EL SL) as (e' & E1 & E2 & E3).
      - intros i I S IN. apply (SE i I S). right. exact IN.
      - exact VA'.
      - exists e'. split; [exact E1|]. split; [exact E2|]. intros i I. destruct (E3 i I) as [A B]. split.
        + intros v [EQ|IN]; [|apply A; exact IN]. exfalso. apply (NO i I). rewrite EQ. reflexivity.
        + intros N. apply B. intros IN. apply N. right. exact IN. }
    destruct (five_bytes _ _ _ SA) as [(r & EN & R5 & SR)|[NR R5]].
    2:{ assert (BF : bytes_eqb (mem_read (t_mem t) (str + off) 5) (zs "__ulp") = false) by (apply bytes_eqb_neq; exact R5).
        rewrite BF. cbn [negb]. apply SKIP. intros i I E. apply (NR (nth i ext_names [])). exact E. }
    rewrite R5, bytes_eqb_refl. cbn [negb].
    assert (NZ : zlen (ds_name s) = 5 + zlen r) by (rewrite EN, zlen_app; reflexivity).
    assert (U5 : u64 (str + off + 5) = str + off + 5) by (apply u64_id; pose proof (zlen_nonneg r); lia).
    rewrite U5.
    destruct (read_rest t (str + off + 5) r T SR F) with (buf := zs "__ulp" ++ repeat 0 59) as (buf & RB & IX).
    { lia. } { lia. } { intros x X. apply AC. lia. } { reflexivity. }
    rewrite RB. cbn [Z.eqb negb].
    assert (R24 : trd t sym 24 = Some (le_enc 4 off ++ r4 ++ le_enc 8 (ds_value s) ++ r8)).
    { unfold trd. replace 24%nat with (List.length (le_enc 4 off ++ r4 ++ le_enc 8 (ds_value s) ++ r8)).
      - apply holds_rd. exact HO.
      - rewrite !app_length, !le_enc_length, L4, L8. reflexivity. }
    rewrite R24. rewrite app_assoc.
    rewrite (fld_at (le_enc 4 off ++ r4) r8 (ds_value s) 8 8) by
      (try (rewrite app_length, le_enc_length, L4; reflexivity); change (8 * Z.of_nat 8) with 64; lia).
    rewrite IX. destruct (index_of ext_names r) as [i|] eqn:I.
    2:{ apply SKIP. intros i I' E. rewrite EN in E. unfold full in E. apply app_inv_head in E.
        apply (index_of_none _ _ I i); [rewrite names_len; exact I'|symmetry; exact E]. }
    apply index_of_some in I. rewrite names_len in I. destruct I as [I IN].
    assert (EF : ds_name s = full i) by (rewrite EN; unfold full; rewrite IN; reflexivity).
    assert (VE : (if (i =? 10)%nat
                  then match read_string_allocated (t_fuel t) (t_ok t) (t_mem t) (t_junk t)
                               (u64 (base + ds_value s)) (repeat 0 32) with
                       | None => I_hang
                       | Some (_, vb) => I_ok (ulp_version_from_string (cstr_z vb))
                       end
                  else I_ok (u64 (base + ds_value s))) = I_ok (found base text i (ds_value s))).
    { unfold found. destruct (Nat.eqb_spec i 10) as [->|N]; [|reflexivity].
      destruct (VA (ds_value s)) as (AS & TL).
      { left. destruct s as [nm vv]. cbn in *. rewrite EF. reflexivity. }
      destruct T as (BM & JL & PG). destruct AS as (S1 & A1 & W1 & AC1).
      destruct (rsa_spec 4 (t_fuel t) (t_ok t) (t_mem t) (t_junk t) (u64 (base + ds_value s)) (repeat 0 32) text)
        as (b' & E & X & Y); try assumption; try reflexivity; [lia|].
      unfold read_string_allocated. change (Z.to_nat (zlen (repeat 0 32) / 8)) with 4%nat. rewrite E.
      destruct X as (rest & ->); [unfold zlen in TL; change (List.length (repeat 0 32)) with 32%nat; lia|].
      rewrite cstr_z_app by apply S1. reflexivity. }
    rewrite VE. cbn [ibind]. clear VE.
    set (seen' := firstn i seen ++ true :: skipn (S i) seen).
    assert (SL' : List.length seen' = 11%nat) by (unfold seen'; rewrite mark_length; lia).
    assert (EL' : List.length (set_nth e i (found base text i (ds_value s))) = 11%nat) by (rewrite set_nth_length; exact EL).
    assert (SE' : forall j, (j < 11)%nat -> nth j seen' false = true -> ~ In (full j) (map ds_name l)).
    { intros j J. unfold seen'. rewrite mark_nth by lia. destruct (Nat.eqb_spec j i) as [->|N].
      - intros _ INN. apply NI. rewrite EF. exact INN.
      - intros S INN. apply (SE j J S). right. exact INN. }
    assert (FIN : forall e', List.length e' = 11%nat ->
      (forall j, (j < 11)%nat ->
        (forall v, In (mk_dsym (full j) v) l -> nth j e' 0 = found base text j v) /\
        (~ In (full j) (map ds_name l) -> nth j e' 0 = nth j (set_nth e i (found base text i (ds_value s))) 0)) ->
      forall j, (j < 11)%nat ->
        (forall v, In (mk_dsym (full j) v) (s :: l) -> nth j e' 0 = found base text j v) /\
        (~ In (full j) (ds_name s :: map ds_name l) -> nth j e' 0 = nth j e 0)).
    { intros e' _ H j J. destruct (H j J) as [A B]. split.
      - intros v [EQ|INN]; [|apply A; exact INN]. subst s. cbn [ds_name] in EF, NI. rewrite EF in NI. cbn [ds_value] in B.
        assert (j = i). { apply names_inj; [exact J|exact I|]. unfold full in EF. apply app_inv_head in EF. exact EF. }
        subst j. rewrite B by exact NI. rewrite set_nth_same by lia. reflexivity.
      - intros N. rewrite B by (intros INN; apply N; right; exact INN). apply set_nth_other.
        intros <-. apply N. left. exact EF. }
    destruct (forallb (fun b => b) seen') eqn:ALL.
    + eexists. split; [reflexivity|]. split; [exact EL'|]. apply FIN; [exact EL'|].
      intros j J. split; [|reflexivity]. intros v INN. exfalso. apply (SE' j J).
      * rewrite forallb_forall in ALL. apply ALL. apply nth_In. lia.
      * apply in_map_iff. exists (mk_dsym (full j) v). split; [reflexivity|exact INN].
    + rewrite U24. destruct (IH (sym + 24) _ seen' ST' ND' EL' SL' SE' VA') as (e' & E1 & E2 & E3).
      exists e'. split; [exact E1|]. split; [exact E2|]. apply FIN; assumption.
Qed.
