(** Proofs about merging entry nops. *)
From Verif Require Import Base BaseFacts LibModel DlModel X86Model PtModel PostModel PostSpec.
From Coq Require Import Lia.

Definition zn (l : list Z) (k : Z) : Z := nth (Z.to_nat k) l 0.

Lemma upd_len l p v : 0 <= p < zlen l -> zlen (upd l p v) = zlen l.
Proof.
  intros H. unfold upd. rewrite zlen_app, zlen_cons. unfold zlen in *. rewrite firstn_length, skipn_length. lia.
Qed.

Lemma zn_upd l p v k : 0 <= p < zlen l -> 0 <= k -> zn (upd l p v) k = if k =? p then v else zn l k.
Proof.
  intros H Hk. unfold zn, upd. unfold zlen in H.
  destruct (Z.eqb_spec k p) as [->|Hne].
  - rewrite app_nth2; rewrite firstn_length; [|lia]. replace (Z.to_nat p - Nat.min (Z.to_nat p) (length l))%nat with 0%nat by lia. reflexivity.
  - destruct (Z_lt_ge_dec k p).
    + rewrite app_nth1 by (rewrite firstn_length; lia).
      rewrite <- (firstn_skipn (Z.to_nat p) l) at 2. rewrite app_nth1 by (rewrite firstn_length; lia). reflexivity.
    + rewrite app_nth2; rewrite firstn_length; [|lia].
      replace (Z.to_nat k - Nat.min (Z.to_nat p) (length l))%nat with (S (Z.to_nat k - Z.to_nat p - 1)) by lia. cbn [nth].
      rewrite <- (firstn_skipn (Z.to_nat (p + 1)) l) at 2.
      rewrite app_nth2; rewrite firstn_length; [|lia]. f_equal. lia.
Qed.

Lemma upd_same l p : 0 <= p < zlen l -> upd l p (zn l p) = l.
Proof.
  intros H. apply (nth_ext _ _ 0 0).
  - pose proof (upd_len l p (zn l p) H) as L. unfold zlen in L. lia.
  - intros n _. pose proof (zn_upd l p (zn l p) (Z.of_nat n) H ltac:(lia)) as E. unfold zn in *. rewrite Nat2Z.id in E.
    rewrite E. destruct (Z.eqb_spec (Z.of_nat n) p) as [<-|]; [rewrite Nat2Z.id|]; reflexivity.
Qed.

Lemma firstn_skipn_zn l off n : 0 <= off -> off + Z.of_nat n <= zlen l ->
  firstn n (skipn (Z.to_nat off) l) = map (fun k => zn l (off + Z.of_nat k)) (seq 0 n).
Proof.
  intros H1 H2. unfold zlen in H2.
  apply (nth_ext _ _ 0 (zn l (off + Z.of_nat 0))).
  - rewrite firstn_length, skipn_length, map_length, seq_length. lia.
  - intros k Hk. rewrite firstn_length, skipn_length in Hk.
    rewrite (map_nth (fun k => zn l (off + Z.of_nat k)) (seq 0 n) 0%nat k). rewrite seq_nth by lia. unfold zn. cbn [Nat.add].
    rewrite <- (firstn_skipn n (skipn (Z.to_nat off) l)) at 1.
    replace (nth k (firstn n (firstn n (skipn (Z.to_nat off) l) ++ skipn n (skipn (Z.to_nat off) l))) 0)
      with (nth k (skipn (Z.to_nat off) l) 0).
    + rewrite <- (firstn_skipn (Z.to_nat off) l) at 2. rewrite app_nth2; rewrite firstn_length; [|lia]. f_equal. lia.
    + rewrite firstn_skipn. rewrite <- (firstn_skipn n (skipn (Z.to_nat off) l)) at 1.
      rewrite app_nth1; [reflexivity|]. rewrite firstn_length, skipn_length. lia.
Qed.

Lemma sub4 l off : 0 <= off -> off + 4 <= zlen l ->
  sub_bytes l off 4 = Some [zn l off; zn l (off + 1); zn l (off + 2); zn l (off + 3)].
Proof.
  intros H1 H2. unfold sub_bytes.
  replace ((0 <=? off) && (off + 4 <=? zlen l)) with true
    by (symmetry; apply Bool.andb_true_iff; split; apply Z.leb_le; lia).
  change (Z.to_nat 4) with 4%nat. rewrite firstn_skipn_zn by lia. cbn [seq map]. rewrite Z.add_0_r. reflexivity.
Qed.

Lemma sub2 l off : 0 <= off -> off + 2 <= zlen l -> sub_bytes l off 2 = Some [zn l off; zn l (off + 1)].
Proof.
  intros H1 H2. unfold sub_bytes.
  replace ((0 <=? off) && (off + 2 <=? zlen l)) with true
    by (symmetry; apply Bool.andb_true_iff; split; apply Z.leb_le; lia).
  change (Z.to_nat 2) with 2%nat. rewrite firstn_skipn_zn by lia. cbn [seq map]. rewrite Z.add_0_r. reflexivity.
Qed.

Lemma sub_some l off n x : sub_bytes l off n = Some x -> 0 <= off /\ off + n <= zlen l.
Proof.
  unfold sub_bytes. destruct ((0 <=? off) && (off + n <=? zlen l)) eqn:E; [|discriminate].
  apply Bool.andb_true_iff in E as [A B]. apply Z.leb_le in A, B. auto.
Qed.

(** ** Sections *)

Lemma nth_put secs i p v j :
  nth_error (put secs i p v) j =
  if (j =? i)%nat then option_map (fun s => mk_esec (es_addr s) (upd (es_data s) p v)) (nth_error secs i)
  else nth_error secs j.
Proof.
  revert i j. induction secs as [|s t IH]; intros i j.
  - cbn [put]. destruct i, j; cbn; try reflexivity; destruct (Nat.eqb _ _); reflexivity.
  - destruct i, j; cbn [put nth_error Nat.eqb]; try reflexivity. apply IH.
Qed.

Lemma put_len secs i p v : length (put secs i p v) = length secs.
Proof. revert i. induction secs as [|s t IH]; intros [|i]; cbn; try reflexivity. rewrite IH. reflexivity. Qed.

(** Data of section [i]. *)
Definition dat (secs : list esec) (i : nat) : list Z :=
  match nth_error secs i with Some s => es_data s | None => [] end.

Lemma byte_at_zn secs i p : 
  byte_at secs i p = if (0 <=? p) && (p <? zlen (dat secs i)) then Some (zn (dat secs i) p) else None.
Proof.
  unfold byte_at, dat. destruct (nth_error secs i) as [s|].
  - destruct ((0 <=? p) && (p <? zlen (es_data s))) eqn:E; [|reflexivity].
    apply Bool.andb_true_iff in E as [A B]. apply Z.leb_le in A. apply Z.ltb_lt in B. unfold zn, zlen in *.
    apply nth_error_nth'. lia.
  - change (zlen []) with 0. destruct (0 <=? p) eqn:A; [|reflexivity]. apply Z.leb_le in A.
    replace (p <? 0) with false by (symmetry; apply Z.ltb_ge; lia). reflexivity.
Qed.

Lemma dat_put secs i p v j : (i < length secs)%nat ->
  dat (put secs i p v) j = if (j =? i)%nat then upd (dat secs i) p v else dat secs j.
Proof.
  intros H. unfold dat. rewrite nth_put. destruct (j =? i)%nat; [|reflexivity].
  destruct (nth_error secs i) as [s|] eqn:E; [reflexivity|]. apply nth_error_None in E. lia.
Qed.

Lemma addr_put secs i p v j : sec_addr (put secs i p v) j = sec_addr secs j.
Proof.
  unfold sec_addr. rewrite nth_put. destruct (Nat.eqb_spec j i) as [->|]; [|reflexivity].
  destruct (nth_error secs i); reflexivity.
Qed.

(** ** One merge *)

(** The place of one merge, with everything checked. *)
Definition endbr (l : list Z) (off : Z) : bool :=
  bytes_eqb [zn l off; zn l (off + 1); zn l (off + 2); zn l (off + 3)] insn_endbr64.
Definition place (l : list Z) (off : Z) : Z := if endbr l off then off + 4 else off.
Definition mergeable (l : list Z) (off : Z) : Prop :=
  0 <= off /\ off + 4 <= zlen l /\ place l off + 2 <= zlen l /\
  zn l (place l off + 1) = 144 /\ (zn l (place l off) = 144 \/ zn l (place l off) = 102).

Lemma merge_ok syms secs addr secs' :
  merge_nops_at_addr syms secs addr 2 = PO_ok secs' <->
  ((find (fun s => sy_value s =? addr) syms = None /\ secs' = secs) \/
   exists s a, find (fun s => sy_value s =? addr) syms = Some s /\
     sec_addr secs (Z.to_nat (sy_shndx s)) = Some a /\
     mergeable (dat secs (Z.to_nat (sy_shndx s))) (u64 (addr - a)) /\
     secs' = put secs (Z.to_nat (sy_shndx s)) (place (dat secs (Z.to_nat (sy_shndx s))) (u64 (addr - a))) 102).
Proof.
  unfold merge_nops_at_addr. change (negb (2 =? 2)) with false. cbn iota.
  destruct (find (fun s => sy_value s =? addr) syms) as [s|].
  2:{ split; [intros H; left; split; congruence|]. intros [[_ ->]|(s & a & H & _)]; [reflexivity|discriminate]. }
  set (i := Z.to_nat (sy_shndx s)).
  assert (E : (exists s0 a, Some s = Some s0 /\ sec_addr secs (Z.to_nat (sy_shndx s0)) = Some a /\
      mergeable (dat secs (Z.to_nat (sy_shndx s0))) (u64 (addr - a)) /\
      secs' = put secs (Z.to_nat (sy_shndx s0)) (place (dat secs (Z.to_nat (sy_shndx s0))) (u64 (addr - a))) 102) <->
    (exists a, sec_addr secs i = Some a /\ mergeable (dat secs i) (u64 (addr - a)) /\
       secs' = put secs i (place (dat secs i) (u64 (addr - a))) 102)).
  { split; [intros (s0 & a & H & H1); inversion H; subst s0; exists a; exact H1|].
    intros (a & H). exists s, a. split; [reflexivity|exact H]. }
  assert (E' : forall P, ((Some s = None /\ secs' = secs) \/ P) <-> P) by (intros P; split; [intros [[H _]|H]; [discriminate|exact H]|auto]).
  rewrite E', E. clear E E'. unfold sec_addr, dat.
  destruct (nth_error secs i) as [sec|]; cbn [option_map].
  2:{ split; [discriminate|]. intros (a & H & _). discriminate. }
  set (off := u64 (addr - es_addr sec)). set (l := es_data sec).
  assert (E : (exists a, Some (es_addr sec) = Some a /\ mergeable l (u64 (addr - a)) /\
                secs' = put secs i (place l (u64 (addr - a))) 102) <->
              (mergeable l off /\ secs' = put secs i (place l off) 102)).
  { split; [intros (a & H & H1); inversion H; subst a; exact H1|]. intros H. exists (es_addr sec). split; [reflexivity|exact H]. }
  rewrite E. clear E.
  assert (Hoff : 0 <= off) by (apply Z.mod_pos_bound; lia).
  destruct (sub_bytes l off 4) as [b4|] eqn:E4.
  2:{ split; [discriminate|]. intros [(M1 & M2 & _) _]. rewrite sub4 in E4 by assumption. discriminate. }
  destruct (sub_some _ _ _ _ E4) as [B1 B2]. rewrite sub4 in E4 by assumption. apply Some_inj in E4. subst b4.
  fold (endbr l off). fold (place l off).
  assert (Hpl : 0 <= place l off) by (unfold place; destruct (endbr l off); lia).
  destruct (sub_bytes l (place l off) 2) as [b2|] eqn:E2.
  2:{ split; [discriminate|]. intros [(M1 & M2 & M3 & _) _]. rewrite sub2 in E2 by assumption. discriminate. }
  destruct (sub_some _ _ _ _ E2) as [_ B3]. rewrite sub2 in E2 by assumption. apply Some_inj in E2. subst b2.
  destruct (zn l (place l off + 1) =? 144) eqn:C1; cbn [andb].
  - destruct ((zn l (place l off) =? 144) || (zn l (place l off) =? 102)) eqn:C2.
    + split.
      * intros H. split; [|congruence]. repeat split; try assumption; [apply Z.eqb_eq; assumption|].
        apply Bool.orb_true_iff in C2 as [C2|C2]; apply Z.eqb_eq in C2; auto.
      * intros [_ ->]. reflexivity.
    + split; [discriminate|]. intros [(M1 & M2 & M3 & M4 & M5) _].
      apply Bool.orb_false_iff in C2 as [C2 C3]. apply Z.eqb_neq in C2, C3. destruct M5; contradiction.
  - split; [discriminate|]. intros [(M1 & M2 & M3 & M4 & M5) _]. apply Z.eqb_neq in C1. contradiction.
Qed.

(** endbr64 neither appears nor disappears. *)
Lemma endbr_upd l p off : 0 <= p < zlen l -> 0 <= off -> (zn l p = 144 \/ zn l p = 102) ->
  endbr (upd l p 102) off = endbr l off.
Proof.
  intros H Ho Hv. unfold endbr. rewrite !zn_upd by lia.
  destruct (Z.eqb_spec off p) as [->|]; [destruct Hv as [-> | ->]; reflexivity|].
  destruct (Z.eqb_spec (off + 1) p) as [<-|].
  { cbn [bytes_eqb insn_endbr64]. replace (102 =? 15) with false by reflexivity.
    destruct Hv as [-> | ->]; [replace (144 =? 15) with false by reflexivity|replace (102 =? 15) with false by reflexivity];
      rewrite !Bool.andb_false_r; reflexivity. }
  destruct (Z.eqb_spec (off + 2) p) as [<-|].
  { cbn [bytes_eqb insn_endbr64]. replace (102 =? 30) with false by reflexivity.
    destruct Hv as [-> | ->]; [replace (144 =? 30) with false by reflexivity|replace (102 =? 30) with false by reflexivity];
      cbn [andb]; rewrite !Bool.andb_false_r; reflexivity. }
  destruct (Z.eqb_spec (off + 3) p) as [<-|]; [|reflexivity].
  cbn [bytes_eqb insn_endbr64]. replace (102 =? 250) with false by reflexivity.
  destruct Hv as [-> | ->]; [replace (144 =? 250) with false by reflexivity|replace (102 =? 250) with false by reflexivity];
    cbn [andb]; rewrite !Bool.andb_false_r; reflexivity.
Qed.

(** A change of section data: same sizes and addresses, and some bytes turned into
    102 that were 144 or 102. *)
Definition step (secs secs' : list esec) : Prop :=
  secs' = secs \/ exists i p, (i < length secs)%nat /\ 0 <= p < zlen (dat secs i) /\
    (zn (dat secs i) p = 144 \/ zn (dat secs i) p = 102) /\ secs' = put secs i p 102.

Lemma merge_step syms secs addr secs' :
  merge_nops_at_addr syms secs addr 2 = PO_ok secs' -> step secs secs'.
Proof.
  intros H. apply merge_ok in H as [[_ ->]|(s & a & _ & Ha & (M1 & M2 & M3 & M4 & M5) & ->)]; [left; reflexivity|].
  right. eexists. eexists. split; [|split; [|split; [exact M5|reflexivity]]].
  - unfold sec_addr in Ha. apply nth_error_Some. intros E. rewrite E in Ha. discriminate.
  - unfold place in *. destruct (endbr _ _); lia.
Qed.

Lemma step_facts secs secs' : step secs secs' ->
  length secs' = length secs /\
  (forall j, sec_addr secs' j = sec_addr secs j) /\
  (forall j, zlen (dat secs' j) = zlen (dat secs j)) /\
  (forall j off, 0 <= off -> endbr (dat secs' j) off = endbr (dat secs j) off).
Proof.
  intros [->|(i & p & Hi & Hp & Hv & ->)]; [auto|].
  split; [apply put_len|]. split; [intros j; apply addr_put|].
  split; intros j; [|intros off Ho]; rewrite dat_put by exact Hi; destruct (Nat.eqb_spec j i) as [->|]; try reflexivity.
  - apply upd_len. exact Hp.
  - apply endbr_upd; assumption.
Qed.

Inductive steps : list esec -> list esec -> Prop :=
| st_refl s : steps s s
| st_step s s' s'' : step s s' -> steps s' s'' -> steps s s''.

Lemma steps_facts secs secs' : steps secs secs' ->
  length secs' = length secs /\
  (forall j, sec_addr secs' j = sec_addr secs j) /\
  (forall j, zlen (dat secs' j) = zlen (dat secs j)) /\
  (forall j off, 0 <= off -> endbr (dat secs' j) off = endbr (dat secs j) off).
Proof.
  induction 1 as [|s s' s'' H _ (I1 & I2 & I3 & I4)]; [auto|]. destruct (step_facts _ _ H) as (A1 & A2 & A3 & A4).
  split; [congruence|]. split; [intros j; rewrite I2; apply A2|]. split; [intros j; rewrite I3; apply A3|].
  intros j off Ho. rewrite I4 by exact Ho. apply A4. exact Ho.
Qed.

Lemma fixup_steps syms entries : forall secs secs', nops_fixup syms entries secs = PO_ok secs' -> steps secs secs'.
Proof.
  induction entries as [|e t IH]; intros secs secs' H; cbn [nops_fixup] in H.
  { inversion H. constructor. }
  change (ULP_NOPS_LEN - PRE_NOPS_LEN) with 2 in H.
  destruct (merge_nops_at_addr syms secs (u64 (e + PRE_NOPS_LEN)) 2) as [s1| |] eqn:E; try discriminate.
  econstructor; [eapply merge_step; exact E|]. apply IH. exact H.
Qed.

(** ** The places merged *)

(** Entry [e] has its nops at [p] of section [i], computed from [secs]. *)
Definition target (syms : list esym) (secs : list esec) (e : Z) (i : nat) (p : Z) : Prop :=
  exists s a, find (fun s => sy_value s =? u64 (e + 14)) syms = Some s /\ i = Z.to_nat (sy_shndx s) /\
    sec_addr secs i = Some a /\ p = place (dat secs i) (u64 (u64 (e + 14) - a)).

Lemma target_stable syms secs secs' e i p : steps secs secs' ->
  (target syms secs e i p <-> target syms secs' e i p).
Proof.
  intros H. destruct (steps_facts _ _ H) as (_ & A & _ & B). unfold target.
  assert (P : forall a, place (dat secs' i) (u64 (u64 (e + 14) - a)) = place (dat secs i) (u64 (u64 (e + 14) - a))).
  { intros a. unfold place. rewrite B by (apply Z.mod_pos_bound; lia). reflexivity. }
  split; intros (s & a & F & -> & Sa & Hp); exists s, a; (split; [exact F|]; split; [reflexivity|]).
  - rewrite A, P. auto.
  - rewrite A in Sa. rewrite P in Hp. auto.
Qed.

(** Every changed byte is the first entry nop of some function of the table. *)
Lemma fixup_changes syms entries : forall secs secs',
  nops_fixup syms entries secs = PO_ok secs' ->
  forall i p, 0 <= p -> zn (dat secs' i) p <> zn (dat secs i) p ->
  zn (dat secs i) p = 144 /\ zn (dat secs' i) p = 102 /\
  exists e, In e entries /\ target syms secs e i p.
Proof.
  induction entries as [|e t IH]; intros secs secs' H i p Hp Hne; cbn [nops_fixup] in H.
  { inversion H. subst. contradiction. }
  change (ULP_NOPS_LEN - PRE_NOPS_LEN) with 2 in H. change PRE_NOPS_LEN with 14 in H.
  destruct (merge_nops_at_addr syms secs (u64 (e + 14)) 2) as [s1| |] eqn:E; try discriminate.
  pose proof (merge_step _ _ _ _ E) as Hst.
  assert (Hs1 : zn (dat s1 i) p = zn (dat secs i) p \/
                (zn (dat secs i) p = 144 /\ zn (dat s1 i) p = 102 /\ target syms secs e i p)).
  { apply merge_ok in E as [[_ ->]|(s & a & F & Ha & M & ->)]; [auto|].
    destruct M as (M1 & M2 & M3 & M4 & M5).
    assert (Hi : (Z.to_nat (sy_shndx s) < length secs)%nat).
    { unfold sec_addr in Ha. apply nth_error_Some. intros E0. rewrite E0 in Ha. discriminate. }
    rewrite dat_put by exact Hi. destruct (Nat.eqb_spec i (Z.to_nat (sy_shndx s))) as [->|]; [|auto].
    rewrite zn_upd by (unfold place in *; destruct (endbr _ _); lia).
    destruct (Z.eqb_spec p (place (dat secs (Z.to_nat (sy_shndx s))) (u64 (u64 (e + 14) - a)))) as [->|]; [|auto].
    destruct M5 as [M5|M5]; [right|left; congruence].
    split; [exact M5|]. split; [reflexivity|]. exists s, a. auto. }
  destruct (Z.eq_dec (zn (dat secs' i) p) (zn (dat s1 i) p)) as [Eq|Hne1].
  - destruct Hs1 as [Hs1|(A & B & C)]; [congruence|]. split; [exact A|]. split; [congruence|].
    exists e. split; [left; reflexivity|exact C].
  - destruct (IH s1 secs' H i p Hp Hne1) as (A & B & e' & He' & T).
    destruct Hs1 as [Hs1|(_ & C & _)]; [|congruence].
    split; [congruence|]. split; [exact B|]. exists e'. split; [right; exact He'|].
    eapply target_stable; [|exact T]. econstructor; [exact Hst|constructor].
Qed.

(** ** Afterwards *)

(** The targets of distinct entries are not adjacent. *)
Definition apart (syms : list esym) (secs : list esec) (entries : list Z) : Prop :=
  forall e1 e2 i p1 p2, In e1 entries -> In e2 entries ->
    target syms secs e1 i p1 -> target syms secs e2 i p2 -> p2 <> p1 + 1.

Definition merged (l : list Z) (p : Z) : Prop :=
  0 <= p /\ p + 2 <= zlen l /\ zn l p = 102 /\ zn l (p + 1) = 144.

Lemma fixup_merged syms all : forall entries secs secs',
  (forall e, In e entries -> In e all) -> apart syms secs all ->
  nops_fixup syms entries secs = PO_ok secs' ->
  forall e i p, In e all -> target syms secs e i p ->
    (In e entries -> merged (dat secs' i) p) /\ (merged (dat secs i) p -> merged (dat secs' i) p).
Proof.
  induction entries as [|e0 t IH]; intros secs secs' Hsub Hap H e i p He T; cbn [nops_fixup] in H.
  { inversion H. subst. split; [intros []|auto]. }
  change (ULP_NOPS_LEN - PRE_NOPS_LEN) with 2 in H. change PRE_NOPS_LEN with 14 in H.
  destruct (merge_nops_at_addr syms secs (u64 (e0 + 14)) 2) as [s1| |] eqn:E; try discriminate.
  pose proof (merge_step _ _ _ _ E) as Hst.
  assert (Hst' : steps secs s1) by (econstructor; [exact Hst|constructor]).
  assert (Hap1 : apart syms s1 all).
  { intros e1 e2 j p1 p2 I1 I2 T1 T2. eapply (Hap e1 e2 j p1 p2 I1 I2); eapply target_stable; eauto. }
  assert (T1 : target syms s1 e i p) by (apply (proj1 (target_stable syms secs s1 e i p Hst')); exact T).
  specialize (IH s1 secs' (fun x Hx => Hsub x (or_intror Hx)) Hap1 H e i p He T1). destruct IH as [IH1 IH2].
  assert (Hkeep : merged (dat secs i) p -> merged (dat s1 i) p).
  { intros (Q1 & Q2 & Q3 & Q4).
    apply merge_ok in E as [[_ ->]|(s & a & F & Ha & M & Es1)]; [split; auto|].
    destruct M as (M1 & M2 & M3 & M4 & M5).
    assert (Hi : (Z.to_nat (sy_shndx s) < length secs)%nat).
    { unfold sec_addr in Ha. apply nth_error_Some. intros E0. rewrite E0 in Ha. discriminate. }
    assert (T0 : target syms secs e0 (Z.to_nat (sy_shndx s)) (place (dat secs (Z.to_nat (sy_shndx s))) (u64 (u64 (e0 + 14) - a)))).
    { exists s, a. auto. }
    subst s1. rewrite dat_put by exact Hi. destruct (Nat.eqb_spec i (Z.to_nat (sy_shndx s))) as [->|]; [|split; auto].
    set (q := place _ _) in *.
    assert (Hq : 0 <= q < zlen (dat secs (Z.to_nat (sy_shndx s)))) by (unfold q, place in *; destruct (endbr _ _); lia).
    assert (q <> p + 1) by (apply (Hap e e0 (Z.to_nat (sy_shndx s)) p q He (Hsub e0 (or_introl eq_refl)) T T0)).
    unfold merged. rewrite upd_len by exact Hq. rewrite !zn_upd by lia.
    destruct (Z.eqb_spec p q); [|destruct (Z.eqb_spec (p + 1) q); [lia|auto]].
    destruct (Z.eqb_spec (p + 1) q); [lia|]. auto. }
  split; [|intros Hm; apply IH2, Hkeep, Hm].
  intros [->|Hin]; [|apply IH1; exact Hin]. apply IH2.
  destruct T as (s' & a' & F' & Hi' & Ha' & Hp').
  apply merge_ok in E as [[F _]|(s & a & F & Ha & M & ->)]; [congruence|].
  assert (s' = s) by congruence. subst s'. rewrite <- Hi' in *. assert (a' = a) by congruence. subst a'.
  destruct M as (M1 & M2 & M3 & M4 & M5). rewrite <- Hp' in *.
  assert (Hi : (i < length secs)%nat).
  { unfold sec_addr in Ha. apply nth_error_Some. intros E0. rewrite E0 in Ha. discriminate. }
  rewrite dat_put by exact Hi. rewrite Nat.eqb_refl.
  assert (Hq : 0 <= p < zlen (dat secs i)) by (rewrite Hp' in *; unfold place in *; destruct (endbr _ _); lia).
  unfold merged. rewrite upd_len by exact Hq. rewrite !zn_upd by lia.
  rewrite Z.eqb_refl. destruct (Z.eqb_spec (p + 1) p); [lia|]. repeat split; try lia; assumption.
Qed.

(** A section list is determined by addresses and data. *)
Lemma put_same secs i p : 0 <= p < zlen (dat secs i) -> zn (dat secs i) p = 102 -> put secs i p 102 = secs.
Proof.
  revert i. induction secs as [|s t IH]; intros i Hp Hz; [destruct i; reflexivity|].
  destruct i as [|i]; cbn [put].
  - unfold dat in *. cbn [nth_error] in *. rewrite <- Hz, upd_same by exact Hp. destruct s; reflexivity.
  - f_equal. apply IH; assumption.
Qed.

Lemma fixup_again syms entries secs :
  (forall e i p, In e entries -> target syms secs e i p -> merged (dat secs i) p) ->
  (forall e s, In e entries -> find (fun s => sy_value s =? u64 (e + 14)) syms = Some s ->
     exists a, sec_addr secs (Z.to_nat (sy_shndx s)) = Some a /\
       u64 (u64 (e + 14) - a) + 4 <= zlen (dat secs (Z.to_nat (sy_shndx s)))) ->
  nops_fixup syms entries secs = PO_ok secs.
Proof.
  induction entries as [|e t IH]; intros H1 H2; cbn [nops_fixup]; [reflexivity|].
  change (ULP_NOPS_LEN - PRE_NOPS_LEN) with 2. change PRE_NOPS_LEN with 14.
  assert (E : merge_nops_at_addr syms secs (u64 (e + 14)) 2 = PO_ok secs).
  { apply merge_ok. destruct (find (fun s => sy_value s =? u64 (e + 14)) syms) as [s|] eqn:F; [right|left; auto].
    destruct (H2 e s (or_introl eq_refl) F) as (a & Ha & Hl). exists s, a. split; [reflexivity|]. split; [exact Ha|].
    assert (T : target syms secs e (Z.to_nat (sy_shndx s)) (place (dat secs (Z.to_nat (sy_shndx s))) (u64 (u64 (e + 14) - a)))).
    { exists s, a. auto. }
    destruct (H1 e _ _ (or_introl eq_refl) T) as (Q1 & Q2 & Q3 & Q4).
    split.
    - unfold mergeable. split; [apply Z.mod_pos_bound; lia|]. auto.
    - symmetry. apply put_same; [lia|exact Q3]. }
  rewrite E. apply IH; intros; [eapply H1|eapply H2]; eauto; right; assumption.
Qed.

(** After a run that ended well, every entry with a symbol was inside its
    section. *)
Lemma fixup_inside syms entries : forall secs secs', nops_fixup syms entries secs = PO_ok secs' ->
  forall e s, In e entries -> find (fun s => sy_value s =? u64 (e + 14)) syms = Some s ->
     exists a, sec_addr secs (Z.to_nat (sy_shndx s)) = Some a /\
       u64 (u64 (e + 14) - a) + 4 <= zlen (dat secs (Z.to_nat (sy_shndx s))).
Proof.
  induction entries as [|e0 t IH]; intros secs secs' H e s Hin F; cbn [nops_fixup] in H; [destruct Hin|].
  change (ULP_NOPS_LEN - PRE_NOPS_LEN) with 2 in H. change PRE_NOPS_LEN with 14 in H.
  destruct (merge_nops_at_addr syms secs (u64 (e0 + 14)) 2) as [s1| |] eqn:E; try discriminate.
  destruct Hin as [->|Hin].
  - apply merge_ok in E as [[F' _]|(s' & a & F' & Ha & (M1 & M2 & _) & _)]; [congruence|].
    assert (s' = s) by congruence. subst s'. exists a. auto.
  - destruct (IH s1 secs' H e s Hin F) as (a & Ha & Hl).
    destruct (step_facts _ _ (merge_step _ _ _ _ E)) as (_ & A & B & _). exists a. rewrite <- A, <- B. auto.
Qed.

(** ** In terms of the specification *)

Lemma byte_at_some secs i p v : byte_at secs i p = Some v -> 0 <= p < zlen (dat secs i) /\ zn (dat secs i) p = v.
Proof.
  rewrite byte_at_zn. destruct ((0 <=? p) && (p <? zlen (dat secs i))) eqn:E; [|discriminate].
  apply Bool.andb_true_iff in E as [A B]. apply Z.leb_le in A. apply Z.ltb_lt in B.
  intros H. apply Some_inj in H. auto.
Qed.

Lemma byte_at_in secs i p : 0 <= p < zlen (dat secs i) -> byte_at secs i p = Some (zn (dat secs i) p).
Proof.
  intros H. rewrite byte_at_zn. replace ((0 <=? p) && (p <? zlen (dat secs i))) with true; [reflexivity|].
  symmetry. apply Bool.andb_true_iff. split; [apply Z.leb_le|apply Z.ltb_lt]; lia.
Qed.

Lemma zn_out l p : zlen l <= p -> zn l p = 0.
Proof. intros H. unfold zn. apply nth_overflow. unfold zlen in H. lia. Qed.

Lemma endbr_spec secs i off : 0 <= off -> (endbr (dat secs i) off = true <-> starts_with_endbr secs i off).
Proof.
  intros Ho. unfold endbr, starts_with_endbr. rewrite bytes_eqb_eq. unfold insn_endbr64. split.
  - intros H. inversion H as [[H0 H1 H2 H3]].
    assert (L : off + 3 < zlen (dat secs i)).
    { destruct (Z_lt_ge_dec (off + 3) (zlen (dat secs i))); [assumption|]. rewrite zn_out in H3 by lia. discriminate. }
    rewrite !byte_at_in by lia. rewrite H0, H1, H2, H3. auto.
  - intros (H0 & H1 & H2 & H3). apply byte_at_some in H0 as [_ ->], H1 as [_ ->], H2 as [_ ->], H3 as [_ ->]. reflexivity.
Qed.

Lemma target_spec syms secs e i p : 0 <= e -> e + 14 < 2 ^ 64 ->
  (target syms secs e i p <-> entry_nops syms secs e i p).
Proof.
  intros H1 H2. unfold target, entry_nops, function_at.
  assert (E : u64 (e + 14) = e + 14) by (unfold u64; apply Z.mod_small; lia). rewrite E. unfold u64.
  split.
  - intros (s & a & F & Hi & Ha & Hp). exists ((e + 14 - a) mod 2 ^ 64). split; [exists s, a; auto|].
    unfold place in Hp. pose proof (endbr_spec secs i ((e + 14 - a) mod 2 ^ 64) ltac:(apply Z.mod_pos_bound; lia)) as S0.
    destruct (endbr _ _); [left|right]; (split; [|exact Hp]); [apply S0; reflexivity|].
    intros H. apply S0 in H. discriminate.
  - intros (off & (s & a & F & Hi & Ha & ->) & Hc). exists s, a. split; [exact F|]. split; [exact Hi|]. split; [exact Ha|].
    unfold place. pose proof (endbr_spec secs i ((e + 14 - a) mod 2 ^ 64) ltac:(apply Z.mod_pos_bound; lia)) as S0.
    destruct Hc as [[Hc ->]|[Hc ->]].
    + apply S0 in Hc. rewrite Hc. reflexivity.
    + destruct (endbr _ _); [exfalso; apply Hc, S0; reflexivity|reflexivity].
Qed.

Lemma table_apart syms secs entries : table_ok entries -> apart syms secs entries.
Proof.
  intros [R D] e1 e2 i p1 p2 I1 I2 (s1 & a1 & F1 & Hi1 & A1 & P1) (s2 & a2 & F2 & Hi2 & A2 & P2) Heq.
  assert (a2 = a1) by congruence. subst a2. pose proof (R e1 I1). pose proof (R e2 I2).
  unfold u64 in *. rewrite (Z.mod_small (e1 + 14)) in * by lia. rewrite (Z.mod_small (e2 + 14)) in * by lia.
  pose proof (Z.div_mod (e1 + 14 - a1) (2 ^ 64) ltac:(lia)) as D1. pose proof (Z.div_mod (e2 + 14 - a1) (2 ^ 64) ltac:(lia)) as D2.
  set (o1 := (e1 + 14 - a1) mod 2 ^ 64) in *. set (o2 := (e2 + 14 - a1) mod 2 ^ 64) in *.
  destruct (D e1 e2 I1 I2) as [->|Hd].
  - assert (p1 = p2) by (unfold o1, o2 in *; congruence). lia.
  - unfold place in *.
    assert (Hc : o2 - o1 = 1 \/ o2 - o1 = 5 \/ o2 - o1 = -3).
    { destruct (endbr (dat secs i) o1), (endbr (dat secs i) o2); lia. }
    set (k1 := (e1 + 14 - a1) / 2 ^ 64) in *. set (k2 := (e2 + 14 - a1) / 2 ^ 64) in *.
    assert (e2 - e1 = 2 ^ 64 * (k2 - k1) + (o2 - o1)) by lia.
    assert (k2 - k1 = 0 \/ k2 - k1 >= 1 \/ k2 - k1 <= -1) as [Hk|[Hk|Hk]] by lia.
    + rewrite Hk in *. lia.
    + assert (2 ^ 64 * (k2 - k1) >= 2 ^ 64) by nia. lia.
    + assert (2 ^ 64 * (k2 - k1) <= - 2 ^ 64) by nia. lia.
Qed.
