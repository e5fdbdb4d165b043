(** Proofs about the interposed functions and start-up. *)
From Coq Require Import String.
From Verif Require Import Base BaseFacts StrModel TextModel TextSpec TextProofs LibModel OptModel OptSpec
  CliModel CliProofs LockProofs ItpModel ItpSpec.

Lemma s32_id v : - 2 ^ 31 <= v < 2 ^ 31 -> s32 v = v.
Proof.
  intros B. unfold s32, u32. change (2 ^ 31) with 2147483648 in *. change (2 ^ 32) with 4294967296.
  destruct (Z.ltb_spec (v mod 4294967296) 2147483648).
  - destruct (Z.ltb_spec v 0).
    + exfalso. assert (v mod 4294967296 = v + 4294967296).
      { rewrite <- (Z.mod_small (v + 4294967296) 4294967296) by lia.
        replace (v + 4294967296) with (v + 1 * 4294967296) by lia. rewrite Z.mod_add by lia. reflexivity. }
      lia.
    + rewrite Z.mod_small by lia. reflexivity.
  - destruct (Z.ltb_spec v 0).
    + assert (v mod 4294967296 = v + 4294967296).
      { rewrite <- (Z.mod_small (v + 4294967296) 4294967296) by lia.
        replace (v + 4294967296) with (v + 1 * 4294967296) by lia. rewrite Z.mod_add by lia. reflexivity. }
      lia.
    + rewrite Z.mod_small in * by lia. lia.
Qed.

Lemma count_back v : - 2 ^ 31 <= v < 2 ^ 31 -> s32 (s32 (v + 1) - 1) = v.
Proof.
  intros B. replace (s32 (v + 1) - 1) with (s32 (v + 1) + -1) by lia. rewrite s32_s32_add.
  replace (v + 1 + -1) with v by lia. apply s32_id, B.
Qed.

(** ** Powers of two *)

Lemma land_pow2 a : 0 < a -> Z.land a (a - 1) = 0 <-> power_of_two a.
Proof.
  intros P. split.
  - intros E. exists (Z.log2 a). pose proof (Z.log2_nonneg a) as N. split; [exact N|].
    pose proof (Z.log2_spec a P) as S. destruct (Z.eq_dec a (2 ^ Z.log2 a)) as [Q|Q]; [exact Q|exfalso].
    assert (B : Z.testbit (Z.land a (a - 1)) (Z.log2 a) = true).
    { rewrite Z.land_spec. apply andb_true_iff. split.
      - apply Z.bit_log2, P.
      - assert (L : Z.log2 (a - 1) = Z.log2 a) by (apply Z.log2_unique; lia).
        rewrite <- L at 1. apply Z.bit_log2. pose proof (Z.pow_pos_nonneg 2 (Z.log2 a)). lia. }
    rewrite E, Z.bits_0 in B. discriminate.
  - intros (k & K & ->). replace (2 ^ k - 1) with (Z.ones k) by (rewrite Z.ones_equiv; lia).
    rewrite Z.land_ones by exact K. apply Z.mod_same. pose proof (Z.pow_pos_nonneg 2 k). lia.
Qed.

Lemma u64_pred a : 0 < a < 2 ^ 64 -> u64 (a - 1) = a - 1.
Proof. intros B. unfold u64. apply Z.mod_small. lia. Qed.

Lemma powerof2_spec a : 0 < a < 2 ^ 64 -> powerof2 a = true <-> power_of_two a.
Proof.
  intros B. unfold powerof2. rewrite u64_pred by exact B. rewrite Z.land_comm, Z.eqb_eq. apply land_pow2. lia.
Qed.

Lemma land_divide k s : 0 <= k -> Z.land s (2 ^ k - 1) = 0 <-> (2 ^ k | s).
Proof.
  intros K. replace (2 ^ k - 1) with (Z.ones k) by (rewrite Z.ones_equiv; lia).
  rewrite Z.land_ones by exact K. pose proof (Z.pow_pos_nonneg 2 k ltac:(lia) K).
  split; intros E; [apply Z.mod_divide in E; [exact E|lia] | apply Z.mod_divide; [lia|exact E]].
Qed.

(** The test of aligned_alloc. *)
Lemma aligned_test a s : 0 <= a < 2 ^ 64 -> 0 <= s < 2 ^ 64 ->
  negb (Z.land a (u64 (a - 1)) =? 0) || negb (Z.land s (u64 (a - 1)) =? 0) = false <->
  (power_of_two a /\ (a | s)) \/ (a = 0 /\ s = 0).
Proof.
  intros A S. rewrite orb_false_iff, !negb_false_iff, !Z.eqb_eq.
  destruct (Z.eq_dec a 0) as [->|N].
  - change (u64 (0 - 1)) with (Z.ones 64). rewrite Z.land_0_l, Z.land_ones by lia.
    rewrite Z.mod_small by exact S. split.
    + intros [_ ->]. right. auto.
    + intros [[(k & K & E) _] | [_ ->]]; [|auto]. pose proof (Z.pow_pos_nonneg 2 k ltac:(lia) K). lia.
  - rewrite u64_pred by lia. rewrite land_pow2 by lia. split.
    + intros [P E]. left. split; [exact P|]. destruct P as (k & K & ->). apply land_divide; assumption.
    + intros [[P D]|[-> _]]; [|lia]. split; [exact P|]. destruct P as (k & K & ->). apply land_divide; assumption.
Qed.

Lemma pow2_div8 a : (8 | a) -> 0 < a -> power_of_two (a / 8) <-> power_of_two a.
Proof.
  intros [q ->] P. rewrite Z.div_mul by lia. split.
  - intros (k & K & ->). exists (k + 3). split; [lia|]. rewrite Z.pow_add_r by lia. reflexivity.
  - intros (k & K & E). assert (3 <= k).
    { destruct (Z_lt_le_dec k 3); [|lia]. exfalso.
      assert (k = 0 \/ k = 1 \/ k = 2) as [-> | [-> | ->]] by lia; cbn in E; lia. }
    exists (k - 3). split; [lia|]. replace k with (k - 3 + 3) in E by lia. rewrite Z.pow_add_r in E by lia.
    change (2 ^ 3) with 8 in E. lia.
Qed.

(** The test of posix_memalign. *)
Lemma posix_test a : 0 <= a < 2 ^ 64 ->
  negb (a mod 8 =? 0) || negb (powerof2 (a / 8)) || (a =? 0) = false <-> (power_of_two a /\ (8 | a)).
Proof.
  intros A. rewrite !orb_false_iff, !negb_false_iff, Z.eqb_eq, Z.eqb_neq. split.
  - intros [[M P] N]. apply Z.mod_divide in M; [|lia]. split; [|exact M].
    pose proof M as [q Q]. assert (E : a / 8 = q) by (rewrite Q; apply Z.div_mul; lia).
    apply powerof2_spec in P; [|rewrite E; lia]. exact (proj1 (pow2_div8 a M ltac:(lia)) P).
  - intros [P M]. assert (0 < a).
    { destruct P as (k & K & ->). pose proof (Z.pow_pos_nonneg 2 k). lia. }
    split; [split|lia].
    + apply Z.mod_divide; [lia|exact M].
    + pose proof M as [q Q]. assert (E : a / 8 = q) by (rewrite Q; apply Z.div_mul; lia).
      apply powerof2_spec; [rewrite E; lia|]. exact (proj2 (pow2_div8 a M ltac:(lia)) P).
Qed.

(** ** Programs *)

Section Runs.
  Context {H : Type}.
  Variable L : libc H.
  Variable w : sysw.
  Hypothesis ONE : one_allocator L.
  Hypothesis GL : glibc_aligned L.
  Hypothesis START : exists st, ulp_asunsafe_begin w i_start = S_ok st.

  (** The constructor has not run, or the pointers are what dlsym finds. *)
  Definition sane (st : istate) : Prop :=
    st = i_start \/ (i_ptr st = w_found w /\ i_flag st = 0).

  Lemma begin_sane st : sane st ->
    exists st1, ulp_asunsafe_begin w st = S_ok st1 /\ i_ptr st1 = w_found w /\ i_flag st1 = 0.
  Proof.
    intros [->|[P F]].
    - destruct START as (st & E). exists st. split; [exact E|]. revert E.
      unfold ulp_asunsafe_begin. cbn [i_start i_ptr i_flag i_locks i_err].
      destruct (negb _).
      + intros E. injection E as <-. split; reflexivity.
      + destruct (get_ld_global_locks _ _) as [| | |a b]; try discriminate.
        destruct (asunsafe_begin _ _ _ _ _); [|discriminate]. intros E. injection E as <-. split; reflexivity.
    - destruct (i_ptr st F_malloc) eqn:M.
      + exists st. unfold ulp_asunsafe_begin. rewrite M. auto.
      + unfold ulp_asunsafe_begin. rewrite M.
        assert (N : forallb (w_found w) all_libc = false).
        { unfold all_libc. cbn [forallb]. rewrite <- P, M. rewrite andb_false_r. reflexivity. }
        rewrite N, andb_false_r. cbn [negb]. eexists. split; [reflexivity|]. split; [reflexivity|exact F].
  Qed.

  Lemma counted_real st c h : sane st -> i_flag st = 0 /\
    (st = i_start -> False) ->
    exists st', counted L st c h = O_done (fst (l_real L c h)) (snd (l_real L c h)) st' (Some 1) /\ sane st' /\ i_ptr st' = i_ptr st.
  Proof.
    intros [->|[P F]] [Z0 NS]; [contradiction NS; reflexivity|].
    unfold counted. rewrite F. destruct (l_real L c h) as [a h']. eexists. split; [reflexivity|].
    split; [|reflexivity]. right. split; [exact P|reflexivity].
  Qed.

  Lemma direct_real st c h :
    In (fn_of c) [F_free; F_malloc; F_calloc; F_realloc; F_valloc; F_pvalloc; F_memalign] ->
    direct L st c h = O_done (fst (l_real L c h)) (snd (l_real L c h)) st (Some (i_flag st)).
  Proof. intros I. unfold direct. rewrite ONE by exact I. destruct (l_real L c h). reflexivity. Qed.

  Lemma not_known_real st c h : proper c -> ~ uses_dl c ->
    exists d, not_known L st c h = O_done (fst (l_real L c h)) (snd (l_real L c h)) st d.
  Proof.
    intros PR ND. destruct c; try (eexists; apply direct_real; cbn; tauto); try (contradiction ND; exact I).
    - cbn [not_known proper] in *. destruct PR as (A & S & P & D).
      rewrite (proj2 (aligned_test _ _ A S)) by auto. eexists. rewrite direct_real by (cbn; tauto).
      destruct GL as (_ & _ & G). rewrite G by exact P. reflexivity.
    - cbn [not_known proper] in *. destruct PR as (A & S). destruct GL as (G1 & G2 & _).
      destruct (negb _ || _ || _) eqn:T.
      + rewrite G1; [eexists; reflexivity|]. intros Q. apply posix_test in Q; [|exact A]. congruence.
      + apply posix_test in T; [|exact A]. rewrite ONE by (cbn; tauto).
        destruct (l_real L (Memalign alignment size) h) as [m h'] eqn:E.
        destruct (G2 _ _ _ _ _ (proj1 T) (proj2 T) E) as [Y N].
        destruct (Z.eqb_spec (a_ret m) 0) as [Q|Q]; cbn [negb].
        * rewrite N by exact Q. eexists. reflexivity.
        * rewrite Y by exact Q. eexists. reflexivity.
  Qed.

  Lemma dl_uses c : is_dl (fn_of c) = true <-> uses_dl c.
  Proof. destruct c; cbn; split; intros; try discriminate; try contradiction; auto. Qed.

  Lemma one_call st c h : sane st -> proper c -> (uses_dl c -> w_found w (fn_of c) = true) ->
    exists st' d, interposed L w st c h = O_done (fst (l_real L c h)) (snd (l_real L c h)) st' d /\ sane st'.
  Proof.
    intros SA PR FO. unfold interposed. destruct (is_dl (fn_of c)) eqn:D.
    - apply dl_uses in D. specialize (FO D). destruct (i_ptr st (fn_of c)) eqn:P.
      + assert (NS : st <> i_start) by (intros ->; discriminate P).
        destruct SA as [->|SA]; [contradiction NS; reflexivity|].
        destruct (counted_real st c h (or_intror SA)) as (st' & E & S' & _); [split; [apply SA|exact NS]|].
        rewrite E. eauto.
      + destruct (begin_sane st SA) as (st1 & E & P1 & F1). rewrite E. rewrite P1, FO.
        assert (S1 : sane st1) by (right; auto).
        assert (NS : st1 <> i_start) by (intros ->; rewrite <- P1 in FO; discriminate FO).
        destruct (counted_real st1 c h S1) as (st' & E' & S' & _); [auto|]. rewrite E'. eauto.
    - assert (ND : ~ uses_dl c) by (intros U; apply dl_uses in U; congruence).
      destruct (i_ptr st (fn_of c)) eqn:P.
      + assert (NS : st <> i_start) by (intros ->; discriminate P).
        destruct SA as [->|SA]; [contradiction NS; reflexivity|].
        destruct (counted_real st c h (or_intror SA)) as (st' & E & S' & _); [split; [apply SA|exact NS]|].
        rewrite E. eauto.
      + destruct (not_known_real st c h PR ND) as (d & E). rewrite E. eauto.
  Qed.

  Lemma run_plain p : forall st h, sane st ->
    (forall c, In (Some c) p -> proper c /\ (uses_dl c -> w_found w (fn_of c) = true)) ->
    exists st', run_calls L w st p h = Some (fst (plain L p h), snd (plain L p h), st') /\ sane st'.
  Proof.
    induction p as [|[c|] p IH]; intros st h SA OK; cbn [run_calls plain].
    - eauto.
    - destruct (OK c (or_introl eq_refl)) as [PR FO].
      destruct (one_call st c h SA PR FO) as (st' & d & -> & S').
      destruct (l_real L c h) as [a h1]. cbn [fst snd].
      destruct (IH st' h1 S' ltac:(intros; apply OK; right; assumption)) as (st2 & E & S2).
      rewrite E. destruct (plain L p h1) as [l h2]. cbn [fst snd]. eauto.
    - destruct (begin_sane st SA) as (st1 & E & P1 & F1). rewrite E.
      apply IH; [right; auto|]. intros; apply OK; right; assumption.
  Qed.

  Lemma sane_flag st : sane st -> i_flag st = 0.
  Proof. intros [->|[_ F]]; [reflexivity|exact F]. Qed.
End Runs.

(** ** The locks *)

Lemma offsets : offsetof RTLD_2_31 2 = 2312 /\ offsetof RTLD_2_31 3 = 2352 /\
  offsetof RTLD_2_35 2 = 2568 /\ offsetof RTLD_2_35 3 = 2608 /\
  offsetof RTLD_2_42 2 = 1800 /\ offsetof RTLD_2_42 3 = 1840.
Proof. repeat split. Qed.

Lemma atoi_decimal t v : decimal t v -> v < 2 ^ 31 -> atoi_any t = v.
Proof.
  intros D B. apply decimal_digits in D. destruct D as (F & N & V & P).
  unfold atoi_any. rewrite strtol10_digits by exact F. rewrite V. change (2 ^ 31) with 2147483648 in *.
  rewrite Z.min_l by (change (2 ^ 63) with 9223372036854775808; lia).
  apply s32_id. change (2 ^ 31) with 2147483648. lia.
Qed.

Lemma version_tokens v m : glibc_2 v m ->
  zlen v < 32 /\ exists r d r', strtok_dot v = (Some (zs "2"), r) /\ strtok_dot r = (Some d, r') /\ decimal d m.
Proof.
  intros (d & rest & -> & D & R & B). split; [exact B|].
  exists (d ++ rest). change (zs "2.") with (zs "2" ++ [46]). rewrite <- app_assoc. cbn [app].
  rewrite strtok_comp by (split; [discriminate|intros [E|[]]; discriminate E]).
  destruct (strtok_tail d rest (decimal_no_dot _ _ D)) as (r' & E).
  { destruct R as [->|(r & ->)]; [left; reflexivity|right; eexists; reflexivity]. }
  exists d, r'. auto.
Qed.

Lemma locks_found rtld v m : glibc_2 v m -> 31 <= m < 2 ^ 31 ->
  get_ld_global_locks (Some rtld) v = L_at (rtld + fst (lock_offsets m)) (rtld + snd (lock_offsets m)).
Proof.
  intros V M. destruct (version_tokens v m V) as (B & r & d & r' & E1 & E2 & D).
  unfold get_ld_global_locks, LIBC_VER_SIZE. destruct (Z.leb_spec 32 (zlen v)); [lia|].
  rewrite E1, E2, (atoi_decimal d m D) by lia. change (atoi_any (zs "2")) with 2. cbn [Z.eqb Pos.eqb].
  destruct offsets as (O1 & O2 & O3 & O4 & O5 & O6). unfold lock_offsets, locks_in.
  destruct (Z.leb_spec 31 m); [|lia]. destruct (Z.ltb_spec m 35); cbn [andb].
  - rewrite O1, O2. reflexivity.
  - destruct (Z.leb_spec 35 m); [|lia]. destruct (Z.ltb_spec m 42); cbn [andb].
    + rewrite O3, O4. reflexivity.
    + destruct (Z.leb_spec 42 m); [|lia]. rewrite O5, O6. reflexivity.
Qed.

Lemma locks_old rtld v m : glibc_2 v m -> m < 31 -> get_ld_global_locks (Some rtld) v = L_exit.
Proof.
  intros V M. destruct (version_tokens v m V) as (B & r & d & r' & E1 & E2 & D).
  unfold get_ld_global_locks, LIBC_VER_SIZE. destruct (Z.leb_spec 32 (zlen v)); [lia|].
  rewrite E1, E2, (atoi_decimal d m D) by lia. change (atoi_any (zs "2")) with 2. cbn [Z.eqb Pos.eqb].
  destruct (Z.leb_spec 31 m); [lia|]. destruct (Z.leb_spec 35 m); [lia|]. destruct (Z.leb_spec 42 m); [lia|].
  reflexivity.
Qed.
