(** Proofs about the trigger command. *)
From Verif Require Import Base BaseFacts StrModel InsnQModel LibModel PtModel HjModel TrModel TrSpec.
From Coq Require Import Lia.

(** ** One attempt *)

Lemma one_attempt_shape q a result : exists pre post,
  snd (one_attempt q a result) = pre ++ EvRestore (at_restore a) :: post /\
  Forall (fun e => match e with EvRange _ | EvRevert _ | EvApply _ => True | _ => False end) pre /\
  (post = [] \/ post = [EvSleep]).
Proof.
  unfold one_attempt.
  destruct (q_stack q && negb (at_range a =? 0)).
  { cbn [snd fst]. exists [EvRange (at_range a)]. eexists. split; [reflexivity|].
    split; [repeat constructor|]. destruct (result =? 0); auto. }
  set (x := if q_revert q then _ else _).
  assert (Hx : exists r s k evs, x = (r, s, k, evs) /\
    Forall (fun e => match e with EvRange _ | EvRevert _ | EvApply _ => True | _ => False end) evs).
  { subst x. destruct (q_revert q).
    - destruct (negb _); do 4 eexists; (split; [reflexivity|]); repeat constructor.
    - do 4 eexists; split; [reflexivity|]; constructor. }
  destruct Hx as (r & s & k & evs & -> & Hevs).
  destruct (q_patch q && negb k).
  - cbn [snd fst]. eexists. eexists. split; [reflexivity|].
    split; [|destruct (at_apply a =? 0); auto].
    apply Forall_app; split; [destruct (q_stack q); repeat constructor|].
    apply Forall_app; split; [assumption|repeat constructor].
  - cbn [snd fst]. eexists. eexists. split; [reflexivity|].
    split; [|destruct (r =? 0); auto].
    apply Forall_app; split; [destruct (q_stack q); repeat constructor|assumption].
Qed.

Lemma disciplined_mid pre t :
  Forall (fun e => match e with EvRange _ | EvRevert _ | EvApply _ => True | _ => False end) pre ->
  disciplined true t -> disciplined true (pre ++ t).
Proof.
  intros H Ht. induction pre as [|e pre IH]; [assumption|].
  inversion H; subst. destruct e; try contradiction; cbn; auto.
Qed.

Lemma loop_disciplined q ans retry : forall i result,
  disciplined false (snd (trigger_loop q ans retry i result)).
Proof.
  induction retry as [|n IH]; intros i result; cbn [trigger_loop]; [reflexivity|].
  destruct ((at_hijack (ans i) =? ETHRDDETTACH) || (0 <? at_hijack (ans i))) eqn:Eh.
  { cbn [snd disciplined]. split; [reflexivity|].
    apply Bool.orb_true_iff in Eh. unfold ETHRDDETTACH in Eh.
    apply Z.leb_gt. destruct Eh as [Eh|Eh]; [apply Z.eqb_eq in Eh|apply Z.ltb_lt in Eh]; lia. }
  apply Bool.orb_false_iff in Eh as [_ Eh]. apply Z.ltb_ge in Eh.
  destruct (one_attempt_shape q (ans i) result) as (pre & post & E & Hpre & Hpost).
  destruct (one_attempt q (ans i) result) as [[r1 stop] evs]. cbn [snd] in E. subst evs.
  assert (G : forall rest, disciplined false rest ->
      disciplined false (EvHijack (at_hijack (ans i)) :: (pre ++ EvRestore (at_restore (ans i)) :: post) ++ rest)).
  { intros rest Hr. cbn [disciplined]. split; [reflexivity|].
    apply Z.leb_le in Eh. rewrite Eh. rewrite <- app_assoc. apply disciplined_mid; [assumption|].
    cbn [app disciplined]. split; [reflexivity|]. destruct Hpost as [-> | ->]; cbn [app disciplined]; auto. }
  destruct stop.
  - apply (G []). reflexivity.
  - specialize (IH (S i) r1). destruct (trigger_loop q ans n (S i) r1) as [r rest]. cbn [snd] in *.
    apply G. assumption.
Qed.

Lemma attempts_app a b : attempts (a ++ b) = (attempts a + attempts b)%nat.
Proof. unfold attempts. rewrite filter_app, app_length. reflexivity. Qed.

Lemma one_attempt_no_hijack q a result : attempts (snd (one_attempt q a result)) = 0%nat.
Proof.
  destruct (one_attempt_shape q a result) as (pre & post & -> & Hpre & Hpost).
  rewrite attempts_app. assert (attempts pre = 0%nat).
  { clear -Hpre. induction Hpre as [|e l He _ IH]; [reflexivity|]. destruct e; try contradiction; apply IH. }
  rewrite H. destruct Hpost as [-> | ->]; reflexivity.
Qed.

Lemma loop_attempts q ans retry : forall i result,
  (attempts (snd (trigger_loop q ans retry i result)) <= retry)%nat.
Proof.
  induction retry as [|n IH]; intros i result; cbn [trigger_loop]; [apply le_n|].
  destruct ((at_hijack (ans i) =? ETHRDDETTACH) || (0 <? at_hijack (ans i))).
  { cbn. lia. }
  pose proof (one_attempt_no_hijack q (ans i) result) as Hn.
  destruct (one_attempt q (ans i) result) as [[r1 stop] evs]. cbn [snd] in Hn.
  destruct stop.
  - cbn [snd]. rewrite app_nil_r. change (attempts (EvHijack (at_hijack (ans i)) :: evs)) with (S (attempts evs)). lia.
  - specialize (IH (S i) r1). destruct (trigger_loop q ans n (S i) r1) as [r rest]. cbn [snd] in *.
    change (S (attempts (evs ++ rest)) <= S n)%nat. rewrite attempts_app. lia.
Qed.

(** ** What success means *)

Definition revert_done (q : treq) (r : Z) : Prop :=
  r = 0 \/ (q_patch q = true /\ (r = ENOTARGETLIB \/ r = ENOPATCH)).

(** An attempt that ends with result 0 although it started with another one did
    everything. *)
Lemma one_attempt_success q a result stop evs : result <> 0 ->
  one_attempt q a result = (0, stop, evs) ->
  (q_revert q = true -> revert_done q (at_revert a) /\ In (EvRevert (at_revert a)) evs) /\
  (q_patch q = true -> at_apply a = 0 /\ In (EvApply 0) evs) /\
  stop = true.
Proof.
  intros Hr E. unfold one_attempt in E.
  destruct (q_stack q && negb (at_range a =? 0)).
  { apply pair_equal_spec in E as [E _]. apply pair_equal_spec in E as [E _]. contradiction. }
  destruct (q_revert q) eqn:Eq.
  - set (r := if q_patch q && _ then 0 else _) in *.
    assert (Hrr : r = 0 -> revert_done q (at_revert a)).
    { subst r. unfold revert_done. destruct (q_patch q) eqn:Ep; cbn [andb]; [|auto].
      destruct ((at_revert a =? ENOTARGETLIB) || (at_revert a =? ENOPATCH)) eqn:Eo; [|auto].
      intros _. right. split; [reflexivity|].
      apply Bool.orb_true_iff in Eo as [Eo|Eo]; apply Z.eqb_eq in Eo; auto. }
    destruct (r =? 0) eqn:Er; cbn [negb] in E.
    + apply Z.eqb_eq in Er.
      destruct (q_patch q) eqn:Ep; cbn [andb negb] in E.
      * apply pair_equal_spec in E as [E Ee]. apply pair_equal_spec in E as [Ea Es].
        split; [|split].
        -- intros _. split; [auto|]. subst evs. rewrite !in_app_iff. cbn. auto 8.
        -- intros _. split; [assumption|]. subst evs. rewrite Ea, !in_app_iff. cbn. auto 8.
        -- rewrite <- Es. reflexivity.
      * apply pair_equal_spec in E as [E Ee]. apply pair_equal_spec in E as [Ea Es].
        split; [|split].
        -- intros _. split; [auto|]. subst evs. rewrite !in_app_iff. cbn. auto 8.
        -- discriminate.
        -- rewrite <- Es. reflexivity.
    + apply Z.eqb_neq in Er. exfalso. rewrite Bool.andb_false_r in E.
      apply pair_equal_spec in E as [E _]. apply pair_equal_spec in E as [E _]. contradiction.
  - split; [discriminate|].
    destruct (q_patch q) eqn:Ep; cbn [andb negb] in E.
    + apply pair_equal_spec in E as [E Ee]. apply pair_equal_spec in E as [Ea Es].
      split.
      * intros _. split; [assumption|]. subst evs. rewrite Ea, !in_app_iff. cbn. auto 8.
      * rewrite <- Es, Ea. reflexivity.
    + apply pair_equal_spec in E as [E _]. apply pair_equal_spec in E as [E _]. contradiction.
Qed.

Lemma loop_success q ans retry : forall i result, result <> 0 ->
  fst (trigger_loop q ans retry i result) = inr 0 ->
  exists j, (i <= j < i + retry)%nat /\
    (forall k, (i <= k <= j)%nat -> at_hijack (ans k) <= 0) /\
    (q_revert q = true -> revert_done q (at_revert (ans j)) /\
       In (EvRevert (at_revert (ans j))) (snd (trigger_loop q ans retry i result))) /\
    (q_patch q = true -> at_apply (ans j) = 0 /\ In (EvApply 0) (snd (trigger_loop q ans retry i result))) /\
    attempts (snd (trigger_loop q ans retry i result)) = S (j - i).
Proof.
  induction retry as [|n IH]; intros i result Hr H; cbn [trigger_loop] in *.
  { cbn in H. congruence. }
  destruct ((at_hijack (ans i) =? ETHRDDETTACH) || (0 <? at_hijack (ans i))) eqn:Eh; [discriminate|].
  apply Bool.orb_false_iff in Eh as [_ Eh]. apply Z.ltb_ge in Eh.
  pose proof (one_attempt_no_hijack q (ans i) result) as Hnh.
  destruct (one_attempt q (ans i) result) as [[r1 stop] evs] eqn:E1. cbn [snd] in Hnh.
  destruct (Z.eq_dec r1 0) as [->|Hr1].
  - destruct (one_attempt_success _ _ _ _ _ Hr E1) as (A & B & ->).
    cbn [fst snd] in *. exists i. split; [lia|]. split; [intros k Hk; replace k with i by lia; assumption|].
    split; [intros HR; destruct (A HR) as [A1 A2]; split; [assumption|right; apply in_or_app; auto]|].
    split; [intros HP; destruct (B HP) as [B1 B2]; split; [assumption|right; apply in_or_app; auto]|].
    rewrite app_nil_r. change (S (attempts evs) = S (i - i)). lia.
  - destruct stop.
    + cbn [fst] in H. congruence.
    + specialize (IH (S i) r1 Hr1).
      destruct (trigger_loop q ans n (S i) r1) as [r rest]. cbn [fst snd] in *.
      destruct (IH H) as (j & Hj & Hh & A & B & C). exists j. split; [lia|].
      split. { intros k Hk. destruct (Nat.eq_dec k i) as [->|]; [assumption|apply Hh; lia]. }
      split; [intros HR; destruct (A HR) as [A1 A2]; split; [assumption|right; apply in_or_app; auto]|].
      split; [intros HP; destruct (B HP) as [B1 B2]; split; [assumption|right; apply in_or_app; auto]|].
      change (S (attempts (evs ++ rest)) = S (j - i)). rewrite attempts_app. lia.
Qed.

(** ** Busy targets: a patch alone, without a stack check *)

Definition busy_attempt (a : attempt) : Prop :=
  at_hijack a = 0 /\ at_apply a = EAGAIN /\ at_restore a = 0.

Lemma one_attempt_patch_only q a result : q_patch q = true -> q_revert q = false -> q_stack q = false ->
  one_attempt q a result =
    (at_apply a, (at_apply a =? -1) || (at_apply a =? 0) || negb (at_restore a =? 0),
     [EvApply (at_apply a); EvRestore (at_restore a)] ++ (if at_apply a =? 0 then [] else [EvSleep])).
Proof. intros P R S0. unfold one_attempt. rewrite P, R, S0. reflexivity. Qed.

Lemma loop_busy q ans k : q_patch q = true -> q_revert q = false -> q_stack q = false ->
  forall retry i result, (k < retry)%nat ->
  (forall j, (i <= j < i + k)%nat -> busy_attempt (ans j)) ->
  at_hijack (ans (i + k)%nat) = 0 -> at_apply (ans (i + k)%nat) <> EAGAIN ->
  at_apply (ans (i + k)%nat) = 0 \/ at_apply (ans (i + k)%nat) = -1 ->
  fst (trigger_loop q ans retry i result) = inr (at_apply (ans (i + k)%nat)) /\
  attempts (snd (trigger_loop q ans retry i result)) = S k.
Proof.
  intros P R S0. induction k as [|k IH]; intros retry i result Hk Hb Hh Hne Hf;
    (destruct retry as [|n]; [lia|]); cbn [trigger_loop].
  - rewrite Nat.add_0_r in *. rewrite Hh. cbn [Z.eqb Z.ltb]. cbn.
    rewrite (one_attempt_patch_only q _ _ P R S0).
    replace ((at_apply (ans i) =? -1) || (at_apply (ans i) =? 0)) with true
      by (destruct Hf as [-> | ->]; reflexivity).
    cbn [orb fst snd]. split; [reflexivity|]. rewrite app_nil_r.
    destruct (at_apply (ans i) =? 0); reflexivity.
  - assert (Hi : busy_attempt (ans i)) by (apply Hb; lia). destruct Hi as (H1 & H2 & H3).
    rewrite H1. change ((0 =? ETHRDDETTACH) || (0 <? 0)) with false. cbn iota.
    rewrite (one_attempt_patch_only q _ _ P R S0), H2, H3.
    change ((EAGAIN =? -1) || (EAGAIN =? 0) || negb (0 =? 0)) with false.
    change (EAGAIN =? 0) with false. cbn iota.
    replace (i + S k)%nat with (S i + k)%nat in * by lia.
    destruct (IH n (S i) EAGAIN) as (A & B); try assumption; [lia|intros j Hj; apply Hb; lia|].
    destruct (trigger_loop q ans n (S i) EAGAIN) as [r rest]. cbn [fst snd] in *.
    split; [assumption|]. cbn [app]. unfold attempts in *. cbn [filter is_hijack length]. rewrite B. reflexivity.
Qed.

Lemma loop_all_busy q ans : q_patch q = true -> q_revert q = false -> q_stack q = false ->
  forall retry i result, (0 < retry)%nat ->
  (forall j, (i <= j < i + retry)%nat -> busy_attempt (ans j)) ->
  fst (trigger_loop q ans retry i result) = inr EAGAIN /\
  attempts (snd (trigger_loop q ans retry i result)) = retry.
Proof.
  intros P R S0. induction retry as [|n IH]; intros i result Hk Hb; [lia|]. cbn [trigger_loop].
  assert (Hi : busy_attempt (ans i)) by (apply Hb; lia). destruct Hi as (H1 & H2 & H3).
  rewrite H1. change ((0 =? ETHRDDETTACH) || (0 <? 0)) with false. cbn iota.
  rewrite (one_attempt_patch_only q _ _ P R S0), H2, H3.
  change ((EAGAIN =? -1) || (EAGAIN =? 0) || negb (0 =? 0)) with false.
  change (EAGAIN =? 0) with false. cbn iota.
  destruct n as [|n].
  { cbn. split; reflexivity. }
  destruct (IH (S i) EAGAIN) as (A & B); [lia|intros j Hj; apply Hb; lia|].
  destruct (trigger_loop q ans (S n) (S i) EAGAIN) as [r rest]. cbn [fst snd] in *.
  split; [assumption|]. cbn [app]. unfold attempts in *. cbn [filter is_hijack length]. rewrite B. reflexivity.
Qed.

(** ** Many processes *)

Lemma skippable_in r : skippable_error r = true <->
  In r [EBUILDID; ENOTARGETLIB; EUSRBLOCKED; EWILDNOMATCH; EAPPLIED; ENOPATCH; ESRCH].
Proof.
  unfold skippable_error. rewrite !Bool.orb_true_iff, !Z.eqb_eq. cbn [In]. intuition congruence.
Qed.

Lemma real_failure_iff r : real_failure r <-> r <> 0 /\ skippable_error r = false.
Proof.
  unfold real_failure. rewrite <- skippable_in. destruct (skippable_error r); intuition congruence.
Qed.

Lemma skippable_0 : skippable_error 0 = false.
Proof. reflexivity. Qed.

Lemma count_one_ret rs : forall c,
  c_ret (fold_left count_one rs c) = 0 <-> (c_ret c = 0 /\ forall r, In r rs -> ~ real_failure r).
Proof.
  induction rs as [|r rs IH]; intros c; cbn [fold_left].
  { cbn. intuition. }
  rewrite IH. unfold count_one. destruct (skippable_error r) eqn:Es; cbn [c_ret].
  - split; intros [A B]; (split; [assumption|]).
    + intros x [<-|Hx]; [rewrite real_failure_iff; intuition congruence|auto].
    + intros x Hx. apply B. right. assumption.
  - rewrite Z.lor_eq_0_iff. split.
    + intros [[A A'] B]. split; [assumption|]. intros x [<-|Hx]; [rewrite real_failure_iff; intuition congruence|auto].
    + intros [A B]. split.
      * split; [assumption|]. destruct (Z.eq_dec r 0); [assumption|]. exfalso. apply (B r (or_introl eq_refl)).
        apply real_failure_iff. auto.
      * intros x Hx. apply B. right. assumption.
Qed.

Definition count_if (p : Z -> bool) (rs : list Z) : Z := zlen (filter p rs).

Lemma count_if_cons p r rs : count_if p (r :: rs) = (if p r then 1 else 0) + count_if p rs.
Proof. unfold count_if, zlen. cbn [filter]. destruct (p r); cbn [length]; lia. Qed.

Lemma count_one_counts rs : forall c,
  c_succ (fold_left count_one rs c) = c_succ c + count_if (fun r => r =? 0) rs /\
  c_skip (fold_left count_one rs c) = c_skip c + count_if skippable_error rs /\
  c_fail (fold_left count_one rs c) = c_fail c + count_if (fun r => negb (r =? 0) && negb (skippable_error r)) rs.
Proof.
  induction rs as [|r rs IH]; intros c; cbn [fold_left].
  { unfold count_if. cbn. lia. }
  destruct (IH (count_one c r)) as (A & B & C). rewrite A, B, C, !count_if_cons.
  unfold count_one. destruct (skippable_error r) eqn:Es; cbn [c_succ c_skip c_fail].
  - assert (r =? 0 = false) as -> by (apply Z.eqb_neq; intros ->; discriminate). cbn. lia.
  - destruct (r =? 0); cbn; lia.
Qed.

Lemma count_wild_ret rs : forall c, c_ret (fold_left count_wild rs c) = c_ret c.
Proof. induction rs as [|r rs IH]; intros c; cbn [fold_left]; [reflexivity|]. rewrite IH. reflexivity. Qed.

Lemma count_wild_fail rs : forall c,
  c_fail (fold_left count_wild rs c) = c_fail c + count_if (fun r => negb (Z.land r PROCESS_PATCH_ERROR =? 0)) rs.
Proof.
  induction rs as [|r rs IH]; intros c; cbn [fold_left].
  { unfold count_if. cbn. lia. }
  rewrite IH, count_if_cons. unfold count_wild. cbn [c_fail]. destruct (negb _); lia.
Qed.

Lemma classify_cases r :
  (classify r = 1 /\ r = 0) \/ (classify r = 2 /\ skippable_error r = true) \/ (classify r = 4 /\ real_failure r).
Proof.
  unfold classify. destruct (r =? 0) eqn:E; [apply Z.eqb_eq in E; auto|].
  destruct (skippable_error r) eqn:S0; [auto|]. right; right. split; [reflexivity|].
  apply real_failure_iff. apply Z.eqb_neq in E. auto.
Qed.

(** Without recursion the mask describes exactly the attempted patches. *)
Lemma entry_flat matches wlen len e :
  (ulps_entry false matches wlen len e = (0, [])) \/
  (exists res, ulps_entry false matches wlen len e = (classify res, [res])).
Proof.
  destruct e as [name ch res]. cbn [ulps_entry].
  destruct (ULP_PATH_LEN <=? len + zlen name); [auto|].
  destruct ch; cbn [negb]; [auto|].
  destruct (is_so name && matches name); [right; eexists; reflexivity|auto].
Qed.

Lemma lor_fold_land f (es : list dent) m : forall a,
  Z.land (fold_left (fun ret e => Z.lor ret (f e)) es a) m = 0 <->
  (Z.land a m = 0 /\ forall e, In e es -> Z.land (f e) m = 0).
Proof.
  induction es as [|e es IH]; intros a; cbn [fold_left].
  { cbn. intuition. }
  rewrite IH, Z.land_lor_distr_l, Z.lor_eq_0_iff. split.
  - intros [[A B] C]. split; [assumption|]. intros x [<-|Hx]; auto.
  - intros [A B]. split; [split; [assumption|apply B; left; reflexivity]|]. intros x Hx. apply B. right. assumption.
Qed.

Lemma many_ulps_mask matches wlen len es :
  (Z.land (fst (trigger_many_ulps false matches wlen len (Some es))) PROCESS_PATCH_ERROR <> 0 <->
   exists r, In r (snd (trigger_many_ulps false matches wlen len (Some es))) /\ real_failure r).
Proof.
  unfold trigger_many_ulps. cbn [fst snd]. rewrite lor_fold_land. split.
  - intros H.
    assert (D : (exists e, In e es /\ Z.land (fst (ulps_entry false matches wlen len e)) PROCESS_PATCH_ERROR <> 0)).
    { clear -H. induction es as [|e es IH].
      - exfalso. apply H. split; [reflexivity|]. intros e [].
      - destruct (Z.eq_dec (Z.land (fst (ulps_entry false matches wlen len e)) PROCESS_PATCH_ERROR) 0) as [E|E].
        + destruct IH as (x & Hx & Hn).
          * intros [A B]. apply H. split; [assumption|]. intros x [<-|Hx]; auto.
          * exists x. split; [right; assumption|assumption].
        + exists e. split; [left; reflexivity|assumption]. }
    destruct D as (e & He & Hn). destruct (entry_flat matches wlen len e) as [E|(res & E)].
    + rewrite E in Hn. exfalso. apply Hn. reflexivity.
    + exists res. split.
      * apply in_flat_map. exists e. split; [assumption|]. rewrite E. left. reflexivity.
      * rewrite E in Hn. cbn [fst] in Hn.
        destruct (classify_cases res) as [[C _]|[[C _]|[_ C]]]; [rewrite C in Hn; exfalso; apply Hn; reflexivity|
          rewrite C in Hn; exfalso; apply Hn; reflexivity|assumption].
  - intros (r & Hr & Hf) [_ H]. apply in_flat_map in Hr as (e & He & Hr).
    specialize (H e He). destruct (entry_flat matches wlen len e) as [E|(res & E)]; rewrite E in *; cbn [fst snd] in *.
    + destruct Hr.
    + destruct Hr as [<-|[]]. destruct (classify_cases res) as [[_ C]|[[_ C]|[C _]]].
      * subst. destruct Hf as [Hf _]. apply Hf. reflexivity.
      * apply real_failure_iff in Hf as [_ Hf]. congruence.
      * rewrite C in H. discriminate.
Qed.

(** ** Suitability *)

Lemma sanity_loop_spec target bid os : forall seen,
  match sanity_loop target bid os seen with
  | None => exists d, In d os /\ get_basename (o_filename d) = target /\ o_build_id d = bid
  | Some b => (forall d, In d os -> get_basename (o_filename d) = target -> o_build_id d <> bid) /\
              (b = true <-> seen = true \/ exists d, In d os /\ get_basename (o_filename d) = target)
  end.
Proof.
  induction os as [|d os IH]; intros seen; cbn [sanity_loop].
  { split; [intros d []|]. split; [auto|]. intros [H|(d & [] & _)]; assumption. }
  destruct (bytes_eqb (get_basename (o_filename d)) target) eqn:En; cbn [andb].
  - apply bytes_eqb_eq in En. destruct (bytes_eqb bid (o_build_id d)) eqn:Eb.
    + apply bytes_eqb_eq in Eb. exists d. cbn. auto.
    + apply bytes_eqb_neq in Eb. specialize (IH (seen || true)%bool).
      destruct (sanity_loop target bid os (seen || true)) as [b|].
      * destruct IH as [A B]. split.
        -- intros x [<-|Hx] Hn; [congruence|auto].
        -- split; [intros _; right; exists d; cbn; auto|]. intros _. apply B. left. apply Bool.orb_true_r.
      * destruct IH as (x & Hx & Hy). exists x. cbn. auto.
  - apply bytes_eqb_neq in En. rewrite Bool.orb_false_r. specialize (IH seen).
    destruct (sanity_loop target bid os seen) as [b|].
    + destruct IH as [A B]. split.
      * intros x [<-|Hx] Hn; [contradiction|auto].
      * rewrite B. split.
        -- intros [H|(x & Hx & Hy)]; [auto|right; exists x; cbn; auto].
        -- intros [H|(x & [<-|Hx] & Hy)]; [auto|contradiction|right; exists x; auto].
    + destruct IH as (x & Hx & Hy). exists x. cbn. auto.
Qed.

(** ** An applied patch is reported as success *)

Lemma one_attempt_applied q a result r1 stop evs :
  one_attempt q a result = (r1, stop, evs) -> In (EvApply 0) evs -> r1 = 0 /\ stop = true.
Proof.
  intros E Hin. unfold one_attempt in E.
  destruct (q_stack q && negb (at_range a =? 0)).
  { apply pair_equal_spec in E as [_ E]. subst evs. exfalso.
    rewrite !in_app_iff in Hin. cbn in Hin. destruct (result =? 0); cbn in Hin; intuition discriminate. }
  set (x := if q_revert q then _ else _) in E.
  assert (Hx : exists r s k evs0, x = (r, s, k, evs0) /\ ~ In (EvApply 0) evs0).
  { subst x. destruct (q_revert q).
    - destruct (negb _); do 4 eexists; (split; [reflexivity|]); cbn; intuition discriminate.
    - do 4 eexists; split; [reflexivity|]; intros []. }
  destruct Hx as (r & s & k & evs0 & Ex & Hevs). rewrite Ex in E.
  destruct (q_patch q && negb k).
  - apply pair_equal_spec in E as [E Ee]. apply pair_equal_spec in E as [Ea Es].
    assert (at_apply a = 0) as Ha.
    { subst evs. rewrite !in_app_iff in Hin. destruct (q_stack q); destruct (at_apply a =? 0) eqn:E0; cbn in Hin;
        try (apply Z.eqb_eq in E0; assumption); intuition congruence. }
    split; [congruence|]. rewrite <- Es, Ha. cbn. rewrite !Bool.orb_true_r. reflexivity.
  - apply pair_equal_spec in E as [_ E]. subst evs. exfalso.
    rewrite !in_app_iff in Hin. destruct (q_stack q); destruct (r =? 0); cbn in Hin; intuition discriminate.
Qed.

Lemma loop_applied q ans retry : forall i result,
  In (EvApply 0) (snd (trigger_loop q ans retry i result)) ->
  fst (trigger_loop q ans retry i result) = inr 0.
Proof.
  induction retry as [|n IH]; intros i result Hin; cbn [trigger_loop] in *; [destruct Hin|].
  destruct ((at_hijack (ans i) =? ETHRDDETTACH) || (0 <? at_hijack (ans i))).
  { cbn in Hin. intuition discriminate. }
  destruct (one_attempt q (ans i) result) as [[r1 stop] evs] eqn:E1.
  destruct stop.
  - cbn [fst snd] in *. rewrite app_nil_r in Hin. destruct Hin as [Hin|Hin]; [discriminate|].
    destruct (one_attempt_applied _ _ _ _ _ _ E1 Hin) as [-> _]. reflexivity.
  - specialize (IH (S i) r1). destruct (trigger_loop q ans n (S i) r1) as [r rest]. cbn [fst snd] in *.
    destruct Hin as [Hin|Hin]; [discriminate|]. apply in_app_or in Hin as [Hin|Hin]; [|auto].
    destruct (one_attempt_applied _ _ _ _ _ _ E1 Hin) as [_ ?]. discriminate.
Qed.

(** ** The retry rule *)

Lemma one_attempt_says q a res r stop evs :
  at_hijack a <= 0 -> one_attempt q a res = (r, stop, evs) ->
  (says q a (Some r) \/ (says q a None /\ r = res)) /\ (stop = false <-> goes_on q a) /\
  filter is_hijack evs = [].
Proof.
  intros Hh E. unfold one_attempt in E.
  assert (St : (q_stack q && negb (at_range a =? 0)) = true <-> stack_stops q a).
  { unfold stack_stops. rewrite Bool.andb_true_iff, Bool.negb_true_iff, Z.eqb_neq. reflexivity. }
  assert (Nw : q_patch q && ((at_revert a =? ENOTARGETLIB) || (at_revert a =? ENOPATCH)) = true \/ at_revert a = 0 <->
               nothing_in_the_way q (at_revert a)).
  { unfold nothing_in_the_way. rewrite Bool.andb_true_iff, Bool.orb_true_iff, !Z.eqb_eq. tauto. }
  assert (Fh : forall l b, filter is_hijack l = [] ->
    filter is_hijack (l ++ [EvRestore (at_restore a)] ++ (if b : bool then [] else [EvSleep])) = []).
  { intros l b Hl. rewrite filter_app, Hl. destruct b; reflexivity. }
  assert (F0 : filter is_hijack (if q_stack q then [EvRange (at_range a)] else []) = []) by (destruct (q_stack q); reflexivity).
  assert (Rs : negb (at_restore a =? 0) = false <-> at_restore a = 0) by (rewrite Bool.negb_false_iff; apply Z.eqb_eq).
  destruct (q_stack q && negb (at_range a =? 0)) eqn:Es.
  { pose proof (proj1 St eq_refl) as Ss. injection E as E1 E2 E3. subst r stop evs.
    split; [right; split; [apply says_stack; assumption|reflexivity]|]. split.
    - rewrite ?Bool.orb_false_iff, Rs. unfold goes_on. tauto.
    - apply Fh with (l := [EvRange (at_range a)]). reflexivity. }
  assert (Ns : ~ stack_stops q a) by (intro X; apply St in X; discriminate).
  destruct (q_revert q) eqn:Er.
  - destruct (q_patch q && ((at_revert a =? ENOTARGETLIB) || (at_revert a =? ENOPATCH))) eqn:En.
    + pose proof (proj1 Nw (or_introl eq_refl)) as Nw'. apply Bool.andb_true_iff in En as [Ep _].
      rewrite Ep in E. cbn [negb andb Z.eqb] in E. injection E as E1 E2 E3. subst r stop evs.
      split; [left; apply says_apply; auto|]. split.
      * unfold goes_on. split; [intro X; cbn [orb] in X; discriminate X|].
        intros (_ & _ & [X|[(_ & X & _)|[(X & _)|(X & _)]]]); [tauto|tauto|congruence|congruence].
      * apply Fh. rewrite !filter_app, F0. reflexivity.
    + destruct (at_revert a =? 0) eqn:E0; cbn [negb] in E.
      * apply Z.eqb_eq in E0. pose proof (proj1 Nw (or_intror E0)) as Nw'.
        destruct (q_patch q) eqn:Ep; cbn [negb andb] in E; injection E as E1 E2 E3; subst r stop evs.
        -- split; [left; apply says_apply; auto|]. split.
           ++ unfold goes_on. split; [intro X; cbn [orb] in X; discriminate X|].
              intros (_ & _ & [X|[(_ & X & _)|[(X & _)|(X & _)]]]); [tauto|tauto|congruence|congruence].
           ++ apply Fh. rewrite !filter_app, F0. reflexivity.
        -- split; [left; apply says_revert; auto|]. split.
           ++ unfold goes_on. split; [intro X; cbn [orb] in X; discriminate X|].
              intros (_ & _ & [X|[(_ & X & _)|[(X & _)|(X & _)]]]); [tauto|tauto|congruence|congruence].
           ++ apply Fh. rewrite !filter_app, F0. reflexivity.
      * apply Z.eqb_neq in E0.
        assert (Nn : ~ nothing_in_the_way q (at_revert a)) by (intro X; apply Nw in X as [X|X]; [discriminate|contradiction]).
        cbn [negb andb] in E. rewrite Bool.andb_false_r in E. injection E as E1 E2 E3. subst r stop evs.
        split; [left; apply says_revert; auto|]. split.
        -- rewrite ?Bool.orb_false_iff, Rs. unfold goes_on. rewrite Z.eqb_neq. split.
           ++ intros (X & Y). repeat split; auto.
           ++ intros (_ & Y & [X|[(_ & _ & X)|[(X & _)|(X & _)]]]); [tauto|tauto|congruence|congruence].
        -- apply Fh. rewrite !filter_app, F0. reflexivity.
  - destruct (q_patch q) eqn:Ep; cbn [negb andb] in E; injection E as E1 E2 E3; subst r stop evs.
    + split; [left; apply says_apply; auto|]. split.
      * rewrite ?Bool.orb_false_iff, Rs. cbn [orb]. rewrite !Z.eqb_neq. unfold goes_on. split.
        -- intros ((X & Y) & Z0). split; [assumption|]. split; [assumption|]. right; right; left. tauto.
        -- intros (_ & Y & [X|[(X & _)|[(_ & _ & X1 & X2)|(_ & X)]]]); [tauto|congruence|tauto|congruence].
      * apply Fh. rewrite !filter_app, F0. reflexivity.
    + split; [right; split; [apply says_nothing; auto|reflexivity]|]. split.
      * rewrite ?Bool.orb_false_iff, Rs. unfold goes_on. tauto.
      * apply Fh. rewrite !filter_app, F0. reflexivity.
Qed.

Lemma goes_on_dec q a : goes_on q a \/ ~ goes_on q a.
Proof.
  destruct (Z_le_dec (at_hijack a) 0) as [Hh|Hh]; [|right; intros (X & _); lia].
  destruct (one_attempt q a 0) as [[r stop] evs] eqn:E.
  destruct (one_attempt_says q a 0 r stop evs Hh E) as (_ & S1 & _).
  destruct stop; [right; intro X; apply S1 in X; discriminate|left; apply S1; reflexivity].
Qed.

Lemma last_answer_shift q ans d r n v :
  (says q (ans 0%nat) (Some r) \/ (says q (ans 0%nat) None /\ r = d)) ->
  last_answer q (fun i => ans (S i)) r n v -> last_answer q ans d (S n) v.
Proof.
  intros H L. induction L as [|n v0 v L IH Hs|n v0 L IH Hs].
  - destruct H as [H|[H ->]]; [eapply last_new|eapply last_old]; try exact H; constructor.
  - eapply last_new; [exact IH|exact Hs].
  - eapply last_old; [exact IH|exact Hs].
Qed.

(** The loop seen from attempt [i] on. *)
Lemma trigger_loop_shift q ans n i res :
  trigger_loop q ans n i res = trigger_loop q (fun j => ans (i + j)%nat) n 0 res.
Proof.
  assert (G : forall n i j res, trigger_loop q ans n (i + j) res = trigger_loop q (fun j => ans (i + j)%nat) n j res).
  { clear. induction n as [|n IH]; intros i j res; [reflexivity|]. cbn [trigger_loop].
    replace (S (i + j)) with (i + S j)%nat by lia.
    destruct ((at_hijack (ans (i + j)%nat) =? ETHRDDETTACH) || (0 <? at_hijack (ans (i + j)%nat))); [reflexivity|].
    destruct (one_attempt q (ans (i + j)%nat) res) as [[r1 stop] evs]. destruct stop; [reflexivity|].
    rewrite IH. reflexivity. }
  rewrite <- (G n i 0%nat res). f_equal. lia.
Qed.

Lemma trigger_loop_exact q : forall n ans res r evs,
  trigger_loop q ans n 0 res = (r, evs) ->
  (forall k, (k < n)%nat -> (forall j, (j < k)%nat -> goes_on q (ans j)) -> ~ goes_on q (ans k) ->
     attempts evs = S k /\
     (0 < at_hijack (ans k) -> r = inl (at_hijack (ans k))) /\
     (at_hijack (ans k) <= 0 -> exists v, r = inr v /\ last_answer q ans res (S k) v)) /\
  ((forall j, (j < n)%nat -> goes_on q (ans j)) ->
     attempts evs = n /\ exists v, r = inr v /\ last_answer q ans res n v).
Proof.
  induction n as [|n IH]; intros ans res r evs E; cbn [trigger_loop] in E.
  { injection E as E1 E2. subst r evs. split; [intros k Hk; lia|]. intros _. split; [reflexivity|].
    exists res. split; [reflexivity|constructor]. }
  destruct ((at_hijack (ans 0%nat) =? ETHRDDETTACH) || (0 <? at_hijack (ans 0%nat))) eqn:Eh.
  { assert (Hh : 0 < at_hijack (ans 0%nat)).
    { apply Bool.orb_true_iff in Eh as [Eh|Eh]; [apply Z.eqb_eq in Eh; unfold ETHRDDETTACH in Eh|apply Z.ltb_lt in Eh]; lia. }
    assert (Ng : ~ goes_on q (ans 0%nat)) by (intros (X & _); lia).
    injection E as E1 E2. subst r evs. split.
    - intros k Hk Hb Hn. destruct k as [|k]; [|exfalso; apply Ng; apply Hb; lia].
      split; [reflexivity|]. split; [reflexivity|]. intro; lia.
    - intro G. exfalso. apply Ng. apply G. lia. }
  assert (Hh : at_hijack (ans 0%nat) <= 0).
  { apply Bool.orb_false_iff in Eh as [_ Eh]. apply Z.ltb_ge in Eh. exact Eh. }
  destruct (one_attempt q (ans 0%nat) res) as [[r1 stop] evs1] eqn:Ea.
  destruct (one_attempt_says q _ res r1 stop evs1 Hh Ea) as (Sa & Sg & Sf).
  assert (A1 : forall rest, attempts (EvHijack (at_hijack (ans 0%nat)) :: evs1 ++ rest) = S (attempts rest)).
  { intro rest. unfold attempts. cbn [filter is_hijack length]. rewrite filter_app, Sf. reflexivity. }
  destruct stop.
  - assert (Ng : ~ goes_on q (ans 0%nat)) by (intro X; apply Sg in X; discriminate).
    injection E as E1 E2. subst r evs. split.
    + intros k Hk Hb Hn. destruct k as [|k]; [|exfalso; apply Ng; apply Hb; lia].
      split; [rewrite A1; reflexivity|]. split; [intro; lia|]. intros _.
      exists r1. split; [reflexivity|]. apply (last_answer_shift q ans res r1 0 r1 Sa). constructor.
    + intro G. exfalso. apply Ng. apply G. lia.
  - assert (Gn : goes_on q (ans 0%nat)) by (apply Sg; reflexivity).
    rewrite trigger_loop_shift in E. cbn [Nat.add] in E.
    destruct (trigger_loop q (fun j => ans (S j)) n 0 r1) as [r2 rest] eqn:El.
    injection E as E1 E2. subst r evs.
    destruct (IH (fun j => ans (S j)) r1 r2 rest El) as (I1 & I2). split.
    + intros k Hk Hb Hn. destruct k as [|k]; [contradiction|].
      destruct (I1 k ltac:(lia) (fun j Hj => Hb (S j) ltac:(lia)) Hn) as (J1 & J2 & J3).
      rewrite A1, J1. split; [reflexivity|]. split; [exact J2|]. intro X.
      destruct (J3 X) as (v & V1 & V2). exists v. split; [exact V1|]. exact (last_answer_shift q ans res r1 (S k) v Sa V2).
    + intro G. destruct (I2 (fun j Hj => G (S j) ltac:(lia))) as (J1 & v & V1 & V2).
      rewrite A1, J1. split; [reflexivity|]. exists v. split; [exact V1|]. exact (last_answer_shift q ans res r1 n v Sa V2).
Qed.
