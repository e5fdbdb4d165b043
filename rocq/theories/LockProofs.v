(** Proofs about the accounting of allocator calls. *)
From Verif Require Import Base BaseFacts InsnQModel LibModel LockModel LockSpec.

Lemma u32_s32 a : u32 (s32 a) = u32 a.
Proof.
  unfold s32, u32. destruct (a mod 2 ^ 32 <? 2 ^ 31) eqn:E.
  - apply Z.mod_mod. lia.
  - replace (a mod 2 ^ 32 - 2 ^ 32) with (a mod 2 ^ 32 + (-1) * 2 ^ 32) by lia.
    rewrite Z.mod_add by lia. apply Z.mod_mod. lia.
Qed.

Lemma s32_s32_add a d : s32 (s32 a + d) = s32 (a + d).
Proof.
  assert (E : u32 (s32 a + d) = u32 (a + d)).
  { pose proof (u32_s32 a) as H. unfold u32 in *.
    rewrite <- (Zplus_mod_idemp_l (s32 a)), H, Zplus_mod_idemp_l. reflexivity. }
  unfold s32 at 1. cbv zeta. rewrite E. reflexivity.
Qed.

Lemma s32_zero a : 0 <= a < 2 ^ 32 -> s32 a = 0 -> a = 0.
Proof.
  intros B H. unfold s32 in H. assert (E : u32 a = a) by (apply Z.mod_small; exact B).
  cbv zeta in H. rewrite E in H. destruct (a <? 2 ^ 31) eqn:C; [exact H|]. lia.
Qed.

Lemma calls_in_nonneg st : 0 <= calls_in st.
Proof. unfold calls_in. lia. Qed.

Lemma sum_upd (l : list (list frame)) : forall i st st',
  nth_error l i = Some st ->
  fold_right Z.add 0 (map calls_in (upd i st' l)) =
  fold_right Z.add 0 (map calls_in l) - calls_in st + calls_in st'.
Proof.
  induction l as [|x l IH]; intros i st st' H; [destruct i; discriminate|].
  destruct i as [|i]; cbn in H.
  - apply Some_inj in H. subst. cbn. lia.
  - cbn. rewrite (IH i st st' H). lia.
Qed.

Lemma sum_remove (l : list (list frame)) : forall i,
  nth_error l i = Some [] ->
  fold_right Z.add 0 (map calls_in (remove_nth i l)) = fold_right Z.add 0 (map calls_in l).
Proof.
  induction l as [|x l IH]; intros i H; [destruct i; discriminate|].
  destruct i as [|i]; cbn in H.
  - apply Some_inj in H. subst. cbn. reflexivity.
  - cbn. rewrite (IH i H). reflexivity.
Qed.

Lemma sum_nonneg (l : list (list frame)) : 0 <= fold_right Z.add 0 (map calls_in l).
Proof. induction l as [|x l IH]; cbn; [lia|]. pose proof (calls_in_nonneg x). lia. Qed.

Lemma sum_ge (l : list (list frame)) st : In st l ->
  calls_in st <= fold_right Z.add 0 (map calls_in l).
Proof.
  induction l as [|x l IH]; intros H; [contradiction|]. cbn.
  pose proof (calls_in_nonneg x). pose proof (sum_nonneg l).
  destruct H as [->|H]; [lia|]. specialize (IH H). lia.
Qed.

Lemma counted_in st : In Counted st -> 1 <= calls_in st.
Proof.
  unfold calls_in. intros H.
  destruct (filter _ st) as [|f l] eqn:E; [|cbn; lia].
  assert (I : In Counted (filter (fun f => match f with Counted => true | _ => false end) st))
    by (apply filter_In; auto).
  rewrite E in I. contradiction.
Qed.

Lemma calls_in_zero st : calls_in st = 0 -> ~ In Counted st.
Proof. intros H C. apply counted_in in C. lia. Qed.

Lemma calls_in_counted st : calls_in (Counted :: st) = calls_in st + 1.
Proof. unfold calls_in. cbn [filter length]. lia. Qed.
Lemma calls_in_tested st : calls_in (Tested :: st) = calls_in st.
Proof. reflexivity. Qed.
Lemma calls_in_early st : calls_in (Early :: st) = calls_in st.
Proof. reflexivity. Qed.

Definition delta (ev : kevent) (s s' : kstate) : Z :=
  match ev with KFork _ => calls s - calls s' | _ => 0 end.

Lemma kstep_flag s ev s' c : kstep s ev = Some s' ->
  k_flag s = s32 (calls s + c) -> k_flag s' = s32 (calls s' + (c + delta ev s s')).
Proof.
  intros H F. unfold kstep in H. unfold delta.
  destruct ev as [i dl|i|i|v|v| |i|i].
  - destruct (nth_error (k_threads s) i) as [st|] eqn:N; [|discriminate].
    destruct (can_call st); cbn [negb] in H; [|discriminate].
    destruct (k_init s).
    + apply Some_inj in H. subst s'. unfold set_threads. unfold calls. cbn [k_threads k_flag].
      rewrite (sum_upd _ i st) by exact N.  rewrite F. f_equal. unfold calls; rewrite ?calls_in_counted, ?calls_in_tested, ?calls_in_early; lia.
    + destruct dl; [discriminate|].
      apply Some_inj in H. subst s'. unfold set_threads. unfold calls. cbn [k_threads k_flag].
      rewrite (sum_upd _ i st) by exact N. rewrite F. f_equal. unfold calls; rewrite ?calls_in_counted, ?calls_in_tested, ?calls_in_early; lia.
  - destruct (nth_error (k_threads s) i) as [[|[| |] st]|] eqn:N; try discriminate.
    apply Some_inj in H. subst s'. unfold calls, flag_add. cbn [k_threads k_flag].
    rewrite (sum_upd _ i (Tested :: st)) by exact N. rewrite F, s32_s32_add. f_equal.
    unfold calls; rewrite ?calls_in_counted, ?calls_in_tested, ?calls_in_early; lia.
  - destruct (nth_error (k_threads s) i) as [[|[| |] st]|] eqn:N; try discriminate.
    + apply Some_inj in H. subst s'. unfold calls, flag_add. cbn [k_threads k_flag].
      rewrite (sum_upd _ i (Counted :: st)) by exact N. rewrite F, s32_s32_add. f_equal.
      unfold calls; rewrite ?calls_in_counted, ?calls_in_tested, ?calls_in_early; lia.
    + apply Some_inj in H. subst s'. unfold set_threads, calls. cbn [k_threads k_flag].
      rewrite (sum_upd _ i (Early :: st)) by exact N. rewrite F. f_equal. unfold calls; rewrite ?calls_in_counted, ?calls_in_tested, ?calls_in_early; lia.
  - apply Some_inj in H. subst s'. cbn [k_flag]. rewrite F. f_equal. unfold calls. cbn [k_threads]. lia.
  - destruct (k_dl s); [|discriminate]. apply Some_inj in H. subst s'. cbn [k_flag]. rewrite F.
    f_equal. unfold calls. cbn [k_threads]. lia.
  - apply Some_inj in H. subst s'. unfold set_threads, calls. cbn [k_flag k_threads]. rewrite F. f_equal.
    unfold calls; rewrite map_app, fold_right_app. cbn [map fold_right]. change (calls_in []) with 0. change (0 + 0) with 0. lia.
  - destruct (nth_error (k_threads s) i) as [[|f st]|] eqn:N; try discriminate.
    apply Some_inj in H. subst s'. unfold set_threads, calls. cbn [k_flag k_threads].
    rewrite sum_remove by exact N. rewrite F. f_equal. unfold calls. lia.
  - destruct (nth_error (k_threads s) i) as [st|] eqn:N; [|discriminate].
    apply Some_inj in H. subst s'. unfold set_threads. cbn [k_flag]. rewrite F. f_equal. lia.
Qed.

Lemma krun_flag evs : forall s s' c, krun s evs = Some s' ->
  k_flag s = s32 (calls s + c) -> k_flag s' = s32 (calls s' + (c + lost s evs)).
Proof.
  induction evs as [|ev evs IH]; intros s s' c H F; cbn [krun lost] in *.
  - apply Some_inj in H. subst. rewrite F. f_equal. lia.
  - destruct (kstep s ev) as [s1|] eqn:E; [|discriminate].
    pose proof (kstep_flag s ev s1 c E F) as F1.
    rewrite (IH s1 s' _ H F1). f_equal. unfold delta. destruct ev; lia.
Qed.

Lemma krun_start_flag evs s : krun k_start evs = Some s ->
  k_flag s = s32 (calls s + lost k_start evs).
Proof. intros H. rewrite (krun_flag evs k_start s 0 H); [f_equal; lia|reflexivity]. Qed.

Lemma fork_loses s i s' : kstep s (KFork i) = Some s' -> 0 <= calls s - calls s'.
Proof.
  cbn. destruct (nth_error (k_threads s) i) as [st|] eqn:N; [|discriminate].
  intros H. apply Some_inj in H. subst. unfold set_threads, calls. cbn.
  pose proof (sum_ge (k_threads s) st (nth_error_In _ _ N)). lia.
Qed.

Lemma lost_nonneg evs : forall s, 0 <= lost s evs.
Proof.
  induction evs as [|ev evs IH]; intros s; cbn [lost]; [lia|].
  destruct (kstep s ev) as [s1|] eqn:E; [|lia].
  specialize (IH s1). destruct ev; try exact IH. apply fork_loses in E. lia.
Qed.

Lemma lost_no_fork evs : forall s, no_fork evs -> lost s evs = 0.
Proof.
  induction evs as [|ev evs IH]; intros s H; cbn [lost]; [reflexivity|].
  destruct (kstep s ev) as [s1|] eqn:E; [|reflexivity].
  assert (N : no_fork evs) by (intros i X; apply (H i); right; exact X).
  destruct ev; try (apply IH; exact N). exfalso. apply (H i). left. reflexivity.
Qed.

Lemma calls_zero_not_inside s : no_early s -> calls s = 0 -> ~ inside s.
Proof.
  intros NE C (st & I & [H|H]).
  - apply counted_in in H. pose proof (sum_ge (k_threads s) st I). unfold calls in C. lia.
  - apply (NE st I H).
Qed.

Lemma inside_calls s : no_early s -> inside s -> 1 <= calls s.
Proof.
  intros NE (st & I & [H|H]).
  - apply counted_in in H. pose proof (sum_ge (k_threads s) st I). unfold calls. lia.
  - exfalso. apply (NE st I H).
Qed.

Lemma not_inside_calls s : ~ inside s -> calls s = 0.
Proof.
  intros H. unfold calls.
  assert (G : forall st, In st (k_threads s) -> calls_in st = 0).
  { intros st I. destruct (Z.eq_dec (calls_in st) 0) as [E|N]; [exact E|]. exfalso. apply H.
    exists st. split; [exact I|]. left.
    unfold calls_in in N. destruct (filter _ st) as [|f l] eqn:E; [cbn in N; lia|].
    assert (I2 : In f (filter (fun f => match f with Counted => true | _ => false end) st))
      by (rewrite E; left; reflexivity).
    apply filter_In in I2. destruct I2 as [I2 I3]. destruct f; try discriminate. exact I2. }
  clear H. induction (k_threads s) as [|x l IH]; [reflexivity|]. cbn.
  rewrite (G x) by (left; reflexivity). rewrite IH; [reflexivity|].
  intros st I. apply G. right. exact I.
Qed.

Lemma trylock_spec s bad busy flag : asunsafe_trylock s = Some (bad, busy, flag) ->
  (busy = false <-> (linker_idle s /\ k_flag s = 0)) /\
  (busy = true -> flag = k_flag s) /\ (busy = false -> bad = false /\ flag = 1).
Proof.
  unfold asunsafe_trylock, dl_locks_held, linker_idle.
  destruct (k_dl s) as [[a b]|]; [|discriminate].
  destruct (Z.eqb_spec a 0) as [->|Na]; cbn [negb orb].
  - destruct (Z.eqb_spec b 0) as [->|Nb]; cbn [negb orb].
    + destruct (Z.eqb_spec (k_flag s) 0) as [F|F]; intros H; apply Some_inj in H;
        inversion H; subst; clear H; repeat split; auto; try discriminate.
      intros [_ X]. contradiction.
    + intros H; apply Some_inj in H; inversion H; subst; clear H.
      repeat split; auto; try discriminate. intros [X _]. congruence.
  - intros H; apply Some_inj in H; inversion H; subst; clear H.
    repeat split; auto; try discriminate. intros [X _]. congruence.
Qed.

Lemma krequest_spec s st ans s' st' : krequest s st = (ans, s', st') ->
  (ans = K_crash <-> k_dl s = None) /\
  (ans = K_proceed <-> (linker_idle s /\ k_flag s = 0)) /\
  s' = s /\ (ans = K_proceed -> st' = st) /\
  s_patches st' = s_patches st /\ s_roots st' = s_roots st /\ s_universe st' = s_universe st /\
  s_ctr st' = s_ctr st /\ s_q st' = s_q st.
Proof.
  unfold krequest. destruct (asunsafe_trylock s) as [[[bad busy] flag]|] eqn:T.
  - apply trylock_spec in T as H. destruct H as (A & B & C).
    assert (D : k_dl s <> None).
    { unfold asunsafe_trylock, dl_locks_held in T. destruct (k_dl s); [discriminate|discriminate T]. }
    destruct busy; intros H; inversion H; subst; clear H.
    + repeat split; try discriminate; try contradiction; try (destruct bad; reflexivity).
      * intros X. apply A in X. discriminate.
      * rewrite (B eq_refl). destruct s; reflexivity.
    + destruct (C eq_refl) as [-> ->]. apply proj1 in A. destruct (A eq_refl) as [I F].
      repeat split; auto; try discriminate; try contradiction.
      unfold asunsafe_unlock. change (Z.land 1 0) with 0. rewrite <- F. destruct s; reflexivity.
  - intros H; inversion H; subst; clear H.
    assert (D : k_dl s' = None).
    { unfold asunsafe_trylock, dl_locks_held in T. destruct (k_dl s') as [[a b]|]; [|reflexivity].
      destruct (negb (a =? 0) || negb (b =? 0)); [discriminate|]. destruct (k_flag s' =? 0); discriminate. }
    repeat split; auto; try discriminate. intros [X _]. unfold linker_idle in X. congruence.
Qed.
