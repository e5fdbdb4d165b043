(** Properties C39, C40 and C41: triggering and the tool's suitability check. *)
From Coq Require Import String.
From Verif Require Import Base BaseFacts StrModel InsnQModel LibModel PtModel HjModel TrModel TrSpec TrProofs.
From Coq Require Import Lia.

(** ** C39: one process *)

Definition pre_ok : tpre := mk_tpre true true 0 0.
Definition ok_attempt : attempt := mk_attempt 0 0 0 0 0.
Definition busy : attempt := mk_attempt 0 0 0 EAGAIN 0.

(** Success is reported only if in some attempt the process was stopped, the
    requested revert answered "done" (or, when a patch follows, "nothing to
    revert"), and the patch was applied; and only if the process passed all
    checks made beforehand. *)
Theorem C39_success_means_done : forall q p ans retries,
  fst (trigger_one_process q p ans retries) = 0 -> hijack_codes ans ->
  p_compatible p = true /\
  (q_patch q = true -> p_metadata p = true /\ p_load p = 0 /\ p_sanity p = 0) /\
  exists j, (j < retries)%nat /\ at_hijack (ans j) = 0 /\
    (q_revert q = true ->
       In (EvRevert (at_revert (ans j))) (snd (trigger_one_process q p ans retries)) /\
       (at_revert (ans j) = 0 \/
        (q_patch q = true /\ (at_revert (ans j) = ENOTARGETLIB \/ at_revert (ans j) = ENOPATCH)))) /\
    (q_patch q = true ->
       In (EvApply 0) (snd (trigger_one_process q p ans retries)) /\ at_apply (ans j) = 0).
Proof.
  intros q p ans retries H0 Hc. unfold trigger_one_process in *.
  destruct (p_compatible p); cbn [negb] in *; [|discriminate].
  destruct (q_patch q && negb (p_metadata p)) eqn:Em; [discriminate|].
  destruct (q_patch q && negb (p_load p =? 0)) eqn:El.
  { cbn [fst] in H0. rewrite H0 in El. rewrite Bool.andb_false_r in El. discriminate. }
  destruct (q_patch q && negb (p_sanity p =? 0)) eqn:Es.
  { cbn [fst] in H0. rewrite H0 in Es. rewrite Bool.andb_false_r in Es. discriminate. }
  split; [reflexivity|]. split.
  { intros HP. rewrite HP in Em, El, Es. cbn [andb] in *. apply Bool.negb_false_iff in Em, El, Es.
    apply Z.eqb_eq in El, Es. auto. }
  pose proof (loop_success q ans retries 0 (-1)) as L.
  destruct (trigger_loop q ans retries 0 (-1)) as [[r|r] evs] eqn:E; cbn [fst snd] in *.
  - exfalso. subst r. clear L.
    assert (G : forall n i res evs0, trigger_loop q ans n i res = (inl 0, evs0) -> False).
    { clear -Hc. induction n as [|n IH]; intros i res evs0 E; cbn [trigger_loop] in E; [discriminate|].
      destruct ((at_hijack (ans i) =? ETHRDDETTACH) || (0 <? at_hijack (ans i))) eqn:Eh.
      - apply pair_equal_spec in E as [E _]. inversion E as [E']. rewrite E' in Eh. discriminate.
      - destruct (one_attempt q (ans i) res) as [[r1 stop] evs]. destruct stop.
        + apply pair_equal_spec in E as [E _]. discriminate.
        + destruct (trigger_loop q ans n (S i) r1) as [r rest] eqn:E2.
          apply pair_equal_spec in E as [-> _]. eapply IH. eassumption. }
    eapply G. eassumption.
  - assert (r = 0) as ->. { destruct (r =? 0) eqn:Er; [apply Z.eqb_eq; assumption|assumption]. }
    destruct L as (j & Hj & Hh & A & B & _); [lia|reflexivity|].
    exists j. split; [lia|]. split. { specialize (Hh j). specialize (Hc j). lia. }
    split.
    + intros HR. destruct (A HR) as [A1 A2]. split; assumption.
    + intros HP. destruct (B HP) as [B1 B2]. split; assumption.
Qed.
Print Assumptions C39_success_means_done.

(** A request with patch and revert-all: busy at the revert once, then done. *)
Definition ans_ex (n : nat) : attempt :=
  match n with O => mk_attempt 0 0 EAGAIN 0 0 | _ => mk_attempt 0 0 ENOPATCH 0 0 end.
Example C39_success_means_done_case :
  trigger_one_process (mk_treq true true false) pre_ok ans_ex 5 =
    (0, [EvHijack 0; EvRevert EAGAIN; EvRestore 0; EvSleep;
         EvHijack 0; EvRevert ENOPATCH; EvApply 0; EvRestore 0]).
Proof. reflexivity. Qed.

(** Conversely: if the target accepted the patch, success is reported. *)
Theorem C39_applied_is_reported : forall q p ans retries,
  In (EvApply 0) (snd (trigger_one_process q p ans retries)) ->
  fst (trigger_one_process q p ans retries) = 0.
Proof.
  intros q p ans retries H. unfold trigger_one_process in *.
  destruct (negb (p_compatible p)); [destruct H|].
  destruct (q_patch q && negb (p_metadata p)); [destruct H|].
  destruct (q_patch q && negb (p_load p =? 0)); [destruct H|].
  destruct (q_patch q && negb (p_sanity p =? 0)); [destruct H|].
  pose proof (loop_applied q ans retries 0 (-1)) as L.
  destruct (trigger_loop q ans retries 0 (-1)) as [[r|r] evs]; cbn [fst snd] in *.
  - specialize (L H). discriminate.
  - specialize (L H). inversion L. reflexivity.
Qed.
Print Assumptions C39_applied_is_reported.

Example C39_applied_is_reported_case :
  In (EvApply 0) (snd (trigger_one_process (mk_treq true false false) pre_ok (fun _ => ok_attempt) 3)).
Proof. cbn. auto. Qed.

(** Whatever the target answers, the process is only worked on while stopped, never
    stopped twice, and released in the end; at most [retries] attempts are made. *)
Theorem C39_always_released : forall q p ans retries,
  disciplined false (snd (trigger_one_process q p ans retries)) /\
  (attempts (snd (trigger_one_process q p ans retries)) <= retries)%nat.
Proof.
  intros q p ans retries. unfold trigger_one_process.
  destruct (negb (p_compatible p)); [cbn; split; [reflexivity|lia]|].
  destruct (q_patch q && negb (p_metadata p)); [cbn; split; [reflexivity|lia]|].
  destruct (q_patch q && negb (p_load p =? 0)); [cbn; split; [reflexivity|lia]|].
  destruct (q_patch q && negb (p_sanity p =? 0)); [cbn; split; [reflexivity|lia]|].
  pose proof (loop_disciplined q ans retries 0 (-1)) as D.
  pose proof (loop_attempts q ans retries 0 (-1)) as A.
  destruct (trigger_loop q ans retries 0 (-1)) as [[r|r] evs]; cbn [snd] in *; auto.
Qed.
Print Assumptions C39_always_released.

(** Five attempts on a process that stays busy, with the stack check failing. *)
Example C39_always_released_case :
  attempts (snd (trigger_one_process (mk_treq true true true) pre_ok
     (fun n => if Nat.even n then mk_attempt 0 1 0 0 0 else mk_attempt 0 0 EAGAIN 0 0) 5)) = 5%nat.
Proof. reflexivity. Qed.

(** Without a revert request: while the target is busy it is asked again, and the
    first "applied" (or the tool's own fatal error) ends it; the answer given is
    the last one. If it stays busy, the answer is "busy" after exactly the
    requested number of attempts. What is missing: other definitive answers
    ([C39_definitive_refuted]) and requests with a revert
    ([C39_busy_after_revert_refuted]). *)
Theorem C39_retry_partial : forall ans retries k,
  (forall j, (j < k)%nat -> busy_attempt (ans j)) ->
  ((k < retries)%nat -> at_hijack (ans k) = 0 -> (at_apply (ans k) = 0 \/ at_apply (ans k) = -1) ->
     fst (trigger_one_process (mk_treq true false false) pre_ok ans retries) = at_apply (ans k) /\
     attempts (snd (trigger_one_process (mk_treq true false false) pre_ok ans retries)) = S k) /\
  ((0 < retries <= k)%nat ->
     fst (trigger_one_process (mk_treq true false false) pre_ok ans retries) = EAGAIN /\
     attempts (snd (trigger_one_process (mk_treq true false false) pre_ok ans retries)) = retries).
Proof.
  intros ans retries k Hb. unfold trigger_one_process. cbn [p_compatible p_metadata p_load p_sanity pre_ok negb Z.eqb andb q_patch].
  split.
  - intros Hk Hh Hf.
    destruct (loop_busy (mk_treq true false false) ans k eq_refl eq_refl eq_refl retries 0 (-1) Hk) as (A & B).
    + intros j Hj. apply Hb. lia.
    + exact Hh.
    + cbn [Nat.add]. destruct Hf as [-> | ->]; discriminate.
    + exact Hf.
    + destruct (trigger_loop _ ans retries 0 (-1)) as [r evs]. cbn [fst snd] in *. subst r. cbn [fst snd Nat.add] in *.
      split; [|assumption]. destruct Hf as [-> | ->]; reflexivity.
  - intros Hk.
    destruct (loop_all_busy (mk_treq true false false) ans eq_refl eq_refl eq_refl retries 0 (-1)) as (A & B).
    + lia.
    + intros j Hj. apply Hb. lia.
    + destruct (trigger_loop _ ans retries 0 (-1)) as [r evs]. cbn [fst snd] in *. subst r. cbn. split; [reflexivity|assumption].
Qed.
Print Assumptions C39_retry_partial.

Example C39_retry_partial_case :
  (forall j, (j < 3)%nat -> busy_attempt (if Nat.ltb j 3 then busy else ok_attempt)) /\
  fst (trigger_one_process (mk_treq true false false) pre_ok (fun j => if Nat.ltb j 3 then busy else ok_attempt) 10) = 0.
Proof.
  split; [|reflexivity]. intros j Hj. apply Nat.ltb_lt in Hj. rewrite Hj. repeat split.
Qed.

(** The rule, exactly, for every request and whatever the target answers. A process
    that does not pass the checks is never stopped. Otherwise attempts follow each
    other up to the first that does not go on ([goes_on] says which do) or until the
    requested number is used up, and the result is the last answer the target gave,
    or the error of the stopping if that failed. *)
Theorem C39_exact : forall q p ans retries,
  (~ passes q p ->
     snd (trigger_one_process q p ans retries) = [] /\
     (fst (trigger_one_process q p ans retries) = EOLDULP \/ fst (trigger_one_process q p ans retries) = ENOMETA \/
      (fst (trigger_one_process q p ans retries) <> 0 /\
       (fst (trigger_one_process q p ans retries) = p_load p \/ fst (trigger_one_process q p ans retries) = p_sanity p)))) /\
  (passes q p ->
     (forall k, (k < retries)%nat -> (forall j, (j < k)%nat -> goes_on q (ans j)) -> ~ goes_on q (ans k) ->
        attempts (snd (trigger_one_process q p ans retries)) = S k /\
        (0 < at_hijack (ans k) -> fst (trigger_one_process q p ans retries) = at_hijack (ans k)) /\
        (at_hijack (ans k) <= 0 -> last_answer q ans (-1) (S k) (fst (trigger_one_process q p ans retries)))) /\
     ((forall j, (j < retries)%nat -> goes_on q (ans j)) ->
        attempts (snd (trigger_one_process q p ans retries)) = retries /\
        last_answer q ans (-1) retries (fst (trigger_one_process q p ans retries)))).
Proof.
  intros q p ans retries. unfold trigger_one_process, passes. split.
  - intro Np. destruct (p_compatible p); cbn [negb]; [|auto].
    destruct (q_patch q); cbn [andb]; [|exfalso; apply Np; split; [reflexivity|discriminate]].
    destruct (p_metadata p); cbn [negb]; [|auto].
    destruct (p_load p =? 0) eqn:El; cbn [negb]; [|apply Z.eqb_neq in El; auto 6].
    destruct (p_sanity p =? 0) eqn:Es; cbn [negb]; [|apply Z.eqb_neq in Es; auto 6].
    apply Z.eqb_eq in El, Es. exfalso. apply Np. auto.
  - intros (P1 & P2). rewrite P1. cbn [negb].
    assert (N1 : q_patch q && negb (p_metadata p) = false).
    { destruct (q_patch q); [|reflexivity]. destruct (P2 eq_refl) as (-> & _ & _). reflexivity. }
    assert (N2 : q_patch q && negb (p_load p =? 0) = false).
    { destruct (q_patch q); [|reflexivity]. destruct (P2 eq_refl) as (_ & -> & _). reflexivity. }
    assert (N3 : q_patch q && negb (p_sanity p =? 0) = false).
    { destruct (q_patch q); [|reflexivity]. destruct (P2 eq_refl) as (_ & _ & ->). reflexivity. }
    rewrite N1, N2, N3.
    destruct (trigger_loop q ans retries 0 (-1)) as [r evs] eqn:E.
    destruct (trigger_loop_exact q retries ans (-1) r evs E) as (L1 & L2).
    assert (V : forall v : Z, (if v =? 0 then 0 else v) = v) by (intro v; destruct (v =? 0) eqn:Ev; [apply Z.eqb_eq in Ev; congruence|reflexivity]).
    split.
    + intros k Hk Hb Hn. destruct (L1 k Hk Hb Hn) as (A & B & C).
      split; [destruct r; exact A|]. split.
      * intro X. rewrite (B X). reflexivity.
      * intro X. destruct (C X) as (v & -> & V2). cbn [fst]. rewrite V. exact V2.
    + intro G. destruct (L2 G) as (A & v & -> & V2). split; [exact A|]. cbn [fst]. rewrite V. exact V2.
Qed.
Print Assumptions C39_exact.

(** The request of [ans_ex]: the first attempt goes on, the second does not. *)
Example C39_exact_case :
  passes (mk_treq true true false) pre_ok /\ goes_on (mk_treq true true false) (ans_ex 0) /\
  ~ goes_on (mk_treq true true false) (ans_ex 1) /\
  last_answer (mk_treq true true false) ans_ex (-1) 2 0.
Proof.
  assert (N : ~ stack_stops (mk_treq true true false) (ans_ex 0)) by (intros (X & _); discriminate X).
  assert (N' : ~ stack_stops (mk_treq true true false) (ans_ex 1)) by (intros (X & _); discriminate X).
  assert (W : ~ nothing_in_the_way (mk_treq true true false) EAGAIN).
  { intros [X|(_ & [X|X])]; discriminate X. }
  split; [repeat split|]. split; [|split].
  - split; [cbn; lia|]. split; [reflexivity|]. right; left. split; [reflexivity|]. split; [exact W|discriminate].
  - intros (_ & _ & [X|[(_ & X & _)|[(X & _)|(X & _)]]]); [apply N', X| |discriminate X|discriminate X].
    apply X. right. split; [reflexivity|]. right. reflexivity.
  - apply last_new with (r := EAGAIN).
    + apply last_new with (r := -1); [constructor|]. apply says_revert; auto.
    + apply says_apply; auto. right. right. split; [reflexivity|]. right. reflexivity.
Qed.

(** Finding: a definitive refusal does not end the attempts. A target that answers
    "already applied" is stopped and asked again as many times as requested. *)
Theorem C39_definitive_refuted : forall retries,
  (0 < retries)%nat ->
  let t := trigger_one_process (mk_treq true false false) pre_ok (fun _ => mk_attempt 0 0 0 EAPPLIED 0) retries in
  fst t = EAPPLIED /\ attempts (snd t) = retries.
Proof.
  intros retries Hr. unfold trigger_one_process.
  cbn [p_compatible p_metadata p_load p_sanity pre_ok negb Z.eqb andb q_patch].
  assert (G : forall n i res, (0 < n)%nat ->
    fst (trigger_loop (mk_treq true false false) (fun _ => mk_attempt 0 0 0 EAPPLIED 0) n i res) = inr EAPPLIED /\
    attempts (snd (trigger_loop (mk_treq true false false) (fun _ => mk_attempt 0 0 0 EAPPLIED 0) n i res)) = n).
  { induction n as [|n IH]; intros i res Hn; [lia|]. cbn [trigger_loop].
    rewrite (one_attempt_patch_only (mk_treq true false false) _ _ eq_refl eq_refl eq_refl). cbn [at_hijack at_apply at_restore].
    change ((0 =? ETHRDDETTACH) || (0 <? 0)) with false.
    change ((EAPPLIED =? -1) || (EAPPLIED =? 0) || negb (0 =? 0)) with false. cbn iota.
    destruct n as [|n]; [split; reflexivity|].
    destruct (IH (S i) EAPPLIED) as (A & B); [lia|].
    destruct (trigger_loop _ _ (S n) (S i) EAPPLIED) as [r rest]. cbn [fst snd] in *.
    split; [assumption|]. change (EAPPLIED =? 0) with false. cbn [app].
    unfold attempts in *. cbn [filter is_hijack length]. rewrite B. reflexivity. }
  destruct (G retries 0%nat (-1) Hr) as (A & B).
  destruct (trigger_loop _ _ retries 0 (-1)) as [r evs]. cbn [fst snd] in *. subst r. split; [reflexivity|assumption].
Qed.
Print Assumptions C39_definitive_refuted.

(** Finding: when a revert is requested together with a patch, a busy answer to the
    patch is never retried, whatever number of attempts was requested: the old
    patches are gone and the new one is not in place. *)
Theorem C39_busy_after_revert_refuted : forall retries ans,
  (0 < retries)%nat -> ans 0%nat = mk_attempt 0 0 0 EAGAIN 0 ->
  trigger_one_process (mk_treq true true false) pre_ok ans retries =
    (EAGAIN, [EvHijack 0; EvRevert 0; EvApply EAGAIN; EvRestore 0; EvSleep]).
Proof.
  intros retries ans Hr H0. destruct retries as [|n]; [lia|].
  unfold trigger_one_process. cbn [p_compatible p_metadata p_load p_sanity pre_ok negb Z.eqb andb q_patch].
  cbn [trigger_loop]. rewrite H0. reflexivity.
Qed.
Print Assumptions C39_busy_after_revert_refuted.

Example C39_busy_after_revert_refuted_case :
  (fun n => match n with O => mk_attempt 0 0 0 EAGAIN 0 | _ => ok_attempt end) 0%nat = mk_attempt 0 0 0 EAGAIN 0.
Proof. reflexivity. Qed.

(** Finding: a process whose threads could not be restored is reported as patched
    successfully. *)
Theorem C39_restore_error_refuted : forall e retries, e <> 0 -> (0 < retries)%nat ->
  trigger_one_process (mk_treq true false false) pre_ok (fun _ => mk_attempt 0 0 0 0 e) retries =
    (0, [EvHijack 0; EvApply 0; EvRestore e]).
Proof.
  intros e retries He Hr. destruct retries as [|n]; [lia|].
  unfold trigger_one_process. cbn [p_compatible p_metadata p_load p_sanity pre_ok negb Z.eqb andb q_patch].
  cbn [trigger_loop]. reflexivity.
Qed.
Print Assumptions C39_restore_error_refuted.

(** ** C40: many processes *)

(** A patch named without wildcard: the value returned is non-zero exactly if some
    process failed for a real reason, and the three numbers printed are exact. What
    is missing: the exit status is only the low byte of that value
    ([C40_exit_status_refuted]) and wildcards ([C40_wildcard_refuted]). *)
Theorem C40_single_patch_partial : forall rs,
  (c_ret (trigger_many_processes false rs) <> 0 <-> exists r, In r rs /\ real_failure r) /\
  c_succ (trigger_many_processes false rs) = zlen (filter (fun r => r =? 0) rs) /\
  c_succ (trigger_many_processes false rs) + c_skip (trigger_many_processes false rs)
    + c_fail (trigger_many_processes false rs) = zlen rs /\
  (0 < c_fail (trigger_many_processes false rs) <-> exists r, In r rs /\ real_failure r).
Proof.
  intros rs. unfold trigger_many_processes.
  pose proof (count_one_ret rs (mk_tcount 0 0 0 0)) as R. cbn [c_ret] in R.
  destruct (count_one_counts rs (mk_tcount 0 0 0 0)) as (A & B & C). cbn [c_succ c_skip c_fail] in A, B, C.
  assert (D : (exists r, In r rs /\ real_failure r) \/ (forall r, In r rs -> ~ real_failure r)).
  { clear. induction rs as [|r rs IH]; [right; intros r []|].
    assert (real_failure r \/ ~ real_failure r) as [H|H].
    { rewrite real_failure_iff. destruct (skippable_error r), (Z.eq_dec r 0); intuition congruence. }
    - left. exists r. split; [left; reflexivity|assumption].
    - destruct IH as [(x & Hx & Hy)|IH]; [left; exists x; split; [right|]; assumption|].
      right. intros x [<-|Hx]; auto. }
  assert (F : 0 < count_if (fun r => negb (r =? 0) && negb (skippable_error r)) rs <-> exists r, In r rs /\ real_failure r).
  { unfold count_if, zlen. split.
    - intros H. destruct (filter _ rs) as [|r l] eqn:E; [cbn in H; lia|].
      assert (In r (filter (fun r => negb (r =? 0) && negb (skippable_error r)) rs)) as Hi by (rewrite E; left; reflexivity).
      apply filter_In in Hi as [Hi Hp]. exists r. split; [assumption|].
      apply Bool.andb_true_iff in Hp as [P1 P2]. apply Bool.negb_true_iff in P1, P2. apply Z.eqb_neq in P1.
      apply real_failure_iff. auto.
    - intros (r & Hi & Hf). apply real_failure_iff in Hf as [Hn Hs].
      assert (In r (filter (fun r => negb (r =? 0) && negb (skippable_error r)) rs)) as Hj.
      { apply filter_In. split; [assumption|]. apply Z.eqb_neq in Hn. rewrite Hn, Hs. reflexivity. }
      destruct (filter _ rs); [destruct Hj|]. cbn [length]. lia. }
  split; [|split; [|split]].
  - split.
    + intros H. destruct D as [D|D]; [assumption|]. exfalso. apply H. apply R. auto.
    + intros (r & Hr & Hf) H. apply R in H as [_ H]. exact (H r Hr Hf).
  - rewrite A. unfold count_if. lia.
  - rewrite A, B, C. clear. induction rs as [|r rs IH]; [reflexivity|]. rewrite !count_if_cons.
    replace (zlen (r :: rs)) with (1 + zlen rs) by (unfold zlen; cbn [length]; lia).
    destruct (r =? 0) eqn:E0.
    + apply Z.eqb_eq in E0. subst r. change (skippable_error 0) with false. cbn [negb andb]. lia.
    + destruct (skippable_error r); cbn [negb andb]; lia.
  - rewrite C. cbn [Z.add]. rewrite F. reflexivity.
Qed.
Print Assumptions C40_single_patch_partial.

Example C40_single_patch_partial_case :
  trigger_many_processes false [0; EBUILDID; EAGAIN; 0; ETHRDATTACH] = mk_tcount (Z.lor EAGAIN ETHRDATTACH) 2 1 2 /\
  real_failure EAGAIN.
Proof. split; [reflexivity|]. apply real_failure_iff. split; [discriminate|reflexivity]. Qed.

(** If every error code is below 256 the exit status is right as well. *)
Theorem C40_exit_status_partial : forall rs,
  (forall r, In r rs -> 0 <= r < 256) ->
  (exit_status (c_ret (trigger_many_processes false rs)) <> 0 <-> exists r, In r rs /\ real_failure r).
Proof.
  intros rs Hr. destruct (C40_single_patch_partial rs) as (R & _). rewrite <- R.
  unfold exit_status. rewrite Z.mod_small; [reflexivity|].
  unfold trigger_many_processes.
  assert (G : forall l c, (forall r, In r l -> 0 <= r < 256) -> 0 <= c_ret c < 256 -> 0 <= c_ret (fold_left count_one l c) < 256).
  { induction l as [|r l IH]; intros c Hl Hc; cbn [fold_left]; [assumption|].
    apply IH; [intros x Hx; apply Hl; right; assumption|].
    unfold count_one. destruct (skippable_error r); cbn [c_ret]; [assumption|].
    assert (Hb : 0 <= r < 256) by (apply Hl; left; reflexivity).
    split; [apply Z.lor_nonneg; lia|].
    destruct (Z.eq_dec (Z.lor (c_ret c) r) 0) as [->|Hn]; [lia|].
    assert (0 < Z.lor (c_ret c) r) by (assert (0 <= Z.lor (c_ret c) r) by (apply Z.lor_nonneg; lia); lia).
    change 256 with (2 ^ 8). apply Z.log2_lt_pow2; [assumption|]. rewrite Z.log2_lor by lia.
    apply Z.max_lub_lt.
    - destruct (Z.eq_dec (c_ret c) 0) as [->|]; [cbn; lia|]. apply Z.log2_lt_pow2; lia.
    - destruct (Z.eq_dec r 0) as [->|]; [cbn; lia|]. apply Z.log2_lt_pow2; lia. }
  apply G; [assumption|cbn; lia].
Qed.
Print Assumptions C40_exit_status_partial.

Example C40_exit_status_partial_case :
  exit_status (c_ret (trigger_many_processes false [0; EAGAIN; 0])) = EAGAIN /\ forall r, In r [0; EAGAIN; 0] -> 0 <= r < 256.
Proof. split; [reflexivity|]. cbn. unfold EAGAIN. intros r H. intuition lia. Qed.

(** Finding: "unknown error" is 256, so that the tool exits with status 0 after it,
    on any number of processes. *)
Theorem C40_exit_status_refuted : forall n, (0 < n)%nat ->
  exit_status (c_ret (trigger_many_processes false (repeat EUNKNOWN n))) = 0 /\ real_failure EUNKNOWN.
Proof.
  intros n Hn. split; [|apply real_failure_iff; split; [discriminate|reflexivity]].
  unfold trigger_many_processes. destruct n as [|n]; [lia|]. cbn [repeat fold_left].
  assert (G : forall k c, c_ret c = EUNKNOWN -> c_ret (fold_left count_one (repeat EUNKNOWN k) c) = EUNKNOWN).
  { induction k as [|k IH]; intros c Hc; cbn [repeat fold_left]; [assumption|]. apply IH.
    unfold count_one. change (skippable_error EUNKNOWN) with false. cbn iota. cbn [c_ret]. rewrite Hc. reflexivity. }
  rewrite G; reflexivity.
Qed.
Print Assumptions C40_exit_status_refuted.

Example C40_exit_status_refuted_case : (0 < 2)%nat.
Proof. lia. Qed.

(** Finding: with a wildcard the exit status is 0 whatever happened. *)
Theorem C40_wildcard_refuted : forall rs,
  exit_status (c_ret (trigger_many_processes true rs)) = 0.
Proof. intros rs. unfold trigger_many_processes. rewrite count_wild_ret. reflexivity. Qed.
Print Assumptions C40_wildcard_refuted.

Example C40_wildcard_refuted_case :
  trigger_many_processes true [PROCESS_PATCH_ERROR; PROCESS_PATCH_ERROR] = mk_tcount 0 0 0 2.
Proof. reflexivity. Qed.

(** Without recursion, a process is counted as failed exactly if one of the patches
    tried on it failed for a real reason. *)
Theorem C40_failed_count_partial : forall matches wlen len dirs,
  let masks := map (fun es => fst (trigger_many_ulps false matches wlen len (Some es))) dirs in
  c_fail (trigger_many_processes true masks) = zlen (filter (fun m => negb (Z.land m PROCESS_PATCH_ERROR =? 0)) masks) /\
  forall es, In es dirs ->
    (Z.land (fst (trigger_many_ulps false matches wlen len (Some es))) PROCESS_PATCH_ERROR <> 0 <->
     exists r, In r (snd (trigger_many_ulps false matches wlen len (Some es))) /\ real_failure r).
Proof.
  intros matches wlen len dirs masks. split.
  - unfold trigger_many_processes. rewrite count_wild_fail. cbn [c_fail]. unfold count_if. lia.
  - intros es _. apply many_ulps_mask.
Qed.
Print Assumptions C40_failed_count_partial.

Example C40_failed_count_partial_case :
  trigger_many_ulps false (fun _ => true) 1 10
    (Some [mk_dent (zs "a.so") None 0; mk_dent (zs "b.so") None EAGAIN; mk_dent (zs "c.txt") None EAGAIN;
           mk_dent (zs "d.so") None EBUILDID])
  = (7, [0; EAGAIN; EBUILDID]).
Proof. reflexivity. Qed.

(** Finding: the outcome of patches in subdirectories is dropped. *)
Theorem C40_recursive_refuted :
  exists dir, trigger_many_ulps true (fun _ => true) 1 10 (Some dir) = (0, [EAGAIN]) /\ real_failure EAGAIN.
Proof.
  exists [mk_dent (zs "sub") (Some [mk_dent (zs "a.so") None EAGAIN]) 0].
  split; [reflexivity|]. apply real_failure_iff. split; [discriminate|reflexivity].
Qed.
Print Assumptions C40_recursive_refuted.

(** ** C41: the exact target *)

(** For metadata that was parsed and whose functions exist, the check says yes
    exactly if an object with the same base name and build ID is loaded, "other
    build" exactly if only the name occurs, and "not loaded" exactly if not even
    that. *)
Theorem C41_exact_target : forall target bid os,
  let r := tool_check_patch_sanity true true target bid os in
  (r = 0 <-> exists d, In d os /\ is_target target bid d) /\
  (r = EBUILDID <-> (exists d, In d os /\ same_name target d) /\ ~ (exists d, In d os /\ is_target target bid d)) /\
  (r = ENOTARGETLIB <-> ~ (exists d, In d os /\ same_name target d)).
Proof.
  intros target bid os r. subst r. unfold tool_check_patch_sanity, is_target, same_name. cbn [negb].
  pose proof (sanity_loop_spec (get_basename target) bid os false) as S0.
  destruct (sanity_loop (get_basename target) bid os false) as [[|]|].
  - destruct S0 as [A B]. destruct B as [B _]. destruct (B eq_refl) as [C|(d & Hd & Hn)]; [discriminate|].
    split; [|split].
    + split; [discriminate|]. intros (x & Hx & Hn' & Hb). exfalso. exact (A x Hx Hn' Hb).
    + split; [|reflexivity]. intros _. split; [exists d; auto|]. intros (x & Hx & Hn' & Hb). exact (A x Hx Hn' Hb).
    + split; [discriminate|]. intros H. exfalso. apply H. exists d. auto.
  - destruct S0 as [A B]. assert (C : ~ exists d, In d os /\ get_basename (o_filename d) = get_basename target).
    { intros H. assert (false = true) by (apply B; right; assumption). discriminate. }
    split; [|split].
    + split; [discriminate|]. intros (x & Hx & Hn' & Hb). exfalso. apply C. exists x. auto.
    + split; [discriminate|]. intros [H _]. contradiction.
    + split; [intros _; assumption|reflexivity].
  - destruct S0 as (d & Hd & Hn & Hb). split; [|split].
    + split; [|reflexivity]. intros _. exists d. auto.
    + split; [discriminate|]. intros [_ H]. exfalso. apply H. exists d. auto.
    + split; [discriminate|]. intros H. exfalso. apply H. exists d. auto.
Qed.
Print Assumptions C41_exact_target.

(** A process with another build of the library loaded first. *)
Example C41_exact_target_case :
  let os := [mk_dobj (zs "/usr/bin/app") [9]; mk_dobj (zs "/opt/lib/libc.so.6") [1]; mk_dobj (zs "/lib64/libc.so.6") [2]] in
  tool_check_patch_sanity true true (zs "/usr/lib/libc.so.6") [2] os = 0 /\
  tool_check_patch_sanity true true (zs "/usr/lib/libc.so.6") [9] os = EBUILDID /\
  tool_check_patch_sanity true true (zs "libz.so") [9] os = ENOTARGETLIB.
Proof. split; [|split]; reflexivity. Qed.

(** A patch is not even attempted, and the process not stopped, unless its exact
    target is loaded. *)
Theorem C41_not_attempted : forall q ans retries compat meta load target bid os,
  q_patch q = true ->
  ~ (exists d, In d os /\ is_target target bid d) ->
  let p := mk_tpre compat meta load (tool_check_patch_sanity true true target bid os) in
  fst (trigger_one_process q p ans retries) <> 0 /\ snd (trigger_one_process q p ans retries) = [].
Proof.
  intros q ans retries compat meta load target bid os Hq Hn p. subst p.
  destruct (C41_exact_target target bid os) as (R0 & _). cbn zeta in R0.
  unfold trigger_one_process. cbn [p_compatible p_metadata p_load p_sanity]. rewrite Hq. cbn [andb].
  destruct (negb compat); [split; [discriminate|reflexivity]|].
  destruct (negb meta); [split; [discriminate|reflexivity]|].
  destruct (load =? 0) eqn:El; cbn [negb]; [|apply Z.eqb_neq in El; split; [exact El|reflexivity]].
  destruct (tool_check_patch_sanity true true target bid os =? 0) eqn:Es; cbn [negb].
  - exfalso. apply Z.eqb_eq in Es. apply Hn, R0, Es.
  - apply Z.eqb_neq in Es. split; [exact Es|reflexivity].
Qed.
Print Assumptions C41_not_attempted.

Example C41_not_attempted_case :
  ~ (exists d, In d [mk_dobj (zs "/lib64/libc.so.6") [2]] /\ is_target (zs "libc.so.6") [3] d).
Proof. intros (d & [<-|[]] & _ & H). discriminate. Qed.

(** C40, exactly what the exit status tells when a patch is named without wildcard: it is not 0 if and only if some process
    failed for a real reason with a code that is not a multiple of 256. *)
Theorem C40_exit_status_exact : forall rs,
  exit_status (c_ret (trigger_many_processes false rs)) <> 0 <->
  exists r, In r rs /\ real_failure r /\ r mod 256 <> 0.
Proof.
  intros rs. unfold trigger_many_processes, exit_status.
  assert (M : forall x, x mod 256 = Z.land x (Z.ones 8)) by (intros x; rewrite Z.land_ones by lia; reflexivity).
  assert (G : forall l c, (c_ret (fold_left count_one l c)) mod 256 <> 0 <->
            c_ret c mod 256 <> 0 \/ exists r, In r l /\ real_failure r /\ r mod 256 <> 0).
  { induction l as [|r l IH]; intros c; cbn [fold_left].
    - split; [auto|]. intros [H|(r & [] & _)]. exact H.
    - rewrite IH. unfold count_one. pose proof (real_failure_iff r) as RF. destruct (skippable_error r) eqn:S; cbn [c_ret].
      + split; (intros [H|(x & I & H)]; [left; exact H|right; exists x; split; [|exact H]]).
        * right. exact I.
        * destruct I as [->|I]; [|exact I]. exfalso. destruct H as [H _]. apply RF in H. destruct H as [_ H]. congruence.
      + rewrite M, Z.land_lor_distr_l, <- !M. split.
        * intros [H|(x & I & H)]; [|right; exists x; split; [right; exact I|exact H]].
          destruct (Z.eq_dec (c_ret c mod 256) 0) as [E|E]; [|left; exact E].
          right. exists r. split; [left; reflexivity|].
          assert (X : r mod 256 <> 0). { intros X. apply H. rewrite E, X. reflexivity. }
          split; [|exact X]. apply RF. split; [|reflexivity]. intros ->. apply X. reflexivity.
        * intros [H|(x & [->|I] & H)].
          -- left. intros X. apply Z.lor_eq_0_iff in X. apply H. apply X.
          -- left. intros X. apply Z.lor_eq_0_iff in X. apply (proj2 H). apply X.
          -- right. eauto. }
  rewrite G. cbn [c_ret]. split; [intros [H|H]; [exfalso; apply H; reflexivity|exact H]|intros H; right; exact H].
Qed.
Print Assumptions C40_exit_status_exact.

Example C40_exit_status_exact_case :
  exit_status (c_ret (trigger_many_processes false [EUNKNOWN; EAGAIN; EBUILDID])) = EAGAIN /\
  exit_status (c_ret (trigger_many_processes false [EUNKNOWN; EBUILDID])) = 0.
Proof. split; vm_compute; reflexivity. Qed.
