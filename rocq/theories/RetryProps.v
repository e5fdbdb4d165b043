(** C74: other tools tracing the same process. *)
From Coq Require Import String.
From Verif Require Import Base BaseFacts PtModel PtSpec PtProofs StrModel RetryModel RetrySpec RetryProofs.

(** However often the kernel refuses, a request has its effect exactly once if it
    is reported to have succeeded, and no effect if it is reported to have
    failed. This holds for every kind of request. *)
Theorem C74_exactly_once :
  forall (W V : Type) (view : W -> V) (act : V -> Z -> V -> Prop)
         (request : W -> Z * Z * W) (nap : W -> W) (clock : W -> Z * W),
    changes_by view act request -> idle view nap clock ->
    forall fuel w ret errno w',
      ulp_ptrace W request nap clock fuel w = Some (ret, errno, w') ->
      (errno = 0 /\ act (view w) ret (view w')) \/ (errno <> 0 /\ view w' = view w).
Proof. intros W V view act request nap clock CH ID fuel w ret errno w' H. eapply ulp_ptrace_once; eassumption. Qed.
Print Assumptions C74_exactly_once.

(** An increment of a counter: refused twice, it is done once. *)
Example C74_exactly_once_case :
  let request (w : Z * Z) := let '(n, v) := w in
        if n <? 2 then (-1, EPERM, (n + 1, v)) else (0, 0, (n + 1, v + 1)) in
  changes_by snd (fun v _ v' => v' = v + 1) request /\
  idle (snd (A := Z) (B := Z)) (fun w => w) (fun w => (fst w, w)) /\
  ulp_ptrace _ request (fun w => w) (fun w => (fst w, w)) 10 (0, 41) = Some (0, 0, (3, 42)).
Proof.
  split; [|split].
  - intros [n v] ret errno w' H. cbn [snd]. destruct (n <? 2); injection H as <- <- <-; [right|left]; split; try reflexivity. discriminate.
  - split; [reflexivity|]. intros w t w' H. injection H as _ <-. reflexivity.
  - reflexivity.
Qed.

(** If the tool gives up because others hold the target, then they held it at
    every one of its requests, for at least five seconds. *)
Theorem C74_gives_up_late :
  forall ok free secs fuel w a v ret w',
    ulp_ptrace tworld (poke_request ok free a v) tw_nap (tw_clock secs) fuel w = Some (ret, EBUSY, w') ->
    secs (pred (tw_clk w')) - secs (tw_clk w) >= 5 /\
    (forall n, (tw_req w <= n < tw_req w')%nat -> free n = false) /\
    tw_mem w' = tw_mem w.
Proof.
  intros ok free secs fuel w a v ret w' H. apply (call_refused free) in H; [|apply poke_counts].
  destruct H as (M & S & A). auto.
Qed.
Print Assumptions C74_gives_up_late.

(** Otherwise it stops at the first request that is not refused: an error other
    than a refusal is reported at once. *)
Theorem C74_first_answer :
  forall ok free secs fuel w a v ret errno w',
    ulp_ptrace tworld (poke_request ok free a v) tw_nap (tw_clock secs) fuel w = Some (ret, errno, w') ->
    errno <> EBUSY ->
    (tw_req w < tw_req w')%nat /\ free (pred (tw_req w')) = true /\
    (forall n, (tw_req w <= n < pred (tw_req w'))%nat -> free n = false) /\
    (errno = 0 <-> word_ok ok a = true).
Proof.
  intros ok free secs fuel w a v ret errno w' H NB.
  pose proof H as H2. apply (call_answered free) in H2; [|apply poke_counts|exact NB].
  destruct H2 as (L & F & A). split; [exact L|]. split; [exact F|]. split; [exact A|].
  pose proof H as H3. apply (ulp_ptrace_once _ _ (fun w => word_ok ok a) (fun _ _ _ => word_ok ok a = true)) in H3.
  - split; [intros ->; destruct H3 as [[_ O]|[N _]]; [exact O|contradiction]|].
    intros O. destruct (Z.eq_dec errno 0) as [E|NZ]; [exact E|exfalso].
    assert (X : ulp_ptrace tworld (poke_request ok free a v) tw_nap (tw_clock secs) fuel w = Some (ret, errno, w') -> errno = 0 \/ errno = EBUSY).
    { clear - O. unfold ulp_ptrace. 
      assert (R : forall w, exists r e w1, poke_request ok free a v w = (r, e, w1) /\ (e = 0 \/ e = EBUSY)).
      { intros w0. unfold poke_request. rewrite O. destruct (negb (free (tw_req w0))); do 3 eexists; split; try reflexivity; auto. }
      assert (LP : forall f t0 w0, retry_loop tworld (poke_request ok free a v) tw_nap (tw_clock secs) f t0 w0 = Some (ret, errno, w') -> errno = 0 \/ errno = EBUSY).
      { induction f as [|f IH]; intros t0 w0 H; cbn [retry_loop] in H; [discriminate|].
        destruct (R w0) as (r & e & w1 & E & D). rewrite E in H.
        destruct (negb (held e) && final e); [injection H as _ <- _; exact D|].
        destruct (tw_clock secs _) as [t1 w3]. destruct (t1 - t0 <? PTRACE_TIMEOUT); [apply IH in H; exact H|].
        injection H as _ <- _. exact D. }
      destruct (R w) as (r & e & w1 & E & D). rewrite E.
      destruct (negb (held e)); [intros H; injection H as _ <- _; exact D|].
      destruct (tw_clock secs w1) as [t0 w2]. apply LP. }
    destruct (X H); contradiction.
  - intros w0 r e w1 R. unfold poke_request in R. destruct (negb (free (tw_req w0))); [injection R as _ <- _; right; split; [discriminate|reflexivity]|].
    destruct (word_ok ok a); injection R as _ <- _; [left; split; reflexivity|right; split; [discriminate|reflexivity]].
  - split; reflexivity.
Qed.
Print Assumptions C74_first_answer.

(** It does not wait for ever, unless the clock stands still. *)
Theorem C74_terminates :
  forall ok free secs a v w, clock_runs secs ->
    exists fuel x, ulp_ptrace tworld (poke_request ok free a v) tw_nap (tw_clock secs) fuel w = Some x.
Proof. intros ok free secs a v w CR. apply (call_ends free); [apply poke_counts|exact CR]. Qed.
Print Assumptions C74_terminates.

(** A target that is never let go: the clock reads 100, 101, 102, ... *)
Example C74_gives_up_case :
  ulp_ptrace tworld (poke_request (fun _ => true) (fun _ => false) 4096 7) tw_nap
    (tw_clock (fun n => 100 + Z.of_nat n)) 20 (mk_tw (fun _ => 0) 0 0)
  = Some (-1, EBUSY, mk_tw (fun _ => 0) 6 6) /\ clock_runs (fun n => 100 + Z.of_nat n).
Proof.
  split; [reflexivity|]. intros t d. exists (Z.to_nat (Z.max d 0)).
  rewrite Nat2Z.inj_add. rewrite Z2Nat.id by lia. lia.
Qed.

(** A write that is reported to have succeeded has stored exactly the given
    bytes, whoever else traced the target in the meantime. *)
Theorem C74_write_exact :
  forall ok free secs fuel w a buf w',
    byte_mem (tw_mem w) -> bytes_ok buf -> 0 <= a < 2 ^ 64 -> a + zlen buf <= 2 ^ 64 ->
    write_bytes_busy ok free secs fuel w a buf = Some (0, w') ->
    mem_read (tw_mem w') a (List.length buf) = buf /\ mem_eq_out (tw_mem w) (tw_mem w') a (zlen buf).
Proof.
  intros ok free secs fuel w a buf w' BM B A L H. apply busy_success in H.
  apply write_bytes_ptrace_spec in H; try assumption.
  destruct H as (j & _ & M & J & _). rewrite (J eq_refl), firstn_all in M.
  split.
  - rewrite (mem_read_eq _ _ _ _ M). apply mem_read_write_same.
  - intros x X. rewrite M. symmetry. apply mem_write_out. exact X.
Qed.
Print Assumptions C74_write_exact.

(** A write that is reported to have failed has stored an initial part of the
    bytes and nothing else. *)
Theorem C74_write_failure :
  forall ok free secs fuel w a buf r w',
    byte_mem (tw_mem w) -> bytes_ok buf -> 0 <= a < 2 ^ 64 -> a + zlen buf <= 2 ^ 64 ->
    write_bytes_busy ok free secs fuel w a buf = Some (r, w') -> r <> 0 ->
    r = 1 /\ exists j, (j <= List.length buf)%nat /\
      mem_read (tw_mem w') a j = firstn j buf /\ mem_eq_out (tw_mem w) (tw_mem w') a (Z.of_nat j).
Proof.
  intros ok free secs fuel w a buf r w' BM B A L H NZ. apply busy_failure in H; [|exact NZ].
  destruct H as (-> & j & a1 & rest & J & WL). split; [reflexivity|].
  assert (JB : (8 * j <= List.length buf)%nat).
  { pose proof (Z.div_mod (zlen buf) 8 ltac:(lia)) as DM. pose proof (Z.mod_pos_bound (zlen buf) 8 ltac:(lia)).
    assert (0 <= zlen buf / 8) by (apply Z.div_pos; unfold zlen; lia). unfold zlen in *. lia. }
  apply write_longs_spec in WL; [|exact B|left; exact A|exact JB|unfold zlen in L; lia].
  destruct WL as (i & _ & M & D & _). destruct (D eq_refl) as (-> & _). exists (8 * j)%nat. split; [exact JB|].
  assert (FL : List.length (firstn (8 * j) buf) = (8 * j)%nat) by (rewrite firstn_length; lia).
  split.
  - rewrite (mem_read_eq _ _ _ _ M). rewrite <- FL at 2. apply mem_read_write_same.
  - intros x X. rewrite M. symmetry. apply mem_write_out. unfold zlen. rewrite FL. exact X.
Qed.
Print Assumptions C74_write_failure.

(** If the others never hold the target for five seconds, the write has exactly
    the outcome it would have without them. *)
Theorem C74_sharing_is_invisible :
  forall ok free secs, shared_fairly free secs -> forall w a buf,
    exists fuel w', forall g, (fuel <= g)%nat ->
      write_bytes_busy ok free secs g w a buf = Some (fst (write_bytes_ptrace ok (tw_mem w) a buf), w') /\
      tw_mem w' = snd (write_bytes_ptrace ok (tw_mem w) a buf).
Proof.
  intros ok free secs SF w a buf. destruct (busy_fair ok free secs SF w a buf) as (f & w' & E & U).
  exists f, w'. intros g G. split; [apply U; exact G|].
  apply (f_equal snd) in E. cbn [snd] in E. symmetry. exact E.
Qed.
Print Assumptions C74_sharing_is_invisible.

(** Others hold the target at two requests out of three; the clock advances once
    every tenth reading. *)
Example C74_sharing_case :
  let free n := Nat.eqb (Nat.modulo n 3) 2 in
  let secs n := Z.of_nat n / 10 in
  shared_fairly free secs /\
  (exists w', write_bytes_busy (fun x => x <? 4096) free secs 5 (mk_tw (fun x => x mod 256) 0 0) 4003 (zs "hello, world!")
     = Some (0, w') /\ tw_req w' = 9%nat /\ mem_read (tw_mem w') 4003 13 = zs "hello, world!").
Proof.
  cbv zeta. split.
  - intros n t. exists (2 - Nat.modulo n 3)%nat. pose proof (Nat.mod_upper_bound n 3 ltac:(lia)) as U. split.
    + apply Nat.eqb_eq. pose proof (Nat.div_mod n 3 ltac:(lia)) as D.
      replace (n + (2 - n mod 3))%nat with (2 + n / 3 * 3)%nat by lia. rewrite Nat.mod_add by lia. reflexivity.
    + intros j J. assert (j = 1)%nat as -> by lia. Z.to_euclidean_division_equations. lia.
  - assert (option_map (fun p => (fst p, tw_req (snd p), mem_read (tw_mem (snd p)) 4003 13))
              (write_bytes_busy (fun x => x <? 4096) (fun n => Nat.eqb (Nat.modulo n 3) 2) (fun n => Z.of_nat n / 10) 5
                 (mk_tw (fun x => x mod 256) 0 0) 4003 (zs "hello, world!"))
            = Some (0, 9%nat, zs "hello, world!")) as P by (vm_compute; reflexivity).
    destruct write_bytes_busy as [[s w]|]; [|discriminate P]. cbn [option_map fst snd] in P. apply Some_inj in P.
    apply pair_equal_spec in P. destruct P as [P M]. apply pair_equal_spec in P. destruct P as [-> R].
    exists w. auto.
Qed.
