From Verif Require Import Base BaseFacts PtModel PtSpec PtProofs RetryModel RetrySpec.

Section Generic.
  Variables (W V : Type) (view : W -> V) (act : V -> Z -> V -> Prop).
  Variable request : W -> Z * Z * W.
  Variable nap : W -> W.
  Variable clock : W -> Z * W.
  Hypothesis CH : changes_by view act request.
  Hypothesis ID : idle view nap clock.

  Lemma held_nz e : held e = true -> e <> 0.
  Proof. intros H ->. discriminate H. Qed.
  Lemma zero_final : negb (held 0) && final 0 = true.
  Proof. reflexivity. Qed.

  Lemma retry_once : forall fuel t0 w ret errno w',
    retry_loop W request nap clock fuel t0 w = Some (ret, errno, w') ->
    (errno = 0 /\ act (view w) ret (view w')) \/ (errno <> 0 /\ view w' = view w).
  Proof.
    induction fuel as [|f IH]; intros t0 w ret errno w' H; cbn [retry_loop] in H; [discriminate|].
    destruct (request w) as [[r e] w1] eqn:R. pose proof (CH _ _ _ _ R) as C.
    destruct (negb (held e) && final e) eqn:F.
    - injection H as <- <- <-. exact C.
    - assert (NZ : e <> 0) by (intros ->; rewrite zero_final in F; discriminate).
      destruct C as [[? _]|[_ C]]; [contradiction|].
      destruct (clock (if held e then nap w1 else w1)) as [t1 w3] eqn:K.
      assert (V3 : view w3 = view w).
      { rewrite (proj2 ID _ _ _ K). destruct (held e); [rewrite (proj1 ID)|]; exact C. }
      destruct (t1 - t0 <? PTRACE_TIMEOUT).
      + apply IH in H. rewrite V3 in H. exact H.
      + injection H as <- <- <-. right. split; assumption.
  Qed.

  Lemma ulp_ptrace_once : forall fuel w ret errno w',
    ulp_ptrace W request nap clock fuel w = Some (ret, errno, w') ->
    (errno = 0 /\ act (view w) ret (view w')) \/ (errno <> 0 /\ view w' = view w).
  Proof.
    intros fuel w ret errno w' H. unfold ulp_ptrace in H.
    destruct (request w) as [[r e] w1] eqn:R. pose proof (CH _ _ _ _ R) as C.
    destruct (held e) eqn:HE; cbn [negb] in H.
    - destruct C as [[-> _]|[_ C]]; [discriminate|].
      destruct (clock w1) as [t0 w2] eqn:K. apply retry_once in H.
      rewrite (proj2 ID _ _ _ K), C in H. exact H.
    - injection H as <- <- <-. exact C.
  Qed.
End Generic.

(** A request on the target that fails leaves its memory alone; every request
    counts one, and a refusal means the target was held. *)
Definition counts (free : nat -> bool) (req : tworld -> Z * Z * tworld) : Prop :=
  forall w, exists r e m, req w = (r, e, mk_tw m (S (tw_req w)) (tw_clk w)) /\
    (if free (tw_req w) then e = 0 \/ (e = EIO /\ m = tw_mem w) else e = EBUSY /\ m = tw_mem w).

Lemma poke_counts ok free a v : counts free (poke_request ok free a v).
Proof.
  intros w. unfold poke_request. destruct (free (tw_req w)); cbn [negb].
  - destruct (word_ok ok a); do 3 eexists; split; try reflexivity; [left|right]; auto.
  - do 3 eexists; split; [reflexivity|split; reflexivity].
Qed.
Lemma peek_counts ok free a : counts free (peek_request ok free a).
Proof.
  intros w. unfold peek_request. destruct (free (tw_req w)); cbn [negb].
  - destruct (word_ok ok a); do 3 eexists; split; try reflexivity; [left|right]; auto.
  - do 3 eexists; split; [reflexivity|split; reflexivity].
Qed.

Section Counting.
  Variables (free : nat -> bool) (secs : nat -> Z) (req : tworld -> Z * Z * tworld).
  Hypothesis C : counts free req.
  Local Notation loop := (retry_loop tworld req tw_nap (tw_clock secs)).
  Local Notation call := (ulp_ptrace tworld req tw_nap (tw_clock secs)).

  Lemma loop_mono : forall f t0 w x, loop f t0 w = Some x -> forall g, (f <= g)%nat -> loop g t0 w = Some x.
  Proof.
    induction f as [|f IH]; intros t0 w x H g G; cbn [retry_loop] in H; [discriminate|].
    destruct g as [|g]; [lia|]. cbn [retry_loop].
    destruct (req w) as [[r e] w1]. destruct (negb (held e) && final e); [exact H|].
    destruct (tw_clock secs (if held e then tw_nap w1 else w1)) as [t1 w3].
    destruct (t1 - t0 <? PTRACE_TIMEOUT); [|exact H]. apply (IH _ _ _ H). lia.
  Qed.
  Lemma call_mono : forall f w x, call f w = Some x -> forall g, (f <= g)%nat -> call g w = Some x.
  Proof.
    intros f w x H g G. unfold ulp_ptrace in *. destruct (req w) as [[r e] w1].
    destruct (negb (held e)); [exact H|]. destruct (tw_clock secs w1) as [t0 w2].
    apply (loop_mono _ _ _ _ H). exact G.
  Qed.

  (** One round of the loop. *)
  Lemma loop_free f t0 w : free (tw_req w) = true -> loop (S f) t0 w = Some (req w).
  Proof.
    intros F. cbn [retry_loop]. destruct (C w) as (r & e & m & -> & K). rewrite F in K.
    destruct K as [->|[-> _]]; reflexivity.
  Qed.
  Lemma loop_held f t0 w : free (tw_req w) = false ->
    loop (S f) t0 w =
      (let w3 := mk_tw (tw_mem w) (S (tw_req w)) (S (tw_clk w)) in
       if secs (tw_clk w) - t0 <? PTRACE_TIMEOUT then loop f t0 w3 else Some (fst (fst (req w)), EBUSY, w3)).
  Proof.
    intros F. cbn [retry_loop]. destruct (C w) as (r & e & m & -> & K). rewrite F in K.
    destruct K as [-> ->]. reflexivity.
  Qed.

  (** A free target is reached in time. *)
  Lemma loop_reaches : forall k t0 w,
    free (tw_req w + k)%nat = true ->
    (forall j, (j < k)%nat -> secs (tw_clk w + j)%nat - t0 < 5) ->
    exists w1, tw_mem w1 = tw_mem w /\ free (tw_req w1) = true /\ loop (S k) t0 w = Some (req w1).
  Proof.
    induction k as [|k IH]; intros t0 w F T.
    - exists w. rewrite Nat.add_0_r in F. split; [reflexivity|]. split; [exact F|]. apply loop_free. exact F.
    - destruct (free (tw_req w)) eqn:F0.
      + exists w. split; [reflexivity|]. split; [exact F0|]. apply loop_free. exact F0.
      + rewrite loop_held by exact F0. cbv zeta.
        pose proof (T O ltac:(lia)) as T0. rewrite Nat.add_0_r in T0.
        unfold PTRACE_TIMEOUT. rewrite (proj2 (Z.ltb_lt _ _) T0).
        destruct (IH t0 (mk_tw (tw_mem w) (S (tw_req w)) (S (tw_clk w)))) as (w1 & M & FW & L); cbn [tw_mem tw_req tw_clk] in *.
        * rewrite <- F. f_equal. lia.
        * intros j J. pose proof (T (S j) ltac:(lia)) as TJ. replace (S (tw_clk w) + j)%nat with (tw_clk w + S j)%nat by lia. exact TJ.
        * exists w1. auto.
  Qed.

  Lemma call_reaches : shared_fairly free secs -> forall w,
    exists w1, tw_mem w1 = tw_mem w /\ free (tw_req w1) = true /\
      exists f, forall g, (f <= g)%nat -> call g w = Some (req w1).
  Proof.
    intros SF w. destruct (free (tw_req w)) eqn:F.
    - exists w. split; [reflexivity|]. split; [exact F|]. exists O. intros g _. unfold ulp_ptrace.
      destruct (C w) as (r & e & m & E & K). rewrite F in K. rewrite E. destruct K as [->|[-> _]]; reflexivity.
    - destruct (SF (tw_req w) (tw_clk w)) as (k & FK & T).
      destruct k as [|k]; [rewrite Nat.add_0_r in FK; congruence|].
      destruct (loop_reaches k (secs (tw_clk w)) (mk_tw (tw_mem w) (S (tw_req w)) (S (tw_clk w)))) as (w1 & M & FW & L);
        cbn [tw_mem tw_req tw_clk] in *.
      + rewrite <- FK. f_equal. lia.
      + intros j J. pose proof (T (S j) ltac:(lia)) as TJ. replace (S (tw_clk w) + j)%nat with (tw_clk w + S j)%nat by lia. exact TJ.
      + exists w1. split; [exact M|]. split; [exact FW|]. exists (S k). intros g G. unfold ulp_ptrace.
        destruct (C w) as (r & e & m & E & K). rewrite F in K. rewrite E. destruct K as [-> ->]. cbn [held Z.eqb EBUSY Pos.eqb orb negb].
        apply (loop_mono (S k)); [exact L|exact G].
  Qed.

  (** A request that was refused to the end. *)
  Lemma loop_refused : forall f t0 w ret w',
    loop f t0 w = Some (ret, EBUSY, w') ->
    tw_mem w' = tw_mem w /\ (tw_clk w < tw_clk w')%nat /\ secs (pred (tw_clk w')) - t0 >= 5 /\
    (tw_req w' - tw_req w = tw_clk w' - tw_clk w)%nat /\ (tw_req w < tw_req w')%nat /\
    forall n, (tw_req w <= n < tw_req w')%nat -> free n = false.
  Proof.
    induction f as [|f IH]; intros t0 w ret w' H; [discriminate|].
    destruct (free (tw_req w)) eqn:F.
    - rewrite loop_free in H by exact F. destruct (C w) as (r & e & m & E & K). rewrite F in K. rewrite E in H.
      injection H as <- -> <-. destruct K as [K|[K _]]; discriminate.
    - rewrite loop_held in H by exact F. cbv zeta in H.
      destruct (Z.ltb_spec (secs (tw_clk w) - t0) PTRACE_TIMEOUT) as [T|T].
      + apply IH in H. cbn [tw_mem tw_req tw_clk] in H. destruct H as (M & K & S5 & Q & R & A).
        split; [exact M|]. split; [lia|]. split; [exact S5|]. split; [lia|]. split; [lia|].
        intros n N. destruct (Nat.eq_dec n (tw_req w)) as [->|]; [exact F|]. apply A. lia.
      + injection H as _ <-. cbn [tw_mem tw_req tw_clk]. unfold PTRACE_TIMEOUT in T.
        split; [reflexivity|]. split; [lia|]. split; [cbn [pred]; lia|]. split; [lia|]. split; [lia|].
        intros n N. replace n with (tw_req w) by lia. exact F.
  Qed.

  Lemma call_refused : forall f w ret w',
    call f w = Some (ret, EBUSY, w') ->
    tw_mem w' = tw_mem w /\ secs (pred (tw_clk w')) - secs (tw_clk w) >= 5 /\
    forall n, (tw_req w <= n < tw_req w')%nat -> free n = false.
  Proof.
    intros f w ret w' H. unfold ulp_ptrace in H. destruct (C w) as (r & e & m & E & K). rewrite E in H.
    destruct (free (tw_req w)) eqn:F.
    - destruct K as [->|[-> _]]; cbn in H; discriminate.
    - destruct K as [-> ->]. change (negb (held EBUSY)) with false in H. cbn [tw_clock tw_mem tw_req tw_clk] in H.
      apply loop_refused in H. cbn [tw_mem tw_req tw_clk] in H. destruct H as (M & _ & S5 & _ & R & A).
      split; [exact M|]. split; [exact S5|]. intros n N.
      destruct (Nat.eq_dec n (tw_req w)) as [->|]; [exact F|]. apply A. lia.
  Qed.

  (** A request that was not refused in the end was the first not refused. *)
  Lemma loop_answered : forall f t0 w ret e w',
    loop f t0 w = Some (ret, e, w') -> e <> EBUSY ->
    (tw_req w < tw_req w')%nat /\ free (pred (tw_req w')) = true /\
    forall n, (tw_req w <= n < pred (tw_req w'))%nat -> free n = false.
  Proof.
    induction f as [|f IH]; intros t0 w ret e w' H NB; [discriminate|].
    destruct (free (tw_req w)) eqn:F.
    - rewrite loop_free in H by exact F. destruct (C w) as (r & e1 & m & E & K). rewrite E in H.
      injection H as <- -> <-. cbn [tw_req pred]. split; [lia|]. split; [exact F|]. intros n N. lia.
    - rewrite loop_held in H by exact F. cbv zeta in H.
      destruct (secs (tw_clk w) - t0 <? PTRACE_TIMEOUT).
      + apply IH in H; [|exact NB]. cbn [tw_req] in H. destruct H as (L & FR & A).
        split; [lia|]. split; [exact FR|]. intros n N.
        destruct (Nat.eq_dec n (tw_req w)) as [->|]; [exact F|]. apply A. lia.
      + injection H as _ <- _. contradiction.
  Qed.
  Lemma call_answered : forall f w ret e w',
    call f w = Some (ret, e, w') -> e <> EBUSY ->
    (tw_req w < tw_req w')%nat /\ free (pred (tw_req w')) = true /\
    forall n, (tw_req w <= n < pred (tw_req w'))%nat -> free n = false.
  Proof.
    intros f w ret e w' H NB. unfold ulp_ptrace in H. destruct (C w) as (r & e1 & m & E & K). rewrite E in H.
    destruct (free (tw_req w)) eqn:F.
    - assert (held e1 = false) as HE by (destruct K as [->|[-> _]]; reflexivity). rewrite HE in H. cbn [negb] in H.
      injection H as <- -> <-. cbn [tw_req pred]. split; [lia|]. split; [exact F|]. intros n N. lia.
    - destruct K as [-> ->]. change (negb (held EBUSY)) with false in H. cbn [tw_clock tw_mem tw_req tw_clk] in H.
      apply loop_answered in H; [|exact NB]. cbn [tw_req] in H. destruct H as (L & FR & A).
      split; [lia|]. split; [exact FR|]. intros n N.
      destruct (Nat.eq_dec n (tw_req w)) as [->|]; [exact F|]. apply A. lia.
  Qed.

  (** The loop is left. *)
  Lemma loop_ends : forall k t0 w, secs (tw_clk w + k)%nat - t0 >= 5 -> exists x, loop (S k) t0 w = Some x.
  Proof.
    induction k as [|k IH]; intros t0 w T; destruct (free (tw_req w)) eqn:F;
      try (eexists; apply loop_free; exact F); rewrite loop_held by exact F; cbv zeta.
    - rewrite Nat.add_0_r in T. unfold PTRACE_TIMEOUT. destruct (Z.ltb_spec (secs (tw_clk w) - t0) 5); [lia|]. eexists; reflexivity.
    - destruct (secs (tw_clk w) - t0 <? PTRACE_TIMEOUT); [|eexists; reflexivity]. apply IH. cbn [tw_clk].
      replace (S (tw_clk w) + k)%nat with (tw_clk w + S k)%nat by lia. exact T.
  Qed.
  Lemma call_ends : clock_runs secs -> forall w, exists f x, call f w = Some x.
  Proof.
    intros CR w. unfold ulp_ptrace. destruct (C w) as (r & e & m & -> & K).
    destruct (negb (held e)); [exists O; eexists; reflexivity|].
    cbn [tw_clock tw_mem tw_req tw_clk].
    destruct (CR (tw_clk w) 5) as (j & J). destruct j as [|j]; [rewrite Nat.add_0_r in J; lia|].
    destruct (loop_ends j (secs (tw_clk w)) (mk_tw m (S (tw_req w)) (S (tw_clk w)))) as (x & L).
    - cbn [tw_clk]. replace (S (tw_clk w) + j)%nat with (tw_clk w + S j)%nat by lia. exact J.
    - exists (S j), x. exact L.
  Qed.
End Counting.

(** ** Pokes and peeks *)
Definition poke_act (ok : Z -> bool) (a v : Z) (m : mem) (_ : Z) (m' : mem) : Prop :=
  word_ok ok a = true /\ m' = poke m a v.
Definition peek_act (ok : Z -> bool) (a : Z) (m : mem) (r : Z) (m' : mem) : Prop :=
  word_ok ok a = true /\ r = peek m a /\ m' = m.

Lemma poke_changes ok free a v : changes_by tw_mem (poke_act ok a v) (poke_request ok free a v).
Proof.
  intros w ret errno w' H. unfold poke_request in H. unfold poke_act.
  destruct (negb (free (tw_req w))); [injection H as <- <- <-; right; split; [discriminate|reflexivity]|].
  destruct (word_ok ok a) eqn:O; injection H as <- <- <-; [left|right]; repeat split; discriminate.
Qed.
Lemma peek_changes ok free a : changes_by tw_mem (peek_act ok a) (peek_request ok free a).
Proof.
  intros w ret errno w' H. unfold peek_request in H. unfold peek_act.
  destruct (negb (free (tw_req w))); [injection H as <- <- <-; right; split; [discriminate|reflexivity]|].
  destruct (word_ok ok a) eqn:O; injection H as <- <- <-; [left|right]; repeat split; discriminate.
Qed.
Lemma tw_idle secs : idle tw_mem tw_nap (tw_clock secs).
Proof. split; [reflexivity|]. intros w t w' H. injection H as <- <-. reflexivity. Qed.

(** The busy write against the plain one. *)
Lemma longs_busy : forall k ok free secs fuel w a buf d w1 a1 rest,
  write_longs_busy ok free secs fuel w a k buf = Some (d, w1, a1, rest) ->
  exists j, (j <= k)%nat /\ write_longs ok (tw_mem w) a j buf = (true, tw_mem w1, a1, rest) /\ (d = true -> j = k).
Proof.
  induction k as [|k IH]; intros ok free secs fuel w a buf d w1 a1 rest H; cbn [write_longs_busy] in H.
  - injection H as <- <- <- <-. exists O. repeat split. lia.
  - destruct (ulp_ptrace _ _ _ _ fuel w) as [[[r e] w2]|] eqn:U; [|discriminate].
    apply (ulp_ptrace_once _ _ tw_mem (poke_act ok a (le_dec (firstn 8 buf)))) in U;
      [|apply poke_changes|apply tw_idle].
    destruct U as [[-> [O M]]|[NZ M]].
    + cbn [Z.eqb negb] in H. apply IH in H. destruct H as (j & J & L & D). exists (S j).
      split; [lia|]. split; [cbn [write_longs]; rewrite O, <- M; exact L|]. intros T. rewrite (D T). reflexivity.
    + rewrite (proj2 (Z.eqb_neq _ _) NZ) in H. cbn [negb] in H. injection H as <- <- <- <-.
      exists O. split; [lia|]. rewrite M. split; [reflexivity|discriminate].
Qed.

Lemma busy_success ok free secs fuel w a buf w' :
  write_bytes_busy ok free secs fuel w a buf = Some (0, w') ->
  write_bytes_ptrace ok (tw_mem w) a buf = (0, tw_mem w').
Proof.
  intros H. unfold write_bytes_busy in H. unfold write_bytes_ptrace.
  destruct (write_longs_busy ok free secs fuel w a (Z.to_nat (zlen buf / 8)) buf) as [[[[d w1] a1] rest]|] eqn:L; [|discriminate].
  apply longs_busy in L. destruct L as (j & _ & L & D).
  destruct d; cbn [negb] in H; [|discriminate]. rewrite (D eq_refl) in L. rewrite L. cbn [negb].
  destruct (zlen buf mod 8 =? 0); [injection H as <-; reflexivity|].
  destruct (ulp_ptrace tworld (peek_request ok free a1) tw_nap (tw_clock secs) fuel w1) as [[[r e] w2]|] eqn:U; [|discriminate].
  apply (ulp_ptrace_once _ _ tw_mem (peek_act ok a1)) in U; [|apply peek_changes|apply tw_idle].
  destruct U as [[-> (O & R & M)]|[NZ _]]; [|rewrite (proj2 (Z.eqb_neq _ _) NZ) in H; discriminate].
  rewrite O. cbn [negb]. change (0 =? 0) with true in H. cbn [negb] in H. cbv zeta in *.
  match type of H with context [poke_request ok free a1 ?v] => set (v0 := v) in * end.
  destruct (ulp_ptrace tworld (poke_request ok free a1 v0) tw_nap (tw_clock secs) fuel w2) as [[[r2 e] w3]|] eqn:U; [|discriminate].
  apply (ulp_ptrace_once _ _ tw_mem (poke_act ok a1 v0)) in U; [|apply poke_changes|apply tw_idle].
  destruct U as [[-> (_ & M2)]|[NZ _]]; [|rewrite (proj2 (Z.eqb_neq _ _) NZ) in H; discriminate].
  cbn [Z.eqb negb] in H. injection H as <-. rewrite M2, M. unfold v0. rewrite R. reflexivity.
Qed.

Lemma busy_failure ok free secs fuel w a buf r w' :
  write_bytes_busy ok free secs fuel w a buf = Some (r, w') -> r <> 0 ->
  r = 1 /\ exists j a1 rest, (j <= Z.to_nat (zlen buf / 8))%nat /\
    write_longs ok (tw_mem w) a j buf = (true, tw_mem w', a1, rest).
Proof.
  intros H NZR. unfold write_bytes_busy in H.
  destruct (write_longs_busy ok free secs fuel w a (Z.to_nat (zlen buf / 8)) buf) as [[[[d w1] a1] rest]|] eqn:L; [|discriminate].
  apply longs_busy in L. destruct L as (j & J & L & D).
  destruct d; cbn [negb] in H.
  2: { injection H as <- <-. split; [reflexivity|]. exists j, a1, rest. auto. }
  destruct (zlen buf mod 8 =? 0); [injection H as <- _; contradiction|].
  destruct (ulp_ptrace tworld (peek_request ok free a1) tw_nap (tw_clock secs) fuel w1) as [[[x e] w2]|] eqn:U; [|discriminate].
  apply (ulp_ptrace_once _ _ tw_mem (peek_act ok a1)) in U; [|apply peek_changes|apply tw_idle].
  assert (M : tw_mem w2 = tw_mem w1) by (destruct U as [[_ (_ & _ & M)]|[_ M]]; exact M).
  destruct (negb (e =? 0)).
  { injection H as <- <-. split; [reflexivity|]. exists j, a1, rest. rewrite M. auto. }
  cbv zeta in H.
  match type of H with context [poke_request ok free a1 ?v] => set (v0 := v) in * end.
  destruct (ulp_ptrace tworld (poke_request ok free a1 v0) tw_nap (tw_clock secs) fuel w2) as [[[r2 e2] w3]|] eqn:U2; [|discriminate].
  apply (ulp_ptrace_once _ _ tw_mem (poke_act ok a1 v0)) in U2; [|apply poke_changes|apply tw_idle].
  destruct U2 as [[-> _]|[NZ M2]]; [injection H as <- _; contradiction|].
  rewrite (proj2 (Z.eqb_neq _ _) NZ) in H. cbn [negb] in H. injection H as <- <-. split; [reflexivity|].
  exists j, a1, rest. rewrite M2, M. auto.
Qed.

(** With fair sharing nothing is different. *)
Lemma longs_fair ok free secs : shared_fairly free secs -> forall k w a buf,
  exists f w1, forall g, (f <= g)%nat ->
    let '(d, m1, a1, rest) := write_longs ok (tw_mem w) a k buf in
    tw_mem w1 = m1 /\ write_longs_busy ok free secs g w a k buf = Some (d, w1, a1, rest).
Proof.
  intros SF. induction k as [|k IH]; intros w a buf; cbn [write_longs write_longs_busy].
  - exists O, w. intros g _. split; reflexivity.
  - set (v := le_dec (firstn 8 buf)).
    destruct (call_reaches free secs (poke_request ok free a v) (poke_counts ok free a v) SF w) as (w1 & M & FW & f & U).
    unfold poke_request at 2 in U. rewrite FW in U. cbn [negb] in U.
    destruct (word_ok ok a) eqn:O.
    + destruct (IH (mk_tw (poke (tw_mem w1) a v) (S (tw_req w1)) (tw_clk w1)) (u64 (a + 8)) (skipn 8 buf)) as (f2 & w2 & K).
      exists (Nat.max f f2), w2. intros g G. rewrite (U g) by lia. cbn [Z.eqb negb]. cbn [tw_mem] in K. rewrite M in K |- *. apply K. lia.
    + exists f, (mk_tw (tw_mem w1) (S (tw_req w1)) (tw_clk w1)). intros g G. rewrite (U g) by lia.
      cbn [EIO Z.eqb negb tw_mem]. split; [exact M|reflexivity].
Qed.

Lemma busy_fair ok free secs : shared_fairly free secs -> forall w a buf,
  exists f w', write_bytes_ptrace ok (tw_mem w) a buf = (fst (write_bytes_ptrace ok (tw_mem w) a buf), tw_mem w') /\
    forall g, (f <= g)%nat ->
      write_bytes_busy ok free secs g w a buf = Some (fst (write_bytes_ptrace ok (tw_mem w) a buf), w').
Proof.
  intros SF w a buf. unfold write_bytes_ptrace, write_bytes_busy.
  destruct (longs_fair ok free secs SF (Z.to_nat (zlen buf / 8)) w a buf) as (f & w1 & L).
  destruct (write_longs ok (tw_mem w) a (Z.to_nat (zlen buf / 8)) buf) as [[[d m1] a1] rest] eqn:WL.
  destruct (L f (le_n f)) as [M _].
  destruct d; cbn [negb fst].
  2: { exists f, w1. split; [rewrite M; reflexivity|]. intros g G. destruct (L g G) as [_ ->]. reflexivity. }
  destruct (zlen buf mod 8 =? 0) eqn:E; cbn [fst].
  { exists f, w1. split; [rewrite M; reflexivity|]. intros g G. destruct (L g G) as [_ ->]. reflexivity. }
  destruct (call_reaches free secs (peek_request ok free a1) (peek_counts ok free a1) SF w1) as (w2 & M2 & FW & f2 & U).
  unfold peek_request at 2 in U. rewrite FW in U. cbn [negb] in U.
  destruct (word_ok ok a1) eqn:O; cbn [negb fst].
  - cbv zeta. set (v := le_dec (firstn (Z.to_nat (zlen buf mod 8)) rest ++ skipn (Z.to_nat (zlen buf mod 8)) (le_enc 8 (peek m1 a1)))).
    destruct (call_reaches free secs (poke_request ok free a1 v) (poke_counts ok free a1 v) SF
                (mk_tw (tw_mem w2) (S (tw_req w2)) (tw_clk w2))) as (w3 & M3 & FW3 & f3 & U3).
    unfold poke_request at 2 in U3. rewrite FW3, O in U3. cbn [negb] in U3. cbn [tw_mem] in M3.
    exists (Nat.max f (Nat.max f2 f3)), (mk_tw (poke (tw_mem w3) a1 v) (S (tw_req w3)) (tw_clk w3)).
    cbn [tw_mem fst]. split; [rewrite M3, M2, M; reflexivity|]. intros g G. destruct (L g) as [_ ->]; [lia|]. cbn [negb].
    rewrite (U g) by lia. cbn [Z.eqb negb]. rewrite M2, M. fold v. rewrite M2, M in U3.
    rewrite (U3 g) by lia. reflexivity.
  - exists (Nat.max f f2), (mk_tw (tw_mem w2) (S (tw_req w2)) (tw_clk w2)). cbn [tw_mem].
    split; [rewrite M2, M; reflexivity|]. intros g G. destruct (L g) as [_ ->]; [lia|]. cbn [negb].
    rewrite (U g) by lia. reflexivity.
Qed.
