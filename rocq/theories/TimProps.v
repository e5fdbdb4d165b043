(** C100: the time limit of a command. *)
From Verif Require Import Base BaseFacts LibModel PtModel TimModel TimSpec.

Lemma stopped_plain s : WIFSTOPPED s = true -> WIFEXITED s = false /\ WCOREDUMP s = false.
Proof.
  intros H. unfold WIFSTOPPED, WIFEXITED, WCOREDUMP in *. apply Z.eqb_eq in H.
  assert (A : Z.land s 127 = 127). { change 127 with (Z.land 255 127) at 1. rewrite Z.land_assoc, H. reflexivity. }
  assert (B : Z.land s 128 = 0). { change 128 with (Z.land 255 128) at 1. rewrite Z.land_assoc, H. reflexivity. }
  rewrite A, B. auto.
Qed.

Definition goes_on (timeout t0 : Z) (p : wait_ev * Z) : Prop := undecided (fst p) /\ snd p - t0 < timeout.

Lemma timed_skip timeout t0 p rest : goes_on timeout t0 p -> rr_timed timeout t0 (p :: rest) = rr_timed timeout t0 rest.
Proof.
  destruct p as [w c]. intros [U L]. cbn [fst snd] in *. cbn [rr_timed]. apply Z.ltb_lt in L. rewrite L.
  destruct w as [| | |s]; cbn [undecided] in U; [reflexivity|destruct U|reflexivity|]. destruct U as (-> & -> & ->). reflexivity.
Qed.
Lemma timed_skips timeout t0 pre rest : Forall (goes_on timeout t0) pre -> rr_timed timeout t0 (pre ++ rest) = rr_timed timeout t0 rest.
Proof. induction 1 as [|p pre H F IH]; [reflexivity|]. cbn [app]. rewrite timed_skip by exact H. exact IH. Qed.

(** Which of the four kinds of answer it is. *)
Lemma answer_kinds w : undecided w \/ lost w \/ exists s, w = WStatus s /\ WIFSTOPPED s = true.
Proof.
  destruct w as [| | |s]; cbn [undecided lost]; auto.
  destruct (WIFEXITED s) eqn:E; [auto|]. destruct (WCOREDUMP s) eqn:C; [auto|]. destruct (WIFSTOPPED s) eqn:T; [|auto].
  right. right. exists s. auto.
Qed.
Lemma timed_lost timeout t0 w c rest : lost w -> rr_timed timeout t0 ((w, c) :: rest) = T_error EUNKNOWN.
Proof.
  destruct w as [| | |s]; cbn [lost]; try contradiction; cbn [rr_timed]; [reflexivity|]. intros [H|H]; rewrite H, ?Bool.orb_true_r; reflexivity.
Qed.
Lemma timed_stopped timeout t0 s c rest : WIFSTOPPED s = true -> rr_timed timeout t0 ((WStatus s, c) :: rest) = T_stopped s.
Proof. intros H. cbn [rr_timed]. destruct (stopped_plain s H) as [-> ->]. rewrite H. reflexivity. Qed.
Lemma timed_over timeout t0 w c rest : undecided w -> timeout <= c - t0 -> rr_timed timeout t0 ((w, c) :: rest) = T_error ETIME.
Proof.
  intros U L. cbn [rr_timed]. destruct (Z.ltb_spec (c - t0) timeout); [lia|].
  destruct w as [| | |s]; cbn [undecided] in U; [reflexivity|destruct U|reflexivity|]. destruct U as (-> & -> & ->). reflexivity.
Qed.

(** How the waiting ends, for every sequence of answers and clock readings, and every limit: by the first answer that decides,
    or by the first reading that shows the limit, whichever comes first; an answer is looked at before the clock. *)
Theorem C100_exact : forall timeout t0 polls,
  (forall s, rr_timed timeout t0 polls = T_stopped s <->
     exists pre c post, polls = pre ++ (WStatus s, c) :: post /\ Forall (goes_on timeout t0) pre /\ WIFSTOPPED s = true) /\
  (rr_timed timeout t0 polls = T_error ETIME <->
     exists pre w c post, polls = pre ++ (w, c) :: post /\ Forall (goes_on timeout t0) pre /\ undecided w /\ timeout <= c - t0) /\
  (rr_timed timeout t0 polls = T_error EUNKNOWN <->
     exists pre w c post, polls = pre ++ (w, c) :: post /\ Forall (goes_on timeout t0) pre /\ lost w) /\
  (rr_timed timeout t0 polls = T_waiting <-> Forall (goes_on timeout t0) polls) /\
  (forall code, rr_timed timeout t0 polls = T_error code -> code = ETIME \/ code = EUNKNOWN).
Proof.
  intros timeout t0 polls.
  assert (NE : ETIME <> EUNKNOWN) by (vm_compute; discriminate).
  assert (D : Forall (goes_on timeout t0) polls \/
    (exists pre w c post, polls = pre ++ (w, c) :: post /\ Forall (goes_on timeout t0) pre /\
       ((exists s, w = WStatus s /\ WIFSTOPPED s = true) \/ lost w \/ (undecided w /\ timeout <= c - t0)))).
  { induction polls as [|[w c] polls IH]; [left; constructor|].
    destruct (answer_kinds w) as [U|[L|S]].
    - destruct (Z_lt_le_dec (c - t0) timeout) as [H|H].
      + assert (G : goes_on timeout t0 (w, c)) by (split; assumption). destruct IH as [IH|(pre & w' & c' & post & -> & F & X)].
        * left. constructor; assumption.
        * right. exists ((w, c) :: pre), w', c', post. split; [reflexivity|]. split; [constructor; assumption|exact X].
      + right. exists [], w, c, polls. split; [reflexivity|]. split; [constructor|]. auto.
    - right. exists [], w, c, polls. split; [reflexivity|]. split; [constructor|]. auto.
    - right. exists [], w, c, polls. split; [reflexivity|]. split; [constructor|]. auto. }
  destruct D as [F|(pre & w & c & post & -> & F & X)].
  - pose proof (timed_skips timeout t0 polls [] F) as E. rewrite app_nil_r in E. rewrite E. cbn [rr_timed].
    assert (NO : forall pre w c post, polls = pre ++ (w, c) :: post -> undecided w /\ c - t0 < timeout).
    { intros pre w c post ->. apply Forall_app in F. destruct F as [_ F]. inversion F; subst. assumption. }
    split; [intros s; split; [discriminate|]|split; [split; [discriminate|]|split; [split; [discriminate|]|split; [tauto|discriminate]]]].
    + intros (pre & c & post & E2 & _ & H). destruct (NO _ _ _ _ E2) as [U _]. cbn [undecided] in U. destruct U as (_ & _ & U). congruence.
    + intros (pre & w & c & post & E2 & _ & _ & H). destruct (NO _ _ _ _ E2). lia.
    + intros (pre & w & c & post & E2 & _ & H). destruct (NO _ _ _ _ E2) as [U _].
      destruct w as [| | |s]; cbn [undecided lost] in *; try contradiction. destruct U as (U1 & U2 & _). destruct H; congruence.
  - assert (UQ : forall pre' w' c' post', pre ++ (w, c) :: post = pre' ++ (w', c') :: post' -> Forall (goes_on timeout t0) pre' ->
                 ~ goes_on timeout t0 (w', c') -> ~ goes_on timeout t0 (w, c) -> w = w' /\ c = c').
    { clear X. induction F as [|q pre G F IH]; intros pre' w' c' post' E F' N' N; destruct F' as [|q' pre' G' F']; cbn [app] in E; injection E.
      - auto.
      - intros _ <-. contradiction.
      - intros _ ->. contradiction.
      - intros E2 _. eapply IH; eassumption. }
    assert (NG1 : forall s c, WIFSTOPPED s = true -> ~ goes_on timeout t0 (WStatus s, c)).
    { intros s c' H [U _]. cbn [fst undecided] in U. destruct U as (_ & _ & U). congruence. }
    assert (NG2 : forall w c, lost w -> ~ goes_on timeout t0 (w, c)).
    { intros w' c' H [U _]. cbn [fst] in U. destruct w' as [| | |s]; cbn [undecided lost] in *; try contradiction. destruct U as (U1 & U2 & _). destruct H; congruence. }
    assert (NG3 : forall w c, timeout <= c - t0 -> ~ goes_on timeout t0 (w, c)) by (intros w' c' H [_ L]; cbn [snd] in L; lia).
    assert (WT : ~ goes_on timeout t0 (w, c) -> ~ Forall (goes_on timeout t0) (pre ++ (w, c) :: post)).
    { intros N FF. apply Forall_app in FF. destruct FF as [_ FF]. inversion FF; subst. contradiction. }
    rewrite timed_skips by exact F. destruct X as [(s & -> & S)|[L|[U L]]].
    + rewrite timed_stopped by exact S. pose proof (NG1 s c S) as N. specialize (WT N).
      split; [intros s2; split|split; [split; [discriminate|]|split; [split; [discriminate|]|split; [split; [discriminate|contradiction]|discriminate]]]].
      * intros E. injection E as <-. exists pre, c, post. auto.
      * intros (pre' & c' & post' & E & F' & S'). destruct (UQ _ _ _ _ E F' (NG1 _ _ S') N) as [E2 _]. injection E2 as ->. reflexivity.
      * intros (pre' & w' & c' & post' & E & F' & U' & L'). destruct (UQ _ _ _ _ E F' (NG3 _ _ L') N) as [<- _]. cbn [undecided] in U'. destruct U' as (_ & _ & U'). congruence.
      * intros (pre' & w' & c' & post' & E & F' & L'). destruct (UQ _ _ _ _ E F' (NG2 _ _ L') N) as [<- _]. cbn [lost] in L'.
        destruct (stopped_plain s S). destruct L'; congruence.
    + rewrite timed_lost by exact L. pose proof (NG2 w c L) as N. specialize (WT N).
      split; [intros s2; split; [discriminate|]|split; [split|split; [split|split; [split; [discriminate|contradiction]|]]]].
      * intros (pre' & c' & post' & E & F' & S'). destruct (UQ _ _ _ _ E F' (NG1 _ _ S') N) as [-> _]. cbn [lost] in L.
        destruct (stopped_plain s2 S'). destruct L; congruence.
      * intros E. exfalso. apply NE. congruence.
      * intros (pre' & w' & c' & post' & E & F' & U' & L'). destruct (UQ _ _ _ _ E F' (NG3 _ _ L') N) as [<- _]. exfalso.
        destruct w as [| | |s]; cbn [undecided lost] in *; try contradiction. destruct U' as (U1 & U2 & _). destruct L; congruence.
      * intros _. exists pre, w, c, post. auto.
      * intros _. reflexivity.
      * intros code E. injection E as <-. auto.
    + rewrite timed_over by assumption. pose proof (NG3 w c L) as N. specialize (WT N).
      split; [intros s2; split; [discriminate|]|split; [split|split; [split|split; [split; [discriminate|contradiction]|]]]].
      * intros (pre' & c' & post' & E & F' & S'). destruct (UQ _ _ _ _ E F' (NG1 _ _ S') N) as [-> _]. cbn [undecided] in U. destruct U as (_ & _ & U). congruence.
      * intros _. exists pre, w, c, post. auto.
      * intros _. reflexivity.
      * intros E. exfalso. apply NE. congruence.
      * intros (pre' & w' & c' & post' & E & F' & L'). destruct (UQ _ _ _ _ E F' (NG2 _ _ L') N) as [<- _]. exfalso.
        destruct w as [| | |s]; cbn [undecided lost] in *; try contradiction. destruct U as (U1 & U2 & _). destruct L'; congruence.
      * intros code E. injection E as <-. auto.
Qed.
Print Assumptions C100_exact.
(** A thread that stops after 3 seconds of 200; one that stops too late; one that exits; one that is killed; one still looked at. *)
Example C100_exact_case :
  rr_timed 200 1000 [(WNothing, 1000); (WOther, 1002); (WStatus 1407, 1003)] = T_stopped 1407 /\
  rr_timed 2 1000 [(WNothing, 1000); (WNothing, 1001); (WNothing, 1002); (WStatus 1407, 1003)] = T_error ETIME /\
  rr_timed 2 1000 [(WNothing, 1000); (WStatus 0, 1001)] = T_error EUNKNOWN /\
  rr_timed 2 1000 [(WStatus 9, 1000); (WError, 1001)] = T_error EUNKNOWN /\
  rr_timed 2 1000 [(WNothing, 1000); (WNothing, 1001)] = T_waiting.
Proof. repeat split; reflexivity. Qed.

Lemma steady_diff clock start r n : steady clock ->
  (clock r - clock start < n -> r - start < n * SEC) /\ (n <= clock r - clock start -> (n - 1) * SEC < r - start).
Proof.
  intros (off & H). rewrite !H. unfold SEC.
  pose proof (Z.div_mod (r + off) 1000000000 ltac:(lia)). pose proof (Z.div_mod (start + off) 1000000000 ltac:(lia)).
  pose proof (Z.mod_pos_bound (r + off) 1000000000 ltac:(lia)). pose proof (Z.mod_pos_bound (start + off) 1000000000 ltac:(lia)).
  split; intros; nia.
Qed.

(** With a clock that nobody sets, a thread that stops is waited for at least one second less than the limit: an answer is taken
    if every look before it was made no later than that. *)
Theorem C100_patient_partial : forall timeout clock start pre at_ s post,
  steady clock -> WIFSTOPPED s = true ->
  Forall (fun l => undecided (lk_says l) /\ lk_at l - start <= (timeout - 1) * SEC) pre ->
  rr_timed timeout (clock start) (seen clock (pre ++ mk_look at_ (WStatus s) :: post)) = T_stopped s.
Proof.
  intros timeout clock start pre at_ s post C S F. unfold seen. rewrite map_app. cbn [map lk_says lk_at].
  destruct (C100_exact timeout (clock start) (map (fun l => (lk_says l, clock (lk_at l))) pre ++ (WStatus s, clock at_) :: map (fun l => (lk_says l, clock (lk_at l))) post)) as [X _].
  apply X. eexists _, _, _. split; [reflexivity|]. split; [|exact S].
  apply Forall_map. eapply Forall_impl; [|exact F]. intros l [U L]. split; [exact U|]. cbn [snd].
  destruct (steady_diff clock start (lk_at l) timeout C) as [_ D]. destruct (Z_lt_le_dec (clock (lk_at l) - clock start) timeout); [assumption|]. specialize (D l0). lia.
Qed.
Print Assumptions C100_patient_partial.
Example C100_patient_case :
  rr_timed 200 ((fun r => (r + 5) / SEC) 0)
    (seen (fun r => (r + 5) / SEC) ([mk_look 100000 WNothing; mk_look (199 * SEC) WNothing] ++ [mk_look (199 * SEC + 100000) (WStatus 1407)])) = T_stopped 1407.
Proof.
  apply (C100_patient_partial 200 (fun r => (r + 5) / SEC) 0 _ _ 1407 []).
  - exists 5. reflexivity.
  - reflexivity.
  - repeat (constructor; [split; [exact I|cbn [lk_at]; unfold SEC; lia]|]). constructor.
Qed.
(** One second less than the limit is all one can rely on: started just before the clock ticks, the tool gives up after hardly more. *)
Example C100_patient_tight : rr_timed 1 ((fun r => r / SEC) (SEC - 1)) (seen (fun r => r / SEC) [mk_look SEC WNothing; mk_look (SEC + 100000) (WStatus 1407)]) = T_error ETIME.
Proof. reflexivity. Qed.

(** And no longer than the limit and one pause between two looks: the tool gives up at a look more than one second less than the limit
    and less than the limit plus one pause after the start; and no look at the limit or later leaves it waiting. *)
Theorem C100_limit_partial : forall timeout clock start gap ls,
  steady clock -> 1 <= timeout -> 0 <= gap -> looks_every gap start ls ->
  (rr_timed timeout (clock start) (seen clock ls) = T_error ETIME ->
     exists pre l post, ls = pre ++ l :: post /\ undecided (lk_says l) /\
       rr_timed timeout (clock start) (seen clock pre) = T_waiting /\
       (timeout - 1) * SEC < lk_at l - start < timeout * SEC + gap) /\
  (forall l, In l ls -> timeout * SEC <= lk_at l - start -> rr_timed timeout (clock start) (seen clock ls) <> T_waiting).
Proof.
  intros timeout clock start gap ls C T G K. split.
  - intros H. destruct (C100_exact timeout (clock start) (seen clock ls)) as (_ & [X _] & _).
    destruct (X H) as (pre & w & c & post & E & F & U & L). unfold seen in E.
    apply map_eq_app in E. destruct E as (lp & lr & -> & E1 & E2). destruct lr as [|l lq]; [discriminate E2|]. cbn [map] in E2. injection E2 as Ew Ec Ep.
    exists lp, l, lq. split; [reflexivity|]. subst w c. split; [exact U|]. split.
    { destruct (C100_exact timeout (clock start) (seen clock lp)) as (_ & _ & _ & [_ Y] & _). apply Y. unfold seen. rewrite E1. exact F. }
    destruct (steady_diff clock start (lk_at l) timeout C) as [_ D]. split; [apply D; exact L|].
    assert (P : forall st, looks_every gap st (lp ++ l :: lq) -> (forall q, In q lp -> lk_at q - start < timeout * SEC) -> st - start < timeout * SEC ->
                lk_at l - start < timeout * SEC + gap).
    { clear - G. induction lp as [|q lp IH]; intros st K B S; cbn [app looks_every] in K.
      - destruct K as [K _]. lia.
      - destruct K as [_ K]. apply (IH _ K); [intros x I; apply B; right; exact I|apply B; left; reflexivity]. }
    apply (P start K); [|unfold SEC; lia].
    intros q I. destruct (steady_diff clock start (lk_at q) timeout C) as [D2 _]. apply D2.
    rewrite Forall_forall in F. assert (J : In (lk_says q, clock (lk_at q)) pre) by (rewrite <- E1; apply (in_map (fun l => (lk_says l, clock (lk_at l)))); exact I).
    apply F in J. destruct J as [_ J]. exact J.
  - intros l I L H. destruct (C100_exact timeout (clock start) (seen clock ls)) as (_ & _ & _ & [X _] & _). specialize (X H).
    rewrite Forall_forall in X. assert (J : In (lk_says l, clock (lk_at l)) (seen clock ls)) by (apply (in_map (fun l => (lk_says l, clock (lk_at l)))); exact I).
    apply X in J. destruct J as [_ J]. cbn [snd] in J. destruct (steady_diff clock start (lk_at l) timeout C) as [D _]. specialize (D J). lia.
Qed.
Print Assumptions C100_limit_partial.
Example C100_limit_case :
  exists clock start gap ls, steady clock /\ looks_every gap start ls /\ rr_timed 2 (clock start) (seen clock ls) = T_error ETIME /\
    In (mk_look (2 * SEC) WNothing) ls.
Proof.
  exists (fun r => (r + 0) / SEC), 0, SEC, [mk_look SEC WNothing; mk_look (2 * SEC) WNothing]. split; [exists 0; reflexivity|].
  split; [cbn [looks_every lk_at]; unfold SEC; lia|]. split; [reflexivity|]. right. left. reflexivity.
Qed.

(** With a limit of 0, which the command line takes, there is exactly one look: whatever it shows decides. *)
Theorem C100_zero : forall clock start l ls,
  (forall r, start <= r -> clock start <= clock r) -> start <= lk_at l ->
  rr_timed 0 (clock start) (seen clock (l :: ls)) = rr_timed 0 (clock start) (seen clock [l]) /\
  (undecided (lk_says l) -> rr_timed 0 (clock start) (seen clock (l :: ls)) = T_error ETIME).
Proof.
  intros clock start l ls M B. specialize (M _ B). unfold seen. cbn [map]. destruct (answer_kinds (lk_says l)) as [U|[L|(s & E & S)]].
  - rewrite !timed_over by (try exact U; lia). auto.
  - rewrite !timed_lost by exact L. split; [reflexivity|]. intros U. exfalso. destruct (lk_says l) as [| | |s]; cbn [undecided lost] in *; try contradiction.
    destruct U as (U1 & U2 & _). destruct L; congruence.
  - rewrite E. rewrite !timed_stopped by exact S. split; [reflexivity|]. intros U. cbn [undecided] in U. destruct U as (_ & _ & U). congruence.
Qed.
Print Assumptions C100_zero.
Example C100_zero_case :
  rr_timed 0 7 (seen (fun r => 7 + r / SEC) [mk_look 100000 (WStatus 1407)]) = T_stopped 1407 /\
  rr_timed 0 7 (seen (fun r => 7 + r / SEC) [mk_look 100000 WNothing; mk_look 200000 (WStatus 1407)]) = T_error ETIME.
Proof. split; reflexivity. Qed.

(** Finding: the clock is the one of the system, which can be set. If it is set forward during the waiting the tool gives up at once,
    however long the limit, on a routine that is about to finish; if it is set back, the tool waits longer than any time, although
    the limit passed long ago. *)
Theorem C100_clock_set_refuted : forall timeout s t0 start, 1 <= timeout -> WIFSTOPPED s = true ->
  (rr_timed timeout t0 (seen (fun r => if r <=? start then t0 else t0 + timeout) [mk_look (start + 100000) WNothing; mk_look (start + 200000) (WStatus s)])
     = T_error ETIME) /\
  (forall n : nat, exists clock ls,
     (forall a b, start < a <= b -> clock a <= clock b) /\ clock start = t0 /\ looks_every SEC start ls /\
     (exists l, In l ls /\ lk_at l - start = (timeout + Z.of_nat n) * SEC) /\ rr_timed timeout t0 (seen clock ls) = T_waiting).
Proof.
  intros timeout s t0 start T ST. split.
  - unfold seen. cbn [map lk_says lk_at]. destruct (Z.leb_spec (start + 100000) start); [lia|]. apply timed_over; [exact I|lia].
  - intros n. set (N := timeout + Z.of_nat n).
    exists (fun r => if r <=? start then t0 else t0 - N + (r - start) / SEC).
    set (looks := fix go (k : nat) (at_ : Z) := match k with O => [] | S k' => mk_look at_ WNothing :: go k' (at_ + SEC) end).
    exists (looks (Z.to_nat N) (start + SEC)).
    assert (SP : 0 < SEC) by (unfold SEC; lia).
    split; [|split; [|split; [|split]]].
    + intros a b [A B]. destruct (Z.leb_spec a start); [lia|]. destruct (Z.leb_spec b start); [lia|].
      pose proof (Z.div_le_mono (a - start) (b - start) SEC SP ltac:(lia)). lia.
    + destruct (Z.leb_spec start start); [reflexivity|lia].
    + assert (K : forall k st, looks_every SEC st (looks k (st + SEC))).
      { induction k as [|k IH]; intros st; cbn [looks looks_every]; [exact I|]. cbn [lk_at]. split; [lia|]. apply IH. }
      apply K.
    + exists (mk_look (start + N * SEC) WNothing). split; [|cbn [lk_at]; fold N; lia].
      assert (K : forall k at_, (1 <= Z.of_nat k) -> In (mk_look (at_ + (Z.of_nat k - 1) * SEC) WNothing) (looks k at_)).
      { induction k as [|k IH]; intros at_ H; [lia|]. cbn [looks]. destruct k as [|k].
        - left. f_equal. lia.
        - right. replace (at_ + (Z.of_nat (S (S k)) - 1) * SEC) with (at_ + SEC + (Z.of_nat (S k) - 1) * SEC) by lia. apply IH. lia. }
      specialize (K (Z.to_nat N) (start + SEC) ltac:(unfold N; lia)). rewrite Z2Nat.id in K by (unfold N; lia).
      replace (start + SEC + (N - 1) * SEC) with (start + N * SEC) in K by lia. exact K.
    + match goal with |- rr_timed _ _ ?p = _ => destruct (C100_exact timeout t0 p) as (_ & _ & _ & [_ X] & _) end. apply X. clear X.
      unfold seen. apply Forall_map. apply Forall_forall. intros l I.
      assert (K : forall k at_ l, In l (looks k at_) -> lk_says l = WNothing /\ at_ <= lk_at l <= at_ + (Z.of_nat k - 1) * SEC).
      { clear - SP. induction k as [|k IH]; intros at_ l I; cbn [looks] in I; [destruct I|].
        destruct I as [<-|I]; [cbn [lk_says lk_at]; split; [reflexivity|]; nia|]. apply IH in I. destruct I as [I1 I2]. split; [exact I1|]. nia. }
      apply K in I. destruct I as [I1 I2]. rewrite Z2Nat.id in I2 by (unfold N; lia). split; [cbn [fst]; rewrite I1; exact Logic.I|]. cbn [snd].
      destruct (Z.leb_spec (lk_at l) start); [lia|].
      assert (Q : (lk_at l - start) / SEC <= N) by (apply Z.div_le_upper_bound; nia). lia.
Qed.
Print Assumptions C100_clock_set_refuted.
Example C100_clock_set_case : 1 <= 200 /\ WIFSTOPPED 1407 = true.
Proof. split; [lia|reflexivity]. Qed.

(** The loop without the clock ([PtModel.rr_wait], used by all theorems about routines) is this loop: when the waiting ended, it says the same of
    the answers that were looked at. *)
Theorem C100_refines : forall timeout t0 polls,
  match rr_timed timeout t0 polls with
  | T_waiting => True
  | T_stopped s => exists n, rr_wait (map fst (firstn n polls)) = inr s
  | T_error code => exists n, rr_wait (map fst (firstn n polls)) = inl code
  end.
Proof.
  intros timeout t0. induction polls as [|[w c] polls IH]; cbn [rr_timed]; [exact I|].
  assert (A : match (if c - t0 <? timeout then rr_timed timeout t0 polls else T_error ETIME) with
              | T_waiting => True
              | T_stopped s => exists n, rr_wait (map fst (firstn n polls)) = inr s
              | T_error code => exists n, rr_wait (map fst (firstn n polls)) = inl code
              end).
  { destruct (c - t0 <? timeout); [exact IH|]. exists 0%nat. reflexivity. }
  assert (B : forall w', (forall l, rr_wait (w' :: l) = rr_wait l) ->
              match (if c - t0 <? timeout then rr_timed timeout t0 polls else T_error ETIME) with
              | T_waiting => True
              | T_stopped s => exists n, rr_wait (map fst (firstn n ((w', c) :: polls))) = inr s
              | T_error code => exists n, rr_wait (map fst (firstn n ((w', c) :: polls))) = inl code
              end).
  { intros w' W. destruct (if c - t0 <? timeout then rr_timed timeout t0 polls else T_error ETIME); [| |exact I];
      destruct A as (n & A); exists (S n); cbn [firstn map fst]; rewrite W; exact A. }
  destruct w as [| | |s].
  - apply B. reflexivity.
  - exists 1%nat. reflexivity.
  - apply B. reflexivity.
  - destruct (WIFEXITED s || WCOREDUMP s) eqn:X; [exists 1%nat; cbn [firstn map fst rr_wait]; rewrite X; reflexivity|].
    destruct (WIFSTOPPED s) eqn:Y; [exists 1%nat; cbn [firstn map fst rr_wait]; rewrite X, Y; reflexivity|].
    apply B. intros l. cbn [rr_wait]. rewrite X, Y. reflexivity.
Qed.
Print Assumptions C100_refines.
Example C100_refines_case : rr_wait (map fst (firstn 3 [(WNothing, 1000); (WOther, 1002); (WStatus 1407, 1003); (WError, 1004)])) = inr 1407.
Proof. reflexivity. Qed.
