(** Proofs about the discovery queue. *)
From Verif Require Import Base BaseFacts TextModel TextSpec TextProofs PcModel PcSpec.

Definition p_stored (p : ppc) : Z := match p with PWrap | PPost => 1 | _ => 0 end.
Definition p_taken (p : ppc) : Z := match p with PWait => 0 | _ => 1 end.
Definition c_read (c : cpc) : Z := match c with CWrap | CPost => 1 | _ => 0 end.
Definition c_taken (c : cpc) : Z := match c with CWait => 0 | _ => 1 end.

Definition item (xs : list Z) (i : Z) : Z := nth (Z.to_nat i) xs 0.

(** [dp] calls of enqueue and [dc] of dequeue have returned. *)
Record pinv (n : Z) (xs : list Z) (dp dc : Z) (s : pcstate) : Prop := {
  i_n : pq_n (pc_q s) = n;
  i_dp : 0 <= dp <= Z.of_nat (length xs);
  i_dc : 0 <= dc;
  i_todo : pc_todo s = skipn (Z.to_nat dp) xs;
  i_ptodo : pc_p s <> PWait -> dp < Z.of_nat (length xs);
  i_head : match pc_p s with
           | PWrap => pq_head (pc_q s) = dp mod n + 1
           | PPost => pq_head (pc_q s) = (dp + 1) mod n
           | _ => pq_head (pc_q s) = dp mod n
           end;
  i_tail : match pc_c s with
           | CWrap => pq_tail (pc_q s) = dc mod n + 1
           | CPost => pq_tail (pc_q s) = (dc + 1) mod n
           | _ => pq_tail (pc_q s) = dc mod n
           end;
  i_full : pq_full (pc_q s) = n + dc - dp - p_taken (pc_p s);
  i_full0 : 0 <= pq_full (pc_q s);
  i_empty : pq_empty (pc_q s) = dp - dc - c_taken (pc_c s);
  i_empty0 : 0 <= pq_empty (pc_q s);
  i_slots : forall i, dc + c_read (pc_c s) <= i < dp + p_stored (pc_p s) ->
              pq_slots (pc_q s) (i mod n) = item xs i;
  i_hand : c_read (pc_c s) = 1 -> pc_hand s = item xs dc;
  i_got : pc_got s = firstn (Z.to_nat dc) xs;
  i_stop : pc_stop s = true -> pc_c s = CWait /\ exists g, pc_got s = g ++ [0] /\ ~ In 0 g;
  i_run : pc_stop s = false -> ~ In 0 (pc_got s)
}.

Lemma skipn_cons_nth (xs : list Z) : forall k, (k < length xs)%nat ->
  skipn k xs = nth k xs 0 :: skipn (S k) xs.
Proof.
  induction xs as [|x xs IH]; intros k H; cbn in H; [lia|].
  destruct k as [|k]; [reflexivity|]. cbn [skipn nth]. apply IH. lia.
Qed.

Lemma firstn_snoc_nth (xs : list Z) : forall k, (k < length xs)%nat ->
  firstn (S k) xs = firstn k xs ++ [nth k xs 0].
Proof.
  induction xs as [|x xs IH]; intros k H; cbn in H; [lia|].
  destruct k as [|k]; [reflexivity|]. cbn [firstn nth app]. f_equal. apply IH. lia.
Qed.

Lemma mod_succ_wrap a n : 1 <= n -> 0 <= a ->
  (if n <=? a mod n + 1 then 0 else a mod n + 1) = (a + 1) mod n.
Proof.
  intros Hn Ha. pose proof (Z.mod_pos_bound a n ltac:(lia)) as B.
  rewrite <- (Zplus_mod_idemp_l a 1 n).
  destruct (Z.leb_spec n (a mod n + 1)).
  - replace (a mod n + 1) with n by lia. rewrite Z.mod_same by lia. reflexivity.
  - rewrite (Z.mod_small (a mod n + 1)) by lia. reflexivity.
Qed.

Lemma mod_neq i j n : 1 <= n -> i < j -> j < i + n -> i mod n <> j mod n.
Proof.
  intros Hn H1 H2 E.
  pose proof (Z.div_mod i n ltac:(lia)). pose proof (Z.div_mod j n ltac:(lia)).
  assert (j - i = n * (j / n - i / n)) by (rewrite Z.mul_sub_distr_l; lia).
  assert (j / n - i / n <= 0 \/ 1 <= j / n - i / n) as [?|?] by lia; nia.
Qed.

Lemma pinv_init n junk xs : 1 <= n -> pinv n xs 0 0 (pc_init n junk xs).
Proof.
  intros Hn. constructor; cbn; try (rewrite Z.mod_0_l by lia); auto; try lia; try contradiction; try discriminate.
Qed.

Lemma producer_inv n xs dp dc s : 1 <= n -> pinv n xs dp dc s ->
  match producer_step s with
  | PcOutOfBounds => False
  | PcFinished => dp = Z.of_nat (length xs) /\ pc_todo s = []
  | PcBlocked => pc_p s = PWait /\ dp = dc + n
  | PcNext s' => pinv n xs (if match pc_p s with PPost => true | _ => false end then dp + 1 else dp) dc s'
  end.
Proof.
  intros Hn I. destruct I. unfold producer_step.
  destruct (pc_todo s) as [|x rest] eqn:T.
  - split; [|reflexivity]. symmetry in i_todo0.
    assert (length (skipn (Z.to_nat dp) xs) = 0%nat) by (rewrite i_todo0; reflexivity).
    rewrite skipn_length in H. lia.
  - assert (L : dp < Z.of_nat (length xs)).
    { assert (length (skipn (Z.to_nat dp) xs) <> 0%nat) by (rewrite <- i_todo0; cbn; lia).
      rewrite skipn_length in H. lia. }
    assert (X : x = item xs dp /\ rest = skipn (Z.to_nat (dp + 1)) xs).
    { rewrite skipn_cons_nth in i_todo0 by lia.
      replace (Z.to_nat (dp + 1)) with (S (Z.to_nat dp)) by lia. unfold item.
      split; congruence. }
    destruct X as [X R].
    destruct (pc_p s) eqn:P; cbn [p_stored p_taken] in *.
    + destruct (Z.leb_spec (pq_full (pc_q s)) 0).
      * split; [reflexivity|]. lia.
      * constructor; cbn; rewrite ?T; auto; try lia.
    + pose proof (Z.mod_pos_bound dp n ltac:(lia)) as B.
      destruct (Z.ltb_spec (pq_head (pc_q s)) 0); [lia|].
      destruct (Z.leb_spec (pq_n (pc_q s)) (pq_head (pc_q s))); [lia|]. cbn [orb].
      constructor; cbn; rewrite ?T; auto; try lia.
      intros i Hi. rewrite i_head0.
      destruct (Z.eqb_spec (i mod n) (dp mod n)) as [E|E].
      * destruct (Z.eq_dec i dp) as [->|N]; [exact X|]. exfalso.
        assert (0 <= c_read (pc_c s)) by (destruct (pc_c s); cbn; lia).
        revert E. apply mod_neq; lia.
      * apply i_slots0. split; [lia|]. destruct (Z.eq_dec i dp) as [->|N]; [contradiction|lia].
    + constructor; cbn; rewrite ?T; auto; try lia.
      rewrite i_head0, i_n0. apply mod_succ_wrap; lia.
    + constructor; cbn; auto; try lia; try (intros; contradiction).
      intros i Hi. apply i_slots0. lia.
Qed.

Lemma consumer_inv n xs dp dc s : 1 <= n -> pinv n xs dp dc s ->
  match consumer_step s with
  | PcOutOfBounds => False
  | PcFinished => pc_stop s = true
  | PcBlocked => pc_c s = CWait /\ dp = dc /\ pc_stop s = false
  | PcNext s' => pinv n xs dp (if match pc_c s with CPost => true | _ => false end then dc + 1 else dc) s'
                 /\ pc_stop s = false
  end.
Proof.
  intros Hn I. destruct I. unfold consumer_step.
  destruct (pc_stop s) eqn:ST; [reflexivity|]. specialize (i_run0 eq_refl).
  destruct (pc_c s) eqn:C; cbn [c_read c_taken] in *.
  - destruct (Z.leb_spec (pq_empty (pc_q s)) 0).
    + repeat split; auto. lia.
    + split; [|reflexivity]. constructor; cbn; auto; try lia; try discriminate.
  - pose proof (Z.mod_pos_bound dc n ltac:(lia)) as B.
    destruct (Z.ltb_spec (pq_tail (pc_q s)) 0); [lia|].
    destruct (Z.leb_spec (pq_n (pc_q s)) (pq_tail (pc_q s))); [lia|]. cbn [orb].
    split; [|reflexivity]. constructor; cbn; auto; try lia; try discriminate.
    + intros i Hi. apply i_slots0. lia.
    + intros _. rewrite i_tail0. apply i_slots0. destruct (pc_p s); cbn; lia.
  - split; [|reflexivity]. constructor; cbn; auto; try lia; try discriminate.
    rewrite i_tail0, i_n0. apply mod_succ_wrap; lia.
  - assert (G : pc_got s ++ [pc_hand s] = firstn (Z.to_nat (dc + 1)) xs).
    { replace (Z.to_nat (dc + 1)) with (S (Z.to_nat dc)) by lia.
      rewrite firstn_snoc_nth by lia. rewrite i_got0, (i_hand0 eq_refl). reflexivity. }
    split; [|reflexivity]. constructor; cbn; auto; try lia; try discriminate.
    + intros i Hi. apply i_slots0. lia.
    + destruct (Z.eqb_spec (pc_hand s) 0) as [E|E]; [|discriminate]. intros _. split; [reflexivity|].
      exists (pc_got s). rewrite E. auto.
    + destruct (Z.eqb_spec (pc_hand s) 0) as [E|E]; [discriminate|]. intros _ H.
      apply in_app_or in H. destruct H as [H|[H|[]]]; [contradiction|congruence].
Qed.

Lemma run_inv n xs sched : 1 <= n -> forall s dp dc, pinv n xs dp dc s ->
  exists s' dp' dc', pc_run s sched = Some s' /\ pinv n xs dp' dc' s'.
Proof.
  intros Hn. induction sched as [|b t IH]; intros s dp dc I; cbn [pc_run]; [eauto 6|].
  destruct b.
  - pose proof (producer_inv n xs dp dc s Hn I) as H. destruct (producer_step s); [|eauto|eauto|contradiction].
    eapply IH; exact H.
  - pose proof (consumer_inv n xs dp dc s Hn I) as H. destruct (consumer_step s); [|eauto|eauto|contradiction].
    eapply IH; exact (proj1 H).
Qed.

Lemma reachable_inv n xs s : 1 <= n -> reachable n xs s -> exists dp dc, pinv n xs dp dc s.
Proof.
  intros Hn (junk & sched & H).
  destruct (run_inv n xs sched Hn _ 0 0 (pinv_init n junk xs Hn)) as (s' & dp & dc & H' & I).
  rewrite H in H'. apply Some_inj in H'. subst. eauto.
Qed.

(** Steps left. *)
Definition p_left (p : ppc) : Z := match p with PWait => 4 | PStore => 3 | PWrap => 2 | PPost => 1 end.
Definition c_left (c : cpc) : Z := match c with CWait => 4 | CRead => 3 | CWrap => 2 | CPost => 1 end.

Lemma got_le n xs dp dc s : pinv n xs dp dc s -> dc <= dp.
Proof. intros []. destruct (pc_c s); cbn in *; lia. Qed.

Lemma firstn_no_zero ps dc : ~ In 0 ps -> 0 <= dc ->
  ~ In 0 (firstn (Z.to_nat dc) (ps ++ [0])) -> dc <= Z.of_nat (length ps).
Proof.
  intros N Hd H. destruct (Z.le_gt_cases dc (Z.of_nat (length ps))) as [L|L]; [exact L|]. exfalso. apply H.
  rewrite firstn_all2 by (rewrite app_length; cbn; lia). apply in_or_app. right. left. reflexivity.
Qed.

Lemma firstn_ends_zero ps dc g : ~ In 0 ps -> 0 <= dc -> dc <= Z.of_nat (length ps) + 1 ->
  firstn (Z.to_nat dc) (ps ++ [0]) = g ++ [0] -> dc = Z.of_nat (length ps) + 1.
Proof.
  intros N Hd Hl H. destruct (Z.eq_dec dc (Z.of_nat (length ps) + 1)) as [E|E]; [exact E|]. exfalso. apply N.
  rewrite firstn_app in H.
  replace (Z.to_nat dc - length ps)%nat with 0%nat in H by lia. cbn [firstn] in H. rewrite app_nil_r in H.
  assert (I : In 0 (firstn (Z.to_nat dc) ps)) by (rewrite H; apply in_or_app; right; left; reflexivity).
  revert I. generalize (Z.to_nat dc). clear. intros k. revert k.
  induction ps as [|x ps IH]; intros k I; destruct k; cbn in I; try contradiction.
  destruct I as [I|I]; [left; exact I|right; eapply IH; exact I].
Qed.

Lemma proper_done n ps s : 1 <= n -> ~ In 0 ps -> reachable n (ps ++ [0]) s ->
  pc_stop s = true -> pc_todo s = [] /\ pc_got s = ps ++ [0].
Proof.
  intros Hn N R S. destruct (reachable_inv n _ s Hn R) as (dp & dc & I).
  pose proof (got_le _ _ _ _ _ I) as L. destruct I.
  rewrite app_length in i_dp0. cbn in i_dp0.
  destruct (i_stop0 S) as (_ & g & G & _). rewrite i_got0 in G.
  apply firstn_ends_zero in G as E; try lia; try exact N.
  split.
  - rewrite i_todo0. apply skipn_all2. rewrite app_length. cbn. lia.
  - rewrite i_got0. apply firstn_all2. rewrite app_length. cbn. lia.
Qed.

(** Discovery. *)
Lemma isnumber_decimal s : isnumber (Some s) = true <-> exists v, decimal s v.
Proof.
  unfold isnumber. split.
  - destruct s as [|c s]; [discriminate|]. intros H. exists (dec_val (c :: s)). apply digits_decimal; [exact H|discriminate].
  - intros [v H]. apply decimal_digits in H. destruct H as (A & B & _). destruct s; [contradiction|exact A].
Qed.

Fixpoint until_zero (l : list Z) : list Z :=
  match l with
  | [] => []
  | x :: t => if x =? 0 then [] else x :: until_zero t
  end.

Lemma serial_until_zero w wc us l : forall last,
  discover_serial w wc us last l = until_zero (discover w wc us last l).
Proof.
  induction l as [|pe t IH]; intros last; cbn [discover discover_serial until_zero]; [reflexivity|].
  destruct (pe_skipped w wc us pe); [apply IH|]. cbn [until_zero]. cbv zeta.
  destruct (_ =? 0); [reflexivity|]. f_equal. apply IH.
Qed.

Lemma discover_ok w wc us l : forall last,
  (forall pe, In pe l -> pe_skipped w wc us pe = false -> pe_init pe = true) ->
  discover w wc us last l =
  map (fun pe => atoi (pe_name pe)) (filter (fun pe => negb (pe_skipped w wc us pe)) l) ++ [0].
Proof.
  induction l as [|pe t IH]; intros last H; cbn [discover filter]; [reflexivity|].
  destruct (pe_skipped w wc us pe) eqn:E; cbn [negb map app].
  - apply IH. intros; apply H; auto. right; auto.
  - rewrite (H pe (or_introl eq_refl) E). cbv zeta. f_equal. apply IH. intros; apply H; auto. right; auto.
Qed.

(** Steps left in a state. *)
Definition pmu (n : Z) (xs : list Z) (dp dc : Z) (s : pcstate) : Z :=
  4 * (Z.of_nat (length xs) - dp) - (4 - p_left (pc_p s)) +
  4 * (Z.of_nat (length xs) - dc) - (4 - c_left (pc_c s)).

Lemma pmu_nonneg n xs dp dc s : pinv n xs dp dc s -> 0 <= pmu n xs dp dc s.
Proof.
  intros I. pose proof (got_le _ _ _ _ _ I). destruct I. unfold pmu.
  assert (4 - p_left (pc_p s) <= 4 * (Z.of_nat (length xs) - dp)).
  { destruct (pc_p s) eqn:P; cbn; try lia; assert (dp < Z.of_nat (length xs)) by (apply i_ptodo0; discriminate); lia. }
  destruct (pc_c s) eqn:C; cbn in *; lia.
Qed.

Lemma moves_bound n xs sched : 1 <= n -> forall s dp dc s', pinv n xs dp dc s ->
  pc_moves s sched = Some s' ->
  exists dp' dc', pinv n xs dp' dc' s' /\ Z.of_nat (length sched) + pmu n xs dp' dc' s' = pmu n xs dp dc s.
Proof.
  intros Hn. induction sched as [|b t IH]; intros s dp dc s' I H; cbn [pc_moves] in H.
  - apply Some_inj in H. subst. exists dp, dc. split; [exact I|]. cbn. lia.
  - destruct b.
    + pose proof (producer_inv n xs dp dc s Hn I) as HI.
      destruct (producer_step s) as [s1| | |] eqn:E; try discriminate.
      destruct (IH s1 _ _ s' HI H) as (dp' & dc' & I' & L). exists dp', dc'. split; [exact I'|].
      assert (pmu n xs (if match pc_p s with PPost => true | _ => false end then dp + 1 else dp) dc s1 + 1
              = pmu n xs dp dc s).
      { unfold producer_step in E. unfold pmu. destruct (pc_todo s); [discriminate|].
        destruct (pc_p s); cbn in E.
        - destruct (_ <=? _); [discriminate|]. inversion E; subst; cbn. lia.
        - destruct (_ || _); [discriminate|]. inversion E; subst; cbn. lia.
        - inversion E; subst; cbn. lia.
        - inversion E; subst; cbn. lia. }
      cbn [length]. lia.
    + pose proof (consumer_inv n xs dp dc s Hn I) as HI.
      destruct (consumer_step s) as [s1| | |] eqn:E; try discriminate.
      destruct (IH s1 _ _ s' (proj1 HI) H) as (dp' & dc' & I' & L). exists dp', dc'. split; [exact I'|].
      assert (pmu n xs dp (if match pc_c s with CPost => true | _ => false end then dc + 1 else dc) s1 + 1
              = pmu n xs dp dc s).
      { unfold consumer_step in E. unfold pmu. destruct (pc_stop s); [discriminate|].
        destruct (pc_c s); cbn in E.
        - destruct (_ <=? _); [discriminate|]. inversion E; subst; cbn. lia.
        - destruct (_ || _); [discriminate|]. inversion E; subst; cbn. lia.
        - inversion E; subst; cbn. lia.
        - inversion E; subst; cbn. lia. }
      cbn [length]. lia.
Qed.

Lemma moves_run sched : forall s s', pc_moves s sched = Some s' -> pc_run s sched = Some s'.
Proof.
  induction sched as [|b t IH]; intros s s' H; cbn [pc_moves pc_run] in *; [exact H|].
  destruct (if b then producer_step s else consumer_step s); try discriminate. auto.
Qed.
