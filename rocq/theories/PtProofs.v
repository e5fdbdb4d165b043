(** Proofs about PtModel. *)
From Verif Require Import Base BaseFacts InsnQModel LibModel PtModel PtSpec.

(** ** Writing words *)

Lemma firstn_bytes (l : list Z) k : bytes_ok l -> bytes_ok (firstn k l).
Proof. intros H. rewrite <- (firstn_skipn k l) in H. apply bytes_ok_app in H. tauto. Qed.
Lemma skipn_bytes (l : list Z) k : bytes_ok l -> bytes_ok (skipn k l).
Proof. intros H. rewrite <- (firstn_skipn k l) in H. apply bytes_ok_app in H. tauto. Qed.

Lemma mem_eq_trans m1 m2 m3 : mem_eq m1 m2 -> mem_eq m2 m3 -> mem_eq m1 m3.
Proof. intros A B x. rewrite A. apply B. Qed.

Lemma u64_id v : 0 <= v < 2 ^ 64 -> u64 v = v.
Proof. intros. unfold u64. apply Z.mod_small. assumption. Qed.

Lemma poke_word m a w : bytes_ok w -> length w = 8%nat -> poke m a (le_dec w) = mem_write m a w.
Proof. intros B L. unfold poke. rewrite <- L, le_enc_dec by exact B. reflexivity. Qed.

Lemma firstn_add {A} (l : list A) p q : firstn (p + q) l = firstn p l ++ firstn q (skipn p l).
Proof.
  revert l; induction p as [|p IH]; intros l; [reflexivity|].
  destruct l; [rewrite skipn_nil, !firstn_nil; reflexivity|].
  cbn [Nat.add firstn skipn app]. rewrite IH. reflexivity.
Qed.
Lemma skipn_add {A} (l : list A) p q : skipn (p + q) l = skipn q (skipn p l).
Proof.
  revert l; induction p as [|p IH]; intros l; [reflexivity|].
  destruct l; [rewrite !skipn_nil; reflexivity|]. cbn [Nat.add skipn]. apply IH.
Qed.

Lemma zlen_firstn (l : list Z) k : (k <= length l)%nat -> zlen (firstn k l) = Z.of_nat k.
Proof. intros. unfold zlen. rewrite firstn_length. lia. Qed.

Lemma write_longs_spec : forall k ok m a buf d m1 a1 rest,
  write_longs ok m a k buf = (d, m1, a1, rest) ->
  bytes_ok buf -> 0 <= a < 2 ^ 64 \/ k = O -> (8 * k <= length buf)%nat -> a + Z.of_nat (8 * k) <= 2 ^ 64 ->
  exists j, (j <= k)%nat /\ mem_eq m1 (mem_write m a (firstn (8 * j) buf)) /\
    (d = true -> j = k /\ (a1 = u64 (a + Z.of_nat (8 * k)) \/ k = O /\ a1 = a) /\ rest = skipn (8 * k) buf) /\
    (d = false -> accessible ok a (Z.of_nat (8 * k)) -> False).
Proof.
  induction k as [|k IH]; intros ok m a buf d m1 a1 rest H B A L W; cbn [write_longs] in H.
  - injection H as <- <- <- <-. exists O. split; [lia|]. split; [intros x; rewrite mem_write_nil; reflexivity|].
    split; [intros _; repeat split; auto|discriminate].
  - destruct A as [A|A]; [|discriminate].
    destruct (word_ok ok a) eqn:OK.
    + rewrite poke_word in H by (try (apply firstn_bytes; exact B); rewrite firstn_length; lia).
      destruct k as [|k'].
      * cbn [write_longs] in H. injection H as <- <- <- <-. exists 1%nat.
        split; [lia|]. split; [intros x; reflexivity|]. split; [intros _|discriminate].
        split; [reflexivity|]. split; [left; f_equal|reflexivity].
      * rewrite u64_id in H by lia.
        apply IH in H; [|apply skipn_bytes; exact B|left; lia|rewrite skipn_length; lia|lia].
        destruct H as (j & J & M & D & F). exists (S j). split; [lia|]. split; [|split].
        -- intros x. rewrite M. replace (8 * S j)%nat with (8 + 8 * j)%nat by lia.
           rewrite firstn_add, mem_write_app. rewrite zlen_firstn by lia. reflexivity.
        -- intros T. destruct (D T) as (-> & R & ->). split; [reflexivity|]. split.
           ++ left. destruct R as [->|(? & _)]; [|discriminate]. f_equal. lia.
           ++ replace (8 * S (S k'))%nat with (8 + 8 * S k')%nat by lia. rewrite skipn_add. reflexivity.
        -- intros T AC. apply (F T). intros x X. apply AC. lia.
    + injection H as <- <- <- <-. exists O. split; [lia|].
      split; [intros x; rewrite mem_write_nil; reflexivity|]. split; [discriminate|].
      intros _ AC. unfold word_ok in OK.
      rewrite !(AC _) in OK by lia. cbn [andb] in OK.
      rewrite andb_true_r in OK. apply Z.leb_gt in OK. lia.
Qed.

Lemma word_ok_of ok a : accessible ok a 8 -> a + 8 <= 2 ^ 64 -> word_ok ok a = true.
Proof.
  intros AC W. unfold word_ok. rewrite !(AC _) by lia. cbn [andb]. rewrite andb_true_r. apply Z.leb_le. exact W.
Qed.

Lemma mem_read_eq m1 m2 a n : mem_eq m1 m2 -> mem_read m1 a n = mem_read m2 a n.
Proof. intros H. apply mem_read_ext. intros. apply H. Qed.

(** Writing back what is there changes nothing. *)
Lemma mem_write_read m a n x : mem_write m a (mem_read m a n) x = m x.
Proof.
  destruct (Z_lt_dec x a); [apply mem_write_out; lia|].
  assert (zlen (mem_read m a n) = Z.of_nat n) by (unfold zlen; rewrite mem_read_length; reflexivity).
  destruct (Z_lt_dec x (a + Z.of_nat n)); [|apply mem_write_out; lia].
  rewrite mem_write_in by lia. rewrite mem_read_nth by lia. f_equal. lia.
Qed.

Lemma skipn_mem_read m a k n : (k <= n)%nat -> skipn k (mem_read m a n) = mem_read m (a + Z.of_nat k) (n - k).
Proof.
  intros H. replace n with (k + (n - k))%nat at 1 by lia. rewrite mem_read_app.
  rewrite <- (mem_read_length m a k) at 1. apply skipn_app_exact.
Qed.

Lemma write_bytes_ptrace_spec ok m a buf r m' :
  write_bytes_ptrace ok m a buf = (r, m') ->
  byte_mem m -> bytes_ok buf -> 0 <= a < 2 ^ 64 -> a + zlen buf <= 2 ^ 64 ->
  exists j, (j <= length buf)%nat /\ mem_eq m' (mem_write m a (firstn j buf)) /\
    (r = 0 -> j = length buf) /\ (r = 0 \/ r = 1) /\
    (accessible ok a ((zlen buf + 7) / 8 * 8) -> a + (zlen buf + 7) / 8 * 8 <= 2 ^ 64 -> r = 0).
Proof.
  intros H BM B A W. unfold write_bytes_ptrace in H.
  set (n := zlen buf) in *. set (k := Z.to_nat (n / 8)) in *.
  pose proof (zlen_nonneg buf) as N. fold n in N.
  assert (K : 8 * Z.of_nat k = n - n mod 8).
  { unfold k. rewrite Z2Nat.id by (apply Z.div_pos; lia). pose proof (Z.div_mod n 8). lia. }
  pose proof (Z.mod_pos_bound n 8 ltac:(lia)) as MB.
  assert (LN : Z.of_nat (length buf) = n) by reflexivity.
  destruct (write_longs ok m a k buf) as [[[d m1] a1] rest] eqn:WL.
  apply write_longs_spec in WL; [|exact B|left; exact A|lia|lia].
  destruct WL as (j & J & M & D & F).
  destruct d; cbn [negb] in H.
  - destruct (D eq_refl) as (-> & A1 & ->). clear D F J.
    destruct (Z.eqb_spec (n mod 8) 0) as [E|E].
    + injection H as <- <-. exists (8 * k)%nat. split; [lia|]. split; [exact M|].
      split; [intros _; lia|]. split; [left; reflexivity|]. intros _ _. reflexivity.
    + assert (A1' : a1 = a + Z.of_nat (8 * k)).
      { destruct A1 as [->|(-> & ->)]; [apply u64_id; lia|lia]. }
      subst a1. clear A1.
      destruct (word_ok ok (a + Z.of_nat (8 * k))) eqn:OK; cbn [negb] in H.
      * apply pair_equal_spec in H. destruct H as [<- <-]. exists (length buf). split; [lia|]. rewrite firstn_all.
        split; [|split; [reflexivity|split; [left; reflexivity|reflexivity]]].
        set (b := a + Z.of_nat (8 * k)) in *. set (q := Z.to_nat (n mod 8)) in *.
        assert (RL : length (skipn (8 * k) buf) = q) by (rewrite skipn_length; unfold q; lia).
        rewrite (firstn_all2 (skipn (8 * k) buf)) by lia.
        unfold peek.
        replace (le_enc 8 (le_dec (mem_read m1 b 8))) with (mem_read m1 b 8).
        2: { rewrite <- (mem_read_length m1 b 8) at 2. symmetry. apply le_enc_dec. apply mem_read_bytes.
             intros y. rewrite M. apply mem_write_bytes; [exact BM|apply firstn_bytes; exact B]. }
        rewrite skipn_mem_read by lia.
        rewrite poke_word.
        -- intros x. rewrite mem_write_app.
           transitivity (mem_write m1 b (skipn (8 * k) buf) x).
           { assert (ZR : zlen (skipn (8 * k) buf) = Z.of_nat q) by (unfold zlen; rewrite RL; reflexivity).
             rewrite ZR. set (m2 := mem_write m1 b (skipn (8 * k) buf)).
             replace (mem_read m1 (b + Z.of_nat q) (8 - q)) with (mem_read m2 (b + Z.of_nat q) (8 - q)).
             - apply mem_write_read.
             - unfold m2. apply mem_read_write_out. right. lia. }
           rewrite <- (firstn_skipn (8 * k) buf) at 2. rewrite mem_write_app.
           rewrite zlen_firstn by lia. apply mem_write_ext. exact M.
        -- apply bytes_ok_app. split; [apply skipn_bytes; exact B|]. apply mem_read_bytes.
           intros y. rewrite M. apply mem_write_bytes; [exact BM|apply firstn_bytes; exact B].
        -- rewrite app_length, RL, mem_read_length. unfold q. lia.
      * injection H as <- <-. exists (8 * k)%nat. split; [lia|]. split; [exact M|].
        split; [discriminate|]. split; [right; reflexivity|]. intros AC W2. exfalso.
        assert (word_ok ok (a + Z.of_nat (8 * k)) = true); [|congruence].
        assert (CE : (n + 7) / 8 * 8 = Z.of_nat (8 * k) + 8).
        { rewrite Nat2Z.inj_mul. change (Z.of_nat 8) with 8. clearbody k n. clear - K E MB N. Z.to_euclidean_division_equations. lia. }
        apply word_ok_of; [intros x X; apply AC; lia|lia].
  - injection H as <- <-. exists (8 * j)%nat. split; [lia|]. split; [exact M|]. split; [discriminate|].
    split; [right; reflexivity|]. intros AC W2. exfalso. apply (F eq_refl). intros x X. apply AC.
    assert (CE : Z.of_nat (8 * k) <= (n + 7) / 8 * 8).
    { rewrite Nat2Z.inj_mul. change (Z.of_nat 8) with 8. clearbody k n. clear - K MB N. Z.to_euclidean_division_equations. lia. }
    lia.
Qed.

(** ** process_vm_* *)

Lemma vm_span_le ok : forall n a, (vm_span ok a n <= n)%nat.
Proof. induction n as [|n IH]; intros a; cbn; [lia|]. destruct (ok a); [|lia]. specialize (IH (a + 1)). lia. Qed.

Lemma vm_span_full ok : forall n a, accessible ok a (Z.of_nat n) -> vm_span ok a n = n.
Proof.
  induction n as [|n IH]; intros a H; cbn; [reflexivity|]. rewrite (H a) by lia. f_equal. apply IH.
  intros x X. apply H. lia.
Qed.

Lemma vm_write_full fuel ok m a buf :
  accessible ok a (zlen buf) -> zlen buf < 2 ^ 64 -> (0 < fuel)%nat ->
  write_bytes fuel ok m a buf = Some (0, mem_write m a buf).
Proof.
  intros AC W F. destruct fuel as [|f]; [lia|]. unfold write_bytes. cbn [vm_write_loop].
  rewrite (vm_span_full ok (length buf) a AC). rewrite firstn_all.
  rewrite Z.add_0_l. rewrite u64_id by (pose proof (zlen_nonneg buf); unfold zlen in *; lia).
  fold (zlen buf). rewrite Z.eqb_refl.
  destruct (Nat.eqb_spec (length buf) 0) as [E|E]; cbn [andb negb]; [|reflexivity].
  unfold zlen. rewrite E. reflexivity.
Qed.

Lemma vm_write_out : forall fuel ok m a buf acc r m',
  vm_write_loop fuel ok m a buf acc = Some (r, m') -> mem_eq_out m m' a (zlen buf).
Proof.
  induction fuel as [|f IH]; intros ok m a buf acc r m' H; cbn [vm_write_loop] in H; [discriminate|].
  destruct (_ && _); [apply Some_inj in H; injection H as <- <-; intros x X; reflexivity|].
  set (k := vm_span ok a (length buf)) in *.
  assert (K : (k <= length buf)%nat) by apply vm_span_le.
  assert (O : mem_eq_out m (mem_write m a (firstn k buf)) a (zlen buf)).
  { intros x X. symmetry. apply mem_write_out. rewrite zlen_firstn by exact K. unfold zlen in X. lia. }
  destruct (_ =? _); [apply Some_inj in H; injection H as <- <-; exact O|].
  apply IH in H. intros x X. rewrite <- (H x X). apply O. exact X.
Qed.

Lemma vm_read_full fuel ok m a dst :
  accessible ok a (zlen dst) -> zlen dst < 2 ^ 64 -> (0 < fuel)%nat ->
  read_memory fuel ok m a dst = Some (0, mem_read m a (length dst)).
Proof.
  intros AC W F. destruct fuel as [|f]; [lia|]. unfold read_memory. cbn [vm_read_loop].
  rewrite (vm_span_full ok (length dst) a AC). rewrite skipn_all, app_nil_r.
  rewrite Z.add_0_l. rewrite u64_id by (pose proof (zlen_nonneg dst); unfold zlen in *; lia).
  fold (zlen dst). rewrite Z.eqb_refl.
  destruct (Nat.eqb_spec (length dst) 0) as [E|E]; cbn [andb negb]; [|reflexivity].
  unfold zlen. rewrite E. reflexivity.
Qed.

(** The buffer never changes its length. *)
Lemma vm_read_length : forall fuel ok m a dst acc r dst',
  vm_read_loop fuel ok m a dst acc = Some (r, dst') -> length dst' = length dst.
Proof.
  induction fuel as [|f IH]; intros ok m a dst acc r dst' H; cbn [vm_read_loop] in H; [discriminate|].
  destruct (_ && _); [apply Some_inj in H; injection H as <- <-; reflexivity|].
  set (k := vm_span ok a (length dst)) in *.
  assert (K : (k <= length dst)%nat) by apply vm_span_le.
  assert (L : length (mem_read m a k ++ skipn k dst) = length dst).
  { rewrite app_length, mem_read_length, skipn_length. lia. }
  destruct (_ =? _); [apply Some_inj in H; injection H as <- <-; exact L|].
  apply IH in H. congruence.
Qed.

(** A partial transfer that does not divide the length keeps the loop going. *)
Lemma vm_read_stuck : forall fuel ok m a dst acc,
  0 < Z.of_nat (vm_span ok a (length dst)) ->
  (forall i, 1 <= i <= Z.of_nat fuel -> u64 (acc + i * Z.of_nat (vm_span ok a (length dst))) <> zlen dst) ->
  vm_read_loop fuel ok m a dst acc = None.
Proof.
  induction fuel as [|f IH]; intros ok m a dst acc K H; cbn [vm_read_loop]; [reflexivity|].
  destruct (Nat.eqb_spec (vm_span ok a (length dst)) 0) as [E|E]; [lia|]. cbn [andb].
  set (k := vm_span ok a (length dst)) in *.
  assert (KL : (k <= length dst)%nat) by apply vm_span_le.
  assert (L : length (mem_read m a k ++ skipn k dst) = length dst).
  { rewrite app_length, mem_read_length, skipn_length. lia. }
  destruct (Z.eqb_spec (u64 (acc + Z.of_nat k)) (zlen dst)) as [Q|Q].
  { exfalso. apply (H 1); [lia|]. rewrite Z.mul_1_l. exact Q. }
  apply IH; rewrite ?L; fold k; [exact K|].
  intros i I. unfold zlen. rewrite L. fold (zlen dst).
  replace (u64 (u64 (acc + Z.of_nat k) + i * Z.of_nat k)) with (u64 (acc + (i + 1) * Z.of_nat k)).
  - apply H. lia.
  - unfold u64. rewrite Zplus_mod_idemp_l. f_equal. lia.
Qed.

(** ** The zero byte test *)

Lemma testbit_split b x i : is_byte b -> 0 <= i ->
  Z.testbit (b + 256 * x) i = if i <? 8 then Z.testbit b i else Z.testbit x (i - 8).
Proof.
  intros B I. unfold is_byte in B. destruct (Z.ltb_spec i 8).
  - rewrite <- (Z.mod_pow2_bits_low (b + 256 * x) 8 i) by lia.
    change (2 ^ 8) with 256. rewrite (Z.mul_comm 256 x), Z.mod_add by lia. rewrite Z.mod_small by lia. reflexivity.
  - replace i with ((i - 8) + 8) at 1 by lia. rewrite <- Z.div_pow2_bits by lia.
    change (2 ^ 8) with 256. rewrite (Z.mul_comm 256 x), Z.div_add by lia. rewrite Z.div_small by lia. reflexivity.
Qed.

Lemma land_byte b c : is_byte b -> is_byte c -> is_byte (Z.land b c).
Proof.
  intros B C. unfold is_byte in *. split; [apply Z.land_nonneg; lia|].
  destruct (Z.eq_dec (Z.land b c) 0) as [E|E]; [lia|].
  apply Z.log2_lt_cancel. change (Z.log2 256) with 8.
  pose proof (Z.log2_land b c ltac:(lia) ltac:(lia)).
  assert (Z.log2 b <= 7); [|lia].
  destruct (Z.eq_dec b 0) as [->|]; [cbn; lia|]. assert (Z.log2 b < 8); [|lia]. apply Z.log2_lt_pow2; lia.
Qed.

Lemma land_split b x c y : is_byte b -> is_byte c ->
  Z.land (b + 256 * x) (c + 256 * y) = Z.land b c + 256 * Z.land x y.
Proof.
  intros B C. apply Z.bits_inj'. intros i I. rewrite Z.land_spec.
  rewrite !testbit_split by (try apply land_byte; assumption).
  rewrite !Z.land_spec. destruct (i <? 8); reflexivity.
Qed.

(** The test on [k]-byte words. *)
Fixpoint ones (k : nat) : Z := match k with O => 0 | S k' => 1 + 256 * ones k' end.
Definition zt (k : nat) (x : Z) : Z :=
  Z.land (Z.land ((x - ones k) mod 256 ^ Z.of_nat k) (256 ^ Z.of_nat k - 1 - x)) (128 * ones k).

Lemma pow256_S k : 256 ^ Z.of_nat (S k) = 256 * 256 ^ Z.of_nat k.
Proof. rewrite Nat2Z.inj_succ, Z.pow_succ_r by lia. reflexivity. Qed.

Lemma low_test b : is_byte b -> b <> 0 -> Z.land (Z.land (b - 1) (255 - b)) 128 = 0.
Proof.
  intros B N.
  assert (A : forallb (fun b => Z.land (Z.land (b - 1) (255 - b)) 128 =? 0) (map Z.of_nat (seq 1 255)) = true)
    by (vm_compute; reflexivity).
  rewrite forallb_forall in A. apply Z.eqb_eq. apply A.
  replace b with (Z.of_nat (Z.to_nat b)) by (unfold is_byte in B; lia). apply in_map. apply in_seq. unfold is_byte in B. lia.
Qed.

Lemma zt_step k b x : is_byte b ->
  zt (S k) (b + 256 * x) = 0 <-> b <> 0 /\ zt k x = 0.
Proof.
  intros B. unfold zt. rewrite pow256_S. cbn [ones]. set (o := ones k). set (W := 256 ^ Z.of_nat k).
  assert (WP : 0 < W) by (unfold W; apply Z.pow_pos_nonneg; lia).
  replace (256 * W - 1 - (b + 256 * x)) with ((255 - b) + 256 * (W - 1 - x)) by lia.
  replace (128 * (1 + 256 * o)) with (128 + 256 * (128 * o)) by lia.
  assert (B2 : is_byte (255 - b)) by (unfold is_byte in *; lia).
  assert (B3 : is_byte 128) by (unfold is_byte; lia).
  assert (MS : forall c y, is_byte c -> (c + 256 * y) mod (256 * W) = c + 256 * (y mod W)).
  { intros c y C. unfold is_byte in C. rewrite (Z.div_mod y W) at 1 by lia.
    replace (c + 256 * (W * (y / W) + y mod W)) with (c + 256 * (y mod W) + (y / W) * (256 * W)) by lia.
    rewrite Z.mod_add by lia. apply Z.mod_small.
    pose proof (Z.mod_pos_bound y W WP). lia. }
  destruct (Z.eq_dec b 0) as [->|NZ].
  - replace (0 + 256 * x - (1 + 256 * o)) with (255 + 256 * (x - o - 1)) by lia.
    rewrite MS by (unfold is_byte; lia). change (255 - 0) with 255.
    rewrite land_split by (unfold is_byte; lia). rewrite land_split by (try exact B3; apply land_byte; unfold is_byte; lia).
    change (Z.land (Z.land 255 255) 128) with 128. split; [intros E; exfalso; lia|intros (E & _); congruence].
  - replace (b + 256 * x - (1 + 256 * o)) with ((b - 1) + 256 * (x - o)) by lia.
    assert (B1 : is_byte (b - 1)) by (unfold is_byte in *; lia).
    rewrite MS by exact B1.
    rewrite land_split by assumption. rewrite land_split by (try exact B3; apply land_byte; assumption).
    rewrite low_test by assumption. split; [intros E; split; [exact NZ|lia]|intros (_ & E); lia].
Qed.

Lemma zt_spec : forall w, bytes_ok w -> zt (length w) (le_dec w) = 0 <-> Forall (fun b => b <> 0) w.
Proof.
  induction w as [|b w IH]; intros B.
  - split; [constructor|reflexivity].
  - inversion B; subst. cbn [length le_dec]. rewrite zt_step by assumption. rewrite IH by assumption.
    split; [intros (X & Y); constructor; assumption|intros X; inversion X; auto].
Qed.

Lemma hasbytezero_spec w : bytes_ok w -> length w = 8%nat ->
  hasbytezero (le_dec w) = false <-> Forall (fun b => b <> 0) w.
Proof.
  intros B L. rewrite <- zt_spec by exact B. rewrite L. unfold hasbytezero, zt.
  change (ones 8) with MASK1. change (256 ^ Z.of_nat 8) with (2 ^ 64). change (128 * MASK1) with MASK2.
  fold (u64 (le_dec w - MASK1)). rewrite negb_false_iff. apply Z.eqb_eq.
Qed.

(** ** Strings *)

Lemma string_at_split m a s k : string_at m a s -> (k <= length s)%nat ->
  mem_read m a k = firstn k s /\ string_at m (a + Z.of_nat k) (skipn k s).
Proof.
  intros (C & R & Z0) K. rewrite <- (firstn_skipn k s) in R.
  assert (FL : length (firstn k s) = k) by (rewrite firstn_length; lia).
  rewrite app_length, FL in R. apply mem_read_split in R; [|exact FL]. destruct R as (R1 & R2).
  split; [exact R1|]. split; [|split].
  - unfold cstr_ok in *. rewrite <- (firstn_skipn k s) in C. apply Forall_app in C. tauto.
  - rewrite skipn_length in *. exact R2.
  - rewrite <- Z0. f_equal. unfold zlen. rewrite skipn_length. lia.
Qed.

Lemma cstr_nonzero s : cstr_ok s -> Forall (fun b => b <> 0) s.
Proof. unfold cstr_ok. apply Forall_impl. unfold is_cchar. lia. Qed.

Lemma rs_loop_spec : forall k sf rf ok m junk a got cap s,
  string_at m a s -> byte_mem m -> length junk = 8%nat ->
  (length s / 8 = k)%nat -> (k < sf)%nat -> (0 < rf)%nat ->
  0 <= a -> a + zlen s < 2 ^ 64 -> accessible ok a (8 * (zlen s / 8 + 1)) ->
  zlen got mod 8 = 0 -> zlen got / 8 <= cap -> 0 < cap ->
  exists rest, read_string_loop sf rf ok m junk a got cap = RsOk (got ++ s ++ 0 :: rest).
Proof.
  induction k as [|k IH]; intros sf rf ok m junk a got cap s SA BM JL KL SF RF A W AC G8 GC CP;
    (destruct sf as [|sf]; [lia|]); cbn [read_string_loop].
  all: set (cap1 := if cap <=? zlen got / 8 then cap * 2 else cap).
  all: assert (C1 : zlen got / 8 < cap1) by (unfold cap1; destruct (Z.leb_spec cap (zlen got / 8)); lia).
  all: destruct (Z.leb_spec cap1 (zlen got / 8)); [lia|].
  all: assert (LZ : zlen s = Z.of_nat (length s)) by reflexivity.
  all: assert (ZJ : zlen junk = 8) by (unfold zlen; rewrite JL; reflexivity).
  all: assert (DZ : zlen s / 8 = Z.of_nat (length s / 8)) by (rewrite LZ; symmetry; apply (Nat2Z.inj_div (length s) 8)).
  all: assert (RD : read_long rf ok m a junk = Some (0, mem_read m a 8))
    by (unfold read_long; rewrite vm_read_full; [rewrite JL; reflexivity|rewrite ZJ; intros x X; apply AC; lia|lia|lia]).
  all: rewrite RD; cbn [negb Z.eqb].
  - assert (SL : (length s < 8)%nat) by (pose proof (Nat.div_mod (length s) 8); pose proof (Nat.mod_upper_bound (length s) 8); lia).
    destruct (hasbytezero (le_dec (mem_read m a 8))) eqn:HZ.
    + destruct SA as (C & R & Z0).
      exists (mem_read m (a + zlen s + 1) (7 - length s)).
      f_equal. f_equal.
      replace 8%nat with (length s + (1 + (7 - length s)))%nat by lia.
      rewrite mem_read_app, R. cbn [Nat.add mem_read]. rewrite <- LZ, Z0. reflexivity.
    + exfalso. apply hasbytezero_spec in HZ; [|apply mem_read_bytes; exact BM|apply mem_read_length].
      rewrite Forall_forall in HZ. destruct SA as (C & R & Z0). apply (HZ (m (a + zlen s))); [|exact Z0].
      rewrite LZ. rewrite <- (mem_read_nth m a 8 (length s) 0) by lia. apply nth_In. rewrite mem_read_length. lia.
  - assert (SL : (8 <= length s)%nat) by (pose proof (Nat.div_mod (length s) 8); lia).
    destruct (string_at_split m a s 8 SA SL) as (R8 & SA'). rewrite R8.
    assert (HZ : hasbytezero (le_dec (firstn 8 s)) = false).
    { apply hasbytezero_spec; [apply firstn_bytes, cstr_bytes; apply SA|rewrite firstn_length; lia|].
      apply cstr_nonzero. destruct SA as (C & _). unfold cstr_ok in *. rewrite <- (firstn_skipn 8 s) in C.
      apply Forall_app in C. tauto. }
    rewrite HZ. rewrite u64_id by lia.
    assert (SKL : length (skipn 8 s) = (length s - 8)%nat) by apply skipn_length.
    assert (SKZ : zlen (skipn 8 s) = zlen s - 8) by (unfold zlen; rewrite SKL; lia).
    destruct (IH sf rf ok m junk (a + 8) (got ++ firstn 8 s) cap1 (skipn 8 s)) as (rest & E).
    + exact SA'.
    + exact BM.
    + exact JL.
    + rewrite SKL. replace (length s) with ((length s - 8) + 1 * 8)%nat in KL by lia. rewrite Nat.div_add in KL by lia. lia.
    + lia.
    + exact RF.
    + lia.
    + lia.
    + intros x X. apply AC. rewrite SKZ in X.
      replace (zlen s - 8) with (zlen s + (-1) * 8) in X by lia. rewrite Z.div_add in X by lia. lia.
    + rewrite zlen_app, zlen_firstn by lia. change (Z.of_nat 8) with 8.
      replace (zlen got + 8) with (zlen got + 1 * 8) by lia. rewrite Z.mod_add by lia. exact G8.
    + rewrite zlen_app, zlen_firstn by lia. change (Z.of_nat 8) with 8.
      replace (zlen got + 8) with (zlen got + 1 * 8) by lia. rewrite Z.div_add by lia. lia.
    + unfold cap1. destruct (_ <=? _); lia.
    + exists rest. rewrite E. f_equal. rewrite <- app_assoc. f_equal.
      rewrite app_assoc. rewrite (firstn_skipn 8 s). reflexivity.
Qed.

Lemma rs_no_oob : forall sf rf ok m junk a got cap,
  length junk = 8%nat -> zlen got mod 8 = 0 -> zlen got / 8 <= cap -> 0 < cap ->
  read_string_loop sf rf ok m junk a got cap <> RsOob.
Proof.
  induction sf as [|sf IH]; intros rf ok m junk a got cap JL G8 GC CP; cbn [read_string_loop]; [discriminate|].
  set (cap1 := if cap <=? zlen got / 8 then cap * 2 else cap).
  assert (C1 : zlen got / 8 < cap1) by (unfold cap1; destruct (Z.leb_spec cap (zlen got / 8)); lia).
  destruct (Z.leb_spec cap1 (zlen got / 8)); [lia|].
  destruct (read_long rf ok m a junk) as [[r w]|] eqn:RD; [|discriminate].
  apply vm_read_length in RD. destruct (negb _); [discriminate|]. destruct (hasbytezero _); [discriminate|].
  assert (ZW : zlen w = 8) by (unfold zlen; rewrite RD, JL; reflexivity).
  apply IH; [exact JL| | |unfold cap1; destruct (_ <=? _); lia]; rewrite zlen_app, ZW; replace (zlen got + 8) with (zlen got + 1 * 8) by lia.
  - rewrite Z.mod_add by lia. exact G8.
  - rewrite Z.div_add by lia. lia.
Qed.

(** read_string_allocated never changes the length of the buffer. *)
Lemma rsa_length : forall k fuel ok m junk a buf r buf',
  rsa_loop fuel ok m junk a k buf = Some (r, buf') -> length junk = 8%nat ->
  (length buf = 8 * k + length buf mod 8)%nat -> length buf' = length buf.
Proof.
  induction k as [|k IH]; intros fuel ok m junk a buf r buf' H JL L; cbn [rsa_loop] in H.
  - assert (LB : (length buf < 8)%nat) by (pose proof (Nat.mod_upper_bound (length buf) 8); lia).
    destruct (_ =? 0); [apply Some_inj in H; congruence|].
    destruct (read_long fuel ok m a junk) as [[r1 l]|] eqn:RD; [|discriminate].
    apply vm_read_length in RD. destruct (r1 =? 0); apply Some_inj in H; injection H as <- <-; [|reflexivity].
    rewrite firstn_length. lia.
  - assert (LB : (8 <= length buf)%nat) by lia.
    destruct (read_long fuel ok m a (firstn 8 buf)) as [[r1 w]|] eqn:RD; [|discriminate].
    apply vm_read_length in RD. rewrite firstn_length in RD.
    assert (WL : forall t, length t = length (skipn 8 buf) -> length (w ++ t) = length buf).
    { intros t T. rewrite app_length, RD, T, skipn_length. lia. }
    destruct (negb _); [apply Some_inj in H; injection H as <- <-; apply WL; reflexivity|].
    destruct (hasbytezero _); [apply Some_inj in H; injection H as <- <-; apply WL; reflexivity|].
    destruct (rsa_loop _ _ _ _ _ k _) as [[r2 rest]|] eqn:RL; [|discriminate].
    apply Some_inj in H. injection H as <- <-. apply WL.
    apply IH in RL; [exact RL|exact JL|]. rewrite skipn_length.
    replace (length buf) with ((length buf - 8) + 1 * 8)%nat in L at 2 by lia. rewrite Nat.mod_add in L by lia. lia.
Qed.

Lemma rsa_spec : forall k fuel ok m junk a buf s,
  string_at m a s -> byte_mem m -> length junk = 8%nat -> (0 < fuel)%nat ->
  (length buf = 8 * k + length buf mod 8)%nat ->
  0 <= a -> a + zlen s < 2 ^ 64 -> accessible ok a (8 * (zlen s / 8 + 1)) ->
  exists buf', rsa_loop fuel ok m junk a k buf = Some (0, buf') /\
    ((length s < length buf)%nat -> exists rest, buf' = s ++ 0 :: rest) /\
    ((length buf <= length s)%nat -> buf' = firstn (length buf) s).
Proof.
  induction k as [|k IH]; intros fuel ok m junk a buf s SA BM JL F L A W AC; cbn [rsa_loop].
  all: assert (LZ : zlen s = Z.of_nat (length s)) by reflexivity.
  all: assert (AC8 : accessible ok a 8) by (intros x X; apply AC; pose proof (Z.div_pos (zlen s) 8); lia).
  - assert (LB : (length buf < 8)%nat) by (pose proof (Nat.mod_upper_bound (length buf) 8); lia).
    destruct (Z.eqb_spec (zlen buf) 0) as [E|E].
    + eexists. split; [reflexivity|]. assert (buf = []) by (destruct buf; [reflexivity|unfold zlen in E; cbn in E; lia]).
      subst buf. split; [cbn; lia|reflexivity].
    + unfold read_long. rewrite vm_read_full; [|unfold zlen; rewrite JL; exact AC8|unfold zlen; rewrite JL; lia|exact F].
      cbn [Z.eqb]. eexists. split; [reflexivity|]. rewrite JL. split; intros LS.
      * destruct SA as (C & R & Z0).
        replace 8%nat with (length s + (1 + (7 - length s)))%nat by lia.
        rewrite mem_read_app, R. cbn [Nat.add mem_read]. rewrite <- LZ, Z0.
        rewrite firstn_app, (firstn_all2 s) by lia.
        destruct (length buf - length s)%nat as [|q] eqn:Q; [lia|]. cbn [firstn]. eexists. reflexivity.
      * destruct (string_at_split m a s (length buf) SA LS) as (R & _). rewrite <- R.
        replace 8%nat with (length buf + (8 - length buf))%nat by lia. rewrite mem_read_app.
        rewrite <- (mem_read_length m a (length buf)) at 1. apply firstn_app_exact.
  - assert (LB : (8 <= length buf)%nat) by lia.
    assert (FL : length (firstn 8 buf) = 8%nat) by (rewrite firstn_length; lia).
    unfold read_long. rewrite vm_read_full; [|unfold zlen; rewrite FL; exact AC8|unfold zlen; rewrite FL; lia|exact F].
    rewrite FL. cbn [negb Z.eqb].
    destruct (le_lt_dec 8 (length s)) as [S8|S8].
    + destruct (string_at_split m a s 8 SA S8) as (R8 & SA'). rewrite R8.
      assert (HZ : hasbytezero (le_dec (firstn 8 s)) = false).
      { apply hasbytezero_spec; [apply firstn_bytes, cstr_bytes; apply SA|rewrite firstn_length; lia|].
        apply cstr_nonzero. destruct SA as (C & _). unfold cstr_ok in *. rewrite <- (firstn_skipn 8 s) in C.
        apply Forall_app in C. tauto. }
      rewrite HZ. rewrite u64_id by lia.
      assert (SKZ : zlen (skipn 8 s) = zlen s - 8) by (unfold zlen; rewrite skipn_length; lia).
      destruct (IH fuel ok m junk (a + 8) (skipn 8 buf) (skipn 8 s)) as (b' & -> & X & Y).
      * exact SA'.
      * exact BM.
      * exact JL.
      * exact F.
      * rewrite skipn_length. replace (length buf) with ((length buf - 8) + 1 * 8)%nat in L at 2 by lia. rewrite Nat.mod_add in L by lia. lia.
      * lia.
      * lia.
      * intros x XX. apply AC. rewrite SKZ in XX.
        replace (zlen s - 8) with (zlen s + (-1) * 8) in XX by lia. rewrite Z.div_add in XX by lia. lia.
      * eexists. split; [reflexivity|]. rewrite !skipn_length in *. split; intros LS.
        -- destruct X as (rest & ->); [lia|]. exists rest. rewrite app_assoc. rewrite (firstn_skipn 8 s). reflexivity.
        -- rewrite Y by lia. replace (length buf) with (8 + (length buf - 8))%nat at 2 by lia. rewrite firstn_add. reflexivity.
    + assert (HZ : hasbytezero (le_dec (mem_read m a 8)) = true).
      { destruct (hasbytezero (le_dec (mem_read m a 8))) eqn:HZ; [reflexivity|].
        exfalso. apply hasbytezero_spec in HZ; [|apply mem_read_bytes; exact BM|apply mem_read_length].
        rewrite Forall_forall in HZ. destruct SA as (C & R & Z0). apply (HZ (m (a + zlen s))); [|exact Z0].
        rewrite LZ. rewrite <- (mem_read_nth m a 8 (length s) 0) by lia. apply nth_In. rewrite mem_read_length. lia. }
      rewrite HZ. eexists. split; [reflexivity|]. split; [intros _|lia].
      destruct SA as (C & R & Z0).
      assert (R8 : mem_read m a 8 = s ++ 0 :: mem_read m (a + zlen s + 1) (7 - length s)).
      { replace 8%nat with (length s + (1 + (7 - length s)))%nat by lia.
        rewrite mem_read_app, R. cbn [Nat.add mem_read]. rewrite <- LZ, Z0. reflexivity. }
      rewrite R8, <- app_assoc. eexists. reflexivity.
Qed.

(** ** Registers *)

Lemma align64 v : 0 <= v < 2 ^ 64 -> Z.land v 0xFFFFFFFFFFFFFFC0 = 64 * (v / 64).
Proof.
  intros V. change 0xFFFFFFFFFFFFFFC0 with (Z.shiftl (Z.ones 58) 6).
  replace (64 * (v / 64)) with (Z.shiftl (Z.shiftr v 6) 6).
  - apply Z.bits_inj'. intros i I. rewrite Z.land_spec.
    destruct (Z.ltb_spec i 6).
    + rewrite !Z.shiftl_spec_low by lia. apply andb_false_r.
    + rewrite !Z.shiftl_spec by lia. rewrite Z.shiftr_spec by lia. replace (i - 6 + 6) with i by lia.
      destruct (Z.ltb_spec (i - 6) 58).
      * rewrite Z.ones_spec_low by lia. apply andb_true_r.
      * rewrite Z.ones_spec_high by lia. rewrite andb_false_r. symmetry.
        rewrite <- (Z.mod_small v (2 ^ 64)) by lia. apply Z.mod_pow2_bits_high. lia.
  - rewrite Z.shiftl_mul_pow2, Z.shiftr_div_pow2 by lia. change (2 ^ 6) with 64. lia.
Qed.

Lemma on_thread_tids tid f ks : (forall k, k_tid (f k) = k_tid k) -> map k_tid (on_thread tid f ks) = map k_tid ks.
Proof.
  intros H. unfold on_thread. rewrite map_map. apply map_ext. intros k. destruct (_ =? _); [apply H|reflexivity].
Qed.

Lemma find_thread_some tid ks k : find_thread tid ks = Some k -> In k ks /\ k_tid k = tid.
Proof. intros H. apply find_some in H. destruct H as (H & E). apply Z.eqb_eq in E. auto. Qed.

Lemma nodup_tid ks k k' : NoDup (map k_tid ks) -> In k ks -> In k' ks -> k_tid k = k_tid k' -> k = k'.
Proof.
  induction ks as [|x ks IH]; intros N A B E; [contradiction|]. inversion N as [|? ? NI N']; subst.
  destruct A as [->|A], B as [->|B]; auto.
  - exfalso. apply NI. rewrite E. apply in_map. exact B.
  - exfalso. apply NI. rewrite <- E. apply in_map. exact A.
Qed.

Lemma find_thread_in tid ks k : NoDup (map k_tid ks) -> In k ks -> k_tid k = tid -> find_thread tid ks = Some k.
Proof.
  intros N I E. destruct (find_thread tid ks) as [k'|] eqn:F.
  - apply find_thread_some in F. destruct F as (I' & E'). f_equal. eapply nodup_tid; eauto. congruence.
  - exfalso. unfold find_thread in F. apply find_none with (x := k) in F; [|exact I]. apply Z.eqb_neq in F. contradiction.
Qed.

Lemma run_and_redirect_tid ar e t ctx routine : k_tid (snd (run_and_redirect ar e t ctx routine)) = k_tid t.
Proof.
  unfold run_and_redirect. destruct (negb _); [reflexivity|]. destruct (negb _); [reflexivity|].
  destruct (rr_wait _); [reflexivity|]. destruct (negb _); reflexivity.
Qed.

(** A routine changes the main thread only. *)
Lemma run_routine_tids ar main us ks routine e : NoDup (map k_tid ks) ->
  map k_tid (snd (run_routine ar main us ks routine e)) = map k_tid ks.
Proof.
  intros N. unfold run_routine. destruct (find_saved main us) as [u|]; [|reflexivity].
  destruct (find_thread main ks) as [k|] eqn:F; [|reflexivity].
  destruct (run_and_redirect _ _ _ _ _) as [[r c] k'] eqn:R. cbn [snd].
  apply find_thread_some in F. destruct F as (I & E).
  pose proof (run_and_redirect_tid ar e k (u_context u) routine) as T. rewrite R in T. cbn [snd] in T.
  unfold on_thread. rewrite map_map. apply map_ext_in. intros x X.
  destruct (Z.eqb_spec (k_tid x) main); [|reflexivity]. congruence.
Qed.

Lemma run_routine_others ar main us ks routine e k :
  In k (snd (run_routine ar main us ks routine e)) -> k_tid k <> main -> In k ks.
Proof.
  unfold run_routine. destruct (find_saved main us) as [u|]; [|cbn; auto].
  destruct (find_thread main ks) as [k0|] eqn:F; [|cbn; auto].
  destruct (run_and_redirect _ _ _ _ _) as [[r c] k'] eqn:R. cbn [snd].
  apply find_thread_some in F. destruct F as (I0 & E).
  pose proof (run_and_redirect_tid ar e k0 (u_context u) routine) as T. rewrite R in T. cbn [snd] in T.
  intros I NE. unfold on_thread in I. apply in_map_iff in I. destruct I as (x & X & I).
  destruct (Z.eqb_spec (k_tid x) main); subst; [congruence|exact I].
Qed.

Lemma run_routines_tids ar main us l : forall ks, NoDup (map k_tid ks) ->
  map k_tid (run_routines ar main us ks l) = map k_tid ks.
Proof.
  induction l as [|[routine e] l IH]; intros ks N; cbn [run_routines]; [reflexivity|].
  rewrite IH; [apply run_routine_tids; exact N|]. rewrite run_routine_tids; exact N.
Qed.

Lemma run_routines_others ar main us l k : forall ks,
  In k (run_routines ar main us ks l) -> k_tid k <> main -> In k ks.
Proof.
  induction l as [|[routine e] l IH]; intros ks I NE; cbn [run_routines] in I; [exact I|].
  apply IH in I; [|exact NE]. eapply run_routine_others; eauto.
Qed.

Lemma restore_errors set_ok det_ok : forall us ks e e' ks',
  restore_threads set_ok det_ok us ks e = (e', ks') -> e' = 0 -> e = 0.
Proof.
  induction us as [|u us IH]; intros ks e e' ks' H E; cbn [restore_threads] in H.
  - congruence.
  - apply IH in H; [|exact E]. destruct (_ && _) in H; [exact H|discriminate].
Qed.

Lemma restore_tids set_ok det_ok : forall us ks e,
  map k_tid (snd (restore_threads set_ok det_ok us ks e)) = map k_tid ks.
Proof.
  induction us as [|u us IH]; intros ks e; cbn [restore_threads]; [reflexivity|].
  rewrite IH. destruct (match find_thread (u_tid u) ks with Some k => k_stopped k | None => false end);
    cbn [andb]; [|reflexivity].
  destruct (det_ok _); destruct (set_ok _); rewrite ?on_thread_tids; reflexivity.
Qed.

(** What a successful restore does: every thread on the list has the saved
    registers and runs; the others are untouched; the vector registers are as
    before. *)
Lemma restore_spec set_ok det_ok : forall us ks ks',
  NoDup (map k_tid ks) -> NoDup (map u_tid us) ->
  restore_threads set_ok det_ok us ks 0 = (0, ks') ->
  forall k', In k' ks' ->
    exists k, In k ks /\ k_tid k = k_tid k' /\ k_vec k = k_vec k' /\
      (forall u, In u us -> u_tid u = k_tid k -> k_regs k' = u_context u /\ k_stopped k' = false) /\
      (~ In (k_tid k) (map u_tid us) -> k' = k).
Proof.
  induction us as [|u us IH]; intros ks ks' N NU H k' I.
  - cbn [restore_threads] in H. injection H as <-. exists k'. repeat split; auto; contradiction.
  - cbn [restore_threads] in H. inversion NU as [|? ? NI NU']; subst.
    destruct (find_thread (u_tid u) ks) as [k0|] eqn:F; cbn [andb] in H.
    2: { apply restore_errors in H; [discriminate|reflexivity]. }
    destruct (k_stopped k0); cbn [andb] in H.
    2: { apply restore_errors in H; [discriminate|reflexivity]. }
    destruct (set_ok (u_tid u)); cbn [andb] in H.
    2: { apply restore_errors in H; [discriminate|reflexivity]. }
    destruct (det_ok (u_tid u)).
    2: { apply restore_errors in H; [discriminate|reflexivity]. }
    set (ks2 := on_thread _ _ (on_thread _ _ ks)) in H.
    assert (T2 : map k_tid ks2 = map k_tid ks) by (unfold ks2; rewrite !on_thread_tids; reflexivity).
    apply IH with (k' := k') in H; [|rewrite T2; exact N|exact NU'|exact I].
    destruct H as (k2 & I2 & E2 & V2 & R2 & O2).
    unfold ks2, on_thread in I2. rewrite map_map in I2. apply in_map_iff in I2.
    destruct I2 as (k & X & IK). exists k. split; [exact IK|].
    destruct (Z.eqb_spec (k_tid k) (u_tid u)) as [E|E].
    + cbn [k_tid] in X. rewrite E, Z.eqb_refl in X. subst k2. cbn [k_tid k_regs k_vec k_stopped] in *.
      split; [congruence|]. split; [exact V2|]. split.
      * intros u' U' TU. destruct U' as [<-|U'].
        -- assert (Q : k' = mk_kthread (u_tid u) (u_context u) (k_vec k) false).
           { apply O2. exact NI. }
           subst k'. split; reflexivity.
        -- exfalso. apply NI. rewrite <- E. rewrite <- TU. apply in_map. exact U'.
      * intros NIN. exfalso. apply NIN. left. congruence.
    + destruct (Z.eqb_spec (k_tid k) (u_tid u)) as [E'|_]; [contradiction|]. subst k2.
      split; [exact E2|]. split; [exact V2|]. split.
      * intros u' U' TU. destruct U' as [<-|U']; [congruence|]. apply R2; assumption.
      * intros NIN. apply O2. intros Q. apply NIN. right. exact Q.
Qed.
