(** Proofs about "ulp messages". *)
From Coq Require Import String.
From Verif Require Import Base BaseFacts StrModel TextModel MsgQModel MsgQSpec MsgQProofs LibSpec NtSpec IntrModel IntrSpec
  IntrProofs Intr2Proofs Intr3Proofs Intr4Proofs IntrEx IntrProps CliModel CliSpec CliProofs MsgsModel MsgsSpec.
From Coq Require Import Lia.

Lemma mx_val : MSGQ_BUFFER_MAX = 2097152.
Proof. reflexivity. Qed.
Global Opaque MSGQ_BUFFER_MAX.

Lemma fld_at pre x post off n : List.length pre = off -> List.length x = n -> fld (pre ++ x ++ post) off n = le_dec x.
Proof.
  intros <- <-. unfold fld. rewrite skipn_app, skipn_all, Nat.sub_diag. cbn [app skipn].
  rewrite firstn_app, firstn_all, Nat.sub_diag, firstn_O, app_nil_r. reflexivity.
Qed.
Lemma s32_u v : - 2 ^ 31 <= v < 2 ^ 31 -> s32 (v mod 2 ^ 32) = v.
Proof.
  intros V. unfold s32, u32. rewrite Z.mod_mod by lia.
  destruct (Z.leb_spec 0 v).
  - rewrite Z.mod_small by lia. destruct (Z.ltb_spec v (2 ^ 31)); lia.
  - replace (v mod 2 ^ 32) with (v + 2 ^ 32).
    + destruct (Z.ltb_spec (v + 2 ^ 32) (2 ^ 31)); lia.
    + apply Z.mod_unique_pos with (q := -1); lia.
Qed.
Lemma nth_mem_read m : forall n a i, (i < n)%nat -> nth i (mem_read m a n) 0 = m (a + Z.of_nat i).
Proof.
  induction n as [|n IH]; intros a i I; [lia|]. cbn [mem_read]. destruct i as [|i]; cbn [nth]; [f_equal; lia|].
  rewrite IH by lia. f_equal. lia.
Qed.

Definition int (v : Z) : Prop := - 2 ^ 31 <= v < 2 ^ 31.
Lemma queue_in_bytes q : int (mq_bottom q) -> int (mq_dist q) ->
  mq_bottom (queue_in (queue_bytes q)) = mq_bottom q /\ mq_dist (queue_in (queue_bytes q)) = mq_dist q /\
  (forall i, 0 <= i < MSGQ_BUFFER_MAX -> mq_buf (queue_in (queue_bytes q)) i = mq_buf q i).
Proof.
  intros B D. unfold queue_in, queue_bytes. cbn [mq_bottom mq_dist mq_buf].
  set (n := Z.to_nat MSGQ_BUFFER_MAX). set (A := mem_read (mq_buf q) 0 n).
  assert (LA : List.length A = n) by apply mem_read_length.
  split; [|split].
  - replace (A ++ le_enc 4 (mq_top q) ++ le_enc 4 (mq_bottom q) ++ le_enc 4 (mq_dist q))
      with ((A ++ le_enc 4 (mq_top q)) ++ le_enc 4 (mq_bottom q) ++ le_enc 4 (mq_dist q)) by (rewrite <- !app_assoc; reflexivity).
    rewrite fld_at by (rewrite ?app_length, ?le_enc_length; lia). rewrite le_dec_enc. apply s32_u. exact B.
  - replace (A ++ le_enc 4 (mq_top q) ++ le_enc 4 (mq_bottom q) ++ le_enc 4 (mq_dist q))
      with ((A ++ le_enc 4 (mq_top q) ++ le_enc 4 (mq_bottom q)) ++ le_enc 4 (mq_dist q) ++ [])
      by (rewrite <- !app_assoc, app_nil_r; reflexivity).
    rewrite fld_at by (rewrite ?app_length, ?le_enc_length; lia). rewrite le_dec_enc. apply s32_u. exact D.
  - intros i I. rewrite app_nth1 by (rewrite LA; unfold n; lia). unfold A. rewrite nth_mem_read by (unfold n; lia).
    f_equal. lia.
Qed.

Lemma print_checked_ok buf buf' : (forall i, 0 <= i < MSGQ_BUFFER_MAX -> buf i = buf' i) ->
  forall n b, 0 <= b < MSGQ_BUFFER_MAX -> print_checked n buf b = Some (msgq_print_loop n MSGQ_BUFFER_MAX buf' b).
Proof.
  intros E. induction n as [|n IH]; intros b B; cbn [print_checked msgq_print_loop]; [reflexivity|].
  destruct (Z.leb_spec 0 b); [|lia]. destruct (Z.ltb_spec b MSGQ_BUFFER_MAX); [|lia]. cbn [andb].
  pose proof mx_val as MX. rewrite Z.rem_mod_nonneg by lia.
  rewrite IH by (apply Z.mod_pos_bound; lia). rewrite E by lia. reflexivity.
Qed.

(** The queue as the tool gets it. *)
Lemma queue_read t pf q : runs_libpulp t pf q ->
  exists p, initialize_data_structures t pf true = I_ok p /\ get_msgq_address p <> 0 /\
    trd t (get_msgq_address p) QUEUE_SIZE = Some (queue_bytes q).
Proof.
  intros (main & c1 & lp & c2 & syms & text & state & v & T & F & PA & CM & N10 & N47 & NB & EM & OA & NL & YL & ST & SN &
    ND & VA & IS & LL & IQ & NZ & QA).
  destruct (C62_all_objects_partial t pf main c1 lp c2 syms text state T F PA CM N10 N47 NB EM OA NL YL ST SN ND VA IS LL)
    as (p & o & I & _ & _ & L & _ & K & _).
  assert (X : ext o 4 = u64 (od_addr lp + v)) by (apply (K 4%nat (zs "__ulp_msg_queue")); [do 4 right; left; reflexivity|exact IQ]).
  assert (A : get_msgq_address p = u64 (od_addr lp + v)).
  { unfold get_msgq_address, the_libpulp in *. apply nth_error_split in L. destruct L as (l1 & l2 & E & LE).
    rewrite E, <- LE, skipn_app, skipn_all, Nat.sub_diag. cbn [app skipn first_queue]. rewrite X.
    destruct (Z.eqb_spec (u64 (od_addr lp + v)) 0); [contradiction|reflexivity]. }
  exists p. split; [exact I|]. rewrite A. split; [exact NZ|].
  apply trd_holds; [exact QA|]. unfold queue_bytes, QUEUE_SIZE. rewrite !app_length, mem_read_length, !le_enc_length. lia.
Qed.

Lemma names_atoi d pid : names_pid d pid -> isnumber (Some d) = true /\ atoi_any d = pid.
Proof.
  intros (NE & FA & E & B). split.
  - destruct d; [contradiction|]. cbn [isnumber]. apply forallb_forall. intros c C. rewrite Forall_forall in FA.
    specialize (FA c C). unfold isdigit. lia.
  - rewrite <- E. apply atoi_small; [split; assumption|lia].
Qed.

Lemma run_messages_queue os d pid q :
  names_pid d pid -> runs_libpulp (os_t (os pid)) (os_pf (os pid)) q ->
  os_attach1 (os pid) = true -> os_attach2 (os pid) = true -> os_detach (os pid) = true ->
  run_messages os d =
  option_map (fun out => (0, out))
    (print_checked (Z.to_nat (mq_dist (queue_in (queue_bytes q)))) (mq_buf (queue_in (queue_bytes q)))
       (mq_bottom (queue_in (queue_bytes q)))).
Proof.
  intros N R A1 A2 D. destruct (names_atoi d pid N) as [N1 N2].
  destruct (queue_read _ _ _ R) as (p & I & NZ & TR).
  unfold run_messages. rewrite N1, N2. cbn [negb]. rewrite A1, I. unfold print_message_buffer.
  destruct (Z.eqb_spec (get_msgq_address p) 0); [contradiction|]. rewrite A2, D. cbn [negb]. rewrite TR.
  destruct (print_checked _ _ _); reflexivity.
Qed.

(** Bounds that the invariant of C35 gives. *)
Lemma Inv_bounds mx q ms : 0 < mx -> Inv mx q ms -> 0 <= mq_bottom q < mx /\ 0 <= mq_dist q < mx.
Proof.
  intros M [ms' HU Hd Hempty H0|ms1 e ms2 HW Hne1 Hne2 Htb Hd].
  - destruct HU as [Ub Ut Utmx _ _]. pose proof (zlen_nonneg (enc ms')). lia.
  - destruct HW as [Wb We Wemx Wt Wok1 _ _ _ _ _]. pose proof (zlen_nonneg (enc ms1)). pose proof (zlen_nonneg (enc ms2)). lia.
Qed.

(** ** Store by store *)

Lemma do_stores_app q s1 s2 : fold_left do_store (s1 ++ s2) q = fold_left do_store s2 (fold_left do_store s1 q).
Proof. apply fold_left_app. Qed.

Lemma byte_stores_frame : forall l a q, let q' := fold_left do_store (byte_stores a l) q in
  mq_top q' = mq_top q /\ mq_bottom q' = mq_bottom q /\ mq_dist q' = mq_dist q /\
  (forall i, mq_buf q' i = mem_write (mq_buf q) a l i).
Proof.
  induction l as [|c l IH]; intros a q; cbn [byte_stores fold_left].
  - cbv zeta. repeat split. intros i. rewrite mem_write_out; [reflexivity|]. change (zlen (@nil Z)) with 0. lia.
  - cbv zeta. specialize (IH (a + 1) (do_store q (St_byte a c))). cbv zeta in IH. destruct IH as (I1 & I2 & I3 & I4).
    cbn [do_store mq_top mq_bottom mq_dist mq_buf] in *. split; [exact I1|]. split; [exact I2|]. split; [exact I3|].
    intros i. rewrite I4. unfold mem_write. pose proof (zlen_nonneg l). rewrite !zlen_cons. change (zlen (@nil Z)) with 0.
    destruct (Z.leb_spec a i), (Z.leb_spec (a + 1) i), (Z.ltb_spec i (a + 1 + zlen l)), (Z.ltb_spec i (a + (zlen l + 1))),
      (Z.ltb_spec i (a + (0 + 1))); cbn [andb]; try lia; try reflexivity.
    + replace (Z.to_nat (i - a)) with (S (Z.to_nat (i - (a + 1)))) by lia. reflexivity.
    + replace (i - a) with 0 by lia. reflexivity.
Qed.
Lemma firstn_byte_stores : forall l k a, firstn k (byte_stores a l) = byte_stores a (firstn k l).
Proof.
  induction l as [|c l IH]; intros k a; destruct k as [|k]; cbn [byte_stores firstn]; try reflexivity. rewrite IH. reflexivity.
Qed.
Lemma byte_stores_length : forall l a, List.length (byte_stores a l) = List.length l.
Proof. induction l as [|c l IH]; intros a; cbn [byte_stores List.length]; [reflexivity|]. rewrite IH. reflexivity. Qed.

(** What is printed depends only on the bytes printed. *)
Lemma print_ext mx buf buf' : 0 < mx -> forall n b, 0 <= b < mx ->
  (forall j, 0 <= j < Z.of_nat n -> buf ((b + j) mod mx) = buf' ((b + j) mod mx)) ->
  msgq_print_loop n mx buf b = msgq_print_loop n mx buf' b.
Proof.
  intros M. induction n as [|n IH]; intros b B E; cbn [msgq_print_loop]; [reflexivity|]. f_equal.
  - specialize (E 0 ltac:(lia)). rewrite Z.add_0_r, Z.mod_small in E by lia. exact E.
  - apply IH; [apply Z.mod_pos_bound; exact M|]. intros j J. specialize (E (j + 1) ltac:(lia)).
    replace (((b + 1) mod mx + j) mod mx) with ((b + (j + 1)) mod mx); [exact E|].
    rewrite Z.add_mod_idemp_l by lia. f_equal. lia.
Qed.

(** The bytes that are printed. *)
Definition live (mx : Z) (q : msgq) (i : Z) : Prop := exists j, 0 <= j < mq_dist q /\ i = (mq_bottom q + j) mod mx.
Lemma print_live mx q q' : 0 < mx -> 0 <= mq_bottom q < mx -> mq_bottom q' = mq_bottom q -> mq_dist q' = mq_dist q ->
  (forall i, live mx q i -> mq_buf q' i = mq_buf q i) -> msgq_print mx q' = msgq_print mx q.
Proof.
  intros M B EB ED E. unfold msgq_print. rewrite EB, ED. apply print_ext; [exact M|exact B|].
  intros j J. apply E. exists j. split; [lia|reflexivity].
Qed.

(** Where the stores go if there is room for the message twice. *)
Lemma room_frame mx q ms (m : list Z) : 0 < mx -> Inv mx q ms -> zlen (msgq_print mx q) + 2 * (zlen m + 1) < mx ->
  let wrap := mq_top q + (zlen m + 1) >=? mx in
  let zeros := if wrap then repeat 0 (Z.to_nat (mx - mq_top q)) else [] in
  let top := if wrap then 0 else mq_top q in
  (forall i, live mx q i -> (i < mq_top q \/ mq_top q + zlen zeros <= i) /\ (i < top \/ top + (zlen m + 1) <= i)) /\
  mq_dist q + (if wrap then mx - mq_top q else 0) + (zlen m + 1) < mx.
Proof.
  intros M I R wrap zeros top. pose proof (zlen_nonneg m) as LM.
  destruct (Inv_bounds mx q ms M I) as [B D].
  assert (PL : zlen (msgq_print mx q) = mq_dist q).
  { unfold msgq_print, zlen. assert (X : forall n b, List.length (msgq_print_loop n mx (mq_buf q) b) = n).
    { induction n as [|n IH]; intros b; cbn [msgq_print_loop List.length]; [reflexivity|]. rewrite IH. reflexivity. }
    rewrite X. lia. }
  rewrite PL in R. unfold zeros, top, wrap.
  assert (ZL : zlen (repeat 0 (Z.to_nat (mx - mq_top q))) = Z.max 0 (mx - mq_top q)) by (unfold zlen; rewrite repeat_length; lia).
  destruct I as [ms' HU Hd Hempty H0|ms1 e ms2 HW Hne1 Hne2 Htb Hd].
  - destruct HU as [Ub Ut Utmx _ _]. pose proof (zlen_nonneg (enc ms')).
    assert (LV : forall i, live mx q i -> mq_bottom q <= i < mq_top q).
    { intros i (j & J & ->). rewrite Z.mod_small by lia. lia. }
    destruct (Z.geb_spec (mq_top q + (zlen m + 1)) mx).
    + split; [|lia]. intros i L. apply LV in L. lia.
    + split; [|lia]. intros i L. apply LV in L. change (zlen (@nil Z)) with 0. lia.
  - destruct HW as [Wb We Wemx Wt Wok1 Wok2 _ _ _ _]. pose proof (zlen_nonneg (enc ms1)). pose proof (zlen_nonneg (enc ms2)).
    destruct (Z.geb_spec (mq_top q + (zlen m + 1)) mx); [lia|]. change (zlen (@nil Z)) with 0. split; [|lia].
    intros i (j & J & ->). destruct (Z.ltb_spec (mq_bottom q + j) mx).
    + rewrite Z.mod_small by lia. lia.
    + assert ((mq_bottom q + j) mod mx = mq_bottom q + j - mx) as ->; [|lia].
      symmetry. apply Z.mod_unique_pos with (q := 1); lia.
Qed.

Lemma mem_write_nil m a i : mem_write m a [] i = m i.
Proof. apply mem_write_out. change (zlen (@nil Z)) with 0. lia. Qed.
Lemma zlen_firstn_le {A} k (l : list A) : zlen (firstn k l) <= zlen l.
Proof. unfold zlen. rewrite firstn_length. lia. Qed.

Lemma evict_ext f fin mx size b1 b2 : (forall i, b1 i = b2 i) -> forall bottom dist,
  evict f fin mx b1 bottom dist size = evict f fin mx b2 bottom dist size.
Proof.
  intros E. assert (S : forall n p, strlen_at n b1 p = strlen_at n b2 p).
  { induction n as [|n IH]; intros p; cbn [strlen_at]; [reflexivity|]. rewrite E, IH. reflexivity. }
  assert (K : forall n p t, skip_nuls n mx b1 p t = skip_nuls n mx b2 p t).
  { induction n as [|n IH]; intros p t; cbn [skip_nuls]; [reflexivity|]. rewrite E, IH. reflexivity. }
  induction f as [|f IH]; intros bottom dist; cbn [evict]; [reflexivity|]. rewrite S.
  destruct (_ >=? _); [|reflexivity]. destruct (strlen_at _ _ _) as [n|]; [|reflexivity]. rewrite K.
  destruct (skip_nuls _ _ _ _ _) as [[b' t']|]; [|reflexivity]. apply IH.
Qed.

(** All the stores together are the push of C35. *)
Lemma stores_push f mx q m ss : strpush_stores f mx q m = Some ss ->
  exists q', msgq_strpush f mx q m = M_ok q' /\
    let q1 := fold_left do_store ss q in
    mq_top q1 = mq_top q' /\ mq_bottom q1 = mq_bottom q' /\ mq_dist q1 = mq_dist q' /\ forall i, mq_buf q1 i = mq_buf q' i.
Proof.
  unfold strpush_stores, msgq_strpush. destruct m as [|c m0]; [intros H; injection H as <-; exists q; repeat split|].
  set (m := c :: m0). destruct (zlen m + 1 >? mx); [intros H; injection H as <-; exists q; repeat split|].
  set (wrap := mq_top q + (zlen m + 1) >=? mx).
  set (zeros := if wrap then repeat 0 (Z.to_nat (mx - mq_top q)) else []).
  set (top := if wrap then 0 else mq_top q).
  set (dist := if wrap then mq_dist q + (mx - mq_top q) else mq_dist q).
  set (buf := if wrap then mem_write (mq_buf q) (mq_top q) (repeat 0 (Z.to_nat (mx - mq_top q))) else mq_buf q).
  assert (E : forall i, mem_write (mq_buf q) (mq_top q) zeros i = buf i).
  { intros i. unfold zeros, buf. destruct wrap; [reflexivity|apply mem_write_nil]. }
  rewrite (evict_ext f f mx (zlen m + 1) _ _ E). destruct (evict _ _ _ _ _ _ _) as [b' d'| |]; try discriminate.
  destruct (negb _); [discriminate|]. intros H. assert (S : forall A (x y : A), Some x = Some y -> x = y) by congruence.
  apply S in H. subst ss. eexists. split; [reflexivity|].
  rewrite !do_stores_app. cbn [fold_left do_store]. cbv zeta. cbn [mq_top mq_bottom mq_dist mq_buf].
  split; [reflexivity|]. split; [reflexivity|]. split; [reflexivity|]. intros i.
  destruct (byte_stores_frame (m ++ [0]) top (fold_left do_store (byte_stores (mq_top q) zeros) q)) as (_ & _ & _ & F).
  rewrite F. destruct (byte_stores_frame zeros (mq_top q) q) as (_ & _ & _ & F2).
  unfold mem_write at 1 2. destruct (_ && _); [reflexivity|]. rewrite F2. apply E.
Qed.
Lemma push_stores_some f mx q m q' : msgq_strpush f mx q m = M_ok q' -> exists ss, strpush_stores f mx q m = Some ss.
Proof.
  unfold strpush_stores, msgq_strpush. destruct m as [|c m0]; [eauto|].
  set (m := c :: m0). destruct (zlen m + 1 >? mx); [eauto|].
  set (wrap := mq_top q + (zlen m + 1) >=? mx).
  set (zeros := if wrap then repeat 0 (Z.to_nat (mx - mq_top q)) else []).
  set (top := if wrap then 0 else mq_top q).
  set (dist := if wrap then mq_dist q + (mx - mq_top q) else mq_dist q).
  set (buf := if wrap then mem_write (mq_buf q) (mq_top q) (repeat 0 (Z.to_nat (mx - mq_top q))) else mq_buf q).
  assert (E : forall i, mem_write (mq_buf q) (mq_top q) zeros i = buf i).
  { intros i. unfold zeros, buf. destruct wrap; [reflexivity|apply mem_write_nil]. }
  rewrite (evict_ext f f mx (zlen m + 1) _ _ E). destruct (evict _ _ _ _ _ _ _) as [b' d'| |]; try discriminate.
  destruct (negb _); [discriminate|]. eauto.
Qed.

Lemma print_same mx q q' : mq_bottom q = mq_bottom q' -> mq_dist q = mq_dist q' -> (forall i, mq_buf q i = mq_buf q' i) ->
  msgq_print mx q = msgq_print mx q'.
Proof.
  intros B D E. unfold msgq_print. rewrite B, D. generalize (mq_bottom q').
  induction (Z.to_nat (mq_dist q')) as [|n IH]; intros b; cbn [msgq_print_loop]; [reflexivity|]. rewrite E, IH. reflexivity.
Qed.

Lemma room_reading f mx q ms m ss k : 0 < mx -> 2 * mx < 2 ^ 63 -> (0 < f)%nat -> Inv mx q ms -> m <> [] ->
  zlen (msgq_print mx q) + 2 * (zlen m + 1) < mx ->
  strpush_stores f mx q m = Some ss ->
  let qk := fold_left do_store (firstn k ss) q in
  msgq_print mx qk = msgq_print mx q \/ (List.length ss <= k)%nat.
Proof.
  intros M M2 F I NE R H qk.
  destruct (room_frame mx q ms m M I R) as [LV RO]. destruct (Inv_bounds mx q ms M I) as [B D].
  destruct (Nat.le_gt_cases (List.length ss) k) as [|K]; [right; assumption|left].
  unfold strpush_stores in H. destruct m as [|c m0]; [contradiction|]. set (m := c :: m0) in *.
  pose proof (zlen_nonneg m) as LM. pose proof (zlen_nonneg (msgq_print mx q)) as LP.
  destruct (Z.gtb_spec (zlen m + 1) mx); [lia|].
  set (wrap := mq_top q + (zlen m + 1) >=? mx) in *.
  set (zeros := if wrap then repeat 0 (Z.to_nat (mx - mq_top q)) else []) in *.
  set (top := if wrap then 0 else mq_top q) in *.
  set (dist := if wrap then mq_dist q + (mx - mq_top q) else mq_dist q) in *.
  assert (DI : 0 <= dist + (zlen m + 1) < mx).
  { assert (DE : dist = mq_dist q + (if wrap then mx - mq_top q else 0)) by (unfold dist; destruct wrap; lia).
    assert (TM : mq_top q < mx).
    { destruct I as [ms' HU _ _ _|ms1 e ms2 HW _ _ ? _].
      - destruct HU as [_ _ Utmx _ _]. exact Utmx.
      - lia. }
    rewrite DE. split; [|exact RO]. destruct wrap; lia. }
  destruct f as [|f]; [lia|]. cbn [evict] in H. rewrite u64_small in H by lia.
  destruct (Z.geb_spec (dist + (zlen m + 1)) mx); [lia|].
  destruct (negb _); [discriminate|]. apply Some_inj in H. subst ss.
  set (body := byte_stores (mq_top q) zeros ++ byte_stores top (m ++ [0])).
  set (last3 := [St_top ((top + (zlen m + 1)) mod mx); St_bottom (mq_bottom q); St_dist (dist + (zlen m + 1))]) in *.
  assert (KB : (k < List.length body + 3)%nat) by
    (unfold body; rewrite app_length; rewrite !app_length in K; change (List.length last3) with 3%nat in K; lia).
  assert (FK : firstn k (byte_stores (mq_top q) zeros ++ byte_stores top (m ++ [0]) ++ last3) =
               firstn k body ++ firstn (k - List.length body) last3).
  { rewrite app_assoc. fold body. apply firstn_app. }
  unfold qk. rewrite FK, do_stores_app.
  assert (BF : let q1 := fold_left do_store (firstn k body) q in
    mq_bottom q1 = mq_bottom q /\ mq_dist q1 = mq_dist q /\ forall i, live mx q i -> mq_buf q1 i = mq_buf q i).
  { unfold body. rewrite firstn_app, !firstn_byte_stores, do_stores_app. cbv zeta.
    destruct (byte_stores_frame (firstn k zeros) (mq_top q) q) as (_ & B1 & D1 & E1).
    set (q0 := fold_left do_store (byte_stores (mq_top q) (firstn k zeros)) q) in *.
    match goal with |- context[byte_stores top ?l] => destruct (byte_stores_frame l top q0) as (_ & B2 & D2 & E2);
      pose proof (zlen_firstn_le (k - List.length (byte_stores (mq_top q) zeros)) (m ++ [0])) as ZF end.
    rewrite zlen_app in ZF. change (zlen [0]) with 1 in ZF.
    split; [congruence|]. split; [congruence|]. intros i L. destruct (LV i L) as [L1 L2].
    rewrite E2, mem_write_out by lia. rewrite E1. apply mem_write_out. pose proof (zlen_firstn_le k zeros). lia. }
  cbv zeta in BF. set (q1 := fold_left do_store (firstn k body) q) in *. destruct BF as (B1 & D1 & E1).
  assert (J : (k - List.length body < 3)%nat) by lia.
  apply print_live; [exact M|exact B| | |];
    (destruct (k - List.length body)%nat as [|[|[|j]]]; [| | |lia]); cbn [firstn last3 fold_left do_store mq_bottom mq_dist mq_buf];
    try assumption; reflexivity.
Qed.

(** After the last store, if there is room for the message twice. *)
Lemma print_loop_app mx buf : 0 < mx -> forall a b p, 0 <= p < mx ->
  msgq_print_loop (a + b) mx buf p = msgq_print_loop a mx buf p ++ msgq_print_loop b mx buf ((p + Z.of_nat a) mod mx).
Proof.
  intros M. induction a as [|a IH]; intros b p P; cbn [msgq_print_loop app Nat.add].
  - rewrite Z.add_0_r, Z.mod_small by lia. reflexivity.
  - rewrite IH by (apply Z.mod_pos_bound; exact M). f_equal. f_equal. f_equal.
    rewrite Z.add_mod_idemp_l by lia. f_equal. lia.
Qed.
Lemma shows_snoc pad m : forall out ms, shows out ms -> (ms = [] -> pad = 0%nat) -> shows (out ++ repeat 0 pad ++ m ++ [0]) (ms ++ [m]).
Proof.
  induction 1 as [|x k out msgs SS IH]; intros P.
  - rewrite (P eq_refl). cbn [repeat app]. apply (shows_cons m 0 [] []). constructor.
  - cbn [app]. destruct msgs as [|y msgs].
    + inversion SS; subst. rewrite app_nil_r.
      replace ((x ++ repeat 0 (S k)) ++ repeat 0 pad ++ m ++ [0]) with (x ++ repeat 0 (S (k + pad)) ++ m ++ [0]).
      * constructor. apply (shows_cons m 0 [] []). constructor.
      * replace (S (k + pad)) with (S k + pad)%nat by lia. rewrite repeat_app, <- !app_assoc. reflexivity.
    + rewrite <- !app_assoc. constructor. apply IH. discriminate.
Qed.
Lemma mem_write_read m a l : mem_read (mem_write m a l) a (List.length l) = l.
Proof.
  apply nth_ext with (d := 0) (d' := 0); [apply mem_read_length|]. intros n N. rewrite mem_read_length in N.
  rewrite nth_mem_read by exact N. unfold mem_write. unfold zlen.
  destruct (Z.leb_spec a (a + Z.of_nat n)); [|lia]. destruct (Z.ltb_spec (a + Z.of_nat n) (a + Z.of_nat (List.length l))); [|lia].
  cbn [andb]. f_equal. lia.
Qed.

Lemma room_final f mx q ms m q' : 0 < mx -> 2 * mx < 2 ^ 63 -> (0 < f)%nat -> Inv mx q ms -> m <> [] ->
  zlen (msgq_print mx q) + 2 * (zlen m + 1) < mx ->
  msgq_strpush f mx q m = M_ok q' -> shows (msgq_print mx q') (ms ++ [m]).
Proof.
  intros M M2 F I NE R H. pose proof (Inv_shows mx M q ms I) as SH.
  destruct (room_frame mx q ms m M I R) as [LV RO]. destruct (Inv_bounds mx q ms M I) as [B D].
  unfold msgq_strpush in H. destruct m as [|c m0]; [contradiction|]. set (m := c :: m0) in *.
  pose proof (zlen_nonneg m) as LM. pose proof (zlen_nonneg (msgq_print mx q)) as LP.
  destruct (Z.gtb_spec (zlen m + 1) mx); [lia|].
  set (wrap := mq_top q + (zlen m + 1) >=? mx) in *.
  set (zeros := if wrap then repeat 0 (Z.to_nat (mx - mq_top q)) else []) in *.
  set (top := if wrap then 0 else mq_top q) in *.
  set (dist := if wrap then mq_dist q + (mx - mq_top q) else mq_dist q) in *.
  set (buf := if wrap then mem_write (mq_buf q) (mq_top q) (repeat 0 (Z.to_nat (mx - mq_top q))) else mq_buf q) in *.
  assert (TM : mq_top q < mx /\ 0 <= mq_top q /\ (mq_bottom q + mq_dist q) mod mx = mq_top q /\ (ms = [] -> mq_top q = 0)).
  { destruct I as [ms' HU Hd HE _|ms1 e ms2 HW N1 _ L Hd].
    - destruct HU as [_ Ut Utmx _ _]. pose proof (zlen_nonneg (enc ms')).
      split; [lia|]. split; [lia|]. split; [|exact HE]. rewrite Z.mod_small; lia.
    - destruct HW as [Wb We Wemx Wt _ _ _ _ _ _]. pose proof (zlen_nonneg (enc ms2)).
      split; [lia|]. split; [lia|]. split.
      + symmetry. apply Z.mod_unique_pos with (q := 1); lia.
      + destruct ms1; [contradiction|discriminate]. }
  destruct TM as (TM & T0 & TB & TE).
  assert (DE : dist = mq_dist q + zlen zeros).
  { unfold dist, zeros. destruct wrap; [|change (zlen (@nil Z)) with 0; lia]. unfold zlen. rewrite repeat_length. lia. }
  assert (ZL : zlen zeros = if wrap then mx - mq_top q else 0).
  { unfold zeros. destruct wrap; [|reflexivity]. unfold zlen. rewrite repeat_length. lia. }
  assert (DI : 0 <= dist + (zlen m + 1) < mx) by (rewrite DE, ZL; split; [destruct wrap; lia|exact RO]).
  destruct f as [|f]; [lia|]. cbn [evict] in H. rewrite u64_small in H by lia.
  destruct (Z.geb_spec (dist + (zlen m + 1)) mx); [lia|].
  destruct (Z.leb_spec 0 top); [|discriminate H]. destruct (Z.leb_spec (top + (zlen m + 1)) mx); [|discriminate H]. cbn [andb negb] in H.
  assert (Q : q' = mk_msgq (mem_write buf top (m ++ [0])) ((top + (zlen m + 1)) mod mx) (mq_bottom q) (dist + (zlen m + 1))) by congruence.
  subst q'. unfold msgq_print. cbn [mq_dist mq_buf mq_bottom].
  set (fin := mem_write buf top (m ++ [0])).
  assert (BE : forall i, buf i = mem_write (mq_buf q) (mq_top q) zeros i).
  { intros i. unfold buf, zeros. destruct wrap; [reflexivity|symmetry; apply mem_write_nil]. }
  pose proof (zlen_nonneg zeros) as LZ.
  assert (ML : List.length (m ++ [0]) = Z.to_nat (zlen m + 1)) by (rewrite app_length; unfold zlen; cbn [List.length]; lia).
  replace (Z.to_nat (dist + (zlen m + 1))) with (Z.to_nat (mq_dist q) + (List.length zeros + List.length (m ++ [0%Z])))%nat
    by (rewrite ML; unfold zlen in *; lia).
  rewrite !print_loop_app; [|exact M|apply Z.mod_pos_bound; exact M|exact M|exact B].
  rewrite Z2Nat.id by lia. rewrite TB.
  assert (P1 : msgq_print_loop (Z.to_nat (mq_dist q)) mx fin (mq_bottom q) = msgq_print mx q).
  { unfold msgq_print. apply print_ext; [exact M|exact B|]. intros j J. rewrite Z2Nat.id in J by lia.
    destruct (LV ((mq_bottom q + j) mod mx)) as [L1 L2]; [exists j; split; [lia|reflexivity]|].
    unfold fin. rewrite mem_write_out by (rewrite zlen_app; change (zlen [0]) with 1; lia). rewrite BE.
    apply mem_write_out. lia. }
  assert (P2 : msgq_print_loop (List.length zeros) mx fin (mq_top q) = zeros).
  { destruct (wrap) eqn:W.
    - assert (TS : zlen m + 1 <= mq_top q).
      { unfold wrap in W. destruct (Z.geb_spec (mq_top q + (zlen m + 1)) mx); [|discriminate]. unfold zlen in *. lia. }
      rewrite print_straight by (unfold zlen in *; lia).
      transitivity (mem_read (mem_write (mq_buf q) (mq_top q) zeros) (mq_top q) (List.length zeros)); [|apply mem_write_read].
      apply mem_read_ext. intros i J. unfold fin. rewrite mem_write_out; [apply BE|].
      rewrite zlen_app. change (zlen [0]) with 1. unfold top. unfold zlen in *. lia.
    - unfold zeros. reflexivity. }
  assert (P3 : msgq_print_loop (List.length (m ++ [0])) mx fin ((mq_top q + Z.of_nat (List.length zeros)) mod mx) = m ++ [0]).
  { assert (TP : (mq_top q + Z.of_nat (List.length zeros)) mod mx = top).
    { fold (zlen zeros). rewrite ZL. unfold top. destruct wrap.
      - replace (mq_top q + (mx - mq_top q)) with mx by lia. apply Z.mod_same. lia.
      - rewrite Z.add_0_r. apply Z.mod_small. lia. }
    rewrite TP, print_straight by (rewrite ?ML; lia). apply mem_write_read. }
  rewrite P1, P2, P3.
  replace zeros with (repeat 0 (List.length zeros)); [apply shows_snoc; [exact SH|]|unfold zeros; destruct wrap; [rewrite repeat_length|]; reflexivity].
  intros E. specialize (TE E). unfold zeros. destruct wrap eqn:W; [|reflexivity]. exfalso.
  unfold wrap in W. destruct (Z.geb_spec (mq_top q + (zlen m + 1)) mx); [lia|discriminate].
Qed.
