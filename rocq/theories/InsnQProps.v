(** Property theorems about the instruction queue (C12, C13, C15, C16, C17). *)
From Verif Require Import Base BaseFacts InsnQModel InsnQSpec InsnQProofs InsnQLibProofs.

(** C12. Any sequence of requests that fits: libpulp accepts all of them, and
    the tool performs exactly them, in order, then resets the queue. *)
Theorem C12_queue_executes_exactly :
  forall (rs : list req) (stale : Z -> Z) (t : tgt),
    Forall req_ok rs -> total_size rs <= INSN_BUFFER_MAX ->
    exists q,
      submit_all rs (empty_queue stale, 0) = (q, 0) /\
      insnq_interpret_from_process env_ok true q t =
        Some (0, insnq_reset q, perform_all rs t).
Proof.
  intros rs stale t Hok Hfit.
  destruct (submit_all rs (empty_queue stale, 0)) as [q e] eqn:E.
  destruct (submit_all_complete rs (empty_queue stale) 0) as [H1 _]; [cbn; lia|].
  rewrite E in H1. cbn in H1. subst e. exists q. split; [reflexivity|].
  pose proof (submit_all_inv rs (empty_queue stale) 0 [] Hok (qinv_empty stale) ltac:(discriminate)) as H.
  rewrite E in H. destruct H as [[_ Hq]|H]; [|discriminate].
  apply interpret_exact; auto.
Qed.
Print Assumptions C12_queue_executes_exactly.

(** The hypotheses hold for three overlapping/odd-sized requests, and what the
    tool does with them is what one would write down by hand. *)
Example C12_case :
  let rs := [RWrite 4096 [1; 2; 3]; RPrint [104; 105]; RWrite 4097 [9]] in
  Forall req_ok rs /\ total_size rs = 56 /\
  mem_read (t_mem (perform_all rs (mk_tgt (fun _ => 0) []))) 4095 5 = [0; 1; 9; 3; 0].
Proof.
  split; [|split; reflexivity].
  repeat constructor; unfold is_byte, is_cchar; lia.
Qed.

(** C13. The queue stays within its buffer whatever is submitted, never
    stores outside it, and a request that does not fit changes nothing but the error state. *)
Theorem C13_queue_never_overflows :
  forall (rs : list req) (stale : Z -> Z) (err : Z),
    let st := submit_all rs (empty_queue stale, err) in
    0 <= q_size (fst st) <= INSN_BUFFER_MAX /\
    (forall x, x < 0 \/ INSN_BUFFER_MAX <= x -> q_buf (fst st) x = stale x) /\
    (forall r, q_size (fst st) + req_size r > INSN_BUFFER_MAX ->
       submit st r = (fst st, EINSNQ)) /\
    (forall r, q_size (fst st) + req_size r <= INSN_BUFFER_MAX ->
       snd (submit st r) = snd st /\
       q_size (fst (submit st r)) = q_size (fst st) + req_size r).
Proof.
  intros rs stale err st.
  assert (Hb : 0 <= q_size (fst st) <= INSN_BUFFER_MAX).
  { apply submit_all_bound. cbn. unfold INSN_BUFFER_MAX. lia. }
  split; [exact Hb|]. split; [|split].
  - unfold st. clear. intros x Hx.
    assert (G : forall l q e, 0 <= q_size q <= INSN_BUFFER_MAX ->
              q_buf (fst (submit_all l (q, e))) x = q_buf q x).
    { induction l as [|r l IH]; intros q e Hq; [reflexivity|].
      change (submit_all (r :: l) (q, e)) with (submit_all l (submit (q, e) r)).
      pose proof (submit_stores_in_bounds q e r x ltac:(lia) Hx) as Hs.
      pose proof (submit_all_bound [r] q e Hq) as Hbb.
      change (submit_all [r] (q, e)) with (submit (q, e) r) in Hbb.
      destruct (submit (q, e) r) as [q1 e1]. cbn [fst] in *. rewrite IH; auto. }
    apply G. cbn. unfold INSN_BUFFER_MAX. lia.
  - intros r Hr. destruct st as [q e]. cbn [fst] in *. rewrite submit_unfold.
    destruct (try_insert q r) as [q'|] eqn:E; [|reflexivity].
    pose proof (proj2 (try_insert_fits q r) ltac:(eauto)). lia.
  - intros r Hr. destruct st as [q e]. cbn [fst snd] in *. rewrite submit_unfold.
    destruct (proj1 (try_insert_fits q r) Hr) as [q' E]. rewrite E. cbn [fst snd].
    destruct (try_insert_size _ _ _ E). auto.
Qed.
Print Assumptions C13_queue_never_overflows.

Example C13_case :
  q_size (empty_queue (fun _ => 7)) + req_size (RWrite 0 (repeat 1 100)) <= INSN_BUFFER_MAX /\
  (forall q, q_size q = INSN_BUFFER_MAX - 8 -> q_size q + req_size (RWrite 0 [1]) > INSN_BUFFER_MAX).
Proof. split; [vm_compute; discriminate|]. intros q ->. vm_compute. reflexivity. Qed.

(** C15, the part that holds: a queue content made of complete instructions is
    executed without leaving the fetched bytes: nothing outside the first
    [size] bytes influences the result.  Missing: contents that are not a
    sequence of complete instructions, see [C15_hostile_queue_refuted]. *)
Theorem C15_wellformed_queue_safe_partial :
  forall (num : nat) (size : Z) (b1 b2 : Z -> Z) (t : tgt),
    size <= INSN_BUFFER_MAX ->
    well_formed num b1 size 0 ->
    (forall i, 0 <= i < size -> b1 i = b2 i) ->
    exists t',
      insnq_interpret tgt_print (tool_write (fun _ => None))
        (mk_insnq INSNQ_CURR_VERSION (Z.of_nat num) size b1) t = I_ret 0 t' /\
      insnq_interpret tgt_print (tool_write (fun _ => None))
        (mk_insnq INSNQ_CURR_VERSION (Z.of_nat num) size b2) t = I_ret 0 t'.
Proof.
  intros num size b1 b2 t Hs Hwf Hext. unfold insnq_interpret. cbn [q_num q_size q_buf].
  destruct (Z.ltb_spec (Z.of_nat num) 0); [lia|]. rewrite Nat2Z.id.
  apply well_formed_safe; auto.
Qed.
Print Assumptions C15_wellformed_queue_safe_partial.

Definition bytes_at0 (l : list Z) : Z -> Z := fun i => if i <? 0 then 0 else nth (Z.to_nat i) l 0.

(** C15, likewise: a content that turns out not to be such a sequence, because
    an opcode does not exist or the instructions do not end where the queue
    does, is reported as an error, again without leaving the fetched bytes. *)
Theorem C15_malformed_queue_reported_partial :
  forall (num : nat) (size : Z) (b1 b2 : Z -> Z) (t : tgt),
    size <= INSN_BUFFER_MAX ->
    malformed num b1 size 0 ->
    (forall i, 0 <= i < size -> b1 i = b2 i) ->
    exists t',
      insnq_interpret tgt_print (tool_write (fun _ => None))
        (mk_insnq INSNQ_CURR_VERSION (Z.of_nat num) size b1) t = I_ret EINSNQ t' /\
      insnq_interpret tgt_print (tool_write (fun _ => None))
        (mk_insnq INSNQ_CURR_VERSION (Z.of_nat num) size b2) t = I_ret EINSNQ t'.
Proof.
  intros num size b1 b2 t Hs Hwf Hext. unfold insnq_interpret. cbn [q_num q_size q_buf].
  destruct (Z.ltb_spec (Z.of_nat num) 0); [lia|]. rewrite Nat2Z.id.
  apply malformed_reported; auto.
Qed.
Print Assumptions C15_malformed_queue_reported_partial.

Example C15_case :
  well_formed 2 (bytes_at0 [0; 0; 0; 0; 2; 24; 0; 0; 1; 0; 0; 0; 0; 16; 0; 0; 0; 0; 0; 0; 255; 0; 0; 0; 0; 0; 0; 0]) 28 0 /\
  malformed 2 (bytes_at0 [0; 0; 0; 0; 3; 24; 0; 0]) 8 0 /\
  malformed 1 (bytes_at0 [0; 0; 0; 0; 0; 0; 0; 0]) 8 0.
Proof.
  repeat split.
  - cbn [well_formed]. exists 4. split.
    + split; [lia|]. split; [lia|]. left. split; reflexivity.
    + exists 28. split; [|reflexivity]. split; [lia|]. split; [lia|]. right; right.
      split; [reflexivity|]. split; [vm_compute; discriminate|]. split; [vm_compute; discriminate|]. reflexivity.
  - cbn [malformed]. right. exists 4. split.
    + split; [lia|]. split; [lia|]. left. split; reflexivity.
    + left. split; [lia|]. vm_compute. repeat split; discriminate.
  - cbn [malformed]. right. exists 4. split.
    + split; [lia|]. split; [lia|]. left. split; reflexivity.
    + discriminate.
Qed.

(** C15 is false of the code: a 16-byte queue whose write instruction claims
    2^32-1 bytes makes the tool read beyond its queue object; and a print
    instruction with a negative size makes it read before it. *)
Theorem C15_hostile_queue_refuted :
  (exists q, q_size q = 16 /\ (forall i, is_byte (q_buf q i)) /\
     forall t, insnq_interpret_from_process env_ok true q t = None) /\
  (exists q, q_size q = 8 /\ (forall i, is_byte (q_buf q i)) /\
     forall t, insnq_interpret_from_process env_ok true q t = None).
Proof.
  assert (G : forall l, bytes_ok l -> forall i, is_byte (bytes_at0 l i)).
  { intros l Hl i. unfold bytes_at0. destruct (i <? 0); [unfold is_byte; lia|].
    destruct (nth_in_or_default (Z.to_nat i) l 0) as [Hin| ->]; [|unfold is_byte; lia].
    unfold bytes_ok in Hl. rewrite Forall_forall in Hl. auto. }
  split.
  - exists (mk_insnq 1 1 16 (bytes_at0 [2; 16; 0; 0; 255; 255; 255; 255])).
    split; [reflexivity|]. split.
    + apply G. repeat constructor; unfold is_byte; lia.
    + intros t. vm_compute. reflexivity.
  - exists (mk_insnq 1 2 8 (bytes_at0 [1; 255; 255; 255; 0; 0; 0; 0])).
    split; [reflexivity|]. split.
    + apply G. repeat constructor; unfold is_byte; lia.
    + intros t. vm_compute. reflexivity.
Qed.
Print Assumptions C15_hostile_queue_refuted.

(** C16, the part that holds: a failure of the last write is reported.
    Missing: failures of earlier writes, see [C16_failed_write_refuted]. *)
Theorem C16_last_write_failure_reported_partial :
  forall rs a bs stale t k,
    Forall req_ok (rs ++ [RWrite a bs]) ->
    total_size (rs ++ [RWrite a bs]) <= INSN_BUFFER_MAX ->
    let q := fst (submit_all (rs ++ [RWrite a bs]) (empty_queue stale, 0)) in
    let wf := fun i => if Nat.eqb i (length rs) then Some k else None in
    exists t', insnq_interpret_from_process (mk_tool_env 0 0 0 wf) true q t = Some (EINSNQ, q, t').
Proof.
  intros rs a bs stale t k Hok Hfit q wf.
  destruct (submit_all_complete (rs ++ [RWrite a bs]) (empty_queue stale) 0) as [H1 _]; [cbn in *; lia|].
  pose proof (submit_all_inv _ (empty_queue stale) 0 [] Hok (qinv_empty stale) ltac:(discriminate)) as H.
  unfold q. destruct (submit_all (rs ++ [RWrite a bs]) (empty_queue stale, 0)) as [q1 e] eqn:E.
  cbn [fst snd] in *. subst e. destruct H as [[_ Hq]|H]; [|discriminate].
  apply (last_write_fails (mk_tool_env 0 0 0 wf) q1 rs a bs t k); auto.
  - intros i Hi. cbn. unfold wf. destruct (Nat.eqb_spec i (length rs)); [lia|reflexivity].
  - cbn. unfold wf. rewrite Nat.eqb_refl. reflexivity.
Qed.
Print Assumptions C16_last_write_failure_reported_partial.

(** C16: success is reported only if the queue was of a known version and
    everything the tool had to read and reset in the process was read and reset;
    when the queue cannot be fetched nothing in the process changes. *)
Theorem C16_success_means_done :
  forall e has_queue rq t r rq' t',
    insnq_interpret_from_process e has_queue rq t = Some (r, rq', t') ->
    (r = 0 -> has_queue = true /\ te_rd_hdr e = 0 /\ q_version rq <= INSNQ_CURR_VERSION /\
              (u32 (q_size rq) <> 0 -> te_rd_body e = 0) /\ te_upd e = 0 /\ rq' = insnq_reset rq) /\
    (r <> 0 -> rq' = rq) /\
    (has_queue = false \/ te_rd_hdr e <> 0 \/ q_version rq > INSNQ_CURR_VERSION \/
     (u32 (q_size rq) <> 0 /\ te_rd_body e <> 0) \/ u32 (q_size rq) > INSN_BUFFER_MAX ->
     r <> 0 /\ t' = t).
Proof.
  intros e h rq t r rq' t' H. unfold insnq_interpret_from_process in H.
  assert (ER : EINSNQ <> 0 /\ EOLDLIBPULP <> 0 /\ EOLDULP <> 0) by (vm_compute; repeat split; discriminate).
  destruct ER as (ER1 & ER2 & ER3).
  destruct h; cbn [negb] in H; [|inversion H; subst; repeat split; auto; intros; congruence].
  unfold insnq_get_from_remote_process in H.
  destruct (Z.eqb_spec (te_rd_hdr e) 0) as [R1|R1]; cbn [negb] in H.
  2:{ change (EINSNQ =? 0) with false in H. cbn in H. inversion H; subst. repeat split; auto; intros; congruence. }
  destruct (Z.gtb_spec (q_version rq) INSNQ_CURR_VERSION) as [V|V].
  { change (EOLDULP =? 0) with false in H. cbn [negb] in H. inversion H; subst. repeat split; auto; intros; congruence. }
  assert (Main : forall q, q_size q = q_size rq ->
     (if q_size q >? INSN_BUFFER_MAX then Some (EINSNQ, rq, t)
      else match insnq_interpret tgt_print (tool_write (te_wf e)) q t with
           | I_UB _ => None
           | I_ret c t' => if negb (c =? 0) then Some (EINSNQ, rq, t')
                           else if negb (te_upd e =? 0) then Some (EINSNQ, rq, t')
                           else Some (0, insnq_reset rq, t') end) = Some (r, rq', t') ->
     (r = 0 -> te_upd e = 0 /\ rq' = insnq_reset rq) /\ (r <> 0 -> rq' = rq)).
  { intros q _ M. destruct (q_size q >? INSN_BUFFER_MAX); [inversion M; subst; split; intros; congruence|].
    destruct (insnq_interpret _ _ q t) as [|c t1]; [discriminate|].
    destruct (Z.eqb_spec c 0); cbn [negb] in M; [|inversion M; subst; split; intros; congruence].
    destruct (Z.eqb_spec (te_upd e) 0); cbn [negb] in M; inversion M; subst; split; intros; auto; congruence. }
  destruct (Z.eqb_spec (u32 (q_size rq)) 0) as [Z0|Z0].
  { change (0 =? 0) with true in H. cbn [negb] in H. apply Main in H; [|reflexivity]. destruct H as [H1 H2].
    split; [|split]; auto.
    - intros R. destruct (H1 R). repeat split; auto; lia.
    - intros [X|[X|[X|[X|X]]]]; try congruence; try lia. exfalso; rewrite Z0 in X; vm_compute in X; discriminate. }
  destruct (Z.gtb_spec (u32 (q_size rq)) INSN_BUFFER_MAX) as [Y|Y].
  { change (EINSNQ =? 0) with false in H. cbn in H. inversion H; subst. repeat split; auto; intros; congruence. }
  destruct (Z.eqb_spec (te_rd_body e) 0) as [Bz|Bz]; cbn [negb] in H.
  - change (0 =? 0) with true in H. cbn [negb] in H. apply Main in H; [|reflexivity]. destruct H as [H1 H2].
    split; [|split]; auto.
    + intros R. destruct (H1 R). repeat split; auto; lia.
    + intros [X|[X|[X|[X|X]]]]; try congruence; try lia.
  - destruct (Z.eqb_spec (te_rd_body e) 0); [congruence|]. cbn [negb] in H. inversion H; subst.
    repeat split; auto; intros; congruence.
Qed.
Print Assumptions C16_success_means_done.

Example C16_done_case : forall t,
  insnq_interpret_from_process env_ok true (empty_queue (fun _ => 0)) t
    = Some (0, empty_queue (fun _ => 0), t) /\
  insnq_interpret_from_process (mk_tool_env 0 0 (-1) (fun _ => None)) true (empty_queue (fun _ => 0)) t
    = Some (EINSNQ, empty_queue (fun _ => 0), t) /\
  insnq_interpret_from_process env_ok true (mk_insnq 2 0 0 (fun _ => 0)) t
    = Some (EOLDULP, mk_insnq 2 0 0 (fun _ => 0), t).
Proof. intros t. repeat split. Qed.

Example C16_case :
  Forall req_ok ([RWrite 0 [1]] ++ [RWrite 8 [2; 3]]) /\
  total_size ([RWrite 0 [1]] ++ [RWrite 8 [2; 3]]) <= INSN_BUFFER_MAX.
Proof. split; [repeat constructor; unfold is_byte; lia|vm_compute; discriminate]. Qed.

(** C16 is false of the code: six 8-byte writes queued by libpulp, the second
    one (at address 0x6d01000000) fails without storing anything; the tool
    continues one byte before the next instruction, skips the remaining four
    writes, and still reports success and resets the queue. *)
Definition c16_reqs : list req :=
  [RWrite 4096 [1; 0; 0; 0; 0; 0; 0; 0];
   RWrite (109 * 2 ^ 32 + 2 ^ 24) [2; 0; 0; 0; 0; 0; 0; 0];
   RWrite 4112 [3; 0; 0; 0; 0; 0; 0; 0];
   RWrite 4120 [4; 0; 0; 0; 0; 0; 0; 0];
   RWrite 4128 [5; 0; 0; 0; 0; 0; 0; 0];
   RWrite 4136 [6; 0; 0; 0; 0; 0; 0; 0]].

Theorem C16_failed_write_refuted :
  exists (rs : list req) (wf : nat -> option nat),
    Forall req_ok rs /\ total_size rs <= INSN_BUFFER_MAX /\
    (exists i, (i < length rs)%nat /\ wf i <> None) /\
    let q := fst (submit_all rs (empty_queue (fun _ => 0), 0)) in
    exists t', insnq_interpret_from_process (mk_tool_env 0 0 0 wf) true q (mk_tgt (fun _ => 0) []) =
                 Some (0, insnq_reset q, t') /\
               t_mem t' 4112 = 0 /\ t_mem t' 4136 = 0.
Proof.
  exists c16_reqs, (fun i => match i with 1%nat => Some 0%nat | _ => None end).
  split; [repeat constructor; unfold is_byte; lia|].
  split; [vm_compute; discriminate|].
  split; [exists 1%nat; split; [vm_compute; lia|discriminate]|].
  intros q.
  set (run := insnq_interpret_from_process
    (mk_tool_env 0 0 0 (fun i => match i with 1%nat => Some 0%nat | _ => None end)) true q
    (mk_tgt (fun _ => 0) [])).
  assert (Hc : option_map (fun r => (fst (fst r), t_mem (snd r) 4112, t_mem (snd r) 4136)) run
               = Some (0, 0, 0)) by (vm_compute; reflexivity).
  destruct run as [[[c q'] t']|] eqn:E; [|discriminate]. unfold run in E. clear run.
  cbn [option_map fst snd] in Hc.
  assert (Hc' : c = 0 /\ t_mem t' 4112 = 0 /\ t_mem t' 4136 = 0) by (split; [|split]; congruence).
  clear Hc. destruct Hc' as (-> & Hc3 & Hc4).
  exists t'. split; [|auto]. f_equal. f_equal. f_equal.
  clear -E. unfold insnq_interpret_from_process in E. cbn [negb] in E.
  destruct (insnq_get_from_remote_process _ q) as [ret q0]. destruct (negb (ret =? 0)) eqn:E1.
  { injection E as -> _ _. discriminate. }
  destruct (q_size q0 >? INSN_BUFFER_MAX); [discriminate|].
  destruct (insnq_interpret _ _ q0 _) as [|c t0]; [discriminate|].
  destruct (negb (c =? 0)); [discriminate|].
  injection E as E _. symmetry. exact E.
Qed.
Print Assumptions C16_failed_write_refuted.

(** C17, the part that holds, one write: with all pages up to the byte after
    the write mapped and mprotect working, exactly the requested bytes change and every
    protection is as before. Missing: see [C17_boundary_write_refuted]. *)
Theorem C17_inprocess_write_exact_partial :
  forall (k addr : Z) (bytes : list Z) (env : nat -> lw_env) (idx : nat) (size : Z) (t : ltgt),
    0 <= k -> 0 <= addr -> addr + zlen bytes < 2 ^ 64 ->
    (forall x, lw_set (env idx) x = true) -> (forall x, lw_restore (env idx) x = true) ->
    span_mapped (2 ^ k) (l_prot t) addr (zlen bytes) ->
    exists t',
      lib_write (2 ^ k) env idx addr bytes size t = Some (size, t') /\
      mem_read (l_mem t') addr (length bytes) = bytes /\
      mem_eq_out (l_mem t') (l_mem t) addr (zlen bytes) /\
      (forall page, l_prot t' page = l_prot t page).
Proof.
  intros k addr bytes env idx size t Hk Ha Hn H1 H2 Hm.
  destruct (lib_write_exact k addr bytes env idx size t Hk Ha Hn H1 H2 Hm) as (t' & He & Hmem & _ & Hp).
  exists t'. split; [exact He|]. rewrite Hmem. split; [apply mem_read_write_same|].
  split; [|exact Hp]. intros x Hx. apply mem_write_out. exact Hx.
Qed.
Print Assumptions C17_inprocess_write_exact_partial.

Example C17_case :
  span_mapped (2 ^ 12) (fun p => if p <? 12288 then Some 5 else None) 4090 12 /\
  4090 + zlen (repeat 1 12) < 2 ^ 64.
Proof.
  split; [|vm_compute; reflexivity].
  intros x Hx. unfold page_of. change (2 ^ 12) with 4096.
  destruct (Z.ltb_spec (4096 * (x / 4096)) 12288); [discriminate|]. zdm.
Qed.

(** C17 for a whole queue executed in-process (patch applied from gdb). *)
Theorem C17_inprocess_queue_exact_partial :
  forall (k : Z) (rs : list req) (stale : Z -> Z) (env : nat -> lw_env) (t : ltgt),
    0 <= k -> Forall req_ok rs -> total_size rs <= INSN_BUFFER_MAX ->
    (forall i x, lw_set (env i) x = true) -> (forall i x, lw_restore (env i) x = true) ->
    Forall (req_mapped (2 ^ k) (l_prot t)) rs ->
    let q := fst (submit_all rs (empty_queue stale, 0)) in
    exists q' t',
      insnq_interpret_from_lib (2 ^ k) env q t = Some (0, q', t') /\
      q_num q' = 0 /\ q_size q' = 0 /\
      l_mem t' = t_mem (perform_all rs (mk_tgt (l_mem t) (l_out t))) /\
      (forall page, l_prot t' page = l_prot t page).
Proof.
  intros k rs stale env t Hk Hok Hfit H1 H2 Hm q.
  destruct (submit_all_complete rs (empty_queue stale) 0) as [H3 _]; [cbn in *; lia|].
  pose proof (submit_all_inv _ (empty_queue stale) 0 [] Hok (qinv_empty stale) ltac:(discriminate)) as H.
  unfold q. destruct (submit_all rs (empty_queue stale, 0)) as [q1 e] eqn:E.
  cbn [fst snd] in *. subst e. destruct H as [[_ Hq]|H]; [|discriminate].
  apply interpret_from_lib_exact; auto.
Qed.
Print Assumptions C17_inprocess_queue_exact_partial.

(** Whatever the queue held and whatever came of it, it is empty afterwards: no byte of
    it is left for the next transaction, and no byte beside the buffer is touched. *)
Theorem C17_inprocess_queue_emptied : forall ps env q t c q' t',
  insnq_interpret_from_lib ps env q t = Some (c, q', t') ->
  q_num q' = 0 /\ q_size q' = 0 /\ q_version q' = q_version q /\
  (forall i, 0 <= i < INSN_BUFFER_MAX -> q_buf q' i = 0) /\
  (forall i, ~ 0 <= i < INSN_BUFFER_MAX -> q_buf q' i = q_buf q i).
Proof.
  intros ps env q t c q' t' E. unfold insnq_interpret_from_lib in E.
  destruct (insnq_interpret ltgt_print (lib_write ps env) q t); [discriminate E|]. injection E as _ <- _. cbn [q_num q_size q_version q_buf].
  repeat split; intros i Hi; destruct (Z.leb_spec 0 i), (Z.ltb_spec i INSN_BUFFER_MAX); cbn [andb]; try reflexivity; lia.
Qed.
Print Assumptions C17_inprocess_queue_emptied.

(** A queue whose only instruction is not one libpulp knows, between two other bytes. *)
Example C17_inprocess_queue_emptied_case :
  match insnq_interpret_from_lib 4096 (fun _ => mk_lw_env (fun _ => true) (fun _ => true) 14)
    (mk_insnq 1 1 4 (fun i => if i =? 0 then 99 else if i =? INSN_BUFFER_MAX then 7 else 4)) (mk_ltgt (fun _ => 0) (fun _ => None) []) with
  | Some (c, q', _) => (c =? 0, q_buf q' 0, q_buf q' INSN_BUFFER_MAX) = (false, 0, 7)
  | None => False
  end.
Proof. vm_compute. reflexivity. Qed.

(** C17 without the mapping hypothesis: the write is all or nothing, and the
    protections are unchanged either way. *)
Theorem C17_protections_always_restored :
  forall (k addr : Z) (bytes : list Z) (env : nat -> lw_env) (idx : nat) (size : Z) (t : ltgt),
    0 <= k -> 0 <= addr -> addr + zlen bytes < 2 ^ 64 ->
    (forall x, lw_set (env idx) x = true) -> (forall x, lw_restore (env idx) x = true) ->
    exists ret t',
      lib_write (2 ^ k) env idx addr bytes size t = Some (ret, t') /\
      (forall page, l_prot t' page = l_prot t page) /\
      ((ret = size /\ mem_read (l_mem t') addr (length bytes) = bytes /\
        mem_eq_out (l_mem t') (l_mem t) addr (zlen bytes)) \/
       (ret = lw_errno (env idx) /\ l_mem t' = l_mem t)).
Proof.
  intros k addr bytes env idx size t Hk Ha Hn H1 H2.
  destruct (lib_write_atomic k addr bytes Hk Ha Hn env idx size t H1 H2)
    as [(He & _)|(p' & He & Hp)].
  - do 2 eexists. split; [exact He|]. split; [reflexivity|]. right. auto.
  - do 2 eexists. split; [exact He|]. split; [exact Hp|]. left. cbn.
    split; [reflexivity|]. split; [apply mem_read_write_same|].
    intros x Hx. apply mem_write_out. exact Hx.
Qed.
Print Assumptions C17_protections_always_restored.

(** C17 is false of the code in two corners: (1) a write that lies entirely in
    mapped pages but ends at the end of a mapping is not performed (the code also
    asks for the page after the last byte); (2) if restoring fails on the second
    of two pages, that page stays writable. *)
Theorem C17_boundary_write_refuted :
  (exists addr bytes t,
     (forall x, addr <= x < addr + zlen bytes -> l_prot t (page_of 4096 x) <> None) /\
     forall env idx size, exists r,
       lib_write 4096 env idx addr bytes size t = Some (r, t) /\
       mem_read (l_mem t) addr (length bytes) <> bytes) /\
  (exists addr bytes t env, 
     span_mapped 4096 (l_prot t) addr (zlen bytes) /\
     exists r t', lib_write 4096 env 0 addr bytes 24 t = Some (r, t') /\
       exists page, l_prot t' page <> l_prot t page).
Proof.
  split.
  - exists 4088, [1; 1; 1; 1; 1; 1; 1; 1],
      (mk_ltgt (fun _ => 0) (fun p => if p =? 0 then Some 5 else None) []).
    split.
    + intros x Hx. unfold page_of. cbn in Hx. cbn [l_prot].
      change (zlen [1; 1; 1; 1; 1; 1; 1; 1]) with 8 in Hx.
      destruct (Z.eqb_spec (4096 * (x / 4096)) 0) as [E|E]; [discriminate|]. exfalso; zdm.
    + intros env idx size. exists (lw_errno (env idx)). split; [reflexivity|].
      vm_compute. discriminate.
  - exists 4092, [1; 1; 1; 1; 1; 1; 1; 1], (mk_ltgt (fun _ => 0) (fun _ => Some 5) []),
      (fun _ => mk_lw_env (fun _ => true) (fun p => p =? 0) 12).
    split; [intros x Hx; discriminate|].
    do 2 eexists. split; [vm_compute; reflexivity|].
    exists 4096. vm_compute. discriminate.
Qed.
Print Assumptions C17_boundary_write_refuted.
