(** C27: redirection on ppc64le. *)
From Verif Require Import Base BaseFacts InsnQModel InsnQSpec InsnQProofs PpcModel PpcSpec PpcProofs.

(** Installing: for every livepatchable function, in both layouts, what libpulp asks
    for and the tool carries out makes execution go from the patchable
    instruction to the beginning of the area in front of the function, through the
    code placed there, to the trampoline; there, the word that the trampoline
    loads relative to the link register is exactly the replacement, r5 holds the
    caller's return address, r5 and r6 are saved below the stack pointer, and no
    other register has changed. Only bytes of the function's window change. *)
Theorem C27_redirection_exact : forall T m f off g stale,
  0 <= T < 2 ^ 64 -> T mod 4 = 0 -> 52 <= f -> f + off + 4 <= 2 ^ 64 -> 0 <= g < 2 ^ 64 ->
  ppc_livepatchable m f off ->
  exists q m',
    ppc_patch_addr T m (empty_queue stale, 0) f g true = ((q, 0), 0) /\
    insnq_interpret_from_process env_ok true q (mk_tgt m []) = Some (0, insnq_reset q, mk_tgt m' []) /\
    (forall x, ~ ppc_window f off x -> m' x = m x) /\
    forall regs lr ctr,
      16 <= regs 1 < 2 ^ 64 -> (regs 1 <= f - 52 \/ f + off + 4 <= regs 1 - 16) ->
      exists regs' lr' trail m'',
        runs (mk_cpu (f + off) regs lr ctr m') trail (mk_cpu T regs' lr' T m'') /\
        (exists t, trail = (f + off) :: (f - 52) :: t) /\
        (forall a, In a trail -> ppc_window f off a) /\
        le_dec (mem_read m'' (lr' + 4) 8) = g /\
        regs' 12 = T /\ regs' 5 = lr /\ (forall r, r <> 5 -> r <> 12 -> regs' r = regs r) /\
        mem_read m'' (regs 1 - 8) 8 = le_enc 8 (regs 5) /\
        mem_read m'' (regs 1 - 16) 8 = le_enc 8 (regs 6) /\
        (forall x, ~ (regs 1 - 16 <= x < regs 1) -> m'' x = m' x).
Proof.
  intros T m f off g stale HT HTa Hf1 Hf2 Hg HL.
  assert (Ho : off = 0 \/ off = 8) by (destruct HL as [_ [[-> _]|[-> _]]]; auto).
  destruct (requests_run [ppc_area_req T f g; ppc_branch_req f off] stale m) as (q & E & _ & R).
  { constructor; [apply area_req_ok|]. constructor; [apply word_req_ok|constructor]. }
  { vm_compute. discriminate. }
  exists q. eexists. rewrite ppc_patch_eq, (get_branch_offset_ok m f off HL).
  change (submit (submit (empty_queue stale, 0) (ppc_area_req T f g)) (ppc_branch_req f off))
    with (submit_all [ppc_area_req T f g; ppc_branch_req f off] (empty_queue stale, 0)).
  rewrite E. split; [reflexivity|]. split; [exact R|].
  cbn [perform_all fold_left perform ppc_area_req ppc_branch_req t_mem].
  rewrite (u64_range (f - 52)) by lia. rewrite (u64_range (f + off)) by lia.
  set (area := concat (map (le_enc 4) (ulp_prologue_words T)) ++ le_enc 8 g).
  set (br := le_enc 4 (branch_word (f + off) (f - 52))).
  assert (La : zlen area = 52) by reflexivity. assert (Lb : zlen br = 4) by reflexivity.
  split.
  { intros x Hx. unfold ppc_window in Hx. rewrite !mem_write_out by lia. reflexivity. }
  intros regs lr ctr H1 HS.
  set (m' := mem_write (mem_write m (f - 52) area) (f + off) br).
  assert (HR : ppc_redir T m' f off g).
  { split.
    - unfold word_at, m'. change 4%nat with (length br). rewrite mem_read_write_same.
      apply le_dec_enc_id. apply branch_word_range.
    - unfold m'. rewrite mem_read_write_out by (change (Z.of_nat 52) with 52; lia).
      change 52%nat with (length area). apply mem_read_write_same. }
  destruct (redir_runs T m' f off g regs lr ctr HT HTa Ho Hf1 Hf2 HR H1 ltac:(lia)) as (g' & trail & Hrun & Hhd & Htr & H12 & H5 & Hr).
  set (m2 := mem_write _ _ _) in Hrun. exists g', (f - 12), trail, m2.
  assert (L8 : forall v, zlen (le_enc 8 v) = 8) by reflexivity.
  split; [exact Hrun|]. split; [exact Hhd|]. split; [exact Htr|]. split.
  { unfold m2. rewrite !mem_read_write_out by (rewrite L8; change (Z.of_nat 8) with 8; lia).
    destruct HR as [_ HP]. apply (tail_at m' (f - 52) (ulp_prologue_words T) (le_enc 8 g)) in HP. change (4 * zlen (ulp_prologue_words T)) with 44 in HP.
    change (length (le_enc 8 g)) with 8%nat in HP. replace (f - 12 + 4) with (f - 52 + 44) by lia. rewrite HP.
    apply le_dec_enc_id. exact Hg. }
  split; [exact H12|]. split; [exact H5|]. split; [exact Hr|]. split; [|split].
  - unfold m2. rewrite mem_read_write_out by (rewrite L8; change (Z.of_nat 8) with 8; lia).
    change 8%nat with (length (le_enc 8 (regs 5))). apply mem_read_write_same.
  - unfold m2. change 8%nat with (length (le_enc 8 (regs 6))) at 1. apply mem_read_write_same.
  - intros x Hx. unfold m2. rewrite !mem_write_out by (rewrite L8; lia). reflexivity.
Qed.
Print Assumptions C27_redirection_exact.

(** Removing: the patchable instruction is a nop again, execution falls through to
    the body with every register as it was, and only the four bytes of that
    instruction change. *)
Theorem C27_removal_exact : forall T m f off stale,
  52 <= f -> f + off + 4 < 2 ^ 64 -> ppc_livepatchable m f off ->
  exists q m',
    ppc_patch_addr T m (empty_queue stale, 0) f 0 false = ((q, 0), 0) /\
    insnq_interpret_from_process env_ok true q (mk_tgt m []) = Some (0, insnq_reset q, mk_tgt m' []) /\
    (forall x, ~ (f + off <= x < f + off + 4) -> m' x = m x) /\
    word_at m' (f + off) = NOP_WORD /\
    forall regs lr ctr, exists regs',
      runs (mk_cpu (f + off) regs lr ctr m') [f + off] (mk_cpu (f + off + 4) regs' lr ctr m') /\
      forall r, regs' r = regs r.
Proof.
  intros T m f off stale Hf1 Hf2 HL.
  assert (Ho : off = 0 \/ off = 8) by (destruct HL as [_ [[-> _]|[-> _]]]; auto).
  destruct (requests_run [ppc_nop_req f off] stale m) as (q & E & _ & R).
  { constructor; [apply word_req_ok|constructor]. }
  { vm_compute. discriminate. }
  exists q. eexists. rewrite ppc_skip_eq, (get_branch_offset_ok m f off HL).
  change (submit (empty_queue stale, 0) (ppc_nop_req f off)) with (submit_all [ppc_nop_req f off] (empty_queue stale, 0)).
  rewrite E. split; [reflexivity|]. split; [exact R|].
  cbn [perform_all fold_left perform ppc_nop_req t_mem]. rewrite (u64_range (f + off)) by lia.
  assert (W : word_at (mem_write m (f + off) (le_enc 4 NOP_WORD)) (f + off) = NOP_WORD).
  { unfold word_at. change 4%nat with (length (le_enc 4 NOP_WORD)) at 1. rewrite mem_read_write_same. reflexivity. }
  split; [|split; [exact W|]].
  - intros x Hx. rewrite mem_write_out; [reflexivity|]. change (zlen (le_enc 4 NOP_WORD)) with 4. lia.
  - intros regs lr ctr. eexists. split.
    + eapply runs_step with (c := mk_cpu _ _ _ _ _). { apply step_nop. exact W. }
      rewrite u64_range by lia. apply runs_here.
    + intros r. unfold gset. rewrite Z.lor_0_r. destruct (Z.eqb_spec r 0) as [->|]; reflexivity.
Qed.
Print Assumptions C27_removal_exact.

(** A function whose entry is not patchable is refused with the error for that,
    and its entry is not touched. Missing: the area in front of it, see below. *)
Theorem C27_unpatchable_refused_partial : forall T m f g stale,
  (forall x, is_byte (m x)) -> ~ slot_ok m f 0 -> ~ slot_ok m f 8 ->
  ppc_patch_addr T m (empty_queue stale, 0) f g false = ((empty_queue stale, 0), PPC_ENOPATCHABLE) /\
  snd (ppc_patch_addr T m (empty_queue stale, 0) f g true) = PPC_ENOPATCHABLE.
Proof.
  intros T m f g stale Hb H0 H8. rewrite ppc_skip_eq, ppc_patch_eq, get_branch_offset_none by assumption. split; reflexivity.
Qed.
Print Assumptions C27_unpatchable_refused_partial.

(** The refusal comes after the request to overwrite the 52 bytes in front of the
    function: when the queue is carried out, whatever code was there is lost. *)
Theorem C27_refused_overwrites_refuted : forall T m f g stale,
  (forall x, is_byte (m x)) -> 52 <= f < 2 ^ 64 -> ~ slot_ok m f 0 -> ~ slot_ok m f 8 ->
  exists q m',
    ppc_patch_addr T m (empty_queue stale, 0) f g true = ((q, 0), PPC_ENOPATCHABLE) /\
    insnq_interpret_from_process env_ok true q (mk_tgt m []) = Some (0, insnq_reset q, mk_tgt m' []) /\
    mem_read m' (f - 52) 4 = [248; 255; 161; 248] /\ mem_read m' (f - 8) 8 = le_enc 8 g.
Proof.
  intros T m f g stale Hb Hf H0 H8.
  destruct (requests_run [ppc_area_req T f g] stale m) as (q & E & _ & R).
  { constructor; [apply area_req_ok|constructor]. }
  { vm_compute. discriminate. }
  exists q. eexists. rewrite ppc_patch_eq, get_branch_offset_none by assumption.
  change (submit (empty_queue stale, 0) (ppc_area_req T f g)) with (submit_all [ppc_area_req T f g] (empty_queue stale, 0)).
  rewrite E. split; [reflexivity|]. split; [exact R|].
  cbn [perform_all fold_left perform ppc_area_req t_mem]. rewrite (u64_range (f - 52)) by lia.
  set (area := concat (map (le_enc 4) (ulp_prologue_words T)) ++ le_enc 8 g).
  assert (HP : mem_read (mem_write m (f - 52) area) (f - 52) 52 = area).
  { change 52%nat with (length area). apply mem_read_write_same. }
  split.
  - apply (f_equal (firstn 4)) in HP. change 52%nat with (4 + 48)%nat in HP. rewrite mem_read_app in HP.
    change (firstn 4 area) with [248; 255; 161; 248] in HP. rewrite <- HP.
    set (l := mem_read _ _ 4). change 4%nat with (length l) at 1. symmetry. apply firstn_app_exact.
  - apply (tail_at _ (f - 52) (ulp_prologue_words T) (le_enc 8 g)) in HP. change (4 * zlen (ulp_prologue_words T)) with 44 in HP.
    replace (f - 8) with (f - 52 + 44) by lia. exact HP.
Qed.
Print Assumptions C27_refused_overwrites_refuted.

(** ** Cases *)
(** A function at 4096 with a nop at its entry, one at 8192 with TOC setup
    (addis r2,r12; addi r2,r2) and a nop, one at 12288 that is not patchable. *)
Definition ppc_ex : mem :=
  mem_write (mem_write (fun _ => 0) 4096 gNop) 8192 (le_enc 4 1013710848 ++ le_enc 4 943849472 ++ gNop).

Lemma ppc_ex_bytes x : is_byte (ppc_ex x).
Proof.
  assert (G : bytes_ok gNop) by (repeat (apply Forall_cons; [unfold is_byte; lia|]); apply Forall_nil).
  unfold ppc_ex. apply mem_write_bytes; [intros y; apply mem_write_bytes; [intros z; unfold is_byte; lia|exact G]|].
  apply bytes_ok_app. split; [apply le_enc_bytes|]. apply bytes_ok_app. split; [apply le_enc_bytes|exact G].
Qed.

Example C27_case : ppc_livepatchable ppc_ex 4096 0 /\ ppc_livepatchable ppc_ex 8192 8 /\
  ~ slot_ok ppc_ex 12288 0 /\ ~ slot_ok ppc_ex 12288 8.
Proof.
  split; [|split; [|split]].
  - split; [exact ppc_ex_bytes|]. left. split; [reflexivity|]. left. vm_compute. reflexivity.
  - split; [exact ppc_ex_bytes|]. right. split; [reflexivity|]. split.
    + intros [H|H]; vm_compute in H; discriminate.
    + left. vm_compute. reflexivity.
  - intros [H|H]; vm_compute in H; discriminate.
  - intros [H|H]; vm_compute in H; discriminate.
Qed.

(** The code placed, decoded and run on a concrete trampoline address. *)
Fixpoint ppc_steps (n : nat) (c : cpu) : option cpu :=
  match n with O => Some c | S n => match ppc_step c with Some c1 => ppc_steps n c1 | None => None end end.
Example C27_decodes :
  let T := 18374403900871474944 in
  let m := mem_write (mem_write ppc_ex 8140 (prologue_for T 987654321)) 8200 (le_enc 4 (generate_branch_to_prologue (WITH_OFFSET 8))) in
  match ppc_steps 12 (mk_cpu 8200 (fun r => 1000000 + r) 77 88 m) with
  | Some c => c_pc c = T /\ c_ctr c = T /\ c_gpr c 12 = T /\ c_gpr c 5 = 77 /\
              le_dec (mem_read (c_mem c) (c_lr c + 4) 8) = 987654321
  | None => False
  end.
Proof. vm_compute. repeat split. Qed.
