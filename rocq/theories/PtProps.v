(** Property theorems about access to the target (C32, C33, C37, C38, C56). *)
From Coq Require Import String.
From Verif Require Import Base BaseFacts StrModel InsnQModel LibModel PtModel PtSpec PtProofs.

(** ** C37 *)

(** A successful write through ptrace changes exactly the given bytes, for every
    address, length, content and previous contents. *)
Theorem C37_ptrace_writes_exactly :
  forall ok m a buf m',
    byte_mem m -> bytes_ok buf -> 0 <= a < 2 ^ 64 -> a + zlen buf <= 2 ^ 64 ->
    write_bytes_ptrace ok m a buf = (0, m') ->
    mem_read m' a (List.length buf) = buf /\ mem_eq_out m m' a (zlen buf).
Proof.
  intros ok m a buf m' BM B A W H. apply write_bytes_ptrace_spec in H; try assumption.
  destruct H as (j & _ & M & J & _). rewrite (J eq_refl), firstn_all in M.
  split.
  - rewrite (mem_read_eq _ _ _ _ M). apply mem_read_write_same.
  - intros x X. rewrite M. symmetry. apply mem_write_out. exact X.
Qed.
Print Assumptions C37_ptrace_writes_exactly.

(** It succeeds if the words holding the bytes are accessible. *)
Theorem C37_ptrace_succeeds :
  forall ok m a buf,
    byte_mem m -> bytes_ok buf -> 0 <= a < 2 ^ 64 ->
    accessible ok a ((zlen buf + 7) / 8 * 8) -> a + (zlen buf + 7) / 8 * 8 <= 2 ^ 64 ->
    exists m', write_bytes_ptrace ok m a buf = (0, m').
Proof.
  intros ok m a buf BM B A AC W. destruct (write_bytes_ptrace ok m a buf) as [r m'] eqn:H.
  apply write_bytes_ptrace_spec in H; try assumption.
  - destruct H as (j & _ & _ & _ & _ & S). exists m'. rewrite S by assumption. reflexivity.
  - pose proof (Z.div_mod (zlen buf + 7) 8). pose proof (Z.mod_pos_bound (zlen buf + 7) 8). lia.
Qed.
Print Assumptions C37_ptrace_succeeds.

(** When it fails, an initial part of the bytes has been written and nothing else. *)
Theorem C37_ptrace_failure :
  forall ok m a buf r m',
    byte_mem m -> bytes_ok buf -> 0 <= a < 2 ^ 64 -> a + zlen buf <= 2 ^ 64 ->
    write_bytes_ptrace ok m a buf = (r, m') -> r <> 0 ->
    r = 1 /\ exists j, (j <= List.length buf)%nat /\
      mem_read m' a j = firstn j buf /\ mem_eq_out m m' a (Z.of_nat j).
Proof.
  intros ok m a buf r m' BM B A W H NZ. apply write_bytes_ptrace_spec in H; try assumption.
  destruct H as (j & JL & M & _ & R & _). split; [tauto|]. exists j. split; [exact JL|].
  assert (FL : List.length (firstn j buf) = j) by (rewrite firstn_length; lia).
  split.
  - rewrite (mem_read_eq _ _ _ _ M). rewrite <- FL at 2. apply mem_read_write_same.
  - intros x X. rewrite M. symmetry. apply mem_write_out. unfold zlen. rewrite FL. exact X.
Qed.
Print Assumptions C37_ptrace_failure.

(** A thirteen-byte write: one whole word and a remainder of five bytes. *)
Example C37_ptrace_case :
  let m := fun x => x mod 256 in
  let r := write_bytes_ptrace (fun x => x <? 4096) m 4003 (zs "hello, world!") in
  fst r = 0 /\ mem_read (snd r) 4000 20 = mem_read m 4000 3 ++ zs "hello, world!" ++ mem_read m 4016 4.
Proof. vm_compute. split; reflexivity. Qed.

(** A write through process_vm_writev is exact as well if all bytes are
    accessible. *)
Theorem C37_vm_writes_exactly_partial :
  forall fuel ok m a buf,
    accessible ok a (zlen buf) -> zlen buf < 2 ^ 64 -> (0 < fuel)%nat ->
    exists m', write_bytes fuel ok m a buf = Some (0, m') /\
      mem_read m' a (List.length buf) = buf /\ mem_eq_out m m' a (zlen buf).
Proof.
  intros fuel ok m a buf AC W F. exists (mem_write m a buf). split; [apply vm_write_full; assumption|].
  split; [apply mem_read_write_same|]. intros x X. symmetry. apply mem_write_out. exact X.
Qed.
Print Assumptions C37_vm_writes_exactly_partial.

(** Whatever happens, it writes nowhere else. *)
Theorem C37_vm_writes_nowhere_else :
  forall fuel ok m a buf r m',
    write_bytes fuel ok m a buf = Some (r, m') -> mem_eq_out m m' a (zlen buf).
Proof. intros fuel ok m a buf r m' H. eapply vm_write_out. exact H. Qed.
Print Assumptions C37_vm_writes_nowhere_else.

(** Finding: if only part of the range is accessible, process_vm_writev answers
    with a partial count, and the loop starts again from the beginning of the
    buffer instead of continuing: here the write reports success although the
    second half was never written. *)
Theorem C37_vm_partial_transfer_refuted :
  exists ok m a buf m',
    byte_mem m /\ bytes_ok buf /\ 0 <= a /\ a + zlen buf <= 2 ^ 64 /\
    write_bytes 2 ok m a buf = Some (0, m') /\ mem_read m' a (List.length buf) <> buf.
Proof.
  exists (fun x => x <? 4096), (fun _ => 0), 4092, [1; 2; 3; 4; 5; 6; 7; 8].
  eexists. split; [intros x; unfold is_byte; lia|].
  split; [repeat constructor; unfold is_byte; lia|]. split; [lia|]. split; [vm_compute; discriminate|].
  split; [reflexivity|]. vm_compute. discriminate.
Qed.
Print Assumptions C37_vm_partial_transfer_refuted.

(** Handing a patch (or a library name) to libpulp stays within libpulp's buffer
    and, when it answers success, has stored exactly the given bytes. *)
Theorem C37_metadata_fits :
  forall fuel ok m buf md r m',
    set_metadata_buffer fuel ok m buf md = Some (r, m') ->
    mem_eq_out m m' buf ULP_METADATA_BUF_LEN /\
    (r = 0 -> zlen md < ULP_METADATA_BUF_LEN) /\
    (r = 0 -> accessible ok buf ULP_METADATA_BUF_LEN -> mem_read m' buf (List.length md) = md).
Proof.
  intros fuel ok m buf md r m' H. unfold set_metadata_buffer in H.
  destruct (Z.leb_spec ULP_METADATA_BUF_LEN (zlen md)) as [L|L].
  - apply Some_inj in H. injection H as <- <-. split; [intros x X; reflexivity|].
    split; intros E; discriminate.
  - destruct (write_bytes fuel ok m buf md) as [[r1 m1]|] eqn:WB; [|discriminate].
    pose proof (vm_write_out _ _ _ _ _ _ _ _ WB) as O.
    assert (m' = m1) by (destruct (negb _); apply Some_inj in H; congruence). subst m1.
    split; [|split; [intros _; exact L|]].
    + intros x X. apply O. intros Y. apply X. unfold ULP_METADATA_BUF_LEN in *. lia.
    + intros E AC. destruct fuel as [|f]; [discriminate|].
      rewrite vm_write_full in WB; [|intros x X; apply AC; lia|unfold ULP_METADATA_BUF_LEN in L; lia|lia].
      apply Some_inj in WB. injection WB as _ <-. apply mem_read_write_same.
Qed.
Print Assumptions C37_metadata_fits.

Example C37_metadata_case :
  exists m', set_metadata_buffer 1 (fun _ => true) (fun _ => 7) 4096 (zs "patch") = Some (0, m') /\
    mem_read m' 4095 7 = 7 :: zs "patch" ++ [7].
Proof. eexists. split; [reflexivity|]. vm_compute. reflexivity. Qed.

(** ** C38 *)

(** The word test finds a zero byte exactly if there is one, in all 2^64 words. *)
Theorem C38_zero_byte_test :
  forall l, 0 <= l < 2 ^ 64 ->
    (hasbytezero l = true <-> exists i, 0 <= i < 8 /\ (l / 256 ^ i) mod 256 = 0).
Proof.
  intros l L.
  assert (E : le_dec (le_enc 8 l) = l) by (apply le_dec_enc_id; exact L).
  pose proof (hasbytezero_spec (le_enc 8 l) (le_enc_bytes 8 l) (le_enc_length 8 l)) as H. rewrite E in H.
  assert (D : le_enc 8 l = [l / 256 ^ 0 mod 256; l / 256 ^ 1 mod 256; l / 256 ^ 2 mod 256; l / 256 ^ 3 mod 256;
                            l / 256 ^ 4 mod 256; l / 256 ^ 5 mod 256; l / 256 ^ 6 mod 256; l / 256 ^ 7 mod 256]).
  { cbn [le_enc]. rewrite !Z.div_div by lia. rewrite Z.pow_0_r, Z.div_1_r. reflexivity. }
  rewrite D in H. clear D E. split.
  - intros T. rewrite T in H.
    assert (N : ~ Forall (fun b => b <> 0)
         [l / 256 ^ 0 mod 256; l / 256 ^ 1 mod 256; l / 256 ^ 2 mod 256; l / 256 ^ 3 mod 256;
          l / 256 ^ 4 mod 256; l / 256 ^ 5 mod 256; l / 256 ^ 6 mod 256; l / 256 ^ 7 mod 256]).
    { intros F. apply H in F. discriminate. }
    destruct (Z.eq_dec (l / 256 ^ 0 mod 256) 0); [exists 0; lia|].
    destruct (Z.eq_dec (l / 256 ^ 1 mod 256) 0); [exists 1; lia|].
    destruct (Z.eq_dec (l / 256 ^ 2 mod 256) 0); [exists 2; lia|].
    destruct (Z.eq_dec (l / 256 ^ 3 mod 256) 0); [exists 3; lia|].
    destruct (Z.eq_dec (l / 256 ^ 4 mod 256) 0); [exists 4; lia|].
    destruct (Z.eq_dec (l / 256 ^ 5 mod 256) 0); [exists 5; lia|].
    destruct (Z.eq_dec (l / 256 ^ 6 mod 256) 0); [exists 6; lia|].
    destruct (Z.eq_dec (l / 256 ^ 7 mod 256) 0); [exists 7; lia|].
    exfalso. apply N. repeat constructor; assumption.
  - intros (i & I & Z0). destruct (hasbytezero l); [reflexivity|].
    destruct H as [H _]. specialize (H eq_refl). rewrite Forall_forall in H. exfalso.
    apply (H (l / 256 ^ i mod 256)); [|exact Z0].
    assert (C : i = 0 \/ i = 1 \/ i = 2 \/ i = 3 \/ i = 4 \/ i = 5 \/ i = 6 \/ i = 7) by lia.
    cbn [In]. destruct C as [->|[->|[->|[->|[->|[->|[->| ->]]]]]]]; tauto.
Qed.
Print Assumptions C38_zero_byte_test.

(** A string is read exactly, whatever its length and alignment, if the words that
    hold it and its terminator are accessible. *)
Theorem C38_string_partial :
  forall sf rf ok m junk a s,
    string_at m a s -> byte_mem m -> List.length junk = 8%nat ->
    (List.length s / 8 < sf)%nat -> (0 < rf)%nat ->
    0 <= a -> a + zlen s < 2 ^ 64 -> accessible ok a (8 * (zlen s / 8 + 1)) ->
    exists buf, read_string sf rf ok m junk a = RsOk buf /\ buffer_is buf s.
Proof.
  intros sf rf ok m junk a s SA BM JL SF RF A W AC.
  destruct (rs_loop_spec (List.length s / 8) sf rf ok m junk a [] 8 s) as (rest & E);
    try assumption; try reflexivity; try (cbn; lia).
  eexists. split; [exact E|]. split; [apply SA|]. exists rest. reflexivity.
Qed.
Print Assumptions C38_string_partial.

(** Reading never writes outside the allocated buffer, whatever the target
    contains. *)
Theorem C38_no_overflow :
  forall sf rf ok m junk a, List.length junk = 8%nat -> read_string sf rf ok m junk a <> RsOob.
Proof. intros. apply rs_no_oob; [assumption|reflexivity|change (zlen (@nil Z) / 8) with 0; lia|lia]. Qed.
Print Assumptions C38_no_overflow.

(** Reading into a given buffer: a string that fits is read with its terminator;
    of a longer one exactly the first bytes are. *)
Theorem C38_buffer_partial :
  forall fuel ok m junk a buf s,
    string_at m a s -> byte_mem m -> List.length junk = 8%nat -> (0 < fuel)%nat ->
    0 <= a -> a + zlen s < 2 ^ 64 -> accessible ok a (8 * (zlen s / 8 + 1)) ->
    exists buf', read_string_allocated fuel ok m junk a buf = Some (0, buf') /\
      List.length buf' = List.length buf /\
      (zlen s < zlen buf -> buffer_is buf' s) /\
      (zlen buf <= zlen s -> buf' = firstn (List.length buf) s).
Proof.
  intros fuel ok m junk a buf s SA BM JL F A W AC.
  assert (L : (List.length buf = 8 * Z.to_nat (zlen buf / 8) + List.length buf mod 8)%nat).
  { unfold zlen. change (Z.of_nat (List.length buf) / 8) with (Z.of_nat (List.length buf) / Z.of_nat 8). rewrite <- Nat2Z.inj_div, Nat2Z.id. apply Nat.div_mod. lia. }
  destruct (rsa_spec (Z.to_nat (zlen buf / 8)) fuel ok m junk a buf s) as (b' & E & X & Y); try assumption.
  exists b'. split; [exact E|]. split; [eapply rsa_length; eassumption|]. split; intros LS.
  - split; [apply SA|]. apply X. unfold zlen in LS. lia.
  - apply Y. unfold zlen in LS. lia.
Qed.
Print Assumptions C38_buffer_partial.

(** The buffer is never left, whatever the target contains. *)
Theorem C38_buffer_bounds :
  forall fuel ok m junk a buf r buf',
    List.length junk = 8%nat ->
    read_string_allocated fuel ok m junk a buf = Some (r, buf') -> List.length buf' = List.length buf.
Proof.
  intros fuel ok m junk a buf r buf' JL E. eapply rsa_length; [exact E|exact JL|].
  unfold zlen. change (Z.of_nat (List.length buf) / 8) with (Z.of_nat (List.length buf) / Z.of_nat 8). rewrite <- Nat2Z.inj_div, Nat2Z.id. apply Nat.div_mod. lia.
Qed.
Print Assumptions C38_buffer_bounds.

Definition ex_mem (a : Z) (s : list Z) : mem := mem_write (fun _ => 0) a s.
Example C38_case :
  string_at (ex_mem 4003 (zs "/usr/lib64/libpulp.so.0")) 4003 (zs "/usr/lib64/libpulp.so.0") /\
  read_string 4 1 (fun x => x <? 4096) (ex_mem 4003 (zs "/usr/lib64/libpulp.so.0")) [9;9;9;9;9;9;9;9] 4003 =
    RsOk (zs "/usr/lib64/libpulp.so.0" ++ [0]).
Proof.
  split; [|vm_compute; reflexivity].
  split; [|vm_compute; split; reflexivity]. repeat constructor.
Qed.

(** Finding: a string whose terminator is followed, within the same word, by an
    inaccessible page can make the tool loop: process_vm_readv answers 3 again and
    again, and the sum of the answers misses 8. For more than 2^60 repetitions
    nothing is returned. *)
Theorem C38_end_of_mapping_refuted :
  exists ok m junk a s,
    string_at m a s /\ byte_mem m /\ List.length junk = 8%nat /\
    accessible ok a (zlen s + 1) /\
    forall sf rf, Z.of_nat rf < 2 ^ 60 -> read_string sf rf ok m junk a = RsHang.
Proof.
  exists (fun x => x <? 4096), (ex_mem 4093 [97; 98]), [0;0;0;0;0;0;0;0], 4093, [97; 98].
  split; [split; [repeat constructor; unfold is_cchar; lia|split; reflexivity]|].
  split; [intros x; apply mem_write_bytes; [intros y; unfold is_byte; lia|repeat constructor; unfold is_byte; lia]|].
  split; [reflexivity|]. split; [intros x X; change (zlen [97; 98]) with 2 in X; lia|].
  intros sf rf RF. destruct sf as [|sf]; [reflexivity|]. unfold read_string. cbn [read_string_loop].
  change (8 <=? zlen (@nil Z) / 8) with false. cbn iota.
  unfold read_long, read_memory. rewrite vm_read_stuck; [reflexivity|vm_compute; reflexivity|].
  intros i I. change (Z.of_nat (vm_span (fun x => x <? 4096) 4093 (List.length [0;0;0;0;0;0;0;0]))) with 3.
  change (zlen [0;0;0;0;0;0;0;0]) with 8. unfold u64. rewrite Z.mod_small by lia. lia.
Qed.
Print Assumptions C38_end_of_mapping_refuted.

(** Finding: reading a range of which only the first half is accessible reports
    success; the second half of the buffer keeps what it contained before. *)
Theorem C38_partial_read_refuted :
  exists ok m a, forall junk, List.length junk = 8%nat ->
    read_memory 2 ok m a junk = Some (0, [1; 2; 3; 4] ++ skipn 4 junk).
Proof.
  exists (fun x => x <? 4096), (ex_mem 4092 [1; 2; 3; 4; 5; 6; 7; 8]), 4092.
  intros junk L. do 8 (destruct junk as [|? junk]; [discriminate|]). destruct junk; [|discriminate].
  cbn [skipn app]. reflexivity.
Qed.
Print Assumptions C38_partial_read_refuted.

(** ** C33 *)

(** The routine's stack pointer is a multiple of 64 and lies below the interrupted
    one by at least the red zone and less than the red zone plus 64 (modulo 2^64
    for a stack pointer smaller than the red zone). *)
Theorem C33_stack :
  forall ar r routine,
    ar = x86_64 \/ ar = ppc64le -> 0 <= g_sp r < 2 ^ 64 ->
    let sp' := g_sp (redirect ar r routine) in
    0 <= sp' < 2 ^ 64 /\ sp' mod 64 = 0 /\
    red_zone ar <= (g_sp r - sp') mod 2 ^ 64 < red_zone ar + 64 /\
    (red_zone ar <= g_sp r -> sp' + red_zone ar <= g_sp r).
Proof.
  intros ar r routine AR SP. cbv zeta. unfold redirect. cbn [g_sp].
  assert (RZ : red_zone ar = 128 \/ red_zone ar = 512) by (destruct AR as [-> | ->]; cbn; auto).
  set (z := red_zone ar) in *. clearbody z. clear AR ar.
  pose proof (Z.mod_pos_bound (g_sp r - z) (2 ^ 64) ltac:(lia)) as B. fold (u64 (g_sp r - z)) in B.
  rewrite align64 by exact B.
  assert (U : u64 (g_sp r - z) = if z <=? g_sp r then g_sp r - z else g_sp r - z + 2 ^ 64).
  { unfold u64. destruct (Z.leb_spec z (g_sp r)).
    - apply Z.mod_small. lia.
    - rewrite <- (Z.mod_add _ 1) by lia. rewrite Z.mul_1_l. apply Z.mod_small. lia. }
  set (v := u64 (g_sp r - z)) in *. clearbody v.
  pose proof (Z.div_mod v 64 ltac:(lia)) as D. pose proof (Z.mod_pos_bound v 64 ltac:(lia)) as DM.
  split; [lia|]. split; [rewrite Z.mul_comm; apply Z.mod_mul; lia|].
  destruct (Z.leb_spec z (g_sp r)).
  - split; [|lia]. rewrite Z.mod_small by lia. lia.
  - split; [|lia]. rewrite <- (Z.mod_add _ 1) by lia. rewrite Z.mod_small by lia. lia.
Qed.
Print Assumptions C33_stack.

(** The routine starts at its first instruction or, if the kernel restarts an
    interrupted system call, at the no-ops in front of it, that is, at the address
    of the symbol. *)
Theorem C33_entry :
  forall ar r routine, 0 <= routine < 2 ^ 64 ->
    g_pc (redirect ar r routine) = u64 (routine + restart_size ar) /\
    u64 (g_pc (redirect ar r routine) - restart_size ar) = routine.
Proof.
  intros ar r routine B. split; [reflexivity|]. unfold redirect. cbn [g_pc]. unfold u64.
  rewrite Zminus_mod_idemp_l. replace (routine + restart_size ar - restart_size ar) with routine by lia.
  apply Z.mod_small. exact B.
Qed.
Print Assumptions C33_entry.

Definition ex_regs (n : Z) : regs := mk_regs (4096 + n) (0x7fff00001237 + n) n 0 [n; n + 1; n + 2].
Example C33_case :
  g_sp (redirect x86_64 (ex_regs 0) 0x7f0000001000) = 0x7fff00001180 /\
  g_sp (redirect ppc64le (ex_regs 0) 0x7f0000001000) = 0x7fff00001000 /\
  g_pc (redirect x86_64 (ex_regs 0) 0x7f0000001000) = 0x7f0000001002.
Proof. vm_compute. repeat split. Qed.

(** ** C32 *)

(** If releasing the threads reports no error then every thread runs with the
    general purpose registers it had when it was stopped, whatever routines were
    run in between and whatever they did. *)
Theorem C32_registers_restored_partial :
  forall ar main us ks l set_ok det_ok ks',
    all_hijacked us ks ->
    restore_threads set_ok det_ok us (run_routines ar main us ks l) 0 = (0, ks') ->
    map k_tid ks' = map k_tid ks /\
    forall k', In k' ks' -> exists k, In k ks /\ same_regs k k' /\ k_stopped k' = false.
Proof.
  intros ar main us ks l set_ok det_ok ks' (N & NU & T & S & C) H.
  assert (TT : map k_tid (run_routines ar main us ks l) = map k_tid ks) by (apply run_routines_tids; exact N).
  split.
  { pose proof (restore_tids set_ok det_ok us (run_routines ar main us ks l) 0) as R. rewrite H in R. cbn [snd] in R.
    congruence. }
  intros k' I. pose proof (restore_spec set_ok det_ok us _ ks' ltac:(rewrite TT; exact N) NU H k' I) as (k1 & I1 & E1 & _ & R & _).
  assert (IT : In (k_tid k1) (map k_tid ks)) by (rewrite <- TT; apply in_map; exact I1).
  apply in_map_iff in IT as IT'. destruct IT' as (k & EK & IK).
  apply T in IT. apply in_map_iff in IT. destruct IT as (u & EU & IU).
  exists k. split; [exact IK|].
  destruct (R u IU EU) as (RU & RS). split; [|exact RS].
  split; [congruence|]. rewrite RU. symmetry. apply C; [exact IK|exact IU|congruence].
Qed.
Print Assumptions C32_registers_restored_partial.

(** Threads other than the main one are not even touched before they are released. *)
Theorem C32_others_untouched :
  forall ar main us ks l k,
    In k (run_routines ar main us ks l) -> k_tid k <> main -> In k ks.
Proof. intros. eapply run_routines_others; eauto. Qed.
Print Assumptions C32_others_untouched.

Definition ex_ks : list kthread :=
  [mk_kthread 10 (ex_regs 1) [7] true; mk_kthread 11 (ex_regs 2) [8] true].
Definition ex_us : list uthread := [mk_uthread 11 (ex_regs 2); mk_uthread 10 (ex_regs 1)].
Definition ex_env (status : Z) : rr_env := mk_rr_env true true [WNothing; WStatus status] true (ex_regs 77) [99].
Lemma ex_hijacked : all_hijacked ex_us ex_ks.
Proof.
  split; [repeat constructor; cbn; intuition discriminate|].
  split; [repeat constructor; cbn; intuition discriminate|].
  split; [cbn; intros tid; tauto|]. split; cbn.
  - intros k [<-|[<-|[]]]; reflexivity.
  - intros k u [<-|[<-|[]]] [<-|[<-|[]]]; cbn; intros E; try discriminate; reflexivity.
Qed.
Example C32_case :
  all_hijacked ex_us ex_ks /\
  restore_threads (fun _ => true) (fun _ => true) ex_us
    (run_routines x86_64 10 ex_us ex_ks [(0x7f0000001000, ex_env 0x057f); (0x7f0000002000, ex_env 0x057f)]) 0 =
    (0, [mk_kthread 10 (ex_regs 1) [99] false; mk_kthread 11 (ex_regs 2) [8] false]).
Proof. split; [apply ex_hijacked|vm_compute; reflexivity]. Qed.

(** Finding: the floating point and vector registers are neither saved nor
    restored; whatever libpulp's code leaves in them is what the interrupted
    program continues with. *)
Theorem C32_vector_registers_refuted :
  exists ar main us ks l set_ok det_ok ks' k',
    all_hijacked us ks /\
    restore_threads set_ok det_ok us (run_routines ar main us ks l) 0 = (0, ks') /\
    In k' ks' /\ forall k, In k ks -> ~ same_vec k k'.
Proof.
  exists x86_64, 10, ex_us, ex_ks, [(0x7f0000001000, ex_env 0x057f)], (fun _ => true), (fun _ => true).
  eexists. exists (mk_kthread 10 (ex_regs 1) [99] false).
  split; [apply ex_hijacked|]. split; [vm_compute; reflexivity|]. split; [left; reflexivity|].
  intros k [<-|[<-|[]]]; intros (E1 & E2); cbn in E1, E2; discriminate.
Qed.
Print Assumptions C32_vector_registers_refuted.

(** Finding: after a timeout the main thread is not stopped, so that its registers
    cannot be set: it goes on running libpulp's code, and only an error is
    reported. *)
Theorem C32_timeout_refuted :
  exists ar main us ks l ks' k',
    all_hijacked us ks /\
    restore_threads (fun _ => true) (fun _ => true) us (run_routines ar main us ks l) 0 = (1, ks') /\
    In k' ks' /\ k_stopped k' = false /\ forall k, In k ks -> ~ same_regs k k'.
Proof.
  exists x86_64, 10, ex_us, ex_ks,
    [(0x7f0000001000, mk_rr_env true true [WNothing; WNothing] true (ex_regs 77) [7])].
  eexists. exists (mk_kthread 10 (ex_regs 77) [7] false).
  split; [apply ex_hijacked|]. split; [vm_compute; reflexivity|]. split; [left; reflexivity|].
  split; [reflexivity|]. intros k [<-|[<-|[]]]; intros (E1 & E2); cbn in E1, E2; discriminate.
Qed.
Print Assumptions C32_timeout_refuted.

(** ** C56 *)

(** Success means: the thread was started with the routine's registers, it stopped
    again, and the answer is taken from the registers it had then. *)
Theorem C56_answer_partial :
  forall ar e t ctx routine ctx' t',
    run_and_redirect ar e t ctx routine = (0, ctx', t') ->
    k_stopped t = true /\ k_stopped t' = true /\ ctx' = k_regs t' /\ k_tid t' = k_tid t /\
    exists l1 s l2, e_waits e = l1 ++ WStatus s :: l2 /\ WIFSTOPPED s = true /\
      forall w, In w l1 -> w <> WError /\ forall s', w = WStatus s' -> WIFEXITED s' = false /\ WIFSTOPPED s' = false.
Proof.
  intros ar e t ctx routine ctx' t' H. unfold run_and_redirect in H.
  destruct (e_setregs e); cbn [andb negb] in H; [|injection H; discriminate].
  destruct (k_stopped t) eqn:ST; cbn [andb negb] in H; [|injection H; discriminate].
  destruct (e_cont e); cbn [negb] in H; [|injection H; discriminate].
  assert (W : forall evs, match rr_wait evs with
            | inl c => c <> 0
            | inr s => exists l1 l2, evs = l1 ++ WStatus s :: l2 /\ WIFSTOPPED s = true /\
                 forall w, In w l1 -> w <> WError /\ forall s', w = WStatus s' -> WIFEXITED s' = false /\ WIFSTOPPED s' = false
            end).
  { induction evs as [|w evs IH]; cbn [rr_wait]; [discriminate|]. destruct w as [| | |s].
    - destruct (rr_wait evs); [exact IH|]. destruct IH as (l1 & l2 & -> & S1 & S2). exists (WNothing :: l1), l2.
      split; [reflexivity|]. split; [exact S1|]. intros w [<-|I]; [split; [discriminate|intros; discriminate]|auto].
    - discriminate.
    - destruct (rr_wait evs); [exact IH|]. destruct IH as (l1 & l2 & -> & S1 & S2). exists (WOther :: l1), l2.
      split; [reflexivity|]. split; [exact S1|]. intros w [<-|I]; [split; [discriminate|intros; discriminate]|auto].
    - destruct (WIFEXITED s) eqn:X; cbn [orb]; [discriminate|]. destruct (WCOREDUMP s); [discriminate|].
      destruct (WIFSTOPPED s) eqn:SS.
      + exists [], evs. split; [reflexivity|]. split; [exact SS|]. contradiction.
      + destruct (rr_wait evs); [exact IH|]. destruct IH as (l1 & l2 & -> & S1 & S2). exists (WStatus s :: l1), l2.
        split; [reflexivity|]. split; [exact S1|]. intros w [<-|I]; [|auto]. split; [discriminate|].
        intros s' E. injection E as <-. auto. }
  specialize (W (e_waits e)). destruct (rr_wait (e_waits e)) as [c|s].
  - injection H as H1 H2 H3. contradiction.
  - destruct (e_getregs e); cbn [negb] in H; [|injection H; discriminate].
    injection H as <- <-. cbn [k_stopped k_regs k_tid]. destruct W as (l1 & l2 & W).
    repeat split; try reflexivity. exists l1, s, l2. exact W.
Qed.
Print Assumptions C56_answer_partial.

Example C56_case :
  fst (fst (run_and_redirect x86_64 (ex_env 0x057f) (mk_kthread 10 (ex_regs 1) [7] true) (ex_regs 1) 0x7f0000001000)) = 0.
Proof. vm_compute. reflexivity. Qed.

(** Finding: the tool does not look at why the thread stopped. If any signal
    reaches it while the routine runs (SIGUSR1 here, status 0x0a7f) the tool takes
    the routine for finished: it reads an answer out of a register that holds
    anything, and restores the registers in the middle of the routine. *)
Theorem C56_signal_refuted :
  exists ar e t ctx routine ctx' t' s,
    run_and_redirect ar e t ctx routine = (0, ctx', t') /\
    e_waits e = [WNothing; WStatus s] /\ WSTOPSIG s <> SIGTRAP.
Proof.
  exists x86_64, (ex_env 0x0a7f), (mk_kthread 10 (ex_regs 1) [7] true), (ex_regs 1), 0x7f0000001000.
  eexists. eexists. exists 0x0a7f. split; [vm_compute; reflexivity|]. split; [reflexivity|]. vm_compute. discriminate.
Qed.
Print Assumptions C56_signal_refuted.

(** An answer of waitpid after which the tool waits on. *)
Definition waits_on (w : wait_ev) : Prop :=
  match w with
  | WNothing | WOther => True
  | WError => False
  | WStatus s => WIFEXITED s = false /\ WCOREDUMP s = false /\ WIFSTOPPED s = false
  end.

(** C56, exactly when an answer is taken: the registers could be set in a stopped thread, the thread could be started, the first
    answer of waitpid that ends the waiting says that the thread stopped (for whatever reason), and its registers could be read.
    The answer is then made of the registers the thread stopped with. In every other case an error is reported. *)
Theorem C56_exact :
  forall ar e t ctx routine,
    fst (fst (run_and_redirect ar e t ctx routine)) = 0 <->
    (e_setregs e = true /\ k_stopped t = true /\ e_cont e = true /\ e_getregs e = true /\
     exists l1 s l2, e_waits e = l1 ++ WStatus s :: l2 /\ Forall waits_on l1 /\ WIFSTOPPED s = true).
Proof.
  intros ar e t ctx routine. unfold run_and_redirect.
  assert (NE : forall s, WIFSTOPPED s = true -> WIFEXITED s = false /\ WCOREDUMP s = false).
  { intros s H. unfold WIFSTOPPED, WIFEXITED, WCOREDUMP in *. apply Z.eqb_eq in H.
    assert (A : Z.land s 127 = 127). { change 127 with (Z.land 255 127) at 1. rewrite Z.land_assoc, H. reflexivity. }
    assert (B : Z.land s 128 = 0). { change 128 with (Z.land 255 128) at 1. rewrite Z.land_assoc, H. reflexivity. }
    rewrite A, B. auto. }
  assert (W : forall evs, match rr_wait evs with
            | inl c => c <> 0 /\ ~ exists l1 s l2, evs = l1 ++ WStatus s :: l2 /\ Forall waits_on l1 /\ WIFSTOPPED s = true
            | inr _ => exists l1 s l2, evs = l1 ++ WStatus s :: l2 /\ Forall waits_on l1 /\ WIFSTOPPED s = true
            end).
  { assert (Step : forall w evs, waits_on w ->
      match rr_wait evs with
      | inl c => c <> 0 /\ ~ exists l1 s l2, evs = l1 ++ WStatus s :: l2 /\ Forall waits_on l1 /\ WIFSTOPPED s = true
      | inr _ => exists l1 s l2, evs = l1 ++ WStatus s :: l2 /\ Forall waits_on l1 /\ WIFSTOPPED s = true
      end ->
      match rr_wait evs with
      | inl c => c <> 0 /\ ~ exists l1 s l2, w :: evs = l1 ++ WStatus s :: l2 /\ Forall waits_on l1 /\ WIFSTOPPED s = true
      | inr _ => exists l1 s l2, w :: evs = l1 ++ WStatus s :: l2 /\ Forall waits_on l1 /\ WIFSTOPPED s = true
      end).
    { intros w evs Hw IH. destruct (rr_wait evs) as [c|s0].
      - destruct IH as [C N]. split; [exact C|]. intros (l1 & s & l2 & E & F & S1). apply N.
        destruct l1 as [|y l1]; cbn [app] in E; injection E as Ey Et.
        + subst w. destruct Hw as (_ & _ & X). congruence.
        + inversion F; subst. eauto 6.
      - destruct IH as (l1 & s & l2 & -> & F & S1). exists (w :: l1), s, l2. split; [reflexivity|]. split; [constructor; assumption|exact S1]. }
    assert (Stop : forall w evs c, c <> 0 -> ~ waits_on w -> (forall s, w = WStatus s -> WIFSTOPPED s = false) ->
      c <> 0 /\ ~ exists l1 s l2, w :: evs = l1 ++ WStatus s :: l2 /\ Forall waits_on l1 /\ WIFSTOPPED s = true).
    { intros w evs c Hc Hw Hs. split; [exact Hc|]. intros (l1 & s & l2 & E & F & S1).
      destruct l1 as [|y l1]; cbn [app] in E; injection E as Ey Et.
      - rewrite (Hs s Ey) in S1. discriminate.
      - inversion F; subst. contradiction. }
    induction evs as [|w evs IH]; cbn [rr_wait].
    { split; [discriminate|]. intros (l1 & s & l2 & E & _). destruct l1; discriminate E. }
    destruct w as [| | |s].
    - apply Step; [exact I|exact IH].
    - apply Stop; [discriminate|intros []|intros; discriminate].
    - apply Step; [exact I|exact IH].
    - destruct (WIFSTOPPED s) eqn:SS.
      + destruct (NE s SS) as [-> ->]. cbn [orb]. exists [], s, evs. split; [reflexivity|]. split; [constructor|exact SS].
      + destruct (WIFEXITED s) eqn:X; cbn [orb].
        { apply Stop; [discriminate|intros (Y & _); congruence|intros s' E; injection E as <-; exact SS]. }
        destruct (WCOREDUMP s) eqn:Y.
        { apply Stop; [discriminate|intros (_ & Z0 & _); congruence|intros s' E; injection E as <-; exact SS]. }
        apply Step; [split; [exact X|split; [exact Y|exact SS]]|exact IH]. }
  specialize (W (e_waits e)).
  destruct (e_setregs e); cbn [andb negb fst]; [|split; [discriminate|intros (X & _); discriminate]].
  destruct (k_stopped t); cbn [andb negb fst]; [|split; [discriminate|intros (_ & X & _); discriminate]].
  destruct (e_cont e); cbn [negb fst]; [|split; [discriminate|intros (_ & _ & X & _); discriminate]].
  destruct (rr_wait (e_waits e)) as [c|s]; cbn [fst].
  - destruct W as [C N]. split; [contradiction|]. intros (_ & _ & _ & _ & X). contradiction.
  - destruct (e_getregs e); cbn [negb fst]; [|split; [discriminate|intros (_ & _ & _ & X & _); discriminate]].
    split; [intros _|reflexivity]. repeat (split; [reflexivity|]). exact W.
Qed.
Print Assumptions C56_exact.
