(** Property theorems about redirection on x86_64 (C25, C26). *)
From Verif Require Import Base BaseFacts InsnQModel InsnQSpec InsnQProofs X86Model X86Spec X86Proofs.

Lemma livepatchable_endbr m e f : livepatchable m e f -> is_endbr64 m f = e.
Proof.
  intros [H _]. destruct e.
  - apply is_endbr64_iff. exact H.
  - destruct (is_endbr64 m f) eqn:E; [|reflexivity]. apply is_endbr64_iff in E. contradiction.
Qed.

Lemma livepatchable_looks m e f : livepatchable m e f -> looks_patchable m f = true.
Proof.
  intros H. pose proof (livepatchable_endbr _ _ _ H) as He. destruct H as [_ H].
  unfold looks_patchable. rewrite He. unfold slot in H.
  destruct e; destruct H as [[[H0 H1]|[H0 H1]]|H0]; try (rewrite H0, H1; reflexivity); rewrite H0; reflexivity.
Qed.

Lemma one_request r stale m :
  req_ok r -> req_size r <= INSN_BUFFER_MAX ->
  exists q, submit (empty_queue stale, 0) r = (q, 0) /\
    insnq_interpret_from_process env_ok true q (mk_tgt m []) =
      Some (0, insnq_reset q, perform (mk_tgt m []) r).
Proof.
  intros Hr Hs. rewrite submit_unfold.
  destruct (proj1 (try_insert_fits (empty_queue stale) r)) as [q Hq]; [cbn; lia|].
  rewrite Hq. exists q. split; [reflexivity|].
  pose proof (try_insert_inv _ _ _ _ (qinv_empty stale) Hr Hq) as Hi.
  apply (interpret_exact env_ok q [r]); auto.
Qed.

(** C25. libpulp asks for the redirection, the tool carries it out: calls are
    then redirected to exactly the replacement, only bytes of the function's
    window changed; libpulp asks for its removal, the tool carries it out: calls
    run the original body, only bytes of the window changed. *)
Theorem C25_redirection_exact :
  forall (m : mem) (endbr : bool) (f g : Z) (stale : Z -> Z),
    window_exists f -> 0 <= g < 2 ^ 64 -> livepatchable m endbr f ->
    (exists q m',
       ulp_patch_addr m (empty_queue stale, 0) f g true = ((q, 0), 0) /\
       insnq_interpret_from_process env_ok true q (mk_tgt m []) =
         Some (0, insnq_reset q, mk_tgt m' []) /\
       redirected m' endbr f g /\
       (forall x, ~ in_window endbr f x -> m' x = m x)) /\
    (exists q m',
       ulp_patch_addr m (empty_queue stale, 0) f 0 false = ((q, 0), 0) /\
       insnq_interpret_from_process env_ok true q (mk_tgt m []) =
         Some (0, insnq_reset q, mk_tgt m' []) /\
       unredirected m' endbr f /\
       (forall x, ~ in_window endbr f x -> m' x = m x)).
Proof.
  intros m e f g stale Hf Hg Hl.
  pose proof (livepatchable_endbr _ _ _ Hl) as He. pose proof (livepatchable_looks _ _ _ Hl) as Hlk.
  split.
  - destruct (one_request (patch_req m f g true) stale m) as (q & Hq & Hi).
    { apply patch_req_ok. }
    { unfold patch_req. cbn [req_size]. rewrite patched_prologue_len.
      unfold INSN_BUFFER_MAX. destruct (is_endbr64 m f); vm_compute; discriminate. }
    destruct (enable_effect m m e f g Hf He) as [H1 H2].
    exists q. eexists. rewrite patch_addr_eq, Hlk, Hq. split; [reflexivity|].
    rewrite Hi. split; [reflexivity|]. split; [|exact H2].
    apply redir_bytes_redirected; auto.
  - destruct (one_request (patch_req m f 0 false) stale m) as (q & Hq & Hi).
    { apply patch_req_ok. }
    { unfold patch_req. cbn [req_size]. vm_compute. discriminate. }
    destruct (disable_effect m m e f Hf He) as [H1 H2].
    { intros ->. apply is_endbr64_iff. exact He. }
    exists q. eexists. rewrite patch_addr_eq, Hlk, Hq. split; [reflexivity|].
    rewrite Hi. split; [reflexivity|]. split; [|exact H2].
    apply plain_bytes_unredirected; auto.
Qed.
Print Assumptions C25_redirection_exact.

(** A function with endbr64 at 4096 and 1-byte nops, and one at 8192 without. *)
Definition ex_mem : mem :=
  mem_write (mem_write (fun _ => 195) 4082 (repeat 144 14 ++ [243; 15; 30; 250; 144; 144]))
            8178 (repeat 144 14 ++ [102; 144]).

Example C25_case : livepatchable ex_mem true 4096 /\ livepatchable ex_mem false 8192.
Proof.
  split; split; try (vm_compute; reflexivity).
  - left. left. split; vm_compute; reflexivity.
  - vm_compute. discriminate.
  - left. right. split; vm_compute; reflexivity.
Qed.

(** After redirection the bytes decode, instruction by instruction, to the jump. *)
Example C25_decodes :
  let m' := mem_write ex_mem 4082 (patched_prologue ulp_prologue_endbr64 123456789) in
  cpu_step m' 4096 = Some 4100 /\ cpu_step m' 4100 = Some 4082 /\ cpu_step m' 4082 = Some 123456789.
Proof. vm_compute. auto. Qed.

(** C26, the part that holds: an entry whose slot holds neither nops nor a
    short jump is refused and nothing is requested. Missing: functions whose first
    instruction is a short jump of their own, see [C26_short_jump_refuted]. *)
Theorem C26_unpatchable_refused_partial :
  forall (m : mem) (endbr : bool) (f g : Z) (enable : bool) (q : insnq) (err : Z),
    (if endbr then has_endbr m f else ~ has_endbr m f) ->
    ~ nops_at m (slot endbr f) -> m (slot endbr f) <> 235 ->
    ulp_patch_addr m (q, err) f g enable = ((q, err), ENOPATCHABLE).
Proof.
  intros m e f g en q err He Hn Hj. rewrite patch_addr_eq.
  assert (E : is_endbr64 m f = e).
  { destruct e; [apply is_endbr64_iff; exact He|].
    destruct (is_endbr64 m f) eqn:E; [|reflexivity]. apply is_endbr64_iff in E. contradiction. }
  unfold looks_patchable. rewrite E. fold (slot e f).
  replace (if e then f + 4 else f) with (slot e f) by reflexivity.
  destruct (Z.eqb_spec (m (slot e f)) 235); [contradiction|]. cbn [orb].
  destruct (Z.eqb_spec (m (slot e f + 1)) 144) as [E1|]; [|reflexivity]. cbn [andb].
  destruct (Z.eqb_spec (m (slot e f)) 144) as [E2|]; [exfalso; apply Hn; left; auto|].
  destruct (Z.eqb_spec (m (slot e f)) 102) as [E3|]; [exfalso; apply Hn; right; auto|]. reflexivity.
Qed.
Print Assumptions C26_unpatchable_refused_partial.

Example C26_case :
  let m := mem_write (fun _ => 195) 4096 [85; 72; 137; 229] in   (* push %rbp; mov %rsp,%rbp *)
  ~ has_endbr m 4096 /\ ~ nops_at m (slot false 4096) /\ m (slot false 4096) <> 235.
Proof.
  split; [vm_compute; discriminate|]. split; [|vm_compute; discriminate].
  intros [[H _]|[H _]]; vm_compute in H; discriminate.
Qed.

(** C26 is false of the code: a function that begins with a short jump of its
    own, with the end of another function in front of it and no nop anywhere,
    is accepted, and its first bytes and the neighbour's are overwritten. *)
Theorem C26_short_jump_refuted :
  exists (m : mem) (f g : Z),
    (forall a, ~ nops_at m a) /\ (forall x, m x <> 144) /\
    exists q m',
      ulp_patch_addr m (empty_queue (fun _ => 0), 0) f g true = ((q, 0), 0) /\
      insnq_interpret_from_process env_ok true q (mk_tgt m []) = Some (0, insnq_reset q, mk_tgt m' []) /\
      m' (f - 1) <> m (f - 1) /\ m' (f - 14) <> m (f - 14) /\ m' (f + 1) <> m (f + 1).
Proof.
  set (m := mem_write (fun _ => 195) 4096 [235; 5]).
  exists m, 4096, 74565.
  assert (N : forall x, m x <> 144).
  { intros x. unfold m, mem_write. destruct (_ && _); [|discriminate].
    destruct (Z.to_nat (x - 4096)) as [|[|[|?]]]; cbn; discriminate. }
  split; [intros a [[H _]|[_ H]]; eapply N; eauto|]. split; [exact N|].
  destruct (one_request (patch_req m 4096 74565 true) (fun _ => 0) m) as (q & Hq & Hi).
  { apply patch_req_ok. }
  { vm_compute. discriminate. }
  exists q. eexists. rewrite patch_addr_eq. replace (looks_patchable m 4096) with true by reflexivity.
  rewrite Hq. split; [reflexivity|]. rewrite Hi. split; [reflexivity|]. cbn [t_mem perform patch_req].
  split; [|split]; vm_compute; discriminate.
Qed.
Print Assumptions C26_short_jump_refuted.

(** C26, exactly what is accepted: a function is redirected (or restored) if and only if its slot holds nops or
    starts with the opcode of a short jump; otherwise it is refused and nothing is requested. *)
Theorem C26_exact :
  forall (m : mem) (endbr : bool) (f g : Z) (enable : bool) (q : insnq) (err : Z),
    (if endbr then has_endbr m f else ~ has_endbr m f) ->
    (snd (ulp_patch_addr m (q, err) f g enable) = 0 <-> nops_at m (slot endbr f) \/ m (slot endbr f) = 235) /\
    (snd (ulp_patch_addr m (q, err) f g enable) <> 0 ->
       ulp_patch_addr m (q, err) f g enable = ((q, err), ENOPATCHABLE)).
Proof.
  intros m e f g en q err He.
  assert (E : is_endbr64 m f = e).
  { destruct e; [apply is_endbr64_iff; exact He|].
    destruct (is_endbr64 m f) eqn:E; [|reflexivity]. apply is_endbr64_iff in E. contradiction. }
  assert (L : looks_patchable m f = true <-> nops_at m (slot e f) \/ m (slot e f) = 235).
  { unfold looks_patchable. rewrite E. replace (if e then f + 4 else f) with (slot e f) by reflexivity. unfold nops_at.
    destruct (Z.eqb_spec (m (slot e f)) 235), (Z.eqb_spec (m (slot e f + 1)) 144), (Z.eqb_spec (m (slot e f)) 144), (Z.eqb_spec (m (slot e f)) 102);
      cbn [orb andb]; split; intros H; try discriminate H; try reflexivity; try (intuition congruence). }
  unfold ulp_patch_addr. destruct (looks_patchable m f); cbn [negb].
  - destruct en; cbn [snd]; split; try (intros H; contradiction); split; intros H; try reflexivity; apply L; reflexivity.
  - cbn [snd]. split; [|reflexivity]. split; [discriminate|]. intros H. apply L in H. discriminate H.
Qed.
Print Assumptions C26_exact.
