(** C57 and C26 on POWER: which functions the tool takes for livepatchable and which libpulp accepts. *)
From Verif Require Import Base BaseFacts InsnQModel InsnQSpec InsnQProofs X86Model X86Spec X86Proofs PostModel PpcModel PpcSpec PpcProofs PpcProps PlpModel.

(** The first or the third instruction at [a] is a nop. *)
Definition nop_entry (m : mem) (a : Z) : Prop := word_at m a = NOP_WORD \/ word_at m (a + 8) = NOP_WORD.

Lemma ppc_preamble_iff r m a : (forall x, is_byte (m x)) -> (ppc_check_preamble r m a = true <-> r = true /\ nop_entry m a).
Proof.
  intros Hb. unfold ppc_check_preamble, nop_entry. change 12%nat with (4 + (4 + 4))%nat. rewrite !mem_read_app.
  assert (F : forall x, firstn 4 (mem_read m a 4 ++ x) = mem_read m a 4).
  { intros x. rewrite firstn_app, mem_read_length, Nat.sub_diag, app_nil_r. apply firstn_all2. rewrite mem_read_length. apply le_n. }
  rewrite F. assert (G : forall x y, firstn 4 (skipn 8 (mem_read m a 4 ++ mem_read m x 4 ++ mem_read m y 4)) = mem_read m y 4).
  { intros x y. rewrite app_assoc, skipn_app, app_length, !mem_read_length. change (8 - (4 + 4))%nat with 0%nat.
    rewrite skipn_all2 by (rewrite app_length, !mem_read_length; apply le_n). cbn [app skipn]. apply firstn_all2. rewrite mem_read_length. apply le_n. }
  rewrite G. change gNop with (le_enc 4 NOP_WORD). rewrite !word_eqb by (try exact Hb; vm_compute; split; congruence).
  rewrite Bool.andb_true_iff, Bool.orb_true_iff, !Z.eqb_eq. change (Z.of_nat 4) with 4. replace (a + 4 + 4) with (a + 8) by lia. reflexivity.
Qed.

(** C57 on POWER, exactly when a library is taken for livepatchable. *)
Theorem C57_power_exact : forall loaded attached detached readable m base syms,
  (forall x, is_byte (m x)) ->
  (ppc_is_library_livepatchable loaded attached detached readable m base syms = Some true <->
   loaded = true \/
   (attached = true /\ detached = true /\
    exists pre v post, syms = pre ++ Some v :: post /\ zlen pre < 8000 /\ (forall x, In x pre -> x <> None) /\
      readable (u64 (base + v)) = true /\ nop_entry m (u64 (base + v)))) /\
  (ppc_is_library_livepatchable loaded attached detached readable m base syms = None <->
   loaded = false /\ attached = true /\ detached = true /\ syms = []).
Proof.
  intros loaded attached detached readable m base syms Hb. unfold ppc_is_library_livepatchable.
  destruct loaded; [split; split; intros H; try discriminate; auto; destruct H; discriminate|].
  destruct attached; cbn [negb]; [|split; split; intros H; try discriminate; [destruct H as [H|[H _]]; discriminate|destruct H as (_ & H & _); discriminate]].
  destruct detached; cbn [negb]; [|split; split; intros H; try discriminate; [destruct H as [H|(_ & H & _)]; discriminate|destruct H as (_ & _ & H & _); discriminate]].
  assert (N0 : forall l r, r <> None -> ppc_livepatchable_loop readable m base l r <> None).
  { induction l as [|[v|] l IH]; intros r R; cbn [ppc_livepatchable_loop]; [exact R| |discriminate].
    destruct (ppc_check_preamble _ _ _); [discriminate|]. apply IH. discriminate. }
  split.
  - split.
    + intros H. right. split; [reflexivity|]. split; [reflexivity|].
      assert (G : forall l r, ppc_livepatchable_loop readable m base l r = Some true -> r <> Some true ->
        exists pre v post, l = pre ++ Some v :: post /\ (forall x, In x pre -> x <> None) /\
          readable (u64 (base + v)) = true /\ nop_entry m (u64 (base + v))).
      { induction l as [|[v|] l IH]; intros r E Hr; cbn [ppc_livepatchable_loop] in E; [contradiction| |discriminate].
        destruct (ppc_check_preamble (readable (u64 (base + v))) m (u64 (base + v))) eqn:C.
        - exists [], v, l. split; [reflexivity|]. split; [intros x []|]. apply ppc_preamble_iff in C; auto.
        - destruct (IH _ E ltac:(discriminate)) as (pre & w & post & -> & P & R & N). exists (Some v :: pre), w, post.
          split; [reflexivity|]. split; [|auto]. intros x [<-|X]; [discriminate|]. apply P. exact X. }
      destruct (G _ _ H ltac:(discriminate)) as (pre & v & post & E & P & R & N).
      exists pre, v, (post ++ skipn (Z.to_nat 8000) syms).
      split; [rewrite <- (firstn_skipn (Z.to_nat 8000) syms) at 1; rewrite E, <- app_assoc; reflexivity|]. split; [|auto].
      assert (L : (length (firstn (Z.to_nat 8000) syms) <= Z.to_nat 8000)%nat) by apply firstn_le_length.
      rewrite E, app_length in L. cbn [length] in L. unfold zlen. lia.
    + intros [H|(_ & _ & pre & v & post & -> & L & P & R & N)]; [discriminate|].
      assert (Hs : exists post', firstn (Z.to_nat 8000) (pre ++ Some v :: post) = pre ++ Some v :: post').
      { rewrite firstn_app. rewrite (firstn_all2 pre) by (unfold zlen in L; lia).
        destruct (Z.to_nat 8000 - length pre)%nat as [|k] eqn:E; [unfold zlen in L; lia|]. exists (firstn k post). reflexivity. }
      destruct Hs as (post' & ->).
      assert (C : ppc_check_preamble (readable (u64 (base + v))) m (u64 (base + v)) = true) by (apply ppc_preamble_iff; auto).
      generalize (@None bool) as r. clear L. induction pre as [|[w|] pre IH]; intros r; cbn [app ppc_livepatchable_loop].
      * rewrite C. reflexivity.
      * destruct (ppc_check_preamble (readable (u64 (base + w))) m (u64 (base + w))); [reflexivity|].
        apply IH. intros x X. apply P. right. exact X.
      * exfalso. exact (P None (or_introl eq_refl) eq_refl).
  - split.
    + intros H. repeat (split; [reflexivity|]). destruct syms as [|[v|] t]; [reflexivity| |].
      * exfalso. replace (Z.to_nat 8000) with (S (Z.to_nat 7999)) in H by lia. cbn [firstn ppc_livepatchable_loop] in H.
        destruct (ppc_check_preamble _ _ _); [discriminate H|]. apply (N0 _ (Some false)) in H; [exact H|discriminate].
      * exfalso. replace (Z.to_nat 8000) with (S (Z.to_nat 7999)) in H by lia. cbn [firstn ppc_livepatchable_loop] in H. discriminate H.
    + intros (_ & _ & _ & ->). destruct (Z.to_nat 8000); reflexivity.
Qed.
Print Assumptions C57_power_exact.

(** C57, tool and libpulp agree on POWER: a function the tool takes for livepatchable can be redirected, and a function that can be
    redirected is taken for livepatchable by the tool, unless it is redirected already. *)
Theorem C57_power_agrees : forall m f,
  (forall x, is_byte (m x)) ->
  (ppc_check_preamble true m f = true -> exists off, ppc_livepatchable m f off) /\
  (forall off, ppc_livepatchable m f off -> word_at m (f + off) <> branch_word (f + off) (f - 52) -> ppc_check_preamble true m f = true).
Proof.
  intros m f Hb. split.
  - intros C. apply ppc_preamble_iff in C; [|exact Hb]. destruct C as [_ C].
    destruct (offset_matches m f 0) eqn:O0.
    + exists 0. split; [exact Hb|]. left. split; [reflexivity|]. apply offset_matches_iff; auto.
    + assert (N0 : ~ slot_ok m f 0) by (intros X; apply offset_matches_iff in X; auto; congruence).
      exists 8. split; [exact Hb|]. right. split; [reflexivity|]. split; [exact N0|]. destruct C as [C|C]; [|left; exact C].
      destruct N0. left. rewrite Z.add_0_r. exact C.
  - intros off [_ H] NB. apply ppc_preamble_iff; [exact Hb|]. split; [reflexivity|]. unfold nop_entry.
    destruct H as [[-> [H|H]]|(-> & _ & [H|H])]; try contradiction; [left; rewrite Z.add_0_r in H; exact H|right; exact H].
Qed.
Print Assumptions C57_power_agrees.

(** C57 on x86: a function the tool takes for livepatchable is accepted by libpulp. (The converse fails: C57_endbr_refuted.) *)
Theorem C57_agrees_partial : forall m f, check_preamble true m f = true -> looks_patchable m f = true.
Proof.
  intros m f H. unfold check_preamble in H. cbn [andb] in H. apply Bool.andb_true_iff in H. destruct H as [A B].
  unfold looks_patchable. assert (E : is_endbr64 m f = false).
  { destruct (is_endbr64 m f) eqn:E; [|reflexivity]. apply is_endbr64_iff in E. unfold has_endbr in E. cbn [mem_read] in E.
    injection E as E0 _ _ _. rewrite E0 in A. cbn in A. discriminate A. }
  rewrite E, B, A. rewrite Bool.orb_true_r. reflexivity.
Qed.
Print Assumptions C57_agrees_partial.

(** C26 on POWER is false of the code: only one instruction is looked at. A function with a nop as its first or third instruction
    is accepted whatever lies in front of it, and the 52 bytes there are overwritten: the end of the function before it, if the
    library was not compiled for live patching. *)
Theorem C26_power_neighbour_refuted : forall T m f off g stale,
  0 <= T < 2 ^ 64 -> 52 <= f -> f + off + 4 <= 2 ^ 64 -> 0 <= g < 2 ^ 64 -> ppc_livepatchable m f off ->
  exists q m',
    ppc_patch_addr T m (empty_queue stale, 0) f g true = ((q, 0), 0) /\
    insnq_interpret_from_process env_ok true q (mk_tgt m []) = Some (0, insnq_reset q, mk_tgt m' []) /\
    mem_read m' (f - 52) 52 = concat (map (le_enc 4) (ulp_prologue_words T)) ++ le_enc 8 g.
Proof.
  intros T m f off g stale HT Hf1 Hf2 Hg HL.
  assert (Ho : off = 0 \/ off = 8) by (destruct HL as [_ [[-> _]|[-> _]]]; auto).
  destruct (requests_run [ppc_area_req T f g; ppc_branch_req f off] stale m) as (q & E & _ & R).
  { constructor; [apply area_req_ok|]. constructor; [apply word_req_ok|constructor]. }
  { vm_compute. discriminate. }
  exists q. eexists. rewrite ppc_patch_eq, (get_branch_offset_ok m f off HL).
  change (submit (submit (empty_queue stale, 0) (ppc_area_req T f g)) (ppc_branch_req f off)) with
    (submit_all [ppc_area_req T f g; ppc_branch_req f off] (empty_queue stale, 0)).
  rewrite E. split; [reflexivity|]. split; [exact R|].
  cbn [perform_all fold_left perform ppc_area_req ppc_branch_req t_mem]. rewrite (u64_range (f - 52)), (u64_range (f + off)) by lia.
  set (area := concat (map (le_enc 4) (ulp_prologue_words T)) ++ le_enc 8 g).
  assert (HP : mem_read (mem_write m (f - 52) area) (f - 52) 52 = area).
  { change 52%nat with (length area). apply mem_read_write_same. }
  set (br := le_enc 4 _). assert (Lb : zlen br = 4) by reflexivity. rewrite mem_read_write_out by (change (Z.of_nat 52) with 52; lia). exact HP.
Qed.
Print Assumptions C26_power_neighbour_refuted.

(** ** Cases: the functions of [ppc_ex], in front of which there are zeroes *)
Example C57_power_case :
  (forall x, is_byte (ppc_ex x)) /\ nop_entry ppc_ex (u64 (4096 + 4096)) /\ ~ nop_entry ppc_ex (u64 (4096 + 8192)) /\
  ppc_is_library_livepatchable false true true (fun _ => true) ppc_ex 4096 [Some 8192; Some 4096; None] = Some true /\
  ppc_is_library_livepatchable false true true (fun _ => true) ppc_ex 4096 [Some 8192; None; Some 4096] = Some false.
Proof.
  split; [exact ppc_ex_bytes|]. split; [right; vm_compute; reflexivity|]. split; [intros [H|H]; vm_compute in H; discriminate|].
  split; vm_compute; reflexivity.
Qed.

Example C57_power_agrees_case : ppc_check_preamble true ppc_ex 8192 = true /\ ppc_livepatchable ppc_ex 8192 8 /\
  word_at ppc_ex (8192 + 8) <> branch_word (8192 + 8) (8192 - 52).
Proof. split; [vm_compute; reflexivity|]. split; [apply C27_case|vm_compute; discriminate]. Qed.

Example C57_agrees_partial_case : check_preamble true (mem_write (fun _ => 0) 5000 [102; 144]) 5000 = true.
Proof. vm_compute. reflexivity. Qed.

Example C26_power_neighbour_refuted_case : ppc_livepatchable ppc_ex 8192 8 /\ mem_read ppc_ex (8192 - 52) 52 = repeat 0 52.
Proof. split; [apply C27_case|vm_compute; reflexivity]. Qed.
