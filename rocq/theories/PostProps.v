(** Properties C29, C50 and C57: post-processing, embedding metadata, and telling
    livepatchable libraries. *)
From Verif Require Import Base BaseFacts LibModel DlModel X86Model X86Spec PtModel PostModel PostSpec PostProofs.
From Coq Require Import Lia.

(** ** C29 *)

(** A run that ends well keeps the number of sections, their addresses and sizes,
    and only turns bytes 0x90 into 0x66 that are the first entry nop of a function
    listed in the table (one place per function). *)
Theorem C29_only_entry_nops : forall syms entries secs secs',
  table_ok entries -> nops_fixup syms entries secs = PO_ok secs' ->
  length secs' = length secs /\
  (forall i, sec_addr secs' i = sec_addr secs i) /\
  (forall i p, byte_at secs' i p = None <-> byte_at secs i p = None) /\
  (forall i p, byte_at secs' i p <> byte_at secs i p ->
     byte_at secs i p = Some 144 /\ byte_at secs' i p = Some 102 /\
     exists e, In e entries /\ entry_nops syms secs e i p).
Proof.
  intros syms entries secs secs' Hok H. destruct (steps_facts _ _ (fixup_steps _ _ _ _ H)) as (A1 & A2 & A3 & _).
  split; [exact A1|]. split; [exact A2|]. split.
  - intros i p. rewrite !byte_at_zn, A3. destruct ((0 <=? p) && (p <? zlen (dat secs i))); [|reflexivity].
    split; discriminate.
  - intros i p. rewrite !byte_at_zn, A3. destruct ((0 <=? p) && (p <? zlen (dat secs i))) eqn:E; [|congruence].
    apply Bool.andb_true_iff in E as [E _]. apply Z.leb_le in E. intros Hne.
    destruct (fixup_changes _ _ _ _ H i p E) as (B1 & B2 & e & He & T); [congruence|].
    split; [congruence|]. split; [congruence|]. exists e. split; [exact He|].
    destruct Hok as [R _]. destruct (R e He). apply target_spec; assumption.
Qed.
Print Assumptions C29_only_entry_nops.

(** Each function has one such place. *)
Theorem C29_one_byte_per_function : forall syms secs e i p j q,
  entry_nops syms secs e i p -> entry_nops syms secs e j q -> i = j /\ p = q.
Proof.
  intros syms secs e i p j q (o1 & (s1 & a1 & F1 & -> & A1 & ->) & C1) (o2 & (s2 & a2 & F2 & -> & A2 & ->) & C2).
  assert (s2 = s1) by congruence. subst s2. split; [reflexivity|]. assert (a2 = a1) by congruence. subst a2.
  destruct C1 as [[C1 ->]|[C1 ->]], C2 as [[C2 ->]|[C2 ->]]; try contradiction; reflexivity.
Qed.
Print Assumptions C29_one_byte_per_function.

(** Every function of the table that has a symbol is livepatchable afterwards: its
    entry is one two-byte nop. *)
Theorem C29_stays_livepatchable : forall syms entries secs secs',
  table_ok entries -> nops_fixup syms entries secs = PO_ok secs' ->
  forall e i p, In e entries -> entry_nops syms secs e i p ->
    entry_nops syms secs' e i p /\ byte_at secs' i p = Some 102 /\ byte_at secs' i (p + 1) = Some 144.
Proof.
  intros syms entries secs secs' Hok H e i p He T. pose proof Hok as [R _]. destruct (R e He) as [R1 R2].
  apply (proj2 (target_spec _ _ _ _ _ R1 R2)) in T.
  destruct (fixup_merged syms entries entries secs secs' (fun x h => h) (table_apart _ _ _ Hok) H e i p He T) as [M _].
  destruct (M He) as (Q1 & Q2 & Q3 & Q4). split.
  - apply (target_spec _ _ _ _ _ R1 R2). apply (proj1 (target_stable _ _ _ _ _ _ (fixup_steps _ _ _ _ H))). exact T.
  - rewrite !byte_at_in by lia. rewrite Q3, Q4. auto.
Qed.
Print Assumptions C29_stays_livepatchable.

(** Running it again changes nothing. *)
Theorem C29_idempotent : forall syms entries secs secs',
  table_ok entries -> nops_fixup syms entries secs = PO_ok secs' ->
  nops_fixup syms entries secs' = PO_ok secs'.
Proof.
  intros syms entries secs secs' Hok H. pose proof (fixup_steps _ _ _ _ H) as Hst.
  apply fixup_again.
  - intros e i p He T. apply (proj2 (target_stable _ _ _ _ _ _ Hst)) in T.
    destruct (fixup_merged syms entries entries secs secs' (fun x h => h) (table_apart _ _ _ Hok) H e i p He T) as [M _].
    apply M. exact He.
  - intros e s He F. destruct (fixup_inside _ _ _ _ H e s He F) as (a & Ha & Hl).
    destruct (steps_facts _ _ Hst) as (_ & A2 & A3 & _). exists a. rewrite A2, A3. auto.
Qed.
Print Assumptions C29_idempotent.

(** Two functions, the second with endbr64, and a library whose table lists a third
    one that has no symbol. *)
Definition nops (n : nat) : list Z := repeat 144 n.
Definition text_ex : list Z := nops 16 ++ [195] ++ nops 3 ++ nops 14 ++ [243; 15; 30; 250; 144; 144; 195] ++ nops 20.
Definition secs_ex : list esec := [mk_esec 0 []; mk_esec 4096 text_ex].
Definition syms_ex : list esym := [mk_esym 0 0; mk_esym (4096 + 14) 1; mk_esym (4096 + 34) 1].
Definition entries_ex : list Z := [4096; 4096 + 20; 9000].
Example C29_case :
  table_ok entries_ex /\
  nops_fixup syms_ex entries_ex secs_ex =
    PO_ok [mk_esec 0 []; mk_esec 4096 (nops 14 ++ [102; 144; 195] ++ nops 3 ++ nops 14 ++ [243; 15; 30; 250; 102; 144; 195] ++ nops 20)] /\
  entry_nops syms_ex secs_ex 4096 1 14.
Proof.
  split; [|split; [vm_compute; reflexivity|]].
  - split; cbn [entries_ex In]; intros; lia.
  - exists 14. split.
    + exists (mk_esym (4096 + 14) 1), 4096. repeat split.
    + right. split; [|reflexivity]. intros (H & _). vm_compute in H. discriminate.
Qed.
Example C29_only_entry_nops_case : table_ok entries_ex.
Proof. apply C29_case. Qed.
Example C29_one_byte_per_function_case : entry_nops syms_ex secs_ex 4096 1 14.
Proof. apply C29_case. Qed.
Example C29_stays_livepatchable_case : entry_nops syms_ex secs_ex 4096 1 14 /\ In 4096 entries_ex.
Proof. split; [apply C29_case|left; reflexivity]. Qed.
Example C29_idempotent_case : exists secs', nops_fixup syms_ex entries_ex secs_ex = PO_ok secs' /\ secs' <> secs_ex.
Proof. eexists. split; [vm_compute; reflexivity|]. vm_compute. discriminate. Qed.

(** A function of three bytes at the very end of its section is looked at beyond the
    end of the section. *)
Theorem C29_short_function_refuted : exists syms entries secs,
  table_ok entries /\ nops_fixup syms entries secs = PO_ub /\
  exists e i p, In e entries /\ function_at syms secs e i p /\ byte_at secs i p = Some 144 /\ byte_at secs i (p + 1) = Some 144.
Proof.
  exists [mk_esym 4110 0], [4096], [mk_esec 4096 (nops 16 ++ [195])].
  split. { split; cbn [In]; intros; lia. }
  split; [vm_compute; reflexivity|]. exists 4096, 0%nat, 14. split; [left; reflexivity|].
  split; [|split; reflexivity]. exists (mk_esym 4110 0), 4096. repeat split.
Qed.
Print Assumptions C29_short_function_refuted.

(** ** C57: telling livepatchable libraries *)

(** The tool calls an unpatched library livepatchable only because of entry nops at
    one of its symbols. *)
Theorem C57_reported_has_nops : forall attached detached readable m base syms,
  is_library_livepatchable false attached detached readable m base syms = Some true ->
  exists v, In (Some v) (firstn (Z.to_nat 8000) syms) /\ nops_at m (u64 (base + v)).
Proof.
  intros attached detached readable m base syms H. unfold is_library_livepatchable in H.
  destruct (negb attached); [discriminate|]. destruct (negb detached); [discriminate|].
  assert (G : forall l r, livepatchable_loop readable m base l r = Some true -> r <> Some true ->
    exists v, In (Some v) l /\ nops_at m (u64 (base + v))).
  { induction l as [|[v|] l IH]; intros r E Hr; cbn [livepatchable_loop] in E; [contradiction| |discriminate].
    destruct (check_preamble (readable (u64 (base + v))) m (u64 (base + v))) eqn:C.
    - exists v. split; [left; reflexivity|]. unfold check_preamble in C.
      apply Bool.andb_true_iff in C as [C C1]. apply Bool.andb_true_iff in C as [_ C0].
      apply Z.eqb_eq in C1. apply Bool.orb_true_iff in C0 as [C0|C0]; apply Z.eqb_eq in C0; unfold nops_at; auto.
    - destruct (IH _ E ltac:(discriminate)) as (w & Hw & N). exists w. split; [right; exact Hw|exact N]. }
  eapply G; [exact H|discriminate].
Qed.
Print Assumptions C57_reported_has_nops.

(** And it recognises every library with such a function among its first 8000
    symbols that does not start with endbr64, if all symbols before it can be
    read. *)
Theorem C57_plain_recognised_partial : forall readable m base pre v post,
  (forall x, In x pre -> x <> None) -> zlen pre < 8000 ->
  readable (u64 (base + v)) = true -> nops_at m (u64 (base + v)) ->
  is_library_livepatchable false true true readable m base (pre ++ Some v :: post) = Some true.
Proof.
  intros readable m base pre v post Hp Hl Hr Hn. unfold is_library_livepatchable. cbn [negb].
  assert (Hs : exists post', firstn (Z.to_nat 8000) (pre ++ Some v :: post) = pre ++ Some v :: post').
  { rewrite firstn_app. rewrite (firstn_all2 pre) by (unfold zlen in Hl; lia).
    destruct (Z.to_nat 8000 - length pre)%nat as [|k] eqn:E; [unfold zlen in Hl; lia|]. exists (firstn k post). reflexivity. }
  destruct Hs as (post' & ->).
  assert (C : check_preamble (readable (u64 (base + v))) m (u64 (base + v)) = true).
  { unfold check_preamble. rewrite Hr. destruct Hn as [[-> ->]|[-> ->]]; reflexivity. }
  assert (G : forall r, livepatchable_loop readable m base (pre ++ Some v :: post') r = Some true).
  { clear Hl. induction pre as [|[w|] pre IH]; intros r; cbn [app livepatchable_loop].
    - rewrite C. reflexivity.
    - destruct (check_preamble (readable (u64 (base + w))) m (u64 (base + w))); [reflexivity|]. apply IH. intros x Hx. apply Hp. right. exact Hx.
    - exfalso. apply (Hp None); [left; reflexivity|reflexivity]. }
  apply G.
Qed.
Print Assumptions C57_plain_recognised_partial.

Example C57_plain_recognised_partial_case :
  let m := mem_write (fun _ => 0) 5000 [102; 144] in
  nops_at m (u64 (4096 + 904)) /\
  is_library_livepatchable false true true (fun _ => true) m 4096 [Some 0; Some 100; Some 904] = Some true.
Proof. split; [right; split; reflexivity|vm_compute; reflexivity]. Qed.
Example C57_reported_has_nops_case :
  is_library_livepatchable false true true (fun _ => true) (mem_write (fun _ => 0) 5000 [102; 144]) 4096 [Some 904] = Some true.
Proof. vm_compute. reflexivity. Qed.

(** Finding: a library built for indirect branch tracking, whose functions all start
    with endbr64, is never recognised although libpulp can patch its functions. *)
Theorem C57_endbr_refuted : forall readable m base syms,
  (forall v, In v syms -> exists w, v = Some w /\ has_endbr m (u64 (base + w))) ->
  is_library_livepatchable false true true readable m base syms <> Some true.
Proof.
  intros readable m base syms H E.
  destruct (C57_reported_has_nops _ _ _ _ _ _ E) as (v & Hv & N).
  destruct (H (Some v)) as (w & Hw & B).
  { rewrite <- (firstn_skipn (Z.to_nat 8000) syms). apply in_or_app. left. exact Hv. }
  inversion Hw. subst w. unfold has_endbr in B. cbn [mem_read] in B. inversion B as [[B0 B1 B2 B3]].
  destruct N as [[N _]|[N _]]; rewrite B0 in N; discriminate.
Qed.
Print Assumptions C57_endbr_refuted.

Example C57_endbr_refuted_case :
  let m := mem_write (fun _ => 0) 5000 [243; 15; 30; 250; 144; 144] in
  has_endbr m (u64 (4096 + 904)) /\ looks_patchable m (u64 (4096 + 904)) = true.
Proof. split; vm_compute; reflexivity. Qed.

(** Finding: for a library without counted symbols (no DT_HASH table) the answer is
    an uninitialised variable. *)
Theorem C57_no_symbols_refuted : forall readable m base,
  is_library_livepatchable false true true readable m base [] = None.
Proof. reflexivity. Qed.
Print Assumptions C57_no_symbols_refuted.

(** ** C50: embedding metadata *)

(** Failures before objcopy is started are reported. *)
Theorem C50_setup_partial : forall there loads len exec wi,
  there = false \/ loads = false \/ 120 <= len ->
  exists r, embed_patch_metadata_into_elf there loads len exec wi = E_ret r /\ r <> 0.
Proof.
  intros there loads len exec wi H. unfold embed_patch_metadata_into_elf.
  destruct there; cbn [negb]; [|eexists; split; [reflexivity|discriminate]].
  destruct loads; cbn [negb]; [|eexists; split; [reflexivity|discriminate]].
  destruct H as [H|[H|H]]; try discriminate. apply Z.leb_le in H. rewrite H.
  eexists; split; [reflexivity|discriminate].
Qed.
Print Assumptions C50_setup_partial.

Example C50_setup_partial_case : exists len : Z, 120 <= len.
Proof. exists 120. lia. Qed.

(** Finding: whatever objcopy's exit status, and even if it is killed, embedding is
    reported as successful. *)
Theorem C50_objcopy_failure_refuted : forall len wi, len < 120 ->
  embed_patch_metadata_into_elf true true len true wi = E_ret 0.
Proof.
  intros len wi H. unfold embed_patch_metadata_into_elf. cbn [negb].
  replace (120 <=? len) with false by (symmetry; apply Z.leb_gt; lia).
  destruct (WIFEXITED wi); reflexivity.
Qed.
Print Assumptions C50_objcopy_failure_refuted.

(** Exit status 1, and death by signal 9. *)
Example C50_objcopy_failure_refuted_case :
  WEXITSTATUS 256 = 1 /\ WIFEXITED 256 = true /\ WIFEXITED 9 = false.
Proof. repeat split. Qed.

(** Finding: if objcopy exists but cannot be started, the vforked child returns from
    the function in its parent's stack frame. *)
Theorem C50_exec_failure_refuted : forall len wi, len < 120 ->
  embed_patch_metadata_into_elf true true len false wi = E_ub.
Proof.
  intros len wi H. unfold embed_patch_metadata_into_elf. cbn [negb].
  replace (120 <=? len) with false by (symmetry; apply Z.leb_gt; lia). reflexivity.
Qed.
Print Assumptions C50_exec_failure_refuted.

(** C57, exactly when a library is taken for livepatchable: a livepatch of it is loaded; or the process can be stopped and released, and
    among the first 8000 symbols, all symbols before it readable, one starts with nops. With anything else the answer is no, except for
    a library without any symbols, where it is not determined. *)
Theorem C57_exact : forall loaded attached detached readable m base syms,
  (is_library_livepatchable loaded attached detached readable m base syms = Some true <->
   loaded = true \/
   (attached = true /\ detached = true /\
    exists pre v post, syms = pre ++ Some v :: post /\ zlen pre < 8000 /\ (forall x, In x pre -> x <> None) /\
      readable (u64 (base + v)) = true /\ nops_at m (u64 (base + v)))) /\
  (is_library_livepatchable loaded attached detached readable m base syms = None <->
   loaded = false /\ attached = true /\ detached = true /\ syms = []).
Proof.
  intros loaded attached detached readable m base syms. unfold is_library_livepatchable.
  destruct loaded; [split; split; intros H; try discriminate; auto; destruct H; discriminate|].
  destruct attached; cbn [negb]; [|split; split; intros H; try discriminate; [destruct H as [H|[H _]]; discriminate|destruct H as (_ & H & _); discriminate]].
  destruct detached; cbn [negb]; [|split; split; intros H; try discriminate; [destruct H as [H|(_ & H & _)]; discriminate|destruct H as (_ & _ & H & _); discriminate]].
  assert (N0 : forall l r, r <> None -> livepatchable_loop readable m base l r <> None).
  { induction l as [|[v|] l IH]; intros r R; cbn [livepatchable_loop]; [exact R| |discriminate].
    destruct (check_preamble _ _ _); [discriminate|]. apply IH. discriminate. }
  split.
  - split.
    + intros H. right. split; [reflexivity|]. split; [reflexivity|].
      assert (G : forall l r, livepatchable_loop readable m base l r = Some true -> r <> Some true ->
        exists pre v post, l = pre ++ Some v :: post /\ (forall x, In x pre -> x <> None) /\
          readable (u64 (base + v)) = true /\ nops_at m (u64 (base + v))).
      { induction l as [|[v|] l IH]; intros r E Hr; cbn [livepatchable_loop] in E; [contradiction| |discriminate].
        destruct (check_preamble (readable (u64 (base + v))) m (u64 (base + v))) eqn:C.
        - exists [], v, l. split; [reflexivity|]. split; [intros x []|]. unfold check_preamble in C.
          apply Bool.andb_true_iff in C as [C C1]. apply Bool.andb_true_iff in C as [C2 C0]. split; [exact C2|].
          apply Z.eqb_eq in C1. apply Bool.orb_true_iff in C0 as [C0|C0]; apply Z.eqb_eq in C0; unfold nops_at; auto.
        - destruct (IH _ E ltac:(discriminate)) as (pre & w & post & -> & P & R & N). exists (Some v :: pre), w, post.
          split; [reflexivity|]. split; [|auto]. intros x [<-|X]; [discriminate|]. apply P. exact X. }
      destruct (G _ _ H ltac:(discriminate)) as (pre & v & post & E & P & R & N).
      exists pre, v, (post ++ skipn (Z.to_nat 8000) syms).
      split; [rewrite <- (firstn_skipn (Z.to_nat 8000) syms) at 1; rewrite E, <- app_assoc; reflexivity|]. split; [|auto].
      assert (L : (length (firstn (Z.to_nat 8000) syms) <= Z.to_nat 8000)%nat) by apply firstn_le_length.
      rewrite E, app_length in L. cbn [length] in L. unfold zlen. lia.
    + intros [H|(_ & _ & pre & v & post & -> & L & P & R & N)]; [discriminate|].
      pose proof (C57_plain_recognised_partial readable m base pre v post P L R N) as X. unfold is_library_livepatchable in X. exact X.
  - split.
    + intros H. repeat (split; [reflexivity|]). destruct syms as [|[v|] t]; [reflexivity| |].
      * exfalso. replace (Z.to_nat 8000) with (S (Z.to_nat 7999)) in H by lia. cbn [firstn livepatchable_loop] in H.
        destruct (check_preamble _ _ _); [discriminate H|]. apply (N0 _ (Some false)) in H; [exact H|discriminate].
      * exfalso. replace (Z.to_nat 8000) with (S (Z.to_nat 7999)) in H by lia. cbn [firstn livepatchable_loop] in H. discriminate H.
    + intros (_ & _ & _ & ->). destruct (Z.to_nat 8000); reflexivity.
Qed.
Print Assumptions C57_exact.
