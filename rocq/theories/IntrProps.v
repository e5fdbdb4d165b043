(** Properties C58 to C64: what the tool finds out about a process. *)
From Coq Require Import String.
From Verif Require Import Base BaseFacts StrModel InsnQModel LibModel MetaModel DlModel LibSpec SymProofs PtModel PtSpec PtProofs
  NtModel NtSpec NtProofs TextModel IntrModel IntrSpec IntrProofs Intr2Proofs Intr3Proofs Intr4Proofs IntrEx.
From Coq Require Import Lia.

(** ** C62: every loaded object is seen *)

Lemma no_slash s : ~ In 47 s -> get_basename s = s.
Proof.
  intros N. unfold get_basename, SLASH. assert (A : after_last 47 s = None).
  { induction s as [|x s IH]; [reflexivity|]. cbn [after_last]. rewrite IH by (intros I; apply N; right; exact I).
    destruct (Z.eqb_spec x 47) as [->|]; [contradiction N; left; reflexivity|reflexivity]. }
  rewrite A. reflexivity.
Qed.

Lemma libpulp_tables t o : object_at t o -> substring (zs "libpulp.so") (od_name o) -> 0 < od_sym o /\ 0 < od_str o.
Proof.
  unfold object_at. intros O S. apply strstr_iff in S.
  destruct (bytes_eqb (od_name o) (zs "linux-vdso.so.1")) eqn:E1.
  { apply bytes_eqb_eq in E1. rewrite E1 in S. discriminate. }
  destruct (bytes_eqb (od_name o) (zs "linux-vdso64.so.1")) eqn:E2.
  { apply bytes_eqb_eq in E2. rewrite E2 in S. discriminate. }
  cbn [orb] in O. destruct O as [_ (r32 & phoff & r14 & r6 & phs & v & d & _ & _ & _ & _ & _ & _ & _ & _ & _ & _ & (_ & _ & _ & A & B & _) & _)].
  split; assumption.
Qed.

(** A running process with libpulp loaded and initialised is taken in completely: for
    every object the dynamic linker lists, the tool knows file name, load address,
    symbol table and build ID, in reverse order; it knows them for the main program;
    and of libpulp, the entry points. The main program is position independent (for
    others, see C63), its name is short enough to be its /proc/PID/comm, and only
    one object has libpulp.so in its path. *)
Theorem C62_all_objects_partial : forall t pf main c1 lp c2 syms text state,
  target_ok t -> (0 < t_fuel t)%nat ->
  process_at t (pf_auxv pf) main (c1 ++ lp :: c2) ->
  pf_comm pf = od_name main ++ [10] -> ~ In 10 (od_name main) -> ~ In 47 (od_name main) ->
  od_addr main <> 0 -> elf_at t (od_addr main) (od_sym main) (od_str main) (od_n main) (od_id main) ->
  Forall (object_at t) (c1 ++ lp :: c2) ->
  Forall (fun o => ~ substring (zs "libpulp.so") (od_name o)) (c1 ++ c2) ->
  substring (zs "libpulp.so") (od_name lp) ->
  symtab_at t (od_str lp) (od_sym lp) syms -> zlen syms = od_n lp -> NoDup (map ds_name syms) ->
  version_at t (od_addr lp) syms text ->
  In (mk_dsym (zs "__ulp_state") state) syms -> libpulp_loaded t (u64 (od_addr lp + state)) ->
  exists p o, initialize_data_structures t pf true = I_ok p /\
    view (p_main p) = main /\ map view (p_targets p) = rev (c1 ++ lp :: c2) /\
    the_libpulp p = Some o /\ view o = lp /\ entries_known o (od_addr lp) syms text.
Proof.
  intros t pf main c1 lp c2 syms text state T F PA CM N10 N47 NB EM OA NL YL ST SN ND VA IS LL.
  assert (OL : object_at t lp) by (apply Forall_app in OA; destruct OA as [_ OA]; inversion OA; assumption).
  destruct (libpulp_tables t lp OL YL) as [S0 T0].
  destruct (ext_loop_spec t (od_addr lp) (od_str lp) text T F syms (od_sym lp) no_ext (repeat false 11) ST ND eq_refl eq_refl) as (e & E1 & E2 & E3).
  { intros i I S. exfalso. assert (X : forall n i, nth i (repeat false n) false = false).
    { clear. induction n as [|n IH]; intros [|i]; cbn; try reflexivity. apply IH. }
    rewrite X in S. discriminate. }
  { exact VA. }
  assert (LN : Z.to_nat (od_n lp) = List.length syms) by (unfold zlen in SN; lia).
  assert (N0 : 0 < od_n lp) by (destruct syms; [destruct IS|unfold zlen in SN; cbn in SN; lia]).
  destruct (init_spec t pf main c1 lp c2 e) as (p & namep & I1 & I2 & I3 & I4); try assumption.
  - rewrite CM. unfold upto_newline. rewrite no_slash.
    + rewrite split_ch_word by exact N10. reflexivity.
    + intros I. apply in_app_or in I. destruct I as [I|[I|[]]]; [contradiction|lia].
  - eapply Forall_impl; [|exact NL]. intros o O. apply strstr_false. exact O.
  - apply strstr_iff. exact YL.
  - rewrite LN. exact E1.
  - destruct (E3 2%nat ltac:(lia)) as [A _].
    rewrite (A state IS). exact LL.
  - exists p, (known namep lp e). split; [exact I1|]. split; [exact I2|]. split; [exact I3|]. split; [exact I4|].
    split; [apply view_known|].
    apply (entries_of_loop t (known namep lp no_ext) syms text e T F ST ND VA E1). reflexivity.
Qed.
Print Assumptions C62_all_objects_partial.

(** A process with two libraries, one of them libpulp. *)
Example C62_all_objects_partial_case :
  process_at ex_target (pf_auxv ex_procfs) d_main ([] ++ d_pulp :: [d_foo]) /\
  elf_at ex_target (od_addr d_main) (od_sym d_main) (od_str d_main) (od_n d_main) (od_id d_main) /\
  Forall (object_at ex_target) [d_pulp; d_foo] /\
  symtab_at ex_target (od_str d_pulp) (od_sym d_pulp) ex_syms /\ NoDup (map ds_name ex_syms) /\
  version_at ex_target (od_addr d_pulp) ex_syms (zs "0.3.13") /\
  libpulp_loaded ex_target (u64 (od_addr d_pulp + 16640)) /\
  map view (p_targets ex_process) = [d_foo; d_pulp] /\ view (p_main ex_process) = d_main.
Proof.
  split; [exact ex_process_at|]. split; [exact ex_main_elf|].
  split.
  { apply Forall_cons; [|apply Forall_cons; [|apply Forall_nil]].
    - unfold object_at. change (bytes_eqb _ _ || _) with false. cbn iota. split; [discriminate|exact ex_pulp_elf].
    - unfold object_at. change (bytes_eqb _ _ || _) with false. cbn iota. split; [discriminate|exact ex_foo_elf]. }
  split; [exact ex_symtab_at|].
  split.
  { assert (D : forall l : list (list Z), forallb (fun x => Nat.eqb (List.length (filter (bytes_eqb x) l)) 1) l = true -> NoDup l).
    { intros l F. apply NoDup_nth with (d := []). intros i j I J E. rewrite forallb_forall in F.
      destruct (Nat.eq_dec i j) as [|NE]; [assumption|exfalso].
      assert (W : forall i j, (i < j)%nat -> (j < List.length l)%nat -> nth i l [] = nth j l [] -> False).
      { clear i j I J E NE. intros i j IJ J E. specialize (F (nth i l []) (nth_In l [] (Nat.lt_trans _ _ _ IJ J))).
        apply Nat.eqb_eq in F.
        replace (filter (bytes_eqb (nth i l [])) l) with (filter (bytes_eqb (nth i l [])) (firstn (S i) l ++ skipn (S i) l)) in F by (rewrite firstn_skipn; reflexivity).
        rewrite filter_app, app_length in F.
        assert (A : In (nth i l []) (filter (bytes_eqb (nth i l [])) (firstn (S i) l))).
        { apply filter_In. split; [|apply bytes_eqb_refl]. assert (X : nth i l [] = nth i (firstn (S i) l ++ skipn (S i) l) []) by (rewrite firstn_skipn; reflexivity). rewrite X.
          rewrite app_nth1 by (rewrite firstn_length_le; lia). apply nth_In. rewrite firstn_length_le; lia. }
        assert (B : In (nth i l []) (filter (bytes_eqb (nth i l [])) (skipn (S i) l))).
        { apply filter_In. split; [|apply bytes_eqb_refl]. rewrite E. assert (X : nth j l [] = nth j (firstn (S i) l ++ skipn (S i) l) []) by (rewrite firstn_skipn; reflexivity). rewrite X.
          rewrite app_nth2 by (rewrite firstn_length_le; lia). apply nth_In.
          rewrite skipn_length, firstn_length_le by lia. lia. }
        destruct (filter _ (firstn _ _)); [destruct A|]. destruct (filter _ (skipn _ _)); [destruct B|]. cbn in F. lia. }
      destruct (Nat.lt_ge_cases i j); [apply (W i j); assumption|apply (W j i); [lia|assumption|symmetry; assumption]]. }
    apply D. vm_compute. reflexivity. }
  split.
  { intros v I. cbn [In ex_syms] in I.
    repeat (destruct I as [I|I]; [first [apply (f_equal ds_name) in I; vm_compute in I; discriminate I|idtac]|]); [|destruct I].
    apply (f_equal ds_value) in I. cbn [ds_value] in I. subst v. split; [|reflexivity].
    change (u64 (od_addr d_pulp + 16384)) with 344064. ex_any. }
  split; [exists 1, (repeat 0 7 ++ le_enc 8 345088); split; [reflexivity|]; split; [lia|]; ex_hold|].
  vm_compute. split; reflexivity.
Qed.

(** Finding: an entry of the list that cannot be read ends the list silently; the
    objects behind it do not exist for the tool. *)
Theorem C62_unreadable_entry_refuted : exists t a o1 o2 next,
  get_libname_dynobj t a = I_ok (o1, next) /\ next <> 0 /\
  (exists lm, trd t next 40 = Some lm /\ lm_next lm <> 0 /\ exists n, get_libname_dynobj t (lm_next lm) = I_ok (o2, n)) /\
  walk_link_map (t_fuel t) t a = I_ok [o1].
Proof.
  exists (mk_target (fun x => negb (x / 4096 =? 8)) (seg_get [(4096, ex_lm 65536 8192 4160); (4160, ex_lm 65537 32768 4224);
            (4224, ex_lm 65538 8192 0); (8192, zs "/lib/a.so")]) 20 (repeat 0 8)), 4096.
  do 3 eexists. split; [vm_compute; reflexivity|]. split; [vm_compute; discriminate|]. split.
  - eexists. split; [vm_compute; reflexivity|]. split; [vm_compute; discriminate|]. eexists. vm_compute. reflexivity.
  - vm_compute. reflexivity.
Qed.
Print Assumptions C62_unreadable_entry_refuted.

(** ** C61: libpulp's entry points *)

(** For every symbol table, whatever the order of the symbols and whatever others
    there are: each entry point among the symbols is known with its address, the others are
    marked as missing, and the version is the one libpulp announces. Missing: a
    symbol whose name ends less than 16 bytes before unreadable memory (the tool
    reads names in pieces), and names that occur twice. *)
Theorem C61_entry_points_partial : forall t o syms text,
  target_ok t -> (0 < t_fuel t)%nat -> o_ext o = no_ext -> 0 < o_dynsym o -> 0 < o_dynstr o ->
  symtab_at t (o_dynstr o) (o_dynsym o) syms -> zlen syms = o_nsyms o -> syms <> [] -> NoDup (map ds_name syms) ->
  version_at t (o_l_addr o) syms text ->
  exists o', get_libpulp_extern_symbols t o = I_ok o' /\ view o' = view o /\
    entries_known o' (o_l_addr o) syms text.
Proof.
  intros t o syms text T F NE S0 T0 ST SN NN ND VA. unfold get_libpulp_extern_symbols.
  destruct (Z.eqb_spec (o_dynsym o) 0); [lia|]. destruct (Z.eqb_spec (o_dynstr o) 0); [lia|].
  assert (N0 : 0 < o_nsyms o) by (destruct syms; [contradiction NN; reflexivity|unfold zlen in SN; cbn in SN; lia]).
  destruct (Z.leb_spec (o_nsyms o) 0); [lia|]. cbn [orb].
  assert (LN : Z.to_nat (o_nsyms o) = List.length syms) by (unfold zlen in SN; lia). rewrite LN, NE.
  destruct (ext_loop_spec t (o_l_addr o) (o_dynstr o) text T F syms (o_dynsym o) no_ext (repeat false 11) ST ND eq_refl eq_refl) as (e & E1 & E2 & E3).
  { intros i I S. exfalso. assert (X : forall n i, nth i (repeat false n) false = false).
    { clear. induction n as [|k IH]; intros [|i]; cbn; try reflexivity. apply IH. }
    rewrite X in S. discriminate. }
  { exact VA. }
  rewrite E1. cbn [ibind]. eexists. split; [reflexivity|]. split; [reflexivity|].
  apply (entries_of_loop t o syms text e T F ST ND VA E1). reflexivity.
Qed.
Print Assumptions C61_entry_points_partial.

(** A library is taken for libpulp only if it has every entry point the tool will
    call or write to. *)
Theorem C61_all_or_nothing : forall t maps main o o' bit name,
  parse_lib_dynobj t maps main o = I_ok (o', true) -> In (bit, name) entry_names ->
  In name [zs "__ulp_trigger"; zs "__ulp_check_patched"; zs "__ulp_state"; zs "__ulp_get_global_universe";
           zs "__ulp_revert_all"; zs "__ulp_metadata_buffer"] ->
  ext o' bit <> 0.
Proof.
  intros t maps main o o' bit name H IN NM. unfold parse_lib_dynobj in H. destruct (_ && _); [discriminate|].
  destruct (if _ : bool then _ else _) as [o1| | |]; try discriminate. cbn [ibind] in H.
  destruct (is_libpulp o1); [|discriminate].
  destruct (get_libpulp_extern_symbols t o1) as [o2| | |]; try discriminate. cbn [ibind] in H.
  injection H as <- C. unfold complete in C. rewrite forallb_forall in C.
  assert (I : In bit [0; 1; 2; 3; 5; 6]%nat).
  { repeat (destruct IN as [IN|IN]; [injection IN as <- <-; try (cbn; tauto);
      repeat (destruct NM as [NM|NM]; [discriminate NM|]); contradiction|]). contradiction. }
  specialize (C bit I). cbv beta in C. intros Z0. rewrite Z0 in C. discriminate.
Qed.
Print Assumptions C61_all_or_nothing.

Example C61_all_or_nothing_case :
  exists o', parse_lib_dynobj ex_target None (zs "server") (fresh 80128 d_pulp) = I_ok (o', true) /\
    ext o' 6 = u64 (327680 + match find (fun s => bytes_eqb (ds_name s) (zs "__ulp_metadata_buffer")) ex_syms with
                             | Some s => ds_value s | None => 0 end).
Proof. eexists. split; vm_compute; reflexivity. Qed.

Example C61_entry_points_partial_case :
  symtab_at ex_target 342016 339968 ex_syms /\ List.length ex_syms = 14%nat /\
  In (mk_dsym (zs "__ulp_trigger") 4097) ex_syms /\
  (exists lp, the_libpulp ex_process = Some lp /\ ext lp 0 = u64 (327680 + 4097) /\ ext lp 7 = u64 (327680 + 16768) /\
     ext lp 10 = ULP_VERSION_TRIPLET 0 3 13).
Proof.
  split; [exact ex_symtab_at|]. split; [reflexivity|]. split; [cbn; tauto|].
  eexists. split; [vm_compute; reflexivity|]. vm_compute. repeat split; reflexivity.
Qed.

(** ** C58: the listing *)

(** The listing contains, for every object that has livepatchable functions or a
    livepatch, exactly its livepatches with container, time and labels. What is
    missing is [C58_substring_refuted]. *)
Theorem C58_listing_partial : forall t comments labels nops only p lp l,
  target_ok t -> the_libpulp p = Some lp -> ext lp 2 <> 0 ->
  state_at t (ext lp 10) (ext lp 2) l -> fuel_for t l ->
  (forall q, In q l -> relevant_labels (comments (lp_container q)) = I_ok (labels (lp_container q))) ->
  print_process t comments nops true only p =
  I_ok (if only && (match l with [] => true | _ => false end) then None
        else Some (remote_status (get_libpulp_error_state_remote t p),
                   shown_objects (ext lp 10) labels nops l (p_objects p))).
Proof.
  intros t comments labels nops only p lp l T L N S F LB. unfold print_process.
  rewrite (read_state t (ext lp 10) p lp l T L N eq_refl S F). cbn [ibind].
  assert (E : match map (as_read (ext lp 10)) l with [] => true | _ => false end = match l with [] => true | _ => false end)
    by (destruct l; reflexivity).
  rewrite E. destruct (only && _); [reflexivity|].
  rewrite (list_objs (ext lp 10) comments labels nops l (p_objects p) LB). reflexivity.
Qed.
Print Assumptions C58_listing_partial.

(** Every applied livepatch whose library is loaded under that name is shown under
    that library; nothing but applied livepatches is shown. *)
Theorem C58_each_shown_partial : forall version labels nops l objs o q,
  In o objs -> In q l -> get_basename (o_filename o) = lp_lib q ->
  exists s, In s (shown_objects version labels nops l objs) /\ sl_name s = o_filename o /\
    In (show_patch version labels q) (sl_patches s).
Proof.
  intros version labels nops l objs o q IO IQ E. unfold shown_objects.
  assert (FL : for_lib (o_filename o) q = true) by (unfold for_lib; rewrite E; apply bytes_eqb_refl).
  exists (show_object version labels l o). split; [|split; [reflexivity|]].
  - apply in_map. apply filter_In. split; [exact IO|]. apply orb_true_intro. left. apply existsb_exists. exists q. split; assumption.
  - cbn [show_object sl_patches]. apply in_map. apply filter_In. split; assumption.
Qed.
Print Assumptions C58_each_shown_partial.

Theorem C58_only_applied : forall version labels nops l objs s x,
  In s (shown_objects version labels nops l objs) -> In x (sl_patches s) ->
  exists o q, In o objs /\ sl_name s = o_filename o /\ In q l /\ get_basename (o_filename o) = lp_lib q /\
    x = show_patch version labels q.
Proof.
  intros version labels nops l objs s x IS IX. unfold shown_objects in IS. apply in_map_iff in IS. destruct IS as (o & <- & IO).
  apply filter_In in IO. destruct IO as [IO _]. cbn [show_object sl_patches] in IX. apply in_map_iff in IX. destruct IX as (q & <- & IQ).
  apply filter_In in IQ. destruct IQ as [IQ E]. exists o, q. repeat split; try assumption. unfold for_lib in E. apply bytes_eqb_eq. exact E.
Qed.
Print Assumptions C58_only_applied.

Lemma ex_state : state_at ex_target (ULP_VERSION_TRIPLET 0 3 13) 344320 [ex_patch1; ex_patch2].
Proof.
  exists (repeat 0 7), 345088. split; [reflexivity|]. split; [lia|]. split; [ex_hold|].
  assert (PO : forall p, In p [ex_patch1; ex_patch2] -> lpatch_ok p).
  { intros p [<-|[<-|[]]]; (split; [reflexivity|]; split; [repeat constructor; unfold is_byte; lia|];
    split; [apply ex_cstr_zs; reflexivity|]; split; [apply ex_cstr_zs; reflexivity|]; cbn; lia). }
  apply (pl_cons _ _ 345088 ex_patch1 [ex_patch2] 345600 345856 0 345344 0); [lia|apply PO; cbn; tauto|lia|lia|lia|ex_heap|ex_heap|ex_hold|].
  apply (pl_cons _ _ 345344 ex_patch2 [] 346112 346368 0 0 0); [lia|apply PO; cbn; tauto|lia|lia|lia|ex_heap|ex_heap|ex_hold|].
  constructor.
Qed.

(** The comments of both containers; a library without nops. *)
Definition ex_comments (c : list Z) : option (list Z) :=
  if bytes_eqb c (zs "/usr/lib/patches/foo2.so") then Some (zs "fixes bsc#123456, CVE-2024-1 and jsc#PED-77." ++ [0]) else None.
Definition ex_labels (c : list Z) : list (list Z) :=
  if bytes_eqb c (zs "/usr/lib/patches/foo2.so") then [zs "bsc#123456"; zs "CVE-2024-1"; zs "jsc#PED-77"] else [].
Example C58_listing_partial_case :
  (exists lp, the_libpulp ex_process = Some lp /\ ext lp 2 = 344320 /\ ext lp 10 = ULP_VERSION_TRIPLET 0 3 13) /\
  state_at ex_target (ULP_VERSION_TRIPLET 0 3 13) 344320 [ex_patch1; ex_patch2] /\
  fuel_for ex_target [ex_patch1; ex_patch2] /\
  (forall q, In q [ex_patch1; ex_patch2] -> relevant_labels (ex_comments (lp_container q)) = I_ok (ex_labels (lp_container q))) /\
  print_process ex_target ex_comments (fun _ => false) true false ex_process =
  I_ok (Some (St_enabled,
    [mk_sl (zs "/usr/lib64/libfoo.so")
       [mk_sp (zs "foo2.so") (Some 1700000000) [zs "bsc#123456"; zs "CVE-2024-1"; zs "jsc#PED-77"];
        mk_sp (zs "foo1.so") (Some 1600000000) []]])).
Proof.
  split; [eexists; split; [vm_compute; reflexivity|]; split; reflexivity|].
  split; [exact ex_state|].
  split; [split; [cbn; lia|]; apply Forall_cons; [cbn; lia|apply Forall_cons; [cbn; lia|apply Forall_nil]]|].
  split; [intros q [<-|[<-|[]]]; vm_compute; reflexivity|]. vm_compute. reflexivity.
Qed.

(** Finding: libpulp applies a livepatch to the first library whose path contains the
    name in the livepatch (C49), but the listing wants equal base names: a livepatch
    for libfoo.so applied to libfoo.so.1 is not shown at all. *)
Theorem C58_substring_refuted : exists t p lp l q o,
  target_ok t /\ the_libpulp p = Some lp /\ ext lp 2 <> 0 /\ state_at t (ext lp 10) (ext lp 2) l /\ fuel_for t l /\ In q l /\
  In o (p_objects p) /\ substring (lp_lib q) (o_filename o) /\
  forall comments, print_process t comments (fun _ => false) true false p = I_ok (Some (St_enabled, [])).
Proof.
  set (foo := mk_dynobj (zs "/usr/lib64/libfoo.so.1") 393216 0 0 0 0 [] no_ext).
  set (lp := nth 1 (p_targets ex_process) foo).
  exists ex_target, (mk_process (p_main ex_process) [foo; lp] 1), lp, [ex_patch1; ex_patch2], ex_patch1, foo.
  split; [exact ex_target_ok|]. split; [reflexivity|]. split; [vm_compute; discriminate|].
  split; [replace (ext lp 10) with (ULP_VERSION_TRIPLET 0 3 13) by (vm_compute; reflexivity);
          replace (ext lp 2) with 344320 by (vm_compute; reflexivity); exact ex_state|].
  split; [split; [cbn; lia|]; apply Forall_cons; [cbn; lia|apply Forall_cons; [cbn; lia|apply Forall_nil]]|].
  split; [left; reflexivity|]. split; [right; left; reflexivity|].
  split; [exists (zs "/usr/lib64/"), (zs ".1"); reflexivity|]. intros comments. vm_compute. reflexivity.
Qed.
Print Assumptions C58_substring_refuted.

(** ** C59: labels *)

(** Every label in the comments is listed, whole and in order, if each is followed by
    a character at which no other label starts. *)
Theorem C59_labels_partial : forall s ls, cstr_ok s -> has_labels s ls -> relevant_labels (Some (s ++ [0])) = I_ok ls.
Proof.
  intros s ls C H. unfold relevant_labels. apply (labels_spec s ls H C). rewrite app_length. cbn. lia.
Qed.
Print Assumptions C59_labels_partial.

Example C59_labels_partial_case : cstr_ok (zs "Fix BSC#12.") /\ has_labels (zs "F BSC#12.") [zs "BSC#12"].
Proof.
  split; [apply ex_cstr_zs; reflexivity|].
  assert (NS : forall x s, x <> 98 -> x <> 66 -> x <> 106 -> x <> 74 -> x <> 99 -> x <> 67 -> ~ label_starts (x :: s)).
  { intros x s A1 A2 A3 A4 A5 A6 (w & rest & L & E). inversion L as [p d P D W|p a P D W|p a d P D1 D2 W|p a P D W|p a d P D1 D2 W]; subst w;
      inversion P as [|y z p' q' S P' X Y]; subst; cbn [app] in E; injection E as -> _; unfold same_letter in S; lia. }
  change (zs "F BSC#12.") with (70 :: 32 :: zs "BSC#12" ++ 46 :: []).
  apply hl_skip; [apply NS; lia|]. apply hl_skip; [apply NS; lia|].
  apply hl_label.
  - apply (lab_bsc (zs "BSC#") (zs "12")).
    + repeat (apply Forall2_cons; [unfold same_letter; (left; reflexivity) || (right; split; [cbn; lia|reflexivity])|]). apply Forall2_nil.
    + apply Forall_cons; [unfold digit; cbn; lia|]. apply Forall_cons; [unfold digit; cbn; lia|]. apply Forall_nil.
  - intros L. assert (LL : forall w, label w -> forall c, last w 0 = c -> (digit c \/ letter c \/ c = 35 \/ c = 45)).
    { clear L. intros w L c Hc.
      assert (P4 : forall p q, Forall2 same_letter p q -> (q = zs "bsc#" \/ q = zs "jsc#" \/ q = zs "cve-") ->
        exists x y z u, p = [x; y; z; u] /\ (u = 35 \/ u = 45)).
      { intros p q P Q. destruct Q as [-> | [-> | ->]]; inversion P as [|? ? ? ? _ P1]; subst; inversion P1 as [|? ? ? ? _ P2]; subst;
          inversion P2 as [|? ? ? ? _ P3]; subst; inversion P3 as [|? ? ? ? S P5]; subst; inversion P5; subst;
          do 4 eexists; (split; [reflexivity|]); unfold same_letter in S; cbn in S; lia. }
      assert (TL : forall (p s : list Z), s <> [] -> last (p ++ s) 0 = last s 0).
      { intros p s NS0. destruct (exists_last NS0) as (s' & x & ->). rewrite app_assoc, !last_last. reflexivity. }
      assert (DL : forall s, Forall digit s -> s <> [] -> digit (last s 0)).
      { intros s F N. destruct (exists_last N) as (s' & x & ->). rewrite last_last. apply Forall_app in F. destruct F as [_ F]. inversion F; assumption. }
      assert (AL : forall s, Forall letter s -> s <> [] -> letter (last s 0)).
      { intros s F N. destruct (exists_last N) as (s' & x & ->). rewrite last_last. apply Forall_app in F. destruct F as [_ F]. inversion F; assumption. }
      subst c. inversion L as [p d P D W|p a P D W|p a d P D1 D2 W|p a P D W|p a d P D1 D2 W]; subst w.
      - destruct d as [|x d]; [|rewrite TL by discriminate; left; apply DL; [exact D|discriminate]].
        destruct (P4 _ _ P) as (x & y & z & u & -> & U); [tauto|]. cbn. tauto.
      - destruct a as [|x a]; [|rewrite TL by discriminate; right; left; apply AL; [exact D|discriminate]].
        destruct (P4 _ _ P) as (x & y & z & u & -> & U); [tauto|]. cbn. tauto.
      - rewrite app_assoc. rewrite TL by discriminate. destruct d as [|x d]; [cbn; tauto|].
        change (45 :: x :: d) with ([45] ++ x :: d). rewrite TL by discriminate. left. apply DL; [exact D2|discriminate].
      - destruct a as [|x a]; [|rewrite TL by discriminate; left; apply DL; [exact D|discriminate]].
        destruct (P4 _ _ P) as (x & y & z & u & -> & U); [tauto|]. cbn. tauto.
      - rewrite app_assoc. rewrite TL by discriminate. destruct d as [|x d]; [cbn; tauto|].
        change (45 :: x :: d) with ([45] ++ x :: d). rewrite TL by discriminate. left. apply DL; [exact D2|discriminate]. }
    specialize (LL _ L 46 eq_refl). unfold digit, letter in LL. lia.
  - apply NS; lia.
  - constructor.
Qed.

(** Finding: if the comments end with a label, the tool steps over the closing NUL and
    reads on behind the buffer. *)
Theorem C59_label_at_end_refuted : exists s, cstr_ok s /\ label (zs "bsc#1") /\ s = zs "fixes bsc#1" /\
  relevant_labels (Some (s ++ [0])) = I_ub.
Proof.
  exists (zs "fixes bsc#1"). split; [apply ex_cstr_zs; reflexivity|]. split.
  - apply (lab_bsc (zs "bsc#") (zs "1")).
    + repeat (apply Forall2_cons; [left; reflexivity|]). apply Forall2_nil.
    + apply Forall_cons; [unfold digit; cbn; lia|apply Forall_nil].
  - split; [reflexivity|vm_compute; reflexivity].
Qed.
Print Assumptions C59_label_at_end_refuted.

(** Finding: of two labels that touch, the second is not seen. *)
Theorem C59_touching_refuted : exists s, cstr_ok s /\ s = zs "bsc#1" ++ zs "bsc#2" ++ zs "." /\
  relevant_labels (Some (s ++ [0])) = I_ok [zs "bsc#1"].
Proof.
  exists (zs "bsc#1bsc#2."). split; [apply ex_cstr_zs; vm_compute; reflexivity|]. split; [reflexivity|vm_compute; reflexivity].
Qed.
Print Assumptions C59_touching_refuted.

(** ** C60: the state shown *)

(** The state shown is the one libpulp keeps: fine, disabled by the user, or the
    error. (libpulp's own codes do not include EOLDLIBPULP.) *)
Theorem C60_status : forall t p lp e,
  the_libpulp p = Some lp -> ext lp 7 <> 0 -> 0 <= e < 2 ^ 32 -> holds (t_ok t) (t_mem t) (ext lp 7) (le_enc 4 e) ->
  e <> EOLDLIBPULP ->
  let shown := remote_status (get_libpulp_error_state_remote t p) in
  (e = 0 -> shown = St_enabled) /\ (e = EUSRBLOCKED -> shown = St_disabled_by_user) /\
  (e <> 0 -> e <> EUSRBLOCKED -> shown = St_error e).
Proof.
  intros t p lp e L N E H NE. cbv zeta. unfold get_libpulp_error_state_remote. rewrite L.
  destruct (Z.eqb_spec (ext lp 7) 0); [contradiction|]. cbn [negb].
  rewrite (trd_holds t _ _ 4 H) by apply le_enc_length. rewrite le_dec_enc_id by (change (8 * Z.of_nat 4) with 32; lia).
  unfold remote_status. destruct (Z.eqb_spec e EOLDLIBPULP); [contradiction|]. rewrite orb_false_r.
  split; [intros ->; reflexivity|]. split; [intros ->; reflexivity|]. intros E0 E1.
  destruct (Z.eqb_spec e 0); [contradiction|]. destruct (Z.eqb_spec e EUSRBLOCKED); [contradiction|]. reflexivity.
Qed.
Print Assumptions C60_status.

(** A state that cannot be read is never shown as fine or as disabled by the user. *)
Theorem C60_unreadable : forall t p lp,
  the_libpulp p = Some lp -> ext lp 7 <> 0 ->
  (exists i, 0 <= i < 4 /\ t_ok t (ext lp 7 + i) = false) ->
  exists e, remote_status (get_libpulp_error_state_remote t p) = St_error e.
Proof.
  intros t p lp L N (i & I & B). unfold get_libpulp_error_state_remote. rewrite L.
  destruct (Z.eqb_spec (ext lp 7) 0); [contradiction|]. cbn [negb].
  assert (trd t (ext lp 7) 4 = None) as ->; [|eexists; reflexivity].
  unfold trd, NtModel.rd. cbn [vm_span]. set (a := ext lp 7) in *.
  assert (i = 0 \/ i = 1 \/ i = 2 \/ i = 3) as [-> | [-> | [-> | ->]]] by lia;
    [replace (a + 0) with a in B by lia | | replace (a + 2) with (a + 1 + 1) in B by lia
    | replace (a + 3) with (a + 1 + 1 + 1) in B by lia]; rewrite B;
    repeat match goal with |- context[t_ok t ?x] => destruct (t_ok t x) end; reflexivity.
Qed.
Print Assumptions C60_unreadable.

Example C60_unreadable_case : exists lp, the_libpulp ex_process = Some lp /\ ext lp 7 <> 0 /\
  remote_status (get_libpulp_error_state_remote (mk_target (fun _ => false) (t_mem ex_target) 50 []) ex_process) =
  St_error EUNKNOWN.
Proof. eexists. split; [vm_compute; reflexivity|]. split; [vm_compute; discriminate|vm_compute; reflexivity]. Qed.

(** A process without a libpulp to be found is shown with an error, too. *)
Theorem C60_no_libpulp : forall t p, the_libpulp p = None ->
  exists e, remote_status (get_libpulp_error_state_remote t p) = St_error e.
Proof. intros t p L. unfold get_libpulp_error_state_remote. rewrite L. eexists. reflexivity. Qed.
Print Assumptions C60_no_libpulp.

Example C60_status_case : exists lp, the_libpulp ex_process = Some lp /\ ext lp 7 <> 0 /\
  holds (t_ok ex_target) (t_mem ex_target) (ext lp 7) (le_enc 4 0).
Proof.
  eexists. split; [vm_compute; reflexivity|]. split; [vm_compute; discriminate|].
  match goal with |- holds _ _ ?a _ => replace a with 344448 by (vm_compute; reflexivity) end. ex_hold.
Qed.

(** ** C63: the header of a main program that is not position independent *)

(** It is taken from the first line of /proc/PID/maps that names the program. *)
Theorem C63_main_header_partial : forall pre m post name o,
  o_l_addr o = 0 ->
  Forall mline_ok (pre ++ [m]) -> Forall (fun x => plain_path (ml_path x)) (pre ++ [m]) ->
  Forall (fun x => get_basename (ml_path x) <> name) pre -> get_basename (ml_path m) = name ->
  get_ehdr_addr (Some (map mline_text pre ++ mline_text m :: post)) name o = I_ok (hexval (ml_start m)).
Proof.
  intros pre m post name o L O P N E. unfold get_ehdr_addr. rewrite L. cbn [Z.eqb negb]. apply maps_scan_spec; assumption.
Qed.
Print Assumptions C63_main_header_partial.

Definition ex_line (a b path : list Z) : mline :=
  mk_ml a b (zs "r-xp") (zs "00000000") (zs "08:02") (zs "173521") 5 path.
Lemma hexnum_b s : s <> [] -> forallb (fun c => ((48 <=? c) && (c <=? 57)) || ((97 <=? c) && (c <=? 102))) s = true ->
  hexval s < 2 ^ 64 -> hexnum s.
Proof.
  intros N F V. split; [exact N|]. split; [|exact V]. apply Forall_forall. intros c C. rewrite forallb_forall in F. specialize (F c C).
  unfold hexdigit. lia.
Qed.
Lemma notin_b x s : forallb (fun c => negb (c =? x)) s = true -> ~ In x s.
Proof. intros F I. rewrite forallb_forall in F. specialize (F x I). rewrite Z.eqb_refl in F. discriminate. Qed.
Lemma ex_line_ok a b path : a <> [] -> b <> [] ->
  forallb (fun c => ((48 <=? c) && (c <=? 57)) || ((97 <=? c) && (c <=? 102))) a = true ->
  forallb (fun c => ((48 <=? c) && (c <=? 57)) || ((97 <=? c) && (c <=? 102))) b = true ->
  hexval a < 2 ^ 64 -> hexval b < 2 ^ 64 -> forallb (fun c => negb (c =? 10)) path = true -> mline_ok (ex_line a b path).
Proof.
  intros. repeat split; cbn [ml_start ml_end ml_perm ml_off ml_dev ml_inode ml_path ex_line]; try discriminate; try assumption;
    try (apply notin_b; (reflexivity || assumption));
    try (apply (hexnum_b a); assumption); try (apply (hexnum_b b); assumption).
Qed.
Example C63_main_header_partial_case :
  let m := ex_line (zs "400000") (zs "452000") (zs "/usr/bin/server") in
  let q := ex_line (zs "3f0000") (zs "3f1000") [] in
  Forall mline_ok ([q] ++ [m]) /\ Forall (fun x => plain_path (ml_path x)) ([q] ++ [m]) /\
  get_basename (ml_path m) = zs "server" /\ hexval (ml_start m) = 4194304.
Proof.
  cbv zeta. split; [|split; [|split; reflexivity]].
  - apply Forall_cons; [|apply Forall_cons; [|apply Forall_nil]]; apply ex_line_ok; try discriminate; try reflexivity.
  - apply Forall_cons; [|apply Forall_cons; [|apply Forall_nil]]; (split; [apply notin_b; reflexivity|]);
      [left; reflexivity|right; vm_compute; discriminate].
Qed.

(** Finding: the name the lines are compared with is /proc/PID/comm, which has at most
    15 characters. A program with a longer name is not found, and the address 0 is
    taken for its header. *)
Theorem C63_long_name_refuted : exists m comm,
  mline_ok m /\ plain_path (ml_path m) /\ comm = firstn 15 (get_basename (ml_path m)) ++ [10] /\
  forall o, o_l_addr o = 0 ->
  get_ehdr_addr (Some [mline_text m]) (upto_newline (get_basename comm)) o = I_ok 0.
Proof.
  exists (ex_line (zs "400000") (zs "452000") (zs "/usr/bin/long_program_name")), (zs "long_program_na" ++ [10%Z]).
  split; [apply ex_line_ok; try discriminate; reflexivity|].
  split; [split; [apply notin_b; reflexivity|right; vm_compute; discriminate]|]. split; [reflexivity|].
  intros o L. unfold get_ehdr_addr. rewrite L. vm_compute. reflexivity.
Qed.
Print Assumptions C63_long_name_refuted.

(** Finding: a path with a slash followed by a blank makes the tool index the empty
    base name with an unsigned -1 and crash; a process can map such a file. *)
Theorem C63_slash_blank_refuted : exists m, mline_ok m /\ ml_path m = zs "/memfd:x/ y" /\
  forall main o, o_l_addr o = 0 -> get_ehdr_addr (Some [mline_text m]) main o = I_ub.
Proof.
  exists (ex_line (zs "400000") (zs "452000") (zs "/memfd:x/ y")). split; [apply ex_line_ok; try discriminate; reflexivity|].
  split; [reflexivity|]. intros main o L. unfold get_ehdr_addr. rewrite L. vm_compute. reflexivity.
Qed.
Print Assumptions C63_slash_blank_refuted.

(** ** C64: the stack check *)

(** If the check says that no thread is inside the library, then no frame of any
    thread is inside a mapping of the library, except at the very first byte of
    one. *)
Theorem C64_free_partial : forall ms library ths,
  Forall mline_ok ms ->
  coarse_library_range_check (Some (map mline_text ms)) library ths = 0 ->
  forall m fr pc, In m ms -> ml_path m = library -> In fr ths -> In (Some pc) fr ->
  ~ (hexval (ml_start m) < pc < hexval (ml_end m)).
Proof.
  intros ms library ths O H m fr pc IM E IF IP. unfold coarse_library_range_check in H.
  destruct (library_range_detect (map mline_text ms) library) as [lo hi] eqn:R.
  destruct (range_loop_spec library ms _ _ lo hi O R) as (_ & _ & HU & _ & _).
  destruct (HU m IM) as [A B]; [rewrite <- E; apply path_in_line|].
  destruct (threads_in_range lo hi ths) as [[|]| | |] eqn:T; try discriminate.
  pose proof (threads_false _ _ _ T fr pc IF IP). lia.
Qed.
Print Assumptions C64_free_partial.

(** If it says that one is, a frame is between the lowest and the highest address of
    mappings with the library's name in them. *)
Theorem C64_busy : forall ms library ths,
  Forall mline_ok ms ->
  coarse_library_range_check (Some (map mline_text ms)) library ths = 1 ->
  exists fr pc m1 m2, In fr ths /\ In (Some pc) fr /\ In m1 ms /\ In m2 ms /\
    substring library (mline_text m1) /\ substring library (mline_text m2) /\
    hexval (ml_start m1) < pc < hexval (ml_end m2).
Proof.
  intros ms library ths O H. unfold coarse_library_range_check in H.
  destruct (library_range_detect (map mline_text ms) library) as [lo hi] eqn:R.
  destruct (range_loop_spec library ms _ _ lo hi O R) as (L1 & L2 & HU & LL & HH).
  destruct (threads_in_range lo hi ths) as [[|]| | |] eqn:T; try discriminate.
  destruct (threads_true _ _ _ T) as (fr & pc & IF & IP & P).
  destruct HH as [HH|(m2 & I2 & S2 & E2)].
  - destruct LL as [LL|(m1 & I1 & S1 & E1)]; [lia|].
    exfalso. assert (X : 0 <= hexval (ml_start m1)).
    { rewrite Forall_forall in O. destruct (O m1 I1) as ((_ & D & _) & _). unfold hexval.
      assert (G : forall s v, Forall hexdigit s -> 0 <= v -> 0 <= fold_left (fun v c => 16 * v + (if c <=? 57 then c - 48 else c - 87)) s v).
      { induction s as [|c s IH]; intros v F V; cbn [fold_left]; [exact V|]. inversion F as [|? ? C F']; subst. apply IH; [exact F'|].
        unfold hexdigit in C. destruct (Z.leb_spec c 57); lia. }
      apply G; [exact D|lia]. }
    lia.
  - destruct LL as [LL|(m1 & I1 & S1 & E1)].
    + assert (X : hexval (ml_end m2) < 2 ^ 64) by (rewrite Forall_forall in O; destruct (O m2 I2) as (_ & (_ & _ & X) & _); exact X). lia.
    + exists fr, pc, m1, m2. rewrite E1, E2 in P. repeat split; try assumption; apply P.
Qed.
Print Assumptions C64_busy.

(** If every stack can be walked, one of the two answers is given. *)
Theorem C64_answers : forall ms library ths, Forall (Forall (fun f => f <> None)) ths ->
  coarse_library_range_check (Some ms) library ths = 0 \/ coarse_library_range_check (Some ms) library ths = 1.
Proof.
  intros ms library ths F. unfold coarse_library_range_check. destruct (library_range_detect ms library) as [lo hi].
  destruct (threads_defined lo hi ths F) as ([|] & ->); [right|left]; reflexivity.
Qed.
Print Assumptions C64_answers.

(** More exactly, with [C64_busy] and [C64_answers]: when all stacks can be walked, the answer is "free" if and only if no frame lies
    between the start of a mapping and the end of a mapping that have the library's name in their lines. *)
Theorem C64_exact : forall ms library ths,
  Forall mline_ok ms -> Forall (Forall (fun f => f <> None)) ths ->
  (coarse_library_range_check (Some (map mline_text ms)) library ths = 0 <->
   forall m1 m2 fr pc, In m1 ms -> In m2 ms -> substring library (mline_text m1) -> substring library (mline_text m2) ->
     In fr ths -> In (Some pc) fr -> ~ (hexval (ml_start m1) < pc < hexval (ml_end m2))).
Proof.
  intros ms library ths O W. split.
  - intros H m1 m2 fr pc I1 I2 S1 S2 IF IP. unfold coarse_library_range_check in H.
    destruct (library_range_detect (map mline_text ms) library) as [lo hi] eqn:R.
    destruct (range_loop_spec library ms _ _ lo hi O R) as (_ & _ & HU & _ & _).
    destruct (HU m1 I1 S1) as [A1 _]. destruct (HU m2 I2 S2) as [_ B2].
    destruct (threads_in_range lo hi ths) as [[|]| | |] eqn:T; try discriminate.
    pose proof (threads_false _ _ _ T fr pc IF IP). lia.
  - intros H. destruct (C64_answers (map mline_text ms) library ths W) as [A|A]; [exact A|]. exfalso.
    destruct (C64_busy ms library ths O A) as (fr & pc & m1 & m2 & IF & IP & I1 & I2 & S1 & S2 & P).
    exact (H m1 m2 fr pc I1 I2 S1 S2 IF IP P).
Qed.
Print Assumptions C64_exact.

Definition ex_maps : list mline :=
  [ ex_line (zs "7f0000000000") (zs "7f0000002000") (zs "/lib64/libfoo.so"); ex_line (zs "7f0000002000") (zs "7f0000003000") (zs "/lib64/libfoo.so");
    ex_line (zs "7f1000000000") (zs "7f1000002000") (zs "/lib64/libc.so.6") ].
Example C64_case : Forall mline_ok ex_maps /\
  coarse_library_range_check (Some (map mline_text ex_maps)) (zs "/lib64/libfoo.so") [[Some 139707842330624; Some 4200000]] = 0 /\
  coarse_library_range_check (Some (map mline_text ex_maps)) (zs "/lib64/libfoo.so")
    [[Some 139707842330624; Some 4200000]; [Some 139707842330624; Some (hexval (zs "7f0000002004")); Some 4200000]] = 1.
Proof.
  split; [|split; vm_compute; reflexivity].
  unfold ex_maps. repeat (apply Forall_cons; [apply ex_line_ok; try discriminate; reflexivity|]). apply Forall_nil.
Qed.

(** Finding: the comparison with the start of the range is strict; a thread about to
    execute the first instruction of a library whose code is mapped first is not seen. *)
Theorem C64_first_byte_refuted : exists m library pc,
  mline_ok m /\ ml_path m = library /\ hexval (ml_start m) <= pc < hexval (ml_end m) /\
  coarse_library_range_check (Some [mline_text m]) library [[Some pc]] = 0.
Proof.
  exists (ex_line (zs "7f0000000000") (zs "7f0000002000") (zs "/lib64/libfoo.so")), (zs "/lib64/libfoo.so"), (hexval (zs "7f0000000000")).
  split; [apply ex_line_ok; try discriminate; reflexivity|]. split; [reflexivity|].
  split; [vm_compute; split; congruence|vm_compute; reflexivity].
Qed.
Print Assumptions C64_first_byte_refuted.

(** Finding: the name from the livepatch is looked for in the paths of the mapped
    files. If the library was loaded through a symbolic link, no line matches, and
    the check says "free" whatever the threads do. *)
Theorem C64_link_refuted : forall ms library ths,
  (forall l, In l ms -> ~ substring library l) -> Forall (Forall (fun f => f <> None)) ths ->
  coarse_library_range_check (Some ms) library ths = 0.
Proof.
  intros ms library ths N F.
  assert (R : forall lo hi, range_loop ms library lo hi = (lo, hi)).
  { induction ms as [|l ms IH]; intros lo hi; [reflexivity|]. cbn [range_loop].
    replace (strstr l library) with false by (symmetry; apply strstr_false; apply N; left; reflexivity).
    apply IH. intros x X. apply N. right. exact X. }
  unfold coarse_library_range_check, library_range_detect. rewrite R.
  destruct (threads_defined (2 ^ 64 - 1) 0 ths F) as ([|] & T); rewrite T; [|reflexivity].
  apply threads_true in T. destruct T as (fr & pc & _ & _ & P). lia.
Qed.
Print Assumptions C64_link_refuted.
Example C64_link_refuted_case :
  (forall l, In l (map mline_text ex_maps) -> ~ substring (zs "/usr/lib64/libfoo.so.1") l) /\
  Forall (Forall (fun f => f <> None)) [[Some (hexval (zs "7f0000002004"))]].
Proof.
  split; [|repeat constructor; discriminate]. intros l I. apply strstr_false.
  cbn [map ex_maps In] in I. repeat (destruct I as [<-|I]; [vm_compute; reflexivity|]). destruct I.
Qed.
