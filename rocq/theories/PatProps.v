(** C81: the report of `ulp patches`. *)
From Coq Require Import String.
From Verif Require Import Base BaseFacts StrModel InsnQModel LibModel MetaModel TextModel TextSpec TextProofs PcModel PcSpec PcProofs PcProps
  NtModel NtSpec NtProofs PtModel PtSpec PtProofs IntrModel IntrSpec IntrProofs Intr3Proofs IntrEx PostModel X86Spec
  LogModel LogSpec LogProofs PatModel PatSpec PatProofs.
From Coq Require Import Lia.

(** ** One process *)

(** The entry of a process: its pid and name, its state, and for every object that
    has a livepatch or a function starting with nops one line, followed by exactly
    its livepatches with time and labels, in the order libpulp keeps them. With -b,
    the build IDs are given; with --only-livepatched, a process without livepatches
    is left out. Missing: [C81_old_libpulp_refuted], [C81_fixed_address_refuted],
    and the cases where something cannot be read ([C81_hidden_refuted]). *)
Theorem C81_report_partial : forall ce comments op v date labels patchable pid l lp,
  target_ok (v_t v) -> the_libpulp (v_p v) = Some lp -> ext lp 2 <> 0 -> v_attach v = true ->
  state_at (v_t v) (ext lp 10) (ext lp 2) l -> fuel_for (v_t v) l ->
  int_text pid (v_pid v) ->
  keeps_time (ext lp 10) = true ->
  (forall q, In q l -> lp_time q <> 0 /\ ce_asctime ce (lp_time q) = Some (date (lp_time q) ++ [10])) ->
  (forall q, In q l -> relevant_labels (comments (lp_container q)) = I_ok (labels (lp_container q))) ->
  (forall o, In o (p_objects (v_p v)) -> existsb (for_lib (o_filename o)) l = true \/ judged v patchable o) ->
  process_text ce comments op v =
  I_ok (if po_only op && (match l with [] => true | _ => false end) then []
        else unlines (process_lines (ce_strerror ce) date labels patchable (po_buildid op) (po_no_color op) pid
                        (get_basename (o_filename (p_main (v_p v))))
                        (get_libpulp_error_state_remote (v_t v) (v_p v)) l (p_objects (v_p v)))).
Proof.
  intros ce comments op v date labels patchable pid l lp T L N A S F PI KT DT LB J. unfold process_text.
  rewrite A, (read_state _ (ext lp 10) _ lp l T L N eq_refl S F). cbn [ibind].
  assert (E : match map (as_read (ext lp 10)) l with [] => true | _ => false end = match l with [] => true | _ => false end)
    by (destruct l; reflexivity).
  rewrite E. destruct (po_only op && _); [reflexivity|].
  rewrite (objects_lines ce date (ext lp 10) labels comments patchable (po_buildid op) v l KT DT LB _ J). cbn [ibind].
  rewrite status_lines, (print_int_spec pid _ PI). unfold process_lines. set (st := get_libpulp_error_state_remote _ _).
  set (obs := flat_map (object_lines date labels (po_buildid op) l) _).
  rewrite !unlines_app, !unlines_cons. change (unlines []) with (@nil Z).
  change (match p_objects (v_p v) with [] => _ | _ => [] end) with (@nil Z).
  rewrite <- !app_assoc, ?app_nil_l, ?app_nil_r. rewrite <- ?app_assoc, ?app_nil_l. reflexivity.
Qed.
Print Assumptions C81_report_partial.

(** The process of the examples of C58, with symbols for its main program, one of
    which starts with nops. *)
Definition pat_segs : list (Z * list Z) :=
  [ (81920, repeat 0 24 ++ (le_enc 8 77 ++ le_enc 8 20480 ++ le_enc 8 12)); (81968, le_enc 8 77 ++ le_enc 8 86016 ++ le_enc 8 12); (86016, [102; 144]) ] ++ ex_segs.
Definition pat_target : target := mk_target low (seg_get pat_segs) 50 (repeat 0 8).
Definition pat_main : dynobj := mk_dynobj (zs "server") 65536 197888 81920 79872 2 (ex_id 5) (repeat 0 11).
Definition pat_foo : dynobj := mk_dynobj (zs "/usr/lib64/libfoo.so") 393216 198400 403456 405504 0 (ex_id 0) (repeat 0 11).
Definition pat_pulp : dynobj :=
  mk_dynobj (zs "/usr/lib64/libpulp.so.0") 327680 198144 339968 342016 14 (ex_id 9)
    [331777; 331778; 344320; 331780; 1376256; 331783; 331784; 344448; 331785; 331786; ULP_VERSION_TRIPLET 0 3 13].
Definition pat_process : process := mk_process pat_main [pat_foo; pat_pulp] 1.
Definition pat_view : pview :=
  mk_pview 4711 pat_target ex_procfs pat_process true (fun _ => true) (fun _ => true) (fun _ => false).
Definition pat_comments (c : list Z) : option (list Z) :=
  if bytes_eqb c (zs "/usr/lib/patches/foo2.so") then Some (zs "fixes bsc#123456, CVE-2024-1 and jsc#PED-77." ++ [0]) else None.
Definition pat_labels (c : list Z) : list (list Z) :=
  if bytes_eqb c (zs "/usr/lib/patches/foo2.so") then [zs "bsc#123456"; zs "CVE-2024-1"; zs "jsc#PED-77"] else [].
Definition pat_date (ts : Z) : list Z :=
  if ts =? 1700000000 then zs "Tue Nov 14 22:13:20 2023" else zs "Sun Sep 13 12:26:40 2020".
Definition pat_ce : cenv := mk_cenv (fun _ => zs "?") (fun ts => Some (pat_date ts ++ [10])).
Definition pat_op : popts := mk_popts None None true false false true.
Definition pat_patchable (o : dynobj) : bool := bytes_eqb (o_filename o) (zs "server").
Definition pat_lines : list (list Z) :=
  [ zs "PID: 4711, name: server";
    zs "  Livepatching status: enabled";
    zs "  Livepatchable libraries:";
    zs "    in server (0505050505050505050505050505050505050505):";
    zs "    in /usr/lib64/libfoo.so (0000000000000000000000000000000000000000):";
    zs "      livepatch: foo2.so loaded on Tue Nov 14 22:13:20 2023";
    zs "        bug labels: bsc#123456 CVE-2024-1 jsc#PED-77 ";
    zs "      livepatch: foo1.so loaded on Sun Sep 13 12:26:40 2020";
    [] ].

Lemma seg_get_byte segs a : forallb (fun s => forallb (fun x => (0 <=? x) && (x <? 256)) (snd s)) segs = true ->
  is_byte (seg_get segs a).
Proof.
  induction segs as [|[b d] l IH]; intros H; cbn [seg_get]; [unfold is_byte; lia|]. cbn [forallb snd] in H.
  apply andb_prop in H. destruct H as [H1 H2]. destruct (_ && _); [|exact (IH H2)].
  destruct (nth_in_or_default (Z.to_nat (a - b)) d 0) as [I|E]; [|rewrite E; unfold is_byte; lia].
  rewrite forallb_forall in H1. specialize (H1 _ I). unfold is_byte. lia.
Qed.
Lemma pat_target_ok : target_ok pat_target.
Proof.
  split; [|split; [reflexivity|]].
  - unfold byte_mem. intros a. cbn [t_mem pat_target]. apply seg_get_byte. vm_compute. reflexivity.
  - intros x y E. cbn [t_ok pat_target]. unfold low.
    pose proof (Z.div_mod x 4096 ltac:(lia)). pose proof (Z.mod_pos_bound x 4096 ltac:(lia)).
    pose proof (Z.div_mod y 4096 ltac:(lia)). pose proof (Z.mod_pos_bound y 4096 ltac:(lia)).
    destruct (Z.leb_spec 0 x), (Z.leb_spec 0 y), (Z.ltb_spec x (2 ^ 32)), (Z.ltb_spec y (2 ^ 32)); try reflexivity; lia.
Qed.
Lemma pat_holds a l : mem_read (t_mem pat_target) a (List.length l) = l -> 0 <= a -> a + zlen l <= 2 ^ 32 ->
  holds (t_ok pat_target) (t_mem pat_target) a l.
Proof. intros H A B. split; [exact H|]. intros x X. cbn [t_ok pat_target]. unfold low. lia. Qed.
Ltac pat_hold := apply pat_holds; [vm_compute; reflexivity|vm_compute; congruence|vm_compute; congruence].
Lemma pat_heap a s : forallb (fun x => (0 <? x) && (x <? 256)) s = true ->
  mem_read (t_mem pat_target) a (List.length s) = s -> t_mem pat_target (a + zlen s) = 0 ->
  0 < a -> a mod 8 = 0 -> a + zlen s + 1 <= 2 ^ 32 -> heap_string pat_target a s.
Proof.
  intros C H N P M B. split; [split; [apply ex_cstr_zs; exact C|split; assumption]|]. split; [exact P|]. split; [exact M|].
  split; [lia|]. intros x X. cbn [t_ok pat_target]. unfold low. lia.
Qed.
Ltac pat_hp := apply pat_heap; [vm_compute; reflexivity|vm_compute; reflexivity|vm_compute; reflexivity|lia|reflexivity|vm_compute; congruence].
Lemma pat_state : state_at pat_target (ULP_VERSION_TRIPLET 0 3 13) 344320 [ex_patch1; ex_patch2].
Proof.
  exists (repeat 0 7), 345088. split; [reflexivity|]. split; [lia|]. split; [pat_hold|].
  assert (PO : forall p, In p [ex_patch1; ex_patch2] -> lpatch_ok p).
  { intros p [<-|[<-|[]]]; (split; [reflexivity|]; split; [repeat constructor; unfold is_byte; lia|];
    split; [apply ex_cstr_zs; reflexivity|]; split; [apply ex_cstr_zs; reflexivity|]; cbn; lia). }
  apply (pl_cons _ _ 345088 ex_patch1 [ex_patch2] 345600 345856 0 345344 0); [lia|apply PO; cbn; tauto|lia|lia|lia|pat_hp|pat_hp|pat_hold|].
  apply (pl_cons _ _ 345344 ex_patch2 [] 346112 346368 0 0 0); [lia|apply PO; cbn; tauto|lia|lia|lia|pat_hp|pat_hp|pat_hold|].
  constructor.
Qed.
Lemma pat_symbol a v pre post : 0 <= v < 2 ^ 64 -> List.length pre = 8%nat -> List.length post = 8%nat ->
  mem_read (t_mem pat_target) a 24 = pre ++ le_enc 8 v ++ post -> 0 <= a -> a + 24 <= 2 ^ 32 -> symbol_at pat_target a v.
Proof.
  intros V A B H P Q. split; [exact V|]. exists pre, post. split; [exact A|]. split; [exact B|].
  assert (L : List.length (pre ++ le_enc 8 v ++ post) = 24%nat) by (rewrite !app_length, le_enc_length, A, B; reflexivity).
  apply pat_holds; [rewrite L; exact H|exact P|unfold zlen; rewrite L; exact Q].
Qed.
Ltac pat_sym a := eapply (pat_symbol a _ (firstn 8 (mem_read (t_mem pat_target) a 24)) (skipn 16 (mem_read (t_mem pat_target) a 24)));
  [vm_compute; split; congruence|vm_compute; reflexivity|vm_compute; reflexivity|vm_compute; reflexivity|lia|vm_compute; congruence].
Definition pulp_vals : list Z := [0; 4097; 4098; 16640; 4100; 4101; 1048576; 4103; 4104; 16768; 16384; 4105; 4106; 4107].
Lemma pat_symbols : forall vals a, 0 <= a -> a + 24 * zlen vals <= 2 ^ 32 ->
  forallb (fun p => let d := mem_read (t_mem pat_target) (fst p) 24 in
                    bytes_eqb d (firstn 8 d ++ le_enc 8 (snd p) ++ skipn 16 d) && (0 <=? snd p) && (snd p <? 2 ^ 64))
          (combine (map (fun i => a + 24 * Z.of_nat i) (seq 0 (List.length vals))) vals) = true ->
  symbols_at pat_target a vals.
Proof.
  induction vals as [|v vals IH]; intros a A B H; [exact I|]. cbn [symbols_at]. rewrite zlen_cons in B. pose proof (zlen_nonneg vals).
  cbn [List.length seq map combine forallb] in H. apply andb_prop in H. destruct H as [H1 H2]. cbn [fst snd] in H1.
  rewrite Z.mul_0_r, Z.add_0_r in H1. apply andb_prop in H1. destruct H1 as [H1 V2]. apply andb_prop in H1. destruct H1 as [H1 V1].
  split.
  - apply bytes_eqb_eq in H1. set (d := mem_read (t_mem pat_target) a 24) in *.
    assert (LD : List.length d = 24%nat) by apply mem_read_length.
    apply (pat_symbol a v (firstn 8 d) (skipn 16 d)); [lia|rewrite firstn_length, LD; reflexivity|rewrite skipn_length, LD; reflexivity|exact H1|exact A|lia].
  - rewrite u64_id by lia. apply IH; [lia|lia|]. rewrite <- seq_shift, map_map in H2.
    erewrite map_ext; [exact H2|]. intros i. cbn beta. lia.
Qed.
Lemma pat_reads a : 0 <= a < 2 ^ 32 - 1 -> t_ok pat_target a = true /\ t_ok pat_target (a + 1) = true.
Proof. intros H. cbn [t_ok pat_target]. unfold low. lia. Qed.

Example C81_report_partial_case :
  (exists lp, the_libpulp (v_p pat_view) = Some lp /\ ext lp 2 = 344320 /\ ext lp 10 = ULP_VERSION_TRIPLET 0 3 13) /\
  target_ok (v_t pat_view) /\ state_at (v_t pat_view) (ULP_VERSION_TRIPLET 0 3 13) 344320 [ex_patch1; ex_patch2] /\
  fuel_for (v_t pat_view) [ex_patch1; ex_patch2] /\
  (forall q, In q [ex_patch1; ex_patch2] -> relevant_labels (pat_comments (lp_container q)) = I_ok (pat_labels (lp_container q))) /\
  (forall o, In o (p_objects (v_p pat_view)) ->
     existsb (for_lib (o_filename o)) [ex_patch1; ex_patch2] = true \/ judged pat_view pat_patchable o) /\
  process_text pat_ce pat_comments pat_op pat_view = I_ok (unlines pat_lines).
Proof.
  split; [eexists; split; [vm_compute; reflexivity|]; split; reflexivity|].
  split; [exact pat_target_ok|]. split; [exact pat_state|].
  split; [split; [cbn; lia|]; apply Forall_cons; [cbn; lia|apply Forall_cons; [cbn; lia|apply Forall_nil]]|].
  split; [intros q [<-|[<-|[]]]; vm_compute; reflexivity|]. split; [|vm_compute; reflexivity].
  change (p_objects (v_p pat_view)) with [pat_main; pat_foo; pat_pulp].
  intros o [<-|[<-|[<-|[]]]].
  - right. repeat split; try reflexivity; try discriminate. exists [0; 20480].
    split; [apply pat_symbols; [vm_compute; congruence|vm_compute; congruence|vm_compute; reflexivity]|].
    split; [reflexivity|]. split; [vm_compute; split; congruence|].
    split; [intros x [<-|[<-|[]]]; apply pat_reads; vm_compute; split; congruence|].
    split; [|reflexivity]. intros _. exists 20480. split; [cbn; tauto|]. right. split; vm_compute; reflexivity.
  - left. vm_compute. reflexivity.
  - right. repeat split; try reflexivity; try discriminate. exists pulp_vals.
    split; [apply pat_symbols; [vm_compute; congruence|vm_compute; congruence|vm_compute; reflexivity]|].
    split; [reflexivity|]. split; [vm_compute; split; congruence|].
    split; [intros x X; cbn [pulp_vals In] in X; repeat (destruct X as [<-|X]; [apply pat_reads; vm_compute; split; congruence|]); contradiction|].
    split; [intros PP; vm_compute in PP; discriminate PP|]. intros (x & X & NO). exfalso.
    assert (B : forallb (fun x => negb ((t_mem pat_target (u64 (327680 + x)) =? 144) || (t_mem pat_target (u64 (327680 + x)) =? 102)))
                        pulp_vals = true) by (vm_compute; reflexivity).
    rewrite forallb_forall in B. specialize (B x X). unfold nops_at in NO.
    change (t_mem (v_t pat_view)) with (t_mem pat_target) in NO. change (o_l_addr pat_pulp) with 327680 in NO.
    apply negb_true_iff, orb_false_iff in B. destruct B as [B1 B2]. apply Z.eqb_neq in B1, B2.
    destruct NO as [[NO _]|[NO _]]; contradiction.
Qed.

(** ** All processes *)

(** Without a pid, the entries of the processes asked for (C55) are printed in the
    order of /proc, each once and nothing else, and the status is 0; one that cannot
    be read is left out and the others are still shown. (With threads the same
    processes are delivered: C34.) *)
Theorem C81_selected_partial : forall ce sy op sel txt,
  isnumber (po_process op) = false ->
  (forall pe, In pe (sy_entries sy) -> (sel pe = true <-> wanted (sy_w sy) (po_process op) (po_user op) pe)) ->
  (forall pe, In pe (sy_entries sy) ->
    po_user op = None \/
    (exists u v, po_user op = Some u /\ decimal u v /\ 1 <= v < 2 ^ 32) \/
    (exists u name, po_user op = Some u /\ (~ exists v, decimal u v) /\ 0 < pe_owner pe /\
       pw_getpwuid (sy_w sy) (pe_owner pe) = Some name)) ->
  (forall pe, In pe (sy_entries sy) -> sel pe = true ->
    atoi (pe_name pe) <> 0 /\ pe_init pe = true /\
    ((exists v, sy_view sy (atoi (pe_name pe)) = inl v /\
        process_text ce (sy_comments sy) op v = I_ok (txt (atoi (pe_name pe)))) \/
     (exists e, sy_view sy (atoi (pe_name pe)) = inr e /\ txt (atoi (pe_name pe)) = []))) ->
  run_patches ce sy op = I_ok (flat_map (fun pe => txt (atoi (pe_name pe))) (filter sel (sy_entries sy)), 0).
Proof.
  intros ce sy op sel txt NN W SC H. unfold run_patches. rewrite NN.
  assert (SK : forall pe, In pe (sy_entries sy) -> pe_skipped (sy_w sy) (po_process op) (po_user op) pe = negb (sel pe)).
  { intros pe I. pose proof (C55_selection_partial (sy_w sy) (po_process op) (po_user op) pe (SC pe I)) as C.
    specialize (W pe I). destruct (pe_skipped _ _ _ _), (sel pe); try reflexivity; exfalso.
    - assert (true = false) by (apply C, W; reflexivity). discriminate.
    - assert (false = true) by (apply W, C; reflexivity). discriminate. }
  assert (D : discover_serial (sy_w sy) (po_process op) (po_user op) 0 (sy_entries sy) =
              map (fun pe => atoi (pe_name pe)) (filter sel (sy_entries sy))).
  { assert (1 <= 512) as N1 by lia.
    assert (HH : forall pe, In pe (sy_entries sy) -> pe_skipped (sy_w sy) (po_process op) (po_user op) pe = false ->
       pe_init pe = true /\ atoi (pe_name pe) <> 0).
    { intros pe I S. rewrite (SK pe I) in S. apply negb_false_iff in S. destruct (H pe I S) as (A & B & _). split; assumption. }
    destruct (C34_iteration_partial (sy_w sy) (po_process op) (po_user op) (sy_entries sy) 512 (pc_init 512 (fun _ => 0) []) N1 HH) as [_ ->].
    f_equal. clear - SK. induction (sy_entries sy) as [|pe l IH]; [reflexivity|]. cbn [filter].
    rewrite (SK pe) by (left; reflexivity). rewrite negb_involutive.
    rewrite IH by (intros; apply SK; right; assumption). reflexivity. }
  rewrite D, (report_text ce sy op txt); [cbn [ibind]; rewrite flat_map_map; reflexivity|].
  intros pid I. apply in_map_iff in I. destruct I as (pe & <- & I). apply filter_In in I. destruct I as [I S].
  destruct (H pe I S) as (_ & _ & X). exact X.
Qed.
Print Assumptions C81_selected_partial.

Definition pat_world : pworld :=
  mk_pworld (fun p s => bytes_eqb p s) (fun u => if u =? 1000 then Some (zs "ann") else None) 42.
Definition pat_pe (name comm : string) (libpulp : bool) : pentry := mk_pentry (zs name) (zs comm) 1000 libpulp true.
Definition pat_sys : psys :=
  mk_psys pat_world
    [pat_pe "self" "ulp" true; pat_pe "17" "sh" false; pat_pe "42" "ulp" true; pat_pe "4711" "server" true; pat_pe "4712" "db" true]
    (fun pid => if pid =? 4711 then inl pat_view
                else inl (mk_pview pid pat_target ex_procfs pat_process false (fun _ => false) (fun _ => true) (fun _ => false)))
    pat_comments.
Definition pat_entry (pid : string) : list (list Z) :=
  [ zs "PID: " ++ zs pid ++ zs ", name: server"; zs "  Livepatching status: enabled"; zs "  Livepatchable libraries:"; [] ].
Example C81_selected_partial_case :
  let sel pe := (atoi (pe_name pe) =? 4711) || (atoi (pe_name pe) =? 4712) in
  (forall pe, In pe (sy_entries pat_sys) -> pe_skipped (sy_w pat_sys) None None pe = negb (sel pe)) /\
  filter sel (sy_entries pat_sys) = [pat_pe "4711" "server" true; pat_pe "4712" "db" true] /\
  run_patches pat_ce pat_sys pat_op = I_ok (unlines (pat_lines ++ pat_entry "4712"), 0).
Proof.
  cbv zeta. split; [|split; vm_compute; reflexivity].
  intros pe [<-|[<-|[<-|[<-|[<-|[]]]]]]; vm_compute; reflexivity.
Qed.

(** ** A pid *)

(** With a pid the entry of that process is printed; if it cannot be read, nothing,
    and the status is 1. *)
Theorem C81_pid : forall ce sy op s pid,
  po_process op = Some s -> decimal s pid -> 0 <= pid < 2 ^ 31 ->
  (forall v txt, sy_view sy pid = inl v -> process_text ce (sy_comments sy) op v = I_ok txt ->
     run_patches ce sy op = I_ok (txt, 0)) /\
  (forall e, sy_view sy pid = inr e -> e <> 0 -> run_patches ce sy op = I_ok ([], 1)).
Proof.
  intros ce sy op s pid P D B. unfold run_patches. rewrite P, (proj2 (isnumber_decimal s)) by eauto.
  assert (A : atoi s = pid).
  { unfold atoi. apply decimal_digits in D. destruct D as (_ & _ & -> & _). rewrite Z.min_l by lia.
    unfold s32, u32. rewrite Z.mod_small by lia. destruct (_ <? _) eqn:E; lia. }
  rewrite A. split.
  - intros v txt -> ->. reflexivity.
  - intros e -> E. destruct (Z.eqb_spec e 0); [contradiction|reflexivity].
Qed.
Print Assumptions C81_pid.

Example C81_pid_case :
  let op p := mk_popts (Some p) None true false false true in
  let sy := mk_psys pat_world [] (fun pid => if pid =? 4711 then inl pat_view else inr 261) pat_comments in
  decimal (zs "4711") 4711 /\ run_patches pat_ce sy (op (zs "4711")) = I_ok (unlines pat_lines, 0) /\
  run_patches pat_ce sy (op (zs "12")) = I_ok ([], 1).
Proof.
  cbv zeta. split; [|split; vm_compute; reflexivity]. apply (print_dec_spec 4711). lia.
Qed.

(** ** Findings *)

(** A process that cannot be stopped at that moment (it is being traced, say) is
    reported like one without livepatches, with status 0. *)
Theorem C81_hidden_refuted : exists sy v l,
  l <> [] /\ state_at (v_t v) (ULP_VERSION_TRIPLET 0 3 13) 344320 l /\
  (exists lp, the_libpulp (v_p v) = Some lp /\ ext lp 2 = 344320) /\ sy_view sy 4712 = inl v /\
  (exists s, s = zs "4712" /\
    run_patches pat_ce sy (mk_popts (Some s) None true false false true) = I_ok (unlines (pat_entry "4712"), 0) /\
    run_patches pat_ce sy (mk_popts (Some s) None true true false true) = I_ok ([], 0)).
Proof.
  exists pat_sys, (mk_pview 4712 pat_target ex_procfs pat_process false (fun _ => false) (fun _ => true) (fun _ => false)),
    [ex_patch1; ex_patch2].
  split; [discriminate|]. split; [exact pat_state|]. split; [eexists; split; reflexivity|]. split; [reflexivity|].
  eexists. split; [reflexivity|]. split; vm_compute; reflexivity.
Qed.
Print Assumptions C81_hidden_refuted.

(** The livepatches of a libpulp before 0.3.1, which keeps no times, end without a
    newline: they run together with their labels, the next livepatch, and the empty
    line between two processes. *)
Theorem C81_old_libpulp_refuted : exists v lp,
  the_libpulp (v_p v) = Some lp /\ ext lp 10 = ULP_VERSION_TRIPLET 0 3 0 /\ keeps_time (ext lp 10) = false /\
  process_text pat_ce pat_comments (mk_popts None None false false false true) v =
  I_ok (unlines [zs "PID: 4711, name: server"; zs "  Livepatching status: enabled"; zs "  Livepatchable libraries:";
                 zs "    in server:"; zs "    in /usr/lib64/libfoo.so:";
                 zs "      livepatch: foo2.so        bug labels: bsc#123456 CVE-2024-1 jsc#PED-77 ";
                 zs "      livepatch: foo1.so"]).
Proof.
  set (o := mk_dynobj (zs "/usr/lib64/libpulp.so.0") 327680 198144 339968 342016 14 (ex_id 9)
    [331777; 331778; 344320; 331780; 1376256; 331783; 331784; 344448; 331785; 331786; ULP_VERSION_TRIPLET 0 3 0]).
  exists (mk_pview 4711 pat_target ex_procfs (mk_process pat_main [pat_foo; o] 1) true (fun _ => true) (fun _ => true) (fun _ => false)), o.
  split; [reflexivity|]. split; [reflexivity|]. split; [reflexivity|]. vm_compute. reflexivity.
Qed.
Print Assumptions C81_old_libpulp_refuted.

(** The functions of a program linked to a fixed address (l_addr 0) are looked for at
    the address of its header plus their own, absolute address. *)
Theorem C81_fixed_address_refuted : exists v x,
  let o := p_main (v_p v) in
  o_l_addr o = 0 /\ o_nsyms o = 1 /\ symbols_at (v_t v) (o_dynsym o) [x] /\ nops_at (t_mem (v_t v)) x /\
  v_obj_attach v o = true /\ v_obj_detach v o = true /\ library_livepatchable v [] o = I_ok false.
Proof.
  exists (mk_pview 4711 pat_target (mk_procfs [] (Some [zs "00001000-00002000 r-xp 00000000 08:02 173521 server"]) [])
     (mk_process (mk_dynobj (zs "server") 0 0 81968 0 1 (ex_id 5) (repeat 0 11)) [] 0) true (fun _ => true) (fun _ => true) (fun _ => false)).
  exists 86016. cbv zeta. split; [reflexivity|]. split; [reflexivity|].
  split; [apply pat_symbols; [vm_compute; congruence|vm_compute; congruence|vm_compute; reflexivity]|].
  split; [right; split; vm_compute; reflexivity|]. split; [reflexivity|]. split; [reflexivity|]. vm_compute. reflexivity.
Qed.
Print Assumptions C81_fixed_address_refuted.

(** The manual says that with -q nothing is printed; the report ignores it. *)
Theorem C81_quiet_refuted : exists op, po_quiet op = true /\
  run_patches pat_ce pat_sys op = I_ok (unlines (pat_lines ++ pat_entry "4712"), 0).
Proof. exists (mk_popts None None true false true true). split; [reflexivity|vm_compute; reflexivity]. Qed.
Print Assumptions C81_quiet_refuted.

(** With a pid, -u is ignored: the process is reported whoever its owner is. *)
Theorem C81_user_refuted : exists pe op,
  In pe (sy_entries pat_sys) /\ pe_name pe = zs "4711" /\ pw_getpwuid (sy_w pat_sys) (pe_owner pe) = Some (zs "ann") /\
  po_process op = Some (zs "4711") /\ po_user op = Some (zs "bob") /\ pw_fnmatch (sy_w pat_sys) (zs "bob") (zs "ann") = false /\
  run_patches pat_ce pat_sys op = I_ok (unlines pat_lines, 0).
Proof.
  exists (pat_pe "4711" "server" true), (mk_popts (Some (zs "4711")) (Some (zs "bob")) true false false true).
  split; [right; right; right; left; reflexivity|]. repeat split; vm_compute; reflexivity.
Qed.
Print Assumptions C81_user_refuted.

(** "(none)" is never printed: a process always has an object, its main program. *)
Theorem C81_none_refuted : forall ce comments op v ps,
  ulp_read_state (v_t v) (v_attach v) (v_p v) = I_ok ps -> po_only op = false ->
  (forall o, In o (p_objects (v_p v)) -> library_livepatchable v ps o = I_ok false) ->
  process_text ce comments op v =
  I_ok (zs "PID: " ++ print_int (v_pid v) ++ zs ", name: " ++ get_basename (o_filename (p_main (v_p v))) ++ [10] ++
        status_text ce (po_no_color op) (get_libpulp_error_state_remote (v_t v) (v_p v)) ++
        zs "  Livepatchable libraries:" ++ [10] ++ [10]).
Proof.
  intros ce comments op v ps R O H. unfold process_text. rewrite R, O. cbn [ibind andb].
  assert (E : forall objs, (forall o, In o objs -> library_livepatchable v ps o = I_ok false) ->
    objects_text ce comments (po_buildid op) v ps objs = I_ok []).
  { induction objs as [|o objs IH]; intros X; [reflexivity|]. cbn [objects_text]. rewrite X by (left; reflexivity). cbn [ibind].
    apply IH. intros; apply X; right; assumption. }
  rewrite (E _ H). cbn [ibind]. reflexivity.
Qed.
Print Assumptions C81_none_refuted.
Example C81_none_refuted_case :
  let v := mk_pview 4712 pat_target ex_procfs pat_process false (fun _ => false) (fun _ => true) (fun _ => false) in
  ulp_read_state (v_t v) (v_attach v) (v_p v) = I_ok [] /\
  forall o, In o (p_objects (v_p v)) -> library_livepatchable v [] o = I_ok false.
Proof. split; [reflexivity|]. intros o _. reflexivity. Qed.
