(** C79: ulp extract, and packing against its output. *)
From Coq Require Import String.
From Verif Require Import Base BaseFacts StrModel TextModel TextSpec TextProofs TextProps MetaModel DscModel DscSpec DscProps
  LibSpec NtModel NtSpec PackModel PackProofs PackProps ExtModel ExtSpec ExtProofs.

(** Packing against the extracted file is packing against the library: for every
    description, right or wrong, and whatever happens on the way. The symbols of the
    library are below 2^31 and the disk takes the file (the findings below). *)
Theorem C79_same_container_partial : forall print read opens fs input output i,
  library_at fs input (2 ^ 31) -> so_elf fs input = Some i -> json_c print read (write_ulp_so_info_json i) ->
  output <> zs "-" -> output <> input -> opens output = true ->
  exists fs', run_extract print opens None fs input None (Some output) = X_done 0 fs' [] /\
    (forall p, p <> output -> fs' p = fs p) /\
    forall e, de_info e = fs_info read fs' -> can_open e input -> can_open e output ->
    forall fuel description note s0 s1 s2 st,
      run_packer fuel (with_target e output) description note s0 s1 s2 st =
      run_packer fuel (with_target e input) description note s0 s1 s2 st.
Proof.
  intros print read opens fs input output i L S J N1 N2 O.
  destruct (so_elf_ok fs input _ L ltac:(lia)) as (i' & S' & OK & _ & FO). assert (i' = i) by congruence. subst i'.
  unfold run_extract. rewrite S, O. destruct (bytes_eqb output (zs "-")) eqn:B; [apply bytes_eqb_eq in B; contradiction|]. cbn [negb].
  eexists. split; [reflexivity|]. split; [intros p Hp; apply put_other; exact Hp|].
  intros e E Ci Co fuel d note s0 s1 s2 st. apply run_packer_ext. intros id. apply (pack_same e output input (seen i)); try assumption.
  - rewrite E. apply open_written; [exact OK|intros s Hs; rewrite Forall_forall in FO; apply FO; exact Hs|exact J].
  - rewrite E. apply open_elf. unfold so_elf. rewrite put_other by (intros C; apply N2; symmetry; exact C). exact S.
Qed.
Print Assumptions C79_same_container_partial.

(** With --with-debuginfo: whatever can be packed against the library is packed to the
    same container against the extracted file. *)
Theorem C79_debuginfo_partial : forall print read opens fs input debug output i di,
  library_at fs input (2 ^ 31) -> library_at fs debug (2 ^ 31) -> so_elf fs input = Some i -> so_elf fs debug = Some di ->
  json_c print read (write_ulp_so_info_json (merge_ulp_so_infos i di)) ->
  output <> zs "-" -> output <> input -> opens output = true ->
  exists fs', run_extract print opens None fs input (Some debug) (Some output) = X_done 0 fs' [] /\
    forall e, de_info e = fs_info read fs' -> can_open e input -> can_open e output ->
    forall fuel description note s0 s1 s2 st x,
      pack (with_target e input) (repeat 0 32) description = D_ok x ->
      run_packer fuel (with_target e output) description note s0 s1 s2 st =
      run_packer fuel (with_target e input) description note s0 s1 s2 st.
Proof.
  intros print read opens fs input debug output i di L LD S SD J N1 N2 O.
  destruct (so_elf_ok fs input _ L ltac:(lia)) as (i' & S' & OK & _ & FO). assert (i' = i) by congruence. subst i'.
  destruct (so_elf_ok fs debug _ LD ltac:(lia)) as (i' & S'' & OKD & _ & FOD). assert (i' = di) by congruence. subst i'.
  unfold run_extract. rewrite S, SD, O. destruct (bytes_eqb output (zs "-")) eqn:B; [apply bytes_eqb_eq in B; contradiction|]. cbn [negb].
  eexists. split; [reflexivity|].
  intros e E Ci Co fuel d note s0 s1 s2 st x P. symmetry. apply (run_packer_more _ _ _ _ _ _ _ _ _ x P).
  intros id y. eapply pack_more; try eassumption.
  - rewrite E. apply open_elf. unfold so_elf. rewrite put_other by (intros C; apply N2; symmetry; exact C). exact S.
  - rewrite E. apply open_written; [|intros s Hs; cbn in Hs; apply in_app_or in Hs; rewrite Forall_forall in FO, FOD; destruct Hs; auto|exact J].
    destruct OK as [K1 K2], OKD as [_ K3]. split; [exact K1|]. cbn. apply Forall_app. auto.
  - split; [reflexivity|]. split; [reflexivity|]. cbn. rewrite map_app. eexists. reflexivity.
Qed.
Print Assumptions C79_debuginfo_partial.

(** A file that is not a library: status 1, and nothing is written. *)
Theorem C79_no_library : forall print opens full fs input debug output,
  so_elf fs input = None -> run_extract print opens full fs input debug output = X_done 1 fs [].
Proof. intros. unfold run_extract. rewrite H. reflexivity. Qed.
Print Assumptions C79_no_library.

(** To standard output: no file changes. *)
Theorem C79_stdout : forall print opens full fs input i,
  so_elf fs input = Some i ->
  run_extract print opens full fs input None (Some (zs "-")) = X_done 0 fs (print (write_ulp_so_info_json i)).
Proof. intros. unfold run_extract. rewrite H. reflexivity. Qed.
Print Assumptions C79_stdout.

(** What is taken for a description: a missing file, one of fewer than five bytes, or one that starts like an ELF file (0x7f, "ELF") without being one
    is refused whatever json-c would make of it; every other file that is not ELF goes to json-c. *)
Theorem C79_what_is_a_description : forall read fs path,
  (fs path = None -> fs_info read fs path = None) /\
  (forall b, fs path = Some (F_bytes b) ->
     (zlen b < 5 \/ (exists t, b = 127 :: zs "ELF" ++ t) -> fs_info read fs path = None) /\
     (5 <= zlen b -> (forall t, b <> 127 :: zs "ELF" ++ t) -> ulp_so_info_open read fs path = parse_so_json (read b))).
Proof.
  intros read fs path. unfold fs_info, ulp_so_info_open. split; [intros ->; reflexivity|]. intros b ->. split.
  - intros [H|[t ->]]; [destruct (Z.ltb_spec (zlen b) 5); [reflexivity|lia]|]. destruct (_ <? 5); reflexivity.
  - intros H N. destruct (Z.ltb_spec (zlen b) 5); [lia|]. destruct (bytes_eqb (firstn 4 b) elf_magic) eqn:E; [|reflexivity].
    apply bytes_eqb_eq in E. exfalso. apply (N (skipn 4 b)). rewrite <- (firstn_skipn 4 b) at 1. rewrite E. reflexivity.
Qed.
Print Assumptions C79_what_is_a_description.
Example C79_what_is_a_description_case : fs_info (fun _ => None) (fun _ => Some (F_bytes [127; 69; 76; 70; 2])) (zs "x") = None /\ (forall t, zs "{ ""name""" <> 127 :: zs "ELF" ++ t).
Proof. split; [reflexivity|]. intros t H. discriminate H. Qed.

(** ** Findings *)

(** Debug information that is missing or has no build ID crashes the tool. *)
Theorem C79_debuginfo_crash_refuted : forall print opens full fs input debug output i,
  so_elf fs input = Some i -> so_elf fs debug = None ->
  run_extract print opens full fs input (Some debug) output = X_crash.
Proof. intros. unfold run_extract. rewrite H, H0. reflexivity. Qed.
Print Assumptions C79_debuginfo_crash_refuted.

(** So does an output that cannot be opened. *)
Theorem C79_output_crash_refuted : forall print opens full fs input output i,
  so_elf fs input = Some i -> output <> zs "-" -> opens output = false ->
  run_extract print opens full fs input None (Some output) = X_crash.
Proof.
  intros print opens full fs input output i S N O. unfold run_extract. rewrite S, O.
  destruct (bytes_eqb output (zs "-")) eqn:B; [apply bytes_eqb_eq in B; contradiction|]. reflexivity.
Qed.
Print Assumptions C79_output_crash_refuted.

(** A full disk: status 0, and a file that is cut off. *)
Theorem C79_disk_full_refuted : forall print opens fs input output i k,
  so_elf fs input = Some i -> output <> zs "-" -> opens output = true ->
  exists fs', run_extract print opens (Some k) fs input None (Some output) = X_done 0 fs' [] /\
    fs' output = Some (F_bytes (firstn k (print (write_ulp_so_info_json i)))).
Proof.
  intros print opens fs input output i k S N O. unfold run_extract. rewrite S, O.
  destruct (bytes_eqb output (zs "-")) eqn:B; [apply bytes_eqb_eq in B; contradiction|]. cbn [negb].
  eexists. split; [reflexivity|]. apply put_same.
Qed.
Print Assumptions C79_disk_full_refuted.

(** ** Cases *)
Definition c79_id : list Z := repeat 7 20.
Definition c79_fs (value : Z) (dbg_id : list Z) : filesys := fun p =>
  if bytes_eqb p (zs "/lib/libx.so") then
    Some (F_elf (Some c79_id) [mkElfSym (zs "f") 100 10 18 0; mkElfSym [] 0 0 0 0; mkElfSym (zs "v") value 4 17 0] [])
  else if bytes_eqb p (zs "x.debug") then Some (F_elf (Some dbg_id) [] [mkElfSym (zs "g") 200 10 2 0; mkElfSym (zs "f") 999 10 18 0])
  else if bytes_eqb p (zs "lp.so") then
    Some (F_elf (Some (repeat 9 20)) [mkElfSym (zs "f_new") 10 1 18 0; mkElfSym (zs "g_new") 30 1 18 0; mkElfSym (zs "v_ref") 20 8 17 0] [])
  else None.
Definition c79_so (value : Z) : TextModel.so_info := mkSo (zs "libx.so") c79_id [mkSym (zs "v") value 4 17 0; mkSym (zs "f") 100 10 18 0].
Definition c79_merged (value : Z) : TextModel.so_info :=
  mkSo (zs "libx.so") c79_id [mkSym (zs "v") value 4 17 0; mkSym (zs "f") 100 10 18 0; mkSym (zs "f") 999 10 18 0; mkSym (zs "g") 200 10 2 0].
(** A printer and a reader that do for the object [v]. *)
Definition print1 (_ : json) : list Z := zs "{ ... }".
Definition read1 (v : json) (_ : list Z) : option json := Some v.
Lemma json1 v : json_c print1 (read1 v) v.
Proof. split; [reflexivity|]. exists (zs " ... }"). split; [reflexivity|vm_compute; discriminate]. Qed.

Definition c79_desc : list Z := zs "lp.so" ++ [10] ++ zs "@libx.so" ++ [10] ++ zs "f:f_new" ++ [10] ++ zs "#%v:v_ref" ++ [10].
Definition c79_static : list Z := zs "lp.so" ++ [10] ++ zs "@libx.so" ++ [10] ++ zs "g:g_new" ++ [10].
Definition c79_env (v : json) (fs : filesys) : dsc_env :=
  mk_dsc_env (fun _ => true) (fun _ => false) (fs_info (read1 v) fs) (fun _ => None) None None (fun _ => 0).

Lemma c79_library value dbg max : 0 <= value < max -> 100 < max -> library_at (c79_fs value dbg) (zs "/lib/libx.so") max.
Proof.
  intros V M. exists c79_id. eexists _, _. split; [reflexivity|]. split; [reflexivity|]. split; [repeat constructor; unfold is_byte; lia|].
  repeat (apply Forall_cons; [cbn; unfold is_byte; lia|]). apply Forall_nil.
Qed.

Example C79_same_container_partial_case :
  let v := write_ulp_so_info_json (c79_so 300) in
  library_at (c79_fs 300 c79_id) (zs "/lib/libx.so") (2 ^ 31) /\ so_elf (c79_fs 300 c79_id) (zs "/lib/libx.so") = Some (c79_so 300) /\
  json_c print1 (read1 v) v /\
  exists fs', run_extract print1 (fun _ => true) None (c79_fs 300 c79_id) (zs "/lib/libx.so") None None = X_done 0 fs' [] /\
    pack (with_target (c79_env v fs') (zs "out.json")) (repeat 1 32) c79_desc =
      D_ok (mk_pmeta (repeat 1 32) 20 c79_id (zs "libx.so") 1 [mk_munit (zs "f") (zs "f_new") 100] 0 [] 1
              [mk_pref (zs "v") (zs "v_ref") 300 20 true], None).
Proof.
  cbv zeta. split; [apply c79_library; lia|]. split; [vm_compute; reflexivity|]. split; [apply json1|].
  eexists. split; [reflexivity|]. vm_compute. reflexivity.
Qed.

(** A function that only the debug information knows can be packed then; "f" is still
    that of the library. *)
Example C79_debuginfo_partial_case :
  let v := write_ulp_so_info_json (c79_merged 300) in
  library_at (c79_fs 300 c79_id) (zs "x.debug") (2 ^ 31) /\ json_c print1 (read1 v) v /\
  exists fs', run_extract print1 (fun _ => true) None (c79_fs 300 c79_id) (zs "/lib/libx.so") (Some (zs "x.debug")) None = X_done 0 fs' [] /\
    pack (with_target (c79_env v fs') (zs "out.json")) (repeat 1 32) c79_static =
      D_ok (mk_pmeta (repeat 1 32) 20 c79_id (zs "libx.so") 1 [mk_munit (zs "g") (zs "g_new") 200] 0 [] 0 [], None) /\
    pack (with_target (c79_env v fs') (zs "/lib/libx.so")) (repeat 1 32) c79_static = D_err /\
    pack (with_target (c79_env v fs') (zs "out.json")) (repeat 1 32) c79_desc =
    pack (with_target (c79_env v fs') (zs "/lib/libx.so")) (repeat 1 32) c79_desc.
Proof.
  cbv zeta. split.
  { exists c79_id. eexists _, _. split; [reflexivity|]. split; [reflexivity|]. split; [repeat constructor; unfold is_byte; lia|].
    repeat (apply Forall_cons; [cbn; unfold is_byte; lia|]). apply Forall_nil. }
  split; [apply json1|]. eexists. split; [reflexivity|]. split; [vm_compute; reflexivity|]. split; vm_compute; reflexivity.
Qed.

Example C79_no_library_case : so_elf (c79_fs 300 c79_id) (zs "nosuch") = None.
Proof. reflexivity. Qed.
Example C79_stdout_case : so_elf (c79_fs 300 c79_id) (zs "/lib/libx.so") <> None.
Proof. vm_compute. discriminate. Qed.
Example C79_debuginfo_crash_refuted_case :
  run_extract print1 (fun _ => true) None (c79_fs 300 c79_id) (zs "/lib/libx.so") (Some (zs "nosuch")) None = X_crash.
Proof. reflexivity. Qed.
Example C79_output_crash_refuted_case :
  run_extract print1 (fun _ => false) None (c79_fs 300 c79_id) (zs "/lib/libx.so") None None = X_crash.
Proof. reflexivity. Qed.
Example C79_disk_full_refuted_case : exists fs',
  run_extract print1 (fun _ => true) (Some 3%nat) (c79_fs 300 c79_id) (zs "/lib/libx.so") None None = X_done 0 fs' [] /\
  fs' (zs "out.json") = Some (F_bytes (zs "{ .")).
Proof. eexists. split; reflexivity. Qed.

(** Finding: a variable at 2^31 or above (a library of 2 GiB, an absolute symbol): the
    container packed against the extracted file has another offset. *)
Theorem C79_high_symbol_refuted : exists print read fs input i fs',
  library_at fs input (2 ^ 64) /\ so_elf fs input = Some i /\ json_c print read (write_ulp_so_info_json i) /\
  run_extract print (fun _ => true) None fs input None None = X_done 0 fs' [] /\
  exists e d a b, de_info e = fs_info read fs' /\ can_open e input /\ can_open e (zs "out.json") /\
    pack (with_target e input) (repeat 1 32) d = D_ok (a, None) /\ pack (with_target e (zs "out.json")) (repeat 1 32) d = D_ok (b, None) /\
    map pr_toff (pm_refs a) = [2 ^ 31] /\ map pr_toff (pm_refs b) = [2 ^ 64 - 2 ^ 31].
Proof.
  set (v := write_ulp_so_info_json (c79_so (2 ^ 31))).
  exists print1, (read1 v), (c79_fs (2 ^ 31) c79_id), (zs "/lib/libx.so"), (c79_so (2 ^ 31)). eexists.
  split; [apply c79_library; lia|]. split; [vm_compute; reflexivity|]. split; [apply json1|]. split; [reflexivity|].
  eexists (c79_env v _), c79_desc. eexists _, _. split; [reflexivity|]. split; [repeat split|]. split; [repeat split|].
  split; [vm_compute; reflexivity|]. split; [vm_compute; reflexivity|]. split; vm_compute; reflexivity.
Qed.
Print Assumptions C79_high_symbol_refuted.
Example C79_high_symbol_refuted_case : 2 ^ 31 < 2 ^ 64.
Proof. lia. Qed.

(** Finding: debug information of another build is merged all the same; the container is
    packed with its offsets, under the build ID of the library. *)
Theorem C79_foreign_debuginfo_refuted : exists print read fs input debug i di fs',
  library_at fs input (2 ^ 31) /\ library_at fs debug (2 ^ 31) /\ so_elf fs input = Some i /\ so_elf fs debug = Some di /\
  so_buildid i <> so_buildid di /\ json_c print read (write_ulp_so_info_json (merge_ulp_so_infos i di)) /\
  run_extract print (fun _ => true) None fs input (Some debug) None = X_done 0 fs' [] /\
  exists e d a, de_info e = fs_info read fs' /\ can_open e (zs "out.json") /\
    pack (with_target e (zs "out.json")) (repeat 1 32) d = D_ok (a, None) /\
    pm_bid a = so_buildid i /\ pm_units a = [mk_munit (zs "g") (zs "g_new") 200] /\
    (exists s, In s (so_symbols di) /\ sy_name s = zs "g" /\ sy_offset s = 200).
Proof.
  set (v := write_ulp_so_info_json (c79_merged 300)).
  exists print1, (read1 v), (c79_fs 300 (repeat 8 20)), (zs "/lib/libx.so"), (zs "x.debug"), (c79_so 300),
    (mkSo (zs "x.debug") (repeat 8 20) [mkSym (zs "f") 999 10 18 0; mkSym (zs "g") 200 10 2 0]). eexists.
  split; [apply c79_library; lia|]. split.
  { exists (repeat 8 20). eexists _, _. split; [reflexivity|]. split; [reflexivity|]. split; [repeat constructor; unfold is_byte; lia|].
    repeat (apply Forall_cons; [cbn; unfold is_byte; lia|]). apply Forall_nil. }
  split; [vm_compute; reflexivity|]. split; [vm_compute; reflexivity|]. split; [discriminate|]. split; [apply json1|]. split; [reflexivity|].
  eexists (c79_env v _), c79_static. eexists. split; [reflexivity|]. split; [repeat split|].
  split; [vm_compute; reflexivity|]. split; [reflexivity|]. split; [vm_compute; reflexivity|].
  eexists. split; [right; left; reflexivity|]. split; reflexivity.
Qed.
Print Assumptions C79_foreign_debuginfo_refuted.
Example C79_foreign_debuginfo_refuted_case : repeat 7 20 <> repeat 8 20.
Proof. discriminate. Qed.
