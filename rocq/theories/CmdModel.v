(** Commands of the tool beside trigger and patches: check (tools/check.c),
    set_patchable (tools/set_patchable.c), dump (tools/dump.c), the report of trigger
    (tools/trigger.c), and the path given to the target (tools/introspection.c). *)
From Coq Require Import String.
From Verif Require Import Base StrModel InsnQModel MetaModel LibModel PtModel HjModel TextModel TrModel.

(** ** The path given to the target *)

(** tools/introspection.c:2736-2749, adjust_prefix_for_chroot. [chrooted] is the answer
    of is_proc_chroot. The static buffer holds PATH_MAX bytes; strncat appends at
    most PATH_MAX - 1 characters and a terminator behind "/1/root/". *)
Definition adjust_prefix_for_chroot (chrooted : bool) (user : option (list Z)) : pres (option (list Z)) :=
  if chrooted then
    match user with
    | None => P_ok (Some (zs "/1/root/"))
    | Some p =>
        let part := firstn (Z.to_nat (PATH_MAX - 1)) p in
        if PATH_MAX <? 8 + zlen part + 1 then P_UB else P_ok (Some (zs "/1/root/" ++ part))
    end
  else P_ok user.

(** tools/introspection.c:1908-1944, the path put into the metadata: the prefix and
    what realpath answers, or the path as it was given. realpath writes at most
    PATH_MAX bytes, and a file with a longer path could not have been opened, so
    path_buffer (2 * PATH_MAX) suffices. [None]: the function returns 0 and leaves
    *out untouched. *)
Definition metadata_path (prefix : option (list Z)) (livepatch : list Z) (real : option (list Z)) : option (list Z) :=
  let file := match real with Some r => r | None => livepatch end in
  match prefix with
  | None => Some file
  | Some p => if PATH_MAX <=? zlen p then None else Some (p ++ file)
  end.

(** What a caller finds in [out] after extract_ulp_from_so_to_mem. *)
Inductive xout := X_null | X_untouched | X_meta (b : list Z).

(** tools/introspection.c:1889-1981, extract_ulp_from_so_to_mem. [section]: the content
    of .ulp or .ulp.rev, [None] if the file cannot be read or has no such section. *)
Definition extract (section : option (list Z)) (prefix : option (list Z)) (livepatch : list Z) (real : option (list Z))
  : pres xout :=
  match section with
  | None => P_ok X_null
  | Some data =>
      match metadata_path prefix livepatch real with
      | None => P_ok X_untouched
      | Some path =>
          match extract_ulp_from_so_to_mem data path with
          | P_UB => P_UB
          | P_fuel => P_fuel
          | P_err c => P_err c
          | P_ok None => P_ok X_untouched
          | P_ok (Some b) => P_ok (X_meta b)
          end
      end
  end.

(** strncmp(a, b, strlen(a)) = 0. *)
Fixpoint starts_with (a b : list Z) : bool :=
  match a, b with
  | [], _ => true
  | x :: a', y :: b' => (x =? y) && starts_with a' b'
  | _, [] => false
  end.

(** tools/introspection.c:2241-2281, check_livepatch_functions_matches_metadata: [read]
    gives the names of the symbols of a file that can be read. *)
Definition check_livepatch_functions (read : list Z -> option (list (list Z))) (prefix : option (list Z)) (md : meta) : Z :=
  let file :=
    match prefix with
    | None => Some (md_so md)
    | Some p => if starts_with p (md_so md) then Some (skipn (length p) (md_so md)) else None
    end in
  match file with
  | None => 22
  | Some f =>
      match read f with
      | None => 22
      | Some names => if forallb (fun u => existsb (bytes_eqb (u_new u)) names) (md_units md) then 0 else 1
      end
  end.

(** ** check *)

(** tools/introspection.c:1627-1661, patch_applied: the return value and, if 0, the
    result. [hijacked], [written]: all_threads_hijacked, and set_id_buffer succeeds;
    [run]: the result of run_and_redirect. *)
Definition patch_applied (hijacked written : bool) (run : Z) (st : lstate) (id : list Z) : Z * Z :=
  if negb hijacked then (EUNKNOWN, 0)
  else if negb written then (ETARGETHOOK, 0)
  else if negb (run =? 0) then (run, 0)
  else (0, ulp_check_applied_patch st id).

(** What run_check is told. *)
Record check_env := mk_check_env {
  ce_section : option (list Z);      (* .ulp of the container *)
  ce_path : list Z;                  (* the container as named by the user *)
  ce_real : option (list Z);         (* realpath of it *)
  ce_number : bool;                  (* isnumber of the process argument *)
  ce_init : Z;                       (* initialize_data_structures *)
  ce_sanity : meta -> Z;             (* check_patch_sanity *)
  ce_hijack : Z;                     (* hijack_threads *)
  ce_written : bool;                 (* the ID could be written *)
  ce_run : Z;                        (* run_and_redirect *)
  ce_restore : Z                     (* restore_threads *)
}.

(** A command ends with a value or does something undefined. *)
Inductive cres := R_undefined | R_value (v : Z).

(** tools/check.c:44-144, run_check. [junk]: see parse_metadata_from_mem. The local
    variable livepatch is not initialised. *)
Definition run_check (e : check_env) (junk : Z) (st : lstate) : cres :=
  match extract (ce_section e) None (ce_path e) (ce_real e) with
  | P_ok X_null => R_value 1
  | P_ok (X_meta b) =>
      match parse_metadata_from_mem junk b with
      | P_ok md =>
          if negb (ce_number e) then R_value (-1)
          else if negb (ce_init e =? 0) then R_value (-1)
          else if negb (ce_sanity e md =? 0) then R_value (-1)
          else if (ce_hijack e =? ETHRDDETTACH) || (0 <? ce_hijack e) then R_value (-1)
          else
            let (check, result) := patch_applied (ce_hijack e =? 0) (ce_written e) (ce_run e) st (md_id md) in
            if negb (ce_restore e =? 0) then R_value (-1)
            else if negb (check =? 0) then R_value (-1)
            else R_value result
      | P_err _ => R_value 1
      | _ => R_undefined
      end
  | _ => R_undefined
  end.

(** ** set_patchable *)

(** One attempt: the results of hijack_threads, of run_and_redirect (and, if it
    failed, whether libpulp's routine has run all the same), and of restore_threads. *)
Record sp_try := mk_sp { sp_hijack : Z; sp_run : Z; sp_ran : bool; sp_restore : Z }.

(** tools/set_patchable.c:37-50, run_enable_disable_patching. *)
Definition run_enable_disable_patching (a : sp_try) (st : lstate) : lstate * Z :=
  let (st', answer) := if (sp_run a =? 0) || sp_ran a then ulp_enable_or_disable_patching st else (st, 0) in
  (st', if sp_run a =? 0 then answer else sp_run a).

(** tools/set_patchable.c:73-92, the loop; [ret] is [None] while it has no value. *)
Fixpoint sp_loop (n : nat) (tries : nat -> sp_try) (i : nat) (st : lstate) (ret : option Z) : lstate * option Z :=
  match n with
  | O => (st, ret)
  | S n' =>
      let a := tries i in
      if negb (sp_hijack a =? 0) then (st, ret)
      else
        let (st', r) := run_enable_disable_patching a st in
        if negb (sp_restore a =? 0) then (st', Some r)
        else if negb (r =? EAGAIN) then (st', Some r)
        else sp_loop n' tries (S i) st' (Some r)
  end.

(** What is said to the user. *)
Inductive sp_msg := M_nothing | M_now (enabled : bool) | M_unable (err : Z).
Inductive sp_out := S_undefined | S_done (m : sp_msg) (ret : Z).

(** tools/set_patchable.c:64-111, enable_or_disable_patching; [state] is the error state
    read before. *)
Definition enable_or_disable_patching (state : Z) (enable : bool) (retries : nat) (tries : nat -> sp_try) (st : lstate)
  : lstate * sp_out :=
  if ((state =? ENONE) && negb enable) || ((state =? EUSRBLOCKED) && enable) then
    let (st', ret) := sp_loop retries tries 0 st None in
    match ret with
    | None => (st', S_undefined)
    | Some r =>
        (st', S_done (if ((r =? ENONE) && enable) || ((r =? EUSRBLOCKED) && negb enable) then M_now enable
                      else M_unable r) ENONE)
    end
  else (st, S_done M_nothing state).

(** strcasecmp on ASCII. *)
Definition lower (c : Z) : Z := if (65 <=? c) && (c <=? 90) then c + 32 else c.

(** tools/set_patchable.c:114-142, run_set_patchable on the processes [ps], each with what
    its attempts meet and its state: the value returned, and what becomes of each. *)
Definition run_set_patchable (arg : list Z) (retries : nat) (ps : list ((nat -> sp_try) * lstate))
  : Z * list (lstate * sp_out) :=
  let go enable := (0, map (fun p => enable_or_disable_patching (s_err (snd p)) enable retries (fst p) (snd p)) ps) in
  if bytes_eqb (map lower arg) (zs "enable") then go true
  else if bytes_eqb arg (zs "disable") then go false
  else (1, map (fun p => (snd p, S_done M_nothing 0)) ps).

(** ** The report of trigger *)

(** struct trigger_results: patch name and error. *)
Record tresult := mk_tres { tr_name : list Z; tr_err : Z }.

(** A line of the report (a summary stands behind the process, without a name for
    skipped ones). *)
Inductive rline :=
| R_skipped (name : option (list Z)) (err : Z)
| R_failed (name : list Z) (err : Z)
| R_success (name : list Z).

Definition minor (e : Z) : bool := (e =? EBUILDID) || (e =? ENOTARGETLIB).

(** tools/trigger.c:385-393, the first loop: [err] and hide_skipped. *)
Fixpoint report_err (rs : list tresult) (err : Z) (hide : bool) : Z * bool :=
  match rs with
  | [] => (err, hide)
  | r :: t => if (tr_err r =? 0) || negb (minor (tr_err r)) then report_err t (tr_err r) true
              else report_err t err hide
  end.

(** tools/trigger.c:395-415, the second loop: summarized and summarized_result. *)
Fixpoint report_sum (rs : list tresult) (err : Z) (hide summarized : bool) (res : option tresult)
  : bool * option tresult :=
  match rs with
  | [] => (summarized, res)
  | r :: t =>
      if hide && minor (tr_err r) then report_sum t err hide summarized res
      else if negb (tr_err r =? err) then report_sum t err hide false res
      else if negb (minor (tr_err r)) then
        match res with
        | None => report_sum t err hide summarized (Some r)
        | Some _ => report_sum t err hide false res
        end
      else report_sum t err hide summarized res
  end.

(** tools/trigger.c:453-477, a line of the long report. *)
Definition report_line (hide : bool) (r : tresult) : list rline :=
  if minor (tr_err r) then if hide then [] else [R_skipped (Some (tr_name r)) (tr_err r)]
  else if negb (tr_err r =? 0) then [R_failed (tr_name r) (tr_err r)]
  else [R_success (tr_name r)].

(** tools/trigger.c:370-479, print_patched_unpatched: what is printed for a process,
    without colours; [None]: nothing, not even its name. *)
Definition print_patched_unpatched (rs : list tresult) (summarize : bool) : option (list rline) :=
  let err0 := match rs with [] => EUNKNOWN | r :: _ => tr_err r end in
  let (err, hide) := report_err rs err0 false in
  let (summarized, res) := report_sum rs err hide true None in
  match res, summarized with
  | None, true => None
  | _, _ =>
      let summarized := summarized && summarize in
      let hide := hide && summarize in
      if summarized then
        Some (if skippable_error err then [R_skipped None err]
              else match res with
                   | None => []
                   | Some r => if negb (err =? 0) then [R_failed (tr_name r) err] else [R_success (tr_name r)]
                   end)
      else Some (flat_map (report_line hide) rs)
  end.

(** ** dump *)

(** A line of the output. How numbers are written is not modelled. *)
Inductive dline :=
| D_patch_id (text : list Z)
| D_so (name : list Z)
| D_build_id (text : list Z)
| D_name (name : list Z)
| D_units (n : Z)
| D_old (name : list Z) | D_new (name : list Z) | D_addr (a : Z)
| D_refs (n : Z)
| D_ref (name : list Z) | D_target (off : Z) | D_patch (off : Z) | D_tls (b : bool).

(** tools/dump.c:71-78, a reference. A name without terminator is read beyond its
    end. *)
Definition dump_ref (r : mref) : option (list dline) :=
  match rf_name r with
  | None => None
  | Some n => Some [D_ref n; D_target (rf_toff r); D_patch (rf_toff r); D_tls (rf_tls r)]
  end.
Fixpoint dump_refs (rs : list mref) : option (list dline) :=
  match rs with
  | [] => Some []
  | r :: t => match dump_ref r, dump_refs t with Some a, Some b => Some (a ++ b) | _, _ => None end
  end.

(** tools/dump.c:33-82, dump_metadata; [only] is the -b option. buildid_to_string reads 20
    bytes, of the 32 of the patch ID and of the build ID. [None]: undefined. *)
Definition dump_metadata (only : bool) (md : meta) : option (list dline) :=
  if zlen (md_bid md) <? 20 then None
  else
    match dump_refs (md_refs md) with
    | None => None
    | Some refs =>
        let bid := D_build_id (buildid_to_string (firstn 20 (md_bid md))) in
        Some ((if only then [bid]
               else [D_patch_id (buildid_to_string (firstn 20 (md_id md))); D_so (md_so md); bid; D_name (md_name md);
                     D_units (zlen (md_units md))] ++
                    flat_map (fun u => [D_old (u_old u); D_new (u_new u); D_addr (u_addr u)]) (md_units md)) ++
              D_refs (zlen (md_refs md)) :: refs)
    end.

(** tools/dump.c:101-124, run_dump: the value and the lines of dump_metadata; livepatch is
    not initialised. [None]: undefined. *)
Definition run_dump (section : option (list Z)) (livepatch : list Z) (real : option (list Z)) (only : bool)
  (junk : Z) : option (Z * list dline) :=
  match extract section None livepatch real with
  | P_ok X_null => Some (1, [])
  | P_ok (X_meta b) =>
      match parse_metadata_from_mem junk b with
      | P_ok md => match dump_metadata only md with Some l => Some (0, l) | None => None end
      | P_err _ => Some (1, [])
      | _ => None
      end
  | _ => None
  end.
