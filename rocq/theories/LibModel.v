(** The patch state machine of libpulp.so (lib/ulp.c), its entry points, and the
    tool operations that drive it (tools/introspection.c). *)
From Verif Require Import Base InsnQModel MetaModel StrModel X86Model DlModel.

(** include/error_common.h and <errno.h>. *)
Definition ENONE : Z := 0.
Definition EAGAIN : Z := 11.
Definition EOVERFLOW : Z := 75.
Definition EUNKNOWN : Z := 256.
Definition EBUILDID : Z := 257.
Definition ENOOLDFUNC : Z := 267.
Definition ENONEWFUNC : Z := 268.
Definition ENOMETA : Z := 269.
Definition ESTATE : Z := 270.
Definition ENOTAPPLIED : Z := 272.
Definition EDEPEND : Z := 273.
Definition ENOADDRESS : Z := 274.
Definition EAPPLIED : Z := 275.
Definition ENOTARGETLIB : Z := 276.
Definition EHOOKNOTRUN : Z := 277.
Definition EUSRBLOCKED : Z := 280.
Definition ENOPATCH : Z := 284.
Definition EDLOPEN : Z := 287.

(** include/ulp_common.h, ULP_PATH_LEN; include/arch/x86_64/arch_common.h,
    TLS_DTV_OFFSET. *)
Definition ULP_PATH_LEN : Z := 256.
Definition TLS_DTV_OFFSET : Z := 0.

(** ** State *)

(** include/ulp.h:59-75, struct ulp_detour. *)
Record detour := mk_detour {
  d_pid : list Z;
  d_universe : Z;
  d_target : Z;
  d_active : bool
}.

(** include/ulp.h:38-51, struct ulp_detour_root. *)
Record droot := mk_droot {
  r_index : Z;
  r_addr : Z;
  r_detours : list detour
}.

(** include/ulp_common.h:211-228, struct ulp_applied_unit. *)
Record aunit := mk_aunit {
  au_patched : Z;
  au_target : Z;
  au_saved : list Z
}.

(** include/ulp_common.h:190-209, struct ulp_applied_patch (the timestamp is
    left out). *)
Record apatch := mk_apatch {
  a_id : list Z;
  a_lib : list Z;
  a_container : list Z;
  a_units : list aunit;
  a_deps : list (list Z)
}.

(** The globals of lib/ulp.c:40-56, lib/error.c:38 and the instruction queue.
    __ulp_metadata_ref is always NULL between requests (lib/ulp.c:303-311,
    529-530) and therefore not part of the state. Log messages (msgq_push,
    WARN, DEBUG) are left out. *)
Record lstate := mk_ls {
  s_patches : list apatch;
  s_roots : list droot;
  s_universe : Z;
  s_ctr : Z;
  s_err : Z;
  s_q : insnq
}.

Definition set_qe (st : lstate) (qe : insnq * Z) : lstate :=
  mk_ls (s_patches st) (s_roots st) (s_universe st) (s_ctr st) (snd qe) (fst qe).
Definition set_err (st : lstate) (e : Z) : lstate :=
  mk_ls (s_patches st) (s_roots st) (s_universe st) (s_ctr st) e (s_q st).
Definition set_patches (st : lstate) (p : list apatch) : lstate :=
  mk_ls p (s_roots st) (s_universe st) (s_ctr st) (s_err st) (s_q st).
Definition set_roots (st : lstate) (r : list droot) : lstate :=
  mk_ls (s_patches st) r (s_universe st) (s_ctr st) (s_err st) (s_q st).
(** __ulp_global_universe++ (unsigned long). *)
Definition next_universe (st : lstate) : lstate :=
  mk_ls (s_patches st) (s_roots st) (u64 (s_universe st + 1)) (s_ctr st) (s_err st) (s_q st).
(** get_next_function_index (lib/ulp.c:1083-1087): the counter after the call. *)
Definition next_index (st : lstate) : lstate :=
  mk_ls (s_patches st) (s_roots st) (s_universe st) (u32 (s_ctr st + 1)) (s_err st) (s_q st).

(** The dynamic linker during one request: the program name, the loaded objects
    before and after the container is opened, dlopen (0 = NULL), dlsym
    (0 = error or NULL, load_so_symbol lib/ulp.c:258-272) and dlinfo
    (RTLD_DI_LINKMAP; [None] = -1, otherwise l_addr). *)
Record dlenv := mk_dlenv {
  e_prog : list Z;
  e_libs : list lib;
  e_libs2 : list lib;
  e_dlopen : list Z -> Z;
  e_dlsym : Z -> list Z -> Z;
  e_laddr : Z -> option Z
}.

(** ** Queries *)

(** lib/ulp.c:1124-1134, ulp_get_applied_patch; only NULL-ness matters. *)
Definition ulp_get_applied_patch (st : lstate) (id : list Z) : bool :=
  existsb (fun p => bytes_eqb (a_id p) id) (s_patches st).

(** lib/ulp.c:938-960, check_patch_dependencies. *)
Definition check_patch_dependencies (st : lstate) (deps : list (list Z)) : Z :=
  if forallb (fun d => existsb (fun p => bytes_eqb (a_id p) d) (s_patches st)) deps
  then 0 else EDEPEND.

(** lib/ulp.c:541-570, ulp_can_revert_patch. *)
Definition ulp_can_revert_patch (st : lstate) (id : list Z) : Z :=
  if negb (ulp_get_applied_patch st id) then ENOTAPPLIED
  else if existsb (fun p => existsb (fun d => bytes_eqb d id) (a_deps p)) (s_patches st)
  then EDEPEND else 0.

(** ** Applying *)

(** lib/ulp.c:592-600, get_detour_root_by_address; only NULL-ness is used here. *)
Definition has_root (roots : list droot) (addr : Z) : bool :=
  existsb (fun r => r_addr r =? addr) roots.

(** lib/ulp.c:658-667 with push_new_root 606-624: find the root of a function
    or put a new one at the front. Allocation failures are not modelled. *)
Definition ensure_root (st : lstate) (addr : Z) : lstate :=
  if has_root (s_roots st) addr then st
  else set_roots (next_index st) (mk_droot (s_ctr st) addr [] :: s_roots st).

(** lib/ulp.c:1101-1122, push_new_detour on the root found by address. *)
Fixpoint push_detour (roots : list droot) (addr : Z) (d : detour) : list droot :=
  match roots with
  | [] => []
  | r :: t => if r_addr r =? addr
              then mk_droot (r_index r) (r_addr r) (d :: r_detours r) :: t
              else r :: push_detour t addr d
  end.

(** lib/ulp.c:646-683, the loop of ulp_apply_all_units over the units. [h] is
    the container handle, [libname] the target's base name. *)
Fixpoint apply_units (e : dlenv) (m : mem) (libname : list Z) (h : Z) (id : list Z)
    (units : list munit) (st : lstate) : lstate * Z :=
  match units with
  | [] => (st, 0)
  | u :: us =>
      let old_fun := get_loaded_symbol_addr (e_prog e) (e_libs2 e) libname (u_old u) (u_addr u) in
      if old_fun =? 0 then (st, ENOOLDFUNC)
      else
        let new_fun := e_dlsym e h (u_new u) in
        if new_fun =? 0 then (st, ENONEWFUNC)
        else
          let st1 := ensure_root st old_fun in
          let d := mk_detour id (s_universe st1) new_fun true in
          let st2 := set_roots st1 (push_detour (s_roots st1) old_fun d) in
          let '(qe, retcode) := ulp_patch_addr m (s_q st2, s_err st2) old_fun new_fun true in
          let st3 := set_qe st2 qe in
          if retcode >? 0 then (st3, retcode)
          else apply_units e m libname h id us st3
  end.

(** lib/ulp.c:722-750, the loop over static data references. [None]: the name of
    a reference is not terminated and dlsym would read past it. *)
Fixpoint apply_refs (e : dlenv) (h target_base tls_idx patch_base : Z)
    (refs : list mref) (st : lstate) : option (lstate * Z) :=
  match refs with
  | [] => Some (st, 0)
  | r :: rs =>
      let go patch_address :=
        let data := if rf_tls r
                    then le_enc 8 (u64 tls_idx) ++ le_enc 8 (u64 (rf_toff r - TLS_DTV_OFFSET))
                    else le_enc 8 (u64 (target_base + rf_toff r)) in
        apply_refs e h target_base tls_idx patch_base rs
          (set_qe st (memwrite (s_q st, s_err st) patch_address data)) in
      if rf_poff r =? 0 then
        match rf_name r with
        | None => None
        | Some name =>
            let patch_address := e_dlsym e h name in
            if patch_address =? 0 then Some (st, ENONEWFUNC) else go patch_address
        end
      else go (u64 (patch_base + rf_poff r))
  end.

(** lib/ulp.c:633-753, ulp_apply_all_units. *)
Definition ulp_apply_all_units (e : dlenv) (m : mem) (h : Z) (md : meta) (st : lstate)
  : option (lstate * Z) :=
  let libname := get_basename (md_name md) in
  let (st1, ret) := apply_units e m libname h (md_id md) (md_units md) (next_universe st) in
  if negb (ret =? 0) then Some (st1, ret)
  else
    let target_base := get_loaded_library_base_addr (e_prog e) (e_libs2 e) libname in
    let tls_idx := get_loaded_library_tls_index (e_prog e) (e_libs2 e) libname in
    if target_base =? 255 then Some (st1, ENOADDRESS)
    else match e_laddr e h with
         | None => Some (st1, EUNKNOWN)
         | Some l_addr =>
             if l_addr =? 0 then Some (st1, ENOADDRESS)
             else apply_refs e h target_base tls_idx l_addr (md_refs md) st1
         end.

(** lib/ulp.c:801-833: resolve every unit; [None] is the early return 0. *)
Fixpoint resolve_units (e : dlenv) (m : mem) (libname : list Z) (h : Z) (units : list munit)
  : option (list aunit) :=
  match units with
  | [] => Some []
  | u :: us =>
      let old_fun := get_loaded_symbol_addr (e_prog e) (e_libs2 e) libname (u_old u) (u_addr u) in
      if old_fun =? 0 then None
      else
        let new_fun := e_dlsym e h (u_new u) in
        if new_fun =? 0 then None
        else match resolve_units e m libname h us with
             | None => None
             | Some l => Some (mk_aunit old_fun new_fun (mem_read m old_fun 14) :: l)
             end
  end.

(** lib/ulp.c:757-848, ulp_state_update: [None] is a NULL result (nothing was
    linked into the list). The dependencies end up in reverse order. *)
Definition ulp_state_update (e : dlenv) (m : mem) (h : Z) (md : meta) (st : lstate)
  : option lstate :=
  let libname := get_basename (md_name md) in
  match resolve_units e m libname h (md_units md) with
  | None => None
  | Some us =>
      let a := mk_apatch (md_id md)
                 (firstn (Z.to_nat ULP_PATH_LEN) libname)
                 (firstn (Z.to_nat ULP_PATH_LEN) (md_so md))
                 us (rev (md_deps md)) in
      Some (set_patches st (a :: s_patches st))
  end.

(** ** Reverting *)

Definition deactivate (d : detour) : detour :=
  mk_detour (d_pid d) (d_universe d) (d_target d) false.

(** lib/ulp.c:1232-1256, the loop over the detours of one root; [pre] are the
    ones already visited. The result of ulp_patch_addr is ignored. *)
Fixpoint revert_detours (m : mem) (addr : Z) (id : list Z) (pre todo : list detour)
    (qe : insnq * Z) : list detour * (insnq * Z) :=
  match todo with
  | [] => (pre, qe)
  | d :: t =>
      if bytes_eqb (d_pid d) id then
        let d' := deactivate d in
        let qe' := match find d_active (pre ++ d' :: t) with
                   | None => fst (ulp_patch_addr m qe addr 0 false)
                   | Some a => fst (ulp_patch_addr m qe addr (d_target a) true)
                   end in
        revert_detours m addr id (pre ++ [d']) t qe'
      else revert_detours m addr id (pre ++ [d]) t qe
  end.

(** lib/ulp.c:1223-1259, ulp_revert_all_units. *)
Fixpoint revert_roots (m : mem) (id : list Z) (roots : list droot) (qe : insnq * Z)
  : list droot * (insnq * Z) :=
  match roots with
  | [] => ([], qe)
  | r :: t =>
      let (ds, qe1) := revert_detours m (r_addr r) id [] (r_detours r) qe in
      let (t', qe2) := revert_roots m id t qe1 in
      (mk_droot (r_index r) (r_addr r) ds :: t', qe2)
  end.

(** lib/ulp.c:1171-1212, ulp_state_remove: [None] is the return value 0. *)
Fixpoint state_remove (id : list Z) (ps : list apatch) : option (list apatch) :=
  match ps with
  | [] => None
  | p :: t => if bytes_eqb (a_id p) id then Some t
              else match state_remove id t with
                   | None => None
                   | Some t' => Some (p :: t')
                   end
  end.

(** lib/ulp.c:1146-1159, ulp_revert_patch (ulp_revert_all_units returns 1). *)
Definition ulp_revert_patch (m : mem) (id : list Z) (st : lstate) : lstate * Z :=
  let st1 := next_universe st in
  let (roots, qe) := revert_roots m id (s_roots st1) (s_q st1, s_err st1) in
  let st2 := set_qe (set_roots st1 roots) qe in
  match state_remove id (s_patches st2) with
  | None => (st2, ESTATE)
  | Some ps => (set_patches st2 ps, 0)
  end.

(** ** Requests *)

(** lib/ulp.c:913-927, check_patch_sanity; [None]: the note walk leaves the
    mapped bytes. *)
Definition check_patch_sanity (e : dlenv) (md : meta) (st : lstate) : option Z :=
  match check_build_id (e_libs e) (md_bid_len md) (md_bid md) with
  | N_UB | N_fuel => None
  | N_match false => Some EBUILDID
  | N_match true =>
      let ret := check_patch_dependencies st (md_deps md) in
      if negb (ret =? 0) then Some ret
      else if ulp_get_applied_patch st (md_id md) then Some EAPPLIED
      else Some 0
  end.

(** lib/ulp.c:474-532 with load_metadata 313-338 and parse_metadata 439-465:
    load_patch on the content [buf] of the metadata buffer. libpulp_exit
    (lib/error.c:95-101) only sets the error state. Closing handles and freeing
    are not modelled; the buffer itself is cleared afterwards and is not part of
    the state. [None]: undefined behaviour. *)
Definition load_patch (e : dlenv) (m : mem) (junk : Z) (buf : list Z) (st : lstate)
  : option (lstate * Z) :=
  match parse_metadata_from_mem junk buf with
  | P_UB | P_fuel => None
  | P_err c => Some (st, c)
  | P_ok md =>
      if md_type md =? 2 then
        let ret := ulp_can_revert_patch st (md_id md) in
        if negb (ret =? 0) then Some (st, ret)
        else Some (ulp_revert_patch m (md_id md) st)
      else
        match check_patch_sanity e md st with
        | None => None
        | Some ret =>
            if negb (ret =? 0) then Some (st, ret)
            else
              let h := e_dlopen e (md_so md) in
              if h =? 0 then Some (st, EDLOPEN)
              else if md_type md =? 1 then
                match ulp_state_update e m h md st with
                | None => Some (st, ESTATE)
                | Some st1 =>
                    match ulp_apply_all_units e m h md st1 with
                    | None => None
                    | Some (st2, ret) =>
                        if negb (ret =? 0) then Some (set_err st2 EUNKNOWN, ret)
                        else Some (st2, 0)
                    end
                end
              else if md_type md =? 0 then Some (st, ENOMETA)
              else Some (st, EUNKNOWN)
        end
  end.

(** lib/ulp.c:181-212, __ulp_apply_patch. [busy] is the result of
    __ulp_asunsafe_trylock (the lock itself is modelled in LockModel). *)
Definition ulp_apply_patch (busy : bool) (e : dlenv) (m : mem) (junk : Z) (buf : list Z)
    (st : lstate) : option (lstate * Z) :=
  if negb (s_err st =? ENONE) then Some (st, s_err st)
  else
    let (r, err') := insnq_ensure_emptiness (s_q st) (s_err st) in
    let st0 := set_err st err' in
    if negb (r =? 0) then Some (st0, s_err st0)
    else if busy then Some (st0, EAGAIN)
    else load_patch e m junk buf st0.

(** lib/ulp.c:97-137, the loop of revert_all_patches_from_lib over the list as
    it was at the beginning ([next] is read before an entry is removed). An
    entry that cannot be reverted is retried without advancing (lines 114-119).
    [None]: out of fuel. *)
Fixpoint revert_all_loop (fuel : nat) (m : mem) (lib_basename : list Z)
    (todo : list apatch) (ret : Z) (st : lstate) : option (lstate * Z * bool) :=
  match todo with
  | [] => Some (st, ret, false)
  | p :: next =>
      match fuel with
      | O => None
      | S fuel' =>
          if strncmp_eq lib_basename (a_lib p) ULP_PATH_LEN then
            let ret1 := ulp_can_revert_patch st (a_id p) in
            if negb (ret1 =? 0) then revert_all_loop fuel' m lib_basename (p :: next) ret1 st
            else
              let (st1, ret2) := ulp_revert_patch m (a_id p) st in
              if negb (ret2 =? 0) then Some (st1, ret2, true)
              else revert_all_loop fuel' m lib_basename next ret2 st1
          else revert_all_loop fuel' m lib_basename next ret st
      end
  end.

(** lib/ulp.c:97-137, revert_all_patches_from_lib. *)
Definition revert_all_patches_from_lib (fuel : nat) (e : dlenv) (m : mem) (lib_name : list Z)
    (st : lstate) : option (lstate * Z) :=
  let lib_basename := get_basename lib_name in
  if ULP_PATH_LEN <=? zlen lib_name - zlen lib_basename then Some (st, EOVERFLOW)
  else
    match revert_all_loop fuel m lib_basename (s_patches st) ENOTARGETLIB st with
    | None => None
    | Some (st1, ret, true) => Some (st1, ret)
    | Some (st1, ret, false) =>
        if (ret =? ENOTARGETLIB) &&
           negb (get_loaded_library_base_addr (e_prog e) (e_libs e) lib_basename =? 255)
        then Some (st1, ENOPATCH)
        else Some (st1, ret)
    end.

(** lib/ulp.c:147-178, __ulp_revert_patches_from_lib. *)
Definition ulp_revert_patches_from_lib (fuel : nat) (busy : bool) (e : dlenv) (m : mem)
    (lib_name : list Z) (st : lstate) : option (lstate * Z) :=
  if negb (s_err st =? ENONE) then Some (st, s_err st)
  else
    let (r, err') := insnq_ensure_emptiness (s_q st) (s_err st) in
    let st0 := set_err st err' in
    if negb (r =? 0) then Some (st0, s_err st0)
    else if busy then Some (st0, EAGAIN)
    else revert_all_patches_from_lib fuel e m lib_name st0.

(** lib/ulp.c:214-228, __ulp_check_applied_patch. *)
Definition ulp_check_applied_patch (st : lstate) (id : list Z) : Z :=
  if negb (s_err st =? ENONE) then 0
  else b2z (ulp_get_applied_patch st id).

(** lib/ulp.c:237-241, __ulp_get_global_universe_value. *)
Definition ulp_get_global_universe_value (st : lstate) : Z := s_universe st.

(** lib/ulp.c:1275-1298, ulp_enable_or_disable_patching. *)
Definition ulp_enable_or_disable_patching (st : lstate) : lstate * Z :=
  let st' := if s_err st =? ENONE then set_err st EUSRBLOCKED
             else if s_err st =? EUSRBLOCKED then set_err st ENONE
             else st in
  (st', s_err st').

(** ** Tool operations *)

(** A process as the tool sees it: libpulp's state and the memory. *)
Record proc := mk_proc { p_lib : lstate; p_mem : mem }.

(** tools/introspection.c:1732-1743 and 1792-1803: execute the queue, then report. *)
Definition interpret_and_report (te : tool_env) (st : lstate) (m : mem) (result : Z)
  : option (proc * Z) :=
  match insnq_interpret_from_process te true (s_q st) (mk_tgt m []) with
  | None => None
  | Some (ret, q', t) =>
      let p' := mk_proc (set_qe st (q', s_err st)) (t_mem t) in
      if negb (ret =? 0) && negb (ret =? EOLDLIBPULP) then Some (p', ret)
      else Some (p', result)
  end.

(** tools/introspection.c:1675-1744, apply_patch, from the point where the
    metadata [buf] is in the target's buffer and the routine could be run. [rax]
    is the return register of the interrupted thread. *)
Definition tool_apply_patch (te : tool_env) (rax : Z) (busy : bool) (e : dlenv) (junk : Z)
    (buf : list Z) (p : proc) : option (proc * Z) :=
  match ulp_apply_patch busy e (p_mem p) junk buf (p_lib p) with
  | None => None
  | Some (st, result) =>
      if negb (result =? 0) && negb (result =? EAGAIN) && (result =? rax)
      then Some (mk_proc st (p_mem p), EHOOKNOTRUN)
      else interpret_and_report te st (p_mem p) result
  end.

(** tools/introspection.c:1746-1804, revert_patches_from_lib, likewise. *)
Definition tool_revert_patches_from_lib (fuel : nat) (te : tool_env) (busy : bool) (e : dlenv)
    (lib_name : list Z) (p : proc) : option (proc * Z) :=
  match ulp_revert_patches_from_lib fuel busy e (p_mem p) lib_name (p_lib p) with
  | None => None
  | Some (st, result) => interpret_and_report te st (p_mem p) result
  end.
