(** The tables of livepatches (lib/ulp.c) on top of the redirection code of POWER
    (lib/arch/powerpc64le/patch.c). lib/ulp.c is the same for both machines: only
    ulp_patch_addr differs, and here it is an argument. LibModel has the same
    functions with the x86-64 one; [C103_same_tables] compares them.

    Simplified: a request arrives with its symbols resolved (the addresses are in
    the request) and its build ID checked; static data references, which are
    written in the same way on both machines, and "revert all" are left to LibModel. *)
From Verif Require Import Base InsnQModel InsnQSpec DlModel LibModel LibSpec PpcModel.

(** ulp_patch_addr at some memory: queue and error state, function, replacement,
    enable or disable. *)
Definition patcher := insnq * Z -> Z -> Z -> bool -> (insnq * Z) * Z.

(** lib/ulp.c:646-683, the loop of ulp_apply_all_units over the units. *)
Fixpoint apply_pairs (patch : patcher) (id : list Z) (pairs : list (Z * Z)) (st : lstate) : lstate * Z :=
  match pairs with
  | [] => (st, 0)
  | (old_fun, new_fun) :: us =>
      if old_fun =? 0 then (st, ENOOLDFUNC)
      else if new_fun =? 0 then (st, ENONEWFUNC)
      else
        let st1 := ensure_root st old_fun in
        let d := mk_detour id (s_universe st1) new_fun true in
        let st2 := set_roots st1 (push_detour (s_roots st1) old_fun d) in
        let '(qe, retcode) := patch (s_q st2, s_err st2) old_fun new_fun true in
        let st3 := set_qe st2 qe in
        if retcode >? 0 then (st3, retcode)
        else apply_pairs patch id us st3
  end.

(** lib/ulp.c:1232-1256, the loop over the detours of one root. *)
Fixpoint revert_detours_by (patch : patcher) (addr : Z) (id : list Z) (pre todo : list detour)
    (qe : insnq * Z) : list detour * (insnq * Z) :=
  match todo with
  | [] => (pre, qe)
  | d :: t =>
      if bytes_eqb (d_pid d) id then
        let d' := deactivate d in
        let qe' := match find d_active (pre ++ d' :: t) with
                   | None => fst (patch qe addr 0 false)
                   | Some a => fst (patch qe addr (d_target a) true)
                   end in
        revert_detours_by patch addr id (pre ++ [d']) t qe'
      else revert_detours_by patch addr id (pre ++ [d]) t qe
  end.

(** lib/ulp.c:1223-1259, ulp_revert_all_units. *)
Fixpoint revert_roots_by (patch : patcher) (id : list Z) (roots : list droot) (qe : insnq * Z)
  : list droot * (insnq * Z) :=
  match roots with
  | [] => ([], qe)
  | r :: t =>
      let (ds, qe1) := revert_detours_by patch (r_addr r) id [] (r_detours r) qe in
      let (t', qe2) := revert_roots_by patch id t qe1 in
      (mk_droot (r_index r) (r_addr r) ds :: t', qe2)
  end.

(** lib/ulp.c:1146-1159, ulp_revert_patch. *)
Definition revert_patch_by (patch : patcher) (id : list Z) (st : lstate) : lstate * Z :=
  let st1 := next_universe st in
  let (roots, qe) := revert_roots_by patch id (s_roots st1) (s_q st1, s_err st1) in
  let st2 := set_qe (set_roots st1 roots) qe in
  match state_remove id (s_patches st2) with
  | None => (st2, ESTATE)
  | Some ps => (set_patches st2 ps, 0)
  end.

(** lib/ulp.c:474-532, load_patch on POWER, for a livepatch that replaces the
    functions [pairs] (type 1) ... *)
Definition ppc_load_apply (T : Z) (m : mem) (id lib : list Z) (deps : list (list Z)) (pairs : list (Z * Z))
    (st : lstate) : lstate * Z :=
  let ret := check_patch_dependencies st deps in
  if negb (ret =? 0) then (st, ret)
  else if ulp_get_applied_patch st id then (st, EAPPLIED)
  else if existsb (fun p => (fst p =? 0) || (snd p =? 0)) pairs then (st, ESTATE)
  else
    let a := mk_apatch id lib [] (map (fun p => mk_aunit (fst p) (snd p) (mem_read m (fst p) 14)) pairs) (rev deps) in
    let (st2, ret) := apply_pairs (ppc_patch_addr T m) id pairs (next_universe (set_patches st (a :: s_patches st))) in
    if negb (ret =? 0) then (set_err st2 EUNKNOWN, ret) else (st2, 0).

(** ... and for its reversal (type 2). *)
Definition ppc_load_revert (T : Z) (m : mem) (id : list Z) (st : lstate) : lstate * Z :=
  let ret := ulp_can_revert_patch st id in
  if negb (ret =? 0) then (st, ret) else revert_patch_by (ppc_patch_addr T m) id st.

(** lib/ulp.c:181-212, __ulp_apply_patch around load_patch. *)
Definition ppc_request (busy : bool) (load : lstate -> lstate * Z) (st : lstate) : lstate * Z :=
  if negb (s_err st =? ENONE) then (st, s_err st)
  else
    let (r, err') := insnq_ensure_emptiness (s_q st) (s_err st) in
    let st0 := set_err st err' in
    if negb (r =? 0) then (st0, s_err st0)
    else if busy then (st0, EAGAIN)
    else load st0.
