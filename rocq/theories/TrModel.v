(** The trigger command (tools/trigger.c) and the tool's check that a patch suits a
    process (tools/introspection.c, check_patch_sanity). *)
From Verif Require Import Base StrModel InsnQModel LibModel PtModel HjModel.

Definition EOLDULP : Z := 286.
Definition EWILDNOMATCH : Z := 279.
Definition ESRCH : Z := 3.

(** ** One process *)

(** What the target answers in one attempt: the results of hijack_threads,
    coarse_library_range_check, revert_patches_from_lib, apply_patch and
    restore_threads (each is only asked for if the code calls it). *)
Record attempt := mk_attempt {
  at_hijack : Z;
  at_range : Z;
  at_revert : Z;
  at_apply : Z;
  at_restore : Z
}.

(** The calls made, with their results. *)
Inductive tev :=
| EvHijack (r : Z)
| EvRange (r : Z)
| EvRevert (r : Z)
| EvApply (r : Z)
| EvRestore (r : Z)
| EvSleep.

(** What was asked for: a patch, reverting a library first, the stack check (only
    in builds with ENABLE_STACK_CHECK). *)
Record treq := mk_treq { q_patch : bool; q_revert : bool; q_stack : bool }.

(** tools/trigger.c:145-219, one iteration of the retry loop after a successful
    hijack: the new result, whether [retry] was set to 0, and the calls. *)
Definition one_attempt (q : treq) (a : attempt) (result : Z) : Z * bool * list tev :=
  let '(result1, stop1, evs1) :=
    if q_stack q && negb (at_range a =? 0) then (result, false, [EvRange (at_range a)])
    else
      let ev0 := if q_stack q then [EvRange (at_range a)] else [] in
      (* lines 161-185 *)
      let '(result2, stop2, skip, evs2) :=
        if q_revert q then
          let r0 := at_revert a in
          let stop := r0 =? -1 in
          let r := if q_patch q && ((r0 =? ENOTARGETLIB) || (r0 =? ENOPATCH)) then 0 else r0 in
          if negb (r =? 0) then (r, stop, true, [EvRevert r0]) else (r, true, false, [EvRevert r0])
        else (result, false, false, []) in
      (* lines 187-199 *)
      if q_patch q && negb skip then
        let r := at_apply a in
        (r, stop2 || (r =? -1) || (r =? 0), ev0 ++ evs2 ++ [EvApply r])
      else (result2, stop2, ev0 ++ evs2) in
  (* lines 204-210 *)
  (result1, stop1 || negb (at_restore a =? 0),
   evs1 ++ [EvRestore (at_restore a)] ++ (if result1 =? 0 then [] else [EvSleep])).

(** tools/trigger.c:141-211, the retry loop: [inl r]: left through metadata_clean
    with [r]; [inr r]: ended with that [result]. *)
Fixpoint trigger_loop (q : treq) (ans : nat -> attempt) (retry : nat) (i : nat) (result : Z)
  : (Z + Z) * list tev :=
  match retry with
  | O => (inr result, [])
  | S n =>
      let a := ans i in
      let h := at_hijack a in
      if (h =? ETHRDDETTACH) || (0 <? h) then (inl h, [EvHijack h])
      else
        let '(result1, stop, evs) := one_attempt q a result in
        let '(r, rest) := if stop then (inr result1, []) else trigger_loop q ans n (S i) result1 in
        (r, EvHijack h :: evs ++ rest)
  end.

(** The answers before the process is stopped: insnq_check_compatibility, whether
    metadata could be extracted, load_patch_info_from_mem, check_patch_sanity. *)
Record tpre := mk_tpre { p_compatible : bool; p_metadata : bool; p_load : Z; p_sanity : Z }.

(** tools/trigger.c:86-246, trigger_one_process: the result and the calls. *)
Definition trigger_one_process (q : treq) (p : tpre) (ans : nat -> attempt) (retries : nat) : Z * list tev :=
  if negb (p_compatible p) then (EOLDULP, [])
  else if q_patch q && negb (p_metadata p) then (ENOMETA, [])
  else if q_patch q && negb (p_load p =? 0) then (p_load p, [])
  else if q_patch q && negb (p_sanity p =? 0) then (p_sanity p, [])
  else
    match trigger_loop q ans retries 0 (-1) with
    | (inl r, evs) => (r, evs)
    | (inr result, evs) => (if result =? 0 then 0 else result, evs)
    end.

(** ** Many processes *)

(** tools/trigger.c:54-60, skippable_error. *)
Definition skippable_error (err : Z) : bool :=
  (err =? EBUILDID) || (err =? ENOTARGETLIB) || (err =? EUSRBLOCKED) || (err =? EWILDNOMATCH) ||
  (err =? EAPPLIED) || (err =? ENOPATCH) || (err =? ESRCH).

Definition PROCESS_PATCH_SUCCESS : Z := 1.
Definition PROCESS_PATCH_SKIPPED : Z := 2.
Definition PROCESS_PATCH_ERROR : Z := 4.

(** A directory entry: [res] is what trigger_one_process answers for its path. *)
Inductive dent := mk_dent (name : list Z) (children : option (list dent)) (res : Z).

(** tools/trigger.c:341-349, how a result is noted. *)
Definition classify (r : Z) : Z :=
  if r =? 0 then PROCESS_PATCH_SUCCESS
  else if skippable_error r then PROCESS_PATCH_SKIPPED
  else PROCESS_PATCH_ERROR.

Definition DOT : Z := 46.
(** strrchr(name, '.') is ".so". *)
Definition is_so (name : list Z) : bool :=
  match after_last DOT name with
  | Some ext => bytes_eqb ext [115; 111]
  | None => false
  end.

(** tools/trigger.c:290-351, one entry of the directory whose path, with the slash,
    has [len] bytes: what is or-ed into [ret], and the results of all patches
    attempted (including those in subdirectories, by the recursive call of line
    322 whose result [r] is dropped). [matches] is fnmatch(wildcard, name) = 0 and
    [wlen] the length of the wildcard. "." and ".." are left out. *)
Fixpoint ulps_entry (recursive : bool) (matches : list Z -> bool) (wlen len : Z) (e : dent) : Z * list Z :=
  match e with
  | mk_dent name children res =>
      let bytes := len + zlen name in
      if ULP_PATH_LEN <=? bytes then (0, [])
      else
        let sub :=
          match children with
          | None => Some []
          | Some l =>
              if negb recursive then None
              else if ULP_PATH_LEN <=? bytes + wlen + 1 then None
              else Some (flat_map (fun e' => snd (ulps_entry recursive matches wlen (bytes + 1) e')) l)
          end in
        match sub with
        | None => (0, [])
        | Some rs => if is_so name && matches name then (classify res, rs ++ [res]) else (0, rs)
        end
  end.

(** tools/trigger.c:263-361, trigger_many_ulps: the mask returned and the results of
    all patches attempted. [dir] is [None] if the directory cannot be opened. *)
Definition trigger_many_ulps (recursive : bool) (matches : list Z -> bool) (wlen len : Z)
                             (dir : option (list dent)) : Z * list Z :=
  match dir with
  | None => (0, [])
  | Some es =>
      (fold_left (fun ret e => Z.lor ret (fst (ulps_entry recursive matches wlen len e))) es 0,
       flat_map (fun e => snd (ulps_entry recursive matches wlen len e)) es)
  end.

(** Counters and return value of trigger_many_processes. *)
Record tcount := mk_tcount { c_ret : Z; c_succ : Z; c_skip : Z; c_fail : Z }.

(** tools/trigger.c:513-536, a process in wildcard mode; [r] from
    trigger_many_ulps. *)
Definition count_wild (c : tcount) (r : Z) : tcount :=
  let has m := negb (Z.land r m =? 0) in
  mk_tcount (c_ret c)
    (if has PROCESS_PATCH_SUCCESS then c_succ c + 1 else c_succ c)
    (if has PROCESS_PATCH_SUCCESS then c_skip c
     else if has PROCESS_PATCH_SKIPPED then c_skip c + 1 else c_skip c)
    (if has PROCESS_PATCH_ERROR then c_fail c + 1 else c_fail c).

(** tools/trigger.c:537-556, a process when a single patch was named. *)
Definition count_one (c : tcount) (r : Z) : tcount :=
  if skippable_error r then mk_tcount (c_ret c) (c_succ c) (c_skip c + 1) (c_fail c)
  else mk_tcount (Z.lor (c_ret c) r)
         (if r =? 0 then c_succ c + 1 else c_succ c) (c_skip c)
         (if r =? 0 then c_fail c else c_fail c + 1).

(** tools/trigger.c:495-566, trigger_many_processes; [rs] are the results per
    process. *)
Definition trigger_many_processes (wildcard : bool) (rs : list Z) : tcount :=
  fold_left (if wildcard then count_wild else count_one) rs (mk_tcount 0 0 0 0).

(** tools/ulp.c, main returns what run_trigger returned: the status seen by the
    caller of the program is its low byte. *)
Definition exit_status (ret : Z) : Z := ret mod 256.

(** ** Does the patch suit the process? *)

(** A loaded object: its file name and build ID as found by the tool. *)
Record dobj := mk_dobj { o_filename : list Z; o_build_id : list Z }.

(** tools/introspection.c:2312-2331, the loop of check_patch_sanity. [seen]: the
    variable buildid is set. *)
Fixpoint sanity_loop (target bid : list Z) (os : list dobj) (seen : bool) : option bool :=
  match os with
  | [] => Some seen
  | d :: t =>
      let name_match := bytes_eqb (get_basename (o_filename d)) target in
      let seen := seen || name_match in
      if name_match && bytes_eqb bid (o_build_id d) then None
      else sanity_loop target bid t seen
  end.

(** tools/introspection.c:2292-2359, check_patch_sanity. [parsed]: the metadata
    names a target object; [functions]: all replacement functions exist in the
    container. *)
Definition tool_check_patch_sanity (parsed functions : bool) (target_name bid : list Z) (os : list dobj) : Z :=
  if negb parsed then EUNKNOWN
  else if negb functions then EUNKNOWN
  else match sanity_loop (get_basename target_name) bid os false with
       | None => 0
       | Some true => EBUILDID
       | Some false => ENOTARGETLIB
       end.
