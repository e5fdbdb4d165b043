(** Replacing the livepatches of a library by a new one (`ulp trigger --revert-all=LIB
    PATCH`): the retry loop of tools/trigger.c with the requests carried out in a
    process (LibModel), not just answered (TrModel). *)
From Verif Require Import Base InsnQModel DlModel LibModel TrModel.

(** One iteration of the loop: what the program has done with its memory since the
    last one; for the request to revert and the one to apply, whether the main thread is in
    a function it is not safe to interrupt and what the dynamic linker answers; the
    return register of the main thread and what the buffer is followed by. *)
Record visit := mk_visit {
  v_run : mem -> mem;
  v_busy1 : bool;
  v_env1 : dlenv;
  v_busy2 : bool;
  v_env2 : dlenv;
  v_rax : Z;
  v_junk : Z
}.

(** tools/trigger.c:162-199: [None] if libpulp or the tool does not come back; else the process,
    the result, whether [retry] was set to 0, and the two answers (0 if not asked).
    Simplified: the tool's accesses to the process succeed. *)
Definition replace_attempt (lib_name buf : list Z) (v : visit) (p : proc) : option (proc * Z * bool * (Z * Z)) :=
  match tool_revert_patches_from_lib (S (length (s_patches (p_lib p)))) env_ok (v_busy1 v) (v_env1 v) lib_name p with
  | None => None
  | Some (p1, r0) =>
      let r := if (r0 =? ENOTARGETLIB) || (r0 =? ENOPATCH) then 0 else r0 in
      if negb (r =? 0) then Some (p1, r, r0 =? -1, (r0, 0))
      else match tool_apply_patch env_ok (v_rax v) (v_busy2 v) (v_env2 v) (v_junk v) buf p1 with
           | None => None
           | Some (p2, a) => Some (p2, a, true, (r0, a))
           end
  end.

(** tools/trigger.c:141-211; hijack_threads and restore_threads succeed (C39 treats
    their failures), no stack check.  The process, the result, and the answers. *)
Fixpoint replace_loop (lib_name buf : list Z) (vs : nat -> visit) (retry i : nat) (result : Z) (p : proc)
  : option (proc * Z * list (Z * Z)) :=
  match retry with
  | O => Some (p, result, [])
  | S n =>
      let p0 := mk_proc (p_lib p) (v_run (vs i) (p_mem p)) in
      match replace_attempt lib_name buf (vs i) p0 with
      | None => None
      | Some (p1, r, stop, a) =>
          if stop then Some (p1, r, [a])
          else match replace_loop lib_name buf vs n (S i) r p1 with
               | None => None
               | Some (p2, r2, l) => Some (p2, r2, a :: l)
               end
      end
  end.

(** tools/trigger.c:141-221: the process and what trigger_one_process returns, the
    checks before the loop having succeeded. *)
Definition replace (retries : nat) (lib_name buf : list Z) (vs : nat -> visit) (p : proc) : option (proc * Z) :=
  match replace_loop lib_name buf vs retries 0 (-1) p with
  | None => None
  | Some (p', r, _) => Some (p', r)
  end.
