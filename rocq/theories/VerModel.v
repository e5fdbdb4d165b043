(** The tool and a libpulp of another version: the version of the instruction queue
    (tools/insn_queue.c), asked for before a process is stopped and again when its
    queue is read. *)
From Verif Require Import Base InsnQModel DlModel LibModel.

(** What the tool keeps about libpulp in a process (tools/introspection.h:105-127,
    struct ulp_dynobj): the address of the queue, 0 if libpulp has none, and the
    version read so far, 0 before that. *)
Record vobj := mk_vobj { v_addr : Z; v_cached : Z }.

(** tools/insn_queue.c:129-153, insnq_get_version. [rd] is the version that
    read_memory finds, [None] if it fails. *)
Definition insnq_get_version (o : vobj) (rd : option Z) : Z * vobj :=
  if 0 <? v_cached o then (v_cached o, o)
  else if v_addr o =? 0 then (0, o)
  else match rd with
       | None => (0, o)
       | Some v => (v, mk_vobj (v_addr o) v)
       end.

(** tools/insn_queue.c:155-170, insnq_check_compatibility. *)
Definition insnq_check_compatibility (o : vobj) (rd : option Z) : bool * vobj :=
  if v_addr o =? 0 then (true, o)
  else let (version, o') := insnq_get_version o rd in
       if version >? INSNQ_CURR_VERSION then (false, o') else (true, o').

(** tools/introspection.c:1732-1743 and 1792-1803, like LibModel.interpret_and_report,
    also for a libpulp without a queue. *)
Definition report_from (has_queue : bool) (te : tool_env) (st : lstate) (m : mem) (result : Z)
  : option (proc * Z) :=
  match insnq_interpret_from_process te has_queue (s_q st) (mk_tgt m []) with
  | None => None
  | Some (ret, q', t) =>
      let p' := mk_proc (set_qe st (q', s_err st)) (t_mem t) in
      if negb (ret =? 0) && negb (ret =? EOLDLIBPULP) then Some (p', ret)
      else Some (p', result)
  end.

(** One visit of the tool to a process: whether the version could be read, the
    results of reading and writing, the return register if it is compared
    (apply_patch, tools/introspection.c:1721-1730), and the routine of the libpulp
    that is in the process, which may be of any version. *)
Record visit := mk_visit {
  vi_readable : bool;
  vi_env : tool_env;
  vi_rax : option Z;
  vi_routine : lstate -> mem -> option (lstate * Z)
}.

(** tools/trigger.c:97-102 followed by one call of apply_patch
    (tools/introspection.c:1675-1744) or revert_patches_from_lib (1746-1804): what the
    tool keeps, the process and the answer. Simplified: stopping and resuming the
    threads succeeds (C23, C24 and C71 are about that), and one attempt is made. *)
Definition visit_process (v : visit) (o : vobj) (p : proc) : option (vobj * proc * Z) :=
  let rd := if vi_readable v then Some (q_version (s_q (p_lib p))) else None in
  let (ok, o') := insnq_check_compatibility o rd in
  if negb ok then Some (o', p, EOLDULP)
  else match vi_routine v (p_lib p) (p_mem p) with
       | None => None
       | Some (st, result) =>
           let not_run := match vi_rax v with
                          | Some rax => negb (result =? 0) && negb (result =? EAGAIN) && (result =? rax)
                          | None => false
                          end in
           if not_run then Some (o', mk_proc st (p_mem p), EHOOKNOTRUN)
           else match report_from (negb (v_addr o' =? 0)) (vi_env v) st (p_mem p) result with
                | None => None
                | Some (p', r) => Some (o', p', r)
                end
       end.

(** The same process is visited once for each patch (tools/trigger.c:278-352 and
    508-545; the process and its objects are parsed once). *)
Fixpoint visits (l : list visit) (o : vobj) (p : proc) : option (vobj * proc * list Z) :=
  match l with
  | [] => Some (o, p, [])
  | v :: t => match visit_process v o p with
              | None => None
              | Some (o1, p1, r) => match visits t o1 p1 with
                                    | None => None
                                    | Some (o2, p2, rs) => Some (o2, p2, r :: rs)
                                    end
              end
  end.

(** A visit to apply [buf], or to revert all patches of [name], where libpulp is this
    one (lib/ulp.c). *)
Definition visit_apply (readable : bool) (te : tool_env) (rax : Z) (busy : bool) (e : dlenv)
    (junk : Z) (buf : list Z) : visit :=
  mk_visit readable te (Some rax) (fun st m => ulp_apply_patch busy e m junk buf st).
Definition visit_revert (readable : bool) (te : tool_env) (fuel : nat) (busy : bool) (e : dlenv)
    (name : list Z) : visit :=
  mk_visit readable te None (fun st m => ulp_revert_patches_from_lib fuel busy e m name st).
