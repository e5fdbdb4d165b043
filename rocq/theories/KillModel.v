(** The tool dies while it patches a process (tools/trigger.c, trigger_one_process;
    tools/introspection.c; tools/ptrace.c; the kernel's part as in SigModel).

    The tool's critical section is a list of actions, each of which has happened
    completely or not at all when the tool dies.  Simplified: nothing fails on the
    tool's side, nobody else sends signals (C85 treats them), one attempt; the tool
    dies as a whole (it is killed, or exits). *)
From Coq Require Import Bool.
From Verif Require Import Base InsnQModel DlModel LibModel LibSpec SigModel.

(** What the tool does, in the target, one after the other: attach to a thread and
    wait until it has stopped (tools/introspection.c:1554-1561, tools/ptrace.c:399-433);
    write a request into libpulp's buffer, which nothing else reads (1693, 1766);
    let the main thread enter a routine (tools/ptrace.c:521-571); the routine ends,
    leaving libpulp in the given state, and the thread stops at the breakpoint
    behind it; store one byte of a queued write (tools/insn_queue.c:39-48; the tool
    stores up to eight at a time, so it can die at fewer points than here); reset the
    queue (107-127); restore the registers of a thread; release it
    (tools/introspection.c:1856-1865). *)
Inductive tact :=
| A_attach (tid : Z)
| A_buffer
| A_start
| A_return (st : lstate)
| A_poke (a b : Z)
| A_reset
| A_setregs (tid : Z)
| A_detach (tid : Z).

(** The process: its threads, libpulp's state and its memory. *)
Record world := mk_world { w_threads : list (Z * task); w_proc : proc }.

Definition on_thread (tid : Z) (f : task -> task) (w : world) : world :=
  mk_world (map (fun p => if fst p =? tid then (fst p, f (snd p)) else p) (w_threads w)) (w_proc w).

Definition attached (t : task) : task :=
  match ptrace_attach t with
  | Some (t1, _) => match take SIGSTOP t1 with Some (t2, _) => t2 | None => t1 end
  | None => t
  end.
Definition or_same (f : task -> option task) (t : task) : task :=
  match f t with Some t' => t' | None => t end.
(** PTRACE_SETREGS and PTRACE_CONT. *)
Definition started (t : task) : task := or_same ptrace_cont (or_same (ptrace_setregs true) t).
(** Back to user mode, and to the breakpoint. *)
Definition trapped (t : task) : task :=
  match enter t with
  | Some (t1, _) => match trap t1 with Some (t2, _) => t2 | None => t1 end
  | None => t
  end.

Definition act_step (main : Z) (w : world) (a : tact) : world :=
  match a with
  | A_attach tid => on_thread tid attached w
  | A_buffer => w
  | A_start => on_thread main started w
  | A_return st => on_thread main trapped (mk_world (w_threads w) (mk_proc st (p_mem (w_proc w))))
  | A_poke x b => mk_world (w_threads w) (mk_proc (p_lib (w_proc w)) (mem_write (p_mem (w_proc w)) x [b]))
  | A_reset => let st := p_lib (w_proc w) in
      mk_world (w_threads w) (mk_proc (set_qe st (insnq_reset (s_q st), s_err st)) (p_mem (w_proc w)))
  | A_setregs tid => on_thread tid (or_same (ptrace_setregs false)) w
  | A_detach tid => on_thread tid (or_same ptrace_detach) w
  end.
Definition acts_run (main : Z) (l : list tact) (w : world) : world := fold_left (act_step main) l w.

(** The single stores of the queue, as the interpreter makes them, and whether the
    queue is reset then (tools/insn_queue.c:173-209 if every call succeeds). *)
Definition rec_write (idx : nat) (addr : Z) (bytes : list Z) (size : Z) (l : list (Z * Z)) : option (Z * list (Z * Z)) :=
  Some (size, l ++ combine (map (fun i => addr + Z.of_nat i) (seq 0 (length bytes))) bytes).
Definition stores (rq : insnq) : option (list (Z * Z) * bool) :=
  let (ret, q) := insnq_get_from_remote_process env_ok rq in
  if negb (ret =? 0) then Some ([], false)
  else if q_size q >? INSN_BUFFER_MAX then Some ([], false)
  else match insnq_interpret (fun _ l => l) rec_write q [] with
       | I_UB _ => None
       | I_ret c l => Some (l, c =? 0)
       end.

(** The actions that execute the queue of libpulp's state [st]. *)
Definition queue_acts (st : lstate) : option (list tact) :=
  match stores (s_q st) with
  | None => None
  | Some (l, ok) => Some (map (fun s => A_poke (fst s) (snd s)) l ++ (if ok then [A_reset] else []))
  end.

(** A request: to revert the livepatches of a library, to apply a livepatch. *)
Inductive request :=
| R_revert (busy : bool) (e : dlenv) (lib_name : list Z)
| R_apply (rax : Z) (busy : bool) (e : dlenv) (junk : Z) (buf : list Z).

(** tools/introspection.c:1746-1804, revert_patches_from_lib, and 1675-1744, apply_patch,
    as functions (LibModel) ... *)
Definition serve (r : request) (p : proc) : option (proc * Z) :=
  match r with
  | R_revert busy e name => tool_revert_patches_from_lib (S (length (s_patches (p_lib p)))) env_ok busy e name p
  | R_apply rax busy e junk buf => tool_apply_patch env_ok rax busy e junk buf p
  end.
(** ... and as actions. *)
Definition request_acts (r : request) (p : proc) : option (list tact) :=
  match r with
  | R_revert busy e name =>
      match ulp_revert_patches_from_lib (S (length (s_patches (p_lib p)))) busy e (p_mem p) name (p_lib p) with
      | None => None
      | Some (st, _) =>
          match queue_acts st with None => None | Some l => Some ([A_buffer; A_start; A_return st] ++ l) end
      end
  | R_apply rax busy e junk buf =>
      match ulp_apply_patch busy e (p_mem p) junk buf (p_lib p) with
      | None => None
      | Some (st, result) =>
          if negb (result =? 0) && negb (result =? EAGAIN) && (result =? rax)
          then Some [A_buffer; A_start; A_return st]
          else match queue_acts st with None => None | Some l => Some ([A_buffer; A_start; A_return st] ++ l) end
      end
  end.

(** The requests of one attempt (tools/trigger.c:165-207), one after the other as
    long as they succeed; reverting where there is nothing to revert
    counts as success: the actions and the process at the end. *)
Fixpoint attempt_acts (l : list request) (p : proc) : option (list tact * proc) :=
  match l with
  | [] => Some ([], p)
  | r :: rest =>
      match request_acts r p, serve r p with
      | Some acts, Some (p1, ans) =>
          let ans' := match r, rest with
                      | R_revert _ _ _, _ :: _ => if (ans =? ENOTARGETLIB) || (ans =? ENOPATCH) then 0 else ans
                      | _, _ => ans
                      end in
          if ans' =? 0
          then match attempt_acts rest p1 with
               | Some (acts2, p2) => Some (acts ++ acts2, p2)
               | None => None
               end
          else Some (acts, p1)
      | _, _ => None
      end
  end.

(** The whole critical section: [found], the threads in the order they are attached
    to; they are released in the opposite order (the list is built at its head). *)
Definition release_acts (tid : Z) : list tact := [A_setregs tid; A_detach tid].
Definition script (found : list Z) (acts : list tact) : list tact :=
  map A_attach found ++ acts ++ flat_map release_acts (rev found).

(** The tool dies: every thread it traces is released with the signal it had stopped
    for; SIGTRAP ends the process (the default action of this signal, on which the
    breakpoint relies as well); a thread that stops by SIGSTOP stops the process.
    The threads are released one by one; here, all at once. *)
Definition gone (t : task) : task :=
  match k_state t with
  | Traced g => if g =? SIGTRAP then dead else fst (tracer_gone t)
  | _ => fst (tracer_gone t)
  end.
Definition is_dead (t : task) : bool := match k_state t with Dead => true | _ => false end.
Definition job_stop (t : task) : task :=
  match k_state t with
  | Dead => dead
  | _ => mk_task (k_pend t) JobStopped (k_traced t) true (k_lib t)
  end.
Definition tool_dies (w : world) : world :=
  let l := map (fun p => (fst p, gone (snd p))) (w_threads w) in
  let l1 := if existsb (fun p => is_dead (snd p)) l then map (fun p => (fst p, dead)) l
            else if existsb (fun p => k_job (snd p)) l then map (fun p => (fst p, job_stop (snd p))) l
            else l in
  mk_world l1 (w_proc w).
