(** Several `ulp` tools at work on one process at the same time. The kernel lets only one
    of them trace a thread; everything else follows from the order in which the tool attaches
    and detaches (tools/introspection.c, tools/ptrace.c, tools/trigger.c). *)
From Verif Require Import Base InsnQModel TrModel DlModel LibModel ReplModel LibSpec.

(** One visit of a tool to the process: the threads it finds in /proc/<pid>/task, pass after
    pass (threads can occur again in a later pass), and what it does when it has stopped them,
    given the answers so far (oldest first); [None]: it leaves. Looking at a process before
    that (tools/introspection.c:1337-1378) is a visit to the main thread that does nothing. *)
Record session := mk_ses { se_threads : list Z; se_next : list Z -> option event }.

(** Where a tool is; [held]: the threads it traces, the one attached to last first. *)
Inductive phase :=
| Idle
| Scanning (s : session) (todo held : list Z)
| Inside (s : session) (held acc : list Z)
| Leaving (held : list Z).

(** How a visit ended: a thread could not be attached to, or it was carried out with these
    answers. *)
Inductive outcome := Refused | Finished (answers : list Z).

(** All tools, who traces which thread, the process, the visits that ended and the events so
    far, oldest first. *)
Record world := mk_world {
  w_phase : nat -> phase;
  w_tracer : Z -> option nat;
  w_proc : proc;
  w_log : list (nat * session * outcome);
  w_trace : list (event * Z)
}.

Definition set_phase (w : world) (i : nat) (ph : phase) : nat -> phase :=
  fun j => if Nat.eqb j i then ph else w_phase w j.
Definition set_tracer (w : world) (t : Z) (x : option nat) : Z -> option nat :=
  fun u => if u =? t then x else w_tracer w u.

Inductive action :=
| AStart (i : nat) (s : session)
| AAttach (i : nat)
| AEnter (i : nat)
| ARun (i : nat)
| ADetach (i : nat)
| AProgram (m : mem).

(** [threads]: the threads of the process, which stay the same here (C31 is about threads
    that come and go). [None]: the action is not possible. *)
Definition act (threads : list Z) (a : action) (w : world) : option world :=
  match a with
  | AStart i s =>
      match w_phase w i with
      | Idle => Some (mk_world (set_phase w i (Scanning s (se_threads s) [])) (w_tracer w) (w_proc w) (w_log w) (w_trace w))
      | _ => None
      end
  | AAttach i =>
      (* tools/introspection.c:1521-1577 and 1593-1612: the next entry; a thread that is already
         in the list is passed over. tools/ptrace.c:393-434, attach: refused if the thread is traced. *)
      match w_phase w i with
      | Scanning s (t :: todo) held =>
          if existsb (Z.eqb t) held
          then Some (mk_world (set_phase w i (Scanning s todo held)) (w_tracer w) (w_proc w) (w_log w) (w_trace w))
          else match w_tracer w t with
               | None => Some (mk_world (set_phase w i (Scanning s todo (t :: held))) (set_tracer w t (Some i))
                                 (w_proc w) (w_log w) (w_trace w))
               | Some _ => Some (mk_world (set_phase w i (Leaving held)) (w_tracer w) (w_proc w)
                                   (w_log w ++ [(i, s, Refused)]) (w_trace w))
               end
      | _ => None
      end
  | AEnter i =>
      (* tools/introspection.c:1586-1592, all_threads_hijacked *)
      match w_phase w i with
      | Scanning s [] held => Some (mk_world (set_phase w i (Inside s held [])) (w_tracer w) (w_proc w) (w_log w) (w_trace w))
      | _ => None
      end
  | ARun i =>
      (* tools/introspection.c:1626-1832: the routines of libpulp and the pending writes *)
      match w_phase w i with
      | Inside s held acc =>
          match se_next s acc with
          | None => Some (mk_world (set_phase w i (Leaving held)) (w_tracer w) (w_proc w)
                            (w_log w ++ [(i, s, Finished acc)]) (w_trace w))
          | Some ev => match do_event ev (w_proc w) with
                       | None => None
                       | Some (p, ans) =>
                           Some (mk_world (set_phase w i (Inside s held (acc ++ [ans]))) (w_tracer w) p
                                   (w_log w) (w_trace w ++ [(ev, ans)]))
                       end
          end
      | _ => None
      end
  | ADetach i =>
      (* tools/introspection.c:1857-1869 and 1603-1612: the list is walked from its head *)
      match w_phase w i with
      | Leaving (t :: held) => Some (mk_world (set_phase w i (Leaving held)) (set_tracer w t None) (w_proc w) (w_log w) (w_trace w))
      | Leaving [] => Some (mk_world (set_phase w i Idle) (w_tracer w) (w_proc w) (w_log w) (w_trace w))
      | _ => None
      end
  | AProgram m =>
      (* the program goes on while any of its threads is not traced *)
      if forallb (fun t => match w_tracer w t with Some _ => true | None => false end) threads then None
      else Some (mk_world (w_phase w) (w_tracer w) (mk_proc (p_lib (w_proc w)) m) (w_log w)
                   (w_trace w ++ [(EvProgram m, 0)]))
  end.

Fixpoint acts (threads : list Z) (l : list action) (w : world) : option world :=
  match l with
  | [] => Some w
  | a :: t => match act threads a w with None => None | Some w' => acts threads t w' end
  end.

(** Nobody is there. *)
Definition quiet (p : proc) : world := mk_world (fun _ => Idle) (fun _ => None) p [] [].

(** ** The visits the tool makes *)

(** tools/introspection.c:1732-1743: the result, from the answer of the routine and that of
    carrying out the writes. *)
Definition merged (ans r : Z) : Z := if negb (r =? 0) && negb (r =? EOLDLIBPULP) then r else ans.
(** tools/introspection.c:1721-1730. *)
Definition not_run (rax ans : Z) : bool := negb (ans =? 0) && negb (ans =? EAGAIN) && (ans =? rax).

(** tools/introspection.c:1675-1744, apply_patch. *)
Definition apply_session (threads : list Z) (te : tool_env) (rax : Z) (busy : bool) (e : dlenv) (junk : Z) (buf : list Z) : session :=
  mk_ses threads (fun acc =>
    match acc with
    | [] => Some (EvApply busy e junk buf)
    | [ans] => if not_run rax ans then None else Some (EvExec te)
    | _ => None
    end).

(** tools/trigger.c:162-199, one attempt at replacing the patches of a library. *)
Definition replace_session (threads : list Z) (lib buf : list Z) (v : visit) : session :=
  mk_ses threads (fun acc =>
    match acc with
    | [] => Some (EvRevertAll (v_busy1 v) (v_env1 v) lib)
    | [_] => Some (EvExec env_ok)
    | [a; x] =>
        let r0 := merged a x in
        let r := if (r0 =? ENOTARGETLIB) || (r0 =? ENOPATCH) then 0 else r0 in
        if negb (r =? 0) then None else Some (EvApply (v_busy2 v) (v_env2 v) (v_junk v) buf)
    | [_; _; b] => if not_run (v_rax v) b then None else Some (EvExec env_ok)
    | _ => None
    end).

(** tools/introspection.c:1337-1378: a look at the process through its main thread. *)
Definition look (pid : Z) : session := mk_ses [pid] (fun _ => None).
