(** What attaching to a thread of the target and releasing it again does to the
    signals sent to the thread (tools/ptrace.c attach, detach, run_and_redirect as
    used by tools/introspection.c).  The kernel's side is a model of ptrace(2),
    signal(7) and the job control of Linux; which signal is taken next, when, and
    what is sent meanwhile is up to the schedule.

    Simplifications: one thread; a signal sent to the process is modelled as sent
    to the thread that takes it; signals that the process ignores are not sent
    here; SIGTSTP, SIGTTIN and SIGTTOU do not stop the process when they are taken
    (as if it handled them); memory, registers and errors of ptrace other than
    those of a thread in the wrong state are in PtModel. *)
From Verif Require Import Base.

(** asm-generic/signal.h. *)
Definition SIGTRAP : Z := 5.
Definition SIGKILL : Z := 9.
Definition SIGCONT : Z := 18.
Definition SIGSTOP : Z := 19.
(** SIGSTOP, SIGTSTP, SIGTTIN, SIGTTOU. *)
Definition is_stop (g : Z) : bool := (19 <=? g) && (g <=? 22).
(** The signals below 32 are pending at most once; the others are queued. *)
Definition merges (g : Z) : bool := g <? 32.

(** A thread: runs its program; was resumed by PTRACE_CONT and has not yet
    returned to user mode; is stopped by job control; is stopped for its tracer,
    which is told the signal; is dead. *)
Inductive tstate := Running | Resumed | JobStopped | Traced (g : Z) | Dead.

(** [k_pend]: the pending signals.  [k_job]: the process is stopped by job
    control (it is then [JobStopped] unless a tracer made it run).  [k_lib]: its
    registers are those of a routine of libpulp. *)
Record task := mk_task { k_pend : list Z; k_state : tstate; k_traced : bool; k_job : bool; k_lib : bool }.

Definition dead : task := mk_task [] Dead false false false.

(** What happens, as the log has it: a signal is sent; merged with one that is
    pending; discarded by job control (or by death); received by the process; the
    thread stops and its tracer is told a signal; a signal it was told is given back
    because it exits; the tracer attached (the kernel
    sends SIGSTOP then); the breakpoint at the end of a routine is reached; the
    tool starts a routine; the tool releases the thread successfully, or not. *)
Inductive obs :=
| O_sent (g : Z) | O_merged (g : Z) | O_discarded (g : Z) | O_got (g : Z) | O_report (g : Z)
| O_back (g : Z) | O_attach | O_trap | O_start | O_released | O_failed.

(** Takes one [g] out of a list. *)
Fixpoint take_one (g : Z) (l : list Z) : list Z :=
  match l with
  | [] => []
  | x :: r => if x =? g then r else x :: take_one g r
  end.

(** The kernel's send_signal: SIGCONT discards pending stop signals and ends a
    stop; a stop signal discards a pending SIGCONT. *)
Definition queue (g : Z) (t : task) : task * list obs :=
  let gone := if g =? SIGCONT then filter is_stop (k_pend t)
              else if is_stop g then filter (Z.eqb SIGCONT) (k_pend t) else [] in
  let p := if g =? SIGCONT then filter (fun x => negb (is_stop x)) (k_pend t)
           else if is_stop g then filter (fun x => negb (SIGCONT =? x)) (k_pend t) else k_pend t in
  let job := if g =? SIGCONT then false else k_job t in
  let st := if g =? SIGCONT then match k_state t with JobStopped => Running | s => s end else k_state t in
  if merges g && existsb (Z.eqb g) p
  then (mk_task p st (k_traced t) job (k_lib t), map O_discarded gone ++ [O_merged g])
  else (mk_task (p ++ [g]) st (k_traced t) job (k_lib t), map O_discarded gone).

(** Somebody sends a signal to the thread. *)
Definition send (g : Z) (t : task) : option (task * list obs) :=
  match k_state t with
  | Dead => None
  | _ => if g =? SIGKILL
         then Some (dead, O_sent g :: map O_discarded (k_pend t) ++ [O_got g])
         else let (t', l) := queue g t in Some (t', O_sent g :: l)
  end.

(** The kernel takes a pending signal: a traced thread stops for its tracer, an
    untraced one receives it. *)
Definition take (g : Z) (t : task) : option (task * list obs) :=
  if negb (existsb (Z.eqb g) (k_pend t)) then None
  else
    let p := take_one g (k_pend t) in
    match k_state t with
    | Running | Resumed =>
        if k_traced t then Some (mk_task p (Traced g) true (k_job t) (k_lib t), [O_report g])
        else if g =? SIGSTOP then Some (mk_task p JobStopped false true (k_lib t), [O_got g])
        else Some (mk_task p (k_state t) false (k_job t) (k_lib t), [O_got g])
    | _ => None
    end.

(** A resumed thread returns to user mode; not with a SIGSTOP pending, which
    cannot be blocked. *)
Definition enter (t : task) : option (task * list obs) :=
  match k_state t with
  | Resumed => if existsb (Z.eqb SIGSTOP) (k_pend t) then None
               else Some (mk_task (k_pend t) Running (k_traced t) (k_job t) (k_lib t), [])
  | _ => None
  end.

(** The thread reaches the int3 at the end of a routine
    (lib/arch/x86_64/ulp_interface.S): SIGTRAP, which stops a traced thread and
    kills any other. *)
Definition trap (t : task) : option (task * list obs) :=
  match k_state t with
  | Running =>
      if negb (k_lib t) then None
      else if k_traced t
      then Some (mk_task (k_pend t) (Traced SIGTRAP) true (k_job t) true, [O_trap; O_report SIGTRAP])
      else Some (dead, O_trap :: map O_discarded (k_pend t) ++ [O_got SIGTRAP])
  | _ => None
  end.

(** PTRACE_ATTACH: a thread stopped by job control stops for its tracer at once. *)
Definition ptrace_attach (t : task) : option (task * list obs) :=
  match k_state t with
  | Dead => None
  | _ =>
      if k_traced t then None
      else
        let (t1, l) := queue SIGSTOP t in
        let st := match k_state t1 with JobStopped => Traced SIGSTOP | s => s end in
        Some (mk_task (k_pend t1) st true (k_job t1) (k_lib t1), O_attach :: l)
  end.

(** PTRACE_DETACH and PTRACE_CONT with signal 0: the signal of the stop is
    dropped.  A process stopped by job control stops again. *)
Definition ptrace_detach (t : task) : option task :=
  match k_state t with
  | Traced _ => Some (mk_task (k_pend t) (if k_job t then JobStopped else Running) false (k_job t) (k_lib t))
  | _ => None
  end.
Definition ptrace_cont (t : task) : option task :=
  match k_state t with
  | Traced _ => Some (mk_task (k_pend t) Resumed true (k_job t) (k_lib t))
  | _ => None
  end.
(** PTRACE_SETREGS, with the registers of a routine or the saved ones. *)
Definition ptrace_setregs (lib : bool) (t : task) : option task :=
  match k_state t with
  | Traced _ => Some (mk_task (k_pend t) (k_state t) (k_traced t) (k_job t) lib)
  | _ => None
  end.
(** The tracer exits: a signal whose delivery it had not decided about is delivered. *)
Definition tracer_gone (t : task) : task * list obs :=
  match k_state t with
  | Traced g =>
      if (g =? SIGTRAP) && k_lib t then (dead, O_back g :: map O_discarded (k_pend t) ++ [O_got g])
      else if g =? SIGSTOP then (mk_task (k_pend t) JobStopped false true (k_lib t), [O_back g; O_got g])
      else (mk_task (k_pend t) (if k_job t then JobStopped else Running) false (k_job t) (k_lib t), [O_back g; O_got g])
  | Dead => (t, [])
  | s => (mk_task (k_pend t) s false (k_job t) (k_lib t), [])
  end.

(** Where the tool is: not attached; in the loop of attach (tools/ptrace.c:404-433);
    holding the stopped thread; in the loop of run_and_redirect (574-611); released
    with an error and about to exit. *)
Inductive phase := Idle | Waiting | Held | Routine | Leaving.

(** tools/introspection.c:1856-1865, restore_threads for this thread: the registers,
    then PTRACE_DETACH, both whatever the other answers. *)
Definition restore (t : task) : task * bool :=
  let t1 := match ptrace_setregs false t with Some t1 => t1 | None => t end in
  match ptrace_detach t1 with Some t2 => (t2, true) | None => (t1, false) end.

(** The tool's next step.  Idle: PTRACE_ATTACH (tools/ptrace.c:399-402).  Waiting:
    waitpid; any stop will do (412-415); a thread that died ends it.  Held: start
    a routine (561-571, PTRACE_SETREGS and PTRACE_CONT).  Routine: waitpid again
    (599-602, any stop will do). *)
Definition tool (ph : phase) (t : task) : option (task * phase * list obs) :=
  match ph with
  | Idle => match ptrace_attach t with Some (t', l) => Some (t', Waiting, l) | None => Some (t, Idle, [O_failed]) end
  | Waiting => match k_state t with
               | Traced _ => Some (t, Held, [])
               | Dead => Some (t, Idle, [O_failed])
               | _ => Some (t, Waiting, [])
               end
  | Held => match ptrace_setregs true t with
            | Some t1 => match ptrace_cont t1 with Some t2 => Some (t2, Routine, [O_start]) | None => None end
            | None => Some (t, Leaving, [O_failed])
            end
  | Routine => match k_state t with
               | Traced _ => Some (t, Held, [])
               | Dead => Some (t, Idle, [O_failed])
               | _ => Some (t, Routine, [])
               end
  | Leaving => let (t1, l) := tracer_gone t in Some (t1, Idle, l)
  end.

(** The tool releases a thread it holds. *)
Definition finish (ph : phase) (t : task) : option (task * phase * list obs) :=
  match ph with
  | Held => let (t1, ok) := restore t in if ok then Some (t1, Idle, [O_released]) else Some (t1, Leaving, [O_failed])
  | _ => None
  end.

(** The routine takes longer than the timeout (tools/ptrace.c:611-615): the thread is
    released as it is. *)
Definition timeout (ph : phase) (t : task) : option (task * phase * list obs) :=
  match ph with
  | Routine => let (t1, ok) := restore t in Some (t1, Leaving, [O_failed])
  | _ => None
  end.

(** A schedule.  [None]: a step of it is not possible. *)
Inductive act := Send (g : Z) | Take (g : Z) | Enter | Trap | Tool | Finish | Timeout.

Definition step (a : act) (t : task) (ph : phase) : option (task * phase * list obs) :=
  let kernel r := match r with Some (t', l) => Some (t', ph, l) | None => None end in
  match a with
  | Send g => kernel (send g t)
  | Take g => kernel (take g t)
  | Enter => kernel (enter t)
  | Trap => kernel (trap t)
  | Tool => tool ph t
  | Finish => finish ph t
  | Timeout => timeout ph t
  end.

Fixpoint run (l : list act) (t : task) (ph : phase) : option (task * phase * list obs) :=
  match l with
  | [] => Some (t, ph, [])
  | a :: r =>
      match step a t ph with
      | None => None
      | Some (t1, ph1, o1) =>
          match run r t1 ph1 with
          | None => None
          | Some (t2, ph2, o2) => Some (t2, ph2, o1 ++ o2)
          end
      end
  end.
