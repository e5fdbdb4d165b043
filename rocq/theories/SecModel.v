(** The option --disable-seccomp of the trigger command: when the tool suspends the
    system call filter of a thread of the target, and when it is in force again. *)
From Verif Require Import Base StrModel InsnQModel LibModel PtModel HjModel TrModel.

(** ** The kernel's side *)

(** A thread is not traced by the tool, or it is, with or without the option
    PTRACE_O_SUSPEND_SECCOMP. A thread in any other state than [Held true] has its
    filter in force. *)
Inductive kth := Free | Held (suspended : bool).
Definition kst := Z -> kth.
Definition kset (t : Z) (x : kth) (ks : kst) : kst := fun u => if u =? t then x else ks u.

(** PTRACE_ATTACH of a thread that is not traced: the options start out empty. *)
Definition k_attach (t : Z) (ks : kst) : kst :=
  match ks t with Free => kset t (Held false) ks | Held _ => ks end.
(** PTRACE_DETACH: the options go with the tracing. *)
Definition k_detach (t : Z) (ks : kst) : kst := kset t Free ks.
(** PTRACE_SETOPTIONS with PTRACE_O_SUSPEND_SECCOMP of a traced thread. *)
Definition k_suspend (t : Z) (ks : kst) : kst :=
  match ks t with Free => ks | Held _ => kset t (Held true) ks end.

(** ** The answers in one attempt *)

(** What hijack_threads does: all the threads listed are stopped, or it fails with an
    error code, and the threads of [kept] could not be detached from. *)
Inductive hijacking := HjOk (tids : list Z) | HjFail (r : positive) (kept : list Z).

(** [sa_rbuf], [sa_buffer]: set_string_buffer and set_metadata_buffer succeed.
    [sa_revert], [sa_apply]: what revert_patches_from_lib and apply_patch return once
    libpulp's routine was started. [sa_setopt]: errno of PTRACE_SETOPTIONS, 0 if
    granted. [sa_debug], [sa_warn]: errno after the message of disable_seccomp, and
    after that of apply_patch. [sa_setregs], [sa_detach]: for which threads these
    requests are granted. *)
Record sattempt := mk_sa {
  sa_hijack : hijacking;
  sa_range : Z;
  sa_rbuf : bool;
  sa_revert : Z;
  sa_buffer : bool;
  sa_setopt : Z;
  sa_debug : Z;
  sa_warn : Z;
  sa_apply : Z;
  sa_setregs : Z -> bool;
  sa_detach : Z -> bool
}.

(** The list process->threads after hijack_threads (tools/introspection.c:1473-1616). *)
Definition hijacked (a : sattempt) : list Z :=
  match sa_hijack a with HjOk tids => tids | HjFail _ _ => [] end.

(** The request of disable_seccomp as the kernel answers it: a thread that is not
    traced is not found. *)
Definition setopt_answer (main : Z) (a : sattempt) : Z :=
  if existsb (Z.eqb main) (hijacked a) then sa_setopt a else ESRCH.

(** tools/ptrace.c:473-482, disable_seccomp. *)
Definition disable_seccomp (main : Z) (a : sattempt) : Z :=
  if negb (setopt_answer main a =? 0) then sa_debug a else 0.

(** tools/introspection.c:1675-1705, apply_patch up to run_and_redirect: [inl r]: it
    returns r before libpulp's routine was started; [inr]: the routine is started. *)
Definition apply_start (opt : bool) (main : Z) (a : sattempt) : Z + unit :=
  if negb (sa_buffer a) then inl ETARGETHOOK
  else if opt && negb (disable_seccomp main a =? 0) then inl (sa_warn a)
  else inr tt.

(** tools/introspection.c:1675-1744, apply_patch: its answer. *)
Definition apply_answer (opt : bool) (main : Z) (a : sattempt) : Z :=
  match apply_start opt main a with inl r => r | inr _ => sa_apply a end.

(** tools/introspection.c:1746-1804, revert_patches_from_lib: its answer. *)
Definition revert_answer (a : sattempt) : Z :=
  if negb (sa_rbuf a) then ETARGETHOOK else sa_revert a.

(** tools/introspection.c:1842-1870, restore_threads: its answer. *)
Definition restore_answer (a : sattempt) : Z :=
  if forallb (fun t => sa_setregs a t && sa_detach a t) (hijacked a) then 0 else 1.

(** The attempt as trigger_one_process sees it. *)
Definition attempt_of (opt : bool) (main : Z) (a : sattempt) : attempt :=
  mk_attempt (match sa_hijack a with HjOk _ => 0 | HjFail r _ => Z.pos r end)
    (sa_range a) (revert_answer a) (apply_answer opt main a) (restore_answer a).

(** ** What the calls do to the threads *)

(** libpulp's routines: which one is started, and the threads at that time. *)
Inductive routine := R_revert_all | R_trigger.
Record start := mk_start { st_routine : routine; st_main : Z; st_threads : kst }.

(** tools/introspection.c:1473-1616, hijack_threads. *)
Definition hijack_effect (a : sattempt) (ks : kst) : kst :=
  match sa_hijack a with
  | HjOk tids => fold_left (fun k t => k_attach t k) tids ks
  | HjFail _ kept => fold_left (fun k t => k_attach t k) kept ks
  end.

(** tools/introspection.c:1697-1712, the part of apply_patch that touches threads. *)
Definition apply_effect (opt : bool) (main : Z) (a : sattempt) (ks : kst) : kst * list start :=
  if negb (sa_buffer a) then (ks, [])
  else
    let ks1 := if opt && (setopt_answer main a =? 0) then k_suspend main ks else ks in
    match apply_start opt main a with
    | inl _ => (ks1, [])
    | inr _ => (ks1, [mk_start R_trigger main ks1])
    end.

(** tools/introspection.c:1746-1776, the same of revert_patches_from_lib, which has no
    parameter for the option. *)
Definition revert_effect (main : Z) (a : sattempt) (ks : kst) : kst * list start :=
  if sa_rbuf a then (ks, [mk_start R_revert_all main ks]) else (ks, []).

(** tools/introspection.c:1855-1867: every thread of the list is detached from. *)
Definition restore_effect (a : sattempt) (ks : kst) : kst :=
  fold_left (fun k t => if sa_detach a t then k_detach t k else k) (hijacked a) ks.

(** One call made by trigger_one_process, with the answers of the current attempt. *)
Definition call_effect (opt : bool) (main : Z) (a : sattempt) (ev : tev) (ks : kst) : kst * list start :=
  match ev with
  | EvHijack _ => (hijack_effect a ks, [])
  | EvRevert _ => revert_effect main a ks
  | EvApply _ => apply_effect opt main a ks
  | EvRestore _ => (restore_effect a ks, [])
  | EvRange _ | EvSleep => (ks, [])
  end.

(** The calls in order; each EvHijack begins the next attempt. [n] attempts have
    begun. *)
Fixpoint replay (opt : bool) (main : Z) (ans : nat -> sattempt) (n : nat) (evs : list tev) (ks : kst)
  : kst * list start :=
  match evs with
  | [] => (ks, [])
  | ev :: rest =>
      let n' := match ev with EvHijack _ => S n | _ => n end in
      let '(ks1, s1) := call_effect opt main (ans (pred n')) ev ks in
      let '(ks2, s2) := replay opt main ans n' rest ks1 in
      (ks2, s1 ++ s2)
  end.

(** One call of trigger_one_process for the process whose main thread is [pr_main]. *)
Record preq := mk_preq {
  pr_main : Z;
  pr_req : treq;
  pr_pre : tpre;
  pr_ans : nat -> sattempt;
  pr_retries : nat
}.

(** tools/trigger.c:86-246, trigger_one_process. *)
Definition trigger_process (opt : bool) (r : preq) (ks : kst) : Z * kst * list start :=
  let '(res, evs) := trigger_one_process (pr_req r) (pr_pre r)
                       (fun i => attempt_of opt (pr_main r) (pr_ans r i)) (pr_retries r) in
  let '(ks', starts) := replay opt (pr_main r) (pr_ans r) 0 evs ks in
  (res, ks', starts).

(** The calls for all processes and livepatches, in any order
    (tools/trigger.c:262-366 and 386-470 make them one after the other). *)
Fixpoint trigger_all (opt : bool) (rs : list preq) (ks : kst) : kst * list start :=
  match rs with
  | [] => (ks, [])
  | r :: rest =>
      let '(_, ks1, s1) := trigger_process opt r ks in
      let '(ks2, s2) := trigger_all opt rest ks1 in
      (ks2, s1 ++ s2)
  end.

Definition EPERM : Z := 1.

(** tools/trigger.c:630-672, run_trigger: [capable] is the answer of check_sys_admin
    (C76 says what it is), [many] the answer of trigger_many_processes. *)
Definition run_trigger (opt capable : bool) (many : Z) (rs : list preq) (ks : kst) : Z * kst * list start :=
  if opt && negb capable then (EPERM, ks, [])
  else let '(ks', s) := trigger_all opt rs ks in (many, ks', s).
