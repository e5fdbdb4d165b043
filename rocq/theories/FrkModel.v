(** A system of processes that fork, execute programs and end, each with libpulp loaded. *)
From Verif Require Import Base InsnQModel LibModel LibSpec.

(** Everything libpulp keeps is ordinary writable data of the process (lib/ulp.c:47-56: __ulp_state, __ulp_root, the counters; lib/insn_queue.c:36-37: the
    queue; lib/error.c:39-40: the error state; lib/interpose.c:65: flag) and the redirections are private pages of its code, so fork(2) copies all of it and
    execve(2) starts again from the initial values. A process is its index; [None] is one that has ended.
    Simplified: clone with CLONE_VM (vfork until the exec) is not a fork here; the libpulp of a new program is one that no opt-out switched off (C43). *)
Definition system := list (option proc).

Inductive sys_event :=
| SEvent (i : nat) (ev : event)                    (** something of LibSpec happens to process [i] *)
| SFork (i : nat)                                  (** process [i] forks; the child gets the next index *)
| SExec (i : nat) (m : mem) (stale : Z -> Z)       (** process [i] executes another program, with memory [m] *)
| SExit (i : nat).                                 (** process [i] ends *)

Fixpoint set_at {A} (i : nat) (x : A) (l : list A) : list A :=
  match l, i with
  | [], _ => []
  | _ :: t, O => x :: t
  | y :: t, S i' => y :: set_at i' x t
  end.

Definition sys_step (ev : sys_event) (s : system) : option (system * Z) :=
  let at_ i := match nth_error s i with Some (Some p) => Some p | _ => None end in
  match ev with
  | SEvent i e =>
      match at_ i with
      | None => None
      | Some p => match do_event e p with
                  | None => None
                  | Some (p', ans) => Some (set_at i (Some p') s, ans)
                  end
      end
  | SFork i => match at_ i with None => None | Some p => Some (s ++ [Some p], zlen s) end
  | SExec i m stale => match at_ i with None => None | Some _ => Some (set_at i (Some (fresh m stale)) s, 0) end
  | SExit i => match at_ i with None => None | Some _ => Some (set_at i None s, 0) end
  end.
