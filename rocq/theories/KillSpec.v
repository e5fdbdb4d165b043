(** What C86 means: the tool dies while it patches a process. *)
From Verif Require Import Base InsnQModel LibModel LibSpec SigModel KillModel.

(** A thread running its own program, with no signals pending and nobody tracing. *)
Definition at_ease : task := mk_task [] Running false false false.

(** The process before: all its threads are like that. *)
Definition before (found : list Z) (p : proc) : world := mk_world (map (fun tid => (tid, at_ease)) found) p.

(** The process when the tool has died after [n] of its actions. *)
Definition after_death (main : Z) (found : list Z) (acts : list tact) (p : proc) (n : nat) : world :=
  tool_dies (acts_run main (firstn n (script found acts)) (before found p)).

(** The process has ended. *)
Definition ended (w : world) : Prop := forall x, In x (w_threads w) -> k_state (snd x) = Dead.

(** Every thread is in its own program, untraced: running, or stopped by job control. *)
Definition in_own_program (w : world) : Prop :=
  forall x, In x (w_threads w) ->
    k_lib (snd x) = false /\ k_traced (snd x) = false /\
    (k_state (snd x) = Running \/ k_state (snd x) = JobStopped).

(** What happens without the tool: signals, and the thread going on. *)
Definition by_itself (l : list act) : Prop :=
  forall a, In a l -> match a with Send _ | Take _ | Enter | Trap => True | _ => False end.

(** The thread never gets back to its program: whatever happens, it is in libpulp's
    routine until it is dead; and reaching the routine's end kills it. *)
Definition lost (t : task) : Prop :=
  k_lib t = true /\
  (forall l t' ph log, by_itself l -> run l t Idle = Some (t', ph, log) ->
     (k_state t' = Dead \/ k_lib t' = true) /\
     (In Trap l -> k_state t' = Dead)).

(** libpulp's state and all of the memory. *)
Definition same_proc (p q : proc) : Prop := p_lib p = p_lib q /\ forall x, p_mem p x = p_mem q x.
