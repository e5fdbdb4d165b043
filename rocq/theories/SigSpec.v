(** What C85 means: the signals of a process that the tool attaches to. *)
From Verif Require Import Base SigModel.

(** What the process and those who signal it can see. *)
Definition visible_b (o : obs) : bool :=
  match o with O_sent _ | O_got _ => true | _ => false end.
Definition visible (l : list obs) : list obs := filter visible_b l.

(** A schedule in which no tool occurs. *)
Definition no_tool (l : list act) : Prop :=
  forall a, In a l -> (exists g, a = Send g) \/ (exists g, a = Take g).

(** The same could have happened without the tool: the same signals sent and
    received in the same order, and the same thread at the end. *)
Definition as_if_alone (t : task) (log : list obs) (t' : task) : Prop :=
  exists l log', no_tool l /\ run l t Idle = Some (t', Idle, log') /\ visible log' = visible log.

(** A thread that runs its own program and is not traced. *)
Definition at_work (t : task) : Prop :=
  k_state t = Running /\ k_traced t = false /\ k_job t = false /\ k_lib t = false.

(** SIGTRAP, SIGCONT and the stop signals. *)
Definition job_control (g : Z) : Prop := g = 5 \/ 18 <= g <= 22.

(** No other tracing or job control: nobody sends such signals. *)
Definition no_job_control (t : task) (log : list obs) : Prop :=
  forall g, In g (k_pend t) \/ In (O_sent g) log -> ~ job_control g.

(** The thread stopped for the tool only because of its attach and because its
    routines had finished. *)
Definition undisturbed (log : list obs) : Prop :=
  (forall g, In (O_report g) log -> g = SIGSTOP \/ g = SIGTRAP) /\ ~ In O_failed log.

(** How often an element occurs. *)
Fixpoint occurs {A : Type} (f : A -> bool) (l : list A) : Z :=
  match l with
  | [] => 0
  | x :: r => (if f x then 1 else 0) + occurs f r
  end.
Definition how_many (mk : Z -> obs) (g : Z) (l : list obs) : Z :=
  occurs (fun o => match o, mk g with
                   | O_sent a, O_sent b | O_merged a, O_merged b | O_discarded a, O_discarded b
                   | O_got a, O_got b | O_report a, O_report b | O_back a, O_back b => a =? b
                   | _, _ => false
                   end) l.
Definition attaches (l : list obs) : Z := occurs (fun o => match o with O_attach => true | _ => false end) l.
Definition traps (l : list obs) : Z := occurs (fun o => match o with O_trap => true | _ => false end) l.
Definition starts (l : list obs) : Z := occurs (fun o => match o with O_start => true | _ => false end) l.

(** At most one routine is started per attach, as `ulp trigger` does for a
    livepatch without --revert-all. *)
Fixpoint one_start (may : bool) (l : list obs) : bool :=
  match l with
  | [] => true
  | O_attach :: r => one_start true r
  | O_start :: r => may && one_start false r
  | _ :: r => one_start may r
  end.
