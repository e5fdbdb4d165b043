(** What a user expects of process discovery. *)
From Verif Require Import Base TextModel TextSpec PcModel.

(** [s] is reached from a new queue of capacity [n] by some interleaving of the
    two threads, the discovery thread enqueueing [xs]. *)
Definition reachable (n : Z) (xs : list Z) (s : pcstate) : Prop :=
  exists junk sched, pc_run (pc_init n junk xs) sched = Some s.

(** Both threads are through with the queue. *)
Definition pc_done (s : pcstate) : Prop := pc_todo s = [] /\ pc_stop s = true.

(** A list of processes followed by the end marker. *)
Definition proper (xs : list Z) : Prop := exists ps, xs = ps ++ [0] /\ ~ In 0 ps.

(** The process the user asked for: its name matches the wildcard, and its owner
    the user wildcard (a number stands for that uid, anything else is matched
    against the owner's name), it is not the tool itself, and it has libpulp. *)
Definition wanted (w : pworld) (wildcard user : option (list Z)) (pe : pentry) : Prop :=
  (exists v, decimal (pe_name pe) v) /\
  (forall pat, wildcard = Some pat -> pw_fnmatch w pat (pe_comm pe) = true) /\
  (forall u, user = Some u ->
     (exists v, decimal u v /\ pe_owner pe = v) \/
     ((~ exists v, decimal u v) /\
      exists name, pw_getpwuid w (pe_owner pe) = Some name /\ pw_fnmatch w u name = true)) /\
  atoi (pe_name pe) <> pw_self w /\ pe_libpulp pe = true.

(** Follow a schedule in which every step is a real step of its thread. *)
Fixpoint pc_moves (s : pcstate) (sched : list bool) : option pcstate :=
  match sched with
  | [] => Some s
  | b :: t => match (if b then producer_step s else consumer_step s) with
              | PcNext s' => pc_moves s' t
              | _ => None
              end
  end.

(** Neither thread can make a step. *)
Definition stuck (s : pcstate) : Prop :=
  (forall s', producer_step s <> PcNext s') /\ (forall s', consumer_step s <> PcNext s').
