(** What stopping all threads should achieve. *)
From Verif Require Import Base PtModel HjModel.

(** Every thread that exists is stopped and on the tool's list. *)
Definition all_stopped (s : hstate) : Prop :=
  forall tid t, In (tid, t) (h_threads s) -> t = TStopped /\ In tid (h_known s).

(** No thread is attached to the tool any more. *)
Definition all_released (s : hstate) : Prop :=
  forall tid t, In (tid, t) (h_threads s) -> t = TRun.

(** A process with the threads [l] as hijack_threads finds it. *)
Definition proc_threads (l : list Z) : Prop := NoDup l /\ Forall (fun t => 0 < t) l.
