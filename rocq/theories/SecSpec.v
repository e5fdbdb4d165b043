(** Vocabulary of C104. *)
From Verif Require Import Base TrModel SecModel.

(** The system call filter of the thread is suspended. *)
Definition suspended (ks : kst) (t : Z) : Prop := ks t = Held true.
(** No thread is traced. *)
Definition untouched (ks : kst) : Prop := forall t, ks t = Free.

(** In this attempt the kernel grants every request to detach. *)
Definition detaches (a : sattempt) : Prop :=
  match sa_hijack a with
  | HjOk tids => forall t, In t tids -> sa_detach a t = true
  | HjFail _ kept => kept = []
  end.
