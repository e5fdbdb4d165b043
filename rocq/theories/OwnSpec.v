(** C90: what the tool's memory may look like. *)
From Verif Require Import Base OwnModel.

(** /proc/<pid>/task of a process lists the process itself. *)
Definition lists_itself (a : attempt) : Prop :=
  forall pid, pid <> 0 -> exists es err rest, at_passes a pid = (es, err) :: rest /\ In pid (map tk_tid es).

Definition work_ok (w : work) : Prop :=
  match w with
  | WTrigger l | WToggle l => Forall lists_itself l
  | WReport | WPatches => True
  end.

(** Process numbers in /proc are not 0; calloc succeeds. *)
Definition found_ok (e : found) : Prop := fo_mem e = true /\ fo_pid e <> 0 /\ Forall work_ok (fo_work e).
Definition step_ok (s : step) : Prop :=
  match s with
  | SFound mem pid _ => mem = true /\ pid <> 0
  | SThrough => True
  | STake l => Forall work_ok l
  end.

(** An entry of the link map that cannot be read. *)
Definition unreadable (r : objres) : bool := match r with ObjOk _ => false | _ => true end.

(** The blocks that looking at a process loses: one if the auxiliary vector or the program
    headers cannot be read, one if an entry of the link map cannot. *)
Definition lost (a : init_answers) : nat :=
  if ia_attach a && ia_name a then
    if ia_bias a then (if ia_linkmap a && existsb unreadable (ia_objs a) then 1 else 0)
    else 1
  else 0.

(** How many blocks there are. *)
Definition blocks (h : heap) : nat := List.length (h_cells h).

Definition sum (l : list nat) : nat := fold_right Nat.add 0%nat l.
Definition lost_by (s : step) : nat := match s with SFound _ _ a => lost a | _ => 0 end.

(** A process that can be looked at completely: libpulp.so is among the objects that can be
    read, and it is ready. *)
Fixpoint sees_libpulp (l : list objres) : bool :=
  match l with
  | ObjOk true :: _ => true
  | ObjOk false :: t => sees_libpulp t
  | _ => false
  end.
Definition accessible (a : init_answers) : bool :=
  ia_attach a && ia_name a && ia_bias a && ia_linkmap a && sees_libpulp (ia_objs a) && ia_ready a.

(** The first process that is found is accessible. *)
Fixpoint first_ok (l : list step) : bool :=
  match l with
  | [] => true
  | SFound _ _ a :: _ => accessible a
  | _ :: t => first_ok t
  end.
Definition is_through (s : step) : bool := match s with SThrough => true | _ => false end.
Definition is_take (s : step) : bool := match s with STake _ => true | _ => false end.

Definition start : tworld := mk_tw NULL [] false.
