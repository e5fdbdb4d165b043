(** What triggering should do, in terms of the calls seen by the target. *)
From Verif Require Import Base PtModel HjModel LibModel TrModel.

(** Stopping and releasing: the process is patched only while it is stopped, is
    never stopped twice, and is released in the end. [stopped] is the state. *)
Fixpoint disciplined (stopped : bool) (tr : list tev) : Prop :=
  match tr with
  | [] => stopped = false
  | EvHijack r :: t => stopped = false /\ disciplined (r <=? 0) t
  | EvRange _ :: t | EvRevert _ :: t | EvApply _ :: t => stopped = true /\ disciplined true t
  | EvRestore _ :: t => stopped = true /\ disciplined false t
  | EvSleep :: t => stopped = false /\ disciplined false t
  end.

(** Number of attempts. *)
Definition is_hijack (e : tev) : bool := match e with EvHijack _ => true | _ => false end.
Definition attempts (tr : list tev) : nat := length (filter is_hijack tr).

Definition is_apply (e : tev) : bool := match e with EvApply _ => true | _ => false end.
Definition is_restore (e : tev) : bool := match e with EvRestore _ => true | _ => false end.

(** The last answer to an apply request. *)
Definition last_apply (tr : list tev) : option tev := List.find is_apply (rev tr).

(** hijack_threads answers 0 or a positive error code. *)
Definition hijack_codes (ans : nat -> attempt) : Prop := forall i, 0 <= at_hijack (ans i).

(** The object is the one the patch is meant for. *)
Definition same_name (target : list Z) (d : dobj) : Prop :=
  StrModel.get_basename (o_filename d) = StrModel.get_basename target.
Definition is_target (target bid : list Z) (d : dobj) : Prop :=
  same_name target d /\ o_build_id d = bid.

(** A failure that counts: not success and not "does not concern this process". *)
Definition real_failure (r : Z) : Prop :=
  r <> 0 /\ ~ In r [EBUILDID; ENOTARGETLIB; EUSRBLOCKED; EWILDNOMATCH; EAPPLIED; ENOPATCH; ESRCH].

(** ** The retry rule, attempt by attempt *)

(** A revert that leaves nothing in the way of the patch. *)
Definition nothing_in_the_way (q : treq) (r : Z) : Prop :=
  r = 0 \/ (q_patch q = true /\ (r = ENOTARGETLIB \/ r = ENOPATCH)).

Definition stack_stops (q : treq) (a : attempt) : Prop := q_stack q = true /\ at_range a <> 0.

(** What the target answers in an attempt: nothing, if the stack check stops it;
    the answer to the revert, if that fails or is all that was asked for; otherwise
    the answer to the patch. *)
Inductive says (q : treq) (a : attempt) : option Z -> Prop :=
| says_stack : stack_stops q a -> says q a None
| says_nothing : ~ stack_stops q a -> q_revert q = false -> q_patch q = false -> says q a None
| says_revert : ~ stack_stops q a -> q_revert q = true ->
    q_patch q = false \/ ~ nothing_in_the_way q (at_revert a) -> says q a (Some (at_revert a))
| says_apply : ~ stack_stops q a -> q_patch q = true ->
    q_revert q = false \/ nothing_in_the_way q (at_revert a) -> says q a (Some (at_apply a)).

(** Whether another attempt follows (if any are left). *)
Definition goes_on (q : treq) (a : attempt) : Prop :=
  at_hijack a <= 0 /\ at_restore a = 0 /\
  (stack_stops q a \/
   (q_revert q = true /\ ~ nothing_in_the_way q (at_revert a) /\ at_revert a <> -1) \/
   (q_revert q = false /\ q_patch q = true /\ at_apply a <> 0 /\ at_apply a <> -1) \/
   (q_revert q = false /\ q_patch q = false)).

(** The last answer given in the first [n] attempts, [d] if there is none. *)
Inductive last_answer (q : treq) (ans : nat -> attempt) (d : Z) : nat -> Z -> Prop :=
| last_none : last_answer q ans d 0 d
| last_new n r v : last_answer q ans d n r -> says q (ans n) (Some v) -> last_answer q ans d (S n) v
| last_old n r : last_answer q ans d n r -> says q (ans n) None -> last_answer q ans d (S n) r.

(** The process passes the checks made before it is stopped. *)
Definition passes (q : treq) (p : tpre) : Prop :=
  p_compatible p = true /\ (q_patch q = true -> p_metadata p = true /\ p_load p = 0 /\ p_sanity p = 0).
