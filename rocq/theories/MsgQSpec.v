(** Specification vocabulary for the message buffer. *)
From Verif Require Import Base.

(** [shows out msgs]: the output consists of exactly these messages, whole and
    in order, each followed by one or more NUL characters (invisible on a
    terminal). *)
Inductive shows : list Z -> list (list Z) -> Prop :=
| shows_nil : shows [] []
| shows_cons m k out msgs : shows out msgs -> shows (m ++ repeat 0 (S k) ++ out) (m :: msgs).

(** A loggable message for a buffer of [mx] bytes: not empty, and with its
    terminator strictly smaller than the buffer. *)
Definition loggable (mx : Z) (m : list Z) : Prop := cstr_ok m /\ m <> [] /\ zlen m + 1 < mx.

Definition suffix {A} (l' l : list A) : Prop := exists pre, l = pre ++ l'.

(** The room messages take in the buffer, each with its terminator. *)
Fixpoint room (l : list (list Z)) : Z :=
  match l with
  | [] => 0
  | m :: l' => zlen m + 1 + room l'
  end.
