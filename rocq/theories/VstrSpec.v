(** C44, for every text: what a version text consists of and how a component is read. *)
From Verif Require Import Base TextSpec.

(** [pieces s ts]: [ts] are the parts of [s] between the dots, without the empty ones. *)
Inductive pieces : list Z -> list (list Z) -> Prop :=
| pc_none s : (forall c, In c s -> c = 46) -> pieces s []
| pc_more dots t rest ts :
    (forall c, In c dots -> c = 46) -> component t -> tail_ok rest -> pieces rest ts -> pieces (dots ++ t ++ rest) (t :: ts).

(** A component is taken for [x]: it is a number below 2^63 whose low 32 bits are [x], and these are at most 65535. *)
Definition taken_for (t : list Z) (x : Z) : Prop :=
  exists v, decimal t v /\ v < 2 ^ 63 /\ x = v mod 2 ^ 32 /\ x <= 65535.
