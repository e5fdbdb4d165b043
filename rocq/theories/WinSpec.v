(** What a thread that the tool stops inside the patchable window of a function
    does when it is resumed: the notions C88 is stated with. Nothing here mentions
    libpulp's own data structures. *)
From Verif Require Import Base X86Model X86Spec LibModel LibSpec.

(** A thread that called [f] is about to execute the instruction at [pc], and
    has not left the patchable window of [f] yet: from the entry of [f] it got
    there through instructions of the window only. *)
Definition stopped_at (m : mem) (endbr : bool) (f pc : Z) : Prop :=
  in_window endbr f pc /\
  exists trail, goes_through m f trail pc /\ forall a, In a trail -> in_window endbr f a.

(** Resumed at [pc], a thread leaves the window of [f] for [d]. *)
Definition leaves_for (m : mem) (endbr : bool) (f pc d : Z) : Prop :=
  exists trail, goes_through m pc trail d /\ forall a, In a trail -> in_window endbr f a.

(** The two bytes of the slot are one instruction, a two-byte nop: this is what
    the tool's "post" command makes of the two one-byte nops of the compiler. *)
Definition one_nop (m : mem) (endbr : bool) (f : Z) : Prop :=
  m (slot endbr f) = 102 /\ m (slot endbr f + 1) = 144.

(** A livepatch that was applied at some moment of the history that starts with
    [tr1] and goes on with [tr2], at the end of [tr1] or later, replaced [f] by
    [g]. *)
Definition replaced_since (tr1 tr2 : list (event * Z)) (f g : Z) : Prop :=
  exists a b en, tr2 = a ++ b /\ In en (log_of (tr1 ++ a)) /\ In (f, g) (en_repl en).
