(** What access to the target's memory and registers should do. *)
From Verif Require Import Base PtModel.

(** The [n] bytes at [a] are all accessible. *)
Definition accessible (ok : Z -> bool) (a n : Z) : Prop := forall x, a <= x < a + n -> ok x = true.

(** Every memory cell holds a byte. *)
Definition byte_mem (m : mem) : Prop := forall x, is_byte (m x).

(** The NUL-terminated string [s] lies at [a]. *)
Definition string_at (m : mem) (a : Z) (s : list Z) : Prop :=
  cstr_ok s /\ mem_read m a (length s) = s /\ m (a + zlen s) = 0.

(** The buffer [buf], read as a C string, is [s]. *)
Definition buffer_is (buf s : list Z) : Prop :=
  cstr_ok s /\ exists rest, buf = s ++ 0 :: rest.

(** The thread with this tid, before and after, has the same general purpose
    registers; the same vector registers. *)
Definition same_regs (k k' : kthread) : Prop := k_tid k = k_tid k' /\ k_regs k = k_regs k'.
Definition same_vec (k k' : kthread) : Prop := k_tid k = k_tid k' /\ k_vec k = k_vec k'.

(** The situation after a successful hijacking: all threads are stopped and for
    each its registers have been saved. *)
Definition all_hijacked (us : list uthread) (ks : list kthread) : Prop :=
  NoDup (map k_tid ks) /\ NoDup (map u_tid us) /\
  (forall tid, In tid (map u_tid us) <-> In tid (map k_tid ks)) /\
  (forall k, In k ks -> k_stopped k = true) /\
  (forall k u, In k ks -> In u us -> u_tid u = k_tid k -> u_context u = k_regs k).
