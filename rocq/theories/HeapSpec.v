(** What a program may expect of its heap when it is livepatched. *)
From Coq Require Import Permutation.
From Verif Require Import Base HeapModel.

(** A heap in order: no block is in use twice, no block is in use that calloc has
    not made yet, and nothing was ever freed that was not in use. *)
Definition in_order (x : hctx) : Prop :=
  NoDup (x_live x) /\ (forall b, In b (x_live x) -> (b < x_n x)%nat) /\ x_bad x = false.

(** From heap [x] to heap [x']: [kept] are the blocks taken and not given back;
    the blocks in use before are still in use. *)
Definition keeps (x x' : hctx) (kept : list nat) : Prop :=
  Permutation (x_live x') (kept ++ x_live x) /\ (x_n x <= x_n x')%nat /\
  (forall b, In b kept -> (x_n x <= b < x_n x')%nat).

(** A call of calloc between the heaps [x] and [x'] failed. *)
Definition ran_out (alloc : nat -> bool) (x x' : hctx) : Prop :=
  exists n, (x_n x <= n < x_n x')%nat /\ alloc n = false.

Definition empty_heap : hctx := mk_hctx 0 [] false [].
