(** What a user sees of the comments of a description. *)
From Coq Require Import String.
From Verif Require Import Base StrModel DscModel DscSpec PackModel PackSpec.

(** What [ulp dump] writes for the comment text [t]. *)
Definition shown (t : list Z) : list Z := zs "* comments: " ++ [10] ++ t ++ [10].

(** The text of all comment lines of a description, one line each. *)
Definition all_comments (d : desc) : list Z := concat (map with_newline (desc_comments d)).

(** [recorded fresh pos ts s]: [s] is what remains of the comment lines [ts], stored from
    position [pos] on in memory that held [fresh]: after every line one byte of the memory
    is left as it was, and the text ends there if that byte is NUL. *)
Inductive recorded (fresh : Z -> Z) : Z -> list (list Z) -> list Z -> Prop :=
| rec_none : forall pos, recorded fresh pos [] []
| rec_cut : forall pos t ts, fresh (pos + zlen t + 1) = 0 -> recorded fresh pos (t :: ts) (with_newline t)
| rec_next : forall pos t ts s, fresh (pos + zlen t + 1) <> 0 -> recorded fresh (pos + zlen t + 2) ts s ->
    recorded fresh pos (t :: ts) (with_newline t ++ fresh (pos + zlen t + 1) :: s).

(** The packer worked on the description [d] without any failure, and left [st']. *)
Record packed (fuel : nat) (e : dsc_env) (d : desc) (note : option (list Z)) (st st' : pkstate) : Prop := {
  pkd_desc : desc_ok d;
  pkd_plain : no_overrides e;
  pkd_files : exists container target ids,
    readable e (dd_container d) container /\ readable e (dd_target d) target /\ Forall2 (dep_means e) (dd_deps d) ids;
  pkd_run : exists s0 s1 s2,
    works s0 (zs ".ulp") /\ works s1 (zs ".ulp.comments") /\ works s2 (zs ".ulp.rev") /\
    new_tmp s0 st /\ new_tmp s1 st /\ new_tmp s2 st /\
    run_packer fuel e (file_of d) note s0 s1 s2 st = PK_done 0 st'
}.
