(** Specification vocabulary for repeated apply/revert cycles (C51). *)
From Verif Require Import Base InsnQModel MetaModel StrModel X86Model DlModel LibModel LibSpec.

(** How many function replacements the successful applications of the patch [id]
    have made in a history, all applications taken together. *)
Definition made_by (id : list Z) (ea : event * Z) : Z :=
  match ea with
  | (EvApply _ e junk buf, ans) =>
      if ans =? 0 then
        match parse_metadata_from_mem junk buf with
        | P_ok md => if md_type md =? 2 then 0
                     else if bytes_eqb (md_id md) id then zlen (md_units md) else 0
        | _ => 0
        end
      else 0
  | _ => 0
  end.

Definition replacements_made (id : list Z) (tr : list (event * Z)) : Z :=
  fold_right Z.add 0 (map (made_by id) tr).

(** A request to apply, or to revert, the patch with the given ID. *)
Definition revert_request (ev : event) (id : list Z) : Prop :=
  exists e junk buf md, ev = EvApply false e junk buf /\
    parse_metadata_from_mem junk buf = P_ok md /\ md_type md = 2 /\ md_id md = id.

Definition apply_request (ev : event) (id : list Z) : Prop :=
  exists e junk buf md, ev = EvApply false e junk buf /\
    parse_metadata_from_mem junk buf = P_ok md /\ md_type md = 1 /\ md_id md = id.

(** The memory writes waiting for the tool, and the room they take. *)
Definition pending_writes (p : proc) : Z := q_num (s_q (p_lib p)).
Definition pending_bytes (p : proc) : Z := q_size (s_q (p_lib p)).
