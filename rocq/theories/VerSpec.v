(** C89: what a user expects of a tool and a libpulp of different versions. *)
From Verif Require Import Base InsnQModel LibModel VerModel.

(** The queue in the process is newer than this tool. *)
Definition too_new (p : proc) : Prop := INSNQ_CURR_VERSION < q_version (s_q (p_lib p)).

(** The tool found the queue. *)
Definition found (o : vobj) : Prop := v_addr o <> 0.

(** What the tool remembers, if anything, is the version of the process. *)
Definition remembers (o : vobj) (p : proc) : Prop :=
  v_cached o <= 0 \/ v_cached o = q_version (s_q (p_lib p)).

(** The tool knows the version, or can read it. *)
Definition can_tell (o : vobj) (p : proc) (readable : bool) : Prop :=
  readable = true \/ v_cached o = q_version (s_q (p_lib p)).
