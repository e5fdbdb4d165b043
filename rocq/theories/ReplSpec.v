(** What replacing livepatches means. *)
From Verif Require Import Base MetaModel X86Spec DlModel LibModel LibSpec ReplModel.

(** The visits meet the side conditions of C01: addresses are 64-bit, the patch only names
    functions of [F] and its references are outside their windows, and the program does not
    overwrite these. *)
Definition visits_ok (F : list Z) (eb : Z -> bool) (buf : list Z) (vs : nat -> visit) : Prop :=
  forall i,
    (forall m f x, In f F -> in_window (eb f) f x -> v_run (vs i) m x = m x) /\
    env_sane (v_env2 (vs i)) /\
    forall md, parse_metadata_from_mem (v_junk (vs i)) buf = P_ok md ->
      md_type md <> 2 /\
      (forall f g, In (f, g) (replacements (v_env2 (vs i)) md) -> In f F) /\
      (forall r pa x f, In r (md_refs md) -> ref_address (v_env2 (vs i)) md r pa ->
         pa <= x < pa + 16 -> In f F -> ~ in_window (eb f) f x).

(** Calls in the process [p] go where the log [log] says. *)
Definition follows (F : list Z) (eb : Z -> bool) (p : proc) (log : list entry) : Prop :=
  forall f, In f F -> calls_go (p_mem p) (eb f) f (route log f).
