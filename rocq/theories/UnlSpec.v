(** A process that loads and unloads libraries while livepatches are applied. *)
From Verif Require Import Base InsnQModel MetaModel X86Spec DlModel LibModel LibSpec.

(** The patchable window of [f] is far from those of the functions [F]. *)
Definition clear_of (F : list Z) (eb : Z -> bool) (f : Z) : Prop :=
  forall g, In g F -> window_exists f /\ forall x, in_window (eb g) g x -> ~ (f - 14 <= x < f + 6).

(** What an event may do to the functions [F], in a process whose other code may come and
    go: a patch replaces functions of [F], functions clear of them, or ones that cannot be
    livepatched; its static references are not inside a window of [F]; the tool's memory
    writes do not fail half-way; the program (which may unload, load and overwrite anything
    else) leaves the windows of [F] alone. *)
Definition careful_event (F : list Z) (eb : Z -> bool) (p : proc) (ev : event) : Prop :=
  match ev with
  | EvApply _ e junk buf =>
      env_sane e /\
      forall md, parse_metadata_from_mem junk buf = P_ok md ->
        (forall f g, In (f, g) (replacements e md) ->
           In f F \/ clear_of F eb f \/ ~ exists endbr, livepatchable (p_mem p) endbr f) /\
        (forall r pa x f, In r (md_refs md) -> ref_address e md r pa ->
           pa <= x < pa + 16 -> In f F -> ~ in_window (eb f) f x)
  | EvExec te => forall i, te_wf te i = None
  | EvProgram m' => forall f x, In f F -> in_window (eb f) f x -> m' x = p_mem p x
  | _ => True
  end.

Inductive careful_history (F : list Z) (eb : Z -> bool) (p0 : proc) : list (event * Z) -> proc -> Prop :=
| careful_start : careful_history F eb p0 [] p0
| careful_step tr p ev p' ans :
    careful_history F eb p0 tr p -> careful_event F eb p ev -> do_event ev p = Some (p', ans) ->
    careful_history F eb p0 (tr ++ [(ev, ans)]) p'.

(** Some time in the history [tr], a patch with the ID [id] was applied that replaces the
    function at [f] (whether or not it was reverted since). *)
Definition replaced_by (tr : list (event * Z)) (id : list Z) (f : Z) : Prop :=
  exists busy e junk buf md g,
    In (EvApply busy e junk buf, 0) tr /\ parse_metadata_from_mem junk buf = P_ok md /\ md_type md <> 2 /\
    md_id md = id /\ In (f, g) (replacements e md).
