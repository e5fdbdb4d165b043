(** Specification vocabulary for the life of a process under live patching:
    histories of events, and the abstract log of applied patches they define. *)
From Verif Require Import Base InsnQModel InsnQSpec MetaModel StrModel X86Model X86Spec DlModel LibModel.

(** ** Histories *)

(** What can happen to a process. An operation of the `ulp` tool is an
    [EvApply]/[EvRevertAll] followed by an [EvExec] (or by none, when the tool
    gives up in between); [EvProgram] is the program itself running. *)
Inductive event :=
| EvApply (busy : bool) (e : dlenv) (junk : Z) (buf : list Z)
    (* libpulp's apply entry point runs with [buf] in its metadata buffer *)
| EvRevertAll (busy : bool) (e : dlenv) (lib_name : list Z)
    (* libpulp's revert-all entry point runs *)
| EvToggle
    (* the user enables/disables patching *)
| EvExec (te : tool_env)
    (* the tool executes the pending memory writes *)
| EvProgram (m' : mem).
    (* the program runs and leaves its memory as [m'] *)

(** The answer of an event is libpulp's answer to a request, the tool's result
    for an execution of the queue, and 0 for a program step. [None]: undefined
    behaviour, or no answer at all. The loop of revert-all gets as much fuel as
    it has patches to visit; [C08_blocked_revert_all_refuted] shows that more
    would not help. *)
Definition do_event (ev : event) (p : proc) : option (proc * Z) :=
  match ev with
  | EvApply busy e junk buf =>
      match ulp_apply_patch busy e (p_mem p) junk buf (p_lib p) with
      | None => None
      | Some (st, ans) => Some (mk_proc st (p_mem p), ans)
      end
  | EvRevertAll busy e lib_name =>
      match ulp_revert_patches_from_lib (S (length (s_patches (p_lib p)))) busy e (p_mem p)
              lib_name (p_lib p) with
      | None => None
      | Some (st, ans) => Some (mk_proc st (p_mem p), ans)
      end
  | EvToggle =>
      let (st, ans) := ulp_enable_or_disable_patching (p_lib p) in
      Some (mk_proc st (p_mem p), ans)
  | EvExec te =>
      match insnq_interpret_from_process te true (s_q (p_lib p)) (mk_tgt (p_mem p) []) with
      | None => None
      | Some (ret, q', t) => Some (mk_proc (set_qe (p_lib p) (q', s_err (p_lib p))) (t_mem t), ret)
      end
  | EvProgram m' => Some (mk_proc (p_lib p) m', 0)
  end.

(** [history p0 tr p]: from [p0], the events and answers [tr] (oldest first) lead
    to [p]. *)
Inductive history (p0 : proc) : list (event * Z) -> proc -> Prop :=
| hist_start : history p0 [] p0
| hist_step tr p ev p' ans :
    history p0 tr p -> do_event ev p = Some (p', ans) ->
    history p0 (tr ++ [(ev, ans)]) p'.

(** A process just after libpulp was loaded. *)
Definition fresh (m : mem) (stale : Z -> Z) : proc :=
  mk_proc (mk_ls [] [] 0 0 ENONE (empty_queue stale)) m.

(** ** The abstract log *)

(** An applied patch as the user knows it: its ID, its target library, the
    functions it replaces (address of the function, address of the replacement,
    in the order of the patch), and the patches it depends on. *)
Record entry := mk_entry {
  en_id : list Z;
  en_lib : list Z;
  en_repl : list (Z * Z);
  en_deps : list (list Z)
}.

(** The run-time addresses of the functions a patch replaces and of their
    replacements. *)
Definition replacements (e : dlenv) (md : meta) : list (Z * Z) :=
  map (fun u => (get_loaded_symbol_addr (e_prog e) (e_libs2 e) (get_basename (md_name md)) (u_old u) (u_addr u),
                 e_dlsym e (e_dlopen e (md_so md)) (u_new u)))
      (md_units md).

(** Library names are compared on at most 256 characters. *)
Definition lib_key (name : list Z) : list Z := firstn 256 (get_basename name).

Definition entry_of (e : dlenv) (md : meta) : entry :=
  mk_entry (md_id md) (lib_key (md_name md)) (replacements e md) (md_deps md).

Definition without_id (id : list Z) (log : list entry) : list entry :=
  filter (fun en => negb (bytes_eqb (en_id en) id)) log.

Definition without_lib (key : list Z) (log : list entry) : list entry :=
  filter (fun en => negb (bytes_eqb (en_lib en) key)) log.

(** The log, newest patch first. Only successful (answer 0) requests count. *)
Definition log_step (log : list entry) (ea : event * Z) : list entry :=
  match ea with
  | (EvApply _ e junk buf, ans) =>
      if ans =? 0 then
        match parse_metadata_from_mem junk buf with
        | P_ok md => if md_type md =? 2 then without_id (md_id md) log
                     else entry_of e md :: log
        | _ => log
        end
      else log
  | (EvRevertAll _ _ name, ans) => if ans =? 0 then without_lib (lib_key name) log else log
  | _ => log
  end.

Definition log_of (tr : list (event * Z)) : list entry := fold_left log_step tr [].

(** The replacement of [f] in one patch: the last one listed. *)
Fixpoint repl_of (repl : list (Z * Z)) (f : Z) : option Z :=
  match repl with
  | [] => None
  | (o, n) :: t => match repl_of t f with
                   | Some g => Some g
                   | None => if o =? f then Some n else None
                   end
  end.

(** Where calls of [f] must go: the newest applied patch that replaces [f]. *)
Fixpoint route (log : list entry) (f : Z) : option Z :=
  match log with
  | [] => None
  | en :: t => match repl_of (en_repl en) f with
               | Some g => Some g
               | None => route t f
               end
  end.

(** ** Side conditions on the environment *)

(** dlsym gives 64-bit addresses. *)
Definition env_sane (e : dlenv) : Prop := forall h n, 0 <= e_dlsym e h n < 2 ^ 64.

(** The address a static reference of the patch lives at. *)
Definition ref_address (e : dlenv) (md : meta) (r : mref) (pa : Z) : Prop :=
  let h := e_dlopen e (md_so md) in
  (rf_poff r = 0 /\ exists name, rf_name r = Some name /\ pa = e_dlsym e h name) \/
  (rf_poff r <> 0 /\ exists base, e_laddr e h = Some base /\ pa = u64 (base + rf_poff r)).

(** [F] are the livepatchable functions of the process; [eb f] tells whether [f]
    starts with endbr64. Their windows do not overlap and hold nops at first. *)
Record functions_ok (F : list Z) (eb : Z -> bool) (m : mem) : Prop := {
  fo_addr : forall f, In f F -> window_exists f;
  fo_plain : forall f, In f F ->
    (if eb f then has_endbr m f else True) /\ nops_at m (slot (eb f) f);
  fo_disjoint : forall f g x, In f F -> In g F -> in_window (eb f) f x -> in_window (eb g) g x -> f = g
}.

(** What an event may do to the functions [F]: a patch only names functions
    of [F] or functions that are not livepatchable at all; its static references
    are not inside a patchable window; the tool's memory writes do not fail
    half-way; the program does not overwrite patchable windows. *)
Definition event_ok (F : list Z) (eb : Z -> bool) (p : proc) (ev : event) : Prop :=
  match ev with
  | EvApply _ e junk buf =>
      env_sane e /\
      forall md, parse_metadata_from_mem junk buf = P_ok md ->
        (forall f g, In (f, g) (replacements e md) ->
           In f F \/ ~ exists endbr, livepatchable (p_mem p) endbr f) /\
        (forall r pa x f, In r (md_refs md) -> ref_address e md r pa ->
           pa <= x < pa + 16 -> In f F -> ~ in_window (eb f) f x)
  | EvExec te => forall i, te_wf te i = None
  | EvProgram m' => forall f x, In f F -> in_window (eb f) f x -> m' x = p_mem p x
  | _ => True
  end.

(** Histories all of whose events meet the side conditions. *)
Inductive clean_history (F : list Z) (eb : Z -> bool) (p0 : proc) : list (event * Z) -> proc -> Prop :=
| clean_start : clean_history F eb p0 [] p0
| clean_step tr p ev p' ans :
    clean_history F eb p0 tr p -> event_ok F eb p ev -> do_event ev p = Some (p', ans) ->
    clean_history F eb p0 (tr ++ [(ev, ans)]) p'.

(** No memory write is pending. *)
Definition no_pending (p : proc) : Prop := q_num (s_q (p_lib p)) = 0 /\ q_size (s_q (p_lib p)) = 0.

(** Where a call of [f] goes: to the given replacement, or into its own body. *)
Definition calls_go (m : mem) (endbr : bool) (f : Z) (target : option Z) : Prop :=
  match target with
  | Some g => redirected m endbr f g
  | None => unredirected m endbr f
  end.

(** The IDs of the applied patches as `ulp patches` lists them, newest first. *)
Definition reported (p : proc) : list (list Z) := map a_id (s_patches (p_lib p)).

(** Does the reported patch [a] target the library [name]? Names are compared on
    at most 256 characters. *)
Definition targets (name : list Z) (a : apatch) : Prop := firstn 256 (a_lib a) = lib_key name.

(** The answer of `ulp check` for a patch ID. *)
Definition check_answer (p : proc) (id : list Z) : Z := ulp_check_applied_patch (p_lib p) id.

(** Requests only: what the tool asks libpulp to do. *)
Definition is_request (ev : event) : Prop :=
  match ev with EvApply _ _ _ _ | EvRevertAll _ _ _ => True | _ => False end.

(** ** The loaded objects as a user sees them *)

Definition substring (s t : list Z) : Prop := exists pre post, t = pre ++ s ++ post.

(** [l] is the object the name [name] designates: the first loaded object (the
    vdso aside) whose file name contains [name]. *)
Definition designates (libs : list lib) (name : list Z) (l : lib) : Prop :=
  exists before after, libs = before ++ l :: after /\
    substring name (lb_name l) /\ lb_name l <> vdso_name /\
    forall x, In x before -> ~ substring name (lb_name x) \/ lb_name x = vdso_name.

(** No loaded object is designated by [name]. *)
Definition not_loaded (libs : list lib) (name : list Z) : Prop :=
  forall x, In x libs -> ~ substring name (lb_name x) \/ lb_name x = vdso_name.

(** ** Build-id notes *)

(** An ELF note. *)
Record note := mk_note { nt_type : Z; nt_name : list Z; nt_desc : list Z }.

Definition note_ok (n : note) : Prop :=
  0 <= nt_type n < 2 ^ 32 /\ bytes_ok (nt_name n) /\ bytes_ok (nt_desc n) /\
  zlen (nt_name n) < 2 ^ 31 /\ zlen (nt_desc n) < 2 ^ 31.

(** Fields are padded with zeroes to a multiple of 4 bytes. *)
Definition pad4 (l : list Z) : list Z := l ++ repeat 0 (Z.to_nat ((- zlen l) mod 4)).

(** Layout of a note in a PT_NOTE segment (gABI). *)
Definition note_bytes (n : note) : list Z :=
  le_enc 4 (zlen (nt_name n)) ++ le_enc 4 (zlen (nt_desc n)) ++ le_enc 4 (nt_type n) ++
  pad4 (nt_name n) ++ pad4 (nt_desc n).

(** A build-id note: type NT_GNU_BUILD_ID and an owner of four bytes; ids of less
    than 16 bytes are not considered. *)
Definition is_build_id (n : note) : bool :=
  (nt_type n =? 3) && (zlen (nt_name n) =? 4) && (16 <=? zlen (nt_desc n)).

(** The segments of [l] are well-formed lists of notes, given by [segs]. *)
Definition lib_notes (l : lib) (segs : list (list note)) : Prop :=
  Forall (Forall note_ok) segs /\
  lb_notes l = map (fun ns => (flat_map note_bytes ns, zlen (flat_map note_bytes ns))) segs.

(** [l] carries the build id [bid]. *)
Definition carries (l : lib) (bid : list Z) : Prop :=
  exists segs ns n, lib_notes l segs /\ In ns segs /\ find is_build_id ns = Some n /\
    nt_name n = [71; 78; 85; 0] /\ nt_desc n = bid.
