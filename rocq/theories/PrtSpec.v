(** Histories of a process on POWER, and where calls must go after them. *)
From Verif Require Import Base InsnQModel InsnQSpec DlModel LibModel LibSpec PpcModel PpcSpec PrtModel.

(** What can happen: a livepatch with this ID, target library, dependencies and
    (function, replacement) pairs is applied; one is reverted; the user blocks or
    allows livepatching; the tool carries out the pending writes; the program runs. *)
Inductive pevent :=
| PApply (busy : bool) (id lib : list Z) (deps : list (list Z)) (pairs : list (Z * Z))
| PRevert (busy : bool) (id : list Z)
| PToggle
| PExec (te : tool_env)
| PProgram (m' : mem).

(** The process after the event and the answer; [T] is the address of the
    trampoline routine. *)
Definition do_pevent (T : Z) (ev : pevent) (p : proc) : option (proc * Z) :=
  match ev with
  | PApply busy id lib deps pairs =>
      let (st, ans) := ppc_request busy (ppc_load_apply T (p_mem p) id lib deps pairs) (p_lib p) in
      Some (mk_proc st (p_mem p), ans)
  | PRevert busy id =>
      let (st, ans) := ppc_request busy (ppc_load_revert T (p_mem p) id) (p_lib p) in
      Some (mk_proc st (p_mem p), ans)
  | PToggle => let (st, ans) := ulp_enable_or_disable_patching (p_lib p) in Some (mk_proc st (p_mem p), ans)
  | PExec te =>
      match insnq_interpret_from_process te true (s_q (p_lib p)) (mk_tgt (p_mem p) []) with
      | None => None
      | Some (ret, q', t) => Some (mk_proc (set_qe (p_lib p) (q', s_err (p_lib p))) (t_mem t), ret)
      end
  | PProgram m' => Some (mk_proc (p_lib p) m', 0)
  end.

(** The livepatches applied and not reverted since, newest first: only requests
    answered with 0 count. *)
Definition plog_step (log : list entry) (ea : pevent * Z) : list entry :=
  match ea with
  | (PApply _ id lib deps pairs, ans) => if ans =? 0 then mk_entry id lib pairs deps :: log else log
  | (PRevert _ id, ans) => if ans =? 0 then without_id id log else log
  | _ => log
  end.
Definition plog_of (tr : list (pevent * Z)) : list entry := fold_left plog_step tr [].

(** The bytes of a function that matter: the area in front of it, its entry and the
    patchable instruction, which is [off] bytes behind the entry. *)
Definition pguard (f off x : Z) : Prop := f - 52 <= x < f + off + 4.

(** [F]: the functions livepatches replace; each is livepatchable, not redirected at
    first, and apart from the others. *)
Record pfunctions_ok (F : list Z) (off : Z -> Z) (m : mem) : Prop := {
  po_addr : forall f, In f F -> 52 <= f /\ f + off f + 4 < 2 ^ 64;
  po_code : forall f, In f F -> ppc_livepatchable m f (off f);
  po_plain : forall f, In f F -> word_at m (f + off f) = NOP_WORD;
  po_apart : forall f g x, In f F -> In g F -> pguard f (off f) x -> pguard g (off g) x -> f = g
}.

(** Livepatches replace functions of [F]; the tool's writes do not fail half-way; the
    program leaves these bytes alone. *)
Definition pevent_ok (F : list Z) (off : Z -> Z) (p : proc) (ev : pevent) : Prop :=
  match ev with
  | PApply _ _ _ _ pairs => forall f g, In (f, g) pairs -> In f F /\ 0 <= g < 2 ^ 64
  | PExec te => forall i, te_wf te i = None
  | PProgram m' => (forall x, is_byte (m' x)) /\ forall f x, In f F -> pguard f (off f) x -> m' x = p_mem p x
  | _ => True
  end.

Inductive phistory (T : Z) (F : list Z) (off : Z -> Z) (p0 : proc) : list (pevent * Z) -> proc -> Prop :=
| ph_start : phistory T F off p0 [] p0
| ph_step tr p ev p' ans :
    phistory T F off p0 tr p -> pevent_ok F off p ev -> do_pevent T ev p = Some (p', ans) ->
    phistory T F off p0 (tr ++ [(ev, ans)]) p'.

(** Where execution goes from the patchable instruction of [f]. Redirected to [g]:
    through the area in front of the function to the trampoline, which finds [g] in
    front of the function by the link register (LR + 4), the return address in r5 and
    every other register but r12 as it was (r5 and r6 are saved below the stack
    pointer, which must not point into the function). Otherwise: on to the next
    instruction, with all registers as they were. *)
Definition ppc_calls_go (T : Z) (m : mem) (f off : Z) (target : option Z) : Prop :=
  match target with
  | Some g =>
      forall regs lr ctr,
        16 <= regs 1 < 2 ^ 64 -> (regs 1 <= f - 52 \/ f + off + 4 <= regs 1 - 16) ->
        exists regs' lr' trail m'',
          runs (mk_cpu (f + off) regs lr ctr m) trail (mk_cpu T regs' lr' T m'') /\
          (forall a, In a trail -> ppc_window f off a) /\
          le_dec (mem_read m'' (lr' + 4) 8) = g /\
          regs' 12 = T /\ regs' 5 = lr /\ (forall r, r <> 5 -> r <> 12 -> regs' r = regs r) /\
          mem_read m'' (regs 1 - 8) 8 = le_enc 8 (regs 5) /\
          mem_read m'' (regs 1 - 16) 8 = le_enc 8 (regs 6) /\
          (forall x, ~ (regs 1 - 16 <= x < regs 1) -> m'' x = m x)
  | None =>
      forall regs lr ctr, exists regs',
        runs (mk_cpu (f + off) regs lr ctr m) [f + off] (mk_cpu (f + off + 4) regs' lr ctr m) /\
        forall r, regs' r = regs r
  end.
