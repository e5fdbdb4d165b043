(** What a visit of the tool to a ppc64le process does to the code of functions. *)
From Verif Require Import Base InsnQModel PpcModel.

(** A request of a livepatch for one function: calls of [po_f] go to [g] ([Some g]), or to the
    function itself again ([None]). *)
Record pop := mk_pop { po_f : Z; po_new : option Z }.

(** The calls of ulp_patch_addr for the units of a livepatch: lib/ulp.c:648-680 (applied),
    1227-1256 (reverted: the newest livepatch of the function that is left, or none). The code is
    read as it is before the tool carries out any of the requests ([m]). Simplified: a refusal ends
    the visit in both cases, though the second loop ignores it; the rest of these functions is the
    same as on x86_64 (LibModel). *)
Fixpoint patch_calls (T : Z) (m : mem) (ops : list pop) (qe : insnq * Z) : option (insnq * Z) :=
  match ops with
  | [] => Some qe
  | o :: t =>
      let '(qe', ret) := match po_new o with
                         | Some g => ppc_patch_addr T m qe (po_f o) g true
                         | None => ppc_patch_addr T m qe (po_f o) 0 false
                         end in
      if ret =? 0 then patch_calls T m t qe' else None
  end.

(** libpulp makes its requests, then the tool carries them out (tools/insn_queue.c:184-232) and
    empties the queue. [None]: something was refused or failed. *)
Definition visit (T : Z) (ops : list pop) (s : insnq * mem) : option (insnq * mem) :=
  let '(q, m) := s in
  match patch_calls T m ops (q, 0) with
  | Some (q', err) =>
      if err =? 0 then
        match insnq_interpret_from_process env_ok true q' (mk_tgt m []) with
        | Some (ret, q'', t) => if ret =? 0 then Some (q'', t_mem t) else None
        | None => None
        end
      else None
  | None => None
  end.

(** Visits one after the other. *)
Fixpoint visits (T : Z) (vs : list (list pop)) (s : insnq * mem) : option (insnq * mem) :=
  match vs with
  | [] => Some s
  | v :: t => match visit T v s with Some s' => visits T t s' | None => None end
  end.
