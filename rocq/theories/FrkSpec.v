(** The life of one process of a system, told from the events of the whole system. *)
From Verif Require Import Base InsnQModel LibModel LibSpec FrkModel.

Inductive sys_history (s0 : system) : list (sys_event * Z) -> system -> Prop :=
| sys_start : sys_history s0 [] s0
| sys_next tr s ev s' ans : sys_history s0 tr s -> sys_step ev s = Some (s', ans) -> sys_history s0 (tr ++ [(ev, ans)]) s'.

(** [life tr j]: the memory process [j] started with (at its last exec, or that of the ancestor it comes from) and everything that happened since: first to
    the ancestors, up to the forks, then to [j] itself.  [first]: the process the system starts with. *)
Record lifeline := mk_life { l_mem : mem; l_stale : Z -> Z; l_trace : list (event * Z) }.

Definition life_step (ls : list lifeline) (x : sys_event * Z) : list lifeline :=
  let (ev, ans) := x in
  match ev with
  | SEvent i e => match nth_error ls i with
                  | Some l => set_at i (mk_life (l_mem l) (l_stale l) (l_trace l ++ [(e, ans)])) ls
                  | None => ls
                  end
  | SFork i => match nth_error ls i with Some l => ls ++ [l] | None => ls end
  | SExec i m stale => set_at i (mk_life m stale []) ls
  | SExit _ => ls
  end.
Definition lives (first : lifeline) (tr : list (sys_event * Z)) : list lifeline := fold_left life_step tr [first].
Definition life (first : lifeline) (tr : list (sys_event * Z)) (j : nat) : option lifeline := nth_error (lives first tr) j.

(** The process an event of the system is about. *)
Definition about (ev : sys_event) : nat := match ev with SEvent i _ | SFork i | SExec i _ _ | SExit i => i end.

(** The functions watched may differ from program to program: [F m], [eb m] for a program that starts with the memory [m]. In a clean system every program
    starts with these functions in order, and what happens to a process is as C01 wants it for its program. *)
Inductive clean_sys (F : mem -> list Z) (eb : mem -> Z -> bool) (first : lifeline) : list (sys_event * Z) -> system -> Prop :=
| csys_start : functions_ok (F (l_mem first)) (eb (l_mem first)) (l_mem first) ->
    clean_sys F eb first [] [Some (fresh (l_mem first) (l_stale first))]
| csys_next tr s ev s' ans :
    clean_sys F eb first tr s -> sys_step ev s = Some (s', ans) ->
    match ev with
    | SEvent i e => forall p l, nth_error s i = Some (Some p) -> life first tr i = Some l -> event_ok (F (l_mem l)) (eb (l_mem l)) p e
    | SExec _ m _ => functions_ok (F m) (eb m) m
    | _ => True
    end ->
    clean_sys F eb first (tr ++ [(ev, ans)]) s'.
