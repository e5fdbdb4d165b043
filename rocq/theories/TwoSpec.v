(** C91: what several tools at the same time should amount to. *)
From Verif Require Import Base LibModel LibSpec TwoModel.

(** A visit alone: from the answers [acc] on, without anybody interfering. *)
Inductive session_run (s : session) : list Z -> proc -> list Z -> proc -> Prop :=
| run_end acc p : se_next s acc = None -> session_run s acc p acc p
| run_step acc p ev p1 ans acc' p' :
    se_next s acc = Some ev -> do_event ev p = Some (p1, ans) ->
    session_run s (acc ++ [ans]) p1 acc' p' -> session_run s acc p acc' p'.

(** One visit after the other, the program running only in between; [log]: the visits in their
    order. A refused visit does nothing. *)
Inductive serial (p0 : proc) : list (nat * session * outcome) -> proc -> Prop :=
| ser_start : serial p0 [] p0
| ser_program log p m : serial p0 log p -> serial p0 log (mk_proc (p_lib p) m)
| ser_refused log p i s : serial p0 log p -> serial p0 (log ++ [(i, s, Refused)]) p
| ser_visit log p i s ans p' : serial p0 log p -> session_run s [] p ans p' ->
    serial p0 (log ++ [(i, s, Finished ans)]) p'.

(** The tool sees the main thread; and it does something only if it stopped all threads. *)
Definition stops (main : Z) (threads : list Z) (s : session) : Prop :=
  In main (se_threads s) /\ (se_next s [] <> None -> incl threads (se_threads s)).
Definition starts_ok (main : Z) (threads : list Z) (a : action) : Prop :=
  match a with AStart _ s => stops main threads s | _ => True end.

(** The main thread is the first one listed. *)
Definition main_first (main : Z) (a : action) : Prop :=
  match a with AStart _ s => exists l, se_threads s = main :: l | _ => True end.

Definition is_inside (w : world) (i : nat) : Prop :=
  match w_phase w i with Inside _ _ _ => True | _ => False end.
(** Nobody is at work. *)
Definition at_rest (w : world) : Prop := forall i, ~ is_inside w i.
