(** C96: notions for the memory of the ppc64le side stacks. *)
From Verif Require Import Base PtrModel PtrSpec PstModel.

(** What a thread has done, from the events alone: [None] if it does not exist; otherwise how many
    redirected calls it is in, and the greatest such number since it started. *)
Definition life_step (t : Z) (x : option (Z * Z)) (ev : pev) : option (Z * Z) :=
  match ev with
  | T_new u => if u =? t then match x with None => Some (0, 0) | _ => x end else x
  | T_call u _ => if u =? t then match x with Some (d, m) => Some (d + 1, Z.max m (d + 1)) | None => None end else x
  | T_return u => if u =? t then match x with Some (d, m) => Some (d - 1, m) | None => None end else x
  | T_exit u => if u =? t then None else x
  end.
Definition life (main : Z) (evs : list pev) (t : Z) : option (Z * Z) :=
  fold_left (life_step t) evs (if main =? t then Some (0, 0) else None).

(** How many threads have made redirected calls, those that have ended included: the calls that were
    the first one of their thread. *)
Fixpoint users_from (main : Z) (before evs : list pev) : Z :=
  match evs with
  | [] => 0
  | ev :: rest =>
      (match ev with
       | T_call t _ => match life main before t with Some (_, m) => if m =? 0 then 1 else 0 | None => 0 end
       | _ => 0
       end) + users_from main (before ++ [ev]) rest
  end.
Definition users (main : Z) (evs : list pev) : Z := users_from main [] evs.

Definition apart (x y : Z * Z) : Prop := disjoint (fst x) (snd x) (fst y) (snd y).

(** A thread returns from a redirected call it is in; mmap, if it is asked and grants memory, gives a
    range that is free. *)
Definition event_fine (main page : Z) (evs : list pev) (p : pproc) (ev : pev) : Prop :=
  match ev with
  | T_return t => match life main evs t with Some (d, _) => 0 < d | None => True end
  | T_call t (Some a) =>
      forall th, get_thread t (pp_threads p) = Some th -> sd_real (th_side th) <= sd_used (th_side th) ->
        0 < a /\ a + 2 * (sd_real (th_side th) + page) < 2 ^ 62 /\
        forall x, In x (pp_maps p) -> apart (a, 2 * (sd_real (th_side th) + page)) x
  | _ => True
  end.

(** Histories of a process, from its main thread on. *)
Inductive phistory (main page : Z) : list pev -> pproc -> Prop :=
| ph_start : phistory main page [] (pproc0 main)
| ph_step evs p ev p' :
    phistory main page evs p -> event_fine main page evs p ev -> pstep page ev p = Going p' ->
    phistory main page (evs ++ [ev]) p'.

Definition page_ok (page : Z) : Prop := 0 < page < 2 ^ 32 /\ (16 | page).

(** The mappings of the process without one of them. *)
Definition without (x : Z * Z) (l l' : maps) : Prop := exists a b, l = a ++ x :: b /\ l' = a ++ b.

(** The three fields of a thread's ulp_stack, in its memory. *)
Definition side_of (w : pworld) (m : mem) : side := mk_side (s_real w m) (s_used w m) (s_ptr w m).
