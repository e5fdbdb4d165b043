(** The memory of the ppc64le trampoline: the side stacks of all threads, and what happens to them
    when threads end (lib/arch/powerpc64le/patch.c, ulp_prologue.S). What is stored in them is in
    PtrModel. *)
From Verif Require Import Base PtrModel.

(** ulp_stack of a thread (ulp_prologue.S:297-333): all zero in a new thread. *)
Record side := mk_side { sd_real : Z; sd_used : Z; sd_ptr : Z }.
Definition side0 : side := mk_side 0 0 0.

(** The mappings (address, size) that libpulp got from mmap and that still exist. *)
Definition maps := list (Z * Z).
Definition map_eqb (a b : Z * Z) : bool := (fst a =? fst b) && (snd a =? snd b).

(** munmap of a whole mapping of the list; [None]: the range is not one of them. *)
Fixpoint munmap (a n : Z) (l : maps) : option maps :=
  match l with
  | [] => None
  | x :: t => if map_eqb x (a, n) then Some t
              else match munmap a n t with Some t' => Some (x :: t') | None => None end
  end.

(** Going on, the process ended by libpulp_crash or an assertion, or memory that is not libpulp's
    was unmapped. *)
Inductive outcome (A : Type) := Going (a : A) | Ended | Foreign.
Arguments Going {A} _.
Arguments Ended {A}.
Arguments Foreign {A}.

(** patch.c:266-322, ulp_stack_helper; [ans]: what mmap answers. *)
Definition stack_helper (page : Z) (ans : option Z) (s : side) (l : maps) : outcome (side * maps) :=
  if negb (sd_real s <=? sd_used s) then Ended
  else
    let old_size := sd_real s in
    let real := u64 (u64 (old_size + page) * 2) in
    let old := sd_ptr s in
    match ans with
    | None => Ended
    | Some new =>
        let l1 := (new, real) :: l in
        match (if old =? 0 then Some l1 else munmap old old_size l1) with
        | None => Foreign
        | Some l2 => if new =? 0 then Ended else Going (mk_side real (sd_used s) new, l2)
        end
    end.

(** ulp_prologue.S:84-107 (.Lexpand_ulp_stack included): a redirected call pushes two words. *)
Definition enter_call (page : Z) (ans : option Z) (s : side) (l : maps) : outcome (side * maps) :=
  match (if s64 (sd_real s) <=? s64 (sd_used s) then stack_helper page ans s l else Going (s, l)) with
  | Going (s', l') => Going (mk_side (sd_real s') (u64 (sd_used s' + 16)) (sd_ptr s'), l')
  | r => r
  end.

(** ulp_prologue.S:170-173: its return pops them. *)
Definition leave_call (s : side) : side := mk_side (sd_real s) (u64 (sd_used s - 16)) (sd_ptr s).

(** patch.c:235-248, ulp_stack_cleanup. *)
Definition ulp_stack_cleanup (s : side) (l : maps) : outcome (side * maps) :=
  if sd_ptr s =? 0 then Going (s, l)
  else match munmap (sd_ptr s) (sd_real s) l with
       | None => Foreign
       | Some l' => Going (mk_side 0 0 0, l')
       end.

(** A thread: its ulp_stack, and its value for ulp_key (patch.c:226). No code of libpulp calls
    pthread_setspecific, so the value stays NULL. *)
Record thread := mk_thread { th_side : side; th_value : Z }.

(** The process; [pp_key]: ulp_pthread_key_init (patch.c:250-256) was called, by the first
    ulp_stack_helper (318-320). *)
Record pproc := mk_pproc { pp_threads : list (Z * thread); pp_maps : maps; pp_key : bool }.
Definition pproc0 (main : Z) : pproc := mk_pproc [(main, mk_thread side0 0)] [] false.

Fixpoint get_thread (t : Z) (l : list (Z * thread)) : option thread :=
  match l with
  | [] => None
  | (u, th) :: r => if u =? t then Some th else get_thread t r
  end.
Fixpoint set_thread (t : Z) (th : thread) (l : list (Z * thread)) : list (Z * thread) :=
  match l with
  | [] => []
  | (u, x) :: r => if u =? t then (u, th) :: r else (u, x) :: set_thread t th r
  end.
Definition del_thread (t : Z) (l : list (Z * thread)) : list (Z * thread) := filter (fun p => negb (fst p =? t)) l.

(** What threads do: start, call a redirected function, return from it, end. *)
Inductive pev :=
| T_new (t : Z)
| T_call (t : Z) (ans : option Z)
| T_return (t : Z)
| T_exit (t : Z).

(** One event. A thread that ends: for a key whose value is not NULL the destructor is called (POSIX,
    pthread_key_create); then its thread-local storage is gone. Events of threads that do not
    exist change nothing. *)
Definition pstep (page : Z) (ev : pev) (p : pproc) : outcome pproc :=
  match ev with
  | T_new t =>
      match get_thread t (pp_threads p) with
      | Some _ => Going p
      | None => Going (mk_pproc ((t, mk_thread side0 0) :: pp_threads p) (pp_maps p) (pp_key p))
      end
  | T_call t ans =>
      match get_thread t (pp_threads p) with
      | None => Going p
      | Some th =>
          match enter_call page ans (th_side th) (pp_maps p) with
          | Going (s, l) =>
              Going (mk_pproc (set_thread t (mk_thread s (th_value th)) (pp_threads p)) l
                       (pp_key p || (s64 (sd_real (th_side th)) <=? s64 (sd_used (th_side th)))))
          | Ended => Ended
          | Foreign => Foreign
          end
      end
  | T_return t =>
      match get_thread t (pp_threads p) with
      | None => Going p
      | Some th => Going (mk_pproc (set_thread t (mk_thread (leave_call (th_side th)) (th_value th)) (pp_threads p))
                            (pp_maps p) (pp_key p))
      end
  | T_exit t =>
      match get_thread t (pp_threads p) with
      | None => Going p
      | Some th =>
          if pp_key p && negb (th_value th =? 0) then
            match ulp_stack_cleanup (th_side th) (pp_maps p) with
            | Going (_, l) => Going (mk_pproc (del_thread t (pp_threads p)) l (pp_key p))
            | Ended => Ended
            | Foreign => Foreign
            end
          else Going (mk_pproc (del_thread t (pp_threads p)) (pp_maps p) (pp_key p))
      end
  end.

Fixpoint prun (page : Z) (evs : list pev) (p : pproc) : outcome pproc :=
  match evs with
  | [] => Going p
  | ev :: t => match pstep page ev p with Going p' => prun page t p' | r => r end
  end.
