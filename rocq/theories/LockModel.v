(** The accounting of allocator and loader calls (lib/interpose.c), as a
    transition system over any number of threads, and the patch requests that
    consult it (lib/ulp.c). *)
From Verif Require Import Base InsnQModel LibModel.

(** Where one interposed call (malloc, free, calloc, realloc, valloc, pvalloc,
    memalign, aligned_alloc, posix_memalign, dlclose, dladdr, dladdr1, dlinfo)
    is:
    - [Tested]: the pointer to the real function was found to be set
      (lib/interpose.c:396, 411, ...), the counter is not incremented yet;
    - [Counted]: between __sync_fetch_and_add and __sync_fetch_and_sub, that is
      inside the real function (lib/interpose.c:401-403, 416-418, ...);
    - [Early]: the pointer was NULL, glibc's function was called directly
      (lib/interpose.c:396-399, 411-414, ...). *)
Inductive frame := Tested | Counted | Early.

(** Each thread has the stack of its interposed calls, innermost first (the real
    dlclose calls free, for instance).  [k_init]: the real addresses are known.
    [k_dl]: the lock words of the dynamic linker's two mutexes, [None] while the
    pointers to them are NULL. *)
Record kstate := mk_kstate {
  k_threads : list (list frame);
  k_flag : Z;
  k_init : bool;
  k_dl : option (Z * Z)
}.

(** One thread, no call, libpulp's constructor not run (lib/interpose.c:66). *)
Definition k_start : kstate := mk_kstate [[]] 0 false None.

Fixpoint upd {A} (i : nat) (x : A) (l : list A) : list A :=
  match l, i with
  | [], _ => []
  | _ :: t, O => x :: t
  | y :: t, S i' => y :: upd i' x t
  end.

(** A thread is running code of its own or of the real function, so it can call
    an interposed function. *)
Definition can_call (st : list frame) : bool :=
  match st with Tested :: _ => false | _ => true end.

(** int with wrap-around: __sync_fetch_and_add / __sync_fetch_and_sub. *)
Definition flag_add (s : kstate) (d : Z) : Z := s32 (k_flag s + d).

(** What can happen in the process, one atomic step at a time.  [i] is the
    thread, [dl] tells a loader function from an allocation function. *)
Inductive kevent :=
| KCall (i : nat) (dl : bool)   (** test the pointer to the real function *)
| KEnter (i : nat)              (** __sync_fetch_and_add *)
| KLeave (i : nat)              (** the call returns *)
| KInit (v : Z * Z)             (** __ulp_asunsafe_begin succeeds; lock words *)
| KDl (v : Z * Z)               (** the linker's mutexes change *)
| KSpawn                        (** a thread is created *)
| KExit (i : nat)               (** a thread that is in no call ends *)
| KFork (i : nat).              (** go on in the child that thread [i] forks *)

Fixpoint remove_nth {A} (i : nat) (l : list A) : list A :=
  match l, i with
  | [], _ => []
  | _ :: t, O => t
  | x :: t, S i' => x :: remove_nth i' t
  end.

Definition set_threads (s : kstate) (l : list (list frame)) : kstate :=
  mk_kstate l (k_flag s) (k_init s) (k_dl s).

(** One step; [None]: it cannot happen in this state.  dlclose, dladdr, dladdr1
    and dlinfo run the constructor themselves when needed
    (lib/interpose.c:561-563); that is the event [KInit] before them here. *)
Definition kstep (s : kstate) (ev : kevent) : option kstate :=
  match ev with
  | KCall i dl =>
      match nth_error (k_threads s) i with
      | Some st =>
          if negb (can_call st) then None
          else if k_init s then Some (set_threads s (upd i (Tested :: st) (k_threads s)))
          else if dl then None
          else Some (set_threads s (upd i (Early :: st) (k_threads s)))
      | None => None
      end
  | KEnter i =>
      match nth_error (k_threads s) i with
      | Some (Tested :: st) =>
          Some (mk_kstate (upd i (Counted :: st) (k_threads s)) (flag_add s 1) (k_init s) (k_dl s))
      | _ => None
      end
  | KLeave i =>
      match nth_error (k_threads s) i with
      | Some (Counted :: st) =>
          Some (mk_kstate (upd i st (k_threads s)) (flag_add s (-1)) (k_init s) (k_dl s))
      | Some (Early :: st) => Some (set_threads s (upd i st (k_threads s)))
      | _ => None
      end
  | KInit v => Some (mk_kstate (k_threads s) (k_flag s) true (Some v))
  | KDl v => match k_dl s with
             | None => None
             | Some _ => Some (mk_kstate (k_threads s) (k_flag s) (k_init s) (Some v))
             end
  | KSpawn => Some (set_threads s (k_threads s ++ [[]]))
  | KExit i =>
      match nth_error (k_threads s) i with
      | Some [] => Some (set_threads s (remove_nth i (k_threads s)))
      | _ => None
      end
  | KFork i =>
      match nth_error (k_threads s) i with
      | Some st => Some (set_threads s [st])
      | None => None
      end
  end.

Fixpoint krun (s : kstate) (evs : list kevent) : option kstate :=
  match evs with
  | [] => Some s
  | ev :: t => match kstep s ev with Some s' => krun s' t | None => None end
  end.

(** lib/interpose.c:88-97, dl_locks_held: [None] dereferences NULL; the first
    component tells whether one of the assertions fails (which sets the error
    state, lib/error.c:75-85). *)
Definition dl_locks_held (s : kstate) : option (bool * bool) :=
  match k_dl s with
  | None => None
  | Some (a, b) =>
      Some (negb ((0 <=? a) && (a <=? 1)) || negb ((0 <=? b) && (b <=? 1)),
            negb (a =? 0) || negb (b =? 0))
  end.

(** lib/interpose.c:369-381, __ulp_asunsafe_trylock: assertion failed, result
    not zero, and the flag afterwards. *)
Definition asunsafe_trylock (s : kstate) : option (bool * bool * Z) :=
  match dl_locks_held s with
  | None => None
  | Some (bad, held) =>
      if held then Some (bad, true, k_flag s)
      else if k_flag s =? 0 then Some (bad, false, 1)
      else Some (bad, true, k_flag s)
  end.

(** lib/interpose.c:383-389, __ulp_asunsafe_unlock: flag &= 0. *)
Definition asunsafe_unlock (s : kstate) (flag : Z) : kstate :=
  mk_kstate (k_threads s) (Z.land flag 0) (k_init s) (k_dl s).

(** lib/ulp.c:181-212 with the lock: what one request answers when libpulp is
    neither in an error state nor has pending work.  Every other thread is
    stopped meanwhile (C31), so the request is one step.  [K_proceed]: the lock
    was obtained and released and the request goes on. *)
Inductive kanswer := K_crash | K_busy | K_proceed.

Definition krequest (s : kstate) (st : lstate) : kanswer * kstate * lstate :=
  match asunsafe_trylock s with
  | None => (K_crash, s, st)
  | Some (bad, busy, flag) =>
      let st' := if bad then set_err st EUNKNOWN else st in
      if busy then (K_busy, mk_kstate (k_threads s) flag (k_init s) (k_dl s), st')
      else (K_proceed, asunsafe_unlock s flag, st')
  end.

(** lib/ulp.c:181-212, __ulp_apply_patch in a process in state [s]; [None]:
    crash or undefined behaviour. *)
Definition apply_in (s : kstate) (e : dlenv) (m : mem) (junk : Z) (buf : list Z) (st : lstate)
  : option (kstate * lstate * Z) :=
  if negb (s_err st =? ENONE) then Some (s, st, s_err st)
  else
    let (r, err') := insnq_ensure_emptiness (s_q st) (s_err st) in
    let st0 := set_err st err' in
    if negb (r =? 0) then Some (s, st0, s_err st0)
    else match krequest s st0 with
         | (K_crash, _, _) => None
         | (K_busy, s', st1) => Some (s', st1, EAGAIN)
         | (K_proceed, s', st1) =>
             match load_patch e m junk buf st1 with
             | None => None
             | Some (st2, ret) => Some (s', st2, ret)
             end
         end.

(** lib/ulp.c:147-178, __ulp_revert_patches_from_lib, likewise. *)
Definition revert_in (fuel : nat) (s : kstate) (e : dlenv) (m : mem) (lib_name : list Z)
    (st : lstate) : option (kstate * lstate * Z) :=
  if negb (s_err st =? ENONE) then Some (s, st, s_err st)
  else
    let (r, err') := insnq_ensure_emptiness (s_q st) (s_err st) in
    let st0 := set_err st err' in
    if negb (r =? 0) then Some (s, st0, s_err st0)
    else match krequest s st0 with
         | (K_crash, _, _) => None
         | (K_busy, s', st1) => Some (s', st1, EAGAIN)
         | (K_proceed, s', st1) =>
             match revert_all_patches_from_lib fuel e m lib_name st1 with
             | None => None
             | Some (st2, ret) => Some (s', st2, ret)
             end
         end.
