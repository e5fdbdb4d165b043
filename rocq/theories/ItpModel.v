(** The functions libpulp interposes, called one at a time, and the start-up that
    finds the real ones and the dynamic linker's locks (lib/interpose.c,
    lib/symbol_loader.c, include/ld_rtld.h).  The interleavings of such calls are
    in LockModel, the opt-outs in OptModel. *)
From Verif Require Import Base TextModel LibModel OptModel CliModel.

(** errno.h. *)
Definition EINVAL : Z := 22.
Definition ENOMEM : Z := 12.

(** lib/interpose.c:68-83: the interposed functions. *)
Inductive fn :=
| F_free | F_malloc | F_calloc | F_realloc | F_valloc | F_pvalloc | F_memalign
| F_aligned_alloc | F_posix_memalign
| F_dlclose | F_dladdr | F_dladdr1 | F_dlinfo.

Definition fn_eqb (a b : fn) : bool :=
  match a, b with
  | F_free, F_free | F_malloc, F_malloc | F_calloc, F_calloc | F_realloc, F_realloc
  | F_valloc, F_valloc | F_pvalloc, F_pvalloc | F_memalign, F_memalign
  | F_aligned_alloc, F_aligned_alloc | F_posix_memalign, F_posix_memalign
  | F_dlclose, F_dlclose | F_dladdr, F_dladdr | F_dladdr1, F_dladdr1
  | F_dlinfo, F_dlinfo => true
  | _, _ => false
  end.

(** A call with its arguments; pointers and sizes are 64-bit numbers. *)
Inductive call :=
| Free (ptr : Z)
| Malloc (size : Z)
| Calloc (nmemb size : Z)
| Realloc (ptr size : Z)
| Valloc (size : Z)
| Pvalloc (size : Z)
| Memalign (alignment size : Z)
| AlignedAlloc (alignment size : Z)
| PosixMemalign (alignment size : Z)
| Dlclose (handle : Z)
| Dladdr (address info : Z)
| Dladdr1 (address info extra flags : Z)
| Dlinfo (handle request arg : Z).

Definition fn_of (c : call) : fn :=
  match c with
  | Free _ => F_free | Malloc _ => F_malloc | Calloc _ _ => F_calloc
  | Realloc _ _ => F_realloc | Valloc _ => F_valloc | Pvalloc _ => F_pvalloc
  | Memalign _ _ => F_memalign | AlignedAlloc _ _ => F_aligned_alloc
  | PosixMemalign _ _ => F_posix_memalign | Dlclose _ => F_dlclose
  | Dladdr _ _ => F_dladdr | Dladdr1 _ _ _ _ => F_dladdr1 | Dlinfo _ _ _ => F_dlinfo
  end.

(** What a call gives its caller: the value returned (0 for free), what it
    stores through memptr (posix_memalign), and the errno it sets. *)
Record ans := mk_ans { a_ret : Z; a_mem : option Z; a_errno : option Z }.

(** [l_real]: the functions dlsym(RTLD_NEXT, name) gives.  [l_libc]: the
    functions __libc_free, __libc_malloc, ... of glibc, which exist for the first
    seven (lib/interpose.c:54-63).  Both act on the heap of the process. *)
Record libc (H : Type) := mk_libc {
  l_real : call -> H -> ans * H;
  l_libc : call -> H -> ans * H
}.
Arguments l_real {H}.
Arguments l_libc {H}.

(** What start-up asks the system: which functions dlsym(RTLD_NEXT, ...) finds;
    the address of _rtld_global in the dynamic linker (DlModel models the
    search); the string gnu_get_libc_version() returns; the int at an address;
    and the opt-outs. *)
Record sysw := mk_sysw {
  w_found : fn -> bool;
  w_rtld : option Z;
  w_version : list Z;
  w_word : Z -> Z;
  w_opt : optworld
}.

(** lib/interpose.c:66-86 and lib/error.c:40: the pointers to the real functions
    ([true]: not NULL), the counter, the two lock pointers, the error state. *)
Record istate := mk_istate {
  i_ptr : fn -> bool;
  i_flag : Z;
  i_locks : option (Z * Z);
  i_err : Z
}.

(** Before the constructor has run. *)
Definition i_start : istate := mk_istate (fun _ => false) 0 None ENONE.

(** ** Layout of C structures (System V ABI): a scalar has a size and equal
    alignment, a member starts at the next multiple of its alignment, and the
    size of a structure is a multiple of its alignment. *)
Inductive ctype :=
| Scalar (size : Z)
| Struct (members : list ctype)
| Array (n : Z) (elem : ctype).

Fixpoint alignof (t : ctype) : Z :=
  match t with
  | Scalar s => s
  | Struct l => fold_right (fun m a => Z.max (alignof m) a) 1 l
  | Array _ e => alignof e
  end.

Definition round_up (x a : Z) : Z := (x + a - 1) / a * a.

Fixpoint sizeof (t : ctype) : Z :=
  match t with
  | Scalar s => s
  | Struct l =>
      round_up ((fix go (l : list ctype) (o : Z) : Z :=
                   match l with
                   | [] => o
                   | m :: r => go r (round_up o (alignof m) + sizeof m)
                   end) l 0)
               (fold_right (fun m a => Z.max (alignof m) a) 1 l)
  | Array n e => n * sizeof e
  end.

(** offsetof the member with index [i]. *)
Fixpoint offset_from (l : list ctype) (i : nat) (o : Z) : Z :=
  match l, i with
  | [], _ => o
  | m :: _, O => round_up o (alignof m)
  | m :: r, S j => offset_from r j (round_up o (alignof m) + sizeof m)
  end.
Definition offsetof (l : list ctype) (i : nat) : Z := offset_from l i 0.

Definition PTR := Scalar 8.
Definition LONG := Scalar 8.
Definition UINT := Scalar 4.

(** pthread_mutex_t on x86_64 and powerpc64: 40 bytes aligned like long; its
    first member is int __lock. *)
Definition MUTEX := Struct [Array 5 LONG].
(** link.h, struct r_debug: r_version, r_map, r_brk, r_state, r_ldbase. *)
Definition R_DEBUG := Struct [UINT; PTR; PTR; UINT; PTR].
(** link.h / include/ld_rtld.h:31-37, struct r_debug_extended. *)
Definition R_DEBUG_EXTENDED := Struct [R_DEBUG; PTR].
(** include/ld_rtld.h:71-84, 110-124, 153-167: _ns_unique_sym_table. *)
Definition UNIQUE_SYM_TABLE := Struct [MUTEX; PTR; LONG; LONG; PTR].
Definition DL_NNS : Z := 16.

(** include/ld_rtld.h:59-90, struct rtld_global__2_31. *)
Definition RTLD_2_31 : list ctype :=
  [Array DL_NNS (Struct [PTR; UINT; PTR; UINT; UINT; UNIQUE_SYM_TABLE; R_DEBUG]);
   LONG; MUTEX; MUTEX; LONG].
(** include/ld_rtld.h:101-131, struct rtld_global__2_35. *)
Definition RTLD_2_35 : list ctype :=
  [Array DL_NNS (Struct [PTR; UINT; PTR; UINT; UINT; PTR; UNIQUE_SYM_TABLE; R_DEBUG_EXTENDED]);
   LONG; MUTEX; MUTEX; MUTEX].
(** include/ld_rtld.h:142-171, struct rtld_global__2_42. *)
Definition RTLD_2_42 : list ctype :=
  [Array DL_NNS (Struct [PTR; UINT; PTR; UINT; UINT; PTR; UNIQUE_SYM_TABLE]);
   LONG; MUTEX; MUTEX; MUTEX].

(** ** Start-up *)

(** The version is copied into char libc_ver[32] (lib/symbol_loader.c:379). *)
Definition LIBC_VER_SIZE : Z := 32.

(** The result of looking for the locks: libpulp_crash (exit(1)), undefined
    behaviour, the pointers are left alone, or the two addresses. *)
Inductive lockres := L_exit | L_crash | L_none | L_at (load write : Z).

Definition locks_in (rtld : Z) (l : list ctype) : lockres :=
  L_at (rtld + offsetof l 2) (rtld + offsetof l 3).

(** lib/symbol_loader.c:376-415, get_ld_global_locks.  strcpy of a longer version
    overflows the buffer; atoi(NULL) when a token is missing. *)
Definition get_ld_global_locks (rtld_global : option Z) (version : list Z) : lockres :=
  match rtld_global with
  | None => L_exit
  | Some rtld =>
      if LIBC_VER_SIZE <=? zlen version then L_crash
      else
        match strtok_dot version with
        | (None, _) => L_crash
        | (Some tok, rest) =>
            let major := atoi_any tok in
            match strtok_dot rest with
            | (None, _) => L_crash
            | (Some tok2, _) =>
                let minor := atoi_any tok2 in
                if major =? 2 then
                  if (31 <=? minor) && (minor <? 35) then locks_in rtld RTLD_2_31
                  else if (35 <=? minor) && (minor <? 42) then locks_in rtld RTLD_2_35
                  else if 42 <=? minor then locks_in rtld RTLD_2_42
                  else L_exit
                else L_none
            end
        end
  end.

(** How the constructor ends: exit(1) of the program, undefined behaviour, or
    the new state. *)
Inductive started := S_exit | S_crash | S_ok (st : istate).

Definition all_dl : list fn := [F_dlclose; F_dladdr; F_dladdr1; F_dlinfo].
(** lib/interpose.c:311-350: the functions of libc that are tested; valloc is
    not among them. *)
Definition all_libc : list fn :=
  [F_free; F_malloc; F_calloc; F_realloc; F_pvalloc; F_memalign; F_aligned_alloc; F_posix_memalign].

(** lib/interpose.c:256-360, __ulp_asunsafe_begin.  The messages are not
    modelled (C80).  OptModel.asunsafe_begin is used for what follows the search
    for the locks: the test of the lock words and the opt-outs. *)
Definition ulp_asunsafe_begin (w : sysw) (st : istate) : started :=
  if i_ptr st F_malloc then S_ok st
  else
    let libdl := forallb (w_found w) all_dl in
    let libc := forallb (w_found w) all_libc in
    let err1 := if libdl then i_err st else ENOLIBDL in
    let err2 := if libc then err1 else ENOLIBC in
    if negb (libdl && libc) then S_ok (mk_istate (w_found w) (i_flag st) (i_locks st) err2)
    else
      let after_locks (locks : option (Z * Z)) :=
        match locks with
        | None => S_crash (** dl_locks_held dereferences NULL *)
        | Some (a, b) =>
            match asunsafe_begin true true (w_word w a, w_word w b) (w_opt w) err2 with
            | None => S_crash
            | Some err => S_ok (mk_istate (w_found w) (i_flag st) locks err)
            end
        end in
      match get_ld_global_locks (w_rtld w) (w_version w) with
      | L_exit => S_exit
      | L_crash => S_crash
      | L_none => after_locks (i_locks st)
      | L_at a b => after_locks (Some (a, b))
      end.

(** ** The interposed functions *)

(** The unsigned 64-bit operations of the two emulations. *)
Definition powerof2 (x : Z) : bool := Z.land (u64 (x - 1)) x =? 0.

(** How one call ends: the program exits, undefined behaviour (a call through a
    NULL pointer), or an answer, the heap, the state, and the value of the
    counter while the underlying function ran ([None]: none ran). *)
Inductive outcome (H : Type) :=
| O_exit
| O_crash
| O_done (a : ans) (h : H) (st : istate) (during : option Z).
Arguments O_exit {H}.
Arguments O_crash {H}.
Arguments O_done {H}.

Section Calls.
  Context {H : Type}.
  Variable L : libc H.

  (** lib/interpose.c:401-403 and the like: count, call, uncount. *)
  Definition counted (st : istate) (c : call) (h : H) : outcome H :=
    let flag1 := s32 (i_flag st + 1) in
    let '(a, h') := l_real L c h in
    O_done a h' (mk_istate (i_ptr st) (s32 (flag1 - 1)) (i_locks st) (i_err st)) (Some flag1).

  (** glibc's function called without counting. *)
  Definition direct (st : istate) (c : call) (h : H) : outcome H :=
    let '(a, h') := l_libc L c h in O_done a h' st (Some (i_flag st)).

  (** lib/interpose.c:392-553: the real function is not known.  aligned_alloc
      (506-515) and posix_memalign (528-547) are written with __libc_memalign. *)
  Definition not_known (st : istate) (c : call) (h : H) : outcome H :=
    match c with
    | AlignedAlloc alignment size =>
        if negb (Z.land alignment (u64 (alignment - 1)) =? 0)
           || negb (Z.land size (u64 (alignment - 1)) =? 0)
        then O_done (mk_ans 0 None (Some EINVAL)) h st None
        else direct st (Memalign alignment size) h
    | PosixMemalign alignment size =>
        if negb (alignment mod 8 =? 0) || negb (powerof2 (alignment / 8)) || (alignment =? 0)
        then O_done (mk_ans EINVAL None None) h st None
        else
          let '(a, h') := l_libc L (Memalign alignment size) h in
          if negb (a_ret a =? 0)
          then O_done (mk_ans 0 (Some (a_ret a)) (a_errno a)) h' st (Some (i_flag st))
          else O_done (mk_ans ENOMEM None (a_errno a)) h' st (Some (i_flag st))
    | _ => direct st c h
    end.

  Definition is_dl (f : fn) : bool :=
    match f with F_dlclose | F_dladdr | F_dladdr1 | F_dlinfo => true | _ => false end.

  (** lib/interpose.c:393-620: one call of an interposed function. *)
  Definition interposed (w : sysw) (st : istate) (c : call) (h : H) : outcome H :=
    let f := fn_of c in
    if is_dl f then
      if i_ptr st f then counted st c h
      else match ulp_asunsafe_begin w st with
           | S_exit => O_exit
           | S_crash => O_crash
           | S_ok st1 => if i_ptr st1 f then counted st1 c h else O_crash
           end
    else if i_ptr st f then counted st c h
    else not_known st c h.

  (** A program: calls one after the other, and the run of libpulp's constructor
      among them ([None]). *)
  Fixpoint run_calls (w : sysw) (st : istate) (p : list (option call)) (h : H) : option (list ans * H * istate) :=
    match p with
    | [] => Some ([], h, st)
    | None :: t =>
        match ulp_asunsafe_begin w st with
        | S_ok st1 => run_calls w st1 t h
        | _ => None
        end
    | Some c :: t =>
        match interposed w st c h with
        | O_done a h1 st1 _ =>
            match run_calls w st1 t h1 with
            | Some (l, h2, st2) => Some (a :: l, h2, st2)
            | None => None
            end
        | _ => None
        end
    end.
End Calls.
