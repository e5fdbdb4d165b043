(** What a program may expect of the interposed functions and of start-up, in
    terms of the C library without libpulp. *)
From Coq Require Import String.
From Verif Require Import Base StrModel TextSpec ItpModel.

Definition power_of_two (a : Z) : Prop := exists k, 0 <= k /\ a = 2 ^ k.

(** The answers and the heap if the program calls the next library in the search
    order directly, without libpulp. *)
Fixpoint plain {H} (L : libc H) (p : list (option call)) (h : H) : list ans * H :=
  match p with
  | [] => ([], h)
  | None :: t => plain L t h
  | Some c :: t =>
      let '(a, h1) := l_real L c h in
      let '(l, h2) := plain L t h1 in (a :: l, h2)
  end.

(** No other allocator is between libpulp and glibc. *)
Definition one_allocator {H} (L : libc H) : Prop :=
  forall c h, In (fn_of c) [F_free; F_malloc; F_calloc; F_realloc; F_valloc; F_pvalloc; F_memalign] ->
    l_libc L c h = l_real L c h.

(** What glibc says about aligned_alloc and posix_memalign, in terms of memalign:
    - posix_memalign returns EINVAL and does nothing if the alignment is not a
      power of two times sizeof(void * ); otherwise it stores the block it gets, or
      returns ENOMEM and stores nothing;
    - aligned_alloc for an alignment that is a power of two is memalign. *)
Definition glibc_aligned {H} (L : libc H) : Prop :=
  (forall a s h, ~ (power_of_two a /\ (8 | a)) -> l_real L (PosixMemalign a s) h = (mk_ans 22 None None, h)) /\
  (forall a s h m h', power_of_two a -> (8 | a) -> l_real L (Memalign a s) h = (m, h') ->
     (a_ret m <> 0 -> l_real L (PosixMemalign a s) h = (mk_ans 0 (Some (a_ret m)) (a_errno m), h')) /\
     (a_ret m = 0 -> l_real L (PosixMemalign a s) h = (mk_ans 12 None (a_errno m), h'))) /\
  (forall a s h, power_of_two a -> l_real L (AlignedAlloc a s) h = l_real L (Memalign a s) h).

(** Sizes and alignments are 64-bit numbers, and aligned_alloc is called with an
    alignment that is a power of two and a size that is a multiple of it. *)
Definition proper (c : call) : Prop :=
  match c with
  | AlignedAlloc a s => 0 <= a < 2 ^ 64 /\ 0 <= s < 2 ^ 64 /\ power_of_two a /\ (a | s)
  | PosixMemalign a s => 0 <= a < 2 ^ 64 /\ 0 <= s < 2 ^ 64
  | _ => True
  end.

(** The functions of the dynamic linker that a program uses. *)
Definition uses_dl (c : call) : Prop :=
  match c with Dlclose _ | Dladdr _ _ | Dladdr1 _ _ _ _ | Dlinfo _ _ _ => True | _ => False end.

(** [version] is the string of glibc 2.[minor], possibly with more after it. *)
Definition glibc_2 (version : list Z) (minor : Z) : Prop :=
  exists digits rest, version = (zs "2." ++ digits ++ rest)%list /\ decimal digits minor /\
    (rest = [] \/ exists r, rest = 46 :: r) /\ zlen version < 32.

(** Where the two locks are in _rtld_global of 64-bit glibc 2.[minor]. *)
Definition lock_offsets (minor : Z) : Z * Z :=
  if minor <? 35 then (2312, 2352) else if minor <? 42 then (2568, 2608) else (1800, 1840).
