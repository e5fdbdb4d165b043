(** What is assumed of the surroundings of the ppc64le trampoline, and what "a
    properly nested run" is. *)
From Verif Require Import Base PtrModel.

(** Registers hold 64-bit values and memory bytes. *)
Definition wf_st (st : tst) : Prop :=
  (forall r, 0 <= tg st r < 2 ^ 64) /\ 0 <= t_lr st < 2 ^ 64 /\ 0 <= t_ctr st < 2 ^ 64 /\
  (forall x, is_byte (tm st x)).

(** The thread's stack is [sl, sh); the thread-local ulp_stack lies elsewhere. *)
Definition world_ok (w : pworld) (sl sh : Z) : Prop :=
  0 < sl /\ sl < sh /\ sh < 2 ^ 62 /\
  0 < pw_us w /\ pw_us w + 24 < 2 ^ 62 /\ (pw_us w + 24 <= sl \/ sh <= pw_us w) /\
  0 <= pw_tramp w < 2 ^ 63 /\ 0 <= pw_toc w < 2 ^ 63 /\ 0 <= pw_got w < 2 ^ 63 /\
  0 < pw_page w < 2 ^ 32 /\ (16 | pw_page w).

Definition s_real (w : pworld) (m : mem) : Z := ld8 m (pw_us w).
Definition s_used (w : pworld) (m : mem) : Z := ld8 m (pw_us w + 8).
Definition s_ptr (w : pworld) (m : mem) : Z := ld8 m (pw_us w + 16).

Definition disjoint (a n b k : Z) : Prop := a + n <= b \/ b + k <= a.

(** The side stack is in order: empty (as in a new thread), or an own mapping. *)
Definition side_ok (w : pworld) (sl sh : Z) (m : mem) : Prop :=
  let real := s_real w m in let used := s_used w m in let ptr := s_ptr w m in
  0 <= used <= real /\ (16 | used) /\ (16 | real) /\ ptr + real < 2 ^ 62 /\ 0 <= ptr /\
  (ptr = 0 -> real = 0) /\ disjoint ptr real sl (sh - sl) /\ disjoint ptr real (pw_us w) 24.

(** The stack pointer is in the thread's stack, with the 288 bytes the ABI reserves
    below it. *)
Definition room (sl sh : Z) (st : tst) : Prop := sl + 288 <= tg st 1 <= sh.

(** __tls_get_addr, when asked for ulp_stack: r3 is its address. Assumed beyond
    the ABI: r4-r10 and CTR survive, as in the fast path the linker puts in front
    of it ([C28_tls_abi_refuted] is about a __tls_get_addr that only keeps to the
    ABI). *)
Definition tls_ok (w : pworld) (sl sh : Z) (f : tst -> tst) : Prop :=
  forall st, wf_st st -> tg st 3 = pw_got w -> tg st 2 = pw_toc w -> sl <= tg st 1 <= sh - 32 ->
    let st' := f st in
    wf_st st' /\ tg st' 3 = pw_us w /\
    (forall r, r = 1 \/ r = 2 \/ 4 <= r <= 10 \/ 13 <= r <= 31 -> tg st' r = tg st r) /\
    t_ctr st' = t_ctr st /\
    (forall x, ~ (sl <= x < tg st 1 + 32) -> tm st' x = tm st x).

(** The compiled ulp_stack_helper keeps to the ABI: r1, r2 and r13-r31 survive, only
    the stack below and the caller's 32 byte frame header are written (beside the
    effects in [ulp_stack_helper]). *)
Definition helper_ok (sl sh : Z) (f : tst -> tst) : Prop :=
  forall st, wf_st st -> sl <= tg st 1 <= sh - 32 ->
    let st' := f st in
    wf_st st' /\
    (forall r, r = 1 \/ r = 2 \/ 13 <= r <= 31 -> tg st' r = tg st r) /\
    (forall x, ~ (sl <= x < tg st 1 + 32) -> tm st' x = tm st x).

(** A new mapping overlaps neither the stack, nor ulp_stack, nor the old buffer. *)
Definition mmap_ok (w : pworld) (sl sh : Z) (f : mem -> Z -> option Z) : Prop :=
  forall m n a, f m n = Some a ->
    0 < a /\ a + n < 2 ^ 62 /\ disjoint a n sl (sh - sl) /\ disjoint a n (pw_us w) 24 /\
    (s_ptr w m <> 0 -> forall x, s_ptr w m <= x < s_ptr w m + s_used w m -> ~ (a <= x < a + n)).

Definition env_ok (w : pworld) (sl sh : Z) (e : penv) : Prop :=
  tls_ok w sl sh (pe_tls e) /\ helper_ok sl sh (pe_helper e) /\ mmap_ok w sl sh (pe_mmap e).

(** mmap will grant the next enlargement of the side stack. *)
Definition mmap_grants (w : pworld) (e : penv) (m0 : mem) : Prop :=
  forall m, s_ptr w m = s_ptr w m0 -> s_used w m = s_used w m0 ->
    pe_mmap e m (2 * (s_real w m0 + pw_page w)) <> None.

(** The code in front of a redirected function is not in the stack. *)
Definition area_ok (sl sh area_lr : Z) : Prop :=
  0 <= area_lr /\ area_lr + 12 < 2 ^ 62 /\ disjoint (area_lr + 4) 8 sl (sh - sl).

(** What the program itself may do between redirected calls: anything to registers
    and memory, but it leaves this thread's ulp_stack and the entries in use
    alone. *)
Definition program_step (w : pworld) (st st' : tst) : Prop :=
  wf_st st' /\
  (forall x, pw_us w <= x < pw_us w + 24 -> tm st' x = tm st x) /\
  (forall x, s_ptr w (tm st) <= x < s_ptr w (tm st) + s_used w (tm st) -> tm st' x = tm st x).

(** Properly nested runs: program steps and complete redirected calls, in which the new
    function runs (with redirected calls of its own) and returns to the
    instruction behind its call, with the stack pointer it was called with. *)
Inductive nested (w : pworld) (sl sh : Z) : tst -> tst -> Prop :=
| nested_nil st : nested w sl sh st st
| nested_step st1 st2 st3 :
    program_step w st1 st2 -> nested w sl sh st2 st3 -> nested w sl sh st1 st3
| nested_call e e' area st st1 st2 st3 st4 :
    env_ok w sl sh e -> env_ok w sl sh e' -> area_ok sl sh area -> room sl sh st ->
    redirected_entry w e area st = Some st1 ->
    nested w sl sh st1 st2 ->
    tg st2 1 = tg st1 1 ->
    tramp_leave w e' st2 = Some st3 ->
    nested w sl sh st3 st4 ->
    nested w sl sh st st4.

(** A __tls_get_addr that keeps to the ABI, and no more. *)
Definition tls_abi (w : pworld) (sl sh : Z) (f : tst -> tst) : Prop :=
  forall st, wf_st st -> tg st 3 = pw_got w -> tg st 2 = pw_toc w -> sl <= tg st 1 <= sh - 32 ->
    let st' := f st in
    wf_st st' /\ tg st' 3 = pw_us w /\
    (forall r, r = 1 \/ r = 2 \/ 13 <= r <= 31 -> tg st' r = tg st r) /\
    (forall x, ~ (sl <= x < tg st 1 + 32) -> tm st' x = tm st x).
