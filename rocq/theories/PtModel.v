(** Access to the memory and registers of the target (tools/ptrace.c) and the
    tool operations built on it (tools/introspection.c). *)
From Verif Require Import Base InsnQModel LibModel.

(** ** Memory *)

(** A word access of ptrace needs the eight bytes; [ok] says which bytes of the
    target are accessible. The kernel refuses an access that wraps around. *)
Definition word_ok (ok : Z -> bool) (a : Z) : bool :=
  (a + 8 <=? 2 ^ 64) &&
  (ok a && ok (a + 1) && ok (a + 2) && ok (a + 3) && ok (a + 4) && ok (a + 5) && ok (a + 6) && ok (a + 7)).

(** ptrace(PTRACE_PEEKDATA) and ptrace(PTRACE_POKEDATA) on accessible words. The
    retries of ulp_ptrace (tools/ptrace.c:66-105) are left out here and are
    in RetryModel, where they are shown not to matter: an access either succeeds
    or finally fails. *)
Definition peek (m : mem) (a : Z) : Z := le_dec (mem_read m a 8).
Definition poke (m : mem) (a v : Z) : mem := mem_write m a (le_enc 8 v).

(** tools/ptrace.c:118-126, the loop over whole words: what is left of the
    buffer and the address reached, or an error. *)
Fixpoint write_longs (ok : Z -> bool) (m : mem) (a : Z) (k : nat) (buf : list Z)
  : bool * mem * Z * list Z :=
  match k with
  | O => (true, m, a, buf)
  | S k' =>
      if word_ok ok a
      then write_longs ok (poke m a (le_dec (firstn 8 buf))) (u64 (a + 8)) k' (skipn 8 buf)
      else (false, m, a, buf)
  end.

(** tools/ptrace.c:111-143, write_bytes_ptrace. *)
Definition write_bytes_ptrace (ok : Z -> bool) (m : mem) (a : Z) (buf : list Z) : Z * mem :=
  let n := zlen buf in
  let '(done, m1, a1, rest) := write_longs ok m a (Z.to_nat (n / 8)) buf in
  if negb done then (1, m1)
  else if n mod 8 =? 0 then (0, m1)
  else if negb (word_ok ok a1) then (1, m1)
  else
    let remainder := peek m1 a1 in
    let k := Z.to_nat (n mod 8) in
    let merged := le_dec (firstn k rest ++ skipn k (le_enc 8 remainder)) in
    (0, poke m1 a1 merged).

(** process_vm_readv/process_vm_writev with one pair of ranges: how many of the
    [n] bytes at [a] are transferred; the kernel stops at the first inaccessible
    byte (a page, in reality). *)
Fixpoint vm_span (ok : Z -> bool) (a : Z) (n : nat) : nat :=
  match n with
  | O => O
  | S n' => if ok a then S (vm_span ok (a + 1) n') else O
  end.

Definition EFAULT : Z := 14.

(** tools/ptrace.c:146-170, write_bytes: the loop around process_vm_writev.
    [None]: still looping when the fuel is used up. *)
Fixpoint vm_write_loop (fuel : nat) (ok : Z -> bool) (m : mem) (a : Z) (buf : list Z) (acc : Z)
  : option (Z * mem) :=
  match fuel with
  | O => None
  | S f =>
      let k := vm_span ok a (length buf) in
      if (k =? 0)%nat && negb (zlen buf =? 0) then Some (EFAULT, m)
      else
        let m' := mem_write m a (firstn k buf) in
        let acc' := u64 (acc + Z.of_nat k) in
        if acc' =? zlen buf then Some (0, m') else vm_write_loop f ok m' a buf acc'
  end.
Definition write_bytes (fuel : nat) (ok : Z -> bool) (m : mem) (a : Z) (buf : list Z) :=
  vm_write_loop fuel ok m a buf 0.

(** tools/ptrace.c:184-188, write_string. *)
Definition write_string (fuel : nat) (ok : Z -> bool) (m : mem) (a : Z) (s : list Z) :=
  write_bytes fuel ok m a (s ++ [0]).

(** tools/ptrace.c:208-241 and 243-292, read_long and read_memory: [dst] is the
    local buffer before the call. *)
Fixpoint vm_read_loop (fuel : nat) (ok : Z -> bool) (m : mem) (a : Z) (dst : list Z) (acc : Z)
  : option (Z * list Z) :=
  match fuel with
  | O => None
  | S f =>
      let k := vm_span ok a (length dst) in
      if (k =? 0)%nat && negb (zlen dst =? 0) then Some (EFAULT, dst)
      else
        let dst' := mem_read m a k ++ skipn k dst in
        let acc' := u64 (acc + Z.of_nat k) in
        if acc' =? zlen dst then Some (0, dst') else vm_read_loop f ok m a dst' acc'
  end.
Definition read_memory (fuel : nat) (ok : Z -> bool) (m : mem) (a : Z) (dst : list Z) :=
  vm_read_loop fuel ok m a dst 0.
(** [dst] has eight bytes. *)
Definition read_long := read_memory.

(** tools/ptrace.c:305-312, hasbytezero. *)
Definition MASK1 : Z := 0x0101010101010101.
Definition MASK2 : Z := 0x8080808080808080.
Definition hasbytezero (l : Z) : bool :=
  negb (Z.land (Z.land (u64 (l - MASK1)) (2 ^ 64 - 1 - l)) MASK2 =? 0).

(** tools/ptrace.c:316-346, read_string_allocated. [buf] is the caller's buffer
    (its length is the argument n), [junk] the eight bytes of the uninitialised
    local of line 338. *)
Fixpoint rsa_loop (fuel : nat) (ok : Z -> bool) (m : mem) (junk : list Z) (a : Z) (k : nat) (buf : list Z)
  : option (Z * list Z) :=
  match k with
  | O =>
      if zlen buf =? 0 then Some (0, buf)
      else match read_long fuel ok m a junk with
           | None => None
           | Some (r, l) =>
               if r =? 0 then Some (0, firstn (length buf) l) else Some (1, buf)
           end
  | S k' =>
      match read_long fuel ok m a (firstn 8 buf) with
      | None => None
      | Some (r, w) =>
          if negb (r =? 0) then Some (1, w ++ skipn 8 buf)
          else if hasbytezero (le_dec w) then Some (0, w ++ skipn 8 buf)
          else match rsa_loop fuel ok m junk (u64 (a + 8)) k' (skipn 8 buf) with
               | None => None
               | Some (r', rest) => Some (r', w ++ rest)
               end
      end
  end.
Definition read_string_allocated (fuel : nat) (ok : Z -> bool) (m : mem) (junk : list Z) (a : Z) (buf : list Z) :=
  rsa_loop fuel ok m junk a (Z.to_nat (zlen buf / 8)) buf.

(** tools/ptrace.c:363-393, read_string. [got] are the bytes read so far ([i]
    words), [cap] the capacity of the allocation in words; [junk] the contents
    of fresh memory. Writing past the allocation is a distinct outcome. A failing
    malloc or realloc is left out. *)
Inductive rsres :=
| RsOk (buf : list Z)      (** the buffer returned *)
| RsErr
| RsOob                    (** wrote outside the allocation *)
| RsHang.                  (** fuel used up *)
Fixpoint read_string_loop (sf rf : nat) (ok : Z -> bool) (m : mem) (junk : list Z) (a : Z) (got : list Z) (cap : Z)
  : rsres :=
  match sf with
  | O => RsHang
  | S sf' =>
      let i := zlen got / 8 in
      let cap := if cap <=? i then cap * 2 else cap in
      if cap <=? i then RsOob
      else match read_long rf ok m a junk with
           | None => RsHang
           | Some (r, w) =>
               if negb (r =? 0) then RsErr
               else if hasbytezero (le_dec w) then RsOk (got ++ w)
               else read_string_loop sf' rf ok m junk (u64 (a + 8)) (got ++ w) cap
           end
  end.
Definition read_string (sf rf : nat) (ok : Z -> bool) (m : mem) (junk : list Z) (a : Z) : rsres :=
  read_string_loop sf rf ok m junk a [] 8.

(** tools/introspection.c:1434-1455, set_metadata_buffer, and 1458-1462,
    set_string_buffer. [buf] is the address of the buffer in the target. *)
Definition ULP_METADATA_BUF_LEN : Z := 512 * 1024.
Definition set_metadata_buffer (fuel : nat) (ok : Z -> bool) (m : mem) (buf : Z) (md : list Z) : option (Z * mem) :=
  if ULP_METADATA_BUF_LEN <=? zlen md then Some (EOVERFLOW, m)
  else match write_bytes fuel ok m buf md with
       | None => None
       | Some (r, m') => if negb (r =? 0) then Some (EUNKNOWN, m') else Some (ENONE, m')
       end.
Definition set_string_buffer (fuel : nat) (ok : Z -> bool) (m : mem) (buf : Z) (s : list Z) :=
  set_metadata_buffer fuel ok m buf (s ++ [0]).

(** ** Registers *)

(** registers_t: the fields the tool touches and all others. [g_entry] is r12 on
    POWER. *)
Record regs := mk_regs {
  g_pc : Z;
  g_sp : Z;
  g_ret : Z;
  g_entry : Z;
  g_others : list Z
}.

(** include/arch/*/arch_common.h: RESTART_SYSCALL_SIZE, RED_ZONE_LEN, and whether
    SET_GLOBAL_ENTRYPOINT_REG does something. *)
Record arch := mk_arch { restart_size : Z; red_zone : Z; has_entry_reg : bool }.
Definition x86_64 : arch := mk_arch 2 128 false.
Definition ppc64le : arch := mk_arch 0 512 true.

(** tools/ptrace.c:529-567, run_and_redirect up to PTRACE_SETREGS: the registers
    with which the routine is started. *)
Definition redirect (ar : arch) (r : regs) (routine : Z) : regs :=
  let pc := u64 (routine + restart_size ar) in
  mk_regs pc
          (Z.land (u64 (g_sp r - red_zone ar)) 0xFFFFFFFFFFFFFFC0)
          (g_ret r)
          (if has_entry_reg ar then pc else g_entry r)
          (g_others r).

(** A thread as the kernel sees it. PTRACE_GETREGS and PTRACE_SETREGS transfer
    [k_regs]; [k_vec] are the floating point and vector registers. *)
Record kthread := mk_kthread {
  k_tid : Z;
  k_regs : regs;
  k_vec : list Z;
  k_stopped : bool    (** in a ptrace stop *)
}.

(** What waitpid(pid, &status, WNOHANG|WSTOPPED) can answer. *)
Inductive wait_ev :=
| WNothing
| WError
| WOther                   (** another pid *)
| WStatus (status : Z).

(** <sys/wait.h> *)
Definition WIFEXITED (s : Z) : bool := Z.land s 127 =? 0.
Definition WCOREDUMP (s : Z) : bool := negb (Z.land s 128 =? 0).
Definition WIFSTOPPED (s : Z) : bool := Z.land s 255 =? 127.
Definition WSTOPSIG (s : Z) : Z := Z.land (s / 256) 255.
Definition SIGTRAP : Z := 5.

Definition ETIME : Z := 62.
Definition ETARGETHOOK : Z := 258.

(** tools/ptrace.c:577-612, the waiting loop: the answers of waitpid until the
    time is over. [inl code]: give up with that code; [inr status]: the thread
    stopped. *)
Fixpoint rr_wait (evs : list wait_ev) : Z + Z :=
  match evs with
  | [] => inl ETIME
  | WNothing :: t | WOther :: t => rr_wait t
  | WError :: _ => inl EUNKNOWN
  | WStatus s :: t =>
      if WIFEXITED s || WCOREDUMP s then inl EUNKNOWN
      else if WIFSTOPPED s then inr s
      else rr_wait t
  end.

(** One execution of a routine as the environment decides it: whether the ptrace
    requests succeed, what waitpid answers, and the state in which the thread is
    afterwards. *)
Record rr_env := mk_rr_env {
  e_setregs : bool;
  e_cont : bool;
  e_waits : list wait_ev;
  e_getregs : bool;
  e_regs : regs;           (** registers when the thread stopped or the wait was given up *)
  e_vec : list Z
}.

(** tools/ptrace.c:501-625, run_and_redirect on the thread [t]: its result, the
    registers left in the caller's structure, and the thread. *)
Definition run_and_redirect (ar : arch) (e : rr_env) (t : kthread) (ctx : regs) (routine : Z)
  : Z * regs * kthread :=
  let ctx1 := redirect ar ctx routine in
  if negb (e_setregs e && k_stopped t) then (ETARGETHOOK, ctx1, t)
  else
    let t1 := mk_kthread (k_tid t) ctx1 (k_vec t) true in
    if negb (e_cont e) then (ETARGETHOOK, ctx1, t1)
    else
      match rr_wait (e_waits e) with
      | inl code => (code, ctx1, mk_kthread (k_tid t) (e_regs e) (e_vec e) false)
      | inr _ =>
          let t2 := mk_kthread (k_tid t) (e_regs e) (e_vec e) true in
          if negb (e_getregs e) then (-1, ctx1, t2) else (0, e_regs e, t2)
      end.

(** tools/introspection.c, struct ulp_thread: a stopped thread and its saved
    registers. *)
Record uthread := mk_uthread { u_tid : Z; u_context : regs }.

Definition on_thread (tid : Z) (f : kthread -> kthread) (ks : list kthread) : list kthread :=
  map (fun k => if k_tid k =? tid then f k else k) ks.

Definition find_thread (tid : Z) (ks : list kthread) : option kthread :=
  find (fun k => k_tid k =? tid) ks.

Definition find_saved (tid : Z) (us : list uthread) : option uthread :=
  find (fun u => u_tid u =? tid) us.

(** tools/introspection.c:1646-1650, 1703-1712, 1778-1782 and 1826-1831: a routine
    is run on the main thread with a copy of its saved registers. The memory
    effects of the routine are the subject of LibModel. *)
Definition run_routine (ar : arch) (main : Z) (us : list uthread) (ks : list kthread) (routine : Z) (e : rr_env)
  : Z * list kthread :=
  match find_saved main us, find_thread main ks with
  | Some u, Some k =>
      let '(r, _, k') := run_and_redirect ar e k (u_context u) routine in
      (r, on_thread main (fun _ => k') ks)
  | _, _ => (ETARGETHOOK, ks)
  end.
Fixpoint run_routines (ar : arch) (main : Z) (us : list uthread) (ks : list kthread) (l : list (Z * rr_env))
  : list kthread :=
  match l with
  | [] => ks
  | (routine, e) :: t => run_routines ar main us (snd (run_routine ar main us ks routine e)) t
  end.

(** tools/introspection.c:1842-1870, restore_threads. [set_ok] and [det_ok]: which
    PTRACE_SETREGS and PTRACE_DETACH requests are granted (never on a thread that
    is not stopped). *)
Fixpoint restore_threads (set_ok det_ok : Z -> bool) (us : list uthread) (ks : list kthread) (errors : Z)
  : Z * list kthread :=
  match us with
  | [] => (errors, ks)
  | u :: us' =>
      let stopped := match find_thread (u_tid u) ks with Some k => k_stopped k | None => false end in
      let s := stopped && set_ok (u_tid u) in
      let ks1 := if s then on_thread (u_tid u) (fun k => mk_kthread (k_tid k) (u_context u) (k_vec k) (k_stopped k)) ks
                 else ks in
      let d := stopped && det_ok (u_tid u) in
      let ks2 := if d then on_thread (u_tid u) (fun k => mk_kthread (k_tid k) (k_regs k) (k_vec k) false) ks1
                 else ks1 in
      restore_threads set_ok det_ok us' ks2 (if s && d then errors else 1)
  end.
