(** Byte-level model of the instruction queue: the encoder in libpulp
    (lib/insn_queue.c), the decoder shared by both sides
    (common/insn_queue.c), and the tool side (tools/insn_queue.c). *)
From Verif Require Import Base.

(** include/insn_queue.h:29, INSN_BUFFER_MAX. *)
Definition INSN_BUFFER_MAX : Z := 2 * 1024 * 1024.
(** include/insn_queue.h:32, INSNQ_CURR_VERSION. *)
Definition INSNQ_CURR_VERSION : Z := 1.

(** include/error_common.h, the error codes used here. *)
Definition EINSNQ : Z := 285.
Definition EOLDULP : Z := 286.
Definition EOLDLIBPULP : Z := 281.

(** include/insn_queue.h:67-79, enum ulp_insn_type (packed: one byte). *)
Definition ULP_INSN_NOP : Z := 0.
Definition ULP_INSN_PRINT : Z := 1.
Definition ULP_INSN_WRITE : Z := 2.

(** include/insn_queue.h:43-59, struct insn_queue.  The buffer is a map from
    index to byte; only indices in [0, INSN_BUFFER_MAX) exist.  Bytes at or
    above [q_size] are whatever earlier operations left there. *)
Record insnq := mk_insnq {
  q_version : Z;
  q_num : Z;
  q_size : Z;
  q_buf : Z -> Z
}.

(** lib/insn_queue.c:39-44, align_to.  No int overflow: callers pass values
    below 2^31 - 32. *)
Definition align_to (val bytes : Z) : Z :=
  Z.land (val + (bytes - 1)) (Z.lnot (bytes - 1)).

(** lib/insn_queue.c:62-94, insnq_get_writable_area: [None] is NULL, otherwise
    the reserved offset and the queue with its counters advanced. *)
Definition insnq_get_writable_area (q : insnq) (msg_size : Z) : option (Z * insnq) :=
  if msg_size =? 0 then None
  else if msg_size + q_size q >? INSN_BUFFER_MAX then None
  else Some (q_size q,
             mk_insnq (q_version q) (q_num q + 1) (q_size q + msg_size) (q_buf q)).

(** include/insn_queue.h:83-90, struct ulp_insn: type byte, then the size as a
    24-bit field (little-endian bit-field allocation of GCC). *)
Definition insn_header (type size : Z) : list Z := type :: le_enc 3 size.

Definition q_store (q : insnq) (off : Z) (bytes : list Z) : insnq :=
  mk_insnq (q_version q) (q_num q) (q_size q) (mem_write (q_buf q) off bytes).

(** lib/insn_queue.c:102-120, insnq_insert_print.  [None] stands for the branch
    that sets the error state and returns EINSNQ.  Alignment padding is not
    written.  sizeof(struct ulp_insn_print) = 4. *)
Definition insnq_insert_print (q : insnq) (s : list Z) : option insnq :=
  let insn_size := align_to (4 + (zlen s + 1)) 4 in
  match insnq_get_writable_area q insn_size with
  | None => None
  | Some (off, q') =>
      Some (q_store q' off (insn_header ULP_INSN_PRINT insn_size ++ (s ++ [0])))
  end.

(** lib/insn_queue.c:130-149, insnq_insert_write; n = length of [bytes].
    sizeof(struct ulp_insn_write) = 16: base 4, n 4, address 8. *)
Definition insnq_insert_write (q : insnq) (addr : Z) (bytes : list Z) : option insnq :=
  let insn_size := align_to (16 + zlen bytes) 8 in
  match insnq_get_writable_area q insn_size with
  | None => None
  | Some (off, q') =>
      Some (q_store q' off (insn_header ULP_INSN_WRITE insn_size ++
                            le_enc 4 (zlen bytes) ++ le_enc 8 addr ++ bytes))
  end.

(** The insertion functions with the process-wide error state they update
    (lib/insn_queue.c:110-113 and 138-141, set_libpulp_error_state). The
    result is (queue, error state, returned code). *)
Definition insert_print_st (q : insnq) (err : Z) (s : list Z) : insnq * Z * Z :=
  match insnq_insert_print q s with
  | Some q' => (q', err, 0)
  | None => (q, EINSNQ, EINSNQ)
  end.

Definition insert_write_st (q : insnq) (err : Z) (addr : Z) (bytes : list Z) : insnq * Z * Z :=
  match insnq_insert_write q addr bytes with
  | Some q' => (q', err, 0)
  | None => (q, EINSNQ, EINSNQ)
  end.

(** lib/insn_queue.c:164-177, insnq_ensure_emptiness: returned value and new
    error state. *)
Definition insnq_ensure_emptiness (q : insnq) (err : Z) : Z * Z :=
  if (q_num q >? 0) || (q_size q >? 0) then (1, EINSNQ) else (0, err).

(** ** The interpreter (common/insn_queue.c) *)

(** The signed 24-bit size field of an instruction at [pc]. *)
Definition insn_size_at (buf : Z -> Z) (pc : Z) : Z :=
  let v := le_dec (mem_read buf (pc + 1) 3) in
  if v <? 2 ^ 23 then v else v - 2 ^ 24.

(** A NUL-terminated string starting at [pos], as printf("%s") reads it;
    [None] if the scan leaves the buffer. *)
Fixpoint cstr_at (fuel : nat) (buf : Z -> Z) (pos : Z) : option (list Z) :=
  match fuel with
  | O => None
  | S f =>
      if buf pos =? 0 then Some []
      else match cstr_at f buf (pos + 1) with
           | Some s => Some (buf pos :: s)
           | None => None
           end
  end.

(** Result of interpreting a queue: undefined behaviour (access outside the
    buffer), or a return code with the resulting target state. *)
Inductive ires (T : Type) : Type :=
| I_UB : T -> ires T
| I_ret : Z -> T -> ires T.
Arguments I_UB {T} _.
Arguments I_ret {T} _ _.

Section Interpreter.
  Context {T : Type}.
  (** Effect of a print: printf on the interpreter's stdout. *)
  Variable do_print : list Z -> T -> T.
  (** insn_interpret_write of the library or of the tool: index of the
      instruction, address, bytes, value of insn->size; gives the returned int
      and the new target state, or [None] if it faults. *)
  Variable do_write : nat -> Z -> list Z -> Z -> T -> option (Z * T).

  (** common/insn_queue.c:36-42 (print), 51-54 (nop), 78-83 (dispatch) and the
      write decoder's field reads.  [None]: access outside the buffer or outside
      the table of decoders. *)
  Definition insn_interpret (idx : nat) (buf : Z -> Z) (pc : Z) (t : T) : option (Z * T) :=
    let type := buf pc in
    if negb (pc + 4 <=? INSN_BUFFER_MAX) then None
    else if type =? ULP_INSN_NOP then Some (4, t)
    else if type =? ULP_INSN_PRINT then
      match cstr_at (Z.to_nat (INSN_BUFFER_MAX - (pc + 4))) buf (pc + 4) with
      | None => None
      | Some s => Some (insn_size_at buf pc, do_print s t)
      end
    else if negb (type =? ULP_INSN_WRITE) then None
    else
      if negb (pc + 16 <=? INSN_BUFFER_MAX) then None
      else
        let n := le_dec (mem_read buf (pc + 4) 4) in
        let addr := le_dec (mem_read buf (pc + 8) 8) in
        if negb (pc + 16 + n <=? INSN_BUFFER_MAX) then None
        else do_write idx addr (mem_read buf (pc + 16) (Z.to_nat n))
                      (insn_size_at buf pc) t.

  (** include/insn_queue.h:127-139, ulp_insn_valid. *)
  Definition ulp_insn_valid (type : Z) : bool :=
    (type =? ULP_INSN_NOP) || (type =? ULP_INSN_PRINT) || (type =? ULP_INSN_WRITE).

  (** common/insn_queue.c:92-128, the loop of insnq_interpret; [k] is
      num_insns - num_insns_executed. *)
  Fixpoint insnq_loop (k : nat) (idx : nat) (buf : Z -> Z) (size pc : Z) (t : T) : ires T :=
    match k with
    | O => if pc =? size then I_ret 0 t else I_ret EINSNQ t
    | S k' =>
        if negb ((0 <=? pc) && (pc <? INSN_BUFFER_MAX)) then I_UB t
        else if ulp_insn_valid (buf pc) then
          match insn_interpret idx buf pc t with
          | None => I_UB t
          | Some (r, t') => insnq_loop k' (S idx) buf size (pc + r) t'
          end
        else I_ret EINSNQ t
    end.

  (** common/insn_queue.c:92-128, insnq_interpret.  A negative num_insns skips
      the loop but then fails the final test num_insns_executed != num_insns. *)
  Definition insnq_interpret (q : insnq) (t : T) : ires T :=
    if q_num q <? 0 then I_ret EINSNQ t
    else insnq_loop (Z.to_nat (q_num q)) 0 (q_buf q) (q_size q) 0 t.
End Interpreter.

(** ** Tool side *)

(** What a queue can affect: the target's memory, and the tool's output. *)
Record tgt := mk_tgt { t_mem : mem; t_out : list (list Z) }.

(** common/insn_queue.c:40, printf of the tool. *)
Definition tgt_print (s : list Z) (t : tgt) : tgt := mk_tgt (t_mem t) (t_out t ++ [s]).

(** tools/insn_queue.c:39-48, insn_interpret_write.  [wf idx] tells whether
    ptrace fails while executing instruction number [idx]: [Some k] means that
    it fails after the first [k] bytes were stored. The exact stores of
    write_bytes_ptrace are modelled in PtraceModel. *)
Definition tool_write (wf : nat -> option nat)
    (idx : nat) (addr : Z) (bytes : list Z) (size : Z) (t : tgt)
  : option (Z * tgt) :=
  match wf idx with
  | None => Some (size, mk_tgt (mem_write (t_mem t) addr bytes) (t_out t))
  | Some k => Some (-1, mk_tgt (mem_write (t_mem t) addr (firstn k bytes)) (t_out t))
  end.

(** The environment of one run of insnq_interpret_from_process_: results of the
    two remote reads, of the remote update (0 = success) and of the writes. *)
Record tool_env := mk_tool_env {
  te_rd_hdr : Z;
  te_rd_body : Z;
  te_upd : Z;
  te_wf : nat -> option nat
}.

(** Everything succeeds. *)
Definition env_ok : tool_env := mk_tool_env 0 0 0 (fun _ => None).

(** tools/insn_queue.c:63-93, insnq_get_from_remote_process: code and local
    copy. The local copy is zeroed first, so bytes past size are 0. *)
Definition insnq_get_from_remote_process (e : tool_env) (rq : insnq) : Z * insnq :=
  let zero := mk_insnq 0 0 0 (fun _ => 0) in
  if negb (te_rd_hdr e =? 0) then (EINSNQ, zero)
  else
    let q := mk_insnq (q_version rq) (q_num rq) (q_size rq) (fun _ => 0) in
    if q_version rq >? INSNQ_CURR_VERSION then (EOLDULP, q)
    else
      let size := u32 (q_size rq) in
      if size =? 0 then (0, q)
      else if size >? INSN_BUFFER_MAX then (EINSNQ, q)
      else if negb (te_rd_body e =? 0) then (te_rd_body e, q)
      else (0, mk_insnq (q_version rq) (q_num rq) (q_size rq)
                 (fun i => if (0 <=? i) && (i <? size) then q_buf rq i else 0)).

(** tools/insn_queue.c:107-127, insnq_update_remote: both counters reset.
    A failing update is one that stored nothing. *)
Definition insnq_reset (rq : insnq) : insnq :=
  mk_insnq (q_version rq) 0 0 (q_buf rq).

(** tools/insn_queue.c:173-209, insnq_interpret_from_process_: the result code,
    the target and the remote queue afterwards. [None] is undefined
    behaviour in the tool. [has_queue] is queue_addr != 0. *)
Definition insnq_interpret_from_process (e : tool_env) (has_queue : bool)
    (rq : insnq) (t : tgt) : option (Z * insnq * tgt) :=
  if negb has_queue then Some (EOLDLIBPULP, rq, t)
  else
    let (ret, q) := insnq_get_from_remote_process e rq in
    if negb (ret =? 0) then Some (ret, rq, t)
    else if q_size q >? INSN_BUFFER_MAX then Some (EINSNQ, rq, t)
    else match insnq_interpret tgt_print (tool_write (te_wf e)) q t with
         | I_UB _ => None
         | I_ret c t' =>
             if negb (c =? 0) then Some (EINSNQ, rq, t')
             else if negb (te_upd e =? 0) then Some (EINSNQ, rq, t')
             else Some (0, insnq_reset rq, t')
         end.

(** ** Library side: execution with page protections *)

(** PROT_WRITE of <sys/mman.h>. *)
Definition PROT_WRITE : Z := 2.

(** Memory, protection of each page (page base address to PROT bits; [None] if
    not mapped) and output of the process itself. *)
Record ltgt := mk_ltgt { l_mem : mem; l_prot : Z -> option Z; l_out : list (list Z) }.

Definition ltgt_print (s : list Z) (t : ltgt) : ltgt :=
  mk_ltgt (l_mem t) (l_prot t) (l_out t ++ [s]).

Definition set_prot (p : Z -> option Z) (page v : Z) : Z -> option Z :=
  fun x => if x =? page then Some v else p x.

(** lib/insn_queue.c:303-316: collect the protections of [k] consecutive pages;
    [None] if one of them is not found in /proc/self/maps. *)
Fixpoint collect_prots (p : Z -> option Z) (ps page : Z) (k : nat) : option (list Z) :=
  match k with
  | O => Some []
  | S k' => match p page with
            | None => None
            | Some v => match collect_prots p ps (page + ps) k' with
                        | None => None
                        | Some l => Some (v :: l)
                        end
            end
  end.

(** lib/insn_queue.c:318-324 and 333-339: mprotect a run of pages. [mp page]
    tells whether mprotect of that page succeeds; the boolean result is false if
    some call failed (the loop stops there). *)
Fixpoint mprotect_run (mp : Z -> bool) (p : Z -> option Z) (ps page : Z) (vals : list Z)
  : bool * (Z -> option Z) :=
  match vals with
  | [] => (true, p)
  | v :: l => if mp page then mprotect_run mp (set_prot p page v) ps (page + ps) l
              else (false, p)
  end.

(** Results of the system calls of one in-process write: [lw_set]: mprotect
    adding PROT_WRITE; [lw_restore]: mprotect putting the old value back;
    [lw_errno]: errno when one of the failing exits is taken. *)
Record lw_env := mk_lw_env { lw_set : Z -> bool; lw_restore : Z -> bool; lw_errno : Z }.

(** Can [n] bytes at [addr] be stored without a fault under protections [p]? *)
Definition can_store (p : Z -> option Z) (ps addr : Z) (n : nat) : bool :=
  forallb (fun i => match p (Z.land (addr + Z.of_nat i) (Z.lnot (ps - 1))) with
                    | Some v => negb (Z.land v PROT_WRITE =? 0)
                    | None => false
                    end) (seq 0 n).

(** lib/insn_queue.c:288-342, insn_interpret_write of libpulp; [ps] is
    getpagesize().  The memcpy faults ([None]) if some byte it stores lies in a
    page that is not writable. The memcmp that only prints a warning is left
    out. *)
Definition lib_write (ps : Z) (env : nat -> lw_env)
    (idx : nat) (addr : Z) (bytes : list Z) (size : Z) (t : ltgt) : option (Z * ltgt) :=
  let e := env idx in
  let mask := Z.lnot (ps - 1) in
  let page1 := Z.land addr mask in
  let pagen := Z.land (u64 (addr + zlen bytes)) mask in
  let num_pages := 1 + (pagen - page1) / ps in
  match collect_prots (l_prot t) ps page1 (Z.to_nat num_pages) with
  | None => Some (lw_errno e, t)
  | Some prots =>
      let (ok1, p1) := mprotect_run (lw_set e) (l_prot t) ps page1
                                    (map (fun v => Z.lor v PROT_WRITE) prots) in
      if negb ok1 then Some (lw_errno e, mk_ltgt (l_mem t) p1 (l_out t))
      else if negb (can_store p1 ps addr (length bytes)) then None
      else
        let m' := mem_write (l_mem t) addr bytes in
        let (ok2, p2) := mprotect_run (lw_restore e) p1 ps page1 prots in
        if negb ok2 then Some (lw_errno e, mk_ltgt m' p2 (l_out t))
        else Some (size, mk_ltgt m' p2 (l_out t))
  end.

(** lib/insn_queue.c:353-365, insnq_interpret_from_lib: return code, queue
    (zeroed and reset whatever the outcome) and process afterwards. *)
Definition insnq_interpret_from_lib (ps : Z) (env : nat -> lw_env) (q : insnq) (t : ltgt)
  : option (Z * insnq * ltgt) :=
  match insnq_interpret ltgt_print (lib_write ps env) q t with
  | I_UB _ => None
  | I_ret c t' =>
      Some (c, mk_insnq (q_version q) 0 0
                 (fun i => if (0 <=? i) && (i <? INSN_BUFFER_MAX) then 0 else q_buf q i), t')
  end.
