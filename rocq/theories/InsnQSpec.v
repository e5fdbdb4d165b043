(** What the instruction queue is for, stated without mentioning its encoding. *)
From Verif Require Import Base InsnQModel.

(** A request libpulp makes to the tool. *)
Inductive req :=
| RWrite (addr : Z) (bytes : list Z)
| RPrint (str : list Z).

(** Requests a C caller can make: 64-bit addresses, real bytes, C strings. *)
Definition req_ok (r : req) : Prop :=
  match r with
  | RWrite a bs => 0 <= a < 2 ^ 64 /\ bytes_ok bs
  | RPrint s => cstr_ok s
  end.

(** The meaning of a request: exactly the bytes go to exactly that place. *)
Definition perform (t : tgt) (r : req) : tgt :=
  match r with
  | RWrite a bs => mk_tgt (mem_write (t_mem t) a bs) (t_out t)
  | RPrint s => mk_tgt (t_mem t) (t_out t ++ [s])
  end.

Definition perform_all (rs : list req) (t : tgt) : tgt := fold_left perform rs t.

(** libpulp submitting one request / a list of requests (queue, error state). *)
Definition submit (st : insnq * Z) (r : req) : insnq * Z :=
  let (q, err) := st in
  match r with
  | RWrite a bs => fst (insert_write_st q err a bs)
  | RPrint s => fst (insert_print_st q err s)
  end.

Definition submit_all (rs : list req) (st : insnq * Z) : insnq * Z := fold_left submit rs st.

(** An empty queue as the tool leaves it: counters zero, any stale bytes. *)
Definition empty_queue (stale : Z -> Z) : insnq := mk_insnq INSNQ_CURR_VERSION 0 0 stale.

(** Space a request needs. *)
Definition req_size (r : req) : Z :=
  match r with
  | RWrite _ bs => 8 * ((16 + zlen bs + 7) / 8)
  | RPrint s => 4 * ((4 + zlen s + 1 + 3) / 4)
  end.

Definition total_size (rs : list req) : Z := fold_right Z.add 0 (map req_size rs).

(** In-process execution of requests, ignoring protections. *)
Definition lperform (t : ltgt) (r : req) : ltgt :=
  match r with
  | RWrite a bs => mk_ltgt (mem_write (l_mem t) a bs) (l_prot t) (l_out t)
  | RPrint s => mk_ltgt (l_mem t) (l_prot t) (l_out t ++ [s])
  end.

(** Base address of the page containing [x], for pages of [ps] bytes. *)
Definition page_of (ps x : Z) : Z := ps * (x / ps).

(** Every page from the first written byte up to the byte just after the last
    one is mapped. *)
Definition span_mapped (ps : Z) (prot : Z -> option Z) (a n : Z) : Prop :=
  forall x, a <= x <= a + n -> prot (page_of ps x) <> None.

(** A complete instruction at [pc] inside the first [size] bytes, the next one
    starting at [next]. *)
Definition complete_insn (buf : Z -> Z) (size pc next : Z) : Prop :=
  0 <= pc /\ pc + 4 <= size /\
  ((buf pc = ULP_INSN_NOP /\ next = pc + 4) \/
   (buf pc = ULP_INSN_PRINT /\
    (exists j, pc + 4 <= j < size /\ buf j = 0) /\
    next = pc + insn_size_at buf pc) \/
   (buf pc = ULP_INSN_WRITE /\
    0 <= le_dec (mem_read buf (pc + 4) 4) /\
    pc + 16 + le_dec (mem_read buf (pc + 4) 4) <= size /\
    next = pc + insn_size_at buf pc)).

(** A queue content that is a sequence of [k] complete instructions which lie
    inside the first [size] bytes and end exactly there. *)
Fixpoint well_formed (k : nat) (buf : Z -> Z) (size pc : Z) : Prop :=
  match k with
  | O => pc = size
  | S k' => exists next, complete_insn buf size pc next /\ well_formed k' buf size next
  end.

(** A queue content that starts with complete instructions and then shows an
    opcode that does not exist, or whose instructions do not end at [size]. *)
Fixpoint malformed (k : nat) (buf : Z -> Z) (size pc : Z) : Prop :=
  match k with
  | O => pc <> size
  | S k' =>
      (0 <= pc < size /\
       buf pc <> ULP_INSN_NOP /\ buf pc <> ULP_INSN_PRINT /\ buf pc <> ULP_INSN_WRITE) \/
      exists next, complete_insn buf size pc next /\ malformed k' buf size next
  end.
