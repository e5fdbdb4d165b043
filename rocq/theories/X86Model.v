(** x86_64 redirection of a function entry (lib/arch/x86_64/patch.c). *)
From Verif Require Import Base InsnQModel.

(** configure.ac:240-241: -fpatchable-function-entry=16,14 on x86_64. *)
Definition ULP_NOPS_LEN : Z := 16.
Definition PRE_NOPS_LEN : Z := 14.
(** include/error_common.h:57, ENOPATCHABLE. *)
Definition ENOPATCHABLE : Z := 278.

(** include/arch/x86_64/arch_common.h, INSN_ENDBR64; patch.c:34. *)
Definition insn_endbr64 : list Z := [243; 15; 30; 250].

(** patch.c:39, ULP_DATA_OFFSET. *)
Definition ULP_DATA_OFFSET : Z := 6.

(** A char constant stored in a byte. *)
Definition to_byte (v : Z) : Z := v mod 256.

(** patch.c:41-48, ulp_prologue. *)
Definition ulp_prologue : list Z :=
  [255; 37; 0; 0; 0; 0] ++ [0; 0; 0; 0; 0; 0; 0; 0] ++
  [235; to_byte (- (PRE_NOPS_LEN + 2))].

(** patch.c:50, ULP_NOPS_LEN_ENDBR64, and 53-61, ulp_prologue_endbr64. *)
Definition ULP_NOPS_LEN_ENDBR64 : Z := ULP_NOPS_LEN + 4.
Definition ulp_prologue_endbr64 : list Z :=
  [255; 37; 0; 0; 0; 0] ++ [0; 0; 0; 0; 0; 0; 0; 0] ++
  insn_endbr64 ++ [235; to_byte (- (PRE_NOPS_LEN + 2 + 4))].

(** memcmp(addr, insn_endbr64, 4) == 0 (patch.c:95, 127). *)
Definition is_endbr64 (m : mem) (f : Z) : bool :=
  bytes_eqb (mem_read m f 4) insn_endbr64.

(** lib/ulp.c:78-86, memwrite: queue a write; every caller ignores the result. The
    pair is (instruction queue, error state). *)
Definition memwrite (qe : insnq * Z) (dest : Z) (src : list Z) : insnq * Z :=
  fst (insert_write_st (fst qe) (snd qe) dest src).

(** patch.c:91-101, ulp_skip_prologue. *)
Definition ulp_skip_prologue (m : mem) (qe : insnq * Z) (fentry : Z) : insnq * Z :=
  let bias := if is_endbr64 m fentry then 4 else 0 in
  memwrite qe (u64 (fentry + bias)) [102; 144].

(** patch.c:155-161: the template with the target address stored at
    ULP_DATA_OFFSET. *)
Definition patched_prologue (prologue : list Z) (new_faddr : Z) : list Z :=
  firstn (Z.to_nat ULP_DATA_OFFSET) prologue ++ le_enc 8 new_faddr ++
  skipn (Z.to_nat (ULP_DATA_OFFSET + 8)) prologue.

(** patch.c:138-146: the bytes looked at start after endbr64, if present. *)
Definition looks_patchable (m : mem) (f : Z) : bool :=
  let a := if is_endbr64 m f then f + 4 else f in
  (m a =? 235) || ((m (a + 1) =? 144) && ((m a =? 144) || (m a =? 102))).

(** patch.c:115-169, ulp_patch_addr: (queue, error state) and the returned
    code. [m] is the memory of the process, which libpulp reads directly. *)
Definition ulp_patch_addr (m : mem) (qe : insnq * Z) (old_faddr new_faddr : Z) (enable : bool)
  : (insnq * Z) * Z :=
  let prologue := if is_endbr64 m old_faddr then ulp_prologue_endbr64 else ulp_prologue in
  if negb (looks_patchable m old_faddr) then (qe, ENOPATCHABLE)
  else
    let addr := u64 (old_faddr - PRE_NOPS_LEN) in
    if enable then (memwrite qe addr (patched_prologue prologue new_faddr), 0)
    else (ulp_skip_prologue m qe old_faddr, 0).
