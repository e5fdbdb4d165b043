(** ppc64le redirection of a function entry (lib/arch/powerpc64le/patch.c and the
    template in lib/arch/powerpc64le/ulp_prologue.S). *)
From Verif Require Import Base InsnQModel.

(** lib/arch/powerpc64le/patch.c:44, INSN_SIZE; configure.ac:248, PRE_NOPS_LEN. *)
Definition INSN_SIZE : Z := 4.
Definition PPC_PRE_NOPS_LEN : Z := 13.
(** include/error_common.h:57. *)
Definition PPC_ENOPATCHABLE : Z := 278.

(** patch.c:69, gNop. *)
Definition gNop : list Z := [0; 0; 0; 96].

(** patch.c:72-76, generate_branch_to_prologue; stored little-endian. *)
Definition generate_branch_to_prologue (offset : Z) : Z :=
  Z.lor (Z.land (u32 offset) 16777215) (Z.shiftl 75 24).

(** patch.c:78, WITH_OFFSET. *)
Definition WITH_OFFSET (offset : Z) : Z := - (INSN_SIZE * PPC_PRE_NOPS_LEN + offset).

(** ulp_prologue.S:250-275, the template as assembled, for trampoline_routine at
    [T]. The four 16-bit fields are the relocations highest, higher, high and
    l of [T], which the dynamic linker has filled in. *)
Definition ulp_prologue_words (T : Z) : list Z :=
  [ 4171366392                                   (* std    r5,-8(r1)    f8a1fff8 *)
  ; 4173463536                                   (* std    r6,-16(r1)   f8c1fff0 *)
  ; 1017118720 + (T / 2 ^ 48) mod 2 ^ 16         (* lis    r5,highest   3ca0xxxx *)
  ; 1621426176 + (T / 2 ^ 32) mod 2 ^ 16         (* ori    r5,r5,higher 60a5xxxx *)
  ; 1031798784 + (T / 2 ^ 16) mod 2 ^ 16         (* lis    r12,high     3d80xxxx *)
  ; 1636564992 + T mod 2 ^ 16                    (* ori    r12,r12,l    618cxxxx *)
  ; 2024538126                                   (* rldimi r12,r5,32,0  78ac000e *)
  ; 2106131366                                   (* mtctr  r12          7d8903a6 *)
  ; 2091385510                                   (* mflr   r5           7ca802a6 *)
  ; 1207959557                                   (* bl     .+4          48000005 *)
  ; 1317012512                                   (* bctr                4e800420 *)
  ].
Definition ppc_ulp_prologue (T : Z) : list Z :=
  concat (map (le_enc 4) (ulp_prologue_words T)) ++ repeat 0 8.

(** patch.c:59-63, ulp_prologue_new_function_offset: 11 instructions precede it. *)
Definition NEW_FUNCTION_OFFSET : Z := 44.

(** lib/ulp.c:78-86, memwrite. *)
Definition ppc_memwrite (qe : insnq * Z) (dest : Z) (src : list Z) : insnq * Z :=
  fst (insert_write_st (fst qe) (snd qe) dest src).

(** patch.c:91-109, ulp_patch_prologue_layout. *)
Definition prologue_for (T new_fentry : Z) : list Z :=
  firstn (Z.to_nat NEW_FUNCTION_OFFSET) (ppc_ulp_prologue T) ++ le_enc 8 new_fentry ++
  skipn (Z.to_nat (NEW_FUNCTION_OFFSET + 8)) (ppc_ulp_prologue T).
Definition ulp_patch_prologue_layout (T : Z) (qe : insnq * Z) (old new_fentry : Z) : insnq * Z :=
  ppc_memwrite qe (u64 (old - INSN_SIZE * PPC_PRE_NOPS_LEN))
    (firstn (Z.to_nat (INSN_SIZE * PPC_PRE_NOPS_LEN)) (prologue_for T new_fentry)).

(** patch.c:117-146, get_branch_offset; [None] is -INT_MAX. *)
Definition offset_matches (m : mem) (f off : Z) : bool :=
  bytes_eqb (mem_read m (f + off) 4) gNop ||
  bytes_eqb (mem_read m (f + off) 4) (le_enc 4 (generate_branch_to_prologue (WITH_OFFSET off))).
Definition get_branch_offset (m : mem) (f : Z) : option Z :=
  if offset_matches m f 0 then Some 0
  else if offset_matches m f 8 then Some 8
  else None.

(** patch.c:162-174, ulp_skip_prologue. *)
Definition ppc_skip_prologue (m : mem) (qe : insnq * Z) (f : Z) : (insnq * Z) * Z :=
  match get_branch_offset m f with
  | None => (qe, PPC_ENOPATCHABLE)
  | Some off => (ppc_memwrite qe (u64 (f + off)) gNop, 0)
  end.

(** patch.c:184-197, ulp_patch_addr_trampoline. *)
Definition ulp_patch_addr_trampoline (m : mem) (qe : insnq * Z) (f : Z) : (insnq * Z) * Z :=
  match get_branch_offset m f with
  | None => (qe, PPC_ENOPATCHABLE)
  | Some off => (ppc_memwrite qe (u64 (f + off)) (le_enc 4 (generate_branch_to_prologue (WITH_OFFSET off))), 0)
  end.

(** patch.c:211-226, ulp_patch_addr. [T]: address of trampoline_routine. *)
Definition ppc_patch_addr (T : Z) (m : mem) (qe : insnq * Z) (old new_faddr : Z) (enable : bool)
  : (insnq * Z) * Z :=
  if enable then ulp_patch_addr_trampoline m (ulp_patch_prologue_layout T qe old new_faddr) old
  else ppc_skip_prologue m qe old.
