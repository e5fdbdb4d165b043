(** The post command (tools/post.c, tools/arch/x86_64/post-arch.c), which merges the
    entry nops of livepatchable functions, the tool's test for livepatchable
    functions, and embedding metadata into a container (tools/elf-extra.c). *)
From Verif Require Import Base InsnQModel LibModel DlModel X86Model PtModel.

(** ** Merging nops *)

(** A section with its address and contents, and a symbol. *)
Record esec := mk_esec { es_addr : Z; es_data : list Z }.
Record esym := mk_esym { sy_value : Z; sy_shndx : Z }.

(** How a run ends: a failed assertion ends the program before the file is
    written, so that the file is left alone. *)
Inductive pres := PO_ok (s : list esec) | PO_abort | PO_ub.

Definition upd (l : list Z) (p v : Z) : list Z :=
  firstn (Z.to_nat p) l ++ v :: skipn (Z.to_nat (p + 1)) l.
Fixpoint put (secs : list esec) (i : nat) (p v : Z) : list esec :=
  match secs, i with
  | [], _ => []
  | s :: t, O => mk_esec (es_addr s) (upd (es_data s) p v) :: t
  | s :: t, S j => s :: put t j p v
  end.

(** tools/arch/x86_64/post-arch.c:42-103, merge_nops_at_addr. [syms] are the entries
    of .symtab, or of .dynsym if there is no .symtab, or none if there is
    neither. *)
Definition merge_nops_at_addr (syms : list esym) (secs : list esec) (addr amount : Z) : pres :=
  if negb (amount =? 2) then PO_ok secs
  else
    match find (fun s => sy_value s =? addr) syms with
    | None => PO_ok secs
    | Some s =>
        match nth_error secs (Z.to_nat (sy_shndx s)) with
        | None => PO_abort
        | Some sec =>
            let offset := u64 (addr - es_addr sec) in
            match sub_bytes (es_data sec) offset 4 with
            | None => PO_ub
            | Some b4 =>
                let p := if bytes_eqb b4 insn_endbr64 then offset + 4 else offset in
                match sub_bytes (es_data sec) p 2 with
                | Some [b0; b1] =>
                    if (b1 =? 144) && ((b0 =? 144) || (b0 =? 102))
                    then PO_ok (put secs (Z.to_nat (sy_shndx s)) p 102)
                    else PO_abort
                | _ => PO_ub
                end
            end
        end
    end.

(** tools/post.c:84-115, nops_fixup. [entries] are the words of
    __patchable_function_entries; that section and the symbol table are taken not
    to be changed by the merging itself. *)
Fixpoint nops_fixup (syms : list esym) (entries : list Z) (secs : list esec) : pres :=
  match entries with
  | [] => PO_ok secs
  | e :: t =>
      match merge_nops_at_addr syms secs (u64 (e + PRE_NOPS_LEN)) (ULP_NOPS_LEN - PRE_NOPS_LEN) with
      | PO_ok secs' => nops_fixup syms t secs'
      | r => r
      end
  end.

(** ** Is a function livepatchable? *)

(** tools/arch/x86_64/post-arch.c:117-133, check_preamble; [readable]: read_memory
    succeeds. *)
Definition check_preamble (readable : bool) (m : mem) (a : Z) : bool :=
  readable && ((m a =? 144) || (m a =? 102)) && (m (a + 1) =? 144).

(** tools/patches.c:478-500, the loop of is_library_livepatchable over the symbols:
    their values, [None] if one cannot be read. [None] as result: the variable ret
    was never set. *)
Fixpoint livepatchable_loop (readable : Z -> bool) (m : mem) (base : Z) (syms : list (option Z)) (ret : option bool)
  : option bool :=
  match syms with
  | [] => ret
  | None :: _ => Some false
  | Some v :: t =>
      let a := u64 (base + v) in
      if check_preamble (readable a) m a then Some true
      else livepatchable_loop readable m base t (Some false)
  end.

(** tools/patches.c:458-507, is_library_livepatchable. [loaded]: a livepatch for the
    library is loaded. *)
Definition is_library_livepatchable (loaded attached detached : bool) (readable : Z -> bool) (m : mem) (base : Z)
                                    (syms : list (option Z)) : option bool :=
  if loaded then Some true
  else if negb attached then Some false
  else if negb detached then Some false
  else livepatchable_loop readable m base (firstn (Z.to_nat 8000) syms) None.

(** ** Embedding metadata *)

(** tools/elf-extra.c:137-196, embed_patch_metadata_into_elf: [objcopy_there] is
    access() = 0, [loads] load_elf, [arg_len] the result of snprintf, [exec] that
    execv starts objcopy, and [wi] the status stored by waitpid. The exit status is
    taken of [ret] instead of [wi]. If execv fails the child of vfork returns from
    the function ([E_ub]). *)
Definition WEXITSTATUS (s : Z) : Z := Z.land (s / 256) 255.
Definition ENOENT : Z := 2.
Definition EINVAL : Z := 22.
Inductive eres := E_ret (r : Z) | E_ub.
Definition embed_patch_metadata_into_elf (objcopy_there loads : bool) (arg_len : Z) (exec : bool) (wi : Z) : eres :=
  if negb objcopy_there then E_ret ENOENT
  else if negb loads then E_ret EINVAL
  else if 120 <=? arg_len then E_ret EOVERFLOW
  else if negb exec then E_ub
  else
    let ret := 0 in
    E_ret (if WIFEXITED wi then WEXITSTATUS ret else ret).
