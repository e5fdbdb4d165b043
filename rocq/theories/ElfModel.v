(** libpulp's own ELF reader (lib/minielf.c) and the entry points for gdb
    (lib/gdb_interface.c). *)
From Coq Require Import String.
From Verif Require Import Base StrModel InsnQModel MetaModel DlModel LibModel.

(** ** Reading a file *)

(** read(2) of [n] bytes of a regular file at position [pos]: what is there, at most up to
    the end. Reads are not interrupted and the file does not change meanwhile. *)
Definition rd (file : list Z) (pos n : Z) : list Z := firstn (Z.to_nat n) (skipn (Z.to_nat pos) file).

(** lseek(2) to the offset [off] (an Elf64_Off passed as off_t): a negative one is refused
    and the position stays. *)
Definition seek (pos off : Z) : Z := if off <? 2 ^ 63 then off else pos.

(** A field of [n] bytes at [off] of a structure. *)
Definition field (b : list Z) (off n : nat) : Z := le_dec (firstn n (skipn off b)).

(** The fields of Elf64_Ehdr and Elf64_Shdr (elf.h) that are used. *)
Record ehdr := mk_ehdr { h_shoff : Z; h_shentsize : Z; h_shnum : Z; h_shstrndx : Z }.
Record shdr := mk_shdr { sh_name : Z; sh_offset : Z; sh_size : Z }.

Definition ehdr_of (b : list Z) : ehdr := mk_ehdr (field b 40 8) (field b 58 2) (field b 60 2) (field b 62 2).
Definition shdr_of (b : list Z) : shdr := mk_shdr (field b 0 4) (field b 24 8) (field b 32 8).

(** include/minielf.h:32, STRTBL_SIZE_MAX. *)
Definition STRTBL_SIZE_MAX : Z := 1280.

(** lib/minielf.c:52-71, Elf_Parse_Ehdr; the position is 64 afterwards. *)
Definition Elf_Parse_Ehdr (file : list Z) : option ehdr :=
  let b := rd file 0 64 in
  if negb (zlen b =? 64) then None
  else if negb (bytes_eqb (firstn 4 b) [127; 69; 76; 70]) then None
  else Some (ehdr_of b).

(** lib/minielf.c:107-133, Elf_Get_Shdr, the loop at position [pos] with [n] headers to go,
    the next one being number [i]: the header and the position. The header size
    is 64, see [Get_Elf_Section]. *)
Fixpoint get_shdr (file : list Z) (pos : Z) (n : nat) (i index : Z) : option shdr * Z :=
  match n with
  | O => (None, pos)
  | S n' =>
      let b := rd file pos 64 in
      if negb (zlen b =? 64) then (None, pos + zlen b)
      else if index =? i then (Some (shdr_of b), pos + 64)
      else get_shdr file (pos + 64) n' (i + 1) index
  end.

(** The string table buffer of STRTBL_SIZE_MAX bytes: [None] is a byte that has never been
    written. *)
Definition strbuf := list (option Z).
Definition fill (b : list Z) : strbuf := map Some b ++ repeat None (Z.to_nat STRTBL_SIZE_MAX - length b).

(** lib/minielf.c:136-169, Elf_Load_Strtbl: the buffer (the length returned is not looked
    at by the caller) and the position. *)
Definition Elf_Load_Strtbl (file : list Z) (pos : Z) (h : ehdr) : strbuf * Z :=
  let pos1 := seek pos (h_shoff h) in
  match get_shdr file pos1 (Z.to_nat (h_shnum h)) 0 (h_shstrndx h) with
  | (None, pos2) => (fill [], pos2)
  | (Some s, pos2) =>
      if sh_size s >? STRTBL_SIZE_MAX then (fill [], pos2)
      else
        let pos3 := seek pos2 (sh_offset s) in
        let b := rd file pos3 (sh_size s) in
        (fill b, pos3 + zlen b)
  end.

(** strcmp(name, p) = 0 where [buf] is what lies at p; [None]: bytes that were never
    written or lie outside the buffer are read. *)
Fixpoint strcmp_buf (name : list Z) (buf : strbuf) : option bool :=
  match buf with
  | [] | None :: _ => None
  | Some b :: t =>
      match name with
      | [] => Some (b =? 0)
      | c :: name' => if c =? b then strcmp_buf name' t else Some false
      end
  end.

Inductive found := F_UB | F_none | F_shdr (s : shdr) (pos : Z).

(** lib/minielf.c:77-102, Elf_Get_Shdr_By_Name, the loop. *)
Fixpoint get_shdr_by_name (file : list Z) (pos : Z) (n : nat) (name : list Z) (strtbl : strbuf) : found :=
  match n with
  | O => F_none
  | S n' =>
      let b := rd file pos 64 in
      if negb (zlen b =? 64) then F_none
      else
        let s := shdr_of b in
        match strcmp_buf name (skipn (Z.to_nat (sh_name s)) strtbl) with
        | None => F_UB
        | Some true => F_shdr s (pos + 64)
        | Some false => get_shdr_by_name file (pos + 64) n' name strtbl
        end
  end.

(** What Get_Elf_Section does: [G_err c]: the negated error code; [G_ok]: the bytes now in
    the destination (whose length is the result). On errors the destination may have
    been partly overwritten; the callers give up then. *)
Inductive gres := G_UB | G_err (c : Z) | G_ok (data : list Z).

Definition ENOENT : Z := 2.
Definition EINVAL : Z := 22.
Definition EINVALIDULP : Z := 266.

(** lib/minielf.c:196-242, Get_Elf_Section with Elf_Load_Section (172-193), on the
    content of the file ([None]: it cannot be opened). The first component tells
    whether an assertion has failed (it sets libpulp's error state and goes on).
    With headers of another size than Elf64_Shdr the code goes on and reads them
    into a structure of the wrong size; as soon as there is a header this counts as
    undefined behaviour. *)
Definition Get_Elf_Section (dest_size : Z) (name : list Z) (file : option (list Z)) : bool * gres :=
  match file with
  | None => (false, G_err ENOENT)
  | Some f =>
      match Elf_Parse_Ehdr f with
      | None => (false, G_err EINVAL)
      | Some h =>
          let bad := negb (h_shentsize h =? 64) in
          if bad && negb (h_shnum h =? 0) then (bad, G_UB)
          else
            let (strtbl, pos) := Elf_Load_Strtbl f 64 h in
            match get_shdr_by_name f (seek pos (h_shoff h)) (Z.to_nat (h_shnum h)) name strtbl with
            | F_UB => (bad, G_UB)
            | F_none => (bad, G_err EINVAL)
            | F_shdr s pos' =>
                if sh_size s >? dest_size then (bad, G_err EINVAL)
                else
                  let b := rd f (seek pos' (sh_offset s)) (sh_size s) in
                  if negb (zlen b =? sh_size s) || (sh_size s =? 0) then (bad, G_err EINVAL)
                  else (bad, G_ok b)
            end
      end
  end.

(** ** The gdb interface *)

(** lib/gdb_interface.c:96-157, gdb_ulp_apply ([name] = ".ulp") and gdb_ulp_revert (".ulp.rev"):
    libpulp's state, the process and the result. [ps], [env]: page size and results
    of system calls of the in-process interpreter. *)
Definition gdb_ulp (ps : Z) (env : nat -> lw_env) (busy : bool) (e : dlenv) (junk : Z)
    (name : list Z) (file : option (list Z)) (path : list Z) (st : lstate) (t : ltgt)
  : option (lstate * ltgt * Z) :=
  let (failed, g) := Get_Elf_Section ULP_METADATA_BUF_LEN name file in
  let st0 := if failed then set_err st EUNKNOWN else st in
  match g with
  | G_UB => None
  | G_err c => Some (st0, t, c)
  | G_ok data =>
      let buf := data ++ repeat 0 (Z.to_nat (ULP_METADATA_BUF_LEN - zlen data)) in
      match inject_lp_path buf path (zlen data) with
      | P_UB | P_fuel | P_err _ => None
      | P_ok (r, buf') =>
          if negb (r =? 0) then Some (st0, t, EINVALIDULP)
          else
            match ulp_apply_patch busy e (l_mem t) junk buf' st0 with
            | None => None
            | Some (st1, ret) =>
                if negb (ret =? 0) then Some (st1, t, ret)
                else
                  match insnq_interpret_from_lib ps env (s_q st1) t with
                  | None => None
                  | Some (ret2, q', t') => Some (set_qe st1 (q', s_err st1), t', ret2)
                  end
            end
      end
  end.
