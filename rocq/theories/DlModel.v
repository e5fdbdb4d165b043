(** What libpulp sees of the dynamic linker: the loaded objects as
    dl_iterate_phdr presents them, symbol lookup (lib/symbol_loader.c) and the
    build-id check (lib/ulp.c). *)
From Coq Require Import String.
From Verif Require Import Base StrModel.

(** One loaded object.
    [lb_syms]: the symbols (name, st_value) of .dynsym that DT_HASH makes
    visible, [None] when DT_SYMTAB or DT_STRTAB is missing. Without DT_HASH the
    list is empty (symbol_loader.c:208-223: num_symbols stays 0).
    [lb_notes]: its PT_NOTE segments: the bytes that can be read from the start
    of the segment, and p_filesz.
    Not modelled: DT_SYMENT different from 24 and a dl_phdr_info of unexpected
    size (both only set the error state). *)
Record lib := mk_lib {
  lb_name : list Z;
  lb_base : Z;
  lb_tls : Z;
  lb_syms : option (list (list Z * Z));
  lb_notes : list (list Z * Z)
}.

Definition vdso_name : list Z := zs "linux-vdso.so.1".

(** lib/symbol_loader.c:65-78, get_symbol_by_name: st_value of the first symbol
    with this name; 0 (a NULL symbol_addr) if there is none. *)
Fixpoint get_symbol_by_name (syms : list (list Z * Z)) (name : list Z) : Z :=
  match syms with
  | [] => 0
  | (n, v) :: t => if bytes_eqb n name then v else get_symbol_by_name t name
  end.

(** lib/symbol_loader.c:141-245, dl_find_symbol driven by dl_iterate_phdr:
    symbol_addr and bias_addr at the end of the iteration. *)
Fixpoint dl_find_symbol (libs : list lib) (library symbol : list Z) : Z * Z :=
  match libs with
  | [] => (0, 0)
  | l :: t =>
      if negb (strstr (lb_name l) library) then dl_find_symbol t library symbol
      else if bytes_eqb (lb_name l) vdso_name then dl_find_symbol t library symbol
      else match lb_syms l with
           | None => dl_find_symbol t library symbol
           | Some syms => (get_symbol_by_name syms symbol, lb_base l)
           end
  end.

(** lib/symbol_loader.c:268-270, 335-337, 351-353: the program itself has an
    empty name. [prog] is __progname. *)
Definition lib_arg (prog library : list Z) : list Z :=
  if bytes_eqb library prog then [] else library.

(** lib/symbol_loader.c:263-295, get_loaded_symbol_addr_size (the size is not
    modelled); 0 is NULL. *)
Definition get_loaded_symbol_addr (prog : list Z) (libs : list lib)
    (library symbol : list Z) (old_faddr : Z) : Z :=
  let '(symbol_addr, bias) := dl_find_symbol libs (lib_arg prog library) symbol in
  if negb (old_faddr =? 0) && negb (symbol_addr =? old_faddr) then u64 (bias + old_faddr)
  else if symbol_addr =? 0 then 0
  else u64 (bias + symbol_addr).

(** lib/symbol_loader.c:298-328, dl_find_base_addr driven by dl_iterate_phdr:
    bias_addr and tls_index. They are 0 when there is no object at all and
    (0xFF, -1) when none matches. *)
Fixpoint dl_find_base_addr_go (libs : list lib) (library : list Z) (acc : Z * Z) : Z * Z :=
  match libs with
  | [] => acc
  | l :: t =>
      if bytes_eqb (lb_name l) vdso_name then dl_find_base_addr_go t library (255, -1)
      else if negb (strstr (lb_name l) library) then dl_find_base_addr_go t library (255, -1)
      else (lb_base l, lb_tls l)
  end.

Definition dl_find_base_addr (libs : list lib) (library : list Z) : Z * Z :=
  dl_find_base_addr_go libs library (0, 0).

(** lib/symbol_loader.c:330-344, get_loaded_library_base_addr. *)
Definition get_loaded_library_base_addr (prog : list Z) (libs : list lib) (library : list Z) : Z :=
  fst (dl_find_base_addr libs (lib_arg prog library)).

(** lib/symbol_loader.c:346-359, get_loaded_library_tls_index. *)
Definition get_loaded_library_tls_index (prog : list Z) (libs : list lib) (library : list Z) : Z :=
  snd (dl_find_base_addr libs (lib_arg prog library)).

(** ** Build-id check *)

(** <elf.h>, NT_GNU_BUILD_ID. *)
Definition NT_GNU_BUILD_ID : Z := 3.
(** sizeof(struct build_id_note), lib/ulp.c:963-977. *)
Definition SIZEOF_BUILD_ID_NOTE : Z := 16.

(** lib/ulp.c:988, ALIGN on uint32_t. *)
Definition align32 (val : Z) : Z := Z.land (u32 (val + 3)) (2 ^ 32 - 4).

(** Outcome of the walk over one segment: read outside the mapped bytes, or
    whether the comparison declared a match. *)
Inductive nres := N_UB | N_fuel | N_match (b : bool).

(** [sub seg pos n]: [n] bytes at [pos] of the mapped bytes. *)
Definition sub_bytes (seg : list Z) (pos n : Z) : option (list Z) :=
  if (0 <=? pos) && (pos + n <=? zlen seg)
  then Some (firstn (Z.to_nat n) (skipn (Z.to_nat pos) seg))
  else None.

Definition u32_at (seg : list Z) (pos : Z) : option Z :=
  match sub_bytes seg pos 4 with Some l => Some (le_dec l) | None => None end.

(** lib/ulp.c:999-1018, the loop of compare_build_ids over one segment. The
    result of memcmp is used as it is written: non-zero counts as a match. *)
Fixpoint note_loop (fuel : nat) (seg : list Z) (pos size : Z) (bid_len : Z) (bid : list Z) : nres :=
  match fuel with
  | O => N_fuel
  | S fuel' =>
      if negb (SIZEOF_BUILD_ID_NOTE <=? size) then N_match false
      else match u32_at seg pos, u32_at seg (pos + 4), u32_at seg (pos + 8) with
      | Some namesz, Some descsz, Some type =>
          if (type =? NT_GNU_BUILD_ID) && (namesz =? 4) && (16 <=? descsz) then
            if descsz =? bid_len then
              match sub_bytes seg (pos + 16) descsz with
              | None => N_UB
              | Some d => N_match (negb (bytes_eqb bid d))
              end
            else N_match false
          else
            let offset := 12 + align32 namesz + align32 descsz in
            note_loop fuel' seg (pos + offset) (size - offset) bid_len bid
      | _, _, _ => N_UB
      end
  end.

(** lib/ulp.c:983-1024, compare_build_ids on the PT_NOTE segments of one
    object. *)
Fixpoint compare_build_ids (notes : list (list Z * Z)) (bid_len : Z) (bid : list Z) : nres :=
  match notes with
  | [] => N_match false
  | (seg, filesz) :: t =>
      match note_loop (S (length seg)) seg 0 filesz bid_len bid with
      | N_match false => compare_build_ids t bid_len bid
      | r => r
      end
  end.

(** lib/ulp.c:1034-1045, check_build_id: build_id_check after visiting the
    objects in order. *)
Fixpoint check_build_id (libs : list lib) (bid_len : Z) (bid : list Z) : nres :=
  match libs with
  | [] => N_match false
  | l :: t =>
      match compare_build_ids (lb_notes l) bid_len bid with
      | N_match false => check_build_id t bid_len bid
      | r => r
      end
  end.
