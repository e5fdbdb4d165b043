(** How the tool looks into a process: the objects loaded into it, the entry
    points of libpulp, the list of applied patches (tools/introspection.c) and
    their display (tools/patches.c). *)
From Coq Require Import String.
From Verif Require Import Base StrModel InsnQModel LibModel MetaModel DlModel PtModel NtModel TextModel.

(** The target: which bytes can be read and what they are; a bound on the number
    of iterations of any loop (used up: [I_hang]) and the contents of fresh words. *)
Record target := mk_target { t_ok : Z -> bool; t_mem : mem; t_fuel : nat; t_junk : list Z }.

(** read_memory of [n] bytes ([None]: error; see [NtModel.rd]) and read_string. *)
Definition trd (t : target) (a : Z) (n : nat) : option (list Z) := rd (t_ok t) (t_mem t) a n.
Definition tstr (t : target) (a : Z) : rsres :=
  read_string (t_fuel t) (t_fuel t) (t_ok t) (t_mem t) (t_junk t) a.

(** A field of [n] bytes at offset [off] of a structure. *)
Definition fld (l : list Z) (off n : nat) : Z := le_dec (firstn n (skipn off l)).

(** How a step ends: a value; an error answer; endless; undefined behaviour. *)
Inductive iout (A : Type) :=
| I_ok (a : A)
| I_err (code : Z)
| I_hang
| I_ub.
Arguments I_ok {A}. Arguments I_err {A}. Arguments I_hang {A}. Arguments I_ub {A}.

Definition ibind {A B} (x : iout A) (f : A -> iout B) : iout B :=
  match x with
  | I_ok a => f a
  | I_err c => I_err c
  | I_hang => I_hang
  | I_ub => I_ub
  end.

(** include/error_common.h:38-64, some error codes (others are in LibModel). *)
Definition ENOLIBPULP : Z := 263.
Definition EAGAIN : Z := 11.
Definition EINVAL : Z := 22.
Definition ENOPENTRY : Z := 262.
Definition ENOPHDR : Z := 261.
Definition ENODEBUGTAG : Z := 259.
Definition ENOLINKMAP : Z := 260.
Definition EOLDLIBPULP : Z := 281.

(** ** Locating the link map *)

(** One program header: p_type, p_vaddr, p_memsz (elf.h, Elf64_Phdr, 56 bytes). *)
Definition ph_type (p : list Z) : Z := fld p 0 4.
Definition ph_vaddr (p : list Z) : Z := fld p 16 8.
Definition ph_memsz (p : list Z) : Z := fld p 40 8.

(** tools/introspection.c:1085-1091, the last value of one type in the auxiliary
    vector (0 if there is none). The vector is what /proc/PID/auxv holds in front
    of the closing AT_NULL; that it can be read and has that entry is assumed. *)
Fixpoint aux_val (auxv : list (Z * Z)) (ty : Z) (v : Z) : Z :=
  match auxv with
  | [] => v
  | (k, x) :: t => aux_val t ty (if k =? ty then x else v)
  end.
Definition AT_PHDR : Z := 3.
Definition AT_PHENT : Z := 4.
Definition AT_PHNUM : Z := 5.
Definition AT_ENTRY : Z := 9.

(** tools/introspection.c:1116-1130, the loop over the program headers: [n] are left,
    the next one is number [i]. *)
Definition PT_DYNAMIC : Z := 2.
Definition PT_NOTE : Z := 4.
Definition PT_PHDR : Z := 6.
Fixpoint bias_loop (t : target) (at_phdr : Z) (n : nat) (i : Z) (pt_phdr adyn : Z) : iout (Z * Z) :=
  match n with
  | O => I_ok (pt_phdr, adyn)
  | S n' =>
      match trd t (u64 (at_phdr + i * 56)) 56 with
      | None => I_err ETARGETHOOK
      | Some p =>
          let pt_phdr' := if ph_type p =? PT_PHDR then ph_vaddr p else pt_phdr in
          let adyn' := if ph_type p =? PT_DYNAMIC then ph_vaddr p else adyn in
          bias_loop t at_phdr n' (i + 1) pt_phdr' adyn'
      end
  end.

(** tools/introspection.c:1046-1143, dig_load_bias: process->load_bias and
    process->dyn_addr. *)
Definition dig_load_bias (t : target) (auxv : list (Z * Z)) : iout (Z * Z) :=
  let entry := aux_val auxv AT_ENTRY 0 in
  let at_phdr := aux_val auxv AT_PHDR 0 in
  let phnum := s32 (aux_val auxv AT_PHNUM 0) in
  let phent := s32 (aux_val auxv AT_PHENT 0) in
  if entry =? 0 then I_err ENOPENTRY
  else if at_phdr =? 0 then I_err ENOPHDR
  else if negb (phent =? 56) then I_err ENOPHDR
  else ibind (bias_loop t at_phdr (Z.to_nat phnum) 0 0 0) (fun r =>
    let '(pt_phdr, adyn) := r in
    if pt_phdr =? 0 then I_ok (0, adyn)
    else I_ok (u64 (at_phdr - pt_phdr), u64 (adyn + (at_phdr - pt_phdr)))).

(** struct link_map (link.h), 40 bytes: l_addr, l_name, l_next. *)
Definition lm_addr (l : list Z) : Z := fld l 0 8.
Definition lm_name (l : list Z) : Z := fld l 8 8.
Definition lm_next (l : list Z) : Z := fld l 24 8.

(** tools/introspection.c:386-402, the search for DT_DEBUG. *)
Definition DT_NULL : Z := 0.
Definition DT_HASH : Z := 4.
Definition DT_STRTAB : Z := 5.
Definition DT_SYMTAB : Z := 6.
Definition DT_DEBUG : Z := 21.
Fixpoint find_r_debug (f : nat) (t : target) (dyn_addr : Z) : iout Z :=
  match f with
  | O => I_hang
  | S f' =>
      match trd t dyn_addr 16 with
      | None => I_err ETARGETHOOK
      | Some d =>
          if fld d 0 8 =? DT_NULL then I_err ENODEBUGTAG
          else if fld d 0 8 =? DT_DEBUG then I_ok (fld d 8 8)
          else find_r_debug f' t (u64 (dyn_addr + 16))
      end
  end.

(** tools/introspection.c:377-420, dig_main_link_map: the main program's link_map.
    r_map is at offset 8 of struct r_debug. *)
Definition dig_main_link_map (t : target) (dyn_addr : Z) : iout (list Z) :=
  ibind (find_r_debug (t_fuel t) t dyn_addr) (fun r_debug =>
    match trd t (u64 (r_debug + 8)) 8 with
    | None => I_err ETARGETHOOK
    | Some p =>
        match trd t (le_dec p) 40 with
        | None => I_err ETARGETHOOK
        | Some lm => I_ok lm
        end
    end).

(** ** The objects *)

(** struct ulp_dynobj (tools/introspection.h:60-100). The addresses of libpulp's
    symbols are numbered by the bit get_libpulp_extern_symbols uses for them:
    0 trigger, 1 check, 2 state, 3 global, 4 msg_queue, 5 revert_all,
    6 metadata_buffer, 7 error_state, 8 enable_disable_patching, 9 insn_queue,
    10 libpulp_version. *)
Record dynobj := mk_dynobj {
  o_filename : list Z;
  o_l_addr : Z;
  o_l_name : Z;
  o_dynsym : Z;
  o_dynstr : Z;
  o_nsyms : Z;
  o_buildid : list Z;
  o_ext : list Z
}.
Definition no_ext : list Z := repeat 0 11.
Definition ext (o : dynobj) (bit : nat) : Z := nth bit (o_ext o) 0.

(** tools/introspection.c:1239-1270, get_libname_dynobj: the new object and the
    address of the next link_map. calloc gives a zeroed object. *)
Definition get_libname_dynobj (t : target) (a : Z) : iout (dynobj * Z) :=
  match trd t a 40 with
  | None => I_err 1
  | Some lm =>
      match tstr t (lm_name lm) with
      | RsErr => I_err 1
      | RsHang => I_hang
      | RsOob => I_ub
      | RsOk buf =>
          I_ok (mk_dynobj (cstr_z buf) (lm_addr lm) (lm_name lm) 0 0 0 (repeat 0 20) no_ext, lm_next lm)
      end
  end.

(** tools/introspection.c:1286-1293, the walk over the link map; an entry that cannot
    be read ends it. The result is in the order of the walk; [targets] is the list
    that the code builds from it by inserting at the front. *)
Fixpoint walk_link_map (f : nat) (t : target) (a : Z) : iout (list dynobj) :=
  match f with
  | O => I_hang
  | S f' =>
      if a =? 0 then I_ok []
      else match get_libname_dynobj t a with
           | I_err _ => I_ok []
           | I_hang => I_hang
           | I_ub => I_ub
           | I_ok (o, next) => ibind (walk_link_map f' t next) (fun l => I_ok (o :: l))
           end
  end.
Definition is_libpulp (o : dynobj) : bool := strstr (o_filename o) (zs "libpulp.so").

(** ** The header of the main program *)

(** strtok(s, d) for a one-character set of delimiters: the token and where the
    next call continues. *)
Fixpoint skip_ch (d : Z) (s : list Z) : list Z :=
  match s with
  | x :: t => if x =? d then skip_ch d t else s
  | [] => []
  end.
Fixpoint split_ch (d : Z) (s : list Z) : list Z * list Z :=
  match s with
  | [] => ([], [])
  | x :: t => if x =? d then ([], t) else let (a, b) := split_ch d t in (x :: a, b)
  end.
Definition tok (d : Z) (s : list Z) : option (list Z) * list Z :=
  match skip_ch d s with
  | [] => (None, [])
  | s' => let (a, b) := split_ch d s' in (Some a, b)
  end.

(** strtoul(s, NULL, 16) of a string starting with a hexadecimal digit (as every
    line of /proc/PID/maps does). *)
Fixpoint hex_val (s : list Z) (v : Z) : Z :=
  match s with
  | c :: t => match unhex c with Some d => hex_val t (16 * v + d) | None => v end
  | [] => v
  end.
Definition strtoul16 (s : list Z) : Z := Z.min (hex_val s 0) (2 ^ 64 - 1).

(** tools/introspection.c:553-576, one line of /proc/PID/maps (with its newline): the
    address if the line is for a file with that base name. A missing path makes
    get_basename(NULL) crash; an empty base name makes bin_name[bin_len - 1] read
    far outside. *)
Definition maps_line (line main : list Z) : iout (option Z) :=
  let (addr1, r1) := tok 45 line in
  let (_, r2) := tok 32 r1 in
  let (_, r3) := tok 32 r2 in
  let (_, r4) := tok 32 r3 in
  let (_, r5) := tok 32 r4 in
  let (_, r6) := tok 32 r5 in
  let (path, _) := tok 32 r6 in
  match path with
  | None => I_ub
  | Some p =>
      let b := get_basename p in
      match b with
      | [] => I_ub
      | _ =>
          let b' := if last b 0 =? 10 then removelast b else b in
          if bytes_eqb b' main
          then match addr1 with Some s => I_ok (Some (strtoul16 s)) | None => I_ub end
          else I_ok None
      end
  end.
Fixpoint maps_scan (lines : list (list Z)) (main : list Z) : iout Z :=
  match lines with
  | [] => I_ok 0
  | l :: t =>
      match maps_line l main with
      | I_ok (Some a) => I_ok a
      | I_ok None => maps_scan t main
      | I_err c => I_err c
      | I_hang => I_hang
      | I_ub => I_ub
      end
  end.

(** tools/introspection.c:532-588, get_ehdr_addr. [maps]: the lines of /proc/PID/maps
    ([None]: cannot be opened); [main]: the main program's file name. *)
Definition get_ehdr_addr (maps : option (list (list Z))) (main : list Z) (o : dynobj) : iout Z :=
  if negb (o_l_addr o =? 0) then I_ok (o_l_addr o)
  else match maps with
       | None => I_ok 0
       | Some ls => maps_scan ls main
       end.

(** ** ELF headers of a loaded object *)

(** tools/introspection.c:666-706, the dynamic section: dynsym, dynstr and hash
    address; the walk stops when the three are known, or after DT_NULL. *)
Fixpoint dyn_walk (f : nat) (t : target) (a : Z) (dsym dstr hash : Z) : iout (Z * Z * Z) :=
  match f with
  | O => I_hang
  | S f' =>
      match trd t a 16 with
      | None => I_err ETARGETHOOK
      | Some d =>
          let tag := fld d 0 8 in
          let v := fld d 8 8 in
          let dsym' := if tag =? DT_SYMTAB then v else dsym in
          let dstr' := if tag =? DT_STRTAB then v else dstr in
          let hash' := if tag =? DT_HASH then v else hash in
          if negb (dsym' =? 0) && negb (dstr' =? 0) && negb (hash' =? 0) then I_ok (dsym', dstr', hash')
          else if tag =? DT_NULL then I_ok (dsym', dstr', hash')
          else dyn_walk f' t (u64 (a + 16)) dsym' dstr' hash'
      end
  end.

(** What the loop over the program headers has found so far: the three addresses of
    the dynamic section, and the build ID's address and length. *)
Record hstate := mk_hs { hs_dsym : Z; hs_dstr : Z; hs_hash : Z; hs_bid : option (Z * Z) }.
Definition dynamic_ran (h : hstate) : bool :=
  negb (hs_dsym h =? 0) && negb (hs_dstr h =? 0) && negb (hs_hash h =? 0).

(** tools/introspection.c:653-750, the loop over the program headers. *)
Fixpoint header_loop (t : target) (l_addr phdr_addr : Z) (n : nat) (i : Z) (h : hstate) : iout hstate :=
  match n with
  | O => I_ok h
  | S n' =>
      match trd t (u64 (phdr_addr + i * 56)) 56 with
      | None => I_err ETARGETHOOK
      | Some p =>
          ibind
            (if (ph_type p =? PT_DYNAMIC) && negb (dynamic_ran h) then
               ibind (dyn_walk (t_fuel t) t (u64 (l_addr + ph_vaddr p)) (hs_dsym h) (hs_dstr h) (hs_hash h))
                     (fun r => let '(a, b, c) := r in I_ok (mk_hs a b c (hs_bid h)))
             else if (ph_type p =? PT_NOTE) then
               match hs_bid h with
               | Some _ => I_ok h
               | None =>
                   let a := u64 (l_addr + ph_vaddr p) in
                   match tool_note_walk (t_fuel t) (t_ok t) (t_mem t) a (u64 (a + u32 (ph_memsz p))) with
                   | W_fuel => I_hang
                   | W_error => I_err ETARGETHOOK
                   | W_none => I_ok h
                   | W_found b len => I_ok (mk_hs (hs_dsym h) (hs_dstr h) (hs_hash h) (Some (b, len)))
                   end
               end
             else I_ok h)
            (fun h' =>
               if dynamic_ran h' && (match hs_bid h' with Some _ => true | None => false end) then I_ok h'
               else header_loop t l_addr phdr_addr n' (i + 1) h')
      end
  end.

(** tools/introspection.c:603-803, parse_dynobj_elf_headers; both callers ignore the
    answer, so that on an error the object is left as it is. *)
Definition parse_dynobj_elf_headers (t : target) (maps : option (list (list Z))) (main : list Z) (o : dynobj)
  : iout dynobj :=
  if o_l_name o =? 0 then I_err ENOLINKMAP
  else ibind (get_ehdr_addr maps main o) (fun ehdr_addr =>
    match trd t ehdr_addr 64 with
    | None => I_err ETARGETHOOK
    | Some eh =>
        if negb (fld eh 54 2 =? 56) then I_err ENOPHDR
        else
          ibind (header_loop t (o_l_addr o) (u64 (ehdr_addr + fld eh 32 8)) (Z.to_nat (fld eh 56 2)) 0
                             (mk_hs 0 0 0 None)) (fun h =>
            let bid :=
              match hs_bid h with
              | Some (a, len) =>
                  if negb (a =? 0) && (len =? BUILDID_LEN)
                  then match trd t a 20 with Some d => d | None => o_buildid o end
                  else o_buildid o
              | None => o_buildid o
              end in
            if hs_hash h =? 0
            then I_ok (mk_dynobj (o_filename o) (o_l_addr o) (o_l_name o) (hs_dsym h) (hs_dstr h) 0 bid (o_ext o))
            else match trd t (u64 (hs_hash h + 4)) 4 with
                 | None => I_err ETARGETHOOK
                 | Some n =>
                     I_ok (mk_dynobj (o_filename o) (o_l_addr o) (o_l_name o) (hs_dsym h) (hs_dstr h)
                                     (s32 (le_dec n)) bid (o_ext o))
                 end)
    end).
Definition parse_ignoring (t : target) (maps : option (list (list Z))) (main : list Z) (o : dynobj) : iout dynobj :=
  match parse_dynobj_elf_headers t maps main o with
  | I_err _ => I_ok o
  | r => r
  end.

(** ** libpulp's symbols *)

(** tools/introspection.c:898-940, what follows "__ulp" in the names looked for, in
    the order of their bits. *)
Definition ext_names : list (list Z) :=
  [ zs "_trigger"; zs "_check_patched"; zs "_state"; zs "_get_global_universe"; zs "_msg_queue";
    zs "_revert_all"; zs "_metadata_buffer"; zs "_error_state"; zs "_enable_or_disable_patching";
    zs "_insn_queue"; zs "_version" ].
Fixpoint index_of (names : list (list Z)) (s : list Z) : option nat :=
  match names with
  | [] => None
  | n :: t => if bytes_eqb n s then Some O
              else match index_of t s with Some i => Some (S i) | None => None end
  end.
Fixpoint set_nth (l : list Z) (i : nat) (v : Z) : list Z :=
  match l, i with
  | [], _ => []
  | _ :: t, O => v :: t
  | x :: t, S j => x :: set_nth t j v
  end.

(** tools/introspection.c:860-954, the loop of get_libpulp_extern_symbols: [n] symbols
    are left, the next one is at [sym]; [ext] what has been found, [seen] the bits.
    An error ends the loop with what has been found. Reading the version cannot be
    told from failing to read it (line 936): the buffer is then uninitialised, here
    [t_junk]. The name buffer holds 64 bytes; a name that fills it is compared
    beyond its end only if it agrees with one of the names, which are shorter. *)
Fixpoint ext_loop (n : nat) (t : target) (base sym str : Z) (ext : list Z) (seen : list bool) : iout (list Z) :=
  match n with
  | O => I_ok ext
  | S n' =>
      match trd t sym 4 with
      | None => I_ok ext
      | Some nm =>
          match trd t (u64 (str + le_dec nm)) 5 with
          | None => I_ok ext
          | Some p =>
              if negb (bytes_eqb p (zs "__ulp"))
              then ext_loop n' t base (u64 (sym + 24)) str ext seen
              else
                match read_string_allocated (t_fuel t) (t_ok t) (t_mem t) (t_junk t)
                        (u64 (str + le_dec nm + 5)) (p ++ repeat 0 59) with
                | None => I_hang
                | Some (r, buf) =>
                    if negb (r =? 0) then I_ok ext
                    else
                      match trd t sym 24 with
                      | None => I_ok ext
                      | Some s =>
                          let addr := u64 (base + fld s 8 8) in
                          match index_of ext_names (cstr_z buf) with
                          | None => ext_loop n' t base (u64 (sym + 24)) str ext seen
                          | Some i =>
                              ibind
                                (if (i =? 10)%nat
                                 then match read_string_allocated (t_fuel t) (t_ok t) (t_mem t) (t_junk t)
                                              addr (repeat 0 32) with
                                      | None => I_hang
                                      | Some (_, vb) => I_ok (ulp_version_from_string (cstr_z vb))
                                      end
                                 else I_ok addr)
                                (fun v =>
                                   let ext' := set_nth ext i v in
                                   let seen' := firstn i seen ++ true :: skipn (S i) seen in
                                   if forallb (fun b => b) seen' then I_ok ext'
                                   else ext_loop n' t base (u64 (sym + 24)) str ext' seen')
                          end
                      end
                end
          end
      end
  end.

(** tools/introspection.c:841-954, get_libpulp_extern_symbols. *)
Definition get_libpulp_extern_symbols (t : target) (o : dynobj) : iout dynobj :=
  if (o_dynsym o =? 0) || (o_dynstr o =? 0) || (o_nsyms o <=? 0) then I_ok o
  else ibind (ext_loop (Z.to_nat (o_nsyms o)) t (o_l_addr o) (o_dynsym o) (o_dynstr o) (o_ext o) (repeat false 11))
         (fun e => I_ok (mk_dynobj (o_filename o) (o_l_addr o) (o_l_name o) (o_dynsym o) (o_dynstr o)
                                   (o_nsyms o) (o_buildid o) e)).

(** tools/introspection.c:1188-1236, parse_lib_dynobj (called with the main program
    known); the second component: process->dynobj_libpulp is set to this object. *)
Definition complete (o : dynobj) : bool :=
  forallb (fun b => negb (ext o b =? 0)) [0; 1; 2; 3; 5; 6]%nat.
Definition parse_lib_dynobj (t : target) (maps : option (list (list Z))) (main : list Z) (o : dynobj)
  : iout (dynobj * bool) :=
  if (0 <? o_nsyms o) && (0 <? o_dynstr o) && (0 <? o_dynsym o) then I_ok (o, false)
  else
    ibind (if bytes_eqb (o_filename o) (zs "linux-vdso.so.1") || bytes_eqb (o_filename o) (zs "linux-vdso64.so.1")
           then I_ok o else parse_ignoring t maps main o) (fun o' =>
      if is_libpulp o'
      then ibind (get_libpulp_extern_symbols t o') (fun o2 => I_ok (o2, complete o2))
      else I_ok (o', false)).

(** tools/introspection.c:1311-1318, the loop over the objects; [i] is the index of
    the next one, [cur] the index of process->dynobj_libpulp. *)
Fixpoint parse_targets (t : target) (maps : option (list (list Z))) (main : list Z) (i cur : nat) (l : list dynobj)
  : iout (list dynobj * nat) :=
  match l with
  | [] => I_ok ([], cur)
  | o :: rest =>
      ibind (if (i =? cur)%nat then I_ok (o, false) else parse_lib_dynobj t maps main o) (fun r =>
        let '(o', b) := r in
        ibind (parse_targets t maps main (S i) (if b then i else cur) rest) (fun r2 =>
          I_ok (o' :: fst r2, snd r2)))
  end.

Fixpoint find_index (p : dynobj -> bool) (l : list dynobj) : option nat :=
  match l with
  | [] => None
  | o :: t => if p o then Some O else match find_index p t with Some i => Some (S i) | None => None end
  end.
Fixpoint put_obj (l : list dynobj) (i : nat) (o : dynobj) : list dynobj :=
  match l, i with
  | [], _ => []
  | _ :: t, O => o :: t
  | x :: t, S j => x :: put_obj t j o
  end.

(** tools/introspection.c:1279-1321, parse_libs_dynobj. dynobj_targets is built by
    inserting at the front, so that the last object whose name contains libpulp.so
    is the first one in it. *)
Definition parse_libs_dynobj (t : target) (maps : option (list (list Z))) (main : list Z) (first : Z)
  : iout (list dynobj * nat) :=
  ibind (walk_link_map (t_fuel t) t first) (fun walked =>
    let targets := rev walked in
    match find_index is_libpulp targets with
    | None => I_err ENOLIBPULP
    | Some cur =>
        match nth_error targets cur with
        | None => I_ub
        | Some o =>
            ibind (parse_lib_dynobj t maps main o) (fun r =>
              parse_targets t maps main 0 cur (put_obj targets cur (fst r)))
        end
    end).

(** struct ulp_process, as far as it is used here. *)
Record process := mk_process { p_main : dynobj; p_targets : list dynobj; p_libpulp : nat }.
Definition p_objects (p : process) : list dynobj := p_main p :: p_targets p.
Definition the_libpulp (p : process) : option dynobj := nth_error (p_targets p) (p_libpulp p).

(** What /proc tells about the target: auxv, maps, and comm (the name of the main
    program, at most 15 characters, see proc(5)). *)
Record procfs := mk_procfs { pf_auxv : list (Z * Z); pf_maps : option (list (list Z)); pf_comm : list Z }.

(** tools/introspection.c:1150-1186, parse_main_dynobj, followed by 1323-1375,
    initialize_data_structures. [attached]: attach succeeds; the answer of detach is
    ignored. get_target_binary_name (common/common.c:116-145) is the base name of
    comm up to a newline; that /proc/PID/comm can be read is assumed. *)
Definition upto_newline (s : list Z) : list Z := fst (split_ch 10 s).
Definition initialize_data_structures (t : target) (pf : procfs) (attached : bool) : iout process :=
  if negb attached then I_err ETARGETHOOK
  else
    let main := upto_newline (get_basename (pf_comm pf)) in
    ibind (dig_load_bias t (pf_auxv pf)) (fun b =>
    ibind (dig_main_link_map t (snd b)) (fun lm =>
    ibind (parse_ignoring t (pf_maps pf) main
             (mk_dynobj main (lm_addr lm) (lm_name lm) 0 0 0 (repeat 0 20) no_ext)) (fun mo =>
    ibind (parse_libs_dynobj t (pf_maps pf) main (lm_next lm)) (fun r =>
    match nth_error (fst r) (snd r) with
    | None => I_ub
    | Some lp =>
        match trd t (ext lp 2) 16 with
        | None => I_err EAGAIN
        | Some st => if fld st 0 1 =? 0 then I_err EAGAIN
                     else I_ok (mk_process mo (fst r) (snd r))
        end
    end)))).

(** ** The list of applied patches *)

(** A char pointer read from the target: NULL, the string read, or (if reading it
    failed) still the address in the target. *)
Inductive rstr := R_null | R_str (s : list Z) | R_remote (a : Z).
Record apatch := mk_apatch { ap_id : list Z; ap_lib : rstr; ap_container : rstr; ap_timestamp : Z }.

(** tools/introspection.c:2560-2568, the strings of a patch. *)
Definition read_name (t : target) (a : Z) : iout rstr :=
  if a =? 0 then I_ok R_null
  else match tstr t a with
       | RsOk buf => I_ok (R_str (cstr_z buf))
       | RsErr => I_ok (R_remote a)
       | RsOob => I_ub
       | RsHang => I_hang
       end.

(** tools/introspection.c:2536-2579, read_ulp_applied_patch. struct ulp_applied_patch
    (include/ulp_common.h:190-209) has 80 bytes, without the timestamp 72; calloc
    leaves the timestamp 0. That calloc fails is left out. *)
Fixpoint read_ulp_applied_patch (f : nat) (t : target) (a version : Z) : iout (list apatch) :=
  match f with
  | O => I_hang
  | S f' =>
      if a =? 0 then I_ok []
      else
        let size := if version <? ULP_VERSION_TRIPLET 0 3 1 then 72%nat else 80%nat in
        match trd t a size with
        | None => I_ok []
        | Some b0 =>
            let b := b0 ++ repeat 0 (80 - size) in
            ibind (read_name t (fld b 32 8)) (fun lib =>
            ibind (read_name t (fld b 40 8)) (fun cont =>
            ibind (read_ulp_applied_patch f' t (fld b 56 8) version) (fun rest =>
              I_ok (mk_apatch (firstn 32 b) lib cont (fld b 72 8) :: rest))))
        end
  end.

(** tools/introspection.c:2614-2648, ulp_read_state. struct ulp_patching_state has 16
    bytes, patches at offset 8. *)
Definition ulp_read_state (t : target) (attached : bool) (p : process) : iout (list apatch) :=
  match the_libpulp p with
  | None => I_ok []
  | Some lp =>
      if ext lp 2 =? 0 then I_ok []
      else if negb attached then I_ok []
      else match trd t (ext lp 2) 16 with
           | None => I_ok []
           | Some st => read_ulp_applied_patch (t_fuel t) t (fld st 8 8) (ext lp 10)
           end
  end.

(** tools/introspection.c:2661-2689, get_libpulp_error_state_remote (of a process with
    a libpulp object); ulp_error_t has four bytes. *)
Definition get_libpulp_error_state_remote (t : target) (p : process) : Z :=
  match the_libpulp p with
  | None => ENOLIBPULP
  | Some lp =>
      if negb (ext lp 7 =? 0)
      then match trd t (ext lp 7) 4 with None => EUNKNOWN | Some b => le_dec b end
      else if negb (ext lp 0 =? 0) then EOLDLIBPULP
      else EUNKNOWN
  end.

(** ** Labels *)

(** isdigit, isalpha and tolower in the C locale. *)
Definition is_digit (c : Z) : bool := (48 <=? c) && (c <=? 57).
Definition is_alpha (c : Z) : bool := ((65 <=? c) && (c <=? 90)) || ((97 <=? c) && (c <=? 122)).
Definition lower (c : Z) : Z := if (65 <=? c) && (c <=? 90) then c + 32 else c.

(** strncasecmp(head, p, 4) == 0 at the start of [s], the rest of the buffer: reading
    stops at the first difference or at a NUL, so that it leaves the buffer only if
    what is left of the buffer is an initial part of [p] ([None]). *)
Fixpoint casecmp (s p : list Z) {struct p} : option bool :=
  match p with
  | [] => Some true
  | y :: p' =>
      match s with
      | [] => None
      | x :: s' => if lower x =? y then casecmp s' p' else Some false
      end
  end.

(** The characters satisfying [q] at the start of the rest of the buffer, and what
    follows them; [None]: the end of the buffer was passed. No NUL satisfies [q]. *)
Fixpoint run_of (q : Z -> bool) (s : list Z) : option (list Z * list Z) :=
  match s with
  | [] => None
  | c :: t => if q c then match run_of q t with Some (a, b) => Some (c :: a, b) | None => None end
              else Some ([], s)
  end.

(** tools/patches.c:306-360: the optional second part, "-" and digits. *)
Definition dash_digits (s : list Z) : option (list Z * list Z) :=
  match s with
  | [] => None
  | c :: t => if c =? 45 then match run_of is_digit t with Some (a, b) => Some (c :: a, b) | None => None end
              else Some ([], s)
  end.

(** tools/patches.c:305-356: does a label start here? Its text and what follows it. *)
Inductive lab := L_oob | L_none | L_label (txt rest : list Z).
Definition label_here (s : list Z) : lab :=
  match casecmp s (zs "bsc#") with
  | None => L_oob
  | Some true =>
      match run_of is_digit (skipn 4 s) with
      | None => L_oob
      | Some (a, r) => L_label (firstn 4 s ++ a) r
      end
  | Some false =>
      match casecmp s (zs "jsc#") with
      | None => L_oob
      | Some true =>
          match run_of is_alpha (skipn 4 s) with
          | None => L_oob
          | Some (a, r) =>
              match dash_digits r with
              | None => L_oob
              | Some (b, r') => L_label (firstn 4 s ++ a ++ b) r'
              end
          end
      | Some false =>
          match casecmp s (zs "cve-") with
          | None => L_oob
          | Some true =>
              match run_of is_digit (skipn 4 s) with
              | None => L_oob
              | Some (a, r) =>
                  match dash_digits r with
                  | None => L_oob
                  | Some (b, r') => L_label (firstn 4 s ++ a ++ b) r'
                  end
              end
          | Some false => L_none
          end
      end
  end.

(** tools/patches.c:300-370, the loop of print_relevant_labels over the contents of
    .ulp.comments: the labels printed. The character after a label is replaced by
    NUL and stepped over, also when it already was the closing NUL (line 360).
    [None]: reads outside the buffer. *)
Fixpoint labels_loop (f : nat) (s : list Z) : iout (list (list Z)) :=
  match f with
  | O => I_hang
  | S f' =>
      match s with
      | [] => I_ub
      | c :: t =>
          if c =? 0 then I_ok []
          else match label_here s with
               | L_oob => I_ub
               | L_none => labels_loop f' t
               | L_label txt r => ibind (labels_loop f' (tl r)) (fun l => I_ok (txt :: l))
               end
      end
  end.
(** [sec]: the section ([None]: none, or empty). *)
Definition relevant_labels (sec : option (list Z)) : iout (list (list Z)) :=
  match sec with
  | None => I_ok []
  | Some s => labels_loop (S (List.length s)) s
  end.

(** ** The listing *)

(** What is printed for one livepatch: the base name of its container, its timestamp
    if it is not 0, its labels. *)
Record shown_patch := mk_sp { sp_name : list Z; sp_time : option Z; sp_labels : list (list Z) }.
(** For one library: name, patches. *)
Record shown_lib := mk_sl { sl_name : list Z; sl_patches : list shown_patch }.

(** tools/patches.c:378-396, print_lib_patches; [comments]: the contents of the section
    .ulp.comments of a container. *)
Fixpoint print_lib_patches (comments : list Z -> option (list Z)) (l : list apatch) (libname : list Z)
  : iout (list shown_patch) :=
  match l with
  | [] => I_ok []
  | p :: t =>
      match ap_lib p with
      | R_str n =>
          if bytes_eqb (get_basename libname) n
          then match ap_container p with
               | R_str c =>
                   ibind (relevant_labels (comments c)) (fun labs =>
                   ibind (print_lib_patches comments t libname) (fun rest =>
                     I_ok (mk_sp (get_basename c) (if ap_timestamp p =? 0 then None else Some (ap_timestamp p)) labs
                           :: rest)))
               | _ => I_ub
               end
          else print_lib_patches comments t libname
      | _ => I_ub
      end
  end.

(** tools/patches.c:408-427, has_livepatch_loaded. *)
Fixpoint has_livepatch_loaded (l : list apatch) (libname : list Z) : iout bool :=
  match l with
  | [] => I_ok false
  | p :: t =>
      match ap_lib p with
      | R_str n => if bytes_eqb (get_basename libname) n then I_ok true else has_livepatch_loaded t libname
      | _ => I_ub
      end
  end.

(** tools/patches.c:551-574, the loop of print_process over the objects. [nops]: what
    is_library_livepatchable (see PostModel) finds out about an object for which no
    livepatch is loaded. *)
Fixpoint list_objects (comments : list Z -> option (list Z)) (nops : dynobj -> bool) (ps : list apatch)
                      (objs : list dynobj) : iout (list shown_lib) :=
  match objs with
  | [] => I_ok []
  | o :: t =>
      ibind (has_livepatch_loaded ps (o_filename o)) (fun b =>
        if b || nops o
        then ibind (print_lib_patches comments ps (o_filename o)) (fun sp =>
             ibind (list_objects comments nops ps t) (fun rest =>
               I_ok (mk_sl (o_filename o) sp :: rest)))
        else list_objects comments nops ps t)
  end.

(** tools/patches.c:510-537, print_remote_err_status: the three kinds of status. *)
Inductive status := St_enabled | St_disabled_by_user | St_error (code : Z).
Definition remote_status (state : Z) : status :=
  if (state =? 0) || (state =? EOLDLIBPULP) then St_enabled
  else if state =? EUSRBLOCKED then St_disabled_by_user
  else St_error state.

(** tools/patches.c:540-579, print_process: [None]: the process is skipped. *)
Definition print_process (t : target) (comments : list Z -> option (list Z)) (nops : dynobj -> bool)
                         (attached only_livepatched : bool) (p : process)
  : iout (option (status * list shown_lib)) :=
  ibind (ulp_read_state t attached p) (fun ps =>
    if only_livepatched && (match ps with [] => true | _ => false end) then I_ok None
    else ibind (list_objects comments nops ps (p_objects p)) (fun l =>
      I_ok (Some (remote_status (get_libpulp_error_state_remote t p), l)))).

(** ** Is a thread inside the target library? (ENABLE_STACK_CHECK) *)

(** tools/introspection.c:2396-2412, library_range_detect over the lines of
    /proc/PID/maps: lowest and highest address of the lines containing [library]. *)
Fixpoint range_loop (lines : list (list Z)) (library : list Z) (lo hi : Z) : Z * Z :=
  match lines with
  | [] => (lo, hi)
  | l :: t =>
      if strstr l library then
        let a1 := strtoul16 l in
        let a2 := strtoul16 (snd (split_ch 45 l)) in
        range_loop t library (if a1 <? lo then a1 else lo) (if hi <? a2 then a2 else hi)
      else range_loop t library lo hi
  end.
Definition library_range_detect (lines : list (list Z)) (library : list Z) : Z * Z :=
  range_loop lines library (2 ^ 64 - 1) 0.

(** tools/introspection.c:2474-2500, the frames of one thread as libunwind delivers
    them; [None]: libunwind fails at this point. *)
Fixpoint stack_in_range (lo hi : Z) (frames : list (option Z)) : iout bool :=
  match frames with
  | [] => I_ok false
  | None :: _ => I_err (-1)
  | Some pc :: t => if (lo <? pc) && (pc <? hi) then I_ok true else stack_in_range lo hi t
  end.
Fixpoint threads_in_range (lo hi : Z) (ths : list (list (option Z))) : iout bool :=
  match ths with
  | [] => I_ok false
  | fr :: t => ibind (stack_in_range lo hi fr) (fun b => if b then I_ok true else threads_in_range lo hi t)
  end.

(** tools/introspection.c:2436-2520, coarse_library_range_check: 0, 1, or -1 on
    error. [maps] as before. *)
Definition coarse_library_range_check (maps : option (list (list Z))) (library : list Z)
                                      (ths : list (list (option Z))) : Z :=
  match maps with
  | None => -1
  | Some ls =>
      let (lo, hi) := library_range_detect ls library in
      match threads_in_range lo hi ths with
      | I_ok true => 1
      | I_ok false => 0
      | _ => -1
      end
  end.
