(** Text handling shared by libpulp and its tools: version numbers, error
    messages, build IDs, temporary paths, and the JSON description of a
    library. *)
From Coq Require Import String.
From Verif Require Import Base StrModel.

(** '.' *)
Definition DOT : Z := 46.

(** isdigit() in the C locale. *)
Definition isdigit (c : Z) : bool := (48 <=? c) && (c <=? 57).

(** common/common.c:168-181, isnumber; [None] is the NULL pointer. *)
Definition isnumber (str : option (list Z)) : bool :=
  match str with
  | None => false
  | Some [] => false
  | Some s => forallb isdigit s
  end.

(** The value strtol() accumulates over a string of digits. *)
Definition dec_val (s : list Z) : Z := fold_left (fun v c => 10 * v + (c - 48)) s 0.

(** glibc's atoi on a string of digits only: (int) strtol(s, NULL, 10), where
    strtol stops at LONG_MAX.  (The only caller passes strings accepted by
    isnumber.) *)
Definition atoi (s : list Z) : Z := s32 (Z.min (dec_val s) (2 ^ 63 - 1)).

(** strtok(str, "."): skip the dots, then take what comes before the next dot;
    the remainder is what the next call with NULL continues from. *)
Fixpoint skip_dots (s : list Z) : list Z :=
  match s with
  | x :: t => if x =? DOT then skip_dots t else s
  | [] => []
  end.

Fixpoint span_dot (s : list Z) : list Z * list Z :=
  match s with
  | [] => ([], [])
  | x :: t => if x =? DOT then ([], t)
              else let (a, b) := span_dot t in (x :: a, b)
  end.

Definition strtok_dot (s : list Z) : option (list Z) * list Z :=
  match skip_dots s with
  | [] => (None, [])
  | s' => let (a, b) := span_dot s' in (Some a, b)
  end.

(** include/ulp_common.h:239, ULP_VERSION_TRIPLET on uint64_t operands. *)
Definition ULP_VERSION_TRIPLET (a b c : Z) : Z :=
  u64 (c + Z.shiftl b 16 + Z.shiftl a 32).

(** common/common.c:588-602, the loop of ulp_version_from_string: [n] components
    still to be read; [None] is one of the early returns of 0. *)
Fixpoint version_loop (n : nat) (s : list Z) (ver : list Z) : option (list Z) :=
  match n with
  | O => Some ver
  | S n' =>
      let (number, rest) := strtok_dot s in
      match number with
      | Some t =>
          if negb (isnumber (Some t)) then None
          else let v := u64 (atoi t) in
               if 65535 <? v then None
               else version_loop n' rest (ver ++ [v])
      | None => None
      end
  end.

(** common/common.c:583-605, ulp_version_from_string. *)
Definition ulp_version_from_string (str : list Z) : Z :=
  match version_loop 3 str [] with
  | Some [a; b; c] => ULP_VERSION_TRIPLET a b c
  | _ => 0
  end.

(** printf's %hu / %u of a non-negative number below 10^20. *)
Fixpoint dec_go (fuel : nat) (n : Z) (acc : list Z) : list Z :=
  match fuel with
  | O => acc
  | S f => if n <? 10 then (48 + n) :: acc
           else dec_go f (n / 10) ((48 + n mod 10) :: acc)
  end.
Definition print_dec (n : Z) : list Z := dec_go 20 n [].

(** common/common.c:607-618, ulp_version_as_string. *)
Definition ulp_version_as_string (ver : Z) : list Z :=
  let a := Z.shiftr (Z.land ver 0xFFFF00000000) 32 in
  let b := Z.shiftr (Z.land ver 0xFFFF0000) 16 in
  let c := Z.land ver 0xFFFF in
  print_dec a ++ [DOT] ++ print_dec b ++ [DOT] ++ print_dec c.

(** include/error_common.h:77-113, __ULP_ERRLIST.  The last two string literals
    of the source have no comma between them, so the compiler joins them into
    one element. *)
Definition ULP_ERRLIST : list (list Z) :=
  [ zs "Unknown error";
    zs "Build ID mismatch";
    zs "Error attaching to process";
    zs "Process without debug tag";
    zs "No link map in object";
    zs "Invalid program header";
    zs "Unable to find process entry address";
    zs "Libpulp not found in target process";
    zs "Thread attach failure";
    zs "Thread dettach failure";
    zs "Invalid .ulp file";
    zs "To be patched function not found";
    zs "New function not found";
    zs "No metadata in .so";
    zs "State update failure";
    zs "Unable to retrieve ulp state";
    zs "Patch not applied";
    zs "Dependency failure";
    zs "Address read error";
    zs "Patch already applied";
    zs "Target library not loaded";
    zs "libpulp.so hook routine not run";
    zs "Function is not livepatchable";
    zs "No file matched wildcard";
    zs "Livepatching blocked by user request";
    zs "Libpulp version is too old";
    zs "Libpulp initialization failure";
    zs "Page permission error";
    zs "No patches installed";
    zs "Instruction queue in inconsistent state";
    zs "ULP tool is too old";
    zs "Failure in dlopen";
    zs "Libdl not found." ++ zs "Libc not found or unsupported." ].

(** common/common.c:94-106, libpulp_strerror.  [strerror] is the C library's
    function, an argument of the model. *)
Definition libpulp_strerror (strerror : Z -> list Z) (errnum : Z) : list Z :=
  if (255 <? errnum) && (errnum <? 256 + zlen ULP_ERRLIST)
  then nth (Z.to_nat (Z.land errnum 255)) ULP_ERRLIST []
  else strerror errnum.

(** ** Build IDs *)

(** A hexadecimal digit as printf's %x writes it. *)
Definition hexdigit (d : Z) : Z := if d <? 10 then 48 + d else 87 + d.

(** common/common.c:80-92, buildid_to_string: "%02x" of each of the 20 bytes. *)
Definition buildid_to_string (id : list Z) : list Z :=
  flat_map (fun b => [hexdigit (b / 16); hexdigit (b mod 16)]) id.

(** The value of a hexadecimal digit as scanf's %x reads it. *)
Definition unhex (c : Z) : option Z :=
  if (48 <=? c) && (c <=? 57) then Some (c - 48)
  else if (97 <=? c) && (c <=? 102) then Some (c - 87)
  else if (65 <=? c) && (c <=? 70) then Some (c - 55)
  else None.

(** What str_to_buildid can come to: EINVAL, the bytes of the build ID, or
    undefined behaviour: sscanf given a pointer past the string's terminator, or
    converting nothing and leaving [val] uninitialised. *)
Inductive idres :=
| IdInvalid
| IdOk (id : list Z)
| IdUB.

(** sscanf(s, "%02x", &val), of which only the case of two hexadecimal digits is
    modelled in full; what a sign, white space, a 0x prefix or a single digit
    would give is lumped together with the failures as undefined.  [s] is what
    is left of the string, [None] once the pointer is past its terminator. *)
Definition scan_hex2 (s : list Z) : option Z :=
  match s with
  | a :: b :: _ => match unhex a, unhex b with
                   | Some x, Some y => Some (16 * x + y)
                   | _, _ => None
                   end
  | _ => None
  end.

(** tools/extract.c:59-64, the loop: [n] bytes still to be converted. *)
Fixpoint str_to_buildid_loop (n : nat) (s : list Z) : option (list Z) :=
  match n with
  | O => Some []
  | S n' => match scan_hex2 s with
            | None => None
            | Some v => match str_to_buildid_loop n' (skipn 2 s) with
                        | None => None
                        | Some r => Some (v :: r)
                        end
            end
  end.

(** tools/extract.c:49-67, str_to_buildid. *)
Definition str_to_buildid (str : list Z) : idres :=
  if zlen str <? 20 then IdInvalid
  else match str_to_buildid_loop 20 str with
       | Some id => IdOk id
       | None => IdUB
       end.

(** ** Temporary paths *)

(** What create_path_to_tmp_file has done after a number of rounds. *)
Inductive tmpres :=
| TmpPath (p : list Z)
| TmpNull
| TmpRunning.

(** common/common.c:193-225, create_path_to_tmp_file.  [random i] is the outcome
    of the [i]th getrandom() ([None]: it failed), [exists_ p] whether the path
    can be opened, [fuel] how many rounds of the loop are run.  [conflict] is the
    C variable, which no round resets. *)
Fixpoint tmp_loop (random : nat -> option Z) (exists_ : list Z -> bool)
    (fuel i : nat) (conflict : bool) : tmpres :=
  match fuel with
  | O => TmpRunning
  | S f =>
      match random i with
      | None => TmpNull
      | Some token =>
          let buffer := firstn 23 (zs "/tmp/ulp-" ++ print_dec token) in
          let conflict' := if exists_ buffer then true else conflict in
          if conflict' then tmp_loop random exists_ f (S i) conflict'
          else TmpPath buffer
      end
  end.

Definition create_path_to_tmp_file random exists_ fuel :=
  tmp_loop random exists_ fuel 0 false.

(** ** Library descriptions *)

(** tools/extract.h:17-36, struct symbol. *)
Record symbol := mkSym {
  sy_name : list Z;
  sy_offset : Z;      (* Elf64_Addr *)
  sy_size : Z;        (* Elf32_Word *)
  sy_info : Z;        (* unsigned char *)
  sy_other : Z        (* unsigned char *)
}.

(** tools/extract.h:41-51, struct ulp_so_info. *)
Record so_info := mkSo {
  so_name : list Z;
  so_buildid : list Z;
  so_symbols : list symbol
}.

(** The JSON values the tools use, as json-c represents them. *)
Inductive json :=
| JStr (s : list Z)
| JInt (v : Z)
| JObj (fields : list (list Z * json))
| JArr (items : list json).

(** json_object_new_int: its argument is an int. *)
Definition JINT (v : Z) : json := JInt (s32 v).

(** tools/extract.c:182-195, get_json_symbol. *)
Definition get_json_symbol (s : symbol) : json :=
  JObj [ (zs "name", JStr (sy_name s));
         (zs "offset", JINT (sy_offset s));
         (zs "size", JINT (sy_size s));
         (zs "st_info", JINT (sy_info s));
         (zs "st_other", JINT (sy_other s)) ].

(** tools/extract.c:205-241, write_ulp_so_info_json, up to the value handed to
    json-c's printer. *)
Definition write_ulp_so_info_json (i : so_info) : json :=
  JObj [ (zs "library",
          JObj [ (zs "name", JStr (so_name i));
                 (zs "buildid", JStr (buildid_to_string (so_buildid i)));
                 (zs "symbols", JArr (map get_json_symbol (so_symbols i))) ]) ].

(** json_object_object_get on an object; [None] is NULL. *)
Fixpoint jget (k : list Z) (fs : list (list Z * json)) : option json :=
  match fs with
  | [] => None
  | (k', v) :: t => if bytes_eqb k' k then Some v else jget k t
  end.
Definition json_get (k : list Z) (j : json) : option json :=
  match j with
  | JObj fs => jget k fs
  | _ => None
  end.

(** json_object_get_int: values outside int are clamped, anything that is not a
    number (here: not an integer) gives 0. *)
Definition json_get_int (j : option json) : Z :=
  match j with
  | Some (JInt v) => Z.max (- 2 ^ 31) (Z.min v (2 ^ 31 - 1))
  | _ => 0
  end.

(** strdup(json_object_get_string(j)) of a string; a missing value is strdup of
    NULL, which crashes: [None].  (json-c would print other values; they are
    treated as missing.) *)
Definition json_get_string (j : option json) : option (list Z) :=
  match j with
  | Some (JStr s) => Some s
  | _ => None
  end.

(** tools/extract.c:405-438, one round of the loop of parse_symbols_json. *)
Definition parse_symbol_json (obj : json) : option symbol :=
  match json_get_string (json_get (zs "name") obj) with
  | None => None
  | Some name =>
      Some (mkSym name
              (u64 (json_get_int (json_get (zs "offset") obj)))
              (u32 (u64 (json_get_int (json_get (zs "size") obj))))
              (json_get_int (json_get (zs "st_info") obj) mod 256)
              (json_get_int (json_get (zs "st_other") obj) mod 256))
  end.

(** tools/extract.c:391-441, parse_symbols_json. *)
Fixpoint parse_symbols_json (l : list json) : option (list symbol) :=
  match l with
  | [] => Some []
  | o :: t => match parse_symbol_json o with
              | None => None
              | Some s => match parse_symbols_json t with
                          | None => None
                          | Some r => Some (s :: r)
                          end
              end
  end.

(** What parse_so_json can come to: NULL, the description, or a crash. *)
Inductive sores :=
| SoNull
| SoOk (i : so_info)
| SoUB.

(** tools/extract.c:497-549, parse_so_json, from the value json-c's parser
    returned ([None]: not a JSON file). *)
Definition parse_so_json (root : option json) : sores :=
  match root with
  | None => SoNull
  | Some root =>
      match json_get (zs "library") root with
      | None => SoNull
      | Some library =>
          match json_get (zs "name") library, json_get (zs "buildid") library with
          | None, _ => SoNull
          | _, None => SoNull
          | Some jn, Some jb =>
              match json_get_string (Some jn), json_get_string (Some jb) with
              | Some name, Some text =>
                  match str_to_buildid text with
                  | IdInvalid => SoNull
                  | IdUB => SoUB
                  | IdOk id =>
                      match json_get (zs "symbols") library with
                      | Some (JArr l) =>
                          match parse_symbols_json l with
                          | Some syms => SoOk (mkSo name id syms)
                          | None => SoUB
                          end
                      | _ => SoOk (mkSo name id [])
                      end
                  end
              | _, _ => SoUB
              end
          end
      end
  end.

(** tools/extract.c:450-484, so_info_equal. *)
Definition symbol_eqb (a b : symbol) : bool :=
  bytes_eqb (sy_name a) (sy_name b) && (sy_offset a =? sy_offset b)
  && (sy_size a =? sy_size b) && (sy_info a =? sy_info b)
  && (sy_other a =? sy_other b).
Fixpoint symbols_eqb (a b : list symbol) : bool :=
  match a, b with
  | [], [] => true
  | x :: a', y :: b' => symbol_eqb x y && symbols_eqb a' b'
  | _, _ => false
  end.
Definition so_info_equal (a b : so_info) : bool :=
  bytes_eqb (so_name a) (so_name b) && bytes_eqb (so_buildid a) (so_buildid b)
  && symbols_eqb (so_symbols a) (so_symbols b).

(** tools/extract.c:634-648, get_symbol_with_name. *)
Definition get_symbol_with_name (i : so_info) (sym : list Z) : option symbol :=
  find (fun s => bytes_eqb (sy_name s) sym) (so_symbols i).

(** tools/extract.c:650-690, merge_ulp_so_infos.  The check of the build IDs
    only prints a warning. *)
Definition merge_ulp_so_infos (a b : so_info) : so_info :=
  mkSo (so_name a) (so_buildid a) (so_symbols a ++ so_symbols b).

(** An entry of an ELF symbol table, its name resolved (gelf_getsym and
    elf_strptr); [st_size] is 64-bit in the file. *)
Record elfsym := mkElfSym {
  es_name : list Z; es_value : Z; es_size : Z; es_info : Z; es_other : Z
}.

(** tools/extract.c:253-297, get_list_of_symbols_in_section: nameless symbols are
    skipped, the others prepended one by one. *)
Fixpoint section_loop (l : list elfsym) (head : list symbol) : list symbol :=
  match l with
  | [] => head
  | s :: t =>
      section_loop t
        (match es_name s with
         | [] => head
         | _ => mkSym (es_name s) (es_value s) (u32 (es_size s)) (es_info s) (es_other s)
                  :: head
         end)
  end.
Definition get_list_of_symbols_in_section (l : list elfsym) : list symbol :=
  section_loop l [].

(** tools/extract.c:309-330, build_symbols_list; a missing section has no
    symbols. *)
Definition build_symbols_list (dynsym symtab : list elfsym) : list symbol :=
  get_list_of_symbols_in_section dynsym ++ get_list_of_symbols_in_section symtab.

(** tools/extract.c:332-380, parse_so_elf, from what libelf read: the build ID of
    the file ([None]: none found) and its symbol tables. *)
Definition parse_so_elf (target_path : list Z) (buildid : option (list Z))
    (dynsym symtab : list elfsym) : option so_info :=
  match buildid with
  | None => None
  | Some id => if negb (zlen id =? 20) then None
               else Some (mkSo (get_basename target_path) id
                            (build_symbols_list dynsym symtab))
  end.
