(** Model of the packer's reading of a description file (tools/packer.c). *)
From Verif Require Import Base MetaModel.

(** Characters the parser looks at. *)
Definition NL : Z := 10.
Definition BANG : Z := 33.
Definition HASH : Z := 35.
Definition PERCENT : Z := 37.
Definition STAR : Z := 42.
Definition COLON : Z := 58.
Definition AT : Z := 64.

(** Outcome of the packer: a result, a reported error (return value 0), or a
    crash: a null pointer is dereferenced, memory outside a buffer is accessed,
    or a pointer that malloc never returned is freed. *)
Inductive dres (A : Type) : Type :=
| D_ok : A -> dres A
| D_err : dres A
| D_crash : dres A.
Arguments D_ok {A} _.
Arguments D_err {A}.
Arguments D_crash {A}.

(** tools/ulp_so_info as far as the packer uses it: name, build id, symbols in
    list order. *)
Record so_info := mk_so_info {
  si_name : list Z;
  si_bid : list Z;
  si_syms : list (list Z * Z)
}.

(** The file system and command line: can a file be opened for reading, is it a
    directory, what ulp_so_info_open gives, the content of a dependency file
    ([None]: cannot be opened), the two overrides (--livepatch, --library), and
    the content of freshly (re)allocated memory. *)
Record dsc_env := mk_dsc_env {
  de_open : list Z -> bool;
  de_isdir : list Z -> bool;
  de_info : list Z -> option so_info;
  de_dep : list Z -> option (list Z);
  de_container : option (list Z);
  de_target : option (list Z);
  de_junk : Z -> Z
}.

(** getline(3) applied until the end of the file: lines with their newline. *)
Fixpoint lines_of (f : list Z) : list (list Z) :=
  match f with
  | [] => []
  | c :: t => if c =? NL then [NL] :: lines_of t
              else match lines_of t with
                   | [] => [[c]]
                   | l :: ls => (c :: l) :: ls
                   end
  end.

(** `if (first[n - 1] == '\n') first[n - 1] = '\0'`, then read as a C string. *)
Definition chomp (l : list Z) : list Z :=
  cstr_z (if last l 0 =? NL then removelast l else l).

(** tools/extract.c:635-648, get_symbol_with_name: the offset of the first
    symbol of that name. *)
Fixpoint get_symbol_with_name (syms : list (list Z * Z)) (name : list Z) : option Z :=
  match syms with
  | [] => None
  | (n, off) :: t => if bytes_eqb n name then Some off else get_symbol_with_name t name
  end.

(** tools/packer.c:475-493, read_comment. The state is the comment buffer
    (content, write position, size); [None] before the first comment. The bytes
    that realloc adds are not initialised: [de_junk]. strncpy stops at a NUL and
    pads with NULs. Allocation failures are not modelled. *)
Definition strncpy_bytes (s : list Z) (n : Z) : list Z :=
  let c := firstn (Z.to_nat n) (cstr_z s) in
  c ++ repeat 0 (Z.to_nat (n - zlen c)).

Record cbuf := mk_cbuf { cb_data : Z -> Z; cb_pos : Z; cb_size : Z }.

Definition read_comment (junk : Z -> Z) (c : option cbuf) (line : list Z) : dres (option cbuf) :=
  let n := zlen line in
  let '(data, pos, size) := match c with
                            | None => (junk, 0, 0)
                            | Some b => (cb_data b, cb_pos b, cb_size b)
                            end in
  let size' := if pos + (n + 1) >=? size then size + 128 * 1024 else size in
  if pos + n >=? size' then D_crash
  else
    let data1 := mem_write data pos (strncpy_bytes (tl line) (n - 1)) in
    D_ok (Some (mk_cbuf (mem_write data1 (pos + n) [0]) (pos + n) size')).

(** tools/packer.c:321-356, add_dependency: the patch id read from the file. *)
Definition add_dependency (content : option (list Z)) : option (list Z) :=
  match content with
  | Some (t :: rest) =>
      if negb (t =? 1) then None
      else if zlen rest <? 32 then None
      else Some (firstn 32 rest)
  | _ => None
  end.

(** strchr(s, ':') splitting the string. *)
Fixpoint split_colon (s : list Z) : option (list Z * list Z) :=
  match s with
  | [] => None
  | c :: t => if c =? COLON then Some ([], t)
              else match split_colon t with
                   | Some (a, b) => Some (c :: a, b)
                   | None => None
                   end
  end.

(** strtol(s, NULL, 16) of glibc on a C string. *)
Definition is_space (c : Z) : bool := (c =? 32) || ((9 <=? c) && (c <=? 13)).
Fixpoint skip_space (s : list Z) : list Z :=
  match s with
  | c :: t => if is_space c then skip_space t else s
  | [] => []
  end.
Definition hex_digit (c : Z) : option Z :=
  if (48 <=? c) && (c <=? 57) then Some (c - 48)
  else if (97 <=? c) && (c <=? 102) then Some (c - 87)
  else if (65 <=? c) && (c <=? 70) then Some (c - 55)
  else None.
Fixpoint hex_acc (s : list Z) (acc : Z) : Z :=
  match s with
  | c :: t => match hex_digit c with
              | Some d => hex_acc t (acc * 16 + d)
              | None => acc
              end
  | [] => acc
  end.
Definition skip_0x (s : list Z) : list Z :=
  match s with
  | z :: x :: t =>
      if (z =? 48) && ((x =? 120) || (x =? 88)) &&
         (match t with c :: _ => match hex_digit c with Some _ => true | None => false end | [] => false end)
      then t else s
  | _ => s
  end.
Definition strtol16 (s : list Z) : Z :=
  match skip_space s with
  | [] => 0
  | c :: t =>
      if c =? 45 then Z.max (- (hex_acc (skip_0x t) 0)) (- 2 ^ 63)
      else Z.min (hex_acc (skip_0x (if c =? 43 then t else c :: t)) 0) (2 ^ 63 - 1)
  end.

(** What has been read so far. Dependencies and references are linked in at the
    front, units at the end. [ds_target]: the opened target. *)
Record dstate := mk_ds {
  ds_deps : list (list Z);
  ds_target : option so_info;
  ds_units : list munit;
  ds_refs : list pref;
  ds_comments : option cbuf
}.

(** tools/packer.c:669-724, a line starting with '@'. *)
Definition read_target (e : dsc_env) (line : list Z) (d : dstate) : dres dstate :=
  match ds_target d with
  | Some _ => D_err
  | None =>
      let path := match de_target e with Some p => p | None => tl (chomp line) end in
      if zlen path >=? PATH_MAX then D_crash
      else if negb (de_open e path) then D_err
      else if de_isdir e path then D_err
      else match de_info e path with
           | None => D_err
           | Some t => D_ok (mk_ds (ds_deps d) (Some t) (ds_units d) (ds_refs d) (ds_comments d))
           end
  end.

(** tools/packer.c:739-805, a line starting with '#'. A missing ':' makes strchr
    give NULL, through which the next statement writes. *)
Definition read_ref (container target : so_info) (s : list Z) : dres pref :=
  let '(tls, third) := match s with
                       | _ :: c :: t => if c =? PERCENT then (true, t) else (false, c :: t)
                       | _ => (false, [])
                       end in
  match split_colon third with
  | None => D_crash
  | Some (tname, third2) =>
      match split_colon third2 with
      | None =>
          match get_symbol_with_name (si_syms target) tname with
          | None => D_err
          | Some toff =>
              match get_symbol_with_name (si_syms container) third2 with
              | None => D_err
              | Some poff => D_ok (mk_pref tname third2 toff poff tls)
              end
          end
      | Some (rname, third3) =>
          match split_colon third3 with
          | None => D_crash
          | Some (o1, o2) => D_ok (mk_pref tname rname (u64 (strtol16 o1)) (u64 (strtol16 o2)) tls)
          end
      end
  end.

(** strtok(s, ":"): skip separators, take up to the next one (which is
    consumed). *)
Fixpoint skip_colons (s : list Z) : list Z :=
  match s with
  | c :: t => if c =? COLON then skip_colons t else s
  | [] => []
  end.
Definition strtok (s : list Z) : option (list Z * list Z) :=
  match skip_colons s with
  | [] => None
  | s' => match split_colon s' with
          | None => Some (s', [])
          | Some (a, b) => Some (a, b)
          end
  end.

(** tools/packer.c:811-880, any other line: replaced and replacing function. An
    empty string makes first[strlen(first) - 1] read outside the buffer. When the
    line starts with ':', strtok returns a pointer behind the allocation's start,
    which is later freed. old_faddr is filled in later (0 here). *)
Definition read_unit (container target : so_info) (s : list Z) : dres munit :=
  match s with
  | [] => D_crash
  | c :: _ =>
      if last s 0 =? COLON then D_err
      else if c =? COLON then D_crash
      else match strtok s with
           | None => D_crash
           | Some (first, rest) =>
               match get_symbol_with_name (si_syms target) first with
               | None => D_err
               | Some _ =>
                   match strtok rest with
                   | None => D_err
                   | Some (second, _) =>
                       match get_symbol_with_name (si_syms container) second with
                       | None => D_err
                       | Some _ => D_ok (mk_munit first second 0)
                       end
                   end
               end
           end
  end.

(** tools/packer.c:653-882, one iteration of the main loop. *)
Definition read_line (e : dsc_env) (container : so_info) (line : list Z) (d : dstate) : dres dstate :=
  match line with
  | [] => D_ok d
  | c :: _ =>
      if c =? NL then D_ok d
      else if c =? BANG then
        match read_comment (de_junk e) (ds_comments d) line with
        | D_ok cb => D_ok (mk_ds (ds_deps d) (ds_target d) (ds_units d) (ds_refs d) cb)
        | D_err => D_err
        | D_crash => D_crash
        end
      else if c =? AT then read_target e line d
      else
        match ds_target d with
        | None => D_err
        | Some target =>
            let s := chomp line in
            if c =? HASH then
              match read_ref container target s with
              | D_ok r => D_ok (mk_ds (ds_deps d) (ds_target d) (ds_units d) (r :: ds_refs d) (ds_comments d))
              | D_err => D_err
              | D_crash => D_crash
              end
            else
              match read_unit container target s with
              | D_ok u => D_ok (mk_ds (ds_deps d) (ds_target d) (ds_units d ++ [u]) (ds_refs d) (ds_comments d))
              | D_err => D_err
              | D_crash => D_crash
              end
        end
  end.

Fixpoint read_body (e : dsc_env) (container : so_info) (lines : list (list Z)) (d : dstate) : dres dstate :=
  match lines with
  | [] => D_ok d
  | l :: ls => match read_line e container l d with
               | D_ok d' => read_body e container ls d'
               | D_err => D_err
               | D_crash => D_crash
               end
  end.

(** tools/packer.c:627-651, the dependencies: the lines starting with '*' that
    directly follow the container. [None]: a dependency cannot be added. *)
Fixpoint read_deps (e : dsc_env) (lines : list (list Z)) (deps : list (list Z))
  : option (list (list Z) * list (list Z)) :=
  match lines with
  | (c :: t) :: ls =>
      if c =? STAR then
        match add_dependency (de_dep e (tl (chomp (c :: t)))) with
        | None => None
        | Some id => read_deps e ls (id :: deps)
        end
      else Some (deps, lines)
  | _ => Some (deps, lines)
  end.

(** tools/packer.c:556-611, the lines up to the container: its path, the
    comments, and the lines that follow. *)
Fixpoint read_container (e : dsc_env) (lines : list (list Z)) (cb : option cbuf)
  : dres (list Z * option cbuf * list (list Z)) :=
  match lines with
  | [] => D_err
  | line :: ls =>
      match line with
      | [] => D_err
      | c :: _ =>
          if c =? NL then read_container e ls cb
          else if c =? BANG then
            match read_comment (de_junk e) cb line with
            | D_ok cb' => read_container e ls cb'
            | D_err => D_err
            | D_crash => D_crash
            end
          else
            let path := match de_container e with Some p => p | None => chomp line end in
            if negb (de_open e path) then D_err
            else if de_isdir e path then D_err
            else D_ok (path, cb, ls)
      end
  end.

(** tools/packer.c:511-899, parse_description, on the content of the file. *)
Definition parse_description (e : dsc_env) (file : list Z) : dres (list Z * dstate) :=
  match read_container e (lines_of file) None with
  | D_err => D_err
  | D_crash => D_crash
  | D_ok (so, cb, ls) =>
      match de_info e so with
      | None => D_err
      | Some container =>
          match read_deps e ls [] with
          | None => D_err
          | Some (deps, ls') =>
              match read_body e container ls' (mk_ds deps None [] [] cb) with
              | D_ok d => D_ok (so, d)
              | D_err => D_err
              | D_crash => D_crash
              end
          end
      end
  end.

(** tools/packer.c:166-181, get_target_addrs; 197-217, get_target_ref_addrs. *)
Fixpoint get_target_addrs (info : so_info) (us : list munit) : option (list munit) :=
  match us with
  | [] => Some []
  | u :: t => match get_symbol_with_name (si_syms info) (u_old u) with
              | None => None
              | Some off => match get_target_addrs info t with
                            | None => None
                            | Some t' => Some (mk_munit (u_old u) (u_new u) off :: t')
                            end
              end
  end.

Fixpoint get_target_ref_addrs (info : so_info) (rs : list pref) : option (list pref) :=
  match rs with
  | [] => Some []
  | r :: t =>
      match (if negb (pr_toff r =? 0) then Some (pr_toff r)
             else get_symbol_with_name (si_syms info) (pr_target r)) with
      | None => None
      | Some off => match get_target_ref_addrs info t with
                    | None => None
                    | Some t' => Some (mk_pref (pr_target r) (pr_name r) off (pr_poff r) (pr_tls r) :: t')
                    end
      end
  end.

(** The comments as they are written into the container (tools/packer.c:1212-1224):
    the C string in the buffer. [None]: no comment section. *)
Definition comment_text (c : option cbuf) : option (list Z) :=
  match c with
  | None => None
  | Some b => Some (cstr_z (mem_read (cb_data b) 0 (Z.to_nat (cb_pos b))))
  end.

(** run_packer up to the writing of the metadata (tools/packer.c:1170-1181, with
    get_ulp_elf_metadata 66-93): what is going to be written, for the patch ID
    [id], and the comments. A description without target line leaves
    ulp->objs and the target NULL, and get_ulp_elf_metadata uses both. *)
Definition pack (e : dsc_env) (id : list Z) (file : list Z) : dres (pmeta * option (list Z)) :=
  match parse_description e file with
  | D_err => D_err
  | D_crash => D_crash
  | D_ok (so, d) =>
      match ds_target d with
      | None => D_crash
      | Some t =>
          match get_target_addrs t (ds_units d) with
          | None => D_err
          | Some us =>
              match get_target_ref_addrs t (ds_refs d) with
              | None => D_err
              | Some rs =>
                  D_ok (mk_pmeta id 20 (si_bid t) (si_name t)
                          (zlen us) us (zlen (ds_deps d)) (ds_deps d) (zlen rs) rs,
                        comment_text (ds_comments d))
              end
          end
      end
  end.
