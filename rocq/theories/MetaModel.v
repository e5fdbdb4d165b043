(** Byte-level model of the patch metadata: the packer's serialisers
    (tools/packer.c), the injection of the container path
    (tools/introspection.c, lib/gdb_interface.c) and the parser used by both
    libpulp and the tool (common/common.c). *)
From Verif Require Import Base.

(** include/ulp_common.h:38, ULP_METADATA_BUF_LEN. *)
Definition ULP_METADATA_BUF_LEN : Z := 512 * 1024.
(** <limits.h> PATH_MAX on Linux, used in tools/introspection.c:1930. *)
Definition PATH_MAX : Z := 4096.

(** include/error_common.h and <errno.h>, codes used by the parser. *)
Definition EINVALIDULP : Z := 266.
Definition ENOMEM : Z := 12.

(** ** Data *)

(** include/ulp_common.h:138-149, struct ulp_unit. Names are C strings. *)
Record munit := mk_munit { u_old : list Z; u_new : list Z; u_addr : Z }.

(** include/ulp_common.h:164-186, struct ulp_reference. A name is [None] when the
    allocated bytes contain no terminator, so that using it as a C string would
    read outside its allocation. *)
Record mref := mk_mref {
  rf_target : option (list Z);
  rf_name : option (list Z);
  rf_toff : Z;
  rf_poff : Z;
  rf_tls : bool
}.

(** include/ulp_common.h:77-136, struct ulp_metadata with its single struct
    ulp_object (objs is never a longer list). *)
Record meta := mk_meta {
  md_type : Z;
  md_id : list Z;
  md_so : list Z;
  md_bid_len : Z;
  md_bid : list Z;
  md_name : list Z;
  md_units : list munit;
  md_deps : list (list Z);
  md_refs : list mref
}.

(** ** Parser *)

(** common/common.c:232-248, read_from_mem.  The part of the source not yet
    consumed is carried as a list; the result is the bytes copied and what
    remains. Their number is the value returned by the C function. *)
Definition read_from_mem (count : Z) (src : list Z) : list Z * list Z :=
  let final_cnt := Z.to_nat (Z.min count (zlen src)) in
  (firstn final_cnt src, skipn final_cnt src).

(** Reading an integer of [n] bytes into a variable that holds [old]: a short
    read overwrites only its low bytes (little-endian). *)
Definition read_int (n : nat) (old : Z) (src : list Z) : Z * Z * list Z :=
  let (got, rest) := read_from_mem (Z.of_nat n) src in
  (le_dec (got ++ skipn (length got) (le_enc n old)), zlen got, rest).

(** The C string stored at the start of a buffer; [None] if it is not
    terminated inside the buffer. *)
Fixpoint cstr_in (l : list Z) : option (list Z) :=
  match l with
  | [] => None
  | b :: t => if b =? 0 then Some []
              else match cstr_in t with Some s => Some (b :: s) | None => None end
  end.

(** The C string in a buffer that is followed by a zero byte
    (calloc of one byte more than is read). *)
Fixpoint cstr_z (l : list Z) : list Z :=
  match l with
  | [] => []
  | b :: t => if b =? 0 then [] else b :: cstr_z t
  end.

(** Result of parsing: undefined behaviour (store outside an allocation),
    an error code, or the metadata; [P_fuel] is excluded by a theorem. *)
Inductive pres (A : Type) : Type :=
| P_UB | P_fuel | P_err (code : Z) | P_ok (a : A).
Arguments P_UB {A}.
Arguments P_fuel {A}.
Arguments P_err {A} _.
Arguments P_ok {A} _.

(** The recurring idiom of common/common.c:273-289 (so filename), 327-341
    (object name), 364-378, 380-394 (function names): read a length into [c]
    requiring at least one byte, calloc(c + 1) with the addition in 32 bits,
    then read [c] bytes. When c + 1 wraps to 0 the copy overflows the
    allocation. The allocation itself is assumed to succeed. The continuation
    receives the string, the new [c] and the remaining source. *)
Definition read_name {A} (c : Z) (src : list Z)
    (k : list Z -> Z -> list Z -> pres A) : pres A :=
  let '(c', n, src1) := read_int 4 c src in
  if n <? 1 then P_err EINVALIDULP
  else
    let (got, src2) := read_from_mem c' src1 in
    if u32 (c' + 1) <? zlen got then P_UB
    else if zlen got <? c' then P_err EINVALIDULP
    else k (cstr_z got) c' src2.

(** common/common.c:357-407, the loop over patching units. [j] is nunits minus
    the units already read. *)
Fixpoint parse_units {A} (fuel : nat) (j : Z) (c : Z) (src : list Z) (acc : list munit)
    (k : list munit -> Z -> list Z -> pres A) : pres A :=
  if j <=? 0 then k (rev acc) c src
  else match fuel with
  | O => P_fuel
  | S fuel' =>
      read_name c src (fun old c1 src1 =>
      read_name c1 src1 (fun new c2 src2 =>
      (* 396: old_faddr was zeroed by calloc; at least one byte required *)
      let '(addr, n, src3) := read_int 8 0 src2 in
      if n <? 1 then P_err EINVALIDULP
      else parse_units fuel' (j - 1) c2 src3 (mk_munit old new addr :: acc) k))
  end.

(** common/common.c:415-432, the loop over dependencies. *)
Fixpoint parse_deps {A} (fuel : nat) (j : Z) (src : list Z) (acc : list (list Z))
    (k : list (list Z) -> list Z -> pres A) : pres A :=
  if j <=? 0 then k (rev acc) src
  else match fuel with
  | O => P_fuel
  | S fuel' =>
      let (got, src1) := read_from_mem 32 src in
      if zlen got <? 32 then P_err EINVALIDULP
      else parse_deps fuel' (j - 1) src1 (got :: acc) k
  end.

(** common/common.c:449-462 and 464-477: a name of a reference: four bytes of
    length required, calloc(c) without room for a terminator. *)
Definition read_rname {A} (c : Z) (src : list Z)
    (k : option (list Z) -> Z -> list Z -> pres A) : pres A :=
  let '(c', n, src1) := read_int 4 c src in
  if n <? 4 then P_err EINVALIDULP
  else
    let (got, src2) := read_from_mem c' src1 in
    if zlen got <? c' then P_err EINVALIDULP
    else k (cstr_in got) c' src2.

(** common/common.c:440-506, the loop over static references. The bool is read
    as a byte; any non-zero value counts as true. *)
Fixpoint parse_refs {A} (fuel : nat) (j : Z) (c : Z) (src : list Z) (acc : list mref)
    (k : list mref -> list Z -> pres A) : pres A :=
  if j <=? 0 then k (rev acc) src
  else match fuel with
  | O => P_fuel
  | S fuel' =>
      read_rname c src (fun target c1 src1 =>
      read_rname c1 src1 (fun name c2 src2 =>
      let '(toff, n1, src3) := read_int 8 0 src2 in
      if n1 <? 8 then P_err EINVALIDULP
      else
        let '(poff, n2, src4) := read_int 8 0 src3 in
        if n2 <? 8 then P_err EINVALIDULP
        else
          let '(tls, n3, src5) := read_int 1 0 src4 in
          if n3 <? 1 then P_err EINVALIDULP
          else parse_refs fuel' (j - 1) c2 src5
                 (mk_mref target name toff poff (negb (tls =? 0)) :: acc) k))
  end.

(** common/common.c:251-509, parse_metadata_from_mem, with the unconsumed part
    of the source as an extra result. [junk] is the uninitialised initial
    value of the local variable c. Memory allocation is assumed to succeed
    (calloc failures, which all return an error code, are not modelled). *)
Definition parse_metadata_raw (junk : Z) (src : list Z) : pres (meta * list Z) :=
  let fuel := S (length src) in
  let '(type, n, src1) := read_int 1 0 src in
  if n <? 1 then P_err EINVALIDULP
  else
    let (id, src2) := read_from_mem 32 src1 in
    if zlen id <? 32 then P_err EINVALIDULP
    else
      read_name junk src2 (fun so c1 src3 =>
      match so with
      | [] => P_err EINVALIDULP
      | _ =>
        let '(c2, n2, src4) := read_int 4 c1 src3 in
        if n2 <? 1 then P_err EINVALIDULP
        else
          let (bid, src5) := read_from_mem c2 src4 in
          if zlen bid <? c2 then P_err EINVALIDULP
          else
            read_name c2 src5 (fun name c3 src6 =>
            if type =? 2 then P_ok (mk_meta type id so c2 bid name [] [] [], src6)
            else
              let '(nunits, n4, src7) := read_int 4 0 src6 in
              if n4 <? 1 then P_err 1
              else
                parse_units fuel nunits c3 src7 [] (fun units c4 src8 =>
                let '(ndeps, n5, src9) := read_int 4 c4 src8 in
                if n5 <? 1 then P_err EINVALIDULP
                else
                  parse_deps fuel ndeps src9 [] (fun deps src10 =>
                  let '(nrefs, n6, src11) := read_int 4 0 src10 in
                  if n6 <? 4 then P_err EINVALIDULP
                  else
                    parse_refs fuel nrefs ndeps src11 [] (fun refs src12 =>
                    P_ok (mk_meta type id so c2 bid name units deps refs, src12)))))
      end).

(** What the C function returns: the metadata only. *)
Definition parse_metadata_from_mem (junk : Z) (src : list Z) : pres meta :=
  match parse_metadata_raw junk src with
  | P_UB => P_UB
  | P_fuel => P_fuel
  | P_err c => P_err c
  | P_ok (m, _) => P_ok m
  end.

(** ** Packer *)

(** Static reference as the packer holds it (C strings). *)
Record pref := mk_pref {
  pr_target : list Z;
  pr_name : list Z;
  pr_toff : Z;
  pr_poff : Z;
  pr_tls : bool
}.

(** The packer's struct ulp_metadata when it writes the files: counters are
    separate fields, as in C (ndeps, nrefs, obj->nunits, obj->build_id_len). *)
Record pmeta := mk_pmeta {
  pm_id : list Z;
  pm_bid_len : Z;
  pm_bid : list Z;
  pm_name : list Z;
  pm_nunits : Z;
  pm_units : list munit;
  pm_ndeps : Z;
  pm_deps : list (list Z);
  pm_nrefs : Z;
  pm_refs : list pref
}.

(** c = strlen(s) + 1; write c as uint32; write c bytes (with the NUL). *)
Definition put_cstr (s : list Z) : list Z := le_enc 4 (zlen s + 1) ++ s ++ [0].

(** tools/packer.c:274-289, one unit. *)
Definition put_unit (u : munit) : list Z :=
  put_cstr (u_old u) ++ put_cstr (u_new u) ++ le_enc 8 (u_addr u).

(** tools/packer.c:299-311, one reference. *)
Definition put_ref (r : pref) : list Z :=
  put_cstr (pr_target r) ++ put_cstr (pr_name r) ++
  le_enc 8 (pr_toff r) ++ le_enc 8 (pr_poff r) ++ [b2z (pr_tls r)].

(** tools/packer.c:220-318, create_patch_metadata_file: content of the .ulp
    section. Errors of fopen/fwrite are not modelled. *)
Definition create_patch_metadata_file (p : pmeta) : list Z :=
  [1] ++ pm_id p ++
  le_enc 4 (pm_bid_len p) ++ firstn (Z.to_nat (pm_bid_len p)) (pm_bid p) ++
  put_cstr (pm_name p) ++
  le_enc 4 (pm_nunits p) ++ flat_map put_unit (pm_units p) ++
  le_enc 4 (pm_ndeps p) ++ concat (pm_deps p) ++
  le_enc 4 (pm_nrefs p) ++ flat_map put_ref (pm_refs p).

(** tools/packer.c:1079-1149, write_reverse_patch: content of the .ulp.rev
    section. The name is written without its terminator. *)
Definition write_reverse_patch (p : pmeta) : list Z :=
  [2] ++ pm_id p ++
  le_enc 4 (pm_bid_len p) ++ firstn (Z.to_nat (pm_bid_len p)) (pm_bid p) ++
  le_enc 4 (zlen (pm_name p)) ++ pm_name p.

(** ** Extraction *)

(** tools/introspection.c:1890-1981, extract_ulp_from_so_to_mem, from the point
    where the section [data] and the full path (prefix + realpath) are known.
    [None] is the return value 0. A section shorter than 33 bytes makes the
    first memcpy read outside it and the last one wrap: outcome [P_UB]. *)
Definition extract_ulp_from_so_to_mem (data path : list Z) : pres (option (list Z)) :=
  let path_size := zlen path + 1 in
  if PATH_MAX <=? path_size then P_ok None
  else
    let meta_size := u32 (zlen data + path_size + 4) in
    if ULP_METADATA_BUF_LEN <=? meta_size then P_ok None
    else if zlen data <? 33 then P_UB
    else if meta_size <? zlen data + path_size + 4 then P_UB
    else P_ok (Some (firstn 33 data ++ le_enc 4 path_size ++ (path ++ [0]) ++ skipn 33 data)).

(** lib/gdb_interface.c:48-94, inject_lp_path, on the metadata buffer
    ([zlen buf = ULP_METADATA_BUF_LEN]) whose first [size] bytes hold the
    section: the code and the buffer afterwards. uint32 path sizes; the sum is
    computed in long. [size < 33] would be a negative memmove length: [P_UB]. *)
Definition inject_lp_path (buf : list Z) (path : list Z) (size : Z) : pres (Z * list Z) :=
  let path_size := zlen path + 1 in
  let path_object_size := 4 + path_size in
  if size + path_object_size >? ULP_METADATA_BUF_LEN then P_ok (ENOMEM, buf)
  else if size <? 33 then P_UB
  else
    let right := firstn (Z.to_nat (size - 33)) (skipn 33 buf) in
    P_ok (0,
      firstn 33 buf ++ le_enc 4 path_size ++ (path ++ [0]) ++ right ++
      skipn (Z.to_nat (size + path_object_size)) buf).
