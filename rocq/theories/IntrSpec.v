(** What the tool should find out about a process. *)
From Coq Require Import String.
From Verif Require Import Base StrModel LibModel DlModel LibSpec PtModel PtSpec NtModel NtSpec TextModel IntrModel.

(** A target as the kernel shows it: bytes, whole pages readable or not. *)
Definition target_ok (t : target) : Prop :=
  byte_mem (t_mem t) /\ List.length (t_junk t) = 8%nat /\
  (forall x y, x / 4096 = y / 4096 -> t_ok t x = t_ok t y).

(** A string allocated by malloc (aligned), completely readable. *)
Definition heap_string (t : target) (a : Z) (s : list Z) : Prop :=
  string_at (t_mem t) a s /\ 0 < a /\ a mod 8 = 0 /\ a + zlen s < 2 ^ 64 /\
  accessible (t_ok t) a (zlen s + 1).

(** A string somewhere in the target; the words that hold it can be read. *)
Definition any_string (t : target) (a : Z) (s : list Z) : Prop :=
  string_at (t_mem t) a s /\ 0 < a /\ a + zlen s < 2 ^ 64 /\
  accessible (t_ok t) a (8 * (zlen s / 8 + 1)).

(** ** The list of applied patches, as libpulp keeps it *)

(** A patch: ID, base name of the library, container, time of application. *)
Record lpatch := mk_lpatch { lp_id : list Z; lp_lib : list Z; lp_container : list Z; lp_time : Z }.
Definition lpatch_ok (p : lpatch) : Prop :=
  zlen (lp_id p) = 32 /\ bytes_ok (lp_id p) /\ cstr_ok (lp_lib p) /\ cstr_ok (lp_container p) /\
  0 <= lp_time p < 2 ^ 64.

(** Versions since 0.3.1 keep the time. *)
Definition keeps_time (version : Z) : bool := ULP_VERSION_TRIPLET 0 3 1 <=? version.

(** A struct ulp_applied_patch with its pointers. *)
Definition patch_bytes (version : Z) (p : lpatch) (libp contp units next deps : Z) : list Z :=
  lp_id p ++ le_enc 8 libp ++ le_enc 8 contp ++ le_enc 8 units ++ le_enc 8 next ++ le_enc 8 deps ++
  (if keeps_time version then le_enc 8 (lp_time p) else []).

(** The linked list with the patches [l] starts at [a]. *)
Inductive plist_at (t : target) (version : Z) : Z -> list lpatch -> Prop :=
| pl_nil : plist_at t version 0 []
| pl_cons : forall a p l libp contp units next deps,
    a <> 0 -> lpatch_ok p ->
    0 <= next < 2 ^ 64 -> libp < 2 ^ 64 -> contp < 2 ^ 64 ->
    heap_string t libp (lp_lib p) -> heap_string t contp (lp_container p) ->
    holds (t_ok t) (t_mem t) a (patch_bytes version p libp contp units next deps) ->
    plist_at t version next l ->
    plist_at t version a (p :: l).

(** libpulp's patching state: it is loaded, and the list is [l]. *)
Definition state_at (t : target) (version a : Z) (l : list lpatch) : Prop :=
  exists pad head, List.length pad = 7%nat /\ 0 <= head < 2 ^ 64 /\
    holds (t_ok t) (t_mem t) a ([1] ++ pad ++ le_enc 8 head) /\ plist_at t version head l.

(** Enough iterations for the longest string and the list. *)
Definition fuel_for (t : target) (l : list lpatch) : Prop :=
  (List.length l < t_fuel t)%nat /\
  Forall (fun p => (List.length (lp_lib p) / 8 < t_fuel t)%nat /\
                   (List.length (lp_container p) / 8 < t_fuel t)%nat) l.

(** What should be shown: for each loaded object that has livepatchable functions
    or a livepatch, its livepatches in the order of the list, each with the name of
    its container, its time, and its labels. *)
Definition for_lib (file : list Z) (p : lpatch) : bool := bytes_eqb (get_basename file) (lp_lib p).
Definition show_patch (version : Z) (labels : list Z -> list (list Z)) (p : lpatch) : shown_patch :=
  mk_sp (get_basename (lp_container p))
        (if keeps_time version && negb (lp_time p =? 0) then Some (lp_time p) else None)
        (labels (lp_container p)).
Definition show_object (version : Z) (labels : list Z -> list (list Z)) (l : list lpatch) (o : dynobj) : shown_lib :=
  mk_sl (o_filename o) (map (show_patch version labels) (filter (for_lib (o_filename o)) l)).
Definition shown_objects (version : Z) (labels : list Z -> list (list Z)) (nops : dynobj -> bool) (l : list lpatch)
                         (objs : list dynobj) : list shown_lib :=
  map (show_object version labels l)
      (filter (fun o => existsb (for_lib (o_filename o)) l || nops o) objs).

(** ** Labels in comments *)

(** Equal up to case, where [y] is a small letter or no letter. *)
Definition same_letter (x y : Z) : Prop := x = y \/ (97 <= y <= 122 /\ x = y - 32).
Definition digit (c : Z) : Prop := 48 <= c <= 57.
Definition letter (c : Z) : Prop := 65 <= c <= 90 \/ 97 <= c <= 122.

(** bsc#123, jsc#ABC-123, CVE-2023-1234, in any case; the second part of the last two
    may be missing. *)
Inductive label : list Z -> Prop :=
| lab_bsc : forall p d, Forall2 same_letter p (zs "bsc#") -> Forall digit d -> label (p ++ d)
| lab_jsc : forall p a, Forall2 same_letter p (zs "jsc#") -> Forall letter a -> label (p ++ a)
| lab_jsc2 : forall p a d, Forall2 same_letter p (zs "jsc#") -> Forall letter a -> Forall digit d ->
    label (p ++ a ++ 45 :: d)
| lab_cve : forall p a, Forall2 same_letter p (zs "cve-") -> Forall digit a -> label (p ++ a)
| lab_cve2 : forall p a d, Forall2 same_letter p (zs "cve-") -> Forall digit a -> Forall digit d ->
    label (p ++ a ++ 45 :: d).

(** A label starts at the beginning of [s]. *)
Definition label_starts (s : list Z) : Prop := exists w rest, label w /\ s = w ++ rest.

(** The text [s] contains the labels [ls], each as long as possible and followed by
    a character at which no other label starts. *)
Inductive has_labels : list Z -> list (list Z) -> Prop :=
| hl_end : has_labels [] []
| hl_skip : forall c s ls, ~ label_starts (c :: s) -> has_labels s ls -> has_labels (c :: s) ls
| hl_label : forall w c s ls, label w -> ~ label (w ++ [c]) -> ~ label_starts (c :: s) ->
    has_labels s ls -> has_labels (w ++ c :: s) (w :: ls).

(** ** Exported symbols *)

(** A symbol: name and value. *)
Record dsym := mk_dsym { ds_name : list Z; ds_value : Z }.

(** The dynamic symbol table at [sym], with names in the string table at [str], holds
    the symbols [l]; the string table does not end right behind a name. *)
Inductive symtab_at (t : target) (str : Z) : Z -> list dsym -> Prop :=
| st_nil : forall a, symtab_at t str a []
| st_cons : forall a s l off r4 r8,
    List.length r4 = 4%nat -> List.length r8 = 8%nat ->
    0 <= off < 2 ^ 32 -> 0 <= ds_value s < 2 ^ 64 ->
    holds (t_ok t) (t_mem t) a (le_enc 4 off ++ r4 ++ le_enc 8 (ds_value s) ++ r8) ->
    string_at (t_mem t) (str + off) (ds_name s) -> 0 < str ->
    str + off + zlen (ds_name s) + 16 < 2 ^ 64 ->
    accessible (t_ok t) (str + off) (zlen (ds_name s) + 16) ->
    a + 24 < 2 ^ 64 -> 0 < a ->
    symtab_at t str (a + 24) l ->
    symtab_at t str a (s :: l).

(** The names of libpulp's entry points and data, with the place the tool keeps
    their addresses in. *)
Definition entry_names : list (nat * list Z) :=
  [ (0%nat, zs "__ulp_trigger"); (1%nat, zs "__ulp_check_patched"); (2%nat, zs "__ulp_state");
    (3%nat, zs "__ulp_get_global_universe"); (4%nat, zs "__ulp_msg_queue"); (5%nat, zs "__ulp_revert_all");
    (6%nat, zs "__ulp_metadata_buffer"); (7%nat, zs "__ulp_error_state");
    (8%nat, zs "__ulp_enable_or_disable_patching"); (9%nat, zs "__ulp_insn_queue") ].

(** The text of the version is where the symbol says. *)
Definition version_at (t : target) (base : Z) (l : list dsym) (text : list Z) : Prop :=
  forall v, In (mk_dsym (zs "__ulp_version") v) l ->
    any_string t (u64 (base + v)) text /\ zlen text < 32.

(** ** Loaded objects *)

(** What there is to know about a loaded object: load address, file name, symbol and
    string table, number of symbols, build ID (zero if it has none). *)
Record odesc := mk_odesc { od_addr : Z; od_name : list Z; od_sym : Z; od_str : Z; od_n : Z; od_id : list Z }.

(** Program headers in a row: type, virtual address, size in memory. *)
Record phdr := mk_ph { ph_t : Z; ph_v : Z; ph_m : Z }.
Definition phdr_ok (p : phdr) : Prop :=
  0 <= ph_t p < 2 ^ 32 /\ 0 <= ph_v p < 2 ^ 64 /\ 0 <= ph_m p < 2 ^ 64.
Inductive phdrs_at (t : target) : Z -> list phdr -> Prop :=
| ph_nil : forall a, phdrs_at t a []
| ph_cons : forall a p l r12 r16 r8,
    List.length r12 = 12%nat -> List.length r16 = 16%nat -> List.length r8 = 8%nat -> phdr_ok p ->
    holds (t_ok t) (t_mem t) (u64 a)
      (le_enc 4 (ph_t p) ++ r12 ++ le_enc 8 (ph_v p) ++ r16 ++ le_enc 8 (ph_m p) ++ r8) ->
    phdrs_at t (a + 56) l -> phdrs_at t a (p :: l).

(** A dynamic section: tags and values, up to the tag 0. *)
Inductive dyn_at (t : target) : Z -> list (Z * Z) -> Prop :=
| dy_end : forall a v, holds (t_ok t) (t_mem t) (u64 a) (le_enc 8 0 ++ le_enc 8 v) -> dyn_at t a []
| dy_cons : forall a tag v l,
    0 < tag < 2 ^ 64 -> 0 <= v < 2 ^ 64 ->
    holds (t_ok t) (t_mem t) (u64 a) (le_enc 8 tag ++ le_enc 8 v) ->
    dyn_at t (a + 16) l -> dyn_at t a ((tag, v) :: l).

(** The only program header of this type has this address. *)
Definition only (phs : list phdr) (ty v : Z) : Prop :=
  exists p1 p p2, phs = p1 ++ p :: p2 /\ ph_t p = ty /\ ph_v p = v /\
    Forall (fun q => ph_t q <> ty) (p1 ++ p2).

(** The tags of symbol table, string table and hash table are 6, 5 and 4; a hash
    table has the number of symbols in its second word. Without one of this kind,
    the number of symbols is not to be had. *)
Definition tables (t : target) (d : list (Z * Z)) (sym str n : Z) : Prop :=
  NoDup (map fst d) /\ In (6, sym) d /\ In (5, str) d /\ 0 < sym /\ 0 < str /\
  ((exists hash, In (4, hash) d /\ 0 < hash /\ 0 <= n < 2 ^ 31 /\
      holds (t_ok t) (t_mem t) (u64 (hash + 4)) (le_enc 4 n)) \/
   (n = 0 /\ ~ In 4 (map fst d))).

(** The notes of a segment. *)
Definition notes_seg (t : target) (base : Z) (p : phdr) (ns : list note) : Prop :=
  seg_in_memory (t_ok t) (t_mem t) (u64 (base + ph_v p)) ns /\
  ph_m p = zlen (flat_map note_bytes ns) /\ (List.length ns < t_fuel t)%nat.
Definition plain_seg (t : target) (base : Z) (p : phdr) : Prop :=
  ph_t p = 4 -> exists ns, ns <> [] /\ Forall plain_note ns /\ notes_seg t base p ns.

(** The build ID in the note segments (type 4); see C42. *)
Definition build_id_is (t : target) (base : Z) (phs : list phdr) (id : list Z) : Prop :=
  (Forall (plain_seg t base) phs /\ id = repeat 0 20) \/
  (exists p1 p p2 pre post, phs = p1 ++ p :: p2 /\ Forall (plain_seg t base) p1 /\ ph_t p = 4 /\
     Forall plain_note pre /\ zlen id = 20 /\ bytes_ok id /\
     notes_seg t base p (pre ++ gnu_build_id id :: post)).

(** The object is mapped with its ELF header at the load address [base]. *)
Definition elf_at (t : target) (base : Z) (sym str n : Z) (id : list Z) : Prop :=
  exists r32 phoff r14 r6 phs v d,
    List.length r32 = 32%nat /\ List.length r14 = 14%nat /\ List.length r6 = 6%nat /\ 0 <= phoff < 2 ^ 64 /\
    zlen phs < 2 ^ 16 /\
    holds (t_ok t) (t_mem t) base
      (r32 ++ le_enc 8 phoff ++ r14 ++ le_enc 2 56 ++ le_enc 2 (zlen phs) ++ r6) /\
    phdrs_at t (base + phoff) phs /\
    only phs 2 v /\ dyn_at t (base + v) d /\ (List.length d < t_fuel t)%nat /\
    tables t d sym str n /\ build_id_is t base phs id.

(** The vdso is no file; the tool does not look into it. *)
Definition is_vdso (name : list Z) : Prop := name = zs "linux-vdso.so.1" \/ name = zs "linux-vdso64.so.1".
Definition object_at (t : target) (o : odesc) : Prop :=
  if bytes_eqb (od_name o) (zs "linux-vdso.so.1") || bytes_eqb (od_name o) (zs "linux-vdso64.so.1")
  then od_sym o = 0 /\ od_str o = 0 /\ od_n o = 0 /\ od_id o = repeat 0 20
  else od_addr o <> 0 /\ elf_at t (od_addr o) (od_sym o) (od_str o) (od_n o) (od_id o).

(** The dynamic linker's list of loaded objects (struct link_map) from [a]. *)
Inductive chain_at (t : target) : Z -> list odesc -> Prop :=
| ch_nil : chain_at t 0 []
| ch_cons : forall a o l namep ld next prev,
    a <> 0 -> 0 <= od_addr o < 2 ^ 64 -> 0 <= namep < 2 ^ 64 -> 0 <= next < 2 ^ 64 ->
    holds (t_ok t) (t_mem t) a
      (le_enc 8 (od_addr o) ++ le_enc 8 namep ++ le_enc 8 ld ++ le_enc 8 next ++ le_enc 8 prev) ->
    any_string t namep (od_name o) -> (List.length (od_name o) / 8 < t_fuel t)%nat ->
    chain_at t next l ->
    chain_at t a (o :: l).

(** A process: the auxiliary vector tells where the program headers of the main
    program are (key 3) and their size and number (4 and 5); the program header for
    the program headers (type 6), if there is one, gives the displacement; in the
    dynamic section (type 2) the tag 21 is the address of the dynamic linker's
    r_debug, whose second word is the main program's link_map; from its next
    field on, the other objects follow. *)
Definition process_at (t : target) (auxv : list (Z * Z)) (main : odesc) (chain : list odesc) : Prop :=
  exists entry at_phdr phs v d r_debug lm bias dispv namep ld next prev,
    NoDup (map fst auxv) /\ In (9, entry) auxv /\ In (3, at_phdr) auxv /\ In (4, 56) auxv /\
    In (5, zlen phs) auxv /\ entry <> 0 /\ 0 < at_phdr < 2 ^ 64 /\ zlen phs < 2 ^ 31 /\
    phdrs_at t at_phdr phs /\ only phs 2 v /\
    ((only phs 6 dispv /\ dispv <> 0 /\ bias = at_phdr - dispv) \/ (Forall (fun p => ph_t p <> 6) phs /\ bias = 0)) /\
    dyn_at t (v + bias) d /\ (List.length d < t_fuel t)%nat /\ NoDup (map fst d) /\ In (21, r_debug) d /\
    0 <= lm < 2 ^ 64 /\ holds (t_ok t) (t_mem t) (u64 (r_debug + 8)) (le_enc 8 lm) /\
    0 <= od_addr main < 2 ^ 64 /\ 0 < namep < 2 ^ 64 /\ 0 <= next < 2 ^ 64 /\
    holds (t_ok t) (t_mem t) lm
      (le_enc 8 (od_addr main) ++ le_enc 8 namep ++ le_enc 8 ld ++ le_enc 8 next ++ le_enc 8 prev) /\
    chain_at t next chain /\ (List.length chain < t_fuel t)%nat.

(** What the tool knows about an object. *)
Definition view (o : dynobj) : odesc :=
  mk_odesc (o_l_addr o) (o_filename o) (o_dynsym o) (o_dynstr o) (o_nsyms o) (o_buildid o).

(** Livepatching is initialised: the byte at the symbol __ulp_state is not 0. *)
Definition libpulp_loaded (t : target) (state : Z) : Prop :=
  exists b r15, List.length r15 = 15%nat /\ 0 < b < 256 /\ holds (t_ok t) (t_mem t) state (le_enc 1 b ++ r15).

(** ** /proc/PID/maps *)

(** The value of a number written with hexadecimal digits. *)
Definition hexdigit (c : Z) : Prop := 48 <= c <= 57 \/ 97 <= c <= 102.
Definition hexval (s : list Z) : Z :=
  fold_left (fun v c => 16 * v + (if c <=? 57 then c - 48 else c - 87)) s 0.
Definition hexnum (s : list Z) : Prop := s <> [] /\ Forall hexdigit s /\ hexval s < 2 ^ 64.

(** One line: start-end permissions offset device inode, blanks, path, newline. *)
Record mline := mk_ml { ml_start : list Z; ml_end : list Z; ml_perm : list Z; ml_off : list Z; ml_dev : list Z;
                        ml_inode : list Z; ml_pad : nat; ml_path : list Z }.
Definition mline_text (m : mline) : list Z :=
  ml_start m ++ 45 :: ml_end m ++ 32 :: ml_perm m ++ 32 :: ml_off m ++ 32 :: ml_dev m ++ 32 :: ml_inode m ++
  32 :: repeat 32 (ml_pad m) ++ ml_path m ++ [10].
Definition word (s : list Z) : Prop := s <> [] /\ ~ In 32 s.
Definition mline_ok (m : mline) : Prop :=
  hexnum (ml_start m) /\ hexnum (ml_end m) /\ word (ml_perm m) /\ word (ml_off m) /\ word (ml_dev m) /\
  word (ml_inode m) /\ ~ In 10 (ml_path m).
(** A path without blanks that does not end in a slash (or no path). *)
Definition plain_path (p : list Z) : Prop := ~ In 32 p /\ (p = [] \/ get_basename p <> []).

(** The tool knows the entry points of the libpulp loaded at [base] that are among
    its exported symbols [syms], and its version [text]. *)
Definition entries_known (o : dynobj) (base : Z) (syms : list dsym) (text : list Z) : Prop :=
  (forall bit name, In (bit, name) entry_names ->
     (forall v, In (mk_dsym name v) syms -> ext o bit = u64 (base + v)) /\
     (~ In name (map ds_name syms) -> ext o bit = 0)) /\
  (forall v, In (mk_dsym (zs "__ulp_version") v) syms -> ext o 10 = ulp_version_from_string text).
