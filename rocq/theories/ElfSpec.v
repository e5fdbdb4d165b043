(** ELF files as the ELF standard describes them, independently of the reader. *)
From Coq Require Import String.
From Verif Require Import Base StrModel.

(** [n] bytes of the file at [off], and the number stored there. *)
Definition bytes_at (file : list Z) (off n : Z) : list Z := firstn (Z.to_nat n) (skipn (Z.to_nat off) file).
Definition num_at (file : list Z) (off n : Z) : Z := le_dec (bytes_at file off n).

(** The file header: where the section headers are, their size and number, and which
    section holds the names. *)
Definition e_shoff (file : list Z) : Z := num_at file 40 8.
Definition e_shentsize (file : list Z) : Z := num_at file 58 2.
Definition e_shnum (file : list Z) : Z := num_at file 60 2.
Definition e_shstrndx (file : list Z) : Z := num_at file 62 2.

(** Section [i]: the place of its header, its name's place in the table of names, its
    place and size in the file, and its content. *)
Definition sec_hdr (file : list Z) (i : Z) : Z := e_shoff file + 64 * i.
Definition sec_name_off (file : list Z) (i : Z) : Z := num_at file (sec_hdr file i) 4.
Definition sec_off (file : list Z) (i : Z) : Z := num_at file (sec_hdr file i + 24) 8.
Definition sec_size (file : list Z) (i : Z) : Z := num_at file (sec_hdr file i + 32) 8.
Definition sec_data (file : list Z) (i : Z) : list Z := bytes_at file (sec_off file i) (sec_size file i).

(** The content lies in the file. *)
Definition sec_inside (file : list Z) (i : Z) : Prop := sec_off file i + sec_size file i <= zlen file.

(** Section [i] is called [name]: at its place in the table of names there is the name
    and a terminator. *)
Definition sec_name (file : list Z) (i : Z) (name : list Z) : Prop :=
  cstr_ok name /\
  exists pre post, sec_data file (e_shstrndx file) = pre ++ name ++ 0 :: post /\ zlen pre = sec_name_off file i.

(** A well-formed ELF file; its table of names has at most [limit] bytes. *)
Record elf_ok (limit : Z) (file : list Z) : Prop := {
  ok_bytes : bytes_ok file;
  ok_len : 64 <= zlen file < 2 ^ 63;
  ok_magic : bytes_at file 0 4 = [127; 69; 76; 70];
  ok_entsize : e_shentsize file = 64;
  ok_table : e_shoff file + 64 * e_shnum file <= zlen file;
  ok_names : e_shstrndx file < e_shnum file /\ sec_inside file (e_shstrndx file) /\
             sec_size file (e_shstrndx file) <= limit;
  ok_named : forall i, 0 <= i < e_shnum file -> exists name, sec_name file i name
}.

(** The file has a section [name], inside the file, whose content is [data]; it is the
    first one of that name. *)
Definition has_section (file name data : list Z) : Prop :=
  exists i, 0 <= i < e_shnum file /\ sec_name file i name /\
    (forall j, 0 <= j < i -> ~ sec_name file j name) /\
    sec_inside file i /\ sec_data file i = data.

(** ** Example files *)

(** A section header; the fields that are not looked at are zero. *)
Definition shdr_bytes (name off size : Z) : list Z :=
  le_enc 4 name ++ le_enc 4 1 ++ repeat 0 16 ++ le_enc 8 off ++ le_enc 8 size ++ repeat 0 24.

(** The ELF header of a shared object. *)
Definition ehdr_bytes (shoff shentsize shnum shstrndx : Z) : list Z :=
  [127; 69; 76; 70; 2; 1; 1; 0] ++ repeat 0 8 ++ le_enc 2 3 ++ le_enc 2 62 ++ le_enc 4 1 ++ repeat 0 16 ++
  le_enc 8 shoff ++ repeat 0 4 ++ le_enc 2 64 ++ le_enc 2 56 ++ le_enc 2 0 ++
  le_enc 2 shentsize ++ le_enc 2 shnum ++ le_enc 2 shstrndx.

(** A file with the sections "", ".shstrtab" and [name]; its table of names is followed
    by [pad] zeroes. *)
Definition elf_file (name data : list Z) (pad : nat) : list Z :=
  let names := 0 :: zs ".shstrtab" ++ 0 :: name ++ 0 :: repeat 0 pad in
  ehdr_bytes (64 + zlen data + zlen names) 64 3 1 ++ data ++ names ++
  shdr_bytes 0 0 0 ++ shdr_bytes 1 (64 + zlen data) (zlen names) ++ shdr_bytes 11 64 (zlen data).
