(** What ulp extract is for. *)
From Coq Require Import String.
From Verif Require Import Base StrModel TextModel MetaModel DscModel ExtModel.

(** json-c reads back what it printed for [v], an object, which starts with '{' and is
    longer than 5 bytes. *)
Definition json_c (print : json -> list Z) (read : list Z -> option json) (v : json) : Prop :=
  read (print v) = Some v /\ exists rest, print v = 123 :: rest /\ 5 <= zlen rest.

(** The library at [path]: a build ID of 20 bytes, and symbols whose values are below
    [max], under C types. *)
Definition library_at (fs : filesys) (path : list Z) (max : Z) : Prop :=
  exists id dynsym symtab, fs path = Some (F_elf (Some id) dynsym symtab) /\ zlen id = 20 /\ bytes_ok id /\
    Forall (fun s => 0 <= es_value s < max /\ 0 <= es_size s < 2 ^ 64 /\ is_byte (es_info s) /\ is_byte (es_other s)) (dynsym ++ symtab).

(** The packer can open the file. *)
Definition can_open (e : dsc_env) (path : list Z) : Prop :=
  de_open e path = true /\ de_isdir e path = false /\ zlen path < MetaModel.PATH_MAX.
