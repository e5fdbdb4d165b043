(** Specification vocabulary for text handling. Independent of the model's
    helper functions. *)
From Coq Require Import String.
From Verif Require Import Base StrModel TextModel.

(** [decimal t v]: [t] is a non-empty string of decimal digits of value [v]
    (leading zeros allowed). *)
Inductive decimal : list Z -> Z -> Prop :=
| dec_one d : 0 <= d <= 9 -> decimal [48 + d] d
| dec_more t v d : decimal t v -> 0 <= d <= 9 -> decimal (t ++ [48 + d]) (10 * v + d).

(** The text "x.y.z". *)
Definition dotted (x y z : list Z) : list Z := x ++ [46] ++ y ++ [46] ++ z.

(** A version component. *)
Definition short (v : Z) : Prop := 0 <= v <= 65535.

(** Lexicographic order of triples. *)
Definition lex3 (a b c a' b' c' : Z) : Prop :=
  a < a' \/ (a = a' /\ b < b') \/ (a = a' /\ b = b' /\ c < c').

(** [no_dot t]: a possible component: non-empty text without a dot. *)
Definition component (t : list Z) : Prop := t <> [] /\ ~ In 46 t.

(** What follows the third component: nothing, or a dot and anything. *)
Definition tail_ok (s : list Z) : Prop := s = [] \/ exists r, s = 46 :: r.

(** A component that must be refused: it is not a number, or the number does not
    fit in 16 bits.  The range [2^32, 2^63) is left out here. *)
Definition bad_component (t : list Z) : Prop :=
  (forall v, ~ decimal t v) \/
  (exists v, decimal t v /\ (65535 < v < 2 ^ 32 \/ 2 ^ 63 <= v)).

(** The error codes of include/error_common.h:38-72 above 255, and the message
    each line of the table below them (77-113) gives to it. *)
Definition messages : list (Z * string) :=
  [ (256, "Unknown error"); (257, "Build ID mismatch");
    (258, "Error attaching to process"); (259, "Process without debug tag");
    (260, "No link map in object"); (261, "Invalid program header");
    (262, "Unable to find process entry address");
    (263, "Libpulp not found in target process");
    (264, "Thread attach failure"); (265, "Thread dettach failure");
    (266, "Invalid .ulp file"); (267, "To be patched function not found");
    (268, "New function not found"); (269, "No metadata in .so");
    (270, "State update failure"); (271, "Unable to retrieve ulp state");
    (272, "Patch not applied"); (273, "Dependency failure");
    (274, "Address read error"); (275, "Patch already applied");
    (276, "Target library not loaded"); (277, "libpulp.so hook routine not run");
    (278, "Function is not livepatchable"); (279, "No file matched wildcard");
    (280, "Livepatching blocked by user request");
    (281, "Libpulp version is too old"); (282, "Libpulp initialization failure");
    (283, "Page permission error"); (284, "No patches installed");
    (285, "Instruction queue in inconsistent state"); (286, "ULP tool is too old");
    (287, "Failure in dlopen"); (288, "Libdl not found.");
    (289, "Libc not found or unsupported.") ]%string.

(** Lower-case hexadecimal digits. *)
Definition is_lower_hex (c : Z) : Prop := 48 <= c <= 57 \/ 97 <= c <= 102.

(** Any hexadecimal digit. *)
Definition is_hex (c : Z) : Prop := 48 <= c <= 57 \/ 97 <= c <= 102 \/ 65 <= c <= 70.

Definition is_build_id_value (id : list Z) : Prop := bytes_ok id /\ length id = 20%nat.

(** The C types of the fields of a library description. *)
Definition symbol_ok (s : symbol) : Prop :=
  0 <= sy_offset s < 2 ^ 64 /\ 0 <= sy_size s < 2 ^ 32 /\
  is_byte (sy_info s) /\ is_byte (sy_other s).
Definition so_info_ok (i : so_info) : Prop :=
  is_build_id_value (so_buildid i) /\ Forall symbol_ok (so_symbols i).

(** The symbol an ELF symbol table entry describes. *)
Definition elf_symbol (s : elfsym) : symbol :=
  mkSym (es_name s) (es_value s) (es_size s) (es_info s) (es_other s).
