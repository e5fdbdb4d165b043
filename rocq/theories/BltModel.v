(** The commands "ulp livepatchable" and "ulp post" on a whole file (tools/livepatchable.c,
    tools/post.c). Merging the nops themselves is in PostModel. *)
From Coq Require Import String.
From Verif Require Import Base InsnQModel LibModel DlModel X86Model PtModel StrModel PostModel.

(** An ELF file as libelf shows it: for each section its name in the string table ([None]:
    elf_strptr gives NULL), address and data; the entries of the symbol table. Section 0 is the
    reserved one. *)
Record library := mk_library {
  lb_names : list (option (list Z));
  lb_secs : list esec;
  lb_syms : list esym
}.

Inductive found := F_at (i : nat) | F_none | F_crash.

(** post.c:66-74: elf_nextscn begins with section 1; strcmp of NULL is a crash. *)
Fixpoint find_from (i : nat) (names : list (option (list Z))) (name : list Z) : found :=
  match names with
  | [] => F_none
  | None :: _ => F_crash
  | Some s :: t => if bytes_eqb name s then F_at i else find_from (S i) t name
  end.

(** post.c:50-77, find_section_by_name, when the string table exists. *)
Definition find_section_by_name (lb : library) (name : list Z) : found := find_from 1 (tl (lb_names lb)) name.

Definition TABLE : list Z := zs "__patchable_function_entries".

(** What the system calls and libelf answer: open succeeds; elf_begin gives a descriptor (the file is
    ELF); elf_getshdrstrndx succeeds; elf_update writes the file. *)
Record io := mk_io { io_open : bool; io_elf : bool; io_strtab : bool; io_write : bool }.

(** How the command ends; the file after it. *)
Inductive ended := X_status (s : Z) (lb : library) | X_abort (lb : library) | X_ub | X_broken_file (s : Z).

(** livepatchable.c:39-73. With a NULL descriptor elf_getshdrstrndx fails, too. *)
Definition run_livepatchable (o : io) (lb : library) : ended :=
  if negb (io_open o) then X_status 1 lb
  else if negb (io_elf o && io_strtab o) then X_status 1 lb
  else match find_section_by_name lb TABLE with
       | F_crash => X_ub
       | F_none => X_status 1 lb
       | F_at _ => X_status 0 lb
       end.

(** post.c:99-100: the words of the table; the last one is read past the end if the size is not a
    multiple of eight ([None]). *)
Fixpoint table_words (fuel : nat) (d : list Z) : option (list Z) :=
  match fuel, d with
  | _, [] => Some []
  | S k, a :: b :: c :: e :: f :: g :: h :: i :: t =>
      match table_words k t with
      | Some r => Some (le_dec [a; b; c; e; f; g; h; i] :: r)
      | None => None
      end
  | _, _ => None
  end.
Definition table_of (d : list Z) : option (list Z) := table_words (List.length d) d.

(** post.c:117-151, run_post, with nops_fixup (83-115). elf_flagelf of NULL is 0 and fails the assertion. The
    table is read before the merging starts; in the C code each word is read in its turn
    from a buffer the merging does not change, unless a function is said to be inside the table. *)
Definition run_post (o : io) (lb : library) : ended :=
  if negb (io_open o) then X_status 1 lb
  else if negb (io_elf o) then X_abort lb
  else if negb (io_strtab o) then X_status 1 lb
  else match find_section_by_name lb TABLE with
       | F_crash => X_ub
       | F_none => X_status 1 lb
       | F_at i =>
           match nth_error (lb_secs lb) i with
           | None => X_ub
           | Some sec =>
               match table_of (es_data sec) with
               | None => X_ub
               | Some entries =>
                   match nops_fixup (lb_syms lb) entries (lb_secs lb) with
                   | PO_abort => X_abort lb
                   | PO_ub => X_ub
                   | PO_ok secs => if io_write o then X_status 0 (mk_library (lb_names lb) secs (lb_syms lb))
                                   else X_broken_file 1
                   end
               end
           end
       end.
