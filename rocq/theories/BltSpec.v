(** C97: what a compiler and a linker deliver, and what a loaded library is. *)
From Verif Require Import Base X86Spec DlModel PostModel PostSpec BltModel.

(** The library has a table of its livepatchable functions: the first section of that name, and the
    names in front of it can be read. *)
Definition has_table (lb : library) (entries : list Z) : Prop :=
  exists first before after addr,
    lb_names lb = first :: map Some before ++ Some TABLE :: after /\ ~ In TABLE before /\
    nth_error (lb_secs lb) (S (length before)) = Some (mk_esec addr (concat (map (le_enc 8) entries))).

(** Table entry [e] as the compiler makes it: the function is in section [i] at [off], has at least four
    bytes, and its two entry nops (at [p], behind an endbr64 if there is one) are one byte each. *)
Definition as_compiled (lb : library) (e : Z) (i : nat) (off p : Z) : Prop :=
  function_at (lb_syms lb) (lb_secs lb) e i off /\ byte_at (lb_secs lb) i (off + 3) <> None /\
  ((starts_with_endbr (lb_secs lb) i off /\ p = off + 4) \/ (~ starts_with_endbr (lb_secs lb) i off /\ p = off)) /\
  byte_at (lb_secs lb) i p = Some 144 /\ byte_at (lb_secs lb) i (p + 1) = Some 144.

(** The function of entry [e] is not in the symbol table. *)
Definition no_symbol (lb : library) (e : Z) : Prop := forall s, In s (lb_syms lb) -> sy_value s <> e + 14.

(** The sections with numbers in [text] are in memory, [base] above the addresses they were linked
    for. *)
Definition loaded_at (m : mem) (base : Z) (text : nat -> Prop) (lb : library) : Prop :=
  forall i a p b, text i -> sec_addr (lb_secs lb) i = Some a -> byte_at (lb_secs lb) i p = Some b -> m (base + a + p) = b.

(** The run-time addresses of the functions of the table. *)
Definition entry_points (base : Z) (entries : list Z) : list Z := map (fun e => base + (e + 14)) entries.

(** [eb] says which of them start with endbr64; they are in loaded sections, in the address
    space, and their patchable windows are apart. *)
Record layout (lb : library) (entries : list Z) (base : Z) (text : nat -> Prop) (eb : Z -> bool) : Prop := {
  ly_where : forall e i off, In e entries -> function_at (lb_syms lb) (lb_secs lb) e i off ->
    text i /\ (eb (base + (e + 14)) = true <-> starts_with_endbr (lb_secs lb) i off) /\
    exists a, sec_addr (lb_secs lb) i = Some a /\ 0 <= e + 14 - a < 2 ^ 64;
  ly_space : forall e, In e entries -> 0 <= base /\ base + (e + 14) + 6 <= 2 ^ 64;
  ly_apart : forall e1 e2 x, In e1 entries -> In e2 entries ->
    in_window (eb (base + (e1 + 14))) (base + (e1 + 14)) x -> in_window (eb (base + (e2 + 14))) (base + (e2 + 14)) x -> e1 = e2
}.

(** Everything works: the file can be opened, read and written. *)
Definition io_ok : io := mk_io true true true true.
