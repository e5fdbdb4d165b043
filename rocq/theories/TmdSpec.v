(** C92: what one livepatch for one process amounts to, whatever came before. *)
From Verif Require Import Base MetaModel InsnQModel LibModel HeapModel HeapSpec TmdModel.

(** The first section of that name, all names before it being readable. *)
Definition has_section (name data : list Z) (secs : list (option (list Z) * list Z)) : Prop :=
  exists before after, secs = before ++ (Some name, data) :: after /\
    forall n d, In (n, d) before -> exists s, n = Some s /\ s <> name.
Definition no_section (name : list Z) (secs : list (option (list Z) * list Z)) : Prop :=
  forall n d, In (n, d) secs -> exists s, n = Some s /\ s <> name.

(** The section asked for: `.ulp.rev` for a reversal, `.ulp` otherwise. *)
Definition wanted (revert : bool) : list Z :=
  if revert then [46; 117; 108; 112; 46; 114; 101; 118] else [46; 117; 108; 112].

(** The livepatch as the tool reads it from the container: its section with the path in it. *)
Definition holds (q : treq) (r : pres (option (list Z))) : Prop :=
  r_old q = false /\ exists secs data, r_file q = Some (FElf secs) /\
    has_section (wanted (r_revert q)) data secs /\ data <> [] /\ extract_ulp_from_so_to_mem data (r_path q) = r.

(** The result of a request taken alone, and how many files stay open. *)
Inductive answers (q : treq) : Z -> Z -> Prop :=
| ans_old : r_old q = true -> answers q EOLDULP 0
| ans_library : r_old q = false -> r_file q = None -> answers q (r_rest q None) 0
| ans_unreadable f : r_old q = false -> r_file q = Some f -> (f = FMissing \/ f = FRefused \/ f = FNoTable) -> answers q ENOMETA 0
| ans_none secs : r_old q = false -> r_file q = Some (FElf secs) -> no_section (wanted (r_revert q)) secs -> answers q ENOMETA 0
| ans_large : holds q (P_ok None) -> answers q ENOMETA 1
| ans_invalid buf c : holds q (P_ok (Some buf)) -> parse_metadata_from_mem (r_junk q) buf = P_err c -> answers q c 0
| ans_read buf md : holds q (P_ok (Some buf)) -> parse_metadata_from_mem (r_junk q) buf = P_ok md -> answers q (r_rest q (Some md)) 0.

Inductive answers_all : list treq -> list Z -> Z -> Prop :=
| all_nil : answers_all [] [] 0
| all_cons q r k l rs n : answers q r k -> answers_all l rs n -> answers_all (q :: l) (r :: rs) (k + n).

(** Nothing is left of the livepatch before: the global variable is cleared, the heap in order. *)
Definition rested (t : tool) : Prop :=
  t_so t = None /\ t_obj t = None /\ t_deps t = [] /\ t_refs t = [] /\ in_order (t_heap t).

(** The livepatch can be read. *)
Definition readable (q : treq) : Prop :=
  forall buf c, holds q (P_ok (Some buf)) -> parse_metadata_from_mem (r_junk q) buf <> P_err c.
