(** Where notes are and which of them is the build ID. *)
From Verif Require Import Base LibModel DlModel LibSpec PtModel NtModel.

(** Memory holds the bytes [l] at [a], and they can be read. *)
Definition holds (ok : Z -> bool) (m : mem) (a : Z) (l : list Z) : Prop :=
  mem_read m a (length l) = l /\ forall x, a <= x < a + zlen l -> ok x = true.

(** A mapped segment with the notes [ns]. *)
Definition seg_in_memory (ok : Z -> bool) (m : mem) (a : Z) (ns : list note) : Prop :=
  holds ok m a (flat_map note_bytes ns) /\ 0 < a /\ a + zlen (flat_map note_bytes ns) < 2 ^ 64 /\
  zlen (flat_map note_bytes ns) < 2 ^ 32.

(** The GNU build ID note. *)
Definition gnu_build_id (id : list Z) : note := mk_note 3 [71; 78; 85; 0] id.

(** A note the tool steps over correctly: not of type 3, and the lengths of name
    and descriptor are even. *)
Definition plain_note (n : note) : Prop :=
  note_ok n /\ nt_type n <> 3 /\ zlen (nt_name n) mod 2 = 0 /\ zlen (nt_desc n) mod 2 = 0 /\
  zlen (nt_name n) < 2 ^ 30 /\ zlen (nt_desc n) < 2 ^ 30.
