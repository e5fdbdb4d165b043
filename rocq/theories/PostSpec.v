(** What post-processing may change. *)
From Verif Require Import Base LibModel DlModel X86Model PtModel PostModel.

(** The byte at position [p] of section [i]. *)
Definition byte_at (secs : list esec) (i : nat) (p : Z) : option Z :=
  match nth_error secs i with
  | Some s => if (0 <=? p) && (p <? zlen (es_data s)) then nth_error (es_data s) (Z.to_nat p) else None
  | None => None
  end.

Definition sec_addr (secs : list esec) (i : nat) : option Z := option_map es_addr (nth_error secs i).

(** The function described by table entry [e] (the address of its padding of 14
    bytes) is in section [i], at position [off]: the first symbol with its address
    says so. *)
Definition function_at (syms : list esym) (secs : list esec) (e : Z) (i : nat) (off : Z) : Prop :=
  exists s a, find (fun s => sy_value s =? e + 14) syms = Some s /\ i = Z.to_nat (sy_shndx s) /\
    sec_addr secs i = Some a /\ off = (e + 14 - a) mod 2 ^ 64.

(** Does it start with endbr64? *)
Definition starts_with_endbr (secs : list esec) (i : nat) (off : Z) : Prop :=
  byte_at secs i off = Some 243 /\ byte_at secs i (off + 1) = Some 15 /\
  byte_at secs i (off + 2) = Some 30 /\ byte_at secs i (off + 3) = Some 250.

(** Position [p] of section [i] is where its two entry nops start. *)
Definition entry_nops (syms : list esym) (secs : list esec) (e : Z) (i : nat) (p : Z) : Prop :=
  exists off, function_at syms secs e i off /\
    ((starts_with_endbr secs i off /\ p = off + 4) \/ (~ starts_with_endbr secs i off /\ p = off)).

(** Table entries are addresses, and the 16 bytes each describes do not overlap. *)
Definition table_ok (entries : list Z) : Prop :=
  (forall e, In e entries -> 0 <= e /\ e + 14 < 2 ^ 64) /\
  (forall e1 e2, In e1 entries -> In e2 entries -> e1 = e2 \/ e1 + 16 <= e2 \/ e2 + 16 <= e1).
