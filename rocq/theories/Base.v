(** Common vocabulary of the model: bytes, little-endian integers, flat
    memories, C strings.  Nothing here models a particular function of
    libpulp; it is the language the model files are written in. *)
From Coq Require Export ZArith List Lia Bool.
From Coq Require Export ZifyBool ZifyNat.
Export ListNotations.
Open Scope Z_scope.

Arguments Z.add : simpl never.
Arguments Z.sub : simpl never.
Arguments Z.mul : simpl never.
Arguments Z.div : simpl never.
Arguments Z.modulo : simpl never.
Arguments Z.land : simpl never.
Arguments Z.lor : simpl never.

(** Length of a list as an integer. *)
Definition zlen {A} (l : list A) : Z := Z.of_nat (length l).

(** A byte is an integer in [0,256). *)
Definition is_byte (b : Z) : Prop := 0 <= b < 256.
Definition bytes_ok (l : list Z) : Prop := Forall is_byte l.
Definition is_byteb (b : Z) : bool := (0 <=? b) && (b <? 256).

(** [le_enc n v]: the [n] low bytes of [v], least significant first (how x86_64
    and ppc64le store an integer). *)
Fixpoint le_enc (n : nat) (v : Z) : list Z :=
  match n with
  | O => []
  | S n' => (v mod 256) :: le_enc n' (v / 256)
  end.

(** [le_dec l]: the integer whose little-endian bytes are [l]. *)
Fixpoint le_dec (l : list Z) : Z :=
  match l with
  | [] => 0
  | b :: t => b + 256 * le_dec t
  end.

(** Flat memory: address to byte. *)
Definition mem := Z -> Z.

(** [mem_read m a n]: the [n] bytes at address [a]. *)
Fixpoint mem_read (m : mem) (a : Z) (n : nat) : list Z :=
  match n with
  | O => []
  | S n' => m a :: mem_read m (a + 1) n'
  end.

(** [mem_write m a l]: store the bytes [l] at address [a]. *)
Definition mem_write (m : mem) (a : Z) (l : list Z) : mem :=
  fun x => if (a <=? x) && (x <? a + zlen l)
           then nth (Z.to_nat (x - a)) l 0
           else m x.

(** Pointwise equality of memories (avoids functional extensionality). *)
Definition mem_eq (m1 m2 : mem) : Prop := forall x, m1 x = m2 x.

(** [mem_eq_out m1 m2 a n]: equal outside the [n] bytes at [a]. *)
Definition mem_eq_out (m1 m2 : mem) (a n : Z) : Prop :=
  forall x, ~ (a <= x < a + n) -> m1 x = m2 x.

(** C strings: lists of non-NUL bytes (the terminator is implicit). *)
Definition is_cchar (b : Z) : Prop := 0 < b < 256.
Definition cstr_ok (s : list Z) : Prop := Forall is_cchar s.

(** Equality test on byte strings ([strcmp]/[memcmp] = 0). *)
Fixpoint bytes_eqb (a b : list Z) : bool :=
  match a, b with
  | [], [] => true
  | x :: a', y :: b' => (x =? y) && bytes_eqb a' b'
  | _, _ => false
  end.

(** Truncation to unsigned 32 and 64 bits. *)
Definition u32 (v : Z) : Z := v mod 2 ^ 32.
Definition u64 (v : Z) : Z := v mod 2 ^ 64.

(** Interpretation of a 32-bit pattern as a signed int. *)
Definition s32 (v : Z) : Z :=
  let u := u32 v in if u <? 2 ^ 31 then u else u - 2 ^ 32.

(** C truth values. *)
Definition b2z (b : bool) : Z := if b then 1 else 0.
