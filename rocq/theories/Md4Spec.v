(** The MD4 message digest as RFC 1320 describes it, for messages of whole bytes. *)
From Verif Require Import Base.

(** 3.1 and 3.2: the message is followed by a 1 bit, the least number of 0 bits
    that makes the length congruent to 448 modulo 512, and the length of the
    message in bits as a 64-bit number, low-order byte first. *)
Definition padded (msg p : list Z) : Prop :=
  exists zeros : nat,
    p = msg ++ [128] ++ repeat 0 zeros ++ le_enc 8 (8 * zlen msg) /\
    (8 * (zlen msg + 1 + Z.of_nat zeros)) mod 512 = 448 /\
    forall fewer : nat, (8 * (zlen msg + 1 + Z.of_nat fewer)) mod 512 = 448 -> (zeros <= fewer)%nat.

(** The words of a block, low-order byte first. *)
Fixpoint words (l : list Z) : list Z :=
  match l with
  | a :: b :: c :: d :: t => (a + 256 * b + 65536 * c + 16777216 * d) :: words t
  | _ => []
  end.

(** 2: sum of words modulo 2^32, and X <<< s. *)
Definition rotl (x s : Z) : Z := (x * 2 ^ s) mod 2 ^ 32 + x / 2 ^ (32 - s).

(** 3.4: the auxiliary functions. *)
Definition F (x y z : Z) : Z := Z.lor (Z.land x y) (Z.land (2 ^ 32 - 1 - x) z).
Definition G (x y z : Z) : Z := Z.lor (Z.lor (Z.land x y) (Z.land x z)) (Z.land y z).
Definition H (x y z : Z) : Z := Z.lxor (Z.lxor x y) z.

(** One operation [abcd k s]; the roles of the four registers then rotate, so
    that the next operation is [dabc k s]. *)
Definition op (f : Z -> Z -> Z -> Z) (t : Z) (X : list Z) (st : Z * Z * Z * Z) (ks : nat * Z)
  : Z * Z * Z * Z :=
  let '(a, b, c, d) := st in
  (d, rotl ((a + f b c d + nth (fst ks) X 0 + t) mod 2 ^ 32) (snd ks), b, c).

(** The order of the words and the shift amounts of the three rounds. *)
Definition sched (order : list nat) (shifts : list Z) : list (nat * Z) :=
  combine order (shifts ++ shifts ++ shifts ++ shifts).
Definition sched1 := sched (seq 0 16) [3; 7; 11; 19].
Definition sched2 := sched [0; 4; 8; 12; 1; 5; 9; 13; 2; 6; 10; 14; 3; 7; 11; 15]%nat [3; 5; 9; 13].
Definition sched3 := sched [0; 8; 4; 12; 2; 10; 6; 14; 1; 9; 5; 13; 3; 11; 7; 15]%nat [3; 9; 11; 15].

(** 3.4: one block of 16 words. *)
Definition rfc_block (st : Z * Z * Z * Z) (X : list Z) : Z * Z * Z * Z :=
  let '(a', b', c', d') :=
    fold_left (op H 0x6ED9EBA1 X) sched3
      (fold_left (op G 0x5A827999 X) sched2 (fold_left (op F 0 X) sched1 st)) in
  let '(a, b, c, d) := st in
  ((a + a') mod 2 ^ 32, (b + b') mod 2 ^ 32, (c + c') mod 2 ^ 32, (d + d') mod 2 ^ 32).

(** The blocks of 64 bytes of a padded message. *)
Fixpoint blocks (n : nat) (p : list Z) : list (list Z) :=
  match n with
  | O => []
  | S n' => words (firstn 64 p) :: blocks n' (skipn 64 p)
  end.

(** 3.3 and 3.5: the digest of a padded message. *)
Definition rfc_digest (p : list Z) : list Z :=
  let '(a, b, c, d) :=
    fold_left rfc_block (blocks (length p / 64) p)
      (0x67452301, 0xefcdab89, 0x98badcfe, 0x10325476) in
  le_enc 4 a ++ le_enc 4 b ++ le_enc 4 c ++ le_enc 4 d.
