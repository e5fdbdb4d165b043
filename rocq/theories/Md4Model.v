(** The digest of the packer (tools/md4.c) and the patch ID built from it
    (tools/packer.c). *)
From Verif Require Import Base.

(** tools/md4.c:31-34. *)
Definition BLOCK_LENGTH : Z := 64.
Definition BLOCK_PADDING : Z := 56.
Definition SIZE_FIELD : Z := 8.

(** A heap buffer is the list of its bytes; an access outside it is undefined
    behaviour, [None]. *)
Definition store_at (b : list Z) (i v : Z) : option (list Z) :=
  if (0 <=? i) && (i <? zlen b)
  then Some (firstn (Z.to_nat i) b ++ (v mod 256) :: skipn (S (Z.to_nat i)) b)
  else None.
Definition load_at (b : list Z) (i : Z) : option Z :=
  if (0 <=? i) && (i <? zlen b) then Some (nth (Z.to_nat i) b 0) else None.

(** tools/md4.c:82-108: number of zero bytes and total size, in uint64_t. *)
Definition md4_zeros (length : Z) : Z :=
  let zeros := u64 (length + 1) mod BLOCK_LENGTH in
  if zeros <=? BLOCK_PADDING then BLOCK_PADDING - zeros
  else BLOCK_LENGTH - (zeros - BLOCK_PADDING).
Definition md4_total (length : Z) : Z :=
  u64 (u64 (u64 (length + 1) + md4_zeros length) + SIZE_FIELD).

(** tools/md4.c:131-134: the size field, one byte at a time. *)
Fixpoint put_size (n : nat) (length zeros i : Z) (b : list Z) : option (list Z) :=
  match n with
  | O => Some b
  | S n' =>
      match store_at b (u64 (length + 1 + zeros + i)) (Z.shiftr (u64 (length * 8)) (8 * i)) with
      | None => None
      | Some b' => put_size n' length zeros (i + 1) b'
      end
  end.

(** tools/md4.c:110-134: the padded copy of the input (malloc succeeds). *)
Definition md4_buffer (input : list Z) : option (list Z) :=
  let length := zlen input in
  let total := md4_total length in
  if total <? length then None
  else
    let b0 := input ++ repeat 0 (Z.to_nat (total - length)) in
    match store_at b0 length 0x80 with
    | None => None
    | Some b1 => put_size 8 length (md4_zeros length) 0 b1
    end.

(** tools/md4.c:151-163: one word, four bytes from the highest address down. *)
Definition read_byte_into (b : list Z) (p k : Z) (x : option Z) : option Z :=
  match x, load_at b (p + (3 - k)) with
  | Some x, Some c => Some (Z.lor (u32 (Z.shiftl x 8)) (Z.land 0x00ff c))
  | _, _ => None
  end.
Definition read_word (b : list Z) (p : Z) : option Z :=
  fold_left (fun x k => read_byte_into b p k x) [0; 1; 2; 3] (Some 0).

(** The 16 words of the block at [p]. *)
Fixpoint read_words (n : nat) (b : list Z) (p : Z) : option (list Z) :=
  match n with
  | O => Some []
  | S n' => match read_word b p, read_words n' b (p + 4) with
            | Some w, Some l => Some (w :: l)
            | _, _ => None
            end
  end.

(** The four state variables. *)
Inductive reg := rA | rB | rC | rD.
Record regs := mk_regs { gA : Z; gB : Z; gC : Z; gD : Z }.
Definition get (r : reg) (s : regs) : Z :=
  match r with rA => gA s | rB => gB s | rC => gC s | rD => gD s end.
Definition set (r : reg) (v : Z) (s : regs) : regs :=
  match r with
  | rA => mk_regs v (gB s) (gC s) (gD s)
  | rB => mk_regs (gA s) v (gC s) (gD s)
  | rC => mk_regs (gA s) (gB s) v (gD s)
  | rD => mk_regs (gA s) (gB s) (gC s) v
  end.

(** tools/md4.c:172, 202, 232: the round functions on uint32_t. *)
Definition cF (x y z : Z) : Z := Z.lor (Z.land x y) (Z.land (u32 (Z.lnot x)) z).
Definition cG (x y z : Z) : Z := Z.lor (Z.lor (Z.land x y) (Z.land x z)) (Z.land y z).
Definition cH (x y z : Z) : Z := Z.lxor (Z.lxor x y) z.

(** A = (A << s) | (A >> (32 - s)) on uint32_t. *)
Definition c_rot (v s : Z) : Z := Z.lor (u32 (Z.shiftl v s)) (Z.shiftr v (32 - s)).

(** One of the macro calls R1, R2, R3 of tools/md4.c:171-260. *)
Inductive call := R1 (a b c d : reg) (i : nat) (s : Z)
                | R2 (a b c d : reg) (i : nat) (s : Z)
                | R3 (a b c d : reg) (i : nat) (s : Z).
Definition do_call (X : list Z) (st : regs) (k : call) : regs :=
  match k with
  | R1 a b c d i s =>
      set a (c_rot (u32 (get a st + cF (get b st) (get c st) (get d st) + nth i X 0)) s) st
  | R2 a b c d i s =>
      set a (c_rot (u32 (get a st + cG (get b st) (get c st) (get d st) + nth i X 0 + 0x5A827999)) s) st
  | R3 a b c d i s =>
      set a (c_rot (u32 (get a st + cH (get b st) (get c st) (get d st) + nth i X 0 + 0x6ED9EBA1)) s) st
  end.

(** tools/md4.c:178-194. *)
Definition round1 : list call :=
  [ R1 rA rB rC rD  0  3; R1 rD rA rB rC  1  7; R1 rC rD rA rB  2 11; R1 rB rC rD rA  3 19;
    R1 rA rB rC rD  4  3; R1 rD rA rB rC  5  7; R1 rC rD rA rB  6 11; R1 rB rC rD rA  7 19;
    R1 rA rB rC rD  8  3; R1 rD rA rB rC  9  7; R1 rC rD rA rB 10 11; R1 rB rC rD rA 11 19;
    R1 rA rB rC rD 12  3; R1 rD rA rB rC 13  7; R1 rC rD rA rB 14 11; R1 rB rC rD rA 15 19 ].
(** tools/md4.c:208-224. *)
Definition round2 : list call :=
  [ R2 rA rB rC rD  0  3; R2 rD rA rB rC  4  5; R2 rC rD rA rB  8  9; R2 rB rC rD rA 12 13;
    R2 rA rB rC rD  1  3; R2 rD rA rB rC  5  5; R2 rC rD rA rB  9  9; R2 rB rC rD rA 13 13;
    R2 rA rB rC rD  2  3; R2 rD rA rB rC  6  5; R2 rC rD rA rB 10  9; R2 rB rC rD rA 14 13;
    R2 rA rB rC rD  3  3; R2 rD rA rB rC  7  5; R2 rC rD rA rB 11  9; R2 rB rC rD rA 15 13 ].
(** tools/md4.c:238-254. *)
Definition round3 : list call :=
  [ R3 rA rB rC rD  0  3; R3 rD rA rB rC  8  9; R3 rC rD rA rB  4 11; R3 rB rC rD rA 12 15;
    R3 rA rB rC rD  2  3; R3 rD rA rB rC 10  9; R3 rC rD rA rB  6 11; R3 rB rC rD rA 14 15;
    R3 rA rB rC rD  1  3; R3 rD rA rB rC  9  9; R3 rC rD rA rB  5 11; R3 rB rC rD rA 13 15;
    R3 rA rB rC rD  3  3; R3 rD rA rB rC 11  9; R3 rC rD rA rB  7 11; R3 rB rC rD rA 15 15 ].

(** tools/md4.c:165-265, one block. *)
Definition md4_block (X : list Z) (st : regs) : regs :=
  let st3 := fold_left (do_call X) round3
               (fold_left (do_call X) round2 (fold_left (do_call X) round1 st)) in
  mk_regs (u32 (gA st3 + gA st)) (u32 (gB st3 + gB st))
          (u32 (gC st3 + gC st)) (u32 (gD st3 + gD st)).

(** tools/md4.c:146-266, the loop over the [n] blocks, [p] being bufptr. *)
Fixpoint md4_blocks (n : nat) (b : list Z) (p : Z) (st : regs) : option regs :=
  match n with
  | O => Some st
  | S n' => match read_words 16 b p with
            | None => None
            | Some X => md4_blocks n' b (p + 64) (md4_block X st)
            end
  end.

(** tools/md4.c:280-288, APPEND of one word. *)
Definition append_word (v : Z) : list Z :=
  map (fun i => Z.land (Z.shiftr v (8 * i)) 0x0ff) [0; 1; 2; 3].

(** tools/md4.c:43-296, MD4.  [None]: an access outside a buffer. *)
Definition MD4 (input : list Z) : option (list Z) :=
  match md4_buffer input with
  | None => None
  | Some b =>
      match md4_blocks (Z.to_nat (md4_total (zlen input) / BLOCK_LENGTH)) b 0
              (mk_regs 0x67452301 0xefcdab89 0x98badcfe 0x10325476) with
      | None => None
      | Some st => Some (append_word (gA st) ++ append_word (gB st) ++
                         append_word (gC st) ++ append_word (gD st))
      end
  end.

(** tools/packer.c:981-1077, write_patch_id, from the build ID of the live patch
    and the content of the description file (both read successfully; the file is
    below 2 GiB, its size is kept in an int). *)
Definition write_patch_id (build_id description : list Z) : option (list Z) :=
  let zeroed := repeat 0 32 in
  let length := if 16 <? zlen build_id then 16 else zlen build_id in
  let with_id := firstn (Z.to_nat length) build_id ++ skipn (Z.to_nat length) zeroed in
  match MD4 description with
  | None => None
  | Some digest => Some (firstn 16 with_id ++ firstn 16 digest ++ skipn (16 + 16) with_id)
  end.
