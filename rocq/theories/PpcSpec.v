(** The few Power ISA instructions that matter at a function entry, as an
    independent reading of the manual (Power ISA v3.0, book I). *)
From Verif Require Import Base.

(** Registers, counter and memory of one hardware thread. *)
Record cpu := mk_cpu {
  c_pc : Z;
  c_gpr : Z -> Z;
  c_lr : Z;
  c_ctr : Z;
  c_mem : mem
}.

Definition gset (g : Z -> Z) (r v : Z) : Z -> Z := fun x => if x =? r then v else g x.
Definition sext (bits v : Z) : Z := if v <? 2 ^ (bits - 1) then v else v - 2 ^ bits.
(** Contents of RA, or 0 when RA is 0, in address and addi forms. *)
Definition ra0 (g : Z -> Z) (r : Z) : Z := if r =? 0 then 0 else g r.

(** Bits [lo], ..., [lo + n - 1] of the word, counted from the least significant. *)
Definition fld (w lo n : Z) : Z := (w / 2 ^ lo) mod 2 ^ n.

(** One instruction; [None]: not one of those below.
    primary opcode 14 addi, 15 addis, 24 ori, 62/0 std, 58/0 ld, 18 b and bl,
    30/3 rldimi, 31/467 mtspr, 31/339 mfspr (LR, CTR), 19/528 bcctr and 19/16 bclr
    ("always" form). *)
Definition ppc_step (c : cpu) : option cpu :=
  let w := le_dec (mem_read (c_mem c) (c_pc c) 4) in
  let g := c_gpr c in
  let op := w / 2 ^ 26 in
  let rt := fld w 21 5 in
  let ra := fld w 16 5 in
  let si := sext 16 (fld w 0 16) in
  let ui := fld w 0 16 in
  let next := u64 (c_pc c + 4) in
  let ds := sext 16 (4 * fld w 2 14) in
  if op =? 14 then Some (mk_cpu next (gset g rt (u64 (ra0 g ra + si))) (c_lr c) (c_ctr c) (c_mem c))
  else if op =? 15 then Some (mk_cpu next (gset g rt (u64 (ra0 g ra + si * 2 ^ 16))) (c_lr c) (c_ctr c) (c_mem c))
  else if op =? 24 then Some (mk_cpu next (gset g ra (Z.lor (g rt) ui)) (c_lr c) (c_ctr c) (c_mem c))
  else if (op =? 62) && (fld w 0 2 =? 0) then
    Some (mk_cpu next g (c_lr c) (c_ctr c) (mem_write (c_mem c) (u64 (ra0 g ra + ds)) (le_enc 8 (g rt))))
  else if (op =? 58) && (fld w 0 2 =? 0) then
    Some (mk_cpu next (gset g rt (le_dec (mem_read (c_mem c) (u64 (ra0 g ra + ds)) 8))) (c_lr c) (c_ctr c) (c_mem c))
  else if (op =? 18) && (fld w 1 1 =? 0) then
    Some (mk_cpu (u64 (c_pc c + sext 26 (4 * fld w 2 24))) g (if fld w 0 1 =? 1 then next else c_lr c) (c_ctr c) (c_mem c))
  else if (op =? 30) && (fld w 2 3 =? 3) && (fld w 0 1 =? 0) then
    let sh := fld w 11 5 + 32 * fld w 1 1 in
    let mb := fld w 6 5 + 32 * fld w 5 1 in
    if mb + sh <=? 63 then
      (* bits sh..63-mb (from the right) of RA are replaced by the low bits of RS *)
      Some (mk_cpu next (gset g ra ((g ra / 2 ^ (64 - mb)) * 2 ^ (64 - mb) +
                                    (g rt mod 2 ^ (64 - mb - sh)) * 2 ^ sh + g ra mod 2 ^ sh))
              (c_lr c) (c_ctr c) (c_mem c))
    else None
  else if (op =? 31) && (fld w 1 10 =? 467) && (fld w 11 10 =? 288) then
    Some (mk_cpu next g (c_lr c) (g rt) (c_mem c))
  else if (op =? 31) && (fld w 1 10 =? 467) && (fld w 11 10 =? 256) then
    Some (mk_cpu next g (g rt) (c_ctr c) (c_mem c))
  else if (op =? 31) && (fld w 1 10 =? 339) && (fld w 11 10 =? 288) then
    Some (mk_cpu next (gset g rt (c_ctr c)) (c_lr c) (c_ctr c) (c_mem c))
  else if (op =? 31) && (fld w 1 10 =? 339) && (fld w 11 10 =? 256) then
    Some (mk_cpu next (gset g rt (c_lr c)) (c_lr c) (c_ctr c) (c_mem c))
  else if (op =? 19) && (fld w 1 10 =? 528) && (rt =? 20) then
    Some (mk_cpu (4 * (c_ctr c / 4)) g (if fld w 0 1 =? 1 then next else c_lr c) (c_ctr c) (c_mem c))
  else if (op =? 19) && (fld w 1 10 =? 16) && (rt =? 20) then
    Some (mk_cpu (4 * (c_lr c / 4)) g (if fld w 0 1 =? 1 then next else c_lr c) (c_ctr c) (c_mem c))
  else None.

(** [runs c trail c']: from [c], exactly the instructions at the addresses [trail]
    are executed, leading to [c']. *)
Inductive runs : cpu -> list Z -> cpu -> Prop :=
| runs_here c : runs c [] c
| runs_step c c1 trail c' : ppc_step c = Some c1 -> runs c1 trail c' -> runs c (c_pc c :: trail) c'.

(** ** Function entries *)

Definition NOP_WORD : Z := 1610612736.   (* 60000000, ori 0,0,0 *)
Definition word_at (m : mem) (a : Z) : Z := le_dec (mem_read m a 4).

(** The unconditional branch from [pc] to [t]: opcode 18, 26-bit displacement. *)
Definition branch_word (pc t : Z) : Z := 18 * 2 ^ 26 + (t - pc) mod 2 ^ 26.

(** The patchable instruction of a function: a nop, or, when redirected already, a
    branch to the area of 13 instructions in front of the function. *)
Definition slot_ok (m : mem) (f off : Z) : Prop :=
  word_at m (f + off) = NOP_WORD \/ word_at m (f + off) = branch_word (f + off) (f - 52).

(** A livepatchable function without ([off] = 0) or with ([off] = 8) the two
    instructions that set up the TOC pointer. *)
Definition ppc_livepatchable (m : mem) (f off : Z) : Prop :=
  (forall x, is_byte (m x)) /\
  ((off = 0 /\ slot_ok m f 0) \/ (off = 8 /\ ~ slot_ok m f 0 /\ slot_ok m f 8)).

(** The bytes libpulp may change for a function. *)
Definition ppc_window (f off x : Z) : Prop := f - 52 <= x < f \/ f + off <= x < f + off + 4.
