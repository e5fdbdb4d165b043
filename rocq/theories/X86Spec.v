(** The few x86_64 instructions that matter at a function entry, as an
    independent reading of the instruction-set manual. *)
From Verif Require Import Base.

(** A signed byte. *)
Definition sbyte (b : Z) : Z := if b <? 128 then b else b - 256.

(** A signed 32-bit little-endian displacement. *)
Definition sdword (l : list Z) : Z :=
  let v := le_dec l in if v <? 2 ^ 31 then v else v - 2 ^ 32.

(** One instruction at [pc]: the address of the next one. [None]: an
    instruction that is not one of those below.
    f3 0f 1e fa    endbr64          continue
    eb d8          jmp rel8         relative to the end of the instruction
    ff 25 d32      jmp [rip+d32]    through memory
    66 90          2-byte nop
    90             1-byte nop *)
Definition cpu_step (m : mem) (pc : Z) : option Z :=
  if (m pc =? 243) && (m (pc + 1) =? 15) && (m (pc + 2) =? 30) && (m (pc + 3) =? 250)
  then Some (pc + 4)
  else if m pc =? 235 then Some (pc + 2 + sbyte (m (pc + 1)))
  else if (m pc =? 255) && (m (pc + 1) =? 37) then
    Some (le_dec (mem_read m (pc + 6 + sdword (mem_read m (pc + 2) 4)) 8))
  else if (m pc =? 102) && (m (pc + 1) =? 144) then Some (pc + 2)
  else if m pc =? 144 then Some (pc + 1)
  else None.

(** [goes_through m a trail b]: execution starting at [a] executes exactly the
    instructions at the addresses [trail] and is then at [b]. *)
Inductive goes_through (m : mem) : Z -> list Z -> Z -> Prop :=
| gt_here a : goes_through m a [] a
| gt_step a a' trail b :
    cpu_step m a = Some a' -> goes_through m a' trail b -> goes_through m a (a :: trail) b.

(** Does the function at [f] start with endbr64? *)
Definition has_endbr (m : mem) (f : Z) : Prop := mem_read m f 4 = [243; 15; 30; 250].

(** Where the two patchable bytes of a livepatchable function are, and where its
    original body starts (just after them). *)
Definition slot (endbr : bool) (f : Z) : Z := if endbr then f + 4 else f.
Definition body (endbr : bool) (f : Z) : Z := slot endbr f + 2.

(** Two one-byte nops, or one two-byte nop. *)
Definition nops_at (m : mem) (a : Z) : Prop :=
  (m a = 144 /\ m (a + 1) = 144) \/ (m a = 102 /\ m (a + 1) = 144).

(** The patchable window of a function: its padding and its entry up to the body. *)
Definition in_window (endbr : bool) (f x : Z) : Prop := f - 14 <= x < body endbr f.

(** Calls of [f] are redirected to [g]: from the entry, execution reaches [g]
    executing only instructions in the function's patchable window. *)
Definition redirected (m : mem) (endbr : bool) (f g : Z) : Prop :=
  exists trail, goes_through m f trail g /\ forall a, In a trail -> in_window endbr f a.

(** Calls of [f] run its original body. *)
Definition unredirected (m : mem) (endbr : bool) (f : Z) : Prop :=
  exists trail, goes_through m f trail (body endbr f) /\
                forall a, In a trail -> f <= a < body endbr f.

(** A function libpulp may be asked to redirect: it starts with endbr64 iff
    [endbr], and its slot holds nops or a short jump (already redirected). *)
Definition livepatchable (m : mem) (endbr : bool) (f : Z) : Prop :=
  (if endbr then has_endbr m f else ~ has_endbr m f) /\
  (nops_at m (slot endbr f) \/ m (slot endbr f) = 235).

(** The function's patchable window is inside the 64-bit address space. *)
Definition window_exists (f : Z) : Prop := 14 <= f /\ f + 6 <= 2 ^ 64.
