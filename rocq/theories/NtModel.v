(** Finding the build ID: the tool's walk over the notes of a loaded object
    (tools/introspection.c) and the packer's walk over a section of a file
    (tools/packer.c). The walk of libpulp itself is in DlModel. *)
From Verif Require Import Base InsnQModel LibModel DlModel PtModel.

Definition BUILDID_LEN : Z := 20.

(** read_memory of [n] bytes, or [None] on error. Partial transfers (see C38) are
    taken as errors here. *)
Definition rd (ok : Z -> bool) (m : mem) (a : Z) (n : nat) : option (list Z) :=
  if (vm_span ok a n =? n)%nat then Some (mem_read m a n) else None.

(** Result of walking a segment. *)
Inductive nwalk :=
| W_fuel
| W_error                      (* a header could not be read *)
| W_none                       (* end of segment *)
| W_found (addr len : Z).      (* buildid_addr and buildid_len *)

(** tools/introspection.c:728-729, the attempt at aligning to four bytes, on
    32-bit unsigned values. *)
Definition bump4 (v : Z) : Z := u32 (v + v mod 4).

(** tools/introspection.c:714-745, the loop over the notes of one segment. *)
Fixpoint tool_note_walk (fuel : nat) (ok : Z -> bool) (m : mem) (note_addr note_end : Z) : nwalk :=
  match fuel with
  | O => W_fuel
  | S f =>
      match rd ok m note_addr 12 with
      | None => W_error
      | Some h =>
          let name_len := bump4 (le_dec (firstn 4 h)) in
          let buildid_len := bump4 (le_dec (firstn 4 (skipn 4 h))) in
          let type := le_dec (skipn 8 h) in
          if type =? NT_GNU_BUILD_ID then W_found (u64 (note_addr + 12 + name_len)) buildid_len
          else
            let next := u64 (note_addr + u32 (buildid_len + name_len + 12)) in
            if next <? note_end then tool_note_walk f ok m next note_end else W_none
      end
  end.

(** tools/introspection.c:708-750 over the PT_NOTE segments, given by start address
    and size, until the build ID is found. (That the loop over the program
    headers may end early only once the build ID is found is in lines 748-750.) *)
Fixpoint tool_find_note (fuel : nat) (ok : Z -> bool) (m : mem) (segs : list (Z * Z)) : nwalk :=
  match segs with
  | [] => W_none
  | (a, memsz) :: t =>
      match tool_note_walk fuel ok m a (u64 (a + u32 memsz)) with
      | W_none => tool_find_note fuel ok m t
      | r => r
      end
  end.

(** tools/introspection.c:753-770: what ends up in obj->build_id, which was zeroed
    on allocation. [None]: parse_dynobj_elf_headers failed with ETARGETHOOK. *)
Definition tool_build_id (fuel : nat) (ok : Z -> bool) (m : mem) (segs : list (Z * Z)) : option (list Z) :=
  match tool_find_note fuel ok m segs with
  | W_fuel | W_error => None
  | W_none => Some (repeat 0 20)
  | W_found a len =>
      if (negb (a =? 0)) && (len =? BUILDID_LEN)
      then match rd ok m a 20 with Some d => Some d | None => Some (repeat 0 20) end
      else Some (repeat 0 20)
  end.

(** ** The packer *)

(** libelf's gelf_getnote on a section of 4-byte aligned notes (elfutils,
    gelf_getnote.c): the next offset (0: none), the type, and where the
    descriptor is. *)
Definition align4 (v : Z) : Z := Z.land (u32 (v + 3)) (2 ^ 32 - 4).
Definition gelf_getnote (d : list Z) (offset : Z) : option (Z * Z * Z * Z) :=
  match u32_at d offset, u32_at d (offset + 4), u32_at d (offset + 8) with
  | Some namesz, Some descsz, Some type =>
      let o1 := offset + 12 in
      let n4 := align4 namesz in
      if zlen d - o1 <? n4 then None
      else
        let o2 := o1 + n4 in
        let d4 := align4 descsz in
        if (zlen d - o2 <? d4) || ((d4 =? 0) && negb (descsz =? 0)) then None
        else Some (o2 + d4, type, o2, descsz)
  | _, _, _ => None
  end.

Inductive pbid := P_fuel | P_none | P_found (id : list Z).

(** tools/packer.c:915-945, get_build_id and its twin parse_build_id: the condition
    of the loop assigns the truth value of the comparison to [n], so that the
    second note is looked for at offset 1. *)
Fixpoint packer_walk (fuel : nat) (d : list Z) (offset : Z) : pbid :=
  match fuel with
  | O => P_fuel
  | S f =>
      match gelf_getnote d offset with
      | None => P_none
      | Some (next, type, descp, descsz) =>
          if type =? NT_GNU_BUILD_ID
          then P_found (firstn (Z.to_nat descsz) (skipn (Z.to_nat descp) d))
          else packer_walk f d (b2z (0 <? next))
      end
  end.
Definition packer_get_build_id (fuel : nat) (d : list Z) : pbid := packer_walk fuel d 0.
