(** The tool working through many livepatches and processes: the global variable `ulp` into
    which each livepatch is read, the memory it hangs on, and the files it opens
    (tools/trigger.c, tools/introspection.c, tools/elf-extra.c). Reading is HeapModel's, which
    is common to the tool and the library. *)
From Verif Require Import Base MetaModel InsnQModel LibModel HeapModel.

(** A container file: it cannot be opened, elf_begin refuses it, it has no section table, or
    its sections with their names ([None]: the name is not in the string table). *)
Inductive tfile :=
| FMissing
| FRefused
| FNoTable
| FElf (secs : list (option (list Z) * list Z)).

(** Finding a section ends with it, without it, or in a crash. *)
Inductive found := SecCrash | SecNone | SecData (data : list Z).

(** tools/elf-extra.c:69-94, get_elfscn_by_name; elf_strptr gives NULL for a name that is not
    in the string table, and strcmp reads it. *)
Fixpoint get_elfscn_by_name (name : list Z) (secs : list (option (list Z) * list Z)) : found :=
  match secs with
  | [] => SecNone
  | (None, _) :: _ => SecCrash
  | (Some n, data) :: t => if bytes_eqb n name then SecData data else get_elfscn_by_name name t
  end.

(** One livepatch for one process. [r_old]: libpulp and the tool do not fit
    (tools/trigger.c:97-102); [r_file]: the container, [None] when only a library is to be
    reverted; [r_path]: prefix and real path; [r_rest]: what becomes of the livepatch after it was
    read (check_patch_sanity and the attempts, 127-224). *)
Record treq := mk_treq {
  r_old : bool; r_file : option tfile; r_path : list Z; r_revert : bool; r_junk : Z;
  r_rest : option meta -> Z
}.
Definition section_name (revert : bool) : list Z :=
  if revert then [46; 117; 108; 112; 46; 114; 101; 118] else [46; 117; 108; 112].

(** The tool: its heap, the pointers in the global `ulp`, its open files. *)
Record tool := mk_tool {
  t_heap : hctx;
  t_so : option nat; t_obj : option hobj; t_deps : list nat; t_refs : list href;
  t_files : Z
}.

(** tools/introspection.c:263-273, release_ulp_unit: the names, the rest of the list, then the
    unit itself. *)
Fixpoint release_ulp_unit (l : list hunit) (x : hctx) : hctx :=
  match l with
  | [] => x
  | u :: t => free (hu_self u) (release_ulp_unit t (free_opt (hu_new u) (free_opt (hu_old u) x)))
  end.
(** 282-293, release_ulp_object. *)
Definition release_ulp_object (o : option hobj) (x : hctx) : hctx :=
  match o with
  | None => x
  | Some o => free (ho_self o) (release_ulp_unit (ho_units o) (free_opt (ho_name o) (free_opt (ho_bid o) x)))
  end.
(** 302-310, release_ulp_dependency: from the end. *)
Fixpoint release_ulp_dependency (l : list nat) (x : hctx) : hctx :=
  match l with [] => x | d :: t => free d (release_ulp_dependency t x) end.
(** 319-330, release_ulp_reference: from the end. *)
Fixpoint release_ulp_reference (l : list href) (x : hctx) : hctx :=
  match l with
  | [] => x
  | r :: t => free (hr_self r) (free_opt (hr_name r) (free_opt (hr_target r) (release_ulp_reference t x)))
  end.
(** 337-348, release_ulp_global_metadata. *)
Definition release_ulp_global_metadata (t : tool) : tool :=
  mk_tool (release_ulp_reference (t_refs t) (release_ulp_dependency (t_deps t)
             (release_ulp_object (t_obj t) (free_opt (t_so t) (t_heap t)))))
    None None [] [] (t_files t).

Section Tool.
  (** Does the [n]-th allocation succeed? How many files can be open? *)
  Variable alloc : nat -> bool.
  Variable limit : Z.

  (** tools/introspection.c:1889-1981, extract_ulp_from_so_to_mem, with load_elf and unload_elf
      (tools/elf-extra.c:36-67): the file stays open when path or metadata are too large. The
      outer [None]: the tool crashes; the inner: 0 is returned. The buffer comes with its block. *)
  Definition extract (f : tfile) (revert : bool) (path : list Z) (t : tool)
    : option (option (nat * list Z) * tool) :=
    match f with
    | FMissing => Some (None, t)
    | _ =>
      if limit <=? t_files t then Some (None, t)
      else
        match f with
        | FElf secs =>
            match get_elfscn_by_name (section_name revert) secs with
            | SecCrash => None
            | SecNone => Some (None, t)
            | SecData [] => None (* 1913, assert *)
            | SecData data =>
                match extract_ulp_from_so_to_mem data path with
                | P_ok None => Some (None, mk_tool (t_heap t) (t_so t) (t_obj t) (t_deps t) (t_refs t) (t_files t + 1))
                | P_ok (Some buf) =>
                    match calloc alloc (t_heap t) with
                    | (None, _) => None (* 1950, malloc is not tested *)
                    | (Some b, x) => Some (Some (b, buf), mk_tool x (t_so t) (t_obj t) (t_deps t) (t_refs t) (t_files t))
                    end
                | _ => None
                end
            end
        | _ => Some (None, t)
        end
    end.

  (** tools/introspection.c:2035-2039, load_patch_info_from_mem: the livepatch is read into the
      global `ulp`. What is in it is overwritten (common/common.c:264, 281); a list that is there
      already would be continued through a NULL pointer (424-430, 495-501). [b]: the block of the
      buffer, which takes no part in this. *)
  Definition load_patch_info_from_mem (junk : Z) (b : nat) (buf : list Z) (t : tool) : option ((Z + meta) * tool) :=
    match t_deps t, t_refs t with
    | [], [] =>
        match hparse alloc junk buf (mk_hmeta b None None [] []) (t_heap t) with
        | H_UB | H_fuel => None
        | H_end r hm x => Some (r, mk_tool x (hm_so hm) (hm_obj hm) (hm_deps hm) (hm_refs hm) (t_files t))
        end
    | _, _ => None
    end.

  (** tools/trigger.c:85-246, trigger_one_process: the result. The list of results is C90's. *)
  Definition trigger_one_process (q : treq) (t : tool) : option (Z * tool) :=
    if r_old q then Some (EOLDULP, release_ulp_global_metadata t)
    else
      match r_file q with
      | None => Some (r_rest q None, release_ulp_global_metadata t)
      | Some f =>
          match extract f (r_revert q) (r_path q) t with
          | None => None
          | Some (None, t1) => Some (ENOMETA, release_ulp_global_metadata t1)
          | Some (Some (b, buf), t1) =>
              match load_patch_info_from_mem (r_junk q) b buf t1 with
              | None => None
              | Some (r, t2) =>
                  let ret := match r with inl c => c | inr md => r_rest q (Some md) end in
                  let t3 := release_ulp_global_metadata t2 in
                  Some (ret, mk_tool (free b (t_heap t3)) (t_so t3) (t_obj t3) (t_deps t3) (t_refs t3) (t_files t3))
              end
          end
      end.

  (** tools/trigger.c:283-360 and 500-550: all livepatches for all processes, one after the
      other. *)
  Fixpoint trigger_all (l : list treq) (t : tool) : option (list Z * tool) :=
    match l with
    | [] => Some ([], t)
    | q :: rest =>
        match trigger_one_process q t with
        | None => None
        | Some (r, t1) => match trigger_all rest t1 with None => None | Some (rs, t2) => Some (r :: rs, t2) end
        end
    end.
End Tool.

(** The tool when it starts. *)
Definition tool_start : tool := mk_tool (mk_hctx 0 [] false []) None None [] [] 0.
