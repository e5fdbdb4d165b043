(** The command "ulp packer" (tools/packer.c, run_packer): from the description
    file to the sections of the container. *)
From Coq Require Import String.
From Verif Require Import Base StrModel MetaModel DscModel NtModel Md4Model PtModel PostModel.

(** What run_packer changes: the sections of the container, by name, and the
    temporary files. *)
Record pkstate := mk_pk { pk_secs : list Z -> option (list Z); pk_tmps : list (list Z) }.

(** One section on its way into the container: the path that create_path_to_tmp_file
    gives ([None]: NULL; C54 has the function itself), whether the file can be opened
    for writing, how many bytes the disk takes ([None]: all), whether fwrite tells that
    it was not all, and the answers embed_patch_metadata_into_elf gets (see [PostModel]). *)
Record sgenv := mk_sg {
  sg_tmp : option (list Z); sg_open : bool; sg_full : option nat; sg_short : bool;
  sg_there : bool; sg_loads : bool; sg_exec : bool; sg_wi : Z
}.

(** tools/elf-extra.c:158-160: the length of "section=path"; a NULL path prints as (null). *)
Definition arg_len (name : list Z) (tmp : option (list Z)) : Z :=
  zlen name + 1 + match tmp with Some p => zlen p | None => 6 end.

(** objcopy: it reads [content] from the temporary file, and replaces the container
    only if it exits with status 0. *)
Definition put_section (name content : list Z) (st : pkstate) : pkstate :=
  mk_pk (fun n => if bytes_eqb n name then Some content else pk_secs st n) (pk_tmps st).
Definition objcopy_did (s : sgenv) : bool := WIFEXITED (sg_wi s) && (WEXITSTATUS (sg_wi s) =? 0).

(** tools/elf-extra.c:137-196, embed_patch_metadata_into_elf with its effect.
    [content]: what the temporary file holds, [None] if there is none. *)
Definition embed (s : sgenv) (name : list Z) (content : option (list Z)) (st : pkstate) : eres * pkstate :=
  let r := embed_patch_metadata_into_elf (sg_there s) (sg_loads s) (arg_len name (sg_tmp s)) (sg_exec s) (sg_wi s) in
  let started := sg_there s && sg_loads s && (arg_len name (sg_tmp s) <? 120) && sg_exec s in
  (r, match content with
      | Some c => if started && objcopy_did s then put_section name c st else st
      | None => st
      end).

(** create_path_to_tmp_file leaves an empty file; remove takes it away. *)
Definition add_tmp (p : option (list Z)) (st : pkstate) : pkstate :=
  match p with Some p => mk_pk (pk_secs st) (p :: pk_tmps st) | None => st end.
Definition rm_tmp (p : option (list Z)) (st : pkstate) : pkstate :=
  match p with
  | Some p => mk_pk (pk_secs st) (filter (fun x => negb (bytes_eqb x p)) (pk_tmps st))
  | None => st
  end.

(** fopen, fwrite, fclose: what is in the file then. Errors of fwrite and fclose are
    not looked at (but see the comments). *)
Definition written (s : sgenv) (data : list Z) : list Z :=
  match sg_full s with Some n => firstn n data | None => data end.

Inductive pkres := PK_done (status : Z) (st : pkstate) | PK_crash | PK_hang.

(** tools/packer.c:1079-1149, write_reverse_patch; true: it returns 1. The object has
    a name. *)
Definition write_reverse (s : sgenv) (m : pmeta) (st : pkstate) : option (bool * pkstate) :=
  let st := add_tmp (sg_tmp s) st in
  match sg_tmp s with
  | None => Some (false, st)
  | Some _ =>
      if negb (sg_open s) then Some (false, st)
      else
        match embed s (zs ".ulp.rev") (Some (written s (MetaModel.write_reverse_patch m))) st with
        | (E_ub, _) => None
        | (E_ret r, st) => Some (r =? 0, rm_tmp (sg_tmp s) st)
        end
  end.

(** tools/packer.c:1236-1244, the end of run_packer. [tmp_path] is the static buffer
    of create_path_to_tmp_file, unless that gave NULL: after write_reverse_patch the
    buffer holds the last path, or, if the last call gave NULL, the path of before
    (getrandom failing at the first attempt). *)
Definition finish_reverse (s : sgenv) (before : option (list Z)) (m : pmeta) (st : pkstate) : pkres :=
  match write_reverse s m st with
  | None => PK_crash
  | Some (ok, st) =>
      PK_done (if ok then 0 else 1) (rm_tmp (match before, sg_tmp s with Some _, Some p => Some p | _, _ => before end) st)
  end.

(** tools/packer.c:1210-1234: the comments. A second variable called ret hides the first:
    if embedding fails the status stays 0. *)
Definition write_comments (s1 s2 : sgenv) (before : option (list Z)) (m : pmeta) (text : list Z) (st : pkstate) : pkres :=
  let st := add_tmp (sg_tmp s1) st in
  match sg_tmp s1 with
  | None => PK_done 1 st
  | Some _ =>
      if negb (sg_open s1) then PK_done 1 (rm_tmp (sg_tmp s1) st)
      else if sg_short s1 then PK_crash
      else
        match embed s1 (zs ".ulp.comments") (Some (written s1 (text ++ [0]))) st with
        | (E_ub, _) => PK_crash
        | (E_ret r, st) =>
            if negb (r =? 0) then PK_done 0 (rm_tmp (sg_tmp s1) st)
            else finish_reverse s2 (sg_tmp s1) m (rm_tmp (sg_tmp s1) st)
        end
  end.

(** tools/packer.c:982-1077, write_patch_id, from the build-ID section of the container
    ([None]: the container cannot be loaded or has none). *)
Inductive idres := Id_ok (id : list Z) | Id_err | Id_crash | Id_hang.
Definition patch_id (fuel : nat) (note : option (list Z)) (file : list Z) : idres :=
  match note with
  | None => Id_err
  | Some d =>
      match packer_get_build_id fuel d with
      | P_fuel => Id_hang
      | P_none => Id_err
      | P_found bid => match Md4Model.write_patch_id bid file with Some id => Id_ok id | None => Id_crash end
      end
  end.

(** tools/packer.c:1151-1256, run_packer. [e], [file]: what parse_description sees
    ([DscModel]). The metadata file goes to standard output if there is no temporary
    path. *)
Definition run_packer (fuel : nat) (e : dsc_env) (file : list Z) (note : option (list Z))
    (s0 s1 s2 : sgenv) (st : pkstate) : pkres :=
  match pack e (repeat 0 32) file with
  | D_err => PK_done 1 st
  | D_crash => PK_crash
  | D_ok _ =>
      match patch_id fuel note file with
      | Id_err => PK_done 1 st
      | Id_crash => PK_crash
      | Id_hang => PK_hang
      | Id_ok id =>
          match pack e id file with
          | D_err | D_crash => PK_crash
          | D_ok (m, comments) =>
              let st := add_tmp (sg_tmp s0) st in
              if match sg_tmp s0 with Some _ => negb (sg_open s0) | None => false end then PK_done 1 st
              else
                match embed s0 (zs ".ulp")
                        (match sg_tmp s0 with Some _ => Some (written s0 (create_patch_metadata_file m)) | None => None end) st with
                | (E_ub, _) => PK_crash
                | (E_ret r, st) =>
                    let st := rm_tmp (sg_tmp s0) st in
                    if negb (r =? 0) then PK_done 1 st
                    else match comments with
                         | Some text => write_comments s1 s2 (sg_tmp s0) m text st
                         | None => finish_reverse s2 (sg_tmp s0) m st
                         end
                end
          end
      end
  end.
