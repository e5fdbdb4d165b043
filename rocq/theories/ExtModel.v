(** The command "ulp extract" (tools/extract.c) on a file system, and how the packer
    reads what it wrote. *)
From Coq Require Import String.
From Verif Require Import Base StrModel TextModel DscModel.

(** Files: what libelf finds in an ELF file (its build ID, [None] if there is none, and
    its symbol tables), or other bytes. *)
Inductive file := F_elf (buildid : option (list Z)) (dynsym symtab : list elfsym) | F_bytes (b : list Z).
Definition filesys := list Z -> option file.

(** tools/extract.c:332-380, parse_so_elf on a path. If the file is missing or is not
    ELF, libelf gives NULL and no build ID is found. *)
Definition so_elf (fs : filesys) (path : list Z) : option TextModel.so_info :=
  match fs path with
  | Some (F_elf id dynsym symtab) => parse_so_elf path id dynsym symtab
  | _ => None
  end.

(** tools/extract.c:560-585, ulp_so_info_open. [read]: json-c's parser. Bytes that start
    like an ELF file are not one. *)
Definition elf_magic : list Z := [127; 69; 76; 70].
Definition ulp_so_info_open (read : list Z -> option json) (fs : filesys) (path : list Z) : sores :=
  match fs path with
  | None => SoNull
  | Some (F_elf id dynsym symtab) =>
      match parse_so_elf path id dynsym symtab with Some i => SoOk i | None => SoNull end
  | Some (F_bytes b) =>
      if zlen b <? 5 then SoNull
      else if bytes_eqb (firstn 4 b) elf_magic then SoNull
      else parse_so_json (read b)
  end.

(** What can come of the command: exit status, the files, and standard output. *)
Inductive xres := X_done (status : Z) (fs : filesys) (stdout : list Z) | X_crash.

Definition put_file (fs : filesys) (path : list Z) (f : file) : filesys :=
  fun p => if bytes_eqb p path then Some f else fs p.

(** tools/extract.c:692-737, run_extract. [print]: json-c's printer; [opens]: whether the
    output can be opened for writing (the first use of the stream crashes if not);
    [full]: how many bytes the disk takes ([None]: all). The stream of a file is never
    closed; it is written out at exit. *)
Definition run_extract (print : json -> list Z) (opens : list Z -> bool) (full : option nat)
    (fs : filesys) (input : list Z) (debuginfo output : option (list Z)) : xres :=
  let output := match output with Some o => o | None => zs "out.json" end in
  match so_elf fs input with
  | None => X_done 1 fs []
  | Some info =>
      match (match debuginfo with
             | None => Some info
             | Some d => match so_elf fs d with
                         | None => None          (* merge_ulp_so_infos uses it: NULL *)
                         | Some di => Some (merge_ulp_so_infos info di)
                         end
             end) with
      | None => X_crash
      | Some info =>
          let text := print (write_ulp_so_info_json info) in
          if bytes_eqb output (zs "-") then X_done 0 fs text
          else if negb (opens output) then X_crash
          else X_done 0 (put_file fs output (F_bytes (match full with Some n => firstn n text | None => text end))) []
      end
  end.

(** What the packer uses of a library description (tools/packer.c:66-93, 739-880): its
    name, its build ID, and for every symbol the name and the offset. A description on
    which the parser crashes is not distinguished from a missing one here. *)
Definition seen (i : TextModel.so_info) : DscModel.so_info :=
  DscModel.mk_so_info (so_name i) (so_buildid i) (map (fun s => (sy_name s, sy_offset s)) (so_symbols i)).
Definition fs_info (read : list Z -> option json) (fs : filesys) (path : list Z) : option DscModel.so_info :=
  match ulp_so_info_open read fs path with SoOk i => Some (seen i) | _ => None end.

(** The packer with the option --target. *)
Definition with_target (e : dsc_env) (target : list Z) : dsc_env :=
  mk_dsc_env (de_open e) (de_isdir e) (de_info e) (de_dep e) (de_container e) (Some target) (de_junk e).
