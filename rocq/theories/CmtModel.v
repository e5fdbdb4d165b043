(** The comments of a container, as [ulp dump] shows them: extract_ulp_comment_to_mem
    (tools/patches.c) and dump_ulp_comments (tools/dump.c). *)
From Coq Require Import String.
From Verif Require Import Base StrModel MetaModel DscModel LibModel IntrModel CmdModel.

(** tools/patches.c:240-275, extract_ulp_comment_to_mem: the buffer handed out, [None] for
    NULL. [loads]: load_elf works. [sec]: the section .ulp.comments, if there is one. The
    size is kept in 32 bits for malloc but the whole section is copied: undefined if it
    does not fit. A failing malloc is not modelled. *)
Definition extract_ulp_comment_to_mem (loads : bool) (sec : option (list Z)) : iout (option (list Z)) :=
  if negb loads then I_ok None
  else match sec with
       | None => I_ok None
       | Some [] => I_ok None
       | Some s => if u32 (zlen s) <? zlen s then I_ub else I_ok (Some s)
       end.

(** puts(s), and strlen: the characters before the first NUL; undefined if there is none. *)
Fixpoint c_string (s : list Z) : iout (list Z) :=
  match s with
  | [] => I_ub
  | c :: t => if c =? 0 then I_ok [] else ibind (c_string t) (fun r => I_ok (c :: r))
  end.

(** tools/dump.c:85-98, dump_ulp_comments: the text written. *)
Definition dump_ulp_comments (loads : bool) (sec : option (list Z)) : iout (list Z) :=
  ibind (extract_ulp_comment_to_mem loads sec) (fun out =>
  match out with
  | None => I_ok []
  | Some b => ibind (c_string b) (fun t => I_ok (zs "* comments: " ++ [10] ++ t ++ [10]))
  end).

(** tools/dump.c:100-124, run_dump to its end: the value, the lines of dump_metadata
    ([CmdModel.run_dump]) and the text of the comments. The same container is opened a
    second time for them: [loads]. *)
Definition dump_command (section comments : option (list Z)) (loads : bool) (livepatch : list Z)
  (real : option (list Z)) (only : bool) (junk : Z) : iout (Z * list dline * list Z) :=
  match run_dump section livepatch real only junk with
  | None => I_ub
  | Some (v, ls) =>
      if v =? 0 then ibind (dump_ulp_comments loads comments) (fun t => I_ok (0, ls, t))
      else I_ok (v, ls, [])
  end.
