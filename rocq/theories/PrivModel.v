(** The checks of privileges made by the tool before it touches a process. *)
From Coq Require Import String.
From Verif Require Import Base StrModel TextModel MapModel CliModel.

(** strtok(s, " \t\n"): a token and what follows its delimiter; [None] is NULL. *)
Definition is_sep (c : Z) : bool := (c =? 32) || (c =? 9) || (c =? 10).
Fixpoint skip_seps (s : list Z) : list Z :=
  match s with
  | c :: t => if is_sep c then skip_seps t else s
  | [] => []
  end.
Fixpoint span_seps (s : list Z) : list Z * list Z :=
  match s with
  | [] => ([], [])
  | c :: t => if is_sep c then ([], t) else let (a, b) := span_seps t in (c :: a, b)
  end.
Definition strtok_blank (s : list Z) : option (list Z * list Z) :=
  match skip_seps s with
  | [] => None
  | s' => Some (span_seps s')
  end.

(** tools/trigger.c:594-620, the loop over the lines of /proc/self/status (each with
    its newline). [None]: a NULL pointer is dereferenced. sscanf("%lx") of a string
    that does not start with a hexadecimal digit reads nothing; the sign and the
    "0x" it would also accept are left out. *)
Fixpoint cap_loop (lines : list (list Z)) : option bool :=
  match lines with
  | [] => Some false
  | l :: rest =>
      match strtok_blank l with
      | None => None
      | Some (token, after) =>
          if bytes_eqb token (zs "CapPrm:") then
            match strtok_blank after with
            | None => None
            | Some (value, _) =>
                match value with
                | c :: _ =>
                    match unhex c with
                    | None => Some false
                    | Some _ => Some (negb (Z.land (fst (strtoul16_end value)) (Z.shiftl 1 21) =? 0))
                    end
                | [] => Some false
                end
            end
          else cap_loop rest
      end
  end.

(** tools/trigger.c:577-626, check_sys_admin; no file: [None]. *)
Definition check_sys_admin (status : option (list (list Z))) : option bool :=
  match status with
  | None => Some false
  | Some lines => cap_loop lines
  end.

(** <errno.h> *)
Definition E_PERM : Z := 1.
Definition E_NOSYS : Z := 38.

(** tools/trigger.c:630-660, run_trigger before the processes are visited. *)
Inductive tstart := T_crash | T_error (code : Z) | T_go.
Definition run_trigger_start (a : arguments) (status : option (list (list Z))) : tstart :=
  match a_user a with
  | Some _ => T_error E_NOSYS
  | None =>
      if a_noseccomp a then
        match check_sys_admin status with
        | None => T_crash
        | Some true => T_go
        | Some false => T_error E_PERM
        end
      else T_go
  end.
