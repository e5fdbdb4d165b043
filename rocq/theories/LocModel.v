(** Where the packer says a description is wrong: its reader (DscModel) with the position it keeps
    (the variable `loc`), and what parse_error shows of the file (tools/packer.c). *)
From Verif Require Import Base MetaModel DscModel.

(** The messages; the symbol is that of the target or of the container. *)
Inductive derr :=
| E_empty | E_container_open | E_container_dir | E_container_format
| E_dependency | E_duplicate | E_target_open | E_target_dir | E_target_format | E_no_target
| E_symbol (of_target : bool) (name : list Z) | E_expected | E_expected_colon.

(** A result, a message at a line and column, a write through NULL (on which segfault_handler,
    tools/packer.c:462-472, gives a message for the position, and the packer ends), or another
    crash. *)
Inductive lres (A : Type) :=
| L_ok (a : A)
| L_err (k : derr) (line col : Z)
| L_segv (line col : Z)
| L_crash.
Arguments L_ok {A} _.
Arguments L_err {A} _ _ _.
Arguments L_segv {A} _ _.
Arguments L_crash {A}.

(** tools/packer.c:660-711, a line starting with '@'. *)
Definition read_target_l (e : dsc_env) (n : Z) (line : list Z) (d : dstate) : lres dstate :=
  match ds_target d with
  | Some _ => L_err E_duplicate n 1
  | None =>
      let path := match de_target e with Some p => p | None => tl (chomp line) end in
      if zlen path >=? PATH_MAX then L_crash
      else if negb (de_open e path) then L_err E_target_open n 2
      else if de_isdir e path then L_err E_target_dir n 2
      else match de_info e path with
           | None => L_err E_target_format n 2
           | Some t => L_ok (mk_ds (ds_deps d) (Some t) (ds_units d) (ds_refs d) (ds_comments d))
           end
  end.

(** 729-797, a line starting with '#'. *)
Definition read_ref_l (container target : so_info) (n : Z) (s : list Z) : lres pref :=
  let '(tls, third) := match s with
                       | _ :: c :: t => if c =? PERCENT then (true, t) else (false, c :: t)
                       | _ => (false, [])
                       end in
  let col := if (tls : bool) then 3 else 2 in
  match split_colon third with
  | None => L_segv n col
  | Some (tname, third2) =>
      match split_colon third2 with
      | None =>
          match get_symbol_with_name (si_syms target) tname with
          | None => L_err (E_symbol true tname) n col
          | Some toff =>
              match get_symbol_with_name (si_syms container) third2 with
              | None => L_err (E_symbol false third2) n (col + zlen tname + 1)
              | Some poff => L_ok (mk_pref tname third2 toff poff tls)
              end
          end
      | Some (rname, third3) =>
          match split_colon third3 with
          | None => L_segv n col
          | Some (o1, o2) => L_ok (mk_pref tname rname (u64 (strtol16 o1)) (u64 (strtol16 o2)) tls)
          end
      end
  end.

(** 803-871, any other line. [second]'s column: its distance from the start of the line. *)
Definition read_unit_l (container target : so_info) (n : Z) (s : list Z) : lres munit :=
  match s with
  | [] => L_crash
  | c :: _ =>
      if last s 0 =? COLON then L_err E_expected n (zlen s)
      else if c =? COLON then L_crash
      else match strtok s with
           | None => L_crash
           | Some (first, rest) =>
               match get_symbol_with_name (si_syms target) first with
               | None => L_err (E_symbol true first) n 1
               | Some _ =>
                   match strtok rest with
                   | None => L_err E_expected_colon n 1
                   | Some (second, _) =>
                       match get_symbol_with_name (si_syms container) second with
                       | None => L_err (E_symbol false second) n (zlen s - zlen (skip_colons rest) + 1)
                       | Some _ => L_ok (mk_munit first second 0)
                       end
                   end
               end
           end
  end.

(** 653-873, one line; [n]: its number. *)
Definition read_line_l (e : dsc_env) (container : so_info) (n : Z) (line : list Z) (d : dstate) : lres dstate :=
  match line with
  | [] => L_ok d
  | c :: _ =>
      if c =? NL then L_ok d
      else if c =? BANG then
        match read_comment (de_junk e) (ds_comments d) line with
        | D_ok cb => L_ok (mk_ds (ds_deps d) (ds_target d) (ds_units d) (ds_refs d) cb)
        | _ => L_crash
        end
      else if c =? AT then read_target_l e n line d
      else
        match ds_target d with
        | None => L_err E_no_target n 1
        | Some target =>
            let s := chomp line in
            if c =? HASH then
              match read_ref_l container target n s with
              | L_ok r => L_ok (mk_ds (ds_deps d) (ds_target d) (ds_units d) (r :: ds_refs d) (ds_comments d))
              | L_err k l c => L_err k l c
              | L_segv l c => L_segv l c
              | L_crash => L_crash
              end
            else
              match read_unit_l container target n s with
              | L_ok u => L_ok (mk_ds (ds_deps d) (ds_target d) (ds_units d ++ [u]) (ds_refs d) (ds_comments d))
              | L_err k l c => L_err k l c
              | L_segv l c => L_segv l c
              | L_crash => L_crash
              end
        end
  end.

Fixpoint read_body_l (e : dsc_env) (container : so_info) (n : Z) (lines : list (list Z)) (d : dstate) : lres dstate :=
  match lines with
  | [] => L_ok d
  | l :: ls => match read_line_l e container n l d with
               | L_ok d' => read_body_l e container (n + 1) ls d'
               | r => r
               end
  end.

(** 629-651, the dependencies; with the number of the line that follows them. *)
Fixpoint read_deps_l (e : dsc_env) (n : Z) (lines : list (list Z)) (deps : list (list Z))
  : lres (Z * list (list Z) * list (list Z)) :=
  match lines with
  | (c :: t) :: ls =>
      if c =? STAR then
        match add_dependency (de_dep e (tl (chomp (c :: t)))) with
        | None => L_err E_dependency n 1
        | Some id => read_deps_l e (n + 1) ls (id :: deps)
        end
      else L_ok (n, deps, lines)
  | _ => L_ok (n, deps, lines)
  end.

(** 558-614, the lines up to the container; with the number of its line. *)
Fixpoint read_container_l (e : dsc_env) (n : Z) (lines : list (list Z)) (cb : option cbuf)
  : lres (Z * list Z * option cbuf * list (list Z)) :=
  match lines with
  | [] => L_err E_empty n 1
  | line :: ls =>
      match line with
      | [] => L_err E_empty n 1
      | c :: _ =>
          if c =? NL then read_container_l e (n + 1) ls cb
          else if c =? BANG then
            match read_comment (de_junk e) cb line with
            | D_ok cb' => read_container_l e (n + 1) ls cb'
            | _ => L_crash
            end
          else
            let path := match de_container e with Some p => p | None => chomp line end in
            if negb (de_open e path) then L_err E_container_open n 1
            else if de_isdir e path then L_err E_container_dir n 1
            else L_ok (n, path, cb, ls)
      end
  end.

(** 511-889, parse_description, on the lines of the file. *)
Definition parse_lines (e : dsc_env) (lines : list (list Z)) : lres (list Z * dstate) :=
  match read_container_l e 1 lines None with
  | L_err k l c => L_err k l c
  | L_segv l c => L_segv l c
  | L_crash => L_crash
  | L_ok (n, so, cb, ls) =>
      match de_info e so with
      | None => L_err E_container_format n 1
      | Some container =>
          match read_deps_l e (n + 1) ls [] with
          | L_err k l c => L_err k l c
          | L_segv l c => L_segv l c
          | L_crash => L_crash
          | L_ok (n', deps, ls') =>
              match read_body_l e container n' ls' (mk_ds deps None [] [] cb) with
              | L_ok d => L_ok (so, d)
              | L_err k l c => L_err k l c
              | L_segv l c => L_segv l c
              | L_crash => L_crash
              end
          end
      end
  end.
Definition parse_located (e : dsc_env) (file : list Z) : lres (list Z * dstate) := parse_lines e (lines_of file).

(** ** tools/packer.c:378-460, parse_error: what is shown below the message, without the colours. *)

Definition no_newline (l : list Z) : list Z := filter (fun c => negb (c =? NL)) l.

(** 422-437: the part in red, and what follows it. [at_colon]: the character at the column is a
    colon. *)
Fixpoint red (at_colon : bool) (l : list Z) : list Z * list Z :=
  match l with
  | [] => ([], [])
  | c :: t =>
      if c =? COLON then if at_colon then ([c], t) else ([], c :: t)
      else let '(r, rest) := red at_colon t in
           (if c =? NL then r else c :: r, rest)
  end.

(** 416-456: the line, and the line with the caret. *)
Definition show_line (line : list Z) (col : Z) : list Z * list Z :=
  let k := Z.to_nat (col - 1) in
  let '(r, rest) := red (nth k line 0 =? COLON) (skipn k line) in
  (firstn k line ++ r ++ no_newline rest,
   repeat 32 (length (firstn k line)) ++ 94 :: repeat 126 (length r - 1)).

(** 405-414; [None]: there is no such line. *)
Definition show_error (file : list Z) (line col : Z) : option (list Z * list Z) :=
  match nth_error (lines_of file) (Z.to_nat (line - 1)) with
  | None => None
  | Some l => Some (show_line l col)
  end.
