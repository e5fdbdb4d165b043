(** C94: what is wrong with a description, and where. *)
From Verif Require Import Base MetaModel DscModel DscSpec LocModel.

(** Empty lines and comments. *)
Definition skipped (line : list Z) : Prop := starts_with line 10 \/ starts_with line 33.

(** What a line says: up to its newline. *)
Definition says (line text : list Z) : Prop :=
  (line = text ++ [10] \/ (line = text /\ ~ In 10 line)) /\ ~ In 0 text.

(** The lines of a file. *)
Definition lines_are (file : list Z) (lines : list (list Z)) : Prop :=
  concat lines = file /\ Forall (fun l => l <> []) lines /\
  (forall before l after, lines = before ++ l :: after ->
     exists t, ~ In 10 t /\ (l = t ++ [10] \/ (l = t /\ after = []))).

(** [lines]: those that say which container it is, [path], with the symbols [container], and
    those after it. *)
Definition container_read (e : dsc_env) (lines : list (list Z)) (path : list Z) (container : so_info) (later : list (list Z)) : Prop :=
  exists head line, lines = head ++ line :: later /\ Forall skipped head /\ ~ skipped line /\
    path = (match de_container e with Some p => p | None => chomp line end) /\
    readable e path container.

Definition target_path (e : dsc_env) (line : list Z) : list Z :=
  match de_target e with Some p => p | None => tl (chomp line) end.
Definition target_read (e : dsc_env) (later : list (list Z)) (target : so_info) : Prop :=
  exists line, In line later /\ starts_with line 64 /\ readable e (target_path e line) target.
Definition no_target_yet (later : list (list Z)) : Prop := forall line, In line later -> ~ starts_with line 64.

(** [name] stands in [text] at column [col], alone between separators. *)
Definition stands_at (text name : list Z) (col : Z) : Prop :=
  exists pre post, text = pre ++ name ++ post /\ col = zlen pre + 1 /\ ~ In 58 name /\
    (post = [] \/ starts_with post 58) /\
    (pre = [] \/ pre = [35] \/ pre = [35; 37] \/ exists p, pre = p ++ [58]).

(** What the message says is so. *)
Definition so_wrong (e : dsc_env) (before : list (list Z)) (line : list Z) (k : derr) (col : Z) : Prop :=
  match k with
  | E_empty => False
  | E_container_open | E_container_dir | E_container_format =>
      col = 1 /\ Forall skipped before /\ ~ skipped line /\
      let path := match de_container e with Some p => p | None => chomp line end in
      match k with
      | E_container_open => de_open e path = false
      | E_container_dir => de_isdir e path = true
      | _ => de_info e path = None
      end
  | _ =>
      exists path container later, container_read e before path container later /\
      match k with
      | E_dependency => col = 1 /\ starts_with line 42 /\ Forall (fun l => starts_with l 42) later /\
          forall id, ~ dep_means e (tl (chomp line)) id
      | E_duplicate => col = 1 /\ starts_with line 64 /\ exists t, target_read e later t
      | E_target_open => col = 2 /\ starts_with line 64 /\ no_target_yet later /\ de_open e (target_path e line) = false
      | E_target_dir => col = 2 /\ starts_with line 64 /\ no_target_yet later /\ de_isdir e (target_path e line) = true
      | E_target_format => col = 2 /\ starts_with line 64 /\ no_target_yet later /\ de_info e (target_path e line) = None
      | E_no_target => col = 1 /\ ~ starts_with line 64 /\ ~ skipped line /\ no_target_yet later
      | E_symbol of_target name =>
          ~ skipped line /\ ~ starts_with line 64 /\ stands_at (chomp line) name col /\
          exists target, target_read e later target /\
            ~ has_symbol (si_syms (if of_target then target else container)) name
      | E_expected => ~ skipped line /\ ~ starts_with line 64 /\ (exists t, chomp line = t ++ [58]) /\ col = zlen (chomp line)
      | E_expected_colon => ~ skipped line /\ ~ starts_with line 64 /\ ~ In 58 (chomp line) /\ col = 1
      | _ => False
      end
  end.

(** The lines alone are not wrong: they are read, or only end before the container. *)
Definition good_so_far (e : dsc_env) (lines : list (list Z)) : Prop :=
  (exists r, parse_lines e lines = L_ok r) \/ parse_lines e lines = L_err E_empty (zlen lines + 1) 1.
