(** Which files `ulp trigger` tries when it is given a pattern: the walk through the folder and,
    with --recursive, its subfolders (tools/trigger.c). Results are TrModel's. *)
From Verif Require Import Base.

Definition SLASH : Z := 47.

(** strrchr: what is before and behind the last [c]. *)
Fixpoint last_split (c : Z) (l : list Z) : option (list Z * list Z) :=
  match l with
  | [] => None
  | x :: t =>
      match last_split c t with
      | Some (a, b) => Some (x :: a, b)
      | None => if x =? c then Some ([], t) else None
      end
  end.

(** common/common.c:51-62, get_basename. *)
Definition get_basename (path : list Z) : list Z :=
  match last_split SLASH path with Some (_, b) => b | None => path end.

(** Without the slashes at its end. *)
Fixpoint strip (l : list Z) : list Z :=
  match l with
  | [] => []
  | x :: t => match strip t with
              | [] => if x =? SLASH then [] else [x]
              | t' => x :: t'
              end
  end.
(** dirname of glibc (called at tools/trigger.c:269). *)
Definition root_of (slashes : list Z) : list Z := match slashes with [_; _] => [SLASH; SLASH] | _ => [SLASH] end.
Definition dirname (path : list Z) : list Z :=
  match strip path with
  | [] => match path with [] => [46] | _ => root_of path end
  | q => match last_split SLASH q with
         | None => [46]
         | Some (pre, _) => match strip pre with [] => root_of (pre ++ [SLASH]) | p => p end
         end
  end.

(** tools/trigger.c:333-342: the name ends in ".so" (what follows its last dot). *)
Definition has_so (name : list Z) : bool :=
  match last_split 46 name with Some (_, e) => bytes_eqb e [115; 111] | None => false end.

Definition ULP_PATH_LEN : Z := 256.

(** The walk ends with the paths tried, in order; the buffer of ULP_PATH_LEN bytes is overrun; or
    it goes deeper than the fuel. *)
Inductive walked := W_ok (tried : list (list Z)) | W_overrun | W_deep.

Section Walk.
  Variable recursive : bool.
  (** fnmatch(pattern, name, FNM_NOESCAPE) = 0 *)
  Variable matches : list Z -> list Z -> bool.
  (** opendir and readdir, and stat, on a path. *)
  Variable listing : list Z -> option (list (list Z)).
  Variable is_directory : list Z -> bool.

  Definition dots (name : list Z) : bool := bytes_eqb name [46] || bytes_eqb name [46; 46].

  (** tools/trigger.c:289-359, the entries of the folder; [buf]: the buffer with the path of the
      entry. [walk]: the recursive call, after which the entry itself goes on being looked at, with
      the pattern behind it in the buffer. *)
  Fixpoint each (walk : list Z -> walked) (folder wildcard : list Z) (names : list (list Z)) : walked :=
    match names with
    | [] => W_ok []
    | name :: t =>
        let buf := folder ++ [SLASH] ++ name in
        let bytes := zlen buf in
        if ULP_PATH_LEN <=? bytes then each walk folder wildcard t
        else if dots name then each walk folder wildcard t
        else
          let file (sub : list (list Z)) (path : list Z) :=
            match each walk folder wildcard t with
            | W_ok l => W_ok (sub ++ (if has_so name && matches wildcard name then [path] else []) ++ l)
            | r => r
            end in
          if is_directory buf then
            if negb recursive then each walk folder wildcard t
            else if ULP_PATH_LEN <=? bytes + zlen wildcard + 1 then each walk folder wildcard t
            else
              let sub := buf ++ [SLASH] ++ wildcard in
              match walk sub with
              | W_ok l => file l sub
              | r => r
              end
          else file [] buf
    end.

  (** tools/trigger.c:262-367, trigger_many_ulps. The folder and a slash are copied into the buffer
      (284-286) without looking at their length. *)
  Fixpoint trigger_many_ulps (fuel : nat) (wildcard_path : list Z) : walked :=
    match fuel with
    | O => W_deep
    | S f =>
        let wildcard := get_basename wildcard_path in
        let folder := dirname wildcard_path in
        match listing folder with
        | None => W_ok []
        | Some names =>
            if ULP_PATH_LEN <? zlen folder + 2 then W_overrun
            else each (trigger_many_ulps f) folder wildcard names
        end
    end.
End Walk.
