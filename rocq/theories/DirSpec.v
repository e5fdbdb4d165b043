(** C93: the files a pattern stands for. *)
From Verif Require Import Base DirModel.

(** A name of a file, as opposed to a path. *)
Definition plain (name : list Z) : Prop := name <> [] /\ ~ In 47 name.
Definition path_of (folder name : list Z) : list Z := folder ++ [47] ++ name.
Definition dot_so : list Z := [46; 115; 111].

Section Spec.
  Variable recursive : bool.
  Variable matches : list Z -> list Z -> bool.
  Variable listing : list Z -> option (list (list Z)).
  Variable is_directory : list Z -> bool.

  (** [name] is an entry of [folder] other than . and .. *)
  Definition entry_of (folder name : list Z) : Prop :=
    exists names, listing folder = Some names /\ In name names /\ name <> [46] /\ name <> [46; 46].

  (** The files meant: those of the folder that match and whose path is short enough, and, if
      asked for, those of its subfolders. *)
  Inductive meant (pattern : list Z) : list Z -> list Z -> Prop :=
  | meant_here folder name :
      entry_of folder name -> is_directory (path_of folder name) = false ->
      (exists stem, name = stem ++ dot_so) -> matches pattern name = true ->
      zlen (path_of folder name) < 256 -> meant pattern folder (path_of folder name)
  | meant_below folder name p :
      recursive = true -> entry_of folder name -> is_directory (path_of folder name) = true ->
      zlen (path_of folder name) + 1 + zlen pattern < 256 ->
      meant pattern (path_of folder name) p -> meant pattern folder p.

  (** The system gives names, each once in a folder. *)
  Definition sane_listing : Prop :=
    forall folder names, listing folder = Some names -> NoDup names /\ Forall plain names.
  (** No folder is called like a livepatch. *)
  Definition no_such_folder (pattern : list Z) : Prop :=
    forall folder name, entry_of folder name -> is_directory (path_of folder name) = true ->
      (exists stem, name = stem ++ dot_so) -> matches pattern name = false.
End Spec.
