(** What the opt-out lists mean. *)
From Verif Require Import Base TextSpec OptModel.

(** [e] is an entry of the colon-separated list [names]: a non-empty piece without
    colon, between colons or ends of the list. *)
Definition entry (e names : list Z) : Prop :=
  e <> [] /\ ~ In 58 e /\
  exists pre post, names = pre ++ e ++ post /\
    (pre = [] \/ exists p, pre = p ++ [58]) /\
    (post = [] \/ exists p, post = 58 :: p).

(** The list (if the variable is set) has an entry with property [P]. *)
Definition listed (env : option (list Z)) (P : list Z -> Prop) : Prop :=
  exists names e, env = Some names /\ entry e names /\ P e.

(** An entry stands for a user or group: by number, or by a pattern for the name. *)
Definition stands_for (fnm : list Z -> list Z -> bool) (id : Z) (name : option (list Z)) (e : list Z) : Prop :=
  decimal e id \/ exists n, name = Some n /\ fnm e n = true.

(** The user has opted out for this process. *)
Definition opted_out (w : optworld) : Prop :=
  (exists path, ow_exe w = Some path /\ listed (ow_path_env w) (fun e => ow_fnmatch w e path = true)) \/
  listed (ow_user_env w) (stands_for (ow_fnmatch w) (ow_uid w) (ow_uname w)) \/
  listed (ow_group_env w) (stands_for (ow_fnmatch w) (ow_gid w) (ow_gname w)).

(** The program's path can be read and fits, or is not needed; and memory for the
    copies of the lists can be had. *)
Definition startup_ok (w : optworld) : Prop :=
  ow_path_malloc w = None /\ ow_user_malloc w = None /\ ow_group_malloc w = None /\
  (ow_path_env w <> None -> exists path, ow_exe w = Some path /\ zlen path < 4096).
