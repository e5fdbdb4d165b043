(** Start-up of libpulp: looking up the interposed functions and the user's
    opt-outs (lib/interpose.c). *)
From Verif Require Import Base TextModel LibModel.

(** ':' *)
Definition COLON : Z := 58.

(** include/error_common.h:39, 65, 71, 72. *)
Definition EINITFAIL : Z := 282.
Definition ENOLIBDL : Z := 288.
Definition ENOLIBC : Z := 289.

(** limits.h: PATH_MAX. *)
Definition PATH_MAX : Z := 4096.

(** strtok(str, ":"), as [strtok_dot] for dots. *)
Fixpoint skip_colons (s : list Z) : list Z :=
  match s with
  | x :: t => if x =? COLON then skip_colons t else s
  | [] => []
  end.

Fixpoint span_colon (s : list Z) : list Z * list Z :=
  match s with
  | [] => ([], [])
  | x :: t => if x =? COLON then ([], t)
              else let (a, b) := span_colon t in (x :: a, b)
  end.

Definition strtok_colon (s : list Z) : option (list Z) * list Z :=
  match skip_colons s with
  | [] => (None, [])
  | s' => let (a, b) := span_colon s' in (Some a, b)
  end.

(** The loop over the entries (lib/interpose.c:138-147, 179-195, 233-250): does
    one of them match?  [None]: out of fuel. *)
Fixpoint optout_scan (matches : list Z -> bool) (fuel : nat) (s : list Z) : option bool :=
  match fuel with
  | O => None
  | S f =>
      match strtok_colon s with
      | (None, _) => Some false
      | (Some wildcard, rest) => if matches wildcard then Some true else optout_scan matches f rest
      end
  end.

(** What libpulp asks the system at start-up: the three environment variables,
    errno of a failing malloc for each of the copies ([None]: malloc succeeds),
    readlink("/proc/self/exe") ([None]: -1; at most PATH_MAX bytes), uid and gid
    with their names, and fnmatch(pattern, string, FNM_EXTMATCH) == 0. *)
Record optworld := mk_optworld {
  ow_path_env : option (list Z);
  ow_user_env : option (list Z);
  ow_group_env : option (list Z);
  ow_path_malloc : option Z;
  ow_user_malloc : option Z;
  ow_group_malloc : option Z;
  ow_exe : option (list Z);
  ow_uid : Z;
  ow_uname : option (list Z);
  ow_gid : Z;
  ow_gname : option (list Z);
  ow_fnmatch : list Z -> list Z -> bool
}.

(** lib/interpose.c:108-150, maybe_disable_livepatching_on_path: the new error
    state; [None] is the write outside process_path. *)
Definition disable_on_path (w : optworld) (err : Z) : option Z :=
  match ow_path_env w with
  | None => Some err
  | Some names =>
      match ow_path_malloc w with
      | Some errno => Some errno
      | None =>
          match ow_exe w with
          | None => None
          | Some path =>
              if PATH_MAX <=? zlen path then None
              else match optout_scan (fun wildcard => ow_fnmatch w wildcard path)
                           (S (length names)) names with
                   | Some true => Some EUSRBLOCKED
                   | Some false => Some err
                   | None => None
                   end
          end
      end
  end.

(** strtoul(s, NULL, 10) on a string of digits: it stops at ULONG_MAX. *)
Definition strtoul (s : list Z) : Z := Z.min (dec_val s) (2 ^ 64 - 1).

(** lib/interpose.c:179-195, the test of one entry of the list of users, and
    lib/interpose.c:233-250 for groups. *)
Definition id_entry_matches (fnm : list Z -> list Z -> bool) (id : Z) (name : option (list Z))
    (wildcard : list Z) : bool :=
  if isnumber (Some wildcard) && (strtoul wildcard =? id) then true
  else match name with
       | Some n => fnm wildcard n
       | None => false
       end.

(** lib/interpose.c:162-198, 210-254: maybe_disable_livepatching_on_user and
    maybe_disable_livepatching_on_group. *)
Definition disable_on_id (fnm : list Z -> list Z -> bool) (env : option (list Z)) (malloc_errno : option Z)
    (id : Z) (name : option (list Z)) (err : Z) : option Z :=
  match env with
  | None => Some err
  | Some names =>
      match malloc_errno with
      | Some errno => Some errno
      | None =>
          match optout_scan (id_entry_matches fnm id name) (S (length names)) names with
          | Some true => Some EUSRBLOCKED
          | Some false => Some err
          | None => None
          end
      end
  end.

(** lib/interpose.c:256-367, __ulp_asunsafe_begin run for the first time.
    [libdl], [libc]: all functions needed from libdl and from libc were found.
    [locks]: the words of the linker's two locks, tested by dl_locks_held.
    Result: the error state. *)
Definition asunsafe_begin (libdl libc : bool) (locks : Z * Z) (w : optworld) (err : Z) : option Z :=
  let err1 := if libdl then err else ENOLIBDL in
  let err2 := if libc then err1 else ENOLIBC in
  if negb (libdl && libc) then Some err2
  else
    let (a, b) := locks in
    let err3 := if ((0 <=? a) && (a <=? 1)) && ((0 <=? b) && (b <=? 1)) then err2 else EUNKNOWN in
    match disable_on_path w err3 with
    | None => None
    | Some err4 =>
        match disable_on_id (ow_fnmatch w) (ow_user_env w) (ow_user_malloc w) (ow_uid w) (ow_uname w) err4 with
        | None => None
        | Some err5 =>
            disable_on_id (ow_fnmatch w) (ow_group_env w) (ow_group_malloc w) (ow_gid w) (ow_gname w) err5
        end
    end.
