(** What the user may write on the command line, and what it means. *)
From Coq Require Import String.
From Verif Require Import Base StrModel TextModel CliModel.

(** The word for each command. *)
Definition command_word (c : command) : list Z :=
  match c with
  | Patches => zs "patches" | Check => zs "check" | Dump => zs "dump" | Packer => zs "packer"
  | Trigger => zs "trigger" | Post => zs "post" | Messages => zs "messages"
  | Livepatchable => zs "livepatchable" | Extract => zs "extract" | SetPatchable => zs "set_patchable"
  end.

(** The options of the manual, with their values. *)
Inductive uopt :=
| Verbose | Quiet | BuildId | Revert | NoThreads | Recursive | NoSummary | OnlyPatched | NoSeccomp | CheckStack
| Process (s : list Z) | User (s : list Z) | Output (s : list Z) | LivepatchFile (s : list Z) | Target (s : list Z)
| Retries (s : list Z) | Root (s : list Z) | DebugInfo (s : list Z) | RevertAll (s : list Z)
| Timeout (s : list Z) | Color (s : list Z).

Definition name_of (o : uopt) : list Z :=
  match o with
  | Verbose => zs "verbose" | Quiet => zs "quiet" | BuildId => zs "buildid" | Revert => zs "revert"
  | NoThreads => zs "disable-threading" | Recursive => zs "recursive" | NoSummary => zs "disable-summarization"
  | OnlyPatched => zs "only-livepatched" | NoSeccomp => zs "disable-seccomp" | CheckStack => zs "check-stack"
  | Process _ => zs "process" | User _ => zs "user" | Output _ => zs "output" | LivepatchFile _ => zs "livepatch"
  | Target _ => zs "target" | Retries _ => zs "retries" | Root _ => zs "root" | DebugInfo _ => zs "with-debuginfo"
  | RevertAll _ => zs "revert-all" | Timeout _ => zs "timeout" | Color _ => zs "color"
  end.
Definition letter_of (o : uopt) : option Z :=
  match o with
  | Verbose => Some 118 | Quiet => Some 113 | BuildId => Some 98 | CheckStack => Some 99
  | Process _ => Some 112 | User _ => Some 117 | Output _ => Some 111 | LivepatchFile _ => Some 108
  | Target _ => Some 116 | Retries _ => Some 114 | Root _ => Some 82 | DebugInfo _ => Some 100
  | _ => None
  end.
Definition value_of (o : uopt) : option (list Z) :=
  match o with
  | Process s | User s | Output s | LivepatchFile s | Target s | Retries s | Root s | DebugInfo s
  | RevertAll s | Timeout s | Color s => Some s
  | _ => None
  end.

(** The options each command has ([stack]: built with the stack check). *)
Definition offers (stack : bool) (c : command) (o : uopt) : bool :=
  match o with
  | Verbose | Quiet => true
  | BuildId => match c with Patches | Dump => true | _ => false end
  | Revert => match c with Dump | Trigger => true | _ => false end
  | NoThreads | User _ => match c with Patches | Trigger | SetPatchable => true | _ => false end
  | Recursive | NoSummary | NoSeccomp | Root _ | RevertAll _ | Timeout _ =>
      match c with Trigger => true | _ => false end
  | CheckStack => match c with Trigger => stack | _ => false end
  | OnlyPatched => match c with Patches => true | _ => false end
  | Process _ => match c with Patches | Trigger | Check | Messages | SetPatchable => true | _ => false end
  | Output _ => match c with Packer | Extract => true | _ => false end
  | LivepatchFile _ | Target _ => match c with Packer => true | _ => false end
  | DebugInfo _ => match c with Extract => true | _ => false end
  | Retries _ => match c with Trigger | SetPatchable => true | _ => false end
  | Color _ => match c with Patches | Trigger => true | _ => false end
  end.

(** How options are written: --name, --name=value, --name value, -a, -abc,
    -abcVALUE, -abc VALUE. *)
Inductive flags : list Z -> list uopt -> Prop :=
| fl_nil : flags [] []
| fl_cons o c w os : value_of o = None -> letter_of o = Some c -> flags w os -> flags (c :: w) (o :: os).

Inductive spelled : list (list Z) -> list uopt -> Prop :=
| sp_long o : value_of o = None -> spelled [45 :: 45 :: name_of o] [o]
| sp_long_eq o v : value_of o = Some v -> spelled [45 :: 45 :: name_of o ++ 61 :: v] [o]
| sp_long_sep o v : value_of o = Some v -> spelled [45 :: 45 :: name_of o; v] [o]
| sp_flags w os : flags w os -> w <> [] -> spelled [45 :: w] os
| sp_value w os o c v : flags w os -> letter_of o = Some c -> value_of o = Some v -> v <> [] ->
    spelled [45 :: w ++ c :: v] (os ++ [o])
| sp_value_sep w os o c v : flags w os -> letter_of o = Some c -> value_of o = Some v ->
    spelled [45 :: w ++ [c]; v] (os ++ [o]).

(** A line: options and arguments in any order, up to a word "--" after which
    everything is an argument. *)
Inductive line : list (list Z) -> list uopt -> list (list Z) -> Prop :=
| ln_nil : line [] [] []
| ln_word w ws opts args : ~ (exists c t, w = 45 :: c :: t) -> line ws opts args -> line (w :: ws) opts (w :: args)
| ln_opts xs os ws opts args : spelled xs os -> line ws opts args -> line (xs ++ ws) (os ++ opts) args
| ln_rest ws : line ([45; 45] :: ws) [] ws.

(** The first word of the whole line, the name of the tool included, that is the
    name of a command, is the name of this one. *)
Definition first_name (argv : list (list Z)) (c : command) : Prop :=
  exists pre post, argv = pre ++ command_word c :: post /\
    forall w c', In w pre -> w <> command_word c'.

(** What an option sets; the last one of a kind counts. *)
Definition last_of {A} (f : uopt -> option A) (opts : list uopt) : option A :=
  fold_left (fun acc o => match f o with Some x => Some x | None => acc end) opts None.

Definition says (o : uopt) (opts : list uopt) : bool :=
  existsb (fun o' => match o, o' with
                     | Verbose, Verbose | Quiet, Quiet | BuildId, BuildId | Revert, Revert | NoThreads, NoThreads
                     | Recursive, Recursive | NoSummary, NoSummary | OnlyPatched, OnlyPatched
                     | NoSeccomp, NoSeccomp | CheckStack, CheckStack => true
                     | _, _ => false
                     end) opts.

Definition library_of (o : uopt) : option (list Z) :=
  match o with
  | RevertAll l => Some (get_basename l)
  | Target l => Some l
  | _ => None
  end.
Definition process_of (o : uopt) := match o with Process s => Some s | _ => None end.
Definition retries_of (o : uopt) := match o with Retries s => Some s | _ => None end.
Definition timeout_of (o : uopt) := match o with Timeout s => Some s | _ => None end.

Record settings (c : command) (opts : list uopt) (args : list (list Z)) (a : arguments) : Prop := {
  s_command : a_command a = Some c;
  s_arg : a_arg a = nth_error args 0;
  s_process : a_process a = last_of process_of opts;
  s_user : a_user a = last_of (fun o => match o with User s => Some s | _ => None end) opts;
  s_output : a_metadata a = last_of (fun o => match o with Output s => Some s | _ => None end) opts;
  s_livepatch : a_livepatch a = last_of (fun o => match o with LivepatchFile s => Some s | _ => None end) opts;
  s_library : a_library a = last_of library_of opts;
  s_prefix : a_prefix a = last_of (fun o => match o with Root s => Some s | _ => None end) opts;
  s_debuginfo : a_debuginfo a = last_of (fun o => match o with DebugInfo s => Some s | _ => None end) opts;
  s_retries : a_retries a = match last_of retries_of opts with Some s => dec_val s | None => 1 end;
  s_timeout : a_timeout a = match last_of timeout_of opts with Some s => Z.min (dec_val s) (2 ^ 63 - 1) | None => 200 end;
  s_quiet : a_quiet a = says Quiet opts;
  s_verbose : a_verbose a = says Verbose opts;
  s_buildid : a_buildid a = says BuildId opts;
  s_revert : a_revert a = says Revert opts;
  s_nothreads : a_nothreads a = says NoThreads opts;
  s_recursive : a_recursive a = says Recursive opts;
  s_nosummary : a_nosummary a = says NoSummary opts;
  s_onlypatched : a_onlypatched a = says OnlyPatched opts;
  s_noseccomp : a_noseccomp a = says NoSeccomp opts;
  s_checkstack : a_checkstack a = says CheckStack opts }.

(** A decimal numeral. *)
Definition numeral (s : list Z) : Prop := s <> [] /\ Forall (fun c => 48 <= c <= 57) s.

(** The numbers given with -r are numbers an int can hold. *)
Definition numbers_ok (opts : list uopt) : Prop :=
  forall s, In (Retries s) opts -> numeral s /\ dec_val s <= 2 ^ 31 - 1.

(** What a command requires. Paths have at most 256 bytes. *)
Definition path_ok (p : list Z) : Prop := zlen p <= 256.

Definition legal (c : command) (opts : list uopt) (args : list (list Z)) : Prop :=
  ~ (says Quiet opts = true /\ says Verbose opts = true) /\
  (List.length args <= 1)%nat /\
  (forall s, In (Retries s) opts -> 1 <= dec_val s) /\
  (forall s, In (Timeout s) opts -> numeral s) /\
  match c with
  | Patches => args = []
  | Extract | Packer | Check | SetPatchable | Livepatchable => args <> []
  | Post | Dump => args <> [] /\ Forall path_ok args
  | Trigger =>
      Forall path_ok args /\
      match last_of library_of opts with
      | Some l => says Revert opts = false /\ path_ok l
      | None => args <> []
      end
  | Messages => last_of process_of opts <> None
  end.

(** The commands that look into a running process. *)
Definition looks_inside (c : command) : bool :=
  match c with
  | Patches | Check | Trigger | Messages | SetPatchable => true
  | Dump | Packer | Post | Livepatchable | Extract => false
  end.

(** Tracing other processes is allowed: to root, without Yama, or when its
    setting is 0. The setting is one digit and a newline. *)
Definition setting_ok (scope : option (list Z)) : Prop :=
  match scope with None => True | Some s => exists d, 48 <= d <= 57 /\ s = [d; 10] end.
Definition may_trace (euid : Z) (scope : option (list Z)) : Prop :=
  euid = 0 \/ scope = None \/ scope = Some [48; 10].
