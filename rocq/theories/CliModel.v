(** The command line of the tool (tools/ulp.c) and the checks made before a
    command starts. *)
From Coq Require Import String.
From Verif Require Import Base StrModel TextModel.

(** include/arguments.h, command_t; ULP_NONE is [None] of an option type. *)
Inductive command :=
| Patches | Check | Dump | Packer | Trigger | Post | Messages | Livepatchable | Extract | SetPatchable.

(** include/arguments.h, struct arguments. args[ARGS_MAX] with ARGS_MAX = 1 is
    [a_arg]; a NULL pointer is [None]; the ints used as flags are booleans. *)
Record arguments := mk_args {
  a_arg : option (list Z); a_livepatch : option (list Z); a_library : option (list Z);
  a_metadata : option (list Z); a_process : option (list Z); a_user : option (list Z);
  a_prefix : option (list Z); a_debuginfo : option (list Z); a_command : option command;
  a_retries : Z; a_quiet : bool; a_verbose : bool; a_buildid : bool; a_revert : bool;
  a_nothreads : bool; a_recursive : bool; a_nosummary : bool; a_onlypatched : bool;
  a_noseccomp : bool; a_checkstack : bool;
  (** tools/ptrace.c:55, the global rr_timeout, which --timeout sets *)
  a_timeout : Z }.

(** tools/ulp.c:528, 534: the arguments before parsing. *)
Definition no_arguments : arguments :=
  mk_args None None None None None None None None None 1
    false false false false false false false false false false 200.

(** include/arguments.h and tools/ulp.c:270-393: what identifies an option. The
    last three are argp's own. *)
Inductive key :=
| K_v | K_q | K_p | K_b | K_o | K_l | K_t | K_r | K_R | K_d | K_u | K_c
| K_revert_all | K_revert | K_threads | K_recursive | K_nosummary | K_only | K_seccomp | K_color | K_timeout
| K_help | K_usage | K_version.

(** struct argp_option: the long name, the letter, whether there is a value. *)
Record aopt := mk_opt { o_name : list Z; o_letter : option Z; o_value : bool; o_key : key }.
Local Notation opt n l v k := (mk_opt (zs n) l v k) (only parsing).

(** The tables get_command_option_*: tools/patches.c, check.c, dump.c, packer.c,
    trigger.c, post.c, messages.c, livepatchable.c, extract.c, set_patchable.c,
    at the end of each file. [stack]: ENABLE_STACK_CHECK. *)
Definition opts_common : list aopt :=
  [opt "verbose" (Some 118) false K_v; opt "quiet" (Some 113) false K_q].
Definition opt_process := opt "process" (Some 112) true K_p.
Definition opt_user := opt "user" (Some 117) true K_u.
Definition opt_threads := opt "disable-threading" None false K_threads.
Definition opt_color := opt "color" None true K_color.
Definition opt_buildid := opt "buildid" (Some 98) false K_b.
Definition opt_revert := opt "revert" None false K_revert.
Definition opt_retries := opt "retries" (Some 114) true K_r.
Definition opt_output := opt "output" (Some 111) true K_o.

(** tools/ulp.c:430-485, get_command_option. *)
Definition options_of (stack : bool) (c : option command) : list aopt :=
  match c with
  | None => []
  | Some Patches =>
      opts_common ++ [opt_process; opt_user; opt_threads; opt_buildid;
                      opt "only-livepatched" None false K_only; opt_color]
  | Some Check => opts_common ++ [opt_process]
  | Some Dump => opts_common ++ [opt_buildid; opt_revert]
  | Some Packer =>
      opts_common ++ [opt_output; opt "livepatch" (Some 108) true K_l; opt "target" (Some 116) true K_t]
  | Some Trigger =>
      opts_common ++ [opt_process; opt_user; opt_threads;
                      opt "revert-all" None true K_revert_all; opt "timeout" None true K_timeout;
                      opt "disable-summarization" None false K_nosummary;
                      opt "recursive" None false K_recursive; opt "root" (Some 82) true K_R;
                      opt "disable-seccomp" None false K_seccomp]
                  ++ (if stack then [opt "check-stack" (Some 99) false K_c] else [])
                  ++ [opt_retries; opt_revert; opt_color]
  | Some Post => opts_common
  | Some Messages => opts_common ++ [opt_process]
  | Some Livepatchable => opts_common
  | Some Extract => opts_common ++ [opt_output; opt "with-debuginfo" (Some 100) true K_d]
  | Some SetPatchable => opts_common ++ [opt_process; opt_user; opt_threads; opt_retries]
  end.

(** Argp adds these to every table. Its hidden options (--program-name, --HANG)
    are left out. *)
Definition argp_own : list aopt :=
  [opt "help" (Some 63) false K_help; opt "usage" None false K_usage; opt "version" (Some 86) false K_version].

(** ** glibc's argp_parse over getopt_long, options before arguments (POSIXLY_CORRECT unset) *)

(** A long option: the name is exact, or the beginning of just one name. *)
Definition find_long (tbl : list aopt) (name : list Z) : option aopt :=
  match find (fun o => bytes_eqb (o_name o) name) tbl with
  | Some o => Some o
  | None => match filter (fun o => is_prefix name (o_name o)) tbl with
            | [o] => Some o
            | _ => None
            end
  end.
Definition find_short (tbl : list aopt) (c : Z) : option aopt :=
  find (fun o => match o_letter o with Some l => l =? c | None => false end) tbl.

(** The name and the value of "name=value". *)
Fixpoint split_eq (s : list Z) : list Z * option (list Z) :=
  match s with
  | [] => ([], None)
  | c :: t => if c =? 61 then ([], Some t) else let (n, v) := split_eq t in (c :: n, v)
  end.

(** What the parser function gets to see of the options: a key with its value, or
    an error that argp itself reports. *)
Inductive event := Opt (k : key) (v : option (list Z)) | Bad.

(** The letters of a word "-abc": the options, and the option that takes its
    value from the next word, if any. *)
Fixpoint letters (tbl : list aopt) (s : list Z) : list event * option key :=
  match s with
  | [] => ([], None)
  | c :: t =>
      match find_short tbl c with
      | None => ([Bad], None)
      | Some o =>
          if o_value o
          then match t with
               | [] => ([], Some (o_key o))
               | _ :: _ => ([Opt (o_key o) (Some t)], None)
               end
          else let (es, n) := letters tbl t in (Opt (o_key o) None :: es, n)
      end
  end.

(** The options in order, and the words that are arguments. *)
Fixpoint getopt (tbl : list aopt) (ws : list (list Z)) {struct ws} : list event * list (list Z) :=
  match ws with
  | [] => ([], [])
  | w :: ws' =>
      match w with
      | d1 :: d2 :: s =>
          if negb (d1 =? 45) then let (es, ar) := getopt tbl ws' in (es, w :: ar)
          else if d2 =? 45 then
            match s with
            | [] => ([], ws')
            | _ :: _ =>
                let (name, value) := split_eq s in
                match find_long tbl name with
                | None => ([Bad], [])
                | Some o =>
                    match o_value o, value with
                    | false, None => let (es, ar) := getopt tbl ws' in (Opt (o_key o) None :: es, ar)
                    | false, Some _ => ([Bad], [])
                    | true, Some v => let (es, ar) := getopt tbl ws' in (Opt (o_key o) (Some v) :: es, ar)
                    | true, None =>
                        match ws' with
                        | [] => ([Bad], [])
                        | v :: ws'' => let (es, ar) := getopt tbl ws'' in (Opt (o_key o) (Some v) :: es, ar)
                        end
                    end
                end
            end
          else
            match letters tbl (d2 :: s) with
            | (es0, None) => let (es, ar) := getopt tbl ws' in (es0 ++ es, ar)
            | (es0, Some k) =>
                match ws' with
                | [] => (es0 ++ [Bad], [])
                | v :: ws'' => let (es, ar) := getopt tbl ws'' in (es0 ++ Opt k (Some v) :: es, ar)
                end
            end
      | _ => let (es, ar) := getopt tbl ws' in (es, w :: ar)
      end
  end.

(** ** tools/ulp.c *)

(** tools/ulp.c:133-138, the entries of command_from_string. *)
Definition command_names : list (list Z * command) :=
  [(zs "patches", Patches); (zs "check", Check); (zs "dump", Dump); (zs "packer", Packer);
   (zs "trigger", Trigger); (zs "post", Post); (zs "messages", Messages);
   (zs "livepatchable", Livepatchable); (zs "extract", Extract); (zs "set_patchable", SetPatchable)].

(** tools/ulp.c:124-148, command_from_string. *)
Definition command_from_string (s : list Z) : option command :=
  option_map snd (find (fun e => bytes_eqb (fst e) s) command_names).

(** tools/ulp.c:150-163, get_command_from_args, over all of argv. *)
Fixpoint get_command_from_args (argv : list (list Z)) : option command :=
  match argv with
  | [] => None
  | w :: t => match command_from_string w with
              | Some c => Some c
              | None => get_command_from_args t
              end
  end.

(** atoi and atol of glibc on any C string: blanks, a sign, digits; strtol stops at
    the bounds of long, the result of atoi is cut to 32 bits. *)
Definition isspace (c : Z) : bool := ((9 <=? c) && (c <=? 13)) || (c =? 32).
Fixpoint skip_blanks (s : list Z) : list Z :=
  match s with
  | c :: t => if isspace c then skip_blanks t else s
  | [] => []
  end.
Fixpoint lead_digits (s : list Z) : list Z :=
  match s with
  | c :: t => if isdigit c then c :: lead_digits t else []
  | [] => []
  end.
Definition strtol10 (s : list Z) : Z :=
  match skip_blanks s with
  | 45 :: t => Z.max (- dec_val (lead_digits t)) (- 2 ^ 63)
  | 43 :: t => Z.min (dec_val (lead_digits t)) (2 ^ 63 - 1)
  | t => Z.min (dec_val (lead_digits t)) (2 ^ 63 - 1)
  end.
Definition atoi_any (s : list Z) : Z := s32 (strtol10 s).

(** How a run of the tool ends up to the start of the command. *)
Inductive outcome :=
| Usage                     (** argp_error: a message and exit status 64 *)
| Shown                     (** --help, --usage, --version: exit status 0 *)
| NotPermitted              (** EPERM *)
| Aborted                   (** a failed assertion *)
| Started (c : command) (a : arguments).

Inductive pstep := Next (a : arguments) | Stop (o : outcome).

(** tools/ulp.c:270-393, parser, for options. An option that needs a value has
    one (argp sees to that); the colour setting is left out. *)
Definition parser_opt (a : arguments) (k : key) (v : option (list Z)) : pstep :=
  let value := match v with Some s => s | None => [] end in
  match a with
  | mk_args arg lp lib meta pr us pre dbg cmd re q vb bi rv nt rc ns ol nse cs to =>
      match k with
      | K_v => Next (mk_args arg lp lib meta pr us pre dbg cmd re q true bi rv nt rc ns ol nse cs to)
      | K_q => Next (mk_args arg lp lib meta pr us pre dbg cmd re true vb bi rv nt rc ns ol nse cs to)
      | K_p => Next (mk_args arg lp lib meta (Some value) us pre dbg cmd re q vb bi rv nt rc ns ol nse cs to)
      | K_b => Next (mk_args arg lp lib meta pr us pre dbg cmd re q vb true rv nt rc ns ol nse cs to)
      | K_o => Next (mk_args arg lp lib (Some value) pr us pre dbg cmd re q vb bi rv nt rc ns ol nse cs to)
      | K_l => Next (mk_args arg (Some value) lib meta pr us pre dbg cmd re q vb bi rv nt rc ns ol nse cs to)
      | K_t => Next (mk_args arg lp (Some value) meta pr us pre dbg cmd re q vb bi rv nt rc ns ol nse cs to)
      | K_r =>
          if atoi_any value <? 1 then Stop Usage
          else Next (mk_args arg lp lib meta pr us pre dbg cmd (atoi_any value) q vb bi rv nt rc ns ol nse cs to)
      | K_R => Next (mk_args arg lp lib meta pr us (Some value) dbg cmd re q vb bi rv nt rc ns ol nse cs to)
      | K_d => Next (mk_args arg lp lib meta pr us pre (Some value) cmd re q vb bi rv nt rc ns ol nse cs to)
      | K_u => Next (mk_args arg lp lib meta pr (Some value) pre dbg cmd re q vb bi rv nt rc ns ol nse cs to)
      | K_c => Next (mk_args arg lp lib meta pr us pre dbg cmd re q vb bi rv nt rc ns ol nse true to)
      | K_revert_all =>
          Next (mk_args arg lp (Some (get_basename value)) meta pr us pre dbg cmd re q vb bi rv nt rc ns ol nse cs to)
      | K_revert => Next (mk_args arg lp lib meta pr us pre dbg cmd re q vb bi true nt rc ns ol nse cs to)
      | K_threads => Next (mk_args arg lp lib meta pr us pre dbg cmd re q vb bi rv true rc ns ol nse cs to)
      | K_recursive => Next (mk_args arg lp lib meta pr us pre dbg cmd re q vb bi rv nt true ns ol nse cs to)
      | K_nosummary => Next (mk_args arg lp lib meta pr us pre dbg cmd re q vb bi rv nt rc true ol nse cs to)
      | K_only => Next (mk_args arg lp lib meta pr us pre dbg cmd re q vb bi rv nt rc ns true nse cs to)
      | K_seccomp => Next (mk_args arg lp lib meta pr us pre dbg cmd re q vb bi rv nt rc ns ol true cs to)
      | K_color => Next a
      | K_timeout =>
          if isnumber (Some value) then
            if strtol10 value <? 0 then Stop Usage
            else Next (mk_args arg lp lib meta pr us pre dbg cmd re q vb bi rv nt rc ns ol nse cs (strtol10 value))
          else Stop Usage
      | K_help | K_usage | K_version => Stop Shown
      end
  end.

(** tools/ulp.c:343-353, parser, for the [n]-th argument; ARGS_MAX is 1. *)
Definition set_command (a : arguments) (c : command) : arguments :=
  match a with
  | mk_args arg lp lib meta pr us pre dbg cmd re q vb bi rv nt rc ns ol nse cs to =>
      mk_args arg lp lib meta pr us pre dbg (Some c) re q vb bi rv nt rc ns ol nse cs to
  end.
Definition set_arg (a : arguments) (s : list Z) : arguments :=
  match a with
  | mk_args arg lp lib meta pr us pre dbg cmd re q vb bi rv nt rc ns ol nse cs to =>
      mk_args (Some s) lp lib meta pr us pre dbg cmd re q vb bi rv nt rc ns ol nse cs to
  end.
Definition parser_arg (a : arguments) (n : Z) (s : list Z) : pstep :=
  if n =? 0 then
    match command_from_string s with
    | None => Stop Usage
    | Some c => Next (set_command a c)
    end
  else if n <=? 1 then Next (set_arg a s)
  else Stop Usage.

(** include/ulp_common.h:39. *)
Definition ULP_PATH_LEN : Z := 256.
Definition too_long (s : option (list Z)) : bool :=
  match s with Some p => ULP_PATH_LEN <? zlen p | None => false end.

(** tools/ulp.c:166-268, handle_end_of_arguments: is there an error? [n] is
    state->arg_num. *)
Definition end_error (a : arguments) (n : Z) : bool :=
  (n <? 1) || (a_quiet a && a_verbose a) ||
  match a_command a with
  | None => true
  | Some Patches => 1 <? n
  | Some Extract | Some Packer | Some Check => n <? 2
  | Some Trigger =>
      match a_library a with
      | Some _ => a_revert a || (n <? 1) || too_long (a_library a)
      | None => n <? 2
      end || ((2 <=? n) && too_long (a_arg a))
  | Some Post | Some Dump => (n <? 2) || too_long (a_arg a)
  | Some Messages => match a_process a with None => true | Some _ => false end
  | Some SetPatchable => n <? 2
  | Some Livepatchable => n <? 2
  end.

Fixpoint run_opts (a : arguments) (es : list event) : pstep :=
  match es with
  | [] => Next a
  | Bad :: _ => Stop Usage
  | Opt k v :: t => match parser_opt a k v with
                    | Next a' => run_opts a' t
                    | Stop o => Stop o
                    end
  end.
Fixpoint run_args (a : arguments) (n : Z) (ws : list (list Z)) : pstep :=
  match ws with
  | [] => if end_error a n then Stop Usage else Next a
  | w :: t => match parser_arg a n w with
              | Next a' => run_args a' (n + 1) t
              | Stop o => Stop o
              end
  end.

(** argp_parse with the table of the command found in argv. *)
Definition parse_args (stack : bool) (argv : list (list Z)) : pstep :=
  let tbl := options_of stack (get_command_from_args argv) ++ argp_own in
  let (es, ws) := getopt tbl (tl argv) in
  match run_opts no_arguments es with
  | Stop o => Stop o
  | Next a => run_args a 0 ws
  end.

(** tools/ulp.c:488-507, requires_ptrace. *)
Definition requires_ptrace (c : command) : bool :=
  match c with
  | Dump | Post | Extract | Packer | Livepatchable => false
  | Patches | Trigger | Check | Messages | SetPatchable => true
  end.

(** tools/ptrace.c:637-655, check_ptrace_scope: the effective user, and the contents
    of /proc/sys/kernel/yama/ptrace_scope. [None]: the assertion fails. *)
Definition check_ptrace_scope (euid : Z) (scope : option (list Z)) : option bool :=
  if euid =? 0 then Some true
  else match scope with
       | None => Some true
       | Some buf =>
           if Z.min (zlen buf) 4 =? 2 then Some (nth 0 buf 0 =? 48) else None
       end.

(** tools/ulp.c:509-599, main, up to the call of run_*. *)
Definition ulp_main (stack : bool) (euid : Z) (scope : option (list Z)) (argv : list (list Z)) : outcome :=
  match parse_args stack argv with
  | Stop o => o
  | Next a =>
      match a_command a with
      | None => Usage
      | Some c =>
          if requires_ptrace c then
            match check_ptrace_scope euid scope with
            | None => Aborted
            | Some false => NotPermitted
            | Some true => Started c a
            end
          else Started c a
      end
  end.
