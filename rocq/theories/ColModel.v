(** Colours: when the tool writes them, and the coloured output of trigger and packer
    (that of patches is in PatModel). *)
From Coq Require Import String.
From Verif Require Import Base StrModel LibModel TrModel TextModel LogModel DscModel LocModel PatModel CmdModel.

(** ** The decision *)

(** getenv("NO_COLOR"), isatty(STDOUT_FILENO), getenv("TERM"). *)
Record term_env := mk_term { te_no_color : option (list Z); te_tty : bool; te_term : option (list Z) }.

(** tools/ulp.c:394-411, check_color_available. *)
Definition check_color_available (e : term_env) : bool :=
  match te_no_color e with
  | Some _ => false
  | None =>
      if te_tty e then
        match te_term e with
        | Some t => negb (bytes_eqb t (zs "dumb"))
        | None => false
        end
      else false
  end.

(** tools/ulp.c:363-373, parse_opt for --color: the new value of no_color. *)
Definition parse_color (e : term_env) (arg : list Z) : bool :=
  if bytes_eqb arg (zs "no") || bytes_eqb arg (zs "n") then true
  else if bytes_eqb arg (zs "auto") then negb (check_color_available e)
  else false.

(** tools/ulp.c:527-540: no_color after the command line, whose --color options have
    these arguments in this order. *)
Definition no_color_after (e : term_env) (opts : list (list Z)) : bool :=
  fold_left (fun _ arg => parse_color e arg) opts (negb (check_color_available e)).

(** ** trigger *)

Definition TERM_COLOR_BOLD : list Z := 27 :: zs "[;1m".

(** tools/trigger.c:429-475: a word of the report in its colour. *)
Definition word (no_color : bool) (colour indent text : list Z) : list Z :=
  change_color no_color colour ++ indent ++ text ++ change_color no_color TERM_COLOR_RESET.

(** tools/trigger.c:453-477, a line of the long report. *)
Definition line_text (no_color : bool) (strerr : Z -> list Z) (hide : bool) (r : tresult) : list Z :=
  let err := libpulp_strerror strerr (tr_err r) in
  if minor (tr_err r) then
    if negb hide then
      word no_color TERM_COLOR_YELLOW (zs "    ") (zs "SKIPPED") ++ zs " " ++ tr_name r ++ zs ": " ++ err ++ [10]
    else []
  else if negb (tr_err r =? 0) then
    word no_color TERM_COLOR_RED (zs "    ") (zs "FAILED") ++ zs " " ++ tr_name r ++ zs ": " ++ err ++ [10]
  else word no_color TERM_COLOR_GREEN (zs "    ") (zs "SUCCESS") ++ zs " " ++ tr_name r ++ [10].

(** tools/trigger.c:370-479, print_patched_unpatched: the text printed for the process
    called [name]. *)
Definition report_text (no_color : bool) (strerr : Z -> list Z) (name : list Z) (pid : Z)
                       (rs : list tresult) (summarize : bool) : list Z :=
  let err0 := match rs with [] => EUNKNOWN | r :: _ => tr_err r end in
  let (err, hide) := report_err rs err0 false in
  let (summarized, res) := report_sum rs err hide true None in
  match res, summarized with
  | None, true => []
  | _, _ =>
      let summarized := summarized && summarize in
      let hide := hide && summarize in
      zs "  " ++ name ++ zs " (pid: " ++ print_int pid ++ zs "):" ++
      if summarized then
        if skippable_error err then
          word no_color TERM_COLOR_YELLOW (zs " ") (zs "SKIPPED") ++ zs " " ++ libpulp_strerror strerr err ++ [10]
        else if negb (err =? 0) then
          word no_color TERM_COLOR_RED (zs " ") (zs "FAILED") ++
          match res with
          | Some r => zs " " ++ tr_name r ++ zs ": " ++ libpulp_strerror strerr err ++ [10]
          | None => []
          end
        else
          word no_color TERM_COLOR_GREEN (zs " ") (zs "SUCCESS") ++
          match res with Some r => zs " " ++ tr_name r ++ [10] | None => [] end
      else [10] ++ flat_map (line_text no_color strerr hide) rs
  end.

(** ** packer *)

(** tools/packer.c:416-457: the line with the part in question in red, and the carets. *)
Definition marked_line (no_color : bool) (line : list Z) (col : Z) : list Z :=
  let k := Z.to_nat (col - 1) in
  let '(r, rest) := red (nth k line 0 =? COLON) (skipn k line) in
  firstn k line ++ change_color no_color TERM_COLOR_RED ++ r ++ change_color no_color TERM_COLOR_RESET ++
  no_newline rest ++ [10] ++
  repeat 32 (List.length (firstn k line)) ++
  change_color no_color TERM_COLOR_RED ++ 94 :: repeat 126 (List.length r - 1) ++ change_color no_color TERM_COLOR_RESET.

(** tools/packer.c:378-460, parse_error: everything printed. [file]: the content of the
    description, [None] if it cannot be opened again, with the text of the error. *)
Definition parse_error_text (no_color : bool) (filename msg open_err : list Z) (file : option (list Z)) (line col : Z) : list Z :=
  change_color no_color TERM_COLOR_BOLD ++
  filename ++ zs ":" ++ print_int line ++ zs ":" ++ print_int col ++ zs ": " ++
  change_color no_color TERM_COLOR_RED ++ zs "error: " ++ change_color no_color TERM_COLOR_RESET ++
  msg ++ [10] ++
  match file with
  | None => zs "Error opening " ++ filename ++ zs ": " ++ open_err ++ [10]
  | Some f =>
      match nth_error (lines_of f) (Z.to_nat (line - 1)) with
      | None => zs "File is empty or is a directory" ++ [10]
      | Some l => marked_line no_color l col ++ [10]
      end
  end.
