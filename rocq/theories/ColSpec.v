(** A terminal that knows colours, for C105. *)
From Coq Require Import String.
From Verif Require Import Base StrModel.

(** How a character looks: bold or not, and its colour (30 to 37) if it is not the
    normal one. *)
Record look := mk_look { lk_bold : bool; lk_colour : option Z }.
Definition normal : look := mk_look false None.
Definition in_colour (c : Z) : look := mk_look true (Some c).
Definition RED : Z := 31.
Definition GREEN : Z := 32.
Definition YELLOW : Z := 33.

(** One parameter of the sequence ESC [ p ; p ; ... m. *)
Definition attribute (p : Z) (l : look) : look :=
  if p =? 0 then normal
  else if p =? 1 then mk_look true (lk_colour l)
  else if (30 <=? p) && (p <=? 37) then mk_look (lk_bold l) (Some p)
  else l.

(** What the terminal is in the middle of: text; behind ESC; behind ESC [ with the value
    of the parameter read so far and the look so far. *)
Inductive mode := Text | Escape | Params (p : Z) (l : look).

(** The characters shown, each with its look, and the state at the end. *)
Fixpoint terminal (m : mode) (l : look) (bytes : list Z) : list (Z * look) * (mode * look) :=
  match bytes with
  | [] => ([], (m, l))
  | c :: rest =>
      match m with
      | Text => if c =? 27 then terminal Escape l rest
                else let (out, fin) := terminal Text l rest in ((c, l) :: out, fin)
      | Escape => if c =? 91 then terminal (Params 0 l) l rest else terminal Text l rest
      | Params p l1 =>
          if (48 <=? c) && (c <=? 57) then terminal (Params (10 * p + (c - 48)) l1) l rest
          else if c =? 59 then terminal (Params 0 (attribute p l1)) l rest
          else if c =? 109 then terminal Text (attribute p l1) rest
          else terminal Text l rest
      end
  end.

(** The text, all with one look. *)
Definition cells (l : look) (text : list Z) : list (Z * look) := map (fun c => (c, l)) text.

(** Shown on a terminal in its normal state, the bytes give these characters and leave
    it in that state. *)
Definition shows (bytes : list Z) (out : list (Z * look)) : Prop := terminal Text normal bytes = (out, (Text, normal)).

(** Text in which no escape sequence begins. *)
Definition printable (text : list Z) : Prop := ~ In 27 text.

(** The output can show colours. *)
Definition able (no_color_var : option (list Z)) (tty : bool) (term : option (list Z)) : Prop :=
  no_color_var = None /\ tty = true /\ exists t, term = Some t /\ t <> zs "dumb".

(** Colours are wanted: the last --color option decides, and without one, or with
    "auto", what the output can do. *)
Definition wanted (can : Prop) (opts : list (list Z)) : Prop :=
  match rev opts with
  | [] => can
  | arg :: _ => (arg = zs "auto" /\ can) \/ (arg <> zs "auto" /\ arg <> zs "no" /\ arg <> zs "n")
  end.
