(** What a description file says, independently of how the packer reads it. *)
From Verif Require Import Base MetaModel DscModel.

(** ** Description files as a user writes them *)

(** One line: empty; a comment; a function and its replacement; a static
    reference by names; a static reference with offsets in hexadecimal. *)
Inductive ditem :=
| DBlank
| DComment (text : list Z)
| DFunc (old new : list Z)
| DRef (tls : bool) (target name : list Z)
| DRefOff (tls : bool) (target name toff poff : list Z).

(** A description: what precedes the container, the container, the dependencies,
    what precedes the target, the target, and the rest. *)
Record desc := mk_desc {
  dd_head : list ditem;
  dd_container : list Z;
  dd_deps : list (list Z);
  dd_mid : list ditem;
  dd_target : list Z;
  dd_body : list ditem
}.

Definition item_text (i : ditem) : list Z :=
  match i with
  | DBlank => []
  | DComment t => 33 :: t
  | DFunc o n => o ++ 58 :: n
  | DRef tls t r => 35 :: (if tls then [37] else []) ++ t ++ 58 :: r
  | DRefOff tls t r a b => 35 :: (if tls then [37] else []) ++ t ++ 58 :: r ++ 58 :: a ++ 58 :: b
  end.

Definition desc_texts (d : desc) : list (list Z) :=
  map item_text (dd_head d) ++ [dd_container d] ++ map (fun p => 42 :: p) (dd_deps d) ++
  map item_text (dd_mid d) ++ [64 :: dd_target d] ++ map item_text (dd_body d).

Definition with_newline (t : list Z) : list Z := t ++ [10].

Definition file_of (d : desc) : list Z := concat (map with_newline (desc_texts d)).

(** ** Well-formed descriptions *)

Definition text_ok (s : list Z) : Prop := cstr_ok s /\ ~ In 10 s.
(** A name: not empty, without ':'. *)
Definition name_ok (s : list Z) : Prop := text_ok s /\ ~ In 58 s /\ s <> [].

Definition starts_with (s : list Z) (c : Z) : Prop := exists t, s = c :: t.

Definition is_hex (c : Z) : Prop := 48 <= c <= 57 \/ 97 <= c <= 102 \/ 65 <= c <= 70.
Definition hex_value1 (c : Z) : Z := if c <=? 57 then c - 48 else if c <=? 70 then c - 55 else c - 87.
(** The number a string of hexadecimal digits stands for. *)
Definition hex_value (s : list Z) : Z := fold_left (fun a c => a * 16 + hex_value1 c) s 0.
Definition hex_ok (s : list Z) : Prop := Forall is_hex s /\ s <> [] /\ hex_value s < 2 ^ 63.

Definition item_ok (i : ditem) : Prop :=
  match i with
  | DBlank => True
  | DComment t => text_ok t /\ zlen t < 131000
  | DFunc o n => name_ok o /\ name_ok n /\
      ~ starts_with o 33 /\ ~ starts_with o 64 /\ ~ starts_with o 35
  | DRef tls t r => name_ok t /\ name_ok r /\ (tls = false -> ~ starts_with t 37)
  | DRefOff tls t r a b => name_ok t /\ name_ok r /\ (tls = false -> ~ starts_with t 37) /\
      hex_ok a /\ hex_ok b
  end.

Definition no_content (i : ditem) : Prop :=
  match i with DBlank | DComment _ => True | _ => False end.

Record desc_ok (d : desc) : Prop := {
  do_head : Forall item_ok (dd_head d) /\ Forall no_content (dd_head d);
  do_container : text_ok (dd_container d) /\ dd_container d <> [] /\ ~ starts_with (dd_container d) 33;
  do_deps : Forall text_ok (dd_deps d);
  do_mid : Forall item_ok (dd_mid d) /\ Forall no_content (dd_mid d);
  do_target : text_ok (dd_target d) /\ zlen (dd_target d) < 4096;
  do_body : Forall item_ok (dd_body d)
}.

(** ** Meaning *)

(** [off] is the value of the first symbol called [name]. *)
Definition symbol_at (syms : list (list Z * Z)) (name : list Z) (off : Z) : Prop :=
  exists before after, syms = before ++ (name, off) :: after /\ ~ In name (map fst before).

Definition has_symbol (syms : list (list Z * Z)) (name : list Z) : Prop := In name (map fst syms).

(** The replacements, and the references, of a description, in file order. *)
Definition funcs_of (items : list ditem) : list (list Z * list Z) :=
  flat_map (fun i => match i with DFunc o n => [(o, n)] | _ => [] end) items.
Definition refs_of (items : list ditem) : list ditem :=
  filter (fun i => match i with DRef _ _ _ | DRefOff _ _ _ _ _ => true | _ => false end) items.
Definition comments_of (items : list ditem) : list (list Z) :=
  flat_map (fun i => match i with DComment t => [t] | _ => [] end) items.

Definition desc_comments (d : desc) : list (list Z) :=
  comments_of (dd_head d) ++ comments_of (dd_mid d) ++ comments_of (dd_body d).

(** A unit records a replacement: both names, and the value of the replaced
    function in the target. *)
Definition unit_means (target : so_info) (f : list Z * list Z) (u : munit) : Prop :=
  u_old u = fst f /\ u_new u = snd f /\ symbol_at (si_syms target) (fst f) (u_addr u).

Definition ref_means (container target : so_info) (i : ditem) (r : pref) : Prop :=
  match i with
  | DRef tls t n =>
      pr_tls r = tls /\ pr_target r = t /\ pr_name r = n /\
      symbol_at (si_syms target) t (pr_toff r) /\ symbol_at (si_syms container) n (pr_poff r)
  | DRefOff tls t n a b =>
      pr_tls r = tls /\ pr_target r = t /\ pr_name r = n /\ pr_poff r = hex_value b /\
      (if hex_value a =? 0 then symbol_at (si_syms target) t (pr_toff r) else pr_toff r = hex_value a)
  | _ => False
  end.

(** The ID of the patch a dependency names: the file starts with the type 1 and the
    32 bytes of the ID. *)
Definition dep_means (e : dsc_env) (path id : list Z) : Prop :=
  length id = 32%nat /\ exists rest, de_dep e path = Some (1 :: id ++ rest).

(** Everything a description mentions exists. *)
Definition item_exists (container target : so_info) (i : ditem) : Prop :=
  match i with
  | DFunc o n => has_symbol (si_syms target) o /\ has_symbol (si_syms container) n
  | DRef _ t n => has_symbol (si_syms target) t /\ has_symbol (si_syms container) n
  | DRefOff _ t _ a _ => hex_value a = 0 -> has_symbol (si_syms target) t
  | _ => True
  end.

Definition no_overrides (e : dsc_env) : Prop := de_container e = None /\ de_target e = None.

Definition readable (e : dsc_env) (path : list Z) (s : so_info) : Prop :=
  de_open e path = true /\ de_isdir e path = false /\ de_info e path = Some s.
