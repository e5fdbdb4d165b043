(** C string helpers used by several subsystems. *)
From Verif Require Import Base.
From Coq Require Import String Ascii.

(** A literal as a list of character codes. *)
Fixpoint zs (s : string) : list Z :=
  match s with
  | EmptyString => []
  | String c t => Z.of_nat (nat_of_ascii c) :: zs t
  end.

(** '/' *)
Definition SLASH : Z := 47.

(** strrchr(name, c): what follows the last occurrence of [c]; [None] if there is none. *)
Fixpoint after_last (c : Z) (s : list Z) : option (list Z) :=
  match s with
  | [] => None
  | x :: t => match after_last c t with
              | Some r => Some r
              | None => if x =? c then Some t else None
              end
  end.

(** common/common.c:52-62, get_basename (of a non-NULL name). *)
Definition get_basename (name : list Z) : list Z :=
  match after_last SLASH name with
  | Some r => r
  | None => name
  end.

(** Is [p] an initial segment of [l]? *)
Fixpoint is_prefix (p l : list Z) : bool :=
  match p, l with
  | [], _ => true
  | x :: p', y :: l' => (x =? y) && is_prefix p' l'
  | _ :: _, [] => false
  end.

(** strstr(hay, needle) != NULL. *)
Fixpoint strstr (hay needle : list Z) : bool :=
  is_prefix needle hay ||
  match hay with
  | [] => false
  | _ :: t => strstr t needle
  end.

(** strncmp(a, b, n) == 0 on C strings. *)
Definition strncmp_eq (a b : list Z) (n : Z) : bool :=
  bytes_eqb (firstn (Z.to_nat n) a) (firstn (Z.to_nat n) b).
