(** Specification vocabulary for libpulp's log. *)
From Coq Require Import String.
From Verif Require Import Base StrModel LogModel.

(** [numeral b t n]: [t] is the number [n] in base [b], without leading zeros. *)
Inductive numeral (b : Z) : list Z -> Z -> Prop :=
| num_one d c : 0 <= d < b -> nth_error (zs "0123456789abcdef") (Z.to_nat d) = Some c ->
    numeral b [c] d
| num_more t v d c : numeral b t v -> 0 < v -> 0 <= d < b ->
    nth_error (zs "0123456789abcdef") (Z.to_nat d) = Some c -> numeral b (t ++ [c]) (b * v + d).

(** [int_text t z]: [t] is the int [z] in decimal. *)
Definition int_text (t : list Z) (z : Z) : Prop :=
  (0 <= z < 2 ^ 31 /\ numeral 10 t z) \/
  (- 2 ^ 31 <= z < 0 /\ exists u, numeral 10 u (- z) /\ t = zs "-" ++ u).

(** [prints fmt args text]: what the C standard (and glibc, for %p) says that
    printf prints.  Arguments without a conversion are ignored. *)
Inductive prints : list Z -> list parg -> list Z -> Prop :=
| pr_end args : prints [] args []
| pr_char c f args out : c <> 37 -> prints f args out -> prints (c :: f) args (c :: out)
| pr_percent f args out : prints f args out -> prints (zs "%%" ++ f) args (zs "%" ++ out)
| pr_str s f args out : prints f args out -> prints (zs "%s" ++ f) (A_str s :: args) (s ++ out)
| pr_int n t f args out : int_text t n -> prints f args out ->
    prints (zs "%d" ++ f) (A_num n :: args) (t ++ out)
| pr_hex n t f args out : 0 <= n < 2 ^ 32 -> numeral 16 t n -> prints f args out ->
    prints (zs "%x" ++ f) (A_num n :: args) (t ++ out)
| pr_ulong n t f args out : 0 <= n < 2 ^ 64 -> numeral 10 t n -> prints f args out ->
    prints (zs "%lu" ++ f) (A_num n :: args) (t ++ out)
| pr_lhex n t f args out : 0 <= n < 2 ^ 64 -> numeral 16 t n -> prints f args out ->
    prints (zs "%lx" ++ f) (A_num n :: args) (t ++ out)
| pr_ptr n t f args out : 0 < n < 2 ^ 64 -> numeral 16 t n -> prints f args out ->
    prints (zs "%p" ++ f) (A_num n :: args) (zs "0x" ++ t ++ out)
| pr_null_str f args out : prints f args out -> prints (zs "%s" ++ f) (A_null :: args) (zs "(null)" ++ out)
| pr_null_ptr f args out : prints f args out -> prints (zs "%p" ++ f) (A_null :: args) (zs "(nil)" ++ out)
| pr_zero_ptr f args out : prints f args out -> prints (zs "%p" ++ f) (A_num 0 :: args) (zs "(nil)" ++ out).

(** The text of a reason has no conversions (a doubled percent sign is one
    character). *)
Inductive plain : list Z -> list Z -> Prop :=
| pl_end : plain [] []
| pl_char c f out : c <> 37 -> plain f out -> plain (c :: f) (c :: out)
| pl_percent f out : plain f out -> plain (zs "%%" ++ f) (zs "%" ++ out).

(** [says c ts]: the call [c] is meant to add the texts [ts] to the log, in this
    order. *)
Inductive says : lcall -> list (list Z) -> Prop :=
| sy_push fmt args t : prints fmt args t -> says (K_push fmt args) [t]
| sy_warn ts fmt args t : prints fmt args t ->
    says (K_warn (Some ts) fmt args) [ts; zs "ulp: " ++ t ++ [10]]
| sy_reason file func line l state s fmt args t :
    int_text l line -> int_text s state ->
    plain fmt t ->
    says (K_reason file func line state fmt args)
      [zs "In file = " ++ file ++ zs ", function = " ++ func ++ zs ", line = " ++ l ++
       zs ", error state " ++ s ++ zs ": "; t]
| sy_assert_true file func line e : e <> 0 -> says (K_assert file func line e) []
| sy_assert_false file func line l :
    int_text l line ->
    says (K_assert file func line 0)
      [zs "In file = " ++ file ++ zs ", function = " ++ func ++ zs ", line = " ++ l ++
       zs ": assertion failure: 0" ++ [10]]
| sy_errx file func line l eval e fmt args t :
    int_text l line -> int_text e eval ->
    plain fmt t ->
    says (K_errx file func line eval fmt args)
      [zs "In file = " ++ file ++ zs ", function = " ++ func ++ zs ", line = " ++ l ++
       zs ": errx : " ++ e ++ zs " ;; "; t]
| sy_exit file func line l val v :
    int_text l line -> int_text v val ->
    says (K_exit file func line val)
      [zs "In file = " ++ file ++ zs ", function = " ++ func ++ zs ", line = " ++ l ++
       zs ": exit: " ++ v ++ [10]].

(** The error state a call is meant to leave: the given one, or EUNKNOWN (256)
    after a failed assertion, errx and exit; otherwise the state stays. *)
Definition leaves (c : lcall) (before : Z) : Z :=
  match c with
  | K_push _ _ => before
  | K_warn _ _ _ => before
  | K_reason _ _ _ state _ _ => state
  | K_assert _ _ _ e => if e =? 0 then 256 else before
  | K_errx _ _ _ _ _ _ => 256
  | K_exit _ _ _ _ => 256
  end.

(** A text that can be logged as it is: a C string of any length but the one that
    fills the buffer exactly (C36), short enough for the int printf returns. *)
Definition logtext (mx : Z) (t : list Z) : Prop :=
  cstr_ok t /\ zlen t + 1 <> mx /\ zlen t < 2 ^ 31.
