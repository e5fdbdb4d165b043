(** Privileges as the kernel shows them. *)
From Coq Require Import String.
From Verif Require Import Base StrModel IntrSpec.

(** A line of /proc/self/status: a name with its colon, a tab, the rest. *)
Definition blank (c : Z) : Prop := c = 32 \/ c = 9 \/ c = 10.
Definition status_line (name rest : list Z) : list Z := name ++ 9 :: rest ++ [10].
Definition other_line (l : list Z) : Prop :=
  exists name rest, l = status_line name rest /\ name <> [] /\ (forall c, In c name -> ~ blank c) /\ name <> zs "CapPrm:".

(** The file says that the permitted capabilities of the tool are [digits]. *)
Definition permitted (file : list (list Z)) (digits : list Z) : Prop :=
  exists before after, file = before ++ status_line (zs "CapPrm:") digits :: after /\
    Forall other_line before /\ hexnum digits.

(** CAP_SYS_ADMIN is number 21 of <linux/capability.h>. *)
Definition has_sys_admin (caps : Z) : bool := Z.testbit caps 21.
