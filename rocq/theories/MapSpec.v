(** The memory map of a process as /proc/self/maps shows it. *)
From Verif Require Import Base IntrSpec.

(** A line whose fields are free of newlines and whose permissions are three letters or
    dashes and one more letter. *)
Definition map_ok (m : mline) : Prop :=
  hexnum (ml_start m) /\ hexnum (ml_end m) /\
  (exists r w x s, ml_perm m = [r; w; x; s] /\
     (r = 114 \/ r = 45) /\ (w = 119 \/ w = 45) /\ (x = 120 \/ x = 45) /\ (s = 112 \/ s = 115)) /\
  ~ In 10 (ml_off m) /\ ~ In 10 (ml_dev m) /\ ~ In 10 (ml_inode m) /\ ~ In 10 (ml_path m).

(** The mapping covers the address. *)
Definition covers (m : mline) (addr : Z) : Prop := hexval (ml_start m) <= addr < hexval (ml_end m).

(** Its protection: readable 1, writable 2, executable 4. *)
Definition protection (m : mline) (prot : Z) : Prop :=
  exists r w x s, ml_perm m = [r; w; x; s] /\
    prot = (if r =? 114 then 1 else 0) + (if w =? 119 then 2 else 0) + (if x =? 120 then 4 else 0).

(** The file. *)
Definition maps_text (ms : list mline) : list Z := flat_map mline_text ms.

(** The lines show the protections [prot] of the pages: the first line that covers a page
    gives its protection; a page without one is not mapped. *)
Definition shows (ms : list mline) (prot : Z -> option Z) : Prop :=
  forall addr,
    (forall before m after, ms = before ++ m :: after ->
       (forall b, In b before -> ~ covers b addr) -> covers m addr ->
       exists p, protection m p /\ prot addr = Some p) /\
    ((forall m, In m ms -> ~ covers m addr) -> prot addr = None).
