(** C98: which processes are to be worked on. *)
From Coq Require Import String.
From Verif Require Import Base StrModel LibSpec TextModel TextSpec PcModel IntrModel IntrSpec MapSpec SeeModel.

(** A line of /proc/PID/maps as the kernel writes it (newlines in paths are escaped). *)
Definition kernel_line (m : mline) : Prop :=
  hexnum (ml_start m) /\ hexnum (ml_end m) /\
  Forall (fun c => In c (zs "rwxps-")) (ml_perm m) /\ Forall hexdigit (ml_off m) /\
  Forall (fun c => hexdigit c \/ c = 58) (ml_dev m) /\ Forall hexdigit (ml_inode m) /\ ~ In 10 (ml_path m).

(** The process has mapped a file with libpulp.so in its path. *)
Definition maps_libpulp (ms : list mline) : Prop := exists m, In m ms /\ substring (zs "libpulp.so") (ml_path m).

(** The user's condition on the owner as the tool understands it: a number from 1 on is the uid; with anything else the
    processes of root and of users without a name always pass, the others if their name matches. *)
Definition owner_passes (w : pworld) (user : option (list Z)) (owner : Z) : Prop :=
  forall u, user = Some u ->
    (exists v, decimal u v /\ 1 <= v /\ owner = v) \/
    ((~ exists v, decimal u v /\ 1 <= v) /\
     (owner <= 0 \/ pw_getpwuid w owner = None \/
      exists name, pw_getpwuid w owner = Some name /\ pw_fnmatch w u name = true)).

(** The process is to be worked on: a process, of that name and owner, not the tool, with the file mapped. *)
Definition asked_for (w : pworld) (wildcard user : option (list Z)) (p : aproc) (ms : list mline) : Prop :=
  (exists v, decimal (pv_name p) v /\ v <> pw_self w) /\
  (forall pat, wildcard = Some pat -> pw_fnmatch w pat (pv_comm p) = true) /\
  owner_passes w user (pv_owner p) /\ maps_libpulp ms.

(** The processes that pass all of the user's conditions and have such a file mapped; and those of them the
    tool can look into. *)
Definition chosen (w : pworld) (wildcard user : option (list Z)) (l : list aproc) : list aproc :=
  filter (fun p => negb (pe_skipped w wildcard user (entry_of p))) l.
Definition readable (p : aproc) : Prop :=
  exists q, initialize_data_structures (pv_target p) (pv_procfs p) (pv_attach p) = I_ok q.
Definition pid (p : aproc) : Z := atoi (pv_name p).

(** [x] is the pid of the last readable process among the first [k] + 1 of [l]. *)
Definition last_readable (l : list aproc) (k : nat) (x : Z) : Prop :=
  exists i p, (i <= k)%nat /\ nth_error l i = Some p /\ readable p /\ x = pid p /\
    forall j q, (i < j <= k)%nat -> nth_error l j = Some q -> ~ readable q.
