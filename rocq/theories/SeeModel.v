(** Which processes the tool works on, from what /proc shows of them (tools/patches.c). The loop over
    /proc and the queue are in PcModel, looking into a process is in IntrModel, counting the results in
    TrModel. *)
From Coq Require Import String.
From Verif Require Import Base InsnQModel MetaModel StrModel PtModel TextModel PcModel IntrModel TrModel.

(** getline until the end of the file: the lines with their newlines; the last one may have none. *)
Fixpoint getlines (s : list Z) : list (list Z) :=
  match s with
  | [] => []
  | c :: t =>
      if c =? 10 then [10] :: getlines t
      else match getlines t with
           | [] => [[c]]
           | l :: r => (c :: l) :: r
           end
  end.

(** patches.c:206-225, libpulp_loaded. /proc/PID/maps has no byte 0. *)
Definition libpulp_loaded_maps (text : list Z) : bool :=
  existsb (fun line => strstr line (zs "libpulp.so")) (getlines text).

(** patches.c:580-603, has_libpulp_loaded. [None]: the file cannot be opened. *)
Definition has_libpulp_loaded (maps : option (list Z)) : bool :=
  match maps with
  | None => false
  | Some text => libpulp_loaded_maps text
  end.

(** A process: its entry in /proc, its name (comm), owner, memory map, and what the tool finds when it looks into it:
    whether ptrace lets it attach, the memory, and the other files of /proc/PID. *)
Record aproc := mk_aproc {
  pv_name : list Z;
  pv_comm : list Z;
  pv_owner : Z;
  pv_maps : option (list Z);
  pv_attach : bool;
  pv_target : target;
  pv_procfs : procfs
}.

(** patches.c:609-632, insert_target_process: is the process inserted? (A memory the tool
    never gets through with, or crashes on, counts as not inserted here; the theorems do not use that.) *)
Definition inserted (p : aproc) : bool :=
  match initialize_data_structures (pv_target p) (pv_procfs p) (pv_attach p) with
  | I_ok _ => true
  | _ => false
  end.

(** What the loop of PcModel sees of it. *)
Definition entry_of (p : aproc) : pentry :=
  mk_pentry (pv_name p) (pv_comm p) (pv_owner p) (has_libpulp_loaded (pv_maps p)) (inserted p).

(** patches.h:54-60, the processes the loop body is run for, in this order. *)
Definition visited (w : pworld) (wildcard user : option (list Z)) (l : list aproc) : list Z :=
  discover_serial w wildcard user 0 (map entry_of l).

(** trigger.c:495-566 with the list of processes; [act pid] is the result of working on a process. The answer is
    the exit status and the counts of the summary. *)
Definition trigger_all (w : pworld) (wildcard user : option (list Z)) (many : bool) (act : Z -> Z) (l : list aproc) : Z * tcount :=
  let c := trigger_many_processes many (map act (visited w wildcard user l)) in
  (exit_status (c_ret c), c).
