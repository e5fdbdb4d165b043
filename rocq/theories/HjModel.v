(** Stopping all threads of the target (tools/introspection.c, hijack_threads)
    while the target creates and ends threads. *)
From Verif Require Import Base LibModel PtModel.

Definition ETHRDATTACH : Z := 264.
Definition ETHRDDETTACH : Z := 265.

(** State of a thread of the target. *)
Inductive tstate :=
| TRun          (** running, not attached *)
| TAttaching    (** PTRACE_ATTACH was granted, the stop is still to come *)
| TStopped.     (** attached and stopped *)

(** Where the tool is. *)
Inductive hphase :=
| HScan                     (** in the inner loop, lines 1522-1575 *)
| HAttach (tid : Z)         (** in attach(): PTRACE_ATTACH granted, waiting *)
| HPassEnd                  (** readdir returned NULL without error *)
| HFailing                  (** children_restore, lines 1599-1608 *)
| HSuccess
| HFailed (code : Z).

(** [h_threads]: the threads of the target in the order of the kernel's list (a
    new thread is appended). [h_cur]: how many of them lie before the position
    of the directory listing. [h_buf]: entries already delivered by the kernel
    and not yet looked at (readdir fetches several at once). [h_known]: the list
    process->threads. [h_loop], [h_fatal]: the variables of the same names.
    [h_dfail]: a detach request was refused (not a variable of the program). *)
Record hstate := mk_h {
  h_threads : list (Z * tstate);
  h_cur : nat;
  h_buf : list Z;
  h_known : list Z;
  h_loop : bool;
  h_fatal : bool;
  h_dfail : bool;
  h_phase : hphase
}.

Definition set_threads (s : hstate) l := mk_h l (h_cur s) (h_buf s) (h_known s) (h_loop s) (h_fatal s) (h_dfail s) (h_phase s).
Definition set_phase (s : hstate) p := mk_h (h_threads s) (h_cur s) (h_buf s) (h_known s) (h_loop s) (h_fatal s) (h_dfail s) p.

(** Change the state of the thread [tid]. *)
Definition set_tstate (tid : Z) (t : tstate) (l : list (Z * tstate)) : list (Z * tstate) :=
  map (fun x => if fst x =? tid then (tid, t) else x) l.

Definition tids (s : hstate) : list Z := map fst (h_threads s).

(** A thread that is not stopped can act. *)
Definition active (t : tstate) : Prop := t <> TStopped.

(** Behaviours of the environment that can be added to thread creation and
    termination. *)
Inductive quirk :=
| Plain
| CountingListing   (** A thread ends just as the listing stands on it, and the
                        listing resumes by counting entries from the start, and
                        so skips one (which is how Linux resumes a listing of
                        /proc/<pid>/task whose current thread is gone). *)
| Exec.             (** A thread executes another program. *)

(** One step of the target, the kernel or the tool (tools/introspection.c:1473-1616;
    the line numbers below are those of that file). The failure to open the
    directory (lines 1492-1505), which ends the function before anything happened,
    is left out, and so is closedir. *)
Inductive hstep (q : quirk) : hstate -> hstate -> Prop :=
  (** the target: an active thread creates a thread *)
| st_clone s l1 tid t l2 new :
    h_threads s = l1 ++ (tid, t) :: l2 -> active t -> 0 < new -> ~ In new (tids s) ->
    hstep q s (set_threads s (h_threads s ++ [(new, TRun)]))
  (** the target: an active thread ends; the listing keeps its place *)
| st_exit s l1 tid t l2 :
    h_threads s = l1 ++ (tid, t) :: l2 -> active t ->
    hstep q s
      (mk_h (l1 ++ l2) (if (length l1 <? h_cur s)%nat then h_cur s - 1 else h_cur s)%nat
            (h_buf s) (h_known s) (h_loop s) (h_fatal s) (h_dfail s) (h_phase s))
  (** the target: a thread ends on which the listing stands *)
| st_exit_under_cursor s l1 tid t l2 :
    q = CountingListing -> h_threads s = l1 ++ (tid, t) :: l2 -> active t -> h_cur s = length l1 ->
    hstep q s
      (mk_h (l1 ++ l2) (h_cur s + 1) (h_buf s) (h_known s) (h_loop s) (h_fatal s) (h_dfail s) (h_phase s))
  (** the target: an active thread executes another program: it becomes the only
      thread and takes over the identity of the first one *)
| st_exec s l1 tid t l2 pid t0 l3 :
    q = Exec -> h_threads s = l1 ++ (tid, t) :: l2 -> active t -> h_threads s = (pid, t0) :: l3 ->
    hstep q s
      (mk_h [(pid, t)] (Nat.min (h_cur s) 1) (h_buf s) (h_known s) (h_loop s) (h_fatal s) (h_dfail s) (h_phase s))
  (** the kernel: an attached thread stops *)
| st_stop s l1 tid l2 :
    h_threads s = l1 ++ (tid, TAttaching) :: l2 ->
    hstep q s (set_threads s (l1 ++ (tid, TStopped) :: l2))
  (** the kernel: the listing delivers the next entry *)
| st_deliver s l1 tid t l2 :
    h_phase s = HScan -> h_threads s = l1 ++ (tid, t) :: l2 -> h_cur s = length l1 ->
    hstep q s
      (mk_h (h_threads s) (h_cur s + 1) (h_buf s ++ [tid]) (h_known s) (h_loop s) (h_fatal s) (h_dfail s) HScan)
  (** lines 1525-1532: the entry is known already *)
| st_known s tid rest :
    h_phase s = HScan -> h_buf s = tid :: rest -> In tid (h_known s) ->
    hstep q s
      (mk_h (h_threads s) (h_cur s) rest (h_known s) (h_loop s) (h_fatal s) (h_dfail s) HScan)
  (** lines 1532-1548: a new entry; PTRACE_ATTACH is granted *)
| st_attach s tid rest l1 l2 :
    h_phase s = HScan -> h_buf s = tid :: rest -> ~ In tid (h_known s) ->
    h_threads s = l1 ++ (tid, TRun) :: l2 ->
    hstep q s
      (mk_h (l1 ++ (tid, TAttaching) :: l2) (h_cur s) rest (h_known s) true (h_fatal s) (h_dfail s) (HAttach tid))
  (** lines 1543-1551: no memory, or PTRACE_ATTACH is refused *)
| st_attach_refused s tid rest :
    h_phase s = HScan -> h_buf s = tid :: rest -> ~ In tid (h_known s) ->
    hstep q s
      (mk_h (h_threads s) (h_cur s) rest (h_known s) true (h_fatal s) (h_dfail s) HFailing)
  (** lines 1552-1565: it has stopped and its registers were read *)
| st_attached s tid l1 l2 :
    h_phase s = HAttach tid -> h_threads s = l1 ++ (tid, TStopped) :: l2 ->
    hstep q s
      (mk_h (h_threads s) (h_cur s) (h_buf s) (tid :: h_known s) (h_loop s) (h_fatal s) (h_dfail s) HScan)
  (** the thread ended before it stopped: attach() fails *)
| st_attach_gone s tid :
    h_phase s = HAttach tid -> (forall t, In (tid, t) (h_threads s) -> t = TRun) ->
    hstep q s (set_phase s HFailing)
  (** tools/ptrace.c:408-411: waitpid fails; the thread stays attached *)
| st_attach_waitpid_error s tid :
    h_phase s = HAttach tid ->
    hstep q s
      (mk_h (h_threads s) (h_cur s) (h_buf s) (h_known s) (h_loop s) (h_fatal s) true HFailing)
  (** lines 1552-1569: reading the registers fails; the thread is detached ... *)
| st_getregs_error s tid l1 l2 :
    h_phase s = HAttach tid -> h_threads s = l1 ++ (tid, TStopped) :: l2 ->
    hstep q s
      (mk_h (l1 ++ (tid, TRun) :: l2) (h_cur s) (h_buf s) (h_known s) (h_loop s) (h_fatal s) (h_dfail s) HFailing)
  (** ... or not, and that is not noticed *)
| st_getregs_detach_error s tid :
    h_phase s = HAttach tid ->
    hstep q s
      (mk_h (h_threads s) (h_cur s) (h_buf s) (h_known s) (h_loop s) (h_fatal s) true HFailing)
  (** readdir fails, lines 1581-1585 *)
| st_readdir_error s :
    h_phase s = HScan -> hstep q s (set_phase s HFailing)
  (** the end of the listing *)
| st_eof s :
    h_phase s = HScan -> h_buf s = [] -> (length (h_threads s) <= h_cur s)%nat ->
    hstep q s (set_phase s HPassEnd)
  (** line 1587: another pass from the start of the list, or success *)
| st_again s :
    h_phase s = HPassEnd -> h_loop s = true ->
    hstep q s
      (mk_h (h_threads s) 0 [] (h_known s) false (h_fatal s) (h_dfail s) HScan)
| st_success s :
    h_phase s = HPassEnd -> h_loop s = false -> hstep q s (set_phase s HSuccess)
  (** lines 1600-1608: one thread is released ... *)
| st_release s tid rest :
    h_phase s = HFailing -> h_known s = tid :: rest ->
    hstep q s
      (mk_h (set_tstate tid TRun (h_threads s)) (h_cur s) (h_buf s) rest (h_loop s) (h_fatal s) (h_dfail s) HFailing)
  (** ... or the request is refused *)
| st_release_refused s tid rest :
    h_phase s = HFailing -> h_known s = tid :: rest ->
    hstep q s
      (mk_h (h_threads s) (h_cur s) (h_buf s) rest (h_loop s) true true HFailing)
| st_failed s :
    h_phase s = HFailing -> h_known s = [] ->
    hstep q s (set_phase s (HFailed (if h_fatal s then ETHRDDETTACH else ETHRDATTACH))).

Inductive hsteps (q : quirk) : hstate -> hstate -> Prop :=
| hs_refl s : hsteps q s s
| hs_step s1 s2 s3 : hsteps q s1 s2 -> hstep q s2 s3 -> hsteps q s1 s3.

(** The state in which hijack_threads starts its first pass: all threads run. *)
Definition h_init (l : list Z) : hstate :=
  mk_h (map (fun t => (t, TRun)) l) 0 [] [] false false false HScan.
