(** Process discovery of the tool: the queue between the discovery thread and
    the main thread (tools/pcqueue.c) and the discovery itself
    (tools/patches.c). *)
From Verif Require Import Base TextModel.

(** ** The queue *)

(** tools/pcqueue.h:15-47.  Elements are pointers; NULL is 0.  [pq_slots] is the
    array elem[0..n), with arbitrary contents after malloc. *)
Record pcq := mk_pcq {
  pq_n : Z;
  pq_head : Z;
  pq_tail : Z;
  pq_empty : Z;
  pq_full : Z;
  pq_slots : Z -> Z
}.

(** tools/pcqueue.c:17-42, 54-68: producer_consumer_init/new. *)
Definition pcq_new (n : Z) (junk : Z -> Z) : pcq := mk_pcq n 0 0 0 n junk.

(** The program counters of the two threads inside producer_consumer_enqueue
    (tools/pcqueue.c:137-178) and producer_consumer_dequeue
    (tools/pcqueue.c:188-226):
    - [PWait]/[CWait]: before sem_wait;
    - [PStore]/[CRead]: before elem[head++] = elem / ret = elem[tail++];
    - [PWrap]/[CWrap]: before the wrap-around test;
    - [PPost]/[CPost]: before sem_post. *)
Inductive ppc := PWait | PStore | PWrap | PPost.
Inductive cpc := CWait | CRead | CWrap | CPost.

(** The discovery thread still has to enqueue [pc_todo] (the head of it being the
    argument of the current call); the main thread has received [pc_got], oldest
    first, and stops asking when it receives NULL. *)
Record pcstate := mk_pc {
  pc_q : pcq;
  pc_todo : list Z;
  pc_p : ppc;
  pc_c : cpc;
  pc_hand : Z;
  pc_got : list Z;
  pc_stop : bool
}.

Definition pc_init (n : Z) (junk : Z -> Z) (xs : list Z) : pcstate :=
  mk_pc (pcq_new n junk) xs PWait CWait 0 [] false.

(** Result of letting one thread do its next step. *)
Inductive pcresult := PcNext (s : pcstate) | PcBlocked | PcFinished | PcOutOfBounds.

(** tools/pcqueue.c:137-178, one step of the discovery thread.  sem_wait and
    sem_post are assumed not to fail (no signal handlers are installed and the
    count stays far below SEM_VALUE_MAX, which the theorems bound). *)
Definition producer_step (s : pcstate) : pcresult :=
  match pc_todo s with
  | [] => PcFinished
  | x :: rest =>
      let q := pc_q s in
      match pc_p s with
      | PWait =>
          if pq_full q <=? 0 then PcBlocked
          else PcNext (mk_pc (mk_pcq (pq_n q) (pq_head q) (pq_tail q) (pq_empty q) (pq_full q - 1) (pq_slots q))
                             (pc_todo s) PStore (pc_c s) (pc_hand s) (pc_got s) (pc_stop s))
      | PStore =>
          if (pq_head q <? 0) || (pq_n q <=? pq_head q) then PcOutOfBounds
          else PcNext (mk_pc (mk_pcq (pq_n q) (pq_head q + 1) (pq_tail q) (pq_empty q) (pq_full q)
                                     (fun i => if i =? pq_head q then x else pq_slots q i))
                             (pc_todo s) PWrap (pc_c s) (pc_hand s) (pc_got s) (pc_stop s))
      | PWrap =>
          PcNext (mk_pc (mk_pcq (pq_n q) (if pq_n q <=? pq_head q then 0 else pq_head q) (pq_tail q)
                                (pq_empty q) (pq_full q) (pq_slots q))
                        (pc_todo s) PPost (pc_c s) (pc_hand s) (pc_got s) (pc_stop s))
      | PPost =>
          PcNext (mk_pc (mk_pcq (pq_n q) (pq_head q) (pq_tail q) (pq_empty q + 1) (pq_full q) (pq_slots q))
                        rest PWait (pc_c s) (pc_hand s) (pc_got s) (pc_stop s))
      end
  end.

(** tools/pcqueue.c:188-226 and tools/patches.c:115-128, tools/patches.h:54-57:
    one step of the main thread, which calls process_list_next until it gets
    NULL. *)
Definition consumer_step (s : pcstate) : pcresult :=
  if pc_stop s then PcFinished
  else
    let q := pc_q s in
    match pc_c s with
    | CWait =>
        if pq_empty q <=? 0 then PcBlocked
        else PcNext (mk_pc (mk_pcq (pq_n q) (pq_head q) (pq_tail q) (pq_empty q - 1) (pq_full q) (pq_slots q))
                           (pc_todo s) (pc_p s) CRead (pc_hand s) (pc_got s) false)
    | CRead =>
        if (pq_tail q <? 0) || (pq_n q <=? pq_tail q) then PcOutOfBounds
        else PcNext (mk_pc (mk_pcq (pq_n q) (pq_head q) (pq_tail q + 1) (pq_empty q) (pq_full q) (pq_slots q))
                           (pc_todo s) (pc_p s) CWrap (pq_slots q (pq_tail q)) (pc_got s) false)
    | CWrap =>
        PcNext (mk_pc (mk_pcq (pq_n q) (pq_head q) (if pq_n q <=? pq_tail q then 0 else pq_tail q)
                              (pq_empty q) (pq_full q) (pq_slots q))
                      (pc_todo s) (pc_p s) CPost (pc_hand s) (pc_got s) false)
    | CPost =>
        PcNext (mk_pc (mk_pcq (pq_n q) (pq_head q) (pq_tail q) (pq_empty q) (pq_full q + 1) (pq_slots q))
                      (pc_todo s) (pc_p s) CWait (pc_hand s) (pc_got s ++ [pc_hand s])
                      (pc_hand s =? 0))
    end.

(** A schedule: [true] lets the discovery thread run, [false] the main thread.  A
    thread that cannot run is passed over. [None]: out-of-bounds access. *)
Fixpoint pc_run (s : pcstate) (sched : list bool) : option pcstate :=
  match sched with
  | [] => Some s
  | b :: t =>
      match (if b then producer_step s else consumer_step s) with
      | PcNext s' => pc_run s' t
      | PcOutOfBounds => None
      | _ => pc_run s t
      end
  end.

(** ** Discovery *)

(** An entry of /proc as the tool sees it: its name, what /proc/<pid>/comm says,
    the owner, whether libpulp.so is in its memory map, and whether
    initialize_data_structures succeeds. *)
Record pentry := mk_pentry {
  pe_name : list Z;
  pe_comm : list Z;
  pe_owner : Z;
  pe_libpulp : bool;
  pe_init : bool
}.

(** What the tool asks the system: fnmatch(pattern, string, 0) == 0, getpwuid and
    getpid. *)
Record pworld := mk_pworld {
  pw_fnmatch : list Z -> list Z -> bool;
  pw_getpwuid : Z -> option (list Z);
  pw_self : Z
}.

(** tools/patches.c:162-165: the uid of a numeric user wildcard; strtol stops at
    LONG_MAX, uid_t has 32 bits. *)
Definition target_uid (user : option (list Z)) : Z :=
  if isnumber user
  then match user with Some u => u32 (Z.min (dec_val u) (2 ^ 63 - 1)) | None => 0 end
  else 0.

(** tools/patches.c:61-98: is the entry skipped? *)
Definition pe_skipped (w : pworld) (wildcard user : option (list Z)) (pe : pentry) : bool :=
  if negb (isnumber (Some (pe_name pe))) then true
  else if match wildcard with
          | Some pat => negb (pw_fnmatch w pat (pe_comm pe))
          | None => false
          end then true
  else if match user with
          | Some upat =>
              if target_uid user >? 0 then negb (pe_owner pe =? target_uid user)
              else if pe_owner pe >? 0 then
                match pw_getpwuid w (pe_owner pe) with
                | Some name => negb (pw_fnmatch w upat name)
                | None => false
                end
              else false
          | None => false
          end then true
  else if atoi (pe_name pe) =? pw_self w then true
  else negb (pe_libpulp pe).

(** tools/patches.c:50-113, generate_ulp_list_thread with threads, and
    insert_target_process (tools/patches.c:609-632): the values enqueued.
    Process structures are represented by the pid in them, so [last] = 0 is the
    empty list.  A process that cannot be read is not inserted, and what is
    enqueued is the last one inserted. *)
Fixpoint discover (w : pworld) (wildcard user : option (list Z)) (last : Z) (l : list pentry) : list Z :=
  match l with
  | [] => [0]
  | pe :: t =>
      if pe_skipped w wildcard user pe then discover w wildcard user last t
      else
        let last' := if pe_init pe then atoi (pe_name pe) else last in
        last' :: discover w wildcard user last' t
  end.

(** tools/patches.c:115-128 without threads: what successive calls of
    process_list_next return until NULL. *)
Fixpoint discover_serial (w : pworld) (wildcard user : option (list Z)) (last : Z) (l : list pentry) : list Z :=
  match l with
  | [] => []
  | pe :: t =>
      if pe_skipped w wildcard user pe then discover_serial w wildcard user last t
      else
        let last' := if pe_init pe then atoi (pe_name pe) else last in
        if last' =? 0 then [] else last' :: discover_serial w wildcard user last' t
  end.
