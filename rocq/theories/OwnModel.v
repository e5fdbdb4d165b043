(** The memory of the tool itself: the blocks behind struct ulp_process, and who
    releases them (tools/introspection.c, tools/patches.c, tools/trigger.c). *)
From Verif Require Import Base.

(** ** Blocks *)

(** A pointer is the number of a block, 0 is NULL. *)
Definition ptr := nat.
Definition NULL : ptr := O.

(** tools/introspection.h:44-66, struct ulp_process; only what points to memory, the
    pid and all_threads_hijacked. dynobj_patches is never set and left out. *)
Record prc := mk_prc {
  pr_pid : Z;
  pr_threads : ptr;
  pr_main : ptr;             (* main_thread *)
  pr_objmain : ptr;          (* dynobj_main *)
  pr_targets : ptr;          (* dynobj_targets *)
  pr_libpulp : ptr;          (* dynobj_libpulp *)
  pr_results : ptr;
  pr_hijacked : bool;
  pr_next : ptr
}.

(** struct ulp_thread (68-74), struct ulp_dynobj (87-130; thread_states is never set
    and left out), a string, struct trigger_results (37-42), struct ulp_process. *)
Inductive node :=
| NThr (tid : Z) (next : ptr)
| NObj (filename : ptr) (next : ptr)
| NStr
| NRes (patch_name : ptr) (next : ptr)
| NPrc (p : prc).

(** The live blocks, and the number of the next one. A block that was released is
    never handed out again, so that every use of it is noticed. *)
Record heap := mk_heap { h_next : nat; h_cells : list (nat * node) }.

(** [None]: undefined behaviour, that is, a block is read, written or released that is not
    live, or is not of the expected kind. *)
Definition M (A : Type) := heap -> option (A * heap).
Definition ret {A} (a : A) : M A := fun h => Some (a, h).
Definition bad {A} : M A := fun _ => None.
Definition bind {A B} (m : M A) (k : A -> M B) : M B :=
  fun h => match m h with None => None | Some (a, h') => k a h' end.
Notation "'do' x <- m ; k" := (bind m (fun x => k)) (at level 200, x binder, m at level 100, k at level 200).

Fixpoint lookup (a : nat) (l : list (nat * node)) : option node :=
  match l with
  | [] => None
  | (b, n) :: t => if Nat.eqb b a then Some n else lookup a t
  end.
Fixpoint remove (a : nat) (l : list (nat * node)) : list (nat * node) :=
  match l with
  | [] => []
  | (b, n) :: t => if Nat.eqb b a then t else (b, n) :: remove a t
  end.

Definition alloc (n : node) : M ptr :=
  fun h => Some (h_next h, mk_heap (S (h_next h)) ((h_next h, n) :: h_cells h)).
Definition load (a : ptr) : M node :=
  fun h => match lookup a (h_cells h) with None => None | Some n => Some (n, h) end.
Definition store (a : ptr) (n : node) : M unit :=
  fun h => match lookup a (h_cells h) with
           | None => None
           | Some _ => Some (tt, mk_heap (h_next h) ((a, n) :: remove a (h_cells h)))
           end.
(** free; NULL is allowed. *)
Definition free (a : ptr) : M unit :=
  fun h => if Nat.eqb a 0 then Some (tt, h)
           else match lookup a (h_cells h) with
                | None => None
                | Some _ => Some (tt, mk_heap (h_next h) (remove a (h_cells h)))
                end.

Definition load_thr (a : ptr) : M (Z * ptr) :=
  do n <- load a; match n with NThr tid nx => ret (tid, nx) | _ => bad end.
Definition load_obj (a : ptr) : M (ptr * ptr) :=
  do n <- load a; match n with NObj f nx => ret (f, nx) | _ => bad end.
Definition load_res (a : ptr) : M (ptr * ptr) :=
  do n <- load a; match n with NRes f nx => ret (f, nx) | _ => bad end.
Definition load_prc (a : ptr) : M prc :=
  do n <- load a; match n with NPrc p => ret p | _ => bad end.
(** A string is used. *)
Definition load_str (a : ptr) : M unit :=
  do n <- load a; match n with NStr => ret tt | _ => bad end.

Definition set_thr (p : prc) (threads main : ptr) : prc :=
  mk_prc (pr_pid p) threads main (pr_objmain p) (pr_targets p) (pr_libpulp p) (pr_results p) (pr_hijacked p) (pr_next p).
Definition set_hij (p : prc) (b : bool) : prc :=
  mk_prc (pr_pid p) (pr_threads p) (pr_main p) (pr_objmain p) (pr_targets p) (pr_libpulp p) (pr_results p) b (pr_next p).
Definition set_objs (p : prc) (main targets libpulp : ptr) : prc :=
  mk_prc (pr_pid p) (pr_threads p) (pr_main p) main targets libpulp (pr_results p) (pr_hijacked p) (pr_next p).
Definition set_res (p : prc) (r : ptr) : prc :=
  mk_prc (pr_pid p) (pr_threads p) (pr_main p) (pr_objmain p) (pr_targets p) (pr_libpulp p) r (pr_hijacked p) (pr_next p).
Definition set_nxt (p : prc) (nx : ptr) : prc :=
  mk_prc (pr_pid p) (pr_threads p) (pr_main p) (pr_objmain p) (pr_targets p) (pr_libpulp p) (pr_results p) (pr_hijacked p) nx.

(** A loop over a chain of blocks: as many rounds as there were blocks. (That this is
    enough is part of the theorems: running out of rounds is [None].) *)
Definition looping {A} (f : nat -> M A) : M A := fun h => f (S (h_next h)) h.

(** ** Release *)

(** tools/introspection.c:190-199, release_ulp_thread. *)
Fixpoint release_ulp_thread (f : nat) (t : ptr) : M unit :=
  match f with
  | O => bad
  | S f' => if Nat.eqb t 0 then ret tt
            else do c <- load_thr t; do _ <- free t; release_ulp_thread f' (snd c)
  end.

(** tools/introspection.c:208-219, release_ulp_dynobj. *)
Fixpoint release_ulp_dynobj (f : nat) (o : ptr) : M unit :=
  match f with
  | O => bad
  | S f' => if Nat.eqb o 0 then ret tt
            else do c <- load_obj o; do _ <- free (fst c); do _ <- free o; release_ulp_dynobj f' (snd c)
  end.

(** tools/introspection.c:221-230, release_trigger_results: the rest of the list first. *)
Fixpoint release_trigger_results (f : nat) (r : ptr) : M unit :=
  match f with
  | O => bad
  | S f' => if Nat.eqb r 0 then ret tt
            else do c <- load_res r; do _ <- release_trigger_results f' (snd c);
                 do c' <- load_res r; do _ <- free (fst c'); free r
  end.

(** tools/introspection.c:239-255, release_ulp_process. *)
Fixpoint release_ulp_process (f : nat) (p : ptr) : M unit :=
  match f with
  | O => bad
  | S f' => if Nat.eqb p 0 then ret tt
            else do c <- load_prc p;
                 do _ <- looping (fun k => release_ulp_thread k (pr_threads c));
                 do _ <- looping (fun k => release_ulp_dynobj k (pr_objmain c));
                 do _ <- looping (fun k => release_ulp_dynobj k (pr_targets c));
                 do _ <- looping (fun k => release_trigger_results k (pr_results c));
                 do _ <- free p;
                 release_ulp_process f' (pr_next c)
  end.

(** ** Looking at a process *)

(** How get_libname_dynobj fares with one entry of the link map: read (is "libpulp.so" in
    its name?), the entry could not be read, its name could not be read. *)
Inductive objres := ObjOk (pulp : bool) | ObjNoMap | ObjNoName.

(** What the target answers to initialize_data_structures: attach, the name of the
    program, dig_load_bias, dig_main_link_map, the entries of the link map, and whether
    libpulp's constructor has run. *)
Record init_answers := mk_init {
  ia_attach : bool;
  ia_name : bool;
  ia_bias : bool;
  ia_linkmap : bool;
  ia_objs : list objres;
  ia_ready : bool
}.

(** tools/introspection.c:1242-1271, get_libname_dynobj: false if the chain ends here. The
    block is kept by nobody if something cannot be read. *)
Definition get_libname_dynobj (p : ptr) (r : objres) : M bool :=
  do obj <- alloc (NObj NULL NULL);
  match r with
  | ObjNoMap => ret false
  | ObjNoName => ret false
  | ObjOk pulp =>
      do libname <- alloc NStr;
      do c <- load_prc p;
      do _ <- store obj (NObj libname (pr_targets c));
      do _ <- load_str libname;
      do _ <- store p (NPrc (set_objs c (pr_objmain c) obj (if pulp then obj else pr_libpulp c)));
      ret true
  end.

(** tools/introspection.c:1289-1295, the first loop of parse_libs_dynobj. *)
Fixpoint read_objs (p : ptr) (l : list objres) : M unit :=
  match l with
  | [] => ret tt
  | r :: t => do go <- get_libname_dynobj p r; if go then read_objs p t else ret tt
  end.

(** tools/introspection.c:1204-1240, parse_lib_dynobj: it uses the name of the object. What
    else it reads is put into the object itself (C61, C62). *)
Definition parse_lib_dynobj (o : ptr) : M unit :=
  do c <- load_obj o; load_str (fst c).

(** tools/introspection.c:1313-1319, the second loop of parse_libs_dynobj. *)
Fixpoint parse_objs (f : nat) (o libpulp : ptr) : M unit :=
  match f with
  | O => bad
  | S f' => if Nat.eqb o 0 then ret tt
            else do _ <- (if Nat.eqb o libpulp then ret tt else parse_lib_dynobj o);
                 do c <- load_obj o; parse_objs f' (snd c) libpulp
  end.

(** tools/introspection.c:1046-1143, dig_load_bias, its buffer only: released at the end,
    but not on the way out after an error. *)
Definition dig_load_bias (ok : bool) : M bool :=
  do filename <- alloc NStr;
  if ok then do _ <- free filename; ret true else ret false.

(** tools/introspection.c:1337-1378, initialize_data_structures, with 1150-1186,
    parse_main_dynobj, and 1279-1321, parse_libs_dynobj. That the allocations fail is left
    out. *)
Definition initialize_data_structures (p : ptr) (a : init_answers) : M bool :=
  if negb (ia_attach a) then ret false
  else if negb (ia_name a) then ret false
  else
    do obj <- alloc (NObj NULL NULL);
    do file <- alloc NStr;
    do _ <- store obj (NObj file NULL);
    do c <- load_prc p;
    do _ <- store p (NPrc (set_objs c obj (pr_targets c) (pr_libpulp c)));
    do b <- dig_load_bias (ia_bias a);
    if negb b then ret false
    else if negb (ia_linkmap a) then ret false
    else
      do _ <- read_objs p (ia_objs a);
      do c <- load_prc p;
      if Nat.eqb (pr_libpulp c) 0 then ret false
      else
        do _ <- parse_lib_dynobj (pr_libpulp c);
        do _ <- looping (fun k => parse_objs k (pr_targets c) (pr_libpulp c));
        do _ <- load_obj (pr_libpulp c);
        ret (ia_ready a).

(** tools/patches.c:609-632, insert_target_process: the new head of the list. [mem]: calloc
    succeeds; its answer is not tested. *)
Definition insert_target_process (mem : bool) (pid : Z) (a : init_answers) (last : ptr) : M ptr :=
  if negb mem then bad
  else
    do new <- alloc (NPrc (mk_prc pid NULL NULL NULL NULL NULL NULL false NULL));
    do ok <- initialize_data_structures new a;
    if ok
    then do c <- load_prc new; do _ <- store new (NPrc (set_nxt c last)); ret new
    else do _ <- looping (fun k => release_ulp_process k new); ret last.

(** tools/introspection.c:350-374, dynobj_first and dynobj_next: a walk over all objects of
    a process, looking at their names, as check_patch_sanity (2292-2340) and
    print_process (tools/patches.c:539-577) do. *)
Fixpoint walk_from (f : nat) (p o : ptr) : M unit :=
  match f with
  | O => bad
  | S f' => if Nat.eqb o 0 then ret tt
            else do c <- load_obj o; do _ <- load_str (fst c);
                 do pr <- load_prc p;
                 if Nat.eqb o (pr_objmain pr) then walk_from f' p (pr_targets pr)
                 else walk_from f' p (snd c)
  end.
Definition walk (p : ptr) : M unit :=
  do pr <- load_prc p; looping (fun k => walk_from k p (pr_objmain pr)).

(** ** Threads *)

(** tools/introspection.c:1384-1393, search_thread. *)
Fixpoint search_thread (f : nat) (t : ptr) (tid : Z) : M ptr :=
  match f with
  | O => bad
  | S f' => if Nat.eqb t 0 then ret NULL
            else do c <- load_thr t;
                 if fst c =? tid then ret t else search_thread f' (snd c) tid
  end.

(** An entry of /proc/<pid>/task: the number (0 if it is none), and whether calloc,
    attach and get_regs succeed. *)
Record task := mk_task { tk_tid : Z; tk_calloc : bool; tk_attach : bool; tk_regs : bool }.

(** tools/introspection.c:1521-1577, the entries of one pass; [None]: children_restore. *)
Fixpoint hijack_pass (p : ptr) (l : list task) (loop : bool) : M (option bool) :=
  match l with
  | [] => ret (Some loop)
  | e :: l' =>
      if tk_tid e =? 0 then hijack_pass p l' loop
      else
        do c <- load_prc p;
        do t0 <- looping (fun k => search_thread k (pr_threads c) (tk_tid e));
        if negb (Nat.eqb t0 0) then hijack_pass p l' loop
        else if negb (tk_calloc e) then ret None
        else
          do t <- alloc (NThr 0 NULL);
          if negb (tk_attach e) then do _ <- free t; ret None
          else if negb (tk_regs e) then do _ <- free t; ret None
          else
            do _ <- store t (NThr (tk_tid e) (pr_threads c));
            do _ <- store p (NPrc (set_thr c t (if tk_tid e =? pr_pid c then t else pr_main c)));
            hijack_pass p l' true
  end.

(** tools/introspection.c:1511-1591, pass after pass until one finds nothing new. A pass is the entries
    and whether reading the directory failed; after the given ones nothing is found. *)
Fixpoint hijack_passes (p : ptr) (l : list (list task * bool)) : M bool :=
  match l with
  | [] => ret true
  | (es, err) :: l' =>
      do r <- hijack_pass p es false;
      match r with
      | None => ret false
      | Some loop => if err then ret false else if loop then hijack_passes p l' else ret true
      end
  end.

(** tools/introspection.c:1603-1612 (children_restore) and 1857-1869 (restore_threads):
    detach from every thread and release it. *)
Fixpoint drop_threads (f : nat) (p : ptr) : M unit :=
  match f with
  | O => bad
  | S f' =>
      do c <- load_prc p;
      if Nat.eqb (pr_threads c) 0 then ret tt
      else
        do t <- load_thr (pr_threads c);
        do _ <- store p (NPrc (set_thr c (snd t) (pr_main c)));
        do _ <- free (pr_threads c);
        drop_threads f' p
  end.

(** tools/introspection.c:1472-1622, hijack_threads: did it succeed? [opened]: opendir. *)
Definition hijack_threads (p : ptr) (opened : bool) (passes : Z -> list (list task * bool)) : M bool :=
  do c <- load_prc p;
  if pr_hijacked c then ret false
  else if negb opened then ret false
  else
    do ok <- hijack_passes p (passes (pr_pid c));
    if ok
    then do c <- load_prc p; do _ <- store p (NPrc (set_hij c true)); ret true
    else do _ <- looping (fun k => drop_threads k p); ret false.

(** tools/introspection.c:1841-1873, restore_threads. *)
Definition restore_threads (p : ptr) : M unit :=
  do c <- load_prc p;
  do _ <- store p (NPrc (set_hij c false));
  looping (fun k => drop_threads k p).

(** tools/introspection.c:1626-1665 (patch_applied), 1675-1744 (apply_patch), 1746-1804
    (revert_patches_from_lib), 1810-1832 (read_global_universe), run_enable_disable_patching: the
    context of the main thread and the addresses kept for libpulp are used. *)
Definition run_routine (p : ptr) : M unit :=
  do c <- load_prc p;
  if negb (pr_hijacked c) then ret tt
  else do _ <- load_thr (pr_main c); do _ <- load_obj (pr_libpulp c); ret tt.
Fixpoint run_routines (n : nat) (p : ptr) : M unit :=
  match n with O => ret tt | S n' => do _ <- run_routine p; run_routines n' p end.

(** ** Commands *)

(** One attempt at a process: opendir, the passes over the threads of the process with a
    given number, and how many routines are run. *)
Record attempt := mk_attempt { at_opened : bool; at_passes : Z -> list (list task * bool); at_routines : nat }.

(** tools/trigger.c:141-211, tools/check.c:98-123, tools/set_patchable.c:72-91: attempts until one
    cannot stop the process. *)
Fixpoint attempts (p : ptr) (l : list attempt) : M unit :=
  match l with
  | [] => ret tt
  | a :: l' =>
      do ok <- hijack_threads p (at_opened a) (at_passes a);
      if ok then do _ <- run_routines (at_routines a) p; do _ <- restore_threads p; attempts p l'
      else ret tt
  end.

(** tools/trigger.c:86-246, trigger_one_process: the version check and check_patch_sanity
    look at libpulp and all objects; then the attempts; the result is noted. *)
Definition trigger_one_process (p : ptr) (l : list attempt) : M unit :=
  do c <- load_prc p;
  do _ <- load_obj (pr_libpulp c);
  do _ <- walk p;
  do _ <- attempts p l;
  do entry <- alloc (NRes NULL NULL);
  do c <- load_prc p;
  do name <- alloc NStr;
  do _ <- store entry (NRes name (pr_results c));
  do c <- load_prc p;
  store p (NPrc (set_res c entry)).

(** tools/trigger.c:368-480, print_patched_unpatched: the results and their names are read. *)
Fixpoint read_results (f : nat) (r : ptr) : M unit :=
  match f with
  | O => bad
  | S f' => if Nat.eqb r 0 then ret tt
            else do c <- load_res r; do _ <- load_str (fst c); read_results f' (snd c)
  end.

(** What a command does with a process it was given. *)
Inductive work :=
| WTrigger (l : list attempt)       (* ulp trigger, one patch *)
| WReport                           (* its report *)
| WPatches                          (* ulp patches *)
| WToggle (l : list attempt).       (* ulp set_patchable *)
Definition do_work (p : ptr) (w : work) : M unit :=
  match w with
  | WTrigger l => trigger_one_process p l
  | WReport => do c <- load_prc p; looping (fun k => read_results k (pr_results c))
  | WPatches => walk p
  | WToggle l => attempts p l
  end.
Fixpoint do_works (p : ptr) (l : list work) : M unit :=
  match l with [] => ret tt | w :: l' => do _ <- do_work p w; do_works p l' end.

(** A process found in /proc, and what the command does with the process it is given then. *)
Record found := mk_found { fo_mem : bool; fo_pid : Z; fo_init : init_answers; fo_work : list work }.

(** tools/patches.c:139-200 without threads and tools/patches.h:54-57, the loop of a command over
    all processes. *)
Fixpoint serial_loop (l : list found) (last : ptr) : M unit :=
  match l with
  | [] => looping (fun k => release_ulp_process k last)
  | e :: l' =>
      do last' <- insert_target_process (fo_mem e) (fo_pid e) (fo_init e) last;
      if Nat.eqb last' 0 then looping (fun k => release_ulp_process k last')
      else do _ <- do_works last' (fo_work e); serial_loop l' last'
  end.
Definition serial_command (l : list found) : M unit := serial_loop l NULL.

(** ** With a thread that looks for processes *)

(** A step of the thread (tools/patches.c:50-113): another process was looked at and the head of
    the list is enqueued, or the directory is through and NULL is. A step of the command: the next
    element is dequeued and worked on, or, if it is NULL, process_list_end (182-200) releases
    everything. Simplified: these steps are not divided further (a process is only enqueued
    when it is complete, and the threads share nothing but the list and the queue of C34). *)
Inductive step :=
| SFound (mem : bool) (pid : Z) (a : init_answers)
| SThrough
| STake (w : list work).
Record tworld := mk_tw { tw_last : ptr; tw_queue : list ptr; tw_stop : bool }.

Definition do_step (s : step) (w : tworld) : M tworld :=
  match s with
  | SFound mem pid a =>
      do last' <- insert_target_process mem pid a (tw_last w);
      ret (mk_tw last' (tw_queue w ++ [last']) (tw_stop w))
  | SThrough => ret (mk_tw (tw_last w) (tw_queue w ++ [NULL]) (tw_stop w))
  | STake l =>
      if tw_stop w then ret w
      else match tw_queue w with
           | [] => ret w                                 (* it waits *)
           | p :: q =>
               if Nat.eqb p 0
               then do _ <- looping (fun k => release_ulp_process k (tw_last w)); ret (mk_tw (tw_last w) q true)
               else do _ <- do_works p l; ret (mk_tw (tw_last w) q false)
           end
  end.
Fixpoint do_steps (l : list step) (w : tworld) : M tworld :=
  match l with [] => ret w | s :: l' => do w' <- do_step s w; do_steps l' w' end.

(** ** One process *)

(** tools/check.c:39-145 and tools/messages.c:136-172: one process is looked at, worked on if that
    succeeded, and released. *)
Definition single_command (pid : Z) (a : init_answers) (w : list work) : M unit :=
  do p <- alloc (NPrc (mk_prc pid NULL NULL NULL NULL NULL NULL false NULL));
  do ok <- initialize_data_structures p a;
  do _ <- (if ok then do_works p w else ret tt);
  looping (fun k => release_ulp_process k p).

Definition no_blocks : heap := mk_heap 1 [].
