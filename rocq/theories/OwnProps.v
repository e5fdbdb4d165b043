(** C90: the memory of the tool. *)
From Coq Require Import Bool Lia.
From Verif Require Import Base OwnModel OwnSpec OwnProofs Own2Proofs.

(** A command over all processes, without threads: whatever the processes answer, no block is
    used after it was released, released twice, or taken for another kind of block; and when
    it is through, only the blocks that looking at the processes loses are left. *)
Theorem C90_serial_safe : forall l,
  Forall found_ok l ->
  exists h n, serial_command l no_blocks = Some (tt, h) /\
    blocks h = sum (map (fun e => lost (fo_init e)) (firstn n l)).
Proof.
  intros l Hl. destruct (serial_ok l [] [] no_blocks Hl (Forall_nil _) models_none) as (h & LK & n & E & M0 & L).
  exists h, n. split; [exact E|]. rewrite (models_blocks _ _ M0), app_nil_r. exact L.
Qed.
Print Assumptions C90_serial_safe.

(** The same for a command that is given one process. *)
Theorem C90_single_safe : forall pid a ws,
  pid <> 0 -> Forall work_ok ws ->
  exists h, single_command pid a ws no_blocks = Some (tt, h) /\ blocks h = lost a.
Proof. exact single_ok. Qed.
Print Assumptions C90_single_safe.

(** With the thread that looks for processes: no schedule, and no sequence of answers, makes
    the tool use a block that is not there. *)
Theorem C90_threads_safe : forall l,
  Forall step_ok l -> exists w h, do_steps l start no_blocks = Some (w, h).
Proof.
  intros l Hl. destruct (steps_inv l 0 start no_blocks Hl inv_start) as (w & h & E & _). eauto.
Qed.
Print Assumptions C90_threads_safe.

(** And if the first process found is accessible, then, once the command has come to the end
    of the queue, again only the lost blocks are left. *)
Theorem C90_threads_clean : forall fs ts w h,
  Forall step_ok fs -> Forall step_ok ts ->
  existsb is_through fs = false -> forallb is_take ts = true -> first_ok fs = true ->
  do_steps (fs ++ SThrough :: ts) start no_blocks = Some (w, h) -> tw_stop w = true ->
  blocks h = sum (map lost_by fs).
Proof.
  intros fs ts w h H1 H2 H3 H4 H5 E S. destruct (threads_clean fs ts H1 H2 H3 H4 H5) as (w' & h' & E' & B).
  rewrite E in E'. injection E' as <- <-. auto.
Qed.
Print Assumptions C90_threads_clean.

(** *** The hypotheses are met *)

Definition all_well : init_answers := mk_init true true true true [ObjOk false; ObjOk true; ObjOk false] true.
Definition not_ready : init_answers := mk_init true true true true [ObjOk false; ObjOk true] false.
Definition no_headers : init_answers := mk_init true true false true [] true.
Definition cut_off : init_answers := mk_init true true true true [ObjOk true; ObjNoName; ObjOk false] true.

Definition two_threads (pid : Z) : list (list task * bool) :=
  [([mk_task 0 true true true; mk_task pid true true true; mk_task (pid + 1) true true true], false)].
Definition lost_thread (pid : Z) : list (list task * bool) :=
  [([mk_task pid true true true; mk_task (pid + 1) true true false], false)].
Definition tries : list attempt := [mk_attempt true two_threads 2; mk_attempt true lost_thread 2].

Lemma tries_list : Forall lists_itself tries.
Proof.
  assert (X : forall f n, (f = two_threads \/ f = lost_thread) -> lists_itself (mk_attempt true f n)).
  { intros f n [-> | ->] pid _; do 3 eexists; (split; [reflexivity|]); cbn; auto. }
  constructor; [apply X; auto|]. constructor; [apply X; auto|]. constructor.
Qed.

Definition all_work : list work := [WTrigger tries; WTrigger tries; WReport; WPatches; WToggle tries].
Lemma all_work_ok : Forall work_ok all_work.
Proof.
  unfold all_work. constructor; [exact tries_list|]. constructor; [exact tries_list|]. constructor; [exact I|].
  constructor; [exact I|]. constructor; [exact tries_list|]. constructor.
Qed.

Definition some_found : list found :=
  [mk_found true 10 all_well all_work; mk_found true 20 not_ready [WPatches]; mk_found true 30 cut_off all_work].
Definition some_steps : list step :=
  [SFound true 10 all_well; STake all_work; STake []; SFound true 20 not_ready; SFound true 30 cut_off; STake [WPatches]].
Definition some_takes : list step := [STake all_work; STake all_work; STake all_work].

(** Three processes, one of them not accessible, one with an object whose name cannot be
    read: one block is lost each time. *)
Example C90_case :
  Forall found_ok some_found /\
  (match serial_command some_found no_blocks with Some (_, h) => blocks h = 1%nat | None => False end) /\
  Forall step_ok some_steps /\ Forall step_ok some_takes /\ first_ok some_steps = true /\
  (match do_steps (some_steps ++ SThrough :: some_takes) start no_blocks with
   | Some (w, h) => tw_stop w = true /\ blocks h = 1%nat
   | None => False
   end) /\
  (match single_command 10 all_well all_work no_blocks with Some (_, h) => blocks h = 0%nat | None => False end) /\
  (* in the middle there is something to release *)
  (match do_steps some_steps start no_blocks with Some (_, h) => (blocks h > 15)%nat | None => False end).
Proof.
  pose proof all_work_ok as W.
  assert (W1 : Forall work_ok [WPatches]) by (constructor; [exact I|constructor]).
  split. { unfold some_found. repeat (constructor; [unfold found_ok; cbn [fo_mem fo_pid fo_work]; split; [reflexivity|split; [clear; lia|first [exact W|exact W1]]]|]). constructor. }
  split; [vm_compute; reflexivity|].
  split. { unfold some_steps. repeat (constructor; [cbn [step_ok]; first [exact W|exact W1|split; [reflexivity|lia]|constructor]|]). constructor. }
  split. { unfold some_takes. repeat (constructor; [exact W|]). constructor. }
  split; [reflexivity|]. split; [vm_compute; auto|]. split; [vm_compute; reflexivity|]. vm_compute. lia.
Qed.

(** *** What is not so *)

(** If calloc fails for a process, the tool writes through NULL. *)
Theorem C90_no_memory_refuted : exists pid a last, insert_target_process false pid a last no_blocks = None.
Proof. exists 10, all_well, NULL. reflexivity. Qed.
Print Assumptions C90_no_memory_refuted.

(** Not everything is released. *)
Theorem C90_leak_refuted : exists pid a ws h,
  pid <> 0 /\ Forall work_ok ws /\ single_command pid a ws no_blocks = Some (tt, h) /\ blocks h <> 0%nat.
Proof.
  exists 10, no_headers, []. eexists. split; [lia|]. split; [constructor|]. split; [vm_compute; reflexivity|]. vm_compute. discriminate.
Qed.
Print Assumptions C90_leak_refuted.

(** If the first process that is found is not accessible, NULL is enqueued, and the command
    ends; processes found after that are never released. *)
Theorem C90_early_end_refuted : exists fs ts w h,
  Forall step_ok fs /\ Forall step_ok ts /\ existsb is_through fs = false /\ forallb is_take ts = true /\
  do_steps (fs ++ SThrough :: ts) start no_blocks = Some (w, h) /\ tw_stop w = true /\
  sum (map lost_by fs) = 0%nat /\ blocks h <> 0%nat.
Proof.
  exists [SFound true 10 not_ready; STake []; SFound true 20 all_well], [STake []]. do 2 eexists.
  split. { repeat (constructor; [cbn [step_ok]; first [split; [reflexivity|lia]|constructor]|]). constructor. }
  split. { constructor; [constructor|constructor]. }
  split; [reflexivity|]. split; [reflexivity|]. split; [vm_compute; reflexivity|].
  split; [reflexivity|]. split; [reflexivity|]. vm_compute. discriminate.
Qed.
Print Assumptions C90_early_end_refuted.

(** The context of the main thread is used: should the process not be among its own threads,
    there would be none. *)
Theorem C90_main_thread_refuted : exists pid a ws, pid <> 0 /\ single_command pid a ws no_blocks = None.
Proof.
  exists 10, all_well, [WToggle [mk_attempt true (fun _ => [([mk_task 11 true true true], false)]) 1]].
  split; [lia|]. vm_compute. reflexivity.
Qed.
Print Assumptions C90_main_thread_refuted.
