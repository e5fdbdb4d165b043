(** Property theorems about the message buffer (C35, C36). *)
From Verif Require Import Base BaseFacts MsgQModel MsgQSpec MsgQProofs.

(** C35. Log any messages (none of exactly the buffer size); what the tool
    prints is a suffix of the accepted messages, whole and in order, and not
    empty if any message was accepted - so it ends with the newest. *)
Theorem C35_newest_messages_intact :
  forall (f : nat) (l : list (list Z)),
    (Z.to_nat MSGQ_BUFFER_MAX + 3 <= f)%nat ->
    Forall (fun m => cstr_ok m /\ zlen m + 1 <> MSGQ_BUFFER_MAX) l ->
    let logged := filter (fun m => negb (Nat.eqb (length m) 0) && (zlen m + 1 <=? MSGQ_BUFFER_MAX)) l in
    exists q shown,
      push_all f MSGQ_BUFFER_MAX msgq_init l = M_ok q /\
      shows (msgq_print MSGQ_BUFFER_MAX q) shown /\
      suffix shown logged /\
      (logged <> [] -> shown <> []).
Proof.
  intros f l Hf Hok logged.
  destruct (push_all_inv MSGQ_BUFFER_MAX f l ltac:(reflexivity) ltac:(reflexivity) Hf msgq_init []
              Hok (Inv_init MSGQ_BUFFER_MAX ltac:(reflexivity))) as (q & pre & ms & Hp & Hpre & Hne & HI).
  exists q, ms. split; [exact Hp|]. split; [apply Inv_shows; [reflexivity|exact HI]|].
  split; [exists pre; exact Hpre|]. intros H. apply Hne. right. exact H.
Qed.
Print Assumptions C35_newest_messages_intact.

Example C35_case :
  let l := [[104; 105]; []; [65]] in
  Forall (fun m => cstr_ok m /\ zlen m + 1 <> MSGQ_BUFFER_MAX) l /\
  filter (fun m => negb (Nat.eqb (length m) 0) && (zlen m + 1 <=? MSGQ_BUFFER_MAX)) l = [[104; 105]; [65]].
Proof.
  split; [|reflexivity].
  repeat constructor; try (unfold is_cchar; lia); vm_compute; discriminate.
Qed.

(** C35, nothing is lost while there is room: as long as all messages logged fit
    into the buffer with their terminators, all of them are shown. *)
Theorem C35_nothing_lost_while_room :
  forall (f : nat) (l : list (list Z)),
    (0 < f)%nat -> Forall cstr_ok l ->
    room (filter (fun m => negb (Nat.eqb (length m) 0)) l) < MSGQ_BUFFER_MAX ->
    exists q,
      push_all f MSGQ_BUFFER_MAX msgq_init l = M_ok q /\
      shows (msgq_print MSGQ_BUFFER_MAX q) (filter (fun m => negb (Nat.eqb (length m) 0)) l).
Proof.
  intros f l Hf Hok Hr.
  destruct (push_all_fits MSGQ_BUFFER_MAX f l ltac:(reflexivity) Hf Hok msgq_init []
              eq_refl eq_refl eq_refl eq_refl Hr) as (q & Hp & Hq).
  exists q. split; [exact Hp|]. rewrite Hq. apply shows_enc.
Qed.
Print Assumptions C35_nothing_lost_while_room.

Example C35_nothing_lost_case :
  let l := [[104; 105]; []; [65]] in
  Forall cstr_ok l /\ room (filter (fun m => negb (Nat.eqb (length m) 0)) l) = 5 /\ 5 < MSGQ_BUFFER_MAX.
Proof.
  split; [repeat constructor; unfold is_cchar; lia|]. split; reflexivity.
Qed.

(** The same behaviour observed on a tiny buffer: the oldest
    messages are evicted. *)
Example C35_small_run :
  match push_all 20 8 msgq_init [[1; 1; 1]; [2; 2]; [3; 3; 3]] with
  | M_ok q => msgq_print 8 q = [3; 3; 3; 0]
  | _ => False
  end /\
  match push_all 20 12 msgq_init [[1; 1; 1]; [2; 2]; [3; 3; 3]; [4]] with
  | M_ok q => msgq_print 12 q = [2; 2; 0; 3; 3; 3; 0; 0; 4; 0]
  | _ => False
  end.
Proof. vm_compute. auto. Qed.

(** C36, the part that holds: pushing any messages except ones that exactly fill
    the buffer terminates, touches only the buffer, and messages that are
    empty or too large are dropped without any change. Missing: size equal to
    the buffer size, see [C36_full_message_refuted]. *)
Theorem C36_logging_terminates_in_bounds_partial :
  forall (f : nat) (l : list (list Z)) (m : list Z),
    (Z.to_nat MSGQ_BUFFER_MAX + 3 <= f)%nat ->
    Forall (fun m => cstr_ok m /\ zlen m + 1 <> MSGQ_BUFFER_MAX) l ->
    cstr_ok m -> zlen m + 1 <> MSGQ_BUFFER_MAX ->
    exists q q',
      push_all f MSGQ_BUFFER_MAX msgq_init l = M_ok q /\
      msgq_strpush f MSGQ_BUFFER_MAX q m = M_ok q' /\
      (forall x, x < 0 \/ MSGQ_BUFFER_MAX <= x -> mq_buf q' x = mq_buf q x) /\
      (m = [] \/ zlen m + 1 > MSGQ_BUFFER_MAX -> q' = q).
Proof.
  intros f l m Hf Hok Hc Hs.
  destruct (push_all_inv MSGQ_BUFFER_MAX f l ltac:(reflexivity) ltac:(reflexivity) Hf msgq_init []
              Hok (Inv_init MSGQ_BUFFER_MAX ltac:(reflexivity))) as (q & pre & ms & Hp & Hpre & Hne & HI).
  destruct (push_all_inv MSGQ_BUFFER_MAX f [m] ltac:(reflexivity) ltac:(reflexivity) Hf q ms)
    as (q' & _ & _ & Hp' & _); auto.
  cbn [push_all] in Hp'. destruct (msgq_strpush f MSGQ_BUFFER_MAX q m) as [q1| |] eqn:E; try discriminate.
  injection Hp' as ->. exists q, q'. split; [exact Hp|]. split; [exact E|]. split.
  - intros x Hx. eapply push_in_bounds; [|exact E|exact Hx].
    destruct HI as [ms' HU _ _ _|ms1 e ms2 HW _ _ Htb _].
    + destruct HU as [Ub Ut Utmx _ _]. pose proof (zlen_nonneg (enc ms')). lia.
    + destruct HW as [Wb We Wemx Wt _ _ _ _ _ _].
      pose proof (zlen_nonneg (enc ms2)). pose proof (zlen_nonneg (enc ms1)). lia.
  - intros Hdrop. unfold msgq_strpush in E. destruct m as [|c m0]; [congruence|].
    destruct Hdrop as [Hd|Hd]; [discriminate|].
    destruct (Z.gtb_spec (zlen (c :: m0) + 1) MSGQ_BUFFER_MAX); [congruence|lia].
Qed.
Print Assumptions C36_logging_terminates_in_bounds_partial.

Example C36_case :
  cstr_ok [7] /\ zlen [7] + 1 <> MSGQ_BUFFER_MAX /\ zlen [7] + 1 <= MSGQ_BUFFER_MAX.
Proof.
  split; [repeat constructor; unfold is_cchar; lia|].
  split; vm_compute; discriminate.
Qed.

(** C36 is false of the code for a message whose text is exactly one byte
    shorter than the buffer: the first such push never terminates, whatever
    number of iterations it is given. *)
Theorem C36_full_message_refuted :
  forall (m : list Z), zlen m + 1 = MSGQ_BUFFER_MAX ->
  forall (f : nat), msgq_strpush f MSGQ_BUFFER_MAX msgq_init m = M_fuel.
Proof.
  intros m Hm f. apply full_message_hangs; try reflexivity. exact Hm.
Qed.
Print Assumptions C36_full_message_refuted.

Example C36_full_message_exists :
  exists m, cstr_ok m /\ zlen m + 1 = MSGQ_BUFFER_MAX.
Proof.
  exists (repeat 65 (Z.to_nat (MSGQ_BUFFER_MAX - 1))). split.
  - apply Forall_forall. intros x Hx. apply repeat_spec in Hx. subst. unfold is_cchar. lia.
  - unfold zlen. rewrite repeat_length. unfold MSGQ_BUFFER_MAX. lia.
Qed.
