(** C77: the command "ulp messages", from the memory of the process to the terminal. *)
From Coq Require Import String.
From Verif Require Import Base BaseFacts StrModel TextModel MsgQModel MsgQSpec MsgQProofs LibSpec SymProofs NtSpec IntrModel IntrSpec
  Intr3Proofs IntrEx IntrProps CliModel MsgsModel MsgsSpec MsgsProofs.

(** For every process with libpulp, whatever was logged in it: the tool ends with
    status 0 and prints a suffix of the logged messages, whole and in order, not
    empty if anything was logged; so it ends with the newest one. Missing: what
    C62 leaves out, and threads that log while the tool reads. *)
Theorem C77_messages_shown_partial : forall os digits pid f l q,
  names_pid digits pid -> (Z.to_nat MSGQ_BUFFER_MAX + 3 <= f)%nat -> Forall harmless l ->
  push_all f MSGQ_BUFFER_MAX msgq_init l = M_ok q ->
  runs_libpulp (os_t (os pid)) (os_pf (os pid)) q ->
  os_attach1 (os pid) = true -> os_attach2 (os pid) = true -> os_detach (os pid) = true ->
  exists out shown, run_messages os digits = Some (0, out) /\ shows out shown /\
    suffix shown (logged l) /\ (logged l <> [] -> shown <> []).
Proof.
  intros os digits pid f l q N F H P R A1 A2 D. pose proof mx_val as MX.
  destruct (push_all_inv MSGQ_BUFFER_MAX f l ltac:(lia) ltac:(lia) F msgq_init [] H (Inv_init MSGQ_BUFFER_MAX ltac:(lia)))
    as (q' & pre & ms & Hp & Hpre & Hne & HI).
  assert (q' = q) as -> by congruence. destruct (Inv_bounds MSGQ_BUFFER_MAX q ms ltac:(lia) HI) as [B DI].
  exists (msgq_print MSGQ_BUFFER_MAX q), ms. split; [|split; [apply Inv_shows; [lia|exact HI]|split]].
  - rewrite (run_messages_queue os digits pid q N R A1 A2 D).
    destruct (queue_in_bytes q) as (E1 & E2 & E3); [unfold int; lia|unfold int; lia|]. rewrite E1, E2.
    rewrite (print_checked_ok _ (mq_buf q)) by assumption. reflexivity.
  - exists pre. exact Hpre.
  - intros X. apply Hne. right. exact X.
Qed.
Print Assumptions C77_messages_shown_partial.

(** The process of the examples, in which "hi" was logged. *)
Definition hi_queue : msgq := mk_msgq (mem_write (fun _ => 0) 0 (zs "hi" ++ [0])) 3 0 3.
Lemma hi_push f : (0 < f)%nat -> push_all f MSGQ_BUFFER_MAX msgq_init [zs "hi"] = M_ok hi_queue.
Proof.
  intros F. pose proof mx_val as MX. cbn [push_all]. unfold msgq_strpush, msgq_init. cbn [mq_top mq_bottom mq_dist mq_buf].
  change (zs "hi") with [104; 105]. change (zlen [104; 105]) with 2. rewrite MX. destruct f as [|f]; [lia|]. reflexivity.
Qed.
Lemma seg_skip l1 l2 a : forallb (fun s => fst s + zlen (snd s) <=? a) l1 = true -> seg_get (l1 ++ l2) a = seg_get l2 a.
Proof.
  induction l1 as [|[b d] l1 IH]; intros H; [reflexivity|]. cbn [forallb fst snd] in H. apply andb_prop in H. destruct H as [H1 H2].
  cbn [app seg_get]. destruct (Z.leb_spec b a), (Z.ltb_spec a (b + zlen d)); cbn [andb]; try (apply IH; exact H2). lia.
Qed.
Lemma hi_buffer i : 0 <= i < MSGQ_BUFFER_MAX -> t_mem ex_target (1376256 + i) = mq_buf hi_queue i.
Proof.
  intros I. rewrite mx_val in I. cbn [t_mem ex_target]. unfold ex_segs.
  match goal with |- seg_get ?l _ = _ => change l with (firstn (List.length l - 2) l ++ [(1376256, zs "hi"); (3473408, le_enc 4 3 ++ le_enc 4 0 ++ le_enc 4 3)]) end.
  rewrite seg_skip.
  - cbn [seg_get]. change (zlen (zs "hi")) with 2. cbn [hi_queue mq_buf]. unfold mem_write.
    change (zlen (zs "hi" ++ [0])) with 3. change (zlen (le_enc 4 3 ++ le_enc 4 0 ++ le_enc 4 3)) with 12.
    destruct (Z.ltb_spec i 2).
    + destruct (Z.leb_spec 1376256 (1376256 + i)); [|lia]. destruct (Z.ltb_spec (1376256 + i) (1376256 + 2)); [|lia].
      destruct (Z.leb_spec 0 i); [|lia]. destruct (Z.ltb_spec i (0 + 3)); [|lia]. cbn [andb].
      assert (i = 0 \/ i = 1) as [-> | ->] by lia; reflexivity.
    + destruct (Z.ltb_spec (1376256 + i) (1376256 + 2)); [lia|]. destruct (Z.leb_spec 3473408 (1376256 + i)); [lia|].
      rewrite andb_false_r. cbn [andb]. destruct (Z.leb_spec 0 i); [|lia]. destruct (Z.ltb_spec i (0 + 3)); cbn [andb]; [|reflexivity].
      assert (i = 2) as -> by lia. reflexivity.
  - assert (G : forall a b l, a <= b -> forallb (fun s : Z * list Z => fst s + zlen (snd s) <=? a) l = true ->
                forallb (fun s : Z * list Z => fst s + zlen (snd s) <=? b) l = true).
    { intros a b l AB F. apply forallb_forall. intros x X. rewrite forallb_forall in F. specialize (F x X). lia. }
    apply (G 1376256); [lia|]. vm_compute. reflexivity.
Qed.
Lemma hi_runs : runs_libpulp ex_target ex_procfs hi_queue.
Proof.
  destruct C62_all_objects_partial_case as (H1 & H2 & H3 & H4 & H5 & H6 & H7 & _).
  exists d_main, [], d_pulp, [d_foo], ex_syms, (zs "0.3.13"), 16640, 1048576.
  split; [exact ex_target_ok|]. split; [cbn; lia|]. split; [exact H1|]. split; [reflexivity|].
  assert (NI : forall x, existsb (Z.eqb x) (od_name d_main) = false -> ~ In x (od_name d_main)).
  { intros x X I. rewrite <- Bool.not_true_iff_false in X. apply X. apply existsb_exists. exists x. split; [exact I|apply Z.eqb_refl]. }
  split; [apply NI; reflexivity|]. split; [apply NI; reflexivity|]. split; [discriminate|]. split; [exact H2|].
  split; [exact H3|]. split.
  { constructor; [|constructor]. apply strstr_false. vm_compute. reflexivity. }
  split; [exists (zs "/usr/lib64/"), (zs ".0"); reflexivity|].
  split; [exact H4|]. split; [reflexivity|]. split; [exact H5|]. split; [exact H6|]. split; [cbn; tauto|]. split; [exact H7|].
  split; [cbn; tauto|]. split; [discriminate|].
  change (u64 (od_addr d_pulp + 1048576)) with 1376256. unfold queue_at, queue_bytes.
  pose proof mx_val as MX. remember (Z.to_nat MSGQ_BUFFER_MAX) as n eqn:EN.
  assert (LN : List.length (mem_read (mq_buf hi_queue) 0 n) = n) by apply mem_read_length.
  apply ex_holds; [|lia|].
  - rewrite app_length, LN, mem_read_app. apply (f_equal2 (@app Z)).
    + apply nth_ext with (d := 0) (d' := 0); [rewrite !mem_read_length; reflexivity|]. intros i I. rewrite mem_read_length in I.
      rewrite !nth_mem_read by exact I. apply hi_buffer. lia.
    + replace (1376256 + Z.of_nat n) with 3473408 by lia. vm_compute. reflexivity.
  - rewrite zlen_app. unfold zlen at 1. rewrite LN.
    change (zlen _) with 12. lia.
Qed.

Definition hi_os (pid : Z) : osproc :=
  if pid =? 1234 then mk_os ex_target ex_procfs true true true
  else mk_os (mk_target (fun _ => false) (fun _ => 0) 0 []) ex_procfs false false false.
Example C77_messages_shown_case :
  names_pid (zs "1234") 1234 /\ Forall harmless [zs "hi"] /\
  push_all (Z.to_nat MSGQ_BUFFER_MAX + 3) MSGQ_BUFFER_MAX msgq_init [zs "hi"] = M_ok hi_queue /\
  runs_libpulp (os_t (hi_os 1234)) (os_pf (hi_os 1234)) hi_queue /\
  run_messages hi_os (zs "1234") = Some (0, zs "hi" ++ [0]).
Proof.
  assert (N : names_pid (zs "1234") 1234).
  { split; [discriminate|]. split; [|split; [reflexivity|lia]]. change (zs "1234") with [49; 50; 51; 52]. apply Forall_forall. intros c C. cbn [In] in C. lia. }
  assert (H : Forall harmless [zs "hi"]).
  { constructor; [|constructor]. split; [apply ex_cstr_zs; reflexivity|]. rewrite mx_val. discriminate. }
  split; [exact N|]. split; [exact H|]. split; [apply hi_push; lia|]. split; [exact hi_runs|].
  rewrite (run_messages_queue hi_os (zs "1234") 1234 hi_queue N hi_runs eq_refl eq_refl eq_refl).
  destruct (queue_in_bytes hi_queue) as (E1 & E2 & E3); [unfold int; cbn; lia|unfold int; cbn; lia|]. rewrite E1, E2.
  pose proof mx_val as MX.
  rewrite (print_checked_ok _ (mq_buf hi_queue)) by (assumption || (cbn [hi_queue mq_bottom]; lia)). rewrite MX. reflexivity.
Qed.

(** However the process and its memory look: the exit status is 0 or 1. With status
    1 nothing is printed. Status 0 means that the argument is a decimal number, that
    the tool attached and detached each time, and that what is printed are the
    bytes between the two ends of the queue as it lies in the process. *)
Theorem C77_status : forall os arg r out, run_messages os arg = Some (r, out) ->
  (r = 1 /\ out = []) \/
  (r = 0 /\ arg <> [] /\ Forall (fun c => 48 <= c <= 57) arg /\
   exists pid, pid = atoi_any arg /\
     os_attach1 (os pid) = true /\ os_attach2 (os pid) = true /\ os_detach (os pid) = true /\
     exists p a b, initialize_data_structures (os_t (os pid)) (os_pf (os pid)) true = I_ok p /\
       (exists o, In o (p_targets p) /\ ext o 4 = a) /\ a <> 0 /\
       trd (os_t (os pid)) a QUEUE_SIZE = Some b /\ out = msgq_print MSGQ_BUFFER_MAX (queue_in b)).
Proof.
  intros os arg r out. unfold run_messages.
  destruct (isnumber (Some arg)) eqn:N; cbn [negb]; [|intros H; injection H as <- <-; left; auto].
  set (o := os (atoi_any arg)).
  destruct (initialize_data_structures _ _ _) as [p| | |] eqn:I; try discriminate; [|intros H; injection H as <- <-; left; auto].
  assert (A1 : os_attach1 o = true).
  { destruct (os_attach1 o) eqn:A; [reflexivity|]. unfold initialize_data_structures in I. cbn [negb] in I. discriminate I. }
  unfold print_message_buffer. set (a := get_msgq_address p).
  destruct (Z.eqb_spec a 0) as [|NZ]; [intros H; injection H as <- <-; left; auto|].
  destruct (os_attach2 o) eqn:A2; cbn [negb]; [|intros H; injection H as <- <-; left; auto].
  destruct (os_detach o) eqn:D; cbn [negb]; [|intros H; injection H as <- <-; left; auto].
  destruct (trd (os_t o) a QUEUE_SIZE) as [b|] eqn:T; [|intros H; injection H as <- <-; left; auto].
  destruct (print_checked _ _ _) as [out'|] eqn:P; [|discriminate]. change (0 <? 0) with false. intros H. injection H as <- <-. right.
  split; [reflexivity|]. split; [destruct arg; [discriminate N|discriminate]|]. split.
  { destruct arg as [|c0 arg0]; [constructor|]. cbn [isnumber] in N. apply Forall_forall. intros c C.
    rewrite forallb_forall in N. specialize (N c C). unfold isdigit in N. lia. }
  exists (atoi_any arg). split; [reflexivity|]. fold o. split; [exact A1|]. split; [exact A2|]. split; [exact D|].
  rewrite A1 in I. exists p, a, b. split; [exact I|]. split; [|split; [exact NZ|]; split; [exact T|]].
  - unfold a, get_msgq_address. assert (X : forall l, first_queue l <> 0 -> exists o', In o' l /\ ext o' 4 = first_queue l).
    { induction l as [|x l IH]; cbn [first_queue]; [contradiction|]. destruct (Z.eqb_spec (ext x 4) 0); cbn [negb].
      - intros H. destruct (IH H) as (y & Y & E). exists y. split; [right; exact Y|exact E].
      - intros _. exists x. split; [left; reflexivity|reflexivity]. }
    destruct (X (skipn (p_libpulp p) (p_targets p)) NZ) as (y & Y & E). exists y. split; [|exact E].
    rewrite <- (firstn_skipn (p_libpulp p)). apply in_or_app. right. exact Y.
  - unfold msgq_print. revert P. generalize (mq_bottom (queue_in b)). generalize (Z.to_nat (mq_dist (queue_in b))).
    pose proof mx_val as MX. clear - MX.
    intros n. revert out'. induction n as [|n IH]; intros out' z P; cbn [print_checked msgq_print_loop] in *; [congruence|].
    destruct (Z.leb_spec 0 z); [|discriminate P]. destruct (Z.ltb_spec z MSGQ_BUFFER_MAX); [|discriminate P]. cbn [andb] in P.
    rewrite Z.rem_mod_nonneg in P by lia. destruct (print_checked n _ _) as [o'|] eqn:E; [|discriminate P].
    apply IH in E. rewrite <- E. congruence.
Qed.
Print Assumptions C77_status.
Example C77_status_case :
  run_messages hi_os (zs "1234") = Some (0, zs "hi" ++ [0]) /\ run_messages hi_os (zs "12x4") = Some (1, []) /\
  run_messages hi_os (zs "99") = Some (1, []).
Proof. split; [apply C77_messages_shown_case|]. split; reflexivity. Qed.

(** The tool may stop the process while it logs. With room for the message twice,
    and whenever it is stopped, that is between any two of the stores of libpulp:
    what the tool prints are the messages of before, or these and then the new one.
    Missing: a fuller buffer, see below, and stores that are not done in the order of
    the program. *)
Theorem C77_reading_while_logging_partial : forall f l m,
  (Z.to_nat MSGQ_BUFFER_MAX + 3 <= f)%nat -> Forall harmless l -> cstr_ok m -> m <> [] ->
  exists q shown,
    push_all f MSGQ_BUFFER_MAX msgq_init l = M_ok q /\ shows (msgq_print MSGQ_BUFFER_MAX q) shown /\
    (zlen (msgq_print MSGQ_BUFFER_MAX q) + 2 * (zlen m + 1) < MSGQ_BUFFER_MAX ->
     exists ss, strpush_stores f MSGQ_BUFFER_MAX q m = Some ss /\
       (forall k, let q' := fold_left do_store (firstn k ss) q in
          shows (msgq_print MSGQ_BUFFER_MAX q') shown \/ shows (msgq_print MSGQ_BUFFER_MAX q') (shown ++ [m])) /\
       shows (msgq_print MSGQ_BUFFER_MAX (fold_left do_store ss q)) (shown ++ [m])).
Proof.
  intros f l m F H C NE. pose proof mx_val as MX.
  destruct (push_all_inv MSGQ_BUFFER_MAX f l ltac:(lia) ltac:(lia) F msgq_init [] H (Inv_init MSGQ_BUFFER_MAX ltac:(lia)))
    as (q & pre & ms & Hp & Hpre & Hne & HI).
  pose proof (Inv_shows MSGQ_BUFFER_MAX ltac:(lia) q ms HI) as SH.
  exists q, ms. split; [exact Hp|]. split; [exact SH|]. intros R.
  pose proof (zlen_nonneg (msgq_print MSGQ_BUFFER_MAX q)) as LP. pose proof (zlen_nonneg m) as LM.
  destruct (push_inv MSGQ_BUFFER_MAX ltac:(lia) ltac:(lia) f q ms m F HI) as (q2 & _ & _ & P2 & _);
    [split; [exact C|]; split; [exact NE|lia]|].
  destruct (push_stores_some _ _ _ _ _ P2) as (ss & SS). exists ss. split; [exact SS|].
  assert (FIN : shows (msgq_print MSGQ_BUFFER_MAX (fold_left do_store ss q)) (ms ++ [m])).
  { destruct (stores_push _ _ _ _ _ SS) as (q3 & P3 & _ & B & D & E). assert (q3 = q2) as -> by congruence.
    rewrite (print_same _ _ q2 B D E). apply (room_final f MSGQ_BUFFER_MAX q ms m q2); try assumption; lia. }
  split; [|exact FIN]. intros k. cbv zeta.
  destruct (room_reading f MSGQ_BUFFER_MAX q ms m ss k ltac:(lia) ltac:(lia) ltac:(lia) HI NE R SS) as [E|K].
  - left. rewrite E. exact SH.
  - right. rewrite firstn_all2 by exact K. exact FIN.
Qed.
Print Assumptions C77_reading_while_logging_partial.
Example C77_reading_while_logging_case :
  Forall harmless [zs "hi"] /\ cstr_ok (zs "there") /\
  zlen (msgq_print MSGQ_BUFFER_MAX hi_queue) + 2 * (zlen (zs "there") + 1) < MSGQ_BUFFER_MAX.
Proof.
  split; [apply C77_messages_shown_case|]. split; [apply ex_cstr_zs; reflexivity|]. rewrite mx_val. reflexivity.
Qed.

(** Finding: if the buffer is nearly full, libpulp overwrites old messages before it
    removes them from the queue. Stopped in between, the tool prints a text that is
    none of the messages that were ever logged. *)
Theorem C77_reading_while_evicting_refuted : forall f, (Z.to_nat MSGQ_BUFFER_MAX + 3 <= f)%nat ->
  exists l m q ss k, Forall harmless l /\ harmless m /\ m <> [] /\
    push_all f MSGQ_BUFFER_MAX msgq_init l = M_ok q /\ strpush_stores f MSGQ_BUFFER_MAX q m = Some ss /\
    forall shown, shows (msgq_print MSGQ_BUFFER_MAX (fold_left do_store (firstn k ss) q)) shown ->
      ~ (forall x, In x shown -> In x (l ++ [m])).
Proof.
  intros f F. pose proof mx_val as MX. set (mx := MSGQ_BUFFER_MAX) in *.
  set (A := repeat 65 (Z.to_nat (mx - 11))). set (m := repeat 66 19).
  assert (LA : zlen A = mx - 11) by (unfold A, zlen; rewrite repeat_length; lia).
  assert (HA : harmless A).
  { split; [|fold mx; lia]. apply Forall_forall. intros x X. apply repeat_spec in X. subst. unfold is_cchar. lia. }
  assert (Hm : harmless m).
  { split; [|fold mx; change (zlen m) with 19; lia]. apply Forall_forall. intros x X. apply repeat_spec in X. subst. unfold is_cchar. lia. }
  set (q := mk_msgq (mem_write (fun _ => 0) 0 (A ++ [0])) (mx - 10) 0 (mx - 10)).
  assert (Q : push_all f mx msgq_init [A] = M_ok q).
  { cbn [push_all]. unfold msgq_strpush, msgq_init. cbn [mq_top mq_bottom mq_dist mq_buf].
    destruct A as [|a A0] eqn:EA; [cbn in LA; lia|]. rewrite LA.
    destruct (Z.gtb_spec (mx - 11 + 1) mx); [lia|]. destruct (Z.geb_spec (0 + (mx - 11 + 1)) mx); [lia|].
    destruct f as [|f']; [lia|]. cbn [evict]. rewrite u64_small by lia.
    destruct (Z.geb_spec (0 + (mx - 11 + 1)) mx); [lia|]. destruct (Z.leb_spec (0 + (mx - 11 + 1)) mx); [|lia].
    change (0 <=? 0) with true. cbn [negb andb]. unfold q. rewrite Z.mod_small by lia.
    f_equal. }
  destruct (push_all_inv mx f [A] ltac:(lia) ltac:(lia) F msgq_init [] ltac:(constructor; [exact HA|constructor]) (Inv_init mx ltac:(lia)))
    as (q' & pre & ms & Hp & _ & _ & HI). assert (q' = q) as -> by congruence.
  destruct (push_inv mx ltac:(lia) ltac:(lia) f q ms m F HI) as (q2 & _ & _ & P2 & _).
  { split; [apply Hm|]. split; [discriminate|]. change (zlen m) with 19. lia. }
  destruct (push_stores_some _ _ _ _ _ P2) as (ss & SS).
  exists [A], m, q, ss, 11%nat. split; [constructor; [exact HA|constructor]|]. split; [exact Hm|]. split; [discriminate|].
  split; [exact Q|]. split; [exact SS|].
  unfold strpush_stores in SS. change (zlen m + 1) with 20 in SS. cbn [q mq_top mq_bottom mq_dist mq_buf] in SS. unfold m in SS at 1.
  cbn [repeat] in SS.
  destruct (Z.gtb_spec 20 mx); [lia|]. destruct (Z.geb_spec (mx - 10 + 20) mx); [|lia].
  replace (Z.to_nat (mx - (mx - 10))) with 10%nat in SS by lia.
  destruct (evict _ _ _ _ _ _ _) as [b d| |]; try discriminate SS. destruct (negb _); [discriminate SS|]. apply Some_inj in SS.
  assert (FN : firstn 11 ss = byte_stores (mx - 10) (repeat 0 10) ++ byte_stores 0 [66]).
  { subst ss. rewrite firstn_app, byte_stores_length. reflexivity. }
  rewrite FN, do_stores_app.
  destruct (byte_stores_frame (repeat 0 10) (mx - 10) q) as (_ & B1 & D1 & E1).
  set (q1 := fold_left do_store (byte_stores (mx - 10) (repeat 0 10)) q) in *.
  destruct (byte_stores_frame [66] 0 q1) as (_ & B3 & D3 & E3). set (q3 := fold_left do_store (byte_stores 0 [66]) q1) in *.
  assert (OUT : exists rest, msgq_print mx q3 = 66 :: 65 :: rest).
  { unfold msgq_print. rewrite B3, D3, B1, D1. cbn [q mq_dist mq_bottom].
    replace (Z.to_nat (mx - 10)) with (S (S (Z.to_nat (mx - 12)))) by lia. cbn [msgq_print_loop].
    rewrite (Z.mod_small (0 + 1) mx) by lia. change (0 + 1) with 1.
    assert (X0 : mq_buf q3 0 = 66) by (rewrite E3; reflexivity).
    assert (X1 : mq_buf q3 1 = 65).
    { rewrite E3, mem_write_out by (change (zlen [66]) with 1; lia).
      rewrite E1, mem_write_out by (change (zlen (repeat 0 10)) with 10; lia).
      cbn [q mq_buf]. unfold mem_write. rewrite zlen_app. change (zlen [0]) with 1.
      change (0 <=? 1) with true. destruct (Z.ltb_spec 1 (0 + (zlen A + 1))); [|lia]. cbn [andb].
      change (Z.to_nat (1 - 0)) with 1%nat. rewrite app_nth1 by (unfold zlen in LA; lia).
      unfold A. replace (Z.to_nat (mx - 11)) with (S (S (Z.to_nat (mx - 13)))) by lia. reflexivity. }
    rewrite X0, X1. eexists. reflexivity. }
  destruct OUT as (rest & OUT). fold mx. rewrite OUT. intros shown SH HX.
  inversion SH as [|x k out msgs SH' EQ EQ2]; subst shown.
  specialize (HX x (or_introl eq_refl)). cbn [app In] in HX. destruct HX as [<-|[<-|[]]].
  - revert EQ. unfold A. replace (Z.to_nat (mx - 11)) with (S (Z.to_nat (mx - 12))) by lia. cbn [repeat app]. discriminate.
  - revert EQ. unfold m. cbn [repeat app]. discriminate.
Qed.
Print Assumptions C77_reading_while_evicting_refuted.

(** Finding: the tool trusts the numbers it reads. If the process has overwritten
    the start of its queue by a number outside the buffer, the tool reads outside its own. *)
Theorem C77_corrupt_queue_refuted : forall o p a q,
  get_msgq_address p = a -> a <> 0 -> queue_at (os_t o) a q -> os_attach2 o = true -> os_detach o = true ->
  - 2 ^ 31 <= mq_bottom q < 2 ^ 31 -> mq_bottom q < 0 \/ MSGQ_BUFFER_MAX <= mq_bottom q ->
  0 < mq_dist q < 2 ^ 31 -> print_message_buffer o p = None.
Proof.
  intros o p a q A NZ QA A2 D I O P. unfold print_message_buffer. rewrite A. destruct (Z.eqb_spec a 0); [contradiction|].
  rewrite A2, D. cbn [negb]. rewrite (trd_holds (os_t o) a (queue_bytes q) QUEUE_SIZE QA)
    by (unfold queue_bytes, QUEUE_SIZE; rewrite !app_length, mem_read_length, !le_enc_length; clear; lia).
  destruct (queue_in_bytes q) as (E1 & E2 & _); [exact I|unfold int; clear - P; lia|]. rewrite E1, E2.
  replace (Z.to_nat (mq_dist q)) with (S (Z.to_nat (mq_dist q - 1))) by (clear - P; lia). cbn [print_checked].
  destruct (Z.leb_spec 0 (mq_bottom q)) as [L|L]; [|reflexivity].
  destruct (Z.ltb_spec (mq_bottom q) MSGQ_BUFFER_MAX) as [G|G]; [|reflexivity]. exfalso. clear - O L G. lia.
Qed.
Print Assumptions C77_corrupt_queue_refuted.
Definition bad_target : target :=
  mk_target (t_ok ex_target) (mem_write (t_mem ex_target) 3473412 (le_enc 4 (2 ^ 30))) (t_fuel ex_target) (t_junk ex_target).
Definition bad_queue : msgq := mk_msgq (mq_buf hi_queue) 3 (2 ^ 30) 3.
Example C77_corrupt_queue_case :
  get_msgq_address ex_process = 1376256 /\ queue_at bad_target 1376256 bad_queue /\
  MSGQ_BUFFER_MAX <= mq_bottom bad_queue < 2 ^ 31 /\ 0 < mq_dist bad_queue < 2 ^ 31.
Proof.
  pose proof mx_val as MX. split; [vm_compute; reflexivity|]. split; [|cbn [bad_queue mq_bottom mq_dist]; lia].
  unfold queue_at, queue_bytes. remember (Z.to_nat MSGQ_BUFFER_MAX) as n eqn:EN.
  assert (LN : List.length (mem_read (mq_buf bad_queue) 0 n) = n) by apply mem_read_length.
  split.
  - rewrite app_length, LN, mem_read_app. apply (f_equal2 (@app Z)).
    + apply nth_ext with (d := 0) (d' := 0); [rewrite !mem_read_length; reflexivity|]. intros i I. rewrite mem_read_length in I.
      rewrite !nth_mem_read by exact I. cbn [t_mem bad_target]. rewrite mem_write_out by lia. apply hi_buffer. lia.
    + replace (1376256 + Z.of_nat n) with 3473408 by lia. vm_compute. reflexivity.
  - intros x X. rewrite zlen_app in X. unfold zlen at 1 in X. rewrite LN in X.
    change (zlen (le_enc 4 (mq_top bad_queue) ++ le_enc 4 (mq_bottom bad_queue) ++ le_enc 4 (mq_dist bad_queue))) with 12 in X.
    cbn [t_ok bad_target ex_target]. unfold low. clear - X MX EN. lia.
Qed.

(** Finding: a number that is too large for a PID is taken for another PID. *)
Theorem C77_pid_wrap_refuted : forall os,
  Forall (fun c => 48 <= c <= 57) (zs "4294968530") /\ dec_val (zs "4294968530") <> 1234 /\
  run_messages os (zs "4294968530") = run_messages os (zs "1234").
Proof.
  intros os. split; [|split].
  - change (zs "4294968530") with [52; 50; 57; 52; 57; 54; 56; 53; 51; 48]. apply Forall_forall. intros c C. cbn [In] in C. lia.
  - vm_compute. discriminate.
  - unfold run_messages. change (isnumber (Some (zs "4294968530"))) with true. change (isnumber (Some (zs "1234"))) with true.
    change (atoi_any (zs "4294968530")) with 1234. change (atoi_any (zs "1234")) with 1234. reflexivity.
Qed.
Print Assumptions C77_pid_wrap_refuted.
