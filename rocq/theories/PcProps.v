(** Property theorems about process discovery (C34, C55). *)
From Coq Require Import String.
From Verif Require Import Base BaseFacts TextModel TextSpec TextProofs StrModel PcModel PcSpec PcProofs.

(** ** C34: the queue *)

(** Whatever the interleaving, what the main thread has received is a prefix of
    what the discovery thread enqueues, in the same order: nothing is lost,
    repeated or reordered. *)
Theorem C34_fifo :
  forall n xs s, 1 <= n -> reachable n xs s -> exists later, xs = pc_got s ++ later.
Proof.
  intros n xs s Hn R. destruct (reachable_inv n xs s Hn R) as (dp & dc & I). destruct I as [i_n0 i_dp0 i_dc0 i_todo0 i_ptodo0 i_head0 i_tail0 i_full1 i_full2 i_empty1 i_empty2 i_slots0 i_hand0 i_got0 i_stop0 i_run0].
  exists (skipn (Z.to_nat dc) xs). rewrite i_got0. symmetry. apply firstn_skipn.
Qed.
Print Assumptions C34_fifo.

(** When the main thread stops it has received every process, each as often as
    it was enqueued and in order, and the discovery thread is through. *)
Theorem C34_every_process_once :
  forall n ps s, 1 <= n -> ~ In 0 ps -> reachable n (ps ++ [0]) s -> pc_stop s = true ->
    pc_got s = ps ++ [0] /\ pc_todo s = [].
Proof.
  intros n ps s Hn N R S. destruct (proper_done n ps s Hn N R S). auto.
Qed.
Print Assumptions C34_every_process_once.

(** No access outside the array, in any schedule, and the two threads never
    touch the same element at the same time. *)
Theorem C34_no_overflow_no_race :
  forall n xs, 1 <= n ->
    (forall junk sched, pc_run (pc_init n junk xs) sched <> None) /\
    (forall s, reachable n xs s -> pc_p s = PStore -> pc_c s = CRead ->
       pq_head (pc_q s) <> pq_tail (pc_q s)) /\
    (forall s, reachable n xs s -> 0 <= pq_empty (pc_q s) <= n /\ 0 <= pq_full (pc_q s) <= n).
Proof.
  intros n xs Hn. split; [|split].
  - intros junk sched. destruct (run_inv n xs sched Hn _ 0 0 (pinv_init n junk xs Hn)) as (s & _ & _ & -> & _).
    discriminate.
  - intros s R P C. destruct (reachable_inv n xs s Hn R) as (dp & dc & I). destruct I as [i_n0 i_dp0 i_dc0 i_todo0 i_ptodo0 i_head0 i_tail0 i_full1 i_full2 i_empty1 i_empty2 i_slots0 i_hand0 i_got0 i_stop0 i_run0].
    rewrite P in *. rewrite C in *. cbn in *. rewrite i_head0, i_tail0.
    intros E. symmetry in E. revert E. apply mod_neq; lia.
  - intros s R. destruct (reachable_inv n xs s Hn R) as (dp & dc & I).
    pose proof (got_le _ _ _ _ _ I). destruct I as [i_n0 i_dp0 i_dc0 i_todo0 i_ptodo0 i_head0 i_tail0 i_full1 i_full2 i_empty1 i_empty2 i_slots0 i_hand0 i_got0 i_stop0 i_run0].
    destruct (pc_p s), (pc_c s); cbn in *; lia.
Qed.
Print Assumptions C34_no_overflow_no_race.

(** No deadlock: when neither thread can make a step, both are through and
    everything has been delivered. *)
Theorem C34_no_deadlock :
  forall n ps s, 1 <= n -> ~ In 0 ps -> reachable n (ps ++ [0]) s -> stuck s ->
    pc_done s /\ pc_got s = ps ++ [0].
Proof.
  intros n ps s Hn N R [P C]. destruct (reachable_inv n _ s Hn R) as (dp & dc & I).
  pose proof (producer_inv n _ dp dc s Hn I) as HP. pose proof (consumer_inv n _ dp dc s Hn I) as HC.
  assert (S : pc_stop s = true).
  { destruct (consumer_step s) as [s1| | |] eqn:EC; try (exfalso; eapply C; reflexivity); try contradiction; [|exact HC].
    exfalso. destruct HC as (C1 & -> & C3).
    destruct (producer_step s) as [s1| | |] eqn:EP; try (exfalso; eapply P; reflexivity); try contradiction.
    - destruct HP. lia.
    - destruct HP as [D _]. destruct I as [i_n0 i_dp0 i_dc0 i_todo0 i_ptodo0 i_head0 i_tail0 i_full1 i_full2 i_empty1 i_empty2 i_slots0 i_hand0 i_got0 i_stop0 i_run0]. apply (i_run0 C3). rewrite i_got0, D, Nat2Z.id, firstn_all.
      apply in_or_app. right. left. reflexivity. }
  destruct (proper_done n ps s Hn N R S) as [A B]. repeat split; auto.
Qed.
Print Assumptions C34_no_deadlock.

(** And it always gets there: in any schedule the threads make at most eight
    steps per element. *)
Theorem C34_terminates :
  forall n junk xs sched s, 1 <= n -> pc_moves (pc_init n junk xs) sched = Some s ->
    Z.of_nat (List.length sched) <= 8 * Z.of_nat (List.length xs).
Proof.
  intros n junk xs sched s Hn H.
  destruct (moves_bound n xs sched Hn _ 0 0 s (pinv_init n junk xs Hn) H) as (dp & dc & I & L).
  pose proof (pmu_nonneg _ _ _ _ _ I). unfold pmu at 2 in L. cbn in L. lia.
Qed.
Print Assumptions C34_terminates.

(** Capacity 2, three processes: the discovery thread runs into the full queue,
    the main thread into the empty one. *)
Definition ex_sched : list bool :=
  repeat true 9 ++ repeat false 9 ++ repeat true 20 ++ repeat false 20 ++ repeat true 8 ++ repeat false 8.

Definition cannot_move (s : pcstate) : bool :=
  match producer_step s, consumer_step s with
  | PcNext _, _ | _, PcNext _ => false
  | _, _ => true
  end.

Lemma cannot_move_stuck s : cannot_move s = true -> stuck s.
Proof.
  unfold cannot_move. intros H. split; intros s' E; rewrite E in H; [discriminate|].
  destruct (producer_step s); discriminate.
Qed.

Lemma run_reachable n xs junk sched (P : pcstate -> bool) :
  match pc_run (pc_init n junk xs) sched with Some s => P s | None => false end = true ->
  exists s, reachable n xs s /\ P s = true.
Proof.
  destruct (pc_run (pc_init n junk xs) sched) as [s|] eqn:E; [|discriminate].
  intros H. exists s. split; [exists junk, sched; exact E|exact H].
Qed.

Example C34_case :
  (exists s, reachable 2 ([101; 102; 103] ++ [0]) s /\ stuck s /\ pc_stop s = true /\
    pc_got s = [101; 102; 103; 0]) /\
  exists s1, reachable 2 ([101; 102; 103] ++ [0]) s1 /\ pc_p s1 = PStore /\ pc_c s1 = CRead.
Proof.
  split.
  - destruct (run_reachable 2 ([101; 102; 103] ++ [0]) (fun _ => 7) ex_sched
               (fun s => cannot_move s && pc_stop s && bytes_eqb (pc_got s) [101; 102; 103; 0]))
      as (s & R & H); [vm_compute; reflexivity|].
    apply andb_true_iff in H. destruct H as [H G]. apply andb_true_iff in H. destruct H as [H S].
    exists s. split; [exact R|]. split; [apply cannot_move_stuck; exact H|]. split; [exact S|].
    apply bytes_eqb_eq. exact G.
  - destruct (run_reachable 2 ([101; 102; 103] ++ [0]) (fun _ => 7) [true; true; true; true; true; false]
               (fun s => match pc_p s, pc_c s with PStore, CRead => true | _, _ => false end))
      as (s & R & H); [vm_compute; reflexivity|].
    exists s. split; [exact R|]. destruct (pc_p s), (pc_c s); try discriminate. auto.
Qed.

(** ** C34: the discovery *)

(** With threads or without, the main loop sees exactly the selected processes,
    once each and in the order of /proc, if all of them can be read. *)
Theorem C34_iteration_partial :
  forall w wildcard user l n s,
    1 <= n ->
    (forall pe, In pe l -> pe_skipped w wildcard user pe = false ->
       pe_init pe = true /\ atoi (pe_name pe) <> 0) ->
    let delivered := map (fun pe => atoi (pe_name pe))
                         (filter (fun pe => negb (pe_skipped w wildcard user pe)) l) in
    (reachable n (discover w wildcard user 0 l) s -> stuck s -> pc_got s = delivered ++ [0] /\ pc_done s) /\
    discover_serial w wildcard user 0 l = delivered.
Proof.
  intros w wc us l n s Hn H delivered.
  assert (D : discover w wc us 0 l = delivered ++ [0]).
  { apply discover_ok. intros pe I S. apply (H pe I S). }
  assert (NZ : ~ In 0 delivered).
  { intros I. apply in_map_iff in I. destruct I as (pe & E & I). apply filter_In in I. destruct I as [I S].
    apply (H pe I); [|exact E]. destruct (pe_skipped w wc us pe); [discriminate|reflexivity]. }
  rewrite D. split.
  - intros R S. destruct (C34_no_deadlock n delivered s Hn NZ R S) as [A B]. auto.
  - rewrite serial_until_zero, D. clear - NZ. induction delivered as [|x t IH]; [reflexivity|].
    cbn [app until_zero]. destruct (Z.eqb_spec x 0) as [E|E]; [exfalso; apply NZ; left; exact E|].
    f_equal. apply IH. intros I. apply NZ. right. exact I.
Qed.
Print Assumptions C34_iteration_partial.

Definition ex_world : pworld :=
  mk_pworld (fun p s => bytes_eqb p s) (fun u => if u =? 1000 then Some (zs "ann") else None) 42.

Definition ex_entry (pid : list Z) (ok : bool) : pentry := mk_pentry pid (zs "srv") 1000 true ok.

Example C34_iteration_case :
  let l := [mk_pentry (zs "self") [] 0 false false; ex_entry (zs "17") true; ex_entry (zs "42") true;
            ex_entry (zs "99") true] in
  (forall pe, In pe l -> pe_skipped ex_world (Some (zs "srv")) (Some (zs "ann")) pe = false ->
     pe_init pe = true /\ atoi (pe_name pe) <> 0) /\
  discover ex_world (Some (zs "srv")) (Some (zs "ann")) 0 l = [17; 99; 0].
Proof.
  cbv zeta. split; [|vm_compute; reflexivity]. intros pe H S. cbn [In] in H.
  destruct H as [<-|[<-|[<-|[<-|[]]]]]; try discriminate S; split; try reflexivity; discriminate.
Qed.

(** When the first selected process cannot be read, the main thread receives
    NULL and stops: the processes after it are never delivered; and if there are
    more than the queue can hold, the discovery thread never ends, so
    process_list_end waits for it for ever. *)
Theorem C34_unreadable_first_refuted :
  exists w l, Z.of_nat (List.length l) = 601 /\
    (forall pe, In pe l -> pe_skipped w None None pe = false) /\
    discover_serial w None None 0 l = [] /\
    (exists s, reachable 512 (discover w None None 0 l) s /\ pc_stop s = true) /\
    forall s, reachable 512 (discover w None None 0 l) s -> pc_stop s = true ->
      pc_got s = [0] /\ pc_todo s <> [].
Proof.
  set (l := ex_entry (zs "16") false :: repeat (ex_entry (zs "17") true) 600).
  assert (D : discover ex_world None None 0 l = 0 :: repeat 17 600 ++ [0]) by (vm_compute; reflexivity).
  exists ex_world, l. split; [reflexivity|]. split; [|split; [reflexivity|]].
  - intros pe H. destruct H as [<-|H]; [reflexivity|]. apply repeat_spec in H. subst. reflexivity.
  - rewrite D. split.
    + apply (run_reachable 512 _ (fun _ => 0) (repeat true 4 ++ repeat false 4) pc_stop). vm_compute. reflexivity.
    + intros s R S. destruct (reachable_inv 512 _ s ltac:(lia) R) as (dp & dc & I). destruct I as [i_n0 i_dp0 i_dc0 i_todo0 i_ptodo0 i_head0 i_tail0 i_full1 i_full2 i_empty1 i_empty2 i_slots0 i_hand0 i_got0 i_stop0 i_run0].
      destruct (i_stop0 S) as (C & g & G & N).
      assert (dc = 1) as ->.
      { rewrite i_got0 in G. destruct (Z.to_nat dc) as [|[|k]] eqn:K; [destruct g; discriminate|lia|].
        cbn [firstn] in G. destruct g as [|y g].
        - exfalso. clear - G. cbn in G. discriminate G.
        - exfalso. cbn in G. inversion G; subst. apply N. left. reflexivity. }
      split; [rewrite i_got0; reflexivity|].
      rewrite i_todo0. assert (T : 0 <= p_taken (pc_p s)) by (destruct (pc_p s); cbn; lia).
      assert (dp <= 513) by (clear - T i_full1 i_full2; lia).
      intros E. assert (L : List.length (skipn (Z.to_nat dp) (0 :: repeat 17 600 ++ [0])) = 0%nat) by (rewrite E; reflexivity).
      rewrite skipn_length in L. cbn [List.length] in L. rewrite app_length, repeat_length in L. cbn [List.length] in L.
      lia.
Qed.
Print Assumptions C34_unreadable_first_refuted.

(** When a later one cannot be read, the one before it is delivered twice. *)
Theorem C34_unreadable_later_refuted :
  exists w l, (forall pe, In pe l -> pe_skipped w None None pe = false) /\
    map (fun pe => atoi (pe_name pe)) l = [17; 18; 19] /\
    discover_serial w None None 0 l = [17; 17; 19] /\
    discover w None None 0 l = [17; 17; 19; 0].
Proof.
  exists ex_world, [ex_entry (zs "17") true; ex_entry (zs "18") false; ex_entry (zs "19") true].
  repeat split. intros pe H. cbn in H. destruct H as [<-|[<-|[<-|[]]]]; reflexivity.
Qed.
Print Assumptions C34_unreadable_later_refuted.

(** ** C55 *)

(** The processes not skipped are the wanted ones, if no user is asked for, or
    the user is given by a number from 1 to 2^32 - 1, or by a name and the
    process belongs to a user other than root who has a name. *)
Theorem C55_selection_partial :
  forall w wildcard user pe,
    (user = None \/
     (exists u v, user = Some u /\ decimal u v /\ 1 <= v < 2 ^ 32) \/
     (exists u name, user = Some u /\ (~ exists v, decimal u v) /\ 0 < pe_owner pe /\
        pw_getpwuid w (pe_owner pe) = Some name)) ->
    (pe_skipped w wildcard user pe = false <-> wanted w wildcard user pe).
Proof.
  intros w wc us pe H.
  assert (U : (match us with
          | Some upat =>
              if target_uid us >? 0 then negb (pe_owner pe =? target_uid us)
              else if pe_owner pe >? 0 then
                match pw_getpwuid w (pe_owner pe) with
                | Some name => negb (pw_fnmatch w upat name)
                | None => false
                end
              else false
          | None => false
          end = false) <->
          (forall u, us = Some u ->
     (exists v, decimal u v /\ pe_owner pe = v) \/
     ((~ exists v, decimal u v) /\
      exists name, pw_getpwuid w (pe_owner pe) = Some name /\ pw_fnmatch w u name = true))).
  { destruct H as [->|[(u & v & -> & D & B)|(u & name & -> & ND & O & PW)]].
    - split; [intros _ u E; discriminate|reflexivity].
    - assert (T : target_uid (Some u) = v).
      { unfold target_uid. rewrite (proj2 (isnumber_decimal u)) by eauto.
        apply decimal_digits in D. destruct D as (_ & _ & -> & _).
        rewrite Z.min_l by lia. apply Z.mod_small. lia. }
      rewrite T. destruct (Z.gtb_spec v 0); [|lia].
      assert (V : forall v', decimal u v' -> v' = v).
      { intros v' D'. apply decimal_digits in D'. apply decimal_digits in D.
        destruct D as (_ & _ & <- & _), D' as (_ & _ & <- & _). reflexivity. }
      destruct (Z.eqb_spec (pe_owner pe) v) as [E|E]; cbn [negb].
      + split; [|reflexivity]. intros _ u' E'. apply Some_inj in E'. subst u'. left. eauto.
      + split; [discriminate|]. intros X. exfalso. destruct (X u eq_refl) as [(v' & D' & O)|(N & _)].
        * apply V in D'. congruence.
        * apply N. eauto.
    - assert (T : target_uid (Some u) = 0).
      { unfold target_uid. destruct (isnumber (Some u)) eqn:N; [|reflexivity].
        exfalso. apply ND. apply isnumber_decimal. exact N. }
      rewrite T. cbn [Z.gtb Z.compare]. destruct (Z.gtb_spec (pe_owner pe) 0); [|lia]. rewrite PW.
      destruct (pw_fnmatch w u name) eqn:F; cbn [negb].
      + split; [|reflexivity]. intros _ u' E'. apply Some_inj in E'. subst u'. right. split; [exact ND|eauto].
      + split; [discriminate|]. intros X. exfalso. destruct (X u eq_refl) as [(v' & D' & _)|(_ & nm & E1 & E2)].
        * apply ND. eauto.
        * apply Some_inj in E1. subst. congruence. }
  unfold pe_skipped, wanted.
  destruct (isnumber (Some (pe_name pe))) eqn:N; cbn [negb].
  2: { split; [discriminate|]. intros (D & _). apply isnumber_decimal in D. congruence. }
  apply isnumber_decimal in N.
  destruct (match wc with Some pat => negb (pw_fnmatch w pat (pe_comm pe)) | None => false end) eqn:W.
  { split; [discriminate|]. intros (_ & X & _). destruct wc as [pat|]; [|discriminate].
    rewrite (X pat eq_refl) in W. discriminate. }
  assert (W' : forall pat, wc = Some pat -> pw_fnmatch w pat (pe_comm pe) = true).
  { intros pat ->. destruct (pw_fnmatch w pat (pe_comm pe)); [reflexivity|discriminate]. }
  match goal with |- context [if ?b then true else _] => destruct b eqn:UB end.
  { split; [discriminate|]. intros (_ & _ & X & _). apply U in X. discriminate X. }
  apply proj1 in U. specialize (U eq_refl).
  destruct (Z.eqb_spec (atoi (pe_name pe)) (pw_self w)) as [E|E].
  { split; [discriminate|]. intros (_ & _ & _ & X & _). contradiction. }
  destruct (pe_libpulp pe); cbn [negb].
  - split; [|reflexivity]. intros _. repeat split; auto.
  - split; [discriminate|]. intros (_ & _ & _ & _ & X). discriminate.
Qed.
Print Assumptions C55_selection_partial.

(** Root's processes are selected whatever user name is asked for. *)
Theorem C55_root_refuted :
  exists w user pe, pe_skipped w None (Some user) pe = false /\ ~ wanted w None (Some user) pe.
Proof.
  exists (mk_pworld (fun p s => bytes_eqb p s) (fun u => if u =? 0 then Some (zs "root") else None) 42), (zs "ann"),
    (mk_pentry (zs "17") (zs "srv") 0 true true).
  split; [reflexivity|]. intros (_ & _ & U & _). destruct (U _ eq_refl) as [(v & D & _)|(_ & nm & E & F)].
  - apply decimal_digits in D. destruct D as (D & _). discriminate D.
  - apply Some_inj in E. subst nm. discriminate F.
Qed.
Print Assumptions C55_root_refuted.

(** Asking for uid 0 selects other users' processes that have no user name. *)
Theorem C55_uid_zero_refuted :
  exists w pe, pe_skipped w None (Some (zs "0")) pe = false /\ ~ wanted w None (Some (zs "0")) pe.
Proof.
  exists ex_world, (mk_pentry (zs "17") (zs "srv") 1001 true true).
  split; [reflexivity|]. intros (_ & _ & U & _). destruct (U _ eq_refl) as [(v & D & O)|(N & _)].
  - apply decimal_digits in D. destruct D as (_ & _ & D & _). cbn in D, O. lia.
  - apply N. exists 0. apply (dec_one 0). lia.
Qed.
Print Assumptions C55_uid_zero_refuted.

Example C55_case :
  pe_skipped ex_world (Some (zs "srv")) (Some (zs "ann")) (ex_entry (zs "17") true) = false /\
  wanted ex_world (Some (zs "srv")) (Some (zs "ann")) (ex_entry (zs "17") true) /\
  pe_skipped ex_world None (Some (zs "1001")) (ex_entry (zs "17") true) = true.
Proof.
  split; [reflexivity|]. split; [|reflexivity].
  apply C55_selection_partial; [|reflexivity]. right. right. exists (zs "ann"), (zs "ann").
  split; [reflexivity|]. split; [|split; [cbn; lia|reflexivity]].
  intros (v & D). apply decimal_digits in D. destruct D as (D & _). discriminate D.
Qed.
