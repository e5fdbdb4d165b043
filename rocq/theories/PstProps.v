(** C96: the memory of the ppc64le side stacks: how much a thread gets, whose it is, and that it is
    never given back. *)
From Coq Require Import Bool Lia.
From Verif Require Import Base BaseFacts PpcSpec PtrModel PtrSpec PtrProps PstModel PstSpec PstProofs.

(** What a thread has depends on its own calls only: nothing before its first redirected call;
    afterwards one mapping that has room for the deepest nesting there was and, beyond two pages, less
    than twice of what that nesting needed. *)
Theorem C96_memory_of_a_thread : forall main page evs p, page_ok page -> phistory main page evs p ->
  forall t, match get_thread t (pp_threads p), life main evs t with
            | None, None => True
            | Some th, Some (depth, most) =>
                sd_used (th_side th) = 16 * depth /\ 0 <= depth <= most /\
                (most = 0 -> sd_ptr (th_side th) = 0 /\ sd_real (th_side th) = 0) /\
                (0 < most -> 0 < sd_ptr (th_side th) /\ In (sd_ptr (th_side th), sd_real (th_side th)) (pp_maps p) /\
                   16 * most <= sd_real (th_side th) <= 2 * (16 * (most - 1)) + 2 * page)
            | _, _ => False
            end.
Proof.
  intros main page evs p Hp H t. pose proof (pi_thread _ _ _ _ (history_inv _ _ _ _ Hp H) t) as T. unfold thread_ok in T.
  destruct (get_thread t (pp_threads p)) as [th|]; destruct (life main evs t) as [[d m]|]; auto.
  destruct T as (_ & D & U & R). split; [exact U|]. split; [exact D|].
  destruct R as [R|(R1 & R2 & R3 & R4 & R5 & R6 & R7)]; [split; [tauto|lia]|]. split; [lia|].
  intros _. split; [exact R2|]. split; [exact R3|]. lia.
Qed.
Print Assumptions C96_memory_of_a_thread.

(** No two threads ever have memory in common, whatever the order of their calls. *)
Theorem C96_no_sharing : forall main page evs p, page_ok page -> phistory main page evs p ->
  forall t u th uh, t <> u -> get_thread t (pp_threads p) = Some th -> get_thread u (pp_threads p) = Some uh ->
    sd_ptr (th_side th) <> 0 -> sd_ptr (th_side uh) <> 0 ->
    disjoint (sd_ptr (th_side th)) (sd_real (th_side th)) (sd_ptr (th_side uh)) (sd_real (th_side uh)).
Proof.
  intros main page evs p Hp H t u th uh N Gt Gu Pt Pu. pose proof (history_inv _ _ _ _ Hp H) as Iv.
  pose proof (C96_memory_of_a_thread main page evs p Hp H) as M.
  pose proof (M t) as Mt. rewrite Gt in Mt. destruct (life main evs t) as [[d m]|]; [|contradiction].
  pose proof (M u) as Mu. rewrite Gu in Mu. destruct (life main evs u) as [[d' m']|]; [|contradiction].
  destruct Mt as (_ & Dt & Zt & Rt). destruct Mu as (_ & Du & Zu & Ru).
  destruct Rt as (_ & It & _); [lia|]. destruct Ru as (_ & Iu & _); [lia|].
  destruct (maps_apart _ _ _ (pi_maps _ _ _ _ Iv) It Iu) as [E|A]; [|exact A].
  injection E as E1 E2. exfalso. apply (pi_apart _ _ _ _ Iv t u th uh N Gt Gu Pt Pu E1).
Qed.
Print Assumptions C96_no_sharing.

(** Memory libpulp does not own is never unmapped, and a redirected call ends the process only if the
    kernel has no memory for it. *)
Theorem C96_next_event : forall main page evs p ev, page_ok page -> phistory main page evs p -> event_fine main page evs p ev ->
  (exists p', pstep page ev p = Going p') \/ (pstep page ev p = Ended /\ exists t, ev = T_call t None).
Proof.
  intros main page evs p ev Hp H F. pose proof (pstep_inv _ _ _ _ ev Hp (history_inv _ _ _ _ Hp H) F) as S.
  destruct (pstep page ev p); [eauto|auto|contradiction].
Qed.
Print Assumptions C96_next_event.

(** As many mappings exist as threads have ever made a redirected call, those that have ended included. *)
Theorem C96_mappings_counted : forall main page evs p, page_ok page -> phistory main page evs p ->
  zlen (pp_maps p) = users main evs.
Proof. intros main page evs p Hp H. apply (pi_count _ _ _ _ (history_inv _ _ _ _ Hp H)). Qed.
Print Assumptions C96_mappings_counted.

(** The memory of a thread that ends is not given back, then or later, although nobody can use it any
    more. *)
Theorem C96_given_back_refuted : forall main page evs p t th later p', page_ok page ->
  phistory main page evs p -> get_thread t (pp_threads p) = Some th -> sd_ptr (th_side th) <> 0 ->
  phistory main page (evs ++ T_exit t :: later) p' ->
  In (sd_ptr (th_side th), sd_real (th_side th)) (pp_maps p') /\
  (forall u uh, get_thread u (pp_threads p') = Some uh -> sd_ptr (th_side uh) <> sd_ptr (th_side th)).
Proof. intros main page evs p t th later p' Hp H G N H'. exact (exit_keeps main page evs p t th Hp H G N later p' H'). Qed.
Print Assumptions C96_given_back_refuted.

(** The function meant for this would do it: run for a thread, it gives back that thread's memory and
    nothing else. *)
Theorem C96_cleanup_would : forall main page evs p t th, page_ok page -> phistory main page evs p ->
  get_thread t (pp_threads p) = Some th -> sd_ptr (th_side th) <> 0 ->
  exists l, ulp_stack_cleanup (th_side th) (pp_maps p) = Going (side0, l) /\
    without (sd_ptr (th_side th), sd_real (th_side th)) (pp_maps p) l.
Proof.
  intros main page evs p t th Hp H G N. pose proof (history_inv _ _ _ _ Hp H) as Iv.
  pose proof (C96_memory_of_a_thread main page evs p Hp H t) as M. rewrite G in M.
  destruct (life main evs t) as [[d m]|]; [|contradiction]. destruct M as (_ & D & Z0 & R).
  destruct R as (P & I & _); [lia|].
  destruct (munmap_ok _ _ (pi_maps _ _ _ _ Iv) I) as (l' & E & W & _). cbn [fst snd] in E.
  exists l'. split; [|exact W]. unfold ulp_stack_cleanup. destruct (Z.eqb_spec (sd_ptr (th_side th)) 0); [contradiction|].
  rewrite E. reflexivity.
Qed.
Print Assumptions C96_cleanup_would.

(** There is no bound: with one thread alive at the end, there can be any number of mappings. *)
Theorem C96_unbounded_refuted : forall n : nat, Z.of_nat n * 8192 < 2 ^ 61 ->
  exists evs p, phistory 1 4096 evs p /\ pp_threads p = [(1, mk_thread side0 0)] /\ zlen (pp_maps p) = Z.of_nat n.
Proof.
  enough (X : forall n : nat, Z.of_nat n * 8192 < 2 ^ 61 ->
    exists evs p, phistory 1 4096 evs p /\ pp_threads p = [(1, mk_thread side0 0)] /\ zlen (pp_maps p) = Z.of_nat n /\
      (forall x, In x (pp_maps p) -> 0 < fst x /\ fst x + snd x <= 1 + Z.of_nat n * 8192)).
  { intros n Hn. destruct (X n Hn) as (evs & p & A & B & C & _). eauto. }
  induction n as [|n IH]; intros Hn.
  - exists [], (pproc0 1). split; [constructor|]. split; [reflexivity|]. split; [reflexivity|]. intros x [].
  - destruct IH as (evs & p & A & B & C & D); [lia|]. set (a := 1 + Z.of_nat n * 8192) in *.
    assert (A1 : phistory 1 4096 (evs ++ [T_new 2]) (mk_pproc [(2, mk_thread side0 0); (1, mk_thread side0 0)] (pp_maps p) (pp_key p))).
    { eapply ph_step; [exact A|exact I|]. cbn [pstep]. rewrite B. reflexivity. }
    eassert (A2 : phistory 1 4096 ((evs ++ [T_new 2]) ++ [T_call 2 (Some a)]) _).
    { eapply ph_step; [exact A1| |].
      - cbn [event_fine pp_threads pp_maps]. intros th G. cbn [get_thread Z.eqb Pos.eqb] in G. injection G as <-. intros _.
        cbn [th_side side0 sd_real]. split; [lia|]. split; [lia|]. intros x Hx. specialize (D x Hx).
        unfold apart, disjoint. cbn [fst snd]. lia.
      - cbn [pstep pp_threads get_thread Z.eqb Pos.eqb pp_maps pp_key]. unfold enter_call, stack_helper.
        cbn [th_side th_value side0 sd_real sd_used sd_ptr]. change (s64 0 <=? s64 0) with true. change (0 <=? 0) with true. cbn [negb].
        change (u64 (u64 (0 + 4096) * 2)) with 8192. change (0 =? 0) with true. cbv iota.
        destruct (Z.eqb_spec a 0); [lia|]. reflexivity. }
    eassert (A3 : phistory 1 4096 (((evs ++ [T_new 2]) ++ [T_call 2 (Some a)]) ++ [T_exit 2]) _).
    { eapply ph_step; [exact A2|exact I|]. cbn [pstep pp_threads get_thread set_thread Z.eqb Pos.eqb pp_key th_value].
      cbn [negb]. rewrite andb_false_r. reflexivity. }
    eexists _, _. split; [exact A3|]. cbn [pp_threads pp_maps]. split; [reflexivity|]. split; [rewrite zlen_cons, C; lia|].
    intros x [<-|Hx]; [cbn [fst snd]; lia|]. specialize (D x Hx). lia.
Qed.
Print Assumptions C96_unbounded_refuted.

(** The events are those of the trampoline: its code, run in a thread's memory, changes the thread's
    fields as a call and a return do here (PtrModel has the instructions). *)
Theorem C96_trampoline_call : forall w sl sh e area st st1 l,
  world_ok w sl sh -> env_ok w sl sh e -> area_ok sl sh area -> wf_st st -> room sl sh st -> side_ok w sl sh (tm st) ->
  redirected_entry w e area st = Some st1 ->
  (s_ptr w (tm st) <> 0 -> In (s_ptr w (tm st), s_real w (tm st)) l) ->
  exists ans l', enter_call (pw_page w) ans (side_of w (tm st)) l = Going (side_of w (tm st1), l') /\
    (s_real w (tm st) <= s_used w (tm st) ->
     exists a m, ans = Some a /\ pe_mmap e m (2 * (s_real w (tm st) + pw_page w)) = Some a).
Proof. intros. eapply enter_refines; eauto. Qed.
Print Assumptions C96_trampoline_call.

Theorem C96_trampoline_return : forall w sl sh e st,
  world_ok w sl sh -> env_ok w sl sh e -> wf_st st -> room sl sh st -> side_ok w sl sh (tm st) -> 16 <= s_used w (tm st) ->
  exists st1, tramp_leave w e st = Some st1 /\ side_of w (tm st1) = leave_call (side_of w (tm st)).
Proof. intros. eapply leave_refines; eauto. Qed.
Print Assumptions C96_trampoline_return.

(** ** Cases *)

(** Pages of 16 bytes. A second thread starts; the main thread nests three calls, the third moves its
    stack; the second thread makes a call and ends. *)
Definition pst_evs : list pev :=
  [T_new 2; T_call 1 (Some 1000); T_call 1 None; T_call 1 (Some 5000); T_call 2 (Some 9000); T_return 1; T_exit 2].
Definition pst_end : pproc := mk_pproc [(1, mk_thread (mk_side 96 32 5000) 0)] [(9000, 32); (5000, 96)] true.

Ltac pst_fine :=
  cbn [event_fine]; first [exact I|cbn; lia|
    intros th G; cbn in G; injection G as <-; cbn [th_side sd_real sd_used side0]; intros _; split; [lia|]; split; [lia|];
    intros x; cbn [In pp_maps]; intros Hx; repeat (destruct Hx as [<-|Hx]; [unfold apart, disjoint; cbn [fst snd]; lia|]); contradiction].

Lemma pst_history : phistory 1 16 pst_evs pst_end.
Proof.
  pose proof (ph_start 1 16) as H0.
  assert (H1 : phistory 1 16 [T_new 2] (mk_pproc [(2, mk_thread side0 0); (1, mk_thread side0 0)] [] false)).
  { apply (ph_step 1 16 [] _ (T_new 2) _ H0); [pst_fine|reflexivity]. }
  assert (H2 : phistory 1 16 [T_new 2; T_call 1 (Some 1000)]
    (mk_pproc [(2, mk_thread side0 0); (1, mk_thread (mk_side 32 16 1000) 0)] [(1000, 32)] true)).
  { apply (ph_step 1 16 [T_new 2] _ (T_call 1 (Some 1000)) _ H1); [pst_fine|reflexivity]. }
  assert (H3 : phistory 1 16 [T_new 2; T_call 1 (Some 1000); T_call 1 None]
    (mk_pproc [(2, mk_thread side0 0); (1, mk_thread (mk_side 32 32 1000) 0)] [(1000, 32)] true)).
  { apply (ph_step 1 16 _ _ (T_call 1 None) _ H2); [pst_fine|reflexivity]. }
  assert (H4 : phistory 1 16 [T_new 2; T_call 1 (Some 1000); T_call 1 None; T_call 1 (Some 5000)]
    (mk_pproc [(2, mk_thread side0 0); (1, mk_thread (mk_side 96 48 5000) 0)] [(5000, 96)] true)).
  { apply (ph_step 1 16 _ _ (T_call 1 (Some 5000)) _ H3); [pst_fine|reflexivity]. }
  assert (H5 : phistory 1 16 [T_new 2; T_call 1 (Some 1000); T_call 1 None; T_call 1 (Some 5000); T_call 2 (Some 9000)]
    (mk_pproc [(2, mk_thread (mk_side 32 16 9000) 0); (1, mk_thread (mk_side 96 48 5000) 0)] [(9000, 32); (5000, 96)] true)).
  { apply (ph_step 1 16 _ _ (T_call 2 (Some 9000)) _ H4); [pst_fine|reflexivity]. }
  assert (H6 : phistory 1 16 [T_new 2; T_call 1 (Some 1000); T_call 1 None; T_call 1 (Some 5000); T_call 2 (Some 9000); T_return 1]
    (mk_pproc [(2, mk_thread (mk_side 32 16 9000) 0); (1, mk_thread (mk_side 96 32 5000) 0)] [(9000, 32); (5000, 96)] true)).
  { apply (ph_step 1 16 _ _ (T_return 1) _ H5); [pst_fine|reflexivity]. }
  apply (ph_step 1 16 _ _ (T_exit 2) _ H6); [pst_fine|reflexivity].
Qed.

Example C96_case : page_ok 16 /\ phistory 1 16 pst_evs pst_end /\ life 1 pst_evs 1 = Some (2, 3) /\ life 1 pst_evs 2 = None /\
  users 1 pst_evs = 2 /\ pp_maps pst_end = [(9000, 32); (5000, 96)] /\ get_thread 2 (pp_threads pst_end) = None.
Proof. split; [split; [lia|exists 1; reflexivity]|]. split; [exact pst_history|]. repeat split. Qed.

(** The hypotheses of [C96_trampoline_call] and [C96_trampoline_return] are those of C28; its example
    (PtrProps, C28_case) is one here too: the first call gets 32 bytes. *)
Example C96_trampoline_case :
  world_ok xw xsl xsh /\ env_ok xw xsl xsh (x_env (fun c => c)) /\ area_ok xsl xsh xarea /\
  wf_st (xst 7777 8888) /\ room xsl xsh (xst 7777 8888) /\ side_ok xw xsl xsh (tm (xst 7777 8888)) /\
  side_of xw (tm (xst 7777 8888)) = side0 /\
  match redirected_entry xw (x_env (fun c => c)) xarea (xst 7777 8888) with
  | Some st1 => side_of xw (tm st1) = mk_side 32 16 2147483648
  | None => False
  end.
Proof.
  destruct C28_case_hyps as (A & B & C & D & E & F & _). repeat (split; [assumption|]). split; vm_compute; reflexivity.
Qed.
