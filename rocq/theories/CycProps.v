(** C51: repeated apply/revert cycles. *)
From Coq Require Import String.
From Verif Require Import Base BaseFacts InsnQModel InsnQSpec InsnQProofs MetaModel MetaSpec StrModel
  X86Model X86Spec X86Proofs X86Props DlModel LibModel LibSpec LibProofs LibInv LibMem LibExample LibProps
  CycSpec CycProofs.

(** A reversal that was answered with success, seen from inside. *)
Lemma revert_answered ev id p p' :
  revert_request ev id -> do_event ev p = Some (p', 0) ->
  s_err (p_lib p) = 0 /\ q_empty (s_q (p_lib p)) /\ p_mem p' = p_mem p /\
  ulp_can_revert_patch (p_lib p) id = 0 /\ ulp_revert_patch (p_mem p) id (p_lib p) = (p_lib p', 0).
Proof.
  intros (e & junk & buf & md & -> & Hp & Ht & Hid) H. cbn [do_event] in H.
  destruct (ulp_apply_patch _ _ _ _ _ _) as [[st a]|] eqn:Ex; [|discriminate]. apply Some_inj in H.
  apply pair_equal_spec in H. destruct H as [<- ->]. cbn [p_lib p_mem].
  apply apply_outcome in Ex. destruct Ex as [Ex|(E0 & Eq & _ & Ex)].
  - exfalso. inversion Ex; subst; congruence.
  - repeat split; auto; try (apply Eq).
    + inversion Ex; subst; congruence.
    + inversion Ex as [ans Hans|md' st' ans Hp' Hty Hcr Hrv|md' st1 st2 ans Hp' Hty]; subst; try congruence.
Qed.

(** C51, the work needed: whenever a reversal is answered with success, it either
    queues exactly as many memory writes as the patch has ever replaced functions,
    in all its earlier applications together, or puts libpulp into the error state
    for good. So the work does grow with the number of earlier cycles. *)
Theorem C51_work_grows_refuted :
  forall F eb m stale tr p ev id p',
    functions_ok F eb m -> clean_history F eb (fresh m stale) tr p ->
    no_pending p -> revert_request ev id -> do_event ev p = Some (p', 0) ->
    (s_err (p_lib p') = 0 /\ pending_writes p' = replacements_made id tr) \/
    s_err (p_lib p') = EINSNQ.
Proof.
  intros F eb m stale tr p ev id p' HF H [N1 N2] Hr Hd.
  destruct (revert_answered _ _ _ _ Hr Hd) as (E0 & _ & _ & _ & Hrv).
  apply revert_patch_writes in Hrv.
  - cbn zeta in Hrv. rewrite (history_count id _ _ _ _ (clean_is_history _ _ _ _ _ H) (or_introl E0)) in Hrv.
    destruct Hrv as [(A & B & _)|(A & _)]; [left|right; exact A]. split; [congruence|]. unfold pending_writes. lia.
  - eapply clean_roots_patchable; eauto. split; assumption.
  - rewrite E0. discriminate.
Qed.
Print Assumptions C51_work_grows_refuted.

(** C51, the part that holds: while all the replacements ever made by the patch,
    at 40 bytes each, fit into the queue, a permitted reversal is answered with
    success, takes effect on the list of patches and leaves libpulp usable. (Where
    the calls then go is C01.) *)
Theorem C51_revert_works_partial :
  forall F eb m stale tr p ev id,
    functions_ok F eb m -> clean_history F eb (fresh m stale) tr p ->
    s_err (p_lib p) = 0 -> no_pending p -> revert_request ev id ->
    In id (reported p) -> (forall a, In a (s_patches (p_lib p)) -> ~ In id (a_deps a)) ->
    40 * replacements_made id tr <= INSN_BUFFER_MAX ->
    exists p', do_event ev p = Some (p', 0) /\ s_err (p_lib p') = 0 /\
      ~ In id (reported p') /\ pending_writes p' = replacements_made id tr.
Proof.
  intros F eb m stale tr p ev id HF H He Hn Hr Hin Hdep Hfit.
  pose proof Hr as (e & junk & buf & md & -> & Hp & Ht & Hid).
  assert (Hcr : ulp_can_revert_patch (p_lib p) id = 0).
  { apply can_revert_iff. split; [exact Hin|]. intros (a & Ha & Hd). exact (Hdep a Ha Hd). }
  destruct (can_revert_success (p_mem p) id (p_lib p) Hcr) as (st1 & Hrv).
  assert (Hd : do_event (EvApply false e junk buf) p = Some (mk_proc st1 (p_mem p), 0)).
  { rewrite open_gate by assumption. unfold load_patch. rewrite Hp, Ht, Hid. cbn [Z.eqb Pos.eqb].
    rewrite Hcr. cbn [Z.eqb negb]. rewrite Hrv. reflexivity. }
  exists (mk_proc st1 (p_mem p)). split; [exact Hd|]. cbn [p_lib].
  pose proof (revert_patch_lists _ _ _ _ _ Hrv) as (_ & _ & _ & L & _). specialize (L eq_refl).
  apply revert_patch_writes in Hrv.
  - cbn zeta in Hrv. rewrite (history_count id _ _ _ _ (clean_is_history _ _ _ _ _ H) (or_introl He)) in Hrv.
    destruct Hn as [N1 N2]. rewrite N1, N2 in Hrv.
    destruct Hrv as [(A & B & _)|(_ & A)]; [|lia]. split; [congruence|]. split; [|unfold pending_writes; cbn [p_lib]; lia].
    unfold reported. cbn [p_lib].
    pose proof (li_ids _ (history_linv _ _ _ _ (clean_is_history _ _ _ _ _ H))) as Hnd.
    destruct (state_remove_some _ _ _ L) as (l1 & a & l2 & E1 & E2 & E3 & _).
    rewrite E1 in Hnd. rewrite map_app in Hnd. cbn [map] in Hnd. apply NoDup_remove_2 in Hnd.
    rewrite E2, map_app. rewrite <- E3. exact Hnd.
  - eapply clean_roots_patchable; eauto.
  - rewrite He. discriminate.
Qed.
Print Assumptions C51_revert_works_partial.

(** C51: applying a patch is not affected by earlier cycles at all: a process that
    has gone through any number of cycles answers and reacts like one that has not,
    as long as the same patches are applied now. *)
Theorem C51_apply_does_not_wear :
  forall p1 p2 ev id p1' ans,
    s_patches (p_lib p1) = s_patches (p_lib p2) -> s_err (p_lib p1) = s_err (p_lib p2) ->
    no_pending p1 -> no_pending p2 -> p_mem p1 = p_mem p2 ->
    apply_request ev id -> do_event ev p1 = Some (p1', ans) ->
    exists p2', do_event ev p2 = Some (p2', ans) /\
      s_err (p_lib p2') = s_err (p_lib p1') /\ s_patches (p_lib p2') = s_patches (p_lib p1') /\
      pending_writes p2' = pending_writes p1' /\ pending_bytes p2' = pending_bytes p1'.
Proof.
  intros p1 p2 ev id p1' ans Hps He Hn1 Hn2 Hm (e & junk & buf & md & -> & Hp & Ht & Hid) H.
  destruct (Z.eq_dec (s_err (p_lib p1)) 0) as [E0|E0].
  - rewrite open_gate in H by assumption. rewrite open_gate by (auto; congruence).
    destruct (load_patch e (p_mem p1) junk buf (p_lib p1)) as [[st a]|] eqn:E; [|discriminate].
    apply Some_inj in H. apply pair_equal_spec in H. destruct H as [<- <-].
    assert (HS : sim (p_lib p1) (p_lib p2)).
    { destruct Hn1, Hn2. unfold sim. repeat split; congruence. }
    destruct (load_patch_sim _ _ _ _ _ _ _ _ _ HS Hp Ht E) as (s2 & E2 & (A & B & C & D)).
    rewrite <- Hm, E2. exists (mk_proc s2 (p_mem p1)). repeat split; symmetry; assumption.
  - rewrite C07_error_state_refuses in H by (auto; exact I).
    apply Some_inj in H. apply pair_equal_spec in H. destruct H as [<- <-].
    exists p2. rewrite C07_error_state_refuses by (rewrite <- ?He; auto; exact I). rewrite <- He.
    destruct Hn1, Hn2. unfold pending_writes, pending_bytes. repeat split; congruence.
Qed.
Print Assumptions C51_apply_does_not_wear.

(** ** The queue overflows in the end *)

(** Patch 3 of the example world: apply, execute, revert, execute. *)
Definition id3 : list Z := repeat 3 32.

Definition md3 : meta :=
  Eval vm_compute in match ap 3 P3 with
                     | EvApply _ _ j b => match parse_metadata_from_mem j b with P_ok md => md
                                          | _ => mk_meta 0 [] [] 0 [] [] [] [] [] end
                     | _ => mk_meta 0 [] [] 0 [] [] [] [] [] end.

Lemma ap3_request : apply_request (ap 3 P3) id3.
Proof. unfold ap. do 3 eexists. exists md3. split; [reflexivity|]. split; [vm_compute; reflexivity|]. split; reflexivity. Qed.

Lemma rv3_request : revert_request (rv 3 P3) id3.
Proof.
  unfold rv. do 4 eexists. split; [reflexivity|]. split; [vm_compute; reflexivity|]. split; reflexivity.
Qed.

(** Applying patch 3 to an idle process without patches. *)
Lemma ap3_works p :
  s_err (p_lib p) = 0 -> no_pending p -> s_patches (p_lib p) = [] -> looks_patchable (p_mem p) w_f = true ->
  exists p', do_event (ap 3 P3) p = Some (p', 0) /\ s_err (p_lib p') = 0 /\
    reported p' = [id3] /\ (forall a, In a (s_patches (p_lib p')) -> ~ In id3 (a_deps a)).
Proof.
  intros He Hn Hps HL. unfold ap. rewrite open_gate by assumption. unfold load_patch.
  set (b := bytes_of _). assert (Hp : parse_metadata_from_mem 0 b = P_ok md3) by (vm_compute; reflexivity).
  rewrite Hp. clearbody b. change (md_type md3 =? 2) with false. cbv iota.
  unfold check_patch_sanity.
  assert (Hb : check_build_id (e_libs w_env) (md_bid_len md3) (md_bid md3) = N_match true) by (vm_compute; reflexivity).
  rewrite Hb. unfold check_patch_dependencies, ulp_get_applied_patch. rewrite Hps.
  change (md_deps md3) with (@nil (list Z)). cbn [forallb existsb Z.eqb negb].
  change (e_dlopen w_env (md_so md3) =? 0) with false. cbv iota.
  change (md_type md3 =? 1) with true. cbv iota. unfold ulp_state_update.
  assert (HU : resolve_units w_env (p_mem p) (get_basename (md_name md3)) (e_dlopen w_env (md_so md3)) (md_units md3) =
               Some [mk_aunit w_f 3146240 (mem_read (p_mem p) w_f 14)]).
  { cbn [md3 md_units resolve_units].
    set (x := get_loaded_symbol_addr _ _ _ _ _). assert (Hx : x = w_f) by (vm_compute; reflexivity).
    set (y := e_dlsym _ _ _). assert (Hy : y = 3146240) by (vm_compute; reflexivity).
    rewrite Hx, Hy. reflexivity. }
  rewrite HU. set (st0 := set_patches (p_lib p) _).
  unfold ulp_apply_all_units.
  assert (HA : exists st', apply_units w_env (p_mem p) (get_basename (md_name md3)) (e_dlopen w_env (md_so md3))
             (md_id md3) (md_units md3) (next_universe st0) = (st', 0) /\ s_err st' = 0 /\ s_patches st' = s_patches st0).
  { change (md_units md3) with [mk_munit (zs "f") (zs "g") 0]. rewrite apply_units_step. cbv zeta.
    set (x := get_loaded_symbol_addr _ _ _ _ _). assert (Hx : x = w_f) by (vm_compute; reflexivity).
    set (y := e_dlsym _ _ _). assert (Hy : y = 3146240) by (vm_compute; reflexivity).
    rewrite Hx, Hy. clear x Hx y Hy. change (w_f =? 0) with false. change (3146240 =? 0) with false. cbv iota.
    rewrite HL. cbn [apply_units]. eexists. split; [reflexivity|].
    destruct (record_unit_fields (next_universe st0) (md_id md3) w_f 3146240) as (A1 & A2 & A3 & A4).
    rewrite A3, A4. cbn [set_qe s_err s_patches]. rewrite A1. split; [|reflexivity].
    change (s_q (next_universe st0)) with (s_q (p_lib p)). change (s_err (next_universe st0)) with (s_err (p_lib p)).
    rewrite submit_unfold. destruct (try_insert _ _) eqn:Et; cbn [snd]; [exact He|].
    exfalso. set (r := patch_req _ _ _ _) in *. pose proof (patch_req_size (p_mem p) w_f 3146240 true) as Hr. fold r in Hr.
    destruct (proj1 (try_insert_fits (s_q (p_lib p)) r)) as [x Hx]; [|congruence].
    destruct Hn as [_ ->]. unfold INSN_BUFFER_MAX. lia. }
  destruct HA as (st' & HA & HA1 & HA2). rewrite HA. cbn [negb Z.eqb].
  set (x := get_loaded_library_base_addr _ _ _). assert (Hx : x = 65536) by (vm_compute; reflexivity).
  rewrite Hx. change (65536 =? 255) with false. cbv iota.
  change (e_laddr w_env (e_dlopen w_env (md_so md3))) with (Some 3145728).
  change (3145728 =? 0) with false. cbv iota. change (md_refs md3) with (@nil mref). cbn [apply_refs Z.eqb negb].
  eexists. split; [reflexivity|]. cbn [p_lib]. split; [exact HA1|]. unfold reported. cbn [p_lib]. rewrite HA2.
  unfold st0. cbn [set_patches s_patches]. rewrite Hps. split; [reflexivity|].
  intros a [<-|[]]. exact (fun f => f).
Qed.

(** The tool executing the queue. *)
Lemma ex_works F eb p m stale tr :
  functions_ok F eb m -> clean_history F eb (fresh m stale) tr p -> s_err (p_lib p) = 0 ->
  exists p', do_event ex p = Some (p', 0) /\ s_err (p_lib p') = 0 /\ no_pending p' /\
    s_patches (p_lib p') = s_patches (p_lib p).
Proof.
  intros HF H He. destruct (clean_tied _ _ _ _ _ _ HF H (or_introl He)) as (rs & Ht).
  cbn [do_event ex]. rewrite (interpret_exact env_ok (s_q (p_lib p)) rs); auto; [|apply Ht].
  eexists. split; [reflexivity|]. cbn. split; [exact He|]. split; [split; reflexivity|reflexivity].
Qed.

Definition all_zero (tr : list (event * Z)) : Prop := forall ev a, In (ev, a) tr -> a = 0.

Lemma all_zero_snoc tr ev : all_zero tr -> all_zero (tr ++ [(ev, 0)]).
Proof. intros H e a Hin. apply in_app_iff in Hin. destruct Hin as [Hin|[Hin|[]]]; [eauto|congruence]. Qed.

(** After some number of perfect cycles: idle, no patches. *)
Definition cycled (n : Z) (tr : list (event * Z)) (p : proc) : Prop :=
  clean_history w_F (fun _ => false) w_start tr p /\ all_zero tr /\
  s_err (p_lib p) = 0 /\ no_pending p /\ s_patches (p_lib p) = [] /\ replacements_made id3 tr = n.

(** A history in which everything was answered with success, and then a reversal
    that is answered with success but leaves libpulp in the error state. *)
Definition breaks : Prop :=
  exists tr p p', clean_history w_F (fun _ => false) w_start tr p /\ all_zero tr /\
    s_err (p_lib p) = 0 /\ no_pending p /\ do_event (rv 3 P3) p = Some (p', 0) /\ s_err (p_lib p') = EINSNQ.

Lemma made_ap3 : made_by id3 (ap 3 P3, 0) = 1.
Proof. vm_compute. reflexivity. Qed.
Lemma made_rv3 : made_by id3 (rv 3 P3, 0) = 0.
Proof. vm_compute. reflexivity. Qed.
Lemma made_ex : made_by id3 (ex, 0) = 0.
Proof. reflexivity. Qed.

Lemma ap3_ok : forall p, event_ok w_F (fun _ => false) p (ap 3 P3).
Proof. w_ok. Qed.
Lemma rv3_ok : forall p, event_ok w_F (fun _ => false) p (rv 3 P3).
Proof. w_ok. Qed.

Lemma one_cycle n tr p :
  cycled n tr p -> breaks \/ (24 * (n + 1) <= INSN_BUFFER_MAX /\ exists tr' p', cycled (n + 1) tr' p').
Proof.
  intros (H & Hz & He & Hn & Hps & Hm).
  assert (HL : looks_patchable (p_mem p) w_f = true).
  { destruct (clean_tied _ _ _ _ _ _ w_functions H (or_introl He)) as (rs & Ht).
    assert (rs = []) by (destruct Hn; eapply qinv_empty_iff; [apply Ht|split; lia]). subst rs.
    eapply entry_ok_looks. eapply (tied_entry _ _ _ _ Ht). left. reflexivity. }
  destruct (ap3_works p He Hn Hps HL) as (p1 & D1 & E1 & R1 & N1).
  pose proof (clean_step _ _ _ _ _ _ _ _ H (ap3_ok p) D1) as H1.
  destruct (ex_works _ _ _ _ _ _ w_functions H1 E1) as (p2 & D2 & E2 & Q2 & R2).
  pose proof (clean_step _ _ _ _ _ _ _ _ H1 (w_exec_ok p1) D2) as H2.
  assert (Z2 : all_zero ((tr ++ [(ap 3 P3, 0)]) ++ [(ex, 0)])) by (apply all_zero_snoc; apply all_zero_snoc; exact Hz).
  assert (M2 : replacements_made id3 ((tr ++ [(ap 3 P3, 0)]) ++ [(ex, 0)]) = n + 1)
    by (rewrite !made_snoc, made_ap3, made_ex; lia).
  set (tr2 := (tr ++ [(ap 3 P3, 0)]) ++ [(ex, 0)]) in *.
  assert (Hcr : ulp_can_revert_patch (p_lib p2) id3 = 0).
  { apply can_revert_iff. rewrite R2. fold (reported p1). rewrite R1. split; [left; reflexivity|].
    intros (a & Ha & Hd). exact (N1 a Ha Hd). }
  destruct (can_revert_success (p_mem p2) id3 (p_lib p2) Hcr) as (st3 & Hrv).
  set (p3 := mk_proc st3 (p_mem p2)).
  assert (D3 : do_event (rv 3 P3) p2 = Some (p3, 0)).
  { destruct rv3_request as (e & junk & buf & md & Ev & Hp & Ht & Hid). rewrite Ev.
    rewrite open_gate by assumption. unfold load_patch. rewrite Hp, Ht, Hid. cbn [Z.eqb Pos.eqb].
    rewrite Hcr. cbn [Z.eqb negb]. rewrite Hrv. reflexivity. }
  pose proof (clean_step _ _ _ _ _ _ _ _ H2 (rv3_ok p2) D3) as H3.
  pose proof (revert_patch_lists _ _ _ _ _ Hrv) as (_ & _ & _ & L3 & _). specialize (L3 eq_refl).
  apply revert_patch_writes in Hrv.
  2:{ eapply clean_roots_patchable; [exact w_functions|exact H2|exact E2|exact Q2]. }
  2:{ rewrite E2. discriminate. }
  cbn zeta in Hrv. rewrite (history_count id3 _ _ _ _ (clean_is_history _ _ _ _ _ H2) (or_introl E2)), M2 in Hrv.
  destruct Hrv as [(A & B & C)|(A & B)].
  2:{ left. exists tr2, p2, p3. auto 10. }
  right. rewrite E2 in A.
  destruct (clean_tied _ _ _ _ _ _ w_functions H3 (or_introl A)) as (rs3 & T3).
  pose proof (tied_size _ _ _ _ _ T3) as S3. cbn [p3 p_lib] in S3. destruct Q2 as [_ Q2]. rewrite Q2 in C.
  split; [lia|].
  destruct (ex_works _ _ _ _ _ _ w_functions H3 A) as (p4 & D4 & E4 & Q4 & R4).
  pose proof (clean_step _ _ _ _ _ _ _ _ H3 (w_exec_ok p3) D4) as H4.
  exists ((tr2 ++ [(rv 3 P3, 0)]) ++ [(ex, 0)]), p4.
  split; [exact H4|]. split; [apply all_zero_snoc; apply all_zero_snoc; exact Z2|].
  split; [exact E4|]. split; [exact Q4|]. split.
  - rewrite R4. cbn [p3 p_lib]. apply state_remove_some in L3. destruct L3 as (l1 & a & l2 & L1 & L2 & _).
    assert (LL : length (s_patches (p_lib p2)) = 1%nat).
    { rewrite R2. transitivity (length (reported p1)); [unfold reported; rewrite map_length; reflexivity|]. rewrite R1. reflexivity. }
    rewrite L1, app_length in LL. cbn [length] in LL. rewrite L2.
    destruct l1; [|cbn [length] in LL; lia]. destruct l2; [reflexivity|cbn [length] in LL; lia].
  - rewrite !made_snoc, M2, made_rv3, made_ex. lia.
Qed.

Lemma cycles n : breaks \/ exists tr p, cycled (Z.of_nat n) tr p.
Proof.
  induction n as [|n [IH|(tr & p & IH)]].
  - right. exists [], w_start. repeat split; try constructor. intros ev a [].
  - left. exact IH.
  - destruct (one_cycle _ _ _ IH) as [B|(_ & tr' & p' & C)]; [left; exact B|right].
    exists tr', p'. replace (Z.of_nat (S n)) with (Z.of_nat n + 1) by lia. exact C.
Qed.

(** C51 fails in the end. There is a history of nothing but successful operations,
    after which libpulp is idle and fine, and a reversal then is answered with
    success but leaves libpulp in an error state for good: whatever happens
    afterwards, every request is refused. *)
Theorem C51_cycles_break_refuted :
  exists F eb m stale tr p ev id p',
    functions_ok F eb m /\ clean_history F eb (fresh m stale) tr p /\
    (forall ev a, In (ev, a) tr -> a = 0) /\ s_err (p_lib p) = 0 /\ no_pending p /\
    revert_request ev id /\ do_event ev p = Some (p', 0) /\
    s_err (p_lib p') = EINSNQ /\
    forall tr' p'' ev' a', history p' tr' p'' -> In (ev', a') tr' -> is_request ev' -> a' = EINSNQ.
Proof.
  assert (G : breaks).
  { destruct (cycles (Z.to_nat 100000)) as [B|(tr & p & C)]; [exact B|].
    rewrite Z2Nat.id in C by lia. destruct (one_cycle _ _ _ C) as [B|(F & _)]; [exact B|].
    exfalso. unfold INSN_BUFFER_MAX in F. lia. }
  destruct G as (tr & p & p' & H & Hz & He & Hn & Hd & He').
  exists w_F, (fun _ => false), w_mem, (fun _ => 0), tr, p, (rv 3 P3), id3, p'.
  split; [exact w_functions|]. split; [exact H|]. split; [exact Hz|]. split; [exact He|]. split; [exact Hn|].
  split; [exact rv3_request|]. split; [exact Hd|]. split; [exact He'|].
  intros tr' p'' ev' a' Hh Hin Hr. rewrite <- He'.
  eapply (C07_error_state_is_final _ _ _ Hh); [rewrite He'; discriminate|rewrite He'; discriminate|exact Hin|exact Hr].
Qed.
Print Assumptions C51_cycles_break_refuted.

(** Three cycles of patch 3 in the example world: the fourth reversal queues four
    writes (where the first queued one). *)
Example C51_case :
  match run [ap 3 P3; ex; rv 3 P3; ex; ap 3 P3; ex; rv 3 P3; ex; ap 3 P3; ex; rv 3 P3; ex; ap 3 P3; ex; rv 3 P3] w_start with
  | Some (p, l) => l = repeat 0 15 /\ pending_writes p = 4 /\ pending_bytes p = 96 /\ s_err (p_lib p) = 0
  | None => False
  end.
Proof. vm_compute. auto. Qed.
