(** C103: on POWER, calls go to the newest applied livepatch. *)
From Coq Require Import String.
From Verif Require Import Base BaseFacts InsnQModel InsnQSpec InsnQProofs X86Model StrModel DlModel LibModel LibSpec
  LibProofs LibMem PpcModel PpcSpec PpcProofs PpcProps PrtModel PrtSpec PrtProofs.
From Verif Require LibInv.

(** After any history of requests, executions of the pending writes and program
    steps, unless the library has given up, and when no write is pending: execution
    from the patchable instruction of a function goes to the replacement in the
    newest livepatch that is applied and replaces it, and on into the function
    itself if there is none. What comes before that instruction (the TOC setup) is
    as it was when the process started. *)
Theorem C103_newest_patch_runs : forall T F off m stale tr p,
  0 <= T < 2 ^ 64 -> T mod 4 = 0 -> (forall x, is_byte (m x)) -> pfunctions_ok F off m ->
  phistory T F off (fresh m stale) tr p ->
  (s_err (p_lib p) = 0 \/ s_err (p_lib p) = EUSRBLOCKED) -> no_pending p ->
  forall f, In f F ->
    ppc_calls_go T (p_mem p) f (off f) (route (plog_of tr) f) /\
    (forall x, f <= x < f + off f -> p_mem p x = m x).
Proof. intros T F off m stale tr p HT HTa Hb HF Hh Ha Hn. eapply ppc_routing; eauto. Qed.
Print Assumptions C103_newest_patch_runs.

(** `ulp patches` shows the livepatches of that log, newest first, and the request
    "is this one applied" is answered accordingly. *)
Theorem C103_listed : forall T F off m stale tr p,
  (forall x, is_byte (m x)) -> pfunctions_ok F off m ->
  phistory T F off (fresh m stale) tr p ->
  (s_err (p_lib p) = 0 \/ s_err (p_lib p) = EUSRBLOCKED) ->
  map a_id (s_patches (p_lib p)) = map en_id (plog_of tr) /\
  (s_err (p_lib p) = 0 -> forall id,
     ulp_check_applied_patch (p_lib p) id = 1 <-> In id (map en_id (plog_of tr))).
Proof.
  intros T F off m stale tr p Hb HF Hh Ha.
  destruct (history_pinv T F off m HF stale tr p Hb Hh Ha) as [[C1 _] _ _ _].
  apply LibInv.pcorr_ids in C1. split; [exact C1|]. intros E0 id. unfold ulp_check_applied_patch, ENONE. rewrite E0. cbn [negb Z.eqb].
  rewrite <- C1, <- get_applied_iff. destruct (ulp_get_applied_patch (p_lib p) id); cbn; split; congruence.
Qed.
Print Assumptions C103_listed.

(** The tables are those of lib/ulp.c on x86-64 as well: with the redirection routine
    of that machine the functions of the model above are those of LibModel. *)
Theorem C103_same_tables : forall m,
  (forall e libname h id us st,
     apply_pairs (ulp_patch_addr m) id
       (map (fun u => (get_loaded_symbol_addr (e_prog e) (e_libs2 e) libname (MetaModel.u_old u) (MetaModel.u_addr u),
                       e_dlsym e h (MetaModel.u_new u))) us) st =
     apply_units e m libname h id us st) /\
  (forall id st, revert_patch_by (ulp_patch_addr m) id st = ulp_revert_patch m id st).
Proof.
  intros m. split.
  - intros e libname h id us. induction us as [|u us IH]; intros st; [reflexivity|].
    cbn [map apply_pairs apply_units]. destruct (_ =? 0); [reflexivity|]. destruct (_ =? 0); [reflexivity|].
    destruct (ulp_patch_addr m _ _ _ _) as [qe rc]. destruct (rc >? 0); [reflexivity|]. apply IH.
  - assert (D : forall a id todo pre qe, revert_detours_by (ulp_patch_addr m) a id pre todo qe = revert_detours m a id pre todo qe).
    { intros a id todo. induction todo as [|d t IH]; intros pre qe; [reflexivity|].
      cbn [revert_detours_by revert_detours]. destruct (bytes_eqb (d_pid d) id); rewrite IH; reflexivity. }
    assert (R : forall id roots qe, revert_roots_by (ulp_patch_addr m) id roots qe = revert_roots m id roots qe).
    { intros id roots. induction roots as [|r t IH]; intros qe; [reflexivity|].
      cbn [revert_roots_by revert_roots]. rewrite D. destruct (revert_detours _ _ _ _ _ _) as [ds qe1]. rewrite IH. reflexivity. }
    intros id st. unfold revert_patch_by, ulp_revert_patch. rewrite R. reflexivity.
Qed.
Print Assumptions C103_same_tables.

(** Memory after one installation. *)
Lemma installed T m f off g q m1 stale :
  ppc_livepatchable m f off -> 52 <= f -> f + off + 4 < 2 ^ 64 ->
  ppc_patch_addr T m (empty_queue stale, 0) f g true = ((q, 0), 0) ->
  insnq_interpret_from_process env_ok true q (mk_tgt m []) = Some (0, insnq_reset q, mk_tgt m1 []) ->
  m1 = patched T true f off g m /\ ppc_livepatchable m1 f off.
Proof.
  intros HL Hf1 Hf2 E1 I1.
  assert (Ho : off = 0 \/ off = 8) by (destruct HL as [_ [[-> _]|[-> _]]]; auto).
  assert (He : 0 <> EINSNQ) by discriminate.
  destruct (ppc_patch_effect _ _ _ _ _ _ _ _ _ _ _ _ HL Hf1 Hf2 (qinv_empty stale) (Forall_nil _) He E1 He) as (_ & _ & rs1 & Q1 & Q2 & Q3).
  assert (M1 : m1 = mem_of rs1 m).
  { pose proof (interpret_exact env_ok q rs1 (mk_tgt m []) Q1) as X. rewrite I1 in X.
    specialize (X eq_refl eq_refl eq_refl (fun _ => eq_refl)). injection X as X. apply (f_equal t_mem) in X. cbn [t_mem] in X.
    rewrite perform_all_mem in X. exact X. }
  destruct HL as [Hb HL].
  assert (Hb1 : forall x, is_byte (m1 x)) by (rewrite M1; apply mem_of_bytes; auto).
  rewrite Q3 in M1. cbn [mem_of fold_left] in M1. split; [exact M1|]. split; [exact Hb1|].
  assert (La : forall g, zlen (area T g) = 52) by reflexivity.
  assert (Lb : forall w, zlen (le_enc 4 w) = 4) by reflexivity.
  assert (S1 : slot_ok m1 f off).
  { right. rewrite M1. unfold patched, word_at. set (br := le_enc 4 _). change 4%nat with (List.length br).
    rewrite mem_read_write_same. apply le_dec_enc_id. apply branch_word_range. }
  destruct HL as [[-> _]|(-> & N & _)]; [left; auto|right]. split; auto. split; auto. intros X. apply N.
  unfold slot_ok in *. replace (word_at m (f + 0)) with (word_at m1 (f + 0)); [exact X|].
  apply word_at_ext. intros x Hx. rewrite M1. unfold patched. rewrite !mem_write_out by (rewrite ?La, ?Lb; lia). reflexivity.
Qed.

(** Going from one replacement to another rewrites nothing but the eight bytes that
    hold the replacement's address: a thread that was stopped anywhere in the
    redirection code carries on in the same instructions. *)
Theorem C103_switch_changes_only_target : forall T m f off g1 g2 q1 m1 q2 m2 stale1 stale2,
  ppc_livepatchable m f off -> 52 <= f -> f + off + 4 < 2 ^ 64 ->
  ppc_patch_addr T m (empty_queue stale1, 0) f g1 true = ((q1, 0), 0) ->
  insnq_interpret_from_process env_ok true q1 (mk_tgt m []) = Some (0, insnq_reset q1, mk_tgt m1 []) ->
  ppc_patch_addr T m1 (empty_queue stale2, 0) f g2 true = ((q2, 0), 0) ->
  insnq_interpret_from_process env_ok true q2 (mk_tgt m1 []) = Some (0, insnq_reset q2, mk_tgt m2 []) ->
  (forall x, ~ (f - 8 <= x < f) -> m2 x = m1 x) /\ mem_read m2 (f - 8) 8 = le_enc 8 g2.
Proof.
  intros T m f off g1 g2 q1 m1 q2 m2 stale1 stale2 HL Hf1 Hf2 E1 I1 E2 I2.
  assert (Ho : off = 0 \/ off = 8) by (destruct HL as [_ [[-> _]|[-> _]]]; auto).
  destruct (installed _ _ _ _ _ _ _ _ HL Hf1 Hf2 E1 I1) as [M1 HL1].
  destruct (installed _ _ _ _ _ _ _ _ HL1 Hf1 Hf2 E2 I2) as [M2 _].
  assert (La : forall g, zlen (area T g) = 52) by reflexivity.
  assert (Lb : forall w, zlen (le_enc 4 w) = 4) by reflexivity.
  set (W := concat (map (le_enc 4) (ulp_prologue_words T))) in *.
  assert (LW : zlen W = 44) by reflexivity.
  split.
  - intros x Hx. rewrite M2. unfold patched.
    assert (C : f + off <= x < f + off + 4 \/ ~ (f + off <= x < f + off + 4)) by lia.
    destruct C as [C|C].
    + rewrite M1. unfold patched. rewrite !mem_write_in by (rewrite Lb; lia). reflexivity.
    + rewrite mem_write_out by (rewrite Lb; lia).
      assert (C2 : f - 52 <= x < f - 8 \/ ~ (f - 52 <= x < f)) by lia. destruct C2 as [C2|C2].
      2:{ rewrite mem_write_out by (rewrite La; lia). reflexivity. }
      rewrite M1. unfold patched. rewrite (mem_write_out _ (f + off)) by (rewrite Lb; lia).
      unfold area. fold W. rewrite !mem_write_app, LW.
      rewrite !(mem_write_out _ (f - 52 + 44)) by (change (zlen (le_enc 8 g1)) with 8; change (zlen (le_enc 8 g2)) with 8; lia).
      rewrite !mem_write_in by lia. reflexivity.
  - rewrite M2. unfold patched. rewrite mem_read_write_out by (rewrite Lb; change (Z.of_nat 8) with 8; lia).
    assert (HP : mem_read (mem_write m1 (f - 52) (area T g2)) (f - 52) 52 = area T g2).
    { change 52%nat with (List.length (area T g2)). apply mem_read_write_same. }
    apply (tail_at _ (f - 52) (ulp_prologue_words T) (le_enc 8 g2)) in HP. change (4 * zlen (ulp_prologue_words T)) with 44 in HP.
    replace (f - 8) with (f - 52 + 44) by lia. exact HP.
Qed.
Print Assumptions C103_switch_changes_only_target.

(** ** What is answered *)

(** A request that is refused while libpulp stays in use changes nothing, and once
    libpulp is out of use, or blocked by the user, every request is refused with the
    reason. *)
Theorem C103_refused_changes_nothing : forall T ev p p' ans,
  (exists busy id lib deps pairs, ev = PApply busy id lib deps pairs) \/ (exists busy id, ev = PRevert busy id) ->
  do_pevent T ev p = Some (p', ans) ->
  (ans <> 0 -> (s_err (p_lib p') = 0 \/ s_err (p_lib p') = EUSRBLOCKED) -> p' = p) /\
  (s_err (p_lib p) <> 0 -> ans = s_err (p_lib p) /\ p' = p).
Proof.
  intros T ev [st m] p' ans Hev H.
  assert (G : forall busy load st' a, ppc_request busy load st = (st', a) ->
    (load st = (st', a) -> a <> 0 -> s_err st' = 0 \/ s_err st' = EUSRBLOCKED -> st' = st) ->
    (a <> 0 -> s_err st' = 0 \/ s_err st' = EUSRBLOCKED -> st' = st) /\ (s_err st <> 0 -> a = s_err st /\ st' = st)).
  { intros busy load st' a E Hload. split.
    - intros Ha Hal. apply request_outcome in E. destruct E as [E|(_ & _ & E)]; [eapply gate_alive; eauto|auto].
    - intros He. unfold ppc_request, ENONE in E. destruct (Z.eqb_spec (s_err st) 0); [contradiction|]. injection E as <- <-. auto. }
  destruct Hev as [(busy & id & lib & deps & pairs & ->)|(busy & id & ->)]; cbn [do_pevent p_lib p_mem] in H;
    destruct (ppc_request _ _ _) as [st' a] eqn:E; injection H as <- <-; cbn [p_lib].
  - destruct (G _ _ _ _ E) as [G1 G2].
    + unfold ppc_load_apply. cbv zeta. destruct (_ =? 0) eqn:Ed; cbn [negb]; [|intros X; injection X as <- <-; auto].
      destruct (ulp_get_applied_patch st id); [intros X; injection X as <- <-; auto|].
      destruct (existsb _ pairs); [intros X; injection X as <- <-; auto|].
      destruct (apply_pairs _ _ _ _) as [st2 ret]. destruct (negb (ret =? 0)); intros X; injection X as <- <-.
      * intros _ [Y|Y]; cbn in Y; discriminate Y.
      * intros Y. contradiction.
    + split; intros; [rewrite G1; auto|destruct G2 as [-> ->]; auto].
  - destruct (G _ _ _ _ E) as [G1 G2].
    + unfold ppc_load_revert. cbv zeta. destruct (Z.eqb_spec (ulp_can_revert_patch st id) 0) as [Ec|Ec]; cbn [negb];
        [|intros X; injection X as <- <-; auto].
      intros X Ha _. exfalso. apply revert_by_lists in X. destruct X as (_ & _ & X3). destruct (X3 Ha) as [_ X].
      apply state_remove_none in X. apply can_revert_iff in Ec. apply X. apply Ec.
    + split; intros; [rewrite G1; auto|destruct G2 as [-> ->]; auto].
Qed.
Print Assumptions C103_refused_changes_nothing.

Lemma ppc_patch_room T m f off g q err : ppc_livepatchable m f off ->
  exists q' err', ppc_patch_addr T m (q, err) f g true = ((q', err'), 0) /\
    (q_size q + 96 <= INSN_BUFFER_MAX -> err' = err) /\ (err' <> EINSNQ -> q_size q' = q_size q + 96 /\ q_size q' <= INSN_BUFFER_MAX).
Proof.
  intros HL. rewrite ppc_patch_eq, (get_branch_offset_ok _ _ _ HL).
  assert (S1 : req_size (ppc_area_req T f g) = 72) by reflexivity.
  assert (S2 : req_size (ppc_branch_req f off) = 24) by reflexivity.
  rewrite submit_unfold. destruct (try_insert q (ppc_area_req T f g)) as [q1|] eqn:E1.
  - pose proof (try_insert_size _ _ _ E1) as [Z1 _]. rewrite S1 in Z1.
    rewrite submit_unfold. destruct (try_insert q1 (ppc_branch_req f off)) as [q2|] eqn:E2.
    + pose proof (try_insert_size _ _ _ E2) as [Z2 _]. rewrite S2 in Z2.
      pose proof (proj2 (try_insert_fits q1 (ppc_branch_req f off)) (ex_intro _ q2 E2)) as B. rewrite S2 in B.
      exists q2, err. split; [reflexivity|]. split; [reflexivity|]. intros _. lia.
    + exists q1, EINSNQ. split; [reflexivity|]. split; [|congruence]. intros X. exfalso.
      destruct (proj1 (try_insert_fits q1 (ppc_branch_req f off))) as [q2 E3]; [rewrite S2; lia|congruence].
  - rewrite submit_unfold. destruct (try_insert q (ppc_branch_req f off)) as [q2|] eqn:E2; eexists _, _; (split; [reflexivity|]);
      (split; [|congruence]); intros X; exfalso;
      (destruct (proj1 (try_insert_fits q (ppc_area_req T f g))) as [q3 E3]; [rewrite S1; lia|congruence]).
Qed.

Lemma apply_pairs_room T m F off id ps st st' ret :
  (forall f, In f F -> f <> 0 /\ ppc_livepatchable m f (off f)) ->
  (forall f g, In (f, g) ps -> In f F /\ g <> 0) ->
  apply_pairs (ppc_patch_addr T m) id ps st = (st', ret) ->
  ret = 0 /\ (q_size (s_q st) + 96 * zlen ps <= INSN_BUFFER_MAX -> s_err st' = s_err st) /\
  (s_err st' <> EINSNQ -> ps <> [] -> q_size (s_q st) + 96 * zlen ps <= INSN_BUFFER_MAX).
Proof.
  intros Hm. revert st; induction ps as [|[old new] us IH]; intros st Hp H.
  - cbn in H. injection H as <- <-. repeat split; auto. congruence.
  - rewrite apply_pairs_step in H. destruct (Hp old new (or_introl eq_refl)) as [P1 P2]. destruct (Hm old P1) as [P3 P4].
    destruct (Z.eqb_spec old 0); [contradiction|]. destruct (Z.eqb_spec new 0); [contradiction|].
    cbv zeta in H. destruct (record_unit_fields st id old new) as (F1 & F2 & F3 & F4). rewrite F3, F4 in H.
    destruct (ppc_patch_room T m old (off old) new (s_q st) (s_err st) P4) as (q1 & e1 & E1 & R1 & R2).
    rewrite E1 in H. change (0 >? 0) with false in H. cbv iota in H.
    pose proof (zlen_nonneg us) as Hz. rewrite zlen_cons.
    assert (Dead : e1 = EINSNQ -> s_err st' = EINSNQ).
    { intros ->. eapply apply_pairs_dead; [exact H|reflexivity]. }
    apply IH in H; [|intros f g Hfg; apply Hp; right; exact Hfg].
    cbn [set_qe s_q s_err fst snd] in H. destruct H as (H1 & H2 & H3). split; [exact H1|]. split.
    + intros X. assert (Y : e1 = s_err st) by (apply R1; lia).
      destruct (Z.eq_dec e1 EINSNQ) as [Ed|Ed]; [rewrite (Dead Ed); congruence|].
      destruct (R2 Ed) as [Z1 Z2]. rewrite H2; [exact Y|lia].
    + intros X _. assert (Ed : e1 <> EINSNQ) by (intros Y; apply X, Dead, Y).
      destruct (R2 Ed) as [Z1 Z2]. destruct us as [|u us]; [change (zlen (@nil (Z * Z))) with 0; lia|].
      assert (N : u :: us <> []) by discriminate. specialize (H3 X N). lia.
Qed.

(** When an application succeeds, exactly: when livepatching is not blocked, no other
    write is pending and no lock is in the way, a livepatch is applied, and libpulp stays
    in use, if and only if its dependencies are applied, it is not, its replacements
    exist and there is room for its writes in the queue (96 bytes a function of
    2 MiB). *)
Theorem C103_apply_answered : forall T F off m stale tr p id lib deps pairs p' ans,
  (forall x, is_byte (m x)) -> pfunctions_ok F off m ->
  phistory T F off (fresh m stale) tr p -> s_err (p_lib p) = 0 -> no_pending p ->
  pairs <> [] -> (forall f g, In (f, g) pairs -> In f F) ->
  do_pevent T (PApply false id lib deps pairs) p = Some (p', ans) ->
  (ans = 0 /\ s_err (p_lib p') = 0 <->
   (forall d, In d deps -> In d (map en_id (plog_of tr))) /\ ~ In id (map en_id (plog_of tr)) /\
   (forall f g, In (f, g) pairs -> g <> 0) /\ 96 * zlen pairs <= 2 * 1024 * 1024).
Proof.
  intros T F off m stale tr p id lib deps pairs p' ans Hb HF Hh He [Hn1 Hn2] Hne Hp H.
  assert (Hal : LibInv.alive (p_lib p)) by (left; exact He).
  pose proof (history_pinv T F off m HF stale tr p Hb Hh Hal) as HI.
  assert (Hq : LibInv.q_empty (s_q (p_lib p))) by (split; lia).
  destruct (pinv_quiet T F off m HF p _ HI Hq) as [_ Hm].
  destruct (pi_corr _ _ _ _ _ _ HI) as [C1 _]. apply LibInv.pcorr_ids in C1. rewrite <- C1. clear C1.
  cbn [do_pevent] in H. unfold ppc_request, ENONE in H. rewrite He in H. cbn [negb Z.eqb] in H.
  destruct (LibInv.ensure_emptiness_cases (s_q (p_lib p)) 0) as [[_ X]|[X _]]; [contradiction|]. rewrite X in H.
  cbn [negb Z.eqb] in H. rewrite <- He, LibInv.set_err_id in H. unfold ppc_load_apply in H. cbv zeta in H.
  pose proof (check_deps_iff (p_lib p) deps) as D. rewrite Forall_forall in D.
  destruct (Z.eqb_spec (check_patch_dependencies (p_lib p) deps) 0) as [Ed|Ed]; cbn [negb] in H.
  2:{ injection H as <- <-. split; [intros [Y _]; contradiction|]. intros (Y & _). exfalso. apply Ed, D. exact Y. }
  pose proof (get_applied_iff (p_lib p) id) as A. destruct (ulp_get_applied_patch (p_lib p) id).
  { injection H as <- <-. split; [intros [Y _]; discriminate Y|]. intros (_ & Y & _). exfalso. apply Y, A. reflexivity. }
  assert (HF0 : forall f, In f F -> f <> 0 /\ ppc_livepatchable (p_mem p) f (off f)).
  { intros f Hf. destruct (po_addr _ _ _ HF f Hf). split; [lia|]. apply Hm. exact Hf. }
  destruct (existsb (fun p0 : Z * Z => (fst p0 =? 0) || (snd p0 =? 0)) pairs) eqn:Ex.
  { injection H as <- <-. split; [intros [Y _]; discriminate Y|]. intros (_ & _ & Y & _). exfalso.
    apply existsb_exists in Ex. destruct Ex as ([f g] & E1 & E2). cbn [fst snd] in E2.
    destruct (HF0 f (Hp f g E1)). specialize (Y f g E1). lia. }
  assert (Hg : forall f g, In (f, g) pairs -> In f F /\ g <> 0).
  { intros f g Hfg. split; [eapply Hp; eauto|]. intros ->. 
    assert (Y : existsb (fun p0 : Z * Z => (fst p0 =? 0) || (snd p0 =? 0)) pairs = true).
    { apply existsb_exists. exists (f, 0). split; [exact Hfg|]. cbn [fst snd]. rewrite orb_true_r. reflexivity. }
    congruence. }
  destruct (apply_pairs _ _ _ _) as [st2 ret] eqn:E2.
  destruct (apply_pairs_room T (p_mem p) F off _ _ _ _ _ HF0 Hg E2) as (-> & R1 & R2).
  cbn [negb Z.eqb] in H. injection H as <- <-. cbn [p_lib next_universe set_patches s_q s_err] in *.
  rewrite Hn2, He in *. change INSN_BUFFER_MAX with (2 * 1024 * 1024) in *. split.
  - intros [_ Y]. split; [apply D; exact Ed|]. split; [intros Z1; apply A in Z1; discriminate Z1|].
    split; [intros f g Hfg; apply (Hg f g Hfg)|]. rewrite Y in R2. specialize (R2 ltac:(discriminate) Hne). lia.
  - intros (_ & _ & _ & Y). split; [reflexivity|]. apply R1. lia.
Qed.
Print Assumptions C103_apply_answered.

(** A reversal is answered with 0 exactly if the livepatch is applied and no applied
    one depends on it. *)
Theorem C103_revert_answered : forall T F off m stale tr p id p' ans,
  (forall x, is_byte (m x)) -> pfunctions_ok F off m ->
  phistory T F off (fresh m stale) tr p -> s_err (p_lib p) = 0 -> no_pending p ->
  do_pevent T (PRevert false id) p = Some (p', ans) ->
  (ans = 0 <-> In id (map en_id (plog_of tr)) /\ ~ exists en, In en (plog_of tr) /\ In id (en_deps en)).
Proof.
  intros T F off m stale tr p id p' ans Hb HF Hh He [Hn1 Hn2] H.
  assert (Hal : LibInv.alive (p_lib p)) by (left; exact He).
  pose proof (history_pinv T F off m HF stale tr p Hb Hh Hal) as HI.
  assert (Hq : LibInv.q_empty (s_q (p_lib p))) by (split; lia).
  destruct (pi_corr _ _ _ _ _ _ HI) as [C1 _].
  assert (D : depended (s_patches (p_lib p)) id <-> exists en, In en (plog_of tr) /\ In id (en_deps en)).
  { clear - C1. unfold depended. induction C1 as [|a en ps L (E1 & E2 & E3 & E4) C IH].
    - split; intros (x & [] & _).
    - split.
      + intros (x & [<-|Hx] & Hd).
        * exists en. split; [left; reflexivity|]. rewrite E3 in Hd. apply in_rev. exact Hd.
        * destruct IH as [IH _]. destruct IH as (y & Y1 & Y2); [exists x; auto|]. exists y. split; [right; exact Y1|exact Y2].
      + intros (x & [<-|Hx] & Hd).
        * exists a. split; [left; reflexivity|]. rewrite E3. apply in_rev. rewrite rev_involutive. exact Hd.
        * destruct IH as [_ IH]. destruct IH as (y & Y1 & Y2); [exists x; auto|]. exists y. split; [right; exact Y1|exact Y2]. }
  apply LibInv.pcorr_ids in C1. rewrite <- C1, <- D, <- can_revert_iff. clear C1 D.
  cbn [do_pevent] in H. unfold ppc_request, ENONE in H. rewrite He in H. cbn [negb Z.eqb] in H.
  destruct (LibInv.ensure_emptiness_cases (s_q (p_lib p)) 0) as [[_ X]|[X _]]; [contradiction|]. rewrite X in H.
  cbn [negb Z.eqb] in H. rewrite <- He, LibInv.set_err_id in H. unfold ppc_load_revert in H. cbv zeta in H.
  destruct (Z.eqb_spec (ulp_can_revert_patch (p_lib p) id) 0) as [Ec|Ec]; cbn [negb] in H.
  - destruct (revert_patch_by _ _ _) as [st a] eqn:Er. injection H as <- <-.
    apply revert_by_lists in Er. destruct Er as (_ & _ & Er).
    split; [intros _; exact Ec|]. intros _. destruct (Z.eq_dec a 0) as [|Ha]; [assumption|]. exfalso.
    destruct (Er Ha) as [_ Y]. apply state_remove_none in Y. apply can_revert_iff in Ec. apply Y. apply Ec.
  - injection H as <- <-. reflexivity.
Qed.
Print Assumptions C103_revert_answered.

(** ** Cases *)
(** The functions of [ppc_ex] at 4096 and (with TOC setup) 8192. *)
Definition prt_off (f : Z) : Z := if f =? 8192 then 8 else 0.
Definition prt_F : list Z := [4096; 8192].
Definition prt_T : Z := 18374403900871474944.
Definition prt_events : list pevent :=
  [PApply false (zs "a") (zs "libx.so") [] [(4096, 65536); (8192, 65600)]; PExec env_ok;
   PApply false (zs "b") (zs "libx.so") [] [(8192, 65700)]; PExec env_ok;
   PApply false (zs "c") (zs "libx.so") [zs "b"] [(8192, 65800)]; PExec env_ok;
   PRevert false (zs "a"); PExec env_ok; PRevert false (zs "c"); PExec env_ok].

Fixpoint prun (T : Z) (evs : list pevent) (p : proc) : option (list (pevent * Z) * proc) :=
  match evs with
  | [] => Some ([], p)
  | ev :: t => match do_pevent T ev p with
               | None => None
               | Some (p1, ans) => match prun T t p1 with
                                   | None => None
                                   | Some (tr, p') => Some ((ev, ans) :: tr, p')
                                   end
               end
  end.

Lemma prun_history T F off p0 tr0 evs p tr p' :
  phistory T F off p0 tr0 p -> Forall (fun ev => forall p, pevent_ok F off p ev) evs ->
  prun T evs p = Some (tr, p') -> phistory T F off p0 (tr0 ++ tr) p'.
Proof.
  intros H Hf. revert tr0 p tr H. induction Hf as [|ev evs He _ IH]; intros tr0 p tr H E.
  - cbn in E. injection E as <- <-. rewrite app_nil_r. exact H.
  - cbn [prun] in E. destruct (do_pevent T ev p) as [[p1 ans]|] eqn:E1; [|discriminate E].
    destruct (prun T evs p1) as [[tr1 p2]|] eqn:E2; [|discriminate E]. injection E as <- <-.
    replace (tr0 ++ (ev, ans) :: tr1) with ((tr0 ++ [(ev, ans)]) ++ tr1) by (rewrite <- app_assoc; reflexivity).
    eapply IH; [|exact E2]. eapply ph_step; eauto.
Qed.

Definition prt_run : option (list (pevent * Z) * proc) := prun prt_T prt_events (fresh ppc_ex (fun _ => 0)).
Definition prt_answers (r : option (list (pevent * Z) * proc)) : option (list Z * list (option Z) * (Z * Z * Z)) :=
  match r with
  | None => None
  | Some (tr, p) => Some (map snd tr, map (route (plog_of tr)) prt_F,
                          (s_err (p_lib p), q_num (s_q (p_lib p)), q_size (s_q (p_lib p))))
  end.
Lemma prt_answers_are : prt_answers prt_run = Some (repeat 0 10, [None; Some 65700], (0, 0, 0)).
Proof. vm_compute. reflexivity. Qed.

Lemma prt_answers_inv r l a b : prt_answers r = Some (l, [a; b], (0, 0, 0)) ->
  exists tr p, r = Some (tr, p) /\ map snd tr = l /\ s_err (p_lib p) = 0 /\ no_pending p /\
    route (plog_of tr) 4096 = a /\ route (plog_of tr) 8192 = b.
Proof.
  destruct r as [[tr p]|]; [|intros H; discriminate H]. intros H. injection H as A1 A2 A3 A4 A5 A6.
  exists tr, p. repeat split; assumption.
Qed.

Lemma prt_events_ok : Forall (fun ev => forall p, pevent_ok prt_F prt_off p ev) prt_events.
Proof.
  assert (A : forall busy id lib deps f g, In f prt_F -> 0 <= g < 2 ^ 64 ->
              forall p, pevent_ok prt_F prt_off p (PApply busy id lib deps [(f, g)])).
  { intros busy id lib deps f g Hf Hg p f' g' [H|[]]. injection H as <- <-. auto. }
  assert (E : forall p, pevent_ok prt_F prt_off p (PExec env_ok)) by (intros p i; reflexivity).
  assert (R : forall id p, pevent_ok prt_F prt_off p (PRevert false id)) by (intros id p; exact I).
  unfold prt_events. apply Forall_cons.
  { intros p f g [H|[H|[]]]; injection H as <- <-; split; try lia; cbn; tauto. }
  apply Forall_cons; [exact E|]. apply Forall_cons; [apply A; [cbn; tauto|lia]|].
  apply Forall_cons; [exact E|]. apply Forall_cons; [apply A; [cbn; tauto|lia]|].
  apply Forall_cons; [exact E|]. apply Forall_cons; [apply R|].
  apply Forall_cons; [exact E|]. apply Forall_cons; [apply R|].
  apply Forall_cons; [exact E|]. apply Forall_nil.
Qed.

Lemma prt_history tr p : prt_run = Some (tr, p) -> phistory prt_T prt_F prt_off (fresh ppc_ex (fun _ => 0)) tr p.
Proof.
  unfold prt_run. generalize (fresh ppc_ex (fun _ => 0)) as p0. intros p0 E.
  exact (prun_history prt_T prt_F prt_off p0 [] prt_events p0 tr p (ph_start _ _ _ _) prt_events_ok E).
Qed.

Lemma prt_functions : pfunctions_ok prt_F prt_off ppc_ex.
Proof.
  destruct C27_case as (C1 & C2 & _). split.
  - intros f [<-|[<-|[]]]; unfold prt_off; cbn [Z.eqb Pos.eqb]; lia.
  - intros f [<-|[<-|[]]]; [exact C1|exact C2].
  - intros f [<-|[<-|[]]]; vm_compute; reflexivity.
  - intros f g x [<-|[<-|[]]] [<-|[<-|[]]]; unfold pguard, prt_off; cbn [Z.eqb Pos.eqb]; intros; try reflexivity; lia.
Qed.

Lemma prt_go tr p f o t : phistory prt_T prt_F prt_off (fresh ppc_ex (fun _ => 0)) tr p ->
  s_err (p_lib p) = 0 -> no_pending p -> In f prt_F -> prt_off f = o -> route (plog_of tr) f = t ->
  ppc_calls_go prt_T (p_mem p) f o t.
Proof.
  intros H He Hn Hf <- <-.
  refine (proj1 (C103_newest_patch_runs prt_T prt_F prt_off ppc_ex (fun _ => 0) tr p _ _ ppc_ex_bytes prt_functions H (or_introl He) Hn f Hf)).
  - unfold prt_T. lia.
  - reflexivity.
Qed.

Example C103_case :
  pfunctions_ok prt_F prt_off ppc_ex /\
  exists tr p, phistory prt_T prt_F prt_off (fresh ppc_ex (fun _ => 0)) tr p /\
    map snd tr = repeat 0 10 /\ s_err (p_lib p) = 0 /\ no_pending p /\
    route (plog_of tr) 4096 = None /\ route (plog_of tr) 8192 = Some 65700 /\
    ppc_calls_go prt_T (p_mem p) 8192 8 (Some 65700) /\ ppc_calls_go prt_T (p_mem p) 4096 0 None.
Proof.
  split; [exact prt_functions|].
  destruct (prt_answers_inv _ _ _ _ prt_answers_are) as (tr & p & E & A1 & A2 & A3 & A4 & A5).
  pose proof (prt_history tr p E) as H. exists tr, p. do 6 (split; [assumption|]). split.
  - apply (prt_go tr p); auto. right. left. reflexivity.
  - apply (prt_go tr p); auto. left. reflexivity.
Qed.

(** Two installations in a row can always be carried out; here on the function with
    TOC setup. *)
Example C103_switch_case :
  exists q1 m1 q2 m2,
    ppc_patch_addr prt_T ppc_ex (empty_queue (fun _ => 0), 0) 8192 65536 true = ((q1, 0), 0) /\
    insnq_interpret_from_process env_ok true q1 (mk_tgt ppc_ex []) = Some (0, insnq_reset q1, mk_tgt m1 []) /\
    ppc_patch_addr prt_T m1 (empty_queue (fun _ => 1), 0) 8192 65600 true = ((q2, 0), 0) /\
    insnq_interpret_from_process env_ok true q2 (mk_tgt m1 []) = Some (0, insnq_reset q2, mk_tgt m2 []).
Proof.
  assert (HT : 0 <= prt_T < 2 ^ 64) by (unfold prt_T; lia).
  destruct C27_case as (_ & C2 & _).
  destruct (C27_redirection_exact prt_T ppc_ex 8192 8 65536 (fun _ => 0) HT eq_refl ltac:(lia) ltac:(lia) ltac:(lia) C2)
    as (q1 & m1 & A1 & A2 & _).
  destruct (installed _ _ _ _ _ _ _ _ C2 ltac:(lia) ltac:(lia) A1 A2) as [_ C3].
  destruct (C27_redirection_exact prt_T m1 8192 8 65600 (fun _ => 1) HT eq_refl ltac:(lia) ltac:(lia) ltac:(lia) C3)
    as (q2 & m2 & B1 & B2 & _).
  exists q1, m1, q2, m2. auto.
Qed.

(** After the history above: a livepatch that depends on "b" is applied, "b" itself is
    not applied again, and can be reverted. *)
Example C103_answers_case :
  exists tr p, phistory prt_T prt_F prt_off (fresh ppc_ex (fun _ => 0)) tr p /\ s_err (p_lib p) = 0 /\ no_pending p /\
    (exists p', do_pevent prt_T (PApply false (zs "d") (zs "libx.so") [zs "b"] [(4096, 65900)]) p = Some (p', 0) /\ s_err (p_lib p') = 0) /\
    (exists ans, do_pevent prt_T (PApply false (zs "b") (zs "libx.so") [] [(4096, 65900)]) p = Some (p, ans) /\ ans <> 0) /\
    (exists p', do_pevent prt_T (PRevert false (zs "b")) p = Some (p', 0)).
Proof.
  destruct (prt_answers_inv _ _ _ _ prt_answers_are) as (tr & p & E & A1 & A2 & A3 & _ & _).
  pose proof (prt_history tr p E) as H. exists tr, p. do 3 (split; [assumption|]).
  assert (L : map en_id (plog_of tr) = [zs "b"] /\ map en_deps (plog_of tr) = [[]]).
  { assert (T1 : map fst tr = prt_events).
    { clear - E. revert E. unfold prt_run. generalize prt_events as evs. generalize (fresh ppc_ex (fun _ => 0)) as p0.
      intros p0 evs. revert p0 tr. induction evs as [|ev evs IH]; intros p0 tr E; cbn [prun] in E.
      - injection E as <- _. reflexivity.
      - destruct (do_pevent prt_T ev p0) as [[p1 a]|]; [|discriminate E]. destruct (prun prt_T evs p1) as [[tr1 p2]|] eqn:E1; [|discriminate E].
        injection E as <- <-. cbn [map fst]. f_equal. eapply IH. exact E1. }
    assert (T2 : tr = combine prt_events (repeat 0 10)).
    { rewrite <- T1, <- A1. clear. induction tr as [|[a b] tr IH]; [reflexivity|]. cbn. f_equal. exact IH. }
    rewrite T2. vm_compute. split; reflexivity. }
  destruct L as [L1 L2].
  assert (Hap : forall id deps, exists p' ans, do_pevent prt_T (PApply false id (zs "libx.so") deps [(4096, 65900)]) p = Some (p', ans)).
  { intros id deps. cbn [do_pevent]. destruct (ppc_request _ _ _) as [s a]. eauto. }
  assert (Hpr : forall f g, In (f, g) [(4096, 65900)] -> In f prt_F).
  { intros f g [X|[]]. injection X as <- <-. left. reflexivity. }
  assert (Hn : [(4096, 65900)] <> []) by discriminate.
  split; [|split].
  - destruct (Hap (zs "d") [zs "b"]) as (p' & ans & Ha).
    pose proof (C103_apply_answered prt_T prt_F prt_off ppc_ex _ tr p _ _ _ _ p' ans ppc_ex_bytes prt_functions H A2 A3 Hn Hpr Ha) as G.
    rewrite L1 in G. destruct G as [_ G]. destruct G as [-> G]; [|eauto].
    split; [intros d [<-|[]]; left; reflexivity|]. split; [intros [X|[]]; discriminate X|].
    split; [intros f g [X|[]]; injection X as <- <-; lia|]. unfold zlen. cbn. lia.
  - destruct (Hap (zs "b") []) as (p' & ans & Ha).
    pose proof (C103_apply_answered prt_T prt_F prt_off ppc_ex _ tr p _ _ _ _ p' ans ppc_ex_bytes prt_functions H A2 A3 Hn Hpr Ha) as G.
    rewrite L1 in G.
    assert (X : ulp_get_applied_patch (p_lib p) (zs "b") = true).
    { destruct (C103_listed prt_T prt_F prt_off ppc_ex _ tr p ppc_ex_bytes prt_functions H (or_introl A2)) as [Y _].
      apply get_applied_iff. rewrite Y, L1. left. reflexivity. }
    exists EAPPLIED. split; [|discriminate].
    cbn [do_pevent]. unfold ppc_request, ENONE. rewrite A2. cbn [negb Z.eqb].
    destruct (LibInv.ensure_emptiness_cases (s_q (p_lib p)) 0) as [[_ Y]|[Y _]].
    { exfalso. apply Y. destruct A3. split; lia. }
    rewrite Y. cbn [negb Z.eqb]. rewrite <- A2, LibInv.set_err_id. unfold ppc_load_apply. cbv zeta.
    change (check_patch_dependencies (p_lib p) []) with 0. cbn [negb Z.eqb]. rewrite X. destruct p. reflexivity.
  - assert (Hr : exists p' ans, do_pevent prt_T (PRevert false (zs "b")) p = Some (p', ans)).
    { cbn [do_pevent]. destruct (ppc_request _ _ _) as [s a]. eauto. }
    destruct Hr as (p' & ans & Ha).
    pose proof (C103_revert_answered prt_T prt_F prt_off ppc_ex _ tr p _ p' ans ppc_ex_bytes prt_functions H A2 A3 Ha) as G.
    rewrite L1 in G. destruct G as [_ G]. rewrite G in Ha; [eauto|]. split; [left; reflexivity|].
    intros (en & X1 & X2). apply (in_map en_deps) in X1. rewrite L2 in X1. destruct X1 as [X1|[]]. rewrite <- X1 in X2. destruct X2.
Qed.
