(** C101: livepatching a process that unloads and loads libraries. *)
From Coq Require Import String.
From Verif Require Import Base BaseFacts InsnQModel InsnQSpec InsnQProofs MetaModel StrModel X86Model X86Spec X86Proofs DlModel
  LibModel LibSpec LibProofs LibInv LibMem LibExample LibProps UnlSpec UnlProofs.

Definition no_eb : Z -> bool := fun _ => false.

Lemma careful_any_tied m stale tr p : careful_history [] no_eb (fresh m stale) tr p -> s_err (p_lib p) = 0 -> no_pending p ->
  qinv (s_q (p_lib p)) [].
Proof.
  intros H E N.
  destruct (careful_tied2 [] no_eb (fresh m stale) tr p []) as (rs & T1 & _).
  - constructor; intros f; cbn [In]; tauto.
  - apply fresh_linv.
  - split; [apply qinv_empty|]. split; [intros a X; exfalso; apply X; reflexivity|intros f []].
  - exact H.
  - left. exact E.
  - assert (rs = []) by (eapply qinv_empty_iff; [exact T1|destruct N; split; lia]). subst rs. exact T1.
Qed.

Lemma careful_log_sane F eb p0 tr p : careful_history F eb p0 tr p -> forall en f g, In en (log_of tr) -> In (f, g) (en_repl en) -> 0 <= g < 2 ^ 64.
Proof.
  induction 1 as [|tr p ev p' ans H IH Hok E]; [intros en f g []|].
  rewrite log_of_snoc. destruct ev as [busy e junk buf|busy e name| |te|m']; cbn [log_step]; auto.
  - destruct (ans =? 0); auto. destruct (parse_metadata_from_mem junk buf) as [| | |md]; auto.
    destruct (md_type md =? 2).
    + intros en f g Hen. apply filter_In in Hen. apply IH. tauto.
    + intros en f g [<-|Hen]; [|apply IH; exact Hen]. cbn. unfold replacements. rewrite in_map_iff.
      intros (u & Hu & _). injection Hu as _ <-. apply Hok.
  - destruct (ans =? 0); auto. intros en f g Hen. apply filter_In in Hen. apply IH. tauto.
Qed.
Lemma fold_log_sane tr L : 
  (forall en f g, In en L -> In (f, g) (en_repl en) -> 0 <= g < 2 ^ 64) ->
  (forall busy e junk buf ans, In (EvApply busy e junk buf, ans) tr -> env_sane e) ->
  forall en f g, In en (fold_left log_step tr L) -> In (f, g) (en_repl en) -> 0 <= g < 2 ^ 64.
Proof.
  revert L. induction tr as [|[ev ans] tr IH]; intros L HL HT; [exact HL|]. cbn [fold_left]. apply IH.
  2:{ intros busy e junk buf a I. eapply HT. right. exact I. }
  destruct ev as [busy e junk buf|busy e name| |te|m']; cbn [log_step]; auto.
  - destruct (ans =? 0); auto. destruct (parse_metadata_from_mem junk buf) as [| | |md]; auto.
    destruct (md_type md =? 2).
    + intros en f g Hen. apply filter_In in Hen. apply HL. tauto.
    + intros en f g [<-|Hen]; [|apply HL; exact Hen]. cbn. unfold replacements. rewrite in_map_iff.
      intros (u & Hu & _). injection Hu as _ <-. eapply HT. left. reflexivity.
  - destruct (ans =? 0); auto. intros en f g Hen. apply filter_In in Hen. apply HL. tauto.
Qed.
Lemma careful_envs F eb p0 tr p : careful_history F eb p0 tr p -> forall busy e junk buf ans, In (EvApply busy e junk buf, ans) tr -> env_sane e.
Proof.
  induction 1 as [|tr p ev p' a H IH Hok E]; [intros ? ? ? ? ? []|]. intros busy e junk buf ans I. apply in_app_or in I.
  destruct I as [I|[I|[]]]; [eapply IH; exact I|]. injection I as -> _. apply Hok.
Qed.

(** Whatever the program loaded, unloaded and overwrote before ([tr0], from the start of the process): take any functions that are now
    in memory with their entry nops, that no applied patch replaces at their present addresses, and that lie clear of everything ever replaced.
    From here on calls of them go where the log of patches says, after every history of requests, however the rest of the process comes and goes. *)
Theorem C101_reload_partial : forall F eb m stale tr0 p0 tr p,
  careful_history [] no_eb (fresh m stale) tr0 p0 -> s_err (p_lib p0) = 0 -> no_pending p0 ->
  functions_ok F eb (p_mem p0) ->
  (forall f en g, In f F -> In en (log_of tr0) -> ~ In (f, g) (en_repl en)) ->
  (forall id f, replaced_by tr0 id f -> In f F \/ clear_of F eb f) ->
  careful_history F eb p0 tr p -> s_err (p_lib p) = 0 -> no_pending p ->
  forall f, In f F -> calls_go (p_mem p) (eb f) f (route (log_of (tr0 ++ tr)) f).
Proof.
  intros F eb m stale tr0 p0 tr p H0 E0 N0 FO NL RB H E N f Hf.
  pose proof (careful_any_tied _ _ _ _ H0 E0 N0) as Q0.
  pose proof (careful_is_history _ _ _ _ _ H0) as HH0. pose proof (history_linv _ _ _ _ HH0) as L0.
  pose proof (history_known _ _ _ _ HH0 (or_introl E0)) as K0.
  destruct (history_corr _ _ _ _ HH0 (or_introl E0)) as [[_ C0] _].
  destruct (careful_tied2 F eb p0 tr p []) as (rs & T1 & T2 & T3).
  - eapply functions_frame; eauto.
  - exact L0.
  - split; [exact Q0|]. split.
    + intros a Ha. destruct (detours_at (s_roots (p_lib p0)) a) as [|d l] eqn:ED; [contradiction|].
      apply (RB (d_pid d)). apply K0. rewrite ED. left. reflexivity.
    + pose proof (functions_code _ _ _ FO) as FC. eapply code_ok_R; [|exact FC]. intros g Hg. cbn beta. symmetry. rewrite C0.
      destruct (flat_map (entry_at g) (log_of tr0)) as [|x l] eqn:EF; [reflexivity|]. exfalso.
      assert (I : In x (flat_map (entry_at g) (log_of tr0))) by (rewrite EF; left; reflexivity).
      apply in_flat_map in I. destruct I as (en & I1 & I2). unfold entry_at in I2. apply in_map_iff in I2. destruct I2 as ([a b] & _ & I2).
      apply in_rev in I2. apply filter_In in I2. destruct I2 as [I2 I3]. cbn [fst] in I3. apply Z.eqb_eq in I3. subst a. exact (NL g en b Hg I1 I2).
  - exact H.
  - left. exact E.
  - assert (rs = []) by (eapply qinv_empty_iff; [exact T1|destruct N; split; lia]). subst rs.
    assert (HH : history (fresh m stale) (tr0 ++ tr) p) by (eapply history_app; [exact HH0|eapply careful_is_history; exact H]).
    destruct (history_corr _ _ _ _ HH (or_introl E)) as [[_ C] _].
    specialize (T3 f Hf). rewrite C in T3. cbn [mem_of fold_left] in T3. unfold calls_go.
    destruct (route (log_of (tr0 ++ tr)) f) as [g|] eqn:Er.
    + pose proof (route_in _ _ _ Er) as (en & Hen & Hfg).
      rewrite route_flat in Er. destruct (flat_map _ _) as [|[x y] l]; [discriminate|]. injection Er as ->.
      cbn in T3. apply redir_bytes_redirected; [|exact T3].
      eapply fold_log_sane; [| |exact Hen|exact Hfg]; [intros ? ? ? []|].
      intros busy e junk buf ans I. apply in_app_or in I. destruct I as [I|I]; [eapply (careful_envs _ _ _ _ _ H0); exact I|eapply (careful_envs _ _ _ _ _ H); exact I].
    + rewrite route_flat in Er. destruct (flat_map _ _) as [|[x y] l]; [|discriminate].
      apply plain_bytes_unredirected. exact T3.
Qed.
Print Assumptions C101_reload_partial.

(** A revert, in a process whose memory may meanwhile hold anything, changes at most the windows of functions that patches with this ID
    replaced at some time, and of these only where the memory now looks like the entry of a livepatchable function. *)
Theorem C101_revert_footprint : forall m stale tr p e junk buf md p1 te p2 ret,
  careful_history [] no_eb (fresh m stale) tr p ->
  parse_metadata_from_mem junk buf = P_ok md -> md_type md = 2 ->
  do_event (EvApply false e junk buf) p = Some (p1, 0) -> s_err (p_lib p1) = 0 ->
  (forall i, te_wf te i = None) -> do_event (EvExec te) p1 = Some (p2, ret) ->
  (forall f, replaced_by tr (md_id md) f -> window_exists f) ->
  forall x, p_mem p2 x = p_mem p x \/
    exists f, replaced_by tr (md_id md) f /\ (exists endbr, livepatchable (p_mem p) endbr f) /\ f - 14 <= x < f + 6.
Proof.
  intros m stale tr p e junk buf md p1 te p2 ret H HP HT HA HE HW HX HWE x.
  cbn [do_event] in HA. destruct (ulp_apply_patch _ _ _ _ _ _) as [[st a]|] eqn:Ex; [|discriminate]. injection HA as HA1 HA2. subst p1. cbn [p_lib p_mem] in *.
  apply apply_outcome in Ex. destruct Ex as [Ex|(E0 & Eq & _ & Ex)]; [exfalso; rewrite HA2 in Ex; exact (gate_nonzero _ _ _ Ex)|].
  assert (Q : qinv (s_q (p_lib p)) []).
  { destruct (careful_tied2 [] no_eb (fresh m stale) tr p []) as (rs & T1 & _).
    - constructor; intros f; cbn [In]; tauto.
    - apply fresh_linv.
    - split; [apply qinv_empty|]. split; [intros a0 X; exfalso; apply X; reflexivity|intros f []].
    - exact H.
    - left. exact E0.
    - assert (rs = []) by (eapply qinv_empty_iff; [exact T1|exact Eq]). subst rs. exact T1. }
  destruct Ex as [ans Hans|md' st' ans Hp Hty Hcr Hrv|md' st1 st2 ans Hp Hty Hb Hd Hap Hh Hu Hx]; [contradiction| |].
  2:{ rewrite HP in Hp. injection Hp as <-. lia. }
  rewrite HP in Hp. injection Hp as Hp. subst md'.
  pose proof (history_known _ _ _ _ (careful_is_history _ _ _ _ _ H) (or_introl E0)) as K.
  pose proof (history_linv _ _ _ _ (careful_is_history _ _ _ _ _ H)) as LI.
  unfold ulp_revert_patch in Hrv. change (s_roots (next_universe (p_lib p))) with (s_roots (p_lib p)) in Hrv.
  change (s_q (next_universe (p_lib p))) with (s_q (p_lib p)) in Hrv. change (s_err (next_universe (p_lib p))) with (s_err (p_lib p)) in Hrv.
  destruct (revert_roots (p_mem p) (md_id md) (s_roots (p_lib p)) (s_q (p_lib p), s_err (p_lib p))) as [roots [q' err']] eqn:E.
  assert (G : s_q st' = q' /\ s_err st' = err') by (destruct (state_remove _ _); injection Hrv as <- <-; auto).
  destruct G as [G1 G2].
  assert (D0 : s_err (p_lib p) <> EINSNQ) by (rewrite E0; discriminate).
  destruct (revert_roots_reqs _ _ _ _ _ _ _ _ _ Q D0 E) as (_ & rs & Q' & A); [rewrite <- G2, HE; discriminate|].
  cbn [app] in Q'. rewrite <- G1 in Q'.
  cbn [do_event p_lib p_mem] in HX. destruct (insnq_interpret_from_process _ _ _ _) as [[[r q] t]|] eqn:EI; [|discriminate]. injection HX as HX1 HX2. subst p2.
  cbn [p_mem].
  assert (M : forall rs0, (forall r, In r rs0 -> In r rs) -> forall mm, mm x = p_mem p x -> mem_of rs0 mm x = p_mem p x \/
      exists f, replaced_by tr (md_id md) f /\ (exists endbr, livepatchable (p_mem p) endbr f) /\ f - 14 <= x < f + 6).
  { induction rs0 as [|r0 rs0 IH]; intros S0 mm EM; [left; exact EM|].
    change (mem_of (r0 :: rs0) mm) with (mem_of rs0 (req_mem r0 mm)).
    destruct (A r0 (S0 r0 (or_introl eq_refl))) as (y & g & en & d & B1 & B2 & B3 & B4 & B5).
    assert (RP : replaced_by tr (md_id md) (r_addr y)).
    { rewrite <- B5. apply K. rewrite detours_at_root; [exact B4|apply li_roots; exact LI|exact B1]. }
    assert (LV : exists endbr, livepatchable (p_mem p) endbr (r_addr y)) by (eapply looks_livepatchable; [exact no_eb|exact B3] || (apply looks_livepatchable; exact B3)).
    assert (D : r_addr y - 14 <= x < r_addr y + 6 \/ ~ (r_addr y - 14 <= x < r_addr y + 6)) by lia.
    destruct D as [D|D]; [right; eauto|]. apply IH; [intros r1 I; apply S0; right; exact I|].
    rewrite B2, patch_req_near by (try exact D; apply HWE; exact RP). exact EM. }
  destruct (interpret_cases _ _ _ _ _ _ _ Q' HW EI) as [(_ & -> & _)|[(_ & -> & _)|(_ & -> & _)]].
  - left. reflexivity.
  - rewrite perform_all_mem. cbn [t_mem]. apply M; auto.
  - rewrite perform_all_mem. cbn [t_mem]. apply M; auto.
Qed.
Print Assumptions C101_revert_footprint.

(** Finding: libpulp does not notice that a library was unloaded. Let the program do anything ([m']): unload the library and load it again, at the
    same place or another, unpatched. The patch is still reported as applied, applying it again is refused, and calls run the original code. *)
Theorem C101_unloaded_still_reported_refuted : forall m stale tr p m' e junk buf md en,
  history (fresh m stale) tr p -> s_err (p_lib p) = 0 -> no_pending p ->
  parse_metadata_from_mem junk buf = P_ok md -> md_type md <> 2 ->
  check_build_id (e_libs e) (md_bid_len md) (md_bid md) = N_match true ->
  In en (log_of tr) -> en_id en = md_id md -> en_deps en = md_deps md ->
  exists p', do_event (EvProgram m') p = Some (p', 0) /\ p_mem p' = m' /\
    check_answer p' (en_id en) = 1 /\
    do_event (EvApply false e junk buf) p' = Some (p', EAPPLIED) /\
    (forall f (endbr : bool), (if endbr then has_endbr m' f else True) -> nops_at m' (slot endbr f) -> unredirected (p_mem p') endbr f).
Proof.
  intros m stale tr p m' e junk buf md en H E N HP HT HB I1 I2 I3.
  exists (mk_proc (p_lib p) m'). split; [reflexivity|]. split; [reflexivity|].
  assert (H' : history (fresh m stale) (tr ++ [(EvProgram m', 0)]) (mk_proc (p_lib p) m')) by (econstructor; [exact H|reflexivity]).
  assert (LG : log_of (tr ++ [(EvProgram m', 0)]) = log_of tr) by (rewrite log_of_snoc; reflexivity).
  split; [|split].
  - unfold check_answer, ulp_check_applied_patch, ENONE. cbn [p_lib]. rewrite E. cbn [negb Z.eqb].
    destruct (history_corr _ _ _ _ H (or_introl E)) as [[C _] _].
    assert (G : ulp_get_applied_patch (p_lib p) (en_id en) = true) by (apply get_applied_iff; rewrite (pcorr_ids _ _ C); apply in_map; exact I1).
    rewrite G. reflexivity.
  - eapply C02_second_application_refused; [exact H'|exact E|exact N|exact HP|exact HT|exact HB| |exact I2|exact I3]. rewrite LG. exact I1.
  - intros f endbr A B. cbn [p_mem]. apply plain_bytes_unredirected. unfold plain_bytes. unfold slot in B. destruct endbr; [split; [exact A|exact B]|exact B].
Qed.
Print Assumptions C101_unloaded_still_reported_refuted.

(** ** A world in which libfoo is unloaded and loaded again elsewhere *)

Lemma careful_cons F eb p0 ev p1 a tr p2 :
  careful_event F eb p0 ev -> do_event ev p0 = Some (p1, a) -> careful_history F eb p1 tr p2 -> careful_history F eb p0 ((ev, a) :: tr) p2.
Proof.
  intros Hok H. induction 1 as [|tr p ev' p' ans H1 IH H2 H3].
  - change [(ev, a)] with ([] ++ [(ev, a)]). econstructor; [constructor|exact Hok|exact H].
  - change ((ev, a) :: tr ++ [(ev', ans)]) with (((ev, a) :: tr) ++ [(ev', ans)]). econstructor; eauto.
Qed.
Lemma run_careful F eb evs p0 p ans : Forall (fun ev => forall p, careful_event F eb p ev) evs ->
  run evs p0 = Some (p, ans) -> careful_history F eb p0 (combine evs ans) p.
Proof.
  intros Hf. revert p0 ans; induction Hf as [|ev t Hev Hf IH]; intros p0 ans H; cbn [run] in H.
  - injection H as <- <-. constructor.
  - destruct (do_event ev p0) as [[p1 a]|] eqn:E; [|discriminate].
    destruct (run t p1) as [[p2 l]|] eqn:E2; [|discriminate]. injection H as <- <-. cbn [combine]. eapply careful_cons; eauto.
Qed.
Lemma careful_any busy e junk buf p : env_sane e -> careful_event [] no_eb p (EvApply busy e junk buf).
Proof. intros H. split; [exact H|]. intros md _. split; [intros f g _; right; left; intros g0 []|intros r pa x f _ _ _ []]. Qed.

(** libfoo after it was loaded again, at 196608; f is now at 196864. *)
Definition u_libs : list lib :=
  [ mk_lib [] 4194304 1 (Some []) [(bid_note 1, 36)];
    mk_lib (zs "/lib/libfoo.so.0") 196608 2 (Some [(zs "f", 256); (zs "h", 512)]) [(bid_note 2, 36)] ].
Definition u_env : dlenv := mk_dlenv (zs "app") u_libs u_libs w_dlopen w_dlsym (fun h => Some (h * 65536 * 16)).
Definition u_f : Z := 196864.
Definition uap : event := EvApply false u_env 0 (bytes_of (extract_ulp_from_so_to_mem (create_patch_metadata_file P3) (w_path 3))).
Definition urv : event := EvApply false u_env 0 (bytes_of (extract_ulp_from_so_to_mem (write_reverse_patch P3) (w_path 3))).
(** What the program puts where libfoo was: some other code, with a short jump where f was. *)
Definition u_mem : mem := fun x => if x =? 65792 then 235 else if x =? 65793 then 5 else 144.

Lemma u_env_sane : env_sane u_env.
Proof. exact w_env_sane. Qed.

Definition u_past : list event := [ap 3 P3; ex; rv 3 P3; ex; EvProgram u_mem].
Definition u_future : list event := [uap; ex; urv; ex].

Lemma u_past_careful : Forall (fun ev => forall p, careful_event [] no_eb p ev) u_past.
Proof.
  unfold u_past, ap, rv. repeat (apply Forall_cons; [intros p|]); try (apply careful_any; exact w_env_sane); try (intros i; reflexivity); [|constructor].
  intros f x [].
Qed.
Lemma u_future_careful : Forall (fun ev => forall p, careful_event [] no_eb p ev) u_future.
Proof.
  unfold u_future, uap, urv. repeat (apply Forall_cons; [intros p|]); try (apply careful_any; exact u_env_sane); try (intros i; reflexivity). constructor.
Qed.

(** A test of [replaced_by]. *)
Definition repl_test (T : Z -> bool) (evs : list event) : bool :=
  forallb (fun ev => match ev with
    | EvApply _ e junk buf => match parse_metadata_from_mem junk buf with
                              | P_ok md => (md_type md =? 2) || forallb (fun fg => T (fst fg)) (replacements e md)
                              | _ => true end
    | _ => true end) evs.
Lemma repl_test_ok T evs ans id f : repl_test T evs = true -> replaced_by (combine evs ans) id f -> T f = true.
Proof.
  intros H (busy & e & junk & buf & md & g & I & HP & HT & _ & HI). apply in_combine_l in I. unfold repl_test in H. rewrite forallb_forall in H.
  specialize (H _ I). cbn beta iota in H. rewrite HP in H. destruct (Z.eqb_spec (md_type md) 2) as [X|_]; [contradiction|]. cbn [orb] in H.
  rewrite forallb_forall in H. exact (H _ HI).
Qed.

Lemma u_past_run : exists p, run u_past w_start = Some (p, [0; 0; 0; 0; 0]) /\ s_err (p_lib p) = 0 /\ no_pending p /\ p_mem p = u_mem.
Proof.
  destruct (run u_past w_start) as [[p ans]|] eqn:E.
  2:{ exfalso. assert (X : match run u_past w_start with None => true | _ => false end = false) by (vm_compute; reflexivity). rewrite E in X. discriminate. }
  exists p.
  assert (X : match run u_past w_start with
    | Some (p, l) => l = [0; 0; 0; 0; 0] /\ s_err (p_lib p) = 0 /\ q_num (s_q (p_lib p)) = 0 /\ q_size (s_q (p_lib p)) = 0
    | None => False end) by (vm_compute; auto).
  rewrite E in X. destruct X as (-> & X2 & X3 & X4). split; [reflexivity|]. split; [exact X2|]. split; [split; assumption|].
  assert (G : forall evs p0 p ans, run (evs ++ [EvProgram u_mem]) p0 = Some (p, ans) -> p_mem p = u_mem).
  { clear. induction evs as [|ev t IH]; intros p0 p ans H; cbn [app run] in H; [cbn in H; injection H as <- _; reflexivity|].
    destruct (do_event ev p0) as [[p1 a]|]; [|discriminate]. destruct (run (t ++ [EvProgram u_mem]) p1) as [[p2 l]|] eqn:E2; [|discriminate].
    injection H as <- _. eapply IH. exact E2. }
  exact (G [ap 3 P3; ex; rv 3 P3; ex] _ _ _ E).
Qed.

(** Finding: after the patch was reverted, its library unloaded and loaded again elsewhere, applying and reverting the patch there
    also rewrites the two bytes where the function used to be: code that no request of this second round names. *)
Theorem C101_stale_write_refuted : exists m stale tr1 p1 tr2 p2 x,
  careful_history [] no_eb (fresh m stale) tr1 p1 /\ s_err (p_lib p1) = 0 /\ no_pending p1 /\ log_of tr1 = [] /\
  careful_history [] no_eb p1 tr2 p2 /\ s_err (p_lib p2) = 0 /\ no_pending p2 /\
  Forall (fun ea => snd ea = 0 /\ match fst ea with EvProgram _ => False | _ => True end) tr2 /\
  (forall id f, replaced_by tr2 id f -> ~ (f - 14 <= x < f + 6)) /\
  p_mem p1 x = 235 /\ p_mem p2 x = 102.
Proof.
  destruct u_past_run as (p1 & R1 & E1 & N1 & M1).
  destruct (run u_future p1) as [[p2 ans]|] eqn:E.
  2:{ exfalso. assert (X : match run u_past w_start with Some (p, _) => match run u_future p with None => true | _ => false end | _ => false end = false) by (vm_compute; reflexivity).
      rewrite R1, E in X. discriminate. }
  assert (X : match run u_past w_start with Some (p, _) => match run u_future p with
    | Some (p, l) => l = [0; 0; 0; 0] /\ s_err (p_lib p) = 0 /\ q_num (s_q (p_lib p)) = 0 /\ q_size (s_q (p_lib p)) = 0 /\ p_mem p 65792 = 102
    | None => False end | None => False end) by (vm_compute; auto 10).
  rewrite R1, E in X. destruct X as (-> & X2 & X3 & X4 & X5).
  exists w_mem, (fun _ => 0), (combine u_past [0; 0; 0; 0; 0]), p1, (combine u_future [0; 0; 0; 0]), p2, 65792.
  split; [apply run_careful; [exact u_past_careful|exact R1]|]. split; [exact E1|]. split; [exact N1|]. split; [vm_compute; reflexivity|].
  split; [apply run_careful; [exact u_future_careful|exact E]|]. split; [exact X2|]. split; [split; assumption|].
  split; [unfold u_future, uap, urv, ex; cbn [combine]; repeat constructor|]. split; [|split; [rewrite M1; reflexivity|exact X5]].
  intros id f H. assert (T : negb ((f - 14 <=? 65792) && (65792 <? f + 6)) = true).
  { apply (repl_test_ok (fun f => negb ((f - 14 <=? 65792) && (65792 <? f + 6))) u_future [0; 0; 0; 0] id f); [vm_compute; reflexivity|exact H]. }
  lia.
Qed.
Print Assumptions C101_stale_write_refuted.

(** The hypotheses of C101_reload_partial: the same history, and then the patch applied to the library at its new place. *)
Example C101_reload_case : exists p0 p,
  careful_history [] no_eb (fresh w_mem (fun _ => 0)) (combine u_past [0; 0; 0; 0; 0]) p0 /\ s_err (p_lib p0) = 0 /\ no_pending p0 /\
  functions_ok [u_f] no_eb (p_mem p0) /\ log_of (combine u_past [0; 0; 0; 0; 0]) = [] /\
  (forall id f, replaced_by (combine u_past [0; 0; 0; 0; 0]) id f -> In f [u_f] \/ clear_of [u_f] no_eb f) /\
  careful_history [u_f] no_eb p0 (combine [uap; ex] [0; 0]) p /\ s_err (p_lib p) = 0 /\ no_pending p /\
  route (log_of (combine u_past [0; 0; 0; 0; 0] ++ combine [uap; ex] [0; 0])) u_f = Some 3146240.
Proof.
  destruct u_past_run as (p1 & R1 & E1 & N1 & M1).
  destruct (run [uap; ex] p1) as [[p2 ans]|] eqn:E.
  2:{ exfalso. assert (X : match run u_past w_start with Some (p, _) => match run [uap; ex] p with None => true | _ => false end | _ => false end = false) by (vm_compute; reflexivity).
      rewrite R1, E in X. discriminate. }
  assert (X : match run u_past w_start with Some (p, _) => match run [uap; ex] p with
    | Some (p, l) => l = [0; 0] /\ s_err (p_lib p) = 0 /\ q_num (s_q (p_lib p)) = 0 /\ q_size (s_q (p_lib p)) = 0
    | None => False end | None => False end) by (vm_compute; auto 10).
  rewrite R1, E in X. destruct X as (-> & X2 & X3 & X4).
  exists p1, p2. split; [apply run_careful; [exact u_past_careful|exact R1]|]. split; [exact E1|]. split; [exact N1|].
  split. { rewrite M1. constructor.
    - intros f [<-|[]]. unfold window_exists, u_f. lia.
    - intros f [<-|[]]. split; [exact I|]. left. split; reflexivity.
    - intros f g x [<-|[]] [<-|[]]. auto. }
  split; [vm_compute; reflexivity|].
  split. { intros id f H. assert (T : (f =? 65792) = true) by (apply (repl_test_ok (fun f => f =? 65792) u_past [0; 0; 0; 0; 0] id f); [vm_compute; reflexivity|exact H]).
    assert (f = 65792) by lia. subst f. right. intros g [<-|[]]. unfold window_exists, in_window, body, slot, no_eb, u_f. split; [lia|]. intros x Hx. lia. }
  split. { apply run_careful; [|exact E]. unfold uap. repeat (apply Forall_cons; [intros p|]); [|intros i; reflexivity|constructor].
    split; [exact u_env_sane|]. intros md Hmd.
    assert (T : match parse_metadata_from_mem 0 (bytes_of (extract_ulp_from_so_to_mem (create_patch_metadata_file P3) (w_path 3))) with
                | P_ok md => match md_refs md with [] => true | _ => false end && forallb (fun fg => fst fg =? u_f) (replacements u_env md) | _ => false end = true) by (vm_compute; reflexivity).
    rewrite Hmd in T. apply andb_true_iff in T. destruct T as [T1 T2]. split.
    - intros f g I. left. left. rewrite forallb_forall in T2. specialize (T2 _ I). cbn [fst] in T2. lia.
    - destruct (md_refs md); [intros r pa x f []|discriminate]. }
  split; [exact X2|]. split; [split; assumption|]. vm_compute. reflexivity.
Qed.

(** The hypotheses of C101_revert_footprint and C101_unloaded_still_reported_refuted: patch 3 is applied, the program puts its library
    back unpatched, and the patch is still refused as applied; it can be reverted. *)
Example C101_unloaded_case :
  match run [ap 3 P3; ex; EvProgram w_mem; ap 3 P3; rv 3 P3; ex] w_start with
  | Some (p, l) => l = [0; 0; 0; EAPPLIED; 0; 0] /\ s_err (p_lib p) = 0 /\ q_num (s_q (p_lib p)) = 0 /\ reported p = []
  | None => False
  end.
Proof. vm_compute. auto. Qed.

Definition u_rb : list Z := bytes_of (extract_ulp_from_so_to_mem (write_reverse_patch P3) (w_path 3)).
Definition u_ab : list Z := bytes_of (extract_ulp_from_so_to_mem (create_patch_metadata_file P3) (w_path 3)).
Definition u_m1 : mem := fun x => if x =? w_f then 204 else 144.
Definition u_m2 : mem := fun _ => 144.
Definition u_ap : event := EvApply false w_env 0 u_ab.

Lemma u_replaced : replaced_by (combine [u_ap; ex] [0; 0]) (repeat 3 32) w_f.
Proof.
  assert (PA : match parse_metadata_from_mem 0 u_ab with P_ok md => negb (md_type md =? 2) && bytes_eqb (md_id md) (repeat 3 32) && existsb (fun fg => fst fg =? w_f) (replacements w_env md) | _ => false end = true) by (vm_compute; reflexivity).
  destruct (parse_metadata_from_mem 0 u_ab) as [| |c|ma] eqn:EA; [discriminate PA..|].
  apply andb_true_iff in PA. destruct PA as [PA T3]. apply andb_true_iff in PA. destruct PA as [T1 T2]. apply bytes_eqb_eq in T2.
  apply existsb_exists in T3. destruct T3 as ([f g] & I & F). cbn [fst] in F. apply Z.eqb_eq in F. subst f.
  exists false, w_env, 0, u_ab, ma, g. split; [left; reflexivity|]. split; [exact EA|]. split; [|split; [exact T2|exact I]].
  intros X. rewrite X in T1. discriminate T1.
Qed.

(** Finding: reverting a patch reads the memory where the function was, also after its library was unloaded: two processes that differ only
    in a byte of that place are left with different writes pending. (If nothing is mapped there any more the read is a segmentation fault.) *)
Theorem C101_reads_unloaded_refuted : exists m stale tr p md e junk buf m1 m2 p1 p2,
  history (fresh m stale) tr p /\ s_err (p_lib p) = 0 /\ no_pending p /\
  parse_metadata_from_mem junk buf = P_ok md /\ md_type md = 2 /\ replaced_by tr (md_id md) w_f /\
  (forall x, x <> w_f -> m1 x = m2 x) /\
  do_event (EvApply false e junk buf) (mk_proc (p_lib p) m1) = Some (p1, 0) /\
  do_event (EvApply false e junk buf) (mk_proc (p_lib p) m2) = Some (p2, 0) /\
  no_pending p1 /\ ~ no_pending p2.
Proof.
  destruct (run [u_ap; ex] w_start) as [[p ans]|] eqn:E.
  2:{ exfalso. assert (X : match run [u_ap; ex] w_start with None => true | _ => false end = false) by (vm_compute; reflexivity). rewrite E in X. discriminate. }
  assert (X : match run [u_ap; ex] w_start with
    | Some (p, l) => l = [0; 0] /\ s_err (p_lib p) = 0 /\ q_num (s_q (p_lib p)) = 0 /\ q_size (s_q (p_lib p)) = 0 /\
        match do_event (EvApply false w_env 0 u_rb) (mk_proc (p_lib p) u_m1), do_event (EvApply false w_env 0 u_rb) (mk_proc (p_lib p) u_m2) with
        | Some (p1, a1), Some (p2, a2) => a1 = 0 /\ a2 = 0 /\ q_num (s_q (p_lib p1)) = 0 /\ q_size (s_q (p_lib p1)) = 0 /\ (q_num (s_q (p_lib p2)) =? 0) = false
        | _, _ => False end
    | None => False end) by (vm_compute; auto 10).
  rewrite E in X. destruct X as (-> & X2 & X3 & X4 & X5).
  destruct (do_event (EvApply false w_env 0 u_rb) (mk_proc (p_lib p) u_m1)) as [[p1 a1]|] eqn:D1; [|contradiction].
  destruct (do_event (EvApply false w_env 0 u_rb) (mk_proc (p_lib p) u_m2)) as [[p2 a2]|] eqn:D2; [|contradiction].
  destruct X5 as (-> & -> & Y1 & Y2 & Y3).
  assert (PM : match parse_metadata_from_mem 0 u_rb with P_ok md => md_type md = 2 /\ md_id md = repeat 3 32 | _ => False end) by (vm_compute; auto).
  destruct (parse_metadata_from_mem 0 u_rb) as [| | |md] eqn:EP; try contradiction. destruct PM as [PM1 PM2].
  exists w_mem, (fun _ => 0), (combine [u_ap; ex] [0; 0]), p, md, w_env, 0, u_rb, u_m1, u_m2, p1, p2.
  split; [apply run_history; exact E|]. split; [exact X2|]. split; [split; assumption|]. split; [exact EP|]. split; [exact PM1|]. split.
  { rewrite PM2. exact u_replaced. }
  split. { intros x N. unfold u_m1, u_m2. destruct (Z.eqb_spec x w_f); [contradiction|reflexivity]. }
  split; [exact D1|]. split; [exact D2|]. split; [split; assumption|]. intros [Z1 _]. rewrite Z1 in Y3. discriminate Y3.
Qed.
Print Assumptions C101_reads_unloaded_refuted.
