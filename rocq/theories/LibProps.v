(** Property theorems about libpulp's patch state machine
    (C01-C04, C06-C11, C14, C48). *)
From Coq Require Import String Sorted.
From Verif Require Import Base BaseFacts InsnQModel InsnQSpec InsnQProofs MetaModel MetaSpec StrModel
  X86Model X86Spec X86Proofs X86Props DlModel LibModel LibSpec LibProofs LibInv LibMem LibExample LibMore SymProofs.

(** ** C01 *)

(** C01. *)
Theorem C01_calls_follow_newest_patch :
  forall (F : list Z) (eb : Z -> bool) (m : mem) (stale : Z -> Z) (tr : list (event * Z)) (p : proc),
    functions_ok F eb m -> clean_history F eb (fresh m stale) tr p ->
    s_err (p_lib p) = 0 -> no_pending p ->
    forall f, In f F -> calls_go (p_mem p) (eb f) f (route (log_of tr) f).
Proof.
  intros F eb m stale tr p HF H He Hn f Hf.
  pose proof (clean_routing F eb m stale tr p HF H (or_introl He) Hn f Hf) as G.
  unfold calls_go. destruct (route (log_of tr) f); exact G.
Qed.
Print Assumptions C01_calls_follow_newest_patch.

Lemma loop_fuel_enough m base : forall fuel todo ret st r,
  revert_all_loop fuel m base todo ret st = Some r ->
  forall fuel', (length todo <= fuel')%nat -> revert_all_loop fuel' m base todo ret st = Some r.
Proof.
  induction fuel as [|fuel IH]; intros todo ret st r H fuel' Hf.
  - destruct todo; [|discriminate]. destruct fuel'; exact H.
  - destruct todo as [|p next]; [destruct fuel'; exact H|].
    destruct fuel' as [|fuel']; [cbn in Hf; lia|]. cbn [length] in Hf. cbn [revert_all_loop] in *.
    destruct (strncmp_eq base (a_lib p) ULP_PATH_LEN) eqn:El; [|apply IH; [exact H|lia]].
    destruct (Z.eqb_spec (ulp_can_revert_patch st (a_id p)) 0) as [E|E]; cbn [negb] in *.
    + destruct (ulp_revert_patch m (a_id p) st) as [st1 r1]. destruct (negb (r1 =? 0)); [exact H|].
      apply IH; [exact H|lia].
    + exfalso. destruct r as [[st' ret'] b].
      apply revert_all_loop_chain in H. destruct H as (_ & H & _).
      cbn [filter] in H. unfold lib_match at 1 in H. rewrite El in H. cbn [map] in H. inversion H; subst. contradiction.
Qed.

(** What the `ulp` tool does to a process is a sequence of the events above: the
    request, then (unless the routine seems not to have run) the execution of the
    pending writes. *)
Theorem C01_tool_apply_is_events :
  forall te rax busy e junk buf p p' res,
    tool_apply_patch te rax busy e junk buf p = Some (p', res) ->
    exists p1 ans, do_event (EvApply busy e junk buf) p = Some (p1, ans) /\
      ((res = EHOOKNOTRUN /\ p' = p1 /\ ans = rax /\ ans <> 0 /\ ans <> EAGAIN) \/
       exists r, do_event (EvExec te) p1 = Some (p', r) /\
         (r = 0 \/ r = EOLDLIBPULP -> res = ans) /\ (r <> 0 -> r <> EOLDLIBPULP -> res = r)).
Proof.
  intros te rax busy e junk buf p p' res H. unfold tool_apply_patch in H. cbn [do_event].
  destruct (ulp_apply_patch _ _ _ _ _ _) as [[st ans]|]; [|discriminate].
  exists (mk_proc st (p_mem p)), ans. split; [reflexivity|].
  destruct (negb (ans =? 0) && negb (ans =? EAGAIN) && (ans =? rax)) eqn:HK.
  { injection H as <- <-. left. repeat split; lia. }
  right.
  unfold interpret_and_report in H. cbn [p_lib p_mem].
  destruct (insnq_interpret_from_process _ _ _ _) as [[[r q'] t]|]; [|discriminate].
  exists r. destruct (Z.eqb_spec r 0) as [->|E]; cbn [negb andb] in H.
  - injection H as <- <-. split; [reflexivity|]. split; [auto|contradiction].
  - destruct (Z.eqb_spec r EOLDLIBPULP) as [->|E2]; cbn [negb] in H; injection H as <- <-;
      (split; [reflexivity|]); (split; [intros [X|X]; (contradiction || congruence)|intros; congruence]).
Qed.
Print Assumptions C01_tool_apply_is_events.

Theorem C01_tool_revert_all_is_events :
  forall fuel te busy e name p p' res,
    tool_revert_patches_from_lib fuel te busy e name p = Some (p', res) ->
    exists p1 ans, do_event (EvRevertAll busy e name) p = Some (p1, ans) /\
      exists r, do_event (EvExec te) p1 = Some (p', r) /\
         (r = 0 \/ r = EOLDLIBPULP -> res = ans) /\ (r <> 0 -> r <> EOLDLIBPULP -> res = r).
Proof.
  intros fuel te busy e name p p' res H. unfold tool_revert_patches_from_lib in H. cbn [do_event].
  assert (G : forall x, ulp_revert_patches_from_lib fuel busy e (p_mem p) name (p_lib p) = Some x ->
      ulp_revert_patches_from_lib (S (length (s_patches (p_lib p)))) busy e (p_mem p) name (p_lib p) = Some x).
  { intros x. unfold ulp_revert_patches_from_lib. destruct (negb (s_err (p_lib p) =? ENONE)); auto.
    destruct (insnq_ensure_emptiness _ _) as [r err']. destruct (negb (r =? 0)); auto. destruct busy; auto.
    unfold revert_all_patches_from_lib. destruct (_ <=? _); auto.
    destruct (revert_all_loop fuel _ _ _ _ _) as [y|] eqn:E; [|discriminate].
    rewrite (loop_fuel_enough _ _ _ _ _ _ _ E); auto. }
  destruct (ulp_revert_patches_from_lib fuel _ _ _ _ _) as [[st ans]|]; [|discriminate].
  rewrite (G _ eq_refl). exists (mk_proc st (p_mem p)), ans. split; [reflexivity|].
  unfold interpret_and_report in H. cbn [p_lib p_mem].
  destruct (insnq_interpret_from_process _ _ _ _) as [[[r q'] t]|]; [|discriminate].
  exists r. destruct (Z.eqb_spec r 0) as [->|E]; cbn [negb andb] in H.
  - injection H as <- <-. split; [reflexivity|]. split; [auto|contradiction].
  - destruct (Z.eqb_spec r EOLDLIBPULP) as [->|E2]; cbn [negb] in H; injection H as <- <-;
      (split; [reflexivity|]); (split; [intros [X|X]; (contradiction || congruence)|intros; congruence]).
Qed.
Print Assumptions C01_tool_revert_all_is_events.

(** *** The example world meets the hypotheses *)

Definition w_F : list Z := [w_f; w_h; w_b].

Lemma w_functions : functions_ok w_F (fun _ => false) w_mem.
Proof.
  constructor.
  - intros f Hf. unfold window_exists. unfold w_F, w_f, w_h, w_b in Hf. cbn [In] in Hf. lia.
  - intros f _. split; [exact I|]. left. split; reflexivity.
  - intros f g x Hf Hg. unfold in_window, body, slot, w_F, w_f, w_h, w_b in *. cbn [In] in *. lia.
Qed.

Definition w_meta (p : pmeta) (k : Z) : pres meta :=
  match ap k p with EvApply _ _ junk buf => parse_metadata_from_mem junk buf | _ => P_UB end.

(** Side conditions of an event of the example world. *)
Definition ok_repl (e : dlenv) (md : meta) : bool :=
  forallb (fun fg => existsb (Z.eqb (fst fg)) w_F) (replacements e md) &&
  forallb (fun r => negb (rf_poff r =? 0)) (md_refs md) &&
  match e_laddr e (e_dlopen e (md_so md)) with
  | Some b => forallb (fun r => forallb (fun f => f + 2 <=? u64 (b + rf_poff r)) w_F) (md_refs md)
  | None => true
  end.

Lemma w_event_ok busy e junk buf :
  env_sane e ->
  match parse_metadata_from_mem junk buf with P_ok md => ok_repl e md | _ => true end = true ->
  forall p, event_ok w_F (fun _ => false) p (EvApply busy e junk buf).
Proof.
  intros He Hb p. cbn [event_ok]. split; [exact He|]. intros md Hp. rewrite Hp in Hb. unfold ok_repl in Hb.
  apply andb_true_iff in Hb. destruct Hb as [Hb H3]. apply andb_true_iff in Hb. destruct Hb as [H1 H2]. split.
  - intros f g Hin. left. rewrite forallb_forall in H1. specialize (H1 _ Hin). cbn [fst] in H1.
    apply existsb_exists in H1. destruct H1 as (y & Hy & E). apply Z.eqb_eq in E. subst. exact Hy.
  - intros r pa x f Hr Ha Hx Hf Hw. rewrite forallb_forall in H2. specialize (H2 _ Hr).
    destruct Ha as [[Ha _]|[_ (base & Ha & Hpa)]]; [rewrite Ha in H2; discriminate|].
    rewrite Ha in H3. rewrite forallb_forall in H3. specialize (H3 _ Hr). rewrite forallb_forall in H3.
    specialize (H3 _ Hf). unfold in_window, body, slot in Hw. lia.
Qed.

Lemma w_env_sane : env_sane w_env.
Proof.
  intros h n. cbn. unfold w_dlsym. destruct (bytes_eqb n (zs "g")); [unfold u64; apply Z.mod_pos_bound; lia|].
  destruct (bytes_eqb n (zs "v")); [unfold u64; apply Z.mod_pos_bound; lia|lia].
Qed.

Lemma w_exec_ok : forall p, event_ok w_F (fun _ => false) p ex.
Proof. intros p i. reflexivity. Qed.

Ltac w_ok := first [apply w_exec_ok
  | unfold ap, rv; apply w_event_ok; [exact w_env_sane | vm_compute; reflexivity]].

Lemma w_events_ok : Forall (fun ev => forall p, event_ok w_F (fun _ => false) p ev) w_events.
Proof. unfold w_events. repeat (apply Forall_cons; [w_ok|]). constructor. Qed.

(** Three operations on the example world: all succeed, the process is not in
    an error state, no write is pending, and calls of f go to patch 3. *)
Example C01_case :
  exists p ans, clean_history w_F (fun _ => false) w_start (combine w_events ans) p /\
    ans = [0; 0; 0; 0; 0; 0] /\ s_err (p_lib p) = 0 /\ no_pending p /\
    route (log_of (combine w_events ans)) w_f = Some 3146240 /\
    route (log_of (combine w_events ans)) w_h = None.
Proof.
  destruct (run w_events w_start) as [[p ans]|] eqn:E.
  2:{ exfalso. assert (X : match run w_events w_start with None => true | _ => false end = false) by (vm_compute; reflexivity).
      rewrite E in X. discriminate. }
  exists p, ans. split; [apply run_clean; [exact w_events_ok|exact E]|].
  assert (X : match run w_events w_start with
    | Some (p, l) => l = [0; 0; 0; 0; 0; 0] /\ s_err (p_lib p) = 0 /\ q_num (s_q (p_lib p)) = 0 /\ q_size (s_q (p_lib p)) = 0
    | None => False end) by (vm_compute; auto).
  rewrite E in X. destruct X as (-> & X2 & X3 & X4). split; [reflexivity|]. split; [exact X2|].
  split; [split; assumption|]. split; vm_compute; reflexivity.
Qed.

(** ** C02 *)

(** The situation in which libpulp looks at a request at all: no error state, no
    pending writes, allocator not busy. *)
Lemma open_gate e junk buf p :
  s_err (p_lib p) = 0 -> no_pending p ->
  do_event (EvApply false e junk buf) p =
  match load_patch e (p_mem p) junk buf (p_lib p) with
  | None => None
  | Some (st, ans) => Some (mk_proc st (p_mem p), ans)
  end.
Proof.
  intros He [Hn1 Hn2]. cbn [do_event]. unfold ulp_apply_patch, insnq_ensure_emptiness, ENONE. rewrite He, Hn1, Hn2.
  cbn [negb Z.eqb Z.gtb Z.compare orb]. rewrite <- He, set_err_id. reflexivity.
Qed.

Lemma proc_eta p : mk_proc (p_lib p) (p_mem p) = p.
Proof. destruct p; reflexivity. Qed.

(** C02: in every reachable state each ID is reported at most once. *)
Theorem C02_ids_unique :
  forall m stale tr p, history (fresh m stale) tr p -> NoDup (reported p).
Proof. intros m stale tr p H. apply history_linv in H. apply li_ids. exact H. Qed.
Print Assumptions C02_ids_unique.

(** Whatever else is wrong, applying a patch whose ID is reported is answered
    with an error and changes neither the reported patches (with all their data),
    nor the routing tables, nor the pending writes, nor memory. *)
Theorem C02_never_applied_twice :
  forall p busy e junk buf md p' ans,
    parse_metadata_from_mem junk buf = P_ok md -> md_type md <> 2 -> In (md_id md) (reported p) ->
    do_event (EvApply busy e junk buf) p = Some (p', ans) ->
    ans <> 0 /\ s_patches (p_lib p') = s_patches (p_lib p) /\ s_roots (p_lib p') = s_roots (p_lib p) /\
    s_q (p_lib p') = s_q (p_lib p) /\ p_mem p' = p_mem p.
Proof.
  intros p busy e junk buf md p' ans Hp Ht Hi H. cbn [do_event] in H.
  destruct (ulp_apply_patch _ _ _ _ _ _) as [[st a]|] eqn:E; [|discriminate]. injection H as <- <-. cbn [p_lib p_mem].
  apply apply_outcome in E. destruct E as [E|(_ & _ & _ & E)].
  - destruct E; auto; repeat split; auto; discriminate.
  - destruct E as [ans Ha|md' st' ans Hp' Ht' Hc Hr|md' st1 st2 ans Hp' Ht' Hb Hd Ha Hh Hu Hx]; auto.
    + rewrite Hp in Hp'. injection Hp' as <-. contradiction.
    + rewrite Hp in Hp'. injection Hp' as <-. exfalso.
      apply get_applied_iff in Hi. congruence.
Qed.
Print Assumptions C02_never_applied_twice.

(** The same patch (same ID and dependencies as recorded) applied once more to a
    process that accepts requests is answered with EAPPLIED; nothing changes. *)
Theorem C02_second_application_refused :
  forall m stale tr p e junk buf md en,
    history (fresh m stale) tr p -> s_err (p_lib p) = 0 -> no_pending p ->
    parse_metadata_from_mem junk buf = P_ok md -> md_type md <> 2 ->
    check_build_id (e_libs e) (md_bid_len md) (md_bid md) = N_match true ->
    In en (log_of tr) -> en_id en = md_id md -> en_deps en = md_deps md ->
    do_event (EvApply false e junk buf) p = Some (p, EAPPLIED).
Proof.
  intros m stale tr p e junk buf md en H He Hn Hp Ht Hb Hen Hid Hdep.
  rewrite open_gate by assumption. unfold load_patch. rewrite Hp.
  destruct (Z.eqb_spec (md_type md) 2) as [X|_]; [contradiction|].
  unfold check_patch_sanity. rewrite Hb.
  pose proof (history_linv _ _ _ _ H) as Hl. destruct (history_corr _ _ _ _ H (or_introl He)) as [[Hc _] _].
  assert (G : exists a, In a (s_patches (p_lib p)) /\ pcorr a en).
  { clear -Hc Hen. induction Hc as [|a x ps L H1 H2 IH]; [destruct Hen|].
    destruct Hen as [->|Hen]; [exists a; split; [left; reflexivity|exact H1]|].
    destruct (IH Hen) as (b & B1 & B2). exists b. split; [right; exact B1|exact B2]. }
  destruct G as (a & Ha & (A1 & A2 & A3 & A4)).
  assert (D : check_patch_dependencies (p_lib p) (md_deps md) = 0).
  { apply check_deps_iff. rewrite Forall_forall. intros d Hd. rewrite <- Hdep in Hd.
    apply in_rev in Hd. rewrite <- A3 in Hd.
    pose proof (li_deps _ Hl) as Ho. clear -Ha Hd Ho. induction (s_patches (p_lib p)) as [|x t IH]; [destruct Ha|].
    cbn [deps_older map] in *. destruct Ho as [O1 O2]. right. destruct Ha as [->|Ha]; [rewrite Forall_forall in O1; auto|auto]. }
  rewrite D. cbn [negb Z.eqb].
  assert (X : ulp_get_applied_patch (p_lib p) (md_id md) = true).
  { apply get_applied_iff. rewrite <- Hid, <- A1. apply in_map. exact Ha. }
  rewrite X. cbn [negb Z.eqb EAPPLIED]. rewrite proc_eta. reflexivity.
Qed.
Print Assumptions C02_second_application_refused.

(** Patch 1 is applied; applying it again is answered with EAPPLIED. *)
Example C02_case :
  match run [ap 1 P1; ex; ap 1 P1] w_start with
  | Some (p, l) => l = [0; 0; EAPPLIED] /\ reported p = [repeat 1 32]
  | None => False
  end.
Proof. vm_compute. auto. Qed.

(** ** C03 *)

Lemma deps_older_in ps : deps_older ps ->
  forall a d, In a ps -> In d (a_deps a) -> In d (map a_id ps).
Proof.
  induction ps as [|x t IH]; intros Ho a d Ha Hd; [destruct Ha|].
  cbn [deps_older map] in *. destruct Ho as [O1 O2]. right.
  destruct Ha as [->|Ha]; [rewrite Forall_forall in O1; auto|eapply IH; eauto].
Qed.

(** C03: in every reachable state, what an applied patch depends on is applied. *)
Theorem C03_dependencies_stay_applied :
  forall m stale tr p, history (fresh m stale) tr p ->
    forall a d, In a (s_patches (p_lib p)) -> In d (a_deps a) -> In d (reported p).
Proof. intros m stale tr p H a d. apply history_linv in H. apply deps_older_in. apply li_deps. exact H. Qed.
Print Assumptions C03_dependencies_stay_applied.

(** The same about the log of successful requests, with the dependencies as the
    patch metadata states them. *)
Theorem C03_log_is_closed :
  forall m stale tr p, history (fresh m stale) tr p ->
    s_err (p_lib p) = 0 ->
    forall en d, In en (log_of tr) -> In d (en_deps en) -> exists en', In en' (log_of tr) /\ en_id en' = d.
Proof.
  intros m stale tr p H He en d Hen Hd.
  pose proof (history_linv _ _ _ _ H) as Hl. destruct (history_corr _ _ _ _ H (or_introl He)) as [[Hc _] _].
  assert (G : exists a, In a (s_patches (p_lib p)) /\ pcorr a en).
  { clear -Hc Hen. induction Hc as [|a x ps L H1 H2 IH]; [destruct Hen|].
    destruct Hen as [->|Hen]; [exists a; split; [left; reflexivity|exact H1]|].
    destruct (IH Hen) as (b & B1 & B2). exists b. split; [right; exact B1|exact B2]. }
  destruct G as (a & Ha & (A1 & A2 & A3 & A4)).
  assert (X : In d (map a_id (s_patches (p_lib p)))).
  { eapply deps_older_in; eauto; [apply li_deps; exact Hl|]. rewrite A3. apply in_rev in Hd. exact Hd. }
  rewrite (pcorr_ids _ _ Hc) in X. apply in_map_iff in X. destruct X as (en' & X1 & X2). eauto.
Qed.
Print Assumptions C03_log_is_closed.

(** A patch with a missing dependency is refused with EDEPEND; nothing changes. *)
Theorem C03_missing_dependency_refused :
  forall p e junk buf md d,
    s_err (p_lib p) = 0 -> no_pending p ->
    parse_metadata_from_mem junk buf = P_ok md -> md_type md <> 2 ->
    check_build_id (e_libs e) (md_bid_len md) (md_bid md) = N_match true ->
    In d (md_deps md) -> ~ In d (reported p) ->
    do_event (EvApply false e junk buf) p = Some (p, EDEPEND).
Proof.
  intros p e junk buf md d He Hn Hp Ht Hb Hd Hnd.
  rewrite open_gate by assumption. unfold load_patch. rewrite Hp.
  destruct (Z.eqb_spec (md_type md) 2) as [X|_]; [contradiction|].
  unfold check_patch_sanity. rewrite Hb.
  assert (D : check_patch_dependencies (p_lib p) (md_deps md) = EDEPEND).
  { pose proof (check_deps_iff (p_lib p) (md_deps md)) as G. unfold check_patch_dependencies in *.
    destruct (forallb _ _); [|reflexivity]. exfalso. destruct G as [G _]. specialize (G eq_refl).
    rewrite Forall_forall in G. apply Hnd. apply G. exact Hd. }
  rewrite D. repeat (change (negb (EDEPEND =? 0)) with true; cbv iota beta zeta). rewrite ?proc_eta. reflexivity.
Qed.
Print Assumptions C03_missing_dependency_refused.

(** A patch another applied patch depends on cannot be reverted: EDEPEND, nothing
    changes. *)
Theorem C03_needed_patch_not_reverted :
  forall m stale tr p e junk buf md a,
    history (fresh m stale) tr p -> s_err (p_lib p) = 0 -> no_pending p ->
    parse_metadata_from_mem junk buf = P_ok md -> md_type md = 2 ->
    In a (s_patches (p_lib p)) -> In (md_id md) (a_deps a) ->
    do_event (EvApply false e junk buf) p = Some (p, EDEPEND).
Proof.
  intros m stale tr p e junk buf md a H He Hn Hp Ht Ha Hd.
  rewrite open_gate by assumption. unfold load_patch. rewrite Hp, Ht. rewrite Z.eqb_refl.
  assert (X : In (md_id md) (reported p)) by (eapply C03_dependencies_stay_applied; eauto).
  assert (D : ulp_can_revert_patch (p_lib p) (md_id md) = EDEPEND).
  { unfold ulp_can_revert_patch. apply get_applied_iff in X. rewrite X. cbn [negb].
    assert (G : existsb (fun p0 => existsb (fun d => bytes_eqb d (md_id md)) (a_deps p0)) (s_patches (p_lib p)) = true).
    { apply existsb_exists. exists a. split; [exact Ha|]. apply existsb_exists. exists (md_id md). split; [exact Hd|].
      apply bytes_eqb_eq. reflexivity. }
    rewrite G. reflexivity. }
  rewrite D. repeat (change (negb (EDEPEND =? 0)) with true; cbv iota beta zeta). rewrite ?proc_eta. reflexivity.
Qed.
Print Assumptions C03_needed_patch_not_reverted.

(** Patch 2 needs patch 1: refused before, accepted after, and then 1 cannot be
    reverted. *)
Example C03_case :
  match run [ap 2 P2; ap 1 P1; ex; ap 2 P2; ex; rv 1 P1] w_start with
  | Some (p, l) => l = [EDEPEND; 0; 0; 0; 0; EDEPEND] /\ reported p = [repeat 2 32; repeat 1 32]
  | None => False
  end.
Proof. vm_compute. auto. Qed.

(** ** C04 *)

Lemma gate_nonzero busy st st' : gate busy st st' 0 -> False.
Proof. intros H. apply gate_u in H. destruct H as (_ & _ & _ & H). apply H. reflexivity. Qed.

Lemma revert_success p busy e junk buf md p' :
  parse_metadata_from_mem junk buf = P_ok md -> md_type md = 2 ->
  do_event (EvApply busy e junk buf) p = Some (p', 0) ->
  p_mem p' = p_mem p /\ ulp_can_revert_patch (p_lib p) (md_id md) = 0 /\
  ulp_revert_patch (p_mem p) (md_id md) (p_lib p) = (p_lib p', 0).
Proof.
  intros Hp Ht H. cbn [do_event] in H.
  destruct (ulp_apply_patch _ _ _ _ _ _) as [[st a]|] eqn:E; [|discriminate].
  apply Some_inj in H. assert (H1 : p' = mk_proc st (p_mem p)) by congruence. assert (H2 : a = 0) by congruence. clear H. subst.
  cbn [p_lib p_mem]. split; [reflexivity|].
  apply apply_outcome in E. destruct E as [E|(_ & _ & _ & E)]; [apply gate_nonzero in E; contradiction|].
  inversion E as [ans Ha|md' st' ans Hp' Ht' Hc Hr|md' st1 st2 ans Hp' Ht' Hb Hd Ha Hh Hu Hx]; subst.
  - contradiction.
  - rewrite Hp in Hp'. injection Hp' as <-. auto.
  - rewrite Hp in Hp'. injection Hp' as <-. lia.
Qed.

Lemma apply_success p busy e junk buf md p' :
  parse_metadata_from_mem junk buf = P_ok md -> md_type md <> 2 ->
  do_event (EvApply busy e junk buf) p = Some (p', 0) ->
  p_mem p' = p_mem p /\ ~ In (md_id md) (reported p) /\
  s_err (p_lib p) = 0 /\ q_empty (s_q (p_lib p)) /\ md_type md = 1 /\
  check_build_id (e_libs e) (md_bid_len md) (md_bid md) = N_match true /\
  Forall (fun d => In d (reported p)) (md_deps md) /\
  exists st1, ulp_state_update e (p_mem p) (e_dlopen e (md_so md)) md (p_lib p) = Some st1 /\
              ulp_apply_all_units e (p_mem p) (e_dlopen e (md_so md)) md st1 = Some (p_lib p', 0).
Proof.
  intros Hp Ht H. cbn [do_event] in H.
  destruct (ulp_apply_patch _ _ _ _ _ _) as [[st a]|] eqn:E; [|discriminate].
  apply Some_inj in H. assert (H1 : p' = mk_proc st (p_mem p)) by congruence. assert (H2 : a = 0) by congruence. clear H. subst.
  cbn [p_lib p_mem]. split; [reflexivity|].
  apply apply_outcome in E. destruct E as [E|(E1 & E2 & _ & E)]; [apply gate_nonzero in E; contradiction|].
  inversion E as [ans Ha|md' st' ans Hp' Ht' Hc Hr|md' st1 st2 ans Hp' Ht' Hb Hd Ha Hh Hu Hx]; subst.
  - contradiction.
  - rewrite Hp in Hp'. injection Hp' as <-. contradiction.
  - rewrite Hp in Hp'. injection Hp' as <-. cbn [Z.eqb].
    split; [|split; [exact E1|split; [exact E2|split; [exact Ht'|split; [exact Hb|split; [apply check_deps_iff; exact Hd|exists st1; auto]]]]]].
    intros X. apply get_applied_iff in X. congruence.
Qed.

(** C04: a successful revert request takes exactly the entry with the requested
    ID out of the list; every other entry stays as it is, in the same order. *)
Theorem C04_revert_removes_exactly_one :
  forall m stale tr p busy e junk buf md p',
    history (fresh m stale) tr p ->
    parse_metadata_from_mem junk buf = P_ok md -> md_type md = 2 ->
    do_event (EvApply busy e junk buf) p = Some (p', 0) ->
    exists newer_ones a older_ones,
      s_patches (p_lib p) = newer_ones ++ a :: older_ones /\
      s_patches (p_lib p') = newer_ones ++ older_ones /\
      a_id a = md_id md /\ ~ In (md_id md) (reported p').
Proof.
  intros m stale tr p busy e junk buf md p' H Hp Ht E.
  destruct (revert_success _ _ _ _ _ _ _ Hp Ht E) as (_ & _ & Hr).
  apply revert_patch_lists in Hr. destruct Hr as (_ & _ & _ & Hr & _). specialize (Hr eq_refl).
  apply state_remove_some in Hr. destruct Hr as (l1 & a & l2 & E1 & E2 & E3 & E4).
  exists l1, a, l2. split; [exact E1|]. split; [exact E2|]. split; [exact E3|].
  pose proof (li_ids _ (history_linv _ _ _ _ H)) as Hn. unfold reported. rewrite E2. rewrite E1 in Hn.
  rewrite map_app in *. cbn [map] in Hn. apply NoDup_remove_2 in Hn. rewrite E3 in Hn. exact Hn.
Qed.
Print Assumptions C04_revert_removes_exactly_one.

Lemma route_without log id f :
  (forall en, In en log -> en_id en = id -> repl_of (en_repl en) f = None) ->
  route (without_id id log) f = route log f.
Proof.
  induction log as [|en t IH]; intros H; [reflexivity|]. cbn [without_id filter route].
  fold (without_id id t). destruct (bytes_eqb (en_id en) id) eqn:E; cbn [negb].
  - apply bytes_eqb_eq in E. rewrite (H en (or_introl eq_refl) E). apply IH. intros x Hx. apply H. right. exact Hx.
  - cbn [route]. rewrite IH by (intros x Hx; apply H; right; exact Hx). reflexivity.
Qed.

(** Functions the reverted patch did not replace keep being routed as before. *)
Theorem C04_other_functions_keep_routing :
  forall F eb m stale tr busy e junk buf md te r p',
    functions_ok F eb m ->
    clean_history F eb (fresh m stale)
      (tr ++ [(EvApply busy e junk buf, 0); (EvExec te, r)]) p' ->
    parse_metadata_from_mem junk buf = P_ok md -> md_type md = 2 ->
    s_err (p_lib p') = 0 -> no_pending p' ->
    forall f, In f F ->
      (forall en, In en (log_of tr) -> en_id en = md_id md -> repl_of (en_repl en) f = None) ->
      calls_go (p_mem p') (eb f) f (route (log_of tr) f).
Proof.
  intros F eb m stale tr busy e junk buf md te r p' HF H Hp Ht He Hn f Hf Hr.
  pose proof (C01_calls_follow_newest_patch _ _ _ _ _ _ HF H He Hn f Hf) as G.
  change [(EvApply busy e junk buf, 0); (EvExec te, r)] with ([(EvApply busy e junk buf, 0)] ++ [(EvExec te, r)]) in G.
  rewrite app_assoc, !log_of_snoc in G. cbn [log_step] in G. rewrite Z.eqb_refl, Hp, Ht in G. rewrite Z.eqb_refl in G.
  rewrite route_without in G by exact Hr. exact G.
Qed.
Print Assumptions C04_other_functions_keep_routing.

(** Applying a patch and reverting it again restores the list and the routing of
    every function. *)
Theorem C04_apply_then_revert_restores :
  forall F eb m stale tr p b1 e1 j1 buf1 md1 te1 r1 b2 e2 j2 buf2 md2 te2 r2 p1 p2 p3 p4,
    functions_ok F eb m ->
    clean_history F eb (fresh m stale) tr p ->
    parse_metadata_from_mem j1 buf1 = P_ok md1 -> md_type md1 <> 2 ->
    parse_metadata_from_mem j2 buf2 = P_ok md2 -> md_type md2 = 2 -> md_id md2 = md_id md1 ->
    event_ok F eb p (EvApply b1 e1 j1 buf1) -> do_event (EvApply b1 e1 j1 buf1) p = Some (p1, 0) ->
    event_ok F eb p1 (EvExec te1) -> do_event (EvExec te1) p1 = Some (p2, r1) ->
    event_ok F eb p2 (EvApply b2 e2 j2 buf2) -> do_event (EvApply b2 e2 j2 buf2) p2 = Some (p3, 0) ->
    event_ok F eb p3 (EvExec te2) -> do_event (EvExec te2) p3 = Some (p4, r2) ->
    s_err (p_lib p4) = 0 -> no_pending p4 ->
    s_patches (p_lib p4) = s_patches (p_lib p) /\
    forall f, In f F -> calls_go (p_mem p4) (eb f) f (route (log_of tr) f).
Proof.
  intros F eb m stale tr p b1 e1 j1 buf1 md1 te1 r1 b2 e2 j2 buf2 md2 te2 r2 p1 p2 p3 p4
    HF H Hp1 Ht1 Hp2 Ht2 Hid O1 D1 O2 D2 O3 D3 O4 D4 He Hn.
  assert (C1 : clean_history F eb (fresh m stale) (tr ++ [(EvApply b1 e1 j1 buf1, 0)]) p1) by (eapply clean_step; eauto).
  assert (C2 := clean_step _ _ _ _ _ _ _ _ C1 O2 D2).
  assert (C3 := clean_step _ _ _ _ _ _ _ _ C2 O3 D3).
  assert (C4 := clean_step _ _ _ _ _ _ _ _ C3 O4 D4).
  destruct (apply_success _ _ _ _ _ _ _ Hp1 Ht1 D1) as (M1 & N1 & E0 & Q0 & T1 & B1 & F1 & st1 & U1 & A1).
  assert (HE : s_patches (p_lib p2) = s_patches (p_lib p1) /\ s_err (p_lib p2) = s_err (p_lib p1)).
  { cbn [do_event] in D2. destruct (insnq_interpret_from_process _ _ _ _) as [[[x y] z]|]; [|discriminate].
    injection D2 as <- <-. split; reflexivity. }
  assert (HE4 : s_patches (p_lib p4) = s_patches (p_lib p3) /\ s_err (p_lib p4) = s_err (p_lib p3)).
  { cbn [do_event] in D4. destruct (insnq_interpret_from_process _ _ _ _) as [[[x y] z]|]; [|discriminate].
    injection D4 as <- <-. split; reflexivity. }
  split.
  - destruct HE4 as [-> _].
    destruct (revert_success _ _ _ _ _ _ _ Hp2 Ht2 D3) as (_ & _ & Hr).
    apply revert_patch_lists in Hr. destruct Hr as (_ & _ & _ & Hr & _). specialize (Hr eq_refl).
    destruct HE as [HE _]. rewrite HE in Hr. apply apply_all_lists in A1. destruct A1 as [A1 _]. rewrite A1 in Hr.
    apply state_update_some in U1. destruct U1 as (us & _ & ->). cbn [s_patches set_patches state_remove a_id] in Hr.
    rewrite Hid in Hr. rewrite (proj2 (bytes_eqb_eq _ _) eq_refl) in Hr. injection Hr as Hr. symmetry. exact Hr.
  - intros f Hf.
    pose proof (C01_calls_follow_newest_patch _ _ _ _ _ _ HF C4 He Hn f Hf) as G.
    rewrite !log_of_snoc in G. cbn [log_step] in G. rewrite !Z.eqb_refl, Hp1, Hp2, Ht2, Hid in G.
    destruct (Z.eqb_spec (md_type md1) 2) as [X|_]; [contradiction|]. rewrite Z.eqb_refl in G.
    assert (L : without_id (md_id md1) (entry_of e1 md1 :: log_of tr) = log_of tr).
    { cbn [without_id filter entry_of en_id]. rewrite (proj2 (bytes_eqb_eq _ _) eq_refl). cbn [negb].
      apply filter_all. intros en Hen. destruct (bytes_eqb (en_id en) (md_id md1)) eqn:Eb; [|reflexivity].
      exfalso. apply bytes_eqb_eq in Eb. apply N1. unfold reported.
      destruct (history_corr m stale tr p) as [[Hc _] _]; [eapply clean_is_history; eauto|left; exact E0|].
      rewrite (pcorr_ids _ _ Hc). rewrite <- Eb. apply in_map. exact Hen. }
    rewrite L in G. exact G.
Qed.
Print Assumptions C04_apply_then_revert_restores.

(** Patch 3 (replacing f, like patch 1) is applied on top of 1 and reverted: f goes
    to patch 1 again; reverting 1 as well leaves nothing. *)
Example C04_case :
  match run [ap 1 P1; ex; ap 3 P3; ex; rv 3 P3; ex] w_start with
  | Some (p, l) => l = [0; 0; 0; 0; 0; 0] /\ reported p = [repeat 1 32] /\ s_err (p_lib p) = 0 /\
      q_num (s_q (p_lib p)) = 0 /\ q_size (s_q (p_lib p)) = 0
  | None => False
  end /\
  match run [ap 1 P1; ex; ap 3 P3; ex; rv 3 P3; ex; rv 1 P1; ex] w_start with
  | Some (p, l) => l = [0; 0; 0; 0; 0; 0; 0; 0] /\ reported p = []
  | None => False
  end.
Proof. vm_compute. auto 10. Qed.

(** ** C06 *)

(** Every function of the patch is livepatchable, and everything its references
    need can be found. *)
Definition applicable (m : mem) (e : dlenv) (md : meta) : Prop :=
  let h := e_dlopen e (md_so md) in
  (forall f g, In (f, g) (replacements e md) -> exists endbr, livepatchable m endbr f) /\
  get_loaded_library_base_addr (e_prog e) (e_libs2 e) (get_basename (md_name md)) <> 255 /\
  (exists la, e_laddr e h = Some la /\ la <> 0) /\
  (forall r, In r (md_refs md) -> rf_poff r <> 0 \/ exists n, rf_name r = Some n /\ e_dlsym e h n <> 0).

Lemma apply_units_succeeds e m libname h id us l st :
  resolve_units e m libname h us = Some l ->
  (forall f g, In (f, g) (unit_pairs e libname h us) -> exists endbr, livepatchable m endbr f) ->
  exists st', apply_units e m libname h id us st = (st', 0).
Proof.
  revert l st; induction us as [|u us IH]; intros l st Hr Hl; [eexists; reflexivity|].
  cbn [resolve_units] in Hr. cbn [unit_pairs map] in Hl. cbn [apply_units].
  destruct (Z.eqb_spec (get_loaded_symbol_addr (e_prog e) (e_libs2 e) libname (u_old u) (u_addr u)) 0) as [E1|E1]; [discriminate|].
  destruct (Z.eqb_spec (e_dlsym e h (u_new u)) 0) as [E2|E2]; [discriminate|].
  destruct (resolve_units e m libname h us) as [l'|] eqn:Er; [|discriminate].
  rewrite patch_addr_eq.
  destruct (Hl _ _ (or_introl eq_refl)) as [eb Hlp]. rewrite (livepatchable_looks _ _ _ Hlp).
  cbn [Z.gtb Z.compare]. eapply IH; [reflexivity|]. intros f g Hin. apply (Hl f g). right. exact Hin.
Qed.

Lemma apply_refs_succeeds e h tb ti pb refs st st' ret :
  (forall r, In r refs -> rf_poff r <> 0 \/ exists n, rf_name r = Some n /\ e_dlsym e h n <> 0) ->
  apply_refs e h tb ti pb refs st = Some (st', ret) -> ret = 0.
Proof.
  revert st; induction refs as [|r refs IH]; intros st Hr H.
  - cbn in H. congruence.
  - cbn [apply_refs] in H. assert (IH' := fun st => IH st (fun x Hx => Hr x (or_intror Hx))).
    destruct (Z.eqb_spec (rf_poff r) 0) as [E|E]; [|apply IH' in H; exact H].
    destruct (Hr r (or_introl eq_refl)) as [X|(n & X1 & X2)]; [contradiction|].
    rewrite X1 in H. destruct (Z.eqb_spec (e_dlsym e h n) 0); [contradiction|]. apply IH' in H. exact H.
Qed.

(** C06, the part that holds. A failed application never touches memory by
    itself and never makes `ulp check` report a patch that was not reported
    before. It leaves the list, the routing tables and the pending writes as they
    were, unless some function of the patch is not livepatchable or some
    reference cannot be found (then the error state is set).
    Missing: those two cases, see [C06_failed_application_refuted]. *)
Theorem C06_failed_application_partial :
  forall p busy e junk buf md p' ans,
    parse_metadata_from_mem junk buf = P_ok md -> md_type md <> 2 ->
    do_event (EvApply busy e junk buf) p = Some (p', ans) -> ans <> 0 ->
    p_mem p' = p_mem p /\
    (forall id, check_answer p' id = 1 -> check_answer p id = 1) /\
    ((s_patches (p_lib p') = s_patches (p_lib p) /\ s_roots (p_lib p') = s_roots (p_lib p) /\
      s_q (p_lib p') = s_q (p_lib p)) \/
     (s_err (p_lib p') = EUNKNOWN /\ ~ applicable (p_mem p) e md)).
Proof.
  intros p busy e junk buf md p' ans Hp Ht H Hz. cbn [do_event] in H.
  destruct (ulp_apply_patch _ _ _ _ _ _) as [[st a]|] eqn:E; [|discriminate]. injection H as <- <-. cbn [p_lib p_mem].
  split; [reflexivity|]. unfold check_answer, ulp_check_applied_patch. cbn [p_lib].
  apply apply_outcome in E. destruct E as [E|(E0 & _ & _ & E)].
  - split.
    + intros id. destruct E as [E|E E1|E E1 E2]; auto. cbn. intros X. discriminate.
    + left. destruct E; auto.
  - inversion E as [ans Ha|md' st' ans Hp' Ht' Hc Hr|md' st1 st2 ans Hp' Ht' Hb Hd Ha Hh Hu Hx]; subst.
    + split; auto.
    + rewrite Hp in Hp'. injection Hp' as <-. contradiction.
    + rewrite Hp in Hp'. injection Hp' as <-. destruct (Z.eqb_spec a 0) as [Xz|_]; [contradiction|].
      split; [cbn; intros id X; discriminate|]. right. split; [reflexivity|].
      intros (A1 & A2 & (la & A3 & A4) & A5). apply Hz.
      unfold ulp_state_update in Hu. destruct (resolve_units _ _ _ _ _) as [l|] eqn:Er; [|discriminate].
      unfold ulp_apply_all_units in Hx.
      destruct (apply_units_succeeds e (p_mem p) _ _ (md_id md) _ _ (next_universe st1) Er A1) as [st3 G].
      rewrite G in Hx. cbn [negb Z.eqb] in Hx.
      destruct (Z.eqb_spec (get_loaded_library_base_addr (e_prog e) (e_libs2 e) (get_basename (md_name md))) 255); [contradiction|].
      rewrite A3 in Hx. destruct (Z.eqb_spec la 0); [contradiction|].
      eapply apply_refs_succeeds; eauto.
Qed.
Print Assumptions C06_failed_application_partial.

(** Patch 5 names a function that does not exist: refused, nothing changes. *)
Example C06_case :
  match run [ap 5 P5; ex; ap 1 P1; ex] w_start with
  | Some (p, l) => l = [ESTATE; 0; 0; 0] /\ reported p = [repeat 1 32]
  | None => False
  end.
Proof. vm_compute. auto. Qed.

(** The world with a function h that is not livepatchable. *)
Definition w_mem6 : mem := fun x => if x =? w_h then 195 else 144.
Definition P6 := w_patch 6 libfoo [zs "f"; zs "h"] [] [].
Definition w_buf (k : Z) (p : pmeta) : list Z :=
  bytes_of (extract_ulp_from_so_to_mem (create_patch_metadata_file p) (w_path k)).

(** C06 is false of the code: a patch with two functions, the second of which
    is not livepatchable, is answered with ENOPATCHABLE by the tool, but calls of
    the first function go to the patch afterwards, and the patch is listed. *)
Theorem C06_failed_application_refuted :
  exists (p p' : proc) (e : dlenv) (buf : list Z) (f g : Z),
    p = fresh w_mem6 (fun _ => 0) /\
    tool_apply_patch env_ok 0 false e 0 buf p = Some (p', ENOPATCHABLE) /\
    calls_go (p_mem p) false f None /\
    calls_go (p_mem p') false f (Some g) /\
    reported p = [] /\ reported p' <> [].
Proof.
  set (p := fresh w_mem6 (fun _ => 0)).
  assert (X : match tool_apply_patch env_ok 0 false w_env 0 (w_buf 6 P6) p with
    | Some (p', r) => r = ENOPATCHABLE /\ cpu_step (p_mem p') w_f = Some (w_f - 14) /\
        cpu_step (p_mem p') (w_f - 14) = Some (6291968) /\ reported p' = [repeat 6 32]
    | None => False end) by (vm_compute; auto).
  destruct (tool_apply_patch env_ok 0 false w_env 0 (w_buf 6 P6) p) as [[p' r]|] eqn:E; [|contradiction].
  destruct X as (-> & X1 & X2 & X3).
  exists p, p', w_env, (w_buf 6 P6), w_f, 6291968. split; [reflexivity|]. split; [exact E|]. split; [|split; [|split]].
  - exists [w_f; w_f + 1]. split.
    + eapply gt_step; [reflexivity|]. eapply gt_step; [reflexivity|]. apply gt_here.
    + unfold body, slot. intros a [<-|[<-|[]]]; lia.
  - exists [w_f; w_f - 14]. split.
    + eapply gt_step; [exact X1|]. eapply gt_step; [exact X2|]. apply gt_here.
    + unfold in_window, body, slot. intros a [<-|[<-|[]]]; lia.
  - reflexivity.
  - rewrite X3. discriminate.
Qed.
Print Assumptions C06_failed_application_refuted.

(** ** C07 *)

(** C07: in an error state every request is answered with that error, and
    nothing at all changes. *)
Theorem C07_error_state_refuses :
  forall p ev, s_err (p_lib p) <> 0 -> is_request ev -> do_event ev p = Some (p, s_err (p_lib p)).
Proof.
  intros p ev He Hr. destruct ev as [busy e junk buf|busy e name| |te|m']; try contradiction; cbn [do_event].
  - unfold ulp_apply_patch, ENONE. destruct (Z.eqb_spec (s_err (p_lib p)) 0); [contradiction|]. cbn [negb].
    rewrite proc_eta. reflexivity.
  - unfold ulp_revert_patches_from_lib, ENONE. destruct (Z.eqb_spec (s_err (p_lib p)) 0); [contradiction|]. cbn [negb].
    rewrite proc_eta. reflexivity.
Qed.
Print Assumptions C07_error_state_refuses.

(** ... for every sequence of requests, and, unless the state is the user's
    block, whatever else happens in between (set_patchable, executions of the
    queue, the program running). *)
Theorem C07_error_state_is_final :
  forall p tr p', history p tr p' ->
    s_err (p_lib p) <> 0 -> s_err (p_lib p) <> EUSRBLOCKED ->
    s_err (p_lib p') = s_err (p_lib p) /\ s_patches (p_lib p') = s_patches (p_lib p) /\
    s_roots (p_lib p') = s_roots (p_lib p) /\ s_universe (p_lib p') = s_universe (p_lib p) /\
    forall ev ans, In (ev, ans) tr -> is_request ev -> ans = s_err (p_lib p).
Proof.
  intros p tr p' H He Hu. induction H as [|tr q ev q' ans H IH E].
  - repeat split; auto. intros ev ans [].
  - destruct IH as (I1 & I2 & I3 & I4 & I5).
    assert (G : s_err (p_lib q') = s_err (p_lib p) /\ s_patches (p_lib q') = s_patches (p_lib p) /\
      s_roots (p_lib q') = s_roots (p_lib p) /\ s_universe (p_lib q') = s_universe (p_lib p) /\ (is_request ev -> ans = s_err (p_lib p))).
    { destruct ev as [busy e junk buf|busy e name| |te|m'].
      1-2: rewrite C07_error_state_refuses in E by (rewrite ?I1; cbn; auto); apply Some_inj in E;
        assert (q' = q) by congruence; assert (ans = s_err (p_lib q)) by congruence; subst; rewrite I1; auto.
      - cbn [do_event] in E. unfold ulp_enable_or_disable_patching in E. rewrite I1 in E. unfold ENONE in E.
        destruct (Z.eqb_spec (s_err (p_lib p)) 0); [contradiction|].
        destruct (Z.eqb_spec (s_err (p_lib p)) EUSRBLOCKED); [contradiction|].
        injection E as <- <-. cbn [p_lib]. repeat split; auto; intros [].
      - cbn [do_event] in E. destruct (insnq_interpret_from_process _ _ _ _) as [[[x y] z]|]; [|discriminate].
        injection E as <- <-. cbn. repeat split; auto; intros [].
      - cbn [do_event] in E. injection E as <- <-. cbn. repeat split; auto; intros []. }
    destruct G as (G1 & G2 & G3 & G4 & G5). repeat split; auto.
    intros ev0 ans0 Hin Hr. apply in_app_iff in Hin. destruct Hin as [Hin|[Hin|[]]]; [eapply I5; eauto|].
    injection Hin as <- <-. auto.
Qed.
Print Assumptions C07_error_state_is_final.

(** The failed application of patch 6 leaves an error state; patch 3 is refused
    with that error, before and after the pending writes are executed. *)
Example C07_case :
  match run [ap 6 P6; ap 3 P3; ex; EvToggle; EvRevertAll false w_env libfoo] (fresh w_mem6 (fun _ => 0)) with
  | Some (p, l) => l = [ENOPATCHABLE; EUNKNOWN; 0; EUNKNOWN; EUNKNOWN] /\ reported p = [repeat 6 32]
  | None => False
  end.
Proof. vm_compute. auto. Qed.

(** ** C09 *)

(** C09: set_patchable moves between 'patchable' and 'blocked by user', and
    nothing else; any other error state stays. *)
Theorem C09_toggle :
  forall p p' ans, do_event EvToggle p = Some (p', ans) ->
    ans = s_err (p_lib p') /\
    s_patches (p_lib p') = s_patches (p_lib p) /\ s_roots (p_lib p') = s_roots (p_lib p) /\
    s_universe (p_lib p') = s_universe (p_lib p) /\ s_q (p_lib p') = s_q (p_lib p) /\ p_mem p' = p_mem p /\
    (s_err (p_lib p) = 0 -> s_err (p_lib p') = EUSRBLOCKED) /\
    (s_err (p_lib p) = EUSRBLOCKED -> s_err (p_lib p') = 0) /\
    (s_err (p_lib p) <> 0 -> s_err (p_lib p) <> EUSRBLOCKED -> p' = p) /\
    exists a2, do_event EvToggle p' = Some (p, a2).
Proof.
  intros p p' ans H. cbn [do_event] in *. unfold ulp_enable_or_disable_patching, ENONE in *.
  destruct p as [[ps rs u c err q] m]. cbn [p_lib p_mem s_err] in *.
  destruct (Z.eqb_spec err 0) as [->|E]; [|destruct (Z.eqb_spec err EUSRBLOCKED) as [->|E2]];
    injection H as <- <-; cbn [p_lib p_mem s_err set_err s_patches s_roots s_universe s_ctr s_q];
    repeat split; auto; try contradiction; try (intros X; exfalso; unfold EUSRBLOCKED in *; lia).
  - eexists. reflexivity.
  - eexists. reflexivity.
  - destruct (Z.eqb_spec err 0); [contradiction|]. destruct (Z.eqb_spec err EUSRBLOCKED); [contradiction|]. eexists. reflexivity.
Qed.
Print Assumptions C09_toggle.

(** Blocked by the user, a request is refused; unblocked, it is accepted, and the
    patch applied before the block is still there. *)
Example C09_case :
  match run [ap 1 P1; ex; EvToggle; ap 3 P3; EvToggle; ap 3 P3; ex] w_start with
  | Some (p, l) => l = [0; 0; EUSRBLOCKED; EUSRBLOCKED; 0; 0; 0] /\ reported p = [repeat 3 32; repeat 1 32]
  | None => False
  end.
Proof. vm_compute. auto. Qed.
