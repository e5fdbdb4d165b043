(** Property theorems about the commands of the tool (C65 to C69). *)
From Coq Require Import String.
From Verif Require Import Base BaseFacts StrModel InsnQModel MetaModel MetaSpec MetaProps LibModel PtModel HjModel TextModel
  TrModel CmdModel CmdSpec CmdProofs.

(** ** C65, check *)

(** C65, the part that holds: if every step succeeds and libpulp works, the command ends
    with 1 exactly if the patch of the container is applied and with 0 exactly if it is
    not. Missing: see the refutations below. *)
Theorem C65_check_partial :
  forall (p : pmeta) (e : check_env) (junk : Z) (st : lstate),
    pmeta_ok p -> ce_section e = Some (create_patch_metadata_file p) -> fits p (named (ce_path e) (ce_real e)) ->
    check_steps_ok e (seen_patch p (named (ce_path e) (ce_real e))) -> s_err st = ENONE ->
    (run_check e junk st = R_value 1 <-> applied st (pm_id p)) /\
    (run_check e junk st = R_value 0 <-> ~ applied st (pm_id p)) /\
    (run_check e junk st = R_value 0 \/ run_check e junk st = R_value 1).
Proof.
  intros p e junk st Hp Hs Hf Ho He.
  destruct (extract_packed p None (ce_path e) (ce_real e) Hp Hf) as (b & Hx & Hr).
  rewrite <- Hs in Hx. cbn [app] in Hr. rewrite (run_check_parsed _ _ _ _ _ Hx (Hr junk)).
  destruct (check_rest_cases e st (seen_patch p (named (ce_path e) (ce_real e)))) as [(_ & G)|(-> & _)];
    [contradiction|].
  change (md_id (seen_patch p (named (ce_path e) (ce_real e)))) with (pm_id p).
  destruct (check_answer st (pm_id p) He) as [(A & ->)|(A & ->)].
  - split; [tauto|]. split; [split; [discriminate|contradiction]|auto].
  - split; [split; [discriminate|contradiction]|]. split; [tauto|auto].
Qed.
Print Assumptions C65_check_partial.

Definition ex_check : check_env :=
  mk_check_env (Some (create_patch_metadata_file sample)) (zs "p.so") (Some sample_path) true 0 (fun _ => 0) 0 true 0 0.
Definition ex_lib (patches : list apatch) (err : Z) : lstate := mk_ls patches [] 0 0 err (mk_insnq 3 0 0 (fun _ => 0)).
Definition ex_applied : list apatch := [mk_apatch (pm_id sample) (zs "libc.so") (zs "/p.so") [] []].

Example C65_check_case :
  pmeta_ok sample /\ ce_section ex_check = Some (create_patch_metadata_file sample) /\
  fits sample (named (ce_path ex_check) (ce_real ex_check)) /\
  check_steps_ok ex_check (seen_patch sample (named (ce_path ex_check) (ce_real ex_check))) /\
  s_err (ex_lib ex_applied 0) = ENONE /\
  run_check ex_check 0 (ex_lib ex_applied 0) = R_value 1 /\ run_check ex_check 0 (ex_lib [] 0) = R_value 0.
Proof.
  split; [exact sample_ok|]. split; [reflexivity|]. split.
  { split; [repeat constructor; unfold is_cchar; lia|]. split; [discriminate|]. split; reflexivity. }
  repeat split; reflexivity.
Qed.

(** C65: 0 is never answered for an applied patch by a working libpulp, and 1 only if the
    patch is applied or its container could not be used. Every other failure ends
    with -1, the exit status 255. *)
Theorem C65_answers :
  forall (e : check_env) (junk : Z) (st : lstate) (v : Z),
    run_check e junk st = R_value v ->
    (exists b md, extract (ce_section e) None (ce_path e) (ce_real e) = P_ok (X_meta b) /\
       parse_metadata_from_mem junk b = P_ok md /\
       ((v = -1 /\ exit_code v = 255 /\ ~ check_steps_ok e md) \/
        (v = 0 /\ check_steps_ok e md /\ (s_err st = ENONE -> ~ applied st (md_id md))) \/
        (v = 1 /\ check_steps_ok e md /\ s_err st = ENONE /\ applied st (md_id md)))) \/
    (v = 1 /\ (no_metadata e \/
       exists b c, extract (ce_section e) None (ce_path e) (ce_real e) = P_ok (X_meta b) /\
                   parse_metadata_from_mem junk b = P_err c)).
Proof.
  intros e junk st v H.
  destruct (extract (ce_section e) None (ce_path e) (ce_real e)) as [| |c|x] eqn:X;
    try (unfold run_check in H; rewrite X in H; discriminate).
  destruct x as [| |b].
  - right. unfold run_check in H. rewrite X in H. split; [congruence|]. left. unfold no_metadata.
    unfold extract in X. destruct (ce_section e) as [data|]; [|reflexivity]. exfalso.
    destruct (metadata_path _ _ _) as [path|]; [|discriminate].
    destruct (extract_ulp_from_so_to_mem data path) as [| |?|o]; try discriminate. destruct o; discriminate.
  - unfold run_check in H; rewrite X in H; discriminate.
  - destruct (parse_metadata_from_mem junk b) as [| |c|md] eqn:P;
      try (unfold run_check in H; rewrite X, P in H; discriminate).
    + right. unfold run_check in H. rewrite X, P in H. split; [congruence|]. right. exists b, c. auto.
    + left. exists b, md. split; [reflexivity|]. split; [exact P|].
      rewrite (run_check_parsed _ _ _ _ _ X P) in H. injection H as <-.
      destruct (check_rest_cases e st md) as [(-> & N)|(-> & O)]; [left; repeat split; auto|].
      destruct (Z.eq_dec (s_err st) ENONE) as [E|E].
      * destruct (check_answer st (md_id md) E) as [(A & ->)|(A & ->)]; [right; right; auto|right; left; auto].
      * right; left. split; [|auto]. unfold ulp_check_applied_patch.
        destruct (Z.eqb_spec (s_err st) ENONE); [contradiction|reflexivity].
Qed.
Print Assumptions C65_answers.

Example C65_answers_case :
  run_check (mk_check_env (Some (create_patch_metadata_file sample)) (zs "p.so") (Some sample_path) true 0
               (fun _ => 0) EBUILDID true 0 0) 0 (ex_lib ex_applied 0) = R_value (-1).
Proof. reflexivity. Qed.

(** C65 is false when libpulp is in an error state: an applied patch is reported as not
    applied. *)
Theorem C65_error_state_refuted :
  exists (p : pmeta) (e : check_env) (st : lstate),
    pmeta_ok p /\ ce_section e = Some (create_patch_metadata_file p) /\ fits p (named (ce_path e) (ce_real e)) /\
    check_steps_ok e (seen_patch p (named (ce_path e) (ce_real e))) /\
    applied st (pm_id p) /\ s_err st = EUSRBLOCKED /\ forall junk, run_check e junk st = R_value 0.
Proof.
  exists sample, ex_check, (ex_lib ex_applied EUSRBLOCKED). destruct C65_check_case as (H1 & H2 & H3 & H4 & _).
  split; [exact H1|]. split; [exact H2|]. split; [exact H3|]. split; [exact H4|].
  split; [left; reflexivity|]. split; [reflexivity|]. intros junk. reflexivity.
Qed.
Print Assumptions C65_error_state_refuted.

(** C65 is false for a file that is not a live patch: the command ends with 1, as if a
    patch were applied. *)
Theorem C65_no_metadata_refuted :
  exists (e : check_env), no_metadata e /\ forall junk st, s_patches st = [] -> run_check e junk st = R_value 1.
Proof.
  exists (mk_check_env None (zs "p.so") None true 0 (fun _ => 0) 0 true 0 0). split; [reflexivity|].
  intros junk st _. reflexivity.
Qed.
Print Assumptions C65_no_metadata_refuted.

(** C65: metadata that do not fit make the command read a pointer that was never set, for
    every description and path. The same holds for dump. *)
Theorem C65_oversized_refuted :
  forall (p : pmeta) (e : check_env) (junk : Z) (st : lstate) (only : bool),
    let path := named (ce_path e) (ce_real e) in
    ce_section e = Some (create_patch_metadata_file p) ->
    zlen (create_patch_metadata_file p) + 4 + (zlen path + 1) < 2 ^ 32 ->
    PATH_MAX <= zlen path + 1 \/
    ULP_METADATA_BUF_LEN <= zlen (create_patch_metadata_file p) + 4 + (zlen path + 1) ->
    run_check e junk st = R_undefined /\ run_dump (ce_section e) (ce_path e) (ce_real e) only junk = None.
Proof.
  intros p e junk st only path Hs Hw Hb.
  pose proof (C18_oversized_refused p path Hw Hb) as R.
  assert (X : extract (ce_section e) None (ce_path e) (ce_real e) = P_ok X_untouched).
  { unfold extract, metadata_path. rewrite Hs. fold (named (ce_path e) (ce_real e)). fold path. rewrite R. reflexivity. }
  unfold run_check, run_dump. rewrite X. split; reflexivity.
Qed.
Print Assumptions C65_oversized_refuted.

Example C65_oversized_case :
  let e := mk_check_env (Some (create_patch_metadata_file sample)) (repeat 65 4096) None true 0 (fun _ => 0) 0 true 0 0 in
  zlen (create_patch_metadata_file sample) + 4 + (zlen (named (ce_path e) (ce_real e)) + 1) < 2 ^ 32 /\
  PATH_MAX <= zlen (named (ce_path e) (ce_real e)) + 1.
Proof. split; [reflexivity|]. intros H. discriminate H. Qed.

(** ** C66, set_patchable *)

(** C66, safety: whatever the attempts meet and however old the state the tool has read
    is, only libpulp's error state can change, and only between enabled and disabled;
    "now enabled" or "now disabled" is said only if it is true; if nothing is said,
    nothing was done. *)
Theorem C66_effect :
  forall (state : Z) (enable : bool) (retries : nat) (tries : nat -> sp_try) (st st' : lstate) (out : sp_out),
    (forall i, rr_result (sp_run (tries i))) -> s_err st <> EAGAIN ->
    enable_or_disable_patching state enable retries tries st = (st', out) ->
    same_but_err st' st /\
    (s_err st' = s_err st \/
     (s_err st = ENONE /\ s_err st' = EUSRBLOCKED) \/ (s_err st = EUSRBLOCKED /\ s_err st' = ENONE)) /\
    (forall b r, out = S_done (M_now b) r -> b = enable /\ s_err st' = wanted enable) /\
    (forall r, out = S_done M_nothing r -> st' = st) /\
    (state <> wanted (negb enable) -> st' = st).
Proof.
  intros state enable retries tries st st' out Hr Ha H. unfold enable_or_disable_patching in H.
  assert (Same : same_but_err st st) by (repeat split; reflexivity).
  destruct (((state =? ENONE) && negb enable) || ((state =? EUSRBLOCKED) && enable)) eqn:G.
  2:{ inversion H; subst. split; [exact Same|]. split; [auto|].
      split; [intros b r X; discriminate|]. split; auto. }
  assert (W : state = wanted (negb enable)).
  { apply Bool.orb_true_iff in G as [G|G]; apply andb_true_iff in G as (G1 & G2); apply Z.eqb_eq in G1;
      destruct enable; try discriminate; exact G1. }
  destruct retries as [|n].
  { cbn [sp_loop] in H. inversion H; subst. split; [exact Same|]. split; [auto|].
    split; [intros b r X; discriminate|]. split; [auto|]. intros X. contradiction. }
  destruct (sp_loop_once n tries 0 st None) as [L|N]; [apply Forall_forall; intros; apply Hr|exact Ha| |].
  2:{ exfalso. apply N, Hr. }
  rewrite L in H. clear L. destruct (negb (sp_hijack (tries 0%nat) =? 0)).
  { inversion H; subst. split; [exact Same|]. split; [auto|].
    split; [intros b r X; discriminate|]. split; [auto|]. intros X. contradiction. }
  specialize (Hr 0%nat). set (a := tries 0%nat) in *.
  unfold run_enable_disable_patching in H.
  destruct ((sp_run a =? 0) || sp_ran a) eqn:Ran.
  - rewrite (surjective_pairing (ulp_enable_or_disable_patching st)) in H. fold (toggled st) in H.
    assert (E2 : snd (ulp_enable_or_disable_patching st) = s_err (toggled st)) by reflexivity.
    rewrite E2 in H. clear E2. inversion H; subst st' out. clear H.
    split; [apply toggled_same|]. split.
    { unfold toggled, ulp_enable_or_disable_patching. cbn [fst].
      destruct (Z.eqb_spec (s_err st) ENONE) as [E|E]; [right; left; auto|].
      destruct (Z.eqb_spec (s_err st) EUSRBLOCKED) as [E'|E']; [right; right; auto|left; reflexivity]. }
    split.
    { intros b r X. destruct (sp_run a =? 0) eqn:R0.
      - destruct (((s_err (toggled st) =? ENONE) && enable) || ((s_err (toggled st) =? EUSRBLOCKED) && negb enable)) eqn:O;
          [|discriminate]. injection X as <- _. split; [reflexivity|].
        apply Bool.orb_true_iff in O as [O|O]; apply andb_true_iff in O as (O1 & O2); apply Z.eqb_eq in O1;
          destruct enable; try discriminate; exact O1.
      - apply Z.eqb_neq in R0.
        destruct (((sp_run a =? ENONE) && enable) || ((sp_run a =? EUSRBLOCKED) && negb enable)) eqn:O; [|discriminate].
        exfalso. apply Bool.orb_true_iff in O as [O|O]; apply andb_true_iff in O as (O1 & O2); apply Z.eqb_eq in O1;
          unfold rr_result, ENONE, EUSRBLOCKED, ETARGETHOOK, ETIME, EUNKNOWN in *; lia. }
    split; [|intros X; contradiction].
    intros r X. exfalso. destruct (_ || _) in X; discriminate.
  - apply Bool.orb_false_iff in Ran as (R0 & _). rewrite R0 in H. inversion H; subst st' out. clear H.
    split; [exact Same|]. split; [auto|]. apply Z.eqb_neq in R0. split.
    { intros b r X.
      destruct (((sp_run a =? ENONE) && enable) || ((sp_run a =? EUSRBLOCKED) && negb enable)) eqn:O; [|discriminate].
      exfalso. apply Bool.orb_true_iff in O as [O|O]; apply andb_true_iff in O as (O1 & O2); apply Z.eqb_eq in O1;
        unfold rr_result, ENONE, EUSRBLOCKED, ETARGETHOOK, ETIME, EUNKNOWN in *; lia. }
    split; [auto|]. auto.
Qed.
Print Assumptions C66_effect.

(** The hypothesis about run_and_redirect is met by every execution of it. *)
Theorem C66_results_possible :
  forall ar e t ctx routine, rr_result (fst (fst (run_and_redirect ar e t ctx routine))).
Proof. exact rr_result_always. Qed.
Print Assumptions C66_results_possible.

Definition ex_ok : sp_try := mk_sp 0 0 true 0.
Example C66_effect_case :
  rr_result (sp_run ex_ok) /\ s_err (ex_lib ex_applied 0) <> EAGAIN /\
  enable_or_disable_patching 0 false 3 (fun _ => ex_ok) (ex_lib ex_applied 0) =
    (ex_lib ex_applied EUSRBLOCKED, S_done (M_now false) 0).
Proof. split; [left; reflexivity|]. split; [discriminate|reflexivity]. Qed.

(** C66, the command: if the processes can be stopped, the routine runs and they can be
    released, all processes whose libpulp works are then as requested, and those whose
    libpulp is in an error state are untouched. Missing: see the refutations below. *)
Theorem C66_all_processes_partial :
  forall (enable : bool) (retries : nat) (ps : list ((nat -> sp_try) * lstate)),
    (0 < retries)%nat ->
    Forall (fun p => sp_hijack (fst p 0%nat) = 0 /\ sp_run (fst p 0%nat) = 0 /\ sp_restore (fst p 0%nat) = 0) ps ->
    let word := if enable then zs "enable" else zs "disable" in
    exists outs, run_set_patchable word retries ps = (0, outs) /\
      Forall2 (fun p o =>
        ((s_err (snd p) = ENONE \/ s_err (snd p) = EUSRBLOCKED) ->
           s_err (fst o) = wanted enable /\ same_but_err (fst o) (snd p)) /\
        (s_err (snd p) <> ENONE -> s_err (snd p) <> EUSRBLOCKED -> fst o = snd p) /\
        (s_err (snd p) = wanted (negb enable) -> snd o = S_done (M_now enable) ENONE) /\
        (s_err (snd p) <> wanted (negb enable) -> o = (snd p, S_done M_nothing (s_err (snd p))))) ps outs.
Proof.
  intros enable retries ps Hn F word.
  exists (map (fun p => enable_or_disable_patching (s_err (snd p)) enable retries (fst p) (snd p)) ps).
  split; [subst word; destruct enable; reflexivity|].
  induction ps as [|p ps IH]; [constructor|]. inversion F as [|? ? (H1 & H2 & H3) F']; subst. cbn [map].
  constructor; [|apply IH; exact F'].
  destruct retries as [|n]; [lia|]. destruct p as [tr st]. cbn [fst snd] in *.
  assert (N : s_err st <> wanted (negb enable) ->
    enable_or_disable_patching (s_err st) enable (S n) tr st = (st, S_done M_nothing (s_err st))).
  { intros X. unfold enable_or_disable_patching.
    replace (((s_err st =? ENONE) && negb enable) || ((s_err st =? EUSRBLOCKED) && enable)) with false; [reflexivity|].
    symmetry. apply Bool.orb_false_iff. destruct enable; cbn [negb wanted] in *; rewrite ?Bool.andb_false_r, ?Bool.andb_true_r;
      split; auto; apply Z.eqb_neq; exact X. }
  assert (Y : s_err st = wanted (negb enable) ->
    enable_or_disable_patching (s_err st) enable (S n) tr st = (set_err st (wanted enable), S_done (M_now enable) ENONE)).
  { intros X. unfold enable_or_disable_patching. rewrite X. cbn [sp_loop]. rewrite H1. cbn [Z.eqb negb].
    unfold run_enable_disable_patching. rewrite H2. cbn [Z.eqb orb].
    unfold ulp_enable_or_disable_patching. rewrite X, H3. destruct enable; reflexivity. }
  destruct (Z.eq_dec (s_err st) (wanted (negb enable))) as [E|E].
  - rewrite (Y E). cbn [fst snd]. split; [intros _; split; [reflexivity|repeat split; reflexivity]|].
    split; [|split; [auto|intros X; contradiction]].
    intros X1 X2. exfalso. destruct enable; cbn [negb wanted] in E; contradiction.
  - rewrite (N E). cbn [fst snd]. split; [|split; [auto|split; [intros X; contradiction|auto]]].
    intros X. split; [|repeat split; reflexivity].
    destruct enable; cbn [negb wanted] in *; destruct X; try contradiction; assumption.
Qed.
Print Assumptions C66_all_processes_partial.

Example C66_all_processes_case :
  run_set_patchable (zs "disable") 2
    [(fun _ => ex_ok, ex_lib [] 0); (fun _ => ex_ok, ex_lib [] EUSRBLOCKED); (fun _ => ex_ok, ex_lib [] EINSNQ)] =
  (0, [(ex_lib [] EUSRBLOCKED, S_done (M_now false) 0); (ex_lib [] EUSRBLOCKED, S_done M_nothing EUSRBLOCKED);
       (ex_lib [] EINSNQ, S_done M_nothing EINSNQ)]).
Proof. reflexivity. Qed.

(** C66 is false when a process cannot be stopped, or no attempts are allowed: an
    uninitialised variable decides whether success is reported. *)
Theorem C66_uninitialised_refuted :
  (forall enable tries st, s_err st = wanted (negb enable) ->
     enable_or_disable_patching (s_err st) enable 0 tries st = (st, S_undefined)) /\
  (forall enable retries tries st, s_err st = wanted (negb enable) -> sp_hijack (tries 0%nat) <> 0 ->
     enable_or_disable_patching (s_err st) enable retries tries st = (st, S_undefined)).
Proof.
  assert (G : forall enable, ((wanted (negb enable) =? ENONE) && negb enable) ||
                             ((wanted (negb enable) =? EUSRBLOCKED) && enable) = true) by (intros [|]; reflexivity).
  split.
  - intros enable tries st E. unfold enable_or_disable_patching. rewrite E, G. reflexivity.
  - intros enable retries tries st E H. unfold enable_or_disable_patching. rewrite E, G.
    destruct retries; [reflexivity|]. cbn [sp_loop]. destruct (Z.eqb_spec (sp_hijack (tries 0%nat)) 0); [contradiction|].
    reflexivity.
Qed.
Print Assumptions C66_uninitialised_refuted.

Example C66_uninitialised_case :
  s_err (ex_lib [] 0) = wanted (negb false) /\ sp_hijack (mk_sp EUNKNOWN 0 false 0) <> 0.
Proof. split; [reflexivity|discriminate]. Qed.

(** C66 is false for the exit status: it is 0 although the process is still enabled. *)
Theorem C66_exit_status_refuted :
  exists (ps : list ((nat -> sp_try) * lstate)) (outs : list (lstate * sp_out)),
    run_set_patchable (zs "disable") 1 ps = (0, outs) /\
    exists o, In o outs /\ s_err (fst o) = ENONE /\ snd o = S_done (M_unable ETARGETHOOK) 0.
Proof.
  exists [(fun _ => mk_sp 0 ETARGETHOOK false 0, ex_lib [] 0)], [(ex_lib [] 0, S_done (M_unable ETARGETHOOK) 0)].
  split; [reflexivity|]. eexists. split; [left; reflexivity|]. split; reflexivity.
Qed.
Print Assumptions C66_exit_status_refuted.

(** C66 is false for a timeout: "unable to change" although it was changed. *)
Theorem C66_unable_refuted :
  exists (tries : nat -> sp_try) (st st' : lstate),
    (forall i, rr_result (sp_run (tries i))) /\ s_err st = ENONE /\
    enable_or_disable_patching (s_err st) false 5 tries st = (st', S_done (M_unable ETIME) 0) /\ s_err st' = EUSRBLOCKED.
Proof.
  exists (fun _ => mk_sp 0 ETIME true 0), (ex_lib [] 0), (ex_lib [] EUSRBLOCKED).
  split; [intros _; right; right; left; reflexivity|]. repeat split; reflexivity.
Qed.
Print Assumptions C66_unable_refuted.

(** C66 is false for two tools at the same time: both read "enabled" and both want to
    disable; the first one reports success, and live patching is enabled in the end. *)
Theorem C66_race_refuted :
  exists (tries : nat -> sp_try) (st st1 st2 : lstate),
    s_err st = ENONE /\
    enable_or_disable_patching (s_err st) false 1 tries st = (st1, S_done (M_now false) 0) /\
    enable_or_disable_patching (s_err st) false 1 tries st1 = (st2, S_done (M_unable ENONE) 0) /\
    s_err st2 = ENONE.
Proof.
  exists (fun _ => ex_ok), (ex_lib [] 0), (ex_lib [] EUSRBLOCKED), (ex_lib [] 0). repeat split; reflexivity.
Qed.
Print Assumptions C66_race_refuted.

(** C66 is false for capital letters: "ENABLE" is understood, "DISABLE" is not. *)
Theorem C66_case_refuted :
  forall retries ps,
    fst (run_set_patchable (zs "ENABLE") retries ps) = 0 /\
    fst (run_set_patchable (zs "DISABLE") retries ps) = 1 /\
    map fst (snd (run_set_patchable (zs "DISABLE") retries ps)) = map snd ps.
Proof.
  intros retries ps. split; [reflexivity|]. split; [reflexivity|].
  change (map fst (map (fun p : (nat -> sp_try) * lstate => (snd p, S_done M_nothing 0)) ps) = map snd ps).
  rewrite map_map. apply map_ext. reflexivity.
Qed.
Print Assumptions C66_case_refuted.

(** ** C67, the report of trigger *)

(** C67, truth: every line of a report tells what happened in one of the attempts. *)
Theorem C67_report_true :
  forall (rs : list tresult) (summarize : bool) (ls : list rline),
    print_patched_unpatched rs summarize = Some ls ->
    (forall n, In (R_success n) ls -> In (mk_tres n 0) rs) /\
    (forall n e, In (R_failed n e) ls -> In (mk_tres n e) rs /\ e <> 0) /\
    (forall n e, In (R_skipped (Some n) e) ls -> In (mk_tres n e) rs /\ (e = EBUILDID \/ e = ENOTARGETLIB)) /\
    (forall e, In (R_skipped None e) ls -> exists n, In (mk_tres n e) rs /\ skippable_error e = true).
Proof.
  intros rs summarize ls H. rewrite print_spec in H.
  assert (HL : forall l r, In r rs -> l = honest_line r ->
    (forall n, l = R_success n -> In (mk_tres n 0) rs) /\
    (forall n e, l = R_failed n e -> In (mk_tres n e) rs /\ e <> 0) /\
    (forall n e, l = R_skipped (Some n) e -> In (mk_tres n e) rs /\ (e = EBUILDID \/ e = ENOTARGETLIB)) /\
    (forall e, l = R_skipped None e -> False)).
  { intros l [nm er] Hin ->. unfold honest_line, not_concerned. cbn [tr_err tr_name].
    destruct (Z.eqb_spec er EBUILDID) as [E1|E1]; cbn [orb].
    - repeat split; intros; try discriminate; injection H0 as <- <-; auto.
    - destruct (Z.eqb_spec er ENOTARGETLIB) as [E2|E2].
      + repeat split; intros; try discriminate; injection H0 as <- <-; auto.
      + destruct (Z.eqb_spec er 0) as [E3|E3].
        * repeat split; intros; try discriminate. injection H0 as <-. subst er. exact Hin.
        * repeat split; intros; try discriminate; injection H0 as <- <-; auto. }
  assert (HM : forall cs, (forall r, In r cs -> In r rs) -> ls = map honest_line cs ->
    (forall n, In (R_success n) ls -> In (mk_tres n 0) rs) /\
    (forall n e, In (R_failed n e) ls -> In (mk_tres n e) rs /\ e <> 0) /\
    (forall n e, In (R_skipped (Some n) e) ls -> In (mk_tres n e) rs /\ (e = EBUILDID \/ e = ENOTARGETLIB)) /\
    (forall e, In (R_skipped None e) ls -> exists n, In (mk_tres n e) rs /\ skippable_error e = true)).
  { intros cs Sub ->.
    split; [intros n Hi|split; [intros n e Hi|split; [intros n e Hi|intros e Hi]]];
      apply in_map_iff in Hi as (r & Hr & Hi); destruct (HL _ r (Sub r Hi) eq_refl) as (A & B & C & D).
    - apply A; exact Hr.
    - apply B; exact Hr.
    - apply C; exact Hr.
    - destruct (D e Hr). }
  assert (Sub : forall r, In r (concerned rs) -> In r rs) by (intros r Hi; apply filter_In in Hi; tauto).
  unfold report_spec in H. destruct (concerned rs) as [|r [|r2 t]] eqn:C.
  - destruct (forallb _ rs); [discriminate|]. apply (HM rs); [auto|injection H as <-; reflexivity].
  - destruct summarize; [|apply (HM rs); [auto|injection H as <-; reflexivity]].
    destruct (skippable_error (tr_err r)) eqn:S.
    + injection H as <-. split; [intros n [X|[]]; discriminate|]. split; [intros n e [X|[]]; discriminate|].
      split; [intros n e [X|[]]; discriminate|]. intros e [X|[]]. injection X as <-.
      exists (tr_name r). split; [|exact S]. destruct r; apply Sub; left; reflexivity.
    + apply (HM [r]); [exact Sub|injection H as <-; reflexivity].
  - destruct summarize; [apply (HM (r :: r2 :: t)); [exact Sub|injection H as <-; reflexivity]|apply (HM rs); [auto|injection H as <-; reflexivity]].
Qed.
Print Assumptions C67_report_true.

Definition ex_results : list tresult :=
  [mk_tres (zs "a.so") EBUILDID; mk_tres (zs "b.so") 0; mk_tres (zs "c.so") EDEPEND].
Example C67_report_true_case :
  print_patched_unpatched ex_results true = Some [R_success (zs "b.so"); R_failed (zs "c.so") EDEPEND] /\
  print_patched_unpatched ex_results false =
    Some [R_skipped (Some (zs "a.so")) EBUILDID; R_success (zs "b.so"); R_failed (zs "c.so") EDEPEND].
Proof. split; reflexivity. Qed.

(** C67, completeness: no attempt that concerns the process is hidden, in either mode: one
    line each, in order; a single one may be shown as "skipped" with its error but
    without its name. Without summarisation all attempts are listed. *)
Theorem C67_report_complete_partial :
  forall (rs : list tresult),
    (concerned rs <> [] -> print_patched_unpatched rs false = Some (map honest_line rs)) /\
    (forall r, concerned rs = [r] ->
       print_patched_unpatched rs true =
       Some [if skippable_error (tr_err r) then R_skipped None (tr_err r) else honest_line r]) /\
    (forall r1 r2 t, concerned rs = r1 :: r2 :: t ->
       print_patched_unpatched rs true = Some (map honest_line (concerned rs))).
Proof.
  intros rs. rewrite !print_spec. unfold report_spec. split; [|split].
  - intros H. destruct (concerned rs) as [|r [|r2 t]]; [contradiction| |]; reflexivity.
  - intros r ->. reflexivity.
  - intros r1 r2 t ->. reflexivity.
Qed.
Print Assumptions C67_report_complete_partial.

Example C67_report_complete_case :
  concerned ex_results = [mk_tres (zs "b.so") 0; mk_tres (zs "c.so") EDEPEND] /\
  concerned [mk_tres (zs "a.so") EBUILDID; mk_tres (zs "b.so") 0] = [mk_tres (zs "b.so") 0].
Proof. split; reflexivity. Qed.

(** C67: a process is not mentioned exactly if nothing was tried on it, or all attempts
    ended with the same one of the two errors that mean "not concerned". *)
Theorem C67_silence :
  forall (rs : list tresult) (summarize : bool),
    print_patched_unpatched rs summarize = None <->
    exists e, (e = EBUILDID \/ e = ENOTARGETLIB) /\ Forall (fun r => tr_err r = e) rs.
Proof.
  intros rs summarize. rewrite print_spec. unfold report_spec. split.
  - intros H. destruct (concerned rs) as [|r [|r2 t]] eqn:C;
      [|destruct summarize; discriminate|destruct summarize; discriminate].
    destruct (forallb _ rs) eqn:F; [|discriminate].
    rewrite forallb_forall in F. apply concerned_nil in C.
    destruct rs as [|r t]; [exists EBUILDID; auto|].
    exists (tr_err r). split.
    + inversion C; subst. unfold not_concerned in H2. apply Bool.orb_true_iff in H2 as [X|X]; apply Z.eqb_eq in X; auto.
    + apply Forall_forall. intros x Hx. apply Z.eqb_eq, F, Hx.
  - intros (e & He & F).
    assert (C : concerned rs = []).
    { apply concerned_nil. apply Forall_forall. intros x Hx. rewrite Forall_forall in F. unfold not_concerned.
      rewrite (F x Hx). destruct He as [-> | ->]; reflexivity. }
    rewrite C. replace (forallb _ rs) with true; [reflexivity|]. symmetry. apply forallb_forall. intros x Hx.
    rewrite Forall_forall in F. destruct rs as [|r t]; [destruct Hx|].
    rewrite (F x Hx), (F r (or_introl eq_refl)). apply Z.eqb_refl.
Qed.
Print Assumptions C67_silence.

Example C67_silence_case :
  print_patched_unpatched [mk_tres (zs "a.so") EBUILDID; mk_tres (zs "b.so") EBUILDID] true = None /\
  print_patched_unpatched [mk_tres (zs "a.so") EBUILDID; mk_tres (zs "b.so") ENOTARGETLIB] true <> None.
Proof. split; [reflexivity|discriminate]. Qed.

(** C67 is false without summarisation: not every attempt is listed. *)
Theorem C67_unlisted_refuted :
  exists (rs : list tresult), rs <> [] /\ print_patched_unpatched rs false = None.
Proof. exists [mk_tres (zs "a.so") EBUILDID]. split; [discriminate|reflexivity]. Qed.
Print Assumptions C67_unlisted_refuted.

(** C67 is false for errors such as "already applied": skipped in a summary, failed in a
    list. *)
Theorem C67_label_refuted :
  exists (n : list Z) (e : Z),
    skippable_error e = true /\
    print_patched_unpatched [mk_tres n e] true = Some [R_skipped None e] /\
    print_patched_unpatched [mk_tres n e] false = Some [R_failed n e].
Proof. exists (zs "a.so"), EAPPLIED. repeat split; reflexivity. Qed.
Print Assumptions C67_label_refuted.

(** ** C68, dump *)

(** C68, the part that holds: for a packed description with a build ID of 20 bytes, the
    output has the lines of the description, in order, all right but the patch ID, of
    which the first 20 bytes are shown, and the offsets in the patch. *)
Theorem C68_dump_partial :
  forall (p : pmeta) (given : list Z) (real : option (list Z)) (junk : Z),
    pmeta_ok p -> fits p (named given real) -> zlen (pm_bid p) = 20 ->
    exists out, run_dump (Some (create_patch_metadata_file p)) given real false junk = Some (0, out) /\
      length out = length (described p (named given real)) /\
      filter reliable out = filter reliable (described p (named given real)) /\
      hd_error out = Some (D_patch_id (firstn 40 (hex_text (pm_id p)))) /\
      (Forall (fun r => pr_poff r = pr_toff r) (pm_refs p) -> tl out = tl (described p (named given real))).
Proof.
  intros p given real junk Hp Hf Hb.
  destruct (extract_packed p None given real Hp Hf) as (b & Hx & Hr). cbn [app] in Hr.
  unfold run_dump. rewrite Hx, (Hr junk). unfold dump_metadata, seen_patch. cbn [md_bid md_refs md_id md_so md_name md_units].
  destruct (Z.ltb_spec (zlen (pm_bid p)) 20); [lia|]. rewrite dump_refs_seen.
  assert (Eb : firstn 20 (pm_bid p) = pm_bid p) by (apply firstn_all2; unfold zlen in Hb; lia).
  rewrite Eb, !hex_text_same. eexists. split; [reflexivity|].
  assert (Zm : zlen (map seen_ref (pm_refs p)) = zlen (pm_refs p)) by (unfold zlen; rewrite map_length; reflexivity).
  rewrite Zm.
  assert (LR : forall (f g : pref -> list dline) rs, (forall r, length (f r) = length (g r)) ->
    length (flat_map f rs) = length (flat_map g rs)).
  { intros f g rs E. induction rs as [|r t IH]; [reflexivity|]. cbn [flat_map]. rewrite !app_length, IH, E. reflexivity. }
  unfold described. split.
  { rewrite !app_length. cbn [length]. rewrite ?app_length. cbn [length].
    rewrite (LR (fun r => [D_ref (pr_name r); D_target (pr_toff r); D_patch (pr_toff r); D_tls (pr_tls r)])
                (fun r => [D_ref (pr_name r); D_target (pr_toff r); D_patch (pr_poff r); D_tls (pr_tls r)]))
      by reflexivity. lia. }
  split.
  { cbn [app filter reliable]. do 4 f_equal. rewrite !filter_app. f_equal. cbn [app filter reliable]. f_equal.
    apply reliable_refs. }
  split.
  { cbn [app hd_error]. f_equal. f_equal.
    assert (G : forall l n, firstn (2 * n) (hex_text l) = hex_text (firstn n l)).
    { induction l as [|x l IH]; intros n; [rewrite !firstn_nil; reflexivity|].
      destruct n as [|n]; [reflexivity|]. replace (2 * S n)%nat with (S (S (2 * n)))%nat by lia.
      unfold hex_text in *. cbn [flat_map app firstn]. rewrite IH. reflexivity. }
    exact (eq_sym (G (pm_id p) 20%nat)). }
  intros F.
  assert (Er : flat_map (fun r => [D_ref (pr_name r); D_target (pr_toff r); D_patch (pr_toff r); D_tls (pr_tls r)]) (pm_refs p) =
               flat_map (fun r => [D_ref (pr_name r); D_target (pr_toff r); D_patch (pr_poff r); D_tls (pr_tls r)]) (pm_refs p)).
  { clear - F. induction F as [|r t E F IH]; [reflexivity|]. cbn [flat_map]. rewrite IH, E. reflexivity. }
  rewrite Er. reflexivity.
Qed.
Print Assumptions C68_dump_partial.

Example C68_dump_case :
  pmeta_ok sample /\ fits sample (named (zs "p.so") (Some sample_path)) /\ zlen (pm_bid sample) = 20.
Proof.
  split; [exact sample_ok|]. split; [|reflexivity].
  split; [repeat constructor; unfold is_cchar; lia|]. split; [discriminate|]. split; reflexivity.
Qed.

(** C68 is false for the offset of a reference in the patch: the offset in the target
    library is shown in its place. *)
Theorem C68_patch_offset_refuted :
  exists (p : pmeta) (r : pref) (path : list Z) (out : list dline),
    pmeta_ok p /\ fits p path /\ zlen (pm_bid p) = 20 /\ In r (pm_refs p) /\
    run_dump (Some (create_patch_metadata_file p)) path None false 0 = Some (0, out) /\
    ~ In (D_patch (pr_poff r)) out /\ In (D_patch (pr_toff r)) out.
Proof.
  exists sample, (mk_pref [118] [114] 64 128 false), sample_path.
  destruct C68_dump_case as (H1 & H2 & H3). eexists. split; [exact H1|]. split; [exact H2|]. split; [exact H3|].
  split; [left; reflexivity|]. split; [vm_compute; reflexivity|]. split.
  - intros H. repeat (destruct H as [H|H]; [discriminate|]). destruct H.
  - cbn [pr_toff]. repeat (first [left; reflexivity|right]).
Qed.
Print Assumptions C68_patch_offset_refuted.

(** C68 is false for the patch ID: two patches that differ in it look the same. *)
Theorem C68_patch_id_refuted :
  exists (p1 p2 : pmeta) (path : list Z),
    pmeta_ok p1 /\ pmeta_ok p2 /\ pm_id p1 <> pm_id p2 /\ fits p1 path /\ fits p2 path /\
    run_dump (Some (create_patch_metadata_file p1)) path None false 0 =
    run_dump (Some (create_patch_metadata_file p2)) path None false 0 /\
    run_dump (Some (create_patch_metadata_file p1)) path None false 0 <> None.
Proof.
  pose (v := fun i => mk_pmeta i 20 (repeat 170 20) [47; 108] 0 [] 0 [] 0 []).
  exists (v (repeat 7 32)), (v (repeat 7 20 ++ repeat 8 12)), sample_path.
  assert (O : forall i, length i = 32%nat -> bytes_ok i -> pmeta_ok (v i)).
  { intros i L B. repeat split; try assumption; try reflexivity; repeat constructor; unfold is_byte, is_cchar; lia. }
  assert (B7 : forall n x, 0 <= x < 256 -> bytes_ok (repeat x n)).
  { intros n x Hx. apply Forall_forall. intros y Hy. apply repeat_spec in Hy. subst. exact Hx. }
  split; [apply O; [reflexivity|apply B7; lia]|].
  split; [apply O; [reflexivity|apply Forall_app; split; apply B7; lia]|].
  split; [discriminate|].
  split; [split; [repeat constructor; unfold is_cchar; lia|split; [discriminate|split; reflexivity]]|].
  split; [split; [repeat constructor; unfold is_cchar; lia|split; [discriminate|split; reflexivity]]|].
  split; [vm_compute; reflexivity|vm_compute; discriminate].
Qed.
Print Assumptions C68_patch_id_refuted.

(** C68 is false for build IDs of less than 20 bytes: the command reads beyond the ID, for
    every such description. *)
Theorem C68_short_build_id_refuted :
  forall (p : pmeta) (given : list Z) (real : option (list Z)) (only : bool) (junk : Z),
    pmeta_ok p -> fits p (named given real) -> zlen (pm_bid p) < 20 ->
    run_dump (Some (create_patch_metadata_file p)) given real only junk = None.
Proof.
  intros p given real only junk Hp Hf Hb.
  destruct (extract_packed p None given real Hp Hf) as (b & Hx & Hr). cbn [app] in Hr.
  unfold run_dump. rewrite Hx, (Hr junk). unfold dump_metadata, seen_patch. cbn [md_bid].
  destruct (Z.ltb_spec (zlen (pm_bid p)) 20); [reflexivity|lia].
Qed.
Print Assumptions C68_short_build_id_refuted.

(** A file that cannot be read or has no metadata is reported, and nothing is printed. *)
Theorem C68_no_metadata : forall livepatch real only junk,
  exists r, run_dump None livepatch real only junk = Some (r, []) /\ r <> 0.
Proof. intros. exists 1. split; [reflexivity|discriminate]. Qed.
Print Assumptions C68_no_metadata.

Definition ex_short : pmeta := mk_pmeta (repeat 7 32) 8 (repeat 170 8) [47; 108] 0 [] 0 [] 0 [].
Example C68_short_build_id_case : pmeta_ok ex_short /\ fits ex_short sample_path /\ zlen (pm_bid ex_short) < 20.
Proof.
  split; [repeat split; try reflexivity; repeat constructor; unfold is_byte, is_cchar; lia|].
  split; [split; [repeat constructor; unfold is_cchar; lia|split; [discriminate|split; reflexivity]]|reflexivity].
Qed.

(** C68 is false for the option that asks for the build ID only: the references are shown
    as well. *)
Theorem C68_only_build_id_refuted :
  exists (p : pmeta) (path : list Z) (out : list dline) (n : list Z),
    pmeta_ok p /\ fits p path /\
    run_dump (Some (create_patch_metadata_file p)) path None true 0 = Some (0, out) /\ In (D_ref n) out.
Proof.
  exists sample, sample_path. destruct C68_dump_case as (H1 & H2 & _). do 2 eexists.
  split; [exact H1|]. split; [exact H2|]. split; [vm_compute; reflexivity|].
  right. right. left. reflexivity.
Qed.
Print Assumptions C68_only_build_id_refuted.

(** ** C69, the path given to the target *)

(** C69, the part that holds: libpulp is told the real path of the patch behind the
    user's prefix, and for a process chrooted into /proc behind the root of process 1;
    the tool itself looks into the file at its real path. Missing: prefixes of 4088
    bytes and more, see [C69_long_prefix_refuted]. *)
Theorem C69_path_partial :
  forall (p : pmeta) (chrooted : bool) (user real : option (list Z)) (given : list Z)
         (read : list Z -> option (list (list Z))),
    pmeta_ok p ->
    zlen (match user with Some u => u | None => [] end) < PATH_MAX - 8 ->
    fits p (wanted_prefix chrooted user ++ named given real) ->
    exists pre b,
      adjust_prefix_for_chroot chrooted user = P_ok pre /\
      extract (Some (create_patch_metadata_file p)) pre given real = P_ok (X_meta b) /\
      (forall junk, parse_metadata_from_mem junk b =
        P_ok (seen_patch p (wanted_prefix chrooted user ++ named given real))) /\
      (check_livepatch_functions read pre (seen_patch p (wanted_prefix chrooted user ++ named given real)) = 0 <->
       exists names, read (named given real) = Some names /\ Forall (fun u => In (u_new u) names) (pm_units p)).
Proof.
  intros p chrooted user real given read Hp Hl Hf.
  destruct (adjust_spec chrooted user Hl) as (pre & Ha & He). rewrite <- He in *.
  destruct (extract_packed p pre given real Hp Hf) as (b & Hx & Hr).
  exists pre, b. split; [exact Ha|]. split; [exact Hx|]. split; [exact Hr|].
  assert (K : forall file, file = named given real ->
    (match read file with
     | None => 22
     | Some names => if forallb (fun u => existsb (bytes_eqb (u_new u)) names) (pm_units p) then 0 else 1
     end = 0 <->
     exists names, read (named given real) = Some names /\ Forall (fun u => In (u_new u) names) (pm_units p))).
  { intros file ->. destruct (read (named given real)) as [names|].
    - assert (B : forallb (fun u => existsb (bytes_eqb (u_new u)) names) (pm_units p) = true <->
                  Forall (fun u => In (u_new u) names) (pm_units p)).
      { rewrite forallb_forall, Forall_forall. split; intros H u Hu; specialize (H u Hu).
        - apply existsb_exists in H as (n & Hn & E). apply bytes_eqb_eq in E. rewrite E. exact Hn.
        - apply existsb_exists. exists (u_new u). split; [exact H|]. apply bytes_eqb_eq. reflexivity. }
      destruct (forallb _ (pm_units p)).
      + split; [|reflexivity]. intros _. exists names. split; [reflexivity|]. apply B. reflexivity.
      + split; [discriminate|]. intros (n & En & F). injection En as <-. apply B in F. discriminate.
    - split; [discriminate|]. intros (n & En & _). discriminate. }
  unfold check_livepatch_functions, seen_patch. cbn [md_so md_units].
  destruct pre as [q|].
  - rewrite starts_with_app. apply K. apply skipn_len_app.
  - apply K. reflexivity.
Qed.
Print Assumptions C69_path_partial.

Example C69_path_case :
  pmeta_ok sample /\ zlen (zs "/host") < PATH_MAX - 8 /\
  fits sample (wanted_prefix true (Some (zs "/host")) ++ named (zs "p.so") (Some sample_path)) /\
  wanted_prefix true (Some (zs "/host")) ++ named (zs "p.so") (Some sample_path) = zs "/1/root//host/p.so".
Proof.
  split; [exact sample_ok|]. split; [reflexivity|]. split; [|reflexivity].
  split; [repeat constructor; unfold is_cchar; lia|]. split; [discriminate|]. split; reflexivity.
Qed.

(** C69 is false for long prefixes: for a process chrooted into /proc the buffer is
    overrun. *)
Theorem C69_long_prefix_refuted :
  forall (user : list Z), PATH_MAX - 8 <= zlen user -> adjust_prefix_for_chroot true (Some user) = P_UB.
Proof.
  intros user H. unfold adjust_prefix_for_chroot.
  assert (L : zlen (firstn (Z.to_nat (PATH_MAX - 1)) user) = Z.min (PATH_MAX - 1) (zlen user)).
  { unfold zlen, PATH_MAX in *. rewrite firstn_length. lia. }
  rewrite L. destruct (Z.ltb_spec PATH_MAX (8 + Z.min (PATH_MAX - 1) (zlen user) + 1)); [reflexivity|].
  unfold PATH_MAX in *. lia.
Qed.
Print Assumptions C69_long_prefix_refuted.

Example C69_long_prefix_case : PATH_MAX - 8 <= zlen (repeat 65 4088).
Proof. discriminate. Qed.
