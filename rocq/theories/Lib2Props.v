(** Further property theorems about libpulp's patch state machine
    (C08, C10, C11, C14, C48). *)
From Coq Require Import String Sorted.
From Verif Require Import Base BaseFacts InsnQModel InsnQSpec InsnQProofs MetaModel MetaSpec StrModel
  X86Model X86Spec X86Proofs X86Props DlModel LibModel LibSpec LibProofs LibInv LibMem LibExample LibMore
  SymProofs LibProps.

(** ** C08 *)

Lemma state_remove_filter id ps ps' :
  NoDup (map a_id ps) -> state_remove id ps = Some ps' ->
  ps' = filter (fun a => negb (bytes_eqb (a_id a) id)) ps.
Proof.
  revert ps'; induction ps as [|p t IH]; intros ps' Hn H; [discriminate|].
  cbn [state_remove filter map] in *. apply NoDup_cons_iff in Hn. destruct Hn as [N1 N2].
  destruct (bytes_eqb (a_id p) id) eqn:E; cbn [negb].
  - injection H as <-. symmetry. apply filter_all. intros x Hx. apply bytes_eqb_eq in E.
    destruct (bytes_eqb (a_id x) id) eqn:E2; [|reflexivity]. apply bytes_eqb_eq in E2.
    exfalso. apply N1. rewrite E, <- E2. apply in_map. exact Hx.
  - destruct (state_remove id t) as [t'|]; [|discriminate]. injection H as <-. f_equal. auto.
Qed.

Lemma chain_filter m st ids st' :
  revert_chain m st ids st' -> linv st ->
  s_patches st' = filter (fun a => negb (existsb (bytes_eqb (a_id a)) ids)) (s_patches st).
Proof.
  induction 1 as [|st id ids st1 st2 H1 H2 H3 IH]; intros Hi.
  - symmetry. apply filter_all. reflexivity.
  - rewrite IH.
    2:{ eapply revert_patch_linv; eauto. apply can_revert_iff in H1. tauto. }
    apply revert_patch_lists in H2. destruct H2 as (_ & _ & _ & H2 & _). specialize (H2 eq_refl).
    apply state_remove_filter in H2; [|apply li_ids; exact Hi]. rewrite H2. clear.
    induction (s_patches st) as [|a t IH]; [reflexivity|]. cbn [filter existsb].
    destruct (bytes_eqb (a_id a) id); cbn [negb orb filter]; [exact IH|].
    destruct (existsb _ ids); cbn [negb]; rewrite IH; reflexivity.
Qed.

Lemma lib_match_targets name a : lib_match (get_basename name) a = true <-> targets name a.
Proof.
  unfold lib_match, strncmp_eq, ULP_PATH_LEN, targets, lib_key. change (Z.to_nat 256) with 256%nat.
  rewrite bytes_eqb_eq. split; intros H; symmetry; exact H.
Qed.

Lemma remove_lib_filter base ps :
  NoDup (map a_id ps) ->
  filter (fun a => negb (existsb (bytes_eqb (a_id a)) (map a_id (filter (lib_match base) ps)))) ps =
  filter (fun a => negb (lib_match base a)) ps.
Proof.
  intros Hn. apply filter_ext_in. intros a Ha. f_equal. destruct (lib_match base a) eqn:E.
  - apply existsb_exists. exists (a_id a). split; [|apply bytes_eqb_eq; reflexivity].
    apply in_map. apply filter_In. auto.
  - destruct (existsb _ _) eqn:X; [|reflexivity]. apply existsb_exists in X. destruct X as (id & X1 & X2).
    apply bytes_eqb_eq in X2. subst id. apply in_map_iff in X1. destruct X1 as (b & B1 & B2).
    apply filter_In in B2. destruct B2 as [B2 B3]. exfalso.
    assert (b = a); [|congruence]. clear -Hn Ha B1 B2. induction ps as [|x t IH]; [destruct Ha|].
    cbn [map] in Hn. apply NoDup_cons_iff in Hn. destruct Hn as [N1 N2].
    destruct Ha as [->|Ha]; destruct B2 as [->|B2]; auto.
    + exfalso. apply N1. rewrite <- B1. apply in_map. exact B2.
    + exfalso. apply N1. rewrite B1. apply in_map. exact Ha.
Qed.

(** C08, exactness: when revert-all answers 0 there was a patch for the library,
    none is left, and all other entries are as before, in the same order. With any
    other answer nothing is removed. *)
Theorem C08_revert_all_exact_partial :
  forall m stale tr p busy e name p' ans,
    history (fresh m stale) tr p ->
    do_event (EvRevertAll busy e name) p = Some (p', ans) ->
    (ans = 0 ->
       (exists a, In a (s_patches (p_lib p)) /\ targets name a) /\
       (forall a, In a (s_patches (p_lib p')) <-> In a (s_patches (p_lib p)) /\ ~ targets name a) /\
       (exists keep, s_patches (p_lib p') = filter keep (s_patches (p_lib p)))) /\
    (ans <> 0 -> s_patches (p_lib p') = s_patches (p_lib p) /\ s_roots (p_lib p') = s_roots (p_lib p)).
Proof.
  intros m stale tr p busy e name p' ans H E. cbn [do_event] in E.
  destruct (ulp_revert_patches_from_lib _ _ _ _ _ _) as [[st a]|] eqn:Ex; [|discriminate].
  injection E as <- <-. cbn [p_lib]. pose proof (history_linv _ _ _ _ H) as Hl.
  apply revert_all_outcome in Ex. destruct Ex as [Ex|(_ & _ & _ & Ex)].
  - split; [intros ->; apply gate_nonzero in Ex; contradiction|]. intros _. apply gate_u in Ex. tauto.
  - destruct Ex as [[-> ->]|[(E1 & -> & ->)|(E1 & -> & E3)]].
    + split; [discriminate|auto].
    + split; [destruct (_ =? 255); discriminate|auto].
    + split; [|contradiction]. intros _. apply chain_filter in E3; [|exact Hl].
      rewrite remove_lib_filter in E3 by (apply li_ids; exact Hl).
      split; [|split].
      * apply existsb_exists in E1. destruct E1 as (b & B1 & B2). exists b. split; [exact B1|]. apply lib_match_targets. exact B2.
      * intros b. rewrite E3, filter_In. rewrite <- lib_match_targets. destruct (lib_match _ b); cbn [negb]; intuition congruence.
      * eauto.
Qed.
Print Assumptions C08_revert_all_exact_partial.

(** C08, termination: if no patch of another library depends on a patch of this
    one, revert-all answers. *)
Theorem C08_revert_all_terminates_partial :
  forall m stale tr p busy e name,
    history (fresh m stale) tr p ->
    (forall a b, In a (s_patches (p_lib p)) -> In b (s_patches (p_lib p)) ->
       targets name a -> In (a_id a) (a_deps b) -> targets name b) ->
    exists p' ans, do_event (EvRevertAll busy e name) p = Some (p', ans).
Proof.
  intros m stale tr p busy e name H Hc. pose proof (history_linv _ _ _ _ H) as Hl. cbn [do_event].
  unfold ulp_revert_patches_from_lib. destruct (negb (s_err (p_lib p) =? ENONE)) eqn:E0; [eauto|].
  destruct (insnq_ensure_emptiness (s_q (p_lib p)) (s_err (p_lib p))) as [r err'] eqn:Eq.
  destruct (negb (r =? 0)); [eauto|]. destruct busy; [eauto|].
  unfold revert_all_patches_from_lib. destruct (_ <=? _); [eauto|].
  destruct (revert_all_loop_total (p_mem p) (get_basename name) (s_patches (set_err (p_lib p) err'))
    (S (length (s_patches (p_lib p)))) ENOTARGETLIB (set_err (p_lib p) err') []) as [[[st1 ret] b] Hr]; auto.
  { eapply linv_ext; [| |exact Hl]; reflexivity. }
  { intros q []. }
  { intros a b Ha Hb Hm Hd. apply lib_match_targets. apply lib_match_targets in Hm. exact (Hc a b Ha Hb Hm Hd). }
  rewrite Hr. destruct b; [eauto|]. destruct (_ && _); eauto.
Qed.
Print Assumptions C08_revert_all_terminates_partial.

(** C08, the answers for a library without patches. Missing: an object loaded
    at address 255, the program's own name and path prefixes of 256 characters
    and more. *)
Theorem C08_revert_all_answers_partial :
  forall p e name,
    s_err (p_lib p) = 0 -> no_pending p -> e_libs e <> [] ->
    get_basename name <> e_prog e -> zlen name - zlen (get_basename name) < 256 ->
    (forall a, In a (s_patches (p_lib p)) -> ~ targets name a) ->
    (forall l, designates (e_libs e) (get_basename name) l -> lb_base l <> 255 ->
       do_event (EvRevertAll false e name) p = Some (p, ENOPATCH)) /\
    (not_loaded (e_libs e) (get_basename name) ->
       do_event (EvRevertAll false e name) p = Some (p, ENOTARGETLIB)).
Proof.
  intros p e name He [Hn1 Hn2] Hne Hpr Hlen Hno.
  assert (G : do_event (EvRevertAll false e name) p =
    Some (p, if get_loaded_library_base_addr (e_prog e) (e_libs e) (get_basename name) =? 255 then ENOTARGETLIB else ENOPATCH)).
  { cbn [do_event]. unfold ulp_revert_patches_from_lib, insnq_ensure_emptiness, ENONE. rewrite He, Hn1, Hn2.
    cbn [negb Z.eqb Z.gtb Z.compare orb]. rewrite <- He, set_err_id.
    unfold revert_all_patches_from_lib, ULP_PATH_LEN. destruct (Z.leb_spec 256 (zlen name - zlen (get_basename name))); [lia|].
    assert (X : forall fuel todo ret st, (length todo <= fuel)%nat -> (forall a, In a todo -> ~ targets name a) ->
      revert_all_loop fuel (p_mem p) (get_basename name) todo ret st = Some (st, ret, false)).
    { clear. induction fuel as [|fuel IH]; intros todo ret st Hf Ha; (destruct todo as [|a t]; [reflexivity|]).
      - cbn in Hf. lia.
      - cbn [revert_all_loop]. destruct (strncmp_eq (get_basename name) (a_lib a) ULP_PATH_LEN) eqn:E.
        + exfalso. apply (Ha a (or_introl eq_refl)). apply lib_match_targets. exact E.
        + apply IH; [cbn in Hf; lia|]. intros b Hb. apply Ha. right. exact Hb. }
    rewrite X; auto. rewrite Z.eqb_refl. cbn [andb].
    destruct (_ =? 255); cbn [negb]; rewrite proc_eta; reflexivity. }
  unfold get_loaded_library_base_addr, lib_arg in G.
  destruct (bytes_eqb (get_basename name) (e_prog e)) eqn:Eb; [apply bytes_eqb_eq in Eb; contradiction|].
  split.
  - intros l Hd Hb. rewrite (find_base_designated _ _ _ Hd) in G. cbn [fst] in G.
    destruct (Z.eqb_spec (lb_base l) 255); [contradiction|exact G].
  - intros Hd. rewrite find_base_not_loaded in G by assumption. exact G.
Qed.
Print Assumptions C08_revert_all_answers_partial.

Definition libqux : list Z := zs "/lib/libqux.so.0".
Definition P7 := w_patch 7 libbar [zs "b"] [] [].

(** Two patches for libfoo, one for libbar: revert-all for libfoo removes the
    two; again: ENOPATCH; for a library that is not loaded: ENOTARGETLIB. *)
Example C08_case :
  match run [ap 1 P1; ex; ap 7 P7; ex; ap 2 P2; ex; EvRevertAll false w_env libfoo; ex;
             EvRevertAll false w_env libfoo; EvRevertAll false w_env libqux] w_start with
  | Some (p, l) => l = [0; 0; 0; 0; 0; 0; 0; 0; ENOPATCH; ENOTARGETLIB] /\ reported p = [repeat 7 32]
  | None => False
  end.
Proof. vm_compute. auto. Qed.

(** The loop does not move past a patch that cannot be reverted. *)
Lemma blocked_loop m base a t st :
  lib_match base a = true -> ulp_can_revert_patch st (a_id a) <> 0 ->
  forall fuel ret, revert_all_loop fuel m base (a :: t) ret st = None.
Proof.
  intros Hm Hc. unfold lib_match in Hm. induction fuel as [|fuel IH]; intros ret; [reflexivity|].
  cbn [revert_all_loop]. rewrite Hm. destruct (Z.eqb_spec (ulp_can_revert_patch st (a_id a)) 0); [contradiction|].
  cbn [negb]. apply IH.
Qed.

(** C08 is false of the code: with patch 1 of libfoo, on which patch 4 of libbar
    depends, the revert-all request for libfoo never answers, whatever the number
    of steps. *)
Theorem C08_blocked_revert_all_refuted :
  exists p tr, history w_start tr p /\ s_err (p_lib p) = 0 /\ no_pending p /\
    forall fuel, ulp_revert_patches_from_lib fuel false w_env (p_mem p) libfoo (p_lib p) = None.
Proof.
  assert (X : match run [ap 1 P1; ex; ap 4 P4; ex] w_start with
    | Some (p, l) => l = [0; 0; 0; 0] /\ s_err (p_lib p) = 0 /\ q_num (s_q (p_lib p)) = 0 /\ q_size (s_q (p_lib p)) = 0 /\
        map (lib_match (get_basename libfoo)) (s_patches (p_lib p)) = [false; true] /\
        map (fun a => ulp_can_revert_patch (p_lib p) (a_id a)) (s_patches (p_lib p)) = [0; EDEPEND]
    | None => False end) by (vm_compute; auto 10).
  destruct (run [ap 1 P1; ex; ap 4 P4; ex] w_start) as [[p l]|] eqn:E; [|contradiction].
  destruct X as (_ & X1 & X2 & X3 & X4 & X5).
  exists p, (combine [ap 1 P1; ex; ap 4 P4; ex] l). split; [apply run_history; exact E|].
  split; [exact X1|]. split; [split; assumption|]. intros fuel.
  unfold ulp_revert_patches_from_lib, insnq_ensure_emptiness, ENONE. rewrite X1, X2, X3.
  cbn [negb Z.eqb Z.gtb Z.compare orb]. rewrite <- X1, set_err_id.
  unfold revert_all_patches_from_lib.
  replace (ULP_PATH_LEN <=? zlen libfoo - zlen (get_basename libfoo)) with false by (vm_compute; reflexivity).
  clear E. destruct (s_patches (p_lib p)) as [|a [|b [|? ?]]]; try discriminate X4. cbn [map] in X4, X5.
  injection X4 as Y1 Y2. injection X5 as Z1 Z2.
  assert (G : revert_all_loop fuel (p_mem p) (get_basename libfoo) [a; b] ENOTARGETLIB (p_lib p) = None).
  { destruct fuel as [|fuel]; [reflexivity|]. cbn [revert_all_loop]. unfold lib_match in Y1. rewrite Y1.
    apply blocked_loop; [exact Y2|]. rewrite Z2. discriminate. }
  rewrite G. reflexivity.
Qed.
Print Assumptions C08_blocked_revert_all_refuted.

(** ** C10 *)

(** C10: for every history of fewer than 2^63 events, no event decreases the
    universe counter and every successful request increases it. *)
Theorem C10_counter_is_monotone :
  forall m stale tr p ev p' ans,
    history (fresh m stale) tr p -> 2 * (zlen tr + 1) < 2 ^ 64 ->
    do_event ev p = Some (p', ans) ->
    ulp_get_global_universe_value (p_lib p) <= ulp_get_global_universe_value (p_lib p') /\
    (is_request ev -> ans = 0 ->
     ulp_get_global_universe_value (p_lib p) < ulp_get_global_universe_value (p_lib p')).
Proof.
  intros m stale tr p ev p' ans H Hn E.
  pose proof (history_u _ _ _ _ H ltac:(lia)) as Hu.
  destruct (event_u ev p p' ans (2 * zlen tr) E ltac:(lia) Hu) as (_ & A & B). auto.
Qed.
Print Assumptions C10_counter_is_monotone.

(** ... and among the active detours of a function the one in effect (the one
    calls go to by C01) has the largest universe; an active detour with the same
    universe belongs to the same patch. *)
Theorem C10_largest_universe_in_effect :
  forall m stale tr p r d,
    history (fresh m stale) tr p -> 2 * (zlen tr + 1) < 2 ^ 64 -> s_err (p_lib p) = 0 ->
    In r (s_roots (p_lib p)) -> In d (r_detours r) -> d_active d = true ->
    exists d0, In d0 (r_detours r) /\ d_active d0 = true /\
      route (log_of tr) (r_addr r) = Some (d_target d0) /\
      d_universe d <= d_universe d0 /\ (d_universe d = d_universe d0 -> d_pid d = d_pid d0).
Proof.
  intros m stale tr p r d H Hn He Hr Hd Ha.
  pose proof (history_u _ _ _ _ H ltac:(lia)) as [_ _ Hu]. destruct (Hu r Hr) as [Hs _].
  pose proof (history_linv _ _ _ _ H) as Hl. destruct (history_corr _ _ _ _ H (or_introl He)) as [[_ Hc] _].
  destruct (find d_active (r_detours r)) as [d0|] eqn:E.
  2:{ exfalso. pose proof (find_none _ _ E d Hd). congruence. }
  exists d0. destruct (find_some _ _ E) as [F1 F2]. split; [exact F1|]. split; [exact F2|]. split.
  - rewrite route_flat, <- Hc, active_at_root by (auto; apply li_roots; exact Hl).
    pose proof (acts_find (r_detours r)) as G. rewrite E in G. destruct G as [rest ->]. reflexivity.
  - clear -Hs E Hd Ha. induction (r_detours r) as [|x t IH]; [destruct Hd|].
    cbn [find] in E. inversion Hs as [|? ? S1 S2]; subst. destruct (d_active x) eqn:Ex.
    + injection E as <-. destruct Hd as [->|Hd]; [split; [lia|reflexivity]|].
      rewrite Forall_forall in S2. destruct (S2 d Hd) as [X|[X1 X2]]; split; try lia. auto.
    + destruct Hd as [->|Hd]; [congruence|]. apply IH; auto.
Qed.
Print Assumptions C10_largest_universe_in_effect.

(** Two patches redirect f; the newer one (universe 2) is in effect. *)
Example C10_case :
  match run [ap 1 P1; ex; ap 3 P3; ex; rv 9 P7] w_start with
  | Some (p, l) => l = [0; 0; 0; 0; ENOTAPPLIED] /\ s_universe (p_lib p) = 2 /\
      map (fun r => map d_universe (filter d_active (r_detours r))) (s_roots (p_lib p)) = [[2; 1]]
  | None => False
  end.
Proof. vm_compute. auto. Qed.

(** ** C11 *)

(** C11: `ulp check` answers 1 exactly when the patch is in the log of successful
    requests and libpulp is not in an error state, and 0 otherwise. *)
Theorem C11_check_exact :
  forall m stale tr p id,
    history (fresh m stale) tr p ->
    (check_answer p id = 1 <-> s_err (p_lib p) = 0 /\ exists en, In en (log_of tr) /\ en_id en = id) /\
    (check_answer p id = 0 \/ check_answer p id = 1).
Proof.
  intros m stale tr p id H. unfold check_answer, ulp_check_applied_patch, ENONE.
  destruct (Z.eqb_spec (s_err (p_lib p)) 0) as [E|E]; cbn [negb].
  - split; [|destruct (ulp_get_applied_patch _ _); cbn; auto].
    destruct (history_corr _ _ _ _ H (or_introl E)) as [[Hc _] _].
    pose proof (get_applied_iff (p_lib p) id) as G. rewrite (pcorr_ids _ _ Hc), in_map_iff in G.
    destruct (ulp_get_applied_patch (p_lib p) id); cbn [b2z].
    + split; [|reflexivity]. intros _. split; [exact E|]. destruct (proj1 G eq_refl) as (en & X1 & X2). eauto.
    + split; [discriminate|]. intros [_ (en & X1 & X2)]. destruct G as [_ G]. discriminate G. eauto.
  - split; [|auto]. split; [discriminate|]. intros [X _]. contradiction.
Qed.
Print Assumptions C11_check_exact.

Example C11_case :
  match run [ap 1 P1; ex; ap 3 P3; ex; rv 1 P1; ex] w_start with
  | Some (p, l) => check_answer p (repeat 1 32) = 0 /\ check_answer p (repeat 3 32) = 1
  | None => False
  end.
Proof. vm_compute. auto. Qed.

(** ** C14 *)

(** C14: while writes are pending, every request is refused with an error and
    changes neither the list, nor the routing tables, nor the queue, nor memory
    (a process that was in no error state is put into EINSNQ). *)
Theorem C14_pending_writes_block :
  forall p ev, 0 < q_num (s_q (p_lib p)) \/ 0 < q_size (s_q (p_lib p)) -> is_request ev ->
    exists p' ans, do_event ev p = Some (p', ans) /\ ans <> 0 /\
      (s_err (p_lib p) = 0 -> ans = EINSNQ) /\
      s_patches (p_lib p') = s_patches (p_lib p) /\ s_roots (p_lib p') = s_roots (p_lib p) /\
      s_universe (p_lib p') = s_universe (p_lib p) /\
      s_q (p_lib p') = s_q (p_lib p) /\ p_mem p' = p_mem p.
Proof.
  intros p ev Hq Hr. destruct (Z.eq_dec (s_err (p_lib p)) 0) as [E|E].
  - assert (X : insnq_ensure_emptiness (s_q (p_lib p)) (s_err (p_lib p)) = (1, EINSNQ)).
    { destruct (ensure_emptiness_cases (s_q (p_lib p)) (s_err (p_lib p))) as [[X _]|[_ [X1 X2]]]; [exact X|lia]. }
    destruct ev as [busy e junk buf|busy e name| |te|m']; try contradiction; cbn [do_event].
    + unfold ulp_apply_patch, ENONE. rewrite X, E. cbn [negb Z.eqb]. do 2 eexists. split; [reflexivity|].
      repeat split; discriminate.
    + unfold ulp_revert_patches_from_lib, ENONE. rewrite X, E. cbn [negb Z.eqb]. do 2 eexists. split; [reflexivity|].
      repeat split; discriminate.
  - exists p, (s_err (p_lib p)). rewrite C07_error_state_refuses by assumption. repeat split; auto. contradiction.
Qed.
Print Assumptions C14_pending_writes_block.

(** Two requests in a row without executing the writes of the first. *)
Example C14_case :
  match run [ap 1 P1; ap 3 P3] w_start with
  | Some (p, l) => l = [0; EINSNQ] /\ reported p = [repeat 1 32] /\ q_num (s_q (p_lib p)) = 3
  | None => False
  end.
Proof. vm_compute. auto. Qed.

(** ** C48 *)

Lemma mem_of_out rs m x :
  (forall a bs, In (RWrite a bs) rs -> ~ (a <= x < a + zlen bs)) -> mem_of rs m x = m x.
Proof.
  revert m; induction rs as [|r rs IH]; intros m H; [reflexivity|].
  change (mem_of (r :: rs) m) with (mem_of rs (req_mem r m)).
  rewrite IH by (intros a bs Hin; apply H; right; exact Hin).
  destruct r as [a bs|s]; cbn [req_mem]; [|reflexivity]. apply mem_write_out. apply H. left. reflexivity.
Qed.

(** Number of bytes a reference occupies and what it must hold for the target
    library [l]: module id and offset, or the run-time address. *)
Definition ref_size (r : mref) : Z := if rf_tls r then 16 else 8.
Definition ref_value (l : lib) (r : mref) : list Z :=
  if rf_tls r then le_enc 8 (u64 (lb_tls l)) ++ le_enc 8 (u64 (rf_toff r))
  else le_enc 8 (u64 (lb_base l + rf_toff r)).

Lemma patch_req_range m f g x :
  window_exists f ->
  f - 14 <= x < f + 6 \/ forall a bs, patch_req m f g true = RWrite a bs -> ~ (a <= x < a + zlen bs).
Proof.
  intros [Hw1 Hw2]. assert (Hu : u64 (f - 14) = f - 14) by (unfold u64; apply Z.mod_small; lia).
  destruct (Z_le_gt_dec (f - 14) x) as [H1|H1]; [destruct (Z_lt_ge_dec x (f + 6)) as [H2|H2]; [left; lia|]|];
    right; intros a bs H; unfold patch_req in H; injection H as <- <-;
    rewrite Hu, patched_prologue_len; destruct (is_endbr64 m f); lia.
Qed.

(** C48: after a successful application and the execution of its writes, every
    static reference that no other reference of the patch overlaps holds the
    run-time address (or TLS coordinates) of its target in the designated library;
    memory outside the references and the windows of the replaced functions is
    unchanged. *)
Theorem C48_references_bound :
  forall F eb m stale tr p busy e junk buf md p1 te p2 l,
    functions_ok F eb m -> clean_history F eb (fresh m stale) tr p -> env_sane e ->
    parse_metadata_from_mem junk buf = P_ok md -> md_type md <> 2 ->
    do_event (EvApply busy e junk buf) p = Some (p1, 0) -> s_err (p_lib p1) = 0 ->
    (forall i, te_wf te i = None) -> do_event (EvExec te) p1 = Some (p2, 0) ->
    designates (e_libs2 e) (lib_arg (e_prog e) (get_basename (md_name md))) l ->
    (forall before r after pa,
       md_refs md = before ++ r :: after -> ref_address e md r pa ->
       (forall r' pa', In r' (before ++ after) -> ref_address e md r' pa' ->
          pa + ref_size r <= pa' \/ pa' + ref_size r' <= pa) ->
       mem_read (p_mem p2) pa (Z.to_nat (ref_size r)) = ref_value l r) /\
    (forall x,
       (forall f g, In (f, g) (replacements e md) -> window_exists f /\ ~ (f - 14 <= x < f + 6)) ->
       (forall r pa, In r (md_refs md) -> ref_address e md r pa -> ~ (pa <= x < pa + ref_size r)) ->
       p_mem p2 x = p_mem p x).
Proof.
  intros F eb m stale tr p busy e junk buf md p1 te p2 l HF HC Hes Hp Ht D1 He1 Hte D2 Hdes.
  destruct (apply_success _ _ _ _ _ _ _ Hp Ht D1) as (M1 & _ & E0 & Q0 & _ & _ & _ & st1 & U1 & A1).
  destruct (clean_tied _ _ _ _ _ _ HF HC (or_introl E0)) as (rs & (Hq & _)).
  pose proof (qinv_empty_iff _ _ Hq Q0) as Xrs. subst rs.
  apply state_update_some in U1. destruct U1 as (us & _ & Hst).
  set (h := e_dlopen e (md_so md)) in *.
  destruct (apply_all_reqs e (p_mem p) h md st1 (p_lib p1) []) as (la & L1 & L2 & L3 & L4).
  { intros n. apply Hes. }
  { exact A1. }
  { rewrite Hst. exact Hq. }
  { rewrite Hst. cbn. rewrite E0. discriminate. }
  { rewrite He1. discriminate. }
  cbn [app] in L2. unfold get_loaded_library_base_addr, get_loaded_library_tls_index in L2.
  rewrite (find_base_designated _ _ _ Hdes) in L2. cbn [fst snd] in L2.
  cbn [do_event] in D2.
  destruct (insnq_interpret_from_process te true (s_q (p_lib p1)) (mk_tgt (p_mem p1) [])) as [[[c q'] t]|] eqn:Ei; [|discriminate].
  assert (c = 0) by congruence. assert (Hm2 : p_mem p2 = t_mem t) by (injection D2 as <- _; reflexivity). clear D2. subst c.
  destruct (interpret_cases _ _ _ _ _ _ _ L2 Hte Ei) as [(_ & _ & X)|[(_ & _ & X)|(_ & X & _)]]; try contradiction.
  rewrite Hm2, X, perform_all_mem. cbn [t_mem]. rewrite M1. clear Hm2 X Ei.
  assert (PL : forall r, In r (md_refs md) -> ref_address e md r (ref_place e h la r)).
  { intros r Hr. unfold ref_address, ref_place. fold h. destruct (Z.eqb_spec (rf_poff r) 0) as [E|E].
    - left. split; [exact E|]. destruct (L4 r Hr E) as [n Hn]. rewrite Hn. eauto.
    - right. split; [exact E|]. eauto. }
  assert (PU : forall r pa, In r (md_refs md) -> ref_address e md r pa -> pa = ref_place e h la r).
  { intros r pa Hr. unfold ref_address, ref_place. fold h. intros [(E & n & N1 & N2)|(E & b & N1 & N2)].
    - rewrite E, N1. cbn [Z.eqb]. exact N2.
    - destruct (Z.eqb_spec (rf_poff r) 0); [contradiction|]. congruence. }
  assert (DL : forall r, zlen (ref_data (lb_base l) (lb_tls l) r) = ref_size r).
  { intros r. unfold ref_data, ref_size. destruct (rf_tls r); rewrite ?zlen_app; unfold zlen; rewrite !le_enc_length; reflexivity. }
  split.
  - intros before r after pa Er Ha Hdis.
    assert (Hr : In r (md_refs md)) by (rewrite Er; apply in_elt).
    pose proof (PU r pa Hr Ha) as Epa.
    rewrite mem_of_app. set (m1 := mem_of (unit_reqs _ _) _). rewrite Er. unfold ref_reqs. rewrite map_app. cbn [map].
    rewrite mem_of_app. set (m2 := mem_of (map _ before) m1).
    match goal with |- mem_read (mem_of (?w :: ?rest) m2) _ _ = _ =>
      change (mem_of (w :: rest) m2) with (mem_of rest (req_mem w m2)) end.
    cbn [req_mem]. rewrite <- Epa.
    rewrite (mem_read_ext _ (mem_write m2 pa (ref_data (lb_base l) (lb_tls l) r))).
    + assert (LL : Z.to_nat (ref_size r) = length (ref_data (lb_base l) (lb_tls l) r)).
      { rewrite <- DL. unfold zlen. apply Nat2Z.id. }
      rewrite LL, mem_read_write_same. unfold ref_data, ref_value, TLS_DTV_OFFSET. rewrite Z.sub_0_r. reflexivity.
    + intros x Hx. apply mem_of_out. intros a bs Hin. apply in_map_iff in Hin. destruct Hin as (r' & E' & Hin').
      injection E' as <- <-. rewrite DL.
      assert (Hr' : In r' (md_refs md)) by (rewrite Er; apply in_app_iff; right; right; exact Hin').
      specialize (Hdis r' _ (proj2 (in_app_iff _ _ _) (or_intror Hin')) (PL r' Hr')).
      assert (0 <= ref_size r) by (unfold ref_size; destruct (rf_tls r); lia). lia.
  - intros x Hf Hr. apply mem_of_out. intros a bs Hin. apply in_app_iff in Hin. destruct Hin as [Hin|Hin].
    + unfold unit_reqs in Hin. apply in_map_iff in Hin. destruct Hin as ([f g] & E' & Hin). cbn [fst snd] in E'.
      destruct (Hf f g Hin) as [Hw Hf']. destruct (patch_req_range (p_mem p) f g x Hw) as [X|X]; [contradiction|]. apply X. exact E'.
    + apply in_map_iff in Hin. destruct Hin as (r' & E' & Hin). injection E' as <- <-. rewrite DL.
      apply (Hr r' _ Hin). apply PL. exact Hin.
Qed.
Print Assumptions C48_references_bound.

(** Patch 1 has a plain reference (offset 64 of libfoo, loaded at 65536) and a TLS
    one (module 2, offset 72), kept at offsets 1024 and 1040 of its container. *)
Example C48_case :
  match run [ap 1 P1; ex] w_start with
  | Some (p, l) =>
      l = [0; 0] /\ s_err (p_lib p) = 0 /\
      mem_read (p_mem p) (1 * 65536 * 16 + 1024) 8 = le_enc 8 (65536 + 64) /\
      mem_read (p_mem p) (1 * 65536 * 16 + 1040) 16 = le_enc 8 2 ++ le_enc 8 72 /\
      p_mem p (1 * 65536 * 16 + 1056) = 144
  | None => False
  end /\
  designates w_libs (lib_arg (zs "app") (get_basename libfoo)) (nth 1 w_libs (mk_lib [] 0 0 None [])).
Proof.
  split; [vm_compute; auto 10|].
  exists [nth 0 w_libs (mk_lib [] 0 0 None [])], [nth 2 w_libs (mk_lib [] 0 0 None [])].
  split; [reflexivity|]. split; [exists (zs "/lib/"), []; reflexivity|]. split; [vm_compute; discriminate|].
  intros x [<-|[]]. left. intros (pre & post & H). cbn in H. destruct pre; discriminate.
Qed.
