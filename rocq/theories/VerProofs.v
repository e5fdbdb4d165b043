(** Facts about the version check. *)
From Coq Require Import Bool Lia.
From Verif Require Import Base BaseFacts InsnQModel InsnQProofs LibModel VerModel VerSpec.

Lemma check_new o p (readable : bool) :
  found o -> too_new p -> remembers o p -> can_tell o p readable ->
  exists o', insnq_check_compatibility o (if readable then Some (q_version (s_q (p_lib p))) else None) = (false, o') /\
    v_addr o' = v_addr o /\ v_cached o' = q_version (s_q (p_lib p)).
Proof.
  unfold found, too_new, remembers, can_tell, insnq_check_compatibility, insnq_get_version, INSNQ_CURR_VERSION.
  intros Hf Hn Hr Hc. destruct (Z.eqb_spec (v_addr o) 0) as [|_]; [contradiction|].
  destruct (Z.ltb_spec 0 (v_cached o)) as [L|L].
  - destruct Hr as [Hr|Hr]; [lia|]. rewrite Hr.
    destruct (Z.gtb_spec (q_version (s_q (p_lib p))) 1); [|lia]. eauto.
  - destruct Hc as [->|Hc]; [|lia].
    destruct (Z.gtb_spec (q_version (s_q (p_lib p))) 1); [|lia]. eexists. cbn [v_addr v_cached]. eauto.
Qed.

Lemma check_old o p (readable : bool) :
  found o -> ~ too_new p -> remembers o p ->
  exists o', insnq_check_compatibility o (if readable then Some (q_version (s_q (p_lib p))) else None) = (true, o') /\
    v_addr o' = v_addr o /\ remembers o' p.
Proof.
  unfold found, too_new, remembers, insnq_check_compatibility, insnq_get_version, INSNQ_CURR_VERSION.
  intros Hf Hn Hr. destruct (Z.eqb_spec (v_addr o) 0) as [|_]; [contradiction|].
  destruct (Z.ltb_spec 0 (v_cached o)) as [L|L].
  - destruct Hr as [Hr|Hr]; [lia|]. rewrite Hr.
    destruct (Z.gtb_spec (q_version (s_q (p_lib p))) 1); [lia|]. eauto.
  - destruct readable.
    + destruct (Z.gtb_spec (q_version (s_q (p_lib p))) 1); [lia|]. eexists. cbn [v_addr v_cached]. eauto.
    + cbn [Z.gtb Z.compare]. exists o. auto.
Qed.

Lemma report_from_queue te st m r : report_from true te st m r = interpret_and_report te st m r.
Proof. reflexivity. Qed.

Lemma set_qe_id st : set_qe st (s_q st, s_err st) = st.
Proof. destruct st; reflexivity. Qed.

Lemma report_new te st m r :
  INSNQ_CURR_VERSION < q_version (s_q st) ->
  exists e, report_from true te st m r = Some (mk_proc st m, e) /\ (e = EINSNQ \/ e = EOLDULP).
Proof.
  intros H. unfold report_from, insnq_interpret_from_process, insnq_get_from_remote_process. cbn [negb].
  destruct (te_rd_hdr te =? 0) eqn:E; cbn [negb].
  - destruct (Z.gtb_spec (q_version (s_q st)) INSNQ_CURR_VERSION) as [_|X]; [|lia].
    exists EOLDULP. cbn. rewrite set_qe_id. auto.
  - exists EINSNQ. cbn. rewrite set_qe_id. auto.
Qed.

Lemma report_none te st m r : report_from false te st m r = Some (mk_proc st m, r).
Proof. unfold report_from, insnq_interpret_from_process. cbn. rewrite set_qe_id. reflexivity. Qed.
