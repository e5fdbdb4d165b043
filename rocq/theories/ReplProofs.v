(** Proofs about replacing livepatches. *)
From Coq Require Import Bool Lia.
From Verif Require Import Base BaseFacts InsnQModel InsnQSpec InsnQProofs MetaModel StrModel X86Model X86Spec DlModel
  HjModel TrModel LibModel LibSpec LibProofs LibInv LibMem LibProps ReplModel ReplSpec.

Section Replace.
Variables (F : list Z) (eb : Z -> bool) (m : mem) (stale : Z -> Z).
Hypothesis HF : functions_ok F eb m.

Definition cl (tr : list (event * Z)) (p : proc) : Prop := clean_history F eb (fresh m stale) tr p.

Lemma exec_alive tr p p' r : cl tr p -> alive (p_lib p') -> do_event (EvExec env_ok) p = Some (p', r) ->
  alive (p_lib p) /\ r = 0 /\ no_pending p' /\ s_err (p_lib p') = s_err (p_lib p).
Proof.
  intros C A E. pose proof (dead_absorbing _ _ _ _ E A) as A0.
  destruct (clean_tied _ _ _ _ _ _ HF C A0) as (rs & (T1 & _)). cbn [do_event] in E.
  rewrite (interpret_exact env_ok _ rs (mk_tgt (p_mem p) []) T1) in E by reflexivity.
  injection E as <- <-. split; [exact A0|]. split; [reflexivity|]. split; [split; reflexivity|reflexivity].
Qed.

Lemma cl_exec tr p p' r : cl tr p -> do_event (EvExec env_ok) p = Some (p', r) -> cl (tr ++ [(EvExec env_ok, r)]) p'.
Proof. intros C E. eapply clean_step; eauto. intros i. reflexivity. Qed.

Lemma without_lib_same key L : existsb (fun en => bytes_eqb (en_lib en) key) L = false -> without_lib key L = L.
Proof.
  intros H. unfold without_lib. apply filter_all. intros x X. apply negb_true_iff.
  destruct (bytes_eqb (en_lib x) key) eqn:B; [|reflexivity]. exfalso.
  assert (Y : existsb (fun en => bytes_eqb (en_lib en) key) L = true) by (apply existsb_exists; eauto). congruence.
Qed.

Lemma revert_step tr p fuel busy e name p1 r0 : cl tr p ->
  tool_revert_patches_from_lib fuel env_ok busy e name p = Some (p1, r0) ->
  exists tr1, cl tr1 p1 /\
    (alive (p_lib p1) ->
     alive (p_lib p) /\ no_pending p1 /\
     (if (r0 =? 0) || ((r0 =? ENOTARGETLIB) || (r0 =? ENOPATCH))
      then log_of tr1 = without_lib (lib_key name) (log_of tr)
      else log_of tr1 = log_of tr)).
Proof.
  intros C H. apply C01_tool_revert_all_is_events in H. destruct H as (p2 & ans & E1 & r & E2 & R1 & R2).
  assert (C1 : cl (tr ++ [(EvRevertAll busy e name, ans)]) p2) by (eapply clean_step; eauto; exact I).
  exists ((tr ++ [(EvRevertAll busy e name, ans)]) ++ [(EvExec env_ok, r)]).
  split; [apply (cl_exec _ _ _ _ C1 E2)|]. intros A.
  destruct (exec_alive _ _ _ _ C1 A E2) as (A2 & -> & NP & _). rewrite R1 in * by auto.
  pose proof (dead_absorbing _ _ _ _ E1 A2) as A0. split; [exact A0|]. split; [exact NP|].
  rewrite !log_of_snoc. cbn [log_step].
  destruct (Z.eqb_spec ans 0) as [Z0|Z0]; [reflexivity|]. cbn [orb].
  destruct ((ans =? ENOTARGETLIB) || (ans =? ENOPATCH)) eqn:Q; [|reflexivity].
  cbn [do_event] in E1. destruct (ulp_revert_patches_from_lib _ _ _ _ _ _) as [[st a]|] eqn:Ex; [|discriminate].
  injection E1 as <- <-. cbn [p_lib] in A2. apply revert_all_outcome in Ex.
  assert (Y : a <> EUSRBLOCKED /\ a <> EINSNQ /\ a <> EAGAIN /\ a <> EOVERFLOW).
  { apply orb_prop in Q. destruct Q as [Q|Q]; apply Z.eqb_eq in Q; rewrite Q; repeat split; discriminate. }
  destruct Ex as [G|(_ & _ & _ & [(-> & Ee)|[(Hm & _ & _)|(_ & Ee & _)]])].
  - exfalso. inversion G as [Ge Gs Ga|Ge Gq Gs Ga|Ge Gq Gb Gs Ga].
    + destruct A0 as [A0|A0]; [contradiction|]. rewrite <- Ga in Y. apply (proj1 Y). exact A0.
    + destruct Y as (_ & Y1 & Y2 & _). congruence.
    + destruct Y as (_ & Y1 & Y2 & _). congruence.
  - exfalso. destruct Y as (_ & _ & _ & Y). exact (Y Ee).
  - symmetry. apply without_lib_same.
    destruct (history_corr _ _ _ _ (clean_is_history _ _ _ _ _ C) A0) as [[C1' _] Hl].
    destruct (map_filter_corr _ (fun en => bytes_eqb (en_lib en) (lib_key name)) _ _ C1' (lib_match_corr name _ _ C1' Hl)) as [_ G].
    rewrite <- G. exact Hm.
  - exfalso. apply Z0. exact Ee.
Qed.

Lemma apply_step tr p rax busy e junk buf p1 a : cl tr p -> event_ok F eb p (EvApply busy e junk buf) ->
  (forall md, parse_metadata_from_mem junk buf = P_ok md -> md_type md <> 2) ->
  (alive (p_lib p) -> no_pending p) ->
  tool_apply_patch env_ok rax busy e junk buf p = Some (p1, a) ->
  exists tr1, cl tr1 p1 /\
    (alive (p_lib p1) ->
     alive (p_lib p) /\ no_pending p1 /\
     ((a <> 0 /\ log_of tr1 = log_of tr) \/
      (a = 0 /\ exists md, parse_metadata_from_mem junk buf = P_ok md /\ log_of tr1 = entry_of e md :: log_of tr))).
Proof.
  intros C OK T2 NP0 H. apply C01_tool_apply_is_events in H. destruct H as (p2 & ans & E1 & H).
  assert (C1 : cl (tr ++ [(EvApply busy e junk buf, ans)]) p2) by (eapply clean_step; eauto).
  assert (L : ans <> 0 -> log_of (tr ++ [(EvApply busy e junk buf, ans)]) = log_of tr).
  { intros N. rewrite log_of_snoc. cbn [log_step]. destruct (Z.eqb_spec ans 0); [contradiction|reflexivity]. }
  destruct H as [(-> & -> & _ & N & _)|(r & E2 & R1 & R2)].
  - exists (tr ++ [(EvApply busy e junk buf, ans)]). split; [exact C1|]. intros A.
    pose proof (dead_absorbing _ _ _ _ E1 A) as A0. split; [exact A0|].
    split; [|left; split; [discriminate|exact (L N)]].
    cbn [do_event] in E1. destruct (ulp_apply_patch _ _ _ _ _ _) as [[st b]|] eqn:Ex; [|discriminate].
    injection E1 as <- <-. cbn [p_lib] in *. specialize (NP0 A0). apply apply_outcome in Ex.
    assert (Z.eqb b 0 = false) as Nb by (apply Z.eqb_neq; exact N).
    enough (st = p_lib p) as -> by exact NP0.
    destruct Ex as [Ex|(_ & _ & _ & Ex)]; [eapply gate_alive; eauto|].
    inversion Ex as [ans Ha|md st' ans Hp Ht Hc Hr|md st1 st2 ans Hp Ht Hb Hd Ha Hh Hu Hx]; subst; [reflexivity| |].
    + exfalso. exact (T2 md Hp Ht).
    + exfalso. rewrite Nb in A. destruct A as [A|A]; discriminate.
  - exists ((tr ++ [(EvApply busy e junk buf, ans)]) ++ [(EvExec env_ok, r)]).
    split; [apply (cl_exec _ _ _ _ C1 E2)|]. intros A.
    destruct (exec_alive _ _ _ _ C1 A E2) as (A2 & -> & NP & _). rewrite R1 in * by auto.
    pose proof (dead_absorbing _ _ _ _ E1 A2) as A0. split; [exact A0|]. split; [exact NP|].
    rewrite (log_of_snoc _ (EvExec env_ok, 0)). cbn [log_step].
    destruct (Z.eq_dec ans 0) as [Z0|Z0]; [right|left; split; [exact Z0|exact (L Z0)]]. split; [exact Z0|].
    rewrite Z0 in *. rewrite log_of_snoc. cbn [log_step Z.eqb].
    cbn [do_event] in E1. destruct (ulp_apply_patch _ _ _ _ _ _) as [[st b]|] eqn:Ex; [|discriminate].
    injection E1 as <- ->. apply apply_outcome in Ex.
    destruct Ex as [Ex|(_ & _ & _ & Ex)].
    { exfalso. inversion Ex; congruence. }
    inversion Ex as [x Ha|md st' x Hp Ht Hc Hr|md st1 st2 x Hp Ht Hb Hd Ha Hh Hu Hx]; subst; [contradiction| |].
    + exfalso. exact (T2 md Hp Ht).
    + exists md. split; [exact Hp|]. rewrite Hp, Ht. reflexivity.
Qed.

Variables (lib buf : list Z) (vs : nat -> visit).
Hypothesis HV : visits_ok F eb buf vs.

Lemma loop_spec : forall retry i result p tr p' r l,
  cl tr p -> (alive (p_lib p) -> no_pending p) ->
  replace_loop lib buf vs retry i result p = Some (p', r, l) -> alive (p_lib p') ->
  alive (p_lib p) /\
  exists tr', cl tr' p' /\ no_pending p' /\
    ((log_of tr' = log_of tr /\ (result <> 0 -> r <> 0)) \/
     (r <> 0 /\ log_of tr' = without_lib (lib_key lib) (log_of tr)) \/
     (r = 0 /\ exists k md, parse_metadata_from_mem (v_junk (vs k)) buf = P_ok md /\
        log_of tr' = entry_of (v_env2 (vs k)) md :: without_lib (lib_key lib) (log_of tr))).
Proof.
  induction retry as [|n IH]; intros i result p tr p' r l C NP H A; cbn [replace_loop] in H.
  - injection H as <- <- <-. split; [exact A|]. exists tr. split; [exact C|]. split; [exact (NP A)|]. left. auto.
  - destruct (HV i) as (V1 & V2 & V3).
    set (p0 := mk_proc (p_lib p) (v_run (vs i) (p_mem p))) in *.
    assert (C0 : cl (tr ++ [(EvProgram (v_run (vs i) (p_mem p)), 0)]) p0).
    { eapply clean_step; [exact C| |reflexivity]. intros f x Hf Hx. apply V1 with (1 := Hf) (2 := Hx). }
    assert (L0 : log_of (tr ++ [(EvProgram (v_run (vs i) (p_mem p)), 0)]) = log_of tr) by (rewrite log_of_snoc; reflexivity).
    unfold replace_attempt in H.
    destruct (tool_revert_patches_from_lib _ _ _ _ _ _) as [[p1 r0]|] eqn:E1; [|discriminate].
    destruct (revert_step _ _ _ _ _ _ _ _ C0 E1) as (tr1 & C1 & R1). rewrite L0 in R1.
    set (nn := (r0 =? ENOTARGETLIB) || (r0 =? ENOPATCH)) in *.
    destruct (Z.eqb_spec (if nn then 0 else r0) 0) as [Z0|Z0]; cbn [negb] in H.
    + assert (X : (r0 =? 0) || nn = true).
      { destruct nn; [apply orb_true_r|]. rewrite Z0. reflexivity. }
      rewrite X in R1.
      destruct (tool_apply_patch _ _ _ _ _ _ _) as [[p2 a]|] eqn:E2; [|discriminate]. injection H as <- <- <-.
      assert (OK : event_ok F eb p1 (EvApply (v_busy2 (vs i)) (v_env2 (vs i)) (v_junk (vs i)) buf)).
      { split; [exact V2|]. intros md Hp. destruct (V3 md Hp) as (_ & W1 & W2). split; [intros; left; eauto|exact W2]. }
      destruct (apply_step _ _ _ _ _ _ _ _ _ C1 OK (fun md Hp => proj1 (V3 md Hp)) (fun A1 => proj1 (proj2 (R1 A1))) E2)
        as (tr2 & C2 & R2).
      destruct (R2 A) as (A1 & NP2 & R). destruct (R1 A1) as (A0 & _ & L1). split; [exact A0|].
      exists tr2. split; [exact C2|]. split; [exact NP2|]. right.
      destruct R as [[N L2]|(-> & md & Hp & L2)].
      * left. split; [exact N|]. rewrite L2. exact L1.
      * right. split; [reflexivity|]. exists i, md. split; [exact Hp|]. rewrite L2, L1. reflexivity.
    + assert (X : nn = false) by (destruct nn; [contradiction|reflexivity]). rewrite X in *.
      assert (X2 : (r0 =? 0) = false) by (apply Z.eqb_neq; exact Z0). rewrite X2 in R1. cbn [orb] in R1.
      destruct (r0 =? -1).
      * injection H as <- <- <-. destruct (R1 A) as (A0 & NP1 & L1). split; [exact A0|].
        exists tr1. split; [exact C1|]. split; [exact NP1|]. left. auto.
      * destruct (replace_loop _ _ _ n (S i) r0 p1) as [[[p2 r2] l2]|] eqn:E2; [|discriminate]. injection H as <- <- <-.
        destruct (IH _ _ _ _ _ _ _ C1 (fun A1 => proj1 (proj2 (R1 A1))) E2 A) as (A1 & tr' & C' & NP' & R).
        destruct (R1 A1) as (A0 & _ & L1). split; [exact A0|]. exists tr'. split; [exact C'|]. split; [exact NP'|].
        rewrite L1 in R. destruct R as [[R Rr]|[R|R]]; auto.
Qed.

End Replace.

(** The loop is the one of C39. *)
Lemma loop_is_trigger lib buf vs : forall retry i result p p' r l,
  replace_loop lib buf vs retry i result p = Some (p', r, l) ->
  forall ans, (forall k, ans (i + k)%nat = let a := nth k l (0, 0) in mk_attempt 0 0 (fst a) (snd a) 0) ->
  fst (trigger_loop (mk_treq true true false) ans retry i result) = inr r.
Proof.
  induction retry as [|n IH]; intros i result p p' r l H ans AN; cbn [replace_loop] in H.
  - injection H as <- <- <-. reflexivity.
  - destruct (replace_attempt _ _ _ _) as [[[[p1 r1] stop] a]|] eqn:E; [|discriminate].
    assert (A0 : exists l', l = a :: l') by (destruct stop; [|destruct (replace_loop _ _ _ n _ _ _) as [[[? ?] ?]|]; [|discriminate]];
      injection H as _ _ <-; eauto).
    destruct A0 as [l' ->].
    assert (A0 : ans i = mk_attempt 0 0 (fst a) (snd a) 0) by (specialize (AN 0%nat); rewrite Nat.add_0_r in AN; exact AN).
    cbn [trigger_loop]. rewrite A0. cbn [at_hijack Z.eqb Z.ltb Z.compare orb].
    change (0 =? ETHRDDETTACH) with false. cbn [orb].
    assert (O : one_attempt (mk_treq true true false) (mk_attempt 0 0 (fst a) (snd a) 0) result =
                (r1, stop, snd (one_attempt (mk_treq true true false) (mk_attempt 0 0 (fst a) (snd a) 0) result))).
    { unfold replace_attempt in E. unfold one_attempt. cbn [q_stack q_revert q_patch at_range at_revert at_apply at_restore andb negb].
      destruct (tool_revert_patches_from_lib _ _ _ _ _ _) as [[q1 r0]|]; [|discriminate].
      destruct ((r0 =? ENOTARGETLIB) || (r0 =? ENOPATCH)) eqn:Q.
      - change (negb (0 =? 0)) with false in E. cbn iota in E.
        destruct (tool_apply_patch _ _ _ _ _ _ _) as [[q2 b]|]; [|discriminate]. injection E as _ <- <- <-.
        cbn [fst snd]. rewrite Q. reflexivity.
      - destruct (negb (r0 =? 0)) eqn:N.
        + injection E as _ <- <- <-. cbn [fst snd]. rewrite Q, N. cbn [negb andb orb]. rewrite orb_false_r. reflexivity.
        + destruct (tool_apply_patch _ _ _ _ _ _ _) as [[q2 b]|]; [|discriminate]. injection E as _ <- <- <-.
          cbn [fst snd]. rewrite Q, N. reflexivity. }
    rewrite O. destruct stop.
    + injection H as _ <- _. reflexivity.
    + destruct (replace_loop _ _ _ n (S i) r1 p1) as [[[p2 r2] l2]|] eqn:E2; [|discriminate]. injection H as <- <- <-.
      specialize (IH (S i) r1 p1 p2 r2 l2 E2 ans).
      destruct (trigger_loop _ _ n (S i) r1) as [x rest]. cbn [fst] in *. apply IH. intros k.
      specialize (AN (S k)). rewrite <- plus_n_Sm in AN. exact AN.
Qed.
