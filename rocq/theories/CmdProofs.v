(** Lemmas about the commands of the tool. *)
From Coq Require Import String.
From Verif Require Import Base BaseFacts StrModel InsnQModel MetaModel MetaSpec MetaProofs MetaProps LibModel LibProofs
  PtModel PtProofs HjModel TextModel TrModel CmdModel CmdSpec.

(** ** Extraction *)

Lemma hex_digit_same d : hexdigit d = hex_digit d.
Proof. unfold hexdigit, hex_digit. destruct (d <? 10); lia. Qed.

Lemma hex_text_same l : buildid_to_string l = hex_text l.
Proof.
  unfold buildid_to_string, hex_text. apply flat_map_ext. intros a. rewrite !hex_digit_same. reflexivity.
Qed.

Lemma extract_packed p prefix given real :
  pmeta_ok p -> fits p (match prefix with Some q => q | None => [] end ++ named given real) ->
  exists b, extract (Some (create_patch_metadata_file p)) prefix given real = P_ok (X_meta b) /\
    forall junk, parse_metadata_from_mem junk b =
      P_ok (seen_patch p (match prefix with Some q => q | None => [] end ++ named given real)).
Proof.
  intros Hp (Hc & Hn & Hl & Hs).
  destruct (C18_metadata_roundtrip p _ Hp Hc Hn Hl Hs) as (b & Hx & _ & Hr).
  exists b. split.
  - unfold extract, metadata_path, named in *. destruct prefix as [q|].
    + destruct (Z.leb_spec PATH_MAX (zlen q)) as [G|G].
      * rewrite zlen_app in Hl. pose proof (zlen_nonneg (match real with Some r => r | None => given end)). lia.
      * rewrite Hx. reflexivity.
    + cbn [app] in Hx. rewrite Hx. reflexivity.
  - intros junk. specialize (Hr junk []). rewrite app_nil_r in Hr. exact Hr.
Qed.

(** ** check *)

Lemma check_answer st id : s_err st = ENONE ->
  (applied st id /\ ulp_check_applied_patch st id = 1) \/ (~ applied st id /\ ulp_check_applied_patch st id = 0).
Proof.
  intros He. unfold ulp_check_applied_patch. rewrite He. cbn [negb Z.eqb].
  pose proof (get_applied_iff st id) as G. fold (applied st id) in G.
  change (negb (ENONE =? ENONE)) with false. cbn iota.
  destruct (ulp_get_applied_patch st id); cbn [b2z].
  - left. split; [apply G; reflexivity|reflexivity].
  - right. split; [|reflexivity]. intros H. apply G in H. discriminate.
Qed.

Lemma check_zero st id : ulp_check_applied_patch st id = 0 -> s_err st <> ENONE \/ ~ applied st id.
Proof.
  intros H. destruct (Z.eq_dec (s_err st) ENONE) as [E|E]; [|left; exact E].
  right. destruct (check_answer st id E) as [(_ & G)|(G & _)]; [lia|exact G].
Qed.
Lemma check_one st id : ulp_check_applied_patch st id = 1 -> s_err st = ENONE /\ applied st id.
Proof.
  intros H. destruct (Z.eq_dec (s_err st) ENONE) as [E|E].
  - destruct (check_answer st id E) as [(G & _)|(_ & G)]; [auto|lia].
  - unfold ulp_check_applied_patch in H. destruct (Z.eqb_spec (s_err st) ENONE); [contradiction|].
    cbn [negb] in H. lia.
Qed.

(** The value of run_check once the metadata has been parsed. *)
Definition check_rest (e : check_env) (st : lstate) (md : meta) : Z :=
  if negb (ce_number e) then -1
  else if negb (ce_init e =? 0) then -1
  else if negb (ce_sanity e md =? 0) then -1
  else if (ce_hijack e =? ETHRDDETTACH) || (0 <? ce_hijack e) then -1
  else
    let (check, result) := patch_applied (ce_hijack e =? 0) (ce_written e) (ce_run e) st (md_id md) in
    if negb (ce_restore e =? 0) then -1 else if negb (check =? 0) then -1 else result.

Lemma run_check_parsed e junk st b md :
  extract (ce_section e) None (ce_path e) (ce_real e) = P_ok (X_meta b) ->
  parse_metadata_from_mem junk b = P_ok md ->
  run_check e junk st = R_value (check_rest e st md).
Proof.
  intros Hx Hm. unfold run_check, check_rest. rewrite Hx, Hm.
  destruct (negb (ce_number e)); [reflexivity|]. destruct (negb (ce_init e =? 0)); [reflexivity|].
  destruct (negb (ce_sanity e md =? 0)); [reflexivity|].
  destruct ((ce_hijack e =? ETHRDDETTACH) || (0 <? ce_hijack e)); [reflexivity|].
  destruct (patch_applied _ _ _ _ _). destruct (negb (ce_restore e =? 0)); [reflexivity|].
  destruct (negb (_ =? 0)); reflexivity.
Qed.

Lemma check_rest_cases e st md :
  (check_rest e st md = -1 /\ ~ check_steps_ok e md) \/
  (check_rest e st md = ulp_check_applied_patch st (md_id md) /\ check_steps_ok e md).
Proof.
  unfold check_rest, check_steps_ok, patch_applied.
  destruct (ce_number e); cbn [negb]; [|left; split; [reflexivity|intuition discriminate]].
  destruct (Z.eqb_spec (ce_init e) 0); cbn [negb]; [|left; split; [reflexivity|tauto]].
  destruct (Z.eqb_spec (ce_sanity e md) 0); cbn [negb]; [|left; split; [reflexivity|tauto]].
  destruct ((ce_hijack e =? ETHRDDETTACH) || (0 <? ce_hijack e)) eqn:H.
  { left. split; [reflexivity|]. intros (_ & _ & _ & G & _). rewrite G in H. discriminate. }
  destruct (Z.eqb_spec (ce_hijack e) 0); cbn [negb].
  2:{ left. split; [|tauto]. destruct (negb (ce_restore e =? 0)); reflexivity. }
  destruct (ce_written e); cbn [negb].
  2:{ left. split; [|intuition discriminate]. destruct (negb (ce_restore e =? 0)); reflexivity. }
  destruct (Z.eqb_spec (ce_run e) 0) as [R|R]; cbn [negb].
  2:{ left. split; [|tauto]. destruct (negb (ce_restore e =? 0)); [reflexivity|].
      destruct (Z.eqb_spec (ce_run e) 0); [contradiction|reflexivity]. }
  destruct (Z.eqb_spec (ce_restore e) 0); cbn [negb]; [|left; split; [reflexivity|tauto]].
  right. split; [reflexivity|tauto].
Qed.

(** ** set_patchable *)

Lemma rr_result_always ar e t ctx routine : rr_result (fst (fst (run_and_redirect ar e t ctx routine))).
Proof.
  unfold run_and_redirect, rr_result. destruct (negb _); [cbn [fst]; tauto|]. destruct (negb _); [cbn [fst]; tauto|].
  assert (W : forall evs, match rr_wait evs with inl c => c = ETIME \/ c = EUNKNOWN | inr _ => True end).
  { induction evs as [|w evs IH]; cbn [rr_wait]; [tauto|]. destruct w; try exact IH; try (right; reflexivity).
    destruct (WIFEXITED _ || WCOREDUMP _); [tauto|]. destruct (WIFSTOPPED _); [exact I|exact IH]. }
  specialize (W (e_waits e)). destruct (rr_wait (e_waits e)); [cbn [fst]; tauto|].
  destruct (negb _); cbn [fst]; tauto.
Qed.

Definition toggled (st : lstate) : lstate := fst (ulp_enable_or_disable_patching st).

Lemma toggled_same st : same_but_err (toggled st) st.
Proof.
  unfold toggled, ulp_enable_or_disable_patching. cbn [fst].
  destruct (s_err st =? ENONE); [|destruct (s_err st =? EUSRBLOCKED)]; repeat split; reflexivity.
Qed.

(** The loop runs the routine at most once. *)
Lemma sp_loop_once n tries i st ret :
  Forall (fun j => rr_result (sp_run (tries j))) (seq i n) -> s_err st <> EAGAIN ->
  sp_loop (S n) tries i st ret =
  (if negb (sp_hijack (tries i) =? 0) then (st, ret)
   else let (st', r) := run_enable_disable_patching (tries i) st in (st', Some r)) \/ ~ rr_result (sp_run (tries i)).
Proof.
  intros _ Ha. cbn [sp_loop]. destruct (negb (sp_hijack (tries i) =? 0)); [left; reflexivity|].
  destruct (run_enable_disable_patching (tries i) st) as [st' r] eqn:R.
  destruct (negb (sp_restore (tries i) =? 0)); [left; reflexivity|].
  destruct (Z.eqb_spec r EAGAIN) as [E|E]; cbn [negb]; [|left; reflexivity].
  right. intros Hr. subst r. unfold run_enable_disable_patching in R.
  destruct (Z.eqb_spec (sp_run (tries i)) 0) as [Z0|Z0]; cbn [orb] in R.
  - unfold ulp_enable_or_disable_patching in R. inversion R as [[R1 R2]]. clear R.
    destruct (Z.eqb_spec (s_err st) ENONE); [cbn in R2; discriminate|].
    destruct (Z.eqb_spec (s_err st) EUSRBLOCKED); [cbn in R2; discriminate|]. contradiction.
  - assert (sp_run (tries i) = EAGAIN).
    { destruct (sp_ran (tries i)); inversion R; reflexivity. }
    unfold rr_result in Hr. rewrite H in Hr. unfold EAGAIN, ETARGETHOOK, ETIME, EUNKNOWN in Hr. lia.
Qed.

(** ** The report of trigger *)

Lemma minor_same r : minor (tr_err r) = not_concerned r.
Proof. reflexivity. Qed.
Lemma minor_zero : minor 0 = false.
Proof. reflexivity. Qed.

Lemma report_err_spec rs : forall e0 h,
  report_err rs e0 h = match rev (concerned rs) with [] => (e0, h) | r :: _ => (tr_err r, true) end.
Proof.
  induction rs as [|r t IH]; intros e0 h; [reflexivity|]. cbn [report_err concerned filter].
  rewrite minor_same. fold (concerned t).
  destruct (not_concerned r) eqn:M; cbn [negb].
  - assert (Z0 : tr_err r =? 0 = false).
    { destruct (Z.eqb_spec (tr_err r) 0) as [E|E]; [|reflexivity].
      unfold not_concerned in M. rewrite E in M. discriminate. }
    rewrite Z0. cbn [orb]. apply IH.
  - rewrite Bool.orb_true_r, IH. cbn [rev]. destruct (rev (concerned t)); reflexivity.
Qed.

Lemma concerned_not rs r : In r (concerned rs) -> not_concerned r = false.
Proof. unfold concerned. rewrite filter_In. intros (_ & H). destruct (not_concerned r); [discriminate|reflexivity]. Qed.

(** Once it cannot be summarised it stays so. *)
Lemma report_sum_false rs : forall e h res, fst (report_sum rs e h false res) = false.
Proof.
  induction rs as [|r t IH]; intros e h res; cbn [report_sum]; [reflexivity|].
  destruct (h && minor (tr_err r)); [apply IH|]. destruct (negb (tr_err r =? e)); [apply IH|].
  destruct (negb (minor (tr_err r))); [destruct res; apply IH|apply IH].
Qed.

(** The summary, when minor results are hidden, depends on the others only. *)
Lemma report_sum_hide rs : forall e s res,
  report_sum rs e true s res = report_sum (concerned rs) e true s res.
Proof.
  induction rs as [|r t IH]; intros e s res; [reflexivity|]. cbn [report_sum concerned filter].
  rewrite minor_same. fold (concerned t). destruct (not_concerned r) eqn:M; cbn [negb andb].
  - apply IH.
  - cbn [report_sum]. rewrite minor_same, M. cbn [negb andb].
    destruct (negb (tr_err r =? e)); [apply IH|]. destruct res; apply IH.
Qed.

(** More than one concerned result: no summary. *)
Lemma report_sum_many cs : forall e s res,
  Forall (fun r => not_concerned r = false) cs ->
  res <> None -> cs <> [] -> fst (report_sum cs e true s res) = false.
Proof.
  intros e s res F Hr Hc. destruct cs as [|r t]; [contradiction|]. inversion F; subst.
  cbn [report_sum]. rewrite minor_same, H1. cbn [negb andb].
  destruct (negb (tr_err r =? e)); [apply report_sum_false|].
  destruct res; [apply report_sum_false|contradiction].
Qed.

(** What the second loop finds. *)
Lemma report_sum_concerned cs : cs <> [] -> Forall (fun r => not_concerned r = false) cs ->
  match rev cs with
  | [] => True
  | last :: _ =>
      report_sum cs (tr_err last) true true None =
      (match cs with [_] => true | _ => false end, snd (report_sum cs (tr_err last) true true None)) /\
      (cs = [last] -> snd (report_sum cs (tr_err last) true true None) = Some last)
  end.
Proof.
  intros Hne F. destruct (rev cs) as [|last rest] eqn:E; [exact I|].
  destruct cs as [|r [|r2 t]]; [contradiction| |].
  - cbn in E. inversion E; subst. inversion F; subst. cbn [report_sum]. rewrite minor_same, H1, Z.eqb_refl.
    cbn [negb andb]. split; [reflexivity|intros _; reflexivity].
  - split; [|intros H; discriminate].
    rewrite surjective_pairing at 1. f_equal.
    pose proof (Forall_inv F) as M1. pose proof (Forall_inv_tail F) as F2. cbn beta in M1.
    cbn [report_sum]. rewrite minor_same, M1. cbn [negb andb].
    destruct (negb (tr_err r =? tr_err last)) eqn:Ne.
    + change (fst (report_sum (r2 :: t) (tr_err last) true false None) = false). apply report_sum_false.
    + change (fst (report_sum (r2 :: t) (tr_err last) true true (Some r)) = false).
      apply report_sum_many; [exact F2|discriminate|discriminate].
Qed.

(** All results are minor. *)
Lemma report_sum_minor rs : forall e s,
  Forall (fun r => not_concerned r = true) rs ->
  report_sum rs e false s None = (s && forallb (fun r => tr_err r =? e) rs, None).
Proof.
  induction rs as [|r t IH]; intros e s F; cbn [report_sum forallb].
  - rewrite Bool.andb_true_r. reflexivity.
  - inversion F; subst. cbn [andb]. destruct (tr_err r =? e); cbn [negb].
    + rewrite minor_same, H1. cbn [negb]. rewrite IH by assumption. reflexivity.
    + rewrite IH by assumption. cbn [andb]. rewrite Bool.andb_false_r. reflexivity.
Qed.

Lemma report_line_all rs : flat_map (report_line false) rs = map honest_line rs.
Proof.
  induction rs as [|r t IH]; [reflexivity|]. cbn [flat_map map]. rewrite IH.
  unfold report_line, honest_line. rewrite minor_same. destruct (not_concerned r); [reflexivity|].
  destruct (tr_err r =? 0); reflexivity.
Qed.
Lemma report_line_hide rs : flat_map (report_line true) rs = map honest_line (concerned rs).
Proof.
  induction rs as [|r t IH]; [reflexivity|]. cbn [flat_map concerned filter]. fold (concerned t). rewrite IH.
  unfold report_line. rewrite minor_same. destruct (not_concerned r) eqn:M; cbn [negb map app]; [reflexivity|].
  unfold honest_line. rewrite M. destruct (tr_err r =? 0); reflexivity.
Qed.

Lemma concerned_nil rs : concerned rs = [] <-> Forall (fun r => not_concerned r = true) rs.
Proof.
  induction rs as [|r t IH]; [split; auto|]. cbn [concerned filter]. fold (concerned t).
  destruct (not_concerned r) eqn:M; cbn [negb].
  - rewrite IH. split; [intros; constructor; auto|intros H; inversion H; auto].
  - split; [discriminate|]. intros H. inversion H; congruence.
Qed.

Lemma concerned_forall rs : Forall (fun r => not_concerned r = false) (concerned rs).
Proof. apply Forall_forall. intros r. apply concerned_not. Qed.

(** The whole report. *)
Definition report_spec (rs : list tresult) (summarize : bool) : option (list rline) :=
  match concerned rs with
  | [] => if forallb (fun r => tr_err r =? match rs with [] => 0 | r :: _ => tr_err r end) rs then None
          else Some (map honest_line rs)
  | [r] => if summarize then Some [if skippable_error (tr_err r) then R_skipped None (tr_err r) else honest_line r]
           else Some (map honest_line rs)
  | cs => if summarize then Some (map honest_line cs) else Some (map honest_line rs)
  end.

Lemma print_spec rs summarize : print_patched_unpatched rs summarize = report_spec rs summarize.
Proof.
  unfold print_patched_unpatched, report_spec. rewrite report_err_spec.
  destruct (concerned rs) as [|c cs] eqn:C.
  - cbn [rev]. apply concerned_nil in C. rewrite (report_sum_minor rs _ _ C). cbn [andb].
    replace (forallb (fun r => tr_err r =? match rs with [] => EUNKNOWN | r0 :: _ => tr_err r0 end) rs)
      with (forallb (fun r => tr_err r =? match rs with [] => 0 | r0 :: _ => tr_err r0 end) rs)
      by (destruct rs; reflexivity).
    destruct (forallb _ rs); [reflexivity|]. cbn [andb]. rewrite report_line_all. reflexivity.
  - pose proof (concerned_forall rs) as F. rewrite C in F.
    pose proof (report_sum_concerned (c :: cs) ltac:(discriminate) F) as S.
    destruct (rev (c :: cs)) as [|last rest] eqn:R.
    { apply (f_equal (@List.length tresult)) in R. rewrite rev_length in R. discriminate. }
    rewrite report_sum_hide, C. destruct S as (S1 & S2). rewrite S1. clear S1.
    destruct cs as [|c2 cs].
    + cbn in R. inversion R; subst last rest. rewrite (S2 eq_refl). cbn [andb]. destruct summarize; cbn [andb].
      * destruct (skippable_error (tr_err c)); [reflexivity|].
        unfold honest_line. inversion F; subst. rewrite H1. destruct (tr_err c =? 0); reflexivity.
      * rewrite report_line_all. reflexivity.
    + cbn [andb]. replace (match snd (report_sum (c :: c2 :: cs) (tr_err last) true true None) with
        | Some _ | _ => Some (flat_map (report_line summarize) rs) end) with (Some (flat_map (report_line summarize) rs))
        by (destruct (snd _); reflexivity).
      destruct summarize; [rewrite report_line_hide, C|rewrite report_line_all];
        destruct (snd (report_sum (c :: c2 :: cs) (tr_err last) true true None)); reflexivity.
Qed.

(** ** dump *)

Lemma dump_refs_seen rs :
  dump_refs (map seen_ref rs) =
  Some (flat_map (fun r => [D_ref (pr_name r); D_target (pr_toff r); D_patch (pr_toff r); D_tls (pr_tls r)]) rs).
Proof. induction rs as [|r t IH]; [reflexivity|]. cbn [map dump_refs]. rewrite IH. reflexivity. Qed.

Lemma reliable_refs rs :
  filter reliable (flat_map (fun r => [D_ref (pr_name r); D_target (pr_toff r); D_patch (pr_toff r); D_tls (pr_tls r)]) rs) =
  filter reliable (flat_map (fun r => [D_ref (pr_name r); D_target (pr_toff r); D_patch (pr_poff r); D_tls (pr_tls r)]) rs).
Proof. induction rs as [|r t IH]; [reflexivity|]. cbn [flat_map app filter reliable]. rewrite IH. reflexivity. Qed.

(** ** The path *)

Lemma starts_with_app a b : starts_with a (a ++ b) = true.
Proof. induction a; [reflexivity|]. cbn [app starts_with]. rewrite Z.eqb_refl. exact IHa. Qed.

Lemma skipn_len_app {A} (a b : list A) : skipn (List.length a) (a ++ b) = b.
Proof. induction a; [reflexivity|exact IHa]. Qed.

Lemma adjust_spec chrooted user :
  zlen (match user with Some u => u | None => [] end) < PATH_MAX - 8 ->
  exists pre, adjust_prefix_for_chroot chrooted user = P_ok pre /\
    match pre with Some q => q | None => [] end = wanted_prefix chrooted user.
Proof.
  intros Hl. unfold adjust_prefix_for_chroot, wanted_prefix. destruct chrooted.
  2:{ exists user. split; [reflexivity|]. destruct user; reflexivity. }
  destruct user as [u|].
  - assert (F : firstn (Z.to_nat (PATH_MAX - 1)) u = u).
    { apply firstn_all2. unfold zlen, PATH_MAX in *. lia. }
    rewrite F. destruct (Z.ltb_spec PATH_MAX (8 + zlen u + 1)); [lia|].
    exists (Some (zs "/1/root/" ++ u)). split; reflexivity.
  - exists (Some (zs "/1/root/")). split; reflexivity.
Qed.
