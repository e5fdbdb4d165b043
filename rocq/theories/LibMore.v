(** More invariants of libpulp's state: universes, termination of revert-all,
    the exact list of memory writes of an application. *)
From Coq Require Import Sorting.Sorted.
From Verif Require Import Base BaseFacts InsnQModel InsnQSpec InsnQProofs MetaModel StrModel
  X86Model X86Spec X86Proofs DlModel LibModel LibSpec LibProofs LibInv LibMem.

(** ** Universes *)

Definition newer (d1 d2 : detour) : Prop :=
  d_universe d2 < d_universe d1 \/ (d_universe d2 = d_universe d1 /\ d_pid d2 = d_pid d1).

Definition roots_u (B : detour -> Prop) (roots : list droot) : Prop :=
  forall r, In r roots -> StronglySorted newer (r_detours r) /\ Forall B (r_detours r).

Lemma roots_u_weaken (B1 B2 : detour -> Prop) roots :
  (forall d, B1 d -> B2 d) -> roots_u B1 roots -> roots_u B2 roots.
Proof. intros H H1 r Hr. destruct (H1 r Hr) as [A C]. split; auto. eapply Forall_impl; eauto. Qed.

Lemma push_detour_in roots a d r :
  In r (push_detour roots a d) ->
  In r roots \/ exists r0, In r0 roots /\ r_addr r0 = a /\ r = mk_droot (r_index r0) (r_addr r0) (d :: r_detours r0).
Proof.
  induction roots as [|x t IH]; [intros []|]. cbn [push_detour].
  destruct (Z.eqb_spec (r_addr x) a) as [E|E]; intros [H|H].
  - right. exists x. subst r. repeat split; auto. left. reflexivity.
  - left. right. exact H.
  - left. left. exact H.
  - destruct (IH H) as [G|(r0 & G1 & G2)]; [left; right; exact G|]. right. exists r0. split; [right; exact G1|exact G2].
Qed.

Lemma record_unit_u st id old new (u := s_universe st) :
  roots_u (fun d => d_universe d < u \/ (d_universe d = u /\ d_pid d = id)) (s_roots st) ->
  roots_u (fun d => d_universe d < u \/ (d_universe d = u /\ d_pid d = id))
    (s_roots (record_unit st id old new)).
Proof.
  intros H r Hr. unfold record_unit in Hr. cbn [s_roots set_roots] in Hr.
  assert (HU : s_universe (ensure_root st old) = u) by (unfold ensure_root; destruct (has_root _ _); reflexivity).
  assert (HE : forall x, In x (s_roots (ensure_root st old)) ->
     StronglySorted newer (r_detours x) /\ Forall (fun d => d_universe d < u \/ (d_universe d = u /\ d_pid d = id)) (r_detours x)).
  { intros x Hx. unfold ensure_root in Hx. destruct (has_root (s_roots st) old); [apply H; exact Hx|].
    cbn in Hx. destruct Hx as [<-|Hx]; [split; constructor|apply H; exact Hx]. }
  apply push_detour_in in Hr. rewrite HU in Hr. destruct Hr as [Hr|(r0 & Hr & _ & ->)]; [apply HE; exact Hr|].
  cbn [r_detours]. destruct (HE r0 Hr) as [A B]. split.
  - constructor; [exact A|exact B].
  - constructor; [right; split; reflexivity|exact B].
Qed.

Lemma apply_units_u e m libname h id us st st' ret (u := s_universe st) :
  apply_units e m libname h id us st = (st', ret) ->
  roots_u (fun d => d_universe d < u \/ (d_universe d = u /\ d_pid d = id)) (s_roots st) ->
  roots_u (fun d => d_universe d < u \/ (d_universe d = u /\ d_pid d = id)) (s_roots st').
Proof.
  unfold u; clear u. revert st; induction us as [|x us IH]; intros st H Hu.
  - cbn in H. injection H as <- <-. auto.
  - rewrite apply_units_step in H. cbv zeta in H.
    destruct (_ =? 0); [injection H as <- <-; auto|].
    destruct (_ =? 0); [injection H as <- <-; auto|].
    set (old := get_loaded_symbol_addr _ _ _ _ _) in *. set (new := e_dlsym e h (u_new x)) in *.
    destruct (record_unit_fields st id old new) as (_ & F2 & _ & _).
    pose proof (record_unit_u st id old new Hu) as Hu'.
    destruct (looks_patchable m old).
    + apply IH in H; cbn [set_qe s_universe s_roots] in *; rewrite F2 in *; auto.
    + injection H as <- <-. exact Hu'.
Qed.

Lemma drop_u (B : detour -> Prop) id roots :
  (forall d, B d -> B (deactivate d)) -> roots_u B roots -> roots_u B (map (root_drop id) roots).
Proof.
  intros HB H r Hr. apply in_map_iff in Hr. destruct Hr as (r0 & <- & Hr0). destruct (H r0 Hr0) as [A C].
  assert (X : forall d, d_universe (drop_id id d) = d_universe d /\ d_pid (drop_id id d) = d_pid d).
  { intros d. unfold drop_id. destruct (bytes_eqb _ _); split; reflexivity. }
  cbn. split.
  - clear -A X. induction A as [|d ds A IH HF]; cbn; constructor; auto.
    rewrite Forall_forall in *. intros y Hy. apply in_map_iff in Hy. destruct Hy as (y0 & <- & Hy0).
    specialize (HF y0 Hy0). unfold newer in *. destruct (X d) as [-> ->], (X y0) as [-> ->]. exact HF.
  - rewrite Forall_forall in *. intros y Hy. apply in_map_iff in Hy. destruct Hy as (y0 & <- & Hy0).
    unfold drop_id. destruct (bytes_eqb _ _); auto.
Qed.

(** [n] counts twice the requests so far. *)
Record uinv (st : lstate) (n : Z) : Prop := {
  ui_range : 0 <= s_universe st;
  ui_count : s_universe st + zlen (s_patches st) <= n;
  ui_roots : roots_u (fun d => d_universe d <= s_universe st) (s_roots st)
}.

Lemma uinv_mono st n n' : uinv st n -> n <= n' -> uinv st n'.
Proof. intros [A B C] H. constructor; auto. lia. Qed.

Lemma revert_patch_u m id st st' n :
  ulp_revert_patch m id st = (st', 0) -> n < 2 ^ 64 -> uinv st n ->
  uinv st' n /\ s_universe st' = s_universe st + 1.
Proof.
  intros H Hn [A B C]. apply revert_patch_lists in H. destruct H as (H1 & H2 & _ & H4 & _).
  specialize (H4 eq_refl). apply state_remove_some in H4. destruct H4 as (l1 & p & l2 & E1 & E2 & _).
  assert (HL : zlen (s_patches st) = zlen (s_patches st') + 1).
  { rewrite E1, E2, !zlen_app, zlen_cons. lia. }
  pose proof (zlen_nonneg (s_patches st')).
  assert (U : u64 (s_universe st + 1) = s_universe st + 1) by (apply u64_id; lia).
  rewrite U in H1. split; auto. constructor.
  - lia.
  - rewrite H1. lia.
  - rewrite H2. apply drop_u; [intros d Hd; exact Hd|]. eapply roots_u_weaken; [|exact C].
    intros d Hd. cbn in Hd. lia.
Qed.

Lemma chain_u m st ids st' n :
  revert_chain m st ids st' -> n < 2 ^ 64 -> uinv st n ->
  uinv st' n /\ s_universe st' = s_universe st + zlen ids.
Proof.
  induction 1 as [|st id ids st1 st2 H1 H2 H3 IH]; intros Hn Hu.
  - split; auto. cbn. lia.
  - destruct (revert_patch_u _ _ _ _ _ H2 Hn Hu) as [Hu1 E1]. destruct (IH Hn Hu1) as [Hu2 E2].
    split; auto. rewrite E2, E1, zlen_cons. lia.
Qed.

Lemma load_u e m junk buf st st' ans n :
  load_outcome e m junk buf st st' ans -> n + 2 < 2 ^ 64 -> uinv st n ->
  uinv st' (n + 2) /\ s_universe st <= s_universe st' /\ (ans = 0 -> s_universe st < s_universe st').
Proof.
  intros H Hn Hu. destruct H as [ans Ha|md st' ans Hp Ht Hc Hr|md st1 st2 ans Hp Ht Hb Hd Ha Hh Hus Hx].
  - split; [eapply uinv_mono; eauto; lia|]. split; [lia|contradiction].
  - destruct (can_revert_success m _ _ Hc) as [st1 E]. rewrite E in Hr. injection Hr as <- <-.
    destruct (revert_patch_u _ _ _ _ n E ltac:(lia) Hu) as [H1 H2].
    split; [eapply uinv_mono; eauto; lia|]. lia.
  - apply state_update_some in Hus. destruct Hus as (us & Hus & ->).
    pose proof (apply_all_lists _ _ _ _ _ _ _ Hx) as (X1 & X2 & _).
    cbn [set_patches s_patches s_universe] in *. destruct Hu as [A B C].
    assert (U : u64 (s_universe st + 1) = s_universe st + 1).
    { apply u64_id. pose proof (zlen_nonneg (s_patches st)). lia. }
    rewrite U in X2.
    assert (G : uinv st2 (n + 2)).
    { constructor.
      - lia.
      - rewrite X1, X2, zlen_cons. lia.
      - rewrite X2.
        assert (Hst1 : exists st1 r1, apply_units e m (get_basename (md_name md)) (e_dlopen e (md_so md)) (md_id md) (md_units md)
                  (next_universe (set_patches st (mk_apatch (md_id md) (lib_key (md_name md)) (firstn 256 (md_so md)) us (rev (md_deps md)) :: s_patches st))) = (st1, r1)
                  /\ s_roots st2 = s_roots st1).
        { unfold ulp_apply_all_units in Hx. destruct (apply_units _ _ _ _ _ _ _) as [st1 r1]. exists st1, r1. split; auto.
          destruct (negb (r1 =? 0)); [injection Hx as <- <-; reflexivity|].
          destruct (_ =? 255); [injection Hx as <- <-; reflexivity|].
          destruct (e_laddr _ _) as [la|]; [|injection Hx as <- <-; reflexivity].
          destruct (la =? 0); [injection Hx as <- <-; reflexivity|].
          apply apply_refs_lists in Hx. tauto. }
        destruct Hst1 as (sa & ra & Ea & Er). rewrite Er.
        apply apply_units_u in Ea.
        + cbn [next_universe s_universe set_patches] in Ea. rewrite U in Ea.
          eapply roots_u_weaken; [|exact Ea]. intros d0 Hd0. cbn in Hd0. lia.
        + cbn [next_universe s_universe set_patches s_roots]. rewrite U.
          eapply roots_u_weaken; [|exact C]. intros d0 Hd0. cbn in Hd0. left. lia. }
    split.
    + destruct (ans =? 0); auto. destruct G as [G1 G2 G3]. constructor; auto.
    + destruct (ans =? 0); cbn [set_err s_universe]; lia.
Qed.

Lemma gate_u busy st st' ans : gate busy st st' ans -> s_universe st' = s_universe st /\
  s_patches st' = s_patches st /\ s_roots st' = s_roots st /\ ans <> 0.
Proof. intros []; repeat split; auto; discriminate. Qed.

Lemma uinv_ext st st' n : s_universe st' = s_universe st -> s_patches st' = s_patches st ->
  s_roots st' = s_roots st -> uinv st n -> uinv st' n.
Proof. intros E1 E2 E3 [A B C]. constructor; rewrite ?E1, ?E2, ?E3; auto. Qed.

Lemma event_u ev p p' ans n :
  do_event ev p = Some (p', ans) -> n + 2 < 2 ^ 64 -> uinv (p_lib p) n ->
  uinv (p_lib p') (n + 2) /\ s_universe (p_lib p) <= s_universe (p_lib p') /\
  (is_request ev -> ans = 0 -> s_universe (p_lib p) < s_universe (p_lib p')).
Proof.
  intros H Hn Hu. pose proof (uinv_mono _ _ (n + 2) Hu ltac:(lia)) as Hu2.
  destruct ev as [busy e junk buf|busy e name| |te|m']; cbn [do_event] in H.
  - destruct (ulp_apply_patch _ _ _ _ _ _) as [[st a]|] eqn:Ex; [|discriminate]. injection H as <- <-.
    cbn [p_lib] in *. apply apply_outcome in Ex. destruct Ex as [Ex|(_ & _ & _ & Ex)].
    + destruct (gate_u _ _ _ _ Ex) as (G1 & G2 & G3 & G4).
      split; [eapply uinv_ext; eauto|]. rewrite G1. split; [lia|contradiction].
    + destruct (load_u _ _ _ _ _ _ _ _ Ex Hn Hu) as (L1 & L2 & L3). auto.
  - destruct (ulp_revert_patches_from_lib _ _ _ _ _ _) as [[st a]|] eqn:Ex; [|discriminate]. injection H as <- <-.
    cbn [p_lib] in *. apply revert_all_outcome in Ex.
    destruct Ex as [Ex|(E0 & Eq & _ & [(-> & ->)|[(Hm & -> & ->)|(Hm & -> & Hch)]])].
    + destruct (gate_u _ _ _ _ Ex) as (G1 & G2 & G3 & G4).
      split; [eapply uinv_ext; eauto|]. rewrite G1. split; [lia|contradiction].
    + split; auto. split; [lia|discriminate].
    + split; auto. split; [lia|]. destruct (_ =? 255); discriminate.
    + destruct (chain_u _ _ _ _ n Hch ltac:(lia) Hu) as [H1 H2].
      split; [eapply uinv_mono; eauto; lia|].
      assert (0 < zlen (map a_id (filter (lib_match (get_basename name)) (s_patches (p_lib p))))).
      { apply existsb_exists in Hm. destruct Hm as (x & X1 & X2).
        assert (G : In x (filter (lib_match (get_basename name)) (s_patches (p_lib p)))) by (apply filter_In; auto).
        destruct (filter _ _) as [|y l]; [destruct G|]. cbn [map]. rewrite zlen_cons. pose proof (zlen_nonneg (map a_id l)). lia. }
      lia.
  - injection H as <- <-. cbn [p_lib]. unfold ENONE.
    assert (G : s_universe (if s_err (p_lib p) =? 0 then set_err (p_lib p) EUSRBLOCKED else if s_err (p_lib p) =? EUSRBLOCKED then set_err (p_lib p) 0 else p_lib p) = s_universe (p_lib p)
      /\ uinv (if s_err (p_lib p) =? 0 then set_err (p_lib p) EUSRBLOCKED else if s_err (p_lib p) =? EUSRBLOCKED then set_err (p_lib p) 0 else p_lib p) (n + 2)).
    { destruct (_ =? 0); [|destruct (_ =? EUSRBLOCKED)]; split; auto; eapply uinv_ext; try exact Hu2; reflexivity. }
    destruct G as [-> G2]. split; auto. split; [lia|intros []].
  - destruct (insnq_interpret_from_process _ _ _ _) as [[[r q] t]|]; [|discriminate]. injection H as <- <-.
    cbn [p_lib set_qe s_universe]. split; [eapply uinv_ext; try exact Hu2; reflexivity|]. split; [lia|intros []].
  - injection H as <- <-. cbn [p_lib]. split; auto. split; [lia|intros []].
Qed.

Lemma fresh_uinv m stale : uinv (p_lib (fresh m stale)) 0.
Proof. constructor; cbn; try lia. intros r []. Qed.

Lemma history_u m stale tr p :
  history (fresh m stale) tr p -> 2 * zlen tr < 2 ^ 64 -> uinv (p_lib p) (2 * zlen tr).
Proof.
  induction 1 as [|tr p ev p' ans H IH E]; intros Hn; [apply fresh_uinv|].
  rewrite zlen_app in Hn. change (zlen [(ev, ans)]) with 1 in Hn.
  assert (G : uinv (p_lib p) (2 * zlen tr)) by (apply IH; lia).
  destruct (event_u _ _ _ _ (2 * zlen tr) E ltac:(lia) G) as (G1 & _).
  rewrite zlen_app. change (zlen [(ev, ans)]) with 1. eapply uinv_mono; [exact G1|lia].
Qed.

(** ** Termination of revert-all *)

(** No patch outside the library depends on one inside it. *)
Definition closed_lib (base : list Z) (ps : list apatch) : Prop :=
  forall a b, In a ps -> In b ps -> lib_match base a = true -> In (a_id a) (a_deps b) -> lib_match base b = true.

Lemma revert_all_loop_total m base : forall todo fuel ret st keep,
  (length todo <= fuel)%nat -> linv st -> s_patches st = keep ++ todo ->
  (forall p, In p keep -> lib_match base p = false) ->
  closed_lib base (s_patches st) ->
  exists r, revert_all_loop fuel m base todo ret st = Some r.
Proof.
  induction todo as [|p next IH]; intros fuel ret st keep Hf Hl Hp Hk Hc.
  - destruct fuel; cbn; eauto.
  - destruct fuel as [|fuel]; cbn [length] in Hf; [lia|]. cbn [revert_all_loop].
    fold (lib_match base p). destruct (lib_match base p) eqn:El.
    + assert (Hcan : ulp_can_revert_patch st (a_id p) = 0).
      { apply can_revert_iff. rewrite Hp. split.
        - rewrite map_app. apply in_or_app. right. left. reflexivity.
        - intros (b & Hb & Hdep).
          assert (Hbm : lib_match base b = true).
          { eapply Hc; [| |exact El|exact Hdep]; rewrite Hp; auto. apply in_or_app. right. left. reflexivity. }
          apply in_app_or in Hb. destruct Hb as [Hb|Hb]; [rewrite Hk in Hbm by exact Hb; discriminate|].
          pose proof (li_ids _ Hl) as Hnd. pose proof (li_deps _ Hl) as Hd. rewrite Hp in Hnd, Hd.
          clear -Hb Hdep Hnd Hd.
          assert (Hd2 : deps_older (p :: next)).
          { revert Hd. clear. induction keep as [|x k IH]; cbn; auto. intros [_ H]. apply IH. exact H. }
          rewrite map_app in Hnd. assert (Hn2 : NoDup (map a_id (p :: next))).
          { revert Hnd. generalize (map a_id (p :: next)). intros l. induction (map a_id keep) as [|x k IH]; cbn; auto.
            intros H. apply NoDup_cons_iff in H. apply IH. tauto. }
          cbn [map] in Hn2. apply NoDup_cons_iff in Hn2. destruct Hn2 as [Hn2 _].
          cbn [deps_older] in Hd2. destruct Hd2 as [Hd2 Hd3].
          destruct Hb as [->|Hb].
          + rewrite Forall_forall in Hd2. apply Hn2. apply Hd2. exact Hdep.
          + apply Hn2. clear -Hb Hdep Hd3. induction next as [|x t IH]; [destruct Hb|].
            cbn [deps_older] in Hd3. destruct Hd3 as [A B]. destruct Hb as [->|Hb].
            * right. rewrite Forall_forall in A. apply A. exact Hdep.
            * right. apply IH; auto. }
      rewrite Hcan. cbn [negb Z.eqb].
      destruct (can_revert_success m _ _ Hcan) as [st1 E1]. rewrite E1. cbn [negb Z.eqb].
      pose proof (revert_patch_lists _ _ _ _ _ E1) as (_ & _ & _ & L4 & _). specialize (L4 eq_refl).
      assert (Hp1 : s_patches st1 = keep ++ next).
      { apply state_remove_some in L4. destruct L4 as (l1 & x & l2 & X1 & X2 & X3 & X4).
        rewrite X2. rewrite Hp in X1. pose proof (li_ids _ Hl) as Hnd. rewrite Hp in Hnd.
        clear -X1 X3 X4 Hnd. revert l1 X1 X4 Hnd. induction keep as [|k ks IH]; intros l1 X1 X4 Hnd.
        - destruct l1 as [|y l1]; cbn in *; [injection X1 as _ <-; reflexivity|].
          injection X1 as -> X1. inversion X4; subst. exfalso. apply NoDup_cons_iff in Hnd. destruct Hnd as [Hnd _].
          apply Forall_inv in X4. cbn in X4. congruence.
        - destruct l1 as [|y l1]; cbn in X1.
          + injection X1 as -> X1. exfalso. cbn in Hnd. apply NoDup_cons_iff in Hnd. destruct Hnd as [Hnd _].
            apply Hnd. rewrite X3. rewrite map_app. apply in_or_app. right. left. reflexivity.
          + injection X1 as -> X1. cbn. f_equal. apply Forall_inv_tail in X4. cbn in Hnd.
            apply NoDup_cons_iff in Hnd. apply IH; tauto. }
      assert (Hsub : forall x, In x (s_patches st1) -> In x (s_patches st)).
      { intros x Hx. rewrite Hp1 in Hx. rewrite Hp. apply in_app_or in Hx. apply in_or_app.
        destruct Hx; [left|right; right]; auto. }
      apply IH with (keep := keep); auto.
      * lia.
      * eapply revert_patch_linv; eauto. apply can_revert_iff in Hcan. tauto.
      * intros a b Ha Hb. apply Hc; auto.
    + apply IH with (keep := keep ++ [p]); auto.
      * lia.
      * rewrite <- app_assoc. exact Hp.
      * intros x Hx. apply in_app_or in Hx. destruct Hx as [Hx|[<-|[]]]; auto.
Qed.

(** ** The memory writes of a successful application *)

Definition unit_reqs (m : mem) (pairs : list (Z * Z)) : list req :=
  map (fun p => patch_req m (fst p) (snd p) true) pairs.

Lemma apply_units_reqs e m libname h id us st st' rs :
  apply_units e m libname h id us st = (st', 0) ->
  qinv (s_q st) rs -> s_err st <> EINSNQ -> s_err st' <> EINSNQ ->
  qinv (s_q st') (rs ++ unit_reqs m (unit_pairs e libname h us)) /\ s_err st' = s_err st.
Proof.
  revert st rs; induction us as [|u us IH]; intros st rs H Hq He He'.
  - cbn in H. injection H as <-. rewrite app_nil_r. auto.
  - rewrite apply_units_step in H. cbv zeta in H.
    destruct (_ =? 0); [discriminate|]. destruct (_ =? 0); [discriminate|].
    set (old := get_loaded_symbol_addr _ _ _ _ _) in *. set (new := e_dlsym e h (u_new u)) in *.
    destruct (looks_patchable m old) eqn:EL; [|discriminate].
    destruct (record_unit_fields st id old new) as (_ & _ & F3 & F4). rewrite F3, F4 in H.
    destruct (submit (s_q st, s_err st) (patch_req m old new true)) as [q1 err1] eqn:Es.
    destruct (submit_ok _ _ _ _ _ _ Hq (patch_req_ok m old new true) Es He) as [[-> Hq1]| -> ].
    + destruct (IH _ _ H Hq1 He He') as [G1 G2]. split; [|exact G2].
      rewrite <- app_assoc in G1. exact G1.
    + exfalso. apply He'. eapply apply_units_dead; eauto.
Qed.

Definition ref_place (e : dlenv) (h pb : Z) (r : mref) : Z :=
  if rf_poff r =? 0 then match rf_name r with Some n => e_dlsym e h n | None => 0 end
  else u64 (pb + rf_poff r).

Definition ref_reqs (e : dlenv) (h tb ti pb : Z) (refs : list mref) : list req :=
  map (fun r => RWrite (ref_place e h pb r) (ref_data tb ti r)) refs.

Lemma apply_refs_reqs e h tb ti pb refs st st' rs :
  (forall n, 0 <= e_dlsym e h n < 2 ^ 64) ->
  apply_refs e h tb ti pb refs st = Some (st', 0) ->
  qinv (s_q st) rs -> s_err st <> EINSNQ -> s_err st' <> EINSNQ ->
  qinv (s_q st') (rs ++ ref_reqs e h tb ti pb refs) /\ s_err st' = s_err st /\
  (forall r, In r refs -> rf_poff r = 0 -> exists n, rf_name r = Some n).
Proof.
  intros Hs. revert st rs; induction refs as [|r refs IH]; intros st rs H Hq He He'.
  - cbn in H. injection H as <-. rewrite app_nil_r. split; [exact Hq|]. split; [reflexivity|]. intros r [].
  - cbn [apply_refs] in H. fold (ref_data tb ti r) in H.
    assert (G : 0 <= ref_place e h pb r < 2 ^ 64 /\ (rf_poff r = 0 -> exists n, rf_name r = Some n) /\
       apply_refs e h tb ti pb refs (set_qe st (submit (s_q st, s_err st) (RWrite (ref_place e h pb r) (ref_data tb ti r)))) = Some (st', 0)).
    { unfold ref_place. destruct (Z.eqb_spec (rf_poff r) 0) as [E0|E0].
      - destruct (rf_name r) as [name|]; [|discriminate].
        destruct (e_dlsym e h name =? 0); [discriminate|].
        split; [apply Hs|]. split; [eauto|]. rewrite <- memwrite_submit. exact H.
      - split; [unfold u64; apply Z.mod_pos_bound; lia|]. split; [contradiction|]. rewrite <- memwrite_submit. exact H. }
    clear H. destruct G as (Hpa & Hn & H).
    destruct (ref_data_ok tb ti r) as [Hb _].
    destruct (submit (s_q st, s_err st) (RWrite (ref_place e h pb r) (ref_data tb ti r))) as [q1 err1] eqn:Es.
    destruct (submit_ok _ _ _ _ _ _ Hq (conj Hpa Hb : req_ok (RWrite (ref_place e h pb r) (ref_data tb ti r))) Es He) as [[-> Hq1]| -> ].
    + destruct (IH _ _ H Hq1 He He') as (G1 & G2 & G3). rewrite <- app_assoc in G1.
      split; [exact G1|]. split; [exact G2|]. intros r0 [<-|Hr0]; auto.
    + exfalso. apply He'. eapply apply_refs_dead; eauto.
Qed.

Lemma apply_all_reqs e m h md st st' rs :
  (forall n, 0 <= e_dlsym e h n < 2 ^ 64) ->
  ulp_apply_all_units e m h md st = Some (st', 0) ->
  qinv (s_q st) rs -> s_err st <> EINSNQ -> s_err st' <> EINSNQ ->
  let libname := get_basename (md_name md) in
  exists la, e_laddr e h = Some la /\
  qinv (s_q st') (rs ++ unit_reqs m (unit_pairs e libname h (md_units md)) ++
     ref_reqs e h (get_loaded_library_base_addr (e_prog e) (e_libs2 e) libname)
       (get_loaded_library_tls_index (e_prog e) (e_libs2 e) libname) la (md_refs md)) /\
  s_err st' = s_err st /\
  (forall r, In r (md_refs md) -> rf_poff r = 0 -> exists n, rf_name r = Some n).
Proof.
  intros Hs H Hq He He'. unfold ulp_apply_all_units in H.
  destruct (apply_units _ _ _ _ _ _ _) as [st1 r1] eqn:E.
  destruct (Z.eqb_spec r1 0) as [->|E0]; cbn [negb] in H; [|injection H as <- ->; contradiction].
  destruct (_ =? 255); [discriminate|]. destruct (e_laddr e h) as [la|] eqn:El; [|discriminate].
  destruct (la =? 0); [discriminate|].
  assert (He1 : s_err st1 <> EINSNQ) by (intros X; apply He'; eapply apply_refs_dead; eauto).
  destruct (apply_units_reqs _ _ _ _ _ _ _ _ _ E Hq He He1) as [Q1 E1].
  destruct (apply_refs_reqs _ _ _ _ _ _ _ _ _ Hs H Q1 He1 He') as (Q2 & E2 & E3).
  exists la. split; auto. rewrite <- app_assoc in Q2. split; [exact Q2|]. split; [|exact E3].
  etransitivity; [exact E2|exact E1].
Qed.
