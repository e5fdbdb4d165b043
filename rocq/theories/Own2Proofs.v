(** Proofs about the tool's memory: the functions that use it. *)
From Coq Require Import Bool Lia Permutation.
From Verif Require Import Base BaseFacts OwnModel OwnSpec OwnProofs.

Ltac gsimp :=
  unfold g_prc, set_objs, set_res, set_thr, set_hij, set_nxt, ptr in *;
  cbn [g_addr g_pid g_main g_om g_tg g_lp g_rs pr_pid pr_threads pr_main pr_objmain pr_targets pr_libpulp pr_results pr_hijacked pr_next hdp thr_cells res_cells obj_cells app] in *.
Ltac reperm H ::= eapply models_perm; [exact H|clear; gsimp; perm].
Ltac conj := repeat match goal with |- _ /\ _ => split end.

(** ** Looking at a process *)

Definition with_tg (g : gproc) tg lp := mk_g (g_addr g) (g_pid g) (g_main g) (g_om g) tg lp (g_rs g).
Definition with_om (g : gproc) om := mk_g (g_addr g) (g_pid g) (g_main g) om (g_tg g) (g_lp g) (g_rs g).

(** What read_objs leaves: the objects read, the last "libpulp.so" among them. *)
Lemma read_objs_ok : forall l g nx F h,
  models h (g_cells g [] false nx ++ F) -> (g_lp g = NULL \/ In (g_lp g) (map fst (g_tg g))) ->
  exists g' lk h', read_objs (g_addr g) l h = Some (tt, h') /\
    models h' (g_cells g' [] false nx ++ lk ++ F) /\
    g_addr g' = g_addr g /\ g_pid g' = g_pid g /\ g_om g' = g_om g /\ g_rs g' = g_rs g /\ g_main g' = g_main g /\
    (g_lp g' = NULL \/ In (g_lp g') (map fst (g_tg g'))) /\
    List.length lk = (if existsb unreadable l then 1 else 0)%nat /\
    (sees_libpulp l = true \/ g_lp g <> NULL -> g_lp g' <> NULL).
Proof.
  induction l as [|r t IH]; intros g nx F h H HL.
  - exists g, [], h. cbn [app read_objs existsb List.length sees_libpulp]. conj; auto. intros [X|X]; [discriminate|exact X].
  - cbn [read_objs existsb].
    destruct (alloc_ok (NObj NULL NULL) _ _ H) as (o & h1 & E1 & M1 & O1 & _).
    destruct r as [pulp| |].
    + cbn [unreadable orb]. unfold get_libname_dynobj. rewrite bind_assoc. erewrite bind_eq by exact E1. cbn beta iota.
      destruct (alloc_ok NStr _ _ M1) as (s & h2 & E2 & M2 & O2 & _). rewrite bind_assoc. erewrite bind_eq by exact E2.
      unfold g_cells at 1 in M2. cbn [app thr_cells] in M2.
      rewrite bind_assoc. erewrite bind_eq by (eapply load_prc_ok; [exact M2|right; right; left; reflexivity]).
      assert (M2' : models h2 ((o, NObj NULL NULL) :: (s, NStr) :: (g_addr g, NPrc (g_prc g [] false nx)) :: g_rest g ++ F)) by reperm M2.
      rewrite bind_assoc. destruct (store_ok _ _ (NObj s (pr_targets (g_prc g [] false nx))) _ _ M2') as (h3 & E3 & M3 & _). erewrite bind_eq by exact E3.
      rewrite bind_assoc. erewrite bind_eq by (eapply load_str_ok; [exact M3|right; left; reflexivity]).
      assert (M3' : models h3 ((g_addr g, NPrc (g_prc g [] false nx)) :: (o, NObj s (hdp (g_tg g))) :: (s, NStr) :: g_rest g ++ F)) by reperm M3.
      rewrite bind_assoc.
      destruct (store_ok _ _ (NPrc (set_objs (g_prc g [] false nx) (pr_objmain (g_prc g [] false nx)) o (if pulp then o else pr_libpulp (g_prc g [] false nx)))) _ _ M3') as (h4 & E4 & M4 & _).
      erewrite bind_eq by exact E4. rewrite bind_ret.
      set (g' := with_tg g ((o, s) :: g_tg g) (if pulp then o else g_lp g)).
      assert (M5 : models h4 (g_cells g' [] false nx ++ F)).
      { eapply models_perm; [exact M4|]. unfold g_cells, g_rest, g', with_tg, g_prc, set_objs.
        cbn [g_addr g_pid g_main g_om g_tg g_lp g_rs pr_pid pr_threads pr_main pr_objmain pr_targets pr_libpulp pr_results pr_hijacked pr_next hdp thr_cells obj_cells app]. gsimp; perm. }
      change (g_addr g) with (g_addr g').
      destruct (IH g' nx F h4 M5) as (g2 & lk & h5 & E5 & M6 & A1 & A2 & A3 & A4 & A5 & A6 & A7 & A8).
      { unfold g', with_tg. cbn [g_lp g_tg map fst]. destruct pulp; [right; left; reflexivity|]. destruct HL as [HL|HL]; [left; exact HL|right; right; exact HL]. }
      exists g2, lk, h5. conj; auto. intros X. apply A8. unfold g', with_tg. cbn [g_lp sees_libpulp] in *.
      destruct pulp; [right; exact O1|exact X].
    + unfold get_libname_dynobj. rewrite bind_assoc. erewrite bind_eq by exact E1. cbn beta iota. rewrite bind_ret.
      exists g, [(o, NObj NULL NULL)], h1. cbn [unreadable orb List.length]. split; [reflexivity|]. split; [reperm M1|]. conj; auto. intros [X|X]; [discriminate|exact X].
    + unfold get_libname_dynobj. rewrite bind_assoc. erewrite bind_eq by exact E1. cbn beta iota. rewrite bind_ret.
      exists g, [(o, NObj NULL NULL)], h1. cbn [unreadable orb List.length]. split; [reflexivity|]. split; [reperm M1|]. conj; auto. intros [X|X]; [discriminate|exact X].
Qed.

Lemma obj_split l a : In a (map fst l) -> exists f nx rest, Permutation (obj_cells l) ((a, NObj f nx) :: (f, NStr) :: rest).
Proof.
  induction l as [|[b f] t IH]; intros I; [destruct I|]. cbn [obj_cells]. destruct I as [<-|I].
  - exists f, (hdp t), (obj_cells t). apply Permutation_refl.
  - destruct (IH I) as (f' & nx & rest & P). exists f', nx, ((b, NObj f (hdp t)) :: (f, NStr) :: rest). perm.
Qed.

Lemma parse_lib_ok l a F h : models h (obj_cells l ++ F) -> In a (map fst l) ->
  parse_lib_dynobj a h = Some (tt, h) /\ exists x, load_obj a h = Some (x, h).
Proof.
  intros H I. destruct (obj_split l a I) as (f & nx & rest & P).
  assert (H1 : models h ((a, NObj f nx) :: (f, NStr) :: rest ++ F)).
  { eapply models_perm; [exact H|]. gsimp; perm. }
  unfold parse_lib_dynobj.
  assert (E : load_obj a h = Some ((f, nx), h)) by (eapply load_obj_ok; [exact H1|left; reflexivity]).
  split; [|eauto]. erewrite bind_eq by exact E.
  cbn [fst]. eapply load_str_ok; [exact H1|right; left; reflexivity].
Qed.

Lemma parse_objs_ok : forall l f lp F h, models h (obj_cells l ++ F) -> (List.length l < f)%nat ->
  parse_objs f (hdp l) lp h = Some (tt, h).
Proof.
  induction l as [|[a s] t IH]; intros f lp F h H Hf; (destruct f as [|f]; [cbn in Hf; lia|]); [reflexivity|].
  cbn [hdp parse_objs]. pose proof H as H0. cbn [obj_cells app] in H0.
  pose proof (models_pos _ _ _ _ H0 (or_introl eq_refl)). rewrite eqb0 by lia.
  erewrite bind_eq; [|destruct (Nat.eqb a lp); [reflexivity|eapply parse_lib_ok; [exact H|left; reflexivity]]].
  erewrite bind_eq by (eapply load_obj_ok; [exact H0|left; reflexivity]). cbn [snd].
  apply (IH f lp ((a, NObj s (hdp t)) :: (s, NStr) :: F)); [reperm H0|cbn in Hf; lia].
Qed.

Definition fresh_g (a : nat) (pid : Z) : gproc := mk_g a pid NULL [] [] NULL [].

Lemma init_ok a pid A F h : pid <> 0 ->
  models h (g_cells (fresh_g a pid) [] false NULL ++ F) ->
  exists ok g lk h', initialize_data_structures a A h = Some (ok, h') /\
    models h' (g_cells g [] false NULL ++ lk ++ F) /\ g_addr g = a /\ g_pid g = pid /\
    List.length lk = lost A /\ (ok = true -> complete g) /\ (accessible A = true -> ok = true).
Proof.
  intros Hpid H. unfold initialize_data_structures, lost, accessible.
  destruct (ia_attach A); cbn [negb andb].
  2: { exists false, (fresh_g a pid), [], h. cbn [app]. conj; auto; discriminate. }
  destruct (ia_name A); cbn [negb andb].
  2: { exists false, (fresh_g a pid), [], h. cbn [app]. conj; auto; discriminate. }
  destruct (alloc_ok (NObj NULL NULL) _ _ H) as (o & h1 & E1 & M1 & O1 & _). erewrite bind_eq by exact E1.
  destruct (alloc_ok NStr _ _ M1) as (s & h2 & E2 & M2 & O2 & _). erewrite bind_eq by exact E2.
  unfold g_cells, g_rest in M2. cbn [g_om g_tg g_rs fresh_g obj_cells res_cells thr_cells app g_addr] in M2.
  assert (M2' : models h2 ((o, NObj NULL NULL) :: (s, NStr) :: (a, NPrc (g_prc (fresh_g a pid) [] false NULL)) :: F)) by reperm M2.
  destruct (store_ok _ _ (NObj s NULL) _ _ M2') as (h3 & E3 & M3 & _). erewrite bind_eq by exact E3.
  erewrite bind_eq by (eapply load_prc_ok; [exact M3|right; right; left; reflexivity]).
  assert (M3' : models h3 ((a, NPrc (g_prc (fresh_g a pid) [] false NULL)) :: (o, NObj s NULL) :: (s, NStr) :: F)) by reperm M3.
  destruct (store_ok _ _ (NPrc (set_objs (g_prc (fresh_g a pid) [] false NULL) o (pr_targets (g_prc (fresh_g a pid) [] false NULL)) (pr_libpulp (g_prc (fresh_g a pid) [] false NULL)))) _ _ M3') as (h4 & E4 & M4 & _).
  erewrite bind_eq by exact E4.
  set (g1 := with_om (fresh_g a pid) [(o, s)]).
  assert (M5 : models h4 (g_cells g1 [] false NULL ++ F)) by (eapply models_perm; [exact M4|]; unfold g_cells, g_rest, g1, with_om, fresh_g, g_prc, set_objs;
    cbn [g_addr g_pid g_main g_om g_tg g_lp g_rs pr_pid pr_threads pr_main pr_objmain pr_targets pr_libpulp pr_results pr_hijacked pr_next hdp thr_cells obj_cells res_cells app]; gsimp; perm).
  destruct (alloc_ok NStr _ _ M5) as (b & h5 & E5 & M6 & O5 & _).
  destruct (ia_bias A); unfold dig_load_bias; rewrite bind_assoc; erewrite bind_eq by exact E5; cbn beta iota.
  2: { rewrite bind_ret. cbn [negb]. exists false, g1, [(b, NStr)], h5. split; [reflexivity|]. split; [reperm M6|].
       conj; try reflexivity; discriminate. }
  destruct (free_ok _ _ _ _ M6) as (h6 & E6 & M7 & _). rewrite bind_assoc. erewrite bind_eq by exact E6. rewrite bind_ret. cbn [negb].
  destruct (ia_linkmap A); cbn [negb andb].
  2: { exists false, g1, [], h6. split; [reflexivity|]. split; [exact M7|]. conj; try reflexivity; discriminate. }
  destruct (read_objs_ok (ia_objs A) g1 NULL F h6 M7 (or_introl eq_refl)) as (g2 & lk & h7 & E7 & M8 & A1 & A2 & A3 & A4 & A5 & A6 & A7 & A8).
  change a with (g_addr g1) at 1. erewrite bind_eq by exact E7.
  assert (L : In (g_addr g2, NPrc (g_prc g2 [] false NULL)) (g_cells g2 [] false NULL ++ lk ++ F)) by (unfold g_cells; left; reflexivity).
  change a with (g_addr g1) at 1. rewrite <- A1. erewrite bind_eq by (eapply load_prc_ok; [exact M8|exact L]).
  unfold g_prc at 1. cbn [pr_libpulp].
  destruct (Nat.eqb_spec (g_lp g2) 0) as [Z0|Z0].
  { exists false, g2, lk, h7. split; [reflexivity|]. split; [exact M8|]. rewrite A1, A2. conj; auto; [discriminate|].
    intros X. exfalso. apply andb_true_iff in X. destruct X as [X _]. apply A8; [left; exact X|exact Z0]. }
  destruct A6 as [A6|A6]; [contradiction|].
  assert (M9 : models h7 (obj_cells (g_tg g2) ++ (g_addr g2, NPrc (g_prc g2 [] false NULL)) :: obj_cells (g_om g2) ++ res_cells (g_rs g2) ++ lk ++ F)).
  { eapply models_perm; [exact M8|]. unfold g_cells, g_rest. cbn [thr_cells app]. gsimp; perm. }
  destruct (parse_lib_ok _ _ _ _ M9 A6) as (P1 & x & P2).
  unfold g_prc at 1 2 3 4. cbn [pr_libpulp pr_targets].
  erewrite bind_eq by exact P1.
  erewrite bind_eq. 2: { unfold looping. eapply parse_objs_ok; [exact M9|]. pose proof (models_len _ _ M9) as X. rewrite app_length, obj_len in X. lia. }
  erewrite bind_eq by exact P2.
  exists (ia_ready A), g2, lk, h7. split; [reflexivity|]. split; [exact M8|]. rewrite A1, A2. conj; auto.
  2: { intros X. apply andb_true_iff in X. apply X. }
  intros _. unfold complete. conj.
  - exists (o, s). rewrite A3. reflexivity.
  - exact A6.
  - rewrite A2. exact Hpid.
Qed.

Lemma insert_ok pid A last F h : pid <> 0 -> models h F ->
  exists r lk h', insert_target_process true pid A last h = Some (r, h') /\ List.length lk = lost A /\
    ((r = last /\ accessible A = false /\ models h' (lk ++ F)) \/
     (exists g, r = g_addr g /\ complete g /\ models h' (g_cells g [] false last ++ lk ++ F))).
Proof.
  intros Hpid H. unfold insert_target_process. cbn [negb].
  destruct (alloc_ok (NPrc (mk_prc pid NULL NULL NULL NULL NULL NULL false NULL)) _ _ H) as (a & h1 & E1 & M1 & O1 & _).
  erewrite bind_eq by exact E1.
  assert (M1' : models h1 (g_cells (fresh_g a pid) [] false NULL ++ F)) by exact M1.
  destruct (init_ok a pid A F h1 Hpid M1') as (ok & g & lk & h2 & E2 & M2 & A1 & A2 & A3 & A4 & A5).
  erewrite bind_eq by exact E2. destruct ok.
  - rewrite <- A1. unfold g_cells in M2. cbn [app] in M2.
    erewrite bind_eq by (eapply load_prc_ok; [exact M2|left; reflexivity]).
    destruct (store_ok _ _ (NPrc (set_nxt (g_prc g [] false NULL) last)) _ _ M2) as (h3 & E3 & M3 & _).
    erewrite bind_eq by exact E3. exists (g_addr g), lk, h3. split; [reflexivity|]. split; [exact A3|].
    right. exists g. split; [reflexivity|]. split; [auto|]. exact M3.
  - assert (X : models h2 (p_cells [g] NULL ++ lk ++ F)) by (cbn [p_cells phd]; rewrite app_nil_r; exact M2).
    destruct (release_ok [g] (S (h_next h2)) (lk ++ F) h2 X) as (h3 & E3 & M3).
    { cbn [List.length]. pose proof (models_len _ _ M2) as Y. unfold g_cells in Y. cbn [List.length app] in Y. lia. }
    cbn [phd] in E3. rewrite A1 in E3. erewrite bind_eq by (unfold looping; exact E3).
    exists last, lk, h3. split; [reflexivity|]. split; [exact A3|]. left.
    conj; auto. destruct (accessible A); [specialize (A5 eq_refl); discriminate|reflexivity].
Qed.

(** ** Walking *)

Lemma walk_tail_ok : forall t f p pr F h,
  models h (obj_cells t ++ F) -> (forall h0 : unit, load_prc p h = Some (pr, h)) ->
  ~ In (pr_objmain pr) (map fst t) -> (List.length t < f)%nat ->
  walk_from f p (hdp t) h = Some (tt, h).
Proof.
  induction t as [|[a s] t IH]; intros f p pr F h H Hp Hn Hf; (destruct f as [|f]; [cbn in Hf; lia|]); [reflexivity|].
  cbn [hdp walk_from]. pose proof H as H0. cbn [obj_cells app] in H0.
  pose proof (models_pos _ _ _ _ H0 (or_introl eq_refl)). rewrite eqb0 by lia.
  erewrite bind_eq by (eapply load_obj_ok; [exact H0|left; reflexivity]). cbn [fst snd].
  erewrite bind_eq by (eapply load_str_ok; [exact H0|right; left; reflexivity]).
  erewrite bind_eq by (apply Hp; exact tt).
  destruct (Nat.eqb_spec a (pr_objmain pr)) as [E|_]; [exfalso; apply Hn; left; cbn; congruence|].
  apply (IH f p pr ((a, NObj s (hdp t)) :: (s, NStr) :: F)); [reperm H0|exact Hp|intros X; apply Hn; right; exact X|cbn in Hf; lia].
Qed.

Lemma obj_addr_in l a : In a (map fst l) -> exists n, In (a, n) (obj_cells l).
Proof.
  induction l as [|[b f] t IH]; intros I; [destruct I|]. cbn [obj_cells]. destruct I as [<-|I].
  - eexists; left; reflexivity.
  - destruct (IH I) as (n & J). exists n. right; right; exact J.
Qed.

Lemma walk_ok g thr hij nx F h : models h (g_cells g thr hij nx ++ F) -> complete g -> walk (g_addr g) h = Some (tt, h).
Proof.
  intros H ((x & Ho) & _ & _). destruct x as [o s]. unfold walk.
  assert (L : load_prc (g_addr g) h = Some (g_prc g thr hij nx, h)) by (eapply load_prc_ok; [exact H|unfold g_cells; left; reflexivity]).
  erewrite bind_eq by exact L. unfold g_prc at 1. cbn [pr_objmain]. rewrite Ho. cbn [hdp]. unfold looping. cbn [walk_from].
  assert (H1 : models h ((o, NObj s NULL) :: (s, NStr) :: obj_cells (g_tg g) ++ (g_addr g, NPrc (g_prc g thr hij nx)) :: thr_cells thr ++ res_cells (g_rs g) ++ F)).
  { eapply models_perm; [exact H|]. unfold g_cells, g_rest. rewrite Ho. cbn [obj_cells hdp app]. gsimp; perm. }
  pose proof (models_pos _ _ _ _ H1 (or_introl eq_refl)). rewrite eqb0 by lia.
  erewrite bind_eq by (eapply load_obj_ok; [exact H1|left; reflexivity]). cbn [fst snd].
  erewrite bind_eq by (eapply load_str_ok; [exact H1|right; left; reflexivity]).
  erewrite bind_eq by exact L. unfold g_prc at 1 2. cbn [pr_objmain pr_targets]. rewrite Ho. cbn [hdp]. rewrite Nat.eqb_refl.
  eapply (walk_tail_ok (g_tg g) _ _ (g_prc g thr hij nx) ((o, NObj s NULL) :: (s, NStr) :: (g_addr g, NPrc (g_prc g thr hij nx)) :: thr_cells thr ++ res_cells (g_rs g) ++ F)).
  - reperm H1.
  - intros _; exact L.
  - unfold g_prc. cbn [pr_objmain]. rewrite Ho. cbn [hdp]. intros I.
    pose proof (models_nodup _ _ H1) as N. cbn [map fst] in N. inversion N as [|? ? N1 N2]; subst. apply N1.
    right. rewrite map_app. apply in_or_app. left. destruct (obj_addr_in _ _ I) as (n & J). apply in_map_iff. exists (o, n). auto.
  - pose proof (models_len _ _ H1) as X. cbn [List.length] in X. rewrite app_length, obj_len in X. lia.
Qed.

(** ** Threads *)

Lemma search_ok : forall l f tid F h, models h (thr_cells l ++ F) -> (List.length l < f)%nat ->
  exists t, search_thread f (hdp l) tid h = Some (t, h) /\
    (t = NULL <-> ~ In tid (map snd l)) .
Proof.
  induction l as [|[a b] t IH]; intros f tid F h H Hf; (destruct f as [|f]; [cbn in Hf; lia|]).
  - exists NULL. split; [reflexivity|]. cbn. tauto.
  - cbn [hdp search_thread]. cbn [thr_cells app] in H.
    pose proof (models_pos _ _ _ _ H (or_introl eq_refl)). rewrite eqb0 by lia.
    erewrite bind_eq by (eapply load_thr_ok; [exact H|left; reflexivity]). cbn [fst snd].
    destruct (Z.eqb_spec b tid) as [->|N].
    + exists a. split; [reflexivity|]. cbn. unfold NULL. split; [lia|]. intros X. exfalso. apply X. auto.
    + destruct (IH f tid ((a, NThr b (hdp t)) :: F) h) as (r & E & C); [reperm H|cbn in Hf; lia|].
      exists r. split; [exact E|]. cbn. rewrite C. split; [intros X [Y|Y]; auto|tauto].
Qed.

Definition with_main (g : gproc) m := mk_g (g_addr g) (g_pid g) m (g_om g) (g_tg g) (g_lp g) (g_rs g).

(** Somebody owns the main thread's block. *)
Definition main_ok (g : gproc) (thr : list (nat * Z)) : Prop := In (g_pid g) (map snd thr) -> In (g_main g) (map fst thr).

Lemma pass_ok : forall l g thr loop nx F h,
  models h (g_cells g thr false nx ++ F) -> main_ok g thr ->
  exists r m thr' h', hijack_pass (g_addr g) l loop h = Some (r, h') /\
    models h' (g_cells (with_main g m) thr' false nx ++ F) /\
    main_ok (with_main g m) thr' /\ incl (map snd thr) (map snd thr') /\
    (forall b, r = Some b -> forall tid, tid <> 0 -> In tid (map tk_tid l) -> In tid (map snd thr')).
Proof.
  induction l as [|e l IH]; intros g thr loop nx F h H HM.
  - exists (Some loop), (g_main g), thr, h. cbn [hijack_pass]. split; [reflexivity|].
    replace (with_main g (g_main g)) with g by (destruct g; reflexivity). split; [exact H|]. split; [exact HM|].
    split; [apply incl_refl|]. intros b _ tid _ [].
  - cbn [hijack_pass]. destruct (Z.eqb_spec (tk_tid e) 0) as [E0|E0].
    { destruct (IH g thr loop nx F h H HM) as (r & m & thr' & h' & E1 & E2 & E3 & E4 & E5).
      exists r, m, thr', h'. conj; auto. intros b Hb tid Ht [I|I]; [congruence|eapply E5; eauto]. }
    erewrite bind_eq by (eapply load_prc_ok; [exact H|unfold g_cells; left; reflexivity]).
    assert (H1 : models h (thr_cells thr ++ (g_addr g, NPrc (g_prc g thr false nx)) :: g_rest g ++ F)).
    { eapply models_perm; [exact H|]. unfold g_cells. gsimp; perm. }
    destruct (search_ok thr (S (h_next h)) (tk_tid e) _ h H1) as (t0 & E1 & C).
    { pose proof (models_len _ _ H1) as X. rewrite app_length, thr_len in X. lia. }
    unfold g_prc at 1. cbn [pr_threads]. erewrite bind_eq by (unfold looping; exact E1).
    destruct (Nat.eqb_spec t0 0) as [T0|T0]; cbn [negb].
    2: { destruct (IH g thr loop nx F h H HM) as (r & m & thr' & h' & E2 & E3 & E4 & E5 & E6).
         exists r, m, thr', h'. conj; auto. intros b Hb tid Ht [I|I]; [|eapply E6; eauto].
         apply E5. subst tid. destruct (in_dec Z.eq_dec (tk_tid e) (map snd thr)) as [Y|Y]; [exact Y|]. apply C in Y. contradiction. }
    assert (KEEP : exists r m thr' h', Some (None : option bool, h) = Some (r, h') /\ models h' (g_cells (with_main g m) thr' false nx ++ F) /\
      main_ok (with_main g m) thr' /\ incl (map snd thr) (map snd thr') /\
      (forall b, r = Some b -> forall tid, tid <> 0 -> In tid (map tk_tid (e :: l)) -> In tid (map snd thr'))).
    { exists None, (g_main g), thr, h. split; [reflexivity|].
      replace (with_main g (g_main g)) with g by (destruct g; reflexivity). split; [exact H|]. split; [exact HM|].
      split; [apply incl_refl|]. discriminate. }
    destruct (tk_calloc e); cbn [negb]; [|exact KEEP].
    destruct (alloc_ok (NThr 0 NULL) _ _ H) as (t & h1 & E2 & M1 & O1 & O2). erewrite bind_eq by exact E2.
    destruct (free_ok _ _ _ _ M1) as (h2 & E3 & M2 & _).
    assert (GONE : exists r m thr' h', Some (None : option bool, h2) = Some (r, h') /\ models h' (g_cells (with_main g m) thr' false nx ++ F) /\
      main_ok (with_main g m) thr' /\ incl (map snd thr) (map snd thr') /\
      (forall b, r = Some b -> forall tid, tid <> 0 -> In tid (map tk_tid (e :: l)) -> In tid (map snd thr'))).
    { exists None, (g_main g), thr, h2. split; [reflexivity|].
      replace (with_main g (g_main g)) with g by (destruct g; reflexivity). split; [exact M2|]. split; [exact HM|].
      split; [apply incl_refl|]. discriminate. }
    destruct (tk_attach e); cbn [negb]; [|erewrite bind_eq by exact E3; exact GONE].
    destruct (tk_regs e); cbn [negb]; [|erewrite bind_eq by exact E3; exact GONE].
    destruct (store_ok _ _ (NThr (tk_tid e) (pr_threads (g_prc g thr false nx))) _ _ M1) as (h3 & E4 & M3 & _). erewrite bind_eq by exact E4.
    unfold g_cells in M3. cbn [app] in M3.
    assert (M3' : models h3 ((g_addr g, NPrc (g_prc g thr false nx)) :: (t, NThr (tk_tid e) (hdp thr)) :: (thr_cells thr ++ g_rest g) ++ F)) by reperm M3.
    destruct (store_ok _ _ (NPrc (set_thr (g_prc g thr false nx) t (if tk_tid e =? pr_pid (g_prc g thr false nx) then t else pr_main (g_prc g thr false nx)))) _ _ M3') as (h4 & E5 & M4 & _).
    erewrite bind_eq by exact E5.
    set (m := if tk_tid e =? g_pid g then t else g_main g).
    set (thr1 := (t, tk_tid e) :: thr).
    assert (M5 : models h4 (g_cells (with_main g m) thr1 false nx ++ F)).
    { eapply models_perm; [exact M4|]. unfold g_cells, g_rest, with_main, g_prc, set_thr, thr1, m.
      cbn [g_addr g_pid g_main g_om g_tg g_lp g_rs pr_pid pr_threads pr_main pr_objmain pr_targets pr_libpulp pr_results pr_hijacked pr_next hdp thr_cells app]. gsimp; perm. }
    assert (HM' : main_ok (with_main g m) thr1).
    { unfold main_ok, with_main, thr1, m. cbn [g_pid g_main map fst snd]. destruct (Z.eqb_spec (tk_tid e) (g_pid g)) as [X|X].
      - intros _. left; reflexivity.
      - intros [Y|Y]; [contradiction|]. right. apply HM. exact Y. }
    destruct (IH (with_main g m) thr1 true nx F h4 M5 HM') as (r & m' & thr' & h' & F1 & F2 & F3 & F4 & F5).
    change (g_addr g) with (g_addr (with_main g m)). exists r, m', thr', h'. split; [exact F1|]. split; [exact F2|]. split; [exact F3|]. split.
    + intros y Y. apply F4. right. exact Y.
    + intros b Hb tid Ht [I|I]; [|eapply F5; eauto]. apply F4. left. exact I.
Qed.

Lemma passes_ok : forall l g thr nx F h,
  models h (g_cells g thr false nx ++ F) -> main_ok g thr ->
  exists r m thr' h', hijack_passes (g_addr g) l h = Some (r, h') /\
    models h' (g_cells (with_main g m) thr' false nx ++ F) /\
    main_ok (with_main g m) thr' /\ incl (map snd thr) (map snd thr') /\
    (r = true -> forall es err rest tid, l = (es, err) :: rest -> tid <> 0 -> In tid (map tk_tid es) -> In tid (map snd thr')).
Proof.
  induction l as [|[es err] l IH]; intros g thr nx F h H HM; cbn [hijack_passes].
  - exists true, (g_main g), thr, h. split; [reflexivity|].
    replace (with_main g (g_main g)) with g by (destruct g; reflexivity). conj; auto using incl_refl. discriminate.
  - destruct (pass_ok es g thr false nx F h H HM) as (r & m & thr1 & h1 & E1 & M1 & K1 & I1 & S1).
    erewrite bind_eq by exact E1. destruct r as [loop|].
    2: { exists false, m, thr1, h1. conj; auto; discriminate. }
    destruct err.
    { exists false, m, thr1, h1. conj; auto; discriminate. }
    assert (SEEN : forall es0 err rest tid, (es, false) :: l = (es0, err) :: rest -> tid <> 0 -> In tid (map tk_tid es0) -> In tid (map snd thr1)).
    { intros es0 err rest tid X Y Z0. injection X as <- <- <-. eapply S1; eauto. }
    destruct loop.
    + destruct (IH (with_main g m) thr1 nx F h1 M1 K1) as (r & m' & thr2 & h2 & E2 & M2 & K2 & I2 & S2).
      change (g_addr g) with (g_addr (with_main g m)). exists r, m', thr2, h2. split; [exact E2|]. split; [exact M2|]. split; [exact K2|]. split.
      * eapply incl_tran; eauto.
      * intros _ es0 err rest tid X Y Z0. apply I2. eapply SEEN; eauto.
    + exists true, m, thr1, h1. conj; auto.
Qed.

Lemma drop_ok : forall thr f g hij nx F h,
  models h (g_cells g thr hij nx ++ F) -> (List.length thr < f)%nat ->
  exists h', drop_threads f (g_addr g) h = Some (tt, h') /\ models h' (g_cells g [] hij nx ++ F).
Proof.
  induction thr as [|[a tid] t IH]; intros f g hij nx F h H Hf; (destruct f as [|f]; [cbn in Hf; lia|]); cbn [drop_threads].
  - erewrite bind_eq by (eapply load_prc_ok; [exact H|unfold g_cells; left; reflexivity]).
    unfold g_prc at 1. cbn [pr_threads hdp]. exists h. split; [reflexivity|exact H].
  - erewrite bind_eq by (eapply load_prc_ok; [exact H|unfold g_cells; left; reflexivity]).
    unfold g_cells in H. cbn [thr_cells app] in H. unfold g_prc at 1 2. cbn [pr_threads hdp].
    assert (I : In (a, NThr tid (hdp t)) ((g_addr g, NPrc (g_prc g ((a, tid) :: t) hij nx)) :: (a, NThr tid (hdp t)) :: (thr_cells t ++ g_rest g) ++ F)) by (right; left; reflexivity).
    pose proof (models_pos _ _ _ _ H I). rewrite eqb0 by lia.
    erewrite bind_eq by (eapply load_thr_ok; [exact H|exact I]). cbn [snd].
    destruct (store_ok _ _ (NPrc (set_thr (g_prc g ((a, tid) :: t) hij nx) (hdp t) (pr_main (g_prc g ((a, tid) :: t) hij nx)))) _ _ H) as (h1 & E1 & M1 & _).
    erewrite bind_eq by exact E1.
    assert (M1' : models h1 ((a, NThr tid (hdp t)) :: g_cells g t hij nx ++ F)).
    { eapply models_perm; [exact M1|]. unfold g_cells, g_prc, set_thr.
      cbn [pr_pid pr_threads pr_main pr_objmain pr_targets pr_libpulp pr_results pr_hijacked pr_next]. gsimp; perm. }
    destruct (free_ok _ _ _ _ M1') as (h2 & E2 & M2 & _). unfold g_prc at 1. cbn [pr_threads hdp]. erewrite bind_eq by exact E2.
    apply IH; [exact M2|cbn in Hf; lia].
Qed.

Lemma hij_cells g thr hij nx b : (g_addr g, NPrc (set_hij (g_prc g thr hij nx) b)) = (g_addr g, NPrc (g_prc g thr b nx)).
Proof. reflexivity. Qed.

Lemma hijack_ok a g nx F h : lists_itself a -> complete g ->
  models h (g_cells g [] false nx ++ F) ->
  exists r m thr h', hijack_threads (g_addr g) (at_opened a) (at_passes a) h = Some (r, h') /\
    models h' (g_cells (with_main g m) thr r nx ++ F) /\
    (r = true -> In m (map fst thr)) /\ (r = false -> thr = []).
Proof.
  intros Hl (Ho & Hlp & Hpid) H. unfold hijack_threads.
  erewrite bind_eq by (eapply load_prc_ok; [exact H|unfold g_cells; left; reflexivity]).
  unfold g_prc at 1 2. cbn [pr_hijacked pr_pid].
  destruct (at_opened a); cbn [negb].
  2: { exists false, (g_main g), [], h. split; [reflexivity|].
       replace (with_main g (g_main g)) with g by (destruct g; reflexivity). conj; auto; discriminate. }
  destruct (passes_ok (at_passes a (g_pid g)) g [] nx F h H) as (r & m & thr & h1 & E1 & M1 & K1 & _ & S1); [intros []|].
  erewrite bind_eq by exact E1. destruct r.
  - erewrite bind_eq by (eapply load_prc_ok; [exact M1|unfold g_cells; left; reflexivity]).
    pose proof M1 as M1'. unfold g_cells in M1'. cbn [app] in M1'.
    destruct (store_ok _ _ (NPrc (set_hij (g_prc (with_main g m) thr false nx) true)) _ _ M1') as (h2 & E2 & M2 & _).
    change (g_addr g) with (g_addr (with_main g m)). erewrite bind_eq by exact E2.
    exists true, m, thr, h2. split; [reflexivity|]. split; [exact M2|]. split; [|discriminate].
    intros _. change m with (g_main (with_main g m)). apply K1.
    destruct (Hl (g_pid g) Hpid) as (es & err & rest & E & I). change (g_pid (with_main g m)) with (g_pid g).
    eapply S1; eauto.
  - destruct (drop_ok thr (S (h_next h1)) (with_main g m) false nx F h1 M1) as (h2 & E2 & M2).
    { pose proof (models_len _ _ M1) as X. unfold g_cells in X. rewrite app_length in X. cbn [List.length] in X. rewrite app_length, thr_len in X. lia. }
    change (g_addr (with_main g m)) with (g_addr g) in E2. erewrite bind_eq by (unfold looping; exact E2).
    exists false, m, [], h2. split; [reflexivity|]. split; [exact M2|]. split; [discriminate|auto].
Qed.

Lemma thr_in l a : In a (map fst l) -> exists tid nx, In (a, NThr tid nx) (thr_cells l).
Proof.
  induction l as [|[b f] t IH]; intros I; [destruct I|]. cbn [thr_cells]. destruct I as [<-|I].
  - do 2 eexists; left; reflexivity.
  - destruct (IH I) as (x & y & J). do 2 eexists. right; exact J.
Qed.

Lemma routines_ok : forall n g thr nx F h, complete g -> In (g_main g) (map fst thr) ->
  models h (g_cells g thr true nx ++ F) -> run_routines n (g_addr g) h = Some (tt, h).
Proof.
  induction n as [|n IH]; intros g thr nx F h C Hm H; [reflexivity|]. cbn [run_routines]. unfold run_routine.
  rewrite bind_assoc. erewrite bind_eq by (eapply load_prc_ok; [exact H|unfold g_cells; left; reflexivity]).
  unfold g_prc at 1. cbn [pr_hijacked negb]. unfold g_prc at 1 2. cbn [pr_main pr_libpulp].
  destruct (thr_in _ _ Hm) as (tid & x & I).
  rewrite bind_assoc. erewrite bind_eq. 2: { eapply load_thr_ok; [exact H|]. unfold g_cells. cbn [app]. right. apply in_or_app. left. apply in_or_app. left. exact I. }
  assert (M1 : models h (obj_cells (g_tg g) ++ (g_addr g, NPrc (g_prc g thr true nx)) :: thr_cells thr ++ obj_cells (g_om g) ++ res_cells (g_rs g) ++ F)).
  { eapply models_perm; [exact H|]. unfold g_cells, g_rest. gsimp; perm. }
  pose proof C as (C1 & C2 & C3). destruct (parse_lib_ok _ _ _ _ M1 C2) as (_ & y & E).
  rewrite bind_assoc. erewrite bind_eq by exact E. rewrite bind_ret. eapply IH; [exact C|exact Hm|exact H].
Qed.

Lemma restore_ok g thr nx F h : models h (g_cells g thr true nx ++ F) ->
  exists h', restore_threads (g_addr g) h = Some (tt, h') /\ models h' (g_cells g [] false nx ++ F).
Proof.
  intros H. unfold restore_threads.
  erewrite bind_eq by (eapply load_prc_ok; [exact H|unfold g_cells; left; reflexivity]).
  pose proof H as H'. unfold g_cells in H'. cbn [app] in H'.
  destruct (store_ok _ _ (NPrc (set_hij (g_prc g thr true nx) false)) _ _ H') as (h1 & E1 & M1 & _).
  erewrite bind_eq by exact E1. unfold looping. apply (drop_ok thr); [exact M1|].
  pose proof (models_len _ _ M1) as X. cbn [List.length] in X. rewrite !app_length, thr_len in X. lia.
Qed.

Lemma attempts_ok : forall l g nx F h, Forall lists_itself l -> complete g ->
  models h (g_cells g [] false nx ++ F) ->
  exists m h', attempts (g_addr g) l h = Some (tt, h') /\ models h' (g_cells (with_main g m) [] false nx ++ F).
Proof.
  induction l as [|a l IH]; intros g nx F h Hl C H; cbn [attempts].
  - exists (g_main g), h. split; [reflexivity|]. replace (with_main g (g_main g)) with g by (destruct g; reflexivity). exact H.
  - inversion Hl as [|? ? Ha Hl']; subst.
    destruct (hijack_ok a g nx F h Ha C H) as (r & m & thr & h1 & E1 & M1 & K1 & K2). erewrite bind_eq by exact E1.
    destruct r.
    + assert (C' : complete (with_main g m)) by exact C.
      change (g_addr g) with (g_addr (with_main g m)).
      erewrite bind_eq. 2: { eapply routines_ok; [exact C'|exact (K1 eq_refl)|exact M1]. }
      destruct (restore_ok _ _ _ _ _ M1) as (h2 & E2 & M2). erewrite bind_eq by exact E2.
      destruct (IH (with_main g m) nx F h2 Hl' C' M2) as (m' & h3 & E3 & M3). exists m', h3. split; [exact E3|exact M3].
    + rewrite (K2 eq_refl) in M1. exists m, h1. split; [reflexivity|exact M1].
Qed.

Definition with_rs (g : gproc) rs := mk_g (g_addr g) (g_pid g) (g_main g) (g_om g) (g_tg g) (g_lp g) rs.

Lemma read_results_ok : forall l f F h, models h (res_cells l ++ F) -> (List.length l < f)%nat ->
  read_results f (hdp l) h = Some (tt, h).
Proof.
  induction l as [|[a s] t IH]; intros f F h H Hf; (destruct f as [|f]; [cbn in Hf; lia|]); [reflexivity|].
  cbn [hdp read_results]. cbn [res_cells app] in H.
  pose proof (models_pos _ _ _ _ H (or_introl eq_refl)). rewrite eqb0 by lia.
  erewrite bind_eq by (eapply load_res_ok; [exact H|left; reflexivity]). cbn [fst snd].
  erewrite bind_eq by (eapply load_str_ok; [exact H|right; left; reflexivity]).
  apply (IH f ((a, NRes s (hdp t)) :: (s, NStr) :: F)); [reperm H|cbn in Hf; lia].
Qed.

Lemma work_done w g nx F h : work_ok w -> complete g -> models h (g_cells g [] false nx ++ F) ->
  exists g' h', do_work (g_addr g) w h = Some (tt, h') /\ models h' (g_cells g' [] false nx ++ F) /\
    complete g' /\ g_addr g' = g_addr g.
Proof.
  intros Hw C H. destruct w as [l| | |l]; cbn [do_work work_ok] in *.
  - unfold trigger_one_process.
    erewrite bind_eq by (eapply load_prc_ok; [exact H|unfold g_cells; left; reflexivity]).
    assert (M1 : models h (obj_cells (g_tg g) ++ (g_addr g, NPrc (g_prc g [] false nx)) :: obj_cells (g_om g) ++ res_cells (g_rs g) ++ F)).
    { eapply models_perm; [exact H|]. unfold g_cells, g_rest. cbn [thr_cells app]. gsimp; perm. }
    destruct (parse_lib_ok _ _ _ _ M1 (proj1 (proj2 C))) as (_ & y & E). unfold g_prc at 1. cbn [pr_libpulp].
    erewrite bind_eq by exact E. erewrite bind_eq by (eapply walk_ok; eauto).
    destruct (attempts_ok l g nx F h Hw C H) as (m & h1 & E1 & M2). erewrite bind_eq by exact E1.
    destruct (alloc_ok (NRes NULL NULL) _ _ M2) as (en & h2 & E2 & M3 & _ & _). erewrite bind_eq by exact E2.
    set (g1 := with_main g m) in *. change (g_addr g) with (g_addr g1).
    erewrite bind_eq by (eapply load_prc_ok; [exact M3|unfold g_cells; right; left; reflexivity]).
    destruct (alloc_ok NStr _ _ M3) as (nm & h3 & E3 & M4 & _ & _). erewrite bind_eq by exact E3.
    assert (M4' : models h3 ((en, NRes NULL NULL) :: (nm, NStr) :: g_cells g1 [] false nx ++ F)) by reperm M4.
    destruct (store_ok _ _ (NRes nm (pr_results (g_prc g1 [] false nx))) _ _ M4') as (h4 & E4 & M5 & _). erewrite bind_eq by exact E4.
    erewrite bind_eq by (eapply load_prc_ok; [exact M5|unfold g_cells; right; right; left; reflexivity]).
    unfold g_cells in M5. cbn [app thr_cells] in M5.
    assert (M5' : models h4 ((g_addr g1, NPrc (g_prc g1 [] false nx)) :: (en, NRes nm (hdp (g_rs g1))) :: (nm, NStr) :: g_rest g1 ++ F)) by reperm M5.
    destruct (store_ok _ _ (NPrc (set_res (g_prc g1 [] false nx) en)) _ _ M5') as (h5 & E5 & M6 & _).
    exists (with_rs g1 ((en, nm) :: g_rs g1)), h5. split; [exact E5|]. split; [|split; [exact C|reflexivity]].
    eapply models_perm; [exact M6|]. unfold g_cells, g_rest, with_rs, g_prc, set_res.
    cbn [g_addr g_pid g_main g_om g_tg g_lp g_rs pr_pid pr_threads pr_main pr_objmain pr_targets pr_libpulp pr_results pr_hijacked pr_next hdp thr_cells res_cells app]. gsimp; perm.
  - erewrite bind_eq by (eapply load_prc_ok; [exact H|unfold g_cells; left; reflexivity]).
    unfold g_prc. cbn [pr_results]. exists g, h. split; [|auto]. unfold looping.
    eapply (read_results_ok _ _ ((g_addr g, NPrc (g_prc g [] false nx)) :: obj_cells (g_om g) ++ obj_cells (g_tg g) ++ F)).
    + eapply models_perm; [exact H|]. unfold g_cells, g_rest. cbn [thr_cells app]. perm.
    + pose proof (models_len _ _ H) as X. unfold g_cells, g_rest in X. rewrite app_length in X. cbn [List.length thr_cells app] in X.
      rewrite !app_length, res_len in X. lia.
  - exists g, h. split; [eapply walk_ok; eauto|auto].
  - destruct (attempts_ok l g nx F h Hw C H) as (m & h1 & E1 & M1). exists (with_main g m), h1.
    split; [exact E1|]. split; [exact M1|]. split; [exact C|reflexivity].
Qed.

Lemma works_done : forall ws g nx F h, Forall work_ok ws -> complete g -> models h (g_cells g [] false nx ++ F) ->
  exists g' h', do_works (g_addr g) ws h = Some (tt, h') /\ models h' (g_cells g' [] false nx ++ F) /\
    complete g' /\ g_addr g' = g_addr g.
Proof.
  induction ws as [|w ws IH]; intros g nx F h Hw C H; cbn [do_works].
  - exists g, h. auto.
  - inversion Hw as [|? ? H1 H2]; subst.
    destruct (work_done w g nx F h H1 C H) as (g1 & h1 & E1 & M1 & C1 & A1). erewrite bind_eq by exact E1.
    rewrite <- A1. destruct (IH g1 nx F h1 H2 C1 M1) as (g2 & h2 & E2 & M2 & C2 & A2). exists g2, h2.
    split; [exact E2|]. split; [exact M2|]. split; [exact C2|congruence].
Qed.

Lemma release_all_ok gs F h : models h (p_cells gs NULL ++ F) ->
  exists h', looping (fun k => release_ulp_process k (phd gs NULL)) h = Some (tt, h') /\ models h' F.
Proof.
  intros H. unfold looping. apply release_ok; [exact H|].
  pose proof (models_len _ _ H) as X. rewrite app_length in X. pose proof (p_len gs NULL). lia.
Qed.

Lemma phd_zero gs h F : models h (p_cells gs NULL ++ F) -> phd gs NULL = 0%nat -> gs = [].
Proof.
  intros H E. destruct gs as [|g t]; [reflexivity|]. cbn [phd] in E. exfalso.
  pose proof (models_pos h _ (g_addr g) (NPrc (g_prc g [] false (phd t NULL))) H) as X. cbn [p_cells] in X.
  unfold g_cells in X. cbn [app] in X. specialize (X (or_introl eq_refl)). lia.
Qed.

Lemma serial_ok : forall l gs LK h, Forall found_ok l -> Forall complete gs ->
  models h (p_cells gs NULL ++ LK) ->
  exists h' LK' n, serial_loop l (phd gs NULL) h = Some (tt, h') /\ models h' (LK' ++ LK) /\
    List.length LK' = sum (map (fun e => lost (fo_init e)) (firstn n l)).
Proof.
  induction l as [|e l IH]; intros gs LK h Hl Hg H; cbn [serial_loop].
  - destruct (release_all_ok _ _ _ H) as (h' & E & M'). exists h', [], 0%nat. rewrite E. split; [reflexivity|]. split; [exact M'|reflexivity].
  - inversion Hl as [|? ? (H1 & H2 & H3) Hl']; subst. rewrite H1.
    destruct (insert_ok (fo_pid e) (fo_init e) (phd gs NULL) _ h H2 H) as (r & lk & h1 & E1 & L1 & [(-> & _ & M1)|(g & -> & C & M1)]).
    + erewrite bind_eq by exact E1.
      assert (M1' : models h1 (p_cells gs NULL ++ lk ++ LK)) by reperm M1.
      destruct (Nat.eqb_spec (phd gs NULL) 0) as [Z0|Z0].
      * destruct (release_all_ok _ _ _ M1') as (h' & E & M'). exists h', lk, 1%nat. rewrite E. split; [reflexivity|]. split; [exact M'|].
        cbn [firstn map]. unfold sum. cbn [fold_right]. lia.
      * destruct gs as [|g t]; [cbn in Z0; unfold NULL in Z0; lia|]. cbn [phd]. cbn [p_cells] in M1'.
        inversion Hg as [|? ? C Hg']; subst.
        assert (M2 : models h1 (g_cells g [] false (phd t NULL) ++ p_cells t NULL ++ lk ++ LK)) by reperm M1'.
        destruct (works_done _ _ _ _ _ H3 C M2) as (g' & h2 & E2 & M3 & C' & A'). erewrite bind_eq by exact E2.
        assert (M4 : models h2 (p_cells (g' :: t) NULL ++ lk ++ LK)) by (cbn [p_cells]; reperm M3).
        destruct (IH (g' :: t) (lk ++ LK) h2 Hl') as (h' & LK' & n & E3 & M5 & L3); [constructor; assumption|exact M4|].
        cbn [phd] in E3. rewrite A' in E3. exists h', (LK' ++ lk), (S n). split; [exact E3|].
        split; [reperm M5|]. cbn [firstn map]. unfold sum in *. cbn [fold_right]. rewrite app_length. lia.
    + erewrite bind_eq by exact E1.
      assert (P0 : (0 < g_addr g)%nat).
      { pose proof (models_pos h1 _ (g_addr g) (NPrc (g_prc g [] false (phd gs NULL))) M1) as X. unfold g_cells in X. cbn [app] in X. specialize (X (or_introl eq_refl)). lia. }
      rewrite eqb0 by lia.
      destruct (works_done _ _ _ _ _ H3 C M1) as (g' & h2 & E2 & M3 & C' & A'). erewrite bind_eq by exact E2.
      assert (M4 : models h2 (p_cells (g' :: gs) NULL ++ lk ++ LK)) by (cbn [p_cells]; reperm M3).
      destruct (IH (g' :: gs) (lk ++ LK) h2 Hl') as (h' & LK' & n & E3 & M5 & L3); [constructor; assumption|exact M4|].
      cbn [phd] in E3. rewrite A' in E3. exists h', (LK' ++ lk), (S n). split; [exact E3|].
      split; [reperm M5|]. cbn [firstn map]. unfold sum in *. cbn [fold_right]. rewrite app_length. lia.
Qed.

(** ** One process *)

Lemma models_none : models no_blocks [].
Proof.
  split; [|apply Permutation_refl]. unfold wf, no_blocks. cbn [h_cells h_next map]. conj.
  - constructor.
  - lia.
  - intros a n [].
Qed.

Lemma release_g g nx F h : models h (g_cells g [] false nx ++ F) -> nx = NULL ->
  exists h', looping (fun k => release_ulp_process k (g_addr g)) h = Some (tt, h') /\ models h' F.
Proof.
  intros H ->. apply (release_all_ok [g]). cbn [p_cells phd]. rewrite app_nil_r. exact H.
Qed.

Lemma single_ok pid a ws : pid <> 0 -> Forall work_ok ws ->
  exists h, single_command pid a ws no_blocks = Some (tt, h) /\ blocks h = lost a.
Proof.
  intros Hp Hw. unfold single_command.
  destruct (alloc_ok (NPrc (mk_prc pid NULL NULL NULL NULL NULL NULL false NULL)) _ _ models_none) as (p & h1 & E1 & M1 & O1 & _).
  erewrite bind_eq by exact E1.
  assert (M1' : models h1 (g_cells (fresh_g p pid) [] false NULL ++ [])) by exact M1.
  destruct (init_ok p pid a [] h1 Hp M1') as (ok & g & lk & h2 & E2 & M2 & A1 & A2 & A3 & A4 & _).
  erewrite bind_eq by exact E2. rewrite <- A1. destruct ok.
  - destruct (works_done ws g _ _ _ Hw (A4 eq_refl) M2) as (g' & h3 & E3 & M3 & _ & A5). erewrite bind_eq by exact E3.
    rewrite <- A5. destruct (release_g _ _ _ _ M3 eq_refl) as (h4 & E4 & M4). exists h4. split; [exact E4|].
    rewrite (models_blocks _ _ M4), app_nil_r. exact A3.
  - rewrite bind_ret. destruct (release_g _ _ _ _ M2 eq_refl) as (h4 & E4 & M4). exists h4. split; [exact E4|].
    rewrite (models_blocks _ _ M4), app_nil_r. exact A3.
Qed.

(** ** Two threads *)

Lemma g_split gs p : In p (map g_addr gs) -> exists gs1 g gs2, gs = gs1 ++ g :: gs2 /\ g_addr g = p.
Proof.
  intros I. apply in_map_iff in I. destruct I as (g & E & I). apply in_split in I. destruct I as (a & b & ->). eauto.
Qed.

Lemma phd_app gs1 gs2 nx : phd (gs1 ++ gs2) nx = phd gs1 (phd gs2 nx).
Proof. destruct gs1; reflexivity. Qed.

(** Working on any process of the list. *)
Lemma works_any gs LK h p ws : models h (p_cells gs NULL ++ LK) -> Forall complete gs -> In p (map g_addr gs) -> Forall work_ok ws ->
  exists gs' h', do_works p ws h = Some (tt, h') /\ models h' (p_cells gs' NULL ++ LK) /\ Forall complete gs' /\
    map g_addr gs' = map g_addr gs /\ phd gs' NULL = phd gs NULL.
Proof.
  intros H Hc Hp Hw. destruct (g_split _ _ Hp) as (gs1 & g & gs2 & -> & <-).
  apply Forall_app in Hc. destruct Hc as [H1 H2]. inversion H2 as [|? ? C H3]; subst.
  rewrite p_cells_app in H. cbn [p_cells phd] in H.
  assert (H' : models h (g_cells g [] false (phd gs2 NULL) ++ p_cells gs1 (g_addr g) ++ p_cells gs2 NULL ++ LK)) by reperm H.
  destruct (works_done ws g _ _ _ Hw C H') as (g' & h1 & E1 & M1 & C' & A').
  exists (gs1 ++ g' :: gs2), h1. split; [exact E1|]. conj.
  - rewrite p_cells_app. cbn [p_cells phd]. rewrite A'. reperm M1.
  - apply Forall_app. split; [exact H1|]. constructor; assumption.
  - rewrite !map_app. cbn [map]. rewrite A'. reflexivity.
  - rewrite !phd_app. cbn [phd]. rewrite A'. reflexivity.
Qed.

Definition inv (n : nat) (w : tworld) (h : heap) : Prop :=
  exists gs LK, List.length LK = n /\
  if tw_stop w
  then exists nx, models h (p_cells gs nx ++ LK) /\ tw_last w = phd gs nx
  else models h (p_cells gs NULL ++ LK) /\ Forall complete gs /\ tw_last w = phd gs NULL /\
       Forall (fun p => p = NULL \/ In p (map g_addr gs)) (tw_queue w).

Lemma phd_in gs nx : phd gs nx = nx \/ In (phd gs nx) (map g_addr gs).
Proof. destruct gs; [left; reflexivity|right; left; reflexivity]. Qed.

Lemma step_inv s n w h : step_ok s -> inv n w h ->
  exists w' h', do_step s w h = Some (w', h') /\ inv (lost_by s + n) w' h'.
Proof.
  intros Hs (gs & LK & HL & HI). destruct w as [last q stop]. cbn [tw_last tw_queue tw_stop] in *.
  destruct s as [mem pid a| |ws]; cbn [do_step step_ok lost_by tw_last tw_queue tw_stop] in *.
  - destruct Hs as [-> Hp].
    assert (ANY : exists L, models h L) by (destruct stop; [destruct HI as (nx & M0 & _)|destruct HI as (M0 & _)]; eauto).
    destruct stop.
    + destruct HI as (nx & M0 & ->).
      destruct (insert_ok pid a (phd gs nx) _ h Hp M0) as (r & lk & h1 & E1 & L1 & [(-> & _ & M1)|(g & -> & C & M1)]); erewrite bind_eq by exact E1; do 2 eexists; (split; [reflexivity|]).
      * exists gs, (lk ++ LK). cbn [tw_last tw_queue tw_stop]. split; [rewrite app_length; lia|]. exists nx. split; [reperm M1|reflexivity].
      * exists (g :: gs), (lk ++ LK). cbn [tw_last tw_queue tw_stop]. split; [rewrite app_length; lia|]. exists nx. cbn [p_cells phd]. split; [reperm M1|reflexivity].
    + destruct HI as (M0 & HC & -> & HQ).
      destruct (insert_ok pid a (phd gs NULL) _ h Hp M0) as (r & lk & h1 & E1 & L1 & [(-> & _ & M1)|(g & -> & C & M1)]); erewrite bind_eq by exact E1; do 2 eexists; (split; [reflexivity|]).
      * exists gs, (lk ++ LK). cbn [tw_last tw_queue tw_stop]. split; [rewrite app_length; lia|]. conj; auto; [reperm M1|].
        apply Forall_app. split; [exact HQ|]. constructor; [apply phd_in|constructor].
      * exists (g :: gs), (lk ++ LK). cbn [tw_last tw_queue tw_stop]. split; [rewrite app_length; lia|]. cbn [p_cells phd map]. conj; auto; [reperm M1|].
        apply Forall_app. split; [|constructor; [right; left; reflexivity|constructor]].
        eapply Forall_impl; [|exact HQ]. intros x [X|X]; [left; exact X|right; right; exact X].
  - do 2 eexists. split; [reflexivity|]. exists gs, LK. cbn [tw_last tw_queue tw_stop]. split; [exact HL|].
    destruct stop; [exact HI|]. destruct HI as (M0 & HC & -> & HQ). conj; auto.
    apply Forall_app. split; [exact HQ|]. constructor; [left; reflexivity|constructor].
  - destruct stop.
    { do 2 eexists. split; [reflexivity|]. exists gs, LK. cbn [tw_stop]. auto. }
    destruct HI as (M0 & HC & -> & HQ). destruct q as [|p q].
    { do 2 eexists. split; [reflexivity|]. exists gs, LK. cbn [tw_stop tw_last tw_queue]. auto. }
    inversion HQ as [|? ? Hp HQ']; subst. destruct (Nat.eqb_spec p 0) as [->|N].
    + destruct (release_all_ok _ _ _ M0) as (h1 & E1 & M1). erewrite bind_eq by exact E1. do 2 eexists. split; [reflexivity|].
      exists [], LK. cbn [tw_stop tw_last p_cells phd app]. split; [reflexivity|]. eauto.
    + destruct Hp as [Hp|Hp]; [contradiction|].
      destruct (works_any _ _ _ _ ws M0 HC Hp Hs) as (gs' & h1 & E1 & M1 & HC' & A1 & A2). erewrite bind_eq by exact E1.
      do 2 eexists. split; [reflexivity|]. exists gs', LK. cbn [tw_stop tw_last tw_queue]. rewrite A1. conj; auto.
Qed.

Lemma steps_inv : forall l n w h, Forall step_ok l -> inv n w h ->
  exists w' h', do_steps l w h = Some (w', h') /\ inv (sum (map lost_by l) + n) w' h'.
Proof.
  induction l as [|s l IH]; intros n w h Hl HI; cbn [do_steps].
  - exists w, h. split; [reflexivity|exact HI].
  - inversion Hl as [|? ? Hs Hl']; subst. destruct (step_inv s n w h Hs HI) as (w1 & h1 & E1 & I1). erewrite bind_eq by exact E1.
    destruct (IH _ w1 h1 Hl' I1) as (w2 & h2 & E2 & I2). exists w2, h2. split; [exact E2|].
    unfold sum in *. cbn [map fold_right]. replace (lost_by s + fold_right Nat.add 0 (map lost_by l) + n)%nat with (fold_right Nat.add 0 (map lost_by l) + (lost_by s + n))%nat by lia. exact I2.
Qed.

Lemma inv_start : inv 0 start no_blocks.
Proof.
  exists [], []. split; [reflexivity|]. cbn [start tw_stop tw_last tw_queue p_cells app]. conj; [exact models_none|constructor|reflexivity|constructor].
Qed.

(** The run as it should be: first everything is found, then the end is announced. *)
Definition before (n : nat) (w : tworld) (h : heap) (fresh : bool) : Prop :=
  exists gs LK, List.length LK = n /\ tw_stop w = false /\
    models h (p_cells gs NULL ++ LK) /\ Forall complete gs /\ tw_last w = phd gs NULL /\
    (forall p, In p (tw_queue w) -> In p (map g_addr gs)) /\ (fresh = false -> gs <> []).
Definition after (n : nat) (w : tworld) (h : heap) : Prop :=
  exists gs LK, List.length LK = n /\
    if tw_stop w then models h LK
    else exists q, tw_queue w = q ++ [NULL] /\
         models h (p_cells gs NULL ++ LK) /\ Forall complete gs /\ tw_last w = phd gs NULL /\
         (forall p, In p q -> In p (map g_addr gs)).

Lemma g_addr_pos gs nx F h p : models h (p_cells gs nx ++ F) -> In p (map g_addr gs) -> p <> 0%nat.
Proof.
  intros H I. destruct (g_split _ _ I) as (gs1 & g & gs2 & -> & <-). rewrite p_cells_app in H. cbn [p_cells phd] in H.
  assert (X : (0 < g_addr g < h_next h)%nat); [|lia].
  eapply (models_pos _ _ _ (NPrc (g_prc g [] false (phd gs2 nx))) H). apply in_or_app. left. apply in_or_app. right.
  unfold g_cells. left. reflexivity.
Qed.

Lemma before_steps : forall l n w h fresh, Forall step_ok l -> existsb is_through l = false ->
  (fresh = true -> first_ok l = true) -> before n w h fresh ->
  exists w' h', do_steps l w h = Some (w', h') /\ exists fr, before (sum (map lost_by l) + n) w' h' fr.
Proof.
  induction l as [|s l IH]; intros n w h fresh Hl Ht Hf HB; cbn [do_steps].
  - exists w, h. split; [reflexivity|]. exists fresh. exact HB.
  - inversion Hl as [|? ? Hs Hl']; subst. cbn [existsb] in Ht. apply orb_false_iff in Ht. destruct Ht as [Hs0 Ht].
    assert (GO : exists w1 h1 fr1, do_step s w h = Some (w1, h1) /\ before (lost_by s + n) w1 h1 fr1 /\ (fr1 = true -> first_ok l = true)).
    { destruct HB as (gs & LK & HL & HS & M0 & HC & HT & HQ & HF). destruct w as [last q stop]. cbn [tw_last tw_queue tw_stop] in *. subst stop last.
      destruct s as [mem pid a| |ws]; [| |].
      - cbn [do_step step_ok lost_by tw_last tw_queue tw_stop first_ok] in *. destruct Hs as [-> Hp].
        destruct (insert_ok pid a (phd gs NULL) _ h Hp M0) as (r & lk & h1 & E1 & L1 & [(-> & NA & M1)|(g & -> & C & M1)]); erewrite bind_eq by exact E1; do 2 eexists; exists false; (split; [reflexivity|]; split; [|discriminate]).
        + assert (NF : fresh = false) by (destruct fresh; [specialize (Hf eq_refl); congruence|reflexivity]).
          exists gs, (lk ++ LK). cbn [tw_last tw_queue tw_stop]. conj; auto; [rewrite app_length; lia|reperm M1|].
          intros p I. apply in_app_or in I. destruct I as [I|[<-|[]]]; [auto|].
          specialize (HF NF). destruct gs; [contradiction|left; reflexivity].
        + exists (g :: gs), (lk ++ LK). cbn [tw_last tw_queue tw_stop]. conj; auto; [rewrite app_length; lia|cbn [p_cells phd]; reperm M1| |discriminate].
          intros p I. apply in_app_or in I. destruct I as [I|[<-|[]]]; [right; auto|left; reflexivity].
      - discriminate.
      - cbn [do_step step_ok lost_by tw_last tw_queue tw_stop first_ok] in *. destruct q as [|p q].
        + do 2 eexists. exists fresh. split; [reflexivity|]. split; [|exact Hf]. exists gs, LK. cbn [tw_last tw_queue tw_stop]. conj; auto.
        + assert (Hp : In p (map g_addr gs)) by (apply HQ; left; reflexivity).
          rewrite eqb0 by (eapply g_addr_pos; eauto).
          destruct (works_any _ _ _ _ ws M0 HC Hp Hs) as (gs' & h1 & E1 & M1 & HC' & A1 & A2). erewrite bind_eq by exact E1.
          do 2 eexists. exists fresh. split; [reflexivity|]. split; [|exact Hf]. exists gs', LK. cbn [tw_last tw_queue tw_stop]. conj; auto.
          * intros x X. rewrite A1. apply HQ. right. exact X.
          * intros X Y. subst gs'. destruct gs; [exact (HF X eq_refl)|discriminate]. }
    destruct GO as (w1 & h1 & fr1 & E1 & B1 & F1). erewrite bind_eq by exact E1.
    destruct (IH _ w1 h1 fr1 Hl' Ht F1 B1) as (w2 & h2 & E2 & B2). exists w2, h2. split; [exact E2|].
    unfold sum in *. cbn [map fold_right]. replace (lost_by s + fold_right Nat.add 0 (map lost_by l) + n)%nat with (fold_right Nat.add 0 (map lost_by l) + (lost_by s + n))%nat by lia. exact B2.
Qed.

Lemma after_steps : forall l n w h, Forall step_ok l -> forallb is_take l = true -> after n w h ->
  exists w' h', do_steps l w h = Some (w', h') /\ after n w' h'.
Proof.
  induction l as [|s l IH]; intros n w h Hl Ht HB; cbn [do_steps].
  - exists w, h. auto.
  - inversion Hl as [|? ? Hs Hl']; subst. cbn [forallb] in Ht. apply andb_true_iff in Ht. destruct Ht as [Hs0 Ht].
    assert (GO : exists w1 h1, do_step s w h = Some (w1, h1) /\ after n w1 h1).
    { destruct s as [| |ws]; try discriminate. destruct HB as (gs & LK & HL & HB). destruct w as [last q stop].
      cbn [do_step step_ok tw_last tw_queue tw_stop] in *. destruct stop.
      - do 2 eexists. split; [reflexivity|]. exists gs, LK. cbn [tw_stop]. auto.
      - destruct HB as (q0 & -> & M0 & HC & -> & HQ). destruct q0 as [|p q0]; cbn [app].
        + cbn [Nat.eqb NULL]. destruct (release_all_ok _ _ _ M0) as (h1 & E1 & M1). erewrite bind_eq by exact E1. do 2 eexists. split; [reflexivity|].
          exists gs, LK. cbn [tw_stop]. auto.
        + assert (Hp : In p (map g_addr gs)) by (apply HQ; left; reflexivity).
          rewrite eqb0 by (eapply g_addr_pos; eauto).
          destruct (works_any _ _ _ _ ws M0 HC Hp Hs) as (gs' & h1 & E1 & M1 & HC' & A1 & A2). erewrite bind_eq by exact E1.
          do 2 eexists. split; [reflexivity|]. exists gs', LK. cbn [tw_last tw_queue tw_stop]. split; [exact HL|]. exists q0. conj; auto.
          intros x X. rewrite A1. apply HQ. right. exact X. }
    destruct GO as (w1 & h1 & E1 & B1). erewrite bind_eq by exact E1. apply IH; auto.
Qed.

Lemma do_steps_app l1 l2 w h : do_steps (l1 ++ l2) w h = bind (do_steps l1 w) (do_steps l2) h.
Proof.
  revert w h. induction l1 as [|s l1 IH]; intros w h; [reflexivity|]. cbn [app do_steps]. rewrite bind_assoc.
  unfold bind. destruct (do_step s w h) as [[w1 h1]|]; [|reflexivity]. rewrite IH. reflexivity.
Qed.

Lemma threads_clean fs ts : Forall step_ok fs -> Forall step_ok ts -> existsb is_through fs = false -> forallb is_take ts = true ->
  first_ok fs = true ->
  exists w h, do_steps (fs ++ SThrough :: ts) start no_blocks = Some (w, h) /\
    (tw_stop w = true -> blocks h = sum (map lost_by fs)).
Proof.
  intros H1 H2 H3 H4 H5.
  assert (B0 : before 0 start no_blocks true).
  { exists [], []. cbn [start tw_stop tw_last tw_queue p_cells app phd]. conj; auto; [exact models_none|discriminate]. }
  destruct (before_steps fs 0 start no_blocks true H1 H3 (fun _ => H5) B0) as (w1 & h1 & E1 & fr & B1).
  destruct B1 as (gs & LK & HL & HS & M0 & HC & HT & HQ & _).
  rewrite do_steps_app. erewrite bind_eq by exact E1. cbn [do_steps do_step]. rewrite bind_ret.
  assert (A1 : after (sum (map lost_by fs) + 0) (mk_tw (tw_last w1) (tw_queue w1 ++ [NULL]) (tw_stop w1)) h1).
  { exists gs, LK. cbn [tw_stop tw_queue tw_last]. split; [exact HL|]. rewrite HS. exists (tw_queue w1). conj; auto. }
  destruct (after_steps ts _ _ _ H2 H4 A1) as (w2 & h2 & E2 & A2). exists w2, h2. split; [exact E2|].
  intros X. destruct A2 as (gs2 & LK2 & L2 & A2). rewrite X in A2. rewrite (models_blocks _ _ A2). lia.
Qed.
