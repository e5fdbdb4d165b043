(** Proofs for C88. *)
From Verif Require Import Base BaseFacts InsnQModel InsnQSpec InsnQProofs MetaModel StrModel
  X86Model X86Spec X86Proofs DlModel LibModel LibSpec LibProofs LibInv LibMem WinSpec.

(** ** The shape of every request libpulp queues *)

Section Good.
Variable F : list Z.
Variable eb : Z -> bool.
Variable Rep : Z -> Z -> Prop.

Definition good (r : req) : Prop :=
  (exists m f g, In f F /\ Rep f g /\ is_endbr64 m f = eb f /\ r = patch_req m f g true) \/
  (exists m f, In f F /\ is_endbr64 m f = eb f /\ r = patch_req m f 0 false) \/
  (exists a bs, r = RWrite a bs /\
     forall f x, In f F -> a <= x < a + zlen bs -> ~ in_window (eb f) f x).

Definition reps (roots : list droot) : Prop :=
  forall r d, In r roots -> In d (r_detours r) -> d_active d = true -> Rep (r_addr r) (d_target d).

(** The queue holds [old] followed by good requests. *)
Definition grows (q : insnq) (old : list req) : Prop :=
  exists new, qinv q (old ++ new) /\ Forall good new.

Lemma grows_submit q err old r q' err' :
  grows q old -> req_ok r -> good r -> err <> EINSNQ -> submit (q, err) r = (q', err') -> err' <> EINSNQ ->
  grows q' old.
Proof.
  intros (new & Hq & Hg) Hr Hgr He Hs He'.
  destruct (submit_ok _ _ _ _ _ _ Hq Hr Hs He) as [[_ Hq']|E]; [|contradiction].
  exists (new ++ [r]). rewrite app_assoc. split; [exact Hq'|]. apply Forall_app. auto.
Qed.

Lemma revert_detours_good m a id todo pre q err old ds q' err' :
  In a F -> entry_ok m (eb a) a -> grows q old -> err <> EINSNQ ->
  (forall d, In d (pre ++ todo) -> d_active d = true -> Rep a (d_target d)) ->
  revert_detours m a id pre todo (q, err) = (ds, (q', err')) -> err' <> EINSNQ ->
  grows q' old.
Proof.
  intros Ha Hm. revert pre q err. induction todo as [|d t IH]; intros pre q err Hq He Hd H He'.
  - cbn in H. injection H as <- <- <-. exact Hq.
  - cbn [revert_detours] in H. pose proof (entry_ok_looks _ _ _ Hm) as HL.
    pose proof (entry_ok_endbr _ _ _ Hm) as HE.
    assert (Hsub : forall x, In x (pre ++ deactivate d :: t) -> d_active x = true -> Rep a (d_target x)).
    { intros x Hx Hact. apply in_app_or in Hx. destruct Hx as [Hx|[<-|Hx]].
      - apply Hd; [apply in_or_app; left; exact Hx|exact Hact].
      - cbn in Hact. discriminate.
      - apply Hd; [apply in_or_app; right; right; exact Hx|exact Hact]. }
    destruct (bytes_eqb (d_pid d) id).
    + assert (G : exists r, req_ok r /\ good r /\
                 revert_detours m a id (pre ++ [deactivate d]) t (submit (q, err) r) = (ds, (q', err'))).
      { destruct (find d_active (pre ++ deactivate d :: t)) as [x|] eqn:Ef;
          rewrite patch_addr_eq, HL in H; cbn [fst] in H.
        - exists (patch_req m a (d_target x) true). split; [apply patch_req_ok|]. split; [|exact H].
          left. exists m, a, (d_target x). apply find_some in Ef. destruct Ef as [Ef1 Ef2]. auto.
        - exists (patch_req m a 0 false). split; [apply patch_req_ok|]. split; [|exact H].
          right. left. exists m, a. auto. }
      destruct G as (r & Hr & Hgr & H'). destruct (submit (q, err) r) as [q1 err1] eqn:Es.
      assert (He1 : err1 <> EINSNQ).
      { intros ->. apply He'.
        pose proof (revert_detours_dead m a id t (pre ++ [deactivate d]) (q1, EINSNQ) eq_refl) as X.
        rewrite H' in X. exact X. }
      eapply IH; [| |..|exact H'|exact He'].
      * eapply grows_submit; [exact Hq|exact Hr|exact Hgr|exact He|exact Es|exact He1].
      * exact He1.
      * rewrite <- app_assoc. exact Hsub.
    + eapply IH; [exact Hq|exact He| |exact H|exact He']. rewrite <- app_assoc. exact Hd.
Qed.

Lemma revert_roots_good m id roots q err old roots' q' err' :
  (forall r, In r roots -> In (r_addr r) F) -> (forall f, In f F -> entry_ok m (eb f) f) ->
  reps roots -> grows q old -> err <> EINSNQ ->
  revert_roots m id roots (q, err) = (roots', (q', err')) -> err' <> EINSNQ -> grows q' old.
Proof.
  intros Hin Hm. revert q err roots' q' err'.
  induction roots as [|r t IH]; intros q err roots' q' err' Hr Hq He H He'.
  - cbn in H. injection H as <- <- <-. exact Hq.
  - cbn [revert_roots] in H.
    destruct (revert_detours m (r_addr r) id [] (r_detours r) (q, err)) as [ds [q1 err1]] eqn:E1.
    destruct (revert_roots m id t (q1, err1)) as [t' [q2 err2]] eqn:E2. injection H as <- <- <-.
    assert (He1 : err1 <> EINSNQ).
    { intros ->. apply He'. pose proof (revert_roots_dead m id t (q1, EINSNQ) eq_refl) as X. rewrite E2 in X. exact X. }
    eapply IH; [| | | |exact E2|exact He'].
    + intros x Hx. apply Hin. right. exact Hx.
    + intros x d Hx. apply Hr. right. exact Hx.
    + eapply revert_detours_good; [| | | | |exact E1|exact He1]; auto.
      * apply Hin. left. reflexivity.
      * apply Hm, Hin. left. reflexivity.
      * cbn [app]. intros d Hd. apply (Hr r d); [left; reflexivity|exact Hd].
    + exact He1.
Qed.

Lemma reps_drop id roots : reps roots -> reps (map (root_drop id) roots).
Proof.
  intros H r d Hr Hd Hact. apply in_map_iff in Hr. destruct Hr as (r0 & <- & Hr0).
  unfold root_drop in *. cbn [r_detours r_addr] in *. apply in_map_iff in Hd.
  destruct Hd as (d0 & <- & Hd0). unfold drop_id in *.
  destruct (bytes_eqb (d_pid d0) id); [cbn in Hact; discriminate|]. apply (H r0 d0); auto.
Qed.

Definition held (st : lstate) (old : list req) : Prop :=
  roots_in F (s_roots st) /\ reps (s_roots st) /\ grows (s_q st) old.

Lemma revert_patch_good m id st old st' ret :
  (forall f, In f F -> entry_ok m (eb f) f) -> held st old -> s_err st <> EINSNQ ->
  ulp_revert_patch m id st = (st', ret) -> s_err st' <> EINSNQ -> held st' old.
Proof.
  intros Hm (T1 & T2 & T3) He H He'.
  pose proof (revert_patch_lists _ _ _ _ _ H) as (_ & L2 & _).
  unfold ulp_revert_patch in H. change (s_roots (next_universe st)) with (s_roots st) in H.
  change (s_q (next_universe st)) with (s_q st) in H. change (s_err (next_universe st)) with (s_err st) in H.
  destruct (revert_roots m id (s_roots st) (s_q st, s_err st)) as [roots [q' err']] eqn:E.
  assert (G : s_q st' = q' /\ s_err st' = err') by (destruct (state_remove _ _); injection H as <- <-; auto).
  destruct G as [G1 G2]. rewrite G2 in He'. unfold held. rewrite L2, G1. repeat split.
  - intros r Hr. apply in_map_iff in Hr. destruct Hr as (r0 & <- & Hr0). apply (T1 r0 Hr0).
  - apply reps_drop. exact T2.
  - eapply revert_roots_good; [| | | | |exact E|exact He']; auto.
Qed.

Lemma chain_good m st ids st' old :
  revert_chain m st ids st' -> (forall f, In f F -> entry_ok m (eb f) f) ->
  held st old -> s_err st <> EINSNQ -> s_err st' <> EINSNQ -> held st' old.
Proof.
  intros H Hm. induction H as [|st id ids st1 st2 H1 H2 H3 IH]; intros Ht He He'; auto.
  assert (He1 : s_err st1 <> EINSNQ) by (intros X; apply He'; eapply chain_dead; eauto).
  apply IH; auto. eapply revert_patch_good; [| | |exact H2|]; auto.
Qed.

Lemma apply_units_good e m libname h id us st st' old :
  (forall f, In f F -> entry_ok m (eb f) f) ->
  (forall f g, In (f, g) (unit_pairs e libname h us) ->
     (In f F \/ ~ exists endbr, livepatchable m endbr f) /\ (In f F -> Rep f g)) ->
  grows (s_q st) old -> s_err st <> EINSNQ ->
  apply_units e m libname h id us st = (st', 0) -> s_err st' <> EINSNQ -> grows (s_q st') old.
Proof.
  intros Hm. revert st; induction us as [|u us IH]; intros st Hp Ht He H He'.
  - cbn in H. injection H as <-. exact Ht.
  - rewrite apply_units_step in H. cbv zeta in H.
    destruct (_ =? 0); [discriminate|]. destruct (_ =? 0); [discriminate|].
    set (o := get_loaded_symbol_addr _ _ _ _ _) in *. set (new := e_dlsym e h (u_new u)) in *.
    destruct (looks_patchable m o) eqn:EL; [|discriminate].
    destruct (Hp o new (or_introl eq_refl)) as [Ho HR].
    assert (Ho' : In o F).
    { destruct Ho as [X|X]; [exact X|]. exfalso. apply X. apply (looks_livepatchable eb). exact EL. }
    destruct (record_unit_fields st id o new) as (F1 & F2 & F3 & F4).
    rewrite F3, F4 in H.
    destruct (submit (s_q st, s_err st) (patch_req m o new true)) as [q1 err1] eqn:Es.
    assert (He1 : err1 <> EINSNQ).
    { intros ->. apply He'. eapply apply_units_dead; [exact H|reflexivity]. }
    eapply IH; [| | |exact H|exact He'].
    + intros f g Hfg. apply Hp. right. exact Hfg.
    + cbn [set_qe s_q]. eapply grows_submit; [exact Ht|apply patch_req_ok| |exact He|exact Es|exact He1].
      left. exists m, o, new. split; [exact Ho'|]. split; [apply HR; exact Ho'|]. split; [|reflexivity].
      apply entry_ok_endbr. apply Hm. exact Ho'.
    + exact He1.
Qed.

Lemma apply_refs_good e h tb ti pb refs st st' old :
  (forall n, 0 <= e_dlsym e h n < 2 ^ 64) ->
  (forall r pa x f, In r refs ->
     (rf_poff r = 0 /\ exists name, rf_name r = Some name /\ pa = e_dlsym e h name) \/
     (rf_poff r <> 0 /\ pa = u64 (pb + rf_poff r)) ->
     pa <= x < pa + 16 -> In f F -> ~ in_window (eb f) f x) ->
  grows (s_q st) old -> s_err st <> EINSNQ ->
  apply_refs e h tb ti pb refs st = Some (st', 0) -> s_err st' <> EINSNQ -> grows (s_q st') old.
Proof.
  intros Hsane. revert st; induction refs as [|r refs IH]; intros st Hr Ht He H He'.
  - cbn in H. injection H as <-. exact Ht.
  - cbn [apply_refs] in H. fold (ref_data tb ti r) in H.
    assert (G : exists pa, 0 <= pa < 2 ^ 64 /\
       ((rf_poff r = 0 /\ exists name, rf_name r = Some name /\ pa = e_dlsym e h name) \/
        (rf_poff r <> 0 /\ pa = u64 (pb + rf_poff r))) /\
       apply_refs e h tb ti pb refs (set_qe st (submit (s_q st, s_err st) (RWrite pa (ref_data tb ti r)))) = Some (st', 0)).
    { destruct (Z.eqb_spec (rf_poff r) 0) as [E0|E0].
      - destruct (rf_name r) as [name|]; [|discriminate].
        destruct (e_dlsym e h name =? 0); [discriminate|]. exists (e_dlsym e h name).
        split; [apply Hsane|]. split; [left; eauto|rewrite <- memwrite_submit; exact H].
      - exists (u64 (pb + rf_poff r)). split; [unfold u64; apply Z.mod_pos_bound; lia|]. split; [right; auto|rewrite <- memwrite_submit; exact H]. }
    clear H. destruct G as (pa & Hpa & Hcase & H).
    destruct (ref_data_ok tb ti r) as [Hb Hlen].
    destruct (submit (s_q st, s_err st) (RWrite pa (ref_data tb ti r))) as [q1 err1] eqn:Es.
    assert (He1 : err1 <> EINSNQ).
    { intros ->. apply He'. eapply apply_refs_dead; [exact H|reflexivity]. }
    eapply IH; [| | |exact H|exact He'].
    + intros r0 pa0 x f Hin. apply Hr. right. exact Hin.
    + cbn [set_qe s_q]. eapply grows_submit; [exact Ht|exact (conj Hpa Hb : req_ok (RWrite pa (ref_data tb ti r)))| |exact He|exact Es|exact He1].
      right. right. exists pa, (ref_data tb ti r). split; [reflexivity|]. intros f x Hf Hx.
      apply (Hr r pa x f (or_introl eq_refl) Hcase); [lia|exact Hf].
    + exact He1.
Qed.

Lemma apply_all_good e m h md st st' old :
  (forall f, In f F -> entry_ok m (eb f) f) -> h = e_dlopen e (md_so md) -> env_sane e ->
  (forall f g, In (f, g) (replacements e md) ->
     (In f F \/ ~ exists endbr, livepatchable m endbr f) /\ (In f F -> Rep f g)) ->
  (forall r pa x f, In r (md_refs md) -> ref_address e md r pa ->
     pa <= x < pa + 16 -> In f F -> ~ in_window (eb f) f x) ->
  grows (s_q st) old -> s_err st <> EINSNQ ->
  ulp_apply_all_units e m h md st = Some (st', 0) -> s_err st' <> EINSNQ -> grows (s_q st') old.
Proof.
  intros Hm Hh Hs Hp Hr Ht He H He'. unfold ulp_apply_all_units in H.
  destruct (apply_units _ _ _ _ _ _ _) as [st1 r1] eqn:E.
  destruct (Z.eqb_spec r1 0) as [->|E0]; cbn [negb] in H; [|injection H as <- ->; contradiction].
  destruct (_ =? 255); [discriminate|]. destruct (e_laddr e h) as [la|] eqn:El; [|discriminate].
  destruct (la =? 0); [discriminate|].
  assert (He1 : s_err st1 <> EINSNQ) by (intros X; apply He'; eapply apply_refs_dead; eauto).
  eapply apply_refs_good; [| | | |exact H|exact He'].
  - intros n. apply Hs.
  - intros r pa x f Hin Hc. apply (Hr r pa x f Hin). unfold ref_address. rewrite <- Hh.
    destruct Hc as [Hc|[Hc1 Hc2]]; [left; exact Hc|right; split; auto]. exists la. auto.
  - eapply (apply_units_good e m _ h _ _ (next_universe st)); [exact Hm| |exact Ht|exact He|exact E|exact He1].
    rewrite Hh. exact Hp.
  - exact He1.
Qed.

(** ** What good requests preserve *)

(** The slot of every function holds one instruction: a two-byte nop or a short
    jump; and the endbr64 is there. *)
Definition whole (m : mem) (f : Z) : Prop :=
  (eb f = true -> mem_read m f 4 = [243; 15; 30; 250]) /\
  (mem_read m (slot (eb f) f) 2 = [102; 144] \/ m (slot (eb f) f) = 235).

(** The padding of [f] holds a jump to a replacement of [f]. *)
Definition jumps (m : mem) (f : Z) : Prop :=
  mem_read m (f - 14) 6 = [255; 37; 0; 0; 0; 0] /\ exists g, Rep f g /\ mem_read m (f - 8) 8 = le_enc 8 g.

Lemma whole_ext m1 m2 f : (forall x, in_window (eb f) f x -> m1 x = m2 x) -> whole m1 f -> whole m2 f.
Proof.
  unfold whole, in_window, body, slot. intros H [H1 H2]. split.
  - intros E. rewrite <- (H1 E). rewrite E in H. apply mem_read_ext. intros x Hx. symmetry. apply H. lia.
  - destruct H2 as [H2|H2]; [left|right].
    + rewrite <- H2. apply mem_read_ext. intros x Hx. symmetry. apply H. destruct (eb f); lia.
    + rewrite <- H2. symmetry. apply H. destruct (eb f); lia.
Qed.

Lemma jumps_ext m1 m2 f : (forall x, in_window (eb f) f x -> m1 x = m2 x) -> jumps m1 f -> jumps m2 f.
Proof.
  unfold jumps, in_window, body, slot. intros H [H1 (g & H2 & H3)]. split.
  - rewrite <- H1. apply mem_read_ext. intros x Hx. symmetry. apply H. destruct (eb f); lia.
  - exists g. split; [exact H2|]. rewrite <- H3. apply mem_read_ext. intros x Hx. symmetry. apply H. destruct (eb f); lia.
Qed.

Lemma redir_whole m f g : redir_bytes m (eb f) f g -> whole m f.
Proof.
  intros (_ & _ & H). unfold whole, slot. destruct (eb f).
  - split; [intros _; apply mem_read_6_4 in H; exact H|]. right.
    cbn [mem_read] in H. injection H as _ _ _ _ H _. replace (f + 1 + 1 + 1 + 1) with (f + 4) in H by lia. exact H.
  - split; [discriminate|]. right. cbn [mem_read] in H. injection H as H _. exact H.
Qed.

Lemma redir_jumps m f g : Rep f g -> redir_bytes m (eb f) f g -> jumps m f.
Proof. intros HR (H1 & H2 & _). split; eauto. Qed.

(** What restoring the nops does. *)
Lemma restore_bytes m M f :
  addr_ok f -> is_endbr64 m f = eb f ->
  let M' := req_mem (patch_req m f 0 false) M in
  mem_read M' (slot (eb f) f) 2 = [102; 144] /\
  (forall x, ~ (slot (eb f) f <= x < slot (eb f) f + 2) -> M' x = M x).
Proof.
  intros [H1 H2] He. unfold patch_req. rewrite He. cbn zeta. cbn [req_mem].
  assert (E : u64 (f + (if eb f then 4 else 0)) = slot (eb f) f).
  { unfold slot. destruct (eb f); rewrite u64_id by lia; lia. }
  rewrite E. split.
  - change 2%nat with (length [102; 144]). apply mem_read_write_same.
  - intros x Hx. apply mem_write_out. change (zlen [102; 144]) with 2. lia.
Qed.

Lemma good_whole M r f :
  frame F eb -> good r -> In f F -> whole M f -> whole (req_mem r M) f.
Proof.
  intros HF Hg Hf H. destruct Hg as [(m & a & g & Ha & _ & He & ->)|[(m & a & Ha & He & ->)|(a & bs & -> & Hx)]].
  - destruct (enable_effect m M (eb a) a g (fr_addr _ _ HF a Ha) He) as [H1 H2].
    destruct (Z.eq_dec f a) as [->|Hne]; [eapply redir_whole; exact H1|].
    eapply whole_ext; [|exact H]. intros x Hx. symmetry. apply H2. intros Hx2. apply Hne. eapply (fr_disj _ _ HF); eauto.
  - destruct (restore_bytes m M a (fr_addr _ _ HF a Ha) He) as [H1 H2].
    destruct (Z.eq_dec f a) as [->|Hne].
    + split; [|left; exact H1]. intros E. destruct H as [H _]. rewrite <- (H E). apply mem_read_ext.
      intros x Hx. apply H2. unfold slot. rewrite E. lia.
    + eapply whole_ext; [|exact H]. intros x Hx. symmetry. apply H2. intros Hx2. apply Hne.
      eapply (fr_disj _ _ HF); eauto. unfold in_window, body. unfold slot in *. destruct (eb a); lia.
  - eapply whole_ext; [|exact H]. intros x Hw. cbn [req_mem]. symmetry. apply mem_write_out.
    assert (~ (a <= x < a + zlen bs)) by (intros X; exact (Hx f x Hf X Hw)). lia.
Qed.

Lemma good_jumps M r f :
  frame F eb -> good r -> In f F -> jumps M f -> jumps (req_mem r M) f.
Proof.
  intros HF Hg Hf H. destruct Hg as [(m & a & g & Ha & HR & He & ->)|[(m & a & Ha & He & ->)|(a & bs & -> & Hx)]].
  - destruct (enable_effect m M (eb a) a g (fr_addr _ _ HF a Ha) He) as [H1 H2].
    destruct (Z.eq_dec f a) as [->|Hne]; [eapply redir_jumps; eauto|].
    eapply jumps_ext; [|exact H]. intros x Hx. symmetry. apply H2. intros Hx2. apply Hne. eapply (fr_disj _ _ HF); eauto.
  - destruct (restore_bytes m M a (fr_addr _ _ HF a Ha) He) as [H1 H2].
    destruct (Z.eq_dec f a) as [->|Hne].
    + destruct H as [J1 (g & J2 & J3)]. split; [|exists g; split; [exact J2|]].
      * rewrite <- J1. apply mem_read_ext. intros x Hx. apply H2. unfold slot. destruct (eb a); lia.
      * rewrite <- J3. apply mem_read_ext. intros x Hx. apply H2. unfold slot. destruct (eb a); lia.
    + eapply jumps_ext; [|exact H]. intros x Hx. symmetry. apply H2. intros Hx2. apply Hne.
      eapply (fr_disj _ _ HF); eauto. unfold in_window, body. unfold slot in *. destruct (eb a); lia.
  - eapply jumps_ext; [|exact H]. intros x Hw. cbn [req_mem]. symmetry. apply mem_write_out.
    assert (~ (a <= x < a + zlen bs)) by (intros X; exact (Hx f x Hf X Hw)). lia.
Qed.

(** A property of the memory that good requests preserve and that only looks at
    the windows of [F]. *)
Record steady (Q : mem -> Prop) : Prop := {
  st_req : forall M r, good r -> Q M -> Q (req_mem r M);
  st_ext : forall M1 M2, (forall f x, In f F -> in_window (eb f) f x -> M1 x = M2 x) -> Q M1 -> Q M2
}.

Lemma steady_list Q rs M : steady Q -> Forall good rs -> Q M -> Q (mem_of rs M).
Proof.
  intros HQ. revert M. induction rs as [|r rs IH]; intros M Hg H; [exact H|].
  apply Forall_cons_iff in Hg. destruct Hg as [G1 G2].
  change (mem_of (r :: rs) M) with (mem_of rs (req_mem r M)). apply IH; [exact G2|].
  apply (st_req _ HQ); auto.
Qed.

Lemma steady_grows Q q old M new :
  steady Q -> qinv q (old ++ new) -> Forall good new -> Q (mem_of old M) -> Q (mem_of (old ++ new) M).
Proof. intros HQ _ Hg H. rewrite mem_of_app. apply steady_list; auto. Qed.

(** One event: the memory with the pending writes done keeps the property. *)
Lemma event_steady Q ev p p' ans rs :
  steady Q -> event_ok F eb p ev -> do_event ev p = Some (p', ans) ->
  alive (p_lib p') -> tied F eb (p_mem p) (p_lib p) rs -> reps (s_roots (p_lib p)) ->
  (forall e busy junk buf md f g, ev = EvApply busy e junk buf -> ans = 0 ->
     parse_metadata_from_mem junk buf = P_ok md -> md_type md <> 2 ->
     In (f, g) (replacements e md) -> In f F -> Rep f g) ->
  Q (mem_of rs (p_mem p)) ->
  exists rs', qinv (s_q (p_lib p')) rs' /\ Q (mem_of rs' (p_mem p')).
Proof.
  intros HQ Hok H Ha Ht HR Hnew HM. pose proof (alive_err _ Ha) as He'.
  destruct Ht as (T1 & T2 & T3).
  assert (Hstart : forall st, s_q st = s_q (p_lib p) -> rs = [] -> grows (s_q st) []).
  { intros st E ->. exists []. rewrite E. split; [exact T1|constructor]. }
  assert (Hend : forall st, rs = [] -> grows (s_q st) [] -> exists rs', qinv (s_q st) rs' /\ Q (mem_of rs' (p_mem p))).
  { intros st -> (new & Hq & Hg). exists new. split; [exact Hq|]. apply steady_list; auto. }
  destruct ev as [busy e junk buf|busy e name| |te|m']; cbn [do_event] in H.
  - destruct (ulp_apply_patch _ _ _ _ _ _) as [[st a]|] eqn:Ex; [|discriminate]. injection H as <- <-.
    cbn [p_lib p_mem] in *. apply apply_outcome in Ex. destruct Ex as [Ex|(E0 & Eq & _ & Ex)].
    { apply gate_alive in Ex; auto. subst. eauto. }
    assert (rs = []) by (eapply qinv_empty_iff; [apply T1|exact Eq]). subst rs.
    assert (Hm : forall f, In f F -> entry_ok (p_mem p) (eb f) f).
    { apply (tied_entry F eb _ (p_lib p)). repeat split; auto; try apply T1. }
    assert (He : s_err (p_lib p) <> EINSNQ) by (rewrite E0; discriminate).
    destruct Hok as [Hsane Hok].
    destruct Ex as [ans Hans|md st' ans Hp Hty Hcr Hrv|md st1 st2 ans Hp Hty Hb Hd Hap Hh Hu Hx].
    + eauto.
    + assert (G0 : held (p_lib p) []) by (split; [exact T2|]; split; [exact HR|]; apply Hstart; reflexivity).
      apply (Hend st'); [reflexivity|].
      exact (proj2 (proj2 (revert_patch_good _ _ _ _ _ _ Hm G0 He Hrv He'))).
    + destruct (Z.eqb_spec ans 0) as [->|Hne].
      2:{ exfalso. destruct Ha as [Ha|Ha]; cbn in Ha; discriminate. }
      apply state_update_some in Hu. destruct Hu as (us & Hus & ->).
      destruct (Hok md Hp) as [Hok1 Hok2].
      apply Hend; auto. eapply apply_all_good; [exact Hm| |exact Hsane| |exact Hok2| | |exact Hx|exact He'].
      * reflexivity.
      * intros f g Hfg. split; [apply (Hok1 f g Hfg)|]. intros Hf.
        eapply Hnew; [reflexivity|reflexivity|exact Hp| |exact Hfg|exact Hf]. rewrite Hty. discriminate.
      * apply Hstart; auto.
      * exact He.
  - destruct (ulp_revert_patches_from_lib _ _ _ _ _ _) as [[st a]|] eqn:Ex; [|discriminate]. injection H as <- <-.
    cbn [p_lib p_mem] in *. apply revert_all_outcome in Ex.
    destruct Ex as [Ex|(E0 & Eq & _ & [(-> & ->)|[(Hm & -> & ->)|(Hm & -> & Hch)]])]; eauto.
    { apply gate_alive in Ex; auto. subst. eauto. }
    assert (rs = []) by (eapply qinv_empty_iff; [apply T1|exact Eq]). subst rs.
    assert (Hm' : forall f, In f F -> entry_ok (p_mem p) (eb f) f).
    { apply (tied_entry F eb _ (p_lib p)). repeat split; auto; try apply T1. }
    assert (G0 : held (p_lib p) []) by (split; [exact T2|]; split; [exact HR|]; apply Hstart; reflexivity).
    assert (He : s_err (p_lib p) <> EINSNQ) by (rewrite E0; discriminate).
    apply (Hend st); [reflexivity|].
    exact (proj2 (proj2 (chain_good _ _ _ _ _ Hch Hm' G0 He He'))).
  - injection H as <- <-. exists rs. cbn [p_lib p_mem]. unfold ENONE.
    destruct (_ =? 0); [|destruct (_ =? EUSRBLOCKED)]; split; auto.
  - destruct (insnq_interpret_from_process _ _ _ _) as [[[r q] t]|] eqn:Ex; [|discriminate]. injection H as <- <-.
    cbn [p_lib p_mem set_qe s_q] in *.
    pose proof (interpret_cases _ _ _ _ _ _ _ T1 Hok Ex) as G.
    destruct G as [(-> & -> & _)|[(-> & -> & _)|(-> & -> & _)]].
    + exists rs. split; auto.
    + exists rs. split; [exact T1|]. rewrite perform_all_mem. cbn [t_mem].
      eapply (st_ext _ HQ); [|exact HM]. intros f x _ _. symmetry. apply mem_of_twice.
    + exists []. split; [eapply qinv_reset; exact T1|]. rewrite perform_all_mem. exact HM.
  - injection H as <- <-. cbn [p_lib p_mem] in *. exists rs. split; [exact T1|].
    eapply (st_ext _ HQ); [|exact HM]. intros f x Hf Hx. apply mem_of_ext. symmetry. eapply Hok; eauto.
Qed.

End Good.

(** A queue stands for one effect only. *)
Lemma qinv_mem q rs1 rs2 m : qinv q rs1 -> qinv q rs2 -> mem_of rs1 m = mem_of rs2 m.
Proof.
  intros H1 H2.
  pose proof (interpret_exact env_ok q rs1 (mk_tgt m []) H1 eq_refl eq_refl eq_refl (fun _ => eq_refl)) as E1.
  pose proof (interpret_exact env_ok q rs2 (mk_tgt m []) H2 eq_refl eq_refl eq_refl (fun _ => eq_refl)) as E2.
  rewrite E1 in E2. injection E2 as E2. apply (f_equal t_mem) in E2. rewrite !perform_all_mem in E2. exact E2.
Qed.

(** ** Along a history *)

Lemma entry_at_in f en x : In x (entry_at f en) -> In (f, snd x) (en_repl en).
Proof.
  unfold entry_at. rewrite in_map_iff. intros ([a g] & <- & H). apply in_rev in H. apply filter_In in H.
  cbn [fst snd] in *. destruct H as [H E]. apply Z.eqb_eq in E. subst. exact H.
Qed.

Lemma corr_reps (Rep : Z -> Z -> Prop) st L :
  corr st L -> NoDup (map r_addr (s_roots st)) ->
  (forall en f g, In en L -> In (f, g) (en_repl en) -> Rep f g) -> reps Rep (s_roots st).
Proof.
  intros [_ C] Hn HR r d Hr Hd Hact.
  assert (X : In (d_pid d, d_target d) (active_at (s_roots st) (r_addr r))).
  { rewrite (active_at_root _ _ Hn Hr). unfold acts. apply (in_map (fun d => (d_pid d, d_target d))).
    apply filter_In. auto. }
  rewrite C in X. apply in_flat_map in X. destruct X as (en & Hen & X). apply entry_at_in in X.
  eapply HR; eauto.
Qed.

Lemma event_logged ev ans busy e junk buf md f g L :
  ev = EvApply busy e junk buf -> ans = 0 -> parse_metadata_from_mem junk buf = P_ok md ->
  md_type md <> 2 -> In (f, g) (replacements e md) ->
  exists en, In en (log_step L (ev, ans)) /\ In (f, g) (en_repl en).
Proof.
  intros -> -> Hp Ht Hfg. cbn [log_step]. rewrite Hp. destruct (Z.eqb_spec (md_type md) 2); [contradiction|].
  exists (entry_of e md). split; [left; reflexivity|]. exact Hfg.
Qed.

(** From a point of a history on, a property that good requests preserve stays. *)
Lemma history_steady F eb m0 stale tr1 p1 (Q : mem -> Prop) tr2 p2 :
  functions_ok F eb m0 ->
  clean_history F eb (fresh m0 stale) tr1 p1 ->
  clean_history F eb p1 tr2 p2 ->
  steady F eb (replaced_since tr1 tr2) Q ->
  alive (p_lib p2) -> no_pending p1 -> Q (p_mem p1) ->
  exists rs, qinv (s_q (p_lib p2)) rs /\ Q (mem_of rs (p_mem p2)).
Proof.
  intros HF H1 H2.
  intros HQ. assert (HQ' : forall b, tr2 ++ [] = tr2 ++ b -> steady F eb (replaced_since tr1 (tr2 ++ b)) Q).
  { intros b Hb. apply app_inv_head in Hb. subst b. rewrite app_nil_r. exact HQ. }
  clear HQ. remember (@nil (event * Z)) as rest eqn:Er. 
  assert (HQ : steady F eb (replaced_since tr1 (tr2 ++ rest)) Q) by (apply HQ'; reflexivity).
  clear HQ' Er. revert rest HQ.
  assert (Hcat : forall tr p, clean_history F eb p1 tr p -> clean_history F eb (fresh m0 stale) (tr1 ++ tr) p).
  { induction 1 as [|tr p ev p' ans H IH Hok E]; [rewrite app_nil_r; exact H1|].
    rewrite app_assoc. econstructor; eauto. }
  induction H2 as [|tr p ev p' ans H IH Hok E]; intros rest HQ Ha Hn HM.
  - destruct (clean_tied _ _ _ _ _ _ HF H1 Ha) as (rs & T1 & _). exists rs. split; [exact T1|].
    assert (rs = []) by (eapply qinv_empty_iff; [exact T1|destruct Hn; split; lia]). subst rs. exact HM.
  - pose proof (dead_absorbing _ _ _ _ E Ha) as Ha0.
    destruct (IH ((ev, ans) :: rest)) as (rs & Hq & HM0); auto.
    { replace (tr ++ (ev, ans) :: rest) with ((tr ++ [(ev, ans)]) ++ rest) by (rewrite <- app_assoc; reflexivity). exact HQ. }
    destruct (clean_tied _ _ _ _ _ _ HF (Hcat _ _ H) Ha0) as (rs1 & HT).
    rewrite (qinv_mem _ _ rs1 (p_mem p) Hq (proj1 HT)) in HM0.
    pose proof (clean_is_history _ _ _ _ _ (Hcat _ _ H)) as Hh.
    eapply event_steady; [exact HQ|exact Hok|exact E|exact Ha|exact HT| | |exact HM0].
    + destruct (history_corr _ _ _ _ Hh Ha0) as [C _].
      eapply corr_reps; [exact C| |].
      * apply li_roots. eapply history_linv. exact Hh.
      * intros en f g Hen Hfg. exists tr, ((ev, ans) :: rest), en. split; [rewrite <- app_assoc; reflexivity|]. auto.
    + intros e busy junk buf md f g E1 E2 Hp Ht Hfg _.
      destruct (event_logged ev ans busy e junk buf md f g (log_of (tr1 ++ tr)) E1 E2 Hp Ht Hfg) as (en & G1 & G2).
      exists (tr ++ [(ev, ans)]), rest, en. split; [reflexivity|]. split; [|exact G2].
      rewrite app_assoc, log_of_snoc. exact G1.
Qed.

Lemma steady_whole F eb Rep : frame F eb -> steady F eb Rep (fun M => forall f, In f F -> whole eb M f).
Proof.
  intros HF. constructor.
  - intros M r Hg H f Hf. eapply good_whole; eauto.
  - intros M1 M2 Hx H f Hf. eapply (whole_ext eb Rep M1 M2 f); [|apply H; exact Hf]. intros x Hw. exact (Hx f x Hf Hw).
Qed.

Lemma steady_jumps F eb Rep f : frame F eb -> In f F -> steady F eb Rep (fun M => jumps Rep M f).
Proof.
  intros HF Hf. constructor.
  - intros M r Hg H. eapply good_jumps; eauto.
  - intros M1 M2 Hx H. eapply jumps_ext; [|exact H]. intros x Hw. exact (Hx f x Hf Hw).
Qed.

(** ** The instructions of a window *)

Lemma read2 m a b c : mem_read m a 2 = [b; c] -> m a = b /\ m (a + 1) = c.
Proof. cbn [mem_read]. intros H. injection H as -> ->. auto. Qed.

(** The instruction boundaries of the window of a function. *)
Definition boundary (e : bool) (f pc : Z) : Prop := pc = f \/ pc = slot e f.

Lemma cpu_nop2 m a : mem_read m a 2 = [102; 144] -> cpu_step m a = Some (a + 2).
Proof. intros H. apply read2 in H. destruct H as [H0 H1]. unfold cpu_step. rewrite H0, H1. reflexivity. Qed.

(** Threads in a window are where its instructions lead. *)
Lemma stops_closed m e f pc (B : Z -> Prop) :
  B f -> (forall a a', B a -> cpu_step m a = Some a' -> in_window e f a' -> B a') ->
  stopped_at m e f pc -> B pc.
Proof.
  intros H0 Hs (Hw & trail & Ht & Hin). revert H0 Hw Hin.
  assert (G : forall a, goes_through m a trail pc -> B a -> in_window e f pc ->
            (forall a, In a trail -> in_window e f a) -> B pc); [|eauto].
  clear Ht. induction trail as [|x t IH]; intros a Ht Ha Hw Hin.
  - inversion Ht; subst. exact Ha.
  - inversion Ht as [|? a' ? ? Hc Hr]; subst. apply (IH a'); auto.
    + apply (Hs x); auto. destruct t as [|y t]; inversion Hr; subst; auto. apply Hin. right. left. reflexivity.
    + intros y Hy. apply Hin. right. exact Hy.
Qed.

Lemma step_entry m e f a' :
  (e = true -> mem_read m f 4 = [243; 15; 30; 250]) -> f <> slot e f -> cpu_step m f = Some a' -> a' = slot e f.
Proof.
  unfold slot. destruct e; intros H Hne Hc; [|contradiction].
  rewrite (cpu_endbr _ _ (H eq_refl)) in Hc. injection Hc as <-. reflexivity.
Qed.

Lemma plain_stops m e f pc :
  (e = true -> mem_read m f 4 = [243; 15; 30; 250]) -> mem_read m (slot e f) 2 = [102; 144] ->
  stopped_at m e f pc -> boundary e f pc.
Proof.
  intros He Hs. apply (stops_closed m e f pc (boundary e f)); [left; reflexivity|].
  intros a a' Ha Hc Hw.
  assert (Hslot : a = slot e f -> boundary e f a').
  { intros ->. rewrite (cpu_nop2 _ _ Hs) in Hc. injection Hc as <-. exfalso.
    unfold in_window, body in Hw. lia. }
  destruct Ha as [->| ->]; [|auto]. destruct (Z.eq_dec f (slot e f)) as [E|E]; [auto|].
  right. eapply step_entry; eauto.
Qed.

Lemma redir_steps m e f g :
  0 <= g < 2 ^ 64 -> redir_bytes m e f g ->
  (e = true -> mem_read m f 4 = [243; 15; 30; 250]) /\
  cpu_step m (slot e f) = Some (f - 14) /\ cpu_step m (f - 14) = Some g.
Proof.
  intros Hg (H1 & H2 & H3). split; [|split].
  - intros ->. apply mem_read_6_4 in H3. exact H3.
  - unfold slot. destruct e.
    + cbn [mem_read] in H3. injection H3 as _ _ _ _ A B.
      replace (f + 1 + 1 + 1 + 1) with (f + 4) in * by lia.
      rewrite (cpu_jmp8 _ _ _ A B). f_equal. change (sbyte 236) with (-20). lia.
    + apply read2 in H3. destruct H3 as [A B].
      rewrite (cpu_jmp8 _ _ _ A B). f_equal. change (sbyte 240) with (-16). lia.
  - apply cpu_jmpm; auto. replace (f - 14 + 6) with (f - 8) by lia. exact H2.
Qed.

Lemma redir_stops m e f g pc :
  0 <= g < 2 ^ 64 -> redir_bytes m e f g -> ~ in_window e f g ->
  stopped_at m e f pc -> boundary e f pc \/ pc = f - 14.
Proof.
  intros Hg Hb Hn. destruct (redir_steps _ _ _ _ Hg Hb) as (He & S1 & S2).
  apply (stops_closed m e f pc (fun a => boundary e f a \/ a = f - 14)); [left; left; reflexivity|].
  intros a a' Ha Hc Hw.
  assert (Hslot : a = slot e f -> boundary e f a' \/ a' = f - 14).
  { intros ->. rewrite S1 in Hc. injection Hc as <-. right. reflexivity. }
  destruct Ha as [[->| ->]| ->]; [|auto|].
  - destruct (Z.eq_dec f (slot e f)) as [E|E]; [auto|]. left. right. eapply step_entry; eauto.
  - rewrite S2 in Hc. injection Hc as <-. contradiction.
Qed.

Lemma window_pts e f : in_window e f f /\ in_window e f (slot e f) /\ in_window e f (f - 14).
Proof. unfold in_window, body, slot. destruct e; lia. Qed.

(** From a boundary, a thread goes where the slot's instruction leads. *)
Lemma from_boundary m e f pc d :
  (e = true -> mem_read m f 4 = [243; 15; 30; 250]) ->
  leaves_for m e f (slot e f) d -> boundary e f pc -> leaves_for m e f pc d.
Proof.
  intros He Hl [->| ->]; [|exact Hl]. destruct e; [|exact Hl].
  destruct Hl as (t & H1 & H2). exists (f :: t). split.
  - eapply gt_step; [apply cpu_endbr, He; reflexivity|exact H1].
  - intros a [<-|Ha]; [apply window_pts|auto].
Qed.

Lemma leaves_one m e f pc d : in_window e f pc -> cpu_step m pc = Some d -> leaves_for m e f pc d.
Proof.
  intros Hw Hc. exists [pc]. split; [eapply gt_step; [exact Hc|constructor]|]. intros a [<-|[]]. exact Hw.
Qed.

Lemma leaves_two m e f pc a d :
  in_window e f pc -> in_window e f a -> cpu_step m pc = Some a -> cpu_step m a = Some d -> leaves_for m e f pc d.
Proof.
  intros Hw Ha H1 H2. exists [pc; a]. split; [eapply gt_step; [exact H1|eapply gt_step; [exact H2|constructor]]|].
  intros x [<-|[<-|[]]]; auto.
Qed.

Lemma redir_leaves m e f g pc :
  0 <= g < 2 ^ 64 -> redir_bytes m e f g -> boundary e f pc \/ pc = f - 14 -> leaves_for m e f pc g.
Proof.
  intros Hg Hb. destruct (redir_steps _ _ _ _ Hg Hb) as (He & S1 & S2). destruct (window_pts e f) as (W1 & W2 & W3).
  intros [Hp| ->].
  - eapply from_boundary; [exact He| |exact Hp]. eapply leaves_two; eauto.
  - apply leaves_one; auto.
Qed.

Lemma plain_leaves m e f pc :
  (e = true -> mem_read m f 4 = [243; 15; 30; 250]) -> mem_read m (slot e f) 2 = [102; 144] ->
  boundary e f pc -> leaves_for m e f pc (body e f).
Proof.
  intros He Hs Hp. eapply from_boundary; [exact He| |exact Hp].
  apply leaves_one; [apply window_pts|]. apply cpu_nop2. exact Hs.
Qed.

(** A window that is plain and whole holds the two-byte nop. *)
Lemma plain_whole eb m f :
  plain_bytes m (eb f) f -> whole eb m f ->
  (eb f = true -> mem_read m f 4 = [243; 15; 30; 250]) /\ mem_read m (slot (eb f) f) 2 = [102; 144].
Proof.
  intros Hp [H1 H2]. split; [exact H1|]. destruct H2 as [H2|H2]; [exact H2|]. exfalso.
  unfold plain_bytes, slot in *. destruct (eb f); [destruct Hp as [_ Hp]|]; unfold nops_at in Hp; lia.
Qed.

(** The code of a function with nothing pending. *)
Lemma clean_bytes F eb m stale tr p :
  functions_ok F eb m -> clean_history F eb (fresh m stale) tr p ->
  alive (p_lib p) -> no_pending p ->
  forall f, In f F ->
    match route (log_of tr) f with
    | Some g => redir_bytes (p_mem p) (eb f) f g /\ 0 <= g < 2 ^ 64
    | None => plain_bytes (p_mem p) (eb f) f
    end.
Proof.
  intros HF Hh Ha Hn f Hf.
  destruct (clean_tied _ _ _ _ _ _ HF Hh Ha) as (rs & T1 & T2 & T3).
  assert (rs = []) by (eapply qinv_empty_iff; [exact T1|destruct Hn; split; lia]). subst rs.
  destruct (history_corr _ _ _ _ (clean_is_history _ _ _ _ _ Hh) Ha) as [[C1 C2] _].
  specialize (T3 f Hf). rewrite C2 in T3. cbn [mem_of fold_left] in T3.
  destruct (route (log_of tr) f) as [g|] eqn:Er.
  - pose proof (route_in _ _ _ Er) as (en & Hen & Hfg).
    rewrite route_flat in Er. destruct (flat_map _ _) as [|[x y] l]; [discriminate|]. injection Er as ->.
    cbn in T3. split; [exact T3|]. eapply clean_log_sane; eauto.
  - rewrite route_flat in Er. destruct (flat_map _ _) as [|[x y] l]; [|discriminate]. exact T3.
Qed.

Lemma clean_cat F eb p0 tr1 p1 tr2 p2 :
  clean_history F eb p0 tr1 p1 -> clean_history F eb p1 tr2 p2 -> clean_history F eb p0 (tr1 ++ tr2) p2.
Proof.
  intros H1. induction 1 as [|tr p ev p' ans H IH Hok E]; [rewrite app_nil_r; exact H1|].
  rewrite app_assoc. econstructor; eauto.
Qed.

Lemma clean_whole F eb m stale tr p :
  functions_ok F eb m -> (forall f, In f F -> one_nop m (eb f) f) ->
  clean_history F eb (fresh m stale) tr p -> alive (p_lib p) -> no_pending p ->
  forall f, In f F -> whole eb (p_mem p) f.
Proof.
  intros HF H1 Hh Ha Hn.
  destruct (history_steady F eb m stale [] (fresh m stale) (fun M => forall f, In f F -> whole eb M f) tr p)
    as (rs & Hq & HM); auto.
  - constructor.
  - apply steady_whole. eapply functions_frame; eauto.
  - split; reflexivity.
  - cbn [fresh p_mem]. intros f Hf. destruct (fo_plain _ _ _ HF f Hf) as [A _]. destruct (H1 f Hf) as [B C]. split.
    + intros E. rewrite E in A. exact A.
    + left. cbn [mem_read]. rewrite B, C. reflexivity.
  - assert (rs = []) by (eapply qinv_empty_iff; [exact Hq|destruct Hn; split; lia]). subst rs. exact HM.
Qed.
