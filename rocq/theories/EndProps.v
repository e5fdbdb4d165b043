(** The whole way of a live patch, from its description to the calls of a process (C73). *)
From Coq Require Import String.
From Verif Require Import Base BaseFacts InsnQModel InsnQSpec MetaModel MetaSpec MetaProofs MetaProps StrModel X86Model X86Spec
  DlModel SymProofs LibModel LibSpec LibProofs LibInv LibMem LibExample LibProps Lib2Props DscModel DscSpec DscProofs DscProps CmdSpec EndSpec.

(** ** What the packer produces can be stored *)

Lemma symbol_at_in syms n v : symbol_at syms n v -> In (n, v) syms.
Proof. intros (a & b & -> & _). apply in_or_app. right. left. reflexivity. Qed.

Lemma symbol_at_fun syms n v w : symbol_at syms n v -> symbol_at syms n w -> v = w.
Proof.
  intros (a & b & -> & Ha) (a' & b' & E & Ha'). revert a' b' E Ha Ha'.
  induction a as [|[x y] a IH]; intros [|[x' y'] a'] b' E Ha Ha'; cbn [app] in E.
  - injection E as -> _. reflexivity.
  - injection E as -> -> E. exfalso. apply Ha'. left. reflexivity.
  - injection E as -> -> E. exfalso. apply Ha. left. reflexivity.
  - injection E as -> -> E. eapply IH; [exact E| |]; intros X; [apply Ha|apply Ha']; right; exact X.
Qed.

Lemma funcs_ok items o n : Forall item_ok items -> In (o, n) (funcs_of items) -> cstr_ok o /\ cstr_ok n.
Proof.
  intros H X. unfold funcs_of in X. apply in_flat_map in X. destruct X as (i & Hi & X).
  rewrite Forall_forall in H. apply H in Hi. destruct i; try destruct X as [X|[]]; try contradiction.
  injection X as -> ->. destruct Hi as (((A & _) & _) & ((B & _) & _) & _). auto.
Qed.

Lemma dep_bytes e : forall deps ids, Forall2 (dep_means e) deps ids -> Forall bytes_ok ids -> Forall id_ok ids.
Proof.
  induction 1 as [|p i ps is (H & _) F IH]; intros B; [constructor|].
  constructor; [split; [exact H|exact (Forall_inv B)]|apply IH; exact (Forall_inv_tail B)].
Qed.

Lemma packed_ok container target d pm ids :
  desc_ok d -> so_ok container -> so_ok target -> id_ok (pm_id pm) -> Forall id_ok ids ->
  pm_name pm = si_name target -> pm_bid pm = si_bid target -> pm_bid_len pm = 20 ->
  Forall2 (unit_means target) (funcs_of (dd_body d)) (pm_units pm) ->
  Forall2 (ref_means container target) (refs_of (dd_body d)) (rev (pm_refs pm)) ->
  rev (pm_deps pm) = ids ->
  pm_nunits pm = zlen (pm_units pm) -> pm_nrefs pm = zlen (pm_refs pm) -> pm_ndeps pm = zlen (pm_deps pm) ->
  pmeta_ok pm.
Proof.
  intros D (_ & _ & _ & Sc) (B & L & N & St) Hid Hids E1 E2 E3 U R Dp C1 C2 C3.
  split; [exact Hid|]. rewrite E2, E3, E1. split; [exact B|]. split; [symmetry; exact L|]. split; [exact N|].
  split; [exact C1|]. split.
  { apply Forall_forall. intros u Hu. destruct (Forall2_in_r _ _ _ _ U Hu) as ((o & n) & Hin & (V1 & V2 & V3)).
    cbn [fst snd] in *. destruct (funcs_ok _ _ _ (do_body _ D) Hin) as [W1 W2].
    unfold unit_ok. rewrite V1, V2. split; [exact W1|]. split; [exact W2|]. eapply St, symbol_at_in, V3. }
  split; [exact C3|]. split.
  { rewrite <- (rev_involutive (pm_deps pm)), Dp. apply Forall_rev. exact Hids. }
  split; [exact C2|].
  rewrite <- (rev_involutive (pm_refs pm)). apply Forall_rev. apply Forall_forall. intros r Hr.
  destruct (Forall2_in_r _ _ _ _ R Hr) as (i & Hin & M). unfold refs_of in Hin. apply filter_In in Hin. destruct Hin as [Hin _].
  pose proof (do_body _ D) as O. rewrite Forall_forall in O. apply O in Hin. destruct i; try contradiction; cbn [ref_means item_ok] in *.
  - unfold ref_ok. destruct M as (_ & -> & -> & M1 & M2), Hin as (((A & _) & _) & ((A' & _) & _) & _).
    split; [exact A|]. split; [exact A'|]. split; [eapply St, symbol_at_in, M1|eapply Sc, symbol_at_in, M2].
  - unfold ref_ok. destruct M as (_ & -> & -> & M1 & M2), Hin as (((A & _) & _) & ((A' & _) & _) & _ & (X1 & _ & X2) & (Y1 & _ & Y2)).
    split; [exact A|]. split; [exact A'|]. split.
    + destruct (Z.eqb_spec (hex_value toff) 0); [eapply St, symbol_at_in, M2|]. rewrite M2.
      pose proof (hex_value_nonneg _ X1). lia.
    + rewrite M1. pose proof (hex_value_nonneg _ Y1). lia.
Qed.

(** ** Addresses *)

Lemma target_addr e target l o v :
  loaded_target e target l -> symbol_at (si_syms target) o v -> v <> 0 ->
  get_loaded_symbol_addr (e_prog e) (e_libs2 e) (get_basename (si_name target)) o v = u64 (lb_base l + v).
Proof.
  intros (H & Hs) _ Hv. destruct (lb_syms l) as [syms|] eqn:E; [|congruence].
  unfold get_loaded_symbol_addr, lib_arg. rewrite (find_symbol_designated _ _ _ _ _ H E).
  destruct (Z.eqb_spec v 0); [contradiction|]. cbn [negb andb].
  destruct (Z.eqb_spec (get_symbol_by_name syms o) v) as [->|]; cbn [negb]; [|reflexivity].
  destruct (Z.eqb_spec v 0); [contradiction|reflexivity].
Qed.

(** The replacements libpulp computes, line by line. *)
Definition line_repl (target : so_info) (l : lib) (e : dlenv) (path : list Z) (fn : list Z * list Z) (p : Z * Z) : Prop :=
  lives_at target l (fst fn) (fst p) /\ snd p = e_dlsym e (e_dlopen e path) (snd fn).

Lemma replacements_lines e target l d path pm :
  loaded_target e target l -> no_zero_offset target d -> pm_name pm = si_name target ->
  Forall2 (unit_means target) (funcs_of (dd_body d)) (pm_units pm) ->
  Forall2 (line_repl target l e path) (funcs_of (dd_body d)) (replacements e (seen_patch pm path)).
Proof.
  intros L Z0 En. unfold no_zero_offset in Z0. unfold replacements, seen_patch. cbn [md_units md_name md_so]. rewrite En.
  induction 1 as [|[o n] u us ms (M1 & M2 & M3) F IH]; [constructor|]. cbn [map fst snd] in *. constructor.
  - unfold line_repl. cbn [fst snd]. rewrite M1, M2. split; [|reflexivity].
    rewrite (target_addr e target l o (u_addr u) L M3).
    + exists (u_addr u). auto.
    + intros X. apply (Z0 o n (or_introl eq_refl)). rewrite <- X. exact M3.
  - apply IH. intros o' n' H. apply Z0 with n'. right. exact H.
Qed.

Lemma lives_at_fun target l o f g : lives_at target l o f -> lives_at target l o g -> f = g.
Proof. intros (v & V & ->) (w & W & ->). rewrite (symbol_at_fun _ _ _ _ V W). reflexivity. Qed.

Lemma repl_none target l e path f fns rs : Forall2 (line_repl target l e path) fns rs ->
  (forall o n, In (o, n) fns -> ~ lives_at target l o f) -> repl_of rs f = None.
Proof.
  induction 1 as [|[o n] [a g] fns rs (H1 & H2) F IH]; intros H; [reflexivity|]. cbn [repl_of fst snd] in *.
  rewrite IH by (intros o' n' X; apply H with n'; right; exact X).
  destruct (Z.eqb_spec a f) as [->|]; [|reflexivity]. exfalso. apply (H o n (or_introl eq_refl)). exact H1.
Qed.

Lemma repl_some target l e path f n fns rs : Forall2 (line_repl target l e path) fns rs ->
  (exists before o after, fns = before ++ (o, n) :: after /\ lives_at target l o f /\
    forall o' n', In (o', n') after -> ~ lives_at target l o' f) ->
  repl_of rs f = Some (e_dlsym e (e_dlopen e path) n).
Proof.
  intros F (before & o & after & -> & Ho & Ha). revert rs F.
  induction before as [|[o1 n1] before IH]; intros rs F; cbn [app] in F; inversion F as [|x [a g] y rs' (H1 & H2) F']; subst; cbn [fst snd] in *.
  - cbn [repl_of]. rewrite (repl_none _ _ _ _ _ _ _ F' Ha). rewrite (lives_at_fun _ _ _ _ _ H1 Ho), Z.eqb_refl, H2. reflexivity.
  - cbn [repl_of]. rewrite (IH _ F'). reflexivity.
Qed.

(** ** The tool's success *)

Lemma exec_success te p p' r : do_event (EvExec te) p = Some (p', r) -> r = 0 -> no_pending p'.
Proof.
  cbn [do_event]. unfold insnq_interpret_from_process. cbn [negb].
  destruct (insnq_get_from_remote_process te (s_q (p_lib p))) as [ret q].
  destruct (Z.eqb_spec ret 0) as [->|N]; cbn [negb].
  2:{ intros H ->. injection H as _ H. contradiction. }
  destruct (q_size q >? INSN_BUFFER_MAX); [intros H ->; discriminate|].
  destruct (insnq_interpret _ _ _ _) as [|c t']; [discriminate|].
  destruct (negb (c =? 0)); [intros H ->; discriminate|]. destruct (negb (te_upd te =? 0)); [intros H ->; discriminate|].
  intros H _. injection H as <- _. split; reflexivity.
Qed.

Lemma exec_not_old te p p' r : tool_sane te -> do_event (EvExec te) p = Some (p', r) -> r <> EOLDLIBPULP.
Proof.
  intros [_ S] H. cbn [do_event] in H.
  destruct (insnq_interpret_from_process te true (s_q (p_lib p)) (mk_tgt (p_mem p) [])) as [[[r' q'] t]|] eqn:E; [|discriminate].
  injection H as _ <-. revert E. unfold insnq_interpret_from_process. cbn [negb].
  destruct (insnq_get_from_remote_process te (s_q (p_lib p))) as [ret q] eqn:G.
  destruct (Z.eqb_spec ret 0) as [->|N]; cbn [negb].
  - destruct (q_size q >? INSN_BUFFER_MAX); [intros [= <- _ _]; discriminate|].
    destruct (insnq_interpret _ _ _ _) as [|c t']; [discriminate|].
    destruct (negb (c =? 0)); [intros [= <- _ _]; discriminate|].
    destruct (negb (te_upd te =? 0)); intros [= <- _ _]; discriminate.
  - intros [= <- _ _]. revert G. unfold insnq_get_from_remote_process.
    destruct (negb (te_rd_hdr te =? 0)); [intros [= <- _]; discriminate|].
    destruct (_ >? INSNQ_CURR_VERSION); [intros [= <- _]; discriminate|].
    destruct (u32 (q_size (s_q (p_lib p))) =? 0); [intros [= <- _]; discriminate|].
    destruct (u32 (q_size (s_q (p_lib p))) >? INSN_BUFFER_MAX); [intros [= <- _]; discriminate|].
    destruct (negb (te_rd_body te =? 0)); intros [= <- _]; [exact S|discriminate].
Qed.

Lemma tool_success te rax busy e junk buf p p' : tool_sane te ->
  tool_apply_patch te rax busy e junk buf p = Some (p', 0) ->
  exists p1, do_event (EvApply busy e junk buf) p = Some (p1, 0) /\ do_event (EvExec te) p1 = Some (p', 0) /\ no_pending p'.
Proof.
  intros S H. destruct (C01_tool_apply_is_events _ _ _ _ _ _ _ _ _ H) as (p1 & ans & E1 & [(X & _)|(r & E2 & X & Y)]); [discriminate|].
  pose proof (exec_not_old _ _ _ _ S E2) as N. destruct (Z.eq_dec r 0) as [->|R]; [|specialize (Y R N); congruence].
  rewrite <- (X (or_introl eq_refl)) in E1. exists p1. split; [exact E1|]. split; [exact E2|]. eapply exec_success; eauto.
Qed.

Lemma packed_event F eb p container target l e path d pm busy junk buf :
  loaded_target e target l -> no_zero_offset target d -> pm_name pm = si_name target ->
  Forall2 (unit_means target) (funcs_of (dd_body d)) (pm_units pm) ->
  Forall2 (ref_means container target) (refs_of (dd_body d)) (rev (pm_refs pm)) ->
  description_ok F eb (p_mem p) container target l e path d ->
  parse_metadata_from_mem junk buf = P_ok (seen_patch pm path) ->
  event_ok F eb p (EvApply busy e junk buf).
Proof.
  intros L Z0 P2 P5 P6 (E1 & E2 & E3) Y.
  pose proof (replacements_lines e target l d path pm L Z0 P2 P5) as RL.
  split; [exact E1|]. intros md Hmd. rewrite Y in Hmd. injection Hmd as <-. split.
  - intros f g Hin. destruct (Forall2_in_r _ _ _ _ RL Hin) as ((o & n) & Ho & (V & _)). eapply E2; eauto.
  - intros r pa x f Hr Ha. cbn [md_refs seen_patch] in Hr. apply in_map_iff in Hr. destruct Hr as (pr & <- & Hr).
    rewrite in_rev in Hr. destruct (Forall2_in_r _ _ _ _ P6 Hr) as (i & Hi & M). apply (E3 i); [exact Hi|].
    exists pr. split; [exact M|]. unfold ref_address in Ha. cbn [rf_poff rf_name md_so seen_ref seen_patch] in Ha.
    destruct Ha as [(Q & nm & [= <-] & ->)|Ha]; [left|right]; auto.
Qed.

(** ** C73 *)

(** C73: take a well-formed description whose files exist and agree with it. The packer
    accepts it. If the metadata and the path of the container fit, the tool can read it
    back, and whenever it then reports success on a process, with any history, calls
    of every function the description replaces go to the replacement it names, and all
    other functions are called as before. *)
Theorem C73_description_to_calls :
  forall (env : dsc_env) (id : list Z) (d : desc) (container target : so_info) (ids : list (list Z)),
    desc_ok d -> no_overrides env ->
    readable env (dd_container d) container -> readable env (dd_target d) target ->
    Forall2 (dep_means env) (dd_deps d) ids -> Forall bytes_ok ids ->
    Forall (item_exists container target) (dd_body d) ->
    so_ok container -> so_ok target -> id_ok id -> no_zero_offset target d ->
    exists pm cm, pack env id (file_of d) = D_ok (pm, cm) /\
      forall path, fits pm path ->
        exists buf, extract_ulp_from_so_to_mem (create_patch_metadata_file pm) path = P_ok (Some buf) /\
          forall (F : list Z) (eb : Z -> bool) m stale tr p l e te rax busy junk trailing p',
            functions_ok F eb m -> clean_history F eb (fresh m stale) tr p ->
            loaded_target e target l -> description_ok F eb (p_mem p) container target l e path d -> tool_sane te ->
            tool_apply_patch te rax busy e junk (buf ++ trailing) p = Some (p', 0) -> s_err (p_lib p') = 0 ->
            (forall f n, In f F -> replaced_by target l d f n ->
               calls_go (p_mem p') (eb f) f (Some (e_dlsym e (e_dlopen e path) n))) /\
            (forall f, In f F -> not_mentioned target l d f ->
               calls_go (p_mem p') (eb f) f (route (log_of tr) f)).
Proof.
  intros env id d container target ids D O Rc Rt Hd Hb Hx Sc St Hid Z0.
  destruct (C47_faithful env id d container target ids D O Rc Rt Hd Hx)
    as (pm & cm & P & P1 & P2 & P3 & P4 & P5 & P6 & P7 & P8 & P9 & P10).
  assert (K : pmeta_ok pm).
  { apply (packed_ok container target d pm ids); auto; [rewrite P1; exact Hid|eapply dep_bytes; eauto]. }
  exists pm, cm. split; [exact P|]. intros path (T1 & T2 & T3 & T4).
  destruct (C18_metadata_roundtrip pm path K T1 T2 T3 T4) as (buf & X & _ & Y).
  exists buf. split; [exact X|].
  intros F eb m stale tr p l e te rax busy junk trailing p' HF H L Dk Te A Err.
  destruct (tool_success _ _ _ _ _ _ _ _ Te A) as (p1 & A1 & A2 & Np).
  pose proof (replacements_lines e target l d path pm L Z0 P2 P5) as RL.
  assert (EO : event_ok F eb p (EvApply busy e junk (buf ++ trailing))) by (eapply packed_event; eauto).
  assert (C1 := clean_step _ _ _ _ _ _ _ _ H EO A1).
  assert (C2 := clean_step _ _ _ _ _ _ _ _ C1 (proj1 Te : event_ok F eb p1 (EvExec te)) A2).
  assert (G : forall f, In f F -> calls_go (p_mem p') (eb f) f
     (match repl_of (replacements e (seen_patch pm path)) f with Some g => Some g | None => route (log_of tr) f end)).
  { intros f Hf. pose proof (C01_calls_follow_newest_patch _ _ _ _ _ _ HF C2 Err Np f Hf) as Q.
    rewrite !log_of_snoc in Q. cbn [log_step] in Q. rewrite Z.eqb_refl, Y in Q. exact Q. }
  split.
  - intros f n Hf Hr. specialize (G f Hf). rewrite (repl_some _ _ _ _ _ _ _ _ RL Hr) in G. exact G.
  - intros f Hf Hr. specialize (G f Hf). rewrite (repl_none _ _ _ _ _ _ _ RL Hr) in G. exact G.
Qed.
Print Assumptions C73_description_to_calls.

(** ... and the variables of the container that the description binds hold the addresses of
    the objects of the target, provided that no two of them overlap. *)
Lemma ref_means_fun container target i r r' : ref_means container target i r -> ref_means container target i r' -> r = r'.
Proof.
  destruct r as [a1 a2 a3 a4 a5], r' as [b1 b2 b3 b4 b5]. destruct i; try contradiction; cbn.
  - intros (-> & -> & -> & H1 & H2) (-> & -> & -> & G1 & G2).
    rewrite (symbol_at_fun _ _ _ _ H1 G1), (symbol_at_fun _ _ _ _ H2 G2). reflexivity.
  - intros (-> & -> & -> & -> & H2) (-> & -> & -> & -> & G2). destruct (hex_value toff =? 0).
    + rewrite (symbol_at_fun _ _ _ _ H2 G2). reflexivity.
    + rewrite H2, G2. reflexivity.
Qed.

Lemma ref_means_words container target i r : ref_means container target i r -> 8 * ref_words i = if pr_tls r then 16 else 8.
Proof. destruct i; try contradiction; cbn; intros (-> & _); destruct tls; reflexivity. Qed.

Lemma variable_ref e path pm r pa : ref_address e (seen_patch pm path) (seen_ref r) pa <-> variable_at e path r pa.
Proof.
  unfold ref_address, variable_at. cbn [rf_poff rf_name md_so seen_ref seen_patch]. split; intros [H|H]; auto; left.
  - destruct H as (Q & nm & [= <-] & ->). auto.
  - destruct H as (Q & ->). split; [exact Q|]. eexists. split; reflexivity.
Qed.

Theorem C73_description_to_references :
  forall (env : dsc_env) (id : list Z) (d : desc) (container target : so_info) (ids : list (list Z)),
    desc_ok d -> no_overrides env ->
    readable env (dd_container d) container -> readable env (dd_target d) target ->
    Forall2 (dep_means env) (dd_deps d) ids -> Forall bytes_ok ids ->
    Forall (item_exists container target) (dd_body d) ->
    so_ok container -> so_ok target -> id_ok id ->
    exists pm cm, pack env id (file_of d) = D_ok (pm, cm) /\
      forall path, fits pm path ->
        exists buf, extract_ulp_from_so_to_mem (create_patch_metadata_file pm) path = P_ok (Some buf) /\
          forall (F : list Z) (eb : Z -> bool) m stale tr p l e te rax busy junk trailing p',
            functions_ok F eb m -> clean_history F eb (fresh m stale) tr p ->
            loaded_target e target l -> env_sane e -> tool_sane te ->
            tool_apply_patch te rax busy e junk (buf ++ trailing) p = Some (p', 0) -> s_err (p_lib p') = 0 ->
            forall before i after pa,
              refs_of (dd_body d) = before ++ i :: after -> reference_at container target e path i pa ->
              (forall i' pa', In i' (before ++ after) -> reference_at container target e path i' pa' ->
                 pa + 8 * ref_words i <= pa' \/ pa' + 8 * ref_words i' <= pa) ->
              reference_value container target l i (mem_read (p_mem p') pa (Z.to_nat (8 * ref_words i))).
Proof.
  intros env id d container target ids D O Rc Rt Hd Hb Hx Sc St Hid.
  destruct (C47_faithful env id d container target ids D O Rc Rt Hd Hx)
    as (pm & cm & P & P1 & P2 & P3 & P4 & P5 & P6 & P7 & P8 & P9 & P10).
  assert (K : pmeta_ok pm).
  { apply (packed_ok container target d pm ids); auto; [rewrite P1; exact Hid|eapply dep_bytes; eauto]. }
  exists pm, cm. split; [exact P|]. intros path (T1 & T2 & T3 & T4).
  destruct (C18_metadata_roundtrip pm path K T1 T2 T3 T4) as (buf & X & _ & Y).
  exists buf. split; [exact X|].
  intros F eb m stale tr p l e te rax busy junk trailing p' HF H (L & Ls) Se Te A Err before i after pa Ei Hi Hap.
  destruct (tool_success _ _ _ _ _ _ _ _ Te A) as (p1 & A1 & A2 & Np).
  assert (Err1 : s_err (p_lib p1) = 0).
  { cbn [do_event] in A2. destruct (insnq_interpret_from_process _ _ _ _) as [[[x y] z]|]; [|discriminate]. injection A2 as <- _. exact Err. }
  rewrite Ei in P6. apply Forall2_app_inv_l in P6. destruct P6 as (rb & ra & B1 & B2 & Er).
  inversion B2 as [|x r y ra' M B3]; subst x y ra. destruct Hi as (r0 & M0 & V).
  rewrite (ref_means_fun _ _ _ _ _ M0 M) in V. clear r0 M0.
  assert (Em : pm_refs pm = rev ra' ++ r :: rev rb).
  { rewrite <- (rev_involutive (pm_refs pm)), Er, rev_app_distr. cbn [rev]. rewrite <- app_assoc. reflexivity. }
  destruct (C48_references_bound F eb m stale tr p busy e junk (buf ++ trailing) (seen_patch pm path) p1 te p' l HF H Se (Y junk trailing)
    ltac:(discriminate) A1 Err1 (proj1 Te) A2) as [G _].
  { cbn [md_name seen_patch]. rewrite P2. exact L. }
  specialize (G (map seen_ref (rev ra')) (seen_ref r) (map seen_ref (rev rb)) pa).
  unfold ref_size, ref_value in G. cbn [rf_tls rf_toff seen_ref] in G.
  rewrite (ref_means_words _ _ _ _ M). exists r. split; [exact M|].
  assert (Ut : u64 (pr_toff r) = pr_toff r).
  { unfold u64. apply Z.mod_small. destruct K as (_ & _ & _ & _ & _ & _ & _ & _ & _ & K). rewrite Forall_forall in K.
    apply (K r). rewrite Em. apply in_elt. }
  rewrite Ut in G. apply G; clear G.
  - cbn [md_refs seen_patch]. rewrite Em, map_app. reflexivity.
  - apply variable_ref. exact V.
  - intros mr pa' Hin Ha. rewrite <- map_app in Hin. apply in_map_iff in Hin. destruct Hin as (r' & <- & Hin).
    apply variable_ref in Ha. cbn [rf_tls seen_ref].
    assert (Z' : exists i', In i' (before ++ after) /\ ref_means container target i' r').
    { apply in_app_or in Hin. rewrite <- !in_rev in Hin. destruct Hin as [Hin|Hin].
      - destruct (Forall2_in_r _ _ _ _ B3 Hin) as (i' & I1 & I2). exists i'. split; [apply in_or_app; auto|exact I2].
      - destruct (Forall2_in_r _ _ _ _ B1 Hin) as (i' & I1 & I2). exists i'. split; [apply in_or_app; auto|exact I2]. }
    destruct Z' as (i' & I1 & I2).
    rewrite <- (ref_means_words _ _ _ _ M), <- (ref_means_words _ _ _ _ I2). apply Hap; [exact I1|]. exists r'. auto.
Qed.
Print Assumptions C73_description_to_references.

Lemma reverse_shorter pm : zlen (write_reverse_patch pm) <= zlen (create_patch_metadata_file pm).
Proof.
  unfold write_reverse_patch, create_patch_metadata_file, put_cstr. rewrite !zlen_app, !zlen_le_enc.
  change (zlen [2]) with (zlen [1]).
  pose proof (zlen_nonneg (flat_map put_unit (pm_units pm))). pose proof (zlen_nonneg (concat (pm_deps pm))).
  pose proof (zlen_nonneg (flat_map put_ref (pm_refs pm))). change (zlen [0]) with 1. lia.
Qed.

(** The description is a patch that can be taken back: applying it and then the reverse
    patch that the tool derives from the same container leads back to the list and the
    calls before. *)
Theorem C73_and_back :
  forall (env : dsc_env) (id : list Z) (d : desc) (container target : so_info) (ids : list (list Z)),
    desc_ok d -> no_overrides env ->
    readable env (dd_container d) container -> readable env (dd_target d) target ->
    Forall2 (dep_means env) (dd_deps d) ids -> Forall bytes_ok ids ->
    Forall (item_exists container target) (dd_body d) ->
    so_ok container -> so_ok target -> id_ok id -> no_zero_offset target d ->
    exists pm cm, pack env id (file_of d) = D_ok (pm, cm) /\
      forall path, fits pm path ->
        exists buf rbuf, extract_ulp_from_so_to_mem (create_patch_metadata_file pm) path = P_ok (Some buf) /\
          extract_ulp_from_so_to_mem (write_reverse_patch pm) path = P_ok (Some rbuf) /\
          forall (F : list Z) (eb : Z -> bool) m stale tr p l e te rax busy junk trailing p1
                 e2 te2 rax2 busy2 junk2 trailing2 p2,
            functions_ok F eb m -> clean_history F eb (fresh m stale) tr p ->
            loaded_target e target l -> description_ok F eb (p_mem p) container target l e path d ->
            tool_sane te -> tool_sane te2 -> env_sane e2 ->
            tool_apply_patch te rax busy e junk (buf ++ trailing) p = Some (p1, 0) ->
            tool_apply_patch te2 rax2 busy2 e2 junk2 (rbuf ++ trailing2) p1 = Some (p2, 0) ->
            s_err (p_lib p2) = 0 ->
            s_patches (p_lib p2) = s_patches (p_lib p) /\
            forall f, In f F -> calls_go (p_mem p2) (eb f) f (route (log_of tr) f).
Proof.
  intros env id d container target ids D O Rc Rt Hd Hb Hx Sc St Hid Z0.
  destruct (C47_faithful env id d container target ids D O Rc Rt Hd Hx)
    as (pm & cm & P & P1 & P2 & P3 & P4 & P5 & P6 & P7 & P8 & P9 & P10).
  assert (K : pmeta_ok pm).
  { apply (packed_ok container target d pm ids); auto; [rewrite P1; exact Hid|eapply dep_bytes; eauto]. }
  exists pm, cm. split; [exact P|]. intros path (T1 & T2 & T3 & T4).
  destruct (C18_metadata_roundtrip pm path K T1 T2 T3 T4) as (buf & X & _ & Y).
  destruct (C20_reverse_identifies_patch pm path K T1 T2 T3) as (rbuf & X' & Y').
  { pose proof (reverse_shorter pm). eapply Z.le_lt_trans; [|exact T4]. lia. }
  exists buf, rbuf. split; [exact X|]. split; [exact X'|].
  intros F eb m stale tr p l e te rax busy junk trailing p1 e2 te2 rax2 busy2 junk2 trailing2 p2
    HF H L Dk Te Te2 Se A B Err.
  destruct (tool_success _ _ _ _ _ _ _ _ Te A) as (q1 & A1 & A2 & _).
  destruct (tool_success _ _ _ _ _ _ _ _ Te2 B) as (q2 & B1 & B2 & Np).
  pose proof (replacements_lines e target l d path pm L Z0 P2 P5) as RL.
  assert (EO : event_ok F eb p (EvApply busy e junk (buf ++ trailing))) by (eapply packed_event; eauto).
  assert (EO2 : event_ok F eb p1 (EvApply busy2 e2 junk2 (rbuf ++ trailing2))).
  { split; [exact Se|]. intros md Hmd. rewrite Y' in Hmd. injection Hmd as <-. split; [intros f g []|intros r pa x f []]. }
  eapply (C04_apply_then_revert_restores F eb m stale tr p busy e junk (buf ++ trailing) (seen_patch pm path) te 0
    busy2 e2 junk2 (rbuf ++ trailing2) (seen_reverse pm path) te2 0 q1 p1 q2 p2); auto; try discriminate; try exact (proj1 Te); exact (proj1 Te2).
Qed.
Print Assumptions C73_and_back.

(** ** A case *)

(** A patch for the function f of libfoo that also binds a variable and a thread-local variable. *)
Definition c73_target : so_info :=
  mk_so_info libfoo (repeat 2 20) [(zs "f", 256); (zs "h", 512); (zs "x", 64); (zs "t", 72)].
Definition c73_container : so_info := mk_so_info (zs "lp.so") (repeat 9 20) [(zs "g", 512); (zs "v", 1024)].
Definition c73_env : dsc_env :=
  mk_dsc_env (fun _ => true) (fun _ => false)
    (fun p => if bytes_eqb p (zs "lp.so") then Some c73_container
              else if bytes_eqb p libfoo then Some c73_target else None)
    (fun _ => None) None None (fun _ => 0).
Definition c73_desc : desc :=
  mk_desc [DComment (zs " fix")] (zs "lp.so") [] [] libfoo
    [DFunc (zs "f") (zs "g"); DRef false (zs "x") (zs "v"); DBlank;
     DRefOff true (zs "t") (zs "tv") (zs "48") (zs "410")].
Definition c73_lib : lib := nth 1 w_libs (mk_lib [] 0 0 None []).

Lemma c73_desc_ok : desc_ok c73_desc.
Proof.
  constructor.
  - split; repeat constructor; cbn; try (split; [chars|no_in]); try lia.
  - split; [split; [chars|no_in]|split; [discriminate|no_start]].
  - constructor.
  - split; constructor.
  - split; [split; [chars|no_in]|vm_compute; reflexivity].
  - cbn [c73_desc dd_body]. constructor; [|constructor; [|constructor; [|constructor; [|constructor]]]].
    + split; [name|split; [name|]]. repeat split; no_start.
    + split; [name|split; [name|]]. intros _; no_start.
    + exact I.
    + split; [name|split; [name|]]. split; [discriminate|]. split; hexs.
Qed.

Lemma bytes_repeat b n : 0 <= b < 256 -> bytes_ok (repeat b n).
Proof. intros H. unfold bytes_ok. apply Forall_forall. intros x Hx. apply repeat_spec in Hx. subst x. exact H. Qed.

Definition c73_pm : pmeta :=
  mk_pmeta (repeat 1 32) 20 (repeat 2 20) libfoo 1 [mk_munit (zs "f") (zs "g") 256] 0 []
    2 [mk_pref (zs "t") (zs "tv") 72 1040 true; mk_pref (zs "x") (zs "v") 64 1024 false].

Example C73_case :
  desc_ok c73_desc /\ no_overrides c73_env /\
  readable c73_env (dd_container c73_desc) c73_container /\ readable c73_env (dd_target c73_desc) c73_target /\
  Forall2 (dep_means c73_env) (dd_deps c73_desc) [] /\
  Forall (item_exists c73_container c73_target) (dd_body c73_desc) /\
  so_ok c73_container /\ so_ok c73_target /\ id_ok (repeat 1 32) /\ no_zero_offset c73_target c73_desc.
Proof.
  split; [exact c73_desc_ok|]. split; [split; reflexivity|]. split; [repeat split|]. split; [repeat split|].
  split; [constructor|]. split.
  { cbn [c73_desc dd_body].
    repeat (apply Forall_cons; [cbn [item_exists]; try exact I; try (split; unfold has_symbol; vm_compute; tauto)|]); [|apply Forall_nil].
    vm_compute. discriminate. }
  assert (S : forall s, s = c73_container \/ s = c73_target -> so_ok s).
  { intros s [->| ->]; (split; [apply bytes_repeat; lia|]; split; [reflexivity|]; split; [chars|]);
      intros n v H; cbn in H; repeat (destruct H as [H|H]; [injection H as _ <-; lia|]); contradiction. }
  split; [apply S; auto|]. split; [apply S; auto|].
  split. { split; [reflexivity|]. apply bytes_repeat; lia. }
  intros o n H (a & b & E & Ha). cbn in H. destruct H as [H|[]]. injection H as <- <-.
  assert (X : In (zs "f", 0) (si_syms c73_target)) by (rewrite E; apply in_elt).
  cbn in X. repeat (destruct X as [X|X]; [discriminate X|]). exact X.
Qed.

Example C73_process_case :
  pack c73_env (repeat 1 32) (file_of c73_desc) = D_ok (c73_pm, Some (zs " fix" ++ [10])) /\ fits c73_pm (w_path 1) /\
  functions_ok w_F (fun _ => false) w_mem /\ loaded_target w_env c73_target c73_lib /\
  description_ok w_F (fun _ => false) w_mem c73_container c73_target c73_lib w_env (w_path 1) c73_desc /\
  tool_sane env_ok /\ replaced_by c73_target c73_lib c73_desc w_f (zs "g") /\ not_mentioned c73_target c73_lib c73_desc w_h /\
  reference_at c73_container c73_target w_env (w_path 1) (DRef false (zs "x") (zs "v")) (1 * 65536 * 16 + 1024) /\
  match tool_apply_patch env_ok 0 false w_env 0
          (bytes_of (extract_ulp_from_so_to_mem (create_patch_metadata_file c73_pm) (w_path 1))) w_start with
  | Some (p1, r1) => r1 = 0 /\ s_err (p_lib p1) = 0 /\
      match tool_apply_patch env_ok 0 false w_env 0
              (bytes_of (extract_ulp_from_so_to_mem (write_reverse_patch c73_pm) (w_path 1))) p1 with
      | Some (p2, r2) => r2 = 0 /\ s_err (p_lib p2) = 0
      | None => False
      end
  | None => False
  end.
Proof.
  split; [vm_compute; reflexivity|].
  split. { unfold fits. split; [chars|]. split; [discriminate|]. split; vm_compute; reflexivity. }
  split; [exact w_functions|].
  split. { split; [|discriminate]. exists [nth 0 w_libs (mk_lib [] 0 0 None [])], [nth 2 w_libs (mk_lib [] 0 0 None [])].
    split; [reflexivity|]. split; [exists (zs "/lib/"), []; reflexivity|]. split; [vm_compute; discriminate|].
    intros x [<-|[]]. left. intros (pre & post & H). cbn in H. destruct pre; discriminate. }
  assert (SF : symbol_at (si_syms c73_target) (zs "f") 256).
  { exists [], [(zs "h", 512); (zs "x", 64); (zs "t", 72)]. split; [reflexivity|intros []]. }
  assert (LF : forall f, lives_at c73_target c73_lib (zs "f") f -> f = w_f).
  { intros f (v & V & ->). rewrite (symbol_at_fun _ _ _ _ V SF). reflexivity. }
  assert (SV : symbol_at (si_syms c73_container) (zs "v") 1024).
  { exists [(zs "g", 512)], []. split; [reflexivity|]. intros [X|[]]. discriminate. }
  assert (SX : symbol_at (si_syms c73_target) (zs "x") 64).
  { exists [(zs "f", 256); (zs "h", 512)], [(zs "t", 72)]. split; [reflexivity|]. intros [X|[X|[]]]; discriminate. }
  split.
  { split; [exact w_env_sane|]. split.
    - intros o n f [H|[]] Hf. injection H as <- <-. apply LF in Hf. left. left. symmetry. exact Hf.
    - intros i pa x f Hi (r & M & V) Hx Hf Hw. unfold variable_at in V.
      assert (Hpa : 1048576 + 1024 <= pa).
      { cbn [c73_desc dd_body refs_of filter] in Hi. destruct Hi as [<-|[<-|[]]]; destruct M as (_ & _ & _ & M1 & M2).
        - rewrite (symbol_at_fun _ _ _ _ M2 SV) in V. destruct V as [[V _]|[_ (base & Hb & ->)]]; [discriminate|].
          injection Hb as <-. vm_compute. discriminate.
        - rewrite M1 in V. destruct V as [[V _]|[_ (base & Hb & ->)]]; [discriminate|].
          injection Hb as <-. vm_compute. discriminate. }
      unfold in_window, body, slot, w_F, w_f, w_h, w_b in *. cbn [In] in Hf. lia. }
  split; [split; [reflexivity|discriminate]|].
  split. { exists [], (zs "f"), []. split; [reflexivity|]. split; [exists 256; split; [exact SF|reflexivity]|intros o' n' []]. }
  split. { intros o n [H|[]] Hf. injection H as <- <-. apply LF in Hf. discriminate. }
  split. { exists (mk_pref (zs "x") (zs "v") 64 1024 false). split; [repeat split; assumption|]. right. split; [discriminate|].
    eexists. split; reflexivity. }
  vm_compute. auto.
Qed.
