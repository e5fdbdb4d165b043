(** Proofs for C98. *)
From Coq Require Import String Bool Lia.
From Verif Require Import Base BaseFacts StrModel InsnQModel LibModel MetaModel DlModel LibSpec SymProofs PtModel PtSpec PtProofs
  NtModel NtSpec NtProofs TextModel TextSpec TextProofs PcModel PcSpec PcProofs IntrModel IntrSpec IntrProofs Intr2Proofs Intr3Proofs Intr4Proofs
  MapSpec TrModel SeeModel SeeSpec.

(** ** Lines *)
Lemma getlines_line s rest : ~ In 10 s -> getlines (s ++ 10 :: rest) = (s ++ [10]) :: getlines rest.
Proof.
  induction s as [|c t IH]; intros N; cbn [app getlines].
  - reflexivity.
  - destruct (Z.eqb_spec c 10) as [->|_]; [exfalso; apply N; left; reflexivity|].
    rewrite IH by (intros H; apply N; right; exact H). reflexivity.
Qed.

(** A line up to its path has no l and no newline. *)
Definition front (m : mline) : list Z :=
  ml_start m ++ 45 :: ml_end m ++ 32 :: ml_perm m ++ 32 :: ml_off m ++ 32 :: ml_dev m ++ 32 :: ml_inode m ++
  32 :: repeat 32 (ml_pad m).
Lemma front_text m : mline_text m = front m ++ ml_path m ++ [10].
Proof. unfold mline_text, front. repeat (rewrite <- ?app_assoc; cbn [app]). reflexivity. Qed.
Lemma front_clean m : kernel_line m -> forall c, In c (front m) -> c <> 108 /\ c <> 10.
Proof.
  intros ((_ & A & _) & (_ & B & _) & C & D & E & F & _) c I. rewrite Forall_forall in A, B, C, D, E, F. unfold front in I.
  unfold hexdigit in *.
  assert (P : forall x, In x (zs "rwxps-") -> x <> 108 /\ x <> 10).
  { intros x H. vm_compute in H. lia. }
  repeat (rewrite in_app_iff in I || (cbn [In] in I)).
  assert (R : In c (repeat 32 (ml_pad m)) -> c = 32) by (apply repeat_spec).
  repeat match type of I with _ \/ _ => destruct I as [I|I] end;
    try (apply A in I); try (apply B in I); try (apply P, C, I); try (apply D in I); try (apply E in I); try (apply F in I);
    try (apply R in I); lia.
Qed.

Lemma occurs_late (f x : list Z) c n : ~ In c f -> substring (c :: n) (f ++ x) -> substring (c :: n) x.
Proof.
  induction f as [|a f IH]; intros N (pre & post & H); cbn [app] in H.
  - exists pre, post. exact H.
  - destruct pre as [|b pre]; cbn [app] in H.
    + injection H as Ha _. exfalso. apply N. left. exact Ha.
    + injection H as _ H. apply IH; [intros I; apply N; right; exact I|]. exists pre, post. exact H.
Qed.
Lemma occurs_early (n : list Z) : forall x d, n <> [] -> ~ In d n -> substring n (x ++ [d]) -> substring n x.
Proof.
  intros x d N D (pre & post & H).
  destruct post as [|p post] using rev_ind.
  - rewrite app_nil_r in H. exfalso. destruct n as [|a n] using rev_ind; [contradiction|].
    rewrite app_assoc in H. apply app_inj_tail in H. destruct H as [_ H]. apply D. apply in_or_app. right. left. symmetry. exact H.
  - clear IHpost. rewrite !app_assoc in H. apply app_inj_tail in H. destruct H as [H _]. rewrite <- app_assoc in H.
    exists pre, post. exact H.
Qed.
Lemma line_shows m : kernel_line m -> (strstr (mline_text m) (zs "libpulp.so") = true <-> substring (zs "libpulp.so") (ml_path m)).
Proof.
  intros K. rewrite strstr_iff, front_text. split.
  - intros H. change (zs "libpulp.so") with (108 :: zs "ibpulp.so") in *. apply occurs_late in H.
    + apply occurs_early in H; [exact H|discriminate|]. intros I. vm_compute in I. lia.
    + intros I. apply (front_clean m K) in I. lia.
  - intros (pre & post & ->). exists (front m ++ pre), (post ++ [10]). rewrite <- !app_assoc. reflexivity.
Qed.
Lemma lines_of_maps ms : Forall kernel_line ms -> getlines (maps_text ms) = map mline_text ms.
Proof.
  induction 1 as [|m ms K Ks IH]; cbn [maps_text flat_map map]; [reflexivity|].
  rewrite front_text, <- !app_assoc. cbn [app].
  rewrite app_assoc, getlines_line; [unfold maps_text in IH; rewrite IH, <- app_assoc; reflexivity|].
  intros I. apply in_app_or in I. destruct I as [I|I]; [apply (front_clean m K) in I; lia|]. apply K in I. exact I.
Qed.
Lemma maps_iff ms : Forall kernel_line ms -> (libpulp_loaded_maps (maps_text ms) = true <-> maps_libpulp ms).
Proof.
  intros K. unfold libpulp_loaded_maps. rewrite lines_of_maps by exact K. rewrite existsb_exists. rewrite Forall_forall in K. split.
  - intros (x & I & S). apply in_map_iff in I. destruct I as (m & <- & I). exists m. split; [exact I|]. apply line_shows; auto.
  - intros (m & I & S). exists (mline_text m). split; [apply in_map; exact I|]. apply line_shows; auto.
Qed.

(** ** The loop *)
Lemma inserted_iff p : inserted p = true <-> readable p.
Proof.
  unfold inserted, readable. destruct (initialize_data_structures _ _ _) as [q| | |]; split; intros H; try discriminate; eauto;
    destruct H as [q' H]; discriminate.
Qed.
Lemma inserted_false p : inserted p = false <-> ~ readable p.
Proof. rewrite <- inserted_iff. destruct (inserted p); split; intros; congruence. Qed.

(** The values handed over, without the end marker. *)
Fixpoint handed (last : Z) (l : list aproc) : list Z :=
  match l with
  | [] => []
  | p :: t => let last' := if inserted p then pid p else last in last' :: handed last' t
  end.
Lemma discover_handed w wc us l : forall last,
  discover w wc us last (map entry_of l) = handed last (chosen w wc us l) ++ [0].
Proof.
  induction l as [|p t IH]; intros last; cbn [map discover chosen filter]; [reflexivity|].
  destruct (pe_skipped w wc us (entry_of p)); cbn [negb]; [apply IH|]. cbn [entry_of pe_init pe_name handed app]. cbv zeta.
  fold (pid p). f_equal. apply IH.
Qed.
Lemma until_app a b : ~ In 0 a -> until_zero (a ++ 0 :: b) = a.
Proof.
  induction a as [|x t IH]; intros N; cbn [app until_zero]; [reflexivity|].
  destruct (Z.eqb_spec x 0) as [->|_]; [exfalso; apply N; left; reflexivity|]. f_equal. apply IH. intros I. apply N. right. exact I.
Qed.
Lemma handed_zero l : forall last, last <> 0 -> (forall p, In p l -> pid p <> 0) -> ~ In 0 (handed last l).
Proof.
  induction l as [|p t IH]; intros last L H; cbn [handed In]; [tauto|]. cbv zeta.
  assert (X : (if inserted p then pid p else last) <> 0) by (destruct (inserted p); [apply H; left; reflexivity|exact L]).
  intros [E|I]; [congruence|]. revert I. apply IH; [exact X|]. intros q Q. apply H. right. exact Q.
Qed.
Lemma handed_length l : forall last, List.length (handed last l) = List.length l.
Proof. induction l as [|p t IH]; intros last; cbn [handed List.length]; [reflexivity|]. cbv zeta. rewrite IH. reflexivity. Qed.

Lemma visited_first w wc us l p t : chosen w wc us l = p :: t -> (forall q, In q (p :: t) -> pid q <> 0) -> readable p ->
  visited w wc us l = handed 0 (p :: t).
Proof.
  intros E H R. unfold visited. rewrite serial_until_zero, discover_handed, E. apply until_app.
  apply inserted_iff in R. cbn [handed In]. cbv zeta. rewrite R. intros [Z0|I].
  - exact (H p (or_introl eq_refl) Z0).
  - revert I. apply handed_zero; [apply H; left; reflexivity|]. intros q Q. apply H. right. exact Q.
Qed.
Lemma visited_none w wc us l : (chosen w wc us l = [] \/ exists p t, chosen w wc us l = p :: t /\ ~ readable p) -> visited w wc us l = [].
Proof.
  intros H. unfold visited. rewrite serial_until_zero, discover_handed. destruct H as [->|(p & t & -> & R)]; [reflexivity|].
  apply inserted_false in R. cbn [handed app]. cbv zeta. rewrite R. reflexivity.
Qed.

Lemma handed_nth l : forall last k x, nth_error (handed last l) k = Some x ->
  last_readable l k x \/ (x = last /\ forall j q, (j <= k)%nat -> nth_error l j = Some q -> ~ readable q).
Proof.
  induction l as [|p t IH]; intros last k x H; [destruct k; discriminate|]. cbn [handed] in H. cbv zeta in H.
  destruct (inserted p) eqn:I.
  - apply inserted_iff in I. left. destruct k as [|k]; cbn [nth_error] in H.
    + injection H as H. exists 0%nat, p. repeat split; auto. intros j q J. lia.
    + destruct (IH _ _ _ H) as [(i & q & A & B & C & D & E)|[-> E]].
      * exists (S i), q. split; [lia|]. split; [exact B|]. split; [exact C|]. split; [exact D|].
        intros j r J N. destruct j as [|j]; [lia|]. apply (E j r); [lia|exact N].
      * exists 0%nat, p. split; [lia|]. split; [reflexivity|]. split; [exact I|]. split; [reflexivity|].
        intros j r J N. destruct j as [|j]; [lia|]. apply (E j r); [lia|exact N].
  - apply inserted_false in I. destruct k as [|k]; cbn [nth_error] in H.
    + injection H as H. right. split; [congruence|]. intros j q J N. assert (j = 0%nat) by lia. subst j. injection N as N. subst q. exact I.
    + destruct (IH _ _ _ H) as [(i & q & A & B & C & D & E)|[-> E]].
      * left. exists (S i), q. split; [lia|]. split; [exact B|]. split; [exact C|]. split; [exact D|].
        intros j r J N. destruct j as [|j]; [lia|]. apply (E j r); [lia|exact N].
      * right. split; [reflexivity|]. intros j r J N. destruct j as [|j]; [injection N as N; subst; exact I|]. apply (E j r); [lia|exact N].
Qed.
Lemma handed_has l : forall last p, In p l -> readable p -> In (pid p) (handed last l).
Proof.
  induction l as [|q t IH]; intros last p I R; [destruct I|]. cbn [handed]. cbv zeta. destruct I as [->|I].
  - apply inserted_iff in R. rewrite R. left. reflexivity.
  - right. apply IH; assumption.
Qed.

(** ** A process without libpulp *)
Lemma parse_libs_none t maps main a c : target_ok t -> chain_at t a c -> (List.length c < t_fuel t)%nat ->
  Forall (fun o => strstr (od_name o) (zs "libpulp.so") = false) c -> parse_libs_dynobj t maps main a = I_err ENOLIBPULP.
Proof.
  intros T CH FU NL. unfold parse_libs_dynobj. destruct (walk_spec t T _ _ (t_fuel t) CH FU) as (ws & -> & F2). cbn [ibind].
  pose proof (fresh_names _ _ F2 NL) as N. apply Forall_rev in N.
  assert (X : find_index is_libpulp (rev ws) = None).
  { clear - N. induction N as [|w l E N IH]; cbn [find_index]; [reflexivity|]. rewrite E, IH. reflexivity. }
  rewrite X. reflexivity.
Qed.
Lemma init_none t pf main c :
  target_ok t -> process_at t (pf_auxv pf) main c ->
  od_name main = upto_newline (get_basename (pf_comm pf)) -> od_addr main <> 0 ->
  elf_at t (od_addr main) (od_sym main) (od_str main) (od_n main) (od_id main) ->
  Forall (fun o => strstr (od_name o) (zs "libpulp.so") = false) c ->
  initialize_data_structures t pf true = I_err ENOLIBPULP.
Proof.
  intros T (entry & at_phdr & phs & v & d & r_debug & lm & bias & dispv & namep & ld & next & prev &
            ND & I9 & I3 & I4 & I5 & EN & AP & PL & PH & ON & DI & DY & FD & NDD & I21 & LM & HR & MA & NP & NX & HL & CH & FC)
         NM NB EA NL.
  unfold initialize_data_structures. cbn [negb].
  assert (DB : exists b, dig_load_bias t (pf_auxv pf) = I_ok (b, u64 (v + bias))).
  { unfold dig_load_bias, AT_ENTRY, AT_PHDR, AT_PHNUM, AT_PHENT.
    rewrite (aux_in _ 9 entry 0 ND I9), (aux_in _ 3 at_phdr 0 ND I3), (aux_in _ 5 (zlen phs) 0 ND I5), (aux_in _ 4 56 0 ND I4).
    destruct (Z.eqb_spec entry 0); [contradiction|]. destruct (Z.eqb_spec at_phdr 0); [lia|].
    change (s32 56 =? 56) with true. cbn [negb]. rewrite s32_small by (pose proof (zlen_nonneg phs); lia).
    replace (Z.to_nat (zlen phs)) with (List.length phs) by (unfold zlen; lia).
    rewrite bias_loop_spec by (replace (at_phdr + 0 * 56) with at_phdr by lia; exact PH). cbn [ibind].
    rewrite (fold_only 2 phs v 0 ON). destruct DI as [(OD & DN & ->)|(NO & ->)].
    - rewrite (fold_only 6 phs dispv 0 OD). destruct (Z.eqb_spec dispv 0); [contradiction|]. eexists. reflexivity.
    - rewrite (fold_none 6 phs 0 NO). cbn [Z.eqb]. exists 0. rewrite Z.add_0_r. do 2 f_equal.
      destruct ON as (p1 & q & p2 & -> & _ & <- & _). clear - PH.
      assert (X : forall l a, phdrs_at t a l -> Forall phdr_ok l).
      { induction 1; constructor; assumption. }
      apply X in PH. apply Forall_app in PH. destruct PH as [_ PH]. inversion PH as [|? ? (_ & O & _) _]; subst.
      symmetry. apply u64_id. exact O. }
  destruct DB as (b & ->). cbn [ibind snd]. unfold dig_main_link_map.
  rewrite (find_r_debug_spec t d (v + bias) (t_fuel t) r_debug DY NDD I21 FD). cbn [ibind].
  rewrite (trd_holds t _ _ 8 HR) by apply le_enc_length. rewrite le_dec_enc_id by exact LM.
  destruct (lm_fields t lm _ namep ld next prev MA ltac:(lia) NX HL) as (lmb & E1 & E2 & E3 & E4).
  rewrite E1. cbn [ibind]. rewrite E2, E3, E4.
  unfold parse_ignoring at 1. rewrite <- NM.
  rewrite (parse_spec t (pf_maps pf) (od_name main) (od_name main) namep _ _ _ _ _ no_ext ltac:(lia) NB EA). cbn [ibind].
  rewrite (parse_libs_none t (pf_maps pf) (od_name main) next c T CH FC NL). reflexivity.
Qed.

(** ** The conditions *)
Lemma owner_iff w us o : (forall u v, us = Some u -> decimal u v -> v < 2 ^ 32) ->
  (match us with
   | Some upat =>
       if target_uid us >? 0 then negb (o =? target_uid us)
       else if o >? 0 then
         match pw_getpwuid w o with
         | Some name => negb (pw_fnmatch w upat name)
         | None => false
         end
       else false
   | None => false
   end = false <-> owner_passes w us o).
Proof.
  intros B. destruct us as [u|]; [|split; [intros _ u H; discriminate|reflexivity]].
  unfold owner_passes. assert (Q : forall P : list Z -> Prop, (forall u', Some u = Some u' -> P u') <-> P u).
  { intros P. split; [intros H; apply H; reflexivity|]. intros H u' E. apply Some_inj in E. subst. exact H. }
  rewrite Q. unfold target_uid. destruct (isnumber (Some u)) eqn:N.
  - pose proof N as N'. apply isnumber_decimal in N'. destruct N' as [v D]. pose proof (B u v eq_refl D) as L.
    destruct (decimal_digits _ _ D) as (_ & _ & -> & P). rewrite Z.min_l by lia.
    assert (U : u32 v = v) by (apply Z.mod_small; lia). rewrite U. destruct (Z.gtb_spec v 0) as [G|G].
    + destruct (Z.eqb_spec o v) as [E|E]; cbn [negb].
      * split; [|reflexivity]. intros _. left. exists v. repeat split; [exact D|lia|exact E].
      * split; [discriminate|]. intros [(v' & D' & _ & O)|(X & _)]; exfalso.
        -- rewrite (decimal_fun _ _ _ D' D) in O. contradiction.
        -- apply X. exists v. split; [exact D|lia].
    + assert (X : ~ exists v', decimal u v' /\ 1 <= v').
      { intros (v' & D' & L'). rewrite (decimal_fun _ _ _ D' D) in L'. lia. }
      destruct (Z.gtb_spec o 0) as [G'|G'].
      * destruct (pw_getpwuid w o) as [name|] eqn:PW.
        -- destruct (pw_fnmatch w u name) eqn:F; cbn [negb]; split; intros H; try discriminate H; try reflexivity.
           ++ right. split; [exact X|]. right. right. eauto.
           ++ exfalso. destruct H as [(v' & D' & L' & _)|(_ & [O|[O|(nm & O & F')]])]; [apply X; eauto|lia|discriminate O|congruence].
        -- split; [|reflexivity]. intros _. right. split; [exact X|]. auto.
      * split; [|reflexivity]. intros _. right. split; [exact X|]. left. lia.
  - assert (X : ~ exists v, decimal u v).
    { intros H. apply isnumber_decimal in H. congruence. }
    assert (X' : ~ exists v', decimal u v' /\ 1 <= v') by (intros (v' & D' & _); apply X; eauto).
    cbn [Z.gtb Z.compare]. destruct (Z.gtb_spec o 0) as [G'|G'].
    + destruct (pw_getpwuid w o) as [name|] eqn:PW.
      * destruct (pw_fnmatch w u name) eqn:F; cbn [negb]; split; intros H; try discriminate H; try reflexivity.
        -- right. split; [exact X'|]. right. right. eauto.
        -- exfalso. destruct H as [(v' & D' & L' & _)|(_ & [O|[O|(nm & O & F')]])]; [apply X; eauto|lia|discriminate O|congruence].
      * split; [|reflexivity]. intros _. right. split; [exact X'|]. auto.
    + split; [|reflexivity]. intros _. right. split; [exact X'|]. left. lia.
Qed.
Lemma atoi_pid s v : decimal s v -> v < 2 ^ 31 -> atoi s = v.
Proof.
  intros D L. destruct (decimal_digits _ _ D) as (_ & _ & V & P). unfold atoi. rewrite V, Z.min_l by lia.
  unfold s32, u32. rewrite Z.mod_small by lia. destruct (Z.ltb_spec v (2 ^ 31)); lia.
Qed.
Lemma skipped_iff w wc us p ms :
  Forall kernel_line ms -> pv_maps p = Some (maps_text ms) -> (forall v, decimal (pv_name p) v -> v < 2 ^ 31) ->
  (forall u v, us = Some u -> decimal u v -> v < 2 ^ 32) ->
  (pe_skipped w wc us (entry_of p) = false <-> asked_for w wc us p ms).
Proof.
  intros K M PI B. unfold pe_skipped, asked_for. cbn [entry_of pe_name pe_comm pe_owner pe_libpulp].
  destruct (isnumber (Some (pv_name p))) eqn:N; cbn [negb].
  2: { split; [discriminate|]. intros ((v & D & _) & _). exfalso. assert (X : isnumber (Some (pv_name p)) = true) by (apply isnumber_decimal; eauto). congruence. }
  apply isnumber_decimal in N. destruct N as [v D]. rewrite (atoi_pid _ _ D (PI v D)).
  destruct (match wc with Some pat => negb (pw_fnmatch w pat (pv_comm p)) | None => false end) eqn:W.
  { split; [discriminate|]. intros (_ & X & _). destruct wc as [pat|]; [|discriminate].
    rewrite (X pat eq_refl) in W. discriminate. }
  assert (W' : forall pat, wc = Some pat -> pw_fnmatch w pat (pv_comm p) = true).
  { intros pat ->. destruct (pw_fnmatch w pat (pv_comm p)); [reflexivity|discriminate]. }
  pose proof (owner_iff w us (pv_owner p) B) as U.
  match goal with |- context [if ?b then true else _] => destruct b eqn:UB end.
  { split; [discriminate|]. intros (_ & _ & X & _). apply U in X. congruence. }
  apply proj1 in U. specialize (U eq_refl). rewrite M. cbn [has_libpulp_loaded].
  pose proof (maps_iff ms K) as MI. destruct (Z.eqb_spec v (pw_self w)) as [E|E].
  { split; [discriminate|]. intros ((v' & D' & X) & _). exfalso. apply X. rewrite (decimal_fun _ _ _ D' D). exact E. }
  destruct (libpulp_loaded_maps (maps_text ms)); cbn [negb].
  - split; [|reflexivity]. intros _. split; [eauto|]. split; [exact W'|]. split; [exact U|]. apply MI. reflexivity.
  - split; [discriminate|]. intros (_ & _ & _ & X). apply MI in X. discriminate X.
Qed.
