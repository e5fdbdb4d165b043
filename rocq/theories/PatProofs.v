From Coq Require Import String.
From Verif Require Import Base BaseFacts StrModel InsnQModel LibModel MetaModel TextModel PtModel PcModel PcSpec PcProofs NtModel NtSpec NtProofs
  IntrModel IntrSpec IntrProofs Intr3Proofs PostModel X86Spec LogModel LogSpec LogProofs PatModel PatSpec.
From Coq Require Import Lia.

Lemma unlines_app a b : unlines (a ++ b) = unlines a ++ unlines b.
Proof. apply flat_map_app. Qed.
Lemma unlines_one a : unlines [a] = a ++ [10].
Proof. unfold unlines. cbn [flat_map]. apply app_nil_r. Qed.
Lemma unlines_cons a l : unlines (a :: l) = a ++ [10] ++ unlines l.
Proof. unfold unlines. cbn [flat_map]. rewrite <- app_assoc. reflexivity. Qed.
Lemma unlines_flat {A} (f : A -> list (list Z)) l : unlines (flat_map f l) = flat_map (fun x => unlines (f x)) l.
Proof. induction l as [|x l IH]; [reflexivity|]. cbn [flat_map]. rewrite unlines_app, IH. reflexivity. Qed.

Lemma patch_text_lines ce date version labels q : keeps_time version = true -> lp_time q <> 0 ->
  ce_asctime ce (lp_time q) = Some (date (lp_time q) ++ [10]) ->
  patch_text ce (show_patch version labels q) = unlines (patch_lines date labels q).
Proof.
  intros K T D. unfold patch_text, show_patch, patch_lines. cbn [sp_name sp_time sp_labels]. rewrite K.
  destruct (Z.eqb_spec (lp_time q) 0) as [E|_]; [contradiction|]. cbn [andb negb]. rewrite D, unlines_cons, <- !app_assoc.
  unfold labels_text. destruct (labels (lp_container q)) as [|x ls]; [reflexivity|].
  rewrite unlines_one, <- !app_assoc. reflexivity.
Qed.

Lemma flat_map_map {A B C} (f : B -> list C) (g : A -> B) l : flat_map f (map g l) = flat_map (fun x => f (g x)) l.
Proof. induction l as [|x l IH]; [reflexivity|]. cbn [map flat_map]. rewrite IH. reflexivity. Qed.
Lemma flat_map_eq {A B} (f g : A -> list B) l : (forall x, In x l -> f x = g x) -> flat_map f l = flat_map g l.
Proof.
  induction l as [|x l IH]; intros H; [reflexivity|]. cbn [flat_map]. rewrite H by (left; reflexivity).
  rewrite IH by (intros; apply H; right; assumption). reflexivity.
Qed.

Lemma values_read t : forall vals a, symbols_at t a vals -> symbol_values (List.length vals) t a = map Some vals.
Proof.
  induction vals as [|v vals IH]; intros a H; [reflexivity|]. cbn [symbols_at] in H. destruct H as [(V & pre & post & L1 & L2 & H) R].
  cbn [List.length symbol_values map].
  rewrite (trd_holds t a _ 24 H) by (rewrite !app_length, le_enc_length, L1, L2; reflexivity).
  rewrite (IntrProofs.fld_at pre post v 8 8 L1) by exact V. rewrite (IH _ R). reflexivity.
Qed.

Lemma can_read2_ok t a : t_ok t a = true -> t_ok t (a + 1) = true -> can_read2 t a = true.
Proof. intros A B. unfold can_read2, trd, NtModel.rd. cbn [vm_span]. rewrite A, B. reflexivity. Qed.

Lemma loop_answer readable m base : forall vals r,
  (forall x, In x vals -> readable (u64 (base + x)) = true) -> (r = Some false \/ r = None /\ vals <> []) ->
  exists b, livepatchable_loop readable m base (map Some vals) r = Some b /\
            (b = true <-> exists x, In x vals /\ nops_at m (u64 (base + x))).
Proof.
  induction vals as [|v vals IH]; intros r R H.
  - destruct H as [-> |[_ N]]; [|contradiction N; reflexivity]. exists false. split; [reflexivity|].
    split; [discriminate|intros (x & [] & _)].
  - cbn [map livepatchable_loop]. unfold check_preamble. rewrite (R v) by (left; reflexivity). cbn [andb].
    destruct (((m (u64 (base + v)) =? 144) || (m (u64 (base + v)) =? 102)) && (m (u64 (base + v) + 1) =? 144)) eqn:E.
    + exists true. split; [reflexivity|]. split; [|reflexivity]. intros _. exists v. split; [left; reflexivity|].
      unfold nops_at. lia.
    + destruct (IH (Some false)) as (b & -> & B); [intros x X; apply R; right; exact X|left; reflexivity|].
      exists b. split; [reflexivity|]. rewrite B. split; intros (x & X & N); exists x.
      * split; [right; exact X|exact N].
      * destruct X as [<-|X]; [|split; assumption]. exfalso. unfold nops_at in N. lia.
Qed.

Lemma lib_judged v patchable version l o : existsb (for_lib (o_filename o)) l = true \/ judged v patchable o ->
  library_livepatchable v (map (as_read version) l) o = I_ok (existsb (for_lib (o_filename o)) l || patchable o).
Proof.
  intros H. unfold library_livepatchable. rewrite has_loaded. cbn [ibind].
  destruct (existsb (for_lib (o_filename o)) l); [reflexivity|].
  destruct H as [H|(A & D & LA & vals & SV & LN & NR & RD & P)]; [discriminate|].
  rewrite A, D. cbn [negb orb]. unfold get_ehdr_addr. destruct (Z.eqb_spec (o_l_addr o) 0) as [E|_]; [contradiction|]. cbn [negb ibind].
  rewrite Z.min_l by lia. rewrite <- LN. unfold zlen. rewrite Nat2Z.id, (values_read _ _ _ SV).
  unfold is_library_livepatchable. cbn [negb].
  rewrite firstn_all2 by (rewrite map_length; unfold zlen in LN; lia).
  destruct (loop_answer (can_read2 (v_t v)) (t_mem (v_t v)) (o_l_addr o) vals None) as (b & -> & B).
  - intros x X. apply can_read2_ok; apply RD; exact X.
  - right. split; [reflexivity|]. intros ->. cbn in LN. lia.
  - destruct b, (patchable o); try reflexivity; exfalso.
    + assert (false = true) by (apply P, B; reflexivity). discriminate.
    + assert (false = true) by (apply B, P; reflexivity). discriminate.
Qed.

Section Text.
  Variables (ce : cenv) (date : Z -> list Z) (version : Z) (labels : list Z -> list (list Z)).
  Variables (comments : list Z -> option (list Z)) (patchable : dynobj -> bool) (buildid : bool) (v : pview) (l : list lpatch).
  Hypothesis KT : keeps_time version = true.
  Hypothesis DT : forall q, In q l -> lp_time q <> 0 /\ ce_asctime ce (lp_time q) = Some (date (lp_time q) ++ [10]).
  Hypothesis LB : forall q, In q l -> relevant_labels (comments (lp_container q)) = I_ok (labels (lp_container q)).

  Lemma objects_lines : forall objs,
    (forall o, In o objs -> existsb (for_lib (o_filename o)) l = true \/ judged v patchable o) ->
    objects_text ce comments buildid v (map (as_read version) l) objs =
    I_ok (unlines (flat_map (object_lines date labels buildid l)
                     (filter (fun o => existsb (for_lib (o_filename o)) l || patchable o) objs))).
  Proof.
    induction objs as [|o objs IH]; intros J; [reflexivity|]. cbn [objects_text filter].
    rewrite (lib_judged v patchable version l o) by (apply J; left; reflexivity). cbn [ibind].
    assert (J' : forall o, In o objs -> existsb (for_lib (o_filename o)) l = true \/ judged v patchable o)
      by (intros o' I'; apply J; right; exact I').
    destruct (existsb (for_lib (o_filename o)) l || patchable o); [|exact (IH J')].
    rewrite (print_lib version comments labels l (o_filename o) LB). cbn [ibind]. rewrite (IH J'). cbn [ibind flat_map].
    rewrite unlines_app. unfold object_lines at 2. rewrite unlines_cons, (unlines_flat (patch_lines date labels)).
    assert (E : flat_map (patch_text ce) (map (show_patch version labels) (filter (for_lib (o_filename o)) l)) =
                flat_map (fun x => unlines (patch_lines date labels x)) (filter (for_lib (o_filename o)) l)).
    { rewrite flat_map_map. apply flat_map_eq. intros q Q. apply filter_In in Q. destruct (DT q (proj1 Q)).
      apply patch_text_lines; assumption. }
    rewrite E, <- !app_assoc. reflexivity.
  Qed.
End Text.

Lemma status_lines ce no_color e :
  status_text ce no_color e =
  zs "  Livepatching status: " ++ fst (paint no_color e) ++ status_words (ce_strerror ce) e ++ [10] ++ snd (paint no_color e).
Proof.
  unfold status_text, remote_status, status_words, paint, change_color.
  change IntrModel.EOLDLIBPULP with InsnQModel.EOLDLIBPULP.
  destruct ((e =? 0) || (e =? InsnQModel.EOLDLIBPULP)); [destruct no_color; rewrite <- ?app_assoc; reflexivity|].
  destruct (e =? EUSRBLOCKED); destruct no_color; cbn [fst snd]; rewrite <- ?app_assoc; reflexivity.
Qed.

Lemma report_text ce sy op txt : forall pids,
  (forall pid, In pid pids ->
    (exists v, sy_view sy pid = inl v /\ process_text ce (sy_comments sy) op v = I_ok (txt pid)) \/
    (exists e, sy_view sy pid = inr e /\ txt pid = [])) ->
  report ce sy op pids = I_ok (flat_map txt pids).
Proof.
  induction pids as [|pid pids IH]; intros H; [reflexivity|]. cbn [report flat_map].
  destruct (H pid (or_introl eq_refl)) as [(v & -> & ->)|(e & -> & ->)]; cbn [ibind app];
  (rewrite IH by (intros; apply H; right; assumption)); reflexivity.
Qed.
