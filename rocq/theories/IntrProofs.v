From Coq Require Import String.
From Verif Require Import Base BaseFacts StrModel InsnQModel LibModel MetaModel DlModel PtModel PtSpec PtProofs
  NtModel NtSpec NtProofs TextModel IntrModel IntrSpec.

Lemma cstr_z_app s rest : cstr_ok s -> cstr_z (s ++ 0 :: rest) = s.
Proof.
  intros C. induction C as [|x s X C IH]; [reflexivity|]. cbn [app cstr_z].
  unfold is_cchar in X. destruct (Z.eqb_spec x 0); [lia|]. rewrite IH. reflexivity.
Qed.

Lemma buffer_cstr buf s : buffer_is buf s -> cstr_z buf = s.
Proof. intros (C & rest & ->). apply cstr_z_app. exact C. Qed.

Lemma heap_any t a s : target_ok t -> heap_string t a s -> any_string t a s.
Proof.
  intros (_ & _ & PG) (S1 & A & AL & W & AC). split; [exact S1|]. split; [exact A|]. split; [exact W|].
  intros x X. pose proof (zlen_nonneg s).
  pose proof (Z.div_mod (zlen s) 8 ltac:(lia)). pose proof (Z.mod_pos_bound (zlen s) 8 ltac:(lia)).
  destruct (Z.lt_ge_cases x (a + (zlen s + 1))) as [L|L]; [apply AC; lia|].
  rewrite (PG x (a + zlen s)); [apply AC; lia|].
  pose proof (Z.div_mod a 8 ltac:(lia)).
  assert (E : x / 8 = (a + zlen s) / 8).
  { replace x with (8 * (a / 8 + zlen s / 8) + (x - a - 8 * (zlen s / 8))) by lia.
    replace (a + zlen s) with (8 * (a / 8 + zlen s / 8) + zlen s mod 8) by lia.
    rewrite !(Z.mul_comm 8 (a / 8 + _)), !Z.div_add_l by lia.
    f_equal. rewrite (Z.div_small (x - a - 8 * (zlen s / 8)) 8), (Z.div_small (zlen s mod 8) 8) by lia. reflexivity. }
  replace 4096 with (8 * 512) by reflexivity. rewrite <- !Z.div_div by lia. rewrite E. reflexivity.
Qed.

Lemma tstr_any t a s : target_ok t -> any_string t a s -> (List.length s / 8 < t_fuel t)%nat ->
  exists buf, tstr t a = RsOk buf /\ cstr_z buf = s.
Proof.
  intros (BM & JL & _) (S1 & A & W & AC) F.
  destruct (rs_loop_spec (List.length s / 8) (t_fuel t) (t_fuel t) (t_ok t) (t_mem t) (t_junk t) a [] 8 s) as (rest & E);
    try assumption; try reflexivity; try (cbn; lia).
  eexists. split; [exact E|]. apply buffer_cstr. split; [apply S1|]. exists rest. reflexivity.
Qed.

Lemma read_name_heap t a s : target_ok t -> heap_string t a s -> (List.length s / 8 < t_fuel t)%nat ->
  read_name t a = I_ok (R_str s).
Proof.
  intros T H F. unfold read_name. destruct (Z.eqb_spec a 0) as [E|E]; [destruct H as (_ & A & _); lia|].
  destruct (tstr_any t a s T (heap_any _ _ _ T H) F) as (buf & -> & ->). reflexivity.
Qed.

Lemma fld_at l1 l2 v off n : List.length l1 = off -> 0 <= v < 2 ^ (8 * Z.of_nat n) ->
  fld (l1 ++ le_enc n v ++ l2) off n = v.
Proof.
  intros <- V. unfold fld. rewrite skipn_app_exact.
  rewrite <- (le_enc_length n v) at 1. rewrite firstn_app_exact. apply le_dec_enc_id. exact V.
Qed.

Lemma version_test v : (v <? ULP_VERSION_TRIPLET 0 3 1) = negb (keeps_time v).
Proof. unfold keeps_time. destruct (Z.ltb_spec v (ULP_VERSION_TRIPLET 0 3 1)), (Z.leb_spec (ULP_VERSION_TRIPLET 0 3 1) v); lia || reflexivity. Qed.

(** How the tool's copy of a patch relates to libpulp's. *)
Definition as_read (version : Z) (p : lpatch) : apatch :=
  mk_apatch (lp_id p) (R_str (lp_lib p)) (R_str (lp_container p)) (if keeps_time version then lp_time p else 0).

Lemma read_list t version : target_ok t -> forall l a f,
  plist_at t version a l -> (List.length l < f)%nat ->
  Forall (fun p => (List.length (lp_lib p) / 8 < t_fuel t)%nat /\ (List.length (lp_container p) / 8 < t_fuel t)%nat) l ->
  read_ulp_applied_patch f t a version = I_ok (map (as_read version) l).
Proof.
  intros T. induction l as [|p l IH]; intros a f P F FS; (destruct f as [|f]; [cbn in F; lia|]).
  - inversion P; subst. reflexivity.
  - inversion P as [|a0 p0 l0 libp contp units next deps A PO N LP CP HL HC HO PL]; subst.
    inversion FS as [|? ? [F1 F2] FS']; subst.
    cbn [read_ulp_applied_patch]. destruct (Z.eqb_spec a 0) as [E|_]; [contradiction|].
    rewrite version_test.
    assert (LP0 : 0 <= libp) by (destruct HL as (_ & ? & _); lia).
    assert (CP0 : 0 <= contp) by (destruct HC as (_ & ? & _); lia).
    destruct PO as (IDL & IDB & CL & CC & TM). unfold zlen in IDL.
    assert (ID32 : List.length (lp_id p) = 32%nat) by lia.
    set (B := patch_bytes version p libp contp units next deps) in *.
    assert (R : trd t a (if negb (keeps_time version) then 72%nat else 80%nat) = Some B).
    { unfold trd. replace (if negb (keeps_time version) then 72%nat else 80%nat) with (List.length B).
      - apply holds_rd. exact HO.
      - unfold B, patch_bytes. rewrite !app_length, !le_enc_length, ID32.
        destruct (keeps_time version); cbn [negb]; rewrite ?le_enc_length; reflexivity. }
    rewrite R.
    assert (EB : B ++ repeat 0 (80 - (if negb (keeps_time version) then 72 else 80)) =
      lp_id p ++ le_enc 8 libp ++ le_enc 8 contp ++ le_enc 8 units ++ le_enc 8 next ++ le_enc 8 deps ++
      le_enc 8 (if keeps_time version then lp_time p else 0)).
    { unfold B, patch_bytes. rewrite <- !app_assoc. do 6 f_equal. destruct (keeps_time version); cbn [negb].
      - change (80 - 80)%nat with 0%nat. cbn [repeat]. apply app_nil_r.
      - reflexivity. }
    rewrite EB. clear EB R.
    assert (G : forall x y z u w v, List.length (lp_id p ++ le_enc 8 x ++ le_enc 8 y ++ le_enc 8 z ++ le_enc 8 u ++ le_enc 8 w ++ le_enc 8 v) = 80%nat)
      by (intros; rewrite !app_length, !le_enc_length, ID32; reflexivity).
    rewrite (fld_at (lp_id p) _ libp 32 8 ID32) by (change (8 * Z.of_nat 8) with 64; lia).
    rewrite (read_name_heap t libp (lp_lib p) T HL F1). cbn [ibind].
    rewrite (app_assoc (lp_id p) (le_enc 8 libp)).
    rewrite (fld_at (lp_id p ++ le_enc 8 libp) _ contp 40 8) by
      (try (rewrite app_length, le_enc_length, ID32; reflexivity); change (8 * Z.of_nat 8) with 64; lia).
    rewrite (read_name_heap t contp (lp_container p) T HC F2). cbn [ibind].
    rewrite (app_assoc (lp_id p ++ le_enc 8 libp)), (app_assoc ((lp_id p ++ le_enc 8 libp) ++ le_enc 8 contp)).
    rewrite (fld_at (((lp_id p ++ le_enc 8 libp) ++ le_enc 8 contp) ++ le_enc 8 units) _ next 56 8) by
      (try (rewrite !app_length, !le_enc_length, ID32; reflexivity); change (8 * Z.of_nat 8) with 64; lia).
    rewrite (IH next f PL ltac:(cbn in F; lia) FS'). cbn [ibind map].
    do 2 f_equal. unfold as_read. f_equal.
    + rewrite <- !app_assoc. rewrite <- ID32. apply firstn_app_exact.
    + rewrite (app_assoc (((lp_id p ++ le_enc 8 libp) ++ le_enc 8 contp) ++ le_enc 8 units)).
      rewrite (app_assoc ((((lp_id p ++ le_enc 8 libp) ++ le_enc 8 contp) ++ le_enc 8 units) ++ le_enc 8 next)).
      rewrite <- (app_nil_r (le_enc 8 (if keeps_time version then lp_time p else 0))) at 1.
      apply fld_at.
      * rewrite !app_length, !le_enc_length, ID32. reflexivity.
      * change (8 * Z.of_nat 8) with 64. destruct (keeps_time version); lia.
Qed.

Lemma has_loaded version l file :
  has_livepatch_loaded (map (as_read version) l) file = I_ok (existsb (for_lib file) l).
Proof.
  induction l as [|p l IH]; [reflexivity|]. cbn [map has_livepatch_loaded as_read ap_lib existsb].
  unfold for_lib at 1. destruct (bytes_eqb _ _); [reflexivity|]. exact IH.
Qed.

Lemma print_lib version comments labels l file :
  (forall p, In p l -> relevant_labels (comments (lp_container p)) = I_ok (labels (lp_container p))) ->
  print_lib_patches comments (map (as_read version) l) file =
  I_ok (map (show_patch version labels) (filter (for_lib file) l)).
Proof.
  intros LB. induction l as [|p l IH]; [reflexivity|].
  cbn [map print_lib_patches as_read ap_lib ap_container ap_timestamp filter].
  unfold for_lib at 1. destruct (bytes_eqb _ _).
  - rewrite LB by (left; reflexivity). cbn [ibind]. rewrite IH by (intros; apply LB; right; assumption).
    cbn [ibind map]. do 2 f_equal. unfold show_patch. f_equal.
    destruct (keeps_time version); cbn [andb]; [destruct (_ =? 0); reflexivity|reflexivity].
  - apply IH. intros; apply LB; right; assumption.
Qed.

Lemma list_objs version comments labels nops l objs :
  (forall p, In p l -> relevant_labels (comments (lp_container p)) = I_ok (labels (lp_container p))) ->
  list_objects comments nops (map (as_read version) l) objs = I_ok (shown_objects version labels nops l objs).
Proof.
  intros LB. induction objs as [|o objs IH]; [reflexivity|].
  cbn [list_objects]. rewrite has_loaded. cbn [ibind]. unfold shown_objects in *. cbn [filter].
  destruct (existsb (for_lib (o_filename o)) l || nops o).
  - rewrite (print_lib version comments labels) by assumption. cbn [ibind]. rewrite IH. reflexivity.
  - exact IH.
Qed.

Lemma read_state t version p lp l : target_ok t -> the_libpulp p = Some lp -> ext lp 2 <> 0 -> ext lp 10 = version ->
  state_at t version (ext lp 2) l -> fuel_for t l ->
  ulp_read_state t true p = I_ok (map (as_read version) l).
Proof.
  intros T L N V (pad & head & PL & H & HO & P) (F1 & F2). unfold ulp_read_state. rewrite L.
  destruct (Z.eqb_spec (ext lp 2) 0) as [E|_]; [contradiction|]. cbn [negb].
  assert (R : trd t (ext lp 2) 16 = Some ([1] ++ pad ++ le_enc 8 head)).
  { unfold trd. replace 16%nat with (List.length ([1] ++ pad ++ le_enc 8 head)).
    - apply holds_rd. exact HO.
    - rewrite !app_length, le_enc_length, PL. reflexivity. }
  rewrite R. rewrite app_assoc. rewrite <- (app_nil_r (le_enc 8 head)).
  rewrite (fld_at ([1] ++ pad) [] head 8 8) by
    (try (rewrite app_length, PL; reflexivity); change (8 * Z.of_nat 8) with 64; lia).
  rewrite V. apply read_list; assumption.
Qed.

(** ** Labels *)
Lemma is_digit_iff c : is_digit c = true <-> digit c.
Proof. unfold is_digit, digit. lia. Qed.
Lemma is_alpha_iff c : is_alpha c = true <-> letter c.
Proof. unfold is_alpha, letter. lia. Qed.

Lemma run_of_app q d c r : Forall (fun x => q x = true) d -> q c = false ->
  run_of q (d ++ c :: r) = Some (d, c :: r).
Proof.
  intros D C. induction D as [|x d X D IH]; cbn [app run_of].
  - rewrite C. reflexivity.
  - rewrite X, IH. reflexivity.
Qed.

Lemma digits_run d : Forall digit d -> Forall (fun x => is_digit x = true) d.
Proof. apply Forall_impl. intros x. apply is_digit_iff. Qed.
Lemma letters_run d : Forall letter d -> Forall (fun x => is_alpha x = true) d.
Proof. apply Forall_impl. intros x. apply is_alpha_iff. Qed.

Lemma same_lower x y : same_letter x y -> ~ (65 <= y <= 90) -> lower x = y.
Proof. unfold same_letter, lower. intros [->|[A ->]] N; [destruct (_ && _) eqn:E; lia|destruct (_ && _) eqn:E; lia]. Qed.
Lemma lower_same x y : lower x = y -> same_letter x y.
Proof. unfold same_letter, lower. destruct (_ && _) eqn:E; lia. Qed.

Lemma casecmp_app p q r : Forall2 same_letter p q -> Forall (fun y => ~ (65 <= y <= 90)) q ->
  casecmp (p ++ r) q = Some true.
Proof.
  intros F N. induction F as [|x y p q S F IH]; [reflexivity|]. inversion N; subst. cbn [app casecmp].
  rewrite (same_lower x y) by assumption. rewrite Z.eqb_refl. apply IH. assumption.
Qed.

Lemma casecmp_cases s q : Forall (fun y => y <> 0) q ->
  (exists p r, s = p ++ r /\ Forall2 same_letter p q /\ casecmp (s ++ [0]) q = Some true) \/
  casecmp (s ++ [0]) q = Some false.
Proof.
  intros N. revert s. induction N as [|y q Y N IH]; intros s.
  - left. exists [], s. repeat split; constructor.
  - destruct s as [|x s].
    + right. cbn [app casecmp]. change (lower 0) with 0. destruct (Z.eqb_spec 0 y); [lia|reflexivity].
    + cbn [app casecmp]. destruct (Z.eqb_spec (lower x) y) as [E|E]; [|right; reflexivity].
      destruct (IH s) as [(p & r & -> & F & C)|C]; [left|right; exact C].
      exists (x :: p), r. split; [reflexivity|]. split; [constructor; [apply lower_same; exact E|exact F]|exact C].
Qed.

Lemma pat_nonzero : Forall (fun y => y <> 0) (zs "bsc#") /\ Forall (fun y => y <> 0) (zs "jsc#") /\ Forall (fun y => y <> 0) (zs "cve-").
Proof. repeat apply conj; cbn; repeat (apply Forall_cons; [lia|]); apply Forall_nil. Qed.
Lemma pat_small : Forall (fun y => ~ (65 <= y <= 90)) (zs "bsc#") /\ Forall (fun y => ~ (65 <= y <= 90)) (zs "jsc#") /\
  Forall (fun y => ~ (65 <= y <= 90)) (zs "cve-").
Proof. repeat apply conj; cbn; repeat (apply Forall_cons; [lia|]); apply Forall_nil. Qed.

Lemma no_label_here s : ~ label_starts s -> label_here (s ++ [0]) = L_none.
Proof.
  intros N. unfold label_here. destruct pat_nonzero as (N1 & N2 & N3).
  destruct (casecmp_cases s _ N1) as [(p & r & -> & F & C)|C].
  { exfalso. apply N. exists (p ++ []), r. split; [apply lab_bsc; [exact F|constructor]|rewrite app_nil_r; reflexivity]. }
  rewrite C. clear C. destruct (casecmp_cases s _ N2) as [(p & r & -> & F & C)|C].
  { exfalso. apply N. exists (p ++ []), r. split; [apply lab_jsc; [exact F|constructor]|rewrite app_nil_r; reflexivity]. }
  rewrite C. clear C. destruct (casecmp_cases s _ N3) as [(p & r & -> & F & C)|C].
  { exfalso. apply N. exists (p ++ []), r. split; [apply lab_cve; [exact F|constructor]|rewrite app_nil_r; reflexivity]. }
  rewrite C. reflexivity.
Qed.

Lemma first_differs p q r x y q' : Forall2 same_letter p (x :: q) -> ~ (65 <= x <= 90) -> x <> y ->
  casecmp (p ++ r) (y :: q') = Some false.
Proof.
  intros F N D. inversion F as [|a b p0 q0 S F']; subst. cbn [app casecmp].
  rewrite (same_lower a x) by assumption. destruct (Z.eqb_spec x y); [contradiction|reflexivity].
Qed.

Lemma f2_len p q : Forall2 same_letter p q -> List.length p = List.length q.
Proof. intros F. induction F; cbn; congruence. Qed.

Lemma len4 p q : Forall2 same_letter p q -> List.length q = 4%nat ->
  forall r, firstn 4 (p ++ r) = p /\ skipn 4 (p ++ r) = r.
Proof.
  intros F L r. apply f2_len in F. rewrite L in F. rewrite <- F. split; [apply firstn_app_exact|apply skipn_app_exact].
Qed.

Lemma not_digit_b c : ~ digit c -> is_digit c = false.
Proof. intros N. destruct (is_digit c) eqn:E; [apply is_digit_iff in E; contradiction|reflexivity]. Qed.
Lemma not_alpha_b c : ~ letter c -> is_alpha c = false.
Proof. intros N. destruct (is_alpha c) eqn:E; [apply is_alpha_iff in E; contradiction|reflexivity]. Qed.

Lemma dash_none c r : c <> 45 -> dash_digits (c :: r) = Some ([], c :: r).
Proof. intros N. cbn [dash_digits]. destruct (Z.eqb_spec c 45); [contradiction|reflexivity]. Qed.
Lemma dash_some d c r : Forall digit d -> ~ digit c -> dash_digits (45 :: d ++ c :: r) = Some (45 :: d, c :: r).
Proof.
  intros D C. cbn [dash_digits]. change (45 =? 45) with true. cbn iota.
  rewrite run_of_app; [reflexivity|apply digits_run; exact D|apply not_digit_b; exact C].
Qed.

Lemma app4 {A} (a b c d : list A) : (a ++ b ++ c) ++ d = a ++ b ++ c ++ d.
Proof. rewrite <- !app_assoc. reflexivity. Qed.

Lemma label_here_spec w c r : label w -> ~ label (w ++ [c]) -> label_here (w ++ c :: r) = L_label w (c :: r).
Proof.
  destruct pat_small as (S1 & S2 & S3).
  intros W N. destruct W as [p d P D|p a P A|p a d P A D|p a P A|p a d P A D]; unfold label_here.
  - rewrite <- app_assoc. rewrite (casecmp_app _ _ _ P S1).
    destruct (len4 _ _ P eq_refl (d ++ c :: r)) as [-> ->].
    rewrite run_of_app; [reflexivity|apply digits_run; exact D|apply not_digit_b].
    intros DC. apply N. rewrite <- app_assoc. apply lab_bsc; [exact P|].
    apply Forall_app. split; [exact D|apply Forall_cons; [exact DC|apply Forall_nil]].
  - rewrite <- app_assoc. change (zs "bsc#") with (98 :: zs "sc#"). rewrite (first_differs _ _ _ 106 98 _ P) by lia.
    rewrite (casecmp_app _ _ _ P S2). destruct (len4 _ _ P eq_refl (a ++ c :: r)) as [-> ->].
    rewrite run_of_app; [|apply letters_run; exact A|apply not_alpha_b].
    + rewrite dash_none; [rewrite app_nil_r; reflexivity|]. intros ->. apply N. rewrite <- app_assoc.
      apply lab_jsc2; [exact P|exact A|constructor].
    + intros DC. apply N. rewrite <- app_assoc. apply lab_jsc; [exact P|].
      apply Forall_app. split; [exact A|apply Forall_cons; [exact DC|apply Forall_nil]].
  - rewrite app4. cbn [app]. change (zs "bsc#") with (98 :: zs "sc#"). rewrite (first_differs _ _ _ 106 98 _ P) by lia.
    rewrite (casecmp_app _ _ _ P S2). destruct (len4 _ _ P eq_refl (a ++ 45 :: d ++ c :: r)) as [-> ->].
    rewrite run_of_app; [|apply letters_run; exact A|reflexivity].
    rewrite dash_some; [reflexivity|exact D|]. intros DC. apply N. rewrite app4. cbn [app].
    apply lab_jsc2; [exact P|exact A|]. apply Forall_app. split; [exact D|apply Forall_cons; [exact DC|apply Forall_nil]].
  - rewrite <- app_assoc. change (zs "bsc#") with (98 :: zs "sc#"). rewrite (first_differs _ _ _ 99 98 _ P) by lia.
    change (zs "jsc#") with (106 :: zs "sc#"). rewrite (first_differs _ _ _ 99 106 _ P) by lia.
    rewrite (casecmp_app _ _ _ P S3). destruct (len4 _ _ P eq_refl (a ++ c :: r)) as [-> ->].
    rewrite run_of_app; [|apply digits_run; exact A|apply not_digit_b].
    + rewrite dash_none; [rewrite app_nil_r; reflexivity|]. intros ->. apply N. rewrite <- app_assoc.
      apply lab_cve2; [exact P|exact A|constructor].
    + intros DC. apply N. rewrite <- app_assoc. apply lab_cve; [exact P|].
      apply Forall_app. split; [exact A|apply Forall_cons; [exact DC|apply Forall_nil]].
  - rewrite app4. cbn [app]. change (zs "bsc#") with (98 :: zs "sc#"). rewrite (first_differs _ _ _ 99 98 _ P) by lia.
    change (zs "jsc#") with (106 :: zs "sc#"). rewrite (first_differs _ _ _ 99 106 _ P) by lia.
    rewrite (casecmp_app _ _ _ P S3). destruct (len4 _ _ P eq_refl (a ++ 45 :: d ++ c :: r)) as [-> ->].
    rewrite run_of_app; [|apply digits_run; exact A|reflexivity].
    rewrite dash_some; [reflexivity|exact D|]. intros DC. apply N. rewrite app4. cbn [app].
    apply lab_cve2; [exact P|exact A|]. apply Forall_app. split; [exact D|apply Forall_cons; [exact DC|apply Forall_nil]].
Qed.

Lemma label_cons w : label w -> exists x t, w = x :: t.
Proof.
  intros [p d P|p a P|p a d P|p a P|p a d P]; inversion P; subst; cbn [app]; eauto.
Qed.

Lemma labels_spec s ls : has_labels s ls -> cstr_ok s -> forall f, (List.length s < f)%nat ->
  labels_loop f (s ++ [0]) = I_ok ls.
Proof.
  intros H. induction H as [|c s ls N H IH|w c s ls W M N H IH]; intros C f F; (destruct f as [|f]; [lia|]).
  - reflexivity.
  - inversion C as [|? ? C1 C2]; subst. unfold is_cchar in C1. cbn [app labels_loop].
    destruct (Z.eqb_spec c 0); [lia|]. change (c :: s ++ [0]) with ((c :: s) ++ [0]).
    rewrite no_label_here by exact N. apply IH; [exact C2|cbn in F; lia].
  - destruct (label_cons w W) as (x & wt & EW). rewrite <- app_assoc. cbn [app].
    assert (X : is_cchar x) by (subst w; inversion C; assumption). unfold is_cchar in X.
    assert (E : labels_loop (S f) (w ++ c :: s ++ [0]) =
      match label_here (w ++ c :: s ++ [0]) with
      | L_oob => I_ub
      | L_none => labels_loop f (tl (w ++ c :: s ++ [0]))
      | L_label txt r => ibind (labels_loop f (tl r)) (fun l => I_ok (txt :: l))
      end).
    { subst w. cbn [app labels_loop tl]. destruct (Z.eqb_spec x 0); [lia|reflexivity]. }
    rewrite E, (label_here_spec w c (s ++ [0]) W M). cbn [tl].
    apply Forall_app in C. destruct C as [_ C]. inversion C; subst.
    rewrite IH; [reflexivity|assumption|]. rewrite app_length in F. cbn [List.length] in F. lia.
Qed.
