From Coq Require Import String.
From Verif Require Import Base BaseFacts StrModel MetaModel MetaSpec DscModel DscSpec NtModel Md4Model Md4Spec PtModel PostModel PackModel PackSpec.

Lemma bytes_eqb_refl a : bytes_eqb a a = true.
Proof. apply bytes_eqb_eq. reflexivity. Qed.

(** The description is read twice with the same result. *)
Lemma pack_id e f id id0 pm cm : pack e id0 f = D_ok (pm, cm) -> exists pm', pack e id f = D_ok (pm', cm) /\ pm_id pm' = id.
Proof.
  unfold pack. destruct (parse_description e f) as [[so d]| |]; try discriminate. destruct (ds_target d); [|discriminate].
  destruct (get_target_addrs s (ds_units d)); [|discriminate]. destruct (get_target_ref_addrs s (ds_refs d)); [|discriminate].
  intros H. injection H as <- <-. eexists. split; reflexivity.
Qed.
Lemma pack_id_err e f id id' : pack e id f = D_err -> pack e id' f = D_err.
Proof.
  unfold pack. destruct (parse_description e f) as [[so d]| |]; try discriminate; [|reflexivity]. destruct (ds_target d); [|discriminate].
  destruct (get_target_addrs s (ds_units d)); [|reflexivity]. destruct (get_target_ref_addrs s (ds_refs d)); [discriminate|reflexivity].
Qed.

(** ** embed *)
Lemma embed_works s name content st : starts s name -> exits_zero s ->
  embed s name (Some content) st = (E_ret 0, put_section name content st).
Proof.
  intros (A & B & C & p & D & F) (W1 & W2). unfold embed, embed_patch_metadata_into_elf, arg_len. rewrite A, B, C, D. cbn [negb andb].
  replace (120 <=? zlen name + 1 + zlen p) with false by (symmetry; apply Z.leb_gt; lia).
  replace (zlen name + 1 + zlen p <? 120) with true by (symmetry; apply Z.ltb_lt; lia). cbn [andb].
  unfold objcopy_did, WIFEXITED, WEXITSTATUS. rewrite W1, W2. reflexivity.
Qed.

(** embed never changes another section, nor the temporary files. *)
Lemma embed_frame s name c st r st' : embed s name c st = (r, st') ->
  pk_tmps st' = pk_tmps st /\ (forall n, n <> name -> pk_secs st' n = pk_secs st n) /\
  (pk_secs st' name = pk_secs st name \/ exists x, c = Some x /\ pk_secs st' name = Some x).
Proof.
  unfold embed. intros H. injection H as _ <-. destruct c as [c|]; [|auto]. destruct (_ && objcopy_did s); [|auto].
  cbn [put_section pk_tmps pk_secs]. split; [reflexivity|]. split.
  - intros n N. destruct (bytes_eqb n name) eqn:E; [apply bytes_eqb_eq in E; contradiction|reflexivity].
  - right. exists c. rewrite bytes_eqb_refl. auto.
Qed.
Lemma embed_fail s name c st r st' : embed s name c st = (E_ret r, st') -> r <> 0 -> st' = st.
Proof.
  unfold embed, embed_patch_metadata_into_elf. intros H N.
  destruct (sg_there s); cbn [negb andb] in H; [|destruct c; congruence]. destruct (sg_loads s); cbn [negb andb] in H; [|destruct c; congruence].
  destruct (Z.leb_spec 120 (arg_len name (sg_tmp s))) as [L|L].
  - replace (arg_len name (sg_tmp s) <? 120) with false in H by (symmetry; apply Z.ltb_ge; lia). cbn [andb] in H. destruct c; congruence.
  - destruct (sg_exec s); cbn [negb] in H; [|discriminate]. exfalso. apply N.
    destruct (WIFEXITED (sg_wi s)); injection H as <- _; reflexivity.
Qed.

(** ** The names of temporary files *)
Lemma rm_add p st : ~ In p (pk_tmps st) -> pk_tmps (rm_tmp (Some p) (add_tmp (Some p) st)) = pk_tmps st.
Proof.
  intros N. cbn [rm_tmp add_tmp pk_tmps filter]. rewrite bytes_eqb_refl. cbn [negb].
  induction (pk_tmps st) as [|x l IH]; [reflexivity|]. cbn [filter]. destruct (bytes_eqb x p) eqn:E.
  - apply bytes_eqb_eq in E. subst x. exfalso. apply N. left. reflexivity.
  - cbn [negb]. f_equal. apply IH. intros C. apply N. right. exact C.
Qed.
Lemma rm_none p st : ~ In p (pk_tmps st) -> pk_tmps (rm_tmp (Some p) st) = pk_tmps st.
Proof.
  intros N. pose proof (rm_add p st N) as H. cbn [rm_tmp add_tmp pk_tmps filter] in *. rewrite bytes_eqb_refl in H. exact H.
Qed.
Lemma rm_secs p st : pk_secs (rm_tmp p st) = pk_secs st.
Proof. destruct p; reflexivity. Qed.
Lemma add_secs p st : pk_secs (add_tmp p st) = pk_secs st.
Proof. destruct p; reflexivity. Qed.
Lemma pk_eta st : st = mk_pk (pk_secs st) (pk_tmps st).
Proof. destruct st; reflexivity. Qed.

Definition set3 (name content : list Z) (st : pkstate) : list Z -> option (list Z) := pk_secs (put_section name content st).

(** One stage that works: new temporary file, objcopy, away with the file. *)
Lemma stage_works s name content st : works s name -> new_tmp s st ->
  embed s name (Some (written s content)) (add_tmp (sg_tmp s) st) = (E_ret 0, put_section name content (add_tmp (sg_tmp s) st)) /\
  pk_tmps (rm_tmp (sg_tmp s) (put_section name content (add_tmp (sg_tmp s) st))) = pk_tmps st /\
  pk_secs (rm_tmp (sg_tmp s) (put_section name content (add_tmp (sg_tmp s) st))) = set3 name content st.
Proof.
  intros (H1 & H2 & H3 & H4 & H5) N. split; [|split].
  - unfold written. rewrite H4. apply embed_works; assumption.
  - destruct H1 as (_ & _ & _ & p & E & _). specialize (N p E). rewrite E. exact (rm_add p st N).
  - rewrite rm_secs. unfold set3, put_section. cbn [pk_secs]. rewrite add_secs. reflexivity.
Qed.

Lemma set3_same name c st : set3 name c st name = Some c.
Proof. unfold set3, put_section. cbn [pk_secs]. rewrite bytes_eqb_refl. reflexivity. Qed.
Lemma set3_other name c st n : n <> name -> set3 name c st n = pk_secs st n.
Proof.
  intros N. unfold set3, put_section. cbn [pk_secs]. destruct (bytes_eqb n name) eqn:E; [apply bytes_eqb_eq in E; contradiction|reflexivity].
Qed.

Lemma finish_works s before m st :
  works s (zs ".ulp.rev") -> new_tmp s st -> exists st', finish_reverse s before m st = PK_done 0 st' /\
    pk_tmps st' = pk_tmps st /\ pk_secs st' = set3 (zs ".ulp.rev") (MetaModel.write_reverse_patch m) st.
Proof.
  intros W N. destruct (stage_works s (zs ".ulp.rev") (MetaModel.write_reverse_patch m) st W N) as (E & T & X).
  destruct W as ((_ & _ & _ & p & P & _) & _ & O & _).
  unfold finish_reverse, write_reverse. rewrite P in *. rewrite O. cbn [negb]. rewrite E.
  change (0 =? 0) with true. cbv iota. eexists. split; [reflexivity|].
  destruct before as [b|]; [|split; [exact T|exact X]]. rewrite rm_secs. split; [|exact X].
  rewrite rm_none; [exact T|]. rewrite T. exact (N p P).
Qed.

(** Everything works. *)
Definition sections (m : pmeta) (cm : option (list Z)) (before : list Z -> option (list Z)) (n : list Z) : option (list Z) :=
  if bytes_eqb n (zs ".ulp") then Some (create_patch_metadata_file m)
  else if bytes_eqb n (zs ".ulp.rev") then Some (MetaModel.write_reverse_patch m)
  else if bytes_eqb n (zs ".ulp.comments") then match cm with Some t => Some (t ++ [0]) | None => before n end
  else before n.

Lemma run_packer_works fuel e file note s0 s1 s2 st id m cm :
  pack e id file = D_ok (m, cm) -> patch_id fuel note file = Id_ok id ->
  works s0 (zs ".ulp") -> works s1 (zs ".ulp.comments") -> works s2 (zs ".ulp.rev") ->
  new_tmp s0 st -> new_tmp s1 st -> new_tmp s2 st ->
  exists st', run_packer fuel e file note s0 s1 s2 st = PK_done 0 st' /\ pk_tmps st' = pk_tmps st /\
    forall n, pk_secs st' n = sections m cm (pk_secs st) n.
Proof.
  intros P I W0 W1 W2 N0 N1 N2. unfold run_packer.
  destruct (pack_id e file (repeat 0 32) id m cm P) as (m0 & P0 & _). rewrite P0.
  rewrite I, P. destruct (stage_works s0 (zs ".ulp") (create_patch_metadata_file m) st W0 N0) as (E & T & X).
  destruct W0 as ((_ & _ & _ & p & Ep & _) & _ & O & _). rewrite Ep in *. rewrite O. cbn [negb]. rewrite E.
  change (0 =? 0) with true. cbn [negb]. set (st1 := rm_tmp (Some p) (put_section (zs ".ulp") (create_patch_metadata_file m) (add_tmp (Some p) st))) in *.
  destruct cm as [t|].
  - assert (N1' : new_tmp s1 st1) by (intros q Q; rewrite T; exact (N1 q Q)).
    destruct (stage_works s1 (zs ".ulp.comments") (t ++ [0]) st1 W1 N1') as (E1 & T1 & X1).
    destruct W1 as ((_ & _ & _ & p1 & Ep1 & _) & _ & O1 & _ & S1). unfold write_comments. rewrite Ep1 in *. rewrite O1, S1. cbn [negb].
    rewrite E1. change (0 =? 0) with true. cbn [negb].
    set (st2 := rm_tmp (Some p1) (put_section (zs ".ulp.comments") (t ++ [0]) (add_tmp (Some p1) st1))) in *.
    assert (N2' : new_tmp s2 st2) by (intros q Q; rewrite T1, T; exact (N2 q Q)).
    destruct (finish_works s2 (Some p1) m st2 W2 N2') as (st' & F & T2 & X2). exists st'. split; [exact F|]. split; [congruence|].
    intros n. rewrite X2. unfold sections.
    destruct (bytes_eqb n (zs ".ulp.rev")) eqn:B1; [apply bytes_eqb_eq in B1; subst n; rewrite set3_same; reflexivity|].
    rewrite set3_other by (intros ->; rewrite bytes_eqb_refl in B1; discriminate). rewrite X1.
    destruct (bytes_eqb n (zs ".ulp.comments")) eqn:B2; [apply bytes_eqb_eq in B2; subst n; rewrite set3_same; reflexivity|].
    rewrite set3_other by (intros ->; rewrite bytes_eqb_refl in B2; discriminate). rewrite X.
    destruct (bytes_eqb n (zs ".ulp")) eqn:B3; [apply bytes_eqb_eq in B3; subst n; apply set3_same|].
    apply set3_other. intros ->; rewrite bytes_eqb_refl in B3; discriminate.
  - assert (N2' : new_tmp s2 st1) by (intros q Q; rewrite T; exact (N2 q Q)).
    destruct (finish_works s2 (Some p) m st1 W2 N2') as (st' & F & T2 & X2). exists st'. split; [exact F|]. split; [congruence|].
    intros n. rewrite X2. unfold sections.
    destruct (bytes_eqb n (zs ".ulp.rev")) eqn:B1; [apply bytes_eqb_eq in B1; subst n; rewrite set3_same; reflexivity|].
    rewrite set3_other by (intros ->; rewrite bytes_eqb_refl in B1; discriminate). rewrite X.
    destruct (bytes_eqb n (zs ".ulp")) eqn:B3; [apply bytes_eqb_eq in B3; subst n; apply set3_same|].
    rewrite set3_other by (intros ->; rewrite bytes_eqb_refl in B3; discriminate).
    destruct (bytes_eqb n (zs ".ulp.comments")); reflexivity.
Qed.

(** ** Whatever happens *)
Lemma embed_frame3 s name c st r st' : embed s name c st = (r, st') -> In name [zs ".ulp"; zs ".ulp.comments"; zs ".ulp.rev"] ->
  forall n, ~ In n [zs ".ulp"; zs ".ulp.comments"; zs ".ulp.rev"] -> pk_secs st' n = pk_secs st n.
Proof. intros E I n N. apply (embed_frame _ _ _ _ _ _ E). intros ->. contradiction. Qed.
Lemma in1 : In (zs ".ulp") [zs ".ulp"; zs ".ulp.comments"; zs ".ulp.rev"].
Proof. left. reflexivity. Qed.
Lemma in2 : In (zs ".ulp.comments") [zs ".ulp"; zs ".ulp.comments"; zs ".ulp.rev"].
Proof. right. left. reflexivity. Qed.
Lemma in3 : In (zs ".ulp.rev") [zs ".ulp"; zs ".ulp.comments"; zs ".ulp.rev"].
Proof. right. right. left. reflexivity. Qed.

Lemma finish_frame s before m st r st' n : finish_reverse s before m st = PK_done r st' ->
  ~ In n [zs ".ulp"; zs ".ulp.comments"; zs ".ulp.rev"] -> pk_secs st' n = pk_secs st n.
Proof.
  unfold finish_reverse, write_reverse. intros H N.
  destruct (sg_tmp s) as [p|] eqn:P; [|injection H as _ <-; rewrite ?rm_secs; reflexivity].
  destruct (sg_open s); cbn [negb] in H; [|injection H as _ <-; rewrite ?rm_secs, ?add_secs; reflexivity].
  destruct (embed s _ _ _) as [[q|] st1] eqn:E; [|discriminate]. injection H as _ <-. destruct before; cbn [pk_secs rm_tmp];
    rewrite (embed_frame3 _ _ _ _ _ _ E in3 n N), ?add_secs; reflexivity.
Qed.

Lemma run_frame fuel e file note s0 s1 s2 st r st' n : run_packer fuel e file note s0 s1 s2 st = PK_done r st' ->
  ~ In n [zs ".ulp"; zs ".ulp.comments"; zs ".ulp.rev"] -> pk_secs st' n = pk_secs st n.
Proof.
  intros H N. unfold run_packer in H.
  destruct (pack e (repeat 0 32) file); [|injection H as _ <-; reflexivity|discriminate].
  destruct (patch_id fuel note file) as [id| | |]; [|injection H as _ <-; reflexivity|discriminate|discriminate].
  destruct (pack e id file) as [[m cm]| |]; [|discriminate|discriminate].
  destruct (match sg_tmp s0 with Some _ => negb (sg_open s0) | None => false end); [injection H as _ <-; rewrite ?add_secs; reflexivity|].
  destruct (embed s0 _ _ _) as [[q|] sa] eqn:E; [|discriminate].
  assert (A : pk_secs sa n = pk_secs st n).
  { rewrite (embed_frame3 _ _ _ _ _ _ E in1 n N), ?add_secs. reflexivity. }
  destruct (q =? 0); cbn [negb] in H; [|injection H as _ <-; rewrite ?rm_secs; exact A].
  destruct cm as [t|]; [|rewrite (finish_frame _ _ _ _ _ _ _ H N), ?rm_secs; exact A].
  unfold write_comments in H. destruct (sg_tmp s1) as [p1|] eqn:P1; [|injection H as _ <-; rewrite ?rm_secs; exact A].
  destruct (sg_open s1); cbn [negb] in H; [|injection H as _ <-; rewrite ?rm_secs, ?add_secs, ?rm_secs; cbn [pk_secs]; rewrite ?rm_secs; exact A].
  destruct (sg_short s1); [discriminate|]. destruct (embed s1 _ _ _) as [[q1|] sb] eqn:E1; [|discriminate].
  assert (B : pk_secs sb n = pk_secs st n).
  { rewrite (embed_frame3 _ _ _ _ _ _ E1 in2 n N), ?add_secs, ?rm_secs. exact A. }
  destruct (q1 =? 0); cbn [negb] in H; [|injection H as _ <-; rewrite ?rm_secs; exact B].
  rewrite (finish_frame _ _ _ _ _ _ _ H N), ?rm_secs. exact B.
Qed.

(** embed said 0. *)
Lemma embed_zero s name c st st' : embed s name c st = (E_ret 0, st') ->
  sg_there s = true /\ sg_loads s = true /\ sg_exec s = true /\ arg_len name (sg_tmp s) < 120.
Proof.
  unfold embed, embed_patch_metadata_into_elf. intros H.
  destruct (sg_there s); cbn [negb] in H; [|injection H; discriminate]. destruct (sg_loads s); cbn [negb] in H; [|injection H; discriminate].
  destruct (Z.leb_spec 120 (arg_len name (sg_tmp s))) as [L|L]; [injection H; discriminate|].
  destruct (sg_exec s); cbn [negb] in H; [|injection H; discriminate]. auto.
Qed.

(** finish_reverse said 0: then it worked, but for what objcopy and the disk did. *)
Lemma finish_zero s before m st st' : finish_reverse s before m st = PK_done 0 st' ->
  starts s (zs ".ulp.rev") /\ sg_open s = true.
Proof.
  unfold finish_reverse, write_reverse. intros H.
  destruct (sg_tmp s) as [p|] eqn:P; [|injection H; discriminate].
  destruct (sg_open s); cbn [negb] in H; [|injection H; discriminate].
  destruct (embed s _ _ _) as [[q|] st1] eqn:E; [|discriminate].
  destruct (Z.eqb_spec q 0) as [->|]; [|injection H; discriminate].
  destruct (embed_zero _ _ _ _ _ E) as (A & B & C & D). split; [|reflexivity]. repeat split; try assumption.
  exists p. split; [exact P|]. unfold arg_len in D. rewrite P in D. exact D.
Qed.

(** ** From the description to the metadata *)
Lemma symbol_at_range syms n a : Forall (fun x : list Z * Z => 0 <= snd x < 2 ^ 64) syms -> symbol_at syms n a -> 0 <= a < 2 ^ 64.
Proof. intros F (b & c & -> & _). apply Forall_app in F. destruct F as [_ F]. inversion F; assumption. Qed.

Lemma rfc_digest_bytes p : bytes_ok (rfc_digest p).
Proof. unfold rfc_digest. destruct (fold_left _ _ _) as [[[a b] c] d]. unfold bytes_ok. rewrite !Forall_app. repeat split; apply le_enc_bytes. Qed.
Lemma bytes_firstn n l : bytes_ok l -> bytes_ok (firstn n l).
Proof. intros B. rewrite <- (firstn_skipn n l) in B. apply Forall_app in B. apply B. Qed.

Lemma hex_pos s : Forall is_hex s -> 0 <= hex_value s.
Proof.
  unfold hex_value. assert (G : forall a, 0 <= a -> Forall is_hex s -> 0 <= fold_left (fun a c => a * 16 + hex_value1 c) s a).
  { induction s as [|c s IH]; intros a A F; [exact A|]. inversion F as [|? ? Hc Fs]; subst. cbn [fold_left]. apply IH; [|exact Fs].
    unfold hex_value1. destruct (Z.leb_spec c 57), (Z.leb_spec c 70); unfold is_hex in Hc; lia. }
  intros F. apply G; [lia|exact F].
Qed.

Lemma units_ok target items us : so_ok target -> Forall item_ok items -> Forall2 (unit_means target) (funcs_of items) us -> Forall unit_ok us.
Proof.
  intros (_ & _ & _ & S) I F. assert (O : Forall (fun f => cstr_ok (fst f) /\ cstr_ok (snd f)) (funcs_of items)).
  { clear F. induction I as [|i l Hi Hl IH]; [constructor|]. cbn [funcs_of flat_map]. apply Forall_app. split; [|exact IH].
    destruct i; try constructor; [|constructor]. cbn [item_ok] in Hi. split; cbn [fst snd]; apply Hi. }
  revert O. induction F as [|f u fs us' (E1 & E2 & E3) F' IH]; intros O; [constructor|]. inversion O as [|? ? [O1 O2] O']; subst.
  constructor; [|exact (IH O')]. unfold unit_ok. rewrite E1, E2. split; [exact O1|]. split; [exact O2|]. exact (symbol_at_range _ _ _ S E3).
Qed.

Lemma refs_ok container target items rs : so_ok container -> so_ok target -> Forall item_ok items ->
  Forall2 (ref_means container target) (refs_of items) rs -> Forall ref_ok rs.
Proof.
  intros (_ & _ & _ & C) (_ & _ & _ & T) I F. assert (O : Forall item_ok (refs_of items)).
  { apply Forall_forall. intros i H. apply filter_In in H. rewrite Forall_forall in I. apply I, H. }
  revert O. induction F as [|i r is rs' M F' IH]; intros O; [constructor|]. inversion O as [|? ? Oi O']; subst. constructor; [|exact (IH O')].
  destruct i; try contradiction; cbn [ref_means item_ok] in *; unfold ref_ok.
  - destruct M as (_ & -> & -> & M1 & M2). split; [apply Oi|]. split; [apply Oi|].
    split; [exact (symbol_at_range _ _ _ T M1)|exact (symbol_at_range _ _ _ C M2)].
  - destruct M as (_ & -> & -> & M1 & M2). destruct Oi as (O1 & O2 & _ & (A1 & _ & A2) & (B1 & _ & B2)).
    pose proof (hex_pos _ A1). pose proof (hex_pos _ B1).
    split; [apply O1|]. split; [apply O2|]. split; [|lia]. destruct (hex_value toff =? 0); [exact (symbol_at_range _ _ _ T M2)|lia].
Qed.
