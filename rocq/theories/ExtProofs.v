From Coq Require Import String.
From Verif Require Import Base BaseFacts StrModel TextModel TextSpec TextProofs TextProps MetaModel DscModel PackModel PackProofs ExtModel ExtSpec.

(** ** The packer depends on the target's description only *)
Definition more_syms (a b : DscModel.so_info) : Prop :=
  DscModel.si_name b = DscModel.si_name a /\ DscModel.si_bid b = DscModel.si_bid a /\
  exists extra, si_syms b = si_syms a ++ extra.

Lemma find_more syms extra n v : DscModel.get_symbol_with_name syms n = Some v -> DscModel.get_symbol_with_name (syms ++ extra) n = Some v.
Proof.
  induction syms as [|[m w] l IH]; cbn [DscModel.get_symbol_with_name app]; [discriminate|].
  destruct (bytes_eqb m n); [tauto|exact IH].
Qed.

Definition ds_more (a b : dstate) : Prop :=
  ds_deps b = ds_deps a /\ ds_units b = ds_units a /\ ds_refs b = ds_refs a /\ ds_comments b = ds_comments a /\
  match ds_target a, ds_target b with
  | None, None => True
  | Some x, Some y => more_syms x y
  | _, _ => False
  end.

Lemma get_target_addrs_more a b us l : more_syms a b -> get_target_addrs a us = Some l -> get_target_addrs b us = Some l.
Proof.
  intros (_ & _ & x & E). revert l. induction us as [|u us IH]; intros l H; cbn [get_target_addrs] in *; [exact H|].
  destruct (DscModel.get_symbol_with_name (si_syms a) (u_old u)) eqn:G; [|discriminate]. rewrite E, (find_more _ x _ _ G).
  destruct (get_target_addrs a us); [|discriminate]. rewrite (IH _ eq_refl). exact H.
Qed.
Lemma get_target_refs_more a b rs l : more_syms a b -> get_target_ref_addrs a rs = Some l -> get_target_ref_addrs b rs = Some l.
Proof.
  intros (_ & _ & x & E). revert l. induction rs as [|u us IH]; intros l H; cbn [get_target_ref_addrs] in *; [exact H|].
  destruct (negb (pr_toff u =? 0)).
  - destruct (get_target_ref_addrs a us); [|discriminate]. rewrite (IH _ eq_refl). exact H.
  - destruct (DscModel.get_symbol_with_name (si_syms a) (pr_target u)) eqn:G; [|discriminate]. rewrite E, (find_more _ x _ _ G).
    destruct (get_target_ref_addrs a us); [|discriminate]. rewrite (IH _ eq_refl). exact H.
Qed.
Lemma read_ref_more c a b s r : more_syms a b -> read_ref c a s = D_ok r -> read_ref c b s = D_ok r.
Proof.
  intros (_ & _ & x & E) H. unfold read_ref in *.
  destruct (match s with _ :: y :: t => if y =? PERCENT then (true, t) else (false, y :: t) | _ => (false, []) end) as [tls third].
  destruct (split_colon third) as [[tn t2]|]; [|discriminate]. destruct (split_colon t2) as [[rn t3]|]; [exact H|].
  destruct (DscModel.get_symbol_with_name (si_syms a) tn) eqn:G; [|discriminate]. rewrite E, (find_more _ x _ _ G). exact H.
Qed.
Lemma read_unit_more c a b s r : more_syms a b -> read_unit c a s = D_ok r -> read_unit c b s = D_ok r.
Proof.
  intros (_ & _ & x & E) H. unfold read_unit in *. destruct s as [|ch s]; [discriminate|].
  destruct (last (ch :: s) 0 =? COLON); [discriminate|]. destruct (ch =? COLON); [discriminate|].
  destruct (strtok (ch :: s)) as [[f rest]|]; [|discriminate].
  destruct (DscModel.get_symbol_with_name (si_syms a) f) eqn:G; [|discriminate]. rewrite E, (find_more _ x _ _ G). exact H.
Qed.

Section Targets.
Variables (e : dsc_env) (p q : list Z) (a b : DscModel.so_info).
Hypothesis Op : can_open e p.
Hypothesis Oq : can_open e q.
Hypothesis Ia : de_info e p = Some a.
Hypothesis Ib : de_info e q = Some b.

Lemma read_line_more (M : more_syms a b) c line d1 d2 d1' : ds_more d1 d2 -> read_line (with_target e p) c line d1 = D_ok d1' ->
  exists d2', read_line (with_target e q) c line d2 = D_ok d2' /\ ds_more d1' d2'.
Proof.
  intros (E1 & E2 & E3 & E4 & E5) H. unfold read_line in *. destruct line as [|ch l].
  - injection H as <-. exists d2. split; [reflexivity|repeat split; assumption].
  - destruct (ch =? NL); [injection H as <-; exists d2; split; [reflexivity|repeat split; assumption]|].
    destruct (ch =? BANG).
    { rewrite E4. cbn [with_target de_junk] in *. destruct (read_comment (de_junk e) (ds_comments d1) (ch :: l)); [|discriminate|discriminate].
      injection H as <-. eexists. split; [reflexivity|]. repeat split; assumption. }
    destruct (ch =? AT).
    { unfold read_target in *. destruct (ds_target d1); [discriminate|]. destruct (ds_target d2); [contradiction|].
      cbn [with_target de_target de_open de_isdir de_info] in *. destruct Op as (O1 & O2 & O3). destruct Oq as (Q1 & Q2 & Q3).
      rewrite O1, O2, Ia in H. rewrite Q1, Q2, Ib. cbn [negb] in *.
      destruct (zlen p >=? PATH_MAX); [discriminate|]. replace (zlen q >=? PATH_MAX) with false by (symmetry; rewrite Z.geb_leb; apply Z.leb_gt; exact Q3).
      injection H as <-. eexists. split; [reflexivity|]. repeat split; try assumption; apply M. }
    destruct (ds_target d1) as [t1|] eqn:T1; [|discriminate]. destruct (ds_target d2) as [t2|] eqn:T2; [|contradiction].
    destruct (ch =? HASH).
    { destruct (read_ref c t1 (chomp (ch :: l))) as [r| |] eqn:R; [|discriminate|discriminate]. injection H as <-. rewrite (read_ref_more _ _ _ _ _ E5 R).
      eexists. split; [reflexivity|]. unfold ds_more. cbn. rewrite ?T1, ?T2, E1, E2, E3, E4. auto. }
    destruct (read_unit c t1 (chomp (ch :: l))) as [r| |] eqn:R; [|discriminate|discriminate]. injection H as <-. rewrite (read_unit_more _ _ _ _ _ E5 R).
    eexists. split; [reflexivity|]. unfold ds_more. cbn. rewrite ?T1, ?T2, E1, E2, E3, E4. auto.
Qed.
Lemma read_body_more (M : more_syms a b) c lines : forall d1 d2 d1', ds_more d1 d2 -> read_body (with_target e p) c lines d1 = D_ok d1' ->
  exists d2', read_body (with_target e q) c lines d2 = D_ok d2' /\ ds_more d1' d2'.
Proof.
  induction lines as [|l ls IH]; intros d1 d2 d1' D H; cbn [read_body] in *.
  - injection H as <-. exists d2. auto.
  - destruct (read_line (with_target e p) c l d1) as [x| |] eqn:R; [|discriminate|discriminate].
    destruct (read_line_more M c l d1 d2 x D R) as (y & -> & D'). exact (IH x y d1' D' H).
Qed.
Lemma read_container_target t u lines : forall cb, read_container (with_target e t) lines cb = read_container (with_target e u) lines cb.
Proof. induction lines as [|l ls IH]; intros cb; cbn [read_container]; [reflexivity|]. destruct l as [|c l]; [reflexivity|].
  destruct (c =? NL); [apply IH|]. destruct (c =? BANG); [|reflexivity]. cbn [with_target de_junk].
  destruct (read_comment _ _ _); [apply IH|reflexivity|reflexivity].
Qed.
Lemma read_deps_target t u lines : forall deps, read_deps (with_target e t) lines deps = read_deps (with_target e u) lines deps.
Proof. induction lines as [|l ls IH]; intros deps; cbn [read_deps]; [reflexivity|]. destruct l as [|c l]; [reflexivity|].
  destruct (c =? STAR); [|reflexivity]. cbn [with_target de_dep]. destruct (add_dependency _); [apply IH|reflexivity].
Qed.

Lemma pack_more (M : more_syms a b) id f x : pack (with_target e p) id f = D_ok x -> pack (with_target e q) id f = D_ok x.
Proof.
  unfold pack, parse_description. rewrite (read_container_target p q).
  destruct (read_container (with_target e q) (lines_of f) None) as [[[so cb] ls]| |]; try discriminate.
  cbn [with_target de_info]. destruct (de_info e so) as [container|]; [|discriminate].
  rewrite (read_deps_target p q). destruct (read_deps (with_target e q) ls []) as [[deps ls']|]; [|discriminate].
  destruct (read_body (with_target e p) container ls' _) as [d| |] eqn:B; [|discriminate|discriminate]. intros H.
  destruct (read_body_more M container ls' _ (mk_ds deps None [] [] cb) d ltac:(repeat split) B) as (d2 & -> & E1 & E2 & E3 & E4 & E5).
  destruct (ds_target d) as [t|]; [|discriminate]. destruct (ds_target d2) as [t2|]; [|contradiction].
  rewrite E1, E2, E3, E4.
  destruct (get_target_addrs t (ds_units d)) as [us|] eqn:G1; [|discriminate]. rewrite (get_target_addrs_more _ _ _ _ E5 G1).
  destruct (get_target_ref_addrs t (ds_refs d)) as [rs|] eqn:G2; [|discriminate]. rewrite (get_target_refs_more _ _ _ _ E5 G2).
  destruct E5 as (N1 & N2 & _). rewrite N1, N2. exact H.
Qed.
End Targets.

(** The same description: the same result, whatever it is. *)
Lemma read_body_same e p q a c lines : can_open e p -> can_open e q -> de_info e p = Some a -> de_info e q = Some a ->
  forall d, read_body (with_target e p) c lines d = read_body (with_target e q) c lines d.
Proof.
  intros (O1 & O2 & O3) (Q1 & Q2 & Q3) Ia Ib. induction lines as [|l ls IH]; intros d; cbn [read_body]; [reflexivity|].
  assert (L : read_line (with_target e p) c l d = read_line (with_target e q) c l d).
  { unfold read_line. destruct l as [|ch l]; [reflexivity|]. unfold read_target. cbn [with_target de_target de_open de_isdir de_info de_junk].
    rewrite O1, O2, Ia, Q1, Q2, Ib. cbn [negb].
    replace (zlen p >=? PATH_MAX) with false by (symmetry; rewrite Z.geb_leb; apply Z.leb_gt; exact O3).
    replace (zlen q >=? PATH_MAX) with false by (symmetry; rewrite Z.geb_leb; apply Z.leb_gt; exact Q3). reflexivity. }
  rewrite L. destruct (read_line (with_target e q) c l d); [apply IH|reflexivity|reflexivity].
Qed.
Lemma pack_same e p q a id f : can_open e p -> can_open e q -> de_info e p = Some a -> de_info e q = Some a ->
  pack (with_target e p) id f = pack (with_target e q) id f.
Proof.
  intros Op Oq Ia Ib. unfold pack, parse_description. rewrite (read_container_target e p q).
  destruct (read_container (with_target e q) (lines_of f) None) as [[[so cb] ls]| |]; try reflexivity.
  cbn [with_target de_info]. destruct (de_info e so) as [container|]; [|reflexivity].
  rewrite (read_deps_target e p q). destruct (read_deps (with_target e q) ls []) as [[deps ls']|]; [|reflexivity].
  rewrite (read_body_same e p q a container ls' Op Oq Ia Ib). reflexivity.
Qed.

Lemma run_packer_ext fuel e1 e2 f note s0 s1 s2 st : (forall id, pack e1 id f = pack e2 id f) ->
  run_packer fuel e1 f note s0 s1 s2 st = run_packer fuel e2 f note s0 s1 s2 st.
Proof.
  intros H. unfold run_packer. rewrite H. destruct (pack e2 (repeat 0 32) f); try reflexivity.
  destruct (patch_id fuel note f); try reflexivity. rewrite H. reflexivity.
Qed.
Lemma run_packer_more fuel e1 e2 f note s0 s1 s2 st x : pack e1 (repeat 0 32) f = D_ok x ->
  (forall id y, pack e1 id f = D_ok y -> pack e2 id f = D_ok y) ->
  run_packer fuel e1 f note s0 s1 s2 st = run_packer fuel e2 f note s0 s1 s2 st.
Proof.
  intros P H. unfold run_packer. rewrite P, (H _ _ P). destruct (patch_id fuel note f) as [id| | |]; try reflexivity.
  destruct x as [m cm]. destruct (PackProofs.pack_id e1 f id _ m cm P) as (m' & P' & _). rewrite P', (H _ _ P'). reflexivity.
Qed.

(** ** Descriptions of ELF files *)
Lemma so_elf_ok fs path max : library_at fs path max -> 0 < max <= 2 ^ 64 ->
  exists i, so_elf fs path = Some i /\ so_info_ok i /\ so_name i = get_basename path /\ Forall (fun s => sy_offset s < max) (so_symbols i).
Proof.
  intros (id & ds & sy & F & L & B & S0) M. unfold so_elf. rewrite F. unfold parse_so_elf. rewrite L. cbn [negb Z.eqb Pos.eqb].
  eexists. split; [reflexivity|]. cbn [so_name].
  assert (G : forall l, Forall (fun s => 0 <= es_value s < max /\ 0 <= es_size s < 2 ^ 64 /\ is_byte (es_info s) /\ is_byte (es_other s)) l ->
    forall h, Forall (fun s => symbol_ok s /\ sy_offset s < max) h -> Forall (fun s => symbol_ok s /\ sy_offset s < max) (section_loop l h)).
  { induction l as [|s l IH]; intros Fl h Fh; cbn [section_loop]; [exact Fh|]. inversion Fl as [|? ? (V & Z0 & I1 & I2) Fl']; subst. apply IH; [exact Fl'|].
    destruct (es_name s); [exact Fh|]. constructor; [|exact Fh]. split; [|cbn; lia]. unfold symbol_ok. cbn.
    split; [lia|]. split; [unfold u32; apply Z.mod_pos_bound; lia|]. auto. }
  apply Forall_app in S0. destruct S0 as [D1 D2].
  pose proof (G ds D1 [] (Forall_nil _)) as G1. pose proof (G sy D2 [] (Forall_nil _)) as G2.
  assert (GG : Forall (fun s => symbol_ok s /\ sy_offset s < max) (build_symbols_list ds sy)).
  { unfold build_symbols_list, get_list_of_symbols_in_section. apply Forall_app. auto. }
  split; [|split; [reflexivity|]].
  - split; [split; [exact B|unfold zlen in L; cbn; lia]|]. cbn. eapply Forall_impl; [|exact GG]. intros s [X _]. exact X.
  - cbn. eapply Forall_impl; [|exact GG]. intros s [_ X]. exact X.
Qed.
Lemma open_elf read fs path i : so_elf fs path = Some i -> fs_info read fs path = Some (seen i).
Proof. unfold so_elf, fs_info, ulp_so_info_open. destruct (fs path) as [[id d s|]|]; try discriminate. intros ->. reflexivity. Qed.

Lemma put_same fs p f : put_file fs p f p = Some f.
Proof. unfold put_file. replace (bytes_eqb p p) with true by (symmetry; apply bytes_eqb_eq; reflexivity). reflexivity. Qed.
Lemma put_other fs p f x : x <> p -> put_file fs p f x = fs x.
Proof. intros N. unfold put_file. destruct (bytes_eqb x p) eqn:E; [apply bytes_eqb_eq in E; contradiction|reflexivity]. Qed.

(** Reading back. *)
Lemma open_written print read fs out i : so_info_ok i -> (forall s, In s (so_symbols i) -> sy_offset s < 2 ^ 31) ->
  json_c print read (write_ulp_so_info_json i) ->
  fs_info read (put_file fs out (F_bytes (print (write_ulp_so_info_json i)))) out = Some (seen i).
Proof.
  intros K O (R & rest & P & L). unfold fs_info, ulp_so_info_open. rewrite put_same.
  assert (X : parse_so_json (read (print (write_ulp_so_info_json i))) = SoOk i).
  { rewrite R. destruct K as [B S0]. rewrite (parse_written i (so_symbols i)); [destruct i; reflexivity|exact B|].
    apply parse_symbols_written; [exact S0|]. apply Forall_forall. exact O. }
  rewrite X. replace (zlen (print (write_ulp_so_info_json i)) <? 5) with false.
  - replace (bytes_eqb (firstn 4 (print (write_ulp_so_info_json i))) elf_magic) with false; [reflexivity|].
    symmetry. rewrite P. reflexivity.
  - symmetry. apply Z.ltb_ge. rewrite P, zlen_cons. lia.
Qed.
