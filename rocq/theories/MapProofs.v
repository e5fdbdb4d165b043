(** Lemmas about finding the protection of a page. *)
From Verif Require Import Base BaseFacts TextModel IntrSpec MapModel MapSpec.

Lemma read_line_whole err l rest : ~ In 10 l -> forall n, (List.length l < n)%nat ->
  read_line err n (l ++ 10 :: rest) = Some (l, rest).
Proof.
  induction l as [|c l IH]; intros Hn n Hl; (destruct n as [|n]; [cbn in Hl; lia|]); cbn [app read_line].
  - reflexivity.
  - destruct (Z.eqb_spec c 10) as [->|E]; [exfalso; apply Hn; left; reflexivity|].
    rewrite IH; [reflexivity|intros X; apply Hn; right; exact X|cbn in Hl; lia].
Qed.

Lemma read_line_long err l rest : ~ In 10 l -> forall n, (n <= List.length l)%nat ->
  read_line err n (l ++ rest) = None.
Proof.
  induction l as [|c l IH]; intros Hn n Hl.
  - cbn in Hl. replace n with O by lia. reflexivity.
  - destruct n as [|n]; [reflexivity|]. cbn [app read_line].
    destruct (Z.eqb_spec c 10) as [->|E]; [exfalso; apply Hn; left; reflexivity|].
    rewrite IH; [reflexivity|intros X; apply Hn; right; exact X|cbn in Hl; lia].
Qed.

Lemma unhex_digit c : hexdigit c -> unhex c = Some (if c <=? 57 then c - 48 else c - 87).
Proof.
  unfold hexdigit, unhex. intros H. destruct ((48 <=? c) && (c <=? 57)) eqn:E.
  - destruct (Z.leb_spec c 57); [reflexivity|lia].
  - destruct (Z.leb_spec c 57) as [L|L]; [lia|]. destruct ((97 <=? c) && (c <=? 102)) eqn:E2; [reflexivity|lia].
Qed.

Lemma hex_scan_digits s rest : Forall hexdigit s ->
  (forall c t, rest = c :: t -> unhex c = None) ->
  forall v, hex_scan (s ++ rest) v = (fold_left (fun v c => 16 * v + (if c <=? 57 then c - 48 else c - 87)) s v, rest).
Proof.
  intros H Hr. induction H as [|c s Hc Hs IH]; intros v; cbn [app hex_scan fold_left].
  - destruct rest as [|c t]; [reflexivity|]. cbn [hex_scan]. rewrite (Hr c t eq_refl). reflexivity.
  - rewrite (unhex_digit c Hc). apply IH.
Qed.

Lemma strtoul_num s c rest : hexnum s -> unhex c = None -> strtoul16_end (s ++ c :: rest) = (hexval s, c :: rest).
Proof.
  intros (_ & H1 & H2) Hc. unfold strtoul16_end. rewrite hex_scan_digits; [|exact H1|].
  - fold (hexval s). rewrite Z.min_l by lia. reflexivity.
  - intros x t E. injection E as <- <-. exact Hc.
Qed.

(** The text of a line without its newline. *)
Definition line_body (m : mline) : list Z :=
  ml_start m ++ 45 :: ml_end m ++ 32 :: ml_perm m ++ 32 :: ml_off m ++ 32 :: ml_dev m ++ 32 :: ml_inode m ++
  32 :: repeat 32 (ml_pad m) ++ ml_path m.

Lemma line_body_text m : mline_text m = line_body m ++ [10].
Proof. unfold mline_text, line_body. repeat (rewrite <- app_assoc; cbn [app]). reflexivity. Qed.

Lemma hexnum_no_nl s : hexnum s -> ~ In 10 s.
Proof. intros (_ & H & _) X. rewrite Forall_forall in H. specialize (H 10 X). unfold hexdigit in H. lia. Qed.

Lemma line_body_plain m : map_ok m -> ~ In 10 (line_body m).
Proof.
  intros (H1 & H2 & (r & w & x & s & Hp & P1 & P2 & P3 & P4) & H3 & H4 & H5 & H6) X. unfold line_body in X. rewrite Hp in X.
  assert (R : ~ In 10 (repeat 32 (ml_pad m))) by (intros Y; apply repeat_spec in Y; lia).
  pose proof (hexnum_no_nl _ H1). pose proof (hexnum_no_nl _ H2).
  repeat (rewrite in_app_iff in X || cbn [In app] in X).
  intuition lia.
Qed.

Lemma zlen_line m : zlen (mline_text m) = zlen (line_body m) + 1.
Proof. rewrite line_body_text, zlen_app. reflexivity. Qed.

Lemma line_nonempty m : line_body m <> [].
Proof. unfold line_body. destruct (ml_start m); discriminate. Qed.

(** One round. *)
Lemma round m rest fuel err addr : map_ok m -> zlen (mline_text m) <= LINE_MAX ->
  prot_loop (S fuel) err addr (mline_text m ++ rest) =
  if (addr <? hexval (ml_start m)) || (hexval (ml_end m) <=? addr) then prot_loop fuel err addr rest
  else prot_bits (32 :: ml_perm m ++ 32 :: ml_off m ++ 32 :: ml_dev m ++ 32 :: ml_inode m ++
         32 :: repeat 32 (ml_pad m) ++ ml_path m ++ [10]).
Proof.
  intros H Hl. pose proof (line_body_plain m H) as Hp. rewrite zlen_line in Hl.
  cbn [prot_loop]. rewrite line_body_text, <- app_assoc. cbn [app].
  rewrite read_line_whole; [|exact Hp|unfold zlen, LINE_MAX in *; lia].
  destruct (line_body m) as [|c l] eqn:E; [destruct (line_nonempty m E)|]. rewrite <- E in *. clear E.
  assert (B : line_body m ++ [10] = ml_start m ++ 45 :: ml_end m ++ 32 :: ml_perm m ++ 32 :: ml_off m ++ 32 :: ml_dev m ++
     32 :: ml_inode m ++ 32 :: repeat 32 (ml_pad m) ++ ml_path m ++ [10]).
  { rewrite <- line_body_text. reflexivity. }
  rewrite B. destruct H as (H1 & H2 & _).
  rewrite strtoul_num by (exact H1 || reflexivity). rewrite strtoul_num by (exact H2 || reflexivity). reflexivity.
Qed.

Lemma perm_bits m rest prot : map_ok m -> protection m prot -> prot_bits (32 :: ml_perm m ++ rest) = Some prot.
Proof.
  intros _ (r & w & x & s & E & ->). rewrite E. cbn [app prot_bits]. f_equal.
  destruct (r =? 114), (w =? 119), (x =? 120); reflexivity.
Qed.

Lemma maps_len_cons m ms : (S (List.length (maps_text ms)) <= List.length (maps_text (m :: ms)))%nat.
Proof.
  unfold maps_text. cbn [flat_map]. rewrite app_length. pose proof (zlen_line m). pose proof (zlen_nonneg (line_body m)).
  unfold zlen in *. lia.
Qed.

Lemma finds ms : Forall map_ok ms -> forall before m after tail fuel err addr prot,
  ms = before ++ m :: after ->
  Forall (fun m => zlen (mline_text m) <= LINE_MAX) (before ++ [m]) ->
  (forall b, In b before -> ~ covers b addr) -> covers m addr -> protection m prot ->
  (List.length ms <= fuel)%nat ->
  prot_loop fuel err addr (maps_text ms ++ tail) = Some prot.
Proof.
  induction 1 as [|m0 ms H0 Hs IH]; intros before m after tail fuel err addr prot E Hl Hb Hm Hp Hf.
  - destruct before; discriminate.
  - destruct fuel as [|fuel]; [cbn in Hf; lia|]. unfold maps_text. cbn [flat_map]. rewrite <- app_assoc.
    destruct before as [|b before]; cbn [app] in E; injection E as -> E.
    + apply Forall_inv in Hl. rewrite round by assumption. unfold covers in Hm.
      destruct (Z.ltb_spec addr (hexval (ml_start m))); [lia|].
      destruct (Z.leb_spec (hexval (ml_end m)) addr); [lia|]. cbn [orb].
      apply perm_bits; assumption.
    + cbn [app] in Hl. pose proof (Forall_inv Hl). rewrite round by assumption.
      assert (C : (addr <? hexval (ml_start b)) || (hexval (ml_end b) <=? addr) = true).
      { specialize (Hb b (or_introl eq_refl)). unfold covers in Hb. lia. }
      rewrite C. fold (maps_text ms). eapply IH; [exact E|exact (Forall_inv_tail Hl)| |exact Hm|exact Hp|cbn in Hf; lia].
      intros x Hx. apply Hb. right. exact Hx.
Qed.

Lemma not_found ms : Forall map_ok ms -> Forall (fun m => zlen (mline_text m) <= LINE_MAX) ms ->
  forall err addr fuel, (forall b, In b ms -> ~ covers b addr) -> (List.length ms < fuel)%nat ->
  prot_loop fuel err addr (maps_text ms) = Some (-1).
Proof.
  induction 1 as [|m0 ms H0 Hs IH]; intros Hl err addr fuel Hb Hf; (destruct fuel as [|fuel]; [cbn in Hf; lia|]).
  - cbn [prot_loop maps_text flat_map]. change (Z.to_nat LINE_MAX) with (S (Z.to_nat (LINE_MAX - 1))).
    cbn [read_line]. destruct err; reflexivity.
  - unfold maps_text. cbn [flat_map]. rewrite round by (exact H0 || exact (Forall_inv Hl)).
    assert (C : (addr <? hexval (ml_start m0)) || (hexval (ml_end m0) <=? addr) = true).
    { specialize (Hb m0 (or_introl eq_refl)). unfold covers in Hb. lia. }
    rewrite C. fold (maps_text ms). apply IH; [exact (Forall_inv_tail Hl)|intros x Hx; apply Hb; right; exact Hx|cbn in Hf; lia].
Qed.

Lemma lines_le_text ms : (List.length ms <= List.length (maps_text ms))%nat.
Proof. induction ms as [|m ms IH]; [reflexivity|]. pose proof (maps_len_cons m ms). cbn [List.length]. lia. Qed.

Lemma stops_at_long before m tail : Forall map_ok before -> map_ok m ->
  Forall (fun m => zlen (mline_text m) <= LINE_MAX) before -> LINE_MAX < zlen (mline_text m) ->
  forall err addr fuel, (forall b, In b before -> ~ covers b addr) -> (List.length before < fuel)%nat ->
  prot_loop fuel err addr (maps_text before ++ mline_text m ++ tail) = Some (-1).
Proof.
  intros Hb Hm Hl Hlong. induction Hb as [|m0 ms H0 Hs IH]; intros err addr fuel Hc Hf; (destruct fuel as [|fuel]; [cbn in Hf; lia|]).
  - cbn [prot_loop maps_text flat_map app]. rewrite line_body_text, <- app_assoc.
    rewrite read_line_long; [reflexivity|apply line_body_plain; exact Hm|].
    rewrite zlen_line in Hlong. unfold zlen, LINE_MAX in *. lia.
  - unfold maps_text. cbn [flat_map]. rewrite <- app_assoc. rewrite round by (exact H0 || exact (Forall_inv Hl)).
    assert (C : (addr <? hexval (ml_start m0)) || (hexval (ml_end m0) <=? addr) = true).
    { specialize (Hc m0 (or_introl eq_refl)). unfold covers in Hc. lia. }
    rewrite C. fold (maps_text ms). apply IH; [exact (Forall_inv_tail Hl)|intros x Hx; apply Hc; right; exact Hx|cbn in Hf; lia].
Qed.
