(** Proofs about the instruction queue. *)
From Verif Require Import Base BaseFacts InsnQModel InsnQSpec.

Lemma land_lnot_pow2 x k : 0 <= k -> Z.land x (Z.lnot (2 ^ k - 1)) = 2 ^ k * (x / 2 ^ k).
Proof.
  intros Hk. rewrite <- Z.ldiff_land.
  replace (2 ^ k - 1) with (Z.ones k) by (rewrite Z.ones_equiv; lia).
  rewrite Z.ldiff_ones_r by lia. rewrite Z.shiftl_mul_pow2, Z.shiftr_div_pow2 by lia. lia.
Qed.

Lemma align_to_8 v : align_to v 8 = 8 * ((v + 7) / 8).
Proof. unfold align_to. apply (land_lnot_pow2 (v + (8 - 1)) 3). lia. Qed.

Lemma align_to_4 v : align_to v 4 = 4 * ((v + 3) / 4).
Proof. unfold align_to. apply (land_lnot_pow2 (v + (4 - 1)) 2). lia. Qed.

(** ** Encoding relation: [encodes buf off rs fin] says the bytes of [buf] from
    [off] to [fin] hold the requests [rs]. *)
Inductive encodes (buf : Z -> Z) : Z -> list req -> Z -> Prop :=
| enc_nil off : encodes buf off [] off
| enc_write off a bs rs fin :
    0 <= a < 2 ^ 64 -> zlen bs < 2 ^ 32 ->
    mem_read buf off (20 - 4 + length bs) =
      insn_header ULP_INSN_WRITE (req_size (RWrite a bs)) ++ le_enc 4 (zlen bs) ++ le_enc 8 a ++ bs ->
    encodes buf (off + req_size (RWrite a bs)) rs fin ->
    encodes buf off (RWrite a bs :: rs) fin
| enc_print off s rs fin :
    cstr_ok s ->
    mem_read buf off (4 + length s + 1) =
      insn_header ULP_INSN_PRINT (req_size (RPrint s)) ++ s ++ [0] ->
    encodes buf (off + req_size (RPrint s)) rs fin ->
    encodes buf off (RPrint s :: rs) fin.

Lemma req_size_write a bs : 16 + zlen bs <= req_size (RWrite a bs) < 16 + zlen bs + 8.
Proof. cbn [req_size]. zdm. Qed.

Lemma req_size_print s : 4 + zlen s + 1 <= req_size (RPrint s) < 4 + zlen s + 1 + 4.
Proof. cbn [req_size]. zdm. Qed.

Lemma req_size_pos r : 0 < req_size r.
Proof.
  destruct r as [a bs|s].
  - pose proof (req_size_write a bs). pose proof (zlen_nonneg bs). lia.
  - pose proof (req_size_print s). pose proof (zlen_nonneg s). lia.
Qed.

Lemma encodes_le buf off rs fin : encodes buf off rs fin -> off <= fin.
Proof.
  induction 1 as [off|off a bs rs fin Ha Hn Hr He IH|off s rs fin Hs Hr He IH]; [lia| |];
    [pose proof (req_size_pos (RWrite a bs))|pose proof (req_size_pos (RPrint s))]; lia.
Qed.

Lemma encodes_ext b1 b2 off rs fin :
  (forall i, off <= i < fin -> b1 i = b2 i) ->
  encodes b1 off rs fin -> encodes b2 off rs fin.
Proof.
  intros Hext H; revert Hext.
  induction H as [off|off a bs rs fin Ha Hn Hr He IH|off s rs fin Hs Hr He IH]; intros Hext.
  - constructor.
  - pose proof (encodes_le _ _ _ _ He) as Hle.
    pose proof (req_size_write a bs) as Hsz. pose proof (zlen_nonneg bs).
    apply enc_write; auto.
    + rewrite <- Hr. apply mem_read_ext. intros x Hx. symmetry. apply Hext.
      unfold zlen in *. lia.
    + apply IH. intros i Hi. apply Hext. lia.
  - pose proof (encodes_le _ _ _ _ He) as Hle.
    pose proof (req_size_print s) as Hsz. pose proof (zlen_nonneg s).
    apply enc_print; auto.
    + rewrite <- Hr. apply mem_read_ext. intros x Hx. symmetry. apply Hext.
      unfold zlen in *. lia.
    + apply IH. intros i Hi. apply Hext. lia.
Qed.

Lemma encodes_app buf off rs1 mid rs2 fin :
  encodes buf off rs1 mid -> encodes buf mid rs2 fin -> encodes buf off (rs1 ++ rs2) fin.
Proof.
  induction 1 as [off|off a bs rs mid Ha Hn Hr He IH|off s rs mid Hs Hr He IH]; intros H2; simpl; auto.
  - apply enc_write; auto.
  - apply enc_print; auto.
Qed.

Lemma encodes_app_inv buf off rs1 rs2 fin :
  encodes buf off (rs1 ++ rs2) fin ->
  exists mid, encodes buf off rs1 mid /\ encodes buf mid rs2 fin.
Proof.
  revert off; induction rs1 as [|r rs1 IH]; intros off H.
  - exists off. split; [constructor|exact H].
  - cbn [app] in H. inversion H; subst.
    + match goal with He : encodes buf _ (rs1 ++ rs2) _, Hx : mem_read _ _ _ = _ |- _ => destruct (IH _ He) as (mid & He1 & He2) end.
      exists mid. split; [apply enc_write|]; auto.
    + match goal with He : encodes buf _ (rs1 ++ rs2) _, Hx : mem_read _ _ _ = _ |- _ => destruct (IH _ He) as (mid & He1 & He2) end.
      exists mid. split; [apply enc_print|]; auto.
Qed.

(** The queue invariant: it holds exactly the accepted requests. *)
Record qinv (q : insnq) (rs : list req) : Prop := {
  qi_num : q_num q = zlen rs;
  qi_size : 0 <= q_size q <= INSN_BUFFER_MAX;
  qi_ver : q_version q = INSNQ_CURR_VERSION;
  qi_enc : encodes (q_buf q) 0 rs (q_size q)
}.

Lemma qinv_empty stale : qinv (empty_queue stale) [].
Proof.
  constructor; simpl; try reflexivity; try (unfold INSN_BUFFER_MAX; lia). constructor.
Qed.

Definition try_insert (q : insnq) (r : req) : option insnq :=
  match r with
  | RWrite a bs => insnq_insert_write q a bs
  | RPrint s => insnq_insert_print q s
  end.

(** Insertion succeeds exactly when the request fits. *)
Lemma try_insert_fits q r :
  (q_size q + req_size r <= INSN_BUFFER_MAX <-> exists q', try_insert q r = Some q').
Proof.
  pose proof (req_size_pos r) as Hp.
  destruct r as [a bs|s]; cbn [try_insert];
    unfold insnq_insert_write, insnq_insert_print, insnq_get_writable_area;
    rewrite ?align_to_8, ?align_to_4;
    [replace (8 * ((16 + zlen bs + 7) / 8)) with (req_size (RWrite a bs)) by reflexivity
    |replace (4 * ((4 + (zlen s + 1) + 3) / 4)) with (req_size (RPrint s))
      by (cbn [req_size]; do 2 f_equal; lia)];
    match goal with |- context [?n =? 0] => destruct (Z.eqb_spec n 0); [lia|] end;
    match goal with |- context [?n >? INSN_BUFFER_MAX] => destruct (Z.gtb_spec n INSN_BUFFER_MAX) end;
    split; intros Hf; try lia; try (destruct Hf; discriminate); eexists; reflexivity.
Qed.

Lemma try_insert_inv q rs r q' :
  qinv q rs -> req_ok r -> try_insert q r = Some q' -> qinv q' (rs ++ [r]).
Proof.
  intros [Hnum Hsize Hver Henc] Hr Hins.
  assert (Hfit : q_size q + req_size r <= INSN_BUFFER_MAX)
    by (apply try_insert_fits; eauto).
  pose proof (req_size_pos r) as Hp.
  destruct r as [a bs|s]; cbn [try_insert] in Hins;
    unfold insnq_insert_write, insnq_insert_print, insnq_get_writable_area in Hins;
    rewrite ?align_to_8, ?align_to_4 in Hins.
  - change (8 * ((16 + zlen bs + 7) / 8)) with (req_size (RWrite a bs)) in Hins.
    destruct (Z.eqb_spec (req_size (RWrite a bs)) 0); [lia|].
    destruct (Z.gtb_spec (req_size (RWrite a bs) + q_size q) INSN_BUFFER_MAX); [lia|].
    apply Some_inj in Hins; subst q'. cbn [req_ok] in Hr. destruct Hr as [Ha Hb].
    pose proof (req_size_write a bs) as Hsz.
    set (img := insn_header ULP_INSN_WRITE (req_size (RWrite a bs)) ++
                le_enc 4 (zlen bs) ++ le_enc 8 a ++ bs).
    assert (Himg : length img = (20 - 4 + length bs)%nat).
    { reflexivity. }
    constructor; cbn [q_num q_size q_version q_buf q_store].
    + rewrite Hnum, zlen_app. reflexivity.
    + lia.
    + assumption.
    + apply encodes_app with (mid := q_size q).
      * eapply encodes_ext; [|exact Henc]. intros i Hi. symmetry. apply mem_write_out. lia.
      * apply enc_write; auto.
        -- assert (INSN_BUFFER_MAX < 2 ^ 32) by reflexivity. lia.
        -- fold img. rewrite <- Himg. apply mem_read_write_same.
        -- constructor.
  - replace (4 * ((4 + (zlen s + 1) + 3) / 4)) with (req_size (RPrint s)) in Hins
      by (cbn [req_size]; do 2 f_equal; lia).
    destruct (Z.eqb_spec (req_size (RPrint s)) 0); [lia|].
    destruct (Z.gtb_spec (req_size (RPrint s) + q_size q) INSN_BUFFER_MAX); [lia|].
    apply Some_inj in Hins; subst q'. cbn [req_ok] in Hr.
    pose proof (req_size_print s) as Hsz.
    set (img := insn_header ULP_INSN_PRINT (req_size (RPrint s)) ++ s ++ [0]).
    assert (Himg : length img = (4 + length s + 1)%nat).
    { unfold img, insn_header. rewrite !app_length. cbn [length]. rewrite le_enc_length. lia. }
    constructor; cbn [q_num q_size q_version q_buf q_store].
    + rewrite Hnum, zlen_app. reflexivity.
    + lia.
    + assumption.
    + apply encodes_app with (mid := q_size q).
      * eapply encodes_ext; [|exact Henc]. intros i Hi. symmetry. apply mem_write_out. lia.
      * apply enc_print; auto.
        -- fold img. rewrite <- Himg. apply mem_read_write_same.
        -- constructor.
Qed.

Lemma try_insert_size q r q' :
  try_insert q r = Some q' ->
  q_size q' = q_size q + req_size r /\ q_num q' = q_num q + 1.
Proof.
  destruct r as [a bs|s]; cbn [try_insert];
    unfold insnq_insert_write, insnq_insert_print, insnq_get_writable_area;
    rewrite ?align_to_8, ?align_to_4; intros H.
  - change (8 * ((16 + zlen bs + 7) / 8)) with (req_size (RWrite a bs)) in H.
    destruct (_ =? 0); [discriminate|]. destruct (_ >? _); [discriminate|].
    apply Some_inj in H; subst q'. split; reflexivity.
  - replace (4 * ((4 + (zlen s + 1) + 3) / 4)) with (req_size (RPrint s)) in H
      by (cbn [req_size]; do 2 f_equal; lia).
    destruct (_ =? 0); [discriminate|]. destruct (_ >? _); [discriminate|].
    apply Some_inj in H; subst q'. split; reflexivity.
Qed.

Lemma submit_unfold q err r :
  submit (q, err) r = match try_insert q r with Some q' => (q', err) | None => (q, EINSNQ) end.
Proof.
  destruct r; cbn [submit try_insert]; unfold insert_write_st, insert_print_st;
    destruct (_ q _) eqn:E || destruct (_ q _ _) eqn:E; rewrite ?E; reflexivity.
Qed.

(** ** Interpreting an encoded queue performs the requests. *)

Lemma insn_header_dec buf off type sz rest n :
  0 <= sz < 2 ^ 23 ->
  mem_read buf off (4 + n) = insn_header type sz ++ rest ->
  buf off = type /\ insn_size_at buf off = sz /\ mem_read buf (off + 4) n = rest.
Proof.
  intros Hsz H.
  apply mem_read_split in H; [|reflexivity]. destruct H as [H Hrest].
  change 4%nat with (1 + 3)%nat in H.
  change (insn_header type sz) with ([type] ++ le_enc 3 sz) in H.
  apply mem_read_split in H; [|reflexivity]. destruct H as [Ht Hs].
  cbn [mem_read] in Ht. injection Ht as Ht.
  change (Z.of_nat 1) with 1 in Hs. change (Z.of_nat 4) with 4 in Hrest.
  repeat split; [exact Ht| |exact Hrest].
  unfold insn_size_at. rewrite Hs, le_dec_enc_id by (cbn; lia).
  destruct (Z.ltb_spec sz (2 ^ 23)); lia.
Qed.

Lemma cstr_at_enc fuel buf pos s :
  cstr_ok s -> (length s < fuel)%nat ->
  mem_read buf pos (length s + 1) = s ++ [0] ->
  cstr_at fuel buf pos = Some s.
Proof.
  revert fuel pos; induction s as [|c s IH]; intros fuel pos Hs Hf H; destruct fuel as [|f];
    simpl in Hf; try lia; cbn [cstr_at].
  - cbn [length Nat.add mem_read app] in H. injection H as H. rewrite H. reflexivity.
  - inversion Hs as [|? ? Hc Hs']; subst. unfold is_cchar in Hc.
    cbn [length Nat.add mem_read app] in H. injection H as H0 H1.
    rewrite H0. destruct (Z.eqb_spec c 0); [lia|].
    rewrite (IH f (pos + 1)); auto. lia.
Qed.

Section Run.
  Context {T : Type} (pr : list Z -> T -> T) (wr : nat -> Z -> list Z -> Z -> T -> option (Z * T)).

  Lemma interpret_write_enc idx buf off a bs t :
    0 <= off -> off + req_size (RWrite a bs) <= INSN_BUFFER_MAX ->
    0 <= a < 2 ^ 64 ->
    mem_read buf off (20 - 4 + length bs) =
      insn_header ULP_INSN_WRITE (req_size (RWrite a bs)) ++ le_enc 4 (zlen bs) ++ le_enc 8 a ++ bs ->
    buf off = ULP_INSN_WRITE /\
    insn_interpret pr wr idx buf off t = wr idx a bs (req_size (RWrite a bs)) t.
  Proof.
    intros Hoff Hfit Ha Hr.
    pose proof (req_size_write a bs) as Hsz. pose proof (zlen_nonneg bs) as Hn.
    assert (Hmax : INSN_BUFFER_MAX < 2 ^ 23) by reflexivity.
    change (20 - 4 + length bs)%nat with (4 + (4 + (8 + length bs)))%nat in Hr.
    apply insn_header_dec in Hr; [|lia]. destruct Hr as (Ht & Hs & Hr).
    apply mem_read_split in Hr; [|reflexivity]. destruct Hr as [Hlen Hr].
    apply mem_read_split in Hr; [|reflexivity]. destruct Hr as [Haddr Hr].
    replace (off + 4 + Z.of_nat 4) with (off + 8) in * by lia.
    replace (off + 8 + Z.of_nat 8) with (off + 16) in * by lia.
    split; [exact Ht|].
    unfold insn_interpret. rewrite Ht, Hs, Hlen, Haddr.
    rewrite !le_dec_enc_id by (cbn; lia).
    destruct (Z.leb_spec (off + 4) INSN_BUFFER_MAX); [|lia]. cbn [negb].
    change (ULP_INSN_WRITE =? ULP_INSN_NOP) with false.
    change (ULP_INSN_WRITE =? ULP_INSN_PRINT) with false. cbv iota.
    destruct (Z.leb_spec (off + 16) INSN_BUFFER_MAX); [|lia]. cbn [negb].
    destruct (Z.leb_spec (off + 16 + zlen bs) INSN_BUFFER_MAX); [|lia]. cbn [negb].
    replace (Z.to_nat (zlen bs)) with (length bs) by (unfold zlen; lia).
    rewrite Hr. reflexivity.
  Qed.

  Lemma interpret_print_enc idx buf off s t :
    0 <= off -> off + req_size (RPrint s) <= INSN_BUFFER_MAX -> cstr_ok s ->
    mem_read buf off (4 + length s + 1) =
      insn_header ULP_INSN_PRINT (req_size (RPrint s)) ++ s ++ [0] ->
    buf off = ULP_INSN_PRINT /\
    insn_interpret pr wr idx buf off t = Some (req_size (RPrint s), pr s t).
  Proof.
    intros Hoff Hfit Hs Hr.
    pose proof (req_size_print s) as Hsz. pose proof (zlen_nonneg s) as Hn.
    assert (Hmax : INSN_BUFFER_MAX < 2 ^ 23) by reflexivity.
    change (4 + length s + 1)%nat with (4 + (length s + 1))%nat in Hr.
    apply insn_header_dec in Hr; [|lia]. destruct Hr as (Ht & Hsize & Hr).
    split; [exact Ht|].
    unfold insn_interpret. rewrite Ht, Hsize.
    destruct (Z.leb_spec (off + 4) INSN_BUFFER_MAX); [|lia]. cbn [negb].
    change (ULP_INSN_PRINT =? ULP_INSN_NOP) with false.
    change (ULP_INSN_PRINT =? ULP_INSN_PRINT) with true. cbv iota.
    rewrite (cstr_at_enc _ buf (off + 4) s); auto.
    unfold zlen in *. lia.
  Qed.
End Run.

(** Running requests one after the other with the given write primitive, when
    every write returns the size of its instruction. *)
Section Loop.
  Context {T : Type} (pr : list Z -> T -> T) (wr : nat -> Z -> list Z -> Z -> T -> option (Z * T)).

  Inductive runs : nat -> list req -> T -> T -> Prop :=
  | runs_nil idx t : runs idx [] t t
  | runs_write idx a bs rs t t1 t2 :
      wr idx a bs (req_size (RWrite a bs)) t = Some (req_size (RWrite a bs), t1) ->
      runs (S idx) rs t1 t2 -> runs idx (RWrite a bs :: rs) t t2
  | runs_print idx s rs t t2 :
      runs (S idx) rs (pr s t) t2 -> runs idx (RPrint s :: rs) t t2.

  (** A run prefix [rs1] followed by whatever the loop does afterwards. *)
  Lemma loop_prefix buf off rs1 mid idx t t1 k fin :
    encodes buf off rs1 mid -> 0 <= off -> mid <= INSN_BUFFER_MAX ->
    runs idx rs1 t t1 ->
    insnq_loop pr wr (length rs1 + k) idx buf fin off t =
    insnq_loop pr wr k (length rs1 + idx) buf fin mid t1.
  Proof.
    intros H; revert idx t.
    induction H as [off|off a bs rs mid Ha Hn Hr He IH|off s rs mid Hs Hr He IH];
      intros idx t Hoff Hfin Hrun; inversion Hrun; subst.
    - reflexivity.
    - match goal with H1 : wr _ _ _ _ _ = _, H2 : runs _ _ _ _ |- _ => rename H1 into Hw; rename H2 into Hrest end.
      pose proof (encodes_le _ _ _ _ He) as Hle. pose proof (req_size_pos (RWrite a bs)) as Hp.
      destruct (interpret_write_enc pr wr idx buf off a bs t) as [Ht Hi]; auto; [lia|].
      cbn [length Nat.add insnq_loop].
      destruct (Z.leb_spec 0 off); [|lia].
      destruct (Z.ltb_spec off INSN_BUFFER_MAX); [|lia]. cbn [andb negb].
      rewrite Ht. change (ulp_insn_valid ULP_INSN_WRITE) with true. cbv iota.
      rewrite Hi, Hw. rewrite (IH (S idx)); [|lia|lia|assumption]. f_equal. lia.
    - match goal with H2 : runs _ _ _ _ |- _ => rename H2 into Hrest end.
      pose proof (encodes_le _ _ _ _ He) as Hle. pose proof (req_size_pos (RPrint s)) as Hp.
      destruct (interpret_print_enc pr wr idx buf off s t) as [Ht Hi]; auto; [lia|].
      cbn [length Nat.add insnq_loop].
      destruct (Z.leb_spec 0 off); [|lia].
      destruct (Z.ltb_spec off INSN_BUFFER_MAX); [|lia]. cbn [andb negb].
      rewrite Ht. change (ulp_insn_valid ULP_INSN_PRINT) with true. cbv iota.
      rewrite Hi. rewrite (IH (S idx)); [|lia|lia|assumption]. f_equal. lia.
  Qed.

  Lemma loop_encoded buf rs fin idx t t2 :
    encodes buf 0 rs fin -> fin <= INSN_BUFFER_MAX -> runs idx rs t t2 ->
    insnq_loop pr wr (length rs) idx buf fin 0 t = I_ret 0 t2.
  Proof.
    intros He Hf Hr. rewrite <- (Nat.add_0_r (length rs)).
    rewrite (loop_prefix buf 0 rs fin idx t t2 0 fin); auto; try lia.
    cbn [insnq_loop]. rewrite Z.eqb_refl. reflexivity.
  Qed.
End Loop.

(** ** Tool side *)

Lemma tool_runs wf rs idx t :
  (forall i, (idx <= i < idx + length rs)%nat -> wf i = None) ->
  runs tgt_print (tool_write wf) idx rs t (perform_all rs t).
Proof.
  revert idx t; induction rs as [|r rs IH]; intros idx t Hwf; [constructor|].
  cbn [length] in Hwf.
  destruct r as [a bs|s].
  - eapply runs_write.
    + unfold tool_write. rewrite Hwf by lia. reflexivity.
    + apply IH. intros i Hi. apply Hwf. lia.
  - apply runs_print. apply IH. intros i Hi. apply Hwf. lia.
Qed.

(** The buffer as the tool sees it. *)
Definition fetched (rq : insnq) : Z -> Z :=
  fun i => if (0 <=? i) && (i <? u32 (q_size rq)) then q_buf rq i else 0.

Lemma get_from_remote_ok e rq rs :
  qinv rq rs -> te_rd_hdr e = 0 -> te_rd_body e = 0 ->
  exists q, insnq_get_from_remote_process e rq = (0, q) /\ q_num q = q_num rq /\ q_size q = q_size rq /\ encodes (q_buf q) 0 rs (q_size rq).
Proof.
  intros [Hnum Hsize Hver Henc] H1 H2.
  assert (HM : INSN_BUFFER_MAX < 2 ^ 32) by reflexivity.
  unfold insnq_get_from_remote_process. rewrite H1, H2, Hver. cbn [negb Z.eqb Z.gtb Z.compare Pos.compare].
  change (INSNQ_CURR_VERSION >? INSNQ_CURR_VERSION) with false. cbv iota.
  assert (Hu : u32 (q_size rq) = q_size rq) by (unfold u32; apply Z.mod_small; lia).
  rewrite Hu.
  destruct (Z.eqb_spec (q_size rq) 0) as [E|E].
  - eexists; split; [reflexivity|]. cbn [q_num q_size q_buf]. rewrite E in *.
    repeat split; auto. eapply encodes_ext; [|exact Henc]. intros i Hi. lia.
  - destruct (Z.gtb_spec (q_size rq) INSN_BUFFER_MAX); [lia|]. cbn [negb].
    eexists; split; [reflexivity|]. cbn [q_num q_size q_buf]. repeat split; auto.
    eapply encodes_ext; [|exact Henc]. intros i Hi. cbv beta.
    destruct (Z.leb_spec 0 i); [|lia]. destruct (Z.ltb_spec i (q_size rq)); [|lia]. reflexivity.
Qed.

Lemma interpret_exact e rq rs t :
  qinv rq rs -> te_rd_hdr e = 0 -> te_rd_body e = 0 -> te_upd e = 0 ->
  (forall i, te_wf e i = None) ->
  insnq_interpret_from_process e true rq t = Some (0, insnq_reset rq, perform_all rs t).
Proof.
  intros Hq H1 H2 H3 Hwf.
  destruct (get_from_remote_ok e rq rs Hq H1 H2) as (q & Hg & Hn & Hs & Henc).
  unfold insnq_interpret_from_process. cbn [negb]. rewrite Hg. cbn [negb Z.eqb].
  destruct Hq as [Hnum Hsize Hver _].
  rewrite Hs. destruct (Z.gtb_spec (q_size rq) INSN_BUFFER_MAX); [lia|].
  unfold insnq_interpret. rewrite Hn, Hnum. rewrite Hs.
  destruct (Z.ltb_spec (zlen rs) 0); [pose proof (zlen_nonneg rs); lia|].
  replace (Z.to_nat (zlen rs)) with (length rs) by (unfold zlen; lia).
  rewrite (loop_encoded _ _ _ rs (q_size rq) 0 t (perform_all rs t)); auto; try lia.
  - cbn [negb Z.eqb]. rewrite H3. reflexivity.
  - apply tool_runs. auto.
Qed.

(** A failing write as the last request is noticed: the program counter ends
    before the end of the queue. *)
Lemma last_write_fails e rq rs a bs t k :
  qinv rq (rs ++ [RWrite a bs]) -> te_rd_hdr e = 0 -> te_rd_body e = 0 ->
  (forall i, (i < length rs)%nat -> te_wf e i = None) ->
  te_wf e (length rs) = Some k ->
  exists t', insnq_interpret_from_process e true rq t = Some (EINSNQ, rq, t').
Proof.
  intros Hq H1 H2 Hwf Hk.
  destruct (get_from_remote_ok e rq _ Hq H1 H2) as (q & Hg & Hn & Hs & Henc).
  unfold insnq_interpret_from_process. cbn [negb]. rewrite Hg. cbn [negb Z.eqb].
  destruct Hq as [Hnum Hsize Hver _].
  rewrite Hs. destruct (Z.gtb_spec (q_size rq) INSN_BUFFER_MAX); [lia|].
  unfold insnq_interpret. rewrite Hn, Hnum. rewrite Hs.
  destruct (Z.ltb_spec (zlen (rs ++ [RWrite a bs])) 0);
    [pose proof (zlen_nonneg (rs ++ [RWrite a bs])); lia|].
  replace (Z.to_nat (zlen (rs ++ [RWrite a bs]))) with (length rs + 1)%nat
    by (unfold zlen; rewrite app_length; simpl; lia).
  apply encodes_app_inv in Henc. destruct Henc as (mid & He1 & He2).
  pose proof (encodes_le _ _ _ _ He1) as Hle1. pose proof (encodes_le _ _ _ _ He2) as Hle2.
  rewrite (loop_prefix _ _ _ 0 rs mid 0 t (perform_all rs t)); auto; try lia;
    [|apply tool_runs; intros; apply Hwf; lia].
  inversion He2 as [|? ? ? ? ? Ha Hlen Hr Hrest|]; subst.
  assert (Hmid : q_size rq = mid + req_size (RWrite a bs)) by (inversion Hrest; reflexivity).
  rewrite Hmid in *. clear Hrest.
  destruct (interpret_write_enc tgt_print (tool_write (te_wf e)) (length rs + 0) (q_buf q) mid a bs
              (perform_all rs t)) as [Ht Hi]; auto; try lia.
  cbn [insnq_loop].
  pose proof (req_size_pos (RWrite a bs)).
  destruct (Z.leb_spec 0 mid); [|lia].
  destruct (Z.ltb_spec mid INSN_BUFFER_MAX); [|lia]. cbn [andb negb].
  rewrite Ht. change (ulp_insn_valid ULP_INSN_WRITE) with true. cbv iota.
  rewrite Hi. unfold tool_write. rewrite Nat.add_0_r, Hk.
  destruct (Z.eqb_spec (mid + -1) (mid + req_size (RWrite a bs))); [lia|].
  eexists. reflexivity.
Qed.

(** ** Submission *)

Lemma submit_all_inv rs q err rs0 :
  Forall req_ok rs -> qinv q rs0 -> err <> EINSNQ ->
  let (q', err') := submit_all rs (q, err) in
  (err' = err /\ qinv q' (rs0 ++ rs)) \/ err' = EINSNQ.
Proof.
  revert q err rs0; induction rs as [|r rs IH]; intros q err rs0 Hok Hq He.
  - cbn. left. rewrite app_nil_r. auto.
  - inversion Hok as [|? ? Hr Hok']; subst.
    change (submit_all (r :: rs) (q, err)) with (submit_all rs (submit (q, err) r)).
    rewrite submit_unfold. destruct (try_insert q r) as [q1|] eqn:E.
    + specialize (IH q1 err (rs0 ++ [r]) Hok' (try_insert_inv _ _ _ _ Hq Hr E) He).
      rewrite <- app_assoc in IH. exact IH.
    + clear IH. assert (G : forall l q0, let (_, e') := submit_all l (q0, EINSNQ) in e' = EINSNQ).
      { induction l as [|r' l IHl]; intros q0; [reflexivity|].
        change (submit_all (r' :: l) (q0, EINSNQ)) with (submit_all l (submit (q0, EINSNQ) r')).
        rewrite submit_unfold. destruct (try_insert q0 r'); apply IHl. }
      specialize (G rs q). destruct (submit_all rs (q, EINSNQ)). right; exact G.
Qed.

Lemma submit_all_bound rs q err :
  0 <= q_size q <= INSN_BUFFER_MAX ->
  0 <= q_size (fst (submit_all rs (q, err))) <= INSN_BUFFER_MAX.
Proof.
  revert q err; induction rs as [|r rs IH]; intros q err Hq; [exact Hq|].
  change (submit_all (r :: rs) (q, err)) with (submit_all rs (submit (q, err) r)).
  rewrite submit_unfold. destruct (try_insert q r) as [q1|] eqn:E; apply IH; [|exact Hq].
  assert (q_size q + req_size r <= INSN_BUFFER_MAX) by (apply try_insert_fits; eauto).
  destruct (try_insert_size _ _ _ E) as [-> _]. pose proof (req_size_pos r). lia.
Qed.

Lemma submit_all_complete rs q err :
  q_size q + total_size rs <= INSN_BUFFER_MAX ->
  snd (submit_all rs (q, err)) = err /\ q_size (fst (submit_all rs (q, err))) = q_size q + total_size rs.
Proof.
  revert q; induction rs as [|r rs IH]; intros q Hfit.
  - cbn in *. split; [reflexivity|lia].
  - change (submit_all (r :: rs) (q, err)) with (submit_all rs (submit (q, err) r)).
    change (total_size (r :: rs)) with (req_size r + total_size rs) in *.
    assert (0 <= total_size rs).
    { clear. induction rs as [|r rs IH]; [cbn; lia|].
      change (total_size (r :: rs)) with (req_size r + total_size rs).
      pose proof (req_size_pos r). lia. }
    rewrite submit_unfold.
    destruct (try_insert q r) as [q1|] eqn:E.
    + destruct (try_insert_size _ _ _ E) as [Hs _].
      destruct (IH q1) as [I1 I2]; [lia|]. split; [exact I1|]. lia.
    + exfalso. destruct (proj1 (try_insert_fits q r)) as [q' Hq']; [lia|]. congruence.
Qed.

Lemma submit_stores_in_bounds q err r x :
  0 <= q_size q ->
  (x < 0 \/ INSN_BUFFER_MAX <= x) ->
  q_buf (fst (submit (q, err) r)) x = q_buf q x.
Proof.
  intros Hq Hx. rewrite submit_unfold. destruct (try_insert q r) as [q1|] eqn:E; [|reflexivity].
  assert (Hfit : q_size q + req_size r <= INSN_BUFFER_MAX) by (apply try_insert_fits; eauto).
  destruct r as [a bs|s]; cbn [try_insert] in E;
    unfold insnq_insert_write, insnq_insert_print, insnq_get_writable_area in E;
    destruct (_ =? 0); try discriminate; destruct (_ >? _); try discriminate;
    apply Some_inj in E; subst q1; cbn [q_buf q_store fst]; apply mem_write_out; unfold insn_header, zlen;
    rewrite ?app_length; cbn [length]; rewrite ?app_length, ?le_enc_length; cbn [length].
  - pose proof (req_size_write a bs). unfold zlen in *. lia.
  - pose proof (req_size_print s). unfold zlen in *. lia.
Qed.
