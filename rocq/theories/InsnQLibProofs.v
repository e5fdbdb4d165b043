(** Proofs about executing the queue: in-process writes with page protections,
    hostile queue contents, failing writes. *)
From Verif Require Import Base BaseFacts InsnQModel InsnQSpec InsnQProofs.

(** ** Pages *)

Lemma page_land k x : 0 <= k -> Z.land x (Z.lnot (2 ^ k - 1)) = page_of (2 ^ k) x.
Proof. intros. unfold page_of. apply land_lnot_pow2; auto. Qed.

Lemma collect_prots_spec ps p page n l :
  collect_prots p ps page n = Some l ->
  length l = n /\
  forall i, (i < n)%nat -> p (page + Z.of_nat i * ps) = Some (nth i l 0).
Proof.
  revert page l; induction n as [|n IH]; intros page l H; cbn [collect_prots] in H.
  - injection H as <-. split; [reflexivity|]. intros; lia.
  - destruct (p page) as [v|] eqn:Ev; [|discriminate].
    destruct (collect_prots p ps (page + ps) n) as [l'|] eqn:El; [|discriminate].
    injection H as <-. destruct (IH _ _ El) as [Hl Hi]. split; [simpl; lia|].
    intros [|i] Hlt; cbn [nth].
    + replace (page + Z.of_nat 0 * ps) with page by lia. exact Ev.
    + replace (page + Z.of_nat (S i) * ps) with (page + ps + Z.of_nat i * ps) by lia.
      apply Hi. lia.
Qed.

Lemma collect_prots_some ps p page n :
  (forall i, (i < n)%nat -> p (page + Z.of_nat i * ps) <> None) ->
  exists l, collect_prots p ps page n = Some l.
Proof.
  revert page; induction n as [|n IH]; intros page H; cbn [collect_prots]; [eauto|].
  destruct (p page) as [v|] eqn:Ev.
  - destruct (IH (page + ps)) as [l Hl].
    + intros i Hi. replace (page + ps + Z.of_nat i * ps) with (page + Z.of_nat (S i) * ps) by lia.
      apply H. lia.
    + rewrite Hl. eauto.
  - exfalso. apply (H O); [lia|]. replace (page + Z.of_nat 0 * ps) with page by lia. exact Ev.
Qed.

Lemma mprotect_run_spec mp ps vals :
  0 < ps -> (forall x, mp x = true) ->
  forall p page, exists p',
    mprotect_run mp p ps page vals = (true, p') /\
    (forall i, (i < length vals)%nat -> p' (page + Z.of_nat i * ps) = Some (nth i vals 0)) /\
    (forall x, (forall i, (i < length vals)%nat -> x <> page + Z.of_nat i * ps) -> p' x = p x).
Proof.
  intros Hps Hmp. induction vals as [|v vals IH]; intros p page; cbn [mprotect_run].
  - eexists; split; [reflexivity|]. split; [simpl; intros; lia|auto].
  - rewrite Hmp. destruct (IH (set_prot p page v) (page + ps)) as (p' & Hr & Hin & Hout).
    exists p'. split; [exact Hr|]. split.
    + intros [|i] Hi; cbn [nth length] in *.
      * rewrite Hout.
        -- unfold set_prot. replace (page + Z.of_nat 0 * ps) with page by lia.
           rewrite Z.eqb_refl. reflexivity.
        -- intros i _. nia.
      * replace (page + Z.of_nat (S i) * ps) with (page + ps + Z.of_nat i * ps) by lia.
        apply Hin. lia.
    + intros x Hx. cbn [length] in Hx. rewrite Hout.
      * unfold set_prot. destruct (Z.eqb_spec x page) as [E|E]; [|reflexivity].
        exfalso. apply (Hx O); lia.
      * intros i Hi. specialize (Hx (S i) ltac:(lia)). lia.
Qed.

Lemma land_lor_write v : Z.land (Z.lor v PROT_WRITE) PROT_WRITE <> 0.
Proof.
  intros H. assert (Hb : Z.testbit (Z.land (Z.lor v PROT_WRITE) PROT_WRITE) 1 = false)
    by (rewrite H; apply Z.bits_0).
  rewrite Z.land_spec, Z.lor_spec in Hb. change (Z.testbit PROT_WRITE 1) with true in Hb.
  rewrite orb_true_r in Hb. discriminate.
Qed.

(** Bounded search for an unmapped page. *)
Lemma search_none (f : nat -> option Z) n :
  (exists i, (i < n)%nat /\ f i = None) \/ (forall i, (i < n)%nat -> f i <> None).
Proof.
  induction n as [|n IH].
  - right; intros; lia.
  - destruct IH as [(i & Hi & Hf)|IH]; [left; exists i; split; [lia|exact Hf]|].
    destruct (f n) as [v|] eqn:E.
    + right. intros i Hi. destruct (Nat.eq_dec i n) as [->|]; [congruence|apply IH; lia].
    + left. exists n. split; [lia|exact E].
Qed.

Section LibWrite.
  Variables (k : Z) (addr : Z) (bytes : list Z).
  Hypothesis Hk : 0 <= k.
  Hypothesis Ha : 0 <= addr.
  Hypothesis Hn : addr + zlen bytes < 2 ^ 64.
  Let ps := 2 ^ k.

  Lemma ps_pos : 0 < ps.
  Proof. apply Z.pow_pos_nonneg; lia. Qed.

  Lemma num_pages_eq :
    1 + (Z.land (u64 (addr + zlen bytes)) (Z.lnot (ps - 1)) - Z.land addr (Z.lnot (ps - 1))) / ps =
    1 + (addr + zlen bytes) / ps - addr / ps.
  Proof.
    pose proof (zlen_nonneg bytes). pose proof ps_pos as Hps.
    unfold u64. rewrite Z.mod_small by lia. unfold ps in *. rewrite !page_land by lia. unfold page_of.
    replace (2 ^ k * ((addr + zlen bytes) / 2 ^ k) - 2 ^ k * (addr / 2 ^ k))
      with (((addr + zlen bytes) / 2 ^ k - addr / 2 ^ k) * 2 ^ k) by lia.
    rewrite Z.div_mul by lia. lia.
  Qed.

  Lemma can_store_after p p1 prots page1 :
    page1 = page_of ps addr ->
    length prots = Z.to_nat (1 + (addr + zlen bytes) / ps - addr / ps) ->
    (forall i, (i < length prots)%nat ->
       p1 (page1 + Z.of_nat i * ps) = Some (Z.lor (nth i prots 0) PROT_WRITE)) ->
    p = p1 -> can_store p ps addr (length bytes) = true.
  Proof.
    intros Hp1 Hlen Hin ->. pose proof ps_pos as Hps.
    unfold can_store. apply forallb_forall. intros i Hi. apply in_seq in Hi.
    unfold ps at 1. rewrite page_land by lia. fold ps.
    set (j := (addr + Z.of_nat i) / ps - addr / ps).
    assert (Hd1 : addr / ps <= (addr + Z.of_nat i) / ps) by (apply Z.div_le_mono; lia).
    assert (Hd2 : (addr + Z.of_nat i) / ps <= (addr + zlen bytes) / ps)
      by (apply Z.div_le_mono; unfold zlen; lia).
    assert (Hpage : page_of ps (addr + Z.of_nat i) = page1 + Z.of_nat (Z.to_nat j) * ps).
    { rewrite Hp1. unfold page_of, j. rewrite Z2Nat.id by lia. lia. }
    rewrite Hpage, Hin by (unfold j; lia).
    pose proof (land_lor_write (nth (Z.to_nat j) prots 0)) as Hw.
    destruct (Z.eqb_spec (Z.land (Z.lor (nth (Z.to_nat j) prots 0) PROT_WRITE) PROT_WRITE) 0); auto.
  Qed.

  (** With every mprotect succeeding, the write is either refused without any
      effect or done completely; the protections are the same afterwards. *)
  Lemma lib_write_atomic env idx size t :
    (forall x, lw_set (env idx) x = true) -> (forall x, lw_restore (env idx) x = true) ->
    (lib_write ps env idx addr bytes size t = Some (lw_errno (env idx), t) /\
     exists x, addr <= x <= addr + zlen bytes /\ l_prot t (page_of ps x) = None) \/
    exists p',
      lib_write ps env idx addr bytes size t =
        Some (size, mk_ltgt (mem_write (l_mem t) addr bytes) p' (l_out t)) /\
      forall x, p' x = l_prot t x.
  Proof.
    intros H1 H2. pose proof ps_pos as Hps. pose proof (zlen_nonneg bytes) as Hzn.
    unfold lib_write. rewrite num_pages_eq.
    assert (Hp1 : Z.land addr (Z.lnot (ps - 1)) = page_of ps addr) by (apply page_land; lia).
    rewrite Hp1.
    destruct (collect_prots (l_prot t) ps (page_of ps addr)
                (Z.to_nat (1 + (addr + zlen bytes) / ps - addr / ps))) as [prots|] eqn:Ec.
    - right. destruct (collect_prots_spec _ _ _ _ _ Ec) as [Hlen Hprot].
      destruct (mprotect_run_spec (lw_set (env idx)) ps (map (fun v => Z.lor v PROT_WRITE) prots)
                  Hps H1 (l_prot t) (page_of ps addr)) as (p1 & Hr1 & Hin1 & Hout1).
      rewrite Hr1. cbn [negb].
      rewrite map_length in *.
      assert (Hin1' : forall i, (i < length prots)%nat ->
                p1 (page_of ps addr + Z.of_nat i * ps) = Some (Z.lor (nth i prots 0) PROT_WRITE)).
      { intros i Hi. rewrite Hin1 by assumption. f_equal.
        rewrite (nth_indep _ 0 (Z.lor 0 PROT_WRITE)) by (rewrite map_length; lia).
        apply (map_nth (fun v => Z.lor v PROT_WRITE)). }
      rewrite (can_store_after p1 p1 prots (page_of ps addr)); auto. cbn [negb].
      destruct (mprotect_run_spec (lw_restore (env idx)) ps prots Hps H2 p1 (page_of ps addr))
        as (p2 & Hr2 & Hin2 & Hout2).
      rewrite Hr2. cbn [negb]. exists p2. split; [reflexivity|].
      intros x.
      destruct (in_dec Z.eq_dec x (map (fun i => page_of ps addr + Z.of_nat i * ps) (seq 0 (length prots))))
        as [Hx|Hx].
      + apply in_map_iff in Hx. destruct Hx as (i & <- & Hi). apply in_seq in Hi.
        rewrite Hin2 by lia. symmetry. apply Hprot. lia.
      + assert (Hx' : forall i, (i < length prots)%nat -> x <> page_of ps addr + Z.of_nat i * ps).
        { intros i Hi E. apply Hx. apply in_map_iff. exists i. split; [auto|apply in_seq; lia]. }
        rewrite Hout2, Hout1; auto.
    - left. split; [reflexivity|].
      destruct (search_none (fun i => l_prot t (page_of ps addr + Z.of_nat i * ps))
                  (Z.to_nat (1 + (addr + zlen bytes) / ps - addr / ps))) as [(i & Hi & Hnone)|Hall].
      + assert (Hd : addr / ps <= (addr + zlen bytes) / ps) by (apply Z.div_le_mono; lia).
        exists (Z.max addr (page_of ps addr + Z.of_nat i * ps)).
        assert (Hle : page_of ps addr + Z.of_nat i * ps <= addr + zlen bytes).
        { unfold page_of. pose proof (Z.mul_div_le (addr + zlen bytes) ps Hps). nia. }
        pose proof (Z.mul_div_le addr ps Hps) as Hle2.
        pose proof (Z.mul_succ_div_gt addr ps Hps) as Hgt.
        split; [lia|].
        replace (page_of ps (Z.max addr (page_of ps addr + Z.of_nat i * ps)))
          with (page_of ps addr + Z.of_nat i * ps); [exact Hnone|].
        destruct i as [|i].
        * rewrite Z.max_l by (unfold page_of; lia). lia.
        * rewrite Z.max_r by (unfold page_of; nia). unfold page_of.
          replace (ps * (addr / ps) + Z.of_nat (S i) * ps) with ((addr / ps + Z.of_nat (S i)) * ps) by lia.
          rewrite Z.div_mul by lia. lia.
      + destruct (collect_prots_some ps (l_prot t) (page_of ps addr)
          (Z.to_nat (1 + (addr + zlen bytes) / ps - addr / ps)) Hall) as [l Hl]. congruence.
  Qed.
End LibWrite.

Lemma lib_write_exact k addr bytes env idx size t :
  0 <= k -> 0 <= addr -> addr + zlen bytes < 2 ^ 64 ->
  (forall x, lw_set (env idx) x = true) -> (forall x, lw_restore (env idx) x = true) ->
  span_mapped (2 ^ k) (l_prot t) addr (zlen bytes) ->
  exists t',
    lib_write (2 ^ k) env idx addr bytes size t = Some (size, t') /\
    l_mem t' = mem_write (l_mem t) addr bytes /\
    l_out t' = l_out t /\
    forall x, l_prot t' x = l_prot t x.
Proof.
  intros Hk Ha Hn H1 H2 Hmap.
  destruct (lib_write_atomic k addr bytes Hk Ha Hn env idx size t H1 H2)
    as [(_ & x & Hx & Hnone)|(p' & He & Hp)].
  - exfalso. exact (Hmap x Hx Hnone).
  - eexists. split; [exact He|]. cbn. auto.
Qed.

(** A whole queue executed in-process. *)
Definition req_mapped (ps : Z) (prot : Z -> option Z) (r : req) : Prop :=
  match r with
  | RWrite a bs => a + zlen bs < 2 ^ 64 /\ span_mapped ps prot a (zlen bs)
  | RPrint _ => True
  end.

Definition req_addr_ok (r : req) : Prop :=
  match r with RWrite a _ => 0 <= a < 2 ^ 64 | RPrint _ => True end.

Lemma encodes_addr buf off rs fin : encodes buf off rs fin -> Forall req_addr_ok rs.
Proof. induction 1; constructor; cbn; auto. Qed.

Lemma lib_runs k env rs idx t :
  0 <= k -> Forall req_addr_ok rs ->
  (forall i x, lw_set (env i) x = true) -> (forall i x, lw_restore (env i) x = true) ->
  Forall (req_mapped (2 ^ k) (l_prot t)) rs ->
  exists t', runs ltgt_print (lib_write (2 ^ k) env) idx rs t t' /\
    l_mem t' = t_mem (perform_all rs (mk_tgt (l_mem t) (l_out t))) /\
    l_out t' = t_out (perform_all rs (mk_tgt (l_mem t) (l_out t))) /\
    (forall x, l_prot t' x = l_prot t x).
Proof.
  intros Hk Hok H1 H2. revert idx t Hok.
  induction rs as [|r rs IH]; intros idx t Hok Hmap.
  - exists t. split; [constructor|]. cbn. auto.
  - inversion Hok as [|? ? Hr Hok']; inversion Hmap as [|? ? Hm Hmap']; subst.
    destruct r as [a bs|s].
    + cbn in Hr. destruct Hm as [Hw Hm].
      destruct (lib_write_exact k a bs env idx (req_size (RWrite a bs)) t) as (t1 & He & Hmem & Hout & Hp);
        auto; try lia.
      destruct (IH (S idx) t1) as (t' & Hr' & Hm' & Ho' & Hp'); auto.
      { rewrite Forall_forall in *. intros r Hin. specialize (Hmap' r Hin).
        destruct r; cbn in *; auto. destruct Hmap' as [G1 G2]. split; [auto|].
        intros x Hx. rewrite Hp. apply G2; auto. }
      exists t'. split; [eapply runs_write; eauto|].
      rewrite Hmem, Hout in *. split; [exact Hm'|]. split; [exact Ho'|].
      intros x. rewrite Hp', Hp. reflexivity.
    + destruct (IH (S idx) (ltgt_print s t)) as (t' & Hr' & Hm' & Ho' & Hp'); auto.
      exists t'. split; [apply runs_print; exact Hr'|]. auto.
Qed.

Lemma interpret_from_lib_exact k env q rs t :
  0 <= k -> qinv q rs ->
  (forall i x, lw_set (env i) x = true) -> (forall i x, lw_restore (env i) x = true) ->
  Forall (req_mapped (2 ^ k) (l_prot t)) rs ->
  exists q' t', insnq_interpret_from_lib (2 ^ k) env q t = Some (0, q', t') /\
    q_num q' = 0 /\ q_size q' = 0 /\
    l_mem t' = t_mem (perform_all rs (mk_tgt (l_mem t) (l_out t))) /\
    (forall x, l_prot t' x = l_prot t x).
Proof.
  intros Hk [Hnum Hsize Hver Henc] H1 H2 Hmap.
  destruct (lib_runs k env rs 0 t Hk (encodes_addr _ _ _ _ Henc) H1 H2 Hmap) as (t' & Hr & Hm & Ho & Hp).
  unfold insnq_interpret_from_lib, insnq_interpret. rewrite Hnum.
  destruct (Z.ltb_spec (zlen rs) 0); [pose proof (zlen_nonneg rs); lia|].
  replace (Z.to_nat (zlen rs)) with (length rs) by (unfold zlen; lia).
  rewrite (loop_encoded _ _ _ rs (q_size q) 0 t t'); auto; try lia.
  do 2 eexists. split; [reflexivity|]. cbn. auto.
Qed.

(** ** Contents not produced by libpulp *)

Lemma cstr_at_found fuel buf pos j :
  pos <= j < pos + Z.of_nat fuel -> buf j = 0 -> exists s, cstr_at fuel buf pos = Some s.
Proof.
  revert pos; induction fuel as [|f IH]; intros pos Hj H0; [lia|].
  cbn [cstr_at]. destruct (Z.eqb_spec (buf pos) 0) as [E|E]; [eauto|].
  assert (j <> pos) by congruence.
  destruct (IH (pos + 1)) as [s Hs]; [lia|auto|]. rewrite Hs. eauto.
Qed.

Lemma cstr_at_ext f1 f2 b1 b2 pos j size :
  pos <= j < size -> b1 j = 0 ->
  (forall i, pos <= i < size -> b1 i = b2 i) ->
  size - pos <= Z.of_nat f1 -> size - pos <= Z.of_nat f2 ->
  cstr_at f1 b1 pos = cstr_at f2 b2 pos.
Proof.
  revert f2 pos; induction f1 as [|f1 IH]; intros f2 pos Hj H0 Hext H1 H2; [lia|].
  destruct f2 as [|f2]; [lia|]. cbn [cstr_at].
  rewrite <- (Hext pos) by lia.
  destruct (Z.eqb_spec (b1 pos) 0) as [E|E]; [reflexivity|].
  assert (j <> pos) by congruence.
  rewrite (IH f2 (pos + 1)); auto; try lia; intros i Hi; apply Hext; lia.
Qed.

Lemma insn_size_at_ext b1 b2 pc :
  (forall i, pc <= i < pc + 4 -> b1 i = b2 i) -> insn_size_at b1 pc = insn_size_at b2 pc.
Proof.
  intros H. unfold insn_size_at. rewrite (mem_read_ext b1 b2 (pc + 1) 3); [reflexivity|].
  intros x Hx. apply H. lia.
Qed.

Lemma complete_step b1 b2 size pc next :
  size <= INSN_BUFFER_MAX ->
  (forall i, 0 <= i < size -> b1 i = b2 i) ->
  complete_insn b1 size pc next ->
  forall idx t, exists t', forall k,
    insnq_loop tgt_print (tool_write (fun _ => None)) (S k) idx b1 size pc t =
    insnq_loop tgt_print (tool_write (fun _ => None)) k (S idx) b1 size next t' /\
    insnq_loop tgt_print (tool_write (fun _ => None)) (S k) idx b2 size pc t =
    insnq_loop tgt_print (tool_write (fun _ => None)) k (S idx) b2 size next t'.
Proof.
  intros Hsize Hext (Hpc & Hfit & Hcase) idx t. cbn [insnq_loop].
  destruct (Z.leb_spec 0 pc); [|lia]. destruct (Z.ltb_spec pc INSN_BUFFER_MAX); [|lia].
  cbn [andb negb]. rewrite <- (Hext pc) by lia.
  assert (Hsz : insn_size_at b1 pc = insn_size_at b2 pc)
    by (apply insn_size_at_ext; intros; apply Hext; lia).
  destruct Hcase as [(Ht & ->)|[(Ht & (j & Hj & Hz) & ->)|(Ht & Hn0 & Hn1 & ->)]].
  + rewrite Ht. change (ulp_insn_valid ULP_INSN_NOP) with true. cbv iota.
    unfold insn_interpret. rewrite <- (Hext pc) by lia. rewrite Ht.
    destruct (Z.leb_spec (pc + 4) INSN_BUFFER_MAX); [|lia]. cbn [negb].
    change (ULP_INSN_NOP =? ULP_INSN_NOP) with true. cbv iota. eexists. intros; split; reflexivity.
  + rewrite Ht. change (ulp_insn_valid ULP_INSN_PRINT) with true. cbv iota.
    unfold insn_interpret. rewrite <- (Hext pc) by lia. rewrite Ht.
    destruct (Z.leb_spec (pc + 4) INSN_BUFFER_MAX); [|lia]. cbn [negb].
    change (ULP_INSN_PRINT =? ULP_INSN_NOP) with false.
    change (ULP_INSN_PRINT =? ULP_INSN_PRINT) with true. cbv iota.
    rewrite <- (cstr_at_ext (Z.to_nat (INSN_BUFFER_MAX - (pc + 4)))
                  (Z.to_nat (INSN_BUFFER_MAX - (pc + 4))) b1 b2 (pc + 4) j size);
      auto; try lia; try (intros; apply Hext; lia).
    destruct (cstr_at_found (Z.to_nat (INSN_BUFFER_MAX - (pc + 4))) b1 (pc + 4) j) as [s Hs];
      auto; try lia.
    rewrite Hs, <- Hsz. eexists. intros; split; reflexivity.
  + rewrite Ht. change (ulp_insn_valid ULP_INSN_WRITE) with true. cbv iota.
    unfold insn_interpret. rewrite <- (Hext pc) by lia. rewrite Ht.
    destruct (Z.leb_spec (pc + 4) INSN_BUFFER_MAX); [|lia]. cbn [negb].
    change (ULP_INSN_WRITE =? ULP_INSN_NOP) with false.
    change (ULP_INSN_WRITE =? ULP_INSN_PRINT) with false.
    change (ULP_INSN_WRITE =? ULP_INSN_WRITE) with true. cbv iota.
    destruct (Z.leb_spec (pc + 16) INSN_BUFFER_MAX); [|lia]. cbn [negb].
    rewrite <- (mem_read_ext b1 b2 (pc + 4) 4) by (intros; apply Hext; lia).
    set (n := le_dec (mem_read b1 (pc + 4) 4)) in *.
    rewrite <- (mem_read_ext b1 b2 (pc + 8) 8) by (intros; apply Hext; lia).
    rewrite <- (mem_read_ext b1 b2 (pc + 16) (Z.to_nat n)) by (intros; apply Hext; lia).
    destruct (Z.leb_spec (pc + 16 + n) INSN_BUFFER_MAX); [|lia]. cbn [negb].
    unfold tool_write. rewrite <- Hsz. eexists. intros; split; reflexivity.
Qed.

Lemma well_formed_safe k idx b1 b2 size pc t :
  size <= INSN_BUFFER_MAX ->
  (forall i, 0 <= i < size -> b1 i = b2 i) ->
  well_formed k b1 size pc ->
  exists t', insnq_loop tgt_print (tool_write (fun _ => None)) k idx b1 size pc t = I_ret 0 t' /\
             insnq_loop tgt_print (tool_write (fun _ => None)) k idx b2 size pc t = I_ret 0 t'.
Proof.
  intros Hsize Hext. revert idx pc t.
  induction k as [|k IH]; intros idx pc t Hwf; cbn [well_formed] in Hwf.
  - subst. cbn [insnq_loop]. rewrite Z.eqb_refl. eauto.
  - destruct Hwf as (next & C & W).
    destruct (complete_step b1 b2 size pc next Hsize Hext C idx t) as (t1 & S1).
    destruct (S1 k) as [E1 E2]. destruct (IH (S idx) next t1 W) as (t' & R1 & R2).
    exists t'. rewrite E1, E2. auto.
Qed.

Lemma malformed_reported k idx b1 b2 size pc t :
  size <= INSN_BUFFER_MAX ->
  (forall i, 0 <= i < size -> b1 i = b2 i) ->
  malformed k b1 size pc ->
  exists t', insnq_loop tgt_print (tool_write (fun _ => None)) k idx b1 size pc t = I_ret EINSNQ t' /\
             insnq_loop tgt_print (tool_write (fun _ => None)) k idx b2 size pc t = I_ret EINSNQ t'.
Proof.
  intros Hsize Hext. revert idx pc t.
  induction k as [|k IH]; intros idx pc t Hwf; cbn [malformed] in Hwf.
  - cbn [insnq_loop]. destruct (Z.eqb_spec pc size); [contradiction|]. eauto.
  - destruct Hwf as [(P & N1 & N2 & N3)|(next & C & W)].
    + cbn [insnq_loop]. destruct (Z.leb_spec 0 pc); [|lia]. destruct (Z.ltb_spec pc INSN_BUFFER_MAX); [|lia].
      cbn [andb negb]. rewrite <- (Hext pc) by lia. unfold ulp_insn_valid.
      destruct (Z.eqb_spec (b1 pc) ULP_INSN_NOP); [contradiction|].
      destruct (Z.eqb_spec (b1 pc) ULP_INSN_PRINT); [contradiction|].
      destruct (Z.eqb_spec (b1 pc) ULP_INSN_WRITE); [contradiction|]. cbn [orb]. eauto.
    + destruct (complete_step b1 b2 size pc next Hsize Hext C idx t) as (t1 & S1).
      destruct (S1 k) as [E1 E2]. destruct (IH (S idx) next t1 W) as (t' & R1 & R2).
      exists t'. rewrite E1, E2. auto.
Qed.
