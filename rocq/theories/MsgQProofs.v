(** Proofs about the message buffer. *)
From Verif Require Import Base BaseFacts MsgQModel MsgQSpec.

Definition enc (msgs : list (list Z)) : list Z := concat (map (fun m => m ++ [0]) msgs).

Lemma enc_cons m msgs : enc (m :: msgs) = (m ++ [0]) ++ enc msgs.
Proof. reflexivity. Qed.

Lemma enc_app a b : enc (a ++ b) = enc a ++ enc b.
Proof. unfold enc. rewrite map_app, concat_app. reflexivity. Qed.

(** [holds buf a l]: the bytes [l] are stored at [a]. *)
Definition holds (buf : Z -> Z) (a : Z) (l : list Z) : Prop := mem_read buf a (length l) = l.

Lemma holds_app buf a l1 l2 :
  holds buf a (l1 ++ l2) <-> holds buf a l1 /\ holds buf (a + zlen l1) l2.
Proof.
  unfold holds. rewrite app_length. split.
  - intros H. apply mem_read_split in H; [|reflexivity]. exact H.
  - intros [H1 H2]. rewrite mem_read_app. unfold zlen in H2. congruence.
Qed.

Lemma holds_ext b1 b2 a l :
  (forall i, a <= i < a + zlen l -> b1 i = b2 i) -> holds b1 a l -> holds b2 a l.
Proof.
  unfold holds. intros Hext H. rewrite <- H at 2. symmetry. apply mem_read_ext. exact Hext.
Qed.

Lemma holds_head buf a x l : holds buf a (x :: l) -> buf a = x.
Proof. unfold holds. cbn [length mem_read]. congruence. Qed.

Lemma strlen_at_str fuel buf pos s :
  cstr_ok s -> holds buf pos (s ++ [0]) -> (length s < fuel)%nat ->
  strlen_at fuel buf pos = Some (zlen s).
Proof.
  revert fuel pos; induction s as [|c s IH]; intros fuel pos Hs H Hf;
    (destruct fuel as [|f]; [simpl in Hf; lia|]); cbn [strlen_at].
  - rewrite (holds_head _ _ _ _ H). reflexivity.
  - inversion Hs as [|? ? Hc Hs']; subst. unfold is_cchar in Hc.
    pose proof (holds_head _ _ _ _ H) as Hh. rewrite Hh.
    destruct (Z.eqb_spec c 0); [lia|].
    assert (Htl : holds buf (pos + 1) (s ++ [0])).
    { change ((c :: s) ++ [0]) with ([c] ++ (s ++ [0])) in H. apply holds_app in H. apply H. }
    rewrite (IH f (pos + 1)); auto; [|simpl in Hf; lia]. rewrite zlen_cons. reflexivity.
Qed.

Section Ring.
  Variable mx : Z.
  Hypothesis Hmx : 0 < mx.
  Hypothesis Hmx64 : 2 * mx < 2 ^ 63.

  Lemma u64_small x : 0 <= x < 2 ^ 64 -> u64 x = x.
  Proof. intros. unfold u64. apply Z.mod_small; lia. Qed.

  (** Skipping zeros from [p] to the end of the buffer and on to index 0. *)
  Lemma skip_to_zero n fin buf p t :
    0 <= p -> p + Z.of_nat n = mx -> (0 < n)%nat -> (n < fin)%nat ->
    (forall i, p <= i < mx -> buf i = 0) -> buf 0 <> 0 ->
    skip_nuls fin mx buf p t = Some (0, t + (mx - p)).
  Proof.
    revert fin p t; induction n as [|n IH]; intros fin p t Hp Hsum Hn Hfin Hz H0; [lia|].
    destruct fin as [|fin]; [lia|]. cbn [skip_nuls].
    rewrite Hz by lia. rewrite Z.eqb_refl.
    destruct n as [|n].
    - replace ((p + 1) mod mx) with 0 by (replace (p + 1) with mx by lia; rewrite Z.mod_same by lia; reflexivity).
      destruct fin as [|fin]; [lia|]. cbn [skip_nuls].
      destruct (Z.eqb_spec (buf 0) 0); [contradiction|]. f_equal. f_equal. lia.
    - rewrite Z.mod_small by lia. rewrite IH; auto; try lia; try (intros i Hi; apply Hz; lia).
      f_equal. f_equal. lia.
  Qed.

  Lemma skip_none fin buf p t :
    (0 < fin)%nat -> buf p <> 0 -> skip_nuls fin mx buf p t = Some (p, t).
  Proof.
    intros Hf H. destruct fin as [|fin]; [lia|]. cbn [skip_nuls].
    destruct (Z.eqb_spec (buf p) 0); [contradiction|reflexivity].
  Qed.

  Definition msg_ok (m : list Z) : Prop := cstr_ok m /\ m <> [].

  Lemma msg_head_nonzero buf a m r : msg_ok m -> holds buf a ((m ++ [0]) ++ r) -> buf a <> 0.
  Proof.
    intros [Hc Hne] H. destruct m as [|c m]; [contradiction|].
    apply holds_head in H. inversion Hc; subst. unfold is_cchar in *. lia.
  Qed.

  Lemma enc_len_ge msgs : Forall msg_ok msgs -> 2 * zlen msgs <= zlen (enc msgs).
  Proof.
    induction 1 as [|m msgs [_ Hne] Hf IH]; [cbn; lia|].
    rewrite enc_cons, !zlen_app, zlen_cons. change (zlen [0]) with 1.
    destruct m; [contradiction|]. rewrite zlen_cons. pose proof (zlen_nonneg m). lia.
  Qed.

  (** The wrapped representation: messages [ms1] from [bottom] to [e], zeros up to the
      end of the buffer, messages [ms2] from 0 to [top]. *)
  Record repW (buf : Z -> Z) (bottom : Z) (ms1 : list (list Z)) (e : Z)
      (ms2 : list (list Z)) (top : Z) : Prop := {
    w_b : 0 <= bottom;
    w_e : e = bottom + zlen (enc ms1);
    w_emx : e < mx;
    w_t : top = zlen (enc ms2);
    w_ok1 : Forall msg_ok ms1;
    w_ok2 : Forall msg_ok ms2;
    w_m1 : holds buf bottom (enc ms1);
    w_z : forall i, e <= i < mx -> buf i = 0;
    w_m2 : holds buf 0 (enc ms2);
    w_0 : buf 0 <> 0
  }.

  (** The unwrapped representation. *)
  Record repU (buf : Z -> Z) (bottom : Z) (ms : list (list Z)) (top : Z) : Prop := {
    u_b : 0 <= bottom;
    u_t : top = bottom + zlen (enc ms);
    u_tmx : top < mx;
    u_ok : Forall msg_ok ms;
    u_m : holds buf bottom (enc ms)
  }.

  (** The eviction loop on a wrapped representation whose first part is not
      empty. *)
  Lemma evict_W ms1 f fin buf bottom e ms2 top size :
    repW buf bottom ms1 e ms2 top -> ms1 <> [] ->
    0 < size -> top + size < mx ->
    (length ms1 < f)%nat -> (Z.to_nat mx < fin)%nat ->
    (exists b' ms1' pre,
       evict f fin mx buf bottom (mx - bottom + top) size = E_ok b' (mx - b' + top) /\
       ms1 = pre ++ ms1' /\ ms1' <> [] /\
       repW buf b' ms1' e ms2 top /\ top + size < b') \/
    (evict f fin mx buf bottom (mx - bottom + top) size = E_ok 0 top).
  Proof.
    revert f bottom; induction ms1 as [|m ms1 IH]; intros f bottom HW Hne Hs Htop Hf Hfin;
      [contradiction|].
    destruct HW as [Wb We Wemx Wt Wok1 Wok2 Wm1 Wz Wm2 W0].
    pose proof (zlen_nonneg (enc ms2)) as Hl2.
    pose proof (zlen_nonneg (enc (m :: ms1))) as Hl1.
    destruct f as [|f]; [simpl in Hf; lia|]. cbn [evict].
    rewrite u64_small by lia.
    destruct (Z.geb_spec (mx - bottom + top + size) mx) as [Hge|Hlt].
    2:{ left. exists bottom, (m :: ms1), []. split; [reflexivity|]. split; [reflexivity|].
        split; [discriminate|]. split; [constructor; auto|]. lia. }
    pose proof (Forall_inv Wok1) as Hm. pose proof (Forall_inv_tail Wok1) as Hms.
    pose proof Wm1 as Wm1'. rewrite enc_cons in Wm1'. apply holds_app in Wm1'.
    destruct Wm1' as [Hm1 Hrest].
    assert (Hlen : zlen (m ++ [0]) = zlen m + 1) by (rewrite zlen_app; reflexivity).
    assert (Henc : zlen (enc (m :: ms1)) = zlen m + 1 + zlen (enc ms1))
      by (rewrite enc_cons, zlen_app, Hlen; lia).
    rewrite Hlen in Hrest. rewrite Henc in We.
    pose proof (zlen_nonneg m) as Hlm. pose proof (zlen_nonneg (enc ms1)) as Hlr.
    rewrite (strlen_at_str _ _ _ m); [|apply Hm|exact Hm1|unfold zlen in *; lia].
    destruct ms1 as [|m' ms1].
    - (* last message of the first part *)
      right. change (zlen (enc [])) with 0 in We.
      rewrite Z.mod_small by lia.
      rewrite (skip_to_zero (Z.to_nat (mx - (bottom + (zlen m + 1))))); auto; try lia;
        try (intros i Hi; apply Wz; lia).
      destruct f as [|f]; [simpl in Hf; lia|]. cbn [evict].
      replace (mx - bottom + top - (zlen m + 1 + (mx - (bottom + (zlen m + 1)))))
        with top by lia.
      rewrite u64_small by lia.
      destruct (Z.geb_spec (top + size) mx); [lia|]. reflexivity.
    - pose proof (Forall_inv Hms) as Hm'.
      pose proof (enc_len_ge _ Hms) as Hge2. rewrite zlen_cons in Hge2.
      pose proof (zlen_nonneg ms1) as Hlms.
      rewrite Z.mod_small by lia.
      rewrite skip_none; [|lia|].
      2:{ rewrite enc_cons in Hrest. eapply msg_head_nonzero; [exact Hm'|exact Hrest]. }
      replace (mx - bottom + top - (zlen m + 1))
        with (mx - (bottom + (zlen m + 1)) + top) by lia.
      destruct (IH f (bottom + (zlen m + 1))) as [(b' & ms1' & pre & He & Hpre & Hne' & HW' & Hlt)|He]; auto.
      + constructor; auto; try lia.
      + discriminate.
      + simpl in Hf |- *. lia.
      + left. exists b', ms1', (m :: pre). split; [exact He|]. split; [rewrite Hpre; reflexivity|].
        split; [exact Hne'|]. split; [|exact Hlt]. exact HW'.
  Qed.

  Lemma zero_tail buf top :
    0 <= top <= mx ->
    let buf1 := mem_write buf top (repeat 0 (Z.to_nat (mx - top))) in
    (forall i, i < top -> buf1 i = buf i) /\ (forall i, top <= i < mx -> buf1 i = 0).
  Proof.
    intros Ht buf1.
    assert (Hl : zlen (repeat 0 (Z.to_nat (mx - top))) = mx - top)
      by (unfold zlen; rewrite repeat_length; lia).
    split; intros i Hi; unfold buf1.
    - apply mem_write_out. lia.
    - rewrite mem_write_in by lia.
      destruct (nth_in_or_default (Z.to_nat (i - top)) (repeat 0 (Z.to_nat (mx - top))) 0) as [H|H]; auto.
      apply repeat_spec in H. exact H.
  Qed.

  Lemma zlen_snoc0 (m : list Z) : zlen (m ++ [0]) = zlen m + 1.
  Proof. rewrite zlen_app. reflexivity. Qed.

  Lemma enc_snoc_len ms m : zlen (enc (ms ++ [m])) = zlen (enc ms) + (zlen m + 1).
  Proof.
    rewrite enc_app, zlen_app, enc_cons, zlen_app, zlen_snoc0. change (zlen (enc [])) with 0. lia.
  Qed.

  Lemma holds_snoc buf a ms m :
    holds buf a (enc ms) ->
    holds (mem_write buf (a + zlen (enc ms)) (m ++ [0])) a (enc (ms ++ [m])).
  Proof.
    intros H. rewrite enc_app. apply holds_app. split.
    - eapply holds_ext; [|exact H]. intros i Hi. symmetry. apply mem_write_out. lia.
    - rewrite enc_cons. change (enc []) with (@nil Z). rewrite app_nil_r.
      apply mem_read_write_same.
  Qed.

  Lemma write_head_nonzero buf a m : msg_ok m -> mem_write buf a (m ++ [0]) a <> 0.
  Proof.
    intros Hm. apply (msg_head_nonzero (mem_write buf a (m ++ [0])) a m []); auto.
    rewrite app_nil_r. apply mem_read_write_same.
  Qed.

  Lemma write_W buf b ms1 e ms2 top m :
    repW buf b ms1 e ms2 top -> msg_ok m -> top + (zlen m + 1) < b ->
    repW (mem_write buf top (m ++ [0])) b ms1 e (ms2 ++ [m]) (top + (zlen m + 1)).
  Proof.
    intros [Wb We Wemx Wt Wok1 Wok2 Wm1 Wz Wm2 W0] Hm Hfit.
    pose proof (zlen_nonneg (enc ms1)). pose proof (zlen_nonneg (enc ms2)). pose proof (zlen_nonneg m).
    constructor; auto.
    - rewrite enc_snoc_len. lia.
    - apply Forall_app. split; [assumption|]. constructor; [assumption|constructor].
    - eapply holds_ext; [|exact Wm1]. intros i Hi. symmetry. apply mem_write_out.
      rewrite zlen_snoc0. lia.
    - intros i Hi. rewrite mem_write_out by (rewrite zlen_snoc0; lia). auto.
    - pose proof (holds_snoc buf 0 ms2 m Wm2) as H'. rewrite Z.add_0_l, <- Wt in H'. exact H'.
    - destruct (Z.eq_dec top 0) as [->|Hn]; [apply write_head_nonzero; assumption|].
      rewrite mem_write_out by lia. assumption.
  Qed.

  Lemma write_U buf b ms top m :
    repU buf b ms top -> msg_ok m -> top + (zlen m + 1) < mx ->
    repU (mem_write buf top (m ++ [0])) b (ms ++ [m]) (top + (zlen m + 1)).
  Proof.
    intros [Ub Ut Utmx Uok Um] Hm Hfit. constructor; auto.
    - rewrite enc_snoc_len. lia.
    - apply Forall_app. split; [assumption|]. constructor; [assumption|constructor].
    - rewrite Ut. apply holds_snoc. exact Um.
  Qed.

  Inductive Inv (q : msgq) : list (list Z) -> Prop :=
  | Inv_U ms :
      repU (mq_buf q) (mq_bottom q) ms (mq_top q) ->
      mq_dist q = mq_top q - mq_bottom q ->
      (ms = [] -> mq_top q = 0) ->
      (0 < mq_top q -> mq_buf q 0 <> 0) ->
      Inv q ms
  | Inv_W ms1 e ms2 :
      repW (mq_buf q) (mq_bottom q) ms1 e ms2 (mq_top q) ->
      ms1 <> [] -> ms2 <> [] -> mq_top q < mq_bottom q ->
      mq_dist q = mx - mq_bottom q + mq_top q ->
      Inv q (ms1 ++ ms2).

  Lemma Inv_init : Inv msgq_init [].
  Proof.
    apply Inv_U; cbn; auto; try lia. constructor; cbn; try lia; constructor.
  Qed.

  Lemma enc_pos ms : Forall msg_ok ms -> ms <> [] -> 0 < zlen (enc ms).
  Proof.
    intros H Hne. pose proof (enc_len_ge ms H). destruct ms; [contradiction|].
    rewrite zlen_cons in *. pose proof (zlen_nonneg ms). lia.
  Qed.

  (** Finishing a push from a wrapped representation. *)
  Lemma finish_W f fin buf bottom ms1 e ms2 top dist m :
    (Z.to_nat mx + 2 <= f)%nat -> (Z.to_nat mx + 2 <= fin)%nat ->
    repW buf bottom ms1 e ms2 top -> ms1 <> [] -> (ms2 = [] -> top = 0) ->
    msg_ok m -> top + (zlen m + 1) < mx -> dist = mx - bottom + top ->
    exists b' d' pre ms',
      evict f fin mx buf bottom dist (zlen m + 1) = E_ok b' d' /\ ms1 ++ ms2 = pre ++ ms' /\ Inv (mk_msgq (mem_write buf top (m ++ [0])) (top + (zlen m + 1)) b' (d' + (zlen m + 1)))
          (ms' ++ [m]).
  Proof.
    intros Hf Hfin HW Hne Htop0 Hm Hfit ->.
    pose proof (zlen_nonneg m) as Hlm. destruct HW as [Wb We Wemx Wt Wok1 Wok2 Wm1 Wz Wm2 W0] eqn:EW.
    pose proof (enc_len_ge _ Wok1) as Hlen1. pose proof (zlen_nonneg (enc ms2)) as Hl2.
    assert (Hlf : (length ms1 < f)%nat) by (unfold zlen in *; lia).
    destruct (evict_W ms1 f fin buf bottom e ms2 top (zlen m + 1) HW Hne) as
      [(b' & ms1' & pre & He & Hpre & Hne' & HW' & Hlt)|He]; auto; try lia.
    - exists b', (mx - b' + top), pre, (ms1' ++ ms2). split; [exact He|].
      split; [rewrite Hpre, app_assoc; reflexivity|].
      rewrite <- app_assoc.
      apply (Inv_W _ ms1' e (ms2 ++ [m])); cbn [mq_buf mq_bottom mq_top mq_dist]; auto; try lia.
      + apply write_W; auto.
      + intros H. apply app_eq_nil in H. destruct H; discriminate.
    - exists 0, top, ms1, ms2. split; [exact He|]. split; [reflexivity|].
      apply Inv_U; cbn [mq_buf mq_bottom mq_top mq_dist]; auto; try lia.
      + apply write_U; auto. constructor; auto; try lia.
      + intros H. apply app_eq_nil in H. destruct H; discriminate.
      + intros _. destruct (Z.eq_dec top 0) as [E|E].
        * rewrite E. apply write_head_nonzero; auto.
        * rewrite mem_write_out by lia. assumption.
  Qed.

  Lemma push_inv f q ms m :
    (Z.to_nat mx + 3 <= f)%nat -> Inv q ms -> loggable mx m ->
    exists q' pre ms', msgq_strpush f mx q m = M_ok q' /\ ms = pre ++ ms' /\ Inv q' (ms' ++ [m]).
  Proof.
    intros Hf HI (Hc & Hne & Hsz).
    assert (Hm : msg_ok m) by (split; assumption).
    pose proof (zlen_nonneg m) as Hlm.
    unfold msgq_strpush. destruct m as [|c m0] eqn:Em; [contradiction|]. rewrite <- Em in *.
    destruct (Z.gtb_spec (zlen m + 1) mx); [lia|].
    destruct HI as [ms HU Hd Hempty H0|ms1 e ms2 HW Hne1 Hne2 Htb Hd].
    - destruct HU as [Ub Ut Utmx Uok Um] eqn:EU.
      pose proof (zlen_nonneg (enc ms)) as Hlms.
      destruct (Z.geb_spec (mq_top q + (zlen m + 1)) mx) as [Hw|Hw].
      + (* wrap *)
        assert (Htop : 0 < mq_top q) by lia.
        assert (Hms : ms <> []) by (intros ->; specialize (Hempty eq_refl); lia).
        destruct (zero_tail (mq_buf q) (mq_top q) ltac:(lia)) as [Hz1 Hz2].
        set (buf1 := mem_write (mq_buf q) (mq_top q) (repeat 0 (Z.to_nat (mx - mq_top q)))) in *.
        assert (HW : repW buf1 (mq_bottom q) ms (mq_top q) [] 0).
        { constructor; auto; try lia; try constructor.
          - eapply holds_ext; [|exact Um]. intros i Hi. symmetry. apply Hz1. lia.
          - rewrite Hz1 by lia. apply H0. assumption. }
        destruct (finish_W f f buf1 (mq_bottom q) ms (mq_top q) [] 0
                    (mq_dist q + (mx - mq_top q)) m) as (b' & d' & pre & ms' & He & Hpre & HI');
          auto; try lia.
        rewrite He. rewrite app_nil_r in Hpre.
        destruct (Z.leb_spec 0 0); [|lia]. destruct (Z.leb_spec (0 + (zlen m + 1)) mx); [|lia].
        cbn [andb negb]. rewrite Z.mod_small by lia. eauto 8.
      + destruct f as [|f]; [lia|]. cbn [evict].
        rewrite u64_small by lia.
        destruct (Z.geb_spec (mq_dist q + (zlen m + 1)) mx); [lia|].
        destruct (Z.leb_spec 0 (mq_top q)); [|lia].
        destruct (Z.leb_spec (mq_top q + (zlen m + 1)) mx); [|lia]. cbn [andb negb].
        rewrite Z.mod_small by lia.
        do 2 eexists. exists ms. split; [reflexivity|]. split; [rewrite app_nil_l; reflexivity|].
        apply Inv_U; cbn [mq_buf mq_bottom mq_top mq_dist]; try lia.
        * apply write_U; auto.
        * intros Hx. apply app_eq_nil in Hx. destruct Hx; discriminate.
        * intros _. destruct (Z.eq_dec (mq_top q) 0) as [E|E].
          -- rewrite E. apply write_head_nonzero; auto.
          -- rewrite mem_write_out by lia. apply H0. lia.
    - destruct HW as [Wb We Wemx Wt Wok1 Wok2 Wm1 Wz Wm2 W0] eqn:EW.
      pose proof (enc_pos _ Wok1 Hne1) as Hp1. pose proof (enc_pos _ Wok2 Hne2) as Hp2.
      destruct (Z.geb_spec (mq_top q + (zlen m + 1)) mx) as [Hw|Hw].
      + destruct (zero_tail (mq_buf q) (mq_top q) ltac:(lia)) as [Hz1 Hz2].
        set (buf1 := mem_write (mq_buf q) (mq_top q) (repeat 0 (Z.to_nat (mx - mq_top q)))) in *.
        assert (HW2 : repW buf1 0 ms2 (mq_top q) [] 0).
        { constructor; auto; try lia; try constructor.
          - eapply holds_ext; [|exact Wm2]. intros i Hi. symmetry. apply Hz1. lia.
          - rewrite Hz1 by lia. assumption. }
        destruct f as [|f]; [lia|]. cbn [evict].
        rewrite u64_small by lia.
        destruct (Z.geb_spec (mq_dist q + (mx - mq_top q) + (zlen m + 1)) mx); [|lia].
        assert (Hs0 : strlen_at (Z.to_nat (mx - mq_bottom q)) buf1 (mq_bottom q) = Some 0).
        { destruct (Z.to_nat (mx - mq_bottom q)) eqn:En; [lia|]. cbn [strlen_at].
          rewrite Hz2 by lia. reflexivity. }
        rewrite Hs0. rewrite Z.add_0_l. rewrite Z.mod_small by lia.
        rewrite (skip_to_zero (Z.to_nat (mx - (mq_bottom q + 1)))); try lia;
          [|intros i Hi; apply Hz2; lia|destruct HW2; assumption].
        destruct (finish_W f (S f) buf1 0 ms2 (mq_top q) [] 0
                    (mq_dist q + (mx - mq_top q) - (1 + (mx - (mq_bottom q + 1)))) m)
          as (b' & d' & pre & ms' & He & Hpre & HI'); auto; try lia.
        rewrite He. rewrite app_nil_r in Hpre.
        destruct (Z.leb_spec 0 0); [|lia]. destruct (Z.leb_spec (0 + (zlen m + 1)) mx); [|lia].
        cbn [andb negb]. rewrite Z.mod_small by lia.
        eexists. exists (ms1 ++ pre), ms'. split; [reflexivity|].
        split; [rewrite Hpre, app_assoc; reflexivity|exact HI'].
      + destruct (finish_W f f (mq_buf q) (mq_bottom q) ms1 e ms2 (mq_top q) (mq_dist q) m)
          as (b' & d' & pre & ms' & He & Hpre & HI'); auto; try lia.
        { intros; contradiction. }
        rewrite He.
        destruct (Z.leb_spec 0 (mq_top q)); [|lia].
        destruct (Z.leb_spec (mq_top q + (zlen m + 1)) mx); [|lia].
        cbn [andb negb]. rewrite Z.mod_small by lia. eauto 8.
  Qed.
End Ring.

Section Print.
  Variable mx : Z.
  Hypothesis Hmx : 0 < mx.

  Lemma print_straight n buf b :
    0 <= b -> b + Z.of_nat n <= mx -> msgq_print_loop n mx buf b = mem_read buf b n.
  Proof.
    revert b; induction n as [|n IH]; intros b Hb Hn; [reflexivity|].
    cbn [msgq_print_loop mem_read]. f_equal.
    destruct n as [|n]; [reflexivity|].
    rewrite Z.mod_small by lia. apply IH; lia.
  Qed.

  Lemma print_wrap n1 n2 buf b :
    0 <= b -> b + Z.of_nat n1 = mx ->  (0 < n1)%nat ->
    msgq_print_loop (n1 + n2) mx buf b = mem_read buf b n1 ++ msgq_print_loop n2 mx buf 0.
  Proof.
    revert b; induction n1 as [|n1 IH]; intros b Hb Hn Hpos; [lia|].
    cbn [Nat.add msgq_print_loop mem_read app]. f_equal.
    destruct n1 as [|n1].
    - replace (b + 1) with mx by lia. rewrite Z.mod_same by lia. reflexivity.
    - rewrite Z.mod_small by lia. apply IH; lia.
  Qed.

  Lemma shows_enc ms : shows (enc ms) ms.
  Proof.
    induction ms as [|m ms IH]; [constructor|].
    rewrite enc_cons, <- app_assoc. change ([0] ++ enc ms) with (repeat 0 1 ++ enc ms).
    constructor. exact IH.
  Qed.

  Lemma shows_pad ms1 k ms2 :
    ms1 <> [] -> shows (enc ms1 ++ repeat 0 k ++ enc ms2) (ms1 ++ ms2).
  Proof.
    induction ms1 as [|m ms1 IH]; intros Hne; [contradiction|].
    rewrite enc_cons. destruct ms1 as [|m' ms1].
    - change (enc []) with (@nil Z). rewrite app_nil_r, <- app_assoc.
      replace ([0] ++ repeat 0 k ++ enc ms2) with (repeat 0 (S k) ++ enc ms2) by reflexivity.
      cbn [app]. constructor. apply shows_enc.
    - rewrite <- !app_assoc. change ([0]) with (repeat 0 1).
      change ((m :: m' :: ms1) ++ ms2) with (m :: ((m' :: ms1) ++ ms2)). constructor.
      apply IH. discriminate.
  Qed.

  Lemma mem_read_zeros buf a n :
    (forall i, a <= i < a + Z.of_nat n -> buf i = 0) -> mem_read buf a n = repeat 0 n.
  Proof.
    revert a; induction n as [|n IH]; intros a H; [reflexivity|].
    cbn [mem_read repeat]. rewrite H by lia. f_equal. apply IH. intros i Hi. apply H. lia.
  Qed.

  Lemma Inv_shows q ms : Inv mx q ms -> shows (msgq_print mx q) ms.
  Proof.
    intros [ms' HU Hd Hempty H0|ms1 e ms2 HW Hne1 Hne2 Htb Hd]; unfold msgq_print.
    - destruct HU as [Ub Ut Utmx Uok Um]. pose proof (zlen_nonneg (enc ms')) as Hl.
      replace (Z.to_nat (mq_dist q)) with (length (enc ms')) by (unfold zlen in *; lia).
      rewrite print_straight by (unfold zlen in *; lia). unfold holds in Um. rewrite Um.
      apply shows_enc.
    - destruct HW as [Wb We Wemx Wt Wok1 Wok2 Wm1 Wz Wm2 W0].
      pose proof (zlen_nonneg (enc ms1)) as Hl1. pose proof (zlen_nonneg (enc ms2)) as Hl2.
      replace (Z.to_nat (mq_dist q))
        with ((length (enc ms1) + Z.to_nat (mx - e)) + length (enc ms2))%nat by (unfold zlen in *; lia).
      rewrite print_wrap by (unfold zlen in *; lia).
      rewrite print_straight by (unfold zlen in *; lia).
      rewrite mem_read_app. unfold holds in Wm1, Wm2. rewrite Wm1, Wm2.
      rewrite mem_read_zeros by (intros i Hi; apply Wz; unfold zlen in *; lia).
      rewrite <- app_assoc. apply shows_pad. exact Hne1.
  Qed.
End Print.

(** Which messages are stored at all. *)
Definition accepted (mx : Z) (m : list Z) : bool :=
  negb (Nat.eqb (length m) 0) && (zlen m + 1 <=? mx).

Lemma push_all_inv mx f l :
  0 < mx -> 2 * mx < 2 ^ 63 -> (Z.to_nat mx + 3 <= f)%nat ->
  forall q ms,
  Forall (fun m => cstr_ok m /\ zlen m + 1 <> mx) l ->
  Inv mx q ms ->
  exists q' pre ms', push_all f mx q l = M_ok q' /\
    ms ++ filter (accepted mx) l = pre ++ ms' /\
    (ms <> [] \/ filter (accepted mx) l <> [] -> ms' <> []) /\ Inv mx q' ms'.
Proof.
  intros Hmx H64 Hf. induction l as [|m l IH]; intros q ms Hok HI.
  - exists q, [], ms. cbn [push_all filter]. rewrite app_nil_r. split; [reflexivity|].
    split; [reflexivity|]. split; [intros [H|H]; [exact H|contradiction]|exact HI].
  - inversion Hok as [|? ? [Hc Hs] Hok']; subst.
    cbn [push_all filter].
    destruct (accepted mx m) eqn:Ea.
    + unfold accepted in Ea. apply andb_true_iff in Ea. destruct Ea as [E1 E2].
      assert (Hlog : loggable mx m).
      { split; [exact Hc|]. split; [|lia]. intros ->. discriminate. }
      destruct (push_inv mx Hmx H64 f q ms m Hf HI Hlog) as (q1 & pre1 & ms1 & Hp & Hpre & HI1).
      rewrite Hp. destruct (IH q1 (ms1 ++ [m]) Hok' HI1) as (q' & pre & ms' & Hp' & Hpre' & Hne & HI').
      exists q', (pre1 ++ pre), ms'. split; [exact Hp'|]. split.
      * rewrite Hpre, <- !app_assoc. f_equal. rewrite <- Hpre', <- app_assoc. reflexivity.
      * split; [|exact HI']. intros _. apply Hne. left.
        intros Hx. apply app_eq_nil in Hx. destruct Hx; discriminate.
    + assert (Hskip : msgq_strpush f mx q m = M_ok q).
      { unfold msgq_strpush. destruct m as [|c m0]; [reflexivity|].
        unfold accepted in Ea. cbn [length Nat.eqb negb andb] in Ea.
        destruct (Z.gtb_spec (zlen (c :: m0) + 1) mx); [reflexivity|lia]. }
      rewrite Hskip. apply IH; auto.
Qed.

(** Stores stay inside the buffer. *)
Lemma push_in_bounds mx f q s q' x :
  0 <= mq_top q <= mx -> msgq_strpush f mx q s = M_ok q' ->
  x < 0 \/ mx <= x -> mq_buf q' x = mq_buf q x.
Proof.
  intros Ht H Hx. unfold msgq_strpush in H. destruct s as [|c s0] eqn:Es; [congruence|].
  rewrite <- Es in *. destruct (_ >? mx); [congruence|].
  destruct (mq_top q + (zlen s + 1) >=? mx);
    destruct (evict _ _ _ _ _ _ _) as [b d| |]; try discriminate;
    match type of H with (if negb ((0 <=? ?t) && (?u <=? mx)) then _ else _) = _ =>
      destruct (Z.leb_spec 0 t); destruct (Z.leb_spec u mx); try discriminate end;
    cbn [andb negb] in H; injection H as <-; cbn [mq_buf];
    (rewrite mem_write_out; [|rewrite zlen_snoc0; lia]).
  - apply mem_write_out. unfold zlen. rewrite repeat_length. lia.
  - reflexivity.
Qed.

(** A message that exactly fills the buffer makes the first push loop forever. *)
Lemma skip_forever mx f buf p t :
  0 < mx -> (forall i, 0 <= i < mx -> buf i = 0) -> 0 <= p < mx ->
  skip_nuls f mx buf p t = None.
Proof.
  intros Hmx Hz. revert p t; induction f as [|f IH]; intros p t Hp; [reflexivity|].
  cbn [skip_nuls]. rewrite Hz by lia. rewrite Z.eqb_refl. apply IH.
  apply Z.mod_pos_bound. lia.
Qed.

Lemma full_message_hangs mx f s :
  1 < mx -> mx < 2 ^ 62 -> zlen s + 1 = mx -> msgq_strpush f mx msgq_init s = M_fuel.
Proof.
  intros Hmx H64 Hs. unfold msgq_strpush.
  destruct s as [|c s0] eqn:Es; [cbn in Hs; lia|]. rewrite <- Es in *.
  destruct (Z.gtb_spec (zlen s + 1) mx); [lia|].
  cbn [msgq_init mq_top mq_buf mq_dist mq_bottom].
  destruct (Z.geb_spec (0 + (zlen s + 1)) mx); [|lia].
  destruct (zero_tail mx (fun _ => 0) 0 ltac:(lia)) as [_ Hz].
  set (buf1 := mem_write (fun _ => 0) 0 (repeat 0 (Z.to_nat (mx - 0)))) in *. clearbody buf1.
  destruct f as [|f]; [reflexivity|]. cbn [evict].
  rewrite u64_small by lia.
  destruct (Z.geb_spec (0 + (mx - 0) + (zlen s + 1)) mx); [|lia].
  assert (Hs0 : strlen_at (Z.to_nat (mx - 0)) buf1 0 = Some 0).
  { destruct (Z.to_nat (mx - 0)) eqn:En; [lia|]. cbn [strlen_at]. rewrite Hz by lia. reflexivity. }
  rewrite Hs0. rewrite skip_forever; [reflexivity|lia|intros; apply Hz; lia|].
  apply Z.mod_pos_bound. lia.
Qed.

(** While everything fits, nothing is dropped. *)
Lemma room_enc l : zlen (enc l) = room l.
Proof.
  induction l as [|m l IH]; [reflexivity|]. rewrite enc_cons, !zlen_app, IH. cbn [room].
  unfold zlen at 2. cbn [length]. lia.
Qed.

Lemma room_nonneg l : 0 <= room l.
Proof. rewrite <- room_enc. apply zlen_nonneg. Qed.

Lemma push_all_fits mx f l :
  2 * mx < 2 ^ 63 -> (0 < f)%nat -> Forall cstr_ok l ->
  forall q ms,
  mq_bottom q = 0 -> mq_top q = room ms -> mq_dist q = room ms -> holds (mq_buf q) 0 (enc ms) ->
  room (ms ++ filter (fun m => negb (Nat.eqb (length m) 0)) l) < mx ->
  exists q', push_all f mx q l = M_ok q' /\
    msgq_print mx q' = enc (ms ++ filter (fun m => negb (Nat.eqb (length m) 0)) l).
Proof.
  intros H64 Hf. induction l as [|m l IH]; intros C q ms Hb Ht Hd Hh Hr.
  - exists q. split; [reflexivity|]. cbn [filter] in *. rewrite app_nil_r in *.
    unfold msgq_print. rewrite Hb, Hd. pose proof (room_nonneg ms).
    rewrite print_straight by lia. rewrite <- room_enc. unfold zlen. rewrite Nat2Z.id. exact Hh.
  - inversion C as [|? ? Cm C']; subst. cbn [push_all filter] in *.
    destruct m as [|c m]; [cbn [length Nat.eqb negb] in *; cbn [msgq_strpush]; apply IH; assumption|].
    cbn [length Nat.eqb negb] in *.
    assert (R : room (ms ++ [c :: m]) = room ms + (zlen (c :: m) + 1)).
    { rewrite <- !room_enc, enc_app, zlen_app. f_equal. rewrite room_enc. cbn [room]. lia. }
    assert (R2 : room (ms ++ (c :: m) :: filter (fun m => negb (Nat.eqb (length m) 0)) l) =
                 room (ms ++ [c :: m]) + room (filter (fun m => negb (Nat.eqb (length m) 0)) l)).
    { change ((c :: m) :: filter (fun m => negb (Nat.eqb (length m) 0)) l)
        with ([c :: m] ++ filter (fun m => negb (Nat.eqb (length m) 0)) l).
      rewrite app_assoc. generalize (ms ++ [c :: m]). intros x.
      rewrite <- !room_enc, enc_app, zlen_app. reflexivity. }
    pose proof (room_nonneg (filter (fun m => negb (Nat.eqb (length m) 0)) l)).
    pose proof (room_nonneg ms). pose proof (zlen_nonneg (c :: m)).
    destruct f as [|f]; [lia|].
    unfold msgq_strpush. destruct (zlen (c :: m) + 1 >? mx) eqn:E1; [lia|].
    destruct (mq_top q + (zlen (c :: m) + 1) >=? mx) eqn:E2; [lia|].
    cbn [evict]. unfold u64. rewrite Z.mod_small by lia.
    destruct (mq_dist q + (zlen (c :: m) + 1) >=? mx) eqn:E3; [lia|].
    destruct (negb ((0 <=? mq_top q) && (mq_top q + (zlen (c :: m) + 1) <=? mx))) eqn:E4; [lia|].
    rewrite Z.mod_small by lia.
    destruct (IH C' (mk_msgq (mem_write (mq_buf q) (mq_top q) ((c :: m) ++ [0]))
                      (mq_top q + (zlen (c :: m) + 1)) (mq_bottom q) (mq_dist q + (zlen (c :: m) + 1)))
                (ms ++ [c :: m])) as (q' & P & Q); cbn [mq_bottom mq_top mq_dist mq_buf]; try lia.
    + rewrite Ht, <- room_enc. apply (holds_snoc (mq_buf q) 0 ms (c :: m) Hh).
    + rewrite <- app_assoc. cbn [app]. lia.
    + exists q'. rewrite <- app_assoc in Q. split; [exact P|exact Q].
Qed.
