(** Proofs about the x86_64 redirection. *)
From Verif Require Import Base BaseFacts InsnQModel InsnQSpec InsnQProofs X86Model X86Spec.

Lemma is_endbr64_iff m f : is_endbr64 m f = true <-> has_endbr m f.
Proof. unfold is_endbr64, has_endbr. apply bytes_eqb_eq. Qed.

(** The request ulp_patch_addr makes, when it makes one. *)
Definition patch_req (m : mem) (f g : Z) (enable : bool) : req :=
  let e := is_endbr64 m f in
  if enable
  then RWrite (u64 (f - 14)) (patched_prologue (if e then ulp_prologue_endbr64 else ulp_prologue) g)
  else RWrite (u64 (f + (if e then 4 else 0))) [102; 144].

Lemma memwrite_submit qe a bs : memwrite qe a bs = submit qe (RWrite a bs).
Proof. destruct qe as [q e]. reflexivity. Qed.

Lemma patch_addr_eq m qe f g enable :
  ulp_patch_addr m qe f g enable =
  if looks_patchable m f then (submit qe (patch_req m f g enable), 0) else (qe, ENOPATCHABLE).
Proof.
  unfold ulp_patch_addr. destruct (looks_patchable m f); cbn [negb]; [|reflexivity].
  unfold patch_req, ulp_skip_prologue, PRE_NOPS_LEN. rewrite !memwrite_submit.
  destruct enable; reflexivity.
Qed.

Lemma patched_prologue_eq (e : bool) g :
  patched_prologue (if e then ulp_prologue_endbr64 else ulp_prologue) g =
  [255; 37; 0; 0; 0; 0] ++ le_enc 8 g ++
  (if e then [243; 15; 30; 250; 235; 236] else [235; 240]).
Proof. destruct e; reflexivity. Qed.

Lemma patched_prologue_len (e : bool) g :
  zlen (patched_prologue (if e then ulp_prologue_endbr64 else ulp_prologue) g) = if e then 20 else 16.
Proof. rewrite patched_prologue_eq, !zlen_app. destruct e; reflexivity. Qed.

Lemma patch_req_ok m f g enable : req_ok (patch_req m f g enable).
Proof.
  unfold patch_req. destruct enable; cbn [req_ok]; (split; [unfold u64; apply Z.mod_pos_bound; lia|]).
  - rewrite patched_prologue_eq. rewrite !bytes_ok_app.
    split; [repeat constructor; unfold is_byte; lia|]. split; [apply le_enc_bytes|].
    destruct (is_endbr64 m f); repeat constructor; unfold is_byte; lia.
  - repeat constructor; unfold is_byte; lia.
Qed.

(** An address range that does not wrap. *)
Definition addr_ok (f : Z) : Prop := 14 <= f /\ f + 6 <= 2 ^ 64.

Lemma u64_id x : 0 <= x < 2 ^ 64 -> u64 x = x.
Proof. intros H. unfold u64. apply Z.mod_small. exact H. Qed.

(** What a function entry must hold for calls to be redirected to [g]. *)
Definition redir_bytes (m : mem) (e : bool) (f g : Z) : Prop :=
  mem_read m (f - 14) 6 = [255; 37; 0; 0; 0; 0] /\
  mem_read m (f - 8) 8 = le_enc 8 g /\
  (if e then mem_read m f 6 = [243; 15; 30; 250; 235; 236] else mem_read m f 2 = [235; 240]).

Definition plain_bytes (m : mem) (e : bool) (f : Z) : Prop :=
  if e then mem_read m f 4 = [243; 15; 30; 250] /\ nops_at m (f + 4) else nops_at m f.

Lemma redir_bytes_ext m1 m2 e f g :
  (forall x, in_window e f x -> m1 x = m2 x) -> redir_bytes m1 e f g -> redir_bytes m2 e f g.
Proof.
  unfold redir_bytes, in_window, body, slot. intros H (H1 & H2 & H3).
  rewrite <- H1, <- H2. split; [|split].
  - apply mem_read_ext. intros x Hx. symmetry. apply H. destruct e; lia.
  - apply mem_read_ext. intros x Hx. symmetry. apply H. destruct e; lia.
  - destruct e; rewrite <- H3; apply mem_read_ext; intros x Hx; symmetry; apply H; lia.
Qed.

Lemma plain_bytes_ext m1 m2 e f :
  (forall x, in_window e f x -> m1 x = m2 x) -> plain_bytes m1 e f -> plain_bytes m2 e f.
Proof.
  unfold plain_bytes, in_window, body, slot. intros H. destruct e.
  - intros [H1 H2]. split.
    + rewrite <- H1. apply mem_read_ext. intros x Hx. symmetry. apply H. lia.
    + unfold nops_at in *. rewrite <- !H by lia. exact H2.
  - unfold nops_at. rewrite <- !H by lia. auto.
Qed.

Lemma cpu_endbr m a : mem_read m a 4 = [243; 15; 30; 250] -> cpu_step m a = Some (a + 4).
Proof.
  cbn [mem_read]. intros H. injection H as H0 H1 H2 H3.
  replace (a + 1 + 1 + 1) with (a + 3) in H3 by lia.
  replace (a + 1 + 1) with (a + 2) in H2 by lia.
  unfold cpu_step. rewrite H0, H1, H2, H3. reflexivity.
Qed.

Lemma cpu_jmp8 m a d : m a = 235 -> m (a + 1) = d -> cpu_step m a = Some (a + 2 + sbyte d).
Proof. intros H0 H1. unfold cpu_step. rewrite H0, H1. reflexivity. Qed.

Lemma cpu_jmpm m a g :
  0 <= g < 2 ^ 64 ->
  mem_read m a 6 = [255; 37; 0; 0; 0; 0] -> mem_read m (a + 6) 8 = le_enc 8 g ->
  cpu_step m a = Some g.
Proof.
  intros Hg H1 H2. change 6%nat with (2 + 4)%nat in H1. rewrite mem_read_app in H1.
  change (Z.of_nat 2) with 2 in H1.
  assert (H3 : mem_read m (a + 2) 4 = [0; 0; 0; 0]).
  { cbn [mem_read app] in *. injection H1 as _ _ Ha Hb Hc Hd. rewrite Ha, Hb, Hc, Hd. reflexivity. }
  cbn [mem_read app] in H1. injection H1 as Ha Hb _ _ _ _.
  unfold cpu_step. rewrite Ha, Hb. cbn [Z.eqb andb Pos.eqb].
  rewrite H3. change (sdword [0; 0; 0; 0]) with 0.
  replace (a + 6 + 0) with (a + 6) by lia. rewrite H2, le_dec_enc_id; [reflexivity|]. cbn. lia.
Qed.

Lemma redir_bytes_redirected m e f g :
  0 <= g < 2 ^ 64 -> redir_bytes m e f g -> redirected m e f g.
Proof.
  intros Hg (H1 & H2 & H3). unfold redirected, in_window, body, slot.
  assert (J : cpu_step m (f - 14) = Some g).
  { apply cpu_jmpm; auto. replace (f - 14 + 6) with (f - 8) by lia. exact H2. }
  destruct e.
  - change 6%nat with (4 + 2)%nat in H3. rewrite mem_read_app in H3.
    change [243; 15; 30; 250; 235; 236] with ([243; 15; 30; 250] ++ [235; 236]) in H3.
    apply app_eq_length in H3; [|reflexivity]. destruct H3 as [H3 H4].
    change (Z.of_nat 4) with 4 in H4. cbn [mem_read] in H4. injection H4 as H4 H5.
    exists [f; f + 4; f - 14]. split.
    + eapply gt_step; [apply cpu_endbr; exact H3|].
      eapply gt_step; [apply cpu_jmp8; eauto|].
      replace (f + 4 + 2 + sbyte 236) with (f - 14) by (change (sbyte 236) with (-20); lia).
      eapply gt_step; [exact J|]. constructor.
    + intros a [<-|[<-|[<-|[]]]]; lia.
  - cbn [mem_read] in H3. injection H3 as H4 H5.
    exists [f; f - 14]. split.
    + eapply gt_step; [apply cpu_jmp8; eauto|].
      replace (f + 2 + sbyte 240) with (f - 14) by (change (sbyte 240) with (-16); lia).
      eapply gt_step; [exact J|]. constructor.
    + intros a [<-|[<-|[]]]; lia.
Qed.

Lemma nops_run m a : nops_at m a -> exists trail, goes_through m a trail (a + 2) /\ forall x, In x trail -> a <= x < a + 2.
Proof.
  intros [[H0 H1]|[H0 H1]].
  - exists [a; a + 1]. split.
    + eapply gt_step; [unfold cpu_step; rewrite H0; reflexivity|].
      eapply gt_step; [unfold cpu_step; rewrite H1; reflexivity|].
      replace (a + 1 + 1) with (a + 2) by lia. constructor.
    + intros x [<-|[<-|[]]]; lia.
  - exists [a]. split.
    + eapply gt_step; [unfold cpu_step; rewrite H0, H1; reflexivity|]. constructor.
    + intros x [<-|[]]; lia.
Qed.

Lemma plain_bytes_unredirected m e f : plain_bytes m e f -> unredirected m e f.
Proof.
  unfold plain_bytes, unredirected, body, slot. destruct e.
  - intros [H1 H2]. apply nops_run in H2. destruct H2 as (tr & H2 & H3).
    exists (f :: tr). split.
    + eapply gt_step; [apply cpu_endbr; exact H1|]. exact H2.
    + intros a [<-|Ha]; [lia|]. apply H3 in Ha. lia.
  - intros H. apply nops_run in H. exact H.
Qed.

(** A livepatchable function in its current condition: plain or redirected. *)
Definition entry_ok (m : mem) (e : bool) (f : Z) : Prop :=
  plain_bytes m e f \/ exists g, redir_bytes m e f g.

Lemma mem_read_6_4 m a l : mem_read m a 6 = l -> mem_read m a 4 = firstn 4 l.
Proof. intros <-. reflexivity. Qed.

Lemma entry_ok_endbr m e f : entry_ok m e f -> is_endbr64 m f = e.
Proof.
  intros H. unfold is_endbr64. destruct e.
  - apply bytes_eqb_eq. destruct H as [[H _]|(g & _ & _ & H)]; [exact H|].
    apply mem_read_6_4 in H. exact H.
  - apply bytes_eqb_neq. unfold insn_endbr64. cbn [mem_read]. intros E. injection E as E _ _ _.
    destruct H as [[[H _]|[H _]]|(g & _ & _ & H)]; try lia.
    cbn [mem_read] in H. injection H as H _. lia.
Qed.

Lemma entry_ok_looks m e f : entry_ok m e f -> looks_patchable m f = true.
Proof.
  intros H. pose proof (entry_ok_endbr _ _ _ H) as He. unfold looks_patchable. rewrite He. destruct e.
  - destruct H as [[_ [[H0 H1]|[H0 H1]]]|(g & _ & _ & H)]; try (rewrite H0, H1; reflexivity).
    cbn [mem_read] in H. injection H as _ _ _ _ H _. replace (f + 1 + 1 + 1 + 1) with (f + 4) in H by lia.
    rewrite H. reflexivity.
  - destruct H as [[[H0 H1]|[H0 H1]]|(g & _ & _ & H)]; try (rewrite H0, H1; reflexivity).
    cbn [mem_read] in H. injection H as H _. rewrite H. reflexivity.
Qed.

(** The memory after the request, seen from the function. *)
Definition req_mem (r : req) (m : mem) : mem :=
  match r with RWrite a bs => mem_write m a bs | RPrint _ => m end.

(** The request only depends on whether the function has endbr64. *)
Lemma enable_effect m m' e f g :
  addr_ok f -> is_endbr64 m f = e ->
  redir_bytes (req_mem (patch_req m f g true) m') e f g /\
  (forall x, ~ in_window e f x -> req_mem (patch_req m f g true) m' x = m' x).
Proof.
  intros [Hf1 Hf2] He. unfold patch_req. rewrite He. rewrite u64_id by lia. cbn [req_mem].
  pose proof (patched_prologue_len e g) as Hlen.
  split.
  - unfold redir_bytes. split; [|split].
    + replace (f - 14) with (f - 14 + Z.of_nat 0) at 2 by lia.
      rewrite mem_read_write_sub by (unfold zlen in Hlen; destruct e; lia).
      rewrite patched_prologue_eq. reflexivity.
    + replace (f - 8) with (f - 14 + Z.of_nat 6) by lia.
      rewrite mem_read_write_sub by (unfold zlen in Hlen; destruct e; lia).
      rewrite patched_prologue_eq. reflexivity.
    + replace f with (f - 14 + Z.of_nat 14) at 1 2 4 by lia.
      destruct e; replace (f - 14 + Z.of_nat 14 - 14) with (f - 14) by lia;
      replace f with (f - 14 + Z.of_nat 14) at 2 by lia;
      rewrite mem_read_write_sub by (unfold zlen in Hlen; lia).
      * rewrite (patched_prologue_eq true). reflexivity.
      * rewrite (patched_prologue_eq false). reflexivity.
  - intros x Hx. apply mem_write_out. rewrite Hlen. unfold in_window, body, slot in Hx.
    destruct e; lia.
Qed.

Lemma disable_effect m m' e f :
  addr_ok f -> is_endbr64 m f = e ->
  (e = true -> mem_read m' f 4 = [243; 15; 30; 250]) ->
  plain_bytes (req_mem (patch_req m f 0 false) m') e f /\
  (forall x, ~ in_window e f x -> req_mem (patch_req m f 0 false) m' x = m' x).
Proof.
  intros [Hf1 Hf2] He Hk. unfold patch_req. rewrite He.
  rewrite u64_id by (destruct e; lia). cbn [req_mem].
  split.
  - unfold plain_bytes. destruct e.
    + split.
      * rewrite mem_read_write_out by lia. auto.
      * right. rewrite !mem_write_in by (cbn; lia).
        replace (f + 4 - (f + 4)) with 0 by lia. replace (f + 4 + 1 - (f + 4)) with 1 by lia. split; reflexivity.
    + right. rewrite !mem_write_in by (cbn; lia).
      replace (f - (f + 0)) with 0 by lia. replace (f + 1 - (f + 0)) with 1 by lia. split; reflexivity.
  - intros x Hx. apply mem_write_out. unfold in_window, body, slot in Hx.
    change (zlen [102; 144]) with 2. destruct e; lia.
Qed.
