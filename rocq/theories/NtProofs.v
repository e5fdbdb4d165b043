(** Proofs about finding the build ID. *)
From Verif Require Import Base BaseFacts LibModel DlModel LibSpec SymProofs PtModel NtModel NtSpec.
From Coq Require Import Lia.

Lemma span_all ok a n : (forall x, a <= x < a + Z.of_nat n -> ok x = true) -> vm_span ok a n = n.
Proof.
  revert a. induction n as [|n IH]; intros a H; [reflexivity|]. cbn [vm_span].
  rewrite (H a) by lia. f_equal. apply IH. intros x Hx. apply H. lia.
Qed.

Lemma holds_app ok m a l1 l2 : holds ok m a (l1 ++ l2) <-> holds ok m a l1 /\ holds ok m (a + zlen l1) l2.
Proof.
  unfold holds. rewrite app_length, mem_read_app, zlen_app. split.
  - intros [H Ho]. apply app_eq_length in H; [|apply mem_read_length]. destruct H as [H1 H2].
    split; (split; [assumption|]); intros x Hx; apply Ho; pose proof (zlen_nonneg l1); pose proof (zlen_nonneg l2); lia.
  - intros [[H1 O1] [H2 O2]]. split.
    + unfold zlen in H2. rewrite H1, H2. reflexivity.
    + intros x Hx. destruct (Z_lt_ge_dec x (a + zlen l1)); [apply O1|apply O2]; lia.
Qed.

Lemma holds_rd ok m a l : holds ok m a l -> rd ok m a (length l) = Some l.
Proof. intros [H Ho]. unfold rd. rewrite span_all by exact Ho. rewrite Nat.eqb_refl, H. reflexivity. Qed.

Lemma bump_even v : 0 <= v < 2 ^ 30 -> v mod 2 = 0 -> bump4 v = v + (- v) mod 4.
Proof.
  intros Hv He. unfold bump4, u32. pose proof (Z.mod_pos_bound v 4). rewrite Z.mod_small by lia.
  pose proof (Z.div_mod v 4). pose proof (Z.div_mod v 2).
  pose proof (Z.div_mod (- v) 4). pose proof (Z.mod_pos_bound (- v) 4). lia.
Qed.

Lemma note_header n : exists rest,
  note_bytes n = (le_enc 4 (zlen (nt_name n)) ++ le_enc 4 (zlen (nt_desc n)) ++ le_enc 4 (nt_type n)) ++ rest /\
  rest = pad4 (nt_name n) ++ pad4 (nt_desc n).
Proof. eexists. split; [|reflexivity]. unfold note_bytes. rewrite <- !app_assoc. reflexivity. Qed.

Lemma hdr_len x y z : length (le_enc 4 x ++ le_enc 4 y ++ le_enc 4 z) = 12%nat.
Proof. rewrite !app_length, !le_enc_length. reflexivity. Qed.

Lemma read_header ok m a n t : note_ok n -> holds ok m a (note_bytes n ++ t) ->
  exists h, rd ok m a 12 = Some h /\ le_dec (firstn 4 h) = zlen (nt_name n) /\
    le_dec (firstn 4 (skipn 4 h)) = zlen (nt_desc n) /\ le_dec (skipn 8 h) = nt_type n.
Proof.
  intros (N1 & _ & _ & N4 & N5) H. apply holds_app in H as [H _].
  destruct (note_header n) as (rest & E & _). rewrite E in H. apply holds_app in H as [H _].
  eexists. split. { rewrite <- (hdr_len (zlen (nt_name n)) (zlen (nt_desc n)) (nt_type n)). apply holds_rd. exact H. }
  pose proof (zlen_nonneg (nt_name n)). pose proof (zlen_nonneg (nt_desc n)).
  assert (D : forall v, 0 <= v < 2 ^ 32 -> le_dec (le_enc 4 v) = v) by (intros v Hv; apply le_dec_enc_id; exact Hv).
  split; [|split].
  - change (firstn 4 ?l) with (firstn (length (le_enc 4 (zlen (nt_name n)))) l).
    rewrite firstn_app_exact. apply D. lia.
  - replace (skipn 4 (le_enc 4 (zlen (nt_name n)) ++ le_enc 4 (zlen (nt_desc n)) ++ le_enc 4 (nt_type n)))
      with (le_enc 4 (zlen (nt_desc n)) ++ le_enc 4 (nt_type n))
      by (symmetry; apply (skipn_app_exact (le_enc 4 (zlen (nt_name n))))).
    replace (firstn 4 (le_enc 4 (zlen (nt_desc n)) ++ le_enc 4 (nt_type n))) with (le_enc 4 (zlen (nt_desc n)))
      by (symmetry; apply (firstn_app_exact (le_enc 4 (zlen (nt_desc n))))).
    apply D. lia.
  - replace (skipn 8 (le_enc 4 (zlen (nt_name n)) ++ le_enc 4 (zlen (nt_desc n)) ++ le_enc 4 (nt_type n)))
      with (le_enc 4 (nt_type n)).
    + apply D. lia.
    + rewrite app_assoc. symmetry.
      apply (skipn_app_exact (le_enc 4 (zlen (nt_name n)) ++ le_enc 4 (zlen (nt_desc n)))).
Qed.

(** Walking over plain notes. *)
Lemma walk_plain ok m ns : forall fuel a t e,
  Forall plain_note ns -> 0 < a -> a + zlen (flat_map note_bytes ns) + zlen t < 2 ^ 64 ->
  a + zlen (flat_map note_bytes ns) < e ->
  holds ok m a (flat_map note_bytes ns ++ t) ->
  tool_note_walk (length ns + fuel) ok m a e =
  tool_note_walk fuel ok m (a + zlen (flat_map note_bytes ns)) e.
Proof.
  induction ns as [|n ns IH]; intros fuel a t e Hp Ha Hb He H.
  { cbn [flat_map length Nat.add]. rewrite zlen_nil, Z.add_0_r. reflexivity. }
  cbn [flat_map length Nat.add tool_note_walk] in *. rewrite zlen_app in *.
  inversion Hp as [|n' ns' (Hn & Ht & E1 & E2 & L1 & L2) Hp']; subst.
  rewrite <- app_assoc in H.
  destruct (read_header ok m a n _ Hn H) as (h & -> & F1 & F2 & F3). rewrite F1, F2, F3.
  destruct (nt_type n =? NT_GNU_BUILD_ID) eqn:Et; [apply Z.eqb_eq in Et; contradiction|].
  pose proof (zlen_nonneg (nt_name n)). pose proof (zlen_nonneg (nt_desc n)).
  pose proof (zlen_nonneg (flat_map note_bytes ns)). pose proof (zlen_nonneg t).
  rewrite !bump_even by (split || assumption; assumption).
  pose proof (Z.mod_pos_bound (- zlen (nt_name n)) 4 ltac:(lia)).
  pose proof (Z.mod_pos_bound (- zlen (nt_desc n)) 4 ltac:(lia)).
  assert (L : zlen (nt_desc n) + (- zlen (nt_desc n)) mod 4 + (zlen (nt_name n) + (- zlen (nt_name n)) mod 4) + 12
              = zlen (note_bytes n)) by (rewrite note_bytes_len, !pad4_len; lia).
  rewrite L. unfold u32. rewrite (Z.mod_small (zlen (note_bytes n)) (2 ^ 32)) by (rewrite <- L; lia).
  unfold u64. rewrite Z.mod_small by lia.
  replace (a + zlen (note_bytes n) <? e) with true by (symmetry; apply Z.ltb_lt; lia).
  apply holds_app in H as [_ H].
  rewrite (IH fuel (a + zlen (note_bytes n)) t e) by (assumption || lia).
  f_equal. lia.
Qed.

(** A segment of plain notes only is walked over. *)
Lemma walk_none ok m ns fuel a :
  ns <> [] -> Forall plain_note ns -> seg_in_memory ok m a ns -> (length ns <= fuel)%nat ->
  tool_note_walk fuel ok m a (u64 (a + u32 (zlen (flat_map note_bytes ns)))) = W_none.
Proof.
  intros Hne Hp (H & Ha & Hb & Hc) Hf.
  destruct (exists_last Hne) as (ns' & n & ->). rewrite flat_map_app in *. cbn [flat_map] in *. rewrite app_nil_r in *.
  rewrite app_length in Hf. cbn [length] in Hf. rewrite zlen_app in *.
  apply Forall_app in Hp as [Hp Hp2]. inversion Hp2 as [|n' ns'' (Hn & Ht & E1 & E2 & L1 & L2) _]; subst.
  pose proof (zlen_nonneg (flat_map note_bytes ns')).
  assert (12 <= zlen (note_bytes n)).
  { rewrite note_bytes_len. pose proof (zlen_nonneg (pad4 (nt_name n))). pose proof (zlen_nonneg (pad4 (nt_desc n))). lia. }
  unfold u32. rewrite (Z.mod_small _ (2 ^ 32)) by lia. unfold u64. rewrite (Z.mod_small _ (2 ^ 64)) by lia.
  replace fuel with (length ns' + S (fuel - length ns' - 1))%nat by lia.
  rewrite (walk_plain ok m ns' _ a (note_bytes n)) by (assumption || lia).
  apply holds_app in H as [_ H]. rewrite <- (app_nil_r (note_bytes n)) in H.
  cbn [tool_note_walk]. destruct (read_header ok m _ n _ Hn H) as (h & -> & F1 & F2 & F3). rewrite F1, F2, F3.
  destruct (nt_type n =? NT_GNU_BUILD_ID) eqn:Et; [apply Z.eqb_eq in Et; contradiction|].
  pose proof (zlen_nonneg (nt_name n)). pose proof (zlen_nonneg (nt_desc n)).
  rewrite !bump_even by (split || assumption; assumption).
  pose proof (Z.mod_pos_bound (- zlen (nt_name n)) 4 ltac:(lia)).
  pose proof (Z.mod_pos_bound (- zlen (nt_desc n)) 4 ltac:(lia)).
  assert (L : zlen (nt_desc n) + (- zlen (nt_desc n)) mod 4 + (zlen (nt_name n) + (- zlen (nt_name n)) mod 4) + 12
              = zlen (note_bytes n)) by (rewrite note_bytes_len, !pad4_len; lia).
  rewrite L. unfold u32, u64. rewrite (Z.mod_small (zlen (note_bytes n)) (2 ^ 32)) by (rewrite <- L; lia).
  rewrite Z.mod_small by lia.
  replace (a + zlen (flat_map note_bytes ns') + zlen (note_bytes n) <? a + (zlen (flat_map note_bytes ns') + zlen (note_bytes n)))
    with false by (symmetry; apply Z.ltb_ge; lia).
  reflexivity.
Qed.

Lemma walk_found ok m pre id post fuel a :
  Forall plain_note pre -> zlen id = 20 -> bytes_ok id ->
  seg_in_memory ok m a (pre ++ gnu_build_id id :: post) -> (length pre < fuel)%nat ->
  exists b, tool_note_walk fuel ok m a (u64 (a + u32 (zlen (flat_map note_bytes (pre ++ gnu_build_id id :: post)))))
              = W_found b 20 /\ 0 < b /\ holds ok m b id.
Proof.
  intros Hp Hl Hbid (H & Ha & Hb & Hc) Hf. rewrite flat_map_app in *. cbn [flat_map] in *. rewrite !zlen_app in *.
  set (n := gnu_build_id id) in *.
  assert (Hn : note_ok n).
  { unfold note_ok, n, gnu_build_id. cbn [nt_type nt_name nt_desc]. rewrite Hl.
    split; [lia|]. split; [repeat constructor; unfold is_byte; lia|]. split; [assumption|]. split; [cbn; lia|lia]. }
  pose proof (zlen_nonneg (flat_map note_bytes pre)). pose proof (zlen_nonneg (flat_map note_bytes post)).
  assert (Ln : zlen (note_bytes n) = 36).
  { rewrite note_bytes_len, !pad4_len. unfold n, gnu_build_id. cbn [nt_name nt_desc]. rewrite Hl. reflexivity. }
  unfold u32. rewrite (Z.mod_small _ (2 ^ 32)) by lia. unfold u64. rewrite (Z.mod_small _ (2 ^ 64)) by lia.
  replace fuel with (length pre + S (fuel - length pre - 1))%nat by lia.
  rewrite (walk_plain ok m pre _ a (note_bytes n ++ flat_map note_bytes post))
    by (try assumption; rewrite ?zlen_app; lia).
  apply holds_app in H as [_ H].
  cbn [tool_note_walk]. destruct (read_header ok m _ n _ Hn H) as (h & -> & F1 & F2 & F3). rewrite F1, F2, F3.
  change (nt_type n =? NT_GNU_BUILD_ID) with true. cbn iota.
  change (nt_name n) with [71; 78; 85; 0]. change (nt_desc n) with id. rewrite Hl.
  change (bump4 20) with 20. change (bump4 (zlen [71; 78; 85; 0])) with 4.
  eexists. split; [reflexivity|]. unfold u64. rewrite Z.mod_small by lia. split; [lia|].
  apply holds_app in H as [H _]. destruct (note_header n) as (rest & E & E2). rewrite E in H.
  apply holds_app in H as [_ H]. subst rest. change (nt_name n) with [71; 78; 85; 0] in H. change (nt_desc n) with id in H.
  assert (P4 : pad4 [71; 78; 85; 0] = [71; 78; 85; 0]) by reflexivity. rewrite P4 in H.
  apply holds_app in H as [_ H]. unfold pad4 in H. apply holds_app in H as [H _].
  unfold zlen at 2 in H. rewrite hdr_len in H. change (zlen [71; 78; 85; 0]) with 4 in H.
  replace (a + zlen (flat_map note_bytes pre) + 12 + 4) with (a + zlen (flat_map note_bytes pre) + Z.of_nat 12 + 4) by lia.
  exact H.
Qed.

Lemma walk_found_any ok m pre id post fuel a :
  Forall plain_note pre -> zlen id < 2 ^ 30 -> bytes_ok id ->
  seg_in_memory ok m a (pre ++ gnu_build_id id :: post) -> (length pre < fuel)%nat ->
  exists b, tool_note_walk fuel ok m a (u64 (a + u32 (zlen (flat_map note_bytes (pre ++ gnu_build_id id :: post)))))
              = W_found b (bump4 (zlen id)).
Proof.
  intros Hp Hl Hbid (H & Ha & Hb & Hc) Hf. rewrite flat_map_app in *. cbn [flat_map] in *. rewrite !zlen_app in *.
  set (n := gnu_build_id id) in *. pose proof (zlen_nonneg id).
  assert (Hn : note_ok n).
  { unfold note_ok, n, gnu_build_id. cbn [nt_type nt_name nt_desc].
    split; [lia|]. split; [repeat constructor; unfold is_byte; lia|]. split; [assumption|]. split; [cbn; lia|lia]. }
  pose proof (zlen_nonneg (flat_map note_bytes pre)). pose proof (zlen_nonneg (flat_map note_bytes post)).
  assert (Ln : 12 <= zlen (note_bytes n)).
  { rewrite note_bytes_len. pose proof (zlen_nonneg (pad4 (nt_name n))). pose proof (zlen_nonneg (pad4 (nt_desc n))). lia. }
  unfold u32. rewrite (Z.mod_small _ (2 ^ 32)) by lia. unfold u64. rewrite (Z.mod_small _ (2 ^ 64)) by lia.
  replace fuel with (length pre + S (fuel - length pre - 1))%nat by lia.
  rewrite (walk_plain ok m pre _ a (note_bytes n ++ flat_map note_bytes post))
    by (try assumption; rewrite ?zlen_app; lia).
  apply holds_app in H as [_ H].
  cbn [tool_note_walk]. destruct (read_header ok m _ n _ Hn H) as (h & -> & F1 & F2 & F3). rewrite F1, F2, F3.
  change (nt_type n =? NT_GNU_BUILD_ID) with true. cbn iota. eexists. reflexivity.
Qed.
