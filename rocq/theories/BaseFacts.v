(** Facts about the vocabulary of [Base]. *)
From Verif Require Export Base.

Ltac zdm := Z.div_mod_to_equations; lia.

Lemma Some_inj {A} (x y : A) : Some x = Some y -> x = y.
Proof. congruence. Qed.

Lemma zlen_nonneg {A} (l : list A) : 0 <= zlen l.
Proof. unfold zlen; lia. Qed.

Lemma zlen_app {A} (a b : list A) : zlen (a ++ b) = zlen a + zlen b.
Proof. unfold zlen; rewrite app_length; lia. Qed.

Lemma zlen_cons {A} (x : A) l : zlen (x :: l) = zlen l + 1.
Proof. unfold zlen; simpl length; lia. Qed.

Lemma zlen_nil {A} : zlen (@nil A) = 0.
Proof. reflexivity. Qed.

Lemma le_enc_length n v : length (le_enc n v) = n.
Proof. revert v; induction n as [|n IH]; intros v; simpl; [|rewrite IH]; reflexivity. Qed.

Lemma le_enc_bytes n v : bytes_ok (le_enc n v).
Proof.
  revert v; induction n as [|n IH]; intros v; simpl; constructor; [|apply IH].
  unfold is_byte. apply Z.mod_pos_bound; lia.
Qed.

Lemma le_dec_enc n v : le_dec (le_enc n v) = v mod 2 ^ (8 * Z.of_nat n).
Proof.
  revert v; induction n as [|n IH]; intros v.
  - simpl. rewrite Z.mod_1_r. reflexivity.
  - cbn [le_enc le_dec]. rewrite IH.
    replace (8 * Z.of_nat (S n)) with (8 + 8 * Z.of_nat n) by lia.
    rewrite Z.pow_add_r by lia.
    change (2 ^ 8) with 256.
    rewrite Z.rem_mul_r by (try lia; apply Z.pow_pos_nonneg; lia).
    reflexivity.
Qed.

Lemma le_dec_enc_id n v : 0 <= v < 2 ^ (8 * Z.of_nat n) -> le_dec (le_enc n v) = v.
Proof. intros H. rewrite le_dec_enc. apply Z.mod_small; exact H. Qed.

Lemma le_dec_bound l : bytes_ok l -> 0 <= le_dec l < 2 ^ (8 * zlen l).
Proof.
  induction l as [|b t IH]; intros H.
  - cbn. lia.
  - inversion H as [|? ? Hb Ht]; subst. specialize (IH Ht). unfold is_byte in Hb.
    cbn [le_dec]. rewrite zlen_cons.
    replace (8 * (zlen t + 1)) with (8 + 8 * zlen t) by lia.
    pose proof (zlen_nonneg t).
    rewrite Z.pow_add_r by lia. change (2 ^ 8) with 256. nia.
Qed.

Lemma le_enc_dec l : bytes_ok l -> le_enc (length l) (le_dec l) = l.
Proof.
  induction l as [|b t IH]; intros H; [reflexivity|].
  inversion H as [|? ? Hb Ht]; subst. unfold is_byte in Hb.
  cbn [length le_enc le_dec].
  replace (b + 256 * le_dec t) with (le_dec t * 256 + b) by lia.
  rewrite Z.div_add_l, (Z.add_comm (_ * 256) b), Z.mod_add, Z.mod_small, Z.div_small, Z.add_0_r by lia.
  rewrite IH; auto.
Qed.

Lemma mem_read_length m a n : length (mem_read m a n) = n.
Proof. revert a; induction n as [|n IH]; intros a; simpl; [|rewrite IH]; reflexivity. Qed.

Lemma mem_read_ext m1 m2 a n :
  (forall x, a <= x < a + Z.of_nat n -> m1 x = m2 x) -> mem_read m1 a n = mem_read m2 a n.
Proof.
  revert a; induction n as [|n IH]; intros a H; simpl; [reflexivity|].
  rewrite (H a) by lia. f_equal. apply IH. intros x Hx. apply H. lia.
Qed.

Lemma mem_read_app m a n1 n2 :
  mem_read m a (n1 + n2) = mem_read m a n1 ++ mem_read m (a + Z.of_nat n1) n2.
Proof.
  revert a; induction n1 as [|n1 IH]; intros a; simpl.
  - rewrite Z.add_0_r. reflexivity.
  - rewrite IH. do 2 f_equal. replace (a + 1 + Z.of_nat n1) with (a + Z.of_nat (S n1)) by lia. reflexivity.
Qed.

Lemma mem_read_nth m a n i d :
  (i < n)%nat -> nth i (mem_read m a n) d = m (a + Z.of_nat i).
Proof.
  revert a i; induction n as [|n IH]; intros a i H; [lia|].
  destruct i as [|i]; simpl.
  - f_equal; lia.
  - rewrite IH by lia. f_equal; lia.
Qed.

Lemma mem_write_in m a l x :
  a <= x < a + zlen l -> mem_write m a l x = nth (Z.to_nat (x - a)) l 0.
Proof.
  intros H. unfold mem_write.
  destruct (Z.leb_spec a x); destruct (Z.ltb_spec x (a + zlen l)); simpl; try lia; reflexivity.
Qed.

Lemma mem_write_out m a l x :
  ~ (a <= x < a + zlen l) -> mem_write m a l x = m x.
Proof.
  intros H. unfold mem_write.
  destruct (Z.leb_spec a x); destruct (Z.ltb_spec x (a + zlen l)); simpl; try lia; reflexivity.
Qed.

Lemma mem_write_nil m a x : mem_write m a [] x = m x.
Proof. apply mem_write_out. rewrite zlen_nil. lia. Qed.

Lemma list_nth_ext (l1 l2 : list Z) d :
  length l1 = length l2 -> (forall i, (i < length l1)%nat -> nth i l1 d = nth i l2 d) -> l1 = l2.
Proof. intros. eapply nth_ext; eauto. Qed.

Lemma mem_read_write_same m a l : mem_read (mem_write m a l) a (length l) = l.
Proof.
  apply (list_nth_ext _ _ 0).
  - apply mem_read_length.
  - intros i Hi. rewrite mem_read_length in Hi. rewrite mem_read_nth by assumption.
    rewrite mem_write_in by (unfold zlen; lia). f_equal. lia.
Qed.

Lemma mem_read_write_out m a l b n :
  (b + Z.of_nat n <= a \/ a + zlen l <= b) ->
  mem_read (mem_write m a l) b n = mem_read m b n.
Proof.
  intros H. apply mem_read_ext. intros x Hx. apply mem_write_out.
  pose proof (zlen_nonneg l). lia.
Qed.

Lemma mem_read_write_sub m a l off n :
  (off + n <= length l)%nat ->
  mem_read (mem_write m a l) (a + Z.of_nat off) n = firstn n (skipn off l).
Proof.
  intros H. apply (list_nth_ext _ _ 0).
  - rewrite mem_read_length, firstn_length, skipn_length. lia.
  - intros i Hi. rewrite mem_read_length in Hi. rewrite mem_read_nth by assumption.
    rewrite mem_write_in by (unfold zlen; lia).
    replace (Z.to_nat (a + Z.of_nat off + Z.of_nat i - a)) with (off + i)%nat by lia.
    rewrite <- (firstn_skipn off l) at 1.
    rewrite app_nth2; rewrite firstn_length; [|lia].
    replace (off + i - Nat.min off (length l))%nat with i by lia.
    rewrite <- (firstn_skipn n (skipn off l)) at 1.
    rewrite app_nth1; [reflexivity|]. rewrite firstn_length, skipn_length. lia.
Qed.

Lemma mem_write_app m a l1 l2 x :
  mem_write m a (l1 ++ l2) x = mem_write (mem_write m a l1) (a + zlen l1) l2 x.
Proof.
  pose proof (zlen_nonneg l1). pose proof (zlen_nonneg l2).
  destruct (Z_lt_dec x a) as [H1|H1];
    [|destruct (Z_lt_dec x (a + zlen l1)) as [H2|H2];
      [|destruct (Z_lt_dec x (a + zlen l1 + zlen l2)) as [H3|H3]]].
  - rewrite !mem_write_out; rewrite ?zlen_app; try lia; reflexivity.
  - rewrite mem_write_in by (rewrite zlen_app; lia).
    rewrite mem_write_out by lia. rewrite mem_write_in by lia.
    rewrite app_nth1; [reflexivity|]. unfold zlen in *; lia.
  - rewrite mem_write_in by (rewrite zlen_app; lia).
    rewrite mem_write_in by lia.
    rewrite app_nth2 by (unfold zlen in *; lia). f_equal. unfold zlen in *; lia.
  - rewrite !mem_write_out; rewrite ?zlen_app; try lia; reflexivity.
Qed.

Lemma mem_write_ext m1 m2 a l :
  mem_eq m1 m2 -> mem_eq (mem_write m1 a l) (mem_write m2 a l).
Proof.
  intros H x. unfold mem_write. destruct (_ && _); auto.
Qed.

Lemma mem_write_bytes m a l x :
  (forall y, is_byte (m y)) -> bytes_ok l -> is_byte (mem_write m a l x).
Proof.
  intros Hm Hl. unfold mem_write. destruct (_ && _) eqn:E; [|apply Hm].
  apply andb_true_iff in E. unfold bytes_ok in Hl. rewrite Forall_forall in Hl.
  apply Hl. apply nth_In. unfold zlen in *; lia.
Qed.

Lemma mem_read_bytes m a n : (forall y, is_byte (m y)) -> bytes_ok (mem_read m a n).
Proof.
  intros Hm. revert a; induction n as [|n IH]; intros a; simpl; constructor; auto. apply IH.
Qed.

Lemma bytes_eqb_eq a b : bytes_eqb a b = true <-> a = b.
Proof.
  revert b; induction a as [|x a IH]; intros [|y b]; simpl; split; intros H;
    try discriminate; try reflexivity.
  - apply andb_true_iff in H. destruct H as [H1 H2].
    apply Z.eqb_eq in H1. apply IH in H2. congruence.
  - inversion H; subst. rewrite Z.eqb_refl. simpl. apply IH. reflexivity.
Qed.

Lemma bytes_eqb_refl a : bytes_eqb a a = true.
Proof. apply bytes_eqb_eq. reflexivity. Qed.

Lemma bytes_eqb_neq a b : bytes_eqb a b = false <-> a <> b.
Proof.
  split; intros H.
  - intros ->. rewrite bytes_eqb_refl in H. discriminate.
  - destruct (bytes_eqb a b) eqn:E; [|reflexivity]. apply bytes_eqb_eq in E. contradiction.
Qed.

Lemma bytes_ok_app a b : bytes_ok (a ++ b) <-> bytes_ok a /\ bytes_ok b.
Proof. unfold bytes_ok. apply Forall_app. Qed.

Lemma cstr_bytes s : cstr_ok s -> bytes_ok s.
Proof. unfold cstr_ok, bytes_ok. apply Forall_impl. unfold is_cchar, is_byte. lia. Qed.

Lemma firstn_app_exact {A} (a b : list A) : firstn (length a) (a ++ b) = a.
Proof. rewrite firstn_app, firstn_all, Nat.sub_diag. simpl. apply app_nil_r. Qed.

Lemma skipn_app_exact {A} (a b : list A) : skipn (length a) (a ++ b) = b.
Proof. rewrite skipn_app, skipn_all, Nat.sub_diag. reflexivity. Qed.

Lemma app_eq_length {A} (a a' b b' : list A) :
  length a = length a' -> a ++ b = a' ++ b' -> a = a' /\ b = b'.
Proof.
  revert a'; induction a as [|x a IH]; intros [|x' a'] Hl H; simpl in *; try discriminate.
  - auto.
  - injection Hl as Hl. injection H as -> H. destruct (IH _ Hl H) as [-> ->]. auto.
Qed.

Lemma mem_read_split m off k n l1 l2 :
  length l1 = k -> mem_read m off (k + n) = l1 ++ l2 ->
  mem_read m off k = l1 /\ mem_read m (off + Z.of_nat k) n = l2.
Proof.
  intros Hl H. rewrite mem_read_app in H. apply app_eq_length in H; [exact H|].
  rewrite mem_read_length. congruence.
Qed.
