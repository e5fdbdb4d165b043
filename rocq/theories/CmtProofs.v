(** Lemmas for C99. *)
From Coq Require Import String.
From Verif Require Import Base BaseFacts StrModel MetaModel MetaSpec MetaProofs DscModel DscSpec DscProofs DscProps LibModel IntrModel IntrSpec
  CmdModel CmtModel CmtSpec.

Lemma cstr_z_ok s : (forall x, In x s -> is_byte x) -> cstr_ok (cstr_z s).
Proof.
  induction s as [|c s IH]; intros B; cbn [cstr_z]; [constructor|]. destruct (Z.eqb_spec c 0); [constructor|].
  constructor; [|apply IH; intros x I; apply B; right; exact I]. pose proof (B c (or_introl eq_refl)). unfold is_byte, is_cchar in *. lia.
Qed.

Lemma c_string_app s r : (forall x, In x s -> x <> 0) -> c_string (s ++ 0 :: r) = I_ok s.
Proof.
  induction s as [|c s IH]; intros N; cbn [app c_string]; [reflexivity|].
  destruct (Z.eqb_spec c 0) as [->|]; [destruct (N 0 (or_introl eq_refl) eq_refl)|].
  rewrite IH by (intros x I; apply N; right; exact I). reflexivity.
Qed.

Lemma c_string_none s : ~ In 0 s -> c_string s = I_ub.
Proof.
  induction s as [|c s IH]; intros N; cbn [c_string]; [reflexivity|].
  destruct (Z.eqb_spec c 0) as [->|]; [destruct N; left; reflexivity|]. rewrite IH by (intros I; apply N; right; exact I). reflexivity.
Qed.

Lemma cstr_z_nonzero s : forall x, In x (cstr_z s) -> x <> 0.
Proof.
  induction s as [|c s IH]; cbn [cstr_z]; [intros x []|]. destruct (Z.eqb_spec c 0); [intros x []|].
  intros x [<-|I]; [assumption|exact (IH x I)].
Qed.

Lemma cut_nul s : ~ In 0 s \/ exists a b, s = a ++ 0 :: b /\ (forall x, In x a -> x <> 0).
Proof.
  induction s as [|c s IH]; [left; intros []|]. destruct (Z.eq_dec c 0) as [->|N].
  - right. exists [], s. split; [reflexivity|intros x []].
  - destruct IH as [H|(a & b & -> & H)].
    + left. intros [C|C]; [exact (N C)|exact (H C)].
    + right. exists (c :: a), b. split; [reflexivity|]. intros x [<-|I]; [exact N|exact (H x I)].
Qed.

Lemma recorded_bytes fresh ts : Forall cstr_ok ts -> forall pos, recorded fresh pos ts (cstr_z (comment_bytes fresh pos ts)).
Proof.
  induction 1 as [|t ts Ht Hts IH]; intros pos; cbn [comment_bytes]; [constructor|].
  rewrite app_assoc. fold (with_newline t).
  rewrite cstr_z_app by (apply Forall_app; split; [exact Ht|constructor; [unfold is_cchar; lia|constructor]]).
  cbn [app cstr_z]. destruct (Z.eqb_spec (fresh (pos + zlen t + 1)) 0) as [Z0|NZ].
  - rewrite app_nil_r. apply rec_cut. exact Z0.
  - apply rec_next; [exact NZ|apply IH].
Qed.

Lemma recorded_unique fresh pos ts s s' : recorded fresh pos ts s -> recorded fresh pos ts s' -> s = s'.
Proof.
  intros R. revert s'. induction R as [|pos t ts E|pos t ts s N R IH]; intros s' R'; inversion R'; subst; try reflexivity; try contradiction.
  f_equal. f_equal. apply IH. assumption.
Qed.

(** What the packer records. *)
Lemma pack_comments e id d container target ids pm cm :
  desc_ok d -> no_overrides e ->
  readable e (dd_container d) container -> readable e (dd_target d) target ->
  Forall2 (dep_means e) (dd_deps d) ids ->
  pack e id (file_of d) = D_ok (pm, cm) ->
  (desc_comments d = [] -> cm = None) /\
  (desc_comments d <> [] -> exists s, cm = Some s /\ recorded (de_junk e) 0 (desc_comments d) s /\ forall x, In x s -> x <> 0).
Proof.
  intros D O Rc Rt Hd HP. pose proof (pack_desc e id d container target ids D O Rc Rt Hd) as P.
  destruct (items_step container target (dd_body d) [] []) as [[us rs]|] eqn:S; [|congruence].
  destruct P as (cb & Hcb & EP). rewrite EP in HP. unfold finish in HP.
  destruct (get_target_addrs target us); [|discriminate]. destruct (get_target_ref_addrs target rs); [|discriminate].
  assert (E : comment_text cb = cm) by congruence. rewrite (comment_text_holds _ _ _ Hcb) in E.
  assert (C : Forall cstr_ok (desc_comments d)) by (apply Forall_forall; intros t I; exact (comment_line_ok d t D I)).
  destruct (desc_comments d) as [|t ts]; split; intros H; try congruence.
  exists (cstr_z (comment_bytes (de_junk e) 0 (t :: ts))). split; [symmetry; exact E|].
  split; [apply recorded_bytes; exact C|apply cstr_z_nonzero].
Qed.

(** A label ends in a digit, a letter, '#' or '-'. *)
Lemma label_last w c : label (w ++ [c]) -> digit c \/ letter c \/ c = 35 \/ c = 45.
Proof.
  intros L. assert (LL : forall w, label w -> forall c, last w 0 = c -> (digit c \/ letter c \/ c = 35 \/ c = 45)).
  { clear L w c. intros w L c Hc.
    assert (P4 : forall p q, Forall2 same_letter p q -> (q = zs "bsc#" \/ q = zs "jsc#" \/ q = zs "cve-") ->
      exists x y z u, p = [x; y; z; u] /\ (u = 35 \/ u = 45)).
    { intros p q P Q. destruct Q as [-> | [-> | ->]]; inversion P as [|? ? ? ? _ P1]; subst; inversion P1 as [|? ? ? ? _ P2]; subst;
        inversion P2 as [|? ? ? ? _ P3]; subst; inversion P3 as [|? ? ? ? S P5]; subst; inversion P5; subst;
        do 4 eexists; (split; [reflexivity|]); unfold same_letter in S; cbn in S; lia. }
    assert (TL : forall (p s : list Z), s <> [] -> last (p ++ s) 0 = last s 0).
    { intros p s NS0. destruct (exists_last NS0) as (s' & x & ->). rewrite app_assoc, !last_last. reflexivity. }
    assert (DL : forall s, Forall digit s -> s <> [] -> digit (last s 0)).
    { intros s F N. destruct (exists_last N) as (s' & x & ->). rewrite last_last. apply Forall_app in F. destruct F as [_ F]. inversion F; assumption. }
    assert (AL : forall s, Forall letter s -> s <> [] -> letter (last s 0)).
    { intros s F N. destruct (exists_last N) as (s' & x & ->). rewrite last_last. apply Forall_app in F. destruct F as [_ F]. inversion F; assumption. }
    subst c. inversion L as [p d P D W|p a P D W|p a d P D1 D2 W|p a P D W|p a d P D1 D2 W]; subst w.
    - destruct d as [|x d]; [|rewrite TL by discriminate; left; apply DL; [exact D|discriminate]].
      destruct (P4 _ _ P) as (x & y & z & u & -> & U); [tauto|]. cbn. tauto.
    - destruct a as [|x a]; [|rewrite TL by discriminate; right; left; apply AL; [exact D|discriminate]].
      destruct (P4 _ _ P) as (x & y & z & u & -> & U); [tauto|]. cbn. tauto.
    - rewrite app_assoc. rewrite TL by discriminate. destruct d as [|x d]; [cbn; tauto|].
      change (45 :: x :: d) with ([45] ++ x :: d). rewrite TL by discriminate. left. apply DL; [exact D2|discriminate].
    - destruct a as [|x a]; [|rewrite TL by discriminate; left; apply DL; [exact D|discriminate]].
      destruct (P4 _ _ P) as (x & y & z & u & -> & U); [tauto|]. cbn. tauto.
    - rewrite app_assoc. rewrite TL by discriminate. destruct d as [|x d]; [cbn; tauto|].
      change (45 :: x :: d) with ([45] ++ x :: d). rewrite TL by discriminate. left. apply DL; [exact D2|discriminate]. }
  apply (LL _ L). apply last_last.
Qed.

Lemma label_first x s : x <> 98 -> x <> 66 -> x <> 106 -> x <> 74 -> x <> 99 -> x <> 67 -> ~ label_starts (x :: s).
Proof.
  intros A1 A2 A3 A4 A5 A6 (w & rest & L & E). inversion L as [p d P D W|p a P D W|p a d P D1 D2 W|p a P D W|p a d P D1 D2 W]; subst w;
    inversion P as [|y z p' q' S P' X Y]; subst; cbn [app] in E; injection E as -> _; unfold same_letter in S; lia.
Qed.
