(** /proc/PID/maps. *)
From Coq Require Import String.
From Verif Require Import Base BaseFacts StrModel InsnQModel LibModel MetaModel DlModel LibSpec SymProofs PtModel PtSpec
  NtModel NtSpec TextModel IntrModel IntrSpec.

Lemma skip_ch_word d s r : s <> [] -> ~ In d s -> skip_ch d (s ++ r) = s ++ r.
Proof.
  destruct s as [|x s]; intros N I; [contradiction N; reflexivity|]. cbn [app skip_ch].
  destruct (Z.eqb_spec x d) as [->|]; [contradiction I; left; reflexivity|reflexivity].
Qed.
Lemma skip_ch_pad d k s : skip_ch d (repeat d k ++ s) = skip_ch d s.
Proof. induction k as [|k IH]; cbn [repeat app skip_ch]; [reflexivity|rewrite Z.eqb_refl; exact IH]. Qed.
Lemma split_ch_word d s r : ~ In d s -> split_ch d (s ++ d :: r) = (s, r).
Proof.
  induction s as [|x s IH]; intros I; cbn [app split_ch]; [rewrite Z.eqb_refl; reflexivity|].
  destruct (Z.eqb_spec x d) as [->|]; [contradiction I; left; reflexivity|].
  rewrite IH by (intros J; apply I; right; exact J). reflexivity.
Qed.
Lemma split_ch_last d s : ~ In d s -> split_ch d s = (s, []).
Proof.
  induction s as [|x s IH]; intros I; cbn [split_ch]; [reflexivity|].
  destruct (Z.eqb_spec x d) as [->|]; [contradiction I; left; reflexivity|].
  rewrite IH by (intros J; apply I; right; exact J). reflexivity.
Qed.
Lemma tok_word d s r : s <> [] -> ~ In d s -> tok d (s ++ d :: r) = (Some s, r).
Proof.
  intros N I. unfold tok. rewrite skip_ch_word by assumption. destruct s as [|x s]; [contradiction N; reflexivity|].
  cbn [app]. change (x :: s ++ d :: r) with ((x :: s) ++ d :: r). rewrite split_ch_word by exact I. reflexivity.
Qed.
Lemma tok_pad d k s : tok d (repeat d k ++ s) = tok d s.
Proof. unfold tok. rewrite skip_ch_pad. reflexivity. Qed.
Lemma tok_last d s : s <> [] -> ~ In d s -> tok d s = (Some s, []).
Proof.
  intros N I. unfold tok. pose proof (skip_ch_word d s [] N I) as E. rewrite app_nil_r in E. rewrite E.
  destruct s as [|x s]; [contradiction N; reflexivity|]. rewrite split_ch_last by exact I. reflexivity.
Qed.

Lemma hex_plain s : Forall hexdigit s -> ~ In 45 s.
Proof. intros F I. rewrite Forall_forall in F. specialize (F 45 I). unfold hexdigit in F. lia. Qed.

Lemma unhex_digit c : hexdigit c -> unhex c = Some (if c <=? 57 then c - 48 else c - 87).
Proof.
  intros H. unfold unhex. unfold hexdigit in H.
  destruct (Z.leb_spec c 57), (Z.leb_spec 48 c), (Z.leb_spec 97 c), (Z.leb_spec c 102); cbn [andb]; try lia; try reflexivity;
  repeat match goal with |- context [?a <=? ?b] => destruct (Z.leb_spec a b) end; cbn [andb]; try lia; reflexivity.
Qed.
Lemma hex_val_spec s c r : Forall hexdigit s -> unhex c = None -> forall v,
  hex_val (s ++ c :: r) v = fold_left (fun v c => 16 * v + (if c <=? 57 then c - 48 else c - 87)) s v.
Proof.
  intros F N. induction F as [|x s X F IH]; intros v; cbn [app hex_val fold_left]; [rewrite N; reflexivity|].
  rewrite unhex_digit by exact X. apply IH.
Qed.
Lemma hex_val_whole s : Forall hexdigit s -> forall v,
  hex_val s v = fold_left (fun v c => 16 * v + (if c <=? 57 then c - 48 else c - 87)) s v.
Proof.
  intros F. induction F as [|x s X F IH]; intros v; cbn [hex_val fold_left]; [reflexivity|].
  rewrite unhex_digit by exact X. apply IH.
Qed.

Lemma get_basename_nl p : get_basename (p ++ [10]) = get_basename p ++ [10].
Proof.
  unfold get_basename, SLASH.
  assert (A : after_last 47 (p ++ [10]) = match after_last 47 p with Some r => Some (r ++ [10]) | None => None end).
  { induction p as [|x p IH]; [reflexivity|]. cbn [app after_last]. rewrite IH. destruct (after_last 47 p); [reflexivity|].
    destruct (x =? 47); reflexivity. }
  rewrite A. destruct (after_last 47 p); reflexivity.
Qed.

Lemma maps_line_spec m main : mline_ok m -> plain_path (ml_path m) ->
  maps_line (mline_text m) main =
  I_ok (if bytes_eqb (get_basename (ml_path m)) main then Some (hexval (ml_start m)) else None).
Proof.
  intros ((N1 & H1 & V1) & (N2 & H2 & V2) & (N3 & W3) & (N4 & W4) & (N5 & W5) & (N6 & W6) & NL) (PB & PS).
  unfold maps_line, mline_text. rewrite tok_word by (assumption || apply hex_plain; assumption).
  assert (W2 : ~ In 32 (ml_end m)).
  { intros I. rewrite Forall_forall in H2. specialize (H2 32 I). unfold hexdigit in H2. lia. }
  rewrite tok_word by assumption. rewrite tok_word by assumption. rewrite tok_word by assumption.
  rewrite tok_word by assumption. rewrite tok_word by assumption. rewrite tok_pad.
  rewrite tok_last.
  2:{ destruct (ml_path m); discriminate. }
  2:{ intros I. apply in_app_or in I. destruct I as [I|[I|[]]]; [contradiction|lia]. }
  rewrite get_basename_nl. destruct (get_basename (ml_path m) ++ [10]) as [|x b] eqn:E; [destruct (get_basename (ml_path m)); discriminate|].
  rewrite <- E. rewrite last_last. cbn [Z.eqb Pos.eqb]. rewrite removelast_last.
  destruct (bytes_eqb (get_basename (ml_path m)) main); [|reflexivity].
  unfold strtoul16. rewrite hex_val_whole by exact H1. fold (hexval (ml_start m)). rewrite Z.min_l by lia. reflexivity.
Qed.

Lemma maps_scan_spec pre m post main : Forall mline_ok (pre ++ [m]) -> Forall (fun x => plain_path (ml_path x)) (pre ++ [m]) ->
  Forall (fun x => get_basename (ml_path x) <> main) pre -> get_basename (ml_path m) = main ->
  maps_scan (map mline_text pre ++ mline_text m :: post) main = I_ok (hexval (ml_start m)).
Proof.
  intros O P N E. induction pre as [|x pre IH]; cbn [app map maps_scan] in *.
  - inversion O; inversion P; subst. rewrite maps_line_spec by assumption. rewrite bytes_eqb_refl. reflexivity.
  - inversion O; inversion P; inversion N; subst. rewrite maps_line_spec by assumption.
    replace (bytes_eqb (get_basename (ml_path x)) (get_basename (ml_path m))) with false
      by (symmetry; apply bytes_eqb_neq; assumption).
    apply IH; assumption.
Qed.

(** ** Ranges *)

Lemma line_start m : mline_ok m -> strtoul16 (mline_text m) = hexval (ml_start m).
Proof.
  intros ((N1 & H1 & V1) & _). unfold strtoul16, mline_text. rewrite hex_val_spec by (assumption || reflexivity).
  fold (hexval (ml_start m)). apply Z.min_l. lia.
Qed.
Lemma line_end m : mline_ok m -> strtoul16 (snd (split_ch 45 (mline_text m))) = hexval (ml_end m).
Proof.
  intros ((N1 & H1 & V1) & (N2 & H2 & V2) & _). unfold strtoul16, mline_text. rewrite split_ch_word by (apply hex_plain; exact H1).
  cbn [snd]. rewrite hex_val_spec by (assumption || reflexivity). fold (hexval (ml_end m)). apply Z.min_l. lia.
Qed.

Definition hull (lib : list Z) (ms : list mline) (lo hi : Z) : Prop :=
  (forall m, In m ms -> substring lib (mline_text m) -> lo <= hexval (ml_start m) /\ hexval (ml_end m) <= hi).

Lemma range_loop_spec lib : forall ms lo hi lo' hi', Forall mline_ok ms ->
  range_loop (map mline_text ms) lib lo hi = (lo', hi') ->
  lo' <= lo /\ hi <= hi' /\ hull lib ms lo' hi' /\
  (lo' = lo \/ exists m, In m ms /\ substring lib (mline_text m) /\ lo' = hexval (ml_start m)) /\
  (hi' = hi \/ exists m, In m ms /\ substring lib (mline_text m) /\ hi' = hexval (ml_end m)).
Proof.
  induction ms as [|m ms IH]; intros lo hi lo' hi' O R; cbn [map range_loop] in R.
  - injection R as <- <-. split; [lia|]. split; [lia|]. split; [intros x []|]. split; left; reflexivity.
  - inversion O as [|? ? OM O']; subst. destruct (strstr (mline_text m) lib) eqn:S.
    + cbv zeta in R. rewrite line_start, line_end in R by exact OM.
      apply IH in R; [|exact O']. destruct R as (A & B & H & L & G).
      assert (A2 : lo' <= lo /\ lo' <= hexval (ml_start m)) by (destruct (Z.ltb_spec (hexval (ml_start m)) lo); lia).
      assert (B2 : hi <= hi' /\ hexval (ml_end m) <= hi') by (destruct (Z.ltb_spec hi (hexval (ml_end m))); lia).
      apply strstr_iff in S. split; [lia|]. split; [lia|]. split; [|split].
      * intros x [<-|I] SX; [lia|apply H; assumption].
      * destruct L as [L|(x & I & SX & E)].
        -- destruct (Z.ltb_spec (hexval (ml_start m)) lo); [|left; lia]. right. exists m. repeat split; [left; reflexivity|exact S|lia].
        -- right. exists x. repeat split; [right; exact I|exact SX|exact E].
      * destruct G as [L1|(x & I & SX & E)].
        -- destruct (Z.ltb_spec hi (hexval (ml_end m))); [|left; lia]. right. exists m. repeat split; [left; reflexivity|exact S|lia].
        -- right. exists x. repeat split; [right; exact I|exact SX|exact E].
    + apply strstr_false in S. apply IH in R; [|exact O']. destruct R as (A & B & H & L & G). split; [lia|]. split; [lia|]. split; [|split].
      * intros x [<-|I] SX; [contradiction|apply H; assumption].
      * destruct L as [L|(x & I & SX & E)]; [left; exact L|]. right. exists x. repeat split; [right; exact I|exact SX|exact E].
      * destruct G as [L1|(x & I & SX & E)]; [left; exact L1|]. right. exists x. repeat split; [right; exact I|exact SX|exact E].
Qed.

Lemma stack_false lo hi fr : stack_in_range lo hi fr = I_ok false -> forall pc, In (Some pc) fr -> ~ (lo < pc < hi).
Proof.
  induction fr as [|[x|] fr IH]; intros H pc I; cbn [stack_in_range] in H; [destruct I| |discriminate].
  destruct (Z.ltb_spec lo x), (Z.ltb_spec x hi); cbn [andb] in H; try discriminate;
    (destruct I as [E|I]; [injection E as ->; lia|apply IH; assumption]).
Qed.
Lemma stack_true lo hi fr : stack_in_range lo hi fr = I_ok true -> exists pc, In (Some pc) fr /\ lo < pc < hi.
Proof.
  induction fr as [|[x|] fr IH]; intros H; cbn [stack_in_range] in H; [discriminate| |discriminate].
  destruct (Z.ltb_spec lo x), (Z.ltb_spec x hi); cbn [andb] in H;
    try (exists x; split; [left; reflexivity|lia]); destruct (IH H) as (pc & I & P); exists pc; (split; [right; exact I|exact P]).
Qed.
Lemma threads_false lo hi ths : threads_in_range lo hi ths = I_ok false ->
  forall fr pc, In fr ths -> In (Some pc) fr -> ~ (lo < pc < hi).
Proof.
  induction ths as [|f ths IH]; intros H fr pc I J; [destruct I|]. cbn [threads_in_range] in H.
  destruct (stack_in_range lo hi f) as [[|]| | |] eqn:S; cbn [ibind] in H; try discriminate.
  destruct I as [<-|I]; [apply (stack_false _ _ _ S pc J)|apply (IH H fr pc I J)].
Qed.
Lemma threads_true lo hi ths : threads_in_range lo hi ths = I_ok true ->
  exists fr pc, In fr ths /\ In (Some pc) fr /\ lo < pc < hi.
Proof.
  induction ths as [|f ths IH]; intros H; [discriminate|]. cbn [threads_in_range] in H.
  destruct (stack_in_range lo hi f) as [[|]| | |] eqn:S; cbn [ibind] in H; try discriminate.
  - destruct (stack_true _ _ _ S) as (pc & I & P). exists f, pc. repeat split; try apply P; [left; reflexivity|exact I].
  - destruct (IH H) as (fr & pc & I & J & P). exists fr, pc. repeat split; try apply P; [right; exact I|exact J].
Qed.
Lemma threads_defined lo hi ths : Forall (Forall (fun f => f <> None)) ths -> exists b, threads_in_range lo hi ths = I_ok b.
Proof.
  induction 1 as [|f ths F _ IH]; [exists false; reflexivity|]. cbn [threads_in_range].
  assert (S : exists b, stack_in_range lo hi f = I_ok b).
  { induction F as [|x f X F IH2]; [exists false; reflexivity|]. destruct x as [pc|]; [|contradiction X; reflexivity].
    cbn [stack_in_range]. destruct (_ && _); [exists true; reflexivity|exact IH2]. }
  destruct S as ([|] & ->); cbn [ibind]; [exists true; reflexivity|exact IH].
Qed.

Lemma path_in_line m : substring (ml_path m) (mline_text m).
Proof.
  unfold substring, mline_text. exists (ml_start m ++ 45 :: ml_end m ++ 32 :: ml_perm m ++ 32 :: ml_off m ++ 32 :: ml_dev m ++ 32 :: ml_inode m ++ 32 :: repeat 32 (ml_pad m)), [10].
  repeat (rewrite <- app_assoc; cbn [app]). reflexivity.
Qed.
