(** Proofs for C94. *)
From Coq Require Import Bool Lia.
From Verif Require Import Base BaseFacts MetaModel DscModel DscSpec DscProofs LocModel LocSpec.

(** ** The position apart, it is the reader of DscModel *)
Definition forget {A} (r : lres A) : dres A :=
  match r with L_ok a => D_ok a | L_err _ _ _ => D_err | _ => D_crash end.

Ltac brk := repeat match goal with
  | |- context [match ?x with _ => _ end] => destruct x eqn:?
  end.

Ltac inner x := match x with context [match ?y with _ => _ end] => inner y | _ => destruct x eqn:? end.
Ltac brk2 := repeat match goal with |- context [match ?x with _ => _ end] => inner x end.

Lemma comment_not_err junk c l : read_comment junk c l <> D_err.
Proof. unfold read_comment. destruct (match c with None => _ | Some _ => _ end) as [[d p] s]. cbv zeta. destruct (p + zlen l >=? _); discriminate. Qed.

Lemma target_forget e n l d : forget (read_target_l e n l d) = read_target e l d.
Proof. unfold read_target_l, read_target. cbv zeta. brk; try reflexivity; congruence. Qed.
Lemma ref_forget c t n s : forget (read_ref_l c t n s) = read_ref c t s.
Proof.
  unfold read_ref_l, read_ref. destruct (match s with _ :: c0 :: t0 => _ | _ => _ end) as [tls third]. cbv zeta.
  brk; try reflexivity; congruence.
Qed.
Lemma unit_forget c t n s : forget (read_unit_l c t n s) = read_unit c t s.
Proof. unfold read_unit_l, read_unit. brk; try reflexivity; congruence. Qed.
Lemma line_forget e c n l d : forget (read_line_l e c n l d) = read_line e c l d.
Proof.
  unfold read_line_l, read_line. destruct l as [|ch t]; [reflexivity|]. destruct (ch =? NL); [reflexivity|].
  destruct (ch =? BANG).
  { destruct (read_comment (de_junk e) (ds_comments d) (ch :: t)) eqn:R; try reflexivity. exfalso. apply (comment_not_err _ _ _ R). }
  destruct (ch =? AT); [apply target_forget|]. destruct (ds_target d) as [tg|]; [|reflexivity]. cbv zeta.
  destruct (ch =? HASH); [rewrite <- (ref_forget c tg n)|rewrite <- (unit_forget c tg n)];
    [destruct (read_ref_l c tg n (chomp (ch :: t)))|destruct (read_unit_l c tg n (chomp (ch :: t)))]; reflexivity.
Qed.
Lemma body_forget e c ls : forall n d, forget (read_body_l e c n ls d) = read_body e c ls d.
Proof.
  induction ls as [|l ls IH]; intros n d; cbn [read_body_l read_body]; [reflexivity|]. rewrite <- (line_forget e c n).
  destruct (read_line_l e c n l d); cbn [forget]; try reflexivity. apply IH.
Qed.
Lemma deps_forget e ls : forall n ds, match read_deps_l e n ls ds with
  | L_ok (_, d, r) => read_deps e ls ds = Some (d, r)
  | L_err _ _ _ => read_deps e ls ds = None
  | _ => False end.
Proof.
  induction ls as [|[|c t] ls IH]; intros n ds; cbn [read_deps_l read_deps]; try reflexivity.
  destruct (c =? STAR); [|reflexivity]. destruct (add_dependency _); [apply IH|reflexivity].
Qed.
Lemma container_forget e ls : forall n cb,
  match read_container_l e n ls cb with
  | L_ok (_, p, b, r) => read_container e ls cb = D_ok (p, b, r)
  | L_err _ _ _ => read_container e ls cb = D_err
  | L_segv _ _ => False
  | L_crash => read_container e ls cb = D_crash
  end.
Proof.
  induction ls as [|[|c t] ls IH]; intros n cb; cbn [read_container_l read_container]; try reflexivity.
  destruct (c =? NL); [apply IH|]. destruct (c =? BANG).
  { destruct (read_comment (de_junk e) cb (c :: t)) eqn:R; [apply IH| |reflexivity]. exfalso. apply (comment_not_err _ _ _ R). }
  cbv zeta. destruct (negb _); [reflexivity|]. destruct (de_isdir _ _); reflexivity.
Qed.
Lemma parse_forget e file : forget (parse_located e file) = parse_description e file.
Proof.
  unfold parse_located, parse_lines, parse_description. pose proof (container_forget e (lines_of file) 1 None) as C.
  destruct (read_container_l e 1 (lines_of file) None) as [[[[n so] cb] ls]| | |]; try rewrite C; try reflexivity; [|contradiction].
  destruct (de_info e so) as [ct|]; [|reflexivity]. pose proof (deps_forget e ls (n + 1) []) as D.
  destruct (read_deps_l e (n + 1) ls []) as [[[n' deps] ls']| | |]; try rewrite D; try reflexivity; try contradiction.
  rewrite <- (body_forget e ct ls' n'). destruct (read_body_l e ct n' ls' _); reflexivity.
Qed.

(** ** Lines *)
Lemma lines_of_are file : lines_are file (lines_of file).
Proof.
  induction file as [|c f (IH1 & IH2 & IH3)]; cbn [lines_of].
  - split; [reflexivity|]. split; [constructor|]. intros b l a E. destruct b; discriminate.
  - destruct (Z.eqb_spec c NL) as [->|NE].
    + split; [cbn [concat app]; rewrite IH1; reflexivity|]. split; [constructor; [discriminate|exact IH2]|].
      intros [|x b] l a E; cbn [app] in E.
      * injection E as E1 E2; subst. exists []. split; [intros []|left; reflexivity].
      * injection E as E1 E; subst. apply (IH3 b l a E).
    + destruct (lines_of f) as [|l ls] eqn:EL.
      * cbn in IH1. subst f. split; [reflexivity|]. split; [repeat constructor; discriminate|].
        intros [|x b] l a E; cbn [app] in E; [|destruct b; discriminate]. injection E as E1 E2; subst.
        exists [c]. split; [intros [X|[]]; unfold NL in NE; lia|auto].
      * split; [cbn [concat app]; rewrite <- IH1; reflexivity|]. inversion IH2; subst. split; [constructor; [discriminate|assumption]|].
        intros [|x b] l0 a E; cbn [app] in E.
        -- injection E as E1 E2; subst. destruct (IH3 [] l a eq_refl) as (t & Nt & H).
           exists (c :: t). split; [intros [X|X]; [unfold NL in NE; lia|contradiction]|].
           destruct H as [->|[-> ->]]; [left; reflexivity|right; auto].
        -- injection E as E1 E; subst. apply (IH3 (l :: b) l0 a). reflexivity.
Qed.

(** ** Each phase, line by line *)

Lemma ref_line c t n s : match read_ref_l c t n s with L_err _ l _ => l = n | L_segv l _ => l = n | _ => True end.
Proof. unfold read_ref_l. destruct (match s with _ :: c0 :: t0 => _ | _ => _ end) as [tls third]. cbv zeta. brk2; auto. Qed.
Lemma unit_line c t n s : match read_unit_l c t n s with L_err _ l _ => l = n | L_segv l _ => l = n | _ => True end.
Proof. unfold read_unit_l. brk2; auto. Qed.
Lemma line_line e c n l d : match read_line_l e c n l d with L_err k m _ => m = n | L_segv m _ => m = n | _ => True end.
Proof.
  unfold read_line_l. destruct l as [|ch t]; [exact I|]. destruct (ch =? NL); [exact I|]. destruct (ch =? BANG).
  { destruct (read_comment _ _ _); exact I. }
  destruct (ch =? AT). { unfold read_target_l. cbv zeta. brk2; auto. }
  destruct (ds_target d) as [tg|]; [|reflexivity]. cbv zeta. destruct (ch =? HASH).
  - pose proof (ref_line c tg n (chomp (ch :: t))). destruct (read_ref_l _ _ _ _); auto.
  - pose proof (unit_line c tg n (chomp (ch :: t))). destruct (read_unit_l _ _ _ _); auto.
Qed.

(** Where the reading of the body stops. *)
Definition stops {A} (r : lres A) (k : derr) (l c : Z) : Prop := r = L_err k l c.

Lemma body_stop e c ls : forall n d,
  match read_body_l e c n ls d with
  | L_ok _ => True
  | r => exists b l a d', ls = b ++ l :: a /\ read_body_l e c n b d = L_ok d' /\ read_line_l e c (n + zlen b) l d' = r
  end.
Proof.
  induction ls as [|l ls IH]; intros n d; cbn [read_body_l]; [exact I|].
  destruct (read_line_l e c n l d) as [d'|k m col|m col|] eqn:E.
  - specialize (IH (n + 1) d'). destruct (read_body_l e c (n + 1) ls d') as [x| | |]; [exact I|..];
      destruct IH as (b & l0 & a & d2 & -> & E2 & E3); exists (l :: b), l0, a, d2;
      (split; [reflexivity|]); cbn [read_body_l]; rewrite E; (split; [exact E2|]); rewrite zlen_cons; replace (n + (zlen b + 1)) with (n + 1 + zlen b) by lia; exact E3.
  - exists [], l, ls, d. split; [reflexivity|]. split; [reflexivity|]. change (zlen (@nil (list Z))) with 0. rewrite Z.add_0_r. exact E.
  - exists [], l, ls, d. split; [reflexivity|]. split; [reflexivity|]. change (zlen (@nil (list Z))) with 0. rewrite Z.add_0_r. exact E.
  - exists [], l, ls, d. split; [reflexivity|]. split; [reflexivity|]. change (zlen (@nil (list Z))) with 0. rewrite Z.add_0_r. exact E.
Qed.
Lemma body_app e c b : forall n l a d d', read_body_l e c n b d = L_ok d' ->
  read_body_l e c n (b ++ l :: a) d =
  match read_line_l e c (n + zlen b) l d' with L_ok d2 => read_body_l e c (n + zlen b + 1) a d2 | r => r end.
Proof.
  induction b as [|x b IH]; intros n l a d d' E; cbn [read_body_l app] in *.
  - injection E as <-. change (zlen (@nil (list Z))) with 0. rewrite Z.add_0_r. reflexivity.
  - destruct (read_line_l e c n x d) as [d1| | |]; try discriminate. rewrite (IH _ _ _ _ _ E), zlen_cons.
    replace (n + (zlen b + 1)) with (n + 1 + zlen b) by lia. reflexivity.
Qed.

(** The dependencies: how many lines are taken, and that what follows does not matter. *)
Lemma deps_ok e ls : Forall (fun l => l <> []) ls -> forall n ds n' ds' rest, read_deps_l e n ls ds = L_ok (n', ds', rest) ->
  exists b, ls = b ++ rest /\ n' = n + zlen b /\ Forall (fun l => starts_with l 42) b /\
    (rest = [] \/ exists l a, rest = l :: a /\ ~ starts_with l 42) /\
    forall l a, ~ starts_with l 42 -> l <> [] -> read_deps_l e n (b ++ l :: a) ds = L_ok (n', ds', l :: a).
Proof.
  induction 1 as [|[|c t] ls NE F IH]; intros n ds n' ds' rest E; cbn [read_deps_l] in E; try contradiction.
  - injection E as <- <- <-. exists []. change (zlen (@nil (list Z))) with 0. rewrite Z.add_0_r. repeat split; auto.
    intros [|c t] a N1 N2; [contradiction|]. cbn [app read_deps_l]. destruct (Z.eqb_spec c STAR) as [->|]; [exfalso; apply N1; exists t; reflexivity|reflexivity].
  - destruct (Z.eqb_spec c STAR) as [->|NS].
    + destruct (add_dependency _) as [id|] eqn:A; [|discriminate]. destruct (IH _ _ _ _ _ E) as (b & -> & -> & FB & R & G).
      exists ((STAR :: t) :: b). split; [reflexivity|]. split; [rewrite zlen_cons; lia|]. split; [constructor; [exists t; reflexivity|exact FB]|].
      split; [exact R|]. intros l a N1 N2. cbn [app read_deps_l]. rewrite Z.eqb_refl, A. apply G; assumption.
    + injection E as <- <- <-. exists []. change (zlen (@nil (list Z))) with 0. rewrite Z.add_0_r.
      assert (N : ~ starts_with (c :: t) 42) by (intros (x & X); injection X as -> _; apply NS; reflexivity).
      repeat split; auto; [right; eauto|].
      intros [|c2 t2] a N1 N2; [contradiction|]. cbn [app read_deps_l]. destruct (Z.eqb_spec c2 STAR) as [->|]; [exfalso; apply N1; exists t2; reflexivity|reflexivity].
Qed.
Lemma deps_all e b : forall n ds, Forall (fun l => starts_with l 42) b ->
  match read_deps_l e n b ds with
  | L_ok (n', ds', rest) => n' = n + zlen b /\ rest = [] /\ forall a, read_deps_l e n (b ++ a) ds = read_deps_l e n' a ds'
  | _ => True end.
Proof.
  induction b as [|l b IH]; intros n ds F; cbn [read_deps_l].
  - change (zlen (@nil (list Z))) with 0. rewrite Z.add_0_r. auto.
  - inversion F as [|? ? (t & ->) F']; subst. cbn [app read_deps_l]. change 42 with STAR. rewrite Z.eqb_refl.
    destruct (add_dependency _) as [id|] eqn:A; [|exact I]. specialize (IH (n + 1) (id :: ds) F').
    destruct (read_deps_l e (n + 1) b (id :: ds)) as [[[n' ds'] rest]| | |]; auto. destruct IH as (-> & -> & G).
    split; [rewrite zlen_cons; lia|]. split; [reflexivity|]. exact G.
Qed.
Lemma deps_stop e ls : forall n ds k m c, read_deps_l e n ls ds = L_err k m c ->
  exists b l a ds', ls = b ++ l :: a /\ m = n + zlen b /\ k = E_dependency /\ c = 1 /\ Forall (fun l => starts_with l 42) b /\ starts_with l 42 /\
    read_deps_l e n b ds = L_ok (m, ds', []) /\ add_dependency (de_dep e (tl (chomp l))) = None.
Proof.
  induction ls as [|[|c0 t] ls IH]; intros n ds k m c E; cbn [read_deps_l] in E; try discriminate.
  destruct (Z.eqb_spec c0 STAR) as [->|]; [|discriminate]. destruct (add_dependency _) as [id|] eqn:A.
  - destruct (IH _ _ _ _ _ E) as (b & l & a & ds' & -> & -> & -> & -> & FB & SL & R & AD).
    exists ((STAR :: t) :: b), l, a, ds'. split; [reflexivity|]. split; [rewrite zlen_cons; lia|]. repeat split; auto; [constructor; [exists t; reflexivity|exact FB]|].
    cbn [read_deps_l]. rewrite Z.eqb_refl, A. exact R.
  - injection E as <- <- <-. exists [], (STAR :: t), ls, ds. change (zlen (@nil (list Z))) with 0. rewrite Z.add_0_r. repeat split; auto. exists t. reflexivity.
Qed.
Lemma deps_no_crash e ls : forall n ds, match read_deps_l e n ls ds with L_segv _ _ | L_crash => False | _ => True end.
Proof. intros n ds. pose proof (deps_forget e ls n ds). destruct (read_deps_l e n ls ds) as [[[? ?] ?]| | |]; auto. Qed.

(** The head. *)
Definition container_path (e : dsc_env) (line : list Z) := match de_container e with Some p => p | None => chomp line end.
Lemma skipped_iff c t : skipped (c :: t) <-> c = 10 \/ c = 33.
Proof.
  split; [intros [(x & X)|(x & X)]; injection X as -> _; auto|]. intros [-> | ->]; [left|right]; exists t; reflexivity.
Qed.
Lemma head_ok e ls : Forall (fun l => l <> []) ls -> forall n cb m p cb' rest, read_container_l e n ls cb = L_ok (m, p, cb', rest) ->
  exists b l, ls = b ++ l :: rest /\ m = n + zlen b /\ Forall skipped b /\ ~ skipped l /\ p = container_path e l /\
    de_open e p = true /\ de_isdir e p = false /\
    forall a, read_container_l e n (b ++ l :: a) cb = L_ok (m, p, cb', a).
Proof.
  induction 1 as [|[|c t] ls NE F IH]; intros n cb m p cb' rest E; cbn [read_container_l] in E; try contradiction; try discriminate.
  destruct (Z.eqb_spec c NL) as [->|N1].
  - destruct (IH _ _ _ _ _ _ E) as (b & l & -> & -> & FB & NS & -> & O & D & G). exists ((NL :: t) :: b), l.
    split; [reflexivity|]. split; [rewrite zlen_cons; lia|]. split; [constructor; [apply skipped_iff; left; reflexivity|exact FB]|]. repeat split; auto.
  - destruct (Z.eqb_spec c BANG) as [->|N2].
    + destruct (read_comment (de_junk e) cb (BANG :: t)) as [cb2| |] eqn:R; try discriminate.
      destruct (IH _ _ _ _ _ _ E) as (b & l & -> & -> & FB & NS & -> & O & D & G). exists ((BANG :: t) :: b), l.
      split; [reflexivity|]. split; [rewrite zlen_cons; lia|]. split; [constructor; [apply skipped_iff; right; reflexivity|exact FB]|]. repeat split; auto.
      intros a. cbn [app read_container_l]. change (BANG =? NL) with false. cbv iota. rewrite Z.eqb_refl, R. apply G.
    + cbv zeta in E. change (match de_container e with Some p => p | None => chomp (c :: t) end) with (container_path e (c :: t)) in E.
      destruct (negb (de_open e (container_path e (c :: t)))) eqn:O; [discriminate|]. destruct (de_isdir e (container_path e (c :: t))) eqn:D; [discriminate|].
      injection E as <- <- <- <-. exists [], (c :: t). change (zlen (@nil (list Z))) with 0. rewrite Z.add_0_r. apply negb_false_iff in O.
      split; [reflexivity|]. split; [reflexivity|]. split; [constructor|]. split; [rewrite skipped_iff; unfold NL, BANG in *; lia|].
      split; [reflexivity|]. split; [exact O|]. split; [exact D|]. intros a. cbn [app read_container_l].
      destruct (Z.eqb_spec c NL); [contradiction|]. destruct (Z.eqb_spec c BANG); [contradiction|]. cbv zeta.
      change (match de_container e with Some p => p | None => chomp (c :: t) end) with (container_path e (c :: t)). rewrite O, D. reflexivity.
Qed.
Lemma head_skips e b : Forall skipped b -> forall n cb,
  match read_container_l e n b cb with
  | L_err k m c => k = E_empty /\ m = n + zlen b /\ c = 1
  | L_ok _ | L_segv _ _ => False
  | L_crash => True end.
Proof.
  induction 1 as [|l b S F IH]; intros n cb; cbn [read_container_l].
  - change (zlen (@nil (list Z))) with 0. rewrite Z.add_0_r. auto.
  - destruct l as [|c t]; [destruct S as [(x & X)|(x & X)]; discriminate|]. apply skipped_iff in S.
    destruct (Z.eqb_spec c NL).
    + specialize (IH (n + 1) cb). destruct (read_container_l e (n + 1) b cb); auto. rewrite zlen_cons. intuition lia.
    + destruct (Z.eqb_spec c BANG); [|unfold NL, BANG in *; lia]. destruct (read_comment _ _ _) as [cb2| |]; auto.
      specialize (IH (n + 1) cb2). destruct (read_container_l e (n + 1) b cb2); auto. rewrite zlen_cons. intuition lia.
Qed.

Lemma head_stop e ls : Forall (fun l => l <> []) ls -> forall n cb k m c, read_container_l e n ls cb = L_err k m c ->
  c = 1 /\
  ((k = E_empty /\ Forall skipped ls /\ m = n + zlen ls) \/
   exists b l a, ls = b ++ l :: a /\ Forall skipped b /\ ~ skipped l /\ m = n + zlen b /\
     ((k = E_container_open /\ de_open e (container_path e l) = false) \/ (k = E_container_dir /\ de_isdir e (container_path e l) = true)) /\
     read_container_l e n b cb = L_err E_empty m 1 /\
     forall a', read_container_l e n (b ++ l :: a') cb = L_err k m 1).
Proof.
  induction 1 as [|[|c0 t] ls NE F IH]; intros n cb k m c E; cbn [read_container_l] in E; try contradiction.
  - injection E as <- <- <-. change (zlen (@nil (list Z))) with 0. rewrite Z.add_0_r. split; [reflexivity|]. left. auto.
  - destruct (Z.eqb_spec c0 NL) as [->|N1].
    + destruct (IH _ _ _ _ _ E) as (-> & H). split; [reflexivity|]. destruct H as [(-> & FS & ->)|(b & l & a & -> & FB & NS & -> & K & R & G)].
      * left. rewrite zlen_cons. repeat split; [constructor; [apply skipped_iff; left; reflexivity|exact FS]|lia].
      * right. exists ((NL :: t) :: b), l, a. split; [reflexivity|]. split; [constructor; [apply skipped_iff; left; reflexivity|exact FB]|].
        split; [exact NS|]. split; [rewrite zlen_cons; lia|]. split; [exact K|].
        split; [cbn [read_container_l]; rewrite Z.eqb_refl; exact R|]. intros a'. cbn [app read_container_l]. rewrite Z.eqb_refl. apply G.
    + destruct (Z.eqb_spec c0 BANG) as [->|N2].
      * destruct (read_comment (de_junk e) cb (BANG :: t)) as [cb2| |] eqn:RC; try discriminate.
        destruct (IH _ _ _ _ _ E) as (-> & H). split; [reflexivity|]. destruct H as [(-> & FS & ->)|(b & l & a & -> & FB & NS & -> & K & R & G)].
        -- left. rewrite zlen_cons. repeat split; [constructor; [apply skipped_iff; right; reflexivity|exact FS]|lia].
        -- right. exists ((BANG :: t) :: b), l, a. split; [reflexivity|]. split; [constructor; [apply skipped_iff; right; reflexivity|exact FB]|].
           split; [exact NS|]. split; [rewrite zlen_cons; lia|]. split; [exact K|].
           split; [cbn [read_container_l]; change (BANG =? NL) with false; cbv iota; rewrite Z.eqb_refl, RC; exact R|].
           intros a'. cbn [app read_container_l]. change (BANG =? NL) with false; cbv iota. rewrite Z.eqb_refl, RC. apply G.
      * assert (NS : ~ skipped (c0 :: t)) by (rewrite skipped_iff; unfold NL, BANG in *; lia).
        assert (G : forall a', read_container_l e n ((c0 :: t) :: a') cb =
           if negb (de_open e (container_path e (c0 :: t))) then L_err E_container_open n 1
           else if de_isdir e (container_path e (c0 :: t)) then L_err E_container_dir n 1 else L_ok (n, container_path e (c0 :: t), cb, a')).
        { intros a'. cbn [read_container_l]. destruct (Z.eqb_spec c0 NL); [contradiction|]. destruct (Z.eqb_spec c0 BANG); [contradiction|]. reflexivity. }
        cbv zeta in E. change (match de_container e with Some p => p | None => chomp (c0 :: t) end) with (container_path e (c0 :: t)) in E.
        destruct (negb (de_open e (container_path e (c0 :: t)))) eqn:O; [|destruct (de_isdir e (container_path e (c0 :: t))) eqn:D; [|discriminate]];
          injection E as <- <- <-; (split; [reflexivity|]); right; exists [], (c0 :: t), ls; change (zlen (@nil (list Z))) with 0; rewrite Z.add_0_r;
          (split; [reflexivity|]); (split; [constructor|]); (split; [exact NS|]); (split; [reflexivity|]);
          [split; [left; split; [reflexivity|apply negb_true_iff; exact O]|]|split; [right; split; [reflexivity|exact D]|]]; (split; [reflexivity|exact G]).
Qed.

(** ** What is wrong with the line *)

Lemma split_some s a b : split_colon s = Some (a, b) -> s = a ++ 58 :: b /\ ~ In 58 a.
Proof.
  revert a b. induction s as [|c t IH]; intros a b E; cbn [split_colon] in E; [discriminate|].
  destruct (Z.eqb_spec c COLON) as [->|N].
  - injection E as <- <-. split; [reflexivity|intros []].
  - destruct (split_colon t) as [[x y]|]; [|discriminate]. injection E as <- <-. destruct (IH x y eq_refl) as [-> NI].
    split; [reflexivity|]. intros [X|X]; [unfold COLON in N; lia|contradiction].
Qed.
Lemma split_none s : split_colon s = None -> ~ In 58 s.
Proof.
  induction s as [|c t IH]; intros E; cbn [split_colon] in E; [intros []|]. destruct (Z.eqb_spec c COLON) as [->|N]; [discriminate|].
  destruct (split_colon t) as [[x y]|]; [discriminate|]. intros [X|X]; [unfold COLON in N; lia|]. apply IH; auto.
Qed.
Lemma skip_colons_split s : exists k, s = repeat 58 k ++ skip_colons s /\ ~ starts_with (skip_colons s) 58.
Proof.
  induction s as [|c t (k & IH & N)]; cbn [skip_colons]; [exists 0%nat; split; [reflexivity|intros (x & X); discriminate]|].
  destruct (Z.eqb_spec c COLON) as [->|NC].
  - exists (S k). cbn [repeat app]. split; [rewrite <- IH; reflexivity|exact N].
  - exists 0%nat. split; [reflexivity|]. intros (x & X). injection X as -> _. apply NC. reflexivity.
Qed.
Lemma chomp_head c t : c <> 10 -> c <> 0 -> exists t', chomp (c :: t) = c :: t'.
Proof.
  intros N1 N2. unfold chomp. destruct t as [|x t].
  - cbn [last]. destruct (Z.eqb_spec c NL); [contradiction|]. cbn [cstr_z]. destruct (Z.eqb_spec c 0); [contradiction|]. eauto.
  - destruct (last (c :: x :: t) 0 =? NL); [change (removelast (c :: x :: t)) with (c :: removelast (x :: t))|];
      cbn [cstr_z]; (destruct (Z.eqb_spec c 0); [contradiction|]); eauto.
Qed.

Lemma ref_wrong c t n t' k m col : read_ref_l c t n (35 :: t') = L_err k m col ->
  exists oft name, k = E_symbol oft name /\ stands_at (35 :: t') name col /\ ~ has_symbol (si_syms (if oft : bool then t else c)) name.
Proof.
  intros E. unfold read_ref_l in E.
  assert (P : exists pre third tls, (match 35 :: t' with _ :: c0 :: t0 => if c0 =? PERCENT then (true, t0) else (false, c0 :: t0) | _ => (false, []) end) = (tls, third) /\
     35 :: t' = pre ++ third /\ (if tls : bool then 3 else 2) = zlen pre + 1 /\ (pre = [35] \/ pre = [35; 37])).
  { destruct t' as [|c0 t0]; [exists [35], [], false; repeat split; auto|]. destruct (Z.eqb_spec c0 PERCENT) as [->|]; [exists [35; 37], t0, true|exists [35], (c0 :: t0), false]; repeat split; auto. }
  destruct P as (pre & third & tls & EQ & ES & EC & PR). rewrite EQ in E. cbv zeta in E. rewrite ES.
  destruct (split_colon third) as [[tname third2]|] eqn:S1; [|discriminate]. destruct (split_some _ _ _ S1) as [-> NT].
  destruct (split_colon third2) as [[rname third3]|] eqn:S2; [destruct (split_colon third3) as [[? ?]|]; discriminate|].
  pose proof (split_none _ S2) as N2. destruct (get_symbol_with_name (si_syms t) tname) eqn:G1.
  - destruct (get_symbol_with_name (si_syms c) third2) eqn:G2; [discriminate|]. injection E as <- <- <-. exists false, third2. split; [reflexivity|].
    split; [|apply get_symbol_none; exact G2]. exists (pre ++ tname ++ [58]), []. rewrite app_nil_r, <- !app_assoc.
    split; [reflexivity|]. split; [rewrite EC, !zlen_app; change (zlen [58]) with 1; lia|]. split; [exact N2|]. split; [auto|].
    right. right. right. exists (pre ++ tname). rewrite <- app_assoc. reflexivity.
  - injection E as <- <- <-. exists true, tname. split; [reflexivity|]. split; [|apply get_symbol_none; exact G1].
    exists pre, (58 :: third2). split; [reflexivity|]. split; [exact EC|]. split; [exact NT|]. split; [right; exists third2; reflexivity|]. tauto.
Qed.

Lemma last_colons a k : last (a ++ 58 :: repeat 58 k) 0 = 58.
Proof. rewrite last_app_cons. induction k as [|k IH]; [reflexivity|]. cbn [repeat]. exact IH. Qed.
Lemma colons_end k : exists p, 58 :: repeat 58 k = p ++ [58].
Proof. exists (repeat 58 k). rewrite <- repeat_cons. reflexivity. Qed.
Lemma strtok_front s a r : ~ starts_with s 58 -> strtok s = Some (a, r) ->
  ~ In 58 a /\ ((s = a /\ r = []) \/ s = a ++ 58 :: r).
Proof.
  intros NS E. unfold strtok in E. destruct (skip_colons_split s) as (k & ES & NB).
  assert (SK : skip_colons s = s). { destruct s as [|c t]; [reflexivity|]. cbn [skip_colons]. destruct (Z.eqb_spec c COLON) as [->|]; [|reflexivity]. exfalso. apply NS. exists t. reflexivity. }
  rewrite SK in E. destruct s as [|c t]; [discriminate|]. destruct (split_colon (c :: t)) as [[x y]|] eqn:SP.
  - injection E as <- <-. apply split_some in SP. tauto.
  - injection E as <- <-. apply split_none in SP. tauto.
Qed.
Lemma strtok_none r : strtok r = None -> exists k, r = repeat 58 k.
Proof.
  unfold strtok. destruct (skip_colons_split r) as (k & ES & _). destruct (skip_colons r) as [|x y] eqn:SK.
  - intros _. exists k. rewrite app_nil_r in ES. exact ES.
  - destruct (split_colon (x :: y)) as [[? ?]|]; discriminate.
Qed.
Lemma strtok_skip r a b : strtok r = Some (a, b) -> exists k, r = repeat 58 k ++ skip_colons r /\ ~ starts_with (skip_colons r) 58 /\
  ~ In 58 a /\ (skip_colons r = a \/ exists y, skip_colons r = a ++ 58 :: y).
Proof.
  unfold strtok. destruct (skip_colons_split r) as (k & ES & NB). intros E. exists k. split; [exact ES|]. split; [exact NB|].
  destruct (skip_colons r) as [|x y]; [discriminate|]. destruct (split_colon (x :: y)) as [[u v]|] eqn:SP; injection E as <- <-.
  - apply split_some in SP. destruct SP as [-> N]. eauto.
  - apply split_none in SP. auto.
Qed.

Lemma unit_wrong c t n s k m col : read_unit_l c t n s = L_err k m col ->
  (k = E_expected /\ (exists x, s = x ++ [58]) /\ col = zlen s) \/
  (k = E_expected_colon /\ ~ In 58 s /\ col = 1) \/
  (exists oft name, k = E_symbol oft name /\ stands_at s name col /\ ~ has_symbol (si_syms (if oft : bool then t else c)) name).
Proof.
  intros E. unfold read_unit_l in E. destruct s as [|c0 t0]; [discriminate|]. set (s := c0 :: t0) in *.
  destruct (Z.eqb_spec (last s 0) COLON) as [LC|LC].
  { injection E as <- <- <-. left. split; [reflexivity|]. split; [|reflexivity]. exists (removelast s).
    rewrite (app_removelast_last 0) at 1 by discriminate. rewrite LC. reflexivity. }
  destruct (Z.eqb_spec c0 COLON) as [|NC]; [discriminate|].
  assert (NS : ~ starts_with s 58). { intros (x & X). injection X as -> _. apply NC. reflexivity. }
  destruct (strtok s) as [[first rest]|] eqn:ST; [|discriminate]. destruct (strtok_front _ _ _ NS ST) as [NF HS].
  right. destruct (get_symbol_with_name (si_syms t) first) eqn:G1.
  - destruct (strtok rest) as [[second r2]|] eqn:S2.
    + destruct (get_symbol_with_name (si_syms c) second) eqn:G2; [discriminate|]. injection E as <- <- <-. right.
      exists false, second. split; [reflexivity|]. split; [|apply get_symbol_none; exact G2].
      destruct HS as [[_ ->]|HS]; [discriminate S2|]. destruct (strtok_skip _ _ _ S2) as (j & ER & _ & N2 & H2).
      destruct (colons_end j) as (p & EP).
      exists (first ++ 58 :: repeat 58 j), (skipn (length second) (skip_colons rest)).
      assert (EQ : skip_colons rest = second ++ skipn (length second) (skip_colons rest) /\ (skipn (length second) (skip_colons rest) = [] \/ starts_with (skipn (length second) (skip_colons rest)) 58)).
      { destruct H2 as [H2|(y & H2)]; rewrite H2.
        - rewrite skipn_all, app_nil_r. auto.
        - rewrite skipn_app, skipn_all, Nat.sub_diag. cbn [app skipn]. split; [reflexivity|right; exists y; reflexivity]. }
      destruct EQ as [EQ EQ2]. rewrite <- EQ.
      split; [rewrite HS; rewrite ER at 1; rewrite <- app_assoc; reflexivity|].
      split. { rewrite HS. rewrite ER at 1. rewrite !zlen_app, !zlen_cons, zlen_app. lia. }
      split; [exact N2|]. split; [exact EQ2|]. right. right. right. exists (first ++ p). rewrite EP, app_assoc. reflexivity.
    + injection E as <- <- <-. left. split; [reflexivity|]. split; [|reflexivity]. destruct (strtok_none _ S2) as (j & ->).
      destruct HS as [[-> _]|HS]; [exact NF|]. exfalso. apply LC. rewrite HS. apply last_colons.
  - injection E as <- <- <-. right. exists true, first. split; [reflexivity|]. split; [|apply get_symbol_none; exact G1].
    exists [], (match rest with [] => skipn (length first) s | _ => 58 :: rest end). cbn [app]. split.
    + destruct HS as [[HS ->]|HS]; [rewrite HS, skipn_all, app_nil_r; reflexivity|].
      destruct rest as [|x y]; [|exact HS]. rewrite HS at 2. rewrite skipn_app, skipn_all, Nat.sub_diag. cbn [app skipn]. exact HS.
    + split; [reflexivity|]. split; [exact NF|]. split; [|auto]. destruct rest as [|x y]; [|right; exists (x :: y); reflexivity].
      destruct HS as [[HS _]|HS]; rewrite HS; [rewrite skipn_all; auto|]. rewrite skipn_app, skipn_all, Nat.sub_diag. right. exists []. reflexivity.
Qed.

(** ** The body with what was read before *)
Definition inv (e : dsc_env) (later : list (list Z)) (d : dstate) : Prop :=
  match ds_target d with None => no_target_yet later | Some t => target_read e later t end.
Lemma inv_more e later l d : inv e later d -> ~ starts_with l 64 -> inv e (later ++ [l]) d.
Proof.
  unfold inv. intros H N. destruct (ds_target d) as [t|].
  - destruct H as (x & I & R). exists x. split; [apply in_or_app; left; exact I|exact R].
  - intros x I. apply in_app_or in I. destruct I as [I|[<-|[]]]; [apply H; exact I|exact N].
Qed.
Lemma not_at c t : c <> 64 -> ~ starts_with (c :: t) 64.
Proof. intros N (x & X). injection X as -> _. contradiction. Qed.
Lemma line_inv e c n l d d' later : l <> [] -> inv e later d -> read_line_l e c n l d = L_ok d' -> inv e (later ++ [l]) d'.
Proof.
  intros NE H E. unfold read_line_l in E. destruct l as [|ch t]; [contradiction|].
  destruct (Z.eqb_spec ch NL) as [->|N1]. { injection E as <-. apply inv_more; [exact H|apply not_at; discriminate]. }
  destruct (Z.eqb_spec ch BANG) as [->|N2].
  { destruct (read_comment _ _ _) as [cb| |]; try discriminate. injection E as <-. apply (inv_more e later _ d); [exact H|apply not_at; discriminate]. }
  destruct (Z.eqb_spec ch AT) as [->|N3].
  { unfold read_target_l in E. destruct (ds_target d) as [tg|] eqn:T; [discriminate|]. cbv zeta in E. destruct (_ >=? _); [discriminate|].
    destruct (negb _) eqn:O; [discriminate|]. destruct (de_isdir _ _) eqn:D; [discriminate|]. destruct (de_info _ _) as [tg|] eqn:I; [|discriminate].
    injection E as <-. unfold inv. cbn [ds_target]. exists (AT :: t). split; [apply in_or_app; right; left; reflexivity|]. split; [exists t; reflexivity|].
    split; [apply negb_false_iff; exact O|]. split; [exact D|exact I]. }
  destruct (ds_target d) as [tg|] eqn:T; [|discriminate]. cbv zeta in E.
  assert (G : inv e (later ++ [ch :: t]) d) by (apply inv_more; [exact H|apply not_at; exact N3]). unfold inv in *. rewrite T in G.
  destruct (ch =? HASH); [destruct (read_ref_l _ _ _ _)|destruct (read_unit_l _ _ _ _)]; try discriminate; injection E as <-; cbn [ds_target]; exact G.
Qed.
Lemma body_inv e c ls : Forall (fun l => l <> []) ls -> forall n d d' later, inv e later d -> read_body_l e c n ls d = L_ok d' -> inv e (later ++ ls) d'.
Proof.
  induction 1 as [|l ls NE F IH]; intros n d d' later H E; cbn [read_body_l] in E.
  - injection E as <-. rewrite app_nil_r. exact H.
  - destruct (read_line_l e c n l d) as [d1| | |] eqn:E1; try discriminate. replace (later ++ l :: ls) with ((later ++ [l]) ++ ls) by (rewrite <- app_assoc; reflexivity).
    eapply IH; [|exact E]. eapply line_inv; eauto.
Qed.
Lemma line_wrong e path c n l d k m col before later :
  l <> [] -> inv e later d -> container_read e before path c later -> read_line_l e c n l d = L_err k m col ->
  m = n /\ k <> E_empty /\ so_wrong e before l k col.
Proof.
  intros NE H CR E. pose proof (line_line e c n l d) as LL. rewrite E in LL. split; [exact LL|].
  unfold read_line_l in E. destruct l as [|ch t]; [contradiction|].
  destruct (Z.eqb_spec ch NL) as [->|N1]; [discriminate|].
  destruct (Z.eqb_spec ch BANG) as [->|N2]; [destruct (read_comment _ _ _); discriminate|].
  assert (NSK : ~ skipped (ch :: t)) by (rewrite skipped_iff; unfold NL, BANG in *; lia).
  destruct (Z.eqb_spec ch AT) as [->|N3].
  { unfold read_target_l in E. unfold inv in H. destruct (ds_target d) as [tg|].
    { injection E as <- <- <-. split; [discriminate|]. exists path, c, later. split; [exact CR|]. split; [reflexivity|]. split; [exists t; reflexivity|eauto]. }
    cbv zeta in E. change (match de_target e with Some p => p | None => tl (chomp (AT :: t)) end) with (target_path e (AT :: t)) in E.
    destruct (_ >=? _); [discriminate|]. destruct (negb _) eqn:O.
    { injection E as <- <- <-. split; [discriminate|]. exists path, c, later. split; [exact CR|]. split; [reflexivity|]. split; [exists t; reflexivity|]. split; [exact H|apply negb_true_iff; exact O]. }
    destruct (de_isdir _ _) eqn:D.
    { injection E as <- <- <-. split; [discriminate|]. exists path, c, later. split; [exact CR|]. split; [reflexivity|]. split; [exists t; reflexivity|]. split; [exact H|exact D]. }
    destruct (de_info _ _) as [tg|] eqn:I; [discriminate|].
    injection E as <- <- <-. split; [discriminate|]. exists path, c, later. split; [exact CR|]. split; [reflexivity|]. split; [exists t; reflexivity|]. split; [exact H|exact I]. }
  pose proof (not_at ch t N3) as NA. unfold inv in H. destruct (ds_target d) as [tg|].
  2: { injection E as <- <- <-. split; [discriminate|]. exists path, c, later. auto. }
  cbv zeta in E. destruct (Z.eqb_spec ch HASH) as [->|N4].
  - destruct (chomp_head HASH t) as (t' & CH); [discriminate|discriminate|]. destruct (read_ref_l _ _ _ _) as [r| | |] eqn:RR; try discriminate. injection E as <- <- <-.
    rewrite CH in RR. destruct (ref_wrong _ _ _ _ _ _ _ RR) as (oft & name & -> & SA & NH). split; [discriminate|]. exists path, c, later. split; [exact CR|].
    split; [exact NSK|]. split; [exact NA|]. split; [rewrite CH; exact SA|]. exists tg. auto.
  - destruct (read_unit_l _ _ _ _) as [r| | |] eqn:RR; try discriminate. injection E as <- <- <-.
    destruct (unit_wrong _ _ _ _ _ _ _ RR) as [(-> & X & ->)|[(-> & X & ->)|(oft & name & -> & SA & NH)]]; (split; [discriminate|]); exists path, c, later; (split; [exact CR|]); auto.
    split; [exact NSK|]. split; [exact NA|]. split; [exact SA|]. exists tg. auto.
Qed.

(** ** Everything together *)
Lemma star_not_at l : starts_with l 42 -> ~ starts_with l 64.
Proof. intros (x & ->) (y & Y). discriminate. Qed.

(** The file read as far as the body. *)
Lemma parse_body e ls n so cb r ct n' deps ls' :
  Forall (fun l => l <> []) ls ->
  read_container_l e 1 ls None = L_ok (n, so, cb, r) -> de_info e so = Some ct -> read_deps_l e (n + 1) r [] = L_ok (n', deps, ls') ->
  exists head cl db, ls = (head ++ cl :: db) ++ ls' /\ n' = zlen (head ++ cl :: db) + 1 /\
    container_read e (head ++ cl :: db) so ct db /\ inv e db (mk_ds deps None [] [] cb) /\
    (forall b, b = [] \/ (exists l a, b = l :: a /\ ~ starts_with l 42 /\ l <> []) ->
      parse_lines e ((head ++ cl :: db) ++ b) =
        match read_body_l e ct n' b (mk_ds deps None [] [] cb) with
        | L_ok d => L_ok (so, d) | L_err k l c => L_err k l c | L_segv l c => L_segv l c | L_crash => L_crash end) /\
    (ls' = [] \/ exists l a, ls' = l :: a /\ ~ starts_with l 42).
Proof.
  intros F EC EI ED. destruct (head_ok e ls F _ _ _ _ _ _ EC) as (head & cl & -> & -> & FH & NS & -> & O & D & G).
  assert (FR : Forall (fun l => l <> []) r). { apply Forall_app in F. destruct F as [_ F]. inversion F; assumption. }
  destruct (deps_ok e r FR _ _ _ _ _ ED) as (db & -> & -> & FD & R & GD). exists head, cl, db.
  split; [rewrite <- app_assoc; reflexivity|]. split; [rewrite zlen_app, zlen_cons; lia|].
  assert (CRD : forall later, container_read e (head ++ cl :: later) (container_path e cl) ct later).
  { intros later. exists head, cl. split; [reflexivity|]. split; [exact FH|]. split; [exact NS|]. split; [reflexivity|]. split; [exact O|]. split; [exact D|exact EI]. }
  split; [apply CRD|]. split; [intros l I; apply star_not_at; apply (proj1 (Forall_forall _ _) FD l I)|]. split; [|exact R].
  intros b Hb. unfold parse_lines. rewrite <- app_assoc. cbn [app]. rewrite G, EI.
  destruct Hb as [->|(l & a & -> & N1 & N2)].
  - rewrite app_nil_r. pose proof (deps_all e db (1 + zlen head + 1) [] FD) as DA.
    assert (X : read_deps_l e (1 + zlen head + 1) db [] = L_ok (1 + zlen head + 1 + zlen db, deps, [])).
    { destruct (read_deps_l e (1 + zlen head + 1) db []) as [[[n2 d2] r2]| | |] eqn:E2.
      - destruct DA as (-> & -> & DA). f_equal. f_equal. f_equal. specialize (DA ls').
        destruct R as [->|(l & a & -> & N1)].
        + rewrite app_nil_r in DA, ED. rewrite E2 in ED. congruence.
        + rewrite ED in DA. destruct l as [|c t]; [exfalso; apply Forall_app in FR; destruct FR as [_ FR]; inversion FR; contradiction|].
          cbn [read_deps_l] in DA. destruct (Z.eqb_spec c STAR) as [->|]; [exfalso; apply N1; exists t; reflexivity|]. congruence.
      - exfalso. destruct (deps_stop e db _ _ _ _ _ E2) as (b2 & l2 & a2 & ds2 & -> & _ & _ & _ & FB2 & SL & RD & AD).
        pose proof (deps_all e b2 (1 + zlen head + 1) [] FB2) as DA2. rewrite RD in DA2. destruct DA2 as (_ & _ & DA2).
        rewrite <- app_assoc in ED. rewrite (DA2 ((l2 :: a2) ++ ls')) in ED. destruct SL as (t2 & ->). cbn [app read_deps_l] in ED.
        change (42 =? STAR) with true in ED. cbv iota in ED. rewrite AD in ED. discriminate.
      - pose proof (deps_no_crash e db (1 + zlen head + 1) []) as NC. rewrite E2 in NC. contradiction.
      - pose proof (deps_no_crash e db (1 + zlen head + 1) []) as NC. rewrite E2 in NC. contradiction. }
    rewrite X. reflexivity.
  - rewrite (GD l a N1 N2). reflexivity.
Qed.

Lemma parse_stop e ls k m col : Forall (fun l => l <> []) ls -> parse_lines e ls = L_err k m col -> k <> E_empty ->
  exists b l a, ls = b ++ l :: a /\ m = zlen b + 1 /\ good_so_far e b /\ (forall a', parse_lines e (b ++ l :: a') = L_err k m col) /\ so_wrong e b l k col.
Proof.
  intros F E NK. unfold parse_lines in E. destruct (read_container_l e 1 ls None) as [[[[n so] cb] r]|k0 m0 c0| |] eqn:EC; try discriminate.
  2: { injection E as -> -> ->. destruct (head_stop e ls F _ _ _ _ _ EC) as (-> & [(-> & _)|(b & l & a & -> & FB & NS & -> & K & R & G)]); [contradiction|].
       exists b, l, a. split; [reflexivity|]. split; [lia|]. split; [right; unfold parse_lines; rewrite R; f_equal; lia|].
       split; [intros a'; unfold parse_lines; rewrite G; reflexivity|].
       destruct K as [(-> & K)|(-> & K)]; (split; [reflexivity|]; split; [exact FB|]; split; [exact NS|exact K]). }
  destruct (de_info e so) as [ct|] eqn:EI.
  2: { injection E as <- <- <-. destruct (head_ok e ls F _ _ _ _ _ _ EC) as (b & l & -> & -> & FB & NS & -> & O & D & G).
       exists b, l, r. split; [reflexivity|]. split; [lia|]. split.
       - right. unfold parse_lines. pose proof (head_skips e b FB 1 None) as HS.
         destruct (read_container_l e 1 b None) as [x|k1 m1 c1| |] eqn:EB; try contradiction; [destruct HS as (-> & -> & ->); f_equal; lia|].
         exfalso. clear - EB EC FB. revert EB EC. generalize (1 + zlen b) as q. generalize (@None cbuf) as cb0. generalize 1 as i. intros i cb0 q. revert i cb0. induction FB as [|x b S FB IH]; intros i cb0 EB EC; [discriminate|].
         destruct x as [|c t]; [discriminate|]. cbn [app read_container_l] in EB, EC. destruct (c =? NL); [eapply IH; eauto|].
         destruct (c =? BANG) eqn:CB; [destruct (read_comment _ _ _); try discriminate; eapply IH; eauto|]. cbv zeta in EB. destruct (negb _); [discriminate|]. destruct (de_isdir _ _); discriminate.
       - split; [intros a'; unfold parse_lines; rewrite G, EI; reflexivity|]. split; [reflexivity|]. split; [exact FB|]. split; [exact NS|exact EI]. }
  destruct (read_deps_l e (n + 1) r []) as [[[n' deps] ls']|k0 m0 c0| |] eqn:ED; try discriminate.
  2: { injection E as -> -> ->. destruct (head_ok e ls F _ _ _ _ _ _ EC) as (head & cl & -> & -> & FH & NS & -> & O & D & G).
       destruct (deps_stop e r _ _ _ _ _ ED) as (b2 & l2 & a2 & ds2 & -> & -> & -> & -> & FB2 & SL & RD & AD).
       pose proof (deps_all e b2 (1 + zlen head + 1) [] FB2) as DA2. rewrite RD in DA2. destruct DA2 as (_ & _ & DA2).
       exists (head ++ cl :: b2), l2, a2. split; [rewrite <- app_assoc; reflexivity|]. split; [rewrite zlen_app, zlen_cons; lia|].
       split. { left. eexists. unfold parse_lines. rewrite G, EI, RD. cbn [read_body_l]. reflexivity. }
       split. { intros a'. unfold parse_lines. rewrite <- app_assoc. cbn [app]. rewrite G, EI, DA2. destruct SL as (t2 & ->). cbn [read_deps_l].
                change (42 =? STAR) with true. cbv iota. rewrite AD. reflexivity. }
       exists (container_path e cl), ct, b2. split.
       - exists head, cl. split; [reflexivity|]. split; [exact FH|]. split; [exact NS|]. split; [reflexivity|]. split; [exact O|]. split; [exact D|exact EI].
       - split; [reflexivity|]. split; [exact SL|]. split; [exact FB2|]. intros id X. apply dep_content_iff in X. congruence. }
  destruct (parse_body e ls n so cb r ct n' deps ls' F EC EI ED) as (head & cl & db & -> & EN & CR & IV & G & R).
  pose proof (body_stop e ct ls' n' (mk_ds deps None [] [] cb)) as BS.
  destruct (read_body_l e ct n' ls' _) as [x|k0 m0 c0| |] eqn:EB; try discriminate. injection E as -> -> ->.
  destruct BS as (b & l & a & d' & -> & EB1 & EL). exists ((head ++ cl :: db) ++ b), l, a.
  split; [rewrite <- !app_assoc; reflexivity|].
  assert (FB : Forall (fun l => l <> []) (b ++ l :: a)) by (apply Forall_app in F; apply F).
  apply Forall_app in FB. destruct FB as [FB FL]. inversion FL as [|? ? NE _]; subst.
  assert (FIRST : forall z, b ++ l :: z = [] \/ (exists l0 a0, b ++ l :: z = l0 :: a0 /\ ~ starts_with l0 42 /\ l0 <> [])).
  { intros z. right. destruct R as [R|(l0 & a0 & R & NR)]; [destruct b; discriminate|]. destruct b as [|x b]; cbn [app] in R |- *; injection R as -> _; eexists; eexists; (split; [reflexivity|]); split; auto. inversion FB; assumption. }
  assert (W : m = zlen (head ++ cl :: db) + 1 + zlen b /\ k <> E_empty /\ so_wrong e ((head ++ cl :: db) ++ b) l k col).
  { destruct (line_wrong e so ct (zlen (head ++ cl :: db) + 1 + zlen b) l d' k m col ((head ++ cl :: db) ++ b) (db ++ b)) as (X1 & X2 & X3); auto.
    - eapply body_inv; eauto.
    - destruct CR as (h & x & EQ & C1 & C2 & C3 & C4). exists h, x. split; [rewrite EQ, <- app_assoc; reflexivity|]. auto. }
  destruct W as (W1 & _ & W3). split; [rewrite zlen_app; lia|]. split; [|split; [|exact W3]].
  - left. rewrite G.
    + rewrite EB1. eauto.
    + destruct b as [|x b]; [auto|]. right. exists x, b. split; [reflexivity|]. destruct R as [R|(l0 & a0 & R & NR)]; [discriminate|]. cbn [app] in R. injection R as -> _. split; [exact NR|inversion FB; assumption].
  - intros a'. rewrite <- app_assoc. rewrite G by apply FIRST. rewrite (body_app e ct b _ l a' _ d' EB1), EL. reflexivity.
Qed.

Lemma parse_empty e ls m col : Forall (fun l => l <> []) ls -> parse_lines e ls = L_err E_empty m col ->
  Forall skipped ls /\ m = zlen ls + 1 /\ col = 1.
Proof.
  intros F E. unfold parse_lines in E. destruct (read_container_l e 1 ls None) as [[[[n so] cb] r]|k0 m0 c0| |] eqn:EC; try discriminate.
  2: { injection E as -> -> ->. destruct (head_stop e ls F _ _ _ _ _ EC) as (-> & [(_ & FS & ->)|(b & l & a & -> & FB & NS & -> & K & R & G)]).
       - split; [exact FS|]. split; [lia|reflexivity].
       - destruct K as [(X & _)|(X & _)]; discriminate. }
  exfalso. destruct (de_info e so) as [ct|] eqn:EI; [|discriminate].
  destruct (read_deps_l e (n + 1) r []) as [[[n' deps] ls']|k0 m0 c0| |] eqn:ED; try discriminate.
  2: { injection E as -> -> ->. destruct (deps_stop e r _ _ _ _ _ ED) as (? & ? & ? & ? & ? & ? & X & _). discriminate. }
  destruct (parse_body e ls n so cb r ct n' deps ls' F EC EI ED) as (head & cl & db & -> & EN & CR & IV & G & R).
  pose proof (body_stop e ct ls' n' (mk_ds deps None [] [] cb)) as BS.
  destruct (read_body_l e ct n' ls' _) as [x|k0 m0 c0| |] eqn:EB; try discriminate. injection E as -> -> ->.
  destruct BS as (b & l & a & d' & -> & EB1 & EL).
  apply Forall_app in F. destruct F as [_ F]. apply Forall_app in F. destruct F as [FB FL]. inversion FL; subst.
  destruct (line_wrong e so ct (zlen (head ++ cl :: db) + 1 + zlen b) l d' E_empty m col ((head ++ cl :: db) ++ b) (db ++ b)) as (_ & X2 & _); auto.
  - eapply body_inv; eauto.
  - destruct CR as (h & x & EQ & C1 & C2 & C3 & C4). exists h, x. split; [rewrite EQ, <- app_assoc; reflexivity|]. auto.
Qed.

(** A line for which the packer writes through NULL. *)
Lemma line_segv e c n l d m col : read_line_l e c n l d = L_segv m col -> m = n /\ starts_with l 35.
Proof.
  intros E. pose proof (line_line e c n l d) as LL. rewrite E in LL. split; [exact LL|]. unfold read_line_l in E.
  destruct l as [|ch t]; [discriminate|]. destruct (ch =? NL); [discriminate|]. destruct (ch =? BANG); [destruct (read_comment _ _ _); discriminate|].
  destruct (ch =? AT). { exfalso. revert E. unfold read_target_l. cbv zeta. brk2; discriminate. }
  destruct (ds_target d) as [tg|]; [|discriminate]. cbv zeta in E. destruct (Z.eqb_spec ch HASH) as [->|]; [exists t; reflexivity|].
  exfalso. destruct (read_unit_l c tg n (chomp (ch :: t))) eqn:U; try discriminate. revert U. unfold read_unit_l. brk2; discriminate.
Qed.
Lemma parse_segv e ls m col : Forall (fun l => l <> []) ls -> parse_lines e ls = L_segv m col ->
  exists b l a, ls = b ++ l :: a /\ m = zlen b + 1 /\ good_so_far e b /\ (forall a', parse_lines e (b ++ l :: a') = L_segv m col) /\ starts_with l 35.
Proof.
  intros F E. unfold parse_lines in E. destruct (read_container_l e 1 ls None) as [[[[n so] cb] r]|k0 m0 c0| |] eqn:EC; try discriminate.
  2: { exfalso. pose proof (container_forget e ls 1 None) as X. rewrite EC in X. exact X. }
  destruct (de_info e so) as [ct|] eqn:EI; [|discriminate].
  destruct (read_deps_l e (n + 1) r []) as [[[n' deps] ls']|k0 m0 c0| |] eqn:ED; try discriminate.
  2: { exfalso. pose proof (deps_no_crash e r (n + 1) []) as X. rewrite ED in X. exact X. }
  destruct (parse_body e ls n so cb r ct n' deps ls' F EC EI ED) as (head & cl & db & -> & EN & CR & IV & G & R).
  pose proof (body_stop e ct ls' n' (mk_ds deps None [] [] cb)) as BS.
  destruct (read_body_l e ct n' ls' _) as [x|k0 m0 c0| |] eqn:EB; try discriminate. injection E as -> ->.
  destruct BS as (b & l & a & d' & -> & EB1 & EL). exists ((head ++ cl :: db) ++ b), l, a.
  split; [rewrite <- !app_assoc; reflexivity|].
  assert (FB : Forall (fun l => l <> []) (b ++ l :: a)) by (apply Forall_app in F; apply F).
  apply Forall_app in FB. destruct FB as [FB FL]. inversion FL as [|? ? NE _]; subst.
  destruct (line_segv _ _ _ _ _ _ _ EL) as [-> SH]. split; [rewrite !zlen_app; lia|]. split; [|split; [|exact SH]].
  - left. rewrite G.
    + rewrite EB1. eauto.
    + destruct b as [|x b]; [auto|]. right. exists x, b. split; [reflexivity|]. destruct R as [R|(l0 & a0 & R & NR)]; [discriminate|]. cbn [app] in R. injection R as -> _. split; [exact NR|inversion FB; assumption].
  - intros a'. rewrite <- app_assoc. rewrite G.
    + rewrite (body_app e ct b _ l a' _ d' EB1), EL. reflexivity.
    + right. destruct R as [R|(l0 & a0 & R & NR)]; [destruct b; discriminate|]. destruct b as [|x b]; cbn [app] in R |- *; injection R as -> _; eexists; eexists; (split; [reflexivity|]); split; auto. inversion FB; assumption.
Qed.

(** ** What is shown *)
Lemma no_nl_id l : ~ In 10 l -> no_newline l = l.
Proof.
  induction l as [|c t IH]; intros N; [reflexivity|]. unfold no_newline in *. cbn [filter]. destruct (Z.eqb_spec c NL) as [->|]; [exfalso; apply N; left; reflexivity|].
  cbn [negb]. rewrite IH; [reflexivity|]. intros I. apply N. right. exact I.
Qed.
Lemma no_nl_line t : ~ In 10 t -> no_newline (t ++ [10]) = t.
Proof. intros N. unfold no_newline. rewrite filter_app. fold (no_newline t). rewrite no_nl_id by exact N. apply app_nil_r. Qed.
Lemma red_all ac l : fst (red ac l) ++ no_newline (snd (red ac l)) = no_newline l.
Proof.
  induction l as [|c t IH]; cbn [red]; [reflexivity|]. destruct (Z.eqb_spec c COLON) as [->|].
  - destruct ac; reflexivity.
  - destruct (red ac t) as [r rest]. cbn [fst snd] in *. unfold no_newline in *. cbn [filter]. destruct (c =? NL); cbn [negb]; [exact IH|]. cbn [app]. rewrite IH. reflexivity.
Qed.
Lemma red_name name post : ~ In 58 name -> ~ In 10 name -> (post = [] \/ post = [10] \/ starts_with post 58) ->
  fst (red false (name ++ post)) = name.
Proof.
  induction name as [|c t IH]; intros N1 N2 P; cbn [app red].
  - destruct P as [->|[->|(x & ->)]]; reflexivity.
  - destruct (Z.eqb_spec c COLON) as [->|]; [exfalso; apply N1; left; reflexivity|].
    specialize (IH (fun I => N1 (or_intror I)) (fun I => N2 (or_intror I)) P). destruct (red false (t ++ post)) as [r rest]. cbn [fst] in *.
    destruct (Z.eqb_spec c NL) as [->|]; [exfalso; apply N2; left; reflexivity|]. rewrite IH. reflexivity.
Qed.
Lemma show_text line text col : says line text -> ~ In 10 text -> 1 <= col <= zlen text + 1 ->
  exists j, show_line line col = (text, repeat 32 (Z.to_nat (col - 1)) ++ 94 :: repeat 126 j) /\
    forall name pre post, text = pre ++ name ++ post -> col = zlen pre + 1 -> ~ In 58 name -> (post = [] \/ starts_with post 58) -> j = (length name - 1)%nat.
Proof.
  intros (HL & _) NT HC. unfold show_line. set (k := Z.to_nat (col - 1)).
  assert (LK : (k <= length text)%nat) by (unfold k; unfold zlen in HC; lia).
  assert (FK : firstn k line = firstn k text). { destruct HL as [->|[-> _]]; [|reflexivity]. rewrite firstn_app. replace (k - length text)%nat with 0%nat by lia. apply app_nil_r. }
  assert (NN : no_newline (skipn k line) = skipn k text).
  { assert (NS : ~ In 10 (skipn k text)). { intros I. apply NT. rewrite <- (firstn_skipn k text). apply in_or_app. right. exact I. }
    destruct HL as [->|[-> _]]; [|apply no_nl_id; exact NS]. rewrite skipn_app. replace (k - length text)%nat with 0%nat by lia. cbn [skipn]. apply no_nl_line. exact NS. }
  pose proof (red_all (nth k line 0 =? COLON) (skipn k line)) as RA. destruct (red (nth k line 0 =? COLON) (skipn k line)) as [r rest] eqn:ER. cbn [fst snd] in RA.
  exists (length r - 1)%nat. split.
  - f_equal; [rewrite RA, NN, FK; apply firstn_skipn|]. rewrite FK, firstn_length. replace (Nat.min k (length text)) with k by lia. reflexivity.
  - intros name pre post ET EC NN58 HP.
    assert (KP : k = length pre) by (unfold k, zlen in *; lia).
    assert (SK : skipn k text = name ++ post). { rewrite ET, KP, skipn_app, skipn_all, Nat.sub_diag. reflexivity. }
    assert (N10 : ~ In 10 (name ++ post)). { rewrite <- SK. intros I. apply NT. rewrite <- (firstn_skipn k text). apply in_or_app. right. exact I. }
    assert (NN10 : ~ In 10 name) by (intros I; apply N10; apply in_or_app; left; exact I).
    assert (SKL : exists post', skipn k line = name ++ post' /\ (post' = [] \/ post' = [10] \/ starts_with post' 58)).
    { destruct HL as [->|[-> _]]; [|exists post; split; [exact SK|tauto]]. rewrite skipn_app, SK. replace (k - length text)%nat with 0%nat by lia. cbn [skipn].
      exists (post ++ [10]). rewrite <- app_assoc. split; [reflexivity|]. destruct HP as [->|(x & ->)]; [auto|]. right. right. exists (x ++ [10]). reflexivity. }
    destruct SKL as (post' & SKL & HP').
    assert (NTH : nth k line 0 = nth 0 (skipn k line) 0). { clear. generalize k as i. induction line as [|c t IH]; intros [|i]; cbn [nth skipn]; auto. }
    rewrite NTH, SKL in ER. destruct name as [|c t].
    + cbn [app] in ER. destruct HP' as [->|[->|(x & ->)]]; injection ER as <- <-; reflexivity.
    + cbn [app nth] in ER. destruct (Z.eqb_spec c COLON) as [->|]; [exfalso; apply NN58; left; reflexivity|].
      pose proof (red_name (c :: t) post' NN58 NN10 HP') as RN. cbn [app] in RN. cbn [app] in ER.
      rewrite ER in RN. cbn [fst] in RN. rewrite RN. reflexivity.
Qed.
