(** Proofs about several tools at the same time. *)
From Coq Require Import Bool Lia.
From Verif Require Import Base InsnQModel TrModel DlModel LibModel ReplModel LibSpec TwoModel TwoSpec.

Definition held_of (ph : phase) : list Z :=
  match ph with Idle => [] | Scanning _ _ h => h | Inside _ h _ => h | Leaving h => h end.

(** A visit up to now. *)
Inductive prun (s : session) (p1 : proc) : list Z -> proc -> Prop :=
| prun_nil : prun s p1 [] p1
| prun_snoc acc p ev p' ans :
    prun s p1 acc p -> se_next s acc = Some ev -> do_event ev p = Some (p', ans) -> prun s p1 (acc ++ [ans]) p'.

Lemma prun_end s p1 acc p acc' p' : prun s p1 acc p -> session_run s acc p acc' p' -> session_run s [] p1 acc' p'.
Proof.
  intros H. revert acc' p'. induction H as [|acc p ev p2 ans H IH E D]; intros acc' p' R; [exact R|].
  apply IH. eapply run_step; eauto.
Qed.
Lemma prun_some s p1 acc p : prun s p1 acc p -> acc <> [] -> se_next s [] <> None.
Proof.
  induction 1 as [|acc p ev p2 ans H IH E D]; intros N; [contradiction|].
  destruct acc as [|x acc]; [congruence|]. apply IH. discriminate.
Qed.

Section Inv.
  Context (main : Z) (threads : list Z) (p0 : proc).

  Record owned (w : world) : Prop := {
    ow_tracer : forall i t, In t (held_of (w_phase w i)) <-> w_tracer w t = Some i;
    ow_scan : forall i s todo held, w_phase w i = Scanning s todo held -> stops main threads s /\
      exists past, se_threads s = past ++ todo /\ incl past held;
    ow_inside : forall i s held acc, w_phase w i = Inside s held acc -> stops main threads s /\ incl (se_threads s) held;
    ow_nodup : forall i, NoDup (held_of (w_phase w i))
  }.

  Definition serially (w : world) : Prop :=
    exists p1, serial p0 (w_log w) p1 /\
      (forall i s held acc, w_phase w i = Inside s held acc -> prun s p1 acc (w_proc w)) /\
      (at_rest w -> p1 = w_proc w).

  Lemma one_inside w i j : owned w -> is_inside w i -> is_inside w j -> i = j.
  Proof.
    intros O Hi Hj. unfold is_inside in *.
    destruct (w_phase w i) as [| |s h a|] eqn:Ei; try contradiction.
    destruct (w_phase w j) as [| |s' h' a'|] eqn:Ej; try contradiction.
    destruct (ow_inside w O _ _ _ _ Ei) as [[M1 _] I1]. destruct (ow_inside w O _ _ _ _ Ej) as [[M2 _] I2].
    apply I1 in M1. apply I2 in M2.
    assert (X : w_tracer w main = Some i) by (apply (ow_tracer w O); rewrite Ei; exact M1).
    assert (Y : w_tracer w main = Some j) by (apply (ow_tracer w O); rewrite Ej; exact M2).
    congruence.
  Qed.

  Lemma set_same w i ph : set_phase w i ph i = ph.
  Proof. unfold set_phase. rewrite Nat.eqb_refl. reflexivity. Qed.
  Lemma set_other w i ph j : j <> i -> set_phase w i ph j = w_phase w j.
  Proof. intros N. unfold set_phase. destruct (Nat.eqb_spec j i); [contradiction|reflexivity]. Qed.

  (** Only the phase of one tool changes, and it keeps its threads. *)
  Lemma owned_phase w i ph p log tr :
    owned w -> held_of ph = held_of (w_phase w i) ->
    (forall s todo held, ph = Scanning s todo held -> stops main threads s /\ exists past, se_threads s = past ++ todo /\ incl past held) ->
    (forall s held acc, ph = Inside s held acc -> stops main threads s /\ incl (se_threads s) held) ->
    owned (mk_world (set_phase w i ph) (w_tracer w) p log tr).
  Proof.
    intros O Hh Hs Hi. constructor; cbn [w_phase w_tracer].
    - intros j t. destruct (Nat.eq_dec j i) as [->|N]; [rewrite set_same, Hh|rewrite set_other by exact N]; apply (ow_tracer w O).
    - intros j s todo held E. destruct (Nat.eq_dec j i) as [->|N]; [rewrite set_same in E|rewrite set_other in E by exact N]; [eauto|].
      eapply ow_scan; eauto.
    - intros j s held acc E. destruct (Nat.eq_dec j i) as [->|N]; [rewrite set_same in E|rewrite set_other in E by exact N]; [eauto|].
      eapply ow_inside; eauto.
    - intros j. destruct (Nat.eq_dec j i) as [->|N]; [rewrite set_same, Hh|rewrite set_other by exact N]; apply (ow_nodup w O).
  Qed.

  Lemma existsb_in t l : existsb (Z.eqb t) l = true <-> In t l.
  Proof.
    rewrite existsb_exists. split; [intros (x & I & E); apply Z.eqb_eq in E; subst; exact I|].
    intros I. exists t. split; [exact I|apply Z.eqb_refl].
  Qed.

  Lemma owned_act a w w' : starts_ok main threads a -> owned w -> act threads a w = Some w' -> owned w'.
  Proof.
    intros Hs O E. destruct a as [i s|i|i|i|i|m]; cbn [act starts_ok] in *.
    - destruct (w_phase w i) eqn:Ei; try discriminate. injection E as <-. apply owned_phase; auto.
      + rewrite Ei. reflexivity.
      + intros s0 todo held X. injection X as <- <- <-. split; [exact Hs|]. exists []. split; [reflexivity|apply incl_nil_l].
      + discriminate.
    - destruct (w_phase w i) as [|s [|t todo] held| |] eqn:Ei; try discriminate.
      destruct (ow_scan w O _ _ _ _ Ei) as (HS & past & Ep & Ip).
      destruct (existsb (Z.eqb t) held) eqn:Et.
      { injection E as <-. apply owned_phase; auto.
        - rewrite Ei. reflexivity.
        - intros s0 todo0 held0 X. injection X as <- <- <-. split; [exact HS|]. exists (past ++ [t]). rewrite <- app_assoc. split; [exact Ep|].
          intros x X. apply in_app_or in X. destruct X as [X|[<-|[]]]; [auto|]. apply existsb_in. exact Et.
        - discriminate. }
      assert (Nt : ~ In t held) by (rewrite <- existsb_in; congruence).
      destruct (w_tracer w t) as [j|] eqn:Tt.
      + injection E as <-. apply owned_phase; auto; try discriminate. rewrite Ei. reflexivity.
      + injection E as <-. constructor; cbn [w_phase w_tracer].
        * intros j u. unfold set_tracer. destruct (Z.eqb_spec u t) as [->|Nu].
          -- destruct (Nat.eq_dec j i) as [->|N]; [rewrite set_same|rewrite set_other by exact N].
             ++ cbn [held_of]. split; [reflexivity|]. intros _. left. reflexivity.
             ++ rewrite (ow_tracer w O). split; congruence.
          -- destruct (Nat.eq_dec j i) as [->|N]; [rewrite set_same|rewrite set_other by exact N].
             ++ rewrite <- (ow_tracer w O), Ei. cbn [held_of In]. split; [intros [X|X]; [congruence|exact X]|auto].
             ++ apply (ow_tracer w O).
        * intros j s0 todo0 held0 X. destruct (Nat.eq_dec j i) as [->|N]; [rewrite set_same in X|rewrite set_other in X by exact N].
          -- injection X as <- <- <-. split; [exact HS|]. exists (past ++ [t]). rewrite <- app_assoc. split; [exact Ep|].
             intros x X. apply in_app_or in X. destruct X as [X|[<-|[]]]; [right; auto|left; reflexivity].
          -- eapply ow_scan; eauto.
        * intros j s0 held0 acc0 X. destruct (Nat.eq_dec j i) as [->|N]; [rewrite set_same in X; discriminate|rewrite set_other in X by exact N].
          eapply ow_inside; eauto.
        * intros j. destruct (Nat.eq_dec j i) as [->|N]; [rewrite set_same|rewrite set_other by exact N; apply (ow_nodup w O)].
          cbn [held_of]. constructor; [exact Nt|]. pose proof (ow_nodup w O i) as X. rewrite Ei in X. exact X.
    - destruct (w_phase w i) as [|s [|t todo] held| |] eqn:Ei; try discriminate. injection E as <-. apply owned_phase; auto.
      + rewrite Ei. reflexivity.
      + discriminate.
      + intros s0 held0 acc0 X. injection X as <- <- <-. destruct (ow_scan w O _ _ _ _ Ei) as (HS & past & Ep & Ip).
        split; [exact HS|]. rewrite Ep, app_nil_r. exact Ip.
    - destruct (w_phase w i) as [| |s held acc|] eqn:Ei; try discriminate. destruct (se_next s acc) as [ev|].
      + destruct (do_event ev (w_proc w)) as [[p ans]|]; [|discriminate]. injection E as <-. apply owned_phase; auto.
        * rewrite Ei. reflexivity.
        * discriminate.
        * intros s0 held0 acc0 X. injection X as <- <- <-. eapply ow_inside; eauto.
      + injection E as <-. apply owned_phase; auto; try discriminate. rewrite Ei. reflexivity.
    - destruct (w_phase w i) as [| | |[|t held]] eqn:Ei; try discriminate.
      + injection E as <-. apply owned_phase; auto; try discriminate. rewrite Ei. reflexivity.
      + injection E as <-. pose proof (ow_nodup w O i) as ND. rewrite Ei in ND. cbn [held_of] in ND. inversion ND as [|? ? N1 N2]; subst.
        assert (Tt : w_tracer w t = Some i) by (apply (ow_tracer w O); rewrite Ei; left; reflexivity).
        constructor; cbn [w_phase w_tracer].
        * intros j u. unfold set_tracer. destruct (Z.eqb_spec u t) as [->|Nu].
          -- destruct (Nat.eq_dec j i) as [->|N]; [rewrite set_same|rewrite set_other by exact N].
             ++ cbn [held_of]. split; [contradiction|discriminate].
             ++ rewrite (ow_tracer w O). split; congruence.
          -- destruct (Nat.eq_dec j i) as [->|N]; [rewrite set_same|rewrite set_other by exact N].
             ++ rewrite <- (ow_tracer w O), Ei. cbn [held_of In]. split; [auto|intros [X|X]; [congruence|exact X]].
             ++ apply (ow_tracer w O).
        * intros j s0 todo0 held0 X. destruct (Nat.eq_dec j i) as [->|N]; [rewrite set_same in X; discriminate|rewrite set_other in X by exact N].
          eapply ow_scan; eauto.
        * intros j s0 held0 acc0 X. destruct (Nat.eq_dec j i) as [->|N]; [rewrite set_same in X; discriminate|rewrite set_other in X by exact N].
          eapply ow_inside; eauto.
        * intros j. destruct (Nat.eq_dec j i) as [->|N]; [rewrite set_same; exact N2|rewrite set_other by exact N; apply (ow_nodup w O)].
    - destruct (forallb _ _); [discriminate|]. injection E as <-. destruct O as [O1 O2 O3 O4]. constructor; assumption.
  Qed.

  (** Somebody's phase changes between phases outside. *)
  Lemma rest_phase w i ph tc log tr :
    (forall s h a, ph <> Inside s h a) -> ~ is_inside w i ->
    at_rest (mk_world (set_phase w i ph) tc (w_proc w) log tr) -> at_rest w.
  Proof.
    intros Hp Hi R j Hj. destruct (Nat.eq_dec j i) as [->|N]; [contradiction|].
    apply (R j). unfold is_inside in *. cbn [w_phase]. rewrite set_other by exact N. exact Hj.
  Qed.

  Lemma serially_outside w i ph tc log tr :
    serially w -> ~ is_inside w i -> (forall s h a, ph <> Inside s h a) ->
    (forall p1, serial p0 (w_log w) p1 -> serial p0 log p1) ->
    serially (mk_world (set_phase w i ph) tc (w_proc w) log tr).
  Proof.
    intros (p1 & S & R & Q) Hi Hp Hl. exists p1. cbn [w_log w_phase w_proc]. split; [auto|]. split.
    - intros j s h a E. destruct (Nat.eq_dec j i) as [->|N]; [rewrite set_same in E; subst; exfalso; eapply Hp; reflexivity|].
      rewrite set_other in E by exact N. eapply R; eauto.
    - intros X. apply Q. eapply rest_phase; eauto.
  Qed.

  Lemma serially_act a w w' : starts_ok main threads a -> owned w -> serially w -> act threads a w = Some w' -> serially w'.
  Proof.
    intros Hs O SR E. destruct a as [i s|i|i|i|i|m]; cbn [act starts_ok] in *.
    - destruct (w_phase w i) eqn:Ei; try discriminate. injection E as <-.
      apply serially_outside; auto; [unfold is_inside; rewrite Ei; tauto|discriminate].
    - destruct (w_phase w i) as [|s [|t todo] held| |] eqn:Ei; try discriminate.
      assert (NI : ~ is_inside w i) by (unfold is_inside; rewrite Ei; tauto).
      destruct (existsb (Z.eqb t) held); [injection E as <-; apply serially_outside; auto; discriminate|].
      destruct (w_tracer w t) as [j|]; injection E as <-; apply serially_outside; auto; try discriminate.
      intros p1 S. apply ser_refused. exact S.
    - destruct (w_phase w i) as [|s [|t todo] held| |] eqn:Ei; try discriminate. injection E as <-.
      (* nobody else is inside *)
      assert (AR : at_rest w).
      { intros j Hj. destruct (Nat.eq_dec j i) as [->|N]; [unfold is_inside in Hj; rewrite Ei in Hj; exact Hj|].
        assert (Oi : owned (mk_world (set_phase w i (Inside s held [])) (w_tracer w) (w_proc w) (w_log w) (w_trace w))).
        { eapply (owned_act (AEnter i)); [exact I|exact O|]. cbn [act]. rewrite Ei. reflexivity. }
        apply N. eapply (one_inside _ j i Oi); unfold is_inside; cbn [w_phase].
        - rewrite set_other by exact N. exact Hj.
        - rewrite set_same. exact I. }
      destruct SR as (p1 & S & R & Q). exists p1. cbn [w_log w_phase w_proc]. split; [exact S|]. split.
      + intros j s0 h a X. destruct (Nat.eq_dec j i) as [->|N]; [rewrite set_same in X|rewrite set_other in X by exact N; eapply R; eauto].
        injection X as <- <- <-. rewrite (Q AR). constructor.
      + intros _. auto.
    - destruct (w_phase w i) as [| |s held acc|] eqn:Ei; try discriminate.
      assert (II : is_inside w i) by (unfold is_inside; rewrite Ei; exact I).
      assert (ALONE : forall j, is_inside w j -> j = i) by (intros j Hj; eapply one_inside; eauto).
      destruct SR as (p1 & S & R & Q). pose proof (R _ _ _ _ Ei) as P.
      destruct (se_next s acc) as [ev|] eqn:En.
      + destruct (do_event ev (w_proc w)) as [[p ans]|] eqn:D; [|discriminate]. injection E as <-.
        exists p1. cbn [w_log w_phase w_proc]. split; [exact S|]. split.
        * intros j s0 h a X. destruct (Nat.eq_dec j i) as [->|N]; [rewrite set_same in X|rewrite set_other in X by exact N].
          -- injection X as <- <- <-. eapply prun_snoc; eauto.
          -- exfalso. apply N. apply ALONE. unfold is_inside. rewrite X. exact I.
        * intros AR. exfalso. apply (AR i). unfold is_inside. cbn [w_phase]. rewrite set_same. exact I.
      + injection E as <-. exists (w_proc w). cbn [w_log w_phase w_proc]. split; [|split; [|auto]].
        * apply (ser_visit p0 (w_log w) p1 i s acc (w_proc w) S). eapply prun_end; [exact P|]. constructor. exact En.
        * intros j s0 h a X. destruct (Nat.eq_dec j i) as [->|N]; [rewrite set_same in X; discriminate|rewrite set_other in X by exact N].
          exfalso. apply N. apply ALONE. unfold is_inside. rewrite X. exact I.
    - destruct (w_phase w i) as [| | |[|t held]] eqn:Ei; try discriminate;
        injection E as <-; apply serially_outside; auto; try discriminate; unfold is_inside; rewrite Ei; tauto.
    - destruct (forallb _ _) eqn:Fb; [discriminate|]. injection E as <-. destruct SR as (p1 & S & R & Q).
      assert (SOME : exists t, In t threads /\ w_tracer w t = None).
      { destruct (existsb (fun t => match w_tracer w t with Some _ => false | None => true end) threads) eqn:X.
        - apply existsb_exists in X. destruct X as (t & I1 & I2). exists t. split; [exact I1|]. destruct (w_tracer w t); [discriminate|reflexivity].
        - exfalso. assert (Y : forallb (fun t => match w_tracer w t with Some _ => true | None => false end) threads = true); [|congruence].
          apply forallb_forall. intros t It. destruct (w_tracer w t) eqn:Tt; [reflexivity|]. exfalso.
          assert (Z0 : existsb (fun t => match w_tracer w t with Some _ => false | None => true end) threads = true); [|congruence].
          apply existsb_exists. exists t. rewrite Tt. auto. }
      destruct SOME as (t & It & Tt).
      assert (IDLE : forall i s h a, w_phase w i = Inside s h a -> a = [] /\ p1 = w_proc w).
      { intros i s h a Ei. pose proof (R _ _ _ _ Ei) as P.
        destruct (ow_inside w O _ _ _ _ Ei) as [[_ M2] I1].
        assert (Ha : a = []).
        { destruct a as [|x a]; [reflexivity|]. exfalso. assert (N : se_next s [] <> None) by (eapply prun_some; [exact P|discriminate]).
          assert (X : w_tracer w t = Some i) by (apply (ow_tracer w O); rewrite Ei; apply I1, (M2 N), It). congruence. }
        split; [exact Ha|]. subst a. inversion P as [|? ? ? ? ? ? ? ? EE]; [reflexivity|]. destruct acc; discriminate. }
      exists (mk_proc (p_lib (w_proc w)) m). cbn [w_log w_phase w_proc]. split; [|split; [|auto]].
      + assert (EQ : serial p0 (w_log w) (w_proc w)).
        { assert (C : p1 = w_proc w); [|subst; exact S].
          assert (IN : forall j, is_inside w j -> w_tracer w main = Some j).
          { intros j Hj. unfold is_inside in Hj. destruct (w_phase w j) as [| |s h a|] eqn:Ej; try contradiction.
            destruct (ow_inside w O _ _ _ _ Ej) as [[M1 _] I1]. apply (ow_tracer w O). rewrite Ej. apply I1, M1. }
          destruct (w_tracer w main) as [k|] eqn:Tm.
          - destruct (w_phase w k) as [| |s h a|] eqn:Ek; try (eapply IDLE; exact Ek);
              apply Q; intros j Hj; pose proof (IN j Hj) as X; injection X as <-; unfold is_inside in Hj; rewrite Ek in Hj; exact Hj.
          - apply Q. intros j Hj. discriminate (IN j Hj). }
        apply (ser_program _ _ _ m EQ).
      + intros i s h a Ei. destruct (IDLE _ _ _ _ Ei) as [-> _]. constructor.
  Qed.

  (** The main thread first: whoever holds a thread holds the main one, at the end of the list. *)
  Definition main_last (ph : phase) : Prop :=
    match ph with
    | Scanning s todo held => (held = [] /\ todo = se_threads s /\ exists l, todo = main :: l) \/ exists h, held = h ++ [main]
    | Inside _ held _ => exists h, held = h ++ [main]
    | Leaving held => held = [] \/ exists h, held = h ++ [main]
    | Idle => True
    end.

  Lemma main_last_act a w w' : main_first main a -> (forall i, main_last (w_phase w i)) -> act threads a w = Some w' ->
    forall i, main_last (w_phase w' i).
  Proof.
    intros Hs H E.
    assert (SET : forall i ph tc p log tr, main_last ph -> forall j, main_last (w_phase (mk_world (set_phase w i ph) tc p log tr) j)).
    { intros i ph tc p log tr Hp j. cbn [w_phase]. destruct (Nat.eq_dec j i) as [->|N]; [rewrite set_same; exact Hp|rewrite set_other by exact N; apply H]. }
    destruct a as [i s|i|i|i|i|m]; cbn [act main_first] in *.
    - destruct (w_phase w i) eqn:Ei; try discriminate. injection E as <-. apply SET. left. destruct Hs as [l Hl]. repeat split; eauto.
    - pose proof (H i) as Hi. destruct (w_phase w i) as [|s [|t todo] held| |] eqn:Ei; try discriminate. cbn [main_last] in Hi.
      destruct (existsb (Z.eqb t) held) eqn:Et.
      { injection E as <-. apply SET. right. destruct Hi as [(-> & _)|Hi]; [discriminate|exact Hi]. }
      destruct (w_tracer w t) as [j|]; injection E as <-; apply SET.
      + destruct Hi as [(-> & _)|Hi]; [left; reflexivity|right; exact Hi].
      + right. destruct Hi as [(-> & _ & l & X)|[h ->]]; [injection X as -> ->; exists []; reflexivity|exists (t :: h); reflexivity].
    - pose proof (H i) as Hi. destruct (w_phase w i) as [|s [|t todo] held| |] eqn:Ei; try discriminate. cbn [main_last] in Hi.
      injection E as <-. apply SET. destruct Hi as [(_ & _ & l & X)|Hi]; [discriminate|exact Hi].
    - pose proof (H i) as Hi. destruct (w_phase w i) as [| |s held acc|] eqn:Ei; try discriminate. cbn [main_last] in Hi.
      destruct (se_next s acc) as [ev|].
      + destruct (do_event ev (w_proc w)) as [[p ans]|]; [|discriminate]. injection E as <-. apply SET. exact Hi.
      + injection E as <-. apply SET. right. exact Hi.
    - pose proof (H i) as Hi. destruct (w_phase w i) as [| | |[|t held]] eqn:Ei; try discriminate; injection E as <-; apply SET; [exact I|].
      cbn [main_last] in *. destruct Hi as [Hi|[h Hi]]; [discriminate|]. destruct h as [|x h]; cbn [app] in Hi; injection Hi as -> ->.
      + left. reflexivity.
      + right. exists h. reflexivity.
    - destruct (forallb _ _); [discriminate|]. injection E as <-. exact H.
  Qed.

  Lemma trace_act a w w' : history p0 (w_trace w) (w_proc w) -> act threads a w = Some w' -> history p0 (w_trace w') (w_proc w').
  Proof.
    intros H E. destruct a as [i s|i|i|i|i|m]; cbn [act] in E.
    - destruct (w_phase w i); try discriminate. injection E as <-. exact H.
    - destruct (w_phase w i) as [|s [|t todo] held| |]; try discriminate. destruct (existsb _ _); [injection E as <-; exact H|].
      destruct (w_tracer w t); injection E as <-; exact H.
    - destruct (w_phase w i) as [|s [|t todo] held| |]; try discriminate. injection E as <-. exact H.
    - destruct (w_phase w i) as [| |s held acc|]; try discriminate. destruct (se_next s acc) as [ev|].
      + destruct (do_event ev (w_proc w)) as [[p ans]|] eqn:D; [|discriminate]. injection E as <-. cbn [w_trace w_proc]. econstructor; eauto.
      + injection E as <-. exact H.
    - destruct (w_phase w i) as [| | |[|t held]]; try discriminate; injection E as <-; exact H.
    - destruct (forallb _ _); [discriminate|]. injection E as <-. cbn [w_trace w_proc]. econstructor; [exact H|reflexivity].
  Qed.

  Lemma owned_quiet : owned (quiet p0).
  Proof. constructor; cbn; try discriminate; [intros; split; [tauto|discriminate]|intros; constructor]. Qed.
  Lemma serially_quiet : serially (quiet p0).
  Proof. exists p0. cbn. split; [constructor|]. split; [discriminate|reflexivity]. Qed.

  Lemma reach : forall l w w', Forall (starts_ok main threads) l -> owned w -> serially w -> acts threads l w = Some w' -> owned w' /\ serially w'.
  Proof.
    induction l as [|a l IH]; intros w w' Hl O S E; cbn [acts] in E; [injection E as <-; auto|].
    inversion Hl as [|? ? Ha Hl']; subst. destruct (act threads a w) as [w1|] eqn:A; [|discriminate].
    apply (IH w1); auto; [eapply owned_act|eapply serially_act]; eauto.
  Qed.
  Lemma reach_main : forall l w w', Forall (main_first main) l -> (forall i, main_last (w_phase w i)) -> acts threads l w = Some w' ->
    forall i, main_last (w_phase w' i).
  Proof.
    induction l as [|a l IH]; intros w w' Hl H E; cbn [acts] in E; [injection E as <-; auto|].
    inversion Hl as [|? ? Ha Hl']; subst. destruct (act threads a w) as [w1|] eqn:A; [|discriminate].
    apply (IH w1); auto. eapply main_last_act; eauto.
  Qed.
  Lemma reach_trace : forall l w w', history p0 (w_trace w) (w_proc w) -> acts threads l w = Some w' -> history p0 (w_trace w') (w_proc w').
  Proof.
    induction l as [|a l IH]; intros w w' H E; cbn [acts] in E; [injection E as <-; auto|].
    destruct (act threads a w) as [w1|] eqn:A; [|discriminate]. eapply IH; [|exact E]. eapply trace_act; eauto.
  Qed.
End Inv.

(** ** The tool's visits *)

Lemma merged_report te st m ans p' r :
  do_event (EvExec te) (mk_proc st m) = Some (p', r) -> interpret_and_report te st m ans = Some (p', merged ans r).
Proof.
  cbn [do_event p_lib p_mem]. unfold interpret_and_report, merged.
  destruct (insnq_interpret_from_process _ _ _ _) as [[[ret q'] t]|]; [|discriminate]. intros E. injection E as <- <-.
  destruct (negb (ret =? 0) && negb (ret =? EOLDLIBPULP)); reflexivity.
Qed.

Ltac run1 H HE HD HR := inversion H as [? ? HE|? ? ? ? ? ? ? HE HD HR]; subst; clear H; cbn [se_next app] in *.

Lemma apply_visit threads te rax busy e junk buf p ans p' :
  session_run (apply_session threads te rax busy e junk buf) [] p ans p' ->
  exists r, tool_apply_patch te rax busy e junk buf p = Some (p', r) /\
    match ans with
    | [a] => not_run rax a = true /\ r = EHOOKNOTRUN
    | [a; x] => r = merged a x
    | _ => False
    end.
Proof.
  intros H. unfold apply_session in H. run1 H HE HD HR; [discriminate|]. injection HE as <-.
  cbn [do_event] in HD. unfold tool_apply_patch.
  destruct (ulp_apply_patch busy e (p_mem p) junk buf (p_lib p)) as [[st a]|]; [|discriminate]. injection HD as <- <-.
  fold (not_run rax a). run1 HR HE HD HR'.
  - destruct (not_run rax a); [|discriminate]. eauto.
  - destruct (not_run rax a); [discriminate|]. injection HE as <-.
    pose proof (merged_report _ _ _ a _ _ HD) as E. run1 HR' HE' HD' HR2; [|discriminate]. eauto.
Qed.

Lemma replace_visit threads lib buf v p ans p' :
  session_run (replace_session threads lib buf v) [] p ans p' ->
  exists r stop as_, replace_attempt lib buf v p = Some (p', r, stop, as_).
Proof.
  intros H. unfold replace_session in H. run1 H HE HD HR; [discriminate|]. injection HE as <-.
  cbn [do_event] in HD. unfold replace_attempt, tool_revert_patches_from_lib.
  destruct (ulp_revert_patches_from_lib _ _ _ _ _ _) as [[st a]|]; [|discriminate]. injection HD as <- <-.
  run1 HR HE HD HR'; [discriminate|]. injection HE as <-.
  rewrite (merged_report _ _ _ a _ _ HD). cbn zeta.
  match goal with |- context [negb (?x =? 0)] => destruct (negb (x =? 0)) eqn:N end.
  - run1 HR' HE' HD' HR2; cbn zeta in HE'; rewrite N in HE'; [|discriminate]. eauto.
  - run1 HR' HE' HD' HR2; cbn zeta in HE'; rewrite N in HE'; [discriminate|]. injection HE' as <-.
    cbn [do_event] in HD'. unfold tool_apply_patch.
    destruct (ulp_apply_patch _ _ _ _ _ _) as [[st2 b]|]; [|discriminate]. injection HD' as <- <-.
    fold (not_run (v_rax v) b). run1 HR2 HE2 HD2 HR3.
    + destruct (not_run (v_rax v) b); [|discriminate]. eauto.
    + destruct (not_run (v_rax v) b); [discriminate|]. injection HE2 as <-.
      rewrite (merged_report _ _ _ b _ _ HD2). run1 HR3 HE3 HD3 HR4; [|discriminate]. eauto.
Qed.

(** ** Every event was sent by a tool that was started, or is the program's *)

Section From.
  Variables (threads : list Z) (P : event -> Prop).
  Definition sends (s : session) : Prop := forall acc ev, se_next s acc = Some ev -> P ev.
  Definition phase_sends (ph : phase) : Prop :=
    match ph with Scanning s _ _ | Inside s _ _ => sends s | _ => True end.
  Definition action_sends (a : action) : Prop :=
    match a with AStart _ s => sends s | AProgram m => P (EvProgram m) | _ => True end.

  Lemma from_act a w w' : action_sends a -> (forall i, phase_sends (w_phase w i)) -> Forall (fun e => P (fst e)) (w_trace w) ->
    act threads a w = Some w' -> (forall i, phase_sends (w_phase w' i)) /\ Forall (fun e => P (fst e)) (w_trace w').
  Proof.
    intros Ha H T E.
    assert (SET : forall i ph, phase_sends ph -> forall j, phase_sends (set_phase w i ph j)).
    { intros i ph Hp j. destruct (Nat.eq_dec j i) as [->|N]; [rewrite set_same; exact Hp|rewrite set_other by exact N; apply H]. }
    destruct a as [i s|i|i|i|i|m]; cbn [act action_sends] in *; try pose proof (H i) as Hi.
    - destruct (w_phase w i); try discriminate. injection E as <-. cbn [w_phase w_trace]. auto.
    - destruct (w_phase w i) as [|s [|t todo] held| |]; try discriminate. cbn [phase_sends] in Hi.
      destruct (existsb _ _); [injection E as <-; cbn [w_phase w_trace]; auto|].
      destruct (w_tracer w t); injection E as <-; cbn [w_phase w_trace]; split; auto.
    - destruct (w_phase w i) as [|s [|t todo] held| |]; try discriminate. injection E as <-. cbn [w_phase w_trace]. auto.
    - destruct (w_phase w i) as [| |s held acc|]; try discriminate. cbn [phase_sends] in Hi.
      destruct (se_next s acc) as [ev|] eqn:N.
      2: { injection E as <-. cbn [w_phase w_trace]. split; [apply SET; exact I|exact T]. }
      destruct (do_event ev (w_proc w)) as [[p ans]|]; [|discriminate]. injection E as <-. cbn [w_phase w_trace].
      split; [apply SET; exact Hi|]. apply Forall_app. split; [exact T|]. constructor; [|constructor]. cbn [fst]. exact (Hi _ _ N).
    - destruct (w_phase w i) as [| | |[|t held]]; try discriminate; injection E as <-; cbn [w_phase w_trace]; split; auto; apply SET; exact I.
    - destruct (forallb _ _); [discriminate|]. injection E as <-. cbn [w_phase w_trace]. split; [exact H|].
      apply Forall_app. split; [exact T|]. constructor; [exact Ha|constructor].
  Qed.
  Lemma from_acts : forall l w w', Forall action_sends l -> (forall i, phase_sends (w_phase w i)) -> Forall (fun e => P (fst e)) (w_trace w) ->
    acts threads l w = Some w' -> Forall (fun e => P (fst e)) (w_trace w').
  Proof.
    induction l as [|a l IH]; intros w w' Hl H T E; cbn [acts] in E; [injection E as <-; exact T|].
    inversion Hl as [|? ? Ha Hl']; subst. destruct (act threads a w) as [w1|] eqn:A; [|discriminate].
    destruct (from_act a w w1 Ha H T A) as [H1 T1]. eapply IH; eauto.
  Qed.
End From.
