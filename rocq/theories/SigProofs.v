(** Proofs for C85. *)
From Verif Require Import Base SigModel SigSpec.

(** ** Accounting *)

Definition occ (g : Z) (l : list Z) : Z := occurs (fun x => x =? g) l.

Lemma occurs_app : forall A (f : A -> bool) l m, occurs f (l ++ m) = occurs f l + occurs f m.
Proof. intros A f l m. induction l as [|x l IH]; cbn [occurs app]; [lia|]. rewrite IH. lia. Qed.

Lemma occurs_nonneg : forall A (f : A -> bool) l, 0 <= occurs f l.
Proof. intros A f l. induction l as [|x l IH]; cbn [occurs]; [lia|]. destruct (f x); lia. Qed.

Lemma occ_cons : forall g x l, occ g (x :: l) = (if x =? g then 1 else 0) + occ g l.
Proof. reflexivity. Qed.

Lemma occ_app : forall g l m, occ g (l ++ m) = occ g l + occ g m.
Proof. intros. apply occurs_app. Qed.

Lemma occ_filter : forall g (p : Z -> bool) l, occ g (filter p l) + occ g (filter (fun x => negb (p x)) l) = occ g l.
Proof.
  intros g p l. induction l as [|x l IH]; [reflexivity|]. cbn [filter]. destruct (p x); cbn [negb];
    rewrite ?occ_cons; lia.
Qed.

Lemma existsb_eq : forall g l, existsb (Z.eqb g) l = true <-> In g l.
Proof.
  intros g l. rewrite existsb_exists. split; [intros (x & I & E); apply Z.eqb_eq in E; subst; exact I|].
  intros I. exists g. split; [exact I|apply Z.eqb_refl].
Qed.

Lemma occ_take_one : forall g s l, In s l -> occ g (take_one s l) + (if s =? g then 1 else 0) = occ g l.
Proof.
  intros g s l. induction l as [|x l IH]; intros I; [destruct I|]. cbn [take_one]. rewrite occ_cons.
  destruct (x =? s) eqn:E.
  - apply Z.eqb_eq in E. subst. lia.
  - rewrite occ_cons. destruct I as [->|I]; [rewrite Z.eqb_refl in E; discriminate|]. specialize (IH I). lia.
Qed.

Definition w (g : Z) (o : obs) : Z :=
  match o with
  | O_sent a | O_back a => if a =? g then 1 else 0
  | O_attach => if SIGSTOP =? g then 1 else 0
  | O_trap => if SIGTRAP =? g then 1 else 0
  | O_merged a | O_discarded a | O_got a | O_report a => if a =? g then -1 else 0
  | _ => 0
  end.
Fixpoint net (g : Z) (l : list obs) : Z :=
  match l with [] => 0 | o :: r => w g o + net g r end.

Lemma net_app : forall g l m, net g (l ++ m) = net g l + net g m.
Proof. intros g l m. induction l as [|x l IH]; cbn [net app]; lia. Qed.

Lemma net_discarded : forall g l, net g (map O_discarded l) = - occ g l.
Proof.
  intros g l. induction l as [|x l IH]; [reflexivity|]. cbn [map net w]. rewrite occ_cons, IH.
  destruct (x =? g); lia.
Qed.

Lemma net_counts : forall g l,
  net g l = how_many O_sent g l + how_many O_back g l +
            (if SIGSTOP =? g then attaches l else 0) + (if SIGTRAP =? g then traps l else 0) -
            how_many O_got g l - how_many O_report g l - how_many O_merged g l - how_many O_discarded g l.
Proof.
  intros g l. unfold how_many, attaches, traps. induction l as [|o l IH].
  - cbn [net occurs]. destruct (SIGSTOP =? g), (SIGTRAP =? g); lia.
  - cbn [net]. rewrite IH. destruct o; cbn [w occurs]; cbv beta iota; destruct (SIGSTOP =? g); destruct (SIGTRAP =? g);
      try match goal with |- context [?a =? ?b] => destruct (a =? b) end; lia.
Qed.

Lemma queue_net : forall g s t t' l, queue s t = (t', l) ->
  occ g (k_pend t') = occ g (k_pend t) + net g l + (if s =? g then 1 else 0).
Proof.
  intros g s t t' l E. unfold queue in E.
  set (gone := if s =? SIGCONT then filter is_stop (k_pend t) else _) in E.
  set (p := if s =? SIGCONT then filter (fun x => negb (is_stop x)) (k_pend t) else _) in E.
  assert (P : occ g gone + occ g p = occ g (k_pend t)).
  { unfold gone, p. destruct (s =? SIGCONT); [apply occ_filter|]. destruct (is_stop s); [apply occ_filter|reflexivity]. }
  destruct (merges s && existsb (Z.eqb s) p); injection E as <- <-; cbn [k_pend];
    rewrite ?net_app, net_discarded; cbn [net w]; rewrite ?occ_app, ?occ_cons; change (occ g []) with 0;
    destruct (s =? g); lia.
Qed.

Lemma step_net : forall a t ph t' ph' l g, step a t ph = Some (t', ph', l) ->
  occ g (k_pend t') = occ g (k_pend t) + net g l.
Proof.
  intros a t ph t' ph' l g E. destruct a as [s|s| | | | |]; cbn [step] in E.
  - unfold send in E. assert (N : k_state t <> Dead) by (intro N; rewrite N in E; discriminate).
    assert (E' : match (if s =? SIGKILL then Some (dead, O_sent s :: map O_discarded (k_pend t) ++ [O_got s])
                        else let (t1, l1) := queue s t in Some (t1, O_sent s :: l1)) with
                 | Some (t1, l1) => Some (t1, ph, l1) | None => None end = Some (t', ph', l))
      by (destruct (k_state t); try contradiction; exact E).
    clear E. destruct (s =? SIGKILL).
    + injection E' as <- <- <-. cbn [dead k_pend net w]. rewrite net_app, net_discarded. cbn [net w].
      change (occ g []) with 0. destruct (s =? g); lia.
    + destruct (queue s t) as [t1 l1] eqn:Q. injection E' as <- <- <-. rewrite (queue_net g _ _ _ _ Q). cbn [net w]. lia.
  - unfold take in E. destruct (existsb (Z.eqb s) (k_pend t)) eqn:X; [|discriminate]. cbn [negb] in E.
    apply existsb_eq in X. pose proof (occ_take_one g s _ X) as O.
    destruct (k_state t); try discriminate; destruct (k_traced t); try (destruct (s =? SIGSTOP));
      injection E as <- <- <-; cbn [k_pend net w]; destruct (s =? g); lia.
  - unfold enter in E. destruct (k_state t); try discriminate. destruct (existsb _ _); [discriminate|].
    injection E as <- <- <-. cbn [k_pend net]. lia.
  - unfold trap in E. destruct (k_state t); try discriminate. destruct (k_lib t); [|discriminate]. cbn [negb] in E.
    destruct (k_traced t); injection E as <- <- <-.
    + cbn [k_pend net w]. destruct (SIGTRAP =? g); lia.
    + cbn [dead k_pend net w]. rewrite net_app, net_discarded. cbn [net w].
      change (occ g []) with 0. destruct (SIGTRAP =? g); lia.
  - unfold tool in E. destruct ph.
    + destruct (ptrace_attach t) as [[t1 l1]|] eqn:A; injection E as <- <- <-; [|cbn [net w]; lia].
      unfold ptrace_attach in A. assert (N : k_state t <> Dead) by (intro N; rewrite N in A; discriminate).
      destruct (queue SIGSTOP t) as [t2 l2] eqn:Q.
      assert (A' : k_pend t1 = k_pend t2 /\ l1 = O_attach :: l2).
      { destruct (k_state t); try contradiction; destruct (k_traced t); try discriminate; injection A as <- <-; auto. }
      destruct A' as [-> ->]. rewrite (queue_net g _ _ _ _ Q). cbn [net w]. lia.
    + destruct (k_state t); injection E as <- <- <-; cbn [net w]; lia.
    + unfold ptrace_setregs in E. destruct (k_state t) eqn:S; cbn [ptrace_cont k_state] in E; rewrite ?S in E;
        injection E as <- <- <-; cbn [k_pend net w]; lia.
    + destruct (k_state t); injection E as <- <- <-; cbn [net w]; lia.
    + unfold tracer_gone in E. destruct (k_state t); cbv zeta in E;
        repeat match type of E with context [if ?b then _ else _] => destruct b eqn:? end;
        injection E as <- <- <-; cbn [k_pend net w dead]; rewrite ?net_app, ?net_discarded; cbn [net w];
        change (occ g []) with 0; try (destruct (g0 =? g)); lia.
  - unfold finish in E. destruct ph; try discriminate. unfold restore, ptrace_setregs, ptrace_detach in E.
    destruct (k_state t) eqn:S; cbn [k_state k_pend] in E; rewrite ?S in E; injection E as <- <- <-; cbn [k_pend net w]; lia.
  - unfold timeout in E. destruct ph; try discriminate. unfold restore, ptrace_setregs, ptrace_detach in E.
    destruct (k_state t) eqn:S; cbn [k_state k_pend] in E; rewrite ?S in E; injection E as <- <- <-; cbn [k_pend net w]; lia.
Qed.

Lemma run_net : forall l t ph t' ph' log g, run l t ph = Some (t', ph', log) ->
  occ g (k_pend t') = occ g (k_pend t) + net g log.
Proof.
  induction l as [|a l IH]; intros t ph t' ph' log g E; cbn [run] in E.
  - injection E as <- <- <-. cbn [net]. lia.
  - destruct (step a t ph) as [[[t1 ph1] o1]|] eqn:S; [|discriminate].
    destruct (run l t1 ph1) as [[[t2 ph2] o2]|] eqn:R; [|discriminate]. injection E as <- <- <-.
    rewrite net_app, (IH _ _ _ _ _ g R), (step_net _ _ _ _ _ _ g S). lia.
Qed.

(** ** Transparency *)

Definition plain (p : list Z) (t : task) : Prop := t = mk_task p Running false false false.
Definition clean (p : list Z) : Prop := forall g, In g p -> ~ job_control g.

(** The thread under the tool and the thread alone. *)
Inductive rel : task -> task -> phase -> Prop :=
| R_idle : forall p, clean p -> rel (mk_task p Running false false false) (mk_task p Running false false false) Idle
| R_dead : forall ph, rel dead dead ph
| R_wait : forall p1 p2, clean (p1 ++ p2) ->
    rel (mk_task (p1 ++ p2) Running false false false) (mk_task (p1 ++ SIGSTOP :: p2) Running true false false) Waiting
| R_stop : forall p, clean p ->
    rel (mk_task p Running false false false) (mk_task p (Traced SIGSTOP) true false false) Waiting
| R_held : forall p g lib, clean p ->
    rel (mk_task p Running false false false) (mk_task p (Traced g) true false lib) Held
| R_rout : forall p s, clean p -> s = Running \/ s = Resumed \/ s = Traced SIGTRAP ->
    rel (mk_task p Running false false false) (mk_task p s true false true) Routine.

Lemma stop_not : ~ job_control SIGSTOP -> False.
Proof. intros H. apply H. unfold job_control, SIGSTOP. lia. Qed.

Lemma queue_clean : forall g p st tr lib, ~ job_control g ->
  queue g (mk_task p st tr false lib) =
  if merges g && existsb (Z.eqb g) p then (mk_task p st tr false lib, [O_merged g])
  else (mk_task (p ++ [g]) st tr false lib, []).
Proof.
  intros g p st tr lib N. unfold queue. cbn [k_pend k_state k_job k_traced k_lib].
  assert (A : (g =? SIGCONT) = false) by (apply Z.eqb_neq; intros ->; apply N; unfold job_control, SIGCONT; lia).
  assert (B : is_stop g = false).
  { unfold is_stop. apply andb_false_iff. destruct (19 <=? g) eqn:X; [|auto]. right. apply Z.leb_gt. apply Z.leb_le in X.
    destruct (Z_lt_le_dec 22 g); [lia|]. exfalso. apply N. unfold job_control. lia. }
  rewrite A, B. reflexivity.
Qed.

Lemma existsb_mid : forall g p1 p2, g <> SIGSTOP ->
  existsb (Z.eqb g) (p1 ++ SIGSTOP :: p2) = existsb (Z.eqb g) (p1 ++ p2).
Proof.
  intros g p1 p2 N. rewrite !existsb_app. cbn [existsb]. replace (g =? SIGSTOP) with false; [reflexivity|].
  symmetry. apply Z.eqb_neq. exact N.
Qed.

Lemma take_mid : forall p1 p2, clean (p1 ++ p2) -> take_one SIGSTOP (p1 ++ SIGSTOP :: p2) = p1 ++ p2.
Proof.
  induction p1 as [|x p1 IH]; intros p2 C.
  - cbn [app take_one]. rewrite Z.eqb_refl. reflexivity.
  - cbn [app take_one]. replace (x =? SIGSTOP) with false.
    + f_equal. apply IH. intros g I. apply C. right. exact I.
    + symmetry. apply Z.eqb_neq. intros ->. apply (stop_not (C _ (or_introl eq_refl))).
Qed.

Lemma clean_app1 : forall p g, clean p -> ~ job_control g -> clean (p ++ [g]).
Proof. intros p g C N x I. apply in_app_or in I. destruct I as [I|[<-|[]]]; auto. Qed.

Lemma clean_take : forall p g, clean p -> clean (take_one g p).
Proof.
  intros p g C x I. apply C. clear C. induction p as [|y p IH]; [destruct I|]. cbn [take_one] in I.
  destruct (y =? g); [right; exact I|]. destruct I as [->|I]; [left; reflexivity|right; auto].
Qed.

Lemma no_tool_nil : no_tool [].
Proof. intros a []. Qed.
Lemma no_tool_send : forall g, no_tool [Send g].
Proof. intros g a [<-|[]]. left. eauto. Qed.
Lemma no_tool_take : forall g, no_tool [Take g].
Proof. intros g a [<-|[]]. right. eauto. Qed.

(** One step: the thread alone makes zero or one. *)
Lemma step_rel : forall a t0 t ph t1 ph1 o,
  rel t0 t ph -> step a t ph = Some (t1, ph1, o) ->
  (forall g, In (O_sent g) o -> ~ job_control g) -> undisturbed o ->
  exists l0 o0 t01, no_tool l0 /\ run l0 t0 Idle = Some (t01, Idle, o0) /\ visible o0 = visible o /\ rel t01 t1 ph1.
Proof.
  intros a t0 t ph t1 ph1 o R E NS (UR & UF).
  assert (Z0 : visible o = [] -> rel t0 t1 ph1 ->
    exists l0 o0 t01, no_tool l0 /\ run l0 t0 Idle = Some (t01, Idle, o0) /\ visible o0 = visible o /\ rel t01 t1 ph1).
  { intros V R1. exists [], [], t0. split; [apply no_tool_nil|]. split; [reflexivity|]. split; [symmetry; exact V|exact R1]. }
  destruct a as [g|g| | | | |]; cbn [step] in E.
  - (* Send *)
    assert (D : k_state t <> Dead) by (intro D; unfold send in E; rewrite D in E; discriminate).
    destruct (g =? SIGKILL) eqn:K.
    { assert (E' : t1 = dead /\ ph1 = ph /\ visible o = [O_sent g; O_got g]).
      { unfold send in E. rewrite K in E. assert (V : visible (O_sent g :: map O_discarded (k_pend t) ++ [O_got g]) = [O_sent g; O_got g]).
        { unfold visible. cbn [filter visible_b]. f_equal. rewrite filter_app. cbn [filter visible_b].
          replace (filter visible_b (map O_discarded (k_pend t))) with (@nil obs); [reflexivity|].
          clear. induction (k_pend t) as [|x p IH]; [reflexivity|exact IH]. }
        destruct (k_state t); try contradiction; injection E as <- <- <-; auto. }
      destruct E' as (-> & -> & V). clear E.
      assert (D0 : k_state t0 = Running) by (inversion R; subst; try reflexivity; exfalso; apply D; reflexivity).
      exists [Send g], (O_sent g :: map O_discarded (k_pend t0) ++ [O_got g]), dead.
      split; [apply no_tool_send|]. split; [|split; [|constructor]].
      - cbn [run step]. unfold send. rewrite D0, K. rewrite app_nil_r. reflexivity.
      - rewrite V. unfold visible. cbn [filter visible_b]. f_equal. rewrite filter_app. cbn [filter visible_b].
        replace (filter visible_b (map O_discarded (k_pend t0))) with (@nil obs); [reflexivity|].
        clear. induction (k_pend t0) as [|x p IH]; [reflexivity|exact IH]. }
    assert (NJ : ~ job_control g).
    { apply NS. unfold send in E. rewrite K in E. destruct (k_state t); try contradiction;
        destruct (queue g t); injection E as <- <- <-; left; reflexivity. }
    assert (SE : forall st tr lib p, st <> Dead -> send g (mk_task p st tr false lib) =
        Some (if merges g && existsb (Z.eqb g) p then (mk_task p st tr false lib, O_sent g :: [O_merged g])
              else (mk_task (p ++ [g]) st tr false lib, [O_sent g]))).
    { intros st tr lib p N. unfold send. cbn [k_state]. rewrite K, (queue_clean _ _ _ _ _ NJ).
      destruct st; try contradiction; destruct (merges g && existsb (Z.eqb g) p); reflexivity. }
    assert (N19 : g <> SIGSTOP) by (intros ->; exact (stop_not NJ)).
    assert (FIN : forall p q st tr lib, st <> Dead -> t0 = mk_task p Running false false false -> t = mk_task q st tr false lib ->
       existsb (Z.eqb g) q = existsb (Z.eqb g) p ->
       rel (mk_task p Running false false false) (mk_task q st tr false lib) ph ->
       rel (mk_task (p ++ [g]) Running false false false) (mk_task (q ++ [g]) st tr false lib) ph ->
       exists l0 o0 t01, no_tool l0 /\ run l0 t0 Idle = Some (t01, Idle, o0) /\ visible o0 = visible o /\ rel t01 t1 ph1).
    { intros p q st tr lib N -> -> EX R1 R2. rewrite (SE _ _ _ _ N), EX in E.
      exists [Send g]. cbn [run step]. rewrite (SE Running false false p ltac:(discriminate)).
      destruct (merges g && existsb (Z.eqb g) p); injection E as <- <- <-;
        (do 2 eexists; split; [apply no_tool_send|]; split; [reflexivity|]; split; [reflexivity|assumption]). }
    inversion R; subst; try (exfalso; apply D; reflexivity).
    + eapply FIN; try reflexivity; [discriminate|constructor; assumption|constructor; apply clean_app1; assumption].
    + eapply FIN; try reflexivity; [discriminate|apply existsb_mid; exact N19|constructor; assumption|].
      rewrite <- !app_assoc. cbn [app]. constructor. rewrite app_assoc. apply clean_app1; assumption.
    + eapply FIN; try reflexivity; [discriminate|constructor; assumption|constructor; apply clean_app1; assumption].
    + eapply FIN; try reflexivity; [discriminate|constructor; assumption|constructor; apply clean_app1; assumption].
    + eapply FIN; try reflexivity; [destruct H0 as [ -> |[ -> | -> ] ]; discriminate|constructor; assumption|
        constructor; [apply clean_app1; assumption|assumption]].
  - (* Take *)
    inversion R; subst.
    + assert (N : (g =? SIGSTOP) = false).
      { unfold take in E. cbn [k_pend] in E. destruct (existsb (Z.eqb g) p) eqn:X; [|discriminate].
        apply existsb_eq in X. apply Z.eqb_neq. intros ->. exact (stop_not (H _ X)). }
      unfold take in E. cbn [k_pend k_state k_traced k_job k_lib] in E.
      destruct (existsb (Z.eqb g) p) eqn:X; [|discriminate]. cbn [negb] in E. rewrite N in E. injection E as <- <- <-.
      exists [Take g], [O_got g], (mk_task (take_one g p) Running false false false).
      split; [apply no_tool_take|]. split; [|split; [reflexivity|constructor; apply clean_take; assumption]].
      cbn [run step]. unfold take. cbn [k_pend k_state k_traced k_job k_lib]. rewrite X, N. reflexivity.
    + unfold take in E. cbn in E. discriminate.
    + unfold take in E. cbn [k_pend k_state k_traced k_job k_lib] in E.
      destruct (existsb (Z.eqb g) (p1 ++ SIGSTOP :: p2)) eqn:X; [|discriminate]. cbn [negb] in E. injection E as <- <- <-.
      assert (G : g = SIGSTOP).
      { destruct (UR g (or_introl eq_refl)) as [G|G]; [exact G|]. exfalso. subst g.
        rewrite existsb_mid in X by discriminate. apply existsb_eq in X. apply (H _ X). unfold job_control, SIGTRAP. lia. }
      subst g. apply Z0; [reflexivity|]. rewrite (take_mid _ _ H). constructor. exact H.
    + unfold take in E. cbn [k_state k_pend] in E. destruct (negb _); discriminate.
    + unfold take in E. cbn [k_state k_pend] in E. destruct (negb _); discriminate.
    + unfold take in E. cbn [k_pend k_state k_traced k_job k_lib] in E.
      destruct (existsb (Z.eqb g) p) eqn:X; [|discriminate]. cbn [negb] in E. apply existsb_eq in X.
      exfalso. assert (G : In (O_report g) o).
      { destruct H0 as [ -> |[ -> | -> ] ]; try discriminate; injection E as <- <- <-; left; reflexivity. }
      apply (H _ X). unfold job_control. destruct (UR g G) as [ -> | -> ]; unfold SIGSTOP, SIGTRAP; lia.
  - (* Enter *)
    inversion R; subst; unfold enter in E; cbn [k_state dead] in E; try discriminate.
    destruct H0 as [ -> |[ -> | -> ] ]; try discriminate. destruct (existsb _ _); [discriminate|]. injection E as <- <- <-.
    apply Z0; [reflexivity|]. constructor; auto.
  - (* Trap *)
    inversion R; subst; unfold trap in E; cbn [k_state k_lib k_traced negb dead] in E; try discriminate.
    destruct H0 as [ -> |[ -> | -> ] ]; try discriminate. injection E as <- <- <-.
    apply Z0; [reflexivity|]. constructor; auto.
  - (* Tool *)
    inversion R; subst; unfold tool in E.
    + unfold ptrace_attach in E. cbn [k_state k_traced] in E.
      assert (Q : queue SIGSTOP (mk_task p Running false false false) = (mk_task (p ++ [SIGSTOP]) Running false false false, [])).
      { unfold queue. change (SIGSTOP =? SIGCONT) with false. change (is_stop SIGSTOP) with true. cbv iota. cbn [k_pend k_state k_traced k_job k_lib].
        assert (F1 : filter (Z.eqb SIGCONT) p = []).
        { clear - H. induction p as [|x p IH]; [reflexivity|]. cbn [filter]. replace (SIGCONT =? x) with false.
          - apply IH. intros g I. apply H. right. exact I.
          - symmetry. apply Z.eqb_neq. intros <-. apply (H SIGCONT (or_introl eq_refl)). unfold job_control, SIGCONT. lia. }
        assert (F2 : filter (fun x => negb (SIGCONT =? x)) p = p).
        { clear - H. induction p as [|x p IH]; [reflexivity|]. cbn [filter]. replace (SIGCONT =? x) with false.
          - cbn [negb]. f_equal. apply IH. intros g I. apply H. right. exact I.
          - symmetry. apply Z.eqb_neq. intros <-. apply (H SIGCONT (or_introl eq_refl)). unfold job_control, SIGCONT. lia. }
        rewrite F1, F2. replace (existsb (Z.eqb SIGSTOP) p) with false; [rewrite andb_false_r; reflexivity|].
        symmetry. destruct (existsb (Z.eqb SIGSTOP) p) eqn:X; [|reflexivity]. apply existsb_eq in X.
        exfalso. exact (stop_not (H _ X)). }
      rewrite Q in E. cbn [k_pend k_state k_job k_lib] in E. injection E as <- <- <-. apply Z0; [reflexivity|].
      pose proof (R_wait p [] ltac:(rewrite app_nil_r; exact H)) as RW. rewrite app_nil_r in RW. exact RW.
    + cbn [dead k_state ptrace_attach ptrace_setregs tracer_gone] in E.
      destruct ph; try (injection E as <- <- <-; exfalso; apply UF; left; reflexivity).
      injection E as <- <- <-. apply Z0; [reflexivity|constructor].
    + cbn [k_state] in E. injection E as <- <- <-. apply Z0; [reflexivity|constructor; assumption].
    + cbn [k_state] in E. injection E as <- <- <-. apply Z0; [reflexivity|constructor; assumption].
    + unfold ptrace_setregs, ptrace_cont in E. cbn [k_state k_pend k_traced k_job k_lib] in E. injection E as <- <- <-.
      apply Z0; [reflexivity|]. constructor; auto.
    + cbn [k_state] in E. destruct H0 as [ -> |[ -> | -> ] ]; injection E as <- <- <-; apply Z0; try reflexivity; constructor; auto.
  - (* Finish *)
    inversion R; subst; unfold finish in E; try discriminate.
    + destruct ph; try discriminate. cbn in E. injection E as <- <- <-. exfalso. apply UF. left. reflexivity.
    + unfold restore, ptrace_setregs, ptrace_detach in E. cbn [k_state k_pend k_traced k_job k_lib] in E. injection E as <- <- <-.
      apply Z0; [reflexivity|constructor; assumption].
  - (* Timeout *)
    exfalso. unfold timeout in E. destruct ph; try discriminate. destruct (restore t). injection E as <- <- <-.
    apply UF. left. reflexivity.
Qed.

Lemma visible_app : forall a b, visible (a ++ b) = visible a ++ visible b.
Proof. intros. apply filter_app. Qed.

Lemma run_app : forall a b t ph,
  run (a ++ b) t ph = match run a t ph with
                      | None => None
                      | Some (t1, ph1, o1) => match run b t1 ph1 with
                                              | None => None
                                              | Some (t2, ph2, o2) => Some (t2, ph2, o1 ++ o2)
                                              end
                      end.
Proof.
  induction a as [|x a IH]; intros b t ph; cbn [run app].
  - destruct (run b t ph) as [[[t2 ph2] o2]|]; reflexivity.
  - destruct (step x t ph) as [[[t1 ph1] o1]|]; [|reflexivity]. rewrite IH.
    destruct (run a t1 ph1) as [[[t2 ph2] o2]|]; [|reflexivity].
    destruct (run b t2 ph2) as [[[t3 ph3] o3]|]; [|reflexivity]. rewrite app_assoc. reflexivity.
Qed.

Lemma run_rel : forall l t0 t ph t1 ph1 o,
  rel t0 t ph -> run l t ph = Some (t1, ph1, o) ->
  (forall g, In (O_sent g) o -> ~ job_control g) -> undisturbed o ->
  exists l0 o0 t01, no_tool l0 /\ run l0 t0 Idle = Some (t01, Idle, o0) /\ visible o0 = visible o /\ rel t01 t1 ph1.
Proof.
  induction l as [|a l IH]; intros t0 t ph t1 ph1 o R E NS (UR & UF); cbn [run] in E.
  - injection E as <- <- <-. exists [], [], t0. split; [apply no_tool_nil|]. split; [reflexivity|]. split; [reflexivity|exact R].
  - destruct (step a t ph) as [[[t2 ph2] o2]|] eqn:S; [|discriminate].
    destruct (run l t2 ph2) as [[[t3 ph3] o3]|] eqn:RR; [|discriminate]. injection E as <- <- <-.
    assert (U2 : undisturbed o2) by (split; [intros g I; apply UR; apply in_or_app; left; exact I|intros I; apply UF; apply in_or_app; left; exact I]).
    assert (U3 : undisturbed o3) by (split; [intros g I; apply UR; apply in_or_app; right; exact I|intros I; apply UF; apply in_or_app; right; exact I]).
    destruct (step_rel _ _ _ _ _ _ _ R S) as (l0 & p0 & t01 & N0 & R0 & V0 & RL0); [intros g I; apply NS; apply in_or_app; left; exact I|exact U2|].
    destruct (IH _ _ _ _ _ _ RL0 RR) as (l4 & p4 & t4 & N4 & R4 & V4 & RL4); [intros g I; apply NS; apply in_or_app; right; exact I|exact U3|].
    exists (l0 ++ l4), (p0 ++ p4), t4. split; [|split; [|split; [|exact RL4]]].
    + intros x I. apply in_app_or in I. destruct I as [I|I]; [apply N0|apply N4]; exact I.
    + rewrite run_app, R0, R4. reflexivity.
    + rewrite !visible_app, V0, V4. reflexivity.
Qed.

Lemma rel_idle : forall t0 t, rel t0 t Idle -> t0 = t.
Proof. intros t0 t R. inversion R; reflexivity. Qed.

(** ** A process stopped by job control *)

(** The pending signals, up to the SIGSTOP of an attach. *)
Definition upto (p q : list Z) : Prop :=
  q = p \/ exists p1 p2, p = p1 ++ p2 /\ q = p1 ++ SIGSTOP :: p2.

Inductive rel2 : task -> task -> phase -> Prop :=
| J_idle : forall p q, clean p -> upto p q ->
    rel2 (mk_task p JobStopped false true false) (mk_task q JobStopped false true false) Idle
| J_dead : forall ph, rel2 dead dead ph
| J_wait : forall p q g lib, clean p -> upto p q ->
    rel2 (mk_task p JobStopped false true false) (mk_task q (Traced g) true true lib) Waiting
| J_held : forall p q g lib, clean p -> upto p q ->
    rel2 (mk_task p JobStopped false true false) (mk_task q (Traced g) true true lib) Held
| J_rout : forall p q s, clean p -> upto p q -> s = Running \/ s = Resumed \/ (exists g, s = Traced g) ->
    rel2 (mk_task p JobStopped false true false) (mk_task q s true true true) Routine.

Lemma queue_clean2 : forall g p st tr lib, ~ job_control g ->
  queue g (mk_task p st tr true lib) =
  if merges g && existsb (Z.eqb g) p then (mk_task p st tr true lib, [O_merged g])
  else (mk_task (p ++ [g]) st tr true lib, []).
Proof.
  intros g p st tr lib N. unfold queue. cbn [k_pend k_state k_job k_traced k_lib].
  assert (A : (g =? SIGCONT) = false) by (apply Z.eqb_neq; intros ->; apply N; unfold job_control, SIGCONT; lia).
  assert (B : is_stop g = false).
  { unfold is_stop. apply andb_false_iff. destruct (19 <=? g) eqn:X; [|auto]. right. apply Z.leb_gt. apply Z.leb_le in X.
    destruct (Z_lt_le_dec 22 g); [lia|]. exfalso. apply N. unfold job_control. lia. }
  rewrite A, B. reflexivity.
Qed.

Lemma upto_app : forall p q g, upto p q -> upto (p ++ [g]) (q ++ [g]).
Proof.
  intros p q g [->|(p1 & p2 & -> & ->)]; [left; reflexivity|]. right. exists p1, (p2 ++ [g]).
  rewrite <- !app_assoc. split; reflexivity.
Qed.

Lemma upto_exists : forall p q g, upto p q -> g <> SIGSTOP -> existsb (Z.eqb g) q = existsb (Z.eqb g) p.
Proof. intros p q g [->|(p1 & p2 & -> & ->)] N; [reflexivity|]. apply existsb_mid. exact N. Qed.

Lemma clean_no_cont : forall p q, clean p -> upto p q ->
  filter (Z.eqb SIGCONT) q = [] /\ filter (fun x => negb (SIGCONT =? x)) q = q.
Proof.
  intros p q C U. assert (NI : forall x, In x q -> (SIGCONT =? x) = false).
  { intros x I. apply Z.eqb_neq. intros <-. destruct U as [->|(p1 & p2 & -> & ->)].
    - apply (C _ I). unfold job_control, SIGCONT. lia.
    - apply in_app_or in I. destruct I as [I|[I|I]]; [|discriminate|];
        (apply (C SIGCONT); [apply in_or_app; auto|unfold job_control, SIGCONT; lia]). }
  clear C U. induction q as [|x q IH]; [split; reflexivity|]. cbn [filter]. rewrite (NI x (or_introl eq_refl)). cbn [negb].
  destruct IH as [A B]; [intros y I; apply NI; right; exact I|]. rewrite A, B. split; reflexivity.
Qed.

Lemma take_upto : forall p q, clean p -> upto p q -> existsb (Z.eqb SIGSTOP) q = true -> take_one SIGSTOP q = p.
Proof.
  intros p q C [->|(p1 & p2 & -> & ->)] X.
  - apply existsb_eq in X. exfalso. exact (stop_not (C _ X)).
  - apply take_mid. exact C.
Qed.

(** The kernel's SIGSTOP of an attach. *)
Lemma queue_stop : forall p q st lib, clean p -> upto p q ->
  exists q' l, queue SIGSTOP (mk_task q st false true lib) = (mk_task q' st false true lib, l) /\ upto p q' /\ visible l = [] /\
    In SIGSTOP q' /\ (forall g, ~ In (O_report g) l) /\ ~ In O_trap l /\ (forall m, one_start m l = true).
Proof.
  intros p q st lib C U. destruct (clean_no_cont _ _ C U) as [F1 F2]. unfold queue.
  change (SIGSTOP =? SIGCONT) with false. change (is_stop SIGSTOP) with true. cbv iota.
  cbn [k_pend k_state k_traced k_job k_lib]. rewrite F1, F2. change (merges SIGSTOP) with true. cbn [andb map app].
  destruct (existsb (Z.eqb SIGSTOP) q) eqn:X.
  - exists q, [O_merged SIGSTOP]. split; [reflexivity|]. split; [exact U|]. split; [reflexivity|].
    split; [apply existsb_eq; exact X|]. split; [intros g [I|[]]; discriminate|]. split; [intros [I|[]]; discriminate|reflexivity].
  - exists (q ++ [SIGSTOP]), []. split; [reflexivity|]. split; [|split; [reflexivity|]].
    + destruct U as [->|(p1 & p2 & -> & ->)].
      * right. exists p, []. rewrite app_nil_r. split; reflexivity.
      * rewrite existsb_app in X. cbn [existsb] in X. rewrite Z.eqb_refl in X. cbn [orb] in X. rewrite orb_true_r in X. discriminate.
    + split; [apply in_or_app; right; left; reflexivity|]. split; [intros g []|]. split; [intros []|reflexivity].
Qed.

Lemma step_rel2 : forall a t0 t ph t1 ph1 o,
  rel2 t0 t ph -> step a t ph = Some (t1, ph1, o) ->
  (forall g, In (O_sent g) o -> ~ job_control g) -> undisturbed o ->
  exists l0 o0 t01, no_tool l0 /\ run l0 t0 Idle = Some (t01, Idle, o0) /\ visible o0 = visible o /\ rel2 t01 t1 ph1.
Proof.
  intros a t0 t ph t1 ph1 o R E NS (UR & UF).
  assert (Z0 : visible o = [] -> rel2 t0 t1 ph1 ->
    exists l0 o0 t01, no_tool l0 /\ run l0 t0 Idle = Some (t01, Idle, o0) /\ visible o0 = visible o /\ rel2 t01 t1 ph1).
  { intros V R1. exists [], [], t0. split; [apply no_tool_nil|]. split; [reflexivity|]. split; [symmetry; exact V|exact R1]. }
  destruct a as [g|g| | | | |]; cbn [step] in E.
  - (* Send *)
    assert (D : k_state t <> Dead) by (intro D; unfold send in E; rewrite D in E; discriminate).
    destruct (g =? SIGKILL) eqn:K.
    { assert (E' : t1 = dead /\ ph1 = ph /\ visible o = [O_sent g; O_got g]).
      { unfold send in E. rewrite K in E. assert (V : visible (O_sent g :: map O_discarded (k_pend t) ++ [O_got g]) = [O_sent g; O_got g]).
        { unfold visible. cbn [filter visible_b]. f_equal. rewrite filter_app. cbn [filter visible_b].
          replace (filter visible_b (map O_discarded (k_pend t))) with (@nil obs); [reflexivity|].
          clear. induction (k_pend t) as [|x p IH]; [reflexivity|exact IH]. }
        destruct (k_state t); try contradiction; injection E as <- <- <-; auto. }
      destruct E' as (-> & -> & V). clear E.
      assert (D0 : k_state t0 = JobStopped) by (inversion R; subst; try reflexivity; exfalso; apply D; reflexivity).
      exists [Send g], (O_sent g :: map O_discarded (k_pend t0) ++ [O_got g]), dead.
      split; [apply no_tool_send|]. split; [|split; [|constructor]].
      - cbn [run step]. unfold send. rewrite D0, K. rewrite app_nil_r. reflexivity.
      - rewrite V. unfold visible. cbn [filter visible_b]. f_equal. rewrite filter_app. cbn [filter visible_b].
        replace (filter visible_b (map O_discarded (k_pend t0))) with (@nil obs); [reflexivity|].
        clear. induction (k_pend t0) as [|x p IH]; [reflexivity|exact IH]. }
    assert (NJ : ~ job_control g).
    { apply NS. unfold send in E. rewrite K in E. destruct (k_state t); try contradiction;
        destruct (queue g t); injection E as <- <- <-; left; reflexivity. }
    assert (SE : forall st tr lib p, st <> Dead -> send g (mk_task p st tr true lib) =
        Some (if merges g && existsb (Z.eqb g) p then (mk_task p st tr true lib, O_sent g :: [O_merged g])
              else (mk_task (p ++ [g]) st tr true lib, [O_sent g]))).
    { intros st tr lib p N. unfold send. cbn [k_state]. rewrite K, (queue_clean2 _ _ _ _ _ NJ).
      destruct st; try contradiction; destruct (merges g && existsb (Z.eqb g) p); reflexivity. }
    assert (N19 : g <> SIGSTOP) by (intros ->; exact (stop_not NJ)).
    assert (FIN : forall p q st tr lib, st <> Dead -> t0 = mk_task p JobStopped false true false -> t = mk_task q st tr true lib ->
       clean p -> upto p q ->
       (forall p' q', clean p' -> upto p' q' -> rel2 (mk_task p' JobStopped false true false) (mk_task q' st tr true lib) ph) ->
       exists l0 o0 t01, no_tool l0 /\ run l0 t0 Idle = Some (t01, Idle, o0) /\ visible o0 = visible o /\ rel2 t01 t1 ph1).
    { intros p q st tr lib N -> -> C U R1. rewrite (SE _ _ _ _ N), (upto_exists _ _ _ U N19) in E.
      exists [Send g]. cbn [run step]. rewrite (SE JobStopped false false p ltac:(discriminate)).
      destruct (merges g && existsb (Z.eqb g) p); injection E as <- <- <-;
        (do 2 eexists; split; [apply no_tool_send|]; split; [reflexivity|]; split; [reflexivity|]; apply R1);
        auto using clean_app1, upto_app. }
    inversion R; subst; try (exfalso; apply D; reflexivity).
    + apply (FIN p q JobStopped false false); [discriminate|reflexivity|reflexivity|assumption|assumption|intros; constructor; assumption].
    + apply (FIN p q (Traced g0) true lib); [discriminate|reflexivity|reflexivity|assumption|assumption|intros; constructor; assumption].
    + apply (FIN p q (Traced g0) true lib); [discriminate|reflexivity|reflexivity|assumption|assumption|intros; constructor; assumption].
    + apply (FIN p q s true true); [destruct H1 as [->|[->|(x & ->)]]; discriminate|reflexivity|reflexivity|assumption|assumption|intros; constructor; assumption].
  - (* Take *)
    unfold take in E. destruct (existsb (Z.eqb g) (k_pend t)) eqn:X; [|discriminate]. cbn [negb] in E.
    inversion R; subst; cbn [dead k_pend k_state k_traced k_job k_lib] in E, X; try discriminate.
    assert (E' : t1 = mk_task (take_one g q) (Traced g) true true true /\ ph1 = Routine /\ o = [O_report g]).
    { destruct H1 as [->|[->|(x & ->)]]; try discriminate; injection E as <- <- <-; auto. }
    destruct E' as (-> & -> & ->).
    assert (G : g = SIGSTOP).
    { destruct (UR g (or_introl eq_refl)) as [G|G]; [exact G|]. exfalso. subst g.
      rewrite (upto_exists _ _ _ H0) in X by discriminate. apply existsb_eq in X. apply (H _ X). unfold job_control, SIGTRAP. lia. }
    subst g. apply Z0; [reflexivity|]. rewrite (take_upto _ _ H H0 X). constructor; [exact H|left; reflexivity|eauto].
  - (* Enter *)
    unfold enter in E. inversion R; subst; cbn [k_state dead] in E; try discriminate.
    destruct H1 as [->|[->|(x & ->)]]; try discriminate. destruct (existsb _ _); [discriminate|]. injection E as <- <- <-.
    apply Z0; [reflexivity|]. constructor; auto.
  - (* Trap *)
    unfold trap in E. inversion R; subst; cbn [k_state k_lib k_traced negb dead] in E; try discriminate.
    destruct H1 as [->|[->|(x & ->)]]; try discriminate. injection E as <- <- <-.
    apply Z0; [reflexivity|]. constructor; eauto.
  - (* Tool *)
    inversion R; subst; unfold tool in E.
    + unfold ptrace_attach in E. cbn [k_state k_traced] in E.
      destruct (queue_stop p q JobStopped false H H0) as (q' & l & Q & U & V & _). rewrite Q in E.
      cbn [k_pend k_state k_job k_lib] in E. injection E as <- <- <-. apply Z0; [exact V|]. constructor; assumption.
    + cbn [dead k_state ptrace_attach ptrace_setregs tracer_gone] in E.
      destruct ph; try (injection E as <- <- <-; exfalso; apply UF; left; reflexivity).
      injection E as <- <- <-. apply Z0; [reflexivity|constructor].
    + cbn [k_state] in E. injection E as <- <- <-. apply Z0; [reflexivity|constructor; assumption].
    + unfold ptrace_setregs, ptrace_cont in E. cbn [k_state k_pend k_traced k_job k_lib] in E. injection E as <- <- <-.
      apply Z0; [reflexivity|]. constructor; auto.
    + cbn [k_state] in E. destruct H1 as [->|[->|(x & ->)]]; injection E as <- <- <-; apply Z0; try reflexivity; constructor; eauto.
  - (* Finish *)
    unfold finish in E. inversion R; subst; try discriminate.
    + destruct ph; try discriminate. cbn in E. injection E as <- <- <-. exfalso. apply UF. left. reflexivity.
    + unfold restore, ptrace_setregs, ptrace_detach in E. cbn [k_state k_pend k_traced k_job k_lib] in E. injection E as <- <- <-.
      apply Z0; [reflexivity|constructor; assumption].
  - (* Timeout *)
    exfalso. unfold timeout in E. destruct ph; try discriminate. destruct (restore t). injection E as <- <- <-.
    apply UF. left. reflexivity.
Qed.

Lemma run_rel2 : forall l t0 t ph t1 ph1 o,
  rel2 t0 t ph -> run l t ph = Some (t1, ph1, o) ->
  (forall g, In (O_sent g) o -> ~ job_control g) -> undisturbed o ->
  exists l0 o0 t01, no_tool l0 /\ run l0 t0 Idle = Some (t01, Idle, o0) /\ visible o0 = visible o /\ rel2 t01 t1 ph1.
Proof.
  induction l as [|a l IH]; intros t0 t ph t1 ph1 o R E NS (UR & UF); cbn [run] in E.
  - injection E as <- <- <-. exists [], [], t0. split; [apply no_tool_nil|]. split; [reflexivity|]. split; [reflexivity|exact R].
  - destruct (step a t ph) as [[[t2 ph2] o2]|] eqn:S; [|discriminate].
    destruct (run l t2 ph2) as [[[t3 ph3] o3]|] eqn:RR; [|discriminate]. injection E as <- <- <-.
    assert (U2 : undisturbed o2) by (split; [intros g I; apply UR; apply in_or_app; left; exact I|intros I; apply UF; apply in_or_app; left; exact I]).
    assert (U3 : undisturbed o3) by (split; [intros g I; apply UR; apply in_or_app; right; exact I|intros I; apply UF; apply in_or_app; right; exact I]).
    destruct (step_rel2 _ _ _ _ _ _ _ R S) as (l0 & p0 & t01 & N0 & R0 & V0 & RL0); [intros g I; apply NS; apply in_or_app; left; exact I|exact U2|].
    destruct (IH _ _ _ _ _ _ RL0 RR) as (l4 & p4 & t4 & N4 & R4 & V4 & RL4); [intros g I; apply NS; apply in_or_app; right; exact I|exact U3|].
    exists (l0 ++ l4), (p0 ++ p4), t4. split; [|split; [|split; [|exact RL4]]].
    + intros x I. apply in_app_or in I. destruct I as [I|I]; [apply N0|apply N4]; exact I.
    + rewrite run_app, R0, R4. reflexivity.
    + rewrite !visible_app, V0, V4. reflexivity.
Qed.

(** SIGCONT afterwards: the SIGSTOP of an attach is gone. *)
Lemma cont_same : forall p q, clean p -> upto p q ->
  exists o o', send SIGCONT (mk_task p JobStopped false true false) = Some (mk_task (p ++ [SIGCONT]) Running false false false, o) /\
    send SIGCONT (mk_task q JobStopped false true false) = Some (mk_task (p ++ [SIGCONT]) Running false false false, o') /\
    visible o = [O_sent SIGCONT] /\ visible o' = [O_sent SIGCONT].
Proof.
  intros p q C U.
  assert (F : filter (fun x => negb (is_stop x)) p = p).
  { clear U q. induction p as [|x p IH]; [reflexivity|]. cbn [filter].
    replace (is_stop x) with false; [cbn [negb]; f_equal; apply IH; intros g I; apply C; right; exact I|].
    symmetry. unfold is_stop. apply andb_false_iff. destruct (19 <=? x) eqn:X; [|auto]. right. apply Z.leb_gt. apply Z.leb_le in X.
    destruct (Z_lt_le_dec 22 x); [lia|]. exfalso. apply (C x (or_introl eq_refl)). unfold job_control. lia. }
  assert (FQ : filter (fun x => negb (is_stop x)) q = p).
  { destruct U as [->|(p1 & p2 & -> & ->)]; [exact F|]. rewrite filter_app in *. cbn [filter]. exact F. }
  assert (NC : existsb (Z.eqb SIGCONT) p = false).
  { destruct (existsb (Z.eqb SIGCONT) p) eqn:X; [|reflexivity]. apply existsb_eq in X. exfalso. apply (C _ X).
    unfold job_control, SIGCONT. lia. }
  assert (VD : forall l, visible (map O_discarded l) = []) by (induction l as [|x l IH]; [reflexivity|exact IH]).
  exists (O_sent SIGCONT :: map O_discarded (filter is_stop p)), (O_sent SIGCONT :: map O_discarded (filter is_stop q)).
  unfold send, queue. cbn [k_state k_pend k_traced k_job k_lib]. change (SIGCONT =? SIGKILL) with false.
  change (SIGCONT =? SIGCONT) with true. cbv iota. rewrite F, FQ, NC, andb_false_r.
  split; [reflexivity|]. split; [reflexivity|]. unfold visible in *. cbn [filter visible_b]. rewrite !VD. split; reflexivity.
Qed.

(** ** A stopped process is not patched *)

Definition stopped_inv (t : task) (ph : phase) (may : bool) : Prop :=
  t = dead \/
  (k_job t = true /\ k_traced t = true /\
   match ph with
   | Waiting => (exists g, k_state t = Traced g) /\ In SIGSTOP (k_pend t) /\ may = true
   | Held => (exists g, k_state t = Traced g) /\ (may = true -> In SIGSTOP (k_pend t))
   | Routine => ((exists g, k_state t = Traced g) \/ (k_state t = Resumed /\ In SIGSTOP (k_pend t))) /\ may = false
   | _ => False
   end) \/
  (ph = Idle /\ k_job t = true /\ k_traced t = false /\ k_state t = JobStopped).

(** What a log leaves of the permission to start. *)
Fixpoint may_after (may : bool) (l : list obs) : bool :=
  match l with
  | [] => may
  | O_attach :: r => may_after true r
  | O_start :: r => may_after false r
  | _ :: r => may_after may r
  end.

Lemma one_start_app : forall a m b, one_start m (a ++ b) = one_start m a && one_start (may_after m a) b.
Proof.
  induction a as [|x a IH]; intros m b; [reflexivity|]. cbn [app]. destruct x; cbn [one_start may_after]; rewrite IH; try reflexivity.
  rewrite andb_assoc. reflexivity.
Qed.

Definition quiet_obs (o : obs) : Prop :=
  match o with O_attach | O_start | O_trap | O_failed => False | _ => True end.
Lemma may_quiet : forall l m, (forall o, In o l -> quiet_obs o) -> may_after m l = m.
Proof.
  induction l as [|x l IH]; intros m Q; [reflexivity|]. pose proof (Q x (or_introl eq_refl)) as Qx.
  destruct x; cbn [quiet_obs] in Qx; try contradiction; cbn [may_after]; apply IH; intros o I; apply Q; right; exact I.
Qed.

Lemma queue_keeps : forall g t t' l, queue g t = (t', l) -> g <> SIGCONT ->
  k_state t' = k_state t /\ k_traced t' = k_traced t /\ k_job t' = k_job t /\
  (In SIGSTOP (k_pend t) -> In SIGSTOP (k_pend t')) /\ (g = SIGSTOP -> In SIGSTOP (k_pend t')) /\
  (forall o, In o l -> quiet_obs o).
Proof.
  intros g t t' l E N. unfold queue in E. rewrite (proj2 (Z.eqb_neq g SIGCONT) N) in E.
  set (gone := if is_stop g then filter (Z.eqb SIGCONT) _ else _) in E.
  set (p := if is_stop g then filter _ _ else _) in E.
  assert (P : In SIGSTOP (k_pend t) -> In SIGSTOP p).
  { unfold p. destruct (is_stop g); [|auto]. intros I. apply filter_In. split; [exact I|reflexivity]. }
  assert (QD : forall o, In o (map O_discarded gone) -> quiet_obs o).
  { intros o I. apply in_map_iff in I. destruct I as (x & <- & _). exact Logic.I. }
  destruct (merges g && existsb (Z.eqb g) p) eqn:M; injection E as <- <-; cbn [k_pend k_state k_traced k_job].
  - repeat split; auto.
    + intros ->. apply andb_true_iff in M. destruct M as [_ M]. apply existsb_eq in M. exact M.
    + intros o I. apply in_app_or in I. destruct I as [I|[<-|[]]]; [apply QD; exact I|exact Logic.I].
  - repeat split; auto.
    + intros I. apply in_or_app. left. apply P. exact I.
    + intros ->. apply in_or_app. right. left. reflexivity.
Qed.

Lemma step_stopped : forall a t ph m t1 ph1 o,
  stopped_inv t ph m -> step a t ph = Some (t1, ph1, o) ->
  ~ In (O_sent SIGCONT) o -> ~ In O_failed o -> one_start m o = true ->
  ~ In O_trap o /\ stopped_inv t1 ph1 (may_after m o).
Proof.
  intros a t ph m t1 ph1 o I E NC NF OS. destruct a as [g|g| | | | |]; cbn [step] in E.
  - (* Send *)
    unfold send in E. assert (D : k_state t <> Dead) by (intro D; rewrite D in E; discriminate).
    assert (E' : (if g =? SIGKILL then Some (dead, O_sent g :: map O_discarded (k_pend t) ++ [O_got g])
                  else let (t2, l2) := queue g t in Some (t2, O_sent g :: l2)) = Some (t1, o) /\ ph1 = ph).
    { destruct (k_state t); try contradiction;
        (destruct (g =? SIGKILL); [|destruct (queue g t)]; injection E as <- <- <-; auto). }
    clear E. destruct E' as [E ->]. destruct (g =? SIGKILL).
    + injection E as <- <-. split; [|left; reflexivity]. intros [X|X]; [discriminate|]. apply in_app_or in X.
      destruct X as [X|[X|[]]]; [|discriminate]. apply in_map_iff in X. destruct X as (x & X & _). discriminate.
    + destruct (queue g t) as [t2 l2] eqn:Q. injection E as <- <-.
      assert (G : g <> SIGCONT) by (intros ->; apply NC; left; reflexivity).
      destruct (queue_keeps _ _ _ _ Q G) as (S & T & J & P & _ & QO). split.
      * intros [X|X]; [discriminate|]. exact (QO _ X).
      * cbn [may_after]. rewrite (may_quiet _ _ QO). destruct I as [->|[(A & B & C)|(A & B & C & C2)]].
        -- exfalso. apply D. reflexivity.
        -- right. left. rewrite J, T, S. split; [exact A|]. split; [exact B|].
           destruct ph; try contradiction.
           ++ destruct C as (C1 & C3 & C4). auto.
           ++ destruct C as (C1 & C3). auto.
           ++ destruct C as ([C1|[C1 C3]] & C4); split; auto.
        -- right. right. rewrite J, T, S. auto.
  - (* Take *)
    unfold take in E. destruct (existsb (Z.eqb g) (k_pend t)) eqn:X; [|discriminate]. cbn [negb] in E.
    destruct I as [->|[(A & B & C)|(_ & A & B & C)]]; [discriminate| |rewrite C in E; discriminate].
    destruct ph; try contradiction.
    + destruct C as ((x & C) & _). rewrite C in E. discriminate.
    + destruct C as ((x & C) & _). rewrite C in E. discriminate.
    + destruct C as ([(x & C)|(C & _)] & M); rewrite C in E; [discriminate|]. rewrite B in E. injection E as <- <- <-.
      split; [intros [Y|[]]; discriminate|]. right. left. cbn [k_job k_traced k_state k_pend may_after].
      split; [exact A|]. split; [reflexivity|]. split; [left; eauto|exact M].
  - (* Enter *)
    exfalso. unfold enter in E. destruct I as [->|[(A & B & C)|(_ & A & B & C)]]; [discriminate| |rewrite C in E; discriminate].
    destruct ph; try contradiction.
    + destruct C as ((x & C) & _). rewrite C in E. discriminate.
    + destruct C as ((x & C) & _). rewrite C in E. discriminate.
    + destruct C as ([(x & C)|(C & C3)] & _); rewrite C in E; [discriminate|]. apply existsb_eq in C3. rewrite C3 in E. discriminate.
  - (* Trap *)
    exfalso. unfold trap in E. destruct I as [->|[(A & B & C)|(_ & A & B & C)]]; [discriminate| |rewrite C in E; discriminate].
    destruct ph; try contradiction.
    + destruct C as ((x & C) & _). rewrite C in E. discriminate.
    + destruct C as ((x & C) & _). rewrite C in E. discriminate.
    + destruct C as ([(x & C)|(C & C3)] & _); rewrite C in E; discriminate.
  - (* Tool *)
    destruct I as [->|[(A & B & C)|(-> & A & B & C)]].
    + destruct ph; cbn in E; injection E as <- <- <-; try (exfalso; apply NF; left; reflexivity). split; [intros []|left; reflexivity].
    + unfold tool in E. destruct ph; try contradiction.
      * destruct C as ((x & C) & C3 & C4). rewrite C in E. injection E as <- <- <-. split; [intros []|].
        right. left. cbn [may_after]. split; [exact A|]. split; [exact B|]. split; [eauto|auto].
      * destruct C as ((x & C) & C3). unfold ptrace_setregs, ptrace_cont in E. rewrite C in E. cbn [k_state k_pend k_traced k_job k_lib] in E.
        injection E as <- <- <-. split; [intros [Y|[]]; discriminate|]. cbn [one_start] in OS. apply andb_true_iff in OS. destruct OS as [OS _].
        right. left. cbn [may_after k_job k_traced k_state k_pend]. split; [exact A|]. split; [reflexivity|]. split; [right; auto|reflexivity].
      * destruct C as ([(x & C)|(C & C3)] & M); rewrite C in E; injection E as <- <- <-; (split; [intros []|]); right; left; cbn [may_after];
          (split; [exact A|]; split; [exact B|]).
        -- split; [eauto|]. rewrite M. discriminate.
        -- split; [right; auto|exact M].
    + unfold tool, ptrace_attach in E. rewrite C, B in E. destruct (queue SIGSTOP t) as [t2 l2] eqn:Q.
      destruct (queue_keeps _ _ _ _ Q) as (S & T & J & _ & P & QO); [discriminate|].
      rewrite S, C in E. injection E as <- <- <-. split; [intros [Y|Y]; [discriminate|exact (QO _ Y)]|].
      right. left. cbn [may_after k_job k_traced k_state k_pend]. rewrite (may_quiet _ _ QO), J.
      split; [exact A|]. split; [reflexivity|]. split; [eauto|]. split; [apply P; reflexivity|reflexivity].
  - (* Finish *)
    unfold finish in E. destruct ph; try discriminate.
    destruct I as [->|[(A & B & (x & C) & C3)|(Y & _)]]; [|  |discriminate].
    + cbn in E. injection E as <- <- <-. exfalso. apply NF. left. reflexivity.
    + unfold restore, ptrace_setregs, ptrace_detach in E. rewrite C in E. cbn [k_state k_pend k_traced k_job k_lib] in E. rewrite A in E.
      rewrite ?C in E. injection E as <- <- <-. split; [intros [Y|[]]; discriminate|]. right. right. cbn. auto.
  - (* Timeout *)
    exfalso. unfold timeout in E. destruct ph; try discriminate. destruct (restore t). injection E as <- <- <-.
    apply NF. left. reflexivity.
Qed.

Lemma run_stopped : forall l t ph m t1 ph1 o,
  stopped_inv t ph m -> run l t ph = Some (t1, ph1, o) ->
  ~ In (O_sent SIGCONT) o -> ~ In O_failed o -> one_start m o = true ->
  ~ In O_trap o.
Proof.
  induction l as [|a l IH]; intros t ph m t1 ph1 o I E NC NF OS; cbn [run] in E.
  - injection E as <- <- <-. intros [].
  - destruct (step a t ph) as [[[t2 ph2] o2]|] eqn:S; [|discriminate].
    destruct (run l t2 ph2) as [[[t3 ph3] o3]|] eqn:RR; [|discriminate]. injection E as <- <- <-.
    rewrite one_start_app in OS. apply andb_true_iff in OS. destruct OS as [OS1 OS2].
    assert (NC2 : ~ In (O_sent SIGCONT) o2) by (intros X; apply NC; apply in_or_app; auto).
    assert (NC3 : ~ In (O_sent SIGCONT) o3) by (intros X; apply NC; apply in_or_app; auto).
    assert (NF2 : ~ In O_failed o2) by (intros X; apply NF; apply in_or_app; auto).
    assert (NF3 : ~ In O_failed o3) by (intros X; apply NF; apply in_or_app; auto).
    destruct (step_stopped _ _ _ _ _ _ _ I S NC2 NF2 OS1) as [A B].
    intros X. apply in_app_or in X. destruct X as [X|X]; [exact (A X)|]. exact (IH _ _ _ _ _ _ B RR NC3 NF3 OS2 X).
Qed.

(** ** Deciding the hypotheses of the theorems *)

Definition jc (g : Z) : bool := (g =? 5) || ((18 <=? g) && (g <=? 22)).
Lemma nj_check : forall t log,
  forallb (fun g => negb (jc g)) (k_pend t) = true ->
  forallb (fun o => match o with O_sent g => negb (jc g) | _ => true end) log = true ->
  no_job_control t log.
Proof.
  intros t log A B g I JC. assert (J : jc g = true) by (unfold jc, job_control in *; lia).
  rewrite forallb_forall in A, B. destruct I as [I|I].
  - specialize (A g I). rewrite J in A. discriminate.
  - specialize (B _ I). cbn in B. rewrite J in B. discriminate.
Qed.
Lemma und_check : forall log,
  forallb (fun o => match o with O_report g => (g =? 19) || (g =? 5) | O_failed => false | _ => true end) log = true ->
  undisturbed log.
Proof.
  intros log A. rewrite forallb_forall in A. split.
  - intros g I. specialize (A _ I). cbn in A. unfold SIGSTOP, SIGTRAP. lia.
  - intros I. specialize (A _ I). discriminate.
Qed.
