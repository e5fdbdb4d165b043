From Verif Require Import Base StrModel InsnQModel LibModel PtModel HjModel TrModel SecModel SecSpec.

(** ** The threads *)

Lemma kset_same t x ks : kset t x ks t = x.
Proof. unfold kset. rewrite Z.eqb_refl. reflexivity. Qed.
Lemma kset_other t u x ks : u <> t -> kset t x ks u = ks u.
Proof. intros H. unfold kset. destruct (Z.eqb_spec u t); [contradiction|reflexivity]. Qed.

Lemma attach_all tids : forall ks t,
  fold_left (fun k t => k_attach t k) tids ks t =
  match ks t with Free => if existsb (Z.eqb t) tids then Held false else Free | Held b => Held b end.
Proof.
  induction tids as [|u tids IH]; intros ks t; cbn [fold_left existsb].
  { destruct (ks t); reflexivity. }
  rewrite IH. unfold k_attach. destruct (Z.eqb_spec t u) as [->|N].
  - destruct (ks u) eqn:E; [rewrite kset_same|rewrite E]; reflexivity.
  - cbn [orb]. destruct (ks u); [rewrite kset_other by assumption|]; reflexivity.
Qed.

Lemma detach_all g tids : forall ks t,
  fold_left (fun k t => if (g t : bool) then k_detach t k else k) tids ks t =
  if existsb (Z.eqb t) tids && g t then Free else ks t.
Proof.
  induction tids as [|u tids IH]; intros ks t; cbn [fold_left existsb]; [reflexivity|].
  rewrite IH. unfold k_detach. destruct (Z.eqb_spec t u) as [->|N]; cbn [orb].
  - destruct (g u); [rewrite kset_same, !andb_true_r; destruct (existsb _ _)|rewrite !andb_false_r]; reflexivity.
  - destruct (g u); [rewrite kset_other by assumption|]; reflexivity.
Qed.

Lemma existsb_in t l : existsb (Z.eqb t) l = true <-> In t l.
Proof.
  rewrite existsb_exists. split; [intros (x & H & E); apply Z.eqb_eq in E; subst; exact H|intros H; exists t; split; [exact H|apply Z.eqb_refl]].
Qed.

(** The threads held during an attempt: those hijacked, the main one perhaps with its
    filter suspended. *)
Definition within (opt susp : bool) (main : Z) (a : sattempt) (ks : kst) : Prop :=
  forall t, ks t = (if existsb (Z.eqb t) (hijacked a) then Held (susp && (t =? main)) else Free).

Lemma hijack_ok opt main a ks tids : untouched ks -> sa_hijack a = HjOk tids ->
  within opt false main a (hijack_effect a ks).
Proof.
  intros H E t. unfold hijack_effect, hijacked. rewrite E, attach_all, H. reflexivity.
Qed.

Lemma restore_all opt susp main a ks : within opt susp main a ks -> forall t,
  restore_effect a ks t =
  if existsb (Z.eqb t) (hijacked a) && negb (sa_detach a t) then Held (susp && (t =? main)) else Free.
Proof.
  intros H t. unfold restore_effect. rewrite detach_all, H.
  destruct (existsb _ _); destruct (sa_detach a t); reflexivity.
Qed.

(** A routine is started as it should. *)
Definition start_ok (opt : bool) (main : Z) (s : start) : Prop :=
  st_main s = main /\
  match st_routine s with
  | R_revert_all => forall t, st_threads s t <> Held true
  | R_trigger => forall t, st_threads s t = Held true -> opt = true /\ t = main
  end.
(** ... and with the filter suspended if asked for. *)
Definition start_susp (opt : bool) (main : Z) (s : start) : Prop :=
  st_routine s = R_trigger -> opt = true -> st_threads s main = Held true.

Lemma within_none opt main a ks : within opt false main a ks -> forall t, ks t <> Held true.
Proof. intros H t. rewrite H. destruct (existsb _ _); [cbn [andb]|]; discriminate. Qed.

Lemma apply_within opt main a ks ks' s : within opt false main a ks -> apply_effect opt main a ks = (ks', s) ->
  exists susp, (susp = true -> opt = true) /\ within opt susp main a ks' /\
    Forall (start_ok opt main) s /\ (sa_debug a <> 0 -> Forall (start_susp opt main) s) /\
    (s <> [] -> opt = true -> sa_debug a <> 0 -> setopt_answer main a = 0).
Proof.
  intros H E. unfold apply_effect in E. destruct (sa_buffer a) eqn:B; cbn [negb] in E.
  2:{ injection E as <- <-. exists false. split; [discriminate|]. split; [exact H|]. split; [constructor|]. split; [constructor|]. intros X. contradiction X. reflexivity. }
  cbv zeta in E. unfold apply_start, disable_seccomp in E. rewrite B in E. cbn [negb] in E.
  destruct opt; cbn [andb] in E.
  2:{ injection E as <- <-. exists false. split; [discriminate|]. split; [exact H|].
      split; [|split; [|intros _ X; discriminate X]].
      - constructor; [|constructor]. split; [reflexivity|]. cbn [st_routine st_threads]. intros t X. apply (within_none _ _ _ _ H) in X. contradiction.
      - intros _. constructor; [|constructor]. intros _ X. discriminate X. }
  destruct (Z.eqb_spec (setopt_answer main a) 0) as [S0|S0]; cbn [negb] in E.
  - rewrite Z.eqb_refl in E. cbn [negb] in E. injection E as <- <-.
    assert (I : existsb (Z.eqb main) (hijacked a) = true).
    { unfold setopt_answer, ESRCH in S0. destruct (existsb _ _); [reflexivity|lia]. }
    assert (W : within true true main a (k_suspend main ks)).
    { intros t. unfold k_suspend. rewrite (H main), I. cbn [andb]. destruct (Z.eqb_spec t main) as [->|N].
      - rewrite kset_same, I. reflexivity.
      - rewrite kset_other by assumption. rewrite H. cbn [andb]. reflexivity. }
    exists true. split; [reflexivity|]. split; [exact W|]. split; [|split; [|auto]].
    + constructor; [|constructor]. split; [reflexivity|]. cbn [st_routine st_threads]. intros t X. split; [reflexivity|].
      rewrite W in X. destruct (existsb (Z.eqb t) (hijacked a)); [|discriminate X]. cbn [andb] in X. injection X as X. apply Z.eqb_eq. exact X.
    + intros _. constructor; [|constructor]. intros _ _. cbn [st_threads]. rewrite W, I, Z.eqb_refl. reflexivity.
  - destruct (Z.eqb_spec (sa_debug a) 0) as [D|D]; cbn [negb] in E; injection E as <- <-; exists false; (split; [discriminate|]); (split; [exact H|]).
    + split; [|split; [intros X; contradiction|intros _ _ X; contradiction]].
      constructor; [|constructor]. split; [reflexivity|]. cbn [st_routine st_threads]. intros t X. apply (within_none _ _ _ _ H) in X. contradiction.
    + split; [constructor|]. split; [constructor|]. intros X. contradiction X. reflexivity.
Qed.

Lemma revert_within opt main a ks ks' s : within opt false main a ks -> revert_effect main a ks = (ks', s) ->
  ks' = ks /\ Forall (start_ok opt main) s /\ Forall (start_susp opt main) s /\ Forall (fun x => st_routine x = R_revert_all) s.
Proof.
  intros H E. unfold revert_effect in E. destruct (sa_rbuf a); injection E as <- <-; (split; [reflexivity|]).
  - split; [|split].
    + constructor; [|constructor]. split; [reflexivity|]. cbn [st_routine st_threads]. exact (within_none _ _ _ _ H).
    + constructor; [|constructor]. intros X. discriminate X.
    + constructor; [reflexivity|constructor].
  - split; [constructor|]. split; constructor.
Qed.

(** ** Attempts *)

Definition no_hijack (ev : tev) : Prop := match ev with EvHijack _ => False | _ => True end.

Lemma replay_app opt main ans n : forall e1 e2 ks, Forall no_hijack e1 ->
  replay opt main ans n (e1 ++ e2) ks =
  (let '(k1, s1) := replay opt main ans n e1 ks in let '(k2, s2) := replay opt main ans n e2 k1 in (k2, s1 ++ s2)).
Proof.
  induction e1 as [|ev e1 IH]; intros e2 ks H.
  { cbn [app replay]. destruct (replay _ _ _ _ _ _). reflexivity. }
  inversion H as [|x y Hev He]; subst. cbn [app replay].
  assert (X : (match ev with EvHijack _ => S n | _ => n end) = n) by (destruct ev; [destruct Hev|reflexivity..]).
  cbv zeta. rewrite X. destruct (call_effect _ _ _ _ _) as [k1 s1]. rewrite IH by exact He.
  destruct (replay opt main ans n e1 k1) as [k2 s2]. destruct (replay opt main ans n e2 k2) as [k3 s3]. rewrite app_assoc. reflexivity.
Qed.

(** What one attempt is made of: the calls before restore_threads, the last of which
    is apply_patch if it is called at all. *)
Definition quiet (ev : tev) : Prop := match ev with EvRange _ | EvSleep => True | _ => False end.
Definition prefix_ok (pre : list tev) : Prop :=
  exists l1 l2, pre = l1 ++ l2 /\ Forall (fun ev => quiet ev \/ exists r, ev = EvRevert r) l1 /\ (l2 = [] \/ exists r, l2 = [EvApply r]).

Lemma one_attempt_shape q a result result1 stop evs : one_attempt q a result = (result1, stop, evs) ->
  exists pre suf, evs = pre ++ EvRestore (at_restore a) :: suf /\ prefix_ok pre /\ Forall quiet suf /\
    (stop = false -> at_restore a = 0) /\
    (forall r, In (EvApply r) pre -> result1 = at_apply a) /\
    (result1 = 0 -> result = 0 \/ q_revert q = true \/ In (EvApply 0) pre).
Proof.
  intros E. unfold one_attempt in E.
  assert (Q : forall ev, quiet ev -> quiet ev \/ exists r, ev = EvRevert r) by auto.
  destruct (q_stack q && negb (at_range a =? 0)) eqn:B1.
  { injection E as <- <- <-. exists [EvRange (at_range a)], (if result =? 0 then [] else [EvSleep]).
    split; [reflexivity|]. split.
    { exists [EvRange (at_range a)], []. split; [reflexivity|]. split; [repeat constructor|left; reflexivity]. }
    split; [destruct (result =? 0); repeat constructor|]. split; [cbn [orb]; intros X; destruct (Z.eqb_spec (at_restore a) 0); [assumption|discriminate X]|].
    split; [intros r [X|[]]; discriminate X|auto]. }
  set (ev0 := if q_stack q then [EvRange (at_range a)] else []) in E.
  assert (E0 : Forall quiet ev0) by (unfold ev0; destruct (q_stack q); repeat constructor).
  assert (N0 : forall r, ~ In (EvApply r) ev0) by (intros r X; rewrite Forall_forall in E0; apply E0 in X; destruct X).
  clearbody ev0.
  cbv zeta in E.
  set (mid := if q_revert q then _ else _) in E. destruct mid as [[[result2 stop2] skip] evs2] eqn:M.
  assert (M2 : evs2 = [] \/ exists r, evs2 = [EvRevert r]).
  { unfold mid in M. destruct (q_revert q); [|injection M as _ _ _ <-; auto].
    match type of M with context [if negb ?b then _ else _] => destruct (negb b) end; injection M as _ _ _ <-; eauto. }
  assert (M3 : q_revert q = true \/ result2 = result).
  { unfold mid in M. destruct (q_revert q); [auto|]. injection M as <- _ _ _. auto. }
  clearbody mid.
  assert (F2 : Forall (fun ev => quiet ev \/ exists r, ev = EvRevert r) (ev0 ++ evs2)).
  { apply Forall_app. split; [eapply Forall_impl; [exact Q|exact E0]|]. destruct M2 as [->|(r & ->)]; [constructor|]. constructor; [right; eauto|constructor]. }
  assert (N2 : forall r, ~ In (EvApply r) (ev0 ++ evs2)).
  { intros r X. rewrite Forall_forall in F2. apply F2 in X. destruct X as [[]|(x & X)]. discriminate X. }
  destruct (q_patch q && negb skip) eqn:B2; injection E as <- <- <-.
  - exists (ev0 ++ evs2 ++ [EvApply (at_apply a)]), (if at_apply a =? 0 then [] else [EvSleep]).
    split; [cbn [app]; reflexivity|]. split.
    { exists (ev0 ++ evs2), [EvApply (at_apply a)]. rewrite <- app_assoc. eauto. }
    split; [destruct (at_apply a =? 0); repeat constructor|]. split; [|split; [reflexivity|]].
    + intros X. apply orb_false_iff in X. destruct X as [_ X]. destruct (Z.eqb_spec (at_restore a) 0); [assumption|discriminate X].
    + intros X. right. right. rewrite X. rewrite !in_app_iff. right. right. left. reflexivity.
  - exists (ev0 ++ evs2), (if result2 =? 0 then [] else [EvSleep]).
    split; [reflexivity|]. split.
    { exists (ev0 ++ evs2), []. rewrite app_nil_r. auto. }
    split; [destruct (result2 =? 0); repeat constructor|]. split; [|split].
    + intros X. apply orb_false_iff in X. destruct X as [_ X]. destruct (Z.eqb_spec (at_restore a) 0); [assumption|discriminate X].
    + intros r X. apply N2 in X. contradiction.
    + intros X. destruct M3 as [M3|M3]; [auto|]. left. congruence.
Qed.

Lemma replay_quiet opt main ans n evs : forall ks, Forall quiet evs -> replay opt main ans n evs ks = (ks, []).
Proof.
  induction evs as [|ev evs IH]; intros ks H; [reflexivity|]. inversion H as [|x y Hq He]; subst. cbn [replay]. cbv zeta.
  destruct ev; try destruct Hq; cbn [call_effect]; rewrite IH by exact He; reflexivity.
Qed.

Lemma replay_reverts opt main ans n evs : forall ks,
  within opt false main (ans (pred n)) ks ->
  Forall (fun ev => quiet ev \/ exists r, ev = EvRevert r) evs ->
  exists s, replay opt main ans n evs ks = (ks, s) /\ Forall (start_ok opt main) s /\ Forall (start_susp opt main) s /\
    Forall (fun x => st_routine x = R_revert_all) s.
Proof.
  induction evs as [|ev evs IH]; intros ks W H; [exists []; repeat split; constructor|].
  inversion H as [|x y Hq He]; subst. destruct (IH ks W He) as (s & E & S1 & S2 & S3). cbn [replay]. cbv zeta.
  destruct Hq as [Hq|(r & ->)].
  - exists s. destruct ev; try destruct Hq; cbn [call_effect]; rewrite E; auto.
  - cbn [call_effect]. destruct (revert_effect main (ans (pred n)) ks) as [k1 s1] eqn:R.
    destruct (revert_within opt _ _ _ _ _ W R) as (-> & T1 & T2 & T3). rewrite E. exists (s1 ++ s). split; [reflexivity|].
    repeat split; apply Forall_app; auto.
Qed.

(** Everything about the starts and the threads after one attempt that got as far as
    stopping the process. *)
Lemma attempt_outcome opt main ans i q result result1 stop evs tids ks :
  untouched ks -> sa_hijack (ans i) = HjOk tids ->
  one_attempt q (attempt_of opt main (ans i)) result = (result1, stop, evs) ->
  exists ks' s, replay opt main ans (S i) evs (hijack_effect (ans i) ks) = (ks', s) /\
    Forall (start_ok opt main) s /\
    (sa_debug (ans i) <> 0 -> Forall (start_susp opt main) s) /\
    (sa_debug (ans i) <> 0 -> opt = true -> setopt_answer main (ans i) <> 0 -> Forall (fun x => st_routine x = R_revert_all) s) /\
    (forall t, ks' t = Held true -> opt = true /\ t = main) /\
    (forall t, ks' t <> Free -> In t tids /\ sa_detach (ans i) t = false) /\
    (stop = false -> untouched ks').
Proof.
  intros U Hj E. set (a := ans i) in *.
  pose proof (hijack_ok opt main a ks tids U Hj) as W. set (k0 := hijack_effect a ks) in *. clearbody k0.
  destruct (one_attempt_shape _ _ _ _ _ _ E) as (pre & suf & -> & (l1 & l2 & -> & F1 & F2) & F3 & Hstop & _ & _).
  assert (N1 : Forall no_hijack l1).
  { eapply Forall_impl; [|exact F1]. intros ev [X|(r & ->)]; [destruct ev; try destruct X|]; exact I. }
  assert (HR : hijacked a = tids) by (unfold hijacked; rewrite Hj; reflexivity).
  rewrite <- app_assoc. rewrite replay_app by exact N1.
  destruct (replay_reverts opt main ans (S i) l1 k0 W F1) as (s1 & R1 & S1 & S2 & S3). rewrite R1.
  assert (A : exists k2 s2 susp, replay opt main ans (S i) (l2 ++ EvRestore (at_restore (attempt_of opt main a)) :: suf) k0 = (restore_effect a k2, s2) /\
    within opt susp main a k2 /\ (susp = true -> opt = true) /\ Forall (start_ok opt main) s2 /\
    (sa_debug a <> 0 -> Forall (start_susp opt main) s2) /\ (s2 <> [] -> opt = true -> sa_debug a <> 0 -> setopt_answer main a = 0)).
  { destruct F2 as [->|(r & ->)].
    - cbn [app replay]. cbv zeta. cbn [call_effect pred]. rewrite replay_quiet by exact F3. exists k0, [], false.
      split; [reflexivity|]. split; [exact W|]. split; [discriminate|]. split; [constructor|]. split; [constructor|]. intros X. contradiction X. reflexivity.
    - cbn [app replay]. cbv zeta. cbn [call_effect pred]. fold a.
      destruct (apply_effect opt main a k0) as [k2 s2] eqn:EA. rewrite replay_quiet by exact F3.
      destruct (apply_within _ _ _ _ _ _ W EA) as (susp & X1 & X2 & X3 & X4 & X5).
      exists k2, s2, susp. cbn [app]. rewrite app_nil_r. auto 10. }
  destruct A as (k2 & s2 & susp & R2 & W2 & Hs & T1 & T2 & T3). rewrite R2.
  exists (restore_effect a k2), (s1 ++ s2). split; [reflexivity|].
  pose proof (restore_all _ _ _ _ _ W2) as RA. rewrite HR in RA.
  split; [apply Forall_app; auto|]. split; [intros D; apply Forall_app; auto|]. split.
  { intros D Ho Hn. apply Forall_app. split; [exact S3|]. destruct s2 as [|x s2]; [constructor|]. exfalso. apply Hn. apply T3; [discriminate|exact Ho|exact D]. }
  split; [|split].
  - intros t X. rewrite RA in X. destruct (existsb (Z.eqb t) tids && negb (sa_detach a t)); [|discriminate X]. injection X as X. apply andb_prop in X. destruct X as [X1 X2].
    split; [auto|apply Z.eqb_eq; exact X2].
  - intros t X. rewrite RA in X. destruct (existsb (Z.eqb t) tids) eqn:Ex; [|contradiction X; reflexivity]. cbn [andb] in X.
    destruct (sa_detach a t); [contradiction X; reflexivity|]. split; [apply existsb_in; exact Ex|reflexivity].
  - intros St t. specialize (Hstop St). unfold attempt_of, restore_answer in Hstop. cbn [at_restore] in Hstop. rewrite HR in Hstop.
    rewrite RA. destruct (existsb (Z.eqb t) tids) eqn:Ex; [|reflexivity]. cbn [andb].
    destruct (forallb _ tids) eqn:FA; [|discriminate Hstop]. rewrite forallb_forall in FA. apply existsb_in in Ex. apply FA in Ex.
    apply andb_prop in Ex. destruct Ex as [_ ->]. reflexivity.
Qed.

(** ** The retry loop *)

Definition process_ok (opt : bool) (main : Z) (ans : nat -> sattempt) (ks' : kst) (s : list start) : Prop :=
  Forall (start_ok opt main) s /\
  ((forall j, sa_debug (ans j) <> 0) -> Forall (start_susp opt main) s) /\
  ((forall j, sa_debug (ans j) <> 0 /\ setopt_answer main (ans j) <> 0) -> opt = true -> Forall (fun x => st_routine x = R_revert_all) s) /\
  (forall t, ks' t = Held true -> opt = true /\ t = main) /\
  (forall t, ks' t <> Free -> exists j, ~ detaches (ans j)) /\
  (forall t, ks' t = Held true -> exists j tids, sa_hijack (ans j) = HjOk tids /\ In main tids /\ sa_detach (ans j) main = false).

Lemma loop_outcome opt main ans q : forall retry i result ks r evs, untouched ks ->
  trigger_loop q (fun i => attempt_of opt main (ans i)) retry i result = (r, evs) ->
  exists ks' s, replay opt main ans i evs ks = (ks', s) /\ process_ok opt main ans ks' s.
Proof.
  induction retry as [|n IH]; intros i result ks r evs U E; cbn [trigger_loop] in E.
  { injection E as _ <-. exists ks, []. split; [reflexivity|]. repeat split; try constructor; intros; try (exfalso; rewrite U in *; (discriminate || contradiction)). }
  cbv zeta in E. cbn [attempt_of at_hijack] in E. destruct (sa_hijack (ans i)) as [tids|p kept] eqn:Hj.
  - change ((0 =? ETHRDDETTACH) || (0 <? 0)) with false in E. cbn iota in E.
    destruct (one_attempt q _ result) as [[result1 stop] evs1] eqn:E1.
    destruct (attempt_outcome opt main ans i q result result1 stop evs1 tids ks U Hj E1) as (k1 & s1 & R1 & A1 & A2 & A3 & A4 & A5 & A6).
    assert (N1 : Forall no_hijack evs1).
    { destruct (one_attempt_shape _ _ _ _ _ _ E1) as (pre & suf & -> & (l1 & l2 & -> & F1 & F2) & F3 & _).
      rewrite !Forall_app. split; [split|constructor; [exact I|]].
      - eapply Forall_impl; [|exact F1]. intros ev [X|(x & ->)]; [destruct ev; try destruct X|]; exact I.
      - destruct F2 as [->|(x & ->)]; repeat constructor.
      - eapply Forall_impl; [|exact F3]. intros ev X. destruct ev; try destruct X; exact I. }
    destruct stop.
    + injection E as _ <-. exists k1, s1. cbn [replay]. cbv zeta. cbn [call_effect pred]. rewrite app_nil_r, R1. split; [reflexivity|].
      split; [exact A1|]. split; [intros X; apply A2, X|]. split; [intros X Ho; apply A3; [apply X|exact Ho|apply X]|]. split; [exact A4|].
      split.
      * intros t X. apply A5 in X. destruct X as [X1 X2]. exists i. unfold detaches. rewrite Hj. intros D. rewrite (D t X1) in X2. discriminate X2.
      * intros t X. destruct (A4 t X) as [_ ->]. exists i, tids. split; [exact Hj|]. apply A5. rewrite X. discriminate.
    + destruct (trigger_loop q _ n (S i) result1) as [r2 rest] eqn:E2. injection E as _ <-.
      destruct (IH (S i) result1 k1 r2 rest (A6 eq_refl) E2) as (k2 & s2 & R2 & B1 & B2 & B3 & B4 & B5 & B6).
      exists k2, (s1 ++ s2). cbn [replay]. cbv zeta. cbn [call_effect pred]. rewrite replay_app by exact N1. rewrite R1, R2. split; [reflexivity|].
      split; [apply Forall_app; auto|]. split; [intros X; apply Forall_app; split; [apply A2, X|apply B2, X]|].
      split; [intros X Ho; apply Forall_app; split; [apply A3; [apply X|exact Ho|apply X]|apply B3; assumption]|]. auto.
  - assert (X : (Z.pos p =? ETHRDDETTACH) || (0 <? Z.pos p) = true) by (apply orb_true_iff; right; apply Z.ltb_lt; lia).
    rewrite X in E. injection E as _ <-. exists (hijack_effect (ans i) ks), []. split; [reflexivity|].
    assert (K : forall t, hijack_effect (ans i) ks t = if existsb (Z.eqb t) kept then Held false else Free).
    { intros t. unfold hijack_effect. rewrite Hj, attach_all, U. reflexivity. }
    split; [constructor|]. split; [constructor|]. split; [constructor|]. split; [|split].
    + intros t Y. rewrite K in Y. destruct (existsb (Z.eqb t) kept); discriminate Y.
    + intros t Y. exists i. unfold detaches. rewrite Hj. intros ->. rewrite K in Y. contradiction Y. reflexivity.
    + intros t Y. rewrite K in Y. destruct (existsb (Z.eqb t) kept); discriminate Y.
Qed.

Lemma process_outcome opt r ks res ks' s : untouched ks -> trigger_process opt r ks = (res, ks', s) ->
  process_ok opt (pr_main r) (pr_ans r) ks' s.
Proof.
  intros U E. unfold trigger_process in E.
  destruct (trigger_one_process _ _ _ _) as [res0 evs] eqn:E1. unfold trigger_one_process in E1.
  assert (P0 : process_ok opt (pr_main r) (pr_ans r) ks []).
  { repeat split; try constructor; intros; exfalso; rewrite U in *; (discriminate || contradiction). }
  destruct (p_compatible (pr_pre r)); cbn [negb] in E1; [|injection E1 as _ <-; injection E as _ <- <-; exact P0].
  destruct (q_patch (pr_req r) && negb (p_metadata (pr_pre r))); [injection E1 as _ <-; injection E as _ <- <-; exact P0|].
  destruct (q_patch (pr_req r) && negb (p_load (pr_pre r) =? 0)); [injection E1 as _ <-; injection E as _ <- <-; exact P0|].
  destruct (q_patch (pr_req r) && negb (p_sanity (pr_pre r) =? 0)); [injection E1 as _ <-; injection E as _ <- <-; exact P0|].
  destruct (trigger_loop _ _ _ _ _) as [x evs1] eqn:E2.
  destruct (loop_outcome _ _ _ _ _ _ _ ks _ _ U E2) as (k & s1 & R & OK).
  assert (evs = evs1) by (destruct x; injection E1; auto). subst evs1. rewrite R in E. injection E as _ <- <-. exact OK.
Qed.

(** A livepatch whose application always ends before libpulp is asked is not reported
    as applied. *)
Lemma loop_result opt main ans q : q_revert q = false ->
  (forall j, apply_answer opt main (ans j) <> 0) -> forall retry i result r evs, result <> 0 ->
  trigger_loop q (fun i => attempt_of opt main (ans i)) retry i result = (r, evs) ->
  r <> inl 0 /\ r <> inr 0.
Proof.
  intros Q A. induction retry as [|n IH]; intros i result r evs Hr E; cbn [trigger_loop] in E.
  { injection E as <- _. split; [discriminate|]. intros X. injection X as X. contradiction. }
  cbv zeta in E. cbn [attempt_of at_hijack] in E. destruct (sa_hijack (ans i)) as [tids|p kept] eqn:Hj.
  - change ((0 =? ETHRDDETTACH) || (0 <? 0)) with false in E. cbn iota in E.
    destruct (one_attempt q _ result) as [[result1 stop] evs1] eqn:E1.
    destruct (one_attempt_shape _ _ _ _ _ _ E1) as (pre & suf & _ & _ & _ & _ & S1 & S2).
    assert (R1 : result1 <> 0).
    { intros X. destruct (S2 X) as [Y|[Y|Y]]; [contradiction|congruence|]. apply S1 in Y. cbn [attempt_of at_apply] in Y. apply (A i). congruence. }
    destruct stop.
    + injection E as <- _. split; [discriminate|]. intros X. injection X as X. contradiction.
    + destruct (trigger_loop q _ n (S i) result1) as [r2 rest] eqn:E2. injection E as <- _. eapply IH; [exact R1|exact E2].
  - assert (X : (Z.pos p =? ETHRDDETTACH) || (0 <? Z.pos p) = true) by (apply orb_true_iff; right; apply Z.ltb_lt; lia).
    rewrite X in E. injection E as <- _. split; discriminate.
Qed.
