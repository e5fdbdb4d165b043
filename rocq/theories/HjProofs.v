(** Proofs about HjModel. *)
From Coq Require Import Permutation.
From Verif Require Import Base BaseFacts PtModel HjModel HjSpec.

Record hinv (s : hstate) : Prop := mk_hinv {
  i_nd : NoDup (tids s);
  i_kn : NoDup (h_known s);
  i_known : forall t, In t (h_known s) -> In (t, TStopped) (h_threads s);
  i_att : forall t st, In (t, st) (h_threads s) -> st <> TRun ->
            In t (h_known s) \/ h_phase s = HAttach t \/ h_dfail s = true;
  i_pend : forall t, h_phase s = HAttach t -> ~ In t (h_known s);
  i_cur : (h_cur s <= length (h_threads s))%nat;
  i_scan : h_phase s = HScan \/ (exists t, h_phase s = HAttach t) ->
            h_loop s = true \/ forall t, In t (firstn (h_cur s) (tids s)) -> In t (h_known s) \/ In t (h_buf s);
  i_attl : forall t, h_phase s = HAttach t -> h_loop s = true;
  i_end : h_phase s = HPassEnd -> h_loop s = true \/ forall t, In t (tids s) -> In t (h_known s);
  i_succ : h_phase s = HSuccess -> forall t, In t (tids s) -> In t (h_known s);
  i_fatal : h_fatal s = true -> h_dfail s = true;
  i_failed : forall c, h_phase s = HFailed c -> h_known s = [] /\ c = if h_fatal s then ETHRDDETTACH else ETHRDATTACH
}.

Lemma state_unique (l : list (Z * tstate)) t a b :
  NoDup (map fst l) -> In (t, a) l -> In (t, b) l -> a = b.
Proof.
  induction l as [|x l IH]; intros N A B; [contradiction|]. cbn in N. inversion N as [|? ? NI N']; subst.
  destruct A as [->|A], B as [E|B].
  - congruence.
  - exfalso. apply NI. apply (in_map fst) in B. exact B.
  - exfalso. apply NI. subst x. apply (in_map fst) in A. exact A.
  - apply IH; assumption.
Qed.

Lemma in_mid {A} (x : A) l1 l2 : In x (l1 ++ x :: l2).
Proof. apply in_or_app. right. left. reflexivity. Qed.

Lemma in_rem {A} (x y : A) l1 l2 : In y (l1 ++ l2) -> In y (l1 ++ x :: l2).
Proof. intros H. apply in_app_or in H. apply in_or_app. cbn. tauto. Qed.

Lemma in_swap {A B} (x : A) (a b : B) y l1 l2 : In (y, a) (l1 ++ (x, b) :: l2) -> y <> x -> forall c, In (y, a) (l1 ++ (x, c) :: l2).
Proof.
  intros H N c. apply in_app_or in H. apply in_or_app. cbn in *. destruct H as [H|[H|H]]; auto.
  injection H as E _. congruence.
Qed.

(** Nobody acts when everybody is known. *)
Lemma nobody s l1 tid t l2 : hinv s -> (forall t, In t (tids s) -> In t (h_known s)) ->
  h_threads s = l1 ++ (tid, t) :: l2 -> active t -> False.
Proof.
  intros I ALL E AC. apply AC. apply (state_unique (h_threads s) tid); [apply I|rewrite E; apply in_mid|].
  apply (i_known s I). apply ALL. unfold tids. rewrite E. apply (in_map fst) with (x := (tid, t)). apply in_mid.
Qed.

Lemma firstn_app_le {A} (l l2 : list A) n : (n <= length l)%nat -> firstn n (l ++ l2) = firstn n l.
Proof. intros H. rewrite firstn_app. replace (n - length l)%nat with O by lia. cbn. apply app_nil_r. Qed.

Lemma inv_init l : NoDup l -> hinv (h_init l).
Proof.
  intros N. constructor; cbn [h_init h_threads h_cur h_buf h_known h_loop h_fatal h_dfail h_phase].
  - unfold tids. cbn. rewrite map_map. cbn. rewrite map_id. exact N.
  - constructor.
  - contradiction.
  - intros t st I NR. apply in_map_iff in I. destruct I as (x & E & _). injection E as _ <-. contradiction.
  - discriminate.
  - lia.
  - intros _. right. contradiction.
  - discriminate.
  - discriminate.
  - discriminate.
  - discriminate.
  - discriminate.
Qed.

Lemma mid_same_tids (l1 l2 : list (Z * tstate)) tid a b :
  map fst (l1 ++ (tid, a) :: l2) = map fst (l1 ++ (tid, b) :: l2).
Proof. rewrite !map_app. reflexivity. Qed.

(** Changing the state of one thread that is not on the list. *)
Lemma known_mid s l1 l2 tid a b : hinv s -> h_threads s = l1 ++ (tid, a) :: l2 -> ~ In tid (h_known s) ->
  forall t, In t (h_known s) -> In (t, TStopped) (l1 ++ (tid, b) :: l2).
Proof.
  intros I E NI t K. eapply in_swap; [rewrite <- E; apply (i_known s I t K)|]. intros ->. contradiction.
Qed.

Lemma active_not_known s l1 l2 tid a : hinv s -> h_threads s = l1 ++ (tid, a) :: l2 -> active a -> ~ In tid (h_known s).
Proof.
  intros I E AC K. apply AC. apply (state_unique (h_threads s) tid); [apply I|rewrite E; apply in_mid|].
  apply (i_known s I tid K).
Qed.

Ltac prj := cbn [h_threads h_cur h_buf h_known h_loop h_fatal h_dfail h_phase set_threads set_phase].

Lemma inv_step s s' : hinv s -> hstep Plain s s' -> hinv s'.
Proof.
  intros I ST. destruct ST as
    [s l1 tid t l2 new E AC PN NI | s l1 tid t l2 E AC | s l1 tid t l2 Q E AC C | s l1 tid t l2 pid t0 l3 Q E AC E2
    | s l1 tid l2 E | s l1 tid t l2 P E C | s tid rest P B K | s tid rest l1 l2 P B K E
    | s tid rest P B K | s tid l1 l2 P E | s tid P E | s tid P | s tid l1 l2 P E | s tid P
    | s P | s P B C | s P L | s P L | s tid rest P K | s tid rest P K | s P K]; try discriminate.
  - (* clone *)
    constructor; prj; unfold tids in *; prj.
    + rewrite map_app. cbn. 
      apply (Permutation_NoDup (l := new :: map fst (h_threads s))).
      * apply Permutation_cons_append.
      * constructor; [exact NI|apply I].
    + apply I.
    + intros t' K. apply in_or_app. left. apply (i_known s I t' K).
    + intros t' st IN NR. apply in_app_or in IN. destruct IN as [IN|[IN|[]]]; [apply (i_att s I t' st IN NR)|].
      injection IN as _ <-. contradiction.
    + apply I.
    + rewrite app_length. pose proof (i_cur s I). lia.
    + intros PH. rewrite map_app. rewrite firstn_app_le by (rewrite map_length; apply I). apply (i_scan s I PH).
    + apply I.
    + intros PH. destruct (i_end s I PH) as [L|ALL]; [left; exact L|]. exfalso. eapply nobody; eauto.
    + intros PH. exfalso. eapply nobody; eauto. apply (i_succ s I PH).
    + apply I.
    + apply I.
  - (* exit *)
    pose proof (active_not_known s l1 l2 tid t I E AC) as NK.
    pose proof (i_nd s I) as ND. unfold tids in ND. rewrite E, map_app in ND. cbn in ND.
    constructor; prj; unfold tids in *; prj.
    + rewrite map_app. apply NoDup_remove_1 in ND. exact ND.
    + apply I.
    + intros t' K. pose proof (i_known s I t' K) as IN. rewrite E in IN. apply in_app_or in IN. apply in_or_app.
      destruct IN as [IN|[IN|IN]]; auto. injection IN as -> _. contradiction.
    + intros t' st IN NR. apply (i_att s I t' st); [|exact NR]. rewrite E. apply in_rem. exact IN.
    + apply I.
    + pose proof (i_cur s I) as C. rewrite E in C. rewrite app_length in *. cbn in C.
      destruct (Nat.ltb_spec (length l1) (h_cur s)); lia.
    + intros PH. destruct (i_scan s I PH) as [L|SC]; [left; exact L|right].
      intros t' IN. apply SC. unfold tids. rewrite E. rewrite map_app in *. cbn.
      destruct (Nat.ltb_spec (length l1) (h_cur s)) as [LT|GE].
      * rewrite firstn_app in IN. rewrite firstn_app. rewrite map_length in *.
        rewrite firstn_all2 in IN by (rewrite map_length; lia). rewrite firstn_all2 by (rewrite map_length; lia).
        apply in_app_or in IN. apply in_or_app. destruct IN as [IN|IN]; [left; exact IN|right].
        replace (h_cur s - length l1)%nat with (S (h_cur s - 1 - length l1)) by lia. cbn. right. exact IN.
      * rewrite firstn_app_le by (rewrite map_length; lia). rewrite firstn_app_le in IN by (rewrite map_length; lia). exact IN.
    + apply I.
    + intros PH. destruct (i_end s I PH) as [L|ALL]; [left; exact L|]. exfalso. eapply nobody; eauto.
    + intros PH. exfalso. eapply nobody; eauto. apply (i_succ s I PH).
    + apply I.
    + apply I.
  - (* stop *)
    assert (AC : active TAttaching) by (unfold active; discriminate).
    pose proof (active_not_known s l1 l2 tid _ I E AC) as NK.
    pose proof (mid_same_tids l1 l2 tid TAttaching TStopped) as MT.
    constructor; prj; unfold tids in *; prj; rewrite <- ?MT, <- ?E.
    + apply I.
    + apply I.
    + eapply known_mid; eauto.
    + intros t' st IN NR. destruct (Z.eq_dec t' tid) as [->|NE].
      * apply (i_att s I tid TAttaching); [rewrite E; apply in_mid|discriminate].
      * apply (i_att s I t' st); [|exact NR]. rewrite E. eapply in_swap; eauto.
    + apply I.
    + pose proof (i_cur s I) as C. rewrite E in C. rewrite app_length in *. cbn in *. lia.
    + apply I.
    + apply I.
    + apply I.
    + apply I.
    + apply I.
    + apply I.
  - (* deliver *)
    constructor; prj; unfold tids in *; prj; try apply I; try discriminate.
    + intros t' st IN NR. destruct (i_att s I t' st IN NR) as [A|[A|A]]; auto. congruence.
    + rewrite E, app_length. cbn. lia.
    + intros _. destruct (i_scan s I (or_introl P)) as [L|SC]; [left; exact L|right].
      intros t' IN. rewrite E, map_app in IN. cbn in IN. rewrite C in IN.
      assert (ML : length (map fst l1) = length l1) by apply map_length.
      rewrite firstn_app, firstn_all2 in IN by lia. rewrite ML in IN.
      replace (length l1 + 1 - length l1)%nat with 1%nat in IN by lia. cbn in IN.
      apply in_app_or in IN. destruct IN as [IN|[<-|[]]].
      * destruct (SC t') as [K|B]; [|left; exact K|right; apply in_or_app; left; exact B].
        unfold tids. rewrite E, map_app, C. rewrite <- ML. rewrite firstn_app_exact. exact IN.
      * right. apply in_or_app. right. left. reflexivity.
  - (* known *)
    constructor; prj; unfold tids in *; prj; try apply I; try discriminate.
    + intros t' st IN NR. destruct (i_att s I t' st IN NR) as [A|[A|A]]; auto. congruence.
    + intros _. destruct (i_scan s I (or_introl P)) as [L|SC]; [left; exact L|right].
      intros t' IN. destruct (SC t' IN) as [A|A]; [left; exact A|]. rewrite B in A. destruct A as [<-|A]; auto.
  - (* attach *)
    assert (AC : active TRun) by (unfold active; discriminate).
    pose proof (mid_same_tids l1 l2 tid TRun TAttaching) as MT.
    constructor; prj; unfold tids in *; prj; rewrite <- ?MT, <- ?E; try apply I; try discriminate.
    + eapply known_mid; eauto.
    + intros t' st IN NR. destruct (Z.eq_dec t' tid) as [->|NE]; [right; left; reflexivity|].
      destruct (i_att s I t' st) as [A|[A|A]]; auto; [|congruence]. rewrite E. eapply in_swap; eauto.
    + intros t' H. injection H as <-. exact K.
    + pose proof (i_cur s I) as C. rewrite E in C. rewrite app_length in *. cbn in *. lia.
    + intros _. left. reflexivity.
    + intros. reflexivity.
  - (* attach refused *)
    constructor; prj; unfold tids in *; prj; try apply I; try discriminate.
    + intros t' st IN NR. destruct (i_att s I t' st IN NR) as [A|[A|A]]; auto. congruence.
    + intros [H|(? & H)]; discriminate.
  - (* attached *)
    pose proof (i_pend s I tid P) as NK.
    constructor; prj; unfold tids in *; prj; try apply I; try discriminate.
    + constructor; [exact NK|apply I].
    + intros t' [<-|K]; [rewrite E; apply in_mid|apply (i_known s I t' K)].
    + intros t' st IN NR. destruct (i_att s I t' st IN NR) as [A|[A|A]]; [left; right; exact A|left; left; congruence|auto].
    + intros _. left. apply (i_attl s I tid P).
  - (* gone *)
    constructor; prj; unfold tids in *; prj; try apply I; try discriminate.
    + intros t' st IN NR. destruct (i_att s I t' st IN NR) as [A|[A|A]]; auto.
      exfalso. apply NR. apply E. assert (tid = t') by congruence. subst. exact IN.
    + intros [H|(? & H)]; discriminate.
  - (* waitpid error *)
    constructor; prj; unfold tids in *; prj; try apply I; try discriminate; auto.
    + intros [H|(? & H)]; discriminate.
  - (* getregs error, detached *)
    assert (NK : ~ In tid (h_known s)) by (apply (i_pend s I tid P)).
    pose proof (mid_same_tids l1 l2 tid TStopped TRun) as MT.
    constructor; prj; unfold tids in *; prj; rewrite <- ?MT, <- ?E; try apply I; try discriminate.
    + eapply known_mid; eauto.
    + intros t' st IN NR. destruct (Z.eq_dec t' tid) as [->|NE].
      * exfalso. apply NR. apply (state_unique (l1 ++ (tid, TRun) :: l2) tid); [|exact IN|apply in_mid].
        rewrite <- MT, <- E. apply I.
      * destruct (i_att s I t' st) as [A|[A|A]]; auto; [|congruence]. rewrite E. eapply in_swap; eauto.
    + pose proof (i_cur s I) as C. rewrite E in C. rewrite app_length in *. cbn in *. lia.
    + intros [H|(? & H)]; discriminate.
  - (* getregs error, detach error *)
    constructor; prj; unfold tids in *; prj; try apply I; try discriminate; auto.
    + intros [H|(? & H)]; discriminate.
  - (* readdir error *)
    constructor; prj; unfold tids in *; prj; try apply I; try discriminate.
    + intros t' st IN NR. destruct (i_att s I t' st IN NR) as [A|[A|A]]; auto. congruence.
    + intros [H|(? & H)]; discriminate.
  - (* eof *)
    constructor; prj; unfold tids in *; prj; try apply I; try discriminate.
    + intros t' st IN NR. destruct (i_att s I t' st IN NR) as [A|[A|A]]; auto. congruence.
    + intros [H|(? & H)]; discriminate.
    + intros _. destruct (i_scan s I (or_introl P)) as [L|SC]; [left; exact L|right].
      intros t' IN. destruct (SC t') as [K|X]; [|exact K|rewrite B in X; contradiction].
      rewrite firstn_all2 by (unfold tids; rewrite map_length; exact C). exact IN.
  - (* again *)
    constructor; prj; unfold tids in *; prj; try apply I; try discriminate; try lia.
    + intros t' st IN NR. destruct (i_att s I t' st IN NR) as [A|[A|A]]; auto. congruence.
    + intros _. right. contradiction.
  - (* success *)
    constructor; prj; unfold tids in *; prj; try apply I; try discriminate.
    + intros t' st IN NR. destruct (i_att s I t' st IN NR) as [A|[A|A]]; auto. congruence.
    + intros [H|(? & H)]; discriminate.
    + intros _. destruct (i_end s I P) as [X|ALL]; [congruence|exact ALL].
  - (* release *)
    pose proof (i_kn s I) as KN. rewrite K in KN. inversion KN as [|? ? NIR KN']; subst.
    assert (ST : map fst (set_tstate tid TRun (h_threads s)) = map fst (h_threads s)).
    { unfold set_tstate. rewrite map_map. apply map_ext. intros [a b]. cbn. destruct (Z.eqb_spec a tid); cbn; congruence. }
    constructor; prj; unfold tids in *; prj; rewrite ?ST; try apply I; try discriminate.
    + exact KN'.
    + intros t' IN. pose proof (i_known s I t' ltac:(rewrite K; right; exact IN)) as X.
      unfold set_tstate. apply in_map_iff. exists (t', TStopped). split; [|exact X]. cbn.
      destruct (Z.eqb_spec t' tid); [subst; contradiction|reflexivity].
    + intros t' st IN NR. unfold set_tstate in IN. apply in_map_iff in IN. destruct IN as ([a b] & X & IN). cbn in X.
      destruct (Z.eqb_spec a tid); injection X as <- <-; [contradiction|].
      destruct (i_att s I a b IN NR) as [A|[A|A]]; auto; [|congruence]. rewrite K in A. destruct A as [A|A]; [congruence|auto].
    + unfold set_tstate. rewrite map_length. apply I.
    + intros [H|(? & H)]; discriminate.
  - (* release refused *)
    pose proof (i_kn s I) as KN. rewrite K in KN. inversion KN as [|? ? NIR KN']; subst.
    constructor; prj; unfold tids in *; prj; try apply I; try discriminate; auto.
    + intros t' IN. apply (i_known s I t'). rewrite K. right. exact IN.
    + intros [H|(? & H)]; discriminate.
  - (* failed *)
    constructor; prj; unfold tids in *; prj; try apply I; try discriminate.
    + intros t' st IN NR. destruct (i_att s I t' st IN NR) as [A|[A|A]]; auto. congruence.
    + intros [H|(? & H)]; discriminate.
    + intros c H. injection H as <-. auto.
Qed.

Lemma inv_steps s s' : hinv s -> hsteps Plain s s' -> hinv s'.
Proof.
  intros I ST. induction ST as [s|s1 s2 s3 A IH B]; [exact I|]. eapply inv_step; [apply IH; exact I|exact B].
Qed.
