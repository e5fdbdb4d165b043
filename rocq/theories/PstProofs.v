(** Proofs for C96. *)
From Coq Require Import Bool Lia.
From Verif Require Import Base BaseFacts PpcSpec PtrModel PtrSpec PtrProofs PstModel PstSpec.

(** ** Threads *)
Lemma get_set_same t th l : get_thread t l <> None -> get_thread t (set_thread t th l) = Some th.
Proof.
  induction l as [|[u x] r IH]; cbn [get_thread set_thread]; intros H; [contradiction|].
  destruct (Z.eqb_spec u t) as [E|E]; cbn [get_thread].
  - destruct (Z.eqb_spec u t); [reflexivity|contradiction].
  - destruct (Z.eqb_spec u t); [contradiction|]. apply IH. exact H.
Qed.
Lemma get_set_other t u th l : u <> t -> get_thread u (set_thread t th l) = get_thread u l.
Proof.
  intros N. induction l as [|[v x] r IH]; [reflexivity|]. cbn [get_thread set_thread].
  destruct (Z.eqb_spec v t) as [E|E]; cbn [get_thread]; destruct (Z.eqb_spec v u); congruence.
Qed.
Lemma get_del_same t l : get_thread t (del_thread t l) = None.
Proof.
  induction l as [|[v x] r IH]; [reflexivity|]. unfold del_thread. cbn [filter fst].
  destruct (Z.eqb_spec v t); cbn [negb]; [exact IH|]. cbn [get_thread].
  destruct (Z.eqb_spec v t); [contradiction|]. exact IH.
Qed.
Lemma get_del_other t u l : u <> t -> get_thread u (del_thread t l) = get_thread u l.
Proof.
  intros N. induction l as [|[v x] r IH]; [reflexivity|]. unfold del_thread. cbn [filter fst get_thread].
  destruct (Z.eqb_spec v t); cbn [negb]; cbn [get_thread]; destruct (Z.eqb_spec v u); try congruence; exact IH.
Qed.

(** ** Mappings *)
Fixpoint maps_ok (l : maps) : Prop :=
  match l with
  | [] => True
  | x :: t => (0 < fst x /\ 0 < snd x) /\ (forall y, In y t -> apart x y) /\ maps_ok t
  end.

Lemma map_eqb_eq x y : map_eqb x y = true <-> x = y.
Proof.
  destruct x as [a n], y as [b k]. unfold map_eqb. cbn [fst snd]. rewrite andb_true_iff, !Z.eqb_eq.
  split; [intros [-> ->]; reflexivity|intros E; injection E as -> ->; auto].
Qed.
Lemma maps_ok_in l x : maps_ok l -> In x l -> 0 < fst x /\ 0 < snd x.
Proof. induction l as [|y t IH]; cbn [maps_ok In]; [tauto|]. intros (A & B & C) [<-|H]; auto. Qed.
Lemma apart_neq x y : 0 < snd x -> 0 < snd y -> apart x y -> fst x <> fst y.
Proof. unfold apart, disjoint. lia. Qed.
Lemma maps_apart l x y : maps_ok l -> In x l -> In y l -> x = y \/ apart x y.
Proof.
  induction l as [|z t IH]; cbn [maps_ok In]; [tauto|]. intros (A & B & C) [<-|Hx] [<-|Hy]; auto.
  right. specialize (B x Hx). unfold apart, disjoint in *. lia.
Qed.
Lemma maps_same l x y : maps_ok l -> In x l -> In y l -> fst x = fst y -> x = y.
Proof.
  intros H Hx Hy E. destruct (maps_apart l x y H Hx Hy) as [|A]; [assumption|].
  apply apart_neq in A; [contradiction|eapply maps_ok_in; eauto|eapply maps_ok_in; eauto].
Qed.

Lemma munmap_ok l x : maps_ok l -> In x l ->
  exists l', munmap (fst x) (snd x) l = Some l' /\ without x l l' /\ maps_ok l' /\ (forall y, In y l' <-> In y l /\ y <> x).
Proof.
  induction l as [|z t IH]; cbn [maps_ok In munmap]; [tauto|]. intros (A & B & C) H.
  destruct (map_eqb z (fst x, snd x)) eqn:E.
  - apply map_eqb_eq in E. assert (Ez : z = x) by (rewrite E; destruct x; reflexivity). clear E. subst z.
    exists t. split; [reflexivity|]. split; [exists [], t; auto|]. split; [exact C|].
    intros y. split.
    + intros Hy. split; [auto|]. intros ->. specialize (B x Hy). apply apart_neq in B; tauto.
    + intros [[<-|Hy] N]; [contradiction|exact Hy].
  - assert (N : z <> x) by (intros ->; rewrite (proj2 (map_eqb_eq x (fst x, snd x))) in E; [discriminate|destruct x; reflexivity]).
    destruct H as [H|H]; [contradiction|]. destruct (IH C H) as (l' & E1 & (a & b & W1 & W2) & O & I).
    rewrite E1. exists (z :: l'). split; [reflexivity|]. split; [|split].
    + exists (z :: a), b. subst. auto.
    + cbn [maps_ok]. split; [exact A|]. split; [|exact O]. intros y Hy. apply B. apply I. exact Hy.
    + intros y. cbn [In]. rewrite I. split; [intros [<-|[P Q]]; auto|intros [[<-|P] Q]; auto].
Qed.

Lemma without_len x l l' : without x l l' -> zlen l = zlen l' + 1.
Proof. intros (a & b & -> & ->). rewrite !zlen_app, zlen_cons. lia. Qed.

(** ** Events *)
Lemma life_app main evs ev t : life main (evs ++ [ev]) t = life_step t (life main evs t) ev.
Proof. unfold life. rewrite fold_left_app. reflexivity. Qed.

Lemma users_from_app main a b c : users_from main a (b ++ c) = users_from main a b + users_from main (a ++ b) c.
Proof.
  revert a. induction b as [|ev b IH]; intros a; cbn [app users_from]; [rewrite app_nil_r; lia|].
  rewrite IH, <- app_assoc. cbn [app]. lia.
Qed.
Lemma users_app main evs ev : users main (evs ++ [ev]) = users main evs +
  match ev with
  | T_call t _ => match life main evs t with Some (_, m) => if m =? 0 then 1 else 0 | None => 0 end
  | _ => 0
  end.
Proof. unfold users. rewrite users_from_app. cbn [users_from app]. lia. Qed.

(** A thread and what it has done. *)
Definition thread_ok (page : Z) (l : maps) (th : option thread) (x : option (Z * Z)) : Prop :=
  match th, x with
  | None, None => True
  | Some th, Some (d, m) =>
      let s := th_side th in
      th_value th = 0 /\ 0 <= d <= m /\ sd_used s = 16 * d /\
      ((m = 0 /\ sd_ptr s = 0 /\ sd_real s = 0) \/
       (0 < m /\ 0 < sd_ptr s /\ In (sd_ptr s, sd_real s) l /\ (16 | sd_real s) /\ 16 * m <= sd_real s /\
        sd_real s <= 2 * (16 * (m - 1) + page) /\ sd_ptr s + sd_real s < 2 ^ 62))
  | _, _ => False
  end.

Record pinv (main page : Z) (evs : list pev) (p : pproc) : Prop := {
  pi_maps : maps_ok (pp_maps p);
  pi_thread : forall t, thread_ok page (pp_maps p) (get_thread t (pp_threads p)) (life main evs t);
  pi_apart : forall t u th uh, t <> u -> get_thread t (pp_threads p) = Some th -> get_thread u (pp_threads p) = Some uh ->
    sd_ptr (th_side th) <> 0 -> sd_ptr (th_side uh) <> 0 -> sd_ptr (th_side th) <> sd_ptr (th_side uh);
  pi_count : zlen (pp_maps p) = users main evs
}.

Lemma thread_ok_maps page l l' th x :
  thread_ok page l th x ->
  (forall a n, In (a, n) l -> match th with Some th => a = sd_ptr (th_side th) -> n = sd_real (th_side th) -> In (a, n) l' | None => True end) ->
  thread_ok page l' th x.
Proof.
  unfold thread_ok. destruct th as [th|]; [|auto]. destruct x as [[d m]|]; [|auto]. intros (A & B & C & D) H.
  split; [exact A|]. split; [exact B|]. split; [exact C|]. destruct D as [D|(D1 & D2 & D3 & D4)]; [left; exact D|right].
  split; [exact D1|]. split; [exact D2|]. split; [|exact D4]. apply H; auto.
Qed.

Lemma pinv_start main page : pinv main page [] (pproc0 main).
Proof.
  constructor; cbn [pproc0 pp_maps pp_threads].
  - exact I.
  - intros t. cbn [get_thread]. unfold life. cbn [fold_left]. destruct (Z.eqb_spec main t); [|exact I].
    cbn. repeat split; try lia.
  - intros t u th uh N. cbn [get_thread]. destruct (Z.eqb_spec main t); [|discriminate]. destruct (Z.eqb_spec main u); congruence.
  - reflexivity.
Qed.

Lemma u64_small v : 0 <= v < 2 ^ 64 -> u64 v = v.
Proof. intros H. apply Z.mod_small. exact H. Qed.

(** What a call does to the thread that makes it. *)
Lemma enter_ok page ans th l d m : page_ok page -> maps_ok l ->
  thread_ok page l (Some th) (Some (d, m)) ->
  (sd_real (th_side th) <= sd_used (th_side th) ->
   match ans with
   | Some a => 0 < a /\ a + 2 * (sd_real (th_side th) + page) < 2 ^ 62 /\
               forall x, In x l -> apart (a, 2 * (sd_real (th_side th) + page)) x
   | None => True
   end) ->
  (exists s l', enter_call page ans (th_side th) l = Going (s, l') /\
     maps_ok l' /\ thread_ok page l' (Some (mk_thread s (th_value th))) (Some (d + 1, Z.max m (d + 1))) /\
     (zlen l' = zlen l + if m =? 0 then 1 else 0) /\
     (forall x, In x l -> x <> (sd_ptr (th_side th), sd_real (th_side th)) -> In x l') /\
     (sd_ptr s = sd_ptr (th_side th) \/ (forall x, In x l -> fst x <> sd_ptr s))) \/
  (ans = None /\ enter_call page ans (th_side th) l = Ended).
Proof.
  intros [Hp Hd] Hl HT Ha. unfold thread_ok in HT. destruct HT as (V & D & U & R). destruct th as [[real used ptr] v].
  cbn [th_side th_value sd_real sd_used sd_ptr] in *.
  assert (B : 0 <= real < 2 ^ 62) by (destruct R as [R|R]; lia).
  assert (Bu : 0 <= used <= real) by (destruct R as [R|R]; lia).
  unfold enter_call. cbn [sd_real sd_used sd_ptr]. rewrite !s64_small by lia.
  destruct (Z.leb_spec real used) as [Le|Gt].
  - unfold stack_helper. cbn [sd_real sd_used sd_ptr]. destruct (Z.leb_spec real used); [|lia]. cbn [negb].
    destruct ans as [a|]; [|right; auto]. destruct (Ha Le) as (A1 & A2 & A3). left.
    rewrite (u64_small (real + page)) by lia. rewrite (u64_small ((real + page) * 2)) by lia.
    replace ((real + page) * 2) with (2 * (real + page)) by lia.
    assert (Hl1 : maps_ok ((a, 2 * (real + page)) :: l)).
    { cbn [maps_ok fst snd]. split; [lia|]. split; [exact A3|exact Hl]. }
    destruct (Z.eqb_spec a 0); [lia|].
    assert (Dd : (16 | 2 * (real + page))).
    { destruct R as [(_ & _ & ->)|(_ & _ & _ & R4 & _)].
      - rewrite Z.add_0_l. apply Z.divide_mul_r. exact Hd.
      - apply Z.divide_mul_r. apply Z.divide_add_r; assumption. }
    destruct R as [(-> & -> & ->)|(R1 & R2 & R3 & R4 & R5 & R6 & R7)].
    + cbn [Z.eqb]. assert (d = 0) by lia. subst d. assert (used = 0) by lia. subst used.
      eexists _, _. split; [reflexivity|]. cbn [sd_real sd_used sd_ptr]. split; [exact Hl1|]. split; [|split; [|split]].
      * unfold thread_ok. cbn [th_side th_value sd_real sd_used sd_ptr]. split; [exact V|]. split; [lia|].
        split; [rewrite u64_small; lia|]. right. split; [lia|]. split; [lia|]. split; [left; reflexivity|].
        split; [exact Dd|]. split; [|lia]. destruct Hd as [k Hk]. lia.
      * rewrite zlen_cons. reflexivity.
      * intros x Hx _. right. exact Hx.
      * right. intros x Hx E. pose proof (A3 x Hx) as Ap. apply apart_neq in Ap; [cbn [fst] in Ap; congruence|cbn [snd]; lia|apply (maps_ok_in l x Hl Hx)].
    + destruct (Z.eqb_spec ptr 0); [lia|].
      destruct (munmap_ok _ (ptr, real) Hl1 (or_intror R3)) as (l' & E & W & O & In').
      cbn [fst snd] in E. rewrite E. eexists _, _. split; [reflexivity|]. cbn [sd_real sd_used sd_ptr].
      assert (Ne : (a, 2 * (real + page)) <> (ptr, real)).
      { intros X. injection X as X1 X2. lia. }
      split; [exact O|]. split; [|split; [|split]].
      * unfold thread_ok. cbn [th_side th_value sd_real sd_used sd_ptr]. split; [exact V|]. split; [lia|].
        split; [rewrite u64_small; lia|]. right. split; [lia|]. split; [lia|]. split; [apply In'; split; [left; reflexivity|exact Ne]|].
        split; [exact Dd|]. split; [|split; [|lia]].
        -- destruct Dd as [k Hk]. destruct Hd as [j Hj]. lia.
        -- lia.
      * apply without_len in W. rewrite zlen_cons in W. destruct (Z.eqb_spec m 0); lia.
      * intros x Hx N. apply In'. split; [right; exact Hx|exact N].
      * right. intros x Hx E'. pose proof (A3 x Hx) as Ap. apply apart_neq in Ap; [cbn [fst] in Ap; congruence|cbn [snd]; lia|apply (maps_ok_in l x Hl Hx)].
  - left. eexists _, _. split; [reflexivity|]. cbn [sd_real sd_used sd_ptr]. destruct R as [R|(R1 & R2 & R3 & R4 & R5 & R6 & R7)]; [lia|].
    split; [exact Hl|]. split; [|split; [|split]].
    + unfold thread_ok. cbn [th_side th_value sd_real sd_used sd_ptr]. split; [exact V|]. split; [lia|].
      split; [rewrite u64_small; lia|]. right. split; [lia|]. split; [lia|]. split; [exact R3|]. split; [exact R4|].
      split; [|split; [lia|lia]]. destruct R4 as [k Hk]. lia.
    + destruct (Z.eqb_spec m 0); lia.
    + auto.
    + auto.
Qed.

Lemma pstep_inv main page evs p ev : page_ok page -> pinv main page evs p -> event_fine main page evs p ev ->
  match pstep page ev p with
  | Going p' => pinv main page (evs ++ [ev]) p'
  | Ended => exists t, ev = T_call t None
  | Foreign => False
  end.
Proof.
  intros Hp H Hf. pose proof (pi_maps _ _ _ _ H) as Hm. destruct ev as [t|t ans|t|t]; cbn [pstep].
  - pose proof (pi_thread _ _ _ _ H t) as Tt. destruct (get_thread t (pp_threads p)) as [th|] eqn:G.
    + constructor.
      * exact Hm.
      * intros u. rewrite life_app. cbn [life_step]. pose proof (pi_thread _ _ _ _ H u) as Tu.
        destruct (Z.eqb_spec t u) as [<-|]; [|exact Tu]. rewrite G in *. destruct (life main evs t); [exact Tt|contradiction].
      * apply (pi_apart _ _ _ _ H).
      * rewrite users_app, (pi_count _ _ _ _ H). lia.
    + constructor; cbn [pp_maps pp_threads].
      * exact Hm.
      * intros u. rewrite life_app. cbn [life_step get_thread]. pose proof (pi_thread _ _ _ _ H u) as Tu.
        destruct (Z.eqb_spec t u) as [<-|]; [|exact Tu]. destruct (life main evs t) as [[d m]|]; [contradiction|].
        cbn. repeat split; try lia.
      * intros a b th uh N. cbn [get_thread]. destruct (Z.eqb_spec t a); destruct (Z.eqb_spec t b); try congruence.
        -- intros E. injection E as <-. cbn. congruence.
        -- intros _ E. injection E as <-. cbn. congruence.
        -- apply (pi_apart _ _ _ _ H); assumption.
      * rewrite users_app, (pi_count _ _ _ _ H). lia.
  - pose proof (pi_thread _ _ _ _ H t) as Tt. destruct (get_thread t (pp_threads p)) as [th|] eqn:G.
    + destruct (life main evs t) as [[d m]|] eqn:L; [|contradiction].
      destruct (enter_ok page ans th (pp_maps p) d m Hp Hm Tt) as [(s & l' & E & O & To & Z1 & Keep & Ptr)|[-> E]].
      { intros Le. destruct ans as [a|]; [|exact I]. apply (Hf th); auto. }
      2:{ rewrite E. eauto. }
      rewrite E. constructor; cbn [pp_maps pp_threads].
      * exact O.
      * intros u. rewrite life_app. cbn [life_step]. destruct (Z.eqb_spec t u) as [<-|N].
        -- rewrite get_set_same by congruence. rewrite L. exact To.
        -- rewrite get_set_other by congruence. pose proof (pi_thread _ _ _ _ H u) as Tu.
           eapply thread_ok_maps; [exact Tu|]. intros a n Ha. destruct (get_thread u (pp_threads p)) as [uh|] eqn:Gu; [|exact I].
           intros -> ->. apply Keep; [exact Ha|]. intros X. injection X as X1 X2.
           pose proof (maps_ok_in _ _ Hm Ha) as Ps. cbn in Ps.
           assert (X3 : sd_ptr (th_side uh) <> 0) by lia.
           apply (pi_apart _ _ _ _ H u t uh th); auto; congruence.
      * intros a b ah bh N Ga Gb Pa Pb.
        assert (K : forall u uh, u <> t -> get_thread u (pp_threads p) = Some uh -> sd_ptr (th_side uh) <> 0 -> sd_ptr (th_side uh) <> sd_ptr s \/ sd_ptr s = 0).
        { intros u uh Nu Gu Pu. pose proof (pi_thread _ _ _ _ H u) as Tu. rewrite Gu in Tu. unfold thread_ok in Tu.
          destruct (life main evs u) as [[d' m']|]; [|contradiction]. destruct Tu as (_ & _ & _ & [(_ & X & _)|(_ & _ & X & _)]); [contradiction|].
          destruct Ptr as [Ptr|Ptr].
          - destruct (Z.eq_dec (sd_ptr (th_side th)) 0) as [E0|E0]; [right; congruence|left]. rewrite Ptr.
            apply (pi_apart _ _ _ _ H u t uh th); auto.
          - left. apply (Ptr _ X). }
        destruct (Z.eq_dec a t) as [->|Na]; destruct (Z.eq_dec b t) as [->|Nb]; try congruence.
        -- rewrite get_set_same in Ga by congruence. injection Ga as <-. rewrite get_set_other in Gb by congruence.
           cbn [th_side] in *. destruct (K b bh Nb Gb Pb); congruence.
        -- rewrite get_set_same in Gb by congruence. injection Gb as <-. rewrite get_set_other in Ga by congruence.
           cbn [th_side] in *. destruct (K a ah Na Ga Pa); congruence.
        -- rewrite get_set_other in Ga by congruence. rewrite get_set_other in Gb by congruence.
           apply (pi_apart _ _ _ _ H a b); assumption.
      * rewrite users_app, L, Z1, (pi_count _ _ _ _ H). reflexivity.
    + constructor; auto.
      * intros u. rewrite life_app. cbn [life_step]. pose proof (pi_thread _ _ _ _ H u) as Tu.
        destruct (Z.eqb_spec t u) as [<-|]; [|exact Tu]. rewrite G in *. destruct (life main evs t) as [[? ?]|]; [contradiction|exact I].
      * apply (pi_apart _ _ _ _ H).
      * rewrite users_app, (pi_count _ _ _ _ H). destruct (life main evs t) as [[? ?]|]; [contradiction|lia].
  - pose proof (pi_thread _ _ _ _ H t) as Tt. cbn [event_fine] in Hf. destruct (get_thread t (pp_threads p)) as [th|] eqn:G.
    + destruct (life main evs t) as [[d m]|] eqn:L; [|contradiction].
      constructor; cbn [pp_maps pp_threads].
      * exact Hm.
      * intros u. rewrite life_app. cbn [life_step]. destruct (Z.eqb_spec t u) as [<-|N].
        -- rewrite get_set_same by congruence. rewrite L. unfold thread_ok in *. cbn [th_side th_value leave_call sd_real sd_used sd_ptr].
           destruct Tt as (V & D & U & R). split; [exact V|]. split; [lia|]. split; [rewrite u64_small; [lia|]|exact R].
           destruct R as [R|R]; lia.
        -- rewrite get_set_other by congruence. apply (pi_thread _ _ _ _ H u).
      * intros a b ah bh N Ga Gb.
        destruct (Z.eq_dec a t) as [->|Na]; destruct (Z.eq_dec b t) as [->|Nb]; try congruence.
        -- rewrite get_set_same in Ga by congruence. injection Ga as <-. rewrite get_set_other in Gb by congruence.
           cbn [th_side leave_call sd_ptr]. apply (pi_apart _ _ _ _ H t b th bh); assumption.
        -- rewrite get_set_same in Gb by congruence. injection Gb as <-. rewrite get_set_other in Ga by congruence.
           cbn [th_side leave_call sd_ptr]. apply (pi_apart _ _ _ _ H a t ah th); assumption.
        -- rewrite get_set_other in Ga by congruence. rewrite get_set_other in Gb by congruence.
           apply (pi_apart _ _ _ _ H a b); assumption.
      * rewrite users_app, (pi_count _ _ _ _ H). lia.
    + constructor; auto.
      * intros u. rewrite life_app. cbn [life_step]. pose proof (pi_thread _ _ _ _ H u) as Tu.
        destruct (Z.eqb_spec t u) as [<-|]; [|exact Tu]. rewrite G in *. destruct (life main evs t) as [[? ?]|]; [contradiction|exact I].
      * apply (pi_apart _ _ _ _ H).
      * rewrite users_app, (pi_count _ _ _ _ H). lia.
  - pose proof (pi_thread _ _ _ _ H t) as Tt. destruct (get_thread t (pp_threads p)) as [th|] eqn:G.
    + destruct (life main evs t) as [[d m]|] eqn:L; [|contradiction].
      assert (V : th_value th = 0) by apply Tt. rewrite V. cbn [Z.eqb negb]. rewrite andb_false_r.
      constructor; cbn [pp_maps pp_threads].
      * exact Hm.
      * intros u. rewrite life_app. cbn [life_step]. destruct (Z.eqb_spec t u) as [<-|N].
        -- rewrite get_del_same. exact I.
        -- rewrite get_del_other by congruence. apply (pi_thread _ _ _ _ H u).
      * intros a b ah bh N Ga Gb.
        destruct (Z.eq_dec a t) as [->|Na]; [rewrite get_del_same in Ga; discriminate|].
        destruct (Z.eq_dec b t) as [->|Nb]; [rewrite get_del_same in Gb; discriminate|].
        rewrite get_del_other in Ga by congruence. rewrite get_del_other in Gb by congruence.
        apply (pi_apart _ _ _ _ H a b); assumption.
      * rewrite users_app, (pi_count _ _ _ _ H). lia.
    + constructor; auto.
      * intros u. rewrite life_app. cbn [life_step]. pose proof (pi_thread _ _ _ _ H u) as Tu.
        destruct (Z.eqb_spec t u) as [<-|]; [|exact Tu]. rewrite G. exact I.
      * apply (pi_apart _ _ _ _ H).
      * rewrite users_app, (pi_count _ _ _ _ H). lia.
Qed.

Lemma history_inv main page evs p : page_ok page -> phistory main page evs p -> pinv main page evs p.
Proof.
  intros Hp. induction 1 as [|evs p ev p' H IH Hf E]; [apply pinv_start|].
  pose proof (pstep_inv main page evs p ev Hp IH Hf) as X. rewrite E in X. exact X.
Qed.

(** ** The trampoline itself *)
Lemma munmap_in l x : In x l -> exists l', munmap (fst x) (snd x) l = Some l'.
Proof.
  induction l as [|z t IH]; cbn [In munmap]; [tauto|]. intros H. destruct (map_eqb z (fst x, snd x)) eqn:E; [eauto|].
  destruct H as [->|H].
  - rewrite (proj2 (map_eqb_eq x (fst x, snd x))) in E; [discriminate|destruct x; reflexivity].
  - destruct (IH H) as (l' & ->). eauto.
Qed.

Opaque exec.

Section W.
Variables (w : pworld) (sl sh : Z).
Hypothesis (WO : world_ok w sl sh).

Lemma helper_fields e st s :
  env_ok w sl sh e -> wf_st st -> sl <= tg st 1 <= sh - 32 -> tg st 2 = pw_toc w ->
  side_ok w sl sh (tm st) -> s_real w (tm st) <= s_used w (tm st) ->
  ulp_stack_helper w e st = Some s ->
  exists m, pe_mmap e m (2 * (s_real w (tm st) + pw_page w)) = Some (s_ptr w (tm s)) /\
    s_real w (tm s) = 2 * (s_real w (tm st) + pw_page w).
Proof.
  intros (TO & HO & MO) W R T2 S LE H.
  unfold ulp_stack_helper in H. rewrite T2, Z.eqb_refl in H. cbn [negb] in H.
  destruct (HO st W R) as (Wh & Gh & Mh). set (sth := pe_helper e st) in *. clearbody sth.
  assert (F : same_fields w (tm st) (tm sth)).
  { apply same_fields_ext. intros x Hx. apply Mh. unfold world_ok in WO. lia. }
  unfold REAL_SIZE, USED_SIZE, PTR in H. rewrite !Z.add_0_r in H.
  fold (s_real w (tm sth)) in H. fold (s_used w (tm sth)) in H.
  pose proof F as (F1 & F2 & F3). rewrite F1, F2 in H.
  assert (S' := S). unfold side_ok in S'.
  remember (s_real w (tm st)) as real eqn:Er. remember (s_used w (tm st)) as used eqn:Eu.
  remember (s_ptr w (tm st)) as old eqn:Eo.
  destruct (Z.leb_spec real used); [|lia]. cbn [negb] in H.
  assert (WO' := WO). unfold world_ok in WO'.
  assert (U1 : u64 (u64 (real + pw_page w) * 2) = 2 * (real + pw_page w)).
  { rewrite (u64_id (real + pw_page w)) by lia. rewrite u64_id by lia. lia. }
  rewrite U1 in H. clear U1. remember (2 * (real + pw_page w)) as n eqn:En.
  remember (st8 (tm sth) (pw_us w) n) as m1 eqn:Em1.
  assert (P1 : ld8 m1 (pw_us w + 16) = old).
  { rewrite Em1, ld8_st8_other by lia. exact F3. }
  rewrite P1 in H.
  destruct (pe_mmap e m1 n) as [new|] eqn:EM; [|discriminate H].
  destruct (MO _ _ _ EM) as (N0 & N1 & N2 & N3 & _). clear MO TO HO.
  destruct (Z.eqb_spec new 0) as [Z0|_]; [clear - Z0 N0; lia|].
  apply Some_inj in H. subst s. cbn [tg t_lr t_ctr t_le tm].
  remember (if old =? 0 then m1 else mem_write m1 new (mem_read m1 old (Z.to_nat real))) as m2 eqn:Em2.
  assert (D1 : forall x, new <= x < new + n -> ~ (pw_us w <= x < pw_us w + 24)).
  { clear - N3. unfold disjoint in N3. lia. }
  destruct S' as (S0 & _ & _ & S3 & S4 & S5 & _).
  destruct WO' as (B0 & B1 & B2 & B3 & B4 & B5 & _ & _ & _ & B6 & _).
  assert (Nn : 0 < n < 2 ^ 62) by (clear - N0 N1 En S0 B6; lia).
  assert (Nr : 0 <= real < n) by (clear - En S0 B6; lia).
  assert (ZL : zlen (mem_read m1 old (Z.to_nat real)) = real).
  { unfold zlen. rewrite mem_read_length. clear - Nr. lia. }
  assert (M2 : forall x, ~ (new <= x < new + n) -> m2 x = m1 x).
  { intros x Hx. rewrite Em2. destruct (old =? 0); auto. apply mem_write_out. rewrite ZL. clear - Hx Nr. lia. }
  remember (st8 m2 (pw_us w + 16) new) as m3 eqn:Em3.
  assert (Q1 : s_real w m3 = n).
  { unfold s_real. rewrite Em3, ld8_st8_other by (clear; lia).
    rewrite (ld8_ext m2 m1) by (intros x Hx; apply M2; pose proof (D1 x) as D; clear - D Hx; lia).
    rewrite Em1. apply ld8_st8_same. clear - Nn. lia. }
  assert (Q3 : s_ptr w m3 = new).
  { unfold s_ptr. rewrite Em3. apply ld8_st8_same. clear - N0 N1 Nn. lia. }
  rewrite Q1, Q3. eauto.
Qed.

Lemma expand_fields e st s :
  env_ok w sl sh e -> wf_st st -> sl + 200 <= tg st 1 <= sh -> tg st 2 = pw_toc w -> tg st 3 = pw_us w ->
  side_ok w sl sh (tm st) -> s_real w (tm st) <= s_used w (tm st) -> t_le st = true ->
  maybe_expand w e st = Some s ->
  exists m, pe_mmap e m (2 * (s_real w (tm st) + pw_page w)) = Some (s_ptr w (tm s)) /\
    s_real w (tm s) = 2 * (s_real w (tm st) + pw_page w).
Proof.
  intros E W R T2 T3 S L Le H. unfold maybe_expand in H. rewrite Le in H. rewrite exec_app in H.
  destruct (expand1_eq w sl sh WO e st W R) as (s1 & E1 & W1 & G1 & O1 & A1 & A2 & A3 & A4 & A5 & A6 & A7 & A8 & M1).
  rewrite E1 in H. rewrite exec_app, x_helper' in H.
  destruct (ulp_stack_helper w e s1) as [s2|] eqn:EH; [|discriminate H].
  assert (F : same_fields w (tm st) (tm s1)).
  { apply same_fields_ext. intros. apply M1. unfold world_ok in WO. lia. }
  assert (S1 : side_ok w sl sh (tm s1)) by (eapply side_ok_fields; eauto).
  destruct F as (F1 & F2 & F3).
  destruct (helper_fields e s1 s2) as (m & Em & Er); auto.
  { lia. } { rewrite O1 by lia. auto. } { rewrite F1, F2. exact L. }
  destruct (helper_eq w sl sh WO e s1 s2) as (W2 & H3 & HG & _); auto.
  { lia. } { rewrite O1 by lia. auto. } { rewrite F1, F2. exact L. }
  destruct (expand2_eq w sl sh WO e s2 W2) as (s3 & E3 & W3 & M3 & _).
  { rewrite HG by lia. lia. }
  rewrite E3 in H. apply Some_inj in H. subst s3. rewrite M3. rewrite F1 in Em, Er. eauto.
Qed.

Lemma enter_fields e area st s :
  env_ok w sl sh e -> area_ok sl sh area -> wf_st st -> room sl sh st -> side_ok w sl sh (tm st) ->
  redirected_entry w e area st = Some s ->
  s_used w (tm s) = s_used w (tm st) + 16 /\
  ((s_used w (tm st) < s_real w (tm st) /\ s_real w (tm s) = s_real w (tm st) /\ s_ptr w (tm s) = s_ptr w (tm st)) \/
   (s_real w (tm st) <= s_used w (tm st) /\ s_real w (tm s) = 2 * (s_real w (tm st) + pw_page w) /\
    exists m, pe_mmap e m (s_real w (tm s)) = Some (s_ptr w (tm s)))).
Proof.
  intros E A W R S H. destruct (enter_eq w sl sh WO e area st s E A W R S H) as (_ & _ & _ & _ & _ & _ & _ & EU & _).
  split; [exact EU|]. clear EU. pose proof E as (TO & HO & MO).
  unfold redirected_entry, tramp_enter in H. rewrite exec_app in H.
  destruct (save_eq w sl sh WO e area st W R A) as (s1 & E1 & W1 & G1 & G2 & G3 & GO & GL & GC & A8 & A16 & A24 & A32 & A48 & M1).
  rewrite E1 in H. rewrite exec_app, x_tls' in H.
  unfold room in R.
  destruct (TO s1 W1 G3 G2) as (W2 & T3 & TG & TC & M2). { lia. }
  set (s2 := pe_tls e s1) in *. clearbody s2.
  assert (M12 : forall x, ~ (sl <= x < tg st 1) -> tm s2 x = tm st x).
  { intros x Hx. rewrite M2 by (clear - Hx G1 R; lia). apply M1. clear - Hx R. lia. }
  assert (IU : forall x, pw_us w <= x < pw_us w + 24 -> ~ (sl <= x < tg st 1)).
  { intros x Hx Hs. apply (in_stack_us w sl sh WO x); [clear - Hs R; lia|exact Hx]. }
  assert (F2 : same_fields w (tm st) (tm s2)). { apply same_fields_ext. intros. apply M12. auto. }
  assert (S2 : side_ok w sl sh (tm s2)) by (eapply side_ok_fields; eauto).
  destruct (check_eq w sl sh WO e s2 W2 T3 S2) as (s3 & E3 & W3 & G3' & L3 & C3 & M3 & LE3).
  rewrite E3 in H. fold (maybe_expand w e s3) in H.
  destruct (maybe_expand w e s3) as [s4|] eqn:E4; [|discriminate H].
  rewrite <- M3 in S2, LE3, F2.
  assert (R3 : tg s3 1 = tg st 1 - 88). { rewrite G3' by (clear; lia). rewrite TG by (clear; lia). exact G1. }
  assert (T3' : tg s3 3 = pw_us w). { rewrite G3' by (clear; lia). exact T3. }
  assert (T2' : tg s3 2 = pw_toc w). { rewrite G3' by (clear; lia). rewrite TG by (clear; lia). exact G2. }
  assert (R3' : sl + 200 <= tg s3 1 <= sh) by (clear - R R3; lia).
  destruct (expand_eq w sl sh WO e s3 s4 E W3 R3' T2' T3' S2 LE3 E4) as (W4 & T4 & G4 & C4 & S4 & U4 & R4 & K4 & M4).
  assert (R1 : tg s4 1 = tg st 1 - 88). { rewrite G4 by (clear; lia). exact R3. }
  destruct (push_eq w sl sh WO e s4 W4 T4 S4 R4) as (s5 & E5 & W5 & K). { clear - R1 R; lia. } { clear - R1 R; lia. }
  rewrite E5 in H. apply Some_inj in H. subst s. cbn [tg t_lr t_ctr t_le tm]. cbv zeta in K.
  destruct K as (_ & _ & _ & _ & _ & _ & _ & KR & KP & _). rewrite KR, KP.
  destruct F2 as (Fr & Fu & Fp).
  destruct (Z.leb_spec (s_real w (tm s3)) (s_used w (tm s3))) as [Le|Gt].
  - right. destruct (expand_fields e s3 s4 E W3 R3' T2' T3' S2 Le LE3 E4) as (m & Em & Er).
    rewrite Fr in *. rewrite Fu in Le. split; [exact Le|]. split; [exact Er|]. exists m. rewrite Er. exact Em.
  - left. unfold maybe_expand in E4. rewrite LE3 in E4. apply Some_inj in E4. subst s4.
    rewrite Fr, Fu in Gt. split; [exact Gt|]. split; [exact Fr|exact Fp].
Qed.

Lemma enter_refines e area st s l :
  env_ok w sl sh e -> area_ok sl sh area -> wf_st st -> room sl sh st -> side_ok w sl sh (tm st) ->
  redirected_entry w e area st = Some s ->
  (s_ptr w (tm st) <> 0 -> In (s_ptr w (tm st), s_real w (tm st)) l) ->
  exists ans l', enter_call (pw_page w) ans (side_of w (tm st)) l = Going (side_of w (tm s), l') /\
    (s_real w (tm st) <= s_used w (tm st) -> exists a m, ans = Some a /\ pe_mmap e m (2 * (s_real w (tm st) + pw_page w)) = Some a).
Proof.
  intros E A W R S H I. destruct (enter_fields e area st s E A W R S H) as (EU & D).
  assert (WO' := WO). unfold world_ok in WO'. assert (S' := S). unfold side_ok in S'.
  unfold enter_call, side_of, stack_helper. cbn [sd_real sd_used sd_ptr]. rewrite !s64_small by lia.
  destruct D as [(D1 & D2 & D3)|(D1 & D2 & m & D3)].
  - exists None, l. destruct (Z.leb_spec (s_real w (tm st)) (s_used w (tm st))); [lia|]. cbn [sd_real sd_used sd_ptr].
    rewrite D2, D3, EU. rewrite u64_id by lia. split; [reflexivity|]. intros; lia.
  - destruct (Z.leb_spec (s_real w (tm st)) (s_used w (tm st))); [|lia]. cbn [negb].
    pose proof E as (_ & _ & MO). destruct (MO _ _ _ D3) as (N0 & N1 & _).
    rewrite (u64_id (s_real w (tm st) + pw_page w)) by lia. rewrite (u64_id ((s_real w (tm st) + pw_page w) * 2)) by lia.
    replace ((s_real w (tm st) + pw_page w) * 2) with (s_real w (tm s)) by lia.
    assert (X : exists l', (if s_ptr w (tm st) =? 0 then Some ((s_ptr w (tm s), s_real w (tm s)) :: l)
        else munmap (s_ptr w (tm st)) (s_real w (tm st)) ((s_ptr w (tm s), s_real w (tm s)) :: l)) = Some l').
    { destruct (Z.eqb_spec (s_ptr w (tm st)) 0) as [|N]; [eauto|]. apply (munmap_in _ (s_ptr w (tm st), s_real w (tm st))).
      right. apply I. exact N. }
    destruct X as (l' & X). exists (Some (s_ptr w (tm s))), l'. rewrite X.
    destruct (Z.eqb_spec (s_ptr w (tm s)) 0); [lia|]. cbn [sd_real sd_used sd_ptr].
    rewrite EU, u64_id by lia. split; [reflexivity|]. intros _. exists (s_ptr w (tm s)), m. rewrite <- D2. auto.
Qed.

Lemma leave_refines e st :
  env_ok w sl sh e -> wf_st st -> room sl sh st -> side_ok w sl sh (tm st) -> 16 <= s_used w (tm st) ->
  exists s, tramp_leave w e st = Some s /\ side_of w (tm s) = leave_call (side_of w (tm st)).
Proof.
  intros E W R S U. destruct (leave_eq w sl sh WO e st E W R S U) as (s & H & _ & _ & _ & _ & _ & _ & Er & Ep & Eu & _).
  exists s. split; [exact H|]. assert (S' := S). unfold side_ok in S'.
  unfold side_of, leave_call. cbn [sd_real sd_used sd_ptr]. rewrite Er, Ep, Eu, u64_id by lia. reflexivity.
Qed.
End W.

(** ** Histories *)
Lemma ph_last main page evs ev p' : phistory main page (evs ++ [ev]) p' ->
  exists p, phistory main page evs p /\ event_fine main page evs p ev /\ pstep page ev p = Going p'.
Proof.
  intros H. remember (evs ++ [ev]) as l eqn:E. destruct H as [|evs0 p ev0 p' H F S].
  - destruct evs; discriminate.
  - apply app_inj_tail in E. destruct E as [-> ->]. eauto.
Qed.
Lemma ph_det main page evs : forall p q, phistory main page evs p -> phistory main page evs q -> p = q.
Proof.
  induction evs as [|ev evs IH] using rev_ind; intros p q Hp Hq.
  - inversion Hp as [E|evs0 p0 ev p' _ _ _ E]; [|destruct evs0; discriminate].
    inversion Hq as [E'|evs0 p0 ev p' _ _ _ E']; [|destruct evs0; discriminate]. reflexivity.
  - apply ph_last in Hp. destruct Hp as (p0 & Hp & _ & Ep). apply ph_last in Hq. destruct Hq as (q0 & Hq & _ & Eq).
    rewrite (IH _ _ Hp Hq) in Ep. congruence.
Qed.

(** A mapping no thread has any more stays. *)
Lemma orphan_step main page evs p ev p' a n : page_ok page -> pinv main page evs p -> event_fine main page evs p ev ->
  pstep page ev p = Going p' -> 0 < a ->
  In (a, n) (pp_maps p) -> (forall u uh, get_thread u (pp_threads p) = Some uh -> sd_ptr (th_side uh) <> a) ->
  In (a, n) (pp_maps p') /\ (forall u uh, get_thread u (pp_threads p') = Some uh -> sd_ptr (th_side uh) <> a).
Proof.
  intros Hp H Hf E Ha Hin No. pose proof (pi_maps _ _ _ _ H) as Hm. destruct ev as [t|t ans|t|t]; cbn [pstep] in E;
    pose proof (pi_thread _ _ _ _ H t) as Tt; destruct (get_thread t (pp_threads p)) as [th|] eqn:G;
    try (injection E as <-; auto; fail).
  - injection E as <-. cbn [pp_maps pp_threads]. split; [exact Hin|]. intros u uh. cbn [get_thread].
    destruct (Z.eqb_spec t u); [|apply No]. intros X. injection X as <-. cbn. lia.
  - destruct (life main evs t) as [[d m]|] eqn:L; [|contradiction].
    destruct (enter_ok page ans th (pp_maps p) d m Hp Hm Tt) as [(s & l' & Ee & O & To & Z1 & Keep & Ptr)|[-> Ee]].
    { intros Le. destruct ans as [a'|]; [|exact I]. apply (Hf th); auto. }
    2:{ rewrite Ee in E. discriminate. }
    rewrite Ee in E. injection E as <-. cbn [pp_maps pp_threads]. split.
    + apply Keep; [exact Hin|]. intros X. injection X as X1 X2. apply (No t th G). congruence.
    + intros u uh Gu. destruct (Z.eq_dec u t) as [->|N].
      * rewrite get_set_same in Gu by congruence. injection Gu as <-. cbn [th_side]. destruct Ptr as [Ptr|Ptr].
        -- rewrite Ptr. apply (No t th G).
        -- intros X. apply (Ptr _ Hin). cbn [fst]. congruence.
      * rewrite get_set_other in Gu by congruence. apply (No u uh Gu).
  - injection E as <-. cbn [pp_maps pp_threads]. split; [exact Hin|]. intros u uh Gu. destruct (Z.eq_dec u t) as [->|N].
    + rewrite get_set_same in Gu by congruence. injection Gu as <-. cbn [th_side leave_call sd_ptr]. apply (No t th G).
    + rewrite get_set_other in Gu by congruence. apply (No u uh Gu).
  - destruct (life main evs t) as [[d m]|]; [|contradiction].
    assert (V : th_value th = 0) by apply Tt. rewrite V in E. cbn [Z.eqb negb] in E. rewrite andb_false_r in E.
    injection E as <-. cbn [pp_maps pp_threads]. split; [exact Hin|]. intros u uh Gu.
    destruct (Z.eq_dec u t) as [->|N]; [rewrite get_del_same in Gu; discriminate|].
    rewrite get_del_other in Gu by congruence. apply (No u uh Gu).
Qed.

Lemma exit_keeps main page evs p t th : page_ok page -> phistory main page evs p ->
  get_thread t (pp_threads p) = Some th -> sd_ptr (th_side th) <> 0 ->
  forall later p', phistory main page (evs ++ T_exit t :: later) p' ->
    In (sd_ptr (th_side th), sd_real (th_side th)) (pp_maps p') /\
    (forall u uh, get_thread u (pp_threads p') = Some uh -> sd_ptr (th_side uh) <> sd_ptr (th_side th)).
Proof.
  intros Hp H G N. pose proof (history_inv main page evs p Hp H) as Iv.
  pose proof (pi_thread _ _ _ _ Iv t) as Tt. rewrite G in Tt. unfold thread_ok in Tt.
  destruct (life main evs t) as [[d m]|]; [|contradiction]. destruct Tt as (V & _ & _ & [(_ & X & _)|(_ & Pos & Hin & _)]); [contradiction|].
  induction later as [|ev later IH] using rev_ind; intros p' H'.
  - apply ph_last in H'. destruct H' as (p0 & H0 & _ & E). rewrite (ph_det _ _ _ _ _ H0 H) in E.
    cbn [pstep] in E. rewrite G, V in E. cbn [Z.eqb negb] in E. rewrite andb_false_r in E.
    injection E as <-. cbn [pp_maps pp_threads]. split; [exact Hin|]. intros u uh Gu.
    destruct (Z.eq_dec u t) as [->|Nu]; [rewrite get_del_same in Gu; discriminate|].
    rewrite get_del_other in Gu by congruence.
    destruct (Z.eq_dec (sd_ptr (th_side uh)) 0) as [Z0|Z0]; [lia|]. apply (pi_apart _ _ _ _ Iv u t uh th); auto.
  - change (T_exit t :: later ++ [ev]) with ((T_exit t :: later) ++ [ev]) in H'. rewrite app_assoc in H'.
    apply ph_last in H'. destruct H' as (p0 & H0 & F & E). destruct (IH _ H0) as (A & B).
    eapply (orphan_step main page _ p0 ev p'); eauto. apply history_inv; assumption.
Qed.
