(** Proofs about the tool's memory: what a heap consists of, as a list of blocks. *)
From Coq Require Import Bool Lia Permutation.
From Verif Require Import Base BaseFacts OwnModel OwnSpec.

Lemma prc_dec : forall x y : prc, {x = y} + {x <> y}.
Proof. decide equality; try apply Z.eq_dec; try apply Bool.bool_dec; apply Nat.eq_dec. Defined.
Lemma node_dec : forall x y : node, {x = y} + {x <> y}.
Proof. decide equality; try apply Z.eq_dec; try apply Nat.eq_dec; apply prc_dec. Defined.
Lemma cell_dec : forall x y : nat * node, {x = y} + {x <> y}.
Proof. decide equality; [apply node_dec|apply Nat.eq_dec]. Defined.

Definition one (y x : nat * node) : nat := if cell_dec y x then 1%nat else 0%nat.
Definition cnt (l : list (nat * node)) (x : nat * node) : nat := count_occ cell_dec l x.
Lemma cnt_nil x : cnt [] x = 0%nat. Proof. reflexivity. Qed.
Lemma cnt_cons y l x : cnt (y :: l) x = (one y x + cnt l x)%nat.
Proof. unfold cnt, one. cbn [count_occ]. destruct (cell_dec y x); reflexivity. Qed.
Lemma cnt_app l1 l2 x : cnt (l1 ++ l2) x = (cnt l1 x + cnt l2 x)%nat.
Proof. apply count_occ_app. Qed.
Lemma perm_cnt l1 l2 : Permutation l1 l2 <-> forall x, cnt l1 x = cnt l2 x.
Proof. apply (Permutation_count_occ cell_dec). Qed.
Global Opaque cnt one.

Ltac perm :=
  repeat match goal with H : Permutation _ _ |- _ => rewrite perm_cnt in H end;
  rewrite perm_cnt; let x := fresh "x" in intro x;
  repeat match goal with H : forall _, cnt _ _ = cnt _ _ |- _ => specialize (H x) end;
  repeat (rewrite ?cnt_cons, ?cnt_app, ?cnt_nil in * ); lia.

(** The heap consists of exactly these blocks. *)
Definition wf (h : heap) : Prop :=
  NoDup (map fst (h_cells h)) /\ (0 < h_next h)%nat /\
  forall a n, In (a, n) (h_cells h) -> (0 < a < h_next h)%nat.
Definition models (h : heap) (L : list (nat * node)) : Prop := wf h /\ Permutation (h_cells h) L.

Lemma models_perm h L L' : models h L -> Permutation L L' -> models h L'.
Proof. intros [W P] Q. split; auto. eapply Permutation_trans; eauto. Qed.

Ltac reperm H := eapply models_perm; [exact H|perm].

Lemma models_nodup h L : models h L -> NoDup (map fst L).
Proof. intros [(N & _) P]. eapply Permutation_NoDup; [|exact N]. apply Permutation_map. exact P. Qed.
Lemma models_pos h L a n : models h L -> In (a, n) L -> (0 < a < h_next h)%nat.
Proof. intros [(_ & _ & W) P] I. eapply W. eapply Permutation_in; [|exact I]. symmetry. exact P. Qed.
Lemma models_len h L : models h L -> (List.length L < h_next h)%nat.
Proof.
  intros H. pose proof (models_nodup _ _ H) as N.
  assert (X : incl (map fst L) (seq 1 (h_next h - 1))).
  { intros a I. apply in_map_iff in I. destruct I as ([b n] & <- & I). apply in_seq. pose proof (models_pos _ _ _ _ H I). cbn. lia. }
  pose proof (NoDup_incl_length N X) as Y. rewrite map_length, seq_length in Y.
  destruct H as [(_ & W & _) _]. lia.
Qed.
Lemma models_blocks h L : models h L -> blocks h = List.length L.
Proof. intros [_ P]. unfold blocks. apply Permutation_length. exact P. Qed.

Lemma lookup_in l a n : NoDup (map fst l) -> In (a, n) l -> lookup a l = Some n.
Proof.
  induction l as [|[b m] t IH]; intros N I; [destruct I|]. cbn [lookup]. cbn [map fst] in N.
  inversion N as [|? ? N1 N2]; subst. destruct I as [E|I].
  - injection E as -> ->. rewrite Nat.eqb_refl. reflexivity.
  - destruct (Nat.eqb_spec b a) as [->|_]; [|apply IH; auto].
    exfalso. apply N1. apply in_map_iff. exists (a, n). auto.
Qed.
Lemma remove_perm l a n : NoDup (map fst l) -> In (a, n) l -> Permutation l ((a, n) :: remove a l).
Proof.
  induction l as [|[b m] t IH]; intros N I; [destruct I|]. cbn [remove]. cbn [map fst] in N.
  inversion N as [|? ? N1 N2]; subst. destruct I as [E|I].
  - injection E as -> ->. rewrite Nat.eqb_refl. apply Permutation_refl.
  - destruct (Nat.eqb_spec b a) as [->|_].
    + exfalso. apply N1. apply in_map_iff. exists (a, n). auto.
    + specialize (IH N2 I). perm.
Qed.

Lemma alloc_ok n h L : models h L ->
  exists a h', alloc n h = Some (a, h') /\ models h' ((a, n) :: L) /\ a <> 0%nat /\ ~ In a (map fst L).
Proof.
  intros H. exists (h_next h). eexists. split; [reflexivity|]. pose proof H as [(N & W0 & W) P].
  assert (X : ~ In (h_next h) (map fst L)).
  { intros I. apply in_map_iff in I. destruct I as ([b m] & E & I). cbn in E. subst b.
    pose proof (models_pos _ _ _ _ H I). lia. }
  repeat split.
  - cbn [h_cells map fst]. constructor; [|exact N]. intros I. apply X.
    apply in_map_iff in I. destruct I as (c & E & I). apply in_map_iff. exists c. split; [exact E|].
    eapply Permutation_in; eauto.
  - cbn [h_next]. lia.
  - cbn [h_cells h_next] in *. destruct H0 as [E|I]; [injection E as <- <-; lia|apply W in I; lia].
  - cbn [h_cells h_next] in *. destruct H0 as [E|I]; [injection E as <- <-; lia|apply W in I; lia].
  - cbn [h_cells]. apply perm_skip. exact P.
  - lia.
  - exact X.
Qed.

Lemma load_ok a n h L : models h L -> In (a, n) L -> load a h = Some (n, h).
Proof.
  intros [(N & W0 & W) P] I. unfold load. rewrite (lookup_in _ _ n); auto.
  eapply Permutation_in; [symmetry; exact P|exact I].
Qed.

Lemma store_ok a n n' h L : models h ((a, n) :: L) ->
  exists h', store a n' h = Some (tt, h') /\ models h' ((a, n') :: L) /\ h_next h' = h_next h.
Proof.
  intros [(N & W0 & W) P].
  assert (I : In (a, n) (h_cells h)) by (eapply Permutation_in; [symmetry; exact P|left; reflexivity]).
  unfold store. rewrite (lookup_in _ _ n) by auto. eexists. split; [reflexivity|]. split; [|reflexivity].
  pose proof (remove_perm _ _ _ N I) as R.
  assert (Q : Permutation ((a, n') :: remove a (h_cells h)) ((a, n') :: L)).
  { apply perm_skip. apply (Permutation_cons_inv (a := (a, n))). eapply Permutation_trans; [symmetry; exact R|exact P]. }
  split; [|exact Q]. split; [|split]; cbn [h_cells h_next].
  - assert (E : Permutation (map fst (h_cells h)) (a :: map fst (remove a (h_cells h)))).
    { change (a :: map fst (remove a (h_cells h))) with (map fst ((a, n) :: remove a (h_cells h))). apply Permutation_map. exact R. }
    cbn [map fst]. eapply Permutation_NoDup; eauto.
  - exact W0.
  - intros b m [E|J].
    + injection E as <- <-. eapply W; eauto.
    + eapply (W b m). eapply Permutation_in; [symmetry; exact R|right; exact J].
Qed.

Lemma free_ok a n h L : models h ((a, n) :: L) ->
  exists h', free a h = Some (tt, h') /\ models h' L /\ h_next h' = h_next h.
Proof.
  intros H. pose proof H as [(N & W0 & W) P].
  assert (I : In (a, n) (h_cells h)) by (eapply Permutation_in; [symmetry; exact P|left; reflexivity]).
  unfold free. pose proof (W _ _ I). destruct (Nat.eqb_spec a 0) as [|_]; [lia|].
  rewrite (lookup_in _ _ n) by auto. eexists. split; [reflexivity|]. split; [|reflexivity].
  pose proof (remove_perm _ _ _ N I) as R.
  split; [|apply (Permutation_cons_inv (a := (a, n))); eapply Permutation_trans; [symmetry; exact R|exact P]].
  split; [|split]; cbn [h_cells h_next].
  - assert (E : Permutation (map fst (h_cells h)) (a :: map fst (remove a (h_cells h)))).
    { change (a :: map fst (remove a (h_cells h))) with (map fst ((a, n) :: remove a (h_cells h))). apply Permutation_map. exact R. }
    assert (N' : NoDup (a :: map fst (remove a (h_cells h)))) by (eapply Permutation_NoDup; eauto).
    inversion N'; assumption.
  - exact W0.
  - intros b m J. eapply (W b m). eapply Permutation_in; [symmetry; exact R|right; exact J].
Qed.

Lemma bind_eq {A B} (m : M A) (k : A -> M B) h a h' : m h = Some (a, h') -> bind m k h = k a h'.
Proof. intros E. unfold bind. rewrite E. reflexivity. Qed.
Lemma bind_assoc {A B C} (m : M A) (k : A -> M B) (k2 : B -> M C) h :
  bind (bind m k) k2 h = bind m (fun a => bind (k a) k2) h.
Proof. unfold bind. destruct (m h) as [[a h']|]; reflexivity. Qed.
Lemma bind_ret {A B} (a : A) (k : A -> M B) h : bind (ret a) k h = k a h.
Proof. reflexivity. Qed.

Lemma load_thr_ok a tid nx h L : models h L -> In (a, NThr tid nx) L -> load_thr a h = Some ((tid, nx), h).
Proof. intros H I. unfold load_thr. erewrite bind_eq by (eapply load_ok; eauto). reflexivity. Qed.
Lemma load_obj_ok a f nx h L : models h L -> In (a, NObj f nx) L -> load_obj a h = Some ((f, nx), h).
Proof. intros H I. unfold load_obj. erewrite bind_eq by (eapply load_ok; eauto). reflexivity. Qed.
Lemma load_res_ok a f nx h L : models h L -> In (a, NRes f nx) L -> load_res a h = Some ((f, nx), h).
Proof. intros H I. unfold load_res. erewrite bind_eq by (eapply load_ok; eauto). reflexivity. Qed.
Lemma load_prc_ok a p h L : models h L -> In (a, NPrc p) L -> load_prc a h = Some (p, h).
Proof. intros H I. unfold load_prc. erewrite bind_eq by (eapply load_ok; eauto). reflexivity. Qed.
Lemma load_str_ok a h L : models h L -> In (a, NStr) L -> load_str a h = Some (tt, h).
Proof. intros H I. unfold load_str. erewrite bind_eq by (eapply load_ok; eauto). reflexivity. Qed.

(** ** Chains *)

Definition hdp {A} (l : list (nat * A)) : ptr := match l with [] => NULL | (a, _) :: _ => a end.
Fixpoint thr_cells (l : list (nat * Z)) : list (nat * node) :=
  match l with [] => [] | (a, tid) :: t => (a, NThr tid (hdp t)) :: thr_cells t end.
Fixpoint obj_cells (l : list (nat * nat)) : list (nat * node) :=
  match l with [] => [] | (a, f) :: t => (a, NObj f (hdp t)) :: (f, NStr) :: obj_cells t end.
Fixpoint res_cells (l : list (nat * nat)) : list (nat * node) :=
  match l with [] => [] | (a, f) :: t => (a, NRes f (hdp t)) :: (f, NStr) :: res_cells t end.

Lemma thr_len l : List.length (thr_cells l) = List.length l.
Proof. induction l as [|[a b] t IH]; cbn; auto. Qed.
Lemma obj_len l : List.length (obj_cells l) = (2 * List.length l)%nat.
Proof. induction l as [|[a b] t IH]; cbn [obj_cells List.length]; lia. Qed.
Lemma res_len l : List.length (res_cells l) = (2 * List.length l)%nat.
Proof. induction l as [|[a b] t IH]; cbn [res_cells List.length]; lia. Qed.

Lemma eqb0 (a : nat) : a <> 0%nat -> Nat.eqb a 0 = false.
Proof. intros. apply Nat.eqb_neq. assumption. Qed.

Lemma release_thr_ok : forall l f F h, models h (thr_cells l ++ F) -> (List.length l < f)%nat ->
  exists h', release_ulp_thread f (hdp l) h = Some (tt, h') /\ models h' F /\ h_next h' = h_next h.
Proof.
  induction l as [|[a tid] t IH]; intros f F h H Hf; (destruct f as [|f]; [cbn in Hf; lia|]).
  - exists h. cbn. auto.
  - cbn [thr_cells app] in H. cbn [hdp release_ulp_thread].
    assert (I : In (a, NThr tid (hdp t)) ((a, NThr tid (hdp t)) :: thr_cells t ++ F)) by (left; reflexivity).
    pose proof (models_pos _ _ _ _ H I). rewrite eqb0 by lia.
    erewrite bind_eq by (eapply load_thr_ok; eauto). cbn [snd].
    destruct (free_ok _ _ _ _ H) as (h1 & E1 & M1 & N1). erewrite bind_eq by exact E1.
    destruct (IH f F h1 M1) as (h2 & E2 & M2 & N2); [cbn in Hf; lia|]. exists h2. rewrite E2. split; [reflexivity|split; [exact M2|lia]].
Qed.

Lemma release_obj_ok : forall l f F h, models h (obj_cells l ++ F) -> (List.length l < f)%nat ->
  exists h', release_ulp_dynobj f (hdp l) h = Some (tt, h') /\ models h' F /\ h_next h' = h_next h.
Proof.
  induction l as [|[a s] t IH]; intros f F h H Hf; (destruct f as [|f]; [cbn in Hf; lia|]).
  - exists h. cbn. auto.
  - cbn [obj_cells app] in H. cbn [hdp release_ulp_dynobj].
    assert (I : In (a, NObj s (hdp t)) ((a, NObj s (hdp t)) :: (s, NStr) :: obj_cells t ++ F)) by (left; reflexivity).
    pose proof (models_pos _ _ _ _ H I). rewrite eqb0 by lia.
    erewrite bind_eq by (eapply load_obj_ok; eauto). cbn [snd fst].
    assert (H1 : models h ((s, NStr) :: (a, NObj s (hdp t)) :: obj_cells t ++ F)) by reperm H.
    destruct (free_ok _ _ _ _ H1) as (h1 & E1 & M1 & N1). erewrite bind_eq by exact E1.
    destruct (free_ok _ _ _ _ M1) as (h2 & E2 & M2 & N2). erewrite bind_eq by exact E2.
    destruct (IH f F h2 M2) as (h3 & E3 & M3 & N3); [cbn in Hf; lia|]. exists h3. rewrite E3. split; [reflexivity|split; [exact M3|lia]].
Qed.

Lemma release_res_ok : forall l f F h, models h (res_cells l ++ F) -> (List.length l < f)%nat ->
  exists h', release_trigger_results f (hdp l) h = Some (tt, h') /\ models h' F /\ h_next h' = h_next h.
Proof.
  induction l as [|[a s] t IH]; intros f F h H Hf; (destruct f as [|f]; [cbn in Hf; lia|]).
  - exists h. cbn. auto.
  - cbn [res_cells app] in H. cbn [hdp release_trigger_results].
    assert (I : In (a, NRes s (hdp t)) ((a, NRes s (hdp t)) :: (s, NStr) :: res_cells t ++ F)) by (left; reflexivity).
    pose proof (models_pos _ _ _ _ H I). rewrite eqb0 by lia.
    erewrite bind_eq by (eapply load_res_ok; eauto). cbn [snd fst].
    assert (H1 : models h (res_cells t ++ (a, NRes s (hdp t)) :: (s, NStr) :: F)) by reperm H.
    destruct (IH f _ h H1) as (h1 & E1 & M1 & N1); [cbn in Hf; lia|]. erewrite bind_eq by exact E1.
    erewrite bind_eq by (eapply load_res_ok; [exact M1|left; reflexivity]). cbn [fst].
    assert (M1' : models h1 ((s, NStr) :: (a, NRes s (hdp t)) :: F)) by reperm M1.
    destruct (free_ok _ _ _ _ M1') as (h2 & E2 & M2 & N2). erewrite bind_eq by exact E2.
    destruct (free_ok _ _ _ _ M2) as (h3 & E3 & M3 & N3). exists h3. rewrite E3. split; [reflexivity|split; [exact M3|lia]].
Qed.

(** ** Processes *)

(** A process as it should be: the blocks it owns. *)
Record gproc := mk_g {
  g_addr : nat;
  g_pid : Z;
  g_main : ptr;
  g_om : list (nat * nat);
  g_tg : list (nat * nat);
  g_lp : ptr;
  g_rs : list (nat * nat)
}.
Definition g_prc (g : gproc) (thr : list (nat * Z)) (hij : bool) (nx : ptr) : prc :=
  mk_prc (g_pid g) (hdp thr) (g_main g) (hdp (g_om g)) (hdp (g_tg g)) (g_lp g) (hdp (g_rs g)) hij nx.
Definition g_rest (g : gproc) : list (nat * node) := obj_cells (g_om g) ++ obj_cells (g_tg g) ++ res_cells (g_rs g).
Definition g_cells (g : gproc) (thr : list (nat * Z)) (hij : bool) (nx : ptr) : list (nat * node) :=
  (g_addr g, NPrc (g_prc g thr hij nx)) :: thr_cells thr ++ g_rest g.

(** A process that was looked at completely. *)
Definition complete (g : gproc) : Prop :=
  (exists x, g_om g = [x]) /\ In (g_lp g) (map fst (g_tg g)) /\ g_pid g <> 0.

Definition phd (gs : list gproc) (nx : ptr) : ptr := match gs with [] => nx | g :: _ => g_addr g end.
Fixpoint p_cells (gs : list gproc) (nx : ptr) : list (nat * node) :=
  match gs with [] => [] | g :: t => g_cells g [] false (phd t nx) ++ p_cells t nx end.

Lemma p_cells_app gs1 gs2 nx : p_cells (gs1 ++ gs2) nx = p_cells gs1 (phd gs2 nx) ++ p_cells gs2 nx.
Proof.
  induction gs1 as [|g t IH]; [reflexivity|]. cbn [app p_cells]. rewrite IH.
  replace (phd (t ++ gs2) nx) with (phd t (phd gs2 nx)) by (destruct t; reflexivity). rewrite app_assoc. reflexivity.
Qed.

Lemma release_one_ok g thr hij nx f F h :
  models h (g_cells g thr hij nx ++ F) ->
  exists h', release_ulp_process (S f) (g_addr g) h = release_ulp_process f nx h' /\ models h' F /\ h_next h' = h_next h.
Proof.
  intros H. unfold g_cells, g_rest in H. cbn [app] in H. cbn [release_ulp_process].
  assert (I : In (g_addr g, NPrc (g_prc g thr hij nx)) ((g_addr g, NPrc (g_prc g thr hij nx)) :: (thr_cells thr ++ obj_cells (g_om g) ++ obj_cells (g_tg g) ++ res_cells (g_rs g)) ++ F)) by (left; reflexivity).
  pose proof (models_pos _ _ _ _ H I). rewrite eqb0 by lia.
  erewrite bind_eq by (eapply load_prc_ok; eauto). unfold g_prc at 1 2 3 4 5. cbn [pr_threads pr_objmain pr_targets pr_results pr_next].
  set (P := (g_addr g, NPrc (g_prc g thr hij nx))) in *.
  pose proof (models_len _ _ H) as Hl. cbn [List.length] in Hl. rewrite ?app_length, thr_len, ?obj_len, res_len in Hl.
  assert (H1 : models h (thr_cells thr ++ obj_cells (g_om g) ++ obj_cells (g_tg g) ++ res_cells (g_rs g) ++ P :: F)) by reperm H.
  destruct (release_thr_ok thr (S (h_next h)) _ h H1) as (h1 & E1 & M1 & N1); [lia|]. erewrite bind_eq by (unfold looping; exact E1).
  destruct (release_obj_ok _ (S (h_next h1)) _ h1 M1) as (h2 & E2 & M2 & N2); [lia|]. erewrite bind_eq by (unfold looping; exact E2).
  destruct (release_obj_ok _ (S (h_next h2)) _ h2 M2) as (h3 & E3 & M3 & N3); [lia|]. erewrite bind_eq by (unfold looping; exact E3).
  destruct (release_res_ok _ (S (h_next h3)) _ h3 M3) as (h4 & E4 & M4 & N4); [lia|]. erewrite bind_eq by (unfold looping; exact E4).
  destruct (free_ok _ _ _ _ M4) as (h5 & E5 & M5 & N5). erewrite bind_eq by exact E5.
  exists h5. split; [reflexivity|]. split; [exact M5|lia].
Qed.

Lemma p_len gs nx : (List.length gs <= List.length (p_cells gs nx))%nat.
Proof.
  induction gs as [|g t IH]; cbn [p_cells List.length]; [lia|]. rewrite app_length. unfold g_cells. cbn [List.length]. lia.
Qed.

Lemma release_ok : forall gs f F h, models h (p_cells gs NULL ++ F) -> (List.length gs < f)%nat ->
  exists h', release_ulp_process f (phd gs NULL) h = Some (tt, h') /\ models h' F.
Proof.
  induction gs as [|g t IH]; intros f F h H Hf; (destruct f as [|f]; [cbn in Hf; lia|]).
  - exists h. cbn. auto.
  - cbn [phd]. cbn [p_cells] in H. rewrite <- app_assoc in H.
    destruct (release_one_ok _ _ _ _ f _ _ H) as (h1 & -> & M1 & N1). apply IH; [exact M1|cbn in Hf; lia].
Qed.
