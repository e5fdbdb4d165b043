(** Proofs for C95. *)
From Coq Require Import Bool Lia.
From Verif Require Import Base BaseFacts InsnQModel InsnQSpec InsnQProofs PpcModel PpcSpec PpcProofs PwinModel PwinSpec.

(** ** Where calls go *)
Lemma goes_to_app a b f x : goes_to (a ++ b) f x = goes_to b f (goes_to a f x).
Proof. revert x. induction a as [|o a IH]; intros x; [reflexivity|]. cbn [app goes_to]. apply IH. Qed.
Lemma installed_last_app a b f x : installed_last (a ++ b) f x = installed_last b f (installed_last a f x).
Proof. revert x. induction a as [|o a IH]; intros x; [reflexivity|]. cbn [app installed_last]. apply IH. Qed.
Lemma goes_installed ops f now last g :
  (forall g, now = Some g -> last = Some g) -> goes_to ops f now = Some g -> installed_last ops f last = Some g.
Proof.
  revert now last. induction ops as [|o t IH]; intros now last H E; cbn [goes_to installed_last] in *; [auto|].
  eapply IH; [|exact E]. destruct (po_f o =? f); [|exact H]. intros g' ->. reflexivity.
Qed.
Lemma installed_stays ops f last : last <> None -> installed_last ops f last <> None.
Proof.
  revert last. induction ops as [|o t IH]; intros last H; cbn [installed_last]; [exact H|].
  apply IH. destruct (po_f o =? f); [|exact H]. destruct (po_new o); [discriminate|exact H].
Qed.

(** ** One request *)
Definition area_bytes (T g : Z) : list Z := concat (map (le_enc 4) (ulp_prologue_words T)) ++ le_enc 8 g.

Definition op_reqs (T off : Z) (o : pop) : list req :=
  match po_new o with
  | Some g => [ppc_area_req T (po_f o) g; ppc_branch_req (po_f o) off]
  | None => [ppc_nop_req (po_f o) off]
  end.
Definition do_op (T off : Z) (o : pop) (M : mem) : mem :=
  match po_new o with
  | Some g => mem_write (mem_write M (po_f o - 52) (area_bytes T g)) (po_f o + off)
                (le_enc 4 (branch_word (po_f o + off) (po_f o - 52)))
  | None => mem_write M (po_f o + off) (le_enc 4 NOP_WORD)
  end.

Record inv (T : Z) (fs : list (Z * Z)) (m : mem) (ops : list pop) (M : mem) : Prop := {
  in_bytes : forall x, is_byte (M x);
  in_slot : forall f off, In (f, off) fs ->
    word_at M (f + off) = match goes_to ops f None with Some _ => branch_word (f + off) (f - 52) | None => NOP_WORD end;
  in_area : forall f off g, In (f, off) fs -> installed_last ops f None = Some g ->
    mem_read M (f - 52) 52 = area_bytes T g;
  in_head : forall f off x, In (f, off) fs -> f <= x < f + off -> M x = m x
}.

Lemma word_ext m1 m2 a : (forall x, a <= x < a + 4 -> m1 x = m2 x) -> word_at m1 a = word_at m2 a.
Proof. intros H. unfold word_at. f_equal. apply mem_read_ext. intros i Hi. apply H. lia. Qed.

Section WithFunctions.
Variables (T : Z) (fs : list (Z * Z)) (m : mem).
Hypothesis HF : ppc_functions fs m.

Lemma off_cases f off : In (f, off) fs -> off = 0 \/ off = 8.
Proof. intros H. destruct (pf_ok _ _ HF _ _ H) as [_ [[-> _]|[-> _]]]; auto. Qed.
Lemma off_unique f o1 o2 : In (f, o1) fs -> In (f, o2) fs -> o1 = o2.
Proof.
  intros H1 H2. pose proof (get_branch_offset_ok _ _ _ (pf_ok _ _ HF _ _ H1)).
  pose proof (get_branch_offset_ok _ _ _ (pf_ok _ _ HF _ _ H2)). congruence.
Qed.


Lemma inv_livepatchable ops M f off : inv T fs m ops M -> In (f, off) fs -> ppc_livepatchable M f off.
Proof.
  intros H Hf. split; [apply (in_bytes _ _ _ _ _ H)|].
  assert (S : slot_ok M f off).
  { unfold slot_ok. rewrite (in_slot _ _ _ _ _ H f off Hf). destruct (goes_to ops f None); auto. }
  destruct (pf_ok _ _ HF _ _ Hf) as [_ [[-> _]|(-> & N & _)]]; [left; auto|right].
  split; [reflexivity|]. split; [|exact S]. intros [C|C]; apply N; [left|right]; rewrite <- C; symmetry.
  - replace (f + 0) with f by lia. apply word_ext. intros x Hx. apply (in_head _ _ _ _ _ H f 8); auto. lia.
  - replace (f + 0) with f by lia. apply word_ext. intros x Hx. apply (in_head _ _ _ _ _ H f 8); auto. lia.
Qed.

Lemma zlen_area g : zlen (area_bytes T g) = 52.
Proof. reflexivity. Qed.
Lemma zlen_word w : zlen (le_enc 4 w) = 4.
Proof. reflexivity. Qed.

Lemma word_written M a w : 0 <= w < 2 ^ 32 -> word_at (mem_write M a (le_enc 4 w)) a = w.
Proof.
  intros H. unfold word_at. change 4%nat with (length (le_enc 4 w)) at 1. rewrite mem_read_write_same.
  apply le_dec_enc_id. exact H.
Qed.

(** Only the window of the function changes. *)
Lemma do_op_out off o M x : In (po_f o, off) fs -> ~ ppc_window (po_f o) off x -> do_op T off o M x = M x.
Proof.
  intros Hf Hx. unfold ppc_window in Hx. unfold do_op. destruct (po_new o).
  - rewrite !mem_write_out; rewrite ?zlen_area, ?zlen_word; [reflexivity|lia|lia].
  - rewrite mem_write_out; rewrite ?zlen_word; [reflexivity|lia].
Qed.

Lemma do_op_inv ops M o off : inv T fs m ops M -> In (po_f o, off) fs -> inv T fs m (ops ++ [o]) (do_op T off o M).
Proof.
  intros H Ho. pose proof (off_cases _ _ Ho) as Oc. pose proof (pf_range _ _ HF _ _ Ho) as R. constructor.
  - intros x. unfold do_op. destruct (po_new o).
    + apply mem_write_bytes; [|apply le_enc_bytes]. intros y. apply mem_write_bytes; [apply (in_bytes _ _ _ _ _ H)|].
      apply prologue_bytes_ok.
    + apply mem_write_bytes; [apply (in_bytes _ _ _ _ _ H)|apply le_enc_bytes].
  - intros f off' Hf. rewrite goes_to_app. cbn [goes_to]. destruct (Z.eqb_spec (po_f o) f) as [E|E].
    + subst f. rewrite (off_unique _ _ _ Hf Ho). unfold do_op. destruct (po_new o).
      * apply word_written. apply branch_word_range.
      * apply word_written. vm_compute. split; congruence.
    + rewrite <- (in_slot _ _ _ _ _ H f off' Hf). apply word_ext. intros x Hx. apply do_op_out; [exact Ho|].
      pose proof (off_cases _ _ Hf). destruct (pf_apart _ _ HF _ _ _ _ Ho Hf) as [C|C]; [contradiction|].
      unfold ppc_window. lia.
  - intros f off' g Hf. rewrite installed_last_app. cbn [installed_last].
    pose proof (off_cases _ _ Hf) as Oc'.
    destruct (Z.eqb_spec (po_f o) f) as [E|E].
    + subst f. unfold do_op. destruct (po_new o) as [g'|].
      * intros X. injection X as ->. rewrite mem_read_write_out by (rewrite zlen_word; change (Z.of_nat 52) with 52; lia).
        change 52%nat with (length (area_bytes T g)). apply mem_read_write_same.
      * intros X. rewrite mem_read_write_out by (rewrite zlen_word; change (Z.of_nat 52) with 52; lia).
        eapply (in_area _ _ _ _ _ H); eauto.
    + intros X. rewrite <- (in_area _ _ _ _ _ H f off' g Hf X). apply mem_read_ext. intros i Hi.
      change (Z.of_nat 52) with 52 in Hi. apply do_op_out; [exact Ho|].
      destruct (pf_apart _ _ HF _ _ _ _ Ho Hf) as [C|C]; [contradiction|]. unfold ppc_window. lia.
  - intros f off' x Hf Hx. rewrite <- (in_head _ _ _ _ _ H f off' x Hf Hx). apply do_op_out; [exact Ho|].
    pose proof (off_cases _ _ Hf). destruct (pf_apart _ _ HF _ _ _ _ Ho Hf) as [C|C].
    + subst f. rewrite (off_unique _ _ _ Hf Ho) in Hx. unfold ppc_window. lia.
    + unfold ppc_window. lia.
Qed.

(** The thread's own stores, on its stack. *)
Lemma inv_outside ops M M' : inv T fs m ops M -> (forall x, is_byte (M' x)) ->
  (forall f off x, In (f, off) fs -> f - 52 <= x < f + 12 -> M' x = M x) -> inv T fs m ops M'.
Proof.
  intros H Hb Hx. constructor.
  - exact Hb.
  - intros f off Hf. rewrite <- (in_slot _ _ _ _ _ H f off Hf). apply word_ext. intros x X.
    pose proof (off_cases _ _ Hf). eapply Hx; [exact Hf|lia].
  - intros f off g Hf E. rewrite <- (in_area _ _ _ _ _ H f off g Hf E). apply mem_read_ext. intros i Hi.
    change (Z.of_nat 52) with 52 in Hi. eapply Hx; [exact Hf|lia].
  - intros f off x Hf X. rewrite <- (in_head _ _ _ _ _ H f off x Hf X). pose proof (off_cases _ _ Hf).
    eapply Hx; [exact Hf|lia].
Qed.

(** ** A visit *)
Definition off_in (M : mem) (f : Z) : Z := match get_branch_offset M f with Some off => off | None => 0 end.
Definition calls_reqs (M : mem) (ops : list pop) : list req :=
  flat_map (fun o => op_reqs T (off_in M (po_f o)) o) ops.

Lemma op_reqs_ok off o : Forall req_ok (op_reqs T off o).
Proof.
  unfold op_reqs. destruct (po_new o).
  - constructor; [apply area_req_ok|]. constructor; [apply word_req_ok|constructor].
  - constructor; [apply word_req_ok|constructor].
Qed.
Lemma calls_reqs_ok M ops : Forall req_ok (calls_reqs M ops).
Proof. induction ops as [|o t IH]; [constructor|]. apply Forall_app. split; [apply op_reqs_ok|exact IH]. Qed.

Lemma submit_all_app a b qe : submit_all (a ++ b) qe = submit_all b (submit_all a qe).
Proof. apply fold_left_app. Qed.

Lemma patch_calls_eq ops0 M ops qe : inv T fs m ops0 M -> ops_ok fs ops ->
  patch_calls T M ops qe = Some (submit_all (calls_reqs M ops) qe).
Proof.
  intros H. revert qe. induction ops as [|o t IH]; intros qe Hok; [reflexivity|].
  destruct (Hok o (or_introl eq_refl)) as [(off & Ho) _].
  pose proof (get_branch_offset_ok _ _ _ (inv_livepatchable _ _ _ _ H Ho)) as E.
  cbn [patch_calls calls_reqs flat_map]. rewrite submit_all_app.
  assert (X : off_in M (po_f o) = off) by (unfold off_in; rewrite E; reflexivity).
  rewrite X. unfold op_reqs. destruct (po_new o) as [g|].
  - rewrite ppc_patch_eq, E. cbn [Z.eqb]. rewrite IH; [reflexivity|]. intros o' Y. apply Hok. right. exact Y.
  - rewrite ppc_skip_eq, E. cbn [Z.eqb]. rewrite IH; [reflexivity|]. intros o' Y. apply Hok. right. exact Y.
Qed.

Lemma perform_op off o M : In (po_f o, off) fs ->
  perform_all (op_reqs T off o) (mk_tgt M []) = mk_tgt (do_op T off o M) [].
Proof.
  intros Ho. pose proof (pf_range _ _ HF _ _ Ho). pose proof (off_cases _ _ Ho). unfold op_reqs, do_op. destruct (po_new o).
  - cbn [perform_all fold_left perform ppc_area_req ppc_branch_req t_mem t_out].
    rewrite (u64_range (po_f o - 52)) by lia. rewrite (u64_range (po_f o + off)) by lia. reflexivity.
  - cbn [perform_all fold_left perform ppc_nop_req t_mem t_out].
    rewrite (u64_range (po_f o + off)) by lia. reflexivity.
Qed.

Lemma perform_all_app a b t : perform_all (a ++ b) t = perform_all b (perform_all a t).
Proof. apply fold_left_app. Qed.

Lemma perform_calls ops0 M0 ops : inv T fs m ops0 M0 -> ops_ok fs ops ->
  forall ops1 M, inv T fs m ops1 M ->
  exists M', perform_all (calls_reqs M0 ops) (mk_tgt M []) = mk_tgt M' [] /\ inv T fs m (ops1 ++ ops) M' /\
    (forall x, (forall f off, In (f, off) fs -> ~ ppc_window f off x) -> M' x = M x).
Proof.
  intros H0. induction ops as [|o t IH]; intros Hok ops1 M HM.
  - exists M. rewrite app_nil_r. split; [reflexivity|]. split; [exact HM|reflexivity].
  - destruct (Hok o (or_introl eq_refl)) as [(off & Ho) _].
    pose proof (get_branch_offset_ok _ _ _ (inv_livepatchable _ _ _ _ H0 Ho)) as E.
    destruct (IH (fun o' X => Hok o' (or_intror X)) (ops1 ++ [o]) (do_op T off o M)) as (M' & E1 & E2 & E3).
    { apply do_op_inv; assumption. }
    exists M'. cbn [calls_reqs flat_map]. rewrite perform_all_app.
    assert (X : off_in M0 (po_f o) = off) by (unfold off_in; rewrite E; reflexivity).
    rewrite X, (perform_op _ _ _ Ho).
    split; [exact E1|]. rewrite <- app_assoc in E2. split; [exact E2|].
    intros x Hx. rewrite E3 by exact Hx. eapply do_op_out; eauto.
Qed.

Lemma visit_inv ops v q M q' M' : inv T fs m ops M -> ops_ok fs v -> qinv q [] ->
  visit T v (q, M) = Some (q', M') ->
  inv T fs m (ops ++ v) M' /\ qinv q' [] /\
  (forall x, (forall f off, In (f, off) fs -> ~ ppc_window f off x) -> M' x = M x).
Proof.
  intros H Hok Hq. unfold visit. rewrite (patch_calls_eq ops M v (q, 0) H Hok).
  pose proof (submit_all_inv (calls_reqs M v) q 0 [] (calls_reqs_ok M v) Hq ltac:(discriminate)) as S.
  destruct (submit_all (calls_reqs M v) (q, 0)) as [q1 e]. destruct (Z.eqb_spec e 0) as [->|]; [|discriminate].
  destruct S as [[_ S]|S]; [|discriminate]. cbn [app] in S.
  rewrite (interpret_exact env_ok q1 (calls_reqs M v)); auto. cbn [Z.eqb].
  destruct (perform_calls ops M v H Hok ops M H) as (M1 & E1 & E2 & E3). rewrite E1. cbn [t_mem].
  intros X. injection X as <- <-. split; [exact E2|]. split; [|exact E3].
  destruct S as [_ _ S _]. constructor; cbn; try reflexivity; try exact S; [unfold INSN_BUFFER_MAX; lia|constructor].
Qed.

Lemma visits_inv vs : forall ops q M q' M', inv T fs m ops M -> ops_ok fs (concat vs) -> qinv q [] ->
  visits T vs (q, M) = Some (q', M') ->
  inv T fs m (ops ++ concat vs) M' /\ qinv q' [] /\
  (forall x, (forall f off, In (f, off) fs -> ~ ppc_window f off x) -> M' x = M x).
Proof.
  induction vs as [|v t IH]; intros ops q M q' M' H Hok Hq E; cbn [visits concat] in *.
  - injection E as <- <-. rewrite app_nil_r. auto.
  - destruct (visit T v (q, M)) as [[q1 M1]|] eqn:E1; [|discriminate].
    destruct (visit_inv ops v q M q1 M1 H) as (A & B & C); auto. { intros o X. apply Hok. apply in_or_app. auto. }
    destruct (IH (ops ++ v) q1 M1 q' M') as (A' & B' & C'); auto. { intros o X. apply Hok. apply in_or_app. auto. }
    rewrite <- app_assoc in A'. split; [exact A'|]. split; [exact B'|]. intros x Hx. rewrite C' by exact Hx. apply C. exact Hx.
Qed.
End WithFunctions.

(** ** Inside the area *)
Section Area.
Variables (T f : Z) (regs : Z -> Z) (lr ctr : Z).
Hypothesis HT : 0 <= T < 2 ^ 64.
Hypothesis HTa : T mod 4 = 0.
Hypothesis Hf : 52 <= f /\ f + 12 < 2 ^ 64.
Hypothesis Hsp : 16 <= regs 1 < 2 ^ 64.
Hypothesis Hst : regs 1 <= f - 52 \/ f + 12 <= regs 1 - 16.

Definition h1 := (T / 2 ^ 48) mod 2 ^ 16.
Definition h2 := (T / 2 ^ 32) mod 2 ^ 16.
Definition h3 := (T / 2 ^ 16) mod 2 ^ 16.
Definition h4 := T mod 2 ^ 16.
Definition g3 := gset regs 5 (u64 (sext 16 h1 * 2 ^ 16)).
Definition g4 := gset g3 5 (Z.lor (g3 5) h2).
Definition g5 := gset g4 12 (u64 (sext 16 h3 * 2 ^ 16)).
Definition g6 := gset g5 12 (Z.lor (g5 12) h4).
Definition g7 := gset g6 12 T.
Definition g9 := gset g7 5 lr.

(** Registers before the [k]-th instruction of the area; 11: behind the last one. *)
Definition G (k : nat) : Z -> Z :=
  match k with
  | 0 | 1 | 2 => regs | 3 => g3 | 4 => g4 | 5 => g5 | 6 => g6 | 7 | 8 => g7 | _ => g9
  end%nat.
Definition L (k : nat) : Z := if (k <? 10)%nat then lr else f - 12.
Definition C (k : nat) : Z := if (k <? 8)%nat then ctr else T.
Definition PC (k : nat) : Z := if (k <? 11)%nat then f - 52 + 4 * Z.of_nat k else T.
(** Its store. *)
Definition store (k : nat) (M : mem) : mem :=
  match k with
  | O => mem_write M (regs 1 - 8) (le_enc 8 (regs 5))
  | S O => mem_write M (regs 1 - 16) (le_enc 8 (regs 6))
  | _ => M
  end.
Definition st (k : nat) (M : mem) : cpu := mk_cpu (PC k) (G k) (L k) (C k) M.

Definition has_code (M : mem) : Prop :=
  forall k, (k < 11)%nat -> word_at M (f - 52 + 4 * Z.of_nat k) = nth k (ulp_prologue_words T) 0.

Lemma has_code_area M g : mem_read M (f - 52) 52 = area_bytes T g -> has_code M.
Proof. intros H k Hk. apply (words_at M (f - 52) (ulp_prologue_words T) (le_enc 8 g) k H (words_range T) Hk). Qed.

Lemma store_out k M x : ~ (regs 1 - 16 <= x < regs 1) -> store k M x = M x.
Proof.
  clear - k M x. intros N. destruct k as [|[|k]]; cbn [store]; [| |reflexivity]; apply mem_write_out;
    change (zlen (le_enc 8 _)) with 8; lia.
Qed.
Lemma store_code k M : has_code M -> has_code (store k M).
Proof.
  intros H j Hj. rewrite <- (H j Hj). apply word_ext. intros x Hx. apply store_out. lia.
Qed.

Lemma area_step k M : (k < 11)%nat -> has_code M -> ppc_step (st k M) = Some (st (S k) (store k M)).
Proof.
  intros Hk HM.
  pose proof (Z.mod_pos_bound (T / 2 ^ 48) (2 ^ 16) ltac:(lia)) as B1. fold h1 in B1.
  pose proof (Z.mod_pos_bound (T / 2 ^ 32) (2 ^ 16) ltac:(lia)) as B2. fold h2 in B2.
  pose proof (Z.mod_pos_bound (T / 2 ^ 16) (2 ^ 16) ltac:(lia)) as B3. fold h3 in B3.
  pose proof (Z.mod_pos_bound T (2 ^ 16) ltac:(lia)) as B4. fold h4 in B4.
  pose proof (HM k Hk) as W.
  assert (P : (k < 10)%nat -> u64 (f - 52 + 4 * Z.of_nat k + 4) = f - 52 + 4 * Z.of_nat (S k)).
  { intros X. rewrite u64_range by lia. lia. }
  destruct k as [|[|[|[|[|[|[|[|[|[|[|k]]]]]]]]]]]; [..|lia]; unfold st, PC, L, C; cbn [Nat.ltb Nat.leb G store].
  - rewrite (step_std5 _ _ _ _ _ W), P, (u64_range (regs 1 - 8)) by lia. reflexivity.
  - rewrite (step_std6 _ _ _ _ _ W), P, (u64_range (regs 1 - 16)) by lia. reflexivity.
  - rewrite (step_lis5 _ _ _ _ _ h1 B1 W), P by lia. reflexivity.
  - rewrite (step_ori5 _ _ _ _ _ h2 B2 W), P by lia. reflexivity.
  - rewrite (step_lis12 _ _ _ _ _ h3 B3 W), P by lia. reflexivity.
  - rewrite (step_ori12 _ _ _ _ _ h4 B4 W), P by lia. reflexivity.
  - rewrite (step_rldimi _ _ _ _ _ W), P by lia.
    match goal with |- Some (mk_cpu _ (gset _ 12 ?e) _ _ _) = _ => assert (E : e = T) end.
    { pose proof (half_assembled _ _ B1 B2) as [A1 A1r]. pose proof (half_assembled _ _ B3 B4) as [A2 A2r].
      unfold g6, g5, g4, g3, gset. cbn [Z.eqb Pos.eqb]. rewrite A1, A2.
      rewrite (Z.div_small _ (2 ^ 64)) by exact A2r. rewrite Z.mul_0_l, Z.add_0_l. symmetry. apply assembled. exact HT. }
    rewrite E. reflexivity.
  - rewrite (step_mtctr _ _ _ _ _ W), P by lia. reflexivity.
  - rewrite (step_mflr _ _ _ _ _ W), P by lia. reflexivity.
  - rewrite (step_bl4 _ _ _ _ _ W), P by lia. do 2 f_equal. lia.
  - rewrite (step_bctr _ _ _ _ _ W). do 2 f_equal. pose proof (Z.div_mod T 4 ltac:(lia)). lia.
Qed.

(** The stores that are still to come. *)
Definition stores (k : nat) (M : mem) : mem :=
  match k with O => store 1 (store 0 M) | S O => store 1 M | _ => M end.
Lemma stores_step k M : stores (S k) (store k M) = stores k M.
Proof. destruct k as [|[|k]]; reflexivity. Qed.

Lemma area_runs n : forall k M, (k + n = 11)%nat -> has_code M ->
  exists trail, runs (st k M) trail (st 11 (stores k M)) /\ forall a, In a trail -> f - 52 <= a < f.
Proof.
  induction n as [|n IH]; intros k M Hk HM.
  - assert (k = 11)%nat by lia. subst k. exists []. split; [constructor|]. intros a [].
  - destruct (IH (S k) (store k M) ltac:(lia) (store_code k M HM)) as (t & R & A).
    rewrite stores_step in R. exists (c_pc (st k M) :: t). split.
    + eapply runs_step; [|exact R]. apply area_step; [lia|exact HM].
    + intros a [<-|X]; [|apply A; exact X]. cbn [st c_pc]. unfold PC. destruct (Nat.ltb_spec k 11); lia.
Qed.

(** Where a thread in the area can be. *)
Lemma area_stops c trail c' : runs c trail c' -> forall k M, (k < 11)%nat -> c = st k M -> has_code M ->
  (forall a, In a (c_pc c' :: trail) -> a <> T) ->
  exists j M', (k <= j < 11)%nat /\ c' = st j M' /\ has_code M' /\
    ((k = 0 /\ j = 0 /\ M' = M) \/ (k = 0 /\ j = 1 /\ M' = store 0 M) \/ (k = 0 /\ 2 <= j /\ M' = store 1 (store 0 M)) \/
     (k = 1 /\ j = 1 /\ M' = M) \/ (k = 1 /\ 2 <= j /\ M' = store 1 M) \/ (2 <= k /\ M' = M))%nat.
Proof.
  induction 1 as [c|c c1 trail c' Hs R IH]; intros k M Hk Hc HM Ha.
  - exists k, M. split; [lia|]. split; [exact Hc|]. split; [exact HM|].
    destruct k as [|[|k]]; [auto|do 3 right; left; auto|do 5 right; split; [lia|reflexivity]].
  - subst c. rewrite (area_step k M Hk HM) in Hs. injection Hs as <-.
    assert (Hk' : (S k < 11)%nat).
    { destruct (Nat.eq_dec k 10) as [->|]; [|lia]. exfalso.
      assert (X : c_pc (st 11 (store 10 M)) = T) by reflexivity.
      destruct R as [c|c c2 tr c'' S2 R2].
      - apply (Ha (c_pc c)); [left; reflexivity|exact X].
      - apply (Ha (c_pc c)); [right; right; left; reflexivity|exact X]. }
    destruct (IH (S k) (store k M) Hk' eq_refl (store_code k M HM)) as (j & M' & H1 & H2 & H3 & H4).
    { intros a [<-|X]; apply Ha; [left; reflexivity|right; right; exact X]. }
    exists j, M'. split; [lia|]. split; [exact H2|]. split; [exact H3|].
    destruct k as [|[|k]]; cbn [store] in H4 |- *; intuition (try lia).
    all: try (right; left; split; [reflexivity|split; [lia|assumption]]).
    all: try (right; right; left; split; [reflexivity|split; [lia|assumption]]).
Qed.
End Area.

(** ** The caller's registers on the stack *)
Section Saved.
Variable (regs : Z -> Z).
Definition saved5 (M : mem) : Prop := mem_read M (regs 1 - 8) 8 = le_enc 8 (regs 5).
Definition saved6 (M : mem) : Prop := mem_read M (regs 1 - 16) 8 = le_enc 8 (regs 6).
Definition saved (j : nat) (M : mem) : Prop := ((1 <= j)%nat -> saved5 M) /\ ((2 <= j)%nat -> saved6 M).

Lemma saved5_store0 M : saved5 (store regs 0 M).
Proof. unfold saved5. cbn [store]. change 8%nat with (length (le_enc 8 (regs 5))). apply mem_read_write_same. Qed.
Lemma saved6_store1 M : saved6 (store regs 1 M).
Proof. unfold saved6. cbn [store]. change 8%nat with (length (le_enc 8 (regs 6))) at 1. apply mem_read_write_same. Qed.
Lemma saved5_store1 M : saved5 M -> saved5 (store regs 1 M).
Proof.
  intros H. unfold saved5. cbn [store]. rewrite mem_read_write_out; [exact H|].
  change (zlen (le_enc 8 (regs 6))) with 8. change (Z.of_nat 8) with 8. lia.
Qed.
Lemma saved_ext j M M' : (forall x, regs 1 - 16 <= x < regs 1 -> M' x = M x) -> saved j M -> saved j M'.
Proof.
  intros H [A B]. split; intros X; [specialize (A X); unfold saved5 in *; rewrite <- A|specialize (B X); unfold saved6 in *; rewrite <- B];
    apply mem_read_ext; intros i Hi; change (Z.of_nat 8) with 8 in Hi; apply H; lia.
Qed.
Lemma stores_saved j M : saved j M -> saved5 (stores regs j M) /\ saved6 (stores regs j M).
Proof.
  intros [A B]. destruct j as [|[|j]]; cbn [stores].
  - split; [apply saved5_store1, saved5_store0|apply saved6_store1].
  - split; [apply saved5_store1, A; lia|apply saved6_store1].
  - split; [apply A; lia|apply B; lia].
Qed.
Lemma stores_out j M x : ~ (regs 1 - 16 <= x < regs 1) -> stores regs j M x = M x.
Proof. intros H. destruct j as [|[|j]]; cbn [stores]; rewrite ?(store_out regs _ _ x H); reflexivity. Qed.
Lemma store_bytes j M : (forall x, is_byte (M x)) -> forall x, is_byte (store regs j M x).
Proof.
  intros H x. destruct j as [|[|j]]; cbn [store]; [| |apply H]; apply mem_write_bytes; auto; apply le_enc_bytes.
Qed.
End Saved.

Lemma installed_in ops f last g : installed_last ops f last = Some g ->
  last = Some g \/ exists o, In o ops /\ po_new o = Some g.
Proof.
  revert last. induction ops as [|o t IH]; intros last H; cbn [installed_last] in H; [auto|].
  destruct (IH _ H) as [E|(o' & A & B)].
  - destruct (po_f o =? f); [|auto]. destruct (po_new o) as [g'|] eqn:N; [|auto]. right. exists o. split; [left; reflexivity|congruence].
  - right. exists o'. split; [right; exact A|exact B].
Qed.

Lemma window_in f off : ppc_window f off (f + off).
Proof. unfold ppc_window. lia. Qed.

(** At the end of the area. *)
Lemma at_the_end T f regs lr ctr j M g : 52 <= f -> 0 <= g < 2 ^ 64 -> mem_read M (f - 52) 52 = area_bytes T g ->
  regs 1 <= f - 52 \/ f + 12 <= regs 1 - 16 -> saved regs j M ->
  bound_for T g regs lr (st T f regs lr ctr 11 (stores regs j M)).
Proof.
  intros Hf Hg HA Hs HS. destruct (stores_saved regs j M HS) as [S5 S6].
  constructor.
  - reflexivity.
  - cbn [st c_mem c_lr]. unfold L. cbn [Nat.ltb Nat.leb].
    apply (tail_at M (f - 52) (ulp_prologue_words T) (le_enc 8 g)) in HA. change (4 * zlen (ulp_prologue_words T)) with 44 in HA.
    change (length (le_enc 8 g)) with 8%nat in HA. replace (f - 12 + 4) with (f - 52 + 44) by lia.
    replace (mem_read (stores regs j M) (f - 52 + 44) 8) with (mem_read M (f - 52 + 44) 8).
    + rewrite HA. apply le_dec_enc_id. exact Hg.
    + apply mem_read_ext. intros i Hi. change (Z.of_nat 8) with 8 in Hi. symmetry. apply stores_out. lia.
  - reflexivity.
  - exact S5.
  - exact S6.
  - intros r H5 H12. cbn [st c_gpr G]. unfold g9, g7, g6, g5, g4, g3, gset.
    destruct (Z.eqb_spec r 5); [contradiction|]. destruct (Z.eqb_spec r 12); [contradiction|]. reflexivity.
Qed.
