(** Proofs for C86. *)
From Coq Require Import Bool Lia.
From Verif Require Import Base BaseFacts InsnQModel DlModel LibModel LibSpec SigModel KillModel KillSpec.

(** ** The queue, store by store *)

Definition poke_all (l : list (Z * Z)) (m : mem) : mem := fold_left (fun m s => mem_write m (fst s) [snd s]) l m.

Lemma poke_all_app l1 l2 m : poke_all (l1 ++ l2) m = poke_all l2 (poke_all l1 m).
Proof. unfold poke_all. apply fold_left_app. Qed.

Lemma poke_all_ext l : forall m m', (forall x, m x = m' x) -> forall x, poke_all l m x = poke_all l m' x.
Proof.
  induction l as [|[a b] l IH]; intros m m' H x; [apply H|]. cbn [poke_all fold_left fst snd]. apply IH. intros y.
  unfold mem_write. destruct (_ && _); [reflexivity|apply H].
Qed.

Lemma mem_write_ext m m' a l : (forall x, m x = m' x) -> forall x, mem_write m a l x = mem_write m' a l x.
Proof. intros H x. unfold mem_write. destruct (_ && _); [reflexivity|apply H]. Qed.

Lemma poke_bytes bytes : forall a k m,
  forall x, poke_all (combine (map (fun i => a + Z.of_nat i) (seq k (length bytes))) bytes) m x =
            mem_write m (a + Z.of_nat k) bytes x.
Proof.
  induction bytes as [|b l IH]; intros a k m x.
  - cbn. symmetry. apply mem_write_nil.
  - cbn [length seq map combine]. change (poke_all ((a + Z.of_nat k, b) :: ?l) m) with (poke_all l (mem_write m (a + Z.of_nat k) [b])).
    rewrite IH. change (b :: l) with ([b] ++ l). rewrite mem_write_app. f_equal. unfold zlen. cbn [length]. lia.
Qed.

(** Recording the stores and making them are the same. *)
Definition rel (m : mem) (l : list (Z * Z)) (t : tgt) : Prop := forall x, t_mem t x = poke_all l m x.

Lemma loop_same m buf size : forall k idx pc t l,
  rel m l t ->
  match insnq_loop tgt_print (tool_write (te_wf env_ok)) k idx buf size pc t,
        insnq_loop (fun _ l => l) rec_write k idx buf size pc l with
  | I_UB _, I_UB _ => True
  | I_ret c t', I_ret c' l' => c = c' /\ rel m l' t'
  | _, _ => False
  end.
Proof.
  induction k as [|k IH]; intros idx pc t l R; cbn [insnq_loop].
  - destruct (pc =? size); split; auto.
  - destruct (negb _); [exact I|]. destruct (ulp_insn_valid (buf pc)); [|split; auto].
    unfold insn_interpret. destruct (negb (pc + 4 <=? INSN_BUFFER_MAX)); [exact I|].
    destruct (buf pc =? ULP_INSN_NOP); [apply IH; exact R|].
    destruct (buf pc =? ULP_INSN_PRINT).
    { destruct (cstr_at _ _ _); [|exact I]. apply IH. exact R. }
    destruct (negb (buf pc =? ULP_INSN_WRITE)); [exact I|].
    destruct (negb (pc + 16 <=? INSN_BUFFER_MAX)); [exact I|].
    destruct (negb (pc + 16 + _ <=? INSN_BUFFER_MAX)); [exact I|].
    unfold tool_write, rec_write. cbn [te_wf env_ok]. apply IH.
    intros x. cbn [t_mem]. rewrite poke_all_app.
    rewrite (poke_bytes _ _ 0). rewrite Z.add_0_r. apply mem_write_ext. exact R.
Qed.

Lemma exec_stores q m ret q' t :
  insnq_interpret_from_process env_ok true q (mk_tgt m []) = Some (ret, q', t) ->
  exists l ok, stores q = Some (l, ok) /\ (forall x, t_mem t x = poke_all l m x) /\ q' = if ok then insnq_reset q else q.
Proof.
  unfold insnq_interpret_from_process, stores. cbn [negb].
  destruct (insnq_get_from_remote_process env_ok q) as [r q1]. destruct (negb (r =? 0)).
  { intros H. injection H as <- <- <-. exists [], false. repeat split. }
  destruct (q_size q1 >? INSN_BUFFER_MAX).
  { intros H. injection H as <- <- <-. exists [], false. repeat split. }
  unfold insnq_interpret. destruct (q_num q1 <? 0).
  { change (negb (EINSNQ =? 0)) with true. change (EINSNQ =? 0) with false.
    intros H. injection H as <- <- <-. exists [], false. repeat split. }
  pose proof (loop_same m (q_buf q1) (q_size q1) (Z.to_nat (q_num q1)) 0 0 (mk_tgt m []) [] (fun x => eq_refl)) as L.
  destruct (insnq_loop tgt_print _ _ _ _ _ _ _) as [?|c t1]; destruct (insnq_loop _ rec_write _ _ _ _ _ _) as [?|c' l'];
    try contradiction; try discriminate.
  destruct L as [<- L]. change (te_upd env_ok) with 0. change (negb (0 =? 0)) with false.
  destruct (c =? 0); cbn [negb]; intros H; injection H as <- <- <-.
  - exists l', true. repeat split. exact L.
  - exists l', false. repeat split. exact L.
Qed.

(** ** Threads *)

Definition S_ : task := mk_task [] (Traced SIGSTOP) true false false.
Definition R_ : task := mk_task [] Resumed true false true.
Definition T_ : task := mk_task [] (Traced SIGTRAP) true false true.
Definition T0_ : task := mk_task [] (Traced SIGTRAP) true false false.

Definition threads (found : list Z) (st : Z -> task) : list (Z * task) := map (fun t => (t, st t)) found.
Definition upd (tid : Z) (f : task -> task) (st : Z -> task) : Z -> task := fun x => if x =? tid then f (st x) else st x.

Lemma on_thread_threads found st tid f p :
  on_thread tid f (mk_world (threads found st) p) = mk_world (threads found (upd tid f st)) p.
Proof.
  unfold on_thread, threads, upd. cbn [w_threads w_proc]. f_equal. rewrite map_map. apply map_ext. intros x. cbn [fst snd].
  destruct (x =? tid); reflexivity.
Qed.

Lemma threads_ext found st st' : (forall x, In x found -> st x = st' x) -> threads found st = threads found st'.
Proof. intros H. apply map_ext_in. intros x I. rewrite (H x I). reflexivity. Qed.

(** ** Prefixes *)

Lemma prefixes main (P : world -> Prop) l1 l2 w :
  (forall k, P (acts_run main (firstn k l1) w)) ->
  (forall k, P (acts_run main (firstn k l2) (acts_run main l1 w))) ->
  forall k, P (acts_run main (firstn k (l1 ++ l2)) w).
Proof.
  intros H1 H2 k. rewrite firstn_app. unfold acts_run. rewrite fold_left_app.
  destruct (Nat.le_gt_cases k (length l1)) as [Le|Gt].
  - replace (k - length l1)%nat with 0%nat by lia. cbn [firstn fold_left]. exact (H1 k).
  - rewrite (firstn_all2 l1) by lia. exact (H2 (k - length l1)%nat).
Qed.

Lemma prefix_cons main (P : world -> Prop) a l w :
  P w -> (forall k, P (acts_run main (firstn k l) (act_step main w a))) ->
  forall k, P (acts_run main (firstn k (a :: l)) w).
Proof. intros H1 H2 [|k]; [exact H1|]. exact (H2 k). Qed.

Lemma prefix_nil main (P : world -> Prop) w : P w -> forall k, P (acts_run main (firstn k []) w).
Proof. intros H k. rewrite firstn_nil. exact H. Qed.

Lemma acts_run_app main l1 l2 w : acts_run main (l1 ++ l2) w = acts_run main l2 (acts_run main l1 w).
Proof. unfold acts_run. apply fold_left_app. Qed.

Section Death.
Variable main : Z.
Variable found : list Z.
Variable p p' : proc.
Hypothesis main_in : In main found.
Hypothesis nodup : NoDup found.

(** What holds whenever the tool dies. *)
Definition calm (t : task) : Prop := t = S_ \/ t = at_ease.
Inductive point : world -> Prop :=
| pt_own st q : (forall x, In x found -> calm (st x)) -> same_proc q p \/ same_proc q p' ->
    point (mk_world (threads found st) q)
| pt_in st q : st main = R_ -> (forall x, In x found -> x <> main -> calm (st x)) -> point (mk_world (threads found st) q)
| pt_trap st q : st main = T_ \/ st main = T0_ -> point (mk_world (threads found st) q).

Lemma same_refl q : same_proc q q.
Proof. split; reflexivity. Qed.

(** Attaching. *)
Lemma attach_calm t : calm t -> attached t = S_.
Proof. intros [->| ->]; reflexivity. Qed.

Lemma attach_all : forall l st, (forall x, In x found -> calm (st x)) -> incl l found ->
  (forall k, point (acts_run main (firstn k (map A_attach l)) (mk_world (threads found st) p))) /\
  exists st', acts_run main (map A_attach l) (mk_world (threads found st) p) = mk_world (threads found st') p /\
    (forall x, In x l -> st' x = S_) /\ (forall x, ~ In x l -> st' x = st x) /\ forall x, In x found -> calm (st' x).
Proof.
  induction l as [|t l IH]; intros st C I; cbn [map].
  - split; [apply prefix_nil; apply pt_own; [exact C|left; apply same_refl]|].
    exists st. repeat split; try contradiction. exact C.
  - assert (C' : forall x, In x found -> calm (upd t attached st x)).
    { intros x X. unfold upd. destruct (x =? t); [|auto]. rewrite attach_calm by auto. left. reflexivity. }
    destruct (IH (upd t attached st) C') as (P & st' & E & A & B & D); [intros x X; apply I; right; exact X|].
    split.
    + apply prefix_cons; [apply pt_own; [exact C|left; apply same_refl]|].
      cbn [act_step]. rewrite on_thread_threads. exact P.
    + exists st'. split; [cbn [acts_run fold_left act_step]; rewrite on_thread_threads; exact E|].
      split; [|split; [|exact D]].
      * intros x [<-|X]; [|auto]. destruct (in_dec Z.eq_dec t l) as [J|J]; [auto|]. rewrite (B _ J). unfold upd.
        rewrite Z.eqb_refl. apply attach_calm. apply C. apply I. left. reflexivity.
      * intros x X. rewrite B by (intros J; apply X; right; exact J). unfold upd.
        destruct (Z.eqb_spec x t) as [->|]; [exfalso; apply X; left; reflexivity|reflexivity].
Qed.

(** One request. *)
Lemma pokes_run l : forall st q,
  acts_run main (map (fun s => A_poke (fst s) (snd s)) l) (mk_world (threads found st) q) =
  mk_world (threads found st) (mk_proc (p_lib q) (poke_all l (p_mem q))).
Proof.
  induction l as [|[a b] l IH]; intros st q; [destruct q; reflexivity|].
  cbn [map acts_run fold_left act_step fst snd w_threads w_proc]. fold (acts_run main). 
  change (fold_left (act_step main) ?x ?w) with (acts_run main x w). rewrite IH. reflexivity.
Qed.

Lemma queue_run st lst acts q : queue_acts lst = Some acts -> st main = T_ -> p_lib q = lst ->
  (forall k, point (acts_run main (firstn k acts) (mk_world (threads found st) q))) /\
  exists l ok, stores (s_q lst) = Some (l, ok) /\
    acts_run main acts (mk_world (threads found st) q) =
    mk_world (threads found st) (mk_proc (if ok then set_qe lst (insnq_reset (s_q lst), s_err lst) else lst) (poke_all l (p_mem q))).
Proof.
  intros Q M E. unfold queue_acts in Q. destruct (stores (s_q lst)) as [[l ok]|] eqn:St; [|discriminate]. injection Q as <-.
  split.
  - assert (G : forall acts q0, (forall a, In a acts -> (exists x b, a = A_poke x b) \/ a = A_reset) ->
      forall k, point (acts_run main (firstn k acts) (mk_world (threads found st) q0))).
    { induction acts as [|a acts IH]; intros q0 H; [apply prefix_nil; apply pt_trap; left; exact M|].
      apply prefix_cons; [apply pt_trap; left; exact M|].
      destruct (H a (or_introl eq_refl)) as [(x & b & ->)| ->]; cbn [act_step w_threads w_proc];
        apply IH; intros a' I; apply H; right; exact I. }
    apply G. intros a I. apply in_app_or in I. destruct I as [I|I].
    + apply in_map_iff in I. destruct I as ([x b] & <- & _). left. eauto.
    + destruct ok; [destruct I as [<-|[]]; right; reflexivity|contradiction].
  - exists l, ok. split; [reflexivity|]. unfold acts_run. rewrite fold_left_app.
    change (fold_left (act_step main) (map (fun s => A_poke (fst s) (snd s)) l) ?w) with
      (acts_run main (map (fun s => A_poke (fst s) (snd s)) l) w).
    rewrite pokes_run, E. destruct ok; reflexivity.
Qed.

Definition others_calm (st : Z -> task) : Prop := forall x, In x found -> x <> main -> st x = S_.

Lemma start_main t : t = S_ \/ t = T_ -> started t = R_.
Proof. intros [->| ->]; reflexivity. Qed.

Lemma head_run st lst q rest : others_calm st -> st main = T_ \/ (st main = S_ /\ same_proc q p) ->
  (forall st', st' main = T_ -> others_calm st' ->
     forall k, point (acts_run main (firstn k rest) (mk_world (threads found st') (mk_proc lst (p_mem q))))) ->
  (forall k, point (acts_run main (firstn k ([A_buffer; A_start; A_return lst] ++ rest)) (mk_world (threads found st) q))) /\
  exists st', st' main = T_ /\ others_calm st' /\
    acts_run main ([A_buffer; A_start; A_return lst] ++ rest) (mk_world (threads found st) q) =
    acts_run main rest (mk_world (threads found st') (mk_proc lst (p_mem q))).
Proof.
  intros O M H.
  assert (P0 : point (mk_world (threads found st) q)).
  { destruct M as [M|[M E]]; [apply pt_trap; left; exact M|]. apply pt_own; [|left; exact E].
    intros x I. destruct (Z.eq_dec x main) as [->|N]; left; [exact M|exact (O x I N)]. }
  set (st1 := upd main started st). set (st2 := upd main trapped st1).
  assert (E1 : st1 main = R_).
  { unfold st1, upd. rewrite Z.eqb_refl. apply start_main. destruct M as [M|[M _]]; auto. }
  assert (E2 : st2 main = T_) by (unfold st2, upd; rewrite Z.eqb_refl, E1; reflexivity).
  assert (O1 : others_calm st1).
  { intros x I N. unfold st1, upd. destruct (Z.eqb_spec x main); [contradiction|]. exact (O x I N). }
  assert (O2 : others_calm st2).
  { intros x I N. unfold st2, upd. destruct (Z.eqb_spec x main); [contradiction|]. exact (O1 x I N). }
  split.
  - cbn [app]. apply prefix_cons; [exact P0|]. cbn [act_step]. apply prefix_cons; [exact P0|].
    cbn [act_step]. rewrite on_thread_threads. fold st1. apply prefix_cons.
    { apply pt_in; [exact E1|]. intros x I N. left. exact (O1 x I N). }
    cbn [act_step w_threads w_proc]. rewrite on_thread_threads. fold st2. apply H; assumption.
  - exists st2. split; [exact E2|]. split; [exact O2|]. cbn [app acts_run fold_left act_step].
    rewrite on_thread_threads. fold st1. cbn [w_threads w_proc]. rewrite on_thread_threads. reflexivity.
Qed.

Lemma request_run r q q0 acts q1 ans st : request_acts r q0 = Some acts -> serve r q0 = Some (q1, ans) -> same_proc q q0 ->
  others_calm st -> st main = T_ \/ (st main = S_ /\ same_proc q p) ->
  (forall k, point (acts_run main (firstn k acts) (mk_world (threads found st) q))) /\
  exists st' q', st' main = T_ /\ others_calm st' /\ same_proc q' q1 /\
    acts_run main acts (mk_world (threads found st) q) = mk_world (threads found st') q'.
Proof.
  intros A Sv [EL EM] O M.
  assert (W : forall lst result acts', queue_acts lst = Some acts' ->
     interpret_and_report env_ok lst (p_mem q0) result = Some (q1, ans) ->
     (forall k, point (acts_run main (firstn k ([A_buffer; A_start; A_return lst] ++ acts')) (mk_world (threads found st) q))) /\
     exists st' q', st' main = T_ /\ others_calm st' /\ same_proc q' q1 /\
       acts_run main ([A_buffer; A_start; A_return lst] ++ acts') (mk_world (threads found st) q) = mk_world (threads found st') q').
  { intros lst result acts' Q IR. unfold interpret_and_report in IR.
    destruct (insnq_interpret_from_process env_ok true (s_q lst) (mk_tgt (p_mem q0) [])) as [[[ret q'] t]|] eqn:X; [|discriminate].
    destruct (exec_stores _ _ _ _ _ X) as (l & ok & St & Mm & Eq).
    assert (E1 : q1 = mk_proc (set_qe lst (q', s_err lst)) (t_mem t)).
    { destruct (_ && _); injection IR as <- _; reflexivity. }
    destruct (head_run st lst q acts' O M) as (P & st' & F1 & F2 & F3).
    { intros st' F1 F2. apply (queue_run st' lst acts' (mk_proc lst (p_mem q)) Q F1 eq_refl). }
    split; [exact P|]. destruct (queue_run st' lst acts' (mk_proc lst (p_mem q)) Q F1 eq_refl) as (_ & l2 & ok2 & St2 & R).
    rewrite St in St2. injection St2 as <- <-.
    exists st'. eexists. split; [exact F1|]. split; [exact F2|]. split; [|rewrite F3; exact R].
    rewrite E1, Eq. split; cbn [p_lib p_mem].
    - destruct ok; [reflexivity|]. destruct lst; reflexivity.
    - intros x. rewrite Mm. apply poke_all_ext. exact EM. }
  destruct r as [busy e name|rax busy e junk buf]; cbn [request_acts serve] in A, Sv.
  - unfold tool_revert_patches_from_lib in Sv.
    destruct (ulp_revert_patches_from_lib _ _ _ _ _ _) as [[lst result]|]; [|discriminate].
    destruct (queue_acts lst) as [acts'|] eqn:Q; [|discriminate]. injection A as <-. exact (W lst result acts' Q Sv).
  - unfold tool_apply_patch in Sv. destruct (ulp_apply_patch _ _ _ _ _ _) as [[lst result]|]; [|discriminate].
    destruct (_ && _ && _).
    + injection A as <-. injection Sv as <- _. change [A_buffer; A_start; A_return lst] with ([A_buffer; A_start; A_return lst] ++ []).
      destruct (head_run st lst q [] O M) as (P & st' & F1 & F2 & F3).
      { intros st' F1 F2. apply prefix_nil. apply pt_trap. left. exact F1. }
      split; [exact P|]. exists st', (mk_proc lst (p_mem q)). repeat split; auto.
    + destruct (queue_acts lst) as [acts'|] eqn:Q; [|discriminate]. injection A as <-. exact (W lst result acts' Q Sv).
Qed.

Lemma attempt_run l : forall q q0 acts q1 st, attempt_acts l q0 = Some (acts, q1) -> same_proc q q0 ->
  others_calm st -> st main = T_ \/ (st main = S_ /\ same_proc q p) ->
  (forall k, point (acts_run main (firstn k acts) (mk_world (threads found st) q))) /\
  exists st' q', others_calm st' /\ same_proc q' q1 /\
    (st' main = T_ \/ (st' main = S_ /\ same_proc q' p)) /\
    acts_run main acts (mk_world (threads found st) q) = mk_world (threads found st') q'.
Proof.
  induction l as [|r l IH]; intros q q0 acts q1 st A E O M; cbn [attempt_acts] in A.
  - injection A as <- <-. split.
    + apply prefix_nil. destruct M as [M|[M X]]; [apply pt_trap; left; exact M|]. apply pt_own; [|left; exact X].
      intros x I. destruct (Z.eq_dec x main) as [->|N]; left; [exact M|exact (O x I N)].
    + exists st, q. repeat split; auto; apply E.
  - destruct (request_acts r q0) as [a1|] eqn:RA; [|discriminate]. destruct (serve r q0) as [[qa ans]|] eqn:SV; [|discriminate].
    destruct (request_run r q q0 a1 qa ans st RA SV E O M) as (P & st1 & qq & F1 & F2 & F3 & F4).
    destruct (_ =? 0) in A.
    + destruct (attempt_acts l qa) as [[a2 q2]|] eqn:A2; [|discriminate]. injection A as <- <-.
      destruct (IH qq qa a2 q2 st1 A2 F3 F2 (or_introl F1)) as (P2 & st2 & q' & G1 & G2 & G3 & G4).
      split; [apply prefixes; [exact P|rewrite F4; exact P2]|].
      exists st2, q'. repeat split; try assumption; try apply G2. unfold acts_run. rewrite fold_left_app.
      change (fold_left (act_step main) a1 ?w) with (acts_run main a1 w). rewrite F4. exact G4.
    + injection A as <- <-. split; [exact P|]. exists st1, qq. repeat split; auto; apply F3.
Qed.

(** Releasing. *)
Lemma release_all : forall l st q, incl l found -> NoDup l ->
  (forall x, In x l -> x <> main -> st x = S_) -> (forall x, In x found -> ~ In x l -> st x = at_ease) ->
  (In main l -> st main = T_ \/ (st main = S_ /\ same_proc q p)) ->
  same_proc q p' ->
  (forall k, point (acts_run main (firstn k (flat_map release_acts l)) (mk_world (threads found st) q))) /\
  acts_run main (flat_map release_acts l) (mk_world (threads found st) q) = mk_world (threads found (fun _ => at_ease)) q.
Proof.
  induction l as [|t l IH]; intros st q I ND C D M E; cbn [flat_map].
  - assert (A : forall x, In x found -> st x = at_ease) by (intros x X; apply D; [exact X|intros []]).
    split; [apply prefix_nil; apply pt_own; [intros x X; right; auto|right; exact E]|].
    cbn [acts_run fold_left]. f_equal. apply threads_ext. exact A.
  - inversion ND as [|? ? NI ND']; subst.
    set (st1 := upd t (or_same (ptrace_setregs false)) st). set (st2 := upd t (or_same ptrace_detach) st1).
    assert (IT : In t found) by (apply I; left; reflexivity).
    assert (T2 : st2 t = at_ease).
    { unfold st2, st1, upd. rewrite Z.eqb_refl. destruct (Z.eq_dec t main) as [->|N].
      - destruct (M (or_introl eq_refl)) as [->|[-> _]]; reflexivity.
      - rewrite (C t (or_introl eq_refl) N). reflexivity. }
    assert (N2 : forall x, x <> t -> st2 x = st x).
    { intros x N. unfold st2, st1, upd. destruct (Z.eqb_spec x t); [contradiction|reflexivity]. }
    destruct (IH st2 q) as (P & R).
    + intros x X. apply I. right. exact X.
    + exact ND'.
    + intros x X N. rewrite N2 by (intros ->; contradiction). apply C; [right; exact X|exact N].
    + intros x X N. destruct (Z.eq_dec x t) as [->|Nt]; [exact T2|]. rewrite (N2 _ Nt). apply D; [exact X|].
      intros [J|J]; [apply Nt; symmetry; exact J|contradiction].
    + intros X. rewrite N2 by (intros ->; contradiction). apply M. right. exact X.
    + exact E.
    + assert (P0 : forall st', (forall x, x <> t -> st' x = st x) ->
         (t = main -> st' main = T_ \/ st' main = T0_ \/ (st' main = S_ /\ same_proc q p)) -> (t <> main -> st' t = S_) ->
         point (mk_world (threads found st') q)).
      { intros st' H1 H2 H3. destruct (Z.eq_dec t main) as [->|N].
        - destruct (H2 eq_refl) as [X|[X|[X Y]]]; [apply pt_trap; left; exact X|apply pt_trap; right; exact X|].
          apply pt_own; [|left; exact Y]. intros x Ix. destruct (Z.eq_dec x main) as [->|Nx]; [left; exact X|].
          rewrite H1 by exact Nx. destruct (in_dec Z.eq_dec x l) as [J|J]; [left; apply C; [right; exact J|exact Nx]|].
          right. apply D; [exact Ix|]. intros [K|K]; [apply Nx; symmetry; exact K|contradiction].
        - destruct (in_dec Z.eq_dec main l) as [J|J].
          + destruct (M (or_intror J)) as [X|[X Y]].
            * apply pt_trap. left. rewrite H1 by (intros Z; apply N; symmetry; exact Z). exact X.
            * apply pt_own; [|left; exact Y]. intros x Ix. destruct (Z.eq_dec x t) as [->|Nx]; [left; exact (H3 N)|].
              rewrite H1 by exact Nx. destruct (Z.eq_dec x main) as [->|Nm]; [left; exact X|].
              destruct (in_dec Z.eq_dec x l) as [K|K]; [left; apply C; [right; exact K|exact Nm]|].
              right. apply D; [exact Ix|]. intros [Q|Q]; [apply Nx; symmetry; exact Q|contradiction].
          + apply pt_own; [|right; exact E]. intros x Ix. destruct (Z.eq_dec x t) as [->|Nx]; [left; exact (H3 N)|].
            rewrite H1 by exact Nx. destruct (Z.eq_dec x main) as [->|Nm].
            * right. apply D; [exact Ix|]. intros [Q|Q]; contradiction.
            * destruct (in_dec Z.eq_dec x l) as [K|K]; [left; apply C; [right; exact K|exact Nm]|].
              right. apply D; [exact Ix|]. intros [Q|Q]; [apply Nx; symmetry; exact Q|contradiction]. }
      split.
      * change (release_acts t ++ ?r) with (A_setregs t :: A_detach t :: r). apply prefix_cons.
        { apply P0; [reflexivity| |].
          - intros ->. destruct (M (or_introl eq_refl)) as [X|X]; auto.
          - intros N. apply C; [left; reflexivity|exact N]. }
        cbn [act_step]. rewrite on_thread_threads. fold st1. apply prefix_cons.
        { apply P0.
          - intros x N. unfold st1, upd. destruct (Z.eqb_spec x t); [contradiction|reflexivity].
          - intros ->. unfold st1, upd. rewrite Z.eqb_refl.
            destruct (M (or_introl eq_refl)) as [->|[-> X]]; [right; left; reflexivity|]. right. right. split; [reflexivity|exact X].
          - intros N. unfold st1, upd. rewrite Z.eqb_refl, (C t (or_introl eq_refl) N). reflexivity. }
        cbn [act_step]. rewrite on_thread_threads. fold st2. exact P.
      * change (release_acts t ++ ?r) with (A_setregs t :: A_detach t :: r). cbn [acts_run fold_left act_step].
        rewrite on_thread_threads. fold st1. rewrite on_thread_threads. fold st2. exact R.
Qed.

(** The whole critical section. *)
Lemma script_run l acts : attempt_acts l p = Some (acts, p') ->
  (forall n, point (acts_run main (firstn n (script found acts)) (before found p))) /\
  exists q, same_proc q p' /\ acts_run main (script found acts) (before found p) = before found q.
Proof.
  intros A. unfold script, before. fold (threads found (fun _ => at_ease)).
  destruct (attach_all found (fun _ => at_ease)) as (P1 & st & R1 & B1 & B2 & B3).
  { intros x _. right. reflexivity. } { apply incl_refl. }
  destruct (attempt_run l p p acts p' st A (same_refl p)) as (P2 & st2 & q & O & E & M & R2).
  { intros x I _. exact (B1 x I). } { right. split; [exact (B1 main main_in)|apply same_refl]. }
  destruct (release_all (rev found) st2 q) as (P3 & R3).
  - intros x X. apply in_rev. exact X.
  - apply NoDup_rev. exact nodup.
  - intros x X N. apply O; [apply in_rev; exact X|exact N].
  - intros x X N. exfalso. apply N. rewrite <- in_rev. exact X.
  - intros _. exact M.
  - exact E.
  - split.
    + apply prefixes; [exact P1|]. rewrite R1. apply prefixes; [exact P2|]. rewrite R2. exact P3.
    + exists q. split; [exact E|]. rewrite !acts_run_app, R1, R2. exact R3.
Qed.
End Death.

(** ** The death itself *)

(** A thread in a routine with nobody tracing. *)
Lemma run_lost : forall l t t' ph log,
  k_lib t = true -> k_traced t = false -> (forall g, k_state t <> Traced g) -> by_itself l ->
  run l t Idle = Some (t', ph, log) ->
  (k_state t' = Dead \/ k_lib t' = true) /\ (In Trap l -> k_state t' = Dead).
Proof.
  assert (DD : forall l t' ph log, by_itself l -> run l dead Idle = Some (t', ph, log) -> t' = dead).
  { intros [|a l] t' ph log B H; [injection H as <- _ _; reflexivity|]. exfalso. cbn [run] in H.
    specialize (B a (or_introl eq_refl)). destruct a; try contradiction; cbn in H; discriminate H. }
  induction l as [|a l IH]; intros t t' ph log L U N B H; cbn [run] in H.
  - injection H as <- _ _. split; [right; exact L|intros []].
  - assert (Bl : by_itself l) by (intros x X; apply B; right; exact X).
    destruct (step a t Idle) as [[[t1 ph1] o1]|] eqn:St; [|discriminate].
    destruct (run l t1 ph1) as [[[t2 ph2] o2]|] eqn:R; [|discriminate]. injection H as <- <- _.
    assert (X : ph1 = Idle /\ (t1 = dead \/ (a <> Trap /\ k_lib t1 = true /\ k_traced t1 = false /\ forall g, k_state t1 <> Traced g))).
    { specialize (B a (or_introl eq_refl)). destruct a; try contradiction; cbn [step] in St.
      - unfold send in St. destruct (k_state t) eqn:Es; try discriminate.
        all: destruct (g =? SIGKILL); [injection St as <- <- _; split; [reflexivity|left; reflexivity]|].
        all: destruct (queue g t) as [tq lq] eqn:Q; injection St as <- <- _; split; [reflexivity|right]; split; [discriminate|].
        all: unfold queue in Q; destruct (merges g && _); injection Q as <- _; cbn [k_lib k_traced k_state]; repeat split; try assumption.
        all: rewrite Es; destruct (g =? SIGCONT); try discriminate; intros z K; try discriminate K; exact (N z K).
      - unfold take in St. destruct (negb _); [discriminate|]. rewrite U in St.
        destruct (k_state t) eqn:Es; try discriminate.
        all: destruct (g =? SIGSTOP); injection St as <- <- _; (split; [reflexivity|right]); split; try discriminate;
             cbn [k_lib k_traced k_state]; repeat split; try assumption; discriminate.
      - unfold enter in St. destruct (k_state t); try discriminate. destruct (existsb _ _); [discriminate|].
        injection St as <- <- _. split; [reflexivity|right]. split; [discriminate|]. cbn [k_lib k_traced k_state]. repeat split; try assumption. discriminate.
      - unfold trap in St. destruct (k_state t); try discriminate. rewrite L, U in St. cbn [negb] in St.
        injection St as <- <- _. split; [reflexivity|left; reflexivity]. }
    destruct X as [-> [->|(Na & L1 & U1 & N1)]].
    + assert (E := DD _ _ _ _ Bl R). rewrite E. split; [left; reflexivity|reflexivity].
    + destruct (IH t1 t2 ph2 o2 L1 U1 N1 Bl R) as [A1 A2]. split; [exact A1|]. intros [X|I]; [contradiction|auto].
Qed.

Lemma lost_lib t : k_lib t = true -> k_traced t = false -> (forall g, k_state t <> Traced g) -> lost t.
Proof. intros L U N. split; [exact L|]. intros l t' ph log B H. exact (run_lost l t t' ph log L U N B H). Qed.

Lemma point_death main found p p' w : In main found -> point main found p p' w ->
  ended (tool_dies w) \/
  (exists t, In (main, t) (w_threads (tool_dies w)) /\ lost t) \/
  (in_own_program (tool_dies w) /\ (same_proc (w_proc (tool_dies w)) p \/ same_proc (w_proc (tool_dies w)) p')).
Proof.
  intros I P. destruct P as [st q C E|st q M C|st q M].
  - right. right. split; [|exact E]. unfold tool_dies. cbn [w_threads w_proc]. unfold threads. rewrite map_map. cbn [fst snd].
    assert (G : forall x, In x found -> gone (st x) = mk_task [] JobStopped false true false \/ gone (st x) = at_ease).
    { intros x X. destruct (C x X) as [->| ->]; [left|right]; reflexivity. }
    assert (ND : existsb (fun p0 : Z * task => is_dead (snd p0)) (map (fun x => (x, gone (st x))) found) = false).
    { apply not_true_iff_false. intros H. apply existsb_exists in H. destruct H as (y & Y & D).
        apply in_map_iff in Y. destruct Y as (x & <- & X). cbn [snd] in D. destruct (G x X) as [->| ->] in D; discriminate. }
    rewrite ND. cbn [w_threads]. intros y. cbn [w_threads]. destruct (existsb (fun p0 => k_job (snd p0)) _); intros Y.
    + rewrite map_map in Y. cbn [fst snd] in Y. apply in_map_iff in Y. destruct Y as (x & <- & X). cbn [snd].
      destruct (G x X) as [->| ->]; cbn; auto.
    + apply in_map_iff in Y. destruct Y as (x & <- & X). cbn [snd]. destruct (G x X) as [->| ->]; cbn; auto.
  - right. left. unfold tool_dies. cbn [w_threads w_proc]. unfold threads. rewrite map_map. cbn [fst snd].
    assert (G : forall x, In x found -> gone (st x) = mk_task [] JobStopped false true false \/ gone (st x) = at_ease
                 \/ gone (st x) = mk_task [] Resumed false false true).
    { intros x X. destruct (Z.eq_dec x main) as [->|N]; [rewrite M; right; right; reflexivity|].
      destruct (C x X N) as [->| ->]; [left|right; left]; reflexivity. }
    assert (ND : existsb (fun p0 : Z * task => is_dead (snd p0)) (map (fun x => (x, gone (st x))) found) = false).
    { apply not_true_iff_false. intros H. apply existsb_exists in H. destruct H as (y & Y & D).
        apply in_map_iff in Y. destruct Y as (x & <- & X). cbn [snd] in D. destruct (G x X) as [->|[->| ->]] in D; discriminate. }
    rewrite ND. cbn [w_threads]. destruct (existsb (fun p0 => k_job (snd p0)) _).
    + exists (mk_task [] JobStopped false true true). split.
      * rewrite map_map. cbn [fst snd]. apply in_map_iff. exists main. rewrite M. split; [reflexivity|exact I].
      * apply lost_lib; [reflexivity|reflexivity|discriminate].
    + exists (mk_task [] Resumed false false true). split.
      * apply in_map_iff. exists main. rewrite M. split; [reflexivity|exact I].
      * apply lost_lib; [reflexivity|reflexivity|discriminate].
  - left. unfold tool_dies, ended. cbn [w_threads]. unfold threads. rewrite map_map. cbn [fst snd].
    replace (existsb (fun p0 => is_dead (snd p0)) _) with true.
    2:{ symmetry. apply existsb_exists. exists (main, dead). split; [|reflexivity].
        apply in_map_iff. exists main. destruct M as [->| ->]; split; try reflexivity; exact I. }
    rewrite map_map. cbn [fst]. intros y Y. apply in_map_iff in Y. destruct Y as (x & <- & _). reflexivity.
Qed.

(** Death while attaching. *)
Lemma calm_death found st q : (forall x, In x found -> calm (st x)) ->
  w_proc (tool_dies (mk_world (threads found st) q)) = q /\
  forall y, In y (w_threads (tool_dies (mk_world (threads found st) q))) ->
    snd y = at_ease \/ snd y = mk_task [] JobStopped false true false.
Proof.
  intros C. split; [reflexivity|]. unfold tool_dies. cbn [w_threads w_proc]. unfold threads. rewrite map_map. cbn [fst snd].
  assert (G : forall x, In x found -> gone (st x) = mk_task [] JobStopped false true false \/ gone (st x) = at_ease).
  { intros x X. destruct (C x X) as [->| ->]; [left|right]; reflexivity. }
  assert (ND : existsb (fun p0 : Z * task => is_dead (snd p0)) (map (fun x => (x, gone (st x))) found) = false).
  { apply not_true_iff_false. intros H. apply existsb_exists in H. destruct H as (y & Y & D).
    apply in_map_iff in Y. destruct Y as (x & <- & X). cbn [snd] in D. destruct (G x X) as [->| ->] in D; discriminate. }
  rewrite ND. intros y. destruct (existsb (fun p0 => k_job (snd p0)) _); intros Y.
  - rewrite map_map in Y. cbn [fst snd] in Y. apply in_map_iff in Y. destruct Y as (x & <- & X). cbn [snd].
    destruct (G x X) as [->| ->]; right; reflexivity.
  - apply in_map_iff in Y. destruct Y as (x & <- & X). cbn [snd]. destruct (G x X) as [->| ->]; auto.
Qed.

Lemma attach_prefix main found acts n p : (n <= length found)%nat ->
  exists st, acts_run main (firstn n (script found acts)) (before found p) = mk_world (threads found st) p /\
    forall x, In x found -> calm (st x).
Proof.
  intros L. unfold script. rewrite firstn_app, map_length. replace (n - length found)%nat with 0%nat by lia.
  cbn [firstn]. rewrite app_nil_r, firstn_map.
  destruct (attach_all main found p p (firstn n found) (fun _ => at_ease)) as (_ & st & R & _ & _ & C).
  { intros x _. right. reflexivity. }
  { intros x X. rewrite <- (firstn_skipn n found). apply in_or_app. left. exact X. }
  exists st. split; [exact R|exact C].
Qed.
