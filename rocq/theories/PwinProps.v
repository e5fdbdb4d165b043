(** C95: a thread stopped in the patchable code of a ppc64le function. *)
From Coq Require Import Bool Lia.
From Verif Require Import Base BaseFacts InsnQModel InsnQSpec InsnQProofs PpcModel PpcSpec PpcProofs PwinModel PwinSpec PwinProofs.

(** Livepatches were applied and reverted in the visits [vs1]; a thread that calls [f] is stopped
    anywhere in the patchable code; then livepatches are applied and reverted in the visits [vs2]. The
    thread goes on with instructions of the patchable code only. If calls of [f] go to a replacement
    now, it gets to the trampoline for exactly this replacement. If calls of [f] go to [f] now, it goes
    on in the body of [f] if it was stopped at the patchable instruction, and otherwise, in the code in
    front of the function, it gets to the trampoline for the replacement that was installed last
    although that was removed. It writes below its stack pointer only. *)
Theorem C95_resumes :
  forall T fs m stale vs1 vs2 q1 m1 q2 m2 f off regs lr ctr c,
    0 <= T < 2 ^ 64 -> T mod 4 = 0 -> (forall f off, In (f, off) fs -> ~ (f - 52 <= T < f + 12)) ->
    ppc_functions fs m -> ops_ok fs (concat vs1) -> ops_ok fs (concat vs2) ->
    In (f, off) fs -> stack_apart fs (regs 1) ->
    visits T vs1 (empty_queue stale, m) = Some (q1, m1) ->
    stopped f off regs lr ctr m1 c ->
    visits T vs2 (q1, c_mem c) = Some (q2, m2) ->
    exists trail c',
      runs (with_mem c m2) trail c' /\ (forall a, In a trail -> ppc_window f off a) /\
      (forall x, ~ (regs 1 - 16 <= x < regs 1) -> c_mem c' x = m2 x) /\
      match goes_to (concat (vs1 ++ vs2)) f None with
      | Some g => bound_for T g regs lr c'
      | None =>
          (c_pc c = f + off -> in_body f off regs lr ctr c') /\
          (c_pc c <> f + off -> exists g,
             goes_to (concat vs1) f None <> None /\
             installed_last (concat (vs1 ++ vs2)) f None = Some g /\ bound_for T g regs lr c')
      end.
Proof.
  intros T fs m stale vs1 vs2 q1 m1 q2 m2 f off regs lr ctr c HT HTa HTo HF Ok1 Ok2 Hf [Hsp Hst] V1 (trail & R & W) V2.
  pose proof (off_cases fs m HF f off Hf) as Ho. pose proof (pf_range _ _ HF _ _ Hf) as Hr.
  pose proof (Hst f off Hf) as Hs.
  assert (I0 : inv T fs m [] m).
  { constructor; auto.
    - apply (pf_ok _ _ HF f off Hf).
    - intros f' o' X. apply (pf_plain _ _ HF _ _ X).
    - intros f' o' g X C. discriminate. }
  destruct (visits_inv T fs m HF vs1 [] _ _ _ _ I0 Ok1 (qinv_empty stale) V1) as (I1 & Q1 & _).
  cbn [app] in I1. rewrite concat_app.
  assert (Ok : ops_ok fs (concat vs1 ++ concat vs2)).
  { intros o X. apply in_app_or in X. destruct X; [apply Ok1|apply Ok2]; assumption. }
  (* where the thread is *)
  assert (P : (c = mk_cpu (f + off) regs lr ctr m1) \/
              (goes_to (concat vs1) f None <> None /\ exists j M', (j < 11)%nat /\ c = st T f regs lr ctr j M' /\
               saved regs j M' /\ (forall x, is_byte (M' x)) /\
               forall x, ~ (regs 1 - 16 <= x < regs 1) -> M' x = m1 x)).
  { inversion R as [c0 E0|c0 c1 tr c2 Hstep R' E1 E2 E3]; subst; [left; reflexivity|right].
    pose proof (in_slot _ _ _ _ _ I1 f off Hf) as Sl. destruct (goes_to (concat vs1) f None) as [g1|] eqn:E.
    - split; [discriminate|].
      rewrite (step_branch (f + off) regs lr ctr m1 f off) in Hstep by (auto; lia). injection Hstep as <-.
      pose proof (in_area _ _ _ _ _ I1 f off g1 Hf (goes_installed _ _ None None g1 ltac:(auto) E)) as A.
      destruct (area_stops T f regs lr ctr HT HTa Hr Hsp Hs _ _ _ R' 0 m1 ltac:(lia)) as (j & M' & H1 & H2 & H3 & H4).
      + unfold st, PC, L, C. cbn [Nat.ltb Nat.leb G]. f_equal. lia.
      + eapply has_code_area. exact A.
      + intros a X Y. subst a. assert (Wn : ppc_window f off T) by (apply W; destruct X; [left; assumption|right; right; assumption]).
        apply (HTo f off Hf). unfold ppc_window in Wn. lia.
      + exists j, M'. split; [lia|]. split; [exact H2|].
        pose proof (in_bytes _ _ _ _ _ I1) as Bm.
        destruct H4 as [(_ & -> & ->)|[(_ & -> & ->)|[(_ & H4 & ->)|[(X & _)|[(X & _)|(X & _)]]]]]; try lia.
        * split; [split; intros; lia|]. split; [exact Bm|reflexivity].
        * split; [split; intros; [apply saved5_store0|lia]|]. split; [apply store_bytes, Bm|apply store_out].
        * split; [split; intros; [apply saved5_store1, saved5_store0|apply saved6_store1]|].
          split; [apply store_bytes, store_bytes, Bm|]. intros x X. rewrite !store_out by exact X. reflexivity.
    - exfalso. rewrite (step_nop (f + off) regs lr ctr m1 Sl) in Hstep. injection Hstep as <-.
      rewrite u64_range in R' by lia.
      assert (Wn : ppc_window f off (f + off + 4)).
      { inversion R' as [c0 E0|c0 c1 tr' c2 H1 H2 E1 E2 E3]; subst; apply W; cbn; auto. }
      unfold ppc_window in Wn. lia. }
  assert (I2 : inv T fs m (concat vs1 ++ concat vs2) m2 /\
               forall x, (forall f off, In (f, off) fs -> ~ ppc_window f off x) -> m2 x = c_mem c x).
  { destruct (visits_inv T fs m HF vs2 (concat vs1) q1 (c_mem c) q2 m2) as (X & _ & Y); auto.
    destruct P as [->|(_ & j & M' & _ & -> & _ & Bm & Fr)]; [exact I1|]. cbn [st c_mem].
    eapply inv_outside; [exact HF|exact I1|exact Bm|]. intros f' o' x X Y. apply Fr.
    destruct (Hst f' o' X); lia. }
  destruct I2 as [I2 Fr2].
  assert (Stk : forall x, regs 1 - 16 <= x < regs 1 -> m2 x = c_mem c x).
  { intros x X. apply Fr2. intros f' o' Y. pose proof (off_cases fs m HF f' o' Y).
    unfold ppc_window. destruct (Hst f' o' Y); lia. }
  assert (Last : forall g, installed_last (concat vs1 ++ concat vs2) f None = Some g -> 0 <= g < 2 ^ 64).
  { intros g E. destruct (installed_in _ _ _ _ E) as [X|(o & A & B)]; [discriminate|]. apply (Ok o A). exact B. }
  destruct P as [->|(G1 & j & M' & Hj & -> & Sv & Bm & Fr)].
  - (* at the patchable instruction *)
    cbn [c_mem] in *. unfold with_mem. cbn [c_pc c_gpr c_lr c_ctr].
    pose proof (in_slot _ _ _ _ _ I2 f off Hf) as Sl.
    destruct (goes_to (concat vs1 ++ concat vs2) f None) as [g|] eqn:E.
    + pose proof (goes_installed _ _ None None g ltac:(auto) E) as El.
      pose proof (in_area _ _ _ _ _ I2 f off g Hf El) as A.
      destruct (area_runs T f regs lr ctr HT HTa Hr Hsp Hs 11 0 m2 eq_refl (has_code_area T f m2 g A)) as (t & Rt & At).
      exists ((f + off) :: t), (st T f regs lr ctr 11 (stores regs 0 m2)). split; [|split; [|split]].
      * eapply (runs_step (mk_cpu (f + off) regs lr ctr m2)); [apply (step_branch _ _ _ _ _ f off); auto; lia|].
        match goal with |- runs ?a _ _ => replace a with (st T f regs lr ctr 0 m2); [exact Rt|] end.
        unfold st, PC, L, C. cbn [Nat.ltb Nat.leb G]. f_equal. lia.
      * intros a [<-|X]; [apply window_in|]. pose proof (At a X). unfold ppc_window. lia.
      * intros x X. cbn [st c_mem]. apply stores_out. exact X.
      * apply at_the_end; auto; [lia|]. split; intros; lia.
    + eexists [f + off], _. split; [|split; [|split]].
      * eapply (runs_step (mk_cpu (f + off) regs lr ctr m2)); [apply step_nop; exact Sl|]. apply runs_here.
      * intros a [<-|[]]. apply window_in.
      * reflexivity.
      * split; [|intros X; contradiction]. intros _. constructor; cbn [c_pc c_gpr c_lr c_ctr]; try reflexivity.
        -- apply u64_range. lia.
        -- intros r. unfold gset. rewrite Z.lor_0_r. destruct (Z.eqb_spec r 0) as [->|]; reflexivity.
  - (* in front of the function *)
    cbn [st c_mem] in Stk.
    assert (El : exists g, installed_last (concat vs1 ++ concat vs2) f None = Some g).
    { destruct (installed_last (concat vs1 ++ concat vs2) f None) as [g|] eqn:E; [eauto|]. exfalso.
      rewrite installed_last_app in E. revert E. apply installed_stays.
      destruct (goes_to (concat vs1) f None) as [g1|] eqn:E1; [|contradiction].
      rewrite (goes_installed _ _ None None g1 ltac:(auto) E1). discriminate. }
    destruct El as (g & El). pose proof (in_area _ _ _ _ _ I2 f off g Hf El) as A.
    destruct (area_runs T f regs lr ctr HT HTa Hr Hsp Hs (11 - j) j m2 ltac:(lia) (has_code_area T f m2 g A)) as (t & Rt & At).
    assert (Bd : bound_for T g regs lr (st T f regs lr ctr 11 (stores regs j m2))).
    { apply at_the_end; auto; [lia|]. eapply saved_ext; [|exact Sv]. exact Stk. }
    exists t, (st T f regs lr ctr 11 (stores regs j m2)). split; [exact Rt|]. split.
    { intros a X. pose proof (At a X). unfold ppc_window. lia. }
    split. { intros x X. cbn [st c_mem]. apply stores_out. exact X. }
    destruct (goes_to (concat vs1 ++ concat vs2) f None) as [g'|] eqn:E.
    + rewrite (goes_installed _ _ None None g' ltac:(auto) E) in El. injection El as <-. exact Bd.
    + split.
      * intros X. exfalso. cbn [st c_pc] in X. unfold PC in X. destruct (Nat.ltb_spec j 11); lia.
      * intros _. exists g. auto.
Qed.
Print Assumptions C95_resumes.

(** The hypotheses on the visits can be met: after any history, requests for at most [n] functions
    are accepted and carried out if [96 * n] bytes fit into the queue. *)
Theorem C95_visit_succeeds :
  forall T fs m stale vs q1 m1 v f off,
    ppc_functions fs m -> In (f, off) fs -> ops_ok fs (concat vs) -> ops_ok fs v ->
    visits T vs (empty_queue stale, m) = Some (q1, m1) -> 96 * zlen v <= INSN_BUFFER_MAX ->
    exists s, visit T v (q1, m1) = Some s.
Proof.
  intros T fs m stale vs q1 m1 v f off HF Hf Ok1 Ok2 V1 Hl.
  assert (I0 : inv T fs m [] m).
  { constructor; auto.
    - apply (pf_ok _ _ HF f off Hf).
    - intros f' o' X. apply (pf_plain _ _ HF _ _ X).
    - intros f' o' g X C. discriminate. }
  destruct (visits_inv T fs m HF vs [] _ _ _ _ I0 Ok1 (qinv_empty stale) V1) as (I1 & Q1 & _).
  unfold visit. rewrite (patch_calls_eq T fs m HF _ _ _ (q1, 0) I1 Ok2).
  assert (Sz : total_size (calls_reqs T m1 v) <= 96 * zlen v).
  { clear. induction v as [|o t IH]; [cbn; lia|]. unfold calls_reqs. cbn [flat_map]. fold (calls_reqs T m1 t).
    assert (App : forall a b, total_size (a ++ b) = total_size a + total_size b).
    { clear. induction a as [|r a IH]; intros b; [reflexivity|].
      change (total_size ((r :: a) ++ b)) with (req_size r + total_size (a ++ b)).
      change (total_size (r :: a)) with (req_size r + total_size a). rewrite IH. lia. }
    rewrite App, zlen_cons.
    assert (total_size (op_reqs T (off_in m1 (po_f o)) o) <= 96) by (unfold op_reqs; destruct (po_new o); vm_compute; discriminate).
    lia. }
  assert (Q0 : q_size q1 = 0).
  { destruct Q1 as [_ _ _ Q]. inversion Q. reflexivity. }
  destruct (submit_all_complete (calls_reqs T m1 v) q1 0 ltac:(lia)) as [E _].
  pose proof (submit_all_inv (calls_reqs T m1 v) q1 0 [] (calls_reqs_ok T m1 v) Q1 ltac:(discriminate)) as S.
  destruct (submit_all (calls_reqs T m1 v) (q1, 0)) as [q' e]. cbn [snd] in E. subst e. cbn [Z.eqb].
  destruct S as [[_ S]|S]; [|discriminate]. cbn [app] in S.
  rewrite (interpret_exact env_ok q' (calls_reqs T m1 v)); auto. cbn [Z.eqb]. eauto.
Qed.
Print Assumptions C95_visit_succeeds.

(** ** A case *)
(** Two functions, one with and one without TOC setup. *)
Definition pw_mem : mem :=
  mem_write (mem_write (fun _ => 0) 4096 gNop) 8192 (le_enc 4 1013710848 ++ le_enc 4 943849472 ++ gNop).
Definition pw_fs : list (Z * Z) := [(4096, 0); (8192, 8)].
Definition pw_T : Z := 140187732541440.
Definition pw_vs1 : list (list pop) := [[mk_pop 4096 (Some 1048576); mk_pop 8192 (Some 1048832)]].
Definition pw_vs2 : list (list pop) := [[mk_pop 8192 (Some 2097152)]; [mk_pop 8192 None; mk_pop 4096 None]].

Lemma pw_functions : ppc_functions pw_fs pw_mem.
Proof.
  assert (B : forall x, is_byte (pw_mem x)).
  { assert (Hn : bytes_ok gNop) by (repeat (apply Forall_cons; [unfold is_byte; lia|]); apply Forall_nil).
    intros x. unfold pw_mem. apply mem_write_bytes; [intros y; apply mem_write_bytes; [intros z; unfold is_byte; lia|exact Hn]|].
    apply bytes_ok_app. split; [apply le_enc_bytes|]. apply bytes_ok_app. split; [apply le_enc_bytes|exact Hn]. }
  constructor; unfold pw_fs.
  - intros f off [X|[X|[]]]; injection X as <- <-; (split; [exact B|]).
    + left. split; [reflexivity|]. left. vm_compute. reflexivity.
    + right. split; [reflexivity|]. split; [|left; vm_compute; reflexivity].
      intros [H|H]; vm_compute in H; discriminate.
  - intros f off [X|[X|[]]]; injection X as <- <-; vm_compute; reflexivity.
  - intros f off [X|[X|[]]]; injection X as <- <-; lia.
  - intros f off f' off' [X|[X|[]]] [Y|[Y|[]]]; injection X as <- <-; injection Y as <- <-; lia.
Qed.

Lemma pw_ok : ops_ok pw_fs (concat pw_vs1) /\ ops_ok pw_fs (concat pw_vs2).
Proof.
  split; intros o H; cbn in H; unfold pw_fs;
    repeat (destruct H as [<-|H]; [split; [cbn; eauto|intros g E; cbn in E; first [discriminate|injection E as <-; lia]]|]);
    contradiction.
Qed.

Definition pw_regs : Z -> Z := fun r => 1000000 + r.

(** [n] instructions, with their addresses. *)
Fixpoint pw_steps (n : nat) (c : cpu) : option (list Z * cpu) :=
  match n with
  | O => Some ([], c)
  | S n => match ppc_step c with
           | Some c1 => match pw_steps n c1 with Some (t, c2) => Some (c_pc c :: t, c2) | None => None end
           | None => None
           end
  end.
Lemma pw_runs n : forall c t c', pw_steps n c = Some (t, c') -> runs c t c'.
Proof.
  induction n as [|n IH]; intros c t c' H; cbn [pw_steps] in H; [injection H as <- <-; constructor|].
  destruct (ppc_step c) as [c1|] eqn:E; [|discriminate].
  destruct (pw_steps n c1) as [[t1 c2]|] eqn:E2; [|discriminate]. injection H as <- <-. econstructor; eauto.
Qed.

Definition in_win (f off a : Z) : bool := ((f - 52 <=? a) && (a <? f)) || ((f + off <=? a) && (a <? f + off + 4)).
Definition pw_check (r : option (insnq * mem)) : bool :=
  match r with
  | Some (q1, m1) =>
      match pw_steps 5 (mk_cpu 8200 pw_regs 77 88 m1) with
      | Some (t, c) =>
          forallb (in_win 8192 8) (c_pc c :: t) && (c_pc c =? 8156) &&
          match visits pw_T pw_vs2 (q1, c_mem c) with Some _ => true | None => false end
      | None => false
      end
  | None => false
  end.
Lemma pw_checked : pw_check (visits pw_T pw_vs1 (empty_queue (fun _ => 7), pw_mem)) = true.
Proof. vm_compute. reflexivity. Qed.
Lemma pw_gen r : pw_check r = true ->
  exists q1 m1 c q2 m2, r = Some (q1, m1) /\ stopped 8192 8 pw_regs 77 88 m1 c /\ c_pc c = 8156 /\
    visits pw_T pw_vs2 (q1, c_mem c) = Some (q2, m2).
Proof.
  unfold pw_check. destruct r as [[q1 m1]|]; [|discriminate].
  destruct (pw_steps 5 (mk_cpu 8200 pw_regs 77 88 m1)) as [[t c]|] eqn:E; [|discriminate].
  destruct (visits pw_T pw_vs2 (q1, c_mem c)) as [[q2 m2]|] eqn:E2; [|rewrite andb_false_r; discriminate].
  intros H. rewrite andb_true_r in H. apply andb_true_iff in H. destruct H as [H1 H2].
  exists q1, m1, c, q2, m2. split; [reflexivity|]. split; [|split; [apply Z.eqb_eq; exact H2|exact E2]].
  exists t. split; [apply (pw_runs 5); exact E|]. intros a Ha. apply (proj1 (forallb_forall _ _) H1) in Ha.
  unfold in_win in Ha. unfold ppc_window. lia.
Qed.

(** The function at 8192 is redirected; a thread is stopped behind the first four instructions of the
    code in front of it. Another livepatch replaces the function, in another visit all is removed. The
    hypotheses hold, and the thread gets to the second replacement, although calls go to the function
    itself now and went to the first replacement when it was stopped. *)
Example C95_case :
  exists q1 m1 c q2 m2 trail c',
    ppc_functions pw_fs pw_mem /\ ops_ok pw_fs (concat pw_vs1) /\ ops_ok pw_fs (concat pw_vs2) /\
    stack_apart pw_fs (pw_regs 1) /\
    visits pw_T pw_vs1 (empty_queue (fun _ => 7), pw_mem) = Some (q1, m1) /\
    stopped 8192 8 pw_regs 77 88 m1 c /\ c_pc c = 8156 /\
    visits pw_T pw_vs2 (q1, c_mem c) = Some (q2, m2) /\
    goes_to (concat pw_vs1) 8192 None = Some 1048832 /\
    goes_to (concat (pw_vs1 ++ pw_vs2)) 8192 None = None /\
    runs (with_mem c m2) trail c' /\ bound_for pw_T 2097152 pw_regs 77 c'.
Proof.
  assert (NT : forall f off, In (f, off) pw_fs -> ~ (f - 52 <= pw_T < f + 12)).
  { intros f off [X|[X|[]]]; injection X as <- <-; unfold pw_T; lia. }
  assert (SA : stack_apart pw_fs (pw_regs 1)).
  { split; [unfold pw_regs; lia|]. intros f off [X|[X|[]]]; injection X as <- <-; unfold pw_regs; lia. }
  destruct (pw_gen _ pw_checked) as (q1 & m1 & c & q2 & m2 & V1 & St & Pc & V2).
  destruct (C95_resumes pw_T pw_fs pw_mem (fun _ => 7) pw_vs1 pw_vs2 q1 m1 q2 m2 8192 8 pw_regs 77 88 c) as (t & c' & R & _ & _ & H); auto.
  - unfold pw_T. lia.
  - exact pw_functions.
  - apply pw_ok.
  - apply pw_ok.
  - right. left. reflexivity.
  - change (goes_to (concat (pw_vs1 ++ pw_vs2)) 8192 None) with (@None Z) in H. destruct H as [_ H].
    destruct (H ltac:(rewrite Pc; discriminate)) as (g & _ & E & B).
    change (installed_last (concat (pw_vs1 ++ pw_vs2)) 8192 None) with (Some 2097152) in E. injection E as <-.
    exists q1, m1, c, q2, m2, t, c'. split; [exact pw_functions|]. split; [apply pw_ok|]. split; [apply pw_ok|].
    repeat (split; [first [assumption|reflexivity]|]). exact B.
Qed.
