(** C88: a thread that the tool stops inside the patchable window of a function. *)
From Coq Require Import String Bool Lia.
From Verif Require Import Base BaseFacts InsnQModel InsnQSpec InsnQProofs MetaModel StrModel
  X86Model X86Spec X86Proofs DlModel LibModel LibSpec LibProofs LibInv LibMem LibExample LibProps WinSpec WinProofs.

(** C88, for functions whose slot is one two-byte nop: a thread has called [f] and
    is stopped at [pc], not yet out of the patchable window; then livepatches are
    applied and reverted, any number of them, also over several visits of the tool.
    When the thread goes on, it runs whole instructions of the window only, and
    ends up in the function that calls of [f] go to now.  With one exception: if calls
    were redirected when it was stopped and are not any more, it may still
    end up in a replacement of [f] by a livepatch that was applied in the meantime
    or when it was stopped.  Missing: functions with two one-byte nops
    ([C88_two_nops_refuted]). *)
Theorem C88_resumes_partial :
  forall (F : list Z) (eb : Z -> bool) (m : mem) (stale : Z -> Z)
         (tr1 tr2 : list (event * Z)) (p1 p2 : proc) (f pc : Z),
    functions_ok F eb m -> (forall f, In f F -> one_nop m (eb f) f) ->
    clean_history F eb (fresh m stale) tr1 p1 -> no_pending p1 ->
    clean_history F eb p1 tr2 p2 -> no_pending p2 -> alive (p_lib p2) ->
    In f F -> (forall g, route (log_of tr1) f = Some g -> ~ in_window (eb f) f g) ->
    stopped_at (p_mem p1) (eb f) f pc ->
    exists d, leaves_for (p_mem p2) (eb f) f pc d /\
      match route (log_of (tr1 ++ tr2)) f with
      | Some g => d = g
      | None => d = body (eb f) f \/ (route (log_of tr1) f <> None /\ replaced_since tr1 tr2 f d)
      end.
Proof.
  intros F eb m stale tr1 tr2 p1 p2 f pc HF HN H1 N1 H2 N2 A2 Hf Hg Hs.
  pose proof (clean_cat _ _ _ _ _ _ _ H1 H2) as H12.
  assert (A1 : alive (p_lib p1)).
  { clear - H2 A2. induction H2 as [|tr p ev p' ans H IH Hok E]; auto. apply IH. eapply dead_absorbing; eauto. }
  pose proof (clean_bytes _ _ _ _ _ _ HF H1 A1 N1 f Hf) as B1.
  pose proof (clean_bytes _ _ _ _ _ _ HF H12 A2 N2 f Hf) as B2.
  pose proof (clean_whole _ _ _ _ _ _ HF HN H1 A1 N1 f Hf) as W1.
  pose proof (clean_whole _ _ _ _ _ _ HF HN H12 A2 N2 f Hf) as W2.
  assert (HP : boundary (eb f) f pc \/ (pc = f - 14 /\ exists g, route (log_of tr1) f = Some g)).
  { destruct (route (log_of tr1) f) as [g|] eqn:Er.
    - destruct B1 as [B1 S1]. destruct (redir_stops _ _ _ _ _ S1 B1 (Hg g eq_refl) Hs) as [X|X]; [left; exact X|right].
      split; [exact X|eauto].
    - destruct (plain_whole _ _ _ B1 W1) as [X Y]. left. eapply plain_stops; eauto. }
  destruct (route (log_of (tr1 ++ tr2)) f) as [g2|] eqn:Er2.
  - destruct B2 as [B2 S2]. exists g2. split; [|reflexivity]. eapply redir_leaves; [exact S2|exact B2|tauto].
  - destruct (plain_whole _ _ _ B2 W2) as [X Y]. destruct HP as [HP|[-> [g1 Er1]]].
    + exists (body (eb f) f). split; [|left; reflexivity]. apply plain_leaves; auto.
    + rewrite Er1 in B1. destruct B1 as [B1 S1].
      pose proof (functions_frame _ _ _ HF) as HFr.
      assert (J1 : jumps (replaced_since tr1 tr2) (p_mem p1) f).
      { eapply redir_jumps; [|exact B1]. destruct (route_in _ _ _ Er1) as (en & E1 & E2).
        exists [], tr2, en. rewrite app_nil_r. auto. }
      destruct (history_steady F eb m stale tr1 p1 (fun M => jumps (replaced_since tr1 tr2) M f) tr2 p2) as (rs & Hq & [J2 (g & Hr & J3)]); auto.
      { apply steady_jumps; auto. }
      assert (rs = []) by (eapply qinv_empty_iff; [exact Hq|destruct N2; split; lia]). subst rs.
      cbn [mem_of fold_left] in J2, J3.
      assert (Sg : 0 <= g < 2 ^ 64).
      { destruct Hr as (a & b & en & E1 & E2 & E3). subst tr2.
        assert (G : forall tr p, clean_history F eb p1 tr p -> forall a b, tr = a ++ b -> exists q, clean_history F eb p1 a q).
        { clear. induction 1 as [|tr p ev p' ans H IH Hok E]; intros a b Hab.
          - destruct a; [|discriminate]. exists p1. constructor.
          - destruct b as [|x b] using rev_ind.
            + rewrite app_nil_r in Hab. subst a. exists p'. econstructor; eauto.
            + clear IHb. rewrite app_assoc in Hab. apply app_inj_tail in Hab. destruct Hab as [Hab _].
              eapply IH. exact Hab. }
        destruct (G _ _ H2 a b eq_refl) as (q & Hq').
        eapply (clean_log_sane _ _ _ _ _ (clean_cat _ _ _ _ _ _ _ H1 Hq')); eauto. }
      exists g. split.
      * apply leaves_one; [apply window_pts|]. apply cpu_jmpm; auto.
        replace (f - 14 + 6) with (f - 8) by lia. exact J3.
      * right. split; [congruence|exact Hr].
Qed.
Print Assumptions C88_resumes_partial.

(** A thread stopped in the window of a function that was not redirected goes
    exactly where calls go now. *)
Theorem C88_unredirected :
  forall (F : list Z) (eb : Z -> bool) (m : mem) (stale : Z -> Z)
         (tr1 tr2 : list (event * Z)) (p1 p2 : proc) (f pc : Z),
    functions_ok F eb m -> (forall f, In f F -> one_nop m (eb f) f) ->
    clean_history F eb (fresh m stale) tr1 p1 -> no_pending p1 ->
    clean_history F eb p1 tr2 p2 -> no_pending p2 -> alive (p_lib p2) ->
    In f F -> route (log_of tr1) f = None -> stopped_at (p_mem p1) (eb f) f pc ->
    leaves_for (p_mem p2) (eb f) f pc
      (match route (log_of (tr1 ++ tr2)) f with Some g => g | None => body (eb f) f end).
Proof.
  intros F eb m stale tr1 tr2 p1 p2 f pc HF HN H1 N1 H2 N2 A2 Hf Hr Hs.
  destruct (C88_resumes_partial F eb m stale tr1 tr2 p1 p2 f pc HF HN H1 N1 H2 N2 A2 Hf) as (d & Hd & H); auto.
  - intros g E. congruence.
  - destruct (route (log_of (tr1 ++ tr2)) f); [subst; exact Hd|].
    destruct H as [->|[H _]]; [exact Hd|contradiction].
Qed.
Print Assumptions C88_unredirected.

(** ** The example world after "ulp post" *)

Definition win_mem : mem := fun x => if existsb (Z.eqb x) w_F then 102 else 144.
Definition win_start : proc := fresh win_mem (fun _ => 0).

Lemma win_functions : functions_ok w_F (fun _ => false) win_mem.
Proof.
  constructor.
  - intros f Hf. unfold window_exists. unfold w_F, w_f, w_h, w_b in Hf. cbn [In] in Hf. lia.
  - intros f Hf. split; [exact I|]. right. unfold w_F in Hf. cbn [In] in Hf.
    destruct Hf as [<-|[<-|[<-|[]]]]; split; reflexivity.
  - intros f g x Hf Hg. unfold in_window, body, slot, w_F, w_f, w_h, w_b in *. cbn [In] in *. lia.
Qed.

Lemma win_one_nop : forall f, In f w_F -> one_nop win_mem false f.
Proof. intros f Hf. unfold w_F in Hf. cbn [In] in Hf. destruct Hf as [<-|[<-|[<-|[]]]]; split; reflexivity. Qed.

Definition win_ev1 : list event := [ap 1 P1; ex; ap 3 P3; ex].
Definition win_ev2 : list event := [rv 3 P3; ex; rv 1 P1; ex].
Lemma win_ok1 : Forall (fun ev => forall p, event_ok w_F (fun _ => false) p ev) win_ev1.
Proof. unfold win_ev1. repeat (apply Forall_cons; [w_ok|]). constructor. Qed.
Lemma win_ok2 : Forall (fun ev => forall p, event_ok w_F (fun _ => false) p ev) win_ev2.
Proof. unfold win_ev2. repeat (apply Forall_cons; [w_ok|]). constructor. Qed.

Definition opt_eq (a b : option Z) : bool :=
  match a, b with Some x, Some y => x =? y | None, None => true | _, _ => false end.
Lemma opt_eq_ok a b : opt_eq a b = true -> a = b.
Proof. destruct a, b; cbn; intros H; try discriminate; auto. apply Z.eqb_eq in H. subst. reflexivity. Qed.

Definition win_check (r : option (proc * list Z)) : bool :=
  match r with
  | None => false
  | Some (p1, a1) =>
      match run win_ev2 p1 with
      | None => false
      | Some (p2, a2) =>
          forallb (Z.eqb 0) (a1 ++ a2) && (zlen a1 =? 4) && (zlen a2 =? 4) &&
          (q_num (s_q (p_lib p1)) =? 0) && (q_size (s_q (p_lib p1)) =? 0) &&
          (q_num (s_q (p_lib p2)) =? 0) && (q_size (s_q (p_lib p2)) =? 0) && (s_err (p_lib p2) =? 0) &&
          opt_eq (route (log_of (combine win_ev1 a1)) w_f) (Some 3146240) &&
          opt_eq (route (log_of (combine win_ev1 a1 ++ combine win_ev2 a2)) w_f) None &&
          opt_eq (cpu_step (p_mem p1) w_f) (Some (w_f - 14)) &&
          opt_eq (cpu_step (p_mem p2) (w_f - 14)) (Some 1049088)
      end
  end.
Lemma win_checked : win_check (run win_ev1 win_start) = true.
Proof. vm_compute. reflexivity. Qed.

Lemma win_case_gen r :
  win_check r = true ->
  exists p1 a1 p2 a2, r = Some (p1, a1) /\ run win_ev2 p1 = Some (p2, a2) /\
    no_pending p1 /\ no_pending p2 /\ s_err (p_lib p2) = 0 /\
    route (log_of (combine win_ev1 a1)) w_f = Some 3146240 /\
    route (log_of (combine win_ev1 a1 ++ combine win_ev2 a2)) w_f = None /\
    cpu_step (p_mem p1) w_f = Some (w_f - 14) /\ cpu_step (p_mem p2) (w_f - 14) = Some 1049088.
Proof.
  unfold win_check. destruct r as [[p1 a1]|]; [|discriminate].
  destruct (run win_ev2 p1) as [[p2 a2]|] eqn:E2; [|discriminate]. intros H.
  repeat (apply andb_true_iff in H; destruct H as [H ?]).
  exists p1, a1, p2, a2. repeat match goal with X : opt_eq _ _ = true |- _ => apply opt_eq_ok in X end.
  repeat split; auto; try (apply Z.eqb_eq; assumption).
Qed.

(** The hypotheses are met, and the exception happens: f is redirected to patch 1
    and then to patch 3; a thread is stopped behind the short jump; both patches are
    reverted, the newer one first; the thread runs the replacement of patch 1, which
    was not in force when it was stopped and is not in force any more. *)
Example C88_case :
  exists tr1 tr2 p1 p2 d,
    clean_history w_F (fun _ => false) win_start tr1 p1 /\ no_pending p1 /\
    clean_history w_F (fun _ => false) p1 tr2 p2 /\ no_pending p2 /\ alive (p_lib p2) /\
    route (log_of tr1) w_f = Some 3146240 /\ ~ in_window false w_f 3146240 /\
    route (log_of (tr1 ++ tr2)) w_f = None /\
    stopped_at (p_mem p1) false w_f (w_f - 14) /\
    leaves_for (p_mem p2) false w_f (w_f - 14) d /\ d = 1049088.
Proof.
  destruct (win_case_gen _ win_checked) as (p1 & a1 & p2 & a2 & E1 & E2 & N1 & N2 & A & R1 & R2 & S1 & S2).
  exists (combine win_ev1 a1), (combine win_ev2 a2), p1, p2, 1049088.
  split; [apply run_clean; [exact win_ok1|exact E1]|]. split; [exact N1|].
  split; [apply run_clean; [exact win_ok2|exact E2]|]. split; [exact N2|].
  split; [left; exact A|]. split; [exact R1|].
  split; [unfold in_window, body, slot, w_f; lia|]. split; [exact R2|]. split; [|split; [|reflexivity]].
  - split; [apply window_pts|]. exists [w_f]. split; [eapply gt_step; [exact S1|constructor]|].
    intros a [<-|[]]. apply (window_pts false w_f).
  - apply leaves_one; [apply (window_pts false w_f)|exact S2].
Qed.

(** So the exception cannot be dropped: "it goes where calls of [f] go now, or
    where they went when it was stopped" is false of the code. *)
Theorem C88_stale_refuted :
  exists F eb m stale tr1 tr2 p1 p2 f pc d,
    functions_ok F eb m /\ (forall f, In f F -> one_nop m (eb f) f) /\
    clean_history F eb (fresh m stale) tr1 p1 /\ no_pending p1 /\
    clean_history F eb p1 tr2 p2 /\ no_pending p2 /\ alive (p_lib p2) /\ In f F /\
    stopped_at (p_mem p1) (eb f) f pc /\ leaves_for (p_mem p2) (eb f) f pc d /\
    d <> body (eb f) f /\ route (log_of tr1) f <> Some d /\ route (log_of (tr1 ++ tr2)) f = None.
Proof.
  destruct C88_case as (tr1 & tr2 & p1 & p2 & d & H1 & N1 & H2 & N2 & A & R1 & W & R2 & S & L & ->).
  exists w_F, (fun _ => false), win_mem, (fun _ => 0), tr1, tr2, p1, p2, w_f, (w_f - 14), 1049088.
  split; [exact win_functions|]. split; [exact win_one_nop|].
  repeat (split; [first [assumption|left; reflexivity]|]).
  split; [discriminate|]. split; [rewrite R1; discriminate|exact R2].
Qed.
Print Assumptions C88_stale_refuted.

(** ** Two one-byte nops *)

Definition two_check (r : option (proc * list Z)) : bool :=
  match r with
  | None => false
  | Some (p2, a2) =>
      forallb (Z.eqb 0) a2 && (q_num (s_q (p_lib p2)) =? 0) && (q_size (s_q (p_lib p2)) =? 0) &&
      (s_err (p_lib p2) =? 0) && opt_eq (cpu_step (p_mem p2) (w_f + 1)) None &&
      (p_mem p2 (w_f + 1) =? 240) && opt_eq (route (log_of (combine [ap 1 P1; ex] a2)) w_f) (Some 1049088)
  end.
Lemma two_checked : two_check (run [ap 1 P1; ex] w_start) = true.
Proof. vm_compute. reflexivity. Qed.
Lemma two_ok : Forall (fun ev => forall p, event_ok w_F (fun _ => false) p ev) [ap 1 P1; ex].
Proof. repeat (apply Forall_cons; [w_ok|]). constructor. Qed.
Lemma two_gen r :
  two_check r = true ->
  exists p2 a2, r = Some (p2, a2) /\ no_pending p2 /\ s_err (p_lib p2) = 0 /\
    cpu_step (p_mem p2) (w_f + 1) = None /\ p_mem p2 (w_f + 1) = 240 /\
    route (log_of (combine [ap 1 P1; ex] a2)) w_f = Some 1049088.
Proof.
  unfold two_check. destruct r as [[p2 a2]|]; [|discriminate]. intros H.
  repeat (apply andb_true_iff in H; destruct H as [H ?]). exists p2, a2.
  repeat match goal with X : opt_eq _ _ = true |- _ => apply opt_eq_ok in X end.
  repeat split; auto; try (apply Z.eqb_eq; assumption).
Qed.

(** C88 is false of functions whose slot holds two one-byte nops, which libpulp
    accepts as livepatchable too: a thread stopped between the two nops goes on, after a
    successful application, in the middle of the short jump that has replaced
    them: its next byte is the displacement, 0xf0 (a lock prefix for the first
    instruction of the body), and it gets neither to the replacement nor to the
    body through instructions of the window. *)
Theorem C88_two_nops_refuted :
  exists F eb m stale tr p f pc g,
    functions_ok F eb m /\ clean_history F eb (fresh m stale) tr p /\ no_pending p /\ alive (p_lib p) /\
    In f F /\ stopped_at m (eb f) f pc /\ route (log_of tr) f = Some g /\
    p_mem p pc = 240 /\
    forall d, leaves_for (p_mem p) (eb f) f pc d -> d = pc.
Proof.
  destruct (two_gen _ two_checked) as (p & a & E & N & A & C & V & R).
  exists w_F, (fun _ => false), w_mem, (fun _ => 0), (combine [ap 1 P1; ex] a), p, w_f, (w_f + 1), 1049088.
  split; [exact w_functions|]. split; [apply run_clean; [exact two_ok|exact E]|].
  split; [exact N|]. split; [left; exact A|]. split; [left; reflexivity|]. split.
  { split; [unfold in_window, body, slot; lia|]. exists [w_f]. split.
    - eapply gt_step; [reflexivity|constructor].
    - intros x [<-|[]]. unfold in_window, body, slot. lia. }
  split; [exact R|]. split; [exact V|].
  clear - C. intros d (t & Ht & _). inversion Ht as [|? a' ? ? Hc ?]; subst; [reflexivity|]. rewrite C in Hc. discriminate.
Qed.
Print Assumptions C88_two_nops_refuted.
