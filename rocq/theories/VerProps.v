(** C89: a tool and a libpulp of different versions. *)
From Coq Require Import String Bool Lia.
From Verif Require Import Base BaseFacts InsnQModel InsnQProofs MetaModel StrModel X86Model X86Spec
  TrModel DlModel LibModel LibSpec LibExample LibProps VerModel VerSpec VerProofs.

(** C89, first part: a process whose libpulp is newer than the tool is left alone. However
    often it is visited, and whatever its routines would do, every answer is EOLDULP, the process
    is as before, and the version is remembered, so that it only has to be
    readable once. *)
Theorem C89_newer_untouched :
  forall (l : list visit) (o : vobj) (p : proc),
    found o -> too_new p -> remembers o p ->
    (exists v t, l = v :: t /\ can_tell o p (vi_readable v)) ->
    exists o', visits l o p = Some (o', p, repeat InsnQModel.EOLDULP (List.length l)) /\
      found o' /\ v_cached o' = q_version (s_q (p_lib p)).
Proof.
  intros l o p Hf Hn Hr (v & t & -> & Hc). revert v o Hf Hr Hc.
  induction t as [|w t IH]; intros v o Hf Hr Hc; cbn [visits]; unfold visit_process at 1;
    destruct (check_new o p (vi_readable v) Hf Hn Hr Hc) as (o' & E & E1 & E2); rewrite E; cbn [negb].
  - exists o'. cbn. split; [reflexivity|]. split; [unfold found in *; congruence|exact E2].
  - destruct (IH w o') as (o2 & F & F1 & F2).
    + unfold found in *; congruence.
    + right; exact E2.
    + right; exact E2.
    + cbn [visits] in F. rewrite F. exists o2. auto.
Qed.
Print Assumptions C89_newer_untouched.

(** In particular the trigger command makes no call that touches the process. *)
Theorem C89_newer_not_stopped :
  forall (o : vobj) (p : proc) (readable : bool) (q : treq) (pre : tpre) (ans : nat -> attempt) (retries : nat),
    found o -> too_new p -> remembers o p -> can_tell o p readable ->
    p_compatible pre = fst (insnq_check_compatibility o (if readable then Some (q_version (s_q (p_lib p))) else None)) ->
    trigger_one_process q pre ans retries = (TrModel.EOLDULP, []).
Proof.
  intros o p readable q pre ans retries Hf Hn Hr Hc Hp.
  destruct (check_new o p readable Hf Hn Hr Hc) as (o' & E & _). rewrite E in Hp. cbn [fst] in Hp.
  unfold trigger_one_process. rewrite Hp. reflexivity.
Qed.
Print Assumptions C89_newer_not_stopped.

(** C89, second part: writes queued in a format newer than the tool's are never executed and
    never reported as success, also if the check was passed. *)
Theorem C89_newer_not_executed :
  forall (v : visit) (o o' : vobj) (p p' : proc) (r : Z),
    found o ->
    (forall st res, vi_routine v (p_lib p) (p_mem p) = Some (st, res) -> INSNQ_CURR_VERSION < q_version (s_q st)) ->
    visit_process v o p = Some (o', p', r) ->
    p_mem p' = p_mem p /\ r <> 0.
Proof.
  intros v o o' p p' r Hf Hn H. unfold visit_process in H.
  set (rd := if vi_readable v then Some (q_version (s_q (p_lib p))) else None) in H.
  assert (A : forall ok o1, insnq_check_compatibility o rd = (ok, o1) -> v_addr o1 = v_addr o).
  { intros ok o1. unfold insnq_check_compatibility, insnq_get_version. generalize rd. intros rd'.
    destruct (v_addr o =? 0); [congruence|]. destruct (0 <? v_cached o).
    - destruct (_ >? _); congruence.
    - destruct rd' as [x|]; destruct (_ >? _); intros X; injection X as <- <-; reflexivity. }
  destruct (insnq_check_compatibility o rd) as [ok o1] eqn:E. specialize (A _ _ eq_refl).
  destruct ok; cbn [negb] in H; [|injection H as <- <- <-; split; [reflexivity|discriminate]].
  destruct (vi_routine v (p_lib p) (p_mem p)) as [[st res]|] eqn:R; [|discriminate].
  destruct (match vi_rax v with Some rax => _ | None => false end).
  { injection H as <- <- <-. split; [reflexivity|discriminate]. }
  rewrite A in H. unfold found in Hf. destruct (Z.eqb_spec (v_addr o) 0) as [|_]; [contradiction|]. cbn [negb] in H.
  destruct (report_new (vi_env v) st (p_mem p) res (Hn _ _ eq_refl)) as (e & E2 & E3). rewrite E2 in H.
  injection H as <- <- <-. split; [reflexivity|]. destruct E3 as [->| ->]; discriminate.
Qed.
Print Assumptions C89_newer_not_executed.

(** C89, third part: a libpulp that is not newer is served, whether or not its version could
    be read, exactly as C01 to C20 describe. *)
Theorem C89_supported_served :
  forall (o : vobj) (p : proc) (readable : bool) (te : tool_env) (rax : Z) (busy : bool) (e : dlenv)
         (junk : Z) (buf name : list Z) (fuel : nat),
    found o -> ~ too_new p -> remembers o p ->
    exists o', found o' /\ remembers o' p /\
      visit_process (visit_apply readable te rax busy e junk buf) o p =
        option_map (fun x => (o', fst x, snd x)) (tool_apply_patch te rax busy e junk buf p) /\
      visit_process (visit_revert readable te fuel busy e name) o p =
        option_map (fun x => (o', fst x, snd x)) (tool_revert_patches_from_lib fuel te busy e name p).
Proof.
  intros o p readable te rax busy e junk buf name fuel Hf Hn Hr.
  destruct (check_old o p readable Hf Hn Hr) as (o' & E & E1 & E2).
  exists o'. split; [unfold found in *; congruence|]. split; [exact E2|].
  assert (B : negb (v_addr o' =? 0) = true).
  { rewrite E1. unfold found in Hf. destruct (Z.eqb_spec (v_addr o) 0); [contradiction|reflexivity]. }
  split.
  - unfold visit_process, visit_apply. cbn [vi_readable vi_env vi_rax vi_routine]. rewrite E. cbn [negb].
    unfold tool_apply_patch. destruct (ulp_apply_patch busy e (p_mem p) junk buf (p_lib p)) as [[st res]|]; [|reflexivity].
    destruct (negb (res =? 0) && negb (res =? EAGAIN) && (res =? rax)); [reflexivity|].
    rewrite B, report_from_queue. destruct (interpret_and_report te st (p_mem p) res) as [[p' r]|]; reflexivity.
  - unfold visit_process, visit_revert. cbn [vi_readable vi_env vi_rax vi_routine]. rewrite E. cbn [negb].
    unfold tool_revert_patches_from_lib.
    destruct (ulp_revert_patches_from_lib fuel busy e (p_mem p) name (p_lib p)) as [[st res]|]; [|reflexivity].
    rewrite B, report_from_queue. destruct (interpret_and_report te st (p_mem p) res) as [[p' r]|]; reflexivity.
Qed.
Print Assumptions C89_supported_served.

(** A process like the example's, with a queue of version 2. *)
Definition w_new : proc :=
  let p := w_start in
  mk_proc (set_qe (p_lib p) (mk_insnq 2 0 0 (q_buf (s_q (p_lib p))), 0)) (p_mem p).
Definition w_visit (readable : bool) (k : Z) (P : pmeta) : visit := visit_apply readable env_ok 0 false w_env 0 (w_buf k P).

(** The hypotheses are met: a new process is refused twice, the second time without
    reading; the same visits to a process of this version apply both patches. *)
Example C89_case :
  let o := mk_vobj 4096 0 in
  found o /\ too_new w_new /\ remembers o w_new /\ remembers o w_start /\ ~ too_new w_start /\
  (exists o', visits [w_visit true 1 P1; w_visit false 3 P3] o w_new = Some (o', w_new, [286; 286])) /\
  match visits [w_visit true 1 P1; w_visit false 3 P3] o w_start with
  | Some (_, p, l) => l = [0; 0] /\ reported p = [repeat 3 32; repeat 1 32]
  | None => False
  end.
Proof.
  split; [discriminate|]. split; [vm_compute; reflexivity|]. split; [left; discriminate|]. split; [left; discriminate|].
  split; [vm_compute; discriminate|]. split.
  - destruct (C89_newer_untouched [w_visit true 1 P1; w_visit false 3 P3] (mk_vobj 4096 0) w_new) as (o' & E & _).
    + discriminate.
    + vm_compute; reflexivity.
    + left; discriminate.
    + do 2 eexists. split; [reflexivity|left; reflexivity].
    + exists o'. exact E.
  - vm_compute. auto.
Qed.

(** Refuted without [can_tell]: a version that cannot be read counts as 0, so the process is
    stopped and the routine of the newer libpulp run. The tool then answers EOLDULP as if nothing had
    happened, but libpulp has registered the patch, calls still go to the old
    function, and the queued writes block every further request. *)
Theorem C89_unreadable_refuted :
  exists (v : visit) (o o' : vobj) (p p' : proc),
    found o /\ too_new p /\ remembers o p /\ vi_readable v = false /\
    visit_process v o p = Some (o', p', InsnQModel.EOLDULP) /\
    reported p = [] /\ reported p' = [repeat 1 32] /\ p_mem p' = p_mem p /\
    0 < q_num (s_q (p_lib p')).
Proof.
  assert (X : match visit_process (w_visit false 1 P1) (mk_vobj 4096 0) w_new with
              | Some (_, p', r) => r = InsnQModel.EOLDULP /\ reported p' = [repeat 1 32] /\ 0 < q_num (s_q (p_lib p'))
              | None => False end).
  { vm_compute. repeat split. }
  destruct (visit_process (w_visit false 1 P1) (mk_vobj 4096 0) w_new) as [[[o' p'] r]|] eqn:E; [|contradiction].
  destruct X as (-> & X1 & X2).
  exists (w_visit false 1 P1), (mk_vobj 4096 0), o', w_new, p'.
  split; [discriminate|]. split; [vm_compute; reflexivity|]. split; [left; discriminate|].
  split; [reflexivity|]. split; [exact E|]. split; [reflexivity|]. split; [exact X1|]. split; [|exact X2].
  eapply C89_newer_not_executed; [| |exact E].
  - discriminate.
  - cbn [w_visit visit_apply vi_routine]. intros st res H.
    assert (Y : match ulp_apply_patch false w_env (p_mem w_new) 0 (w_buf 1 P1) (p_lib w_new) with
                | Some (st, _) => q_version (s_q st) = 2 | None => True end) by (vm_compute; reflexivity).
    rewrite H in Y. rewrite Y. reflexivity.
Qed.
Print Assumptions C89_unreadable_refuted.

(** A libpulp whose queue was not found is never refused, and the tool writes nothing: libpulp's
    answer is passed on. (That is meant for an old libpulp, which wrote by itself.) *)
Theorem C89_no_queue :
  forall (v : visit) (o : vobj) (p : proc) (st : lstate) (res : Z),
    ~ found o -> vi_rax v = None \/ vi_rax v <> Some res ->
    vi_routine v (p_lib p) (p_mem p) = Some (st, res) ->
    visit_process v o p = Some (o, mk_proc st (p_mem p), res).
Proof.
  intros v o p st res Hf Hx Hr. unfold found in Hf. assert (Ha : v_addr o = 0) by lia.
  unfold visit_process, insnq_check_compatibility. rewrite Ha. cbn [Z.eqb negb]. rewrite Hr, Ha. cbn [Z.eqb negb].
  rewrite report_none. destruct (vi_rax v) as [rax|]; [|reflexivity].
  destruct (Z.eqb_spec res rax) as [->|_].
  - destruct Hx as [Hx|Hx]; [discriminate|contradiction].
  - rewrite andb_false_r. reflexivity.
Qed.
Print Assumptions C89_no_queue.

(** Refuted for a queue that was not found: libpulp of this very version, but the tool has no
    address for its queue (the symbol was not found in its symbol table). That counts as an old libpulp that
    writes by itself. The patch is reported as applied, but nothing is written: calls
    still go to the old function, and the next request fails. *)
Theorem C89_no_queue_refuted :
  exists (v w : visit) (o o' : vobj) (p p1 p2 : proc) (f : Z),
    ~ found o /\ ~ too_new p /\
    visit_process v o p = Some (o', p1, 0) /\
    reported p1 = [repeat 1 32] /\ In f (map r_addr (s_roots (p_lib p1))) /\
    calls_go (p_mem p1) false f None /\
    (exists r, visit_process w o' p1 = Some (o', p2, r) /\ r = EINSNQ).
Proof.
  set (o := mk_vobj 0 0).
  assert (X : match ulp_apply_patch false w_env (p_mem w_start) 0 (w_buf 1 P1) (p_lib w_start) with
              | Some (st, res) => res = 0 /\ map a_id (s_patches st) = [repeat 1 32] /\ In w_f (map r_addr (s_roots st)) /\
                  match ulp_apply_patch false w_env (p_mem w_start) 0 (w_buf 3 P3) st with
                  | Some (_, r) => r = EINSNQ | None => False end
              | None => False end) by (vm_compute; auto).
  destruct (ulp_apply_patch false w_env (p_mem w_start) 0 (w_buf 1 P1) (p_lib w_start)) as [[st res]|] eqn:E; [|contradiction].
  destruct X as (-> & X1 & X2 & X3).
  destruct (ulp_apply_patch false w_env (p_mem w_start) 0 (w_buf 3 P3) st) as [[st2 r]|] eqn:E2; [|contradiction]. subst r.
  set (p1 := mk_proc st (p_mem w_start)).
  exists (mk_visit true env_ok (Some 7) (fun st m => ulp_apply_patch false w_env m 0 (w_buf 1 P1) st)),
         (mk_visit true env_ok (Some 7) (fun st m => ulp_apply_patch false w_env m 0 (w_buf 3 P3) st)),
         o, o, w_start, p1, (mk_proc st2 (p_mem w_start)), w_f.
  split; [intros X; apply X; reflexivity|]. split; [vm_compute; discriminate|]. split; [|split; [|split; [|split]]].
  - apply C89_no_queue; [intros X; apply X; reflexivity|right; discriminate|exact E].
  - exact X1.
  - exact X2.
  - exists [w_f; w_f + 1]. split.
    + eapply gt_step; [reflexivity|]. eapply gt_step; [reflexivity|]. apply gt_here.
    + unfold body, slot. intros a [<-|[<-|[]]]; lia.
  - exists EINSNQ. split; [|reflexivity].
    change (p_mem w_start) with (p_mem p1). apply C89_no_queue; [intros X; apply X; reflexivity|right; discriminate|exact E2].
Qed.
Print Assumptions C89_no_queue_refuted.
