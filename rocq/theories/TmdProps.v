(** C92: many livepatches for many processes with one command. *)
From Coq Require Import String Permutation Bool Lia.
From Verif Require Import Base BaseFacts StrModel MetaModel InsnQModel LibModel LibExample HeapModel HeapSpec HeapProofs TmdModel TmdSpec TmdProofs.

(** Every livepatch for every process has the result it would have alone, as long as memory and
    descriptors suffice ([n] of them are not given back, see [C92_descriptors_refuted]). *)
Theorem C92_as_if_alone_partial : forall alloc limit l rs n t,
  (forall k, alloc k = true) -> rested t -> answers_all l rs n -> t_files t + n < limit ->
  exists t', trigger_all alloc limit l t = Some (rs, t') /\ t_files t' = t_files t + n.
Proof. intros alloc limit l rs n t A R H L. eapply all_runs; eauto. Qed.
Print Assumptions C92_as_if_alone_partial.

(** And it has no other result: the results of a command are those of its requests. *)
Theorem C92_no_other_result_partial : forall alloc limit l rs t t',
  (forall k, alloc k = true) -> rested t -> t_files t + zlen l <= limit -> trigger_all alloc limit l t = Some (rs, t') ->
  exists n, answers_all l rs n /\ t_files t' = t_files t + n.
Proof. intros alloc limit l rs t t' A R L E. eapply all_results; eauto. Qed.
Print Assumptions C92_no_other_result_partial.

(** The result of a request alone is one. *)
Theorem C92_one_answer : forall q r k r' k', answers q r k -> answers q r' k' -> r = r' /\ k = k'.
Proof. exact answers_fun. Qed.
Print Assumptions C92_one_answer.

(** The command crashes only at a request that crashes alone. *)
Theorem C92_crash_own_partial : forall alloc limit l t,
  (forall k, alloc k = true) -> rested t -> t_files t + zlen l <= limit -> trigger_all alloc limit l t = None ->
  exists q, In q l /\ forall r k, ~ answers q r k.
Proof.
  intros alloc limit l. induction l as [|q l IH]; intros t A R L E; cbn [trigger_all] in E; [discriminate|].
  rewrite zlen_cons in L. pose proof (zlen_nonneg l) as ZL.
  destruct (trigger_one_process alloc limit q t) as [[r t1]|] eqn:E1.
  - destruct (one_result alloc limit A q t r t1 R) as (k & AN & F1); [lia|exact E1|].
    destruct (one_leaves alloc limit q t r t1 R E1) as (R1 & _). pose proof (cost_nonneg _ _ _ AN) as K.
    destruct (trigger_all alloc limit l t1) as [[rs t2]|] eqn:E2; [discriminate|].
    destruct (IH t1 A R1) as (q' & I & N); [lia|exact E2|]. exists q'. split; [right; exact I|exact N].
  - exists q. split; [left; reflexivity|]. intros r k AN.
    destruct (one_runs alloc limit A q t r k R) as (t1 & X & _); [lia|exact AN|]. congruence.
Qed.
Print Assumptions C92_crash_own_partial.

(** Whatever the livepatches, and whichever allocations fail: nothing is released that is not in
    use, nothing of a livepatch is left in the tool when it turns to the next one, and what is not
    given back is at most three blocks for each livepatch; nothing if all can be read. *)
Theorem C92_given_back : forall alloc limit l t rs t',
  rested t -> trigger_all alloc limit l t = Some (rs, t') ->
  rested t' /\ exists lost, keeps (t_heap t) (t_heap t') lost /\ zlen lost <= 3 * zlen l /\
    ((forall n, alloc n = true) -> Forall readable l -> lost = []).
Proof. intros alloc limit l t rs t'. apply all_leaves. Qed.
Print Assumptions C92_given_back.

(** *** Cases *)

Definition td_secs (data : list Z) : list (option (list Z) * list Z) :=
  [(Some [], []); (Some (zs ".text"), [195]); (Some (zs ".ulp"), data); (Some (zs ".ulp.rev"), [])].
Definition td_req (p : pmeta) (cut : nat) (path : list Z) : treq :=
  mk_treq false (Some (FElf (td_secs (firstn cut (create_patch_metadata_file p))))) path false 0
    (fun md => match md with Some md => zlen (md_deps md) | None => 7 end).
(** A good livepatch, one with a dependency, one that ends in a unit, one that is too long, an old
    libpulp, a reversal, a missing file, and the first one again. *)
Definition td_list : list treq :=
  [td_req P1 4000 (w_path 1); td_req P2 4000 (w_path 2); td_req P2 90 (w_path 2); td_req P1 4000 (repeat 97 4096);
   mk_treq true None [] false 0 (fun _ => 0); mk_treq false None [] false 0 (fun _ => 7);
   mk_treq false (Some FMissing) [] false 0 (fun _ => 0); td_req P1 4000 (w_path 1)].

Lemma start_rested : rested tool_start.
Proof. repeat split; try reflexivity; [constructor|intros b []]. Qed.

Example C92_case : rested tool_start /\
  match trigger_all (fun _ => true) 100 td_list tool_start with
  | Some (rs, t) => rs = [0; 1; EINVALIDULP; ENOMETA; InsnQModel.EOLDULP; 7; ENOMETA; 0] /\ t_files t = 1 /\ (20 < x_n (t_heap t))%nat /\
      x_bad (t_heap t) = false /\ List.length (x_live (t_heap t)) = 3%nat
  | None => False
  end.
Proof. split; [exact start_rested|]. vm_compute. repeat split; lia. Qed.

(** A library whose section names cannot be read makes the tool crash, now and alone. *)
Example C92_crash_case :
  trigger_all (fun _ => true) 100 [td_req P1 4000 (w_path 1); mk_treq false (Some (FElf [(None, []); (Some (zs ".ulp"), [1])])) [] false 0 (fun _ => 0)] tool_start = None.
Proof. vm_compute. reflexivity. Qed.

Example C92_readable_case : Forall readable [td_req P1 4000 (w_path 1); td_req P2 4000 (w_path 2)].
Proof.
  assert (G : forall q md, (match r_file q with
     | Some (FElf secs) => match get_elfscn_by_name (section_name (r_revert q)) secs with
        | SecData data => match extract_ulp_from_so_to_mem data (r_path q) with
           | P_ok (Some buf) => parse_metadata_from_mem (r_junk q) buf
           | _ => P_fuel end
        | _ => P_fuel end
     | _ => P_fuel end) = P_ok md -> readable q).
  { intros q md E buf c (_ & secs & data & F & HS & DN & XX) P. rewrite F in E. apply scn_some in HS. change (wanted (r_revert q)) with (section_name (r_revert q)) in HS. rewrite HS, XX, P in E. discriminate. }
  apply Forall_cons; [eapply G; vm_compute; reflexivity|]. apply Forall_cons; [eapply G; vm_compute; reflexivity|]. apply Forall_nil.
Qed.

(** *** What is not so *)

(** The file stays open when the livepatch is refused for its size or its path; after as many as
    there are descriptors, good livepatches are reported to have no metadata. *)
Theorem C92_descriptors_refuted : forall limit, 0 <= limit -> exists l q rs t',
  zlen l = limit /\ answers q 0 0 /\ List.length rs = List.length l /\
  trigger_all (fun _ => true) limit (l ++ [q]) tool_start = Some (rs ++ [ENOMETA], t').
Proof.
  intros limit HL. set (large := td_req P1 4000 (repeat 97 4096)). set (q := td_req P1 4000 (w_path 1)).
  exists (repeat large (Z.to_nat limit)), q, (repeat ENOMETA (Z.to_nat limit)).
  assert (AL : answers large ENOMETA 1).
  { assert (X : get_elfscn_by_name (section_name (r_revert large)) (td_secs (firstn 4000 (create_patch_metadata_file P1))) = SecData (firstn 4000 (create_patch_metadata_file P1))) by (vm_compute; reflexivity).
    apply scn_some in X. apply ans_large. split; [reflexivity|]. do 2 eexists. split; [reflexivity|]. split; [exact X|]. split; [vm_compute; discriminate|vm_compute; reflexivity]. }
  assert (AQ : answers q 0 0).
  { assert (X : get_elfscn_by_name (section_name (r_revert q)) (td_secs (firstn 4000 (create_patch_metadata_file P1))) = SecData (firstn 4000 (create_patch_metadata_file P1))) by (vm_compute; reflexivity).
    apply scn_some in X.
    assert (H : exists buf md, extract_ulp_from_so_to_mem (firstn 4000 (create_patch_metadata_file P1)) (r_path q) = P_ok (Some buf) /\
       parse_metadata_from_mem 0 buf = P_ok md /\ zlen (md_deps md) = 0).
    { eexists. eexists. split; [vm_compute; reflexivity|]. split; [vm_compute; reflexivity|reflexivity]. }
    destruct H as (buf & md & H1 & H2 & H3). assert (Z0 : r_rest q (Some md) = 0) by exact H3.
    rewrite <- Z0 at 1. apply (ans_read q buf md); [|exact H2].
    split; [reflexivity|]. do 2 eexists. split; [reflexivity|]. split; [exact X|]. split; [vm_compute; discriminate|exact H1]. }
  assert (G : forall n t, rested t -> t_files t + Z.of_nat n = limit ->
     exists t', trigger_all (fun _ => true) limit (repeat large n ++ [q]) t = Some (repeat ENOMETA n ++ [ENOMETA], t')).
  { induction n as [|n IH]; intros t R F; cbn [repeat app trigger_all].
    - assert (E : trigger_one_process (fun _ => true) limit q t = Some (ENOMETA, release_ulp_global_metadata t)).
      { unfold trigger_one_process, extract. change (r_old q) with false. cbv iota.
        change (r_file q) with (Some (FElf (td_secs (firstn 4000 (create_patch_metadata_file P1))))). cbv iota.
        assert (LT : (limit <=? t_files t) = true) by (apply Z.leb_le; lia). rewrite LT. reflexivity. }
      rewrite E. eauto.
    - destruct (one_runs (fun _ => true) limit (fun _ => eq_refl) large t ENOMETA 1 R) as (t1 & E1 & F1); [lia|exact AL|].
      rewrite E1. destruct (one_leaves _ _ _ _ _ _ R E1) as (R1 & _). destruct (IH t1 R1) as (t2 & E2); [lia|]. rewrite E2. eauto. }
  destruct (G (Z.to_nat limit) tool_start start_rested) as (t' & E); [cbn [tool_start t_files]; lia|].
  exists t'. split; [unfold zlen; rewrite repeat_length; lia|]. split; [exact AQ|]. split; [rewrite !repeat_length; reflexivity|exact E].
Qed.
Print Assumptions C92_descriptors_refuted.

(** What was read of an incomplete replacement is lost. *)
Theorem C92_leak_refuted : exists q r t',
  trigger_one_process (fun _ => true) 100 q tool_start = Some (r, t') /\ List.length (x_live (t_heap t')) = 3%nat.
Proof. exists (td_req P2 90 (w_path 2)). eexists. eexists. split; vm_compute; reflexivity. Qed.
Print Assumptions C92_leak_refuted.

(** The buffer for the livepatch is used without testing that there is one. *)
Theorem C92_no_memory_refuted : exists alloc q, answers q 0 0 /\ trigger_one_process alloc 100 q tool_start = None.
Proof.
  exists (fun _ => false), (td_req P1 4000 (w_path 1)). split; [|vm_compute; reflexivity].
  destruct (one_result (fun _ => true) 100 (fun _ => eq_refl) (td_req P1 4000 (w_path 1)) tool_start 0
    (match trigger_one_process (fun _ => true) 100 (td_req P1 4000 (w_path 1)) tool_start with Some (_, t) => t | None => tool_start end) start_rested) as (k & AN & F).
  - cbn. lia.
  - vm_compute. reflexivity.
  - assert (K : k = 0). { assert (Y : t_files (match trigger_one_process (fun _ => true) 100 (td_req P1 4000 (w_path 1)) tool_start with Some (_, t) => t | None => tool_start end) = 0) by (vm_compute; reflexivity).
      rewrite Y in F. cbn [tool_start t_files] in F. clear - F. lia. }
    subst k. exact AN.
Qed.
Print Assumptions C92_no_memory_refuted.
