(** Property theorems about the memory that patch requests take (C84). *)
From Coq Require Import String Permutation.
From Verif Require Import Base BaseFacts StrModel MetaModel InsnQModel LibModel LibSpec LibProofs LibExample LibProps HeapModel HeapSpec HeapProofs.

(** Whatever the request, whichever calls of calloc fail: nothing is freed that
    is not in use (in particular nothing twice), and everything in use before is
    still in use. *)
Theorem C84_no_bad_free :
  forall alloc e m junk buf st x st' r x',
    in_order x -> hload_patch alloc e m junk buf st x = Some (st', r, x') ->
    in_order x' /\ exists kept, keeps x x' kept.
Proof.
  intros alloc e m junk buf st x st' r x' OK E.
  destruct (request_ok _ _ _ _ _ _ _ _ _ _ OK E) as (O & kept & KE & _). split; [exact O|]. exists kept. exact KE.
Qed.
Print Assumptions C84_no_bad_free.

(** ... and so for any sequence of requests. *)
Theorem C84_no_bad_free_ever :
  forall alloc e m l st x st' rs x',
    in_order x -> hrequests alloc e m l st x = Some (st', rs, x') ->
    in_order x' /\ exists kept, keeps x x' kept.
Proof.
  intros alloc e m l. induction l as [|[junk buf] l IH]; intros st x st' rs x' OK E; cbn [hrequests] in E.
  - injection E as <- <- <-. split; [exact OK|]. exists []. split; [apply Permutation_refl|]. split; [lia|intros b []].
  - destruct (hload_patch alloc e m junk buf st x) as [[[st1 r1] x1]|] eqn:E1; [|discriminate].
    destruct (hrequests alloc e m l st1 x1) as [[[st2 rs2] x2]|] eqn:E2; [|discriminate]. injection E as <- <- <-.
    destruct (C84_no_bad_free _ _ _ _ _ _ _ _ _ _ OK E1) as (O1 & k1 & P1 & L1 & B1).
    destruct (IH _ _ _ _ _ O1 E2) as (O2 & k2 & P2 & L2 & B2). split; [exact O2|]. exists (k2 ++ k1). split.
    + rewrite <- app_assoc. eapply Permutation_trans; [exact P2|]. apply Permutation_app_head. exact P1.
    + split; [lia|]. intros b I. apply in_app_or in I. destruct I as [I|I]; [specialize (B2 b I)|specialize (B1 b I)]; lia.
Qed.
Print Assumptions C84_no_bad_free_ever.

(** A request during which memory runs out, at whatever point of reading the
    livepatch, is refused with an error, changes nothing of the livepatching
    state and opens nothing. *)
Theorem C84_out_of_memory :
  forall alloc e m junk buf st x st' r x',
    in_order x -> hload_patch alloc e m junk buf st x = Some (st', r, x') -> ran_out alloc x x' ->
    st' = st /\ (r = EINVALIDULP \/ r = ENOMEM) /\ x_handles x' = x_handles x.
Proof.
  intros alloc e m junk buf st x st' r x' OK E RO.
  destruct (request_ok _ _ _ _ _ _ _ _ _ _ OK E) as (_ & kept & _ & [(_ & A & B & C & _)|(N & _)]); [auto|contradiction].
Qed.
Print Assumptions C84_out_of_memory.

(** If memory does not run out, the answer and the livepatching state are those
    of the request in LibModel, about which the other theorems speak. *)
Theorem C84_same_request :
  forall alloc e m junk buf st x,
    (forall n, alloc n = true) ->
    match hload_patch alloc e m junk buf st x with
    | Some (st', r, _) => load_patch e m junk buf st = Some (st', r)
    | None => load_patch e m junk buf st = None
    end.
Proof.
  intros alloc e m junk buf st x A. pose proof (load_same alloc A e m junk buf st x) as S.
  destruct (hload_patch alloc e m junk buf st x) as [[[st' r] x']|], (load_patch e m junk buf st) as [[st2 r2]|];
    try contradiction; [destruct S as [-> ->]|]; reflexivity.
Qed.
Print Assumptions C84_same_request.

(** What is kept.  The full property would be: nothing.  Proved: a livepatch that
    can be read costs one block and one per dependency, whether it is applied or
    refused; one that cannot be read costs at most four blocks and one per 32
    bytes of the request.  Missing: see [C84_leak_refuted]. *)
Theorem C84_bounded_partial :
  forall alloc e m junk buf st x st' r x',
    in_order x -> (forall n, alloc n = true) -> hload_patch alloc e m junk buf st x = Some (st', r, x') ->
    exists kept, keeps x x' kept /\ 1 <= zlen kept <= 4 + zlen buf / 32 /\
      (forall md, parse_metadata_from_mem junk buf = P_ok md -> zlen kept = 1 + zlen (md_deps md)).
Proof.
  intros alloc e m junk buf st x st' r x' OK ALL E.
  destruct (request_ok _ _ _ _ _ _ _ _ _ _ OK E) as (_ & kept & KE & [((n & _ & F) & _)|(_ & D)]); [congruence|].
  exists kept. split; [exact KE|]. destruct D as [(_ & _ & _ & B & P)|(md & P & _ & B1 & B2)].
  - split; [exact B|]. intros md Q. rewrite (P ALL) in Q. discriminate.
  - split; [pose proof (zlen_nonneg (md_deps md)); lia|]. intros md' Q. rewrite (P ALL) in Q. injection Q as <-. exact B1.
Qed.
Print Assumptions C84_bounded_partial.

(** *** Cases *)

Definition all_ok : nat -> bool := fun _ => true.
(** The fifth call of calloc fails. *)
Definition fifth_fails : nat -> bool := fun n => negb (Nat.eqb n 4).

Lemma empty_in_order : in_order empty_heap.
Proof. split; [constructor|]. split; [intros b []|reflexivity]. Qed.

(** Patch 1 of the example world is applied; one block stays, and the container
    is open. *)
Example C84_case :
  in_order empty_heap /\
  match hload_patch all_ok w_env (p_mem w_start) 0 (w_buf 1 P1) (p_lib w_start) empty_heap with
  | Some (st, r, x) => r = 0 /\ s_patches st <> [] /\ x_live x = [0%nat] /\ (5 < x_n x)%nat /\ zlen (x_handles x) = 1
  | None => False
  end.
Proof. split; [exact empty_in_order|]. vm_compute. repeat split; try discriminate; lia. Qed.

(** Several requests: patch 5, which is refused, twice, then patch 1. *)
Example C84_ever_case :
  match hrequests all_ok w_env (p_mem w_start) [(0, w_buf 5 P5); (0, w_buf 5 P5); (0, w_buf 1 P1)] (p_lib w_start) empty_heap with
  | Some (st, rs, x) => rs = [ESTATE; ESTATE; 0] /\ List.length (x_live x) = 3%nat /\ x_bad x = false
  | None => False
  end.
Proof. vm_compute. repeat split. Qed.

Example C84_out_of_memory_case :
  match hload_patch fifth_fails w_env (p_mem w_start) 0 (w_buf 1 P1) (p_lib w_start) empty_heap with
  | Some (st, r, x) => r = EINVALIDULP /\ x_n x = 5%nat /\ x_live x = [0%nat] /\ x_bad x = false
  | None => False
  end.
Proof. vm_compute. repeat split. Qed.

Example C84_bounded_case :
  match parse_metadata_from_mem 0 (w_buf 1 P1), parse_metadata_from_mem 0 (firstn 130 (w_buf 1 P1)) with
  | P_ok md, P_err c => md_units md <> [] /\ c = EINVALIDULP
  | _, _ => False
  end.
Proof. vm_compute. split; [discriminate|reflexivity]. Qed.

Lemma P5_refused : load_patch w_env (p_mem w_start) 0 (w_buf 5 P5) (p_lib w_start) = Some (p_lib w_start, ESTATE).
Proof.
  assert (Q : match parse_metadata_from_mem 0 (w_buf 5 P5) with
    | P_ok md => md_type md = 1 /\ check_patch_sanity w_env md (p_lib w_start) = Some 0 /\
        (e_dlopen w_env (md_so md) =? 0) = false /\
        ulp_state_update w_env (p_mem w_start) (e_dlopen w_env (md_so md)) md (p_lib w_start) = None
    | _ => False end) by (vm_compute; repeat split).
  unfold load_patch. generalize dependent (parse_metadata_from_mem 0 (w_buf 5 P5)). intros P Q. destruct P; try destruct Q.
  destruct H0 as (S1 & D & U). rewrite H, S1. cbn [Z.eqb Pos.eqb negb]. rewrite D, U. reflexivity.
Qed.

(** *** What is not so *)

(** A request that gives nothing back of what it took would be forgiven if it
    were applied; but every request costs memory, also the refused ones and the
    reverts, and so their number is not bounded by the memory of the program: [n]
    requests keep at least [n] blocks. *)
Theorem C84_leak_refuted :
  (forall alloc e m l st x st' rs x',
     in_order x -> (forall n, alloc n = true) -> hrequests alloc e m l st x = Some (st', rs, x') ->
     zlen (x_live x) + zlen l <= zlen (x_live x')) /\
  (forall n, exists x', hrequests all_ok w_env (p_mem w_start) (repeat (0, w_buf 5 P5) n) (p_lib w_start) empty_heap =
     Some (p_lib w_start, repeat ESTATE n, x') /\ Z.of_nat n <= zlen (x_live x')).
Proof.
  assert (G : forall alloc e m l st x st' rs x',
     in_order x -> (forall n, alloc n = true) -> hrequests alloc e m l st x = Some (st', rs, x') ->
     zlen (x_live x) + zlen l <= zlen (x_live x')).
  { intros alloc e m l. induction l as [|[junk buf] l IH]; intros st x st' rs x' OK ALL E; cbn [hrequests] in E.
    - injection E as <- <- <-. cbn. lia.
    - destruct (hload_patch alloc e m junk buf st x) as [[[st1 r1] x1]|] eqn:E1; [|discriminate].
      destruct (hrequests alloc e m l st1 x1) as [[[st2 rs2] x2]|] eqn:E2; [|discriminate]. injection E as <- <- <-.
      destruct (C84_no_bad_free _ _ _ _ _ _ _ _ _ _ OK E1) as (O1 & _).
      destruct (C84_bounded_partial _ _ _ _ _ _ _ _ _ _ OK ALL E1) as (kept & (P1 & _) & (K & _) & _).
      specialize (IH _ _ _ _ _ O1 ALL E2). apply Permutation_length in P1. rewrite app_length in P1.
      rewrite zlen_cons. unfold zlen in *. lia. }
  split; [exact G|].
  assert (ST : forall x, in_order x -> exists x', hload_patch all_ok w_env (p_mem w_start) 0 (w_buf 5 P5) (p_lib w_start) x =
     Some (p_lib w_start, ESTATE, x') /\ in_order x').
  { intros x OK. pose proof (C84_same_request all_ok w_env (p_mem w_start) 0 (w_buf 5 P5) (p_lib w_start) x (fun _ => eq_refl)) as S.
    pose proof P5_refused as L.
    destruct (hload_patch all_ok w_env (p_mem w_start) 0 (w_buf 5 P5) (p_lib w_start) x) as [[[st1 r1] x1]|] eqn:E;
      rewrite S in L; [|discriminate]. apply Some_inj in L. apply pair_equal_spec in L. destruct L as [-> ->].
    exists x1. split; [reflexivity|]. apply (C84_no_bad_free _ _ _ _ _ _ _ _ _ _ OK E). }
  intros n.
  assert (R : forall n x, in_order x -> exists x', hrequests all_ok w_env (p_mem w_start) (repeat (0, w_buf 5 P5) n) (p_lib w_start) x =
     Some (p_lib w_start, repeat ESTATE n, x')).
  { clear n. induction n as [|n IH]; intros x OK; cbn [repeat hrequests]; [eauto|].
    destruct (ST x OK) as (x1 & -> & O1). destruct (IH x1 O1) as (x2 & ->). eauto. }
  destruct (R n empty_heap empty_in_order) as (x' & E). exists x'. split; [exact E|].
  specialize (G _ _ _ _ _ _ _ _ _ empty_in_order (fun _ => eq_refl) E). unfold zlen in *. rewrite repeat_length in G.
  cbn [empty_heap x_live List.length] in G. lia.
Qed.
Print Assumptions C84_leak_refuted.

(** A livepatch that is refused after its container was opened (here: it names a
    function that does not exist) leaves the container loaded. *)
Theorem C84_container_refuted :
  exists buf st' x', hload_patch all_ok w_env (p_mem w_start) 0 buf (p_lib w_start) empty_heap = Some (st', ESTATE, x') /\
    s_patches st' = s_patches (p_lib w_start) /\ x_handles x' <> [].
Proof.
  exists (w_buf 5 P5).
  assert (X : match hload_patch all_ok w_env (p_mem w_start) 0 (w_buf 5 P5) (p_lib w_start) empty_heap with
    | Some (st', r, x') => r = ESTATE /\ s_patches st' = [] /\ x_handles x' <> []
    | None => False end) by (vm_compute; repeat split; discriminate).
  destruct (hload_patch _ _ _ _ _ _ _) as [[[st' r] x']|]; [|contradiction]. destruct X as (-> & A & B).
  exists st', x'. split; [reflexivity|]. split; [exact A|exact B].
Qed.
Print Assumptions C84_container_refuted.

(** Memory that runs out while the names are read is reported as an invalid
    livepatch, not as lack of memory. *)
Theorem C84_error_code_refuted :
  exists alloc buf x', hload_patch alloc w_env (p_mem w_start) 0 buf (p_lib w_start) empty_heap =
      Some (p_lib w_start, EINVALIDULP, x') /\ ran_out alloc empty_heap x' /\
    exists md, parse_metadata_from_mem 0 buf = P_ok md.
Proof.
  exists fifth_fails, (w_buf 1 P1).
  assert (X : match hload_patch fifth_fails w_env (p_mem w_start) 0 (w_buf 1 P1) (p_lib w_start) empty_heap with
    | Some (st', r, x') => r = EINVALIDULP /\ x_n x' = 5%nat
    | None => False end) by (vm_compute; repeat split).
  destruct (hload_patch _ _ _ _ _ _ _) as [[[st' r] x']|] eqn:E; [|contradiction]. destruct X as (-> & N).
  exists x'.
  assert (RO : ran_out fifth_fails empty_heap x').
  { exists 4%nat. split; [rewrite N; cbn; lia|reflexivity]. }
  destruct (C84_out_of_memory _ _ _ _ _ _ _ _ _ _ empty_in_order E RO) as (-> & _ & _).
  split; [reflexivity|]. split; [exact RO|]. eexists. vm_compute. reflexivity.
Qed.
Print Assumptions C84_error_code_refuted.
