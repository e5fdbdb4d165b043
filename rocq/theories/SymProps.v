(** Property theorems about symbol lookup and the build-id check in libpulp
    (C05, C49), and the effect of reverse metadata (C20). *)
From Coq Require Import String.
From Verif Require Import Base BaseFacts InsnQModel InsnQSpec InsnQProofs MetaModel MetaSpec MetaProps StrModel
  X86Model X86Spec DlModel LibModel LibSpec LibProofs LibInv LibExample LibMore SymProofs LibProps.

(** ** C20 *)

(** C20: applying the reverse metadata the packer wrote for a patch reverts that
    patch and nothing else. *)
Theorem C20_applying_reverse_reverts :
  forall (d : pmeta) (path : list Z) m stale tr p busy e junk trailing p',
    pmeta_ok d -> cstr_ok path -> path <> [] -> zlen path + 1 < PATH_MAX ->
    zlen (write_reverse_patch d) + 4 + (zlen path + 1) < ULP_METADATA_BUF_LEN ->
    exists b,
      extract_ulp_from_so_to_mem (write_reverse_patch d) path = P_ok (Some b) /\
      (history (fresh m stale) tr p ->
       do_event (EvApply busy e junk (b ++ trailing)) p = Some (p', 0) ->
       exists newer_ones a older_ones,
         s_patches (p_lib p) = newer_ones ++ a :: older_ones /\
         s_patches (p_lib p') = newer_ones ++ older_ones /\
         a_id a = pm_id d /\ ~ In (pm_id d) (reported p')).
Proof.
  intros d path m stale tr p busy e junk trailing p' Hd Hc Hne Hl Hs.
  destruct (C20_reverse_identifies_patch d path Hd Hc Hne Hl Hs) as (b & B1 & B2).
  exists b. split; [exact B1|]. intros H E.
  apply (C04_revert_removes_exactly_one m stale tr p busy e junk (b ++ trailing) (seen_reverse d path) p' H
           (B2 junk trailing) eq_refl E).
Qed.
Print Assumptions C20_applying_reverse_reverts.

Example C20_revert_case :
  match run [ap 1 P1; ex; ap 3 P3; ex; rv 1 P1; ex] w_start with
  | Some (p, l) => l = [0; 0; 0; 0; 0; 0] /\ reported p = [repeat 3 32]
  | None => False
  end.
Proof. vm_compute. auto. Qed.

(** ** C05 *)

(** C05, the exact meaning of the check as written, for objects with well-formed
    note segments: the request passes iff some loaded object, whatever its name,
    has a build-id note of the right length and a DIFFERENT content. What is
    missing is C05 itself: see the two refutations. *)
Theorem C05_check_meaning_partial :
  forall libs segss bid,
    Forall2 lib_notes libs segss ->
    (check_build_id libs (zlen bid) bid = N_match true <->
     exists segs ns n, In segs segss /\ In ns segs /\ find is_build_id ns = Some n /\
       zlen (nt_desc n) = zlen bid /\ nt_desc n <> bid) /\
    (check_build_id libs (zlen bid) bid = N_match true \/ check_build_id libs (zlen bid) bid = N_match false).
Proof.
  intros libs segss bid H. rewrite (check_notes bid libs segss H). split.
  - split.
    + intros X. injection X as X. apply existsb_exists in X. destruct X as (segs & S1 & X).
      apply existsb_exists in X. destruct X as (ns & S2 & X). exists segs, ns.
      destruct (find is_build_id ns) as [n|]; [|discriminate]. exists n. cbn [mismatch] in X.
      apply andb_true_iff in X. destruct X as [X1 X2].
      split; [exact S1|]. split; [exact S2|]. split; [reflexivity|]. split; [lia|].
      intros Eq. rewrite Eq in X2. rewrite (proj2 (bytes_eqb_eq _ _) eq_refl) in X2. discriminate.
    + intros (segs & ns & n & S1 & S2 & F & L & D). f_equal. apply existsb_exists. exists segs. split; [exact S1|].
      apply existsb_exists. exists ns. split; [exact S2|]. rewrite F. cbn [mismatch].
      rewrite (proj2 (Z.eqb_eq _ _) L). destruct (bytes_eqb bid (nt_desc n)) eqn:E; [|reflexivity].
      apply bytes_eqb_eq in E. congruence.
  - destruct (existsb _ segss); auto.
Qed.
Print Assumptions C05_check_meaning_partial.

(** C05, the refusal part: a patch the check does not pass is answered with
    EBUILDID and changes nothing. *)
Theorem C05_refusal_partial :
  forall p e junk buf md,
    s_err (p_lib p) = 0 -> no_pending p ->
    parse_metadata_from_mem junk buf = P_ok md -> md_type md <> 2 ->
    check_build_id (e_libs e) (md_bid_len md) (md_bid md) = N_match false ->
    do_event (EvApply false e junk buf) p = Some (p, EBUILDID).
Proof.
  intros p e junk buf md He Hn Hp Ht Hb.
  rewrite open_gate by assumption. unfold load_patch. rewrite Hp.
  destruct (Z.eqb_spec (md_type md) 2) as [X|_]; [contradiction|].
  unfold check_patch_sanity. rewrite Hb. change (negb (EBUILDID =? 0)) with true. cbv iota beta.
  rewrite proc_eta. reflexivity.
Qed.
Print Assumptions C05_refusal_partial.

Definition gnu : list Z := [71; 78; 85; 0].
Definition note_of (b : Z) : note := mk_note 3 gnu (repeat b 20).
Definition one_lib (name : list Z) (b : Z) : lib :=
  mk_lib name 65536 2 (Some [(zs "f", 256)]) [(note_bytes (note_of b), 36)].

(** An object may have other notes in front of its build id. *)
Example C05_case :
  let l := mk_lib (zs "/lib/libfoo.so.0") 65536 2 (Some []) 
             [(flat_map note_bytes [mk_note 5 gnu (repeat 9 7); note_of 2], 60)] in
  lib_notes l [[mk_note 5 gnu (repeat 9 7); note_of 2]] /\
  check_build_id [l] 20 (repeat 3 20) = N_match true.
Proof.
  split; [|vm_compute; reflexivity]. split; [|reflexivity].
  repeat constructor; cbn; unfold is_byte; lia.
Qed.

Definition foo_env (l : lib) : dlenv :=
  mk_dlenv (zs "app") [l] [l] w_dlopen w_dlsym (fun h => Some (h * 65536 * 16)).
Definition bid_patch (b : Z) : pmeta :=
  mk_pmeta (repeat 1 32) 20 (repeat b 20) libfoo 1 [mk_munit (zs "f") (zs "g") 0] 0 [] 0 [].
Definition bid_buf (b : Z) : list Z :=
  bytes_of (extract_ulp_from_so_to_mem (create_patch_metadata_file (bid_patch b)) (w_path 1)).

Lemma one_lib_notes name b : is_byte b -> lib_notes (one_lib name b) [[note_of b]].
Proof.
  intros Hb. split.
  - constructor; [|constructor]. constructor; [|constructor].
    unfold note_ok. cbn [nt_type nt_name nt_desc note_of]. split; [lia|].
    split; [repeat (constructor; [unfold is_byte; lia|]); constructor|].
    split; [apply Forall_forall; intros x Hx; apply repeat_spec in Hx; subst; exact Hb|].
    split; reflexivity.
  - cbn [map flat_map one_lib lb_notes]. rewrite app_nil_r. reflexivity.
Qed.

(** C05 is false of the code (1): a patch made for build 2 of libfoo is applied to
    a process whose only object is build 3 of libfoo. *)
Theorem C05_wrong_build_accepted_refuted :
  exists (l : lib) (md : meta) (buf : list Z) (p : proc) (p' : proc),
    parse_metadata_from_mem 0 buf = P_ok md /\ md_type md = 1 /\
    p = fresh w_mem (fun _ => 0) /\
    carries l (repeat 3 20) /\ md_bid md = repeat 2 20 /\ ~ carries l (md_bid md) /\
    do_event (EvApply false (foo_env l) 0 buf) p = Some (p', 0) /\ reported p' = [md_id md].
Proof.
  set (l := one_lib (zs "/lib/libfoo.so.0") 3). set (p := fresh w_mem (fun _ => 0)).
  assert (X : match do_event (EvApply false (foo_env l) 0 (bid_buf 2)) p with
    | Some (p', a) => a = 0 /\ reported p' = [repeat 1 32] | None => False end) by (vm_compute; auto).
  destruct (do_event (EvApply false (foo_env l) 0 (bid_buf 2)) p) as [[p' a]|] eqn:E; [|contradiction].
  destruct X as [-> X].
  assert (Y : match parse_metadata_from_mem 0 (bid_buf 2) with
    | P_ok md => md_type md = 1 /\ md_bid md = repeat 2 20 /\ md_id md = repeat 1 32 | _ => False end) by (vm_compute; auto).
  destruct (parse_metadata_from_mem 0 (bid_buf 2)) as [| | |md] eqn:Ep; try contradiction.
  destruct Y as (Y1 & Y2 & Y3).
  exists l, md, (bid_buf 2), p, p'. split; [exact Ep|]. split; [exact Y1|]. split; [reflexivity|].
  assert (Hb : is_byte 3) by (unfold is_byte; lia).
  split; [exists [[note_of 3]], [note_of 3], (note_of 3); repeat split; try apply one_lib_notes; auto; left; reflexivity|].
  split; [exact Y2|]. split; [|split; [exact E|rewrite X, Y3; reflexivity]].
  intros (segs & ns & n & L1 & L2 & L3 & L4 & L5). rewrite Y2 in L5.
  assert (C : check_build_id [l] (zlen (repeat 3 20)) (repeat 3 20) = N_match true).
  { apply (proj1 (C05_check_meaning_partial [l] [segs] (repeat 3 20) ltac:(constructor; [exact L1|constructor]))).
    exists segs, ns, n. split; [left; reflexivity|]. split; [exact L2|]. split; [exact L3|].
    rewrite L5. split; [reflexivity|discriminate]. }
  vm_compute in C. discriminate.
Qed.
Print Assumptions C05_wrong_build_accepted_refuted.

(** C05 is false of the code (2): the patch made for exactly the build that is
    loaded is refused with EBUILDID when no other object has a build id of that
    length. *)
Theorem C05_right_build_refused_refuted :
  exists (l : lib) (md : meta) (buf : list Z) (p : proc),
    parse_metadata_from_mem 0 buf = P_ok md /\ md_type md = 1 /\
    p = fresh w_mem (fun _ => 0) /\
    carries l (md_bid md) /\ get_basename (lb_name l) = get_basename (md_name md) /\
    do_event (EvApply false (foo_env l) 0 buf) p = Some (p, EBUILDID).
Proof.
  set (l := one_lib (zs "/lib/libfoo.so.0") 2). set (p := fresh w_mem (fun _ => 0)).
  assert (Y : match parse_metadata_from_mem 0 (bid_buf 2) with
    | P_ok md => md_type md = 1 /\ md_bid md = repeat 2 20 /\ md_bid_len md = 20 /\ md_name md = libfoo | _ => False end)
    by (vm_compute; auto).
  destruct (parse_metadata_from_mem 0 (bid_buf 2)) as [| | |md] eqn:Ep; try contradiction.
  destruct Y as (Y1 & Y2 & Y3 & Y4).
  exists l, md, (bid_buf 2), p. split; [exact Ep|]. split; [exact Y1|]. split; [reflexivity|].
  assert (Hb : is_byte 2) by (unfold is_byte; lia).
  split; [rewrite Y2; exists [[note_of 2]], [note_of 2], (note_of 2); repeat split; try apply one_lib_notes; auto; left; reflexivity|].
  split; [rewrite Y4; reflexivity|].
  apply (C05_refusal_partial p (foo_env l) 0 (bid_buf 2) md); auto; [split; reflexivity|lia|].
  rewrite Y2, Y3. vm_compute. reflexivity.
Qed.
Print Assumptions C05_right_build_refused_refuted.

(** ** C49 *)

(** The value of the first symbol with this name. *)
Definition first_symbol (syms : list (list Z * Z)) (name : list Z) (v : Z) : Prop :=
  exists before after, syms = before ++ (name, v) :: after /\ forall n w, In (n, w) before -> n <> name.

Lemma first_symbol_value syms name v : first_symbol syms name v -> get_symbol_by_name syms name = v.
Proof.
  intros (before & after & -> & H). induction before as [|[n w] t IH]; cbn [app get_symbol_by_name].
  - rewrite (proj2 (bytes_eqb_eq _ _) eq_refl). reflexivity.
  - destruct (bytes_eqb n name) eqn:E.
    + apply bytes_eqb_eq in E. exfalso. apply (H n w (or_introl eq_refl) E).
    + apply IH. intros n' w' Hin. apply (H n' w'). right. exact Hin.
Qed.

Lemma no_symbol_value syms name : (forall v, ~ In (name, v) syms) -> get_symbol_by_name syms name = 0.
Proof.
  induction syms as [|[n w] t IH]; intros H; cbn [get_symbol_by_name]; [reflexivity|].
  destruct (bytes_eqb n name) eqn:E.
  - apply bytes_eqb_eq in E. subst. exfalso. apply (H w). left. reflexivity.
  - apply IH. intros v Hv. apply (H v). right. exact Hv.
Qed.

(** C49, the part that holds, with 'the library of that name' read as the code
    reads it: the first loaded object whose file name contains the name. The
    result is the address of the first symbol of that name; without one, or
    without the library, the lookup fails (0). For a function that is not exported,
    the offset recorded in the patch is used.
    Missing: exactness of the name match and the recorded offset of a library that
    is not loaded, see the refutations. *)
Theorem C49_lookup_partial :
  forall prog libs name sym old l syms,
    name <> prog -> designates libs name l -> lb_syms l = Some syms ->
    (forall v, first_symbol syms sym v -> v <> 0 -> old = 0 \/ old = v ->
       get_loaded_symbol_addr prog libs name sym old = u64 (lb_base l + v)) /\
    ((forall v, ~ In (sym, v) syms) -> get_loaded_symbol_addr prog libs name sym 0 = 0) /\
    ((forall v, ~ In (sym, v) syms) -> old <> 0 ->
       get_loaded_symbol_addr prog libs name sym old = u64 (lb_base l + old)).
Proof.
  intros prog libs name sym old l syms Hp Hd Hs. unfold get_loaded_symbol_addr, lib_arg.
  destruct (bytes_eqb name prog) eqn:E; [apply bytes_eqb_eq in E; contradiction|].
  rewrite (find_symbol_designated _ _ _ _ _ Hd Hs). split; [|split].
  - intros v Hv Hz Ho. rewrite (first_symbol_value _ _ _ Hv).
    destruct Ho as [->| ->]; cbn [Z.eqb negb andb].
    + destruct (Z.eqb_spec v 0); [contradiction|reflexivity].
    + rewrite Z.eqb_refl, andb_false_r. destruct (Z.eqb_spec v 0); [contradiction|reflexivity].
  - intros Hn. rewrite (no_symbol_value _ _ Hn). reflexivity.
  - intros Hn Ho. rewrite (no_symbol_value _ _ Hn).
    destruct (Z.eqb_spec old 0); [contradiction|]. cbn [negb andb].
    destruct (Z.eqb_spec 0 old); [congruence|]. reflexivity.
Qed.
Print Assumptions C49_lookup_partial.

Theorem C49_missing_library_partial :
  forall prog libs name sym, name <> prog -> not_loaded libs name ->
    get_loaded_symbol_addr prog libs name sym 0 = 0.
Proof.
  intros prog libs name sym Hp H. unfold get_loaded_symbol_addr, lib_arg.
  destruct (bytes_eqb name prog) eqn:E; [apply bytes_eqb_eq in E; contradiction|].
  rewrite (find_symbol_not_loaded _ _ _ H). reflexivity.
Qed.
Print Assumptions C49_missing_library_partial.

Example C49_case :
  get_loaded_symbol_addr (zs "app") w_libs (zs "libfoo.so.0") (zs "h") 0 = 66048 /\
  get_loaded_symbol_addr (zs "app") w_libs (zs "libfoo.so.0") (zs "static_fn") 768 = 66304 /\
  get_loaded_symbol_addr (zs "app") w_libs (zs "libfoo.so.0") (zs "b") 0 = 0 /\
  get_loaded_symbol_addr (zs "app") w_libs (zs "libnone.so") (zs "b") 0 = 0.
Proof. vm_compute. auto. Qed.

(** C49 is false of the code (1): the function of another library is found,
    because that library's file name contains the name asked for. *)
Theorem C49_other_library_refuted :
  exists libs name sym l other syms v,
    libs = [other; l] /\ get_basename (lb_name l) = name /\ get_basename (lb_name other) <> name /\
    lb_syms l = Some syms /\ first_symbol syms sym v /\
    get_loaded_symbol_addr (zs "app") libs name sym 0 <> u64 (lb_base l + v) /\
    (exists syms' v', lb_syms other = Some syms' /\ first_symbol syms' sym v' /\
       get_loaded_symbol_addr (zs "app") libs name sym 0 = u64 (lb_base other + v')).
Proof.
  set (other := mk_lib (zs "/lib/mylibz.so.1") 131072 3 (Some [(zs "f", 256)]) []).
  set (l := mk_lib (zs "/lib/libz.so.1") 65536 2 (Some [(zs "f", 256)]) []).
  exists [other; l], (zs "libz.so.1"), (zs "f"), l, other, [(zs "f", 256)], 256.
  split; [reflexivity|]. split; [reflexivity|]. split; [vm_compute; discriminate|]. split; [reflexivity|].
  split; [exists [], []; split; [reflexivity|intros ? ? []]|]. split; [vm_compute; discriminate|].
  exists [(zs "f", 256)], 256. split; [reflexivity|]. split; [exists [], []; split; [reflexivity|intros ? ? []]|]. reflexivity.
Qed.
Print Assumptions C49_other_library_refuted.

(** C49 is false of the code (2): with a recorded offset, the lookup in a library
    that is not loaded does not fail but yields the bare offset. *)
Theorem C49_missing_library_refuted :
  exists libs name sym old,
    not_loaded libs name /\ libs <> [] /\ get_loaded_symbol_addr (zs "app") libs name sym old = old /\ old <> 0.
Proof.
  exists w_libs, (zs "libnone.so"), (zs "f"), 4096. split; [|split; [discriminate|split; [reflexivity|discriminate]]].
  intros x Hx. left. rewrite <- strstr_false. repeat (destruct Hx as [<-|Hx]; [vm_compute; reflexivity|]). destruct Hx.
Qed.
Print Assumptions C49_missing_library_refuted.

(** The object a lookup ends in: the first one (the vdso aside) whose file name contains the name and whose symbols can be found. *)
Definition searched (libs : list lib) (name : list Z) (l : lib) (syms : list (list Z * Z)) : Prop :=
  exists before after, libs = before ++ l :: after /\
    substring name (lb_name l) /\ lb_name l <> vdso_name /\ lb_syms l = Some syms /\
    forall x, In x before -> ~ substring name (lb_name x) \/ lb_name x = vdso_name \/ lb_syms x = None.

Definition searched_none (libs : list lib) (name : list Z) : Prop :=
  forall x, In x libs -> ~ substring name (lb_name x) \/ lb_name x = vdso_name \/ lb_syms x = None.

(** The program itself is searched under the empty name, which every file name contains. *)
Definition search_name (prog name : list Z) : list Z := if list_eq_dec Z.eq_dec name prog then [] else name.

(** What the symbol table says about the symbol: the value of the first one with the name, 0 without one. *)
Definition symbol_says (syms : list (list Z * Z)) (sym : list Z) (v : Z) : Prop :=
  first_symbol syms sym v \/ (v = 0 /\ forall w, ~ In (sym, w) syms).

Lemma lib_arg_name prog name : lib_arg prog name = search_name prog name.
Proof.
  unfold lib_arg, search_name. destruct (list_eq_dec Z.eq_dec name prog) as [->|N].
  - rewrite (proj2 (bytes_eqb_eq _ _) eq_refl). reflexivity.
  - destruct (bytes_eqb name prog) eqn:E; [apply bytes_eqb_eq in E; contradiction|reflexivity].
Qed.

Lemma symbol_says_value syms sym v : symbol_says syms sym v <-> get_symbol_by_name syms sym = v.
Proof.
  split.
  - intros [H|[-> H]]; [exact (first_symbol_value _ _ _ H)|exact (no_symbol_value _ _ H)].
  - intros <-. induction syms as [|[n w] t IH]; cbn [get_symbol_by_name].
    + right. split; [reflexivity|]. intros w [].
    + destruct (bytes_eqb n sym) eqn:E.
      * apply bytes_eqb_eq in E. subst n. left. exists [], t. split; [reflexivity|]. intros ? ? [].
      * assert (N : n <> sym) by (intros ->; rewrite (proj2 (bytes_eqb_eq _ _) eq_refl) in E; discriminate).
        destruct IH as [(b & a & E1 & H)|[E0 H]].
        -- left. exists ((n, w) :: b), a. split; [cbn [app]; f_equal; exact E1|]. intros n' w' [X|X]; [inversion X; subst; exact N|exact (H n' w' X)].
        -- right. split; [exact E0|]. intros w' [X|X]; [inversion X; contradiction|exact (H w' X)].
Qed.

Lemma dl_find_symbol_exact libs name sym :
  (exists l syms, searched libs name l syms /\ dl_find_symbol libs name sym = (get_symbol_by_name syms sym, lb_base l)) \/
  (searched_none libs name /\ dl_find_symbol libs name sym = (0, 0)).
Proof.
  induction libs as [|x t IH]; cbn [dl_find_symbol].
  { right. split; [intros x []|reflexivity]. }
  assert (Skip : ~ substring name (lb_name x) \/ lb_name x = vdso_name \/ lb_syms x = None ->
    (exists l syms, searched (x :: t) name l syms /\ dl_find_symbol t name sym = (get_symbol_by_name syms sym, lb_base l)) \/
    (searched_none (x :: t) name /\ dl_find_symbol t name sym = (0, 0))).
  { intros Hx. destruct IH as [(l & syms & (b & a & -> & S1 & S2 & S3 & S4) & E)|(N & E)].
    - left. exists l, syms. split; [|exact E]. exists (x :: b), a. split; [reflexivity|]. split; [exact S1|]. split; [exact S2|].
      split; [exact S3|]. intros y [<-|Y]; [exact Hx|exact (S4 y Y)].
    - right. split; [|exact E]. intros y [<-|Y]; [exact Hx|exact (N y Y)]. }
  destruct (strstr (lb_name x) name) eqn:Es; cbn [negb].
  2:{ apply Skip. left. apply strstr_false. exact Es. }
  destruct (bytes_eqb (lb_name x) vdso_name) eqn:Ev.
  { apply Skip. right. left. apply bytes_eqb_eq. exact Ev. }
  destruct (lb_syms x) as [syms|] eqn:Ey; [|apply Skip; auto].
  left. exists x, syms. split; [|reflexivity]. exists [], t. split; [reflexivity|]. split; [apply strstr_iff; exact Es|].
  split; [intros X; rewrite X, (proj2 (bytes_eqb_eq _ _) eq_refl) in Ev; discriminate|]. split; [exact Ey|]. intros y [].
Qed.

(** C49, exactly what a lookup answers, for every program, list of loaded objects, name, symbol and recorded offset. The
    object searched may be one the user did not mean, and its symbol only counts if it lies at the recorded offset (or none is
    recorded); otherwise the recorded offset is taken, relative to that object, or to address 0 if none was searched. *)
Theorem C49_exact :
  forall prog libs name sym old,
    (forall l syms v, searched libs (search_name prog name) l syms -> symbol_says syms sym v ->
       (old = 0 -> v = 0 -> get_loaded_symbol_addr prog libs name sym old = 0) /\
       (old = 0 -> v <> 0 -> get_loaded_symbol_addr prog libs name sym old = u64 (lb_base l + v)) /\
       (old <> 0 -> get_loaded_symbol_addr prog libs name sym old = u64 (lb_base l + old))) /\
    (searched_none libs (search_name prog name) -> get_loaded_symbol_addr prog libs name sym old = u64 old) /\
    (searched_none libs (search_name prog name) \/ exists l syms, searched libs (search_name prog name) l syms).
Proof.
  intros prog libs name sym old. unfold get_loaded_symbol_addr. rewrite lib_arg_name. set (nm := search_name prog name).
  assert (U : forall l syms l' syms', searched libs nm l syms -> searched libs nm l' syms' -> l = l' /\ syms = syms').
  { clear. induction libs as [|x t IH]; intros l syms l' syms' (b & a & E & S1 & S2 & S3 & S4) (b' & a' & E' & S1' & S2' & S3' & S4').
    { destruct b; discriminate E. }
    destruct b as [|y b]; destruct b' as [|y' b']; cbn [app] in E, E'; injection E as Ex Et; injection E' as Ex' Et'; subst.
    - split; congruence.
    - exfalso. destruct (S4' y' (or_introl eq_refl)) as [X|[X|X]]; [exact (X S1)|exact (S2 X)|congruence].
    - exfalso. destruct (S4 l' (or_introl eq_refl)) as [X|[X|X]]; [exact (X S1')|exact (S2' X)|congruence].
    - apply IH; [exists b, a|exists b', a']; (split; [first [reflexivity|congruence]|]); (split; [assumption|]); (split; [assumption|]);
        (split; [assumption|]); intros z Z0; [apply S4|apply S4']; right; exact Z0. }
  assert (X0 : forall l syms, searched libs nm l syms -> searched_none libs nm -> False).
  { intros l syms (b & a & -> & S1 & S2 & S3 & _) N. destruct (N l) as [X|[X|X]]; [apply in_or_app; right; left; reflexivity|exact (X S1)|exact (S2 X)|congruence]. }
  destruct (dl_find_symbol_exact libs nm sym) as [(l0 & syms0 & H0 & ->)|(N0 & ->)].
  - split; [|split; [intros N; exfalso; exact (X0 _ _ H0 N)|right; eauto]].
    intros l syms v H V. destruct (U _ _ _ _ H H0) as [-> ->]. apply symbol_says_value in V. rewrite V.
    split; [intros -> ->; reflexivity|]. split.
    + intros -> Hv. cbn [Z.eqb negb andb]. destruct (Z.eqb_spec v 0); [contradiction|reflexivity].
    + intros Ho. destruct (Z.eqb_spec old 0); [contradiction|]. cbn [negb andb]. destruct (Z.eqb_spec v old) as [->|]; cbn [negb]; [|reflexivity].
      destruct (Z.eqb_spec old 0); [contradiction|reflexivity].
  - split; [intros l syms v H; exfalso; exact (X0 _ _ H N0)|]. split; [|left; exact N0]. intros _.
    destruct (Z.eqb_spec old 0) as [->|Ho]; [reflexivity|]. cbn [negb andb]. destruct (Z.eqb_spec 0 old); [congruence|]. reflexivity.
Qed.
Print Assumptions C49_exact.

(** In the example process the library is searched and its symbol is found. *)
Example C49_exact_case :
  exists l syms v, searched w_libs (search_name (zs "app") (zs "libfoo.so.0")) l syms /\ symbol_says syms (zs "h") v /\ v <> 0.
Proof.
  destruct (dl_find_symbol_exact w_libs (zs "libfoo.so.0") (zs "h")) as [(l & syms & H & E)|(_ & E)].
  - exists l, syms, (get_symbol_by_name syms (zs "h")). split; [exact H|]. split; [apply symbol_says_value; reflexivity|].
    intros X. rewrite X in E. apply (f_equal fst) in E. vm_compute in E. discriminate E.
  - exfalso. apply (f_equal fst) in E. vm_compute in E. discriminate E.
Qed.
