(** Property theorems about the interposed functions (C82) and about start-up
    (C83). *)
From Coq Require Import String.
From Verif Require Import Base BaseFacts StrModel TextModel TextSpec TextProofs LibModel OptModel OptSpec OptProps
  ItpModel ItpSpec ItpProofs.

(** ** C82 *)

(** Any program, with libpulp's constructor running at any point among its calls
    (or more than once): the answers and the heap are those of the same calls
    made without libpulp, and the counter is back at zero.  The part that is
    missing: aligned_alloc with a size that is not a multiple of the alignment
    ([C82_aligned_size_refuted]), another allocator between libpulp and glibc
    ([C82_two_allocators_refuted]), functions of the linker that were not found
    ([C82_missing_refuted]), start-up that fails (C83). *)
Theorem C82_transparent_partial :
  forall (H : Type) (L : libc H) w p h,
    one_allocator L -> glibc_aligned L ->
    (exists st, ulp_asunsafe_begin w i_start = S_ok st) ->
    (forall c, In (Some c) p -> proper c /\ (uses_dl c -> w_found w (fn_of c) = true)) ->
    exists st, run_calls L w i_start p h = Some (fst (plain L p h), snd (plain L p h), st) /\ i_flag st = 0.
Proof.
  intros H L w p h ONE GL ST OK.
  destruct (run_plain L w ONE GL ST p i_start h (or_introl eq_refl) OK) as (st & E & S).
  exists st. split; [exact E|]. exact (sane_flag w st S).
Qed.
Print Assumptions C82_transparent_partial.

(** Once the real function is known, a call is exactly the call of the real
    function, with the counter one higher while it runs and as before
    afterwards; nothing else of libpulp changes. *)
Theorem C82_counted :
  forall (H : Type) (L : libc H) w st c h,
    i_ptr st (fn_of c) = true -> - 2 ^ 31 <= i_flag st < 2 ^ 31 - 1 ->
    interposed L w st c h =
      O_done (fst (l_real L c h)) (snd (l_real L c h)) st (Some (i_flag st + 1)).
Proof.
  intros H L w st c h P F. unfold interposed.
  assert (C : counted L st c h = O_done (fst (l_real L c h)) (snd (l_real L c h)) st (Some (i_flag st + 1))).
  { unfold counted. destruct (l_real L c h) as [a h'].
    rewrite count_back by lia. rewrite s32_id by lia. destruct st; reflexivity. }
  destruct (is_dl (fn_of c)); rewrite P; exact C.
Qed.
Print Assumptions C82_counted.

(** posix_memalign while the real one is not known: EINVAL exactly if the
    alignment is not a power of two times the size of a pointer, and then nothing
    is allocated or stored; otherwise memalign's block is stored, or ENOMEM is
    returned and nothing stored. *)
Theorem C82_posix_memalign :
  forall (H : Type) (L : libc H) w st a s h,
    i_ptr st F_posix_memalign = false -> 0 <= a < 2 ^ 64 ->
    (~ (power_of_two a /\ (8 | a)) ->
       interposed L w st (PosixMemalign a s) h = O_done (mk_ans 22 None None) h st None) /\
    (power_of_two a -> (8 | a) ->
       forall m h', l_libc L (Memalign a s) h = (m, h') ->
       interposed L w st (PosixMemalign a s) h =
         O_done (if a_ret m =? 0 then mk_ans 12 None (a_errno m) else mk_ans 0 (Some (a_ret m)) (a_errno m))
           h' st (Some (i_flag st))).
Proof.
  intros H L w st a s h P A. unfold interposed. cbn [fn_of is_dl]. rewrite P. cbn [not_known]. split.
  - intros N. destruct (negb _ || _ || _) eqn:T; [reflexivity|]. apply posix_test in T; [contradiction|exact A].
  - intros Q D m h' E. rewrite (proj2 (posix_test a A)) by auto. rewrite E.
    destruct (a_ret m =? 0); reflexivity.
Qed.
Print Assumptions C82_posix_memalign.

(** aligned_alloc while the real one is not known: memalign exactly if the
    alignment is a power of two that divides the size, or both are zero;
    otherwise NULL and EINVAL. *)
Theorem C82_aligned_alloc :
  forall (H : Type) (L : libc H) w st a s h,
    i_ptr st F_aligned_alloc = false -> 0 <= a < 2 ^ 64 -> 0 <= s < 2 ^ 64 ->
    ((power_of_two a /\ (a | s)) \/ (a = 0 /\ s = 0) ->
       interposed L w st (AlignedAlloc a s) h =
         O_done (fst (l_libc L (Memalign a s) h)) (snd (l_libc L (Memalign a s) h)) st (Some (i_flag st))) /\
    (~ ((power_of_two a /\ (a | s)) \/ (a = 0 /\ s = 0)) ->
       interposed L w st (AlignedAlloc a s) h = O_done (mk_ans 0 None (Some 22)) h st None).
Proof.
  intros H L w st a s h P A S. unfold interposed. cbn [fn_of is_dl]. rewrite P. cbn [not_known]. split.
  - intros Q. rewrite (proj2 (aligned_test a s A S) Q). unfold direct.
    destruct (l_libc L (Memalign a s) h); reflexivity.
  - intros N. destruct (negb _ || _) eqn:T; [reflexivity|]. apply aligned_test in T; [contradiction|exact A|exact S].
Qed.
Print Assumptions C82_aligned_alloc.

(** *** Cases *)

(** A C library whose heap is the next free address: every block starts at the
    next multiple of the alignment. *)
Definition bump (a s h : Z) : ans * Z :=
  let p := round_up h (Z.max a 16) in (mk_ans p None None, p + s).
Definition pow2b (a : Z) : bool := (0 <? a) && (Z.land a (a - 1) =? 0).
Definition bump_real (c : call) (h : Z) : ans * Z :=
  match c with
  | Malloc s | Valloc s | Pvalloc s => bump 16 s h
  | Calloc n s => bump 16 (n * s) h
  | Realloc _ s => bump 16 s h
  | Memalign a s | AlignedAlloc a s => bump a s h
  | PosixMemalign a s =>
      if pow2b a && (a mod 8 =? 0) then
        let '(m, h') := bump a s h in
        if a_ret m =? 0 then (mk_ans 12 None (a_errno m), h') else (mk_ans 0 (Some (a_ret m)) (a_errno m), h')
      else (mk_ans 22 None None, h)
  | _ => (mk_ans 0 None None, h)
  end.
Definition bump_libc : libc Z := mk_libc Z bump_real bump_real.

Lemma pow2b_spec a : pow2b a = true <-> power_of_two a.
Proof.
  unfold pow2b. rewrite andb_true_iff, Z.ltb_lt, Z.eqb_eq. split.
  - intros [P E]. apply land_pow2; assumption.
  - intros P. assert (0 < a).
    { destruct P as (k & K & ->). apply Z.pow_pos_nonneg; lia. }
    split; [assumption|]. apply land_pow2; assumption.
Qed.

Lemma bump_glibc : one_allocator bump_libc /\ glibc_aligned bump_libc.
Proof.
  split; [intros c h _; reflexivity|]. split; [|split].
  - intros a s h N. cbn [bump_libc l_real bump_real]. destruct (pow2b a) eqn:P; [|reflexivity].
    destruct (Z.eqb_spec (a mod 8) 0) as [E|E]; [|reflexivity]. exfalso. apply N. split; [apply pow2b_spec, P|].
    apply Z.mod_divide; [lia|exact E].
  - intros a s h m h' P D E. apply pow2b_spec in P. apply Z.mod_divide in D; [|lia].
    cbn [bump_libc l_real bump_real] in *. rewrite P, D. cbn [andb Z.eqb]. rewrite E. split; intros Q.
    + apply Z.eqb_neq in Q. rewrite Q. reflexivity.
    + rewrite Q. reflexivity.
  - intros a s h P. reflexivity.
Qed.

(** glibc 2.38; everything found; no opt-out. *)
Definition w_ok : sysw :=
  mk_sysw (fun _ => true) (Some 4096) (zs "2.38") (fun _ => 0)
    (mk_optworld None None None None None None None 1000 None 100 None (fun _ _ => false)).

(** A constructor of another library allocates, then libpulp's constructor runs,
    then the program frees, asks for more, and closes a library. *)
Definition a_program : list (option call) :=
  [Some (Malloc 100); Some (PosixMemalign 64 10); Some (AlignedAlloc 32 96); Some (PosixMemalign 24 10);
   None; Some (Free 16); Some (AlignedAlloc 4096 8192); Some (Dladdr 5 6); Some (Dlclose 7)].

Lemma p2 k a : 0 <= k -> a = 2 ^ k -> power_of_two a.
Proof. intros. exists k. auto. Qed.

Example C82_transparent_case :
  (exists st, ulp_asunsafe_begin w_ok i_start = S_ok st) /\
  (forall c, In (Some c) a_program -> proper c /\ (uses_dl c -> w_found w_ok (fn_of c) = true)) /\
  (exists st, run_calls bump_libc w_ok i_start a_program 16 =
    Some ([mk_ans 16 None None; mk_ans 0 (Some 128) None; mk_ans 160 None None; mk_ans 22 None None;
           mk_ans 0 None None; mk_ans 4096 None None; mk_ans 0 None None; mk_ans 0 None None], 12288, st)).
Proof.
  split; [eexists; vm_compute; reflexivity|]. split.
  - intros c I. split; [|reflexivity]. cbn [a_program In] in I.
    repeat match type of I with
    | _ \/ _ => destruct I as [I|I]
    end; try discriminate; try contradiction; injection I as <-; cbn [proper]; try exact Logic.I; try lia.
    + split; [lia|]. split; [lia|]. split; [apply (p2 5); lia|]. exists 3. reflexivity.
    + split; [lia|]. split; [lia|]. split; [apply (p2 12); lia|]. exists 2. reflexivity.
  - eexists. vm_compute. reflexivity.
Qed.

Definition st_up : istate := mk_istate (fun _ => true) 3 (Some (6408, 6448)) 0.
Example C82_counted_case :
  i_ptr st_up (fn_of (Malloc 10)) = true /\ - 2 ^ 31 <= i_flag st_up < 2 ^ 31 - 1 /\
  interposed bump_libc w_ok st_up (Malloc 10) 20 = O_done (mk_ans 32 None None) 42 st_up (Some 4).
Proof. split; [reflexivity|]. split; [cbn [st_up i_flag]; lia|]. vm_compute. reflexivity. Qed.

Example C82_posix_memalign_case :
  i_ptr i_start F_posix_memalign = false /\
  interposed bump_libc w_ok i_start (PosixMemalign 64 10) 20 = O_done (mk_ans 0 (Some 64) None) 74 i_start (Some 0) /\
  interposed bump_libc w_ok i_start (PosixMemalign 4 10) 20 = O_done (mk_ans 22 None None) 20 i_start None /\
  interposed bump_libc w_ok i_start (PosixMemalign 0 10) 20 = O_done (mk_ans 22 None None) 20 i_start None /\
  interposed bump_libc w_ok i_start (PosixMemalign 24 10) 20 = O_done (mk_ans 22 None None) 20 i_start None.
Proof. repeat split; vm_compute; reflexivity. Qed.

Example C82_aligned_alloc_case :
  i_ptr i_start F_aligned_alloc = false /\
  interposed bump_libc w_ok i_start (AlignedAlloc 64 128) 20 = O_done (mk_ans 64 None None) 192 i_start (Some 0) /\
  interposed bump_libc w_ok i_start (AlignedAlloc 48 96) 20 = O_done (mk_ans 0 None (Some 22)) 20 i_start None.
Proof. repeat split; vm_compute; reflexivity. Qed.

(** *** What is not so *)

(** Transparency for every call of aligned_alloc is false: glibc accepts a size
    that is not a multiple of the alignment, but before libpulp's constructor has
    run the same call returns NULL with EINVAL. *)
Theorem C82_aligned_size_refuted :
  one_allocator bump_libc /\ glibc_aligned bump_libc /\
  (forall h, a_ret (fst (l_real bump_libc (AlignedAlloc 64 100) (64 + 64 * Z.abs h))) <> 0) /\
  (forall h, interposed bump_libc w_ok i_start (AlignedAlloc 64 100) h =
               O_done (mk_ans 0 None (Some 22)) h i_start None) /\
  (forall h, exists st, run_calls bump_libc w_ok i_start [None; Some (AlignedAlloc 64 100)] h =
               Some ([fst (bump 64 100 h)], snd (bump 64 100 h), st)).
Proof.
  split; [apply bump_glibc|]. split; [apply bump_glibc|]. split; [|split].
  - intros h. cbn [bump_libc l_real bump_real bump fst a_ret]. unfold round_up. change (Z.max 64 16) with 64.
    replace (64 + 64 * Z.abs h + 64 - 1) with (63 + (1 + Z.abs h) * 64) by lia.
    rewrite Z.div_add by lia. change (63 / 64) with 0. lia.
  - intros h. reflexivity.
  - intros h. eexists. cbn [run_calls].
    assert (B : ulp_asunsafe_begin w_ok i_start = S_ok (mk_istate (fun _ => true) 0 (Some (6664, 6704)) 0))
      by (vm_compute; reflexivity).
    rewrite B. rewrite C82_counted by (cbn [i_ptr i_flag]; lia || reflexivity). reflexivity.
Qed.
Print Assumptions C82_aligned_size_refuted.

(** The emulated aligned_alloc does not refuse every alignment that is not a
    power of two: zero with size zero is passed on to memalign. *)
Theorem C82_aligned_zero_refuted :
  ~ power_of_two 0 /\
  forall (H : Type) (L : libc H) w h,
    interposed L w i_start (AlignedAlloc 0 0) h =
      O_done (fst (l_libc L (Memalign 0 0) h)) (snd (l_libc L (Memalign 0 0) h)) i_start (Some 0).
Proof.
  split.
  - intros (k & K & E). pose proof (Z.pow_pos_nonneg 2 k). lia.
  - intros H L w h. apply (proj1 (C82_aligned_alloc H L w i_start 0 0 h eq_refl ltac:(lia) ltac:(lia))). auto.
Qed.
Print Assumptions C82_aligned_zero_refuted.

(** Two allocators: one that interposes malloc and free itself comes between
    libpulp and glibc.  The heap has the blocks of each, and remembers whether a
    block was given to the free of the allocator that does not own it. *)
Record heap2 := mk_heap2 { h_next : list Z; h_glibc : list Z; h_foreign : bool }.
Definition two_next (c : call) (h : heap2) : ans * heap2 :=
  match c with
  | Malloc _ => let p := 2 * zlen (h_next h) + 1 in (mk_ans p None None, mk_heap2 (p :: h_next h) (h_glibc h) (h_foreign h))
  | Free p => (mk_ans 0 None None,
               mk_heap2 (h_next h) (h_glibc h) (h_foreign h || negb (existsb (Z.eqb p) (h_next h))))
  | _ => (mk_ans 0 None None, h)
  end.
Definition two_glibc (c : call) (h : heap2) : ans * heap2 :=
  match c with
  | Malloc _ => let p := 2 * zlen (h_glibc h) + 2 in (mk_ans p None None, mk_heap2 (h_next h) (p :: h_glibc h) (h_foreign h))
  | Free p => (mk_ans 0 None None,
               mk_heap2 (h_next h) (h_glibc h) (h_foreign h || negb (existsb (Z.eqb p) (h_glibc h))))
  | _ => (mk_ans 0 None None, h)
  end.

(** A block obtained before the constructor and freed after it is given to the
    other allocator, although the program by itself frees what it got. *)
Theorem C82_two_allocators_refuted :
  let L := mk_libc heap2 two_next two_glibc in
  let h0 := mk_heap2 [] [] false in
  (exists p h1, l_real L (Malloc 8) h0 = (mk_ans p None None, h1) /\
     h_foreign (snd (l_real L (Free p) h1)) = false) /\
  (exists p h1 h2 l st, run_calls L w_ok i_start [Some (Malloc 8); None; Some (Free p)] h0 =
     Some (mk_ans p None None :: l, h2, st) /\
     l_libc L (Malloc 8) h0 = (mk_ans p None None, h1) /\ h_foreign h2 = true).
Proof.
  cbv zeta. split.
  - exists 1. eexists. split; reflexivity.
  - exists 2. eexists. eexists. eexists. eexists. split; [vm_compute; reflexivity|]. split; reflexivity.
Qed.
Print Assumptions C82_two_allocators_refuted.

(** A program that calls a function of the linker which dlsym did not find jumps
    to NULL, although start-up noticed it and only disabled livepatching. *)
Definition w_no_dladdr1 : sysw :=
  mk_sysw (fun f => negb (fn_eqb f F_dladdr1)) (Some 4096) (zs "2.38") (fun _ => 0) (w_opt w_ok).
Theorem C82_missing_refuted :
  forall (H : Type) (L : libc H) h,
    (exists st, ulp_asunsafe_begin w_no_dladdr1 i_start = S_ok st /\ i_err st = 288 /\
       interposed L w_no_dladdr1 st (Dladdr1 1 2 3 4) h = O_crash) /\
    interposed L w_no_dladdr1 i_start (Dladdr1 1 2 3 4) h = O_crash.
Proof.
  intros H L h. split.
  - eexists. split; [reflexivity|]. split; reflexivity.
  - reflexivity.
Qed.
Print Assumptions C82_missing_refuted.

(** A call of valloc is not counted if dlsym did not find it, and start-up does
    not notice: livepatching stays enabled, with the counter at zero while a
    thread is inside the allocator. *)
Definition w_no_valloc : sysw :=
  mk_sysw (fun f => negb (fn_eqb f F_valloc)) (Some 4096) (zs "2.38") (fun _ => 0) (w_opt w_ok).
Theorem C82_valloc_refuted :
  forall (H : Type) (L : libc H) h,
    exists st, ulp_asunsafe_begin w_no_valloc i_start = S_ok st /\ i_err st = 0 /\
      interposed L w_no_valloc st (Valloc 100) h =
        O_done (fst (l_libc L (Valloc 100) h)) (snd (l_libc L (Valloc 100) h)) st (Some 0).
Proof.
  intros H L h. eexists. split; [vm_compute; reflexivity|]. split; [reflexivity|].
  unfold interposed. cbn [fn_of is_dl i_ptr not_known]. unfold direct.
  destruct (l_libc L (Valloc 100) h). reflexivity.
Qed.
Print Assumptions C82_valloc_refuted.

(** ** C83 *)

(** The functions without which libpulp cannot work. *)
Definition needed (f : fn) : Prop := f <> F_valloc.

Lemma all_found w : (forall f, needed f -> w_found w f = true) <->
  forallb (w_found w) all_dl && forallb (w_found w) all_libc = true.
Proof.
  rewrite andb_true_iff, !forallb_forall. split.
  - intros A. split; intros f I; apply A; intros ->; cbn in I; intuition discriminate.
  - intros [D C] f N. destruct f; try (apply D; cbn; tauto); try (apply C; cbn; tauto). contradiction N; reflexivity.
Qed.

(** With glibc 2.31 or later, everything found, the locks not contended: the
    program starts, libpulp knows every function found and the two locks, and is
    usable exactly if the user has not opted out. *)
Theorem C83_starts_partial :
  forall w st minor rtld a b,
    (forall f, needed f -> w_found w f = true) ->
    glibc_2 (w_version w) minor -> 31 <= minor < 2 ^ 31 -> w_rtld w = Some rtld ->
    a = rtld + fst (lock_offsets minor) -> b = rtld + snd (lock_offsets minor) ->
    0 <= w_word w a <= 1 -> 0 <= w_word w b <= 1 ->
    startup_ok (w_opt w) -> 0 <= ow_uid (w_opt w) < 2 ^ 32 -> 0 <= ow_gid (w_opt w) < 2 ^ 32 ->
    i_ptr st F_malloc = false -> i_err st = 0 ->
    exists err, ulp_asunsafe_begin w st = S_ok (mk_istate (w_found w) (i_flag st) (Some (a, b)) err) /\
      (opted_out (w_opt w) /\ err = EUSRBLOCKED \/ ~ opted_out (w_opt w) /\ err = 0).
Proof.
  intros w st minor rtld a b F V M R A B WA WB SO U G P E.
  apply all_found in F. unfold ulp_asunsafe_begin. rewrite P, F. cbn [negb].
  apply andb_true_iff in F. destruct F as [-> ->]. rewrite E, R, (locks_found rtld _ minor V M), <- A, <- B.
  destruct (C43_optouts_partial (w_opt w) _ _ SO U G WA WB) as [[O ->]|[O ->]]; eauto.
Qed.
Print Assumptions C83_starts_partial.

(** A function that libpulp needs is missing: the program starts all the same,
    livepatching is disabled with the error that names the library. *)
Theorem C83_missing_symbol :
  forall w st f,
    needed f -> w_found w f = false -> i_ptr st F_malloc = false ->
    exists st', ulp_asunsafe_begin w st = S_ok st' /\ i_flag st' = i_flag st /\
      (i_err st' = 289 \/ (i_err st' = 288 /\ forall g, w_found w g = false -> needed g -> In g all_dl)) /\
      (In f all_dl \/ i_err st' = 289).
Proof.
  intros w st f N M P. unfold ulp_asunsafe_begin. rewrite P.
  assert (A : forallb (w_found w) all_dl && forallb (w_found w) all_libc = false).
  { destruct (_ && _) eqn:A; [|reflexivity]. apply all_found with (f := f) in A; [congruence|exact N]. }
  rewrite A. cbn [negb]. eexists. split; [reflexivity|]. cbn [i_flag i_err]. split; [reflexivity|].
  destruct (forallb (w_found w) all_libc) eqn:C.
  - rewrite andb_true_r in A. rewrite A.
    assert (G : forall g, w_found w g = false -> needed g -> In g all_dl).
    { intros g X Y. rewrite forallb_forall in C. destruct g; cbn; try tauto;
        try (contradiction Y; reflexivity); exfalso;
        match goal with |- False => idtac end;
        match type of X with w_found w ?g0 = false => specialize (C g0); rewrite C in X; [discriminate|cbn; tauto] end. }
    split; [right; split; [reflexivity|exact G]|]. left. apply G; assumption.
  - split; [left; reflexivity|right; reflexivity].
Qed.
Print Assumptions C83_missing_symbol.

(** Once the functions are known the constructor changes nothing. *)
Theorem C83_once : forall w st, i_ptr st F_malloc = true -> ulp_asunsafe_begin w st = S_ok st.
Proof. intros w st P. unfold ulp_asunsafe_begin. rewrite P. reflexivity. Qed.
Print Assumptions C83_once.

(** *** Cases *)

Lemma glibc_2_38 : glibc_2 (zs "2.38") 38.
Proof.
  exists (zs "38"), []. split; [reflexivity|]. split; [|split; [left; reflexivity|reflexivity]].
  change 38 with (dec_val (zs "38")). apply digits_decimal; [reflexivity|discriminate].
Qed.

Example C83_starts_case :
  (forall f, needed f -> w_found w_ok f = true) /\ glibc_2 (w_version w_ok) 38 /\ startup_ok (w_opt w_ok) /\
  ~ opted_out (w_opt w_ok) /\
  exists st, ulp_asunsafe_begin w_ok i_start = S_ok st /\ i_locks st = Some (4096 + 2568, 4096 + 2608) /\ i_err st = 0.
Proof.
  split; [reflexivity|]. split; [exact glibc_2_38|]. split.
  - repeat split. intros N. contradiction N; reflexivity.
  - split.
    + unfold opted_out, listed. cbn [w_ok w_opt ow_exe ow_path_env ow_user_env ow_group_env].
      intros [(p & E & _)|[(n & e & E & _)|(n & e & E & _)]]; discriminate.
    + eexists. split; [vm_compute; reflexivity|]. split; reflexivity.
Qed.

Example C83_missing_symbol_case :
  needed F_dladdr1 /\ w_found w_no_dladdr1 F_dladdr1 = false /\ i_ptr i_start F_malloc = false /\
  exists st, ulp_asunsafe_begin w_no_dladdr1 i_start = S_ok st /\ i_err st = 288.
Proof. split; [discriminate|]. split; [reflexivity|]. split; [reflexivity|]. eexists. split; reflexivity. Qed.

Example C83_once_case : i_ptr st_up F_malloc = true /\ ulp_asunsafe_begin w_ok st_up = S_ok st_up.
Proof. split; reflexivity. Qed.

(** *** What is not so *)

Definition w_glibc (version : list Z) (rtld : option Z) : sysw :=
  mk_sysw (fun _ => true) rtld version (fun _ => 0) (w_opt w_ok).

(** Preloading libpulp ends any program whose glibc is 2.30 or older, or whose
    dynamic linker shows no _rtld_global: exit(1) before main. *)
Theorem C83_exit_refuted :
  (forall w st rtld minor, (forall f, needed f -> w_found w f = true) -> i_ptr st F_malloc = false ->
     w_rtld w = Some rtld -> glibc_2 (w_version w) minor -> minor < 31 -> ulp_asunsafe_begin w st = S_exit) /\
  (forall w st, (forall f, needed f -> w_found w f = true) -> i_ptr st F_malloc = false ->
     w_rtld w = None -> ulp_asunsafe_begin w st = S_exit) /\
  ulp_asunsafe_begin (w_glibc (zs "2.28") (Some 4096)) i_start = S_exit.
Proof.
  split; [|split].
  - intros w st rtld minor F P R V M. apply all_found in F. unfold ulp_asunsafe_begin. rewrite P, F. cbn [negb].
    rewrite R, (locks_old rtld _ minor V M). reflexivity.
  - intros w st F P R. apply all_found in F. unfold ulp_asunsafe_begin. rewrite P, F. cbn [negb]. rewrite R. reflexivity.
  - vm_compute. reflexivity.
Qed.
Print Assumptions C83_exit_refuted.

(** A glibc whose major version is not 2 leaves the lock pointers NULL and they
    are then dereferenced; so does, in effect, a version without a dot
    (atoi(NULL)) or of 32 bytes (overflow of the buffer). *)
Theorem C83_crash_refuted :
  ulp_asunsafe_begin (w_glibc (zs "3.1") (Some 4096)) i_start = S_crash /\
  ulp_asunsafe_begin (w_glibc (zs "2") (Some 4096)) i_start = S_crash /\
  ulp_asunsafe_begin (w_glibc (zs "2.38.9000.git20230804.aaaaaaaaaa") (Some 4096)) i_start = S_crash.
Proof. repeat split; vm_compute; reflexivity. Qed.
Print Assumptions C83_crash_refuted.

(** A lock that another thread is waiting for (futex word 2) at start-up disables
    livepatching for good with the error "unknown". *)
Theorem C83_contended_refuted :
  exists st, ulp_asunsafe_begin (mk_sysw (fun _ => true) (Some 4096) (zs "2.38") (fun a => if a =? 4096 + 2568 then 2 else 0)
      (w_opt w_ok)) i_start = S_ok st /\ i_err st = EUNKNOWN.
Proof. eexists. split; [vm_compute; reflexivity|]. reflexivity. Qed.
Print Assumptions C83_contended_refuted.
