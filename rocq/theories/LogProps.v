(** Property theorems about what libpulp logs (C80). *)
From Coq Require Import String.
From Verif Require Import Base BaseFacts StrModel MsgQModel MsgQSpec MsgQProofs LogModel LogSpec LogProofs.

(** C80, the part that holds.  Whatever calls libpulp makes to write to its log,
    one after the other: if each is meant to say the texts [tss] (printf's
    conversions, reasons without conversions), the tool's printout is the newest
    part of exactly these texts, whole and in order, and the error state is the
    one the calls are meant to leave.  Missing: reasons with arguments, and threads
    that log at the same time (both refuted below). *)
Theorem C80_log_partial :
  forall (f : nat) (cs : list lcall) (tss : list (list (list Z))),
    (Z.to_nat MSGQ_BUFFER_MAX + 3 <= f)%nat ->
    Forall2 says cs tss ->
    Forall (logtext MSGQ_BUFFER_MAX) (concat tss) ->
    let logged := filter (fun m => negb (Nat.eqb (List.length m) 0) && (zlen m + 1 <=? MSGQ_BUFFER_MAX))
                    (concat tss) in
    exists st shown,
      do_calls f MSGQ_BUFFER_MAX ls_init cs = L_ok st /\
      shows (msgq_print MSGQ_BUFFER_MAX (ls_q st)) shown /\
      suffix shown logged /\
      (logged <> [] -> shown <> []) /\
      ls_err st = fold_left (fun e c => leaves c e) cs 0.
Proof.
  intros f cs tss Hf S F logged.
  destruct (push_all_inv MSGQ_BUFFER_MAX f (concat tss) ltac:(reflexivity) ltac:(reflexivity) Hf msgq_init [])
    as (q & pre & ms & Hp & Hpre & Hne & HI).
  { eapply Forall_impl; [|exact F]. intros t (C & N & _). split; assumption. }
  { apply Inv_init. reflexivity. }
  assert (X := do_calls_spec f MSGQ_BUFFER_MAX cs tss ltac:(reflexivity) S F ls_init).
  unfold same_push in X. change (ls_q ls_init) with msgq_init in X. rewrite Hp in X. destruct X as [m X].
  exists (mk_ls q m (fold_left (fun e c => leaves c e) cs (ls_err ls_init))), ms.
  split; [exact X|]. cbn [ls_q ls_err].
  split; [apply Inv_shows; [reflexivity|exact HI]|].
  split; [exists pre; exact Hpre|]. split; [|reflexivity]. intros H. apply Hne. right. exact H.
Qed.
Print Assumptions C80_log_partial.

(** C80, nothing is lost while there is room: every text of every call is shown. *)
Theorem C80_all_shown_partial :
  forall (f : nat) (cs : list lcall) (tss : list (list (list Z))),
    (0 < f)%nat ->
    Forall2 says cs tss ->
    Forall (logtext MSGQ_BUFFER_MAX) (concat tss) ->
    room (filter (fun m => negb (Nat.eqb (List.length m) 0)) (concat tss)) < MSGQ_BUFFER_MAX ->
    exists st,
      do_calls f MSGQ_BUFFER_MAX ls_init cs = L_ok st /\
      shows (msgq_print MSGQ_BUFFER_MAX (ls_q st))
        (filter (fun m => negb (Nat.eqb (List.length m) 0)) (concat tss)).
Proof.
  intros f cs tss Hf S F R.
  destruct (push_all_fits MSGQ_BUFFER_MAX f (concat tss) ltac:(reflexivity) Hf) with (q := msgq_init) (ms := @nil (list Z))
    as (q & Hp & Hq); try reflexivity.
  { eapply Forall_impl; [|exact F]. intros t (C & _). exact C. }
  { exact R. }
  assert (X := do_calls_spec f MSGQ_BUFFER_MAX cs tss ltac:(reflexivity) S F ls_init).
  unfold same_push in X. change (ls_q ls_init) with msgq_init in X. rewrite Hp in X. destruct X as [m X].
  eexists. split; [exact X|]. cbn [ls_q]. rewrite Hq. apply shows_enc.
Qed.
Print Assumptions C80_all_shown_partial.

(** A start-up that warns, and a failed assertion: the texts they mean. *)
Definition ex_calls : list lcall :=
  [ K_push (zs "libpulp loaded..." ++ [10]) [];
    K_warn (Some (zs "[2026-01-02 03:04:05] ")) (zs "Failed to write at address 0x%lx") [A_num 4096];
    K_assert (zs "insn_queue.c") (zs "insn_interpret_write") 308 1;
    K_assert (zs "insn_queue.c") (zs "insn_interpret_write") 308 0;
    K_exit (zs "ulp.c") (zs "load_patch") 499 (-1) ].

Definition ex_texts : list (list (list Z)) :=
  [ [zs "libpulp loaded..." ++ [10]];
    [zs "[2026-01-02 03:04:05] "; zs "ulp: " ++ zs "Failed to write at address 0x1000" ++ [10]];
    [];
    [zs "In file = " ++ zs "insn_queue.c" ++ zs ", function = " ++ zs "insn_interpret_write" ++
     zs ", line = " ++ zs "308" ++ zs ": assertion failure: 0" ++ [10]];
    [zs "In file = " ++ zs "ulp.c" ++ zs ", function = " ++ zs "load_patch" ++
     zs ", line = " ++ zs "499" ++ zs ": exit: " ++ zs "-1" ++ [10]] ].

Lemma num3 a b c ca cb cc :
  0 < a < 10 -> 0 <= b < 10 -> 0 <= c < 10 ->
  nth_error (zs "0123456789abcdef") (Z.to_nat a) = Some ca ->
  nth_error (zs "0123456789abcdef") (Z.to_nat b) = Some cb ->
  nth_error (zs "0123456789abcdef") (Z.to_nat c) = Some cc ->
  numeral 10 [ca; cb; cc] (10 * (10 * a + b) + c).
Proof.
  intros Ha Hb Hc Na Nb Nc.
  apply (num_more 10 [ca; cb] (10 * a + b) c cc); [|lia|lia|exact Nc].
  apply (num_more 10 [ca] a b cb); [|lia|lia|exact Nb]. apply num_one; [lia|exact Na].
Qed.

Example C80_log_case :
  Forall2 says ex_calls ex_texts /\ Forall (logtext MSGQ_BUFFER_MAX) (concat ex_texts) /\
  fold_left (fun e c => leaves c e) ex_calls 0 = 256 /\
  room (filter (fun m => negb (Nat.eqb (List.length m) 0)) (concat ex_texts)) = 235 /\ 235 < MSGQ_BUFFER_MAX.
Proof.
  split; [|split; [|split; [reflexivity|split; [vm_compute|]; reflexivity]]].
  - unfold ex_calls, ex_texts. repeat apply Forall2_cons; [..|apply Forall2_nil].
    + apply sy_push. rewrite <- (app_nil_r (zs "libpulp loaded..." ++ [10])).
      apply prints_lit; [not_in|constructor].
    + apply sy_warn. apply (prints_lit (zs "Failed to write at address 0x") (zs "%lx" ++ []) _ (zs "1000" ++ []));
        [not_in|]. apply pr_lhex; [lia| |constructor].
      change 4096 with (16 * (16 * (16 * 1 + 0) + 0) + 0).
      apply (num_more 16 (zs "100")); [|lia..|reflexivity].
      apply (num_more 16 (zs "10")); [|lia..|reflexivity].
      apply (num_more 16 (zs "1")); [|lia..|reflexivity].
      apply num_one; [lia|reflexivity].
    + apply sy_assert_true. lia.
    + apply sy_assert_false. left. split; [lia|].
      apply (num3 3 0 8); (lia || reflexivity).
    + apply sy_exit.
      * left. split; [lia|]. apply (num3 4 9 9); (lia || reflexivity).
      * right. split; [lia|]. exists (zs "1"). split; [|reflexivity].
        apply num_one; [lia|reflexivity].
  - apply Forall_forall. intros t I.
    assert (B : forallb (fun t => forallb (fun c => (0 <? c) && (c <? 256)) t && (zlen t + 1 <? 200))
                  (concat ex_texts) = true) by (vm_compute; reflexivity).
    rewrite forallb_forall in B. specialize (B t I). apply andb_prop in B. destruct B as [B1 B2].
    assert (M : MSGQ_BUFFER_MAX = 2097152) by reflexivity.
    split; [|split; [lia|]].
    + apply Forall_forall. intros c Ic. rewrite forallb_forall in B1. specialize (B1 c Ic).
      unfold is_cchar. lia.
    + assert (P : 2 ^ 31 = 2147483648) by reflexivity. lia.
Qed.

(** C80, formatting is printf's: every text a conversion list stands for is the
    text logged (used by all of the above; conversions %% %s %d %x %lu %lx %p). *)
Theorem C80_format :
  forall fmt args text, prints fmt args text -> vformat fmt args = Some text.
Proof. exact prints_vformat. Qed.
Print Assumptions C80_format.

Example C80_format_case :
  prints (zs "thread %lu: %s at %p, %d%%") [A_num 7; A_str (zs "f"); A_num 255; A_num (-3)]
    (zs "thread 7: f at 0xff, -3%").
Proof.
  apply (prints_lit (zs "thread ") (zs "%lu" ++ zs ": %s at %p, %d%%") _ (zs "7" ++ zs ": f at 0xff, -3%"));
    [not_in|].
  apply pr_ulong; [lia|apply num_one; [lia|reflexivity]|].
  apply (prints_lit (zs ": ") (zs "%s" ++ zs " at %p, %d%%") _ (zs "f" ++ zs " at 0xff, -3%")); [not_in|].
  apply pr_str.
  apply (prints_lit (zs " at ") (zs "%p" ++ zs ", %d%%") _ (zs "0x" ++ zs "ff" ++ zs ", -3%")); [not_in|].
  apply pr_ptr; [lia| |].
  { change 255 with (16 * 15 + 15). apply (num_more 16 (zs "f")); [|lia..|reflexivity].
    apply num_one; [lia|reflexivity]. }
  apply (prints_lit (zs ", ") (zs "%d" ++ zs "%%") _ (zs "-3" ++ zs "%")); [not_in|].
  apply pr_int.
  { right. split; [lia|]. exists (zs "3"). split; [apply num_one; [lia|reflexivity]|reflexivity]. }
  apply (pr_percent [] [] []). constructor.
Qed.

(** C80, formatting stays inside the buffer: whatever is logged, by whichever
    calls, no byte outside the [MSGQ_BUFFER_MAX] bytes of the static buffer
    changes. *)
Theorem C80_stays_in_buffer :
  forall (f : nat) (cs : list lcall) (st st' : lstate) (i : Z),
    do_calls f MSGQ_BUFFER_MAX st cs = L_ok st' ->
    i < 0 \/ MSGQ_BUFFER_MAX <= i ->
    ls_msg st' i = ls_msg st i.
Proof. intros f cs st st' i H Hi. exact (do_calls_msg f MSGQ_BUFFER_MAX cs i ltac:(discriminate) Hi st st' H). Qed.
Print Assumptions C80_stays_in_buffer.

Example C80_stays_in_buffer_case :
  exists st', do_calls 1 MSGQ_BUFFER_MAX ls_init [K_push (zs "libpulp loaded") []] = L_ok st' /\
    ls_msg st' 0 = 108 /\ ls_msg st' MSGQ_BUFFER_MAX = 0.
Proof.
  destruct (C80_all_shown_partial 1 [K_push (zs "libpulp loaded") []] [[zs "libpulp loaded"]]) as (st & H & _).
  - lia.
  - apply Forall2_cons; [|constructor]. apply sy_push.
    apply (prints_lit (zs "libpulp loaded") [] [] []); [not_in|constructor].
  - apply Forall_cons; [|constructor]. split; [repeat constructor; cbn; lia|].
    split; [discriminate|reflexivity].
  - reflexivity.
  - exists st. split; [exact H|]. split.
    + exact (push_first 1 MSGQ_BUFFER_MAX ls_init (zs "libpulp loaded") [] (zs "libpulp loaded") st
               ltac:(reflexivity) ltac:(vm_compute; reflexivity) H).
    + rewrite (C80_stays_in_buffer 1 _ _ _ MSGQ_BUFFER_MAX H); [reflexivity|right; lia].
Qed.

(** C80, the error state: after any calls (with reasons as above), libpulp says
    that it is in an error state exactly if the state the calls are meant to leave
    is an error, whichever one. *)
Theorem C80_error_state :
  forall (f : nat) (cs : list lcall) (st : lstate),
    do_calls f MSGQ_BUFFER_MAX ls_init cs = L_ok st ->
    (in_error_state st = true <-> fold_left (fun e c => leaves c e) cs 0 <> 0).
Proof.
  intros f cs st H. assert (E := do_calls_err f MSGQ_BUFFER_MAX cs ls_init st H).
  change (ls_err ls_init) with 0 in E. rewrite <- E. clear E H.
  unfold in_error_state. destruct (ls_err st =? 0) eqn:E; cbn [negb]; split; intros; lia || congruence.
Qed.
Print Assumptions C80_error_state.

Example C80_error_state_case :
  (exists st, do_calls 1 MSGQ_BUFFER_MAX ls_init [K_push [] []; K_reason [] [] 1 38 [] []] = L_ok st /\
    in_error_state st = true) /\
  (exists st, do_calls 1 MSGQ_BUFFER_MAX ls_init [K_push [] []; K_assert [] [] 1 7] = L_ok st /\
    in_error_state st = false).
Proof. split; eexists; (split; [reflexivity|reflexivity]). Qed.

(** C80, a failed catastrophic check ends the process with status 1 after its text
    on stderr, and one that succeeds changes nothing. *)
Theorem C80_crash :
  forall (file func : list Z) (line expr : Z) (l : list Z) (st : lstate),
    int_text l line ->
    (expr <> 0 -> libpulp_crash_assert file func line expr st = L_ok st) /\
    libpulp_crash_assert file func line 0 st =
      L_exit 1 (zs "LIBPULP CATASTROPHIC FAILURE: In file = " ++ file ++ zs ", function = " ++ func ++
                zs ", line = " ++ l ++ zs ": assertion failure: 0" ++ [10]) /\
    (forall fmt args t, prints fmt args t -> libpulp_crash fmt args = L_exit 1 t).
Proof.
  intros file func line expr l st Hl. split; [|split].
  - intros H. unfold libpulp_crash_assert. destruct (expr =? 0) eqn:E; [lia|reflexivity].
  - unfold libpulp_crash_assert, libpulp_crash. change (0 =? 0) with true. cbn [negb].
    rewrite (prints_vformat _ _ (zs "LIBPULP CATASTROPHIC FAILURE: In file = " ++ file ++ zs ", function = " ++ func ++
                zs ", line = " ++ l ++ zs ": assertion failure: 0" ++ [10])); [reflexivity|].
    apply (prints_lit (zs "LIBPULP CATASTROPHIC FAILURE: In file = ")
             (zs "%s" ++ zs ", function = %s, line = %d: assertion failure: %lu" ++ [10])); [not_in|].
    apply pr_str.
    apply (prints_lit (zs ", function = ") (zs "%s" ++ zs ", line = %d: assertion failure: %lu" ++ [10])); [not_in|].
    apply pr_str.
    apply (prints_lit (zs ", line = ") (zs "%d" ++ zs ": assertion failure: %lu" ++ [10])); [not_in|].
    apply pr_int; [exact Hl|].
    apply (prints_lit (zs ": assertion failure: ") (zs "%lu" ++ [10]) _ (zs "0" ++ [10])); [not_in|].
    apply pr_ulong; [lia|apply num_one; [lia|reflexivity]|].
    apply pr_char; [discriminate|]. constructor.
  - intros fmt args t H. unfold libpulp_crash. rewrite (prints_vformat _ _ _ H). reflexivity.
Qed.
Print Assumptions C80_crash.

Example C80_crash_case :
  libpulp_crash_assert (zs "interpose.c") (zs "f") 42 0 ls_init =
    L_exit 1 (zs "LIBPULP CATASTROPHIC FAILURE: In file = interpose.c, function = f, line = 42: assertion failure: 0"
              ++ [10]).
Proof. vm_compute. reflexivity. Qed.

(** C80, a text longer than the buffer is dropped, but its time stamp stays: the
    log then shows a time without an event. *)
Theorem C80_long_text_dropped :
  forall (f : nat) (st : lstate) (fmt : list Z) (args : list parg) (t : list Z),
    prints fmt args t -> cstr_ok t -> MSGQ_BUFFER_MAX < zlen t + 1 -> zlen t < 2 ^ 31 ->
    exists m, msgq_push f MSGQ_BUFFER_MAX st fmt args = L_ok (mk_ls (ls_q st) m (ls_err st)).
Proof.
  intros f st fmt args t P C L1 L2.
  assert (LT : logtext MSGQ_BUFFER_MAX t) by (split; [exact C|split; [lia|exact L2]]).
  assert (X := msgq_push_spec f MSGQ_BUFFER_MAX st fmt args t ltac:(reflexivity) P LT).
  unfold msgq_strpush in X. destruct t as [|c t]; [unfold zlen in L1; cbn [List.length] in L1; unfold MSGQ_BUFFER_MAX in L1; lia|].
  destruct (zlen (c :: t) + 1 >? MSGQ_BUFFER_MAX) eqn:E; [exact X|lia].
Qed.
Print Assumptions C80_long_text_dropped.

Example C80_long_text_case :
  exists t, cstr_ok t /\ MSGQ_BUFFER_MAX < zlen t + 1 /\ zlen t < 2 ^ 31 /\ prints (zs "%s") [A_str t] t.
Proof.
  exists (repeat 65 (Z.to_nat MSGQ_BUFFER_MAX)).
  assert (L : zlen (repeat 65 (Z.to_nat MSGQ_BUFFER_MAX)) = MSGQ_BUFFER_MAX).
  { unfold zlen. rewrite repeat_length, Z2Nat.id; [reflexivity|discriminate]. }
  split; [|split; [|split]].
  - apply Forall_forall. intros x H. apply repeat_spec in H. subst. unfold is_cchar. lia.
  - rewrite L. reflexivity.
  - rewrite L. reflexivity.
  - rewrite <- (app_nil_r (repeat 65 _)) at 2. apply (pr_str _ [] [] []). constructor.
Qed.

(** C80, refuted for reasons with arguments: the arguments are never printed.  The
    va_list itself is handed to printf as if it were the argument (lib/error.c:70
    and 95), so that the one call with an argument (lib/symbol_loader.c:203) has
    undefined behaviour, whatever the argument. *)
Theorem C80_reason_arguments_refuted :
  forall (s : list Z),
    prints (zs "DT_SYMENT value of %s is unexpected") [A_str s]
      (zs "DT_SYMENT value of " ++ s ++ zs " is unexpected") /\
    do_call (Z.to_nat MSGQ_BUFFER_MAX + 3) MSGQ_BUFFER_MAX ls_init
      (K_errx (zs "symbol_loader.c") (zs "dl_find_symbol") 203 1
         (zs "DT_SYMENT value of %s is unexpected") [A_str s]) = L_UB.
Proof.
  intros s. split.
  - apply (prints_lit (zs "DT_SYMENT value of ") (zs "%s" ++ zs " is unexpected") _ (s ++ zs " is unexpected"));
      [not_in|]. apply pr_str.
    apply (prints_lit (zs " is unexpected") [] [] []); [not_in|constructor].
  - vm_compute. reflexivity.
Qed.
Print Assumptions C80_reason_arguments_refuted.

(** C80, refuted for threads that log at the same time: the buffer a message is put
    together in is shared and not locked.  Two threads that grow their side stack
    on POWER (lib/arch/powerpc64le/patch.c:315) can leave a log that is not made of
    their messages, in any number and order. *)
Definition ex_fmt : list Z := zs "ulp: thread %lu: expanded stack to %lu bytes" ++ [10].
Definition ex_thread (w : bool) : list Z * list parg :=
  (ex_fmt, [A_num (if w then 1234567 else 7); A_num 4096]).
Definition ex_text (w : bool) : list Z :=
  match vformat (fst (ex_thread w)) (snd (ex_thread w)) with Some t => t | None => [] end.

Theorem C80_two_threads_refuted :
  exists st,
    two_threads (Z.to_nat MSGQ_BUFFER_MAX + 3) MSGQ_BUFFER_MAX ex_thread
      (mk_tl ls_init (fun _ => None)) [false; true; false; true] = L_ok st /\
    forall shown, Forall (fun m => m = ex_text false \/ m = ex_text true) shown ->
      ~ shows (msgq_print MSGQ_BUFFER_MAX (ls_q st)) shown.
Proof.
  assert (X : option_map (fun st => msgq_print MSGQ_BUFFER_MAX (ls_q st))
            (match two_threads (Z.to_nat MSGQ_BUFFER_MAX + 3) MSGQ_BUFFER_MAX ex_thread
               (mk_tl ls_init (fun _ => None)) [false; true; false; true] with
             | L_ok st => Some st | _ => None end)
          = Some (firstn (S (List.length (ex_text false))) (ex_text true) ++ ex_text true ++ [0])).
  { vm_compute. reflexivity. }
  destruct (two_threads (Z.to_nat MSGQ_BUFFER_MAX + 3) MSGQ_BUFFER_MAX ex_thread
              (mk_tl ls_init (fun _ => None)) [false; true; false; true]) as [st| | |];
    [|discriminate X..].
  exists st. split; [reflexivity|]. cbn [option_map] in X. apply (f_equal (fun o => match o with Some l => l | None => [] end)) in X.
  intros shown F S. rewrite X in S. clear X.
  inversion S as [|m k out msgs S' E].
  subst. inversion F as [|? ? Fm _]; subst. clear F S S'.
  destruct Fm as [-> | ->]; vm_compute in E; discriminate E.
Qed.
Print Assumptions C80_two_threads_refuted.

(** Each of the two messages alone is fine, and so are the two one after the other. *)
Example C80_two_threads_case :
  prints ex_fmt (snd (ex_thread false)) (zs "ulp: thread 7: expanded stack to 4096 bytes" ++ [10]) /\
  option_map (fun st => msgq_print MSGQ_BUFFER_MAX (ls_q st))
    (match two_threads (Z.to_nat MSGQ_BUFFER_MAX + 3) MSGQ_BUFFER_MAX ex_thread
       (mk_tl ls_init (fun _ => None)) [false; false; true; true] with
     | L_ok st => Some st | _ => None end) = Some (ex_text false ++ [0] ++ ex_text true ++ [0]).
Proof.
  split; [|vm_compute; reflexivity].
  apply (prints_lit (zs "ulp: thread ") (zs "%lu" ++ zs ": expanded stack to " ++ zs "%lu" ++ zs " bytes" ++ [10]) _
           (zs "7" ++ zs ": expanded stack to " ++ zs "4096" ++ zs " bytes" ++ [10])); [not_in|].
  apply pr_ulong; [lia|apply num_one; [lia|reflexivity]|].
  apply prints_lit; [not_in|]. apply pr_ulong; [lia| |].
  - change 4096 with (10 * (10 * (10 * 4 + 0) + 9) + 6).
    apply (num_more 10 (zs "409")); [|lia..|reflexivity].
    apply (num3 4 0 9); (lia || reflexivity).
  - rewrite <- (app_nil_r (zs " bytes" ++ [10])). apply prints_lit; [not_in|constructor].
Qed.
