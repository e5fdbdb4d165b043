(** Proofs about libpulp's log. *)
From Coq Require Import String.
From Verif Require Import Base BaseFacts StrModel MsgQModel MsgQSpec MsgQProofs LogModel LogSpec.

Lemma digit_unique d c :
  0 <= d -> nth_error (zs "0123456789abcdef") (Z.to_nat d) = Some c -> c = digit_char d /\ d < 16.
Proof.
  intros Hd H.
  assert (L : d < 16).
  { assert (N : nth_error (zs "0123456789abcdef") (Z.to_nat d) <> None) by (rewrite H; discriminate).
    apply nth_error_Some in N. change (List.length (zs "0123456789abcdef")) with 16%nat in N. lia. }
  split; [|exact L].
  assert (C : d = 0 \/ d = 1 \/ d = 2 \/ d = 3 \/ d = 4 \/ d = 5 \/ d = 6 \/ d = 7 \/ d = 8 \/
              d = 9 \/ d = 10 \/ d = 11 \/ d = 12 \/ d = 13 \/ d = 14 \/ d = 15) by lia.
  repeat (destruct C as [-> |C]; [vm_compute in H; injection H as <-; reflexivity|]).
  subst. vm_compute in H. injection H as <-. reflexivity.
Qed.

Lemma numeral_nonneg b t n : 0 < b -> numeral b t n -> 0 <= n /\ t <> [].
Proof.
  intros Hb H. induction H.
  - split; [lia|discriminate].
  - split; [nia|]. intros E. apply app_eq_nil in E. destruct E; discriminate.
Qed.

Lemma num_go_spec b t n :
  2 <= b -> numeral b t n ->
  forall fuel acc, n < b ^ Z.of_nat fuel -> (0 < fuel)%nat -> num_go fuel b n acc = t ++ acc.
Proof.
  intros Hb H. induction H as [d c Hd Hc|t v d c Ht IH Hv Hd Hc]; intros fuel acc Hf H0.
  - destruct fuel as [|f]; [lia|].
    cbn [num_go]. destruct (d <? b) eqn:E; [|lia].
    destruct (digit_unique d c ltac:(lia) Hc) as [-> _]. reflexivity.
  - destruct fuel as [|f]; [lia|].
    cbn [num_go]. destruct (b * v + d <? b) eqn:E; [nia|].
    assert (Q : (b * v + d) / b = v) by (symmetry; apply (Z.div_unique_pos _ _ _ d); lia).
    assert (R : (b * v + d) mod b = d) by (symmetry; apply (Z.mod_unique_pos _ _ v); lia).
    rewrite Q, R. rewrite IH.
    + destruct (digit_unique d c ltac:(lia) Hc) as [-> _]. rewrite <- app_assoc. reflexivity.
    + rewrite Nat2Z.inj_succ, Z.pow_succ_r in Hf by lia. nia.
    + rewrite Nat2Z.inj_succ, Z.pow_succ_r in Hf by lia.
      destruct f; [change (b ^ Z.of_nat 0) with 1 in Hf; nia|lia].
Qed.

Lemma print_num_spec b t n : 2 <= b -> numeral b t n -> n < b ^ 20 -> print_num b n = t.
Proof.
  intros Hb H Hn. unfold print_num. rewrite (num_go_spec b t n Hb H 20%nat [] Hn ltac:(lia)).
  apply app_nil_r.
Qed.

Lemma print_int_spec t z : int_text t z -> print_int z = t.
Proof.
  assert (P : 2 ^ 31 < 10 ^ 20) by reflexivity.
  assert (P32 : 2 ^ 32 = 2 * 2 ^ 31) by reflexivity.
  unfold print_int, s32, u32. intros [[R N]|[R (u & N & ->)]].
  - rewrite Z.mod_small by lia. destruct (z <? 2 ^ 31) eqn:E; [|lia].
    destruct (z <? 0) eqn:E0; [lia|]. apply print_num_spec; [lia|exact N|lia].
  - replace (z mod 2 ^ 32) with (z + 2 ^ 32) by (apply (Z.mod_unique_pos _ _ (-1)); lia).
    destruct (z + 2 ^ 32 <? 2 ^ 31) eqn:E; [lia|].
    replace (z + 2 ^ 32 - 2 ^ 32) with z by lia.
    destruct (z <? 0) eqn:E0; [|lia]. rewrite (print_num_spec 10 u (- z)); [reflexivity|lia|exact N|lia].
Qed.

Lemma prints_vformat fmt args text : prints fmt args text -> vformat fmt args = Some text.
Proof.
  assert (P32 : 2 ^ 32 < 16 ^ 20) by reflexivity.
  assert (P64 : 2 ^ 64 < 16 ^ 20) by reflexivity.
  assert (P64' : 2 ^ 64 < 10 ^ 20) by reflexivity.
  induction 1 as [args|c f args out Hc H IH|f args out H IH|s f args out H IH|n t f args out Hn H IH
    |n t f args out Hn Ht H IH|n t f args out Hn Ht H IH|n t f args out Hn Ht H IH|n t f args out Hn Ht H IH
    |f args out H IH|f args out H IH|f args out H IH].
  - reflexivity.
  - cbn [vformat]. destruct (c =? 37) eqn:E; [lia|]. cbn [negb]. rewrite IH. reflexivity.
  - change (zs "%%" ++ f) with (37 :: 37 :: f). cbn [vformat]. change (37 =? 37) with true.
    cbn [negb]. rewrite IH. reflexivity.
  - change (zs "%s" ++ f) with (37 :: 115 :: f). cbn [vformat]. change (37 =? 37) with true.
    change (115 =? 37) with false. change (115 =? 115) with true. cbn [negb]. rewrite IH. reflexivity.
  - change (zs "%d" ++ f) with (37 :: 100 :: f). cbn [vformat]. change (37 =? 37) with true.
    change (100 =? 37) with false. change (100 =? 115) with false. change (100 =? 100) with true.
    cbn [negb]. rewrite IH, (print_int_spec t n Hn). reflexivity.
  - change (zs "%x" ++ f) with (37 :: 120 :: f). cbn [vformat]. change (37 =? 37) with true.
    change (120 =? 37) with false. change (120 =? 115) with false. change (120 =? 100) with false.
    change (120 =? 120) with true. cbn [negb].
    unfold u32. rewrite Z.mod_small, IH, (print_num_spec 16 t n) by (assumption || lia). reflexivity.
  - change (zs "%lu" ++ f) with (37 :: 108 :: 117 :: f). cbn [vformat]. change (37 =? 37) with true.
    change (108 =? 37) with false. change (108 =? 115) with false. change (108 =? 100) with false.
    change (108 =? 120) with false. change (108 =? 112) with false. change (108 =? 108) with true.
    change (117 =? 117) with true. cbn [negb].
    unfold u64. rewrite Z.mod_small, IH, (print_num_spec 10 t n) by (assumption || lia). reflexivity.
  - change (zs "%lx" ++ f) with (37 :: 108 :: 120 :: f). cbn [vformat]. change (37 =? 37) with true.
    change (108 =? 37) with false. change (108 =? 115) with false. change (108 =? 100) with false.
    change (108 =? 120) with false. change (108 =? 112) with false. change (108 =? 108) with true.
    change (120 =? 117) with false. change (120 =? 120) with true. cbn [negb].
    unfold u64. rewrite Z.mod_small, IH, (print_num_spec 16 t n) by (assumption || lia). reflexivity.
  - change (zs "%p" ++ f) with (37 :: 112 :: f). cbn [vformat]. change (37 =? 37) with true.
    change (112 =? 37) with false. change (112 =? 115) with false. change (112 =? 100) with false.
    change (112 =? 120) with false. change (112 =? 112) with true. cbn [negb].
    unfold u64. rewrite Z.mod_small by lia. destruct (n =? 0) eqn:E; [lia|].
    rewrite IH, (print_num_spec 16 t n) by (assumption || lia).
    cbn [option_map]. rewrite <- !app_assoc. reflexivity.
  - change (zs "%s" ++ f) with (37 :: 115 :: f). cbn [vformat]. change (37 =? 37) with true.
    change (115 =? 37) with false. change (115 =? 115) with true. cbn [negb]. rewrite IH. reflexivity.
  - change (zs "%p" ++ f) with (37 :: 112 :: f). cbn [vformat]. change (37 =? 37) with true.
    change (112 =? 37) with false. change (112 =? 115) with false. change (112 =? 112) with true. cbn [negb]. rewrite IH. reflexivity.
  - change (zs "%p" ++ f) with (37 :: 112 :: f). cbn [vformat]. change (37 =? 37) with true.
    change (112 =? 37) with false. change (112 =? 115) with false. change (112 =? 100) with false.
    change (112 =? 120) with false. change (112 =? 112) with true. change (u64 0 =? 0) with true. cbn [negb]. rewrite IH. reflexivity.
Qed.

Lemma plain_prints fmt t args : plain fmt t -> prints fmt args t.
Proof. induction 1; constructor; assumption. Qed.

Lemma prints_lit l f args out :
  ~ In 37 l -> prints f args out -> prints (l ++ f) args (l ++ out).
Proof.
  induction l as [|c l IH]; intros N H; [exact H|]. cbn [app]. constructor.
  - intros ->. apply N. left. reflexivity.
  - apply IH; [|exact H]. intros I. apply N. right. exact I.
Qed.

Ltac not_in := let X := fresh in intros X; vm_compute in X; repeat (destruct X as [X|X]; [discriminate X|]); exact X.

Lemma position_prints file func line l f args out :
  int_text l line -> prints f args out ->
  prints (zs "In file = " ++ zs "%s" ++ zs ", function = " ++ zs "%s" ++ zs ", line = " ++ zs "%d" ++ f)
    (A_str file :: A_str func :: A_num line :: args)
    (zs "In file = " ++ file ++ zs ", function = " ++ func ++ zs ", line = " ++ l ++ out).
Proof.
  intros L H.
  apply prints_lit; [not_in|]. apply pr_str. apply prints_lit; [not_in|]. apply pr_str.
  apply prints_lit; [not_in|]. apply pr_int; assumption.
Qed.

(** Pushing a string of the right size is the push of MsgQModel. *)
Lemma strpush_sized_str f mx q m s :
  cstr_ok s ->
  (s <> [] -> zlen s + 1 <= mx -> mem_read m 0 (List.length (s ++ [0])) = s ++ [0]) ->
  (s = [] -> m 0 = 0) ->
  strpush_sized f mx q m (zlen s + 1) = msgq_strpush f mx q s.
Proof.
  intros C R E. unfold strpush_sized, msgq_strpush. destruct s as [|c s].
  - rewrite E by reflexivity. reflexivity.
  - destruct (zlen (c :: s) + 1 >? mx) eqn:Z; [rewrite orb_true_r; reflexivity|].
    assert (R' := R ltac:(discriminate) ltac:(lia)). clear R E.
    assert (M0 : m 0 = c) by (cbn [app List.length mem_read] in R'; injection R'; intros; assumption).
    inversion C as [|? ? Hc _]; subst. unfold is_cchar in Hc.
    destruct (m 0 =? 0) eqn:E0; [lia|]. cbn [orb].
    replace (Z.to_nat (zlen (m 0 :: s) + 1)) with (List.length ((m 0 :: s) ++ [0])).
    + rewrite R'. reflexivity.
    + rewrite app_length. cbn [List.length]. unfold zlen. cbn [List.length]. lia.
Qed.

Definition same_push (err : Z) (r : mres) (out : lres) : Prop :=
  match r with
  | M_ok q => exists m, out = L_ok (mk_ls q m err)
  | M_UB => out = L_UB
  | M_fuel => out = L_fuel
  end.

Lemma msgq_push_spec f mx st fmt args t :
  0 < mx -> prints fmt args t -> logtext mx t ->
  same_push (ls_err st) (msgq_strpush f mx (ls_q st) t) (msgq_push f mx st fmt args).
Proof.
  intros Hmx P (C & _ & L). unfold msgq_push, format_msg. rewrite (prints_vformat _ _ _ P).
  destruct (zlen t >? 2 ^ 31 - 1) eqn:E; [lia|]. unfold push_buffer. cbn [ls_q ls_msg ls_err].
  rewrite strpush_sized_str; [|exact C| |].
  - unfold same_push. destruct (msgq_strpush f mx (ls_q st) t); [eexists; reflexivity|reflexivity|reflexivity].
  - intros _ Hs. rewrite firstn_all2 by (unfold zlen in Hs; lia). apply mem_read_write_same.
  - intros ->. rewrite firstn_nil. reflexivity.
Qed.

Lemma stamp_push_spec f mx st t :
  cstr_ok t ->
  same_push (ls_err st) (msgq_strpush f mx (ls_q st) t)
    (if 0 <? zlen t then push_buffer f mx st (mem_write (fun _ => 0) 0 (t ++ [0])) (zlen t + 1)
     else L_ok st).
Proof.
  intros C. destruct t as [|c t].
  - cbn. exists (ls_msg st). destruct st; reflexivity.
  - assert (0 < zlen (c :: t)) by (unfold zlen; cbn [List.length]; lia).
    destruct (0 <? zlen (c :: t)) eqn:E; [|lia]. unfold push_buffer.
    rewrite strpush_sized_str; [|exact C| |discriminate].
    + unfold same_push. destruct (msgq_strpush f mx (ls_q st) (c :: t)); [eexists; reflexivity|reflexivity|reflexivity].
    + intros _ _. apply mem_read_write_same.
Qed.

Lemma prints_snoc c fmt args t : c <> 37 -> prints fmt args t -> prints (fmt ++ [c]) args (t ++ [c]).
Proof.
  intros Hc. induction 1; rewrite <- ?app_assoc; cbn [app].
  - apply pr_char; [exact Hc|]. apply pr_end.
  - apply pr_char; assumption.
  - change (prints (zs "%%" ++ f ++ [c]) args (zs "%" ++ out ++ [c])). apply pr_percent; assumption.
  - apply pr_str; assumption.
  - apply pr_int; assumption.
  - apply pr_hex; assumption.
  - apply pr_ulong; assumption.
  - apply pr_lhex; assumption.
  - apply pr_ptr; assumption.
  - apply pr_null_str; assumption.
  - apply pr_null_ptr; assumption.
  - apply pr_zero_ptr; assumption.
Qed.

(** Two texts in a row. *)
Lemma two_pushes f mx st err fmt1 args1 t1 fmt2 args2 t2 (k : lstate -> lstate) :
  0 < mx -> prints fmt1 args1 t1 -> logtext mx t1 -> prints fmt2 args2 t2 -> logtext mx t2 ->
  (forall q m, exists m', k (mk_ls q m (ls_err st)) = mk_ls q m' err) ->
  same_push err (push_all f mx (ls_q st) [t1; t2])
    (lbind (msgq_push f mx st fmt1 args1)
       (fun st1 => lbind (msgq_push f mx st1 fmt2 args2) (fun st2 => L_ok (k st2)))).
Proof.
  intros Hmx P1 L1 P2 L2 K. cbn [push_all].
  assert (X := msgq_push_spec f mx st fmt1 args1 t1 Hmx P1 L1). unfold same_push in X.
  destruct (msgq_strpush f mx (ls_q st) t1) as [q1| |]; [destruct X as [m1 ->]|rewrite X; reflexivity..].
  cbn [lbind]. assert (Y := msgq_push_spec f mx (mk_ls q1 m1 (ls_err st)) fmt2 args2 t2 Hmx P2 L2).
  unfold same_push in Y. cbn [ls_q ls_err] in Y.
  destruct (msgq_strpush f mx q1 t2) as [q2| |]; [destruct Y as [m2 ->]|rewrite Y; reflexivity..].
  cbn [lbind same_push]. destruct (K q2 m2) as [m' ->]. exists m'. reflexivity.
Qed.

Lemma one_push f mx st err fmt1 args1 t1 (k : lstate -> lstate) :
  0 < mx -> prints fmt1 args1 t1 -> logtext mx t1 ->
  (forall q m, exists m', k (mk_ls q m (ls_err st)) = mk_ls q m' err) ->
  same_push err (push_all f mx (ls_q st) [t1])
    (lbind (msgq_push f mx st fmt1 args1) (fun st1 => L_ok (k st1))).
Proof.
  intros Hmx P1 L1 K. cbn [push_all].
  assert (X := msgq_push_spec f mx st fmt1 args1 t1 Hmx P1 L1). unfold same_push in X.
  destruct (msgq_strpush f mx (ls_q st) t1) as [q1| |]; [destruct X as [m1 ->]|rewrite X; reflexivity..].
  cbn [lbind same_push]. destruct (K q1 m1) as [m' ->]. exists m'. reflexivity.
Qed.

Lemma lbind_ok r : lbind r (fun st => L_ok st) = r.
Proof. destruct r; reflexivity. Qed.

Lemma set_state_to e q m e0 : exists m', set_state e (mk_ls q m e0) = mk_ls q m' e.
Proof. exists m. reflexivity. Qed.

Lemma text_zero : numeral 10 (zs "0") 0.
Proof. apply num_one; [lia|reflexivity]. Qed.

Lemma reason_prints file func line l state s :
  int_text l line -> int_text s state ->
  prints (zs "In file = %s, function = %s, line = %d, error state %d: ")
    [A_str file; A_str func; A_num line; A_num state]
    (zs "In file = " ++ file ++ zs ", function = " ++ func ++ zs ", line = " ++ l ++
       zs ", error state " ++ s ++ zs ": ").
Proof.
  intros L S. apply (position_prints file func line l (zs ", error state " ++ zs "%d" ++ zs ": ")
                       [A_num state] (zs ", error state " ++ s ++ zs ": ") L).
  apply prints_lit; [not_in|]. apply pr_int; [exact S|].
  apply (prints_lit (zs ": ") [] [] []); [not_in|constructor].
Qed.

Lemma assert_prints file func line l :
  int_text l line ->
  prints (zs "In file = %s, function = %s, line = %d: assertion failure: %lu" ++ [10])
    [A_str file; A_str func; A_num line; A_num 0]
    (zs "In file = " ++ file ++ zs ", function = " ++ func ++ zs ", line = " ++ l ++
       zs ": assertion failure: 0" ++ [10]).
Proof.
  intros L. apply (position_prints file func line l (zs ": assertion failure: " ++ zs "%lu" ++ [10])
                     [A_num 0] (zs ": assertion failure: " ++ zs "0" ++ [10]) L).
  apply prints_lit; [not_in|]. apply pr_ulong; [lia|exact text_zero|].
  apply (prints_lit [10] [] [] []); [not_in|constructor].
Qed.

Lemma errx_prints file func line l eval e :
  int_text l line -> int_text e eval ->
  prints (zs "In file = %s, function = %s, line = %d: errx : %d ;; ")
    [A_str file; A_str func; A_num line; A_num eval]
    (zs "In file = " ++ file ++ zs ", function = " ++ func ++ zs ", line = " ++ l ++
       zs ": errx : " ++ e ++ zs " ;; ").
Proof.
  intros L S. apply (position_prints file func line l (zs ": errx : " ++ zs "%d" ++ zs " ;; ")
                       [A_num eval] (zs ": errx : " ++ e ++ zs " ;; ") L).
  apply prints_lit; [not_in|]. apply pr_int; [exact S|].
  apply (prints_lit (zs " ;; ") [] [] []); [not_in|constructor].
Qed.

Lemma exit_prints file func line l val v :
  int_text l line -> int_text v val ->
  prints (zs "In file = %s, function = %s, line = %d: exit: %d" ++ [10])
    [A_str file; A_str func; A_num line; A_num val]
    (zs "In file = " ++ file ++ zs ", function = " ++ func ++ zs ", line = " ++ l ++
       zs ": exit: " ++ v ++ [10]).
Proof.
  intros L S. apply (position_prints file func line l (zs ": exit: " ++ zs "%d" ++ [10])
                       [A_num val] (zs ": exit: " ++ v ++ [10]) L).
  apply prints_lit; [not_in|]. apply pr_int; [exact S|].
  apply (prints_lit [10] [] [] []); [not_in|constructor].
Qed.

Lemma warn_spec f mx st ts fmt args t :
  0 < mx -> prints fmt args t -> logtext mx ts -> logtext mx (zs "ulp: " ++ t ++ [10]) ->
  same_push (ls_err st) (push_all f mx (ls_q st) [ts; zs "ulp: " ++ t ++ [10]])
    (WARN f mx (Some ts) st fmt args).
Proof.
  intros Hmx P F1 F2. unfold WARN, ulp_warn. assert (X := stamp_push_spec f mx st ts (proj1 F1)).
  assert (P' : prints (zs "ulp: " ++ fmt ++ [10]) args (zs "ulp: " ++ t ++ [10])).
  { apply prints_lit; [not_in|]. apply prints_snoc; [lia|exact P]. }
  revert P' F2. generalize (zs "ulp: " ++ fmt ++ [10]) (zs "ulp: " ++ t ++ [10]). intros F T P' F2.
  cbn [push_all]. unfold same_push in X. destruct (msgq_strpush f mx (ls_q st) ts) as [q1| |].
  - destruct X as [m1 ->]. cbn [lbind].
    assert (Y := msgq_push_spec f mx (mk_ls q1 m1 (ls_err st)) _ _ _ Hmx P' F2).
    unfold same_push in *. cbn [ls_q ls_err] in Y.
    destruct (msgq_strpush f mx q1 T); exact Y.
  - rewrite X. reflexivity.
  - rewrite X. reflexivity.
Qed.

(** One call. *)
Lemma do_call_spec f mx st c ts :
  0 < mx -> says c ts -> Forall (logtext mx) ts ->
  same_push (leaves c (ls_err st)) (push_all f mx (ls_q st) ts) (do_call f mx st c).
Proof.
  intros Hmx S F.
  destruct S as [fmt args t P|ts fmt args t P|file func line l state s fmt args t Hl Hs P|file func line e E
    |file func line l Hl|file func line l eval e fmt args t Hl He P|file func line l val v Hl Hv];
    cbn [do_call leaves].
  - rewrite <- (lbind_ok (msgq_push f mx st fmt args)).
    apply (one_push f mx st (ls_err st) fmt args t (fun x => x)); [exact Hmx|exact P|exact (Forall_inv F)|].
    intros q m. exists m. reflexivity.
  - apply warn_spec; [exact Hmx|exact P|exact (Forall_inv F)|exact (Forall_inv (Forall_inv_tail F))].
  - unfold set_state_with_reason.
    assert (X := two_pushes f mx (set_state state st) state _ _ _ fmt [A_valist] t (fun x => x) Hmx
              (reason_prints file func line l state s Hl Hs) (Forall_inv F) (plain_prints _ _ _ P)
              (Forall_inv (Forall_inv_tail F))).
    cbn [set_state ls_q ls_err] in X.
    assert (Y := X (fun q m => ex_intro _ m eq_refl)). clear X.
    destruct (msgq_push f mx (set_state state st) _ _); cbn [lbind] in Y |- *; try exact Y.
    rewrite lbind_ok in Y. exact Y.
  - unfold libpulp_assert. destruct (e =? 0) eqn:E0; [lia|]. cbn. exists (ls_msg st). destruct st; reflexivity.
  - unfold libpulp_assert. change (0 =? 0) with true. cbn [negb].
    apply (one_push f mx st 256 _ _ _ (set_state L_EUNKNOWN) Hmx (assert_prints file func line l Hl) (Forall_inv F)).
    intros q m. apply set_state_to.
  - apply (two_pushes f mx st 256 _ _ _ fmt [A_valist] t (set_state L_EUNKNOWN) Hmx
             (errx_prints file func line l eval e Hl He) (Forall_inv F) (plain_prints _ _ _ P)
             (Forall_inv (Forall_inv_tail F))).
    intros q m. apply set_state_to.
  - apply (one_push f mx st 256 _ _ _ (set_state L_EUNKNOWN) Hmx (exit_prints file func line l val v Hl Hv) (Forall_inv F)).
    intros q m. apply set_state_to.
Qed.

Lemma push_all_app f mx l1 l2 q :
  push_all f mx q (l1 ++ l2) =
  match push_all f mx q l1 with M_ok q' => push_all f mx q' l2 | r => r end.
Proof.
  revert q. induction l1 as [|s l1 IH]; intros q; [reflexivity|]. cbn [app push_all].
  destruct (msgq_strpush f mx q s); [apply IH|reflexivity|reflexivity].
Qed.

(** Any number of calls. *)
Lemma do_calls_spec f mx cs tss :
  0 < mx -> Forall2 says cs tss -> Forall (logtext mx) (concat tss) ->
  forall st,
  same_push (fold_left (fun e c => leaves c e) cs (ls_err st)) (push_all f mx (ls_q st) (concat tss))
    (do_calls f mx st cs).
Proof.
  intros Hmx S. induction S as [|c ts cs tss Hc S IH]; intros F st.
  - cbn. exists (ls_msg st). destruct st; reflexivity.
  - cbn [concat] in *. apply Forall_app in F. destruct F as [F1 F2].
    assert (X := do_call_spec f mx st c ts Hmx Hc F1). rewrite push_all_app. cbn [do_calls fold_left].
    unfold same_push in X. destruct (push_all f mx (ls_q st) ts) as [q| |].
    + destruct X as [m ->]. cbn [lbind]. apply (IH F2 (mk_ls q m (leaves c (ls_err st)))).
    + rewrite X. reflexivity.
    + rewrite X. reflexivity.
Qed.

(** What a call does to the buffer and to the error state, whatever it logs. *)
Lemma push_buffer_msg f mx st msg size st' :
  push_buffer f mx st msg size = L_ok st' -> ls_msg st' = ls_msg st /\ ls_err st' = ls_err st.
Proof.
  unfold push_buffer. destruct (strpush_sized f mx (ls_q st) msg size); try discriminate.
  intros H. injection H as <-. split; reflexivity.
Qed.

Lemma msgq_push_msg f mx st fmt args st' i :
  1 <= mx -> i < 0 \/ mx <= i -> msgq_push f mx st fmt args = L_ok st' ->
  ls_msg st' i = ls_msg st i /\ ls_err st' = ls_err st.
Proof.
  intros Hm Hi H. unfold msgq_push, format_msg in H. destruct (vformat fmt args) as [t|]; [|discriminate].
  apply push_buffer_msg in H. destruct H as [-> ->]. cbn [ls_msg ls_err]. split; [|reflexivity].
  apply mem_write_out. rewrite zlen_app. unfold zlen. rewrite firstn_length. cbn [List.length]. lia.
Qed.

Lemma msgq_push_err f mx st fmt args st' :
  msgq_push f mx st fmt args = L_ok st' -> ls_err st' = ls_err st.
Proof.
  intros H. unfold msgq_push, format_msg in H. destruct (vformat fmt args) as [t|]; [|discriminate].
  apply push_buffer_msg in H. exact (proj2 H).
Qed.

Lemma lbind_inv r k st : lbind r k = L_ok st -> exists st1, r = L_ok st1 /\ k st1 = L_ok st.
Proof. destruct r; cbn [lbind]; try discriminate. intros H. exists st0. split; [reflexivity|exact H]. Qed.

Lemma do_call_msg f mx st c st' i :
  1 <= mx -> i < 0 \/ mx <= i -> do_call f mx st c = L_ok st' ->
  ls_msg st' i = ls_msg st i.
Proof.
  intros Hm Hi. destruct c; cbn [do_call].
  - intros H. apply (msgq_push_msg _ _ _ _ _ _ i Hm Hi) in H. exact (proj1 H).
  - unfold WARN, ulp_warn. destruct ts as [t|]; [|discriminate]. intros H. apply lbind_inv in H. destruct H as (s1 & H1 & H2).
    apply (msgq_push_msg _ _ _ _ _ _ i Hm Hi) in H2. rewrite (proj1 H2).
    destruct (0 <? zlen t); [apply push_buffer_msg in H1; rewrite (proj1 H1); reflexivity|].
    injection H1 as <-. reflexivity.
  - unfold set_state_with_reason. intros H. apply lbind_inv in H. destruct H as (s1 & H1 & H2).
    apply (msgq_push_msg _ _ _ _ _ _ i Hm Hi) in H2. rewrite (proj1 H2).
    apply (msgq_push_msg _ _ _ _ _ _ i Hm Hi) in H1. rewrite (proj1 H1). reflexivity.
  - unfold libpulp_assert. destruct (negb (expr =? 0)).
    + intros H. injection H as <-. reflexivity.
    + intros H. apply lbind_inv in H. destruct H as (s1 & H1 & H2). injection H2 as <-.
      apply (msgq_push_msg _ _ _ _ _ _ i Hm Hi) in H1. exact (proj1 H1).
  - unfold libpulp_errx. intros H. apply lbind_inv in H. destruct H as (s1 & H1 & H2).
    apply lbind_inv in H2. destruct H2 as (s2 & H2 & H3). injection H3 as <-. cbn [set_state ls_msg].
    apply (msgq_push_msg _ _ _ _ _ _ i Hm Hi) in H2. rewrite (proj1 H2).
    apply (msgq_push_msg _ _ _ _ _ _ i Hm Hi) in H1. exact (proj1 H1).
  - unfold libpulp_exit. intros H. apply lbind_inv in H. destruct H as (s1 & H1 & H2). injection H2 as <-.
    apply (msgq_push_msg _ _ _ _ _ _ i Hm Hi) in H1. exact (proj1 H1).
Qed.

Lemma do_calls_msg f mx cs i :
  1 <= mx -> i < 0 \/ mx <= i -> forall st st', do_calls f mx st cs = L_ok st' -> ls_msg st' i = ls_msg st i.
Proof.
  intros Hm Hi. induction cs as [|c cs IH]; cbn [do_calls]; intros st st' H.
  - injection H as <-. reflexivity.
  - apply lbind_inv in H. destruct H as (s1 & H1 & H2). rewrite (IH _ _ H2).
    exact (do_call_msg _ _ _ _ _ i Hm Hi H1).
Qed.

Lemma do_call_err f mx st c st' :
  do_call f mx st c = L_ok st' -> ls_err st' = leaves c (ls_err st).
Proof.
  destruct c; cbn [do_call leaves].
  - apply msgq_push_err.
  - unfold WARN, ulp_warn. destruct ts as [t|]; [|discriminate]. intros H. apply lbind_inv in H. destruct H as (s1 & H1 & H2).
    apply msgq_push_err in H2. rewrite H2.
    destruct (0 <? zlen t); [apply push_buffer_msg in H1; exact (proj2 H1)|]. injection H1 as <-. reflexivity.
  - unfold set_state_with_reason. intros H. apply lbind_inv in H. destruct H as (s1 & H1 & H2).
    apply msgq_push_err in H2. apply msgq_push_err in H1. rewrite H2, H1. reflexivity.
  - unfold libpulp_assert. destruct (expr =? 0); cbn [negb].
    + intros H. apply lbind_inv in H. destruct H as (s1 & H1 & H2). injection H2 as <-. reflexivity.
    + intros H. injection H as <-. reflexivity.
  - unfold libpulp_errx. intros H. apply lbind_inv in H. destruct H as (s1 & H1 & H2).
    apply lbind_inv in H2. destruct H2 as (s2 & H2 & H3). injection H3 as <-. reflexivity.
  - unfold libpulp_exit. intros H. apply lbind_inv in H. destruct H as (s1 & H1 & H2). injection H2 as <-. reflexivity.
Qed.

Lemma do_calls_err f mx cs : forall st st', do_calls f mx st cs = L_ok st' ->
  ls_err st' = fold_left (fun e c => leaves c e) cs (ls_err st).
Proof.
  induction cs as [|c cs IH]; cbn [do_calls fold_left]; intros st st' H.
  - injection H as <-. reflexivity.
  - apply lbind_inv in H. destruct H as (s1 & H1 & H2). rewrite (IH _ _ H2), (do_call_err _ _ _ _ _ H1). reflexivity.
Qed.

(** After one message the buffer holds its text. *)
Lemma push_first f mx st fmt args t st' :
  2 <=? mx = true -> vformat fmt args = Some t ->
  do_calls f mx st [K_push fmt args] = L_ok st' -> ls_msg st' 0 = nth 0 t 0.
Proof.
  intros Hm Ht H. cbn [do_calls do_call] in H. apply lbind_inv in H. destruct H as (s1 & H1 & H2). injection H2 as <-.
  unfold msgq_push, format_msg in H1. rewrite Ht in H1. apply push_buffer_msg in H1. rewrite (proj1 H1). cbn [ls_msg].
  rewrite mem_write_in by (rewrite zlen_app; unfold zlen; cbn [List.length]; lia).
  destruct t as [|c t]; [rewrite firstn_nil; reflexivity|].
  replace (Z.to_nat (mx - 1)) with (S (Z.to_nat (mx - 2))) by lia. reflexivity.
Qed.
