(** Theorems about the ppc64le trampoline. *)
From Verif Require Import Base BaseFacts PpcSpec PtrModel PtrSpec PtrProofs.

(** ** C28: a redirected call returns to its caller.
    Any state in which the side stack is in order, any state the new function returns
    in after a properly nested run of any length and depth, side stack enlargements
    included: behind the trampoline the program continues at the caller's return
    address with the caller's TOC and stack pointer, and with the new function's return
    values (r3, r4) and its non-volatile registers. *)
Theorem C28_returns w sl sh e e' area st st1 st2 :
  world_ok w sl sh -> env_ok w sl sh e -> env_ok w sl sh e' -> area_ok sl sh area ->
  wf_st st -> room sl sh st -> side_ok w sl sh (tm st) ->
  redirected_entry w e area st = Some st1 ->
  nested w sl sh st1 st2 ->
  tg st2 1 = tg st1 1 ->
  exists st3, tramp_leave w e' st2 = Some st3 /\
    t_lr st3 = t_lr st /\ tg st3 2 = tg st 2 /\ tg st3 1 = tg st 1 /\
    (forall r, r = 3 \/ r = 4 \/ 13 <= r <= 31 -> tg st3 r = tg st2 r) /\
    side_ok w sl sh (tm st3) /\ s_used w (tm st3) = s_used w (tm st) /\
    (forall x, ~ (sl <= x < tg st 1) -> ~ (pw_us w <= x < pw_us w + 24) -> tm st3 x = tm st2 x).
Proof.
  intros WO E E' A W R S EN N R1.
  destruct (enter_eq w sl sh WO e area st st1 E A W R S EN) as (W1 & G1 & GO & G12 & GC & GL & S1 & U1 & K1 & KT & KL & M1).
  destruct (nested_kept w sl sh WO st1 st2 N W1 S1) as (W2 & S2 & U2 & K2).
  pose proof (side_range w sl sh _ S) as Rg.
  destruct (leave_eq w sl sh WO e' st2) as (st3 & EL & W3 & G3 & GO3 & T3 & L3 & S3 & _ & P3 & U3 & M3); auto.
  { unfold room in *. lia. } { lia. }
  exists st3. split; [exact EL|].
  assert (TOP : forall k, k = 0 \/ k = 8 -> ld8 (tm st2) (s_ptr w (tm st2) + s_used w (tm st2) - 16 + k) =
                                      ld8 (tm st1) (s_ptr w (tm st1) + s_used w (tm st) + k)).
  { intros k Hk. unfold ld8. f_equal. apply list_nth_ext with (d := 0); rewrite !mem_read_length; auto.
    intros i Hi. rewrite !mem_read_nth by lia.
    replace (s_ptr w (tm st2) + s_used w (tm st2) - 16 + k + Z.of_nat i) with
            (s_ptr w (tm st2) + (s_used w (tm st) + k + Z.of_nat i)) by lia.
    rewrite K2 by lia. f_equal. lia. }
  split. { rewrite L3, <- KL, <- (TOP 8) by lia. f_equal. lia. }
  split. { rewrite T3, <- KT. rewrite <- (Z.add_0_r (s_ptr w (tm st1) + _)), <- (TOP 0) by lia. f_equal. lia. }
  split; [congruence|]. split; [exact GO3|]. split; [exact S3|]. split; [lia|].
  intros x X1 X2. apply M3; auto. rewrite R1, G1. exact X1.
Qed.
Print Assumptions C28_returns.

(** The new function is entered as the old one was called: stack pointer, argument
    and non-volatile registers, the caller's memory; r12 is its own address. *)
Theorem C28_call_unchanged w sl sh e area st st1 :
  world_ok w sl sh -> env_ok w sl sh e -> area_ok sl sh area ->
  wf_st st -> room sl sh st -> side_ok w sl sh (tm st) ->
  redirected_entry w e area st = Some st1 ->
  let new := ld8 (tm st) (area + 4) in
  t_ctr st1 = new /\ tg st1 12 = new /\ tg st1 1 = tg st 1 /\
  (forall r, 3 <= r <= 10 \/ 13 <= r <= 31 -> tg st1 r = tg st r) /\
  side_ok w sl sh (tm st1) /\
  (forall x, ~ (sl <= x < tg st 1) -> ~ (pw_us w <= x < pw_us w + 24) ->
             ~ (s_ptr w (tm st1) <= x < s_ptr w (tm st1) + s_real w (tm st1)) -> tm st1 x = tm st x).
Proof.
  intros WO E A W R S EN.
  destruct (enter_eq w sl sh WO e area st st1 E A W R S EN) as (W1 & G1 & GO & G12 & GC & GL & S1 & U1 & K1 & KT & KL & M1).
  cbv zeta. auto 10.
Qed.
Print Assumptions C28_call_unchanged.

(** The entry never fails while mmap grants the memory. *)
Theorem C28_entry_succeeds w sl sh e area st :
  world_ok w sl sh -> env_ok w sl sh e -> area_ok sl sh area ->
  wf_st st -> room sl sh st -> side_ok w sl sh (tm st) -> mmap_grants w e (tm st) ->
  exists st1, redirected_entry w e area st = Some st1.
Proof. intros WO E A W R S M. exact (enter_progress w sl sh WO e area st E A W R S M). Qed.
Print Assumptions C28_entry_succeeds.

(** Not properly nested: the new function, entered from [st], calls another redirected
    function (from [st1']), which is left by longjmp or an exception back into the
    first one ([st2'], its stack pointer restored). When the first one returns, it
    does not return to its caller: it returns to where the abandoned call would
    have returned. *)
Theorem C28_longjmp_refuted w sl sh e e1 e2 area area1 st st1 st1' st2 st2' :
  world_ok w sl sh -> env_ok w sl sh e -> env_ok w sl sh e1 -> env_ok w sl sh e2 ->
  area_ok sl sh area -> area_ok sl sh area1 ->
  wf_st st -> room sl sh st -> side_ok w sl sh (tm st) ->
  redirected_entry w e area st = Some st1 ->
  program_step w st1 st1' -> room sl sh st1' ->
  redirected_entry w e1 area1 st1' = Some st2 ->
  program_step w st2 st2' -> tg st2' 1 = tg st1 1 ->
  exists st3, tramp_leave w e2 st2' = Some st3 /\ tg st3 1 = tg st 1 /\
    t_lr st3 = t_lr st1' /\ tg st3 2 = tg st1' 2.
Proof.
  intros WO E E1 E2 A A1 W R S EN (W1' & P1 & P1b) R1' EN1 PS2 RR.
  destruct (enter_eq w sl sh WO e area st st1 E A W R S EN) as (W1 & G1 & _ & _ & _ & _ & S1 & U1 & _).
  assert (S1' : side_ok w sl sh (tm st1')).
  { eapply side_ok_fields; [|exact S1]. apply same_fields_ext. auto. }
  destruct (enter_eq w sl sh WO e1 area1 st1' st2 E1 A1 W1' R1' S1' EN1) as (W2 & G2 & _ & _ & _ & _ & S2 & U2 & _ & KT & KL & _).
  destruct PS2 as (W2' & Q1 & Q2).
  assert (F : same_fields w (tm st2) (tm st2')) by (apply same_fields_ext; auto).
  pose proof (side_range w sl sh _ S1') as Rg.
  destruct (leave_eq w sl sh WO e2 st2') as (st3 & EL & W3 & G3 & GO3 & T3 & L3 & _); auto.
  { unfold room in *. lia. } { eapply side_ok_fields; eauto. } { destruct F as (_ & -> & _). lia. }
  exists st3. split; [exact EL|]. split; [congruence|].
  destruct F as (_ & F2 & F3). rewrite F2, F3 in T3, L3.
  split.
  - rewrite L3, <- KL. rewrite U2.
    replace (s_ptr w (tm st2) + (s_used w (tm st1') + 16) - 8) with (s_ptr w (tm st2) + s_used w (tm st1') + 8) by lia.
    apply ld8_ext. intros x Hx. apply Q2. lia.
  - rewrite T3, <- KT. rewrite U2.
    replace (s_ptr w (tm st2) + (s_used w (tm st1') + 16) - 16) with (s_ptr w (tm st2) + s_used w (tm st1')) by lia.
    apply ld8_ext. intros x Hx. apply Q2. lia.
Qed.
Print Assumptions C28_longjmp_refuted.

(** A signal that arrives while a redirected call returns, between the store of the
    new used_size and the load of the return address (ulp_prologue.S:174-185), and whose
    handler itself makes a redirected call (from [h0], properly nested): the
    interrupted call returns to the address the handler's call returned to. *)
Theorem C28_signal_refuted w sl sh e e1 e2 area st sa h0 h1 h2 h3 s :
  world_ok w sl sh -> env_ok w sl sh e -> env_ok w sl sh e1 -> env_ok w sl sh e2 -> area_ok sl sh area ->
  wf_st st -> room sl sh st -> side_ok w sl sh (tm st) -> 16 <= s_used w (tm st) ->
  exec w e (tramp_return ++ [I_tls] ++ firstn 3 tramp_pop) st = Some sa ->
  program_step w sa h0 -> room sl sh h0 ->
  redirected_entry w e1 area h0 = Some h1 ->
  nested w sl sh h1 h2 -> tg h2 1 = tg h1 1 -> tramp_leave w e2 h2 = Some h3 ->
  exec w e (skipn 3 tramp_pop) (mk_tst (tg sa) (t_lr sa) (t_ctr sa) (t_le sa) (tm h3)) = Some s ->
  t_lr s = t_lr h0 /\ tg s 2 = tg h0 2.
Proof.
  intros WO E E1 E2 A W R S U EX (Wh0 & P1 & P2) Rh EN N RR LV EX2.
  destruct (leave_first_part w sl sh WO e st sa E W R S U EX) as (T3 & T6 & T1 & Sa & Ua & Ra).
  assert (F : same_fields w (tm sa) (tm h0)) by (apply same_fields_ext; auto).
  assert (Sh : side_ok w sl sh (tm h0)) by (eapply side_ok_fields; eauto).
  destruct F as (Fr & Fu & Fp).
  destruct (enter_eq w sl sh WO e1 area h0 h1 E1 A Wh0 Rh Sh EN) as (W1 & G1 & _ & _ & _ & _ & S1 & U1 & _ & KT & KL & _).
  destruct (nested_kept w sl sh WO h1 h2 N W1 S1) as (W2 & S2 & U2 & K2).
  pose proof (side_range w sl sh _ Sh) as Rgh. pose proof (side_range w sl sh _ S2) as Rg2.
  destruct (leave_eq w sl sh WO e2 h2) as (h3' & EL & W3 & G3 & _ & _ & _ & S3 & R3 & P3 & U3 & M3); auto.
  { unfold room in *. lia. } { lia. }
  rewrite LV in EL. apply Some_inj in EL. subst h3'.
  assert (V : s_used w (tm st) - 16 = s_used w (tm h0)) by lia.
  assert (B : 0 <= s_ptr w (tm h2) /\ s_ptr w (tm h2) + s_real w (tm h2) < 2 ^ 62) by (unfold side_ok in S2; clear - S2; lia).
  destruct (leave_last_part w sl sh WO e (mk_tst (tg sa) (t_lr sa) (t_ctr sa) (t_le sa) (tm h3)) s) as (L & T);
    [exact T3|cbn [tm]; rewrite P3; apply B|cbn [tg]; clear - T6 U; lia
    |cbn [tg tm]; rewrite P3, T6, V; clear - B Rg2 U2 U1; lia|exact EX2|].
  cbn [tg tm] in L, T. rewrite T6, V, P3 in L, T.
  assert (TOP : forall k, k = 0 \/ k = 8 -> ld8 (tm h3) (s_ptr w (tm h2) + s_used w (tm h0) + k) =
                                      ld8 (tm h1) (s_ptr w (tm h1) + s_used w (tm h0) + k)).
  { intros k Hk. unfold ld8. f_equal. apply list_nth_ext with (d := 0); rewrite !mem_read_length; auto.
    intros i Hi. rewrite !mem_read_nth by lia.
    assert (HB : s_ptr w (tm h2) <= s_ptr w (tm h2) + s_used w (tm h0) + k + Z.of_nat i < s_ptr w (tm h2) + s_real w (tm h2)) by lia.
    rewrite M3; [|pose proof (side_stack w sl sh _ _ S2 HB) as D; unfold room in Rh; clear - D Rh RR G1; lia|exact (side_us w sl sh _ _ S2 HB)].
    replace (s_ptr w (tm h2) + s_used w (tm h0) + k + Z.of_nat i) with
            (s_ptr w (tm h2) + (s_used w (tm h0) + k + Z.of_nat i)) by lia.
    rewrite K2 by lia. f_equal. lia. }
  split.
  - rewrite L, <- KL. apply TOP. auto.
  - rewrite T, <- KT. rewrite <- (Z.add_0_r (_ + _)), (TOP 0) by auto. f_equal. lia.
Qed.
Print Assumptions C28_signal_refuted.

(** A concrete thread: 16 byte "pages", so that the third nested call enlarges the side
    stack a second time. *)
Definition xw : pworld := mk_pworld 4096 65536 100000 100100 16.
Definition xsl : Z := 1048576.
Definition xsh : Z := 1114112.
Definition xarea : Z := 200000.
Definition xnew : Z := 300000.
Definition xmem : mem := mem_write (fun _ => 0) (xarea + 4) (le_enc 8 xnew).
Definition xregs (toc : Z) (r : Z) : Z :=
  if r =? 1 then 1110000 else if r =? 2 then toc else if (0 <=? r) && (r <? 32) then 1000 * r else 0.
Definition xst (lr toc : Z) : tst := mk_tst (xregs toc) lr 0 false xmem.
(** __tls_get_addr; [ctr]: what becomes of CTR. *)
Definition x_tls (ctr : Z -> Z) (st : tst) : tst :=
  mk_tst (gset (tg st) 3 4096) (t_lr st) (ctr (t_ctr st)) (t_le st) (tm st).
Definition apart (a n b k : Z) : bool := (a + n <=? b) || (b + k <=? a).
Definition x_mmap (m : mem) (n : Z) : option Z :=
  if (0 <=? n) && (n <? 1048576) then
    (if apart (s_ptr xw m) (s_used xw m) 2147483648 n then Some 2147483648
     else if apart (s_ptr xw m) (s_used xw m) 1073741824 n then Some 1073741824 else None)
  else None.
Definition x_env (ctr : Z -> Z) : penv := mk_penv (x_tls ctr) (fun st => st) x_mmap.

Lemma x_world : world_ok xw xsl xsh.
Proof. unfold world_ok, xw, xsl, xsh; cbn [pw_us pw_tramp pw_toc pw_got pw_page]. repeat split; try lia. exists 1. reflexivity. Qed.
Lemma x_mem_bytes x : is_byte (xmem x).
Proof. apply mem_write_bytes; [intros; unfold is_byte; lia|apply le_enc_bytes]. Qed.
Lemma x_wf lr toc : 0 <= lr < 2 ^ 32 -> 0 <= toc < 2 ^ 32 -> wf_st (xst lr toc).
Proof.
  intros. unfold wf_st, xst; cbn [tg t_lr t_ctr t_le tm]. split; [|split; [|split]]; try lia.
  - intros r. unfold xregs. destruct (r =? 1); [lia|]. destruct (r =? 2); [lia|].
    destruct (Z.leb_spec 0 r); cbn [andb]; [|lia]. destruct (Z.ltb_spec r 32); lia.
  - apply x_mem_bytes.
Qed.
Lemma x_fields : s_real xw xmem = 0 /\ s_used xw xmem = 0 /\ s_ptr xw xmem = 0.
Proof. repeat split; vm_compute; reflexivity. Qed.
Lemma x_side : side_ok xw xsl xsh xmem.
Proof.
  unfold side_ok. destruct x_fields as (-> & -> & ->). unfold disjoint, xsl, xsh, xw; cbn [pw_us].
  repeat split; try lia; apply Z.divide_0_r.
Qed.
Lemma x_env_ok : env_ok xw xsl xsh (x_env (fun c => c)).
Proof.
  split; [|split].
  - intros st (W1 & W2 & W3 & W4) _ _ _. cbv zeta; cbn [x_env pe_tls]; unfold x_tls, wf_st, xw; cbn [tg t_lr t_ctr t_le tm pw_us].
    split; [split; [apply gset_rng; [auto|lia]|auto]|]. split; [apply gset_same|].
    split; [intros; rewrite gset_other by lia; auto|auto].
  - intros st W _. cbv zeta; cbn [x_env pe_helper]. auto.
  - intros m n a H. cbn [x_env pe_mmap] in H. unfold x_mmap, apart in H.
    destruct (Z.leb_spec 0 n); cbn [andb] in H; [|discriminate].
    destruct (Z.ltb_spec n 1048576); [|discriminate].
    unfold disjoint, xsl, xsh. cbn [pw_us xw].
    destruct (Z.leb_spec (s_ptr xw m + s_used xw m) 2147483648); cbn [orb] in H.
    { apply Some_inj in H. subst a. repeat split; try lia. }
    destruct (Z.leb_spec (2147483648 + n) (s_ptr xw m)).
    { apply Some_inj in H. subst a. repeat split; try lia. }
    destruct (Z.leb_spec (s_ptr xw m + s_used xw m) 1073741824); cbn [orb] in H.
    { apply Some_inj in H. subst a. repeat split; try lia. }
    destruct (Z.leb_spec (1073741824 + n) (s_ptr xw m)); [|discriminate].
    apply Some_inj in H. subst a. repeat split; try lia.
Qed.

Example C28_case_hyps :
  world_ok xw xsl xsh /\ env_ok xw xsl xsh (x_env (fun c => c)) /\ area_ok xsl xsh xarea /\
  wf_st (xst 7777 8888) /\ room xsl xsh (xst 7777 8888) /\ side_ok xw xsl xsh (tm (xst 7777 8888)) /\
  mmap_grants xw (x_env (fun c => c)) (tm (xst 7777 8888)).
Proof.
  split; [exact x_world|]. split; [exact x_env_ok|].
  split; [unfold area_ok, disjoint, xarea, xsl, xsh; lia|].
  split; [apply x_wf; lia|]. split; [unfold room, xst, xregs, xsl, xsh; cbn; lia|]. split; [exact x_side|].
  intros m Hp Hu. cbn [tm xst] in *. destruct x_fields as (Er & Eu & Ep). rewrite Er, Eu, Ep in *.
  cbn [x_env pe_mmap]. unfold x_mmap. rewrite Hp, Hu. vm_compute. discriminate.
Qed.

(** Three nested calls (return addresses 1001, 1002, 1003; TOCs 2001, 2002, 2003), then
    three returns; the side stack is enlarged at the first and the third. *)
Definition x_call (lr toc r1 : Z) (o : option tst) : option tst :=
  match o with
  | None => None
  | Some st => redirected_entry xw (x_env (fun c => c)) xarea
                 (mk_tst (gset (gset (tg st) 1 r1) 2 toc) lr (t_ctr st) (t_le st) (tm st))
  end.
Definition x_ret (r1 : Z) (o : option tst) : option tst :=
  match o with
  | None => None
  | Some st => tramp_leave xw (x_env (fun c => c)) (mk_tst (gset (tg st) 1 r1) (t_lr st) (t_ctr st) (t_le st) (tm st))
  end.
Definition x_look (o : option tst) : list Z :=
  match o with
  | None => []
  | Some st => [t_lr st; tg st 2; tg st 1; tg st 3; t_ctr st; s_real xw (tm st); s_used xw (tm st)]
  end.
Example C28_case :
  let c1 := x_call 1001 2001 1110000 (Some (xst 1 1)) in
  let c2 := x_call 1002 2002 1109000 c1 in
  let c3 := x_call 1003 2003 1108000 c2 in
  let r3 := x_ret 1108000 c3 in
  let r2 := x_ret 1109000 r3 in
  let r1 := x_ret 1110000 r2 in
  [x_look c3; x_look r3; x_look r2; x_look r1] =
  [[65684; 1003; 1108000; 3000; 300000; 96; 48];
   [1003; 2003; 1108000; 3000; 300000; 96; 32];
   [1002; 2002; 1109000; 3000; 300000; 96; 16];
   [1001; 2001; 1110000; 3000; 300000; 96; 0]].
Proof. vm_compute. reflexivity. Qed.

(** The same, but the second call is left by longjmp: the first one returns to 1002. *)
Example C28_longjmp_case :
  let c1 := x_call 1001 2001 1110000 (Some (xst 1 1)) in
  let c2 := x_call 1002 2002 1109000 c1 in
  let r1 := x_ret 1110000 c2 in
  match r1 with Some st => t_lr st | None => 0 end = 1002.
Proof. vm_compute. reflexivity. Qed.

(** An ABI-conforming __tls_get_addr is not enough: the address of the new function is
    in CTR across the call, and CTR is a volatile register. *)
Theorem C28_tls_abi_refuted :
  exists w sl sh e area st st1,
    world_ok w sl sh /\ tls_abi w sl sh (pe_tls e) /\ helper_ok sl sh (pe_helper e) /\ mmap_ok w sl sh (pe_mmap e) /\
    area_ok sl sh area /\ wf_st st /\ room sl sh st /\ side_ok w sl sh (tm st) /\
    redirected_entry w e area st = Some st1 /\ t_ctr st1 <> ld8 (tm st) (area + 4).
Proof.
  destruct C28_case_hyps as (H1 & (_ & H2b & H2c) & H3 & H4 & H5 & H6 & _).
  destruct (redirected_entry xw (x_env (fun _ => 0)) xarea (xst 7777 8888)) as [st1|] eqn:E.
  2:{ exfalso. assert (X : match redirected_entry xw (x_env (fun _ => 0)) xarea (xst 7777 8888) with Some s => true | None => false end = true)
        by (vm_compute; reflexivity). rewrite E in X. discriminate. }
  exists xw, xsl, xsh, (x_env (fun _ => 0)), xarea, (xst 7777 8888), st1.
  split; [exact H1|]. split.
  { intros st (W1 & W2 & W3 & W4) _ _ _. cbv zeta; cbn [x_env pe_tls]; unfold x_tls, wf_st, xw; cbn [tg t_lr t_ctr t_le tm pw_us].
    split; [split; [apply gset_rng; [auto|lia]|split; [auto|split; [lia|auto]]]|]. split; [apply gset_same|].
    split; [intros; rewrite gset_other by lia; auto|auto]. }
  split; [exact H2b|]. split; [exact H2c|]. split; [exact H3|]. split; [exact H4|]. split; [exact H5|]. split; [exact H6|].
  split; [exact E|].
  assert (X : match redirected_entry xw (x_env (fun _ => 0)) xarea (xst 7777 8888) with Some s => t_ctr s | None => 1 end = 0)
    by (vm_compute; reflexivity).
  rewrite E in X. rewrite X. vm_compute. discriminate.
Qed.
Print Assumptions C28_tls_abi_refuted.
