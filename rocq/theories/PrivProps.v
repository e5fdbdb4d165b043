(** C76: privileges are checked before anything is touched. *)
From Coq Require Import String.
From Verif Require Import Base BaseFacts StrModel TextModel MapModel IntrSpec MapProofs CliModel CliSpec CliProofs PrivModel PrivSpec.

(** A command that looks into processes is started only if tracing is allowed:
    for every command line, user and setting of Yama. *)
Theorem C76_tracing_allowed :
  forall stack euid scope argv c a, setting_ok scope ->
    ulp_main stack euid scope argv = Started c a -> looks_inside c = true -> may_trace euid scope.
Proof.
  intros stack euid scope argv c a SO H LI. unfold ulp_main in H.
  destruct (parse_args stack argv) as [a0|o] eqn:P.
  - destruct (a_command a0) as [c0|]; [|discriminate].
    destruct (requires_ptrace c0) eqn:RP.
    + unfold check_ptrace_scope in H. unfold may_trace. destruct (Z.eqb_spec euid 0) as [->|NE]; [left; reflexivity|].
      destruct scope as [s|]; [|right; left; reflexivity]. destruct SO as (d & D & ->).
      change (Z.min (zlen [d; 10]) 4 =? 2) with true in H. cbn [nth] in H.
      destruct (Z.eqb_spec d 48) as [->|N]; [right; right; reflexivity|discriminate].
    + injection H as <- <-. destruct c0; discriminate.
  - subst o. unfold parse_args in P. destruct (getopt _ (tl argv)) as [es ar].
    destruct (run_opts no_arguments es) as [a1|o] eqn:R.
    + apply run_args_stop in P. discriminate.
    + injection P as ->. apply run_opts_shown in R. destruct R; discriminate.
Qed.
Print Assumptions C76_tracing_allowed.

(** A command that does not look into processes is started whatever the setting
    of Yama, even if it is nonsense. *)
Theorem C76_others_unaffected :
  forall stack euid scope euid' scope' argv c a,
    looks_inside c = false ->
    ulp_main stack euid scope argv = Started c a <-> ulp_main stack euid' scope' argv = Started c a.
Proof.
  intros stack euid scope euid' scope' argv c a LI.
  assert (G : forall e s e' s', ulp_main stack e s argv = Started c a -> ulp_main stack e' s' argv = Started c a).
  { intros e s e' s' H. unfold ulp_main in *.
    destruct (parse_args stack argv) as [a0|o]; [|exact H].
    destruct (a_command a0) as [c0|]; [|exact H].
    destruct (requires_ptrace c0) eqn:RP; [|exact H]. exfalso.
    destruct (check_ptrace_scope e s) as [[|]|]; try discriminate. injection H as <- _. destruct c0; discriminate. }
  split; apply G.
Qed.
Print Assumptions C76_others_unaffected.

Example C76_tracing_case :
  ulp_main false 1000 (Some [49; 10]) [zs "ulp"; zs "patches"] = NotPermitted /\
  (exists a, ulp_main false 0 (Some [49; 10]) [zs "ulp"; zs "patches"] = Started Patches a) /\
  (exists a, ulp_main false 1000 (Some [49; 10]) [zs "ulp"; zs "dump"; zs "fix.so"] = Started Dump a) /\
  setting_ok (Some [49; 10]) /\ ~ may_trace 1000 (Some [49; 10]).
Proof.
  split; [reflexivity|]. split; [eexists; reflexivity|]. split; [eexists; reflexivity|].
  split; [exists 49; split; [lia|reflexivity]|]. intros [H|[H|H]]; discriminate.
Qed.

Lemma is_sep_blank c : is_sep c = true <-> blank c.
Proof. unfold is_sep, blank. lia. Qed.
Lemma span_word w : forall s r, (forall c, In c w -> ~ blank c) -> is_sep s = true -> span_seps (w ++ s :: r) = (w, r).
Proof.
  induction w as [|c w IH]; intros s r N S; cbn [app span_seps]; [rewrite S; reflexivity|].
  destruct (is_sep c) eqn:E; [apply is_sep_blank in E; exfalso; apply (N c); [left; reflexivity|exact E]|].
  rewrite IH; [reflexivity|intros x X; apply N; right; exact X|exact S].
Qed.
Lemma strtok_word w s r : w <> [] -> (forall c, In c w -> ~ blank c) -> is_sep s = true ->
  strtok_blank (w ++ s :: r) = Some (w, r).
Proof.
  intros NE N S. unfold strtok_blank. destruct w as [|c w]; [contradiction|]. cbn [app skip_seps].
  destruct (is_sep c) eqn:E; [apply is_sep_blank in E; exfalso; apply (N c); [left; reflexivity|exact E]|].
  change (c :: w ++ s :: r) with ((c :: w) ++ s :: r). rewrite span_word; auto.
Qed.
Lemma hex_not_blank s c : hexnum s -> In c s -> ~ blank c.
Proof. intros (_ & H & _) I. rewrite Forall_forall in H. specialize (H c I). unfold IntrSpec.hexdigit, blank in *. lia. Qed.

Lemma cap_loop_permitted file digits : permitted file digits ->
  cap_loop file = Some (has_sys_admin (hexval digits)).
Proof.
  intros (before & after & -> & O & HX). induction O as [|l before OL O IH]; cbn [app].
  - cbn [cap_loop]. unfold status_line. rewrite strtok_word; [|discriminate| |reflexivity].
    2: { intros c C. cbn in C. unfold blank. repeat (destruct C as [<-|C]; [lia|]). contradiction. }
    rewrite bytes_eqb_refl. pose proof HX as (NE & HD & _).
    rewrite strtok_word; [|exact NE|intros c C; eapply hex_not_blank; eassumption|reflexivity].
    pose proof (hex_scan_digits digits [] HD ltac:(discriminate) 0) as HS. rewrite app_nil_r in HS.
    destruct digits as [|d ds]; [contradiction|]. inversion HD as [|? ? HD1 HD2]; subst.
    rewrite (unhex_digit d HD1). f_equal. unfold strtoul16_end. rewrite HS. cbn [fst].
    destruct HX as (_ & _ & B). fold (hexval (d :: ds)). rewrite Z.min_l by lia. unfold has_sys_admin.
    change (Z.shiftl 1 21) with (2 ^ 21). set (v := hexval (d :: ds)). clearbody v.
    destruct (Z.testbit v 21) eqn:T.
    + assert (Z.land v (2 ^ 21) <> 0); [|destruct (Z.eqb_spec (Z.land v (2 ^ 21)) 0); [contradiction|reflexivity]].
      intros Z0. apply (f_equal (fun x => Z.testbit x 21)) in Z0. rewrite Z.land_spec, T in Z0.
      rewrite Z.pow2_bits_true in Z0 by lia. discriminate.
    + assert (Z.land v (2 ^ 21) = 0) as ->; [|reflexivity].
      apply Z.bits_inj'. intros n N. rewrite Z.land_spec, Z.bits_0. rewrite Z.pow2_bits_eqb by lia.
      destruct (Z.eqb_spec 21 n) as [<-|]; [rewrite T; reflexivity|apply andb_false_r].
  - destruct OL as (name & rest & -> & NE & NB & NN). cbn [cap_loop]. unfold status_line at 1.
    rewrite strtok_word by (auto; reflexivity). rewrite (proj2 (bytes_eqb_neq _ _) NN). exact IH.
Qed.

(** --disable-seccomp: the trigger goes on exactly if CAP_SYS_ADMIN is among the
    permitted capabilities of the tool, and is otherwise refused with EPERM. *)
Theorem C76_seccomp_partial :
  forall a file digits,
    a_user a = None -> a_noseccomp a = true -> permitted file digits ->
    run_trigger_start a (Some file) = if has_sys_admin (hexval digits) then T_go else T_error 1.
Proof.
  intros a file digits U S P. unfold run_trigger_start, check_sys_admin. rewrite U, S, (cap_loop_permitted _ _ P).
  destruct (has_sys_admin (hexval digits)); reflexivity.
Qed.
Print Assumptions C76_seccomp_partial.

(** Without the option, or without a readable status file, it is as one expects. *)
Theorem C76_seccomp_others :
  forall a status, a_user a = None ->
    (a_noseccomp a = false -> run_trigger_start a status = T_go) /\
    (a_noseccomp a = true -> run_trigger_start a None = T_error 1).
Proof. intros a status U. unfold run_trigger_start. rewrite U. split; intros ->; reflexivity. Qed.
Print Assumptions C76_seccomp_others.

(** A status file that says nothing about the capabilities gives no permission. *)
Theorem C76_seccomp_no_line :
  forall a file, a_user a = None -> a_noseccomp a = true -> Forall other_line file ->
    run_trigger_start a (Some file) = T_error 1.
Proof.
  intros a file U S F. unfold run_trigger_start, check_sys_admin. rewrite U, S.
  assert (E : cap_loop file = Some false); [|rewrite E; reflexivity].
  induction F as [|l file OL F IH]; [reflexivity|].
  destruct OL as (name & rest & -> & NE & NB & NN). cbn [cap_loop]. unfold status_line at 1.
  rewrite strtok_word by (auto; reflexivity). rewrite (proj2 (bytes_eqb_neq _ _) NN). exact IH.
Qed.
Print Assumptions C76_seccomp_no_line.
Example C76_seccomp_no_line_case : Forall other_line [status_line (zs "Name:") (zs "ulp"); status_line (zs "CapEff:") (zs "000001ffffffffff")].
Proof.
  repeat apply Forall_cons; try apply Forall_nil; do 2 eexists; (split; [reflexivity|]); (split; [discriminate|]);
    (split; [|discriminate]); intros c C; cbn in C; unfold blank; repeat (destruct C as [<-|C]; [lia|]); contradiction.
Qed.

(** Finding: `ulp trigger` offers -u, but with it nothing is patched; it always fails,
    whatever the privileges. *)
Theorem C76_trigger_user_refuted :
  forall a u status, a_user a = Some u -> run_trigger_start a status = T_error 38.
Proof. intros a u status U. unfold run_trigger_start. rewrite U. reflexivity. Qed.
Print Assumptions C76_trigger_user_refuted.
Example C76_trigger_user_refuted_case :
  exists a, ulp_main false 0 None [zs "ulp"; zs "trigger"; zs "-u"; zs "ann"; zs "fix.so"] = Started Trigger a /\
    a_user a = Some (zs "ann").
Proof. eexists. split; [vm_compute; reflexivity|reflexivity]. Qed.

Definition status_example (prm eff : string) : list (list Z) :=
  [status_line (zs "Name:") (zs "ulp"); status_line (zs "Uid:") (zs "0"); status_line (zs "CapInh:") (zs "0000000000000000");
   status_line (zs "CapPrm:") (zs prm); status_line (zs "CapEff:") (zs eff)].
Example C76_seccomp_case :
  permitted (status_example "000001ffffffffff" "000001ffffffffff") (zs "000001ffffffffff") /\
  cap_loop (status_example "000001ffffffffff" "000001ffffffffff") = Some true /\
  cap_loop (status_example "0000000000080000" "0000000000080000") = Some false.
Proof.
  split; [|split; reflexivity].
  exists [status_line (zs "Name:") (zs "ulp"); status_line (zs "Uid:") (zs "0"); status_line (zs "CapInh:") (zs "0000000000000000")],
    [status_line (zs "CapEff:") (zs "000001ffffffffff")].
  split; [reflexivity|]. split.
  - repeat apply Forall_cons; try apply Forall_nil; do 2 eexists; (split; [reflexivity|]); (split; [discriminate|]);
      (split; [|discriminate]); intros c C; cbn in C; unfold blank; repeat (destruct C as [<-|C]; [lia|]); contradiction.
  - split; [discriminate|]. split; [|vm_compute; reflexivity].
    cbn. repeat apply Forall_cons; try apply Forall_nil; unfold IntrSpec.hexdigit; lia.
Qed.

(** Finding: the kernel asks for the effective capability, the tool looks at the
    permitted ones. A capability that is permitted but not effective passes the
    check. *)
Theorem C76_effective_refuted :
  exists file prm eff, permitted file prm /\ In (status_line (zs "CapEff:") eff) file /\
    has_sys_admin (hexval eff) = false /\
    forall a, a_user a = None -> a_noseccomp a = true -> run_trigger_start a (Some file) = T_go.
Proof.
  exists (status_example "000001ffffffffff" "0000000000000000"), (zs "000001ffffffffff"), (zs "0000000000000000").
  assert (P : permitted (status_example "000001ffffffffff" "0000000000000000") (zs "000001ffffffffff")).
  { destruct C76_seccomp_case as [(b & a & E & O & H) _].
    exists [status_line (zs "Name:") (zs "ulp"); status_line (zs "Uid:") (zs "0"); status_line (zs "CapInh:") (zs "0000000000000000")],
      [status_line (zs "CapEff:") (zs "0000000000000000")].
    split; [reflexivity|]. split; [|exact H].
    repeat apply Forall_cons; try apply Forall_nil; do 2 eexists; (split; [reflexivity|]); (split; [discriminate|]);
      (split; [|discriminate]); intros c C; cbn in C; unfold blank; repeat (destruct C as [<-|C]; [lia|]); contradiction. }
  split; [exact P|]. split; [do 4 right; left; reflexivity|]. split; [reflexivity|].
  intros a U S. rewrite (C76_seccomp_partial a _ _ U S P). reflexivity.
Qed.
Print Assumptions C76_effective_refuted.
