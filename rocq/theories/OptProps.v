(** Property theorems about the opt-out lists (C43). *)
From Coq Require Import String.
From Verif Require Import Base BaseFacts StrModel TextModel TextSpec TextProofs InsnQModel LibModel LockModel
  OptModel OptSpec OptProofs PcProofs.

Lemma on_path_spec w err : startup_ok w ->
  exists err', disable_on_path w err = Some err' /\
    let P := exists path, ow_exe w = Some path /\ listed (ow_path_env w) (fun e => ow_fnmatch w e path = true) in
    (P -> err' = EUSRBLOCKED) /\ (~ P -> err' = err) /\ (P \/ ~ P).
Proof.
  intros (M & _ & _ & SO). unfold disable_on_path. destruct (ow_path_env w) as [names|] eqn:E.
  - rewrite M. destruct (SO ltac:(discriminate)) as (path & X & L). rewrite X.
    unfold PATH_MAX. destruct (Z.leb_spec 4096 (zlen path)); [lia|].
    destruct (scan_spec (fun e => ow_fnmatch w e path) (S (length names)) names ltac:(lia)) as (b & -> & B).
    assert (Q : (exists path, Some path = ow_exe w /\ listed (Some names) (fun e => ow_fnmatch w e path = true)) <->
                exists e, entry e names /\ ow_fnmatch w e path = true).
    { split.
      - intros (p & E1 & ns & e & E2 & I & F). rewrite X in E1. apply Some_inj in E1. apply Some_inj in E2. subst. eauto.
      - intros (e & I & F). exists path. split; [congruence|]. exists names, e. auto. }
    destruct b.
    + eexists. split; [reflexivity|]. cbv zeta. destruct (proj1 B eq_refl) as (e & I & F).
      assert (PP : exists path0, Some path = Some path0 /\ listed (Some names) (fun e => ow_fnmatch w e path0 = true)).
      { exists path. split; [reflexivity|]. exists names, e. auto. }
      split; [auto|]. split; [contradiction|auto].
    + eexists. split; [reflexivity|]. cbv zeta.
      assert (NP : ~ exists path0, Some path = Some path0 /\ listed (Some names) (fun e => ow_fnmatch w e path0 = true)).
      { intros (p & E1 & ns & e & E2 & I & F). apply Some_inj in E1. apply Some_inj in E2. subst.
        assert (false = true) by (apply B; eauto). discriminate. }
      split; [contradiction|]. auto.
  - eexists. split; [reflexivity|]. cbv zeta.
    assert (NP : ~ exists path0, ow_exe w = Some path0 /\ listed None (fun e => ow_fnmatch w e path0 = true)).
    { intros (p & _ & ns & e & E2 & _). discriminate. }
    split; [contradiction|]. auto.
Qed.

Lemma on_id_spec fnm env id name err : 0 <= id < 2 ^ 32 ->
  exists err', disable_on_id fnm env None id name err = Some err' /\
    let P := listed env (stands_for fnm id name) in
    (P -> err' = EUSRBLOCKED) /\ (~ P -> err' = err) /\ (P \/ ~ P).
Proof.
  intros B. unfold disable_on_id. destruct env as [names|].
  - destruct (scan_spec (id_entry_matches fnm id name) (S (length names)) names ltac:(lia)) as (b & -> & SB).
    assert (Q : listed (Some names) (stands_for fnm id name) <-> b = true).
    { rewrite SB. split.
      - intros (ns & e & E2 & I & F). apply Some_inj in E2. subst. exists e. split; [exact I|].
        apply id_entry_spec; assumption.
      - intros (e & I & F). exists names, e. split; [reflexivity|]. split; [exact I|].
        apply id_entry_spec; assumption. }
    destruct b; (eexists; split; [reflexivity|]); cbv zeta.
    + split; [auto|]. split; [|left; apply Q; reflexivity]. intros N. exfalso. apply N, Q. reflexivity.
    + split; [intros P; apply Q in P; discriminate|]. split; [auto|]. right. intros P. apply Q in P. discriminate.
  - eexists. split; [reflexivity|]. cbv zeta.
    assert (NP : ~ listed None (stands_for fnm id name)) by (intros (ns & e & E2 & _); discriminate).
    split; [contradiction|]. auto.
Qed.

(** C43 for programs whose path is shorter than 4096 bytes (or when no path list
    is given): after start-up libpulp is blocked exactly if an entry of one of
    the three lists matches; otherwise its error state is untouched. *)
Theorem C43_optouts_partial :
  forall w a b,
    startup_ok w -> 0 <= ow_uid w < 2 ^ 32 -> 0 <= ow_gid w < 2 ^ 32 ->
    0 <= a <= 1 -> 0 <= b <= 1 ->
    (opted_out w /\ asunsafe_begin true true (a, b) w 0 = Some EUSRBLOCKED) \/
    (~ opted_out w /\ asunsafe_begin true true (a, b) w 0 = Some 0).
Proof.
  intros w a b S U G A B. unfold asunsafe_begin. cbn [andb negb].
  destruct (Z.leb_spec 0 a), (Z.leb_spec a 1), (Z.leb_spec 0 b), (Z.leb_spec b 1); try lia. cbn [andb].
  destruct (on_path_spec w 0 S) as (e1 & -> & P1 & P2 & P3).
  pose proof S as (_ & -> & -> & _).
  destruct (on_id_spec (ow_fnmatch w) (ow_user_env w) (ow_uid w) (ow_uname w) e1 U) as (e2 & -> & U1 & U2 & U3).
  destruct (on_id_spec (ow_fnmatch w) (ow_group_env w) (ow_gid w) (ow_gname w) e2 G) as (e3 & -> & G1 & G2 & G3).
  cbv zeta in *. unfold opted_out.
  destruct G3 as [G3|G3]; [left; split; [tauto|]; rewrite G1 by exact G3; reflexivity|].
  rewrite (G2 G3).
  destruct U3 as [U3|U3]; [left; split; [tauto|]; rewrite U1 by exact U3; reflexivity|].
  rewrite (U2 U3).
  destruct P3 as [P3|P3]; [left; split; [tauto|]; rewrite P1 by exact P3; reflexivity|].
  rewrite (P2 P3). right. split; [tauto|reflexivity].
Qed.
Print Assumptions C43_optouts_partial.

(** With libdl or libc incomplete the process is marked as broken, whatever the lists
    say. *)
Theorem C43_missing_library : forall libdl libc locks w,
  libdl && libc = false ->
  asunsafe_begin libdl libc locks w 0 = Some (if libc then ENOLIBDL else ENOLIBC).
Proof. intros [|] [|] locks w H; try discriminate; reflexivity. Qed.
Print Assumptions C43_missing_library.

(** A blocked process refuses every request and is not changed by it. *)
Theorem C43_blocked_refuses :
  forall s e m junk buf fuel lib_name st,
    s_err st = EUSRBLOCKED ->
    apply_in s e m junk buf st = Some (s, st, EUSRBLOCKED) /\
    revert_in fuel s e m lib_name st = Some (s, st, EUSRBLOCKED).
Proof.
  intros s e m junk buf fuel lib_name st E. unfold apply_in, revert_in. rewrite E. split; reflexivity.
Qed.
Print Assumptions C43_blocked_refuses.

(** The user "ann" (uid 1000) runs /opt/srv; the lists are as in the comments of
    the code.  fnmatch here only knows patterns without wildcards. *)
Definition ow_ann (users : list Z) : optworld :=
  mk_optworld (Some (zs "/home/x::/tmp/y")) (Some users) None None None None
    (Some (zs "/opt/srv")) 1000 (Some (zs "ann")) 100 None (fun p s => bytes_eqb p s).

Example C43_missing_library_case : asunsafe_begin false true (0, 0) (ow_ann (zs "ann")) 0 = Some ENOLIBDL /\ ENOLIBDL <> 0.
Proof. split; [reflexivity|discriminate]. Qed.

Example C43_case :
  startup_ok (ow_ann (zs "root:1000")) /\
  asunsafe_begin true true (0, 0) (ow_ann (zs "root:1000")) 0 = Some EUSRBLOCKED /\
  asunsafe_begin true true (0, 0) (ow_ann (zs ":bob::ann")) 0 = Some EUSRBLOCKED /\
  asunsafe_begin true true (0, 0) (ow_ann (zs "root:10000:anne")) 0 = Some 0 /\
  opted_out (ow_ann (zs "root:1000")).
Proof.
  split; [|split; [vm_compute; reflexivity|split; [vm_compute; reflexivity|split; [vm_compute; reflexivity|]]]].
  - repeat split. intros _. exists (zs "/opt/srv"). split; [reflexivity|]. reflexivity.
  - right. left. exists (zs "root:1000"), (zs "1000"). split; [reflexivity|]. split.
    + split; [discriminate|]. split; [cbn; lia|]. exists (zs "root:"), []. split; [reflexivity|].
      split; [right; exists (zs "root"); reflexivity|left; reflexivity].
    + left. change 1000 with (dec_val (zs "1000")). apply digits_decimal; [reflexivity|discriminate].
Qed.

(** With a path list, a program whose path cannot be read or has PATH_MAX bytes
    makes libpulp write outside its buffer. *)
Theorem C43_long_path_refuted :
  exists w, ow_path_env w <> None /\ (exists path, ow_exe w = Some path /\ zlen path = 4096) /\
    asunsafe_begin true true (0, 0) w 0 = None /\
  exists w2, ow_path_env w2 <> None /\ ow_exe w2 = None /\ asunsafe_begin true true (0, 0) w2 0 = None.
Proof.
  exists (mk_optworld (Some (zs "/tmp/*")) None None None None None (Some (repeat 97 (Z.to_nat 4096))) 0 None 0 None
            (fun _ _ => false)).
  split; [discriminate|]. split.
  - eexists. split; [reflexivity|]. unfold zlen. rewrite repeat_length. lia.
  - split.
    + unfold asunsafe_begin. cbn [andb negb Z.leb Z.compare]. unfold disable_on_path.
      cbn [ow_path_env ow_path_malloc ow_exe].
      replace (zlen (repeat 97 (Z.to_nat 4096))) with 4096
        by (unfold zlen; rewrite repeat_length, Z2Nat.id by lia; reflexivity).
      reflexivity.
    + exists (mk_optworld (Some (zs "/tmp/*")) None None None None None None 0 None 0 None (fun _ _ => false)).
      split; [discriminate|]. split; reflexivity.
Qed.
Print Assumptions C43_long_path_refuted.

(** An opt-out replaces an error found at start-up (here: the linker's locks look
    wrong, which is meant to disable patching for good), and enabling patching
    again then clears it. *)
Theorem C43_optout_hides_error_refuted :
  exists w, asunsafe_begin true true (7, 0) w 0 = Some EUSRBLOCKED /\
    (forall st, s_err st = EUSRBLOCKED -> s_err (fst (ulp_enable_or_disable_patching st)) = 0) /\
  exists w2, asunsafe_begin true true (7, 0) w2 0 = Some EUNKNOWN /\
    (forall st, s_err st = EUNKNOWN -> s_err (fst (ulp_enable_or_disable_patching st)) = EUNKNOWN).
Proof.
  exists (ow_ann (zs "ann")). split; [vm_compute; reflexivity|]. split.
  - intros st E. unfold ulp_enable_or_disable_patching. rewrite E. reflexivity.
  - exists (ow_ann (zs "bob")). split; [vm_compute; reflexivity|].
    intros st E. unfold ulp_enable_or_disable_patching. rewrite E. exact E.
Qed.
Print Assumptions C43_optout_hides_error_refuted.

(** What one list does to the error state [err]: nothing if the variable is not set; if there is no memory for a copy of it, errno
    becomes the error state; otherwise a matching entry blocks the process. *)
Inductive list_effect (env : option (list Z)) (nomem : option Z) (hit : Prop) (err : Z) : Z -> Prop :=
| eff_unset : env = None -> list_effect env nomem hit err err
| eff_nomem names errno : env = Some names -> nomem = Some errno -> list_effect env nomem hit err errno
| eff_hit names : env = Some names -> nomem = None -> hit -> list_effect env nomem hit err EUSRBLOCKED
| eff_miss names : env = Some names -> nomem = None -> ~ hit -> list_effect env nomem hit err err.

(** The path of the program is needed but cannot be read, or does not fit. *)
Definition path_trouble (w : optworld) : Prop :=
  ow_path_env w <> None /\ ow_path_malloc w = None /\ forall path, ow_exe w = Some path -> 4096 <= zlen path.

Definition lock_word (a : Z) : Prop := a = 0 \/ a = 1.

Lemma list_effect_det env nomem hit err e e' :
  list_effect env nomem hit err e -> list_effect env nomem hit err e' -> e = e'.
Proof. intros [A|n x A B|n A B C|n A B C] [A'|n' x' A' B'|n' A' B' C'|n' A' B' C']; congruence || tauto. Qed.

Lemma on_id_effect fnm env nomem id name err : 0 <= id < 2 ^ 32 ->
  exists e, disable_on_id fnm env nomem id name err = Some e /\
    list_effect env nomem (listed env (stands_for fnm id name)) err e.
Proof.
  intros B. destruct nomem as [x|].
  - unfold disable_on_id. destruct env as [names|]; eexists; (split; [reflexivity|]); [eapply eff_nomem|apply eff_unset]; reflexivity.
  - destruct (on_id_spec fnm env id name err B) as (e & E & P1 & P2 & P3). exists e. split; [exact E|]. cbv zeta in *.
    destruct env as [names|].
    + destruct P3 as [P|P]; [rewrite (P1 P); eapply eff_hit|rewrite (P2 P); eapply eff_miss]; auto.
    + unfold disable_on_id in E. injection E as <-. apply eff_unset. reflexivity.
Qed.

Lemma on_path_effect w err :
  (path_trouble w /\ disable_on_path w err = None) \/
  (~ path_trouble w /\ exists e, disable_on_path w err = Some e /\
     list_effect (ow_path_env w) (ow_path_malloc w)
       (exists path, ow_exe w = Some path /\ listed (ow_path_env w) (fun e => ow_fnmatch w e path = true)) err e).
Proof.
  unfold disable_on_path, path_trouble. destruct (ow_path_env w) as [names|].
  2:{ right. split; [intros (X & _); apply X; reflexivity|]. eexists. split; [reflexivity|]. apply eff_unset. reflexivity. }
  destruct (ow_path_malloc w) as [x|].
  { right. split; [intros (_ & X & _); discriminate|]. eexists. split; [reflexivity|]. eapply eff_nomem; reflexivity. }
  destruct (ow_exe w) as [path|].
  2:{ left. split; [|reflexivity]. split; [discriminate|]. split; [reflexivity|]. intros p X. discriminate. }
  unfold PATH_MAX. destruct (Z.leb_spec 4096 (zlen path)) as [L|L].
  { left. split; [|reflexivity]. split; [discriminate|]. split; [reflexivity|]. intros p X. injection X as <-. exact L. }
  right. split; [intros (_ & _ & X); specialize (X path eq_refl); lia|].
  destruct (scan_spec (fun e => ow_fnmatch w e path) (S (length names)) names ltac:(lia)) as (b & -> & B).
  assert (Q : (exists p, Some path = Some p /\ listed (Some names) (fun e => ow_fnmatch w e p = true)) <-> b = true).
  { rewrite B. split.
    - intros (p & E1 & ns & e & E2 & I & F). injection E1 as <-. injection E2 as <-. eauto.
    - intros (e & I & F). exists path. split; [reflexivity|]. exists names, e. auto. }
  destruct b; (eexists; split; [reflexivity|]).
  - eapply eff_hit; [reflexivity|reflexivity|]. apply Q. reflexivity.
  - eapply eff_miss; [reflexivity|reflexivity|]. intros X. apply Q in X. discriminate.
Qed.

(** C43, exactly what start-up leaves as the error state, with no condition on the lists, the memory, the libraries, the
    locks and the path. It writes outside its buffer exactly in the trouble with the path. *)
Theorem C43_exact :
  forall libdl libc a b w err, 0 <= ow_uid w < 2 ^ 32 -> 0 <= ow_gid w < 2 ^ 32 ->
    (asunsafe_begin libdl libc (a, b) w err = None <-> libdl = true /\ libc = true /\ path_trouble w) /\
    (forall e, asunsafe_begin libdl libc (a, b) w err = Some e <->
       (libc = false /\ e = ENOLIBC) \/ (libc = true /\ libdl = false /\ e = ENOLIBDL) \/
       (libdl = true /\ libc = true /\ ~ path_trouble w /\
        exists e0 e1 e2,
          ((lock_word a /\ lock_word b /\ e0 = err) \/ (~ (lock_word a /\ lock_word b) /\ e0 = EUNKNOWN)) /\
          list_effect (ow_path_env w) (ow_path_malloc w)
            (exists path, ow_exe w = Some path /\ listed (ow_path_env w) (fun e => ow_fnmatch w e path = true)) e0 e1 /\
          list_effect (ow_user_env w) (ow_user_malloc w)
            (listed (ow_user_env w) (stands_for (ow_fnmatch w) (ow_uid w) (ow_uname w))) e1 e2 /\
          list_effect (ow_group_env w) (ow_group_malloc w)
            (listed (ow_group_env w) (stands_for (ow_fnmatch w) (ow_gid w) (ow_gname w))) e2 e)).
Proof.
  intros libdl libc a b w err U G. unfold asunsafe_begin.
  destruct libc; [|rewrite Bool.andb_false_r; cbn [negb]; split;
    [split; [discriminate|intros (_ & X & _); discriminate]|];
    intros e; split; [intros X; injection X as <-; auto|];
    intros [[_ ->]|[[X _]|(_ & X & _)]]; [reflexivity|discriminate|discriminate]].
  destruct libdl; [|cbn [andb negb]; split; [split; [discriminate|intros (X & _); discriminate]|];
    intros e; split; [intros X; injection X as <-; auto|];
    intros [[X _]|[(_ & _ & ->)|(X & _)]]; [discriminate|reflexivity|discriminate]].
  cbn [andb negb].
  set (e0 := if (_ : bool) then err else EUNKNOWN).
  assert (E0 : forall e, ((lock_word a /\ lock_word b /\ e = err) \/ (~ (lock_word a /\ lock_word b) /\ e = EUNKNOWN)) <-> e = e0).
  { intros e. unfold e0, lock_word.
    destruct (Z.leb_spec 0 a), (Z.leb_spec a 1), (Z.leb_spec 0 b), (Z.leb_spec b 1); cbn [andb]; split; intros X; try (intuition lia);
      first [left; split; [lia|]; split; [lia|]; exact X | right; split; [lia|]; exact X]. }
  clearbody e0.
  destruct (on_path_effect w e0) as [[T ->]|[T (e1 & -> & F1)]].
  { split; [split; auto|]. intros e. split; [discriminate|]. intros [[X _]|[(_ & X & _)|(_ & _ & X & _)]]; [discriminate|discriminate|contradiction]. }
  destruct (on_id_effect (ow_fnmatch w) (ow_user_env w) (ow_user_malloc w) (ow_uid w) (ow_uname w) e1 U) as (e2 & -> & F2).
  destruct (on_id_effect (ow_fnmatch w) (ow_group_env w) (ow_group_malloc w) (ow_gid w) (ow_gname w) e2 G) as (e3 & -> & F3).
  split; [split; [discriminate|intros (_ & _ & X); contradiction]|].
  intros e. split.
  - intros X. injection X as <-. right. right. repeat (split; [reflexivity|]). split; [exact T|].
    exists e0, e1, e2. split; [apply E0; reflexivity|]. auto.
  - intros [[X _]|[(_ & X & _)|(_ & _ & _ & e0' & e1' & e2' & X0 & X1 & X2 & X3)]]; [discriminate|discriminate|].
    apply E0 in X0. subst e0'. rewrite (list_effect_det _ _ _ _ _ _ X1 F1) in X2. rewrite (list_effect_det _ _ _ _ _ _ X2 F2) in X3.
    rewrite (list_effect_det _ _ _ _ _ _ X3 F3). reflexivity.
Qed.
Print Assumptions C43_exact.
