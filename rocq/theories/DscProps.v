(** C47: description files are translated faithfully (tools/packer.c). *)
From Coq Require Import String.
From Verif Require Import Base BaseFacts MetaModel StrModel DscModel DscSpec DscProofs.

(** A well-formed description whose files can be read and whose names all exist is
    translated: one unit per replacement line, in order, with the value of the
    replaced function; the references and the dependencies likewise (the lists
    are recorded in reverse file order); the name and the build id of the target. *)
Theorem C47_faithful : forall e id d container target ids,
  desc_ok d -> no_overrides e ->
  readable e (dd_container d) container -> readable e (dd_target d) target ->
  Forall2 (dep_means e) (dd_deps d) ids ->
  Forall (item_exists container target) (dd_body d) ->
  exists pm cm, pack e id (file_of d) = D_ok (pm, cm) /\
    pm_id pm = id /\ pm_name pm = si_name target /\ pm_bid pm = si_bid target /\ pm_bid_len pm = 20 /\
    Forall2 (unit_means target) (funcs_of (dd_body d)) (pm_units pm) /\
    Forall2 (ref_means container target) (refs_of (dd_body d)) (rev (pm_refs pm)) /\
    rev (pm_deps pm) = ids /\
    pm_nunits pm = zlen (pm_units pm) /\ pm_nrefs pm = zlen (pm_refs pm) /\ pm_ndeps pm = zlen (pm_deps pm).
Proof.
  intros e id d container target ids D O Rc Rt Hd Hx.
  pose proof (pack_desc e id d container target ids D O Rc Rt Hd) as P.
  destruct (items_step container target (dd_body d) [] []) as [[us rs]|] eqn:S.
  2:{ exfalso. revert S. apply items_step_exists, item_exists_names, Hx. }
  destruct P as (cb & _ & ->). destruct (finish_ok e id container target _ us rs (rev ids) cb S Hx) as (us' & rs' & -> & F1 & F2).
  eexists _, _. split; [reflexivity|]. cbn. rewrite rev_involutive. auto 12.
Qed.
Print Assumptions C47_faithful.

(** A well-formed description naming a function or a variable that does not exist
    is refused, wherever the line is. *)
Theorem C47_missing_refused : forall e id d container target ids,
  desc_ok d -> no_overrides e ->
  readable e (dd_container d) container -> readable e (dd_target d) target ->
  Forall2 (dep_means e) (dd_deps d) ids ->
  (exists o n, In (DFunc o n) (dd_body d) /\ (~ has_symbol (si_syms target) o \/ ~ has_symbol (si_syms container) n)) \/
  (exists tls t n, In (DRef tls t n) (dd_body d) /\ (~ has_symbol (si_syms target) t \/ ~ has_symbol (si_syms container) n)) ->
  pack e id (file_of d) = D_err.
Proof.
  intros e id d container target ids D O Rc Rt Hd Hm.
  pose proof (pack_desc e id d container target ids D O Rc Rt Hd) as P.
  rewrite items_step_missing in P; [exact P|]. apply Exists_exists.
  destruct Hm as [(o & n & Hi & Hn)|(tls & t & n & Hi & Hn)]; eexists; (split; [exact Hi|]); cbn; tauto.
Qed.
Print Assumptions C47_missing_refused.

(** For every file, well-formed or not, and whatever the options: if the packer
    succeeds, every replacement it recorded exists, in the target and in the
    container it read, with the right value. *)
Theorem C47_nothing_invented : forall e id f pm cm,
  pack e id f = D_ok (pm, cm) ->
  exists cpath container tpath target,
    de_info e cpath = Some container /\ de_info e tpath = Some target /\
    pm_name pm = si_name target /\ pm_bid pm = si_bid target /\
    Forall (fun u => symbol_at (si_syms target) (u_old u) (u_addr u) /\
                     has_symbol (si_syms container) (u_new u)) (pm_units pm).
Proof. exact pack_exists. Qed.
Print Assumptions C47_nothing_invented.

(** The comments that are recorded: every comment line is followed by one byte that
    the packer never wrote, and the text ends at the first NUL. *)
Theorem C47_comments_partial : forall e id d container target ids pm cm,
  desc_ok d -> no_overrides e ->
  readable e (dd_container d) container -> readable e (dd_target d) target ->
  Forall2 (dep_means e) (dd_deps d) ids ->
  pack e id (file_of d) = D_ok (pm, cm) ->
  (desc_comments d = [] -> cm = None) /\
  (forall t rest, desc_comments d = t :: rest ->
     exists more, cm = Some (with_newline t ++ more)).
Proof.
  intros e id d container target ids pm cm D O Rc Rt Hd HP.
  pose proof (pack_desc e id d container target ids D O Rc Rt Hd) as P.
  destruct (items_step container target (dd_body d) [] []) as [[us rs]|] eqn:S; [|congruence].
  destruct P as (cb & Hcb & EP). rewrite EP in HP. unfold finish in HP.
  destruct (get_target_addrs target us); [|discriminate]. destruct (get_target_ref_addrs target rs); [|discriminate].
  assert (E : comment_text cb = cm) by congruence.
  rewrite (comment_text_holds _ _ _ Hcb) in E. split.
  - intros H. rewrite H in E. congruence.
  - intros t rest H. rewrite H in E.
    assert (Ht : cstr_ok t).
    { assert (In t (desc_comments d)) as Hi by (rewrite H; left; reflexivity).
      destruct D as [[H1 _] _ _ [H4 _] _ H6]. unfold desc_comments, comments_of in Hi.
      rewrite !in_app_iff, !in_flat_map in Hi. rewrite Forall_forall in H1, H4, H6.
      destruct Hi as [(i & Hi & Hin)|[(i & Hi & Hin)|(i & Hi & Hin)]];
        [apply H1 in Hi|apply H4 in Hi|apply H6 in Hi]; destruct i; try contradiction; destruct Hin as [<-|[]]; apply Hi. }
    cbn [comment_bytes] in E. change (t ++ [10] ++ ?x) with (t ++ ([10] ++ x)) in E. rewrite app_assoc in E.
    fold (with_newline t) in E. rewrite cstr_z_app in E by (apply Forall_app; split; [exact Ht|constructor; [unfold is_cchar; lia|constructor]]).
    eexists. symmetry. exact E.
Qed.
Print Assumptions C47_comments_partial.

(** With exactly two comment lines the recorded text is never the text of the two
    lines, whatever the memory held: it is cut after the first line, or it
    contains a byte that is in no comment. *)
Theorem C47_comments_refuted : forall e id d container target ids pm cm a b,
  desc_ok d -> no_overrides e ->
  readable e (dd_container d) container -> readable e (dd_target d) target ->
  Forall2 (dep_means e) (dd_deps d) ids ->
  desc_comments d = [a; b] ->
  pack e id (file_of d) = D_ok (pm, cm) ->
  cm <> Some (with_newline a ++ with_newline b) /\
  ((forall x, de_junk e x = 0) -> cm = Some (with_newline a)).
Proof.
  intros e id d container target ids pm cm a b D O Rc Rt Hd HC HP.
  pose proof (pack_desc e id d container target ids D O Rc Rt Hd) as P.
  destruct (items_step container target (dd_body d) [] []) as [[us rs]|] eqn:S; [|congruence].
  destruct P as (cb & Hcb & EP). rewrite EP in HP. unfold finish in HP.
  destruct (get_target_addrs target us); [|discriminate]. destruct (get_target_ref_addrs target rs); [|discriminate].
  assert (E : comment_text cb = cm) by congruence.
  rewrite (comment_text_holds _ _ _ Hcb), HC in E.
  assert (Hab : cstr_ok (with_newline a) /\ cstr_ok (with_newline b)).
  { assert (G : forall t, In t (desc_comments d) -> cstr_ok (with_newline t)).
    { intros t Hi. apply Forall_app. split; [|constructor; [unfold is_cchar; lia|constructor]]. eapply comment_line_ok; eassumption. }
    rewrite HC in G. split; apply G; [left|right; left]; reflexivity. }
  destruct Hab as [Ha Hb]. cbn [comment_bytes] in E.
  set (j1 := de_junk e _) in E. set (j2 := de_junk e _) in E.
  replace (a ++ [10] ++ [j1] ++ b ++ [10] ++ [j2] ++ []) with (with_newline a ++ j1 :: with_newline b ++ [j2]) in E
    by (unfold with_newline; rewrite <- !app_assoc; reflexivity).
  rewrite cstr_z_app in E by exact Ha. cbn [cstr_z] in E. split.
  - rewrite <- E. intros C. apply Some_inj in C. apply app_inv_head in C.
    assert (L : zlen (with_newline b) = zlen b + 1) by apply zlen_line. pose proof (zlen_nonneg b) as Lb.
    destruct (j1 =? 0).
    + rewrite <- C in L. change (zlen (@nil Z)) with 0 in L. lia.
    + rewrite cstr_z_app in C by exact Hb. apply (f_equal zlen) in C. rewrite zlen_cons, zlen_app in C.
      pose proof (zlen_nonneg (cstr_z [j2])). lia.
  - intros Hz. rewrite <- E. unfold j1. rewrite Hz. cbn [Z.eqb]. rewrite app_nil_r. reflexivity.
Qed.
Print Assumptions C47_comments_refuted.

(** ** Malformed lines *)

(** A line "#name" without ':', or "#a:b:c" with a single offset, after any
    well-formed description, crashes the packer instead of being refused. *)
Theorem C47_reference_crash_refuted : forall e id d container target ids text,
  desc_ok d -> no_overrides e ->
  readable e (dd_container d) container -> readable e (dd_target d) target ->
  Forall2 (dep_means e) (dd_deps d) ids ->
  Forall (item_exists container target) (dd_body d) ->
  text_ok text ->
  ~ In 58 text \/ (exists a b c, text = a ++ 58 :: b ++ 58 :: c /\ ~ In 58 a /\ ~ In 58 b /\ ~ In 58 c /\ ~ starts_with a 37) ->
  pack e id (file_of d ++ with_newline (35 :: text)) = D_crash.
Proof.
  intros e id d container target ids text D O Rc Rt Hd Hx Ht Hs.
  eapply pack_extra_crash; eauto using item_exists_names.
  - apply text_ok_cons. split; [lia|exact Ht].
  - intros ds Tds. unfold read_line. cbn [with_newline app]. change (35 =? NL) with false.
    change (35 =? BANG) with false. change (35 =? AT) with false. change (35 =? HASH) with true. cbv iota.
    rewrite Tds. change (35 :: text ++ [10]) with (with_newline (35 :: text)).
    rewrite chomp_line by (constructor; [unfold is_cchar; lia|apply Ht]).
    replace (read_ref container target (35 :: text)) with (@D_crash pref); [reflexivity|].
    unfold read_ref. destruct Hs as [Hs|(a & b & c & -> & Ha & Hb & Hc & Hp)].
    + destruct text as [|x t]; [reflexivity|]. destruct (x =? PERCENT).
      * rewrite split_colon_none; [reflexivity|]. intros C. apply Hs. right. exact C.
      * rewrite split_colon_none by exact Hs. reflexivity.
    + destruct a as [|x a]; cbn [app].
      * change (58 =? PERCENT) with false. cbv iota. change (58 :: b ++ 58 :: c) with ([] ++ 58 :: b ++ 58 :: c).
        rewrite split_colon_here by (intros []). rewrite split_colon_here by exact Hb. rewrite split_colon_none by exact Hc. reflexivity.
      * unfold PERCENT. destruct (Z.eqb_spec x 37) as [->|Hx37]; [exfalso; apply Hp; exists a; reflexivity|].
        change (x :: a ++ 58 :: b ++ 58 :: c) with ((x :: a) ++ 58 :: b ++ 58 :: c).
        rewrite split_colon_here by exact Ha. rewrite split_colon_here by exact Hb. rewrite split_colon_none by exact Hc. reflexivity.
Qed.
Print Assumptions C47_reference_crash_refuted.

(** So does a line that starts with ':' and does not end with ':'. *)
Theorem C47_leading_colon_refuted : forall e id d container target ids text,
  desc_ok d -> no_overrides e ->
  readable e (dd_container d) container -> readable e (dd_target d) target ->
  Forall2 (dep_means e) (dd_deps d) ids ->
  Forall (item_exists container target) (dd_body d) ->
  text_ok text -> ~ In 58 text -> text <> [] ->
  pack e id (file_of d ++ with_newline (58 :: text)) = D_crash.
Proof.
  intros e id d container target ids text D O Rc Rt Hd Hx Ht Hs Hn.
  eapply pack_extra_crash; eauto using item_exists_names.
  - apply text_ok_cons. split; [lia|exact Ht].
  - intros ds Tds. unfold read_line. cbn [with_newline app]. change (58 =? NL) with false.
    change (58 =? BANG) with false. change (58 =? AT) with false. change (58 =? HASH) with false. cbv iota.
    rewrite Tds. change (58 :: text ++ [10]) with (with_newline (58 :: text)).
    rewrite chomp_line by (constructor; [unfold is_cchar; lia|apply Ht]).
    unfold read_unit. change (58 =? COLON) with true.
    destruct (Z.eqb_spec (last (58 :: text) 0) COLON) as [C|]; [|reflexivity].
    exfalso. apply Hs. destruct text as [|x t]; [contradiction|]. change (last (58 :: x :: t) 0) with (last (x :: t) 0) in C.
    unfold COLON in C. rewrite <- C. apply last_in. discriminate.
Qed.
Print Assumptions C47_leading_colon_refuted.

(** A description that names a readable container and nothing else crashes the
    packer: there is no target. *)
Theorem C47_no_target_refuted : forall e id path container,
  no_overrides e -> readable e path container -> text_ok path -> path <> [] -> ~ starts_with path 33 ->
  pack e id (with_newline path) = D_crash.
Proof.
  intros e id path container [O1 O2] (R1 & R2 & R3) Hp Hn Hs. unfold pack, parse_description.
  replace (lines_of (with_newline path)) with [with_newline path].
  2:{ unfold with_newline at 2. rewrite lines_of_line by apply Hp. reflexivity. }
  destruct (read_container_items e [] path [] None [] O1 (Forall_nil _) (Forall_nil _) I eq_refl Hp Hn Hs) as (cb & _ & _ & E).
  cbn [map app] in E. rewrite E, R1, R2. cbn [negb]. rewrite R3. reflexivity.
Qed.
Print Assumptions C47_no_target_refuted.

(** ** A case *)
Definition c47_target : so_info := mk_so_info (zs "libx.so") (repeat 7 20) [(zs "f", 100); (zs "g", 200); (zs "v", 300)].
Definition c47_container : so_info := mk_so_info (zs "libx_lp.so") (repeat 9 20) [(zs "f_new", 10); (zs "g_new", 20); (zs "v_ref", 30)].
Definition c47_env : dsc_env :=
  mk_dsc_env (fun _ => true) (fun _ => false)
    (fun p => if bytes_eqb p (zs "lp.so") then Some c47_container
              else if bytes_eqb p (zs "libx.so") then Some c47_target else None)
    (fun p => if bytes_eqb p (zs "dep.ulp") then Some (1 :: repeat 5 32 ++ zs "rest") else None)
    None None (fun _ => 0).
Definition c47_desc : desc :=
  mk_desc [DComment (zs " one"); DBlank] (zs "lp.so") [zs "dep.ulp"] [DBlank] (zs "libx.so")
    [DFunc (zs "f") (zs "f_new"); DComment (zs " two"); DRef true (zs "v") (zs "v_ref");
     DFunc (zs "g") (zs "g_new"); DRefOff false (zs "w") (zs "w_ref") (zs "1F0") (zs "a")].

Ltac no_in := let H := fresh in intro H; cbn in H; repeat (destruct H as [H|H]; [discriminate H|]); exact H.
Ltac chars := repeat constructor; unfold is_cchar; cbn; lia.
Ltac name := split; [split; [chars|no_in]|split; [no_in|discriminate]].
Ltac no_start := let H := fresh in intros [? H]; discriminate H.
Ltac hexs := split; [cbn; repeat (apply Forall_cons; [unfold is_hex; lia|]); apply Forall_nil|split; [discriminate|vm_compute; reflexivity]].

Lemma c47_desc_ok : desc_ok c47_desc.
Proof.
  constructor.
  - split; repeat constructor; cbn; try (split; [chars|no_in]); try lia.
  - split; [split; [chars|no_in]|split; [discriminate|no_start]].
  - constructor; [split; [chars|no_in]|constructor].
  - split; repeat constructor.
  - split; [split; [chars|no_in]|vm_compute; reflexivity].
  - cbn [c47_desc dd_body]. constructor; [|constructor; [|constructor; [|constructor; [|constructor; [|constructor]]]]].
    + split; [name|split; [name|]]. repeat split; no_start.
    + split; [split; [chars|no_in]|vm_compute; reflexivity].
    + split; [name|split; [name|]]. discriminate.
    + split; [name|split; [name|]]. repeat split; no_start.
    + split; [name|split; [name|]]. split; [intros _; no_start|]. split; hexs.
Qed.

Example C47_case :
  exists pm cm, pack c47_env (repeat 1 32) (file_of c47_desc) = D_ok (pm, cm) /\
    pm_units pm = [mk_munit (zs "f") (zs "f_new") 100; mk_munit (zs "g") (zs "g_new") 200] /\
    rev (pm_refs pm) = [mk_pref (zs "v") (zs "v_ref") 300 30 true; mk_pref (zs "w") (zs "w_ref") 496 10 false] /\
    pm_deps pm = [repeat 5 32] /\ cm = Some (zs " one" ++ [10]).
Proof. eexists _, _. split; [vm_compute; reflexivity|]. repeat split. Qed.

Example C47_case_hyps :
  desc_ok c47_desc /\ no_overrides c47_env /\
  readable c47_env (dd_container c47_desc) c47_container /\ readable c47_env (dd_target c47_desc) c47_target /\
  Forall2 (dep_means c47_env) (dd_deps c47_desc) [repeat 5 32] /\
  Forall (item_exists c47_container c47_target) (dd_body c47_desc) /\
  desc_comments c47_desc = [zs " one"; zs " two"].
Proof.
  split; [exact c47_desc_ok|]. split; [split; reflexivity|]. split; [repeat split|]. split; [repeat split|].
  split. { constructor; [|constructor]. split; [reflexivity|]. exists (zs "rest"). reflexivity. }
  split; [|reflexivity]. cbn [c47_desc dd_body].
  repeat (apply Forall_cons; [cbn [item_exists]; try exact I; try (split; unfold has_symbol; vm_compute; tauto)|]); [|apply Forall_nil].
  vm_compute. discriminate.
Qed.
