(** C93: the files `ulp trigger` tries for a pattern. *)
From Coq Require Import String Bool Lia.
From Verif Require Import Base BaseFacts StrModel DirModel DirSpec DirProofs.
Open Scope Z_scope.

(** The walk ends, with the buffer not overrun, on every filesystem (loops of links included), if
    the pattern has a last component and its folder's path has fewer than 255 characters. *)
Theorem C93_terminates_partial : forall recursive matches listing is_directory path,
  sane_listing listing -> plain (DirModel.get_basename path) -> zlen (dirname path) < 255 ->
  exists tried, trigger_many_ulps recursive matches listing is_directory 257 path = W_ok tried.
Proof.
  intros r m li di path SANE PW L. apply walk_ends; auto. change (Z.of_nat 257) with 257. pose proof (zlen_nonneg (dirname path)). lia.
Qed.
Print Assumptions C93_terminates_partial.

(** What is tried is what is meant, each file once. *)
Theorem C93_exact_partial : forall recursive matches listing is_directory path fuel tried,
  sane_listing listing -> plain (DirModel.get_basename path) ->
  no_such_folder matches listing is_directory (DirModel.get_basename path) ->
  trigger_many_ulps recursive matches listing is_directory fuel path = W_ok tried ->
  NoDup tried /\
  forall p, In p tried <-> meant recursive matches listing is_directory (DirModel.get_basename path) (dirname path) p.
Proof.
  intros r m li di path fuel tried SANE PW NF E. split.
  - eapply walk_nodup; eauto.
  - eapply walk_in; eauto.
Qed.
Print Assumptions C93_exact_partial.

(** Folder and pattern are the two parts of the path that the user wrote. *)
Theorem C93_parts : forall folder name pattern, plain name -> plain pattern ->
  dirname (path_of (path_of folder name) pattern) = path_of folder name /\
  DirModel.get_basename (path_of (path_of folder name) pattern) = pattern.
Proof. intros f n w Hn Hw. split; [apply dirname_below; assumption|apply basename_below; assumption]. Qed.
Print Assumptions C93_parts.
Theorem C93_parts_here : forall pattern, plain pattern ->
  dirname pattern = [46] /\ DirModel.get_basename pattern = pattern.
Proof.
  intros w Hw. unfold dirname, DirModel.get_basename. rewrite (last_split_none SLASH w) by exact (proj2 Hw).
  split; [|reflexivity]. pose proof (strip_plain w Hw []) as S. cbn [app] in S. rewrite S.
  destruct w; [destruct Hw; contradiction|]. rewrite (last_split_none SLASH) by exact (proj2 Hw). reflexivity.
Qed.
Print Assumptions C93_parts_here.

(** ** A tree: /lp with a.so, b.txt and the folder sub with c.so and a.so.1. *)
Definition t_listing (p : list Z) : option (list (list Z)) :=
  let names := [zs "."; zs ".."; zs "a.so"; zs "b.txt"; zs "sub"] in
  let names2 := [zs "."; zs ".."; zs "c.so"; zs "a.so.1"] in
  if bytes_eqb p (zs "/lp") then Some names else if bytes_eqb p (zs "/lp/sub") then Some names2 else None.
Definition t_dir (p : list Z) : bool := bytes_eqb p (zs "/lp/sub").
(** Every name matches "*". *)
Definition t_match (pattern name : list Z) : bool := bytes_eqb pattern (zs "*") || bytes_eqb pattern name.

Lemma plain_b n : (negb (zlen n =? 0) && forallb (fun c => negb (c =? 47)) n)%bool = true -> plain n.
Proof.
  intros H. apply andb_prop in H. destruct H as [H1 H2]. split.
  - intros ->. discriminate H1.
  - intros I. rewrite forallb_forall in H2. specialize (H2 47 I). discriminate H2.
Qed.
Fixpoint nodup_b (l : list (list Z)) : bool :=
  match l with [] => true | x :: t => negb (existsb (bytes_eqb x) t) && nodup_b t end.
Lemma nodup_b_ok l : nodup_b l = true -> NoDup l.
Proof.
  induction l as [|x t IH]; cbn [nodup_b]; intros H; constructor; apply andb_prop in H; destruct H as [H1 H2].
  - intros I. apply negb_true_iff in H1. assert (X : existsb (bytes_eqb x) t = true); [|congruence].
    apply existsb_exists. exists x. split; [exact I|apply beq_refl].
  - apply IH. exact H2.
Qed.
Lemma sane_names l :
  (nodup_b l && forallb (fun n => negb (zlen n =? 0)%Z && forallb (fun c => negb (c =? 47)%Z) n) l)%bool = true ->
  NoDup l /\ Forall plain l.
Proof.
  intros H. apply andb_prop in H. destruct H as [H1 H2]. split; [apply nodup_b_ok; exact H1|].
  apply Forall_forall. intros n I. rewrite forallb_forall in H2. apply plain_b. apply H2. exact I.
Qed.
Lemma t_sane : sane_listing t_listing.
Proof.
  intros f names. unfold t_listing. destruct (bytes_eqb f (zs "/lp")); [|destruct (bytes_eqb f (zs "/lp/sub")); [|discriminate]];
    intros E; injection E as <-; apply sane_names; reflexivity.
Qed.
Lemma t_folder w : no_such_folder t_match t_listing t_dir w.
Proof.
  intros f n _ D (stem & ->). exfalso. unfold t_dir in D. apply beq_eq in D.
  assert (X : rev (path_of f (stem ++ dot_so)) = rev (zs "/lp/sub")) by (f_equal; exact D).
  unfold path_of, dot_so in X. rewrite !rev_app_distr in X. discriminate X.
Qed.

Example C93_case :
  sane_listing t_listing /\ plain (DirModel.get_basename (zs "/lp/*")) /\ zlen (dirname (zs "/lp/*")) < 255 /\
  no_such_folder t_match t_listing t_dir (DirModel.get_basename (zs "/lp/*")) /\
  trigger_many_ulps true t_match t_listing t_dir 257 (zs "/lp/*") = W_ok [zs "/lp/a.so"; zs "/lp/sub/c.so"] /\
  trigger_many_ulps false t_match t_listing t_dir 257 (zs "/lp/*") = W_ok [zs "/lp/a.so"] /\
  trigger_many_ulps true t_match t_listing t_dir 257 (zs "/lp/c.so") = W_ok [zs "/lp/sub/c.so"].
Proof.
  split; [exact t_sane|]. split; [apply plain_b; reflexivity|]. split; [vm_compute; reflexivity|]. split; [apply t_folder|].
  repeat split; vm_compute; reflexivity.
Qed.

(** A link to the folder it is in: the walk follows it until the paths get too long. *)
Definition loop_listing (p : list Z) : option (list (list Z)) := Some [zs "x.so"; zs "l"].
Definition loop_dir (p : list Z) : bool := match last_split SLASH p with Some (_, b) => bytes_eqb b (zs "l") | None => false end.
Example C93_loop_case : exists tried,
  trigger_many_ulps true t_match loop_listing loop_dir 257 (zs "/lp/*") = W_ok tried /\ 100 < zlen tried.
Proof. eexists. split; [vm_compute; reflexivity|]. vm_compute. reflexivity. Qed.

(** ** What fails *)

(** With --recursive and a pattern that ends in a slash the walk never ends if the folder has a
    subfolder: dirname takes the subfolder off again. *)
Definition s_listing (p : list Z) : option (list (list Z)) := Some [zs "sub"].
Theorem C93_trailing_slash_refuted : exists listing is_directory path,
  sane_listing listing /\ zlen (dirname path) < 255 /\
  forall matches fuel, trigger_many_ulps true matches listing is_directory fuel path = W_deep.
Proof.
  exists s_listing, (fun _ => true), (zs "/lp/sub/"). split; [|split].
  - intros f names E. injection E as <-. apply sane_names. reflexivity.
  - vm_compute. reflexivity.
  - intros m fuel. induction fuel as [|f IH]; [reflexivity|].
    change (trigger_many_ulps true m s_listing (fun _ => true) (S f) (zs "/lp/sub/"))
      with (each true m (fun _ => true) (trigger_many_ulps true m s_listing (fun _ => true) f) (zs "/lp") [] [zs "sub"]).
    cbn [each]. cbv zeta. change (zs "/lp" ++ [SLASH] ++ zs "sub")%list with (zs "/lp/sub").
    change ((zs "/lp/sub" ++ [SLASH] ++ [])%list) with (zs "/lp/sub/"). rewrite IH. reflexivity.
Qed.
Print Assumptions C93_trailing_slash_refuted.

(** Every folder that can be opened and whose path has 255 characters or more overruns the buffer. *)
Theorem C93_overrun_refuted : forall recursive matches listing is_directory path names,
  listing (dirname path) = Some names -> 255 <= zlen (dirname path) ->
  trigger_many_ulps recursive matches listing is_directory 257 path = W_overrun.
Proof.
  intros r m li di path names LI L. change 257%nat with (S 256). cbn [trigger_many_ulps]. rewrite LI.
  assert (X : (ULP_PATH_LEN <? zlen (dirname path) + 2) = true) by (apply Z.ltb_lt; unfold ULP_PATH_LEN; lia). rewrite X. reflexivity.
Qed.
Print Assumptions C93_overrun_refuted.
Definition long_path : list Z := [47] ++ repeat 97 254 ++ zs "/*".
Example C93_overrun_case : plain (DirModel.get_basename long_path) /\ zlen (dirname long_path) = 255 /\
  trigger_many_ulps false t_match (fun _ => Some []) t_dir 257 long_path = W_overrun.
Proof. split; [apply plain_b; vm_compute; reflexivity|]. split; vm_compute; reflexivity. Qed.

(** A folder named like a livepatch: besides its files, a file that is not there is tried. *)
Definition d_listing (p : list Z) : option (list (list Z)) :=
  if bytes_eqb p (zs "/lp") then Some [zs "d.so"] else if bytes_eqb p (zs "/lp/d.so") then Some [zs "a.so"] else None.
Definition d_dir (p : list Z) : bool := bytes_eqb p (zs "/lp/d.so").
Theorem C93_directory_refuted : exists matches listing is_directory path tried p,
  sane_listing listing /\ plain (DirModel.get_basename path) /\ zlen (dirname path) < 255 /\
  trigger_many_ulps true matches listing is_directory 257 path = W_ok tried /\
  In p tried /\ ~ meant true matches listing is_directory (DirModel.get_basename path) (dirname path) p.
Proof.
  exists t_match, d_listing, d_dir, (zs "/lp/*"), [zs "/lp/d.so/a.so"; zs "/lp/d.so/*"], (zs "/lp/d.so/*").
  split; [|split; [|split; [|split; [|split]]]].
  - intros f names. unfold d_listing. destruct (bytes_eqb f (zs "/lp")); [|destruct (bytes_eqb f (zs "/lp/d.so")); [|discriminate]];
      intros E; injection E as <-; apply sane_names; reflexivity.
  - apply plain_b. reflexivity.
  - vm_compute. reflexivity.
  - vm_compute. reflexivity.
  - right. left. reflexivity.
  - assert (G : forall w F p, meant true t_match d_listing d_dir w F p -> exists stem, p = (stem ++ dot_so)%list).
    { intros w F p M. induction M as [F n EN D (stem & ->) MA L|]; [|assumption].
      exists (F ++ [47] ++ stem)%list. unfold path_of. rewrite <- !app_assoc. reflexivity. }
    intros M. apply G in M. destruct M as (stem & E). apply (f_equal (@rev Z)) in E. rewrite rev_app_distr in E. discriminate E.
Qed.
Print Assumptions C93_directory_refuted.
