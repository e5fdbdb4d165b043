(** C98: which processes the tool works on. *)
From Coq Require Import String Bool Lia.
From Verif Require Import Base BaseFacts StrModel InsnQModel LibModel MetaModel DlModel LibSpec SymProofs PtModel PtSpec PtProofs
  NtModel NtSpec NtProofs TextModel TextSpec TextProofs PcModel PcSpec PcProofs IntrModel IntrSpec IntrProofs Intr2Proofs Intr3Proofs Intr4Proofs
  MapSpec TrModel SeeModel SeeSpec SeeProofs IntrEx SeeEx.
From Verif Require TrSpec TrProps.

(** A process counts as one with libpulp exactly if a file with libpulp.so in its path is mapped into it, whatever
    else its memory map shows; one whose map cannot be read does not count. *)
Theorem C98_maps :
  (forall ms, Forall kernel_line ms -> (has_libpulp_loaded (Some (maps_text ms)) = true <-> maps_libpulp ms)) /\
  has_libpulp_loaded None = false.
Proof. split; [intros ms K; exact (maps_iff ms K)|reflexivity]. Qed.
Print Assumptions C98_maps.

(** The chosen processes are those asked for: a process of that name, owner and with such a file mapped, other than the tool
    itself (pids below 2^31, uids below 2^32). *)
Theorem C98_chosen :
  forall w wildcard user l p, In p l ->
    (forall v, decimal (pv_name p) v -> v < 2 ^ 31) -> (forall u v, user = Some u -> decimal u v -> v < 2 ^ 32) ->
    (forall ms, Forall kernel_line ms -> pv_maps p = Some (maps_text ms) ->
       (In p (chosen w wildcard user l) <-> asked_for w wildcard user p ms)) /\
    (pv_maps p = None -> ~ In p (chosen w wildcard user l)).
Proof.
  intros w wc us l p I P U. split.
  - intros ms K M. unfold chosen. rewrite filter_In, <- (skipped_iff w wc us p ms K M P U).
    destruct (pe_skipped w wc us (entry_of p)); cbn [negb]; intuition discriminate.
  - intros M H. unfold chosen in H. apply filter_In in H. destruct H as [_ H].
    unfold pe_skipped in H. cbn [entry_of pe_name pe_comm pe_owner pe_libpulp] in H. rewrite M in H. cbn [has_libpulp_loaded negb] in H.
    destruct (negb (isnumber (Some (pv_name p)))); [discriminate H|].
    destruct (match wc with Some pat => negb (pw_fnmatch w pat (pv_comm p)) | None => false end); [discriminate H|].
    match type of H with context [if ?b then true else _] => destruct b end; [discriminate H|].
    destruct (atoi (pv_name p) =? pw_self w); discriminate H.
Qed.
Print Assumptions C98_chosen.

(** C55, exactly which entries of /proc are selected (user numbers below 2^32). *)
Theorem C55_selection_exact :
  forall w wildcard user pe, (forall u v, user = Some u -> decimal u v -> v < 2 ^ 32) ->
    (pe_skipped w wildcard user pe = false <->
     (exists v, decimal (pe_name pe) v) /\
     (forall pat, wildcard = Some pat -> pw_fnmatch w pat (pe_comm pe) = true) /\
     owner_passes w user (pe_owner pe) /\ atoi (pe_name pe) <> pw_self w /\ pe_libpulp pe = true).
Proof.
  intros w wc us pe B. unfold pe_skipped. rewrite <- (owner_iff w us (pe_owner pe) B), <- isnumber_decimal.
  destruct (isnumber (Some (pe_name pe))); cbn [negb]; [|intuition discriminate].
  assert (W : match wc with Some pat => negb (pw_fnmatch w pat (pe_comm pe)) | None => false end = false <->
              forall pat, wc = Some pat -> pw_fnmatch w pat (pe_comm pe) = true).
  { destruct wc as [pat|]; [|split; [discriminate|reflexivity]]. split.
    - intros H p E. apply Some_inj in E. subst p. destruct (pw_fnmatch w pat (pe_comm pe)); [reflexivity|discriminate].
    - intros H. rewrite (H pat eq_refl). reflexivity. }
  rewrite <- W. destruct (match wc with Some pat => negb (pw_fnmatch w pat (pe_comm pe)) | None => false end); [intuition discriminate|].
  match goal with |- context [if ?b then true else _] => destruct b end; [intuition discriminate|].
  destruct (Z.eqb_spec (atoi (pe_name pe)) (pw_self w)) as [E|E]; [intuition discriminate|].
  destruct (pe_libpulp pe); cbn [negb]; intuition discriminate.
Qed.
Print Assumptions C55_selection_exact.

(** Exactly what the tool works on: nothing if the first of the chosen processes cannot be read; otherwise it goes on once
    per chosen process, each time with the last one up to there it could read. *)
Theorem C98_visited :
  forall w wildcard user l, (forall p, In p (chosen w wildcard user l) -> pid p <> 0) ->
    match chosen w wildcard user l with
    | [] => visited w wildcard user l = []
    | p :: _ =>
        (~ readable p -> visited w wildcard user l = []) /\
        (readable p ->
           List.length (visited w wildcard user l) = List.length (chosen w wildcard user l) /\
           forall k x, nth_error (visited w wildcard user l) k = Some x -> last_readable (chosen w wildcard user l) k x)
    end.
Proof.
  intros w wc us l H. destruct (chosen w wc us l) as [|p t] eqn:E.
  - apply visited_none. left. exact E.
  - split.
    + intros R. apply visited_none. right. eauto.
    + intros R. rewrite (visited_first w wc us l p t E H R), handed_length. split; [reflexivity|].
      intros k x N. destruct (handed_nth (p :: t) 0 k x N) as [L|[_ L]]; [exact L|].
      exfalso. apply (L 0%nat p); [lia|reflexivity|exact R].
Qed.
Print Assumptions C98_visited.

(** Hence only chosen processes are worked on, and all that can be read are, just if the first one can be read (or none). *)
Theorem C98_served :
  forall w wildcard user l, (forall p, In p (chosen w wildcard user l) -> pid p <> 0) ->
    (forall x, In x (visited w wildcard user l) -> exists p, In p (chosen w wildcard user l) /\ readable p /\ x = pid p) /\
    ((forall p, In p (chosen w wildcard user l) -> readable p -> In (pid p) (visited w wildcard user l)) <->
     ((forall p, In p (chosen w wildcard user l) -> ~ readable p) \/
      exists p t, chosen w wildcard user l = p :: t /\ readable p)).
Proof.
  intros w wc us l H. pose proof (C98_visited w wc us l H) as V. destruct (chosen w wc us l) as [|p t] eqn:E.
  - rewrite V. split; [intros x []|]. split; intros _; [left|]; intros q [].
  - destruct V as [V1 V2]. destruct (inserted p) eqn:I.
    + apply inserted_iff in I. destruct (V2 I) as [L V]. split.
      * intros x X. apply In_nth_error in X. destruct X as [k X]. destruct (V k x X) as (i & q & _ & N & R & -> & _).
        exists q. split; [eapply nth_error_In; exact N|]. auto.
      * split; intros _; [right; eauto|]. intros q Q R. rewrite (visited_first w wc us l p t E H I). apply handed_has; assumption.
    + apply inserted_false in I. rewrite (V1 I). split; [intros x []|]. split.
      * intros A. left. intros q Q R. exact (A q Q R).
      * intros [A|(q & t' & Q & R)] r RI RR; [exact (A r RI RR)|]. injection Q as Q1 Q2. subst. contradiction.
Qed.
Print Assumptions C98_served.

(** What the whole command answers for a patch named without wildcard, if the first chosen process can be read: its exit status
    tells of a failure exactly if working on some readable chosen process failed for a real reason with a code that is not a
    multiple of 256; and the summary counts as many processes as were chosen. *)
Theorem C98_outcome :
  forall w wildcard user act l p t, (forall p, In p (chosen w wildcard user l) -> pid p <> 0) ->
    chosen w wildcard user l = p :: t -> readable p ->
    (fst (trigger_all w wildcard user false act l) <> 0 <->
     exists q, In q (chosen w wildcard user l) /\ readable q /\
       TrSpec.real_failure (act (pid q)) /\ act (pid q) mod 256 <> 0) /\
    c_succ (snd (trigger_all w wildcard user false act l)) + c_skip (snd (trigger_all w wildcard user false act l)) +
    c_fail (snd (trigger_all w wildcard user false act l)) = zlen (chosen w wildcard user l).
Proof.
  intros w wc us act l p t H E R. unfold trigger_all. cbn [fst snd]. split.
  - rewrite TrProps.C40_exit_status_exact. destruct (C98_served w wc us l H) as [S1 S2]. split.
    + intros (r & I & F). apply in_map_iff in I. destruct I as (x & <- & I). destruct (S1 x I) as (q & Q & QR & ->).
      exists q. tauto.
    + intros (q & Q & QR & F). exists (act (pid q)). split; [|exact F]. apply in_map. apply (proj2 S2); [|exact Q|exact QR].
      right. eauto.
  - destruct (TrProps.C40_single_patch_partial (map act (visited w wc us l))) as (_ & _ & C & _). rewrite C.
    pose proof (C98_visited w wc us l H) as V. rewrite E in V. destruct V as [_ V]. destruct (V R) as [L _].
    unfold zlen. rewrite map_length, E, <- L. reflexivity.
Qed.
Print Assumptions C98_outcome.

(** With the discovery in a thread of its own, whatever the schedule, the loop gets the same processes. *)
Theorem C98_threads_same :
  forall w wildcard user l n s, 1 <= n ->
    reachable n (discover w wildcard user 0 (map entry_of l)) s -> pc_stop s = true ->
    pc_got s = visited w wildcard user l ++ [0].
Proof.
  intros w wc us l n s Hn R S. unfold visited. rewrite serial_until_zero.
  destruct (reachable_inv n _ s Hn R) as (dp & dc & I). destruct I. destruct (i_stop S) as (C & g & G & N).
  rewrite i_got in G. rewrite i_got, G. f_equal.
  generalize dependent (discover w wc us 0 (map entry_of l)). intros xs. intros. clear - G N.
  rewrite <- (firstn_skipn (Z.to_nat dc) xs), G, <- app_assoc. cbn [app]. symmetry. apply until_app. exact N.
Qed.
Print Assumptions C98_threads_same.

(** What cannot be read: a process that cannot be attached to, and one that has mapped such a file but has not
    loaded it as a library. *)
Theorem C98_unreadable :
  forall p,
    (pv_attach p = false -> initialize_data_structures (pv_target p) (pv_procfs p) (pv_attach p) = I_err ETARGETHOOK) /\
    (forall main c, pv_attach p = true -> target_ok (pv_target p) -> process_at (pv_target p) (pf_auxv (pv_procfs p)) main c ->
       od_name main = upto_newline (get_basename (pf_comm (pv_procfs p))) -> od_addr main <> 0 ->
       elf_at (pv_target p) (od_addr main) (od_sym main) (od_str main) (od_n main) (od_id main) ->
       Forall (fun o => ~ substring (zs "libpulp.so") (od_name o)) c ->
       initialize_data_structures (pv_target p) (pv_procfs p) (pv_attach p) = I_err ENOLIBPULP).
Proof.
  intros p. split.
  - intros A. rewrite A. reflexivity.
  - intros main c A T P N NZ E L. rewrite A. apply (init_none _ _ main c T P N NZ E).
    apply Forall_forall. intros o O. rewrite Forall_forall in L. specialize (L o O).
    destruct (strstr (od_name o) (zs "libpulp.so")) eqn:Q; [|reflexivity]. exfalso. apply L. apply strstr_iff. exact Q.
Qed.
Print Assumptions C98_unreadable.

(** For the examples: which entries pass, without computing with the memories. *)
Lemma chosen_yes w wc us p t : pe_skipped w wc us (entry_of p) = false -> chosen w wc us (p :: t) = p :: chosen w wc us t.
Proof. intros H. unfold chosen. cbn [filter]. rewrite H. reflexivity. Qed.
Lemma chosen_no w wc us p t : pe_skipped w wc us (entry_of p) = true -> chosen w wc us (p :: t) = chosen w wc us t.
Proof. intros H. unfold chosen. cbn [filter]. rewrite H. reflexivity. Qed.
Ltac pick := repeat first [rewrite chosen_yes by (vm_compute; reflexivity) | rewrite chosen_no by (vm_compute; reflexivity)].

(** The full claim, that every chosen process that can be read is worked on, does not hold: if the first of them cannot be
    read, no other is, and the command reports success with nothing done and nothing failed. *)
Theorem C98_hidden_refuted :
  (forall w wildcard user many act l p t, chosen w wildcard user l = p :: t -> ~ readable p ->
     trigger_all w wildcard user many act l = (0, mk_tcount 0 0 0 0)) /\
  exists w wildcard l p,
    In p (chosen w wildcard None l) /\ readable p /\ pid p <> 0 /\
    (forall many act, trigger_all w wildcard None many act l = (0, mk_tcount 0 0 0 0)).
Proof.
  assert (G : forall w wildcard user many act l p t, chosen w wildcard user l = p :: t -> ~ readable p ->
     trigger_all w wildcard user many act l = (0, mk_tcount 0 0 0 0)).
  { intros w wc us many act l p t E R. unfold trigger_all.
    rewrite visited_none by (right; eauto). destruct many; reflexivity. }
  split; [exact G|].
  set (maps := Some (zs "7f00-7f10 r-xp 00000000 08:02 173521 /usr/lib64/libpulp.so.0" ++ [10])).
  set (good := mk_aproc (zs "812") (zs "server") 1000 maps true ex_target ex_procfs).
  set (bad := mk_aproc (zs "101") (zs "server") 1000 maps false ex_target ex_procfs).
  set (w := mk_pworld (fun _ _ => true) (fun _ => None) 5000).
  assert (E : chosen w (Some (zs "*")) None [bad; good] = [bad; good]) by (pick; reflexivity).
  exists w, (Some (zs "*")), [bad; good], good. rewrite E. split; [right; left; reflexivity|].
  split; [apply inserted_iff; vm_compute; reflexivity|]. split; [vm_compute; discriminate|].
  intros many act. apply (G _ _ _ _ _ _ bad [good] E). apply inserted_false. vm_compute. reflexivity.
Qed.
Print Assumptions C98_hidden_refuted.

(** ** Cases *)
Definition see_world : pworld := mk_pworld (fun _ _ => true) (fun _ => None) 5000.
Definition see_line (path : list Z) : mline :=
  mk_ml (zs "7f00") (zs "7f10") (zs "r-xp") (zs "00000000") (zs "08:02") (zs "173521") 6 path.
Definition see_good (name : list Z) : aproc :=
  mk_aproc name (zs "server") 1000 (Some (maps_text [see_line []; see_line (zs "/usr/lib64/libpulp.so.0")])) true ex_target ex_procfs.
(** A debugger, say, that has mapped the debugging information of libpulp. *)
Definition see_debugger (name : list Z) : aproc :=
  mk_aproc name (zs "server") 1000 (Some (maps_text [see_line (zs "/usr/lib/debug/usr/lib64/libpulp.so.0.debug")])) true im_target ex_procfs.
(** One that is being debugged. *)
Definition see_traced (name : list Z) : aproc :=
  mk_aproc name (zs "server") 1000 (Some (maps_text [see_line (zs "/usr/lib64/libpulp.so.0")])) false ex_target ex_procfs.
Definition see_other (name : list Z) : aproc :=
  mk_aproc name (zs "cat") 1000 (Some (maps_text [see_line (zs "/usr/bin/cat")])) true im_target ex_procfs.

Example C98_chosen_case :
  let l := [see_other (zs "7"); see_good (zs "812")] in
  In (see_good (zs "812")) (chosen see_world (Some (zs "ser*")) (Some (zs "1000")) l) /\
  ~ In (see_good (zs "812")) (chosen see_world (Some (zs "ser*")) (Some (zs "1001")) l) /\
  (forall v, decimal (pv_name (see_good (zs "812"))) v -> v < 2 ^ 31) /\ (forall v, decimal (zs "1000") v -> v < 2 ^ 32).
Proof.
  cbv zeta. split; [pick; left; reflexivity|]. split; [pick; intros []|].
  split; intros v D; apply decimal_digits in D; destruct D as (_ & _ & D & _); vm_compute in D; lia.
Qed.

Example C98_maps_case :
  Forall kernel_line [see_line []; see_line (zs "/usr/lib64/libpulp.so.0")] /\
  has_libpulp_loaded (Some (maps_text [see_line []; see_line (zs "/usr/lib64/libpulp.so.0")])) = true /\
  has_libpulp_loaded (Some (maps_text [see_line []; see_line (zs "/usr/lib64/libc.so.6")])) = false.
Proof.
  assert (K : forall path, forallb (fun c => negb (c =? 10)) path = true -> kernel_line (see_line path)).
  { intros path P. unfold kernel_line, see_line; cbn [ml_start ml_end ml_perm ml_off ml_dev ml_inode ml_path].
    assert (X : forall l, forallb (fun c => ((48 <=? c) && (c <=? 57)) || ((97 <=? c) && (c <=? 102))) l = true -> Forall hexdigit l).
    { intros l F. apply Forall_forall. intros c C. rewrite forallb_forall in F. specialize (F c C). unfold hexdigit. lia. }
    assert (Y : forall l, forallb (fun c => (((48 <=? c) && (c <=? 57)) || ((97 <=? c) && (c <=? 102))) || (c =? 58)) l = true ->
                Forall (fun c => hexdigit c \/ c = 58) l).
    { intros l F. apply Forall_forall. intros c C. rewrite forallb_forall in F. specialize (F c C). unfold hexdigit. lia. }
    split; [split; [discriminate|split; [apply X; reflexivity|vm_compute; congruence]]|].
    split; [split; [discriminate|split; [apply X; reflexivity|vm_compute; congruence]]|].
    split; [apply Forall_forall; intros c C; vm_compute in C |- *; lia|].
    split; [apply X; reflexivity|]. split; [apply Y; reflexivity|]. split; [apply X; reflexivity|].
    intros I. rewrite forallb_forall in P. specialize (P 10 I). discriminate P. }
  split; [constructor; [apply K; reflexivity|]; constructor; [apply K; reflexivity|]; constructor|]. split; vm_compute; reflexivity.
Qed.

(** The first can be read, the second not: the first is worked on a second time in its place. *)
Example C98_visited_case :
  let l := [see_other (zs "7"); see_good (zs "812"); see_traced (zs "813"); see_debugger (zs "900"); see_good (zs "1024")] in
  chosen see_world None None l = [see_good (zs "812"); see_traced (zs "813"); see_debugger (zs "900"); see_good (zs "1024")] /\
  (forall p, In p (chosen see_world None None l) -> pid p <> 0) /\
  readable (see_good (zs "812")) /\ ~ readable (see_traced (zs "813")) /\ ~ readable (see_debugger (zs "900")) /\
  visited see_world None None l = [812; 812; 812; 1024].
Proof.
  cbv zeta. set (l := [_; _; _; _; _]).
  assert (E : chosen see_world None None l =
              [see_good (zs "812"); see_traced (zs "813"); see_debugger (zs "900"); see_good (zs "1024")]) by (unfold l; pick; reflexivity).
  split; [exact E|]. split.
  - rewrite E. intros p [<-|[<-|[<-|[<-|[]]]]]; vm_compute; discriminate.
  - split; [apply inserted_iff; vm_compute; reflexivity|]. split; [apply inserted_false; vm_compute; reflexivity|].
    split; [apply inserted_false; vm_compute; reflexivity|]. vm_compute. reflexivity.
Qed.

(** The debugger first: nothing is worked on. *)
Example C98_hidden_case :
  let l := [see_debugger (zs "101"); see_good (zs "812"); see_good (zs "1024")] in
  visited see_world None None l = [] /\
  initialize_data_structures im_target ex_procfs true = I_err ENOLIBPULP /\
  target_ok im_target /\ process_at im_target (pf_auxv ex_procfs) d_main [d_foo] /\
  od_name d_main = upto_newline (get_basename (pf_comm ex_procfs)) /\
  elf_at im_target (od_addr d_main) (od_sym d_main) (od_str d_main) (od_n d_main) (od_id d_main) /\
  Forall (fun o => ~ substring (zs "libpulp.so") (od_name o)) [d_foo].
Proof.
  cbv zeta. split; [vm_compute; reflexivity|]. split; [vm_compute; reflexivity|]. split; [exact im_target_ok|].
  split; [exact im_process_at|]. split; [vm_compute; reflexivity|]. split; [exact im_main_elf|].
  constructor; [|constructor]. intros H. apply strstr_iff in H. vm_compute in H. discriminate.
Qed.
