(** C97: from the compiler through "ulp post" to threads of a running process. *)
From Coq Require Import String Bool Lia.
From Verif Require Import Base BaseFacts InsnQModel InsnQSpec MetaModel StrModel X86Model X86Spec X86Proofs DlModel LibModel LibSpec
  LibProofs LibInv LibMem LibExample LibProps PtModel PostModel PostSpec PostProofs PostProps WinSpec WinProofs WinProps
  BltModel BltSpec BltProofs.

(** A library as compiler and linker deliver it: "ulp livepatchable" says yes, and "ulp post" ends well and
    writes the file with the nops of every function that has a symbol merged. *)
Theorem C97_post_succeeds : forall lb entries,
  has_table lb entries -> table_ok entries ->
  (forall e, In e entries -> no_symbol lb e \/ exists i off p, as_compiled lb e i off p) ->
  run_livepatchable io_ok lb = X_status 0 lb /\
  exists lb', run_post io_ok lb = X_status 0 lb' /\
    lb_names lb' = lb_names lb /\ lb_syms lb' = lb_syms lb /\
    (forall i, sec_addr (lb_secs lb') i = sec_addr (lb_secs lb) i) /\
    (forall e i off p, In e entries -> as_compiled lb e i off p ->
       byte_at (lb_secs lb') i p = Some 102 /\ byte_at (lb_secs lb') i (p + 1) = Some 144) /\
    (forall i p, byte_at (lb_secs lb') i p <> byte_at (lb_secs lb) i p ->
       exists e off, In e entries /\ as_compiled lb e i off p).
Proof.
  intros lb entries Ht Hok Hc. destruct (find_table _ _ Ht) as (k & addr & Ek & Es).
  unfold run_livepatchable, run_post. cbn [io_ok io_open io_elf io_strtab io_write negb andb]. rewrite Ek, Es. cbn [es_data].
  split; [reflexivity|]. pose proof Hok as [R _].
  rewrite table_of_enc by (intros e He; specialize (R e He); lia).
  destruct (fixup_total (lb_syms lb) entries entries (lb_secs lb) (fun x h => h) (table_apart _ _ _ Hok)) as (secs' & E).
  { intros e He. specialize (R e He). apply compiled_ready; [lia|lia|auto]. }
  rewrite E. eexists. split; [reflexivity|]. cbn [lb_names lb_secs lb_syms].
  destruct (C29_only_entry_nops _ _ _ _ Hok E) as (_ & A & _ & C).
  split; [reflexivity|]. split; [reflexivity|]. split; [exact A|]. split.
  - intros e i off p He (Fa & _ & D & _). assert (En : entry_nops (lb_syms lb) (lb_secs lb) e i p) by (exists off; auto).
    destruct (C29_stays_livepatchable _ _ _ _ Hok E e i p He En) as (_ & M). exact M.
  - intros i p Hne. destruct (C i p Hne) as (_ & _ & e & He & En). exists e.
    destruct (Hc e He) as [N|(i2 & off & p2 & Hcc)].
    + destruct En as (off & (s & a & F & _) & _). apply find_some in F. destruct F as [F1 F2]. apply Z.eqb_eq in F2.
      exfalso. exact (N s F1 F2).
    + pose proof Hcc as (Fa & _ & D & _). assert (En2 : entry_nops (lb_syms lb) (lb_secs lb) e i2 p2) by (exists off; auto).
      destruct (C29_one_byte_per_function _ _ _ _ _ _ _ En En2) as [-> ->]. eauto.
Qed.
Print Assumptions C97_post_succeeds.

(** A run that does not end well leaves the file as it was, unless it was the writing itself that failed;
    and a file "ulp livepatchable" does not accept is not changed by "ulp post". *)
Theorem C97_refused_unchanged : forall o lb,
  match run_post o lb with
  | X_status 0 _ => True
  | X_status _ lb' | X_abort lb' => lb' = lb
  | X_ub => True
  | X_broken_file s => s <> 0 /\ io_write o = false
  end /\
  (forall s lb', run_livepatchable o lb = X_status s lb' -> lb' = lb /\
     (s <> 0 -> forall s2 lb2, run_post o lb = X_status s2 lb2 -> s2 <> 0 /\ lb2 = lb)).
Proof.
  intros o lb. unfold run_post, run_livepatchable.
  destruct (io_open o), (io_elf o), (io_strtab o); cbn [negb andb];
    try (split; [reflexivity|]; intros s lb' H; injection H as H1 H2; subst; split; [reflexivity|]; intros _ s2 lb2 H;
         first [discriminate H|injection H as H1 H2; subst; split; [discriminate|reflexivity]]).
  destruct (find_section_by_name lb TABLE) as [i| |].
  - split.
    + destruct (nth_error (lb_secs lb) i) as [sec|]; [|exact I]. destruct (table_of (es_data sec)) as [en|]; [|exact I].
      destruct (nops_fixup _ _ _); [|reflexivity|exact I]. destruct (io_write o); [exact I|split; [discriminate|reflexivity]].
    + intros s lb' H. injection H as H1 H2. subst. split; [reflexivity|]. intros H; contradiction.
  - split; [reflexivity|]. intros s lb' H. injection H as H1 H2. subst. split; [reflexivity|]. intros _ s2 lb2 H.
    injection H as H1 H2. subst. split; [discriminate|reflexivity].
  - split; [exact I|]. intros s lb' H. discriminate H.
Qed.
Print Assumptions C97_refused_unchanged.

(** A library all of whose functions have symbols, after "ulp post" and loaded anywhere: its functions meet
    what C01 to C21 and C88 ask of the functions of a process, and their entries are single instructions. *)
Theorem C97_post_makes_safe : forall lb lb' entries base text eb m,
  has_table lb entries -> table_ok entries -> layout lb entries base text eb ->
  (forall e, In e entries -> exists i off p, as_compiled lb e i off p) ->
  run_post io_ok lb = X_status 0 lb' -> loaded_at m base text lb' ->
  functions_ok (entry_points base entries) eb m /\
  (forall f, In f (entry_points base entries) -> one_nop m (eb f) f).
Proof.
  intros lb lb' entries base text eb m Ht Hok Hl Hc Hr Hm. destruct (find_table _ _ Ht) as (k & addr & Ek & Es).
  unfold run_post in Hr. cbn [io_ok io_open io_elf io_strtab io_write negb andb] in Hr. rewrite Ek, Es in Hr. cbn [es_data] in Hr.
  pose proof Hok as [R _]. rewrite table_of_enc in Hr by (intros e He; specialize (R e He); lia).
  destruct (nops_fixup (lb_syms lb) entries (lb_secs lb)) as [secs| |] eqn:E; try discriminate Hr.
  injection Hr as Hr. apply (merged_in_memory lb lb' entries base text eb m Hok Hl Hc); [|exact Hm].
  subst lb'. exact E.
Qed.
Print Assumptions C97_post_makes_safe.

(** So every thread of every process that is stopped at the entry of a function of such a library while
    livepatches come and go runs on in whole instructions, and reaches the replacement in force now, or the original function (the
    exception is C88's: it was redirected when it was stopped). *)
Theorem C97_threads_resume : forall lb lb' entries base text eb m stale tr1 tr2 p1 p2 f pc,
  has_table lb entries -> table_ok entries -> layout lb entries base text eb ->
  (forall e, In e entries -> exists i off p, as_compiled lb e i off p) ->
  run_post io_ok lb = X_status 0 lb' -> loaded_at m base text lb' ->
  clean_history (entry_points base entries) eb (fresh m stale) tr1 p1 -> no_pending p1 ->
  clean_history (entry_points base entries) eb p1 tr2 p2 -> no_pending p2 -> alive (p_lib p2) ->
  In f (entry_points base entries) -> (forall g, route (log_of tr1) f = Some g -> ~ in_window (eb f) f g) ->
  stopped_at (p_mem p1) (eb f) f pc ->
  exists d, leaves_for (p_mem p2) (eb f) f pc d /\
    match route (log_of (tr1 ++ tr2)) f with
    | Some g => d = g
    | None => d = body (eb f) f \/ (route (log_of tr1) f <> None /\ replaced_since tr1 tr2 f d)
    end.
Proof.
  intros lb lb' entries base text eb m stale tr1 tr2 p1 p2 f pc Ht Hok Hl Hc Hr Hm H1 N1 H2 N2 A2 Hf Hg Hs.
  destruct (C97_post_makes_safe _ _ _ _ _ _ _ Ht Hok Hl Hc Hr Hm) as [HF HN].
  exact (C88_resumes_partial _ _ _ _ _ _ _ _ _ _ HF HN H1 N1 H2 N2 A2 Hf Hg Hs).
Qed.
Print Assumptions C97_threads_resume.

(** The claim is false of functions that have no symbol in the file (static functions of a stripped library):
    "ulp post" says that all is well and does not touch their entries. *)
Theorem C97_no_symbol_refuted : forall lb lb' entries e i a p,
  has_table lb entries -> table_ok entries -> run_post io_ok lb = X_status 0 lb' ->
  In e entries -> no_symbol lb e -> sec_addr (lb_secs lb) i = Some a ->
  0 <= e + 14 - a -> e + 14 - a <= p <= e + 14 - a + 5 ->
  byte_at (lb_secs lb') i p = byte_at (lb_secs lb) i p.
Proof.
  intros lb lb' entries e i a p Ht Hok Hr He N Ha H0 Hp. destruct (find_table _ _ Ht) as (k & addr & Ek & Es).
  unfold run_post in Hr. cbn [io_ok io_open io_elf io_strtab io_write negb andb] in Hr. rewrite Ek, Es in Hr. cbn [es_data] in Hr.
  pose proof Hok as [R _]. rewrite table_of_enc in Hr by (intros x Hx; specialize (R x Hx); lia).
  destruct (nops_fixup (lb_syms lb) entries (lb_secs lb)) as [secs| |] eqn:E; try discriminate Hr.
  injection Hr as Hr. subst lb'. cbn [lb_secs]. eapply untouched; eauto. lia.
Qed.
Print Assumptions C97_no_symbol_refuted.

(** And every such function, whenever it is redirected by a livepatch, kills a thread that was stopped between its two
    nops: the thread goes on at the displacement of the short jump, which is no instruction of the window. *)
Theorem C97_two_nops_stuck : forall F eb m stale tr p f g,
  functions_ok F eb m -> clean_history F eb (fresh m stale) tr p -> no_pending p -> alive (p_lib p) ->
  In f F -> m (slot (eb f) f) = 144 -> m (slot (eb f) f + 1) = 144 ->
  route (log_of tr) f = Some g ->
  stopped_at m (eb f) f (slot (eb f) f + 1) /\
  p_mem p (slot (eb f) f + 1) = (if eb f then 236 else 240) /\
  forall d, leaves_for (p_mem p) (eb f) f (slot (eb f) f + 1) d -> d = slot (eb f) f + 1.
Proof.
  intros F eb m stale tr p f g HF Hh Hn Ha Hf M1 M2 Er.
  pose proof (clean_bytes _ _ _ _ _ _ HF Hh Ha Hn f Hf) as B. rewrite Er in B. destruct B as [B _].
  destruct (redir_stuck _ _ _ _ B) as [V C]. split; [|split; [exact V|]].
  - split; [unfold in_window, body, slot; destruct (eb f); lia|].
    assert (N1 : cpu_step m (slot (eb f) f) = Some (slot (eb f) f + 1)).
    { unfold cpu_step. rewrite M1. reflexivity. }
    destruct (fo_plain _ _ _ HF f Hf) as [Pe _]. unfold slot in *. destruct (eb f).
    + exists [f; f + 4]. split.
      * eapply gt_step; [|eapply gt_step; [exact N1|constructor]].
        unfold has_endbr in Pe. cbn [mem_read] in Pe. injection Pe as Q1 Q2 Q3 Q4.
        unfold cpu_step. rewrite Q1, Q2. replace (f + 2) with (f + 1 + 1) by lia. rewrite Q3.
        replace (f + 3) with (f + 1 + 1 + 1) by lia. rewrite Q4. reflexivity.
      * intros x [<-|[<-|[]]]; unfold in_window, body, slot; lia.
    + exists [f]. split; [eapply gt_step; [exact N1|constructor]|]. intros x [<-|[]]; unfold in_window, body, slot; lia.
  - intros d (t & Ht & _). inversion Ht as [|? a' ? ? Hc ?]; subst; [reflexivity|]. rewrite C in Hc. discriminate.
Qed.
Print Assumptions C97_two_nops_stuck.

(** ** Examples *)

(** The functions of the example world of C01 and C88, all in one file linked for address 0. *)
Definition ex_entries : list Z := [242; 498; 65778].
Definition ex_lib (syms : list esym) : library :=
  mk_library [Some (zs ""); Some (zs ".text.f"); Some (zs ".text.h"); Some (zs ".text.b"); Some TABLE; Some (zs ".shstrtab")]
    [mk_esec 0 []; mk_esec 242 (repeat 144 20); mk_esec 498 (repeat 144 20); mk_esec 65778 (repeat 144 20);
     mk_esec 70000 (concat (map (le_enc 8) ex_entries)); mk_esec 0 []] syms.
Definition ex_syms : list esym := [mk_esym 0 0; mk_esym 256 1; mk_esym 512 2; mk_esym 65792 3].
Definition ex_merged : list Z := repeat 144 14 ++ [102] ++ repeat 144 5.
Definition ex_after : library :=
  mk_library (lb_names (ex_lib ex_syms))
    [mk_esec 0 []; mk_esec 242 ex_merged; mk_esec 498 ex_merged; mk_esec 65778 ex_merged;
     mk_esec 70000 (concat (map (le_enc 8) ex_entries)); mk_esec 0 []] ex_syms.
Definition ex_text (i : nat) : Prop := i = 1%nat \/ i = 2%nat \/ i = 3%nat.

Lemma ex_table syms : has_table (ex_lib syms) ex_entries.
Proof.
  exists (Some (zs "")), [zs ".text.f"; zs ".text.h"; zs ".text.b"], [Some (zs ".shstrtab")], 70000.
  split; [reflexivity|]. split; [|reflexivity]. cbn [In]. intros [H|[H|[H|[]]]]; discriminate H.
Qed.
Lemma ex_ok : table_ok ex_entries.
Proof. split; unfold ex_entries; cbn [In]; intros; lia. Qed.
Lemma ex_compiled : forall e, In e ex_entries -> exists i off p, as_compiled (ex_lib ex_syms) e i off p.
Proof.
  intros e [<-|[<-|[<-|[]]]].
  - exists 1%nat, 14, 14. split; [exists (mk_esym 256 1), 242; repeat split|]. split; [discriminate|].
    split; [|split; reflexivity]. right. split; [|reflexivity]. intros (H & _). discriminate H.
  - exists 2%nat, 14, 14. split; [exists (mk_esym 512 2), 498; repeat split|]. split; [discriminate|].
    split; [|split; reflexivity]. right. split; [|reflexivity]. intros (H & _). discriminate H.
  - exists 3%nat, 14, 14. split; [exists (mk_esym 65792 3), 65778; repeat split|]. split; [discriminate|].
    split; [|split; reflexivity]. right. split; [|reflexivity]. intros (H & _). discriminate H.
Qed.
Lemma ex_layout : layout (ex_lib ex_syms) ex_entries 65536 ex_text (fun _ => false).
Proof.
  constructor.
  - intros e i off He (s & a & F & -> & Ha & ->). unfold ex_text.
    destruct He as [<-|[<-|[<-|[]]]]; vm_compute in F; injection F as F; subst s; vm_compute in Ha; injection Ha as Ha; subst a;
      (split; [vm_compute; tauto|]; split; [split; [discriminate|intros (H & _); vm_compute in H; discriminate H]|]; eexists; split; [vm_compute; reflexivity|lia]).
  - unfold ex_entries. cbn [In]. intros; lia.
  - unfold ex_entries, in_window, body, slot. cbn [In]. intros; lia.
Qed.
Lemma ex_post : run_post io_ok (ex_lib ex_syms) = X_status 0 ex_after.
Proof. vm_compute. reflexivity. Qed.
Lemma ex_bytes : forall i p b a, ex_text i -> sec_addr (lb_secs ex_after) i = Some a -> byte_at (lb_secs ex_after) i p = Some b ->
  b = (if p =? 14 then 102 else 144) /\ 0 <= p < 20 /\ (a = 242 \/ a = 498 \/ a = 65778).
Proof.
  intros i p b a Hi Ha Hb.
  assert (Q : forall p, 0 <= p < 20 -> nth_error ex_merged (Z.to_nat p) = Some (if p =? 14 then 102 else 144)).
  { clear. intros p Hp. replace p with (Z.of_nat (Z.to_nat p)) at 2 by lia. assert (Z.to_nat p < 20)%nat by lia.
    generalize dependent (Z.to_nat p). clear. intros n Hn. do 20 (destruct n as [|n]; [reflexivity|]). lia. }
  destruct Hi as [->|[->| ->]]; unfold byte_at, ex_after in Hb; cbn [lb_secs nth_error es_data] in Hb;
    change (zlen ex_merged) with 20 in Hb;
    (destruct ((0 <=? p) && (p <? 20)) eqn:E; [|discriminate]; apply andb_true_iff in E; rewrite Z.leb_le, Z.ltb_lt in E;
     rewrite Q in Hb by lia; injection Hb as Hb; injection Ha as Ha; split; [auto|split; [lia|auto]]).
Qed.
Lemma ex_loaded : loaded_at win_mem 65536 ex_text ex_after.
Proof.
  intros i a p b Hi Ha Hb. destruct (ex_bytes _ _ _ _ Hi Ha Hb) as (-> & Hp & HA). unfold win_mem, w_F, w_f, w_h, w_b. cbn [existsb].
  rewrite !orb_false_r. destruct (Z.eqb_spec p 14) as [->|Hne].
  - destruct HA as [->|[->| ->]]; reflexivity.
  - replace (65536 + a + p =? 65792) with false by (symmetry; apply Z.eqb_neq; lia).
    replace (65536 + a + p =? 66048) with false by (symmetry; apply Z.eqb_neq; lia).
    replace (65536 + a + p =? 131328) with false by (symmetry; apply Z.eqb_neq; lia). reflexivity.
Qed.
Lemma ex_points : entry_points 65536 ex_entries = w_F.
Proof. reflexivity. Qed.

(** The hypotheses are met together with a history of C88: a thread stopped in f, which runs on. *)
Example C97_case :
  has_table (ex_lib ex_syms) ex_entries /\ table_ok ex_entries /\
  layout (ex_lib ex_syms) ex_entries 65536 ex_text (fun _ => false) /\
  (forall e, In e ex_entries -> exists i off p, as_compiled (ex_lib ex_syms) e i off p) /\
  run_post io_ok (ex_lib ex_syms) = X_status 0 ex_after /\ ex_after <> ex_lib ex_syms /\
  loaded_at win_mem 65536 ex_text ex_after /\
  exists tr1 tr2 p1 p2 d,
    clean_history (entry_points 65536 ex_entries) (fun _ => false) (fresh win_mem (fun _ => 0)) tr1 p1 /\ no_pending p1 /\
    clean_history (entry_points 65536 ex_entries) (fun _ => false) p1 tr2 p2 /\ no_pending p2 /\ alive (p_lib p2) /\
    In w_f (entry_points 65536 ex_entries) /\ route (log_of tr1) w_f = Some 3146240 /\
    stopped_at (p_mem p1) false w_f (w_f - 14) /\ leaves_for (p_mem p2) false w_f (w_f - 14) d.
Proof.
  split; [apply ex_table|]. split; [apply ex_ok|]. split; [apply ex_layout|]. split; [apply ex_compiled|].
  split; [apply ex_post|]. split.
  { intros H. assert (X : byte_at (lb_secs ex_after) 1 14 = byte_at (lb_secs (ex_lib ex_syms)) 1 14) by (rewrite H; reflexivity).
    discriminate X. }
  split; [apply ex_loaded|]. rewrite ex_points.
  destruct C88_case as (tr1 & tr2 & p1 & p2 & d & H1 & N1 & H2 & N2 & A & R1 & W & R2 & S0 & L & _).
  exists tr1, tr2, p1, p2, d. repeat (split; [first [assumption|left; reflexivity]|]). exact L.
Qed.

(** One function without endbr64 and one with it (the text of C29's example). *)
Definition ex2_lib : library :=
  mk_library [None; Some (zs ".text"); Some TABLE]
    [mk_esec 0 []; mk_esec 4096 text_ex; mk_esec 8192 (concat (map (le_enc 8) [4096; 4116]))] syms_ex.
Definition ex2_after : library :=
  match run_post io_ok ex2_lib with X_status _ lb => lb | _ => ex2_lib end.
Definition ex2_mem : mem := fun x => match byte_at (lb_secs ex2_after) 1 (x - (1000000 + 4096)) with Some b => b | None => 0 end.
Example C97_endbr_case :
  has_table ex2_lib [4096; 4116] /\ table_ok [4096; 4116] /\
  layout ex2_lib [4096; 4116] 1000000 (fun i => i = 1%nat) (Z.eqb (1000000 + 4130)) /\
  (forall e, In e [4096; 4116] -> exists i off p, as_compiled ex2_lib e i off p) /\
  run_post io_ok ex2_lib = X_status 0 ex2_after /\ loaded_at ex2_mem 1000000 (fun i => i = 1%nat) ex2_after /\
  mem_read ex2_mem (1000000 + 4110) 2 = [102; 144] /\ mem_read ex2_mem (1000000 + 4130) 6 = [243; 15; 30; 250; 102; 144].
Proof.
  split.
  { exists None, [zs ".text"], [], 8192. split; [reflexivity|]. split; [|reflexivity]. cbn [In]. intros [H|[]]; discriminate H. }
  split; [split; cbn [In]; intros; lia|]. split.
  { constructor.
    - intros e i off He (s & a & F & -> & Ha & ->).
      destruct He as [<-|[<-|[]]]; vm_compute in F; injection F as F; subst s; vm_compute in Ha; injection Ha as Ha; subst a.
      + split; [reflexivity|]. split; [split; [discriminate|intros (H & _); vm_compute in H; discriminate H]|]. eexists. split; [vm_compute; reflexivity|lia].
      + split; [reflexivity|]. split; [split; [intros _; repeat split|reflexivity]|]. eexists. split; [vm_compute; reflexivity|lia].
    - cbn [In]. intros; lia.
    - cbn [In]. intros e1 e2 x H1 H2. destruct H1 as [<-|[<-|[]]], H2 as [<-|[<-|[]]]; try reflexivity;
        change (1000000 + 4130 =? 1000000 + (4096 + 14)) with false; change (1000000 + 4130 =? 1000000 + (4116 + 14)) with true;
        unfold in_window, body, slot; lia. }
  split.
  { intros e [<-|[<-|[]]].
    - exists 1%nat, 14, 14. split; [exists (mk_esym (4096 + 14) 1), 4096; repeat split|]. split; [discriminate|].
      split; [|split; reflexivity]. right. split; [|reflexivity]. intros (H & _). discriminate H.
    - exists 1%nat, 34, 38. split; [exists (mk_esym (4096 + 34) 1), 4096; repeat split|]. split; [discriminate|].
      split; [|split; reflexivity]. left. split; [repeat split|reflexivity]. }
  split; [vm_compute; reflexivity|]. split; [|split; vm_compute; reflexivity].
  intros i a p b -> Ha Hb. vm_compute in Ha. injection Ha as Ha. subst a. unfold ex2_mem.
  replace (1000000 + 4096 + p - (1000000 + 4096)) with p by lia. rewrite Hb. reflexivity.
Qed.

(** The same library without its symbol table: "ulp post" reports success and writes the same file; loaded, it is a
    process of C01's example, in which a livepatch for f is applied. *)
Example C97_stripped_case :
  (forall e, In e ex_entries -> no_symbol (ex_lib []) e) /\
  run_post io_ok (ex_lib []) = X_status 0 (ex_lib []) /\
  functions_ok (entry_points 65536 ex_entries) (fun _ => false) w_mem /\
  w_mem (slot false w_f) = 144 /\ w_mem (slot false w_f + 1) = 144 /\ In w_f (entry_points 65536 ex_entries) /\
  exists tr p, clean_history (entry_points 65536 ex_entries) (fun _ => false) (fresh w_mem (fun _ => 0)) tr p /\ no_pending p /\
    alive (p_lib p) /\ route (log_of tr) w_f = Some 1049088.
Proof.
  split; [intros e _ s []|]. split; [vm_compute; reflexivity|]. rewrite ex_points. split; [exact w_functions|].
  split; [reflexivity|]. split; [reflexivity|]. split; [left; reflexivity|].
  destruct (two_gen _ two_checked) as (p & a & E & N & A & C & V & R).
  exists (combine [ap 1 P1; ex] a), p. split; [apply run_clean; [exact two_ok|exact E]|].
  split; [exact N|]. split; [left; exact A|exact R].
Qed.

(** Each refusal occurs. *)
Example C97_refused_case :
  run_post io_ok (mk_library [None; Some (zs ".text")] [] []) = X_status 1 (mk_library [None; Some (zs ".text")] [] []) /\
  run_livepatchable io_ok (mk_library [None; Some (zs ".text")] [] []) = X_status 1 (mk_library [None; Some (zs ".text")] [] []) /\
  run_post (mk_io true true true false) (ex_lib ex_syms) = X_broken_file 1 /\
  run_post (mk_io true false true true) (ex_lib ex_syms) = X_abort (ex_lib ex_syms).
Proof. repeat split. Qed.
