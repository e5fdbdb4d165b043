(** For the example of C98: the process of IntrEx without libpulp in its list of loaded objects. *)
From Coq Require Import String.
From Verif Require Import Base BaseFacts StrModel InsnQModel LibModel MetaModel DlModel LibSpec SymProofs PtModel PtSpec PtProofs
  NtModel NtSpec NtProofs TextModel IntrModel IntrSpec IntrProofs Intr2Proofs Intr3Proofs Intr4Proofs IntrEx.
From Coq Require Import Lia.

Definition im_segs : list (Z * list Z) := (196864, ex_lm 65536 197888 197376) :: ex_segs.
Definition im_target : target := mk_target low (seg_get im_segs) 50 (repeat 0 8).

Lemma im_byte_segs : Forall (fun s => bytes_ok (snd s)) im_segs.
Proof.
  apply Forall_forall. intros s I.
  assert (B : forallb (fun s => forallb (fun x => (0 <=? x) && (x <? 256)) (snd s)) im_segs = true) by (vm_compute; reflexivity).
  rewrite forallb_forall in B. specialize (B s I). rewrite forallb_forall in B.
  apply Forall_forall. intros x X. specialize (B x X). unfold is_byte. lia.
Qed.
Lemma im_byte_mem : byte_mem (t_mem im_target).
Proof.
  unfold byte_mem. intros a. cbn [t_mem im_target]. pose proof im_byte_segs as F.
  induction F as [|[b d] l H F IH]; cbn [seg_get]; [unfold is_byte; lia|]. destruct (_ && _); [|exact IH]. cbn [snd] in H.
  destruct (nth_in_or_default (Z.to_nat (a - b)) d 0) as [I|E]; [|rewrite E; unfold is_byte; lia].
  unfold bytes_ok in H. rewrite Forall_forall in H. apply H. exact I.
Qed.
Lemma im_target_ok : target_ok im_target.
Proof.
  split; [exact im_byte_mem|]. split; [reflexivity|]. intros x y E. cbn [t_ok im_target]. unfold low.
  pose proof (Z.div_mod x 4096 ltac:(lia)). pose proof (Z.mod_pos_bound x 4096 ltac:(lia)).
  pose proof (Z.div_mod y 4096 ltac:(lia)). pose proof (Z.mod_pos_bound y 4096 ltac:(lia)).
  destruct (Z.leb_spec 0 x), (Z.leb_spec 0 y), (Z.ltb_spec x (2 ^ 32)), (Z.ltb_spec y (2 ^ 32)); try reflexivity; lia.
Qed.

Lemma im_holds a l : mem_read (t_mem im_target) a (List.length l) = l -> 0 <= a -> a + zlen l <= 2 ^ 32 ->
  holds (t_ok im_target) (t_mem im_target) a l.
Proof. intros H A B. split; [exact H|]. intros x X. cbn [t_ok im_target]. unfold low. lia. Qed.
Ltac im_hold := apply im_holds; [vm_compute; reflexivity|vm_compute; congruence|vm_compute; congruence].

Lemma im_phdrs : forall l a, 0 <= a -> a + 56 * zlen l <= 2 ^ 32 -> Forall phdr_ok l ->
  mem_read (t_mem im_target) a (List.length (flat_map ex_phdr l)) = flat_map ex_phdr l -> phdrs_at im_target a l.
Proof.
  induction l as [|p l IH]; intros a A B O H; [constructor|]. inversion O as [|? ? O1 O2]; subst. rewrite zlen_cons in B. pose proof (zlen_nonneg l).
  assert (U : u64 a = a) by (apply u64_id; lia).
  cbn [flat_map] in H. rewrite app_length, mem_read_app in H.
  apply app_eq_length in H; [|apply mem_read_length]. destruct H as [H1 H2].
  assert (PL : List.length (ex_phdr p) = 56%nat) by (unfold ex_phdr; rewrite !app_length, !le_enc_length, !repeat_length; reflexivity).
  apply (ph_cons im_target a p l (repeat 7 12) (repeat 7 16) (repeat 7 8)); try reflexivity; [assumption| |].
  - rewrite U. fold (ex_phdr p). apply im_holds; [exact H1|exact A|]. unfold zlen. rewrite PL. lia.
  - rewrite PL in H2. apply IH; [lia|lia|assumption|exact H2].
Qed.
Lemma im_dyns : forall l a, 0 <= a -> a + 16 * zlen l + 16 <= 2 ^ 32 -> Forall (fun e => 0 < fst e < 2 ^ 64 /\ 0 <= snd e < 2 ^ 64) l ->
  mem_read (t_mem im_target) a (List.length (ex_dyn l)) = ex_dyn l -> dyn_at im_target a l.
Proof.
  unfold ex_dyn. induction l as [|[k v] l IH]; intros a A B O H.
  - assert (U : u64 a = a) by (apply u64_id; cbn in B; lia). apply (dy_end im_target a 0). rewrite U. apply im_holds; [exact H|exact A|].
    change (zlen (le_enc 8 0 ++ le_enc 8 0)) with 16. cbn in B. lia.
  - inversion O as [|? ? [K V] O']; subst. cbn [fst snd] in K, V. rewrite zlen_cons in B. pose proof (zlen_nonneg l).
    assert (U : u64 a = a) by (apply u64_id; lia).
    cbn [flat_map fst snd] in H. rewrite <- app_assoc in H. rewrite app_length, mem_read_app in H.
    apply app_eq_length in H; [|apply mem_read_length]. destruct H as [H1 H2].
    assert (L : List.length (le_enc 8 k ++ le_enc 8 v) = 16%nat) by (rewrite app_length, !le_enc_length; reflexivity).
    apply dy_cons; [exact K|exact V| |].
    + rewrite U. apply im_holds; [exact H1|exact A|]. unfold zlen. rewrite L. lia.
    + rewrite L in H2. apply IH; [lia|lia|exact O'|exact H2].
Qed.
Lemma im_string a s : forallb (fun x => (0 <? x) && (x <? 256)) s = true ->
  mem_read (t_mem im_target) a (List.length s) = s -> t_mem im_target (a + zlen s) = 0 ->
  string_at (t_mem im_target) a s.
Proof. intros C H N. split; [apply ex_cstr_zs; exact C|]. split; assumption. Qed.
Lemma im_access a n : 0 <= a -> a + n <= 2 ^ 32 -> accessible (t_ok im_target) a n.
Proof. intros A B x X. cbn [t_ok im_target]. unfold low. lia. Qed.
Ltac im_str := apply im_string; vm_compute; reflexivity.
Ltac im_any := split; [im_str|]; split; [lia|]; split; [vm_compute; reflexivity|]; apply im_access; vm_compute; congruence.


Lemma im_seg a k : 0 < a -> a < 2 ^ 31 -> 
  mem_read (t_mem im_target) a (List.length (flat_map note_bytes (ex_notes k))) = flat_map note_bytes (ex_notes k) ->
  zlen (flat_map note_bytes (ex_notes k)) = 68 ->
  seg_in_memory (t_ok im_target) (t_mem im_target) a (ex_notes k).
Proof.
  intros A B H L. unfold seg_in_memory. rewrite L. split; [apply im_holds; [exact H|lia|lia]|]. repeat split; lia.
Qed.

Lemma im_main_elf : elf_at im_target 65536 77824 79872 0 (ex_id 5).
Proof.
  exists (repeat 7 32), 64, (repeat 7 14), (repeat 7 6), main_phs, 4096, main_dyn.
  do 5 (split; [reflexivity || (vm_compute; split; congruence)|]).
  split; [im_hold|]. split; [apply im_phdrs; [vm_compute; congruence|vm_compute; congruence|apply ex_phdr_ok; reflexivity|vm_compute; reflexivity]|].
  split; [apply (ex_only [mk_ph 6 64 168] (mk_ph 2 4096 64)); reflexivity|].
  split; [apply im_dyns; [vm_compute; congruence|vm_compute; congruence|apply ex_dyn_ok; reflexivity|vm_compute; reflexivity]|].
  split; [cbn; lia|]. split.
  - split; [nodup|]. cbn [In main_dyn map fst]. repeat split; try tauto; lia.
  - right. exists [mk_ph 6 64 168; mk_ph 2 4096 64], (mk_ph 4 8192 (zlen (flat_map note_bytes (ex_notes 5)))), [],
      [mk_note 1 [71; 78; 85; 0] (repeat 3 16)], [].
    split; [reflexivity|]. split; [repeat (constructor; [intros X; discriminate X|]); constructor|].
    split; [reflexivity|]. split; [constructor; [apply ex_plain_note|constructor]|]. split; [reflexivity|].
    split; [repeat constructor; unfold is_byte; lia|]. split; [|split; [reflexivity|cbn; lia]].
    change (u64 (65536 + ph_v (mk_ph 4 8192 (zlen (flat_map note_bytes (ex_notes 5)))))) with 73728.
    apply (im_seg 73728 5); [lia|lia|vm_compute; reflexivity|reflexivity].
Qed.
Lemma im_process_at : process_at im_target (pf_auxv ex_procfs) d_main [d_foo].
Proof.
  exists 70000, 65600, main_phs, 4096, main_dyn, 196608, 196864, 65536, 64, 197888, 0, 197376, 0.
  split; [cbn [pf_auxv ex_procfs map fst]; nodup|].
  split; [cbn; tauto|]. split; [cbn; tauto|]. split; [cbn; tauto|]. split; [cbn; tauto|].
  split; [lia|]. split; [lia|]. split; [vm_compute; reflexivity|].
  split; [apply im_phdrs; [vm_compute; congruence|vm_compute; congruence|apply ex_phdr_ok; reflexivity|vm_compute; reflexivity]|].
  split; [apply (ex_only [mk_ph 6 64 168] (mk_ph 2 4096 64)); reflexivity|].
  split; [left; split; [apply (ex_only [] (mk_ph 6 64 168)); reflexivity|split; [lia|reflexivity]]|].
  split; [apply im_dyns; [vm_compute; congruence|vm_compute; congruence|apply ex_dyn_ok; reflexivity|vm_compute; reflexivity]|].
  split; [cbn; lia|]. split; [cbn [main_dyn map fst]; nodup|]. split; [cbn; tauto|]. split; [lia|].
  split; [change (u64 (196608 + 8)) with 196616; im_hold|]. split; [cbn; lia|]. split; [lia|]. split; [lia|].
  split; [im_hold|]. split; [|cbn; lia].
  apply (ch_cons im_target 197376 d_foo [] 198400 0 0 0); [lia|cbn; lia|lia|lia|im_hold|im_any|cbn; lia|]. constructor.
Qed.

