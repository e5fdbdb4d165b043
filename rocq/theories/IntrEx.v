(** A process for the examples of C58 to C64. *)
From Coq Require Import String.
From Verif Require Import Base BaseFacts StrModel InsnQModel LibModel MetaModel DlModel LibSpec SymProofs PtModel PtSpec PtProofs
  NtModel NtSpec NtProofs TextModel IntrModel IntrSpec IntrProofs Intr2Proofs Intr3Proofs Intr4Proofs.
From Coq Require Import Lia.



(** Memory given by segments. *)
Fixpoint seg_get (l : list (Z * list Z)) (a : Z) : Z :=
  match l with
  | [] => 0
  | (b, d) :: t => if (b <=? a) && (a <? b + zlen d) then nth (Z.to_nat (a - b)) d 0 else seg_get t a
  end.
Definition low (x : Z) : bool := (0 <=? x) && (x <? 2 ^ 32).

Definition ex_ehdr (phnum : Z) : list Z :=
  repeat 7 32 ++ le_enc 8 64 ++ repeat 7 14 ++ le_enc 2 56 ++ le_enc 2 phnum ++ repeat 7 6.
Definition ex_phdr (p : phdr) : list Z :=
  le_enc 4 (ph_t p) ++ repeat 7 12 ++ le_enc 8 (ph_v p) ++ repeat 7 16 ++ le_enc 8 (ph_m p) ++ repeat 7 8.
Definition ex_dyn (l : list (Z * Z)) : list Z :=
  flat_map (fun e => le_enc 8 (fst e) ++ le_enc 8 (snd e)) l ++ le_enc 8 0 ++ le_enc 8 0.
Definition ex_lm (addr namep next : Z) : list Z :=
  le_enc 8 addr ++ le_enc 8 namep ++ le_enc 8 0 ++ le_enc 8 next ++ le_enc 8 0.
Definition ex_id (k : Z) : list Z := repeat k 20.
Definition ex_notes (k : Z) : list note := [mk_note 1 [71; 78; 85; 0] (repeat 3 16)] ++ gnu_build_id (ex_id k) :: [].

Definition main_phs : list phdr := [mk_ph 6 64 168; mk_ph 2 4096 64; mk_ph 4 8192 (zlen (flat_map note_bytes (ex_notes 5)))].
Definition main_dyn : list (Z * Z) := [(6, 77824); (21, 196608); (5, 79872)].
Definition pulp_phs : list phdr := [mk_ph 1 0 4096; mk_ph 4 8192 (zlen (flat_map note_bytes (ex_notes 9))); mk_ph 2 4096 64].
Definition pulp_dyn : list (Z * Z) := [(4, 337920); (5, 342016); (6, 339968)].
Definition foo_phs : list phdr := [mk_ph 2 4096 64].
Definition foo_dyn : list (Z * Z) := [(5, 405504); (6, 403456)].

(** The exported symbols of libpulp: a first empty one, all it should have, and one more. *)
Definition ex_syms : list dsym :=
  [ mk_dsym [] 0; mk_dsym (zs "__ulp_trigger") 4097; mk_dsym (zs "__ulp_check_patched") 4098;
    mk_dsym (zs "__ulp_state") 16640; mk_dsym (zs "__ulp_get_global_universe") 4100; mk_dsym (zs "malloc_hook") 4101;
    mk_dsym (zs "__ulp_msg_queue") 1048576; mk_dsym (zs "__ulp_revert_all") 4103; mk_dsym (zs "__ulp_metadata_buffer") 4104;
    mk_dsym (zs "__ulp_error_state") 16768; mk_dsym (zs "__ulp_version") 16384;
    mk_dsym (zs "__ulp_enable_or_disable_patching") 4105; mk_dsym (zs "__ulp_insn_queue") 4106;
    mk_dsym (zs "__ulp_asunsafe_begin") 4107 ].
Fixpoint ex_offs (off : Z) (l : list dsym) : list Z :=
  match l with [] => [] | s :: t => off :: ex_offs (off + zlen (ds_name s) + 1) t end.
Definition ex_strtab : list Z := flat_map (fun s => ds_name s ++ [0]) ex_syms ++ repeat 0 16.
Definition ex_symtab : list Z :=
  flat_map (fun p => le_enc 4 (fst p) ++ repeat 7 4 ++ le_enc 8 (ds_value (snd p)) ++ repeat 7 8)
           (combine (ex_offs 0 ex_syms) ex_syms).

Definition ex_patch1 : lpatch := mk_lpatch (repeat 11 32) (zs "libfoo.so") (zs "/usr/lib/patches/foo2.so") 1700000000.
Definition ex_patch2 : lpatch := mk_lpatch (repeat 12 32) (zs "libfoo.so") (zs "/usr/lib/patches/foo1.so") 1600000000.

Definition ex_segs : list (Z * list Z) :=
  [ (65536, ex_ehdr 3 ++ flat_map ex_phdr main_phs); (69632, ex_dyn main_dyn); (73728, flat_map note_bytes (ex_notes 5));
    (196608, le_enc 8 1 ++ le_enc 8 196864);
    (196864, ex_lm 65536 197888 197120); (197120, ex_lm 327680 198144 197376); (197376, ex_lm 393216 198400 0);
    (198144, zs "/usr/lib64/libpulp.so.0"); (198400, zs "/usr/lib64/libfoo.so");
    (327680, ex_ehdr 3 ++ flat_map ex_phdr pulp_phs); (331776, ex_dyn pulp_dyn); (335872, flat_map note_bytes (ex_notes 9));
    (337920, le_enc 4 3 ++ le_enc 4 14); (339968, ex_symtab); (342016, ex_strtab);
    (344064, zs "0.3.13"); (344320, [1] ++ repeat 0 7 ++ le_enc 8 345088);
    (344448, le_enc 4 0);
    (345088, patch_bytes (ULP_VERSION_TRIPLET 0 3 13) ex_patch1 345600 345856 0 345344 0);
    (345344, patch_bytes (ULP_VERSION_TRIPLET 0 3 13) ex_patch2 346112 346368 0 0 0);
    (345600, zs "libfoo.so"); (345856, zs "/usr/lib/patches/foo2.so"); (346112, zs "libfoo.so");
    (346368, zs "/usr/lib/patches/foo1.so");
    (393216, ex_ehdr 1 ++ flat_map ex_phdr foo_phs); (397312, ex_dyn foo_dyn);
    (1376256, zs "hi"); (3473408, le_enc 4 3 ++ le_enc 4 0 ++ le_enc 4 3) ].
Definition ex_target : target := mk_target low (seg_get ex_segs) 50 (repeat 0 8).
Definition ex_procfs : procfs := mk_procfs [(9, 70000); (3, 65600); (4, 56); (5, 3)] None (zs "server" ++ [10%Z]).
Definition d_main : odesc := mk_odesc 65536 (zs "server") 77824 79872 0 (ex_id 5).
Definition d_pulp : odesc := mk_odesc 327680 (zs "/usr/lib64/libpulp.so.0") 339968 342016 14 (ex_id 9).
Definition d_foo : odesc := mk_odesc 393216 (zs "/usr/lib64/libfoo.so") 403456 405504 0 (repeat 0 20).
Definition ex_process : process :=
  match initialize_data_structures ex_target ex_procfs true with
  | I_ok p => p
  | _ => mk_process (mk_dynobj [] 0 0 0 0 0 [] []) [] 0
  end.

Lemma ex_byte_segs : Forall (fun s => bytes_ok (snd s)) ex_segs.
Proof.
  apply Forall_forall. intros s I.
  assert (B : forallb (fun s => forallb (fun x => (0 <=? x) && (x <? 256)) (snd s)) ex_segs = true) by (vm_compute; reflexivity).
  rewrite forallb_forall in B. specialize (B s I). rewrite forallb_forall in B.
  apply Forall_forall. intros x X. specialize (B x X). unfold is_byte. lia.
Qed.
Lemma ex_byte_mem : byte_mem (t_mem ex_target).
Proof.
  unfold byte_mem. intros a. cbn [t_mem ex_target]. pose proof ex_byte_segs as F.
  induction F as [|[b d] l H F IH]; cbn [seg_get]; [unfold is_byte; lia|]. destruct (_ && _); [|exact IH]. cbn [snd] in H.
  destruct (nth_in_or_default (Z.to_nat (a - b)) d 0) as [I|E]; [|rewrite E; unfold is_byte; lia].
  unfold bytes_ok in H. rewrite Forall_forall in H. apply H. exact I.
Qed.
Lemma ex_target_ok : target_ok ex_target.
Proof.
  split; [exact ex_byte_mem|]. split; [reflexivity|]. intros x y E. cbn [t_ok ex_target]. unfold low.
  pose proof (Z.div_mod x 4096 ltac:(lia)). pose proof (Z.mod_pos_bound x 4096 ltac:(lia)).
  pose proof (Z.div_mod y 4096 ltac:(lia)). pose proof (Z.mod_pos_bound y 4096 ltac:(lia)).
  destruct (Z.leb_spec 0 x), (Z.leb_spec 0 y), (Z.ltb_spec x (2 ^ 32)), (Z.ltb_spec y (2 ^ 32)); try reflexivity; lia.
Qed.

Lemma ex_holds a l : mem_read (t_mem ex_target) a (List.length l) = l -> 0 <= a -> a + zlen l <= 2 ^ 32 ->
  holds (t_ok ex_target) (t_mem ex_target) a l.
Proof. intros H A B. split; [exact H|]. intros x X. cbn [t_ok ex_target]. unfold low. lia. Qed.
Ltac ex_hold := apply ex_holds; [vm_compute; reflexivity|vm_compute; congruence|vm_compute; congruence].

Lemma ex_phdrs : forall l a, 0 <= a -> a + 56 * zlen l <= 2 ^ 32 -> Forall phdr_ok l ->
  mem_read (t_mem ex_target) a (List.length (flat_map ex_phdr l)) = flat_map ex_phdr l -> phdrs_at ex_target a l.
Proof.
  induction l as [|p l IH]; intros a A B O H; [constructor|]. inversion O as [|? ? O1 O2]; subst. rewrite zlen_cons in B. pose proof (zlen_nonneg l).
  assert (U : u64 a = a) by (apply u64_id; lia).
  cbn [flat_map] in H. rewrite app_length, mem_read_app in H.
  apply app_eq_length in H; [|apply mem_read_length]. destruct H as [H1 H2].
  assert (PL : List.length (ex_phdr p) = 56%nat) by (unfold ex_phdr; rewrite !app_length, !le_enc_length, !repeat_length; reflexivity).
  apply (ph_cons ex_target a p l (repeat 7 12) (repeat 7 16) (repeat 7 8)); try reflexivity; [assumption| |].
  - rewrite U. fold (ex_phdr p). apply ex_holds; [exact H1|exact A|]. unfold zlen. rewrite PL. lia.
  - rewrite PL in H2. apply IH; [lia|lia|assumption|exact H2].
Qed.
Lemma ex_dyns : forall l a, 0 <= a -> a + 16 * zlen l + 16 <= 2 ^ 32 -> Forall (fun e => 0 < fst e < 2 ^ 64 /\ 0 <= snd e < 2 ^ 64) l ->
  mem_read (t_mem ex_target) a (List.length (ex_dyn l)) = ex_dyn l -> dyn_at ex_target a l.
Proof.
  unfold ex_dyn. induction l as [|[k v] l IH]; intros a A B O H.
  - assert (U : u64 a = a) by (apply u64_id; cbn in B; lia). apply (dy_end ex_target a 0). rewrite U. apply ex_holds; [exact H|exact A|].
    change (zlen (le_enc 8 0 ++ le_enc 8 0)) with 16. cbn in B. lia.
  - inversion O as [|? ? [K V] O']; subst. cbn [fst snd] in K, V. rewrite zlen_cons in B. pose proof (zlen_nonneg l).
    assert (U : u64 a = a) by (apply u64_id; lia).
    cbn [flat_map fst snd] in H. rewrite <- app_assoc in H. rewrite app_length, mem_read_app in H.
    apply app_eq_length in H; [|apply mem_read_length]. destruct H as [H1 H2].
    assert (L : List.length (le_enc 8 k ++ le_enc 8 v) = 16%nat) by (rewrite app_length, !le_enc_length; reflexivity).
    apply dy_cons; [exact K|exact V| |].
    + rewrite U. apply ex_holds; [exact H1|exact A|]. unfold zlen. rewrite L. lia.
    + rewrite L in H2. apply IH; [lia|lia|exact O'|exact H2].
Qed.
Lemma ex_cstr_zs s : forallb (fun x => (0 <? x) && (x <? 256)) s = true -> cstr_ok s.
Proof. intros H. apply Forall_forall. intros x X. rewrite forallb_forall in H. specialize (H x X). unfold is_cchar. lia. Qed.
Lemma ex_string a s : forallb (fun x => (0 <? x) && (x <? 256)) s = true ->
  mem_read (t_mem ex_target) a (List.length s) = s -> t_mem ex_target (a + zlen s) = 0 ->
  string_at (t_mem ex_target) a s.
Proof. intros C H N. split; [apply ex_cstr_zs; exact C|]. split; assumption. Qed.
Lemma ex_access a n : 0 <= a -> a + n <= 2 ^ 32 -> accessible (t_ok ex_target) a n.
Proof. intros A B x X. cbn [t_ok ex_target]. unfold low. lia. Qed.
Ltac ex_str := apply ex_string; vm_compute; reflexivity.
Ltac ex_any := split; [ex_str|]; split; [lia|]; split; [vm_compute; reflexivity|]; apply ex_access; vm_compute; congruence.
Ltac ex_heap := split; [ex_str|]; split; [lia|]; split; [reflexivity|]; split; [vm_compute; reflexivity|]; apply ex_access; vm_compute; congruence.

Lemma ex_only l1 p l2 : forallb (fun q => negb (ph_t q =? ph_t p)) (l1 ++ l2) = true -> only (l1 ++ p :: l2) (ph_t p) (ph_v p).
Proof.
  intros H. exists l1, p, l2. repeat split. apply Forall_forall. intros q Q. rewrite forallb_forall in H. specialize (H q Q). lia.
Qed.
Lemma ex_phdr_ok l : forallb (fun p => (0 <=? ph_t p) && (ph_t p <? 2 ^ 32) && (0 <=? ph_v p) && (ph_v p <? 2 ^ 64) &&
                                   (0 <=? ph_m p) && (ph_m p <? 2 ^ 64)) l = true -> Forall phdr_ok l.
Proof. intros H. apply Forall_forall. intros p P. rewrite forallb_forall in H. specialize (H p P). unfold phdr_ok. lia. Qed.
Lemma ex_dyn_ok l : forallb (fun e : Z * Z => (0 <? fst e) && (fst e <? 2 ^ 64) && (0 <=? snd e) && (snd e <? 2 ^ 64)) l = true ->
  Forall (fun e => 0 < fst e < 2 ^ 64 /\ 0 <= snd e < 2 ^ 64) l.
Proof. intros H. apply Forall_forall. intros p P. rewrite forallb_forall in H. specialize (H p P). lia. Qed.
Ltac nodup := repeat (apply NoDup_cons; [cbn; intuition lia|]); apply NoDup_nil.

Lemma ex_plain_note : plain_note (mk_note 1 [71; 78; 85; 0] (repeat 3 16)).
Proof. unfold plain_note, note_ok; cbn [nt_type nt_name nt_desc]. repeat split; try (vm_compute; congruence); repeat constructor; unfold is_byte; lia. Qed.
Lemma ex_seg a k : 0 < a -> a < 2 ^ 31 -> 
  mem_read (t_mem ex_target) a (List.length (flat_map note_bytes (ex_notes k))) = flat_map note_bytes (ex_notes k) ->
  zlen (flat_map note_bytes (ex_notes k)) = 68 ->
  seg_in_memory (t_ok ex_target) (t_mem ex_target) a (ex_notes k).
Proof.
  intros A B H L. unfold seg_in_memory. rewrite L. split; [apply ex_holds; [exact H|lia|lia]|]. repeat split; lia.
Qed.

Lemma ex_main_elf : elf_at ex_target 65536 77824 79872 0 (ex_id 5).
Proof.
  exists (repeat 7 32), 64, (repeat 7 14), (repeat 7 6), main_phs, 4096, main_dyn.
  do 5 (split; [reflexivity || (vm_compute; split; congruence)|]).
  split; [ex_hold|]. split; [apply ex_phdrs; [vm_compute; congruence|vm_compute; congruence|apply ex_phdr_ok; reflexivity|vm_compute; reflexivity]|].
  split; [apply (ex_only [mk_ph 6 64 168] (mk_ph 2 4096 64)); reflexivity|].
  split; [apply ex_dyns; [vm_compute; congruence|vm_compute; congruence|apply ex_dyn_ok; reflexivity|vm_compute; reflexivity]|].
  split; [cbn; lia|]. split.
  - split; [nodup|]. cbn [In main_dyn map fst]. repeat split; try tauto; lia.
  - right. exists [mk_ph 6 64 168; mk_ph 2 4096 64], (mk_ph 4 8192 (zlen (flat_map note_bytes (ex_notes 5)))), [],
      [mk_note 1 [71; 78; 85; 0] (repeat 3 16)], [].
    split; [reflexivity|]. split; [repeat (constructor; [intros X; discriminate X|]); constructor|].
    split; [reflexivity|]. split; [constructor; [apply ex_plain_note|constructor]|]. split; [reflexivity|].
    split; [repeat constructor; unfold is_byte; lia|]. split; [|split; [reflexivity|cbn; lia]].
    change (u64 (65536 + ph_v (mk_ph 4 8192 (zlen (flat_map note_bytes (ex_notes 5)))))) with 73728.
    apply (ex_seg 73728 5); [lia|lia|vm_compute; reflexivity|reflexivity].
Qed.
Lemma ex_pulp_elf : elf_at ex_target 327680 339968 342016 14 (ex_id 9).
Proof.
  exists (repeat 7 32), 64, (repeat 7 14), (repeat 7 6), pulp_phs, 4096, pulp_dyn.
  do 5 (split; [reflexivity || (vm_compute; split; congruence)|]).
  split; [ex_hold|]. split; [apply ex_phdrs; [vm_compute; congruence|vm_compute; congruence|apply ex_phdr_ok; reflexivity|vm_compute; reflexivity]|].
  split; [apply (ex_only [mk_ph 1 0 4096; mk_ph 4 8192 (zlen (flat_map note_bytes (ex_notes 9)))] (mk_ph 2 4096 64) []); reflexivity|].
  split; [apply ex_dyns; [vm_compute; congruence|vm_compute; congruence|apply ex_dyn_ok; reflexivity|vm_compute; reflexivity]|].
  split; [cbn; lia|]. split.
  - split; [nodup|]. cbn [In pulp_dyn map fst]. repeat split; try tauto; try lia. left. exists 337920.
    split; [tauto|]. split; [lia|]. split; [lia|]. change (u64 (337920 + 4)) with 337924. ex_hold.
  - right. exists [mk_ph 1 0 4096], (mk_ph 4 8192 (zlen (flat_map note_bytes (ex_notes 9)))), [mk_ph 2 4096 64],
      [mk_note 1 [71; 78; 85; 0] (repeat 3 16)], [].
    split; [reflexivity|]. split; [repeat (constructor; [intros X; discriminate X|]); constructor|].
    split; [reflexivity|]. split; [constructor; [apply ex_plain_note|constructor]|]. split; [reflexivity|].
    split; [repeat constructor; unfold is_byte; lia|]. split; [|split; [reflexivity|cbn; lia]].
    change (u64 (327680 + ph_v (mk_ph 4 8192 (zlen (flat_map note_bytes (ex_notes 9)))))) with 335872.
    apply (ex_seg 335872 9); [lia|lia|vm_compute; reflexivity|reflexivity].
Qed.
Lemma ex_foo_elf : elf_at ex_target 393216 403456 405504 0 (repeat 0 20).
Proof.
  exists (repeat 7 32), 64, (repeat 7 14), (repeat 7 6), foo_phs, 4096, foo_dyn.
  do 5 (split; [reflexivity || (vm_compute; split; congruence)|]).
  split; [ex_hold|]. split; [apply ex_phdrs; [vm_compute; congruence|vm_compute; congruence|apply ex_phdr_ok; reflexivity|vm_compute; reflexivity]|].
  split; [apply (ex_only [] (mk_ph 2 4096 64) []); reflexivity|].
  split; [apply ex_dyns; [vm_compute; congruence|vm_compute; congruence|apply ex_dyn_ok; reflexivity|vm_compute; reflexivity]|].
  split; [cbn; lia|]. split.
  - split; [nodup|]. cbn [In foo_dyn map fst]. repeat split; try tauto; lia.
  - left. split; [|reflexivity]. constructor; [intros X; discriminate X|constructor].
Qed.

Lemma ex_process_at : process_at ex_target (pf_auxv ex_procfs) d_main [d_pulp; d_foo].
Proof.
  exists 70000, 65600, main_phs, 4096, main_dyn, 196608, 196864, 65536, 64, 197888, 0, 197120, 0.
  split; [cbn [pf_auxv ex_procfs map fst]; nodup|].
  split; [cbn; tauto|]. split; [cbn; tauto|]. split; [cbn; tauto|]. split; [cbn; tauto|].
  split; [lia|]. split; [lia|]. split; [vm_compute; reflexivity|].
  split; [apply ex_phdrs; [vm_compute; congruence|vm_compute; congruence|apply ex_phdr_ok; reflexivity|vm_compute; reflexivity]|].
  split; [apply (ex_only [mk_ph 6 64 168] (mk_ph 2 4096 64)); reflexivity|].
  split; [left; split; [apply (ex_only [] (mk_ph 6 64 168)); reflexivity|split; [lia|reflexivity]]|].
  split; [apply ex_dyns; [vm_compute; congruence|vm_compute; congruence|apply ex_dyn_ok; reflexivity|vm_compute; reflexivity]|].
  split; [cbn; lia|]. split; [cbn [main_dyn map fst]; nodup|]. split; [cbn; tauto|]. split; [lia|].
  split; [change (u64 (196608 + 8)) with 196616; ex_hold|]. split; [cbn; lia|]. split; [lia|]. split; [lia|].
  split; [ex_hold|]. split; [|cbn; lia].
  apply (ch_cons ex_target 197120 d_pulp [d_foo] 198144 0 197376 0); [lia|cbn; lia|lia|lia|ex_hold|ex_any|cbn; lia|].
  apply (ch_cons ex_target 197376 d_foo [] 198400 0 0 0); [lia|cbn; lia|lia|lia|ex_hold|ex_any|cbn; lia|]. constructor.
Qed.

Lemma ex_symtab_at : symtab_at ex_target 342016 339968 ex_syms.
Proof.
  assert (G : forall l off a, a + 24 * zlen l + 24 < 2 ^ 32 -> 0 < a ->
    forallb (fun s => forallb (fun x => (0 <? x) && (x <? 256)) (ds_name s) && (0 <=? ds_value s) && (ds_value s <? 2 ^ 64)) l = true ->
    0 <= off -> off + fold_right (fun s n => zlen (ds_name s) + 1 + n) 0 l < 2 ^ 20 ->
    mem_read (t_mem ex_target) a (List.length (flat_map (fun p => le_enc 4 (fst p) ++ repeat 7 4 ++ le_enc 8 (ds_value (snd p)) ++ repeat 7 8)
           (combine (ex_offs off l) l))) = flat_map (fun p => le_enc 4 (fst p) ++ repeat 7 4 ++ le_enc 8 (ds_value (snd p)) ++ repeat 7 8)
           (combine (ex_offs off l) l) ->
    mem_read (t_mem ex_target) (342016 + off) (List.length (flat_map (fun s => ds_name s ++ [0]) l)) = flat_map (fun s => ds_name s ++ [0]) l ->
    symtab_at ex_target 342016 a l).
  { induction l as [|s l IH]; intros off a B A O F W H1 H2; [constructor|].
    cbn [forallb] in O. apply andb_prop in O. destruct O as [O O']. apply andb_prop in O. destruct O as [O V2].
    apply andb_prop in O. destruct O as [O V1]. cbn [fold_right] in W. rewrite zlen_cons in B.
    pose proof (zlen_nonneg l). pose proof (zlen_nonneg (ds_name s)).
    assert (FN : forall k : list dsym, 0 <= fold_right (fun s n => zlen (ds_name s) + 1 + n) 0 k).
    { induction k as [|x k IHk]; cbn [fold_right]; [lia|]. pose proof (zlen_nonneg (ds_name x)). lia. }
    specialize (FN l).
    cbn [ex_offs combine flat_map fst snd] in H1. rewrite app_length, mem_read_app in H1.
    apply app_eq_length in H1; [|apply mem_read_length]. destruct H1 as [H1 H1'].
    cbn [flat_map] in H2. rewrite app_length, mem_read_app in H2.
    apply app_eq_length in H2; [|apply mem_read_length]. destruct H2 as [H2 H2'].
    assert (L : List.length (le_enc 4 off ++ repeat 7 4 ++ le_enc 8 (ds_value s) ++ repeat 7 8) = 24%nat)
      by (rewrite !app_length, !le_enc_length; reflexivity).
    assert (L2 : List.length (ds_name s ++ [0]) = S (List.length (ds_name s))) by (rewrite app_length; cbn; lia).
    apply (st_cons ex_target 342016 a s l off (repeat 7 4) (repeat 7 8)); try reflexivity; try lia.
    - apply ex_holds; [exact H1|lia|unfold zlen; rewrite L; lia].
    - rewrite app_length, mem_read_app in H2. apply app_eq_length in H2; [|apply mem_read_length]. destruct H2 as [N1 N2].
      apply ex_string; [exact O|exact N1|]. change (mem_read (t_mem ex_target) (342016 + off + zlen (ds_name s)) 1 = [0]) in N2.
      cbn [mem_read] in N2. injection N2 as N2. exact N2.
    - apply ex_access; lia.
    - apply (IH (off + zlen (ds_name s) + 1)); try lia; try assumption.
      rewrite L2 in H2'. replace (342016 + (off + zlen (ds_name s) + 1)) with (342016 + off + Z.of_nat (S (List.length (ds_name s)))) by (unfold zlen; lia). exact H2'. }
  apply (G ex_syms 0 339968); vm_compute; congruence || reflexivity.
Qed.
