(** Property C42: finding the build ID. *)
From Verif Require Import Base BaseFacts LibModel DlModel LibSpec SymProofs PtModel NtModel NtSpec NtProofs.
From Coq Require Import Lia.

(** The tool finds the build ID in the memory of a process: after any segments of
    plain notes, and in its segment after any plain notes and before any other
    bytes. What is missing: notes of odd length ([C42_odd_length_refuted]) and
    notes of type 3 of another owner ([C42_other_owner_refuted]) in front. *)
Theorem C42_tool_partial : forall ok m segs a pre id post rest fuel,
  Forall (fun s => snd s <> [] /\ Forall plain_note (snd s) /\ seg_in_memory ok m (fst s) (snd s)) segs ->
  Forall plain_note pre -> zlen id = 20 -> bytes_ok id ->
  seg_in_memory ok m a (pre ++ gnu_build_id id :: post) ->
  (length pre < fuel)%nat -> Forall (fun s => (length (snd s) < fuel)%nat) segs ->
  tool_build_id fuel ok m
    (map (fun s => (fst s, zlen (flat_map note_bytes (snd s)))) segs ++
     (a, zlen (flat_map note_bytes (pre ++ gnu_build_id id :: post))) :: rest) = Some id.
Proof.
  intros ok m segs a pre id post rest fuel Hs Hp Hl Hb Hm Hf Hfs.
  assert (G : exists b, tool_find_note fuel ok m
    (map (fun s => (fst s, zlen (flat_map note_bytes (snd s)))) segs ++
     (a, zlen (flat_map note_bytes (pre ++ gnu_build_id id :: post))) :: rest) = W_found b 20 /\ 0 < b /\ holds ok m b id).
  { induction segs as [|[sa sn] segs IH]; cbn [map app tool_find_note fst snd].
    - destruct (walk_found ok m pre id post fuel a Hp Hl Hb Hm Hf) as (b & -> & B). exists b. split; [reflexivity|exact B].
    - inversion Hs as [|x l (S1 & S2 & S3) Hs']; subst. inversion Hfs as [|x l F1 Hfs']; subst. cbn [fst snd] in *.
      rewrite (walk_none ok m sn fuel sa) by (assumption || lia). apply IH; assumption. }
  destruct G as (b & E & Hb0 & Hh). unfold tool_build_id. rewrite E.
  replace (b =? 0) with false by (symmetry; apply Z.eqb_neq; lia). cbn [negb andb].
  change (20 =? BUILDID_LEN) with true. cbn iota.
  assert (L : length id = 20%nat) by (unfold zlen in Hl; lia).
  rewrite <- L. rewrite (holds_rd _ _ _ _ Hh). reflexivity.
Qed.
Print Assumptions C42_tool_partial.

(** A property note, then an ABI note, then the build ID, as in a library built by
    a distribution. *)
Definition id_ex : list Z := map Z.of_nat (seq 1 20).
Definition prop_note : note := mk_note 5 [71; 78; 85; 0] (repeat 7 16).
Definition abi_note : note := mk_note 1 [71; 78; 85; 0] (repeat 3 14).
Definition mem_of (a : Z) (l : list Z) : mem := mem_write (fun _ => 0) a l.
Definition ok_of (a n : Z) (x : Z) : bool := (a <=? x) && (x <? a + n).

Lemma seg_mem_of a ns n : 0 < a -> a + zlen (flat_map note_bytes ns) < 2 ^ 64 ->
  zlen (flat_map note_bytes ns) < 2 ^ 32 -> zlen (flat_map note_bytes ns) <= n ->
  seg_in_memory (ok_of a n) (mem_of a (flat_map note_bytes ns)) a ns.
Proof.
  intros H1 H2 H3 H4. unfold seg_in_memory, holds. split; [|auto].
  split; [apply mem_read_write_same|]. intros x Hx. unfold ok_of.
  apply Bool.andb_true_iff. split; [apply Z.leb_le|apply Z.ltb_lt]; lia.
Qed.

Example C42_tool_partial_case :
  let ns := [prop_note; abi_note] ++ gnu_build_id id_ex :: [abi_note] in
  let m := mem_of 4096 (flat_map note_bytes ns) in
  Forall plain_note [prop_note; abi_note] /\ seg_in_memory (ok_of 4096 1000) m 4096 ns /\
  tool_build_id 10 (ok_of 4096 1000) m [(4096, zlen (flat_map note_bytes ns))] = Some id_ex.
Proof.
  cbv zeta. split; [|split; [apply seg_mem_of; vm_compute; congruence|vm_compute; reflexivity]].
  assert (B : forall v k, 0 <= v < 256 -> bytes_ok (repeat v k)).
  { intros v k Hv. induction k as [|k IH]; constructor; [exact Hv|exact IH]. }
  repeat (apply Forall_cons || apply Forall_nil); unfold plain_note, note_ok; cbn [nt_type nt_name nt_desc prop_note abi_note];
    repeat split; try (vm_compute; congruence); try (apply B; lia); try (repeat constructor; unfold is_byte; lia).
Qed.

(** A build ID of another length is never taken for one of 20 bytes: the library then
    has no known build ID. (18 is rounded up to 20.) *)
Theorem C42_tool_other_length : forall ok m segs a pre id post rest fuel,
  Forall (fun s => snd s <> [] /\ Forall plain_note (snd s) /\ seg_in_memory ok m (fst s) (snd s)) segs ->
  Forall plain_note pre -> zlen id < 2 ^ 30 -> zlen id <> 20 -> zlen id <> 18 -> bytes_ok id ->
  seg_in_memory ok m a (pre ++ gnu_build_id id :: post) ->
  (length pre < fuel)%nat -> Forall (fun s => (length (snd s) < fuel)%nat) segs ->
  tool_build_id fuel ok m
    (map (fun s => (fst s, zlen (flat_map note_bytes (snd s)))) segs ++
     (a, zlen (flat_map note_bytes (pre ++ gnu_build_id id :: post))) :: rest) = Some (repeat 0 20).
Proof.
  intros ok m segs a pre id post rest fuel Hs Hp Hl N20 N18 Hb Hm Hf Hfs.
  assert (G : exists b, tool_find_note fuel ok m
    (map (fun s => (fst s, zlen (flat_map note_bytes (snd s)))) segs ++
     (a, zlen (flat_map note_bytes (pre ++ gnu_build_id id :: post))) :: rest) = W_found b (bump4 (zlen id))).
  { induction segs as [|[sa sn] segs IH]; cbn [map app tool_find_note fst snd].
    - destruct (walk_found_any ok m pre id post fuel a Hp Hl Hb Hm Hf) as (b & ->). exists b. reflexivity.
    - inversion Hs as [|x l (S1 & S2 & S3) Hs']; subst. inversion Hfs as [|x l F1 Hfs']; subst. cbn [fst snd] in *.
      rewrite (walk_none ok m sn fuel sa) by (assumption || lia). apply IH; assumption. }
  destruct G as (b & E). unfold tool_build_id. rewrite E.
  assert (B : (bump4 (zlen id) =? BUILDID_LEN) = false).
  { apply Z.eqb_neq. unfold bump4, u32, BUILDID_LEN. pose proof (zlen_nonneg id). pose proof (Z.mod_pos_bound (zlen id) 4).
    rewrite Z.mod_small by lia. pose proof (Z.div_mod (zlen id) 4). lia. }
  rewrite B, Bool.andb_false_r. reflexivity.
Qed.
Print Assumptions C42_tool_other_length.

Example C42_tool_other_length_case :
  let ns := [prop_note; abi_note] ++ gnu_build_id (repeat 9 16) :: [abi_note] in
  let m := mem_of 4096 (flat_map note_bytes ns) in
  Forall plain_note [prop_note; abi_note] /\ seg_in_memory (ok_of 4096 1000) m 4096 ns /\
  tool_build_id 10 (ok_of 4096 1000) m [(4096, zlen (flat_map note_bytes ns))] = Some (repeat 0 20).
Proof.
  cbv zeta. split; [exact (proj1 C42_tool_partial_case)|]. split; [apply seg_mem_of; vm_compute; congruence|vm_compute; reflexivity].
Qed.

(** Finding: the lengths are rounded up by adding the remainder modulo 4, which is
    wrong for odd lengths. A note with a descriptor of 5 bytes, correctly padded,
    in front of the build ID makes the tool see no build ID at all: the process
    is then never patched. *)
Theorem C42_odd_length_refuted : exists n id m ok a,
  note_ok n /\ nt_type n <> 3 /\ zlen id = 20 /\ seg_in_memory ok m a [n; gnu_build_id id] /\
  forall fuel, tool_build_id (3 + fuel) ok m [(a, zlen (flat_map note_bytes [n; gnu_build_id id]))] = Some (repeat 0 20) /\
  id <> repeat 0 20.
Proof.
  exists (mk_note 1 [71; 78; 85; 0] [1; 2; 3; 4; 5]), id_ex,
    (mem_of 4096 (flat_map note_bytes [mk_note 1 [71; 78; 85; 0] [1; 2; 3; 4; 5]; gnu_build_id id_ex])), (ok_of 4096 1000), 4096.
  split. { unfold note_ok; cbn [nt_type nt_name nt_desc]. repeat split; try (vm_compute; congruence); try lia;
    repeat constructor; unfold is_byte; lia. }
  split; [discriminate|]. split; [reflexivity|]. split; [apply seg_mem_of; vm_compute; congruence|].
  intros fuel. split; [vm_compute; reflexivity|vm_compute; discriminate].
Qed.
Print Assumptions C42_odd_length_refuted.

(** Finding: the owner of a note is not looked at. A note of type 3 of another
    owner, with a descriptor of 20 bytes, is taken for the build ID. *)
Theorem C42_other_owner_refuted : exists n id m ok a,
  note_ok n /\ nt_name n <> [71; 78; 85; 0] /\ zlen id = 20 /\ seg_in_memory ok m a [n; gnu_build_id id] /\
  forall fuel, tool_build_id (1 + fuel) ok m [(a, zlen (flat_map note_bytes [n; gnu_build_id id]))] = Some (nt_desc n) /\
  id <> nt_desc n.
Proof.
  exists (mk_note 3 [88; 69; 78; 0] (repeat 9 20)), id_ex,
    (mem_of 4096 (flat_map note_bytes [mk_note 3 [88; 69; 78; 0] (repeat 9 20); gnu_build_id id_ex])), (ok_of 4096 1000), 4096.
  split. { unfold note_ok; cbn [nt_type nt_name nt_desc]. repeat split; try (vm_compute; congruence); try lia;
    repeat constructor; unfold is_byte; lia. }
  split; [discriminate|]. split; [reflexivity|]. split; [apply seg_mem_of; vm_compute; congruence|].
  intros fuel. split; [vm_compute; reflexivity|vm_compute; discriminate].
Qed.
Print Assumptions C42_other_owner_refuted.

(** ** libpulp *)

(** libpulp's own walk reaches the first build ID note of a segment whatever other
    well-formed notes precede it: its verdict is a function of that note alone. *)
Theorem C42_library : forall ns n bid fuel,
  Forall note_ok ns -> find is_build_id ns = Some n -> (length ns < fuel)%nat ->
  note_loop fuel (flat_map note_bytes ns) 0 (zlen (flat_map note_bytes ns)) (zlen bid) bid =
  note_loop 1 (note_bytes n) 0 (zlen (note_bytes n)) (zlen bid) bid.
Proof.
  intros ns n bid fuel Hok Hf Hl.
  pose proof (note_loop_notes bid ns fuel [] Hok Hl) as E. cbn [app] in E. change (zlen []) with 0 in E. rewrite E, Hf.
  assert (Hn : note_ok n).
  { apply find_some in Hf as [Hi _]. rewrite Forall_forall in Hok. apply Hok. exact Hi. }
  assert (Hb : is_build_id n = true) by (apply find_some in Hf as [_ Hf]; exact Hf).
  pose proof (is_build_id_small n Hb) as Hsz.
  cbn [note_loop]. unfold SIZEOF_BUILD_ID_NOTE. replace (16 <=? zlen (note_bytes n)) with true by (symmetry; apply Z.leb_le; lia).
  cbn [negb]. destruct (note_fields [] n [] Hn) as (F1 & F2 & F3 & F4). cbn [app] in *. rewrite app_nil_r in *.
  change (zlen []) with 0 in *. rewrite F1. rewrite F2. rewrite F3.
  unfold is_build_id in Hb. unfold NT_GNU_BUILD_ID. rewrite Hb. cbn [mismatch].
  destruct (zlen (nt_desc n) =? zlen bid); [|reflexivity]. rewrite F4; [reflexivity|].
  apply Bool.andb_true_iff in Hb as [Hb _]. apply Bool.andb_true_iff in Hb as [_ Hb]. apply Z.eqb_eq. exact Hb.
Qed.
Print Assumptions C42_library.

Example C42_library_case :
  find is_build_id [mk_note 1 [71; 78; 85; 0] [1; 2; 3; 4; 5]; gnu_build_id id_ex] = Some (gnu_build_id id_ex) /\
  note_ok (gnu_build_id id_ex).
Proof.
  split; [reflexivity|]. unfold note_ok; cbn [nt_type nt_name nt_desc gnu_build_id].
  repeat split; try (vm_compute; congruence); try lia; repeat constructor; unfold is_byte; vm_compute; congruence.
Qed.

(** ** The packer *)

(** The packer finds the build ID if it is the first note of the section. *)
Theorem C42_packer_partial : forall id post fuel,
  zlen id = 20 -> bytes_ok id ->
  packer_get_build_id (S fuel) (note_bytes (gnu_build_id id) ++ post) = P_found id.
Proof.
  intros id post fuel Hl Hb. unfold packer_get_build_id. cbn [packer_walk]. unfold gelf_getnote.
  set (n := gnu_build_id id).
  assert (Hn : note_ok n).
  { unfold note_ok, n, gnu_build_id. cbn [nt_type nt_name nt_desc]. rewrite Hl.
    split; [lia|]. split; [repeat constructor; unfold is_byte; lia|]. split; [assumption|]. split; [cbn; lia|lia]. }
  destruct (note_fields [] n post Hn) as (F1 & F2 & F3 & F4). cbn [app] in *. change (zlen []) with 0 in *.
  assert (Ln : zlen (note_bytes n) = 36).
  { rewrite note_bytes_len, !pad4_len. unfold n, gnu_build_id. cbn [nt_name nt_desc]. rewrite Hl. reflexivity. }
  rewrite F1, F2, F3. change (nt_desc n) with id in *. change (nt_type n) with 3. change (zlen (nt_name n)) with 4 in *.
  rewrite Hl in *. change (align4 4) with 4. change (align4 20) with 20. rewrite zlen_app, Ln.
  pose proof (zlen_nonneg post).
  replace (36 + zlen post - (0 + 12) <? 4) with false by (symmetry; apply Z.ltb_ge; lia).
  replace (36 + zlen post - (0 + 12 + 4) <? 20) with false by (symmetry; apply Z.ltb_ge; lia).
  change (20 =? 0) with false. change (3 =? NT_GNU_BUILD_ID) with true. cbn [orb andb]. cbn iota.
  specialize (F4 eq_refl). unfold sub_bytes in F4.
  destruct ((0 <=? 0 + 16) && (0 + 16 + 20 <=? zlen (note_bytes n ++ post))); [|discriminate].
  apply Some_inj in F4. change (P_found (firstn (Z.to_nat 20) (skipn (Z.to_nat (0 + 16)) (note_bytes n ++ post))) = P_found id).
  rewrite F4. reflexivity.
Qed.
Print Assumptions C42_packer_partial.

Example C42_packer_partial_case : zlen id_ex = 20 /\ bytes_ok id_ex.
Proof. split; [reflexivity|]. repeat constructor; unfold is_byte; vm_compute; congruence. Qed.

(** Finding: because of a misplaced parenthesis the second note is looked for at
    offset 1. With any ordinary note in front, the packer does not find the build
    ID ... *)
Theorem C42_packer_second_note_refuted : exists n id,
  note_ok n /\ nt_type n <> 3 /\ zlen id = 20 /\
  forall fuel, packer_get_build_id (2 + fuel) (flat_map note_bytes [n; gnu_build_id id]) = P_none.
Proof.
  exists abi_note, id_ex. split.
  { unfold note_ok; cbn [nt_type nt_name nt_desc abi_note]. repeat split; try (vm_compute; congruence); try lia;
    repeat constructor; unfold is_byte; lia. }
  split; [discriminate|]. split; [reflexivity|]. intros fuel. vm_compute. reflexivity.
Qed.
Print Assumptions C42_packer_second_note_refuted.

(** ... or never ends. *)
Theorem C42_packer_endless_refuted : exists n id,
  note_ok n /\ nt_type n <> 3 /\ zlen id = 20 /\
  forall fuel, packer_get_build_id fuel (flat_map note_bytes [n; gnu_build_id id]) = P_fuel.
Proof.
  exists (mk_note 256 [71; 78; 85; 0] (repeat 0 256)), id_ex. split.
  { unfold note_ok; cbn [nt_type nt_name nt_desc]. repeat split; try (vm_compute; congruence); try lia.
    - repeat constructor; unfold is_byte; lia.
    - apply Forall_forall. intros x Hx. apply repeat_spec in Hx. subst x. unfold is_byte. lia. }
  split; [discriminate|]. split; [reflexivity|].
  set (d := flat_map note_bytes _).
  assert (G : exists nx t p s, gelf_getnote d 1 = Some (nx, t, p, s) /\ (0 <? nx) = true /\ (t =? NT_GNU_BUILD_ID) = false).
  { vm_compute. do 4 eexists. split; [reflexivity|]. split; reflexivity. }
  assert (G0 : exists nx t p s, gelf_getnote d 0 = Some (nx, t, p, s) /\ (0 <? nx) = true /\ (t =? NT_GNU_BUILD_ID) = false).
  { vm_compute. do 4 eexists. split; [reflexivity|]. split; reflexivity. }
  clearbody d.
  assert (L : forall fuel, packer_walk fuel d 1 = P_fuel).
  { induction fuel as [|fuel IH]; [reflexivity|]. cbn [packer_walk]. destruct G as (nx & t & p & s & -> & E1 & E2).
    rewrite E1, E2. exact IH. }
  intros [|fuel]; [reflexivity|]. unfold packer_get_build_id. cbn [packer_walk].
  destruct G0 as (nx & t & p & s & -> & E1 & E2). rewrite E1, E2. apply L.
Qed.
Print Assumptions C42_packer_endless_refuted.
