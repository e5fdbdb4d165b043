(** Proofs about the metadata format. *)
From Verif Require Import Base BaseFacts MetaModel MetaSpec.

Arguments le_enc : simpl never.
Arguments Z.pow : simpl never.

(** ** Reading what was written *)

Lemma read_from_mem_app a b n : zlen a = n -> read_from_mem n (a ++ b) = (a, b).
Proof.
  intros <-. unfold read_from_mem. rewrite zlen_app. pose proof (zlen_nonneg b).
  rewrite Z.min_l by lia. unfold zlen. rewrite Nat2Z.id.
  rewrite firstn_app_exact, skipn_app_exact. reflexivity.
Qed.

Lemma zlen_le_enc n v : zlen (le_enc n v) = Z.of_nat n.
Proof. unfold zlen. rewrite le_enc_length. reflexivity. Qed.

Lemma read_int_app n old v b :
  0 <= v < 2 ^ (8 * Z.of_nat n) -> read_int n old (le_enc n v ++ b) = (v, Z.of_nat n, b).
Proof.
  intros H. unfold read_int. rewrite read_from_mem_app by apply zlen_le_enc.
  rewrite le_enc_length, skipn_all2 by (rewrite le_enc_length; lia).
  rewrite app_nil_r, le_dec_enc_id by assumption. rewrite zlen_le_enc. reflexivity.
Qed.

Lemma cstr_z_end s : cstr_ok s -> cstr_z (s ++ [0]) = s.
Proof.
  induction s as [|b s IH]; intros H; [reflexivity|].
  pose proof (Forall_inv H) as Hb. unfold is_cchar in Hb. simpl.
  destruct (Z.eqb_spec b 0); [lia|]. rewrite IH by (eapply Forall_inv_tail; eauto). reflexivity.
Qed.

Lemma cstr_z_id s : cstr_ok s -> cstr_z s = s.
Proof.
  induction s as [|b s IH]; intros H; [reflexivity|].
  pose proof (Forall_inv H) as Hb. unfold is_cchar in Hb. simpl.
  destruct (Z.eqb_spec b 0); [lia|]. rewrite IH by (eapply Forall_inv_tail; eauto). reflexivity.
Qed.

Lemma cstr_in_end s : cstr_ok s -> cstr_in (s ++ [0]) = Some s.
Proof.
  induction s as [|b s IH]; intros H; [reflexivity|].
  pose proof (Forall_inv H) as Hb. unfold is_cchar in Hb. simpl.
  destruct (Z.eqb_spec b 0); [lia|]. rewrite IH by (eapply Forall_inv_tail; eauto). reflexivity.
Qed.

Lemma u32_small v : 0 <= v < 2 ^ 32 -> u32 v = v.
Proof. intros H. apply Z.mod_small. exact H. Qed.

Lemma read_name_app {A} c s b (k : list Z -> Z -> list Z -> pres A) :
  cstr_ok s -> zlen s + 2 < 2 ^ 32 ->
  read_name c (put_cstr s ++ b) k = k s (zlen s + 1) b.
Proof.
  intros Hs Hl. pose proof (zlen_nonneg s). unfold read_name, put_cstr. rewrite <- app_assoc.
  rewrite read_int_app by (change (2 ^ (8 * Z.of_nat 4)) with (2 ^ 32); lia).
  change (Z.of_nat 4 <? 1) with false. cbv iota beta zeta.
  rewrite read_from_mem_app by (rewrite zlen_app; reflexivity).
  rewrite zlen_app. change (zlen [0]) with 1. rewrite u32_small by lia.
  destruct (Z.ltb_spec (zlen s + 1 + 1) (zlen s + 1)); [lia|].
  rewrite Z.ltb_irrefl. rewrite cstr_z_end by assumption. reflexivity.
Qed.

Lemma read_rname_app {A} c s b (k : option (list Z) -> Z -> list Z -> pres A) :
  cstr_ok s -> zlen s + 2 < 2 ^ 32 ->
  read_rname c (put_cstr s ++ b) k = k (Some s) (zlen s + 1) b.
Proof.
  intros Hs Hl. pose proof (zlen_nonneg s). unfold read_rname, put_cstr. rewrite <- app_assoc.
  rewrite read_int_app by (change (2 ^ (8 * Z.of_nat 4)) with (2 ^ 32); lia).
  change (Z.of_nat 4 <? 4) with false. cbv iota beta zeta.
  rewrite read_from_mem_app by (rewrite zlen_app; reflexivity).
  rewrite zlen_app. change (zlen [0]) with 1.
  rewrite Z.ltb_irrefl. rewrite cstr_in_end by assumption. reflexivity.
Qed.

Definition small (s : list Z) : Prop := zlen s + 2 < 2 ^ 32.

Lemma parse_units_app {A} us : forall fuel c b acc (k : list munit -> Z -> list Z -> pres A),
  Forall unit_ok us -> Forall (fun u => small (u_old u) /\ small (u_new u)) us ->
  (length us <= fuel)%nat ->
  exists c', parse_units fuel (zlen us) c (flat_map put_unit us ++ b) acc k = k (rev acc ++ us) c' b.
Proof.
  induction us as [|u us IH]; intros fuel c b acc k Hok Hs Hf.
  - exists c. destruct fuel; simpl; rewrite app_nil_r; reflexivity.
  - destruct fuel as [|fuel]; [simpl in Hf; lia|].
    pose proof (Forall_inv Hok) as (Ho & Hn & Ha). pose proof (Forall_inv Hs) as (So & Sn).
    cbn [flat_map parse_units].
    destruct (Z.leb_spec (zlen (u :: us)) 0) as [E|E].
    { rewrite zlen_cons in E. pose proof (zlen_nonneg us). lia. }
    unfold put_unit at 1. rewrite <- !app_assoc.
    rewrite read_name_app by assumption. rewrite read_name_app by assumption.
    rewrite read_int_app by (change (2 ^ (8 * Z.of_nat 8)) with (2 ^ 64); lia).
    change (Z.of_nat 8 <? 1) with false. cbv iota beta.
    replace (zlen (u :: us) - 1) with (zlen us) by (rewrite zlen_cons; lia).
    destruct (IH fuel (zlen (u_new u) + 1) b (mk_munit (u_old u) (u_new u) (u_addr u) :: acc) k)
      as (c' & E'); [eapply Forall_inv_tail; eauto ..| simpl in Hf; lia |].
    exists c'. rewrite E'. cbn [rev]. rewrite <- app_assoc. simpl. destruct u; reflexivity.
Qed.

Lemma parse_deps_app {A} ds : forall fuel b acc (k : list (list Z) -> list Z -> pres A),
  Forall id_ok ds -> (length ds <= fuel)%nat ->
  parse_deps fuel (zlen ds) (concat ds ++ b) acc k = k (rev acc ++ ds) b.
Proof.
  induction ds as [|d ds IH]; intros fuel b acc k Hok Hf.
  - destruct fuel; simpl; rewrite app_nil_r; reflexivity.
  - destruct fuel as [|fuel]; [simpl in Hf; lia|].
    pose proof (Forall_inv Hok) as (Hd & _).
    cbn [concat parse_deps].
    destruct (Z.leb_spec (zlen (d :: ds)) 0) as [E|E].
    { rewrite zlen_cons in E. pose proof (zlen_nonneg ds). lia. }
    rewrite <- app_assoc. rewrite read_from_mem_app by (unfold zlen; lia).
    destruct (Z.ltb_spec (zlen d) 32) as [E'|E']; [unfold zlen in E'; lia|].
    replace (zlen (d :: ds) - 1) with (zlen ds) by (rewrite zlen_cons; lia).
    rewrite IH; [|eapply Forall_inv_tail; eauto|simpl in Hf; lia].
    cbn [rev]. rewrite <- app_assoc. reflexivity.
Qed.

Lemma parse_refs_app {A} rs : forall fuel c b acc (k : list mref -> list Z -> pres A),
  Forall ref_ok rs -> Forall (fun r => small (pr_target r) /\ small (pr_name r)) rs ->
  (length rs <= fuel)%nat ->
  parse_refs fuel (zlen rs) c (flat_map put_ref rs ++ b) acc k = k (rev acc ++ map seen_ref rs) b.
Proof.
  induction rs as [|r rs IH]; intros fuel c b acc k Hok Hs Hf.
  - destruct fuel; simpl; rewrite app_nil_r; reflexivity.
  - destruct fuel as [|fuel]; [simpl in Hf; lia|].
    pose proof (Forall_inv Hok) as (Ho & Hn & Ht & Hp). pose proof (Forall_inv Hs) as (So & Sn).
    cbn [flat_map parse_refs].
    destruct (Z.leb_spec (zlen (r :: rs)) 0) as [E|E].
    { rewrite zlen_cons in E. pose proof (zlen_nonneg rs). lia. }
    unfold put_ref at 1. rewrite <- !app_assoc.
    rewrite read_rname_app by assumption. rewrite read_rname_app by assumption.
    rewrite read_int_app by (change (2 ^ (8 * Z.of_nat 8)) with (2 ^ 64); lia).
    change (Z.of_nat 8 <? 8) with false. cbv iota beta.
    rewrite read_int_app by (change (2 ^ (8 * Z.of_nat 8)) with (2 ^ 64); lia).
    change (Z.of_nat 8 <? 8) with false. cbv iota beta.
    replace [b2z (pr_tls r)] with (le_enc 1 (b2z (pr_tls r))) by (destruct (pr_tls r); reflexivity).
    rewrite read_int_app by (change (2 ^ (8 * Z.of_nat 1)) with 256; destruct (pr_tls r); simpl; lia).
    change (Z.of_nat 1 <? 1) with false. cbv iota beta.
    replace (zlen (r :: rs) - 1) with (zlen rs) by (rewrite zlen_cons; lia).
    rewrite IH; [| eapply Forall_inv_tail; eauto .. | simpl in Hf; lia].
    cbn [rev map]. rewrite <- app_assoc. simpl. f_equal. f_equal. f_equal.
    unfold seen_ref. destruct (pr_tls r); reflexivity.
Qed.

(** ** Sizes *)

Lemma zlen_flat_map_in {A} (f : A -> list Z) x l : In x l -> zlen (f x) <= zlen (flat_map f l).
Proof.
  induction l as [|y l IH]; simpl; [intros []|intros [E|E]].
  - subst. rewrite zlen_app. pose proof (zlen_nonneg (flat_map f l)). lia.
  - rewrite zlen_app. specialize (IH E). pose proof (zlen_nonneg (f y)). lia.
Qed.

Lemma zlen_flat_map_ge {A} (f : A -> list Z) l :
  (forall x, 1 <= zlen (f x)) -> zlen l <= zlen (flat_map f l).
Proof.
  intros H. induction l as [|y l IH]; [reflexivity|].
  cbn [flat_map]. rewrite zlen_app, zlen_cons. specialize (H y). lia.
Qed.

Lemma zlen_put_cstr s : zlen (put_cstr s) = zlen s + 5.
Proof. unfold put_cstr. rewrite !zlen_app, zlen_le_enc. change (zlen [0]) with 1. lia. Qed.

Lemma zlen_put_unit u : zlen (put_unit u) = zlen (u_old u) + zlen (u_new u) + 18.
Proof. unfold put_unit. rewrite !zlen_app, !zlen_put_cstr, zlen_le_enc. lia. Qed.

Lemma zlen_put_ref r : zlen (put_ref r) = zlen (pr_target r) + zlen (pr_name r) + 27.
Proof.
  unfold put_ref. rewrite !zlen_app, !zlen_put_cstr, !zlen_le_enc.
  change (zlen [b2z (pr_tls r)]) with 1. lia.
Qed.

Lemma zlen_concat_ids ds : Forall id_ok ds -> zlen (concat ds) = 32 * zlen ds.
Proof.
  induction ds as [|d ds IH]; intros H; [reflexivity|].
  cbn [concat]. rewrite zlen_app, zlen_cons, IH by (eapply Forall_inv_tail; eauto).
  pose proof (Forall_inv H) as (Hd & _). unfold zlen at 1. lia.
Qed.

(** ** Extraction *)

Lemma extract_some data path b :
  extract_ulp_from_so_to_mem data path = P_ok (Some b) ->
  b = firstn 33 data ++ put_cstr path ++ skipn 33 data /\
  33 <= zlen data /\ zlen data + zlen path + 5 < ULP_METADATA_BUF_LEN /\ zlen path + 1 < PATH_MAX.
Proof.
  unfold extract_ulp_from_so_to_mem. pose proof (zlen_nonneg data). pose proof (zlen_nonneg path).
  destruct (Z.leb_spec PATH_MAX (zlen path + 1)) as [E|E]; [discriminate|].
  destruct (Z.leb_spec ULP_METADATA_BUF_LEN (u32 (zlen data + (zlen path + 1) + 4))) as [E1|E1]; [discriminate|].
  destruct (Z.ltb_spec (zlen data) 33) as [E2|E2]; [discriminate|].
  destruct (Z.ltb_spec (u32 (zlen data + (zlen path + 1) + 4)) (zlen data + (zlen path + 1) + 4)) as [E3|E3]; [discriminate|].
  intros [= <-]. split; [|lia]. unfold put_cstr. rewrite <- !app_assoc. reflexivity.
Qed.

Lemma extract_fits data path :
  33 <= zlen data -> zlen path + 1 < PATH_MAX ->
  zlen data + zlen path + 5 < ULP_METADATA_BUF_LEN ->
  extract_ulp_from_so_to_mem data path =
  P_ok (Some (firstn 33 data ++ put_cstr path ++ skipn 33 data)).
Proof.
  intros H1 H2 H3. unfold extract_ulp_from_so_to_mem. pose proof (zlen_nonneg path).
  assert (Hu : u32 (zlen data + (zlen path + 1) + 4) = zlen data + (zlen path + 1) + 4).
  { apply u32_small. unfold ULP_METADATA_BUF_LEN in H3. lia. }
  rewrite Hu.
  destruct (Z.leb_spec PATH_MAX (zlen path + 1)) as [E|E]; [lia|].
  destruct (Z.leb_spec ULP_METADATA_BUF_LEN (zlen data + (zlen path + 1) + 4)) as [E1|E1]; [lia|].
  destruct (Z.ltb_spec (zlen data) 33) as [E2|E2]; [lia|].
  rewrite Z.ltb_irrefl. unfold put_cstr. rewrite <- !app_assoc. reflexivity.
Qed.

Lemma header_split (t : Z) (id rest : list Z) :
  length id = 32%nat ->
  firstn 33 ([t] ++ id ++ rest) = [t] ++ id /\ skipn 33 ([t] ++ id ++ rest) = rest.
Proof.
  intros H. rewrite app_assoc.
  assert (Hl : length ([t] ++ id) = 33%nat) by (rewrite app_length, H; reflexivity).
  rewrite <- Hl. rewrite firstn_app_exact, skipn_app_exact. auto.
Qed.

Lemma firstn_bid p : pm_bid_len p = zlen (pm_bid p) ->
  firstn (Z.to_nat (pm_bid_len p)) (pm_bid p) = pm_bid p.
Proof. intros ->. unfold zlen. rewrite Nat2Z.id. apply firstn_all. Qed.

Lemma zlen_create p : pmeta_ok p ->
  zlen (create_patch_metadata_file p) =
  1 + 32 + 4 + zlen (pm_bid p) + (zlen (pm_name p) + 5) + 4 + zlen (flat_map put_unit (pm_units p)) +
  4 + 32 * zlen (pm_deps p) + 4 + zlen (flat_map put_ref (pm_refs p)).
Proof.
  intros ((Hid & _) & _ & Hbl & _ & _ & _ & _ & Hd & _ & _).
  unfold create_patch_metadata_file. rewrite firstn_bid by assumption.
  rewrite !zlen_app, !zlen_le_enc, zlen_put_cstr, zlen_concat_ids by assumption.
  change (zlen [1]) with 1. replace (zlen (pm_id p)) with 32 by (unfold zlen; lia). lia.
Qed.

Lemma header_parse {A} t id path rest junk (f : Z -> list Z -> list Z -> Z -> list Z -> pres A) :
  0 <= t < 256 -> length id = 32%nat -> cstr_ok path -> small path ->
  (let '(type, n, src1) := read_int 1 0 (([t] ++ id) ++ put_cstr path ++ rest) in
   if n <? 1 then P_err EINVALIDULP
   else let (id', src2) := read_from_mem 32 src1 in
        if zlen id' <? 32 then P_err EINVALIDULP
        else read_name junk src2 (f type id')) =
  f t id path (zlen path + 1) rest.
Proof.
  intros Ht Hid Hp Hs. rewrite <- app_assoc.
  replace [t] with (le_enc 1 t).
  2:{ unfold le_enc. rewrite Z.mod_small by lia. reflexivity. }
  rewrite read_int_app by (change (2 ^ (8 * Z.of_nat 1)) with 256; lia).
  change (Z.of_nat 1 <? 1) with false. cbv iota beta.
  assert (E32 : zlen id = 32) by (unfold zlen; lia).
  rewrite read_from_mem_app by exact E32. rewrite E32, Z.ltb_irrefl.
  rewrite read_name_app by assumption. reflexivity.
Qed.

Lemma parse_created p path junk b trailing :
  pmeta_ok p -> cstr_ok path -> path <> [] ->
  extract_ulp_from_so_to_mem (create_patch_metadata_file p) path = P_ok (Some b) ->
  parse_metadata_raw junk (b ++ trailing) = P_ok (seen_patch p path, trailing).
Proof.
  intros Hok Hpath Hne Hx. apply extract_some in Hx. destruct Hx as (-> & _ & Hsz & _).
  rewrite zlen_create in Hsz by assumption.
  destruct Hok as ((Hid & Hidb) & Hbb & Hbl & Hname & Hnu & Hu & Hnd & Hd & Hnr & Hr).
  pose proof (zlen_nonneg (pm_bid p)). pose proof (zlen_nonneg (pm_name p)).
  pose proof (zlen_nonneg (pm_deps p)). pose proof (zlen_nonneg path).
  pose proof (zlen_nonneg (pm_units p)). pose proof (zlen_nonneg (pm_refs p)).
  pose proof (zlen_nonneg (flat_map put_unit (pm_units p))).
  pose proof (zlen_nonneg (flat_map put_ref (pm_refs p))).
  assert (HB : ULP_METADATA_BUF_LEN < 2 ^ 32) by reflexivity.
  assert (Lu : zlen (pm_units p) <= zlen (flat_map put_unit (pm_units p))).
  { apply zlen_flat_map_ge. intros u. rewrite zlen_put_unit.
    pose proof (zlen_nonneg (u_old u)). pose proof (zlen_nonneg (u_new u)). lia. }
  assert (Lr : zlen (pm_refs p) <= zlen (flat_map put_ref (pm_refs p))).
  { apply zlen_flat_map_ge. intros r. rewrite zlen_put_ref.
    pose proof (zlen_nonneg (pr_target r)). pose proof (zlen_nonneg (pr_name r)). lia. }
  assert (Su : Forall (fun u => small (u_old u) /\ small (u_new u)) (pm_units p)).
  { apply Forall_forall. intros u Hin. apply (zlen_flat_map_in put_unit) in Hin.
    rewrite zlen_put_unit in Hin. unfold small.
    pose proof (zlen_nonneg (u_old u)). pose proof (zlen_nonneg (u_new u)). lia. }
  assert (Sr : Forall (fun r => small (pr_target r) /\ small (pr_name r)) (pm_refs p)).
  { apply Forall_forall. intros r Hin. apply (zlen_flat_map_in put_ref) in Hin.
    rewrite zlen_put_ref in Hin. unfold small.
    pose proof (zlen_nonneg (pr_target r)). pose proof (zlen_nonneg (pr_name r)). lia. }
  unfold create_patch_metadata_file. rewrite firstn_bid by assumption.
  destruct (header_split 1 (pm_id p)
    (le_enc 4 (pm_bid_len p) ++ pm_bid p ++ put_cstr (pm_name p) ++
     le_enc 4 (pm_nunits p) ++ flat_map put_unit (pm_units p) ++
     le_enc 4 (pm_ndeps p) ++ concat (pm_deps p) ++
     le_enc 4 (pm_nrefs p) ++ flat_map put_ref (pm_refs p)) Hid) as [-> ->].
  rewrite <- (app_assoc ([1] ++ pm_id p)), <- (app_assoc (put_cstr path)).
  set (fuel := S (length (([1] ++ pm_id p) ++ put_cstr path ++
     (le_enc 4 (pm_bid_len p) ++ pm_bid p ++ put_cstr (pm_name p) ++
     le_enc 4 (pm_nunits p) ++ flat_map put_unit (pm_units p) ++
     le_enc 4 (pm_ndeps p) ++ concat (pm_deps p) ++
     le_enc 4 (pm_nrefs p) ++ flat_map put_ref (pm_refs p)) ++ trailing))).
  assert (Hfu : (length (pm_units p) <= fuel)%nat).
  { unfold fuel. rewrite !app_length. unfold zlen in Lu. lia. }
  assert (Hfr : (length (pm_refs p) <= fuel)%nat).
  { unfold fuel. rewrite !app_length. unfold zlen in Lr. lia. }
  assert (Hfd : (length (pm_deps p) <= fuel)%nat).
  { unfold fuel. rewrite !app_length. pose proof (zlen_concat_ids _ Hd) as E. unfold zlen in E. lia. }
  unfold parse_metadata_raw. fold fuel. cbv zeta.
  rewrite header_parse by (assumption || lia || (unfold small; lia)).
  destruct path as [|p0 path']; [congruence|]. set (path := p0 :: path') in *.
  rewrite <- !app_assoc.
  rewrite read_int_app by (change (2 ^ (8 * Z.of_nat 4)) with (2 ^ 32); lia).
  change (Z.of_nat 4 <? 1) with false. cbv iota beta.
  rewrite read_from_mem_app by lia. rewrite Hbl, Z.ltb_irrefl.
  rewrite read_name_app by (assumption || lia).
  change (1 =? 2) with false. cbv iota.
  rewrite read_int_app by (change (2 ^ (8 * Z.of_nat 4)) with (2 ^ 32); lia).
  change (Z.of_nat 4 <? 1) with false. cbv iota beta. rewrite Hnu.
  match goal with |- parse_units ?f ?n ?c (_ ++ ?b) ?acc ?k = _ =>
    destruct (parse_units_app (pm_units p) f c b acc k Hu Su Hfu) as (c' & ->) end.
  rewrite read_int_app by (change (2 ^ (8 * Z.of_nat 4)) with (2 ^ 32); lia).
  change (Z.of_nat 4 <? 1) with false. cbv iota beta. rewrite Hnd.
  rewrite parse_deps_app by assumption.
  rewrite read_int_app by (change (2 ^ (8 * Z.of_nat 4)) with (2 ^ 32); lia).
  change (Z.of_nat 4 <? 4) with false. cbv iota beta. rewrite Hnr.
  rewrite parse_refs_app by assumption. reflexivity.
Qed.

Lemma parse_reverse p path junk b trailing :
  pmeta_ok p -> cstr_ok path -> path <> [] ->
  extract_ulp_from_so_to_mem (write_reverse_patch p) path = P_ok (Some b) ->
  parse_metadata_raw junk (b ++ trailing) = P_ok (seen_reverse p path, trailing).
Proof.
  intros Hok Hpath Hne Hx. apply extract_some in Hx. destruct Hx as (-> & _ & Hsz & _).
  destruct Hok as ((Hid & Hidb) & Hbb & Hbl & Hname & _).
  unfold write_reverse_patch in *. rewrite firstn_bid in * by assumption.
  rewrite !zlen_app, !zlen_le_enc in Hsz. change (zlen [2]) with 1 in Hsz.
  assert (HB : ULP_METADATA_BUF_LEN < 2 ^ 32) by reflexivity.
  pose proof (zlen_nonneg (pm_bid p)). pose proof (zlen_nonneg (pm_name p)).
  pose proof (zlen_nonneg (pm_id p)). pose proof (zlen_nonneg path).
  destruct (header_split 2 (pm_id p)
    (le_enc 4 (pm_bid_len p) ++ pm_bid p ++ le_enc 4 (zlen (pm_name p)) ++ pm_name p) Hid) as [-> ->].
  rewrite <- (app_assoc ([2] ++ pm_id p)), <- (app_assoc (put_cstr path)).
  unfold parse_metadata_raw. cbv zeta.
  rewrite header_parse by (assumption || lia || (unfold small; lia)).
  destruct path as [|p0 path']; [congruence|]. set (path := p0 :: path') in *.
  rewrite <- !app_assoc.
  rewrite read_int_app by (change (2 ^ (8 * Z.of_nat 4)) with (2 ^ 32); lia).
  change (Z.of_nat 4 <? 1) with false. cbv iota beta.
  rewrite read_from_mem_app by lia. rewrite Hbl, Z.ltb_irrefl.
  unfold read_name.
  rewrite read_int_app by (change (2 ^ (8 * Z.of_nat 4)) with (2 ^ 32); lia).
  change (Z.of_nat 4 <? 1) with false. cbv iota beta.
  rewrite read_from_mem_app by lia. rewrite u32_small by lia.
  destruct (Z.ltb_spec (zlen (pm_name p) + 1) (zlen (pm_name p))); [lia|].
  rewrite Z.ltb_irrefl. rewrite cstr_z_id by assumption. reflexivity.
Qed.
