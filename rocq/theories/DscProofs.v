(** Proofs about the reading of description files. *)
From Verif Require Import Base BaseFacts MetaModel DscModel DscSpec.

(** ** Lines *)

Lemma lines_of_line t f : ~ In 10 t -> lines_of (t ++ 10 :: f) = with_newline t :: lines_of f.
Proof.
  induction t as [|c t IH]; intros H; [reflexivity|]. cbn [app lines_of]. unfold NL.
  destruct (Z.eqb_spec c 10) as [->|]; [exfalso; apply H; left; reflexivity|].
  rewrite IH by (intros X; apply H; right; exact X). reflexivity.
Qed.

Lemma lines_of_texts ts : Forall (fun t => ~ In 10 t) ts ->
  lines_of (concat (map with_newline ts)) = map with_newline ts.
Proof.
  induction 1 as [|t ts Ht Hts IH]; [reflexivity|]. cbn [map concat].
  unfold with_newline at 1. rewrite <- app_assoc. cbn [app].
  rewrite lines_of_line by exact Ht. rewrite IH. reflexivity.
Qed.

Lemma cstr_z_ok s : cstr_ok s -> cstr_z s = s.
Proof.
  induction 1 as [|c s Hc Hs IH]; [reflexivity|]. cbn [cstr_z]. unfold is_cchar in Hc.
  destruct (Z.eqb_spec c 0); [lia|]. rewrite IH. reflexivity.
Qed.

Lemma chomp_line t : cstr_ok t -> chomp (with_newline t) = t.
Proof.
  intros H. unfold chomp, with_newline. rewrite last_last, removelast_last. apply cstr_z_ok. exact H.
Qed.

Lemma zlen_line t : zlen (with_newline t) = zlen t + 1.
Proof. unfold with_newline. rewrite zlen_app. reflexivity. Qed.

(** ** Symbols *)

Lemma get_symbol_some syms n off : get_symbol_with_name syms n = Some off -> symbol_at syms n off.
Proof.
  induction syms as [|[m o] t IH]; cbn [get_symbol_with_name]; [discriminate|].
  destruct (bytes_eqb m n) eqn:E.
  - intros H. apply Some_inj in H. subst. apply bytes_eqb_eq in E. subst.
    exists [], t. split; [reflexivity|intros []].
  - intros H. apply IH in H. destruct H as (b & a & -> & Hb). exists ((m, o) :: b), a. split; [reflexivity|].
    cbn [map fst]. intros [X|X]; [|contradiction]. subst. rewrite bytes_eqb_refl in E. discriminate.
Qed.

Lemma get_symbol_none syms n : get_symbol_with_name syms n = None <-> ~ has_symbol syms n.
Proof.
  unfold has_symbol. induction syms as [|[m o] t IH]; cbn [get_symbol_with_name map fst].
  - split; [intros _ []|reflexivity].
  - destruct (bytes_eqb m n) eqn:E.
    + apply bytes_eqb_eq in E. subst. split; [discriminate|]. intros H. exfalso. apply H. left. reflexivity.
    + rewrite IH. split.
      * intros H [X|X]; [|contradiction]. subst. rewrite bytes_eqb_refl in E. discriminate.
      * intros H X. apply H. right. exact X.
Qed.

Lemma get_symbol_present syms n : has_symbol syms n -> exists off, get_symbol_with_name syms n = Some off.
Proof.
  intros H. destruct (get_symbol_with_name syms n) as [o|] eqn:E; [eauto|].
  apply get_symbol_none in E. contradiction.
Qed.

Lemma symbol_at_has syms n off : symbol_at syms n off -> has_symbol syms n.
Proof.
  intros (b & a & -> & _). unfold has_symbol. rewrite map_app. apply in_or_app. right. left. reflexivity.
Qed.

(** ** Fields *)

Lemma split_colon_here a b : ~ In 58 a -> split_colon (a ++ 58 :: b) = Some (a, b).
Proof.
  induction a as [|c a IH]; intros H; [reflexivity|]. cbn [app split_colon]. unfold COLON.
  destruct (Z.eqb_spec c 58) as [->|]; [exfalso; apply H; left; reflexivity|].
  rewrite IH by (intros X; apply H; right; exact X). reflexivity.
Qed.

Lemma split_colon_none a : ~ In 58 a -> split_colon a = None.
Proof.
  induction a as [|c a IH]; intros H; [reflexivity|]. cbn [split_colon]. unfold COLON.
  destruct (Z.eqb_spec c 58) as [->|]; [exfalso; apply H; left; reflexivity|].
  rewrite IH by (intros X; apply H; right; exact X). reflexivity.
Qed.

Lemma hex_digit_value c : is_hex c -> hex_digit c = Some (hex_value1 c) /\ 0 <= hex_value1 c < 16.
Proof.
  unfold is_hex, hex_digit, hex_value1. intros H.
  destruct (Z.leb_spec 48 c); destruct (Z.leb_spec c 57); cbn [andb]; try lia; [split; [reflexivity|lia]|].
  destruct (Z.leb_spec 97 c); destruct (Z.leb_spec c 102); destruct (Z.leb_spec c 70);
    destruct (Z.leb_spec 65 c); cbn [andb]; try lia; (split; [reflexivity|lia]).
Qed.

Lemma hex_acc_value s a : Forall is_hex s ->
  hex_acc s a = fold_left (fun a c => a * 16 + hex_value1 c) s a.
Proof.
  intros H. revert a. induction H as [|c s Hc Hs IH]; intros a; [reflexivity|].
  cbn [hex_acc fold_left]. destruct (hex_digit_value c Hc) as [-> _]. apply IH.
Qed.

Lemma hex_fold_nonneg s a : Forall is_hex s -> 0 <= a ->
  0 <= fold_left (fun a c => a * 16 + hex_value1 c) s a.
Proof.
  intros H. revert a. induction H as [|c s Hc Hs IH]; intros a Ha; [exact Ha|].
  cbn [fold_left]. apply IH. destruct (hex_digit_value c Hc) as [_ ?]. lia.
Qed.

Lemma hex_value_nonneg s : Forall is_hex s -> 0 <= hex_value s.
Proof. intros H. apply hex_fold_nonneg; [exact H|lia]. Qed.

Lemma strtol16_hex s : hex_ok s -> strtol16 s = hex_value s.
Proof.
  intros (H & Hne & Hlt). destruct s as [|c s]; [contradiction|].
  pose proof (hex_value_nonneg _ H) as H0.
  inversion H as [|? ? Hc Hs]; subst. unfold strtol16. cbn [skip_space].
  assert (E1 : is_space c = false) by (unfold is_space; unfold is_hex in Hc; lia). rewrite E1.
  assert (E2 : c =? 45 = false) by (unfold is_hex in Hc; lia).
  assert (E3 : c =? 43 = false) by (unfold is_hex in Hc; lia). rewrite E2, E3.
  assert (E4 : skip_0x (c :: s) = c :: s).
  { destruct s as [|x s]; [reflexivity|]. cbn [skip_0x]. inversion Hs as [|? ? Hx _]; subst.
    assert (E : (x =? 120) || (x =? 88) = false) by (unfold is_hex in Hx; lia). rewrite E, andb_false_r. reflexivity. }
  rewrite E4, hex_acc_value by exact H. fold (hex_value (c :: s)). lia.
Qed.

Lemma u64_hex s : hex_ok s -> u64 (strtol16 s) = hex_value s.
Proof.
  intros H. rewrite strtol16_hex by exact H. destruct H as (H & _ & Hlt).
  pose proof (hex_value_nonneg _ H). unfold u64. apply Z.mod_small. lia.
Qed.

Lemma hex_no_colon s : Forall is_hex s -> ~ In 58 s.
Proof. intros H Hin. rewrite Forall_forall in H. specialize (H 58 Hin). unfold is_hex in H. lia. Qed.

Lemma hex_text s : Forall is_hex s -> text_ok s.
Proof.
  intros H. split.
  - eapply Forall_impl; [|exact H]. intros c. unfold is_hex, is_cchar. lia.
  - intros Hin. rewrite Forall_forall in H. specialize (H 10 Hin). unfold is_hex in H. lia.
Qed.

(** ** Texts of items *)

Lemma text_ok_app a b : text_ok (a ++ b) <-> text_ok a /\ text_ok b.
Proof.
  unfold text_ok, cstr_ok. rewrite Forall_app, in_app_iff. tauto.
Qed.

Lemma text_ok_cons c a : text_ok (c :: a) <-> (0 < c < 256 /\ c <> 10) /\ text_ok a.
Proof.
  unfold text_ok, cstr_ok. rewrite Forall_cons_iff. cbn [In]. unfold is_cchar.
  split; intros H.
  - destruct H as [[H1 H2] H3]. split; [|tauto]. split; [exact H1|]. intros X. apply H3. left. exact X.
  - destruct H as [[H1 H2] [H3 H4]]. split; [tauto|]. intros [X|X]; [lia|contradiction].
Qed.

Lemma item_text_ok i : item_ok i -> text_ok (item_text i).
Proof.
  destruct i as [|t|o n|tls t r|tls t r a b]; cbn [item_ok item_text].
  - intros _. split; [constructor|intros []].
  - intros [H _]. apply text_ok_cons. split; [lia|exact H].
  - intros ((H1 & _) & (H2 & _) & _). rewrite text_ok_app, text_ok_cons. repeat split; try lia; try apply H1; apply H2.
  - intros ((H1 & _) & (H2 & _) & _). rewrite text_ok_cons, !text_ok_app, text_ok_cons.
    split; [lia|]. split; [|split; [exact H1|split; [lia|exact H2]]].
    destruct tls; [apply text_ok_cons; split; [lia|]|]; (split; [constructor|intros []]).
  - intros ((H1 & _) & (H2 & _) & _ & (H3 & _) & (H4 & _)).
    rewrite text_ok_cons, !text_ok_app, text_ok_cons, text_ok_app, text_ok_cons, text_ok_app, text_ok_cons.
    split; [lia|]. split.
    { destruct tls; [apply text_ok_cons; split; [lia|]|]; (split; [constructor|intros []]). }
    split; [exact H1|]. split; [lia|]. split; [exact H2|]. split; [lia|]. split; [apply hex_text; exact H3|].
    split; [lia|apply hex_text; exact H4].
Qed.

Lemma desc_texts_ok d : desc_ok d -> Forall text_ok (desc_texts d).
Proof.
  intros [[H1 _] (H2 & _) H3 [H4 _] (H5 & _) H6]. unfold desc_texts.
  assert (G : forall l, Forall item_ok l -> Forall text_ok (map item_text l)).
  { induction 1; constructor; auto. apply item_text_ok. assumption. }
  rewrite !Forall_app. split; [auto|]. split; [constructor; [exact H2|constructor]|]. split.
  { induction H3; constructor; auto. apply text_ok_cons. split; [lia|assumption]. }
  split; [auto|]. split; [constructor; [apply text_ok_cons; split; [lia|exact H5]|constructor]|auto].
Qed.

(** ** Comments *)

Definition cb_ok (c : option cbuf) : Prop :=
  match c with None => True | Some b => 0 <= cb_pos b < cb_size b end.

Lemma read_comment_ok junk c t :
  cb_ok c -> zlen t < 131000 ->
  exists c', read_comment junk c (with_newline (33 :: t)) = D_ok c' /\ cb_ok c'.
Proof.
  intros Hc Ht. unfold read_comment. rewrite zlen_line, zlen_cons. pose proof (zlen_nonneg t).
  destruct c as [b|]; cbn [cb_ok] in Hc.
  - destruct (Z.geb_spec (cb_pos b + (zlen t + 1 + 1 + 1)) (cb_size b)) as [G|G].
    + destruct (Z.geb_spec (cb_pos b + (zlen t + 1 + 1)) (cb_size b + 128 * 1024)); [lia|].
      eexists. split; [reflexivity|]. cbn. lia.
    + destruct (Z.geb_spec (cb_pos b + (zlen t + 1 + 1)) (cb_size b)); [lia|].
      eexists. split; [reflexivity|]. cbn. lia.
  - destruct (Z.geb_spec (0 + (zlen t + 1 + 1 + 1)) 0) as [G|G]; [|lia].
    destruct (Z.geb_spec (0 + (zlen t + 1 + 1)) (0 + 128 * 1024)); [lia|].
    eexists. split; [reflexivity|]. cbn. lia.
Qed.

(** The bytes written so far: the comments, each followed by one byte that was
    never written. *)
Fixpoint comment_bytes (junk : Z -> Z) (pos : Z) (ts : list (list Z)) : list Z :=
  match ts with
  | [] => []
  | t :: r => t ++ [10] ++ [junk (pos + zlen t + 1)] ++ comment_bytes junk (pos + zlen t + 2) r
  end.

Definition cb_holds (junk : Z -> Z) (c : option cbuf) (ts : list (list Z)) : Prop :=
  match c with
  | None => ts = []
  | Some b => ts <> [] /\ cb_pos b = zlen (comment_bytes junk 0 ts) /\
      (forall x, cb_pos b < x -> cb_data b x = junk x) /\
      mem_read (cb_data b) 0 (Z.to_nat (cb_pos b)) = comment_bytes junk 0 ts
  end.

Lemma comment_bytes_app junk p a b :
  comment_bytes junk p (a ++ b) =
  comment_bytes junk p a ++ comment_bytes junk (p + zlen (comment_bytes junk p a)) b.
Proof.
  revert p; induction a as [|t a IH]; intros p; cbn [app comment_bytes].
  - change (zlen (@nil Z)) with 0. rewrite Z.add_0_r. reflexivity.
  - rewrite IH, <- !app_assoc. cbn [app]. do 4 f_equal. rewrite zlen_app, !zlen_cons.
    match goal with |- comment_bytes _ ?a _ = comment_bytes _ ?b _ => replace b with a by lia; reflexivity end.
Qed.

Lemma read_comment_holds junk c t ts c' :
  cb_holds junk c ts -> cstr_ok t ->
  read_comment junk c (with_newline (33 :: t)) = D_ok c' -> cb_holds junk c' (ts ++ [t]).
Proof.
  intros Hc Ht. unfold read_comment.
  change (tl (with_newline (33 :: t))) with (t ++ [10]). rewrite zlen_line, zlen_cons.
  set (st := match c with Some b => (cb_data b, cb_pos b, cb_size b) | None => (junk, 0, 0) end).
  assert (G : exists data pos size, st = (data, pos, size) /\ pos = zlen (comment_bytes junk 0 ts) /\
             (forall x, pos < x -> data x = junk x) /\
             mem_read data 0 (Z.to_nat pos) = comment_bytes junk 0 ts).
  { destruct c as [b|]; cbn [cb_holds] in Hc.
    - destruct Hc as (_ & H1 & H2 & H3). exists (cb_data b), (cb_pos b), (cb_size b). auto.
    - subst ts. exists junk, 0, 0. auto. }
  destruct G as (data & pos & size & -> & Hpos & Hj & Hd).
  assert (HS : strncpy_bytes (t ++ [10]) (zlen t + 1 + 1 - 1) = t ++ [10]).
  { unfold strncpy_bytes. rewrite cstr_z_ok by (apply Forall_app; split; [exact Ht|constructor; [unfold is_cchar; lia|constructor]]).
    replace (Z.to_nat (zlen t + 1 + 1 - 1)) with (length (t ++ [10])) by (rewrite app_length; unfold zlen; cbn; lia).
    rewrite firstn_all, zlen_app. change (zlen [10]) with 1.
    replace (zlen t + 1 + 1 - 1 - (zlen t + 1)) with 0 by lia. apply app_nil_r. }
  rewrite HS.
  set (size' := if _ >=? size then _ else _). destruct (_ >=? size'); [discriminate|].
  intros H. injection H as <-. cbn [cb_holds cb_pos cb_data].
  pose proof (zlen_nonneg t) as Hn. pose proof (zlen_nonneg (comment_bytes junk 0 ts)) as Hp.
  assert (L : zlen (t ++ [10]) = zlen t + 1) by (rewrite zlen_app; reflexivity).
  assert (E : comment_bytes junk 0 (ts ++ [t]) = comment_bytes junk 0 ts ++ (t ++ [10]) ++ [junk (pos + zlen t + 1)]).
  { rewrite comment_bytes_app. cbn [comment_bytes]. rewrite Z.add_0_l, <- Hpos, app_nil_r, <- app_assoc. reflexivity. }
  split; [destruct ts; discriminate|]. split.
  { rewrite E, !zlen_app, <- Hpos. change (zlen [10]) with 1. change (zlen [junk (pos + zlen t + 1)]) with 1. lia. }
  split.
  { intros x Hx. rewrite mem_write_out by (change (zlen [0]) with 1; lia).
    rewrite mem_write_out by (rewrite L; lia). apply Hj. lia. }
  rewrite E.
  replace (Z.to_nat (pos + (zlen t + 1 + 1))) with (Z.to_nat pos + (length (t ++ [10%Z]) + 1))%nat
    by (rewrite app_length; unfold zlen in *; cbn; lia).
  rewrite !mem_read_app. rewrite Z2Nat.id by lia. rewrite Z.add_0_l.
  f_equal; [|f_equal].
  - rewrite <- Hd. apply mem_read_ext. intros i Hi.
    rewrite mem_write_out by (change (zlen [0]) with 1; lia). rewrite mem_write_out by lia. reflexivity.
  - etransitivity; [|apply (mem_read_write_same data pos)]. apply mem_read_ext. intros i Hi.
    apply mem_write_out. change (zlen [0]) with 1. unfold zlen in *. lia.
  - cbn [mem_read]. f_equal. unfold zlen in L. rewrite L.
    rewrite mem_write_out by (change (zlen [0]) with 1; unfold zlen in *; lia).
    rewrite mem_write_out by (unfold zlen in *; lia). rewrite Hj by (unfold zlen in *; lia). f_equal. unfold zlen in *; lia.
Qed.

(** ** One line *)

Lemma starts_with_not s c : ~ starts_with s c -> s <> [] -> exists d t, s = d :: t /\ d <> c.
Proof.
  destruct s as [|d t]; intros H Hn; [contradiction|]. exists d, t. split; [reflexivity|].
  intros ->. apply H. exists t. reflexivity.
Qed.

Lemma last_app_cons {A} (a : list A) x b d : last (a ++ x :: b) d = last (x :: b) d.
Proof.
  induction a as [|y a IH]; [reflexivity|]. cbn [app]. rewrite <- IH. destruct (a ++ x :: b) eqn:E; [|reflexivity].
  destruct a; discriminate.
Qed.

Lemma last_in {A} (l : list A) d : l <> [] -> In (last l d) l.
Proof.
  induction l as [|x l IH]; [contradiction|]. intros _. destruct l as [|y l]; [left; reflexivity|].
  right. apply IH. discriminate.
Qed.

Lemma read_unit_line container target o n :
  item_ok (DFunc o n) ->
  read_unit container target (o ++ 58 :: n) =
  match get_symbol_with_name (si_syms target) o with
  | None => D_err
  | Some _ => match get_symbol_with_name (si_syms container) n with
              | None => D_err
              | Some _ => D_ok (mk_munit o n 0)
              end
  end.
Proof.
  intros ((_ & Ho & Hone) & (_ & Hn & Hnne) & _).
  destruct o as [|c o]; [contradiction|]. unfold read_unit. cbn [app].
  change (c :: o ++ 58 :: n) with ((c :: o) ++ 58 :: n).
  assert (E1 : last ((c :: o) ++ 58 :: n) 0 =? COLON = false).
  { rewrite last_app_cons. destruct n as [|x n]; [contradiction|]. 
    change (last (58 :: x :: n) 0) with (last (x :: n) 0).
    apply Z.eqb_neq. intros E. apply Hn. unfold COLON in E. rewrite <- E. apply last_in. discriminate. }
  rewrite E1. assert (Hc : c <> 58) by (intros ->; apply Ho; left; reflexivity).
  unfold COLON at 1. destruct (Z.eqb_spec c 58); [contradiction|].
  assert (S1 : strtok ((c :: o) ++ 58 :: n) = Some (c :: o, n)).
  { unfold strtok. cbn [app skip_colons]. unfold COLON. destruct (Z.eqb_spec c 58); [contradiction|].
    change (c :: o ++ 58 :: n) with ((c :: o) ++ 58 :: n). rewrite split_colon_here by exact Ho. reflexivity. }
  rewrite S1.
  assert (S2 : strtok n = Some (n, [])).
  { destruct n as [|x n]; [contradiction|]. unfold strtok. cbn [skip_colons]. unfold COLON.
    destruct (Z.eqb_spec x 58) as [->|]; [exfalso; apply Hn; left; reflexivity|].
    rewrite split_colon_none by exact Hn. reflexivity. }
  rewrite S2. reflexivity.
Qed.

Lemma read_ref_head (tls : bool) t rest :
  t <> [] -> (tls = false -> ~ starts_with t 37) ->
  match 35 :: (if tls then [37] else []) ++ t ++ rest with
  | _ :: c :: t' => if c =? PERCENT then (true, t') else (false, c :: t')
  | _ => (false, [])
  end = (tls, t ++ rest).
Proof.
  intros Ht Hs. destruct tls; [reflexivity|]. cbn [app].
  destruct (starts_with_not _ _ (Hs eq_refl) Ht) as (d & t' & -> & Hd). cbn [app]. unfold PERCENT.
  destruct (Z.eqb_spec d 37); [contradiction|reflexivity].
Qed.

Lemma read_ref_names container target tls t n :
  item_ok (DRef tls t n) ->
  read_ref container target (item_text (DRef tls t n)) =
  match get_symbol_with_name (si_syms target) t with
  | None => D_err
  | Some toff => match get_symbol_with_name (si_syms container) n with
                 | None => D_err
                 | Some poff => D_ok (mk_pref t n toff poff tls)
                 end
  end.
Proof.
  intros ((_ & Ht & Htne) & (_ & Hn & _) & Hs). unfold read_ref. cbn [item_text].
  rewrite read_ref_head by assumption. rewrite split_colon_here by exact Ht. rewrite split_colon_none by exact Hn.
  reflexivity.
Qed.

Lemma read_ref_offsets container target tls t n a b :
  item_ok (DRefOff tls t n a b) ->
  read_ref container target (item_text (DRefOff tls t n a b)) =
  D_ok (mk_pref t n (hex_value a) (hex_value b) tls).
Proof.
  intros ((_ & Ht & Htne) & (_ & Hn & _) & Hs & Ha & Hb). unfold read_ref. cbn [item_text].
  rewrite read_ref_head by assumption. rewrite split_colon_here by exact Ht. rewrite split_colon_here by exact Hn.
  rewrite split_colon_here by (apply hex_no_colon; apply Ha). rewrite !u64_hex by assumption. reflexivity.
Qed.

(** What reading an item does to the state, leaving the comments aside. *)
Definition item_step (container target : so_info) (i : ditem) (us : list munit) (rs : list pref)
  : option (list munit * list pref) :=
  match i with
  | DBlank | DComment _ => Some (us, rs)
  | DFunc o n =>
      match get_symbol_with_name (si_syms target) o, get_symbol_with_name (si_syms container) n with
      | Some _, Some _ => Some (us ++ [mk_munit o n 0], rs)
      | _, _ => None
      end
  | DRef tls t n =>
      match get_symbol_with_name (si_syms target) t, get_symbol_with_name (si_syms container) n with
      | Some a, Some b => Some (us, mk_pref t n a b tls :: rs)
      | _, _ => None
      end
  | DRefOff tls t n a b => Some (us, mk_pref t n (hex_value a) (hex_value b) tls :: rs)
  end.

Lemma read_line_item e container target i d ts :
  item_ok i -> (no_content i \/ ds_target d = Some target) ->
  cb_ok (ds_comments d) -> cb_holds (de_junk e) (ds_comments d) ts ->
  match item_step container target i (ds_units d) (ds_refs d) with
  | None => read_line e container (with_newline (item_text i)) d = D_err
  | Some (us, rs) => exists cb,
      read_line e container (with_newline (item_text i)) d = D_ok (mk_ds (ds_deps d) (ds_target d) us rs cb) /\
      cb_ok cb /\ cb_holds (de_junk e) cb (ts ++ comments_of [i])
  end.
Proof.
  intros Hi Hc Hcb Hh. pose proof (item_text_ok i Hi) as [HT _].
  destruct i as [|t|o n|tls t n|tls t n a b]; cbn [item_step item_text].
  - exists (ds_comments d). split; [destruct d; reflexivity|]. split; [exact Hcb|]. cbn. rewrite app_nil_r. exact Hh.
  - destruct Hi as [[Ht1 Ht2] Hl]. destruct (read_comment_ok (de_junk e) (ds_comments d) t Hcb Hl) as (cb & E & Ec).
    exists cb. cbn [with_newline app read_line]. change (33 =? NL) with false. change (33 =? BANG) with true. cbv iota.
    change (33 :: t ++ [10]) with (with_newline (33 :: t)). rewrite E. split; [reflexivity|]. split; [exact Ec|].
    cbn. eapply read_comment_holds; eauto.
  - pose proof Hi as ((Ho & _ & Hone) & _ & S1 & S2 & S3). destruct Hc as [[]|Hc].
    destruct (starts_with_not _ _ S1 Hone) as (c & o' & Eo & C1).
    assert (C2 : c <> 64) by (intros ->; apply S2; exists o'; exact Eo).
    assert (C3 : c <> 35) by (intros ->; apply S3; exists o'; exact Eo).
    assert (C4 : c <> 10) by (intros ->; apply Ho; rewrite Eo; left; reflexivity).
    assert (R : read_line e container (with_newline (o ++ 58 :: n)) d =
      match read_unit container target (o ++ 58 :: n) with
      | D_ok u => D_ok (mk_ds (ds_deps d) (ds_target d) (ds_units d ++ [u]) (ds_refs d) (ds_comments d))
      | D_err => D_err | D_crash => D_crash end).
    { unfold read_line. rewrite Eo at 1. cbn [with_newline app]. unfold NL, BANG, AT, HASH.
      rewrite (proj2 (Z.eqb_neq c 10) C4), (proj2 (Z.eqb_neq c 33) C1), (proj2 (Z.eqb_neq c 64) C2), (proj2 (Z.eqb_neq c 35) C3).
      rewrite Hc. rewrite chomp_line by exact HT. rewrite <- Hc. reflexivity. }
    rewrite R, (read_unit_line _ _ _ _ Hi).
    destruct (get_symbol_with_name (si_syms target) o); [|reflexivity].
    destruct (get_symbol_with_name (si_syms container) n); [|reflexivity].
    eexists. split; [reflexivity|]. split; [exact Hcb|]. cbn. rewrite app_nil_r. exact Hh.
  - destruct Hc as [[]|Hc].
    assert (R : read_line e container (with_newline (item_text (DRef tls t n))) d =
      match read_ref container target (item_text (DRef tls t n)) with
      | D_ok r => D_ok (mk_ds (ds_deps d) (ds_target d) (ds_units d) (r :: ds_refs d) (ds_comments d))
      | D_err => D_err | D_crash => D_crash end).
    { unfold read_line. rewrite chomp_line by exact HT. rewrite Hc. cbn [item_text with_newline app]. rewrite <- Hc. reflexivity. }
    cbn [item_text] in R. rewrite R. clear R.
    change (35 :: (if tls then [37] else []) ++ t ++ 58 :: n) with (item_text (DRef tls t n)).
    rewrite (read_ref_names _ _ _ _ _ Hi).
    destruct (get_symbol_with_name (si_syms target) t); [|reflexivity].
    destruct (get_symbol_with_name (si_syms container) n); [|reflexivity].
    eexists. split; [reflexivity|]. split; [exact Hcb|]. cbn. rewrite app_nil_r. exact Hh.
  - destruct Hc as [[]|Hc].
    assert (R : read_line e container (with_newline (item_text (DRefOff tls t n a b))) d =
      match read_ref container target (item_text (DRefOff tls t n a b)) with
      | D_ok r => D_ok (mk_ds (ds_deps d) (ds_target d) (ds_units d) (r :: ds_refs d) (ds_comments d))
      | D_err => D_err | D_crash => D_crash end).
    { unfold read_line. rewrite chomp_line by exact HT. rewrite Hc. cbn [item_text with_newline app]. rewrite <- Hc. reflexivity. }
    cbn [item_text] in R. rewrite R. clear R.
    change (35 :: (if tls then [37] else []) ++ t ++ 58 :: n ++ 58 :: a ++ 58 :: b) with (item_text (DRefOff tls t n a b)).
    rewrite (read_ref_offsets _ _ _ _ _ _ _ Hi).
    eexists. split; [reflexivity|]. split; [exact Hcb|]. cbn. rewrite app_nil_r. exact Hh.
Qed.

(** ** All lines *)

Fixpoint items_step (container target : so_info) (items : list ditem) (us : list munit) (rs : list pref)
  : option (list munit * list pref) :=
  match items with
  | [] => Some (us, rs)
  | i :: t => match item_step container target i us rs with
              | None => None
              | Some (us', rs') => items_step container target t us' rs'
              end
  end.

Lemma comments_of_app a b : comments_of (a ++ b) = comments_of a ++ comments_of b.
Proof. unfold comments_of. apply flat_map_app. Qed.

Lemma read_body_items e container target items rest d ts :
  Forall item_ok items -> (Forall no_content items \/ ds_target d = Some target) ->
  cb_ok (ds_comments d) -> cb_holds (de_junk e) (ds_comments d) ts ->
  match items_step container target items (ds_units d) (ds_refs d) with
  | None => read_body e container (map with_newline (map item_text items) ++ rest) d = D_err
  | Some (us, rs) => exists cb,
      read_body e container (map with_newline (map item_text items) ++ rest) d =
      read_body e container rest (mk_ds (ds_deps d) (ds_target d) us rs cb) /\
      cb_ok cb /\ cb_holds (de_junk e) cb (ts ++ comments_of items)
  end.
Proof.
  intros Hi. revert d ts. induction Hi as [|i items Hi His IH]; intros d ts Hc Hcb Hh; cbn [items_step map app].
  - exists (ds_comments d). rewrite app_nil_r. split; [destruct d; reflexivity|]. auto.
  - assert (Hc1 : no_content i \/ ds_target d = Some target)
      by (destruct Hc as [Hc|Hc]; [left; inversion Hc; assumption|right; exact Hc]).
    pose proof (read_line_item e container target i d ts Hi Hc1 Hcb Hh) as R.
    destruct (item_step container target i (ds_units d) (ds_refs d)) as [[us rs]|].
    + destruct R as (cb & R & Rc & Rh). cbn [read_body]. rewrite R.
      specialize (IH (mk_ds (ds_deps d) (ds_target d) us rs cb) (ts ++ comments_of [i])).
      cbn [ds_target ds_units ds_refs ds_comments ds_deps] in IH.
      specialize (IH ltac:(destruct Hc as [Hc|Hc]; [left; inversion Hc; assumption|right; exact Hc]) Rc Rh).
      rewrite <- app_assoc, <- comments_of_app in IH. exact IH.
    + cbn [read_body]. rewrite R. reflexivity.
Qed.

Lemma no_content_step container target items us rs :
  Forall no_content items -> items_step container target items us rs = Some (us, rs).
Proof.
  induction 1 as [|i items Hi His IH]; [reflexivity|]. cbn [items_step].
  destruct i; try contradiction; exact IH.
Qed.

Lemma read_container_items e items path rest cb ts :
  de_container e = None ->
  Forall item_ok items -> Forall no_content items -> cb_ok cb -> cb_holds (de_junk e) cb ts ->
  text_ok path -> path <> [] -> ~ starts_with path 33 ->
  exists cb', cb_ok cb' /\ cb_holds (de_junk e) cb' (ts ++ comments_of items) /\
    read_container e (map with_newline (map item_text items) ++ with_newline path :: rest) cb =
    if negb (de_open e path) then D_err else if de_isdir e path then D_err else D_ok (path, cb', rest).
Proof.
  intros Hov Hi. revert cb ts. induction Hi as [|i items Hi His IH]; intros cb ts Hn Hcb Hh Hp Hpne Hp33.
  - exists cb. rewrite app_nil_r. split; [exact Hcb|]. split; [exact Hh|]. cbn [map app read_container].
    destruct (starts_with_not _ _ Hp33 Hpne) as (c & p & E & Hc).
    assert (Hc10 : c <> 10) by (intros ->; apply Hp; rewrite E; left; reflexivity).
    rewrite (chomp_line path) by apply Hp. rewrite E at 1. cbn [with_newline app]. unfold NL, BANG.
    rewrite (proj2 (Z.eqb_neq c 10) Hc10), (proj2 (Z.eqb_neq c 33) Hc), Hov. reflexivity.
  - inversion Hn as [|? ? Hn1 Hn2]; subst. destruct i as [|t| | |]; try contradiction.
    + cbn [map app item_text with_newline read_container]. change (10 =? NL) with true. cbv iota.
      destruct (IH cb ts Hn2 Hcb Hh Hp Hpne Hp33) as (cb' & A & B & C). exists cb'. auto.
    + destruct Hi as [[Ht1 Ht2] Hl]. destruct (read_comment_ok (de_junk e) cb t Hcb Hl) as (cb1 & E & Ec).
      pose proof (read_comment_holds _ _ _ _ _ Hh Ht1 E) as Eh.
      destruct (IH cb1 (ts ++ [t]) Hn2 Ec Eh Hp Hpne Hp33) as (cb' & A & B & C). exists cb'.
      rewrite <- app_assoc in B. split; [exact A|]. split; [exact B|].
      cbn [map app item_text read_container].
      change (with_newline (33 :: t)) with (33 :: t ++ [10]) at 1. cbn [app].
      change (33 =? NL) with false. change (33 =? BANG) with true. cbv iota. rewrite E. exact C.
Qed.

Lemma dep_content_iff e path id :
  add_dependency (de_dep e path) = Some id <-> dep_means e path id.
Proof.
  unfold add_dependency, dep_means. split.
  - destruct (de_dep e path) as [[|t rest]|]; try discriminate.
    destruct (Z.eqb_spec t 1) as [->|]; [|discriminate]. cbn [negb].
    destruct (Z.ltb_spec (zlen rest) 32) as [|G]; [discriminate|]. intros H. apply Some_inj in H. subst.
    split; [rewrite firstn_length; unfold zlen in G; lia|]. exists (skipn 32 rest).
    rewrite firstn_skipn. reflexivity.
  - intros (HL & rest & ->). cbn [Z.eqb Pos.eqb negb]. rewrite zlen_app. pose proof (zlen_nonneg rest).
    destruct (Z.ltb_spec (zlen id + zlen rest) 32) as [G|G]; [unfold zlen in G; lia|].
    f_equal. rewrite <- HL. rewrite firstn_app, Nat.sub_diag, firstn_all, firstn_O. apply app_nil_r.
Qed.

(** [read_deps] on the dependency lines. *)
Lemma read_deps_lines e paths rest acc :
  Forall text_ok paths -> (match rest with (c :: _) :: _ => c <> 42 | _ => True end) ->
  match read_deps e (map with_newline (map (fun p => 42 :: p) paths) ++ rest) acc with
  | None => exists p, In p paths /\ forall id, ~ dep_means e p id
  | Some (deps, rest') => rest' = rest /\ exists ids, Forall2 (dep_means e) paths ids /\ deps = rev ids ++ acc
  end.
Proof.
  intros Hp Hr. revert acc. induction Hp as [|p paths Hp Hps IH]; intros acc.
  - cbn [map app]. replace (read_deps e rest acc) with (Some (acc, rest)).
    + split; [reflexivity|]. exists []. split; [constructor|reflexivity].
    + destruct rest as [|[|c l] rest]; try reflexivity. cbn [read_deps]. unfold STAR.
      destruct (Z.eqb_spec c 42); [contradiction|reflexivity].
  - cbn [map app read_deps]. unfold with_newline at 1. cbn [app]. change (42 =? STAR) with true. cbv iota.
    change (42 :: p ++ [10]) with (with_newline (42 :: p)).
    rewrite chomp_line by (constructor; [unfold is_cchar; lia|apply Hp]). cbn [tl].
    destruct (add_dependency (de_dep e p)) as [id|] eqn:E.
    + apply dep_content_iff in E. specialize (IH (id :: acc)).
      destruct (read_deps _ _ _) as [[deps rest']|].
      * destruct IH as (-> & ids & F & ->). split; [reflexivity|]. exists (id :: ids). split; [constructor; assumption|].
        cbn [rev]. rewrite <- app_assoc. reflexivity.
      * destruct IH as (q & Hq & Hn). exists q. split; [right; exact Hq|exact Hn].
    + exists p. split; [left; reflexivity|]. intros id Hid. apply dep_content_iff in Hid. congruence.
Qed.

(** ** What the items become *)

Definition unit_read (f : list Z * list Z) (u : munit) : Prop := u_old u = fst f /\ u_new u = snd f.
Definition ref_read (container target : so_info) (i : ditem) (r : pref) : Prop :=
  match i with
  | DRef tls t n =>
      pr_tls r = tls /\ pr_target r = t /\ pr_name r = n /\
      symbol_at (si_syms target) t (pr_toff r) /\ symbol_at (si_syms container) n (pr_poff r)
  | DRefOff tls t n a b =>
      pr_tls r = tls /\ pr_target r = t /\ pr_name r = n /\ pr_poff r = hex_value b /\ pr_toff r = hex_value a
  | _ => False
  end.

Lemma items_step_some container target items us rs us' rs' :
  items_step container target items us rs = Some (us', rs') ->
  exists us2 rs2, us' = us ++ us2 /\ rs' = rev rs2 ++ rs /\
    Forall2 unit_read (funcs_of items) us2 /\ Forall2 (ref_read container target) (refs_of items) rs2.
Proof.
  revert us rs. induction items as [|i items IH]; intros us rs H; cbn [items_step] in H.
  - apply Some_inj in H. apply pair_equal_spec in H. destruct H as [<- <-]. exists [], [].
    rewrite app_nil_r. repeat split; constructor.
  - destruct i as [|t|o n|tls t n|tls t n a b]; cbn [item_step] in H.
    + apply IH in H. exact H.
    + apply IH in H. exact H.
    + destruct (get_symbol_with_name (si_syms target) o) as [a|] eqn:E1; [|discriminate].
      destruct (get_symbol_with_name (si_syms container) n) as [b|] eqn:E2; [|discriminate].
      apply IH in H. destruct H as (us2 & rs2 & -> & -> & F1 & F2). exists (mk_munit o n 0 :: us2), rs2.
      rewrite <- app_assoc. repeat split; [|exact F2]. cbn. constructor; [split; reflexivity|exact F1].
    + destruct (get_symbol_with_name (si_syms target) t) as [a|] eqn:E1; [|discriminate].
      destruct (get_symbol_with_name (si_syms container) n) as [b|] eqn:E2; [|discriminate].
      apply IH in H. destruct H as (us2 & rs2 & -> & -> & F1 & F2). exists us2, (mk_pref t n a b tls :: rs2).
      cbn [rev]. rewrite <- app_assoc. repeat split; [exact F1|]. cbn. constructor; [|exact F2].
      repeat split; apply get_symbol_some; assumption.
    + apply IH in H. destruct H as (us2 & rs2 & -> & -> & F1 & F2). 
      exists us2, (mk_pref t n (hex_value a) (hex_value b) tls :: rs2).
      cbn [rev]. rewrite <- app_assoc. repeat split; [exact F1|]. cbn. constructor; [|exact F2]. repeat split.
Qed.

Definition names_exist (container target : so_info) (i : ditem) : Prop :=
  match i with
  | DFunc o n => has_symbol (si_syms target) o /\ has_symbol (si_syms container) n
  | DRef _ t n => has_symbol (si_syms target) t /\ has_symbol (si_syms container) n
  | _ => True
  end.

Lemma items_step_exists container target items us rs :
  Forall (names_exist container target) items -> items_step container target items us rs <> None.
Proof.
  intros H. revert us rs. induction H as [|i items Hi His IH]; intros us rs; cbn [items_step]; [discriminate|].
  destruct i as [|t|o n|tls t n|tls t n a b]; cbn [item_step]; try apply IH.
  - destruct Hi as [H1 H2]. apply get_symbol_present in H1, H2. destruct H1 as [x ->], H2 as [y ->]. apply IH.
  - destruct Hi as [H1 H2]. apply get_symbol_present in H1, H2. destruct H1 as [x ->], H2 as [y ->]. apply IH.
Qed.

Lemma items_step_missing container target items us rs :
  Exists (fun i => ~ names_exist container target i) items -> items_step container target items us rs = None.
Proof.
  intros H. revert us rs. induction H as [i items Hi|i items His IH]; intros us rs; cbn [items_step].
  - destruct i as [|t|o n|tls t n|tls t n a b]; cbn [item_step names_exist] in *; try (exfalso; apply Hi; exact I).
    + destruct (get_symbol_with_name (si_syms target) o) as [x|] eqn:E1; [|reflexivity].
      destruct (get_symbol_with_name (si_syms container) n) as [y|] eqn:E2; [|reflexivity].
      exfalso. apply Hi. split; eapply symbol_at_has, get_symbol_some; eassumption.
    + destruct (get_symbol_with_name (si_syms target) t) as [x|] eqn:E1; [|reflexivity].
      destruct (get_symbol_with_name (si_syms container) n) as [y|] eqn:E2; [|reflexivity].
      exfalso. apply Hi. split; eapply symbol_at_has, get_symbol_some; eassumption.
  - destruct (item_step container target i us rs) as [[us' rs']|]; [apply IH|reflexivity].
Qed.

Lemma get_target_addrs_spec info us :
  match get_target_addrs info us with
  | Some us' => Forall2 (fun u u' => u_old u' = u_old u /\ u_new u' = u_new u /\
                                     symbol_at (si_syms info) (u_old u) (u_addr u')) us us'
  | None => Exists (fun u => ~ has_symbol (si_syms info) (u_old u)) us
  end.
Proof.
  induction us as [|u us IH]; cbn [get_target_addrs]; [constructor|].
  destruct (get_symbol_with_name (si_syms info) (u_old u)) as [off|] eqn:E.
  - destruct (get_target_addrs info us) as [us'|].
    + constructor; [|exact IH]. repeat split. apply get_symbol_some. exact E.
    + right. exact IH.
  - left. apply get_symbol_none. exact E.
Qed.

Lemma get_target_ref_addrs_spec info rs :
  match get_target_ref_addrs info rs with
  | Some rs' => Forall2 (fun r r' => pr_tls r' = pr_tls r /\ pr_target r' = pr_target r /\ pr_name r' = pr_name r /\
                           pr_poff r' = pr_poff r /\
                           (if pr_toff r =? 0 then symbol_at (si_syms info) (pr_target r) (pr_toff r')
                            else pr_toff r' = pr_toff r)) rs rs'
  | None => Exists (fun r => pr_toff r = 0 /\ ~ has_symbol (si_syms info) (pr_target r)) rs
  end.
Proof.
  induction rs as [|r rs IH]; cbn [get_target_ref_addrs]; [constructor|].
  destruct (Z.eqb_spec (pr_toff r) 0) as [Z0|Z0]; cbn [negb].
  - destruct (get_symbol_with_name (si_syms info) (pr_target r)) as [off|] eqn:E.
    + destruct (get_target_ref_addrs info rs) as [rs'|].
      * constructor; [|exact IH]. rewrite Z0. repeat split. apply get_symbol_some. exact E.
      * right. exact IH.
    + left. split; [exact Z0|]. apply get_symbol_none. exact E.
  - destruct (get_target_ref_addrs info rs) as [rs'|].
    + constructor; [|exact IH]. apply Z.eqb_neq in Z0. rewrite Z0. repeat split.
    + right. exact IH.
Qed.

Lemma symbol_at_fun syms n a b : symbol_at syms n a -> symbol_at syms n b -> a = b.
Proof.
  intros (p & q & -> & Hp) (p' & q' & E & Hp'). revert p' Hp' E. induction p as [|[x v] p IH]; intros p' Hp' E.
  - destruct p' as [|[x' v'] p']; [inversion E; reflexivity|]. inversion E; subst. exfalso. apply Hp'. left. reflexivity.
  - destruct p' as [|[x' v'] p']; inversion E; subst.
    + exfalso. apply Hp. left. reflexivity.
    + apply (IH ltac:(intros C; apply Hp; right; exact C) p'); [intros C; apply Hp'; right; exact C|assumption].
Qed.

(** ** The whole file *)

Definition finish (e : dsc_env) (id : list Z) (target : so_info) (deps : list (list Z))
  (us : list munit) (rs : list pref) (cb : option cbuf) : dres (pmeta * option (list Z)) :=
  match get_target_addrs target us with
  | None => D_err
  | Some us => match get_target_ref_addrs target rs with
               | None => D_err
               | Some rs => D_ok (mk_pmeta id 20 (si_bid target) (si_name target)
                                   (zlen us) us (zlen deps) deps (zlen rs) rs, comment_text cb)
               end
  end.

Lemma parse_desc e d container target ids extra :
  desc_ok d -> no_overrides e ->
  readable e (dd_container d) container -> readable e (dd_target d) target ->
  Forall2 (dep_means e) (dd_deps d) ids -> Forall text_ok extra ->
  match items_step container target (dd_body d) [] [] with
  | None => parse_description e (file_of d ++ concat (map with_newline extra)) = D_err
  | Some (us, rs) => exists cb,
      cb_ok cb /\ cb_holds (de_junk e) cb (desc_comments d) /\
      parse_description e (file_of d ++ concat (map with_newline extra)) =
      match read_body e container (map with_newline extra) (mk_ds (rev ids) (Some target) us rs cb) with
      | D_ok s => D_ok (dd_container d, s)
      | D_err => D_err
      | D_crash => D_crash
      end
  end.
Proof.
  intros D [Oc Ot] (Rc1 & Rc2 & Rc3) (Rt1 & Rt2 & Rt3) Hids Hex.
  pose proof (desc_texts_ok d D) as HT.
  destruct D as [[H1 H1n] (H2 & H2n & H2b) H3 [H4 H4n] (H5 & H5l) H6].
  assert (L : lines_of (file_of d ++ concat (map with_newline extra)) = map with_newline (desc_texts d ++ extra)).
  { unfold file_of. rewrite <- concat_app, <- map_app. apply lines_of_texts.
    apply Forall_app. split; (eapply Forall_impl; [|eassumption]); intros a [_ Ha]; exact Ha. }
  unfold desc_texts in L. rewrite !map_app in L. rewrite <- !app_assoc in L. cbn [map app] in L.
  set (tail2 := with_newline (64 :: dd_target d) :: map with_newline (map item_text (dd_body d)) ++ map with_newline extra) in *.
  set (tail1 := map with_newline (map item_text (dd_mid d)) ++ tail2) in *.
  destruct (read_container_items e (dd_head d) (dd_container d)
              (map with_newline (map (fun p => 42 :: p) (dd_deps d)) ++ tail1) None [] Oc H1 H1n I eq_refl H2 H2n H2b)
    as (cb1 & Cb1 & Ch1 & R1). rewrite Rc1, Rc2 in R1. cbn [negb app] in R1, Ch1.
  assert (HR : match tail1 with (c :: _) :: _ => c <> 42 | _ => True end).
  { unfold tail1. destruct (dd_mid d) as [|i m]; [cbn; lia|].
    inversion H4n; subst. destruct i; try contradiction; cbn; lia. }
  pose proof (read_deps_lines e (dd_deps d) tail1 [] H3 HR) as R2.
  set (st0 := fun deps => mk_ds deps None [] [] cb1).
  pose proof (fun deps => read_body_items e container target (dd_mid d) tail2 (st0 deps) (comments_of (dd_head d))
     H4 (or_introl H4n) Cb1 Ch1) as R3.
  cbn [ds_target ds_units ds_refs st0 ds_deps] in R3. rewrite no_content_step in R3 by exact H4n.
  unfold parse_description. rewrite L. fold tail1. rewrite R1. cbv iota. rewrite Rc3.
  destruct (read_deps e _ []) as [[deps rest']|].
  2:{ exfalso. destruct R2 as (p & Hp & Hn). clear - Hids Hp Hn. induction Hids as [|a b l l' Hab Hl IH]; [contradiction|].
      destruct Hp as [->|Hp]; [exact (Hn _ Hab)|auto]. }
  destruct R2 as (-> & ids' & F2 & ->). rewrite app_nil_r.
  assert (ids' = ids).
  { clear - Hids F2. revert ids' F2. induction Hids as [|a b l l' Hab Hl IH]; intros ids' F2; inversion F2; subst; [reflexivity|].
    f_equal; [|apply IH; assumption]. apply dep_content_iff in Hab. match goal with H : dep_means e a _ |- _ => apply dep_content_iff in H end. congruence. }
  subst ids'. destruct (R3 (rev ids)) as (cb2 & E3 & Cb2 & Ch2). unfold tail1; fold (st0 (rev ids)). rewrite E3. clear R3 E3 R1.
  unfold tail2. cbn [read_body].
  assert (E4 : read_line e container (with_newline (64 :: dd_target d)) (mk_ds (rev ids) None [] [] cb2) =
               D_ok (mk_ds (rev ids) (Some target) [] [] cb2)).
  { cbn [read_line with_newline app]. change (64 =? NL) with false. change (64 =? BANG) with false. change (64 =? AT) with true.
    cbv iota. unfold read_target. cbn [ds_target ds_deps ds_units ds_refs ds_comments]. rewrite Ot.
    change (64 :: dd_target d ++ [10]) with (with_newline (64 :: dd_target d)).
    rewrite chomp_line by (constructor; [unfold is_cchar; lia|apply H5]). cbn [tl].
    unfold PATH_MAX. destruct (Z.geb_spec (zlen (dd_target d)) 4096); [lia|]. rewrite Rt1, Rt2, Rt3. reflexivity. }
  rewrite E4. clear E4.
  pose proof (read_body_items e container target (dd_body d) (map with_newline extra) (mk_ds (rev ids) (Some target) [] [] cb2) 
     (comments_of (dd_head d) ++ comments_of (dd_mid d)) H6 (or_intror eq_refl) Cb2 Ch2) as R5.
  cbn [ds_target ds_units ds_refs ds_deps] in R5.
  destruct (items_step container target (dd_body d) [] []) as [[us rs]|].
  - destruct R5 as (cb3 & E5 & Cb3 & Ch3). rewrite E5. cbn [read_body ds_target ds_units ds_refs ds_deps ds_comments].
    exists cb3. split; [exact Cb3|]. split; [unfold desc_comments; rewrite app_assoc; exact Ch3|]. reflexivity.
  - rewrite R5. reflexivity.
Qed.

Lemma pack_desc e id d container target ids :
  desc_ok d -> no_overrides e ->
  readable e (dd_container d) container -> readable e (dd_target d) target ->
  Forall2 (dep_means e) (dd_deps d) ids ->
  match items_step container target (dd_body d) [] [] with
  | None => pack e id (file_of d) = D_err
  | Some (us, rs) => exists cb,
      cb_holds (de_junk e) cb (desc_comments d) /\
      pack e id (file_of d) = finish e id target (rev ids) us rs cb
  end.
Proof.
  intros D O Rc Rt Hids. pose proof (parse_desc e d container target ids [] D O Rc Rt Hids (Forall_nil _)) as P.
  cbn [map concat] in P. rewrite app_nil_r in P. unfold pack.
  destruct (items_step container target (dd_body d) [] []) as [[us rs]|].
  - destruct P as (cb & _ & Hcb & ->). exists cb. split; [exact Hcb|]. reflexivity.
  - rewrite P. reflexivity.
Qed.

Lemma pack_extra_crash e id d container target ids text :
  desc_ok d -> no_overrides e ->
  readable e (dd_container d) container -> readable e (dd_target d) target ->
  Forall2 (dep_means e) (dd_deps d) ids -> Forall (names_exist container target) (dd_body d) ->
  text_ok text ->
  (forall ds, ds_target ds = Some target -> read_line e container (with_newline text) ds = D_crash) ->
  pack e id (file_of d ++ with_newline text) = D_crash.
Proof.
  intros D O Rc Rt Hids Hx Ht HL.
  pose proof (parse_desc e d container target ids [text] D O Rc Rt Hids (Forall_cons _ Ht (Forall_nil _))) as P.
  cbn [map concat] in P. rewrite app_nil_r in P. unfold pack.
  pose proof (items_step_exists container target (dd_body d) [] [] Hx) as S.
  destruct (items_step container target (dd_body d) [] []) as [[us rs]|]; [|contradiction].
  destruct P as (cb & _ & _ & ->). cbn [read_body]. rewrite HL by reflexivity. reflexivity.
Qed.

Lemma Forall2_comp {A B C} (P : A -> B -> Prop) (Q : B -> C -> Prop) l m n :
  Forall2 P l m -> Forall2 Q m n -> Forall2 (fun a c => exists b, P a b /\ Q b c) l n.
Proof.
  intros H. revert n. induction H; intros n G; inversion G; subst; constructor; eauto.
Qed.

Lemma Forall2_rev {A B} (P : A -> B -> Prop) l m : Forall2 P l m -> Forall2 P (rev l) (rev m).
Proof.
  induction 1; cbn [rev]; [constructor|]. apply Forall2_app; [assumption|]. constructor; [assumption|constructor].
Qed.

Lemma Forall2_impl2 {A B} (P Q : A -> B -> Prop) l m :
  (forall a b, P a b -> Q a b) -> Forall2 P l m -> Forall2 Q l m.
Proof. intros H. induction 1; constructor; auto. Qed.

Lemma refs_of_in i items : In i (refs_of items) -> In i items.
Proof. unfold refs_of. intros H. apply filter_In in H. apply H. Qed.

Lemma Forall2_in_r {A B} (P : A -> B -> Prop) l m b : Forall2 P l m -> In b m -> exists a, In a l /\ P a b.
Proof.
  induction 1; intros Hb; [contradiction|]. destruct Hb as [->|Hb]; [eexists; split; [left; reflexivity|assumption]|].
  destruct (IHForall2 Hb) as (a & Ha & Hp). exists a. split; [right; exact Ha|exact Hp].
Qed.

Lemma funcs_of_in o n items : In (o, n) (funcs_of items) -> In (DFunc o n) items.
Proof.
  unfold funcs_of. intros H. apply in_flat_map in H. destruct H as (i & Hi & H). destruct i; try contradiction.
  destruct H as [H|[]]. congruence.
Qed.

Lemma finish_ok e id container target items us rs deps cb :
  items_step container target items [] [] = Some (us, rs) ->
  Forall (item_exists container target) items ->
  exists us' rs', finish e id target deps us rs cb =
    D_ok (mk_pmeta id 20 (si_bid target) (si_name target) (zlen us') us' (zlen deps) deps (zlen rs') rs', comment_text cb) /\
    Forall2 (unit_means target) (funcs_of items) us' /\
    Forall2 (ref_means container target) (refs_of items) (rev rs').
Proof.
  intros S Hex. apply items_step_some in S. destruct S as (us2 & rs2 & -> & -> & F1 & F2).
  cbn [app]. rewrite app_nil_r. unfold finish. rewrite Forall_forall in Hex.
  pose proof (get_target_addrs_spec target us2) as A.
  destruct (get_target_addrs target us2) as [us'|].
  2:{ exfalso. apply Exists_exists in A. destruct A as (u & Hu & Hn).
      destruct (Forall2_in_r _ _ _ _ F1 Hu) as ([o n] & Hf & Ho & _). cbn in Ho. apply Hn. rewrite Ho.
      apply funcs_of_in in Hf. apply Hex in Hf. apply Hf. }
  pose proof (get_target_ref_addrs_spec target (rev rs2)) as B.
  destruct (get_target_ref_addrs target (rev rs2)) as [rs'|].
  2:{ exfalso. apply Exists_exists in B. destruct B as (r & Hr & H0 & Hn). apply in_rev in Hr.
      destruct (Forall2_in_r _ _ _ _ F2 Hr) as (i & Hi & Hp). apply refs_of_in, Hex in Hi.
      destruct i as [|t|o n|tls t n|tls t n a b]; cbn in Hp, Hi; try contradiction.
      - destruct Hp as (_ & Et & _). rewrite Et in Hn. apply Hn, Hi.
      - destruct Hp as (_ & Et & _ & _ & Ea). rewrite Et in Hn. apply Hn, Hi. congruence. }
  exists us', rs'. split; [reflexivity|]. split.
  - eapply Forall2_impl2; [|exact (Forall2_comp _ _ _ _ _ F1 A)].
    intros f u' (u & [E1 E2] & E3 & E4 & E5). rewrite E1 in *. rewrite E2 in *. repeat split; assumption.
  - apply Forall2_rev in B. rewrite rev_involutive in B.
    eapply Forall2_impl2; [|exact (Forall2_comp _ _ _ _ _ F2 B)].
    intros i r' (r & E1 & T1 & T2 & T3 & T4 & T5). destruct i as [|t|o n|tls t n|tls t n a b]; cbn in E1; try contradiction.
    + destruct E1 as (G1 & G2 & G3 & G4 & G5). cbn. rewrite T1, T2, T3, T4. repeat split; try assumption.
      destruct (Z.eqb_spec (pr_toff r) 0) as [Z0|Z0]; [rewrite <- G2 at 1; exact T5|rewrite T5; exact G4].
    + destruct E1 as (G1 & G2 & G3 & G4 & G5). cbn. rewrite T1, T2, T3, T4. repeat split; try assumption.
      rewrite G5 in T5. rewrite <- G2. exact T5.
Qed.

Lemma item_exists_names container target items :
  Forall (item_exists container target) items -> Forall (names_exist container target) items.
Proof. apply Forall_impl. intros i. destruct i; cbn; auto. Qed.

(** For any file at all: whatever is written exists. *)
Definition unit_exists (container target : so_info) (u : munit) : Prop :=
  has_symbol (si_syms target) (u_old u) /\ has_symbol (si_syms container) (u_new u).

Lemma strtok_some s a b : strtok s = Some (a, b) -> a <> [].
Proof.
  unfold strtok. destruct (skip_colons s) as [|c t] eqn:E; [discriminate|].
  assert (Hc : (c =? COLON) = false).
  { clear - E. revert E. induction s as [|x s IH]; cbn [skip_colons]; [discriminate|].
    destruct (x =? COLON) eqn:Ex; [exact IH|]. intros H. inversion H. subst. exact Ex. }
  destruct (split_colon (c :: t)) as [[x y]|] eqn:E2.
  - cbn [split_colon] in E2. rewrite Hc in E2. destruct (split_colon t) as [[x' y']|]; [|discriminate].
    intros H. apply Some_inj in H. apply pair_equal_spec in H. destruct H as [<- _]. apply Some_inj in E2. apply pair_equal_spec in E2.
    destruct E2 as [<- _]. discriminate.
  - intros H. apply Some_inj in H. apply pair_equal_spec in H. destruct H as [<- _]. discriminate.
Qed.

Lemma read_unit_exists container target s u : read_unit container target s = D_ok u -> unit_exists container target u.
Proof.
  unfold read_unit. destruct s as [|c s]; [discriminate|]. destruct (last (c :: s) 0 =? COLON); [discriminate|].
  destruct (c =? COLON); [discriminate|]. destruct (strtok (c :: s)) as [[a b]|]; [|discriminate].
  destruct (get_symbol_with_name (si_syms target) a) eqn:E1; [|discriminate].
  destruct (strtok b) as [[a2 b2]|]; [|discriminate].
  destruct (get_symbol_with_name (si_syms container) a2) eqn:E2; [|discriminate].
  intros H. injection H as <-. split; eapply symbol_at_has, get_symbol_some; eassumption.
Qed.

Lemma read_body_exists e container ls d d' :
  read_body e container ls d = D_ok d' ->
  (forall t, ds_target d = Some t -> Forall (unit_exists container t) (ds_units d)) ->
  (ds_target d = None -> ds_units d = []) ->
  ((exists p, ds_target d = de_info e p) \/ ds_target d = None) ->
  (forall t, ds_target d' = Some t -> Forall (unit_exists container t) (ds_units d')) /\
  ((exists p, ds_target d' = de_info e p) \/ ds_target d' = None).
Proof.
  revert d. induction ls as [|l ls IH]; intros d H I1 I2 I3; cbn [read_body] in H.
  - injection H as <-. auto.
  - destruct (read_line e container l d) as [d1| |] eqn:E; try discriminate.
    apply (IH d1 H); clear IH H; revert E; unfold read_line;
    (destruct l as [|c l]; [intros E; injection E as <-; assumption|]);
    (destruct (c =? NL); [intros E; injection E as <-; assumption|]);
    (destruct (c =? BANG); [destruct (read_comment _ _ _); intros E; try discriminate; injection E as <-; assumption|]);
    (destruct (c =? AT);
      [unfold read_target; destruct (ds_target d) as [t0|] eqn:T; [discriminate|];
       match goal with |- context[zlen ?q >=? PATH_MAX] => generalize q; intros path end;
       destruct (zlen path >=? PATH_MAX); [discriminate|];
       destruct (negb (de_open e path)); [discriminate|]; destruct (de_isdir e path); [discriminate|];
       destruct (de_info e path) as [t1|] eqn:EI; [|discriminate];
       intros E; injection E as <-; cbn [ds_target ds_units]|]).
    + intros t _. rewrite I2 by reflexivity. constructor.
    + destruct (ds_target d) as [t|] eqn:T; [|discriminate].
      destruct (c =? HASH).
      * destruct (read_ref _ _ _); intros E; try discriminate. injection E as <-. cbn. intros t' Ht'. apply I1. congruence.
      * destruct (read_unit container t _) as [u| |] eqn:U; intros E; try discriminate. injection E as <-. cbn.
        intros t' Ht'. assert (t' = t) by congruence. subst t'. apply read_unit_exists in U.
        apply Forall_app. split; [auto|]. constructor; [exact U|constructor].
    + discriminate.
    + destruct (ds_target d) as [t|] eqn:T; [|discriminate].
      destruct (c =? HASH).
      * destruct (read_ref _ _ _); intros E; try discriminate. injection E as <-. cbn. congruence.
      * destruct (read_unit container t _) as [u| |] eqn:U; intros E; try discriminate. injection E as <-. cbn. congruence.
    + left. exists path. congruence.
    + destruct (ds_target d) as [t|] eqn:T; [|discriminate].
      destruct (c =? HASH).
      * destruct (read_ref _ _ _); intros E; try discriminate. injection E as <-. exact I3.
      * destruct (read_unit container t _) as [u| |] eqn:U; intros E; try discriminate. injection E as <-. exact I3.
Qed.

Lemma pack_exists e id f pm cm :
  pack e id f = D_ok (pm, cm) ->
  exists cpath container tpath target,
    de_info e cpath = Some container /\ de_info e tpath = Some target /\
    pm_name pm = si_name target /\ pm_bid pm = si_bid target /\
    Forall (fun u => symbol_at (si_syms target) (u_old u) (u_addr u) /\ has_symbol (si_syms container) (u_new u)) (pm_units pm).
Proof.
  unfold pack, parse_description. destruct (read_container e (lines_of f) None) as [[[so cb] ls]| |]; try discriminate.
  destruct (de_info e so) as [container|] eqn:EC; [|discriminate].
  destruct (read_deps e ls []) as [[deps ls']|]; [|discriminate].
  destruct (read_body e container ls' _) as [d| |] eqn:RB; try discriminate.
  destruct (read_body_exists _ _ _ _ _ RB) as [H1 H2].
  { intros t; discriminate. } { reflexivity. } { right; reflexivity. }
  destruct (ds_target d) as [t|] eqn:T; [|discriminate].
  pose proof (get_target_addrs_spec t (ds_units d)) as A.
  destruct (get_target_addrs t (ds_units d)) as [us|]; [|discriminate].
  destruct (get_target_ref_addrs t (ds_refs d)) as [rs|]; [|discriminate].
  intros H. injection H as <- <-. destruct H2 as [[p Hp]|]; [|discriminate].
  exists so, container, p, t. repeat split; auto. cbn [pm_units].
  specialize (H1 t eq_refl). clear - A H1. revert H1. induction A as [|u u' l l' (E1 & E2 & E3) A IH]; intros H1; [constructor|].
  inversion H1; subst. constructor; [|auto]. rewrite E1, E2. split; [exact E3|]. match goal with H : unit_exists _ _ u |- _ => apply H end.
Qed.

(** ** The comments *)

Lemma comment_text_holds junk cb ts :
  cb_holds junk cb ts ->
  comment_text cb = match ts with [] => None | _ => Some (cstr_z (comment_bytes junk 0 ts)) end.
Proof.
  destruct cb as [b|]; cbn [cb_holds comment_text]; [|intros ->; reflexivity].
  intros (Hn & _ & _ & ->). destruct ts; [contradiction|reflexivity].
Qed.

Lemma cstr_z_app a b : cstr_ok a -> cstr_z (a ++ b) = a ++ cstr_z b.
Proof.
  induction 1 as [|c a Hc Ha IH]; [reflexivity|]. cbn [app cstr_z].
  destruct (Z.eqb_spec c 0) as [->|]; [unfold is_cchar in Hc; lia|]. f_equal. exact IH.
Qed.

Lemma comment_line_ok d t : desc_ok d -> In t (desc_comments d) -> cstr_ok t.
Proof.
  intros D Hi. destruct D as [[H1 _] _ _ [H4 _] _ H6]. unfold desc_comments, comments_of in Hi.
  rewrite !in_app_iff, !in_flat_map in Hi. rewrite Forall_forall in H1, H4, H6.
  destruct Hi as [(i & Hi & Hin)|[(i & Hi & Hin)|(i & Hi & Hin)]];
    [apply H1 in Hi|apply H4 in Hi|apply H6 in Hi]; destruct i; try contradiction; destruct Hin as [<-|[]]; apply Hi.
Qed.
