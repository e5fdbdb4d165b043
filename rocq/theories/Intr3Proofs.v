(** Loaded objects. *)
From Coq Require Import String.
From Verif Require Import Base BaseFacts StrModel InsnQModel LibModel MetaModel DlModel LibSpec PtModel PtSpec PtProofs
  NtModel NtSpec NtProofs TextModel IntrModel IntrSpec IntrProofs Intr2Proofs.

Lemma trd_holds t a l n : holds (t_ok t) (t_mem t) a l -> List.length l = n -> trd t a n = Some l.
Proof. intros H <-. unfold trd. apply holds_rd. exact H. Qed.

Lemma u64_u64 a b : u64 (u64 a + b) = u64 (a + b).
Proof. unfold u64. rewrite Zplus_mod_idemp_l. reflexivity. Qed.

Ltac fld_solve := repeat (rewrite app_length || rewrite le_enc_length); cbn [List.length]; lia.
Ltac flds := repeat (rewrite app_length || rewrite le_enc_length || match goal with H : List.length _ = _ |- _ => rewrite H end); reflexivity.

(** One 16-byte entry. *)
Lemma dyn_fields t a tag v : 0 <= tag < 2 ^ 64 -> 0 <= v < 2 ^ 64 -> holds (t_ok t) (t_mem t) a (le_enc 8 tag ++ le_enc 8 v) ->
  exists d, trd t a 16 = Some d /\ fld d 0 8 = tag /\ fld d 8 8 = v.
Proof.
  intros T V H. eexists. split; [apply trd_holds; [exact H|flds]|]. split.
  - apply (fld_at [] (le_enc 8 v) tag 0 8); [reflexivity|exact T].
  - rewrite <- (app_nil_r (le_enc 8 v)). apply fld_at; [flds|exact V].
Qed.

Lemma u64_range v : 0 <= u64 v < 2 ^ 64.
Proof. unfold u64. apply Z.mod_pos_bound. reflexivity. Qed.

(** The value of a tag. *)
Definition look (k : Z) (d : list (Z * Z)) (v0 : Z) : Z :=
  match find (fun e => fst e =? k) d with Some e => snd e | None => v0 end.
Lemma look_in k v d v0 : NoDup (map fst d) -> In (k, v) d -> look k d v0 = v.
Proof.
  unfold look. induction d as [|[k' v'] d IH]; intros ND I; [destruct I|]. cbn [find fst map] in *. inversion ND; subst.
  destruct (Z.eqb_spec k' k) as [->|N].
  - destruct I as [E|I]; [injection E as ->; reflexivity|]. exfalso. apply H1. apply in_map_iff. exists (k, v). split; [reflexivity|exact I].
  - destruct I as [E|I]; [injection E as -> ->; contradiction|]. apply IH; assumption.
Qed.
Lemma look_out k d v0 : ~ In k (map fst d) -> look k d v0 = v0.
Proof.
  unfold look. induction d as [|[k' v'] d IH]; intros N; [reflexivity|]. cbn [find fst map] in *.
  destruct (Z.eqb_spec k' k) as [->|N']; [exfalso; apply N; left; reflexivity|]. apply IH. intros I. apply N. right. exact I.
Qed.
Lemma look_cons k tag v d v0 : ~ In tag (map fst d) -> look k ((tag, v) :: d) v0 = look k d (if tag =? k then v else v0).
Proof.
  unfold look. cbn [find fst]. intros N. destruct (Z.eqb_spec tag k) as [->|]; [|reflexivity]. cbn [snd].
  pose proof (look_out k d v N) as E. unfold look in E. symmetry. exact E.
Qed.

Lemma find_r_debug_spec t : forall d a f v, dyn_at t a d -> NoDup (map fst d) -> In (21, v) d -> (List.length d < f)%nat ->
  find_r_debug f t (u64 a) = I_ok v.
Proof.
  induction d as [|[tag w] d IH]; intros a f v H ND I F; [destruct I|].
  inversion H as [|a1 tag1 w1 l1 T V HO H']; subst. destruct f as [|f]; [lia|]. cbn [find_r_debug].
  destruct (dyn_fields t (u64 a) tag w) as (b & E1 & E2 & E3); [lia|lia|exact HO|]. rewrite E1, E2, E3.
  unfold DT_NULL, DT_DEBUG. destruct (Z.eqb_spec tag 0); [lia|]. cbn [map fst] in ND. apply NoDup_cons_iff in ND; destruct ND as [NI ND'].
  destruct I as [E|I].
  - injection E as -> ->. cbn. reflexivity.
  - destruct (Z.eqb_spec tag 21) as [->|].
    + exfalso. apply NI. apply in_map_iff. exists (21, v). split; [reflexivity|exact I].
    + rewrite u64_u64. apply IH; [exact H'|exact ND'|exact I|cbn in F; lia].
Qed.

Lemma dyn_walk_spec t : forall d a f s0 t0 h0, dyn_at t a d -> NoDup (map fst d) -> (List.length d < f)%nat ->
  (s0 <> 0 -> ~ In 6 (map fst d)) -> (t0 <> 0 -> ~ In 5 (map fst d)) -> (h0 <> 0 -> ~ In 4 (map fst d)) ->
  dyn_walk f t (u64 a) s0 t0 h0 = I_ok (look 6 d s0, look 5 d t0, look 4 d h0).
Proof.
  induction d as [|[tag w] d IH]; intros a f s0 t0 h0 H ND F S T' H0.
  - inversion H as [a' v' HO|]; subst. destruct f as [|f]; [cbn in F; lia|]. cbn [dyn_walk].
    assert (E : exists b, trd t (u64 a) 16 = Some b /\ fld b 0 8 = 0).
    { eexists. split; [apply trd_holds; [exact HO|flds]|]. apply (fld_at [] (le_enc 8 v') 0 0 8); [reflexivity|change (8 * Z.of_nat 8) with 64; lia]. }
    destruct E as (b & E1 & E2). rewrite E1, E2.
    change (0 =? DT_SYMTAB) with false. change (0 =? DT_STRTAB) with false. change (0 =? DT_HASH) with false.
    change (0 =? DT_NULL) with true. cbn iota. destruct (_ && _); reflexivity.
  - inversion H as [|a1 tag1 w1 l1 T V HO H']; subst. destruct f as [|f]; [lia|]. cbn [dyn_walk].
    destruct (dyn_fields t (u64 a) tag w) as (b & E1 & E2 & E3); [lia|lia|exact HO|]. rewrite E1, E2, E3.
    cbn [map fst] in ND, S, T', H0. apply NoDup_cons_iff in ND; destruct ND as [NI ND'].
    rewrite !look_cons by exact NI. unfold DT_SYMTAB, DT_STRTAB, DT_HASH, DT_NULL.
    destruct (Z.eqb_spec tag 0); [lia|].
    set (s1 := if tag =? 6 then w else s0). set (t1 := if tag =? 5 then w else t0). set (h1 := if tag =? 4 then w else h0).
    assert (S1 : s1 <> 0 -> ~ In 6 (map fst d)).
    { unfold s1. destruct (Z.eqb_spec tag 6) as [->|]; [intros _; exact NI|]. intros N I. apply (S N). right. exact I. }
    assert (T1 : t1 <> 0 -> ~ In 5 (map fst d)).
    { unfold t1. destruct (Z.eqb_spec tag 5) as [->|]; [intros _; exact NI|]. intros N I. apply (T' N). right. exact I. }
    assert (H1 : h1 <> 0 -> ~ In 4 (map fst d)).
    { unfold h1. destruct (Z.eqb_spec tag 4) as [->|]; [intros _; exact NI|]. intros N I. apply (H0 N). right. exact I. }
    destruct (negb (s1 =? 0) && negb (t1 =? 0) && negb (h1 =? 0)) eqn:B.
    + apply andb_prop in B. destruct B as [B B3]. apply andb_prop in B. destruct B as [B1 B2].
      rewrite !look_out by (apply H1 || apply T1 || apply S1; apply Z.eqb_neq, negb_true_iff; assumption). reflexivity.
    + rewrite u64_u64. apply IH; try assumption. cbn in F. lia.
Qed.

(** One program header. *)
Lemma ph_fields t a p r12 r16 r8 : List.length r12 = 12%nat -> List.length r16 = 16%nat -> List.length r8 = 8%nat -> phdr_ok p ->
  holds (t_ok t) (t_mem t) a (le_enc 4 (ph_t p) ++ r12 ++ le_enc 8 (ph_v p) ++ r16 ++ le_enc 8 (ph_m p) ++ r8) ->
  exists b, trd t a 56 = Some b /\ ph_type b = ph_t p /\ ph_vaddr b = ph_v p /\ ph_memsz b = ph_m p.
Proof.
  intros L1 L2 L3 (O1 & O2 & O3) H. eexists. split; [apply trd_holds; [exact H|flds]|]. unfold ph_type, ph_vaddr, ph_memsz.
  split; [|split].
  - apply (fld_at [] _ _ 0 4); [reflexivity|exact O1].
  - rewrite app_assoc. apply fld_at; [flds|exact O2].
  - rewrite !app_assoc. rewrite <- (app_assoc _ (le_enc 8 (ph_m p)) r8). apply fld_at; [flds|exact O3].
Qed.

Lemma bias_loop_spec t a : forall l i p0 d0, phdrs_at t (a + i * 56) l ->
  bias_loop t a (List.length l) i p0 d0 =
  I_ok (fold_left (fun x p => if ph_t p =? 6 then ph_v p else x) l p0,
        fold_left (fun x p => if ph_t p =? 2 then ph_v p else x) l d0).
Proof.
  induction l as [|p l IH]; intros i p0 d0 H; [reflexivity|].
  inversion H as [|a' p' l' r12 r16 r8 L1 L2 L3 O HO H']; subst. cbn [List.length bias_loop].
  destruct (ph_fields t _ p r12 r16 r8 L1 L2 L3 O HO) as (b & E1 & E2 & E3 & E4). rewrite E1, E2, E3. cbn [fold_left].
  apply IH. replace (a + (i + 1) * 56) with (a + i * 56 + 56) by lia. exact H'.
Qed.

Lemma fold_none ty l x : Forall (fun q => ph_t q <> ty) l -> fold_left (fun x p => if ph_t p =? ty then ph_v p else x) l x = x.
Proof.
  intros H. revert x. induction H as [|q l Q H IH]; intros x; [reflexivity|]. cbn [fold_left].
  destruct (Z.eqb_spec (ph_t q) ty); [contradiction|]. apply IH.
Qed.
Lemma fold_only ty l v x : only l ty v -> fold_left (fun x p => if ph_t p =? ty then ph_v p else x) l x = v.
Proof.
  intros (p1 & p & p2 & -> & T & V & F). apply Forall_app in F. destruct F as [F1 F2].
  rewrite fold_left_app, (fold_none ty p1 x F1). cbn [fold_left]. rewrite T, Z.eqb_refl, fold_none by exact F2. exact V.
Qed.

Lemma aux_out l k v : ~ In k (map fst l) -> aux_val l k v = v.
Proof.
  revert v. induction l as [|[k' x] l IH]; intros v N; [reflexivity|]. cbn [aux_val map fst] in *.
  destruct (Z.eqb_spec k' k) as [->|]; [exfalso; apply N; left; reflexivity|]. apply IH. intros I. apply N. right. exact I.
Qed.
Lemma aux_in l k x v : NoDup (map fst l) -> In (k, x) l -> aux_val l k v = x.
Proof.
  revert v. induction l as [|[k' x'] l IH]; intros v ND I; [destruct I|]. cbn [aux_val map fst] in *. inversion ND; subst.
  destruct I as [E|I].
  - injection E as -> ->. rewrite Z.eqb_refl. apply aux_out. assumption.
  - apply IH; assumption.
Qed.

(** struct link_map. *)
Lemma lm_fields t a addr namep ld next prev : 0 <= addr < 2 ^ 64 -> 0 <= namep < 2 ^ 64 -> 0 <= next < 2 ^ 64 ->
  holds (t_ok t) (t_mem t) a (le_enc 8 addr ++ le_enc 8 namep ++ le_enc 8 ld ++ le_enc 8 next ++ le_enc 8 prev) ->
  exists b, trd t a 40 = Some b /\ lm_addr b = addr /\ lm_name b = namep /\ lm_next b = next.
Proof.
  intros A N X H. eexists. split; [apply trd_holds; [exact H|flds]|]. unfold lm_addr, lm_name, lm_next. split; [|split].
  - apply (fld_at [] _ _ 0 8); [reflexivity|exact A].
  - apply fld_at; [flds|exact N].
  - rewrite (app_assoc _ (le_enc 8 namep)), (app_assoc _ (le_enc 8 ld)). apply fld_at; [flds|exact X].
Qed.

Definition fresh (namep : Z) (o : odesc) : dynobj := mk_dynobj (od_name o) (od_addr o) namep 0 0 0 (repeat 0 20) no_ext.
Lemma walk_spec t : target_ok t -> forall l a f, chain_at t a l -> (List.length l < f)%nat ->
  exists ws, walk_link_map f t a = I_ok ws /\
    Forall2 (fun o w => exists namep, 0 < namep /\ w = fresh namep o) l ws.
Proof.
  intros T. induction l as [|o l IH]; intros a f H F; (destruct f as [|f]; [lia|]).
  - inversion H; subst. exists []. split; [reflexivity|constructor].
  - inversion H as [|a' o' l' namep ld next prev NZ A N X HO AS FU H']; subst. cbn [walk_link_map].
    destruct (Z.eqb_spec a 0); [contradiction|]. unfold get_libname_dynobj.
    destruct (lm_fields t a _ namep ld next prev A N X HO) as (b & E1 & E2 & E3 & E4). rewrite E1, E2, E3, E4.
    destruct (tstr_any t namep (od_name o) T AS FU) as (buf & EB & BI). rewrite EB.
    rewrite BI.
    destruct (IH next f H') as (ws & EW & F2); [cbn in F; lia|]. rewrite EW. cbn [ibind].
    eexists. split; [reflexivity|]. constructor; [|exact F2]. exists namep. split; [apply AS|reflexivity].
Qed.

(** ** The program headers of an object *)

Lemma only_cons p l ty v : only (p :: l) ty v ->
  (ph_t p = ty /\ ph_v p = v /\ Forall (fun q => ph_t q <> ty) l) \/ (ph_t p <> ty /\ only l ty v).
Proof.
  intros (p1 & q & p2 & E & T & V & F). destruct p1 as [|q1 p1]; cbn [app] in *.
  - injection E as -> ->. left. repeat split; assumption.
  - injection E as -> ->. inversion F; subst. right. split; [assumption|]. exists p1, q, p2. repeat split; assumption.
Qed.

Definition has_id (t : target) (r : option (Z * Z)) (id : list Z) : Prop :=
  exists b, r = Some (b, 20) /\ 0 < b /\ holds (t_ok t) (t_mem t) b id.

Lemma id_cons t base p l id : build_id_is t base (p :: l) id ->
  (plain_seg t base p /\ build_id_is t base l id) \/
  (ph_t p = 4 /\ exists pre post, Forall plain_note pre /\ zlen id = 20 /\ bytes_ok id /\
     notes_seg t base p (pre ++ gnu_build_id id :: post)).
Proof.
  intros [[F E]|(p1 & q & p2 & pre & post & E & F & T & PL & L & B & N)].
  - inversion F; subst. left. split; [assumption|]. left. split; [assumption|reflexivity].
  - destruct p1 as [|q1 p1]; cbn [app] in E; injection E as -> ->.
    + right. split; [exact T|]. exists pre, post. repeat split; try assumption; apply N.
    + inversion F; subst. left. split; [assumption|]. right. exists p1, q, p2, pre, post. repeat split; try assumption; apply N.
Qed.

Lemma header_loop_spec t base v d sym str hash : dyn_at t (base + v) d -> NoDup (map fst d) ->
  (List.length d < t_fuel t)%nat -> look 6 d 0 = sym -> look 5 d 0 = str -> look 4 d 0 = hash ->
  forall id, zlen id = 20 -> forall l pa i h, phdrs_at t (pa + i * 56) l ->
  ((only l 2 v /\ hs_dsym h = 0 /\ hs_dstr h = 0 /\ hs_hash h = 0) \/
   (Forall (fun q => ph_t q <> 2) l /\ hs_dsym h = sym /\ hs_dstr h = str /\ hs_hash h = hash)) ->
  ((hs_bid h = None /\ build_id_is t base l id) \/ has_id t (hs_bid h) id) ->
  exists h', header_loop t base pa (List.length l) i h = I_ok h' /\
    hs_dsym h' = sym /\ hs_dstr h' = str /\ hs_hash h' = hash /\
    ((hs_bid h' = None /\ id = repeat 0 20) \/ has_id t (hs_bid h') id).
Proof.
  intros DY ND FU LS LT LH id IL. induction l as [|p l IH]; intros pa i h PH DS BS.
  - exists h. split; [reflexivity|].
    destruct DS as [[(p1 & q & p2 & E & _) _]|(_ & A & B & C)]; [destruct p1; discriminate|].
    repeat split; try assumption. destruct BS as [[N [[_ E]|(p1 & q & p2 & ? & ? & E & _)]]|H].
    + left. split; assumption.
    + destruct p1; discriminate.
    + right. exact H.
  - inversion PH as [|a' p' l' r12 r16 r8 L1 L2 L3 O HO PH']; subst. cbn [List.length header_loop].
    destruct (ph_fields t _ p r12 r16 r8 L1 L2 L3 O HO) as (b & E1 & E2 & E3 & E4). rewrite E1, E2, E3, E4.
    replace (pa + i * 56 + 56) with (pa + (i + 1) * 56) in PH' by lia.
    unfold PT_DYNAMIC, PT_NOTE.
    (* what one step gives *)
    assert (STEP : exists h1,
      (if (ph_t p =? 2) && negb (dynamic_ran h) then
         ibind (dyn_walk (t_fuel t) t (u64 (base + ph_v p)) (hs_dsym h) (hs_dstr h) (hs_hash h))
           (fun r => let '(a, b, c) := r in I_ok (mk_hs a b c (hs_bid h)))
       else if ph_t p =? 4 then
         match hs_bid h with
         | Some _ => I_ok h
         | None =>
             match tool_note_walk (t_fuel t) (t_ok t) (t_mem t) (u64 (base + ph_v p)) (u64 (u64 (base + ph_v p) + u32 (ph_m p))) with
             | W_found b0 len => I_ok (mk_hs (hs_dsym h) (hs_dstr h) (hs_hash h) (Some (b0, len)))
             | W_none => I_ok h
             | W_error => I_err ETARGETHOOK
             | W_fuel => I_hang
             end
         end
       else I_ok h) = I_ok h1 /\
      ((only l 2 v /\ hs_dsym h1 = 0 /\ hs_dstr h1 = 0 /\ hs_hash h1 = 0) \/
       (Forall (fun q => ph_t q <> 2) l /\ hs_dsym h1 = look 6 d 0 /\ hs_dstr h1 = look 5 d 0 /\ hs_hash h1 = look 4 d 0)) /\
      ((hs_bid h1 = None /\ build_id_is t base l id) \/ has_id t (hs_bid h1) id)).
    { destruct DS as [(ON & D1 & D2 & D3)|(NO & D1 & D2 & D3)].
      - apply only_cons in ON. destruct ON as [(T2 & V2 & FO)|(T2 & ON)].
        + rewrite T2. unfold dynamic_ran. rewrite D1. cbn [Z.eqb Pos.eqb negb andb]. rewrite V2, D2, D3.
          rewrite dyn_walk_spec with (d := d) by (assumption || congruence || lia). cbn [ibind].
          eexists. split; [reflexivity|]. cbn [hs_dsym hs_dstr hs_hash hs_bid]. split; [right; repeat split; assumption|].
          destruct BS as [[N BI]|H]; [|right; exact H]. left. split; [exact N|].
          apply id_cons in BI. destruct BI as [[_ BI]|[T4 _]]; [exact BI|lia].
        + destruct (Z.eqb_spec (ph_t p) 2); [contradiction|]. cbn [andb].
          destruct BS as [[N BI]|H].
          2:{ exists h. split; [destruct H as (b0 & -> & _); destruct (_ =? 4); reflexivity|].
              split; [left; repeat split; assumption|right; exact H]. }
          rewrite N. apply id_cons in BI. destruct BI as [[PS BI]|(T4 & pre & post & PN & _ & BO & SG & M & F)].
          * destruct (Z.eqb_spec (ph_t p) 4) as [T4|T4].
            -- destruct (PS T4) as (ns & NE & PN & SG & M & F). rewrite M, walk_none by (assumption || lia).
               exists h. split; [reflexivity|]. split; [left; repeat split; assumption|left; split; assumption].
            -- exists h. split; [reflexivity|]. split; [left; repeat split; assumption|left; split; assumption].
          * rewrite T4, Z.eqb_refl, M. rewrite app_length in F.
            destruct (walk_found (t_ok t) (t_mem t) pre id post (t_fuel t) _ PN IL BO SG ltac:(lia)) as (b0 & -> & B0 & HB).
            eexists. split; [reflexivity|]. cbn [hs_dsym hs_dstr hs_hash hs_bid]. split; [left; repeat split; assumption|].
            right. exists b0. repeat split; try assumption; apply HB.
      - inversion NO as [|? ? T2 NO']; subst. destruct (Z.eqb_spec (ph_t p) 2); [contradiction|]. cbn [andb].
        destruct BS as [[N BI]|H].
        2:{ exists h. split; [destruct H as (b0 & -> & _); destruct (_ =? 4); reflexivity|].
            split; [right; repeat split; assumption|right; exact H]. }
        rewrite N. apply id_cons in BI. destruct BI as [[PS BI]|(T4 & pre & post & PN & _ & BO & SG & M & F)].
        * destruct (Z.eqb_spec (ph_t p) 4) as [T4|T4].
          -- destruct (PS T4) as (ns & NE & PN & SG & M & F). rewrite M, walk_none by (assumption || lia).
             exists h. split; [reflexivity|]. split; [right; repeat split; assumption|left; split; assumption].
          -- exists h. split; [reflexivity|]. split; [right; repeat split; assumption|left; split; assumption].
        * rewrite T4, Z.eqb_refl, M. rewrite app_length in F.
          destruct (walk_found (t_ok t) (t_mem t) pre id post (t_fuel t) _ PN IL BO SG ltac:(lia)) as (b0 & -> & B0 & HB).
          eexists. split; [reflexivity|]. cbn [hs_dsym hs_dstr hs_hash hs_bid]. split; [right; repeat split; assumption|].
          right. exists b0. repeat split; try assumption; apply HB. }
    destruct STEP as (h1 & -> & DS1 & BS1). cbn [ibind].
    destruct (dynamic_ran h1 && match hs_bid h1 with Some _ => true | None => false end) eqn:DONE.
    + apply andb_prop in DONE. destruct DONE as [R B].
      exists h1. split; [reflexivity|].
      destruct DS1 as [(_ & Z1 & _)|(_ & A & B1 & C)]; [unfold dynamic_ran in R; rewrite Z1 in R; discriminate|].
      repeat split; try assumption. destruct BS1 as [[N _]|H]; [rewrite N in B; discriminate|right; exact H].
    + apply (IH pa (i + 1) h1 PH' DS1 BS1).
Qed.

Lemma build_id_len t base phs id : build_id_is t base phs id -> zlen id = 20.
Proof. intros [[_ ->]|(? & ? & ? & ? & ? & _ & _ & _ & _ & L & _)]; [reflexivity|exact L]. Qed.

Lemma s32_small n : 0 <= n < 2 ^ 31 -> s32 n = n.
Proof.
  intros H. unfold s32, u32. rewrite Z.mod_small by lia. destruct (Z.ltb_spec n (2 ^ 31)); lia.
Qed.

Lemma parse_spec t maps main name namep base sym str n id e : 0 < namep -> base <> 0 -> elf_at t base sym str n id ->
  parse_dynobj_elf_headers t maps main (mk_dynobj name base namep 0 0 0 (repeat 0 20) e) =
  I_ok (mk_dynobj name base namep sym str n id e).
Proof.
  intros NP BN (r32 & phoff & r14 & r6 & phs & v & d & L1 & L2 & L3 & PO & PN & HO & PH & ON & DY & FU & (ND & I6 & I5 & S0 & T0 & HS) & BI).
  unfold parse_dynobj_elf_headers. cbn [o_l_name o_l_addr o_filename o_ext o_buildid].
  destruct (Z.eqb_spec namep 0); [lia|]. unfold get_ehdr_addr. cbn [o_l_addr].
  destruct (Z.eqb_spec base 0); [contradiction|]. cbn [negb ibind].
  rewrite (trd_holds t base _ 64 HO) by flds.
  assert (F54 : fld (r32 ++ le_enc 8 phoff ++ r14 ++ le_enc 2 56 ++ le_enc 2 (zlen phs) ++ r6) 54 2 = 56).
  { rewrite (app_assoc r32), (app_assoc _ r14). apply fld_at; [flds|cbn; lia]. }
  assert (F32 : fld (r32 ++ le_enc 8 phoff ++ r14 ++ le_enc 2 56 ++ le_enc 2 (zlen phs) ++ r6) 32 8 = phoff).
  { apply fld_at; [flds|exact PO]. }
  assert (F56 : fld (r32 ++ le_enc 8 phoff ++ r14 ++ le_enc 2 56 ++ le_enc 2 (zlen phs) ++ r6) 56 2 = zlen phs).
  { rewrite (app_assoc r32), (app_assoc _ r14), (app_assoc _ (le_enc 2 56)). apply fld_at; [flds|].
    pose proof (zlen_nonneg phs). change (8 * Z.of_nat 2) with 16. lia. }
  rewrite F54, F32, F56. cbn [Z.eqb Pos.eqb negb].
  assert (LEN : Z.to_nat (zlen phs) = List.length phs) by (unfold zlen; lia). rewrite LEN.
  pose proof (build_id_len _ _ _ _ BI) as IL.
  assert (SH : phdrs_at t (u64 (base + phoff) + 0 * 56) phs).
  { replace (u64 (base + phoff) + 0 * 56) with (u64 (base + phoff)) by lia. clear - PH.
    assert (X : forall a l, phdrs_at t a l -> forall b, u64 b = u64 a -> phdrs_at t b l).
    { intros a l H. induction H as [a|a p l r12 r16 r8 L1 L2 L3 O HO H IH]; intros b E; [constructor|].
      apply (ph_cons t b p l r12 r16 r8 L1 L2 L3 O).
      - rewrite E. exact HO.
      - apply IH. unfold u64 in *. rewrite Z.add_mod, E, <- Z.add_mod by lia. reflexivity. }
    apply (X _ _ PH). unfold u64. rewrite Z.mod_mod by lia. reflexivity. }
  assert (HX : exists hash, look 4 d 0 = hash /\ (hash = 0 -> n = 0) /\
            (hash <> 0 -> 0 <= n < 2 ^ 31 /\ holds (t_ok t) (t_mem t) (u64 (hash + 4)) (le_enc 4 n))).
  { destruct HS as [(hash & I4 & H0 & N & HH)|[N NI]].
    - exists hash. split; [apply look_in; assumption|]. split; [lia|]. intros _. split; assumption.
    - exists 0. split; [apply look_out; exact NI|]. split; [intros _; exact N|]. intros H. contradiction H. reflexivity. }
  destruct HX as (hash & LH & HZ & HN).
  destruct (header_loop_spec t base v d sym str hash DY ND FU (look_in 6 sym d 0 ND I6) (look_in 5 str d 0 ND I5) LH id IL
              phs (u64 (base + phoff)) 0 (mk_hs 0 0 0 None) SH) as (h' & -> & D1 & D2 & D3 & BB).
  { left. repeat split. exact ON. } { left. split; [reflexivity|exact BI]. }
  cbn [ibind]. rewrite D1, D2, D3.
  assert (BE : match hs_bid h' with
               | Some (a, len) => if negb (a =? 0) && (len =? BUILDID_LEN)
                                  then match trd t a 20 with Some d0 => d0 | None => repeat 0 20 end else repeat 0 20
               | None => repeat 0 20 end = id).
  { destruct BB as [[-> ->]|(b & -> & B0 & HB)]; [reflexivity|].
    destruct (Z.eqb_spec b 0); [lia|]. change (20 =? BUILDID_LEN) with true. cbn [negb andb].
    rewrite (trd_holds t b id 20 HB) by (unfold zlen in IL; lia). reflexivity. }
  rewrite BE. destruct (Z.eqb_spec hash 0) as [E|E].
  - rewrite (HZ E). reflexivity.
  - destruct (HN E) as [N HH]. rewrite (trd_holds t _ _ 4 HH) by apply le_enc_length.
    rewrite le_dec_enc_id by (change (8 * Z.of_nat 4) with 32; lia). rewrite s32_small by exact N. reflexivity.
Qed.

(** ** All objects *)

Definition known (namep : Z) (o : odesc) (e : list Z) : dynobj :=
  mk_dynobj (od_name o) (od_addr o) namep (od_sym o) (od_str o) (od_n o) (od_id o) e.

Lemma parse_lib_headers t maps main namep o : 0 < namep -> object_at t o ->
  (if bytes_eqb (od_name o) (zs "linux-vdso.so.1") || bytes_eqb (od_name o) (zs "linux-vdso64.so.1")
   then I_ok (fresh namep o) else parse_ignoring t maps main (fresh namep o)) = I_ok (known namep o no_ext).
Proof.
  intros NP. unfold object_at. destruct (_ || _).
  - intros (E1 & E2 & E3 & E4). unfold fresh, known. rewrite E1, E2, E3, E4. reflexivity.
  - intros [BN E]. unfold parse_ignoring, fresh, known. rewrite (parse_spec t maps main _ _ _ _ _ _ _ _ NP BN E). reflexivity.
Qed.

Lemma parse_lib_other t maps main namep o : 0 < namep -> object_at t o -> strstr (od_name o) (zs "libpulp.so") = false ->
  parse_lib_dynobj t maps main (fresh namep o) = I_ok (known namep o no_ext, false).
Proof.
  intros NP OA NL. unfold parse_lib_dynobj. cbn [o_nsyms o_filename fresh]. change (0 <? 0) with false. cbn [andb].
  fold (fresh namep o). rewrite parse_lib_headers by assumption. cbn [ibind]. unfold is_libpulp. cbn [o_filename known].
  rewrite NL. reflexivity.
Qed.

Lemma parse_lib_libpulp t maps main namep o e : 0 < namep -> object_at t o -> strstr (od_name o) (zs "libpulp.so") = true ->
  0 < od_sym o -> 0 < od_str o -> 0 < od_n o ->
  ext_loop (Z.to_nat (od_n o)) t (od_addr o) (od_sym o) (od_str o) no_ext (repeat false 11) = I_ok e ->
  parse_lib_dynobj t maps main (fresh namep o) = I_ok (known namep o e, complete (known namep o e)).
Proof.
  intros NP OA NL S0 T0 N0 EL. unfold parse_lib_dynobj. cbn [o_nsyms o_filename fresh]. change (0 <? 0) with false. cbn [andb].
  fold (fresh namep o). rewrite parse_lib_headers by assumption. cbn [ibind]. unfold is_libpulp. cbn [o_filename known].
  rewrite NL. unfold get_libpulp_extern_symbols. cbn [o_dynsym o_dynstr o_nsyms o_l_addr o_ext known].
  destruct (Z.eqb_spec (od_sym o) 0); [lia|]. destruct (Z.eqb_spec (od_str o) 0); [lia|].
  destruct (Z.leb_spec (od_n o) 0); [lia|]. cbn [orb].
  fold (known namep o no_ext). cbn [o_dynsym o_dynstr o_nsyms o_l_addr o_ext known]. rewrite EL. reflexivity.
Qed.

Definition is_fresh (o : odesc) (w : dynobj) : Prop := exists namep, 0 < namep /\ w = fresh namep o.
Definition is_known (o : odesc) (w : dynobj) : Prop := view w = o.
Lemma view_known namep o e : view (known namep o e) = o.
Proof. destruct o; reflexivity. Qed.

Lemma parse_targets_others t maps main cur : forall os ws i, Forall2 is_fresh os ws ->
  Forall (fun o => object_at t o /\ strstr (od_name o) (zs "libpulp.so") = false) os ->
  (forall j, (j < List.length ws)%nat -> (i + j <> cur)%nat) ->
  forall rest, exists ws', map view ws' = os /\ List.length ws' = List.length ws /\
    parse_targets t maps main i cur (ws ++ rest) =
    ibind (parse_targets t maps main (i + List.length ws) cur rest) (fun r => I_ok (ws' ++ fst r, snd r)).
Proof.
  induction os as [|o os IH]; intros ws i F A J rest; inversion F as [|? w ? ws0 (namep & NP & ->) F']; subst.
  - exists []. split; [reflexivity|]. split; [reflexivity|]. cbn [app List.length]. rewrite Nat.add_0_r.
    destruct (parse_targets t maps main i cur rest) as [[a b]| | |]; reflexivity.
  - inversion A as [|? ? [OA NL] A']; subst.
    destruct (IH ws0 (S i) F' A') with (rest := rest) as (ws' & V & L & E).
    { intros j JL. specialize (J (S j)). cbn [List.length] in J. lia. }
    exists (known namep o no_ext :: ws'). split; [cbn [map]; rewrite view_known, V; reflexivity|].
    split; [cbn [List.length]; lia|]. cbn [app parse_targets].
    destruct (Nat.eqb_spec i cur) as [EC|_]; [specialize (J 0%nat); cbn in J; lia|].
    rewrite parse_lib_other by assumption. cbn [ibind]. rewrite E. cbn [List.length].
    replace (i + S (List.length ws0))%nat with (S i + List.length ws0)%nat by lia.
    destruct (parse_targets t maps main (S i + List.length ws0) cur rest) as [[a b]| | |]; reflexivity.
Qed.

Lemma find_index_app p l1 o l2 : Forall (fun x => p x = false) l1 -> p o = true ->
  find_index p (l1 ++ o :: l2) = Some (List.length l1).
Proof. intros F P. induction F as [|x l1 X F IH]; cbn [app find_index List.length]; [rewrite P; reflexivity|rewrite X, IH; reflexivity]. Qed.
Lemma put_obj_app l1 o l2 o' : put_obj (l1 ++ o :: l2) (List.length l1) o' = l1 ++ o' :: l2.
Proof. induction l1 as [|x l1 IH]; cbn; [reflexivity|rewrite IH; reflexivity]. Qed.
Lemma nth_error_app_mid {A} (l1 : list A) o l2 : nth_error (l1 ++ o :: l2) (List.length l1) = Some o.
Proof. induction l1 as [|x l1 IH]; cbn; [reflexivity|exact IH]. Qed.

Lemma Forall2_rev {A B} (P : A -> B -> Prop) l l' : Forall2 P l l' -> Forall2 P (rev l) (rev l').
Proof.
  induction 1 as [|x y l l' H F IH]; cbn; [constructor|]. apply Forall2_app; [exact IH|]. constructor; [exact H|constructor].
Qed.

Lemma fresh_names os ws : Forall2 is_fresh os ws -> Forall (fun o => strstr (od_name o) (zs "libpulp.so") = false) os ->
  Forall (fun w => is_libpulp w = false) ws.
Proof.
  induction 1 as [|o w os ws (namep & _ & ->) F IH]; intros A; constructor; inversion A; subst; [assumption|apply IH; assumption].
Qed.

Lemma parse_libs_spec t maps main a c1 lp c2 e : target_ok t -> chain_at t a (c1 ++ lp :: c2) ->
  (List.length (c1 ++ lp :: c2) < t_fuel t)%nat ->
  Forall (object_at t) (c1 ++ lp :: c2) ->
  Forall (fun o => strstr (od_name o) (zs "libpulp.so") = false) (c1 ++ c2) ->
  strstr (od_name lp) (zs "libpulp.so") = true ->
  0 < od_sym lp -> 0 < od_str lp -> 0 < od_n lp ->
  ext_loop (Z.to_nat (od_n lp)) t (od_addr lp) (od_sym lp) (od_str lp) no_ext (repeat false 11) = I_ok e ->
  exists ws namep, parse_libs_dynobj t maps main a = I_ok (ws, List.length c2) /\
    map view ws = rev (c1 ++ lp :: c2) /\ nth_error ws (List.length c2) = Some (known namep lp e).
Proof.
  intros T CH FU OA NL YL S0 T0 N0 EL. unfold parse_libs_dynobj.
  destruct (walk_spec t T _ _ (t_fuel t) CH FU) as (ws & -> & F2). cbn [ibind].
  apply Forall2_app_inv_l in F2. destruct F2 as (w1 & w2' & F1 & F2 & ->). inversion F2 as [|? w ? w2 (namep & NP & ->) F3]; subst.
  rewrite rev_app_distr. cbn [rev]. rewrite <- app_assoc. cbn [app].
  apply Forall_app in OA. destruct OA as [OA1 OA2]. inversion OA2 as [|? ? OAL OA3]; subst.
  apply Forall_app in NL. destruct NL as [NL1 NL2].
  assert (LR : List.length (rev w2) = List.length c2).
  { rewrite rev_length. symmetry. clear - F3. induction F3; cbn; [reflexivity|rewrite IHF3; reflexivity]. }
  rewrite find_index_app; [|apply Forall_rev; apply fresh_names with (os := c2); assumption|unfold is_libpulp; exact YL].
  rewrite nth_error_app_mid. rewrite (parse_lib_libpulp t maps main namep lp e) by assumption. cbn [ibind fst].
  rewrite put_obj_app.
  assert (AA : forall c, Forall (object_at t) c -> Forall (fun o => strstr (od_name o) (zs "libpulp.so") = false) c ->
    Forall (fun o => object_at t o /\ strstr (od_name o) (zs "libpulp.so") = false) (rev c)).
  { intros c X Y. apply Forall_rev. rewrite Forall_forall in *. intros x IX. split; [apply X|apply Y]; exact IX. }
  destruct (parse_targets_others t maps main (List.length (rev w2)) (rev c2) (rev w2) 0) with (rest := known namep lp e :: rev w1)
    as (ws2 & V2 & L2 & ->); [apply Forall2_rev; exact F3|apply AA; assumption|intros j; lia|].
  cbn [parse_targets]. rewrite Nat.add_0_l, Nat.eqb_refl. cbn [ibind].
  destruct (parse_targets_others t maps main (List.length (rev w2)) (rev c1) (rev w1) (S (List.length (rev w2)))) with (rest := @nil dynobj)
    as (ws1 & V1 & L1 & E1); [apply Forall2_rev; exact F1|apply AA; assumption|intros j; lia|].
  rewrite app_nil_r in E1. cbn [app] in E1. rewrite E1. cbn [parse_targets ibind fst snd]. rewrite app_nil_r, LR.
  exists (ws2 ++ known namep lp e :: ws1), namep. split; [reflexivity|]. split.
  - rewrite map_app. cbn [map]. rewrite V2, V1, view_known, rev_app_distr. cbn [rev]. rewrite <- app_assoc. reflexivity.
  - rewrite <- LR, <- L2. apply nth_error_app_mid.
Qed.


Lemma init_spec t pf main c1 lp c2 e :
  target_ok t -> process_at t (pf_auxv pf) main (c1 ++ lp :: c2) ->
  od_name main = upto_newline (get_basename (pf_comm pf)) -> od_addr main <> 0 ->
  elf_at t (od_addr main) (od_sym main) (od_str main) (od_n main) (od_id main) ->
  Forall (object_at t) (c1 ++ lp :: c2) ->
  Forall (fun o => strstr (od_name o) (zs "libpulp.so") = false) (c1 ++ c2) ->
  strstr (od_name lp) (zs "libpulp.so") = true ->
  0 < od_sym lp -> 0 < od_str lp -> 0 < od_n lp ->
  ext_loop (Z.to_nat (od_n lp)) t (od_addr lp) (od_sym lp) (od_str lp) no_ext (repeat false 11) = I_ok e ->
  libpulp_loaded t (nth 2 e 0) ->
  exists p namep, initialize_data_structures t pf true = I_ok p /\ view (p_main p) = main /\
    map view (p_targets p) = rev (c1 ++ lp :: c2) /\ the_libpulp p = Some (known namep lp e).
Proof.
  intros T (entry & at_phdr & phs & v & d & r_debug & lm & bias & dispv & namep & ld & next & prev &
            ND & I9 & I3 & I4 & I5 & EN & AP & PL & PH & ON & DI & DY & FD & NDD & I21 & LM & HR & MA & NP & NX & HL & CH & FC)
         NM NB EA OA NL YL S0 T0 N0 EL LL.
  unfold initialize_data_structures. cbn [negb].
  assert (DB : exists b, dig_load_bias t (pf_auxv pf) = I_ok (b, u64 (v + bias))).
  { unfold dig_load_bias, AT_ENTRY, AT_PHDR, AT_PHNUM, AT_PHENT.
    rewrite (aux_in _ 9 entry 0 ND I9), (aux_in _ 3 at_phdr 0 ND I3), (aux_in _ 5 (zlen phs) 0 ND I5), (aux_in _ 4 56 0 ND I4).
    destruct (Z.eqb_spec entry 0); [contradiction|]. destruct (Z.eqb_spec at_phdr 0); [lia|].
    change (s32 56 =? 56) with true. cbn [negb]. rewrite s32_small by (pose proof (zlen_nonneg phs); lia).
    replace (Z.to_nat (zlen phs)) with (List.length phs) by (unfold zlen; lia).
    rewrite bias_loop_spec by (replace (at_phdr + 0 * 56) with at_phdr by lia; exact PH). cbn [ibind].
    rewrite (fold_only 2 phs v 0 ON). destruct DI as [(OD & DN & ->)|(NO & ->)].
    - rewrite (fold_only 6 phs dispv 0 OD). destruct (Z.eqb_spec dispv 0); [contradiction|]. eexists. reflexivity.
    - rewrite (fold_none 6 phs 0 NO). cbn [Z.eqb]. exists 0. rewrite Z.add_0_r. do 2 f_equal.
      destruct ON as (p1 & q & p2 & -> & _ & <- & _). clear - PH.
      assert (X : forall l a, phdrs_at t a l -> Forall phdr_ok l).
      { induction 1; constructor; assumption. }
      apply X in PH. apply Forall_app in PH. destruct PH as [_ PH]. inversion PH as [|? ? (_ & O & _) _]; subst.
      symmetry. apply u64_id. exact O. }
  destruct DB as (b & ->). cbn [ibind snd]. unfold dig_main_link_map.
  rewrite (find_r_debug_spec t d (v + bias) (t_fuel t) r_debug DY NDD I21 FD). cbn [ibind].
  rewrite (trd_holds t _ _ 8 HR) by apply le_enc_length. rewrite le_dec_enc_id by exact LM.
  destruct (lm_fields t lm _ namep ld next prev MA ltac:(lia) NX HL) as (lmb & E1 & E2 & E3 & E4).
  rewrite E1. cbn [ibind]. rewrite E2, E3, E4.
  unfold parse_ignoring at 1. rewrite <- NM.
  rewrite (parse_spec t (pf_maps pf) (od_name main) (od_name main) namep _ _ _ _ _ no_ext ltac:(lia) NB EA). cbn [ibind].
  destruct (parse_libs_spec t (pf_maps pf) (od_name main) next c1 lp c2 e T CH FC OA NL YL S0 T0 N0 EL) as (ws & np & -> & V & NE).
  cbn [ibind fst snd]. rewrite NE. unfold ext. cbn [o_ext known].
  destruct LL as (by_ & r15 & R15 & BR & HB). rewrite (trd_holds t _ _ 16 HB) by flds.
  assert (FB : fld (le_enc 1 by_ ++ r15) 0 1 = by_) by (apply (fld_at [] r15 by_ 0 1 eq_refl); change (8 * Z.of_nat 1) with 8; lia).
  rewrite FB.
  destruct (Z.eqb_spec by_ 0); [lia|].
  eexists; exists np. split; [reflexivity|]. cbn [p_main p_targets]. split; [destruct main; reflexivity|].
  split; [exact V|]. unfold the_libpulp. cbn [p_targets p_libpulp]. exact NE.
Qed.

(** ** Entry points, by name *)

Lemma entries_of_loop t o syms text e : target_ok t -> (0 < t_fuel t)%nat ->
  symtab_at t (o_dynstr o) (o_dynsym o) syms -> NoDup (map ds_name syms) -> version_at t (o_l_addr o) syms text ->
  ext_loop (List.length syms) t (o_l_addr o) (o_dynsym o) (o_dynstr o) no_ext (repeat false 11) = I_ok e ->
  forall o', o_ext o' = e -> entries_known o' (o_l_addr o) syms text.
Proof.
  intros T F ST ND VA EL o' EO.
  destruct (ext_loop_spec t (o_l_addr o) (o_dynstr o) text T F syms (o_dynsym o) no_ext (repeat false 11) ST ND eq_refl eq_refl) as (e' & E1 & E2 & E3).
  { intros i I S. exfalso. assert (X : forall n i, nth i (repeat false n) false = false).
    { clear. induction n as [|n IH]; intros [|i]; cbn; try reflexivity. apply IH. }
    rewrite X in S. discriminate. }
  { exact VA. }
  assert (e' = e) by congruence. subst e'. split.
  - intros bit name I.
    assert (X : (bit < 10)%nat /\ name = full bit).
    { unfold entry_names in I. cbn [In] in I.
      repeat (destruct I as [I|I]; [injection I as <- <-; split; [lia|vm_compute; reflexivity]|]). destruct I. }
    destruct X as [B ->]. destruct (E3 bit ltac:(lia)) as [A N]. unfold ext. rewrite EO. split.
    + intros v V. rewrite (A v V). unfold found. destruct (Nat.eqb_spec bit 10); [lia|reflexivity].
    + intros V. rewrite (N V). clear. unfold no_ext. do 11 (destruct bit as [|bit]; [reflexivity|]). destruct bit; reflexivity.
  - intros v V. unfold ext. rewrite EO. destruct (E3 10%nat ltac:(lia)) as [A _].
    rewrite (A v V). reflexivity.
Qed.
