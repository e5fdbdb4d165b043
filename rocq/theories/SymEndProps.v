(** C61: the refutation for names at the end of readable memory. *)
From Coq Require Import String Lia.
From Verif Require Import Base BaseFacts StrModel InsnQModel LibModel MetaModel DlModel PtModel PtSpec NtModel NtSpec TextModel
  IntrModel IntrSpec.

(** A symbol table as [symtab_at], but nothing is asked of the memory behind the
    names. *)
Inductive symtab_tight (t : target) (str : Z) : Z -> list dsym -> Prop :=
| tt_nil : forall a, symtab_tight t str a []
| tt_cons : forall a s l off r4 r8,
    List.length r4 = 4%nat -> List.length r8 = 8%nat ->
    0 <= off < 2 ^ 32 -> 0 <= ds_value s < 2 ^ 64 ->
    holds (t_ok t) (t_mem t) a (le_enc 4 off ++ r4 ++ le_enc 8 (ds_value s) ++ r8) ->
    holds (t_ok t) (t_mem t) (str + off) (ds_name s ++ [0]) ->
    symtab_tight t str (a + 24) l ->
    symtab_tight t str a (s :: l).

Definition tight_sym (off v : Z) : list Z := le_enc 4 off ++ repeat 0 4 ++ le_enc 8 v ++ repeat 0 8.
Definition tight_mem : mem :=
  mem_write (mem_write (mem_write (fun _ => 0) 4096 (tight_sym 190 64 ++ tight_sym 1 4097)) 8001 (zs "__ulp_trigger" ++ [0]))
    8190 (zs "a" ++ [0]).
Definition tight_target : target := mk_target (fun x => (0 <=? x) && (x <? 8192)) tight_mem 50 (repeat 0 8).
Definition tight_obj : dynobj := mk_dynobj (zs "/usr/lib64/libpulp.so.0") 65536 0 4096 8000 2 [] no_ext.

Lemma byte_mem_write m a l : byte_mem m -> bytes_ok l -> byte_mem (mem_write m a l).
Proof.
  intros H L x. destruct (Z_le_gt_dec a x) as [H1|H1]; [destruct (Z_lt_ge_dec x (a + zlen l)) as [H2|H2]|].
  - rewrite mem_write_in by lia. unfold bytes_ok in L. rewrite Forall_forall in L. apply L. apply nth_In.
    unfold zlen in *. lia.
  - rewrite mem_write_out by lia. apply H.
  - rewrite mem_write_out by lia. apply H.
Qed.
Lemma bytes_check l : forallb (fun x => (0 <=? x) && (x <? 256)) l = true -> bytes_ok l.
Proof.
  intros H. unfold bytes_ok. apply Forall_forall. intros x X. rewrite forallb_forall in H. specialize (H x X).
  unfold is_byte. lia.
Qed.

Lemma tight_ok : target_ok tight_target.
Proof.
  split; [|split; [reflexivity|]].
  - cbn [t_mem tight_target]. unfold tight_mem.
    repeat apply byte_mem_write; try (apply bytes_check; reflexivity). intros x. unfold is_byte. lia.
  - intros x y E. cbn [t_ok tight_target].
    pose proof (Z.div_mod x 4096 ltac:(lia)). pose proof (Z.mod_pos_bound x 4096 ltac:(lia)).
    pose proof (Z.div_mod y 4096 ltac:(lia)). pose proof (Z.mod_pos_bound y 4096 ltac:(lia)).
    destruct (Z.leb_spec 0 x), (Z.leb_spec 0 y), (Z.ltb_spec x 8192), (Z.ltb_spec y 8192); try reflexivity; lia.
Qed.

Lemma tight_holds a l :
  mem_read tight_mem a (List.length l) = l -> 0 <= a -> a + zlen l <= 8192 ->
  holds (t_ok tight_target) (t_mem tight_target) a l.
Proof. intros H A B. split; [exact H|]. intros x X. cbn [t_ok tight_target]. lia. Qed.

Definition tight_syms : list dsym := [mk_dsym (zs "a") 64; mk_dsym (zs "__ulp_trigger") 4097].

(** C61 is false of names that end just before unreadable memory: the tool reads
    the first five bytes of every name at once, so a symbol with a name shorter than that at the
    end of the mapping makes it give up, and the entry points behind it in the
    symbol table are not found. *)
Theorem C61_last_name_refuted :
  exists t o syms v,
    target_ok t /\ (0 < t_fuel t)%nat /\ 0 < o_dynsym o /\ 0 < o_dynstr o /\
    symtab_tight t (o_dynstr o) (o_dynsym o) syms /\ zlen syms = o_nsyms o /\ NoDup (map ds_name syms) /\
    In (mk_dsym (zs "__ulp_trigger") v) syms /\
    exists o', get_libpulp_extern_symbols t o = I_ok o' /\ ext o' 0 = 0 /\ u64 (o_l_addr o + v) <> 0.
Proof.
  exists tight_target, tight_obj, tight_syms, 4097.
  split; [exact tight_ok|]. split; [cbn; lia|]. split; [cbn; lia|]. split; [cbn; lia|]. split.
  { cbn [o_dynstr o_dynsym tight_obj]. unfold tight_syms.
    apply (tt_cons _ _ _ _ _ 190 (repeat 0 4) (repeat 0 8)); try reflexivity; try (cbn; lia).
    { apply tight_holds; [vm_compute; reflexivity|lia|vm_compute; discriminate]. }
    { apply tight_holds; [vm_compute; reflexivity|lia|vm_compute; discriminate]. }
    apply (tt_cons _ _ _ _ _ 1 (repeat 0 4) (repeat 0 8)); try reflexivity; try (cbn; lia).
    { apply tight_holds; [vm_compute; reflexivity|lia|vm_compute; discriminate]. }
    { apply tight_holds; [vm_compute; reflexivity|lia|vm_compute; discriminate]. }
    constructor. }
  split; [reflexivity|]. split; [repeat constructor; cbn; intuition discriminate|].
  split; [right; left; reflexivity|].
  eexists. split; [vm_compute; reflexivity|]. split; [reflexivity|vm_compute; discriminate].
Qed.
Print Assumptions C61_last_name_refuted.
