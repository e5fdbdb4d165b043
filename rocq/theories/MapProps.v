(** Property theorems about finding the protection of a page (C72). *)
From Coq Require Import String.
From Verif Require Import Base BaseFacts StrModel TextModel InsnQModel IntrSpec MapModel MapSpec MapProofs.

(** ** C72 *)

(** C72: for an address that is mapped, the answer is the protection of the first line
    of /proc/self/maps that covers it, if no line up to that one is
    longer than 2048 bytes. What follows it does not matter. *)
Theorem C72_protection_partial :
  forall (ms before after : list mline) (m : mline) (tail : list Z) (err : bool) (addr prot : Z),
    Forall map_ok ms -> ms = before ++ m :: after ->
    (forall b, In b before -> ~ covers b addr) -> covers m addr -> protection m prot ->
    (forall l, In l (before ++ [m]) -> zlen (mline_text l) <= 2048) ->
    memory_protection_get err (Some (maps_text ms ++ tail)) addr = Some prot.
Proof.
  intros ms before after m tail err addr prot H E Hb Hm Hp Hl. unfold memory_protection_get.
  eapply finds; [exact H|exact E|apply Forall_forall; exact Hl|exact Hb|exact Hm|exact Hp|].
  pose proof (lines_le_text ms). rewrite app_length. lia.
Qed.
Print Assumptions C72_protection_partial.

(** For an address that is not mapped, the answer is -1. *)
Theorem C72_unmapped_partial :
  forall (ms : list mline) (err : bool) (addr : Z),
    Forall map_ok ms -> (forall l, In l ms -> zlen (mline_text l) <= 2048) ->
    (forall b, In b ms -> ~ covers b addr) ->
    memory_protection_get err (Some (maps_text ms)) addr = Some (-1).
Proof.
  intros ms err addr H Hl Hb. unfold memory_protection_get. apply not_found; [exact H|apply Forall_forall; exact Hl|exact Hb|].
  pose proof (lines_le_text ms). lia.
Qed.
Print Assumptions C72_unmapped_partial.

(** An example: a program's code and data. *)
Definition m_code : mline := mk_ml (zs "00400000") (zs "00452000") (zs "r-xp") (zs "00000000") (zs "08:02") (zs "173521") 5 (zs "/usr/bin/app").
Definition m_data : mline := mk_ml (zs "7f0000000000") (zs "7f0000021000") (zs "rw-p") (zs "00000000") (zs "00:00") (zs "0") 0 [].

Lemma m_code_ok : map_ok m_code.
Proof.
  unfold map_ok. split; [|split]; [split; [discriminate|split; [repeat constructor; unfold hexdigit; cbn; lia|vm_compute; reflexivity]]
    |split; [discriminate|split; [repeat constructor; unfold hexdigit; cbn; lia|vm_compute; reflexivity]]|].
  split; [exists 114, 45, 120, 112; repeat split; auto|].
  repeat split; vm_compute; intuition discriminate.
Qed.
Lemma m_data_ok : map_ok m_data.
Proof.
  unfold map_ok. split; [|split]; [split; [discriminate|split; [repeat constructor; unfold hexdigit; cbn; lia|vm_compute; reflexivity]]
    |split; [discriminate|split; [repeat constructor; unfold hexdigit; cbn; lia|vm_compute; reflexivity]]|].
  split; [exists 114, 119, 45, 112; repeat split; auto|].
  repeat split; vm_compute; intuition discriminate.
Qed.

Example C72_case :
  Forall map_ok [m_code; m_data] /\ [m_code; m_data] = [m_code] ++ m_data :: [] /\
  (forall b, In b [m_code] -> ~ covers b 139637976731648) /\ covers m_data 139637976731648 /\ protection m_data 3 /\
  (forall l, In l ([m_code] ++ [m_data]) -> zlen (mline_text l) <= 2048) /\
  (forall b, In b [m_code; m_data] -> ~ covers b 4096).
Proof.
  split; [constructor; [apply m_code_ok|constructor; [apply m_data_ok|constructor]]|].
  split; [reflexivity|].
  assert (C1 : hexval (ml_start m_code) = 4194304) by reflexivity. assert (C2 : hexval (ml_end m_code) = 4530176) by reflexivity.
  assert (D1 : hexval (ml_start m_data) = 139637976727552) by reflexivity. assert (D2 : hexval (ml_end m_data) = 139637976862720) by reflexivity.
  unfold covers. split; [intros b [<-|[]]; lia|]. split; [lia|].
  split; [exists 114, 119, 45, 112; split; reflexivity|].
  split; [intros l [<-|[<-|[]]]; vm_compute; discriminate|].
  intros b [<-|[<-|[]]]; lia.
Qed.

(** C72, finding: a line of more than 2048 bytes (paths may have 4095) ends the search: whatever
    is mapped there and behind it has no protection. *)
Theorem C72_long_line_refuted :
  forall (before : list mline) (m : mline) (tail : list Z) (err : bool) (addr : Z),
    Forall map_ok before -> map_ok m ->
    (forall l, In l before -> zlen (mline_text l) <= 2048) -> 2048 < zlen (mline_text m) ->
    (forall b, In b before -> ~ covers b addr) ->
    memory_protection_get err (Some (maps_text before ++ mline_text m ++ tail)) addr = Some (-1).
Proof.
  intros before m tail err addr Hb Hm Hl Hlong Hc. unfold memory_protection_get.
  apply stops_at_long; [exact Hb|exact Hm|apply Forall_forall; exact Hl|exact Hlong|exact Hc|].
  pose proof (lines_le_text before). rewrite app_length. lia.
Qed.
Print Assumptions C72_long_line_refuted.

Definition m_long : mline := mk_ml (zs "00400000") (zs "00452000") (zs "r-xp") (zs "00000000") (zs "08:02") (zs "173521") 5
  (flat_map (fun _ => 47 :: repeat 97 200) (seq 0 10)).

Example C72_long_line_case :
  map_ok m_long /\ 2048 < zlen (mline_text m_long) /\ covers m_long 4194304 /\ zlen (ml_path m_long) < 4096 /\
  Forall map_ok ([] ++ m_long :: [m_data]) /\ covers m_data 139637976731648.
Proof.
  assert (K : map_ok m_long).
  { unfold map_ok. split; [|split]; [split; [discriminate|split; [repeat constructor; unfold hexdigit; cbn; lia|vm_compute; reflexivity]]
      |split; [discriminate|split; [repeat constructor; unfold hexdigit; cbn; lia|vm_compute; reflexivity]]|].
    split; [exists 114, 45, 120, 112; repeat split; auto|].
    split; [vm_compute; intuition discriminate|]. split; [vm_compute; intuition discriminate|].
    split; [vm_compute; intuition discriminate|].
    intros X. cbn [ml_path m_long] in X. apply in_flat_map in X. destruct X as (k & _ & [X|X]); [discriminate|].
    apply repeat_spec in X. discriminate. }
  split; [exact K|]. split; [vm_compute; reflexivity|]. split; [vm_compute; split; [discriminate|reflexivity]|].
  split; [vm_compute; reflexivity|]. split; [constructor; [exact K|constructor; [apply m_data_ok|constructor]]|].
  vm_compute. split; [discriminate|reflexivity].
Qed.

(** The protections that a write in the process (C17, C71) starts from are those the kernel shows,
    for every number of pages. *)
Lemma covers_dec m addr : covers m addr \/ ~ covers m addr.
Proof. unfold covers. lia. Qed.

Lemma first_cover ms addr :
  (exists before m after, ms = before ++ m :: after /\ (forall b, In b before -> ~ covers b addr) /\ covers m addr) \/
  (forall m, In m ms -> ~ covers m addr).
Proof.
  induction ms as [|m ms IH]; [right; intros m []|]. destruct (covers_dec m addr) as [C|C].
  - left. exists [], m, ms. split; [reflexivity|]. split; [intros b []|exact C].
  - destruct IH as [(before & x & after & -> & H1 & H2)|H].
    + left. exists (m :: before), x, after. split; [reflexivity|]. split; [intros b [<-|Hb]; auto|exact H2].
    + right. intros x [<-|Hx]; auto.
Qed.

Theorem C72_write_sees_protections_partial :
  forall (ms : list mline) (prot : Z -> option Z) (err : bool) (ps page : Z) (n : nat),
    Forall map_ok ms -> (forall l, In l ms -> zlen (mline_text l) <= 2048) -> shows ms prot ->
    page_prots err (Some (maps_text ms)) ps page n = Some (collect_prots prot ps page n).
Proof.
  intros ms prot err ps page n H Hl Hs. revert page. induction n as [|n IH]; intros page; [reflexivity|].
  cbn [page_prots collect_prots]. destruct (Hs page) as (S1 & S2). destruct (first_cover ms page) as [(before & m & after & E & Hb & Hm)|No].
  - destruct (S1 before m after E Hb Hm) as (p & Hp & ->).
    assert (G : memory_protection_get err (Some (maps_text ms)) page = Some p).
    { rewrite <- (app_nil_r (maps_text ms)). eapply C72_protection_partial; eauto.
      intros l Hin. apply Hl. rewrite E. apply in_app_or in Hin. apply in_or_app.
      destruct Hin as [Hin|[<-|[]]]; [left; exact Hin|right; left; reflexivity]. }
    rewrite G. assert (0 <= p). { destruct Hp as (r & w & x & s & _ & ->). destruct (r =? 114), (w =? 119), (x =? 120); lia. }
    destruct (Z.eqb_spec p (-1)); [lia|]. rewrite IH. destruct (collect_prots prot ps (page + ps) n); reflexivity.
  - rewrite (S2 No), (C72_unmapped_partial ms err page H Hl No). reflexivity.
Qed.
Print Assumptions C72_write_sees_protections_partial.

(** If the memory map cannot be read, no page has a protection and the write is given up. *)
Theorem C72_unreadable_map :
  forall (err : bool) (ps page : Z) (n : nat),
    (0 < n)%nat -> (forall addr, memory_protection_get err None addr = Some (-1)) /\ page_prots err None ps page n = Some None.
Proof. intros err ps page [|n] H; [lia|]. split; reflexivity. Qed.
Print Assumptions C72_unreadable_map.

Example C72_shows_case :
  shows [m_code; m_data] (fun x => if (4194304 <=? x) && (x <? 4530176) then Some 5
    else if (139637976727552 <=? x) && (x <? 139637976862720) then Some 3 else None).
Proof.
  assert (C1 : hexval (ml_start m_code) = 4194304) by reflexivity. assert (C2 : hexval (ml_end m_code) = 4530176) by reflexivity.
  assert (D1 : hexval (ml_start m_data) = 139637976727552) by reflexivity. assert (D2 : hexval (ml_end m_data) = 139637976862720) by reflexivity.
  intros addr. unfold covers. split.
  - intros before m after E Hb Hm. destruct before as [|b0 [|b1 before]]; cbn [app] in E.
    + injection E as <- <-. exists 5. split; [exists 114, 45, 120, 112; split; reflexivity|].
      destruct ((4194304 <=? addr) && (addr <? 4530176)) eqn:X; [reflexivity|lia].
    + injection E as <- <- <-. exists 3. split; [exists 114, 119, 45, 112; split; reflexivity|].
      specialize (Hb m_code (or_introl eq_refl)).
      destruct ((4194304 <=? addr) && (addr <? 4530176)) eqn:X; [lia|].
      destruct ((139637976727552 <=? addr) && (addr <? 139637976862720)) eqn:Y; [reflexivity|lia].
    + destruct before; discriminate.
  - intros No. pose proof (No m_code (or_introl eq_refl)). pose proof (No m_data (or_intror (or_introl eq_refl))).
    destruct ((4194304 <=? addr) && (addr <? 4530176)) eqn:X; [lia|].
    destruct ((139637976727552 <=? addr) && (addr <? 139637976862720)) eqn:Y; [lia|reflexivity].
Qed.

(** C72, exactly what is answered on any memory map: the protection of the first line that covers the address, if neither that line
    nor one before it is longer than 2048 bytes; in all other cases -1, "not mapped". *)
Theorem C72_exact :
  forall (ms : list mline) (err : bool) (addr prot : Z),
    Forall map_ok ms ->
    (memory_protection_get err (Some (maps_text ms)) addr = Some prot <->
     (exists before m after, ms = before ++ m :: after /\ (forall b, In b before -> ~ covers b addr) /\ covers m addr /\
        protection m prot /\ (forall l, In l (before ++ [m]) -> zlen (mline_text l) <= 2048)) \/
     (prot = -1 /\
      ~ exists before m after, ms = before ++ m :: after /\ (forall b, In b before -> ~ covers b addr) /\ covers m addr /\
        (forall l, In l (before ++ [m]) -> zlen (mline_text l) <= 2048))).
Proof.
  intros ms err addr prot K.
  assert (U : forall b m a b' m' a', ms = b ++ m :: a -> ms = b' ++ m' :: a' ->
    (forall x, In x b -> ~ covers x addr) -> (forall x, In x b' -> ~ covers x addr) -> covers m addr -> covers m' addr -> b = b' /\ m = m').
  { clear. induction ms as [|x t IH]; intros b m a b' m' a' E E' N N' C C'; [destruct b; discriminate E|].
    destruct b as [|y b]; destruct b' as [|y' b']; cbn [app] in E, E'; injection E as Ex Et; injection E' as Ex' Et'; subst.
    - auto.
    - exfalso. exact (N' y' (or_introl eq_refl) C).
    - exfalso. exact (N m' (or_introl eq_refl) C').
    - destruct (IH b m a b' m' a') as [-> ->]; auto; try congruence; intros z Z0; [apply N|apply N']; right; exact Z0. }
  assert (PU : forall m p p', protection m p -> protection m p' -> p = p').
  { intros m p p' (r & w & x & s & E & ->) (r' & w' & x' & s' & E' & ->). rewrite E in E'. injection E' as -> -> -> ->. reflexivity. }
  assert (First : (exists b m a, ms = b ++ m :: a /\ (forall x, In x b -> ~ covers x addr /\ zlen (mline_text x) <= 2048) /\
                     (covers m addr \/ 2048 < zlen (mline_text m))) \/
                  (forall x, In x ms -> ~ covers x addr /\ zlen (mline_text x) <= 2048)).
  { clear K U. induction ms as [|x t IH]; [right; intros x []|].
    destruct (covers_dec x addr) as [C|C]; [left; exists [], x, t; split; [reflexivity|]; split; [intros y []|auto]|].
    destruct (Z_le_gt_dec (zlen (mline_text x)) 2048) as [L|L]; [|left; exists [], x, t; split; [reflexivity|]; split; [intros y []|right; lia]].
    destruct IH as [(b & m & a & -> & N & M)|N].
    - left. exists (x :: b), m, a. split; [reflexivity|]. split; [|exact M]. intros y [<-|Y]; [auto|exact (N y Y)].
    - right. intros y [<-|Y]; [auto|exact (N y Y)]. }
  destruct First as [(b & m & a & E & N & M)|N].
  2:{ rewrite (C72_unmapped_partial ms err addr K (fun l H => proj2 (N l H)) (fun l H => proj1 (N l H))).
      assert (No : forall b m a, ms = b ++ m :: a -> ~ covers m addr).
      { intros b m a ->. apply N. apply in_or_app. right. left. reflexivity. }
      split.
      - intros X. injection X as <-. right. split; [reflexivity|]. intros (b & m & a & E & _ & C & _). exact (No b m a E C).
      - intros [(b & m & a & E & _ & C & _)|[-> _]]; [exfalso; exact (No b m a E C)|reflexivity]. }
  destruct (Z_le_gt_dec (zlen (mline_text m)) 2048) as [L|L].
  - destruct M as [C|C]; [|lia].
    assert (P : exists p, protection m p).
    { rewrite E in K. apply Forall_app in K. destruct K as [_ K]. inversion K as [|? ? Hm _]; subst.
      destruct Hm as (_ & _ & (r & w & x & s & P & _) & _). eexists. exists r, w, x, s. split; [exact P|reflexivity]. }
    destruct P as (p & P).
    assert (Lb : forall l, In l (b ++ [m]) -> zlen (mline_text l) <= 2048).
    { intros l I. apply in_app_or in I. destruct I as [I|[<-|[]]]; [exact (proj2 (N l I))|exact L]. }
    pose proof (C72_protection_partial ms b a m [] err addr p K E (fun x H => proj1 (N x H)) C P Lb) as R.
    rewrite app_nil_r in R. rewrite R. split.
    + intros X. injection X as <-. left. exists b, m, a. split; [exact E|]. split; [intros x H; exact (proj1 (N x H))|]. auto.
    + intros [(b' & m' & a' & E' & N' & C' & P' & _)|[_ X]].
      * destruct (U _ _ _ _ _ _ E E' (fun x H => proj1 (N x H)) N' C C') as [-> ->]. rewrite (PU _ _ _ P P'). reflexivity.
      * exfalso. apply X. exists b, m, a. split; [exact E|]. split; [intros x H; exact (proj1 (N x H))|]. auto.
  - assert (R : memory_protection_get err (Some (maps_text ms)) addr = Some (-1)).
    { rewrite E. unfold maps_text. rewrite flat_map_app. cbn [flat_map].
      rewrite E in K. apply Forall_app in K. destruct K as [K1 K2]. inversion K2; subst.
      apply (C72_long_line_refuted b m (flat_map mline_text a) err addr); auto; [intros l H; exact (proj2 (N l H))|lia|intros l H; exact (proj1 (N l H))]. }
    assert (No : ~ exists b m a, ms = b ++ m :: a /\ (forall x, In x b -> ~ covers x addr) /\ covers m addr /\
                 (forall l, In l (b ++ [m]) -> zlen (mline_text l) <= 2048)).
    { intros (b' & m' & a' & E' & N' & C' & L'). rewrite E in E'.
      assert (I : In m (b' ++ [m'])).
      { clear - E' N C'. revert b' E'. induction b as [|y b IH]; intros b' E'; destruct b' as [|y' b']; cbn [app] in E'; injection E' as Ey Et; subst.
        - left. reflexivity.
        - left. reflexivity.
        - exfalso. exact (proj1 (N m' (or_introl eq_refl)) C').
        - right. apply IH; [intros x H; apply N; right; exact H|exact Et]. }
      specialize (L' m I). lia. }
    rewrite R. split.
    + intros X. injection X as <-. right. split; [reflexivity|exact No].
    + intros [(b' & m' & a' & E' & N' & C' & P' & L')|[-> _]]; [|reflexivity]. exfalso. apply No. eauto 8.
Qed.
Print Assumptions C72_exact.
