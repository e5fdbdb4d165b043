(** What patch metadata means, independently of its byte format. *)
From Verif Require Import Base MetaModel.

(** A patch description the packer can hold: 32-byte IDs, C strings, 64-bit
    offsets, counters equal to the numbers of items. *)
Definition unit_ok (u : munit) : Prop :=
  cstr_ok (u_old u) /\ cstr_ok (u_new u) /\ 0 <= u_addr u < 2 ^ 64.

Definition ref_ok (r : pref) : Prop :=
  cstr_ok (pr_target r) /\ cstr_ok (pr_name r) /\
  0 <= pr_toff r < 2 ^ 64 /\ 0 <= pr_poff r < 2 ^ 64.

Definition id_ok (i : list Z) : Prop := length i = 32%nat /\ bytes_ok i.

Definition pmeta_ok (p : pmeta) : Prop :=
  id_ok (pm_id p) /\
  bytes_ok (pm_bid p) /\ pm_bid_len p = zlen (pm_bid p) /\
  cstr_ok (pm_name p) /\
  pm_nunits p = zlen (pm_units p) /\ Forall unit_ok (pm_units p) /\
  pm_ndeps p = zlen (pm_deps p) /\ Forall id_ok (pm_deps p) /\
  pm_nrefs p = zlen (pm_refs p) /\ Forall ref_ok (pm_refs p).

(** The reference libpulp must see for a reference the packer described. *)
Definition seen_ref (r : pref) : mref :=
  mk_mref (Some (pr_target r)) (Some (pr_name r)) (pr_toff r) (pr_poff r) (pr_tls r).

(** The request libpulp must see for the description [p] in container [path]. *)
Definition seen_patch (p : pmeta) (path : list Z) : meta :=
  mk_meta 1 (pm_id p) path (zlen (pm_bid p)) (pm_bid p) (pm_name p)
          (pm_units p) (pm_deps p) (map seen_ref (pm_refs p)).

(** The revert request libpulp must see for it. *)
Definition seen_reverse (p : pmeta) (path : list Z) : meta :=
  mk_meta 2 (pm_id p) path (zlen (pm_bid p)) (pm_bid p) (pm_name p) [] [] [].
