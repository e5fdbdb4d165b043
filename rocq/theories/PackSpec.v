(** What it means to pack a description into a container. *)
From Coq Require Import String.
From Verif Require Import Base StrModel MetaModel DscModel DscSpec PackModel.

(** An ELF file as the tools describe it: a build ID of 20 bytes, a name, 64-bit values. *)
Definition so_ok (s : so_info) : Prop :=
  zlen (si_bid s) = 20 /\ bytes_ok (si_bid s) /\ cstr_ok (si_name s) /\
  Forall (fun x => 0 <= snd x < 2 ^ 64) (si_syms s).

(** objcopy is installed, the container loads, objcopy can be started. *)
Definition starts (s : sgenv) (name : list Z) : Prop :=
  sg_there s = true /\ sg_loads s = true /\ sg_exec s = true /\
  exists p, sg_tmp s = Some p /\ zlen name + 1 + zlen p < 120.
(** objcopy ended by exit with status 0: the low seven bits and the second byte of the
    status are 0. *)
Definition exits_zero (s : sgenv) : Prop := Z.land (sg_wi s) 127 = 0 /\ Z.land (sg_wi s / 256) 255 = 0.
(** Nothing goes wrong when a section called [name] is written. *)
Definition works (s : sgenv) (name : list Z) : Prop :=
  starts s name /\ exits_zero s /\ sg_open s = true /\ sg_full s = None /\ sg_short s = false.

(** The temporary file is a new one. *)
Definition new_tmp (s : sgenv) (st : pkstate) : Prop := forall p, sg_tmp s = Some p -> ~ In p (pk_tmps st).

(** The reference a request must have for a line of the description. *)
Definition mref_means (container target : so_info) (i : ditem) (r : mref) : Prop :=
  exists t n, rf_target r = Some t /\ rf_name r = Some n /\
    ref_means container target i (mk_pref t n (rf_toff r) (rf_poff r) (rf_tls r)).

(** The request [md] asks for what the description [d] says. *)
Record request_of (d : desc) (container target : so_info) (ids : list (list Z)) (path : list Z) (md : meta) : Prop := {
  rq_type : md_type md = 1;
  rq_so : md_so md = path;
  rq_name : md_name md = si_name target;
  rq_bid : md_bid md = si_bid target;
  rq_funcs : Forall2 (unit_means target) (funcs_of (dd_body d)) (md_units md);
  rq_refs : Forall2 (mref_means container target) (refs_of (dd_body d)) (rev (md_refs md));
  rq_deps : rev (md_deps md) = ids
}.
(** The request to revert it. *)
Definition revert_of (md rv : meta) : Prop :=
  md_type rv = 2 /\ md_id rv = md_id md /\ md_so rv = md_so md /\ md_name rv = md_name md /\ md_bid rv = md_bid md /\
  md_units rv = [] /\ md_deps rv = [] /\ md_refs rv = [].

(** A section, used by the tools for the container [path], is seen as the request [md]. *)
Definition section_asks (sec path : list Z) (md : meta) : Prop :=
  exists b, extract_ulp_from_so_to_mem sec path = P_ok (Some b) /\
    forall junk trailing, parse_metadata_from_mem junk (b ++ trailing) = P_ok md.
