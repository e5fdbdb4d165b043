(** What the commands of the tool promise, independently of how they work. *)
From Coq Require Import String.
From Verif Require Import Base StrModel InsnQModel MetaModel MetaSpec LibModel PtModel HjModel TextModel TrModel CmdModel.

(** ** check *)

(** The patch [id] is among those libpulp has applied. *)
Definition applied (st : lstate) (id : list Z) : Prop := In id (map a_id (s_patches st)).

(** The exit status of a process whose main returns [v]. *)
Definition exit_code (v : Z) : Z := v mod 256.

(** The file of the patch, as the tool will name it. *)
Definition named (given : list Z) (real : option (list Z)) : list Z :=
  match real with Some r => r | None => given end.

(** The metadata of [p] and the path fit the limits of the tool and libpulp. *)
Definition fits (p : pmeta) (path : list Z) : Prop :=
  cstr_ok path /\ path <> [] /\ zlen path + 1 < PATH_MAX /\
  zlen (create_patch_metadata_file p) + 4 + (zlen path + 1) < ULP_METADATA_BUF_LEN.

(** Nothing goes wrong between reading the container and the answer of libpulp. *)
Definition check_steps_ok (e : check_env) (md : meta) : Prop :=
  ce_number e = true /\ ce_init e = 0 /\ ce_sanity e md = 0 /\ ce_hijack e = 0 /\ ce_written e = true /\
  ce_run e = 0 /\ ce_restore e = 0.

(** The file cannot be opened, or has no metadata. *)
Definition no_metadata (e : check_env) : Prop := ce_section e = None.

(** ** set_patchable *)

(** The state of libpulp in which live patching is enabled, or disabled. *)
Definition wanted (enable : bool) : Z := if enable then ENONE else EUSRBLOCKED.

(** Only the error state may differ. *)
Definition same_but_err (a b : lstate) : Prop :=
  s_q a = s_q b /\ s_patches a = s_patches b /\ s_roots a = s_roots b /\ s_universe a = s_universe b /\
  s_ctr a = s_ctr b.

(** What run_and_redirect can return. *)
Definition rr_result (r : Z) : Prop := r = 0 \/ r = ETARGETHOOK \/ r = ETIME \/ r = EUNKNOWN \/ r = -1.

(** ** The report of trigger *)

(** The library is not there, or not in the right version: nothing to patch. *)
Definition not_concerned (r : tresult) : bool := (tr_err r =? EBUILDID) || (tr_err r =? ENOTARGETLIB).

(** The line that tells what happened. *)
Definition honest_line (r : tresult) : rline :=
  if not_concerned r then R_skipped (Some (tr_name r)) (tr_err r)
  else if tr_err r =? 0 then R_success (tr_name r)
  else R_failed (tr_name r) (tr_err r).

(** The attempts that concern the process. *)
Definition concerned (rs : list tresult) : list tresult := filter (fun r => negb (not_concerned r)) rs.

(** ** dump *)

(** Two lower case hexadecimal digits per byte. *)
Definition hex_digit (d : Z) : Z := if d <? 10 then 48 + d else 97 + (d - 10).
Definition hex_text (bytes : list Z) : list Z := flat_map (fun b => [hex_digit (b / 16); hex_digit (b mod 16)]) bytes.

(** What the description [p] contains, in the order of the output. *)
Definition described (p : pmeta) (path : list Z) : list dline :=
  [D_patch_id (hex_text (pm_id p)); D_so path; D_build_id (hex_text (pm_bid p)); D_name (pm_name p);
   D_units (zlen (pm_units p))] ++
  flat_map (fun u => [D_old (u_old u); D_new (u_new u); D_addr (u_addr u)]) (pm_units p) ++
  [D_refs (zlen (pm_refs p))] ++
  flat_map (fun r => [D_ref (pr_name r); D_target (pr_toff r); D_patch (pr_poff r); D_tls (pr_tls r)]) (pm_refs p).

(** The lines that are right: all but the patch ID and the offsets in the patch. *)
Definition reliable (l : dline) : bool := match l with D_patch_id _ | D_patch _ => false | _ => true end.

(** ** The path given to the target *)

(** In front of the path: the root of process 1 if the target is chrooted into /proc,
    then what the user asked for. *)
Definition wanted_prefix (chrooted : bool) (user : option (list Z)) : list Z :=
  (if chrooted then zs "/1/root/" else []) ++ match user with Some u => u | None => [] end.
