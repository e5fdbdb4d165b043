(** What the report of `ulp patches` should say (C81). *)
From Coq Require Import String.
From Verif Require Import Base StrModel InsnQModel LibModel MetaModel TextModel NtSpec IntrModel IntrSpec X86Spec LogSpec PatModel.

(** Lines as printed. *)
Definition unlines (ls : list (list Z)) : list Z := flat_map (fun l => l ++ [10]) ls.

(** The status in words; the numbers are those of include/error_common.h. *)
Definition status_words (strerror : Z -> list Z) (e : Z) : list Z :=
  if (e =? 0) || (e =? EOLDLIBPULP) then zs "enabled"
  else if e =? EUSRBLOCKED then zs "disabled by user"
  else zs "disabled (internal error: " ++ libpulp_strerror strerror e ++ zs ")".

(** The escape sequences around it, green, yellow or red, if colours are wanted. *)
Definition paint (no_color : bool) (e : Z) : list Z * list Z :=
  if no_color then ([], [])
  else (27 :: (if (e =? 0) || (e =? EOLDLIBPULP) then zs "[32;1m"
               else if e =? EUSRBLOCKED then zs "[33;1m" else zs "[31;1m"), 27 :: zs "[0m").

(** A livepatch: its container and when it was loaded, and a second line if its
    comments have labels. *)
Definition patch_lines (date : Z -> list Z) (labels : list Z -> list (list Z)) (q : lpatch) : list (list Z) :=
  (zs "      livepatch: " ++ get_basename (lp_container q) ++ zs " loaded on " ++ date (lp_time q)) ::
  match labels (lp_container q) with
  | [] => []
  | ls => [zs "        bug labels: " ++ flat_map (fun l => l ++ zs " ") ls]
  end.

(** A library with the livepatches for it. *)
Definition object_lines (date : Z -> list Z) (labels : list Z -> list (list Z)) (buildid : bool) (l : list lpatch)
                        (o : dynobj) : list (list Z) :=
  (zs "    in " ++ o_filename o ++
   (if buildid then zs " (" ++ buildid_to_string (o_buildid o) ++ zs ")" else []) ++
   (if ext o 10 =? 0 then [] else zs " (version " ++ ulp_version_as_string (ext o 10) ++ zs ")") ++ zs ":") ::
  flat_map (patch_lines date labels) (filter (for_lib (o_filename o)) l).

(** The whole entry of a process; [pid]: its number in decimal; [e]: its state. *)
Definition process_lines (strerror : Z -> list Z) (date : Z -> list Z) (labels : list Z -> list (list Z))
                         (patchable : dynobj -> bool) (buildid no_color : bool)
                         (pid name : list Z) (e : Z) (l : list lpatch) (objs : list dynobj) : list (list Z) :=
  [ zs "PID: " ++ pid ++ zs ", name: " ++ name;
    zs "  Livepatching status: " ++ fst (paint no_color e) ++ status_words strerror e;
    snd (paint no_color e) ++ zs "  Livepatchable libraries:" ] ++
  flat_map (object_lines date labels buildid l)
           (filter (fun o => existsb (for_lib (o_filename o)) l || patchable o) objs) ++
  [ [] ].

(** The symbol table at [a] has symbols with the values [vals]. *)
Definition symbol_at (t : target) (a v : Z) : Prop :=
  0 <= v < 2 ^ 64 /\
  exists pre post, List.length pre = 8%nat /\ List.length post = 8%nat /\
    holds (t_ok t) (t_mem t) a (pre ++ le_enc 8 v ++ post).
Fixpoint symbols_at (t : target) (a : Z) (vals : list Z) : Prop :=
  match vals with
  | [] => True
  | v :: r => symbol_at t a v /\ symbols_at t (u64 (a + 24)) r
  end.

(** [patchable o] says whether a function of the object, loaded at a base address
    other than 0, starts with nops; the object is readable and has 1 to 8000 symbols. *)
Definition judged (v : pview) (patchable : dynobj -> bool) (o : dynobj) : Prop :=
  v_obj_attach v o = true /\ v_obj_detach v o = true /\ o_l_addr o <> 0 /\
  exists vals, symbols_at (v_t v) (o_dynsym o) vals /\ zlen vals = o_nsyms o /\ 1 <= o_nsyms o <= 8000 /\
    (forall x, In x vals -> t_ok (v_t v) (u64 (o_l_addr o + x)) = true /\ t_ok (v_t v) (u64 (o_l_addr o + x) + 1) = true) /\
    (patchable o = true <-> exists x, In x vals /\ nops_at (t_mem (v_t v)) (u64 (o_l_addr o + x))).
