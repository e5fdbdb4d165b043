(** A concrete world in which the hypotheses of the theorems about libpulp's
    state machine are met. *)
From Coq Require Import String.
From Verif Require Import Base BaseFacts InsnQModel InsnQSpec MetaModel MetaSpec StrModel X86Model X86Spec
  DlModel LibModel LibSpec.

(** Run a list of events; the answers are collected. *)
Fixpoint run (evs : list event) (p : proc) : option (proc * list Z) :=
  match evs with
  | [] => Some (p, [])
  | ev :: t => match do_event ev p with
               | None => None
               | Some (p1, a) => match run t p1 with
                                 | None => None
                                 | Some (p2, l) => Some (p2, a :: l)
                                 end
               end
  end.

Lemma history_cons p0 ev p1 a tr p2 :
  do_event ev p0 = Some (p1, a) -> history p1 tr p2 -> history p0 ((ev, a) :: tr) p2.
Proof.
  intros H. induction 1 as [|tr p ev' p' ans H1 IH H2].
  - change [(ev, a)] with ([] ++ [(ev, a)]). econstructor; [constructor|exact H].
  - change ((ev, a) :: tr ++ [(ev', ans)]) with (((ev, a) :: tr) ++ [(ev', ans)]).
    econstructor; eauto.
Qed.

Lemma run_history evs p0 p ans :
  run evs p0 = Some (p, ans) -> history p0 (combine evs ans) p.
Proof.
  revert p0 ans; induction evs as [|ev t IH]; intros p0 ans H; cbn [run] in H.
  - injection H as <- <-. constructor.
  - destruct (do_event ev p0) as [[p1 a]|] eqn:E; [|discriminate].
    destruct (run t p1) as [[p2 l]|] eqn:E2; [|discriminate]. injection H as <- <-.
    cbn [combine]. eapply history_cons; eauto.
Qed.

Lemma clean_cons F eb p0 ev p1 a tr p2 :
  event_ok F eb p0 ev -> do_event ev p0 = Some (p1, a) -> clean_history F eb p1 tr p2 ->
  clean_history F eb p0 ((ev, a) :: tr) p2.
Proof.
  intros Hok H. induction 1 as [|tr p ev' p' ans H1 IH H2 H3].
  - change [(ev, a)] with ([] ++ [(ev, a)]). econstructor; [constructor|exact Hok|exact H].
  - change ((ev, a) :: tr ++ [(ev', ans)]) with (((ev, a) :: tr) ++ [(ev', ans)]).
    econstructor; eauto.
Qed.

Lemma run_clean F eb evs p0 p ans :
  Forall (fun ev => forall p, event_ok F eb p ev) evs ->
  run evs p0 = Some (p, ans) -> clean_history F eb p0 (combine evs ans) p.
Proof.
  intros Hf. revert p0 ans; induction Hf as [|ev t Hev Hf IH]; intros p0 ans H; cbn [run] in H.
  - injection H as <- <-. constructor.
  - destruct (do_event ev p0) as [[p1 a]|] eqn:E; [|discriminate].
    destruct (run t p1) as [[p2 l]|] eqn:E2; [|discriminate]. injection H as <- <-.
    cbn [combine]. eapply clean_cons; eauto.
Qed.

(** A build-id note with a 20-byte id of one repeated byte. *)
Definition bid_note (b : Z) : list Z :=
  le_enc 4 4 ++ le_enc 4 20 ++ le_enc 4 3 ++ [71; 78; 85; 0] ++ repeat b 20.

(** The program "app" with two libraries. *)
Definition w_libs : list lib :=
  [ mk_lib [] 4194304 1 (Some []) [(bid_note 1, 36)];
    mk_lib (zs "/lib/libfoo.so.0") 65536 2 (Some [(zs "f", 256); (zs "h", 512)]) [(bid_note 2, 36)];
    mk_lib (zs "/lib/libbar.so.0") 131072 3 (Some [(zs "b", 256)]) [(bid_note 3, 36)] ].

(** Addresses of f, h (libfoo) and b (libbar). *)
Definition w_f : Z := 65792.
Definition w_h : Z := 66048.
Definition w_b : Z := 131328.

(** Containers: the handle is the last letter of the path; symbol "gX" of
    container h is at h*65536+512; "v" at h*65536+1024. *)
Definition w_dlsym (h : Z) (n : list Z) : Z :=
  if bytes_eqb n (zs "g") then u64 (h * 65536 * 16 + 512)
  else if bytes_eqb n (zs "v") then u64 (h * 65536 * 16 + 1024)
  else 0.
Definition w_dlopen (path : list Z) : Z := last path 0.
Definition w_env : dlenv :=
  mk_dlenv (zs "app") w_libs w_libs w_dlopen w_dlsym (fun h => Some (h * 65536 * 16)).

(** Patch number [k] for library [lib] replacing the functions [fs]. *)
Definition w_patch (k : Z) (lib : list Z) (fs : list (list Z)) (deps : list Z) (refs : list pref) : pmeta :=
  mk_pmeta (repeat k 32) 20 (repeat 2 20) lib
    (zlen fs) (map (fun f => mk_munit f (zs "g") 0) fs)
    (zlen deps) (map (fun d => repeat d 32) deps)
    (zlen refs) refs.

Definition bytes_of (r : pres (option (list Z))) : list Z :=
  match r with P_ok (Some b) => b | _ => [] end.
Definition w_path (k : Z) : list Z := zs "/p" ++ [k].
Definition ap (k : Z) (p : pmeta) : event :=
  EvApply false w_env 0 (bytes_of (extract_ulp_from_so_to_mem (create_patch_metadata_file p) (w_path k))).
Definition rv (k : Z) (p : pmeta) : event :=
  EvApply false w_env 0 (bytes_of (extract_ulp_from_so_to_mem (write_reverse_patch p) (w_path k))).

Definition libfoo : list Z := zs "/lib/libfoo.so.0".
Definition libbar : list Z := zs "/lib/libbar.so.0".

Definition P1 := w_patch 1 libfoo [zs "f"] [] [mk_pref (zs "x") (zs "v") 64 1024 false; mk_pref (zs "t") (zs "v") 72 1040 true].
Definition P2 := w_patch 2 libfoo [zs "f"; zs "h"] [1] [].
Definition P3 := w_patch 3 libfoo [zs "f"] [] [].
Definition P4 := w_patch 4 libbar [zs "b"] [1] [].
Definition P5 := w_patch 5 libfoo [zs "f"; zs "nofun"] [] [].

Definition w_mem : mem := fun _ => 144.
Definition w_start : proc := fresh w_mem (fun _ => 0).
Definition ex : event := EvExec env_ok.

(** Apply 1, 3 (both replace f), then revert 1, the older one. *)
Definition w_events : list event := [ap 1 P1; ex; ap 3 P3; ex; rv 1 P1; ex].
