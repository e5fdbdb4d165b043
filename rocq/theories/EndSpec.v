(** From a description file to the calls of a running process: what the words of the
    description mean there. *)
From Verif Require Import Base InsnQModel MetaModel MetaSpec StrModel X86Model X86Spec DlModel LibModel LibSpec DscModel DscSpec.

(** What the packer reads from a shared object: a build id of 20 bytes, a name, and
    symbols with 64-bit values. *)
Definition so_ok (s : so_info) : Prop :=
  bytes_ok (si_bid s) /\ zlen (si_bid s) = 20 /\ cstr_ok (si_name s) /\
  forall n v, In (n, v) (si_syms s) -> 0 <= v < 2 ^ 64.

(** The loaded object the target of the description stands for: the first one whose
    file name contains the name of the target; it has symbols. If the
    target is the program itself that is the first object. *)
Definition loaded_target (e : dlenv) (target : so_info) (l : lib) : Prop :=
  designates (e_libs2 e)
    (if bytes_eqb (get_basename (si_name target)) (e_prog e) then [] else get_basename (si_name target)) l /\
  lb_syms l <> None.

(** The function [name] of the target is at address [f] of the process. *)
Definition lives_at (target : so_info) (l : lib) (name : list Z) (f : Z) : Prop :=
  exists v, symbol_at (si_syms target) name v /\ f = u64 (lb_base l + v).

(** The variable of the loaded container that the recorded reference [r] is about. *)
Definition variable_at (e : dlenv) (path : list Z) (r : pref) (pa : Z) : Prop :=
  (pr_poff r = 0 /\ pa = e_dlsym e (e_dlopen e path) (pr_name r)) \/
  (pr_poff r <> 0 /\ exists base, e_laddr e (e_dlopen e path) = Some base /\ pa = u64 (base + pr_poff r)).

(** The reference [i] of the description is the variable at address [pa] of the loaded
    container. *)
Definition reference_at (container target : so_info) (e : dlenv) (path : list Z) (i : ditem) (pa : Z) : Prop :=
  exists r, ref_means container target i r /\ variable_at e path r pa.

(** Thread-local references take two words, the others one. *)
Definition ref_words (i : ditem) : Z :=
  match i with DRef true _ _ | DRefOff true _ _ _ _ => 2 | _ => 1 end.

(** What the variable must hold: the address of the target's object; for a thread-local
    one the module and the offset. *)
Definition reference_value (container target : so_info) (l : lib) (i : ditem) (bytes : list Z) : Prop :=
  exists r, ref_means container target i r /\
    bytes = if pr_tls r then le_enc 8 (u64 (lb_tls l)) ++ le_enc 8 (pr_toff r)
            else le_enc 8 (u64 (lb_base l + pr_toff r)).

(** The description is harmless for the livepatchable functions [F] of the process: it
    replaces functions of [F], or functions that are not livepatchable; the variables
    it fills in are not inside patchable windows. *)
Definition description_ok (F : list Z) (eb : Z -> bool) (m : mem) (container target : so_info)
    (l : lib) (e : dlenv) (path : list Z) (d : desc) : Prop :=
  env_sane e /\
  (forall o n f, In (o, n) (funcs_of (dd_body d)) -> lives_at target l o f ->
     In f F \/ ~ exists endbr, livepatchable m endbr f) /\
  (forall i pa x f, In i (refs_of (dd_body d)) -> reference_at container target e path i pa ->
     pa <= x < pa + 16 -> In f F -> ~ in_window (eb f) f x).

(** The functions it replaces are not at offset 0 of their file. *)
Definition no_zero_offset (target : so_info) (d : desc) : Prop :=
  forall o n, In (o, n) (funcs_of (dd_body d)) -> ~ symbol_at (si_syms target) o 0.

(** The tool's writes do not fail half-way, and a failing read is not reported with the code that
    stands for a libpulp without a queue. *)
Definition tool_sane (te : tool_env) : Prop :=
  (forall i, te_wf te i = None) /\ te_rd_body te <> EOLDLIBPULP.

(** [f] is replaced by [n]: the last line of the description that replaces it says so. *)
Definition replaced_by (target : so_info) (l : lib) (d : desc) (f : Z) (n : list Z) : Prop :=
  exists before o after, funcs_of (dd_body d) = before ++ (o, n) :: after /\ lives_at target l o f /\
    forall o' n', In (o', n') after -> ~ lives_at target l o' f.

(** The description does not mention [f]. *)
Definition not_mentioned (target : so_info) (l : lib) (d : desc) (f : Z) : Prop :=
  forall o n, In (o, n) (funcs_of (dd_body d)) -> ~ lives_at target l o f.
