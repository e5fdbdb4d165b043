(** C95: what a thread that the tool stops in the patchable code of a ppc64le function does when it
    goes on. *)
From Verif Require Import Base PpcSpec PwinModel.

(** Where calls of [f] go after the requests [ops], in their order: the last request for [f]
    decides; [None]: to [f] itself. *)
Fixpoint goes_to (ops : list pop) (f : Z) (now : option Z) : option Z :=
  match ops with
  | [] => now
  | o :: t => goes_to t f (if po_f o =? f then po_new o else now)
  end.

(** The replacement of [f] that was installed last, whether it was removed again or not. *)
Fixpoint installed_last (ops : list pop) (f : Z) (last : option Z) : option Z :=
  match ops with
  | [] => last
  | o :: t =>
      installed_last t f
        (if po_f o =? f then match po_new o with Some g => Some g | None => last end else last)
  end.

(** The livepatchable functions of a process: entry, and where its patchable instruction is. Not
    redirected yet, and at a distance from each other: 52 bytes before the entry, 12 after. *)
Record ppc_functions (fs : list (Z * Z)) (m : mem) : Prop := {
  pf_ok : forall f off, In (f, off) fs -> ppc_livepatchable m f off;
  pf_plain : forall f off, In (f, off) fs -> word_at m (f + off) = NOP_WORD;
  pf_range : forall f off, In (f, off) fs -> 52 <= f /\ f + 12 < 2 ^ 64;
  pf_apart : forall f off f' off', In (f, off) fs -> In (f', off') fs ->
    f = f' \/ f + 12 <= f' - 52 \/ f' + 12 <= f - 52
}.

(** The requests are for functions of the list; addresses of replacements are 64-bit values. *)
Definition ops_ok (fs : list (Z * Z)) (ops : list pop) : Prop :=
  forall o, In o ops -> (exists off, In (po_f o, off) fs) /\ forall g, po_new o = Some g -> 0 <= g < 2 ^ 64.

(** The 16 bytes below the stack pointer are not in the patchable code of any function. *)
Definition stack_apart (fs : list (Z * Z)) (sp : Z) : Prop :=
  16 <= sp < 2 ^ 64 /\ forall f off, In (f, off) fs -> sp <= f - 52 \/ f + 12 <= sp - 16.

(** A thread that executes the patchable instruction of [f] with these registers has run [trail] and
    is stopped in the state [c], and was in the patchable code of [f] all the time. *)
Definition stopped (f off : Z) (regs : Z -> Z) (lr ctr : Z) (m : mem) (c : cpu) : Prop :=
  exists trail, runs (mk_cpu (f + off) regs lr ctr m) trail c /\
    forall a, In a (c_pc c :: trail) -> ppc_window f off a.

(** The same thread with other code in memory. *)
Definition with_mem (c : cpu) (m : mem) : cpu := mk_cpu (c_pc c) (c_gpr c) (c_lr c) (c_ctr c) m.

(** The thread is at the trampoline [T], which is to call [g] for it: the trampoline finds [g] behind
    the word that the link register points to; the address to return to is in r5, and what the
    caller had in r5 and r6 is below its stack pointer. Other registers are as the caller left
    them. *)
Record bound_for (T g : Z) (regs : Z -> Z) (lr : Z) (c : cpu) : Prop := {
  bf_pc : c_pc c = T;
  bf_target : le_dec (mem_read (c_mem c) (c_lr c + 4) 8) = g;
  bf_return : c_gpr c 5 = lr;
  bf_r5 : mem_read (c_mem c) (regs 1 - 8) 8 = le_enc 8 (regs 5);
  bf_r6 : mem_read (c_mem c) (regs 1 - 16) 8 = le_enc 8 (regs 6);
  bf_others : forall r, r <> 5 -> r <> 12 -> c_gpr c r = regs r
}.

(** The thread is in the body of [f], with the registers as its caller left them. *)
Record in_body (f off : Z) (regs : Z -> Z) (lr ctr : Z) (c : cpu) : Prop := {
  ib_pc : c_pc c = f + off + 4;
  ib_regs : forall r, c_gpr c r = regs r;
  ib_lr : c_lr c = lr;
  ib_ctr : c_ctr c = ctr
}.
