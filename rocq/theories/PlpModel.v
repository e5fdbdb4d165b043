(** How the tool tells livepatchable functions on POWER (tools/arch/powerpc64le/
    post-arch.c). *)
From Verif Require Import Base PpcModel.

(** tools/arch/powerpc64le/post-arch.c:54-75, check_preamble; [readable]: read_memory of
    the 12 bytes succeeds. *)
Definition ppc_check_preamble (readable : bool) (m : mem) (a : Z) : bool :=
  readable && (let bytes := mem_read m a 12 in
               bytes_eqb (firstn 4 bytes) gNop || bytes_eqb (firstn 4 (skipn 8 bytes)) gNop).

(** tools/patches.c:478-500, as [PostModel.livepatchable_loop], with the check_preamble
    of POWER. *)
Fixpoint ppc_livepatchable_loop (readable : Z -> bool) (m : mem) (base : Z) (syms : list (option Z)) (ret : option bool)
  : option bool :=
  match syms with
  | [] => ret
  | None :: _ => Some false
  | Some v :: t =>
      let a := u64 (base + v) in
      if ppc_check_preamble (readable a) m a then Some true
      else ppc_livepatchable_loop readable m base t (Some false)
  end.

(** tools/patches.c:458-507, is_library_livepatchable on POWER. *)
Definition ppc_is_library_livepatchable (loaded attached detached : bool) (readable : Z -> bool) (m : mem) (base : Z)
                                        (syms : list (option Z)) : option bool :=
  if loaded then Some true
  else if negb attached then Some false
  else if negb detached then Some false
  else ppc_livepatchable_loop readable m base (firstn (Z.to_nat 8000) syms) None.
