(** The ppc64le trampoline and its side stack (lib/arch/powerpc64le/ulp_prologue.S,
    lib/arch/powerpc64le/patch.c). *)
From Verif Require Import Base PpcSpec.

(** include/arch/powerpc64le/arch_common.h:20-26, fields of ulp_stack (bytes). *)
Definition REAL_SIZE : Z := 0.
Definition USED_SIZE : Z := 8.
Definition PTR : Z := 16.

(** Registers and memory of the thread while it is in the trampoline; [t_le]: the
    "less or equal" outcome in cr0. *)
Record tst := mk_tst {
  tg : Z -> Z;
  t_lr : Z;
  t_ctr : Z;
  t_le : bool;
  tm : mem
}.

Definition ld8 (m : mem) (a : Z) : Z := le_dec (mem_read m a 8).
Definition st8 (m : mem) (a v : Z) : mem := mem_write m a (le_enc 8 v).
Definition s64 (v : Z) : Z := if v <? 2 ^ 63 then v else v - 2 ^ 64.

(** What is fixed for a thread: address of its ulp_stack; of trampoline_routine; TOC
    of libpulp, and the GOT entry that describes ulp_stack (results of the
    relocations); page size. *)
Record pworld := mk_pworld {
  pw_us : Z;
  pw_tramp : Z;
  pw_toc : Z;
  pw_got : Z;
  pw_page : Z
}.

(** What the code outside the trampoline does: __tls_get_addr as a whole; the
    registers and stack the C code of ulp_stack_helper leaves; mmap ([None]:
    MAP_FAILED). *)
Record penv := mk_penv {
  pe_tls : tst -> tst;
  pe_helper : tst -> tst;
  pe_mmap : mem -> Z -> option Z
}.

(** lib/arch/powerpc64le/patch.c:266-322, ulp_stack_helper. [None]: an assertion fails
    or mmap fails, and the process is terminated; also when r2 is not the TOC of
    libpulp, through which the C code finds its data. The registers are what the C
    code leaves ([pe_helper]), r3 is the returned address. Not modelled:
    unmapping the old buffer, pthread_once and the debug message. The byte loop is
    a copy (the buffers do not overlap). *)
Definition ulp_stack_helper (w : pworld) (e : penv) (st0 : tst) : option tst :=
  if negb (tg st0 2 =? pw_toc w) then None else
  let st := pe_helper e st0 in
  let us := pw_us w in
  let old_size := ld8 (tm st) (us + REAL_SIZE) in
  if negb (old_size <=? ld8 (tm st) (us + USED_SIZE)) then None
  else
    let real := u64 (u64 (old_size + pw_page w) * 2) in
    let m1 := st8 (tm st) (us + REAL_SIZE) real in
    let old := ld8 m1 (us + PTR) in
    match pe_mmap e m1 real with
    | None => None
    | Some new =>
        let m2 := if old =? 0 then m1 else mem_write m1 new (mem_read m1 old (Z.to_nat old_size)) in
        let m3 := st8 m2 (us + PTR) new in
        if new =? 0 then None
        else Some (mk_tst (gset (tg st) 3 us) (t_lr st) (t_ctr st) (t_le st) m3)
    end.

(** The instructions of the trampoline. *)
Inductive pinsn :=
| I_std (rs ra d : Z)
| I_ld (rt ra d : Z)
| I_addi (rt ra si : Z)
| I_add (rt ra rb : Z)
| I_mflr (rt : Z)
| I_mtlr (rs : Z)
| I_mfctr (rt : Z)
| I_mtctr (rs : Z)
| I_cmpd (ra rb : Z)
| I_toc          (* addis, addi: r2 := r12 + (.TOC. - trampoline_routine) *)
| I_got          (* addis, addi: r3 := r2 + offset of the GOT entry of ulp_stack *)
| I_tls          (* bl __tls_get_addr; nop *)
| I_helper       (* bl ulp_stack_helper; nop *)
| I_bl_next.     (* bl .+4 *)

(** Offset of .return_to_caller from trampoline_routine: the instructions in
    ulp_prologue.S:46-153. *)
Definition RETURN_TO_CALLER : Z := 4 * 41.

Definition exec1 (w : pworld) (e : penv) (i : pinsn) (st : tst) : option tst :=
  let g := tg st in
  match i with
  | I_std rs ra d => Some (mk_tst g (t_lr st) (t_ctr st) (t_le st) (st8 (tm st) (u64 (g ra + d)) (g rs)))
  | I_ld rt ra d => Some (mk_tst (gset g rt (ld8 (tm st) (u64 (g ra + d)))) (t_lr st) (t_ctr st) (t_le st) (tm st))
  | I_addi rt ra si => Some (mk_tst (gset g rt (u64 (g ra + si))) (t_lr st) (t_ctr st) (t_le st) (tm st))
  | I_add rt ra rb => Some (mk_tst (gset g rt (u64 (g ra + g rb))) (t_lr st) (t_ctr st) (t_le st) (tm st))
  | I_mflr rt => Some (mk_tst (gset g rt (t_lr st)) (t_lr st) (t_ctr st) (t_le st) (tm st))
  | I_mtlr rs => Some (mk_tst g (g rs) (t_ctr st) (t_le st) (tm st))
  | I_mfctr rt => Some (mk_tst (gset g rt (t_ctr st)) (t_lr st) (t_ctr st) (t_le st) (tm st))
  | I_mtctr rs => Some (mk_tst g (t_lr st) (g rs) (t_le st) (tm st))
  | I_cmpd ra rb => Some (mk_tst g (t_lr st) (t_ctr st) (s64 (g ra) <=? s64 (g rb)) (tm st))
  | I_toc => Some (mk_tst (gset g 2 (u64 (g 12 + (pw_toc w - pw_tramp w)))) (t_lr st) (t_ctr st) (t_le st) (tm st))
  | I_got => Some (mk_tst (gset g 3 (u64 (g 2 + (pw_got w - pw_toc w)))) (t_lr st) (t_ctr st) (t_le st) (tm st))
  | I_tls => Some (pe_tls e st)
  | I_helper => ulp_stack_helper w e st
  | I_bl_next => Some (mk_tst g (u64 (pw_tramp w + RETURN_TO_CALLER)) (t_ctr st) (t_le st) (tm st))
  end.

Fixpoint exec (w : pworld) (e : penv) (l : list pinsn) (st : tst) : option tst :=
  match l with
  | [] => Some st
  | i :: t => match exec1 w e i st with None => None | Some st' => exec w e t st' end
  end.

(** ulp_prologue.S:51-82: from the entry to the call of __tls_get_addr. *)
Definition tramp_save : list pinsn :=
  [ I_mflr 6; I_ld 6 6 4; I_mtctr 6; I_mtlr 5;
    I_std 2 1 (-24); I_std 3 1 (-32); I_std 12 1 (-40); I_mflr 2; I_std 2 1 (-48);
    I_addi 1 1 (-88); I_toc; I_got ].
(** ulp_prologue.S:86-90. *)
Definition tramp_check : list pinsn := [ I_ld 6 3 REAL_SIZE; I_ld 5 3 USED_SIZE; I_cmpd 6 5 ].
(** ulp_prologue.S:196-234, .Lexpand_ulp_stack, before and after the call. *)
Definition tramp_expand1 : list pinsn :=
  [ I_std 4 1 (-8); I_std 7 1 (-16); I_std 8 1 (-24); I_std 9 1 (-32); I_std 10 1 (-40); I_std 11 1 (-48);
    I_mfctr 4; I_std 4 1 (-56); I_mflr 4; I_std 4 1 (-64); I_addi 1 1 (-104) ].
Definition tramp_expand2 : list pinsn :=
  [ I_addi 1 1 104; I_ld 7 1 (-16); I_ld 8 1 (-24); I_ld 9 1 (-32); I_ld 10 1 (-40); I_ld 11 1 (-48);
    I_ld 4 1 (-56); I_mtctr 4; I_ld 4 1 (-64); I_mtlr 4; I_ld 4 1 (-8) ].
(** ulp_prologue.S:93-141, .Lcontinue_ulp_prologue, up to the call of the new function. *)
Definition tramp_push : list pinsn :=
  [ I_ld 6 3 USED_SIZE; I_addi 6 6 16; I_std 6 3 USED_SIZE; I_ld 5 3 PTR; I_add 5 5 6;
    I_addi 1 1 88; I_ld 2 1 (-48); I_mtlr 2; I_ld 6 1 (-24); I_std 6 5 (-16); I_std 2 5 (-8);
    I_ld 5 1 (-8); I_ld 6 1 (-16); I_ld 3 1 (-32); I_ld 12 1 (-40); I_mfctr 12 ].
(** ulp_prologue.S:145-168: from the return of the new function to __tls_get_addr. *)
Definition tramp_return : list pinsn :=
  [ I_std 3 1 (-8); I_std 12 1 (-16); I_addi 1 1 (-56); I_bl_next; I_mflr 12; I_addi 12 12 (- RETURN_TO_CALLER);
    I_toc; I_got ].
(** ulp_prologue.S:171-191, up to the final blr. *)
Definition tramp_pop : list pinsn :=
  [ I_ld 6 3 USED_SIZE; I_addi 6 6 (-16); I_std 6 3 USED_SIZE; I_ld 5 3 PTR; I_add 5 5 6;
    I_ld 2 5 0; I_ld 8 5 8; I_mtlr 8; I_addi 1 1 56; I_ld 3 1 (-8); I_ld 12 1 (-16) ].

(** ulp_prologue.S:46-142: from the entry of the trampoline to the entry of the new
    function (bctrl: the link register is the address behind it). *)
Definition AFTER_CALL : Z := 4 * 37.
Definition tramp_enter (w : pworld) (e : penv) (st : tst) : option tst :=
  match exec w e (tramp_save ++ [I_tls] ++ tramp_check) st with
  | None => None
  | Some st1 =>
      match (if t_le st1 then exec w e (tramp_expand1 ++ [I_helper] ++ tramp_expand2) st1 else Some st1) with
      | None => None
      | Some st2 => match exec w e tramp_push st2 with
                    | None => None
                    | Some st3 => Some (mk_tst (tg st3) (u64 (pw_tramp w + AFTER_CALL)) (t_ctr st3) (t_le st3) (tm st3))
                    end
      end
  end.

(** ulp_prologue.S:145-194: from the return of the new function to the blr. *)
Definition tramp_leave (w : pworld) (e : penv) (st : tst) : option tst :=
  exec w e (tramp_return ++ [I_tls] ++ tramp_pop) st.

(** What the code in front of the function does (lib/arch/powerpc64le/ulp_prologue.S:
    250-275; theorem C27_redirection_exact derives this effect from the
    instructions): [lr] is the address in that code, the address of the new
    function is stored four bytes behind it. *)
Definition prologue_effect (w : pworld) (area_lr : Z) (st : tst) : tst :=
  mk_tst (gset (gset (tg st) 5 (t_lr st)) 12 (pw_tramp w)) area_lr (pw_tramp w) (t_le st)
         (st8 (st8 (tm st) (u64 (tg st 1 - 8)) (tg st 5)) (u64 (tg st 1 - 16)) (tg st 6)).

(** A redirected call, from the entry of the old function to the entry of the new. *)
Definition redirected_entry (w : pworld) (e : penv) (area_lr : Z) (st : tst) : option tst :=
  tramp_enter w e (prologue_effect w area_lr st).
