(** What the memory of a process with libpulp holds for "ulp messages". *)
From Coq Require Import String.
From Verif Require Import Base StrModel TextModel MsgQModel MsgQSpec LibSpec NtSpec IntrModel IntrSpec.

(** The queue [q] lies at [a]: its buffer, then top, bottom and distance. *)
Definition queue_bytes (q : msgq) : list Z :=
  mem_read (mq_buf q) 0 (Z.to_nat MSGQ_BUFFER_MAX) ++
  le_enc 4 (mq_top q) ++ le_enc 4 (mq_bottom q) ++ le_enc 4 (mq_dist q).
Definition queue_at (t : target) (a : Z) (q : msgq) : Prop := NtSpec.holds (t_ok t) (t_mem t) a (queue_bytes q).

(** A process with libpulp loaded and initialised, as the tool can take it in (see
    C62), with the queue [q] where libpulp exports it. *)
Definition runs_libpulp (t : target) (pf : procfs) (q : msgq) : Prop :=
  exists main c1 lp c2 syms text state v,
    target_ok t /\ (0 < t_fuel t)%nat /\
    process_at t (pf_auxv pf) main (c1 ++ lp :: c2) /\
    pf_comm pf = od_name main ++ [10] /\ ~ In 10 (od_name main) /\ ~ In 47 (od_name main) /\
    od_addr main <> 0 /\ elf_at t (od_addr main) (od_sym main) (od_str main) (od_n main) (od_id main) /\
    Forall (object_at t) (c1 ++ lp :: c2) /\
    Forall (fun o => ~ substring (zs "libpulp.so") (od_name o)) (c1 ++ c2) /\
    substring (zs "libpulp.so") (od_name lp) /\
    symtab_at t (od_str lp) (od_sym lp) syms /\ zlen syms = od_n lp /\ NoDup (map ds_name syms) /\
    version_at t (od_addr lp) syms text /\
    In (mk_dsym (zs "__ulp_state") state) syms /\ libpulp_loaded t (u64 (od_addr lp + state)) /\
    In (mk_dsym (zs "__ulp_msg_queue") v) syms /\ u64 (od_addr lp + v) <> 0 /\
    queue_at t (u64 (od_addr lp + v)) q.

(** The messages libpulp accepts: not empty, and not larger than the buffer. *)
Definition logged (l : list (list Z)) : list (list Z) :=
  filter (fun m => negb (Nat.eqb (List.length m) 0) && (zlen m + 1 <=? MSGQ_BUFFER_MAX)) l.
(** Messages without the one size that makes logging hang (C36). *)
Definition harmless (m : list Z) : Prop := cstr_ok m /\ zlen m + 1 <> MSGQ_BUFFER_MAX.

(** [digits] is the decimal number [pid]. *)
Definition names_pid (digits : list Z) (pid : Z) : Prop :=
  digits <> [] /\ Forall (fun c => 48 <= c <= 57) digits /\ dec_val digits = pid /\ pid < 2 ^ 31.
