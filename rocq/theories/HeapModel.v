(** The memory that one patch request takes from the program's heap and gives
    back: the parser of the livepatch with every calloc, any of which may fail,
    and the freeing afterwards (common/common.c, lib/ulp.c).  Reading is that of
    MetaModel; what a request does to the livepatching state is that of
    LibModel, whose own allocations (kept in the state) are not counted here. *)
From Verif Require Import Base MetaModel InsnQModel LibModel.

(** The heap: the number of calls of calloc so far, the blocks in use (a block is
    named by the call that made it), whether a block not in use was ever freed,
    and the handles dlopen gave that are not closed. *)
Record hctx := mk_hctx { x_n : nat; x_live : list nat; x_bad : bool; x_handles : list Z }.

Section Heap.
  (** Does the [n]-th call of calloc succeed? *)
  Variable alloc : nat -> bool.

  Definition calloc (x : hctx) : option nat * hctx :=
    if alloc (x_n x)
    then (Some (x_n x), mk_hctx (S (x_n x)) (x_n x :: x_live x) (x_bad x) (x_handles x))
    else (None, mk_hctx (S (x_n x)) (x_live x) (x_bad x) (x_handles x)).

  Definition free (b : nat) (x : hctx) : hctx :=
    if existsb (Nat.eqb b) (x_live x)
    then mk_hctx (x_n x) (filter (fun y => negb (Nat.eqb b y)) (x_live x)) (x_bad x) (x_handles x)
    else mk_hctx (x_n x) (x_live x) true (x_handles x).

  (** The pointers of struct ulp_metadata and what hangs on it; [None]: NULL. *)
  Record hunit := mk_hunit { hu_self : nat; hu_old : option nat; hu_new : option nat }.
  Record hobj := mk_hobj { ho_self : nat; ho_bid : option nat; ho_name : option nat; ho_units : list hunit }.
  Record href := mk_href { hr_self : nat; hr_target : option nat; hr_name : option nat }.
  Record hmeta := mk_hmeta {
    hm_self : nat; hm_so : option nat; hm_obj : option hobj; hm_deps : list nat; hm_refs : list href
  }.

  Definition set_so (hm : hmeta) (b : nat) : hmeta :=
    mk_hmeta (hm_self hm) (Some b) (hm_obj hm) (hm_deps hm) (hm_refs hm).
  Definition set_obj (hm : hmeta) (o : hobj) : hmeta :=
    mk_hmeta (hm_self hm) (hm_so hm) (Some o) (hm_deps hm) (hm_refs hm).
  Definition set_deps (hm : hmeta) (d : list nat) : hmeta :=
    mk_hmeta (hm_self hm) (hm_so hm) (hm_obj hm) d (hm_refs hm).
  Definition set_refs (hm : hmeta) (r : list href) : hmeta :=
    mk_hmeta (hm_self hm) (hm_so hm) (hm_obj hm) (hm_deps hm) r.

  (** The parser ends with undefined behaviour, without fuel, or with an error
      code ([inl]) or the livepatch ([inr]); in the latter cases the structure
      built so far, and the heap. *)
  Inductive hres :=
  | H_UB
  | H_fuel
  | H_end (r : Z + meta) (hm : hmeta) (x : hctx).

  (** [MetaModel.read_name] with its allocation (common/common.c:273-289, 323-337,
      361-375, 377-391).  [hm0]: the structure as it is; [set]: with the new block
      in it, if it is reachable at once. *)
  Definition hread_name (c : Z) (src : list Z) (hm0 : hmeta) (set : nat -> hmeta) (x : hctx)
      (k : list Z -> Z -> list Z -> nat -> hctx -> hres) : hres :=
    let '(c', n, src1) := read_int 4 c src in
    if n <? 1 then H_end (inl EINVALIDULP) hm0 x
    else
      match calloc x with
      | (None, x1) => H_end (inl EINVALIDULP) hm0 x1
      | (Some b, x1) =>
          let (got, src2) := read_from_mem c' src1 in
          if u32 (c' + 1) <? zlen got then H_UB
          else if zlen got <? c' then H_end (inl EINVALIDULP) (set b) x1
          else k (cstr_z got) c' src2 b x1
      end.

  (** common/common.c:354-405, the units: a unit is linked into the object only
      when it is complete. *)
  Fixpoint hparse_units (fuel : nat) (j c : Z) (src : list Z) (acc : list munit)
      (hm : hmeta) (o : hobj) (x : hctx)
      (k : list munit -> Z -> list Z -> hmeta -> hctx -> hres) : hres :=
    if j <=? 0 then k (rev acc) c src (set_obj hm o) x
    else match fuel with
    | O => H_fuel
    | S fuel' =>
        let hm0 := set_obj hm o in
        match calloc x with
        | (None, x1) => H_end (inl ENOMEM) hm0 x1
        | (Some u, x1) =>
            hread_name c src hm0 (fun _ => hm0) x1 (fun old c1 src1 b1 x2 =>
            hread_name c1 src1 hm0 (fun _ => hm0) x2 (fun new c2 src2 b2 x3 =>
            let '(addr, n, src3) := read_int 8 0 src2 in
            if n <? 1 then H_end (inl EINVALIDULP) hm0 x3
            else hparse_units fuel' (j - 1) c2 src3 (mk_munit old new addr :: acc) hm
                   (mk_hobj (ho_self o) (ho_bid o) (ho_name o)
                      (ho_units o ++ [mk_hunit u (Some b1) (Some b2)])) x3 k))
        end
    end.

  (** common/common.c:413-430, the dependencies. *)
  Fixpoint hparse_deps (fuel : nat) (j : Z) (src : list Z) (acc : list (list Z)) (hm : hmeta) (x : hctx)
      (k : list (list Z) -> list Z -> hmeta -> hctx -> hres) : hres :=
    if j <=? 0 then k (rev acc) src hm x
    else match fuel with
    | O => H_fuel
    | S fuel' =>
        match calloc x with
        | (None, x1) => H_end (inl ENOMEM) hm x1
        | (Some d, x1) =>
            let (got, src1) := read_from_mem 32 src in
            if zlen got <? 32 then H_end (inl EINVALIDULP) hm x1
            else hparse_deps fuel' (j - 1) src1 (got :: acc) (set_deps hm (hm_deps hm ++ [d])) x1 k
        end
    end.

  (** common/common.c:446-457, 460-471: errno of a failing calloc is ENOMEM. *)
  Definition hread_rname (c : Z) (src : list Z) (hm : hmeta) (x : hctx)
      (k : option (list Z) -> Z -> list Z -> nat -> hctx -> hres) : hres :=
    let '(c', n, src1) := read_int 4 c src in
    if n <? 4 then H_end (inl EINVALIDULP) hm x
    else
      match calloc x with
      | (None, x1) => H_end (inl ENOMEM) hm x1
      | (Some b, x1) =>
          let (got, src2) := read_from_mem c' src1 in
          if zlen got <? c' then H_end (inl EINVALIDULP) hm x1
          else k (cstr_in got) c' src2 b x1
      end.

  (** common/common.c:439-501, the references. *)
  Fixpoint hparse_refs (fuel : nat) (j c : Z) (src : list Z) (acc : list mref) (hm : hmeta) (x : hctx)
      (k : list mref -> list Z -> hmeta -> hctx -> hres) : hres :=
    if j <=? 0 then k (rev acc) src hm x
    else match fuel with
    | O => H_fuel
    | S fuel' =>
        match calloc x with
        | (None, x1) => H_end (inl ENOMEM) hm x1
        | (Some r, x1) =>
            hread_rname c src hm x1 (fun target c1 src1 b1 x2 =>
            hread_rname c1 src1 hm x2 (fun name c2 src2 b2 x3 =>
            let '(toff, n1, src3) := read_int 8 0 src2 in
            if n1 <? 8 then H_end (inl EINVALIDULP) hm x3
            else
              let '(poff, n2, src4) := read_int 8 0 src3 in
              if n2 <? 8 then H_end (inl EINVALIDULP) hm x3
              else
                let '(tls, n3, src5) := read_int 1 0 src4 in
                if n3 <? 1 then H_end (inl EINVALIDULP) hm x3
                else hparse_refs fuel' (j - 1) c2 src5
                       (mk_mref target name toff poff (negb (tls =? 0)) :: acc)
                       (set_refs hm (hm_refs hm ++ [mk_href r (Some b1) (Some b2)])) x3 k))
        end
    end.

  (** common/common.c:250-509, parse_metadata_from_mem on a structure fresh from
      calloc. *)
  Definition hparse (junk : Z) (src : list Z) (hm : hmeta) (x : hctx) : hres :=
    let fuel := S (length src) in
    let '(type, n, src1) := read_int 1 0 src in
    if n <? 1 then H_end (inl EINVALIDULP) hm x
    else
      let (id, src2) := read_from_mem 32 src1 in
      if zlen id <? 32 then H_end (inl EINVALIDULP) hm x
      else
        hread_name junk src2 hm (set_so hm) x (fun so c1 src3 b1 x1 =>
        let hm1 := set_so hm b1 in
        match so with
        | [] => H_end (inl EINVALIDULP) hm1 x1
        | _ =>
          match calloc x1 with
          | (None, x2) => H_end (inl ENOMEM) hm1 x2
          | (Some o, x2) =>
            let hm2 := set_obj hm1 (mk_hobj o None None []) in
            let '(c2, n2, src4) := read_int 4 c1 src3 in
            if n2 <? 1 then H_end (inl EINVALIDULP) hm2 x2
            else
              match calloc x2 with
              | (None, x3) => H_end (inl EINVALIDULP) hm2 x3
              | (Some b2, x3) =>
                let hm3 := set_obj hm1 (mk_hobj o (Some b2) None []) in
                let (bid, src5) := read_from_mem c2 src4 in
                if zlen bid <? c2 then H_end (inl EINVALIDULP) hm3 x3
                else
                  hread_name c2 src5 hm3 (fun b => set_obj hm1 (mk_hobj o (Some b2) (Some b) [])) x3
                    (fun name c3 src6 b3 x4 =>
                  let obj := mk_hobj o (Some b2) (Some b3) [] in
                  let hm4 := set_obj hm1 obj in
                  if type =? 2 then H_end (inr (mk_meta type id so c2 bid name [] [] [])) hm4 x4
                  else
                    let '(nunits, n4, src7) := read_int 4 0 src6 in
                    if n4 <? 1 then H_end (inl 1) hm4 x4
                    else
                      hparse_units fuel nunits c3 src7 [] hm1 obj x4 (fun units c4 src8 hm5 x5 =>
                      let '(ndeps, n5, src9) := read_int 4 c4 src8 in
                      if n5 <? 1 then H_end (inl EINVALIDULP) hm5 x5
                      else
                        hparse_deps fuel ndeps src9 [] hm5 x5 (fun deps src10 hm6 x6 =>
                        let '(nrefs, n6, src11) := read_int 4 0 src10 in
                        if n6 <? 4 then H_end (inl EINVALIDULP) hm6 x6
                        else
                          hparse_refs fuel nrefs ndeps src11 [] hm6 x6 (fun refs src12 hm7 x7 =>
                          H_end (inr (mk_meta type id so c2 bid name units deps refs)) hm7 x7))))
              end
          end
        end).

  (** if (p) free(p) *)
  Definition free_opt (p : option nat) (x : hctx) : hctx :=
    match p with Some b => free b x | None => x end.

  (** common/common.c:511-556, free_metadata: so_filename (comments is always
      NULL in the library), the references, the units, the object; neither the
      structure itself nor the dependencies. *)
  Definition free_metadata (hm : hmeta) (x : hctx) : hctx :=
    let x1 := free_opt (hm_so hm) x in
    let x2 := fold_left (fun x r => free (hr_self r) (free_opt (hr_name r) (free_opt (hr_target r) x)))
                (hm_refs hm) x1 in
    match hm_obj hm with
    | None => x2
    | Some o =>
        let x3 := fold_left (fun x u => free (hu_self u) (free_opt (hu_new u) (free_opt (hu_old u) x)))
                    (ho_units o) x2 in
        free (ho_self o) (free_opt (ho_bid o) (free_opt (ho_name o) x3))
    end.

  (** What a request leaves: the livepatching state, the answer, the heap. *)
  Definition opened (h : Z) (x : hctx) : hctx :=
    mk_hctx (x_n x) (x_live x) (x_bad x) (h :: x_handles x).

  (** lib/ulp.c:468-532, load_patch with load_metadata (312-338), parse_metadata
      (439-465), load_so_handlers (286-298, where unload_handlers has nothing to
      close) and unload_metadata (304-310).  [None]: undefined behaviour. *)
  Definition hload_patch (e : dlenv) (m : mem) (junk : Z) (buf : list Z) (st : lstate) (x : hctx)
    : option (lstate * Z * hctx) :=
    match calloc x with
    | (None, x1) => Some (st, ENOMEM, x1)
    | (Some self, x1) =>
        match hparse junk buf (mk_hmeta self None None [] []) x1 with
        | H_UB | H_fuel => None
        | H_end (inl c) hm x2 => Some (st, c, free_metadata hm x2)
        | H_end (inr md) hm x2 =>
            if md_type md =? 2 then
              let ret := ulp_can_revert_patch st (md_id md) in
              if negb (ret =? 0) then Some (st, ret, free_metadata hm x2)
              else let (st1, ret1) := ulp_revert_patch m (md_id md) st in
                   Some (st1, ret1, free_metadata hm x2)
            else
              match check_patch_sanity e md st with
              | None => None
              | Some ret =>
                  if negb (ret =? 0) then Some (st, ret, free_metadata hm x2)
                  else
                    let h := e_dlopen e (md_so md) in
                    if h =? 0 then Some (st, EDLOPEN, free_metadata hm x2)
                    else
                      let x3 := opened h x2 in
                      if md_type md =? 1 then
                        match ulp_state_update e m h md st with
                        | None => Some (st, ESTATE, free_metadata hm x3)
                        | Some st1 =>
                            match ulp_apply_all_units e m h md st1 with
                            | None => None
                            | Some (st2, ret) =>
                                if negb (ret =? 0) then Some (set_err st2 EUNKNOWN, ret, free_metadata hm x3)
                                else Some (st2, 0, free_metadata hm x3)
                            end
                        end
                      else if md_type md =? 0 then Some (st, ENOMETA, free_metadata hm x3)
                      else Some (st, EUNKNOWN, free_metadata hm x3)
              end
        end
    end.

  (** Requests one after the other: the state, the answers, the heap. *)
  Fixpoint hrequests (e : dlenv) (m : mem) (l : list (Z * list Z)) (st : lstate) (x : hctx)
    : option (lstate * list Z * hctx) :=
    match l with
    | [] => Some (st, [], x)
    | (junk, buf) :: t =>
        match hload_patch e m junk buf st x with
        | None => None
        | Some (st1, r, x1) =>
            match hrequests e m t st1 x1 with
            | None => None
            | Some (st2, rs, x2) => Some (st2, r :: rs, x2)
            end
        end
    end.
End Heap.
