(** `ulp patches` from the processes found to the text printed
    (tools/patches.c:284-396, 458-579, 609-668). *)
From Coq Require Import String.
From Verif Require Import Base StrModel InsnQModel TextModel PcModel IntrModel PostModel LogModel.

(** What the C library answers: strerror, and asctime(localtime(&t)) ([None]: NULL,
    which glibc's printf shows as "(null)"). *)
Record cenv := mk_cenv { ce_strerror : Z -> list Z; ce_asctime : Z -> option (list Z) }.

(** A process as print_process sees it: its pid, its memory and /proc files, the
    structure made by initialize_data_structures, whether the attach of ulp_read_state
    succeeds, whether attach and detach succeed for an object in
    is_library_livepatchable, and the contents of its uninitialised variable there. *)
Record pview := mk_pview {
  v_pid : Z;
  v_t : target;
  v_fs : procfs;
  v_p : process;
  v_attach : bool;
  v_obj_attach : dynobj -> bool;
  v_obj_detach : dynobj -> bool;
  v_junk : dynobj -> bool
}.

(** Options of the command. *)
Record popts := mk_popts {
  po_process : option (list Z);
  po_user : option (list Z);
  po_buildid : bool;
  po_only : bool;
  po_quiet : bool;
  po_no_color : bool
}.

(** include/terminal_colors.h and tools/ulp.c:413-420, change_color. *)
Definition TERM_COLOR_RESET : list Z := 27 :: zs "[0m".
Definition TERM_COLOR_RED : list Z := 27 :: zs "[31;1m".
Definition TERM_COLOR_GREEN : list Z := 27 :: zs "[32;1m".
Definition TERM_COLOR_YELLOW : list Z := 27 :: zs "[33;1m".
Definition change_color (no_color : bool) (esc : list Z) : list Z := if no_color then [] else esc.

(** tools/patches.c:288-370, print_relevant_labels: the text printed for the labels
    found ([IntrModel.relevant_labels]). *)
Definition labels_text (ls : list (list Z)) : list Z :=
  match ls with
  | [] => []
  | _ => zs "        bug labels: " ++ flat_map (fun l => l ++ zs " ") ls ++ [10]
  end.

(** tools/patches.c:383-392, one livepatch of print_lib_patches; no newline of its own:
    it is the one asctime ends with. *)
Definition patch_text (ce : cenv) (s : shown_patch) : list Z :=
  zs "      livepatch: " ++ sp_name s ++
  (match sp_time s with
   | Some ts => zs " loaded on " ++ (match ce_asctime ce ts with Some d => d | None => zs "(null)" end)
   | None => []
   end) ++ labels_text (sp_labels s).

(** tools/patches.c:483-490: the values of the first [n] dynamic symbols (24 bytes
    each, st_value at offset 8), [None] for one that cannot be read. *)
Fixpoint symbol_values (n : nat) (t : target) (a : Z) : list (option Z) :=
  match n with
  | O => []
  | S n' => match trd t a 24 with Some b => Some (fld b 8 8) | None => None end
            :: symbol_values n' t (u64 (a + 24))
  end.

(** tools/patches.c:458-507, is_library_livepatchable: [PostModel]'s function on the
    memory of the process. *)
Definition can_read2 (t : target) (a : Z) : bool := match trd t a 2 with Some _ => true | None => false end.
Definition library_livepatchable (v : pview) (ps : list apatch) (o : dynobj) : iout bool :=
  ibind (has_livepatch_loaded ps (o_filename o)) (fun loaded =>
  ibind (if loaded || negb (v_obj_attach v o) then I_ok 0
         else get_ehdr_addr (pf_maps (v_fs v)) (o_filename (p_main (v_p v))) o) (fun base =>
    I_ok (match is_library_livepatchable loaded (v_obj_attach v o) (v_obj_detach v o) (can_read2 (v_t v)) (t_mem (v_t v)) base
                  (symbol_values (Z.to_nat (Z.min (o_nsyms o) 8000)) (v_t v) (o_dynsym o)) with
          | Some b => b
          | None => v_junk v o
          end))).

(** tools/patches.c:556-574, the loop over the objects. *)
Fixpoint objects_text (ce : cenv) (comments : list Z -> option (list Z)) (buildid : bool) (v : pview) (ps : list apatch)
                      (objs : list dynobj) : iout (list Z) :=
  match objs with
  | [] => I_ok []
  | o :: rest =>
      ibind (library_livepatchable v ps o) (fun b =>
        if b
        then ibind (print_lib_patches comments ps (o_filename o)) (fun sp =>
             ibind (objects_text ce comments buildid v ps rest) (fun r =>
               I_ok (zs "    in " ++ o_filename o ++
                     (if buildid then zs " (" ++ buildid_to_string (o_buildid o) ++ zs ")" else []) ++
                     (if ext o 10 =? 0 then []
                      else zs " (version " ++ ulp_version_as_string (ext o 10) ++ zs ")") ++
                     zs ":" ++ [10] ++ flat_map (patch_text ce) sp ++ r)))
        else objects_text ce comments buildid v ps rest)
  end.

(** tools/patches.c:509-537, print_remote_err_status. *)
Definition status_text (ce : cenv) (no_color : bool) (state : Z) : list Z :=
  zs "  Livepatching status: " ++
  (match remote_status state with
   | St_enabled => change_color no_color TERM_COLOR_GREEN ++ zs "enabled" ++ [10]
   | St_disabled_by_user => change_color no_color TERM_COLOR_YELLOW ++ zs "disabled by user" ++ [10]
   | St_error code =>
       change_color no_color TERM_COLOR_RED ++
       zs "disabled (internal error: " ++ libpulp_strerror (ce_strerror ce) code ++ zs ")" ++ [10]
   end) ++ change_color no_color TERM_COLOR_RESET.

(** tools/patches.c:539-579, print_process: the text printed. A process has at least
    one object, its main program, so that the branch of "(none)" is not reached. *)
Definition process_text (ce : cenv) (comments : list Z -> option (list Z)) (op : popts) (v : pview) : iout (list Z) :=
  ibind (ulp_read_state (v_t v) (v_attach v) (v_p v)) (fun ps =>
    if po_only op && (match ps with [] => true | _ => false end) then I_ok []
    else ibind (objects_text ce comments (po_buildid op) v ps (p_objects (v_p v))) (fun txt =>
      I_ok (zs "PID: " ++ print_int (v_pid v) ++ zs ", name: " ++ get_basename (o_filename (p_main (v_p v))) ++ [10] ++
            status_text ce (po_no_color op) (get_libpulp_error_state_remote (v_t v) (v_p v)) ++
            zs "  Livepatchable libraries:" ++ [10] ++
            (match p_objects (v_p v) with [] => zs "    (none)" ++ [10] | _ => [] end) ++
            txt ++ [10]))).

(** The processes of the system: [pw] and the entries of /proc for the search
    ([PcModel]), and what print_process would see of a pid ([inr]: the error of
    initialize_data_structures). *)
Record psys := mk_psys {
  sy_w : pworld;
  sy_entries : list pentry;
  sy_view : Z -> pview + Z;
  sy_comments : list Z -> option (list Z)
}.

(** The loop of run_patches (tools/patches.c:661-665) over the pids the iteration
    delivers: the text on stdout. *)
Fixpoint report (ce : cenv) (sy : psys) (op : popts) (pids : list Z) : iout (list Z) :=
  match pids with
  | [] => I_ok []
  | pid :: rest =>
      match sy_view sy pid with
      | inr _ => report ce sy op rest
      | inl v => ibind (process_text ce (sy_comments sy) op v) (fun a =>
                 ibind (report ce sy op rest) (fun b => I_ok (a ++ b)))
      end
  end.

(** tools/patches.c:648-668, run_patches, with process_list_begin (142-178): text and
    exit status. A number is taken as pid, and nothing else is looked at then. Without
    threads the processes are those of [PcModel.discover_serial]; that they are the
    same with threads is C34. -q (ulp_quiet) only silences messages on stderr. *)
Definition run_patches (ce : cenv) (sy : psys) (op : popts) : iout (list Z * Z) :=
  if isnumber (po_process op)
  then match po_process op with
       | Some s =>
           match sy_view sy (atoi s) with
           | inr e => I_ok ([], if e =? 0 then 0 else 1)
           | inl v => ibind (process_text ce (sy_comments sy) op v) (fun a => I_ok (a, 0))
           end
       | None => I_ub
       end
  else ibind (report ce sy op (discover_serial (sy_w sy) (po_process op) (po_user op) 0 (sy_entries sy)))
             (fun a => I_ok (a, 0)).
