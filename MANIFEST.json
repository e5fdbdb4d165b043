{
 "claims": [
  {
   "property": "C01",
   "status": "proved",
   "theorems": [
    "C01_calls_follow_newest_patch",
    "C01_tool_apply_is_events",
    "C01_tool_revert_all_is_events"
   ],
   "note": "All histories of apply/revert/revert-all/set_patchable/queue execution/program steps on x86_64 whose side conditions (functions_ok, event_ok) hold; tool operations are shown to be such events."
  },
  {
   "property": "C02",
   "status": "proved",
   "theorems": [
    "C02_ids_unique",
    "C02_never_applied_twice",
    "C02_second_application_refused"
   ],
   "note": "Uniqueness in every reachable state; re-application refused and without effect; EAPPLIED when dependencies and the build-id check pass."
  },
  {
   "property": "C03",
   "status": "proved",
   "theorems": [
    "C03_dependencies_stay_applied",
    "C03_log_is_closed",
    "C03_missing_dependency_refused",
    "C03_needed_patch_not_reverted"
   ],
   "note": "Every reachable state (list and log); missing dependency and needed patch are answered with EDEPEND and change nothing."
  },
  {
   "property": "C04",
   "status": "proved",
   "theorems": [
    "C04_revert_removes_exactly_one",
    "C04_other_functions_keep_routing",
    "C04_apply_then_revert_restores"
   ],
   "note": "List, routing of untouched functions, and apply-then-revert restoration."
  },
  {
   "property": "C05",
   "status": "partial",
   "theorems": [
    "C05_check_meaning_partial",
    "C05_refusal_partial",
    "C05_wrong_build_accepted_refuted",
    "C05_right_build_refused_refuted"
   ],
   "note": "Refuted in both directions (the memcmp result is used inverted and the name is not compared). Proved: the exact meaning of the check as written, and that refusal changes nothing."
  },
  {
   "property": "C06",
   "status": "partial",
   "theorems": [
    "C06_failed_application_partial",
    "C06_failed_application_refuted"
   ],
   "note": "Refuted: a patch whose second function is not livepatchable is answered with an error but redirects the first. Proved when all functions are livepatchable and references can be found; memory and `ulp check` are never affected."
  },
  {
   "property": "C07",
   "status": "proved",
   "theorems": [
    "C07_error_state_refuses",
    "C07_error_state_is_final"
   ],
   "note": "Every request and every history in an error state."
  },
  {
   "property": "C08",
   "status": "partial",
   "theorems": [
    "C08_revert_all_exact_partial",
    "C08_revert_all_terminates_partial",
    "C08_revert_all_answers_partial",
    "C08_blocked_revert_all_refuted"
   ],
   "note": "Exactness proved; termination proved when no foreign patch depends on the library's patches; refuted otherwise (endless loop for every number of steps)."
  },
  {
   "property": "C09",
   "status": "proved",
   "theorems": [
    "C09_toggle"
   ],
   "note": "Complete transition table of the toggle."
  },
  {
   "property": "C10",
   "status": "proved",
   "theorems": [
    "C10_counter_is_monotone",
    "C10_largest_universe_in_effect"
   ],
   "note": "Histories of fewer than 2^63 events (the counter is 64 bits wide)."
  },
  {
   "property": "C11",
   "status": "proved",
   "theorems": [
    "C11_check_exact"
   ],
   "note": "Every reachable state against the log of successful requests."
  },
  {
   "property": "C12",
   "status": "proved",
   "theorems": [
    "C12_queue_executes_exactly"
   ],
   "note": "Encoder of lib/insn_queue.c and interpreter of common/+tools/insn_queue.c at byte level; ptrace reads/writes assumed to succeed."
  },
  {
   "property": "C13",
   "status": "proved",
   "theorems": [
    "C13_queue_never_overflows"
   ],
   "note": "Every list of requests; stores never leave the buffer; refusal leaves the queue unchanged and sets EINSNQ."
  },
  {
   "property": "C14",
   "status": "proved",
   "theorems": [
    "C14_pending_writes_block"
   ],
   "note": "Request refused with EINSNQ (the error state is set), tables, queue and memory unchanged."
  },
  {
   "property": "C15",
   "status": "partial",
   "theorems": [
    "C15_wellformed_queue_safe_partial",
    "C15_malformed_queue_reported_partial",
    "C15_hostile_queue_refuted"
   ],
   "note": "Refuted for arbitrary bytes (write length and negative sizes are not checked). Proved: contents that are sequences of complete instructions are executed within the fetched bytes; contents with an unknown opcode or a wrong total size after complete instructions are reported, within the fetched bytes."
  },
  {
   "property": "C16",
   "status": "partial",
   "theorems": [
    "C16_last_write_failure_reported_partial",
    "C16_success_means_done",
    "C16_failed_write_refuted"
   ],
   "note": "Refuted: a failed write moves the interpreter one byte back and it can end successfully; proved when the failing write is the last one, and for failures to fetch or reset the queue."
  },
  {
   "property": "C17",
   "status": "partial",
   "theorems": [
    "C17_inprocess_write_exact_partial",
    "C17_inprocess_queue_exact_partial",
    "C17_inprocess_queue_emptied",
    "C17_protections_always_restored",
    "C17_boundary_write_refuted"
   ],
   "note": "Proved for mapped spans and working mprotect; refuted at the end of a mapping and when restoring fails."
  },
  {
   "property": "C18",
   "status": "proved",
   "theorems": [
    "C18_metadata_roundtrip",
    "C18_oversized_refused"
   ],
   "note": "Packer bytes -> path injection by the tool -> parser, all descriptions within the size limits; oversize is refused."
  },
  {
   "property": "C19",
   "status": "partial",
   "theorems": [
    "C19_parser_terminates",
    "C19_parser_safe_partial",
    "C19_length_wrap_refuted",
    "C19_complete_partial",
    "C19_truncated_rejected_partial",
    "C19_truncated_reverse_refuted"
   ],
   "note": "Termination proved for all bytes. Memory safety proved unless a length field is 0xffffffff (heap overrun, refuted). Truncation rejected for apply patches; refuted for reverse patches."
  },
  {
   "property": "C20",
   "status": "proved",
   "theorems": [
    "C20_reverse_identifies_patch",
    "C20_applying_reverse_reverts"
   ],
   "note": "Parsing, and the effect of the parsed request on the patch list."
  },
  {
   "property": "C21",
   "status": "partial",
   "theorems": [
    "C21_gdb_injection_equals_tool_partial",
    "C21_short_section_refuted"
   ],
   "note": "Proved for sections of at least 33 bytes; shorter sections make the gdb interface move a negative length (refuted)."
  },
  {
   "property": "C22",
   "status": "proved",
   "theorems": [
    "C22_md4_is_rfc1320",
    "C22_patch_id"
   ],
   "note": "MD4 of tools/md4.c equals RFC 1320 for every byte string below 2^61 bytes, with no out-of-bounds access; write_patch_id's layout. File reading and libelf's build-id lookup succeed by assumption."
  },
  {
   "property": "C23",
   "status": "partial",
   "theorems": [
    "C23_roundtrip_partial",
    "C23_other_fields_partial",
    "C23_comparison_exact",
    "C23_high_symbol_refuted"
   ],
   "note": "Round trip proved for symbols below 2 GiB, all other fields for all libraries; refuted for offsets >= 2^31 (stored as int). json-c's printer/reader pair is an argument."
  },
  {
   "property": "C24",
   "status": "proved",
   "theorems": [
    "C24_print_and_read",
    "C24_injective"
   ],
   "note": "All 20-byte build IDs."
  },
  {
   "property": "C25",
   "status": "proved",
   "theorems": [
    "C25_redirection_exact"
   ],
   "note": "x86_64; byte-exact trampoline and an operational reading of the two jump encodings."
  },
  {
   "property": "C26",
   "status": "partial",
   "theorems": [
    "C26_unpatchable_refused_partial",
    "C26_short_jump_refuted",
    "C26_exact",
    "C26_power_neighbour_refuted"
   ],
   "note": "x86_64: refused and unchanged when neither the nop slot nor a patched slot is found; refuted for functions starting with a short jump to -14, which are taken for patched ones. C26_exact says exactly what is accepted. C26_power_neighbour_refuted: on POWER one nop is enough to be accepted, and the 52 bytes in front are overwritten whatever they are."
  },
  {
   "property": "C27",
   "status": "partial",
   "theorems": [
    "C27_redirection_exact",
    "C27_removal_exact",
    "C27_unpatchable_refused_partial",
    "C27_refused_overwrites_refuted"
   ],
   "note": "Installing and removing are exact, at the level of decoded Power instructions, for every function in both layouts. Refuted: a function that is refused has the 52 bytes in front of it overwritten when the queue is carried out."
  },
  {
   "property": "C28",
   "status": "partial",
   "theorems": [
    "C28_returns",
    "C28_call_unchanged",
    "C28_entry_succeeds",
    "C28_longjmp_refuted",
    "C28_signal_refuted",
    "C28_tls_abi_refuted"
   ],
   "note": "Proved for every properly nested run of any depth, side stack growth included, given a __tls_get_addr that preserves r4-r10 and CTR. Refuted: leaving a redirected function by longjmp or an exception makes an outer one return to the wrong place; so does a signal handler that makes a redirected call while another one is returning; a __tls_get_addr that only keeps to the ABI loses the target."
  },
  {
   "property": "C29",
   "status": "partial",
   "theorems": [
    "C29_only_entry_nops",
    "C29_one_byte_per_function",
    "C29_stays_livepatchable",
    "C29_idempotent",
    "C29_short_function_refuted"
   ],
   "note": "Only first entry nops of listed functions change, one per function, livepatchable afterwards, idempotent; finding: a function of under four bytes at the end of its section is read beyond the end."
  },
  {
   "property": "C30",
   "status": "partial",
   "theorems": [
    "C30_proceeds_only_if_free_partial",
    "C30_inside_means_EAGAIN_partial",
    "C30_calls_are_counted",
    "C30_request_keeps_count",
    "C30_free_means_proceed",
    "C30_apply_is_the_state_machine",
    "C30_startup_refuted",
    "C30_contended_refuted",
    "C30_fork_refuted",
    "C30_early_request_refuted"
   ],
   "note": "Any number of threads and any interleaving (nested calls, forks): proved for calls made after libpulp's constructor ran. Refuted for calls that began before it (not counted), for a request before it (null dereference), for a contended loader lock (libpulp ends in EUNKNOWN) and for a child forked while another thread allocates (EAGAIN for ever)."
  },
  {
   "property": "C31",
   "status": "partial",
   "theorems": [
    "C31_all_stopped",
    "C31_stays_stopped",
    "C31_failure_releases_partial",
    "C31_left_behind_refuted",
    "C31_counting_listing_refuted",
    "C31_exec_refuted"
   ],
   "note": "Proved for every interleaving with thread creation and termination. Failure releases all threads unless a detach or waitpid is itself refused (refuted otherwise). Two further refutations: a task listing that resumes by counting (Linux), and exec during the scan."
  },
  {
   "property": "C32",
   "status": "partial",
   "theorems": [
    "C32_registers_restored_partial",
    "C32_others_untouched",
    "C32_vector_registers_refuted",
    "C32_timeout_refuted"
   ],
   "note": "General purpose registers proved restored whenever release reports no error. Missing: vector registers are not saved (refuted), and after a timeout the main thread cannot be restored (refuted, error reported)."
  },
  {
   "property": "C33",
   "status": "proved",
   "theorems": [
    "C33_stack",
    "C33_entry"
   ],
   "note": "Both architectures, every stack pointer."
  },
  {
   "property": "C34",
   "status": "partial",
   "theorems": [
    "C34_fifo",
    "C34_every_process_once",
    "C34_no_overflow_no_race",
    "C34_no_deadlock",
    "C34_terminates",
    "C34_iteration_partial",
    "C34_unreadable_first_refuted",
    "C34_unreadable_later_refuted"
   ],
   "note": "Queue: all capacities, lists and schedules of the two threads at the level of semaphore operations and array accesses. Discovery: proved when every selected process can be read; refuted otherwise (the iteration ends early and may hang, or a process is delivered twice)."
  },
  {
   "property": "C35",
   "status": "proved",
   "theorems": [
    "C35_newest_messages_intact",
    "C35_nothing_lost_while_room"
   ],
   "note": "Every list of messages except ones whose size equals the buffer size (see C36); buffer size as in the code."
  },
  {
   "property": "C36",
   "status": "partial",
   "theorems": [
    "C36_logging_terminates_in_bounds_partial",
    "C36_full_message_refuted"
   ],
   "note": "Refuted for a message of exactly MSGQ_BUFFER_MAX bytes with terminator (endless loop); proved for all others."
  },
  {
   "property": "C37",
   "status": "partial",
   "theorems": [
    "C37_ptrace_writes_exactly",
    "C37_ptrace_succeeds",
    "C37_ptrace_failure",
    "C37_vm_writes_exactly_partial",
    "C37_vm_writes_nowhere_else",
    "C37_vm_partial_transfer_refuted",
    "C37_metadata_fits"
   ],
   "note": "The ptrace path is exact for all lengths; the process_vm_writev path is exact when all bytes are accessible, refuted for partial transfers."
  },
  {
   "property": "C38",
   "status": "partial",
   "theorems": [
    "C38_zero_byte_test",
    "C38_string_partial",
    "C38_no_overflow",
    "C38_buffer_partial",
    "C38_buffer_bounds",
    "C38_end_of_mapping_refuted",
    "C38_partial_read_refuted"
   ],
   "note": "Zero-byte test exact on all words; strings exact when whole words are accessible; refuted at the end of a mapping."
  },
  {
   "property": "C39",
   "status": "partial",
   "theorems": [
    "C39_success_means_done",
    "C39_applied_is_reported",
    "C39_always_released",
    "C39_retry_partial",
    "C39_exact",
    "C39_definitive_refuted",
    "C39_busy_after_revert_refuted",
    "C39_restore_error_refuted"
   ],
   "note": "Success is reported exactly when the patch was applied; always released, bounded attempts; findings: definitive answers are retried, a busy patch after a revert is not retried, a failed restore is hidden. C39_exact states the retry rule for every request (with or without revert and stack check) and every sequence of answers."
  },
  {
   "property": "C40",
   "status": "partial",
   "theorems": [
    "C40_single_patch_partial",
    "C40_exit_status_partial",
    "C40_exit_status_refuted",
    "C40_wildcard_refuted",
    "C40_failed_count_partial",
    "C40_recursive_refuted",
    "C40_exit_status_exact"
   ],
   "note": "Exact for one named patch up to the truncation of the exit status; findings: unknown error (256) exits 0, wildcard mode always exits 0, subdirectory results dropped. C40_exit_status_exact says exactly which failures the exit status shows."
  },
  {
   "property": "C41",
   "status": "proved",
   "theorems": [
    "C41_exact_target",
    "C41_not_attempted"
   ],
   "note": "Exact characterisation of the three answers of the tool's suitability check."
  },
  {
   "property": "C42",
   "status": "partial",
   "theorems": [
    "C42_tool_partial",
    "C42_tool_other_length",
    "C42_odd_length_refuted",
    "C42_other_owner_refuted",
    "C42_library",
    "C42_packer_partial",
    "C42_packer_second_note_refuted",
    "C42_packer_endless_refuted"
   ],
   "note": "libpulp's walk proved for all well-formed segments; the tool's walk proved for even-length notes of other types; the packer's only for the first note; findings: odd lengths, foreign type-3 notes, packer looks at offset 1 (missed or endless)."
  },
  {
   "property": "C43",
   "status": "partial",
   "theorems": [
    "C43_optouts_partial",
    "C43_missing_library",
    "C43_blocked_refuses",
    "C43_long_path_refuted",
    "C43_optout_hides_error_refuted",
    "C43_exact"
   ],
   "note": "Every list, path, user and group; fnmatch is an oracle. Refuted (out-of-bounds write) for paths of PATH_MAX bytes or unreadable ones when a path list is set; an opt-out also hides start-up errors. C43_exact gives the error state start-up leaves, and exactly when start-up writes outside its buffer."
  },
  {
   "property": "C44",
   "status": "partial",
   "theorems": [
    "C44_parse_and_print",
    "C44_order",
    "C44_malformed_refused_partial",
    "C44_wrapped_component_refuted",
    "C44_exact",
    "C44_pieces_unique"
   ],
   "note": "Parsing, order and printing for all triples; malformed components refused except numbers in [2^32, 2^63), which wrap (refuted). C44_exact says what every text whatsoever gives."
  },
  {
   "property": "C45",
   "status": "partial",
   "theorems": [
    "C45_messages_partial",
    "C45_last_messages_refuted",
    "C45_codes_have_their_messages",
    "C45_errno_codes"
   ],
   "note": "Proved for 256-287; refuted for ENOLIBDL/ENOLIBC (missing comma in the table). strerror is an argument. C45_codes_have_their_messages ties every code a modelled function answers with to its message."
  },
  {
   "property": "C46",
   "status": "proved",
   "theorems": [
    "C46_basename",
    "C46_directory_irrelevant"
   ],
   "note": "All paths."
  },
  {
   "property": "C47",
   "status": "partial",
   "theorems": [
    "C47_faithful",
    "C47_missing_refused",
    "C47_nothing_invented",
    "C47_comments_partial",
    "C47_comments_refuted",
    "C47_reference_crash_refuted",
    "C47_leading_colon_refuted",
    "C47_no_target_refuted"
   ],
   "note": "Replacements, references and dependencies are translated faithfully for every well-formed description, missing symbols are refused, and for every file only existing replacements are recorded. Refuted: comments (an unwritten byte separates comment lines, so two comment lines are never recorded as written), crashes on '#' lines with too few fields, on lines starting with ':' and on a description without target. References and dependencies are recorded in reverse file order."
  },
  {
   "property": "C48",
   "status": "proved",
   "theorems": [
    "C48_references_bound"
   ],
   "note": "References not overlapped by another reference of the same patch; x86_64 (TLS_DTV_OFFSET 0)."
  },
  {
   "property": "C49",
   "status": "partial",
   "theorems": [
    "C49_lookup_partial",
    "C49_missing_library_partial",
    "C49_other_library_refuted",
    "C49_missing_library_refuted",
    "C49_exact"
   ],
   "note": "Refuted for exact name matching (substring match) and for a library that is not loaded when an offset is recorded; proved for the designated object. C49_exact says which address every lookup answers, found or not."
  },
  {
   "property": "C50",
   "status": "partial",
   "theorems": [
    "C50_setup_partial",
    "C50_objcopy_failure_refuted",
    "C50_exec_failure_refuted"
   ],
   "note": "Failures before objcopy starts are reported; findings: objcopy's exit status is never looked at, a failing execv returns twice."
  },
  {
   "property": "C51",
   "status": "partial",
   "theorems": [
    "C51_work_grows_refuted",
    "C51_revert_works_partial",
    "C51_apply_does_not_wear",
    "C51_cycles_break_refuted"
   ],
   "note": "The work of a reversal equals the number of replacements the patch has ever made (detours are never freed), so it grows; while they fit at 40 bytes each a reversal works and leaves libpulp usable; in the end a reversal answered with success leaves the permanent error state (queue overflow). Applying never wears."
  },
  {
   "property": "C52",
   "status": "partial",
   "theorems": [
    "C52_malformed_partial",
    "C52_short_text_refuted"
   ],
   "note": "Texts under 20 characters are refused, 40 hex digits are read; refuted for 20-39 characters (read out of bounds)."
  },
  {
   "property": "C53",
   "status": "proved",
   "theorems": [
    "C53_elf_symbols",
    "C53_merge_prefers_library"
   ],
   "note": "From the symbol tables libelf returns."
  },
  {
   "property": "C54",
   "status": "partial",
   "theorems": [
    "C54_path_unused_partial",
    "C54_first_attempt_partial",
    "C54_clash_hangs_refuted",
    "C54_exact"
   ],
   "note": "A returned path is fresh; refuted: after one clash the loop never ends. C54_exact says exactly when a path is returned."
  },
  {
   "property": "C55",
   "status": "partial",
   "theorems": [
    "C55_selection_partial",
    "C55_root_refuted",
    "C55_uid_zero_refuted",
    "C55_selection_exact"
   ],
   "note": "fnmatch and getpwuid are oracles. Proved without user filter, for numeric uids 1..2^32-1 and for named non-root owners; refuted for root's processes and for uid 0. C55_selection_exact says exactly which entries are selected."
  },
  {
   "property": "C56",
   "status": "partial",
   "theorems": [
    "C56_answer_partial",
    "C56_signal_refuted",
    "C56_exact"
   ],
   "note": "The stop reason is not examined: a signal is taken for the end of the routine (refuted). C56_exact says exactly when the redirected call is reported done."
  },
  {
   "property": "C57",
   "status": "partial",
   "theorems": [
    "C57_reported_has_nops",
    "C57_plain_recognised_partial",
    "C57_endbr_refuted",
    "C57_no_symbols_refuted",
    "C57_exact",
    "C57_power_exact",
    "C57_power_agrees",
    "C57_agrees_partial"
   ],
   "note": "Reported libraries have entry nops; plain functions among the first 8000 symbols are recognised; findings: endbr64 functions never recognised, uninitialised answer without symbols. C57_exact says exactly when a library is recognised. On POWER: C57_power_exact, and C57_power_agrees (tool and libpulp agree on functions not redirected yet); C57_agrees_partial is the x86 half that holds."
  },
  {
   "property": "C58",
   "status": "partial",
   "theorems": [
    "C58_listing_partial",
    "C58_each_shown_partial",
    "C58_only_applied",
    "C58_substring_refuted"
   ],
   "note": "The listing of a process is the specified one for every list of applied livepatches. Exception (refuted): a livepatch whose library name is only part of the loaded file's name is applied but not listed."
  },
  {
   "property": "C59",
   "status": "partial",
   "theorems": [
    "C59_labels_partial",
    "C59_label_at_end_refuted",
    "C59_touching_refuted"
   ],
   "note": "Exact for comments in which each label is followed by a character at which no other label starts. Exceptions (refuted): a label at the very end of the comments (read behind the buffer), touching labels."
  },
  {
   "property": "C60",
   "status": "proved",
   "theorems": [
    "C60_status",
    "C60_unreadable",
    "C60_no_libpulp"
   ],
   "note": "Proved for every error state that libpulp can hold."
  },
  {
   "property": "C61",
   "status": "partial",
   "theorems": [
    "C61_entry_points_partial",
    "C61_all_or_nothing",
    "C61_last_name_refuted"
   ],
   "note": "Proved for every symbol table with distinct names whose string table does not end right behind a name. False without that (C61_last_name_refuted): the tool reads five bytes of each name at once and gives up at a shorter one that ends the mapping."
  },
  {
   "property": "C62",
   "status": "partial",
   "theorems": [
    "C62_all_objects_partial",
    "C62_unreadable_entry_refuted"
   ],
   "note": "Proved for every process with a position-independent main program (see C63) and one libpulp. Exception (refuted): an unreadable list entry ends the list silently."
  },
  {
   "property": "C63",
   "status": "partial",
   "theorems": [
    "C63_main_header_partial",
    "C63_long_name_refuted",
    "C63_slash_blank_refuted"
   ],
   "note": "Proved for paths without blanks and names of at most 15 characters. Exceptions (refuted): longer names; a path in which a slash is followed by a blank."
  },
  {
   "property": "C64",
   "status": "partial",
   "theorems": [
    "C64_free_partial",
    "C64_busy",
    "C64_answers",
    "C64_exact",
    "C64_first_byte_refuted",
    "C64_link_refuted"
   ],
   "note": "Free means free except for the first byte of a mapping; busy means a frame in the hull of the library's mappings. Exceptions (refuted): pc on the first byte; library loaded through a symbolic link. C64_exact says exactly when the answer is free."
  },
  {
   "property": "C65",
   "status": "partial",
   "theorems": [
    "C65_check_partial",
    "C65_answers",
    "C65_error_state_refuted",
    "C65_no_metadata_refuted",
    "C65_oversized_refuted"
   ],
   "note": "The answer is proved for every description and state; refuted: libpulp in an error state answers 'not applied' for an applied patch, an unusable container gives status 1 as if applied, oversized metadata read an uninitialised pointer."
  },
  {
   "property": "C66",
   "status": "partial",
   "theorems": [
    "C66_effect",
    "C66_results_possible",
    "C66_all_processes_partial",
    "C66_uninitialised_refuted",
    "C66_exit_status_refuted",
    "C66_unable_refuted",
    "C66_race_refuted",
    "C66_case_refuted"
   ],
   "note": "The effect is proved for any outcome of any step and any staleness of the state; refuted: uninitialised result when a process cannot be stopped, exit status always 0, 'unable' although changed after a timeout, two tools undo each other, DISABLE not understood."
  },
  {
   "property": "C67",
   "status": "partial",
   "theorems": [
    "C67_report_true",
    "C67_report_complete_partial",
    "C67_silence",
    "C67_unlisted_refuted",
    "C67_label_refuted"
   ],
   "note": "Truth, completeness and silence of the report are proved for all results; refuted: attempts with the same minor error are not listed without summarisation, skippable errors are labelled differently in summary and list."
  },
  {
   "property": "C68",
   "status": "partial",
   "theorems": [
    "C68_dump_partial",
    "C68_patch_offset_refuted",
    "C68_patch_id_refuted",
    "C68_short_build_id_refuted",
    "C68_no_metadata",
    "C68_only_build_id_refuted"
   ],
   "note": "All lines but patch ID and patch offset are proved right for 20-byte build IDs; refuted: the patch offset, the last 12 bytes of the ID, build IDs shorter than 20 bytes, references shown with -b."
  },
  {
   "property": "C69",
   "status": "partial",
   "theorems": [
    "C69_path_partial",
    "C69_long_prefix_refuted"
   ],
   "note": "Proved for prefixes below 4088 bytes; refuted: longer ones overrun a static buffer for processes chrooted into /proc."
  },
  {
   "property": "C70",
   "status": "partial",
   "theorems": [
    "C70_section_exact_partial",
    "C70_answers_partial",
    "C70_not_elf",
    "C70_long_names_refuted",
    "C70_negative_offset_refuted",
    "C70_no_sections_refuted"
   ],
   "note": "Proved for well-formed files whose table of section names has at most 1280 bytes and whose sections lie below 2^63. Refuted: longer tables (comparison with uninitialised bytes), offsets of 2^63 and more (the wrong bytes are returned), files without section headers (a failed assertion puts libpulp into its error state)."
  },
  {
   "property": "C71",
   "status": "partial",
   "theorems": [
    "C71_gdb_equals_tool_partial",
    "C71_same_refusal",
    "C71_long_path_refused",
    "C71_calls_follow_partial",
    "C71_failed_application_refuted",
    "C71_full_buffer_refuted"
   ],
   "note": "Proved for accepted requests (same memory, protections, tables) when the pages are mapped and system calls succeed, and for refused ones (same answer, nothing written). Refuted: after a failed application the tool executes the pending writes and gdb does not; a request exactly filling the buffer is accepted only from gdb."
  },
  {
   "property": "C72",
   "status": "partial",
   "theorems": [
    "C72_protection_partial",
    "C72_unmapped_partial",
    "C72_long_line_refuted",
    "C72_write_sees_protections_partial",
    "C72_unreadable_map",
    "C72_exact"
   ],
   "note": "Proved for maps whose lines are at most 2048 bytes; a longer line ends the search (C72_long_line_refuted). C72_exact says exactly which protection is answered."
  },
  {
   "property": "C73",
   "status": "proved",
   "theorems": [
    "C73_description_to_calls",
    "C73_description_to_references",
    "C73_and_back"
   ],
   "note": "End to end: packer, metadata, tool, libpulp and x86_64 entry code together. Side conditions: 20-byte build id, functions not at offset 0 of their file, metadata and path fit the buffer, memory writes do not fail half-way."
  },
  {
   "property": "C74",
   "status": "proved",
   "theorems": [
    "C74_exactly_once",
    "C74_gives_up_late",
    "C74_first_answer",
    "C74_terminates",
    "C74_write_exact",
    "C74_write_failure",
    "C74_sharing_is_invisible"
   ],
   "note": "Proved for the retry loop around every ptrace request and for writes through it. The other tracer is an arbitrary sequence of free/held answers; only the errors the kernel gives for a held target are modelled."
  },
  {
   "property": "C75",
   "status": "partial",
   "theorems": [
    "C75_obeyed_partial",
    "C75_refused_partial",
    "C75_negative_refused",
    "C75_retries_read",
    "C75_help",
    "C75_no_command",
    "C75_always_checked",
    "C75_option_value_refuted",
    "C75_retries_wrap_refuted",
    "C75_retries_garbage_refuted"
   ],
   "note": "Obeyed and refused are proved for lines whose first command name is the command meant, with long names in full and -r values an int can hold; abbreviated long options are left out. Findings: the option table is chosen by the first word on the line that is a command name, be it an option's value; -r is cut to 32 bits; -r takes a word that only starts with a number."
  },
  {
   "property": "C76",
   "status": "partial",
   "theorems": [
    "C76_tracing_allowed",
    "C76_others_unaffected",
    "C76_seccomp_partial",
    "C76_seccomp_others",
    "C76_seccomp_no_line",
    "C76_trigger_user_refuted",
    "C76_effective_refuted"
   ],
   "note": "Proved for the start of every command and for status files of the kernel's form. Finding: the permitted capabilities are looked at, not the effective ones."
  },
  {
   "property": "C77",
   "status": "partial",
   "theorems": [
    "C77_messages_shown_partial",
    "C77_status",
    "C77_reading_while_logging_partial",
    "C77_reading_while_evicting_refuted",
    "C77_corrupt_queue_refuted",
    "C77_pid_wrap_refuted"
   ],
   "note": "Missing: what C62 leaves out, threads that log while the tool reads, and stopping the process while the buffer is nearly full (refuted: C77_reading_while_evicting_refuted). C77_status is proved in full."
  },
  {
   "property": "C78",
   "status": "partial",
   "theorems": [
    "C78_description_to_request",
    "C78_success_partial",
    "C78_refused",
    "C78_embed_refused",
    "C78_comment_file_refused",
    "C78_other_sections",
    "C78_comment_failure_refuted",
    "C78_half_packed_refuted",
    "C78_objcopy_failure_refuted",
    "C78_disk_full_refuted",
    "C78_temporary_left_refuted",
    "C78_stale_comments_refuted"
   ],
   "note": "Proved: if all stages work, the packed container asks for exactly what the description says (composition of C47, C22, C42, C18, C20 through run_packer); refusals change nothing; only the three sections ever change. The unconditional claims are false: refuted theorems for a failing comment section (exit 0, no reverse section), half-packed containers, objcopy failures, full disks, temporary files, stale comments."
  },
  {
   "property": "C79",
   "status": "partial",
   "theorems": [
    "C79_same_container_partial",
    "C79_debuginfo_partial",
    "C79_no_library",
    "C79_stdout",
    "C79_what_is_a_description",
    "C79_debuginfo_crash_refuted",
    "C79_output_crash_refuted",
    "C79_disk_full_refuted",
    "C79_high_symbol_refuted",
    "C79_foreign_debuginfo_refuted"
   ],
   "note": "Partial: equality of the containers for symbols below 2^31 and a disk that takes the file; json-c is assumed to read back what it printed. Refuted: missing debug information and unopenable outputs crash, a full disk goes unnoticed, symbols from 2^31 on change, foreign debug information is merged."
  },
  {
   "property": "C80",
   "status": "partial",
   "theorems": [
    "C80_log_partial",
    "C80_all_shown_partial",
    "C80_format",
    "C80_stays_in_buffer",
    "C80_error_state",
    "C80_crash",
    "C80_long_text_dropped",
    "C80_reason_arguments_refuted",
    "C80_two_threads_refuted"
   ],
   "note": "Proved for any sequence of calls: texts are printf's, error states as meant, nothing missing while there is room. Refuted: reasons with arguments (a va_list is passed as the argument), threads that log at the same time (shared buffer without lock). Missing: texts of exactly the buffer size (C36)."
  },
  {
   "property": "C81",
   "status": "partial",
   "theorems": [
    "C81_report_partial",
    "C81_selected_partial",
    "C81_pid",
    "C81_hidden_refuted",
    "C81_old_libpulp_refuted",
    "C81_fixed_address_refuted",
    "C81_quiet_refuted",
    "C81_user_refuted",
    "C81_none_refuted"
   ],
   "note": "The text printed is computed from the memory of the processes (models of C34, C55, C57 and C58). Missing: livepatches of a libpulp without times (C81_old_libpulp_refuted), programs at a fixed address (C81_fixed_address_refuted), processes that cannot be stopped (C81_hidden_refuted), -q, -u with a pid, and '(none)' (refuted). The uninitialised answer of C57_no_symbols_refuted is an arbitrary value here; asctime and strerror are arguments."
  },
  {
   "property": "C82",
   "status": "partial",
   "theorems": [
    "C82_transparent_partial",
    "C82_counted",
    "C82_posix_memalign",
    "C82_aligned_alloc",
    "C82_aligned_size_refuted",
    "C82_aligned_zero_refuted",
    "C82_two_allocators_refuted",
    "C82_missing_refuted",
    "C82_valloc_refuted"
   ],
   "note": "Missing: aligned_alloc with a size that is not a multiple of the alignment fails before the constructor has run (C82_aligned_size_refuted), a second allocator (C82_two_allocators_refuted), a linker function that was not found (C82_missing_refuted). The next library and glibc's __libc_* functions are arguments acting on an arbitrary heap; calls are sequential here, their interleavings are C30."
  },
  {
   "property": "C83",
   "status": "partial",
   "theorems": [
    "C83_starts_partial",
    "C83_missing_symbol",
    "C83_once",
    "C83_exit_refuted",
    "C83_crash_refuted",
    "C83_contended_refuted"
   ],
   "note": "Proved for glibc 2.31 and later; older versions make the program exit (C83_exit_refuted), other version strings crash it (C83_crash_refuted), a contended lock disables livepatching (C83_contended_refuted). The structure layouts are computed from include/ld_rtld.h by the System V rules."
  },
  {
   "property": "C84",
   "status": "partial",
   "theorems": [
    "C84_no_bad_free",
    "C84_no_bad_free_ever",
    "C84_out_of_memory",
    "C84_same_request",
    "C84_bounded_partial",
    "C84_leak_refuted",
    "C84_container_refuted",
    "C84_error_code_refuted"
   ],
   "note": "Missing: that nothing is kept. Every request, also a refused one, keeps the structure and its dependencies (C84_leak_refuted); a refused livepatch can leave its container open (C84_container_refuted); lack of memory is reported as an invalid livepatch (C84_error_code_refuted). The allocations of ulp_state_update and ulp_apply_all_units are not modelled here."
  },
  {
   "property": "C85",
   "status": "partial",
   "theorems": [
    "C85_transparent_partial",
    "C85_accounting",
    "C85_stopped_process",
    "C85_lost_refuted",
    "C85_interrupted_refuted",
    "C85_timeout_refuted",
    "C85_late_stop_released",
    "C85_sigcont_refuted",
    "C85_stopped_unpatched_refuted"
   ],
   "note": "Proved when the thread stops only for the attach and at the end of routines, and exactly accounted for otherwise. Missing: a signal taken between attach and its SIGSTOP is lost and leaves the process stopped (C85_lost_refuted); one taken during a routine (C85_interrupted_refuted); a timeout kills the process (C85_timeout_refuted); a pending SIGCONT is discarded (C85_sigcont_refuted); a stopped process is never patched (C85_stopped_unpatched_refuted). The kernel side is a model of ptrace(2) and job control for one thread."
  },
  {
   "property": "C86",
   "status": "partial",
   "theorems": [
    "C86_all_or_nothing_partial",
    "C86_complete",
    "C86_single_request",
    "C86_attaching",
    "C86_killed_refuted",
    "C86_no_survivor_refuted",
    "C86_stopped_refuted",
    "C86_attempt_is_replace"
   ],
   "note": "partial: in every case the process has ended, or its main thread never gets back to its program, or all threads are in their own program with the memory and libpulp as before or as after all requests; so no program runs with half a livepatch. Refuted: that the process goes on (killing the tool after the routine has started kills the process; killing it while it attaches leaves the process stopped until SIGCONT). Assumed: the default action of SIGTRAP, no other signals, one attempt, threads released at once."
  },
  {
   "property": "C87",
   "status": "partial",
   "theorems": [
    "C87_replace_partial",
    "C87_is_trigger",
    "C87_replaced_by_nothing_refuted",
    "C87_not_loaded_refuted"
   ],
   "note": "partial: success means exactly the new state; failure leaves the old state or the state without the library's old patches, never anything else. Refuted: that failure keeps the old patches (a patch that depends on the one it replaces, or that cannot be loaded, is refused only after the old ones are reverted). Assumed: the tool's accesses succeed (C39, C86), side conditions of C01, no error state afterwards (C07)."
  },
  {
   "property": "C88",
   "status": "partial",
   "theorems": [
    "C88_resumes_partial",
    "C88_unredirected",
    "C88_stale_refuted",
    "C88_two_nops_refuted"
   ],
   "note": "Over every history of C01 and every instruction boundary of the entry. False for entries of two one-byte nops (C88_two_nops_refuted): libpulp accepts them, and a thread between the two nops continues in the middle of the jump. A thread stopped on the jump may run a replacement that was in force neither when it was stopped nor now (C88_stale_refuted)."
  },
  {
   "property": "C89",
   "status": "partial",
   "theorems": [
    "C89_newer_untouched",
    "C89_newer_not_stopped",
    "C89_newer_not_executed",
    "C89_supported_served",
    "C89_unreadable_refuted",
    "C89_no_queue",
    "C89_no_queue_refuted"
   ],
   "note": "The routine of the foreign libpulp is an arbitrary function, so nothing is assumed about newer versions. Proved provided the queue was found and its version readable once; refuted otherwise: an unreadable version counts as 0, so the newer libpulp's routine is run and its writes are left pending (C89_unreadable_refuted), and a libpulp whose queue symbol was not found counts as an old one, so a patch is reported as applied although nothing is written (C89_no_queue_refuted)."
  },
  {
   "property": "C90",
   "status": "partial",
   "theorems": [
    "C90_serial_safe",
    "C90_single_safe",
    "C90_threads_safe",
    "C90_threads_clean",
    "C90_no_memory_refuted",
    "C90_leak_refuted",
    "C90_early_end_refuted",
    "C90_main_thread_refuted"
   ],
   "note": "No use after release, no double release, exact leaks: for one process, for all processes without threads, and for every interleaving with the finding thread. Refutations: unchecked calloc, lost buffers, early end of the queue."
  },
  {
   "property": "C91",
   "status": "proved",
   "theorems": [
    "C91_one_at_a_time",
    "C91_as_if_serial",
    "C91_first_come",
    "C91_calls_follow_newest_patch",
    "C91_visit_is_apply",
    "C91_visit_is_replace",
    "C91_order_needed"
   ],
   "note": "Linearizability of several tools: at most one at work, every schedule is equivalent to a serial one with the same answers, refusal only while another tool holds the process, calls follow the newest patch of any tool; the visits are the tool's routines. The side condition that the main thread is listed first is needed only for the progress part (C91_order_needed)."
  },
  {
   "property": "C92",
   "status": "partial",
   "theorems": [
    "C92_as_if_alone_partial",
    "C92_no_other_result_partial",
    "C92_one_answer",
    "C92_crash_own_partial",
    "C92_given_back",
    "C92_descriptors_refuted",
    "C92_leak_refuted",
    "C92_no_memory_refuted"
   ],
   "note": "Each result equals the result alone (as a relation on the request only), no double release, global variable cleared, exact number of files kept, blocks kept only for unreadable livepatches. Partial: needs enough descriptors and memory, because oversized containers keep their file open (refuted), the result of malloc is not tested (refuted) and incomplete items are lost (refuted)."
  },
  {
   "property": "C93",
   "status": "partial",
   "theorems": [
    "C93_terminates_partial",
    "C93_exact_partial",
    "C93_parts",
    "C93_parts_here",
    "C93_trailing_slash_refuted",
    "C93_overrun_refuted",
    "C93_directory_refuted"
   ],
   "note": "Exact set and once-only proved for patterns with a last component, no folder named like a matching livepatch; termination and no overrun for folder paths under 255 characters. Refuted: trailing slash with --recursive never ends; a folder path of 255 characters or more overruns the buffer; a folder named like a livepatch makes a file that is not there be tried."
  },
  {
   "property": "C94",
   "status": "proved",
   "theorems": [
    "C94_first_wrong_line",
    "C94_empty",
    "C94_lines_unique",
    "C94_same_reader",
    "C94_internal_error",
    "C94_shown"
   ],
   "note": "For every file. What is shown is proved for files without NUL bytes. Descriptions on which the packer crashes without a message are C47's findings."
  },
  {
   "property": "C95",
   "status": "proved",
   "theorems": [
    "C95_resumes",
    "C95_visit_succeeds"
   ],
   "note": "Threads stopped in the patchable code of a ppc64le function, over all histories of visits (requests through the queue, carried out by the tool); C95_visit_succeeds shows the visits can happen. Not modelled: that the thread runs while a visit is under way (all threads are stopped then), the rest of libpulp's bookkeeping (the x86_64 LibModel), the trampoline itself (C28)."
  },
  {
   "property": "C96",
   "status": "partial",
   "theorems": [
    "C96_memory_of_a_thread",
    "C96_no_sharing",
    "C96_next_event",
    "C96_mappings_counted",
    "C96_given_back_refuted",
    "C96_cleanup_would",
    "C96_unbounded_refuted",
    "C96_trampoline_call",
    "C96_trampoline_return"
   ],
   "note": "Proved for all histories; the giving back is refuted (C96_given_back_refuted, C96_unbounded_refuted): no code calls pthread_setspecific, so the key's destructor never runs. C96_cleanup_would: the destructor itself is right. Tied to the instruction-level model of C28 by C96_trampoline_call and C96_trampoline_return."
  },
  {
   "property": "C97",
   "status": "partial",
   "theorems": [
    "C97_post_succeeds",
    "C97_refused_unchanged",
    "C97_post_makes_safe",
    "C97_threads_resume",
    "C97_no_symbol_refuted",
    "C97_two_nops_stuck"
   ],
   "note": "Composition of C29 and C88 with the two commands: post succeeds on every compiled library, refused runs leave the file alone, the loaded result meets functions_ok and one_nop, so stopped threads run on in whole instructions. Refuted for listed functions without a symbol (static functions of a stripped library): success is reported, the nops stay two instructions, and a thread between them is stuck in the middle of the jump. The contents of the table are taken as the words the file shows (link-time relocation is not modelled)."
  },
  {
   "property": "C98",
   "status": "partial",
   "theorems": [
    "C98_maps",
    "C98_chosen",
    "C98_visited",
    "C98_served",
    "C98_outcome",
    "C98_threads_same",
    "C98_unreadable",
    "C98_hidden_refuted"
   ],
   "note": "Exact characterisation of the processes worked on proved for all processes, conditions and schedules; the full claim (no process hides others) is refuted: an unreadable first process hides all the others and the command exits 0. C98_outcome gives the exit status and the counts of the whole command."
  },
  {
   "property": "C99",
   "status": "partial",
   "theorems": [
    "C99_dump_exact",
    "C99_recorded_partial",
    "C99_one_line_partial",
    "C99_later_lines_refuted",
    "C99_no_comments_partial",
    "C99_unterminated_refuted"
   ],
   "note": "C99_dump_exact: what dump writes of any section, and exactly when it leaves its buffer. C99_recorded_partial: what a packed container shows, for any memory of the packer; the first line is always there. C99_one_line_partial, C99_no_comments_partial: the claim for descriptions with at most one line. C99_later_lines_refuted: of two or more lines only the first is shown (memory zero before). C99_unterminated_refuted: a section without NUL, or of 4 GiB. Missing: the full claim is false for two or more lines."
  },
  {
   "property": "C100",
   "status": "partial",
   "theorems": [
    "C100_exact",
    "C100_patient_partial",
    "C100_limit_partial",
    "C100_zero",
    "C100_clock_set_refuted",
    "C100_refines",
    "C100_routines_per_command"
   ],
   "note": "Exact outcome of the wait loop for all answers and clock readings; in real time, with a clock nobody sets, the tool waits more than (limit - 1) s and less than limit + one pause; a clock that is set breaks both bounds (refuted). The limit is per routine, not per command."
  },
  {
   "property": "C101",
   "status": "partial",
   "theorems": [
    "C101_reload_partial",
    "C101_revert_footprint",
    "C101_unloaded_still_reported_refuted",
    "C101_stale_write_refuted",
    "C101_reads_unloaded_refuted"
   ],
   "note": "C101_reload_partial: after any history (arbitrary changes of memory included), functions that are in memory with plain entries, not replaced by an applied patch and clear of everything ever replaced, are routed as the log says from then on; partial because functions overlapping an earlier replaced place are excluded. C101_revert_footprint: what a revert may write. The remaining clauses are false and refuted: unloading is not noticed, a stale place is written on a second revert, and it is read on every revert."
  },
  {
   "property": "C102",
   "status": "proved",
   "theorems": [
    "C102_every_process_has_one_life",
    "C102_calls_follow_the_life",
    "C102_child_starts_as_parent",
    "C102_independent",
    "C102_exec_starts_again"
   ],
   "note": "All clauses proved for all systems of processes and interleavings. The functions watched may differ from program to program; the conditions on single events are those of C01."
  },
  {
   "property": "C103",
   "status": "proved",
   "theorems": [
    "C103_newest_patch_runs",
    "C103_listed",
    "C103_same_tables",
    "C103_switch_changes_only_target",
    "C103_refused_changes_nothing",
    "C103_apply_answered",
    "C103_revert_answered"
   ],
   "note": "lib/ulp.c's tables over the POWER redirection routine; symbols arrive resolved, static references and revert-all are the same code as in LibModel and are left out here. C103_same_tables ties the tables to LibModel; what the trampoline does from there is C28."
  },
  {
   "property": "C104",
   "status": "partial",
   "theorems": [
    "C104_only_as_asked",
    "C104_applied_without_filter",
    "C104_not_asked",
    "C104_left_suspended",
    "C104_refused_not_applied",
    "C104_needs_capability",
    "C104_revert_under_filter_refuted"
   ],
   "note": "Proved for all answers; the refuted theorem records that revert-all runs under the filter even with the option. Kernel behaviour (options cleared by attach and detach) is modelled, not derived."
  },
  {
   "property": "C105",
   "status": "proved",
   "theorems": [
    "C105_when",
    "C105_status",
    "C105_report",
    "C105_error",
    "C105_off"
   ],
   "note": "Exact displays for the three coloured outputs; names and messages are assumed to contain no escape character."
  }
 ]
}