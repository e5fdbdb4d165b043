{"id": "C01", "title": "Calls are routed to the newest patch still applied", "statement": "After any sequence of `ulp trigger` applications and reversals that leaves libpulp outside an error state and without pending memory writes, a call to a livepatchable function executes the replacement supplied by the most recently applied patch that replaces it and has not been reverted; if there is none, it executes the function's own original code.", "quantifier": "every sequence of apply/revert requests, every set of patches, every number of overlapping patches on the same function, any revert order", "why_tests_cant": "The number of interleavings of overlapping applications and out-of-order reversals is unbounded; tests try a handful of stacks.", "anchors": ["lib/ulp.c: ulp_apply_all_units, ulp_revert_all_units, push_new_detour, load_patch", "lib/arch/x86_64/patch.c: ulp_patch_addr, ulp_skip_prologue", "tools/introspection.c: apply_patch", "tools/insn_queue.c: insnq_interpret_from_process_"]}
{"id": "C02", "title": "No patch is applied twice", "statement": "At any moment the list of applied patches a process reports contains each patch ID at most once; a request to apply a patch that is already applied is answered with EAPPLIED and changes neither the list nor the code.", "quantifier": "every history of requests with arbitrary (also malformed or repeated) metadata", "why_tests_cant": "It is an invariant over unbounded histories, including histories containing failed operations.", "anchors": ["lib/ulp.c: check_patch_sanity, ulp_get_applied_patch, ulp_state_update, load_patch"]}
{"id": "C03", "title": "Dependencies of applied patches stay applied", "statement": "Every patch listed as a dependency of an applied patch is itself applied: a patch whose dependencies are missing is refused with EDEPEND, and a patch that an applied patch depends on cannot be reverted individually.", "quantifier": "every history of apply/revert requests and every dependency graph", "why_tests_cant": "Needs an invariant over all histories and all dependency graphs.", "anchors": ["lib/ulp.c: check_patch_dependencies, ulp_can_revert_patch, ulp_state_update, ulp_state_remove"]}
{"id": "C04", "title": "Reverting removes exactly one patch", "statement": "A successful revert request removes exactly the patch with the requested ID from the list reported by the process, leaves every other entry and its order unchanged, and leaves the routing of functions that patch did not replace unchanged; apply followed by revert of the same patch restores the previous list and routing.", "quantifier": "every reachable state and every applied patch, whatever its position in the application order", "why_tests_cant": "Tests revert in LIFO order or a few permutations only.", "anchors": ["lib/ulp.c: ulp_revert_patch, ulp_state_remove, ulp_revert_all_units"]}
{"id": "C05", "title": "A patch is only applied to the build it was made for", "statement": "libpulp applies a patch only when a loaded library with the patch's target name carries the build ID recorded in the patch metadata; otherwise it answers EBUILDID and changes nothing.", "quantifier": "every loaded library, every build ID note layout and every metadata build ID", "why_tests_cant": "The space of build IDs and note layouts cannot be enumerated; the existing tests patch only matching libraries through a tool that performs its own check first.", "anchors": ["lib/ulp.c: compare_build_ids, check_build_id, check_patch_sanity"]}
{"id": "C06", "title": "A failed application leaves no trace", "statement": "When a request to apply a patch is answered with an error, the functions of the process keep the routing they had before and the patch is not reported as applied.", "quantifier": "every metadata content, every failure point (parsing, build ID, dependency, dlopen, symbol lookup, non-patchable function, static reference lookup)", "why_tests_cant": "Requires checking every failure point in every state; fault injection covers few of them.", "anchors": ["lib/ulp.c: load_patch, ulp_apply_all_units, ulp_state_update, parse_metadata", "tools/introspection.c: apply_patch"]}
{"id": "C07", "title": "A process in error state refuses every later request", "statement": "Once libpulp reports an error state in a process, every later apply and revert request returns that same error and changes neither the patch list, nor the routing tables, nor the pending memory writes.", "quantifier": "every error state and every later sequence of apply/revert requests", "why_tests_cant": "Unbounded suffixes of requests.", "anchors": ["lib/ulp.c: __ulp_apply_patch, __ulp_revert_patches_from_lib, __ulp_check_applied_patch", "lib/error.c: libpulp_is_in_error_state, set_libpulp_error_state"]}
{"id": "C08", "title": "Revert-all removes exactly the patches of one library", "statement": "`ulp trigger --revert-all=LIB` terminates and, when it succeeds, removes every applied patch that targets LIB and no other patch; it answers ENOPATCH when LIB is loaded but unpatched and ENOTARGETLIB when it is not loaded.", "quantifier": "every reachable patch list, every dependency graph and every library name", "why_tests_cant": "Termination and exactness over all list shapes and dependency graphs.", "anchors": ["lib/ulp.c: revert_all_patches_from_lib, ulp_can_revert_patch, ulp_revert_patch"]}
{"id": "C09", "title": "Enable/disable only toggles the user block", "statement": "`ulp set_patchable` moves a process between 'patchable' and 'blocked by user' only: toggling twice restores the state, no applied patch or routing is altered, and a process in any other error state stays in it.", "quantifier": "every state of the process and any number of toggles", "why_tests_cant": "Quantifies over all states and toggle sequences.", "anchors": ["lib/ulp.c: ulp_enable_or_disable_patching", "tools/set_patchable.c: enable_or_disable_patching"]}
{"id": "C10", "title": "The global universe counter is a faithful clock", "statement": "Every successful apply or revert increases the global universe counter; no request decreases it; and among the patches redirecting one function the one in effect is the one with the largest universe.", "quantifier": "every history of fewer than 2^64 requests", "why_tests_cant": "Invariant over unbounded histories.", "anchors": ["lib/ulp.c: ulp_apply_all_units, ulp_revert_patch, __ulp_get_global_universe_value, push_new_detour"]}
{"id": "C11", "title": "The applied-status query is exact", "statement": "`ulp check` reports a patch as applied if and only if the last successful request about that patch ID was an application and libpulp is not in an error state.", "quantifier": "every history of requests and every queried ID", "why_tests_cant": "Compares the answer with an unbounded request history.", "anchors": ["lib/ulp.c: __ulp_check_applied_patch, ulp_get_applied_patch"]}
{"id": "C12", "title": "Queued memory writes are executed exactly as requested", "statement": "Executing the instruction queue that libpulp produced performs exactly the memory writes libpulp requested, completely, in order, and touches no other byte of the target; the interpreter consumes the whole queue and reports success.", "quantifier": "every sequence of write and print requests with arbitrary addresses, lengths and contents that fits the queue", "why_tests_cant": "Encoding/decoding must agree for all lengths, paddings and contents.", "anchors": ["lib/insn_queue.c: insnq_get_writable_area, insnq_insert_write, insnq_insert_print", "common/insn_queue.c: insnq_interpret", "tools/insn_queue.c: insn_interpret_write"]}
{"id": "C13", "title": "The instruction queue never overflows", "statement": "The queue never holds more than INSN_BUFFER_MAX bytes; a request that does not fit is refused as a whole (queue content unchanged) and puts libpulp into the EINSNQ error state so that the incomplete set of writes is never extended by later requests.", "quantifier": "every sequence of insertions of arbitrary sizes", "why_tests_cant": "Boundary arithmetic over all sizes and histories.", "anchors": ["lib/insn_queue.c: insnq_get_writable_area, insnq_insert_write, insnq_insert_print"]}
{"id": "C14", "title": "Pending writes block new operations", "statement": "While memory writes queued by an earlier operation have not been executed by the tool, no new apply or revert operation starts: the request is refused with an error, and neither the patch list, nor the routing, nor the queue, nor memory changes.", "quantifier": "every queue content and every request", "why_tests_cant": "Crash point property: the tool may die between running libpulp and executing the queue.", "anchors": ["lib/insn_queue.c: insnq_ensure_emptiness", "lib/ulp.c: __ulp_apply_patch, __ulp_revert_patches_from_lib"]}
{"id": "C15", "title": "The queue interpreter is safe on any content", "statement": "Whatever bytes the target process put into the instruction queue, the tool terminates and reads only bytes inside the queue it fetched.", "quantifier": "every byte string as queue content and every header", "why_tests_cant": "Adversarial input space.", "anchors": ["common/insn_queue.c: insnq_interpret, insn_interpret_print", "tools/insn_queue.c: insnq_get_from_remote_process"]}
{"id": "C16", "title": "A failed memory write is reported", "statement": "If writing to the target process fails while executing the queue, the tool reports an error.", "quantifier": "every queue produced by libpulp and every failing write", "why_tests_cant": "All failure positions in all queues.", "anchors": ["tools/insn_queue.c: insn_interpret_write", "common/insn_queue.c: insnq_interpret"]}
{"id": "C17", "title": "Page protections are restored after an in-process write", "statement": "When libpulp executes a queued write itself, exactly the requested bytes change, and every page ends with the protection it had before, whatever pages the write spans.", "quantifier": "every address, length and initial protection map", "why_tests_cant": "All alignments and spans.", "anchors": ["lib/insn_queue.c: insn_interpret_write"]}
{"id": "C18", "title": "Metadata survives packing, extraction and parsing", "statement": "The metadata libpulp parses out of its buffer is exactly the patch the packer described: same type, ID, container path, target name, build ID, functions with addresses, dependencies and static data references, in the same order.", "quantifier": "every well-formed patch description of any size and every container path", "why_tests_cant": "Round-trip over an infinite set of structures.", "anchors": ["tools/packer.c: create_patch_metadata_file", "tools/introspection.c: extract_ulp_from_so_to_mem", "common/common.c: parse_metadata_from_mem"]}
{"id": "C19", "title": "The metadata parser never reads outside its buffer and rejects truncated input", "statement": "For every buffer content and length, parsing terminates, accesses only bytes of the buffer and of its own allocations, and returns an error if the buffer ends before the metadata is complete.", "quantifier": "every byte string", "why_tests_cant": "Adversarial input space.", "anchors": ["common/common.c: parse_metadata_from_mem, read_from_mem"]}
{"id": "C20", "title": "The reverse patch identifies the same patch", "statement": "The reverse metadata generated with a patch parses as a revert request carrying the same patch ID, build ID and target name, so that applying it reverts that patch and nothing else.", "quantifier": "every well-formed patch description", "why_tests_cant": "Round-trip over all descriptions.", "anchors": ["tools/packer.c: write_reverse_patch", "common/common.c: parse_metadata_from_mem", "lib/ulp.c: load_patch"]}
{"id": "C21", "title": "Injecting the container path in memory equals extracting it with the tool", "statement": "Applying a patch from gdb hands libpulp the same metadata bytes the `ulp` tool would hand it for the same path, or fails without touching the metadata buffer or writing beyond it.", "quantifier": "every metadata content and path", "why_tests_cant": "All sizes and boundaries.", "anchors": ["lib/gdb_interface.c: inject_lp_path, gdb_ulp_apply", "tools/introspection.c: extract_ulp_from_so_to_mem"]}
{"id": "C22", "title": "Patch IDs are MD4-based as specified", "statement": "The digest used for the second half of a patch ID is the RFC 1320 MD4 of the description file, for every file length, and computing it never accesses memory outside its buffers.", "quantifier": "every description file content shorter than 2^61 bytes", "why_tests_cant": "Test vectors sample a few lengths only.", "anchors": ["tools/md4.c: MD4", "tools/packer.c: write_patch_id"]}
{"id": "C23", "title": "Extracted library descriptions are lossless", "statement": "Using the JSON file produced by `ulp extract` in place of the ELF library gives the packer the same library name, build ID and symbol list.", "quantifier": "every library name, build ID and symbol list", "why_tests_cant": "Round-trip over all values of all fields.", "anchors": ["tools/extract.c: write_ulp_so_info_json, get_json_symbol, parse_so_json, parse_symbols_json, so_info_equal"]}
{"id": "C24", "title": "Build IDs print and parse faithfully", "statement": "The textual form of a build ID is 40 lower-case hexadecimal digits, distinct build IDs have distinct texts, and reading the text back yields the build ID.", "quantifier": "every 20-byte build ID", "why_tests_cant": "2^160 values.", "anchors": ["common/common.c: buildid_to_string", "tools/extract.c: str_to_buildid"]}
{"id": "C25", "title": "A patched function jumps straight to its replacement", "statement": "After redirection, executing from the function entry (with or without endbr64) transfers control to exactly the replacement address without executing any other instruction of the function, and no byte outside the function's patchable window is modified; disabling the redirection makes the entry fall through to the original body.", "quantifier": "every entry address, replacement address and memory content of a livepatchable function", "why_tests_cant": "2^128 address pairs and all memory contents.", "anchors": ["lib/arch/x86_64/patch.c: ulp_patch_addr, ulp_skip_prologue"]}
{"id": "C26", "title": "Non-livepatchable functions are never touched", "statement": "A request to redirect a function without the nop prologue is refused with ENOPATCHABLE and modifies nothing.", "quantifier": "every memory content at the function entry", "why_tests_cant": "All byte patterns.", "anchors": ["lib/arch/x86_64/patch.c: ulp_patch_addr", "lib/arch/powerpc64le/patch.c: ulp_patch_addr"]}
{"id": "C27", "title": "POWER redirection reaches the prologue area", "statement": "On ppc64le the branch installed at a livepatchable function entry targets exactly the beginning of the area in front of the function where the redirection code is placed, and the code placed there loads exactly the replacement address.", "quantifier": "every function entry, replacement address and both entry layouts (with/without TOC setup)", "why_tests_cant": "All addresses and layouts.", "anchors": ["lib/arch/powerpc64le/patch.c: generate_branch_to_prologue, get_branch_offset, ulp_patch_addr"]}
{"id": "C28", "title": "POWER trampoline returns to the right caller", "statement": "On ppc64le every call through a redirected function returns to its caller with the caller's return address and TOC, for any nesting depth, including when the side stack must grow.", "quantifier": "every properly nested sequence of calls and returns of unbounded depth", "why_tests_cant": "Unbounded recursion depth.", "anchors": ["lib/arch/powerpc64le/ulp_prologue.S: trampoline_routine", "lib/arch/powerpc64le/patch.c: ulp_stack_helper"]}
{"id": "C29", "title": "Post-processing a library only merges entry nops", "statement": "`ulp post` changes at most one byte per patchable function (turning the two one-byte entry nops into one two-byte nop), leaves every other byte of the library unchanged, and is idempotent; functions remain livepatchable.", "quantifier": "every ELF text content, symbol table and patchable-entries table", "why_tests_cant": "All layouts.", "anchors": ["tools/post.c: nops_fixup", "tools/arch/x86_64/post-arch.c: merge_nops_at_addr"]}
{"id": "C30", "title": "Patching never runs while a thread is inside the allocator", "statement": "An apply or revert operation proceeds only if no thread of the process is inside an interposed memory-allocation or dynamic-loading function, and otherwise is answered with EAGAIN; allocation calls never lose their effect on that accounting.", "quantifier": "every number of threads and every interleaving of allocator calls and patch requests", "why_tests_cant": "Scheduler interleavings are unbounded.", "anchors": ["lib/interpose.c: __ulp_asunsafe_trylock, __ulp_asunsafe_unlock, malloc, free, calloc, realloc, dlopen, dlclose", "lib/ulp.c: __ulp_apply_patch"]}
{"id": "C31", "title": "All threads are stopped before patching", "statement": "When hijacking reports success, every thread of the target process is stopped under the tool's control, even if threads are created while the tool is scanning; on failure every thread that was stopped is released.", "quantifier": "every interleaving of the scan with thread creation and termination", "why_tests_cant": "Race with an arbitrary program.", "anchors": ["tools/introspection.c: hijack_threads, restore_threads"]}
{"id": "C32", "title": "Interrupted threads resume with their own registers", "statement": "After the tool has run libpulp routines inside the process, every thread resumes with the register contents it had when it was stopped.", "quantifier": "every number of threads and every sequence of routines run in between", "why_tests_cant": "Arbitrary register contents and routine sequences.", "anchors": ["tools/introspection.c: hijack_threads, restore_threads, apply_patch", "tools/ptrace.c: run_and_redirect"]}
{"id": "C33", "title": "A hijacked call does not disturb the interrupted stack frame", "statement": "The stack pointer given to a routine run in the target is 64-byte aligned and lies at least the red-zone size below the interrupted stack pointer.", "quantifier": "every stack pointer value", "why_tests_cant": "2^64 values.", "anchors": ["tools/ptrace.c: run_and_redirect"]}
{"id": "C34", "title": "Process discovery delivers every process exactly once in order", "statement": "The concurrent process-discovery queue hands every discovered process to the consumer exactly once and in discovery order, never overflows or underflows, and never deadlocks.", "quantifier": "every queue capacity, number of processes and interleaving of the two threads", "why_tests_cant": "All schedules.", "anchors": ["tools/pcqueue.c: producer_consumer_enqueue, producer_consumer_dequeue", "tools/patches.c: generate_ulp_list_thread, process_list_next"]}
{"id": "C35", "title": "The message buffer always shows the newest messages intact", "statement": "What `ulp messages` prints is the concatenation, in order and uncorrupted, of a suffix of the messages libpulp logged, including the newest one; older messages are discarded only whole.", "quantifier": "every sequence of non-empty messages shorter than the buffer", "why_tests_cant": "Wrap-around behaviour depends on unbounded histories of message sizes.", "anchors": ["lib/msg_queue.c: msgq_push, msgq_strpush", "tools/messages.c: msgq_print"]}
{"id": "C36", "title": "Logging always terminates and stays inside the buffer", "statement": "Pushing a message of any size terminates and accesses only the message buffer; empty messages and messages larger than the buffer are dropped.", "quantifier": "every message and every reachable buffer state", "why_tests_cant": "Termination for all states.", "anchors": ["lib/msg_queue.c: msgq_strpush"]}
{"id": "C37", "title": "Remote writes store exactly the given bytes", "statement": "Writing N bytes into the target through ptrace changes exactly those N bytes, for every alignment and length, including lengths that are not a multiple of the word size.", "quantifier": "every length, content, address and previous memory content", "why_tests_cant": "All lengths and contents.", "anchors": ["tools/ptrace.c: write_bytes_ptrace, write_bytes"]}
{"id": "C38", "title": "Remote strings are read exactly", "statement": "Reading a NUL-terminated string from the target yields exactly the bytes before the first NUL, for every length and alignment.", "quantifier": "every memory content and address", "why_tests_cant": "All string lengths; the word-at-a-time NUL test must be exact on all 2^64 words.", "anchors": ["tools/ptrace.c: hasbytezero, read_string_allocated, read_string"]}
{"id": "C39", "title": "Triggering retries and reports faithfully", "statement": "`ulp trigger` on one process retries while the process is busy and at most the requested number of times, stops at the first definitive answer, always releases the threads it stopped, and reports success only if the patch was applied (and the requested revert-all was done).", "quantifier": "every sequence of answers from the target and every retry count", "why_tests_cant": "All answer sequences.", "anchors": ["tools/trigger.c: trigger_one_process"]}
{"id": "C40", "title": "Bulk triggering does not hide failures", "statement": "When triggering many patches or processes, the exit status is non-zero if some patch failed on some process for a reason other than not being relevant there.", "quantifier": "every set of processes, patches and per-process results", "why_tests_cant": "All result combinations.", "anchors": ["tools/trigger.c: trigger_many_processes, trigger_many_ulps, skippable_error"]}
{"id": "C41", "title": "The tool only applies a patch to a process containing its exact target", "statement": "The tool proceeds with a patch only if the process has loaded an object whose base name and build ID both match the patch; it distinguishes 'other build' from 'not loaded' in the answer.", "quantifier": "every list of loaded objects", "why_tests_cant": "All object lists.", "anchors": ["tools/introspection.c: check_patch_sanity"]}
{"id": "C42", "title": "Build-ID notes are found wherever they are", "statement": "The build ID of a loaded object is found in its note segment whatever other well-formed notes precede it.", "quantifier": "every well-formed note segment", "why_tests_cant": "All note layouts and lengths.", "anchors": ["tools/introspection.c: parse_dynobj_elf_headers", "tools/packer.c: get_build_id", "lib/ulp.c: compare_build_ids"]}
{"id": "C43", "title": "User, group and path opt-outs are honoured", "statement": "A process whose path, user or group matches an entry of the corresponding colon-separated opt-out list is put into the user-blocked state at start-up; a process matching no entry is not.", "quantifier": "every opt-out list and every path/user/group", "why_tests_cant": "All lists of patterns.", "anchors": ["lib/interpose.c: maybe_disable_livepatching_on_path, maybe_disable_livepatching_on_user, maybe_disable_livepatching_on_group"]}
{"id": "C44", "title": "libpulp versions are ordered correctly", "statement": "Version strings a.b.c with components up to 65535 are parsed so that numeric comparison of parsed versions is the lexicographic order of the triples, printing a parsed version gives the same triple back, and malformed components are rejected.", "quantifier": "every version string", "why_tests_cant": "All triples and all malformed strings.", "anchors": ["common/common.c: ulp_version_from_string, ulp_version_as_string", "include/ulp_common.h: ULP_VERSION_TRIPLET"]}
{"id": "C45", "title": "Every libpulp error code has its own message", "statement": "Each error code between EUNKNOWN and the last defined code is described by its own dedicated message.", "quantifier": "every error code", "why_tests_cant": "Finite, but nothing ties the message table to the code list.", "anchors": ["include/error_common.h: __ULP_ERRLIST", "common/common.c: libpulp_strerror"]}
{"id": "C46", "title": "Base names ignore directories", "statement": "Comparing libraries by base name is independent of the directory part: the base name of any path is the text after its last slash.", "quantifier": "every path", "why_tests_cant": "All strings.", "anchors": ["common/common.c: get_basename"]}
{"id": "C47", "title": "Description files are translated faithfully", "statement": "The packer turns every line of a well-formed description file into the corresponding replacement, dependency, reference or comment, keeping the order of the replacements, and refuses functions that do not exist in target or container; a malformed line is refused, not mistranslated.", "quantifier": "every description file, symbol table and memory content", "why_tests_cant": "All files.", "anchors": ["tools/packer.c: parse_description, read_comment, add_dependency"]}
{"id": "C48", "title": "Static data references are bound to the running target", "statement": "After a successful application every (non-TLS) static reference of the patch holds the run-time address of the target object (load address plus offset) and every TLS reference holds the target's module id and offset; no other patch data is altered.", "quantifier": "every reference list, load addresses and offsets", "why_tests_cant": "All address combinations.", "anchors": ["lib/ulp.c: ulp_apply_all_units", "lib/symbol_loader.c: get_loaded_library_base_addr, get_loaded_library_tls_index"]}
{"id": "C49", "title": "Symbols are resolved in the named library", "statement": "Resolving a function of the target library yields load address plus symbol value of the first symbol of that exact name in the loaded library of that name, and fails if the library or symbol is missing.", "quantifier": "every list of loaded libraries and symbol tables", "why_tests_cant": "All library lists.", "anchors": ["lib/symbol_loader.c: dl_find_symbol, get_loaded_symbol_addr, get_symbol_by_name"]}
{"id": "C50", "title": "A failing objcopy is reported by the packer", "statement": "If embedding the metadata into the container fails, the packer reports failure.", "quantifier": "every exit status of objcopy", "why_tests_cant": "Depends on an external program's exit statuses.", "anchors": ["tools/elf-extra.c: embed_patch_metadata_into_elf"]}
{"id": "C51", "title": "Repeated apply and revert cycles keep working", "statement": "A patch that is applied and reverted any number of times keeps being applied and reverted: the request answered with success takes effect, and the work needed does not grow with the number of earlier cycles.", "quantifier": "every number of earlier apply/revert cycles", "why_tests_cant": "The number of cycles is unbounded.", "anchors": ["lib/ulp.c: ulp_apply_patch, ulp_revert_patch, actually_patch", "lib/insn_queue.c: insnq_insert_write"]}
{"id": "C52", "title": "Malformed build-ID texts are refused", "statement": "A library description whose build-ID text is not at least 40 hexadecimal digits is refused; reading it never touches memory outside the text.", "quantifier": "every text", "why_tests_cant": "All strings of all lengths.", "anchors": ["tools/extract.c: str_to_buildid, parse_so_json"]}
{"id": "C53", "title": "Library descriptions list exactly the named symbols", "statement": "The description made from an ELF library carries its base name, its build ID and exactly the named entries of its two symbol tables; merging debug information leaves name, build ID and the resolution of the library's own symbols as they were and adds the other symbols.", "quantifier": "every pair of symbol tables and debug information", "why_tests_cant": "All symbol tables.", "anchors": ["tools/extract.c: parse_so_elf, build_symbols_list, get_list_of_symbols_in_section, merge_ulp_so_infos, get_symbol_with_name"]}
{"id": "C54", "title": "Temporary paths are fresh and found", "statement": "When the packer needs a temporary file it is given, whenever an unused candidate comes up, a path that did not exist.", "quantifier": "every sequence of random numbers and every set of existing files", "why_tests_cant": "Depends on random numbers and on other processes.", "anchors": ["common/common.c: create_path_to_tmp_file"]}
{"id": "C55", "title": "Wildcards select exactly the processes asked for", "statement": "When a process-name wildcard and a user (name wildcard or uid) are given, the tool operates on exactly the running processes whose name matches the wildcard and whose owner matches the user, which have libpulp loaded and are not the tool itself.", "quantifier": "every wildcard, user specification and set of running processes", "why_tests_cant": "The set of processes, owners and patterns is unbounded; a test shows only the selection in one situation.", "anchors": ["tools/patches.c: generate_ulp_list_thread, process_list_begin", "common/common.c: get_process_owner, isnumber"]}
{"id": "C56", "title": "A routine's answer is only read after the routine has finished", "statement": "When the tool reports the result of a routine it ran inside the target process, the routine had run to its end and the result is the value it returned.", "quantifier": "every sequence of stops, signals and exits of the thread while the routine runs", "why_tests_cant": "Signals can arrive at any instruction of the routine.", "anchors": ["tools/ptrace.c: run_and_redirect", "tools/introspection.c: apply_patch, patch_applied, read_global_universe"]}
{"id": "C57", "title": "Livepatchable libraries are recognised", "statement": "A library is listed as livepatchable by the tool exactly if it is already patched or has a function with the entry nops libpulp needs.", "quantifier": "every loaded library, symbol table and code bytes", "why_tests_cant": "All symbol tables and code bytes.", "anchors": ["tools/patches.c: is_library_livepatchable", "tools/arch/x86_64/post-arch.c: check_preamble"]}
{"id": "C58", "title": "The list of livepatches in a process is complete and correct", "statement": "Listing the livepatches of a process shows, under each loaded library, exactly the livepatches that are applied to it: each with the container it came from, the time it was applied and the issue labels of its comments; and shows nothing that is not applied.", "quantifier": "every process memory, every number and order of applied livepatches, every set of loaded objects, every comment text", "why_tests_cant": "Depends on the linked list of applied patches in another process's memory, of any length and layout.", "anchors": ["tools/patches.c:print_process", "tools/patches.c:print_lib_patches", "tools/introspection.c:ulp_read_state"]}
{"id": "C59", "title": "Every issue label in a livepatch's comments is listed", "statement": "The bug, feature and CVE labels that occur in the comments of a livepatch are all listed, whole and in order, and nothing else is.", "quantifier": "every comment text", "why_tests_cant": "Texts are unbounded; labels may stand anywhere, touch each other or the end.", "anchors": ["tools/patches.c:print_relevant_labels"]}
{"id": "C60", "title": "The state shown for a process is the one libpulp keeps", "statement": "Listing a process shows it as enabled, as disabled by its user, or as broken with an error code, according to the error state its libpulp keeps.", "quantifier": "every error state and every process", "why_tests_cant": "Error states arise in another process.", "anchors": ["tools/patches.c:print_remote_err_status", "tools/introspection.c:get_libpulp_error_state_remote"]}
{"id": "C61", "title": "libpulp's entry points are found by name", "statement": "In a process with libpulp loaded, the tool finds each of libpulp's entry points at the address its symbol table gives, whatever the order of the symbols and whatever other symbols there are; entry points that the library does not have are recognised as missing; and the version is the one the library announces.", "quantifier": "every symbol table and load address", "why_tests_cant": "The symbol table is in another process's memory; order and number of symbols depend on the linker.", "anchors": ["tools/introspection.c:get_libpulp_extern_symbols"]}
{"id": "C62", "title": "Every loaded object of a process is seen", "statement": "For a process with libpulp loaded and initialised, the tool learns file name, load address, symbol tables and build ID of the main program and of every object in the dynamic linker's list.", "quantifier": "every process image: number and order of objects, program headers, notes and symbol tables", "why_tests_cant": "The linked list and all tables are in another process's memory.", "anchors": ["tools/introspection.c:initialize_data_structures", "tools/introspection.c:parse_libs_dynobj", "tools/introspection.c:parse_dynobj_elf_headers"]}
{"id": "C63", "title": "The header of a position-dependent program is found", "statement": "For a program that is not position independent the tool finds the address of its ELF header from the mappings of the process.", "quantifier": "every list of mappings and every program name", "why_tests_cant": "Mappings and names are chosen by the process.", "anchors": ["tools/introspection.c:get_ehdr_addr"]}
{"id": "C64", "title": "The stack check finds every thread inside the library", "statement": "If the stack check finds no thread inside the library to be patched, then no frame of any thread's stack lies in a mapping of that library; if it finds one, there is such a frame.", "quantifier": "every list of mappings, every number of threads and stack depth", "why_tests_cant": "Stacks are unbounded and change with the schedule.", "anchors": ["tools/introspection.c:coarse_library_range_check", "tools/introspection.c:library_range_detect"]}
{"id": "C65", "title": "ulp check answers whether the patch is applied", "statement": "ulp check ends with status 1 exactly if the live patch in the given container is applied in the process, with 0 exactly if it is not, and with another status if it could not find out.", "quantifier": "every patch description, process state and outcome of every step", "why_tests_cant": "The answer must be right for every state of libpulp and every failure of the many steps before it.", "anchors": ["tools/check.c:run_check", "tools/introspection.c:patch_applied", "lib/ulp.c:__ulp_check_applied_patch"]}
{"id": "C66", "title": "ulp set_patchable switches live patching on and off", "statement": "After ulp set_patchable enable (disable) every process whose libpulp works accepts (refuses) live patches; nothing else changes; processes in an error state stay as they are; what is reported is what happened.", "quantifier": "every list of processes, their states, every outcome of every attempt, and every interleaving of two tools", "why_tests_cant": "Attempts may fail at each step and other tools may run at the same time.", "anchors": ["tools/set_patchable.c:enable_or_disable_patching", "tools/set_patchable.c:run_set_patchable", "lib/ulp.c:__ulp_enable_or_disable_patching"]}
{"id": "C67", "title": "The report of trigger tells what happened", "statement": "Every line trigger prints for a process is true, every patch that was applied and every error that concerns the process is reported exactly once, and a process is left out only if no patch concerned it.", "quantifier": "every sequence of patches and results, with and without summarisation", "why_tests_cant": "The summary depends on all combinations and orders of results.", "anchors": ["tools/trigger.c:print_patched_unpatched"]}
{"id": "C68", "title": "ulp dump shows what is in the patch", "statement": "The lines ulp dump prints for a packed patch are those of its description: IDs, names, functions, addresses, references.", "quantifier": "every patch description and path", "why_tests_cant": "Descriptions are unbounded and a wrong field shows only if values differ.", "anchors": ["tools/dump.c:dump_metadata", "tools/dump.c:run_dump"]}
{"id": "C69", "title": "The target is told where to find the patch", "statement": "libpulp is given the real path of the container behind the user's prefix and, for a process chrooted into /proc, behind the root directory of process 1; the tool itself checks the functions in the container at its own path.", "quantifier": "every prefix, path, process and set of functions", "why_tests_cant": "Prefixes and paths are arbitrary and the buffers are bounded.", "anchors": ["tools/introspection.c:adjust_prefix_for_chroot", "tools/introspection.c:extract_ulp_from_so_to_mem", "tools/introspection.c:check_livepatch_functions_matches_metadata"]}
{"id": "C70", "title": "libpulp reads exactly the live patch section", "statement": "From a well-formed ELF file libpulp's own reader returns the whole content of the first section with the requested name, and an error when there is none or it does not fit; it never returns anything else, and a bad file does no harm.", "quantifier": "every file content, section name and buffer size", "why_tests_cant": "Files are arbitrary byte strings, and the reader's fixed buffers fail only on unusual ones.", "anchors": ["lib/minielf.c:Get_Elf_Section", "lib/minielf.c:Elf_Load_Strtbl", "lib/minielf.c:Elf_Get_Shdr_By_Name"]}
{"id": "C71", "title": "Applying from gdb equals applying with the tool", "statement": "gdb_ulp_apply and gdb_ulp_revert on a live patch file leave the same memory, page protections, patch list and answers as the ulp tool's operation with the same file on the same process.", "quantifier": "every process history, live patch file, path and patch description", "why_tests_cant": "Both paths share no code for reading and executing; they must agree on every patch and history.", "anchors": ["lib/gdb_interface.c:gdb_ulp_apply", "lib/gdb_interface.c:gdb_ulp_revert", "lib/gdb_interface.c:inject_lp_path", "tools/introspection.c:apply_patch"]}
{"id": "C72", "title": "A write sees the real page protections", "statement": "Before it writes to a page, libpulp learns the protection the kernel reports for the mapping that covers it, and learns that the page is unmapped if no mapping covers it, so that the protection it restores afterwards is the one the page had.", "quantifier": "every memory map, address, number of pages and path length", "why_tests_cant": "Memory maps are arbitrary texts of unbounded length, and a wrong protection shows only at the page it concerns.", "anchors": ["lib/insn_queue.c:memory_protection_get", "lib/ulp.c:read_line", "lib/ulp.c:strtoul16"]}
{"id": "C73", "title": "From the description to the running process", "statement": "If a live patch is packed from a description and the tool then reports success on a process, every call of a function the description replaces reaches the replacement it names, every variable it binds holds the address of the target's object, all other functions are called as before, and reverting the patch leads back to the calls and the list of patches before it.", "quantifier": "every well-formed description, every pair of target and container, every process history and every memory layout", "why_tests_cant": "The packer, the metadata format, the tool, libpulp and the patched code must agree on every description and every history; a test checks a few patches in a few states.", "anchors": ["tools/packer.c:parse_description", "tools/packer.c:create_patch_metadata_file", "tools/packer.c:write_reverse_patch", "tools/introspection.c:extract_ulp_from_so_to_mem", "tools/introspection.c:apply_patch", "lib/ulp.c:load_patch", "lib/arch/x86_64/patch.c:ulp_patch_addr"]}
{"id": "C74", "title": "Other tracers delay the tool but do not disturb it", "statement": "When another tracer holds the target for a while, each access of the tool to the target is carried out exactly once or reported as failed with no effect; a write that reports success has written exactly its bytes, one that reports failure a prefix of them; an access is given up only after five seconds of refusals, and always ends if the clock runs; and if the target is let go in time the result is the one without the other tracer.", "quantifier": "every schedule of the other tracer, every clock, every memory, address and buffer", "why_tests_cant": "The schedule of another tracer is arbitrary and a duplicated or lost word shows only for particular interleavings.", "anchors": ["tools/ptrace.c:ulp_ptrace", "tools/ptrace.c:write_bytes_ptrace", "tools/ptrace.c:write_byte"]}
{"id": "C75", "title": "The command line is obeyed or refused", "statement": "For every command line written with options the command offers, in any spelling and order, the command named on it is started with exactly the settings and the argument the line says; a line with an option the command does not offer, too many or missing arguments, contradictory options or numbers out of range is refused and nothing is started; and no command is started with settings that break these rules.", "quantifier": "every command line, of any length, every option spelling and order, every user and Yama setting", "why_tests_cant": "Command lines are unbounded combinations of commands, options, spellings and values; a wrong option table or a dropped check shows only for particular combinations.", "anchors": ["tools/ulp.c:parser", "tools/ulp.c:handle_end_of_arguments", "tools/ulp.c:get_command_from_args", "tools/ulp.c:main"]}
{"id": "C76", "title": "Privileges are checked before a process is touched", "statement": "A command that looks into processes is started only for root, without Yama or when Yama's setting is 0, and is otherwise refused before any process is touched; other commands do not depend on it. A trigger that asks for seccomp to be disabled goes on exactly if the tool has CAP_SYS_ADMIN and is otherwise refused with EPERM.", "quantifier": "every command line, user, Yama setting and status file", "why_tests_cant": "A test runs with the privileges of its user; the property ranges over all users, settings and capability sets.", "anchors": ["tools/ptrace.c:check_ptrace_scope", "tools/ulp.c:requires_ptrace", "tools/trigger.c:check_sys_admin", "tools/trigger.c:run_trigger"]}
{"id": "C77", "title": "ulp messages shows the newest messages of the process, whole, or fails", "statement": "For every process with libpulp, whatever and however much was logged in it, `ulp messages -p PID` ends with status 0 and prints a suffix of the logged messages, whole and in order, ending with the newest; if the argument is not a number, the tool cannot attach, or the queue cannot be read, it ends with status 1 and prints nothing; and if the process is stopped while it logs, the tool prints the messages of before, with or without the new one.", "quantifier": "every process memory, every sequence of logged messages, every argument, every point at which the process is stopped", "why_tests_cant": "The buffer is two megabytes and wraps; a test logs a few messages and never stops the process between two stores.", "anchors": ["tools/messages.c:run_messages", "tools/messages.c:print_message_buffer", "tools/messages.c:msgq_print", "tools/messages.c:get_msgq_address", "lib/msg_queue.c:msgq_strpush"]}
{"id": "C78", "title": "ulp packer turns a description into a container that asks for it", "statement": "If packing a description succeeds (exit status 0), the container asks for exactly the replacements, references and dependencies of the description, against the build ID and name of its target, under an ID made of the build ID of the container and the MD4 of the description; its reverse section asks to revert that same ID; no other section changes and no temporary file is left. If packing fails (exit status 1) the container is as it was.", "quantifier": "every description file, every target and container, every previous content of the container, every failure of temporary files, disk and objcopy", "why_tests_cant": "Tests pack a handful of descriptions in a working environment; the property concerns all descriptions and the failure of every intermediate step.", "anchors": ["tools/packer.c:run_packer", "tools/packer.c:write_patch_id", "tools/packer.c:write_reverse_patch", "tools/packer.c:create_patch_metadata_file", "tools/elf-extra.c:embed_patch_metadata_into_elf", "common/common.c:create_path_to_tmp_file"]}
{"id": "C79", "title": "packing against an extracted description equals packing against the library", "statement": "ulp extract writes a description of a library against which every description file is packed, or refused, exactly as against the library itself; with debug information, whatever could be packed before is packed to the same container; if the library, its debug information or the output cannot be used, the tool says so and exits with 1; exit status 0 means the output is complete.", "quantifier": "every library and debug information, every description file, every failure of the file system", "why_tests_cant": "The test suite compares a few libraries; the equality must hold for every description packed later, on another machine, without the library.", "anchors": ["tools/extract.c:run_extract", "tools/extract.c:ulp_so_info_open", "tools/extract.c:merge_ulp_so_infos", "tools/extract.c:write_ulp_so_info_json", "tools/extract.c:parse_so_json", "tools/packer.c:run_packer"]}
{"id": "C80", "title": "What libpulp logs is what it reports", "statement": "Every message libpulp logs appears in its log as printf's expansion of the given format and arguments, preceded by a time stamp for warnings and by file, function and line for errors; reporting an error leaves the corresponding error state and nothing else does; as long as all messages fit into the buffer none is missing; this holds whichever threads report.", "quantifier": "every sequence of calls that write to the log, every format and argument, every interleaving of threads", "why_tests_cant": "Tests look at a few messages of one thread; formats, arguments, buffer positions and schedules are unbounded.", "anchors": ["lib/msg_queue.c:msgq_push", "lib/msg_queue.c:msgq_vpush", "lib/msg_queue.c:ulp_warn", "lib/error.c:set_libpulp_error_state_with_reason_func", "lib/error.c:libpulp_errx_func", "lib/error.c:libpulp_assert_func", "lib/error.c:libpulp_exit_func"]}
{"id": "C81", "title": "The report of ulp patches", "statement": "ulp patches prints, for every process asked for and for no other, in the order of /proc, one entry: its pid and name, its state, and one line for each object that has a livepatch or a livepatchable function, followed by exactly the livepatches applied to it with container, time of loading and bug labels; options add build IDs or leave out processes without livepatches; with a pid the exit status tells whether the process could be read.", "quantifier": "every set of processes, every memory contents of the processes, every list of applied livepatches and of loaded objects, every combination of options", "why_tests_cant": "Tests look at a few processes with one or two livepatches; the state of the processes, the number of objects, livepatches and symbols, and what cannot be read are unbounded.", "anchors": ["tools/patches.c:run_patches", "tools/patches.c:print_process", "tools/patches.c:print_lib_patches", "tools/patches.c:print_remote_err_status", "tools/patches.c:is_library_livepatchable", "tools/patches.c:process_list_begin", "tools/ulp.c:change_color"]}
{"id": "C82", "title": "Interposed memory and linker functions are transparent", "statement": "A program with libpulp in it gets from malloc, free, calloc, realloc, valloc, pvalloc, memalign, aligned_alloc, posix_memalign, dlclose, dladdr, dladdr1 and dlinfo exactly the answers it would get from the C library alone, for any sequence of calls and wherever among them libpulp's constructor runs; while a real function runs the call is counted, and afterwards the counter is what it was.", "quantifier": "every sequence of calls with any arguments, every position of the constructor among them, every C library and heap, every set of functions found", "why_tests_cant": "Tests run with one C library, and hardly any call is made before the constructor; arguments, orders and missing functions are unbounded.", "anchors": ["lib/interpose.c:malloc", "lib/interpose.c:free", "lib/interpose.c:aligned_alloc", "lib/interpose.c:posix_memalign", "lib/interpose.c:valloc", "lib/interpose.c:dlclose", "lib/interpose.c:dladdr1", "lib/interpose.c:dlinfo"]}
{"id": "C83", "title": "Start-up never stops the program", "statement": "A program with libpulp in it starts whatever its C library is; libpulp then either knows every function it needs and the two locks of the dynamic linker, for the layout of the glibc version in use, or is in an error state that disables livepatching; starting again changes nothing.", "quantifier": "every glibc version string, every set of functions found, every address and contents of the linker's data, every environment", "why_tests_cant": "Tests run with the one C library installed; versions, layouts and missing symbols cannot be enumerated there.", "anchors": ["lib/interpose.c:__ulp_asunsafe_begin", "lib/symbol_loader.c:get_ld_global_locks", "include/ld_rtld.h", "lib/error.c:libpulp_crash"]}
{"id": "C84", "title": "A patch request takes no memory it does not give back and survives running out of memory", "statement": "Whatever the request and whichever allocation fails while it is read, the target program frees nothing twice and nothing it does not hold; a request during which memory runs out is refused, changes nothing and opens nothing; after a request the memory it took to read the livepatch is given back, but for one block and one per dependency.", "quantifier": "every request buffer, every heap, every point at which allocations fail, every sequence of requests", "why_tests_cant": "Allocation failures can strike at any of the calls of a request of any shape, and leaks show only over histories.", "anchors": ["common/common.c:parse_metadata_from_mem", "common/common.c:free_metadata", "lib/ulp.c:load_metadata", "lib/ulp.c:unload_metadata", "lib/ulp.c:load_patch"]}
{"id": "C85", "title": "Attaching to a process loses no signal and leaves none behind", "statement": "Every tool command attaches to threads of the target, possibly runs routines there and releases them. The process receives exactly the signals sent to it, in the order it would have without the tool, and runs (or stays stopped) afterwards as before.", "quantifier": "every interleaving of attach, stop, routine, release and tool exit with signals sent to and taken by the thread, any number of times, whether the process runs or is stopped by job control", "why_tests_cant": "The outcome depends on which signal the kernel takes between two system calls of the tool; tests do not control that.", "anchors": ["tools/ptrace.c:attach", "tools/ptrace.c:detach", "tools/ptrace.c:run_and_redirect", "tools/introspection.c:restore_threads", "tools/introspection.c:initialize_data_structures", "lib/arch/x86_64/ulp_interface.S"]}
{"id": "C86", "title": "The tool dying in the middle of a patch", "statement": "Whenever the tool dies while it patches a process (it is killed, or the user presses ^C), the process goes on running its program, and the requests (reverting a library's livepatches, applying a livepatch, or one after the other) have either not been carried out at all or completely: no thread ever runs its program with part of the writes made.", "quantifier": "every process and set of threads, every list of requests, every point between two actions of the tool at which it dies", "why_tests_cant": "the points at which the tool may die are as many as the single words it writes, and which of them a test hits is a matter of scheduling; a half-written jump is executed only by a thread that happens to call the function then", "anchors": ["tools/trigger.c:trigger_one_process", "tools/introspection.c:apply_patch", "tools/introspection.c:revert_patches_from_lib", "tools/insn_queue.c:insnq_interpret_from_remote_process", "tools/ptrace.c:run_and_redirect", "tools/ptrace.c:attach"]}
{"id": "C87", "title": "Replacing a library's livepatches is all or nothing", "statement": "When the user replaces the livepatches of a library by a new one in one command (`ulp trigger --revert-all=LIB PATCH`), then, if success is reported, calls in the process go to the new patch first and otherwise where they went without the library's old patches, and exactly the new patch and the old patches of other libraries are listed; if failure is reported, the old patches are still applied and in effect.", "quantifier": "every process with any history of livepatching, every library and patch, any number of attempts with anything the program does in between", "why_tests_cant": "the outcome depends on the whole history of the process, on the dependencies between its patches, and on at which of the attempts the process can be patched", "anchors": ["tools/trigger.c:trigger_one_process", "tools/introspection.c:revert_patches_from_lib", "tools/introspection.c:apply_patch", "lib/ulp.c:revert_all_patches_from_lib", "lib/ulp.c:load_patch"]}
{"id": "C88", "title": "A thread stopped at the entry of a function goes on safely", "statement": "The tool may stop a thread at any instruction, also inside the entry of a function that is about to be redirected, or on the jump of a redirection that is about to be changed or removed. Whatever livepatches are applied and reverted before the thread goes on, it executes only whole instructions of the entry and ends up in the function that calls go to now; the only exception is a thread that was stopped on the jump of a redirection that has been removed since, which may still run a replacement that was applied in the meantime or when it was stopped. It never continues in the middle of an instruction.", "quantifier": "every livepatchable function whose entry was merged into one nop by the tool's post command, with or without endbr64, every instruction of the entry the thread can be stopped at, every history of applications and reverts before and after the stop", "why_tests_cant": "a test stops threads in blocking calls, not between the instructions of a function entry; the interleaving of one thread's two or three instructions with a patch is practically never hit", "anchors": ["lib/arch/x86_64/patch.c:ulp_patch_addr", "lib/arch/x86_64/patch.c:ulp_patch_prologue_layout", "lib/ulp.c:ulp_revert_patch", "tools/post.c:merge_nops_at_addr", "tools/introspection.c:hijack_threads"]}
{"id": "C89", "title": "The tool does not touch a libpulp it does not understand", "statement": "A process whose libpulp uses an instruction queue newer than the tool's is left alone: every request to patch or revert is answered with EOLDULP, the process is not stopped and no routine of libpulp is run, for any number of requests, even if the version is readable only the first time. Writes queued in a newer format are never executed and never reported as success. A libpulp that is not newer is never refused for its version.", "quantifier": "every version of the queue, every sequence of requests, every routine the foreign libpulp may have, every failure of reading the version or the queue", "why_tests_cant": "tests run tool and library of the same build; a newer library does not exist when the tool is tested, and its behaviour is arbitrary", "anchors": ["tools/insn_queue.c:insnq_get_version", "tools/insn_queue.c:insnq_check_compatibility", "tools/insn_queue.c:insnq_get_from_remote_process", "tools/trigger.c:trigger_one_process", "tools/introspection.c:apply_patch", "tools/introspection.c:revert_patches_from_lib"]}
{"id": "C90", "title": "The tool never uses memory it has released, and releases what it allocates", "statement": "Whatever the processes answer, in whatever order they are found and worked on, and however often threads cannot be stopped, the tool never reads, writes or releases a block that it has already released, never releases one twice, and never takes one kind of block for another. When a command is through, every block it allocated for the processes was released, except for exactly the ones lost when the program headers or an entry of the link map cannot be read.", "quantifier": "every list of processes, every answer of each process to being inspected, every list of threads in every pass, every failure of attach, get_regs and calloc for threads, every sequence of commands on a process, every interleaving of the finding thread and the command", "why_tests_cant": "a use after free usually goes unnoticed in a run, and it depends on the failing answer, the retry and the schedule", "anchors": ["tools/introspection.c:release_ulp_process", "tools/introspection.c:release_ulp_thread", "tools/introspection.c:release_ulp_dynobj", "tools/introspection.c:release_trigger_results", "tools/introspection.c:initialize_data_structures", "tools/introspection.c:hijack_threads", "tools/introspection.c:restore_threads", "tools/patches.c:insert_target_process", "tools/patches.c:process_list_end", "tools/trigger.c:trigger_one_process"]}
{"id": "C91", "title": "Several tools at one process do not get in each other's way", "statement": "When several ulp commands work on the same process at the same time, at most one of them is at work at any moment, and whatever the schedule the process ends up as if the commands that got in had come one after the other, each with the answers it reported; a command that was refused has changed nothing. A command is refused only while another one holds the process, so among commands competing for a process the first one always gets in, and calls go to the replacement that was applied last, by whichever command.", "quantifier": "every number of tools, every sequence of visits of each, every interleaving of their attaching, acting and detaching with each other and with the program", "why_tests_cant": "the outcome depends on the interleaving of independent processes at every system call; a test sees a few schedules", "anchors": ["tools/introspection.c:hijack_threads", "tools/introspection.c:restore_threads", "tools/introspection.c:initialize_data_structures", "tools/ptrace.c:attach", "tools/trigger.c:trigger_one_process"]}
{"id": "C92", "title": "Many livepatches for many processes: none affects another", "statement": "When one command works through many livepatches and many processes, each livepatch has for each process exactly the result it would have had alone: nothing that was read of an earlier livepatch, valid or not, is left in the tool. The tool never releases memory twice or memory it does not own, a crash can only come from a container that makes the tool crash alone, and what was taken for a livepatch - memory and open files - is given back before the next one.", "quantifier": "every sequence of requests, every container file and section contents, every point at which reading it fails, every failing allocation, every limit on open files", "why_tests_cant": "the state carried from one livepatch to the next depends on where reading the earlier one stopped; leaks show only after many requests", "anchors": ["tools/trigger.c:trigger_one_process", "tools/trigger.c:trigger_many_ulps", "tools/introspection.c:extract_ulp_from_so_to_mem", "tools/introspection.c:load_patch_info_from_mem", "tools/introspection.c:release_ulp_global_metadata", "tools/elf-extra.c:load_elf", "tools/elf-extra.c:get_elfscn_by_name", "common/common.c:parse_metadata_from_mem"]}
{"id": "C93", "title": "A pattern stands for exactly its livepatches", "statement": "Given a pattern, `ulp trigger` tries exactly the files of the pattern's folder (and, with --recursive, of all its subfolders) that end in .so, match the pattern and have a path that fits the tool's limit; each is tried once; the search ends, whatever links the folders contain, and never writes past its buffer.", "quantifier": "every pattern, every tree of folders and files (including links that lead back), every matching function, recursive or not", "why_tests_cant": "A test sees a few trees; that no tree makes the search endless, overrun its buffer, or miss or repeat a file is a claim over all trees and path lengths.", "anchors": ["tools/trigger.c:trigger_many_ulps", "common/common.c:get_basename"]}
{"id": "C94", "title": "A wrong description is reported where it is wrong", "statement": "When `ulp packer` refuses a description, the line and column in its message are those of the first thing that is wrong: the lines before are in order, the lines after make no difference, what the message says of the line is so (the file cannot be opened, the symbol is missing from that library, the separator is missing), and the excerpt shown below is that line, with the missing symbol underlined.", "quantifier": "every description file (any bytes), every file system, all libraries and overrides", "why_tests_cant": "Tests compare a few messages; that the position is right for every description, wherever comments, empty lines, dependencies and earlier entries are, is a claim over all files.", "anchors": ["tools/packer.c:parse_description", "tools/packer.c:parse_error", "tools/packer.c:segfault_handler"]}
{"id": "C95", "title": "POWER: a stopped thread in the patchable code goes on correctly", "statement": "On ppc64le, a thread that has called a livepatchable function and is stopped anywhere in its patchable code (the one instruction at the entry, or the thirteen words in front of the function) goes on with whole instructions of that code only, whatever livepatches are applied and reverted before it goes on: if calls of the function go to a replacement now, it enters exactly this replacement, with its arguments, return address and saved registers as its caller left them; if calls go to the function itself now, it enters the body if it was stopped at the entry; only a thread that was already in front of the function still enters the replacement that was installed last.", "quantifier": "every set of livepatchable functions (with or without TOC setup), every history of visits of the tool before and after the thread is stopped, every function, every point of its patchable code, every register contents, every trampoline address", "why_tests_cant": "a test would have to stop a thread at each of twelve instructions and go through every history of applications and removals; on POWER the area is left in place when a livepatch is reverted, so that what a thread does depends on the whole history", "anchors": ["lib/arch/powerpc64le/patch.c: ulp_patch_addr, ulp_patch_prologue_layout, ulp_skip_prologue, ulp_patch_addr_trampoline, get_branch_offset", "lib/arch/powerpc64le/ulp_prologue.S: ulp_prologue", "lib/ulp.c: ulp_apply_all_units, ulp_revert_all_units", "tools/insn_queue.c: insnq_interpret_from_process"]}
{"id": "C96", "title": "The memory POWER redirection uses belongs to one thread each, is bounded by that thread's nesting, and is given back when the thread ends", "statement": "On POWER, calls of patched functions keep their return addresses in memory libpulp maps for each thread. A thread that makes no redirected call gets none; otherwise it has one mapping with room for its deepest nesting and at most two pages more than twice of what that needed. Mappings of two threads never overlap, libpulp never unmaps memory that is not its own, and a redirected call ends the process only when the kernel has no memory. When a thread ends, its mapping is given back. The last sentence is false of the code: the destructor that would do it is never armed, so every thread that made a redirected call leaves its mapping behind for the life of the process.", "quantifier": "all histories of threads starting, calling redirected functions, returning and ending, in any interleaving, all page sizes, all answers of the kernel that give free memory", "why_tests_cant": "The bound, the separation and the leak are about every interleaving of any number of threads; a test sees a few threads, and a leak of two pages per thread shows in no test result.", "anchors": ["lib/arch/powerpc64le/patch.c: ulp_stack_helper, ulp_stack_cleanup, ulp_pthread_key_init, ulp_key", "lib/arch/powerpc64le/ulp_prologue.S: trampoline_routine, ulp_stack"]}
{"id": "C97", "title": "`ulp post` makes a compiled library safe to livepatch in running processes", "statement": "For every library as compiler and linker deliver it (a table of livepatchable functions; each listed function with its one-byte entry nops, behind an endbr64 or not), `ulp livepatchable` says yes, and `ulp post` succeeds and writes the same file with exactly the entry nops of the listed functions merged; a run that is refused leaves the file as it was. Loaded anywhere, every function of the result is one the library can redirect, its entry is a single instruction, and a thread stopped anywhere at that entry runs on in whole instructions after livepatches were applied or reverted. This fails for listed functions without a symbol in the file: `ulp post` reports success without touching them, and a thread stopped between their two nops goes on in the middle of the new jump.", "quantifier": "all libraries (sections, symbols, tables of any size), load addresses, histories of applications and reverts, and positions of a stopped thread", "why_tests_cant": "The claim joins every possible library file with every history of livepatches and every place a thread can be stopped at; a test runs one library and never stops a thread between two one-byte instructions on purpose.", "anchors": ["tools/post.c: run_post, nops_fixup, find_section_by_name", "tools/livepatchable.c: run_livepatchable", "tools/arch/x86_64/post-arch.c: merge_nops_at_addr", "lib/arch/x86_64/patch.c: ulp_patch_addr"]}
{"id": "C98", "title": "Which processes a command works on, from what /proc shows of them", "statement": "A process counts as one with libpulp exactly if its memory map shows a file whose path contains libpulp.so. Of the processes passing the user's conditions, a command works, once per such process and in the order of /proc, on the last one up to there it could look into, the same with and without the discovery thread under every schedule; so it reaches every process it can look into exactly if it can look into the first one. A process it cannot attach to, and one that has such a file mapped without having loaded it as a library, cannot be looked into. The claim a user wants, that every process that can be looked into is worked on, fails: if the first one cannot, no process is, and the command reports success.", "quantifier": "all processes and their memory maps and memories, all conditions of the user, all schedules of the two threads", "why_tests_cant": "It depends on the order and condition of all processes on the machine, including ones being debugged, exiting or merely mapping a file with such a name; test suites run one prepared process.", "anchors": ["tools/patches.c: libpulp_loaded, has_libpulp_loaded, insert_target_process, process_list_next, process_list_thread", "tools/patches.h: FOR_EACH_ULP_PROCESS_FROM_WILDCARD", "tools/introspection.c: initialize_data_structures, parse_libs_dynobj", "tools/trigger.c: trigger_many_processes"]}
{"id": "C99", "title": "The comments of a description reach the user", "statement": "After ulp packer succeeded on a description, ulp dump on the container writes all comment lines of the description, whole and in order, and ulp patches lists the labels (bsc#, jsc#, CVE-) in them; without comments nothing is shown; and showing the comments of any container stays inside the section.", "quantifier": "for all descriptions, all contents of the packer's uninitialised memory, all containers and contents of the comment section", "why_tests_cant": "What is shown depends on memory the packer did not initialise and on the lengths of all lines; a test sees one memory image, and containers from other tools have arbitrary sections.", "anchors": ["tools/packer.c: read_comment, run_packer", "tools/patches.c: extract_ulp_comment_to_mem, print_relevant_labels", "tools/dump.c: dump_ulp_comments, run_dump"]}
{"id": "C100", "title": "The time limit of a command is kept", "statement": "A routine started in a thread of the target is waited for as long as --timeout says (200 s unless given): if the thread stops within the limit the answer is taken, a thread that ended is reported as an error, and if neither happens the tool gives up with the error for time-outs when the limit has passed and not before. The waiting never outlasts the limit by more than one pause between two looks, and a limit of 0 means exactly one look. The limit is per routine: for one process and one patch the tool starts at most as many routines as there are attempts, and one more if it reverts first.", "quantifier": "for all limits, all answers of waitpid, all times at which the tool looks, and all readings of the system clock", "why_tests_cant": "The outcome depends on when, within a second, the waiting starts, on the scheduling of the tool and on changes of the system clock, at every look of an unbounded loop.", "anchors": ["tools/ptrace.c: run_and_redirect, set_run_and_redirect_timeout, rr_timeout", "tools/ulp.c: ULP_OP_TIMEOUT", "tools/trigger.c: options (--timeout)"]}
{"id": "C101", "title": "Livepatching survives libraries that come and go", "statement": "A program may unload and load libraries while livepatches are applied or after they were reverted. A library that is loaded (again) can be patched and its calls are routed exactly as the requests say, whatever happened in the process before; a revert writes only to functions its patch replaced; what libpulp reports about a patch stays true when its library is unloaded, and no request reads or writes memory that no longer belongs to a patched library.", "quantifier": "for all processes, all histories of requests, executions and arbitrary changes of the memory by the program, all sets of functions and all addresses at which libraries are loaded", "why_tests_cant": "It depends on every interleaving of loading, unloading, applying and reverting, on the addresses the loader happens to choose, and on what is placed where a library used to be.", "anchors": ["lib/ulp.c: ulp_apply_all_units, ulp_revert_all_units, ulp_revert_patch, ulp_state_remove, load_patch", "lib/arch/x86_64/patch.c: ulp_patch_addr", "lib/interpose.c: dlclose"]}
{"id": "C102", "title": "Children inherit livepatches and go their own way", "statement": "A forked child has exactly the livepatches its parent had at the fork: its calls are redirected the same way and libpulp reports the same patches in it. From then on what is done to the one does not change the other. In every process of a tree of forks, at any time, calls go where the newest patch says that was applied, and not reverted, in that process or in an ancestor before the fork; a process that executes another program starts without livepatches.", "quantifier": "for all systems of processes, all interleavings of requests, forks, execs and exits, all programs and all sets of functions", "why_tests_cant": "The tree of processes and the order of requests and forks in it are unbounded.", "anchors": ["lib/ulp.c: __ulp_state, __ulp_root, __ulp_global_universe", "lib/insn_queue.c: __ulp_insn_queue", "lib/error.c: __ulp_error_state", "lib/interpose.c: flag"]}
{"id": "C103", "title": "On POWER calls go to the newest applied livepatch", "statement": "On ppc64le, after any sequence of applied and reverted livepatches, user blocks and program steps, unless libpulp has given up and once no write is pending, execution from the patchable instruction of a function goes through the area in front of the function to the trampoline with the replacement of the newest livepatch that is applied and replaces that function, or on into the function itself if there is none; the instructions before it (TOC setup) are untouched; the livepatches listed are the applied ones. Going from one replacement to another rewrites only the address of the replacement, so that a thread stopped in the redirection code carries on in the same instructions. A livepatch with a unit is applied exactly when all its dependencies are applied, it is not applied itself, every replacement has been found and its writes fit in the instruction queue; it is reverted exactly when it is applied and no applied livepatch depends on it; a refused request leaves memory and tables as they were.", "quantifier": "for all histories of requests, all sets of livepatchable functions with or without TOC setup, all memory contents and register values", "why_tests_cant": "The order of applications and reversals, the number of livepatches of a function, and the state of the registers when it is called are unbounded.", "anchors": ["lib/ulp.c: ulp_apply_all_units, ulp_revert_all_units, ulp_revert_patch, __ulp_apply_patch", "lib/arch/powerpc64le/patch.c: ulp_patch_addr", "lib/arch/powerpc64le/ulp_prologue.S: ulp_prologue"]}
{"id": "C104", "title": "Seccomp filters are suspended only when asked and come back", "statement": "The trigger command suspends the system call filter of a thread of a target only if --disable-seccomp was given and the tool has CAP_SYS_ADMIN, only of the main thread, and only while that thread runs libpulp's routine that applies a livepatch; whatever is answered in between and however many attempts are made, once the tool is done with a process every thread is released with its filter in force (a filter can stay suspended only if the kernel refuses to detach from that thread). With the option the applying routine never runs under the filter; if the kernel does not allow the suspension, the routine is not run and the livepatch is not reported as applied. Without the option no filter is ever suspended.", "quantifier": "for all sequences of processes and livepatches, numbers of retries, sets of threads, and answers of the kernel and of libpulp in every attempt", "why_tests_cant": "The test suite applies one livepatch to one process; the claim is about every combination of failures, retries and threads, and about what is left behind on each path.", "anchors": ["tools/ptrace.c: disable_seccomp, detach", "tools/introspection.c: apply_patch, revert_patches_from_lib, hijack_threads, restore_threads", "tools/trigger.c: trigger_one_process, run_trigger, check_sys_admin"]}
{"id": "C105", "title": "Colours only where wanted, and the same text without them", "statement": "Colour sequences are written exactly when the last --color option asks for them, or, with --color=auto or without the option, when NO_COLOR is unset, the output is a terminal and TERM is set and not 'dumb'. A terminal that interprets the sequences shows for the status lines of `patches`, the report of `trigger` and the error messages of `packer` exactly the characters that are written without colours, with the result in green, yellow or red according to success, skipping or failure, the wrong part of a description and the carets below it in red, everything else in the normal look, and is back in its normal state afterwards.", "quantifier": "for all environments and sequences of options, all error codes, result lists, names, descriptions, positions and messages free of escape characters", "why_tests_cant": "The combinations of results, names and positions are unbounded; the tests run without a terminal and never see a colour.", "anchors": ["tools/ulp.c: check_color_available, change_color, parser, main", "tools/trigger.c: print_patched_unpatched", "tools/packer.c: parse_error", "tools/patches.c: print_remote_err_status", "include/terminal_colors.h"]}
