{
 "C12": "Encoder of lib/insn_queue.c and interpreter of common/+tools/insn_queue.c at byte level; ptrace reads/writes assumed to succeed.",
 "C13": "Every list of requests; stores never leave the buffer; refusal leaves the queue unchanged and sets EINSNQ.",
 "C15": "Refuted for arbitrary bytes (write length and negative sizes are not checked). Proved: contents that are sequences of complete instructions are executed within the fetched bytes; contents with an unknown opcode or a wrong total size after complete instructions are reported, within the fetched bytes.",
 "C16": "Refuted: a failed write moves the interpreter one byte back and it can end successfully; proved when the failing write is the last one, and for failures to fetch or reset the queue.",
 "C17": "Proved for mapped spans and working mprotect; refuted at the end of a mapping and when restoring fails.",
 "C35": "Every list of messages except ones whose size equals the buffer size (see C36); buffer size as in the code.",
 "C36": "Refuted for a message of exactly MSGQ_BUFFER_MAX bytes with terminator (endless loop); proved for all others.",
 "C18": "Packer bytes -> path injection by the tool -> parser, all descriptions within the size limits; oversize is refused.",
 "C19": "Termination proved for all bytes. Memory safety proved unless a length field is 0xffffffff (heap overrun, refuted). Truncation rejected for apply patches; refuted for reverse patches.",
 "C20": "Parsing, and the effect of the parsed request on the patch list.",
 "C21": "Proved for sections of at least 33 bytes; shorter sections make the gdb interface move a negative length (refuted).",
 "C25": "x86_64; byte-exact trampoline and an operational reading of the two jump encodings.",
 "C26": "x86_64: refused and unchanged when neither the nop slot nor a patched slot is found; refuted for functions starting with a short jump to -14, which are taken for patched ones. C26_exact says exactly what is accepted. C26_power_neighbour_refuted: on POWER one nop is enough to be accepted, and the 52 bytes in front are overwritten whatever they are.",
 "C01": "All histories of apply/revert/revert-all/set_patchable/queue execution/program steps on x86_64 whose side conditions (functions_ok, event_ok) hold; tool operations are shown to be such events.",
 "C02": "Uniqueness in every reachable state; re-application refused and without effect; EAPPLIED when dependencies and the build-id check pass.",
 "C03": "Every reachable state (list and log); missing dependency and needed patch are answered with EDEPEND and change nothing.",
 "C04": "List, routing of untouched functions, and apply-then-revert restoration.",
 "C05": "Refuted in both directions (the memcmp result is used inverted and the name is not compared). Proved: the exact meaning of the check as written, and that refusal changes nothing.",
 "C06": "Refuted: a patch whose second function is not livepatchable is answered with an error but redirects the first. Proved when all functions are livepatchable and references can be found; memory and `ulp check` are never affected.",
 "C07": "Every request and every history in an error state.",
 "C08": "Exactness proved; termination proved when no foreign patch depends on the library's patches; refuted otherwise (endless loop for every number of steps).",
 "C09": "Complete transition table of the toggle.",
 "C10": "Histories of fewer than 2^63 events (the counter is 64 bits wide).",
 "C11": "Every reachable state against the log of successful requests.",
 "C14": "Request refused with EINSNQ (the error state is set), tables, queue and memory unchanged.",
 "C48": "References not overlapped by another reference of the same patch; x86_64 (TLS_DTV_OFFSET 0).",
 "C49": "Refuted for exact name matching (substring match) and for a library that is not loaded when an offset is recorded; proved for the designated object. C49_exact says which address every lookup answers, found or not.",
 "C23": "Round trip proved for symbols below 2 GiB, all other fields for all libraries; refuted for offsets >= 2^31 (stored as int). json-c's printer/reader pair is an argument.",
 "C24": "All 20-byte build IDs.",
 "C44": "Parsing, order and printing for all triples; malformed components refused except numbers in [2^32, 2^63), which wrap (refuted). C44_exact says what every text whatsoever gives.",
 "C45": "Proved for 256-287; refuted for ENOLIBDL/ENOLIBC (missing comma in the table). strerror is an argument. C45_codes_have_their_messages ties every code a modelled function answers with to its message.",
 "C46": "All paths.",
 "C52": "Texts under 20 characters are refused, 40 hex digits are read; refuted for 20-39 characters (read out of bounds).",
 "C53": "From the symbol tables libelf returns.",
 "C54": "A returned path is fresh; refuted: after one clash the loop never ends. C54_exact says exactly when a path is returned.",
 "C22": "MD4 of tools/md4.c equals RFC 1320 for every byte string below 2^61 bytes, with no out-of-bounds access; write_patch_id's layout. File reading and libelf's build-id lookup succeed by assumption.",
 "C30": "Any number of threads and any interleaving (nested calls, forks): proved for calls made after libpulp's constructor ran. Refuted for calls that began before it (not counted), for a request before it (null dereference), for a contended loader lock (libpulp ends in EUNKNOWN) and for a child forked while another thread allocates (EAGAIN for ever).",
 "C34": "Queue: all capacities, lists and schedules of the two threads at the level of semaphore operations and array accesses. Discovery: proved when every selected process can be read; refuted otherwise (the iteration ends early and may hang, or a process is delivered twice).",
 "C55": "fnmatch and getpwuid are oracles. Proved without user filter, for numeric uids 1..2^32-1 and for named non-root owners; refuted for root's processes and for uid 0. C55_selection_exact says exactly which entries are selected.",
 "C43": "Every list, path, user and group; fnmatch is an oracle. Refuted (out-of-bounds write) for paths of PATH_MAX bytes or unreadable ones when a path list is set; an opt-out also hides start-up errors. C43_exact gives the error state start-up leaves, and exactly when start-up writes outside its buffer.",
 "C31": "Proved for every interleaving with thread creation and termination. Failure releases all threads unless a detach or waitpid is itself refused (refuted otherwise). Two further refutations: a task listing that resumes by counting (Linux), and exec during the scan.",
 "C32": "General purpose registers proved restored whenever release reports no error. Missing: vector registers are not saved (refuted), and after a timeout the main thread cannot be restored (refuted, error reported).",
 "C33": "Both architectures, every stack pointer.",
 "C37": "The ptrace path is exact for all lengths; the process_vm_writev path is exact when all bytes are accessible, refuted for partial transfers.",
 "C38": "Zero-byte test exact on all words; strings exact when whole words are accessible; refuted at the end of a mapping.",
 "C56": "The stop reason is not examined: a signal is taken for the end of the routine (refuted). C56_exact says exactly when the redirected call is reported done.",
 "C39": "Success is reported exactly when the patch was applied; always released, bounded attempts; findings: definitive answers are retried, a busy patch after a revert is not retried, a failed restore is hidden. C39_exact states the retry rule for every request (with or without revert and stack check) and every sequence of answers.",
 "C40": "Exact for one named patch up to the truncation of the exit status; findings: unknown error (256) exits 0, wildcard mode always exits 0, subdirectory results dropped. C40_exit_status_exact says exactly which failures the exit status shows.",
 "C41": "Exact characterisation of the three answers of the tool's suitability check.",
 "C42": "libpulp's walk proved for all well-formed segments; the tool's walk proved for even-length notes of other types; the packer's only for the first note; findings: odd lengths, foreign type-3 notes, packer looks at offset 1 (missed or endless).",
 "C29": "Only first entry nops of listed functions change, one per function, livepatchable afterwards, idempotent; finding: a function of under four bytes at the end of its section is read beyond the end.",
 "C50": "Failures before objcopy starts are reported; findings: objcopy's exit status is never looked at, a failing execv returns twice.",
 "C57": "Reported libraries have entry nops; plain functions among the first 8000 symbols are recognised; findings: endbr64 functions never recognised, uninitialised answer without symbols. C57_exact says exactly when a library is recognised. On POWER: C57_power_exact, and C57_power_agrees (tool and libpulp agree on functions not redirected yet); C57_agrees_partial is the x86 half that holds.",
 "C51": "The work of a reversal equals the number of replacements the patch has ever made (detours are never freed), so it grows; while they fit at 40 bytes each a reversal works and leaves libpulp usable; in the end a reversal answered with success leaves the permanent error state (queue overflow). Applying never wears.",
 "C47": "Replacements, references and dependencies are translated faithfully for every well-formed description, missing symbols are refused, and for every file only existing replacements are recorded. Refuted: comments (an unwritten byte separates comment lines, so two comment lines are never recorded as written), crashes on '#' lines with too few fields, on lines starting with ':' and on a description without target. References and dependencies are recorded in reverse file order.",
 "C27": "Installing and removing are exact, at the level of decoded Power instructions, for every function in both layouts. Refuted: a function that is refused has the 52 bytes in front of it overwritten when the queue is carried out.",
 "C28": "Proved for every properly nested run of any depth, side stack growth included, given a __tls_get_addr that preserves r4-r10 and CTR. Refuted: leaving a redirected function by longjmp or an exception makes an outer one return to the wrong place; so does a signal handler that makes a redirected call while another one is returning; a __tls_get_addr that only keeps to the ABI loses the target.",
 "C58": "The listing of a process is the specified one for every list of applied livepatches. Exception (refuted): a livepatch whose library name is only part of the loaded file's name is applied but not listed.",
 "C59": "Exact for comments in which each label is followed by a character at which no other label starts. Exceptions (refuted): a label at the very end of the comments (read behind the buffer), touching labels.",
 "C60": "Proved for every error state that libpulp can hold.",
 "C61": "Proved for every symbol table with distinct names whose string table does not end right behind a name. False without that (C61_last_name_refuted): the tool reads five bytes of each name at once and gives up at a shorter one that ends the mapping.",
 "C62": "Proved for every process with a position-independent main program (see C63) and one libpulp. Exception (refuted): an unreadable list entry ends the list silently.",
 "C63": "Proved for paths without blanks and names of at most 15 characters. Exceptions (refuted): longer names; a path in which a slash is followed by a blank.",
 "C64": "Free means free except for the first byte of a mapping; busy means a frame in the hull of the library's mappings. Exceptions (refuted): pc on the first byte; library loaded through a symbolic link. C64_exact says exactly when the answer is free.",
 "C65": "The answer is proved for every description and state; refuted: libpulp in an error state answers 'not applied' for an applied patch, an unusable container gives status 1 as if applied, oversized metadata read an uninitialised pointer.",
 "C66": "The effect is proved for any outcome of any step and any staleness of the state; refuted: uninitialised result when a process cannot be stopped, exit status always 0, 'unable' although changed after a timeout, two tools undo each other, DISABLE not understood.",
 "C67": "Truth, completeness and silence of the report are proved for all results; refuted: attempts with the same minor error are not listed without summarisation, skippable errors are labelled differently in summary and list.",
 "C68": "All lines but patch ID and patch offset are proved right for 20-byte build IDs; refuted: the patch offset, the last 12 bytes of the ID, build IDs shorter than 20 bytes, references shown with -b.",
 "C69": "Proved for prefixes below 4088 bytes; refuted: longer ones overrun a static buffer for processes chrooted into /proc.",
 "C70": "Proved for well-formed files whose table of section names has at most 1280 bytes and whose sections lie below 2^63. Refuted: longer tables (comparison with uninitialised bytes), offsets of 2^63 and more (the wrong bytes are returned), files without section headers (a failed assertion puts libpulp into its error state).",
 "C71": "Proved for accepted requests (same memory, protections, tables) when the pages are mapped and system calls succeed, and for refused ones (same answer, nothing written). Refuted: after a failed application the tool executes the pending writes and gdb does not; a request exactly filling the buffer is accepted only from gdb.",
 "C72": "Proved for maps whose lines are at most 2048 bytes; a longer line ends the search (C72_long_line_refuted). C72_exact says exactly which protection is answered.",
 "C73": "End to end: packer, metadata, tool, libpulp and x86_64 entry code together. Side conditions: 20-byte build id, functions not at offset 0 of their file, metadata and path fit the buffer, memory writes do not fail half-way.",
 "C74": "Proved for the retry loop around every ptrace request and for writes through it. The other tracer is an arbitrary sequence of free/held answers; only the errors the kernel gives for a held target are modelled.",
 "C75": "Obeyed and refused are proved for lines whose first command name is the command meant, with long names in full and -r values an int can hold; abbreviated long options are left out. Findings: the option table is chosen by the first word on the line that is a command name, be it an option's value; -r is cut to 32 bits; -r takes a word that only starts with a number.",
 "C76": "Proved for the start of every command and for status files of the kernel's form. Finding: the permitted capabilities are looked at, not the effective ones.",
 "C77": "Missing: what C62 leaves out, threads that log while the tool reads, and stopping the process while the buffer is nearly full (refuted: C77_reading_while_evicting_refuted). C77_status is proved in full.",
 "C78": "Proved: if all stages work, the packed container asks for exactly what the description says (composition of C47, C22, C42, C18, C20 through run_packer); refusals change nothing; only the three sections ever change. The unconditional claims are false: refuted theorems for a failing comment section (exit 0, no reverse section), half-packed containers, objcopy failures, full disks, temporary files, stale comments.",
 "C79": "Partial: equality of the containers for symbols below 2^31 and a disk that takes the file; json-c is assumed to read back what it printed. Refuted: missing debug information and unopenable outputs crash, a full disk goes unnoticed, symbols from 2^31 on change, foreign debug information is merged.",
 "C80": "Proved for any sequence of calls: texts are printf's, error states as meant, nothing missing while there is room. Refuted: reasons with arguments (a va_list is passed as the argument), threads that log at the same time (shared buffer without lock). Missing: texts of exactly the buffer size (C36).",
 "C81": "The text printed is computed from the memory of the processes (models of C34, C55, C57 and C58). Missing: livepatches of a libpulp without times (C81_old_libpulp_refuted), programs at a fixed address (C81_fixed_address_refuted), processes that cannot be stopped (C81_hidden_refuted), -q, -u with a pid, and '(none)' (refuted). The uninitialised answer of C57_no_symbols_refuted is an arbitrary value here; asctime and strerror are arguments.",
 "C82": "Missing: aligned_alloc with a size that is not a multiple of the alignment fails before the constructor has run (C82_aligned_size_refuted), a second allocator (C82_two_allocators_refuted), a linker function that was not found (C82_missing_refuted). The next library and glibc's __libc_* functions are arguments acting on an arbitrary heap; calls are sequential here, their interleavings are C30.",
 "C83": "Proved for glibc 2.31 and later; older versions make the program exit (C83_exit_refuted), other version strings crash it (C83_crash_refuted), a contended lock disables livepatching (C83_contended_refuted). The structure layouts are computed from include/ld_rtld.h by the System V rules.",
 "C84": "Missing: that nothing is kept. Every request, also a refused one, keeps the structure and its dependencies (C84_leak_refuted); a refused livepatch can leave its container open (C84_container_refuted); lack of memory is reported as an invalid livepatch (C84_error_code_refuted). The allocations of ulp_state_update and ulp_apply_all_units are not modelled here.",
 "C85": "Proved when the thread stops only for the attach and at the end of routines, and exactly accounted for otherwise. Missing: a signal taken between attach and its SIGSTOP is lost and leaves the process stopped (C85_lost_refuted); one taken during a routine (C85_interrupted_refuted); a timeout kills the process (C85_timeout_refuted); a pending SIGCONT is discarded (C85_sigcont_refuted); a stopped process is never patched (C85_stopped_unpatched_refuted). The kernel side is a model of ptrace(2) and job control for one thread.",
 "C86": "partial: in every case the process has ended, or its main thread never gets back to its program, or all threads are in their own program with the memory and libpulp as before or as after all requests; so no program runs with half a livepatch. Refuted: that the process goes on (killing the tool after the routine has started kills the process; killing it while it attaches leaves the process stopped until SIGCONT). Assumed: the default action of SIGTRAP, no other signals, one attempt, threads released at once.",
 "C87": "partial: success means exactly the new state; failure leaves the old state or the state without the library's old patches, never anything else. Refuted: that failure keeps the old patches (a patch that depends on the one it replaces, or that cannot be loaded, is refused only after the old ones are reverted). Assumed: the tool's accesses succeed (C39, C86), side conditions of C01, no error state afterwards (C07).",
 "C88": "Over every history of C01 and every instruction boundary of the entry. False for entries of two one-byte nops (C88_two_nops_refuted): libpulp accepts them, and a thread between the two nops continues in the middle of the jump. A thread stopped on the jump may run a replacement that was in force neither when it was stopped nor now (C88_stale_refuted).",
 "C89": "The routine of the foreign libpulp is an arbitrary function, so nothing is assumed about newer versions. Proved provided the queue was found and its version readable once; refuted otherwise: an unreadable version counts as 0, so the newer libpulp's routine is run and its writes are left pending (C89_unreadable_refuted), and a libpulp whose queue symbol was not found counts as an old one, so a patch is reported as applied although nothing is written (C89_no_queue_refuted).",
 "C90": "No use after release, no double release, exact leaks: for one process, for all processes without threads, and for every interleaving with the finding thread. Refutations: unchecked calloc, lost buffers, early end of the queue.",
 "C91": "Linearizability of several tools: at most one at work, every schedule is equivalent to a serial one with the same answers, refusal only while another tool holds the process, calls follow the newest patch of any tool; the visits are the tool's routines. The side condition that the main thread is listed first is needed only for the progress part (C91_order_needed).",
 "C92": "Each result equals the result alone (as a relation on the request only), no double release, global variable cleared, exact number of files kept, blocks kept only for unreadable livepatches. Partial: needs enough descriptors and memory, because oversized containers keep their file open (refuted), the result of malloc is not tested (refuted) and incomplete items are lost (refuted).",
 "C93": "Exact set and once-only proved for patterns with a last component, no folder named like a matching livepatch; termination and no overrun for folder paths under 255 characters. Refuted: trailing slash with --recursive never ends; a folder path of 255 characters or more overruns the buffer; a folder named like a livepatch makes a file that is not there be tried.",
 "C94": "For every file. What is shown is proved for files without NUL bytes. Descriptions on which the packer crashes without a message are C47's findings.",
 "C95": "Threads stopped in the patchable code of a ppc64le function, over all histories of visits (requests through the queue, carried out by the tool); C95_visit_succeeds shows the visits can happen. Not modelled: that the thread runs while a visit is under way (all threads are stopped then), the rest of libpulp's bookkeeping (the x86_64 LibModel), the trampoline itself (C28).",
 "C96": "Proved for all histories; the giving back is refuted (C96_given_back_refuted, C96_unbounded_refuted): no code calls pthread_setspecific, so the key's destructor never runs. C96_cleanup_would: the destructor itself is right. Tied to the instruction-level model of C28 by C96_trampoline_call and C96_trampoline_return.",
 "C97": "Composition of C29 and C88 with the two commands: post succeeds on every compiled library, refused runs leave the file alone, the loaded result meets functions_ok and one_nop, so stopped threads run on in whole instructions. Refuted for listed functions without a symbol (static functions of a stripped library): success is reported, the nops stay two instructions, and a thread between them is stuck in the middle of the jump. The contents of the table are taken as the words the file shows (link-time relocation is not modelled).",
 "C98": "Exact characterisation of the processes worked on proved for all processes, conditions and schedules; the full claim (no process hides others) is refuted: an unreadable first process hides all the others and the command exits 0. C98_outcome gives the exit status and the counts of the whole command.",
 "C99": "C99_dump_exact: what dump writes of any section, and exactly when it leaves its buffer. C99_recorded_partial: what a packed container shows, for any memory of the packer; the first line is always there. C99_one_line_partial, C99_no_comments_partial: the claim for descriptions with at most one line. C99_later_lines_refuted: of two or more lines only the first is shown (memory zero before). C99_unterminated_refuted: a section without NUL, or of 4 GiB. Missing: the full claim is false for two or more lines.",
 "C100": "Exact outcome of the wait loop for all answers and clock readings; in real time, with a clock nobody sets, the tool waits more than (limit - 1) s and less than limit + one pause; a clock that is set breaks both bounds (refuted). The limit is per routine, not per command.",
 "C101": "C101_reload_partial: after any history (arbitrary changes of memory included), functions that are in memory with plain entries, not replaced by an applied patch and clear of everything ever replaced, are routed as the log says from then on; partial because functions overlapping an earlier replaced place are excluded. C101_revert_footprint: what a revert may write. The remaining clauses are false and refuted: unloading is not noticed, a stale place is written on a second revert, and it is read on every revert.",
 "C102": "All clauses proved for all systems of processes and interleavings. The functions watched may differ from program to program; the conditions on single events are those of C01.",
 "C103": "lib/ulp.c's tables over the POWER redirection routine; symbols arrive resolved, static references and revert-all are the same code as in LibModel and are left out here. C103_same_tables ties the tables to LibModel; what the trampoline does from there is C28.",
 "C104": "Proved for all answers; the refuted theorem records that revert-all runs under the filter even with the option. Kernel behaviour (options cleared by attach and detach) is modelled, not derived.",
 "C105": "Exact displays for the three coloured outputs; names and messages are assumed to contain no escape character."
}