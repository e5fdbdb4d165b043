# Formal model of SUSE/libpulp in Rocq (Coq 8.16.1)

The development lives in `rocq/theories` (logical name `Verif`).  It is a model,
written by hand from the C and assembly text of `/repo`; nothing is extracted or
executed.  Every definition of the model carries a comment with the file and the
lines it models, and says where it simplifies.

## Conventions

* Machine words, addresses and bytes are `Z`.  A byte is a `Z` in `[0,256)`.
  Where C arithmetic wraps and the property depends on it, `mod 2^32`/`mod 2^64`
  is written out.  Addresses do not wrap unless stated.
* Undefined behaviour (reads outside a buffer, NULL dereference, uninitialised
  data) is a separate outcome (`UB`, `None` of a checked access, or a distinct
  constructor), never a default value.
* Loops become structural recursion, or recursion on fuel with a distinct
  out-of-fuel outcome that theorems exclude.
* The outside world (dlopen, dlsym, the dynamic linker's link map, the
  scheduler, ptrace failures, the answers of the target process) is a parameter
  over which theorems quantify: an oracle argument, never an axiom.
* Layout of a subsystem `X`: `XModel.v` (definitions only), `XSpec.v` (the small
  independent specification, when it is not stated inline), `XProofs.v`, and
  `XProps.v` (the property theorems, each followed by `Print Assumptions` and a
  non-vacuity `Example`; a `_refuted` theorem is its own witness).
* A property of which the code only satisfies a part has a theorem `…_partial`
  plus, where the full statement is false of the code, a theorem `…_refuted`
  with a concrete witness.  Those are findings about libpulp, listed at the end.

## Plan per property

| id | modelled | proof |
|----|----------|-------|
| C01 | patch lists, detour lists, x86 prologue bytes, byte-level queue, tool step (run libpulp, then execute the queue) | invariant over all request lists relating memory bytes to the detour lists and to an abstract log of applied patches; control flow by a small x86 decoder |
| C02 C03 C04 C10 C11 | patch/detour state machine of lib/ulp.c | invariants by induction over request lists, refinement to an abstract list of applied patches |
| C05 | note walk and comparison of `compare_build_ids` | refutation by witness; partial: what the check does guarantee |
| C06 | all failure exits of `load_patch`/`parse_metadata` | case analysis; refuted for failures after the first unit; partial for the earlier failures |
| C07 C09 C14 | entry points with error state, queue emptiness and lock | direct + induction over later requests |
| C08 | loop of `revert_all_patches_from_lib` on fuel | exactness when no dependency blocks; non-termination witness for all fuel |
| C12 C13 C15 C16 | byte-level queue, encoder in lib, decoder in common/tools | encode/decode simulation by induction on request list; refutations for hostile bytes / failing write |
| C17 | page-protection map, `insn_interpret_write` of lib | page arithmetic lemmas |
| C18 C19 C20 C21 | byte-level serialiser of the packer, path injection, parser | parser run on serialiser output by structural induction; bounds by induction on the parser |
| C22 | `MD4` and an independent RFC 1320 specification | equality of padding and block functions |
| C23 C24 | JSON field conversions, hex printing and scanning | round-trip; refutation beyond 31 bits |
| C25 C26 | `ulp_patch_addr` x86_64, decoder | bytes after write decode to the jump; refutation for `0xEB` entries |
| C27 C28 | ppc64le branch encoding, trampoline side stack | bit-field arithmetic; stack invariant over nested calls |
| C29 | `merge_nops_at_addr`, `nops_fixup` | induction over entries |
| C30 | flag counter, threads as small state machines, arbitrary schedules | inductive invariant over schedules |
| C31 | directory scans racing with thread creation/exit | invariant without exits; refutation with exits |
| C32 | per-thread register save/restore | induction over thread list and routine list |
| C33 | stack-pointer computation | bit-mask arithmetic |
| C34 | semaphores + ring buffer, arbitrary schedules | refinement to a FIFO |
| C35 C36 | ring buffer with wrap, eviction loop on fuel | invariant describing the live region as a sequence of whole messages |
| C37 C38 | word-wise ptrace peek/poke | induction over words, bit-trick lemma over all 64-bit words |
| C39 C40 | retry loop and aggregation of results | induction over answer streams; `C39_exact`: the number of attempts and the result for every stream of answers |
| C41 C42 | object list scan, note walks | induction; refutation for unaligned note sizes |
| C43 | colon-separated list scan, `fnmatch` as oracle | induction over the list; `C43_exact`: exactly when libpulp starts blocked, and with which code |
| C44 C45 C46 | version parsing/printing, error table, basename | arithmetic, finite check, induction |
| C47 | line classification and unit construction of the `.dsc` parser | round-trip from an abstract description |
| C48 C49 | reference binding, symbol lookup | induction over references / libraries |
| C50 | `embed_patch_metadata_into_elf` as a run of system calls with oracle results | direct; refutation: objcopy's exit status is not looked at |
| C51 | detour lists and queue space over many apply/revert cycles | invariant counting detours; refutation by a history that overflows the queue |
| C52 | `str_to_buildid` on a buffer with bounds | direct; refutation for 20-39 characters |
| C53 | `parse_so` symbol collection and merging | induction over symbol tables |
| C54 | `create_path_to_tmp_file` loop with an oracle for existing files | loop invariant; refutation: endless after one clash; exact characterisation: `C54_exact` |
| C55 | user/pid selection of process discovery | direct over oracles for owners and fnmatch; exact characterisation: `C55_selection_exact` |
| C56 | running a libpulp routine in the hijacked thread | direct; refutation for signals; `C56_exact`: exactly when an answer is taken |
| C57 | `is_library_livepatchable` and the test of function entries | induction over symbols; exact characterisation: `C57_exact` |
| C58 C59 C60 | reading the applied-patch list, listing, label scanner, state shown | simulation between the bytes of the target's memory and an abstract list; induction on the text for labels |
| C61 C62 C63 | auxv, program headers, dynamic section, link map, symbol table, notes, `/proc/PID/maps` | inductive layout predicates of the target's memory; one lemma per loop; composed into `initialize_data_structures` |
| C64 | range detection and stack walk | fold invariants (hull of matching lines); exact characterisation: `C64_exact` |
| C65 | `run_check` over the container's bytes and libpulp's state, with results of the other steps as arguments | roundtrip of C18 composed with the applied-patch list |
| C66 | the attempt loop of `set_patchable` on libpulp's state | at most one toggle per command (the routine never answers "busy"); refutations by runs |
| C67 | the two loops and the printing of the trigger report | the loops characterised by the sublist of concerned attempts |
| C68 | `dump_metadata` as a list of lines | roundtrip of C18, then line by line |
| C69 | prefix for chrooted processes, path injection, check of the functions | direct; roundtrip of C18 |
| C70 | `Get_Elf_Section` on the bytes of a file, the table of names as a buffer of bytes that may be unwritten | specification reads the same file by the ELF layout; induction over the section headers |
| C71 | `gdb_ulp_apply` and `gdb_ulp_revert` on libpulp's state and the in-process interpreter | C70, the injection of C21, the roundtrips of C18 and C20, exactness of both interpreters |
| C72 | the reader of /proc/self/maps in lib/insn_queue.c and the page loop around it | induction over the lines; the first line that covers the address decides; `C72_exact`: what every file whatsoever gives |
| C73 | no new model: packer, metadata, tool, libpulp and entry code together | composition of C47, C18, C20, C01, C04 and C48; what the description means in the process is in `EndSpec` |
| C74 | ulp_ptrace's retry loop over an arbitrary world (request, nap, clock), and write_bytes_ptrace over it | exactly-once by induction on fuel for any observation the refused request leaves alone; write theorems by simulation of the write without retries (C26's model) |
| C75 | argp's getopt_long walk, the option tables, parser, handle_end_of_arguments and main | a grammar of command lines in `CliSpec` (options, spellings, arguments); induction on the grammar shows the walk yields these options; the settings record by induction on the options |
| C76 | check_ptrace_scope, requires_ptrace, check_sys_admin and the start of run_trigger | case analysis over main; induction on the lines of the status file |
| C77 | run_messages, print_message_buffer, get_msgq_address, msgq_print, and msgq_strpush store by store | composition of C62 (objects), C35 (queue invariant) and the layout of the queue in memory; the stores of a push are a list, and a prefix of it changes no byte that is printed |
| C78 | run_packer end to end: description, patch ID, the three sections, temporary files, objcopy as an oracle | composition of C47, C22, C42, C18 and C20; case analysis over the stages; findings as refuted theorems |
| C79 | run_extract and ulp_so_info_open on a file system; json-c's printer and reader are arguments | the packer depends on the target only through its description (induction over the lines), roundtrip of C23; monotone in the symbols for debug information |
| C80 | msgq_push, ulp_warn and the error functions, with printf's conversions; two threads between formatting and pushing | a relation for printf, equality with the pushes of C35 by induction over the calls; schedules as witnesses; buffer bounds, error state and crash cases: `C80_stays_in_buffer`, `C80_error_state`, `C80_crash` |
| C81 | run_patches, print_process and what they print, on the processes of C34/C55 and the memory of C58; colours | the report as a list of lines; equality by induction over objects and livepatches; findings by witnesses |
| C82 | the thirteen interposed functions over an abstract C library and heap, with the two emulations | equality of the run of any program with the run without libpulp, by induction over the calls with an invariant on libpulp's state; power-of-two tests by bit arithmetic |
| C83 | __ulp_asunsafe_begin with get_ld_global_locks, C structure layout, version parsing | case analysis; layout by computation; opt-outs from C43 |
| C84 | parse_metadata_from_mem with its allocations (any subset failing), free_metadata, load_patch | invariant: blocks held = those of the metadata built so far; agreement with C06's load_patch when no allocation fails |
| C85 | one thread with its pending signals, ptrace attach/cont/detach, job control; the tool as a state machine interleaved with the kernel | simulation by the thread alone; weight of each log entry for the accounting |
| C86 | the critical section as a list of single actions (attach, start, return, one poke per byte written, reset, restore, detach) on the threads of C85 and the process of C01; death after any of them | an invariant of all prefixes (the points of the script), then the effect of death on each point |
| C87 | the retry loop of C39 with the operations of C01 and C08 inside, the program running between attempts | induction over the attempts; each attempt is events of C01, so the log of the history gives the calls |
| C88 | no new model: the entries of C01 (X86Model, LibModel) and an independent processor (X86Spec); the thread is an address it stands at | every request libpulp queues has one of three shapes (invariant over the history); these preserve whole instructions in the entry and the jump in the padding |
| C89 | insnq_get_version, insnq_check_compatibility and the use trigger, apply_patch and revert_patches_from_lib make of them (VerModel); the routine of the libpulp in the process is an arbitrary function | case analysis of the check, induction over the visits; for supported versions equality with the tool of C01 |
| C90 | the blocks behind struct ulp_process with their release functions, initialize_data_structures, insert_target_process, hijack_threads, restore_threads, the routines, the commands' loops with and without the finding thread (OwnModel), on a heap where a released block is never handed out again and every wrong use is undefined | an invariant giving the exact list of live blocks (up to order) for each state, induction over processes, passes, attempts and steps |
| C91 | any number of tools, each somewhere between its first attach and its last detach, taking steps in any order, with the kernel's rule that a thread has one tracer; the events inside are those of C01 (TwoModel) | invariants over all schedules: who holds which thread (in which order), the visits so far are a serial history, the events so far are a history of C01; refinement of the visits to the tool's routines of ReplModel and LibModel |
| C92 | the tool's global livepatch with its release functions, extraction with its files, reading by the parser of HeapModel on the tool's heap, sequences of requests (TmdModel) | the result of each request is characterised by a relation on the request alone; induction over the sequence with the invariant that the global variable is cleared and the heap in order; counting blocks as in C84 |
| C93 | the walk of `ulp trigger` through folders (trigger.c 262-367) with dirname and get_basename, over an arbitrary filesystem (DirModel) | termination by the growing length of the folder's path; the files tried are those of an inductive definition, by induction on the walk; witnesses for the three refuted parts |
| C94 | the reader of C47 with the position it keeps, parse_error's excerpt, the SIGSEGV handler (LocModel) | erasing the positions gives C47's reader; the line is split off phase by phase (head, dependencies, body) with what was read before as invariant; what each message means is in `LocSpec` |
| C95 | `PwinModel`: visits of the tool on ppc64le (ulp_patch_addr calls for many functions through the queue, carried out by the tool), over C27's model and POWER step semantics | invariant over histories (slot word by the last request for the function, area by the last installation), explicit state after each of the 11 instructions of the area, determinism of the step function |
| C96 | The side stacks of all threads of a ppc64le process as a transition system: thread start, redirected call (with what mmap answers), return, thread exit, with POSIX's rule for key destructors; refinement to the instruction-level trampoline of `PtrModel` | Invariant over all histories (sizes from nesting depth, ownership, separation, count of mappings); orphaned mappings persist (induction on the rest of the history); unboundedness by induction on the number of threads |
| C97 | `run_post` and `run_livepatchable` over a whole file (`BltModel`: section names, sections, symbols, answers of open, libelf and the write), on top of `PostModel`; the memory of a process that loaded the file | decoding of the table by induction; merging is total on compiled libraries (invariant over the entries: later entries stay mergeable because the table entries are apart); the bytes in memory follow from C29, and threads from C88. Refuted for functions without a symbol: their bytes stay as they are, and a thread between the nops is stuck |
| C98 | `libpulp_loaded`, `has_libpulp_loaded` and `insert_target_process` over the text of /proc/PID/maps and the memory of each process (`SeeModel`), put into the loop and queue of `PcModel`, the introspection of `IntrModel` and the counting of `TrModel` | an occurrence of libpulp.so in a line of the map can only lie in its path; the chosen processes are characterised from the text of the conditions (`C98_chosen`); the values handed over by induction over the chosen processes; threads: the queue delivers a prefix up to the first NULL (invariant of C34); unreadable processes by following `initialize_data_structures` on a process image without libpulp in its link map; `C98_outcome`: the exit status of the whole command |
| C99 | `extract_ulp_comment_to_mem`, `dump_ulp_comments` and the rest of `run_dump`, on top of the packer (C47, C78) and the labels (C59) | Spec: `recorded` (what remains of the lines, for any memory), `shown`, `packed`. Exact description of what dump writes of any section; composition with the packer run; the claim for at most one line; refutation for two or more |
| C100 | The wait loop of `run_and_redirect` with its clock readings (`rr_timed`) | Spec: real time in nanoseconds, a clock of whole seconds (`steady`: nobody sets it), the looks and the pauses between them. Exact outcome for every sequence of answers and readings; bounds in real time for a steady clock; limit 0; agreement with `rr_wait` (C30, C31); refutation for a clock that is set |
| C101 | No new model: the events of `LibModel` (C01-C04), with `EvProgram` standing for whatever the program does to its memory, loading and unloading included | Spec: `careful_history` (the functions watched may be any that are present now; everything else may come and go), `replaced_by` (a patch with this ID once replaced this address). C01 generalised to a late start after any history; footprint of a revert after any history; three refutations (unloading is not noticed, a stale place is written, a stale place is read) |
| C102 | A system of processes that fork, exec and exit, each with the state of `LibModel` (`sys_step`) | Spec: the life of a process (`life`: events of the ancestors up to the forks since the last exec, then its own). Every process is reached by its life as a single process would be; so C01-C14 hold in each; independence; exec. (A fork while another thread is inside an interposed function is C30: `C30_fork_refuted`) |
| C103 | `PrtModel`: the loops of lib/ulp.c over units, detours and roots with ulp_patch_addr as an argument, instantiated with the POWER one; requests, executions and program steps as events (`do_pevent`) | Spec: log of successful requests (`plog_of`), `route` of C01, POWER step semantics. Invariant: tables correspond to the log; memory after the pending writes has, per function, the redirection to the newest active detour or the nop. `C103_same_tables` shows that with the x86-64 routine the functions are those of `LibModel`; `C103_apply_answered` and `C103_revert_answered` are equivalences |
| C104 | `SecModel`: the calls of `TrModel.trigger_one_process` replayed on the kernel's view of the threads (not traced, traced, traced with the filter suspended), the answers of each attempt as oracles | Spec: `suspended`, `untouched`. Invariant: between attempts no thread is traced, within one only the hijacked threads are and only the main one can be suspended; induction over the retries and over the requests. That detaching clears the option is the kernel's behaviour, part of the model |
| C105 | `ColModel`: the decision (environment, options) and the bytes printed by the report of trigger and the packer's error messages; `PatModel.status_text` for patches | Spec: a terminal (`ColSpec.terminal`) that interprets SGR sequences byte by byte and gives every character with its look; `wanted`. Compositional: coloured and plain bytes are paired piece by piece. The plain texts are tied to the lines of C67 and C94 |

None of the listed properties is considered impossible to express.  What the
model cannot exhibit (kernel ptrace semantics, the dynamic linker, real machine
code execution beyond the few instructions decoded, timing) is listed under
"Not modelled" below.

## Trusted base

* Coq 8.16.1's kernel (and `coqchk`).
* `Print Assumptions` of **every** theorem listed in MANIFEST.json prints
  "Closed under the global context": no axiom is used by any of them.  The
  commands stand directly behind the theorems in the `*Props.v` files.
* `coqchk` over the whole development lists seven axioms that come with the
  standard library's `Coq.ssr.ssrunder` (`Under_rel.Under_rel`, `.Over_rel`,
  `.over_rel`, `.over_rel_done`, `.Under_rel_from_rel`, `.Under_relE`,
  `.under_rel_done`).  They are loaded through `Lia`/`ZifyBool`; no theorem
  depends on them.
* Only the standard library is used (no mathcomp, std++, Iris, ...).
* The faithfulness of the hand-written model to the cited lines of `/repo`.

## What is modelled

| model file | code |
|---|---|
| `InsnQModel` | lib/insn_queue.c (encoder, in-process interpreter with page protections), common/insn_queue.c (decoder), tools/insn_queue.c (fetch, execute, reset) |
| `MsgQModel` | lib/msg_queue.c, reader loop of tools/messages.c |
| `MetaModel` | packer serialisers (tools/packer.c), path injection (tools/introspection.c, lib/gdb_interface.c), parser `load_metadata_from_mem` (common/common.c) |
| `StrModel`, `TextModel` | get_basename, version text, error texts, build-ID text, temporary paths (common/common.c), JSON description of a library (tools/extract.c) |
| `X86Model`, `PpcModel`, `PtrModel` | lib/arch/x86_64/patch.c; lib/arch/powerpc64le/patch.c and ulp_prologue.S (template, trampoline, side stack) |
| `DlModel` | lib/symbol_loader.c, build-ID check of lib/ulp.c |
| `LibModel` | patch and detour lists, entry points and error state of lib/ulp.c, the tool's apply/revert steps |
| `LockModel`, `OptModel` | accounting of allocator/loader calls and start-up of lib/interpose.c |
| `Md4Model` | tools/md4.c, write_patch_id |
| `DscModel` | description file parser of tools/packer.c |
| `NtModel` | build-ID search of tools/introspection.c and tools/packer.c |
| `PtModel`, `HjModel` | tools/ptrace.c memory and register access, run_and_redirect; hijack_threads/restore_threads |
| `IntrModel` | object discovery, entry points, applied-patch list, listing, stack check (tools/introspection.c, tools/patches.c) |
| `PcModel` | tools/pcqueue.c, discovery thread of tools/patches.c |
| `TrModel` | tools/trigger.c retry loop, result aggregation; check_patch_sanity |
| `CmdModel` | tools/check.c, tools/set_patchable.c, tools/dump.c, the report of tools/trigger.c, prefixes (tools/introspection.c) |
| `ElfModel` | lib/minielf.c, lib/gdb_interface.c |
| `MapModel` | lib/insn_queue.c:187-275 and 304-317, line reader and number parser of lib/ulp.c |
| `RetryModel` | tools/ptrace.c:66-105 (ulp_ptrace) and write_bytes_ptrace over it |
| `CliModel` | tools/ulp.c (argp tables, parser, get_command_from_args, handle_end_of_arguments, requires_ptrace, main), tools/ptrace.c:637-655; abbreviated long options, --help output and the commands themselves are not in it |
| `PrivModel` | tools/trigger.c:577-660 (check_sys_admin, start of run_trigger) |
| `MsgsModel` | tools/messages.c:43-170 (debug output left out, it is never asked for); lib/msg_queue.c:38-94 as a list of stores in program order |
| `PackModel` | tools/packer.c 982-1256 (run_packer, write_patch_id, write_reverse_patch: order of the stages and their failures), tools/elf-extra.c 137-196 with its effect | objcopy sets one section if it exits with 0 and nothing otherwise; reading the description a second time succeeds; the temporary path is an answer of the environment (C54 has the function) |
| `ExtModel` | tools/extract.c 560-585 and 692-737 (ulp_so_info_open, run_extract) | libelf gives build ID and symbol tables; a description that crashes the parser counts as unreadable |
| `LogModel` | lib/msg_queue.c 101-178 (msgq_push, msgq_vpush, ulp_warn, ulp_debug), lib/error.c 43-134 | printf restricted to %% %s %d %x %lu %lx %p; the time stamp is an argument |
| `PatModel` | tools/patches.c:288-396, 458-579, 648-668 (text of `ulp patches`), tools/ulp.c:413-420 |
| `ItpModel` | lib/interpose.c (the functions and the constructor), lib/symbol_loader.c get_ld_global_locks, include/ld_rtld.h |
| `HeapModel` | the allocations of common/common.c parse_metadata_from_mem, free_metadata, lib/ulp.c load_metadata, unload_metadata, load_patch |
| `SigModel` | tools/ptrace.c attach, detach, run_and_redirect and restore_threads as seen by a thread's signals; the kernel's side from ptrace(2) and signal(7) |
| `KillModel` | the actions of tools/trigger.c (165-207), tools/introspection.c apply_patch and revert_patches_from_lib, tools/insn_queue.c and tools/ptrace.c in order, cut at any point |
| `ReplModel` | tools/trigger.c:141-221 with --revert-all and a patch, carried out in the process of LibModel |
| `VerModel` | tools/insn_queue.c 129-170; tools/trigger.c 97-102; tools/introspection.c 1721-1743, 1792-1803 (version of the queue) |
| `OwnModel` | tools/introspection.c 190-255, 350-374, 1046-1378, 1384-1393, 1472-1873, tools/patches.c 50-200, 609-632, tools/trigger.c 86-246, 368-480, tools/check.c 39-145, tools/messages.c 136-172: only allocation, release and the pointers between blocks | the contents of the objects (C61, C62); failing allocations other than that of a process and of a thread; the metadata of a patch; the steps of the two threads are not divided further |
| `TwoModel` | tools/introspection.c 1337-1378, 1480-1613, 1626-1869, tools/ptrace.c 393-434, tools/trigger.c 149-232: the order of attaching, acting and detaching of several tools | failures of ptrace other than a thread that is traced already; threads that come and go (C31); the reading of the process before it is stopped |
| `TmdModel` | tools/introspection.c 256-348, 1875-1981, 2035-2039, tools/elf-extra.c 36-94, tools/trigger.c 85-246, 283-360, 500-550: the livepatch in the tool, its memory and files | what becomes of a livepatch after it was read (an argument; C39, C65, C91); libelf is represented by the list of sections; files opened by other parts of the tool |
| `DirModel` | tools/trigger.c 262-367 (which files are tried; results are in `TrModel`), common/common.c 51-62, glibc's dirname | fnmatch, opendir/readdir and stat are arguments |
| `LocModel` | tools/packer.c 367-472, 511-889: positions of errors, the excerpt without colours | the text of the messages, colours, allocation failures |
| `PwinModel` | lib/ulp.c 648-680, 1227-1256 (calls of ulp_patch_addr only) | a refusal ends the visit; libpulp's bookkeeping is that of `LibModel`, modelled for x86_64 |
| `PstModel` | lib/arch/powerpc64le/patch.c 226-322 (`ulp_stack_helper`, `ulp_stack_cleanup`, `ulp_pthread_key_init`), the stack accounting of ulp_prologue.S 84-107, 170-173 | contents of the side stacks (in `PtrModel`); signals and re-entrance while `ulp_stack_helper` runs; fork |
| `BltModel` | tools/post.c 50-77 (`find_section_by_name`), 83-151 (`nops_fixup`, `run_post`), tools/livepatchable.c 39-73 | libelf itself; relocations of the table (its words are read as they are in the file); a table inside of which a function is said to be |
| `SeeModel` | tools/patches.c 206-225, 580-632 (with the loop of `PcModel`, 634-800), tools/patches.h 54-60, the process loop of tools/trigger.c 495-566 | release of processes after use; a process image on which introspection does not end or crashes counts as not inserted (no theorem relies on it) |
| `CmtModel` | tools/patches.c 240-275, tools/dump.c 85-124 | a failing malloc; stdio buffering |
| `PlpModel` | tools/arch/powerpc64le/post-arch.c 54-75, tools/patches.c 458-507 on POWER | |
| `TimModel` | tools/ptrace.c 495-506, 578-616 | the sleep itself (the looks come at arbitrary times); overflow of time_t |
| `UnlSpec`, `UnlProofs`, `UnlProps` | (use `LibModel`: lib/ulp.c, lib/arch/x86_64/patch.c) | page faults: memory is total, so a read of an unmapped place shows as a dependence on the bytes there |
| `FrkModel` | that libpulp's state is data of the process: lib/ulp.c 47-56, lib/insn_queue.c 36-37, lib/error.c 39-40, lib/interpose.c 65 | the system calls themselves; clone with CLONE_VM; opt-outs at the start of a new program (C43) |
| `PrtModel` | lib/ulp.c 181-212, 474-532, 646-683, 1146-1159, 1223-1259 over lib/arch/powerpc64le/patch.c 211-226 | symbol resolution, build IDs, static references and revert-all (same code as in `LibModel`); allocation failures |
| `SecModel` | tools/ptrace.c 473-482, tools/introspection.c 1473-1616, 1675-1744, 1746-1804, 1842-1870 and tools/trigger.c 86-246, 630-672 as far as they attach, detach and suspend filters | the order of attachments (C31), registers (C32), messages except for their effect on errno, threads that end or are created while held |
| `ColModel` | tools/ulp.c 363-373, 394-420, 527-540, tools/trigger.c 370-479, tools/packer.c 378-460 | whether the output can be written |
| `PostModel` | tools/post.c, tools/arch/x86_64/post-arch.c, tools/elf-extra.c, livepatchability test of tools/patches.c |

Each theorem speaks about these functions on oracle-supplied inputs: results of
system calls, of libelf, json-c, fnmatch, getpwuid, libunwind and of the dynamic
linker are arguments that the theorems quantify over.

## Not modelled

* libelf, json-c, glibc's dynamic linker, libunwind, the kernel: only their
  answers appear, as oracle arguments or as layouts of memory.
* Code execution beyond the redirecting instructions (x86_64 jumps, the Power
  instructions of template and trampoline).  The livepatched program itself is
  arbitrary in the schedules of C01, C30 and C31.
* Message texts of WARN and DEBUG, the text of comments shown by `dump`.
* The assembly entry points ulp_interface.S except for the registers and stack
  they are entered with (C33) and leave behind (C56).

## Findings about the code

Each is a machine-checked theorem (named in parentheses) about the model of the
cited code.

* The build-ID check uses memcmp's result the wrong way round: it accepts
  other builds and refuses the right one (`C05_wrong_build_accepted_refuted`,
  `C05_right_build_refused_refuted`).
* A patch whose second function cannot be patched is refused after the first one
  was redirected (`C06_failed_application_refuted`).
* Reverting all patches of a library loops forever if another library's patch
  depends on one of them (`C08_blocked_revert_all_refuted`).
* The instruction queue is executed without checking write lengths and negative
  sizes (`C15_hostile_queue_refuted`); a failed write can end in success
  (`C16_failed_write_refuted`); a write at the end of a mapping is refused
  (`C17_boundary_write_refuted`).
* A length field of 0xffffffff in the metadata overruns the heap; a truncated
  reverse patch is accepted; a section shorter than 33 bytes makes the gdb
  interface move a negative length (`C19_length_wrap_refuted`,
  `C19_truncated_reverse_refuted`, `C21_short_section_refuted`).
* JSON offsets of 2 GiB and more are truncated (`C23_high_symbol_refuted`).
* Functions starting with a particular short jump are taken for patched ones
  (`C26_short_jump_refuted`); on ppc64le the 52 bytes in front of a refused
  function are overwritten (`C27_refused_overwrites_refuted`).
* The ppc64le side stack goes wrong with longjmp, exceptions and signal handlers,
  and relies on registers `__tls_get_addr` may change (`C28_longjmp_refuted`,
  `C28_signal_refuted`, `C28_tls_abi_refuted`).
* `post` reads beyond a section (`C29_short_function_refuted`).
* Calls begun before libpulp's constructor are not counted, a contended loader
  lock and a fork break the accounting, an early request dereferences NULL
  (`C30_startup_refuted`, `C30_contended_refuted`, `C30_fork_refuted`,
  `C30_early_request_refuted`).
* Threads can escape the hijacking through the /proc listing or exec, and are left
  attached after failures (`C31_*_refuted`); vector registers are not saved
  and a timeout leaves the main thread inside libpulp (`C32_*_refuted`).
* A process that cannot be read ends the discovery or is delivered twice
  (`C34_*_refuted`).
* A message of exactly the buffer's size makes logging loop forever
  (`C36_full_message_refuted`).
* Partial transfers restart at the same place, strings at the end of a mapping
  cannot be read (`C37_vm_partial_transfer_refuted`, `C38_*_refuted`).
* Trigger: definitive answers are retried, a busy patch after a revert is not,
  exit status truncation and wildcard mode report success (`C39_*_refuted`,
  `C40_*_refuted`).
* Build-ID notes: wrong alignment of odd lengths, owners not compared, the packer
  looks at offset 1 and may never end (`C42_*_refuted`).
* Opt-out by path writes out of bounds for long paths and hides start-up errors
  (`C43_*_refuted`); version components wrap (`C44_wrapped_component_refuted`); a
  comma is missing in the error table (`C45_last_messages_refuted`).
* The description parser corrupts comments and crashes on malformed lines
  (`C47_*_refuted`); libraries are matched by substring
  (`C49_other_library_refuted`).
* objcopy's exit status is ignored (`C50_*_refuted`); detours are never freed and
  the queue overflows in the end (`C51_cycles_break_refuted`); `str_to_buildid`
  reads out of bounds (`C52_short_text_refuted`); the search for a temporary
  path never ends after one clash (`C54_clash_hangs_refuted`); root's processes
  cannot be selected by user (`C55_*_refuted`); a signal is taken for the end of
  a routine (`C56_signal_refuted`); functions with endbr64 are never recognised
  as livepatchable by the listing (`C57_endbr_refuted`).
* The listing misses a patch whose library name is only part of the file's
  name, reads behind comments that end with a label, and misses touching labels
  (`C58_substring_refuted`, `C59_*_refuted`).
* An unreadable link-map entry truncates the object list silently
  (`C62_unreadable_entry_refuted`); programs with names longer than 15 characters or
  mappings with a slash followed by a blank are mishandled (`C63_*_refuted`);
  the stack check misses the first byte of a mapping and libraries loaded
  through symbolic links (`C64_*_refuted`).
* `ulp check` reports an applied patch as not applied when libpulp is in an error
  state, and an unusable container as applied; `check` and `dump` use an
  uninitialised pointer for oversized metadata (`C65_*_refuted`).
* `ulp set_patchable` decides by an uninitialised variable when a process cannot be
  stopped, always exits with 0, two simultaneous commands undo each other, and
  DISABLE is not understood although ENABLE is (`C66_*_refuted`).
* The trigger report leaves out attempts even when all were asked for
  (`C67_*_refuted`); `dump` shows the wrong patch offset, part of the ID, and reads
  beyond short build IDs (`C68_*_refuted`); a long prefix overruns a static
  buffer (`C69_long_prefix_refuted`).
* libpulp's ELF reader compares names with uninitialised memory when the table of section
  names has more than 1280 bytes, ignores a failed seek and returns other bytes, and a
  file without section headers puts libpulp into its error state for good
  (`C70_*_refuted`). A patch that fails half-way leaves different code behind when applied
  from gdb and with the tool (`C71_failed_application_refuted`).
* A line of /proc/self/maps with more than 2048 bytes ends libpulp's search for a page
  protection: pages on it and behind it count as unmapped (`C72_long_line_refuted`).
* An errno outside EIO, EFAULT, EINVAL, ESRCH keeps ulp_ptrace asking without a pause until
  five seconds have passed; it sleeps only in the case it expects (part of `RetryModel`).
* The tool picks its option table by the first word on the line that is the name of a
  command, even if the word is the value of an option: `ulp -p dump trigger fix.so` is
  refused (`C75_option_value_refuted`). -r is cut to 32 bits and takes words that only start
  with a number (`C75_retries_wrap_refuted`, `C75_retries_garbage_refuted`). A path of
  exactly 256 bytes is accepted though the message says "shorter than 256". trigger offers
  -u and then always fails with ENOSYS.
* --disable-seccomp is allowed on the permitted capabilities (CapPrm), not on the effective
  ones the kernel will ask for (`C76_effective_refuted`).
* When the message buffer is nearly full, libpulp overwrites old messages before it removes
  them from the queue; `ulp messages` on a process stopped in between prints text nobody
  logged (`C77_reading_while_evicting_refuted`). The tool uses the ends of the queue as it
  finds them, also outside its buffer (`C77_corrupt_queue_refuted`). A number too large for a
  PID is cut to 32 bits (`C77_pid_wrap_refuted`).
- ulp packer: a second variable called `ret` hides the exit status, so if the comments cannot be
  embedded the packer says "successfully embedded", exits with 0, and writes no reverse section
  (`C78_comment_failure_refuted`); a failure in the last stage leaves a container with the new
  patch and the old reverse section (`C78_half_packed_refuted`); a failing objcopy and a full disk
  go unnoticed (`C78_objcopy_failure_refuted`, `C78_disk_full_refuted`); comments of an earlier
  description stay (`C78_stale_comments_refuted`); a temporary file that cannot be opened stays
  (`C78_temporary_left_refuted`).
- ulp extract: debug information without build ID, or missing, and an output that cannot be opened
  crash the tool (`C79_debuginfo_crash_refuted`, `C79_output_crash_refuted`); a full disk is not
  noticed (`C79_disk_full_refuted`); symbols from 2^31 on get another offset
  (`C79_high_symbol_refuted`); debug information of another build is merged
  (`C79_foreign_debuginfo_refuted`).
- Logging: reasons of errors are formatted with the va_list itself as their argument, so a reason with
  a conversion is undefined behaviour (`C80_reason_arguments_refuted`); the buffer messages are put
  together in is shared between threads without a lock (`C80_two_threads_refuted`).
- ulp patches: a process that cannot be stopped is shown like one without livepatches, with status 0
  (`C81_hidden_refuted`); livepatches of a libpulp before 0.3.1 are printed without a newline
  (`C81_old_libpulp_refuted`); functions of a program at a fixed address are looked for in the wrong
  place (`C81_fixed_address_refuted`); `-q` does not keep the report quiet (`C81_quiet_refuted`);
  `-p PID` ignores `-u` (`C81_user_refuted`); "(none)" is never printed (`C81_none_refuted`).
- ulp trigger offers `-u`, but always fails with it (`C76_trigger_user_refuted`).
- Before libpulp's constructor has run, aligned_alloc fails for sizes that are not a multiple of the
  alignment, which glibc accepts (`C82_aligned_size_refuted`), and accepts alignment 0 with size 0
  (`C82_aligned_zero_refuted`). Blocks from before the constructor come from glibc even if another
  allocator is used afterwards to free them (`C82_two_allocators_refuted`). A linker function that was
  not found is called through NULL (`C82_missing_refuted`). valloc is not tested and not counted when
  it is missing (`C82_valloc_refuted`).
- Preloading libpulp ends a program with glibc before 2.31 (`C83_exit_refuted`) and crashes it with
  a version string that is not of the form 2.N (`C83_crash_refuted`); a contended linker lock at
  start-up disables livepatching for good (`C83_contended_refuted`).
- Every patch request, also a refused one, costs the target one block and one per dependency for
  good (`C84_leak_refuted`). A livepatch refused by the state update stays loaded
  (`C84_container_refuted`). Lack of memory while names are read is reported as an invalid livepatch
  (`C84_error_code_refuted`).
- attach accepts any stop and detach drops the signal of the stop: a signal taken between the attach
  and its SIGSTOP is lost, and the process is left stopped (`C85_lost_refuted`); one taken while a
  routine runs is lost and the routine abandoned (`C85_interrupted_refuted`). After a timeout the
  process is killed by the breakpoint at the end of the routine (`C85_timeout_refuted`). A pending
  SIGCONT is discarded (`C85_sigcont_refuted`). A process stopped by job control is never patched,
  however often the tool tries (`C85_stopped_unpatched_refuted`).
- C86: nothing in the tool handles its own death. From the start of the first routine until the
  main thread is detached from, killing the tool (or ^C) kills the process or makes it die at the
  end of the routine (`C86_killed_refuted`, `C86_no_survivor_refuted`); killed while it attaches,
  it leaves the process stopped (`C86_stopped_refuted`). Half-written functions are never run,
  because the process does not survive them (`C86_all_or_nothing_partial`).
- C87: `--revert-all` with a patch is meant to be atomic, but the new patch is checked only after
  the old ones are reverted: if it depends on one of them (`C87_replaced_by_nothing_refuted`) or
  cannot be loaded (`C87_not_loaded_refuted`), failure is reported and the process is left unpatched.
- C88: a function whose entry still has the compiler's two one-byte nops is accepted as livepatchable; a
  thread between them continues at the displacement of the short jump (`C88_two_nops_refuted`). `ulp post`
  merges the nops, but nothing checks that it was run. A thread on the jump of a redirection whose patches
  are all reverted runs a replacement that is no longer in force (`C88_stale_refuted`); libpulp never
  restores the padding and never unloads patches, so it does not crash.
- C89: a version that cannot be read counts as 0, so a newer libpulp is patched and then reported as too new,
  with its writes pending for good (`C89_unreadable_refuted`). A libpulp whose queue symbol is not found counts as
  an old one: success is reported although nothing was written (`C89_no_queue_refuted`).
- C90: `insert_target_process` does not test what calloc returns and writes through NULL (`C90_no_memory_refuted`).
  The buffer of dig_load_bias is lost on every error path, and the new object of get_libname_dynobj when the link map
  or a name cannot be read (`C90_leak_refuted`). If the first process that is found turns out not to be accessible,
  NULL is enqueued before the end: the command ends while the thread goes on, and what it still finds is neither
  worked on nor released (`C90_early_end_refuted`). The routines use the context of the main thread without testing
  that there is one; it is there because a process is among its own threads (`C90_main_thread_refuted` shows what
  would happen otherwise).
- C91: a tool that is refused while another one holds the process gives up at once, although retries remain
  (`goto metadata_clean`). Of two tools one always gets in because both attach to the main thread first and detach
  from it last; with another order in /proc/<pid>/task both can be refused (`C91_order_needed`).
- C92: extract_ulp_from_so_to_mem leaves the container open when its path or metadata is too large; after as many
  such requests as there are descriptors, good livepatches are reported to have no metadata
  (`C92_descriptors_refuted`). What was read of an incomplete unit, dependency or reference is lost
  (`C92_leak_refuted`); the result of malloc is not tested (`C92_no_memory_refuted`). A section without a readable
  name, or an empty .ulp section, makes the tool crash (`C92_crash_case`, assert).
* C93: `ulp trigger --recursive` with a pattern that ends in a slash never ends (until its stack or
  its descriptors run out) if the folder has a subfolder: the pattern's last component is empty, so
  the path of the recursive call is the subfolder with a slash, of which `dirname` is the folder
  again. The folder's path is copied into a buffer of 256 bytes without a test of its length
  (trigger.c:284-286): a folder with a path of 255 characters or more overruns it. A folder that is
  itself called like a livepatch (`d.so`) is, after its files, tried as `d.so/<pattern>`.
- C95: on POWER, reverting a livepatch only restores the instruction at the entry. A thread stopped in the code in front of the function still enters the replacement that was installed last, which may be one that was neither in force when the thread was stopped nor when it goes on (`C95_case`).
- C96: `ulp_pthread_key_init` (lib/arch/powerpc64le/patch.c 250-256) creates a key with destructor `ulp_stack_cleanup`, but nothing ever calls `pthread_setspecific`, so the value of the key is NULL in every thread and POSIX never runs the destructor. Each thread that made a redirected call leaves its mapping (at least two pages) behind when it ends: a server that creates a thread per request leaks memory for as long as it is patched (`C96_given_back_refuted`, `C96_unbounded_refuted`).
- C97: `ulp post` merges the entry nops only of listed functions it finds in the symbol table (.symtab, or .dynsym if the library was
  stripped). Static functions of a stripped library keep two one-byte nops, without a message and with exit status 0, although
  libpulp can still redirect them. A thread stopped between the two nops when the livepatch is applied goes on at the displacement byte of the
  short jump (0xf0, a lock prefix, or 0xec, a privileged instruction, behind an endbr64) (`C97_no_symbol_refuted`, `C97_two_nops_stuck`). Also, `ulp post` on a
  file that is not ELF ends in a failed assertion instead of a message.
- C98: one process that has a file named like libpulp.so mapped but cannot be looked into keeps a command from all the others if it comes first in
  /proc: one being traced by gdb or strace, one that is exiting, or one that merely has a file such as libpulp.so.0.debug mapped (a debugger, a
  symboliser). `ulp trigger` then prints a summary of zeros and exits with status 0 (`C98_hidden_refuted`, `C98_hidden_case`). If such a process comes later,
  the process before it is worked on a second time in its place (`C98_visited`, `C98_visited_case`).
- C99: read_comment (tools/packer.c 475-493) advances by the length of the whole line but copies one byte less, so after each comment line one byte keeps
  what the memory held. The buffer is mapped fresh, so that byte is NUL: of a description with several comment lines only the first is recorded, shown by
  `ulp dump` and searched for labels by `ulp patches` (`C99_later_lines_refuted`, for all descriptions). A comment section without a closing NUL, or of
  4 GiB, makes `ulp dump` leave its buffer (`C99_unterminated_refuted`, `C99_dump_exact`).
- C26 on POWER: libpulp looks at one instruction only. A function with a nop as its first or third instruction is accepted whatever lies in front of it,
  and the 52 bytes there are overwritten (`C26_power_neighbour_refuted`).
- C100: the limit is measured with time(), the clock that can be set. Setting it forward during the waiting makes the tool give up at once on a healthy
  routine (which stays inside libpulp, C32); setting it back makes it wait longer than any bound (`C100_clock_set_refuted`). As the clock shows whole
  seconds, only one second less than the limit can be relied on (`C100_patient_partial`, `C100_patient_tight`): with `--timeout 1` the tool may give up at
  the first look. The limit is for one routine: for one process and one patch libpulp is asked up to once
  per attempt, and once more with a revert, each time with the whole limit (`C100_routines_per_command`); every further patch and process adds as much.
- C101: libpulp does not notice dlclose. A patch whose library was unloaded (and perhaps loaded again, unpatched) is still reported as applied, and
  applying it to the new copy is refused as already applied (`C101_unloaded_still_reported_refuted`); it has to be reverted first, and the revert reads
  the entry of the function where it was, which is a segmentation fault in the target if nothing is mapped there any more
  (`C101_reads_unloaded_refuted`). The records of reverted patches are never dropped and a revert handles every record with its ID, so a patch that is
  applied and reverted a second time, with its library at another address, also rewrites two bytes at the first address if they look like a short jump
  (`C101_stale_write_refuted`).
* `--disable-seccomp` does not reach reverting: with `--revert-all` libpulp's routine runs under the target's filter although the option was
  given (`C104_revert_under_filter_refuted`).
* Names of programs and livepatches are written to the terminal as they are, escape sequences included, also with `--color=no`
  (`C105_hostile_name`).
