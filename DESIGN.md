# Formal model of CrashDebug: design

Source: /repo (adamgreen/CrashDebug, pinned commit).  Prover: Coq 8.16.1, standard library only.
Everything lives in `rocq/theories`; `properties.jsonl` has the properties, `MANIFEST.json` the theorems
proved for each, `seeded/LOG.jsonl` the wrong programs the theorems were tested against.

## 1. Shape of the model

The C code is modelled function by function as total Gallina functions in a state monad with three
outcomes: `Ret a s` (normal return), `Exc s` (a `longjmp` is in flight) and `Ub k` (the C program would have
undefined behaviour, or an `assert` would abort).  So "never crashes" is "the outcome is not `Ub`", and a
crash found is an input whose outcome is `Ub`.

The state ("world") holds the simulator object, the live heap blocks and the size of every request, the open files, the exception
globals, the register context, what was written to stderr, the console and the GDB console, and an immutable
environment of oracles: which `malloc` fails, the file system, which file operation fails or is short, and what the
terminal does.  Theorems quantify over the oracles, that is over all fault schedules.

Files (models contain no proofs, `*Spec.v` contain the vocabulary of the theorem statements):

* Models: `Base` (bytes, 32-bit wrap, little-endian, printf conversions, strtoul), `World` (monad, heap, files),
  `MemSim` (MemorySim.c), `Context`, `Dump` (CrashCatcherDump.c), `GdbLog` (GdbLogParser.c), `Elf` (ElfLoad.c),
  `CmdLine` (CrashDebugCommandLine.c, common.c), `Platform` (mriPlatform.c), `Comm` (StandardIComm.c, POSIX console), `CommWin` (Windows console),
  `MainProg` (main.c), `TryCatch` (try_catch.h/.c as a machine with handler chain, setjmp and longjmp), `Mocks` (the test doubles).
* Specifications: `MemSpec`, `HitSpec`, `DumpSpec`, `LogSpec`, `ElfSpec`, `CmdSpec`, `AliasSpec`, `NumSpec`, `PlatSpec`, `GdbSpec`, `TargetSpec`, `TrySpec`, `MockSpec`, `WinSpec`, `StartSpec`, `MapSpec`, `MsgSpec`, `ChanSpec`, `WhySpec`, `ReproSpec`, `OomSpec`, `StartAnySpec`, `OpenSpec`, `SessAnySpec`, `SizeSpec`, `LeakSpec`.
* Theorems: `PropMem` (C01-C19), `PropAccess` (C01, C03, C04, C10: the access functions by name), `PropLatch` (C46: what asking does), `PropDump` (C20-C27, C50), `PropLog` (C28-C32, C50), `PropElf` (C33-C35), `PropCmd` (C36-C41,
  C49), `PropAlias` (C36 messages, C55), `PropPlat` (C42-C46, C49, C51-C54), `PropSess` (C56), `PropGdb` (C57), `PropNum` (C58), `PropTry`
  (C47, C48), `PropMock` (C59-C63), `PropWin` (C64, C46), `PropStart` (C65-C67, C50), `PropMap` (C68-C70), `PropText` (C71), `PropMsg` (C72), `PropChan` (C73), `PropWhy` (C74), `PropXml` (C75), `PropTarget` (C76), `PropRepro` (C77), `PropOom` (C78), `PropStartAny` (C79, C35), `PropOpen` (C80), `PropSessAny` (C81), `PropSize` (C82), `PropHits` (C18: range of the hit count), `PropLeak` (C38, C49: bound on what stays allocated), `PropLoad` (C14: exact effect of a load), `PropKeep` (C40: every image), `PropFlash` (C13: every state), `PropLater` (C42, C44, C53: across a session).  Beside each theorem is an `Example` showing a concrete case that meets its hypotheses.
* Everything else is lemmas.  `Test*.v` run the repository's own unit tests on the model by computation: they are tests
  of the model's fidelity, not proofs of properties.

How exceptions are modelled: `try_` follows the macros literally (the handler runs iff the global code is
non-zero after the body, `throw` keeps the larger of the old and the new code).  `PropTry` proves that
these definitions compute what the macros do on the machine of `TryCatch` (C48_model_is_macros).  `api m w` is a call
made by a caller with no exception pending: it clears the exception state and runs `m`.  The debug monitor is assumed
to make its calls this way.

A theorem named `..._partial` proves part of its property, and says what is missing; `..._refuted` proves that the
missing part is false of the code, with a witness.

## 2. Properties

| id | property | modelled code | proof | status | what is missing |
|----|----|----|----|----|----|
| C01 | A read returns what was last written | MemSim reads/writes, all history operations | induction over histories with the invariant Inv (MemInv, MemHist) | proved | - |
| C02 | Writes touch only their own bytes | MemSim reads/writes | closed form of an access on a well-formed region list | proved | - |
| C03 | An access succeeds exactly when one region holds all of it | findMatchingRegion, getDataPointer | closed form of the region search | proved | - |
| C04 | Wide accesses are little-endian compositions of byte accesses | MemSim reads/writes | closed form, little-endian lemmas | proved | - |
| C05 | Read-only memory can never be modified by writes | all MemSim operations | induction over histories | proved | - |
| C06 | A direct alias is transparent | CreateAlias, findMatchingRegion | case analysis on the region search | proved | - |
| C07 | Aliases never expose memory outside their target | CreateAlias | invariant on alias regions; counterexample by computation | partial | Holds for aliases whose redirect address lies in a real region; an alias of an alias reads outside all storage (refuted), also from the command line (C07_command_line_refuted). |
| C08 | The simulator never leaves its own storage | all MemSim operations | invariant over histories, undefined behaviour is an outcome | partial | Holds unless an alias of an alias is created, the read-counter allocation failed before a read-count query, or the memory map needs 2^31 bytes; all three are refuted by counterexamples (C07_alias_of_alias_refuted, C08_read_count_refuted, C15_overflow_refuted). C08_only: without an alias of an alias nothing else goes wrong; C08_count_exact says exactly which read-count queries do. |
| C09 | Fresh RAM reads as zero | CreateRegion | closed form | proved | - |
| C10 | Creating regions never disturbs existing ones | CreateRegion, CreateAlias | closed form; prefix lemma for the search | proved | - |
| C11 | Out-of-memory leaves the simulator unchanged | all MemSim operations, allocation oracle | per-operation case analysis over every allocation schedule | proved | - |
| C12 | No leak and no double free | all MemSim operations, Uninit, block accounting | invariant: live blocks are exactly those of the regions; C12_account adds the counter arrays that calls replaced | partial | Making a region read-only twice leaks its counters (refuted). C12_account is the exact account: what remains is what was there before and the counter arrays that were replaced, which only such calls do (C12_replaced_only). |
| C13 | Flash-image region creation | CreateRegionsFromFlashImage | composition of the closed forms | partial | C13_flash_image_partial: when no older region overlaps the image. C13_every_state_partial: exact effect in every state, and no region is added when an allocation is refused. If an older region overlaps, it receives the image (C13_overlap_refuted) and keeps it after a failure (C13_failure_refuted). |
| C14 | Flash loading copies the image exactly | LoadFromFlashImage | induction on the image | partial | Exact when regions do not overlap; refuted otherwise (C14_overlap_refuted). C14_exact says what every load does in every state, overlapping regions and failures included. |
| C15 | Memory-map XML is complete and faithful | GetMemoryMapXML with buffer sizes | induction on the region list; injectivity of the text | partial | Exact for every reachable state, except that an assertion fails when the text buffer would have 2^31 bytes or more (C15_overflow_refuted). |
| C16 | Flash read counters count 16-bit reads exactly | MakeRegionReadOnly, Read16, GetFlashReadCount | counting over histories | proved | - |
| C17 | Break/watchpoints behave as a set | Set/ClearHardwareBreakpoint/Watchpoint (sorted array, realloc) | refinement of the sorted array to a set | partial | The installed set and the outcome of accesses do not depend on order, for every region and address; the hit counter after a breakpoint does (refuted). |
| C18 | Watchpoint hits are exactly the contained accesses | watchpoint search | equivalence of the binary-order scan with containment | partial | Exact account for every access in 32-bit arithmetic (C18_read_counted, C18_write_counted, C18_top_counts), and for every history of calls, failing ones included (C18_history); that is containment for every access that ends below the top of the address space where no watchpoint runs to the top; refuted at the top. |
| C19 | Breakpoints fire exactly on contained 16-bit reads | breakpoint search | as C18 | partial | Exact account for every read in 32-bit arithmetic (C19_read_caught); that is containment for every read that ends below the top of the address space where no breakpoint runs to the top; refuted at the top. |
| C20 | Binary dump round trip | CrashCatcherDump reader | reference reader DumpRef, then induction over the regions | proved | - |
| C21 | Version 2 dumps | CrashCatcherDump reader | as C20 | proved | - |
| C22 | Floating-point registers are taken only when flagged | CrashCatcherDump reader | as C20 | proved | - |
| C23 | Hex dumps mean the same as binary dumps | hex reader | simulation of the hex stream by the binary stream | proved | - |
| C24 | Truncated binary dumps are rejected | CrashCatcherDump reader | cuts classified by where they fall in the encoding; converse for all files | partial | A cut exactly after the start address of a region that begins at 0xACCE55ED is reported as a stack overflow (C24_mark_refuted); every other cut is covered. C24_accepted_only is the converse: whatever loads is a complete encoding. |
| C25 | Stack overflow marker | CrashCatcherDump reader | as C24 | proved | - |
| C26 | Dump loading is total and safe on arbitrary files | CrashCatcherDump reader, file and allocation faults | totality + invariant; no Ub outcome | proved | - |
| C27 | Malformed hex digits are rejected | hex reader | induction on the text | partial | An unpaired last character is never checked (C27_last_character_refuted). The exception code is exact when everything before the bad pair is a correct dump (C27_malformed_after); otherwise an earlier bus error or refused allocation may be reported instead (C27_malformed_partial). |
| C28 | GDB log register round trip | GdbLogParser | reference semantics of a line (LogSpec), induction over lines | proved | - |
| C29 | GDB log memory round trip | GdbLogParser | as C28 with region growth | partial | Proved for logs of four-word lines (or lines ending directly after their last word) whose runs fit into free memory. Missing: a line ending at 2^32 directly followed by one at address 0 (refuted: bus error) and symbols with unbalanced angle brackets (refuted: words lost). |
| C30 | A GDB log memory line contributes exactly its words | GdbLogParser | as C28 | partial | Refuted for short lines with a newline: one zero word too many. C30_effect gives the exact effect for every log; C30_exact_partial is the true part. |
| C31 | GDB log loading is total and safe | GdbLogParser, fgets faults | totality + invariant | proved | - |
| C32 | Floating-point flag from GDB logs | GdbLogParser | as C28 | proved | - |
| C33 | ELF loading | ElfLoad | induction over the program headers | proved | - |
| C34 | Invalid ELF files are rejected | ElfLoad | case analysis over all headers | proved | - |
| C35 | ELF loading never reads outside the file | ElfLoad | bounds on 32-bit sums; counterexample by computation | partial | Refuted for the code: offset+size is computed in 32 bits, so p_offset=84, p_filesz=0xFFFFFFB0 passes the check and bytes after the file are read. Proved under the condition that no loadable entry ends beyond 2^32. C35_any_partial: for files of any size and contents, only a file with such an entry, or of nearly 4 GB, is read beyond its end. |
| C36 | Command-line grammar | CrashDebugCommandLine parser and messages | induction over the argument list | proved | - |
| C37 | Option order is irrelevant | CrashDebugCommandLine | both passes depend only on the option lists per kind | proved | - |
| C38 | Start-up failure is clean | CrashDebugCommandLine_Init, common.c | composition; cleanup accounted by the heap invariant | partial | Holds for every argument list, fault schedule and file contents unless an ELF file has entries that wrap past 2^32 or overlap: then the loader reads outside the file (C38_crash_refuted) or start-up leaks a block (C38_leak_refuted). C79 covers those files too. C38_lost_partial bounds what stays allocated by the number of overlapping entries, for every file, and C38_apart_partial is the case without any. |
| C39 | Dump type detection | getFileType, loadDumpFile | case analysis on the first bytes | proved | - |
| C40 | A dump can never modify the program image | CrashDebugCommandLine_Init | read-only regions are kept by every later step | partial | Whatever the dump, the aliases, the I/O faults and refused allocations. C40_protected_partial: for every image, what cannot be written after loading it is as it was after start-up. C40_apart_partial: that is all of the image, unless an entry of an ELF file starts inside an earlier one; then it fails (C40_overlap_refuted). |
| C41 | End-to-end fidelity | CrashDebugCommandLine_Init | composition of C20/C23/C29/C33 | proved | - |
| C42 | Register packet round trip | Platform_Copy*, target XML | list computations over all contexts and packets | proved | - |
| C43 | Debugger memory access never fails hard | Platform_Mem*, fault counter | induction over sequences of platform calls | partial | Refused accesses are counted exactly between queries. Partial: the 32-bit counter overflows (undefined behaviour) after 2^31 failures without a query, proved as C43_overflow_refuted. |
| C44 | Signal reported to GDB | Platform_DetermineCauseOfException | case analysis | proved | - |
| C45 | Fault report content | Platform_DisplayFaultCauseToGdbConsole | equality with a table-driven specification | proved | - |
| C46 | Connection latch | StandardIComm, POSIX console oracle | induction over schedules | partial | Partial: end of input counts as a received character (C46_end_of_input_refuted). C46_exactly_partial says exactly what counts as a connection, for every schedule of console results. |
| C47 | The handler runs only when the body throws | try_catch.h/.c as a machine | simulation by structured semantics for proper programs; counterexample | partial | Machine with explicit handler chain, setjmp/longjmp, for every program built from the macros and any program state. Proved for properly used macros (C47_proper is an equivalence with a structured specification). Refuted in general (stale code), also on the modelled Platform_MemRead. |
| C48 | Exceptions are delivered with their code and handlers are balanced | try_catch.h/.c as a machine | invariant on the handler chain | partial | Balance, nearest handler and no dangling jump for every program whose try bodies do not return. The code delivered is max(code thrown, stale code): refuted variants are separate theorems. C48_model_is_macros justifies the throw/try computations used by the rest of the model. |
| C49 | Process exit status | main | composition; arbitrary monitor | partial | The exit status is exact for every start-up failure and every monitor; freeing everything fails only where C38 fails (C49_leak_refuted). C49_session_partial covers whole sessions with an arbitrary monitor. C49_lost_partial bounds what a whole run leaves allocated by the number of overlapping entries. |
| C50 | Read errors are reported | dump and log readers with I/O faults | simulation: the reader on a faulty file behaves like the reference reader on a prefix of it (DumpFault.v, LogRef.v); counterexamples; case analysis for rewinds | partial | Refuted for the code: a failing fgets is taken for the end of the log, a failing fread of a region descriptor for the end of the dump, a failing read in the second pass of a log leaves zeros where the log shows other words, and a failing read while the type is determined turns a binary dump into an empty log; all are reported as success. Proved for every fault schedule: a dump reported as loaded has all its registers and a prefix of its regions, complete, and loses regions only if an operation failed (binary, hex, and files of any contents); a log reported as loaded has the registers of a prefix of its lines; a failed open (C31_file_exception, C26) and a failed rewind between the two passes are always reported. |
| C51 | Stop reply agrees with the register packet | Platform_WriteTResponseRegistersToBuffer | list computation | proved | - |
| C52 | A debug session only ends by an exception | mriPlatform_Run | induction over iterations | proved | - |
| C53 | Sizes announced for the XML descriptions | Platform_Get*Xml* | C15 and computation | proved | - |
| C54 | Bytes pass through the console unchanged and in order | StandardIComm | induction over calls | proved | - |
| C55 | Aliases requested on the command line | --alias options end to end | C41 plus the layout of alias regions | proved | - |
| C56 | A crashed program stays frozen | all platform calls | induction over sessions: per-call frame lemma (PlatView) | proved | - |
| C57 | What the debugger shows is what the files say | start-up and all platform calls | C41 composed with the frame lemmas over sessions (GdbView) | proved | - |
| C58 | Numbers on the command line | option parsing, strtoul | digit-by-digit induction over numerals; counterexamples by computation | partial | Every numeral of a 32-bit number means that number, in all option arguments; and whatever the text is, the number it is taken for is settled (C58_taken_for, C58_image_taken, C58_aliases_taken: blanks, one sign, the longest numeral; saturation at 2^64). Not proved because false: text that is not a number is accepted (C58_not_a_number_refuted), and larger numbers lose their upper bits (C58_too_large_refuted). |
| C59 | Failing the n-th allocation in tests | MallocFailureInject.c | induction over histories | proved | - |
| C60 | Failing file functions in tests | FileFailureInject.c | one invariant per function over histories; frame lemma for the others | partial | Proved for every history. Not proved because false: with a buffer size of 0 fgets writes outside the buffer (C60_no_room_refuted), and a count of fseek calls that was not used up outlives the restore (C60_left_over_refuted). |
| C61 | What tests see of printed text | printfSpy.c | invariant on the ring of buffers, induction over the texts | partial | Proved: the n-th last text (n up to 4) on the stream it was printed to, and exactly what is found otherwise. Not proved because false: text on one stream pushes out the last texts of the other (C61_other_stream_refuted). |
| C62 | The mock console | mockConsole.c | induction over histories | partial | Proved for every history in which the capture buffer was set up. Asking for the captured text without one writes through NULL (C62_no_buffer_refuted). |
| C63 | The mock communication channel | mockIComm.cpp | invariant on what is left to receive; induction over packets for checksums | proved | - |
| C64 | The communication channel on Windows | Windows console of MockDefaults.c, StandardIComm | induction over the calls | proved | - |
| C65 | A failing start-up says why | CrashDebugCommandLine.c and everything it calls | code-and-message Hoare logic over all loaders (MsgThms) | partial | Every wrong command line gets a message. Any other failure does too, except the cases that C65_hex_refuted, C65_log_refuted and C65_elf_refuted show to be silent: a bad digit in a hex dump (the code throws without a message), and memory-map errors of an ELF image or a GDB log. C65_any_partial also covers failing file operations. |
| C66 | Only dumps are accepted as dumps | getFileType, the dump readers, GdbLogParser.c | inversion of the dump readers; C41 with a log that says nothing | partial | Files with the binary or hex signature are accepted only if they are complete dumps (a hex dump may be followed by one character). Refuted for the rest: C66_anything proves that every file without signature in which no line is about memory or registers is accepted as an empty GDB log, e.g. an empty file, or a hex dump after a blank line. |
| C67 | An image must fit the address space | loadBinFile, ElfLoad.c, MemorySim.c | the last byte written lies in some region; regions are exactly the segments | partial | Exact for raw images (below 2^32 bytes: accepted only if they fit, rejected with a bus error if not, unless memory runs out). For executables only partial: a segment may wrap around into another segment, and then overwrites it (C67_elf_refuted). |
| C68 | Host pointers into simulated memory | MemorySim.c | exact result of getDataPointer in well-formed states; storing through the pointer keeps the invariant | proved | - |
| C69 | The memory map says what can be written | MemorySim.c, CrashDebugCommandLine.c, mriPlatform.c | invariant: an alias is read-only iff its target is; no loader makes an alias; every request of the monitor keeps it | partial | Exact for every successful start-up and debug session (C69_session). With arbitrary calls of the simulator it holds for accesses that do not go through an alias (C69_direct_partial); an alias made before its target became read-only is described as RAM (C69_alias_refuted). |
| C70 | A simulator starts from nothing | MemorySim.c | an empty region list refuses everything | proved | - |
| C71 | Numbers in texts | MemorySim.c, CrashDebugCommandLine.c | the digits that printf produces, by induction on their number, against `value_of` of NumSpec.v | partial | The memory map is fully proved. The size of an alias is shown as a signed number, so the claim about the message holds for sizes below 2^31 (C71_alias_partial) and fails for larger ones (C71_alias_size_refuted). The numbers in the messages about ELF files are part of C72. |
| C72 | The message names the defect | CrashCatcherDump.c, ElfLoad.c | by cases on what the reference reader finds (DumpMsg.v) and by induction on the entries (ElfMsg.v), against the lists of complaints in MsgSpec.v | partial | Dumps, binary and hex, are fully proved: every failure with a valid text and without file errors gets the message of its first defect (hex dumps with bad digits: see C74). For executables the offsets are shown as signed numbers, so the claim holds when what the loadable entries describe ends within the first 2 GB (C72_elf_partial) and fails otherwise (C72_elf_refuted); C72_elf_reported says what is shown for every executable whose entries describe contents below 4 GB. Files of 4 GB less 64 KB or more are not covered. |
| C73 | The channel during a session | mriPlatform.c, StandardIComm.c | a relation kept by every call but those of the channel (ChanThms.v, with Closed.v), then induction on the calls | proved | - |
| C74 | The error line accounts for the failure | CrashDebugCommandLine.c and the loaders | message bookkeeping through every function of the loaders (WhyThms.v; WhyFault.v when file operations fail), combined with the accounts of C72 and what start-up is known to do (CmdSafe.v, ElfClean.v) | partial | Whatever allocations are refused and whatever file operations fail, every failure gets the message called for (C74_any_partial): file errors name the file; every other message is the one that the image, read completely, and the part of the dump before the first failing read call for; memory is blamed only after a refused allocation. C74_why_partial is sharper when no file operation fails. Refuted in part: some of these messages are empty, as the specification says (C74_silent_refuted, and see C65). |
| C75 | The XML descriptions are well-formed | MemorySim_GetMemoryMapXML, the target descriptions | an XML reader written as a state machine (XmlSpec.v), run over the pieces of the text; the target descriptions by computation | proved | - |
| C76 | A session behaves like the target its files describe | start-up and all platform calls | a target (TargetSpec.v) made of parts, aliases, registers and a count; simulation relation kept by every call (TargetThms.v), induction over the calls | proved | - |
| C77 | Runs are reproducible | start-up, main and all platform calls, in two runs | a relation between the states of two runs that allows for different names of blocks and handles (Repro.v), kept by every function of the program; induction over the monitor | proved | - |
| C78 | Running out of memory is always reported, and nothing else as that | all functions of the simulator, start-up, the platform layer and main | an invariant of every function about the numbers of requests made and granted (Oom.v), with handlers shown to raise the exception again; induction over the monitor | proved | - |
| C79 | Start-up always comes to an end | start-up as a whole, with arbitrary files | an invariant of the loaders that allows for lost blocks and for reads beyond the executable (StartAny.v); the entry that wraps is found among the finitely many entries | proved | - |
| C80 | Only the named files are opened | start-up, the platform layer and main, with the list of opened files | a relation kept by every function that opens nothing, extended at the four functions that open a file (OpenThms.v); the channel by the relation of ChanThms.v; induction over the monitor | proved | - |
| C81 | No debugger and no dump brings the program down | main with start-up, the platform layer and an arbitrary monitor | start-up with any files (C79) keeps the invariant of sessions up to lost blocks; induction over the monitor with the number of failures (SessAny.v) | proved | - |
| C82 | Every block of memory is large enough for what is kept in it | the heap with the size of every request, the simulator, start-up and the platform layer | an invariant (each used block has room) kept by every function of the model, composed along sequencing and try blocks (SizeThms.v) | proved | - |

All 82 properties can be expressed in the model; none is `not_applicable`.

## 3. Trusted base

* Coq's kernel (8.16.1), and its virtual machine for `vm_compute` in examples, counterexamples and finite computations.
* Axioms: none.  `Print Assumptions`, at the end of each `Prop*.v`, reports "Closed under the global context" for every
  theorem listed in MANIFEST.json.  A check of the whole environment also lists the parameters of the module type
  `Coq.ssr.ssrunder.Under_rel` (Over_rel, over_rel, over_rel_done, Under_rel, Under_relE, Under_rel_from_rel,
  under_rel_done): a standard-library module that Coq loads by default; no theorem depends on them.
* The reading of the C code.  What is modelled is cited, by file and lines, at each definition.  The `Test*.v` files support
  it: they re-run the repository's unit tests on the model.
* The specifications (`*Spec.v`), which a reader has to agree with.

## 4. What is modelled

* libCrashDebug/src/MemorySim.c: every function.
* libCrashDebug/src/CrashCatcherDump.c, GdbLogParser.c, ElfLoad.c: every function.
* libCrashDebug/src/CrashDebugCommandLine.c and libcommon/src/common.c: every function.
* libCrashDebug/src/mriPlatform.c: every function except `mriPlatform_setWaitForGdbConnect`, which only the unit tests
  call (the setting is modelled as its initial value).
* libCrashDebug/src/StandardIComm.c and the consoles of main/MockDefaults.c (POSIX and Windows): every function.  `select`, `read`,
  `write`, and their Windows counterparts, are oracles.
* include/try_catch.h, libcommon/src/try_catch.c: the macros and `__throw`, as a machine.
* main/main.c.
* The test doubles: libmocks/src (MallocFailureInject.c, FileFailureInject.c, printfSpy.c), libCrashDebug/mocks (mockConsole.c,
  mockIComm.cpp).  A call they pass on to the C library is just `Passed`.

Not modelled:

* mri/ and CrashCatcher/ are empty submodules in /repo.  Taken from the tests and headers: the signature bytes (0x63 0x43),
  versions 2.0 and 3.0, floating-point flag bit 0, the stack sentinel 0xACCE55ED, the region header {start, end}, and
  that `noException = 0` is below every other code.  mri's packet `Buffer` is "two lower-case hex digits per byte"; what mri's
  `Buffer` does at its end is an exception.  The GDB protocol engine is not modelled: theorems about sessions
  quantify over all sequences of calls it could make (`pcall`, `debug_state`, `monitor_ok`).
* Makefiles, tests other than those re-run, signals, threads, timing, and stdio buffering.

Simplifications (each is also stated at the definition):

* The host is little-endian with 8-bit bytes, 32-bit int and 64-bit long; "C" locale.
* A throw without any handler (debugbreak and exit in C) is just `Exc`.
* The watchpoint hit counter is an unbounded integer (C18_in_range: it stays in the range of an int while accesses times requests for watchpoints stay below 2^31); the memory fault counter does overflow (C43).
* realloc never extends in place; a refused realloc keeps the old block.
* The handler records of try blocks live in a store that only grows, so that a dangling pointer is visible as such.
* `assert` is taken to be compiled in.
* Locals keep their values across a `longjmp`.  The C standard promises that only for volatile ones; the `object` of
  CrashCatcherDump_ReadBinary/ReadHex is not volatile.
* Reading a structure of an ELF file at an odd offset is taken to work, as on x86 and ARMv7.

## 5. Defects of the code found on the way

Each is a theorem; the number is the property it belongs to.

* An alias of an alias reads outside all storage, also from the command line (C07).
* Asking for read counts after their allocation was refused dereferences NULL (C08).
* Making a region read-only twice leaks its counters (C12); an ELF file with overlapping segments does that at start-up (C38, C49).
* Flash images and loads that overlap an earlier region go to the wrong place (C13, C14); overlapping segments of an ELF file show the
  first segment's bytes (C40).
* With about 19.5 million regions (a 160 MB dump) the memory map runs into an assertion (C15).
* A breakpoint hit hides later watchpoint hits, so the hit count depends on the order (C17).
* Watchpoints and breakpoints at the very top of the address space are missed or hit wrongly (C18, C19).
* A dump cut right after a region start 0xACCE55ED is reported as a stack overflow (C24).
* The unpaired last digit of a hex dump is ignored (C27).
* GDB logs: a run that reaches 2^32 followed by address 0 is a bus error, symbols with unbalanced brackets lose words (C29), a short
  line ending in a newline adds a zero word (C30).
* ELF: offset + size is computed in 32 bits, so a crafted file makes the loader read beyond its buffer (C35, C38).
* 2^31 failing accesses without a query overflow an int (C43).
* End of input counts as a received character and as a GDB connection (C46).
* A handler can run although its body threw nothing, because of a stale code (C47); `return` inside a try block leaves a dangling
  handler, rethrow after the code was cleared is lost, and a smaller code thrown over a larger is not delivered (C48).
* Text that is not a number is accepted as an address, and addresses above 2^32 lose their upper bits (C58).
* In the test doubles: text on stderr hides the last text on stdout (C61), a left-over fseek count survives a restore, fgets with
  size 0 writes outside its buffer (C60).
* A bad digit in a hex dump, a GDB log that wraps around and an ELF image without memory fail with an empty message (C65).
* Any file without a signature - an empty one, or a hex dump after a blank line - is accepted as a GDB log without registers (C66).
* An alias made before its target is made read-only is described as RAM in the memory map (C69).
* The size in the message about an alias is printed as a signed number: -1 for 4294967295 (C71).
* The offsets in the message about an ELF entry outside the file are printed as signed numbers (C72).
* An ELF segment that runs past 0xffffffff overwrites a read-only segment at address 0 (C67).
* A read error inside a dump or a log is taken for its end, and the rest is silently missing; in the second pass over a log it
  leaves zeros in memory the log shows; while the file type is determined it turns a valid dump into an empty log (C50).

## 6. Testing against wrong programs

`seeded/LOG.jsonl` has one line per edit of the model: the definition, the edit, the claim it breaks, where the build failed
first (`first_failures`), theorems about that claim which no longer build (`theorems_failed`), and those tightened or added
because an edit survived.  The edits were made in scratch copies, one at a time, followed by a rebuild of all theorem files
(without the `Test*.v` files, so that an edit is never caught by a unit test).

How to read `theorems_failed`:

* A theorem is listed if its own proof, or the proof of a lemma it depends on, fails after the edit.
* That shows that the existing proof breaks.  It does not show that the statement is false of the edited program: a proof script
  can also break for another reason.  Whether the edit makes the statement false was judged by reading, not proved.
* The list was first written from the claim and checked afterwards, against which lemmas each theorem depends on.  For 88 lines
  the first failure did not support it.  Most of these were run again, leaving out each failing proof in turn and building on, and
  theorems this did not support were removed.
* A `note` says where that run was not made, where it did not show the expected theorem to fail, or how the failure was
  established instead.  It names the theorem first expected.  If such a line lists no theorem, the edit breaks the build but is not known to break a theorem about its claim.
* An earlier version of the log filled such lines with up to four theorems that merely depend on the first failure, some of them
  unrelated to the claim.  Those entries have been taken out.
* The list is not complete: other theorems may fail too.
