{"id": "C01", "title": "A read returns what was last written", "statement": "After a successful 8/16/32-bit write of v at address a, a read of the same width at a (by the same or any later call with no intervening write to those bytes) succeeds and returns v reduced to that width.", "quantifier": "every reachable simulator state, every address, width and value, through plain regions and aliases", "why_tests_cant": "the state space (region layouts x addresses x values x histories) is unbounded; tests exercise a handful of addresses", "anchors": ["libCrashDebug/src/MemorySim.c:write32", "MemorySim.c:read32", "getDataPointer"]}
{"id": "C02", "title": "Writes touch only their own bytes", "statement": "A successful write changes only the bytes of simulated memory it names; every other byte of every region, the region layout, read-only flags and watchpoints are unchanged; a failing access changes nothing at all (a read stopped by a breakpoint changes no stored byte).", "quantifier": "every state, address, width, value and every other byte", "why_tests_cant": "a test can only look at some of the other bytes", "anchors": ["libCrashDebug/src/MemorySim.c:write8", "write16", "write32", "getDataPointer"]}
{"id": "C03", "title": "An access succeeds exactly when one region holds all of it", "statement": "A read of n bytes at a succeeds (ignoring breakpoints) iff some single region contains [a,a+n) computed without 32-bit wrap; a write additionally needs that region to be writable; otherwise the access raises the bus-error exception and memory is unchanged.", "quantifier": "all region layouts (overlapping, adjacent, zero-length, touching the top of the address space), addresses, widths", "why_tests_cant": "boundary conditions at every region edge and at 2^32 cannot be enumerated", "anchors": ["libCrashDebug/src/MemorySim.c:findMatchingRegion", "getDataPointer"]}
{"id": "C04", "title": "Wide accesses are little-endian compositions of byte accesses", "statement": "When regions do not overlap, a successful 16/32-bit read at a equals the little-endian combination of the byte reads at a, a+1, ...; a 16/32-bit write equals the corresponding byte writes.", "quantifier": "all states with non-overlapping regions, all addresses and values", "why_tests_cant": "needs all 2^32 values and addresses", "anchors": ["libCrashDebug/src/MemorySim.c:read16", "read32", "write16", "write32"]}
{"id": "C05", "title": "Read-only memory can never be modified by writes", "statement": "Once a region has been made read-only no sequence of API writes (direct, via alias or via the host-address-for-write query), succeeding or failing, changes any of its bytes.", "quantifier": "every history of operations after the region became read-only", "why_tests_cant": "property of every history", "anchors": ["libCrashDebug/src/MemorySim.c:MemorySim_MakeRegionReadOnly", "getDataPointer"]}
{"id": "C06", "title": "A direct alias is transparent", "statement": "Accessing offset k of an alias reads/writes exactly what accessing redirect address + k does: same value, same failure, same effect on memory, read counts, watchpoints and breakpoints.", "quantifier": "every state, alias whose target is a real region, every offset within the alias, all widths and operations", "why_tests_cant": "quantifies over all layouts, offsets and operations", "anchors": ["libCrashDebug/src/MemorySim.c:MemorySim_CreateAlias", "findMatchingRegion"]}
{"id": "C07", "title": "Aliases never expose memory outside their target", "statement": "After creating an alias its size is the requested size clamped to the end of the target region, and every access that succeeds through it stays inside the target's storage.", "quantifier": "all states, bases, redirect addresses and sizes - including aliases whose redirect address lies in another alias", "why_tests_cant": "the failing case (alias of an alias) is an interaction no test exercises", "anchors": ["libCrashDebug/src/MemorySim.c:MemorySim_CreateAlias"]}
{"id": "C08", "title": "The simulator never leaves its own storage", "statement": "No sequence of API calls, with any allocation failures, makes the simulator read or write outside the storage it allocated.", "quantifier": "every finite sequence of API calls with every allocation-failure schedule", "why_tests_cant": "memory safety over all histories and crash points", "anchors": ["libCrashDebug/src/MemorySim.c"]}
{"id": "C09", "title": "Fresh RAM reads as zero", "statement": "Every byte of a newly created region that is not shadowed by an earlier region reads as zero until it is written.", "quantifier": "every base, size and later history", "why_tests_cant": "all addresses, all histories", "anchors": ["libCrashDebug/src/MemorySim.c:MemorySim_CreateRegion", "throwingZeroedMalloc"]}
{"id": "C10", "title": "Creating regions never disturbs existing ones", "statement": "Creating a region or alias does not change the outcome of any access that previously succeeded: existing mappings take precedence over later ones.", "quantifier": "every state, every new region/alias, every access", "why_tests_cant": "all layouts, including overlapping ones", "anchors": ["libCrashDebug/src/MemorySim.c:addRegionToTail", "findMatchingRegion"]}
{"id": "C11", "title": "Out-of-memory leaves the simulator unchanged", "statement": "If any allocation fails while creating a region, alias or setting a break/watchpoint, the call raises out-of-memory, the simulated memory is as before the call and nothing it allocated stays allocated.", "quantifier": "every state, argument and failing allocation", "why_tests_cant": "every crash point of every call", "anchors": ["libCrashDebug/src/MemorySim.c:MemorySim_CreateRegion", "MemorySim_CreateAlias", "growWatchpointArray"]}
{"id": "C12", "title": "No leak and no double free", "statement": "After any sequence of API calls with any allocation failures, uninitialising the simulator releases every block it allocated, each exactly once.", "quantifier": "every history and allocation-failure schedule", "why_tests_cant": "resource safety over all histories", "anchors": ["libCrashDebug/src/MemorySim.c:MemorySim_Uninit", "freeRegion", "freeLastRegion", "allocateReadCountArray"]}
{"id": "C13", "title": "Flash-image region creation", "statement": "Creating regions from a flash image of n>=4 bytes gives a read-only region at 0 holding exactly the image and a zeroed RAM region from (SP & 0xF0000000) to SP, where SP is the image's first word; a shorter image is rejected; on failure no new region remains and nothing is leaked.", "quantifier": "every image, every prior state, every allocation failure", "why_tests_cant": "all images and crash points", "anchors": ["libCrashDebug/src/MemorySim.c:MemorySim_CreateRegionsFromFlashImage", "freeLastRegion"]}
{"id": "C14", "title": "Flash loading copies the image exactly", "statement": "Loading an image of n bytes at address a into a region covering [a,a+n) stores byte i of the image at a+i for all i<n, changes nothing else, and never reads outside the image.", "quantifier": "every image length (including lengths not multiple of 4) and contents, every address", "why_tests_cant": "length/contents unbounded", "anchors": ["libCrashDebug/src/MemorySim.c:MemorySim_LoadFromFlashImage", "load32", "load8"]}
{"id": "C15", "title": "Memory-map XML is complete and faithful", "statement": "The memory-map XML lists every region in creation order with its type (flash iff read-only), start and length, such that the region list can be recovered from the text; generating it never overruns its buffer or trips an assertion; if the buffer cannot be allocated the call raises out-of-memory and nothing else changes.", "quantifier": "every region list with 32-bit bases and sizes", "why_tests_cant": "buffer-size arithmetic must hold for all numbers of regions and all values", "anchors": ["libCrashDebug/src/MemorySim.c:MemorySim_GetMemoryMapXML", "sizeMemoryLayoutXML", "appendRegionToMemoryLayout"]}
{"id": "C16", "title": "Flash read counters count 16-bit reads exactly", "statement": "For every half-word of a read-only region the reported read count is the number of 16-bit reads of that half-word since the region was made read-only (modulo 2^32), whatever else happened; the counter array is never indexed out of range.", "quantifier": "every history", "why_tests_cant": "history property", "anchors": ["libCrashDebug/src/MemorySim.c:MemorySim_GetFlashReadCount", "getDataPointer"]}
{"id": "C17", "title": "Break/watchpoints behave as a set", "statement": "Setting the same break/watchpoint twice equals setting it once; clearing one removes exactly that one; clearing an absent one has no effect; the order of setting is irrelevant.", "quantifier": "every sequence of set/clear calls", "why_tests_cant": "all sequences", "anchors": ["libCrashDebug/src/MemorySim.c:setWatchpoint", "clearWatchpoint", "findMatchingOrHigherWatchpoint"]}
{"id": "C18", "title": "Watchpoint hits are exactly the contained accesses", "statement": "Each access adds to the watchpoint-hit counter the number of installed watchpoints of matching kind whose range contains the whole access; querying the counter returns and clears it. (Claimed for every address, including the top of the address space.)", "quantifier": "every watchpoint set, access address, width and kind", "why_tests_cant": "all sets and addresses; early exit of the scan must be sound", "anchors": ["libCrashDebug/src/MemorySim.c:checkForBreakWatchPoint", "accessInRange", "MemorySim_WasWatchpointEncountered"]}
{"id": "C19", "title": "Breakpoints fire exactly on contained 16-bit reads", "statement": "An access raises the hardware-breakpoint exception iff it is a 16-bit read lying wholly inside an installed breakpoint; data accesses of other widths and writes never do.", "quantifier": "every breakpoint set and access", "why_tests_cant": "all sets and addresses", "anchors": ["libCrashDebug/src/MemorySim.c:checkForBreakWatchPoint"]}
{"id": "C20", "title": "Binary dump round trip", "statement": "Loading the binary CrashCatcher encoding of a register context and a list of pairwise disjoint memory regions restores exactly those registers and that memory (every byte), for version 3 dumps, with and without floating-point registers.", "quantifier": "every register context, every list of regions and contents", "why_tests_cant": "unbounded contents", "anchors": ["libCrashDebug/src/CrashCatcherDump.c:CrashCatcherDump_ReadBinary", "readDump"]}
{"id": "C21", "title": "Version 2 dumps", "statement": "A version 2 dump restores the 17 registers it contains, sets MSP and PSP to 0xBAADBAAD, and the rest as for version 3.", "quantifier": "every version 2 dump", "why_tests_cant": "all contents", "anchors": ["libCrashDebug/src/CrashCatcherDump.c:readIntegerRegisters"]}
{"id": "C22", "title": "Floating-point registers are taken only when flagged", "statement": "The floating-point registers are loaded iff the dump's floating-point flag is set; otherwise they keep their previous contents and the bytes are read as memory regions.", "quantifier": "every dump, every flags word", "why_tests_cant": "all 2^32 flags values", "anchors": ["libCrashDebug/src/CrashCatcherDump.c:readFloatingPointRegisters"]}
{"id": "C23", "title": "Hex dumps mean the same as binary dumps", "statement": "Loading a hex dump gives the same registers, memory and outcome as loading the binary dump it encodes, whatever the letter case of its digits and wherever CR/LF characters are inserted.", "quantifier": "every byte string, every rendering of it as hex text", "why_tests_cant": "infinitely many renderings", "anchors": ["libCrashDebug/src/CrashCatcherDump.c:hexRead", "readNextCharacterSkippingNewLines", "nibbleDigitToVal"]}
{"id": "C24", "title": "Truncated binary dumps are rejected", "statement": "Every proper prefix of a valid dump that does not end at a region boundary raises the file-format exception; a prefix ending at a region boundary loads just the regions it contains.", "quantifier": "every dump and every truncation point", "why_tests_cant": "every crash point of the dump writer", "anchors": ["libCrashDebug/src/CrashCatcherDump.c:readDump", "readNextMemoryRegion"]}
{"id": "C25", "title": "Stack overflow marker", "statement": "A dump whose region list is followed by the 4-byte stack-overflow sentinel raises the stack-overflow exception; no other ending does.", "quantifier": "every dump", "why_tests_cant": "all dumps", "anchors": ["libCrashDebug/src/CrashCatcherDump.c:isStackOverflowSentinelInsteadOfRegionDescription"]}
{"id": "C26", "title": "Dump loading is total and safe on arbitrary files", "statement": "For every file contents and every I/O or allocation failure, loading a dump either succeeds or raises one of the documented exceptions (file, file-format, stack-overflow, bus-error, out-of-memory), never accesses memory outside its buffers, and leaves no file open.", "quantifier": "all byte strings as files, all fault schedules", "why_tests_cant": "all malformed files and crash points", "anchors": ["libCrashDebug/src/CrashCatcherDump.c:CrashCatcherDump_ReadBinary", "CrashCatcherDump_ReadHex"]}
{"id": "C27", "title": "Malformed hex digits are rejected", "statement": "A hex dump in which any consumed character other than CR/LF is not a hex digit raises the file-format exception.", "quantifier": "every text", "why_tests_cant": "all texts", "anchors": ["libCrashDebug/src/CrashCatcherDump.c:nibbleDigitToVal"]}
{"id": "C28", "title": "GDB log register round trip", "statement": "Loading a log containing GDB's 'info all-registers' lines restores the value of each register listed (last occurrence wins), leaves unlisted registers unchanged except MSP/PSP (0xBAADBAAD unless listed); unrecognised lines are ignored.", "quantifier": "every register assignment, every interleaving with unrecognised lines", "why_tests_cant": "all values and line orders", "anchors": ["libCrashDebug/src/GdbLogParser.c:parseRegisterLine", "isRegisterLine", "parseFloatRegisterLine"]}
{"id": "C29", "title": "GDB log memory round trip", "statement": "Loading a log containing GDB 'x/4wx' style dumps with four words per line restores exactly those words at those addresses; contiguous lines form one region.", "quantifier": "every list of regions and contents, symbols allowed after the address", "why_tests_cant": "unbounded contents", "anchors": ["libCrashDebug/src/GdbLogParser.c:parseMemoryLine", "firstPassMemoryHandler", "secondPassHandler"]}
{"id": "C30", "title": "A GDB log memory line contributes exactly its words", "statement": "A memory line with k words (1<=k<=4), terminated by a newline, contributes exactly those k words to simulated memory.", "quantifier": "every k and every word value", "why_tests_cant": "tests feed short lines without their newline", "anchors": ["libCrashDebug/src/GdbLogParser.c:parseMemoryLine", "areMoreValues"]}
{"id": "C31", "title": "GDB log loading is total and safe", "statement": "For every file contents and fault schedule loading a GDB log terminates with success or a documented exception, never leaves its line buffer or register context, and leaves no file open.", "quantifier": "all byte strings as files, all fault schedules", "why_tests_cant": "all malformed files", "anchors": ["libCrashDebug/src/GdbLogParser.c:GdbLogParse", "parseLines"]}
{"id": "C32", "title": "Floating-point flag from GDB logs", "statement": "After loading a GDB log the floating-point flag is set iff it was set before or the log has a line for one of s0..s31; fpscr alone does not set it.", "quantifier": "every log", "why_tests_cant": "all logs", "anchors": ["libCrashDebug/src/GdbLogParser.c:firstPassRegisterHandler", "isFloatingPointRegister"]}
{"id": "C33", "title": "ELF loading", "statement": "A valid 32-bit little-endian executable is loaded as one read-only region per loadable program header (type PT_LOAD, non-zero file size not above memory size) at its physical address with exactly the file's bytes; nothing else is created.", "quantifier": "every ELF image whose loadable segments are disjoint and do not wrap", "why_tests_cant": "all images", "anchors": ["libCrashDebug/src/ElfLoad.c:ElfLoad_FromMemory", "loadIfFlashLoadableEntry"]}
{"id": "C34", "title": "Invalid ELF files are rejected", "statement": "If the magic, class, byte order, type, program-header offset, count or entry size is wrong, the file is too short for a header, or no loadable entry exists, loading raises the ELF-format exception and no region is created.", "quantifier": "every byte string", "why_tests_cant": "all malformed files", "anchors": ["libCrashDebug/src/ElfLoad.c:validateElfHeaderContents", "fetchSizedByteArray"]}
{"id": "C35", "title": "ELF loading never reads outside the file", "statement": "For every byte string presented as an ELF file, loading only reads bytes of that file.", "quantifier": "every byte string and allocation-failure schedule", "why_tests_cant": "adversarial offset/size pairs", "anchors": ["libCrashDebug/src/ElfLoad.c:fetchSizedByteArray"]}
{"id": "C36", "title": "Command-line grammar", "statement": "The command line is accepted iff it is a sequence of --elf F | --bin F ADDR | --dump F | --alias B S R options (names case-insensitive) that includes a dump and an image; otherwise invalid-argument is raised before any file is opened or region created.", "quantifier": "every argument list", "why_tests_cant": "all argument lists", "anchors": ["libCrashDebug/src/CrashDebugCommandLine.c:parseArguments", "throwIfRequiredArgumentNotSpecified"]}
{"id": "C37", "title": "Option order is irrelevant", "statement": "Permuting whole options so that options of the same kind keep their relative order does not change the result of initialisation.", "quantifier": "every permutation of every option list", "why_tests_cant": "all permutations", "anchors": ["libCrashDebug/src/CrashDebugCommandLine.c:CrashDebugCommandLine_Init", "parseAliasOption"]}
{"id": "C38", "title": "Start-up failure is clean", "statement": "If initialisation fails for any reason, the caller sees the original exception, the error text and usage are printed, no memory simulator remains, nothing stays allocated and no file stays open.", "quantifier": "every command line, file system and fault schedule", "why_tests_cant": "every crash point", "anchors": ["libCrashDebug/src/CrashDebugCommandLine.c:CrashDebugCommandLine_Init", "main/main.c:main"]}
{"id": "C39", "title": "Dump type detection", "statement": "A dump is read as binary iff it starts with bytes 'cC', as hex iff it starts with text 6343, otherwise as a GDB log.", "quantifier": "every file", "why_tests_cant": "all files", "anchors": ["libCrashDebug/src/CrashDebugCommandLine.c:getFileType"]}
{"id": "C40", "title": "A dump can never modify the program image", "statement": "After successful start-up every byte of every image region still equals the image file's byte, whatever the dump contains.", "quantifier": "every image, dump and alias list", "why_tests_cant": "all dumps", "anchors": ["libCrashDebug/src/CrashDebugCommandLine.c:loadImageFile", "loadDumpFile"]}
{"id": "C41", "title": "End-to-end fidelity", "statement": "With a raw or ELF image and a binary dump, hex dump or GDB log with regions disjoint from it and each other, after start-up reading any byte, half-word or word inside gives the dump's or the image's, any byte outside both is a bus error, and every register equals the dump's.", "quantifier": "every image, dump, address", "why_tests_cant": "all inputs", "anchors": ["libCrashDebug/src/CrashDebugCommandLine.c:CrashDebugCommandLine_Init"]}
{"id": "C42", "title": "Register packet round trip", "statement": "Reading all registers into a packet and writing that packet back leaves the context unchanged; writing a packet and reading it back reproduces the packet; its length matches the register sizes declared by the target-description XML.", "quantifier": "every context and packet, with and without FP registers", "why_tests_cant": "all register values", "anchors": ["libCrashDebug/src/mriPlatform.c:Platform_CopyContextToBuffer", "Platform_CopyContextFromBuffer", "Platform_GetTargetXml"]}
{"id": "C43", "title": "Debugger memory access never fails hard", "statement": "Debugger memory reads and writes never let an exception escape: a failing read returns 0, a failing write has no effect, and either is counted; the fault query returns the number of failures since the last query and resets it.", "quantifier": "every access sequence and memory layout", "why_tests_cant": "history property", "anchors": ["libCrashDebug/src/mriPlatform.c:Platform_MemRead32", "Platform_WasMemoryFaultEncountered"]}
{"id": "C44", "title": "Signal reported to GDB", "statement": "The reported signal depends only on the low 8 bits of the crash PSR: 2 INT, 3 and 4 SEGV, 5 BUS, 6 ILL, 12 TRAP, everything else STOP. It stays the same throughout a session.", "quantifier": "all 2^32 PSR values", "why_tests_cant": "2^32 values", "anchors": ["libCrashDebug/src/mriPlatform.c:Platform_DetermineCauseOfException"]}
{"id": "C45", "title": "Fault report content", "statement": "The textual fault report is a function of the crash exception number and the fault status registers in the dump: each status bit's message is printed iff that bit is set, address registers are printed iff their valid bit is set; if the registers are not in the dump nothing but the blank line (or the header the code prints) appears and no exception escapes.", "quantifier": "all values of the status registers, present or absent", "why_tests_cant": "2^32 values and all presence patterns", "anchors": ["libCrashDebug/src/mriPlatform.c:Platform_DisplayFaultCauseToGdbConsole"]}
{"id": "C46", "title": "Connection latch", "statement": "GDB is reported as connected iff input is currently available or a character has ever been successfully received since initialisation; console errors while polling never escape and count as no data.", "quantifier": "every schedule of polls, reads and console failures", "why_tests_cant": "all schedules", "anchors": ["libCrashDebug/src/StandardIComm.c:isGdbConnected", "receiveChar", "hasReceiveData"]}
{"id": "C47", "title": "The handler runs only when the body throws", "statement": "A catch block is executed iff its try block raised an exception.", "quantifier": "every nesting of try/catch/throw/rethrow", "why_tests_cant": "all programs; the macros use one global code", "anchors": ["include/try_catch.h:__try", "__catch", "__throw"]}
{"id": "C48", "title": "Exceptions are delivered with their code and handlers are balanced", "statement": "An exception raised in a try block reaches the nearest enclosing catch with its code (never lowered by propagation), and after any try/catch statement the handler stack is as before it.", "quantifier": "every program built from the macros", "why_tests_cant": "all programs", "anchors": ["include/try_catch.h", "libcommon/src/try_catch.c"]}
{"id": "C49", "title": "Process exit status", "statement": "The program exits with a failure status if initialisation fails for any reason, and frees everything it allocated.", "quantifier": "every command line, file system, fault schedule", "why_tests_cant": "all crash points", "anchors": ["main/main.c:main"]}
{"id": "C50", "title": "Read errors are reported", "statement": "If a file operation fails while a dump or log is being read, loading raises an exception instead of reporting success with part of the data.", "quantifier": "every file and every position of the failing operation", "why_tests_cant": "every crash point of the reader", "anchors": ["libCrashDebug/src/CrashCatcherDump.c:readNextMemoryRegion", "libCrashDebug/src/GdbLogParser.c:parseLines", "rewindLogFile"]}
{"id": "C51", "title": "Stop reply agrees with the register packet", "statement": "The stop reply sent to GDB shows registers 12 to 15 under their numbers with exactly the digits the full register packet has for them, and asking for it changes nothing.", "quantifier": "every context", "why_tests_cant": "all register values", "anchors": ["libCrashDebug/src/mriPlatform.c:Platform_WriteTResponseRegistersToBuffer"]}
{"id": "C52", "title": "A debug session only ends by an exception", "statement": "The loop that runs the debug monitor never stops by itself; each iteration runs the monitor exactly once in the state the previous iteration left.", "quantifier": "every monitor behaviour and number of iterations", "why_tests_cant": "unbounded histories", "anchors": ["libCrashDebug/src/mriPlatform.c:mriPlatform_Run"]}
{"id": "C53", "title": "Sizes announced for the XML descriptions", "statement": "The size reported for the target description and for the memory map is the length of the text supplied then or at any later time in the session, whatever the debugger does in between.", "quantifier": "every memory map and context", "why_tests_cant": "all memory layouts", "anchors": ["libCrashDebug/src/mriPlatform.c:Platform_GetTargetXmlSize", "Platform_GetDeviceMemoryMapXmlSize"]}
{"id": "C54", "title": "Bytes pass through the console unchanged and in order", "statement": "The output holds, in order, exactly the bytes of the send calls that returned (a send that cannot write raises the file exception), and receive calls that return give the bytes of the input in order.", "quantifier": "every sequence of calls and console failures", "why_tests_cant": "all schedules", "anchors": ["libCrashDebug/src/StandardIComm.c:sendChar", "receiveChar"]}
{"id": "C55", "title": "Aliases requested on the command line", "statement": "With --alias options that redirect into the loaded image or dump, a byte, half-word or word that is in neither, but within an alias, reads as what is as far behind the redirect address (the first such alias counts, and an alias ends where its target ends); one from which no alias leads is a bus error; an alias that redirects to nothing makes start-up fail with a bus error naming the alias.", "quantifier": "every image, dump, list of aliases and address", "why_tests_cant": "all command lines and addresses", "anchors": ["libCrashDebug/src/CrashDebugCommandLine.c:parseAliasOption", "libCrashDebug/src/MemorySim.c:MemorySim_CreateAlias"]}
{"id": "C56", "title": "A crashed program stays frozen", "statement": "A post-mortem target never runs: until the debugger asks for a change, every byte, every register and every answer about the program stay the same whatever it requests (single step, new program counter, breakpoints, semihost calls ...); a change affects only the bytes written, which read back as written, or the registers set.", "quantifier": "every sequence of debugger requests, in every session", "why_tests_cant": "unbounded histories", "anchors": ["libCrashDebug/src/mriPlatform.c:Platform_EnableSingleStep", "Platform_SetProgramCounter", "Platform_SetHardwareBreakpoint", "Platform_MemWrite8"]}
{"id": "C57", "title": "What the debugger shows is what the files say", "statement": "Throughout a debug session that changes nothing, every byte, half-word and word the debugger reads inside the image or the dump is the file's, reads elsewhere show the aliased number or 0 plus a counted failure, and the fault report uses the dump's fault registers; the registers and the stop signal are the dump's until registers are set; the image reads as in its file even after arbitrary write requests.", "quantifier": "every image, dump, alias list, session and address", "why_tests_cant": "unbounded histories over all inputs", "anchors": ["main/main.c:main", "libCrashDebug/src/CrashDebugCommandLine.c:CrashDebugCommandLine_Init", "libCrashDebug/src/mriPlatform.c:Platform_MemRead32", "Platform_CopyContextToBuffer"]}
{"id": "C58", "title": "Numbers on the command line", "statement": "Addresses and sizes on the command line can be written in decimal, in octal after 0 or in hexadecimal after 0x: start-up depends only on the numbers and puts the image and the aliases there; an argument that is not such a numeral of a 32-bit number is rejected.", "quantifier": "every number and every way to write it", "why_tests_cant": "2^32 numbers, each with infinitely many numerals; all other texts", "anchors": ["libCrashDebug/src/CrashDebugCommandLine.c:parseBinOption", "parseAliasOption"]}
{"id": "C59", "title": "Failing the n-th allocation in tests", "statement": "After a test asks for the n-th allocation to fail, exactly the n-th allocation or reallocation that follows returns NULL and all others reach the C library, whatever was requested before; after the request is withdrawn none fails.", "quantifier": "every history of requests and allocations, every n", "why_tests_cant": "unbounded histories", "anchors": ["libmocks/src/MallocFailureInject.c:MallocFailureInject_FailAllocation", "MallocFailureInject_Restore"]}
{"id": "C60", "title": "Failing file functions in tests", "statement": "A file function without a request, or restored, reaches the C library; one told to fail returns the given value at every call; fseek lets the given number of calls pass first; fread fails exactly the given call; fgets supplies the given lines in order, each cut to the buffer as a C string, then the end of the file once, and so on. Requests about and calls of the other functions do not matter, and a new request replaces the old one.", "quantifier": "every history of requests and calls of the seven functions", "why_tests_cant": "unbounded histories", "anchors": ["libmocks/src/FileFailureInject.c"]}
{"id": "C61", "title": "What tests see of printed text", "statement": "After the hook is set the number of calls is counted, each call returns the length of its text, and the last four texts of a stream can be looked up, cut to the given size.", "quantifier": "every sequence of texts printed to stdout and stderr", "why_tests_cant": "unbounded histories", "anchors": ["libmocks/src/printfSpy.c:printfSpy_Hook", "printfSpy_GetNthOutput", "printfSpy_GetNthErrorOutput", "printfSpy_GetCallCount"]}
{"id": "C62", "title": "The mock console", "statement": "In tests, a poll of standard input returns the given value, standard input supplies the given characters in order and then zeros, the captured text is what was written as far as it fits the buffer, and a requested exception is thrown at every call.", "quantifier": "every history of requests, reads and writes", "why_tests_cant": "unbounded histories", "anchors": ["libCrashDebug/mocks/mockConsole.c"]}
{"id": "C63", "title": "The mock communication channel", "statement": "In tests, characters are received in the given order whatever is polled, sent or delayed in between; what was sent is captured as far as it fits; data given without checksums is received with the right checksum after every packet, and copying it never leaves its block.", "quantifier": "every history of calls, all data", "why_tests_cant": "unbounded histories and data", "anchors": ["libCrashDebug/mocks/mockIComm.cpp"]}
{"id": "C64", "title": "The communication channel on Windows", "statement": "On Windows the debugger counts as connected iff a byte of input was received since initialisation or input is waiting; polls never raise; received characters are the bytes of the input in order; what was sent is what was written; a read without a byte (error or end of input) and a failed write raise the file exception, and nothing else does.", "quantifier": "every schedule of console results and every sequence of channel calls", "why_tests_cant": "schedules of the operating system", "anchors": ["main/MockDefaults.c:Console_HasStdInDataToRead", "Console_ReadStdIn", "Console_WriteStdOut", "libCrashDebug/src/StandardIComm.c"]}
{"id": "C65", "title": "A failing start-up says why", "statement": "When start-up fails, the error line it prints holds a message that says what went wrong; a wrong command line always gets one.", "quantifier": "every command line, all files, every failing allocation or file operation", "why_tests_cant": "all inputs and failures", "anchors": ["libCrashDebug/src/CrashDebugCommandLine.c:CrashDebugCommandLine_Init", "displayErrorWithUsage", "libCrashDebug/src/CrashCatcherDump.c:CrashCatcherDump_ReadHex"]}
{"id": "C66", "title": "Only dumps are accepted as dumps", "statement": "Start-up only succeeds when the dump file is a complete CrashCatcher dump (binary or hex) or a GDB log; anything else, or a dump cut off, is rejected.", "quantifier": "every file given as the dump", "why_tests_cant": "all files", "anchors": ["libCrashDebug/src/CrashDebugCommandLine.c:getFileType", "loadDumpFile", "libCrashDebug/src/GdbLogParser.c:GdbLogParse"]}
{"id": "C67", "title": "An image must fit the address space", "statement": "An image that is empty or extends past the end of the 32-bit address space is rejected with a bus error; start-up succeeds only with one that fits.", "quantifier": "every raw image, executable and address", "why_tests_cant": "all images and addresses", "anchors": ["libCrashDebug/src/CrashDebugCommandLine.c:loadBinFile", "libCrashDebug/src/ElfLoad.c:ElfLoad_FromMemory", "libCrashDebug/src/MemorySim.c:MemorySim_LoadFromFlashImage"]}
{"id": "C68", "title": "Host pointers into simulated memory", "statement": "A host pointer for reading is handed out exactly when one region holds the whole range, one for writing exactly when it also may be written; behind it lie as many bytes as asked for, the same that reads return; what the host stores there is what reads return afterwards, and nothing else changes; asking for a pointer changes no byte and triggers no watchpoint.", "quantifier": "every history of simulator calls, every address and length", "why_tests_cant": "unbounded histories, 2^64 ranges", "anchors": ["libCrashDebug/src/MemorySim.c:MemorySim_MapSimulatedAddressToHostAddressForRead", "MemorySim_MapSimulatedAddressToHostAddressForWrite"]}
{"id": "C69", "title": "The memory map says what can be written", "statement": "The memory map describes the memory at an address as flash exactly when writing there is refused, and as RAM otherwise.", "quantifier": "every command line and files, every debug session, every history of simulator calls, every address", "why_tests_cant": "all inputs, unbounded histories", "anchors": ["libCrashDebug/src/MemorySim.c:MemorySim_GetMemoryMapXML", "MemorySim_CreateAlias", "MemorySim_MakeRegionReadOnly", "libCrashDebug/src/mriPlatform.c:Platform_GetDeviceMemoryMapXml"]}
{"id": "C70", "title": "A simulator starts from nothing", "statement": "After initialising or shutting down the simulator, whatever was simulated before, every access and request is refused with a bus error and changes nothing; after initialising, no watchpoint hit is reported and the memory map is empty.", "quantifier": "every earlier history, every address and request", "why_tests_cant": "unbounded histories", "anchors": ["libCrashDebug/src/MemorySim.c:MemorySim_Init", "MemorySim_Uninit"]}
{"id": "C71", "title": "Numbers in texts", "statement": "Wherever the program shows a number, the text is that number: in the memory map the start and the size of every region in hexadecimal, and in the message about an alias that leads nowhere its address and target as eight hexadecimal digits and its size in decimal.", "quantifier": "every history of simulator calls, every command line, files and 32-bit numbers", "why_tests_cant": "2^32 numbers for each place", "anchors": ["libCrashDebug/src/MemorySim.c:MemorySim_GetMemoryMapXML", "libCrashDebug/src/CrashDebugCommandLine.c:parseAliasOption"]}
{"id": "C72", "title": "The message names the defect", "statement": "When a dump or an executable is not loaded, the message names its first defect: the part that is missing or wrong, for a memory region of a dump its first address and its end, for an entry of an executable its number and place in the file. A message about a memory region goes with an error that tells whether bytes are missing, its addresses are taken or do not exist, or the system refused memory.", "quantifier": "every simulator state, every file contents and every pattern of refused allocations", "why_tests_cant": "all file contents", "anchors": ["libCrashDebug/src/CrashCatcherDump.c:CrashCatcherDump_ReadBinary", "CrashCatcherDump_ReadHex", "readNextMemoryRegion", "libCrashDebug/src/ElfLoad.c:ElfLoad_FromMemory", "validateElfHeaderContents", "loadFlashLoadableEntries"]}
{"id": "C73", "title": "The channel during a session", "statement": "Whatever the debug monitor asks of the platform layer and in whatever order: GDB is sent exactly the bytes of the calls to send that returned, in order; the calls to receive that returned give what the console delivered, in order; no other call reads input or writes output; and the monitor is told to wait for GDB exactly as long as no call to receive has returned and no input is waiting.", "quantifier": "every sequence of platform calls, every simulated memory and registers, every schedule of console results", "why_tests_cant": "unbounded interleavings of calls with console failures", "anchors": ["libCrashDebug/src/mriPlatform.c:Platform_CommReceiveChar", "Platform_CommSendChar", "Platform_CommIsWaitingForGdbToConnect", "Platform_CommHasReceiveData", "libCrashDebug/src/StandardIComm.c:StandardIComm_Init"]}
{"id": "C74", "title": "The error line accounts for the failure", "statement": "When start-up with a well-formed command line fails, the error line tells what is wrong with which input: the image or dump file that cannot be opened or read is named; for an executable or a dump the first defect of its contents is named, the addresses taken by the image counting as taken; a raw image that does not fit is reported with the address it was given, an alias with its three numbers.", "quantifier": "every command line, all files, every pattern of refused allocations and failing file operations", "why_tests_cant": "all inputs and failures", "anchors": ["libCrashDebug/src/CrashDebugCommandLine.c:CrashDebugCommandLine_Init", "loadImageFile", "loadFileData", "loadBinFile", "loadDumpFile", "getFileType", "parseAliasOption"]}
{"id": "C75", "title": "The XML descriptions are well-formed", "statement": "The memory map and the target description given to GDB are well-formed XML documents.  The memory map has one entry for every region, in order, with its type, start and length and the block size for flash.  The target description declares the registers of a Cortex-M with GDB's features, sizes, types and numbers, and the floating-point registers exactly when the crash has them.", "quantifier": "every region list and crash context", "why_tests_cant": "every region list is an input, and a text compared in a test says nothing about being well-formed for another one", "anchors": ["libCrashDebug/src/MemorySim.c:MemorySim_GetMemoryMapXML", "libCrashDebug/src/mriPlatform.c:g_targetXML", "g_targetFpuXML", "Platform_GetTargetXml", "Platform_GetDeviceMemoryMapXml"]}
{"id": "C76", "title": "A session behaves like the target its files describe", "statement": "Once the program has started with an image and a dump whose parts do not overlap, and with aliases none of which leads into another alias, and whatever the debug monitor then asks in whatever order, every reply, every refusal and every line printed is the one that this target gives: memory made of the image's parts, which cannot be written, and the dump's, which can, seen directly or through the first alias that leads there; the registers of the dump; the memory map of the parts and aliases; the fault report of the memory it has at the time; and a count of the accesses that failed since it was last asked for. Nothing else that happened before has an influence, and the session does not end for less than 2^31 calls.", "quantifier": "every command line, image, dump and every sequence of platform calls", "why_tests_cant": "unbounded sequences of interleaved reads, writes, register packets and queries", "anchors": ["libCrashDebug/src/mriPlatform.c:Platform_MemRead32", "Platform_MemWrite32", "Platform_WasMemoryFaultEncountered", "Platform_CopyContextToBuffer", "Platform_CopyContextFromBuffer", "Platform_DisplayFaultCauseToGdbConsole", "Platform_GetDeviceMemoryMapXml", "Platform_GetTargetXml", "libCrashDebug/src/MemorySim.c:MemorySim_CreateAlias", "libCrashDebug/src/CrashDebugCommandLine.c:CrashDebugCommandLine_Init"]}
{"id": "C77", "title": "Runs are reproducible", "statement": "Two runs of the program with the same command line, the same contents of the files named on it, and surroundings that do the same (the same allocations refused, the same file operations failing, the terminal delivering the same, the debug monitor deciding by the answers it gets) have the same result: the same exit status or exception, the same text on stderr and on the debugger's console, the same bytes sent and the same answer to every call of the debug monitor; a crash in one is the same crash in the other. Nothing left over in the process has an influence: earlier errors, regions, registers, fault counts, connections and blocks still in use; nor has any file that is not named.", "quantifier": "every command line, all files well-formed or not, every two states of the process, every failure pattern and every debug monitor", "why_tests_cant": "relates two runs from arbitrary states; tests compare one run with one expectation", "anchors": ["libCrashDebug/src/CrashDebugCommandLine.c:CrashDebugCommandLine_Init", "main/main.c:main", "libCrashDebug/src/MemorySim.c:MemorySim_Init", "libCrashDebug/src/StandardIComm.c:StandardIComm_Init", "libCrashDebug/src/mriPlatform.c:mriPlatform_Init"]}
{"id": "C78", "title": "Running out of memory is always reported, and nothing else as that", "statement": "Every call of the simulator, of start-up and of the platform layer that returns was granted every block of memory it asked for; one that raises the out-of-memory exception was refused one, after which it asked for no other; one that raises another exception was refused none. When the monitor passes the exception on, the program then ends with status -1 and the error number as the last line on stderr, so that exit status 0 means that nothing was refused.", "quantifier": "every call in every state, every command line, all files, every pattern of refused allocations and failing file operations, every such debug monitor", "why_tests_cant": "every allocation of every execution can fail, in every combination with other failures", "anchors": ["libCrashDebug/src/MemorySim.c:throwingZeroedMalloc", "growWatchpointArrayIfNeeded", "MemorySim_GetMemoryMapXML", "libCrashDebug/src/CrashDebugCommandLine.c:loadFileData", "CrashDebugCommandLine_Init", "libCrashDebug/src/CrashCatcherDump.c:readNextMemoryRegion", "main/main.c:main"]}
{"id": "C79", "title": "Start-up always comes to an end", "statement": "Whatever the command line and the bytes of the files, and whichever allocations and file operations fail, start-up ends: with the target ready and nothing printed, or with an exception whose message and the usage are on stderr and no memory of the target left; the exception is the one for invalid arguments exactly when the command line is not in order. Every file it opened is closed and no block in use before has been freed. The only thing that can bring it down is an executable that describes contents ending at or beyond 2^32 (or is itself nearly 4 GB long): reading on past the end of its bytes.", "quantifier": "every command line, all bytes of all files, every pattern of refused allocations and failing file operations", "why_tests_cant": "all file contents, with failures at every point", "anchors": ["libCrashDebug/src/CrashDebugCommandLine.c:CrashDebugCommandLine_Init", "loadImageFile", "loadDumpFile", "libCrashDebug/src/ElfLoad.c:ElfLoad_FromMemory", "loadIfFlashLoadableEntry", "fetchSizedByteArray", "libCrashDebug/src/CrashCatcherDump.c:CrashCatcherDump_ReadBinary", "libCrashDebug/src/GdbLogParser.c:GdbLogParse"]}
{"id": "C80", "title": "Only the named files are opened", "statement": "Start-up opens the image named on the command line once and then the dump twice, and no other file: not an image that a later option replaces, and nothing at all when the command line is not in order; a start-up that fails has stopped somewhere on that way. It neither sends anything to GDB nor reads from or polls that channel. The debug session opens no file, so the program as a whole opens no other files, whatever the files contain, whatever fails and whatever the debug monitor does.", "quantifier": "every command line, all files, every pattern of refused allocations and failing file operations, every debug monitor", "why_tests_cant": "all inputs, failures and monitors", "anchors": ["libCrashDebug/src/CrashDebugCommandLine.c:CrashDebugCommandLine_Init", "loadFileData", "getFileType", "loadDumpFile", "libCrashDebug/src/CrashCatcherDump.c:CrashCatcherDump_ReadBinary", "libCrashDebug/src/GdbLogParser.c:GdbLogParse", "libCrashDebug/src/StandardIComm.c:StandardIComm_Init"]}
{"id": "C81", "title": "No debugger and no dump brings the program down", "statement": "Whatever the files and the failing allocations, file and console operations, and whatever the debugger asks for, the program ends with status 0 or -1, its files closed, the memory of the target released and nothing else freed. The only exceptions are an executable that describes bytes no file can hold, an access refused after 2147483647 refused ones that nobody asked about, and asking for a memory map that needs 2^31 bytes. In particular a session of fewer than 2^31 calls is safe.", "quantifier": "every command line without an alias of an alias, all files, every fault schedule, every debug monitor", "why_tests_cant": "Tests run a few sessions; this ranges over all monitors, files and faults.", "anchors": ["main/main.c: main", "libCrashDebug/src/mriPlatform.c: Platform_MemRead32", "libCrashDebug/src/CrashDebugCommandLine.c: CrashDebugCommandLine_Init", "libCrashDebug/src/MemorySim.c: MemorySim_GetMemoryMapXML"]}
{"id": "C82", "title": "Every block of memory is large enough for what is kept in it", "statement": "At every moment of every history of simulator calls, and from start-up through any debug session, each block that the simulator uses was asked for with at least as many bytes as it keeps there: the structure and the contents of every region, its read counters, its breakpoints and watchpoints, and the memory map with its terminating NUL; and, unless an alias was made of an address in another alias, the block is still allocated. The buffer for an image file is exactly as long as the bytes read into it.", "quantifier": "every history of calls with any arguments, every command line, all files, every pattern of refused allocations and failing file operations, every sequence of platform calls", "why_tests_cant": "An undersized block is overrun silently; whether it happens depends on sizes, on the order of calls that grow and shrink, and on refused allocations.", "anchors": ["libCrashDebug/src/MemorySim.c:throwingZeroedMalloc", "MemorySim_CreateRegion", "MemorySim_CreateAlias", "allocateReadCountArrayForReadOnlyRegion", "growWatchpointArrayIfNeeded", "allocateMemoryMapXML", "libCrashDebug/src/CrashDebugCommandLine.c:loadFileData"]}
