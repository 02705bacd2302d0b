{
 "claims": [
  {
   "property": "C01",
   "status": "proved",
   "theorems": [
    "C01_functions",
    "C01_read_after_write"
   ],
   "note": "For every reachable state (no alias of an alias); a later 16-bit read may be stopped by a breakpoint instead."
  },
  {
   "property": "C02",
   "status": "proved",
   "theorems": [
    "C02_write_frame",
    "C02_read_frame",
    "C02_failing_access"
   ],
   "note": ""
  },
  {
   "property": "C03",
   "status": "proved",
   "theorems": [
    "C03_functions",
    "C03_read_mapped",
    "C03_write_mapped"
   ],
   "note": ""
  },
  {
   "property": "C04",
   "status": "proved",
   "theorems": [
    "C04_functions_read",
    "C04_functions_write",
    "C04_read_bytes",
    "C04_write_bytes"
   ],
   "note": ""
  },
  {
   "property": "C05",
   "status": "proved",
   "theorems": [
    "C05_read_only_kept",
    "C05_make_read_only",
    "C05_map_write_writable"
   ],
   "note": "Image loads are not writes of the API and bypass the read-only flag by design."
  },
  {
   "property": "C06",
   "status": "proved",
   "theorems": [
    "C06_alias_transparent"
   ],
   "note": "Stated for accesses that the alias and its target actually serve (not shadowed by earlier regions)."
  },
  {
   "property": "C07",
   "status": "partial",
   "theorems": [
    "C07_command_line_refuted",
    "C07_alias_clamped_partial",
    "C07_alias_inside_partial",
    "C07_alias_of_alias_refuted"
   ],
   "note": "Holds for aliases whose redirect address lies in a real region; an alias of an alias reads outside all storage (refuted), also from the command line (C07_command_line_refuted)."
  },
  {
   "property": "C08",
   "status": "partial",
   "theorems": [
    "C08_no_crash_partial",
    "C08_read_count_refuted",
    "C08_count_exact",
    "C08_only"
   ],
   "note": "Holds unless an alias of an alias is created, the read-counter allocation failed before a read-count query, or the memory map needs 2^31 bytes; all three are refuted by counterexamples (C07_alias_of_alias_refuted, C08_read_count_refuted, C15_overflow_refuted). C08_only: without an alias of an alias nothing else goes wrong; C08_count_exact says exactly which read-count queries do."
  },
  {
   "property": "C09",
   "status": "proved",
   "theorems": [
    "C09_fresh_zero"
   ],
   "note": ""
  },
  {
   "property": "C10",
   "status": "proved",
   "theorems": [
    "C10_undisturbed",
    "C10_create_appends",
    "C10_prefix_access"
   ],
   "note": ""
  },
  {
   "property": "C11",
   "status": "proved",
   "theorems": [
    "C11_oom_unchanged",
    "C11_refused_raises",
    "C11_only_refused_raises"
   ],
   "note": ""
  },
  {
   "property": "C12",
   "status": "partial",
   "theorems": [
    "C12_no_leak_partial",
    "C12_read_only_twice_refuted",
    "C12_account",
    "C12_replaced_only"
   ],
   "note": "Making a region read-only twice leaks its counters (refuted). C12_account is the exact account: what remains is what was there before and the counter arrays that were replaced, which only such calls do (C12_replaced_only)."
  },
  {
   "property": "C13",
   "status": "partial",
   "theorems": [
    "C13_every_state_partial",
    "C13_failure_refuted",
    "C13_flash_image_partial",
    "C13_flash_short",
    "C13_overlap_refuted"
   ],
   "note": "C13_flash_image_partial: when no older region overlaps the image. C13_every_state_partial: exact effect in every state, and no region is added when an allocation is refused. If an older region overlaps, it receives the image (C13_overlap_refuted) and keeps it after a failure (C13_failure_refuted)."
  },
  {
   "property": "C14",
   "status": "partial",
   "theorems": [
    "C14_pieces",
    "C14_exact",
    "C14_load_effect_partial",
    "C14_overlap_refuted"
   ],
   "note": "Exact when regions do not overlap; refuted otherwise (C14_overlap_refuted). C14_exact says what every load does in every state, overlapping regions and failures included."
  },
  {
   "property": "C15",
   "status": "partial",
   "theorems": [
    "C15_memory_map_partial",
    "C15_overflow_refuted",
    "C15_recoverable"
   ],
   "note": "Exact for every reachable state, except that an assertion fails when the text buffer would have 2^31 bytes or more (C15_overflow_refuted)."
  },
  {
   "property": "C16",
   "status": "proved",
   "theorems": [
    "C16_read_count"
   ],
   "note": ""
  },
  {
   "property": "C17",
   "status": "partial",
   "theorems": [
    "C17_set_adds",
    "C17_clear_removes",
    "C17_set_twice",
    "C17_clear_absent",
    "C17_break_adds",
    "C17_break_removes",
    "C17_set_order",
    "C17_order_effects_partial",
    "C17_order_hits_refuted"
   ],
   "note": "The installed set and the outcome of accesses do not depend on order, for every region and address; the hit counter after a breakpoint does (refuted)."
  },
  {
   "property": "C18",
   "status": "partial",
   "theorems": [
    "C18_in_range",
    "C18_read_counted",
    "C18_write_counted",
    "C18_read_hits_partial",
    "C18_write_hits_partial",
    "C18_top_counts",
    "C18_query_clears",
    "C18_history",
    "C18_top_missed_refuted",
    "C18_top_false_hit_refuted"
   ],
   "note": "Exact account for every access in 32-bit arithmetic (C18_read_counted, C18_write_counted, C18_top_counts), and for every history of calls, failing ones included (C18_history); that is containment for every access that ends below the top of the address space where no watchpoint runs to the top; refuted at the top."
  },
  {
   "property": "C19",
   "status": "partial",
   "theorems": [
    "C19_read_caught",
    "C19_read_breaks_partial",
    "C19_set_then_read_partial",
    "C19_clear_then_read",
    "C19_other_never_break",
    "C19_top_missed_refuted"
   ],
   "note": "Exact account for every read in 32-bit arithmetic (C19_read_caught); that is containment for every read that ends below the top of the address space where no breakpoint runs to the top; refuted at the top."
  },
  {
   "property": "C20",
   "status": "proved",
   "theorems": [
    "C20_round_trip",
    "C20_memory_reads",
    "C20_registers"
   ],
   "note": "encode in DumpSpec.v is the format; fit says the regions are disjoint, lie below 2^32 and do not overlap memory that exists already."
  },
  {
   "property": "C21",
   "status": "proved",
   "theorems": [
    "C21_version_2",
    "C21_round_trip"
   ],
   "note": ""
  },
  {
   "property": "C22",
   "status": "proved",
   "theorems": [
    "C22_floating_point"
   ],
   "note": "The 'read as memory regions' half is C20_round_trip applied to dumps without the flag."
  },
  {
   "property": "C23",
   "status": "proved",
   "theorems": [
    "C23_hex_same",
    "C23_hex_round_trip"
   ],
   "note": ""
  },
  {
   "property": "C24",
   "status": "partial",
   "theorems": [
    "C24_truncated_partial",
    "C24_boundary",
    "C24_mark_refuted",
    "C24_accepted_only"
   ],
   "note": "A cut exactly after the start address of a region that begins at 0xACCE55ED is reported as a stack overflow (C24_mark_refuted); every other cut is covered. C24_accepted_only is the converse: whatever loads is a complete encoding."
  },
  {
   "property": "C25",
   "status": "proved",
   "theorems": [
    "C25_overflow",
    "C25_overflow_only"
   ],
   "note": "Both directions: the marker raises the exception with everything loaded, and no other file does."
  },
  {
   "property": "C26",
   "status": "proved",
   "theorems": [
    "C26_safe_and_total",
    "C26_missing_file"
   ],
   "note": "For every file, every I/O fault schedule and every allocation schedule; out-of-bounds access is an explicit outcome of the model and is excluded."
  },
  {
   "property": "C27",
   "status": "partial",
   "theorems": [
    "C27_malformed_partial",
    "C27_malformed_after",
    "C27_last_character_refuted"
   ],
   "note": "An unpaired last character is never checked (C27_last_character_refuted). The exception code is exact when everything before the bad pair is a correct dump (C27_malformed_after); otherwise an earlier bus error or refused allocation may be reported instead (C27_malformed_partial)."
  },
  {
   "property": "C28",
   "status": "proved",
   "theorems": [
    "C28_listed",
    "C28_unlisted",
    "C28_loads"
   ],
   "note": "For every log that loads: the last line about a register decides it, unmentioned registers keep their value (MSP/PSP 0xBAADBAAD), the exception PSR is unchanged; logs without memory lines always load."
  },
  {
   "property": "C29",
   "status": "partial",
   "theorems": [
    "C29_round_trip_partial",
    "C29_memory_reads_partial",
    "C29_top_of_memory_refuted",
    "C29_symbol_refuted"
   ],
   "note": "Proved for logs of four-word lines (or lines ending directly after their last word) whose runs fit into free memory. Missing: a line ending at 2^32 directly followed by one at address 0 (refuted: bus error) and symbols with unbalanced angle brackets (refuted: words lost)."
  },
  {
   "property": "C30",
   "status": "partial",
   "theorems": [
    "C30_exact_partial",
    "C30_effect",
    "C30_short_line_refuted"
   ],
   "note": "Refuted for short lines with a newline: one zero word too many. C30_effect gives the exact effect for every log; C30_exact_partial is the true part."
  },
  {
   "property": "C31",
   "status": "proved",
   "theorems": [
    "C31_safe_and_total",
    "C31_file_exception"
   ],
   "note": "All file contents, file faults and allocation failures."
  },
  {
   "property": "C32",
   "status": "proved",
   "theorems": [
    "C32_flag"
   ],
   "note": "For every log that loads; no other flag bit changes."
  },
  {
   "property": "C33",
   "status": "proved",
   "theorems": [
    "C33_loads",
    "C33_reads"
   ],
   "note": "Proved for every executable below 4 GB whose loadable segments do not overlap each other or existing memory and do not wrap; the only other outcome is out of memory with a refused allocation."
  },
  {
   "property": "C34",
   "status": "proved",
   "theorems": [
    "C34_header",
    "C34_nothing_to_load",
    "C34_outside"
   ],
   "note": "Proved: bad or short headers and files with nothing to load are rejected without touching memory; entries or contents outside the file are rejected after the preceding segments were loaded (files up to 65536 bytes less than 4 GB)."
  },
  {
   "property": "C35",
   "status": "partial",
   "theorems": [
    "C35_safe_partial",
    "C35_refuted",
    "C35_any_partial"
   ],
   "note": "Refuted for the code: offset+size is computed in 32 bits, so p_offset=84, p_filesz=0xFFFFFFB0 passes the check and bytes after the file are read. Proved under the condition that no loadable entry ends beyond 2^32. C35_any_partial: for files of any size and contents, only a file with such an entry, or of nearly 4 GB, is read beyond its end."
  },
  {
   "property": "C36",
   "status": "proved",
   "theorems": [
    "C36_message",
    "C36_complaint",
    "C36_rejected",
    "C36_accepted",
    "C36_selects"
   ],
   "note": "The grammar is CmdSpec.spells/complete. Rejection is exact (code, message, usage, no file opened, no region); acceptance means the image file is the next thing opened."
  },
  {
   "property": "C37",
   "status": "proved",
   "theorems": [
    "C37_order"
   ],
   "note": "Equality of the whole outcome (value or exception, and world) for reordered option lists; options of one kind keep their order, and --elf/--bin are one kind."
  },
  {
   "property": "C38",
   "status": "partial",
   "theorems": [
    "C38_clean_partial",
    "C38_missing_image",
    "C38_missing_dump",
    "C38_original",
    "C38_out_of_memory",
    "C38_crash_refuted",
    "C38_leak_refuted",
    "C38_lost_partial",
    "C38_apart_partial"
   ],
   "note": "Holds for every argument list, fault schedule and file contents unless an ELF file has entries that wrap past 2^32 or overlap: then the loader reads outside the file (C38_crash_refuted) or start-up leaks a block (C38_leak_refuted). C79 covers those files too. C38_lost_partial bounds what stays allocated by the number of overlapping entries, for every file, and C38_apart_partial is the case without any."
  },
  {
   "property": "C39",
   "status": "proved",
   "theorems": [
    "C39_type",
    "C39_dump_file"
   ],
   "note": "Stated without I/O faults; for faults see C50."
  },
  {
   "property": "C40",
   "status": "partial",
   "theorems": [
    "C40_image_kept_partial",
    "C40_overlap_refuted",
    "C40_protected_partial",
    "C40_apart_partial"
   ],
   "note": "Whatever the dump, the aliases, the I/O faults and refused allocations. C40_protected_partial: for every image, what cannot be written after loading it is as it was after start-up. C40_apart_partial: that is all of the image, unless an entry of an ELF file starts inside an earlier one; then it fails (C40_overlap_refuted)."
  },
  {
   "property": "C41",
   "status": "proved",
   "theorems": [
    "C41_end_to_end"
   ],
   "note": "Proved for raw and ELF images and for binary dumps, hex dumps and GDB logs (dump_means), for reads of all widths."
  },
  {
   "property": "C42",
   "status": "proved",
   "theorems": [
    "C42_later",
    "C42_read",
    "C42_read_write",
    "C42_write_read",
    "C42_any_packet",
    "C42_declared"
   ],
   "note": "Debug sessions started from the command line or any memory and context, after any platform calls. Any packet, even malformed, changes registers only. C42_later: a target description fits the packets sent at any later time."
  },
  {
   "property": "C43",
   "status": "partial",
   "theorems": [
    "C43_read",
    "C43_write",
    "C43_count",
    "C43_count_first",
    "C43_never_crashes_partial",
    "C43_overflow_refuted"
   ],
   "note": "Refused accesses are counted exactly between queries. Partial: the 32-bit counter overflows (undefined behaviour) after 2^31 failures without a query, proved as C43_overflow_refuted."
  },
  {
   "property": "C44",
   "status": "proved",
   "theorems": [
    "C44_stays",
    "C44_signal",
    "C44_low_bits"
   ],
   "note": "For every debug state; only the low 8 bits matter, so exception numbers above 255 alias. C44_stays: whatever the debugger does, the signal stays the same."
  },
  {
   "property": "C45",
   "status": "proved",
   "theorems": [
    "C45_report",
    "C45_bits",
    "C45_address",
    "C45_absent",
    "C45_hard"
   ],
   "note": "The report equals a table-driven specification; per-bit and address-line equivalences and the absent-register cases are separate theorems."
  },
  {
   "property": "C46",
   "status": "partial",
   "theorems": [
    "C46_latched",
    "C46_asking",
    "C46_connected",
    "C46_polls",
    "C46_total",
    "C46_waiting",
    "C46_end_of_input_refuted",
    "C46_exactly_partial"
   ],
   "note": "Partial: end of input counts as a received character (C46_end_of_input_refuted). C46_exactly_partial says exactly what counts as a connection, for every schedule of console results."
  },
  {
   "property": "C47",
   "status": "partial",
   "theorems": [
    "C47_proper",
    "C47_handler_iff_raised",
    "C47_stale_code_refuted",
    "C47_memory_read_refuted"
   ],
   "note": "Machine with explicit handler chain, setjmp/longjmp, for every program built from the macros and any program state. Proved for properly used macros (C47_proper is an equivalence with a structured specification). Refuted in general (stale code), also on the modelled Platform_MemRead."
  },
  {
   "property": "C48",
   "status": "partial",
   "theorems": [
    "C48_never_dangling",
    "C48_balanced",
    "C48_nearest",
    "C48_caught",
    "C48_return_in_try_refuted",
    "C48_other_code_refuted",
    "C48_lost_rethrow_refuted",
    "C48_model_is_macros",
    "C48_codes"
   ],
   "note": "Balance, nearest handler and no dangling jump for every program whose try bodies do not return. The code delivered is max(code thrown, stale code): refuted variants are separate theorems. C48_model_is_macros justifies the throw/try computations used by the rest of the model."
  },
  {
   "property": "C49",
   "status": "partial",
   "theorems": [
    "C49_failure",
    "C49_clean_partial",
    "C49_leak_refuted",
    "C49_lost_partial",
    "C49_session_partial"
   ],
   "note": "The exit status is exact for every start-up failure and every monitor; freeing everything fails only where C38 fails (C49_leak_refuted). C49_session_partial covers whole sessions with an arbitrary monitor. C49_lost_partial bounds what a whole run leaves allocated by the number of overlapping entries."
  },
  {
   "property": "C50",
   "status": "partial",
   "theorems": [
    "C50_dump_refuted",
    "C50_dump_partial",
    "C50_hex_partial",
    "C50_any_file",
    "C50_rewind_partial",
    "C50_log_refuted",
    "C50_registers_partial",
    "C50_zeros_refuted",
    "C50_type_refuted"
   ],
   "note": "Refuted for the code: a failing fgets is taken for the end of the log, a failing fread of a region descriptor for the end of the dump, a failing read in the second pass of a log leaves zeros where the log shows other words, and a failing read while the type is determined turns a binary dump into an empty log; all are reported as success. Proved for every fault schedule: a dump reported as loaded has all its registers and a prefix of its regions, complete, and loses regions only if an operation failed (binary, hex, and files of any contents); a log reported as loaded has the registers of a prefix of its lines; a failed open (C31_file_exception, C26) and a failed rewind between the two passes are always reported."
  },
  {
   "property": "C51",
   "status": "proved",
   "theorems": [
    "C51_stop_reply"
   ],
   "note": "Stop reply compared with the register packet digit by digit."
  },
  {
   "property": "C52",
   "status": "proved",
   "theorems": [
    "C52_endless",
    "C52_iterations"
   ],
   "note": "The monitor's iterations are arbitrary computations on the world."
  },
  {
   "property": "C53",
   "status": "proved",
   "theorems": [
    "C53_map_later",
    "C53_target_later",
    "C53_same_texts",
    "C53_target",
    "C53_map",
    "C53_map_text"
   ],
   "note": "For every debug state, with any sequence of platform calls between the announcement and the text."
  },
  {
   "property": "C54",
   "status": "proved",
   "theorems": [
    "C54_bytes",
    "C54_errors"
   ],
   "note": "Quantifies over every schedule of console successes, failures and end of input."
  },
  {
   "property": "C55",
   "status": "proved",
   "theorems": [
    "C55_aliases",
    "C55_nowhere"
   ],
   "note": "Raw and ELF images with all three kinds of dump, reads of 1, 2 and 4 bytes: successful start-ups (C55_aliases: every address) and aliases onto nothing (C55_nowhere). Aliases of aliases, which the statement excludes, are refuted under C07."
  },
  {
   "property": "C56",
   "status": "proved",
   "theorems": [
    "C56_frozen",
    "C56_control",
    "C56_control_dropped",
    "C56_untouched",
    "C56_read_back",
    "C56_registers"
   ],
   "note": "For every sequence of platform calls after start-up (debug_state). C56_control covers all trivial functions of mriPlatform.c; C56_control_dropped says a session is the same without them."
  },
  {
   "property": "C57",
   "status": "proved",
   "theorems": [
    "C57_memory",
    "C57_image",
    "C57_registers",
    "C57_aliases",
    "C57_fault_registers"
   ],
   "note": "For every session (session_of: start-up with any image, dump and aliases, then any sequence of platform calls) and every access width."
  },
  {
   "property": "C58",
   "status": "partial",
   "theorems": [
    "C58_same_number_partial",
    "C58_image_partial",
    "C58_aliases_partial",
    "C58_taken_for",
    "C58_numeral_taken",
    "C58_image_taken",
    "C58_aliases_taken",
    "C58_every_number",
    "C58_not_a_number_refuted",
    "C58_too_large_refuted"
   ],
   "note": "Every numeral of a 32-bit number means that number, in all option arguments; and whatever the text is, the number it is taken for is settled (C58_taken_for, C58_image_taken, C58_aliases_taken: blanks, one sign, the longest numeral; saturation at 2^64). Not proved because false: text that is not a number is accepted (C58_not_a_number_refuted), and larger numbers lose their upper bits (C58_too_large_refuted)."
  },
  {
   "property": "C59",
   "status": "proved",
   "theorems": [
    "C59_failing_allocation"
   ],
   "note": "Requests are unsigned ints (below 2^32), as the parameter type says."
  },
  {
   "property": "C60",
   "status": "partial",
   "theorems": [
    "C60_untouched",
    "C60_restored",
    "C60_returned",
    "C60_fseek_partial",
    "C60_fseek_count_first",
    "C60_fseek_at_once",
    "C60_fread",
    "C60_fgets_partial",
    "C60_no_room_refuted",
    "C60_left_over_refuted"
   ],
   "note": "Proved for every history. Not proved because false: with a buffer size of 0 fgets writes outside the buffer (C60_no_room_refuted), and a count of fseek calls that was not used up outlives the restore (C60_left_over_refuted)."
  },
  {
   "property": "C61",
   "status": "partial",
   "theorems": [
    "C61_call_count",
    "C61_output_partial",
    "C61_exactly",
    "C61_other_stream_refuted",
    "C61_return_value",
    "C61_last",
    "C61_previous"
   ],
   "note": "Proved: the n-th last text (n up to 4) on the stream it was printed to, and exactly what is found otherwise. Not proved because false: text on one stream pushes out the last texts of the other (C61_other_stream_refuted)."
  },
  {
   "property": "C62",
   "status": "partial",
   "theorems": [
    "C62_read",
    "C62_exceptions",
    "C62_polled",
    "C62_captured_partial",
    "C62_no_buffer_refuted"
   ],
   "note": "Proved for every history in which the capture buffer was set up. Asking for the captured text without one writes through NULL (C62_no_buffer_refuted)."
  },
  {
   "property": "C63",
   "status": "proved",
   "theorems": [
    "C63_received",
    "C63_exhausted",
    "C63_sent",
    "C63_checksums",
    "C63_checksummed_data",
    "C63_inside",
    "C63_polled",
    "C63_delayed",
    "C63_flags"
   ],
   "note": "The data are C strings. A receiveChar with nothing left never returns (C63_exhausted)."
  },
  {
   "property": "C64",
   "status": "proved",
   "theorems": [
    "C64_connected",
    "C64_polls",
    "C64_bytes",
    "C64_errors",
    "C64_file_exception"
   ],
   "note": "Windows API calls are the same oracles as select, read and write on POSIX; a failing PeekNamedPipe is taken to leave its output untouched."
  },
  {
   "property": "C65",
   "status": "partial",
   "theorems": [
    "C65_arguments",
    "C65_says_why_partial",
    "C65_any_partial",
    "C65_hex_refuted",
    "C65_log_refuted",
    "C65_elf_refuted"
   ],
   "note": "Every wrong command line gets a message. Any other failure does too, except the cases that C65_hex_refuted, C65_log_refuted and C65_elf_refuted show to be silent: a bad digit in a hex dump (the code throws without a message), and memory-map errors of an ELF image or a GDB log. C65_any_partial also covers failing file operations."
  },
  {
   "property": "C66",
   "status": "partial",
   "theorems": [
    "C66_only_dumps_partial",
    "C66_anything",
    "C66_empty_refuted",
    "C66_newline_refuted"
   ],
   "note": "Files with the binary or hex signature are accepted only if they are complete dumps (a hex dump may be followed by one character). Refuted for the rest: C66_anything proves that every file without signature in which no line is about memory or registers is accepted as an empty GDB log, e.g. an empty file, or a hex dump after a blank line."
  },
  {
   "property": "C67",
   "status": "partial",
   "theorems": [
    "C67_raw",
    "C67_raw_rejected",
    "C67_elf_partial",
    "C67_elf_refuted"
   ],
   "note": "Exact for raw images (below 2^32 bytes: accepted only if they fit, rejected with a bus error if not, unless memory runs out). For executables only partial: a segment may wrap around into another segment, and then overwrites it (C67_elf_refuted)."
  },
  {
   "property": "C68",
   "status": "proved",
   "theorems": [
    "C68_read",
    "C68_write",
    "C68_value",
    "C68_bytes",
    "C68_store"
   ],
   "note": ""
  },
  {
   "property": "C69",
   "status": "partial",
   "theorems": [
    "C69_session",
    "C69_direct_partial",
    "C69_alias_refuted"
   ],
   "note": "Exact for every successful start-up and debug session (C69_session). With arbitrary calls of the simulator it holds for accesses that do not go through an alias (C69_direct_partial); an alias made before its target became read-only is described as RAM (C69_alias_refuted)."
  },
  {
   "property": "C70",
   "status": "proved",
   "theorems": [
    "C70_init",
    "C70_forget",
    "C70_uninit"
   ],
   "note": ""
  },
  {
   "property": "C71",
   "status": "partial",
   "theorems": [
    "C71_formats",
    "C71_map",
    "C71_alias_partial",
    "C71_alias_size_refuted"
   ],
   "note": "The memory map is fully proved. The size of an alias is shown as a signed number, so the claim about the message holds for sizes below 2^31 (C71_alias_partial) and fails for larger ones (C71_alias_size_refuted). The numbers in the messages about ELF files are part of C72."
  },
  {
   "property": "C72",
   "status": "partial",
   "theorems": [
    "C72_dump",
    "C72_hex",
    "C72_elf_partial",
    "C72_elf_reported",
    "C72_elf_refuted"
   ],
   "note": "Dumps, binary and hex, are fully proved: every failure with a valid text and without file errors gets the message of its first defect (hex dumps with bad digits: see C74). For executables the offsets are shown as signed numbers, so the claim holds when what the loadable entries describe ends within the first 2 GB (C72_elf_partial) and fails otherwise (C72_elf_refuted); C72_elf_reported says what is shown for every executable whose entries describe contents below 4 GB. Files of 4 GB less 64 KB or more are not covered."
  },
  {
   "property": "C73",
   "status": "proved",
   "theorems": [
    "C73_bytes",
    "C73_others",
    "C73_waiting"
   ],
   "note": "Proved for every sequence of calls of the platform layer. A read at the end of the input counts as a call that returned (the defect recorded under C46)."
  },
  {
   "property": "C74",
   "status": "partial",
   "theorems": [
    "C74_why_partial",
    "C74_files",
    "C74_any_partial",
    "C74_silent_refuted"
   ],
   "note": "Whatever allocations are refused and whatever file operations fail, every failure gets the message called for (C74_any_partial): file errors name the file; every other message is the one that the image, read completely, and the part of the dump before the first failing read call for; memory is blamed only after a refused allocation. C74_why_partial is sharper when no file operation fails. Refuted in part: some of these messages are empty, as the specification says (C74_silent_refuted, and see C65)."
  },
  {
   "property": "C75",
   "status": "proved",
   "theorems": [
    "C75_map",
    "C75_session_map",
    "C75_target"
   ],
   "note": ""
  },
  {
   "property": "C76",
   "status": "proved",
   "theorems": [
    "C76_session",
    "C76_runs",
    "C76_determined"
   ],
   "note": ""
  },
  {
   "property": "C77",
   "status": "proved",
   "theorems": [
    "C77_start",
    "C77_main"
   ],
   "note": ""
  },
  {
   "property": "C78",
   "status": "proved",
   "theorems": [
    "C78_ops",
    "C78_start",
    "C78_pcalls",
    "C78_granted",
    "C78_main"
   ],
   "note": ""
  },
  {
   "property": "C79",
   "status": "proved",
   "theorems": [
    "C79_start",
    "C79_benign"
   ],
   "note": ""
  },
  {
   "property": "C80",
   "status": "proved",
   "theorems": [
    "C80_start",
    "C80_channel",
    "C80_pcall",
    "C80_main"
   ],
   "note": ""
  },
  {
   "property": "C81",
   "status": "proved",
   "theorems": [
    "C81_program",
    "C81_sturdy"
   ],
   "note": ""
  },
  {
   "property": "C82",
   "status": "proved",
   "theorems": [
    "C82_any",
    "C82_history",
    "C82_start",
    "C82_session",
    "C82_file"
   ],
   "note": ""
  }
 ]
}