{
 "claims": [
  {
   "property": "C01",
   "status": "proved",
   "theorems": [
    "C01_instruction_semantics"
   ],
   "note": ""
  },
  {
   "property": "C02",
   "status": "proved",
   "theorems": [
    "C02_keep_mode"
   ],
   "note": "Device opcodes are excluded here because the callback may observe the pointer; C10 covers their keep variants."
  },
  {
   "property": "C03",
   "status": "proved",
   "theorems": [
    "C03_return_mode"
   ],
   "note": ""
  },
  {
   "property": "C04",
   "status": "proved",
   "theorems": [
    "C04_memory_safety",
    "C04_high_memory",
    "C04_instruction_high_memory"
   ],
   "note": ""
  },
  {
   "property": "C05",
   "status": "proved",
   "theorems": [
    "C05_load_wraps",
    "C05_store_wraps",
    "C05_jump_wraps"
   ],
   "note": ""
  },
  {
   "property": "C06",
   "status": "proved",
   "theorems": [
    "C06_hook_transparent"
   ],
   "note": ""
  },
  {
   "property": "C07",
   "status": "proved",
   "theorems": [
    "C07_zero_vector",
    "C07_returns_iff_brk",
    "C07_fuel_irrelevant"
   ],
   "note": ""
  },
  {
   "property": "C08",
   "status": "proved",
   "theorems": [
    "C08_reset",
    "C08_soft_reset_keeps"
   ],
   "note": ""
  },
  {
   "property": "C09",
   "status": "proved",
   "theorems": [
    "C09_only_mul2_overflows",
    "C09_mul2_no_ub_refuted"
   ],
   "note": "Exact characterisation; the MUL2 overflow itself is shown reachable by C09_mul2_no_ub_refuted."
  },
  {
   "property": "C10",
   "status": "proved",
   "theorems": [
    "C10_output",
    "C10_input"
   ],
   "note": ""
  },
  {
   "property": "C11",
   "status": "proved",
   "theorems": [
    "C11_fill",
    "C11_fill_port",
    "C11_fill_outside_is_noop_refuted"
   ],
   "note": ""
  },
  {
   "property": "C12",
   "status": "proved",
   "theorems": [
    "C12_copy_ascending",
    "C12_copy_descending",
    "C12_memmove",
    "C12_length",
    "C12_other_commands"
   ],
   "note": ""
  },
  {
   "property": "C13",
   "status": "proved",
   "theorems": [
    "C13_expansion_in_bounds",
    "C13_runs_stay_in_bounds",
    "C13_fill_value_in_bounds_refuted"
   ],
   "note": ""
  },
  {
   "property": "C14",
   "status": "proved",
   "theorems": [
    "C14_exit_code"
   ],
   "note": ""
  },
  {
   "property": "C15",
   "status": "proved",
   "theorems": [
    "C15_palette"
   ],
   "note": ""
  },
  {
   "property": "C16",
   "status": "proved",
   "theorems": [
    "C16_arguments",
    "C16_event_sequence",
    "C16_input"
   ],
   "note": ""
  },
  {
   "property": "C17",
   "status": "proved",
   "theorems": [
    "C17_controller",
    "C17_mouse",
    "C17_mouse_check",
    "C17_bits"
   ],
   "note": ""
  },
  {
   "property": "C18",
   "status": "proved",
   "theorems": [
    "C18_memory",
    "C18_rom",
    "C18_extension",
    "C18_rom_in_bounds_refuted"
   ],
   "note": ""
  },
  {
   "property": "C19",
   "status": "proved",
   "theorems": [
    "C19_paths",
    "C19_no_name_no_call",
    "C19_delete"
   ],
   "note": "Over every reachable device state, host and port write: each path passed to the host is the NUL-terminated name in memory (1..1023 bytes, wrapping); none is passed when there is no such name; delete port exact."
  },
  {
   "property": "C20",
   "status": "proved",
   "theorems": [
    "C20_bounds",
    "C20_read",
    "C20_write",
    "C20_full_transfer",
    "C20_transfer_at_zero_refuted"
   ],
   "note": "No port write faults or changes memory outside its window, for any host obeying the file.h contract; regular reads and writes are characterised byte for byte with success counts. Deviation proved as C20_transfer_at_zero_refuted: at address 0 nothing is transferred (16 bit wrap in buxn_file_clamp_length)."
  },
  {
   "property": "C21",
   "status": "proved",
   "theorems": [
    "C21_format",
    "C21_stat_port"
   ],
   "note": "For all sizes, lengths and kinds; the stat port on top of it."
  },
  {
   "property": "C22",
   "status": "proved",
   "theorems": [
    "C22_ownership",
    "C22_name_releases",
    "C22_runs"
   ],
   "note": "Ownership automaton accepts the call log of every reachable history, and of both file devices in any VM run."
  },
  {
   "property": "C23",
   "status": "proved",
   "theorems": [
    "C23_listing",
    "C23_short_read"
   ],
   "note": "Stated against the entries the host returned; includes that short reads mean the end."
  },
  {
   "property": "C24",
   "status": "proved",
   "theorems": [
    "C24_new_directory",
    "C24_new_directory_from_start_refuted"
   ],
   "note": "The exact behaviour is proved; the natural stronger claim is refuted by a concrete history (C24_new_directory_from_start_refuted)."
  },
  {
   "property": "C25",
   "status": "proved",
   "theorems": [
    "C25_render",
    "C25_only_sample",
    "C25_sample_window",
    "C25_chunks"
   ],
   "note": "Faults, counts, ranges, non-interference outside the sample, and independence of the chunking, for every reachable voice; the integer before conversion to float is modelled."
  },
  {
   "property": "C26",
   "status": "proved",
   "theorems": [
    "C26_envelope",
    "C26_phases",
    "C26_zero",
    "C26_meter"
   ],
   "note": "Sample rates up to 1966079 Hz (no 32 bit product wraps)."
  },
  {
   "property": "C27",
   "status": "proved",
   "theorems": [
    "C27_delivery",
    "C27_order",
    "C27_loss",
    "C27_exclusion",
    "C27_progress",
    "C27_no_race_if_acquire",
    "C27_no_race_refuted"
   ],
   "note": "All interleavings of the two threads. The exchange in gui.c only releases, so C11 data-race freedom is refuted (C27_no_race_refuted) and proved for an acquiring exchange."
  },
  {
   "property": "C28",
   "status": "proved",
   "theorems": [
    "C28_draw_in_bounds",
    "C28_history",
    "C28_sprites_draw",
    "C28_pixel",
    "C28_fill_exact",
    "C28_fill_inside",
    "C28_fill_in_bounds_refuted",
    "C28_sprite_read_refuted",
    "C28_wide_screen_refuted"
   ],
   "note": "Pixel and sprite mode for every register content, fill mode exactly; sizes up to 32752. Refuted beyond: fills from outside the screen write out of bounds, sprites can be read past the end of memory, int overflow on wider screens."
  },
  {
   "property": "C29",
   "status": "proved",
   "theorems": [
    "C29_incremental",
    "C29_reports",
    "C29_same_as_full",
    "C29_wrapping_refuted",
    "C29_overlong_fill_refuted"
   ],
   "note": "Invariant over all histories of draws, size changes, theme changes and frames. Refuted for wrapping sprites and for fills past the right margin (the provisos)."
  },
  {
   "property": "C30",
   "status": "proved",
   "theorems": [
    "C30_sprites",
    "C30_pixel",
    "C30_cells"
   ],
   "note": "Exact picture after a sprite draw, against an independent formula for the blending table."
  },
  {
   "property": "C31",
   "status": "proved",
   "theorems": [
    "C31_get",
    "C31_count",
    "C31_hook_requested"
   ],
   "note": "Every get and count reply in any reachable history; hook requested iff needed."
  },
  {
   "property": "C32",
   "status": "proved",
   "theorems": [
    "C32_hits",
    "C32_wrapping",
    "C32_loads",
    "C32_wrapped_load_missed_refuted"
   ],
   "note": "Reported breakpoint = lowest-numbered one naming what the instruction does, with loads/writes/touches defined from the VM's behaviour; the wrap-around exception is characterised exactly and refuted as a general claim."
  },
  {
   "property": "C33",
   "status": "proved",
   "theorems": [
    "C33_stepping",
    "C33_first_stop",
    "C33_depth_of_pause",
    "C33_vector_calls",
    "C33_shadowed_breakpoint_refuted"
   ],
   "note": "Stops after resume/step-in/over/out, first stop, pause requests, depth of a pause; finding: a non-pausing breakpoint shadows a pausing one with a higher number."
  },
  {
   "property": "C34",
   "status": "proved",
   "theorems": [
    "C34_well_nested",
    "C34_vector_session"
   ],
   "note": "Log of every reachable state is a sequence of sessions; one vector adds exactly one session."
  },
  {
   "property": "C35",
   "status": "proved",
   "theorems": [
    "C35_memory_read",
    "C35_memory_write",
    "C35_info",
    "C35_transparent",
    "C35_safe"
   ],
   "note": "Memory read/write windows, info replies, whole-run transparency for inspecting commands, hook safety."
  },
  {
   "property": "C36",
   "status": "proved",
   "theorems": [
    "C36_round_trip",
    "C36_one_meaning",
    "C36_mem_write_truncated",
    "C36_mem_write_refuted",
    "C36_too_long",
    "C36_any_input",
    "C36_missing_size_refuted"
   ],
   "note": "Round trip for every message within the limits, with the exception stated in full: memory writes of 256 bytes or more arrive with their size modulo 256 (refuted by example). bserial is not in the repository and is modelled as a stream of integers, blobs and records. Also: any input is safe and within limits unless a record lacks a key (refuted otherwise)."
  },
  {
   "property": "C37",
   "status": "proved",
   "theorems": [
    "C37_round_trip",
    "C37_each_name_once",
    "C37_too_many_names",
    "C37_hang_is_forever",
    "C37_any_file",
    "C37_accepted_names_refuted",
    "C37_accepted_strings_refuted",
    "C37_numbers_fit"
   ],
   "note": "Round trip for all symbol tables within the announced number of files and 32 bit sizes, each name stored once; hang with too many names, any accepted file, and two refuted claims about hostile files."
  },
  {
   "property": "C38",
   "status": "proved",
   "theorems": [
    "C38_found_iff_inserted",
    "C38_first_node",
    "C38_insert_returns_node",
    "C38_pointers_compare_strings"
   ],
   "note": "Every hash function and every sequence of insertions; nodes identified by their address."
  },
  {
   "property": "C39",
   "status": "proved",
   "theorems": [
    "C39_failure_iff_error",
    "C39_one_result",
    "C39_dropped_text_refuted"
   ],
   "note": "All files and include structures. A lone CR at the end of an included file drops the rest of the including file without an error (refuted, with the general fact that the dropped text is an error elsewhere)."
  },
  {
   "property": "C40",
   "status": "proved",
   "theorems": [
    "C40_rom_addresses",
    "C40_outside_is_error",
    "C40_bytes_are_tokens"
   ],
   "note": "All files, also failing runs for the addresses; the bytes of the ROM are exactly those covered by tokens."
  },
  {
   "property": "C41",
   "status": "proved",
   "theorems": [
    "C41_references",
    "C41_one_target",
    "C41_unknown_label",
    "C41_too_far",
    "C41_duplicate"
   ],
   "note": "All programs, modes, forward and backward references, labels, lambdas and anonymous labels. Where two tokens put bytes at the same address the encoding is claimed only for bytes written by one token."
  },
  {
   "property": "C42",
   "status": "proved",
   "theorems": [
    "C42_accepted_mnemonics",
    "C42_encoding",
    "C42_decoded",
    "C42_all_bytes",
    "C42_immediate_forms"
   ],
   "note": "All strings as the only word of a file, and every mnemonic in any program."
  },
  {
   "property": "C43",
   "status": "proved",
   "theorems": [
    "C43_emitted",
    "C43_rejected",
    "C43_accepted",
    "C43_plus_refuted"
   ],
   "note": "All documented forms in any program, all other numeric forms rejected; '+' and '++' without digits are accepted as 0 (refuted)."
  },
  {
   "property": "C44",
   "status": "proved",
   "theorems": [
    "C44_jump",
    "C44_conditional_jump",
    "C44_call",
    "C44_literal_jumps"
   ],
   "note": "Immediate forms and address literals followed by a jump, in all states of the machine with the ROM in memory; label anywhere in 64 KiB, including wrap-around."
  },
  {
   "property": "C45",
   "status": "proved",
   "theorems": [
    "C45_always_ends",
    "C45_nesting",
    "C45_too_deep"
   ],
   "note": "All files; also nesting of failing runs. The number of expansions is finite but can be exponential in the number of macros."
  },
  {
   "property": "C46",
   "status": "proved",
   "theorems": [
    "C46_nothing_inside",
    "C46_ends_at_match",
    "C46_only_outside",
    "C46_comment_in_macro_refuted"
   ],
   "note": "Function level for all states and units, file level for files without macros and includes. In the body of a macro a comment can be cut by '}' (refuted)."
  },
  {
   "property": "C47",
   "status": "proved",
   "theorems": [
    "C47_deliveries",
    "C47_once",
    "C47_prefix_once",
    "C47_prefix_target",
    "C47_repeated_prefix_refuted",
    "C47_order_refuted",
    "C47_postfix_of_nothing_refuted"
   ],
   "note": "All streams of whole comments and other symbols: what is delivered, to whom and how often is characterised exactly. The property as first stated fails in three cases, each refuted by a concrete stream: a prefix annotation repeated before its target loses the first text, several pending annotations come in table order instead of source order, and a postfix annotation with nothing before it is attached to an empty symbol."
  },
  {
   "property": "C48",
   "status": "proved",
   "theorems": [
    "C48_found",
    "C48_succeeds",
    "C48_not_found",
    "C48_empty",
    "C48_too_large",
    "C48_missing_input_refuted"
   ],
   "note": "All runners and ROMs of 1 to 2^31-1 bytes and every disk size; the limits are sharp (empty ROM refused, 2^31 bytes overflow an int). A missing ROM file is not noticed by rom2exe and a null pointer is read (refuted)."
  },
  {
   "property": "C49",
   "status": "proved",
   "theorems": [
    "C49_file",
    "C49_plain_runner",
    "C49_file_too_large",
    "C49_file_reach",
    "C49_embedded",
    "C49_gui",
    "C49_gui_full_refuted"
   ],
   "note": "Files of up to 1048320 bytes stay inside, every larger one writes behind the memory, at most 256 bytes for files and without limit for embedded ROMs. The GUI never writes outside but refuses a ROM that fits exactly (refuted)."
  },
  {
   "property": "C50",
   "status": "proved",
   "theorems": [
    "C50_rom_file",
    "C50_no_file",
    "C50_defined",
    "C50_boots"
   ],
   "note": "All sources; composed with the boot model. Assumes that no assert fails: label ids wrap to zero after 65535 labels."
  },
  {
   "property": "C51",
   "status": "proved",
   "theorems": [
    "C51_depth_change_agrees",
    "C51_operands_present"
   ],
   "note": "Straight-line opcodes and jumps that are followed, both stacks, modulo 256, for every state the checker reaches on any program; devices must leave the stack pointers alone. C51_operands_present: the operands of an opcode that is taken are on the stack of the checker."
  },
  {
   "property": "C52",
   "status": "proved",
   "theorems": [
    "C52_reported_only_at_255",
    "C52_overflow_unnoticed_refuted",
    "C52_reads_outside_refuted"
   ],
   "note": "An overflow is reported exactly if the counter is 255 and a short is pushed. Two refutations: 512 bytes pass unnoticed, and the checker reads in front of its array."
  },
  {
   "property": "C53",
   "status": "proved",
   "theorems": [
    "C53_finish_vector",
    "C53_own_vector_refuted"
   ],
   "note": "Exact behaviour proved; the claim for voices 1-3 is refuted by C53_own_vector_refuted."
  },
  {
   "property": "C54",
   "status": "proved",
   "theorems": [
    "C54_last_voice",
    "C54_finished",
    "C54_mixing_refuted"
   ],
   "note": "Exact behaviour proved; mixing is refuted by C54_mixing_refuted."
  },
  {
   "property": "C55",
   "status": "proved",
   "theorems": [
    "C55_client_told"
   ],
   "note": "wire.c composed with the modelled core; assumes the output stream has room for the messages."
  },
  {
   "property": "C56",
   "status": "proved",
   "theorems": [
    "C56_resume",
    "C56_gives_up",
    "C56_silent"
   ],
   "note": "Every wire state and every failure point."
  },
  {
   "property": "C57",
   "status": "proved",
   "theorems": [
    "C57_flat_texts",
    "C57_flat_accepted"
   ],
   "note": "Texts in which CR occurs only before LF and no word begins with % or ~."
  },
  {
   "property": "C58",
   "status": "proved",
   "theorems": [
    "C58_sym_file"
   ],
   "note": "The labels as announced to the host; names are cut at a zero byte."
  },
  {
   "property": "C59",
   "status": "proved",
   "theorems": [
    "C59_passing_program_underflows_refuted"
   ],
   "note": "Refuted by three programs, each for another reason (jumps are followed once, INC2 keeps a return address, byte arithmetic is not reduced)."
  },
  {
   "property": "C60",
   "status": "proved",
   "theorems": [
    "C60_checker_never_returns_refuted"
   ],
   "note": "Refuted by a program on which no amount of steps ends the analysis."
  },
  {
   "property": "C61",
   "status": "proved",
   "theorems": [
    "C61_undefined_behaviour_refuted"
   ],
   "note": "Refuted by two programs: a read at index -256 of the ROM and a signed overflow."
  },
  {
   "property": "C62",
   "status": "proved",
   "theorems": [
    "C62_trace_end_always_failure"
   ],
   "note": "The end of a routine is always announced as a failure."
  },
  {
   "property": "C63",
   "status": "proved",
   "theorems": [
    "C63_failure_iff_error"
   ],
   "note": "All streams of symbols, all amounts of fuel."
  },
  {
   "property": "C64",
   "status": "proved",
   "theorems": [
    "C64_named_connections",
    "C64_other_strings",
    "C64_fifo_refuted",
    "C64_tcp_connect",
    "C64_tcp_connect_refuted",
    "C64_tcp_listen",
    "C64_negative_port",
    "C64_tcp_listen_refuted"
   ],
   "note": "Exact result for every string; three documented forms do not hold and are refuted: fifo:, the tcp-connect service (followed by uninitialised stack), the tcp-listen port on little-endian machines."
  },
  {
   "property": "C65",
   "status": "proved",
   "theorems": [
    "C65_listen",
    "C65_connect"
   ],
   "note": "Every outcome of bind, listen, accept and connect."
  },
  {
   "property": "C66",
   "status": "proved",
   "theorems": [
    "C66_command",
    "C66_command_alone",
    "C66_descriptor",
    "C66_no_descriptor"
   ],
   "note": "Argument lists with transport options before the command; descriptor round trip."
  },
  {
   "property": "C67",
   "status": "proved",
   "theorems": [
    "C67_right_symbol",
    "C67_cursor_visible",
    "C67_narrow_terminal_refuted",
    "C67_any_program_refuted"
   ],
   "note": "For sorted symbols and at least 12 columns; refuted for programs that are not in ascending order (a program that assembles is the witness) and narrow terminals."
  },
  {
   "property": "C68",
   "status": "proved",
   "theorems": [
    "C68_inside_source",
    "C68_text",
    "C68_whole_text_refuted",
    "C68_arrows",
    "C68_enter_elsewhere",
    "C68_focus",
    "C68_enter"
   ],
   "note": "Highlight range exact; the last character of a file is dropped (C68_whole_text_refuted)."
  },
  {
   "property": "C69",
   "status": "proved",
   "theorems": [
    "C69_every_byte_has_a_symbol",
    "C69_after_an_error_refuted"
   ],
   "note": "For all programs with includes and macros; invariant over every state of the assembler. After an error it need not hold (refuted)."
  },
  {
   "property": "C70",
   "status": "proved",
   "theorems": [
    "C70_opcode",
    "C70_number",
    "C70_last_symbol_refuted"
   ],
   "note": "For addresses with one description; refuted for overlapping code."
  },
  {
   "property": "C71",
   "status": "proved",
   "theorems": [
    "C71_debug_file",
    "C71_viewer",
    "C71_any_program_refuted",
    "C71_number_refuted"
   ],
   "note": "For ascending programs; two refutations: merged entries of a program that goes back, and the id of an entry with macro arguments."
  },
  {
   "property": "C72",
   "status": "proved",
   "theorems": [
    "C72_session",
    "C72_exit_code",
    "C72_stops",
    "C72_exit_zero_ends_refuted",
    "C72_exit_in_arguments_refuted"
   ],
   "note": "Two refutations: exit code zero before the arguments, and an exit during the arguments."
  },
  {
   "property": "C73",
   "status": "proved",
   "theorems": [
    "C73_routing",
    "C73_plain_ports",
    "C73_file_devices",
    "C73_output"
   ],
   "note": "For the graphical emulator and the REPL only the dispatch is modelled, not the output."
  },
  {
   "property": "C74",
   "status": "proved",
   "theorems": [
    "C74_process",
    "C74_embedded"
   ],
   "note": "No debugger attached, malloc succeeds, output takes every byte; the overflow is that of C09."
  },
  {
   "property": "C75",
   "status": "proved",
   "theorems": [
    "C75_ports",
    "C75_short",
    "C75_year_and_day",
    "C75_torn_read_refuted"
   ],
   "note": "Refuted for torn reads: at midnight after day 255 the program reads 0 or 511."
  },
  {
   "property": "C76",
   "status": "proved",
   "theorems": [
    "C76_symbols",
    "C76_reports",
    "C76_definitions",
    "C76_crlf_refuted"
   ],
   "note": "The byte offset in a CR LF file is refuted."
  },
  {
   "property": "C77",
   "status": "proved",
   "theorems": [
    "C77_generated",
    "C77_defined_once",
    "C77_references"
   ],
   "note": ""
  },
  {
   "property": "C78",
   "status": "proved",
   "theorems": [
    "C78_determined",
    "C78_tags_file",
    "C78_jump",
    "C78_nothing_found",
    "C78_cannot_write",
    "C78_options",
    "C78_macro_name_refuted"
   ],
   "note": "Refuted with macro arguments: a label with a newline in its name breaks its line in two."
  },
  {
   "property": "C79",
   "status": "proved",
   "theorems": [
    "C79_constants",
    "C79_sections",
    "C79_struct",
    "C79_roundtrip",
    "C79_macro_refuted",
    "C79_short_refuted",
    "C79_last_member_refuted"
   ],
   "note": "Refuted: a macro between two members (its symbol has address 0) or a member initialised by one two-byte number gets the wrong type; the last member of a program is missing."
  },
  {
   "property": "C80",
   "status": "proved",
   "theorems": [
    "C80_comments",
    "C80_annotations"
   ],
   "note": "Deeper than 65535 the 16-bit id starts again at 0, and the annotation code takes a word for the start of a comment."
  },
  {
   "property": "C81",
   "status": "proved",
   "theorems": [
    "C81_ports",
    "C81_reads",
    "C81_voices",
    "C81_position",
    "C81_position_refuted"
   ],
   "note": "Refuted: on a build that fetches the low byte of a DEI2 first, the audio position is put together from two different reads (C81_position_refuted)."
  },
  {
   "property": "C82",
   "status": "proved",
   "theorems": [
    "C82_console",
    "C82_record",
    "C82_in_bounds",
    "C82_determined",
    "C82_lines",
    "C82_zero_refuted",
    "C82_long_refuted"
   ],
   "note": "Refuted: a zero byte cuts its line (C82_zero_refuted); a line of exactly 255 characters is followed by an empty line (C82_long_refuted). Pending text without a newline is never logged."
  },
  {
   "property": "C83",
   "status": "proved",
   "theorems": [
    "C83_event",
    "C83_history",
    "C83_ports",
    "C83_touch",
    "C83_fingers",
    "C83_both_keys_refuted",
    "C83_position_refuted"
   ],
   "note": "Refuted: both control keys share one bit, so releasing one releases the button while the other is held (C83_both_keys_refuted); the pointer can be at x = width, one pixel outside (C83_position_refuted)."
  },
  {
   "property": "C84",
   "status": "proved",
   "theorems": [
    "C84_redraw",
    "C84_frame",
    "C84_palette_refuted"
   ],
   "note": "Refuted without the hypothesis on the palette: writing one byte to port 0x08, 0x0a or 0x0c changes the palette but not the picture already shown (C84_palette_refuted)."
  },
  {
   "property": "C85",
   "status": "proved",
   "theorems": [
    "C85_load",
    "C85_read_error",
    "C85_full_refuted",
    "C85_metadata",
    "C85_quit",
    "C85_quit_refuted"
   ],
   "note": "Refuted: a ROM that fits exactly is refused as too large (C85_full_refuted); a program that exits with code 0 does not close the window (C85_quit_refuted)."
  },
  {
   "property": "C86",
   "status": "proved",
   "theorems": [
    "C86_args",
    "C86_start",
    "C86_input"
   ],
   "note": ""
  },
  {
   "property": "C87",
   "status": "proved",
   "theorems": [
    "C87_opcode_keeps_constants_right",
    "C87_cast_keeps_constants_right",
    "C87_untaken_branch_is_put_aside",
    "C87_path_taken_up",
    "C87_routine_taken_up",
    "C87_stretch_keeps_constants_right",
    "C87_wrong_constants_refuted"
   ],
   "note": "stacks up to 250 bytes; the two conditions on constants are shown to be needed (C87_wrong_constants_refuted)"
  },
  {
   "property": "C88",
   "status": "proved",
   "theorems": [
    "C88_reported_writes_happen"
   ],
   "note": ""
  },
  {
   "property": "C89",
   "status": "proved",
   "theorems": [
    "C89_label_is_remembered",
    "C89_signature_is_read",
    "C89_second_signature_is_redundant",
    "C89_other_comments_declare_nothing",
    "C89_one_reading"
   ],
   "note": "the inputs of a signature may have up to 528 bytes of text"
  },
  {
   "property": "C90",
   "status": "proved",
   "theorems": [
    "C90_cast_is_read",
    "C90_second_cast_is_redundant",
    "C90_other_comments_are_no_casts"
   ],
   "note": "the names may have up to 528 bytes of text"
  },
  {
   "property": "C91",
   "status": "proved",
   "theorems": [
    "C91_vector_keeps_its_signature",
    "C91_vector_ends",
    "C91_start_is_a_vector"
   ],
   "note": "runs that enter another routine with a signature are not covered"
  },
  {
   "property": "C92",
   "status": "proved",
   "theorems": [
    "C92_call_is_checked",
    "C92_call_with_too_little",
    "C92_subroutine_into_vector",
    "C92_goes_over_into_vector"
   ],
   "note": "inputs that cut a short or join two bytes are not covered"
  },
  {
   "property": "C93",
   "status": "proved",
   "theorems": [
    "C93_return_is_checked",
    "C93_return_of_wrong_size",
    "C93_break_is_checked",
    "C93_break_of_wrong_size",
    "C93_subroutine_does_not_break"
   ],
   "note": "outputs that cut a short or join two bytes are not covered"
  },
  {
   "property": "C94",
   "status": "proved",
   "theorems": [
    "C94_header",
    "C94_functions",
    "C94_names_refuted",
    "C94_is_c_refuted",
    "C94_declared_refuted"
   ],
   "note": "the refuted parts are findings"
  },
  {
   "property": "C95",
   "status": "proved",
   "theorems": [
    "C95_table_shows_the_stack",
    "C95_columns_line_up",
    "C95_raw_bytes_otherwise",
    "C95_names_always_line_up_refuted"
   ],
   "note": "sizes over 255 bytes are not covered; the refuted part is a finding"
  },
  {
   "property": "C96",
   "status": "proved",
   "theorems": [
    "C96_signature_lists_the_stacks",
    "C96_next_line_starts_with_the_stacks",
    "C96_every_stack_is_carried_over_refuted",
    "C96_long_names_are_carried_over_refuted"
   ],
   "note": "that the text is read as one comment is C80 and not repeated here; the refuted parts are findings"
  },
  {
   "property": "C97",
   "status": "proved",
   "theorems": [
    "C97_errors_that_count",
    "C97_only_checked_lines_run",
    "C97_names_can_be_read_for_the_next_line",
    "C97_names_outlive_an_empty_line_refuted",
    "C97_rejected_line_leaves_the_noted_stacks_refuted",
    "C97_checked_stack_is_that_of_the_machine_refuted"
   ],
   "note": "the refuted parts are findings"
  },
  {
   "property": "C98",
   "status": "proved",
   "theorems": [
    "C98_system_ports",
    "C98_console_ports",
    "C98_screen_ports",
    "C98_screen_takes_the_size",
    "C98_mouse_ports",
    "C98_controller_ports",
    "C98_audio_ports",
    "C98_file_ports",
    "C98_vectors"
   ],
   "note": "the audio vector is C53; the clock is C75"
  },
  {
   "property": "C99",
   "status": "proved",
   "theorems": [
    "C99_log_is_what_happened",
    "C99_contract",
    "C99_directories",
    "C99_runs",
    "C99_reads_the_contents",
    "C99_first_read",
    "C99_writes_the_bytes",
    "C99_listing",
    "C99_whole_listing",
    "C99_dot_slash",
    "C99_failed_enumeration_is_handled_refuted",
    "C99_subdirectory_sizes_refuted"
   ],
   "note": "PhysFS itself is a parameter: what its functions promise is stated in PhysfsSpec; the listing is for sizes that do not change while it is read; the refuted parts are findings"
  },
  {
   "property": "C100",
   "status": "proved",
   "theorems": [
    "C100_label_names",
    "C100_macro_names",
    "C100_never_taken",
    "C100_name_denotes",
    "C100_numbers_have_different_names",
    "C100_anonymous_names_are_distinct_refuted"
   ],
   "note": "that anonymous labels have distinct names is refuted: a finding"
  },
  {
   "property": "C101",
   "status": "proved",
   "theorems": [
    "C101_update",
    "C101_session",
    "C101_start",
    "C101_quiet",
    "C101_debugging_is_invisible_refuted"
   ],
   "note": "that debugging is invisible is refuted: a finding"
  },
  {
   "property": "C102",
   "status": "proved",
   "theorems": [
    "C102_every_line",
    "C102_plain",
    "C102_embedded",
    "C102_no_name_refuted",
    "C102_start",
    "C102_missing",
    "C102_exe_is_rom",
    "C102_same_on_windows_refuted"
   ],
   "note": "the same meaning on Windows and an empty command line are refuted: findings"
  },
  {
   "property": "C103",
   "status": "proved",
   "theorems": [
    "C103_alloc",
    "C103_fit",
    "C103_no_room",
    "C103_cut",
    "C103_huge_length_refuted",
    "C103_symtab"
   ],
   "note": "that a hostile length is refused is refuted: a finding"
  },
  {
   "property": "C104",
   "status": "proved",
   "theorems": [
    "C104_hash",
    "C104_intern",
    "C104_kept",
    "C104_find"
   ],
   "note": "chibihash64 with bounds-checked reads equals an arithmetic description on byte lists, for all lengths; the string pool in memory over all histories (the collision behaviour is C38)."
  },
  {
   "property": "C105",
   "status": "proved",
   "theorems": [
    "C105_unused",
    "C105_once"
   ],
   "note": "Both directions, for all files, includes and macros: the warnings at the end of a successful run are exactly those at the definitions of names without a reference symbol and without a padding that has them as operand. Each is warned about once (C105_once). References by padding have no symbol, so they are read off the tokens (ghost events of the model)."
  },
  {
   "property": "C106",
   "status": "proved",
   "theorems": [
    "C106_excerpt",
    "C106_safe",
    "C106_reports",
    "C106_empty_first_line_refuted",
    "C106_bad_encoding_refuted"
   ],
   "note": "The excerpt is exact for every source, every decoder of UTF-8 that knows the characters of the line and every region made of whole characters of one line; for the reports of a run over ASCII files the line is the one with the reported number. Any region of well-formed text prints something and stays inside the line. The expected claim fails for the second line of a file whose first line is empty and for text that is not UTF-8 (refuted). utf8proc is a parameter."
  },
  {
   "property": "C107",
   "status": "proved",
   "theorems": [
    "C107_exit_code",
    "C107_rom",
    "C107_failure_keeps",
    "C107_only_check",
    "C107_all_files",
    "C107_orderly",
    "C107_old_symbols_refuted",
    "C107_symbols_count_refuted",
    "C107_defined",
    "C107_reopen_refuted"
   ],
   "note": "For every host, i.e. every combination of files that can or cannot be opened, written and flushed, every run of the assembler and every answer of the type checker. The parsing of the command line (library barg) is a parameter. Refuted: a failed assembly keeps the old .sym file; exit code 0 means that the symbol files were made; a source that cannot be opened again for an excerpt is harmless."
  },
  {
   "property": "C108",
   "status": "proved",
   "theorems": [
    "C108_options",
    "C108_usage",
    "C108_made",
    "C108_found",
    "C108_no_runner",
    "C108_bare_name_refuted",
    "C108_boots",
    "C108_through_path_refuted",
    "C108_through_path_cli_refuted"
   ],
   "note": "For every path of the program, command line, file system and room on the disk; output different from input and runner. Composed with C48. Refuted: the program ends properly when it is called by its bare name. C108_boots composes it with C102 and C49. Refuted, for both emulators: an executable made by rom2exe finds its ROM when it is started through PATH."
  },
  {
   "property": "C109",
   "status": "proved",
   "theorems": [
    "C109_lines",
    "C109_ends",
    "C109_cut_refuted",
    "C109_missing_refuted",
    "C109_assembled"
   ],
   "note": "For every file and every run of the assembler. Refuted: sym-view ends on a file that is cut off; it notices a file that does not exist."
  },
  {
   "property": "C110",
   "status": "proved",
   "theorems": [
    "C110_bytes",
    "C110_line",
    "C110_stop",
    "C110_end",
    "C110_text",
    "C110_memory",
    "C110_file",
    "C110_file_refuted",
    "C110_utf8"
   ],
   "note": "For every sequence of typed lines, every depth of brackets at every call, and char signed or not. The line editor is a parameter. Refuted: no byte of a file is taken for the end of the file or an error (0xff and 0xfe are, where char is signed)."
  },
  {
   "property": "C111",
   "status": "proved",
   "theorems": [
    "C111_assembler",
    "C111_checker",
    "C111_decides",
    "C111_all",
    "C111_told",
    "C111_silent_refuted"
   ],
   "note": "For every source, every state of the tool and every sequence of events. The text of an entry beyond level, place and kind of message is not modelled. Refuted: every line that is refused is answered by a message (errors in the prelude are dropped: `|0000` and `@\\reset` are refused silently)."
  },
  {
   "property": "C112",
   "status": "proved",
   "theorems": [
    "C112_fits",
    "C112_pointer",
    "C112_start",
    "C112_start_refuted",
    "C112_drag",
    "C112_resize",
    "C112_resize_refuted"
   ],
   "note": "For every size of window and screen and every position, over exact rational numbers: the rounding of float arithmetic is not modelled. Refuted: the GUI starts in every window (below 512x320 it divides by zero and converts the result to an int); a scaled window size fits a uint16_t."
  },
  {
   "property": "C113",
   "status": "proved",
   "theorems": [
    "C113_ends",
    "C113_pace",
    "C113_drawn",
    "C113_bounded_refuted",
    "C113_input",
    "C113_end",
    "C113_once",
    "C113_closed",
    "C113_starves_refuted",
    "C113_failure_passes_refuted"
   ],
   "note": "For every division of time into frames and every sequence of answers of the system; time is exact (no rounding of doubles). Refuted: a frame makes up for a bounded number of updates; frames go on while input comes without a pause; a read that fails once does not end the input."
  }
 ]
}