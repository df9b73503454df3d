{
 "claims": [
  {
   "property": "C01",
   "status": "proved",
   "theorems": [
    "C01_packet_round_trip",
    "C01_cyc_wide_refuted",
    "C01_tnt_empty_refuted"
   ],
   "note": "For packets within the field ranges of S_packet.in_range. The SKD007 workaround is excluded when it applies. The _refuted theorems show that the range condition is needed: the encoder accepts CYC values >= 2^61 and empty TNT packets that the decoder rejects."
  },
  {
   "property": "C02",
   "status": "proved",
   "theorems": [
    "C02_stream_round_trip"
   ],
   "note": "With SKD007 enabled, streams containing CYC(32..63) directly followed by CYC(30) are excluded."
  },
  {
   "property": "C03",
   "status": "proved",
   "theorems": [
    "C03_encoder_frame",
    "C03_encoder_accepts"
   ],
   "note": "For every packet value, in range or not."
  },
  {
   "property": "C04",
   "status": "proved",
   "theorems": [
    "C04_no_out_of_bounds_read",
    "C04_truncated_packet"
   ],
   "note": "Pointers are modelled as indices; comparing and computing pointers beyond one past the end is not counted as undefined behaviour (DESIGN.md)."
  },
  {
   "property": "C05",
   "status": "proved",
   "theorems": [
    "C05_accounting",
    "C05_failure_keeps_position",
    "C05_skz84_overrun_refuted"
   ],
   "note": "With the documented exceptions; the _refuted theorem shows that SKZ84 handling really passes the end by one."
  },
  {
   "property": "C06",
   "status": "proved",
   "theorems": [
    "C06_extension"
   ],
   "note": "SKD007 look-ahead and callbacks that look further are excluded by hypothesis."
  },
  {
   "property": "C07",
   "status": "proved",
   "theorems": [
    "C07_last_ip_lossless",
    "C07_bad_compression"
   ],
   "note": "T_core.v. ip_history relates original IPs, packets and answers."
  },
  {
   "property": "C08",
   "status": "proved",
   "theorems": [
    "C08_forward_sound"
   ],
   "note": "For every buffer alignment."
  },
  {
   "property": "C09",
   "status": "proved",
   "theorems": [
    "C09_forward_complete",
    "C09_first_run",
    "C09_at_end_refuted"
   ],
   "note": "The search start must be inside the buffer; a decoder explicitly set to the very end gets -pte_internal instead of -pte_eos (C09_at_end_refuted)."
  },
  {
   "property": "C10",
   "status": "proved",
   "theorems": [
    "C10_backward_sound",
    "C10_backward_complete",
    "C10_no_psb_eos"
   ],
   "note": "The returned PSB may lie at or after the current position when it belongs to a run of adjacent PSBs."
  },
  {
   "property": "C11",
   "status": "proved",
   "theorems": [
    "C11_forward_progress",
    "C11_backward_progress",
    "C11_backward_step",
    "C11_backward_refuted"
   ],
   "note": "Forward for all histories. Backward for buffers in which no PSB is directly followed by further pattern bytes; without that condition it is false of the code (C11_backward_refuted)."
  },
  {
   "property": "C12",
   "status": "proved",
   "theorems": [
    "C12_sync_set",
    "C12_step",
    "C12_history"
   ],
   "note": ""
  },
  {
   "property": "C13",
   "status": "proved",
   "theorems": [
    "C13_tnt_fifo"
   ],
   "note": "T_core.v. Payload sizes below 64 (TNT packets have at most 47 bits)."
  },
  {
   "property": "C14",
   "status": "proved",
   "theorems": [
    "C14_retstack_lifo"
   ],
   "note": "T_core.v."
  },
  {
   "property": "C15",
   "status": "proved",
   "theorems": [
    "C15_asid_match",
    "C15_reflexive",
    "C15_symmetric",
    "C15_transitive_through_specified",
    "C15_transitive_refuted"
   ],
   "note": "T_config.v. Matching is not transitive in general (refuted)."
  },
  {
   "property": "C16",
   "status": "proved",
   "theorems": [
    "C16_asid_from_user",
    "C16_asid_from_null",
    "C16_asid_to_user",
    "C16_config_from_user"
   ],
   "note": "T_config.v. Structures are byte strings; a field only partly inside the declared size is a mixture and not covered."
  },
  {
   "property": "C17",
   "status": "proved",
   "theorems": [
    "C17_filter",
    "C17_filter_documented",
    "C17_reserved_refuted"
   ],
   "note": "T_config.v. Reserved words act as four more ranges (refuted for the four-range reading in general)."
  },
  {
   "property": "C18",
   "status": "proved",
   "theorems": [
    "C18_queue_refines_list",
    "C18_order_per_binding",
    "C18_clear_refuted"
   ],
   "note": "T_evq.v. Refinement to a list with capacity 14."
  },
  {
   "property": "C19",
   "status": "proved",
   "theorems": [
    "C19_tsc_is_time",
    "C19_no_tsc",
    "C19_tsc_gives_time",
    "C19_past_irrelevant",
    "C19_lost_cyc",
    "C19_lost_mtc"
   ],
   "note": "C19_tsc_alone_refuted: TSC alone does not reset the CTC value used to correct CYC packets, so a CYC between TSC and TMA depends on the past."
  },
  {
   "property": "C20",
   "status": "proved",
   "theorems": [
    "C20_mtc_time",
    "C20_ticks"
   ],
   "note": "mtc_freq above 16 is excluded: the estimate of the last CTC drops bits (the hardware field has four bits)."
  },
  {
   "property": "C21",
   "status": "proved",
   "theorems": [
    "C21_time_no_ub",
    "C21_calibration_no_ub",
    "C21_no_clock_ratio"
   ],
   "note": "C21_frequency_refuted: mtc_freq of 24 leads to an over-wide shift, so the bound is sharp."
  },
  {
   "property": "C22",
   "status": "proved",
   "theorems": [
    "C22_errata"
   ],
   "note": "T_config.v. Table transposed: processors per erratum."
  },
  {
   "property": "C23",
   "status": "proved",
   "theorems": [
    "C23_bcache_map",
    "C23_alloc",
    "C23_words",
    "C23_model"
   ],
   "note": "T_core.v for caches of entries, T_bcword.v for caches of 32-bit words with the bit fields that GCC makes on x86. C23_model connects the words with the caches that the block decoder's model uses. C23_cut_refuted: fields that do not fit are cut."
  },
  {
   "property": "C24",
   "status": "proved",
   "theorems": [
    "C24_lookup",
    "C24_unique",
    "C24_latest",
    "C24_most_recent_refuted",
    "C24_end_refuted"
   ],
   "note": "T_image.v. The specification `shows` is a recursion over the history of calls."
  },
  {
   "property": "C25",
   "status": "proved",
   "theorems": [
    "C25_add_fails"
   ],
   "note": ""
  },
  {
   "property": "C26",
   "status": "proved",
   "theorems": [
    "C26_copy",
    "C26_copy_refuted"
   ],
   "note": "Holds for sources without split entries; refuted otherwise."
  },
  {
   "property": "C27",
   "status": "proved",
   "theorems": [
    "C27_removal",
    "C27_count_refuted",
    "C27_remove_one"
   ],
   "note": ""
  },
  {
   "property": "C28",
   "status": "proved",
   "theorems": [
    "C28_read"
   ],
   "note": "The file is as long as when the section was created and is mapped by mmap or read in."
  },
  {
   "property": "C29",
   "status": "proved",
   "theorems": [
    "C29_life_time",
    "C29_no_ub",
    "C29_not_while_used",
    "C29_get_put"
   ],
   "note": "Counters only; the locking of the operations is the subject of C32."
  },
  {
   "property": "C30",
   "status": "proved",
   "theorems": [
    "C30_identifiers",
    "C30_stable"
   ],
   "note": "Calls are atomic: concurrent use of the cache is not part of this model. The size that counts is the one after truncation at the end of the file."
  },
  {
   "property": "C31",
   "status": "proved",
   "theorems": [
    "C31_limit",
    "C31_replacement"
   ],
   "note": "Mappings and block caches are smaller than 2^47 bytes each. A failing addition drops all mappings that the cache keeps; that is part of the specification list_after."
  },
  {
   "property": "C32",
   "status": "proved",
   "theorems": [
    "C32_no_deadlock",
    "C32_completes",
    "C32_no_misuse"
   ],
   "note": "Lock skeletons of all section, section cache, image and mapped-section-cache functions with every branch left to the environment; mutex functions are assumed to succeed. The retry loop of pt_iscache_add runs any finite number of times, so C32_completes does not exclude that other threads keep it retrying forever."
  },
  {
   "property": "C33",
   "status": "proved",
   "theorems": [
    "C33_safe",
    "C33_forward",
    "C33_finite",
    "C33_callback_refuted",
    "C33_backward_refuted"
   ],
   "note": "mtc_freq < 24 is required (C21_frequency_refuted). A callback that returns zero for an unknown packet makes pt_evt_next() loop forever, and pt_evt_sync_backward() loops forever on a trace with two adjacent PSBs; both are shown."
  },
  {
   "property": "C34",
   "status": "proved",
   "theorems": [
    "C34_safe",
    "C34_unsynced",
    "C34_queries",
    "C34_same_events",
    "C34_in_order",
    "C34_complete",
    "C34_backward_flags_refuted"
   ],
   "note": "Hypotheses: mtc_freq < 24, trace shorter than 2^31-1 bytes, the unknown-packet callback never answers size zero. pt_qry_sync_backward() returns status 0 instead of the status flags (refuted theorem); its number of rounds is an argument. C34_same_events also pins the returned start address: it is the first address that the status updates of the PSB+ give."
  },
  {
   "property": "C35",
   "status": "proved",
   "theorems": [
    "C35_write_layout",
    "C35_write_complete",
    "C35_read_layout",
    "C35_round_trip",
    "C35_read_sound",
    "C35_read_write",
    "C35_write_unknown",
    "C35_ambiguity_refuted",
    "C35_unknown_samples_refuted"
   ],
   "note": "The two refuted theorems exhibit the exceptions named in the statement."
  },
  {
   "property": "C36",
   "status": "proved",
   "theorems": [
    "C36_to_tsc",
    "C36_from_tsc",
    "C36_from_tsc_monotonic",
    "C36_to_tsc_monotonic",
    "C36_there_and_back",
    "C36_rejected",
    "C36_time_zero",
    "C36_overflow_refuted",
    "C36_before_zero_refuted"
   ],
   "note": "The refuted theorems show that the range conditions are needed."
  },
  {
   "property": "C37",
   "status": "proved",
   "theorems": [
    "C37_wire_format"
   ],
   "note": "Against the table in S_packet.wire."
  },
  {
   "property": "C38",
   "status": "proved",
   "theorems": [
    "C38_no_ub",
    "C38_sync_set"
   ],
   "note": "Fuel exhaustion is a UB outcome in the model, so absence of UB includes termination."
  },
  {
   "property": "C39",
   "status": "proved",
   "theorems": [
    "C39_cpu_parse",
    "C39_cpu_parse_range",
    "C39_trailing_slash_refuted"
   ],
   "note": "T_config.v. strtol() is modelled for the C locale."
  },
  {
   "property": "C40",
   "status": "proved",
   "theorems": [
    "C40_uncalibrated",
    "C40_cbr",
    "C40_mtc",
    "C40_tsc",
    "C40_overflow"
   ],
   "note": ""
  },
  {
   "property": "C41",
   "status": "proved",
   "theorems": [
    "C41_cyc_after_tma",
    "C41_cyc_after_mtc"
   ],
   "note": ""
  },
  {
   "property": "C42",
   "status": "proved",
   "theorems": [
    "C42_truncated",
    "C42_section_read"
   ],
   "note": "Little-endian flat memory; the file does not change while mapped."
  },
  {
   "property": "C43",
   "status": "proved",
   "theorems": [
    "C43_hit",
    "C43_fill",
    "C43_fill_fails"
   ],
   "note": ""
  },
  {
   "property": "C44",
   "status": "proved",
   "theorems": [
    "C44_references"
   ],
   "note": ""
  },
  {
   "property": "C45",
   "status": "proved",
   "theorems": [
    "C45_read"
   ],
   "note": "Existing and new mappings are assumed to come from map_file, the model of the mapping code."
  },
  {
   "property": "C46",
   "status": "proved",
   "theorems": [
    "C46_balance",
    "C46_answers",
    "C46_clear"
   ],
   "note": "Calls are atomic. The result of a read is covered by C45."
  },
  {
   "property": "C47",
   "status": "proved",
   "theorems": [
    "C47_no_race",
    "C47_one_writer",
    "C47_iscache_refuted"
   ],
   "note": "The mapping pointers are read by pt_section_read() without a lock and are protected by the map count instead; they are not covered. pt_section_on_map() reads the attached cache without the attach lock: C47_iscache_refuted exhibits that race."
  },
  {
   "property": "C48",
   "status": "proved",
   "theorems": [
    "C48_read_no_ub",
    "C48_pointers_inside",
    "C48_local",
    "C48_write_no_ub",
    "C48_shift_refuted"
   ],
   "note": ""
  },
  {
   "property": "C49",
   "status": "proved",
   "theorems": [
    "C49_control_flow",
    "C49_end",
    "C49_tnt_size",
    "C49_pending_refuted"
   ],
   "note": "C49_pending_refuted shows that the run may end with -pte_internal, losing a branch, on a trace of good packets."
  },
  {
   "property": "C50",
   "status": "proved",
   "theorems": [
    "C50_events"
   ],
   "note": "The spec is S_evtrace.v: stamped, bears, pieces and hw_after."
  },
  {
   "property": "C51",
   "status": "proved",
   "theorems": [
    "C51_recognised",
    "C51_only",
    "C51_unique"
   ],
   "note": "The grammar of instruction texts and the table of classes are S_x86.v, written from the manual and not from the tables of the decoder."
  },
  {
   "property": "C52",
   "status": "proved",
   "theorems": [
    "C52_safe",
    "C52_overread",
    "C52_overread_refuted",
    "C52_local",
    "C52_truncated",
    "C52_rejected"
   ],
   "note": "prefix_rex2() reads the opcode without a check: C52_overread says exactly when, C52_overread_refuted that it can happen in struct pt_insn."
  },
  {
   "property": "C53",
   "status": "proved",
   "theorems": [
    "C53_decode",
    "C53_finds"
   ],
   "note": "Memory is what reading the image in pieces gives (S_insn.v reads). The read past the REX2 prefix (C52) is the only undefined behaviour and happens only where there is no text."
  },
  {
   "property": "C54",
   "status": "proved",
   "theorems": [
    "C54_next",
    "C54_range"
   ],
   "note": "Execution mode unknown is not covered."
  },
  {
   "property": "C55",
   "status": "proved",
   "theorems": [
    "C55_flow",
    "C55_events",
    "C55_backward_refuted"
   ],
   "note": "The loop of pt_insn_event()/pt_insn_next() refines an execution flow specification (S_flow.v) that knows nothing of look-ahead, postponing and caching. Excluded by hypothesis: trigger events, three errata workarounds, unknown execution mode. pt_insn_sync_backward() is excluded; that it loses the initial events is proved as a finding. The start address is pinned by the status updates of the PSB+ (first_address)."
  },
  {
   "property": "C56",
   "status": "proved",
   "theorems": [
    "C56_whole"
   ],
   "note": "For traces without trigger events, without tick events, while the execution mode is known, and for images whose lookups do not fail with errors of their own. The start address is pinned by the status updates of the PSB+ (first_address)."
  },
  {
   "property": "C57",
   "status": "proved",
   "theorems": [
    "C57_events"
   ],
   "note": "Refinement of the event decoder to the packet transducer events_of of S_evfun.v, which has a list of waiting events instead of the queue, no look-ahead state and no re-entry per packet. The five errata workarounds that change which packets are seen are excluded by hypothesis."
  },
  {
   "property": "C58",
   "status": "proved",
   "theorems": [
    "C58_blocks",
    "C58_tidy",
    "C58_eos_refuted",
    "C58_backward_refuted",
    "C58_mode_refuted"
   ],
   "note": "The loop of pt_blk_event()/pt_blk_next() refines an execution flow (S_blk.v) that knows nothing of block caches, postponing and look-ahead. Flows that reach a state in which the decoder is known to go wrong are excluded by the hypothesis sane; C58_tidy gives a computable condition on the trace for it. Tick and trigger events, the BDM64, SKD022 and SKL014 workarounds and synchronising backwards are excluded. Findings: -pte_bad_query instead of -pte_eos, no status flags when synchronising backwards, and a block cache that ignores the execution mode. The start address is pinned by the status updates of the PSB+ (first_address)."
  },
  {
   "property": "C59",
   "status": "proved",
   "theorems": [
    "C59_merge",
    "C59_free",
    "C59_watching"
   ],
   "note": "Callbacks are arbitrary functions, watched by wrappers that only take notes. The first round of pt_sb_event() has a bound on its turns, for callbacks that always fetch; the theorem is about runs that end."
  },
  {
   "property": "C60",
   "status": "proved",
   "theorems": [
    "C60_references",
    "C60_free",
    "C60_path_refuted"
   ],
   "note": "Paths of FILENAME_MAX bytes or more are excluded: pt_sb_alloc_pevent_decoder() then frees its private data twice (C60_path_refuted)."
  },
  {
   "property": "C61",
   "status": "proved",
   "theorems": [
    "C61_time",
    "C61_wrap_refuted"
   ],
   "note": "For negative offsets whose sum with the time stamp exceeds 64 bits the time wraps around (C61_wrap_refuted)."
  },
  {
   "property": "C62",
   "status": "proved",
   "theorems": [
    "C62_shown"
   ],
   "note": "An observer that knows only the rules runs beside the session; the theorem says that it does not change the session and that both agree. Allocation, image copies and the switch notifier succeed; mapping a file and finding its ABI have the same effect whenever they are done. At most 30000 decoders, so that use counts do not overflow."
  },
  {
   "property": "C63",
   "status": "proved",
   "theorems": [
    "C63_memory",
    "C63_steady",
    "C63_balance",
    "C63_image",
    "C63_blocks",
    "C63_flow"
   ],
   "note": "No two sections are visible at the same address, not even in different address spaces (an address space with wildcards could otherwise see either). A section's file is at least as long as the section, can be mapped, and the section has room for two more users. C63_flow is C55 for the library's image; C56 and C58 follow from C63_image and C63_blocks in the same way."
  },
  {
   "property": "C64",
   "status": "proved",
   "theorems": [
    "C64_agree",
    "C64_near_refuted",
    "C64_next_refuted",
    "C64_cr3_refuted",
    "C64_call_refuted"
   ],
   "note": "Under the hypotheses of C55, C56 and C58: known execution mode, no trigger events, no tick events, and the flow reaches none of the states in which the block decoder goes wrong (sane) or the decoders are known to differ (regular). The refuted theorems give a trace and a program for each kind of difference where tracing ends. The block decoder may stop earlier (C58_eos_refuted), so the converse of the last part is not claimed."
  },
  {
   "property": "C65",
   "status": "proved",
   "theorems": [
    "C65_whole",
    "C65_sync"
   ],
   "note": "For traces of plain events whose flow reaches none of the states in which the block decoder is known to go wrong (sane, as in C58), image and allocation giving no errors of their own. C65_whole excuses -pte_overflow: the 32-bit counter of instructions since the last anchor is full, that is, 2^32 instructions. C65_sync excuses nothing."
  },
  {
   "property": "C66",
   "status": "proved",
   "theorems": [
    "C66_given",
    "C66_events",
    "C66_taken",
    "C66_round",
    "C66_block",
    "C66_insn",
    "C66_packet",
    "C66_packet_error",
    "C66_tail_refuted",
    "C66_lookup_refuted"
   ],
   "note": "Layouts of structures are arbitrary functions into byte strings of fixed length. C66_insn names the one exception: when the section lookup fails, an instruction is handed over only to a user whose structure has the library's size (C66_lookup_refuted). C66_tail_refuted: only pt_evt_next() clears what the user alone knows of an event."
  },
  {
   "property": "C67",
   "status": "proved",
   "theorems": [
    "C67_shared",
    "C67_together",
    "C67_whole"
   ],
   "note": "C67_shared is a rely-guarantee statement at the grain of single accesses to the caches: others act before each access. C67_unfair_refuted: the rely condition is needed. C67_together and C67_whole are about whole systems of decoders whose calls are not interrupted by each other. That concurrent calls are such sequences of atomic accesses, and their parallel composition from C67_shared, is not formalised. The hypotheses sane and plain_event are those of C58."
  },
  {
   "property": "C68",
   "status": "proved",
   "theorems": [
    "C68_insn",
    "C68_blk",
    "C68_library_insn",
    "C68_library_blk"
   ],
   "note": "Undefined behaviour is an outcome of the model (Base.v); the fuel of every loop but that of synchronising backwards is shown to be enough. The stack of 65 entries is the array in struct pt_retstack. C68_rex2_ex reaches the remaining over-read. Images are those of tame (S_safe.v); made_tame shows it for images of the library."
  },
  {
   "property": "C69",
   "status": "proved",
   "theorems": [
    "C69_loads",
    "C69_determined",
    "C69_base",
    "C69_refused",
    "C69_image",
    "C69_visible",
    "C69_memory",
    "C69_nothing_refuted",
    "C69_stride_refuted"
   ],
   "note": "The host is little-endian with a 64-bit long; fread() fails only at the end of the file. C69_loads and C69_refused hold for every load_section(), with or without section cache; C69_image, C69_visible and C69_memory are about loading without a section cache into a new image. Sections are supposed not to reach the end of the address space (as in C24). The refuted variants are findings: see DESIGN.md."
  },
  {
   "property": "C70",
   "status": "proved",
   "theorems": [
    "C70_counted",
    "C70_refused",
    "C70_count",
    "C70_events",
    "C70_address",
    "C70_anchors_refuted"
   ],
   "note": "For the instruction flow decoder; runs between the arrival of the event and its report consist of instructions that do not need the trace, with no instruction at address zero, which the code takes as having no address. C70_events is for calls without a postponed instruction. That the block decoder uses the same anchors is refuted: it counts from PTWRITE, IRET, VM entry and UIRET events, and the instruction flow decoder does not."
  },
  {
   "property": "C71",
   "status": "proved",
   "theorems": [
    "C71_block",
    "C71_run",
    "C71_event",
    "C71_counted",
    "C71_refused",
    "C71_address_refuted",
    "C71_off_refuted"
   ],
   "note": "Instructions at address zero are excluded, which the code takes as having no address. C71_counted and C71_refused are for states without a postponed instruction. Trigger events with an address of their own are refused by the block decoder if they follow another event and are not reached yet, which is C71_address_refuted."
  },
  {
   "property": "C72",
   "status": "proved",
   "theorems": [
    "C72_packets",
    "C72_encoder",
    "C72_written",
    "C72_insns",
    "C72_blocks"
   ],
   "note": "The composition of C02 and C37, C57, and C55, C56, C58 and C65, under their hypotheses: no errata workaround that changes packets, events or the flow, no TRIG packets, known execution modes, for blocks the states in which the block decoder is known to go wrong are not reached and -pte_overflow is excepted. The first address is that of the event decoder's status events after the synchronisation. Set or forward synchronisation; for forward synchronisation the place is the offset that pt_evt_get_sync_offset() gives."
  },
  {
   "property": "C73",
   "status": "proved",
   "theorems": [
    "C73_event",
    "C73_queries",
    "C73_overflow_refuted",
    "C73_failed_refuted"
   ],
   "note": "All errata workarounds and configurations are covered. The events are those of C34; the hypotheses are those of C34 (callback sizes, mtc_freq below 24, buffer below 2 GB, bytes). Overflow events are excepted because the claim is false for them (C73_overflow_refuted), and so are queries without an answer (C73_failed_refuted)."
  },
  {
   "property": "C74",
   "status": "proved",
   "theorems": [
    "C74_time",
    "C74_ticks",
    "C74_ratio",
    "C74_none",
    "C74_exact_refuted"
   ],
   "note": "Holds of every state a user can reach by calls without undefined behaviour. The hypotheses are those of C68 (callback sizes, mtc_freq below 24, buffer below 2 GB, bytes, image and cache without undefined behaviour). The exception is needed: C74_exact_refuted has a trace where pt_blk_event() gives a paging event of time 3 and pt_blk_time() then tells 4."
  },
  {
   "property": "C75",
   "status": "proved",
   "theorems": [
    "C75_place",
    "C75_early"
   ],
   "note": "Holds of every decoder state, reachable or not. Whether tracing is on is the field enabled of the decoder, which the user sees as the status bit pts_ip_suppressed."
  }
 ]
}
