{"id": "C01", "title": "Packet encode/decode round trip", "statement": "If pt_enc_next() accepts a packet whose fields are within the documented field ranges, then pt_pkt_next() at the position where it was written returns a packet of the same type with the same payload and the same size, and consumes exactly the bytes that were written.", "quantifier": "every packet type, every payload value in range, every position, every surrounding buffer content", "why_tests_cant": "The payload spaces are up to 2^64 values per packet type; tests only sample them.", "anchors": ["libipt/src/pt_encoder.c:pt_enc_next", "libipt/src/pt_packet_decoder.c:pt_pkt_next", "libipt/src/pt_packet.c:pt_pkt_read_*"]}
{"id": "C02", "title": "Packet stream round trip", "statement": "Encoding any finite sequence of in-range packets with pt_enc_next() into a buffer they fill exactly, and then calling pt_pkt_next() repeatedly from offset zero, returns the same sequence of packets and then -pte_eos; the offsets reported by decoder and encoder agree after every packet.", "quantifier": "every finite sequence of in-range packets, of any length", "why_tests_cant": "Unbounded sequences; packet boundaries must never shift for any combination of neighbours.", "anchors": ["libipt/src/pt_encoder.c:pt_enc_next,pt_enc_get_offset", "libipt/src/pt_packet_decoder.c:pt_pkt_next,pt_pkt_get_offset"]}
{"id": "C03", "title": "Encoder stays inside its buffer and failed encodes have no effect", "statement": "pt_enc_next() writes only bytes between the encoder position and the end of the configured buffer, writes exactly the number of bytes it returns, advances the position by that number, and leaves buffer and position unchanged when it returns an error.", "quantifier": "every packet (in range or not), every buffer, every encoder position", "why_tests_cant": "Out-of-bounds writes need not crash a test, and the failing cases range over all packets and all amounts of remaining space.", "anchors": ["libipt/src/pt_encoder.c:pt_enc_next,pt_reserve,pt_encode_int"]}
{"id": "C04", "title": "Packet decoding never reads outside the trace buffer", "statement": "pt_pkt_next() reads only bytes inside the configured trace buffer, whatever the bytes of the trace, the errata settings and the decoder position; truncated packets at the end give -pte_eos.", "quantifier": "every buffer content, every position reachable through the API, every errata configuration", "why_tests_cant": "Trace data is untrusted input of arbitrary content and length; absence of over-reads is a universal claim.", "anchors": ["libipt/src/pt_packet.c", "libipt/src/pt_packet_decoder.c"]}
{"id": "C05", "title": "Packet decoding progress and position accounting", "statement": "When pt_pkt_next() succeeds the decoder offset grows by exactly the returned size, which is at least one and equals the size field of the packet, and it never passes the end of the buffer; when it fails the offset is unchanged. The only exceptions are the errata workarounds SKD007 (one more byte is consumed than the size of the returned OVF) and SKZ84 (the offset may pass the end by one byte), and unknown packets, whose size is whatever the user's callback returned and may be zero.", "quantifier": "every buffer content, position and errata configuration", "why_tests_cant": "The claim quantifies over all byte strings; one mis-sized packet in one corner desynchronises everything after it.", "anchors": ["libipt/src/pt_packet_decoder.c:pt_pkt_next", "libipt/src/pt_packet_decoder.c:pt_pkt_decode_*"]}
{"id": "C06", "title": "Decoding a complete packet does not depend on what follows it", "statement": "If pt_pkt_next() returns anything but -pte_eos on a trace buffer, it returns the same result for every longer buffer that starts with the same bytes, so a trace may be decoded while it is still growing. The only exceptions are the SKD007 workaround, which looks at the byte after a two-byte CYC packet, and an unknown-packet callback that itself looks further.", "quantifier": "every buffer content and every extension of it", "why_tests_cant": "Two-trace (relational) property over all extensions.", "anchors": ["libipt/src/pt_packet_decoder.c", "libipt/src/pt_packet.c"]}
{"id": "C07", "title": "IP compression is lossless", "statement": "For any sequence of IP packets whose compression is chosen so that the dropped upper bits agree with the previous IP (or sign-extend bit 47), the last-IP state after each packet is exactly the original IP; suppressed IPs leave it available for later packets but make the current query fail with -pte_ip_suppressed.", "quantifier": "every sequence of (IP, compression) pairs, any length, all 64-bit addresses", "why_tests_cant": "State carried along an unbounded history; 2^64 addresses.", "anchors": ["libipt/src/pt_last_ip.c:pt_last_ip_update_ip,pt_last_ip_query", "libipt/src/pt_encoder.c:pt_encode_ip", "libipt/src/pt_packet.c:pt_pkt_read_ip"]}
{"id": "C08", "title": "Forward synchronisation only stops at a PSB", "statement": "When pt_pkt_sync_forward() succeeds, the 16 bytes at the reported sync offset are a PSB packet that lies completely inside the buffer at or after the search start, and the next pt_pkt_next() returns that PSB.", "quantifier": "every buffer content, every start position, every alignment of the buffer", "why_tests_cant": "The search works on aligned words with several special cases; all contents and alignments have to be covered.", "anchors": ["libipt/src/pt_sync.c:pt_sync_forward,pt_find_psb", "libipt/src/pt_packet_decoder.c:pt_pkt_sync_forward"]}
{"id": "C09", "title": "Forward synchronisation misses no PSB run", "statement": "pt_pkt_sync_forward() returns -pte_eos only if there is no PSB packet at or after the search start, and otherwise stops in the first contiguous run of PSB bytes, i.e. every PSB that starts between the search start and the returned offset is part of the same unbroken 02 82 pattern.", "quantifier": "every buffer content, start position and buffer alignment", "why_tests_cant": "A missed PSB shows only for particular alignments and neighbouring bytes.", "anchors": ["libipt/src/pt_sync.c:pt_sync_forward,pt_find_psb"]}
{"id": "C10", "title": "Backward synchronisation is sound", "statement": "When pt_pkt_sync_backward() succeeds, the 16 bytes at the reported sync offset are a PSB packet inside the buffer, at or after every PSB that lies completely before the current position, and part of an unbroken 02 82 pattern that contains a PSB starting before the current position; it returns -pte_eos when no PSB starts before the current position, and only if no PSB lies completely before it.", "quantifier": "every buffer content, start position and buffer alignment", "why_tests_cant": "Same as forward search.", "anchors": ["libipt/src/pt_sync.c:pt_sync_backward", "libipt/src/pt_packet_decoder.c:pt_pkt_sync_backward"]}
{"id": "C11", "title": "Repeated synchronisation makes progress", "statement": "Calling pt_pkt_sync_forward() repeatedly, with any packet reads in between, visits strictly increasing offsets, at most as many as the buffer has bytes, and otherwise returns -pte_eos. In a buffer in which no PSB is directly followed by further PSB pattern bytes, calling pt_pkt_sync_backward() repeatedly visits strictly decreasing offsets and then returns -pte_eos; in other buffers it may stay at the same PSB forever.", "quantifier": "every buffer content and every history of calls", "why_tests_cant": "Termination for all inputs cannot be tested.", "anchors": ["libipt/src/pt_packet_decoder.c:pt_pkt_sync_forward,pt_pkt_sync_backward", "libipt/src/pt_event_decoder.c:pt_evt_sync_backward"]}
{"id": "C12", "title": "Sync and offset bookkeeping", "statement": "pt_pkt_sync_set(offset) succeeds exactly when offset is within the buffer; afterwards pt_pkt_get_offset() and pt_pkt_get_sync_offset() both report offset, packet reads change only the former, and before any synchronisation all of them fail with -pte_nosync.", "quantifier": "every offset, every history of sync_set and next calls", "why_tests_cant": "History-dependent state for all call sequences.", "anchors": ["libipt/src/pt_packet_decoder.c:pt_pkt_sync_set,pt_pkt_get_offset,pt_pkt_get_sync_offset"]}
{"id": "C13", "title": "Conditional branch outcomes come out in trace order", "statement": "The taken/not-taken answers obtained from the TNT cache are exactly the bits of the TNT payloads added, oldest bit first, each returned once; when they are used up the query fails with -pte_bad_query.", "quantifier": "every sequence of TNT payloads and queries, payload sizes 0..47 bits", "why_tests_cant": "Bit-level FIFO order over all payloads and all interleavings.", "anchors": ["libipt/src/pt_tnt_cache.c"]}
{"id": "C14", "title": "Return stack is a bounded LIFO", "statement": "Popping return addresses yields the pushed addresses in reverse order; when more than 64 addresses are pushed the oldest are dropped and the newest 64 remain; popping an empty stack fails without changing it.", "quantifier": "every sequence of push and pop operations", "why_tests_cant": "Ring-buffer wrap-around after unbounded histories.", "anchors": ["libipt/src/pt_retstack.c"]}
{"id": "C15", "title": "Address space matching", "statement": "Two address-space identifiers match exactly when their CR3 values are equal or one of them is unspecified, and likewise for the VMCS base; matching is reflexive and symmetric, and for a fully specified identifier all identifiers that match it also match each other.", "quantifier": "all pairs and triples of identifiers, 2^64 values per field", "why_tests_cant": "Relational algebraic laws over all values.", "anchors": ["libipt/src/pt_asid.c:pt_asid_match"]}
{"id": "C16", "title": "Versioned structures are copied safely", "statement": "Copying an address-space identifier or a configuration from a user structure of any declared size reads at most the declared size (and the size field), takes every field that lies within the declared size and gives every field that lies beyond it its documented default; trailing bytes beyond the library's structure have no effect. A configuration that is too small to hold the buffer pointers, or whose buffer is NULL or ends before it begins, is rejected with -pte_bad_config and the copy is left alone. Copying an identifier to the user writes only the declared size and rejects a size smaller than the size field with -pte_invalid.", "quantifier": "every declared structure size and content", "why_tests_cant": "Forward and backward compatibility ranges over all sizes.", "anchors": ["libipt/src/pt_asid.c:pt_asid_from_user,pt_asid_to_user", "libipt/src/pt_config.c:pt_config_from_user"]}
{"id": "C17", "title": "IP filter semantics", "statement": "The address filter check says that an address is traced exactly when it lies in one of the ranges configured as filter (or no filter range is configured) and in none of the ranges configured as TraceStop, with inclusive bounds. The library considers eight ranges, of which four are documented; if the configuration word only configures the four documented ranges, only these count.", "quantifier": "every filter configuration (all four ranges, all config nibbles) and every 64-bit address", "why_tests_cant": "2^64 addresses times 2^512 range settings.", "anchors": ["libipt/src/pt_config.c:pt_filter_addr_check"]}
{"id": "C18", "title": "Event queue order and capacity", "statement": "Events queued for a binding are returned in the order in which they were queued for that binding, each exactly once, independent of events queued for other bindings; queuing fails only when fourteen events are pending; the most recently dequeued event stays intact (and can be requeued) until the next dequeue or clear, no matter what is queued in between.", "quantifier": "every sequence of enqueue, dequeue, clear, find and requeue operations over all bindings", "why_tests_cant": "Ring buffer with in-place shifting; errors need particular wrap-around histories.", "anchors": ["libipt/src/pt_event_queue.c"]}
{"id": "C19", "title": "Time tracking: TSC is authoritative", "statement": "After a TSC packet the reported time is the TSC value with no lost packets, whatever happened before. After TSC followed by TMA every later answer is independent of the history before the TSC. Without any TSC the time query fails with -pte_no_time but still provides the estimate relative to zero; once a TSC was seen the query succeeds.", "quantifier": "every history of TSC, TMA, MTC, CYC, CBR packets and every configuration", "why_tests_cant": "All histories; arithmetic modulo 2^64.", "anchors": ["libipt/src/pt_time.c:pt_time_update_tsc,pt_time_query_tsc"]}
{"id": "C20", "title": "Time tracking: MTC wrap-around", "statement": "With a configured clock ratio, after TSC and TMA the time after any MTC packet equals the TSC time plus the crystal-clock ticks since TMA converted by the ratio (rounded down per MTC period), modulo 2^64, with no packet counted as lost, as long as fewer than 256 MTC periods pass between MTC packets (for mtc_freq above 8, the first MTC must come within 2^16 ticks).", "quantifier": "every sequence of MTC, CYC, CBR packets, every mtc_freq up to 16 and every clock ratio", "why_tests_cant": "Wrap-around at arbitrary points of unbounded histories.", "anchors": ["libipt/src/pt_time.c:pt_time_update_tma,pt_time_update_mtc,pt_time_ctc_delta,pt_time_ctc_fc"]}
{"id": "C21", "title": "Time tracking: calls never divide by zero nor shift out of range", "statement": "Every time and calibration update is free of undefined behaviour (division by zero, over-wide shift) for every packet history provided the MTC frequency field is below 24; configurations with a zero clock ratio are reported by an error code.", "quantifier": "every packet history, every configuration with mtc_freq < 24", "why_tests_cant": "Fault freedom for all inputs.", "anchors": ["libipt/src/pt_time.c"]}
{"id": "C22", "title": "Errata table", "statement": "pt_cpu_errata() enables for every Intel family/model exactly the errata documented for it, enables nothing for other models, and rejects non-Intel vendors; it depends only on vendor, family and model.", "quantifier": "all vendors, families, models and steppings", "why_tests_cant": "2^32 inputs; table completeness.", "anchors": ["libipt/src/pt_config.c:pt_cpu_errata"]}
{"id": "C23", "title": "Block cache is a faithful memo table", "statement": "Looking up a block cache entry returns the last entry added at that index or an invalid entry if none was added; adds at other indexes do not disturb it; indexes beyond the section size are rejected. Entries are kept in 32-bit words: all fields of an entry whose fields fit are read back as they were stored, and no word outside the cache is read or written.", "quantifier": "every sequence of add and lookup operations", "why_tests_cant": "All histories.", "anchors": ["libipt/src/pt_block_cache.c", "libipt/internal/include/pt_block_cache.h"]}
{"id": "C24", "title": "Image lookups see the latest section added there", "statement": "After any sequence of section additions, removals and lookups, looking up an address in a fully specified address space finds a section exactly if some successful, not removed addition in a matching address space contains the address and no later addition in an address space compatible with it covered the address (also one that was removed since). At most one section qualifies; it is reported with its identifier and with the offset that corresponds to the address, so overlapped older sections stay visible outside the overlap. Two tempting readings are false and refuted: the latest addition that matches the queried address space is not always found, because an addition for one address space hides an older wildcard section for all address spaces; and a section that ends exactly at 2^64 is never found.", "quantifier": "every sequence of add, add-file, remove, find, read, get and put calls, any number of sections, any overlaps, any address spaces, any allocation failures", "why_tests_cant": "Splitting and shrinking over arbitrary overlap patterns and histories.", "anchors": ["libipt/src/pt_image.c:pt_image_add,pt_image_fetch_section,pt_image_read,pt_image_find"]}
{"id": "C25", "title": "Failed image updates do not change the image", "statement": "When adding a section fails (for example out of memory at any allocation), every address maps to the same section and offset as before, and no section reference is leaked.", "quantifier": "every image, every section, every point at which an allocation fails", "why_tests_cant": "Failure injection at every point for every image shape.", "anchors": ["libipt/src/pt_image.c:pt_image_add"]}
{"id": "C26", "title": "Copying an image preserves its mapping", "statement": "After a pt_image_copy() that reports no ignored sections into an empty image, every address in every fully specified address space maps to the same section and offset as in the source image, provided no entry of the source was split or shrunk by a later addition. Without that proviso the claim is false (refuted): the copy adds the whole section for each fragment.", "quantifier": "every source image built through the public API", "why_tests_cant": "All overlap histories of the source image.", "anchors": ["libipt/src/pt_image.c:pt_image_copy"]}
{"id": "C27", "title": "Image removal is exact", "statement": "pt_image_remove_by_filename() and pt_image_remove_by_asid() make exactly those lookups fail that found a section with that file name and a matching address space (respectively a matching address space); every other lookup gives the same as before. They return the number of image entries that went away, which is not the number of sections (refuted): a section split by a later addition counts once per fragment.", "quantifier": "every image reachable through the API and every argument", "why_tests_cant": "All images.", "anchors": ["libipt/src/pt_image.c:pt_image_remove_by_filename,pt_image_remove_by_asid"]}
{"id": "C28", "title": "Image reads return file contents only", "statement": "A read at an address where a section is visible either returns n > 0 bytes, at most as many as requested, each the file byte at the corresponding offset of that section and each at an address where that same section is visible; it stops early only at the end of the section or where another addition begins; or it fails because the section's mapping fails or its mapping count overflows. Where no section is visible, the read-memory callback decides, or the read fails with -pte_nomap.", "quantifier": "every image reachable through the API, address, size below 2^16 and file content", "why_tests_cant": "Boundary arithmetic over 64-bit addresses.", "anchors": ["libipt/src/pt_image.c:pt_image_read", "libipt/internal/include/pt_mapped_section.h:pt_msec_read", "libipt/src/pt_section.c:pt_section_read"]}
{"id": "C29", "title": "Section life time", "statement": "Among users that drop, unmap and detach only what they hold, a section is destroyed exactly when its last reference is dropped, is mapped exactly while somebody has it mapped, and use counts never wrap (further references are refused with -pte_overflow). Even for users that break these rules a section is never destroyed while it is mapped or while another reference exists. Get/put pairs are neutral.", "quantifier": "every sequence of get, put, map, share, unmap, attach, detach and block-cache operations of any number of users", "why_tests_cant": "Unbounded histories of counters, including histories that saturate the 16-bit counts.", "anchors": ["libipt/src/pt_section.c:pt_section_get,pt_section_put,pt_section_attach,pt_section_detach,pt_section_map,pt_section_unmap,pt_section_map_share,pt_section_alloc_bcache"]}
{"id": "C30", "title": "Section identifiers are stable and unique", "statement": "pt_iscache_add_file() returns the same identifier for the same (file, offset, size, load address), with the size cut at the end of the file, and different identifiers for different ones; an identifier once returned keeps designating the same section contents and load address in pt_iscache_lookup() and pt_iscache_find() until the cache is cleared.", "quantifier": "every sequence of cache and section operations by users that keep the rules, any allocation failures", "why_tests_cant": "All histories, including cache growth.", "anchors": ["libipt/src/pt_image_section_cache.c:pt_iscache_add,pt_iscache_add_file,pt_iscache_lookup,pt_iscache_find"]}
{"id": "C31", "title": "The section cache respects its memory limit", "statement": "The total size accounted by the image section cache never exceeds the configured limit after any operation and equals the sum of the sizes of the sections it keeps mapped; when it must shrink it keeps the longest run of most recently used sections that fits and unmaps the others.", "quantifier": "every sequence of cache and section operations by users that keep the rules, any allocation failures", "why_tests_cant": "All histories and sizes.", "anchors": ["libipt/src/pt_image_section_cache.c:pt_iscache_lru_add,pt_iscache_lru_resize,pt_iscache_lru_prune,pt_iscache_set_limit"]}
{"id": "C32", "title": "No lock-order deadlock between sections and caches", "statement": "Threads that use the section, image and section-cache operations in any interleaving never reach a state in which some threads wait for each other; as long as one has calls left some thread can run, every schedule ends with all calls returned, and a thread releases only mutexes that it owns and keeps none.", "quantifier": "every number of threads, every finite program of operations per thread, every outcome of each operation, every schedule", "why_tests_cant": "Schedules are unbounded; deadlocks show only under particular interleavings.", "anchors": ["libipt/src/pt_section.c", "libipt/src/pt_image_section_cache.c", "libipt/src/posix/pt_section_posix.c"]}
{"id": "C33", "title": "Event decoding terminates and stays in the buffer", "statement": "In every history of calls of pt_evt_sync_forward(), pt_evt_sync_backward(), pt_evt_sync_set() and pt_evt_next() no byte outside the trace is read, no slot outside the event queue is accessed, every call except pt_evt_sync_backward() returns, pt_evt_next() never moves backwards, and only finitely many calls of pt_evt_next() in a row deliver an event.", "quantifier": "every trace of less than 2^31 bytes, every errata configuration, every unknown-packet callback that does not return zero, every history of calls", "why_tests_cant": "Termination and memory safety for all traces.", "anchors": ["libipt/src/pt_event_decoder.c:pt_evt_next,pt_evt_fetch_event,pt_evt_sync_forward,pt_evt_sync_set,pt_evt_sync_backward"]}
{"id": "C34", "title": "Queries answer the control flow of the trace in order", "statement": "After a successful pt_qry_sync_forward/backward/set(), the answers of every sequence of pt_qry_cond_branch(), pt_qry_indirect_branch() and pt_qry_event() calls, including status flags and errors, are determined by the events that the event decoder delivers from that place. The TNT bits and events a user learns are, in order, a prefix of those in the trace, and so are the indirect branch targets and events; an event is offered only when all earlier TNT bits were taken. Once pt_qry_cond_branch() or pt_qry_event() reports the end of the trace everything was delivered. Without synchronization every query fails with -pte_nosync. No query has undefined behaviour.", "quantifier": "every trace shorter than 2^31-1 bytes, every history of synchronizations and queries", "why_tests_cant": "All traces and query histories.", "anchors": ["libipt/src/pt_query_decoder.c"]}
{"id": "C35", "title": "Perf event records round trip", "statement": "A successful pev_write() puts exactly the documented packet (header, structure, zero-terminated text padded to 8 bytes, samples in the documented order) at the start of the buffer and changes nothing behind it. Reading such a packet with pev_read() under the same configuration gives back the same size, and following the pointers of the event gives the same values, with the time additionally in TSC. Conversely whatever pev_read() accepts is described by its bytes, its samples are those the configuration prescribes, and it can be written again with the same size and read back the same. Exceptions: an event without identifier under a sample configuration may be mistaken for one with identifier; sample types with bits the library does not know are read but not written; events of unknown type are not written.", "quantifier": "every event of every known type, every field value and text, every subset of samples, every configuration, every buffer and every content behind the packet", "why_tests_cant": "All combinations of record types, samples, configurations and values; reading back arbitrary input bytes.", "anchors": ["pevent/src/pevent.c:pev_read,pev_write,pev_read_samples,write_samples,pev_sample_type,pev_strlen"]}
{"id": "C36", "title": "Time conversion between perf clock and TSC", "statement": "pev_time_to_tsc() and pev_time_from_tsc() compute the published relation time = zero + tsc * mult / 2^shift and its inverse exactly, rounding down, whenever mult * 2^shift does not exceed 2^64 and the result fits into 64 bits; both are monotonic there, and converting TSC to time and back gives a TSC that is not later and less than 2^shift / mult + 1 earlier. A configuration that is too short or has a zero multiplier is rejected with -pte_bad_config. Time zero is always TSC zero. Outside the stated range results wrap silently.", "quantifier": "every 64-bit value and every parameter setting", "why_tests_cant": "64-bit arithmetic over all parameters.", "anchors": ["pevent/src/pevent.c:pev_time_to_tsc,pev_time_from_tsc"]}
{"id": "C37", "title": "Encoder writes the documented packet formats", "statement": "For every in-range packet that fits, pt_enc_next() writes exactly the byte sequence that the Intel SDM defines for that packet at the encoder position, and changes nothing else.", "quantifier": "every packet type, all field values in their documented ranges, every buffer content and position", "why_tests_cant": "The fields of one packet alone have up to 2^64 values; tests check a few encodings by decoding them again, which cannot notice an error made consistently in both directions.", "anchors": ["libipt/src/pt_encoder.c: pt_enc_next", "libipt/internal/include/pt_opcodes.h"]}
{"id": "C38", "title": "Synchronisation terminates and stays inside the buffer", "statement": "Every call of pt_pkt_sync_forward(), pt_pkt_sync_backward(), pt_pkt_sync_set() and pt_pkt_next() returns after finitely many steps and reads only bytes inside the trace buffer, for every buffer content, buffer alignment and decoder position.", "quantifier": "all buffer contents and sizes, all alignments of the buffer, all decoder positions, all histories of calls", "why_tests_cant": "The search reads aligned 64-bit words and walks back from the end of a pattern; whether it can step outside depends on the contents near both ends and on the alignment, which tests sample only at a few values.", "anchors": ["libipt/src/pt_sync.c: pt_sync_forward, pt_sync_backward, pt_find_psb", "libipt/src/pt_packet_decoder.c: pt_pkt_sync_forward, pt_pkt_sync_backward, pt_pkt_sync_set"]}
{"id": "C39", "title": "Processor strings", "statement": "Parsing a processor string family/model or family/model/stepping, each number in any number format of the C language (decimal, octal with leading 0, hexadecimal with leading 0x), yields exactly these numbers (stepping zero if omitted) for an Intel processor if family is at most 65535 and model and stepping are at most 255, and is refused with -pte_invalid otherwise; whatever the string, a successful parse yields values in these ranges.", "quantifier": "all strings; all decimal, octal and hexadecimal numbers of any length", "why_tests_cant": "Unbounded strings and numbers, including ones that overflow the C long.", "anchors": ["libipt/src/pt_cpu.c:pt_cpu_parse"]}
{"id": "C40", "title": "Calibration computes the cycles-to-time ratio", "statement": "The calibration query fails with -pte_no_time until cycles or a usable core:bus ratio were seen. Between two MTC packets, and between two TSC packets in the absence of MTC, the calibrated ratio is 256 times the elapsed fast-counter ticks divided by the number of cycles counted in between, rounded down, including counter wrap-around. A CBR packet sets it to 256 times nominal frequency divided by the ratio.", "quantifier": "every calibration state, every sequence of CYC packets, every configuration with mtc_freq < 24 and a configured clock ratio", "why_tests_cant": "Arbitrary packet values, wrap-around and unbounded CYC sequences.", "anchors": ["libipt/src/pt_time.c:pt_tcal_fcr,pt_tcal_header_tsc,pt_tcal_update_cbr,pt_tcal_update_mtc,pt_tcal_update_cyc"]}
{"id": "C41", "title": "CYC packets interpolate time", "statement": "After TSC and TMA, CYC packets advance the reported time by cycles times ratio / 256, rounded down per packet. After an MTC packet they advance it by at most that amount and never move it below the MTC time.", "quantifier": "every earlier history and every sequence of CYC packets with positive ratio and non-overflowing products", "why_tests_cant": "Unbounded sequences and arbitrary values; correction for cycles of earlier MTC periods.", "anchors": ["libipt/src/pt_time.c:pt_time_update_cyc,pt_time_adjust_cyc"]}
{"id": "C42", "title": "Sections lie inside their file and read file bytes", "statement": "pt_mk_section() truncates a section to the end of its file and refuses one that starts at or beyond it. However the section gets mapped (mmap or file based), mapping has no undefined behaviour, and pt_section_read() of n bytes at an offset inside the section returns the file bytes at the section's file offset plus that offset, as many as requested but never beyond the section's end; at or beyond the end it fails with -pte_nomap.", "quantifier": "every file content smaller than 2^63 bytes, every section offset and size, every page size, read size and read offset, either way of mapping", "why_tests_cant": "64-bit offset arithmetic with page adjustment over all files, offsets and sizes.", "anchors": ["libipt/src/pt_section.c:pt_mk_section,pt_section_read", "libipt/src/pt_section_posix.c:pt_sec_posix_map,pt_sec_posix_read", "libipt/src/pt_section_file.c:pt_sec_file_map,pt_sec_file_read"]}
{"id": "C43", "title": "The decoder's section cache agrees with the image", "statement": "A hit in the mapped-section cache of a decoder (pt_msec_cache_read) that was filled in an address space gives the section, offset and identifier that looking the address up in that address space gives now, whatever was done to the image since. Filling takes one reference and one mapping of the section and invalidating gives exactly these back.", "quantifier": "every image history before and after filling, every address", "why_tests_cant": "A stale entry shows only for particular interleavings of image updates and decoding.", "anchors": ["libipt/src/pt_msec_cache.c", "libipt/src/pt_image.c:pt_image_validate"]}
{"id": "C44", "title": "Images neither leak nor lose section references", "statement": "After any sequence of image operations the use count of every section is the number of references held outside plus the number of image entries for it, the section is destroyed exactly when both are zero, and no operation other than reading touches a destroyed section or has other undefined behaviour.", "quantifier": "every sequence of calls in which users only use sections they hold, any allocation failures", "why_tests_cant": "Reference counting over all histories and failure points.", "anchors": ["libipt/src/pt_image.c", "libipt/src/pt_section.c:pt_section_get,pt_section_put"]}
{"id": "C45", "title": "Reading by section identifier returns the file's bytes", "statement": "pt_iscache_read() with an identifier and an address inside the section returns the bytes of the file at the section's offset plus the distance from the load address, as many as requested up to the end of the section; outside it returns -pte_nomap, for unknown identifiers -pte_bad_image; otherwise it only fails when mapping fails or a counter is exhausted.", "quantifier": "every cache history, every identifier, address and size, mapped or not", "why_tests_cant": "All histories, addresses and section layouts.", "anchors": ["libipt/src/pt_image_section_cache.c:pt_iscache_read,pt_iscache_lookup", "libipt/src/pt_section.c:pt_section_read"]}
{"id": "C46", "title": "The section cache neither leaks nor loses references and mappings", "statement": "After any sequence of operations the use count of a section is the number of references that users hold plus its entries in the cache, its map count is the number of mappings by users plus one if the cache keeps it mapped, it is destroyed exactly when nobody holds it, and dropping, clearing and setting the limit never fail; no operation has undefined behaviour.", "quantifier": "every sequence of cache and section operations by users that keep the rules, any allocation failures", "why_tests_cant": "Reference counting over all histories and failure points.", "anchors": ["libipt/src/pt_image_section_cache.c", "libipt/src/pt_section.c"]}
{"id": "C47", "title": "Shared counts and cache contents are free of data races", "statement": "However threads that use sections, images and section caches are scheduled, no two of them access the use count, map count or attach count of a section, the contents of a section cache or the position of a mapped file at the same time when one of them writes, and no two write the attached cache of a section at the same time.", "quantifier": "every number of threads, every program of operations per thread, every schedule", "why_tests_cant": "Data races show only under particular interleavings, and usually not in the result.", "anchors": ["libipt/src/pt_section.c", "libipt/src/pt_image_section_cache.c", "libipt/src/pt_section_file.c:pt_sec_file_read", "libipt/internal/include/pt_section.h:pt_section_on_map"]}
{"id": "C48", "title": "Perf event records are read and written inside their buffers", "statement": "For every byte string and every configuration with time_shift below 64, pev_read() reads no byte outside the given range and invokes no undefined behaviour; when it succeeds it returns at least 8 and at most the length of the range, all pointers it stores, including the ends of text, lie inside the returned number of bytes, and bytes behind do not influence the result. pev_write() writes no byte outside its buffer.", "quantifier": "every byte string, every configuration, every event", "why_tests_cant": "Memory safety on all malformed inputs, including 16-bit wrap-around of sizes and unterminated text.", "anchors": ["pevent/src/pevent.c:pev_read,pev_write,pev_read_samples,pev_strlen"]}
{"id": "C49", "title": "No branch of the trace is lost, added or reordered by the event decoder", "statement": "After a successful synchronisation, as long as pt_evt_next() succeeds, the TNT events it delivers are exactly the TNT packets of the trace from the synchronisation point up to some place, in order, with the same bits. If no erratum is configured that makes the decoder skip packets (BDM70, SKD010, APL11, APL12), the same holds for the sequence of all TNT, TIP and TIP.PGE packets, where a TIP is reported as a tip or an async_branch event, and when pt_evt_next() answers -pte_eos every such packet of the trace has been reported. TNT events hold 1 to 63 bits.", "quantifier": "every trace buffer, configuration and synchronisation call, every number of pt_evt_next() calls", "why_tests_cant": "Reordering and loss depend on the combinations of pending events, PSB+, overflow and buffer positions; tests cover a few short traces.", "anchors": ["libipt/src/pt_event_decoder.c:pt_evt_next,pt_evt_fetch_event,pt_evt_decode_packet,pt_evt_start"]}
{"id": "C50", "title": "Events say what the packets say, at the right time and address", "statement": "If no erratum is configured that makes the decoder skip packets, each event that pt_evt_next() delivers in an error-free run is reported at a packet of its kind; its payload is taken from packets read before; its time stamp is that of the timing packets up to there (for an overflow: up to the OVF packet); unless its IP is suppressed, its address is the one that IP compression gives for the IP packets up to there; and the source address of an asynchronous branch or disable is that of a preceding FUP.", "quantifier": "every trace buffer, configuration and synchronisation call, every number of pt_evt_next() calls", "why_tests_cant": "Events are queued, bound to later packets and completed there; the claim ranges over all packet sequences.", "anchors": ["libipt/src/pt_event_decoder.c", "libipt/src/pt_event_queue.c", "libipt/src/pt_last_ip.c", "libipt/src/pt_time.c"]}
{"id": "C51", "title": "Instruction decode recognises exactly the architecture's instruction texts", "statement": "In 16-, 32- and 64-bit mode, pt_ild_decode() succeeds on a buffer exactly if it begins with an instruction text of that mode as the architecture manual defines it (prefixes, REX, REX2, VEX or EVEX, opcode map, ModRM, SIB, displacement, immediate); the reported size is the size of that text, and the reported class, branch kind and branch displacement are those of its opcode. No text is a proper prefix of another.", "quantifier": "every execution mode but unknown, every instruction text, every following bytes, every buffer size", "why_tests_cant": "There are 256 to the power 15 buffers; the tables and the prefix rules interact, and tests cover single encodings.", "anchors": ["libipt/src/pt_ild.c:pt_ild_decode", "libipt/internal/include/pti-*.h"]}
{"id": "C52", "title": "Instruction decode is safe and local on arbitrary bytes", "statement": "On any bytes in any execution mode, pt_ild_decode() returns a size between one and the number of bytes given, or -pte_bad_insn, and reads only those bytes; an instruction of which bytes are missing is never recognised; the answer does not depend on bytes past the given size. The only exception is a buffer whose last two bytes are a REX2 prefix, which is characterised exactly.", "quantifier": "every byte buffer, every size, every execution mode", "why_tests_cant": "Memory safety of the byte reads is over all buffers; the REX2 case needs 13 prefix bytes.", "anchors": ["libipt/src/pt_ild.c:pt_ild_decode,prefix_rex2"]}
{"id": "C53", "title": "Decoding an instruction from an image finds the text in memory across sections", "statement": "If the memory of an address space contains an instruction text at an address, decoding at this address succeeds with its length, bytes, class and branch target, even if the text lies in several sections; the section identifier is that of the first byte and the instruction is marked truncated exactly if the first section does not contain all of it. If there is no text, decoding fails with -pte_bad_insn, or with -pte_nomap if there is no memory.", "quantifier": "every memory, every way to split it into sections, every address, execution mode and content of the instruction object", "why_tests_cant": "The ways to split up to 15 bytes into sections and their contents are too many; a wrong retry shows only for particular splits.", "anchors": ["libipt/src/pt_insn.c:pt_insn_decode,pt_insn_decode_retry"]}
{"id": "C54", "title": "Contiguity of a range of instructions", "statement": "pt_insn_next_ip() gives an address exactly if the instruction alone determines where control goes. pt_insn_range_is_contiguous() returns one exactly if control goes from the begin to the end of the range within the given number of instructions without any choice, zero exactly if it does not get there in that many steps, and an error only if the walk gets stuck before, for the reason given.", "quantifier": "every memory, every range, every number of steps, every instruction", "why_tests_cant": "The walk depends on the instructions in memory, of which there are unboundedly many sequences.", "anchors": ["libipt/src/pt_insn.c:pt_insn_next_ip,pt_insn_range_is_contiguous"]}
{"id": "C55", "title": "The instruction flow decoder shows a flow that the trace describes", "statement": "After a successful pt_insn_sync_forward() or pt_insn_sync_set(), whatever was done with the decoder before, the instructions and events that the documented loop of pt_insn_event() and pt_insn_next() shows are an execution flow that the trace describes: each instruction is the text in the image at the address where the flow is, in the current mode and address space; each conditional branch goes where the next outcome in the trace says, each compressed return behind the matching call, each indirect branch to the next target in the trace; each event happens at its address or at an instruction that causes such events and changes the flow as the event says. Events happen in the order of the trace. The end of the trace is reported only when all targets and events were used. There is no undefined behaviour but the known read behind a truncated REX2 instruction.", "quantifier": "for all configurations without the BDM64, SKD022 and SKL014 workarounds, all traces below 2^31 bytes without trigger events, all images, all decoder histories and any number of calls, as long as the execution mode is known", "why_tests_cant": "Each test follows one trace through one small program; the decoder looks ahead, postpones instructions and holds events, and the interplay over all traces and programs cannot be enumerated.", "anchors": ["libipt/src/pt_insn_decoder.c", "doc/howto_libipt.md"]}
{"id": "C56", "title": "The instruction flow decoder shows the whole flow", "statement": "The documented loop around pt_insn_next() and pt_insn_event() shows every instruction and every event of the flow that the trace describes.  For any flow of the trace that leaves no conditional outcomes over at an indirect branch: while the loop runs, what it showed and the flow agree as far as both go; once a call fails, for whatever reason, it already showed all of that flow.  So the decoder neither stops early nor skips anything, and the flow of a trace is unique up to unused instruction bytes.", "quantifier": "All traces, configurations without the BDM64, SKD022 and SKL014 workarounds, decoder histories, synchronisation points, memory contents, section caches, numbers of calls below 2^32-1, and all flows of the specification", "why_tests_cant": "A test compares one flow with one expected output; it cannot show that the decoder never gives up on a trace that has a continuation.", "anchors": ["libipt/src/pt_insn_decoder.c:pt_insn_next", "libipt/src/pt_insn_decoder.c:pt_insn_event", "libipt/src/pt_insn_decoder.c:pt_insn_check_insn_event", "libipt/src/pt_insn_decoder.c:pt_insn_check_ip_event", "libipt/src/pt_insn_decoder.c:pt_insn_proceed"]}
{"id": "C57", "title": "The events of a trace are a function of its packets", "statement": "After a successful pt_evt_sync_forward(), pt_evt_sync_backward() or pt_evt_sync_set(), whatever was done with the decoder before, repeated calls of pt_evt_next() return exactly the events that a packet-by-packet specification (S_evfun.v) assigns to the packets from the synchronisation point on: in the same order, none missing, none added, and with all fields (type, addresses, payload, time, lost packets, status update and suppression flags) as specified. The call after the last event returns the error that the specification gives: the error of the packet decoder at the end, or the one for the first packet that is not allowed where it is. The specification says for each packet which event it starts, which packet completes an event that waits (FUP, TIP, EXSTOP, CFE), how PSB+ is collected and shown at its end, how an overflow is resolved by what follows, and when more events wait than are supported.", "quantifier": "all traces below 2^31 - 1 bytes, all configurations without the BDM70, SKD010, APL11, APL12 and SKZ84 workarounds and with an MTC frequency below 24, all callbacks that make progress, all decoder histories and synchronisation operations", "why_tests_cant": "Events are completed by packets that come arbitrarily later, and up to fourteen of them wait at a time in different orders; the number of interleavings of packets that a test would have to go through is unbounded.", "anchors": ["libipt/src/pt_event_decoder.c:pt_evt_next", "libipt/src/pt_event_decoder.c:pt_evt_decode_packet", "libipt/src/pt_event_decoder.c:pt_evt_decode_psb", "libipt/src/pt_event_decoder.c:pt_evt_decode_fup", "libipt/src/pt_event_decoder.c:pt_evt_decode_tip", "libipt/src/pt_event_decoder.c:pt_evt_decode_ovf", "libipt/src/pt_event_queue.c"]}
{"id": "C58", "title": "Blocks and events stand for the flow that the trace describes", "statement": "After pt_blk_sync_forward() or pt_blk_sync_set(), whatever was done with the decoder before and however the block caches of the sections were filled, the blocks of pt_blk_next() and the events of pt_blk_event(), called as documented, stand for one flow of the events that an event decoder gives from the same synchronisation point. The instructions of a block are executed one after the other from its address to its end address, as many as it counts, all of them from its section, in its mode and speculation state, and none but the last one needs the trace. Its class and, if it is truncated, its bytes are those of its last instruction. Events are returned where they happen in that flow. A block is only empty if an event is pending. The status says whether tracing is on, and the end of the trace is only reported if nothing is left. The block caches stay correct, since decoders share them.", "quantifier": "all traces below 2^31 - 1 bytes, all memories and images, all correct contents of the block caches, all decoder histories, any number of calls; without tick and trigger events, three errata workarounds, and flows that reach one of five named states in which the decoder goes wrong", "why_tests_cant": "Blocks are as long as the code lets them be, the block cache is filled recursively and used later from other addresses and by other decoders, and events may postpone the end of a block in many ways.", "anchors": ["libipt/src/pt_block_decoder.c:pt_blk_next", "libipt/src/pt_block_decoder.c:pt_blk_event", "libipt/src/pt_block_decoder.c:pt_blk_proceed_no_event_cached", "libipt/src/pt_block_decoder.c:pt_blk_proceed_no_event_fill_cache", "libipt/src/pt_block_decoder.c:pt_blk_proceed_event", "libipt/src/pt_block_decoder.c:pt_blk_proceed_trailing_event", "libipt/src/pt_block_decoder.c:pt_blk_sync_forward", "libipt/src/pt_block_cache.c", "libipt/internal/include/pt_block_cache.h"]}
{"id": "C60", "title": "Sideband process contexts are reference counted without error", "statement": "For every sequence of calls to a sideband session with perf event decoders - allocating decoders, pt_sb_init_decoders(), pt_sb_event(), pt_sb_dump(), taking and putting contexts, removing processes - no process context is used after it was freed, the use count of every context equals the number of references held by the session, its decoders and the client, and the image selected last belongs to a context that is still allocated and in use by a decoder. pt_sb_free() then leaves exactly those contexts that the client still refers to. The calls end and do not overrun sideband data.", "quantifier": "for all call sequences, sideband data, perf configurations with time_shift < 64, paths shorter than FILENAME_MAX, trace events, and all behaviours of allocation, images, files and notifiers", "why_tests_cant": "Use-after-free depends on the interleaving of fork, exec, switch, error and removal records of several channels with trace events and failures of callbacks; tests run a few interleavings.", "anchors": ["sideband/src/pt_sb_context.c:pt_sb_ctx_put", "sideband/src/pt_sb_session.c:pt_sb_event", "sideband/src/pt_sb_pevent.c:pt_sb_pevent_prepare_context_switch", "sideband/src/pt_sb_pevent.c:pt_sb_pevent_switch_contexts", "sideband/src/pt_sb_session.c:pt_sb_free"]}
{"id": "C61", "title": "The time offset of a sideband channel does not wrap around", "statement": "The time at which a perf event record is due is its time stamp less the configured signed offset, limited to the range of 64 bits; a record without time is due at once.", "quantifier": "for all time stamps and all offsets that are not negative, and all negative ones for which the sum is in range (the remaining ones are shown to wrap around)", "why_tests_cant": "There are 2^128 pairs of time stamp and offset, and the wrong ones are at the edges.", "anchors": ["sideband/src/pt_sb_pevent.c:pt_sb_pevent_fetch"]}
{"id": "C59", "title": "Sideband records are applied once and in the order of time", "statement": "In a sideband session with any number of decoders and any callbacks, after pt_sb_init_decoders() and any calls to pt_sb_event(): every decoder that was not destroyed because its first fetch failed is in exactly one list; every decoder was told to apply the records that it fetched once each, in order and without a gap, and at most the last one is outstanding; for an active decoder the outstanding record is later than the last event, a retired decoder has none; both have seen every event exactly once after the due records; and if the records of every decoder are in the order of time then records are applied in the order of time across decoders. After pt_sb_free() the destructor of every decoder was called exactly once. A failing callback only affects its own decoder.", "quantifier": "all callbacks and their private data, all numbers of decoders, all event sequences with any times, with and without printing", "why_tests_cant": "Sideband unit tests do not exist for merging; the interleavings of several channels with failing callbacks and equal or decreasing times are unbounded.", "anchors": ["sideband/src/pt_sb_session.c:263-282", "sideband/src/pt_sb_session.c:335-366", "sideband/src/pt_sb_session.c:398-513", "sideband/src/pt_sb_session.c:66-117"]}
{"id": "C62", "title": "The session shows the address space that the sideband records and the trace events imply", "statement": "Let a sideband session have perf event decoders and be told about trace events with pt_sb_event(). After every event, the image that the session has selected is that of the address space that simple rules over processes tell: an ITRACE_START record selects the process at once; a context switch record sets the process to go to, and the switch is made at the first later event at which the processor is not known to be in user mode both before and after; fork makes a new address space for the child with the kernel and the parent's mappings; exec makes a new address space with the kernel only and makes it the one to go to; mmap records of user mode add the file (below the sysroot, or the configured vdso for the ABI of the process) to the image of the process, and special, anonymous and deleted files add nothing. Every process known to the session has the context, and every context the image and ABI, that the rules give.", "quantifier": "for all sideband data, decoder configurations, numbers of decoders up to 30000, sequences of trace events, and all outside behaviours in which memory allocation, pt_image_copy() and the switch notifier succeed and mapping a file has the same effect each time", "why_tests_cant": "Tests play a handful of records; the selected image depends on the whole interleaving of records of several decoders with trace events, and on reference counting, pending switches and exec replacing contexts that others still use.", "anchors": ["sideband/src/pt_sb_pevent.c:898-1408 (switching, fork, exec, map, apply_event_record)", "sideband/src/pt_sb_pevent.c:1410-1727 (ploc_from_event, pt_sb_pevent_apply)", "sideband/src/pt_sb_session.c:135-228", "sideband/src/pt_sb_context.c:60-162"]}
{"id": "C63", "title": "An image with a decoder's section cache is one fixed memory", "statement": "Make an image with any sequence of pt_image calls and give it to a decoder. Whatever the decoder reads (pt_image_read), looks up (pt_msec_cache_read/fill) and invalidates, in any order, as long as it invalidates the section cache when the address space changes: the same read or lookup always gives the same bytes and section identifier, namely those of the section that the history of the image makes visible at that address, clipped at the end of the visible piece, and the read-memory callback's elsewhere. Lookups fail only with -pte_nomap where no section is visible. When the cache is invalidated in the end, all sections have the use and map counts they had in the beginning. Hence the flow theorems (C55, C56, C58) hold for decoders running on the library's own image and section cache.", "quantifier": "for all histories of image calls that follow the rules for callers, files and mappings of sufficient size, callbacks, addresses, address spaces, sizes and sequences of uses", "why_tests_cant": "Every read moves a section to the front of the list and every lookup replaces the cached section, so the state depends on the whole sequence of accesses; tests use a few accesses on two or three sections.", "anchors": ["libipt/src/pt_image.c:475-730", "libipt/src/pt_msec_cache.c:36-160", "libipt/src/pt_insn_decoder.c:1612-1637", "libipt/src/pt_block_decoder.c:2919-2965"]}
{"id": "C64", "title": "The block decoder and the instruction flow decoder show the same execution", "statement": "Synchronize an instruction flow decoder and a block decoder to the same place of the same trace with the same image, and run the documented loops of both for any number of calls. The instructions and events that the blocks and events of the block decoder stand for are a prefix of those that the instruction flow decoder shows, or the other way round; if the instruction flow loop was stopped by an error or the end of the trace, it showed everything that the block loop shows. The exceptions are named: tracing that ends without address at a near branch, at an address between instructions, with a write to CR3 or with a call, and a second event with an address at one instruction.", "quantifier": "for all traces and images, decoder histories, block cache contents, synchronization points and numbers of calls on either side", "why_tests_cant": "Agreement relates two independent implementations over unbounded traces; tests compare both on a few recorded traces, and the divergences only show where tracing ends in particular ways.", "anchors": ["libipt/src/pt_block_decoder.c:1755-2230", "libipt/src/pt_insn_decoder.c:744-1040", "doc/howto_libipt.md:1101-1209"]}
{"id": "C65", "title": "The block decoder's loop shows all of the execution", "statement": "Take a block decoder on a well-formed image that was synchronized onto a trace, and run the documented loop (pt_blk_event() while events are pending, else pt_blk_next()) for any number of calls. The blocks and events it returns stand for a sequence of instructions and events. Every execution that the events of the trace and the memory describe (without left-over conditional branch outcomes) either is a beginning of that sequence, or that sequence is a beginning of the execution and the loop was not stopped by an error. So an error ends the loop only where the trace and the memory say nothing more. If synchronizing fails, then the event decoder fails, too, or nothing at all follows from the trace.", "quantifier": "for all traces, configurations, images, decoder histories, numbers of calls, and all executions the trace describes", "why_tests_cant": "A decoder that gives up too early loses execution silently behind an error code; no finite set of traces shows that each error is justified, since this is a statement about all executions that fit the trace.", "anchors": ["libipt/src/pt_block_decoder.c:pt_blk_next", "libipt/src/pt_block_decoder.c:pt_blk_event", "libipt/src/pt_block_decoder.c:pt_blk_proceed", "libipt/src/pt_block_decoder.c:pt_blk_start", "libipt/src/pt_block_decoder.c:pt_blk_sync_forward"]}
{"id": "C66", "title": "The size a user declares for a structure does not change what they get", "statement": "pt_pkt_next(), pt_evt_next(), pt_insn_next() and pt_blk_next() take the size of the user's structure. For every size, smaller or bigger than the library's, the user's structure contains what the library's structure contains as far as both know it, the fields only the user knows are zero, nothing behind the user's structure is written, and nothing outside the library's structure is read; the decoder's result and further behaviour do not depend on the size. pt_qry_event(), pt_insn_event() and pt_blk_event() do the same but leave the fields only the user knows alone; pt_qry_event() rejects sizes that do not cover the common part. pt_sb_event() takes an event of any declared size that covers the time: it sees the user's bytes and zeros for what the user does not know. An event that went from a decoder through a user of any size to the sideband library arrives with all that the user knows.", "quantifier": "for all structure sizes, memory contents, layouts and decoder states", "why_tests_cant": "Tests are compiled with one header, so the declared size is always the library's own size; binary compatibility with older and newer headers is a statement about all sizes.", "anchors": ["libipt/src/pt_packet_decoder.c:pkt_to_user", "libipt/src/pt_event_decoder.c:pt_evt_to_user", "libipt/src/pt_insn_decoder.c:insn_to_user", "libipt/src/pt_block_decoder.c:block_to_user", "libipt/src/pt_query_decoder.c:pt_qry_event", "libipt/src/pt_insn_decoder.c:pt_insn_event", "libipt/src/pt_block_decoder.c:pt_blk_event", "sideband/src/pt_sb_session.c:pt_sb_event_from_user"]}
{"id": "C67", "title": "Block decoders that share sections do not get in each other's way", "statement": "The block cache of a section is shared by all block decoders that use the section, and read and written entry by entry without locks. (1) Whatever other decoders do to the block caches before each access, as long as their entries describe the section's content, pt_blk_next() and pt_blk_event() in the documented loop show a flow of the decoder's own trace, and every state of the block caches that the others can find, also after calls that fail, has only entries that describe the content. (2) Let any number of block decoders, each with its own trace, configuration and image, make their calls in any order on shared sections: each shows a flow of its own trace, no matter which errors the others run into, and a decoder that is stopped by an error (other than -pte_overflow) has shown all of its flow.", "quantifier": "for all numbers of decoders, traces, configurations, images that show memory, schedules, and actions of others that keep the caches' invariant", "why_tests_cant": "The unit tests for block caches store and load literal entries in one cache; that what one decoder leaves is right for every other decoder at every time is an invariant over all programs, traces and interleavings.", "anchors": ["libipt/src/pt_block_cache.c:pt_bcache_add", "libipt/src/pt_block_cache.c:pt_bcache_lookup", "libipt/src/pt_section.c:pt_section_alloc_bcache", "libipt/src/pt_block_decoder.c:pt_blk_proceed_no_event_fill_cache", "libipt/src/pt_block_decoder.c:pt_blk_proceed_no_event_cached", "libipt/src/pt_block_decoder.c:pt_blk_msec_lookup", "libipt/src/pt_block_decoder.c:pt_blk_next", "libipt/src/pt_block_decoder.c:pt_blk_event"]}
{"id": "C68", "title": "No order of calls leads a flow decoder into undefined behaviour", "statement": "Take an instruction flow decoder or a block decoder in the state in which it is allocated, any trace buffer (corrupt or cut off anywhere), any configuration (errata, ticks, filters), any memory image (that may fail or lie about contents in any way but gives no more bytes than were asked for), and, for the block decoder, block caches that other decoders change before each access. Make any sequence of the calls pt_insn_sync_forward/backward/set(), pt_insn_next(), pt_insn_event() (or pt_blk_*), in any order, also after errors and without heeding pending events. No call reads or writes outside of a buffer, array or return stack, divides by zero, uses a block cache that is not there, or fails to terminate; the only exceptions are the over-read of instruction bytes for texts that end in a REX2 prefix (C52) and that the rounds of synchronising backwards are not bounded by the model. In particular this holds for images that are made by the library.", "quantifier": "for all traces, configurations, images, interferences by other decoders, and finite sequences of calls in any order", "why_tests_cant": "The tests call the decoders in the documented order on good traces or on single prepared errors; fuzzing samples. Memory safety of every call sequence on every trace is an invariant over all decoder states.", "anchors": ["libipt/src/pt_insn_decoder.c:pt_insn_next", "libipt/src/pt_insn_decoder.c:pt_insn_event", "libipt/src/pt_insn_decoder.c:pt_insn_sync_backward", "libipt/src/pt_block_decoder.c:pt_blk_next", "libipt/src/pt_block_decoder.c:pt_blk_event", "libipt/src/pt_block_decoder.c:pt_blk_proceed_no_event_cached", "libipt/src/pt_block_decoder.c:pt_blk_proceed_trailing_event", "libipt/src/pt_retstack.c:pt_retstack_push"]}
{"id": "C69", "title": "An ELF file is loaded into the image as its program headers say", "statement": "Let ptxed's load_elf() be given any file and base. If the file is a (little-endian) ELF file with complete headers, the call succeeds and adds to the image, in the order of the program headers, exactly the PT_LOAD segments with bytes in the file, each with its file offset and size, at p_vaddr if the base is zero and otherwise moved so that the lowest PT_LOAD segment (with or without bytes) is at the base, modulo 2^64; a segment that cannot be added is left out and does not stop the others. A decoder that uses the image then sees, at each address of a segment that no other segment covers, the byte of the file that belongs there, in every address space, and no memory where there is no segment. Any other file is refused with -pte_bad_config, and with a base other than zero nothing was added then. Refuted variants: without a base, a refused file may have been loaded in part; the declared size of program headers (e_phentsize) is not used.", "quantifier": "for all file contents, bases, section loaders (whatever they return) and, for the image, all outcomes of allocation and of determining the file size", "why_tests_cant": "The loader has no unit tests and runs on the few binaries of the test suite; no test covers truncated tables, odd segment orders or relocation that wraps around.", "anchors": ["ptxed/src/load_elf.c:load_elf", "ptxed/src/load_elf.c:load_elf32", "ptxed/src/load_elf.c:load_elf64", "ptxed/src/load_elf.c:load_section", "libipt/src/pt_image.c:pt_image_add_file"]}
{"id": "C70", "title": "TRIG events are reported after exactly the instructions that they count", "statement": "A trigger event (TRIG) with an instruction count c is reported by the instruction flow decoder after exactly c instructions since its anchor, the last place whose address or outcome the trace gave: pt_insn_next() does not indicate it before, always indicates it then, and pt_insn_event() then gives it with the address where the decoder is, which becomes the next anchor.  Instructions that do not need the trace are counted one by one; a branch that needs the trace is an anchor; which events are anchors is given by their kind and whether they have an address.  A count that has passed already, or that has no anchor, is -pte_bad_packet.  A trigger event with an address is reported exactly where the decoder is at that address.  (Refuted: that the block decoder counts from the same anchors.)", "quantifier": "all decoder states, events, counts, programs, images that show the memory, and all runs of instructions of any length", "why_tests_cant": "The place depends on every instruction since the anchor and on the bookkeeping in each of the event handlers; tests look at a few counts over straight code.", "anchors": ["libipt/src/pt_insn_decoder.c:526-565", "libipt/src/pt_insn_decoder.c:567-691", "libipt/src/pt_insn_decoder.c:1494-1537", "libipt/src/pt_insn_decoder.c:1996-2310", "libipt/src/pt_block_decoder.c:48-135"]}
{"id": "C71", "title": "Blocks end exactly where a counted TRIG event is to be reported", "statement": "When a trigger event (TRIG) that lies r instructions ahead is in progress, no block that pt_blk_next() returns, and no sequence of blocks, goes past it: over any number of calls the blocks together hold at most r instructions, the event is indicated if and only if they hold exactly r, and every call that succeeds makes progress.  Those instructions are the ones in memory from one address to the other, none of which needs the trace.  pt_blk_event() then gives the event with the address where the last block ended.  An event that arrives with a count c lies c - m instructions ahead, where m have been counted since the anchor, and is indicated at once if and only if c = m; with c < m or without an anchor the result is -pte_bad_packet.  (Refuted: that a trigger event with its own address is waited for when it follows another event, and that both decoders treat a counted trigger event alike while tracing is disabled.)", "quantifier": "all decoder states, counts, programs, images that show the memory, and all sequences of calls", "why_tests_cant": "The progress is kept in the event while blocks fill up and end for reasons of their own; tests look at single counts in straight code that fits one block.", "anchors": ["libipt/src/pt_block_decoder.c:1506-1608", "libipt/src/pt_block_decoder.c:3831-3866", "libipt/src/pt_block_decoder.c:3792-3820", "libipt/src/pt_block_decoder.c:4135-4412"]}
{"id": "C72", "title": "From written packets to the instructions and blocks that are shown", "statement": "The execution that the decoders show is a function of the packets in the trace.  Packets that pt_enc_next() writes to the end of a buffer are the packets that every decoder works on that is set to the place where they begin, whatever is in front of them, and the trace ends behind them.  After a successful synchronisation, the events that the packets from there on mean determine the flow: the instructions and events that the documented loop of pt_insn_next() and pt_insn_event() shows are a flow that these events and the memory describe, and when it stops it has shown every such flow completely.  The same holds for the blocks and events of pt_blk_next() and pt_blk_event().", "quantifier": "all packet sequences within the field ranges, all bytes in front of them, all decoder histories, programs, images and numbers of calls", "why_tests_cant": "Packet, event, query and flow layers each keep state from packet to packet and from call to call; tests run single layers on fixed packets, or all of them on a few fixed traces.", "anchors": ["libipt/src/pt_encoder.c", "libipt/src/pt_packet_decoder.c", "libipt/src/pt_event_decoder.c", "libipt/src/pt_query_decoder.c", "libipt/src/pt_insn_decoder.c", "libipt/src/pt_block_decoder.c"]}
{"id": "C73", "title": "The time told by the query decoder is that of the last event it used", "statement": "After pt_qry_event() returned an event, pt_qry_time() gives the time stamp and the numbers of lost packets in that event, and -pte_no_time exactly if the event has no time stamp.  More generally, after a synchronisation and any sequence of queries, a query that has an answer leaves the time of the last event of the trace that it used up, also if that is a TNT or TIP event that the user does not see; a query that is answered from bits read earlier leaves the time as it was, although the decoder reads one event ahead.  Overflow events are excepted: they carry the time of the OVF packet.  (Refuted: the claim for overflow events, and after a query without an answer: a failing pt_qry_cond_branch() already gives the time of the next event.)", "quantifier": "all configurations, all traces, all histories of synchronisations and queries", "why_tests_cant": "The decoder reads an event ahead, so its own time has already moved on; every packet type dates its event in its own code, at its own moment; tests check the time after a few chosen packets.", "anchors": ["libipt/src/pt_query_decoder.c:188-205", "libipt/src/pt_query_decoder.c:401-596", "libipt/src/pt_event_decoder.c:173-189", "libipt/src/pt_event_decoder.c:3755-3958"]}
{"id": "C74", "title": "After pt_blk_event(), pt_blk_time() tells the time in the event", "statement": "When pt_blk_event() gives an event, pt_blk_time() afterwards gives the time stamp and the numbers of lost packets in that event.  The only exception: if the trace goes on with the TIP for an instruction that was postponed until its events were given, the times are those of that TIP; if tick events are enabled, the time stamp is that of the event even then.  pt_blk_core_bus_ratio() gives the ratio in the event if that is a CBR event and what it gave before if it is another.  If pt_blk_event() gives no event, neither changes.  (Refuted: the claim without the exception.)", "quantifier": "all configurations, all traces, all images and block caches with the other decoders using them, all decoder states after any calls without undefined behaviour", "why_tests_cant": "The time is stored when an event of the trace is fetched, which happens at several places and also ahead of its use; whether another one is fetched within pt_blk_event() depends on postponed instructions, pending events and the flags together.", "anchors": ["libipt/src/pt_block_decoder.c:631-652", "libipt/src/pt_block_decoder.c:pt_blk_event", "libipt/src/pt_block_decoder.c:pt_blk_fetch_event", "libipt/src/pt_block_decoder.c:pt_blk_proceed_postponed_insn"]}
{"id": "C75", "title": "The block decoder gives an event only where it takes place", "statement": "If pt_blk_event() gives an event that takes place at an address between instructions (asynchronous branch, disable, paging, VMCS change and transaction event; while tracing is on also execution mode, EXSTOP, MWAIT, interrupt flag, interrupt, SMI, INIT, VM exit, shutdown, user interrupt and TRIG), that address is where the block would have begun if pt_blk_next() had been called instead.  If a user asks for such an event too early, pt_blk_event() returns -pte_bad_query, gives nothing and leaves the decoder as it was, so that the event is given later.", "quantifier": "all decoder states, all traces, all images and block caches with the other decoders using them, all events", "why_tests_cant": "That a user asks at the wrong moment is not among the tests of the flow; where the next block begins depends on all of the decoder's state and on what other decoders do to the block caches.", "anchors": ["libipt/src/pt_block_decoder.c:4135-4412", "libipt/src/pt_block_decoder.c:3831-3866", "libipt/src/pt_block_decoder.c:3026-3080"]}
