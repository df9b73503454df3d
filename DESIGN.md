# Formal model of libipt: design

This directory holds a Rocq (Coq 8.16.1) model of intel/libipt and machine-checked
proofs of the properties in `properties.jsonl`.  `/repo` below is the libipt source
tree at the pinned commit.  The C code is read as text; nothing is extracted, compiled
or executed.

Contents: 1 conventions, 2 properties and proofs, 3 trusted base, 4 what is modelled and
what is not, 5 where the code does not do what one would expect.

## 1. Modelling conventions

* A trace buffer is a `list N` of bytes (0..255).  A position is an index (`nat`)
  into it.  `begin` is index 0 and `end` is the length of the list.
* A C function that returns `int` (negative error code or a value) becomes a total
  Gallina function into `res A := Ok a | Err e | UB u`.  `Err e` stands for
  `return -pte_e`.  `UB u` stands for undefined behaviour of the C code (read or
  write outside a buffer, division by zero, over-wide shift, signed overflow, use after
  free, reading an uninitialised value, locking a mutex twice, ...) and for a loop that
  runs out of fuel.  It is a distinct outcome, and theorems state where it cannot occur.
  So a theorem that excludes `UB` also says that the function terminates.
* Machine integers are `N` (or `Z`) with explicit `mod 2^w` where the C code can wrap.
* Loops become structural recursion where possible, otherwise recursion on fuel with
  a distinct out-of-fuel outcome; theorems state how much fuel suffices.
* State is passed explicitly.  A function that changes the decoder before it fails returns
  the changed decoder together with the error, because the user may go on.
* External parties (the user's unknown-packet callback, `malloc`, file contents,
  the read-memory callback, sideband notifiers) are explicit parameters: function
  arguments or Section variables that are generalised in the theorems.  They are never
  axioms.
* `NULL` argument checks at the API boundary are not modelled (the model's arguments
  are always present) unless said otherwise.

Each model definition carries a comment with the file and lines in `/repo` it
follows, and says where it simplifies.

File classes under `rocq/theories`:

| class | content |
|---|---|
| `M_*.v` | model definitions only (plus `Base.v`) |
| `S_*.v` | independent specifications used in the statements |
| `L_*.v` | lemmas and proofs |
| `T_*.v` | the property theorems: statement, short proof, `Print Assumptions`, and examples that meet the hypotheses |

Theorems named `..._refuted` show by a witness that a plausible stronger statement is
false of the code; section 5 explains them.

## 2. Properties and proofs

| id | title | status | theorems | proof idea |
|---|---|---|---|---|
| C01 | Packet encode/decode round trip | proved | C01_packet_round_trip, C01_cyc_wide_refuted, C01_tnt_empty_refuted (T_packet.v) | little-endian write/read inverse, case split on packet type |
| C02 | Packet stream round trip | proved | C02_stream_round_trip (T_packet.v) | induction over the packet list with C01 and C03 |
| C03 | Encoder stays inside its buffer and failed encodes have no effect | proved | C03_encoder_frame, C03_encoder_accepts (T_packet.v) | case split; frame lemma for byte writes |
| C04 | Packet decoding never reads outside the trace buffer | proved | C04_no_out_of_bounds_read, C04_truncated_packet (T_packet.v) | each read is guarded; case split over the dispatch |
| C05 | Packet decoding progress and position accounting | proved | C05_accounting, C05_failure_keeps_position, C05_skz84_overrun_refuted (T_packet.v) | same dispatch, with the two workarounds as exceptions |
| C06 | Decoding a complete packet does not depend on what follows it | proved | C06_extension (T_packet.v) | relational version of C05: reads below the consumed length agree |
| C07 | IP compression is lossless | proved | C07_last_ip_lossless, C07_bad_compression (T_core.v) | induction over the packet history with shift and mask lemmas |
| C08 | Forward synchronisation only stops at a PSB | proved | C08_forward_sound (T_sync.v) | loop invariants of the aligned word search |
| C09 | Forward synchronisation misses no PSB run | proved | C09_forward_complete, C09_first_run, C09_at_end_refuted (T_sync.v) | window argument: each PSB contains an aligned pattern word |
| C10 | Backward synchronisation is sound | proved | C10_backward_sound, C10_backward_complete, C10_no_psb_eos (T_sync.v) | as C08, searching backward |
| C11 | Repeated synchronisation makes progress | proved | C11_forward_progress, C11_backward_progress, C11_backward_step, C11_backward_refuted (T_sync.v) | measure on positions; counterexample for runs |
| C12 | Sync and offset bookkeeping | proved | C12_sync_set, C12_step, C12_history (T_sync.v) | invariant over call histories |
| C13 | Conditional branch outcomes come out in trace order | proved | C13_tnt_fifo (T_core.v) | refinement to a list of bits |
| C14 | Return stack is a bounded LIFO | proved | C14_retstack_lifo (T_core.v) | refinement of the ring to a bounded list |
| C15 | Address space matching | proved | C15_asid_match, C15_reflexive, C15_symmetric, C15_transitive_through_specified, C15_transitive_refuted (T_config.v) | case analysis |
| C16 | Versioned structures are copied safely | proved | C16_asid_from_user, C16_asid_from_null, C16_asid_to_user, C16_config_from_user (T_config.v) | structures as byte strings of declared size |
| C17 | IP filter semantics | proved | C17_filter, C17_filter_documented, C17_reserved_refuted (T_config.v) | case analysis against a set of ranges |
| C18 | Event queue order and capacity | proved | C18_queue_refines_list, C18_order_per_binding, C18_clear_refuted (T_evq.v) | refinement of the ring with shifting to a list |
| C19 | Time tracking: TSC is authoritative | proved | C19_tsc_is_time, C19_no_tsc, C19_tsc_gives_time, C19_past_irrelevant, C19_lost_cyc, C19_lost_mtc (T_time.v) | invariants over packet histories |
| C20 | Time tracking: MTC wrap-around | proved | C20_mtc_time, C20_ticks (T_time.v) | modular arithmetic on the wrapping counter |
| C21 | Time tracking: calls never divide by zero nor shift out of range | proved | C21_time_no_ub, C21_calibration_no_ub, C21_no_clock_ratio (T_time.v) | invariants that keep divisors non-zero and shifts narrow |
| C22 | Errata table | proved | C22_errata (T_config.v) | finite table, complete enumeration lifted to a universal statement |
| C23 | Block cache is a faithful memo table | proved | C23_bcache_map, C23_alloc, C23_words, C23_model (T_bcword.v, T_core.v) | refinement to a finite map; packing and unpacking of the bit fields; simulation of the block decoder's caches |
| C24 | Image lookups see the latest section added there | proved | C24_lookup, C24_unique, C24_latest, C24_most_recent_refuted, C24_end_refuted (T_image.v) | refinement of the section list to a recursion over the history |
| C25 | Failed image updates do not change the image | proved | C25_add_fails (T_image.v) | every failure path restores the list up to order |
| C26 | Copying an image preserves its mapping | proved | C26_copy, C26_copy_refuted (T_image.v) | insertion one by one gives the same lookups |
| C27 | Image removal is exact | proved | C27_removal, C27_count_refuted, C27_remove_one (T_image.v) | exact set of entries after removal |
| C28 | Image reads return file contents only | proved | C28_read (T_image.v) | composition of lookup and section read |
| C29 | Section life time | proved | C29_life_time, C29_no_ub, C29_not_while_used, C29_get_put (T_section.v) | invariant over operation histories |
| C30 | Section identifiers are stable and unique | proved | C30_identifiers, C30_stable (T_iscache.v) | refinement to a map that only grows |
| C31 | The section cache respects its memory limit | proved | C31_limit, C31_replacement (T_iscache.v) | accounting invariant and list specification of the LRU |
| C32 | No lock-order deadlock between sections and caches | proved | C32_no_deadlock, C32_completes, C32_no_misuse (T_locks.v) | lock ranking; progress for every schedule |
| C33 | Event decoding terminates and stays in the buffer | proved | C33_safe, C33_forward, C33_finite, C33_callback_refuted, C33_backward_refuted (T_evdec.v) | invariant over all calls; fuel bound from packet progress |
| C34 | Queries answer the control flow of the trace in order | proved | C34_safe, C34_unsynced, C34_queries, C34_same_events, C34_in_order, C34_complete, C34_backward_flags_refuted (T_query.v) | refinement to the list of events of an event decoder |
| C35 | Perf event records round trip | proved | C35_write_layout, C35_write_complete, C35_read_layout, C35_round_trip, C35_read_sound, C35_read_write, C35_write_unknown, C35_ambiguity_refuted, C35_unknown_samples_refuted (T_pevent.v) | layout specification and parser soundness by case split on sample bits |
| C36 | Time conversion between perf clock and TSC | proved | C36_to_tsc, C36_from_tsc, C36_from_tsc_monotonic, C36_to_tsc_monotonic, C36_there_and_back, C36_rejected, C36_time_zero, C36_overflow_refuted, C36_before_zero_refuted (T_pevent.v) | arithmetic with explicit quotient and remainder |
| C37 | Encoder writes the documented packet formats | proved | C37_wire_format (T_packet.v) | case split against the format table |
| C38 | Synchronisation terminates and stays inside the buffer | proved | C38_no_ub, C38_sync_set (T_sync.v) | termination measure of the search loops |
| C39 | Processor strings | proved | C39_cpu_parse, C39_cpu_parse_range, C39_trailing_slash_refuted (T_cpu.v) | character-wise parser against a grammar |
| C40 | Calibration computes the cycles-to-time ratio | proved | C40_uncalibrated, C40_cbr, C40_mtc, C40_tsc, C40_overflow (T_time.v) | arithmetic over packet histories |
| C41 | CYC packets interpolate time | proved | C41_cyc_after_tma, C41_cyc_after_mtc (T_time.v) | arithmetic over packet histories |
| C42 | Sections lie inside their file and read file bytes | proved | C42_truncated, C42_section_read (T_section.v) | offsets and truncation against the file |
| C43 | The decoder's section cache agrees with the image | proved | C43_hit, C43_fill, C43_fill_fails (T_image.v) | the cache holds what a lookup would give |
| C44 | Images neither leak nor lose section references | proved | C44_references (T_image.v) | counts of references over histories with failing allocation |
| C45 | Reading by section identifier returns the file's bytes | proved | C45_read (T_iscache.v) | composition of C42 with identifiers |
| C46 | The section cache neither leaks nor loses references and mappings | proved | C46_balance, C46_answers, C46_clear (T_iscache.v) | balance of references and mappings over histories |
| C47 | Shared counts and cache contents are free of data races | proved | C47_no_race, C47_one_writer, C47_iscache_refuted (T_locks.v) | every access is under the right lock, for every schedule |
| C48 | Perf event records are read and written inside their buffers | proved | C48_read_no_ub, C48_pointers_inside, C48_local, C48_write_no_ub, C48_shift_refuted (T_pevent.v) | guarded reads; pointers stay inside the record |
| C49 | No branch of the trace is lost, added or reordered by the event decoder | proved | C49_control_flow, C49_end, C49_tnt_size, C49_pending_refuted (T_evtrace.v) | trace relation preserved by every packet step |
| C50 | Events say what the packets say, at the right time and address | proved | C50_events (T_evtrace.v) | as C49, with times, addresses and payloads |
| C51 | Instruction decode recognises exactly the architecture's instruction texts | proved | C51_recognised, C51_only, C51_unique (T_ild.v) | grammar of instruction texts; the tables are walked symbolically |
| C52 | Instruction decode is safe and local on arbitrary bytes | proved | C52_safe, C52_overread, C52_overread_refuted, C52_local, C52_truncated, C52_rejected (T_ild.v) | bounds for every step of the decode |
| C53 | Decoding an instruction from an image finds the text in memory across sections | proved | C53_decode, C53_finds (T_insn.v) | pieces of memory assembled across sections |
| C54 | Contiguity of a range of instructions | proved | C54_next, C54_range (T_insn.v) | induction over the instructions of the range |
| C55 | The instruction flow decoder shows a flow that the trace describes | proved | C55_flow, C55_events, C55_backward_refuted (T_flow.v) | forward simulation to the flow relation |
| C56 | The instruction flow decoder shows the whole flow | proved | C56_whole (T_flow.v) | as C55, with completeness at the end of the trace |
| C57 | The events of a trace are a function of its packets | proved | C57_events (T_evfun.v) | refinement to a function on packet lists |
| C58 | Blocks and events stand for the flow that the trace describes | proved | C58_blocks, C58_tidy, C58_eos_refuted, C58_backward_refuted, C58_mode_refuted (T_blk.v) | forward simulation to the flow relation, with cache invariants |
| C59 | Sideband records are applied once and in the order of time | proved | C59_merge, C59_free, C59_watching (T_sb2.v) | invariant on a log of watched callbacks |
| C60 | Sideband process contexts are reference counted without error | proved | C60_references, C60_free, C60_path_refuted (T_sb.v) | reference invariant over all client calls |
| C61 | The time offset of a sideband channel does not wrap around | proved | C61_time, C61_wrap_refuted (T_sb.v) | 64-bit arithmetic |
| C62 | The session shows the address space that the sideband records and the trace events imply | proved | C62_shown (T_sb3.v) | an observer in lockstep with the callbacks; the relation between contexts and address spaces is an invariant of every callback (reference counts bound the number of references, so taking one never fails), carried through the session by the same induction as C60; erasing the observer gives the plain session |
| C63 | An image with a decoder's section cache is one fixed memory | proved | C63_memory, C63_steady, C63_balance, C63_image, C63_blocks, C63_flow (T_imgdec.v) | invariant on the section list up to permutation, use counts and the cached section; reads, lookups and forgetting preserve it and answer from the initial image |
| C64 | The block decoder and the instruction flow decoder show the same execution | proved | C64_agree, C64_near_refuted, C64_next_refuted, C64_cr3_refuted, C64_call_refuted (T_agree.v) | simulation between the two flow specifications (states outside of the documented divergences), and determinism of the instruction flow |
| C65 | The block decoder's loop shows all of the execution | proved | C65_whole, C65_sync (T_blkall.v) | each error the model returns is traced to a state from which no step of the flow specification leads on; determinism of the block flow |
| C66 | The size a user declares for a structure does not change what they get | proved | C66_given, C66_events, C66_taken, C66_round, C66_block, C66_insn, C66_packet, C66_packet_error, C66_tail_refuted, C66_lookup_refuted (T_user.v) | byte-wise specification of the copies; the decoders' results from the model of pt_insn_next() and pt_blk_next() |
| C67 | Block decoders that share sections do not get in each other's way | proved | C67_shared, C67_together, C67_whole (T_share.v) | invariant of the block caches through every call, also failing ones; rely-guarantee with arbitrary other decoders at each access; induction over schedules |
| C68 | No order of calls leads a flow decoder into undefined behaviour | proved | C68_insn, C68_blk, C68_library_insn, C68_library_blk (T_safe.v) | an invariant on decoder states that every call keeps, also when it fails; the number of instructions in a block bounds the loops; TNT events carry bits |
| C69 | An ELF file is loaded into the image as its program headers say | proved | C69_loads, C69_determined, C69_base, C69_refused, C69_image, C69_visible, C69_memory, C69_nothing_refuted, C69_stride_refuted (T_elf.v) | the headers are described by a relation on file contents; both loops by induction on the list of program headers; visibility by induction on the calls; memory through C63 |
| C70 | TRIG events are reported after exactly the instructions that they count | proved | C70_counted, C70_refused, C70_count, C70_events, C70_address, C70_anchors_refuted (T_trig.v) | what a successful call did, through the decode theorem C53; an invariant on the event in progress, by induction on the run; all events by cases |
| C71 | Blocks end exactly where a counted TRIG event is to be reported | proved | C71_block, C71_run, C71_event, C71_counted, C71_refused, C71_address_refuted, C71_off_refuted (T_trigblk.v) | what one step in a block did, through the decode theorem C53; the loop by induction on its fuel; blocks by induction on the sequence of calls |
| C72 | From written packets to the instructions and blocks that are shown | proved | C72_packets, C72_encoder, C72_written, C72_insns, C72_blocks (T_written.v) | composition of the packet round trip, the events of packets, and the flow theorems of both decoders, joined by the uniqueness of readings, event streams and first addresses |
| C73 | The time told by the query decoder is that of the last event it used | proved | C73_event, C73_queries, C73_overflow_refuted, C73_failed_refuted (T_timetold.v) | invariant over all packet types: waiting events have no time, the event handed out has the time of the event decoder; invariant of the query decoder that its pending event has that time, with the refinement of C34 |
| C74 | After pt_blk_event(), pt_blk_time() tells the time in the event | proved | C74_time, C74_ticks, C74_ratio, C74_none, C74_exact_refuted (T_blktime.v) | invariant that the pending event has the time of the decoder, kept by all calls; no TIP pending means the rest of pt_blk_event() leaves the clock alone |
| C75 | The block decoder gives an event only where it takes place | proved | C75_place, C75_early (T_evplace.v) | invariant of all parts of pt_blk_next() that a block keeps its beginning; case analysis of the switch of pt_blk_event() |

How the large pieces hang together:

* Packets: `S_packet.wire` is the packet format as a table.  The encoder writes it (C37),
  the packet decoder reads it back (C01, C02), stays inside the buffer (C04) and looks at
  nothing else (C06).
* Synchronisation: `S_sync.v` says what a PSB and a run of PSBs is; the aligned word
  search with masks finds the next one (C08-C11, C38), for every alignment.
* Event decoder: C33 gives safety and termination by an invariant over all calls.  C49,
  C50 relate the events to the packets of the trace through a trace specification
  (`S_evtrace.v`); C57 refines the whole decoder to a function on packet lists
  (`S_evfun.v`) that has no queue, no look-ahead and no re-entry.
* Query decoder: C34 refines it to the list of events of an event decoder on the same
  trace.
* Instruction decode: C51-C54 compare the table-driven length decoder and classifier with
  a grammar of instruction texts (`S_x86.v`) written from the manual.
* Instruction flow and block decoder: C55, C56, C58 refine the two decoders to one small
  step relation (`S_flow.v`, `S_blk.v`) that executes instructions from memory and takes
  decisions from the list of trace events.
* Images, sections, caches: refinement to partial maps and lists (C23-C31, C42-C46), lock
  skeletons for concurrency (C32, C47); C63 ties images to the memory that the decoders read.
* Perf events and sideband: byte layouts (C35, C48), time (C36, C61), sessions (C59),
  contexts (C60), the selected image (C62).

## 3. Trusted base

* Coq 8.16.1's kernel, including its virtual machine (`vm_compute` is used for finite
  tables and for examples).  `native_compute` is not used.
* `Print Assumptions` says "Closed under the global context" for every theorem listed in
  `MANIFEST.json` (250 theorems).  No axiom of the standard library is used by any of
  them.  `coqchk -o` lists seven constants `Coq.ssr.ssrunder.Under_rel.*` of the standard
  library, because standard library files that are required load `ssreflect`; no theorem
  depends on them.
* The hand translation of C to Gallina, function by function, as cited.
* The specifications `S_*.v` and the statements in `T_*.v` say what is meant.
* Facts about the environment that the model takes for granted:
  - the machine is little-endian, `int` has 32 bits, `long` and pointers have 64 bits, `char`
    has 8 bits and is signed;
  - memory is flat: comparing a pointer with, or computing it, a few bytes past the end of a
    buffer does not wrap and has no other effect (the C standard does not promise this);
  - a file does not change while it is mapped; the address at which the trace buffer starts is
    a parameter where alignment matters;
  - `strtol()` works as in the C locale; the constants of `<linux/perf_event.h>`, which is not
    in the repository, are those of the kernel; `FILENAME_MAX` is 4096;
  - mutex functions succeed and behave like mutexes; `malloc()` may fail whenever it likes;
  - callbacks do not call back into the library.

## 4. What is modelled

Modelled, all functions unless listed below:

| C file | model |
|---|---|
| libipt/src/pt_packet.c, pt_packet_decoder.c, pt_opcodes.h | M_packet.v, M_pktdec.v |
| libipt/src/pt_encoder.c | M_encoder.v |
| libipt/src/pt_sync.c | M_sync.v |
| libipt/src/pt_last_ip.c, pt_tnt_cache.c, pt_retstack.c | M_lastip.v, M_tnt.v, M_retstack.v |
| libipt/src/pt_asid.c, pt_config.c, pt_cpu.c | M_asid.v, M_config.v, M_cpu.v |
| libipt/src/pt_event_queue.c, struct pt_event | M_evq.v, M_event.v |
| libipt/src/pt_time.c | M_time.v |
| libipt/src/pt_event_decoder.c | M_evdec.v |
| libipt/src/pt_query_decoder.c | M_query.v |
| libipt/src/pt_ild.c, pti-*.h | M_ild.v, M_ildtab.v |
| libipt/src/pt_insn.c | M_insn.v |
| libipt/src/pt_insn_decoder.c | M_insndec.v |
| libipt/src/pt_block_cache.c | M_bcache.v, M_bcword.v |
| libipt/src/pt_block_decoder.c | M_blk.v |
| block caches shared by several decoders | M_share.v |
| pt_block_decoder.c: pt_blk_time(), pt_blk_core_bus_ratio() | M_blktime.v |
| sized structures given to the user (pt_insn_to_user(), block_to_user(), event_to_user()) | M_user.v |
| libipt/src/pt_section.c, pt_section_file.c, posix/pt_section_posix.c | M_section.v |
| libipt/src/pt_image.c, pt_msec_cache.c, pt_mapped_section.h | M_image.v |
| pt_insn_msec_lookup(), pt_blk_msec_lookup() | M_imgdec.v |
| libipt/src/pt_image_section_cache.c | M_iscache.v |
| locks of the last three | M_locks.v |
| ptxed/src/load_elf.c | M_elf.v |
| pevent/src/pevent.c | M_pevent.v |
| sideband/src/pt_sb_session.c | M_sb.v |
| sideband/src/pt_sb_context.c, pt_sb_pevent.c | M_sbpev.v |

Simplifications that matter for reading the theorems:

* `pt_pkt_decode_*()` and `pt_encode_*()`, one small function per packet type in C, are the
  branches of one match in the model.
* Decoder configurations are taken as already copied by `pt_config_from_user()` (itself C16).
  The configuration flags that a decoder passes to the decoder below it are part of the
  initial states.
* The instruction flow and block decoder read memory through an interface (`image_if`,
  `blk_image`): what `pt_image_read()` answers and what the section cache finds.  M_imgdec.v
  instantiates it with the image and the section cache of M_image.v, and C63 shows that they
  provide what C55, C56 and C58 ask for.  In the interface a read does not change the image; in the
  library it re-orders the image's list, which C63_steady shows not to be visible.
* M_image.v, M_iscache.v and M_section.v are sequential; interleavings are the subject of M_locks.v,
  which keeps locks and shared fields and lets every branch go either way.
* M_sbpev.v: images, the section cache and notifiers are oracles.  The text that printing writes
  is not modelled, whether printing fails is arbitrary.
* Block decoder: caches of sections may have any content that the block decoder itself could have
  written (`caches_ok`), and other decoders may change it before each access (`bi_others`, M_share.v:
  C67, C68).  Each access to an entry is one step.

* M_elf.v: the host is little-endian, a long has 64 bits, and `fread()` fails at the end of the file only.

Not modelled:

* allocation and freeing of decoders, encoders, images and caches as such
  (`pt_*_alloc_decoder`, `pt_*_free_decoder`, `*_fini`), trivial getters (`pt_*_get_image`,
  `pt_image_name`, `pt_insn_time`, ...), `pt_errstr()`, `pt_library_version()`;
* `libipt/src/windows`, `libipt/internal/include/windows`;
* printing of sideband records;
* the programs `ptdump`, `ptxed` (except for its ELF loader), `pttc`, `ptseg` and the unit test framework `ptunit`.

## 5. What the proofs found

Each item below was met while proving; a theorem in parentheses shows it by a run of the model,
the others were seen when reading the code.

Packets, synchronisation, configuration:

* The encoder accepts CYC values of 2^61 and more, and TNT packets without a bit, which the
  decoder rejects (C01_cyc_wide_refuted, C01_tnt_empty_refuted).
* The SKZ84 workaround may leave the position one byte past the end (C05_skz84_overrun_refuted);
  synchronising backward from there gives -pte_internal.  The SKD007 workaround moves by 3 while
  the packet says size 2.
* A decoder set to the very end of its buffer gets -pte_internal instead of -pte_eos from
  forward synchronisation (C09_at_end_refuted).
* `pt_sync_forward()` returns the last 16 bytes of a run of PSB bytes; `pt_sync_backward()` may return a
  PSB at or after the current position and then makes no progress (C11_backward_refuted).  Decoders
  that retry after a bad PSB+ then never return (C33_backward_refuted).
* An unknown-packet callback that answers size zero makes `pt_evt_next()` loop (C33_callback_refuted).
* `pt_filter_addr_ncfg()` is 8, so reserved words act as further ranges (C17_reserved_refuted).
* `pt_cpu_parse()` accepts "6/61/" (C39_trailing_slash_refuted).
* `pt_asid_from_user()` copies half of a field if the declared size ends inside it, and reads the size
  field itself even if less than 8 bytes are declared.
* `pt_retstack_pop()` documents -pte_noip but returns -pte_retstack_empty; `pt_encode_ip()` returns
  positive pte_internal for NULL.
* mtc_freq of 24 and more shifts by more than the width (C21_frequency_refuted).  A TSC packet does not
  reset the CTC value that corrects CYC packets (C19_tsc_alone_refuted).  `lost_mtc` is always zero
  (C19_lost_mtc).  `pt_tcal_update_psb()` is never called, so the SKL168 workaround is never active.

Event and query decoder:

* Only `pt_evt_next()` clears the part of an event structure that only the user knows (C66_tail_refuted).
  When the section lookup fails, `pt_insn_next()` gives the instruction's address only to users whose
  structure has the library's size (C66_lookup_refuted).
* `pt_evq_clear()` followed by an enqueue may overwrite the event that the user still looks at
  (C18_clear_refuted).
* `pt_evt_decode_tip_event()` drops a branch with -pte_internal on a trace of good packets
  (C49_pending_refuted).
* `pt_evt_decode_tip_pgd()` has no case for events that are to be ignored and does not check that tracing is
  enabled.  EXSTOP with an IP takes only the first waiting MWAIT, without IP it takes all.
* After OVF the status stays -pte_nosync and a later SKZ84 invalid packet gives a spurious -pte_nosync.
  The APL12 workaround returns -pte_internal on unknown and invalid packets.  The SKD010 and APL11 workarounds skip
  the last-IP update of the TIP.PGD that they find.
* After an error inside PSB+, the next call decodes the offending packet as if outside of PSB+.
* A FUP with suppressed IP after OVF enables tracing although the event says that the IP is suppressed.
* `pt_qry_sync_backward()` returns 0 instead of status flags (C34_backward_flags_refuted), and so do the instruction
  flow and the block decoder, which then miss the events of the synchronisation point
  (C55_backward_refuted, C58_backward_refuted).
* Status flags announce an event when an error other than -pte_eos is deferred.

Instruction decode, instruction flow and block decoder:

* `prefix_rex2()` reads the opcode without checking that there is one and so may read past the instruction text
  (C52_overread, C52_overread_refuted).
* 0F C7 /6 with prefix 66 or F3 is classified as VMPTRLD, 0F 01 EC as UIRET without F3.  3DNow! has a wrong length.
  C7 /7 with a memory operand gets a displacement that it does not have.
* After -pte_eos at a conditional branch the instruction decoder's IP is already at the next instruction.  While an
  instruction is postponed, `pt_insn_next()` returns it twice.  An event that was fetched but never reached is lost
  at -pte_eos.  A TIP may overtake cached TNT bits.  A return ignores every error of the conditional query.
  `pt_insn_reset()` does not invalidate the section cache.  `pt_insn_update_trig()` may change a TRIG event
  with suppressed IP when the IP is 0.
* The decoders count the instructions of a TRIG packet from different places: the block decoder also from PTWRITE,
  IRET, VM entry, UIRET and asynchronous paging events with an address, the instruction flow decoder does not.  The same trace is
  reported differently, or is an error for one of them (C70_anchors_refuted).
* An overflow event carries the time of the OVF packet, `pt_qry_time()` then gives the time at the FUP behind it
  (C73_overflow_refuted).  A failing `pt_qry_cond_branch()` leaves the time of the next, unused event
  (C73_failed_refuted).  By reading only: `pt_blk_time()` never returns -pte_no_time, `pt_blk_core_bus_ratio()` never
  -pte_no_cbr, and `pt_blk_time()` rejects NULL for the numbers of lost packets, all unlike doc/man/pt_qry_time.3.md.
* After `pt_blk_event()`, `pt_blk_time()` may already tell the time of the TIP that follows the event
  (C74_exact_refuted).
* A TRIG event with an address of its own that is not reached yet makes the block decoder fail with
  `-pte_bad_packet` if it follows another event (pt_block_decoder.c:3792-3820); the instruction flow decoder, and
  the block decoder's own `pt_blk_proceed_to_trig()`, proceed to the address (C71_address_refuted).  While tracing
  is disabled a TRIG event with a count is an error in the instruction flow decoder and is reported with address
  zero by the block decoder (C71_off_refuted).  The check for that case in `pt_blk_proceed_to_trig()`
  (pt_block_decoder.c:1569-1575) is inverted: it fails if the count is zero.
* At the end of the trace `pt_blk_next()` returns -pte_bad_query instead of -pte_eos at a branch that needs trace
  (C58_eos_refuted).  Block caches do not remember the execution mode they were filled in (C58_mode_refuted).
* A section of 4 GB or more: the first `pt_blk_next()` fails with -pte_not_supported, the next one goes on
  without cache.  An event with IP that follows an event without IP on the same instruction does not bind.
  Proceeding past a postponed branch that takes the last TNT bit does not fetch the next event.
  `pt_blk_set_image()` and `pt_blk_reset()` do not invalidate the section cache.

* The block decoder and the instruction flow decoder go different ways where tracing ends: without address at a near
  branch (C64_near_refuted), at an address between two instructions (C64_next_refuted), with a write to CR3
  (C64_cr3_refuted), and with a call, which only the block decoder remembers (C64_call_refuted).

Images, sections, caches:

* A section for one cr3 added over a section for all address spaces hides it from all of them
  (C24_most_recent_refuted).  A section that ends at 2^64 is never found (C24_end_refuted).
* `pt_image_copy()` ignores that entries were split (C26_copy_refuted).  Removal counts fragments
  (C27_count_refuted).  Adding an empty section splits others.
* `pt_image_add_cached()` leaks a reference to the section if `pt_asid_from_user()` fails.
* `pt_iscache_lru_remove()` does not decrease the used size, which later gives -pte_internal from pruning; any failing
  `pt_iscache_add()` drops the whole LRU list.  Capacity is 65528 entries at most.
* `pt_section_on_map()` reads the attached cache without lock (C47_iscache_refuted).

* ptxed's `load_elf()` ignores the declared size of program headers (C69_stride_refuted) and the declared byte order; without
  a base, a file whose program headers are cut off is refused after some segments were added
  (C69_nothing_refuted).

Perf events and sideband:

* Records without identifier are ambiguous, unknown sample bits are read but not written
  (C35_ambiguity_refuted, C35_unknown_samples_refuted).  Time conversion overflows silently and wraps
  before time_zero (C36_overflow_refuted, C36_before_zero_refuted); time_shift of 64 and more is
  undefined (C48_shift_refuted).
* `pt_sb_alloc_pevent_decoder()` frees its private data twice if a configured path is too long or copying it fails
  (C60_path_refuted).  If `pt_sb_alloc_decoder()` fails, the copied paths are leaked.
* A negative tsc_offset can wrap around (C61_wrap_refuted).
* `pt_sb_dump()` moves a decoder that reached its end to the removed ones, so it sees no further event.
* Errors when applying a record are swallowed without a notifier.  A fetch error other than -pte_eos loses a
  pending context switch.  `snprintf()` truncation with a long sysroot is not noticed, so a wrong file may be used.
* fork copies the parent's image with `pt_image_copy()`, with the flaw named above.
