# Formal model of verilog-pcie: design

The plan was written before the proofs; the sections below are updated as the model grows.  The
code in `/repo` is read as text only; it is never executed here.

## Approach

* Python functions become total Gallina functions over `Z` and `list Z` that
  mirror the source branch by branch.  Python integers are unbounded, so `Z`
  with `Z.land/lor/shiftl/shiftr` is the exact semantics of Python bit
  operators (including negative numbers).
* Exceptions are values of `result A := Ok a | Err e` (file `PyBase.v`).
* Generators / coroutines driven by a clock become `step` functions of a state
  and the inputs sampled at that clock edge; a run is a fold over an arbitrary
  input list, so "every schedule" is "every list of inputs".
* Verilog modules become `step` functions of the register file; combinational
  blocks become ordinary functions.  Register widths are modelled by explicit
  `mod 2^w` where the width is observable.
* Model files (`*Model.v`) contain definitions only; each cites file and lines.
  Specs are in `*Spec.v` or in a short header of the property file, and do not
  use model helpers.  Lemmas are in `*Proofs.v`.  Property theorems are in
  `Props*.v`: only `Theorem .. exact ..`, an `Example` for non-vacuity, and
  `Print Assumptions`.



## Properties

### C01 Byte-masked register update touches exactly the selected bytes

Status: **proved**. Theorems: `C01_byte_mask_update`.

Modelled: `byte_mask_update` with its loop. Proved by induction on the loop and bit extensionality; the spec speaks of single bits only.

### C02 PCIe ID integer codec is a bijection

Status: **proved**. Theorems: `C02_pcie_id_roundtrip`.

Modelled: `PcieId` conversions. Proved by bit lemmas for all triples in range and all 16-bit integers.

### C03 Byte enables select exactly the requested byte range

Status: **proved**. Theorems: `C03_set_be_selects_range`.

Modelled: `TLP.set_be`. Spec: the set of byte addresses in the half-open range.

### C04 Write payload carries each data byte on its own byte lane

Status: **proved**. Theorems: `C04_set_be_data_payload`.

Modelled: `TLP.set_be_data`. Spec: each payload byte lane is the data byte of its address, or zero.

### C05 Completion lower address points at the first requested byte

Status: **partial**. Theorems: `C05_lower_address_refuted`, `C05_lower_address_partial`.

REFUTED: address & 0x7c + offset parses as address & (0x7c+offset), so the byte offset is lost. Partial: exact value, and it is right iff the first byte is DWORD aligned.

Modelled: `get_lower_address` with Python's operator precedence.

### C06 TLP header packing is lossless

Status: **partial**. Theorems: `C06_completion_roundtrip_partial`, `C06_request_roundtrip_refuted`, `C06_read_unpack_raises`, `C06_config_loses_register`.

REFUTED for requests (unpack reads the address from the wrong word and shifts the register number by 0x3ff). Proved for all completions; for all reads unpack raises; for all configuration requests only the register number is lost.

Modelled: `TLP.pack`/`unpack` word by word. Spec: structural equality of the TLP records.

### C07 Endpoint DMA writes are legal and lossless

Status: **proved**. Theorems: `C07_function_mem_write`.

Modelled: `Function.mem_write` split loop. Induction on the remaining bytes; semantics of a write TLP is a memory update per enabled byte.

### C08 Root complex memory writes are legal and lossless

Status: **proved**. Theorems: `C08_rc_mem_write`, `C08_rc_local_write`.

As C07 for `RootComplex.mem_write`, plus the path into a local region.

### C09 Root complex memory read requests are legal and cover the range

Status: **proved**. Theorems: `C09_rc_mem_read`, `C09_rc_local_read`.

Modelled: `RootComplex.mem_read` including the reassembly of completions.

### C10 Endpoint DMA read requests are legal and cover the range

Status: **partial**. Theorems: `C10_function_mem_read_refuted`, `C10_function_mem_read_raises`, `C10_function_mem_read_partial`.

REFUTED: byte enables of every request are computed from the whole length (pcie.py:1999); every read needing more than one request raises AssertionError. Reads that fit one request are proved correct.

Modelled: `Function.mem_read`.

### C11 Read completions partition the request

Status: **proved**. Theorems: `C11_endpoint_completions`, `C11_rc_completions`, `C11_zero_length_read`.

Modelled: completion split loops of endpoint and root complex. Induction on the remaining DWORDs; spec: the concatenation of payloads, no completion crosses the read completion boundary, byte counts decrease correctly.

### C12 A memory write TLP changes exactly its enabled bytes

Status: **partial**. Theorems: `C12_endpoint_write_partial`, `C12_endpoint_write_refuted`, `C12_rc_write`.

REFUTED for endpoint writes inside the BAR window but past the end of a region whose size is not a power of two (the bytearray grows). Proved for every byte-enable pattern when the DWORDs lie inside the region; proved for the root complex's mmap regions.

Modelled: the byte-enable run writer of the memory write handlers. Refinement to 'for each enabled lane'.

### C13 Root-complex write then read through an endpoint is a memory

Status: **proved**. Theorems: `C13_rc_endpoint_memory`, `C13_window_of_layout`.

Composition of C08, C09, C11, C12: root complex write then read through an endpoint memory behaves as a byte memory, for every history.

### C14 BAR decode matches exactly the programmed window

Status: **partial**. Theorems: `C14_match_bar_refuted`, `C14_match_bar_partial`, `C14_match_bar_exact`, `C14_programming`, `C14_large_bar_never_matches`.

REFUTED: a 32-bit or I/O BAR ignores address bits 32 and up; a 64-bit BAR above 2 GiB never matches. Proved after every history of BAR register writes for addresses below 4 GiB (or layouts of 64-bit BARs only).

Modelled: BAR registers, `configure_bar`, `match_bar`. Spec: layouts as lists of BAR entries with window [base, base+2^k).

### C15 BAR sizing by probing reports the configured size

Status: **partial**. Theorems: `C15_configure_partial`, `C15_configure_refuses`, `C15_sizing_partial`.

Proved for every BAR kind up to 2 GiB; larger 64-bit BARs are broken (C14_large_bar_never_matches).

Modelled: the sizing protocol (write all ones, read back).

### C16 Capability registers never overlap

Status: **partial**. Theorems: `C16_no_overlap_refuted`, `C16_overlap_partial`, `C16_explicit_partial`, `C16_auto_placement_partial`.

REFUTED: the automatic-placement scan compares with < where <= is needed. Proved: any sequence of registrations shares at most one end register per pair; automatic placement of distinct capabilities of 2+ registers never overlaps and packs them.

Modelled: `PcieCapList` registration. Invariant over the registration list.

### C17 Capability list walk visits every capability exactly once

Status: **partial**. Theorems: `C17_walk_partial`, `C17_auto_walk_partial`, `C17_single_capability_raises`, `C17_walk_refuted`.

REFUTED: a list with one capability has next pointer None and its header raises; placements past register 63 wrap. Proved for every non-overlapping list of two or more inside the legacy space, and on inputs alone for automatic placement.

Modelled: header next pointers and the walk.

### C18 Extended capabilities are reachable through configuration reads

Status: **partial**. Theorems: `C18_ext_default_refuted`, `C18_ext_hidden`, `C18_ext_visible_partial`.

REFUTED: extended capabilities start at register 0x40 but reads are routed to them only from register 256.

Modelled: extended capability list and the register routing of `Function`.

### C19 Writable configuration fields read back

Status: **partial**. Theorems: `C19_pcie_writes_partial`, `C19_pcie_bad_bits`, `C19_pcie_writes_refuted`, `C19_pcie_write_raises`, `C19_header_writes_partial`, `C19_interrupt_pin_refuted`, `C19_msi_writes`, `C19_msix_writes`.

REFUTED for six bits of the PCI Express capability (read completion boundary/link disable, two read-only status bits, selectable de-emphasis, link equalization request) and the interrupt pin; proved for every other bit of every register after every history of writes; MSI and MSI-X proved in full.

Modelled: configuration header, PCI Express, MSI, MSI-X register write handlers. Spec: per-bit attribute table (RO/RW/W1C), `regfile_history` over any sequence of writes.

### C20 Memory region allocation never overlaps

Status: **partial**. Theorems: `C20_alloc_refuted`, `C20_alloc_any_partial`, `C20_alloc_partial`, `C20_alloc_io_partial`.

REFUTED: the allocator's limit is the last byte of a region, so an odd-sized region can share its last byte with the next one (sizes 5, 4). Proved: any sequence of sizes is aligned and overlaps in at most one byte per pair; sequences of even sizes are disjoint and looked up correctly.

Modelled: the two region allocators and region lookup. Invariant over the request history.

### C21 Bus enumeration allocates disjoint, contained BAR windows

Status: **partial**. Theorems: `C21_windows_refuted`, `C21_windows_partial`.

REFUTED when memory space runs past 4 GiB (64-bit non-prefetchable BARs): bridge windows hold 32 bits only and the BARs fall outside them. Proved for every finite tree whose allocation still fits the window registers.

Modelled: `enumerate_segment` on an arbitrary finite tree of functions, through the configuration write path (byte enables, BAR registers, bridge registers). Proof by induction on the recursion depth with a chain invariant over the claimed windows.

### C22 Bus numbers are unique and nested

Status: **proved**. Theorems: `C22_bus_numbers`.

Same model as C21; no premise on address space.

### C23 Bridge forwards a request exactly when its window covers it

Status: **partial**. Theorems: `C23_unsupported_request_refuted`, `C23_bridge_partial`, `C23_switch_partial`, `C23_first_claim`, `C23_broadcast`, `C23_id_message_refuted`.

REFUTED in two places: a bridge drops unclaimed requests without an unsupported request completion, and a switch routes ID messages by the requester's bus. Forwarding of every packet on both sides of a bridge, and routing on a switch's internal bus for all other kinds, proved exactly.

Modelled: `Bridge.upstream_recv`, `Bridge.downstream_recv`, `SwitchUpstreamPort.route_downstream_tlp`. Spec: packet kinds by PCIe type codes and 'where does it belong'.

### C24 MSI delivers the message the host programmed

Status: **proved**. Theorems: `C24_msi_message`, `C24_msi_rejected`, `C24_msi_delivery`.

Modelled: MSI capability and `issue_msi_interrupt` with the delivered write.

### C25 UltraScale completer-request descriptor codec is lossless

Status: **proved**. Theorems: `C25_cq_layout`, `C25_cq_roundtrip`.

Frame contents computed as sums of fields (`lor_sum`), each field recovered by division and remainder; `carried_cq` states what the interface carries (target function only, format by address).

### C26 UltraScale completer-completion and requester-completion codecs are lossless

Status: **proved**. Theorems: `C26_cc_layout`, `C26_cc_roundtrip`, `C26_rc_layout`, `C26_rc_roundtrip`.

As C25 for the CC and RC descriptors (locked bit, error code, lower address of 7 and 12 bits).

### C27 UltraScale requester-request descriptor codec is lossless

Status: **proved**. Theorems: `C27_rq_layout`, `C27_rq_roundtrip`.

As C25, for memory, I/O and configuration requests.

### C28 UltraScale stream endpoints transport frames losslessly under any back-pressure

Status: **partial**. Theorems: `C28_stream_safe`, `C28_stream_complete`, `C28_stream_progress`, `C28_cq_end_to_end`, `C28_rq_end_to_end`, `C28_cc_end_to_end`, `C28_rc_end_to_end`, `C28_empty_frame_refuted`, `C28_sink_reset_refuted`.

REFUTED for a frame without data (silently dropped) and across a reset of the sink alone (a transfer is taken twice); proved for all sequences of non-empty frames, all widths, all pause schedules, without resets, with progress, and end to end with the descriptors.

Modelled: the eight `create_logic` generators, edge by edge. The side-band word is a list of disjoint fields; one transfer is inverted by the sink (`load_take`); an invariant with four phases (idle, middle, last, next frame already popped) is kept by every edge (`edge_ok`), with a measure that falls at every unpaused edge.

### C29 Equal frames compare equal

Status: **partial**. Theorems: `C29_frame_eq_refuted`, `C29_frame_eq_never`.

REFUTED: USPcieFrame.__eq__ tests isinstance(other, TLP_us), so a frame is never equal to anything; compared with a TLP of equal data it raises AttributeError.

`USPcieFrame.__eq__` modelled with its argument kinds; refuted on every frame.

### C30 Non-posted requests are delivered in order under credit flow control

Status: **proved**. Theorems: `C30_credits`, `C30_no_passing`, `C30_posted_at_once`.

Modelled: the credit counter and the two queues of the `logic` generator, edge by edge. Invariant over the trace: a waiting request implies no credit, so new requests never overtake waiting ones.

### C31 Segmented RAM master writes exactly the requested bytes

Status: **partial**. Theorems: `C31_in_order_partial`, `C31_stores_exactly_partial`, `C31_refuses_outside`, `C31_wraps_refuted`.

REFUTED as stated for byte-lane counts that are not a power of two: the accepted address range is larger than the segments, and an accepted write past them lands at a wrapped address (C31_wraps_refuted). Proved for every geometry, every list of writes inside the segments, every interleaving with paused and unpaused clock edges: no exception, in-order completion, and exactly the memory of a plain byte store. For power-of-two byte lanes every other write is refused (C31_refuses_outside), so nothing is missing there. Resets are not modelled.

`PsdpModel.v` models `PsdpRamMasterWrite` (splitting, per-segment queues, bus, completion) and `PsdpRamWrite` (byte-enable runs, done). Per segment, the operations executed, on the bus and queued are the operations of all writes in order; a byte belongs to one lane of one segment, so its value depends only on that order. A measure on queue and bus gives completion.

### C32 Segmented RAM master reads return the stored bytes

Status: **partial**. Theorems: `C32_in_order_partial`, `C32_returns_stored_partial`, `C32_refuses_outside`, `C32_wraps_refuted`.

REFUTED as stated for byte-lane counts that are not a power of two: an accepted read past the segments returns the bytes of a wrapped address (C32_wraps_refuted). Proved for every geometry, every list of reads inside the segments and every pause pattern: no exception, reads complete in order with exactly the stored bytes. For power-of-two byte lanes every other read is refused (C32_refuses_outside). The memory is constant during the reads; resets are not modelled.

`PsdpRamMasterRead` and `PsdpRamRead`. Per segment, the words received, on the bus, in the pipeline, in flight and queued are the words the pending commands still need; reassembly is an invariant on the next word index. A weighted measure gives completion.

### C33 AXI master write bursts are legal and lossless

Status: **partial**. Theorems: `C33_bursts_partial`, `C33_memory_partial`, `C33_completes_partial`, `C33_write_order_partial`, `C33_no_awid_refuted`, `C33_float_refuted`.

REFUTED as stated: with awid not connected the first write raises AttributeError (C33_no_awid_refuted), and addresses above 2^53 are rounded by the float division (C33_float_refuted). Strongest true restriction proved, for every lane count, memory size, max_burst_len, transfer size, list of writes and reads in flight together, every pause pattern on all ten channel ends and both orders of the RAM processes, with addresses up to 2^52 and awid connected: legal INCR bursts inside 4 KiB, one strobed beat per burst address storing exactly the bytes, memory equal to the writes in order, answered writes stored, no exception, everything completes.

x_write mirrors the write splitting loop, x_edge all processes of AXIMaster and AXIRam for one clock edge with pause inputs for each end of the five channels and the order of the two RAM processes. Spec (AxiSpec): `legal` bursts, burst addresses, bytes of a strobed beat, and the byte memory of AxilSpec. Loop invariant of x_wloop relates each beat to its burst address; the run invariant xwinv says stored beats + burst in progress + queued bursts and beats = beats of all commands (grouped by command), and counts responses. A measure decreases on each free edge.

### C34 AXI master reads return memory contents

Status: **partial**. Theorems: `C34_bursts_partial`, `C34_memory_partial`, `C34_read_order_partial`, `C34_reads_partial`, `C34_buser_refuted`, `C34_float_refuted`.

REFUTED as stated: with buser but not ruser connected every read raises TypeError (C34_buser_refuted), and addresses above 2^53 are rounded (C34_float_refuted). Strongest true restriction proved: reads are answered in order with exactly the stored bytes; a read overlapping writes sees each byte as of some moment of those writes.

x_read, x_rlogic (bursts executed by the RAM), x_rresp (re-assembly by rid). Invariant xrinv: data collected + queued beats + R register + beats of bursts still to be served = what the pending commands wait for; each beat was read at some moment of the writes (beat_is), which the write invariant provides (wmoment).

### C35 AXI-Lite master write/read behaves as a byte memory

Status: **partial**. Theorems: `C35_memory_partial`, `C35_completes_partial`, `C35_write_order_partial`, `C35_read_order_partial`, `C35_concurrent_refuted`, `C35_zero_read_refuted`, `C35_float_refuted`.

REFUTED as stated: a read in flight together with a write moves the shared mmap position, so the write data lands at the address after the read (C35_concurrent_refuted, for either process order); an empty aligned read leaves an orphan address on the bus and shifts the answers of later reads (C35_zero_read_refuted); word addresses go through a float division and are wrong from 2^53 words on (C35_float_refuted). Proved for every power-of-two number of byte lanes up to 128, every memory size that is a multiple of it, every latency, either process order, and every sequence of batches (a batch: any number of writes, or any number of non-empty reads, of any address and length up to 2^52, interleaved with clock edges in any way; the next batch starts when the master is idle): no exception, every batch completes, the memory is that of a plain byte store, reads return the stored bytes, answers come in order, and inside a batch an answered write is in memory. Reset is not modelled.

l_edge mirrors all processes of AXILiteMaster and AXILiteRam for one clock edge, with the shared mmap position and with the order of the two RAM processes as a parameter; a run interleaves init_write, init_read and edges. The spec (AxilSpec) is a wrapping byte memory with single-byte stores. Write invariant (winv): words stored + words still in queues and registers = words of all commands, responses outstanding + words to do = responses the pending commands wait for. Read invariant (rinv): response values + R register + latency address + queued addresses, mapped through the memory = words the pending reads wait for. A measure decreases on each edge until idle. Batches compose from idle to idle.

### C36 AXI-Stream frames round-trip

Status: **partial**. Theorems: `C36_roundtrip_partial`, `C36_keep_refuted`, `C36_empty_refuted`.

REFUTED as stated for a frame with an explicit keep that masks data and for the empty frame. Proved for every non-empty frame of words of any width on any number of lanes, without keep or with the keep that covers the data: the beats are re-assembled to the same data, keep, id, dest and user. The mode with several tdata signals (B > 0) is not modelled.

AxisModel.v mirrors AXIStreamFrame.build/parse for one tdata signal; AxisSpec.v states what must arrive (same words, side-band values per beat, keep). AxisProofs.v packs/unpacks lanes by induction on the remaining lanes and beats.

### C37 AXI-Stream source to sink is a lossless FIFO under any back-pressure

Status: **partial**. Theorems: `C37_in_order_partial`, `C37_completes_partial`, `C37_keep_refuted`.

REFUTED for a frame with a keep list of its own that is not contiguous (the sink asserts). Proved for every sequence of non-empty frames whose keep, if given, covers the data and whose list fields have one entry per beat, any interleaving of sends with clock edges and any pause pattern of both sides: no exception, frames arrive complete, once and in order, and all arrive once clocks run without pause. Reset is not modelled.

src_edge and snk_edge mirror the two clocked processes; the run interleaves sends and clock edges with arbitrary pause values. Invariant: beats collected + beat on the bus + rest of the frame + queued frames = beats of the frames not yet received; a measure decreases on every unpaused clock.

### C38 TLP interface frame codec preserves the TLP

Status: **partial**. Theorems: `C38_roundtrip`, `C38_roundtrip_forced`, `C38_roundtrip_io`, `C38_widened_partial`, `C38_forced_refuted`.

REFUTED for forced 32-bit memory and atomic requests: they come back as the 64-bit type with the same address (C38_widened_partial is the strongest true statement); exact round trip for all other types.

Modelled: from_tlp, to_tlp and parity on packed header bytes (pack_header/unpack_header of cocotbext.pcie are the byte list). Case analysis on the packet type.

### C39 TLP interface source/sink is a lossless FIFO of frames

Status: **partial**. Theorems: `C39_in_order`, `C39_complete`, `C39_carried`, `C39_abort_refuted`.

REFUTED as stated for one field: a frame's tlp_abort flag is neither driven by the source nor read by the sink, so a received frame can differ from the sent one (C39_abort_refuted). Everything else is proved for every number of segments, lanes, set of optional signals, history, process schedule and backpressure pattern: no sink assertion fails, frames arrive in order, each once (C39_in_order), and all arrive once the interface is not held (C39_complete). No reset.

Bit-field algebra (extract after or-in) reduces transactions to lists of segment contents; the segment stream of the sent frames is an invariant of source, bus and sink; a measure on the pipeline gives completeness.

### C40 Outstanding tags are never reused

Status: **partial**. Theorems: `C40_tags`, `C40_get_free_tag_refuted`, `C40_get_free_tag_partial`.

Proved for alloc_tag/release_tag of tb/pcie_if.py; REFUTED for get_free_tag of tb/pcie.py, where only tag_count consecutive tags are distinct.

Modelled: alloc_tag, release_tag, get_free_tag. Invariant over any call history: the active flags are the outstanding set; residues show the search visits all tags.

### C41 Priority encoder reports the highest-priority set bit

Status: **proved**. Theorems: `C41_priority_encoder`.

Modelled: the generate loops as packed vectors with slices, for any width. Induction over the levels: each slice holds the winner of its block of input bits.

### C42 Arbiter grants at most one requester, and only requesters

Status: **proved**. Theorems: `C42_one_hot`, `C42_only_requesters`.

Modelled: `arbiter.v` with its two encoders, one clock per step. Invariant: valid, encoded and one-hot grant agree; the mask lets through the ports after the last granted.

### C43 Round-robin arbiter does not starve

Status: **proved**. Theorems: `C43_no_starvation`, `C43_within_ports_clocks`.

A distance from the mask position to the requesting port decreases at every grant to another port.

### C44 Blocking arbiter holds its grant

Status: **proved**. Theorems: `C44_grant_held`.

The hold condition in terms of the granted port, then induction.

### C45 Pulse merger conserves pulses

Status: **proved**. Theorems: `C45_conservation`, `C45_overflow_refuted`.

The property assumes no counter overflow; the second theorem shows the assumption is needed.

Modelled: counter and pulse register with truncation. Induction over the clocks against an unbounded backlog.

### C46 Capability register fields sit at their specified positions

Status: **partial**. Theorems: `C46_pcie_layout_partial`, `C46_link_capabilities_refuted`.

REFUTED for Link Capabilities (fields shifted right instead of left); proved for all other registers and bits.

Modelled: `read_pcie_cap_register`. Spec: table of (register, field, position, width) from the PCIe specification.

### C47 Requests reach the function that owns the address

Status: **partial**. Theorems: `C47_delivery_refuted`, `C47_delivery_partial`.

REFUTED: a 32-bit BAR aliases 64-bit prefetchable addresses with the same low half. Proved for every tree and every address not aliased.

Composition of C21 with the routing functions of C23 down the enumerated tree.

### C48 Byte parity detects corrupted frames

Status: **proved**. Theorems: `C48_parity_check`, `C48_unpack_checks`.

Parity folding compared bit by bit with a count of ones per byte.

### C49 Requester completion byte enables select the delivered bytes

Status: **proved**. Theorems: `C49_rc_byte_lanes`.

Case split over first, middle, last DWORD and the four offsets.

### C50 A device dispatches every TLP to the right function or answers it

Status: **proved**. Theorems: `C50_device_dispatch`, `C50_us_dispatch`, `C51_us_request`.

Modelled: `Device.upstream_recv` and `UltrascalePCIe.upstream_recv` branch by branch over functions with BAR registers. Spec: TLP kinds by code, BAR windows by layout (C14).

### C51 The UltraScale core tags completer requests correctly

Status: **partial**. Theorems: `C51_us_request`, `C51_aperture_refuted`.

REFUTED: the aperture is always read from the first function's BAR registers; proved when all functions have BARs of the same kinds and sizes (BAR index and completer ID too).

As C50; the aperture is computed from the mask registers (`aperture32_ok`, `aperture64_ok`).

### C52 The UltraScale core forwards requester requests in order and only for bus masters

Status: **partial**. Theorems: `C52_requester`, `C52_sequence_drains`, `C52_bus_master_refuted`, `C52_index_refuted`.

REFUTED for function numbers with gaps: the function list is indexed by function number, so another function's bus master enable is tested or IndexError is raised; proved for numbers 0, 1, 2, ...

Modelled: the RQ and sequence number parts of `logic`. Induction over edges.

### C53 Completions with an error status are reported with an error code

Status: **partial**. Theorems: `C53_error_code_refuted`, `C53_error_code_always_normal`.

REFUTED: the code assigns attribute `error` instead of `error_code`; every completion is reported as normal termination.

Modelled as written: nothing reads the attribute assigned.

### C54 TLP.check accepts exactly well-formed TLPs

Status: **partial**. Theorems: `C54_check_exact`, `C54_memory_length`, `C54_length_range_refuted`.

REFUTED for the length range (`0 > length > 1024` is never true); the check is proved equivalent to the remaining conditions.

`tlp_check` compared with four separate conditions.

### C55 Function numbers are distinct and allocated smallest first

Status: **proved**. Theorems: `C55_function_numbers`, `C55_append_smallest`.

Modelled: sorting, gap search, multi-function bit. Invariant over the calls (sorted, distinct, below 8); pigeonhole for the bound.

### C56 Per-function status outputs show each function's own state

Status: **partial**. Theorems: `C56_status_outputs`, `C56_rcb_refuted`.

REFUTED for cfg_rcb_status (bit 1 shows function 0); proved for the other outputs.

Each output compared with a field per function.

### C57 Copying a TLP preserves it

Status: **partial**. Theorems: `C57_copy`, `C57_copy_refuted`.

REFUTED: `th` is not copied; proved for TLPs without processing hint.

`tlp_copy` against equality.

### C58 DMA memory writes of the interface test device are legal and store the data

Status: **proved**. Theorems: `C58_dma_mem_write`, `C58_zero_length`.

The TLP list equals that of the C07 splitting loop.

### C59 DMA memory reads of the interface test device return the memory contents

Status: **proved**. Theorems: `C59_dma_mem_read`, `C59_zero_length`, `C59_device_to_device`.

perform_nonposted_operation as a function of the completions arriving; its result is the whole legal series; then as C08. Response matching by tag relies on C40.

### C60 Frame parity is correct and detects single-bit errors

Status: **proved**. Theorems: `C60_parity_values`, `C60_parity_detects`.

Bit-level: every parity bit is the xor of its byte; inverting one bit changes exactly one.

### C61 The interface device routes TLPs to the addressed function

Status: **partial**. Theorems: `C61_request_bar`, `C61_unclaimed`, `C61_config`, `C61_completion`, `C61_func_num_refuted`.

REFUTED for the function number of requests: it is the requester's. Everything else proved.

upstream_recv with the functions' match_bar as arguments.

### C62 MSI capability advertises the configured vector count

Status: **partial**. Theorems: `C62_msi_count_partial`, `C62_msi_count_refuted`.

REFUTED for functions 2 and 3 (count-2 and count-3); proved for functions 0 and 1.

bit_length against the least sufficient power of two.

### C63 Request handlers of the interface test device read and write the addressed region

Status: **proved**. Theorems: `C63_mem_read`, `C63_mem_write`, `C63_io_read`, `C63_io_write`.

The four branches of the receive loop; the byte-enable scans are those of C11.

### C64 DMA I/O operations of the interface test device

Status: **proved**. Theorems: `C64_dma_io_read`, `C64_dma_io_write`, `C64_write_error`, `C64_device_completer`.

Induction over the chunks; for reads the surplus bytes of the last DWORD are cut at the end.

### C65 MSI messages of the interface test device

Status: **proved**. Theorems: `C65_msi`, `C65_msi_unaligned`.

Instance of C58.

### C66 A received AXI-Stream frame compares equal to the frame sent

Status: **partial**. Theorems: `C66_received_equal_partial`, `C66_zero_last_user_refuted`, `C66_user_list_refuted`.

REFUTED for last_cycle_user = 0 and for a user list whose last entry differs from last_cycle_user. Proved for frames without last_cycle_user, and for non-zero last_cycle_user with user None or int.

af_eqb mirrors __eq__; compared with the arrives relation of C36.

### C67 Configuration accesses over TLPs read and write the registers

Status: **proved**. Theorems: `C67_config_read`, `C67_config_read_failed`, `C67_config_write`, `C67_config_write_dword`.

The register file and its read/write functions are arbitrary; the particular registers are C19 and C46. A device that raises is not covered.

np_read_loop and np_write_loop are the common loop of config_read/config_write and the I/O operations, with header, register number and completion handling as parameters; the loop runs against an arbitrary serving state machine. np_read_spec/np_write_spec prove it once; config_read_regs and config_write_regs instantiate it with handle_config_0_tlp over an arbitrary register file. Spec: reg_byte, cfg_ops_ok.

### C68 Root complex I/O on a device is byte memory

Status: **proved**. Theorems: `C68_rc_endpoint_io`, `C68_rc_endpoint_io_requests`, `C68_window_of_layout`.

The window must not overlap a memory region of the root complex numerically (see C70).

Same loop, served by the endpoint's I/O handlers (byte-enable scan io_scan and be_dword); refinement to spec_ioops.

### C69 Function I/O on the root complex is byte memory

Status: **proved**. Theorems: `C69_function_rc_io`, `C69_function_io_requests`, `C69_bus_mastering_off`.

Same loop, served by the root complex's I/O handlers; refinement to spec_ioops over rc_mem of the I/O regions.

### C70 The root complex serves its own I/O regions locally

Status: **partial**. Theorems: `C70_local_io_refuted`, `C70_memory_region_hides_io_refuted`, `C70_local_io_partial`.

REFUTED: io_read and io_write test find_region (memory regions) instead of find_io_region. Strongest true restriction proved: with a memory region at the same address the access is served locally and correctly; without one it goes to the bus (C68).

rc_io_read/rc_io_write keep the find_region test of lines 3849 and 3917.

### C71 Word helpers are little-endian views of the byte accesses

Status: **partial**. Theorems: `C71_mem_words`, `C71_words`, `C71_config_words`, `C71_capability_words`, `C71_io_words_refuted`, `C71_write_byte_refuted`.

REFUTED for the I/O helpers (io_read is called with two arguments too many) and for every *_write_byte (passes a list). Proved for the word, dword and qword helpers of memory, configuration and capability accesses.

read_words/write_words take the byte function as an argument; composed with exec_mop of C13 and config_read of C67. Spec: word_at.

### C72 Regions served by callbacks

Status: **partial**. Theorems: `C72_callback_read_refuted`, `C72_callback_reads_lost`, `C72_callback_write_partial`, `C72_memory_region_partial`.

REFUTED for reads (the value is dropped, or a NameError) and for endpoint writes (NameError). Proved for root complex writes.

anyregion adds callback regions; writes to a callback are recorded in a log. 

### C73 The UltraScale+ core forwards requester requests in order and shows their sequence numbers

Status: **partial**. Theorems: `C73_sequence_numbers`, `C73_sequence_drains`, `C73_bus_master_refuted`.

REFUTED for function numbers with gaps, as C52 (the function list is indexed by function number); proved for numbers 0, 1, 2, ...

usp_rq_step/usp_rq_run (two slots per edge) over rq_loop of C52; induction on the edges.

### C74 Status outputs of the UltraScale+ core show each function's own state

Status: **partial**. Theorems: `C74_status`, `C74_link_status`, `C74_overflow_refuted`, `C74_msi_enable_refuted`, `C74_mmenable_refuted`.

REFUTED for more than four functions (ValueError) and for the MSI outputs of functions 2 and 3 (always 0); proved for cfg_function_status and cfg_rcb_status with up to four functions and for the link outputs. The MSI outputs of functions 0 and 1 are C56.

usp_fstatus/usp_rcb loops over the function list, assigned to a signal of the declared width (sig raises ValueError). Spec: field k of the vector.

### C75 Interrupt request interface

Status: **partial**. Theorems: `C75_msi_request`, `C75_msi_ignored`, `C75_msix_request`, `C75_pending`, `C75_sent_refuted`.

REFUTED for the sent output: a request refused because MSI is disabled or the number out of range is reported sent, and fail is never set. Everything else proved, for both cores.

msi_request/msix_request over issue_msi_interrupt of C24 with the function list; one edge of either core. Spec: dword_msg.

### C76 Configuration management interface performs each access exactly once

Status: **partial**. Theorems: `C76_us_management`, `C76_usp_management`, `C76_no_function_refuted`.

REFUTED for a function that does not exist (IndexError stops the simulation); proved for existing functions, arbitrary register files, both cores. The four clock delay of the real core is marked TODO in the source.

us_mgmt_step/usp_mgmt_step with arbitrary register read and write functions; the user logic (wait, hold until done) is part of the specification (user_run).

### C77 The MyHDL segmented RAM stores accepted writes and answers accepted reads

Status: **proved**. Theorems: `C77_memory`, `C77_latency`, `C77_ready`, `C77_order`, `C77_geometry_refuted`.

C77_geometry_refuted shows that the two conditions on the geometry (not checked by the code) are needed.

dma_edge runs one write_edge or read_edge per port in an arbitrary order on the shared memory; outputs are the packed vectors. Refinement to spec_run, which only looks at the valid/ready handshakes of the trace. Invariant port_ok; slots (output register and pipeline, oldest first) = what is owed and not yet given.

### C78 Links deliver every TLP exactly once, in order, at the rate of the link

Status: **partial**. Theorems: `C78_serial_partial`, `C78_completes_partial`, `C78_terminates`, `C78_default_links`, `C78_order_refuted`.

REFUTED for links on which a TLP takes less than one time unit (Gen 3 x32 and faster): int(d) is 0 and TLPs may be swapped. Proved for every wire time of at least 1, in particular up to Gen 3 x16, for every order of simultaneous events.

tx_run: discrete event model of send/transmit with explicit scheduled events; any of the earliest events may run next. Refinement to serial, a three line specification of a serial line with times. Invariant: at most one transmit chain, arrivals strictly increasing.

### C79 Connections are two-sided and negotiated

Status: **partial**. Theorems: `C79_links`, `C79_connect`, `C79_refused`, `C79_self_refuted`, `C79_bus_speed_refuted`.

REFUTED for a port connected to itself (refused, but connected) and for bus ports, whose speed is that of the last connection. Proved otherwise.

connect on a list of ports, with the state left behind by an exception. Invariant links_ok by induction on the calls.

### C80 MSI interrupts of several devices reach exactly their own signals and callbacks

Status: **partial**. Theorems: `C80_delivery_partial`, `C80_configure_partial`, `C80_number_refuted`, `C80_many_refuted`.

REFUTED for registrations of vectors above 31 (they land on the next device) and for more than 2048 devices (the 16 bit message data wraps). Proved for every tree with distinct IDs, vectors 0 to 31 and up to 2048 configured devices.

hrun over a list of calls; tree items carry their MSI fields by position in the tree; devices are addressed by ID. Refinement to rrun, a registry keyed by (device, vector). Each interrupt goes through issue_msi_interrupt, the TLP and the reception of C24.

### C81 Flow control credit counts are exact

Status: **partial**. Theorems: `C81_counts_partial`, `C81_length_refuted`.

REFUTED for payloads above 512 DWORDs: 9 of the 10 bits of the length field are used. Proved for every payload up to 512 DWORDs, any number of segments, modulo the output widths.

fc_next folds fc_seg over the segments; classes by a table of 256 types checked against predicates of the PCIe specification; induction on the number of segments.

### C82 P-Tile available credits

Status: **partial**. Theorems: `C82_exact_partial`, `C82_bounded`, `C82_turns_refuted`.

REFUTED when the limits of several counters are shown in turn (as the P-Tile does): the last increment is added in every cycle. Proved exact when the limit is shown in every cycle; bounded by the first limit always.

pt_run; invariant relating the modular registers to an unbounded account (announced, used).

### C83 Interrupt rate limiter

Status: **partial**. Theorems: `C83_interval_partial`, `C83_no_spurious`, `C83_delivered_partial`, `C83_prescale`, `C83_wrap_refuted`, `C83_starve_refuted`.

REFUTED twice: the minimum interval is not kept when the deadline carries out of 17 bits, and a steady stream of requests for one index starves the others. Proved: interval when the deadline does not carry; no spurious interrupts always; delivery when requests cease and the output is ready, up to 2^14 indices; the tick rate.

rl_run over clock edges; an invariant ties each timer word to ghost values of the trace (last presentation and its interval, request owed), by induction on the trace; delivery by a measure of the scan within the 2^16 tick window after a deadline; the tick rate by an invariant on the prescaler.

### C84 MSI shims

Status: **partial**. Theorems: `C84_us_no_spurious`, `C84_us_one_hot`, `C84_us_delivered`, `C84_us_mask_partial`, `C84_s10_no_spurious`, `C84_s10_held`, `C84_s10_delivered`, `C84_s10_mask_partial`, `C84_us_mask_refuted`, `C84_us_disabled_refuted`, `C84_s10_mask_refuted`.

REFUTED: a grant given before MSI is switched off is kept and the message is handed over later although masked, or (UltraScale) with MSI of function 0 off when another function is enabled. Proved: one at a time, no spurious messages, every rise answered (round robin, with failures), and masked messages not sent unless MSI was off in between.

us_run and s10_run both simulate one core (strip/core_step); invariant ties registers, arbiter and trace (outstanding message, requests risen and unconfirmed); delivery by induction on the round-robin distance of the arbiter (C43's measure) and the delay of each answer.

### C85 Frame multiplexer

Status: **proved**. Theorems: `C85_merge`, `C85_stable`, `C85_delivered`, `C85_priority_refuted`.

Delivery is for round robin; C85_priority_refuted shows that with fixed priority (the default) a beat may stay inside for ever.

The control logic shared by the three multiplexers is modelled once over an arbitrary payload type; invariant with the ghost list of beats moved to the output registers (two-register output stage is a FIFO; registers of the ports; grant held within a frame). Delivery: an offered frame ends (bounded length, source offers the rest), the sink drains, induction on the round-robin distance of the arbiter.

### C86 Descriptor multiplexers

Status: **proved**. Theorems: `C86_pcie_merge`, `C86_pcie_stable`, `C86_pcie_delivered`, `C86_dma_merge`, `C86_dma_stable`, `C86_dma_delivered`, `C86_pcie_status`, `C86_dma_status`, `C86_status_one`.

Instances of the same model without tlast; tag arithmetic for the status demultiplexer.

### C87 Frame demultiplexers

Status: **partial**. Theorems: `C87_route_partial`, `C87_delivered_partial`, `C87_kept`, `C87_ready`, `C87_lost_refuted`, `C87_stale_refuted`, `C87_reset_refuted`.

REFUTED: a beat is lost after a dropped frame while an output is held up; for a data width of 64 the last beat of a dropped frame, or a beat taken before a reset, is sent out with the next frame. Strongest true restriction proved: exact routing if no frame to be sent begins at the very clock after a dropped one that ended while an offer was held up; for width 64 if no frame is dropped and the reset comes first. C87_kept and C87_ready hold without restriction.

One clock edge over an arbitrary payload type. The output stage with one valid bit per port is a FIFO of (port, beat); invariant: what should be sent of the beats taken = sent ++ content of the output registers (++ the beat in the input register for width 64), with the state of the control registers tied to the unfinished frame of the specification. The specification cuts the beats taken into frames and routes frame by frame. Liveness: an offer is kept until its sink is ready, so the FIFO empties.

### C88 Segmented RAM: reads answered in order with the bytes last written

Status: **proved**. Theorems: `C88_answered`, `C88_kept`, `C88_done`, `C88_ready`, `C88_served`.

Each segment; both clocks at once gives the old word, as for the non-blocking assignments of the source.

One step of a segment says which of the two clocks has an edge, so that one model covers both modules. The loop of the pipeline is shown to make every entry that can move take the one behind it (pipe_spec); hence the pipeline, oldest first, is a FIFO (pipe_conserve), and induction over the run relates every read taken to the word built from the last writes of its bytes. For C88_served the reads that have passed stage m are counted for each m.

### C89 RAM read demultiplexer: commands to the right port, answers in the order of the commands

Status: **proved**. Theorems: `C89_routed`, `C89_ordered`, `C89_passed`, `C89_own`, `C89_kept`, `C89_served`, `C89_ready`, `C89_wired`, `C89_any_port_refuted`.

C89_any_port_refuted shows why the last part needs the client to ask only ports that exist.

The output register is the one of C87 (vskid). The 32-entry FIFOs are shown to be lists (ring, ring_step); the half-full flag lags one clock, so the output FIFO holds at most 17 entries and never drops an answer. Every list of commands, answers and outputs since the last reset is related to the contents of FIFOs and registers by induction over the run. C89_own uses that no port answers more than it was asked. Liveness by generic lemmas on counters that grow (reach, until).

### C90 RAM write demultiplexer: writes to the right port, done reported in order

Status: **proved**. Theorems: `C90_routed`, `C90_sound`, `C90_kept`, `C90_served`, `C90_ready`, `C90_wired`.

Same assumption on the ports used as in C89 for the last part.

As C89 for the commands. For each port the counter plus the acknowledged writes is at most the number of done bits, and equal to it if the port reports no write it did not get: then the counter cannot be at 32 while another done bit comes in, because the writes of the port not acknowledged are in the order FIFO (at most 32) or waited for.

### C91 TLP demultiplexer: every packet goes whole to its port

Status: **proved**. Theorems: `C91_routed`, `C91_packets`, `C91_kept`, `C91_ready`, `C91_served`, `C91_ready_again`, `C91_bar`, `C91_bar_ids`.

With FIFO_ENABLE the ports are the inputs of the pcie_tlp_fifo instances, which are not part of this model.

Model of the always block, with the valid vector as an integer and the payload of a segment abstract. The specification is a fold over the list of segments taken that knows only where the packet under way goes. The loop over the segments of a beat is shown to extend it (loop_ok), and the run by induction; liveness by counting what a port has got. The BAR select bits are computed by the two generate loops and shown to be the comparison of the three-bit fields.

### C92 TLP multiplexer: the output is a merge of the inputs by packets

Status: **partial**. Theorems: `C92_merged_partial`, `C92_kept`, `C92_torn_refuted`, `C92_stuck_refuted`.

REFUTED as stated: with four segments per beat a packet of one port can be sent in the middle of a packet of another (C92_torn_refuted), and a beat that is partly filled without ending its packet is never sent (C92_stuck_refuted). Strongest true restriction proved: the merge holds for one or two segments per beat, and for any number when beats are full or empty; stability always.

Model of the always block: the loop over the output segments with its nested loop over the ports as folds over a record of the loop variables; bit vectors as integers. The loop is analysed with an invariant about the segments committed and those not yet committed (active, done in RtlTlpMuxProofs), whose look-ahead vectors are shifted copies of the full vectors. For two segments the one turn where the vectors get out of step is shown to send nothing and to change no register of the port (turn_two, glitch_step). The state invariant ties each port's registers to the segments taken but not sent. The refutations are runs of the model by vm_compute; no list of tagged segments fits the output since neighbours that have to come from one port do not.

### C93 TLP multiplexer: sel_tlp_seq reports each packet sent once

Status: **partial**. Theorems: `C93_selected_partial`, `C93_spurious_refuted`.

REFUTED as stated: with two segments per beat a sequence number is reported for a packet that does not exist (C93_spurious_refuted). Strongest true restriction proved: it holds for any number of segments (also one) when beats are full or empty.

The selection bits of a clock are characterised together with the loop (sel_bits) and mapped to the list of first segments (pulses_eq); the invariant adds that frame_reg says whether a packet is open, which holds for full or empty beats only.

### C94 MSI-X: the AXI lite interface is a byte memory with the table, and shows the pending bits

Status: **proved**. Theorems: `C94_memory`, `C94_kept`, `C94_served`.

For data widths 8, 16, 32, 64 and any index and address width allowed by the code. Nothing is said about reads of pending bit words that do not exist (unknown in Verilog).

The specification is a monitor with the bytes, the queue of expected answers and the count of write answers (am_shows, am_next in RtlMsixSpec); the invariant axr (RtlMsixProofs6) ties the registers to the monitor; a write or read done at one clock is acknowledged at the next, where the hold assumption gives the same address. Bytes and words are related for each data width in RtlMsixProofs5 (merge_byte, first_split, read_psel, write_merge).

### C95 MSI-X: one message per request, none lost, none without request

Status: **partial**. Theorems: `C95_follows_partial`, `C95_no_spurious_partial`, `C95_no_loss_partial`, `C95_kept`, `C95_lost_refuted`, `C95_spurious_refuted`.

REFUTED as stated: with the default parameters a request for vector 32 while masked is lost (C95_lost_refuted) and later the message of vector 96, never requested, is sent (C95_spurious_refuted). Strongest true restriction proved: everything holds, for every index width, when only the first 32 vectors are requested; stability always.

The specification is a nondeterministic monitor (legal, next, shows): jobs are started for requests or pending bits, stored or sent. The model is shown to refine it (rel_step) with an invariant about the copy of the pending bits, which may be stale in the bit just handled. The claims in terms of what is seen only (no_spurious with a count, no_loss) are derived from the monitor in RtlMsixProofs2. The refutations are runs of the model by vm_compute with the default parameters.

### C96 MSI-X: a request is delivered in the end

Status: **partial**. Theorems: `C96_delivered_partial`, `C96_starved_refuted`.

REFUTED as stated: a masked pending vector is tried again and again and keeps other pending vectors from being delivered for ever, even with two vectors (C96_starved_refuted). Strongest true restriction proved: requests for the first 32 vectors are delivered when no vector is masked, after at most 5*2^W+8 clocks in which a message would be taken.

A measure (mu in RtlMsixProofs3), the distance of the scan to the vector in steps, gets smaller at each clock or the clock is one with a message not taken; together with the no-loss invariant the message must have been offered. The starvation is an invariant (stuck) of a state reached by a run of the model, kept by every further clock.

### C97 AXI stream source: the stream is made of the blocks of the descriptors, in order

Status: **partial**. Theorems: `C97_follows_partial`, `C97_kept`, `C97_one_word_refuted`, `C97_zero_refuted`.

REFUTED as stated: with beats of one word and a wider RAM the wrong words are sent (C97_one_word_refuted), and a block of no words sends 2^CYCLE_COUNT_WIDTH beats (C97_zero_refuted). Strongest true restriction proved: lengths of at least 1 and beats of more than one word or as wide as the RAM. Segment counts, segment widths and beat widths are powers of two (for the first the module has no check).

The specification is a monitor of what is seen at the ports: descriptors not out yet, words of the first that are out, descriptors without status, and for each segment of the RAM the queue of reads not answered. The invariant (inv in RtlSrcProofs) says that the beats still to come are those in the output register, the FIFO, the output side and the descriptor register, and at the same time those with reads under way followed by those not yet read; per segment, the RAM queue and the command register hold exactly the addresses of the beats under way that use the segment. The geometry (which segments and which part of the bus a beat uses) is proved for all powers of two from the shifts and masks of the code.

### C98 AXI stream source: all blocks come out

Status: **partial**. Theorems: `C98_progress_partial`.

Same restriction as C97 (the refutations of C97 show why); nothing else is missing.

A measure of the work left, (segments + 1) for each beat not read, 1 for each command register in use, 3 for each beat not taken from the RAM, 2 for each in the FIFO, 1 for one in the output register, gets smaller with every move, and in a good clock there is a move unless all is done.

### C99 AXI stream sink: the RAM is written with the packets, in the blocks of the descriptors

Status: **partial**. Theorems: `C99_follows_partial`, `C99_kept`, `C99_one_word_refuted`, `C99_zero_refuted`, `C99_no_keep_refuted`.

REFUTED as stated: with beats of one word and a wider RAM words go to the wrong address (C99_one_word_refuted), a block of no words is written without limit (C99_zero_refuted), and tkeep is used although AXIS_KEEP_ENABLE is 0 (C99_no_keep_refuted). Strongest true restriction proved: lengths of at least 1, beats of more than one word or as wide as the RAM, tkeep tied to one if AXIS_KEEP_ENABLE is 0. Segment counts, segment widths and beat widths are powers of two (for the first the module has no check).

The specification is a monitor of what is seen at the ports: the descriptor and the position for the next beat, the beats since the last status, and per segment the beats whose write was not taken, the writes taken and not done, and the writes done. Invariant (sinv in RtlSinkProofs2): the beats since the last status are those counted for the status plus those in the status FIFO; per segment, those of the status FIFO that use the segment are, in order, the writes taken (done count plus open), the command register and the segment FIFO; the half full flags bound all FIFOs by 18 entries, so no counter saturates. The command (RtlSinkProofs, cmd_ok) is proved word by word from the shifts, masks and replicated data.

### C100 AXI stream sink: all writes and status messages come out

Status: **partial**. Theorems: `C100_progress_partial`.

Same restriction as C99 (the refutations of C99 show why); nothing else is missing.

A measure, 3 for each command in a segment FIFO, 2 for one in a command register, 1 for each open write, 2 for each entry of the status FIFO, 1 for a status at the output, never grows in quiet clocks and gets smaller in each good one until all is done; it is at most 54 * segments + 37.

### C101 UltraScale configuration reader: the outputs are the last device control values read

Status: **proved**. Theorems: `C101_follows`.

Assumes that the core answers only while read is asserted (Example C101_unasked shows that this is needed).

A monitor of the ports (RtlCfgSpec) keeps the function due, the first answer to the present read, the clocks since the last read and the table of last answers. Invariant (uinv): the delay counter is 255 minus those clocks, the registered answer is only set in a read, and the output vectors are the fields of the table.

### C102 UltraScale configuration reader: all functions are read again and again

Status: **proved**. Theorems: `C102_count`.

Same assumption as C101.

The position 258 * reads + (clocks since the last read, or 257 with an answer) grows by one in each clock that is not a wait.

### C103 Minimal AXI lite master: each request is made once, in order, and answered with the right completion

Status: **partial**. Theorems: `C103_follows_partial`, `C103_kept`, `C103_message_refuted`, `C103_byte_count_refuted`.

REFUTED as stated: messages are answered with an unsupported request completion and reported as correctable (C103_message_refuted). Strongest true restriction proved: all TLPs but messages (headers with prefix format excluded). The byte count of completions without data is left open there, since it is 0 and not 4 (C103_byte_count_refuted).

A monitor of the ports (RtlAxmSpec) keeps what is not yet taken of the last request and the queue of responses due. Kinds of TLPs, byte count and lower address are specified from the header bits and the first and last enabled byte. Invariant (ainv in RtlAxmProofs2): the queue is the output register, the entry at hand and the FIFO; the half full flag bounds the FIFO by 18 entries; ready means that nothing is open on AXI. The fields of completion headers are proved with a lemma on concatenations (RtlAxmProofs, cat_nth).

### C104 Minimal AXI lite master: all answers come out

Status: **proved**. Theorems: `C104_progress`, `C104_done`.

C104_progress is for all TLPs; C104_done, which says that the responses of C103 were given, for those for which C103 holds.

A measure, 5 for each entry in the FIFO, 2 to 4 for the entry at hand, 1 for each output, at most 98, gets smaller in each good clock.

### C105 AXI write master: each memory write is one burst with its bytes at the right addresses, in order

Status: **partial**. Theorems: `C105_follows_partial`, `C105_kept`, `C105_address_kept_partial`, `C105_split_refuted`, `C105_burst_refuted`, `C105_wrap_refuted`, `C105_address_refuted`.

REFUTED as stated for writes that do not fit in one burst: wrong data (C105_split_refuted), bursts longer than the limit (C105_burst_refuted), data lost (C105_wrap_refuted), addresses overwritten (C105_address_refuted). Strongest true restriction proved: all writes with offset + length of at most AXI_MAX_BURST_LEN beats, and all other TLPs; C105_kept is for all.

A monitor of the ports (RtlAxwSpec) keeps the writes that are on their way with the beats taken and the number of beats put out; each strobe bit and each enabled byte of a beat is specified by its address. Invariant (binv in RtlAxwProofs2, 3): output register and FIFO hold the next beats of the writes in order (feeds); in the transfer state the counters are functions of the header and of the number of beats taken and put out (tinv), with at most one beat in the shift register; the half full flag bounds the FIFO by 18 entries. The data path is proved with lemmas on shifts by the offset (RtlAxwProofs, beat_ok, strb_ok).

### C106 AXI write master: all beats come out

Status: **proved**. Theorems: `C106_progress`.

For writes that fit in a burst, as stated.

A measure, 3 for each beat that can be made from what was taken, 2 for each in the FIFO, 1 for each output, at most 44, gets smaller in each good clock.

### C107 UltraScale request adapter: every TLP is put out exactly, with its header

Status: **proved**. Theorems: `C107_requests`.

A monitor (RtlUsIfSpec) collects the double words of the TLP that is open from the lanes with tkeep, and makes a queue of the beats that the FIFO should get; each beat is specified by arithmetic on the double words (out_is), the header field by field (rq_is). Invariant (Inv in RtlUsIfProofs2): the queue is the output register, followed by one beat if the saved beat is the last one and has double words left; the saved beat holds the last double words of the TLP, its position gives the first beat flag, and the header is right from the second beat on. One lemma for each of the cases saved beat is last, no next beat, next beat there (gen_closed, gen_wait, gen_open).

### C108 UltraScale completion adapter: every TLP is put out exactly, with its header

Status: **partial**. Theorems: `C108_completions_wide_partial`, `C108_completions_partial`, `C108_refuted`.

REFUTED as stated: at 64 bits a completion with an even number of double words of data (2, 4, ...) gets an extra beat without data (C108_refuted). Strongest true restriction proved: all completions at 128, 256 and 512 bits, and at 64 bits those without data or with an odd number of double words.

As C107, with the same model and invariant; cpl_is for the header. At 64 bits the invariant needs that the last beat of a TLP with more than 4 double words (with descriptor) is full.

### C109 UltraScale stream adapters: beats are kept, and all come out

Status: **proved**. Theorems: `C109_kept`, `C109_progress`.

Progress after histories as in C108.

Measure: 2 if the saved beat is the last one of a TLP, else 1 if a beat is shown.

### C110 UltraScale request adapter: messages keep their message code

Status: **partial**. Theorems: `C110_messages_partial`, `C110_message_code_refuted`.

REFUTED as stated: the header has the byte enables of the user signal in bits 71:64 (C110_message_code_refuted). Proved: type, routing and format; the message code is on rx_req_tlp_func_num.

From the fields of the header (cq_meta_ok); witness: a vendor message with code 0x7E.

### C111 UltraScale completion output: every completion goes out exactly, with its descriptor

Status: **partial**. Theorems: `C111_completions_partial`, `C111_byte_count_refuted`, `C111_dword_count_refuted`.

REFUTED as stated: 4096 bytes still to come, and 1024 double words, are put out as 0, although the descriptor has 13 and 11 bits for them. Strongest true restriction proved: all completions with less than that (and a length field of 0 if there is no data).

One model for both modules (RtlUsTxModel). A monitor (RtlUsTxSpec) for each FIFO has the beat that is shown, header and payload of the TLP that is being read, and the queue of beats due on the stream; a beat that appears makes all beats due up to the end of the TLP, or all full ones. Each beat is specified by arithmetic on the double words (tout_is), the descriptor field by field. Invariant (PInv, Inv): the position in the TLP is determined by frame, header, split registers and by what was read; the shift register has the last k double words; the queue is the output register followed by what is due from that position. One lemma per kind of width: emit_wide, emit_cc64, emit_narrow.

### C112 UltraScale request output: every request goes out exactly, with its descriptor

Status: **partial**. Theorems: `C112_requests_partial`, `C112_refuted`.

REFUTED as stated: for a header with three double words (32 bit address; IO and configuration requests) the address goes to the upper half and the lower half has what follows the header (C112_refuted). Proved for all known kinds with a header of four double words.

As C111; the FIFO a beat comes from is known from the mark in the sequence number of the first beat, and by a lock within a TLP.

### C113 UltraScale output adapters: beats are kept, and all come out

Status: **proved**. Theorems: `C113_kept`, `C113_progress`.

Progress after histories as in C111, C112.

Measure: beats due, plus 1 if nothing is shown, plus 1 if the credit registers are not yet set.

### C114 UltraScale request output: flow control, priority, sequence numbers

Status: **proved**. Theorems: `C114_credits`, `C114_sequence_numbers`.

From the invariant: a new beat while no TLP is open was selected in the clock before, with the credit registers, which hold the comparison of one clock earlier (data credits with the maximum payload size of two clocks earlier).

### C115 UltraScale completion output at 512 bits: the end pointer is the last lane

Status: **partial**. Theorems: `C115_end_pointer_partial`, `C115_end_pointer_refuted`.

REFUTED as stated: the lane index has 3 bits, so for 9 to 16 lanes 8 is missing. Proved for at most 8 lanes.

State invariant: the user signal of a last beat is made from tkeep; then the 8 cases.

### C116 Stratix 10 configuration interface: outputs show the last reports, function by function

Status: **proved**. Theorems: `C116_reports_shown`, `C116_isolated`.

The assignments of the case statements are tables in the model (RtlTileCfgModel), with the index arithmetic as written; the layout of the registers is written down separately as rows of fields from the highest bit down (RtlTileCfgSpec), places follow from widths. Lemma fold_bit: the effect of a list of assignments on one bit of one function, for all numbers of functions, if the parts fit; that tables and rows agree is a computed check over all fields and bits; then induction over the reports.

### C117 Stratix 10 configuration interface: all registers can be read from the outputs

Status: **partial**. Theorems: `C117_htile_words`, `C117_ltile_words_partial`, `C117_link_width_refuted`.

REFUTED as stated for the L-Tile: link width is taken from registers 0, 1 and 7 and link speed from 2 and 7, the last report wins. Proved for the H-Tile, and for all other fields of the L-Tile.

From C116 where a bit occurs in one register only (computed check); witness by vm_compute.

### C118 P-Tile configuration interface: outputs show the last reports, function by function

Status: **partial**. Theorems: `C118_reports_shown_partial`, `C118_aer_low_partial`, `C118_isolated_partial`, `C118_reports_shown_refuted`, `C118_isolated_refuted`.

REFUTED as stated for the three AER outputs: the upper half is written at offset 32 of 32. Proved for all other outputs, and for the lower half of the AER outputs of function 0.

As C116. For function 0 the wrong parts are above its own ones, therefore its lower halves are right; witnesses by vm_compute.

### C119 Stratix 10 receive adapter: exactly the TLPs of the stream reach the FIFO

Status: **proved**. Theorems: `C119_received`, `C119_complete`.

RtlTileRxModel has the saved beat and the registers of the TLP; the specification (RtlTileRxSpec: expected) concatenates the double words of a TLP, cuts off the header and groups the rest by eight, without a saved beat or shifts. Invariant: what is in the registers, what the saved beat still gives, and what the rest of the stream gives together stay equal to what has been expected (step_ok), then induction over the stream.

### C120 P-Tile receive adapter: exactly the segments of the stream reach the FIFO

Status: **partial**. Theorems: `C120_received_partial`, `C120_complete_partial`, `C120_functions_partial`, `C120_received_refuted`.

REFUTED as stated for the function number: two bits per segment are taken of fields of three. Proved for everything else, and with the function if it is 0 or there is one segment and the function is below 4.

Each segment on its own (seg_new), then all segments, then induction over the stream; witness for the function by vm_compute.

### C121 TLP FIFO: the complete TLPs that went in come out, in order, unchanged and without gaps

Status: **proved**. Theorems: `C121_delivered`, `C121_drained`, `C121_kept`, `C121_no_gap`.

RtlFifoModel has memory, pointers modulo 2**(ADDR_WIDTH+1), address registers and the two stages at the output. Invariant: the memory from the read pointer on holds the complete TLPs and then the open one (lists), the pointers are at their ends modulo the pointer range, and the number of beats stays below the depth although ready is one clock late (step_inv); what is inside followed by what will be complete stays equal (step_pend). Draining by a weight that falls in each clock. No gap: the complete part always ends with the end of a TLP.

### C122 TLP FIFO: the input waits only while the FIFO is nearly full, and every TLP is taken in the end

Status: **partial**. Theorems: `C122_full`, `C122_ready_partial`, `C122_ready_refuted`.

REFUTED as stated for TLPs that do not fit: beats become visible to the reader only with the end of their TLP. Proved: the input becomes ready again exactly if the unfinished TLP has less than DEPTH/TLP_STRB_WIDTH-2 beats.

From the same invariant, with the lower bound on the beats inside while full; the witness is a state that no input changes (stuck_step).

### C123 TLP FIFO: below the watermark there is room for all beats on their way

Status: **proved**. Theorems: `C123_room`.

Induction over the clocks after the one without watermark, one beat more in each; the example has the numbers of the Stratix 10 adapter (19 clocks).

### C124 TLP FIFO multiplexer: every complete TLP taken at a port comes out once, whole, in the order of its port

Status: **proved**. Theorems: `C124_delivered`, `C124_drained`, `C124_kept`.

RtlFmuxModel has for each port two copies of the FIFO of RtlFifoModel, seen from its two read sides, so its invariant is used twice. Invariant PI: the data side is one read behind, and at its next clock it has at least as many beats ready as the control side has now (arith); hence it is valid whenever it is read. The output FIFO has an invariant of its own (at most 18 of 32 entries). Draining by a weight over all ports and the output that falls in each clock (Phi), for which the loop over the ports is shown to reach each port (reach) and a TLP that has begun to be complete in its FIFO (FI).

### C125 TLP FIFO multiplexer: no TLP starts from a port that is held, or while one of higher priority waits

Status: **proved**. Theorems: `C125_pause`.

The loop over the ports takes the first that can start (scan_first), in the order of iter_eq.

### C126 TLP FIFO multiplexer: the sequence numbers reported for a port are those of its TLPs, once each and in order

Status: **proved**. Theorems: `C126_seq`.

In the induction of C124: the number is taken from the data output in the clock after the decision, from the port chosen then.

### C127 TLP FIFO multiplexer: a TLP comes out without a gap

Status: **proved**. Theorems: `C127_nogap`.

Invariant HI on top of that of C124: a FIFO with a beat that is not the last of its TLP at the control output has the next one behind it (CI), so in a TLP a beat is read in each clock unless the output FIFO is half full; then it has at least 14 beats.

### C128 P-Tile transmit: every complete TLP taken at the four ports is sent once, whole, in the order of its port

Status: **proved**. Theorems: `C128_delivered`.

RtlPtTxModel: the multiplexer of C124 with its inputs and the output registers; the trace is projected to one of the multiplexer (mux_of) and C124 applied.

### C129 P-Tile transmit: the ready latency is kept and a TLP has no gaps

Status: **proved**. Theorems: `C129_rules`.

t_rules is a small checker over the outputs; induction with HI of C127.

### C130 P-Tile transmit: a TLP starts only if credits for it were seen

Status: **proved**. Theorems: `C130_credit`.

From C125, with the pause inputs one clock after the counters.

### C131 P-Tile transmit: the header credit counters are never asked for more than they have

Status: **proved**. Theorems: `C131_covered`.

Invariant per class: what the counter has covers the count at its input and the TLP just read; if the gate is open there are at least four. The framing of the beats is carried through the FIFOs (cov_all). After a reset the gates are not cleared, but the FIFOs are empty.

### C132 P-Tile transmit: the interface never sends more TLPs of a kind than the core has allowed

Status: **partial**. Theorems: `C132_budget_refuted`, `C132_budget_twice`.

REFUTED: with a limit of 8 posted headers shown in turn with the seven others, eleven writes are sent; strongest true restriction proved: a new limit is shown again in the next clock, so that the increment is added once

t_shown has the unbounded limit beside the inputs. Induction on top of C131: what the counter has, plus the pending increment, plus all that was subtracted is not more than announced (pt_upper); the TLPs given by the multiplexer and those in its output FIFO are those subtracted and those counted (tx_inv). The refutation is a run of 60 clocks by vm_compute.

### C133 DMA read multiplexer: what is done for a descriptor concerns only the port it came from

Status: **proved**. Theorems: `C133_home`, `C133_ports`.

RtlIfMuxModel puts the models of C86 and C90 behind common ports and a common reset. Its trace projects to theirs (ir_tr_d, ir_tr_x); the merge of C86 gives for each select a descriptor and a port, and the arithmetic of the select (img_home) shows that the demultiplexer finds this port.

### C134 DMA write multiplexer: what is done for a descriptor concerns only the port it came from

Status: **proved**. Theorems: `C134_home`, `C134_ports`, `C134_answers`.

As C133 with the models of C86 and C89.

### C135 H-Tile transmit: each TLP is laid out with its header words, then its payload words, in as many beats as they need

Status: **proved**. Theorems: `C135_laid`.

RtlS10TxModel. lay gives the beats for a list of FIFO beats without any timing. Invariant SI (the data side is one beat behind while a read is under way, a split beat is still there); each clock takes the next beats of lay (si_step). Then lay is shown to lay out one TLP (mid, by induction on its beats; the first beat is as if the header had been in the shift register) and a list of TLPs.

### C136 H-Tile transmit: the ready latency of three clocks is exact

Status: **proved**. Theorems: `C136_latency`.

By evaluation of three steps.

### C137 H-Tile transmit: the internal credit counts are the TLPs between the multiplexer and 24 clocks after the FIFO

Status: **partial**. Theorems: `C137_account_partial`, `C137_reset_refuted`.

REFUTED for a reset of one clock: valid bits of the delay memory survive it, a TLP which was never counted is subtracted, and the count of posted headers becomes 255, which shuts the gate for writes. Strongest true restriction proved: resets of three clocks with an idle FIFO from the second on.

RtlS10FcModel. Invariant over the clocks since the reset: slot j mod 32 of the memory has the event of clock j for the last 32 clocks, the read pointer is 23 behind, the counter has the event of 24 clocks ago, and each count is the difference of the two sums modulo its width. For the refutation: one run by evaluation, then an invariant (locked) for all further clocks.

### C138 H-Tile transmit: a gate is open only if more than four header credits and two payloads are left for all TLPs under way

Status: **proved**. Theorems: `C138_gates`, `C138_safe`.

Two steps by evaluation, combined with C137.

### C139 AXI lite master: a memory read request becomes one AXI lite read per word and completions which add up to it

Status: **partial**. Theorems: `C139_reads_partial`, `C139_reads_refuted`.

REFUTED for requests of more than 32 words starting at the last word before a boundary of 128 bytes: the first completion is announced with one word but never closed, the counters wrap and 2081 reads are issued for 33 words. Strongest true restriction proved: all other requests (whose addresses do not wrap at 2^64).

RtlAxlModel (the whole request side). answered is an inductive specification of the completions of a request; ops collects what is issued until the state machine is idle again. Invariant rinv for the two read states with the words left and the words left in the completion; the operations still to come are given by a function (words), of which each clock takes the next or none (rd_run); words is shown to satisfy answered by induction. Byte enables by cases.

### C140 AXI lite master: what is offered on an AXI lite channel stays until taken, and no operation is lost

Status: **proved**. Theorems: `C140_held`.

RtlAxlModel. Invariant axj by state: in the idle state ready implies that all three channels are free, in the read states the write channels are free, in the write states the read channel is, and ready implies free write channels; kept by every clock and set up by a reset. The claim then by cases on the state.

### C141 AXI lite master: a memory write request becomes one AXI lite write per word

Status: **proved**. Theorems: `C141_writes`.

For requests whose addresses do not wrap at 2^64.

RtlAxlModel. wops collects the writes and the beats handed over (ready and valid) until the state machine leaves the write states; wop says what write k is, from the beats. Invariant winv after m writes: address, words left, place in the beat (m modulo the width), the beat in hand and the number of beats taken; WRITE_1 exactly when m is a multiple of the width.


## Findings

Properties that are false of the code, with the theorem that shows it.

TLP and memory path (`tb/pcie.py`)
* C05: `get_lower_address` computes `address & (0x7c + offset)`; the byte offset is lost (`C05_lower_address_refuted`).
* C06: `TLP.unpack` reads request addresses from the wrong word and shifts the register number wrongly; every read fails to unpack, every configuration request loses its register number (`C06_*`).
* C10: `Function.mem_read` computes byte enables of each request from the whole remaining length; reads needing more than one request raise AssertionError (`C10_function_mem_read_refuted`).
* C12: an endpoint write inside the BAR window but past the end of a region whose size is not a power of two grows the bytearray (`C12_endpoint_write_refuted`).

BARs
* C14: a 32-bit or I/O BAR ignores address bits 32 and up (`C14_match_bar_refuted`; exact behaviour in `C14_match_bar_exact`).
* C14: a 64-bit BAR of more than 2 GiB never matches (`C14_large_bar_never_matches`).

Capabilities and configuration space
* C16: the automatic placement scan compares with `<` where `<=` is needed (line 304).
* C17: a list with a single capability has next pointer `None`; reading its header raises.
* C18: extended capabilities start at register 0x40 but reads reach them only from register 256.
* C19: read completion boundary is written from bit 4 but read at bit 3; link disable, selectable de-emphasis never written; aux power detected and transactions pending (read-only) are cleared by writes; link equalization request not write-one-to-clear and its write raises UnboundLocalError; interrupt pin is writable.
* C46: Link Capabilities fields are shifted right instead of left.

Allocation, enumeration, routing
* C20: the allocator's limit is the last byte of the region; an odd-sized region can share its last byte with the next one (`C20_alloc_refuted`).
* C21: memory space past 4 GiB is truncated in the 32-bit bridge windows, leaving BARs outside them (`C21_windows_refuted`).
* C23: a bridge drops unclaimed requests silently (`C23_unsupported_request_refuted`); a switch routes ID messages by the requester's bus (`C23_id_message_refuted`). Locked reads, address routed messages and atomics raise.
* C47: a 32-bit BAR answers 64-bit prefetchable addresses with the same low half (`C47_delivery_refuted`).

UltraScale frames (`tb/pcie_us.py`)
* C29: `USPcieFrame.__eq__` tests `isinstance(other, TLP_us)`; a frame never equals another frame, and comparing with a TLP of equal data raises AttributeError (`C29_frame_eq_refuted`, `C29_frame_eq_never`).
* C28: a frame without data is dropped by the stream sources (`C28_empty_frame_refuted`); a sink leaving reset takes a held transfer twice, because it samples `tvalid` without `tready` (`C28_sink_reset_refuted`).

Device containers (`tb/pcie.py`, `tb/pcie_us.py`)
* C51: the CQ BAR aperture comes from `self.functions[0]` whichever function is addressed (`C51_aperture_refuted`); with a 64-bit BAR of another function it can even raise IndexError.
* C52: `self.functions[tlp.requester_id.function]` indexes the list by function number; with gaps in the numbers another function's bus master enable is tested (`C52_bus_master_refuted`) or IndexError is raised (`C52_index_refuted`).
* C53: a completion with a bad status is reported as normal termination, `tlp.error` is assigned instead of `tlp.error_code` (`C53_error_code_refuted`).
* C54: the length range test `0 > self.length > 1024` is never true; a completion of 1025 DWORDs passes (`C54_length_range_refuted`) and its length field is then truncated by `pack`.
* C56: `cfg_rcb_status` bit 1 shows function 0 (`C56_rcb_refuted`).
* C57: the TLP copy constructor drops `th` (`C57_copy_refuted`); so does every request or completion through the UltraScale core.

Generic TLP interface (`tb/pcie_if.py`)
* C38: `to_tlp` undoes the 64-bit forcing only for I/O; a 32-bit memory or atomic request comes back as the 64-bit type (`C38_forced_refuted`).
* C40: `get_free_tag` (`tb/pcie.py`) takes a tag with an empty completion queue as free; the 33rd outstanding request reuses the first tag (`C40_get_free_tag_refuted`). `tb/pcie_if.py` is right.
* C61: the function number passed with a request is the requester's (`tlp.requester_id.function`), not the addressed function's (`C61_func_num_refuted`).
* C62: MSI counts of functions 2 and 3 subtract 2 and 3 instead of 1; 2 vectors on function 2 are advertised as 1 (`C62_msi_count_refuted`).
* C39: `tlp_abort` of a frame is not driven by `PcieIfSource` nor read by `PcieIfSink` (`C39_abort_refuted`).
* C31, C32: `address_width` (`tb/dma_psdp_ram.py:177`, `412`) is rounded up when `seg_count*seg_byte_lanes` is not a power of two; accepted addresses past the segments wrap silently (`C31_wraps_refuted`, `C32_wraps_refuted`). The RAM read port reduces the address modulo the memory size (883), the write port does not (a write past the memory raises `ValueError`). On reset the write master leaves `cmd_valid` as it is (not modelled).
- **C36/C37** (tb/axis_ep.py): a frame with an explicit `keep` that does not cover the data silently loses words (`C36_keep_refuted`) or makes the sink assert (`C37_keep_refuted`); an empty frame gives no beat and raises IndexError (`C36_empty_refuted`).
- **C66** (tb/axis_ep.py:136, 208-220): `if self.last_cycle_user:` ignores the value 0, and with a user *list* the last entry is overwritten by last_cycle_user; in both cases the received frame is not equal to the sent one (`C66_zero_last_user_refuted`, `C66_user_list_refuted`).
- Read in the source, not modelled: in B > 0 mode `build` sets tkeep to 0, so a sink with tkeep connected fails its assertion; a bool `id` raises TypeError in build.
- **C35** (tb/axil.py:400, 418-420, 449-451): the write process of AXILiteRam seeks, waits for data over one or more clock edges and then writes at the current position of the mmap; a read served in between moves that position, so a write of [1,2,3,4] to address 0 with a concurrent 4-byte read of address 32 stores the bytes at 36 (`C35_concurrent_refuted`, both process orders).
- **C35** (tb/axil.py:244-253): a read of length 0 at an aligned address has cycles = 0 but still queues one address; its response is taken by the next read (`C35_zero_read_refuted`).
- **C35** (tb/axil.py:132, 138, 242, 244, 393): `int(addr/bw)*bw` uses float division; a write to 2^55+4 on a 4-byte bus goes to 2^55 (`C35_float_refuted`).
- **C33** (tb/axi.py:357): `m_axi_awid.next = awid` is not guarded by `if m_axi_awid is not None`, although awid is optional everywhere else; a master without awid raises AttributeError at the first write (`C33_no_awid_refuted`). The read channel has the guard.
- **C34** (tb/axi.py:588-589): `if m_axi_buser is not None: ruser = int(m_axi_ruser)`; the test is on the wrong signal (`C34_buser_refuted`).
- **C33/C34** (tb/axi.py:265-271, 439-445): float division of addresses as in tb/axil.py (`C33_float_refuted`, `C34_float_refuted`).
- Read in the source, not modelled: processes wait with `if not queue: yield sync`; the queue is not tested again after the wake-up, so a toggle left over from an earlier entry makes `pop(0)` raise IndexError on an empty queue.
- **C70** (tb/pcie.py:3849, 3917): RootComplex.io_read and io_write test `self.find_region(addr)` where `find_io_region` is meant. Its own I/O regions are never served locally (`C70_local_io_refuted`), and a memory region at the same numeric address makes a device's I/O window unreachable with "Invalid address" (`C70_memory_region_hides_io_refuted`).
- **C71** (tb/pcie.py:1892, 1907, 1956, 1965 and 3883, 3898, 3947, 3956): io_read and io_write take (addr, length or data, timeout) but the word helpers also pass attr and tc; every io_read_words/dwords/…/io_write_byte raises TypeError (`C71_io_words_refuted`). Every *_write_byte (2104, 3749, 3834, 4097) passes the list `[data]`, which cannot be added to a bytearray nor assigned to an mmap slice: TypeError (`C71_write_byte_refuted`).
- **C72** (tb/pcie.py:3329-3332, 3357-3359, 2254): RootComplex.read_region drops the value of the read callback and returns None, so a memory read of such a region raises TypeError in the handler; read_io_region calls the callback with the undefined name `data`; MemoryEndpoint.write_region calls its callback with the undefined name `length` (`C72_callback_read_refuted`, `C72_callback_reads_lost`). The MSI region only uses writes and is not affected.
- **C73** (tb/pcie_usp.py:809): the function list is indexed by function number, as in C52 (`C73_bus_master_refuted`).
- **C74** (tb/pcie_usp.py:868-874, 889-893): with a fifth function that has bus mastering enabled the status value does not fit its 16-bit signal and the simulation stops with ValueError (`C74_overflow_refuted`). cfg_interrupt_msi_enable and cfg_interrupt_msi_mmenable have fields for four functions but only the first two are filled in (990-997, 1009-1013; `C74_msi_enable_refuted`, `C74_mmenable_refuted`).
- **C75** (tb/pcie_us.py:2731, tb/pcie_usp.py:1007): cfg_interrupt_msi_sent is set whether or not issue_msi_interrupt sent anything; cfg_interrupt_msi_fail is never set (`C75_sent_refuted`).
- **C76** (tb/pcie_us.py:2525, tb/pcie_usp.py:847): an access to a function that does not exist raises IndexError instead of completing (`C76_no_function_refuted`).
- **C77** (tb/dma_ram.py:196, 237, 254-260): create_read_port accepts latency 0 and fails with IndexError at the first edge; a memory size that is not a multiple of the word width fails at the last word with IndexError (read) or ValueError (write) (`C77_geometry_refuted`). The latency argument of create_write_ports is unused.
- **C78** (tb/pcie.py:773-777): the time to clock out a TLP is truncated to whole nanoseconds; on a Gen 3 x32 link (or Gen 4 x16, Gen 5 x8) a TLP without data takes 0, two TLPs arrive at the same simulation time and the simulator may run the later one first (`C78_order_refuted`). MyHDL resumes events of equal time last in, first out, so it does.
- **C79** (tb/pcie.py:748-752): `p.connect(p)` raises "Already connected" but leaves the port connected to itself (`C79_self_refuted`); a bus port keeps a single speed, width and delay, those of the last connection, for all its links (805-811, `C79_bus_speed_refuted`).
- **C80** (tb/pcie.py:4175-4209): msi_get_signal, msi_register_signal and msi_register_callback do not bound the vector number; vector 32 of one device is vector 0 of the device configured next (`C80_number_refuted`). Message numbers are never limited to the 16 bits of the message data register: the 2049th device gets number 65536, which the register stores as 0, so its interrupts are reported as those of the first device (`C80_many_refuted`).
- **C81** (rtl/pcie_tlp_fc_count.v:149): the payload size is taken from 9 bits of the 10 bit length field; a 4096 byte TLP (length 0) is counted as 2048 bytes and lengths 513 to 1023 as 1 to 511 (`C81_length_refuted`).
- **C82** (rtl/pcie_ptile_fc_counter.v:56-71): fc_inc_reg is not cleared after it has been added. The core shows the limits of the six counters in turn, so each increment is added again in every cycle until the next turn and the credits are overestimated up to the first limit: a sender respecting fc_av overruns the receiver (`C82_turns_refuted`).
- **C83** (rtl/irq_rate_limit.v:163): the comparison with the 32 bit literal 0 extends `deadline - time` to 32 bits, so when the 17 bit deadline wraps the difference is negative and the timer counts as expired at once: the next interrupt is let through without the minimum interval (`C83_wrap_refuted`, 5 ticks instead of 1000).
- **C83** (rtl/irq_rate_limit.v:150-175): in the idle state a request has precedence over the scan of the timers; a steady stream of requests for an index whose timer runs keeps every pending interrupt from being presented for ever (`C83_starve_refuted`).
- **C84** (rtl/pcie_us_msi.v:96-128, rtl/pcie_s10_msi.v:86-118): the mask only gates the request of the arbiter. A grant given and not used because MSI is switched off is kept and used when MSI is on again, although the vector may have been masked since (`C84_us_mask_refuted`, `C84_s10_mask_refuted`).
- **C84** (rtl/pcie_us_msi.v:126): `cfg_interrupt_msi_enable` is tested as a whole 4-bit vector, so the enable bit of another function releases a message of function 0 with its MSI off (`C84_us_disabled_refuted`).
- **C85** (rtl/axis_arb_mux.v:62-63): with the default ARB_TYPE_ROUND_ROBIN=0 a beat taken into the input register of a port can stay there for ever while a port of higher priority sends frames back to back (`C85_priority_refuted`); likewise the descriptor multiplexers.
- **C87** (rtl/pcie_us_axis_cq_demux.v:187, rtl/pcie_us_axis_rc_demux.v:155): `s_axis_tready_next = m_axis_tready_int_early || drop_ctl` raises tready for the clock after the last beat of a dropped frame although the output registers may be full; if the next frame begins at that clock its first beat is taken and lost (`C87_lost_refuted`). tready should be raised only while the frame to be dropped goes on.
- **C87** (rtl/pcie_us_axis_cq_demux.v:218): with AXIS_PCIE_DATA_WIDTH=64 the input register is not emptied when the last beat of a dropped frame leaves it (`!drop_ctl` in the condition), so after an idle clock that beat is taken for the first beat of the next frame, decided by the fields of the wrong word and possibly sent out (`C87_stale_refuted`).
- **C87** (rtl/pcie_us_axis_cq_demux.v:204-228): with AXIS_PCIE_DATA_WIDTH=64 temp_s_axis_cq_tvalid_reg is not reset; a beat taken before (or during) a reset is sent after it as the beginning of the next frame (`C87_reset_refuted`).
- **C89, C90: a read or write for a port that does not exist blocks the segment.** With PORTS not a power of two (three ports, select bits 3) dma_ram_demux_rd and dma_ram_demux_wr accept the command, hand it to no port and wait for the answer of that port for ever; all later answers are held back (C89_any_port_refuted).
- C92/C93: rtl/pcie_tlp_mux.v:302-315. When no port is valid in a turn of the loop over the segments, the look-ahead vectors of the port examined last are shifted although none of its segments is used (its offset stays). Later turns of the same clock then test the end-of-packet bit of one segment and send another. With three or more segments per beat and partly filled beats this tears packets (witness C92_torn_refuted: 2 ports, 4 segments). With two segments nothing wrong is sent, but sel_tlp_seq_valid pulses with a stale sequence number (witness C93_spurious_refuted).
- C92: rtl/pcie_tlp_mux.v:318-333. A packet is sent only up to its end or for all remaining segments of the output beat. If an input beat is partly filled and does not end its packet the module waits for ever for the gap to be filled (witness C92_stuck_refuted).
- C95: rtl/pcie_msix.v:249. In the states in which a pending bit is written the address is the default irq_index_reg >> 5, while it is read at irq_index >> 6. For vectors 32 and up the wrong word of pending bits is written: with the default 2048 vectors a masked request for vector 32 sets the bit of vector 96, and sending vector 32 to 63 directly copies pending bits of one group to another. With 64 vectors the write is out of range and the request is lost (witnesses C95_lost_refuted, C95_spurious_refuted).
- C96: rtl/pcie_msix.v:319-329, 366-372. When a pending vector turns out to be masked the scan does not go on to the next vector but tries the same one for ever; all other pending vectors wait until it is unmasked (witness C96_starved_refuted).
- C97: rtl/dma_client_axis_source.v:131. PART_OFFSET_WIDTH is 1 instead of 0 if a beat has one word (for example an 8 bit stream, or AXIS_KEEP_ENABLE = 0). With a RAM of more than one word, two successive words are read from the same place and wrong segments are used (witness C97_one_word_refuted).
- C97: rtl/dma_client_axis_source.v:294-295. A descriptor of length 0 makes the cycle count wrap; 2^CYCLE_COUNT_WIDTH full beats are sent (witness C97_zero_refuted).
- C97 (not a refutation): rtl/dma_client_axis_source.v:137, 277. The low bits of the RAM address of a descriptor are ignored: a block that does not start at a multiple of the beat size is read from the address rounded down. The statement of C97 says so.
- C99: rtl/dma_client_axis_sink.v:133, 276. PART_OFFSET_WIDTH is 1 instead of 0 if a beat has one word. With a RAM of more than one word the word for address 1 is written to address 0, and words can be dropped (witness C99_one_word_refuted).
- C99: rtl/dma_client_axis_sink.v:326-332. A descriptor of length 0 makes the cycle count wrap; the whole packet is written, up to 2^CYCLE_COUNT_WIDTH beats (witness C99_zero_refuted).
- C99: rtl/dma_client_axis_sink.v:275-279, 362-366. With AXIS_KEEP_ENABLE = 0 the input tkeep is still used for the byte enables; if it is not tied to one nothing is written, although the status reports the full length (witness C99_no_keep_refuted).
- rtl/pcie_us_cfg.v:40-42, 69 (no property): the parameters READ_EXT_TAG_ENABLE, READ_MAX_READ_REQ_SIZE and READ_MAX_PAYLOAD_SIZE have no effect (READ_REV_CTRL is never used); with all three 0 the register is still polled.
- C103: rtl/pcie_axil_master_minimal.v:442 (also rtl/pcie_axil_master.v:550, rtl/pcie_axi_master_rd.v:430). In [rx_req_tlp_hdr_type & 5'b11000 == 5'b10000] the comparison binds stronger than &, so the test is always false. Messages, which are posted, are answered with an unsupported request completion that no one expects, and reported as correctable instead of uncorrectable error (witness C103_message_refuted).
- C103: rtl/pcie_axil_master_minimal.v:397, 460. Completions without data have byte count 0, which means 4096; PCI Express (2.2.9) asks for 4 in completions that are not for memory reads, and for the number of bytes requested in those for memory reads (witness C103_byte_count_refuted).
- rtl/pcie_axil_master_minimal.v:89, 97 (no property): the AXI responses bresp and rresp are ignored; a read that fails with SLVERR or DECERR is completed as successful.
- C105: rtl/pcie_axi_master_wr.v:405. For the later bursts of a write that is split, input_cycle_count is one too small (the count of the first burst, line 312, includes the beat taken with the header, so input_active ends one beat early): the last beat of a burst uses rx_req_tlp_data without valid or ready, and the count wraps if the burst has no more double words than the offset. Wrong data is written even if the source always has the next beat (witness C105_split_refuted: 8 double words at 0x1004, 64 bits, bursts of 2 beats). rtl/pcie_us_axi_master_wr.v:512 has the same line but another meaning of the count (line 470), where it is right.
- C105: rtl/pcie_axi_master_wr.v:293, 390 (same lines in rtl/pcie_us_axi_master_wr.v:296, 493). The test for a split compares the length only, not length + offset: a write of AXI_MAX_BURST_SIZE bytes that is not aligned is a burst of AXI_MAX_BURST_LEN + 1 beats (C105_burst_refuted). With the default of 256, and 64 bits, 512 double words at an address that is 4 modulo 8: the 8 bit length wraps to 0, one beat is written and the other data is lost without an error (C105_wrap_refuted).
- C105: rtl/pcie_axi_master_wr.v:388-417. The address of the next burst of a split write is put in the output register without a look at m_axi_awvalid_reg, so an address that is not taken yet is replaced (C105_address_refuted).
- C108: rtl/pcie_us_if_rc.v:412-423. With 64 bits, the last beat is recognised only when it is in the saved register (rc_eop_full[0]), and then a beat is put out even if its only double word has already gone out as the upper half of the beat before. Completions with 2, 4, ... double words of data get a full beat that is not marked as last and then an empty beat with eop (witness C108_refuted). rtl/pcie_us_if_cq.v:440-447 is right since its payload is aligned; for 128 bits and more the code looks at the lanes.
- C110: rtl/pcie_us_if_cq.v:359-386, 402-403. The header of a message is made like that of a memory request: bits 71:64 get the byte enables, not the message code, which goes to rx_req_tlp_func_num (witness C110_message_code_refuted).
- C111: rtl/pcie_us_if_cc.v:393, 396. Byte count and double word count are copied from the 12 and 10 bit fields of the TLP, in which 0 stands for 4096 and 1024; the descriptor has 13 and 11 bits and 0 means 0. (pcie_us_if_rq.v:656 does it right.) Completions of 4096 bytes still to come are wrong, as are those with 1024 double words of data (witnesses C111_byte_count_refuted, C111_dword_count_refuted). The Python model unpacks the fields as they are (tb/pcie_us.py:309-338).
- C112: rtl/pcie_us_if_rq.v:655. The address is always taken from bits 63:2 of the header, right only for four double words; the casez below accepts formats 000 and 010, whose address is in bits 63:34 (witness C112_refuted). IO and configuration requests always have such headers; the latter also need a completer ID, which is 0.
- C115: rtl/pcie_us_if_cc.v:165, 508. eop_index has 3 bits per segment although with one segment of 16 lanes it should have 4: a last beat with 9 lanes gets end pointer 0 (witness C115_end_pointer_refuted). No harm if the block uses tlast, as it does without straddling.
- C118: rtl/pcie_ptile_cfg.v:233, 239, 245. The upper halves of cfg_aer_uncor_err_mask, cfg_aer_corr_err_mask and cfg_aer_uncor_err_severity are assigned to [tl_cfg_func*32+32 +: 16] instead of +16. With one function the upper half is never set (witness C118_reports_shown_refuted: bit 22 of the mask); with more, the lower half of the next function is overwritten (witness C118_isolated_refuted).
- C117: rtl/pcie_s10_cfg.v:119, 130, 170 and 142, 169. For the L-Tile several registers set cfg_an_link_width and cfg_an_link_speed; the outputs show the one reported last (witness C117_link_width_refuted). No harm only if the hard block reports the same value in all of them.
- C120: rtl/pcie_ptile_if_rx.v:277. tlp_func_num takes rx_st_func_num[2*seg +: 2], but the input has three bits per segment (rx_st_func_num is SEG_COUNT*3 wide). Functions 4 to 7 come out as 0 to 3, and in segments above 0 the bits are those of neighbours (witness C120_received_refuted: functions 5 and 1 come out as 1 and 3).
- C122: rtl/pcie_tlp_fifo_raw.v:491-494. A TLP with as many beats as the FIFO has entries can never be taken: the read side sees nothing before its end, the write side is full, and only a reset helps (witness C122_ready_refuted). This bounds the payload to less than the DEPTH in each use: 512 double words in the adapters for UltraScale and Stratix 10, 1024 for the P-Tile; nothing checks it.
- C132 (pcie_ptile_fc_counter.v:56-70, pcie_ptile_if_tx.v): consequence of C82 for the whole transmit path. fc_inc_reg keeps its value until the next turn of the limit, so it is added in each of the clocks between two turns, up to fc_cap_reg. With all limits shown in turn (one clock each) and a posted header limit of 8, eleven memory writes of one beat are sent: the core gets more than it allowed.
- **C137: a reset of one clock can leave the H-Tile credit counts one short for good** (rtl/pcie_s10_if_tx.v:489-502). fc_delay_fifo_valid_mem is not cleared by rst. In the first clock after a reset of a single clock fc_count_inst reads slot 0, which may still have the valid bit of a TLP from before; it is subtracted from a count of 0, so int_tx_fc_ph_reg becomes 255 and tx_ph_cdts > int_tx_fc_ph_reg is never true: writes are stopped until the next reset. From the second clock of reset on slot 0 is overwritten, so longer resets are safe (C137_account_partial).
- **C139: a long read which starts in the last word before a boundary of 128 bytes makes the AXI lite master run away** (rtl/pcie_axil_master.v:458-478, 489-507). In the idle state the first completion gets 32 - addr[6:2] words, which is 1 for addr[6:2] = 31, but resp_fifo_wr_last is set only if the whole request has one word, and the state is then always READ_2, with req_dword_count_reg 0. It wraps to 63, req_op_dword_count_reg wraps as well, and a request for 33 words at 0x7c issues 2081 AXI lite reads; the first completion is announced with one word and gets 65 (`C139_reads_refuted`, by evaluation of 2100 clocks).


## Trusted base

* The Coq 8.16.1 kernel, including `vm_compute`.
* The reading of `/repo` recorded in the comment above each definition; the Python and Verilog semantics implied by it.
* No axioms: none of ours, none of the standard library's (see below).

Not modelled, or modelled as an argument:
* Simulator scheduling: generators and coroutines are folded over arbitrary input lists; the wake-up time of waiting processes is not represented.
* Endpoint exceptions inside a simulated read show as a missing completion.
* User callbacks (region read/write functions) are arguments.
* `math.log(size, 2)` is taken as exact.
* Enumeration: configuration requests are delivered to the addressed function (routing is C23); the capability walk, device control programming and MSI set-up inside it are left out.
* printing, logging, and the MyHDL/cocotb libraries themselves.
* `tb/pcie_if.py`: Tlp methods of cocotbext.pcie are those of `TlpModel`; headers are packed bytes; tags of DMA operations are an argument; `match_bar` is an argument; callback regions are left out.
* `tb/pcie_if.py` source and sink: the sink process handles a sample before the next clock edge; reset is left out; ready is an arbitrary value per edge (it depends on occupancy and pause).
* `tb/dma_psdp_ram.py`: `Memory.read`/`write` of cocotbext.axi are an mmap of fixed size (`mm_read`, `mm_write`); coroutines woken by a queue run before the next clock edge; reset is left out; reads see a constant memory.
- AxisModel.v: tb/axis_ep.py with one tdata signal (B = 0), all side-band signals connected, no reset; bool side-band values and log output left out; send copies the frame as AXIStreamFrame(frame) does.
- AxilModel.v: tb/axil.py without reset; init_write/init_read and all processes of one edge (the order of the master's processes is file order, which only changes timing; the order of the two RAM processes is a parameter); the signals start low and bready/rready are high; addresses fit the bus; `int(x/y)` on integers is `int_truediv` (round to nearest even to 53 bits, then truncate).
- AxiModel.v: tb/axi.py without reset; init_write/init_read and all processes of one edge; lock, cache, qos, region and user are not looked at by the RAM and left out; the per-rid response queues of the master are one list searched by rid; the order of the master's processes only changes timing; addresses fit the bus; `size` is not negative.
- IoModel.v: requests are answered before the next one is sent (the loops wait for each completion); the configuration request reaches the function whose bus it names (routing is C23); read_config_register/write_config_register are arguments; only completions are delivered while an operation waits; timeouts are an empty answer.
- UspModel.v: the user-side interfaces of tb/pcie_usp.py and the interrupt and configuration management interfaces of tb/pcie_us.py, edge by edge with the reset inactive; `yield` of an issue_*_interrupt generator is the TLPs it sends; register read and write functions are arguments.
- DmaRamModel.v: tb/dma_ram.py with one clock; the processes of one edge run in an arbitrary given order; logging left out; the memory is a total function with the bounds checks of mmap.
- PortModel.v: send/transmit/connect of Port and BusPort. Trusted about the simulator: events run in order of time, simultaneous ones in any order; a process that executes `yield g, None` is resumed before anything else runs (MyHDL takes waiters from the end of its list). Wire times in exact arithmetic instead of floats. Delivery by a bus port to several peers and the receive handlers are not part of it.
- MsiHostModel.v: the MSI functions of RootComplex over a fixed device tree; alloc_region is an argument (its address); configuration requests reach the device with the given ID and interrupts reach the root complex (C21, C78); generator callbacks are started, what they do is not modelled.
- RtlFcModel.v: rtl/pcie_tlp_fc_count.v and rtl/pcie_ptile_fc_counter.v, two-valued; comparisons with 2'bxx count as false.
- RtlIrqModel.v: rtl/irq_rate_limit.v, two-valued; memory contents before the initial sweep arbitrary.
- RtlMsiModel.v: rtl/pcie_us_msi.v and rtl/pcie_s10_msi.v with the arbiter of RtlModel.v, two-valued; MSI_COUNT from 2 to 32; constant outputs left out.
- RtlMuxModel.v: rtl/axis_arb_mux.v, rtl/pcie_axi_dma_desc_mux.v, rtl/dma_if_desc_mux.v with the arbiter of RtlModel.v, two-valued; 2 or more ports; the concatenated data inputs are functions of the port number, so the slice arithmetic [i*W +: W] of the data paths is not modelled.
- RtlDemuxModel.v: rtl/pcie_us_axis_cq_demux.v and rtl/pcie_us_axis_rc_demux.v, two-valued; tdata, tkeep and tuser are one opaque payload; the field outputs (req_type, target_function, ...), from which the user computes select and drop, are not modelled: select and drop are free inputs.
- rtl/dma_psdpram.v and rtl/dma_psdpram_async.v: RtlRamModel models every segment completely (memory with byte enables, wr_done, read pipeline, power-up values); simultaneous edges of the two clocks of the asynchronous version are taken as non-blocking (the read sees the old word); metastability and the read-during-write attribute of real RAM blocks are not modelled.
- rtl/dma_ram_demux_rd.v and rtl/dma_ram_demux_wr.v: RtlRamDemuxModel models every segment completely (command register, order FIFO, output FIFO, done counters) and the wiring of the inputs of the segments; the parameter checks are the hypothesis x_ok. Reading an out-of-range bit of the answer vectors (x in Verilog) is taken as 0.
- rtl/pcie_tlp_demux.v: everything up to the output registers, which are the outputs if FIFO_ENABLE = 0; match_* outputs are plain wires. rtl/pcie_tlp_demux_bar.v: calcBarIds, the select loops. The pcie_tlp_fifo instances of FIFO_ENABLE = 1 are not modelled.
- rtl/pcie_tlp_mux.v: the whole module; the fields other than valid, sop and eop are one abstract payload per segment.
- rtl/pcie_msix.v: the whole module; out of range reads of the pending bit memory give 0 in the model (unknown in Verilog) and C94 says nothing about them; the 2-bit range [-1:0] of pba_mem_addr for up to 64 vectors is taken as in the Verilog standard.
- rtl/dma_client_axis_source.v: the whole module (parameter checks as src_ok). The RAM is not modelled: for each segment it answers in order, at the earliest one clock after the command, with contents that do not change during the run; a reset drops its open reads. m_axis_read_desc_status_error is constant 0 and left out. out_fifo_half_full_reg is not reset, as in the code.
- rtl/dma_client_axis_sink.v: the whole module (parameter checks as src_ok of RtlSrcSpec). abort is not used by the code and left out, as is the error field of the status, which is constant 0. The RAM is not modelled: it reports a write of a segment as done only after it took it, and a reset drops its open writes. The half full flags are not reset, as in the code.
- rtl/pcie_us_cfg.v: the whole module; the output vectors are functions of the slice number, the constant write data and byte enables are left out. The core is not modelled; it answers only while read is asserted.
- rtl/pcie_axil_master_minimal.v: the whole module (with the parameter checks of lines 118-143); bresp and rresp, which are not used, and constant outputs are left out; completer_id is constant. The nine memories of the response FIFO are one memory of records.
- rtl/pcie_axi_master_wr.v: the whole module with one TLP segment (parameter checks of lines 110-137); bid, bresp and bvalid, which are not used, and constant outputs are left out. Data widths 2^lw double words, lw from 1; AXI_MAX_BURST_LEN 1 to 256.
- rtl/pcie_us_if_cq.v, rtl/pcie_us_if_rc.v: all of the modules but the instance of pcie_tlp_fifo (its ready output is an input of the model and what goes in is seen), the parameter checks, and straddling (CQ_STRADDLE with 512 bits, RC_STRADDLE from 256 bits): one segment. Meaning of the descriptors as in the comments of the source.
- rtl/pcie_us_if_cc.v, rtl/pcie_us_if_rq.v: all but the instances of pcie_tlp_fifo and of the fifo muxes in front (what they show is an input, the read enables are seen), the parameter checks, and straddling: one segment. Assumed of the FIFOs: a beat stays until it is read, the lanes used are the first ones, all lanes except in the last beat, reads have one beat. The user signal while nothing is shown is not modelled. Sequence number return: one channel (the second is a copy).
- rtl/pcie_s10_cfg.v, rtl/pcie_ptile_cfg.v: all; values before the first reset are arbitrary. The layout of the registers in RtlTileCfgSpec is read from the names and positions in the source, upper halves in the order of their registers (not checked with documents of the vendor).
- rtl/pcie_s10_if_rx.v: one segment of 256 bits (SEG_COUNT 1), without the demultiplexer and FIFOs behind it. rtl/pcie_ptile_if_rx.v: all segments, likewise without the demultiplexer and FIFOs. The readyLatency of the hard blocks is not modelled: streams are restricted to beats in clocks in which the FIFO is ready.
- rtl/pcie_tlp_fifo.v, rtl/pcie_tlp_fifo_raw.v: one segment at input and output; not modelled are the packing of several segments and the control output. DEPTH is a multiple of TLP_STRB_WIDTH in the model (it is given in beats).
- rtl/pcie_tlp_fifo_mux.v with its FIFOs (CTRL_OUT_EN): one segment; several segments, that is more than one TLP in a clock, are not modelled. The two read sides of a FIFO have a copy each of the memory and of the write pointers.
- rtl/pcie_ptile_if_tx.v: one segment; the credit counters as in RtlFcModel. tx_st_err and tx_st_tlp_prfx are constants. FIFO_DEPTH is any.
- rtl/dma_if_mux_rd.v, rtl/dma_if_mux_wr.v: one segment of the RAM interface, any of them; the segments share nothing but clock and reset. rtl/dma_if_mux.v only wires the two side by side and is not modelled apart.
- rtl/pcie_s10_if_tx.v: the output side (lines 533-733) for one segment. Data and header are lists of 32-bit words. The FIFO in front of it is a list for each of its two sides (its own model is RtlFifoModel, C121), with stalls at will. The multiplexer in front of it is that of C124; the credit counters (lines 484-529, 736-753) are not modelled.
- rtl/pcie_s10_if_tx.v: the credit accounting (lines 484-529, 736-778) for one segment, with the counts of the multiplexer, the reads of the FIFO and the credits of the core as inputs at will; that the core takes a TLP off its credits within 24 clocks is an assumption of C138_safe, written in its statement. Initial memory contents are arbitrary values instead of X.
- rtl/pcie_axil_master.v: the request side (lines 320-781, 943-1038) for a 64-bit AXI lite address; resp_fifo_half_full_reg is an input at will. The response FIFO and the response side (lines 783-941) are not modelled.

### `Print Assumptions`

Every `Props*.v` file prints the assumptions of each of its theorems at build time. All of the theorems below report *Closed under the global context* (no axioms).

* `PropsAxi.v`: `C33_bursts_partial`, `C33_memory_partial`, `C33_completes_partial`, `C33_write_order_partial`, `C34_bursts_partial`, `C34_memory_partial`, `C34_read_order_partial`, `C34_reads_partial`, `C33_no_awid_refuted`, `C33_float_refuted`, `C34_buser_refuted`, `C34_float_refuted`.
* `PropsAxil.v`: `C35_memory_partial`, `C35_completes_partial`, `C35_write_order_partial`, `C35_read_order_partial`, `C35_concurrent_refuted`, `C35_zero_read_refuted`, `C35_float_refuted`.
* `PropsAxis.v`: `C36_roundtrip_partial`, `C36_keep_refuted`, `C36_empty_refuted`, `C37_in_order_partial`, `C37_completes_partial`, `C37_keep_refuted`, `C66_received_equal_partial`, `C66_zero_last_user_refuted`, `C66_user_list_refuted`.
* `PropsBar.v`: `C14_match_bar_refuted`, `C14_match_bar_partial`, `C14_match_bar_exact`, `C14_programming`, `C14_large_bar_never_matches`, `C15_configure_partial`, `C15_configure_refuses`, `C15_sizing_partial`.
* `PropsCap.v`: `C16_no_overlap_refuted`, `C16_overlap_partial`, `C16_auto_placement_partial`, `C16_explicit_partial`, `C17_walk_partial`, `C17_auto_walk_partial`, `C17_single_capability_raises`, `C17_walk_refuted`, `C18_ext_default_refuted`, `C18_ext_hidden`, `C18_ext_visible_partial`.
* `PropsCfg.v`: `C19_pcie_writes_partial`, `C19_pcie_bad_bits`, `C19_pcie_writes_refuted`, `C19_pcie_write_raises`, `C19_header_writes_partial`, `C19_interrupt_pin_refuted`, `C19_msi_writes`, `C19_msix_writes`, `C46_pcie_layout_partial`, `C46_link_capabilities_refuted`, `C24_msi_message`, `C24_msi_rejected`, `C24_msi_delivery`.
* `PropsDev.v`: `C30_credits`, `C30_no_passing`, `C30_posted_at_once`, `C50_device_dispatch`, `C50_us_dispatch`, `C51_us_request`, `C51_aperture_refuted`, `C52_requester`, `C52_sequence_drains`, `C52_bus_master_refuted`, `C52_index_refuted`, `C53_error_code_refuted`, `C53_error_code_always_normal`, `C54_check_exact`, `C54_memory_length`, `C54_length_range_refuted`, `C55_function_numbers`, `C55_append_smallest`, `C56_status_outputs`, `C56_rcb_refuted`, `C57_copy`, `C57_copy_refuted`.
* `PropsDmaRam.v`: `C77_memory`, `C77_latency`, `C77_ready`, `C77_order`, `C77_geometry_refuted`.
* `PropsEnum.v`: `C20_alloc_refuted`, `C20_alloc_any_partial`, `C20_alloc_partial`, `C20_alloc_io_partial`, `C21_windows_refuted`, `C21_windows_partial`, `C22_bus_numbers`, `C23_unsupported_request_refuted`, `C23_bridge_partial`, `C23_switch_partial`, `C23_first_claim`, `C23_broadcast`, `C23_id_message_refuted`, `C47_delivery_refuted`, `C47_delivery_partial`.
* `PropsIo.v`: `C67_config_read`, `C67_config_read_failed`, `C67_config_write`, `C67_config_write_dword`, `C68_rc_endpoint_io`, `C68_rc_endpoint_io_requests`, `C68_window_of_layout`, `C69_function_rc_io`, `C69_function_io_requests`, `C69_bus_mastering_off`, `C70_local_io_refuted`, `C70_memory_region_hides_io_refuted`, `C70_local_io_partial`, `C71_mem_words`, `C71_words`, `C71_config_words`, `C71_capability_words`, `C71_io_words_refuted`, `C71_write_byte_refuted`, `C72_callback_read_refuted`, `C72_callback_reads_lost`, `C72_callback_write_partial`, `C72_memory_region_partial`.
* `PropsMsiHost.v`: `C80_delivery_partial`, `C80_configure_partial`, `C80_number_refuted`, `C80_many_refuted`.
* `PropsPcieIf.v`: `C38_roundtrip`, `C38_roundtrip_forced`, `C38_roundtrip_io`, `C38_widened_partial`, `C38_forced_refuted`, `C40_tags`, `C40_get_free_tag_refuted`, `C40_get_free_tag_partial`, `C58_dma_mem_write`, `C58_zero_length`, `C59_dma_mem_read`, `C59_zero_length`, `C59_device_to_device`, `C60_parity_values`, `C60_parity_detects`, `C61_request_bar`, `C61_unclaimed`, `C61_config`, `C61_completion`, `C61_func_num_refuted`, `C62_msi_count_partial`, `C62_msi_count_refuted`, `C63_mem_read`, `C63_mem_write`, `C63_io_read`, `C63_io_write`, `C64_dma_io_read`, `C64_dma_io_write`, `C64_write_error`, `C64_device_completer`, `C65_msi`, `C65_msi_unaligned`.
* `PropsPcieIfStream.v`: `C39_in_order`, `C39_complete`, `C39_carried`, `C39_abort_refuted`.
* `PropsPort.v`: `C78_serial_partial`, `C78_completes_partial`, `C78_terminates`, `C78_default_links`, `C78_order_refuted`, `C79_links`, `C79_connect`, `C79_refused`, `C79_self_refuted`, `C79_bus_speed_refuted`.
* `PropsPsdp.v`: `C31_in_order_partial`, `C31_stores_exactly_partial`, `C31_refuses_outside`, `C31_wraps_refuted`, `C32_in_order_partial`, `C32_returns_stored_partial`, `C32_refuses_outside`, `C32_wraps_refuted`.
* `PropsRtl.v`: `C41_priority_encoder`, `C42_one_hot`, `C42_only_requesters`, `C43_no_starvation`, `C43_within_ports_clocks`, `C44_grant_held`, `C45_conservation`, `C45_overflow_refuted`.
* `PropsRtlAxl.v`: `C139_reads_partial`, `C139_reads_refuted`, `C140_held`, `C141_writes`.
* `PropsRtlAxm.v`: `C103_follows_partial`, `C103_kept`, `C103_message_refuted`, `C103_byte_count_refuted`, `C104_progress`, `C104_done`.
* `PropsRtlAxw.v`: `C105_follows_partial`, `C105_kept`, `C105_address_kept_partial`, `C105_split_refuted`, `C105_burst_refuted`, `C105_wrap_refuted`, `C105_address_refuted`, `C106_progress`.
* `PropsRtlCfg.v`: `C101_follows`, `C102_count`.
* `PropsRtlDemux.v`: `C87_route_partial`, `C87_delivered_partial`, `C87_kept`, `C87_ready`, `C87_lost_refuted`, `C87_stale_refuted`, `C87_reset_refuted`.
* `PropsRtlFc.v`: `C81_counts_partial`, `C81_length_refuted`, `C82_exact_partial`, `C82_bounded`, `C82_turns_refuted`.
* `PropsRtlFifo.v`: `C121_delivered`, `C121_drained`, `C121_kept`, `C121_no_gap`, `C122_full`, `C122_ready_partial`, `C122_ready_refuted`, `C123_room`.
* `PropsRtlFmux.v`: `C124_delivered`, `C124_drained`, `C124_kept`, `C125_pause`, `C126_seq`.
* `PropsRtlIfMux.v`: `C133_home`, `C133_ports`, `C134_home`, `C134_ports`, `C134_answers`.
* `PropsRtlIrq.v`: `C83_interval_partial`, `C83_no_spurious`, `C83_delivered_partial`, `C83_prescale`, `C83_wrap_refuted`, `C83_starve_refuted`.
* `PropsRtlMsi.v`: `C84_us_no_spurious`, `C84_us_one_hot`, `C84_us_delivered`, `C84_us_mask_partial`, `C84_s10_no_spurious`, `C84_s10_held`, `C84_s10_delivered`, `C84_s10_mask_partial`, `C84_us_mask_refuted`, `C84_us_disabled_refuted`, `C84_s10_mask_refuted`.
* `PropsRtlMsix.v`: `C94_memory`, `C94_kept`, `C94_served`, `C95_follows_partial`, `C95_no_spurious_partial`, `C95_no_loss_partial`, `C95_kept`, `C95_lost_refuted`, `C95_spurious_refuted`, `C96_delivered_partial`, `C96_starved_refuted`.
* `PropsRtlMux.v`: `C85_merge`, `C85_stable`, `C85_delivered`, `C85_priority_refuted`, `C86_pcie_merge`, `C86_pcie_stable`, `C86_pcie_delivered`, `C86_dma_merge`, `C86_dma_stable`, `C86_dma_delivered`, `C86_pcie_status`, `C86_dma_status`, `C86_status_one`.
* `PropsRtlPtTx.v`: `C127_nogap`, `C128_delivered`, `C129_rules`, `C130_credit`, `C131_covered`.
* `PropsRtlPtTx2.v`: `C132_budget_twice`, `C132_budget_refuted`.
* `PropsRtlRam.v`: `C88_answered`, `C88_kept`, `C88_done`, `C88_ready`, `C88_served`.
* `PropsRtlRamDemux.v`: `C89_routed`, `C89_ordered`, `C89_passed`, `C89_own`, `C89_kept`, `C89_served`, `C89_ready`, `C89_any_port_refuted`, `C89_wired`, `C90_routed`, `C90_sound`, `C90_kept`, `C90_served`, `C90_ready`, `C90_wired`.
* `PropsRtlS10Fc.v`: `C137_account_partial`, `C137_reset_refuted`, `C138_gates`, `C138_safe`.
* `PropsRtlS10Tx.v`: `C135_laid`, `C136_latency`.
* `PropsRtlSink.v`: `C99_follows_partial`, `C99_kept`, `C99_one_word_refuted`, `C99_zero_refuted`, `C99_no_keep_refuted`, `C100_progress_partial`.
* `PropsRtlSrc.v`: `C97_follows_partial`, `C97_kept`, `C97_one_word_refuted`, `C97_zero_refuted`, `C98_progress_partial`.
* `PropsRtlTileCfg.v`: `C116_reports_shown`, `C116_isolated`, `C117_htile_words`, `C117_ltile_words_partial`, `C117_link_width_refuted`, `C118_reports_shown_partial`, `C118_aer_low_partial`, `C118_isolated_partial`, `C118_reports_shown_refuted`, `C118_isolated_refuted`.
* `PropsRtlTileRx.v`: `C119_received`, `C119_complete`, `C120_received_partial`, `C120_complete_partial`, `C120_functions_partial`, `C120_received_refuted`.
* `PropsRtlTlpDemux.v`: `C91_routed`, `C91_packets`, `C91_kept`, `C91_ready`, `C91_served`, `C91_ready_again`, `C91_bar`, `C91_bar_ids`.
* `PropsRtlTlpMux.v`: `C92_merged_partial`, `C92_kept`, `C92_torn_refuted`, `C92_stuck_refuted`, `C93_selected_partial`, `C93_spurious_refuted`.
* `PropsRtlUsIf.v`: `C107_requests`, `C108_completions_wide_partial`, `C108_completions_partial`, `C108_refuted`, `C109_kept`, `C109_progress`, `C110_messages_partial`, `C110_message_code_refuted`.
* `PropsRtlUsTx.v`: `C111_completions_partial`, `C111_byte_count_refuted`, `C111_dword_count_refuted`, `C112_requests_partial`, `C112_refuted`, `C113_kept`, `C113_progress`, `C114_credits`, `C114_sequence_numbers`, `C115_end_pointer_partial`, `C115_end_pointer_refuted`.
* `PropsSplit.v`: `C07_function_mem_write`, `C08_rc_mem_write`, `C08_rc_local_write`, `C09_rc_mem_read`, `C09_rc_local_read`, `C10_function_mem_read_refuted`, `C10_function_mem_read_raises`, `C10_function_mem_read_partial`, `C11_endpoint_completions`, `C11_rc_completions`, `C11_zero_length_read`, `C12_endpoint_write_partial`, `C12_endpoint_write_refuted`, `C12_rc_write`, `C13_rc_endpoint_memory`, `C13_window_of_layout`.
* `PropsTlp.v`: `C01_byte_mask_update`, `C02_pcie_id_roundtrip`, `C03_set_be_selects_range`, `C04_set_be_data_payload`, `C05_lower_address_refuted`, `C05_lower_address_partial`, `C06_completion_roundtrip_partial`, `C06_request_roundtrip_refuted`, `C06_read_unpack_raises`, `C06_config_loses_register`.
* `PropsUs.v`: `C25_cq_layout`, `C25_cq_roundtrip`, `C26_cc_layout`, `C26_cc_roundtrip`, `C26_rc_layout`, `C26_rc_roundtrip`, `C27_rq_layout`, `C27_rq_roundtrip`, `C29_frame_eq_refuted`, `C29_frame_eq_never`, `C48_parity_check`, `C48_unpack_checks`, `C49_rc_byte_lanes`.
* `PropsUsStream.v`: `C28_stream_safe`, `C28_stream_complete`, `C28_stream_progress`, `C28_cq_end_to_end`, `C28_rq_end_to_end`, `C28_cc_end_to_end`, `C28_rc_end_to_end`, `C28_empty_frame_refuted`, `C28_sink_reset_refuted`.
* `PropsUsp.v`: `C73_sequence_numbers`, `C73_sequence_drains`, `C73_bus_master_refuted`, `C74_status`, `C74_link_status`, `C74_overflow_refuted`, `C74_msi_enable_refuted`, `C74_mmenable_refuted`, `C75_msi_request`, `C75_msi_ignored`, `C75_msix_request`, `C75_pending`, `C75_sent_refuted`, `C76_us_management`, `C76_usp_management`, `C76_no_function_refuted`.
