{
 "claims": [
  {
   "property": "C01",
   "status": "proved",
   "theorems": [
    "C01_byte_mask_update"
   ],
   "note": ""
  },
  {
   "property": "C02",
   "status": "proved",
   "theorems": [
    "C02_pcie_id_roundtrip"
   ],
   "note": ""
  },
  {
   "property": "C03",
   "status": "proved",
   "theorems": [
    "C03_set_be_selects_range"
   ],
   "note": ""
  },
  {
   "property": "C04",
   "status": "proved",
   "theorems": [
    "C04_set_be_data_payload"
   ],
   "note": ""
  },
  {
   "property": "C05",
   "status": "partial",
   "theorems": [
    "C05_lower_address_refuted",
    "C05_lower_address_partial"
   ],
   "note": "REFUTED: address & 0x7c + offset parses as address & (0x7c+offset), so the byte offset is lost. Partial: exact value, and it is right iff the first byte is DWORD aligned."
  },
  {
   "property": "C06",
   "status": "partial",
   "theorems": [
    "C06_completion_roundtrip_partial",
    "C06_request_roundtrip_refuted",
    "C06_read_unpack_raises",
    "C06_config_loses_register"
   ],
   "note": "REFUTED for requests (unpack reads the address from the wrong word and shifts the register number by 0x3ff). Proved for all completions; for all reads unpack raises; for all configuration requests only the register number is lost."
  },
  {
   "property": "C14",
   "status": "partial",
   "theorems": [
    "C14_match_bar_refuted",
    "C14_match_bar_partial",
    "C14_match_bar_exact",
    "C14_programming",
    "C14_large_bar_never_matches"
   ],
   "note": "REFUTED: a 32-bit or I/O BAR ignores address bits 32 and up; a 64-bit BAR above 2 GiB never matches. Proved after every history of BAR register writes for addresses below 4 GiB (or layouts of 64-bit BARs only)."
  },
  {
   "property": "C15",
   "status": "partial",
   "theorems": [
    "C15_configure_partial",
    "C15_configure_refuses",
    "C15_sizing_partial"
   ],
   "note": "Proved for every BAR kind up to 2 GiB; larger 64-bit BARs are broken (C14_large_bar_never_matches)."
  },
  {
   "property": "C07",
   "status": "proved",
   "theorems": [
    "C07_function_mem_write"
   ],
   "note": ""
  },
  {
   "property": "C08",
   "status": "proved",
   "theorems": [
    "C08_rc_mem_write",
    "C08_rc_local_write"
   ],
   "note": ""
  },
  {
   "property": "C09",
   "status": "proved",
   "theorems": [
    "C09_rc_mem_read",
    "C09_rc_local_read"
   ],
   "note": ""
  },
  {
   "property": "C10",
   "status": "partial",
   "theorems": [
    "C10_function_mem_read_refuted",
    "C10_function_mem_read_raises",
    "C10_function_mem_read_partial"
   ],
   "note": "REFUTED: byte enables of every request are computed from the whole length (pcie.py:1999); every read needing more than one request raises AssertionError. Reads that fit one request are proved correct."
  },
  {
   "property": "C11",
   "status": "proved",
   "theorems": [
    "C11_endpoint_completions",
    "C11_rc_completions",
    "C11_zero_length_read"
   ],
   "note": ""
  },
  {
   "property": "C12",
   "status": "partial",
   "theorems": [
    "C12_endpoint_write_partial",
    "C12_endpoint_write_refuted",
    "C12_rc_write"
   ],
   "note": "REFUTED for endpoint writes inside the BAR window but past the end of a region whose size is not a power of two (the bytearray grows). Proved for every byte-enable pattern when the DWORDs lie inside the region; proved for the root complex's mmap regions."
  },
  {
   "property": "C13",
   "status": "proved",
   "theorems": [
    "C13_rc_endpoint_memory",
    "C13_window_of_layout"
   ],
   "note": ""
  },
  {
   "property": "C16",
   "status": "partial",
   "theorems": [
    "C16_no_overlap_refuted",
    "C16_overlap_partial",
    "C16_explicit_partial",
    "C16_auto_placement_partial"
   ],
   "note": "REFUTED: the automatic-placement scan compares with < where <= is needed. Proved: any sequence of registrations shares at most one end register per pair; automatic placement of distinct capabilities of 2+ registers never overlaps and packs them."
  },
  {
   "property": "C17",
   "status": "partial",
   "theorems": [
    "C17_walk_partial",
    "C17_auto_walk_partial",
    "C17_single_capability_raises",
    "C17_walk_refuted"
   ],
   "note": "REFUTED: a list with one capability has next pointer None and its header raises; placements past register 63 wrap. Proved for every non-overlapping list of two or more inside the legacy space, and on inputs alone for automatic placement."
  },
  {
   "property": "C18",
   "status": "partial",
   "theorems": [
    "C18_ext_default_refuted",
    "C18_ext_hidden",
    "C18_ext_visible_partial"
   ],
   "note": "REFUTED: extended capabilities start at register 0x40 but reads are routed to them only from register 256."
  },
  {
   "property": "C19",
   "status": "partial",
   "theorems": [
    "C19_pcie_writes_partial",
    "C19_pcie_bad_bits",
    "C19_pcie_writes_refuted",
    "C19_pcie_write_raises",
    "C19_header_writes_partial",
    "C19_interrupt_pin_refuted",
    "C19_msi_writes",
    "C19_msix_writes"
   ],
   "note": "REFUTED for six bits of the PCI Express capability (read completion boundary/link disable, two read-only status bits, selectable de-emphasis, link equalization request) and the interrupt pin; proved for every other bit of every register after every history of writes; MSI and MSI-X proved in full."
  },
  {
   "property": "C24",
   "status": "proved",
   "theorems": [
    "C24_msi_message",
    "C24_msi_rejected",
    "C24_msi_delivery"
   ],
   "note": ""
  },
  {
   "property": "C46",
   "status": "partial",
   "theorems": [
    "C46_pcie_layout_partial",
    "C46_link_capabilities_refuted"
   ],
   "note": "REFUTED for Link Capabilities (fields shifted right instead of left); proved for all other registers and bits."
  },
  {
   "property": "C20",
   "status": "partial",
   "theorems": [
    "C20_alloc_refuted",
    "C20_alloc_any_partial",
    "C20_alloc_partial",
    "C20_alloc_io_partial"
   ],
   "note": "REFUTED: the allocator's limit is the last byte of a region, so an odd-sized region can share its last byte with the next one (sizes 5, 4). Proved: any sequence of sizes is aligned and overlaps in at most one byte per pair; sequences of even sizes are disjoint and looked up correctly."
  },
  {
   "property": "C21",
   "status": "partial",
   "theorems": [
    "C21_windows_refuted",
    "C21_windows_partial"
   ],
   "note": "REFUTED when memory space runs past 4 GiB (64-bit non-prefetchable BARs): bridge windows hold 32 bits only and the BARs fall outside them. Proved for every finite tree whose allocation still fits the window registers."
  },
  {
   "property": "C22",
   "status": "proved",
   "theorems": [
    "C22_bus_numbers"
   ],
   "note": ""
  },
  {
   "property": "C23",
   "status": "partial",
   "theorems": [
    "C23_unsupported_request_refuted",
    "C23_bridge_partial",
    "C23_switch_partial",
    "C23_first_claim",
    "C23_broadcast",
    "C23_id_message_refuted"
   ],
   "note": "REFUTED in two places: a bridge drops unclaimed requests without an unsupported request completion, and a switch routes ID messages by the requester's bus. Forwarding of every packet on both sides of a bridge, and routing on a switch's internal bus for all other kinds, proved exactly."
  },
  {
   "property": "C47",
   "status": "partial",
   "theorems": [
    "C47_delivery_refuted",
    "C47_delivery_partial"
   ],
   "note": "REFUTED: a 32-bit BAR aliases 64-bit prefetchable addresses with the same low half. Proved for every tree and every address not aliased."
  },
  {
   "property": "C25",
   "status": "proved",
   "theorems": [
    "C25_cq_layout",
    "C25_cq_roundtrip"
   ],
   "note": ""
  },
  {
   "property": "C26",
   "status": "proved",
   "theorems": [
    "C26_cc_layout",
    "C26_cc_roundtrip",
    "C26_rc_layout",
    "C26_rc_roundtrip"
   ],
   "note": ""
  },
  {
   "property": "C27",
   "status": "proved",
   "theorems": [
    "C27_rq_layout",
    "C27_rq_roundtrip"
   ],
   "note": ""
  },
  {
   "property": "C29",
   "status": "partial",
   "theorems": [
    "C29_frame_eq_refuted",
    "C29_frame_eq_never"
   ],
   "note": "REFUTED: USPcieFrame.__eq__ tests isinstance(other, TLP_us), so a frame is never equal to anything; compared with a TLP of equal data it raises AttributeError."
  },
  {
   "property": "C48",
   "status": "proved",
   "theorems": [
    "C48_parity_check",
    "C48_unpack_checks"
   ],
   "note": ""
  },
  {
   "property": "C49",
   "status": "proved",
   "theorems": [
    "C49_rc_byte_lanes"
   ],
   "note": ""
  },
  {
   "property": "C28",
   "status": "partial",
   "theorems": [
    "C28_stream_safe",
    "C28_stream_complete",
    "C28_stream_progress",
    "C28_cq_end_to_end",
    "C28_rq_end_to_end",
    "C28_cc_end_to_end",
    "C28_rc_end_to_end",
    "C28_empty_frame_refuted",
    "C28_sink_reset_refuted"
   ],
   "note": "REFUTED for a frame without data (silently dropped) and across a reset of the sink alone (a transfer is taken twice); proved for all sequences of non-empty frames, all widths, all pause schedules, without resets, with progress, and end to end with the descriptors."
  },
  {
   "property": "C30",
   "status": "proved",
   "theorems": [
    "C30_credits",
    "C30_no_passing",
    "C30_posted_at_once"
   ],
   "note": ""
  },
  {
   "property": "C50",
   "status": "proved",
   "theorems": [
    "C50_device_dispatch",
    "C50_us_dispatch",
    "C51_us_request"
   ],
   "note": ""
  },
  {
   "property": "C51",
   "status": "partial",
   "theorems": [
    "C51_us_request",
    "C51_aperture_refuted"
   ],
   "note": "REFUTED: the aperture is always read from the first function's BAR registers; proved when all functions have BARs of the same kinds and sizes (BAR index and completer ID too)."
  },
  {
   "property": "C52",
   "status": "partial",
   "theorems": [
    "C52_requester",
    "C52_sequence_drains",
    "C52_bus_master_refuted",
    "C52_index_refuted"
   ],
   "note": "REFUTED for function numbers with gaps: the function list is indexed by function number, so another function's bus master enable is tested or IndexError is raised; proved for numbers 0, 1, 2, ..."
  },
  {
   "property": "C53",
   "status": "partial",
   "theorems": [
    "C53_error_code_refuted",
    "C53_error_code_always_normal"
   ],
   "note": "REFUTED: the code assigns attribute `error` instead of `error_code`; every completion is reported as normal termination."
  },
  {
   "property": "C54",
   "status": "partial",
   "theorems": [
    "C54_check_exact",
    "C54_memory_length",
    "C54_length_range_refuted"
   ],
   "note": "REFUTED for the length range (`0 > length > 1024` is never true); the check is proved equivalent to the remaining conditions."
  },
  {
   "property": "C55",
   "status": "proved",
   "theorems": [
    "C55_function_numbers",
    "C55_append_smallest"
   ],
   "note": ""
  },
  {
   "property": "C56",
   "status": "partial",
   "theorems": [
    "C56_status_outputs",
    "C56_rcb_refuted"
   ],
   "note": "REFUTED for cfg_rcb_status (bit 1 shows function 0); proved for the other outputs."
  },
  {
   "property": "C57",
   "status": "partial",
   "theorems": [
    "C57_copy",
    "C57_copy_refuted"
   ],
   "note": "REFUTED: `th` is not copied; proved for TLPs without processing hint."
  },
  {
   "property": "C41",
   "status": "proved",
   "theorems": [
    "C41_priority_encoder"
   ],
   "note": ""
  },
  {
   "property": "C42",
   "status": "proved",
   "theorems": [
    "C42_one_hot",
    "C42_only_requesters"
   ],
   "note": ""
  },
  {
   "property": "C43",
   "status": "proved",
   "theorems": [
    "C43_no_starvation",
    "C43_within_ports_clocks"
   ],
   "note": ""
  },
  {
   "property": "C44",
   "status": "proved",
   "theorems": [
    "C44_grant_held"
   ],
   "note": ""
  },
  {
   "property": "C45",
   "status": "proved",
   "theorems": [
    "C45_conservation",
    "C45_overflow_refuted"
   ],
   "note": "The property assumes no counter overflow; the second theorem shows the assumption is needed."
  },
  {
   "property": "C38",
   "status": "partial",
   "theorems": [
    "C38_roundtrip",
    "C38_roundtrip_forced",
    "C38_roundtrip_io",
    "C38_widened_partial",
    "C38_forced_refuted"
   ],
   "note": "REFUTED for forced 32-bit memory and atomic requests: they come back as the 64-bit type with the same address (C38_widened_partial is the strongest true statement); exact round trip for all other types."
  },
  {
   "property": "C40",
   "status": "partial",
   "theorems": [
    "C40_tags",
    "C40_get_free_tag_refuted",
    "C40_get_free_tag_partial"
   ],
   "note": "Proved for alloc_tag/release_tag of tb/pcie_if.py; REFUTED for get_free_tag of tb/pcie.py, where only tag_count consecutive tags are distinct."
  },
  {
   "property": "C58",
   "status": "proved",
   "theorems": [
    "C58_dma_mem_write",
    "C58_zero_length"
   ],
   "note": ""
  },
  {
   "property": "C59",
   "status": "proved",
   "theorems": [
    "C59_dma_mem_read",
    "C59_zero_length",
    "C59_device_to_device"
   ],
   "note": ""
  },
  {
   "property": "C60",
   "status": "proved",
   "theorems": [
    "C60_parity_values",
    "C60_parity_detects"
   ],
   "note": ""
  },
  {
   "property": "C61",
   "status": "partial",
   "theorems": [
    "C61_request_bar",
    "C61_unclaimed",
    "C61_config",
    "C61_completion",
    "C61_func_num_refuted"
   ],
   "note": "REFUTED for the function number of requests: it is the requester's. Everything else proved."
  },
  {
   "property": "C62",
   "status": "partial",
   "theorems": [
    "C62_msi_count_partial",
    "C62_msi_count_refuted"
   ],
   "note": "REFUTED for functions 2 and 3 (count-2 and count-3); proved for functions 0 and 1."
  },
  {
   "property": "C63",
   "status": "proved",
   "theorems": [
    "C63_mem_read",
    "C63_mem_write",
    "C63_io_read",
    "C63_io_write"
   ],
   "note": ""
  },
  {
   "property": "C64",
   "status": "proved",
   "theorems": [
    "C64_dma_io_read",
    "C64_dma_io_write",
    "C64_write_error",
    "C64_device_completer"
   ],
   "note": ""
  },
  {
   "property": "C65",
   "status": "proved",
   "theorems": [
    "C65_msi",
    "C65_msi_unaligned"
   ],
   "note": ""
  },
  {
   "property": "C39",
   "status": "partial",
   "theorems": [
    "C39_in_order",
    "C39_complete",
    "C39_carried",
    "C39_abort_refuted"
   ],
   "note": "REFUTED as stated for one field: a frame's tlp_abort flag is neither driven by the source nor read by the sink, so a received frame can differ from the sent one (C39_abort_refuted). Everything else is proved for every number of segments, lanes, set of optional signals, history, process schedule and backpressure pattern: no sink assertion fails, frames arrive in order, each once (C39_in_order), and all arrive once the interface is not held (C39_complete). No reset."
  },
  {
   "property": "C31",
   "status": "partial",
   "theorems": [
    "C31_in_order_partial",
    "C31_stores_exactly_partial",
    "C31_refuses_outside",
    "C31_wraps_refuted"
   ],
   "note": "REFUTED as stated for byte-lane counts that are not a power of two: the accepted address range is larger than the segments, and an accepted write past them lands at a wrapped address (C31_wraps_refuted). Proved for every geometry, every list of writes inside the segments, every interleaving with paused and unpaused clock edges: no exception, in-order completion, and exactly the memory of a plain byte store. For power-of-two byte lanes every other write is refused (C31_refuses_outside), so nothing is missing there. Resets are not modelled."
  },
  {
   "property": "C32",
   "status": "partial",
   "theorems": [
    "C32_in_order_partial",
    "C32_returns_stored_partial",
    "C32_refuses_outside",
    "C32_wraps_refuted"
   ],
   "note": "REFUTED as stated for byte-lane counts that are not a power of two: an accepted read past the segments returns the bytes of a wrapped address (C32_wraps_refuted). Proved for every geometry, every list of reads inside the segments and every pause pattern: no exception, reads complete in order with exactly the stored bytes. For power-of-two byte lanes every other read is refused (C32_refuses_outside). The memory is constant during the reads; resets are not modelled."
  },
  {
   "property": "C36",
   "status": "partial",
   "theorems": [
    "C36_roundtrip_partial",
    "C36_keep_refuted",
    "C36_empty_refuted"
   ],
   "note": "REFUTED as stated for a frame with an explicit keep that masks data and for the empty frame. Proved for every non-empty frame of words of any width on any number of lanes, without keep or with the keep that covers the data: the beats are re-assembled to the same data, keep, id, dest and user. The mode with several tdata signals (B > 0) is not modelled."
  },
  {
   "property": "C37",
   "status": "partial",
   "theorems": [
    "C37_in_order_partial",
    "C37_completes_partial",
    "C37_keep_refuted"
   ],
   "note": "REFUTED for a frame with a keep list of its own that is not contiguous (the sink asserts). Proved for every sequence of non-empty frames whose keep, if given, covers the data and whose list fields have one entry per beat, any interleaving of sends with clock edges and any pause pattern of both sides: no exception, frames arrive complete, once and in order, and all arrive once clocks run without pause. Reset is not modelled."
  },
  {
   "property": "C66",
   "status": "partial",
   "theorems": [
    "C66_received_equal_partial",
    "C66_zero_last_user_refuted",
    "C66_user_list_refuted"
   ],
   "note": "REFUTED for last_cycle_user = 0 and for a user list whose last entry differs from last_cycle_user. Proved for frames without last_cycle_user, and for non-zero last_cycle_user with user None or int."
  },
  {
   "property": "C35",
   "status": "partial",
   "theorems": [
    "C35_memory_partial",
    "C35_completes_partial",
    "C35_write_order_partial",
    "C35_read_order_partial",
    "C35_concurrent_refuted",
    "C35_zero_read_refuted",
    "C35_float_refuted"
   ],
   "note": "REFUTED as stated: a read in flight together with a write moves the shared mmap position, so the write data lands at the address after the read (C35_concurrent_refuted, for either process order); an empty aligned read leaves an orphan address on the bus and shifts the answers of later reads (C35_zero_read_refuted); word addresses go through a float division and are wrong from 2^53 words on (C35_float_refuted). Proved for every power-of-two number of byte lanes up to 128, every memory size that is a multiple of it, every latency, either process order, and every sequence of batches (a batch: any number of writes, or any number of non-empty reads, of any address and length up to 2^52, interleaved with clock edges in any way; the next batch starts when the master is idle): no exception, every batch completes, the memory is that of a plain byte store, reads return the stored bytes, answers come in order, and inside a batch an answered write is in memory. Reset is not modelled."
  },
  {
   "property": "C33",
   "status": "partial",
   "theorems": [
    "C33_bursts_partial",
    "C33_memory_partial",
    "C33_completes_partial",
    "C33_write_order_partial",
    "C33_no_awid_refuted",
    "C33_float_refuted"
   ],
   "note": "REFUTED as stated: with awid not connected the first write raises AttributeError (C33_no_awid_refuted), and addresses above 2^53 are rounded by the float division (C33_float_refuted). Strongest true restriction proved, for every lane count, memory size, max_burst_len, transfer size, list of writes and reads in flight together, every pause pattern on all ten channel ends and both orders of the RAM processes, with addresses up to 2^52 and awid connected: legal INCR bursts inside 4 KiB, one strobed beat per burst address storing exactly the bytes, memory equal to the writes in order, answered writes stored, no exception, everything completes."
  },
  {
   "property": "C34",
   "status": "partial",
   "theorems": [
    "C34_bursts_partial",
    "C34_memory_partial",
    "C34_read_order_partial",
    "C34_reads_partial",
    "C34_buser_refuted",
    "C34_float_refuted"
   ],
   "note": "REFUTED as stated: with buser but not ruser connected every read raises TypeError (C34_buser_refuted), and addresses above 2^53 are rounded (C34_float_refuted). Strongest true restriction proved: reads are answered in order with exactly the stored bytes; a read overlapping writes sees each byte as of some moment of those writes."
  },
  {
   "property": "C67",
   "status": "proved",
   "theorems": [
    "C67_config_read",
    "C67_config_read_failed",
    "C67_config_write",
    "C67_config_write_dword"
   ],
   "note": "The register file and its read/write functions are arbitrary; the particular registers are C19 and C46. A device that raises is not covered."
  },
  {
   "property": "C68",
   "status": "proved",
   "theorems": [
    "C68_rc_endpoint_io",
    "C68_rc_endpoint_io_requests",
    "C68_window_of_layout"
   ],
   "note": "The window must not overlap a memory region of the root complex numerically (see C70)."
  },
  {
   "property": "C69",
   "status": "proved",
   "theorems": [
    "C69_function_rc_io",
    "C69_function_io_requests",
    "C69_bus_mastering_off"
   ],
   "note": ""
  },
  {
   "property": "C70",
   "status": "partial",
   "theorems": [
    "C70_local_io_refuted",
    "C70_memory_region_hides_io_refuted",
    "C70_local_io_partial"
   ],
   "note": "REFUTED: io_read and io_write test find_region (memory regions) instead of find_io_region. Strongest true restriction proved: with a memory region at the same address the access is served locally and correctly; without one it goes to the bus (C68)."
  },
  {
   "property": "C71",
   "status": "partial",
   "theorems": [
    "C71_mem_words",
    "C71_words",
    "C71_config_words",
    "C71_capability_words",
    "C71_io_words_refuted",
    "C71_write_byte_refuted"
   ],
   "note": "REFUTED for the I/O helpers (io_read is called with two arguments too many) and for every *_write_byte (passes a list). Proved for the word, dword and qword helpers of memory, configuration and capability accesses."
  },
  {
   "property": "C72",
   "status": "partial",
   "theorems": [
    "C72_callback_read_refuted",
    "C72_callback_reads_lost",
    "C72_callback_write_partial",
    "C72_memory_region_partial"
   ],
   "note": "REFUTED for reads (the value is dropped, or a NameError) and for endpoint writes (NameError). Proved for root complex writes."
  },
  {
   "property": "C73",
   "status": "partial",
   "theorems": [
    "C73_sequence_numbers",
    "C73_sequence_drains",
    "C73_bus_master_refuted"
   ],
   "note": "REFUTED for function numbers with gaps, as C52 (the function list is indexed by function number); proved for numbers 0, 1, 2, ..."
  },
  {
   "property": "C74",
   "status": "partial",
   "theorems": [
    "C74_status",
    "C74_link_status",
    "C74_overflow_refuted",
    "C74_msi_enable_refuted",
    "C74_mmenable_refuted"
   ],
   "note": "REFUTED for more than four functions (ValueError) and for the MSI outputs of functions 2 and 3 (always 0); proved for cfg_function_status and cfg_rcb_status with up to four functions and for the link outputs. The MSI outputs of functions 0 and 1 are C56."
  },
  {
   "property": "C75",
   "status": "partial",
   "theorems": [
    "C75_msi_request",
    "C75_msi_ignored",
    "C75_msix_request",
    "C75_pending",
    "C75_sent_refuted"
   ],
   "note": "REFUTED for the sent output: a request refused because MSI is disabled or the number out of range is reported sent, and fail is never set. Everything else proved, for both cores."
  },
  {
   "property": "C76",
   "status": "partial",
   "theorems": [
    "C76_us_management",
    "C76_usp_management",
    "C76_no_function_refuted"
   ],
   "note": "REFUTED for a function that does not exist (IndexError stops the simulation); proved for existing functions, arbitrary register files, both cores. The four clock delay of the real core is marked TODO in the source."
  },
  {
   "property": "C77",
   "status": "proved",
   "theorems": [
    "C77_memory",
    "C77_latency",
    "C77_ready",
    "C77_order",
    "C77_geometry_refuted"
   ],
   "note": "C77_geometry_refuted shows that the two conditions on the geometry (not checked by the code) are needed."
  },
  {
   "property": "C78",
   "status": "partial",
   "theorems": [
    "C78_serial_partial",
    "C78_completes_partial",
    "C78_terminates",
    "C78_default_links",
    "C78_order_refuted"
   ],
   "note": "REFUTED for links on which a TLP takes less than one time unit (Gen 3 x32 and faster): int(d) is 0 and TLPs may be swapped. Proved for every wire time of at least 1, in particular up to Gen 3 x16, for every order of simultaneous events."
  },
  {
   "property": "C79",
   "status": "partial",
   "theorems": [
    "C79_links",
    "C79_connect",
    "C79_refused",
    "C79_self_refuted",
    "C79_bus_speed_refuted"
   ],
   "note": "REFUTED for a port connected to itself (refused, but connected) and for bus ports, whose speed is that of the last connection. Proved otherwise."
  },
  {
   "property": "C80",
   "status": "partial",
   "theorems": [
    "C80_delivery_partial",
    "C80_configure_partial",
    "C80_number_refuted",
    "C80_many_refuted"
   ],
   "note": "REFUTED for registrations of vectors above 31 (they land on the next device) and for more than 2048 devices (the 16 bit message data wraps). Proved for every tree with distinct IDs, vectors 0 to 31 and up to 2048 configured devices."
  },
  {
   "property": "C81",
   "status": "partial",
   "theorems": [
    "C81_counts_partial",
    "C81_length_refuted"
   ],
   "note": "REFUTED for payloads above 512 DWORDs: 9 of the 10 bits of the length field are used. Proved for every payload up to 512 DWORDs, any number of segments, modulo the output widths."
  },
  {
   "property": "C82",
   "status": "partial",
   "theorems": [
    "C82_exact_partial",
    "C82_bounded",
    "C82_turns_refuted"
   ],
   "note": "REFUTED when the limits of several counters are shown in turn (as the P-Tile does): the last increment is added in every cycle. Proved exact when the limit is shown in every cycle; bounded by the first limit always."
  },
  {
   "property": "C83",
   "status": "partial",
   "theorems": [
    "C83_interval_partial",
    "C83_no_spurious",
    "C83_delivered_partial",
    "C83_prescale",
    "C83_wrap_refuted",
    "C83_starve_refuted"
   ],
   "note": "REFUTED twice: the minimum interval is not kept when the deadline carries out of 17 bits, and a steady stream of requests for one index starves the others. Proved: interval when the deadline does not carry; no spurious interrupts always; delivery when requests cease and the output is ready, up to 2^14 indices; the tick rate."
  },
  {
   "property": "C84",
   "status": "partial",
   "theorems": [
    "C84_us_no_spurious",
    "C84_us_one_hot",
    "C84_us_delivered",
    "C84_us_mask_partial",
    "C84_s10_no_spurious",
    "C84_s10_held",
    "C84_s10_delivered",
    "C84_s10_mask_partial",
    "C84_us_mask_refuted",
    "C84_us_disabled_refuted",
    "C84_s10_mask_refuted"
   ],
   "note": "REFUTED: a grant given before MSI is switched off is kept and the message is handed over later although masked, or (UltraScale) with MSI of function 0 off when another function is enabled. Proved: one at a time, no spurious messages, every rise answered (round robin, with failures), and masked messages not sent unless MSI was off in between."
  },
  {
   "property": "C85",
   "status": "proved",
   "theorems": [
    "C85_merge",
    "C85_stable",
    "C85_delivered",
    "C85_priority_refuted"
   ],
   "note": "Delivery is for round robin; C85_priority_refuted shows that with fixed priority (the default) a beat may stay inside for ever."
  },
  {
   "property": "C86",
   "status": "proved",
   "theorems": [
    "C86_pcie_merge",
    "C86_pcie_stable",
    "C86_pcie_delivered",
    "C86_dma_merge",
    "C86_dma_stable",
    "C86_dma_delivered",
    "C86_pcie_status",
    "C86_dma_status",
    "C86_status_one"
   ],
   "note": ""
  },
  {
   "property": "C87",
   "status": "partial",
   "theorems": [
    "C87_route_partial",
    "C87_delivered_partial",
    "C87_kept",
    "C87_ready",
    "C87_lost_refuted",
    "C87_stale_refuted",
    "C87_reset_refuted"
   ],
   "note": "REFUTED: a beat is lost after a dropped frame while an output is held up; for a data width of 64 the last beat of a dropped frame, or a beat taken before a reset, is sent out with the next frame. Strongest true restriction proved: exact routing if no frame to be sent begins at the very clock after a dropped one that ended while an offer was held up; for width 64 if no frame is dropped and the reset comes first. C87_kept and C87_ready hold without restriction."
  },
  {
   "property": "C88",
   "status": "proved",
   "theorems": [
    "C88_answered",
    "C88_kept",
    "C88_done",
    "C88_ready",
    "C88_served"
   ],
   "note": "Each segment; both clocks at once gives the old word, as for the non-blocking assignments of the source."
  },
  {
   "property": "C89",
   "status": "proved",
   "theorems": [
    "C89_routed",
    "C89_ordered",
    "C89_passed",
    "C89_own",
    "C89_kept",
    "C89_served",
    "C89_ready",
    "C89_wired",
    "C89_any_port_refuted"
   ],
   "note": "C89_any_port_refuted shows why the last part needs the client to ask only ports that exist."
  },
  {
   "property": "C90",
   "status": "proved",
   "theorems": [
    "C90_routed",
    "C90_sound",
    "C90_kept",
    "C90_served",
    "C90_ready",
    "C90_wired"
   ],
   "note": "Same assumption on the ports used as in C89 for the last part."
  },
  {
   "property": "C91",
   "status": "proved",
   "theorems": [
    "C91_routed",
    "C91_packets",
    "C91_kept",
    "C91_ready",
    "C91_served",
    "C91_ready_again",
    "C91_bar",
    "C91_bar_ids"
   ],
   "note": "With FIFO_ENABLE the ports are the inputs of the pcie_tlp_fifo instances, which are not part of this model."
  },
  {
   "property": "C92",
   "status": "partial",
   "theorems": [
    "C92_merged_partial",
    "C92_kept",
    "C92_torn_refuted",
    "C92_stuck_refuted"
   ],
   "note": "REFUTED as stated: with four segments per beat a packet of one port can be sent in the middle of a packet of another (C92_torn_refuted), and a beat that is partly filled without ending its packet is never sent (C92_stuck_refuted). Strongest true restriction proved: the merge holds for one or two segments per beat, and for any number when beats are full or empty; stability always."
  },
  {
   "property": "C93",
   "status": "partial",
   "theorems": [
    "C93_selected_partial",
    "C93_spurious_refuted"
   ],
   "note": "REFUTED as stated: with two segments per beat a sequence number is reported for a packet that does not exist (C93_spurious_refuted). Strongest true restriction proved: it holds for any number of segments (also one) when beats are full or empty."
  },
  {
   "property": "C94",
   "status": "proved",
   "theorems": [
    "C94_memory",
    "C94_kept",
    "C94_served"
   ],
   "note": "For data widths 8, 16, 32, 64 and any index and address width allowed by the code. Nothing is said about reads of pending bit words that do not exist (unknown in Verilog)."
  },
  {
   "property": "C95",
   "status": "partial",
   "theorems": [
    "C95_follows_partial",
    "C95_no_spurious_partial",
    "C95_no_loss_partial",
    "C95_kept",
    "C95_lost_refuted",
    "C95_spurious_refuted"
   ],
   "note": "REFUTED as stated: with the default parameters a request for vector 32 while masked is lost (C95_lost_refuted) and later the message of vector 96, never requested, is sent (C95_spurious_refuted). Strongest true restriction proved: everything holds, for every index width, when only the first 32 vectors are requested; stability always."
  },
  {
   "property": "C96",
   "status": "partial",
   "theorems": [
    "C96_delivered_partial",
    "C96_starved_refuted"
   ],
   "note": "REFUTED as stated: a masked pending vector is tried again and again and keeps other pending vectors from being delivered for ever, even with two vectors (C96_starved_refuted). Strongest true restriction proved: requests for the first 32 vectors are delivered when no vector is masked, after at most 5*2^W+8 clocks in which a message would be taken."
  },
  {
   "property": "C97",
   "status": "partial",
   "theorems": [
    "C97_follows_partial",
    "C97_kept",
    "C97_one_word_refuted",
    "C97_zero_refuted"
   ],
   "note": "REFUTED as stated: with beats of one word and a wider RAM the wrong words are sent (C97_one_word_refuted), and a block of no words sends 2^CYCLE_COUNT_WIDTH beats (C97_zero_refuted). Strongest true restriction proved: lengths of at least 1 and beats of more than one word or as wide as the RAM. Segment counts, segment widths and beat widths are powers of two (for the first the module has no check)."
  },
  {
   "property": "C98",
   "status": "partial",
   "theorems": [
    "C98_progress_partial"
   ],
   "note": "Same restriction as C97 (the refutations of C97 show why); nothing else is missing."
  },
  {
   "property": "C99",
   "status": "partial",
   "theorems": [
    "C99_follows_partial",
    "C99_kept",
    "C99_one_word_refuted",
    "C99_zero_refuted",
    "C99_no_keep_refuted"
   ],
   "note": "REFUTED as stated: with beats of one word and a wider RAM words go to the wrong address (C99_one_word_refuted), a block of no words is written without limit (C99_zero_refuted), and tkeep is used although AXIS_KEEP_ENABLE is 0 (C99_no_keep_refuted). Strongest true restriction proved: lengths of at least 1, beats of more than one word or as wide as the RAM, tkeep tied to one if AXIS_KEEP_ENABLE is 0. Segment counts, segment widths and beat widths are powers of two (for the first the module has no check)."
  },
  {
   "property": "C100",
   "status": "partial",
   "theorems": [
    "C100_progress_partial"
   ],
   "note": "Same restriction as C99 (the refutations of C99 show why); nothing else is missing."
  },
  {
   "property": "C101",
   "status": "proved",
   "theorems": [
    "C101_follows"
   ],
   "note": "Assumes that the core answers only while read is asserted (Example C101_unasked shows that this is needed)."
  },
  {
   "property": "C102",
   "status": "proved",
   "theorems": [
    "C102_count"
   ],
   "note": "Same assumption as C101."
  },
  {
   "property": "C103",
   "status": "partial",
   "theorems": [
    "C103_follows_partial",
    "C103_kept",
    "C103_message_refuted",
    "C103_byte_count_refuted"
   ],
   "note": "REFUTED as stated: messages are answered with an unsupported request completion and reported as correctable (C103_message_refuted). Strongest true restriction proved: all TLPs but messages (headers with prefix format excluded). The byte count of completions without data is left open there, since it is 0 and not 4 (C103_byte_count_refuted)."
  },
  {
   "property": "C104",
   "status": "proved",
   "theorems": [
    "C104_progress",
    "C104_done"
   ],
   "note": "C104_progress is for all TLPs; C104_done, which says that the responses of C103 were given, for those for which C103 holds."
  },
  {
   "property": "C105",
   "status": "partial",
   "theorems": [
    "C105_follows_partial",
    "C105_kept",
    "C105_address_kept_partial",
    "C105_split_refuted",
    "C105_burst_refuted",
    "C105_wrap_refuted",
    "C105_address_refuted"
   ],
   "note": "REFUTED as stated for writes that do not fit in one burst: wrong data (C105_split_refuted), bursts longer than the limit (C105_burst_refuted), data lost (C105_wrap_refuted), addresses overwritten (C105_address_refuted). Strongest true restriction proved: all writes with offset + length of at most AXI_MAX_BURST_LEN beats, and all other TLPs; C105_kept is for all."
  },
  {
   "property": "C106",
   "status": "proved",
   "theorems": [
    "C106_progress"
   ],
   "note": "For writes that fit in a burst, as stated."
  },
  {
   "property": "C107",
   "status": "proved",
   "theorems": [
    "C107_requests"
   ],
   "note": ""
  },
  {
   "property": "C108",
   "status": "partial",
   "theorems": [
    "C108_completions_wide_partial",
    "C108_completions_partial",
    "C108_refuted"
   ],
   "note": "REFUTED as stated: at 64 bits a completion with an even number of double words of data (2, 4, ...) gets an extra beat without data (C108_refuted). Strongest true restriction proved: all completions at 128, 256 and 512 bits, and at 64 bits those without data or with an odd number of double words."
  },
  {
   "property": "C109",
   "status": "proved",
   "theorems": [
    "C109_kept",
    "C109_progress"
   ],
   "note": "Progress after histories as in C108."
  },
  {
   "property": "C110",
   "status": "partial",
   "theorems": [
    "C110_messages_partial",
    "C110_message_code_refuted"
   ],
   "note": "REFUTED as stated: the header has the byte enables of the user signal in bits 71:64 (C110_message_code_refuted). Proved: type, routing and format; the message code is on rx_req_tlp_func_num."
  },
  {
   "property": "C111",
   "status": "partial",
   "theorems": [
    "C111_completions_partial",
    "C111_byte_count_refuted",
    "C111_dword_count_refuted"
   ],
   "note": "REFUTED as stated: 4096 bytes still to come, and 1024 double words, are put out as 0, although the descriptor has 13 and 11 bits for them. Strongest true restriction proved: all completions with less than that (and a length field of 0 if there is no data)."
  },
  {
   "property": "C112",
   "status": "partial",
   "theorems": [
    "C112_requests_partial",
    "C112_refuted"
   ],
   "note": "REFUTED as stated: for a header with three double words (32 bit address; IO and configuration requests) the address goes to the upper half and the lower half has what follows the header (C112_refuted). Proved for all known kinds with a header of four double words."
  },
  {
   "property": "C113",
   "status": "proved",
   "theorems": [
    "C113_kept",
    "C113_progress"
   ],
   "note": "Progress after histories as in C111, C112."
  },
  {
   "property": "C114",
   "status": "proved",
   "theorems": [
    "C114_credits",
    "C114_sequence_numbers"
   ],
   "note": ""
  },
  {
   "property": "C115",
   "status": "partial",
   "theorems": [
    "C115_end_pointer_partial",
    "C115_end_pointer_refuted"
   ],
   "note": "REFUTED as stated: the lane index has 3 bits, so for 9 to 16 lanes 8 is missing. Proved for at most 8 lanes."
  },
  {
   "property": "C116",
   "status": "proved",
   "theorems": [
    "C116_reports_shown",
    "C116_isolated"
   ],
   "note": ""
  },
  {
   "property": "C117",
   "status": "partial",
   "theorems": [
    "C117_htile_words",
    "C117_ltile_words_partial",
    "C117_link_width_refuted"
   ],
   "note": "REFUTED as stated for the L-Tile: link width is taken from registers 0, 1 and 7 and link speed from 2 and 7, the last report wins. Proved for the H-Tile, and for all other fields of the L-Tile."
  },
  {
   "property": "C118",
   "status": "partial",
   "theorems": [
    "C118_reports_shown_partial",
    "C118_aer_low_partial",
    "C118_isolated_partial",
    "C118_reports_shown_refuted",
    "C118_isolated_refuted"
   ],
   "note": "REFUTED as stated for the three AER outputs: the upper half is written at offset 32 of 32. Proved for all other outputs, and for the lower half of the AER outputs of function 0."
  },
  {
   "property": "C119",
   "status": "proved",
   "theorems": [
    "C119_received",
    "C119_complete"
   ],
   "note": ""
  },
  {
   "property": "C120",
   "status": "partial",
   "theorems": [
    "C120_received_partial",
    "C120_complete_partial",
    "C120_functions_partial",
    "C120_received_refuted"
   ],
   "note": "REFUTED as stated for the function number: two bits per segment are taken of fields of three. Proved for everything else, and with the function if it is 0 or there is one segment and the function is below 4."
  },
  {
   "property": "C121",
   "status": "proved",
   "theorems": [
    "C121_delivered",
    "C121_drained",
    "C121_kept",
    "C121_no_gap"
   ],
   "note": ""
  },
  {
   "property": "C122",
   "status": "partial",
   "theorems": [
    "C122_full",
    "C122_ready_partial",
    "C122_ready_refuted"
   ],
   "note": "REFUTED as stated for TLPs that do not fit: beats become visible to the reader only with the end of their TLP. Proved: the input becomes ready again exactly if the unfinished TLP has less than DEPTH/TLP_STRB_WIDTH-2 beats."
  },
  {
   "property": "C123",
   "status": "proved",
   "theorems": [
    "C123_room"
   ],
   "note": ""
  },
  {
   "property": "C124",
   "status": "proved",
   "theorems": [
    "C124_delivered",
    "C124_drained",
    "C124_kept"
   ],
   "note": ""
  },
  {
   "property": "C125",
   "status": "proved",
   "theorems": [
    "C125_pause"
   ],
   "note": ""
  },
  {
   "property": "C126",
   "status": "proved",
   "theorems": [
    "C126_seq"
   ],
   "note": ""
  },
  {
   "property": "C127",
   "status": "proved",
   "theorems": [
    "C127_nogap"
   ],
   "note": ""
  },
  {
   "property": "C128",
   "status": "proved",
   "theorems": [
    "C128_delivered"
   ],
   "note": ""
  },
  {
   "property": "C129",
   "status": "proved",
   "theorems": [
    "C129_rules"
   ],
   "note": ""
  },
  {
   "property": "C130",
   "status": "proved",
   "theorems": [
    "C130_credit"
   ],
   "note": ""
  },
  {
   "property": "C131",
   "status": "proved",
   "theorems": [
    "C131_covered"
   ],
   "note": ""
  },
  {
   "property": "C132",
   "status": "partial",
   "theorems": [
    "C132_budget_refuted",
    "C132_budget_twice"
   ],
   "note": "REFUTED: with a limit of 8 posted headers shown in turn with the seven others, eleven writes are sent; strongest true restriction proved: a new limit is shown again in the next clock, so that the increment is added once"
  },
  {
   "property": "C133",
   "status": "proved",
   "theorems": [
    "C133_home",
    "C133_ports"
   ],
   "note": ""
  },
  {
   "property": "C134",
   "status": "proved",
   "theorems": [
    "C134_home",
    "C134_ports",
    "C134_answers"
   ],
   "note": ""
  },
  {
   "property": "C135",
   "status": "proved",
   "theorems": [
    "C135_laid"
   ],
   "note": ""
  },
  {
   "property": "C136",
   "status": "proved",
   "theorems": [
    "C136_latency"
   ],
   "note": ""
  },
  {
   "property": "C137",
   "status": "partial",
   "theorems": [
    "C137_account_partial",
    "C137_reset_refuted"
   ],
   "note": "REFUTED for a reset of one clock: valid bits of the delay memory survive it, a TLP which was never counted is subtracted, and the count of posted headers becomes 255, which shuts the gate for writes. Strongest true restriction proved: resets of three clocks with an idle FIFO from the second on."
  },
  {
   "property": "C138",
   "status": "proved",
   "theorems": [
    "C138_gates",
    "C138_safe"
   ],
   "note": ""
  },
  {
   "property": "C139",
   "status": "partial",
   "theorems": [
    "C139_reads_partial",
    "C139_reads_refuted"
   ],
   "note": "REFUTED for requests of more than 32 words starting at the last word before a boundary of 128 bytes: the first completion is announced with one word but never closed, the counters wrap and 2081 reads are issued for 33 words. Strongest true restriction proved: all other requests (whose addresses do not wrap at 2^64)."
  },
  {
   "property": "C140",
   "status": "proved",
   "theorems": [
    "C140_held"
   ],
   "note": ""
  },
  {
   "property": "C141",
   "status": "proved",
   "theorems": [
    "C141_writes"
   ],
   "note": "For requests whose addresses do not wrap at 2^64."
  }
 ]
}