{"id": "C01", "title": "Byte-masked register update touches exactly the selected bytes", "statement": "Writing a register through a byte mask yields a value whose byte k is byte k of the new data (clipped by the register's writable-bit mask) when mask bit k is set, and byte k of the old value otherwise; bits outside the writable mask inside a selected byte become/keep what byte_mask_update documents (old bits are kept).", "quantifier": "every old value, every new value, every non-negative byte mask of any width, every writable-bit mask", "why_tests_cant": "256-bit-wide domains of old/new/mask triples; register write helpers are used for every config register, so a single wrong byte lane corrupts arbitrary registers.", "anchors": ["tb/pcie.py:byte_mask_update"]}
{"id": "C02", "title": "PCIe ID integer codec is a bijection", "statement": "Converting a bus/device/function triple to a 16-bit integer and back returns the same triple, and converting any 16-bit integer to a triple and back returns the same integer, so two different IDs never share an encoding.", "quantifier": "every bus 0..255, device 0..31, function 0..7; every integer 0..65535", "why_tests_cant": "The IDs route completions; a collision only shows for particular pairs of IDs.", "anchors": ["tb/pcie.py:PcieId"]}
{"id": "C03", "title": "Byte enables select exactly the requested byte range", "statement": "After a request TLP is given a byte address and a length >= 1, its DWORD-aligned address, DWORD length, first and last byte enables denote exactly the set of byte addresses [addr, addr+length), and the TLP's own byte-count computation returns exactly length.", "quantifier": "every address >= 0 and every length >= 1", "why_tests_cant": "Alignment x length x enable-shape interactions; unit tests sample a few (offset,length) pairs.", "anchors": ["tb/pcie.py:TLP.set_be", "tb/pcie.py:TLP.get_first_be_offset", "tb/pcie.py:TLP.get_last_be_offset", "tb/pcie.py:TLP.get_be_byte_count"]}
{"id": "C04", "title": "Write payload carries each data byte on its own byte lane", "statement": "After a request TLP is given a byte address and a non-empty byte string, its payload has exactly length DWORDs, each enabled byte lane carries the corresponding data byte and each disabled lane is zero; reading the payload back as bytes returns the zero-padded data.", "quantifier": "every address and every non-empty byte string", "why_tests_cant": "Unbounded byte strings at arbitrary alignment.", "anchors": ["tb/pcie.py:TLP.set_be_data", "tb/pcie.py:TLP.set_data", "tb/pcie.py:TLP.get_data"]}
{"id": "C05", "title": "Completion lower address points at the first requested byte", "statement": "The lower-address field computed from a memory request equals the low 7 bits of the address of the first enabled byte.", "quantifier": "every memory read request produced from any address and length", "why_tests_cant": "Only visible for requests that do not start on a DWORD boundary.", "anchors": ["tb/pcie.py:TLP.get_lower_address"]}
{"id": "C06", "title": "TLP header packing is lossless", "statement": "Unpacking the packed DWORD form of a well-formed TLP returns a TLP with the same type, attributes, IDs, tag, byte enables, address, completion status/byte count and payload.", "quantifier": "every well-formed TLP of every supported type (memory, I/O, configuration, completion)", "why_tests_cant": "The field space is about 2^128; type-specific header layouts each have their own branch.", "anchors": ["tb/pcie.py:TLP.pack", "tb/pcie.py:TLP.unpack"]}
{"id": "C07", "title": "Endpoint DMA writes are legal and lossless", "statement": "A device-initiated memory write of any byte string emits write TLPs, each of which carries at most the configured maximum payload, does not cross a 4 KiB boundary and has a positive length; applied in order to any memory they leave exactly the requested bytes at the requested addresses and change no other byte.", "quantifier": "every start address, every byte string, every max-payload setting, every prior memory contents", "why_tests_cant": "Split points depend on address modulo payload and 4 KiB and on unbounded lengths.", "anchors": ["tb/pcie.py:Function.mem_write", "tb/pcie.py:TLP.set_be_data"]}
{"id": "C08", "title": "Root complex memory writes are legal and lossless", "statement": "Same as C07 for memory writes issued by the root complex.", "quantifier": "every start address, every byte string, every max-payload setting, every prior memory contents", "why_tests_cant": "Same split-point space as C07 in a separate implementation.", "anchors": ["tb/pcie.py:RootComplex.mem_write"]}
{"id": "C09", "title": "Root complex memory read requests are legal and cover the range", "statement": "A root-complex memory read of any range emits read requests whose requested byte ranges, concatenated in order, are exactly the range asked for; each request is within the maximum read request size and does not cross a 4 KiB boundary.", "quantifier": "every start address, every length >= 1, every max-read-request setting", "why_tests_cant": "Split points depend on address modulo several powers of two and on unbounded lengths.", "anchors": ["tb/pcie.py:RootComplex.mem_read"]}
{"id": "C10", "title": "Endpoint DMA read requests are legal and cover the range", "statement": "A device-initiated memory read of any range emits read requests whose requested byte ranges, concatenated in order, are exactly the range asked for; each request is within the maximum read request size and does not cross a 4 KiB boundary.", "quantifier": "every start address, every length >= 1, every max-read-request setting", "why_tests_cant": "Only reads long enough to be split exercise the request-size computation.", "anchors": ["tb/pcie.py:Function.mem_read"]}
{"id": "C11", "title": "Read completions partition the request", "statement": "The completions produced for a memory read request carry, in order, exactly the requested DWORDs; every completion is within the maximum payload; every completion but the last ends on a 128-byte read completion boundary; each byte count equals the number of requested bytes still to be delivered; each lower address is the address of the first byte delivered.", "quantifier": "every request address, byte enables, DWORD length, and max-payload setting", "why_tests_cant": "Boundaries interact (offset modulo 128, payload, first/last byte enables).", "anchors": ["tb/pcie.py:MemoryEndpoint.handle_mem_read_tlp", "tb/pcie.py:RootComplex.handle_mem_read_tlp"]}
{"id": "C12", "title": "A memory write TLP changes exactly its enabled bytes", "statement": "Handling a memory write TLP stores every payload byte whose byte lane is enabled (first/last byte enables on the first/last DWORD, all lanes in between) at its address and leaves every other byte of the region unchanged.", "quantifier": "every address, DWORD length, first and last byte-enable pattern (including non-contiguous ones), payload and prior contents", "why_tests_cant": "16x16 enable patterns times unbounded lengths; run-splitting code has several branches.", "anchors": ["tb/pcie.py:MemoryEndpoint.handle_mem_write_tlp", "tb/pcie.py:RootComplex.handle_mem_write_tlp"]}
{"id": "C13", "title": "Root-complex write then read through an endpoint is a memory", "statement": "Writing any byte string through the root complex to an endpoint memory region and then reading any range back returns the most recently written bytes and otherwise the previous contents.", "quantifier": "every write address/data, every read address/length, every max payload / max read request setting", "why_tests_cant": "End-to-end composition of request splitting, byte enables, completion splitting and reassembly.", "anchors": ["tb/pcie.py:RootComplex.mem_write", "tb/pcie.py:RootComplex.mem_read", "tb/pcie.py:MemoryEndpoint"]}
{"id": "C14", "title": "BAR decode matches exactly the programmed window", "statement": "A memory (or I/O) request address matches a BAR exactly when it lies in the naturally aligned power-of-two window of the BAR's configured size starting at the address programmed in the BAR, and the reported offset is the address minus the window base.", "quantifier": "every BAR size, 32/64-bit kind, programmed base and request address", "why_tests_cant": "64-bit address space; pairs of registers for 64-bit BARs.", "anchors": ["tb/pcie.py:Function.configure_bar", "tb/pcie.py:Function.match_bar"]}
{"id": "C15", "title": "BAR sizing by probing reports the configured size", "statement": "Writing all ones to a BAR and reading it back yields a value from which the standard sizing formula recovers the BAR's size (rounded up to a power of two) and its type bits.", "quantifier": "every BAR size and kind", "why_tests_cant": "Enumeration relies on this for arbitrary sizes, tests use a handful.", "anchors": ["tb/pcie.py:Function.configure_bar", "tb/pcie.py:Function.write_config_register", "tb/pcie.py:RootComplex.enumerate_segment"]}
{"id": "C16", "title": "Capability registers never overlap", "statement": "After registering any sequence of capabilities (with or without requested offsets), no two registered capabilities occupy a common register.", "quantifier": "every sequence of registrations with every length and requested offset", "why_tests_cant": "Bump/auto-placement logic depends on the whole registration history.", "anchors": ["tb/pcie.py:PcieCapList.register"]}
{"id": "C17", "title": "Capability list walk visits every capability exactly once", "statement": "Starting from the capability pointer and following the next-pointers read through configuration space visits every registered capability exactly once, in increasing offset order, and ends with a zero pointer.", "quantifier": "every sequence of at least two registrations", "why_tests_cant": "The linked list is rebuilt on each registration; depends on full history.", "anchors": ["tb/pcie.py:PcieCapList.register", "tb/pcie.py:PcieCap.read_register"]}
{"id": "C18", "title": "Extended capabilities are reachable through configuration reads", "statement": "An extended capability registered at its default location can be read through the function's configuration space at that location.", "quantifier": "every extended capability registration", "why_tests_cant": "Requires relating two independent address-range tests.", "anchors": ["tb/pcie.py:Function.read_config_register", "tb/pcie.py:PcieCapList"]}
{"id": "C19", "title": "Writable configuration fields read back", "statement": "Writing a control register field of the PCI Express or MSI capability and reading the register back returns the written value in every writable field and leaves the others unchanged.", "quantifier": "every written value, every byte mask, every prior register state", "why_tests_cant": "Dozens of bit fields, each with own shift/mask expressions.", "anchors": ["tb/pcie.py:PCIECapability", "tb/pcie.py:MSICapability", "tb/pcie.py:MSIXCapability"]}
{"id": "C20", "title": "Memory region allocation never overlaps", "statement": "Regions handed out by the root complex for any sequence of allocation requests are naturally aligned and pairwise disjoint.", "quantifier": "every sequence of sizes", "why_tests_cant": "Depends on the whole allocation history.", "anchors": ["tb/pcie.py:RootComplex.alloc_region", "tb/pcie.py:RootComplex.alloc_io_region"]}
{"id": "C21", "title": "Bus enumeration allocates disjoint, contained BAR windows", "statement": "For any device tree, enumeration assigns every BAR a naturally aligned window; windows of different BARs of the same address space are disjoint; every BAR lies inside the window of every bridge above it; sibling bridge windows are disjoint.", "quantifier": "every finite tree of bridges and endpoints with any BAR sizes and kinds", "why_tests_cant": "Recursive allocation over unbounded trees.", "anchors": ["tb/pcie.py:RootComplex.enumerate_segment"]}
{"id": "C22", "title": "Bus numbers are unique and nested", "statement": "Enumeration gives every bridge's secondary bus a distinct number, with secondary <= subordinate, children's ranges nested inside the parent's and disjoint between siblings.", "quantifier": "every finite device tree", "why_tests_cant": "Depth-first numbering over unbounded trees.", "anchors": ["tb/pcie.py:RootComplex.enumerate_segment"]}
{"id": "C23", "title": "Bridge forwards a request exactly when its window covers it", "statement": "A bridge passes a memory/I-O request downstream exactly when the address lies in its configured window, passes an ID-routed packet downstream exactly when the bus number lies in its secondary..subordinate range, and otherwise answers with unsupported request; upstream traffic is the mirror image.", "quantifier": "every window/bus configuration and every TLP", "why_tests_cant": "Window comparison boundaries over a 64-bit address space.", "anchors": ["tb/pcie.py:Bridge.upstream_recv", "tb/pcie.py:Bridge.downstream_recv"]}
{"id": "C24", "title": "MSI delivers the message the host programmed", "statement": "After the host programs the MSI capability, issuing interrupt number n writes to the programmed address the programmed data with its low bits replaced by n, provided n is below the enabled number of messages; numbers outside the range are rejected, so two different interrupt numbers of one function deliver different data.", "quantifier": "every programmed address/data, every multiple-message-enable value, every interrupt number", "why_tests_cant": "Bit-field replacement over the full 16-bit data space.", "anchors": ["tb/pcie.py:MSICapability.issue_msi_interrupt"]}
{"id": "C25", "title": "UltraScale completer-request descriptor codec is lossless", "statement": "Packing a request TLP into the UltraScale CQ descriptor format and unpacking it returns the same request (type up to 32/64-bit address format, address, length, byte enables, requester ID, target function, tag, attributes, BAR info, payload).", "quantifier": "every well-formed request TLP", "why_tests_cant": "128-bit descriptor with side-band; bit packing over the whole field space.", "anchors": ["tb/pcie_us.py:TLP_us.pack_us_cq", "tb/pcie_us.py:TLP_us.unpack_us_cq"]}
{"id": "C26", "title": "UltraScale completer-completion and requester-completion codecs are lossless", "statement": "Packing a completion TLP into the CC (RC) descriptor format and unpacking it returns the same completion.", "quantifier": "every well-formed completion TLP", "why_tests_cant": "96-bit descriptors; byte count / lower address / error code fields.", "anchors": ["tb/pcie_us.py:TLP_us.pack_us_cc", "tb/pcie_us.py:TLP_us.unpack_us_cc", "tb/pcie_us.py:TLP_us.pack_us_rc", "tb/pcie_us.py:TLP_us.unpack_us_rc"]}
{"id": "C27", "title": "UltraScale requester-request descriptor codec is lossless", "statement": "Packing a request TLP into the RQ descriptor format and unpacking it returns the same request.", "quantifier": "every well-formed request TLP", "why_tests_cant": "128-bit descriptor plus side-band byte enables and sequence number.", "anchors": ["tb/pcie_us.py:TLP_us.pack_us_rq", "tb/pcie_us.py:TLP_us.unpack_us_rq"]}
{"id": "C28", "title": "UltraScale stream endpoints transport frames losslessly under any back-pressure", "statement": "Any sequence of frames queued at a stream source arrives at the sink with the same DWORDs, parity and side-band fields, in the same order, with none lost, duplicated or merged, whatever the pause/ready schedule on both sides.", "quantifier": "every sequence of frames, every data width, every schedule of pause signals", "why_tests_cant": "Unbounded interleavings of source and sink stalls.", "anchors": ["tb/pcie_us.py:CQSource", "tb/pcie_us.py:CCSink", "tb/pcie_us.py:RQSink", "tb/pcie_us.py:RCSource"]}
{"id": "C29", "title": "Equal frames compare equal", "statement": "Two stream frames with the same contents compare equal.", "quantifier": "every frame", "why_tests_cant": "Needs a statement about all frames; tests comparing only unpacked TLPs never notice.", "anchors": ["tb/pcie_us.py:USPcieFrame.__eq__"]}
{"id": "C30", "title": "Non-posted requests are delivered in order under credit flow control", "statement": "The device model forwards non-posted requests to user logic in arrival order, each at most once, and never more than the number of credits granted, whatever the schedule of credit grants and arrivals.", "quantifier": "every arrival sequence of posted/non-posted requests and every credit-grant schedule", "why_tests_cant": "Unbounded schedules.", "anchors": ["tb/pcie_us.py:UltrascalePCIe.create_logic.logic"]}
{"id": "C31", "title": "Segmented RAM master writes exactly the requested bytes", "statement": "A write of any byte string at any byte address through the segmented RAM interface, executed by the RAM model, stores exactly these bytes at these addresses and changes nothing else.", "quantifier": "every address, byte string, number of segments and segment width", "why_tests_cant": "Segment/lane splitting for arbitrary alignments.", "anchors": ["tb/dma_psdp_ram.py:PsdpRamMasterWrite._process_write", "tb/dma_psdp_ram.py:PsdpRamWrite._run"]}
{"id": "C32", "title": "Segmented RAM master reads return the stored bytes", "statement": "A read of any byte range through the segmented RAM interface returns exactly the bytes stored in the RAM.", "quantifier": "every address, length, number of segments and segment width", "why_tests_cant": "Segment/lane reassembly for arbitrary alignments.", "anchors": ["tb/dma_psdp_ram.py:PsdpRamMasterRead._process_read", "tb/dma_psdp_ram.py:PsdpRamMasterRead._process_read_resp", "tb/dma_psdp_ram.py:PsdpRamRead._run"]}
{"id": "C33", "title": "AXI master write bursts are legal and lossless", "statement": "A write of any byte string at any address through the AXI master emits INCR bursts that never cross a 4 KiB boundary, never exceed 256 beats, and, executed by the AXI RAM model, store exactly the requested bytes and nothing else.", "quantifier": "every address, byte string, data width, transfer size and max burst length", "why_tests_cant": "Burst splitting with narrow transfers over unbounded lengths.", "anchors": ["tb/axi.py:AXIMaster", "tb/axi.py:AXIRam"]}
{"id": "C34", "title": "AXI master reads return memory contents", "statement": "A read of any range through the AXI master against the AXI RAM model returns exactly the stored bytes.", "quantifier": "every address, length, data width, transfer size and max burst length", "why_tests_cant": "Burst splitting and narrow-lane reassembly.", "anchors": ["tb/axi.py:AXIMaster", "tb/axi.py:AXIRam"]}
{"id": "C35", "title": "AXI-Lite master write/read behaves as a byte memory", "statement": "A write of any byte string through the AXI-Lite master to the AXI-Lite RAM stores exactly these bytes, and a read returns the stored bytes.", "quantifier": "every address, byte string/length and data width", "why_tests_cant": "Word splitting at arbitrary alignment.", "anchors": ["tb/axil.py:AXILiteMaster", "tb/axil.py:AXILiteRam"]}
{"id": "C36", "title": "AXI-Stream frames round-trip", "statement": "Splitting a frame into stream beats and re-assembling the beats returns the original data for any frame and any width.", "quantifier": "every byte string and every number of byte lanes", "why_tests_cant": "Unbounded frames, partial last beat.", "anchors": ["tb/axis_ep.py:AXIStreamFrame.build", "tb/axis_ep.py:AXIStreamFrame.parse"]}
{"id": "C37", "title": "AXI-Stream source to sink is a lossless FIFO under any back-pressure", "statement": "Every non-empty frame sent by the source is received by the sink exactly once, complete and in order, whatever the pause schedule.", "quantifier": "every frame sequence and every pause schedule", "why_tests_cant": "Unbounded interleavings.", "anchors": ["tb/axis_ep.py:AXIStreamSource", "tb/axis_ep.py:AXIStreamSink"]}
{"id": "C38", "title": "TLP interface frame codec preserves the TLP", "statement": "Converting a TLP to a generic TLP-interface frame and back returns the same header and payload.", "quantifier": "every well-formed TLP, with and without 64-bit address forcing", "why_tests_cant": "Header rewriting depends on type and address.", "anchors": ["tb/pcie_if.py:PcieIfFrame.from_tlp", "tb/pcie_if.py:PcieIfFrame.to_tlp"]}
{"id": "C39", "title": "TLP interface source/sink is a lossless FIFO of frames", "statement": "Frames driven by the segmented TLP interface source are re-assembled by the sink complete, in order and without duplication, for every number of segments and every handshake schedule.", "quantifier": "every frame sequence, segment geometry and handshake schedule", "why_tests_cant": "Unbounded schedules; multiple frames per cycle.", "anchors": ["tb/pcie_if.py:PcieIfSource", "tb/pcie_if.py:PcieIfSink"]}
{"id": "C40", "title": "Outstanding tags are never reused", "statement": "A tag handed out for a non-posted request is not handed out again before it is released.", "quantifier": "every interleaving of allocations and releases", "why_tests_cant": "Unbounded histories.", "anchors": ["tb/pcie_if.py:PcieIfTestDevice.alloc_tag", "tb/pcie_if.py:PcieIfTestDevice.release_tag", "tb/pcie.py:Function.get_free_tag"]}
{"id": "C41", "title": "Priority encoder reports the highest-priority set bit", "statement": "The priority encoder's valid output is high exactly when some input bit is set, and then its encoded output is the index of the highest-priority set bit (highest or lowest index according to the parameter) and its one-hot output is that bit.", "quantifier": "every input vector of every width >= 2 and both priority settings", "why_tests_cant": "Recursive tree over arbitrary parameterised width.", "anchors": ["rtl/priority_encoder.v"]}
{"id": "C42", "title": "Arbiter grants at most one requester, and only requesters", "statement": "In every cycle the arbiter's grant vector has at most one bit set, agrees with the encoded grant and valid outputs, and a newly issued grant goes to a port that was requesting.", "quantifier": "every request/acknowledge history, every port count and parameter setting", "why_tests_cant": "Sequential circuit with unbounded histories.", "anchors": ["rtl/arbiter.v"]}
{"id": "C43", "title": "Round-robin arbiter does not starve", "statement": "With round-robin arbitration, a continuously asserted request is granted after at most PORTS-1 grants to other ports.", "quantifier": "every request history, every number of ports, both priority directions", "why_tests_cant": "Liveness over unbounded histories.", "anchors": ["rtl/arbiter.v"]}
{"id": "C44", "title": "Blocking arbiter holds its grant", "statement": "With blocking arbitration the grant does not change until the granted port deasserts request (or acknowledges, per parameter).", "quantifier": "every request/acknowledge history", "why_tests_cant": "Sequential circuit with unbounded histories.", "anchors": ["rtl/arbiter.v"]}
{"id": "C45", "title": "Pulse merger conserves pulses", "statement": "As long as its counter does not overflow, the pulse merger emits exactly one output pulse per input pulse: pulses emitted so far plus the pending count equals pulses received so far.", "quantifier": "every input history", "why_tests_cant": "Conservation law over unbounded histories.", "anchors": ["rtl/pulse_merge.v"]}
{"id": "C46", "title": "Capability register fields sit at their specified positions", "statement": "Every field of the PCI Express capability structure is read at the register, bit position and width given by the PCI Express specification, and every bit not belonging to a field reads as zero.", "quantifier": "every value of every attribute, every register, every bit", "why_tests_cant": "Over a hundred fields at hand-written shifts; a test only checks the fields and values it uses.", "anchors": ["tb/pcie.py:PCIECapability.read_pcie_cap_register"]}
{"id": "C47", "title": "Requests reach the function that owns the address", "statement": "After enumerating any device tree, a memory or I/O request sent by the root complex to any address inside the window of an enumerated BAR is delivered, through all bridges on the way, to the function owning that BAR, and a request to an allocated-range address in no BAR is delivered to no function.", "quantifier": "every finite device tree and every address", "why_tests_cant": "Combines allocation, register programming and decode over unbounded trees and a 64-bit address space.", "anchors": ["tb/pcie.py:RootComplex.enumerate", "tb/pcie.py:Bridge.upstream_recv", "tb/pcie.py:Function.match_bar"]}
{"id": "C48", "title": "Byte parity detects corrupted frames", "statement": "The parity attached to a frame makes the number of ones in every byte and its parity bit odd; the parity check accepts a frame exactly when this holds for every byte, and every unpacker asked to check parity rejects any other frame.", "quantifier": "every frame", "why_tests_cant": "A test flips a few chosen bits; the claim covers every data word and every corruption.", "anchors": ["tb/pcie_us.py:dword_parity", "tb/pcie_us.py:USPcieFrame.check_parity", "tb/pcie_us.py:TLP_us.unpack_us_rc"]}
{"id": "C49", "title": "Requester completion byte enables select the delivered bytes", "statement": "The per-DWORD byte enables of a requester completion frame select exactly the bytes of the payload that belong to the completion: from the byte offset of the lower address up to the remaining byte count or the end of the payload.", "quantifier": "every well-formed completion whose last DWORD carries data, every byte", "why_tests_cant": "All combinations of offset, byte count and length.", "anchors": ["tb/pcie_us.py:TLP_us.pack_us_rc"]}
{"id": "C50", "title": "A device dispatches every TLP to the right function or answers it", "statement": "A TLP arriving at a device is passed to the first function it is addressed to (by function number for configuration requests and completions, by BAR for memory and I/O); when there is none, a request that needs a completion is answered with Unsupported Request carrying the requester's ID and tag, and anything else is dropped; the device takes over the bus number of configuration requests. The UltraScale core does the same and answers Configuration Request Retry Status while its configuration space is disabled.", "quantifier": "every device with any functions and BAR layouts, every valid TLP of the supported kinds", "why_tests_cant": "Every combination of functions, BAR layouts and addresses.", "anchors": ["tb/pcie.py:Device.upstream_recv", "tb/pcie_us.py:UltrascalePCIe.upstream_recv"]}
{"id": "C51", "title": "The UltraScale core tags completer requests correctly", "statement": "A memory or I/O request handed to the CQ interface carries the BAR index, BAR aperture and completer ID of the function whose BAR claims the address.", "quantifier": "every device, every request", "why_tests_cant": "BAR layouts per function are rarely different in tests.", "anchors": ["tb/pcie_us.py:UltrascalePCIe.upstream_recv"]}
{"id": "C52", "title": "The UltraScale core forwards requester requests in order and only for bus masters", "statement": "Requests from user logic are sent upstream in order, exactly those that are not discontinued and whose function has bus mastering enabled, with the core's bus and device number; the sequence numbers shown are theirs, in order, at most one per clock.", "quantifier": "every sequence of requests over any number of clocks", "why_tests_cant": "Unbounded schedules; multi-function devices with gaps in the function numbers.", "anchors": ["tb/pcie_us.py:UltrascalePCIe.create_logic.logic"]}
{"id": "C53", "title": "Completions with an error status are reported with an error code", "statement": "A completion whose status is not successful reaches the RC interface with an error code other than normal termination.", "quantifier": "every completion", "why_tests_cant": "Tests rarely provoke error completions through the core.", "anchors": ["tb/pcie_us.py:UltrascalePCIe.upstream_recv"]}
{"id": "C54", "title": "TLP.check accepts exactly well-formed TLPs", "statement": "TLP.check accepts a TLP exactly when its length field equals its payload length and is within 1..1024, memory requests do not cross a 4 KiB boundary, I/O requests are one DWORD with no last byte enables, and completions with data have a sufficient byte count.", "quantifier": "every TLP", "why_tests_cant": "The space of headers is unbounded.", "anchors": ["tb/pcie.py:TLP.check"]}
{"id": "C55", "title": "Function numbers are distinct and allocated smallest first", "statement": "After any sequence of adding and appending functions the function numbers of a device are distinct, increasing and below 8, an appended function gets the smallest free number, and with several functions each header has the multi-function bit.", "quantifier": "every sequence of add_function and append_function calls with numbers below 8", "why_tests_cant": "Unbounded call sequences.", "anchors": ["tb/pcie.py:Device.next_free_function_number", "tb/pcie.py:Device.add_function", "tb/pcie.py:Device.append_function"]}
{"id": "C56", "title": "Per-function status outputs show each function's own state", "statement": "Each field of the configuration status outputs of the UltraScale core reflects the state of the function it is numbered for.", "quantifier": "every device state", "why_tests_cant": "Needs two functions in different states.", "anchors": ["tb/pcie_us.py:UltrascalePCIe.create_logic.logic"]}
{"id": "C57", "title": "Copying a TLP preserves it", "statement": "The TLP copy constructor yields an equal TLP.", "quantifier": "every TLP", "why_tests_cant": "A field missing from a copy shows only when a test uses it.", "anchors": ["tb/pcie.py:TLP.__init__"]}
{"id": "C58", "title": "DMA memory writes of the interface test device are legal and store the data", "statement": "dma_mem_write splits a write into legal memory write TLPs, within the maximum payload and 4 KiB pages, that select each byte of the range exactly once and store the given data; an empty write is one TLP that selects nothing.", "quantifier": "every address, length, data and maximum payload size", "why_tests_cant": "Address, length and payload size combinations are unbounded.", "anchors": ["tb/pcie_if.py:PcieIfTestDevice.dma_mem_write"]}
{"id": "C59", "title": "DMA memory reads of the interface test device return the memory contents", "statement": "dma_mem_read sends legal memory read TLPs covering the range exactly once, each with its own tag, and returns the contents of the completer's memory for every legal way to split completions; an empty read returns nothing.", "quantifier": "every address, length, read request size and completer behaviour", "why_tests_cant": "Completion splitting and request sizes combine without bound.", "anchors": ["tb/pcie_if.py:PcieIfTestDevice.dma_mem_read", "tb/pcie_if.py:PcieIfTestDevice.perform_nonposted_operation"]}
{"id": "C60", "title": "Frame parity is correct and detects single-bit errors", "statement": "update_parity sets per-byte parity of prefix, header and data that check_parity accepts, and check_parity rejects any frame with one bit of prefix, header or data inverted.", "quantifier": "every frame with a 128-bit header, 32-bit prefix and 32-bit data words", "why_tests_cant": "2^128 headers.", "anchors": ["tb/pcie_if.py:PcieIfFrame.update_parity", "tb/pcie_if.py:PcieIfFrame.check_parity", "tb/pcie_if.py:dword_parity", "tb/pcie_if.py:parity"]}
{"id": "C61", "title": "The interface device routes TLPs to the addressed function", "statement": "A request reaches the interface with the BAR and the number of the first function that decodes its address; unclaimed requests are answered with UR, unclaimed writes dropped; configuration requests go to the function with that ID; completions are accepted for own requester IDs only.", "quantifier": "every function list, BAR layout and TLP", "why_tests_cant": "Needs several functions and requesters with different function numbers.", "anchors": ["tb/pcie_if.py:PcieIfDevice.upstream_recv"]}
{"id": "C62", "title": "MSI capability advertises the configured vector count", "statement": "The multiple-message-capable code of every function is the smallest power of two not below its configured MSI count.", "quantifier": "every function and count", "why_tests_cant": "Only default counts are used by tests.", "anchors": ["tb/pcie_if.py:PcieIfDevice.__init__"]}
{"id": "C63", "title": "Request handlers of the interface test device read and write the addressed region", "statement": "A memory or I/O request that falls in a region is completed with that region's bytes, or changes exactly its selected bytes, for all byte enables; completions are legal and carry the requester's ID and tag.", "quantifier": "every request, region and byte enable mask", "why_tests_cant": "Masks, offsets and completion splitting combine without bound.", "anchors": ["tb/pcie_if.py:PcieIfTestDevice._run_rx_req_tlp"]}
{"id": "C64", "title": "DMA I/O operations of the interface test device", "statement": "dma_io_write and dma_io_read split a range into legal one-DWORD I/O requests that select each byte exactly once; writes store the data, reads return the completer's bytes; a failed completion raises.", "quantifier": "every address, length, data and completer", "why_tests_cant": "Unbounded ranges.", "anchors": ["tb/pcie_if.py:PcieIfTestDevice.dma_io_write", "tb/pcie_if.py:PcieIfTestDevice.dma_io_read"]}
{"id": "C65", "title": "MSI messages of the interface test device", "statement": "issue_msi_interrupt sends one legal 32-bit memory write of the message data to the message address.", "quantifier": "every aligned address and 32-bit message", "why_tests_cant": "2^96 address and data values.", "anchors": ["tb/pcie_if.py:PcieIfTestDevice.issue_msi_interrupt"]}
{"id": "C66", "title": "A received AXI-Stream frame compares equal to the frame sent", "statement": "For every frame that can be sent, the frame the sink builds from its beats compares equal (AXIStreamFrame.__eq__) to the frame given to the source, so a testbench assertion rx_frame == tx_frame holds.", "quantifier": "every frame, every lane count and word width", "why_tests_cant": "Depends on the combination of None/int/list side-band fields and last_cycle_user; tests use only a few of them.", "anchors": ["tb/axis_ep.py:AXIStreamFrame.__eq__", "tb/axis_ep.py:AXIStreamFrame.build", "tb/axis_ep.py:AXIStreamFrame.parse"]}
{"id": "C67", "title": "Configuration accesses over TLPs read and write the registers", "statement": "config_read of any byte range returns exactly the bytes of the registers of the addressed function (all ones if the device does not answer or answers with an error); config_write performs one masked register write per register touched, in order, with exactly the bytes given; every request is a legal one-DWORD type 1 request with a fresh tag.", "quantifier": "every address, length, data, register file and register write function", "why_tests_cant": "Unbounded ranges and register files; alignment and byte-enable combinations.", "anchors": ["tb/pcie.py:RootComplex.config_read", "tb/pcie.py:RootComplex.config_write", "tb/pcie.py:Function.handle_config_0_tlp"]}
{"id": "C68", "title": "Root complex I/O on a device is byte memory", "statement": "Any sequence of io_read and io_write of the root complex inside an I/O window of an endpoint behaves like a flat byte memory, changes no other region, and uses only legal one-DWORD I/O requests with consecutive tags.", "quantifier": "every operation sequence, window and contents", "why_tests_cant": "Unbounded sequences.", "anchors": ["tb/pcie.py:RootComplex.io_read", "tb/pcie.py:RootComplex.io_write", "tb/pcie.py:MemoryEndpoint.handle_io_read_tlp", "tb/pcie.py:MemoryEndpoint.handle_io_write_tlp"]}
{"id": "C69", "title": "Function I/O on the root complex is byte memory", "statement": "Any sequence of io_read and io_write of a function inside an I/O region of the root complex behaves like a flat byte memory; with bus mastering off nothing is sent and nothing changes.", "quantifier": "every operation sequence, region and contents", "why_tests_cant": "Unbounded sequences.", "anchors": ["tb/pcie.py:Function.io_read", "tb/pcie.py:Function.io_write", "tb/pcie.py:RootComplex.handle_io_read_tlp", "tb/pcie.py:RootComplex.handle_io_write_tlp"]}
{"id": "C70", "title": "The root complex serves its own I/O regions locally", "statement": "io_read and io_write of the root complex at an address of one of its own I/O regions act on that region; an address of a device's I/O window goes to the device, whatever memory regions exist.", "quantifier": "every region map and address", "why_tests_cant": "The tests never use I/O regions of the root complex from the root complex.", "anchors": ["tb/pcie.py:RootComplex.io_read", "tb/pcie.py:RootComplex.io_write", "tb/pcie.py:RootComplex.find_io_region"]}
{"id": "C71", "title": "Word helpers are little-endian views of the byte accesses", "statement": "X_read_words/dwords/qwords/word/dword/qword/byte and their write counterparts, for mem, io, config and capability accesses, read and write little-endian words: words written are the words read back, and mixed sizes agree byte by byte.", "quantifier": "every word size, count, value and address", "why_tests_cant": "Unbounded sequences of words; four access kinds times eight helpers.", "anchors": ["tb/pcie.py:RootComplex.mem_read_words", "tb/pcie.py:RootComplex.mem_write_words", "tb/pcie.py:RootComplex.io_read_words", "tb/pcie.py:RootComplex.config_read_words", "tb/pcie.py:RootComplex.capability_read_words", "tb/pcie.py:Function.mem_write_byte"]}
{"id": "C72", "title": "Regions served by callbacks", "statement": "A region registered with read and write callbacks behaves as the callbacks say: a read returns what the read callback returns for the offset, a write passes offset and data to the write callback.", "quantifier": "every region map, address and callback", "why_tests_cant": "Callbacks are arbitrary functions.", "anchors": ["tb/pcie.py:RootComplex.read_region", "tb/pcie.py:RootComplex.write_region", "tb/pcie.py:RootComplex.read_io_region", "tb/pcie.py:MemoryEndpoint.write_region"]}
{"id": "C73", "title": "The UltraScale+ core forwards requester requests in order and shows their sequence numbers", "statement": "Requests from user logic are sent upstream in order, exactly those that are not discontinued and whose function has bus mastering enabled; their sequence numbers are shown in order, each once, on at most two slots per clock, slot 0 first.", "quantifier": "every request stream over any number of clocks", "why_tests_cant": "Unbounded streams; backlog depends on arrival bursts.", "anchors": ["tb/pcie_usp.py:UltrascalePlusPCIe.create_logic.logic"]}
{"id": "C74", "title": "Status outputs of the UltraScale+ core show each function's own state", "statement": "Each field of cfg_function_status, cfg_rcb_status, cfg_interrupt_msi_enable and cfg_interrupt_msi_mmenable reflects the state of the function it is numbered for; link width, speed and size outputs carry the documented encodings of function 0.", "quantifier": "every list of functions and their states", "why_tests_cant": "Tests use one function.", "anchors": ["tb/pcie_usp.py:UltrascalePlusPCIe.create_logic.logic"]}
{"id": "C75", "title": "Interrupt request interface", "statement": "A one-hot MSI request sends exactly the message of that vector of the selected function, an MSI-X request the given address and data; requests that are not one-hot or name no function send nothing; the sent output reports exactly the requests whose message was sent.", "quantifier": "every request, function list and capability state", "why_tests_cant": "2^32 request vectors times capability states.", "anchors": ["tb/pcie_us.py:UltrascalePCIe.create_logic.logic", "tb/pcie_usp.py:UltrascalePlusPCIe.create_logic.logic", "tb/pcie.py:MSICapability.issue_msi_interrupt"]}
{"id": "C76", "title": "Configuration management interface performs each access exactly once", "statement": "User logic that holds a read or write request until it samples cfg_mgmt_read_write_done has each access performed exactly once, in order, on the addressed register and function, and each read returns the register's value, whatever the gaps between requests.", "quantifier": "every access sequence, gap pattern and register file", "why_tests_cant": "Unbounded sequences.", "anchors": ["tb/pcie_us.py:UltrascalePCIe.create_logic.logic", "tb/pcie_usp.py:UltrascalePlusPCIe.create_logic.logic"]}
{"id": "C77", "title": "The MyHDL segmented RAM stores accepted writes and answers accepted reads", "statement": "Every accepted write command changes exactly its enabled bytes of its port's word; every accepted read command is answered exactly once, in order, with the memory contents at the edge it was accepted, under any back-pressure; a ready port answers after latency + 1 edges; ports write disjoint bytes, so the simulator's process order does not matter to the memory.", "quantifier": "every command stream on any number of ports, every back-pressure and pause pattern, every process order, every latency of at least 1 and memory of whole words", "why_tests_cant": "Unbounded command and back-pressure patterns; process order is chosen by the simulator.", "anchors": ["tb/dma_ram.py:PSDPRam.create_write_ports", "tb/dma_ram.py:PSDPRam.create_write_port", "tb/dma_ram.py:PSDPRam.create_read_ports", "tb/dma_ram.py:PSDPRam.create_read_port"]}
{"id": "C78", "title": "Links deliver every TLP exactly once, in order, at the rate of the link", "statement": "A port delivers the TLPs sent through it exactly once and in the order of sending; each occupies the link for its wire time, none overtakes another, and each arrives exactly when an ideal serial line with the link's delay would deliver it.", "quantifier": "every sequence of sends at any times, every order of simultaneous events, every wire time", "why_tests_cant": "Depends on the order of simultaneous events in the simulator and on unbounded traffic.", "anchors": ["tb/pcie.py:Port.send", "tb/pcie.py:Port.transmit", "tb/pcie.py:Port._transmit"]}
{"id": "C79", "title": "Connections are two-sided and negotiated", "statement": "After any sequence of connect() calls between ports and bus ports every link is known to both ends, a plain port has at most one, both ends of a link use the lower of the two maximum speeds and widths and the sum of the port delays; a refused connection changes nothing.", "quantifier": "every set of ports, every sequence of connect calls", "why_tests_cant": "Unbounded sequences; tests make each connection once.", "anchors": ["tb/pcie.py:Port.connect", "tb/pcie.py:Port._connect_int", "tb/pcie.py:BusPort._connect_int"]}
{"id": "C80", "title": "MSI interrupts of several devices reach exactly their own signals and callbacks", "statement": "After any sequence of configure_msi, msi_register_signal and msi_register_callback calls for any devices of the tree, an interrupt issued by a device toggles exactly the signal of that device and vector and the signals registered for it, and calls exactly the callbacks registered for it.", "quantifier": "every device tree, every number of devices, every sequence of calls and interrupts", "why_tests_cant": "Unbounded sequences and device counts; tests use one device.", "anchors": ["tb/pcie.py:RootComplex.configure_msi", "tb/pcie.py:RootComplex.msi_get_signal", "tb/pcie.py:RootComplex.msi_register_signal", "tb/pcie.py:RootComplex.msi_register_callback", "tb/pcie.py:RootComplex.msi_region_write", "tb/pcie.py:TreeItem.find_dev", "tb/pcie.py:MSICapability.issue_msi_interrupt"]}
{"id": "C81", "title": "Flow control credit counts are exact", "statement": "After each clock the outputs of pcie_tlp_fc_count are the header and data credits, by class (posted, non-posted, completion), of exactly the TLPs that started in that clock on any number of segments.", "quantifier": "every header vector, segment count, valid/sop pattern", "why_tests_cant": "2^128 headers per segment.", "anchors": ["rtl/pcie_tlp_fc_count.v"]}
{"id": "C82", "title": "P-Tile available credits", "statement": "The output of pcie_ptile_fc_counter never exceeds the credits that the link partner has announced and that have not been used, so that a sender that respects it never overruns the receiver.", "quantifier": "every sequence of announced limits and uses", "why_tests_cant": "Unbounded sequences; counters wrap.", "anchors": ["rtl/pcie_ptile_fc_counter.v"]}
{"id": "C83", "title": "Interrupt rate limiter", "statement": "irq_rate_limit presents interrupts of one index no closer than min_interval ticks of prescale+1 clocks, presents none that was not requested since its last presentation, and presents every request it has taken.", "quantifier": "every sequence of requests, prescale and interval values, ready patterns, index widths", "why_tests_cant": "Deadlines wrap after 2^17 ticks of up to 2^16 clocks.", "anchors": ["rtl/irq_rate_limit.v"]}
{"id": "C84", "title": "MSI shims", "statement": "The MSI shims hand messages to the core one at a time, only for interrupt requests that have risen and were not confirmed since, never a message that is masked, not enabled or of a function with MSI off, and every rise of an unmasked request is answered by a message.", "quantifier": "every sequence of request vectors, mask, enable and multiple message settings, core answers (sent, fail)", "why_tests_cant": "Unbounded sequences; 2^32 request vectors per clock, round robin between them.", "anchors": ["rtl/pcie_us_msi.v", "rtl/pcie_s10_msi.v", "rtl/arbiter.v"]}
{"id": "C85", "title": "Frame multiplexer", "statement": "axis_arb_mux merges the frames of its ports: the sink gets exactly the beats taken from the ports, each port's in order, none lost, repeated or altered (but for the port number in tid), frames never interleaved, offers kept until taken; with round robin arbitration every beat taken is eventually delivered.", "quantifier": "every parameter setting (2 or more ports), every sequence of inputs on all ports and ready of the sink, resets included; for delivery every infinite continuation with fair sink and sources", "why_tests_cant": "Unbounded sequences of handshakes on any number of ports, interaction of input registers, arbiter and two output registers; delivery is a liveness property.", "anchors": ["rtl/axis_arb_mux.v", "rtl/arbiter.v"]}
{"id": "C86", "title": "Descriptor multiplexers", "statement": "pcie_axi_dma_desc_mux and dma_if_desc_mux pass on exactly the descriptors taken from the ports, each port's in order, with the port number on top of tag (and RAM select), every one eventually under round robin; the status of a descriptor is returned to the port it came from, with that port's tag, and to no other.", "quantifier": "every parameter setting (2 or more ports), every sequence of inputs, resets included; every tag and port", "why_tests_cant": "Unbounded sequences of handshakes, all tags and port counts; delivery is a liveness property.", "anchors": ["rtl/pcie_axi_dma_desc_mux.v", "rtl/dma_if_desc_mux.v", "rtl/arbiter.v"]}
{"id": "C87", "title": "Frame demultiplexers", "statement": "pcie_us_axis_cq_demux and pcie_us_axis_rc_demux send every frame whole, beat for beat and in order, to the lowest selected port, and nothing at all of the frames to be dropped; offers are kept until taken, the input becomes ready again and again and every beat is eventually delivered.", "quantifier": "every number of ports, data widths 64 and over, every sequence of beats, select and drop values, enable, resets and ready bits of the sinks; for delivery every infinite continuation with fair sinks", "why_tests_cant": "The faults need a particular alignment of a dropped frame with a held-up output, an idle clock or a reset; no test bench for these modules drives drop at all.", "anchors": ["rtl/pcie_us_axis_cq_demux.v", "rtl/pcie_us_axis_rc_demux.v"]}
{"id": "C88", "title": "Segmented RAM: reads answered in order with the bytes last written", "statement": "In every segment of dma_psdpram and dma_psdpram_async every read taken since the last reset is answered once and in order, with the word whose bytes are those last written before the read was taken; a read is taken exactly when the client takes answers or fewer than PIPELINE reads are unanswered; an answer not taken is kept; wr_done follows each write at the next clock; if the client takes answers again and again every read is answered.", "quantifier": "every segment, width, memory size, pipeline depth, every interleaving of write and read clocks, resets, writes, byte enables, reads and ready bits; for the last part every infinite continuation with a fair client", "why_tests_cant": "The pipeline has bubbles that close up while the output waits; whether an answer can be lost, doubled or overtaken depends on the whole history of both ports, and the two clocks of the asynchronous version can interleave in any way.", "anchors": ["rtl/dma_psdpram.v", "rtl/dma_psdpram_async.v"]}
{"id": "C89", "title": "RAM read demultiplexer: commands to the right port, answers in the order of the commands", "statement": "In every segment of dma_ram_demux_rd every read taken from the client since the last reset is handed once, in order and unchanged to the port its select bits name; answers are taken from the ports in the order of the commands and all passed on to the client in that order, so that the k-th answer is the one its port gave to the k-th command; commands and answers not taken are kept; if the ports take and answer commands again and again, the client takes answers again and again and asks only ports that exist, every read is answered and ctrl_rd_cmd_ready comes back.", "quantifier": "every number of ports, select widths, segment, history of commands, ready bits, answers and resets; for the last part every infinite continuation with fair ports and client", "why_tests_cant": "Two FIFOs of 32 entries with wrapping 6-bit pointers, a half-full flag that lags one clock, and a two-entry output register: a slip needs a particular interleaving of full, empty and stalled states, and liveness is about infinite runs.", "anchors": ["rtl/dma_ram_demux_rd.v"]}
{"id": "C90", "title": "RAM write demultiplexer: writes to the right port, done reported in order", "statement": "In every segment of dma_ram_demux_wr every write taken from the client since the last reset is handed once, in order and unchanged to the port its select bits name; when the client has seen m done pulses, the first m writes have been reported done by their ports; no pulse is lost: if the ports take writes again and again, do each of them and report no write they did not get, and only ports that exist are used, every write is reported and ctrl_wr_cmd_ready comes back.", "quantifier": "every number of ports, select widths, segment, history of commands, ready bits, done bits and resets; for the last part every infinite continuation with fair ports", "why_tests_cant": "The ports may report out of order and at once; the counters saturate at 32, and that no pulse is lost there depends on the order FIFO, the register behind it and the counters together.", "anchors": ["rtl/dma_ram_demux_wr.v"]}
{"id": "C91", "title": "TLP demultiplexer: every packet goes whole to its port", "statement": "The segments taken by pcie_tlp_demux since the last reset that belong to a packet for a port are handed to that port once, in order and unchanged, at most one beat being on its way; so every packet arrives whole at the highest port selected for its first segment, or nowhere if none is selected or it is to be dropped. What a port does not take is kept. A beat is taken exactly when enabled and either nothing is shown to any port or all ports are ready. With ports that are ready again and again everything is delivered and, while enabled, the next beat is taken. With the select input of pcie_tlp_demux_bar a packet goes to the port that has its BAR number; by default port m has the BAR number base + m*stride.", "quantifier": "every number of ports and segments, history of beats (also malformed ones), ready bits, select and drop inputs, enables and resets; for liveness every infinite continuation with fair ports", "why_tests_cant": "Several packets may start and end in one beat, for different ports that stall independently; the selection is kept in registers from beat to beat. The tests use one or two ports and random stalls.", "anchors": ["rtl/pcie_tlp_demux.v", "rtl/pcie_tlp_demux_bar.v"]}
{"id": "C92", "title": "TLP multiplexer: the output is a merge of the inputs by packets", "statement": "For inputs whose valid segments come first in each beat, the segments put out by pcie_tlp_mux since the last reset are a merge of the segments taken from the ports: each segment taken is sent once, in the order of its port, unchanged, at most one beat per port and two on the output being on their way; and a packet is never interrupted by segments of another port. What is not taken from the output is kept. (Also wanted: what is taken is sent in the end.)", "quantifier": "every number of ports and segments, arbitration type and priority, history of beats, pauses, ready bits and resets", "why_tests_cant": "Several packets of several ports are packed into one output beat, from registers with an offset per port, with look-ahead to the next input beat; which state is reached depends on the alignment of all ports. The tests use random packets and would have to hit certain alignments of partly filled beats.", "anchors": ["rtl/pcie_tlp_mux.v"]}
{"id": "C93", "title": "TLP multiplexer: sel_tlp_seq reports each packet sent once", "statement": "For inputs whose valid segments come first in each beat, the pulses on sel_tlp_seq_valid with sel_tlp_seq since the last reset are the ports and sequence numbers of the packets sent, in order, each once and nothing else; at most one beat of them is not reported yet.", "quantifier": "every number of ports and segments, arbitration type and priority, history of beats, pauses, ready bits and resets", "why_tests_cant": "The pulses are computed before it is known whether the segments are valid; spurious ones appear only for certain alignments. The tests do not look at them when nothing is sent.", "anchors": ["rtl/pcie_tlp_mux.v"]}
{"id": "C94", "title": "MSI-X: the AXI lite interface is a byte memory with the table, and shows the pending bits", "statement": "After power up or a reset, if the master holds its requests until they are taken: the writes taken in the lower half of the addresses change exactly the bytes selected by the strobes of the 2^(W+4) bytes of the table; writes in the upper half change nothing; each read taken is answered once, in order, at the next clock, with the bytes of the table or of the pending bits at the address; each write is answered once; the table used for the interrupts is that of the writes taken. Answers are kept until taken, and a request is taken within three clocks if answers are taken.", "quantifier": "every data width of 8, 16, 32, 64 bits, index width, address width, history, address, strobe and ready timing", "why_tests_cant": "Reads, writes, strobes, word selection, the arbiter, the output register with its hold register and the pending bit memory interact; the test writes and reads aligned words one at a time.", "anchors": ["rtl/pcie_msix.v"]}
{"id": "C95", "title": "MSI-X: one message per request, none lost, none without request", "statement": "A message is a memory write of one word with the address and data of the table entry of a vector requested before; there are no more messages than requests; a request accepted is, as long as there is no reset, pending, being served, or its message was offered; while the function is disabled or masked or the vector masked the request becomes pending instead of sent; the pending bits are changed in no other way. A message not taken is kept.", "quantifier": "every number of vectors, history of requests, table writes, masks and enables, ready timing and resets", "why_tests_cant": "The pending bits are kept 64 to a word with a copy in a register that gets stale; wrong words are used only for certain indices. The test module uses few vectors.", "anchors": ["rtl/pcie_msix.v:241-432"]}
{"id": "C96", "title": "MSI-X: a request is delivered in the end", "statement": "After a request is accepted, if there is no reset, the function is enabled and not masked, the vector is not masked, no new requests come and messages are taken often enough, the message of the vector is offered.", "quantifier": "every number of vectors, every state reached, every ready timing", "why_tests_cant": "Liveness: there is no bound a test could wait for, and starvation depends on the state of other vectors.", "anchors": ["rtl/pcie_msix.v:300-348"]}
{"id": "C97", "title": "AXI stream source: the stream is made of the blocks of the descriptors, in order", "statement": "With a RAM that answers the reads of each segment in order and with its contents: for each descriptor taken, in order, the stream carries the words of the block (from the address rounded down to the beat size, modulo the address space), with keep exactly for the words of the block, last in the last beat, id, dest and user of the descriptor; each descriptor gets one status with its tag, in order; only segments and addresses of blocks without status are read, each answer is awaited, and no answer is taken that is not there. Beats and read commands not taken are kept.", "quantifier": "every power of two of segments, segment width and beat width allowed by the checks, every word size, address and length width, sequence of descriptors, RAM timing per segment, ready timing and resets", "why_tests_cant": "The segments run independently; parts of segments, several segments per beat, the last cycle, the output FIFO and its lagging half full flag interact. The test uses a few configurations, mostly one RAM timing.", "anchors": ["rtl/dma_client_axis_source.v"]}
{"id": "C98", "title": "AXI stream source: all blocks come out", "statement": "If no new descriptor is taken and there is no reset, then after (segments + 4) * n + 1 clocks in which the RAM takes commands and answers and the beat is taken, n being the beats due, all blocks are out, the RAM owes no answers, the last status is given, and the next descriptor is accepted at the next clock with enable.", "quantifier": "every state reached, every interleaving with clocks in which the surroundings stall", "why_tests_cant": "A deadlock between the read side, the command register, the output side and the FIFO would need a special history.", "anchors": ["rtl/dma_client_axis_source.v:249-444,495-564"]}
{"id": "C99", "title": "AXI stream sink: the RAM is written with the packets, in the blocks of the descriptors", "statement": "With a RAM that reports a write as done only after it took it: beats are taken only for a descriptor or to drop the rest of a packet that is too long; each segment gets, in order, one write command for each beat with a kept word inside the block in that segment, which writes exactly those words (address, byte enables, data; the block starts at the address rounded down to the beat size, modulo the address space) and no other; each descriptor gets one status, in order, with its tag, id, dest and user of its last beat and the length (up to the last word of the packet, or the block), and only after all its writes are done. Commands not taken are kept.", "quantifier": "every power of two of segments, segment width and beat width allowed by the checks, every word size, address and length width, sequence of descriptors and beats, keep bits, RAM timing per segment, and resets", "why_tests_cant": "Each segment has its own FIFO, done counter and timing; the status FIFO with lagging half full flags, partial beats and packets longer or shorter than the block interact. The test uses a few configurations, mostly one RAM timing.", "anchors": ["rtl/dma_client_axis_sink.v"]}
{"id": "C100", "title": "AXI stream sink: all writes and status messages come out", "statement": "If no descriptor and no beat is taken and there is no reset, then after 54 * segments + 37 clocks in which the RAM takes commands and completes a write in each segment where one is open, all writes are done and all status messages are given; two clocks later the sink accepts the next beat of an open packet, or, between packets with enable, the next descriptor.", "quantifier": "every state reached, every interleaving with clocks in which the RAM stalls", "why_tests_cant": "A deadlock between the segment FIFOs, the done counters, the status FIFO and the count of open descriptors would need a special history.", "anchors": ["rtl/dma_client_axis_sink.v:261-629"]}
{"id": "C101", "title": "UltraScale configuration reader: the outputs are the last device control values read", "statement": "With a core that answers only while read is asserted: no write is ever made; 256 clocks after reset or the last read a read is made of the device control register (PCIE_CAP_OFFSET + 8) of the next function, physical functions 0.. and then virtual functions VF_OFFSET.., round robin; in each clock, for every function, ext_tag_enable, max_read_request_size and max_payload_size are bits 8, 14:12 and 7:5 of the first answer to the last read of that function (0 before it).", "quantifier": "every number of functions up to 256, every virtual function offset and capability offset that fits, every core timing and data, including answers repeated in the clock after the first, and resets", "why_tests_cant": "read stays asserted one clock after the answer, and the answer is registered; whether a second answer is taken for another function depends on the timing. It is tested only inside the whole interface, with one core timing.", "anchors": ["rtl/pcie_us_cfg.v"]}
{"id": "C102", "title": "UltraScale configuration reader: all functions are read again and again", "statement": "The number of reads since reset is the number of clocks in which the core does not keep the module waiting, divided by 258, and the next function is that number modulo the number of functions.", "quantifier": "every number of functions, every run without reset", "why_tests_cant": "A missed answer would stop the polling only for a special timing.", "anchors": ["rtl/pcie_us_cfg.v:100-173"]}
{"id": "C103", "title": "Minimal AXI lite master: each request is made once, in order, and answered with the right completion", "statement": "A memory write of one double word makes exactly one AXI write (address, data, first byte enables as strobe), a memory read of one double word exactly one AXI read; they are shown from the clock after the TLP until taken, and no TLP is started while one is open, so a read is never on AXI before an earlier write was taken. Every non-posted request gets exactly one completion, in the order of the requests: a read of one double word a successful one with the data of its AXI answer, byte count and lower address from the byte enables; a longer read completer abort; others unsupported request; with requester, 10 bit tag, traffic class, attributes of the request and the completer id. Posted TLPs (memory writes, messages) and completions get none. AXI answers are taken only for the oldest open request. Errors are reported as correctable or not. What is not taken is kept.", "quantifier": "every sequence of TLPs (also of many beats), every header, address width, 32 or 64 bit addresses, every timing of AXI and of the completion output, and resets", "why_tests_cant": "Requests are pipelined through a 32 entry FIFO without a full check, with a lagging half full flag; reads, writes and error completions interleave. The test sends reads and writes one after the other, and bad lengths and an IO request, but no messages.", "anchors": ["rtl/pcie_axil_master_minimal.v"]}
{"id": "C104", "title": "Minimal AXI lite master: all answers come out", "statement": "If no TLP is taken and there is no reset, then after 98 clocks in which AXI and the completion output take what is shown and AXI answers what the module waits for, nothing is shown or waited for any more, and two clocks later requests are accepted; every response due was given.", "quantifier": "every state reached, with any TLPs before, every interleaving with stalled clocks", "why_tests_cant": "A deadlock between the response FIFO, the response state machine and the output register would need a special history.", "anchors": ["rtl/pcie_axil_master_minimal.v:280-706"]}
{"id": "C105", "title": "AXI write master: each memory write is one burst with its bytes at the right addresses, in order", "statement": "Every memory write TLP (not poisoned) makes a write on AXI: the burst starts at the address of the TLP, its beats have exactly the bytes enabled by the first and last byte enables, at their addresses, the last beat is marked, bursts have at most AXI_MAX_BURST_LEN beats (longer writes are split), bursts and beats come in the order of the TLPs. Every other TLP is dropped as a whole and reported as one uncorrectable error. A beat or an address that is shown and not taken is kept.", "quantifier": "every sequence of TLPs, lengths 1 to 1024 double words, every address and byte enables, data widths from 64 bits, every burst limit, 32 or 64 bit addresses, every timing of the source and of AXI, and resets", "why_tests_cant": "The data is shifted by the address offset across beats, with a 32 entry output FIFO whose half full flag lags; counts depend on length, offset and burst limit. The test uses bursts of up to 256 beats and short TLPs, so nothing is ever split.", "anchors": ["rtl/pcie_axi_master_wr.v"]}
{"id": "C106", "title": "AXI write master: all beats come out", "statement": "If no beat is taken and there is no reset, then after 44 clocks in which AXI takes addresses and beats, all complete writes are out, of a write that is not complete as many beats as were taken, nothing is shown any more, and two clocks later the next beat is accepted.", "quantifier": "every state reached with writes that fit in a burst, every interleaving with stalled clocks", "why_tests_cant": "A beat left in the shift register or the FIFO would need a special length and offset.", "anchors": ["rtl/pcie_axi_master_wr.v:150-543"]}
{"id": "C107", "title": "UltraScale request adapter: every TLP is put out exactly, with its header", "statement": "From the completer request stream (not straddled) the TLP FIFO gets for every request its payload double words in order, packed from lane 0 with all lanes used except in the last beat, at least one beat, first and last beat marked, the right lanes enabled, and with the first beat a TLP header that has format and type of the request, traffic class, attributes, length, requester, tag, byte enables and address of the descriptor, and BAR and function.", "quantifier": "every sequence of requests of any length, data widths 64 to 512 bits, every pause of the stream and of the FIFO, and resets between and within TLPs", "why_tests_cant": "The descriptor of 4 double words is cut off while the beats are realigned, with three different cases for the end of a TLP and a separate 64 bit state machine; tests use a few lengths and one width per run.", "anchors": ["rtl/pcie_us_if_cq.v"]}
{"id": "C108", "title": "UltraScale completion adapter: every TLP is put out exactly, with its header", "statement": "The same for the requester completion stream (descriptor of 3 double words): payload, first and last beat, lanes, header (status, byte count, lower address, requester, tag, completer, length, poisoned bit) and error code.", "quantifier": "every sequence of completions of any length, data widths 64 to 512 bits without straddling, every pause, and resets", "why_tests_cant": "3 double words are cut off, so all lengths have other alignments than those of requests; the superfluous beat at 64 bits is not seen by the DMA test since the read engine ignores what follows the data.", "anchors": ["rtl/pcie_us_if_rc.v"]}
{"id": "C109", "title": "UltraScale stream adapters: beats are kept, and all come out", "statement": "A beat that is shown to the FIFO and not taken is kept as it is. If the stream is idle, all beats of complete TLPs, and all full beats of a TLP that is open, are out after two clocks in which the FIFO is ready.", "quantifier": "every state reached, every interleaving with clocks in which the FIFO is not ready, both modules and all widths", "why_tests_cant": "A beat left in the alignment register would need a special length followed by silence.", "anchors": ["rtl/pcie_us_if_cq.v:412-489", "rtl/pcie_us_if_rc.v:392-463"]}
{"id": "C110", "title": "UltraScale request adapter: messages keep their message code", "statement": "The TLP header of a message request has the type with the routing, the format for its length, and the message code in bits 71:64.", "quantifier": "every descriptor of a message (request types 12 to 14)", "why_tests_cant": "No test sends messages.", "anchors": ["rtl/pcie_us_if_cq.v:359-386"]}
{"id": "C111", "title": "UltraScale completion output: every completion goes out exactly, with its descriptor", "statement": "The completer completion stream (not straddled) carries for every TLP of the FIFO the descriptor (lower address, address type, byte count, double word count, status, poisoned, requester, tag, completer, traffic class, attributes) followed by the payload double words in order, packed from lane 0, all lanes used except in the last beat, tkeep and tlast right, first and last beat marked in the user signal at 512 bits, never discontinued; the FIFO is read only if it shows something.", "quantifier": "every sequence of completions of any length, data widths 64 to 512 bits, every pause of the FIFO (also within a TLP) and of the stream, and resets", "why_tests_cant": "The data is shifted by 3 lanes (1 at 64 bits) with an extra beat for some lengths; tests use a few lengths, and completions with 4096 bytes or 1024 double words are never asked for from the AXI masters.", "anchors": ["rtl/pcie_us_if_cc.v"]}
{"id": "C112", "title": "UltraScale request output: every request goes out exactly, with its descriptor", "statement": "The same for the requester request stream with two FIFOs (reads, writes): descriptor (address, double word count 1 to 1024, request type, poisoned, requester, tag, traffic class, attributes), payload, tkeep, tlast, byte enables and sequence number in the user signal of the first beat; TLPs of the two FIFOs are not mixed, and those of one FIFO keep their order.", "quantifier": "every sequence of read and write requests of any length, data widths 64 to 512 bits, both user widths, every pause of the FIFOs and of the stream, every amount of credits, and resets", "why_tests_cant": "Tests of the DMA engines only make requests with four double word headers, so the other header form, which the module accepts, is not tried; interleavings of the two FIFOs with pauses are random.", "anchors": ["rtl/pcie_us_if_rq.v"]}
{"id": "C113", "title": "UltraScale output adapters: beats are kept, and all come out", "statement": "A beat shown and not taken is kept. If the FIFOs show nothing new, hold whole TLPs, and there are credits, then after as many ready clocks as there are beats left, and two more, all are out and the FIFOs are read to the end.", "quantifier": "every state reached, both modules and all widths, ready in any clocks", "why_tests_cant": "Starvation or a beat left in the shift register would need a special length followed by silence.", "anchors": ["rtl/pcie_us_if_cc.v:299-379", "rtl/pcie_us_if_rq.v:500-640"]}
{"id": "C114", "title": "UltraScale request output: flow control, priority, sequence numbers", "statement": "A read request is started only if more than 8 non-posted header credits were there the clock before; a write only if more than 8 posted header credits and posted data credits for more than two maximum payloads were there, and no read request could be started. A sequence number that comes back goes to the port (reads or writes) of its request and has the value it was given.", "quantifier": "every history of credits, maximum payload size, requests, pauses and resets; every sequence number and width", "why_tests_cant": "The simulation model has many credits nearly always.", "anchors": ["rtl/pcie_us_if_rq.v:275-288", "rtl/pcie_us_if_rq.v:521-544", "rtl/pcie_us_if_rq.v:870-873"]}
{"id": "C115", "title": "UltraScale completion output at 512 bits: the end pointer is the last lane", "statement": "In the last beat of a completion the user signal bits 11:8 (is_eop0_ptr) give the last lane used.", "quantifier": "every last beat, 1 to 16 lanes", "why_tests_cant": "The simulation model of the hard block uses tlast and tkeep when not straddling.", "anchors": ["rtl/pcie_us_if_cc.v:165", "rtl/pcie_us_if_cc.v:458-465", "rtl/pcie_us_if_cc.v:503-525"]}
{"id": "C116", "title": "Stratix 10 configuration interface: outputs show the last reports, function by function", "statement": "After a reset every bit of every output of every function is the bit of that field in the last report (register, function, word) that has the field, and 0 if there was none; a report for one function leaves the outputs of all other functions alone.", "quantifier": "H-Tile and L-Tile, every number of functions, every sequence of reports (all addresses, also unused ones, functions that are not there) and resets, every state before the reset", "why_tests_cant": "There is no test of this module on its own, and the examples have one function.", "anchors": ["rtl/pcie_s10_cfg.v:107-301"]}
{"id": "C117", "title": "Stratix 10 configuration interface: all registers can be read from the outputs", "statement": "For each register and function, each field of the word last reported is shown at the output of its name: no report of another register hides it.", "quantifier": "H-Tile and L-Tile, all registers, fields, functions and sequences of reports", "why_tests_cant": "A test would have to report registers in different orders with contradicting values.", "anchors": ["rtl/pcie_s10_cfg.v:110-172", "rtl/pcie_s10_cfg.v:173-245"]}
{"id": "C118", "title": "P-Tile configuration interface: outputs show the last reports, function by function", "statement": "As C116 for the P-Tile, whose words have 16 bits: wide outputs are put together from two or four registers.", "quantifier": "every number of functions, every sequence of reports and resets, every state before the reset", "why_tests_cant": "The upper halves of AER masks are not used in the examples, which have one function; a wrong index shows in a simulator as nothing at all.", "anchors": ["rtl/pcie_ptile_cfg.v:146-412"]}
{"id": "C119", "title": "Stratix 10 receive adapter: exactly the TLPs of the stream reach the FIFO", "statement": "After a reset, for every stream in which nothing comes while the FIFO is not ready, TLPs are framed and have a complete header, the beats put into the FIFO are those expected of the stream, in order: the header (three or four double words by bit 29) apart, the data from double word 0 on in beats of eight with the strobes of the last one, BAR (6: the IO BAR, 7: expansion ROM as 6) and function with the first. At most two beats are late, and two clocks without new beats bring them out.", "quantifier": "every stream of any length, every pattern of valid and ready, every state before the reset, every IO_BAR_INDEX (one segment of 256 bits)", "why_tests_cant": "The shift by three or four double words with a TLP ending in the tail of the previous beat, and the next TLP right behind it, depends on lengths, header type and gaps together.", "anchors": ["rtl/pcie_s10_if_rx.v:122-152", "rtl/pcie_s10_if_rx.v:262-389"]}
{"id": "C120", "title": "P-Tile receive adapter: exactly the segments of the stream reach the FIFO", "statement": "After a reset, for every stream in which nothing comes while the FIFO is not ready, the segments put into the FIFO are those of the stream, in order, with header, BAR, function, strobes and data of each.", "quantifier": "every number of segments, every width of a segment, every stream, every state before the reset", "why_tests_cant": "With function 0 only, as in the examples and test benches, wrong bits of the function number show as right ones.", "anchors": ["rtl/pcie_ptile_if_rx.v:134-141", "rtl/pcie_ptile_if_rx.v:248-315"]}
{"id": "C121", "title": "TLP FIFO: the complete TLPs that went in come out, in order, unchanged and without gaps", "statement": "After a reset the beats given at the output are a prefix of the beats of complete TLPs taken at the input, in order, with all their fields; at most DEPTH/TLP_STRB_WIDTH+1 beats are inside, and that many (+1) clocks of reading bring all of them out. The output is kept until it is read, and once a TLP has begun at the output its next beat is there in the next clock.", "quantifier": "every sequence of valid, ready and beats of any length, every depth (in beats) from 2 up to 2**ADDR_WIDTH, every state before the reset (one segment)", "why_tests_cant": "Loss at the full mark needs the pointers to wrap around while the FIFO is full, with the ready output one clock late and TLP ends at particular places.", "anchors": ["rtl/pcie_tlp_fifo_raw.v:319-345", "rtl/pcie_tlp_fifo_raw.v:376-393", "rtl/pcie_tlp_fifo_raw.v:485-525", "rtl/pcie_tlp_fifo_raw.v:578-603"]}
{"id": "C122", "title": "TLP FIFO: the input waits only while the FIFO is nearly full, and every TLP is taken in the end", "statement": "The input is not ready only if at least DEPTH/TLP_STRB_WIDTH-2 beats are inside; when the output is read long enough the input becomes ready, so every TLP that is offered is taken to its end.", "quantifier": "every sequence, depth and state before the reset as in C121; TLPs of every length", "why_tests_cant": "A deadlock needs a TLP longer than the FIFO, that is a payload size the test benches do not use.", "anchors": ["rtl/pcie_tlp_fifo_raw.v:234", "rtl/pcie_tlp_fifo_raw.v:376-393", "rtl/pcie_tlp_fifo_raw.v:485-494"]}
{"id": "C123", "title": "TLP FIFO: below the watermark there is room for all beats on their way", "statement": "In a clock in which the watermark output is low, and in the clocks after it up to DEPTH/TLP_STRB_WIDTH-1-WATERMARK/TLP_STRB_WIDTH in all, the input is ready whatever comes in.", "quantifier": "every sequence, depth, watermark and state before the reset", "why_tests_cant": "The bound is met only if a beat comes in every clock after the watermark while nothing is read.", "anchors": ["rtl/pcie_tlp_fifo_raw.v:376-393", "rtl/pcie_s10_if_rx.v:167", "rtl/pcie_s10_if_rx.v:199-200"]}
{"id": "C124", "title": "TLP FIFO multiplexer: every complete TLP taken at a port comes out once, whole, in the order of its port", "statement": "After a reset there is an order of (port, beat) such that the beats given at the output are a prefix of it (at most 19 beats behind), the beats of each port in it are a prefix of the complete TLPs taken at this port (at most DEPTH/TLP_STRB_WIDTH+1 behind), and the beats of a TLP are together. If nothing more comes, no port is held and the output is read, then after 8*PORTS*(DEPTH/TLP_STRB_WIDTH+2)+79 clocks all of them are out. The output is kept until it is read.", "quantifier": "every number of ports, arbitration type and priority, FIFO depth; every sequence of inputs, pause and ready of any length; every state before the reset (one segment)", "why_tests_cant": "The beats are read twice, for the decision from the control output and a clock later from the data output, from two read pointers; a slip between them needs a FIFO that runs empty while another port is chosen. Overflow of the output FIFO needs ready to go low at the right clocks.", "anchors": ["rtl/pcie_tlp_fifo_mux.v:199-266", "rtl/pcie_tlp_fifo_mux.v:348-502", "rtl/pcie_tlp_fifo_mux.v:557-599", "rtl/pcie_tlp_fifo_raw.v:578-626"]}
{"id": "C125", "title": "TLP FIFO multiplexer: no TLP starts from a port that is held, or while one of higher priority waits", "statement": "If sel_tlp_seq_valid is set for port n, then two clocks before pause was low for n and its FIFO had a beat; with a fixed priority, each port before n was held or had none.", "quantifier": "as in C124; every clock", "why_tests_cant": "Needs the pause inputs (credits) and FIFO levels to change in the same clock as the decision.", "anchors": ["rtl/pcie_tlp_fifo_mux.v:354-407", "rtl/pcie_tlp_fifo_mux.v:434-441", "rtl/pcie_tlp_fifo_mux.v:465-467"]}
{"id": "C126", "title": "TLP FIFO multiplexer: the sequence numbers reported for a port are those of its TLPs, once each and in order", "statement": "The numbers at sel_tlp_seq with sel_tlp_seq_valid of port n are a prefix of the sequence numbers of the first beats of the complete TLPs taken at port n, at most DEPTH/TLP_STRB_WIDTH+3 behind.", "quantifier": "as in C124; every port", "why_tests_cant": "The DMA engine counts finished operations with these numbers; one reported twice or for a wrong port shows only when two ports are active and the output stalls.", "anchors": ["rtl/pcie_tlp_fifo_mux.v:270-271", "rtl/pcie_tlp_fifo_mux.v:386-390", "rtl/pcie_tlp_fifo_mux.v:465-467", "rtl/pcie_tlp_fifo_mux.v:487-489"]}
{"id": "C127", "title": "TLP FIFO multiplexer: a TLP comes out without a gap", "statement": "After a reset, in every clock in which the output has a beat that is not the last of its TLP, the output has a beat in the next clock too.", "quantifier": "every number of ports, arbitration, FIFO depth; every sequence of inputs, pause and ready of any length; every state before the reset (one segment)", "why_tests_cant": "The Intel cores require it. A gap needs the output FIFO to run empty while the arbiter is stopped by the half full flag, which lags behind, or a FIFO to run empty after the read of its control side.", "anchors": ["rtl/pcie_tlp_fifo_mux.v:348-441", "rtl/pcie_tlp_fifo_mux.v:544-599", "rtl/pcie_tlp_fifo_raw.v:578-626"]}
{"id": "C128", "title": "P-Tile transmit: every complete TLP taken at the four ports is sent once, whole, in the order of its port", "statement": "After a reset the beats at tx_st (data, header, sop, eop) are a prefix, at most 20 beats behind, of an order of (port, beat) whose beats of each port are a prefix of the complete TLPs taken at this port, with the beats of a TLP together. Read requests have one beat without data.", "quantifier": "every FIFO depth, every sequence of inputs, tx_st_ready and credit limits of any length; every state before the reset (one segment)", "why_tests_cant": "Loss or mixing needs tx_st_ready to change in the clocks in which a TLP passes the output register, with several ports active.", "anchors": ["rtl/pcie_ptile_if_tx.v:240-365", "rtl/pcie_ptile_if_tx.v:445-483"]}
{"id": "C129", "title": "P-Tile transmit: the ready latency is kept and a TLP has no gaps", "statement": "tx_st_valid is set only if tx_st_ready was set three clocks before, and within a TLP it is set in each such clock.", "quantifier": "as in C128", "why_tests_cant": "A sink model that does not check the rule of the core hides it; it depends on the delay of ready, on the output FIFO and on the FIFOs of the ports together.", "anchors": ["rtl/pcie_ptile_if_tx.v:204", "rtl/pcie_ptile_if_tx.v:445-483"]}
{"id": "C130", "title": "P-Tile transmit: a TLP starts only if credits for it were seen", "statement": "If the multiplexer reports the start of a TLP of port n, then three clocks before the counters of the kind of the port had at least five headers, and data credits for more than two TLPs of the largest payload (except for read requests).", "quantifier": "as in C128; every port and clock", "why_tests_cant": "Needs the credit counters to be near the limit in the clock of the decision.", "anchors": ["rtl/pcie_ptile_if_tx.v:249", "rtl/pcie_ptile_if_tx.v:260", "rtl/pcie_ptile_if_tx.v:271", "rtl/pcie_ptile_if_tx.v:282", "rtl/pcie_ptile_if_tx.v:474-477"]}
{"id": "C131", "title": "P-Tile transmit: the header credit counters are never asked for more than they have", "statement": "If the ports get well formed TLPs of their kind (sop at the first beat and only there), then in every clock after a reset the header credits to be subtracted from the counters of posted, non-posted and completion headers are not more than these counters have; they are not cut off at zero.", "quantifier": "as in C128; well formed inputs at the ports", "why_tests_cant": "The decision, the count and the counter are several clocks apart; four TLPs can start before the first is subtracted. The limit of four in the source is just right for one segment.", "anchors": ["rtl/pcie_ptile_if_tx.v:367-443", "rtl/pcie_ptile_if_tx.v:474-477", "rtl/pcie_ptile_fc_counter.v:56-79", "rtl/pcie_tlp_fifo_mux.v:273-298"]}
{"id": "C132", "title": "P-Tile transmit: the interface never sends more TLPs of a kind than the core has allowed", "statement": "For posted, non-posted and completion headers: after a reset the number of TLPs of this kind sent at tx_st is never more than the number of header credits the core has announced in tx_cdts_limit since the reset (each limit is shown modulo 2^12 in its turn of tx_cdts_limit_tdm_idx).", "quantifier": "every FIFO depth, every sequence of inputs, tx_st_ready and credit limits of any length; every state before the reset; well formed inputs at the ports (one segment)", "why_tests_cant": "The count wraps and the limit is time multiplexed; a model of the core which shows each limit in one clock of eight and gives plenty of credits never runs out, so an overrun is not seen.", "anchors": ["rtl/pcie_ptile_fc_counter.v:56-79", "rtl/pcie_ptile_if_tx.v:367-443", "rtl/pcie_ptile_if_tx.v:474-477"]}
{"id": "C133", "title": "DMA read multiplexer: what is done for a descriptor concerns only the port it came from", "statement": "In dma_if_mux_rd the descriptors passed to the DMA interface are a merge of those of the ports, unchanged but for select and tag; descriptors of different ports never have the same select or tag. If the DMA interface uses only selects of descriptors it got, each of its RAM write commands goes to the RAM of the port of this descriptor, with the select this port gave, in order and without loss; a status with the tag of a descriptor goes to its port only, with its own tag.", "quantifier": "every number of ports from two, every width and arbitration, every sequence of inputs and resets of any length, each segment", "why_tests_cant": "Ports with equal selects and tags at the same time, and the two modules agreeing on the position of the port bits for every parametrisation; tests use one.", "anchors": ["rtl/dma_if_mux_rd.v:130-223", "rtl/dma_if_desc_mux.v:199-215", "rtl/dma_if_desc_mux.v:353-361", "rtl/dma_ram_demux_wr.v:158-179"]}
{"id": "C134", "title": "DMA write multiplexer: what is done for a descriptor concerns only the port it came from", "statement": "As C133 for dma_if_mux_wr, whose RAM commands are reads; and if no port answers more commands than it got, the k-th answer the DMA interface gets is the one the port of the k-th command gave to it.", "quantifier": "as in C133", "why_tests_cant": "as in C133", "anchors": ["rtl/dma_if_mux_wr.v:138-231", "rtl/dma_if_desc_mux.v:199-215", "rtl/dma_if_desc_mux.v:353-361", "rtl/dma_ram_demux_rd.v:149-168"]}
{"id": "C135", "title": "H-Tile transmit: each TLP is laid out with its header words, then its payload words, in as many beats as they need", "statement": "After a reset, if the beats coming into the FIFO of pcie_s10_if_tx are complete TLPs (all words of a beat used but in the last, where the first m are), then the beats with tx_st_valid are those of the TLPs in order: for each TLP ceil((k+words)/8) beats, k = 3 or 4 by its header, sop at the first only, eop at the last only, and their words are the k header words and the payload in order. At most two beats for each beat left in the FIFO and one more are still to come.", "quantifier": "every sequence of TLPs of any length, of tx_st_ready and of stalls of the FIFO; every state before the reset (one segment of 256 bits)", "why_tests_cant": "The last beat is split or not, depending on its words and the header size; tx_st_ready can fall between the two halves, while the data side of the FIFO lags behind the control side.", "anchors": ["rtl/pcie_s10_if_tx.v:577-673", "rtl/pcie_s10_if_tx.v:676-700", "rtl/pcie_s10_if_tx.v:705-731"]}
{"id": "C136", "title": "H-Tile transmit: the ready latency of three clocks is exact", "statement": "Without resets tx_st_valid is set in a clock if and only if tx_st_ready was set three clocks before and the FIFO showed a beat two clocks before.", "quantifier": "every state and all inputs", "why_tests_cant": "A sink which is always ready or does not check the latency hides it.", "anchors": ["rtl/pcie_s10_if_tx.v:652-673", "rtl/pcie_s10_if_tx.v:693", "rtl/pcie_s10_if_tx.v:733"]}
{"id": "C137", "title": "H-Tile transmit: the internal credit counts are the TLPs between the multiplexer and 24 clocks after the FIFO", "statement": "After any reset each of the six counts int_tx_fc is, modulo its width, the sum of what pcie_tlp_fifo_mux reported since the reset, less the credits of the TLPs whose first beat left the FIFO at least 24 clocks ago (payloads of at most 512 words).", "quantifier": "every sequence of inputs of any length; every state before the reset (one segment)", "why_tests_cant": "The delay memory wraps every 32 clocks and is not cleared by a reset; a stale entry is counted only if it lies in slot 0, and its effect is seen only when credits run short.", "anchors": ["rtl/pcie_s10_if_tx.v:484-529", "rtl/pcie_s10_if_tx.v:736-741", "rtl/pcie_s10_if_tx.v:755-771"]}
{"id": "C138", "title": "H-Tile transmit: a gate is open only if more than four header credits and two payloads are left for all TLPs under way", "statement": "A gate of the multiplexer is set two clocks after the core shows more than four header credits (and data credits for more than two largest payloads) beyond the internal counts. If the core has taken off its credits at least the TLPs which left the FIFO 24 clocks ago, then an open gate means that all TLPs past the multiplexer and four more headers (two more payloads) are within the limit.", "quantifier": "every sequence of inputs of any length, all credits of the core and all payload sizes; every state before a reset of three clocks (one segment); counts below 256 and 4096", "why_tests_cant": "Credits must be nearly used up while TLPs are in the FIFO, in the delay memory and in the core at once.", "anchors": ["rtl/pcie_s10_if_tx.v:743-753", "rtl/pcie_s10_if_tx.v:484-529", "rtl/pcie_s10_if_tx.v:297-330"]}
{"id": "C139", "title": "AXI lite master: a memory read request becomes one AXI lite read per word and completions which add up to it", "statement": "When pcie_axil_master takes a memory read request, the AXI lite reads and the response FIFO entries issued for it are one per word, in order, from the first word on; the entries form completions of at most 32 words, each announced in its first entry with its number of words, the bytes still to come and the lower address, and closed in its last entry; each completion but the last ends at a boundary of 128 bytes. The request is done exactly when all of them have been issued.", "quantifier": "every header, every state in which a request is taken, all lengths from 1 to 1024 words, and every sequence of arready and of fillings of the response FIFO of any length", "why_tests_cant": "The test sends reads of a few lengths and offsets, most of them shorter than 128 bytes; only requests of more than 32 words which start in the last word before a boundary fail.", "anchors": ["rtl/pcie_axil_master.v:429-507", "rtl/pcie_axil_master.v:591-684", "rtl/pcie_axil_master.v:349-412"]}
{"id": "C140", "title": "AXI lite master: what is offered on an AXI lite channel stays until taken, and no operation is lost", "statement": "After a reset of pcie_axil_master, a valid of the read address, write address or write data channel which is not answered stays, with the same address, data and strobes (the three channels share one address register); every operation recorded in the response FIFO is offered on its channels, and only when the one before it on those channels has been taken; and no operation is offered which is not recorded.", "quantifier": "every state before the reset, every sequence of inputs of any length (any headers, readys, fillings of the response FIFO and further resets)", "why_tests_cant": "The test bench's AXI RAM drives a few patterns of ready; a lost or changed operation under another pattern would not be seen.", "anchors": ["rtl/pcie_axil_master.v:305-314", "rtl/pcie_axil_master.v:339-347", "rtl/pcie_axil_master.v:429-779"]}
{"id": "C141", "title": "AXI lite master: a memory write request becomes one AXI lite write per word", "statement": "When pcie_axil_master takes a memory write request, the AXI lite writes issued for it are one per word, in order, each with the address of its word, the word of the beat it stands in, and the strobes of the first byte enables for the first word, of the last byte enables for the last one, and all four for the others. The request is done exactly when all of them have been issued, and by then just the beats which hold its words have been taken from the input.", "quantifier": "every header, every state in which a request is taken, all lengths from 1 to 1024 words, every width of the data from two words on (a power of two), and every sequence of beats, awready, wready and fillings of the response FIFO of any length", "why_tests_cant": "The test writes a few lengths at a few offsets with the default width and few patterns of ready.", "anchors": ["rtl/pcie_axil_master.v:508-547", "rtl/pcie_axil_master.v:685-759", "rtl/pcie_axil_master.v:363-379"]}
