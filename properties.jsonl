{"id": "C01", "title": "Datagram queue is a bounded FIFO", "statement": "For every interleaving of write, read and clear calls on an application queue, the sequence of datagrams returned by successful reads is exactly the sequence of datagrams accepted by writes since the last clear, in order, byte for byte, with nothing lost, duplicated or reordered; a write is accepted exactly when its length is at most the configured maximum and fewer than N_datagram-1 datagrams are pending.", "quantifier": "all queue sizes accepted by the configuration check, all finite histories of write/read/clear calls with datagrams of any length and content", "why_tests_cant": "Wrap-around of the ring indices interacts with every fill level and history; a test exercises a handful of histories.", "anchors": ["lib/src/application/queue/queue.cpp: write_under_lock, read_under_lock, clear, get_free, get_used", "lib/include/dectnrp/application/queue/queue.hpp"]}
{"id": "C02", "title": "Queue level report is exact and read-only", "statement": "The queue level report returns the lengths of the first min(n, pending, 8) pending datagrams in the order they will be read, and taking a report never changes what later reads return.", "quantifier": "all reachable queue states and all requested n", "why_tests_cant": "Must hold at every read/write index position of the ring.", "anchors": ["lib/src/application/queue/queue.cpp: get_queue_level_nto, get_queue_level_under_lock", "lib/include/dectnrp/application/queue/queue_level.hpp"]}
{"id": "C03", "title": "Job queue delivers each accepted job once, in order", "statement": "For every interleaving of enqueue and wait/dequeue calls, jobs are dequeued in exactly the order they were accepted, each once, and each carries a job number equal to its position in the accepted sequence; at most capacity-1 jobs are pending, and an enqueue into a full permeable queue never overwrites a pending job (it aborts the program, or is refused with false in the build that discards).", "quantifier": "all capacities, all finite interleavings of producers and consumers at lock granularity", "why_tests_cant": "Producer/consumer schedules are unbounded; TX/RX processing order depends on these job numbers.", "anchors": ["lib/src/phy/pool/job_queue_naive.cpp: enqueue_nto, enqueue_under_lock, dequeue_under_lock, get_free, get_used"]}
{"id": "C04", "title": "Impermeable job queue drops silently", "statement": "While the job queue is impermeable, an enqueue call leaves the queue unchanged and yet returns true; once made permeable again later enqueues are accepted as usual, so a true result means 'accepted' only while permeable.", "quantifier": "all queue states and jobs", "why_tests_cant": "A corner of the acceptance contract that producers rely on over any history.", "anchors": ["lib/src/phy/pool/job_queue_naive.cpp: enqueue_nto", "lib/include/dectnrp/phy/pool/job_queue_base.hpp: set_permeable, set_impermeable"]}
{"id": "C05", "title": "Firmware token is handed out in job order", "statement": "For every schedule of worker threads, the callers of the token enter the firmware one at a time and, per producer id, strictly in the order of their fifo counts, with no count skipped.", "quantifier": "any number of callers per id, all schedules of lock attempts, time-outs and unlocks", "why_tests_cant": "Mutual exclusion and ordering are properties of all thread schedules.", "anchors": ["lib/src/phy/pool/token.cpp: lock_fifo_to, unlock_fifo"]}
{"id": "C06", "title": "Baton rotates through the synchronisation workers", "statement": "For every schedule, the baton holder is always a valid worker id, only the holder can pass it on, it visits workers cyclically 0,1,...,n-1,0,..., and packets are reported as unique only if their synchronisation time is later than the previously reported one by more than the configured limit.", "quantifier": "all worker counts, all schedules of pass/test calls, all sequences of synchronisation times", "why_tests_cant": "Depends on the history of all previously reported times and on every schedule.", "anchors": ["lib/src/phy/pool/baton.cpp: pass_on, is_sync_time_unique, is_id_holder_the_same"]}
{"id": "C07", "title": "Chunks of the sync workers tile the timeline", "statement": "For any number of sync workers, any chunk length and any schedule, the workers behave like one sequential scan: each sample time from the first chunk on belongs to exactly one chunk of exactly one worker, successive chunks of consecutive baton holders are adjacent, and packet jobs and regular jobs are enqueued exactly as a single worker scanning chunk after chunk would enqueue them.", "quantifier": "all worker counts, chunk lengths, start times and all times", "why_tests_cant": "A gap at any single time would lose packets; cannot be sampled exhaustively.", "anchors": ["lib/src/phy/rx/sync/sync_chunk.cpp: wait_for_first_chunk_nto, set_next_chunk", "lib/src/phy/pool/worker_sync.cpp: worker_sync_t"]}
{"id": "C08", "title": "Irregular queue pops earliest due time first", "statement": "Pushing callbacks with arbitrary target times and popping them yields every pushed item exactly once, and each pop returns the earliest pending time, which get_next_time announced; a pop never returns an item that is not pending.", "quantifier": "all histories of push and pop with any times", "why_tests_cant": "Depends on arbitrary insertion orders and slot reuse.", "anchors": ["lib/src/phy/pool/irregular_queue.cpp: push, pop, get_next_time"]}
{"id": "C09", "title": "HARQ TX process follows the redundancy version cycle", "statement": "Successive retransmissions of the same transport block use redundancy versions 0,2,3,1,0,2,3,1 and a process that is finalised with a terminating policy becomes idle again; increasing beyond the eighth transmission aborts instead of emitting a wrong version.", "quantifier": "all histories of finalize/retransmit calls", "why_tests_cant": "History property.", "anchors": ["lib/src/phy/harq/process_tx.cpp: increment_rv, finalize", "lib/src/phy/harq/process_rx.cpp", "lib/include/dectnrp/phy/harq/finalize.hpp"]}
{"id": "C10", "title": "HARQ pool never hands one process to two users", "statement": "For every history of requests and finalisations, a HARQ process returned by the pool was not in use, a process is returned by id only when it is parked (kept) and nobody holds it, its soft buffer contains exactly what was combined since it was obtained from the pool, and a request fails (null) exactly when all processes are in use.", "quantifier": "all pool sizes, all histories of request/finalize calls with any finalisation policy", "why_tests_cant": "Depends on every acquisition history.", "anchors": ["lib/src/phy/harq/process_pool.cpp", "lib/include/dectnrp/common/thread/lockable_outer_inner.hpp"]}
{"id": "C11", "title": "TX buffers are exclusive and leave in order", "statement": "For every schedule, a TX buffer handed out for filling is not concurrently scheduled for transmission, the transmitter consumes buffers exactly in increasing order-id with no order-id skipped, and a buffer is never transmitted before it was declared transmittable.", "quantifier": "all pool sizes, all interleavings of fill, abort, schedule, transmit steps", "why_tests_cant": "Ownership invariants over all schedules.", "anchors": ["lib/src/radio/buffer_tx_pool.cpp", "lib/src/radio/buffer_tx.cpp"]}
{"id": "C12", "title": "RX ring buffer holds the most recent samples", "statement": "After any sequence of received blocks, with jitter in block length, the ring buffer position (t mod L) holds the sample with timestamp t for every t among the last L received timestamps, on every antenna.", "quantifier": "all buffer lengths, all sequences of block lengths not larger than the maximum block size", "why_tests_cant": "The wrap-around copy path depends on the alignment of every block history.", "anchors": ["lib/src/radio/buffer_rx.cpp: get_ant_streams_next"]}
{"id": "C13", "title": "Callback scheduler fires every period exactly once", "statement": "If the time passed to successive run calls never jumps beyond one period past a due callback, each registered callback fires exactly once per due time, in order of due time, and after run every next due time lies strictly in the future.", "quantifier": "all sets of up to four callbacks, all sequences of run times respecting the gap condition", "why_tests_cant": "Loop termination and completeness hold only by induction over all run histories.", "anchors": ["lib/include/dectnrp/common/adt/callbacks.hpp: add_callback, run"]}
{"id": "C14", "title": "Bidirectional map stays a bijection", "statement": "After any successful history of insert, erase and value updates on a unique bidirectional map, looking a key up and looking the value up are inverse to each other, and counts agree with the number of live pairs; insert of a known key or value aborts.", "quantifier": "all histories and all keys/values", "why_tests_cant": "History property over arbitrary keys.", "anchors": ["lib/include/dectnrp/common/adt/bimap.hpp"]}
{"id": "C15", "title": "Contact list lookups agree with registration", "statement": "After any sequence of successful registrations, looking a contact up by long ID, short ID, server index and client index returns the same contact that was registered under them, and distinct long IDs never alias.", "quantifier": "all histories of add_new_contact with pairwise fresh identifiers", "why_tests_cant": "History property; a misdirected datagram goes to the wrong PT.", "anchors": ["lib/include/dectnrp/mac/contact_list.hpp"]}
{"id": "C16", "title": "PLCF type 1 and type 2 headers round-trip", "statement": "Packing any valid PLCF (type 1 format 0, type 2 format 0 and 1) writes exactly 5 or 10 bytes, and unpacking those bytes yields the same header.", "quantifier": "all field values that pass the validity check", "why_tests_cant": "Field space is astronomically large; every bit position must be right.", "anchors": ["lib/src/sections_part4/physical_header_field/plcf_10.cpp", "lib/src/sections_part4/physical_header_field/plcf_20.cpp", "lib/src/sections_part4/physical_header_field/plcf_21.cpp", "lib/src/sections_part4/physical_header_field/plcf_base.cpp"]}
{"id": "C17", "title": "PLCF decoder accepts only what some header encodes", "statement": "Decoding arbitrary received bytes never aborts; the decoder reports a decodable header exactly when the header format field and all fields are valid, and what it reports for a packed valid header is that header and its number of transmission resources, MCS and identities.", "quantifier": "all byte strings of PLCF length", "why_tests_cant": "Remote input; all 2^40 and 2^80 byte patterns.", "anchors": ["lib/src/sections_part4/physical_header_field/plcf_decoder.cpp"]}
{"id": "C18", "title": "Feedback info round-trips", "statement": "Packing a feedback info of formats 1 to 6 and unpacking the two resulting bytes yields the same feedback, except buffer status which is coded to the smallest representable level not below the true value; coding is idempotent or its drift is characterised exactly.", "quantifier": "all valid field values of all formats and all buffer sizes", "why_tests_cant": "Numeric thresholds over the whole range of buffer sizes.", "anchors": ["lib/src/sections_part4/physical_header_field/feedback_info.cpp", "lib/include/dectnrp/sections_part4/physical_header_field/feedback_info.hpp"]}
{"id": "C19", "title": "MAC header type and common headers round-trip", "statement": "Packing and unpacking the MAC header type and the data, beacon, unicast and RD-broadcast common headers reproduces every valid header; where an implementation loses information the loss is characterised exactly (lowest byte of the beacon header's network ID).", "quantifier": "all valid header values", "why_tests_cant": "Field space too large; a fixed test vector hides lost low bits.", "anchors": ["lib/src/sections_part4/mac_pdu/mac_header_type.cpp", "lib/src/sections_part4/mac_pdu/mac_common_header.cpp"]}
{"id": "C20", "title": "MAC multiplexing header round-trips and is self-delimiting", "statement": "For every MAC extension, IE type and length, the packed multiplexing header has exactly the announced size, unpacking it yields the same header, and the number of bytes that must be available before unpacking can be determined from the bytes read so far.", "quantifier": "all valid multiplexing headers and all byte strings", "why_tests_cant": "Combinatorial header shapes; receiver sees arbitrary bytes.", "anchors": ["lib/src/sections_part4/mac_pdu/mac_multiplexing_header.cpp"]}
{"id": "C21", "title": "MAC PDU decoder is safe on arbitrary bytes", "statement": "Feeding a transport block of arbitrary bytes, in arbitrary increments, to the MAC PDU decoder never aborts, never reads a byte that has not been supplied, and terminates with a decoded prefix of information elements.", "quantifier": "all byte strings, all increments of supplied bytes", "why_tests_cant": "Remote, adversarial input.", "anchors": ["lib/src/sections_part4/mac_pdu/mac_pdu_decoder.cpp"]}
{"id": "C22", "title": "MAC PDU assembly decodes to what was packed", "statement": "A transport block assembled from a header, any sequence of activated information elements and padding decodes to exactly that sequence of information elements.", "quantifier": "all sequences of valid information elements that fit into the transport block", "why_tests_cant": "Unbounded sequences; self-delimitation of every element matters.", "anchors": ["lib/src/sections_part4/mac_messages_and_ie/mmie.cpp", "lib/src/sections_part4/mac_messages_and_ie/mmie_pool_tx.cpp", "lib/src/sections_part4/mac_pdu/mac_pdu_decoder.cpp"]}
{"id": "C23", "title": "Padding fills the transport block exactly", "statement": "For every number of remaining bytes from one on, filling with padding information elements writes exactly that many bytes and they decode to padding elements only.", "quantifier": "all remaining sizes", "why_tests_cant": "Chunking arithmetic at 257 byte boundaries for every size.", "anchors": ["lib/src/sections_part4/mac_messages_and_ie/mmie_pool_tx.cpp: fill_with_padding_ies", "lib/src/sections_part4/mac_messages_and_ie/padding_ie.cpp"]}
{"id": "C24", "title": "Cluster beacon message round-trips", "statement": "Every valid cluster beacon message packs to the announced number of bytes and unpacks to itself, and the peeked size from the leading bytes equals the packed size.", "quantifier": "all valid cluster beacon messages including all optional-field combinations", "why_tests_cant": "Optional fields times value ranges.", "anchors": ["lib/src/sections_part4/mac_messages_and_ie/cluster_beacon_message.cpp"]}
{"id": "C25", "title": "Network beacon message round-trips", "statement": "Every valid network beacon message packs to the announced number of bytes, the peeked size equals the packed size, and unpacking yields the same message.", "quantifier": "all valid network beacon messages including all optional-field combinations", "why_tests_cant": "Optional fields times value ranges.", "anchors": ["lib/src/sections_part4/mac_messages_and_ie/network_beacon_message.cpp"]}
{"id": "C26", "title": "Resource allocation and random access IEs round-trip", "statement": "Every valid resource allocation IE and random access resource IE packs to the announced size, the peeked size equals the packed size, and unpacking yields the same element for both subslot numerologies; deviations are characterised by counterexample.", "quantifier": "all valid elements, all optional-field combinations, u<=4 and u=8", "why_tests_cant": "Optional fields times value ranges times numerology.", "anchors": ["lib/src/sections_part4/mac_messages_and_ie/resource_allocation_ie.cpp", "lib/src/sections_part4/mac_messages_and_ie/random_access_resource_ie.cpp"]}
{"id": "C27", "title": "Association messages round-trip", "statement": "Every valid association request, response, release and reconfiguration message packs to the announced size and unpacks to itself; deviations are characterised by counterexample.", "quantifier": "all valid messages and all optional-field combinations", "why_tests_cant": "Optional fields, variable flow lists.", "anchors": ["lib/src/sections_part4/mac_messages_and_ie/association_request_message.cpp", "lib/src/sections_part4/mac_messages_and_ie/association_response_message.cpp", "lib/src/sections_part4/mac_messages_and_ie/association_release_message.cpp", "lib/src/sections_part4/mac_messages_and_ie/reconfiguration_request_message.cpp", "lib/src/sections_part4/mac_messages_and_ie/reconfiguration_response_message.cpp"]}
{"id": "C28", "title": "Remaining information elements round-trip", "statement": "Power target, time announce, route info, RD status, MAC security info, group assignment, load info, measurement report, RD capability, neighbouring, broadcast indication, configuration request, higher layer signalling and user plane data elements pack to the announced size, in the layout of the standard, and unpack to themselves; invalid elements are not sent; arbitrary received bytes are accepted exactly if they spell a valid element. Where the code deviates (elements that cannot be sent, feedback that is misread) the deviation is characterised exactly.", "quantifier": "all valid elements and all optional-field combinations", "why_tests_cant": "Field spaces too large to enumerate.", "anchors": ["lib/src/sections_part4/mac_messages_and_ie/extension/power_target_ie.cpp", "lib/src/sections_part4/mac_messages_and_ie/extension/time_announce_ie.cpp", "lib/src/sections_part4/mac_messages_and_ie/user_plane_data.cpp", "lib/src/sections_part4/mac_messages_and_ie/radio_device_status_ie.cpp", "lib/src/sections_part4/mac_messages_and_ie/mac_security_info_ie.cpp", "lib/src/sections_part4/mac_messages_and_ie/route_info_ie.cpp", "lib/src/sections_part4/mac_messages_and_ie/group_assignment_ie.cpp", "lib/src/sections_part4/mac_messages_and_ie/load_info_ie.cpp", "lib/src/sections_part4/mac_messages_and_ie/measurement_report_ie.cpp", "lib/src/sections_part4/mac_messages_and_ie/rd_capability_ie.cpp", "lib/src/sections_part4/mac_messages_and_ie/neighbouring_ie.cpp", "lib/src/sections_part4/mac_messages_and_ie/broadcast_indication_ie.cpp", "lib/src/sections_part4/mac_messages_and_ie/configuration_request_ie.cpp", "lib/src/sections_part4/mac_messages_and_ie/higher_layer_signalling.cpp"]}
{"id": "C29", "title": "Packet sizes are consistent for every configuration", "statement": "For every numerology, bandwidth, packet length, length type, transmission mode, MCS and codeblock size, if packet sizes are returned, then the sample counts add up (STF + DF + GI equals packet length in samples), the PDC carries exactly the coded bits, the transport block is a positive multiple of 8 bits and segments without filler bits; otherwise nullopt is returned and no assertion fires.", "quantifier": "all combinations of supported parameters", "why_tests_cant": "Parameter product space of several hundred thousand combinations with divisions and roundings.", "anchors": ["lib/src/sections_part3/derivative/packet_sizes.cpp: get_packet_sizes", "lib/src/sections_part3/transport_block_size.cpp", "lib/src/sections_part3/fix/cbsegm.cpp"]}
{"id": "C30", "title": "Transport block size is monotone", "statement": "With all other parameters fixed, a larger PDC bit budget never yields a smaller transport block.", "quantifier": "all numbers of PDC subcarriers, all MCS, streams and codeblock sizes", "why_tests_cant": "Rounding to codeblock sizes and CRC overhead are non-monotone building blocks.", "anchors": ["lib/src/sections_part3/transport_block_size.cpp: get_N_TB_bits"]}
{"id": "C31", "title": "Reference, control and data cells partition the data field", "statement": "For every supported packet configuration the DRS, PCC and PDC cells of each spatial/transmit stream are pairwise disjoint, stay inside the occupied subcarriers of the data field, and together with the DRS cells of other streams cover it exactly, so the PDC cell count equals the announced number of PDC subcarriers.", "quantifier": "all bandwidths, numbers of transmit streams and packet lengths", "why_tests_cant": "Index formulas over all packet lengths up to 80 subslots/slots.", "anchors": ["lib/src/sections_part3/drs.cpp", "lib/src/sections_part3/pcc.cpp", "lib/src/sections_part3/pdc.cpp"]}
{"id": "C32", "title": "Channel arrangement maps channels to frequencies injectively", "statement": "Within any supported band, consecutive channel numbers map to equally spaced increasing centre frequencies, distinct channel numbers to distinct frequencies, a channel is in range iff it lies between the band's first and last channel on the band's raster, and the frequency of every in-range channel is defined.", "quantifier": "all bands and all channel numbers", "why_tests_cant": "Table times arithmetic over all channel numbers.", "anchors": ["lib/src/sections_part2/channel_arrangement.cpp"]}
{"id": "C33", "title": "Durations convert without loss", "statement": "For every sample rate accepted, a duration in slots/subslots/milliseconds/seconds converts to exactly multiple times the base duration in samples; the last and next full second bracket every sample time; conversion from samples to nanoseconds is monotone and exact on full seconds.", "quantifier": "all sample rates, multiples and sample times", "why_tests_cant": "64-bit arithmetic with divisions over an unbounded range.", "anchors": ["lib/src/sections_part3/derivative/duration.cpp", "lib/src/sections_part3/derivative/duration_lut.cpp"]}
{"id": "C34", "title": "Transmit opportunity is legal", "statement": "Any transmit opportunity returned by a PT allocation starts at or after the earliest permitted time (now plus turnaround, and not before the previous transmission's end) and before the validity limit, and coincides with the start of an allocated resource relative to a beacon period start; if none is returned for a single sorted resource list, no such start exists.", "quantifier": "all allocations, beacon times, current times and previous transmission times", "why_tests_cant": "Search loop over periods; must hold for every time.", "anchors": ["lib/src/mac/allocation/allocation_pt.cpp: get_tx_opportunity, get_tx_opportunity_generic"]}
{"id": "C35", "title": "Allocated resources never overlap", "statement": "After any sequence of successful add_resource / add_resource_regular calls, all resources lie within the beacon period and any two resources that must be orthogonal are disjoint in time.", "quantifier": "all histories of additions with any offsets and lengths", "why_tests_cant": "Invariant over all histories.", "anchors": ["lib/src/mac/allocation/allocation_pt.cpp: add_resource", "lib/src/mac/allocation/resource.cpp"]}
{"id": "C36", "title": "Demo firmware schedules conflict-free", "statement": "The fixed resource plan of the p2p firmware gives any two portable terminations disjoint uplink and downlink resources that do not overlap the beacon, as long as the plan fits the beacon period, and building the plan never aborts in that case.", "quantifier": "all numbers of PTs and all pairs of PT ids", "why_tests_cant": "Quantifies over all device counts.", "anchors": ["lib/src/upper/p2p/procedure/steady_rd.cpp: init_allocation_pt"]}
{"id": "C37", "title": "Unicast packet assembly never overruns the transport block", "statement": "Filling a unicast transport block from the application queue writes at most the transport block size, sends whole datagrams in queue order, leaves unsent datagrams in the queue, and pads the remainder exactly; a datagram larger than the transport block is never sent and blocks the queue.", "quantifier": "all transport block sizes and all queue contents", "why_tests_cant": "All combinations of datagram lengths and block sizes.", "anchors": ["lib/src/upper/p2p/procedure/steady_rd.cpp: worksub_tx_unicast_mac_sdu"]}
{"id": "C38", "title": "PLL warp estimate is based on a sufficiently long distance", "statement": "The beacon-time PLL only updates its warp estimate when the compared beacons are apart by the minimum distance, accepts at most one beacon per acceptance interval, and with ideal beacon times the warped length equals the nominal length.", "quantifier": "all sequences of beacon times", "why_tests_cant": "History property.", "anchors": ["lib/src/mac/pll/pll.cpp"]}
{"id": "C39", "title": "PPX edge stays aligned to beacons", "statement": "After every provided beacon time the PPX rising edge stays congruent to the beacon raster, moving by less than half a raster; inputs for which the code aborts are characterised exactly.", "quantifier": "all beacon times and raster values", "why_tests_cant": "Rounding of negative and tie values.", "anchors": ["lib/src/mac/ppx/ppx.cpp"]}
{"id": "C40", "title": "Simulator time advances in lock step", "statement": "For every schedule of reads and writes by any number of registered virtual radios, all radios observe the same sequence of space times, each radio writes exactly once and reads exactly once per time step, and reads of step k see all and only the writes of step k.", "quantifier": "all numbers of radios, all schedules", "why_tests_cant": "Schedule property.", "anchors": ["lib/src/simulation/vspace.cpp"]}
{"id": "C41", "title": "Edge index of the complete graph is a bijection", "statement": "For any number of vertices, the edge index of unordered vertex pairs is symmetric, injective and ranges exactly over 0..edges-1, in lexicographic order.", "quantifier": "all vertex counts and pairs for which the 32-bit arithmetic does not overflow", "why_tests_cant": "Quantifies over all sizes.", "anchors": ["lib/src/simulation/topology/graph.cpp"]}
{"id": "C42", "title": "Resampler output is independent of chunking", "statement": "Feeding a stream to the rational resampler in arbitrary chunks (each at least the minimum length) and flushing produces exactly the same output as the polyphase definition applied to the whole stream, and the number of outputs equals what get_N_samples_after_resampling announces.", "quantifier": "all streams, all chunkings, all supported ratios and all filter lengths", "why_tests_cant": "Infinite family of chunkings and phases.", "anchors": ["lib/src/phy/resample/resampler.cpp"]}
{"id": "C43", "title": "Application client never loses or invents a forward", "statement": "If datagrams are only triggered after they were written, forwarding consumes exactly the triggered number of datagrams with one connection; with several connections a datagram written but not yet triggered can be forwarded early and underflow the indicator.", "quantifier": "all interleavings of write, trigger and forward", "why_tests_cant": "Schedule property; the underflow needs a rare interleaving.", "anchors": ["lib/src/application/application_client.cpp"]}
{"id": "C44", "title": "Integer helpers meet their contracts", "statement": "ceil division, rounding division and multiple_leq/geq return the mathematically defined value on the range used by callers; the ranges where they do not are characterised.", "quantifier": "all integers of the type's range", "why_tests_cant": "Sign and overflow cases over the whole integer range.", "anchors": ["lib/include/dectnrp/common/adt/miscellaneous.hpp"]}
{"id": "C45", "title": "Network and radio device identities are well-formed", "statement": "Identities built for FT and PT have non-reserved long IDs, and the short network ID is the lowest byte of the network ID; a valid network ID yields a valid short network ID or the exception is characterised.", "quantifier": "all ids", "why_tests_cant": "Range property over 2^32 values.", "anchors": ["lib/src/sections_part4/mac_architecture/identity.cpp"]}
{"id": "C46", "title": "Regular report is a barrier", "statement": "Once a regular report is enqueued, every packet enqueued later has a synchronisation time later than the report's barrier time, the larger of chunk end and last synchronisation time.", "quantifier": "all worker counts, chunk lengths, schedules and detection histories", "why_tests_cant": "A violation needs one particular interleaving of workers and detections.", "anchors": ["lib/include/dectnrp/phy/rx/sync/regular_report.hpp: barrier_time_64", "lib/src/phy/pool/worker_sync.cpp: work"]}
{"id": "C47", "title": "Beacons are transmitted exactly one period apart", "statement": "Once the first beacon is scheduled, beacon number n is scheduled exactly n beacon periods later and the transmission time reported is the one scheduled; the once-per-second extra content is attached to exactly the beacons that lie whole seconds after the first. Announcing a transmission before the first beacon is scheduled overflows.", "quantifier": "all numbers of beacons, all start times, periods and sample rates", "why_tests_cant": "drift over arbitrarily many beacons and all sample rates cannot be enumerated", "anchors": ["lib/include/dectnrp/mac/allocation/allocation_ft.hpp: allocation_ft_t::set_beacon_time_next", "lib/src/upper/p2p/procedure/steady_ft.cpp: worksub_tx_beacon_mac_pdu"]}
{"id": "C48", "title": "Buffers laid out for a device class hold every packet of the class", "statement": "For every radio device class whose parameters are in range the maximum packet sizes are defined (except with four antennas and packets of one slot, where asking for them aborts), they are attained by a packet of the class, and no packet within the class exceeds them in symbols, coded bits, transport block bytes, codeblocks or samples.", "quantifier": "all class parameters and all packet configurations within the class", "why_tests_cant": "the product of class and packet parameters is far too large, and rounding makes several sizes non-monotone", "anchors": ["lib/src/sections_part3/derivative/packet_sizes.cpp: get_maximum_packet_sizes", "lib/src/sections_part3/radio_device_class.cpp"]}
{"id": "C49", "title": "A received header leads to a packet that fits the receiver", "statement": "Whatever bytes arrive as control header, if the header is reported then the packet the receiver expects is the one described by the header and the synchronization report, lies within the device class and its transport block fits the HARQ buffer; the request aborts exactly if header and report describe a packet that cannot exist.", "quantifier": "all header bytes, all device classes, all synchronization reports", "why_tests_cant": "remote input and class parameters range over far too many combinations", "anchors": ["lib/src/upper/tpoint.cpp: worksub_psdef, worksub_pcc2pdc", "lib/src/phy/harq/process_pool.cpp: get_process_rx, get_process_tx", "lib/src/phy/rx/rx_synced/rx_synced.cpp: plcf_decoder"]}
{"id": "C50", "title": "Transmit buffers hold every packet at the sample rate of the hardware", "statement": "The length of a packet in hardware samples is the least number of samples that lasts as long as its OFDM symbols; for every class and every hardware sample rate at least as high as the class needs and divisible by 2400, no packet of the class is longer than the transmit buffer.", "quantifier": "all packet configurations, classes and sample rates", "why_tests_cant": "sample rates and configurations cannot be enumerated; the bound is met with equality", "anchors": ["lib/src/sections_part3/derivative/packet_sizes.cpp: get_N_samples_in_packet_length, get_N_samples_in_packet_length_max", "lib/src/phy/phy.cpp: phy_t"]}
{"id": "C51", "title": "Every coded bit of a packet is sent exactly once, in order", "statement": "For every packet a device class can transmit, the transmitter succeeds and the cells of its OFDM symbols carry: the coded bits of the transport block in order, each group of bits in exactly one data cell and stream (with transmit diversity symbol i and the conjugate of its partner in two different streams, both symbols of a pair within one OFDM symbol); the 98 control symbols in order; and in each reference cell the entry of the base sequence that belongs to stream and position.", "quantifier": "all device classes, all packet configurations within the class, all OFDM symbols and cells", "why_tests_cant": "The counters and the leftover buffer of the data modulation depend on the history of all earlier symbols; there are thousands of combinations of bandwidth, mode, MCS and length.", "anchors": ["lib/src/phy/tx/tx.cpp: run_pcc, run_drs, run_pdc", "lib/src/phy/tx_rx.cpp", "lib/src/sections_part3/transmit_diversity_precoding.cpp"]}
{"id": "C52", "title": "The simulated radio transmits every packet at its time, complete and unchanged, and nothing else", "statement": "For packets that are longer than one block of samples (spp), do not overlap and are handed over at least one spp ahead, the samples a simulated radio writes into the virtual space are at every sample time the sample of the packet on air, otherwise zero, and its own receiver is blanked whenever a packet is on air. This needs one more condition: while a packet ends in the middle of an spp, no longer packet that starts in a later spp may have been handed over already; otherwise the code transmits the tail of that packet at the wrong time and drops the rest.", "quantifier": "all spp sizes, all lists of packets with their times, lengths and hand-over times, all numbers of written blocks", "why_tests_cant": "start times, lengths and hand-over times relative to the block boundaries cannot be enumerated", "anchors": ["lib/src/radio/hw_simulator.cpp: work_tx", "lib/src/simulation/vspp/vspptx.cpp: spp_write_v", "lib/src/simulation/vspace.cpp: wchannel_execute"]}
{"id": "C53", "title": "The USRP radio transmits every packet at its time, complete and unchanged, and nothing else", "statement": "Whatever packets are found in the pool and however many samples the driver takes per call, the samples handed to the driver of the USRP in bursts are, at each time (shifted by the configured time advance), the sample of the packet on air at that time, otherwise zero: leading zeros before the first packet of a burst and zeros in gaps of at most the configured length. Bursts are started with a time and ended, no sample time is sent twice, all samples of a transmitted packet are sent and none before the PHY has written it, and power adjustments are commanded once, for the end of their packet. With a driver that takes everything the thread never aborts and all packets are sent. The exact conditions (leading zeros taken completely and room for them, gaps below 2^31 samples) are shown to be necessary.", "quantifier": "all lists of packets, all lengths, times and adjustments, all configurations, all answers of the driver and of the pool", "why_tests_cant": "Needs a USRP; when packets are found relative to the end of the current one, and how many samples the driver takes, are matters of timing that no test enumerates.", "anchors": ["lib/src/radio/hw_usrp.cpp hw_usrp_t::work_tx", "lib/src/radio/buffer_tx.cpp buffer_tx_t::wait_for_samples_busy_nto", "lib/src/radio/buffer_tx.cpp buffer_tx_t::get_ant_streams_offset"]}
{"id": "C54", "title": "A receiver gets exactly the samples of its packet: consecutive, resampled and cut into symbols without gap or overlap", "statement": "After a receiver was set to a start time, calls that wait for at least a number of samples, in any order and with any progress of the radio, never touch memory outside of the local buffers; each reads units one after the other from the start time on, none before the clock of the radio has passed it, and returns after the unit that brought enough samples. The local buffer holds the samples themselves or, on the resampling side, the outputs of the resampled signal since the last rewinding. The OFDM symbols of a packet, of any lengths and with any changes of the mixer between them, are the resampled signal cut without gap or overlap, with a phase that is continuous over symbols and equal for all antennas. The samples are those the radio received if nothing was lost and the receiver is not late by more than the ring buffer. Calls return once the clock is far enough, and the receiver is usable again afterwards.", "quantifier": "all sequences of calls, lengths and rewinds, all start times, ratios, filters, unit lengths, ring sizes and numbers of antennas, all interleavings with the thread of the radio", "why_tests_cant": "The position of a packet relative to the edge of the ring buffer and to the units, the residue left in the buffer at each symbol and the progress of the radio thread have more combinations than can be tried; an off-by-one shows as a rare packet error.", "anchors": ["lib/src/phy/rx/rx_pacer.cpp rx_pacer_t::filter_until_nto", "lib/src/phy/rx/rx_pacer.cpp rx_pacer_t::resample_until_nto", "lib/src/phy/rx/rx_pacer.cpp rx_pacer_t::get_initialized_localbuffer", "lib/src/phy/rx/rx_synced/rx_synced.cpp rx_synced_t::run_mix_resample", "lib/src/phy/mix/mixer.cpp mixer_t::mix_phase_continuous_offset"]}
{"id": "C55", "title": "The packet detector measures exactly the last training-field-long piece of the signal", "statement": "At every position at which the detector takes a decision, and at every sample of the search for the peak, the correlation and the power it uses are those of the piece of signal, one training field (STF) long, right before that position: each pattern correlated with the next one, the signs of the cover sequence removed. This holds for every signal, however many samples were consumed, whenever sums are computed anew, without access outside of any buffer; rounding errors never survive the next summation. The metric is exactly 1 for an undisturbed training field with any pattern and frequency offset, and never exceeds the upper threshold.", "quantifier": "all signals, all numbers of steps, all pattern lengths, all moments of summation anew, all sequences of pushes, resets and summations, any arithmetic for the statement on rounding", "why_tests_cant": "The running sums depend on the whole history of the signal and on the position of a ring pointer relative to the sign changes; a wrong index or sign shows only for particular alignments and is hidden by noise.", "anchors": ["lib/include/dectnrp/phy/rx/sync/movsum.hpp movsum_t", "lib/src/phy/rx/sync/movsum_uw.cpp movsum_uw_t", "lib/src/phy/rx/sync/autocorrelator_detection.cpp autocorrelator_detection_t::search_by_correlation", "lib/src/phy/rx/sync/autocorrelator_peak.cpp autocorrelator_peak_t::set_initial_movsums", "lib/src/sections_part3/stf.cpp stf_t::get_cover_sequence_pairwise_product"]}
{"id": "C56", "title": "The search within a chunk reports exactly the packets the samples show, at any pace", "statement": "For every received signal and every way the samples arrive, searching a chunk ends, no internal check fails, no sample is read before it is delivered, never more samples are requested than the local buffer holds, and the packets reported are a function of the signal alone: the first examined position with a detection and a valid peak, then the next one at least two training fields after the beginning of that packet, and so on; no other position with a detection and a valid peak is passed over. Two consecutive packets of a chunk are so far apart that the second is never discarded as a duplicate of the first. Whatever irregular job is started in between, packets that follow begin at most an STF and 15/16 of a pattern before the time announced.", "quantifier": "all metrics at all positions and antennas, all numbers of surplus samples per delivery, all states left by the chunk before, all bandwidths and oversampling factors, both lengths of the training field, all chunk lengths", "why_tests_cant": "The flow alternates between two searches over one buffer that is filled at the pace of the radio; which requests occur depends on the alignment of deliveries, detections and peaks, and the assertions sit at corners (a peak at the edge of the search range, a detection in the last step) that a recorded signal does not reach.", "anchors": ["lib/src/phy/rx/sync/sync_chunk.cpp sync_chunk_t::search", "lib/src/phy/rx/sync/autocorrelator_detection.cpp autocorrelator_detection_t::search_by_correlation", "lib/src/phy/rx/sync/autocorrelator_detection.cpp autocorrelator_detection_t::skip_after_peak", "lib/src/phy/rx/sync/autocorrelator_peak.cpp autocorrelator_peak_t::search_by_correlation", "lib/src/phy/rx/sync/autocorrelator_peak.cpp autocorrelator_peak_t::post_processing_validity", "lib/src/phy/worker_pool.cpp worker_pool_t::get_sync_time_unique_limit"]}
{"id": "C57", "title": "Encoding a transport block yields the same code bits under every schedule of requests", "statement": "For every supported packet and every sequence of requests for code bits, encoding is never refused and never reads or writes outside its buffers. After the requests, the smallest number of whole code blocks that covers the largest request is encoded. The code bits of a packet are shared among its blocks in whole cells, as evenly as possible and the larger shares last, and add up to exactly the capacity of the packet. The bits delivered are those of the blocks in order, scrambled with the sequence from its beginning, at every bit alignment; they do not depend on how they are asked for. A first transmission stores the coded blocks, a retransmission reads the stored ones and leaves them unchanged. A request without a number gives the whole packet.", "quantifier": "all supported packet definitions, all transport blocks, scrambling sequences, redundancy versions, buffer contents, all sequences of requests, and every turbo codec whose rate matching returns the number of bits asked for", "why_tests_cant": "Block boundaries fall on arbitrary bits of a byte, and which blocks are encoded by which request depends on packet size, modulation, number of antennas and the pace of the OFDM symbols; the share of a block goes through a single precision division.", "anchors": ["lib/src/phy/fec/pdc_enc.cpp pdc_enc_encode_codeblocks", "lib/src/phy/fec/fec.cpp fec_t::segmentate_and_pick_scrambling_sequence", "lib/src/phy/fec/fec.cpp fec_t::encode_tb", "lib/src/sections_part3/fix/scrambling.cpp srsran_scrambling_bytes_with_sequence_offset_FIX"]}
{"id": "C58", "title": "Decoding a transport block does not depend on the pace of the symbols and delivers only checked data", "statement": "For every supported packet, however its soft bits are cut into symbols, decoding fails no assertion and stays within its buffers, provided the transport block buffer has room for the checksums behind the transport block. The verdict, the data and what is kept for a retransmission are a function of the soft bits alone. While a packet arrives, every block whose soft bits are complete is decoded, and the beginning of the transport block reported as available is final. Over any number of retransmissions from a reset soft buffer, data are delivered only if the checksum of the transport block holds. If the turbo decoder can decode each block from the bits that the encoder selected for it, the receiver delivers the transport block that was sent.", "quantifier": "all supported packet definitions, soft bits, scrambling sequences, redundancy versions, contents of the soft buffer, all partitions of the soft bits into symbols, all histories of retransmissions, and every turbo decoder, rate dematcher and checksum", "why_tests_cant": "Which block is completed by which symbol depends on packet size, modulation and antennas; blocks decoded in an earlier transmission are mixed with new ones, and the differences between the bookkeeping of the two ends only show for particular remainders.", "anchors": ["lib/src/phy/fec/pdc_enc.cpp pdc_enc_decode_codeblocks", "lib/src/phy/fec/fec.cpp fec_t::decode_tb", "lib/src/phy/rx/rx_synced/rx_synced.cpp rx_synced_t::run_pdc", "lib/src/phy/harq/buffer_rx.cpp buffer_rx_t", "lib/src/phy/harq/process_rx.cpp process_rx_t::finalize"]}
{"id": "C59", "title": "The control header of a packet is recovered with the flags it was sent with, whatever was received before", "statement": "Encoding a PLCF of type 1 or 2 with any combination of the flags for closed loop MIMO and beamforming gives the 196 bits of the PCC as scrambled code bits of the header and its checksum, which carries the flags. The receiver tries both types on every packet, never aborts and never leaves its buffers. A trial succeeds exactly if one of the first five decoder iterations is the word of some header, and delivers header and flags of the first such iteration; a word belongs to one header and one combination of flags only. A trial that fails changes neither header nor flags. Over any history of packets, the headers reported for a packet are exactly those its own soft bits yield and that are valid and within the device class. If the codec recovers the word, the receiver reports the header and flags that were sent.", "quantifier": "all headers of both types, all flags, all soft bits, all states of coder, decoder and receiver, all sequences of packets, and every checksum, turbo code, rate matching and scrambling sequence", "why_tests_cant": "Loopback tests send a few headers, mostly without flags; the blind trial of both types on arbitrary soft bits after arbitrary packets, with buffers shared by both trials, is a statement about all inputs and histories.", "anchors": ["lib/src/phy/fec/pcc_enc.cpp pcc_enc_encode pcc_enc_decode", "lib/src/phy/fec/fec.cpp fec_t::encode_plcf fec_t::decode_plcf_test", "lib/src/phy/rx/rx_synced/rx_synced.cpp rx_synced_t::run_pcc_decoding_and_candidate_search", "lib/src/sections_part4/physical_header_field/plcf_decoder.cpp plcf_decoder_t"]}
{"id": "C60", "title": "The p2p firmware sends its packets in order, keeps exactly one callback pending and answers every stop request", "statement": "However starts, stop requests, due callbacks, application data and received beacons interleave, packets handed to the radio are numbered without gaps and no packet begins before the one before it has ended. An FT's beacons are exactly one period apart and each of its other packets lies between the end of an earlier beacon and the next beacon; a PT sends no beacons. From its start until it is done the firmware has exactly one callback pending, at a finite time. A stop request is answered by exactly the second irregular call after it (by the next one if the dissociation has begun), never without being asked; after the request no beacon is sent, after the steady state no packet. Calls fail only in three ways: a beacon callback recognised at exactly its own sample or finding no free HARQ process, a PT asked to send while its last beacon is in the future, or data reaching an FT before its first beacon.", "quantifier": "both roles, both resource plans, all sample rates, all interleavings of calls and of the stop request within calls, all clock readings, data arrivals and HARQ outcomes", "why_tests_cant": "The stop request may arrive before any reading of the mode in any state, and packets depend on clock readings of past calls; tests run one schedule on one machine.", "anchors": ["lib/src/upper/p2p/tfw_p2p_rd.cpp work_start work_stop", "lib/src/upper/p2p/tfw_p2p_ft.cpp state_transitions", "lib/src/upper/p2p/tfw_p2p_pt.cpp state_transitions", "lib/src/upper/p2p/procedure/steady_ft.cpp", "lib/src/upper/p2p/procedure/steady_pt.cpp", "lib/src/upper/p2p/procedure/dissociation_ft.cpp", "lib/src/phy/pool/worker_sync.cpp irregular callbacks"]}
{"id": "C61", "title": "The application server hands received datagrams to the firmware in order, without loss unless a queue is full, and announces them", "statement": "However datagrams arriving on the server's connections and reads by the firmware interleave, each connection delivers exactly the datagrams accepted on it, once, in order and unchanged; at most the configured number minus one wait. A datagram is accepted exactly if it has at least one byte, is IPv4 when it comes from a virtual network interface, and its queue has room; its first 1600 bytes are kept. With queues for 1600 bytes nothing that arrives can end the program. Jobs name the connection and byte count of a datagram just accepted, are created at least the protection time apart, and an accepted datagram without a job came within the protection time of the start or of another job; without protection time every accepted datagram has its own job.", "quantifier": "network interface or any number of sockets, all queue sizes, all protection times, all sequences of arrivals, failed reads, clock readings, job queue states and reads", "why_tests_cant": "Loss, reordering between connections and missed announcements depend on the interleaving of senders, firmware and clock.", "anchors": ["lib/src/application/application_server.cpp work_sc enqueue_job_nto", "lib/src/application/socket/socket_server.cpp", "lib/src/application/vnic/vnic_server.cpp read_datagram filter_ingress_datagram read_nto", "lib/src/application/application.cpp", "lib/src/application/queue/queue.cpp"]}
{"id": "C62", "title": "A receiver takes every cell of a packet from the OFDM symbol it was sent in, with channel estimates of the streams that carry it", "statement": "For every single-stream packet a device can be sent, reception takes all OFDM symbols of the packet from the antenna and computes each control and data symbol exactly once, in order, from the subcarrier and the OFDM symbol the sender put it in, with a channel estimate of each transmit stream that carries it. Control always uses the latest reference cells of the stream before or in the symbol. Data does so too unless the receiver is configured to interpolate; then both sets of reference cells around the symbol are used, or the last two if there are none after it. No estimate is used that was not made from this packet.", "quantifier": "all numerologies, bandwidths, packet types and lengths, transmission modes, modulations, both modes of channel estimation, all strides, all larger receiver configurations", "why_tests_cant": "The symbol order depends on packet length, antennas and bandwidth; the tests run a few lengths through a simulated channel, and a value from a neighbouring symbol still decodes at high SNR.", "anchors": ["lib/src/phy/rx/rx_synced/rx_synced.cpp demoddecod_rx_pcc demoddecod_rx_pdc run_pdc_ps_in_chestim_mode_lr_t run_pdc_ps_in_chestim_mode_lr_f run_drs_chestim_zf run_drs_ch_interpolation run_pdc", "lib/include/dectnrp/phy/rx/rx_synced/processing_stage.hpp", "lib/include/dectnrp/phy/rx/rx_synced/channel_antenna.hpp", "lib/src/sections_part3/pcc.cpp", "lib/src/sections_part3/pdc.cpp", "lib/src/sections_part3/drs.cpp"]}
{"id": "C63", "title": "A round-trip time measurement reports the time of its own question", "statement": "Given that questions fit in a packet, packets arrive intact or not at all, and a measurement is given up only when nothing of it is under way, a measurement that ends with an answer ends with the answer to its own question, and the reported time is exactly the time from the start of the base station's watch for this question to its stop (or -1 if the question is not as long as a packet); otherwise it reports a timeout. The logged statistics are the counts, the least and the greatest time since they were logged before, and each side transmits its packets one after the other, never before the turnaround time.", "quantifier": "all packet sizes, all histories of questions, jobs, packets, losses, prints and clock values; statistics and transmissions without any assumption on losses or timing", "why_tests_cant": "What a measurement reports depends on what earlier questions left in the queue, in the air and in the sockets; runs on an undisturbed link never leave anything.", "anchors": ["apps/rtt/rtt.cpp send_random_packet_to_sdr_and_await_response", "lib/src/upper/rtt/tfw_rtt.cpp work_application work_pdc generate_packet_asap work_pdc_internal", "lib/include/dectnrp/upper/rtt/tfw_rtt.hpp", "lib/include/dectnrp/upper/rtt/tfw_rtt_param.hpp"]}
{"id": "C64", "title": "Gain control moves the gain in the right direction by allowed steps and settles", "statement": "Every gain step is zero for a small need and otherwise goes in the direction of the need, is a multiple of the configured unit between the smallest and the largest step and is the closest such step. In reception each antenna (or all, by the one with the greatest RMS) gets the step that brings its RMS to the target without making it more sensitive than the least sensitive one by more than the offset; in transmission all antennas get the step that would bring the greatest received power to the target. At constant signal levels and with a smallest step above the unit, the settings come within the dead band of the wanted level, or to the end of the range, after at most distance/smallest step packets, and stay there.", "quantifier": "all configurations the constructors accept, all levels, all numbers of antennas (settling in reception: one antenna), all numbers of packets, all transmit powers of the other side and receiver settings", "why_tests_cant": "Settling is a statement about unboundedly many packets from every starting point; tests try a few levels.", "anchors": ["lib/src/phy/agc/agc.cpp agc_t quantize_and_limit_gain_step_dB", "lib/src/phy/agc/agc_rx.cpp get_gain_step_dB", "lib/src/phy/agc/agc_tx.cpp get_gain_step_dB", "lib/src/phy/agc/roundrobin.cpp process", "lib/src/common/ant.cpp", "lib/src/radio/hw.cpp adjust_tx_power_ant_0dBFS_tc adjust_rx_power_ant_0dBFS_tc"]}
{"id": "C65", "title": "Gain tables answer every request with an achievable power and an allowed gain, and the radio reports what it set", "statement": "For every wanted power and every frequency the shipped tables give an answer without reading outside them. The frequency and the power are capped to the table and found between two neighbouring entries; the gain is a multiple of the step and within half a step of the interpolated gain; a power that every frequency can give is reported to within half a step. For a transmitter with a dB of power per dB of gain the reported power is exactly the one of the gain. No sequence of tuning, setting and adjusting commands fails; the reported power and the gain of a USRP always come from the same answer, at a frequency used so far; after setting a power the reported one is less than a step from the achievable one; initialization writes a gain.", "quantifier": "all powers, all frequencies, all complete tables and in particular the five shipped ones, both directions, all sequences of commands", "why_tests_cant": "Powers and frequencies are continuous and the state of the radio depends on the whole history of commands; tests try a few pairs.", "anchors": ["lib/src/radio/gain_lut.cpp", "lib/include/dectnrp/radio/gain_lut.hpp", "lib/include/dectnrp/radio/calibration", "lib/src/radio/hw_usrp.cpp set_tx_power_ant_0dBFS_tc set_rx_power_ant_0dBFS_tc set_freq_tc", "lib/src/radio/hw.cpp adjust_tx_power_ant_0dBFS_tc adjust_rx_power_ant_0dBFS_tc"]}
{"id": "C66", "title": "The job queue of the default build numbers jobs without gap and hands each to one worker in order, under every interleaving", "statement": "Whatever the interleaving of threads that enqueue, threads that wait for jobs and calls that open or close the queue: the jobs that entered are numbered 0, 1, 2, ... in the order in which they entered and a refused job uses up no number; the jobs handed out are the first ones that entered, each handed out once, the others are still in the queue. Each call of enqueue returns true if its job, unchanged, entered, or if the queue was closed at some time during the call, and false only if the queue refused it. A worker that was woken finds a job; it times out only if all jobs are claimed or one is still being announced. A thread in the lock leaves it by its own steps, so enqueueing never waits for workers. After closing, at most the calls that had already passed the check enter. Waiting workers empty the queue.", "quantifier": "all numbers of producers and workers, all jobs, all schedules of their single steps, all times of opening and closing, all points at which the queue refuses a job", "why_tests_cant": "The property concerns every interleaving of several threads; tests see those the scheduler happens to pick.", "anchors": ["lib/src/phy/pool/job_queue_mc.cpp enqueue_nto wait_for_new_job_to", "lib/include/dectnrp/phy/pool/job_queue_mc.hpp", "lib/include/dectnrp/phy/pool/job_queue_base.hpp set_permeable set_impermeable"]}
{"id": "C67", "title": "Link adaptation uses only fresh reports of the right peer and never an MCS the peer's measurement does not support", "statement": "A unicast packet to a contact uses the MCS of the last report received from that contact, limited to the range of the device, if the report is not older than the lifetime (50 ms), and the lowest MCS of the range otherwise. The feedback in a packet follows the contact's plan: the n-th packet sent carries the format at position n modulo the plan's length, and attempts that fail do not advance it. A reported MCS is the best one of the range for the last signal-to-noise ratio measured on a packet of that contact within the lifetime, less the configured offset: its required value is met and that of every higher one is not; without a fresh measurement it is the lowest. Hence, across two devices, a packet above the lowest MCS of either is only sent at an MCS whose requirement the receiving side measured within the lifetimes. No history of receptions and transmissions, with any two feedback octets, aborts the device.", "quantifier": "all histories of receptions (any two octets of feedback, any signal-to-noise ratio), beacons and transmissions with any outcome, any number of contacts, all plans of formats 4 and 5, all MCS ranges, offsets, lifetimes and times", "why_tests_cant": "The MCS of a packet depends on the whole history of two devices; tests run a few histories.", "anchors": ["lib/src/phy/indicators/cqi_lut.cpp get_highest_mcs_possible clamp_mcs", "lib/include/dectnrp/common/adt/expiring.hpp", "lib/src/phy/rx/rx_synced/mimo/mimo_csi.cpp", "lib/src/mac/feedback_plan.cpp", "lib/src/upper/p2p/procedure/steady_rd.cpp worksub_tx_unicast", "lib/src/upper/p2p/procedure/steady_ft.cpp", "lib/src/upper/p2p/procedure/steady_pt.cpp"]}
{"id": "C68", "title": "The antenna mapper sends exactly the matrix times the streams, and every codebook matrix preserves power", "statement": "For every beamforming matrix, any numbers of transmit streams and antennas and any samples, the transmitter gives each antenna, at the transform bin of each occupied subcarrier, the superposition of the streams weighted with that antenna's row of the matrix, each non-zero weight once and in the order of the streams; every other bin stays zero and the internal assertion holds. The codebook has a matrix for exactly the indices up to the published maximum of every transmission mode, clamping gives such an index; the columns of every matrix are orthogonal; for all streams the total power at the antennas after scaling equals the mean power of the streams; the converter-optimised factor makes the strongest antenna exactly full scale; from the published non-zero index on, and only there, no weight is zero. No matrix occurs twice, and the matrices that feed all antennas with one or two streams have exactly the phases that advance by quarter turns.", "quantifier": "all matrices, stream and antenna counts, bandwidths, oversamplings and sample values (any type of sample, no law of arithmetic assumed); all transmission modes and codebook indices", "why_tests_cant": "The claim ranges over all sample values, matrices and bandwidths; a wrong row, a doubly added weight or a shifted bin shows only for particular ones.", "anchors": ["lib/src/phy/tx/tx.cpp run_beamforming run_zero_stages", "lib/src/phy/tx_rx.cpp set_N_subc_offset_lower_half_os", "lib/src/sections_part3/beamforming_and_antenna_port_mapping.cpp W_t"]}
{"id": "C69", "title": "The reported beamforming index is the best of the codebook, and the reciprocal index the best for the way back", "statement": "At the end of every packet with valid CRC, for one, two or four streams received with one, two or four antennas and any channel estimates, the MIMO report names the numbers of streams and antennas and two indices of the single-stream codebooks (zero where there is one stream or antenna). The first makes the weakest receive antenna as strong as any matrix that feeds all antennas can, and is the lowest such index; the second does so for the reversed channel. No read is out of bounds. Packets of eight streams, and receivers with eight antennas, do not get a report: the program stops.", "quantifier": "all channel estimates and bandwidths, all previous contents of the stages, all combinations of 1, 2, 4 streams and antennas; for the negative part all packets", "why_tests_cant": "The best index depends on the values of all channel estimates; a wrong transposition, stride or comparison gives a plausible index for most channels.", "anchors": ["lib/src/phy/rx/rx_synced/mimo/estimator_mimo.cpp process_drs set_stages mode_single_spatial_stream_3_7", "lib/src/phy/rx/rx_synced/rx_synced.cpp demoddecod_rx_pdc", "lib/src/sections_part3/drs.cpp get_ts_idx_last_and_advance"]}
{"id": "C70", "title": "Combining the antennas recovers every symbol that was sent", "statement": "For every channel and any number of receive antennas that know their channels, the control and data symbols of an OFDM symbol come out of the receiver's combining exactly as the transmitter put them in, in order: with one stream in both ways the receiver processes the data field, and with transmit diversity over two, four or eight streams if the channel does not change between the two subcarriers of a pair and no two streams fade at all antennas at once. With several spatial streams no packet is ever received.", "quantifier": "all symbol values, channels, numbers of antennas, cell positions and positions within the packet; for the negative part all packets with several spatial streams", "why_tests_cant": "The claim ranges over all channels and symbols; a wrong sign, conjugate or stream pair cancels for particular channels such as real or equal ones.", "anchors": ["lib/src/phy/rx/rx_synced/rx_synced.cpp run_pcc_collection_and_demapping run_pdc_mode_single_antenna run_pxx_mode_transmit_diversity run_pdc_mode_AxA_MIMO", "lib/src/phy/tx/tx.cpp run_pcc run_pdc", "lib/src/sections_part3/transmit_diversity_precoding.cpp"]}
{"id": "C71", "title": "A channel measurement covers exactly the requested samples", "statement": "Whatever blocks of samples the hardware delivered before, and also in the middle of its next write, a measurement of samples that have been received and are still buffered returns one value per piece, in order of time: the root mean square of exactly the samples of that piece over the requested antennas (all if there are fewer), where the pieces are consecutive, of the requested length, and the last one ends with the requested sample. Four things fail: a measurement up to the current time, as the firmware chscanner requests it, includes one sample that has not been received; the average is the sum; a piece of one sample is measured over the whole buffer; and a measurement that begins before the first sample reads outside the buffer.", "quantifier": "all histories of delivered blocks, buffer lengths, numbers of antennas, requests and sample values", "why_tests_cant": "Whether the right samples are taken depends on where the buffer wraps relative to the request and on what the hardware is writing at that moment.", "anchors": ["lib/src/phy/rx/chscan/chscanner.cpp scan scan_partial", "lib/include/dectnrp/phy/rx/chscan/chscan.hpp chscan_t", "lib/src/radio/buffer_rx.cpp get_ant_streams_next get_rx_time_passed", "lib/src/upper/chscanner/tfw_chscanner.cpp work_irregular"]}
{"id": "C72", "title": "The simulated channel adds the delayed and faded signals of all antennas, wherever packets are cut", "statement": "For packets that follow each other without gap in each direction, in any interleaving of the two directions, every antenna of a simulated device receives the sum over all antennas of the other device of that antenna's whole signal with path loss, passed through all taps of their link: delayed, across packet borders, multiplied with the fading of that very moment and the tap's amplitude. Directions do not disturb each other, and one link treats both alike. The flat and the plain channel add the scaled signals to what the antenna already holds. The power delay profile joins equal delays, starts at zero, fits into a packet, keeps the relative power of every delay and sums to one. Two things fail: with several antennas at both devices a pair of antennas uses different coefficients in the two directions, although the channel is said to be reciprocal (it is if one device has one antenna); and a transmit antenna leaks into every receive path of its device, not only the corresponding one.", "quantifier": "all sequences of packets in both directions, packet sizes, numbers of antennas, profiles, fading parameters, start times, gains and signals", "why_tests_cant": "Echoes that cross a packet border depend on the history of both directions; a test covers a few packets and one random draw of the fading.", "anchors": ["lib/src/simulation/wireless/link.cpp pass_through_link", "lib/src/simulation/wireless/channel_doubly.cpp superimpose", "lib/src/simulation/wireless/channel_flat.cpp superimpose", "lib/src/simulation/wireless/channel_awgn.cpp superimpose", "lib/src/simulation/vspace.cpp wchannel_execute"]}
{"id": "C73", "title": "A worker carries out every answer of the firmware once and in order", "statement": "For every firmware, sequence of jobs and behaviour of the other threads, a worker that finishes its jobs has generated exactly the packets its firmware calls asked for, in order, has given each packet's HARQ process back after it, has registered exactly the finite irregular calls and made exactly the measurements asked for; this already holds whenever it calls the firmware again. A job leads to exactly the callbacks of its kind: a detected packet without a valid header to none, one the lower MAC declines to no further one, an accepted one to work_pdc or work_pdc_error according to its CRC, and the HARQ process of every accepted packet is finished once with that CRC. Every job passes its ticket on exactly once, the firmware is only called while the token is held, and no packet is generated while it is held. No job fails if there are buffers, the firmware uses the associated hardware and supplies a HARQ process exactly with the packets it accepts. Three things fail: a packet for another hardware ends the process with an exception, without assertions a missing TX buffer leaves the HARQ process taken for ever, and a measurement asked for in the answer to a measurement is not made.", "quantifier": "all firmwares, all sequences of jobs and decoding results, all states of the buffer pools as changed by other threads", "why_tests_cant": "It concerns every firmware and every interleaving with other users of the buffers; tests run a few firmwares on one hardware.", "anchors": ["lib/src/phy/pool/worker_tx_rx.cpp work run_tx_chscan", "lib/include/dectnrp/phy/interfaces/machigh_phy.hpp machigh_phy_t", "lib/include/dectnrp/phy/interfaces/maclow_phy.hpp maclow_phy_t", "lib/include/dectnrp/phy/tx/tx_descriptor.hpp tx_descriptor_t"]}
{"id": "C74", "title": "A channel estimate is interpolated from reference cells where they really are", "statement": "For every bandwidth, number of streams, stream, symbol and subcarrier of a packet, the estimate the receiver uses (C62) is a weighted sum of consecutive reference cells of that stream from the symbols the estimate is made of, and the weights are, up to 1e-4, those the filter gives for that subcarrier and symbol and for the cells at their true positions; no table is read out of bounds. Making the tables never reads out of bounds, and its assertions on the order and the number of reference cells never fail. The window of cells is the nearest of those looked at, and the tables used are those with the SNR nearest to the measured one. Two things fail: for a packet of eight streams the estimate of the upper four streams is looked up in a row that does not exist and the receiver aborts, and the window chosen is not always the nearest one.", "quantifier": "all bandwidths and maximum bandwidths, numbers of streams, streams, symbols, subcarriers and strides, all distance functions and filters (rounding included), all window sizes that fit the smallest bandwidth", "why_tests_cant": "Swapped streams or shifted pilots degrade reception only slightly and only for some stages, streams and bandwidths; the tables have hundreds of thousands of entries and the packets do not end.", "anchors": ["lib/src/phy/rx/rx_synced/channel_estimation/channel_lut.cpp channel_lut_t", "lib/include/dectnrp/phy/rx/rx_synced/processing_stage.hpp processing_stage_t", "lib/src/phy/rx/rx_synced/rx_synced.cpp run_drs_ch_interpolation run_drs_channel_lut_pick", "lib/include/dectnrp/phy/rx/rx_synced/channel_estimation/channel_antenna.hpp get_write_offsets"]}
{"id": "C75", "title": "A loopback measurement takes every combination once, with the set number of experiments, and stores the share that failed", "statement": "However calls and received packets interleave, the calls of a loopback firmware go through every parameter and, for it, every SNR in order: the SNR is set, the set number of experiments is made, each with new fading and with exactly the packets of that parameter for which there is a HARQ process, and the result is stored once. Every call asks for exactly one more until the plan is done, after P*S*(2N+3) calls; only then files are written. A stored rate is 1 minus the number of receptions between the setting of the SNR and the storing, divided by the number of experiments, the stored extremes enclose every SNR measured in between, and a combination without result holds -1. Packets are numbered in order and do not overlap on the air if the waiting times leave room. The firmware fails only if it is called before the time it asked for, or if a packet is decoded after the last combination.", "quantifier": "all lists of parameters and SNRs, numbers of experiments, waiting times, random numbers, answers of the HARQ pool and histories of calls and receptions, for the three loopback firmwares", "why_tests_cant": "A full series takes thousands of calls and minutes of simulated time; a combination skipped or a reception counted for the neighbour shows only as a slightly wrong curve.", "anchors": ["lib/src/upper/loopback/tfw_loopback.cpp tfw_loopback_t::work_irregular", "lib/src/upper/loopback/result.cpp result_t", "lib/src/upper/loopback/tfw_loopback_snr.cpp", "lib/src/upper/loopback/tfw_loopback_ratio.cpp", "lib/src/upper/loopback/tfw_loopback_mmie.cpp"]}
{"id": "C76", "title": "Exported JSON files hold all entries in order, whatever the threads do, and no two threads touch the same data", "statement": "However any number of threads call append(), file number i holds exactly the entries i*n to i*n+n-1 in the order in which they were accepted, each once under its own number; file names are the number in ten digits, so sorting by name gives the order of writing. At most two files' worth of entries is in memory, and when no call is running exactly floor(accepted/n) files exist. No two threads read or change the same JSON at the same time, no empty JSON is written, and a call that has the lock ends by itself. A call throws only if its entry fills a file while the file before is not finished, and after that no entry is ever accepted again.", "quantifier": "all numbers of threads, schedules of their steps, entries and numbers of entries per file greater than zero", "why_tests_cant": "Whether two threads meet in the short time in which a file is written depends on the disk and the scheduler; a test sees one interleaving.", "anchors": ["lib/src/common/json/json_export.cpp json_export_t::append, write_to_disk, get_number_with_leading_zeros", "lib/include/dectnrp/common/json/json_export.hpp json_export_t", "lib/src/phy/worker_pool.cpp worker_pool_t::worker_pool_t"]}
{"id": "C77", "title": "The measuring firmwares measure every frequency equally often with its own extremes, delays against the latest packet, and take every change of a gain back", "statement": "The channel scanner goes through its frequencies in order and round again, takes the set number of results for each while the hardware is tuned to it, reports exactly once per round and frequency, with the smallest and largest of exactly these results, and asks for its next call after one period, or the longer break after a change of the frequency. The delay firmware is called in equal distances, sends one packet per call for which there is a HARQ process, numbered in order, never overlapping and not before the turnaround time, and logs the difference to the packet of the latest call. The gain firmware needs one or two calls per measurement, in equal distances; the back packet starts the set gap after the end of the front packet; after an even number of measurements every gain is where it was and after an odd number exactly the chosen antennas are off by the set change.", "quantifier": "all histories of calls, clock values, measured values, receptions and answers of the HARQ pool; all numbers of frequencies, results, antennas, gaps, changes and both timings of the gain firmware", "why_tests_cant": "The firmwares run for hours on radio hardware; an extreme carried over to the next frequency, a gain that drifts by one step per round or a missed packet depends on the history of calls.", "anchors": ["lib/src/upper/chscanner/tfw_chscanner.cpp tfw_chscanner_t::work_channel", "lib/src/upper/txrxdelay/tfw_txrxdelay.cpp tfw_txrxdelay_t::work_irregular, generate_packet_asap", "lib/src/upper/txrxagc/tfw_txrxagc.cpp tfw_txrxagc_t::work_irregular, get_agc_adj, generate_back"]}
{"id": "C78", "title": "The applications' UDP object uses only open descriptors, sends to and receives from the connection asked for, and closes what it opened when told so", "statement": "After any history of adding, removing, sending and receiving, every system call so far was made on a descriptor that was open and belongs to a connection of the object; no two connections share a descriptor and the open descriptors are exactly those of the connections. A datagram goes unchanged to the address and port of the connection with the given index; data are read from a socket bound to the given address and port with exactly the timeout asked for. A new connection gets the next index; removing one closes exactly its descriptor. Adding a receiving connection fails exactly if there is no socket, the address cannot be bound or the timeout is a second or more. The destructor closes nothing twice, but only the first half of the connections of each kind.", "quantifier": "all histories of calls on the object, all addresses, ports, timeouts and data, all descriptors an operating system may hand out (also ones used before)", "why_tests_cant": "Whether a descriptor is closed twice or used after it was closed depends on the order of calls and on which numbers the operating system reuses.", "anchors": ["lib/src/apps/udp.cpp udp_t::add_connection_tx, add_connection_rx, rm_connection_tx, rm_connection_rx, tx, rx, ~udp_t"]}
{"id": "C79", "title": "A stream's datagrams are due at the exact times rounded to a microsecond, in order, the set number in every second", "statement": "A stream with a period, an offset and a number of repetitions per second that is started at a full second returns, for datagram k, the exact time (second, offset and repetitions times period) rounded to the nearest microsecond, so errors never add up; every time lies in its second, times increase, and within a second they are at least 999 microseconds apart. A stream runs for ever if its arguments are accepted and the last time of a second is below the next full second after rounding; otherwise the program ends, at the latest with the last datagram of the first second.", "quantifier": "all rational periods and offsets, numbers of repetitions, start seconds and numbers of calls", "why_tests_cant": "Rounding at the edge of a second and errors that add up over hours appear only for particular periods and long runs.", "anchors": ["lib/src/apps/stream.cpp stream_t::stream_t, set_start_full_sec, get_next_us"]}
{"id": "C80", "title": "Measured levels are reported with the value whose range contains them; the tables of part 2 return the band and power limits", "statement": "Every level down to -2^30 dBm gets the RSSI report (1 to 182) whose half-dB range contains it, and every ratio up to 2^29 dB the SNR report (1 to 201) whose quarter-dB range contains it; the ranges do not overlap; a weaker level never gets a smaller RSSI report and a better ratio never a smaller SNR report. Band numbers 1 to 17 give the lower and upper frequency in Hz and all others are refused. The maximum power is 23, 19 or 10 dBm for power classes 1, 2 and 3, measured over seven eighths of the bandwidth; all other classes and bandwidths are refused. The channel bandwidths double with the index.", "quantifier": "all rational levels in the stated ranges, all integers as band number, bandwidth, index and power class", "why_tests_cant": "A test tries some levels; that every level falls into exactly one range and the order is kept needs all of them.", "anchors": ["lib/src/sections_part2/radio_device_measurement.cpp get_rssi_x_measurement_report, get_snr_measurement_report_t", "lib/src/sections_part2/operating_bands.cpp get_operating_band", "lib/src/sections_part2/transmitter_power.cpp get_maximum_output_power", "lib/src/sections_part2/channel_bandwidth.cpp get_channel_bandwidth"]}
{"id": "C81", "title": "The estimated signal-to-noise ratio is the energy over the noise of everything received since the reset, whatever the order, gain or phase", "statement": "After a reset and any sequence of STF and DRS symbols the reported ratio equals the energy of all pilots of all antennas and streams 0 to 7, minus the noise taken from differences of neighbouring pilots, over this noise, per pilot and pair, with a quarter of the boosted STF. It does not depend on the order of antennas, streams and symbols, nor on a common complex factor (gain and phase of the receiver), and grows with the energy for the same noise. The STF is accepted only as the first thing after a reset. A channel without any noise that is equal for all pilots is reported with 0 dB.", "quantifier": "all rational channel estimates, numbers of antennas and symbols, stream ranges, bandwidths b and histories since the reset", "why_tests_cant": "Independence of order, gain and phase and the closed form must hold for every received signal and every number of symbols and antennas.", "anchors": ["lib/src/phy/rx/rx_synced/snr/estimator_snr.cpp estimator_snr_t::process_stf, process_drs, get_current_snr_dB_estimation, process_stf_or_drs_packed"]}
{"id": "C82", "title": "The termination points are configured as the file says", "statement": "A configuration file with entries TPOINT0, TPOINT1, ... in this order, each with a name, a firmware id of 0 to 999, one to ten 32-bit network ids and two pairs of thread settings, is read exactly, whatever other fields it has. Whatever is accepted gives one configuration per entry, with its position as id, all values in range and all integers kept up to 32 bits. An entry out of order, missing or repeated stops the program.", "quantifier": "all parsed configuration files: all lists of keys and JSON values", "why_tests_cant": "Files are arbitrary; a misread field shows only in the behaviour of the firmware.", "anchors": ["lib/src/upper/upper_config.cpp upper_config_t::upper_config_t", "lib/src/common/json/json_parse.cpp read_string, read_int, read_int_array, extract_id"]}
{"id": "C83", "title": "Every worker pool works for exactly one termination point, with its own number of the token", "statement": "Whenever the upper layers start, there is one termination point per configuration with the firmware its name begins with; every worker pool calls exactly one of them, which controls this pool under the number the pool uses for the token, with the token and the network ids of this termination point; every controlled pool calls back; termination points do not share tokens and two pools never share a number of a token. The layers start exactly if ids are 0, 1, ..., all names are known, there are one to four pools, and there is one termination point for each pool or, not in simulation, one for all.", "quantifier": "all numbers of pools, all lists of configurations, with and without simulation", "why_tests_cant": "A pool with the number or token of another one is a race that shows only under load, for each combination of configurations.", "anchors": ["lib/src/upper/upper.cpp upper_t::upper_t, add_tpoint, init_one_to_many, init_one_to_one", "lib/src/phy/worker_pool.cpp worker_pool_t::configure_tpoint_calls, add_network_id"]}
