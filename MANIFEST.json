{
 "claims": [
  {
   "property": "C01",
   "status": "proved",
   "theorems": [
    "C01_queue_refines_fifo",
    "C01_queue_fifo_order",
    "C01_zero_length_write_enqueues",
    "C01_one_slot_queue_rejects"
   ],
   "note": "Refinement to a bounded FIFO for every history. Characterised exactly, including the zero-length write and the one-slot queue."
  },
  {
   "property": "C02",
   "status": "proved",
   "theorems": [
    "C02_level_announces_reads",
    "C02_level_defined"
   ],
   "note": "Level report equals a prefix of the abstract FIFO."
  },
  {
   "property": "C03",
   "status": "proved",
   "theorems": [
    "C03_job_queue_refines_fifo",
    "C03_job_queue_order",
    "C03_slot_statistics_off_by_one"
   ],
   "note": "Default build (full queue aborts) and discard build both modelled. Finding: per-slot statistics off by one."
  },
  {
   "property": "C04",
   "status": "proved",
   "theorems": [
    "C04_impermeable_drops",
    "C04_pending_jobs_still_drain"
   ],
   "note": ""
  },
  {
   "property": "C05",
   "status": "proved",
   "theorems": [
    "C05_firmware_calls_in_order",
    "C05_every_job_reaches_firmware",
    "C05_single_pool_with_start",
    "C05_two_pools_start_refuted"
   ],
   "note": "Proved for pools already started, and for one pool including start-up. Start-up with two pools can abort (C05_two_pools_start_refuted)."
  },
  {
   "property": "C06",
   "status": "proved",
   "theorems": [
    "C06_only_holder_passes_on",
    "C06_baton_never_stuck",
    "C06_reported_packets_spaced",
    "C06_registration_agrees"
   ],
   "note": "The search within a chunk is an arbitrary oracle."
  },
  {
   "property": "C07",
   "status": "proved",
   "theorems": [
    "C07_workers_refine_sequential_scan",
    "C07_each_time_in_one_chunk",
    "C07_detection_at_chunk_end_refuted"
   ],
   "note": "Proved when no packet is detected at the very last search step of a chunk or there is one worker; otherwise refuted by C07_detection_at_chunk_end_refuted (finding)."
  },
  {
   "property": "C08",
   "status": "proved",
   "theorems": [
    "C08_queue_is_a_bag_earliest_first",
    "C08_each_callback_delivered_once",
    "C08_ties_not_in_push_order"
   ],
   "note": "Refinement to a bag; ties are not in push order (stated as a theorem)."
  },
  {
   "property": "C09",
   "status": "proved",
   "theorems": [
    "C09_redundancy_version_cycle",
    "C09_eighth_increase_aborts"
   ],
   "note": "Signal processing abstracted to lists of combined symbols."
  },
  {
   "property": "C10",
   "status": "proved",
   "theorems": [
    "C10_pool_refines_spec",
    "C10_one_user_per_process",
    "C10_null_iff_all_in_use",
    "C10_soft_buffer_contents",
    "C10_running_request_races_with_termination"
   ],
   "note": "Usage rules spelled out by SMisuse in HarqPoolSpec.v; the race between a running request and a terminating holder is excluded by them and shown separately."
  },
  {
   "property": "C11",
   "status": "proved",
   "theorems": [
    "C11_sent_packets_were_announced",
    "C11_sent_in_order",
    "C11_buffers_exclusive",
    "C11_only_starvation_fails",
    "C11_simulator_override_race_refuted"
   ],
   "note": "Any number of threads and buffers, backpressured and complete packets. Finding: the simulator reads the successor id after releasing the buffer (C11_simulator_override_race_refuted)."
  },
  {
   "property": "C12",
   "status": "proved",
   "theorems": [
    "C12_ring_holds_last_samples",
    "C12_readable_while_hardware_writes",
    "C12_published_clock",
    "C12_wait_until_exact",
    "C12_jump_block_misplaced_refuted",
    "C12_wait_for_now_blocks_refuted"
   ],
   "note": "All block histories incl. lost samples; also reads while the hardware writes, the published clock and waiting. Findings: the block at a time jump is misplaced; waiting for exactly now blocks."
  },
  {
   "property": "C13",
   "status": "proved",
   "theorems": [
    "C13_run_exact",
    "C13_next_due_in_future",
    "C13_periodic_exactly_once",
    "C13_add_uses_free_slot",
    "C13_run_terminates",
    "C13_run_before_add_refuted"
   ],
   "note": "Any number of slots, callbacks may change their own timer. rm_callback does not compile when instantiated and is not modelled. Finding: run before the first add follows a null iterator."
  },
  {
   "property": "C14",
   "status": "proved",
   "theorems": [
    "C14_bimap_is_bijection",
    "C14_aborts_exactly_on_misuse",
    "C14_range_of_value",
    "C14_set_same_value_aborts_refuted"
   ],
   "note": "Unique and not unique maps; boost::bimap modelled as a set of relations with two views."
  },
  {
   "property": "C15",
   "status": "proved",
   "theorems": [
    "C15_lookups_agree_with_registration"
   ],
   "note": "Generic contact type; writes through the returned reference included."
  },
  {
   "property": "C16",
   "status": "proved",
   "theorems": [
    "C16_type1_layout",
    "C16_invalid_headers_abort",
    "C16_type1_round_trip",
    "C16_type2_layout",
    "C16_type2_round_trip",
    "C16_spatial_streams",
    "C16_transmit_power"
   ],
   "note": "Both header types and all formats, byte by byte. Findings: stream counts 3, 5, 6, 7 are coded as one stream (C16_spatial_streams)."
  },
  {
   "property": "C17",
   "status": "proved",
   "theorems": [
    "C17_decoder_exact",
    "C17_reports_packed_type1",
    "C17_reset_required_refuted"
   ],
   "note": "Exact outcome of the decoder for every pair of received headers. A decoder not re-armed between packets aborts (C17_reset_required_refuted)."
  },
  {
   "property": "C18",
   "status": "proved",
   "theorems": [
    "C18_layout",
    "C18_unsendable_aborts",
    "C18_round_trip",
    "C18_unpack_exact",
    "C18_received_size_below_true",
    "C18_forwarding_lowers_level",
    "C18_nonempty_reported_empty_refuted"
   ],
   "note": "All seven feedback formats. Buffer status decodes to the lower bound of its level, which is what the code does."
  },
  {
   "property": "C19",
   "status": "proved",
   "theorems": [
    "C19_layout",
    "C19_announced_size",
    "C19_unpack_exact",
    "C19_round_trip",
    "C19_invalid_headers_abort",
    "C19_beacon_round_trip",
    "C19_beacon_network_id_refuted",
    "C19_standard_beacon_refuted",
    "C19_escape_refuted"
   ],
   "note": "Data, unicast and RD broadcast headers: exact layout, exact unpacking, round trip. The beacon header loses the lowest byte of its network ID, so the claim is false for beacons; the exact loss is proved (C19_beacon_round_trip, C19_beacon_network_id_refuted)."
  },
  {
   "property": "C20",
   "status": "proved",
   "theorems": [
    "C20_layout",
    "C20_self_delimiting",
    "C20_unpack_exact",
    "C20_recognition",
    "C20_round_trip",
    "C20_invalid_headers_abort",
    "C20_long_padding_not_recognised"
   ],
   "note": "All IE types, any set of activated elements."
  },
  {
   "property": "C21",
   "status": "proved",
   "theorems": [
    "C21_new_sized",
    "C21_decodes",
    "C21_prefix",
    "C21_decode_again_refuted",
    "C21_short_block_header_refuted"
   ],
   "note": "For every transport block below 2^31 bytes, every numerology factor and every way the bytes arrive, the decoder ends without abort or out-of-bounds read and holds exactly what an independent one-pass reading of the block (DecoderSpec.read_pdu) gives; meanwhile it holds a beginning of it. Two deviations by counterexample."
  },
  {
   "property": "C22",
   "status": "proved",
   "theorems": [
    "C22_assembled",
    "C22_delivered",
    "C22_too_large_aborts",
    "C22_more_than_room_refuted"
   ],
   "note": "For every sequence of activated elements (user plane data, cluster beacon, power target, time announce) that fits; end to end over the incremental decoder of C21. Elements that do not fit abort. A beacon header arrives without the lowest byte of the network ID (C19); more elements than the receiver has slots for are dropped (counterexample)."
  },
  {
   "property": "C23",
   "status": "proved",
   "theorems": [
    "C23_padding",
    "C23_padding_is_silent",
    "C23_single"
   ],
   "note": "Exact for every number of bytes."
  },
  {
   "property": "C24",
   "status": "proved",
   "theorems": [
    "C24_layout",
    "C24_unpack_exact",
    "C24_round_trip",
    "C24_invalid_aborts"
   ],
   "note": "Layout, exact receive condition, round trip, invalid messages abort; every combination of optional fields, both numerologies of the frame offset."
  },
  {
   "property": "C25",
   "status": "proved",
   "theorems": [
    "C25_layout",
    "C25_unpack_exact",
    "C25_round_trip",
    "C25_out_of_order_refuted",
    "C25_invalid_aborts"
   ],
   "note": "As C24; additional channels that are not set in order arrive moved up (exact characterisation and counterexample)."
  },
  {
   "property": "C26",
   "status": "proved",
   "theorems": [
    "C26_allocation",
    "C26_allocation_release",
    "C26_allocation_incomplete_throws",
    "C26_allocation_invalid_aborts",
    "C26_allocation_received",
    "C26_allocation_reserved",
    "C26_downlink_only_refuted",
    "C26_random_access",
    "C26_random_access_offset_aborts",
    "C26_random_access_single_throws",
    "C26_random_access_invalid_aborts",
    "C26_random_access_received",
    "C26_random_access_channel_refuted"
   ],
   "note": "Both elements for both subslot numerologies, sending and receiving arbitrary bytes. The elements that cannot be sent (one direction, not repeated, SFN offset or channel of the random access IE) are characterised exactly, with counterexamples."
  },
  {
   "property": "C27",
   "status": "proved",
   "theorems": [
    "C27_request",
    "C27_request_invalid_aborts",
    "C27_request_received",
    "C27_request_reserved",
    "C27_response_reject",
    "C27_response_accept",
    "C27_response_received",
    "C27_response_accept_refuted",
    "C27_release",
    "C27_release_invalid_aborts",
    "C27_release_received",
    "C27_reconfiguration_request",
    "C27_reconfiguration_request_incomplete_throws",
    "C27_reconfiguration_request_invalid_aborts",
    "C27_reconfiguration_request_received",
    "C27_reconfiguration_request_reserved",
    "C27_reconfiguration_response",
    "C27_reconfiguration_response_incomplete_throws",
    "C27_reconfiguration_response_invalid_aborts",
    "C27_reconfiguration_response_received",
    "C27_reconfiguration_without_harq_refuted",
    "C27_request_ft_refuted"
   ],
   "note": "Association request, response and release, reconfiguration request and response: sending, and receiving arbitrary bytes. Which valid messages survive, and what happens to the others, is characterised exactly; the three kinds of valid message that do not get through have counterexamples."
  },
  {
   "property": "C28",
   "status": "proved",
   "theorems": [
    "C28_power_target",
    "C28_time_announce_layout",
    "C28_time_announce_round_trip",
    "C28_time_announce_exact",
    "C28_time_announce_invalid_aborts",
    "C28_set_time",
    "C28_user_plane_data",
    "C28_user_plane_data_aborts",
    "C28_element_headers",
    "C28_group_assignment_not_sent_refuted",
    "C28_radio_device_status",
    "C28_radio_device_status_invalid_aborts",
    "C28_radio_device_status_received",
    "C28_security_info",
    "C28_security_info_invalid_aborts",
    "C28_security_info_received",
    "C28_route_info",
    "C28_route_info_invalid_aborts",
    "C28_route_info_received",
    "C28_group_assignment",
    "C28_group_assignment_invalid_aborts",
    "C28_group_assignment_received",
    "C28_higher_layer_signalling",
    "C28_higher_layer_signalling_flow",
    "C28_load_info",
    "C28_load_info_not_sent_refuted",
    "C28_load_info_invalid_aborts",
    "C28_load_info_received",
    "C28_measurement_report",
    "C28_measurement_report_not_sent_refuted",
    "C28_measurement_report_invalid_aborts",
    "C28_measurement_report_received",
    "C28_rd_capability",
    "C28_rd_capability_invalid_aborts",
    "C28_rd_capability_received",
    "C28_rx_gain",
    "C28_rx_gain_index",
    "C28_neighbouring_not_sent_refuted",
    "C28_neighbouring_optional_throws",
    "C28_neighbouring_received",
    "C28_broadcast_paging",
    "C28_broadcast_response",
    "C28_broadcast_quality_refuted",
    "C28_broadcast_mimo_refuted",
    "C28_broadcast_invalid_aborts",
    "C28_broadcast_received"
   ],
   "note": "All elements of the directory: sending every valid element, refusing every invalid one, and receiving arbitrary bytes. The elements that cannot be sent or are misread (load info with PT or RACH load, measurement report with a transmission count, neighbouring, group assignment, feedback in a random access response) have exact theorems ending in _refuted."
  },
  {
   "property": "C29",
   "status": "proved",
   "theorems": [
    "C29_sizes",
    "C29_unsupported_aborts",
    "C29_segmentation",
    "C29_filler_bits_exist"
   ],
   "note": "All supported configurations, exact condition for sizes to exist; unsupported ones abort; segmentation proved for every transport block below 2^31 bits."
  },
  {
   "property": "C30",
   "status": "proved",
   "theorems": [
    "C30_more_cells",
    "C30_packets",
    "C30_longer_packets_exist_refuted"
   ],
   "note": "Function level (every cell count without 31-bit overflow) and packet level (wider, longer, higher MCS); the proviso on reference symbols is shown to be needed."
  },
  {
   "property": "C31",
   "status": "proved",
   "theorems": [
    "C31_transmission_succeeds",
    "C31_cover",
    "C31_disjoint",
    "C31_one_reference",
    "C31_written_once",
    "C31_counts"
   ],
   "note": "For every packet transmitted by any accepted device class. Cells are read off the writes of the transmitter. Transmission succeeds exactly if the MCS of the class is at most 9 and the mode needs no more antennas than the class has."
  },
  {
   "property": "C32",
   "status": "proved",
   "theorems": [
    "C32_defined_iff_in_band",
    "C32_equally_spaced",
    "C32_frequency_orders_channels",
    "C32_in_range",
    "C32_unknown_band_refuted"
   ],
   "note": "All bands, all channel numbers. The code has no raster within a band, so in range means between first and last channel of a band. Finding: the band number assertion is vacuous (C32_unknown_band_refuted)."
  },
  {
   "property": "C33",
   "status": "proved",
   "theorems": [
    "C33_duration_exact",
    "C33_lookup_table",
    "C33_conversion_exact",
    "C33_subslots_exact",
    "C33_full_seconds",
    "C33_nanoseconds",
    "C33_durations_per_second"
   ],
   "note": "Exact including which sample rates and multipliers abort. Nanoseconds up to 2^62."
  },
  {
   "property": "C34",
   "status": "proved",
   "theorems": [
    "C34_legal",
    "C34_earliest",
    "C34_unsorted_missed_refuted",
    "C34_end_beyond_limit_refuted",
    "C34_consecutive",
    "C34_sign_test",
    "C34_closest"
   ],
   "note": "Search loop with a fuel bound shown sufficient. Earliest and complete for ascending resources; two refutations (unsorted resources missed, end beyond limit)."
  },
  {
   "property": "C35",
   "status": "proved",
   "theorems": [
    "C35_never_overlap",
    "C35_add_exact",
    "C35_directions_may_overlap_refuted"
   ],
   "note": "Orthogonality holds per direction; uplink and downlink are not compared (C35_directions_may_overlap_refuted)."
  },
  {
   "property": "C36",
   "status": "proved",
   "theorems": [
    "C36_plan_exact",
    "C36_conflict_free",
    "C36_shipped_fits"
   ],
   "note": "Number of terminals and resources per terminal are parameters."
  },
  {
   "property": "C37",
   "status": "proved",
   "theorems": [
    "C37_sends",
    "C37_taken",
    "C37_head_blocks",
    "C37_exact_fit_refuted",
    "C37_empty_datagram_aborts"
   ],
   "note": "Exact: which datagrams are sent, what is left in the queue with concurrent arrivals, what the block tells. Counterexamples: a datagram that exactly fits is never sent; an empty datagram aborts."
  },
  {
   "property": "C38",
   "status": "proved",
   "theorems": [
    "C38_refines",
    "C38_acceptance_interval",
    "C38_measured_distance",
    "C38_five_seconds_refuted",
    "C38_estimate_within_drift",
    "C38_ideal_beacons"
   ],
   "note": "Warp factor as an exact rational instead of a double. Finding: measurements span four, not the documented five seconds (C38_five_seconds_refuted)."
  },
  {
   "property": "C39",
   "status": "proved",
   "theorems": [
    "C39_offset_exact",
    "C39_beacon_exact",
    "C39_history",
    "C39_ideal_beacons"
   ],
   "note": "Aborts exactly for beacons halfway between raster points, beyond the accepted deviation, or before the first edge."
  },
  {
   "property": "C40",
   "status": "proved",
   "theorems": [
    "C40_lock_step",
    "C40_reads_see_the_step",
    "C40_no_deadlock",
    "C40_disagreement_aborts"
   ],
   "note": "Registration and the TX and RX threads of any number of radios, all interleavings of their calls into the virtual space. Real-time alignment (sleeping) and the superposition of the samples are not modelled; a read is modelled as the set of packets the channel is applied to."
  },
  {
   "property": "C41",
   "status": "proved",
   "theorems": [
    "C41_symmetric",
    "C41_equal_vertices_abort",
    "C41_ordered",
    "C41_onto",
    "C41_too_many_vertices_refuted"
   ],
   "note": "Up to 65536 vertices, the exact limit of the 32 bit arithmetic."
  },
  {
   "property": "C42",
   "status": "proved",
   "theorems": [
    "C42_accepted",
    "C42_stream",
    "C42_announced",
    "C42_enough",
    "C42_call",
    "C42_convolution",
    "C42_unit",
    "C42_rate",
    "C42_flush_alone_refuted"
   ],
   "note": "For every ratio, filter and division into pieces, including the four manually unrolled loops; the dot product is arbitrary. Exact acceptance condition of the constructor; number of outputs announced, bound used by the receiver, exact convolution over the integers. Counterexample: a final call without samples before it returns more than announced. Design of the filter coefficients is not modelled."
  },
  {
   "property": "C43",
   "status": "proved",
   "theorems": [
    "C43_one_connection",
    "C43_exactly_the_triggered",
    "C43_each_connection_in_order",
    "C43_several_undisturbed",
    "C43_several_early_refuted",
    "C43_several_abort_refuted",
    "C43_empty_datagram_refuted",
    "C43_too_long_aborts"
   ],
   "note": "All interleavings of the firmware thread and the forwarding thread at lock granularity. With one connection forwarding is exact (safety and completion); with several it is exact if no forwarding step falls between the writes of a packet and their announcement, and per connection always in order. Early forwarding, the underflow abort, the abort on an empty datagram and on one too long for the queue are proved as behaviour of the code."
  },
  {
   "property": "C44",
   "status": "proved",
   "theorems": [
    "C44_ceil_divide",
    "C44_round",
    "C44_round_unsigned",
    "C44_multiple_leq",
    "C44_multiple_geq",
    "C44_bitmask",
    "C44_bitmask_64_refuted"
   ],
   "note": "Widths of int and above. multiple_leq of negative non-multiples, wrapping ceil division and the 64 bit mask are characterised as wrong."
  },
  {
   "property": "C45",
   "status": "proved",
   "theorems": [
    "C45_identity_construction",
    "C45_short_network_id_validity",
    "C45_valid_network_id_unusable_refuted",
    "C45_short_rd_id_not_checked_refuted",
    "C45_validity_predicates"
   ],
   "note": "Network IDs whose low byte is zero yield an invalid short network ID and abort (stated as a theorem)."
  },
  {
   "property": "C46",
   "status": "proved",
   "theorems": [
    "C46_regular_report_is_barrier"
   ],
   "note": "Assumes the search never yields a fine peak before the chunk start (signal processing, not modelled)."
  },
  {
   "property": "C47",
   "status": "proved",
   "theorems": [
    "C47_one_period_apart",
    "C47_once_per_second",
    "C47_prepared_before",
    "C47_unscheduled_refuted"
   ],
   "note": "Schedule and once-per-second test exact up to int64."
  },
  {
   "property": "C48",
   "status": "proved",
   "theorems": [
    "C48_class_files",
    "C48_maximum_exists",
    "C48_packets_fit",
    "C48_maximum_is_a_packet",
    "C48_data_cells_refuted",
    "C48_builtin_classes"
   ],
   "note": "All class parameters; the number of data cells is shown not to be monotone (counterexample), everything else fits."
  },
  {
   "property": "C49",
   "status": "proved",
   "theorems": [
    "C49_request",
    "C49_transmit",
    "C49_never_aborts_refuted",
    "C49_streams_as_announced_refuted"
   ],
   "note": "From raw header bytes to the request; counterexamples: one subslot with MCS 0 aborts the receiver, two announced streams from four antennas are received as four."
  },
  {
   "property": "C50",
   "status": "proved",
   "theorems": [
    "C50_packet_length",
    "C50_transmit_buffer"
   ],
   "note": "Exact length, exact abort condition, buffer bound for all rates and classes."
  },
  {
   "property": "C51",
   "status": "proved",
   "theorems": [
    "C51_symbols",
    "C51_data_in_order",
    "C51_data_diversity",
    "C51_pair_streams",
    "C51_control",
    "C51_pairs_in_one_symbol",
    "C51_reference"
   ],
   "note": "Values are represented by their origin (control symbol index, first coded bit, base sequence entry); modulation, IFFT and coding are not modelled here."
  },
  {
   "property": "C52",
   "status": "proved",
   "theorems": [
    "C52_signal",
    "C52_half_duplex",
    "C52_longer_next_refuted"
   ],
   "note": "Exact for any list of packets; the additional condition on a longer next packet is necessary, C52_longer_next_refuted shows the wrong signal. One antenna; the order given by tx_order_id_expect_next is the order of the list."
  },
  {
   "property": "C53",
   "status": "proved",
   "theorems": [
    "C53_on_air",
    "C53_bursts_in_order",
    "C53_never_aborts",
    "C53_all_sent",
    "C53_adjustments",
    "C53_leading_zeros",
    "C53_leading_zeros_not_taken_refuted",
    "C53_leading_zeros_overlap_refuted",
    "C53_large_gap_refuted"
   ],
   "note": "For all histories of the thread; the three conditions have counterexamples (_refuted) when dropped."
  },
  {
   "property": "C54",
   "status": "proved",
   "theorems": [
    "C54_filter",
    "C54_filter_returns",
    "C54_usable",
    "C54_resample",
    "C54_available",
    "C54_resample_returns",
    "C54_packet",
    "C54_ring",
    "C54_heard",
    "C54_negative_time_refuted",
    "C54_late_reader_refuted",
    "C54_lag_check",
    "C54_lag_not_detected_refuted"
   ],
   "note": "For all schedules and calls; composed with the ring buffer (C12) and the resampler (C42). The lateness and negative start times have counterexamples (_refuted), and the lag check is characterised exactly."
  },
  {
   "property": "C55",
   "status": "proved",
   "theorems": [
    "C55_sum",
    "C55_weighted_sum",
    "C55_resum_forgets",
    "C55_resum_forgets_weighted",
    "C55_front_back",
    "C55_front_back_shifted_refuted",
    "C55_detection",
    "C55_peak",
    "C55_metric_below_threshold",
    "C55_metric_above_one_refuted",
    "C55_clean_packet"
   ],
   "note": "Exact for samples that are pairs of integers (any commutative ring for the moving sums); rounding is covered by the history-independence theorems. The sums of the front and back are characterised exactly and refuted as documented, as is the normalisation to 1."
  },
  {
   "property": "C56",
   "status": "proved",
   "theorems": [
    "C56_chunk",
    "C56_last_max",
    "C56_nothing_missed",
    "C56_times",
    "C56_unique",
    "C56_distance_never_rejects",
    "C56_callback",
    "C56_callback_claim_refuted"
   ],
   "note": "The metrics are integers and arbitrary (their values are C55); rounding of floats is not modelled. The fine search is represented by its range only. The claim attached to the callback for irregular jobs is refuted and replaced by the bound that holds."
  },
  {
   "property": "C57",
   "status": "proved",
   "theorems": [
    "C57_encode",
    "C57_schedule",
    "C57_all",
    "C57_scramble",
    "C57_float"
   ],
   "note": "The functions of srsRAN (turbo encoder, rate matching, checksums, Gold sequence) are arbitrary parameters. Capacities of the scratch buffers of the encoder are not modelled."
  },
  {
   "property": "C58",
   "status": "proved",
   "theorems": [
    "C58_decode",
    "C58_early",
    "C58_sound",
    "C58_stale_refuted",
    "C58_lost_cell",
    "C58_all_refuted",
    "C58_buffer_refuted",
    "C58_roundtrip"
   ],
   "note": "The functions of srsRAN are arbitrary parameters; soft bits of 16 bit width only. Claims that fail are stated as theorems: one cell of soft bits is never used when the blocks have different shares, a transport block buffer of exact size is overrun, decode_tb() without a number of bits always aborts, and a soft buffer that is not reset after success delivers stale data."
  },
  {
   "property": "C59",
   "status": "proved",
   "theorems": [
    "C59_encode",
    "C59_flags_unique",
    "C59_decode",
    "C59_yields_unique",
    "C59_search",
    "C59_channel",
    "C59_roundtrip",
    "C59_flags_stale_refuted"
   ],
   "note": "The functions of srsRAN are arbitrary parameters (the decoder writes whole blocks of bytes); soft bits of 16 bit width. That flags are cleared when no header is found is refuted: they are stale until the next header of the type."
  },
  {
   "property": "C60",
   "status": "proved",
   "theorems": [
    "C60_in_order",
    "C60_one_callback",
    "C60_stop_answered",
    "C60_orderly",
    "C60_fails_only",
    "C60_beacon_aborts",
    "C60_data_before_beacon",
    "C60_never_fails_refuted",
    "C60_lost_callback",
    "C60_lost_callback_refuted"
   ],
   "note": "Times within 2^58 samples. Contents of packets, gain control and logging are not in this model. If the job queue drops a callback (possible only without the fatal option of the job queue) the stop request is never answered: C60_lost_callback."
  },
  {
   "property": "C61",
   "status": "proved",
   "theorems": [
    "C61_refines",
    "C61_in_order",
    "C61_accepts",
    "C61_never_fails",
    "C61_jobs",
    "C61_jobs_apart",
    "C61_covered",
    "C61_every_job",
    "C61_announced_refuted",
    "C61_dropped_job_refuted",
    "C61_small_queue_refuted"
   ],
   "note": "Set up of sockets and devices, poll() timeouts and the time stamp in the job are not modelled. The queue levels the firmware asks for are in C01/C02's model of the queue. With a positive protection time announcements can be missing for ever (C61_announced_refuted, C61_dropped_job_refuted); the firmwares in the repository use none."
  },
  {
   "property": "C62",
   "status": "proved",
   "theorems": [
    "C62_reception",
    "C62_exact",
    "C62_control",
    "C62_data",
    "C62_control_estimates",
    "C62_one_sided_estimates",
    "C62_two_sided_estimates",
    "C62_eight_streams_refuted",
    "C62_short_packet_refuted"
   ],
   "note": "Sample values, interpolation weights and estimators are not modelled; the theorems say which received cells enter each soft bit. Two cases fail: eight streams with estimates from both sides and more than 21 symbols (C62_eight_streams_refuted), and packets whose control field ends in the last symbol (C62_short_packet_refuted)."
  },
  {
   "property": "C63",
   "status": "proved",
   "theorems": [
    "C63_size",
    "C63_measurement",
    "C63_statistics",
    "C63_transmissions",
    "C63_when",
    "C63_padding_refuted",
    "C63_big_packet_refuted",
    "C63_long_datagram_refuted",
    "C63_late_answer_refuted",
    "C63_lost_job_refuted",
    "C63_count_refuted"
   ],
   "note": "Receiver, HARQ pool and gain control are inputs of the model. Without the conditions the claim fails: C63_late_answer_refuted, C63_lost_job_refuted, C63_count_refuted, C63_big_packet_refuted, C63_long_datagram_refuted, C63_padding_refuted."
  },
  {
   "property": "C64",
   "status": "proved",
   "theorems": [
    "C64_step",
    "C64_rx_individual",
    "C64_rx_collective",
    "C64_tx",
    "C64_rx_settles",
    "C64_tx_settles",
    "C64_half_step_refuted",
    "C64_offset_refuted",
    "C64_collective_refuted",
    "C64_tx_blind_refuted"
   ],
   "note": "Levels are exact (any common unit), logarithm and float rounding are not modelled; the hardware can be set to any level in its range (C65 says what real tables do). Settling in reception is proved for one antenna. Failing cases: C64_half_step_refuted, C64_offset_refuted, C64_collective_refuted, C64_tx_blind_refuted."
  },
  {
   "property": "C65",
   "status": "proved",
   "theorems": [
    "C65_tables",
    "C65_search",
    "C65_achievable",
    "C65_power",
    "C65_transmitter",
    "C65_simulator_tx",
    "C65_receiver",
    "C65_receivers",
    "C65_simulator_rx",
    "C65_receiver_refuted",
    "C65_radio",
    "C65_set",
    "C65_set_range",
    "C65_initialized",
    "C65_adjust_refuted",
    "C65_retune_refuted",
    "C65_ascending_refuted",
    "C65_jump_refuted"
   ],
   "note": "Rational arithmetic, floats not modelled; the device is taken to tune exactly. Failing cases: C65_receiver_refuted (exact size of the error: C65_receiver, C65_simulator_rx), C65_adjust_refuted, C65_retune_refuted, C65_ascending_refuted, C65_jump_refuted."
  },
  {
   "property": "C66",
   "status": "proved",
   "theorems": [
    "C66_order",
    "C66_calls",
    "C66_safe",
    "C66_room",
    "C66_full_fatal",
    "C66_timeout",
    "C66_mutex",
    "C66_lock_released",
    "C66_gate",
    "C66_gate_refuted",
    "C66_drain"
   ],
   "note": "The third-party moodycamel queue is assumed to be a FIFO list plus a semaphore, as documented for one producer token; the memory model is sequentially consistent; fifo_cnt is unbounded. Failing case: C66_gate_refuted."
  },
  {
   "property": "C67",
   "status": "proved",
   "theorems": [
    "C67_best",
    "C67_best_unique",
    "C67_safe",
    "C67_used",
    "C67_reported",
    "C67_codebook",
    "C67_loop",
    "C67_codebook_refuted"
   ],
   "note": "SNR values are rationals instead of floats and times unbounded integers; the codebook switch TFW_P2P_MIMO is a parameter (off by default). Failing case: C67_codebook_refuted."
  },
  {
   "property": "C68",
   "status": "proved",
   "theorems": [
    "C68_sizes",
    "C68_mapping",
    "C68_products",
    "C68_modes",
    "C68_codebook",
    "C68_power",
    "C68_orthogonal",
    "C68_converter",
    "C68_nonzero",
    "C68_phases",
    "C68_distinct"
   ],
   "note": "The power theorems are over complex numbers with integer parts; scaling factors 1/sqrt(n) are represented by n. The inverse transform that follows is not modelled."
  },
  {
   "property": "C69",
   "status": "proved",
   "theorems": [
    "C69_report",
    "C69_eight_antennas_refuted",
    "C69_eight_streams_refuted"
   ],
   "note": "Estimates are complex numbers with integer parts and sums are exact; amplitudes are represented by their squares. Amplitudes above the start value of one million are excluded from the best-index part only. C69_eight_antennas_refuted and C69_eight_streams_refuted show where no report is made."
  },
  {
   "property": "C70",
   "status": "proved",
   "theorems": [
    "C70_data_diversity",
    "C70_control_diversity",
    "C70_single_stream",
    "C70_multiplexing_refuted"
   ],
   "note": "Complex numbers have exact rational parts: rounding is left out. The channel estimates are assumed exact; which estimates are used is C62. C70_multiplexing_refuted is the part that fails: run_pdc_mode_AxA_MIMO is empty."
  },
  {
   "property": "C71",
   "status": "proved",
   "theorems": [
    "C71_measurement",
    "C71_measurement_while_hardware_writes",
    "C71_up_to_now_refuted",
    "C71_average_refuted",
    "C71_single_sample_refuted",
    "C71_early_refuted"
   ],
   "note": "Composed with the ring buffer of C12. Exact rational arithmetic, the square root is a parameter; the samples are those of one moment. C71_up_to_now_refuted, C71_average_refuted, C71_single_sample_refuted and C71_early_refuted are the parts that fail."
  },
  {
   "property": "C72",
   "status": "proved",
   "theorems": [
    "C72_link",
    "C72_link_reciprocal",
    "C72_doubly",
    "C72_flat",
    "C72_awgn",
    "C72_profile",
    "C72_reciprocity_refuted",
    "C72_reciprocal_single",
    "C72_leakage_refuted"
   ],
   "note": "Exact rational arithmetic; phases in turns, and the rotation is any function of period one (sine and cosine are not modelled). C72_reciprocity_refuted and C72_leakage_refuted are the parts that fail; C72_reciprocal_single is what remains of reciprocity between antennas."
  },
  {
   "property": "C73",
   "status": "proved",
   "theorems": [
    "C73_worker",
    "C73_job",
    "C73_completes",
    "C73_other_hw_refuted",
    "C73_no_buffer_refuted",
    "C73_nested_scan_refuted"
   ],
   "note": "Firmware, decoding results and buffer pools are arbitrary parameters. Stated for the default build with assertions. C73_other_hw_refuted, C73_no_buffer_refuted (build without assertions) and C73_nested_scan_refuted are the parts that fail."
  },
  {
   "property": "C74",
   "status": "partial",
   "theorems": [
    "C74_made",
    "C74_pilots",
    "C74_interpolated_partial",
    "C74_eight_streams_refuted",
    "C74_window",
    "C74_nearest_refuted",
    "C74_pick"
   ],
   "note": "C74_interpolated_partial covers one, two and four streams; for eight it does not hold (C74_eight_streams_refuted). Distance and filter are arbitrary parameters. That a smaller bandwidth adds no weights (an assertion of the constructor) is not proved: C74_made leaves it as the only way, besides 2^32 weights, not to end with the tables. C74_nearest_refuted is the part on the nearest window that fails."
  },
  {
   "property": "C75",
   "status": "proved",
   "theorems": [
    "C75_plan",
    "C75_progress",
    "C75_safe",
    "C75_rates",
    "C75_complete",
    "C75_packets",
    "C75_range",
    "C75_ratio_refuted",
    "C75_unsent_refuted",
    "C75_late_refuted"
   ],
   "note": "C75_ratio_refuted, C75_unsent_refuted and C75_late_refuted show claims that fail. Floats are rational numbers; times do not overflow."
  },
  {
   "property": "C76",
   "status": "proved",
   "theorems": [
    "C76_files",
    "C76_sorted",
    "C76_counts",
    "C76_race_free",
    "C76_no_abort",
    "C76_finish",
    "C76_thrown",
    "C76_pressure",
    "C76_discard_refuted",
    "C76_tail_refuted"
   ],
   "note": "C76_discard_refuted and C76_tail_refuted show two claims that fail. Interleaving of the steps of append() with sequentially consistent memory; mutexes as holders; the counters do not overflow (the conversion of the file number to 32 bits is modelled); try_lock does not fail spuriously."
  },
  {
   "property": "C77",
   "status": "proved",
   "theorems": [
    "C77_scan",
    "C77_scan_times",
    "C77_delay",
    "C77_delay_calls",
    "C77_gain",
    "C77_agc_calls",
    "C77_gap",
    "C77_gap_front",
    "C77_drift_refuted",
    "C77_back_late_refuted",
    "C77_overlap_refuted"
   ],
   "note": "C77_drift_refuted, C77_back_late_refuted and C77_overlap_refuted show claims that fail for the gain firmware. Floats are rational numbers or integers of dB; the limits of the hardware gain are not modelled; times do not overflow."
  },
  {
   "property": "C78",
   "status": "proved",
   "theorems": [
    "C78_descriptors",
    "C78_send",
    "C78_receive",
    "C78_add",
    "C78_add_rx",
    "C78_remove",
    "C78_destructor",
    "C78_closed_small",
    "C78_leak_refuted"
   ],
   "note": "C78_leak_refuted shows that the destructor does not close all sockets; C78_destructor says exactly which stay open. Results of sendto and recvfrom are not modelled."
  },
  {
   "property": "C79",
   "status": "proved",
   "theorems": [
    "C79_times",
    "C79_spacing",
    "C79_runs",
    "C79_late_refuted",
    "C79_seam_refuted",
    "C79_restart_refuted"
   ],
   "note": "C79_late_refuted, C79_seam_refuted and C79_restart_refuted show claims that fail. double is taken as the rational numbers."
  },
  {
   "property": "C80",
   "status": "proved",
   "theorems": [
    "C80_rssi",
    "C80_rssi_monotone",
    "C80_snr",
    "C80_snr_monotone",
    "C80_bands",
    "C80_power",
    "C80_bandwidth",
    "C80_bandwidth_refuted",
    "C80_silence_refuted",
    "C80_wrap_refuted"
   ],
   "note": "C80_bandwidth_refuted, C80_silence_refuted and C80_wrap_refuted show claims that fail. float and double are taken as the rational numbers."
  },
  {
   "property": "C81",
   "status": "proved",
   "theorems": [
    "C81_closed",
    "C81_stf_first",
    "C81_order",
    "C81_scale",
    "C81_monotone",
    "C81_flat",
    "C81_decibels_refuted"
   ],
   "note": "C81_decibels_refuted shows that the reported value may be NaN; C81_flat that a perfect channel is reported with 0 dB. float is taken as the rational numbers; the logarithm is left out (ratios instead of decibels)."
  },
  {
   "property": "C82",
   "status": "proved",
   "theorems": [
    "C82_exact",
    "C82_accepted",
    "C82_order",
    "C82_range_refuted",
    "C82_array_refuted",
    "C82_key_refuted"
   ],
   "note": "C82_range_refuted, C82_array_refuted and C82_key_refuted are stronger claims that fail: integers are cut to 32 bits before the range check, only the first entry of an array is checked for its type, and text after the number of a key is ignored. The text of the file is taken as parsed and as an object."
  },
  {
   "property": "C83",
   "status": "proved",
   "theorems": [
    "C83_wired",
    "C83_token_numbers",
    "C83_starts",
    "C83_firmware_unique",
    "C83_name_refuted",
    "C83_five_refuted"
   ],
   "note": "C83_name_refuted: a name that only begins with a known one is accepted. C83_five_refuted: more than four pairs with a termination point each are refused, although each token serves one pool. Pools, termination points and tokens are indices; constructors of the firmwares are not modelled here."
  }
 ]
}