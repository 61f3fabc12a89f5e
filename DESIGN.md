# Formal model of DECT-NR-Plus-SDR: design

## What is modelled and how

The model lives in `rocq/theories`. Each definition cites the file and lines in `/repo` it models, and says
where it simplifies. Only the Coq standard library is used (lists, N, Z, nat, lia).

Conventions shared by all files:

* **Outcomes.** A C++ call that may fail is modelled in `res A`: `Ok a`, `Abort` (a `dectnrp_assert` fires; asserts
  are taken as enabled), `Throw` (`std::bad_optional_access`), `Oob` (a read of a byte or array element that does not
  exist). They are distinct results, so "never aborts" and "never reads out of bounds" are provable statements.
* **Integers.** Protocol fields are `N` or `Z` with the width made explicit where the code truncates (`mod 2^32`, byte
  assignment `mod 256`). Sample times are `Z` (the 64-bit range is stated as a hypothesis where it matters).
* **Bytes.** A buffer is a `list N`. Packers return the byte list they write; unpackers read through a bounds-checked
  accessor.
* **Concurrency.** Classes protected by one mutex are modelled at lock granularity: an execution is an arbitrary list
  of atomic steps. Memory-order subtleties of the `atomic` fast paths are outside the model.
* **Floating point, DSP, sockets, UHD, threads and wall-clock time** are outside the model. Where a property depends on
  a sample value, samples are an abstract type.

## Plan per property

| Id | Modelled | Proof |
|----|----------|-------|
| C01 | ring of N slots with read/write index | refinement to a bounded list FIFO, induction over histories |
| C02 | queue level computation | equality with a prefix of the abstract FIFO |
| C03 | job ring, order counter | refinement to list FIFO plus numbering invariant |
| C04 | permeability flag | direct case analysis of the step function over all states |
| C05 | token automaton at lock granularity | invariant over all schedules, trace property |
| C06 | baton automaton | invariant over all schedules, trace property |
| C07 | chunk start/offset/stride arithmetic | existence and uniqueness by Euclidean division |
| C08 | 8-slot array of times | refinement to a multiset of pending items |
| C09 | redundancy version state machine | induction over histories |
| C10 | pool of lockable processes | invariant over all histories |
| C11 | pool of buffers with outer/inner lock and order ids | invariant over all schedules, trace property |
| C12 | ring with overflow tail | invariant over block histories |
| C13 | callback slots and run loop | well-founded run loop, induction over run histories |
| C14 | association list pair | invariant over histories |
| C15 | three maps plus a contact map | invariant over histories using C14 |
| C16-C20, C23-C28 | pack, unpack, validity, size functions | bit-field algebra, round-trip per element |
| C21, C22 | decoder state machine over a byte list | invariant over decoder steps; induction over element lists |
| C29, C30 | `get_packet_sizes` and everything it calls (numerology, transmission modes, MCS, transport block size, codeblock segmentation) with 32-bit wrap-around | closed forms by arithmetic over all lengths; tables swept |
| C48 | radio device classes and `get_maximum_packet_sizes` | monotonicity of the closed forms |
| C49 | `worksub_psdef`, the HARQ process request and the header decoder of the class | composition of C17, C29 and C48 |
| C50 | resampled packet length and transmit buffer length | arithmetic |
| C31 | tables and symbol iteration of DRS, PCC, PDC; the transmitter's loop over the symbols | the components agree with a position specification: symbols 1-40 by kernel evaluation for each of 24 configurations, later ones by a proved period of 20; then disjointness and counting for all lengths |
| C51 | the transmitter's cell writes (`run_pcc`, `run_drs`, `run_pdc`) with its counters and leftover symbols | loop invariant over the symbols |
| C32 | band table, frequency formula | lifted table sweep plus arithmetic |
| C33 | duration arithmetic | Euclidean division |
| C34, C35, C36 | resources, allocation, opportunity search | loop invariant of the search, invariant over additions |
| C37 | block filling loop | induction over queue contents |
| C38, C39 | PLL ring, PPX offset | induction over beacon histories, arithmetic |
| C40 | `vspace_t` registration, write and read, with the TX and RX threads of every radio as programs | invariant over all schedules of all threads; some thread can always move |
| C52 | the TX thread of the simulated radio, spp by spp (`work_tx`) | invariant on the place of the thread relative to the packets; counterexample without the condition on a longer next packet |
| C41 | closed formula mod 2^32 | arithmetic |
| C42 | constructor (subfilters, order of the subfilters, dispatch), history buffers, generic and unrolled loops, final call; abstract dot product | refinement to whole-stream specification; closed form of the order of the subfilters |
| C43 | the firmware thread and the forwarding thread as two interleaving programs over the real queues (C01), int32 counter with its conversions | invariant over all schedules, decreasing measure for completion; counterexample schedules for several connections, empty and oversized datagrams |
| C44 | integer helpers | arithmetic, counterexamples outside the contract |
| C45 | identity construction | bit arithmetic |
| C46 | lock-step barrier of the regular report | invariant over all schedules |
| C53 | the TX thread of the USRP radio (`work_tx`), the driver and the pool as a list of answers | invariant on the place of the thread and the signal on air so far; decreasing measure for completeness |
| C54 | local buffers of the receiver, waiting, symbols and mixer; the schedule is the list of states in which the ring buffer is met | invariant of the loop over units (buffer = heard samples / resampled outputs), composed with C12 and C42 |
| C55 | moving sums over an open arithmetic, detector and peak search on one antenna | register = rotated window, block-wise shift of the weighted sum; Cauchy-Schwarz for the bound |
| C56 | both searches, their requests to the pacer and the loop of `search()`, with arbitrary metrics and surplus | refinement of the loop to a scan over positions; running maximum of a moving sum; bounds on weighted averages |
| C57 | block loop of the encoder, shares, bit-exact scrambling, requests; codec abstract | loop invariant over blocks, induction over requests; scrambling by bit position; float ceiling by bounds |
| C58 | block loop of the decoder, iterations, verdict, saved data, symbol loop, retransmissions; codec abstract | loop invariant over blocks and symbols, idempotence of the verdict, induction over passes; counterexamples for four claims |
| C59 | encoder, checksum masks, iterations of the decoder, blind trial of both types with the PLCF decoder of C17; codec abstract | byte algebra of the masks, induction over iterations and over packets, composition with C17 |
| C60 | states of the firmware, callbacks, transmit opportunities of C34, stop request before any reading of the mode | invariant over all event sequences, ranking by stage, exact failure conditions, witnesses |
| C61 | server thread over the queue model, clock readings and job slots as inputs | refinement to lists per connection, induction over event sequences, witnesses |
| C62 | symbol loop of the receiver over the component tables of C31/C32, symbols tagged with their number | refinement of both loops to a symbol-wise spec by invariants, witnesses for the two failing cases |
| C63 | the measuring program, both firmwares, queue, jobs and packets under way as one transition system | invariant locating the one question, invariants for the statistics and the transmission times over arbitrary runs, witnesses for what fails without the conditions |
| C64 | gain steps on levels in an arbitrary unit, round robin, closed loop with constant signal | arithmetic of the quantiser, loop invariant of the round robin, ranking by distance for settling, witnesses |
| C65 | search, interpolation, rounding, the five tables, one antenna of a USRP with its commands, over the rationals | case analysis of the search, field and linear arithmetic, computed checks of the tables, induction over commands, witnesses |
| C66 | producers and workers as program counters over a FIFO list, a semaphore, a lock and a gate; every schedule of single steps | invariant over schedules relating numbers, list, semaphore and lock holder; forward simulation of each call by a small automaton; counting of in-flight producers; witnesses |
| C67 | MCS table, expiring values, channel state per contact, feedback plan and the shared feedback pool; a device as a function over receptions and transmissions | invariant that relates each contact's stored values to the last matching event of the history; induction over the table; composition of two devices; witness |
| C68 | codebook tables and lookups, the three nested loops of the antenna mapper over samples of an abstract type, bin offsets | invariant of the loops (mask = ones below the antenna); induction over streams; Pythagoras for orthogonal columns, columns checked by evaluation |
| C69 | extraction of four cells per stream onto stages, transposition, search over the codebook, end-of-packet assertions | induction over the loops; invariant of the search (lowest maximiser so far); evaluation for the two codebooks |
| C70 | the receiver's accumulation over antennas, its division, both processing orders of the data field; the transmitter's cell writes of C51 as the input | induction over antennas and cells; Alamouti's identity by `ring` on rationals; sums of squares are not zero; invariant of reception (no soft bit counted) for the negative part |
| C71 | scan and scan_partial with their assertions and 32-bit indices, on the memory of the RX ring buffer of C12 | position arithmetic modulo the buffer length, both branches; induction over antennas and pieces; composed with C12's invariant |
| C72 | set_pdp, pass_through_link with both histories, the three superimpose | history invariant (the last packet of the stream), induction over packets, antennas and taps; refinement to a convolution over the whole signal |
| C73 | one job of the TX/RX worker and run_tx_chscan as a sequence of events, firmware and buffers as parameters | each program's trace characterised once; projections of traces; decomposition at every call for what holds in between |
| C74 | construction of the interpolation tables and their lookup, distance and filter as parameters; cells by subcarrier and symbol | loop invariants over all entries; reference cells by residue class (a table check per bandwidth), stages by parity; witness for the window |
| C75 | state machine, result tables and the three deriving firmwares; random numbers and HARQ pool as inputs | invariant over all histories relating the state to the part of the plan that is left and the counters to the history since the last change of the SNR |
| C76 | append() as seven steps per thread, two locks, double buffer, files as events | invariant over all schedules relating buffers, locks and counters to the history of accepted entries and written files |
| C77 | the three firmwares as state machines over calls and results; clock, HARQ pool and measured values as inputs | closed form of the state as a function of the history; invariants over all histories |
| C78 | the object as two lists of connections; the trace of system calls, with the answers of the operating system as inputs | invariant over all histories relating lists, trace and an abstract list of connections; closed form of the loops of the destructor |
| C79 | counters of a stream over the rational numbers | closed form of the state after k calls; monotonicity of rounding |
| C80 | reports over the rational numbers and minus infinity, with undefined casts as their own outcome; tables | characterisation of the floor function; monotonicity from the ranges; all cases of the tables |
| C81 | accumulator over rational complex numbers | sums over lists of received vectors; invariant over histories relating the accumulator to sums over indices |
| C82 | JSON values, conversions to 32 bits, std::stoi, loop over the entries | round trip for every well-formed file; inversion of every accepted file by induction over the entries |
| C83 | constructor of the upper layers over indices of pools, termination points and tokens | induction over the configurations; characterisation of success in both directions |
| C47 | beacon scheduling of the fixed termination point | induction over callback histories |

## Trusted base

* The Coq 8.16.1 kernel (with `vm_compute`) and, independently, `coqchk`, which `vcheck` runs on the compiled files.
* No axioms. After every property theorem in a `P*.v` file stands `Print Assumptions`, and every one of them prints
  *Closed under the global context*; the theorem names per property are those in `MANIFEST.json`. `coqchk` additionally
  lists seven constants `Coq.ssr.ssrunder.Under_rel.*`: they belong to the standard library's `ssreflect` plugin files,
  which the loaded library files pull in, and no theorem here uses them.
* No admitted proof, no switched-off check, no functor, no module type; `Section` variables are all generalised when the
  section ends.
* The hand-written model: that the definitions say what the cited lines of C++ say. This is not machine-checked. The
  seeded-bug log (`seeded/LOG.jsonl`) shows which theorem notices which change to the model.

## Which code is modelled

| Files of the model | Code |
|---|---|
| `IntHelpers` | `common/adt/miscellaneous.hpp` |
| `Bimap`, `ContactList`, `Callbacks` | `common/adt/bimap.hpp`, `mac/contact_list.hpp`, `common/adt/callbacks.hpp` |
| `DatagramQueue`, `ApplicationClient` | `application/queue/queue.cpp`, `application/application_client.cpp`, the `write_nto`/`write_immediate` of the socket and vnic client |
| `JobQueue`, `Token`, `Sync`, `IrregularQueue` | `phy/pool/{job_queue_naive,token,baton,irregular_queue}.cpp`, the loops of `phy/pool/worker_{sync,tx_rx}.cpp` that use them, `phy/rx/sync/{sync_chunk.cpp,regular_report.hpp}` |
| `HarqPool` | `phy/harq/*`, `common/thread/lockable_outer_inner.cpp` |
| `TxBuffers`, `RxRing` | `radio/{buffer_tx_pool,buffer_rx}.cpp` and their users in `hw_usrp.cpp`, `tx.cpp` |
| `Plcf`, `Feedback`, `MacHeader`, `Mux`, `Identity` | `sections_part4/physical_header_field/*`, `mac_pdu/*`, `mac_architecture/identity.cpp` |
| `ResourceIes` | `resource_allocation_ie.cpp`, `random_access_resource_ie.cpp` (all of both, without logging) |
| `AssociationIes`, `IeLists` | `association_{request,response,release}_message.cpp`, `reconfiguration_{request,response}_message.cpp` (all of them, without logging); `std::set` as the sorted list of its elements |
| `InfoIes`, `CapabilityIes` | `{radio_device_status,mac_security_info,route_info,group_assignment,load_info,measurement_report,rd_capability,neighbouring,broadcast_indication,configuration_request,higher_layer_signalling}*.cpp` (all of them, without logging) |
| `IeBase`, `SmallIes`, `Beacons` | `sections_part4/mac_messages_and_ie/*` (those named in C24, C25, C28) |
| `Decoder`, `Assembly` | `mac_pdu/mac_pdu_decoder.cpp`, PDU assembly of `upper/p2p/procedure/steady_rd.cpp` |
| `PacketSizes`, `PacketUse` | `sections_part3/derivative/packet_sizes.cpp` and all it calls, `radio_device_class.cpp`, packet request of the receiver |
| `Cells`, `TxCells` | `sections_part3/{drs,pcc,pdc,stf}.cpp`, `physical_resources.cpp`, the symbol loop of `phy/tx/tx.cpp` |
| `Resampler` | `phy/resample/resampler.cpp` |
| `Channels`, `Duration` | `sections_part2/channel_arrangement.cpp`, `sections_part3/derivative/duration*.cpp` |
| `Allocation`, `Pll`, `Ppx` | `mac/allocation/*`, `mac/pll/pll.cpp`, `mac/ppx/ppx.cpp` |
| `Graph`, `Vspace` | `simulation/topology/graph.cpp`, `simulation/vspace.cpp` with the thread loops of `radio/hw_simulator.cpp` |
| `SimTx` | `radio/hw_simulator.cpp` `work_tx`, `simulation/vspp/` |
| `UsrpTx` | `radio/hw_usrp.cpp` `work_tx`, `buffer_tx.cpp` as it uses it |
| `RxPacer` | `phy/rx/rx_pacer.cpp`, `phy/rx/localbuffer.cpp`, `phy/rx/rx_synced/rx_synced.cpp` `run_mix_resample`, `phy/mix/mixer.cpp` |
| `MovSum`, `Autocorr` | `phy/rx/sync/movsum.hpp`, `movsum_uw.cpp`, windows of `autocorrelator_detection.cpp` and `autocorrelator_peak.cpp`, cover sequence of `sections_part3/stf.*` |
| `ChunkSearch` | `phy/rx/sync/sync_chunk.cpp` `search()` and chunk start, flow of `autocorrelator_detection.cpp` and `autocorrelator_peak.cpp`, unique limit of `worker_pool.cpp` |
| `TbCodec` | `phy/fec/pdc_enc.cpp` encoding and decoding of code blocks, `phy/fec/fec.cpp`, `sections_part3/fix/scrambling.cpp`, calls from `rx_synced.cpp` `run_pdc()` |
| `PccCodec` | `phy/fec/pcc_enc.cpp`, `phy/fec/fec.cpp` 46-80, `rx_synced.cpp` 1011-1026 |
| `P2p` | `upper/p2p/tfw_p2p_{rd,ft,pt}.cpp`, `upper/p2p/procedure/*.cpp` (life cycle and transmission instants) |
| `ApplicationServer` | `application/application_server.cpp`, `application/application.cpp`, `application/socket/socket_server.cpp`, `application/vnic/{vnic,vnic_server}.cpp` (ingress) |
| `RxSymbols` | `phy/rx/rx_synced/rx_synced.cpp` (order of symbols, estimates and soft bits), `processing_stage.hpp`, `channel_antenna.hpp` |
| `Rtt` | `apps/rtt/rtt.cpp` (one measurement), `upper/rtt/tfw_rtt.cpp` (application and PDC callbacks, packet generation) |
| `Agc` | `phy/agc/{agc,agc_rx,agc_tx,roundrobin}.cpp`, `common/ant.cpp` (maxima), `radio/hw.cpp` (adjustments) |
| `GainLut` | `radio/gain_lut.cpp`, `radio/calibration/*.hpp`, `radio/hw_usrp.cpp` 526-577 (gain and frequency), `radio/hw.cpp` 41-83 |
| `JobQueueMc` | `phy/pool/job_queue_mc.cpp` 38-64 and 87-89 (the default; the moodycamel queue itself is an assumption: FIFO list and semaphore), `phy/pool/job_queue_base.hpp` 68-80 |
| `LinkAdapt` | `phy/indicators/cqi_lut.cpp`, `common/adt/expiring.hpp`, `phy/rx/rx_synced/mimo/mimo_csi.cpp`, `mac/feedback_plan.cpp`, `upper/p2p/procedure/steady_rd.cpp` 297-306, 357-461, `steady_ft.cpp` 293-296, 347-349, `steady_pt.cpp` 205-206, 255-260, 298-300 (float SNR replaced by rationals; HARQ, resource and queue outcomes are inputs) |
| `Beamforming` | `sections_part3/beamforming_and_antenna_port_mapping.cpp` and `.hpp`, `phy/tx/tx.cpp` 729-860, `phy/tx_rx.cpp` 237-239 (float factors 1/sqrt(n) represented by n) |
| `MimoEst` | `phy/rx/rx_synced/mimo/estimator_mimo.cpp` 34-273 (default metric; squared exact amplitudes for float ones), `phy/rx/rx_synced/rx_synced.cpp` 412-431, `sections_part3/drs.cpp` 93-98 |
| `Combining` | `phy/rx/rx_synced/rx_synced.cpp` 951-1009, 1165-1187, 1200-1392 (exact arithmetic for float) |
| `Chscan` | `phy/rx/chscan/chscanner.cpp`, `upper/chscanner/tfw_chscanner.cpp` 74-93 (exact arithmetic for float, square root as a parameter) |
| `Wireless` | `simulation/wireless/link.cpp` 70-133, 194-277, `channel_awgn.cpp`, `channel_flat.cpp`, `channel_doubly.cpp` superimpose (exact arithmetic, sine and cosine as a periodic parameter, path loss as a parameter, no noise) |
| `WorkerJobs` | `phy/pool/worker_tx_rx.cpp` 84-245, 295-354 (events for effects; without JSON export and UPPER_TPOINT_ENABLE_WORK_PCC_ERROR) |
| `ChannelLut` | `phy/rx/rx_synced/channel_estimation/channel_lut.cpp` (without the arithmetic of `wiener.hpp` and the correlation functions), `processing_stage.hpp` 71-96, `rx_synced.cpp` 779-828, 863-949 |
| `Loopback` | `upper/loopback/result.cpp`, `tfw_loopback.cpp`, `tfw_loopback_snr.cpp`, `tfw_loopback_ratio.cpp`, `tfw_loopback_mmie.cpp` (without CFO, logging and the format of the files) |
| `JsonExport` | `common/json/json_export.cpp` (append, write_to_disk without the text format, names of files), `json_export.hpp` (without the conversion of sample vectors) |
| `MeasureFw` | `upper/chscanner/tfw_chscanner.cpp`, `upper/txrxdelay/tfw_txrxdelay.cpp`, `upper/txrxagc/tfw_txrxagc.cpp` (without constant hardware settings, contents of packets and texts) |
| `UdpApp` | `apps/udp.cpp` (without `tx_timed`, byte order and results of `sendto` and `recvfrom`) |
| `Stream` | `apps/stream.cpp` (without `generate_payload`) |
| `Part2` | `sections_part2/radio_device_measurement.cpp`, `operating_bands.cpp`, `transmitter_power.cpp` (without the minimum power, a constant), `channel_bandwidth.cpp` |
| `SnrEst` | `phy/rx/rx_synced/snr/estimator_snr.cpp` (without `pow2db`), `phy/rx/rx_synced/estimator/estimator.cpp` (number of pilots) |
| `UpperCfg` | `upper/upper_config.cpp`, `upper/tpoint_config.hpp`, `common/json/json_parse.cpp` (`read_string`, `read_int`, `read_int_array`, `extract_id`) |
| `Wiring` | `upper/upper.cpp`, `phy/worker_pool.cpp` (93-114), `phy/pool/token.cpp` (check of the constructor) |

**Not modelled:** floating-point signal processing (FFT, synchronisation correlation, channel estimation, MMSE,
soft-demodulation, the rounding of floats in gain control), the codec functions of srsRAN (turbo code, rate matching, checksums: parameters of C57 to C59), the UHD and socket system calls, thread creation
and priorities, wall-clock time, logging, JSON parsing, the command-line programs, the MATLAB/Python tooling. The
weak-memory behaviour of the busy-waiting fast paths is not modelled: threads interleave at the granularity of the
locks.

## Behaviour of the code worth knowing

Each of these is proved (as part of an exact characterisation or as a theorem ending in `_refuted`) about the model.

* **Queues and threads.** An impermeable job queue reports success while it drops the job. Per-slot statistics of the job
  queue are off by one. A datagram queue of one slot accepts nothing; an empty datagram can be queued but not told from an
  empty queue. Ties in the irregular queue do not leave in the order they came. The first packet found at the end of a
  chunk can fail the continuity assertion of the synchronisation workers. Two pools sharing one firmware can abort at
  start-up. `wait_until_nto` blocks when the target is the present time. A receive block at a time jump is misplaced.
* **Application client.** With several connections a datagram can be forwarded before it is announced; the indicator
  becomes negative and the forwarding thread aborts. An empty datagram in front of a counted one aborts it as well, and a
  datagram longer than the queue's entries aborts the firmware.
* **Simulated radio.** When a packet ends in the middle of a block and a longer packet that starts in a later block is
  already waiting, the TX thread transmits the tail of that packet at once and drops the rest.
* **HARQ.** The eighth increase of the redundancy version aborts. A running request races with the termination of its process.
* **Containers.** A callback that runs before another one is added is followed by a null iterator. `rm_callback`,
  `get_v_as_opt` and `get_k_as_opt` do not compile when instantiated. `set_v` with the same value aborts.
* **Headers.** The feedback buffer status is decoded to the lower bound of its level. The header decoder aborts when it is
  used twice without `set_configuration`. Three, five, six and seven spatial streams are coded as one. A network ID with a
  zero low byte yields an invalid short network ID. The beacon header loses the lowest byte of the network ID. The Escape
  header type can be packed but not decoded. Padding with a 16-bit length is not recognised.
* **Decoder and assembly.** Decoding again after the end aborts. A transport block that is too short leaves the common
  header pointer set. Resource allocations in beacons are not activated in receivers. A datagram that fills the transport
  block exactly, or is larger, blocks the head of the queue for ever. More than eight data items in one packet are dropped
  by the receiver. Network beacon channels that were not set in order arrive moved up.
* **Resource elements.** A resource allocation for one direction, or one that is not repeated, throws when it is sent and,
  worse, when it is received; one with a field out of range aborts the receiver. A random access resource with an SFN
  offset or a channel aborts the sender, because the masked bits are added to the size without a shift.
* **Association.** `~byte >> 7` is never zero, so every association response is read as a rejection, and an acceptance can
  only be sent if it carries exactly one flow and nothing else; the peer reads it as a rejection with the flow as the
  rejection time. A request with a network beacon period other than the first aborts the receiver (masked, not shifted),
  as does a request with a flow listed twice, with no flows or with a reserved value. A reconfiguration message without
  both HARQ configurations throws at the sender and at the receiver.
* **Other elements.** The header of the group assignment has no extension and cannot be packed. A load info with the load
  of PTs or of the random access channel and a measurement report with a transmission count abort the sender, because the
  peeked size is too large. A neighbouring element is never sent: it aborts with a channel and throws without one or
  without a class; it is understood only with the first network beacon period. The feedback type of a random access
  response is masked but not shifted: channel quality is read as MIMO feedback of two antennas or aborts the receiver, MIMO
  feedback always aborts it. For a reserved indication type the number of bytes peeked is 0xFFFFFFFF.
* **USRP transmissions.** The number of leading zeros the driver takes is ignored: if it takes fewer, the packet is sent
  too early. The leading zeros of a packet that directly follows another one, but is handed over too late for the same
  burst, start before the last burst ended. The gap between two packets is computed in 32 bits: a packet 2^32 samples
  after the last one is sent immediately after it.
* **Late receivers.** A receiver that is late by more than the ring buffer silently gets later samples. The check against
  this (`assert_time_lag`) is inverted: it applies during the first 2.5 s after the start only, when it was to be skipped,
  and accepts any lag afterwards. A start time before 0 reads outside of the ring buffer.
* **Front and back of the detection window.** `movsum_t::get_sum_front(n)` adds the oldest value and the n-1 newest ones,
  `get_sum_back(n)` starts at the second oldest. The detection condition that compares the two (meant to wait until a strong
  packet has left the window) therefore passes while the strong packet is still in the oldest step. The coarse metric is
  commented as normalized to 0..1; it can exceed 1 (but never 1.5 without rounding).
* **Time announced to irregular jobs.** `sync_chunk_t::search()` calls the callback for irregular jobs with the number of samples
  consumed and the callee takes it as "no more packets earlier than this". A packet detected later begins at least 17/16 of a
  pattern and up to an STF and 15/16 of a pattern before its detection, so packets earlier than the announced time do follow. The
  count is also one of resampled samples, added to a time in hardware samples (harmless: it is then too early).
* **Minimum distance of a peak.** The second requirement of `post_processing_validity()` (peak not earlier than 0.3 STFs before
  the detection) never rejects a peak, since the peak search starts one pattern before the detection.
* **Lost soft bits.** The encoder gives the larger share to blocks from index C - gamma on (`pdc_enc.cpp` 171), the decoder only from
  C - gamma + 1 on (329, `>` instead of `>=`). Whenever the shares differ, the last cell of block C - gamma is received and never
  used (`C58_lost_cell`). All other ranges agree, so packets still decode (`C58_roundtrip`).
* **Overrun of the transport block buffer.** The receive buffer has exactly the size of the largest transport block
  (`buffer_rx.cpp` 40), but the turbo decoder writes the last block with its checksums, 3 or 6 byte more (`C58_buffer_refuted`).
  Only packets of (nearly) maximum size are affected.
* **`fec_t::decode_tb()` without a number of bits** passes UINT32_MAX and always fails its own assertion (`C58_all_refuted`).
* **Stale data after success.** Decoded data are saved in the soft buffer only when the transport block fails. If a HARQ process is
  kept running after success (`finalize_rx_t::keep_running`), the next packet of one block is accepted unseen with the data
  saved earlier, or zeros (`C58_stale_refuted`).
* **8 bit soft bits** (not the default): the decoder descrambles at `&e_bits[rp]` of an `int16_t*`, twice the offset (read only).
* **Unaligned access.** The checksum of a type 1 header is read and written through a `uint16_t*` at byte 5 of its buffer
  (`pcc_enc.cpp` 182, 320): undefined behaviour in C++, harmless on x86 (read only).
* **Flags of an earlier packet.** `closed_loop` and `beamforming` of a type keep their values when a packet has no header of this type
  (`C59_flags_stale_refuted`); nothing in the repository reads them on the receive side.
* **Data before the first beacon.** An FT that gets application data between entering its steady state and its first beacon (1 to 2 s) adds a
  beacon period to the largest int64 value (`steady_ft.cpp` 452-481, `allocation_ft.cpp` 27-34): undefined behaviour (`C60_data_before_beacon`).
* **A beacon callback that is on time aborts.** The FT asserts that the recognition time is strictly after the requested time
  (`steady_ft.cpp` 109-143), while the queue also delivers at equality (`C60_never_fails_refuted`).
* **A lost callback is never made up for.** `worker_sync` ignores whether an irregular job could be queued; without
  PHY_POOL_JOB_QUEUE_JOB_SLOT_UNAVAILABILITY_FATAL_OR_DISCARD one lost callback stops all beacons and a later stop request blocks for ever (`C60_lost_callback`).
* **Announcements lost to the protection time.** `application_server.cpp` 38-39 says jobs may be created immediately but resets the watch, so a
  datagram within the protection time of the start is accepted and never announced (`C61_announced_refuted`). The watch is also reset when the job
  queue refused the job (`C61_dropped_job_refuted`). No firmware in the repository sets a protection time.
* **Short queues.** The constructor accepts queues for datagrams shorter than the receive buffer of 1600 bytes; a longer datagram then ends the program
  (`queue.cpp` 139-153, `C61_small_queue_refuted`). All firmwares in the repository configure 1600 bytes. Longer datagrams are cut to 1600 bytes.
* **Eight streams, interpolated estimates.** A stage with eight streams has two more symbols than its step (`rx_synced.cpp` 1028-1034), so the next stage starts to
  collect one symbol later than `rx_synced.cpp` 1053-1061 assumes, and all its data cells are read from the symbol after the one they were sent in
  (`C62_eight_streams_refuted`; packets with more than 21 symbols after the synchronization field).
* **Control field up to the last symbol.** `rx_synced.cpp` 387 asserts that a symbol is left after the control field. The standard and the sender allow packets
  without (`C62_short_packet_refuted`: u = 2, b = 2, one subslot, 98 data cells); with assertions the receiver aborts on any such packet.
* **Round-trip time, late answers.** The program does not drop answers that arrive after its timeout and only warns about a wrong content (`rtt.cpp` 99-117), so after one late answer every
  measurement reports the time of the question before (`C63_late_answer_refuted`). A dropped job or an unavailable HARQ process leaves a datagram in the queue with the same effect
  (`C63_lost_job_refuted`), and the unsent packet counts as sent (`tfw_rtt.cpp` 216, `C63_count_refuted`).
* **Round-trip time, large packets.** The size of a received packet follows from its header. More than 2000 bytes overflow `stage_a` at the PT (`tfw_rtt.cpp` 325) and are read past its end at the FT (318);
  the identities a sender needs are constants (`C63_big_packet_refuted`, `C63_big_packet_exists`). `work_pdc_error` treats packets with a failed checksum like others (163-165).
* **Round-trip time, padding and long questions.** A question shorter than a packet is followed by the former content of the HARQ buffer (`C63_padding_refuted`); a longer one aborts the FT (`C63_long_datagram_refuted`).
* **Gain control.** With a smallest step equal to the unit, which the constructor accepts, a setting half a unit off is changed by every packet for ever (`C64_half_step_refuted`). With a sensitivity
  offset inside the dead band, also accepted, a receiver with one antenna can never become more sensitive (`C64_offset_refuted`). In collective mode, settings further apart than the offset make every
  packet reduce the sensitivity of all antennas, whatever the signal (`agc_rx.cpp` 97-113, `C64_collective_refuted`). Without any valid RMS the transmit power is raised by the largest step
  (`agc_tx.cpp` 46-67, `C64_tx_blind_refuted`).
* **Gain tables.** The power reported for a receiver is corrected with the wrong sign: it is off by twice the rounding of the gain, up to 1 dB (`gain_lut.cpp` 70, `C65_receiver_refuted`). A USRP ignores
  a change smaller than a step after rounding, so a B210 at 1 GHz and 6 dBm never follows requests for 1 dB more (`hw_usrp.cpp` 549-553, `C65_adjust_refuted`), and it compares with the power reported at
  another frequency: an N310 tuned to 4 GHz and set to -32 dBm keeps a gain 10 dB too low (`C65_retune_refuted`). Three tables are not strictly ascending, against `gain_lut.hpp` 56
  (`C65_ascending_refuted`); on the N320 a hundredth of a dB then means 8 dB of gain (`C65_jump_refuted`).
* **Job queue.** The gate is checked before the lock is taken, so a job can still enter after `set_impermeable` has returned (`job_queue_mc.cpp` 39-48, `C66_gate_refuted`); at most as many as there
  are calls past the check (`C66_gate`).
* **Codebook index from feedback.** With `TFW_P2P_MIMO` the codebook index of a received format 5 feedback (0 to 63) is used for the next packet without a limit, although `W_t::clamp_W` exists; an index above
  the largest one of the table makes `tx.cpp` 573-575 abort, so two octets of a peer stop the program (`C67_codebook_refuted`). The switch is off by default (`rd.hpp` 57).
* **Beamforming products are never shared.** The inner loop of `tx.cpp` 817-852 is meant to reuse a product for all antennas with the same weight, but line 820 tests the bit of the outer antenna, which is set as soon as the
  first antenna is served; the result is right but each product is computed anew (`C68_products`).
* **Eight streams or eight antennas stop the receiver.** At the end of a packet of eight streams either `rx_synced.cpp` 424 or `estimator_mimo.cpp` 82 fails its assertion (`C69_eight_streams_refuted`). A receiver with eight
  antennas throws `std::out_of_range` after every correctly received packet, because `get_W(1, 8)` is the table for one antenna (`C69_eight_antennas_refuted`).
* **Spatial multiplexing is not received.** `run_pdc_mode_AxA_MIMO` is empty, so after any packet of modes 2, 4, 6, 8, 9 or 11 the count of soft bits is wrong and the assertion at `rx_synced.cpp` 404-406 stops the receiver (`C70_multiplexing_refuted`).
* **Channel measurements end one sample too late, and their average is a sum.** `chscanner.cpp` 39 allows an end time equal to the published clock, which is the number of the next sample; the firmware chscanner uses that and so measures the oldest buffered sample in place of the newest (`C71_up_to_now_refuted`). `rms_avg` is never divided by the number of pieces (`C71_average_refuted`). `A < B` at line 100 takes a piece of one sample for a wrap (`C71_single_sample_refuted`), and a start before time zero passes every assertion and reads out of bounds (`C71_early_refuted`).
* **The simulated channel is not reciprocal between antennas, and leakage reaches every receive path.** `channel_flat.cpp` and `channel_doubly.cpp` index a pair of antennas by `tx_idx * nof_rx + rx_idx`, so with several antennas at both devices the pair (0, 1) uses another coefficient or link in the other direction, although `link.hpp` 52 assumes reciprocity (`C72_reciprocity_refuted`). `vspace.cpp` 481-487 says that a TX antenna leaks only into the corresponding RX path, but the call adds every TX antenna to every RX path (`C72_leakage_refuted`).
* **Packets for another hardware end the process.** `worker_tx_rx.cpp` 316 looks up `tx_descriptor.hw_id_associated` (always -1) in place of `hw_id`, so `at()` throws for every such packet (`C73_other_hw_refuted`). In a build without assertions a missing TX buffer skips the packet without finalising its HARQ process (`C73_no_buffer_refuted`). A measurement requested from `work_channel` is dropped (`C73_nested_scan_refuted`).
* **No packet of eight streams is received.** Without both-sided estimation the tables have one row per stream (`channel_lut.cpp` 51, 174), but the reference cells of streams 4 to 7 are in the second symbol of a stage and the row of that symbol is asked for (`rx_synced.cpp` 898): the assertion in `processing_stage.hpp` 72 fails in symbol 2 of every such packet, without assertions it is read beyond the end (`C74_eight_streams_refuted`).
* **The window of cells is not always the nearest.** `channel_lut.cpp` 425 stops at the first window that is a tenth farther away, but the distances are not unimodal: with three cells of two symbols ten apart, subcarrier 5 of the first symbol (`C74_nearest_refuted`).
* **Error rates of -1.** The power ratio firmware sends two packets per experiment, counts the control headers of both (`tfw_loopback_ratio.cpp` 54) and divides by the number of experiments (`result.cpp` 81): without any loss the rate is -1 (`C75_ratio_refuted`).
* **Packets never sent count as lost.** Without a free HARQ process `tfw_loopback.cpp` 298-301 sends nothing, but the experiment is counted (`C75_unsent_refuted`).
* **A packet decoded after the last combination ends the program.** The parameter counter is then beyond the result tables and `at()` throws (`result.cpp` 69, `C75_late_refuted`).
* **A slow disk kills the receiver.** If a JSON fills up while the other is still being written, `json_export.cpp` 65 means to clear the current JSON but uses the index `json_arr_write_disk`, which is -1 there: `at()` throws in the worker thread while it holds `lockv_json`, and every other thread that appends waits forever (`C76_discard_refuted`, `C76_thrown`).
* **The last packets are never exported.** Entries after the last full file stay in memory; nothing writes them when the program stops (`C76_tail_refuted`).
* **Gains drift in front timing.** If the front packet finds no HARQ process, `tfw_txrxagc.cpp` 349-352 sends nothing and the change attached to it is lost, but the measurement is counted and the opposite change is made next time (`C77_drift_refuted`).
* **Back packets in the past.** The time of the back packet follows from the front packet only (`tfw_txrxagc.cpp` 310-312), so a late call asks for a transmission in the past (`C77_back_late_refuted`).
* **Front packets overtake back packets.** `tfw_txrxagc.cpp` 129-130 takes the earliest possible time and ignores `tx_earliest_64`, unlike the other firmwares, so after late calls a packet with a higher number is to be sent before the one with the lower (`C77_overlap_refuted`).
* **Leaked sockets.** The loops of `~udp_t` (`apps/udp.cpp` 30-36) count up to the size of a vector that shrinks, so half of the connections of each kind stay open (`C78_destructor`, `C78_leak_refuted`).
* **Timeouts of a second or more.** `apps/udp.cpp` 68-73 puts the whole timeout into `tv_usec`; the kernel refuses values of 1000000 or more and the program aborts (`C78_add_rx`).
* **Accepted streams that abort.** `apps/stream.cpp` 41 requires the last repetition before the end of the second, but the time is rounded after that, so an offset within half a microsecond of the end fails the assertion at line 57 (`C79_late_refuted`).
* **No distance between seconds.** Nothing keeps the last datagram of a second away from the first of the next; they may be one microsecond apart (`C79_seam_refuted`).
* **A stream cannot be restarted.** `set_start_full_sec` (`apps/stream.cpp` 46-49) does not set the repetition counter back (`C79_restart_refuted`).
* **Bandwidths a thousand times too large.** `channel_bandwidth.cpp` 55-57 multiplies values in kHz by 1e6, so `get_maximum_output_power` accepts none of them (`C80_bandwidth_refuted`).
* **No signal has no report.** For a level of minus infinity `radio_device_measurement.cpp` 36 casts infinity to an integer, which is undefined (`C80_silence_refuted`); far below all real levels the sum wraps and the strongest report is returned (`C80_wrap_refuted`).
* **Perfect channels look bad.** Without noise `estimator_snr.cpp` 85-87 returns 0 dB, as for a channel with as much noise as signal (`C81_flat`).
* **NaN as ratio.** Noise is not limited by the received energy; a channel that changes sign from pilot to pilot gives a negative ratio and the logarithm at line 93 is NaN (`C81_decibels_refuted`).
* **Integers are cut before they are checked.** `json_parse.cpp` 63 converts to `int32_t` before the bounds of line 74, so a firmware id of 4294967297 is accepted as 1 (`C82_range_refuted`).
* **Only the first entry of an array is checked.** `json_parse.cpp` 95; later booleans and fractions are converted silently (`C82_array_refuted`).
* **Keys with rubbish.** `extract_id` uses `std::stoi`, which ignores what follows the number: `TPOINT +0.5` is accepted as 0 (`C82_key_refuted`).
* **Names match by their beginning.** `upper.cpp` 40: a firmware name such as `rtt_old` starts `rtt` (`C83_name_refuted`).
* **Five pairs are refused.** `init_one_to_one` creates each token for all pools (`upper.cpp` 178), which is limited to four, although each token serves one pool (`C83_five_refuted`).
* **Packets and classes.** A received header with an impossible configuration (one subslot, MCS 0) aborts the receiver. A
  header that announces two streams from four antennas is received as four streams. A class with four antennas and a
  packet length of one subslot aborts. Classes with MCS 10 or 11 abort in the transmitter's constructor. Closed-loop modes
  abort when the class has fewer antennas than the mode needs.
* **Resampler.** The constructor accepts exactly odd filters with `M <= 2L` and `(delay mod L) < M`. A final call without
  samples returns more than announced.
* **Arithmetic and timing.** `multiple_leq` is wrong for negative non-multiples. `ceil_divide_integer` wraps to 0 near the
  upper end. A 64-bit mask of 32 bits sets all bits. An unknown band number is taken for band 19. Edge indices wrap beyond
  65536 vertices. The PLL measures over 4 s, not the documented 5 s. The PPX offset aborts exactly half-way between two
  edges. An opportunity can be missed when resources were not added in order and can last past its validity limit.
  Resources of uplink and downlink of one portable are not checked against each other. `set_beacon_time_next` overflows
  when called before scheduling.
