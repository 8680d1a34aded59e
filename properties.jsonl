{"id": "C01", "title": "Downlink send window never overruns", "statement": "A downlink TBF never has more than its window size of RLC blocks outstanding: as long as new blocks are only sent when the window does not report itself stalled, the distance between the oldest unacknowledged block and the next new block stays at most the window size, and 'stalled' and 'empty' report exactly the full and the empty window, across block-number wrap-around.", "quantifier": "every window size 64..1024 and sequence space 128/2048 the code accepts, every history of sends, ack bitmaps, resend markings and window moves", "why_tests_cant": "Overrun needs a particular interleaving of sends and partial acknowledgements around the modulo-128/2048 wrap; tests walk one or two wraps.", "anchors": ["src/rlc_window_dl.h:gprs_rlc_dl_window", "src/rlc_window_dl.cpp:move_window", "src/rlc_window.h:gprs_rlc_window"]}
{"id": "C02", "title": "Downlink window only passes acknowledged blocks", "statement": "The downlink window moves its lower edge past a block only if the mobile acknowledged that very block after it was last sent: no block is silently dropped from retransmission, and after a move the new lower edge is either unacknowledged or the window is empty.", "quantifier": "every reachable window state and every sequence of acknowledgement reports", "why_tests_cant": "A skipped block corrupts an LLC frame only for a specific loss pattern; the number of loss patterns is 2^window.", "anchors": ["src/rlc_window_dl.cpp:move_window", "src/rlc_window_dl.cpp:update", "src/tbf_dl.cpp:rcvd_dl_ack"]}
{"id": "C03", "title": "Retransmission picks the oldest block that needs it", "statement": "Asking the downlink window for a block to resend returns the oldest block that is negatively acknowledged or marked for resend, and 'none' exactly when no outstanding block needs resending; marking for resend turns exactly the unacknowledged blocks into resend blocks and returns their count.", "quantifier": "every window state, every block number origin", "why_tests_cant": "Depends on every assignment of five states to up to 1024 blocks and on wrap-around.", "anchors": ["src/rlc_window_dl.cpp:resend_needed", "src/rlc_window_dl.cpp:mark_for_resend", "src/rlc_window_dl.cpp:count_unacked"]}
{"id": "C04", "title": "Ack/Nack report has exactly its documented effect", "statement": "Processing a received-block bitmap sets each outstanding block covered by the bitmap to acknowledged or negatively acknowledged according to its bit, changes no other outstanding block, and reports as received/lost exactly the newly acknowledged and the negatively acknowledged blocks.", "quantifier": "every window state, every SSN and every bitmap content", "why_tests_cant": "The bitmap is attacker/mobile controlled: 2^64 (GPRS) or 2^1024 (EGPRS) values times every window position.", "anchors": ["src/rlc_window_dl.cpp:update", "src/tbf_dl.cpp:rcvd_dl_ack", "src/decoding.cpp:decode_egprs_acknack_bits", "src/decoding.cpp:decode_gprs_acknack_bits"]}
{"id": "C05", "title": "Uplink blocks are delivered once and in order", "statement": "Whatever order blocks arrive in, with any duplicates and losses, the uplink window releases block numbers in strictly consecutive modular order, each one only after it has been received, so every block is delivered upwards exactly once and in order.", "quantifier": "every arrival sequence of block numbers (including out-of-window and duplicate ones), every accepted window size and sequence space, any number of wrap-arounds", "why_tests_cant": "Arrival orders are unbounded; errors only show for particular gap patterns at the wrap.", "anchors": ["src/rlc_window_ul.cpp:receive_bsn", "src/rlc_window_ul.cpp:raise_v_q", "src/rlc_window_ul.cpp:raise_v_r", "src/tbf_ul.cpp:rcv_data_block_acknowledged"]}
{"id": "C06", "title": "Every accepted uplink block can be acknowledged", "statement": "When a block that lies inside the receive window is stored, it becomes visible as received: the next acknowledgement sent to the mobile covers it, so the mobile never has to retransmit a block for ever.", "quantifier": "every reachable receive-window state and every in-window block number", "why_tests_cant": "The failure needs the first received block to be exactly at the far edge of the window, or the maximum window size with eight timeslots.", "anchors": ["src/rlc_window_ul.cpp:raise_v_r", "src/rlc_window_ul.h:is_in_window", "src/rlc_window_ul.h:is_received"]}
{"id": "C07", "title": "Uplink received-block bitmap tells the truth", "statement": "The received-block bitmap in a Packet Uplink Ack/Nack has a 1 for a block if and only if that block number, counted back from the starting sequence number, has been received.", "quantifier": "every history of received blocks, every bit of the bitmap, GPRS and EGPRS windows", "why_tests_cant": "A wrong bit makes the mobile discard a block that the network never got; which bit is wrong depends on the whole history.", "anchors": ["src/rlc_window_ul.cpp:update_rbb", "src/rlc_window_ul.cpp:update_egprs_rbb", "src/encoding.cpp:write_packet_ack_nack_desc_gprs", "src/encoding.cpp:write_packet_ack_nack_desc_egprs"]}
{"id": "C08", "title": "Coding-and-puncturing field round trip", "statement": "Encoding the coding and puncturing scheme indicator of an EGPRS header and decoding it again yields the same MCS and puncturing schemes, for every MCS, every header type and every puncturing value that MCS has.", "quantifier": "all MCS, all valid puncturing scheme pairs, padding / no padding", "why_tests_cant": "The table has one entry per MCS, padding and puncturing pair; only a handful are ever exercised.", "anchors": ["src/rlc.cpp:gprs_rlc_mcs_cps", "src/rlc.cpp:gprs_rlc_mcs_cps_decode", "src/rlc.cpp:gprs_get_punct_scheme"]}
{"id": "C09", "title": "Puncturing schemes cycle through all variants", "statement": "Successive (re)transmissions of a block with a given MCS use a puncturing scheme valid for that MCS and go through all of that MCS's schemes before repeating one, as incremental redundancy requires.", "quantifier": "every MCS, every number of retransmissions", "why_tests_cant": "Needs every MCS times an unbounded retransmission count.", "anchors": ["src/rlc.cpp:gprs_get_punct_scheme", "src/rlc.cpp:gprs_update_punct_scheme"]}
{"id": "C10", "title": "Coding scheme tables are consistent", "statement": "The coding-scheme tables agree with each other: the uplink block size identifies exactly one coding scheme, header type, number of data blocks, family and payload sizes are mutually consistent, and every data block of every scheme fits into its radio block and into the RLC buffer.", "quantifier": "all coding schemes and all block lengths 0..2^32", "why_tests_cant": "A single transposed table entry is used only for one CS and one direction.", "anchors": ["src/coding_scheme.c:mcs_get_by_size_ul", "src/coding_scheme.c:mcs_size_ul", "src/coding_scheme.c:num_data_blocks", "src/coding_scheme.c:mcs_max_data_block_bytes"]}
{"id": "C11", "title": "Coding scheme stepping stays in its mode", "statement": "Increasing or decreasing a coding scheme never leaves its mode (GPRS stays GPRS, EGPRS stays EGPRS, GMSK-only mode stays GMSK), moves by at most one step and never goes outside the first/last scheme of the mode.", "quantifier": "all coding schemes and all modes", "why_tests_cant": "Mode changes and link adaptation interleave; leaving the mode sends blocks the mobile cannot decode.", "anchors": ["src/coding_scheme.c:mcs_inc_kind", "src/coding_scheme.c:mcs_dec_kind", "src/coding_scheme.c:mcs_is_compat_kind"]}
{"id": "C12", "title": "Retransmission MCS can carry the original block", "statement": "The MCS selected to retransmit an EGPRS block belongs to the same family as the MCS it was first sent with, does not exceed what the current link adaptation demands unless nothing in the family is lower, and has the same payload size or exactly half of it (resegmentation).", "quantifier": "all initial MCS, all commanded MCS, ARQ type I and II, with and without GMSK restriction", "why_tests_cant": "It is a three-dimensional table; wrong entries truncate user data only for rare rate changes.", "anchors": ["src/coding_scheme.c:get_retx_mcs", "src/rlc.h:egprs_mcs_retx_tbl", "src/tbf_dl.cpp:take_next_bsn"]}
{"id": "C13", "title": "Frame-number arithmetic follows the TDMA raster", "statement": "Stepping a frame number to the next block always yields a valid block start in the 52-multiframe, never skips a block except the idle/PTCCH frames, is periodic over the hyperframe, and the block number of a frame is always 0..11 (or the documented idle value).", "quantifier": "every frame number of the hyperframe (0..2715647)", "why_tests_cant": "Errors appear at frame 2715647->0 or at the idle frames, i.e. once in 3.5 hours.", "anchors": ["src/pcu_utils.h:next_fn", "src/pcu_utils.h:fn2bn", "src/pcu_utils.h:fn_next_block", "src/pcu_utils.h:rts_next_fn"]}
{"id": "C14", "title": "Relative frame number is expanded to the right full frame number", "statement": "When the BTS reports a relative frame number (modulo 42432) of an access burst, the reconstructed full frame number is congruent to it, lies in the hyperframe, and is the recent one: it equals the true frame number whenever the burst is at most the documented age before, or not ahead of, the current frame.", "quantifier": "every current frame number, every true frame number within the tolerated age, across RFN and hyperframe wrap", "why_tests_cant": "The wrap happens once per 3.5 h and the race once per 195 s; both must coincide.", "anchors": ["src/bts.cpp:bts_rfn_to_fn", "src/pcu_utils.h:fn2rfn"]}
{"id": "C15", "title": "No two uplink reservations share a block", "statement": "On one PDCH no uplink radio block is ever reserved twice: a reservation for a frame that is already taken is refused and leaves the table unchanged, an accepted one is found by lookup until it is released or expires, and releasing a reservation or a TBF removes exactly its own entries.", "quantifier": "every history of reserve, release, TBF release and expiry operations", "why_tests_cant": "Double booking makes two mobiles transmit in the same slot; it needs a specific interleaving of polls, USFs and SBAs.", "anchors": ["src/pdch_ul_controller.c:pdch_ulc_reserve_tbf_poll", "src/pdch_ul_controller.c:pdch_ulc_get_node", "src/pdch_ul_controller.c:pdch_ulc_release_fn", "src/pdch_ul_controller.c:pdch_ulc_release_tbf"]}
{"id": "C16", "title": "Polling frame matches what the mobile computes", "statement": "Whenever a polling opportunity is granted, the frame number reserved is exactly the one the mobile derives from the transmitted RRBP value, it is a valid block start and it was free; if it is refused, all four RRBP candidates were occupied.", "quantifier": "every frame number and every reservation table", "why_tests_cant": "Needs every frame position in the multiframe (idle frames shift the offsets) times every occupancy.", "anchors": ["src/pdch_ul_controller.c:pdch_ulc_get_next_free_rrbp_fn", "src/pdch_ul_controller.c:rrbp_list"]}
{"id": "C17", "title": "Expired reservations are reported once and completely", "statement": "Expiring reservations up to a frame removes exactly the reservations older than that frame, in order, and reports each of them exactly once to its owner; later reservations are untouched, across the hyperframe wrap.", "quantifier": "every reservation table and every current frame number", "why_tests_cant": "Requires all orders of expiry relative to the wrap of the 22-bit frame counter.", "anchors": ["src/pdch_ul_controller.c:pdch_ulc_expire_fn", "src/pdch_ul_controller.c:pdch_ulc_get_next_free_fn"]}
{"id": "C18", "title": "LLC queue is FIFO within strict priority", "statement": "The downlink LLC queue always returns a frame of the highest non-empty priority and, within a priority, frames in the order they were queued; nothing is lost, duplicated or reordered by any sequence of enqueue, dequeue, put-back, merge and clear.", "quantifier": "every sequence of queue operations and every SAPI", "why_tests_cant": "Order violations need particular interleavings over three lists and merges.", "anchors": ["src/llc.c:llc_queue_enqueue", "src/llc.c:llc_queue_dequeue", "src/llc.c:llc_queue_merge_prepend", "src/llc.c:llc_queue_clear"]}
{"id": "C19", "title": "LLC queue accounting is exact", "statement": "The queue's reported frame and octet counts always equal the number of queued frames and the sum of their lengths, including after drops, merges and clears.", "quantifier": "every sequence of queue operations", "why_tests_cant": "Counter drift accumulates over long histories.", "anchors": ["src/llc.c:llc_queue_size", "src/llc.c:llc_queue_octets", "src/llc.c:llc_queue_dequeue"]}
{"id": "C20", "title": "LLC frame lifetime is honoured", "statement": "A frame whose lifetime has not expired is never discarded for age, a frame with infinite lifetime never is, and an expired frame is never handed to the radio interface.", "quantifier": "every arrival time, lifetime (0..0xffff) and dequeue time", "why_tests_cant": "Depends on arbitrary clock readings and lifetimes.", "anchors": ["src/llc.c:llc_queue_calc_pdu_lifetime", "src/llc.c:llc_queue_is_frame_expired", "src/llc.c:llc_queue_dequeue"]}
{"id": "C21", "title": "CoDel drops only under persistent queueing", "statement": "The active queue management never drops a frame that waited less than the target, never drops when the queue holds at most one maximum-size packet, and never starts dropping before the delay has stayed above the target for a whole interval; drops come no more often than the control law allows.", "quantifier": "every sequence of (time, sojourn time, backlog) observations", "why_tests_cant": "The controller is history dependent with unbounded time series.", "anchors": ["src/gprs_codel.c:gprs_codel_control", "src/gprs_codel.c:gprs_codel_init"]}
{"id": "C22", "title": "Downlink segmentation loses nothing", "statement": "Cutting LLC frames into RLC data blocks and reassembling them with the length-indicator rules of the standard returns exactly the original sequence of LLC frames, for any frame lengths and any sequence of coding schemes.", "quantifier": "every list of LLC frames and every block size sequence, GPRS and EGPRS", "why_tests_cant": "Boundary cases (frame ends exactly at the block end) combine with multi-frame blocks without bound.", "anchors": ["src/encoding.cpp:rlc_data_to_dl_append_gprs", "src/encoding.cpp:rlc_data_to_dl_append_egprs", "src/encoding.cpp:rlc_data_to_dl_append_egprs_li_padding", "src/tbf_dl.cpp:create_new_bsn", "src/llc.h:llc_consume_data"]}
{"id": "C23", "title": "Uplink block parsing never leaves the block", "statement": "Parsing the length indicators of any received uplink data block yields chunks that are disjoint, in order and inside the block, or an error; no octet outside the received block is read.", "quantifier": "every block content, every block length, every coding scheme", "why_tests_cant": "The input is arbitrary radio data; 2^(8*n) contents.", "anchors": ["src/decoding.cpp:rlc_data_from_ul_data", "src/decoding.cpp:parse_extensions_gprs", "src/decoding.cpp:parse_extensions_egprs"]}
{"id": "C24", "title": "Uplink LLC reassembly buffer is bounded", "statement": "Reassembling LLC frames from uplink chunks never writes past the LLC frame buffer, whatever sequence of chunks the mobile sends.", "quantifier": "every sequence of uplink data blocks", "why_tests_cant": "Needs a mobile that never terminates an LLC frame.", "anchors": ["src/tbf_ul.cpp:assemble_forward_llc", "src/llc.c:llc_append_frame"]}
{"id": "C25", "title": "Unaligned block copy round trip", "statement": "Copying an EGPRS RLC data block between its bit-shifted position in the radio block and an octet-aligned buffer is lossless in both directions, and writing one block changes no bit outside that block's field.", "quantifier": "every block content, every bit offset, every length", "why_tests_cant": "Content and neighbouring bits are arbitrary.", "anchors": ["src/encoding.cpp:rlc_copy_from_aligned_buffer", "src/decoding.cpp:rlc_copy_to_aligned_buffer"]}
{"id": "C26", "title": "Split-block reassembly is complete and bounded", "statement": "When a block is retransmitted in two halves, the reassembled block equals the two halves joined in order regardless of which half arrives first, it is delivered once, and never exceeds the block buffer.", "quantifier": "every arrival order, repetition and length of the segments", "why_tests_cant": "Arrival order, duplicates and mismatching segment sizes multiply.", "anchors": ["src/tbf_ul.cpp:handle_egprs_ul_spb", "src/tbf_ul.cpp:handle_egprs_ul_first_seg", "src/tbf_ul.cpp:handle_egprs_ul_second_seg"]}
{"id": "C27", "title": "Compressed bitmap coding is lossless", "statement": "The T.4 run-length code used for compressed received-block bitmaps is prefix-free and complete for runs up to 1023, and decompressing a compressed bitmap yields the original bitmap bit for bit.", "quantifier": "every bitmap of any length up to the window size, both starting colours", "why_tests_cant": "2^1024 bitmaps.", "anchors": ["src/egprs_rlc_compression.cpp:compress_rbb", "src/egprs_rlc_compression.cpp:decompress_crbb", "src/egprs_rlc_compression.cpp:build_codewords"]}
{"id": "C28", "title": "Timeslot allocation only hands out what is free", "statement": "Any successful TBF allocation uses only enabled timeslots of one TRX, a TFI unused on all of them in that direction, and for uplink a USF below 7 that no other TBF uses on that timeslot; an allocation failure changes nothing.", "quantifier": "every cell configuration, every set of existing TBFs, every mobile class, algorithms A and B", "why_tests_cant": "The resource state space is 64 timeslots x 32 TFIs x 7 USFs x histories.", "anchors": ["src/alloc_algo.cpp:alloc_algorithm_a", "src/alloc_algo.cpp:alloc_algorithm_b", "src/alloc_algo.cpp:find_free_usf", "src/bts.cpp:bts_tfi_find_free"]}
{"id": "C29", "title": "Multislot capability is respected", "statement": "The timeslots offered to a mobile of a given multislot class never exceed its Rx, Tx and Sum limits, leave the required turn-around gaps, and every uplink assignment shares a timeslot with the downlink one when both exist.", "quantifier": "all multislot classes, all sets of enabled timeslots", "why_tests_cant": "Exponentially many timeslot sets times 45 classes.", "anchors": ["src/alloc_algo.cpp:find_multi_slots", "src/mslot_class.c:mslot_fill_rx_mask"]}
{"id": "C30", "title": "TFI lookup is free on every timeslot", "statement": "The free-TFI search returns a TFI that is unassigned on every enabled timeslot of the returned TRX, prefers the TRX with the most free TFIs, and fails exactly when no TRX has a free TFI.", "quantifier": "every assignment of TFI bitmaps to the timeslots of 8 TRXs", "why_tests_cant": "2^(32*64) bitmap states.", "anchors": ["src/bts.cpp:bts_tfi_find_free", "src/bts.cpp:trx_count_free_tfi"]}
{"id": "C31", "title": "Timeslot bookkeeping mirrors the attached TBFs", "statement": "After any sequence of TBF attach and detach operations a timeslot's TFI and USF bitmaps, lookup tables and TBF counters describe exactly the TBFs currently attached; detaching one TBF leaves all others reachable.", "quantifier": "every well-formed sequence of attach and detach", "why_tests_cant": "Leaks of TFIs/USFs show only after long churn.", "anchors": ["src/pdch.cpp:attach_tbf", "src/pdch.cpp:detach_tbf", "src/pdch.cpp:num_tbfs_update", "src/pdch.cpp:tbf_by_tfi"]}
{"id": "C32", "title": "TBF resources are reused only after the guard timers", "statement": "A downlink or uplink TBF goes through its life-cycle states in the standard's order; its TFI is released only after the final acknowledgement plus guard time or after the corresponding radio-failure timer, and no accepted event sequence drives the state machine into an assertion.", "quantifier": "every sequence of state-machine events and timer expirations", "why_tests_cant": "Event interleavings are unbounded.", "anchors": ["src/tbf_dl_fsm.c:tbf_dl_fsm", "src/tbf_ul_fsm.c:tbf_ul_fsm", "src/tbf_fsm.h:tbf_fsm_event"]}
{"id": "C33", "title": "Control-message sub-state machines never get stuck", "statement": "The assignment and uplink-ack sub-machines of a TBF have at most one poll outstanding, return to idle or retry on every poll answer or timeout, and never reach an assertion by permitted events.", "quantifier": "every sequence of scheduler, poll answer and poll timeout events", "why_tests_cant": "Unbounded interleavings of four cooperating machines.", "anchors": ["src/tbf_ul_ack_fsm.c:tbf_ul_ack_fsm", "src/tbf_dl_ass_fsm.c:tbf_dl_ass_fsm", "src/tbf_ul_ass_fsm.c:tbf_ul_ass_fsm"]}
{"id": "C34", "title": "Retry counters bound unanswered polls", "statement": "A TBF is declared lost exactly when the configured number of consecutive unanswered polls (N3101/N3103/N3105) is reached, any answer restarts the count, and it cannot go on unanswered beyond the limit.", "quantifier": "every limit 1..255 and every sequence of answers and timeouts, including reconfiguration", "why_tests_cant": "Long sequences and configuration changes at run time.", "anchors": ["src/tbf.cpp:n_inc", "src/tbf.cpp:n_reset", "src/tbf.cpp:poll_timeout"]}
{"id": "C35", "title": "TLLI change is confirmed from both sides", "statement": "A mobile's context is found under its old TLLI until both the mobile and the SGSN have used the new one, under either during the transition, and only under the new one afterwards.", "quantifier": "every sequence of TLLI announcements from both sides", "why_tests_cant": "Interleavings of two asynchronous parties with arbitrary values.", "anchors": ["src/gprs_ms.c:ms_set_tlli", "src/gprs_ms.c:ms_confirm_tlli", "src/gprs_ms.c:ms_check_tlli"]}
{"id": "C36", "title": "Mobile contexts live as long as they are used", "statement": "A mobile context is freed neither while a TBF references it nor kept for ever after: its reference count equals the number of attached TBFs plus explicit holds, and it becomes idle exactly at zero.", "quantifier": "every sequence of TBF attach/detach and references", "why_tests_cant": "Use-after-free needs rare interleavings.", "anchors": ["src/gprs_ms.c:ms_attach_tbf", "src/gprs_ms.c:ms_detach_tbf", "src/gprs_ms.c:ms_use_cb"]}
{"id": "C37", "title": "Link adaptation stays within configured limits", "statement": "The coding scheme chosen for a mobile is always valid for its mode and never above the configured maximum or below the first scheme of the mode, whatever error rates and link qualities are reported.", "quantifier": "every sequence of error-rate and link-quality reports and mode changes, every configuration", "why_tests_cant": "Feedback loop with unbounded history.", "anchors": ["src/gprs_ms.c:ms_update_error_rate", "src/gprs_ms.c:ms_update_cs_ul", "src/gprs_ms.c:ms_current_cs_dl", "src/gprs_ms.c:ms_max_cs_dl"]}
{"id": "C38", "title": "Uplink scheduling is fair", "statement": "The uplink scheduler polls data-transfer TBFs round-robin: it returns only a TBF in data transfer on this timeslot, returns none only if there is none, and every continuously eligible TBF is served within 32 grants.", "quantifier": "every set of TBFs on a timeslot and every sequence of scheduling rounds", "why_tests_cant": "Starvation appears only over long schedules.", "anchors": ["src/gprs_rlcmac_sched.cpp:sched_select_uplink"]}
{"id": "C39", "title": "One mobile per uplink block", "statement": "For each uplink block the scheduler lets at most one mobile transmit: a single-block allocation or poll reserved for that block suppresses any USF invitation.", "quantifier": "every reservation table and TBF set", "why_tests_cant": "Requires coincidence of reservations and USF schedule.", "anchors": ["src/gprs_rlcmac_sched.cpp:gprs_rlcmac_rcv_rts_block", "src/pdch_ul_controller.c:pdch_ulc_reserve_tbf_usf"]}
{"id": "C40", "title": "Downlink data scheduling follows priority", "statement": "The downlink scheduler serves a TBF of the highest current priority, breaks ties round-robin, and returns none only when no TBF can send.", "quantifier": "every set of downlink TBFs and scheduler position", "why_tests_cant": "All combinations of states and priorities.", "anchors": ["src/gprs_rlcmac_sched.cpp:sched_select_dl_data_msg", "src/gprs_rlcmac_sched.cpp:tbf_compute_priority"]}
{"id": "C41", "title": "Control messages rotate fairly and are not lost", "statement": "Among pending control messages of the TBFs served in one block, the type rotates so that each pending type is eventually sent; a generated control message is always transmitted.", "quantifier": "every set of pending control messages and rotation state", "why_tests_cant": "Rotation state times pending sets over time.", "anchors": ["src/gprs_rlcmac_sched.cpp:sched_select_ctrl_msg", "src/gprs_rlcmac_sched.cpp:sched_app_info"]}
{"id": "C42", "title": "GPRS mobiles keep synchronisation", "statement": "While a GPRS-only TBF shares a timeslot with EGPRS traffic, no more than the permitted number of consecutive downlink blocks is sent in a modulation that mobile cannot decode.", "quantifier": "every traffic mix and schedule", "why_tests_cant": "Depends on long runs of scheduling decisions.", "anchors": ["src/gprs_rlcmac_sched.cpp:gprs_rlcmac_rcv_rts_block", "src/pdch.cpp:has_gprs_only_tbf_attached"]}
{"id": "C43", "title": "Paging requests fit and are not lost", "statement": "Packing queued paging records into a Packet Paging Request never exceeds the 23-octet block, transmits each queued record exactly once or leaves it queued, and never reorders beyond the queue's discipline.", "quantifier": "every list of TMSI/IMSI paging records", "why_tests_cant": "Arbitrary mixes of identity lengths.", "anchors": ["src/pdch.cpp:packet_paging_request", "src/pdch.cpp:add_paging", "src/encoding.cpp:write_repeated_page_info", "src/encoding.cpp:write_packet_paging_request"]}
{"id": "C44", "title": "Paging reaches every active mobile", "statement": "When the paged mobile is unknown, the set of timeslots chosen for a PACCH page contains at least one timeslot of every active TBF of every mobile.", "quantifier": "every set of mobiles and TBF timeslot assignments", "why_tests_cant": "Greedy marking over arbitrary slot sets.", "anchors": ["src/bts.cpp:bts_add_paging"]}
{"id": "C45", "title": "Neighbour and SI caches return the latest fresh value", "statement": "A cache lookup returns the value most recently stored for that key while it is within its keep time, keys are unique, and entries are removed once the keep time elapsed.", "quantifier": "every sequence of add, lookup and timer events with arbitrary times", "why_tests_cant": "Time-dependent histories.", "anchors": ["src/neigh_cache.c:neigh_cache_add", "src/neigh_cache.c:neigh_cache_lookup_value", "src/neigh_cache.c:si_cache_add"]}
{"id": "C46", "title": "Neighbour cell system information is delivered whole", "statement": "Splitting system information into Packet Neighbour Cell Data containers and reassembling them yields the original octets, and the sequence always terminates with a container that is not full.", "quantifier": "every system-information length the code accepts", "why_tests_cant": "Lengths that are an exact multiple of the container size.", "anchors": ["src/nacc_fsm.c:create_packet_neighbour_cell_data"]}
{"id": "C47", "title": "Cell-change assistance always completes", "statement": "Once a mobile announced a cell change, every failure, timeout or duplicate leads to a Packet Cell Change Continue or to the end of the procedure; no permitted event hits an assertion.", "quantifier": "every event sequence of the NACC procedure", "why_tests_cant": "Interleaving of mobile, SGSN and BSC responses.", "anchors": ["src/nacc_fsm.c:nacc_fsm", "src/nacc_fsm.c:handle_retrans_pkt_cell_chg_notif"]}
{"id": "C48", "title": "Paging coordination timers", "statement": "A subscriber is reported as being paged exactly while an unexpired paging timer for its IMSI exists; starting twice keeps one timer, stopping removes it.", "quantifier": "every sequence of page start, stop and timeout", "why_tests_cant": "Histories over arbitrary subscribers.", "anchors": ["src/bts_pch_timer.c:bts_pch_timer_start", "src/bts_pch_timer.c:bts_pch_timer_stop", "src/bts_pch_timer.c:bts_pch_timer_remove"]}
{"id": "C49", "title": "Flow-control values are bounded", "statement": "The bucket size announced to the SGSN is positive and never above the protocol maximum, and the leak rate equals the raw capacity of the counted timeslots.", "quantifier": "every configuration and measurement history", "why_tests_cant": "Overflow of 32-bit products needs extreme values.", "anchors": ["src/gprs_bssgp_pcu.c:compute_bucket_size", "src/gprs_bssgp_pcu.c:gprs_bssgp_max_leak_rate", "src/gprs_bssgp_pcu.c:get_and_reset_avg_queue_delay"]}
{"id": "C50", "title": "EGPRS window size is legal and announced correctly", "statement": "The EGPRS window size chosen for a TBF is a multiple of 32 between 64 and 1024, never above the maximum for the number of timeslots, and the value encoded in every assignment message decodes to exactly the size the network uses.", "quantifier": "every configuration, every timeslot count, uplink and downlink assignments", "why_tests_cant": "Encodings truncate silently; needs comparing both ends for every size.", "anchors": ["src/tbf.cpp:egprs_window_size", "src/encoding.cpp:enc_ws", "src/encoding.cpp:write_packet_uplink_assignment", "src/encoding.cpp:write_packet_downlink_assignment"]}
{"id": "C51", "title": "Supported-scheme check agrees with the BTS capability mask", "statement": "A coding scheme is reported as supported exactly if the BTS announced it and it does not exceed the configured maximum; the computed maxima are themselves announced schemes, and CS-1 is always available.", "quantifier": "every capability mask and every configured maximum", "why_tests_cant": "2^13 masks times limits.", "anchors": ["src/bts.cpp:bts_cs_dl_is_supported", "src/bts.cpp:bts_recalc_max_cs", "src/bts.cpp:bts_recalc_max_mcs", "src/bts.cpp:bts_recalc_initial_cs"]}
{"id": "C52", "title": "Downlink data header round trip", "statement": "The header fields (TFI, block numbers, USF, polling, puncturing indicator, final-block and extension bits) written into a downlink data block are recovered unchanged by decoding the header as the standard lays it out, and writing them does not disturb payload bits.", "quantifier": "all field values, all header types", "why_tests_cant": "Field widths times values; bits are split over octets.", "anchors": ["src/encoding.cpp:rlc_write_dl_data_header", "src/tbf_dl.cpp:create_dl_acked_block"]}
{"id": "C53", "title": "Timing advance stays legal", "statement": "Whatever timing-advance corrections are reported, the timing advance stored for a mobile stays in 0..63 or 'unknown', and is applied to the mobile that was actually polled.", "quantifier": "every sequence of corrections", "why_tests_cant": "Signed/unsigned 8-bit arithmetic at the limits.", "anchors": ["src/bts.cpp:update_tbf_ta", "src/bts.cpp:set_tbf_ta", "src/bts.cpp:bts_update_tbf_ta", "src/gprs_ms.c:ms_set_ta"]}
{"id": "C54", "title": "Frame clock never runs backwards on late blocks", "statement": "Received-block frame numbers advance the cell's block clock monotonically in modular time and resynchronise the frame clock only for implausible delays.", "quantifier": "every sequence of received frame numbers", "why_tests_cant": "Hyperframe wrap plus arbitrary lateness.", "anchors": ["src/bts.cpp:delta_fn", "src/bts.cpp:bts_set_current_block_frame_number"]}
{"id": "C55", "title": "Immediate assignment confirmation finds its mobile", "statement": "The TLLI extracted from an echoed Immediate Assignment equals the TLLI that was written into it.", "quantifier": "every TLLI", "why_tests_cant": "2^32 values at an unaligned bit offset.", "anchors": ["src/bts.cpp:tlli_from_imm_ass", "src/encoding.cpp:write_ia_rest_downlink"]}
{"id": "C56", "title": "Access request classification", "statement": "Each 8-bit or 11-bit access burst is classified (single block, one phase, rejected) exactly as the request tables prescribe, with no value causing an assertion.", "quantifier": "all 2^8 and 2^11 request values and all burst types", "why_tests_cant": "Only a few request codes are tested.", "anchors": ["src/bts.cpp:parse_rach_ind", "src/bts.cpp:parse_egprs_pkt_ch_req"]}
{"id": "C57", "title": "Single block allocation is reserved", "statement": "A single-block allocation announced to a mobile is a free, valid uplink block at least the minimum distance ahead, and is owned by that allocation until used or expired.", "quantifier": "every frame number and reservation table", "why_tests_cant": "Conflicts need full reservation tables.", "anchors": ["src/sba.c:sba_alloc", "src/pdch_ul_controller.c:pdch_ulc_get_next_free_fn", "src/pdch_ul_controller.c:pdch_ulc_reserve_sba"]}
{"id": "C58", "title": "Timing-advance index allocation", "statement": "A PTCCH timing-advance index is given to at most one mobile at a time; release makes exactly that index available and an update changes exactly one entry.", "quantifier": "every sequence of reserve, release and update", "why_tests_cant": "Histories over 16 slots.", "anchors": ["src/pdch.cpp:reserve_tai", "src/pdch.cpp:release_tai", "src/pdch.cpp:update_ta"]}
{"id": "C59", "title": "Immediate Assignments say what was allocated", "statement": "An Immediate Assignment, read as the specification prescribes, tells the mobile exactly the timeslot, training sequence, frequency or hopping parameters, request reference, timing advance, TFI, USF, coding scheme, window size, power parameters and starting time of the allocation it was made for; a reject names the rejected request with its wait indication, and no other.", "quantifier": "every allocation, access burst, frame number and power setting", "why_tests_cant": "Bit positions shift with optional fields and the hopping list, and L/H bits depend on their position; the combinations are too many to enumerate.", "anchors": ["src/encoding.cpp:write_immediate_assignment", "src/encoding.cpp:write_immediate_assignment_reject", "src/encoding.cpp:write_ia_rest_downlink", "src/bts.cpp:bts_snd_dl_ass", "src/bts.cpp:bts_rcv_rach"]}
{"id": "C60", "title": "Cell-change messages describe the announced cell", "statement": "The messages sent to a mobile that announced a cell change describe the cell it announced last: the system information is that of the target cell and the Continue names it.", "quantifier": "every history of announcements, cache contents and answers that agree with the network as it is", "why_tests_cant": "Depends on which cells this PCU serves, on what is cached and on the order in which announcements and answers arrive.", "anchors": ["src/nacc_fsm.c:st_wait_request_si_on_enter", "src/nacc_fsm.c:handle_retrans_pkt_cell_chg_notif", "src/nacc_fsm.c:create_packet_cell_chg_continue"]}
{"id": "C61", "title": "Reported queueing delay is the mean of the observed delays", "statement": "The queueing delay reported to the SGSN with flow control is the mean, in milliseconds, of the delays of the frames taken from the queues since the last report, and 0 if there were none.", "quantifier": "every history of frames leaving the queues, acknowledgements and reports", "why_tests_cant": "The sum is kept in seconds and nanoseconds with carries and unit conversions; only some sums show an error, and the value is reset at each report.", "anchors": ["src/gprs_bssgp_pcu.c: get_and_reset_avg_queue_delay, gprs_bssgp_update_queue_delay, gprs_bssgp_tx_fc_bvc"]}
{"id": "C62", "title": "Uplink data headers are read as the standard lays them out", "statement": "For every uplink data block of every coding scheme, as long as its scheme requires, the header fields taken from it (retry, stall indicator, countdown value, TFI, block numbers of one or two blocks, puncturing indicator, split indicator, extension and TLLI bits) and the place and length of each data block are those the standard's layout puts there; no octet outside the message is read and no assertion fails, whatever the contents.", "quantifier": "all coding schemes and all message contents of at least the length of the scheme", "why_tests_cant": "fields straddle octets and their positions depend on scheme, padding and block index; a test fixes a few messages of a few schemes", "anchors": ["src/decoding.cpp:rlc_parse_ul_data_header", "src/decoding.cpp:rlc_parse_ul_data_header_gprs", "src/decoding.cpp:rlc_parse_ul_data_header_egprs_type_1", "src/decoding.cpp:rlc_parse_ul_data_header_egprs_type_2", "src/decoding.cpp:rlc_parse_ul_data_header_egprs_type_3", "src/rlc.h"]}
{"id": "C63", "title": "Decoding a control message from the air touches only the structure it fills", "statement": "Whatever octets a mobile sends as an RLC/MAC control block, decoding ends with a decoded message or a negative code, and every read and write of the decoder stays within the structure that receives the message, and within the member or array it is meant for. The same holds for the MS radio access capability of any length received from the SGSN.", "quantifier": "every octet string of every length, for all fourteen uplink message types and for the radio access capability", "why_tests_cant": "The structure is filled through tables of offsets and of counts that the mobile sends; the test vectors are well formed messages, while an overrun needs one particular count in one of 140 tables.", "anchors": ["src/csn1_dec.c:csnStreamDecoder", "src/csn1.h", "src/gsm_rlcmac.c:decode_gsm_rlcmac_uplink", "src/gsm_rlcmac.c:decode_gsm_ra_cap", "src/gsm_rlcmac.h"]}
{"id": "C64", "title": "A control block is acted upon as the message its header names, with its fields from their places", "statement": "A control block that is decoded is given to the procedure for the message type in its header and to no other, and the identities, bitmaps and sequence numbers that procedure uses are the bits that 3GPP TS 44.060 assigns to them in the block, whatever the rest of the block holds.", "quantifier": "every block of at least 23 octets and every value of every field", "why_tests_cant": "Positions depend on optional parts present in the message; tests decode a handful of captured messages.", "anchors": ["src/pdch.cpp:gprs_rlcmac_pdch::rcv_control_block", "src/gsm_rlcmac.c:decode_gsm_rlcmac_uplink", "src/csn1_dec.c:csnStreamDecoder"]}
{"id": "C65", "title": "An assignment message tells the mobile what was assigned", "statement": "Whenever the PCU has allocated an uplink or downlink TBF that it announces with a PACKET UPLINK ASSIGNMENT or PACKET DOWNLINK ASSIGNMENT, a message is sent, and a mobile that reads it according to 3GPP TS 44.060 finds exactly what was allocated: it is addressed (by TLLI or by the TFI it knows), and it reads the TFI, the timeslots (with the USF of each in uplink), the timing advance if known, the power control parameters, the coding scheme or the EGPRS window, the training sequence and the carrier or hopping sequence that the BTS last configured for these timeslots, and the poll.", "quantifier": "for every TBF, set of timeslots, addressing, timing advance, power control setting, coding scheme, window and hopping configuration", "why_tests_cant": "The message is produced by a generic table driven encoder from a structure filled at byte offsets; which optional parts are present, and whether they fit in 23 octets, depends on the combination of timeslots, addressing and hopping parameters. Tests compare a handful of encoded messages.", "anchors": ["src/encoding.cpp:write_packet_uplink_assignment", "src/encoding.cpp:write_packet_downlink_assignment", "src/encoding.cpp:gen_freq_params", "src/tbf_ul_ass_fsm.c:create_packet_ul_assign", "src/tbf_dl_ass_fsm.c:create_packet_dl_assign", "src/csn1_enc.c:csnStreamEncoder", "src/gsm_rlcmac.c:encode_gsm_rlcmac_downlink", "src/pcu_l1_if.cpp:pcu_rx_info_ind"]}
{"id": "C66", "title": "Cell change messages can always be encoded", "statement": "Whenever a Packet Neighbour Cell Data or a Packet Cell Change Continue is due, the structure filled for it is accepted by the encoder and gives a complete block of 184 bits, in which the mobile reads its TBF, the container that is due (index, cell, kind, length and octets) or the cell and the poll.", "quantifier": "every history of the cell change procedure, every progress of the transfer, every TFI, direction and RRBP", "why_tests_cant": "The container fills the block to the last bit, with the cell and without; the structure has alternatives that share memory, and any field that is too wide would make the encoder refuse the message.", "anchors": ["src/nacc_fsm.c:create_packet_neighbour_cell_data", "src/nacc_fsm.c:create_packet_cell_chg_continue", "src/encoding.cpp:write_packet_neighbour_cell_data", "src/encoding.cpp:write_packet_cell_change_continue", "src/csn1_enc.c:csnStreamEncoder"]}
{"id": "C67", "title": "A refused mobile is told how long to wait", "statement": "A Packet Access Reject is addressed to the TLLI of the mobile and tells a time to wait that is the configured T3172, rounded down to 20 ms (or to a second where 20 ms units cannot express it), and no further reject.", "quantifier": "every TLLI and every value of T3172 that can be configured (0 to 255 s)", "why_tests_cant": "Two units are used, with a switch between them in the middle of the range.", "anchors": ["src/encoding.cpp:write_packet_access_reject", "src/tbf_ul_ass_fsm.c:create_packet_access_reject"]}
{"id": "C68", "title": "The whole uplink acknowledgement says what has been received", "statement": "The Packet Uplink Ack/Nack block sent for an uplink TBF, read by a mobile according to 3GPP TS 44.060, carries that TBF's TFI, the commanded coding scheme, the contention resolution TLLI and timing advance if known, asks for an answer exactly if it is the final one, and its bitmap marks as received only blocks that have arrived (and all of those it covers).", "quantifier": "every history of received uplink blocks, every TFI, TLLI, timing advance and coding scheme, final or not, GPRS and EGPRS", "why_tests_cant": "The message has optional parts that shift everything after them, and an EGPRS report of variable size that competes for the rest of the 184 bits; tests show a few combinations of histories and parts.", "anchors": ["src/encoding.cpp:write_packet_uplink_ack", "src/encoding.cpp:write_packet_uplink_ack_gprs", "src/encoding.cpp:write_packet_uplink_ack_egprs", "src/encoding.cpp:write_packet_ack_nack_desc_gprs", "src/encoding.cpp:write_packet_ack_nack_desc_egprs", "src/tbf_ul_ack_fsm.c:create_ul_ack_nack"]}
{"id": "C69", "title": "A downlink block counts as acknowledged only if the mobile has it", "statement": "During a downlink transfer with a mobile that reports truthfully what it has received, at whatever times and with any reports and blocks lost or delayed, every block the PCU takes as acknowledged has been received by the mobile; each report that arrives is applied to exactly the blocks it is about; and once the mobile has everything, its next report that arrives leaves nothing outstanding.", "quantifier": "every interleaving of sending, reception, answering, loss and arrival of answers, any length, GPRS and EGPRS (reports from the beginning of the window), all window sizes the code accepts", "why_tests_cant": "Sender and receiver know block numbers only modulo the sequence number space and from different moments; agreement must hold for every interleaving over arbitrarily many wrap-arounds.", "anchors": ["src/decoding.cpp:decode_gprs_acknack_bits", "src/decoding.cpp:decode_egprs_acknack_bits", "src/tbf_dl.cpp:rcvd_dl_ack", "src/tbf_dl.cpp:update_window", "src/tbf_dl.cpp:create_dl_acked_block", "src/rlc.cpp:gprs_rlc_dl_window"]}
{"id": "C70", "title": "The error rate that steers the downlink coding scheme is that of the blocks reported", "statement": "When a mobile reports on a downlink TBF, the share of lost blocks handed to link adaptation, and the packets and bytes counted as received and lost, are those of exactly the blocks the report is about: a block counts as received if it is reported received and was not known to be received before, as lost if it is reported lost, and for the rate only if it was last sent with the present coding scheme. With less than two such blocks no rate is given.", "quantifier": "all histories of sending and reports of a downlink TBF, all sequence number spaces and window sizes, all reports, all sizes and schemes of the stored blocks", "why_tests_cant": "The block numbers are recomputed backwards from the end of the report with 8, 16 and 7 to 11 bit arithmetic; a wrong width only shows once an EGPRS transfer is beyond block 255, and then only as a coding scheme that does not follow the radio conditions.", "anchors": ["src/tbf_dl.cpp: analyse_errors", "src/tbf_dl.cpp: update_window", "src/tbf_dl.cpp: bitnum_to_bsn"]}
{"id": "C71", "title": "The SGSN gets the mobile's LLC frames, each once and in order", "statement": "While a mobile sends LLC frames on an uplink TBF, cut into RLC data blocks with length indicators, TLLI and filling as the standard prescribes, the frames handed to the SGSN are at any time the first of the mobile's frames, complete, unchanged and none twice; when the PCU takes the transfer as finished, it has handed over all of them. No such block makes the PCU leave its buffers.", "quantifier": "all sequences of frames of up to 1543 octets, all ways of cutting them into blocks of up to 74 octets, GPRS and EGPRS, all losses, repetitions and reorderings within the window, any length", "why_tests_cant": "The claim joins window, block store, length indicator parser and frame buffer over all cuts of all frames and all orders of arrival, with arbitrarily many wrap-arounds of the block numbers.", "anchors": ["src/tbf_ul.cpp: rcv_data_block_acknowledged", "src/tbf_ul.cpp: assemble_forward_llc", "src/decoding.cpp: rlc_data_from_ul_data", "src/rlc_window_ul.cpp", "src/llc.c: llc_append_frame"]}
{"id": "C72", "title": "An uplink transfer with the mobile at the other end stays in step and can always be completed", "statement": "A mobile sends blocks of its window, which it moves by the received-block reports it hears; blocks, reports and any number of repetitions can be lost or delayed. Whatever the mobile takes as acknowledged has arrived at the PCU; its window never runs ahead of the PCU's; after a report it starts where the PCU's did when the report was made; the SGSN gets the mobile's frames in order, each once; and from every state the transfer can still be completed.", "quantifier": "all frames and ways of cutting them, GPRS and EGPRS (windows of 64 to 512 blocks, growing), all losses of blocks and reports, all delays and orders, any length", "why_tests_cant": "The claim is about the joint state of PCU and mobile under every interleaving of losses and delayed reports, with block numbers that wrap around.", "anchors": ["src/tbf_ul.cpp: rcv_data_block_acknowledged", "src/rlc_window_ul.cpp: raise_v_r, raise_v_q, update_rbb", "src/encoding.cpp: write_packet_ack_nack_desc_gprs, write_packet_ack_nack_desc_egprs"]}
{"id": "C73", "title": "Messages from the BTS over the PCU interface are understood, harmless and put into effect", "statement": "Every message on the PCU socket is taken apart exactly as the BTS put it together. Whatever arrives, the PCU reads nothing outside the message and its own tables, does not end except when told to, refuses what is too short or unknown, and changes only the cell the message is about. The timeslots it takes to be in use are those it last asked the BTS to activate; only blocks of those are processed, with exactly their octets; an INFO.ind is put into effect completely; the system information kept is the last one announced.", "quantifier": "all sequences of octet strings on the socket, all cells, TRXs, timeslots, all values of all fields, all outcomes of the procedures started", "why_tests_cant": "The socket can deliver any octets in any order in any state; a test sends well-formed messages of one cell.", "anchors": ["include/osmocom/pcu/pcuif_proto.h", "src/pcuif_sock.c: pcu_sock_read", "src/pcu_l1_if.cpp: pcu_rx, pcu_rx_data_ind, pcu_rx_data_ind_bcch, pcu_rx_rts_req, pcu_rx_rach_ind, pcu_rx_info_ind, pcu_rx_pag_req, pcu_rx_container", "src/gprs_bssgp_pcu.c: gprs_bssgp_init"]}
{"id": "C74", "title": "Emergency notifications reach every active mobile once", "statement": "An application information request of the BTS (ETWS primary notification) is sent once, unaltered, to each mobile that has a downlink TBF when it comes; the number of mobiles still to be told is right, the newest request replaces the older one, and the message is kept exactly as long as a mobile waits for it.", "quantifier": "every history of requests, mobiles that come and go, downlink TBFs that start and end, and scheduled blocks; every type and content", "why_tests_cant": "Marks on mobiles and a counter on the cell must agree over every interleaving of requests, releases and blocks; no test sends the message.", "anchors": ["src/pcu_l1_if.cpp:pcu_rx_app_info_req", "src/gprs_rlcmac.c:gprs_rlcmac_app_info_msg", "src/gprs_rlcmac_sched.cpp:sched_app_info", "src/gprs_rlcmac_sched.cpp:sched_select_ctrl_msg"]}
{"id": "C75", "title": "Uplink blocks reach the TBF they are for, and no other", "statement": "On a timeslot with any number of mobiles and TBFs: every uplink frame is reserved at most once; what it is reserved for exists; a TBF that waits for the answer to a poll has a frame reserved in which the answer comes or is declared lost, and no frame stays reserved for an answer that is not waited for. The expected acknowledgement received in that frame ends the wait. A block that nobody expects in its frame changes nothing. No block, and no loss of one, changes a TBF of a mobile that it is not about. No received block makes the program fail an assertion or use a TBF that was freed, and single block allocations are freed when their frame has passed or was used.", "quantifier": "all histories of creating TBFs, polls, grants, single block allocations, timeouts, received blocks of every type in every frame, and lost blocks, for any number of TBFs and mobiles", "why_tests_cant": "The tests play a few hand-written exchanges with one or two mobiles and well-behaved answers. The defects need a message of another type to arrive in a reserved frame, or the end of one TBF to coincide with an assignment sent on it; the space of interleavings is unbounded.", "anchors": ["src/pdch.cpp:rcv_control_ack", "src/pdch.cpp:rcv_control_dl_ack_nack", "src/pdch.cpp:rcv_resource_request", "src/pdch.cpp:rcv_measurement_report", "src/pdch.cpp:rcv_cell_change_notification", "src/pdch.cpp:rcv_data_block", "src/pdch_ul_controller.c:pdch_ulc_expire_fn", "src/pdch_ul_controller.c:pdch_ulc_release_tbf", "src/tbf.cpp:tbf_free", "src/gprs_ms.c:ms_attach_tbf", "src/sba.c"]}
{"id": "C76", "title": "Messages from the SGSN are understood, answered and harmless", "statement": "A downlink data message of the SGSN is handed on with the TLLI, old TLLI, IMSI, class, lifetime and LLC frame it contains, whatever its elements and their order; what is wrong in it is answered with the cause 48.018 gives. A paging message reaches every cell with the identity and channel it names. A message cut off inside an element is refused. Whatever arrives, no assertion fails, no octet outside the message is read, and a user's data is only ever an unaltered part of a data message for the cell, received while the cell is not blocked.", "quantifier": "all octet strings on all BVCs, all lists of elements in every order, both forms of the length, every state of the link", "why_tests_cant": "The messages come from another machine and may contain any elements in any order with any length; the tests send a few correct ones.", "anchors": ["src/gprs_bssgp_pcu.c: gprs_bssgp_pcu_rcvmsg, gprs_bssgp_pcu_rx_dl_ud, gprs_bssgp_pcu_rx_paging_cs, gprs_bssgp_pcu_rx_paging_ps, gprs_bssgp_pcu_rx_ptp, gprs_bssgp_pcu_rx_sign"]}
{"id": "C77", "title": "The link to the SGSN comes into service, and back into service after every disturbance", "statement": "While the NS layer is up, the PCU keeps a timer running; whatever has happened before and whatever the SGSN still knows of the cell, the next expiry of the timer brings the link into service on both sides, if the messages then sent are answered. Signalling reset, reset of the cell, unblocking and flow control are sent in this order, each for the right BVC. The cell counts as reset only if the SGSN has acknowledged its reset or reset it itself.", "quantifier": "all histories of messages, reports of the NS layer and timer expiries; all states of the SGSN; SGSNs that open a cell after reset and those that wait for the unblocking", "why_tests_cant": "The states of two machines must meet again after every sequence of losses, repetitions and restarts; a test plays one start-up.", "anchors": ["src/gprs_bssgp_pcu.c: bvc_timeout, handle_nm_status, bssgp_prim_cb, gprs_ns_prim_status_cb, gprs_bssgp_pcu_rx_sign"]}
{"id": "C78", "title": "Data queued for a mobile is sent", "statement": "Whenever data for a mobile is queued, the PCU has under way what it takes to send it: as soon as the mobile can be reached a downlink TBF is set up on the channel on which it listens, and the queue runs empty without further data from the SGSN or a new request of the mobile.", "quantifier": "all histories of data arriving, uplink TBFs beginning and ending, assignments, polls answered or missed, timers and failed allocations; all orders of what happens by itself", "why_tests_cant": "Whether data is left behind depends on the state of both TBFs of the mobile and on the order in which scheduler, timers and answers come; a test plays one order.", "anchors": ["src/gprs_ms.c: ms_append_llc_dl_data, ms_is_reachable_for_dl_ass, ms_new_dl_tbf_assigned_on_pacch, ms_new_dl_tbf_assigned_on_pch", "src/gprs_ms.h: ms_need_dl_tbf", "src/tbf_dl_fsm.c", "src/tbf_ul_fsm.c", "src/tbf_ul_ack_fsm.c: st_sched_ul_ack", "src/tbf_dl_ass_fsm.c", "src/tbf_ul.cpp: contention_resolution_success", "src/pdch.cpp: rcv_control_ack, rcv_resource_request"]}
{"id": "C79", "title": "A mobile is told the system information of the cell it goes to", "statement": "When a mobile announces a change to a cell of another PCU, that PCU is asked for the cell's system information, answers with what its BTS has set, and what the mobile is then told as system information of its target was set by that cell's BTS. Messages that are not for this PCU, cannot be answered or cannot be read are reported to their sender as 48.018 says, and no decoded message crashes the PCU.", "quantifier": "all histories of any number of PCUs exchanging RAN information messages that are lost, repeated and reordered, with cells changing their system information, mobiles coming and announcing, caches aging; all decoded messages", "why_tests_cant": "Whether an answer is attributed to the right cell depends on which cells the answering PCU serves and on all that was cached before; tests have two PCUs with one cell and one question.", "anchors": ["src/gprs_bssgp_rim.c: handle_rim, handle_ran_info_request, handle_ran_info_response, fill_app_cont_nacc", "src/nacc_fsm.c: fill_rim_ran_info_req, st_wait_request_si_on_enter", "src/neigh_cache.c: si_cache_add, si_cache_lookup_value", "src/gprs_pcu.c: gprs_pcu_get_bts_by_cgi_ps"]}
{"id": "C80", "title": "A downlink transfer delivers every frame once and in order", "statement": "Whatever radio blocks and acknowledgements are lost, and whenever the window grows or frames come in, the mobile puts together exactly the frames the SGSN sent, in their order, none twice, none altered, apart from dummy frames put in as filling; when the PCU takes the transfer as complete the mobile has got all frames but those left for the next TBF; and from every state the transfer can be brought to its end by losing no more.", "quantifier": "all histories of frames coming in, coding schemes, split blocks, blocks and reports lost, delayed or repeated, window growth and idle filling; GPRS and EGPRS; any number of blocks, beyond any wrap-around of block numbers", "why_tests_cant": "Frames are cut, stored by block number modulo half the space, resent by report and put together again: whether a loss pattern makes the mobile take an old block for a new one or the PCU drop a frame shows only over all histories.", "anchors": ["src/tbf_dl.cpp: take_next_bsn, create_new_bsn, create_dl_acked_block, rcvd_dl_ack, update_window, keep_open, have_data", "src/rlc.h: gprs_rlc::block", "src/rlc.cpp", "src/encoding.cpp: rlc_data_to_dl_append_gprs, rlc_data_to_dl_append_egprs", "src/tbf_dl_fsm.c", "src/gprs_ms.c: ms_append_llc_dl_data"]}
{"id": "C81", "title": "What the PCU tells the BTS is what the BTS understands, in order", "statement": "Every message the PCU sends over the PCU socket (blocks for the packet channels and the PTCCH, assignments and pages for the CCCH, activation, version, questions for a neighbour) is read by the other side, from the packed layout of the interface, as the same cell, timeslot, frame, block and octets; a page for packet data is a paging request that names the identity, for packet data, in the paging group of the IMSI. Messages accepted by the socket are written once, unchanged and in order, the version first; writing is asked for exactly as long as something is queued, and a writable socket empties the queue; every message is released in the end.", "quantifier": "all field values, blocks of up to 162 octets, identities and IMSIs; all histories of sending, partial writability, errors, incoming messages, reconnection and shutdown", "why_tests_cant": "A wrong offset or byte order shows only for values with other octets set, and lost, doubled or stuck messages only under particular sequences of a full socket buffer and messages sent while others are processed.", "anchors": ["src/pcu_l1_if.cpp: pcu_msgb_alloc, pcu_tx_txt_ind, pcu_tx_act_req, pcu_tx_data_req, pcu_l1if_tx_pdtch, pcu_l1if_tx_ptcch, pcu_l1if_tx_agch2, pcu_l1if_tx_pch2, pcu_tx_neigh_addr_res_req", "src/pcuif_sock.c: pcu_sock_send, pcu_sock_write, pcu_sock_cb, pcu_sock_close, pcu_l1if_open", "src/gprs_rlcmac.c: gprs_rlcmac_paging_request", "src/encoding.cpp: write_paging_request", "include/osmocom/pcu/pcuif_proto.h"]}
{"id": "C82", "title": "What a mobile reports in an EGPRS downlink report is what the downlink window learns", "statement": "An EGPRS PACKET DOWNLINK ACK/NACK as received from the air, with any of its optional parts (channel quality report, channel request, PFI, extension, length of the description, compressed bitmap), has on the downlink window exactly the effect the mobile meant: every block before the reported position is acknowledged, the one at the position is not, and every later one is what the compressed and then the uncompressed bitmap say of it; a final acknowledgement acknowledges everything outstanding. In particular no block the mobile reports as missing becomes acknowledged.", "quantifier": "all messages of at least 23 octets with a complete description, all positions and lengths of the optional parts and bitmaps, all reachable windows of both sizes of sequence numbers", "why_tests_cant": "Optional parts move the bitmaps to any bit position and give them any length, so a misplaced bit shows only for particular combinations of parts, lengths and received blocks.", "anchors": ["src/csn1_dec.c: CSN_LEFT_ALIGNED_VAR_BMP, CSN_LEFT_ALIGNED_VAR_BMP_1", "src/gsm_rlcmac.c: EGPRS_PD_AckNack_t, EGPRS_AckNack_Desc_t", "src/decoding.cpp: decode_egprs_acknack_bits, handle_final_ack", "src/egprs_rlc_compression.cpp: decompress_crbb, search_runlen", "src/pdch.cpp: rcv_control_egprs_dl_ack_nack"]}
{"id": "C83", "title": "The links to the SGSN are those of the last configuration", "statement": "After the BTS has sent its information, the NS connections to the SGSN are exactly those it names (family, local port, address and port of the SGSN, NSVCI), under the NSEI it names, each once; a connection that is named again is kept and not made anew; if some cannot be made there are at least no others; a released entity is never used. With IP-SNS the addresses of the SGSN the protocol works with are those named.", "quantifier": "all sequences of configurations with any addresses, ports, NSVCIs and NSEIs, valid or empty positions, and any pattern of failing calls into the NS layer", "why_tests_cant": "Whether a connection survives, doubles or goes missing depends on what was configured before and on which calls failed then; a stale pointer shows only after a particular sequence of failures.", "anchors": ["src/gprs_bssgp_pcu.c: gprs_ns_update_config, ns_conf_vc_cb, ns_configure_nse", "src/pcu_l1_if.cpp: pcu_info_ind_ns, pcu_rx_info_ind"]}
{"id": "C84", "title": "The multislot classes used for a mobile are those it announced", "statement": "From the MS radio access capability that comes with downlink data the PCU takes, as the GPRS and as the EGPRS multislot class of the mobile, the class announced by the first access technology that announces one, and no class if none does.", "quantifier": "all radio access capabilities: any octets, any number of access technologies, any optional parts present or absent, access capabilities of any length", "why_tests_cant": "The position of a class depends on every optional part before it and on the lengths of all technologies before it; a wrong member of a union or a wrong skip shows only for particular combinations.", "anchors": ["src/decoding.cpp: get_ms_class_by_capability, get_egprs_ms_class_by_capability", "src/gprs_bssgp_pcu.c: parse_ra_cap, gprs_bssgp_pcu_rx_dl_ud", "src/gsm_rlcmac.c: decode_gsm_ra_cap, Content_t, Multislot_capability_t, MS_RA_capability_value_t", "src/csn1_dec.c: csnStreamDecoder"]}
{"id": "C85", "title": "A GPRS downlink report acknowledges exactly the blocks it reports as received", "statement": "When a mobile sends a PACKET DOWNLINK ACK/NACK, every outstanding block the bitmap speaks of becomes acknowledged or not acknowledged as its bit says, counted backwards from the starting sequence number modulo 128, and every other block keeps its state; a final acknowledgement leaves nothing outstanding.", "quantifier": "all message octets, all histories of the transfer before, all positions of the window and wrap-arounds of the block numbers", "why_tests_cant": "It joins the bit positions of the message, the order of the bitmap and the modulus of the window: an off-by-one in any of them shows only for particular window positions.", "anchors": ["src/pdch.cpp: rcv_control_dl_ack_nack", "src/decoding.cpp: decode_gprs_acknack_bits, handle_final_ack", "src/tbf_dl.cpp: update_window, rcvd_dl_ack", "src/gsm_rlcmac.c: Packet_Downlink_Ack_Nack_t"]}
{"id": "C86", "title": "The radio measurements kept for a mobile are those last made of it and last reported by it", "statement": "For every history of blocks received from a mobile, the level, bit error rate, timing and link quality the PCU holds for it are those the BTS indicated with the last block, and the C value, RXQUAL, SIGN_VAR and interference levels are those of the last message of the mobile that carries them, converted to the nearest unit; nothing older survives and nothing is taken from another place of the message.", "quantifier": "every history of data and control blocks of a mobile, every content of PACKET DOWNLINK ACK/NACK and PACKET RESOURCE REQUEST, with every combination of their optional parts", "why_tests_cant": "The position of each field depends on all the optional parts before it, including a radio access capability of variable length, and what is kept depends on the whole history.", "anchors": ["src/pdch.cpp: get_meas, get_rx_qual_meas, rcv_control_dl_ack_nack, rcv_control_egprs_dl_ack_nack, rcv_resource_request, rcv_cell_change_notification", "src/gprs_ms.c: ms_update_l1_meas", "src/pcu_l1_if.h: struct pcu_l1_meas", "src/pcu_l1_if.cpp: pcu_rx_data_ind"]}
{"id": "C87", "title": "A saved configuration, read at the next start, gives the same configuration", "statement": "Whatever configuration commands an operator has given, accepted or refused, writing the configuration to a file and starting with that file gives the same settings: no line the PCU has written is refused when it is read, and every setting has the value it had. At all times every setting lies in the range documented for its command.", "quantifier": "all files read at the start, all sequences of lines typed afterwards, with any words and numbers, and all settings of the PCU node", "why_tests_cant": "the settings are changed by some sixty commands in any order, and writing depends on the combination of values reached; tests compare a handful of example files", "anchors": ["src/pcu_vty.c:config_write_pcu", "src/pcu_vty.c:pcu_vty_init", "src/pcu_vty.c:cfg_pcu_*", "src/gprs_pcu.c:gprs_pcu_alloc", "src/gprs_pcu.c:gprs_pcu_set_max_cs", "src/pcu_main.cpp:main"]}
{"id": "C88", "title": "The occupancy and TBF statistics say what is there", "statement": "At every moment the statistics of a cell agree with the cell: pdch.available is the number of timeslots in service, pdch.occupied is the number of timeslots that at least one TBF uses, pdch.occupied.gprs and .egprs the numbers used by at least one TBF of that mode, and the TBFs allocated less the TBFs freed, uplink and downlink, are the TBFs that exist. A refused request counts as one failed allocation and nothing else. The flag behind the counter of seconds in which all enabled PDCH resources were allocated is up exactly when timeslots are in service and no further TBF can be allocated.", "quantifier": "all histories of requests, upgrades, frees, refusals and timeslots going in and out of service, all mobiles and all allocation algorithms", "why_tests_cant": "the numbers are kept incrementally, with thresholds on the old value, by code on every path on which a TBF comes or goes; one path that forgets an update shifts them for good, and tests look at them after a few fixed sequences", "anchors": ["src/pdch.cpp:num_tbfs_update", "src/pdch.cpp:gprs_rlcmac_pdch::enable", "src/pdch.cpp:gprs_rlcmac_pdch::disable", "src/pdch.cpp:pdch_is_full", "src/pdch.cpp:pdch_free_all_tbf", "src/bts.cpp:bts_all_pdch_allocated", "src/tbf.cpp:tbf_free", "src/tbf_ul.cpp:ul_tbf_alloc", "src/tbf_dl.cpp:dl_tbf_alloc", "src/gprs_ms.c:ms_new_ul_tbf_rejected_pacch"]}
{"id": "C89", "title": "Every data block is counted once, under its coding scheme", "statement": "Every radio block with data that is sent or received is counted once in the cell and once in its TBF, under the coding scheme it was sent or received with; the counter that moves is the one whose published name is that of the scheme and direction, no other counter moves with it, and counting never meets a group of counters that the TBF does not have. The full statement is false in the downlink: a block of MCS-9 (MCS-7) sent alone goes out as MCS-6 (MCS-5) but is counted as MCS-9 (MCS-7).", "quantifier": "every history of uplink and downlink TBFs of a cell: start and end of TBFs, new blocks of any scheme of the TBF's mode, retransmissions with any commanded scheme, radio blocks with one or two data blocks, received blocks of any scheme, interleaved in any way, with any values before", "why_tests_cant": "The enumerations and the tables of names are four pairs of separate lists that must stay in the same order, the switches are written out per scheme and direction, and only one of a downlink TBF's two groups exists, so a wrong entry shows only in a history that uses that scheme in that mode; tests sample a few schemes.", "anchors": ["src/tbf_dl.cpp: gprs_rlcmac_dl_tbf::update_coding_scheme_counter_dl, create_dl_acked_block, dl_tbf_alloc", "src/tbf_ul.cpp: gprs_rlcmac_ul_tbf::update_coding_scheme_counter_ul, rcv_data_block_acknowledged", "src/bts.h: CTR_GPRS_DL_CS1 and the following", "src/bts.cpp: bts_ctr_description", "src/coding_scheme.c: mcs_dec_to_single_block"]}
{"id": "C90", "title": "The figures of throughput, loss and received level are those of the transfer", "statement": "The throughput shown to the operator for a downlink transfer, and the logged percentage of lost blocks and mean received level, are computed about once a second from all observations since the previous figure, each observation entering exactly one figure: the throughput is the rate of the LLC data finished, in kilobits per second, the loss is the percentage of the blocks reported lost, the level is the mean of the levels measured. False in two points: the throughput labelled Kbps is in octets per second, and a block whose level is not known counts as 0 dBm.", "quantifier": "every sequence of finished frames, downlink reports and uplink blocks with any sizes, counts, levels and times", "why_tests_cant": "The figures depend on when observations fall relative to earlier ones and on accumulators of 16 and 32 bits and a division by an elapsed time made of shifted parts; tests do not look at them.", "anchors": ["src/gprs_rlcmac_meas.cpp: gprs_rlcmac_dl_bw, gprs_rlcmac_received_lost, gprs_rlcmac_lost_rep, gprs_rlcmac_rssi, gprs_rlcmac_rssi_rep", "src/pcu_vty_functions.cpp: show_ms (Current DL Throughput)", "src/tbf_ul.cpp: rcv_data_block_acknowledged", "src/tbf_dl.h: BandWidth"]}
{"id": "C91", "title": "The counters of octets agree with the frames carried", "statement": "llc:dl_bytes and llc:ul_bytes count the octets of the LLC frames of the network carried completely in each direction, and rlc:dl_payload_bytes and rlc:ul_payload_bytes count in addition exactly the octets already carried of the frame under way: over any history the RLC figure of a TBF exceeds its LLC figure by the part of the unfinished frame, never counting an octet twice or leaving one out. False downlink in two points: dummy frames that keep a TBF going are counted as LLC data, and in GPRS the last frame of a TBF is counted even when its end cannot be told from filling, so that no receiver gets it.", "quantifier": "every sequence of frames, block lengths and ends of TBFs downlink; every sequence of received blocks uplink", "why_tests_cant": "The amounts are computed apart from the copying, in seven cases of the segmentation that depend on how each frame falls on the block boundaries; tests do not read the counters.", "anchors": ["src/tbf_dl.cpp: create_new_bsn", "src/encoding.cpp: rlc_data_to_dl_append (count_payload)", "src/tbf_ul.cpp: assemble_forward_llc", "src/bts.cpp: rlc:dl_payload_bytes, llc:dl_bytes, rlc:ul_payload_bytes, llc:ul_bytes"]}
{"id": "C92", "title": "What is displayed of the transfers is what there is", "statement": "'show tbf all' lists every TBF that has been assigned and not released exactly once; 'show tbf ccch' and 'show tbf pacch' divide them by the channel on which they were assigned; and the PACCH timeslot that 'show ms' displays is the timeslot of the mobile's control messages. True of uplink TBFs, of downlink TBFs until their data is acknowledged, and of the PACCH right after an allocation with established TBFs in both directions on the reserved timeslots. False otherwise: a downlink TBF assigned on the CCCH vanishes from all three lists once its data is acknowledged, while it still exists; and for a downlink TBF alone the timeslot displayed can differ from the control timeslot.", "quantifier": "every history of events and timers of each TBF, every set of TBFs and TRX, every pair of timeslot sets, every allocation", "why_tests_cant": "The lists are filtered by flags that many transitions set and clear, and the displayed timeslot is computed apart from the control timeslot; no test reads the output of these commands.", "anchors": ["src/pcu_vty.c: show_tbf", "src/pcu_vty_functions.cpp: pcu_vty_show_tbf_all, show_ms", "src/gprs_ms.c: ms_current_pacch_slots", "src/tbf.cpp: tbf_is_tfi_assigned, dl_slots, ul_slots", "src/tbf_dl_fsm.c: st_wait_release_on_enter"]}
{"id": "C93", "title": "The timeslots displayed count the transfers there are, and a TLLI typed in is the one looked for", "statement": "After any history, 'show bts pdch' displays each TRX with an enabled timeslot once and no other, with its eight timeslots, whether each is enabled, and exactly the numbers of downlink and uplink TBFs that use it; every TBF is counted on every timeslot of its own. 'show ms tlli' takes its argument if and only if it is a hexadecimal numeral of at most 32 bits, and then as that number, so that a TLLI displayed by 'show ms' and typed in again is the same TLLI.", "quantifier": "every history of allocations, upgrades, releases and reconfigurations of timeslots; every non-empty argument; every TLLI", "why_tests_cant": "The numbers are separate counters kept up through every attach and detach; the argument goes through a signed conversion that saturates and is then compared as unsigned, so each kind of malformed or oversized argument is a case of its own.", "anchors": ["src/pcu_vty_functions.cpp: pcu_vty_show_bts_pdch, show_ms", "src/pdch.h: num_tbfs", "src/pdch.cpp: num_tbfs_update", "src/pcu_vty.c: show_ms_tlli"]}
{"id": "C94", "title": "The mobiles displayed are those present, and each is found by what is displayed of it", "statement": "After any history of accesses, announced TLLIs, downlink data and releases of contexts, with TLLIs that exist, 'show ms all' displays every mobile context once and the statistic ms.present is their number. The TLLI displayed of a mobile, given to 'show ms tlli', displays that mobile, unless it is ffffffff, which is displayed if and only if the mobile has no TLLI. Any argument of 'show ms tlli' gives a mobile if and only if it is a hexadecimal numeral of one of its TLLIs, old or new, and 'show ms imsi' gives a mobile if and only if the IMSI is its own.", "quantifier": "every history of operations on the contexts of a cell with TLLIs that exist; every argument", "why_tests_cant": "Contexts are made, merged and freed on several paths, each of which must keep the list and the statistic in step, and no two contexts may ever share an identity for a look-up to be unambiguous.", "anchors": ["src/pcu_vty_functions.cpp: show_ms, pcu_vty_show_ms_all, pcu_vty_show_ms_by_tlli, pcu_vty_show_ms_by_imsi", "src/bts.cpp: bts_get_ms", "src/gprs_ms.h: ms_tlli, ms_check_tlli", "src/gprs_ms.c: ms_alloc, ms_talloc_destructor"]}
{"id": "C95", "title": "GSMTAP shows the traffic of the categories switched on, and no other", "statement": "After any sequence of the commands 'gsmtap-category NAME', 'no gsmtap-category NAME', 'gsmtap-category enable-all' and 'disable-all', a block or access burst on the air gives exactly one GSMTAP packet if the category it belongs to is switched on, and none if not. The packet contains the block unchanged, or the 8 or 11 bits of the access burst high-order bits first, and is labelled with the channel, the direction, the ARFCN of the TRX, the timeslot and the frame number of the traffic. No TRX number that the BTS sends makes the PCU access memory outside its table of TRX.", "quantifier": "every sequence of commands, every block and access burst, every TRX number", "why_tests_cant": "Every pair of a category and a kind of traffic, and every history of commands that switch categories on and off, must be right; a TRX number that no test sends reads outside the table.", "anchors": ["src/pcu_vty.c: cfg_pcu_gsmtap_categ, cfg_pcu_no_gsmtap_categ, cfg_pcu_gsmtap_sapi_all", "src/bts.cpp: bts_send_gsmtap, bts_send_gsmtap_meas, bts_send_gsmtap_rach, bts_rcv_rach, bts_rcv_ptcch_rach", "src/gprs_rlcmac_sched.cpp: tap_n_acc", "src/pcu_l1_if.cpp: pcu_l1if_tx_ptcch, pcu_l1if_tx_agch2, pcu_l1if_tx_pch2, pcu_rx_data_ind"]}
{"id": "C96", "title": "A mobile that asks for a single block transmits in the block reserved for it", "statement": "An access burst that asks for a single block is rejected if and only if the cell has no enabled timeslot. Otherwise the mobile reads in the Immediate Assignment the timeslot, training sequence and frequencies of an enabled timeslot, its own request and the timing advance measured; and in whatever frame until the block it reads the message, the starting time, interpreted as 3GPP TS 44.018 prescribes, is the frame of an uplink block that was free and is from then on reserved for this request.", "quantifier": "every configuration of timeslots, every history of reservations on them, every access burst and measured delay, every frame in which the message is read", "why_tests_cant": "The frame number passes through the choice of a free block, a reduction modulo 42432 and the split into T1', T2 and T3, and is rebuilt by the mobile relative to its own clock; the chain must hold across the wrap of the hyperframe and for any number of reservations pending.", "anchors": ["src/bts.cpp: bts_alloc_sba, bts_rcv_rach", "src/sba.c: sba_alloc", "src/pdch_ul_controller.c: pdch_ulc_get_next_free_fn", "src/encoding.cpp: write_immediate_assignment", "src/pcu_l1_if.h: qta2ta"]}
