{
 "claims": [
  {
   "property": "C01",
   "status": "proved",
   "theorems": [
    "C01_dl_window_never_overruns",
    "C01_dl_window_total",
    "C01_shrinking_window_refuted"
   ],
   "note": "Proved for windows whose size never shrinks while blocks are outstanding; C01_shrinking_window_refuted shows the code overruns otherwise (the stalled test is an equality)."
  },
  {
   "property": "C02",
   "status": "proved",
   "theorems": [
    "C02_only_acked_blocks_are_passed",
    "C02_lower_edge_unacked",
    "C02_state_matches_history"
   ],
   "note": "The final acknowledgement, which ends the transfer, is excluded."
  },
  {
   "property": "C03",
   "status": "proved",
   "theorems": [
    "C03_oldest_resend_first",
    "C03_mark_for_resend",
    "C03_count_unacked"
   ],
   "note": ""
  },
  {
   "property": "C04",
   "status": "partial",
   "theorems": [
    "C04_report_effect",
    "C04_gprs_report",
    "C04_egprs_report_bow",
    "C04_egprs_report_no_bow_refuted",
    "C04_egprs_old_ssn_refuted"
   ],
   "note": "GPRS reports and EGPRS reports with BOW and a valid SSN are proved. Two cases are refuted of the code: reports without BOW are applied from V(A) instead of SSN-1, and SSN is not validated."
  },
  {
   "property": "C05",
   "status": "proved",
   "theorems": [
    "C05_delivered_once_in_order",
    "C05_delivers_what_was_sent",
    "C05_ul_window_total",
    "C05_end_of_data"
   ],
   "note": "All accepted window sizes and sequence spaces; window size may grow. End-of-data theorem for windows below 1024."
  },
  {
   "property": "C06",
   "status": "partial",
   "theorems": [
    "C06_gprs_arrived_is_acked",
    "C06_egprs_arrived_is_acked",
    "C06_delivery_is_prompt",
    "C06_last_of_gprs_window_refuted",
    "C06_window_1024_refuted",
    "C06_window_over_512_refuted"
   ],
   "note": "Proved for GPRS except the arrival of the very last number of an empty window, and for EGPRS windows up to 512 whose bitmap fits the message. Refuted of the code for those exceptions: last number of an empty 64-block window, windows over 512 (state array of 1024 entries aliases), window 1024."
  },
  {
   "property": "C07",
   "status": "partial",
   "theorems": [
    "C07_gprs_bitmap_truth",
    "C07_egprs_bitmap_truth",
    "C07_egprs_report_partial",
    "C07_count_refuted",
    "C07_makeup_refuted",
    "C07_spill_refuted"
   ],
   "note": "GPRS bitmap and uncompressed EGPRS bitmap proved. The compressed EGPRS report is proved truthful when at most 255 blocks are pending and no run of 64 or more is cut for lack of room. Refuted outside that range: the 8-bit count of covered blocks (C07_count_refuted), a make-up word without its terminating word (C07_makeup_refuted), and bits written past the report (C07_spill_refuted)."
  },
  {
   "property": "C08",
   "status": "partial",
   "theorems": [
    "C08_cps_round_trip",
    "C08_mcs9_round_trip_refuted",
    "C08_cps_identifies"
   ],
   "note": "Proved for all MCS except MCS-9 with a first puncturing scheme other than the first: there the decoder is wrong (C08_mcs9_round_trip_refuted). Also proved: within a header type the indicator is injective and fits its field."
  },
  {
   "property": "C09",
   "status": "proved",
   "theorems": [
    "C09_no_failure",
    "C09_scheme_valid",
    "C09_next_scheme",
    "C09_all_schemes_used"
   ],
   "note": "Over every history of one block: any commanded schemes, both ARQ types, alone or paired."
  },
  {
   "property": "C10",
   "status": "proved",
   "theorems": [
    "C10_size_identifies_scheme",
    "C10_size_unknown",
    "C10_blocks_fit",
    "C10_families",
    "C10_tables_consistent"
   ],
   "note": ""
  },
  {
   "property": "C11",
   "status": "proved",
   "theorems": [
    "C11_increase",
    "C11_decrease",
    "C11_other_mode",
    "C11_plain_step"
   ],
   "note": ""
  },
  {
   "property": "C12",
   "status": "partial",
   "theorems": [
    "C12_retransmission_table",
    "C12_table_is_used",
    "C12_mcs8_exceeds_command_refuted",
    "C12_second_block_same_scheme",
    "C12_pieces_of_block",
    "C12_mcs4_second_half_refuted"
   ],
   "note": "The table is proved optimal for all inputs. Refuted of the code: blocks first sent with MCS-8 ignore the command; an MCS-4 block recommanded to MCS-4 between its two halves is sent from octet 22."
  },
  {
   "property": "C13",
   "status": "proved",
   "theorems": [
    "C13_next_block",
    "C13_rts_next",
    "C13_block_number",
    "C13_valid",
    "C13_period",
    "C13_any_frame_refuted"
   ],
   "note": "Block raster for every block start of the hyperframe: next block, scheduler step, block number, validity, period over any number of multiframes and the hyperframe. For frames that are not block starts the claims fail (C13_any_frame_refuted); the code only applies the functions to block starts, apart from a log message."
  },
  {
   "property": "C14",
   "status": "partial",
   "theorems": [
    "C14_congruent",
    "C14_past_exact",
    "C14_ahead_same_cycle",
    "C14_ahead_next_cycle_refuted",
    "C14_threshold_refuted"
   ],
   "note": "Exact for ages 0..21215 and for bursts ahead within the same RFN cycle, over the whole hyperframe. Refuted: age exactly 21216 in the previous cycle, and bursts ahead of the clock across a cycle boundary."
  },
  {
   "property": "C15",
   "status": "proved",
   "theorems": [
    "C15_table",
    "C15_reserve",
    "C15_release_frame",
    "C15_release_tbf"
   ],
   "note": "Refinement of the search tree to a plain table for every history of reserve/release/expire whose frames stay less than half a hyperframe ahead; tree shape arbitrary."
  },
  {
   "property": "C16",
   "status": "proved",
   "theorems": [
    "C16_rrbp",
    "C16_candidates",
    "C16_candidate_unique"
   ],
   "note": "Poll frame is the unique one the mobile derives; refusal only when all four candidates are taken."
  },
  {
   "property": "C17",
   "status": "proved",
   "theorems": [
    "C17_expire"
   ],
   "note": "Exact effect of expiry including TBFs freed by timeout handlers."
  },
  {
   "property": "C18",
   "status": "partial",
   "theorems": [
    "C18_dequeue",
    "C18_enqueue",
    "C18_priority",
    "C18_put_back",
    "C18_merge",
    "C18_history",
    "C18_give_back",
    "C18_dummy_refuted",
    "C18_empty_frame_refuted"
   ],
   "note": "Proved for dequeue, enqueue, put-back, merge, clear and giving back unacknowledged frames over all histories. Refuted where the code differs: dummy frames sent before the first acknowledgement are put back into the queue (C18_dummy_refuted) and frames of length 0 are lost (C18_empty_frame_refuted)."
  },
  {
   "property": "C19",
   "status": "proved",
   "theorems": [
    "C19_counts",
    "C19_merge",
    "C19_give_back",
    "C19_report"
   ],
   "note": "Counts are 64-bit, so equality is modulo 2^64."
  },
  {
   "property": "C20",
   "status": "partial",
   "theorems": [
    "C20_delivered_in_time",
    "C20_dropped_late",
    "C20_dropped_hysteresis",
    "C20_infinite",
    "C20_only_age",
    "C20_hysteresis_refuted"
   ],
   "note": "Delivered frames are never overdue; without hysteresis only overdue frames are dropped for age. With llc-discard hysteresis configured, long user frames are dropped up to the hysteresis early (C20_hysteresis_refuted)."
  },
  {
   "property": "C21",
   "status": "proved",
   "theorems": [
    "C21_queue",
    "C21_whole_interval",
    "C21_first_drop",
    "C21_pace",
    "C21_law",
    "C21_burst_refuted"
   ],
   "note": "The pace bound is cumulative within a dropping phase; drops may catch up in bursts (C21_burst_refuted)."
  },
  {
   "property": "C22",
   "status": "partial",
   "theorems": [
    "C22_egprs",
    "C22_gprs_open",
    "C22_gprs_partial",
    "C22_gprs_final_refuted",
    "C22_lengths",
    "C22_dummy"
   ],
   "note": "EGPRS in full (C22_egprs), GPRS for every TBF up to its final block (C22_gprs_open). For the GPRS final block the property is false of the code: a last frame that exactly fills the final block behind another frame leaves the M bit of the previous length indicator 0 and is lost (C22_gprs_final_refuted); C22_gprs_partial bounds the loss to that frame. Offsets are nat and octets Z; the source of end decisions is arbitrary. The block counters and windows are in C01-C04. Dummy frames are covered by C22_dummy."
  },
  {
   "property": "C23",
   "status": "partial",
   "theorems": [
    "C23_chunks",
    "C23_no_overread",
    "C23_tlli_partial",
    "C23_tlli_overread_refuted",
    "C23_standard",
    "C23_standard_whole"
   ],
   "note": "Chunks lie inside the block, in order, disjoint, at most 16; the result depends on the block's own octets; standard encodings are read as the standard says. Refuted part: with extended length indicators the lookup of the TLLI alone can read one octet behind the block (C23_tlli_overread_refuted); C23_tlli_partial bounds it to that one octet."
  },
  {
   "property": "C24",
   "status": "partial",
   "theorems": [
    "C24_overflow_refuted",
    "C24_no_overflow_partial",
    "C24_overflow_iff"
   ],
   "note": "The claim that the assembly buffer never overflows is false: C24_overflow_refuted. C24_overflow_iff gives the exact condition and C24_no_overflow_partial proves it for frames that fit."
  },
  {
   "property": "C25",
   "status": "proved",
   "theorems": [
    "C25_read",
    "C25_write",
    "C25_write_read",
    "C25_read_write",
    "C25_two_blocks",
    "C25_layout"
   ],
   "note": "Reading and writing at any bit offset is exact, in both directions, with no bit outside the field touched; the fields of every coding scheme are disjoint and inside the radio block."
  },
  {
   "property": "C26",
   "status": "partial",
   "theorems": [
    "C26_joined_partial",
    "C26_once",
    "C26_scheme",
    "C26_lengths",
    "C26_overflow_refuted",
    "C26_stale_refuted",
    "C26_stale_overflow_refuted",
    "C26_reuse"
   ],
   "note": "Proved for equal halves that fit the buffer and a clean place: any order, repetition, mixture with the whole block. Refuted: two MCS-4 halves (88 octets) overflow the 74 octet buffer; a place completed by the whole block after one half keeps its stale state and corrupts or overflows a later block."
  },
  {
   "property": "C27",
   "status": "partial",
   "theorems": [
    "C27_prefix_free",
    "C27_complete",
    "C27_decode",
    "C27_runs",
    "C27_lossless_partial",
    "C27_cut_refuted",
    "C27_count_refuted"
   ],
   "note": "Prefix-freeness, completeness for runs up to 1023, decoding of every run sequence and the round trip are proved. Refuted: a run of 64 or more cut for lack of room leaves its make-up word behind (C27_cut_refuted), and the count of covered bits is kept in 8 bits (C27_count_refuted). The round trip is proved outside the first case. libosmocore's bit vector functions are taken at their documented behaviour."
  },
  {
   "property": "C28",
   "status": "proved",
   "theorems": [
    "C28_alloc",
    "C28_history",
    "C28_new"
   ],
   "note": "Proved for every table state, algorithm (A, B, dynamic) and request, and for every history of creating, freeing, upgrading TBFs, switching timeslots and mobiles going idle: no assertion fails and no TFI or USF is ever used twice. Not modelled: error codes, statistics."
  },
  {
   "property": "C29",
   "status": "partial",
   "theorems": [
    "C29_multi",
    "C29_alloc_partial",
    "C29_single_refuted",
    "C29_class_refuted",
    "C29_common_refuted"
   ],
   "note": "C29_multi: the multislot search only gives sets the class can serve (all 45 classes, TS 45.002). C29_alloc_partial: reserved timeslots stay right, except for single-slot uplink requests. Three refutations: get_single_ts returns a timeslot number as a set; the class learnt after reserving; the uplink TBF leaving out the downlink TBF's timeslot."
  },
  {
   "property": "C30",
   "status": "proved",
   "theorems": [
    "C30_tfi"
   ],
   "note": "Exact: soundness, lowest TFI, TRX with most free TFIs, and failure only if none is free."
  },
  {
   "property": "C31",
   "status": "proved",
   "theorems": [
    "C31_tables",
    "C31_free"
   ],
   "note": "After any history, tables, TFI and USF bitmaps, TBF counters and reservation counters describe exactly the TBFs and mobiles (fewer than 256 mobiles). Detaching leaves all others reachable."
  },
  {
   "property": "C32",
   "status": "partial",
   "theorems": [
    "C32_dl_no_assertion",
    "C32_ul_no_assertion",
    "C32_dl_order",
    "C32_dl_assigned_again",
    "C32_ul_order",
    "C32_dl_release_partial",
    "C32_dl_upgrade_refuted",
    "C32_ul_release",
    "C32_dl_released_after_final_ack",
    "C32_dl_released_after_loss",
    "C32_ul_released_after_loss",
    "C32_ul_assigned_in_time",
    "C32_dl_t3192_zero_refuted"
   ],
   "note": "Both life-cycle machines with all timers, for every sequence of events (also unexpected ones), time steps and expirations and every timer setting: no assertion; states in order; each way of freeing the TBF is preceded by its guard (final ack + max(T3192,T3193); N3105 + T3195; final block + T3191; X2001; for uplink final ack, N310x + T3169, 4*T3168, T3141); and the TBF is indeed freed when the guard time passes. Refuted parts: a failed upgrade to multislot frees a TBF whose Immediate Assignment was just sent, without guard time; with T3192 = 0 the TFI is never released. Kills from other procedures are outside the machine."
  },
  {
   "property": "C33",
   "status": "partial",
   "theorems": [
    "C33_no_assertion",
    "C33_one_poll",
    "C33_poll_waits",
    "C33_waits_poll",
    "C33_dl_ass_poll_partial",
    "C33_dl_ass_abort_refuted",
    "C33_answer",
    "C33_timeout",
    "C33_guard_cut_short_refuted",
    "C33_in_use_freed_refuted"
   ],
   "note": "All three sub-machines with their polls, timers and the effects of the life-cycle machine. Proved for every operation list: no assertion; at most one uplink-assignment and uplink-ack poll, present exactly while waiting (unless the TBF is lost or awaits reuse); answers make the machine idle, timeouts retry, give up or declare the TBF lost. Downlink assignment: only without abort (partial); refuted with an abort in WAIT_ACK, which leaves the poll reserved. Also shown: the 4*T3168 timer of the uplink assignment frees a downlink TBF in use, or before T3195 has run."
  },
  {
   "property": "C34",
   "status": "partial",
   "theorems": [
    "C34_lost_exactly",
    "C34_lost_at_limit_partial",
    "C34_never_beyond_partial",
    "C34_lowered_limit_refuted",
    "C34_zero_limit"
   ],
   "note": "Lost exactly when the count of blocks missed in a row, modulo 256, equals the limit in force, for every run including reconfiguration. For an unchanged limit of 1..255: lost exactly at the limit, never beyond, and then being released. Refuted when the limit is lowered below the count at run time (equality test on uint8_t); limit 0 means 256."
  },
  {
   "property": "C35",
   "status": "partial",
   "theorems": [
    "C35_old_until_both",
    "C35_used",
    "C35_during",
    "C35_completed",
    "C35_only_new",
    "C35_store",
    "C35_unconfirmed_refuted",
    "C35_reserved_refuted",
    "C35_old_tlli_refuted",
    "C35_old_first_refuted"
   ],
   "note": "Proved for every history of uses from an agreed TLLI (and from a new context), and store-wide uniqueness and exact lookup for all histories with existing TLLIs. Refuted corners: a TLLI used only by the mobile is dropped when the mobile uses another; the reserved value from the SGSN during a change makes the context unreachable; gprs_bssgp_pcu.c:167-176 reads only 16 bits of the old TLLI (and tests the length of another element), so the old context is not found; dl_tbf_handle with a correct old TLLI could give one TLLI to two contexts."
  },
  {
   "property": "C36",
   "status": "partial",
   "theorems": [
    "C36_count",
    "C36_idle_exactly",
    "C36_not_in_use",
    "C36_at_once",
    "C36_idle_timer",
    "C36_released",
    "C36_no_assert",
    "C36_hold_timer_refuted",
    "C36_reset_refuted",
    "C36_never_used_refuted",
    "C36_destroy_refuted"
   ],
   "note": "Count, idleness, frees and release proved for every history of one context. Under the calling discipline of the program (allowed/outside in Spec/MsRefSpec.v, checked by reading all call sites). Refuted beyond it: a hold does not stop the release timer; ms_reset never returns if an old TBF has a timer pending; a context never used is kept; freeing the cell with TBFs attached leaves the timer of freed memory running."
  },
  {
   "property": "C37",
   "status": "partial",
   "theorems": [
    "C37_within_limits_partial",
    "C37_startup",
    "C37_error_rate",
    "C37_one_step_per_second",
    "C37_block",
    "C37_gprs_block_partial",
    "C37_gprs_block_refuted",
    "C37_forced_refuted",
    "C37_lowered_refuted",
    "C37_disable_mcs_refuted"
   ],
   "note": "Limits, start-up scheme, error-rate reaction and one-step-per-second rate proved. Refuted with witnesses: a forced initial scheme above the maximum, a maximum lowered at run time, 'no mcs max' reaching an assertion, and a GPRS-kind downlink block one scheme above the maximum."
  },
  {
   "property": "C38",
   "status": "proved",
   "theorems": [
    "C38_choice",
    "C38_none",
    "C38_fair",
    "C38_fair_set",
    "C38_request",
    "C38_sync_refuted"
   ],
   "note": "Round-robin choice, emptiness, fairness within 32 (and within the number of participants). C38_sync_refuted documents that EGPRS TBFs are passed over in synchronisation blocks, which count as not eligible."
  },
  {
   "property": "C39",
   "status": "proved",
   "theorems": [
    "C39_one",
    "C39_distinct",
    "C39_repeated_refuted"
   ],
   "note": "For every reachable reservation table and every request for a block not requested before. C39_repeated_refuted: a second request for the same block invites a second mobile."
  },
  {
   "property": "C40",
   "status": "proved",
   "theorems": [
    "C40_choice",
    "C40_none",
    "C40_fair",
    "C40_age"
   ],
   "note": "Highest rank, ties round robin, none only if no TBF can send; ages exact across the hyperframe."
  },
  {
   "property": "C41",
   "status": "partial",
   "theorems": [
    "C41_rotation_partial",
    "C41_same_tbf_refuted",
    "C41_busy",
    "C41_sent_partial",
    "C41_app_info_refuted",
    "C41_app_info_lost",
    "C41_candidates",
    "C41_turn"
   ],
   "note": "Rotation within four rounds and turns within a TBF list proved. Refuted: Packet Application Information is created, thrown away and counted as delivered; a neighbour cell message starves behind acknowledgements of the same TBF."
  },
  {
   "property": "C42",
   "status": "partial",
   "theorems": [
    "C42_sync",
    "C42_usf_partial",
    "C42_resend_partial",
    "C42_usf_refuted",
    "C42_usf_stalled_refuted"
   ],
   "note": "At most 17 EGPRS data blocks in a row while a GPRS TBF is attached: proved for all histories. The stronger reading, that the USF of a GPRS mobile is always in a GMSK block, is refuted (retransmissions in MCS-8 or without splitting)."
  },
  {
   "property": "C43",
   "status": "proved",
   "theorems": [
    "C43_request",
    "C43_queued",
    "C43_once",
    "C43_starves_refuted"
   ],
   "note": "Round trip of the message against the standard's grammar, for every queue and over every history. The queue is last-in first-out: C43_starves_refuted shows that a record can wait for ever. The final self-decoding for the log is not modelled."
  },
  {
   "property": "C44",
   "status": "proved",
   "theorems": [
    "C44_reaches",
    "C44_only",
    "C44_once",
    "C44_known"
   ],
   "note": "For current uplink and downlink TBFs of every mobile; TBFs replaced by newer ones (old_tbfs) are not considered by the code."
  },
  {
   "property": "C45",
   "status": "proved",
   "theorems": [
    "C45_neigh_key",
    "C45_si_key",
    "C45_returns",
    "C45_latest",
    "C45_unique",
    "C45_removed",
    "C45_timer_due",
    "C45_late_lookup_refuted"
   ],
   "note": "Both caches are one generic model (keys compared with a test proved to be equality for both). A lookup returns the last value stored while less time passed than any keep time configured since; keys unique; what is returned is always the value stored last; after the keep time the cleanup timer is due and its run removes the entry. Shown as refuted: between the end of the keep time and the run of the timer the old value is still returned (lookup does not look at the age)."
  },
  {
   "property": "C46",
   "status": "partial",
   "theorems": [
    "C46_answer_partial",
    "C46_cached_partial",
    "C46_long_refuted"
   ],
   "note": "Round trip through the bits of the blocks as TS 44.060 lays them out, among any other events that do not concern the transfer; proved for up to 32 containers (573 octets). C46_long_refuted: the container index has 5 bits (index mod 32), so with 33 or more containers, which 28 messages of 21 octets in the answer of an SGSN take, an index appears twice and the mobile cannot reassemble. The last container is never full for every length."
  },
  {
   "property": "C47",
   "status": "partial",
   "theorems": [
    "C47_no_assertion",
    "C47_driven",
    "C47_continues",
    "C47_acknowledged",
    "C47_failures",
    "C47_lost_poll_refuted",
    "C47_zero_timer_refuted"
   ],
   "note": "No assertion for any history; every live machine has a running timer, is ready for the scheduler or waits for the poll of its Continue; from every reachable state a Continue follows after the timer or the end of the poll and a bounded number of scheduler requests. C47_lost_poll_refuted: if the TBF that carried the poll is freed, neither event is reported and no timer runs in that state, so the machine ignores repeated announcements for ever. C47_zero_timer_refuted: timers configured to 0 are not started. Kills of the machine with its mobile are outside the model."
  },
  {
   "property": "C48",
   "status": "partial",
   "theorems": [
    "C48_one_timer",
    "C48_no_assert",
    "C48_reported_partial",
    "C48_stop",
    "C48_wrong_subscriber_refuted",
    "C48_start_twice_refuted"
   ],
   "note": "Refinement to a per-subscriber specification: reported exactly while a page is neither stopped nor expired, one timer per IMSI, no assertion reachable. Partial because the stop looks up the TLLI among the P-TMSIs first: it needs that a TLLI equal to a paged P-TMSI is of that subscriber (C48_wrong_subscriber_refuted shows the failure). bts_pch_timer_start itself does not check for a timer (C48_start_twice_refuted); the only caller does."
  },
  {
   "property": "C49",
   "status": "partial",
   "theorems": [
    "C49_bounds",
    "C49_capacity",
    "C49_estimate_partial",
    "C49_scheme_partial",
    "C49_two_blocks_refuted",
    "C49_wrap_refuted",
    "C49_scheme_refuted",
    "C49_unit_refuted"
   ],
   "note": "Proved for every history of blocks sent, acknowledgements and reports: announced bucket sizes are 1..6553500 and leak rates at most the maximum (C49_bounds); without measurement the leak rate is the raw capacity of the timeslots (C49_capacity); with measurement it lies between the measured rate and the capacity while the counters are small and no more blocks are acknowledged than sent (C49_estimate_partial); the scheme used for the capacity is one the cell may use (C49_scheme_partial). Refuted: MCS-7..9 blocks count twice when acknowledged, so the estimate wraps to the maximum; bytes*1000*timeslots wraps in 32 bits; MCS-9 is assumed when the limit excludes every offered MCS; forced leak rates documented in bit/s are used as octets per second."
  },
  {
   "property": "C50",
   "status": "partial",
   "theorems": [
    "C50_size",
    "C50_announced",
    "C50_uplink_partial",
    "C50_uplink_refuted",
    "C50_window_monotone"
   ],
   "note": "The computed size is legal for the slot count and announced exactly in downlink assignments and Immediate Assignments; more slots never shrink it. Refuted for Packet Uplink Assignments: they always announce 64 (C50_uplink_partial, C50_uplink_refuted)."
  },
  {
   "property": "C51",
   "status": "partial",
   "theorems": [
    "C51_maxima",
    "C51_supported_partial",
    "C51_supported_refuted",
    "C51_cs1",
    "C51_gap_refuted"
   ],
   "note": "The maxima in force are the highest announced schemes not above the operator limit, for every configuration history. Refuted: the supported-scheme check accepts one scheme above the maximum (C51_supported_refuted; C51_supported_partial states exactly what it accepts), and link adaptation walks onto schemes the BTS did not announce (C51_gap_refuted)."
  },
  {
   "property": "C52",
   "status": "proved",
   "theorems": [
    "C52_header",
    "C52_block",
    "C52_usf",
    "C52_cps",
    "C52_distance"
   ],
   "note": "Headers of all schemes are read back as written and no other bit changes; with the copied data blocks the whole radio block is covered, the USF set later changes the USF alone. Field ranges are preconditions; C52_cps and C52_distance show that the puncturing value and the second block number always meet theirs (1023 is the largest distance the field can hold, C52_far)."
  },
  {
   "property": "C53",
   "status": "partial",
   "theorems": [
    "C53_legal",
    "C53_polled",
    "C53_polled_access",
    "C53_corrected",
    "C53_unknown_refuted",
    "C53_adjustment_partial",
    "C53_adjustment_refuted"
   ],
   "note": "TA always legal or the invalid marker, only polled mobiles change, corrected values exact, for every history. Refuted: a correction of an unknown TA gives 63 (C53_unknown_refuted); early bursts are corrected by one too many (C53_adjustment_refuted)."
  },
  {
   "property": "C54",
   "status": "partial",
   "theorems": [
    "C54_total",
    "C54_monotone",
    "C54_resync_partial",
    "C54_zero_refuted"
   ],
   "note": "Monotone block clock and resynchronisation proved; a frame clock reading 0 is never resynchronised (C54_zero_refuted), so the resynchronisation theorem excludes it."
  },
  {
   "property": "C55",
   "status": "proved",
   "theorems": [
    "C55_echo",
    "C55_lookup",
    "C55_uplink_refused",
    "C55_room",
    "C55_room_refuted"
   ],
   "note": "Every TLLI, timeslot and hopping list (C55_echo, C55_lookup), and no uplink assignment is mistaken (C55_uplink_refused). C55_room_refuted records that with hopping lists of three or more octets the downlink assignment may not fit and is never sent."
  },
  {
   "property": "C56",
   "status": "proved",
   "theorems": [
    "C56_8bit",
    "C56_11bit",
    "C56_total",
    "C56_foreign_refuted"
   ],
   "note": "8-bit and 11-bit classification equal the 44.060 tables for every value; C56_foreign_refuted records that 8-bit bursts outside the packet-access ranges are still treated as one-phase access."
  },
  {
   "property": "C57",
   "status": "proved",
   "theorems": [
    "C57_alloc",
    "C57_owned"
   ],
   "note": "SBA frame free, on the raster, 52 or more frames ahead, earliest such, reserved; stays owned until released or expired."
  },
  {
   "property": "C58",
   "status": "partial",
   "theorems": [
    "C58_history",
    "C58_step",
    "C58_available_partial",
    "C58_available_refuted"
   ],
   "note": "No TAI held twice and sub-slot lookup exact for every history. Refuted: stray PTCCH bursts can exhaust the indices (C58_available_refuted)."
  },
  {
   "property": "C59",
   "status": "partial",
   "theorems": [
    "C59_uplink",
    "C59_uplink_room",
    "C59_downlink",
    "C59_reference",
    "C59_downlink_egprs_partial",
    "C59_bep_refuted",
    "C59_reject_partial",
    "C59_reject_refuted"
   ],
   "note": "Uplink and GPRS downlink assignments are decoded exactly (C59_uplink, C59_downlink). Refuted: EGPRS downlink assignments announce a BEP_PERIOD2 that is not there (C59_bep_refuted); rejects of 11-bit accesses name a second mobile (C59_reject_refuted)."
  },
  {
   "property": "C60",
   "status": "partial",
   "theorems": [
    "C60_continue_partial",
    "C60_data_partial",
    "C60_local_refuted",
    "C60_utran_refuted"
   ],
   "note": "Proved for GSM targets outside this PCU with caches and answers that agree with the network. C60_local_refuted: for a neighbour served by this PCU st_wait_request_si_on_enter sends the system information of the cell the mobile is in (bts instead of bts_i). C60_utran_refuted: after a GSM target and then a UTRAN one the Continue names the GSM cell."
  },
  {
   "property": "C61",
   "status": "partial",
   "theorems": [
    "C61_mean_partial",
    "C61_mean_refuted"
   ],
   "note": "The reported value is exactly floor(sum/1s)*1000 divided by the number of frames (C61_mean_partial, any history). The full claim is refuted (C61_mean_refuted): nanoseconds are divided by 10^9 instead of 10^6, so sums below a second report 0."
  },
  {
   "property": "C62",
   "status": "partial",
   "theorems": [
    "C62_ul_header",
    "C62_foreign_cps_refuted"
   ],
   "note": "Every message long enough for its scheme is read as the standard's layout says and never outside it, if the coding and puncturing value is one of the scheme's. Missing: MCS-3 and MCS-6 blocks with a foreign value are not refused but taken as padded (C62_foreign_cps_refuted)."
  },
  {
   "property": "C63",
   "status": "partial",
   "theorems": [
    "C63_inside",
    "C63_members_partial",
    "C63_members_refuted",
    "C63_racap"
   ],
   "note": "Model: the CSN.1 stream decoder interpreting 140 tables generated from gsm_rlcmac.c with the byte offsets of gsm_rlcmac.h (Model/Csn1.v, Model/Csn1Tables.v). Proved for every octet string: termination with a result, no access outside RlcMacUplink_t (1380 bytes) or MS_Radio_Access_capability_t (760 bytes), and for all message types but three no access outside the member meant. Refuted for those three: NC_Measurements[6] takes 7 elements (3-bit count) in measurement reports and cell change notifications, Measurements_3G[6] takes 8, Packet_Pause_t.RAI[6] is written with 8 octets; the overrun stays inside the union. Not modelled: the logging macros."
  },
  {
   "property": "C64",
   "status": "partial",
   "theorems": [
    "C64_procedure_partial",
    "C64_pause_refuted",
    "C64_control_ack",
    "C64_dl_ack_nack",
    "C64_resource_request",
    "C64_measurement_report",
    "C64_cell_change_notification",
    "C64_egprs_ack_nack"
   ],
   "note": "Proved: dispatch for all types but PACKET PAUSE, and the fields used by the procedures for control ack, downlink ack/nack, resource request, measurement report (TLLI), cell change notification (GSM target), and EGPRS downlink ack/nack with any of its optional parts. Refuted for PACKET PAUSE: its table declares the message type as the first 2 bits, so the dispatcher sees the payload type and treats the block as a PACKET CONTROL ACK (payload type 1) with a TLLI from wrong bits."
  },
  {
   "property": "C65",
   "status": "partial",
   "theorems": [
    "C65_uplink_gprs",
    "C65_uplink_egprs_partial",
    "C65_uplink_window_refuted",
    "C65_uplink_sent_partial",
    "C65_uplink_sent_refuted",
    "C65_hopping_sent_refuted",
    "C65_downlink_gprs",
    "C65_downlink_egprs_partial",
    "C65_downlink_egprs_refuted",
    "C65_downlink_sent_partial",
    "C65_downlink_known_refuted",
    "C65_downlink_unknown_refuted",
    "C65_info_partial",
    "C65_info_refuted"
   ],
   "note": "Proved for the encoder (csnStreamEncoder over the tables of the two messages, from the bytes of the structure that write_packet_*_assignment fills) against an independent reader of the message: a GPRS assignment that is sent tells everything (uplink and downlink, with or without hopping); an EGPRS uplink assignment tells everything but the window, which always reads as 64 (encoding.cpp:647 stores the number of blocks instead of its code); an EGPRS downlink assignment tells everything unless the carrier hops. Sent is proved without hopping (uplink: at most 7 timeslots; downlink: mobile with a TLLI). Refuted: an EGPRS uplink assignment with TLLI, TA, power control and 8 timeslots is one bit too long and never sent; with a mobile allocation of 24 bits already 4 timeslots are too many; an EGPRS downlink assignment that is exactly full before the release 99 additions is sent without them, so the mobile is told a GPRS TBF; tbf_dl_ass_fsm.c:86 is inverted (known TFI and no TLLI: nothing is sent; unknown TFI and no TLLI: sent to 0xffffffff); INFO.ind without hopping does not switch hopping off. Assumed: all timeslots of the TBF have the same carrier parameters, values are within their fields."
  },
  {
   "property": "C66",
   "status": "proved",
   "theorems": [
    "C66_data",
    "C66_data_same",
    "C66_continue",
    "C66_continue_same"
   ],
   "note": "The structures are filled as the code does and go through the model of the CSN.1 encoder; encoding never fails, and the bits are those of which C46 and C60 speak."
  },
  {
   "property": "C67",
   "status": "proved",
   "theorems": [
    "C67_reject"
   ],
   "note": "Over the range of T3172 that the VTY accepts."
  },
  {
   "property": "C68",
   "status": "partial",
   "theorems": [
    "C68_gprs",
    "C68_egprs_short",
    "C68_egprs_partial",
    "C68_egprs_spill_refuted"
   ],
   "note": "GPRS: full statement for every reachable window, read back by an independent reader of the whole message. EGPRS: full if the report has room uncompressed (78 to 118 blocks); otherwise with the exclusions of C07 and if the description fits. Refuted: a description longer than its room is cut while its length field is not, and the mobile cannot read the message at all."
  },
  {
   "property": "C69",
   "status": "proved",
   "theorems": [
    "C69_acknowledged_is_received",
    "C69_answer_taken",
    "C69_completes"
   ],
   "note": "Closed loop of the PCU window, the air and a truthful mobile, by induction over all interleavings; the final acknowledgement ends the loop and is not part of it. Reports without the beginning of the window, or arriving out of order, are taken wrongly: C04_egprs_report_no_bow_refuted, C04_egprs_old_ssn_refuted."
  },
  {
   "property": "C70",
   "status": "partial",
   "theorems": [
    "C70_gprs",
    "C70_egprs_partial",
    "C70_egprs_refuted",
    "C70_egprs_blind_refuted",
    "C70_rate"
   ],
   "note": "Proved for GPRS (128 sequence numbers) in every reachable window state, and for EGPRS if the number behind the last reported block is below 256. Refuted beyond: analyse_errors takes the 11 bit number as uint8_t, so state, scheme and size of other blocks are looked at; witnesses: both blocks lost but rate 18% (C70_egprs_refuted), ten of ten lost but no rate (C70_egprs_blind_refuted). That the stored scheme and length of a block are those it was last sent with is not part of this model (dl_store is arbitrary)."
  },
  {
   "property": "C71",
   "status": "proved",
   "theorems": [
    "C71_frames",
    "C71_prefix",
    "C71_finished",
    "C71_all",
    "C71_total"
   ],
   "note": "Composition of the receive window (C05), the length indicator parser (C23) and the frame buffer (C24) against a sender-side specification of how a mobile cuts frames into blocks (Spec/UlFramesSpec.v). Frames other than a continued part are assumed to have at least 4 octets (so the 16 chunks of the parser suffice in 74 octets); a PFI is excluded (the code refuses it). That the mobile stays within the window seen from the PCU's V(Q) is a hypothesis here and proved for a mobile that follows the reports in C72. The finish signal needs a window below 1024."
  },
  {
   "property": "C72",
   "status": "partial",
   "theorems": [
    "C72_known",
    "C72_window",
    "C72_heard",
    "C72_transfer",
    "C72_total",
    "C72_live_egprs",
    "C72_live_gprs_partial",
    "C72_live_gprs_refuted"
   ],
   "note": "PCU (window, block store, frame buffer) and a mobile that follows the reports, composed with lossy, delaying FIFO channels. Proved for all runs: what the mobile knows as acknowledged has arrived (known), V(A) = V(Q) at the time of the report heard last (heard, window), every run is a transfer in the sense of C71 (transfer), the PCU can process all the mobile may send (total), EGPRS transfers can be completed from every state (live_egprs). Missing: GPRS completion, which is false (live_gprs_refuted): if the first block to arrive of a window of 64 is its last one, it is marked received but V(R) is not raised (offset 64 is not below 128/2, rlc_window_ul.cpp:33-52); if it is also the last block of the transfer, all its repetitions are dropped as duplicates and it is never delivered nor acknowledged. live_gprs_partial proves completion when this did not happen. EGPRS reports are the uncompressed ones (see C68 for compression); the window hypothesis of C71 is proved here."
  },
  {
   "property": "C73",
   "status": "partial",
   "theorems": [
    "C73_layout_data",
    "C73_layout_rts",
    "C73_layout_rach",
    "C73_layout_info",
    "C73_layout_neighbour",
    "C73_memory_partial",
    "C73_memory_refuted",
    "C73_memory_rts_refuted",
    "C73_alive_partial",
    "C73_alive_refuted",
    "C73_short",
    "C73_others",
    "C73_timers_refuted",
    "C73_activation",
    "C73_in_use",
    "C73_block",
    "C73_request",
    "C73_access",
    "C73_access_no_frame",
    "C73_si",
    "C73_info_partial",
    "C73_hopping_refuted",
    "C73_sgsn_refuted"
   ],
   "note": "Byte-level model of the PCU socket: reader, size checks, all message kinds, configuration of the cells. Proved: layouts (round trip), short messages refused, other cells untouched, activation in step, blocks and requests only for slots in use and with exactly their octets, system information, effect of INFO.ind. Partial and refuted: DATA.ind/RTS.req (when logged) of TRX or timeslot >= 8 index outside the tables; length fields > 162 in DATA.ind/APP_INFO read octets not received; DATA.ind with a frame number beyond the hyperframe and INFO.ind with a mobile allocation > 64 bits fail an assertion; a slot once hopping stays hopping; the identity announced to the SGSN is never updated; the timer table is one for all cells and reset by any message for a new cell."
  },
  {
   "property": "C74",
   "status": "partial",
   "theorems": [
    "C74_sent_refuted",
    "C74_block_lost_refuted",
    "C74_copies_partial",
    "C74_once",
    "C74_newest",
    "C74_copies_refuted",
    "C74_content",
    "C74_block_refuted"
   ],
   "note": "Refuted: in no history is the message sent to anyone (sched_select_ctrl_msg frees the copy because no TBF is set) and the block's control slot is lost as well. Proved: copies are made for the right mobiles, of the newest message, at most once per request, with the right counter, in histories where mobiles still due a message keep their downlink TBF until the next request and do not go away; at most once and newest message in every history; the content reads back. Refuted: stale marks take the message away from a mobile due it and the counter wraps; a refused request resets the counter of the one before; a freed mobile leaves the message for ever; empty requests are accepted and take away the previous one; the message has no MAC header and no message type, and the USF overwrites its type and data."
  },
  {
   "property": "C75",
   "status": "partial",
   "theorems": [
    "C75_no_assert",
    "C75_books",
    "C75_reserved_waits",
    "C75_waits_reserved_partial",
    "C75_exact_partial",
    "C75_waits_reserved_refuted",
    "C75_unexpected",
    "C75_unexpected_ack",
    "C75_unexpected_report",
    "C75_unexpected_request",
    "C75_delivered",
    "C75_local_block",
    "C75_local_loss",
    "C75_use_after_free_refuted",
    "C75_use_after_free_only",
    "C75_use_after_free_partial",
    "C75_single_block_partial",
    "C75_single_block_refuted"
   ],
   "note": "Proved for all histories: no failed assertion; books of reserved frames; a frame reserved for an uplink assignment/ack answer is waited for; unexpected blocks change nothing; the awaited acknowledgement ends the wait; locality. Partial: 'waiting implies reserved' holds only if no measurement report or cell change notification arrives in a polled frame (refuted otherwise: pdch.cpp:833-902 releases the frame without telling the TBF, whose uplink TBF in FINISHED then keeps its TFI for ever); use after free excluded if no downlink TBF is upgraded, and located exactly in general (rcv_control_ack frees tbf and then dispatches to new_tbf which may be the same TBF; witness history); single block allocations are freed except when a cell change notification takes their frame (leak)."
  },
  {
   "property": "C76",
   "status": "partial",
   "theorems": [
    "C76_data_partial",
    "C76_old_tlli_refuted",
    "C76_page_cs",
    "C76_page_ps",
    "C76_reset",
    "C76_cut_off",
    "C76_only_data",
    "C76_no_abort",
    "C76_memory_partial",
    "C76_memory_refuted",
    "C76_tlli_length_refuted"
   ],
   "note": "Proved for all element lists, orders and length forms: downlink data without a second TLLI is handed on or refused as 48.018 says (lifetime and capability elements below 256 octets), paging reaches every cell with the right fields, resets are taken or refused, messages cut off inside an element are refused; for all octet strings: no failed assertion, data handed on is an unaltered part of a DL-UNITDATA for the unblocked cell, nothing outside the message is read unless it is shorter than the numbers in it. Refuted: the old TLLI is cut to its upper 16 bits; messages with short TLLI or BVCI elements or a short head make the program read beyond them, or take octets of the next element."
  },
  {
   "property": "C77",
   "status": "partial",
   "theorems": [
    "C77_service",
    "C77_turn",
    "C77_reset_refuted",
    "C77_reset_partial"
   ],
   "note": "Proved over all histories and all SGSN states: the timer runs while the NS layer is up, and its next expiry brings both sides into service if the messages are answered; resets, unblocking and flow control are sent in their turn. Refuted: the cell may count as reset although only the reset of the signalling BVC was acknowledged (twice). Proved of that: it counts as reset only since an acknowledgement that came when the signalling BVC counted as reset, or a reset by the SGSN."
  },
  {
   "property": "C78",
   "status": "partial",
   "theorems": [
    "C78_delivered_partial",
    "C78_race_refuted",
    "C78_missed_refuted",
    "C78_losses_refuted",
    "C78_unconfirmed_refuted"
   ],
   "note": "Proved for every history in which allocations succeed, at most single answers are missing and the uplink TBF sends a due downlink assignment before its final acknowledgement: whatever order events take, the queue runs empty. Refuted in full: (1) without any loss, if the final uplink acknowledgement goes out before a pending downlink assignment, the TBF is freed by the answer, ms_need_dl_tbf says no because the downlink TBF is still in ASSIGN, X2001 frees that one and nothing is triggered; (2) the same if the answer to the assignment is missed; (3) N3101, N3103, N3105, T3141/T3168/T3169, T3191, X2001 and failed allocations each leave queued data without anything that would send it; (4) an immediate assignment never confirmed by the BTS blocks the mobile's downlink for ever (no timer runs), even with more data."
  },
  {
   "property": "C79",
   "status": "partial",
   "theorems": [
    "C79_no_crash",
    "C79_runs_on",
    "C79_reactions",
    "C79_requests",
    "C79_exchange_partial",
    "C79_truth_partial",
    "C79_other_cell_refuted",
    "C79_identity_refuted",
    "C79_undecoded_refuted"
   ],
   "note": "Proved: no decoded message and no history of PCUs leads to an assertion or outside si_buf; the reaction to every message; requests are sent exactly when a machine comes to wait; an exchange informs exactly the mobiles that wait; in every history of PCUs with one cell each, known to the SGSN by its own identity, what a mobile is told was set by the BTS of its target at some time. C79_other_cell_refuted, C79_identity_refuted: fill_app_cont_nacc takes the reported cell from the BVC context, so the answer of a PCU with several cells, or with -m/-n, is attributed to another cell. C79_undecoded_refuted: the error PDU is formatted but not sent. Octets of the PDUs (libosmocore) are outside the model."
  },
  {
   "property": "C80",
   "status": "partial",
   "theorems": [
    "C80_goes_on",
    "C80_frames",
    "C80_complete_egprs",
    "C80_complete_gprs_partial",
    "C80_complete_gprs_refuted",
    "C80_ends",
    "C80_all_arrive_egprs"
   ],
   "note": "Invariant over all histories of PCU, radio link and mobile (window of C01-C04, segmentation of C22, loop of C69 together). Refuted part: when a GPRS transfer ends with a frame that just fills the last block behind the end of another, the mobile does not get it although it is acknowledged (as C22). Not modelled: frames expiring in the queue (C20), the mobile's window larger than the PCU's, blocks kept by the mobile in halves."
  },
  {
   "property": "C81",
   "status": "partial",
   "theorems": [
    "C81_block",
    "C81_ptcch",
    "C81_act",
    "C81_version",
    "C81_neigh",
    "C81_agch",
    "C81_pch",
    "C81_paging",
    "C81_order",
    "C81_first",
    "C81_asks",
    "C81_turn_partial",
    "C81_turn_refuted",
    "C81_released_refuted"
   ],
   "note": "Every message is proved to be read back by an independent reader of the packed layout (C81_block, _ptcch, _act, _version, _neigh, _agch, _pch), and a page for packet data to be a PAGING REQUEST TYPE 1 for the identity (C81_paging). Delivery in order, once, version first, and write interest are proved for all histories (C81_order, _first, _asks). Emptying the queue in a turn is proved only if the message read in the same turn was accepted (C81_turn_partial; the full statement is refuted by C81_turn_refuted). That every message is released is refuted (C81_released_refuted): messages sent while not connected leak. Socket calls, msgb and bit vectors of libosmocore and the encoding of the mobile identity are not modelled beyond their contract."
  },
  {
   "property": "C82",
   "status": "partial",
   "theorems": [
    "C82_report_partial",
    "C82_final",
    "C82_urbb_refuted",
    "C82_crbb_refuted"
   ],
   "note": "C82_report_partial: for every reachable window and every report from the beginning of the window on whose bitmaps consist of whole octets, each outstanding block ends in the state the mobile reported; C82_final for final acknowledgements. Missing: bitmaps with odd bits, for which the statement is refuted (C82_urbb_refuted, C82_crbb_refuted): the decoder stores the odd bits right aligned in the last octet and they are read left aligned, so missing blocks become acknowledged. Reports not from the beginning of the window are refuted in C04."
  },
  {
   "property": "C83",
   "status": "partial",
   "theorems": [
    "C83_safe",
    "C83_only",
    "C83_kept",
    "C83_links_partial",
    "C83_new_nsei",
    "C83_port_refuted",
    "C83_sns_partial",
    "C83_sns_refuted"
   ],
   "note": "Proved for all histories and failures: no released NSE is used (C83_safe), no links but those named (C83_only), named ones are kept (C83_kept), and exactly the named ones under a new NSEI (C83_new_nsei) or as long as each position keeps its local address (C83_links_partial). Refuted for a changed local port under the same NSEI (C83_port_refuted): the old socket is not released and its name is taken, so no socket can be opened and the process ends. With IP-SNS only C83_sns_partial; changes are ignored while the address settled on is still named (C83_sns_refuted). The NS layer of libosmocore is modelled by the contract of the calls (unique socket names, a connection with the same ends is used again)."
  },
  {
   "property": "C84",
   "status": "partial",
   "theorems": [
    "C84_classes_partial",
    "C84_request_partial",
    "C84_short_form_refuted",
    "C84_unknown_type_refuted"
   ],
   "note": "proved for all capabilities the decoder accepts whose technologies have the long form, alone or inside a PACKET RESOURCE REQUEST: any number of technologies, any combination of optional parts. Refuted: a list in the short form is read as access capabilities because of the union; an unknown technology type discards the classes announced before it."
  },
  {
   "property": "C85",
   "status": "proved",
   "theorems": [
    "C85_report",
    "C85_final"
   ],
   "note": "from the octets of the message to the state of every outstanding block; SSN between V(A) and V(S), which is what a mobile can send. The choice of the TBF by poll and TFI is the subject of other properties."
  },
  {
   "property": "C86",
   "status": "partial",
   "theorems": [
    "C86_kept_partial",
    "C86_egprs_refuted"
   ],
   "note": "proved for every history of blocks, with the channel quality read from GPRS downlink reports and resource requests with every combination of optional parts (capability in the long form), against 'the last that was said'. Refuted for EGPRS downlink reports: nothing in them, nor the BTS's measurement of their block, is kept. Not covered: capabilities with a short form list, PACKET PAUSE (type read wrongly, C64)."
  },
  {
   "property": "C87",
   "status": "partial",
   "theorems": [
    "C87_reload_partial",
    "C87_reload_refuted",
    "C87_ranges"
   ],
   "note": "C87_reload_partial: for every file and every sequence of typed lines, the file written is read without a refused line and every setting it carries comes back (gsmtap categories: the named ones). C87_ranges: every setting stays in its documented range. C87_reload_refuted: flow-control bucket-time is never written; no cs max, no mcs max and no queue idle-ack-delay are not written and come back as the defaults."
  },
  {
   "property": "C88",
   "status": "partial",
   "theorems": [
    "C88_stats",
    "C88_request",
    "C88_all_allocated_partial",
    "C88_no_room",
    "C88_all_allocated_refuted",
    "C88_none_in_service_refuted"
   ],
   "note": "Proved after every history: the four occupancy numbers and the TBF counters agree with the cell, a refused request counts as one failed allocation, the flag is up exactly when every timeslot in service has all the TBFs one direction allows, and with no room in a direction nothing is allocated in it. False of the code: the flag does not say that nothing can be allocated (downlink TFIs used up, uplink still possible), and it is up when no timeslot is in service."
  },
  {
   "property": "C89",
   "status": "partial",
   "theorems": [
    "C89_names",
    "C89_group_present",
    "C89_uplink",
    "C89_downlink_cell_partial",
    "C89_downlink_tbf_partial",
    "C89_others",
    "C89_downlink_refuted"
   ],
   "note": "Proved: every scheme and direction has exactly one counter of its name, uplink counts are exact per scheme for cell and TBF, downlink counts are exact for CS-1..4, MCS-1..4 and MCS-8, for MCS-5+7 and MCS-6+9 together and in total; no other counter moves and no missing group is touched. Refuted: MCS-9 sent alone goes out as MCS-6 and is counted as MCS-9. Assumes that a new block has a scheme of the TBF's mode (C37)."
  },
  {
   "property": "C90",
   "status": "partial",
   "theorems": [
    "C90_spans",
    "C90_throughput_partial",
    "C90_throughput_shown",
    "C90_throughput_refuted",
    "C90_loss",
    "C90_level_partial",
    "C90_level_refuted"
   ],
   "note": "Proved: the figures cover the history without gap or overlap; throughput figures are octets per second (at most 4 % too high); the loss is the exact percentage; the level is the mean if every level is known. Refuted: throughput is labelled kilobits per second; a block of unknown level counts as 0 dBm."
  },
  {
   "property": "C91",
   "status": "partial",
   "theorems": [
    "C91_downlink_egprs",
    "C91_downlink_gprs_partial",
    "C91_downlink_partial",
    "C91_dummy_refuted",
    "C91_downlink_gprs_refuted",
    "C91_uplink"
   ],
   "note": "Proved for every run: EGPRS downlink against the receiver of C22, GPRS downlink against it while no block is the last of its TBF, the exact split into frames of the network and dummy frames for both, and the uplink. Refuted: llc:dl_bytes counting frames of the network only (dummy frames are counted), and the GPRS receiver having got what is counted after the last block (the lost frame of C22). Not covered: counters are taken as unbounded; frames handed back to the queue when an assignment fails are counted again by the next TBF; rlc:dl_bytes and rlc:ul_bytes."
  },
  {
   "property": "C92",
   "status": "partial",
   "theorems": [
    "C92_ul_all",
    "C92_dl_all_partial",
    "C92_dl_all_refuted",
    "C92_ul_way",
    "C92_dl_way",
    "C92_pacch_both",
    "C92_pacch_dl",
    "C92_pacch_ul",
    "C92_pacch_none",
    "C92_pacch_partial",
    "C92_pacch_refuted"
   ],
   "note": "Proved: the lists of uplink TBFs in full, of downlink TBFs until their data is acknowledged; the division by channel; the PACCH displayed is the lowest (common) timeslot, and the control timeslot right after an allocation with both TBFs established. Refuted: a downlink TBF assigned on the CCCH is in no list in WAIT_RELEASE; the PACCH displayed for a lone downlink TBF can differ from the control timeslot."
  },
  {
   "property": "C93",
   "status": "proved",
   "theorems": [
    "C93_pdch",
    "C93_tlli",
    "C93_shown"
   ],
   "note": "strtoll is the C library's, modelled from the standard; the empty argument, which the command line cannot produce, is left out."
  },
  {
   "property": "C94",
   "status": "proved",
   "theorems": [
    "C94_mobiles"
   ],
   "note": "For histories with TLLIs that exist (real_op), as in C35; one cell; IMSIs are numbers."
  },
  {
   "property": "C95",
   "status": "partial",
   "theorems": [
    "C95_tap_partial",
    "C95_off",
    "C95_ccch_refuted",
    "C95_burst_refuted"
   ],
   "note": "Proved: for TRX 0 to 7, one packet if and only if the category is switched on, with contents and channel, and outside the CCCH direction, ARFCN, timeslot and frame number; nothing is sent or read with the category off. Refuted: the ARFCN of AGCH and PCH packets; reads inside the table for TRX numbers of 8 and more."
  },
  {
   "property": "C96",
   "status": "partial",
   "theorems": [
    "C96_block_partial",
    "C96_flood_refuted",
    "C96_hopping_refuted"
   ],
   "note": "Proved for timeslots with at most 6314 reservations pending and at most 32 hopping frequencies. Refuted beyond: after 7290 access bursts in a row the starting time is taken for one that has passed; with 64 hopping frequencies no message is sent."
  }
 ]
}