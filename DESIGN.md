# Formal model of osmo-pcu in Rocq (Coq 8.16.1)

The properties are in `properties.jsonl` (C01...). The model, its
specifications and the proofs are under `rocq/theories`:

| directory | contents |
|-----------|----------|
| `Base/`   | arithmetic and list lemmas; nothing about osmo-pcu |
| `Model/`  | executable Gallina functions, one per C/C++ function, each citing the file and lines it models; no proofs |
| `Spec/`   | the small independent specifications the theorems are stated against |
| `Proofs/` | lemmas |
| `Props/`  | the property theorems only: each is closed by `exact`, followed by `Print Assumptions` and by an `Example` that a concrete non-trivial case meets its hypotheses |

## Modelling conventions

* `uint8_t/uint16_t/uint32_t` arithmetic is on `Z` or `N` with the wrap-around
  written out (`mod 2^16` and so on) wherever the C code can wrap.
* Out-of-bounds access, `OSMO_ASSERT` failure and other undefined behaviour are
  distinct outcomes (`None`, or a constructor named `Abort`/`UB`); they are never
  mapped to a normal-looking value.
* A C array indexed by a masked index is a function or a list; a mutation returns the new value.
* Loops are structural recursion, or recursion on explicit fuel with a
  distinguished out-of-fuel value that the theorem statements exclude.
* Linked lists are Coq lists in list order; pointers to objects are identifiers.
* Time is an integer supplied by the environment. Timers of `libosmocore` are
  events that the environment may deliver once armed. Logging, counters for
  statistics only (except in C88 to C91 and C94), VTY (except in C87 and C92 to C95), and talloc memory accounting are not modelled.
* `osmo_fsm`: an event outside the state's `in_event_mask` is ignored, a
  transition outside `out_state_mask` is ignored with an error
  (`osmo_fsm_inst_state_chg` returns `-EPERM`). Both are written into the model.

When the faithful model violates a property as stated, the file proves
`..._refuted` with a witness computed by `vm_compute`, and next to it the
strongest restricted statement that does hold.

## Trusted base

* Coq 8.16.1's kernel (including its VM for `vm_compute`) and the Coq standard library.
* `Print Assumptions` is run under every property theorem. Its output is
  `Closed under the global context` for all of them: no axiom, neither of the
  standard library nor of any other library, is used. (`vcheck` lists
  `ssr.ssrunder` entries under `library_axioms`: they belong to Coq's own
  ssreflect plugin files that some standard library modules load. No theorem here depends on them.)
* The faithfulness of `Model/` to `/repo`: it was transcribed by reading; the code was not run.
* The behaviour of `libosmocore`/`libosmogsm` in the next section.
* `Model/Csn1Tables.v` was generated by a script from `gsm_rlcmac.c` and
  `gsm_rlcmac.h`; only the result is in the repository.

### Behaviour of libraries and of the platform that is taken as given

* Bit vectors: `bitvec_alloc` gives zeroed memory; `bitvec_write_field` and
  `bitvec_set_uint`/`bitvec_set_u64` write the low bits, most significant first, and past
  the end fail without moving the index; `bitvec_read_field` reads zeros past the
  end while its index goes on; `bitvec_get_bit_pos` returns `-EINVAL` past the end;
  `bitvec_set_bit` with `L`/`H` is relative to the padding pattern 0x2B;
  `bitvec_rl_curbit` counts the equal bits from the current one.
* `osmo_fsm`: events outside `in_event_mask` are refused, targets outside
  `out_state_mask` are refused, a state change stops the running timer (unless it is to be kept),
  starts the new one if its value is not 0, and calls `onenter` (also when the state stays the same).
  The rounding of `osmo_tdef` is not modelled.
* `osmo_use_count`: one counter for each user, the callback after each change.
* Timers and `CLOCK_MONOTONIC` show the same time; `llist_add` inserts in front;
  `talloc_free` of an object within its own destructor has no effect; `msgb_alloc` and `talloc_zero` give zeros.
* `gsm48_ta_is_valid(ta)` is `ta < 64`, `GSM48_TA_INVALID` is 220; `GSM_RESERVED_TMSI` is 0xffffffff;
  `osmo_cgi_ps_cmp` is 0 if and only if all fields are equal;
  `bssgp_tx_fc_bvc` encodes in units of 100 octets and 100 bit/s.
* `osmo_mobile_identity_decode` and `osmo_gsm48_rest_octets_si13_decode` are arbitrary functions (parameters of the step) in `Model/PcuIf.v`.
* `bssgp_tlv_parse` (TvLV elements, the first of two with one tag counts, a negative length is no element), `osmo_load16be`, `osmo_load32be` are modelled from their documentation; decoding of identities and radio access capabilities is a parameter in `Model/Bssgp.v`; what `bssgp_rcvmsg` reports back is an arbitrary primitive.
* Commands of `libosmovty`, for words given in full: a line is executed if exactly one installed string matches it, its ranges are inclusive, and a file is read up to the first line refused.
  `timer` takes 0 to 2147483647 or `default`, within the limits of the timer; `osmo_tdef_vty_write` writes the timers that differ from their default.
* The bit-fields of the EGPRS headers in `gsm_04_60.h` are laid out as on a little endian host;
  structures of the CSN.1 library have the natural layout of x86-64 (`gboolean` is an `int`).

## Plan per property

| id | modelled | proof |
|----|----------|-------|
| C01 | `gprs_rlc_dl_window`: V(S), V(A), V(B), all operations | invariant over operation lists; refinement to an unbounded-integer window |
| C02 | same, with history of acknowledgements | invariant: every block below the abstract V(A) was acknowledged |
| C03 | `resend_needed`, `mark_for_resend`, `count_unacked` | induction over the window distance |
| C04 | both `update` functions, `decode_*_acknack_bits` | characterisation of the state after the loop; refutation where SSN is not validated |
| C05 | `gprs_rlc_ul_window`, `receive_bsn`/`raise_v_q` as driven by `rcv_data_block_acknowledged` | refinement to a receiver over unbounded sequence numbers; by induction over arrival lists |
| C06 | same | the refinement fails at the window edge and for ws = 1024: refuted; proved for the rest |
| C07 | `update_rbb`, `update_egprs_rbb` | against the set of received numbers of the unbounded receiver; EGPRS variant refuted at wrap, proved otherwise |
| C08, C09 | `gprs_rlc_mcs_cps`, decode, puncturing tables | finite domain, complete computation lifted with `forallb_forall`; cycle by induction |
| C10-C12 | `coding_scheme.c` tables, `egprs_mcs_retx_tbl` | finite domain computation lifted to all values |
| C13, C14 | `pcu_utils.h`, `bts_rfn_to_fn` | arithmetic (`lia` with div/mod) |
| C15-C17, C57 | `pdch_ul_controller.c`, `sba.c` | invariant over operation lists (sorted, duplicate free), refinement to a finite map |
| C18-C20 | `llc.c` | refinement to three FIFO queues |
| C21 | `gprs_codel.c` | invariant over observation lists |
| C22 | `encoding.cpp` append functions, `create_new_bsn` | round trip with a receiver written from TS 44.060; induction on the octets left |
| C23, C24 | `decoding.cpp`, `assemble_forward_llc` | bounds by induction; refutations with witnesses |
| C25 | aligned copies | bit-level round trip |
| C26 | split block reassembly | case analysis; refutation for the buffer bound |
| C27 | T.4 tables, `compress_rbb`, `decompress_crbb` | prefix-freeness by computation, round trip by induction on runs |
| C28-C30 | `alloc_algo.cpp`, `mslot_class.c`, `bts_tfi_find_free` | case analysis and bit-mask lemmas; finite mask spaces by computation |
| C31 | `pdch.cpp` attach/detach | invariant |
| C32-C34 | TBF state machines, counters | invariants over event lists |
| C35-C37 | `gprs_ms.c` | invariants over operation lists |
| C38-C42 | `gprs_rlcmac_sched.cpp` | round-robin distance argument, case analysis |
| C43, C44 | `pdch.cpp` paging, `bts_add_paging` | induction over the list |
| C45, C48 | `neigh_cache.c`, `bts_pch_timer.c` | invariant plus refinement to a map |
| C46, C47 | `nacc_fsm.c` | round trip by strong induction; event-list invariant |
| C49, C61 | flow control: `gprs_bssgp_pcu.c`, counters of the cell | bounds by induction over histories; refutations of wrap-around |
| C50, C51 | `tbf.cpp` window size, `bts.cpp` scheme limits | finite computation and case analysis |
| C52, C62 | data headers in both directions | bit-level round trip for every scheme |
| C53, C58 | timing advance: `gprs_ms.c`, `pdch.cpp`, TAI list | invariant over histories |
| C54 | frame clocks of the cell | modular arithmetic |
| C55, C59 | Immediate Assignment, rest octets | round trip with an independent reader |
| C56 | access bursts | finite domain, complete computation |
| C57 | `sba.c` | with C15 |
| C60 | `nacc_fsm.c` with the caches | invariant relating machine and network |
| C63, C64 | the CSN.1 decoder with all its tables (140) | memory safety by induction over table descriptions with checked bounds; fields by symbolic execution |
| C65-C67 | the CSN.1 encoder, assignment and other control messages | round trip with an independent reader of the message |
| C68 | `Packet Uplink Ack/Nack` | composition of C07 with the message |
| C69 | downlink window, air and mobile together | invariant over all interleavings |
| C70 | `analyse_errors` | against the set of blocks really lost |
| C71 | uplink window, block parser and frame assembly together | refinement to the frames of the sender |
| C72 | the same together with a mobile that follows the reports | invariant over all interleavings, progress measure |
| C73 | the PCU socket, octet by octet | invariant over all histories of messages |
| C74 | application information from request to scheduler | refinement to "who is due what" |
| C75 | one timeslot with many TBFs: reserved frames and received blocks | invariant (books of frames and polls) over all histories |
| C76 | messages of the SGSN, octet by octet | round trip with an independent encoder of 48.018 elements; memory and refusals for all octet strings |
| C77 | the link to the SGSN together with an SGSN | invariant over all histories; convergence from every pair of states |
| C78 | data queued for one mobile with both its TBFs | invariant over all histories without losses, well-founded descent over all orders of events; witnesses for the rest |
| C79 | RAN information messages between PCUs with their cells, caches and mobiles | reactions to every message; one exchange; invariant over all histories of a network of PCUs; witnesses for the rest |
| C80 | a downlink transfer end to end: queue, segmentation, stored blocks, window, lossy link, mobile with its window, bitmap and reassembly | invariant over all histories joining those of C02, C22 and C69; lexicographic descent to the end; witness for the refuted part |
| C81 | the messages to the BTS as memory written at the offsets of the packed structures; the socket with its queue, write interest, retry and exit | round trip through an independent reader of the layout and of TS 44.018 paging; invariant over all histories of the socket; witnesses for the refuted parts |
| C82 | the decoded EGPRS downlink report with all optional parts, its bitmaps as the decoder leaves them, the bits told to the window | symbolic execution of the table at a variable position, against an independent reader of the layout; T.4 decoding (C27) and the window (C04) below; witnesses for bitmaps with odd bits |
| C83 | the configuration of sockets, NSE and connections from the information of the BTS; the NS layer of libosmocore by its contract, any call may fail | invariant over all histories; set equality with the links named; witnesses for the refuted parts |
| C84 | decode_gsm_ra_cap on the CSN.1 tables (as in C63), the two searches for a class, parse_ra_cap, the same capability within a PACKET RESOURCE REQUEST (rcv_resource_request) | symbolic execution of the tables at variable positions, induction over the technologies, against a separate reader of TS 24.008, 10.5.5.12a; witnesses for the refuted parts |
| C85 | the decoder of C63/C64, decode_gprs_acknack_bits on the decoded members, the window of C01–C04 | composition: octets → members → bits → state of every outstanding block |
| C86 | the decoder of C63, get_meas (both), get_rx_qual_meas, ms_update_l1_meas, the indication from the BTS, which procedures take measurements; which mobile a block belongs to is an input here | symbolic execution of the tables at variable positions (optional parts, capability as in C84), then induction over the history against "the last that was said"; witness for EGPRS reports |
| C87 | all commands of the PCU node with their strings, ranges and procedures, the defaults, config_write_pcu; the reader of libosmovty for words given in full, its timer commands and the reading of a file (a refused line ends it) by their contract; lines are lists of words, so quoting and white space are not modelled; the commands' effect on the cells is in `Model/BtsConf.v` | invariant over all sequences of lines; each line written is executed symbolically, then the settings are compared one by one |
| C88 | the cell of C28 to C31 with its statistics beside it: num_tbfs_update, enable and disable, tbf_free, the two alloc functions, the TBFs that only refuse a mobile, pdch_is_full and bts_all_pdch_allocated; counters are unbounded numbers; the sampling of the flag by libosmocore's time counter is not modelled | invariant over all histories: each counter is a sum over the 64 timeslots, and every step changes it by what the step changes on its timeslots; pigeonhole for full timeslots |
| C89 | the enumerations and name tables of the counters by coding scheme, transcribed in full, the two switches that count a block, the groups a TBF has, and a cell with any number of TBFs over the block model of C12; memory running out and blocks for a TBF being released (discarded before they are counted) are left out | finite checks that position, enumerator and name agree, then an invariant over all histories that relates every counter to the list of radio blocks |
| C90 | gprs_rlcmac_dl_bw, received_lost, lost_rep, rssi and rssi_rep with their accumulators of 16 and 32 bits; times are integers of nanoseconds, on a platform whose time_t has 64 bits; a signed overflow is a failure | refinement to a list of spans that covers the history without a gap; each figure is then bounded arithmetically |
| C91 | the loops of Segment.v and UlParse.v with the amounts that the code adds to the counters, in the code's own case distinction; the counters are unbounded; a block is counted when it is first made, as in the code | the run with counters is the run without them, plus an invariant between the counters, the finished frames and the position in the frame under way; with C22 and C24 the counters are the octets at the receiver |
| C92 | the flags of TbfFsm.v as the lists of `show tbf` read them, and the timeslot of `show ms`; the other columns and the layout of the output are not modelled | induction over the history of a TBF: its flags are never both clear until its data is acknowledged; the mask displayed is the lowest bit, and after an allocation (Alloc.v) the lowest common timeslot is the control timeslot |
| C93 | the lines of `show bts pdch` from the counters of Cell.v; strtoll of the C library with base 16 (blanks, sign, 0x, saturation, endp; glibc's behaviour on a lone `0x`, locale C) and the checks on its result; the look-up of the mobile is not part of it | the bookkeeping invariant of C31; for the argument, splitting the string both ways along blanks, sign, prefix and digits; round trip with the eight digits displayed |
| C94 | the look-ups and the first line of `show ms` over the store of MsTlli.v (IMSIs as numbers, one cell), the argument as in C93; the statistic ms.present as the code adds to and takes from it | the store invariant of C35, with distinct numbers of contexts, and the statistic equal to the length of the list, by induction over the history; C93 for the argument |
| C95 | the category mask under the commands, and the calls of gsmtap_send for every kind of traffic with ARFCN, timeslot, channel, frame number and contents; not the level and quality, nor the remote host | the bit of a category by induction over the commands (the names are distinct: finite check), then each kind of traffic; the label of AGCH and PCH and the bound of the TRX number refuted |
| C96 | `bts_alloc_sba`, `qta2ta` and the single-block path of `bts_rcv_rach`, over UlController.v and ImmAss.v | composition of C57 and C59 with the rule of TS 44.018 10.5.2.38 for starting times; an upper bound on the frame chosen from the walk over the reservations |

## What is modelled

Whole files, up to logging, statistics and VTY output: `rlc.cpp`/`rlc.h`, `rlc_window*.cpp`,
`coding_scheme.c`, `egprs_rlc_compression.cpp`, `pdch_ul_controller.c`, `sba.c`, `llc.c`, `gprs_codel.c`,
`alloc_algo.cpp`, `mslot_class.c`, `neigh_cache.c`, `bts_pch_timer.c`, `nacc_fsm.c`, `tbf_fsm.c`/`tbf_dl_fsm.c`/`tbf_ul_fsm.c`,
`tbf_ul_ass_fsm.c`, `tbf_dl_ass_fsm.c`, `tbf_ul_ack_fsm.c`, `csn1_dec.c`, `csn1_enc.c`, the tables of
`gsm_rlcmac.c`, `tbf_dl.cpp`/`tbf_ul.cpp` (data transfer), `gprs_rlcmac_sched.cpp`, `decoding.cpp`, `encoding.cpp`.
In part: `bts.cpp`, `pdch.cpp`, `gprs_ms.c`, `tbf.cpp`, `gprs_bssgp_pcu.c`, `pcu_l1_if.cpp`, `pcuif_sock.c`, `gprs_pcu.c`.
The comment of each definition cites the lines.

Not modelled: VTY and configuration beyond the commands and the saved file of the PCU node (C87; elsewhere settings
are arbitrary inputs), statistics beyond those of C88 to C91 and C94, logging (except where
logging itself reads memory), the NS layer, the control interface, the direct-PHY back ends
(`src/osmo-bts-*`), real-time deadlines, the radio interface, exhaustion and reuse of memory.

## Findings: what is false of the code

`MANIFEST.json` states for each property what is proved, what is missing and why. Where the code does not have the
property, a theorem `..._refuted` shows it with a computed witness (or for all inputs), and a theorem `..._partial` states
what remains true. The main ones:

| id | the code |
|----|----------|
| C01, C34 | tests equality where a limit may be jumped over (window shrinks, N3101/N3103/N3105 lowered at run time) |
| C04 | EGPRS reports without BOW are applied from V(A); SSN is not validated |
| C06, C72 | the last block of an empty 64-block window is marked received but V(R) is not raised: the transfer never ends; EGPRS windows above 512 alias in the state array |
| C07, C27, C68 | compressed bitmaps: count kept in 8 bits, run cut behind a make-up word, description longer than its room |
| C08, C12, C62 | MCS-9 puncturing decoded wrongly; MCS-8 blocks ignore commands; foreign CPS taken as padding |
| C14, C54 | RFN of age 21216; a frame clock reading 0 is never resynchronised |
| C18, C20, C22 | dummy frames put back into the queue; hysteresis drops early; a last frame that exactly fills its block behind another one is lost |
| C23, C24, C26 | TLLI lookup one octet behind the block; LLC assembly buffer overflow; two MCS-4 halves overflow 74 octets |
| C29 | single slot request returns a timeslot number as a mask |
| C32, C33, C36 | T3192 = 0 never releases the TFI; abort in WAIT_ACK leaves a poll; `ms_reset` may not return |
| C35, C48 | 16 bits of the old TLLI; stop of the wrong subscriber's paging |
| C37, C51 | one scheme above the maximum accepted |
| C41, C74 | application information (ETWS) is never sent to anyone |
| C46, C47, C60 | more than 32 containers repeat an index; machine stuck after its poll is lost; system information of the wrong cell |
| C49, C61 | leak rate estimate wraps; delays in the wrong unit |
| C50, C65 | EGPRS uplink assignments always announce a window of 64; long assignments never sent |
| C53, C58, C59 | unknown TA corrected to 63; early bursts corrected by one too many; BEP_PERIOD2 missing; rejects name a second mobile |
| C63, C64 | `NC_Measurements[6]`, `Measurements_3G[6]`, `RAI[6]` overrun; PACKET PAUSE taken for a CONTROL ACK |
| C70 | 11-bit sequence numbers cut to 8 bits in the error analysis |
| C73 | indices and lengths of messages from the BTS not checked |
| C75 | a measurement report or cell change notification in a polled frame drops the poll without telling the TBF; an uplink TBF in FINISHED then keeps its TFI for ever |
| C75 | acknowledging a downlink assignment can free a downlink TBF and then send it an event (needs an upgraded TBF) |
| C75 | a cell change notification in the frame of a single block allocation leaks the allocation |
| C76 | the old TLLI is read with 16 bits, if the lifetime has two octets; lengths of TLLI and BVCI elements and of the head of a data message not checked |
| C77 | the BVCI in a reset acknowledgement is not looked at: a repeated one for the signalling BVC counts for the cell |
| C78 | the final uplink acknowledgement may go out before a downlink assignment due on the same TBF: the data is then left in the queue; likewise after N3101, N3103, N3105, T3141, T3168, T3191, X2001 or a failed allocation; an assignment on the paging channel the BTS does not confirm is waited for without any timer |
| C79 | an answer names as reported cell the identity of the link to the SGSN, not the cell asked for: with a second cell or an identity set by -m/-n the asking PCU waits in vain, and caches the system information under the wrong cell, so that later mobiles are told that of another cell; the error PDU for a message that cannot be decoded is put together and never sent |
| C80 | a GPRS transfer may be acknowledged completely although the mobile lacks the last frame (the C22 defect seen end to end) |
| C81 | messages sent without a connection are dropped but never released, nor is the bit vector of a page whose identity cannot be encoded; a refused incoming message holds back the queue for the turn |
| C82 | the odd bits of a bitmap are stored at the low end of its last octet but read from the high end: an EGPRS downlink report whose bitmap has not a multiple of 8 bits acknowledges blocks the mobile did not get |
| C83 | a changed local port under the same NSEI ends the process (the old socket keeps its name); with IP-SNS, changes are ignored as long as the address in use is still named |
| C84 | a list of technologies in the short form is read as access capabilities (union), which makes up a class for mobiles without EGPRS; a technology of unknown type makes the PCU forget the classes announced before it |
| C86 | the channel quality in EGPRS downlink reports is never evaluated (TODO in pdch.cpp:618-626), and with it the BTS's measurement of the block: an EGPRS mobile that only receives keeps the link quality of its access; the interference levels of an older report stay when a newer one carries none |
| C87 | `flow-control bucket-time` is never written to the file (config_write_pcu, pcu_vty.c:155-168, writes the other four), so it is lost at the next start; `no cs max` and `no mcs max` set 0 and write nothing (177-184, 235-242), so the limits are back at 4 and 9; `no queue idle-ack-delay` sets 0 and writes nothing (258-260), so the delay is back at 10 |
| C88 | the flag "all allocated" is up while no timeslot is in service (bts_all_pdch_allocated, bts.cpp:1466-1480, skips disabled ones and returns true), so that time is counted as congestion; it is also up when only the 32 downlink TFIs of the timeslots are used, though uplink TBFs can still be allocated, and the other way round with 7 uplink TBFs (pdch_is_full, pdch.cpp:1317-1322) |
| C89 | a downlink block is counted before the scheme of the radio block is settled (tbf_dl.cpp:741 against 743-758), so a block of MCS-7 or MCS-9 sent alone is shown as MCS-7 or MCS-9 although it goes out as MCS-5 or MCS-6 |
| C90 | `show ms` prints octets per second as "Kbps" (gprs_rlcmac_meas.cpp:180, pcu_vty_functions.cpp:218): 1000 octets in a second, 8 kbit/s, appear as 1000 Kbps; it is also up to 4 % too high, as nanoseconds are divided by 2^20 but counted as 1024ths of a second. A block without a measured level enters the mean of the levels as 0 dBm (tbf_ul.cpp:253, 275) |
| C91 | llc:dl_bytes and rlc:dl_payload_bytes grow by the dummy frames that keep a TBF going (tbf_dl.cpp:645, 658, 665) with no frame from the network; in GPRS the last frame lost by C22 is counted as carried |
| C92 | a downlink TBF assigned on the CCCH is in no list of `show tbf` in WAIT_RELEASE (tbf_dl_fsm.c:288 clears its only flag); `show ms` displays the lowest downlink timeslot as PACCH of a lone downlink TBF, not its control timeslot (gprs_ms.c:961-985) |
| C95 | AGCH and PCH packets over GSMTAP carry ARFCN 0 whatever the cell (pcu_l1_if.cpp:262-302); with the categories ul-rach or ul-ptcch on, an access burst with a TRX number of 8 or more, which pcu_rx_rach_ind does not check, makes bts_send_gsmtap_meas (bts.cpp:560) read past bts->trx; bts_rcv_ptcch_rach checks the number only after this call (bts.cpp:1071-1074) |
| C96 | starting times of single blocks have no limit: with 7290 pending, which a flood of access bursts brings about, the mobile takes the starting time for one that has passed; with 64 hopping frequencies the assignment does not fit, and the mobile gets neither it nor a reject while the block stays reserved (bts.cpp:1030-1041) |

## Testing the theorems

`seeded/LOG.jsonl` has one line for each wrong program tried: a definition of `Model/` was changed in a scratch copy as
a realistic bug would, the proofs were rebuilt, and the theorems that failed were noted. Where the theorems
survived, either a theorem was tightened (named in the line) or the note says why the claim is not touched by the change.
"Caught" means that some proof below a theorem no longer builds. This is not by itself a proof that the
statement became false: a proof can also break because its script followed the old text. The edits were chosen so that
the claim named in the line is false of the edited program, but only by reading; it was not proved for each of them.
