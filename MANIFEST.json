{
 "claims": [
  {
   "property": "C01",
   "status": "proved",
   "theorems": [
    "C01_getters",
    "C01_short_buffer_rejected",
    "C01_encoding_unique"
   ],
   "note": "all getters, for every buffer"
  },
  {
   "property": "C02",
   "status": "proved",
   "theorems": [
    "C02_set_frame_type",
    "C02_set_frame_version",
    "C02_set_dst_addressing_mode",
    "C02_set_src_addressing_mode",
    "C02_unknown"
   ],
   "note": "all four multi-bit setters, every value; Unknown frame types and modes are written as Beacon and Absent (C02_unknown)"
  },
  {
   "property": "C03",
   "status": "partial",
   "theorems": [
    "C03_clear_refuted",
    "C03_set_flag_partial",
    "C03_clear_is_noop"
   ],
   "note": "refuted in full (clearing is a no-op in the code); setting to true, and any value on a clear flag, proved"
  },
  {
   "property": "C04",
   "status": "proved",
   "theorems": [
    "C04_emit_parse",
    "C04_parse_emit",
    "C04_buffer_len"
   ],
   "note": "both directions"
  },
  {
   "property": "C05",
   "status": "proved",
   "theorems": [
    "C05_from_bytes",
    "C05_as_bytes_from",
    "C05_kinds",
    "C05_to_short"
   ],
   "note": ""
  },
  {
   "property": "C07",
   "status": "partial",
   "theorems": [
    "C07_reserved_mode_refuted",
    "C07_presence_partial",
    "C07_layout_unique"
   ],
   "note": "refuted for reserved addressing modes; proved for all others"
  },
  {
   "property": "C08",
   "status": "partial",
   "theorems": [
    "C08_accepted",
    "C08_rejected_partial",
    "C08_reads_only_len_octets",
    "C08_getters_no_panic",
    "C08_len_refuted",
    "C08_len_panics_iff"
   ],
   "note": "len() refuted for reserved addressing modes (exact condition proved); everything else proved"
  },
  {
   "property": "C09",
   "status": "proved",
   "theorems": [
    "C09_write_read"
   ],
   "note": "exact octets, frame rule and read-back"
  },
  {
   "property": "C06",
   "status": "partial",
   "theorems": [
    "C06_absent_refuted",
    "C06_malformed_refuted",
    "C06_parse_grammar_partial",
    "C06_roundtrip_partial",
    "C06_display_partial",
    "C06_panic_iff"
   ],
   "note": "refuted for the absent address (its text does not parse) and for malformed texts with 1 or 7 colons (panic); exact grammar, round-trip of short and extended, exact panic condition proved"
  },
  {
   "property": "C10",
   "status": "partial",
   "theorems": [
    "C10_confidentiality_refuted",
    "C10_confidentiality_never",
    "C10_authenticity_level4_refuted",
    "C10_fields_partial",
    "C10_empty_refuted"
   ],
   "note": "data_confidentiality refuted (always false), authenticity of level 4 refuted; levels, MIC lengths, key modes and lengths proved"
  },
  {
   "property": "C19",
   "status": "partial",
   "theorems": [
    "C19_ht2_refuted",
    "C19_overrun_refuted",
    "C19_iteration_partial",
    "C19_standard_partial",
    "C19_contents_partial"
   ],
   "note": "refuted against the standard (odd ids/lengths misread, overrunning element is yielded); code walk for all inputs, standard walk for even ids and lengths, contents in bounds for accepted lists proved"
  },
  {
   "property": "C20",
   "status": "partial",
   "theorems": [
    "C20_termination_refuted",
    "C20_length_refuted",
    "C20_iteration_partial",
    "C20_standard_partial"
   ],
   "note": "refuted (payload termination never recognised, lengths >= 1024 truncated); code walk for all inputs and standard walk otherwise proved"
  },
  {
   "property": "C21",
   "status": "partial",
   "theorems": [
    "C21_length_refuted",
    "C21_iteration_partial",
    "C21_standard_partial"
   ],
   "note": "refuted for lengths >= 128 (short) / 1024 (long); in bounds, termination and content for all inputs proved"
  },
  {
   "property": "C22",
   "status": "proved",
   "theorems": [
    "C22_information_elements"
   ],
   "note": "exact acceptance condition, len(), positions of both lists"
  },
  {
   "property": "C23",
   "status": "partial",
   "theorems": [
    "C23_odd_length_refuted",
    "C23_odd_id_refuted",
    "C23_decode_refuted",
    "C23_roundtrip_partial",
    "C23_decode_partial",
    "C23_setters_partial"
   ],
   "note": "refuted for odd ids or odd lengths; even ones proved"
  },
  {
   "property": "C24",
   "status": "partial",
   "theorems": [
    "C24_length_refuted",
    "C24_termination_refuted",
    "C24_roundtrip_partial",
    "C24_setters",
    "C24_decode_partial"
   ],
   "note": "refuted for lengths >= 1024 and payload termination; the rest proved"
  },
  {
   "property": "C25",
   "status": "partial",
   "theorems": [
    "C25_short_length_refuted",
    "C25_short_id_refuted",
    "C25_short_kind_refuted",
    "C25_long_length_refuted",
    "C25_short_partial",
    "C25_long_partial",
    "C25_setters_short",
    "C25_setters_long",
    "C25_decode_partial"
   ],
   "note": "refuted for short lengths >= 128, ids >= 64 and non-cleared descriptors, long lengths >= 1024; the rest proved"
  },
  {
   "property": "C26",
   "status": "partial",
   "theorems": [
    "C26_decode",
    "C26_order_refuted",
    "C26_roundtrip_partial",
    "C26_setters_partial",
    "C26_ie_partial"
   ],
   "note": "Decoding proved for all octets; round-trip proved for the order time correction, then NACK. In the other order set_time_correction clears NACK (refuted)."
  },
  {
   "property": "C27",
   "status": "proved",
   "theorems": [
    "C27_sync",
    "C27_ie"
   ],
   "note": "Setters, getters and the whole nested IE, for every ASN below 2^40."
  },
  {
   "property": "C28",
   "status": "partial",
   "theorems": [
    "C28_id0_refuted",
    "C28_safety_refuted",
    "C28_safety_partial",
    "C28_decode_partial",
    "C28_accepts",
    "C28_roundtrip_partial"
   ],
   "note": "Round-trip proved for timeslot id <> 0 (refuted for id 0: read back as the defaults). An accepted IE panics exactly when its length is 26 and id <> 0 (safety refuted, exact characterisation proved)."
  },
  {
   "property": "C29",
   "status": "partial",
   "theorems": [
    "C29_safety_refuted",
    "C29_roundtrip_refuted",
    "C29_safety_partial",
    "C29_roundtrip_partial"
   ],
   "note": "Refuted for descriptors without links (one bogus empty link is yielded, its accessors panic). Bounds, order, contents and round-trip proved for everything else."
  },
  {
   "property": "C37",
   "status": "partial",
   "theorems": [
    "C37_payload_termination_refuted",
    "C37_terminations_partial",
    "C37_panic"
   ],
   "note": "HT1/HT2 insertion and octets proved for every representation; payload termination panics (todo!()), refuted, with the panic characterised."
  },
  {
   "property": "C30",
   "status": "partial",
   "theorems": [
    "C30_macro_partial",
    "C30_records_partial",
    "C30_csl_refuted",
    "C30_overlap_refuted",
    "C30_vendor_refuted",
    "C30_timesync_refuted",
    "C30_cfp_refuted",
    "C30_simplified_refuted",
    "C30_exact_partial",
    "C30_refuted"
   ],
   "note": "The macro is modelled; every record whose fields carry matching #[bytes]/#[bits] attributes is proved to be read as declared (6 records). Refuted for the other records (overlapping fields, too small size(), wrong OUI), for which C30_exact_partial gives the size asked by new and the result of every getter on every buffer."
  },
  {
   "property": "C61",
   "status": "partial",
   "theorems": [
    "C61_gts_bounds_refuted",
    "C61_gts_info_refuted",
    "C61_gts_length_refuted",
    "C61_beacon_refuted",
    "C61_gts_partial",
    "C61_pending_partial",
    "C61_superframe",
    "C61_orders"
   ],
   "note": "Superframe specification, GTS slots and pending addresses proved for buffers that hold the declared entries. Refuted: slots() panics on short accepted buffers and always through GtsInfo, GtsInfo::length omits the directions octet, Beacon::new is todo!()."
  },
  {
   "property": "C11",
   "status": "proved",
   "theorems": [
    "C11_data_frame_new"
   ],
   "note": "acceptance characterised for every octet buffer"
  },
  {
   "property": "C12",
   "status": "proved",
   "theorems": [
    "C12_data_accessors_never_panic"
   ],
   "note": "includes the addressing getters, both IE iterators, all element contents and nested elements"
  },
  {
   "property": "C13",
   "status": "proved",
   "theorems": [
    "C13_fields_partition",
    "C13_no_addressing"
   ],
   "note": "also the undefined-addressing case"
  },
  {
   "property": "C14",
   "status": "partial",
   "theorems": [
    "C14_legacy_beacon_refuted",
    "C14_legacy_beacon_always_panics",
    "C14_dispatch_partial",
    "C14_ack_accessors",
    "C14_frame_accessors"
   ],
   "note": "refuted for 2003/2006 beacons (todo!() panic); every other buffer proved"
  },
  {
   "property": "C15",
   "status": "partial",
   "theorems": [
    "C15_all_header_panics",
    "C15_all_panics_iff",
    "C15_short_refuted",
    "C15_reachable_from_frame_new",
    "C15_ies_refuted",
    "C15_reserved_mode_refuted",
    "C15_security_refuted",
    "C15_partition_partial",
    "C15_header_panics_iff",
    "C15_reserved_mode_panics",
    "C15_panics_iff"
   ],
   "note": "refuted: EnhancedAck::new checks nothing; partition and absence of panics proved for well-formed frames (including secured ones); the exact condition under which each accessor panics is proved, for every buffer of two octets or more and every addressing mode, reserved ones included"
  },
  {
   "property": "C16",
   "status": "proved",
   "theorems": [
    "C16_enhanced_beacon_new",
    "C16_enhanced_beacon_accessors_never_panic",
    "C16_enhanced_beacon_partition",
    "C16_enhanced_beacon_no_addressing"
   ],
   "note": ""
  },
  {
   "property": "C17",
   "status": "proved",
   "theorems": [
    "C17_checksum_is_remainder",
    "C17_remainder_unique",
    "C17_new_iff",
    "C17_new_iff_divisible",
    "C17_append",
    "C17_leading_zeros"
   ],
   "note": ""
  },
  {
   "property": "C18",
   "status": "proved",
   "theorems": [
    "C18_burst_detected",
    "C18_single_bit_detected",
    "C18_odd_errors_detected",
    "C18_two_bit_errors_detected",
    "C18_bound_is_sharp",
    "C18_three_bit_errors_detected",
    "C18_four_bits_undetected"
   ],
   "note": "bursts up to 16 bits, odd-weight errors, two-bit errors and any one to three flipped bits (Hamming distance 4, shown exact); the burst bound is shown sharp"
  },
  {
   "property": "C31",
   "status": "partial",
   "theorems": [
    "C31_stale_bits_refuted",
    "C31_emit_partial"
   ],
   "note": "refuted for non-zeroed buffers and for frames with both IEs and payload; exact length and octets proved for every consistent emittable frame on a zeroed buffer"
  },
  {
   "property": "C32",
   "status": "proved",
   "theorems": [
    "C32_roundtrip",
    "C32_imm_ack_with_addresses"
   ],
   "note": "every frame the builder can produce without IEs, up to 127 octets"
  },
  {
   "property": "C33",
   "status": "partial",
   "theorems": [
    "C33_ht1_refuted",
    "C33_readback_partial",
    "C33_headers_only"
   ],
   "note": "refuted: HT1 is read back as an additional header IE; exact read-back characterised for all emittable frames"
  },
  {
   "property": "C34",
   "status": "partial",
   "theorems": [
    "C34_plain_panics_iff_partial",
    "C34_secured_panics",
    "C34_header_ie_refuted",
    "C34_buffer_len_refuted",
    "C34_emit_panics_iff_partial"
   ],
   "note": "refuted: IEs + payload panics although valid; exact panic characterisation for consistent frames (C34_emit_panics_iff_partial) and for every frame without information elements, security and reserved values, consistent or not (C34_plain_panics_iff_partial); a frame with a payload that announces security, consistent otherwise, always panics (C34_secured_panics)"
  },
  {
   "property": "C35",
   "status": "partial",
   "theorems": [
    "C35_zero_links_refuted",
    "C35_timeslot_refuted",
    "C35_parse_partial"
   ],
   "note": "refuted: zero-link slotframe and 26-octet timeslot IE; proved that these are the only causes"
  },
  {
   "property": "C36",
   "status": "partial",
   "theorems": [
    "C36_absent_refuted",
    "C36_ack_refuted",
    "C36_consistent_partial",
    "C36_preserves",
    "C36_identical_pans",
    "C36_different_pans",
    "C36_errors"
   ],
   "note": "refuted for Address::Absent and immediate ACKs with addresses; otherwise proved, with preservation, compression and error characterisation"
  },
  {
   "property": "C49",
   "status": "proved",
   "theorems": [
    "C49_at_most_one_guard",
    "C49_try_lock",
    "C49_lock"
   ],
   "note": "any number of tasks, futures, cancellations"
  },
  {
   "property": "C50",
   "status": "proved",
   "theorems": [
    "C50_waiters_woken",
    "C50_displaced_woken",
    "C50_wakes_only_waiters"
   ],
   "note": ""
  },
  {
   "property": "C51",
   "status": "proved",
   "theorems": [
    "C51_receive",
    "C51_send",
    "C51_has_item",
    "C51_at_most_once"
   ],
   "note": ""
  },
  {
   "property": "C52",
   "status": "proved",
   "theorems": [
    "C52_sends_when_empty",
    "C52_fifo"
   ],
   "note": ""
  },
  {
   "property": "C53",
   "status": "proved",
   "theorems": [
    "C53_receiver_woken",
    "C53_senders_woken",
    "C53_two_receiver_tasks_lost"
   ],
   "note": "any number of sender tasks; the one-receiver restriction of the property is shown necessary (C53_two_receiver_tasks_lost)"
  },
  {
   "property": "C54",
   "status": "partial",
   "theorems": [
    "C54_reset_refuted",
    "C54_accounted_partial",
    "C54_no_reset"
   ],
   "note": "refuted: a message pending at split()/drop of the channel is leaked; otherwise every message accounted for exactly once"
  },
  {
   "property": "C59",
   "status": "proved",
   "theorems": [
    "C59_accepts",
    "C59_inverse",
    "C59_numbers"
   ],
   "note": ""
  },
  {
   "property": "C60",
   "status": "partial",
   "theorems": [
    "C60_add_sub",
    "C60_overflow",
    "C60_max",
    "C60_cast_refuted",
    "C60_mul_div_partial"
   ],
   "note": "refuted for usize factors >= 2^63 (cast to i64); proved for all other operands, on both overflow profiles"
  },
  {
   "property": "C38",
   "status": "proved",
   "theorems": [
    "C38_ack_octets",
    "C38_ack_is_frame",
    "C38_recognised",
    "C38_own_ack_recognised"
   ],
   "note": "for every device format, every sequence of earlier ACKs in the reused buffer and every sequence number"
  },
  {
   "property": "C39",
   "status": "proved",
   "theorems": [
    "C39_for_us",
    "C39_hypotheses_cover",
    "C39_absent_destination"
   ],
   "note": "exact characterisation for all PAN IDs, hardware addresses and frames; an absent but decodable destination is never ours, even with implicit broadcast"
  },
  {
   "property": "C40",
   "status": "proved",
   "theorems": [
    "C40_decision",
    "C40_receptions"
   ],
   "note": "decision characterised exactly for all buffers and configurations (C40_decision), and every run of the device performs exactly it (C40_receptions). In one corner the statement's wording is ambiguous: a delivered frame without sequence number whose ack is wanted is not acknowledged."
  },
  {
   "property": "C42",
   "status": "partial",
   "theorems": [
    "C42_flag_not_cleared_refuted",
    "C42_ack_request_partial",
    "C42_without_flag",
    "C42_invalid_reported"
   ],
   "note": "refuted as stated: the AR flag of frames not to be acknowledged is never cleared (C42_flag_not_cleared_refuted); everything else proved, and C42 in full for frames handed over without the flag"
  },
  {
   "property": "C43",
   "status": "proved",
   "theorems": [
    "C43_overwrite",
    "C43_invalid_unchanged",
    "C43_patch_length"
   ],
   "note": "exact result for all buffers and configurations"
  },
  {
   "property": "C55",
   "status": "proved",
   "theorems": [
    "C55_select_poll",
    "C55_select_start",
    "C55_pending_life",
    "C55_complete_life"
   ],
   "note": "One poll of select in every case (iff), and whole lives of a select over arbitrary futures, worlds and environments."
  },
  {
   "property": "C56",
   "status": "proved",
   "theorems": [
    "C56_pending_life",
    "C56_complete_life",
    "C56_join_poll",
    "C56_join_start"
   ],
   "note": "One poll of join in every case (iff), and whole lives: each child polled until it finishes, never after; ready exactly when both finished."
  },
  {
   "property": "C57",
   "status": "proved",
   "theorems": [
    "C57_yield_now",
    "C57_yield_now_polls"
   ],
   "note": ""
  },
  {
   "property": "C58",
   "status": "proved",
   "theorems": [
    "C58_cancel",
    "C58_polls"
   ],
   "note": "Over every schedule of polls and drops of the radio futures; RefCell not modelled (see RadioFutures.v)."
  },
  {
   "property": "C41",
   "status": "proved",
   "theorems": [
    "C41_delivered_once_in_order",
    "C41_at_most_one_pending"
   ],
   "note": "for every run of the device, at every suspension (and in between up to the last reception)"
  },
  {
   "property": "C44",
   "status": "proved",
   "theorems": [
    "C44_attempts",
    "C44_course",
    "C44_zero_limit"
   ],
   "note": "for all outcomes and all limits from 1 to 65534; for the limit 0 transmit_cca returns Ok without sending (C44_zero_limit)"
  },
  {
   "property": "C45",
   "status": "proved",
   "theorems": [
    "C45_prepared_determined",
    "C45_frames",
    "C45_one_outcome",
    "C45_bounded",
    "C45_zero_limit"
   ],
   "note": "for all runs and limits from 1 to 65534; with limit 0 frames are dropped silently (C45_zero_limit)"
  },
  {
   "property": "C46",
   "status": "proved",
   "theorems": [
    "C46_only_matching_ack"
   ],
   "note": "for all histories of the future polled on its own in any environment"
  },
  {
   "property": "C47",
   "status": "proved",
   "theorems": [
    "C47_backoff"
   ],
   "note": "for all runs and parameters whose longest backoff fits 2^32 us (holds for the shipped constants); overflow-freedom is C64"
  },
  {
   "property": "C48",
   "status": "proved",
   "theorems": [
    "C48_radio_guarded",
    "C48_radio_prepared",
    "C48_off_air_unguarded",
    "C48_backoff_unguarded",
    "C48_dropped",
    "C48_locked_iff_held"
   ],
   "note": "for all runs, including dropping the device at any suspension"
  },
  {
   "property": "C63",
   "status": "proved",
   "theorems": [
    "C63_wants_waits",
    "C63_waits_woken",
    "C63_handed_over",
    "C63_rx_waits",
    "C63_rx_locks"
   ],
   "note": "hand-over within two polls unless a frame is received or still being handed over, self-waking, no lost wakeup for the receive task. That the exceptions are real, and that they can last forever, is C69"
  },
  {
   "property": "C64",
   "status": "proved",
   "theorems": [
    "C64_always_steps"
   ],
   "note": "under setup_ok (conditions on constants and the radio's format)"
  },
  {
   "property": "C65",
   "status": "proved",
   "theorems": [
    "C65_channel"
   ],
   "note": "for all runs"
  },
  {
   "property": "C62",
   "status": "partial",
   "theorems": [
    "C62_invalid_refuted",
    "C62_invalid_always_panics",
    "C62_rejected_cases",
    "C62_hex",
    "C62_output_partial",
    "C62_enhanced_ack_partial",
    "C62_enhanced_ack_unreadable",
    "C62_enhanced_ack_output_partial",
    "C62_ack",
    "C62_accepted_refuted",
    "C62_enhanced_ack_header",
    "C62_enhanced_ack_output",
    "C62_enhanced_ack_covered",
    "C62_output"
   ],
   "note": "refuted: panics on everything Frame::new rejects, on non-hexadecimal text and on accepted frames with a zero-link slotframe or a 26-octet timeslot IE. Proved: exact output for all accepted frames (data frames, enhanced beacons, immediate ACKs, enhanced ACKs secured or not and with any addressing mode), and exactly when the printer panics on them: those two kinds of elements, or an enhanced ACK that cannot be read (C15). The characters of each line: C83."
  },
  {
   "property": "C66",
   "status": "proved",
   "theorems": [
    "C66_builder_calls",
    "C66_builds"
   ],
   "note": "the frame asked for is SpecRepr.asked (last call of each kind, all information elements in order); C66_builds restates it for the builds relation used by C31-C37"
  },
  {
   "property": "C67",
   "status": "proved",
   "theorems": [
    "C67_validate",
    "C67_total",
    "C67_finalized"
   ],
   "note": "exact characterisation, totality, and every finalized frame with a non-empty payload validates"
  },
  {
   "property": "C68",
   "status": "partial",
   "theorems": [
    "C68_partial",
    "C68_refuted"
   ],
   "note": "refuted: with GTS descriptors present pending_address() starts one octet too early (GtsInfo::length omits the directions octet), hence payload() is wrong too. Proved: all sections up to the GTS fields always, and everything for beacons without GTS descriptors; the exact wrong view otherwise."
  },
  {
   "property": "C69",
   "status": "partial",
   "theorems": [
    "C69_slow_driver",
    "C69_receptions",
    "C69_refuted",
    "C69_why_partial"
   ],
   "note": "false as stated (C69_refuted): a slow Driver::received keeps the transmit task waiting for any number of polls although the lock is free (C69_slow_driver), and so do frames that keep arriving (C69_receptions). Proved: these are the only two reasons (C69_why_partial)"
  },
  {
   "property": "C70",
   "status": "partial",
   "theorems": [
    "C70_constants",
    "C70_fails",
    "C70_total",
    "C70_default_params",
    "C70_one_set",
    "C70_params",
    "C70_refuted",
    "C70_statement_refuted",
    "C70_documented_partial"
   ],
   "note": "everything but the last clause proved for all environments; the last is refuted: the documented DOT15D4_MAC_MAX_FRAME_RETRIES makes build.rs panic (it only knows MAC_MAX_FRAME_RETIES). Proved for all other documented variables. Values are kept as text; only literal texts are interpreted"
  },
  {
   "property": "C71",
   "status": "partial",
   "theorems": [
    "C71_refuted",
    "C71_statement_refuted",
    "C71_operations_partial",
    "C71_steps_partial"
   ],
   "note": "false as stated (C71_refuted, C71_statement_refuted): while the transmit task waits for an acknowledgement, every other frame the radio delivers keeps it in the same poll, and the timeout is not looked at. Proved for every setup: at most poll_bound operations (and internal steps) per such frame, and once more; so this is the only way"
  },
  {
   "property": "C72",
   "status": "proved",
   "theorems": [
    "C72_enabled_first_and_once"
   ],
   "note": "at every reachable state of every execution of the device"
  },
  {
   "property": "C73",
   "status": "proved",
   "theorems": [
    "C73_radio_free"
   ],
   "note": "stated at suspensions (Pend), where the other task can be polled"
  },
  {
   "property": "C74",
   "status": "proved",
   "theorems": [
    "C74_quiet_until_ack",
    "C74_quiet_until_answered"
   ],
   "note": "both directions; operations of the radio are the polls and cancellations of receive, transmit and CCA futures"
  },
  {
   "property": "C75",
   "status": "partial",
   "theorems": [
    "C75_refuted",
    "C75_bounded_partial",
    "C75_signals_wanted_partial"
   ],
   "note": "false as stated (C75_refuted): acquire_lock sends its signal once more after the receive task reacted, and this stale signal cancels a later reception. Proved: given-up receptions <= signals <= 2*acquisitions+2, and unwanted ones <= acquisitions; signals are sent only while the radio is wanted"
  },
  {
   "property": "C76",
   "status": "proved",
   "theorems": [
    "C76_no_busy_waiting",
    "C76_wakes_bounded"
   ],
   "note": "two bounds on the self-wakes"
  },
  {
   "property": "C77",
   "status": "proved",
   "theorems": [
    "C77_every_poll",
    "C77_begun"
   ],
   "note": "for each kind of awaited future; what drops one counts as attending to it"
  },
  {
   "property": "C78",
   "status": "proved",
   "theorems": [
    "C78_delay_at_once",
    "C78_ack_at_once",
    "C78_listens_at_once",
    "C78_busy_at_once",
    "C78_backoff_at_once"
   ],
   "note": "five steps; 'at once' = before the device suspends again"
  },
  {
   "property": "C79",
   "status": "proved",
   "theorems": [
    "C79_never_contended",
    "C79_locked",
    "C79_free"
   ],
   "note": "the mutex of the random number generator in the world of CsmaWorld.v is the model of Sync.v"
  },
  {
   "property": "C80",
   "status": "proved",
   "theorems": [
    "C80_frames_only",
    "C80_acks_only"
   ],
   "note": "all hand-overs to the radio, also repeated polls of one preparation; the octets of a frame are unique by C45_prepared_determined"
  },
  {
   "property": "C81",
   "status": "partial",
   "theorems": [
    "C81_frame_control_text",
    "C81_frame_control",
    "C81_addressing_text",
    "C81_addressing",
    "C81_header_text",
    "C81_absent",
    "C81_header_refuted",
    "C81_header_partial",
    "C81_nested_text",
    "C81_payload_text",
    "C81_names",
    "C81_no_panic",
    "C81_alone_refuted",
    "C81_slotframe_text",
    "C81_link_text",
    "C81_options",
    "C81_timings_text",
    "C81_timings_read"
   ],
   "note": "texts and no-panic for all readers; the text of a header element determines id and content only for whole elements (refuted for time corrections, which are rounded); an element accepted on its own may be truncated and then panics (refuted); core::fmt of integers, slices, derived Debug names and bitflags::to_writer are modelled from their documentation"
  },
  {
   "property": "C82",
   "status": "partial",
   "theorems": [
    "C82_refuted",
    "C82_shown_partial",
    "C82_readable"
   ],
   "note": "refuted beyond the 24 significant bits of an f32 (8589935092 us prints 8589935.00ms); proved up to 2^24 us, which covers every duration read from a frame (C81_timings_read); f32 conversion, division and {:.2} are modelled from IEEE 754 and the documentation"
  },
  {
   "property": "C83",
   "status": "proved",
   "theorems": [
    "C83_any_kind",
    "C83_enhanced_acks",
    "C83_enhanced_acks_same",
    "C83_security_lost",
    "C83_text",
    "C83_panic",
    "C83_readable",
    "C83_colour",
    "C83_frames",
    "C83_same_octets"
   ],
   "note": "the colored crate's escape sequences and core::fmt are modelled from their documentation; times are the rounded ones of C82 (within 10 us of each other when they read the same)"
  },
  {
   "property": "C84",
   "status": "proved",
   "theorems": [
    "C84_sent",
    "C84_received",
    "C84_acknowledged",
    "C84_exchange"
   ],
   "note": "for any two device formats that keep the frame's place when its octets change and show what a token wrote (proved for the radio of the crate's tests and for one with a length octet); the air delivers a frame unchanged or not at all"
  },
  {
   "property": "C85",
   "status": "partial",
   "theorems": [
    "C85_mutex_partial",
    "C85_mutex_refuted",
    "C85_memory_safe_partial",
    "C85_channel_partial",
    "C85_double_drop_refuted",
    "C85_lost_wakeup_refuted",
    "C85_refuted"
   ],
   "note": "refuted: a waker woken by a guard's drop or by a competing lock poll that uses the mutex panics (exactly these, C85_mutex_partial); a destructor of an overwritten message that sends makes send drop twice (UB), a waiting sender replaced while the old waker receives is lost; proved for every operation whose callbacks are harmless, and memory safety for every one whose destructors do not use the channel; re-entry from Waker::clone/will_wake/drop not modelled"
  },
  {
   "property": "C86",
   "status": "proved",
   "theorems": [
    "C86_sent",
    "C86_delivered",
    "C86_built"
   ],
   "note": "for frames with header elements only (payload elements: C33); for device formats as in C84; the air delivers a frame unchanged or not at all"
  },
  {
   "property": "C87",
   "status": "partial",
   "theorems": [
    "C87_in_order",
    "C87_copies",
    "C87_once_refuted",
    "C87_success_partial",
    "C87_success_refuted",
    "C87_given_up_refuted"
   ],
   "note": "order and number of copies proved as stated; 'not reported as given up means delivered' refuted (a late acknowledgement of an earlier frame with the same sequence number is taken for it) and proved when no earlier frame of A has this number and B's upper layer does not send acknowledgements itself (C87_success_partial); 'at most once' and 'not acknowledged means not delivered' refuted by runs of two devices in which acknowledgements are lost; exactly two devices, device formats as in C84"
  },
  {
   "property": "C88",
   "status": "proved",
   "theorems": [
    "C88_synchronization",
    "C88_link",
    "C88_slotframe",
    "C88_single",
    "C88_timings",
    "C88_timings_panic"
   ],
   "note": "the setters of time correction are in C26, of element headers in C23-C25; whole timings as in C28"
  },
  {
   "property": "C89",
   "status": "partial",
   "theorems": [
    "C89_forward_partial",
    "C89_undecodable_panics",
    "C89_same_frame_partial",
    "C89_payload_elements",
    "C89_header_elements_partial",
    "C89_beacon_refuted",
    "C89_claimed_elements_refuted",
    "C89_many_elements_refuted"
   ],
   "note": "proved for every frame without information elements (the reserved bit of the frame control is the only change, addresses that do not fit travel on as payload) and for frames with header elements only; refuted for payload elements (every such frame comes out two octets longer with a second header termination, cannot be decoded and makes the next hop panic), for frames that only claim to carry elements (emit panics, in general) and for 17 header elements (the last is dropped)"
  },
  {
   "property": "C90",
   "status": "partial",
   "theorems": [
    "C90_every_frame_reads",
    "C90_sequence_octets",
    "C90_sequence_number_partial",
    "C90_frame_control_partial",
    "C90_frame_control_exact",
    "C90_addressing",
    "C90_payload",
    "C90_elements",
    "C90_sequence_refuted",
    "C90_control_refuted",
    "C90_refuted"
   ],
   "note": "addressing fields, payload and elements proved for every accepted frame; refuted for the sequence number of a frame that suppresses it (an addressing octet is overwritten and the frame still has no number) and for clearing flags of the frame control; exact effect of both setters on every frame proved. Reading back rewritten elements is C33."
  },
  {
   "property": "C91",
   "status": "proved",
   "theorems": [
    "C91_exclusive",
    "C91_reads",
    "C91_stable",
    "C91_no_lost_update"
   ],
   "note": "MutexValue.v adds the UnsafeCell to Sync.v; references are modelled by the accesses made through them; unsafe Mutex::read (unused) is outside"
  }
 ]
}