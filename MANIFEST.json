{
 "claims": [
  {
   "property": "C01",
   "status": "proved",
   "theorems": [
    "C01_int_assign_read",
    "C01_int_assign_send_read",
    "C01_assigned_field_is_valid"
   ],
   "note": ""
  },
  {
   "property": "C02",
   "status": "partial",
   "theorems": [
    "C02_saturation_refuted",
    "C02_saturation_partial",
    "C02_long_signed_wraps"
   ],
   "note": "False of the code for signed types of 54..64 bits: the range is computed with float division, so out-of-range values end up at the opposite end. Proved for unsigned types and signed types up to 53 bits."
  },
  {
   "property": "C03",
   "status": "proved",
   "theorems": [
    "C03_truncation_wraps"
   ],
   "note": ""
  },
  {
   "property": "C04",
   "status": "partial",
   "theorems": [
    "C04_conversion_round_trip",
    "C04_field_round_trip_refuted",
    "C04_field_round_trip_partial"
   ],
   "note": "The conversion functions satisfy it for all 65536 patterns. At the level of fields it is false for infinities in saturated fields, which are written back as the largest finite number; proved for every other pattern and mode."
  },
  {
   "property": "C05",
   "status": "proved",
   "theorems": [
    "C05_nearest",
    "C05_monotone",
    "C05_infinite_and_nan",
    "C05_assign_any_float"
   ],
   "note": "Proved as round to nearest, which is within the stated bound."
  },
  {
   "property": "C06",
   "status": "proved",
   "theorems": [
    "C06_serialisation_roundtrip",
    "C06_roundtrip_any_padding"
   ],
   "note": "All types and values, both TAO modes; at byte level and for any padding below one byte."
  },
  {
   "property": "C07",
   "status": "proved",
   "theorems": [
    "C07_length_bounds"
   ],
   "note": ""
  },
  {
   "property": "C08",
   "status": "partial",
   "theorems": [
    "C08_decoded_size_refuted",
    "C08_decoded_size_tao_refuted",
    "C08_decoded_size_partial",
    "C08_count_below_double_partial"
   ],
   "note": "False of the code: the decoder never checks the count against max_size. Proved: an in-range decode is a valid object; without TAO the count is at most twice the maximum."
  },
  {
   "property": "C09",
   "status": "proved",
   "theorems": [
    "C09_trailing_bits_untouched"
   ],
   "note": ""
  },
  {
   "property": "C10",
   "status": "proved",
   "theorems": [
    "C10_reencode_decoded",
    "C10_decode_injective"
   ],
   "note": ""
  },
  {
   "property": "C11",
   "status": "proved",
   "theorems": [
    "C11_integer_layout",
    "C11_integer_bytes"
   ],
   "note": ""
  },
  {
   "property": "C12",
   "status": "proved",
   "theorems": [
    "C12_id_layout",
    "C12_decode_encode",
    "C12_encode_decode"
   ],
   "note": "Identifiers that decode to a service transfer to node 0 are not legal transfers; for those the encoder is shown to refuse."
  },
  {
   "property": "C13",
   "status": "proved",
   "theorems": [
    "C13_ids_differ",
    "C13_id_range"
   ],
   "note": ""
  },
  {
   "property": "C14",
   "status": "proved",
   "theorems": [
    "C14_splitting_well_formed"
   ],
   "note": ""
  },
  {
   "property": "C15",
   "status": "partial",
   "theorems": [
    "C15_fd_length_refuted",
    "C15_fd_length_partial"
   ],
   "note": "False of the code for payloads of 62 bytes, and for lengths 60 mod 63 from 123 on; proved to hold for exactly the other lengths."
  },
  {
   "property": "C16",
   "status": "proved",
   "theorems": [
    "C16_split_reassemble"
   ],
   "note": ""
  },
  {
   "property": "C17",
   "status": "proved",
   "theorems": [
    "C17_interleaved_delivery",
    "C17_interleaved_messages",
    "C17_successive_delivery"
   ],
   "note": ""
  },
  {
   "property": "C18",
   "status": "proved",
   "theorems": [
    "C18_delivery_exact",
    "C18_nothing_twice"
   ],
   "note": ""
  },
  {
   "property": "C19",
   "status": "proved",
   "theorems": [
    "C19_fault_noticed"
   ],
   "note": "Duplicate means an immediate repetition of the frame."
  },
  {
   "property": "C20",
   "status": "proved",
   "theorems": [
    "C20_burst_changes_crc",
    "C20_burst_reported",
    "C20_changed_crc_reported"
   ],
   "note": "Checksum level and receiver level (identifiers and tail bytes intact)."
  },
  {
   "property": "C21",
   "status": "proved",
   "theorems": [
    "C21_incremental",
    "C21_range",
    "C21_polynomial_remainder",
    "C21_remainder_unique"
   ],
   "note": ""
  },
  {
   "property": "C22",
   "status": "partial",
   "theorems": [
    "C22_cleanup_refuted",
    "C22_cleanup_partial"
   ],
   "note": "False of the code: deleting from the dictionary under iteration raises RuntimeError after the first expired entry. Proved: exactly the first expired entry goes, and nothing changes if none has expired."
  },
  {
   "property": "C23",
   "status": "proved",
   "theorems": [
    "C23_chunking",
    "C23_resume",
    "C23_range",
    "C23_burst",
    "C23_polynomial_remainder",
    "C23_bytes_faithful"
   ],
   "note": ""
  },
  {
   "property": "C24",
   "status": "partial",
   "theorems": [
    "C24_ids_count",
    "C24_frames_carry_id",
    "C24_no_gaps_partial",
    "C24_no_gaps_refuted"
   ],
   "note": "Every attempt takes the next id of its session, and its frames carry it. Counting only transfers that were sent completely, the ids have a gap after an attempt that failed; proved without gaps when none of the session failed."
  },
  {
   "property": "C25",
   "status": "proved",
   "theorems": [
    "C25_at_most_once",
    "C25_exactly_once",
    "C25_timeout_not_early"
   ],
   "note": "callbacks are an arbitrary function of the history that may send, schedule and change handlers, but do not raise when given a response; exactly once: for a poll that returns, with a clock that does not go back"
  },
  {
   "property": "C26",
   "status": "partial",
   "theorems": [
    "C26_raising_callback_refuted",
    "C26_raising_callback_partial"
   ],
   "note": "False of the code: the entry is only removed after the callback has returned, so a duplicate response calls it again. Proved for any callbacks: calls with a response and with None exclude each other, and None comes at most once."
  },
  {
   "property": "C27",
   "status": "partial",
   "theorems": [
    "C27_response_matches_partial",
    "C27_before_timeout_refuted"
   ],
   "note": "Proved but for the time: a response received after the timeout has passed is still delivered if the scheduler has not been polled since; proved: not after the timeout was processed."
  },
  {
   "property": "C28",
   "status": "partial",
   "theorems": [
    "C28_handlers_called_partial",
    "C28_plain_handler_refuted",
    "C28_reply",
    "C28_no_reply",
    "C28_one_reply_refuted"
   ],
   "note": "False of the code in two ways: a plain handler also gets overheard responses when a sniffing handler for the type exists, and two handlers of a service both reply. Proved: this is the only exception, and each handler's result is sent once to the requester with the request's id and priority; nothing is sent for overheard responses."
  },
  {
   "property": "C29",
   "status": "partial",
   "theorems": [
    "C29_every_handler_partial",
    "C29_exceptions_caught",
    "C29_every_handler_refuted"
   ],
   "note": "False of the code when a handler removes itself: the next one is skipped. Proved when no callback removes single handlers (remove_handlers and adding are allowed), with exceptions caught."
  },
  {
   "property": "C30",
   "status": "proved",
   "theorems": [
    "C30_never_early_at_most_once",
    "C30_run_by_first_poll",
    "C30_order",
    "C30_creation_order",
    "C30_raise_seen"
   ],
   "note": "callbacks are an arbitrary function of the history (they may schedule, cancel and raise); the order theorem assumes delays >= 0 and periods > 0 and a clock that does not go back; a callback that raises ends the poll, so calls due in it wait for the next one"
  },
  {
   "property": "C31",
   "status": "proved",
   "theorems": [
    "C31_no_drift",
    "C31_every_period_runs",
    "C31_cancelled_never_runs",
    "C31_remove_succeeds",
    "C31_remove_from_own_callback"
   ],
   "note": "for every clock and every behaviour of callbacks"
  },
  {
   "property": "C32",
   "status": "proved",
   "theorems": [
    "C32_set_once",
    "C32_anonymous_silent",
    "C32_sending_refused",
    "C32_assignment",
    "C32_source"
   ],
   "note": ""
  },
  {
   "property": "C33",
   "status": "partial",
   "theorems": [
    "C33_broadcast_partial",
    "C33_request_partial",
    "C33_priority_refuted",
    "C33_timeout_refuted"
   ],
   "note": "False of the code for 0, which is taken for 'not given' (priority 20, one second). Proved for all other priorities and timeouts and for the defaults."
  },
  {
   "property": "C34",
   "status": "proved",
   "theorems": [
    "C34_owner",
    "C34_unique",
    "C34_spares"
   ],
   "note": "Within a session (constructor on any database, then any events); restarts are C76. The id range is assumed to end at 127 or below; an all-zero unique id identifies no device."
  },
  {
   "property": "C35",
   "status": "partial",
   "theorems": [
    "C35_stable_partial",
    "C35_stable_refuted"
   ],
   "note": "False of the code if the device was also seen at a different node id. Proved for devices seen at one id only."
  },
  {
   "property": "C36",
   "status": "partial",
   "theorems": [
    "C36_range_partial",
    "C36_granted_partial",
    "C36_range_refuted"
   ],
   "note": "False of the code: a requested id below the range is granted, and the lowest id of the range is never given unless asked for. Proved for requests not below the range; every complete request is granted unless all ids above the lowest are taken."
  },
  {
   "property": "C37",
   "status": "partial",
   "theorems": [
    "C37_listed_partial",
    "C37_listed_refuted"
   ],
   "note": "False of the code for nodes that asked this node for info: they are listed without status. Proved as an equivalence with such requests counted as being heard."
  },
  {
   "property": "C38",
   "status": "partial",
   "theorems": [
    "C38_new_again",
    "C38_coherent_partial",
    "C38_coherent_refuted"
   ],
   "note": "False of the code: an overheard info response, or an info request, creates an entry that was never reported new. Proved in full for histories without those; the second half (new again only after offline) for all histories."
  },
  {
   "property": "C39",
   "status": "proved",
   "theorems": [
    "C39_bounded",
    "C39_interval",
    "C39_assertion",
    "C39_asks",
    "C39_restarted",
    "C39_answered"
   ],
   "note": "An info request from the node counts as an answer (it resets the counter). The interval is measured on message time stamps, which are assumed not to go back and to lag by at most 2.5 s."
  },
  {
   "property": "C40",
   "status": "proved",
   "theorems": [
    "C40_item",
    "C40_keys",
    "C40_keys_once"
   ],
   "note": "On a clock that does not go back."
  },
  {
   "property": "C41",
   "status": "proved",
   "theorems": [
    "C41_fetch"
   ],
   "note": "Files up to the largest uint40 offset."
  },
  {
   "property": "C42",
   "status": "partial",
   "theorems": [
    "C42_confined_partial",
    "C42_confined_refuted",
    "C42_slashes"
   ],
   "note": "False of the code: paths with .. and absolute paths reach any file. Proved for relative paths that do not lead above their start."
  },
  {
   "property": "C43",
   "status": "partial",
   "theorems": [
    "C43_write",
    "C43_sent",
    "C43_write_returns",
    "C43_read_partial",
    "C43_read_node",
    "C43_read_amount",
    "C43_told",
    "C43_alive",
    "C43_read_refuted"
   ],
   "note": "False of the code: the serial_id is not checked on reception, so bytes of another device of the same node are mixed in (C43_read_refuted). The writing half is proved in full, the reading half for the bytes of the node."
  },
  {
   "property": "C44",
   "status": "proved",
   "theorems": [
    "C44_playback",
    "C44_complete",
    "C44_recorded",
    "C44_layout"
   ],
   "note": "For times that are whole numbers of microseconds (what the file format can hold)."
  },
  {
   "property": "C45",
   "status": "partial",
   "theorems": [
    "C45_truncated_partial",
    "C45_truncated_refuted"
   ],
   "note": "False of the code: a file cut in the data of a record cannot be opened at all. Proved for cuts in a record's header: the records before it are all played."
  },
  {
   "property": "C46",
   "status": "partial",
   "theorems": [
    "C46_last_refuted",
    "C46_first_partial"
   ],
   "note": "False of the code: the last timestamp is always None. Proved: the start timestamp is that of the first record."
  },
  {
   "property": "C47",
   "status": "partial",
   "theorems": [
    "C47_roundtrip_refuted",
    "C47_sent_partial",
    "C47_read"
   ],
   "note": "False of the code: sending a standard frame raises TypeError. Proved: extended frames are sent as lines of the protocol, and every line of the protocol in either format is read as its frame and time stamp."
  },
  {
   "property": "C48",
   "status": "partial",
   "theorems": [
    "C48_lines",
    "C48_chunks_partial",
    "C48_timed_partial",
    "C48_malformed_partial",
    "C48_chunks_refuted",
    "C48_malformed_refuted"
   ],
   "note": "False of the code when the adapter's clock goes back a little or a time stamp is out of range: the assertion in the estimator makes a frame be lost, depending on the splitting. Proved without time stamps and with clocks that behave. Normal mode only (no command line request outstanding)."
  },
  {
   "property": "C49",
   "status": "proved",
   "theorems": [
    "C49_roundtrip",
    "C49_layout",
    "C49_invalid_dropped",
    "C49_burst_dropped",
    "C49_bits_dropped"
   ],
   "note": "Also up to three corrupted bits anywhere in the checked part."
  },
  {
   "property": "C50",
   "status": "proved",
   "theorems": [
    "C50_roundtrip",
    "C50_layout"
   ],
   "note": "For a little-endian machine; the time stamps of the kernel are left out."
  },
  {
   "property": "C51",
   "status": "proved",
   "theorems": [
    "C51_codes",
    "C51_lengths",
    "C51_smallest"
   ],
   "note": ""
  },
  {
   "property": "C52",
   "status": "partial",
   "theorems": [
    "C52_not_later_refuted",
    "C52_not_later_partial",
    "C52_best",
    "C52_bounds"
   ],
   "note": "False of the code with a fixed delay, which has the wrong sign. Proved up to the fixed delay, and the exact value. Exact arithmetic instead of floats."
  },
  {
   "property": "C53",
   "status": "proved",
   "theorems": [
    "C53_unwrap"
   ],
   "note": "Exact arithmetic instead of floats."
  },
  {
   "property": "C54",
   "status": "proved",
   "theorems": [
    "C54_sizes",
    "C54_sizes_kept",
    "C54_rejected",
    "C54_insert",
    "C54_append",
    "C54_replace",
    "C54_delete",
    "C54_delete_slice",
    "C54_reverse",
    "C54_full",
    "C54_out_of_bounds"
   ],
   "note": "The elements put in are integers in range or objects. Reading slices and the inherited remove (index and deletion) are not modelled."
  },
  {
   "property": "C55",
   "status": "partial",
   "theorems": [
    "C55_self_assignment_refuted",
    "C55_self_assignment_empties",
    "C55_augmented_empties",
    "C55_assignment_partial"
   ],
   "note": "False of the code: an array field assigned to itself becomes empty, also by +=. Proved for every other value."
  },
  {
   "property": "C56",
   "status": "partial",
   "theorems": [
    "C56_copy_refuted",
    "C56_same_partial",
    "C56_deep_copy_partial"
   ],
   "note": "False of the code: copy.copy shares the dictionary of fields. Proved: the content is right just after the assignment, and stays if a deep copy was assigned."
  },
  {
   "property": "C57",
   "status": "proved",
   "theorems": [
    "C57_access_selects",
    "C57_stays_active",
    "C57_others_raise",
    "C57_switch",
    "C57_release",
    "C57_no_union",
    "C57_switched_away",
    "C57_active_field_sent",
    "C57_assigned_integer_sent",
    "C57_constants"
   ],
   "note": "Through the attribute API and switch_union_field; private names are not modelled."
  },
  {
   "property": "C58",
   "status": "partial",
   "theorems": [
    "C58_text_refuted",
    "C58_text_partial",
    "C58_ascii_partial",
    "C58_refused",
    "C58_not_text",
    "C58_bytes",
    "C58_utf8_inverse",
    "C58_utf8_scalars"
   ],
   "note": "False of the code for int8 arrays, which count as string-like. Proved for uint8 arrays, and for ASCII in int8 arrays."
  },
  {
   "property": "C59",
   "status": "partial",
   "theorems": [
    "C59_well_formed_refuted",
    "C59_legal_partial",
    "C59_codec_partial"
   ],
   "note": "False of the code: arrays of void are accepted, which the codec cannot encode. Proved: all the rules of the statement, and the codec's requirement if there is no array of void."
  },
  {
   "property": "C60",
   "status": "proved",
   "theorems": [
    "C60_signature",
    "C60_layout",
    "C60_every_text"
   ],
   "note": "Signatures of the definition and of the nested ones, both the DSDL signature and the data type signature. Texts are sequences of code points; white space is ASCII white space."
  },
  {
   "property": "C61",
   "status": "partial",
   "theorems": [
    "C61_zero_refuted",
    "C61_two_loads_refuted",
    "C61_consistent",
    "C61_found_partial"
   ],
   "note": "False of the code for id 0, which is not entered in the table, and across two calls of load_dsdl. Proved: consistent within a call, and every other id is found."
  },
  {
   "property": "C62",
   "status": "proved",
   "theorems": [
    "C62_names",
    "C62_plain",
    "C62_found",
    "C62_bits"
   ],
   "note": "For integer fields; booleans and floats are not looked up by to_yaml."
  },
  {
   "property": "C63",
   "status": "partial",
   "theorems": [
    "C63_json_refuted",
    "C63_succeeds_partial",
    "C63_content_partial"
   ],
   "note": "False of the code: is_printable is not a method of int, so every non-empty variable array of 8-bit numbers raises AttributeError. Proved: all other messages convert, with exactly their content."
  },
  {
   "property": "C64",
   "status": "partial",
   "theorems": [
    "C64_failed_send_refuted",
    "C64_receive_error_refuted",
    "C64_forwarded_partial",
    "C64_complete_partial",
    "C64_finishes_partial",
    "C64_never_back",
    "C64_counts"
   ],
   "note": "False of the code: an exception other than a full transmit queue ends the thread, if need be in the middle of a frame. Proved for all other executions, with threads interleaved in any way."
  },
  {
   "property": "C65",
   "status": "proved",
   "theorems": [
    "C65_spin",
    "C65_spin_zero",
    "C65_spin_forever"
   ],
   "note": "The driver's receive is an arbitrary function; exceptions of callbacks and of the driver end spin."
  },
  {
   "property": "C66",
   "status": "partial",
   "theorems": [
    "C66_every_hook_partial",
    "C66_ends",
    "C66_every_hook_refuted",
    "C66_received_partial",
    "C66_slcan_sent",
    "C66_feedback_sent",
    "C66_queued_sent_partial",
    "C66_queued_sent_refuted",
    "C66_transmitted",
    "C66_file_refuted"
   ],
   "note": "False of the code: a hook that removes a hook hides the frame from the next, the file driver calls no hooks, and multicast and MAVLink show frames that are then refused. Proved for hooks that do not remove hooks."
  },
  {
   "property": "C67",
   "status": "partial",
   "theorems": [
    "C67_truncated_rejected_refuted",
    "C67_variant_refuted",
    "C67_truncated_rejected_partial",
    "C67_cut_partial",
    "C67_means_partial"
   ],
   "note": "False for types with a trailing void (a short void is accepted), and a union cut inside its tag may be read as another variant if that variant occupies no bits to be read. Proved for every type without such variants: a cut form is read if and only if all the bits it lacks are void, and then with the content that was written; in particular it is rejected for every type without voids and empty structs."
  },
  {
   "property": "C68",
   "status": "proved",
   "theorems": [
    "C68_wire_format"
   ],
   "note": "Refinement of the packing code to an independent description of the format, both TAO modes."
  },
  {
   "property": "C69",
   "status": "proved",
   "theorems": [
    "C69_oversized_arrays_are_cut",
    "C69_received_can_be_resent"
   ],
   "note": ""
  },
  {
   "property": "C70",
   "status": "proved",
   "theorems": [
    "C70_three_bit_errors",
    "C70_odd_bit_errors"
   ],
   "note": "The order of x modulo the polynomial is computed by repeated squaring and a check of its maximal divisors; payload length bound 4095 bytes is part of the claim."
  },
  {
   "property": "C71",
   "status": "proved",
   "theorems": [
    "C71_sending_again"
   ],
   "note": ""
  },
  {
   "property": "C72",
   "status": "proved",
   "theorems": [
    "C72_float64_exact",
    "C72_float32_nearest",
    "C72_ties_even",
    "C72_infinite_and_nan"
   ],
   "note": ""
  },
  {
   "property": "C73",
   "status": "partial",
   "theorems": [
    "C73_count_partial",
    "C73_count_at_most_one",
    "C73_count_refuted"
   ],
   "note": "False of the code for a nonzero timeout: only the first turn is counted, so the result is at most 1. Proved for timeout 0."
  },
  {
   "property": "C74",
   "status": "proved",
   "theorems": [
    "C74_transfer_reaches_handlers"
   ],
   "note": "for nodes that catch handler exceptions (the default)"
  },
  {
   "property": "C75",
   "status": "proved",
   "theorems": [
    "C75_assembled"
   ],
   "note": "A first part of 12 bytes, directly followed by the last part, is accepted as well; the definition of `collected` allows it."
  },
  {
   "property": "C76",
   "status": "partial",
   "theorems": [
    "C76_stable_partial",
    "C76_owner_partial",
    "C76_restart_refuted",
    "C76_erased_refuted"
   ],
   "note": "False of the code: the constructor overwrites rows by what the monitor says at that moment, also by 'unknown'. Proved if the monitor does not contradict the database."
  },
  {
   "property": "C77",
   "status": "partial",
   "theorems": [
    "C77_length_partial",
    "C77_length_refuted"
   ],
   "note": "False of the code with a timeout; proved without one and right after iterating (C40_keys_once)."
  },
  {
   "property": "C78",
   "status": "partial",
   "theorems": [
    "C78_others_refuted",
    "C78_own_refuted",
    "C78_others_partial",
    "C78_own_partial"
   ],
   "note": "False of the code: only port numbers are compared (a machine using the same number is not heard), and the own port is not asked for again after a reconnection. Proved for ports the driver never had, and for a single connection."
  },
  {
   "property": "C79",
   "status": "proved",
   "theorems": [
    "C79_roundtrip"
   ],
   "note": ""
  },
  {
   "property": "C80",
   "status": "partial",
   "theorems": [
    "C80_source_refuted",
    "C80_target_refuted",
    "C80_total_partial"
   ],
   "note": "False of the code if a clock goes back. Proved for clocks that do not, if the delay changes by less than half the period between samples."
  },
  {
   "property": "C81",
   "status": "partial",
   "theorems": [
    "C81_cut_refuted",
    "C81_sign_refuted",
    "C81_time_refuted",
    "C81_reads_partial",
    "C81_regular_partial",
    "C81_accepted_partial"
   ],
   "note": "False of the code: lines cut off in the data or in the time stamp are accepted, and so are signs, spaces, prefixes and underscores in numbers. Proved: exactly which lines are accepted and as what, and that lines of digits of the right length are read only as lines of the protocol."
  },
  {
   "property": "C82",
   "status": "partial",
   "theorems": [
    "C82_unknown_name_refuted",
    "C82_unknown_name_kept",
    "C82_unknown_name_partial"
   ],
   "note": "False of the code: the value becomes an ordinary attribute and is not sent. Proved: reading an unknown name raises, and the content of messages is not changed by the assignment."
  },
  {
   "property": "C83",
   "status": "proved",
   "theorems": [
    "C83_copy_equal",
    "C83_copy_independent"
   ],
   "note": ""
  },
  {
   "property": "C84",
   "status": "proved",
   "theorems": [
    "C84_new_message",
    "C84_integer_field",
    "C84_float_field"
   ],
   "note": ""
  },
  {
   "property": "C85",
   "status": "proved",
   "theorems": [
    "C85_determines"
   ],
   "note": "Fields written void... may differ in whether they have a name."
  },
  {
   "property": "C86",
   "status": "partial",
   "theorems": [
    "C86_names_refuted",
    "C86_names_partial",
    "C86_unique_partial"
   ],
   "note": "False of the code: files that differ in id or version only give one full name, and the last one stays. Proved: a type of that name is found, and the right one if names differ."
  },
  {
   "property": "C87",
   "status": "partial",
   "theorems": [
    "C87_constants_refuted",
    "C87_constants_partial"
   ],
   "note": "False of the code for signed types of 54 bits and more, by one. Proved for all others, and within one for these."
  },
  {
   "property": "C88",
   "status": "partial",
   "theorems": [
    "C88_nesting_refuted",
    "C88_nesting_partial",
    "C88_depth"
   ],
   "note": "False of the code if two files have the same full name. Proved if each full name belongs to one file."
  },
  {
   "property": "C89",
   "status": "proved",
   "theorems": [
    "C89_size",
    "C89_failure"
   ],
   "note": "For sizes below 2^40-1."
  },
  {
   "property": "C90",
   "status": "partial",
   "theorems": [
    "C90_answered_refuted",
    "C90_answered_partial"
   ],
   "note": "False of the code: a path that is not UTF-8 raises outside the try block. Proved for all other paths."
  },
  {
   "property": "C91",
   "status": "partial",
   "theorems": [
    "C91_yaml_refuted",
    "C91_yaml_partial"
   ],
   "note": "False of the code: in a variable array of signed bytes a negative one raises ValueError. Proved: all other messages convert. float formatting and repr of str are parameters."
  },
  {
   "property": "C92",
   "status": "partial",
   "theorems": [
    "C92_differ_refuted",
    "C92_differ_partial"
   ],
   "note": "False of the code: FLAGS_A = 1 and FLAG_A = 2 of a field flags are both shown as A. Proved if short names differ and contain no bar."
  },
  {
   "property": "C93",
   "status": "partial",
   "theorems": [
    "C93_means_refuted",
    "C93_means_partial",
    "C93_accepts_partial",
    "C93_float_integer",
    "C93_float_exact"
   ],
   "note": "False of the code: a number after bool is passed over, so bool8 is a one-bit type. Proved with that exception, both ways: what is accepted is what the lines say (constants of long signed types within one of the range), and what has a meaning is accepted. The expression evaluator is a parameter."
  },
  {
   "property": "C94",
   "status": "proved",
   "theorems": [
    "C94_path"
   ],
   "note": "Stated for directories without dots in their names; see C96 for the others. File names are assumed to contain no line feed."
  },
  {
   "property": "C95",
   "status": "proved",
   "theorems": [
    "C95_found",
    "C95_finds"
   ],
   "note": "Directory listing and file reading are parameters."
  },
  {
   "property": "C96",
   "status": "partial",
   "theorems": [
    "C96_apart_refuted",
    "C96_apart_partial"
   ],
   "note": "False of the code: uavcan/a/b/X.uavcan and uavcan/a.b/X.uavcan are both uavcan.a.b.X. Proved for directories without dots in their names."
  },
  {
   "property": "C97",
   "status": "proved",
   "theorems": [
    "C97_hash",
    "C97_exactly_one"
   ],
   "note": "The evaluator of constant expressions, directory listing and file reading are parameters."
  },
  {
   "property": "C98",
   "status": "partial",
   "theorems": [
    "C98_shows_refuted",
    "C98_shows_partial"
   ],
   "note": "False of the code: mixing in another nested type's signature has a kernel of dimension 2. Proved exactly: a change is lost if and only if another compound field follows and the signatures differ by one of three constants."
  },
  {
   "property": "C99",
   "status": "partial",
   "theorems": [
    "C99_decoded_refuted",
    "C99_text_refuted",
    "C99_frames_partial",
    "C99_delivered_partial"
   ],
   "note": "False of the code: after output that is not UTF-8 the rest of the reading is dropped, with the frames in it; and text that looks like a frame is taken for one when no command is outstanding. Proved for all other streams."
  },
  {
   "property": "C100",
   "status": "partial",
   "theorems": [
    "C100_output_refuted",
    "C100_sound_partial",
    "C100_exact_partial"
   ],
   "note": "False of the code: after text received while no command was outstanding the next echo is not recognised and the command expires. Proved: an answer never holds anything but the output of such a command; and every command gets its output if all text is output of commands."
  },
  {
   "property": "C101",
   "status": "proved",
   "theorems": [
    "C101_own_answer",
    "C101_all_called",
    "C101_requests"
   ],
   "note": "The queues between the processes are unbounded and lose nothing."
  },
  {
   "property": "C102",
   "status": "proved",
   "theorems": [
    "C102_commands"
   ],
   "note": "Waiting for a reply passes over at most a given number of other bytes, which may be any number."
  },
  {
   "property": "C103",
   "status": "partial",
   "theorems": [
    "C103_traffic_refuted",
    "C103_late_refuted",
    "C103_opened_partial"
   ],
   "note": "False of the code: the end of a frame or a late reply is taken for an acknowledgement, and the refusal to open for a failure to clear error flags. Proved, both ways, for adapters that send no acknowledgement or refusal but as the reply to the last command."
  },
  {
   "property": "C104",
   "status": "partial",
   "theorems": [
    "C104_reopened_refuted",
    "C104_reopened_partial"
   ],
   "note": "False of the code: if the adapter is not ready in the four attempts after reopening, reading goes on with a closed channel for ever. Proved for outages of any length if it is ready after nine commands."
  },
  {
   "property": "C105",
   "status": "proved",
   "theorems": [
    "C105_sent"
   ],
   "note": "Links that are not log files; frames that fit their kind and buses of 8 bits."
  },
  {
   "property": "C106",
   "status": "partial",
   "theorems": [
    "C106_renewed_refuted",
    "C106_renewed_partial",
    "C106_request_partial"
   ],
   "note": "False of the code: while messages come in without a break and nothing is sent, no request is made. Proved at all idle times and whenever a frame is sent; requests are right and more than a second apart."
  },
  {
   "property": "C107",
   "status": "partial",
   "theorems": [
    "C107_bus_refuted",
    "C107_system_refuted",
    "C107_received_partial"
   ],
   "note": "False of the code: neither the bus nor the sender of a message is looked at. Proved: every message that comes is reported once and in order."
  },
  {
   "property": "C108",
   "status": "partial",
   "theorems": [
    "C108_long_refuted",
    "C108_clear_refuted",
    "C108_filter_partial"
   ],
   "note": "False of the code: identifiers after the sixteenth are left out, and taking the filter away sends nothing. Proved for up to 16 identifiers of 16 bits."
  },
  {
   "property": "C109",
   "status": "partial",
   "theorems": [
    "C109_anonymous_refuted",
    "C109_printed_partial",
    "C109_hex_refuted",
    "C109_text_partial"
   ],
   "note": "False of the code for anonymous messages, whose discriminator is printed as a part of the type, and for hexadecimal identifiers without a letter, which are read as decimal numbers. Proved for all other transfers and texts."
  },
  {
   "property": "C110",
   "status": "proved",
   "theorems": [
    "C110_service_call",
    "C110_over_route"
   ],
   "note": "Callbacks of the caller do not call into the node (calm); the transfer id is not in use by another unanswered request (see C111)."
  },
  {
   "property": "C111",
   "status": "partial",
   "theorems": [
    "C111_right_request_refuted",
    "C111_right_request_partial"
   ],
   "note": "False of the code when 33 requests of one service of one node are unanswered: transfer ids have 5 bits and the later request takes the place of the earlier one. Proved when no other request with the same service, node and transfer id is unanswered."
  },
  {
   "property": "C112",
   "status": "proved",
   "theorems": [
    "C112_treated",
    "C112_always",
    "C112_written",
    "C112_finishes"
   ],
   "note": ""
  },
  {
   "property": "C113",
   "status": "partial",
   "theorems": [
    "C113_twice_refuted",
    "C113_blamed_refuted",
    "C113_written_partial"
   ],
   "note": "False of the code: a frame is sent twice if the buffers are full at the flush, and reported as failed though sent if the flush raises. Proved if flushing never fails."
  },
  {
   "property": "C114",
   "status": "partial",
   "theorems": [
    "C114_blame_refuted",
    "C114_reported"
   ],
   "note": "Every frame is reported once and in order. False of the code: an exception of send_frame can be about an earlier frame, and the frame it was called with is then not taken."
  },
  {
   "property": "C115",
   "status": "partial",
   "theorems": [
    "C115_lost_refuted",
    "C115_ends",
    "C115_at_most_one",
    "C115_lost_partial"
   ],
   "note": "The writer ends and puts at most one more frame on the bus. False of the code: frames that wait at close are lost without a report. Proved: only the last ones are lost."
  },
  {
   "property": "C116",
   "status": "partial",
   "theorems": [
    "C116_standard_refuted",
    "C116_remote_refuted",
    "C116_extended_partial"
   ],
   "note": "False of the code: python-can reports standard frames as extended ones, and remote frames pass as data frames. Proved for extended data frames."
  },
  {
   "property": "C117",
   "status": "partial",
   "theorems": [
    "C117_spin_refuted",
    "C117_unknown_partial",
    "C117_undecodable_partial"
   ],
   "note": "False of the code: spin raises TransferError for a frame of an unknown type, also with catch_handler_exceptions. Proved: apart from the exception the history of the node is the same as if the frames had not been heard."
  },
  {
   "property": "C118",
   "status": "proved",
   "theorems": [
    "C118_every_interval",
    "C118_exactly_one",
    "C118_not_early"
   ],
   "note": "Attempts are counted; what the driver refuses is not repeated before the next interval. The content of the message is a parameter."
  },
  {
   "property": "C119",
   "status": "partial",
   "theorems": [
    "C119_direct_refuted",
    "C119_forgotten_refuted",
    "C119_found_partial",
    "C119_thirdparty_partial",
    "C119_only"
   ],
   "note": "False of the code for types directly in one of the five packages, and for types of earlier calls. Proved for all others, with the converse."
  },
  {
   "property": "C120",
   "status": "partial",
   "theorems": [
    "C120_slcan_refuted",
    "C120_route",
    "C120_accepted",
    "C120_sendable_partial",
    "C120_reaches_handlers_partial"
   ],
   "note": "False of the code for CAN FD transfers whose last frame has a length that does not exist: a payload of 62 bytes gives a frame of 63 bytes, whose SLCAN line stands for no frame. Proved for all others."
  },
  {
   "property": "C121",
   "status": "partial",
   "theorems": [
    "C121_standard_refuted",
    "C121_torn_refuted",
    "C121_twice_refuted",
    "C121_served_partial",
    "C121_always_partial",
    "C121_finishes_partial",
    "C121_closed_partial",
    "C121_ended_partial",
    "C121_arrive_partial",
    "C121_hooks_partial"
   ],
   "note": "False of the code for frames with standard identifiers (accepted, shown to the hooks, never written); when a write fails midway (the next frame is spoilt too); and with auto_reopen (a frame may be written twice). Proved: order and completeness for every port behaviour with what is missing tied to an exception; exact output while the port works; close; reading at the other side for extended frames."
  },
  {
   "property": "C122",
   "status": "partial",
   "theorems": [
    "C122_poll_refuted",
    "C122_ended_refuted",
    "C122_order_partial",
    "C122_prompt_partial",
    "C122_timeout_partial",
    "C122_poll_partial",
    "C122_forever_partial",
    "C122_asked_partial"
   ],
   "note": "False of the code for a call with timeout zero when a command line answer is before the frame, and for frames delivered before the process ended. Proved for callbacks that do not raise."
  },
  {
   "property": "C123",
   "status": "partial",
   "theorems": [
    "C123_interface_refuted",
    "C123_can0_refuted",
    "C123_group_refuted",
    "C123_scheme_partial",
    "C123_missing_partial",
    "C123_serial_partial",
    "C123_interface_partial",
    "C123_rate_partial",
    "C123_rate_needed_partial",
    "C123_group_partial",
    "C123_apart_partial"
   ],
   "note": "False of the code for interfaces whose name begins with com (taken for a serial port), for the documented can0 without a bit rate when python-can is installed (KeyError), and for a multicast number followed by a colon (the first bus). Proved for every other name and all arguments."
  },
  {
   "property": "C124",
   "status": "proved",
   "theorems": [
    "C124_transmitted",
    "C124_arrival",
    "C124_estimated",
    "C124_not_later"
   ],
   "note": "One time per transmitted frame is modelled (the monotonic one). Estimates are exact fractions, as in C52. C124_estimated is for estimators that do not fail; C80 says when."
  },
  {
   "property": "C125",
   "status": "partial",
   "theorems": [
    "C125_lost_refuted",
    "C125_dead_refuted",
    "C125_flood_refuted",
    "C125_order",
    "C125_sent_partial",
    "C125_progress",
    "C125_reconnects",
    "C125_received",
    "C125_through_partial"
   ],
   "note": "False of the code: a frame is lost without an exception if sending raises; after a failed reconnection, or when the queue of received frames is full, the process ends and frames are accepted but never sent. Proved: order and at most one try per frame always, everything is sent and received in order if nothing raises and the program keeps up, and progress from every state of a living process."
  },
  {
   "property": "C126",
   "status": "partial",
   "theorems": [
    "C126_short_send_refuted",
    "C126_full_socket_refuted",
    "C126_closed_refuted",
    "C126_inward",
    "C126_prefix",
    "C126_addressed",
    "C126_outward_partial",
    "C126_any_device",
    "C126_drains",
    "C126_logged",
    "C126_lives_partial"
   ],
   "note": "False of the code from the device to the socket: the socket is not blocking and the result of send is ignored, so bytes that a slow peer cannot take at once are lost or end the program; a peer that has closed is not noticed. Proved without conditions from the socket to the device and for the log file; the other direction if send takes all it is given."
  },
  {
   "property": "C127",
   "status": "partial",
   "theorems": [
    "C127_stray_refuted",
    "C127_assigned",
    "C127_indices",
    "C127_waits",
    "C127_deadline",
    "C127_unanswered",
    "C127_complete_partial"
   ],
   "note": "False of the code only in that an indication of a node that is no motor controller is taken: it gets an index and the function can then not return. Everything else is proved for all histories."
  },
  {
   "property": "C128",
   "status": "proved",
   "theorems": [
    "C128_chunk",
    "C128_download",
    "C128_missing",
    "C128_over_route"
   ],
   "note": "Assumes that all frames arrive in order each way, that the request does not time out and that its transfer id is not in use twice, as C110. The definition of uavcan.protocol.file.Read is that of the standard; it is not in /repo."
  },
  {
   "property": "C129",
   "status": "partial",
   "theorems": [
    "C129_asks_again_refuted",
    "C129_asks_again_partial",
    "C129_ends",
    "C129_elapsed",
    "C129_paced",
    "C129_stops",
    "C129_survives",
    "C129_first",
    "C129_gives_up"
   ],
   "note": "False of the code only in that it goes on asking: after a request that is not answered, or answered 'in progress', it never asks again and may wait for ever. The rest is proved for all histories."
  },
  {
   "property": "C130",
   "status": "partial",
   "theorems": [
    "C130_same_refuted",
    "C130_same_partial",
    "C130_status",
    "C130_never_back",
    "C130_heard",
    "C130_info",
    "C130_over_route",
    "C130_new"
   ],
   "note": "False of the code only in that the two statuses are the same: a sub-mode that the user sets in node_info is told to those who ask and not broadcast. The rest is proved, end to end."
  },
  {
   "property": "C131",
   "status": "proved",
   "theorems": [
    "C131_all_heard",
    "C131_broadcasts",
    "C131_one_type",
    "C131_refused",
    "C131_over_route"
   ],
   "note": "The receiver has its exception handling on and its handlers neither add nor remove handlers in the meantime."
  },
  {
   "property": "C132",
   "status": "partial",
   "theorems": [
    "C132_to_client_refuted",
    "C132_next_client_refuted",
    "C132_chunks",
    "C132_session",
    "C132_wire",
    "C132_to_port",
    "C132_to_client_partial",
    "C132_one_client"
   ],
   "note": "False of the code: bytes of any node that sends to the tunnel are mixed into what the client gets, and no second client is ever served, since the loop does not notice that recv returns nothing. The rest is proved end to end; bytes from the other node for a client that is connected, if no other node sends to the tunnel."
  },
  {
   "property": "C133",
   "status": "proved",
   "theorems": [
    "C133_serial"
   ],
   "note": "The reading port is not flushed (flushInput, or a change of its speed, discards what is there). The driver may refuse frames; the port then tries again."
  },
  {
   "property": "C134",
   "status": "partial",
   "theorems": [
    "C134_output_refuted",
    "C134_cut_refuted",
    "C134_reads",
    "C134_ends",
    "C134_output_partial"
   ],
   "note": "False of the code: one transfer that cannot be decoded (for example of an unknown type) ends the program with an exception, and a log cut off within the data of its last record is not converted at all. Proved for the runs that reach the end of the stream; that every frame is read and that the loop ends is proved in general."
  },
  {
   "property": "C135",
   "status": "partial",
   "theorems": [
    "C135_told_refuted",
    "C135_monitor_refuted",
    "C135_closed_refuted",
    "C135_told_partial",
    "C135_monitor_partial",
    "C135_story_partial",
    "C135_removed",
    "C135_ends",
    "C135_closed_partial"
   ],
   "note": "False of the code: a handler that raises or removes itself hides the event from the next one; one that raises at an offline event makes the monitor lose the status by which the node comes back; close() leaves the GetNodeInfo handler registered, so a closed monitor still lists nodes and calls handlers. Proved for handlers that raise nothing and remove no handlers (they may add some), and for close() without GetNodeInfo traffic; removal and termination in general."
  },
  {
   "property": "C136",
   "status": "partial",
   "theorems": [
    "C136_in_use_refuted",
    "C136_name_refuted",
    "C136_in_use_partial",
    "C136_waits"
   ],
   "note": "False of the code: a node first heard by a GetNodeInfo request, or by an overheard info response whose name is not UTF-8, gets into the registry while the handler raises before it reports the node, and later statuses are not new; so the server does not know its id is taken and gives it away. Proved for nodes listed at the start or first heard by a status or a readable info response; the waiting in general."
  },
  {
   "property": "C137",
   "status": "partial",
   "theorems": [
    "C137_file_refuted",
    "C137_counted_refuted",
    "C137_file_partial",
    "C137_listing",
    "C137_counts",
    "C137_raising"
   ],
   "note": "False of the code: with --stats two packets of a kind at the same reading of the clock make the report divide by zero, and the message being handled is not written; and a kind heard only once is in no report. Proved: the file without --stats or if every clock reading is later than the one before; the list of packets; the reports (each row right, a row for each kind heard twice in the stretch or listed with a number before). The decoder is MAVProxy's and a parameter; what is listed and written if it raises is proved without --stats."
  },
  {
   "property": "C138",
   "status": "partial",
   "theorems": [
    "C138_gaps_refuted",
    "C138_gaps_partial",
    "C138_lines"
   ],
   "note": "False of the code when the clock was set back: the average can become 0, the rate then divides by zero and the gap is not printed. Proved if the times of each node do not go back; that no wrong line is printed and only lines with average 0 are missing, in general."
  },
  {
   "property": "C139",
   "status": "partial",
   "theorems": [
    "C139_logged_refuted",
    "C139_logged_partial"
   ],
   "note": "False of the code for the levels 4 to 7 that the three bits of the level can hold: the monitor raises IndexError and nothing is logged (the same for a text that is not UTF-8). Proved for levels 0 to 3 with texts in UTF-8, on top of C131."
  },
  {
   "property": "C140",
   "status": "proved",
   "theorems": [
    "C140_registered",
    "C140_operation"
   ],
   "note": "C140_registered is for user code that does not itself add or remove handlers from callbacks; C140_operation is for all user code, one operation at a time."
  },
  {
   "property": "C141",
   "status": "proved",
   "theorems": [
    "C141_raise_ends_poll",
    "C141_kept"
   ],
   "note": "The second part assumes that callbacks remove no tasks or timeouts themselves."
  },
  {
   "property": "C142",
   "status": "proved",
   "theorems": [
    "C142_frames_as_told",
    "C142_settled"
   ],
   "note": "For a link that is not a log file, buses up to 256 and frames that can be on a bus; SHA-256 is a parameter."
  },
  {
   "property": "C143",
   "status": "partial",
   "theorems": [
    "C143_signed_refuted",
    "C143_env_partial",
    "C143_signed_partial"
   ],
   "note": "False of the code: the process connects and requests forwarding before it can have taken the key from the queue, so the first request is never signed. Proved: with the passphrase in the environment only such requests are unsigned, and after the first signed message all are signed."
  },
  {
   "property": "C144",
   "status": "partial",
   "theorems": [
    "C144_reported_refuted",
    "C144_reported_partial"
   ],
   "note": "False of the code: when the queue is full, set_bus raises after the object has taken the new bus, and frames still go out on the old one. Proved when no such call finds the queue full."
  },
  {
   "property": "C145",
   "status": "partial",
   "theorems": [
    "C145_frames_refuted",
    "C145_again_refuted",
    "C145_close_partial"
   ],
   "note": "False of the code: frames that wait in the queue are dropped, and a third close raises queue.Full, as nobody takes what the second has put in. Proved: the first close returns, the process ends when it looks at the exit queue next, and nothing is written or received afterwards."
  },
  {
   "property": "C146",
   "status": "partial",
   "theorems": [
    "C146_not_later_refuted",
    "C146_order_refuted",
    "C146_within_partial",
    "C146_even_partial"
   ],
   "note": "False of the code: a clock set forward by less than 50 ms puts stamps into the future until the estimate has drifted back, and stamps can swap when reading the second clock is delayed. Proved: no conversion raises; the stamp is within 50 ms of the kernel's time moved by the difference just read, and never more than a microsecond before it; with evenly running clocks it is never later than the true time and earlier by at most the reading delay and a microsecond. Arithmetic is exact, not floating point."
  },
  {
   "property": "C147",
   "status": "partial",
   "theorems": [
    "C147_done_refuted",
    "C147_end_partial",
    "C147_ends_partial",
    "C147_progress_partial",
    "C147_counts_partial"
   ],
   "note": "False of the code: a frame that was read but is not yet due counts as played, so 100 is reported while the last frame is still to come. Proved: the rest, with the share of the frames delivered or of these and the next one."
  },
  {
   "property": "C148",
   "status": "partial",
   "theorems": [
    "C148_wait_refuted",
    "C148_wait_partial"
   ],
   "note": "False of the code: the time until the next event is added to a second, later reading of the clock, so the wait is too long by what passed between the two readings. Proved: by exactly that and no more."
  },
  {
   "property": "C149",
   "status": "partial",
   "theorems": [
    "C149_sees_refuted",
    "C149_sees_partial",
    "C149_sent_refuted",
    "C149_goes_out",
    "C149_is_handled",
    "C149_ends",
    "C149_both_ends"
   ],
   "note": "False of the code: a hook that removes a hook hides the transfer from the next, and a transfer is shown although the driver refuses all its frames. Proved for hooks that do not remove hooks; that hooks cannot disturb the transfer is proved for all."
  },
  {
   "property": "C150",
   "status": "partial",
   "theorems": [
    "C150_list",
    "C150_arrays",
    "C150_number_list",
    "C150_number_arrays",
    "C150_bits_partial",
    "C150_text",
    "C150_assigned",
    "C150_objects",
    "C150_floats_refuted",
    "C150_raises_refuted"
   ],
   "note": "Proved for integer elements, for texts, and for numbers compared by value. False of the code: an array with a NaN differs from itself, 0.0 and -0.0 are equal with other bits, comparing with a text raises when the bytes are no UTF-8 or the array is no array of bytes, and arrays of objects compare the objects by identity."
  },
  {
   "property": "C151",
   "status": "partial",
   "theorems": [
    "C151_has_content",
    "C151_sendable",
    "C151_sendable_exact",
    "C151_reaches_handlers",
    "C151_unchanged_refuted",
    "C151_any_program_refuted"
   ],
   "note": "Proved for programs that put only objects of the right type into arrays of objects and select only existing union fields; the content arrives exactly if no static array has lost items, and filled up with zeros otherwise. False without these conditions: items of static arrays can be deleted, arrays take objects of any type, unions can be switched to any name."
  },
  {
   "property": "C152",
   "status": "partial",
   "theorems": [
    "C152_received",
    "C152_forwardable",
    "C152_same_view_refuted",
    "C152_same_view_partial",
    "C152_fits",
    "C152_number_arrives",
    "C152_text_arrives"
   ],
   "note": "False for unions that the sender has not decided: there every field can be read, at the receiver only the first. Proved for messages that fit their type with all unions decided; the receiver's bits may be followed by padding."
  },
  {
   "property": "C153",
   "status": "proved",
   "theorems": [
    "C153_as_assigned",
    "C153_given",
    "C153_union_one"
   ],
   "note": "Dictionaries of keyword arguments are lists in call order."
  },
  {
   "property": "C154",
   "status": "partial",
   "theorems": [
    "C154_sends",
    "C154_baud",
    "C154_rate",
    "C154_throttles",
    "C154_esc_id",
    "C154_usage",
    "C154_unknown",
    "C154_numbers",
    "C154_valid_refuted",
    "C154_invalid_partial"
   ],
   "note": "False of the code for bit rates and report rates that are not offered: joining integer keys raises TypeError before the list of valid ones is printed (proved for all such numbers). Proved otherwise. The vendor types are parameters."
  },
  {
   "property": "C155",
   "status": "proved",
   "theorems": [
    "C155_field",
    "C155_float_beyond",
    "C155_float_refused",
    "C155_insert",
    "C155_append",
    "C155_replace",
    "C155_assign",
    "C155_arrives"
   ],
   "note": "Numbers out of range of signed types of more than 53 bits are left out (see C02, where saturation is refuted for them)."
  },
  {
   "property": "C156",
   "status": "partial",
   "theorems": [
    "C156_namespaces",
    "C156_parse",
    "C156_source_refuted",
    "C156_source_partial"
   ],
   "note": "False of parse_source: a file name whose version is no number raises TypeError, because the message is formatted with one argument too many. Proved that this is the only case, and that parse and parse_namespaces raise nothing else. Exceptions of the file system other than those of open and read are left out."
  },
  {
   "property": "C157",
   "status": "partial",
   "theorems": [
    "C157_control_refuted",
    "C157_control_partial",
    "C157_float_id",
    "C157_servo",
    "C157_range",
    "C157_battery",
    "C157_cells",
    "C157_throttle",
    "C157_safety",
    "C157_texts",
    "C157_status"
   ],
   "note": "False of the servo control: the option --actuator-id is parsed as a float, and no float of its range can be written to an integer field, so that nothing is broadcast and ValueError is raised in the timer. Proved for numbers that can be written (the default of the option), and all else in full; more cells than the array has room for raise AttributeError before anything is broadcast. That broadcasting encodes the object as it is, is the subject of other properties."
  },
  {
   "property": "C158",
   "status": "partial",
   "theorems": [
    "C158_esc_refuted",
    "C158_first",
    "C158_alone",
    "C158_two_partial",
    "C158_other_partial",
    "C158_listed",
    "C158_target"
   ],
   "note": "False of the two ESC examples: they go on waiting while fewer than two nodes are listed, and a node does not list itself, so that with one other node they wait for ever. Proved: when the loop ends, that with one other node it never does, that a status at the end of a call of spin is enough for the two other examples and two statuses for the ESC examples (a node heard earlier may have gone stale by the end of the call)."
  },
  {
   "property": "C159",
   "status": "partial",
   "theorems": [
    "C159_every_refuted",
    "C159_gap",
    "C159_silent",
    "C159_every_partial"
   ],
   "note": "False if the time of day is set back after the start: no turn asks until it is the period after the start again. Proved: the gap between requests is never shorter than the period, in the steady clock; nothing is asked before; and from then on each turn in which spin returns asks the node given once."
  },
  {
   "property": "C160",
   "status": "proved",
   "theorems": [
    "C160_kept",
    "C160_only",
    "C160_all"
   ],
   "note": "The handlers of the application do not add or remove handlers themselves while spin runs. All frames of the sending node are assumed to come in (C160_all); C160_only needs no such assumption."
  },
  {
   "property": "C161",
   "status": "partial",
   "theorems": [
    "C161_one_by_one_refuted",
    "C161_at_once",
    "C161_discovered",
    "C161_right_partial",
    "C161_done_partial"
   ],
   "note": "False if a node appears or goes offline while the generator is being consumed: it raises RuntimeError and the rest is missing. Proved: complete and right if taken at once; otherwise right and in order, and complete if it ends without an exception and the keys of the registry have not been exchanged for as many others, which is not specified."
  },
  {
   "property": "C162",
   "status": "proved",
   "theorems": [
    "C162_tells",
    "C162_line",
    "C162_characters"
   ],
   "note": "The times are taken as formatted; frames are compared that have the same times."
  }
 ]
}