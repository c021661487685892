{
 "claims": [
  {
   "property": "C01",
   "status": "proved",
   "theorems": [
    "C01_compile_wellformed",
    "C01_compile_injective",
    "C01_compile_too_long"
   ],
   "note": "Frame grammar in SpecFrame.v; also proves that payloads over 253 bytes never give a frame."
  },
  {
   "property": "C02",
   "status": "proved",
   "theorems": [
    "C02_grammar_total",
    "C02_decode_classifies",
    "C02_decode_results"
   ],
   "note": "Grammar shape_of is proved total and functional; Decode agrees with it on every slice on which it returns (C04 says when it does not return)."
  },
  {
   "property": "C03",
   "status": "proved",
   "theorems": [
    "C03_single_byte_damage_rejected"
   ],
   "note": "Whatever follows the frame and whatever the spare capacity."
  },
  {
   "property": "C04",
   "status": "partial",
   "theorems": [
    "C04_decode_never_panics_refuted",
    "C04_decode_panics_iff_partial",
    "C04_self_contained_frames_safe_partial"
   ],
   "note": "REFUTED as stated: Decode panics on 06 01 (ACK followed by the next start byte in one read) and on an intact frame announcing 249 payload bytes (byte arithmetic 7+data[6] wraps). Proved: the exact iff condition for a panic, and safety for self-contained frames."
  },
  {
   "property": "C05",
   "status": "partial",
   "theorems": [
    "C05_decode_preserves_buffer_refuted",
    "C05_decode_effect_partial"
   ],
   "note": "REFUTED as stated: append(data[1:length+1], 0) overwrites the checksum byte of the caller buffer. Proved: that is the only possible change, and exactly when."
  },
  {
   "property": "C06",
   "status": "partial",
   "theorems": [
    "C06_decode_local_refuted",
    "C06_self_contained_local_partial"
   ],
   "note": "REFUTED as stated: a frame whose announced payload exceeds it is completed from the following bytes. Proved for self-contained frames, for every tail and every spare capacity."
  },
  {
   "property": "C07",
   "status": "proved",
   "theorems": [
    "C07_chunking",
    "C07_every_chunking"
   ],
   "note": "For every interleaving with the other goroutines, and every chunking is shown to be executable. Frames are self-contained (C06)."
  },
  {
   "property": "C08",
   "status": "partial",
   "theorems": [
    "C08_resynchronises_refuted",
    "C08_resynchronises_partial"
   ],
   "note": "REFUTED: a single stray 01 before a frame destroys it (Decode overwrites a byte of the following frame). Proved for noise of bytes that start nothing and damaged frames of the announced length, for every interleaving."
  },
  {
   "property": "C09",
   "status": "proved",
   "theorems": [
    "C09_terminates",
    "C09_accounts",
    "C09_never_stuck",
    "C09_left_over"
   ],
   "note": ""
  },
  {
   "property": "C10",
   "status": "proved",
   "theorems": [
    "C10_one_ack_per_frame",
    "C10_ack_only_after_frame",
    "C10_frame_is_acked"
   ],
   "note": ""
  },
  {
   "property": "C11",
   "status": "partial",
   "theorems": [
    "C11_reports_in_order_refuted",
    "C11_one_callback_per_report_partial",
    "C11_callbacks_run_once_partial"
   ],
   "note": "REFUTED: callbacks run in separate goroutines and can overtake each other. Proved up to order, if control bytes arrive alone."
  },
  {
   "property": "C12",
   "status": "proved",
   "theorems": [
    "C12_bitmap_decoded",
    "C12_short_bitmap_is_error",
    "C12_long_bitmap_panics"
   ],
   "note": "Also proved: a bitmap of 30 bytes or more panics (index out of range), exactly then."
  },
  {
   "property": "C13",
   "status": "proved",
   "theorems": [
    "C13_protocol_info_bits",
    "C13_short_payload_is_error"
   ],
   "note": ""
  },
  {
   "property": "C14",
   "status": "proved",
   "theorems": [
    "C14_reports_total",
    "C14_reports_dispatch_sound",
    "C14_reports_dispatch_complete"
   ],
   "note": "The sensor entry of the dispatch table also looks at the size field in the payload."
  },
  {
   "property": "C15",
   "status": "proved",
   "theorems": [
    "C15_switch_binary_v1",
    "C15_switch_binary_v2",
    "C15_switch_multilevel_v1",
    "C15_switch_multilevel_v4",
    "C15_switch_other_lengths"
   ],
   "note": ""
  },
  {
   "property": "C16",
   "status": "proved",
   "theorems": [
    "C16_sensor_value_nearest",
    "C16_reading_exists"
   ],
   "note": "Correctly rounded (ties to even) and nearest among all doubles. Uses the axioms of the standard library reals."
  },
  {
   "property": "C17",
   "status": "partial",
   "theorems": [
    "C17_bad_size_rejected_refuted",
    "C17_bad_size_reads_zero",
    "C17_short_payload_rejected_partial"
   ],
   "note": "REFUTED: sizes 0, 3, 5, 6, 7 give a reading of 0 and no error, for every long enough payload. Proved: payloads shorter than announced are rejected."
  },
  {
   "property": "C18",
   "status": "proved",
   "theorems": [
    "C18_sensor_types_kept_apart",
    "C18_units_kept_apart",
    "C18_reserved_keys"
   ],
   "note": "Also: different units of one type, and the keys on/level/alarm/alarmLastType, are kept apart."
  },
  {
   "property": "C19",
   "status": "proved",
   "theorems": [
    "C19_duration_span",
    "C19_duration_factory_default"
   ],
   "note": ""
  },
  {
   "property": "C20",
   "status": "proved",
   "theorems": [
    "C20_manufacturer_hex",
    "C20_other_lengths"
   ],
   "note": ""
  },
  {
   "property": "C21",
   "status": "proved",
   "theorems": [
    "C21_endpoints_decoded",
    "C21_short_is_error"
   ],
   "note": ""
  },
  {
   "property": "C22",
   "status": "proved",
   "theorems": [
    "C22_level_sent",
    "C22_level_determined"
   ],
   "note": "NaN is excluded (Go leaves byte(NaN) to the implementation)."
  },
  {
   "property": "C23",
   "status": "proved",
   "theorems": [
    "C23_encapsulation",
    "C23_recoverable",
    "C23_short_panics"
   ],
   "note": "Length addition is modulo 256, as on the wire. Shorter inner commands panic (proved)."
  },
  {
   "property": "C24",
   "status": "partial",
   "theorems": [
    "C24_raw_length_refuted",
    "C24_raw_length_partial"
   ],
   "note": "REFUTED for every payload: the length byte is one too many (proved exactly)."
  },
  {
   "property": "C25",
   "status": "proved",
   "theorems": [
    "C25_on_off",
    "C25_level",
    "C25_wire_frames"
   ],
   "note": ""
  },
  {
   "property": "C26",
   "status": "partial",
   "theorems": [
    "C26_endpoint_addressing_refuted",
    "C26_endpoint_addressing_partial",
    "C26_endpoint_commands"
   ],
   "note": "REFUTED: Endpoint(k) addresses endpoint k+1, the last endpoint is unreachable and Endpoint(len) or a negative k panics. Proved: this exact behaviour for every k and that endpoint commands are the encapsulated node commands."
  },
  {
   "property": "C27",
   "status": "partial",
   "theorems": [
    "C27_match_never_panics_refuted",
    "C27_match_decision_partial",
    "C27_match_total_partial"
   ],
   "note": "REFUTED: a frame of fewer than nine bytes panics (index 5, 7 or 8 out of range), also as an execution from start-up. Proved: the decision is the documented one whenever it is made, and it is always made on nine bytes or more."
  },
  {
   "property": "C28",
   "status": "partial",
   "theorems": [
    "C28_info_response_to_one_request_refuted",
    "C28_delivery_answers_request_partial"
   ],
   "note": "REFUTED: one protocol-info response is delivered to both of two pending requests for different nodes. Proved: every delivery answers the request it is delivered to, and comes from a complete frame."
  },
  {
   "property": "C29",
   "status": "proved",
   "theorems": [
    "C29_one_message_then_one_close",
    "C29_only_open_channels"
   ],
   "note": "For every interleaving, including reconnects; [Message] without a close only if the process crashed."
  },
  {
   "property": "C30",
   "status": "proved",
   "theorems": [
    "C30_timer_closes_open_requests"
   ],
   "note": ""
  },
  {
   "property": "C31",
   "status": "partial",
   "theorems": [
    "C31_stop_and_wait_refuted",
    "C31_stop_and_wait_partial"
   ],
   "note": "REFUTED once the connection was re-opened (two writers). Proved with at most one connect."
  },
  {
   "property": "C32",
   "status": "proved",
   "theorems": [
    "C32_wire_order",
    "C32_queued_once",
    "C32_wire_bytes"
   ],
   "note": "Order of the send queue, and each written frame is the compiled one of a call; each call is queued exactly once."
  },
  {
   "property": "C33",
   "status": "partial",
   "theorems": [
    "C33_cancelled_is_resent_refuted",
    "C33_cancelled_is_resent_partial",
    "C33_all_resent_partial"
   ],
   "note": "REFUTED: the goroutine captures the loop variable, so another pending command is re-sent. Proved for executions in which at most one pending command is looked at per control byte."
  },
  {
   "property": "C34",
   "status": "proved",
   "theorems": [
    "C34_nak_fails_only_its_command",
    "C34_visit_effect",
    "C34_start_end_effect"
   ],
   "note": "For a NAK that arrives alone as a whole, and step by step for every interleaving."
  },
  {
   "property": "C35",
   "status": "partial",
   "theorems": [
    "C35_report_wait_crash_refuted",
    "C35_decoded_frames_do_not_crash_partial"
   ],
   "note": "REFUTED: a matching frame that does not decode gives a nil message, which is dereferenced. Proved: no crash for frames of nine bytes or more that decode, or while nobody waits for a report."
  },
  {
   "property": "C36",
   "status": "partial",
   "theorems": [
    "C36_pending_table_bounded_refuted",
    "C36_timed_entries_expire_partial"
   ],
   "note": "REFUTED for every n: n fire-and-forget commands leave n entries with no timer. Proved: entries with a timeout have a timer that removes them."
  },
  {
   "property": "C37",
   "status": "partial",
   "theorems": [
    "C37_one_writer_refuted",
    "C37_outstanding_bound_partial"
   ],
   "note": "REFUTED: two connects, two unanswered commands. Proved: never more unanswered commands than connects."
  },
  {
   "property": "C38",
   "status": "partial",
   "theorems": [
    "C38_connected_means_open_refuted",
    "C38_connected_means_open_partial"
   ],
   "note": "REFUTED: the 200ms timer sets Connected after the port failed. Proved if no such timer fires late."
  },
  {
   "property": "C39",
   "status": "proved",
   "theorems": [
    "C39_queue_is_fifo",
    "C39_publishing_never_blocks"
   ],
   "note": "For every run of the controller including loading; a goroutine waiting to request a save is left behind by each update, so publishing never waits for it."
  },
  {
   "property": "C40",
   "status": "partial",
   "theorems": [
    "C40_all_announced_refuted",
    "C40_announced_partial",
    "C40_all_known"
   ],
   "note": "REFUTED for more than ten nodes: the queue is full before the application can read it. Proved for up to ten; all nodes are known in any case."
  },
  {
   "property": "C41",
   "status": "partial",
   "theorems": [
    "C41_save_needs_new_update_refuted",
    "C41_saves_bounded_partial",
    "C41_saves_apart",
    "C41_no_file_no_save",
    "C41_quiet_is_saved"
   ],
   "note": "REFUTED (first clause): an update that arrives just before a save also causes a second save. Proved: at most as many saves as updates, ten seconds apart, none without a file name, and every update followed by more than ten quiet seconds is saved (if time passes only while the debouncer has nothing to do)."
  },
  {
   "property": "C42",
   "status": "proved",
   "theorems": [
    "C42_discovery",
    "C42_discovery_ends"
   ],
   "note": "For every interleaving with reports, identification, saving and reading events."
  },
  {
   "property": "C43",
   "status": "proved",
   "theorems": [
    "C43_roundtrip",
    "C43_formatter_exists"
   ],
   "note": "For all nodes that can be stored (see C78), for every formatting of floats that reads back; such a formatting exists for all doubles. Maps are compared by their entries. Writing and reading JSON are modelled down to the bytes."
  },
  {
   "property": "C44",
   "status": "partial",
   "theorems": [
    "C44_refuted",
    "C44_partial"
   ],
   "note": "REFUTED: the file is truncated before it is written. Proved: what can be found is the old file, the new file, or a cut version of the new one, which is rejected with an error."
  },
  {
   "property": "C45",
   "status": "partial",
   "theorems": [
    "C45_refuted",
    "C45_partial",
    "C45_field_name_partial",
    "C45_null_free_partial",
    "C45_syntax_partial"
   ],
   "note": "REFUTED: documents without nodes and documents with null crash. Proved: exactly which documents crash; none without null that has nodes, and no text that is not JSON."
  },
  {
   "property": "C46",
   "status": "proved",
   "theorems": [
    "C46_report_effect",
    "C46_other_reports_change_nothing",
    "C46_events",
    "C46_events_exactly_for_changes"
   ],
   "note": "For reports as the decoder produces them; the level is stored exactly."
  },
  {
   "property": "C47",
   "status": "partial",
   "theorems": [
    "C47_alarm_stays_raised_refuted",
    "C47_alarm_needs_window_partial",
    "C47_alarm_over_partial",
    "C47_last_type_partial",
    "C47_windows_end_partial",
    "C47_flag_exact_partial"
   ],
   "note": "REFUTED (last sentence): with overlapping alarms the end of the first window clears the second alarm early. Proved: true only with an open window, false and zero when all have ended, last type remembered, and the exact value of the flag, for every interleaving."
  },
  {
   "property": "C48",
   "status": "partial",
   "theorems": [
    "C48_wakeup_releases_refuted",
    "C48_undisturbed_waits_partial",
    "C48_released_partial",
    "C48_listening_nodes_partial",
    "C48_nothing_else_releases_partial"
   ],
   "note": "REFUTED: isAwake runs without the lock, and a wake-up processed inside it leaves the caller with a nil channel, forever. Proved: exactly who is released by each wake-up; undisturbed waits are released by the next one."
  },
  {
   "property": "C49",
   "status": "proved",
   "theorems": [
    "C49_identified_is_complete",
    "C49_returned_is_identified",
    "C49_requests_in_order"
   ],
   "note": "For nodes as created or loaded (nothing unsaved set), for every history of answers, failures, reports and alarm windows."
  },
  {
   "property": "C50",
   "status": "partial",
   "theorems": [
    "C50_database_classes_refuted",
    "C50_classes_partial",
    "C50_names_kept"
   ],
   "note": "REFUTED: the next pass overwrites the classes with the mandatory ones. Proved: an identified node lists exactly the mandatory classes of its type, and keeps the names of its database entry."
  },
  {
   "property": "C51",
   "status": "partial",
   "theorems": [
    "C51_completes_refuted",
    "C51_completes_partial",
    "C51_completing_run_partial",
    "C51_lost_is_forever"
   ],
   "note": "REFUTED: a wake-up processed inside isAwake leaves identification waiting on a nil channel forever. Proved from every other reachable state: at most 424 cooperative steps, none of which gets stuck; and exactly which states are hopeless."
  },
  {
   "property": "C52",
   "status": "proved",
   "theorems": [
    "C52_contacted_when_awake"
   ],
   "note": "If all protocol info answers say non-listening. State requests form one stage."
  },
  {
   "property": "C53",
   "status": "proved",
   "theorems": [
    "C53_get_last_added",
    "C53_all_lists_each_id_once",
    "C53_all_agrees_with_get",
    "C53_keys_are_ids"
   ],
   "note": ""
  },
  {
   "property": "C54",
   "status": "partial",
   "theorems": [
    "C54_readers_return_refuted",
    "C54_readers_return_partial",
    "C54_blocked_readers_partial"
   ],
   "note": "REFUTED: value receivers copy the lock; a copy made during Add is locked forever. Proved: exactly those calls never return, all others can."
  },
  {
   "property": "C55",
   "status": "proved",
   "theorems": [
    "C55_found_has_ids",
    "C55_each_device_reachable_once",
    "C55_report_to_device"
   ],
   "note": "For all texts as ids, not only rendered 16-bit numbers. Parameters of devices are not modelled."
  },
  {
   "property": "C56",
   "status": "proved",
   "theorems": [
    "C56_mandatory_lookup",
    "C56_all_rows_present"
   ],
   "note": ""
  },
  {
   "property": "C57",
   "status": "proved",
   "theorems": [
    "C57_table_is_generated"
   ],
   "note": "By evaluation of the generator model on the committed text."
  },
  {
   "property": "C58",
   "status": "partial",
   "theorems": [
    "C58_refuted",
    "C58_partial",
    "C58_filter"
   ],
   "note": "REFUTED: the last burst of each direction is never printed. Proved: exactly that burst is missing, if the rows of each direction are in the order of their timestamps."
  },
  {
   "property": "C59",
   "status": "partial",
   "theorems": [
    "C59_once",
    "C59_completes",
    "C59_order_refuted"
   ],
   "note": "REFUTED (order): rows are stamped and sent by unordered goroutines. Proved: each operation at most once, exactly once when logging has finished, and it can always finish; for callers that leave their buffers alone (see C76)."
  },
  {
   "property": "C60",
   "status": "partial",
   "theorems": [
    "C60_names_refuted",
    "C60_names_partial",
    "C60_recognised_is_mentioned",
    "C60_unrecognised_mentions_nothing"
   ],
   "note": "REFUTED: the multi-channel association line is read as plain association. Proved for all other names, and that nothing is recognised that is not mentioned."
  },
  {
   "property": "C61",
   "status": "partial",
   "theorems": [
    "C61_function_names_differ",
    "C61_command_names_differ",
    "C61_function_constants",
    "C61_command_constants_refuted",
    "C61_command_constants_partial"
   ],
   "note": "REFUTED for command classes: Mark has the wrong code and seven others print nothing. Proved: names are unique, all function constants and 43 command class constants print their name."
  },
  {
   "property": "C62",
   "status": "proved",
   "theorems": [
    "C62_alarm_long",
    "C62_alarm_short",
    "C62_alarm_too_short"
   ],
   "note": ""
  },
  {
   "property": "C63",
   "status": "partial",
   "theorems": [
    "C63_match_on_own_bytes_refuted",
    "C63_match_on_own_bytes_partial"
   ],
   "note": "REFUTED: a nine-byte frame is matched on the byte behind it. Proved for frames of ten bytes or more."
  },
  {
   "property": "C64",
   "status": "partial",
   "theorems": [
    "C64_issuer_gets_its_channel_refuted",
    "C64_issuer_gets_its_channel_partial"
   ],
   "note": "REFUTED: a channel closed before the issuer looked is nil. Proved: that is the only way."
  },
  {
   "property": "C65",
   "status": "partial",
   "theorems": [
    "C65_coalesced_control_byte_refuted",
    "C65_lone_control_byte_safe_partial"
   ],
   "note": "REFUTED: ACK followed by a frame in one read dereferences a nil message. Proved for control bytes that arrive alone."
  },
  {
   "property": "C66",
   "status": "partial",
   "theorems": [
    "C66_reports_only_from_frames_refuted",
    "C66_reports_only_from_frames_partial"
   ],
   "note": "REFUTED: an ACK followed by stray bytes in one read invokes the callback without any checksum. Proved if control bytes arrive alone."
  },
  {
   "property": "C67",
   "status": "partial",
   "theorems": [
    "C67_unknown_level_refuted",
    "C67_unknown_level_partial",
    "C67_taken_for_full_partial"
   ],
   "note": "REFUTED: the validity flag is ignored and level 100 / on is stored. Proved: the decoder marks exactly these reports; each of them is taken for on, at level 100, and changes nothing else."
  },
  {
   "property": "C68",
   "status": "partial",
   "theorems": [
    "C68_readers_exclude_add_refuted",
    "C68_adds_exclude_each_other_partial",
    "C68_called_before_partial"
   ],
   "note": "REFUTED: readers lock a copy. Proved: Adds exclude each other, and only a call that was made before the Add began can look at the map during it."
  },
  {
   "property": "C69",
   "status": "partial",
   "theorems": [
    "C69_report_never_crashes_refuted",
    "C69_report_never_crashes_partial",
    "C69_new_nodes_have_maps_partial"
   ],
   "note": "REFUTED: assignment to a nil state map (node loaded from a file without them). Proved for nodes with maps, as New makes them."
  },
  {
   "property": "C70",
   "status": "partial",
   "theorems": [
    "C70_final_blank_refuted",
    "C70_final_blank_partial"
   ],
   "note": "REFUTED: the last block is lost without a final blank line. Proved for texts that end with one."
  },
  {
   "property": "C71",
   "status": "partial",
   "theorems": [
    "C71_endpoint_request_refuted",
    "C71_never_identified"
   ],
   "note": "REFUTED: every node of a known type is asked. Proved consequence: a node that never reports endpoints is never identified."
  },
  {
   "property": "C72",
   "status": "partial",
   "theorems": [
    "C72_discovery_retried_refuted",
    "C72_discovery_once"
   ],
   "note": "REFUTED: there is one attempt. Proved: after it no node is ever added."
  },
  {
   "property": "C73",
   "status": "partial",
   "theorems": [
    "C73_report_during_discovery_refuted",
    "C73_no_crash_partial"
   ],
   "note": "REFUTED: a node is visible before its callback is set. Proved: this and missing state maps are the only causes."
  },
  {
   "property": "C74",
   "status": "partial",
   "theorems": [
    "C74_port_opened_after_failure_refuted",
    "C74_result_partial"
   ],
   "note": "REFUTED: the connection goroutine keeps trying. Proved: the call returns at most once, with an error only after a failed Open."
  },
  {
   "property": "C75",
   "status": "partial",
   "theorems": [
    "C75_success_means_open_refuted",
    "C75_opened_before_partial"
   ],
   "note": "REFUTED: the success notice comes 200 ms late. Proved: the port was opened before."
  },
  {
   "property": "C76",
   "status": "partial",
   "theorems": [
    "C76_refuted",
    "C76_partial"
   ],
   "note": "REFUTED: the recorder keeps a reference to the buffer of the caller. Proved for callers that leave their buffers alone."
  },
  {
   "property": "C77",
   "status": "partial",
   "theorems": [
    "C77_refuted",
    "C77_partial"
   ],
   "note": "REFUTED: every Open starts a new gob encoder on the same stream. Proved for one Open."
  },
  {
   "property": "C78",
   "status": "proved",
   "theorems": [
    "C78_storable",
    "C78_new_node",
    "C78_written",
    "C78_nonfinite_empties_file"
   ],
   "note": "For every formatting of floats that reads back. Loaded nodes: see C43."
  },
  {
   "property": "C79",
   "status": "partial",
   "theorems": [
    "C79_refuted",
    "C79_partial"
   ],
   "note": "REFUTED: nil is returned always. Proved: the file is complete if no file operation failed."
  },
  {
   "property": "C80",
   "status": "partial",
   "theorems": [
    "C80_refuted",
    "C80_partial"
   ],
   "note": "REFUTED: a null command class is accepted and crashes HasCommand. Proved for documents without null."
  },
  {
   "property": "C81",
   "status": "proved",
   "theorems": [
    "C81_message_of_frame",
    "C81_header",
    "C81_control"
   ],
   "note": "For frames that contain what they announce (others: C01, C03). What the payload decoders return is the subject of C14-C20 and C62; the checksum byte reads as zero."
  },
  {
   "property": "C82",
   "status": "partial",
   "theorems": [
    "C82_pending_table_refuted",
    "C82_only_control_bytes_partial",
    "C82_frames_partial"
   ],
   "note": "REFUTED: the loop for a control byte iterates without the lock. Proved: every overlap is one of this loop with a new command or a timeout; none if only frames arrive."
  },
  {
   "property": "C83",
   "status": "partial",
   "theorems": [
    "C83_saving_refuted",
    "C83_only_saving_partial",
    "C83_reports_partial"
   ],
   "note": "REFUTED: encoding/json reads the maps without the lock of the node. Proved: reports exclude each other; every overlap involves a save."
  },
  {
   "property": "C84",
   "status": "partial",
   "theorems": [
    "C84_port_away_refuted",
    "C84_port_away_partial",
    "C84_connection_partial"
   ],
   "note": "REFUTED: a failed Open leaves a nil port, which a writer uses. Proved if opening fails only before it first succeeds; then the theorems about the connection apply to runs with port failures."
  },
  {
   "property": "C85",
   "status": "partial",
   "theorems": [
    "C85_no_command_lost_refuted",
    "C85_no_command_lost_partial"
   ],
   "note": "REFUTED: the error of Write is dropped. Proved for ports that do not fail."
  },
  {
   "property": "C86",
   "status": "partial",
   "theorems": [
    "C86_scales_kept_apart_refuted",
    "C86_scales_kept_apart_partial"
   ],
   "note": "REFUTED: scales without a unit share a key. Proved for readings with a unit, except the four types that have one unit for every scale."
  },
  {
   "property": "C87",
   "status": "proved",
   "theorems": [
    "C87_table_up_to_date",
    "C87_lookup_sound",
    "C87_lookup_complete",
    "C87_every_reference_found"
   ],
   "note": "For the committed table and the committed files. Parameters are left out."
  },
  {
   "property": "C88",
   "status": "partial",
   "theorems": [
    "C88_text_kept_refuted",
    "C88_text_kept_partial"
   ],
   "note": "REFUTED: NUL and the byte order mark are not escaped. Proved: exactly the texts without these two survive."
  },
  {
   "property": "C89",
   "status": "partial",
   "theorems": [
    "C89_compiles_refuted",
    "C89_compiles_partial",
    "C89_functions_distinct_partial"
   ],
   "note": "REFUTED: two references that differ only in case give the same case label twice. Proved if there are no such references; function names are distinct always. Parameters are left out."
  },
  {
   "property": "C90",
   "status": "partial",
   "theorems": [
    "C90_agrees_with_files_refuted",
    "C90_agrees_with_files_partial"
   ],
   "note": "REFUTED: when two files mention one device the later one is dropped. Proved for devices mentioned once."
  },
  {
   "property": "C91",
   "status": "partial",
   "theorems": [
    "C91_all_endpoints_refuted",
    "C91_all_endpoints_partial"
   ],
   "note": "REFUTED: only the first endpoint is used. Proved for files with one endpoint."
  },
  {
   "property": "C92",
   "status": "partial",
   "theorems": [
    "C92_last_report_wins_refuted",
    "C92_reports_applied_partial",
    "C92_one_report_partial"
   ],
   "note": "REFUTED: reports are processed by independent goroutines, so an older one can win. Proved: between two moments without outstanding callbacks the node changes by exactly the reports received from it, each once, in some order, with one notification each; with one report the state is what it says."
  },
  {
   "property": "C93",
   "status": "proved",
   "theorems": [
    "C93_known_nodes_were_listed"
   ],
   "note": ""
  },
  {
   "property": "C94",
   "status": "partial",
   "theorems": [
    "C94_listed_nodes_known_refuted",
    "C94_listed_nodes_known_partial"
   ],
   "note": "REFUTED: a list that arrives after the request timed out is dropped. Proved when the request received a message: it is a received node list and every listed node but the controller is known and was interrogated."
  },
  {
   "property": "C95",
   "status": "proved",
   "theorems": [
    "C95_frame_reaches_all_it_answers"
   ],
   "note": "Shorter frames are matched against bytes that follow them (see C63)."
  },
  {
   "property": "C96",
   "status": "proved",
   "theorems": [
    "C96_command_is_written",
    "C96_writers_not_stuck"
   ],
   "note": "Steps of the writing goroutines are taking a command, giving up waiting for its acknowledgement (which the timer always allows) and becoming ready again. Writing to the port is taken not to block; that a failed write drops the command is C85."
  },
  {
   "property": "C97",
   "status": "partial",
   "theorems": [
    "C97_frames_received_refuted",
    "C97_frames_wiped_partial",
    "C97_frames_received_partial",
    "C97_bytes_in_order_partial"
   ],
   "note": "REFUTED: when a frame is rejected the place of its checksum has been set to zero; a later frame that contains this place can then be accepted although it never arrived. Proved: the frame arrived up to bytes set to zero; it arrived exactly if no byte 0x01 was dropped."
  },
  {
   "property": "C98",
   "status": "proved",
   "theorems": [
    "C98_events_name_nodes",
    "C98_example_loop"
   ],
   "note": ""
  },
  {
   "property": "C99",
   "status": "partial",
   "theorems": [
    "C99_control_refuted",
    "C99_node_answer",
    "C99_control_answer",
    "C99_control_partial",
    "C99_nothing_else",
    "C99_names_unique"
   ],
   "note": "REFUTED: 200 is answered although nothing is sent when the node has neither switch class. Proved: the statuses, and the command sent for nodes with a switch class. Routing and the bodies of the answers are not modelled."
  },
  {
   "property": "C100",
   "status": "proved",
   "theorems": [
    "C100_product_from_node",
    "C100_no_product_no_names"
   ],
   "note": ""
  },
  {
   "property": "C101",
   "status": "partial",
   "theorems": [
    "C101_type_of_one_node_refuted",
    "C101_type_after_question_partial"
   ],
   "note": "REFUTED: the answer does not name the node and is given to everybody who waits for a type. Proved: the type was in the file or in an answer received after this node was asked."
  },
  {
   "property": "C102",
   "status": "proved",
   "theorems": [
    "C102_endpoints_from_node",
    "C102_identified_told_everything"
   ],
   "note": "The type may be that of another node (C101)."
  },
  {
   "property": "C103",
   "status": "partial",
   "theorems": [
    "C103_question_ends_refuted",
    "C103_timeout_ends_wait_partial"
   ],
   "note": "REFUTED: if the answer is processed before the caller has read its channel, the channel it reads is nil and it waits for ever. Proved: once it has its channel, the timeout of the request lets it go on."
  },
  {
   "property": "C104",
   "status": "partial",
   "theorems": [
    "C104_file_does_no_harm_refuted",
    "C104_save_crash_exactly_partial",
    "C104_own_file_does_no_harm_partial"
   ],
   "note": "REFUTED: SaveConfigurationToFile first loads the file that is there and panics if somebody has put a null node or a null endpoint into it. Proved: this is the only content at which a save panics; and if nobody else writes the file and the first start survives it, the file never does harm."
  },
  {
   "property": "C105",
   "status": "proved",
   "theorems": [
    "C105_saves_can_be_loaded"
   ],
   "note": "For every formatter of floats that reads back as the same double. Starts with a file that holds a null command class, which the program never writes, are not followed."
  },
  {
   "property": "C106",
   "status": "partial",
   "theorems": [
    "C106_saved_nodes_survive_refuted",
    "C106_saved_nodes_survive_partial"
   ],
   "note": "REFUTED: os.Create empties the file before the next save writes; a kill in between loses everything. Proved as long as no later save has begun."
  },
  {
   "property": "C107",
   "status": "proved",
   "theorems": [
    "C107_no_mixture"
   ],
   "note": "For every formatter of floats that reads back as the same double."
  },
  {
   "property": "C108",
   "status": "proved",
   "theorems": [
    "C108_type_is_used",
    "C108_product_is_used",
    "C108_endpoints_are_used"
   ],
   "note": ""
  },
  {
   "property": "C109",
   "status": "proved",
   "theorems": [
    "C109_alarm_fields",
    "C109_short_alarm_fields",
    "C109_product_fields",
    "C109_endpoints_fields"
   ],
   "note": ""
  },
  {
   "property": "C110",
   "status": "partial",
   "theorems": [
    "C110_unknown_is_shown_refuted",
    "C110_switch_is_shown_partial",
    "C110_switch_transition_is_shown",
    "C110_level_is_shown",
    "C110_level_transition_is_shown"
   ],
   "note": "REFUTED: the first version of the on/off report prints \"current:false\" for an unknown state. Proved for every other value of it, and without exception for the other three switch reports."
  },
  {
   "property": "C111",
   "status": "proved",
   "theorems": [
    "C111_reading_is_shown",
    "C111_reading_is_exact",
    "C111_type_and_unit_are_shown"
   ],
   "note": ""
  },
  {
   "property": "C112",
   "status": "proved",
   "theorems": [
    "C112_answers_complete_identification"
   ],
   "note": ""
  },
  {
   "property": "C113",
   "status": "partial",
   "theorems": [
    "C113_identification_can_end_refuted",
    "C113_identification_can_end_partial",
    "C113_lost_never_ends"
   ],
   "note": "REFUTED: an identification that reads its channel after the answer was processed, or that looks for the wake-up channel after the wake-up, waits for ever. Proved: these are exactly the cases; every other unfinished identification can be brought to its end."
  },
  {
   "property": "C114",
   "status": "proved",
   "theorems": [
    "C114_table_up_to_date",
    "C114_same_devices",
    "C114_parameters_sound",
    "C114_parameters_complete",
    "C114_any_files"
   ],
   "note": ""
  },
  {
   "property": "C115",
   "status": "partial",
   "theorems": [
    "C115_values_allowed_refuted",
    "C115_values_allowed_partial"
   ],
   "note": "REFUTED: if a file names some of the values of a parameter, its range is not written to the table, so that for 75 parameters of the committed files not even the default value is allowed (and the default itself is not written). Proved: the values allowed are exactly the range if no values are named, and exactly the named values otherwise."
  },
  {
   "property": "C116",
   "status": "proved",
   "theorems": [
    "C116_network_can_be_identified"
   ],
   "note": ""
  },
  {
   "property": "C117",
   "status": "proved",
   "theorems": [
    "C117_from_start_to_identified"
   ],
   "note": ""
  },
  {
   "property": "C118",
   "status": "proved",
   "theorems": [
    "C118_knowledge_is_kept"
   ],
   "note": ""
  },
  {
   "property": "C119",
   "status": "proved",
   "theorems": [
    "C119_known_is_not_asked",
    "C119_nothing_after_the_end"
   ],
   "note": ""
  },
  {
   "property": "C120",
   "status": "partial",
   "theorems": [
    "C120_up_to_date_refuted",
    "C120_classes_refuted",
    "C120_up_to_date_partial",
    "C120_published_partial"
   ],
   "note": "REFUTED: an event that does not fit the queue is dropped, and each round of Identify resets the command classes without an event. Proved: every other change is published, and if no event was dropped, the application is up to date in everything but the command classes."
  },
  {
   "property": "C121",
   "status": "partial",
   "theorems": [
    "C121_file_is_current_refuted",
    "C121_saved_nodes_partial",
    "C121_all_saved_partial",
    "C121_loaded_nodes_partial"
   ],
   "note": "REFUTED: finding a node does not cause a save, so a node that never answers is not in the file. Proved: a save is about all nodes known at the time; the nodes of the last save, or of the loaded file as long as there was none, are as they were there, except for the command classes; of a node that is not there nothing but its id is known."
  },
  {
   "property": "C122",
   "status": "proved",
   "theorems": [
    "C122_announced_once",
    "C122_known_is_announced",
    "C122_announced_first"
   ],
   "note": "About events as they are published: whether there is room for them in the queue is C39 and C40. A report that would be told about before the node is set up crashes the process instead (C73)."
  }
 ]
}