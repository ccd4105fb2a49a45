{
 "claims": [
  {
   "property": "C01",
   "status": "proved",
   "theorems": [
    "C01_hpai_roundtrip",
    "C01_hpai_bytes",
    "C01_hpai_decode_exact",
    "C01_hpai_accepts"
   ],
   "note": ""
  },
  {
   "property": "C02",
   "status": "proved",
   "theorems": [
    "C02_header_roundtrip",
    "C02_header_decode_exact",
    "C02_header_accepts"
   ],
   "note": ""
  },
  {
   "property": "C03",
   "status": "proved",
   "theorems": [
    "C03_connection_request",
    "C03_connection_requests_sent",
    "C03_connstate_request",
    "C03_disconnect_request",
    "C03_connstate_response",
    "C03_disconnect_response",
    "C03_search_request",
    "C03_tunneling_request",
    "C03_tunneling_ack",
    "C03_feature_set"
   ],
   "note": ""
  },
  {
   "property": "C04",
   "status": "proved",
   "theorems": [
    "C04_connection_response_decode_exact"
   ],
   "note": ""
  },
  {
   "property": "C05",
   "status": "partial",
   "theorems": [
    "C05_connection_response_roundtrip_refuted",
    "C05_never_back"
   ],
   "note": "False of the code: ConnectionResponse::packet writes a one-octet size, so its output is one octet too short. Proved for every response, without hypotheses, that it is not read back, and that it is rejected unless the endpoint's protocol code is 8."
  },
  {
   "property": "C06",
   "status": "proved",
   "theorems": [
    "C06_connstate_request_roundtrip",
    "C06_connstate_request_decode_exact",
    "C06_connstate_response_decode_exact",
    "C06_connstate_response_roundtrip"
   ],
   "note": ""
  },
  {
   "property": "C07",
   "status": "proved",
   "theorems": [
    "C07_disconnect_response_roundtrip",
    "C07_disconnect_response_decode_exact",
    "C07_disconnect_response_of_request"
   ],
   "note": ""
  },
  {
   "property": "C08",
   "status": "partial",
   "theorems": [
    "C08_disconnect_request_understood_refuted",
    "C08_never_refuted",
    "C08_tail_partial"
   ],
   "note": "False of the code: the dispatcher hands the whole datagram to a decoder that expects a first octet of at least 8, so a frame starting 06 10 02 09 is always an error. Proved for every request. C08_tail_partial: the decoder alone reads what the encoder writes from the 6th octet on; missing: the dispatcher never gives it that."
  },
  {
   "property": "C09",
   "status": "proved",
   "theorems": [
    "C09_search_request_roundtrip",
    "C09_search_request_decode_exact",
    "C09_search_requests_sent"
   ],
   "note": ""
  },
  {
   "property": "C10",
   "status": "proved",
   "theorems": [
    "C10_search_response_decode"
   ],
   "note": ""
  },
  {
   "property": "C11",
   "status": "partial",
   "theorems": [
    "C11_search_response_roundtrip_refuted",
    "C11_never_back"
   ],
   "note": "False of the code: SearchResponse::packet omits the block headers. Proved for every response, without hypotheses, that it is not read back, and that it is rejected when the status is 0."
  },
  {
   "property": "C12",
   "status": "partial",
   "theorems": [
    "C12_dib_roundtrip_partial",
    "C12_dib_layout",
    "C12_dib_roundtrip_refuted"
   ],
   "note": "Holds for device information, service families, IP config and IP current blocks; refuted for KNX addresses and manufacturer blocks (structure length counts the two header octets twice), for every block that fits."
  },
  {
   "property": "C13",
   "status": "proved",
   "theorems": [
    "C13_tunneling_request_roundtrip",
    "C13_tunneling_request_decode_exact",
    "C13_tunneling_request_too_long"
   ],
   "note": ""
  },
  {
   "property": "C14",
   "status": "proved",
   "theorems": [
    "C14_tunneling_ack_decode_exact",
    "C14_tunneling_ack_roundtrip"
   ],
   "note": ""
  },
  {
   "property": "C15",
   "status": "proved",
   "theorems": [
    "C15_feature_response_decode_exact",
    "C15_feature_response_own_rejected"
   ],
   "note": ""
  },
  {
   "property": "C16",
   "status": "proved",
   "theorems": [
    "C16_dispatcher_panics_exactly",
    "C16_cemi_panics_exactly",
    "C16_description_block_panics_exactly",
    "C16_other_decoders_never_panic"
   ],
   "note": ""
  },
  {
   "property": "C17",
   "status": "proved",
   "theorems": [
    "C17_dispatch",
    "C17_short_datagrams",
    "C17_dispatch_exact"
   ],
   "note": ""
  },
  {
   "property": "C18",
   "status": "proved",
   "theorems": [
    "C18_buffering_transparent",
    "C18_accepted_stays_accepted",
    "C18_connection_response"
   ],
   "note": ""
  },
  {
   "property": "C19",
   "status": "partial",
   "theorems": [
    "C19_wrong_length_delivered_refuted",
    "C19_declared_partial",
    "C19_header_alone_refuted"
   ],
   "note": "False of the code: every tunnelling request with declared size 10 or more is delivered whatever its real length, and a bare header is read as a status. Proved: a datagram is delivered only if it reaches past its header and declares exactly the length of what is delivered."
  },
  {
   "property": "C20",
   "status": "proved",
   "theorems": [
    "C20_cemi_decode"
   ],
   "note": ""
  },
  {
   "property": "C21",
   "status": "proved",
   "theorems": [
    "C21_cemi_factorisation"
   ],
   "note": ""
  },
  {
   "property": "C22",
   "status": "proved",
   "theorems": [
    "C22_indication_decode",
    "C22_indication_group_value",
    "C22_indication_short_value",
    "C22_value_never_empty"
   ],
   "note": ""
  },
  {
   "property": "C23",
   "status": "proved",
   "theorems": [
    "C23_indication_rejects_exactly_short"
   ],
   "note": ""
  },
  {
   "property": "C24",
   "status": "proved",
   "theorems": [
    "C24_confirmation_decode",
    "C24_confirmation_rejects_exactly_short"
   ],
   "note": ""
  },
  {
   "property": "C25",
   "status": "proved",
   "theorems": [
    "C25_read_request",
    "C25_write_request",
    "C25_small_write_request"
   ],
   "note": ""
  },
  {
   "property": "C26",
   "status": "partial",
   "theorems": [
    "C26_individual_flag_refuted",
    "C26_group_flag_partial"
   ],
   "note": "False of the code: control field 2 is the constant 0xe0 for every destination. Proved that group destinations are flagged rightly."
  },
  {
   "property": "C27",
   "status": "partial",
   "theorems": [
    "C27_oversized_partial",
    "C27_oversized_refuted"
   ],
   "note": "False of the code: exact characterisation of the length octet for every oversized payload plus a witness with a wrong length."
  },
  {
   "property": "C28",
   "status": "proved",
   "theorems": [
    "C28_group_write_survives",
    "C28_bound_is_tight"
   ],
   "note": ""
  },
  {
   "property": "C29",
   "status": "proved",
   "theorems": [
    "C29_group_read",
    "C29_group_write",
    "C29_group_write_small",
    "C29_any_service"
   ],
   "note": ""
  },
  {
   "property": "C30",
   "status": "partial",
   "theorems": [
    "C30_empty_small_write_refuted",
    "C30_write_ok_partial"
   ],
   "note": "False of the code exactly for the empty vector (index out of bounds); characterised as an equivalence."
  },
  {
   "property": "C31",
   "status": "proved",
   "theorems": [
    "C31_individual_layout",
    "C31_individual_to_from",
    "C31_individual_from_to",
    "C31_group3_layout",
    "C31_group3_to_from",
    "C31_group3_from_to"
   ],
   "note": ""
  },
  {
   "property": "C32",
   "status": "partial",
   "theorems": [
    "C32_distinct_in_range_partial",
    "C32_distinct_refuted"
   ],
   "note": "Injective on the KNX ranges (proved); refuted outside them, where constructors and the text parser accept fields that do not fit."
  },
  {
   "property": "C33",
   "status": "partial",
   "theorems": [
    "C33_two_level_layout_refuted",
    "C33_two_level_layout_partial"
   ],
   "note": "False of the code: 8/8 layout; agrees with 5/11 exactly for main group 0."
  },
  {
   "property": "C34",
   "status": "proved",
   "theorems": [
    "C34_address_grammar",
    "C34_individual_grammar",
    "C34_group3_grammar",
    "C34_never_panics"
   ],
   "note": ""
  },
  {
   "property": "C35",
   "status": "proved",
   "theorems": [
    "C35_text_roundtrip",
    "C35_group3_text_roundtrip",
    "C35_individual_text_roundtrip"
   ],
   "note": ""
  },
  {
   "property": "C36",
   "status": "proved",
   "theorems": [
    "C36_byte",
    "C36_scaled_raw",
    "C36_word",
    "C36_word_reencode",
    "C36_ulong",
    "C36_ulong_reencode",
    "C36_int",
    "C36_int_reencode",
    "C36_bit",
    "C36_bit_reencode",
    "C36_too_few_bytes"
   ],
   "note": ""
  },
  {
   "property": "C37",
   "status": "proved",
   "theorems": [
    "C37_control_general",
    "C37_control_dimming",
    "C37_control_blinds",
    "C37_control_decode_inverts",
    "C37_control_step_bounded"
   ],
   "note": ""
  },
  {
   "property": "C38",
   "status": "proved",
   "theorems": [
    "C38_percent_v16",
    "C38_percent_v16_wrong_above"
   ],
   "note": ""
  },
  {
   "property": "C39",
   "status": "proved",
   "theorems": [
    "C39_scaled_roundtrip",
    "C39_scaling_is_a_byte",
    "C39_scaling_special"
   ],
   "note": ""
  },
  {
   "property": "C40",
   "status": "partial",
   "theorems": [
    "C40_scaling_zero_refuted",
    "C40_any_percentage_refuted",
    "C40_below_partial"
   ],
   "note": "False of the code: 0 percent becomes byte 1; bytes 0 and 1 both read as 0 percent. `scaling` adds 1 before rounding, so no percentage from 0 to 100 gives octet 0; values at or below -0.197 are proved to give it (C40_below_partial)."
  },
  {
   "property": "C41",
   "status": "proved",
   "theorems": [
    "C41_decode_exact_iff"
   ],
   "note": ""
  },
  {
   "property": "C42",
   "status": "partial",
   "theorems": [
    "C42_decode_every_code_refuted",
    "C42_decode_panics"
   ],
   "note": "False of the code: C41_decode_exact_iff gives exactly the codes decoded correctly (exponent above 7 is decoded as 15 minus the exponent; negative with mantissa field 0 panics in debug builds)."
  },
  {
   "property": "C43",
   "status": "proved",
   "theorems": [
    "C43_terminates",
    "C43_nan"
   ],
   "note": ""
  },
  {
   "property": "C44",
   "status": "partial",
   "theorems": [
    "C44_returns_iff",
    "C44_always_returns_refuted"
   ],
   "note": "False of the code: C44_returns_iff characterises exactly when the encoder returns; otherwise an endless loop (release) or a panic after 32768 iterations (debug)."
  },
  {
   "property": "C45",
   "status": "proved",
   "theorems": [
    "C45_exact",
    "C45_total_error"
   ],
   "note": ""
  },
  {
   "property": "C46",
   "status": "partial",
   "theorems": [
    "C46_whole_range_refuted",
    "C46_clear_partial",
    "C46_cover"
   ],
   "note": "False of the code: C45_exact characterises exactly when the code is within half a step; 335544.32 is encoded as 0. C46_clear_partial with C46_cover: accurate to 0.501 steps on the range except the gaps named there."
  },
  {
   "property": "C47",
   "status": "proved",
   "theorems": [
    "C47_round_trip_iff"
   ],
   "note": ""
  },
  {
   "property": "C48",
   "status": "proved",
   "theorems": [
    "C48_friendly_name"
   ],
   "note": ""
  },
  {
   "property": "C49",
   "status": "proved",
   "theorems": [
    "C49_serialised"
   ],
   "note": ""
  },
  {
   "property": "C50",
   "status": "proved",
   "theorems": [
    "C50_queue",
    "C50_socket",
    "C50_not_invented"
   ],
   "note": ""
  },
  {
   "property": "C51",
   "status": "proved",
   "theorems": [
    "C51_acknowledged_first",
    "C51_ack_answers"
   ],
   "note": ""
  },
  {
   "property": "C52",
   "status": "partial",
   "theorems": [
    "C52_delivered_refuted",
    "C52_fate"
   ],
   "note": "False of the code: a heart beat falling due while the 100-message queue is full cancels the hand-over of an acknowledged message (C52_delivered_refuted is such an execution). C52_fate proves that this and dropping the handle are the only ways to lose it."
  },
  {
   "property": "C53",
   "status": "proved",
   "theorems": [
    "C53_consecutive",
    "C53_none_before"
   ],
   "note": ""
  },
  {
   "property": "C54",
   "status": "partial",
   "theorems": [
    "C54_request_of_current_connection_refuted",
    "C54_same_connection"
   ],
   "note": "False of the code: sequence number and channel are read under separate lock acquisitions, a reconnection in between mixes them. Proved whenever no connection is made in between."
  },
  {
   "property": "C55",
   "status": "proved",
   "theorems": [
    "C55_granted_channel",
    "C55_nothing_before"
   ],
   "note": ""
  },
  {
   "property": "C56",
   "status": "proved",
   "theorems": [
    "C56_reconnects_first"
   ],
   "note": ""
  },
  {
   "property": "C57",
   "status": "proved",
   "theorems": [
    "C57_error_drops",
    "C57_error_reconnects",
    "C57_socket_error_drops",
    "C57_send_failure_drops",
    "C57_empty_ignored",
    "C57_then_requests"
   ],
   "note": " C57_empty_ignored: an empty datagram is not an error."
  },
  {
   "property": "C58",
   "status": "partial",
   "theorems": [
    "C58_silence_detected_refuted",
    "C58_never_detected"
   ],
   "note": "False of the code: for every k there is an execution with k unanswered heart beats and the connection still up. C58_never_detected: as long as nothing arrives and nothing fails, the connection is kept in every execution, not only in some."
  },
  {
   "property": "C59",
   "status": "proved",
   "theorems": [
    "C59_read_result",
    "C59_read_outcome",
    "C59_message_decides"
   ],
   "note": " C59_read_outcome lists every way a read ends; C59_message_decides: the deciding message ends the read at once."
  },
  {
   "property": "C60",
   "status": "partial",
   "theorems": [
    "C60_read_after_request_refuted",
    "C60_fresh_partial"
   ],
   "note": "False of the code: an indication queued before the request was sent is returned. Proved when no message was waiting at the time of the request."
  },
  {
   "property": "C61",
   "status": "proved",
   "theorems": [
    "C61_write_outcome",
    "C61_first_message_decides"
   ],
   "note": ""
  },
  {
   "property": "C62",
   "status": "partial",
   "theorems": [
    "C62_write_confirmed_refuted",
    "C62_fresh_partial"
   ],
   "note": "False of the code: the confirm flag, address and data of the L_Data.con are not looked at. C61 states exactly what a successful write saw. C62_fresh_partial: with an empty queue at the time of sending, the confirmation taken was queued after it (which write it confirms is still not examined)."
  },
  {
   "property": "C63",
   "status": "proved",
   "theorems": [
    "C63_one_datagram",
    "C63_success_sent"
   ],
   "note": ""
  },
  {
   "property": "C64",
   "status": "partial",
   "theorems": [
    "C64_disconnect_success_refuted",
    "C64_client_outcome",
    "C64_monitor_outcome"
   ],
   "note": "False of the code: the disconnect response makes the task end, which closes the queue, which is reported as an error. The exact outcome of both disconnects is proved."
  },
  {
   "property": "C65",
   "status": "proved",
   "theorems": [
    "C65_silent",
    "C65_waiters_told",
    "C65_after_response"
   ],
   "note": ""
  },
  {
   "property": "C66",
   "status": "partial",
   "theorems": [
    "C66_not_connected_refuted",
    "C66_never_reported"
   ],
   "note": "False of the code: the connection record survives. C66_never_reported: on no execution is a stopped task reported by is_connected."
  },
  {
   "property": "C67",
   "status": "partial",
   "theorems": [
    "C67_status_completes_refuted",
    "C67_status_outcome"
   ],
   "note": "False of the code: the receive loop takes the answer and the call waits for ever (no timeout). The exact outcome when it does return is proved."
  },
  {
   "property": "C68",
   "status": "partial",
   "theorems": [
    "C68_status_leaves_traffic_refuted",
    "C68_one_at_most_partial"
   ],
   "note": "False of the code: connection_status reads the shared socket and swallows a tunnelling request, unacknowledged. Proved that a call takes at most one datagram, and only get_connection_status and the monitor's disconnect any."
  },
  {
   "property": "C69",
   "status": "proved",
   "theorems": [
    "C69_heartbeat_after_tick",
    "C69_ticks_spaced",
    "C69_heartbeat_current"
   ],
   "note": ""
  },
  {
   "property": "C70",
   "status": "proved",
   "theorems": [
    "C70_attempts_spaced"
   ],
   "note": ""
  },
  {
   "property": "C71",
   "status": "proved",
   "theorems": [
    "C71_not_premature",
    "C71_available"
   ],
   "note": ""
  },
  {
   "property": "C72",
   "status": "partial",
   "theorems": [
    "C72_read_bounded_refuted",
    "C72_quiet_partial"
   ],
   "note": "False of the code: the 10 s limit is per message, so for every k a read can still be waiting k ms after its request. C143 gives the bound that does hold: 10 s for every message taken. C72_quiet_partial: 10 s for a read handed no message, on a fast machine."
  },
  {
   "property": "C73",
   "status": "partial",
   "theorems": [
    "C73_keeps_running_refuted",
    "C73_keeps_running_partial"
   ],
   "note": "False of the code: a 10-octet datagram crashes the task. C74 lists all reasons for stopping. C73_keeps_running_partial: without the three kinds of datagram in harmless the task never stops."
  },
  {
   "property": "C74",
   "status": "proved",
   "theorems": [
    "C74_stop_reasons"
   ],
   "note": ""
  },
  {
   "property": "C75",
   "status": "partial",
   "theorems": [
    "C75_delivered_once_refuted",
    "C75_delivered_twice"
   ],
   "note": "False of the code: no duplicate detection. What holds is C95: one datagram is delivered at most once. C75_delivered_twice: from every idle state, every tunnelling request is delivered again when repeated."
  },
  {
   "property": "C76",
   "status": "partial",
   "theorems": [
    "C76_own_channel_refuted",
    "C76_any_channel"
   ],
   "note": "False of the code: the channel is not checked. C76_any_channel: from every idle state, whatever the channel, the request is acknowledged and delivered."
  },
  {
   "property": "C77",
   "status": "proved",
   "theorems": [
    "C77_cancel_enabled",
    "C77_cancel_effect"
   ],
   "note": ""
  },
  {
   "property": "C78",
   "status": "proved",
   "theorems": [
    "C78_holder_is_live",
    "C78_holder_can_end"
   ],
   "note": ""
  },
  {
   "property": "C79",
   "status": "partial",
   "theorems": [
    "C79_task_ends_refuted",
    "C79_reconnects"
   ],
   "note": "False of the code: for every k an execution in which the task sends k heart beats after the handle was dropped; a telegram that arrives after the drop makes the task give up the connection and ask for another one (C79_reconnects)."
  },
  {
   "property": "C80",
   "status": "proved",
   "theorems": [
    "C80_next_message"
   ],
   "note": ""
  },
  {
   "property": "C81",
   "status": "proved",
   "theorems": [
    "C81_notified",
    "C81_only_live",
    "C81_list_kept",
    "C81_completes"
   ],
   "note": ""
  },
  {
   "property": "C82",
   "status": "partial",
   "theorems": [
    "C82_not_blocked_refuted",
    "C82_only_full_partial",
    "C82_with_room_partial"
   ],
   "note": "False of the code: with one full listener channel the task stays blocked with the connection lock held, on every continuation in which the listener is left alone. C82_only_full_partial, C82_with_room_partial: only a full live registered channel blocks."
  },
  {
   "property": "C83",
   "status": "partial",
   "theorems": [
    "C83_answered_refuted",
    "C83_no_response",
    "C83_reconnects"
   ],
   "note": "False of the code on every execution: no disconnect response is ever sent; a disconnect request is handled as a connection error (C83_reconnects)."
  },
  {
   "property": "C84",
   "status": "proved",
   "theorems": [
    "C84_search_complete",
    "C84_search_decodes",
    "C84_one_result_each"
   ],
   "note": ""
  },
  {
   "property": "C85",
   "status": "partial",
   "theorems": [
    "C85_ignores_others_refuted",
    "C85_no_others_partial"
   ],
   "note": "False of the code: any datagram with a foreign header ends the search with an error. Proved that no such datagram is ever taken for a search response."
  },
  {
   "property": "C86",
   "status": "partial",
   "theorems": [
    "C86_no_mixing_refuted",
    "C86_empty_repeats"
   ],
   "note": "False of the code: the buffer is reused, a truncated datagram is completed with the contents of the previous one. For datagrams that are complete the results are independent (C84)."
  },
  {
   "property": "C87",
   "status": "partial",
   "theorems": [
    "C87_ends_refuted",
    "C87_end"
   ],
   "note": "False of the code: the timer is restarted by every datagram. The exact end time is proved (C87_end)."
  },
  {
   "property": "C88",
   "status": "partial",
   "theorems": [
    "C88_confirmed_write_refuted",
    "C88_confirmation_next_partial",
    "C88_confirmation_arrives_partial",
    "C88_session_partial"
   ],
   "note": "False of the code: any other message ahead of the confirmation makes the call fail. Proved when the confirmation is the next message: in the queue, from the wire, and as a complete session for all arguments."
  },
  {
   "property": "C89",
   "status": "proved",
   "theorems": [
    "C89_answer_queued",
    "C89_answer_arrives",
    "C89_session",
    "C89_monitor"
   ],
   "note": "The hypothesis s_bg s = BRecv: the task waits for a datagram; sending the acknowledgement succeeds."
  },
  {
   "property": "C90",
   "status": "partial",
   "theorems": [
    "C90_only_answers_refuted",
    "C90_answers_partial",
    "C90_question_first_refuted"
   ],
   "note": "False of the code: the APCI is ignored, another participant's GroupValueRead is returned as the value [0]. C90_answers_partial assumes that every queued indication for the address is a response or a write; C90_question_first_refuted: in every execution a question that comes first is returned."
  },
  {
   "property": "C91",
   "status": "proved",
   "theorems": [
    "C91_is_connected"
   ],
   "note": "'Given up' is the task dropping the connection record; a stopped task keeps it (C66)."
  },
  {
   "property": "C92",
   "status": "partial",
   "theorems": [
    "C92_own_channel_refuted",
    "C92_good_state_partial"
   ],
   "note": "False of the code: an error status for another channel drops the connection, a disconnect response for another channel (even one reporting an error) stops the task. Good connection-state responses change nothing."
  },
  {
   "property": "C93",
   "status": "partial",
   "theorems": [
    "C93_refusal_reported_refuted",
    "C93_missing_reported_refuted",
    "C93_ack_without_effect"
   ],
   "note": "False of the code. C93_ack_without_effect: in every state of the receive loop an acknowledgement, positive or negative, changes nothing."
  },
  {
   "property": "C94",
   "status": "partial",
   "theorems": [
    "C94_no_gaps_refuted",
    "C94_in_order_partial"
   ],
   "note": "False of the code: a number whose send fails (or whose call is dropped) is skipped. Proved: the numbers sent are a subsequence of the numbers issued, in order."
  },
  {
   "property": "C95",
   "status": "proved",
   "theorems": [
    "C95_in_order"
   ],
   "note": "Repeated datagrams of the device are separate datagrams (C75)."
  },
  {
   "property": "C96",
   "status": "proved",
   "theorems": [
    "C96_patience",
    "C96_retry"
   ],
   "note": "30 s for the answer, 10 s pause."
  },
  {
   "property": "C97",
   "status": "proved",
   "theorems": [
    "C97_recovers"
   ],
   "note": "Possibility, for every reachable state: the schedule consists of time, task steps with successful sends, the one datagram, and on-connect channels being dropped. The states where the task stopped are excluded (C73, C74)."
  },
  {
   "property": "C98",
   "status": "partial",
   "theorems": [
    "C98_refusal_reported_refuted",
    "C98_only_acknowledged"
   ],
   "note": "False of the code. C98_only_acknowledged: a feature response is acknowledged and changes nothing."
  },
  {
   "property": "C99",
   "status": "partial",
   "theorems": [
    "C99_monitor_spaced_refuted",
    "C99_spaced_partial"
   ],
   "note": "False of the code: when the feature request after a granted connection cannot be sent the next attempt follows at once, any number of times. Proved when that send does not fail in between."
  },
  {
   "property": "C100",
   "status": "partial",
   "theorems": [
    "C100_second_grant_refuted",
    "C100_always_dropped"
   ],
   "note": "False of the code. C100_always_dropped: every granting connect response is a connection error for the receive loop."
  },
  {
   "property": "C101",
   "status": "partial",
   "theorems": [
    "C101_channel_freed_refuted",
    "C101_task_never_frees"
   ],
   "note": "False of the code. C101_task_never_frees: on no execution does the task send a disconnect request."
  },
  {
   "property": "C102",
   "status": "partial",
   "theorems": [
    "C102_others_skipped_refuted",
    "C102_first_decides"
   ],
   "note": "False of the code. C102_first_decides: exactly the first datagram decides."
  },
  {
   "property": "C103",
   "status": "proved",
   "theorems": [
    "C103_next_beat"
   ],
   "note": "Possibility; C69 bounds the other side."
  },
  {
   "property": "C104",
   "status": "proved",
   "theorems": [
    "C104_reason"
   ],
   "note": "Converse of C57. Receive errors of the socket are excluded here, C57_socket_error_drops covers them."
  },
  {
   "property": "C105",
   "status": "proved",
   "theorems": [
    "C105_asks_once",
    "C105_nothing_else"
   ],
   "note": "The environment is arbitrary: bind, local address, send and the events of the loop."
  },
  {
   "property": "C106",
   "status": "partial",
   "theorems": [
    "C106_send_error_refuted",
    "C106_setup_error_partial"
   ],
   "note": "False of the code: expect on the send. C106_setup_error_partial: every other failure before the loop is an error and nothing is sent."
  },
  {
   "property": "C107",
   "status": "partial",
   "theorems": [
    "C107_names_client_refuted",
    "C107_reported_partial"
   ],
   "note": "False of the code: the socket is bound to 0.0.0.0:0. That a wildcard-bound socket reports 0.0.0.0 is an assumption about the operating system; C105 says the request names whatever is reported. C107_reported_partial: named address is the client's exactly if the socket reports such an address."
  },
  {
   "property": "C108",
   "status": "partial",
   "theorems": [
    "C108_byte_refuted",
    "C108_written_partial",
    "C108_float_partial",
    "C108_float_never"
   ],
   "note": "False of the code for 8-bit values (todo!()) and for 2-byte floats of very large magnitude. C108_written_partial and C108_float_partial: all others."
  },
  {
   "property": "C109",
   "status": "proved",
   "theorems": [
    "C109_typed_survives"
   ],
   "note": "For 2-byte floats: the octets made by the encoder arrive; C45 and C46 say what they mean."
  },
  {
   "property": "C110",
   "status": "partial",
   "theorems": [
    "C110_labels_refuted",
    "C110_labels_partial"
   ],
   "note": "False of the code for unsigned 32-bit, control and raw 8-bit values. C110_labels_partial: the other types keep code and unit."
  },
  {
   "property": "C111",
   "status": "partial",
   "theorems": [
    "C111_length_refuted",
    "C111_accepted",
    "C111_float_partial"
   ],
   "note": "False of the code: all but the 2-byte float accept longer strings. C111_accepted is the exact set."
  },
  {
   "property": "C112",
   "status": "partial",
   "theorems": [
    "C112_percentage_refuted",
    "C112_written_partial",
    "C112_written_near_partial"
   ],
   "note": "False of the code: only 0 and 255 are exact; the percentage read is up to 0.4 too small. For whole percentages the octet written is the nearest or the next (C112_written_partial); for any f32 from 0 to 100 it is between 0.5001 below and 1.5001 above the exact value (C112_written_near_partial)."
  },
  {
   "property": "C113",
   "status": "partial",
   "theorems": [
    "C113_tpci_refuted",
    "C113_dropped",
    "C113_services"
   ],
   "note": "False of the code: TPDU::packet returns the APDU unchanged, so only T_Data_Broadcast, T_Data_Group and T_Data_Individual are right (these are all the crate itself uses). C113_services: the fields of the TPDU do name the service, the information is lost by packet."
  },
  {
   "property": "C114",
   "status": "partial",
   "theorems": [
    "C114_raw_frame_refuted",
    "C114_shifted"
   ],
   "note": "False of the code: bus-monitor frames are decoded as L_Data messages. C114_shifted is what comes out."
  },
  {
   "property": "C115",
   "status": "proved",
   "theorems": [
    "C115_monotone"
   ],
   "note": ""
  },
  {
   "property": "C116",
   "status": "proved",
   "theorems": [
    "C116_round_trip"
   ],
   "note": ""
  },
  {
   "property": "C117",
   "status": "partial",
   "theorems": [
    "C117_padding_refuted",
    "C117_name_partial"
   ],
   "note": "False of the code: friendly_name decodes all 30 octets; refuted for every padded name. Proved: exactly the 30 octets of the field are returned."
  },
  {
   "property": "C118",
   "status": "proved",
   "theorems": [
    "C118_stays",
    "C118_once",
    "C118_never_told",
    "C118_told_rightly"
   ],
   "note": ""
  },
  {
   "property": "C119",
   "status": "proved",
   "theorems": [
    "C119_results",
    "C119_conversation"
   ],
   "note": ""
  },
  {
   "property": "C120",
   "status": "partial",
   "theorems": [
    "C120_ends_well_refuted",
    "C120_disconnect_fails",
    "C120_calls_partial"
   ],
   "note": "False of the code: refuted by a concrete run, and proved for every execution with at most one bus message that disconnecting after a confirmed write is an error. Proved: the program makes the intended calls."
  },
  {
   "property": "C121",
   "status": "partial",
   "theorems": [
    "C121_many_families_refuted",
    "C121_decodes",
    "C121_cut",
    "C121_few_families_partial"
   ],
   "note": "False of the code: refuted for every reply with 16 to 126 families. Proved: replies with at most 15 families are found, the decoder alone reads up to 126."
  },
  {
   "property": "C122",
   "status": "proved",
   "theorems": [
    "C122_lists",
    "C122_distinguishes",
    "C122_fails"
   ],
   "note": ""
  },
  {
   "property": "C123",
   "status": "partial",
   "theorems": [
    "C123_back_partial",
    "C123_zero_refuted",
    "C123_panic_refuted"
   ],
   "note": "False of the code: numbers just below 20.48*2^k come back as 0, and their negatives and those just below 0 make the decoder panic in debug builds (each proved for the whole interval). Proved outside these gaps up to 2620.67 with error 0.00501*2^k; above, the decoder is wrong (C42)."
  },
  {
   "property": "C124",
   "status": "partial",
   "theorems": [
    "C124_order_partial",
    "C124_clear_partial",
    "C124_order_refuted"
   ],
   "note": "False of the code: 20.48 is encoded as 0. Proved for every pair of numbers outside the gaps (those C45 encodes to within half a step)."
  },
  {
   "property": "C125",
   "status": "proved",
   "theorems": [
    "C125_stream",
    "C125_datagrams"
   ],
   "note": "Safety, for the model's atomic steps: taking a message from the queue and returning it is one step (no await point in between in next_msg)."
  },
  {
   "property": "C126",
   "status": "proved",
   "theorems": [
    "C126_backlog",
    "C126_session"
   ],
   "note": "C126_backlog assumes the handle is alive and nobody holds the transport lock; C126_session is an existence statement over schedules (C125 is the one about all of them)."
  },
  {
   "property": "C127",
   "status": "proved",
   "theorems": [
    "C127_reaction",
    "C127_at_once"
   ],
   "note": "Undecodable datagrams are C57. An acknowledgement pre-empted by the heart beat is never sent (second run of C127_example)."
  },
  {
   "property": "C128",
   "status": "proved",
   "theorems": [
    "C128_blocks",
    "C128_structure_length"
   ],
   "note": ""
  },
  {
   "property": "C129",
   "status": "proved",
   "theorems": [
    "C129_search_response"
   ],
   "note": ""
  },
  {
   "property": "C130",
   "status": "proved",
   "theorems": [
    "C130_requests",
    "C130_endpoints"
   ],
   "note": ""
  },
  {
   "property": "C131",
   "status": "partial",
   "theorems": [
    "C131_length_refuted",
    "C131_length_exact_partial"
   ],
   "note": "False of the code: an address block of length octet 6 takes 10 octets; a longer device block shifts everything after it. C131_length_exact_partial says for which blocks it holds: never for address and manufacturer blocks."
  },
  {
   "property": "C132",
   "status": "partial",
   "theorems": [
    "C132_quiet_refuted",
    "C132_test_refuted",
    "C132_test_partial"
   ],
   "note": "False of the code: disconnect waits for a bus message, so without one it never returns Ok, in any execution. C132_test_partial: the rest of the project's test can run as expected."
  },
  {
   "property": "C133",
   "status": "proved",
   "theorems": [
    "C133_writes_end"
   ],
   "note": "Fairness is defined on states and labels in LiveSpec.v: time_passes, polled (weak fairness), queue_for_mutex (bounded overtaking, which tokio's FIFO mutex gives) and the handle kept."
  },
  {
   "property": "C134",
   "status": "partial",
   "theorems": [
    "C134_calls_end_refuted",
    "C134_transfers_end_partial",
    "C134_monitor_calls_end_partial",
    "C134_monitor_calls_served_partial"
   ],
   "note": "False: fair endless executions in which a status query, a disconnect or a read never ends and blocks a write for ever. Proved: reads and writes end if the bus falls silent at some point; the monitor's calls except next_msg and disconnect end if from some point on no listener is being notified, or the listeners' channels have room and every lock serves the calls in turn."
  },
  {
   "property": "C135",
   "status": "proved",
   "theorems": [
    "C135_later",
    "C135_earlier"
   ],
   "note": "Both directions."
  },
  {
   "property": "C136",
   "status": "proved",
   "theorems": [
    "C136_keeps_asking"
   ],
   "note": ""
  },
  {
   "property": "C137",
   "status": "proved",
   "theorems": [
    "C137_beats_on"
   ],
   "note": ""
  },
  {
   "property": "C138",
   "status": "proved",
   "theorems": [
    "C138_counter",
    "C138_switch",
    "C138_control",
    "C138_temperature"
   ],
   "note": "counter, switch, dimming, blinds and temperature; steps are taken modulo 8 and dimming and blinds differ only in their code; the percentages have their own properties (C38, C40, C112, C116)"
  },
  {
   "property": "C139",
   "status": "proved",
   "theorems": [
    "C139_willing_connects"
   ],
   "note": "Hypotheses about the network and the gateway are the record willing of LiveSpec.v; the example meets them with a gateway that ends the connection every minute."
  },
  {
   "property": "C140",
   "status": "proved",
   "theorems": [
    "C140_some_call_ends",
    "C140_sole_caller",
    "C140_some_call_served",
    "C140_sole_caller_served"
   ],
   "note": "With several callers the model does not fix which of them gets a message, so only the progress of some call is claimed."
  },
  {
   "property": "C141",
   "status": "partial",
   "theorems": [
    "C141_distinct_refuted",
    "C141_same_datagram_partial",
    "C141_telegrams"
   ],
   "note": "Refuted: writing no octet, and writing 0 or 64 as a small value, are one and the same datagram (group_value_write keeps the low six bits of a small value and accepts an empty long one). Proved: calls sent as the same datagram have the same 16-bit group address and the same command up to exactly that (the six low bits of a small value, the empty long value), in any two executions; the telegrams of two calls are equal exactly then. What is missing is the distinction of addresses that share a 16-bit value, see C32."
  },
  {
   "property": "C142",
   "status": "proved",
   "theorems": [
    "C142_all_taken"
   ],
   "note": "The hypothesis socket_served states that neither the timer branch of the select nor the connection timeout wins for ever while a datagram waits; tokio's select chooses at random."
  },
  {
   "property": "C143",
   "status": "proved",
   "theorems": [
    "C143_in_time",
    "C143_write_in_time",
    "C143_alone_in_time"
   ],
   "note": "The assumption about the machine is the definition prompt of PromptSpec.v: time passes only while no step of the program is enabled. The example meets the hypotheses with a read that has waited 16 s. Complements C71 (not earlier) and C72 (no bound independent of the traffic)."
  },
  {
   "property": "C144",
   "status": "proved",
   "theorems": [
    "C144_beat_in_time",
    "C144_client_beat_in_time",
    "C144_beat_sent"
   ],
   "note": "The bound is attained in the example. Registered on-connect channels must have room whenever time passes; a full one blocks the monitor's task (C82). C144_unattended shows that this is needed. The client has no such channels (C144_client_beat_in_time)."
  },
  {
   "property": "C145",
   "status": "proved",
   "theorems": [
    "C145_asks_in_time",
    "C145_first_at_once"
   ],
   "note": "The bound is attained in the example (30 s waiting for the answer and 10 s pause). Complements C70 and C96."
  },
  {
   "property": "C146",
   "status": "proved",
   "theorems": [
    "C146_nothing_waits"
   ],
   "note": "Any execution, not only prompt ones. With a full queue the task waits for room or for the next heart beat (C52). Registered on-connect channels must have room in the state considered; a full one blocks the monitor's task (C82)."
  },
  {
   "property": "C147",
   "status": "proved",
   "theorems": [
    "C147_traffic",
    "C147_monitor_traffic",
    "C147_answers",
    "C147_attempts",
    "C147_beats",
    "C147_calls"
   ],
   "note": "Exact counts by invariants with potentials; the bound is attained in the example."
  },
  {
   "property": "C148",
   "status": "proved",
   "theorems": [
    "C148_delivery",
    "C148_losses"
   ],
   "note": "f is any decidable choice of datagrams with a decodable message; the bound is attained in the example. Quantifies the loss that refutes C52."
  },
  {
   "property": "C149",
   "status": "proved",
   "theorems": [
    "C149_rescue",
    "C149_reconnects"
   ],
   "note": "No deadlock in the sense that no reachable state is beyond rescue; fair executions in which nobody helps can hang (C134). Rescue may need datagrams to arrive, time to pass and on-connect channels to be closed or emptied; no further call is needed."
  },
  {
   "property": "C150",
   "status": "proved",
   "theorems": [
    "C150_in_time",
    "C150_writes_in_time",
    "C150_order_is_fair",
    "C150_writes_end"
   ],
   "note": "The order of service is an assumption about tokio's mutex (FifoSpec.v: next_in_line), not about the code of this crate. Other calls than reads and writes (get_connection_status, disconnect) may hold the mutex for ever (C134) and are excluded by only_transfers."
  },
  {
   "property": "C151",
   "status": "proved",
   "theorems": [
    "C151_answered_at_once"
   ],
   "note": "The timeouts themselves are not excluded in the instant they fall due: the theorem then allows ETimeout."
  },
  {
   "property": "C152",
   "status": "proved",
   "theorems": [
    "C152_outage_ends_with_answer"
   ],
   "note": ""
  },
  {
   "property": "C153",
   "status": "proved",
   "theorems": [
    "C153_silence"
   ],
   "note": "Receive errors would end the 30 s wait early and are excluded by the definition of steady."
  },
  {
   "property": "C154",
   "status": "partial",
   "theorems": [
    "C154_crash_refuted",
    "C154_only_so_partial",
    "C154_reader",
    "C154_receive_error_partial"
   ],
   "note": "False of the code: in a debug build a description block with a length octet below 2 (families) or 4 (addresses) makes the subtraction overflow and the search panic, after any number of good replies. Proved: exactly which octets do so, that release builds never panic, that an error of the socket is returned as an error."
  },
  {
   "property": "C155",
   "status": "partial",
   "theorems": [
    "C155_small_refuted",
    "C155_negative_refuted",
    "C155_refuted",
    "C155_general",
    "C155_truncates_partial"
   ],
   "note": "False of the code, which nothing calls: numbers below 10.24 come out 65536 times too large, negative ones in sign and magnitude, those from 327.68 on lose their high bits. Proved: what it computes for every finite f32, that these classes are wrong, and that from 10.245 to 327.675 it is right up to one step."
  },
  {
   "property": "C156",
   "status": "partial",
   "theorems": [
    "C156_same_decoders",
    "C156_rejected",
    "C156_values_partial",
    "C156_version_refuted",
    "C156_full_refuted",
    "C156_status"
   ],
   "note": "False of the version: five decoders of core.rs print the header size or the version wanted instead of the version found (C156_version_refuted). Proved for every other field, for all datagrams; the decoders with texts are proved equal to those without."
  },
  {
   "property": "C157",
   "status": "partial",
   "theorems": [
    "C157_short_partial",
    "C157_unable",
    "C157_ack_refuted"
   ],
   "note": "False of acknowledgements and feature responses, where two fields share one text. Proved: exactly those pairs do."
  },
  {
   "property": "C158",
   "status": "partial",
   "theorems": [
    "C158_same_decoders",
    "C158_block_partial",
    "C158_head_refuted",
    "C158_numbers",
    "C158_search",
    "C158_search_service"
   ],
   "note": "False of the block's own header: a missing type code is reported as a missing structure length (C158_head_refuted). Proved for all six kinds of blocks after it."
  },
  {
   "property": "C159",
   "status": "proved",
   "theorems": [
    "C159_same_decoders",
    "C159_indication",
    "C159_confirmation"
   ],
   "note": "Both decoders, for every service information."
  },
  {
   "property": "C160",
   "status": "partial",
   "theorems": [
    "C160_same_decoders",
    "C160_reasons",
    "C160_individual",
    "C160_dotted",
    "C160_one_level",
    "C160_levels_partial",
    "C160_count",
    "C160_quoted_refuted",
    "C160_group3_refuted"
   ],
   "note": "False of two- and three-level group addresses, whose texts do not quote the part (C160_quoted_refuted), and of Group3LevelAddress::try_from, which has two fixed texts (C160_group3_refuted). Proved exactly for individual and one-level addresses; part and reason proved for the others."
  },
  {
   "property": "C161",
   "status": "partial",
   "theorems": [
    "C161_same_decoder",
    "C161_head",
    "C161_infos_partial",
    "C161_only",
    "C161_type_refuted"
   ],
   "note": "False of unknown types: the text ends in \"()\", whatever the type (C161_type_refuted). Proved: the text for every cut, after any list of complete elements, and that there are no other texts."
  },
  {
   "property": "C162",
   "status": "proved",
   "theorems": [
    "C162_shown_at_once"
   ],
   "note": "Registered on-connect channels must have room whenever time passes; a full one blocks the monitor's task (C82). The monitor's disconnect is excluded: it reads the shared socket with the transport locked (C68, C134)."
  },
  {
   "property": "C163",
   "status": "proved",
   "theorems": [
    "C163_calls_at_once"
   ],
   "note": "Registered on-connect channels must have room whenever time passes; a full one blocks the monitor's task (C82). The monitor's disconnect is excluded: it reads the shared socket with the transport locked (C68, C134)."
  },
  {
   "property": "C164",
   "status": "partial",
   "theorems": [
    "C164_cause_partial",
    "C164_solicit_partial",
    "C164_solicit_refuted",
    "C164_given"
   ],
   "note": "False of solecitate_group_read (C164_solicit_refuted): its error begins \"Unable to send connection state request\" also without a connection. Proved for all other calls, and of solecitate_group_read that the right text follows. Texts of the operating system and Debug of an error are arbitrary parameters."
  },
  {
   "property": "C165",
   "status": "proved",
   "theorems": [
    "C165_field",
    "C165_status",
    "C165_disconnect"
   ],
   "note": "Debug of an error and the channel shown by the monitor's disconnect are arbitrary parameters."
  },
  {
   "property": "C166",
   "status": "proved",
   "theorems": [
    "C166_same",
    "C166_cause"
   ],
   "note": "Debug of a description block and the operating system's text are arbitrary parameters."
  },
  {
   "property": "C167",
   "status": "partial",
   "theorems": [
    "C167_full_refuted",
    "C167_at_once_partial",
    "C167_full_queue"
   ],
   "note": "False: with 100 messages unread and one more in hand the background task waits for room in the queue and acknowledges nothing until a call takes a message or the heart beat is due (C167_full_queue; C167_full_refuted uses 102 telegrams and a user who makes no call). Proved on a fast machine with fewer than 100 unread: the acknowledgement is sent in the very instant of the arrival, unless in that instant the heart beat is due (the half-done work is dropped), the connection is given up, or a call takes the datagram from the socket."
  },
  {
   "property": "C168",
   "status": "partial",
   "theorems": [
    "C168_fresh_refuted",
    "C168_fresh_partial"
   ],
   "note": "False: with 101 unread telegrams the background task waits for room in the queue and leaves the socket alone, so a state that arrived long before is returned (C168_fresh_refuted, half a minute old). Proved on a fast machine if just before the request's instant there was a connection and fewer than 100 messages were unread. Whether it answers this request and not a heart beat: C170."
  },
  {
   "property": "C169",
   "status": "partial",
   "theorems": [
    "C169_connected_refuted",
    "C169_no_device",
    "C169_granted",
    "C169_error",
    "C169_ok",
    "C169_fails_at_once"
   ],
   "note": "False: connect returns once the socket is set up; the background task connects later (C169_connected_refuted). Proved instead: connect fails exactly if the operating system gives no socket or refuses the target, with which text; each connection was granted by a datagram that arrived before it; and until such a datagram arrived every call that returns fails as disconnected, sends nothing, and is_connected returns false. A transfer, status query or disconnect made right after connect fails so in two steps of its own (C169_fails_at_once). The texts of operating system errors are arguments; resolving the address is the operating system's."
  },
  {
   "property": "C170",
   "status": "partial",
   "theorems": [
    "C170_own_answer_refuted",
    "C170_own_answer_partial"
   ],
   "note": "False: a status query takes the answer to a heart beat that is under way, and its own answer goes to the background task (C170_own_answer_refuted; there the two answers differ). Proved on a fast machine if just before the request all requests for the state were answered, there was a connection and fewer than 100 messages were unread, and no heart beat was sent until the query returned. Which answer belongs to which request is told by counting: the protocol has no number for it."
  },
  {
   "property": "C171",
   "status": "partial",
   "theorems": [
    "C171_renewed_refuted",
    "C171_at_once_partial"
   ],
   "note": "False: a status query takes the bad state off the socket and returns it to its caller, and the background task goes on with the connection, for an hour in C171_renewed_refuted. Proved on a fast machine for every datagram that is an error, while fewer than 100 messages are unread and unless a call takes it: in the instant of its arrival the connection is given up and a new connection request sent (or its sending fails). C57 has the order of events without times."
  },
  {
   "property": "C172",
   "status": "partial",
   "theorems": [
    "C172_gone_refuted",
    "C172_beats_on",
    "C172_still_there",
    "C172_beat_sent"
   ],
   "note": "False: the monitor's disconnect takes the disconnect response off the socket itself, so the background task never learns of it (C172_gone_refuted). Proved that this is so in every execution, as long as nothing else ended the connection: is_connected returns true, and on a fast machine a heart beat falls due, and is sent (or its sending fails), within a minute of the disconnect."
  }
 ]
}
