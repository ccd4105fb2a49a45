(** [Print Assumptions] for every property theorem, one tuple per file; see DESIGN.md for the result. *)
From Verif Require PropsCodec PropsMessage PropsAddr PropsDpt PropsFloat PropsCalls PropsTask PropsMonitor PropsLive PropsSearch PropsTyped PropsBack PropsDemo PropsSession PropsStream PropsReact PropsBlocks PropsTests PropsFair PropsCommand PropsPrompt PropsCount PropsRescue PropsFifo PropsAnswer PropsOld PropsMsg PropsMsg2 PropsAnswer2 PropsRest PropsMsg3 PropsAck PropsFresh PropsConnect PropsOwn PropsDrop PropsQuit PropsBeat PropsConnect2.
Definition all_PropsCodec :=
  (PropsCodec.C01_hpai_roundtrip,
   PropsCodec.C01_hpai_bytes,
   PropsCodec.C01_hpai_decode_exact,
   PropsCodec.C01_hpai_accepts,
   PropsCodec.C02_header_roundtrip,
   PropsCodec.C02_header_decode_exact,
   PropsCodec.C02_header_accepts,
   PropsCodec.C03_connection_request,
   PropsCodec.C03_connection_requests_sent,
   PropsCodec.C03_connstate_request,
   PropsCodec.C03_disconnect_request,
   PropsCodec.C03_connstate_response,
   PropsCodec.C03_disconnect_response,
   PropsCodec.C03_search_request,
   PropsCodec.C03_tunneling_request,
   PropsCodec.C03_tunneling_ack,
   PropsCodec.C03_feature_set,
   PropsCodec.C04_connection_response_decode_exact,
   PropsCodec.C05_connection_response_roundtrip_refuted,
   PropsCodec.C05_never_back,
   PropsCodec.C06_connstate_request_roundtrip,
   PropsCodec.C06_connstate_request_decode_exact,
   PropsCodec.C06_connstate_response_decode_exact,
   PropsCodec.C06_connstate_response_roundtrip,
   PropsCodec.C07_disconnect_response_roundtrip,
   PropsCodec.C07_disconnect_response_decode_exact,
   PropsCodec.C07_disconnect_response_of_request,
   PropsCodec.C08_disconnect_request_understood_refuted,
   PropsCodec.C09_search_request_roundtrip,
   PropsCodec.C09_search_request_decode_exact,
   PropsCodec.C09_search_requests_sent,
   PropsCodec.C10_search_response_decode,
   PropsCodec.C11_search_response_roundtrip_refuted,
   PropsCodec.C11_never_back,
   PropsCodec.C12_dib_roundtrip_partial,
   PropsCodec.C12_dib_layout,
   PropsCodec.C12_dib_roundtrip_refuted,
   PropsCodec.C13_tunneling_request_roundtrip,
   PropsCodec.C13_tunneling_request_decode_exact,
   PropsCodec.C13_tunneling_request_too_long,
   PropsCodec.C14_tunneling_ack_decode_exact,
   PropsCodec.C14_tunneling_ack_roundtrip,
   PropsCodec.C15_feature_response_decode_exact,
   PropsCodec.C15_feature_response_own_rejected,
   PropsCodec.C16_dispatcher_panics_exactly,
   PropsCodec.C16_cemi_panics_exactly,
   PropsCodec.C16_description_block_panics_exactly,
   PropsCodec.C16_other_decoders_never_panic,
   PropsCodec.C17_dispatch,
   PropsCodec.C17_short_datagrams,
   PropsCodec.C17_dispatch_exact,
   PropsCodec.C18_buffering_transparent,
   PropsCodec.C18_accepted_stays_accepted,
   PropsCodec.C18_connection_response,
   PropsCodec.C19_wrong_length_delivered_refuted,
   PropsCodec.C19_declared_partial,
   PropsCodec.C19_header_alone_refuted,
   PropsCodec.C48_friendly_name).
Print Assumptions all_PropsCodec.
Definition all_PropsMessage :=
  (PropsMessage.C20_cemi_decode,
   PropsMessage.C21_cemi_factorisation,
   PropsMessage.C22_indication_decode,
   PropsMessage.C22_indication_group_value,
   PropsMessage.C22_indication_short_value,
   PropsMessage.C22_value_never_empty,
   PropsMessage.C23_indication_rejects_exactly_short,
   PropsMessage.C24_confirmation_decode,
   PropsMessage.C24_confirmation_rejects_exactly_short,
   PropsMessage.C25_read_request,
   PropsMessage.C25_write_request,
   PropsMessage.C25_small_write_request,
   PropsMessage.C26_individual_flag_refuted,
   PropsMessage.C26_group_flag_partial,
   PropsMessage.C27_oversized_partial,
   PropsMessage.C27_oversized_refuted,
   PropsMessage.C28_group_write_survives,
   PropsMessage.C28_bound_is_tight,
   PropsMessage.C29_group_read,
   PropsMessage.C29_group_write,
   PropsMessage.C29_group_write_small,
   PropsMessage.C29_any_service,
   PropsMessage.C30_empty_small_write_refuted,
   PropsMessage.C30_write_ok_partial).
Print Assumptions all_PropsMessage.
Definition all_PropsAddr :=
  (PropsAddr.C31_individual_layout,
   PropsAddr.C31_individual_to_from,
   PropsAddr.C31_individual_from_to,
   PropsAddr.C31_group3_layout,
   PropsAddr.C31_group3_to_from,
   PropsAddr.C31_group3_from_to,
   PropsAddr.C32_distinct_in_range_partial,
   PropsAddr.C32_distinct_refuted,
   PropsAddr.C33_two_level_layout_refuted,
   PropsAddr.C33_two_level_layout_partial,
   PropsAddr.C34_address_grammar,
   PropsAddr.C34_individual_grammar,
   PropsAddr.C34_group3_grammar,
   PropsAddr.C34_never_panics,
   PropsAddr.C35_text_roundtrip,
   PropsAddr.C35_group3_text_roundtrip,
   PropsAddr.C35_individual_text_roundtrip).
Print Assumptions all_PropsAddr.
Definition all_PropsDpt :=
  (PropsDpt.C36_byte,
   PropsDpt.C36_scaled_raw,
   PropsDpt.C36_word,
   PropsDpt.C36_word_reencode,
   PropsDpt.C36_ulong,
   PropsDpt.C36_ulong_reencode,
   PropsDpt.C36_int,
   PropsDpt.C36_int_reencode,
   PropsDpt.C36_bit,
   PropsDpt.C36_bit_reencode,
   PropsDpt.C36_too_few_bytes,
   PropsDpt.C37_control_general,
   PropsDpt.C37_control_dimming,
   PropsDpt.C37_control_blinds,
   PropsDpt.C37_control_decode_inverts,
   PropsDpt.C37_control_step_bounded,
   PropsDpt.C38_percent_v16,
   PropsDpt.C38_percent_v16_wrong_above,
   PropsDpt.C39_scaled_roundtrip,
   PropsDpt.C39_scaling_is_a_byte,
   PropsDpt.C39_scaling_special,
   PropsDpt.C40_scaling_zero_refuted).
Print Assumptions all_PropsDpt.
Definition all_PropsFloat :=
  (PropsFloat.C41_decode_exact_iff,
   PropsFloat.C42_decode_every_code_refuted,
   PropsFloat.C42_decode_panics,
   PropsFloat.C43_terminates,
   PropsFloat.C43_nan,
   PropsFloat.C44_returns_iff,
   PropsFloat.C44_always_returns_refuted,
   PropsFloat.C45_exact,
   PropsFloat.C45_total_error,
   PropsFloat.C46_whole_range_refuted,
   PropsFloat.C47_round_trip_iff).
Print Assumptions all_PropsFloat.
Definition all_PropsCalls :=
  (PropsCalls.C49_serialised,
   PropsCalls.C53_consecutive,
   PropsCalls.C53_none_before,
   PropsCalls.C54_request_of_current_connection_refuted,
   PropsCalls.C54_same_connection,
   PropsCalls.C55_granted_channel,
   PropsCalls.C55_nothing_before,
   PropsCalls.C59_read_result,
   PropsCalls.C59_read_outcome,
   PropsCalls.C59_message_decides,
   PropsCalls.C60_read_after_request_refuted,
   PropsCalls.C60_fresh_partial,
   PropsCalls.C61_write_outcome,
   PropsCalls.C61_first_message_decides,
   PropsCalls.C62_write_confirmed_refuted,
   PropsCalls.C62_fresh_partial,
   PropsCalls.C63_one_datagram,
   PropsCalls.C63_success_sent,
   PropsCalls.C64_disconnect_success_refuted,
   PropsCalls.C64_client_outcome,
   PropsCalls.C64_monitor_outcome,
   PropsCalls.C67_status_completes_refuted,
   PropsCalls.C67_status_outcome,
   PropsCalls.C68_status_leaves_traffic_refuted,
   PropsCalls.C68_one_at_most_partial,
   PropsCalls.C71_not_premature,
   PropsCalls.C71_available,
   PropsCalls.C72_read_bounded_refuted,
   PropsCalls.C77_cancel_enabled,
   PropsCalls.C77_cancel_effect,
   PropsCalls.C78_holder_is_live,
   PropsCalls.C78_holder_can_end).
Print Assumptions all_PropsCalls.
Definition all_PropsTask :=
  (PropsTask.C50_queue,
   PropsTask.C50_socket,
   PropsTask.C50_not_invented,
   PropsTask.C51_acknowledged_first,
   PropsTask.C51_ack_answers,
   PropsTask.C52_delivered_refuted,
   PropsTask.C52_fate,
   PropsTask.C56_reconnects_first,
   PropsTask.C57_error_drops,
   PropsTask.C57_error_reconnects,
   PropsTask.C57_socket_error_drops,
   PropsTask.C57_send_failure_drops,
   PropsTask.C57_empty_ignored,
   PropsTask.C57_then_requests,
   PropsTask.C58_silence_detected_refuted,
   PropsTask.C65_silent,
   PropsTask.C65_waiters_told,
   PropsTask.C65_after_response,
   PropsTask.C66_not_connected_refuted,
   PropsTask.C66_never_reported,
   PropsTask.C69_heartbeat_after_tick,
   PropsTask.C69_ticks_spaced,
   PropsTask.C69_heartbeat_current,
   PropsTask.C70_attempts_spaced,
   PropsTask.C73_keeps_running_refuted,
   PropsTask.C73_keeps_running_partial,
   PropsTask.C74_stop_reasons,
   PropsTask.C75_delivered_once_refuted,
   PropsTask.C75_delivered_twice,
   PropsTask.C76_own_channel_refuted,
   PropsTask.C76_any_channel,
   PropsTask.C79_task_ends_refuted,
   PropsTask.C79_reconnects,
   PropsTask.C83_answered_refuted,
   PropsTask.C83_no_response,
   PropsTask.C83_reconnects).
Print Assumptions all_PropsTask.
Definition all_PropsMonitor :=
  (PropsMonitor.C80_next_message,
   PropsMonitor.C81_notified,
   PropsMonitor.C81_only_live,
   PropsMonitor.C81_list_kept,
   PropsMonitor.C81_completes,
   PropsMonitor.C82_not_blocked_refuted).
Print Assumptions all_PropsMonitor.
Definition all_PropsLive :=
  (PropsLive.C88_confirmed_write_refuted,
   PropsLive.C88_confirmation_next_partial,
   PropsLive.C88_confirmation_arrives_partial,
   PropsLive.C88_session_partial,
   PropsLive.C89_answer_queued,
   PropsLive.C89_answer_arrives,
   PropsLive.C89_session,
   PropsLive.C89_monitor,
   PropsLive.C90_only_answers_refuted,
   PropsLive.C91_is_connected,
   PropsLive.C92_own_channel_refuted,
   PropsLive.C92_good_state_partial,
   PropsLive.C93_refusal_reported_refuted,
   PropsLive.C93_missing_reported_refuted,
   PropsLive.C93_ack_without_effect,
   PropsLive.C94_no_gaps_refuted,
   PropsLive.C94_in_order_partial,
   PropsLive.C95_in_order,
   PropsLive.C96_patience,
   PropsLive.C96_retry,
   PropsLive.C97_recovers,
   PropsLive.C98_refusal_reported_refuted,
   PropsLive.C98_only_acknowledged,
   PropsLive.C99_monitor_spaced_refuted,
   PropsLive.C99_spaced_partial,
   PropsLive.C100_second_grant_refuted,
   PropsLive.C100_always_dropped,
   PropsLive.C101_channel_freed_refuted,
   PropsLive.C101_task_never_frees,
   PropsLive.C102_others_skipped_refuted,
   PropsLive.C102_first_decides,
   PropsLive.C103_next_beat,
   PropsLive.C104_reason).
Print Assumptions all_PropsLive.
Definition all_PropsSearch :=
  (PropsSearch.C84_search_complete,
   PropsSearch.C84_search_decodes,
   PropsSearch.C84_one_result_each,
   PropsSearch.C85_ignores_others_refuted,
   PropsSearch.C85_no_others_partial,
   PropsSearch.C86_no_mixing_refuted,
   PropsSearch.C86_empty_repeats,
   PropsSearch.C87_ends_refuted,
   PropsSearch.C87_end,
   PropsSearch.C105_asks_once,
   PropsSearch.C105_nothing_else,
   PropsSearch.C106_send_error_refuted,
   PropsSearch.C106_setup_error_partial,
   PropsSearch.C107_names_client_refuted,
   PropsSearch.C154_crash_refuted,
   PropsSearch.C154_only_so_partial,
   PropsSearch.C154_reader,
   PropsSearch.C154_receive_error_partial).
Print Assumptions all_PropsSearch.
Definition all_PropsTyped :=
  (PropsTyped.C108_byte_refuted,
   PropsTyped.C108_written_partial,
   PropsTyped.C108_float_partial,
   PropsTyped.C108_float_never,
   PropsTyped.C109_typed_survives,
   PropsTyped.C110_labels_refuted,
   PropsTyped.C110_labels_partial,
   PropsTyped.C111_length_refuted,
   PropsTyped.C111_accepted,
   PropsTyped.C111_float_partial,
   PropsTyped.C112_percentage_refuted,
   PropsTyped.C112_written_partial,
   PropsTyped.C112_written_near_partial,
   PropsTyped.C113_tpci_refuted,
   PropsTyped.C113_dropped,
   PropsTyped.C113_services,
   PropsTyped.C114_raw_frame_refuted,
   PropsTyped.C114_shifted,
   PropsTyped.C115_monotone,
   PropsTyped.C116_round_trip,
   PropsTyped.C40_any_percentage_refuted,
   PropsTyped.C40_below_partial,
   PropsTyped.C138_counter,
   PropsTyped.C138_switch,
   PropsTyped.C138_control,
   PropsTyped.C138_temperature).
Print Assumptions all_PropsTyped.
Definition all_PropsBack :=
  (PropsBack.C123_back_partial,
   PropsBack.C123_zero_refuted,
   PropsBack.C123_panic_refuted,
   PropsBack.C124_order_partial,
   PropsBack.C124_clear_partial,
   PropsBack.C124_order_refuted).
Print Assumptions all_PropsBack.
Definition all_PropsDemo :=
  (PropsDemo.C117_padding_refuted,
   PropsDemo.C117_name_partial,
   PropsDemo.C120_ends_well_refuted,
   PropsDemo.C120_disconnect_fails,
   PropsDemo.C120_calls_partial,
   PropsDemo.C121_many_families_refuted,
   PropsDemo.C121_decodes,
   PropsDemo.C121_cut,
   PropsDemo.C121_few_families_partial,
   PropsDemo.C122_lists,
   PropsDemo.C122_distinguishes,
   PropsDemo.C122_fails).
Print Assumptions all_PropsDemo.
Definition all_PropsSession :=
  (PropsSession.C118_stays,
   PropsSession.C118_once,
   PropsSession.C118_never_told,
   PropsSession.C118_told_rightly,
   PropsSession.C119_results,
   PropsSession.C119_conversation).
Print Assumptions all_PropsSession.
Definition all_PropsStream :=
  (PropsStream.C125_stream,
   PropsStream.C125_datagrams,
   PropsStream.C126_backlog,
   PropsStream.C126_session).
Print Assumptions all_PropsStream.
Definition all_PropsReact :=
  (PropsReact.C127_reaction,
   PropsReact.C127_at_once).
Print Assumptions all_PropsReact.
Definition all_PropsBlocks :=
  (PropsBlocks.C128_blocks,
   PropsBlocks.C128_structure_length,
   PropsBlocks.C129_search_response,
   PropsBlocks.C130_requests,
   PropsBlocks.C130_endpoints,
   PropsBlocks.C131_length_refuted,
   PropsBlocks.C131_length_exact_partial).
Print Assumptions all_PropsBlocks.
Definition all_PropsTests :=
  (PropsTests.C132_quiet_refuted,
   PropsTests.C132_test_refuted,
   PropsTests.C132_test_partial).
Print Assumptions all_PropsTests.
Definition all_PropsFair :=
  (PropsFair.C133_writes_end,
   PropsFair.C134_calls_end_refuted,
   PropsFair.C134_transfers_end_partial,
   PropsFair.C134_monitor_calls_end_partial,
   PropsFair.C134_monitor_calls_served_partial,
   PropsFair.C135_later,
   PropsFair.C135_earlier,
   PropsFair.C136_keeps_asking,
   PropsFair.C137_beats_on,
   PropsFair.C139_willing_connects,
   PropsFair.C140_some_call_ends,
   PropsFair.C140_sole_caller,
   PropsFair.C140_some_call_served,
   PropsFair.C140_sole_caller_served,
   PropsFair.C142_all_taken).
Print Assumptions all_PropsFair.
Definition all_PropsCommand :=
  (PropsCommand.C141_distinct_refuted,
   PropsCommand.C141_same_datagram_partial,
   PropsCommand.C141_telegrams).
Print Assumptions all_PropsCommand.
Definition all_PropsPrompt :=
  (PropsPrompt.C143_in_time,
   PropsPrompt.C143_write_in_time,
   PropsPrompt.C143_alone_in_time,
   PropsPrompt.C144_beat_in_time,
   PropsPrompt.C144_client_beat_in_time,
   PropsPrompt.C145_asks_in_time,
   PropsPrompt.C145_first_at_once,
   PropsPrompt.C146_nothing_waits).
Print Assumptions all_PropsPrompt.
Definition all_PropsCount :=
  (PropsCount.C58_never_detected,
   PropsCount.C147_traffic,
   PropsCount.C147_monitor_traffic,
   PropsCount.C147_answers,
   PropsCount.C147_attempts,
   PropsCount.C147_beats,
   PropsCount.C147_calls,
   PropsCount.C148_delivery,
   PropsCount.C148_losses).
Print Assumptions all_PropsCount.
Definition all_PropsRescue :=
  (PropsRescue.C149_rescue,
   PropsRescue.C149_reconnects).
Print Assumptions all_PropsRescue.
Definition all_PropsFifo :=
  (PropsFifo.C150_in_time,
   PropsFifo.C150_writes_in_time,
   PropsFifo.C150_order_is_fair,
   PropsFifo.C150_writes_end).
Print Assumptions all_PropsFifo.
Definition all_PropsAnswer :=
  (PropsAnswer.C151_answered_at_once,
   PropsAnswer.C152_outage_ends_with_answer,
   PropsAnswer.C153_silence).
Print Assumptions all_PropsAnswer.
Definition all_PropsOld :=
  (PropsOld.C155_small_refuted,
   PropsOld.C155_negative_refuted,
   PropsOld.C155_refuted,
   PropsOld.C155_general,
   PropsOld.C155_truncates_partial).
Print Assumptions all_PropsOld.
Definition all_PropsMsg :=
  (PropsMsg.C156_same_decoders,
   PropsMsg.C156_rejected,
   PropsMsg.C156_values_partial,
   PropsMsg.C156_version_refuted,
   PropsMsg.C156_full_refuted,
   PropsMsg.C156_status,
   PropsMsg.C157_short_partial,
   PropsMsg.C157_unable,
   PropsMsg.C157_ack_refuted).
Print Assumptions all_PropsMsg.
Definition all_PropsMsg2 :=
  (PropsMsg2.C158_same_decoders,
   PropsMsg2.C158_block_partial,
   PropsMsg2.C158_head_refuted,
   PropsMsg2.C158_numbers,
   PropsMsg2.C158_search,
   PropsMsg2.C158_search_service,
   PropsMsg2.C159_same_decoders,
   PropsMsg2.C159_indication,
   PropsMsg2.C159_confirmation,
   PropsMsg2.C160_same_decoders,
   PropsMsg2.C160_reasons,
   PropsMsg2.C160_individual,
   PropsMsg2.C160_dotted,
   PropsMsg2.C160_one_level,
   PropsMsg2.C160_levels_partial,
   PropsMsg2.C160_count,
   PropsMsg2.C160_quoted_refuted,
   PropsMsg2.C160_group3_refuted,
   PropsMsg2.C161_same_decoder,
   PropsMsg2.C161_head,
   PropsMsg2.C161_infos_partial,
   PropsMsg2.C161_only,
   PropsMsg2.C161_type_refuted).
Print Assumptions all_PropsMsg2.
Definition all_PropsAnswer2 :=
  (PropsAnswer2.C162_shown_at_once,
   PropsAnswer2.C163_calls_at_once).
Print Assumptions all_PropsAnswer2.
Definition all_PropsRest :=
  (PropsRest.C08_never_refuted,
   PropsRest.C08_tail_partial,
   PropsRest.C46_clear_partial,
   PropsRest.C46_cover,
   PropsRest.C72_quiet_partial,
   PropsRest.C82_only_full_partial,
   PropsRest.C82_with_room_partial,
   PropsRest.C90_answers_partial,
   PropsRest.C90_question_first_refuted,
   PropsRest.C107_reported_partial).
Print Assumptions all_PropsRest.
Definition all_PropsMsg3 :=
  (PropsMsg3.C164_cause_partial,
   PropsMsg3.C164_solicit_partial,
   PropsMsg3.C164_solicit_refuted,
   PropsMsg3.C164_given,
   PropsMsg3.C165_field,
   PropsMsg3.C165_status,
   PropsMsg3.C165_disconnect,
   PropsMsg3.C166_same,
   PropsMsg3.C166_cause).
Print Assumptions all_PropsMsg3.
Definition all_PropsAck :=
  (PropsAck.C167_full_refuted,
   PropsAck.C167_at_once_partial,
   PropsAck.C167_full_queue).
Print Assumptions all_PropsAck.
Definition all_PropsFresh :=
  (PropsFresh.C168_fresh_refuted,
   PropsFresh.C168_fresh_partial).
Print Assumptions all_PropsFresh.
Definition all_PropsConnect :=
  (PropsConnect.C169_connected_refuted,
   PropsConnect.C169_no_device,
   PropsConnect.C169_granted,
   PropsConnect.C169_error,
   PropsConnect.C169_ok).
Print Assumptions all_PropsConnect.
Definition all_PropsOwn :=
  (PropsOwn.C170_own_answer_refuted,
   PropsOwn.C170_own_answer_partial).
Print Assumptions all_PropsOwn.
Definition all_PropsDrop :=
  (PropsDrop.C171_renewed_refuted,
   PropsDrop.C171_at_once_partial).
Print Assumptions all_PropsDrop.
Definition all_PropsQuit :=
  (PropsQuit.C172_gone_refuted,
   PropsQuit.C172_beats_on,
   PropsQuit.C172_still_there).
Print Assumptions all_PropsQuit.
Definition all_PropsBeat :=
  (PropsBeat.C144_beat_sent,
   PropsBeat.C172_beat_sent).
Print Assumptions all_PropsBeat.
Definition all_PropsConnect2 :=
  (PropsConnect2.C169_fails_at_once).
Print Assumptions all_PropsConnect2.
