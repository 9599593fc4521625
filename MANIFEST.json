{
 "claims": [
  {
   "property": "C01",
   "status": "proved",
   "theorems": [
    "C01_outgoing_numbering"
   ],
   "note": "Unconditional, over all call sequences."
  },
  {
   "property": "C02",
   "status": "proved",
   "theorems": [
    "C02_incoming_accepted",
    "C02_protocol_id_rejected"
   ],
   "note": "Acceptance characterised exactly (iff) at the level of the Update call; the corollary shows the protocol numbering being refused."
  },
  {
   "property": "C03",
   "status": "proved",
   "theorems": [
    "C03_responder_never_blocks",
    "C03_initiator_blocks",
    "C03_fourth_message_refuted"
   ],
   "note": "Responder theorem is an iff for every length; initiator theorem for every odd length >= 3; the refuted theorem runs two library instances against each other."
  },
  {
   "property": "C04",
   "status": "proved",
   "theorems": [
    "C04_no_immediate_replay",
    "C04_no_opening_replay",
    "C04_replay_refuted"
   ],
   "note": "Direct and opening replays excluded for all states; C04_replay_refuted shows a replay that is accepted."
  },
  {
   "property": "C05",
   "status": "proved",
   "theorems": [
    "C05_opening"
   ],
   "note": ""
  },
  {
   "property": "C06",
   "status": "proved",
   "theorems": [
    "C06_reply_legal",
    "C06_target_is_id"
   ],
   "note": ""
  },
  {
   "property": "C07",
   "status": "proved",
   "theorems": [
    "C07_append_only",
    "C07_error_changes_nothing"
   ],
   "note": ""
  },
  {
   "property": "C08",
   "status": "proved",
   "theorems": [
    "C08_isolation"
   ],
   "note": ""
  },
  {
   "property": "C09",
   "status": "proved",
   "theorems": [
    "C09_reply",
    "C09_reply_accepted"
   ],
   "note": ""
  },
  {
   "property": "C10",
   "status": "proved",
   "theorems": [
    "C10_last_message"
   ],
   "note": ""
  },
  {
   "property": "C11",
   "status": "proved",
   "theorems": [
    "C11_indexes_agree",
    "C11_stale_handle_refuted"
   ],
   "note": "For Reply on stored dialogues; C11_stale_handle_refuted shows the failure otherwise."
  },
  {
   "property": "C12",
   "status": "proved",
   "theorems": [
    "C12_never_overwritten"
   ],
   "note": ""
  },
  {
   "property": "C13",
   "status": "proved",
   "theorems": [
    "C13_identity_stable"
   ],
   "note": ""
  },
  {
   "property": "C14",
   "status": "proved",
   "theorems": [
    "C14_rejected_message_renames",
    "C14_other_references_lost"
   ],
   "note": ""
  },
  {
   "property": "C15",
   "status": "proved",
   "theorems": [
    "C15_failed_create",
    "C15_successful_create"
   ],
   "note": "C15_successful_create is the complementary case."
  },
  {
   "property": "C16",
   "status": "proved",
   "theorems": [
    "C16_rejected_opening_poisons"
   ],
   "note": ""
  },
  {
   "property": "C17",
   "status": "proved",
   "theorems": [
    "C17_partition",
    "C17_terminal_message",
    "C17_only_terminal_messages",
    "C17_terminal_forever_refuted"
   ],
   "note": "C17_terminal_forever_refuted: a kept terminal dialogue can become active again."
  },
  {
   "property": "C18",
   "status": "proved",
   "theorems": [
    "C18_no_crash",
    "C18_gap_crashes",
    "C18_reply_crash_refuted",
    "C18_least_target_refuted"
   ],
   "note": "C18_gap_crashes and the two refuted theorems show the crashes outside the hypotheses."
  },
  {
   "property": "C19",
   "status": "proved",
   "theorems": [
    "C19_string_form",
    "C19_parse_exact"
   ],
   "note": ""
  },
  {
   "property": "C20",
   "status": "proved",
   "theorems": [
    "C20_json_form",
    "C20_quote_refuted",
    "C20_exact"
   ],
   "note": ""
  },
  {
   "property": "C21",
   "status": "proved",
   "theorems": [
    "C21_survives",
    "C21_unchanged",
    "C21_only_bad_text_fails",
    "C21_large_id_refuted"
   ],
   "note": ""
  },
  {
   "property": "C22",
   "status": "proved",
   "theorems": [
    "C22_no_crash",
    "C22_no_dialogue_message",
    "C22_inside",
    "C22_accepted"
   ],
   "note": ""
  },
  {
   "property": "C23",
   "status": "proved",
   "theorems": [
    "C23_envelope",
    "C23_record",
    "C23_acn"
   ],
   "note": ""
  },
  {
   "property": "C24",
   "status": "proved",
   "theorems": [
    "C24_transparent",
    "C24_separate",
    "C24_sound",
    "C24_following_lost_refuted"
   ],
   "note": ""
  },
  {
   "property": "C25",
   "status": "proved",
   "theorems": [
    "C25_body",
    "C25_split_header"
   ],
   "note": ""
  },
  {
   "property": "C26",
   "status": "proved",
   "theorems": [
    "C26_writers",
    "C26_empty",
    "C26_limit",
    "C26_sent_but_refused",
    "C26_agent_large"
   ],
   "note": ""
  },
  {
   "property": "C27",
   "status": "proved",
   "theorems": [
    "C27_reload",
    "C27_saving",
    "C27_load",
    "C27_no_panic"
   ],
   "note": ""
  },
  {
   "property": "C28",
   "status": "proved",
   "theorems": [
    "C28_crash",
    "C28_later_saves_lost_refuted"
   ],
   "note": ""
  },
  {
   "property": "C29",
   "status": "proved",
   "theorems": [
    "C29_accepted",
    "C29_refused"
   ],
   "note": ""
  },
  {
   "property": "C30",
   "status": "proved",
   "theorems": [
    "C30_crash",
    "C30_no_record",
    "C30_crash_reachable"
   ],
   "note": ""
  },
  {
   "property": "C31",
   "status": "proved",
   "theorems": [
    "C31_crash",
    "C31_two_bytes",
    "C31_answered",
    "C31_other_readers",
    "C31_first_frame",
    "C31_later_frame",
    "C31_six_bytes",
    "C31_registration"
   ],
   "note": ""
  },
  {
   "property": "C32",
   "status": "proved",
   "theorems": [
    "C32_registration",
    "C32_lookup",
    "C32_envelope",
    "C32_fits"
   ],
   "note": ""
  },
  {
   "property": "C33",
   "status": "proved",
   "theorems": [
    "C33_attribution",
    "C33_fifo",
    "C33_no_timeout",
    "C33_own_status_refuted"
   ],
   "note": ""
  },
  {
   "property": "C34",
   "status": "proved",
   "theorems": [
    "C34_fifo",
    "C34_closed",
    "C34_put",
    "C34_get",
    "C34_register",
    "C34_accepted_is_kept_refuted"
   ],
   "note": ""
  },
  {
   "property": "C35",
   "status": "proved",
   "theorems": [
    "C35_session",
    "C35_addressed",
    "C35_records",
    "C35_no_session",
    "C35_live",
    "C35_mailbox_survives_refuted"
   ],
   "note": ""
  },
  {
   "property": "C36",
   "status": "proved",
   "theorems": [
    "C36_any_sender",
    "C36_routed",
    "C36_sender_is_session_refuted"
   ],
   "note": ""
  },
  {
   "property": "C37",
   "status": "proved",
   "theorems": [
    "C37_attribution",
    "C37_records"
   ],
   "note": ""
  },
  {
   "property": "C38",
   "status": "proved",
   "theorems": [
    "C38_order",
    "C38_complete",
    "C38_dropped",
    "C38_two_connections_refuted"
   ],
   "note": ""
  },
  {
   "property": "C39",
   "status": "proved",
   "theorems": [
    "C39_connected",
    "C39_never_stuck",
    "C39_reconnect_refuted",
    "C39_reconnect_hangs_refuted",
    "C39_stuck_for_ever",
    "C39_failed_announcement_refuted"
   ],
   "note": ""
  },
  {
   "property": "C40",
   "status": "proved",
   "theorems": [
    "C40_refused",
    "C40_one_place",
    "C40_route",
    "C40_frame",
    "C40_at_most_once_refuted"
   ],
   "note": ""
  },
  {
   "property": "C41",
   "status": "proved",
   "theorems": [
    "C41_gauge",
    "C41_slow",
    "C41_success"
   ],
   "note": ""
  },
  {
   "property": "C42",
   "status": "proved",
   "theorems": [
    "C42_accepted",
    "C42_any_sender",
    "C42_sender_is_proved_refuted",
    "C42_crash"
   ],
   "note": ""
  },
  {
   "property": "C43",
   "status": "proved",
   "theorems": [
    "C43_client",
    "C43_success",
    "C43_stream",
    "C43_agent_failed_refuted"
   ],
   "note": ""
  },
  {
   "property": "C44",
   "status": "proved",
   "theorems": [
    "C44_client",
    "C44_source",
    "C44_valid",
    "C44_stream",
    "C44_answered",
    "C44_kept",
    "C44_file"
   ],
   "note": ""
  },
  {
   "property": "C45",
   "status": "proved",
   "theorems": [
    "C45_found",
    "C45_sound",
    "C45_none",
    "C45_crash",
    "C45_deadline"
   ],
   "note": ""
  },
  {
   "property": "C46",
   "status": "proved",
   "theorems": [
    "C46_marked",
    "C46_sticky",
    "C46_once",
    "C46_represented",
    "C46_isolated",
    "C46_once_refuted"
   ],
   "note": ""
  },
  {
   "property": "C47",
   "status": "proved",
   "theorems": [
    "C47_success",
    "C47_twice",
    "C47_sent",
    "C47_refused",
    "C47_crash",
    "C47_own_once_refuted"
   ],
   "note": ""
  },
  {
   "property": "C48",
   "status": "proved",
   "theorems": [
    "C48_returns",
    "C48_never",
    "C48_stream",
    "C48_reconnect"
   ],
   "note": ""
  },
  {
   "property": "C49",
   "status": "proved",
   "theorems": [
    "C49_success",
    "C49_effects",
    "C49_errors"
   ],
   "note": ""
  },
  {
   "property": "C50",
   "status": "proved",
   "theorems": [
    "C50_backoff",
    "C50_grows",
    "C50_any_delay_refuted",
    "C50_combine",
    "C50_random"
   ],
   "note": ""
  },
  {
   "property": "C51",
   "status": "proved",
   "theorems": [
    "C51_text_form",
    "C51_der_form",
    "C51_fixed_width",
    "C51_survives_refuted"
   ],
   "note": ""
  },
  {
   "property": "C52",
   "status": "proved",
   "theorems": [
    "C52_checksum",
    "C52_injective"
   ],
   "note": ""
  },
  {
   "property": "C53",
   "status": "proved",
   "theorems": [
    "C53_counts",
    "C53_ascending",
    "C53_nan"
   ],
   "note": ""
  },
  {
   "property": "C54",
   "status": "proved",
   "theorems": [
    "C54_port",
    "C54_port_malformed",
    "C54_uri",
    "C54_uri_total",
    "C54_init",
    "C54_config",
    "C54_round_trip"
   ],
   "note": ""
  },
  {
   "property": "C55",
   "status": "proved",
   "theorems": [
    "C55_sets",
    "C55_no_set_missing"
   ],
   "note": ""
  },
  {
   "property": "C56",
   "status": "proved",
   "theorems": [
    "C56_opening_accepted"
   ],
   "note": ""
  },
  {
   "property": "C57",
   "status": "proved",
   "theorems": [
    "C57_unknown_fields"
   ],
   "note": ""
  },
  {
   "property": "C58",
   "status": "proved",
   "theorems": [
    "C58_ledgers_disjoint",
    "C58_same_address",
    "C58_shape"
   ],
   "note": ""
  },
  {
   "property": "C59",
   "status": "proved",
   "theorems": [
    "C59_disconnect_crash",
    "C59_only_closing"
   ],
   "note": ""
  },
  {
   "property": "C60",
   "status": "proved",
   "theorems": [
    "C60_foreign_sender",
    "C60_silent",
    "C60_acknowledged"
   ],
   "note": ""
  },
  {
   "property": "C61",
   "status": "proved",
   "theorems": [
    "C61_order",
    "C61_own",
    "C61_broken",
    "C61_spins",
    "C61_crash",
    "C61_disconnect_refuted"
   ],
   "note": ""
  },
  {
   "property": "C62",
   "status": "proved",
   "theorems": [
    "C62_pinned",
    "C62_session_key_refuted",
    "C62_crash"
   ],
   "note": ""
  },
  {
   "property": "C63",
   "status": "proved",
   "theorems": [
    "C63_routed",
    "C63_sent",
    "C63_crash",
    "C63_safe",
    "C63_pipe_error",
    "C63_no_record",
    "C63_standalone"
   ],
   "note": ""
  },
  {
   "property": "C64",
   "status": "proved",
   "theorems": [
    "C64_stat",
    "C64_unknown",
    "C64_no_write",
    "C64_once",
    "C64_turn"
   ],
   "note": ""
  },
  {
   "property": "C65",
   "status": "proved",
   "theorems": [
    "C65_sequential",
    "C65_any",
    "C65_once_refuted",
    "C65_restart_refuted"
   ],
   "note": ""
  },
  {
   "property": "C66",
   "status": "proved",
   "theorems": [
    "C66_mode",
    "C66_public_refuted",
    "C66_peer",
    "C66_delay",
    "C66_record_refuted"
   ],
   "note": ""
  },
  {
   "property": "C67",
   "status": "proved",
   "theorems": [
    "C67_started",
    "C67_accepted",
    "C67_refused"
   ],
   "note": ""
  },
  {
   "property": "C68",
   "status": "proved",
   "theorems": [
    "C68_bootstrap",
    "C68_join",
    "C68_crash",
    "C68_one_suffices_refuted"
   ],
   "note": ""
  },
  {
   "property": "C69",
   "status": "proved",
   "theorems": [
    "C69_crash",
    "C69_quiet",
    "C69_kept",
    "C69_slow_lost",
    "C69_drained",
    "C69_close_ends",
    "C69_handler_refuted",
    "C69_call_refuted",
    "C69_replaced_refuted",
    "C69_cleanup_refuted",
    "C69_twice_refuted"
   ],
   "note": ""
  },
  {
   "property": "C70",
   "status": "proved",
   "theorems": [
    "C70_first_hop",
    "C70_last_hop",
    "C70_one_node",
    "C70_two_nodes",
    "C70_size_refuted"
   ],
   "note": ""
  },
  {
   "property": "C71",
   "status": "proved",
   "theorems": [
    "C71_settings",
    "C71_ends",
    "C71_result",
    "C71_leak",
    "C71_crash",
    "C71_order",
    "C71_announced_first",
    "C71_tables",
    "C71_dates_refuted",
    "C71_early_refuted",
    "C71_unannounced_refuted"
   ],
   "note": ""
  },
  {
   "property": "C72",
   "status": "proved",
   "theorems": [
    "C72_rewritable",
    "C72_answer",
    "C72_served",
    "C72_found",
    "C72_lookup",
    "C72_reach",
    "C72_reconnect_refuted",
    "C72_abandoned_refuted"
   ],
   "note": ""
  },
  {
   "property": "C73",
   "status": "proved",
   "theorems": [
    "C73_strict",
    "C73_lenient",
    "C73_lenient_more",
    "C73_round_trip",
    "C73_id",
    "C73_uncompressed",
    "C73_record",
    "C73_agent",
    "C73_pair",
    "C73_public",
    "C73_wallet",
    "C73_prefixed",
    "C73_ethereum",
    "C73_capitals_refuted",
    "C73_garbage_refuted"
   ],
   "note": ""
  },
  {
   "property": "C74",
   "status": "proved",
   "theorems": [
    "C74_signed",
    "C74_record",
    "C74_der",
    "C74_stricter",
    "C74_fixed_width",
    "C74_accepted_refuted",
    "C74_agree_refuted"
   ],
   "note": ""
  },
  {
   "property": "C75",
   "status": "proved",
   "theorems": [
    "C75_settings",
    "C75_result",
    "C75_hangs",
    "C75_leak",
    "C75_crash",
    "C75_close",
    "C75_ready_refuted"
   ],
   "note": ""
  },
  {
   "property": "C76",
   "status": "proved",
   "theorems": [
    "C76_serve",
    "C76_serve_total",
    "C76_meets",
    "C76_restart",
    "C76_runs",
    "C76_registered",
    "C76_written",
    "C76_forgotten",
    "C76_started",
    "C76_forgotten_refuted"
   ],
   "note": ""
  },
  {
   "property": "C77",
   "status": "proved",
   "theorems": [
    "C77_order",
    "C77_ready",
    "C77_blocked",
    "C77_served",
    "C77_ends",
    "C77_last",
    "C77_stops",
    "C77_late_refuted",
    "C77_spin_refuted",
    "C77_left_refuted",
    "C77_greeting"
   ],
   "note": ""
  },
  {
   "property": "C78",
   "status": "proved",
   "theorems": [
    "C78_read",
    "C78_content",
    "C78_crash",
    "C78_answers",
    "C78_exchange",
    "C78_complete",
    "C78_underscore",
    "C78_crash_refuted",
    "C78_end_refuted",
    "C78_w_inform_refuted"
   ],
   "note": ""
  },
  {
   "property": "C79",
   "status": "proved",
   "theorems": [
    "C79_setup",
    "C79_crash",
    "C79_found",
    "C79_serving",
    "C79_once",
    "C79_page",
    "C79_again_refuted",
    "C79_close_refuted"
   ],
   "note": ""
  },
  {
   "property": "C80",
   "status": "proved",
   "theorems": [
    "C80_crash",
    "C80_exclusion",
    "C80_doomed",
    "C80_requests",
    "C80_listening",
    "C80_survives_refuted",
    "C80_exclusion_refuted"
   ],
   "note": ""
  },
  {
   "property": "C81",
   "status": "proved",
   "theorems": [
    "C81_exclusion",
    "C81_held",
    "C81_progress",
    "C81_mailbox",
    "C81_finish",
    "C81_client_refuted",
    "C81_announcing_refuted"
   ],
   "note": ""
  },
  {
   "property": "C82",
   "status": "proved",
   "theorems": [
    "C82_safe",
    "C82_peril",
    "C82_waits",
    "C82_back",
    "C82_flag",
    "C82_wakes",
    "C82_survives_refuted"
   ],
   "note": ""
  },
  {
   "property": "C83",
   "status": "proved",
   "theorems": [
    "C83_connected",
    "C83_stop",
    "C83_once",
    "C83_spins",
    "C83_again",
    "C83_get",
    "C83_crash",
    "C83_unreached",
    "C83_said",
    "C83_order",
    "C83_stop_refuted"
   ],
   "note": ""
  },
  {
   "property": "C84",
   "status": "proved",
   "theorems": [
    "C84_found",
    "C84_sound",
    "C84_crash",
    "C84_ranked",
    "C84_loop",
    "C84_order",
    "C84_found_refuted"
   ],
   "note": ""
  },
  {
   "property": "C85",
   "status": "proved",
   "theorems": [
    "C85_crash",
    "C85_running",
    "C85_exposed",
    "C85_nodes",
    "C85_refuted"
   ],
   "note": ""
  },
  {
   "property": "C86",
   "status": "proved",
   "theorems": [
    "C86_connected",
    "C86_boxed",
    "C86_here",
    "C86_never_relayed",
    "C86_relay_newest",
    "C86_delegate_newest",
    "C86_restarted",
    "C86_agree",
    "C86_sender",
    "C86_refuted"
   ],
   "note": ""
  },
  {
   "property": "C87",
   "status": "proved",
   "theorems": [
    "C87_fifo",
    "C87_kept",
    "C87_twice",
    "C87_once",
    "C87_order",
    "C87_wait",
    "C87_stuck",
    "C87_room",
    "C87_blocked",
    "C87_progress",
    "C87_refuted"
   ],
   "note": ""
  },
  {
   "property": "C88",
   "status": "proved",
   "theorems": [
    "C88_gauge",
    "C88_all",
    "C88_relays",
    "C88_lowered",
    "C88_negative",
    "C88_stuck",
    "C88_table_refuted"
   ],
   "note": ""
  },
  {
   "property": "C89",
   "status": "proved",
   "theorems": [
    "C89_kept",
    "C89_made",
    "C89_once",
    "C89_more"
   ],
   "note": ""
  },
  {
   "property": "C90",
   "status": "proved",
   "theorems": [
    "C90_text",
    "C90_written_when",
    "C90_written",
    "C90_fields",
    "C90_read",
    "C90_acn_read",
    "C90_message_read"
   ],
   "note": ""
  },
  {
   "property": "C91",
   "status": "proved",
   "theorems": [
    "C91_read"
   ],
   "note": ""
  },
  {
   "property": "C92",
   "status": "proved",
   "theorems": [
    "C92_read",
    "C92_texts",
    "C92_written",
    "C92_read_back",
    "C92_record_texts",
    "C92_record_newlines",
    "C92_unique_refuted",
    "C92_signed",
    "C92_fixed_width"
   ],
   "note": ""
  },
  {
   "property": "C93",
   "status": "proved",
   "theorems": [
    "C93_read",
    "C93_record",
    "C93_same_pair",
    "C93_zeros",
    "C93_padded",
    "C93_room_refuted"
   ],
   "note": ""
  },
  {
   "property": "C94",
   "status": "proved",
   "theorems": [
    "C94_complete",
    "C94_agreement",
    "C94_prefix_refuted",
    "C94_reference",
    "C94_reference_refuted"
   ],
   "note": ""
  },
  {
   "property": "C95",
   "status": "proved",
   "theorems": [
    "C95_address",
    "C95_distance",
    "C95_ethereum",
    "C95_mistyped",
    "C95_six_refuted"
   ],
   "note": ""
  },
  {
   "property": "C96",
   "status": "proved",
   "theorems": [
    "C96_accepted",
    "C96_empty_opened",
    "C96_opened_mute",
    "C96_unknown",
    "C96_refused"
   ],
   "note": ""
  },
  {
   "property": "C97",
   "status": "proved",
   "theorems": [
    "C97_with_message_refused",
    "C97_with_message_created",
    "C97_create_fails",
    "C97_message_used_up",
    "C97_with_oneself"
   ],
   "note": ""
  }
 ]
}