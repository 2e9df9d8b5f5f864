{
 "claims": [
  {
   "property": "C01",
   "status": "proved",
   "theorems": [
    "C01_record_round_trip",
    "C01_normal_unchanged"
   ],
   "note": "normal_value spells out the normalisation; times must fit int64 microseconds (C10 treats the rest)."
  },
  {
   "property": "C02",
   "status": "proved",
   "theorems": [
    "C02_reencode"
   ],
   "note": ""
  },
  {
   "property": "C03",
   "status": "proved",
   "theorems": [
    "C03_encode_iff",
    "C03_encode_rejects"
   ],
   "note": ""
  },
  {
   "property": "C04",
   "status": "proved",
   "theorems": [
    "C04_decode_panic_iff",
    "C04_no_nil_no_panic",
    "C04_decode_total_refuted"
   ],
   "note": "Exact characterisation of the panicking inputs; C04_decode_total_refuted shows the unrestricted claim is false of the code."
  },
  {
   "property": "C05",
   "status": "proved",
   "theorems": [
    "C05_decode_strict",
    "C05_decode_type_code",
    "C05_decode_nil_set",
    "C05_decode_blind"
   ],
   "note": ""
  },
  {
   "property": "C06",
   "status": "proved",
   "theorems": [
    "C06_encode_exact",
    "C06_encode_shape"
   ],
   "note": ""
  },
  {
   "property": "C07",
   "status": "proved",
   "theorems": [
    "C07_registered_history",
    "C07_one_to_one",
    "C07_tables_agree",
    "C07_distinct_codepoints",
    "C07_monotone",
    "C07_failed_call_no_effect"
   ],
   "note": ""
  },
  {
   "property": "C08",
   "status": "proved",
   "theorems": [
    "C08_register_iff"
   ],
   "note": ""
  },
  {
   "property": "C09",
   "status": "proved",
   "theorems": [
    "C09_init_does_not_panic",
    "C09_builtin_types",
    "C09_shared_codepoints",
    "C09_builtin_round_trip"
   ],
   "note": ""
  },
  {
   "property": "C10",
   "status": "proved",
   "theorems": [
    "C10_time_round_trip",
    "C10_time_encode_iff",
    "C10_time_encode_other",
    "C10_time_decode_iff",
    "C10_far_future_refuted"
   ],
   "note": "Exact characterisation; C10_far_future_refuted shows that without the int64 bound a time is sent as a wrong time."
  },
  {
   "property": "C11",
   "status": "proved",
   "theorems": [
    "C11_beacon_round_trip",
    "C11_heartbeat_round_trip",
    "C11_flush_round_trip"
   ],
   "note": ""
  },
  {
   "property": "C12",
   "status": "proved",
   "theorems": [
    "C12_decode_beacon",
    "C12_decode_heartbeat",
    "C12_decode_flush",
    "C12_decode_rejects",
    "C12_decode_kind",
    "C12_decode_no_panic"
   ],
   "note": ""
  },
  {
   "property": "C13",
   "status": "proved",
   "theorems": [
    "C13_record_msg_round_trip",
    "C13_encode_iff",
    "C13_nil_record_rejected"
   ],
   "note": ""
  },
  {
   "property": "C14",
   "status": "proved",
   "theorems": [
    "C14_decode_prefix"
   ],
   "note": ""
  },
  {
   "property": "C15",
   "status": "proved",
   "theorems": [
    "C15_store_is_a_map"
   ],
   "note": ""
  },
  {
   "property": "C16",
   "status": "proved",
   "theorems": [
    "C16_add_iff_absent"
   ],
   "note": ""
  },
  {
   "property": "C17",
   "status": "proved",
   "theorems": [
    "C17_if_match",
    "C17_unparseable_rejected",
    "C17_refuted_after_delete"
   ],
   "note": "C17_refuted_after_delete: the unrestricted claim is false of the code, as the statement says. C17_if_match, C17_unparseable_rejected: what holds for all runs."
  },
  {
   "property": "C18",
   "status": "proved",
   "theorems": [
    "C18_etag_round_trip",
    "C18_continue_round_trip",
    "C18_continue_wraps",
    "C18_refuted_large_offset",
    "C18_etag_accepted_iff",
    "C18_continue_accepted_iff"
   ],
   "note": "C18_refuted_large_offset: the unrestricted claim is false of the code, as the statement says. C18_etag_round_trip, C18_continue_round_trip, C18_continue_wraps, C18_etag_accepted_iff, C18_continue_accepted_iff: what holds for all runs."
  },
  {
   "property": "C19",
   "status": "proved",
   "theorems": [
    "C19_failure_changes_nothing"
   ],
   "note": ""
  },
  {
   "property": "C20",
   "status": "proved",
   "theorems": [
    "C20_index_exact",
    "C20_unknown_index"
   ],
   "note": ""
  },
  {
   "property": "C21",
   "status": "proved",
   "theorems": [
    "C21_index_values_exact"
   ],
   "note": ""
  },
  {
   "property": "C22",
   "status": "proved",
   "theorems": [
    "C22_list_ordered",
    "C22_order_exists",
    "C22_index_ordered",
    "C22_list_complete",
    "C22_ascending_sorted",
    "C22_default_keys_distinct"
   ],
   "note": ""
  },
  {
   "property": "C23",
   "status": "proved",
   "theorems": [
    "C23_paging_enumerates"
   ],
   "note": ""
  },
  {
   "property": "C24",
   "status": "proved",
   "theorems": [
    "C24_list_crash_iff",
    "C24_index_crash_iff",
    "C24_refuted"
   ],
   "note": "C24_refuted: the unrestricted claim is false of the code, as the statement says. C24_list_crash_iff, C24_index_crash_iff: what holds for all runs."
  },
  {
   "property": "C25",
   "status": "proved",
   "theorems": [
    "C25_replace_exact"
   ],
   "note": ""
  },
  {
   "property": "C26",
   "status": "proved",
   "theorems": [
    "C26_events_describe",
    "C26_events_replay",
    "C26_events_replay_by_id",
    "C26_refuted_replace",
    "C26_refuted_failing_accumulate"
   ],
   "note": "C26_refuted_replace, C26_refuted_failing_accumulate: the unrestricted claim is false of the code, as the statement says. C26_events_describe, C26_events_replay, C26_events_replay_by_id: what holds for all runs."
  },
  {
   "property": "C27",
   "status": "proved",
   "theorems": [
    "C27_accumulate_merges",
    "C27_later_values_win"
   ],
   "note": ""
  },
  {
   "property": "C28",
   "status": "proved",
   "theorems": [
    "C28_no_change_is_silent",
    "C28_change_is_reported",
    "C28_repeat_is_noop"
   ],
   "note": ""
  },
  {
   "property": "C29",
   "status": "proved",
   "theorems": [
    "C29_stale_value_stays",
    "C29_refuted"
   ],
   "note": "C29_refuted: the unrestricted claim is false of the code, as the statement says. C29_stale_value_stays: what holds for all runs."
  },
  {
   "property": "C30",
   "status": "proved",
   "theorems": [
    "C30_types_consistent",
    "C30_refuted",
    "C30_accumulate_never_crashes"
   ],
   "note": "C30_refuted: the unrestricted claim is false of the code, as the statement says. C30_types_consistent, C30_accumulate_never_crashes: what holds for all runs."
  },
  {
   "property": "C31",
   "status": "proved",
   "theorems": [
    "C31_last_write"
   ],
   "note": ""
  },
  {
   "property": "C32",
   "status": "proved",
   "theorems": [
    "C32_linearizable",
    "C32_effects_once",
    "C32_program_order",
    "C32_plain_map",
    "C32_state",
    "C32_no_deadlock"
   ],
   "note": ""
  },
  {
   "property": "C33",
   "status": "proved",
   "theorems": [
    "C33_order_refuted",
    "C33_exactly_once",
    "C33_one_writer"
   ],
   "note": "C33_order_refuted: the unrestricted claim is false of the code, as the statement says. C33_exactly_once, C33_one_writer: what holds for all runs."
  },
  {
   "property": "C34",
   "status": "proved",
   "theorems": [
    "C34_source_index_exact",
    "C34_dot_free_sources",
    "C34_refuted"
   ],
   "note": "C34_refuted: the unrestricted claim is false of the code, as the statement says. C34_source_index_exact, C34_dot_free_sources: what holds for all runs."
  },
  {
   "property": "C35",
   "status": "proved",
   "theorems": [
    "C35_routing",
    "C35_completes",
    "C35_panic",
    "C35_types_apart"
   ],
   "note": ""
  },
  {
   "property": "C36",
   "status": "proved",
   "theorems": [
    "C36_snapshot",
    "C36_dispatches",
    "C36_completes"
   ],
   "note": ""
  },
  {
   "property": "C37",
   "status": "proved",
   "theorems": [
    "C37_silent",
    "C37_delta"
   ],
   "note": ""
  },
  {
   "property": "C38",
   "status": "proved",
   "theorems": [
    "C38_in_order"
   ],
   "note": "The environment (map order, clock) used to diff each update is existential; C37 says what the diff is."
  },
  {
   "property": "C39",
   "status": "proved",
   "theorems": [
    "C39_refuted",
    "C39_in_order",
    "C39_encodable"
   ],
   "note": "C39_refuted: the claim as first stated is false of the code. C39_in_order/C39_encodable: exact account of what is sent."
  },
  {
   "property": "C40",
   "status": "proved",
   "theorems": [
    "C40_complete"
   ],
   "note": ""
  },
  {
   "property": "C41",
   "status": "proved",
   "theorems": [
    "C41_refuted",
    "C41_kept"
   ],
   "note": "C41_refuted: the claim is false of the code. C41_kept: it holds when no smaller key is removed during the pass."
  },
  {
   "property": "C42",
   "status": "proved",
   "theorems": [
    "C42_pending",
    "C42_served"
   ],
   "note": "Safety part; C74_rests gives progress."
  },
  {
   "property": "C43",
   "status": "proved",
   "theorems": [
    "C43_refuted",
    "C43_bounded"
   ],
   "note": "C43_refuted: the claim is false of the code. C43_bounded: passes are bounded by messages plus receive errors."
  },
  {
   "property": "C44",
   "status": "proved",
   "theorems": [
    "C44_beacon_first",
    "C44_contents",
    "C44_pace",
    "C44_defaults",
    "C44_configured",
    "C44_goes_on"
   ],
   "note": ""
  },
  {
   "property": "C45",
   "status": "proved",
   "theorems": [
    "C45_refuted",
    "C45_spins_refuted",
    "C45_stops"
   ],
   "note": "C45_refuted/C45_spins_refuted: false before the first beacon was delivered. C45_stops: true afterwards."
  },
  {
   "property": "C46",
   "status": "proved",
   "theorems": [
    "C46_refuted",
    "C46_never_seen"
   ],
   "note": "C46_refuted: false of the code for every configuration and time; C46_never_seen: consequence for the heartbeat allowance."
  },
  {
   "property": "C47",
   "status": "proved",
   "theorems": [
    "C47_converges",
    "C47_exact",
    "C47_deliverable"
   ],
   "note": ""
  },
  {
   "property": "C48",
   "status": "proved",
   "theorems": [
    "C48_delivery",
    "C48_addresses",
    "C48_goes_on"
   ],
   "note": ""
  },
  {
   "property": "C49",
   "status": "proved",
   "theorems": [
    "C49_silent"
   ],
   "note": ""
  },
  {
   "property": "C50",
   "status": "proved",
   "theorems": [
    "C50_deadlock",
    "C50_refuted",
    "C50_returns"
   ],
   "note": "C50_refuted: false of the code. C50_deadlock: exactly when it cannot return; C50_returns: it returns otherwise, once receivers fail with the context's error."
  },
  {
   "property": "C51",
   "status": "proved",
   "theorems": [
    "C51_second_close_panics",
    "C51_first_close",
    "C51_refuted"
   ],
   "note": "C51_refuted/C51_second_close_panics: false of the code for every client. C51_first_close: the first call does not panic."
  },
  {
   "property": "C52",
   "status": "proved",
   "theorems": [
    "C52_at_most_one",
    "C52_after_message",
    "C52_cancelled",
    "C52_flushes",
    "C52_returns",
    "C52_harmless"
   ],
   "note": ""
  },
  {
   "property": "C53",
   "status": "proved",
   "theorems": [
    "C53_map",
    "C53_answers"
   ],
   "note": "known/answers spell out a map of identities; one Run, users, handlers and watches interleave at lock granularity."
  },
  {
   "property": "C54",
   "status": "proved",
   "theorems": [
    "C54_balance",
    "C54_fifo"
   ],
   "note": "C54_fifo: delivered ++ waiting = issued, per kind."
  },
  {
   "property": "C55",
   "status": "proved",
   "theorems": [
    "C55_refuted",
    "C55_in_order"
   ],
   "note": "C55_refuted: the claim is false of the code. C55_in_order: it holds when no forgetting is taken while a discovery of the same source waits."
  },
  {
   "property": "C56",
   "status": "proved",
   "theorems": [
    "C56_details",
    "C56_last_seen",
    "C56_future_refuted"
   ],
   "note": "C56_future_refuted: without the condition on added sources last-seen moves back."
  },
  {
   "property": "C57",
   "status": "proved",
   "theorems": [
    "C57_forever",
    "C57_refuted",
    "C57_after_cancel_refuted",
    "C57_progress"
   ],
   "note": "C57_refuted/C57_after_cancel_refuted: false of the code. C57_forever: nothing resolves it. C57_progress: no deadlock when handlers do not call back and Run goes on."
  },
  {
   "property": "C58",
   "status": "proved",
   "theorems": [
    "C58_refuted",
    "C58_only",
    "C58_others"
   ],
   "note": "C58_refuted: false of the code. C58_only/C58_others: exactly such messages stop it."
  },
  {
   "property": "C59",
   "status": "proved",
   "theorems": [
    "C59_silence",
    "C59_timeout",
    "C59_decides_first",
    "C59_silent_forgets",
    "C59_zero",
    "C59_never_hangs",
    "C59_ends",
    "C59_updates",
    "C59_resets",
    "C59_forgets",
    "C59_race_refuted"
   ],
   "note": "C59_race_refuted: without the order of stores the claim fails. Time is one number per step; the decision, not the later lock acquisition of Forget, is what is timed."
  },
  {
   "property": "C60",
   "status": "proved",
   "theorems": [
    "C60_own_identity",
    "C60_calls",
    "C60_known",
    "C60_refuted"
   ],
   "note": "C60_refuted: the claim is false of the code. C60_own_identity/C60_calls: what does hold."
  },
  {
   "property": "C61",
   "status": "proved",
   "theorems": [
    "C61_generations",
    "C61_ended_for_its_own_report",
    "C61_older_reports_ignored",
    "C61_closed_after_its_end",
    "C61_new_after_end",
    "C61_ended_for_its_own_error",
    "C61_refuted"
   ],
   "note": "C61_refuted: an error of the old session ends the new one when two goroutines share a link. The other theorems hold for every schedule, C61_ended_for_its_own_error for links used by one goroutine each, as in the packages of this repository."
  },
  {
   "property": "C62",
   "status": "proved",
   "theorems": [
    "C62_on_its_session",
    "C62_forward",
    "C62_refuted"
   ],
   "note": "C62_refuted: with two goroutines a link goes back to the old session. C62_on_its_session holds for every schedule."
  },
  {
   "property": "C63",
   "status": "proved",
   "theorems": [
    "C63_once",
    "C63_for_its_own_error",
    "C63_refuted"
   ],
   "note": "C63_refuted: two goroutines report one session twice."
  },
  {
   "property": "C64",
   "status": "proved",
   "theorems": [
    "C64_refused",
    "C64_fail_fast",
    "C64_next_needs_context",
    "C64_refuted"
   ],
   "note": "C64_refuted: Next on a closed link looks again for ever (each look leads to the same state)."
  },
  {
   "property": "C65",
   "status": "proved",
   "theorems": [
    "C65_refuted",
    "C65_revived_refuted",
    "C65_alone"
   ],
   "note": "C65_refuted/C65_revived_refuted: false of the code. C65_alone: what holds when Close is not concurrent with other calls."
  },
  {
   "property": "C66",
   "status": "proved",
   "theorems": [
    "C66_exact",
    "C66_refuted"
   ],
   "note": "C66_refuted: every positive credit is replaced by zero. C66_exact: the values that are used as asked for."
  },
  {
   "property": "C67",
   "status": "proved",
   "theorems": [
    "C67_refuted",
    "C67_bounded",
    "C67_ends_or_blocked"
   ],
   "note": "C67_refuted: a call whose context ended never returns. C67_bounded/C67_ends_or_blocked: only the three named blockages can delay it."
  },
  {
   "property": "C68",
   "status": "proved",
   "theorems": [
    "C68_fifo",
    "C68_available",
    "C68_handed_over",
    "C68_reaches_all",
    "C68_failed",
    "C68_same_order",
    "C68_waits",
    "C68_wakes",
    "C68_progress",
    "C68_after_close",
    "C68_closed_sender",
    "C68_next_error"
   ],
   "note": ""
  },
  {
   "property": "C69",
   "status": "proved",
   "theorems": [
    "C69_refuted",
    "C69_reached"
   ],
   "note": "C69_refuted: false of the code. C69_reached: what success does mean."
  },
  {
   "property": "C70",
   "status": "proved",
   "theorems": [
    "C70_refuted",
    "C70_untyped",
    "C70_collision_refuted",
    "C70_by_type"
   ],
   "note": "C70_refuted, C70_collision_refuted: the unrestricted claim is false of the code, as the statement says. C70_untyped, C70_by_type: what holds for all runs."
  },
  {
   "property": "C71",
   "status": "proved",
   "theorems": [
    "C71_groups",
    "C71_unique",
    "C71_lookup",
    "C71_stores"
   ],
   "note": ""
  },
  {
   "property": "C72",
   "status": "proved",
   "theorems": [
    "C72_refuted",
    "C72_resolved"
   ],
   "note": "C72_refuted: the unrestricted claim is false of the code, as the statement says. C72_resolved: what holds for all runs."
  },
  {
   "property": "C73",
   "status": "proved",
   "theorems": [
    "C73_refuted",
    "C73_write_shows",
    "C73_index_is_frozen",
    "C73_deleted_entry_stays_indexed",
    "C73_harmless_writes",
    "C73_unshared_maps",
    "C73_same_site"
   ],
   "note": "C73_refuted: the unrestricted claim is false of the code, as the statement says. C73_write_shows, C73_index_is_frozen, C73_deleted_entry_stays_indexed, C73_harmless_writes, C73_unshared_maps, C73_same_site: what holds for all runs."
  },
  {
   "property": "C74",
   "status": "proved",
   "theorems": [
    "C74_rests",
    "C74_no_crash"
   ],
   "note": ""
  },
  {
   "property": "C75",
   "status": "proved",
   "theorems": [
    "C75_stuck",
    "C75_otherwise"
   ],
   "note": "C75_stuck: the claim is false of the code; once a handler calls the container nothing happens any more, whatever the schedule. C75_otherwise: what holds if none does."
  },
  {
   "property": "C76",
   "status": "proved",
   "theorems": [
    "C76_stopped",
    "C76_running",
    "C76_refuted"
   ],
   "note": "C76_refuted: false of the code. C76_stopped counts exactly what stays open."
  },
  {
   "property": "C77",
   "status": "proved",
   "theorems": [
    "C77_woken"
   ],
   "note": ""
  },
  {
   "property": "C78",
   "status": "proved",
   "theorems": [
    "C78_reset",
    "C78_paced"
   ],
   "note": ""
  },
  {
   "property": "C79",
   "status": "proved",
   "theorems": [
    "C79_blocked",
    "C79_full_iff",
    "C79_refuted"
   ],
   "note": "C79_refuted: false of the code. C79_blocked: exactly how far the blockage reaches."
  },
  {
   "property": "C80",
   "status": "proved",
   "theorems": [
    "C80_refuted",
    "C80_distinct",
    "C80_named"
   ],
   "note": "C80_refuted: the unrestricted claim is false of the code, as the statement says. C80_distinct, C80_named: what holds for all runs."
  },
  {
   "property": "C81",
   "status": "proved",
   "theorems": [
    "C81_life",
    "C81_first",
    "C81_count",
    "C81_octets",
    "C81_octets_refuted"
   ],
   "note": "C81_octets_refuted: the unrestricted claim is false of the code, as the statement says. C81_life, C81_first, C81_count, C81_octets: what holds for all runs."
  },
  {
   "property": "C82",
   "status": "proved",
   "theorems": [
    "C82_refuted",
    "C82_no_flows"
   ],
   "note": "C82_refuted: the unrestricted claim is false of the code, as the statement says. C82_no_flows: what holds for all runs."
  },
  {
   "property": "C83",
   "status": "proved",
   "theorems": [
    "C83_flags_obeyed",
    "C83_config_obeyed",
    "C83_external_iff_tls",
    "C83_refuted_flags_ignored",
    "C83_refuted_config_without_ca",
    "C83_refuted_missing_files"
   ],
   "note": "C83_refuted_flags_ignored, C83_refuted_config_without_ca, C83_refuted_missing_files: the unrestricted claim is false of the code, as the statement says. C83_flags_obeyed, C83_config_obeyed, C83_external_iff_tls: what holds for all runs."
  },
  {
   "property": "C84",
   "status": "proved",
   "theorems": [
    "C84_server",
    "C84_starts_iff"
   ],
   "note": ""
  },
  {
   "property": "C85",
   "status": "proved",
   "theorems": [
    "C85_gives_up_iff",
    "C85_default_never_gives_up",
    "C85_pauses",
    "C85_waits",
    "C85_refuted_quiet_minute"
   ],
   "note": "C85_refuted_quiet_minute: the unrestricted claim is false of the code, as the statement says. C85_gives_up_iff, C85_default_never_gives_up, C85_pauses, C85_waits: what holds for all runs."
  },
  {
   "property": "C86",
   "status": "proved",
   "theorems": [
    "C86_own_strategy",
    "C86_first_failure",
    "C86_refuted_storm",
    "C86_refuted_kept_alive"
   ],
   "note": "C86_refuted_storm, C86_refuted_kept_alive: the unrestricted claim is false of the code, as the statement says. C86_own_strategy, C86_first_failure: what holds for all runs."
  },
  {
   "property": "C87",
   "status": "proved",
   "theorems": [
    "C87_cleans_up",
    "C87_crashes_iff",
    "C87_readiness_ignored"
   ],
   "note": ""
  },
  {
   "property": "C88",
   "status": "proved",
   "theorems": [
    "C88_success",
    "C88_refuted_status",
    "C88_failure",
    "C88_refuted_failure_keeps_file"
   ],
   "note": "C88_refuted_status, C88_refuted_failure_keeps_file: the unrestricted claim is false of the code, as the statement says. C88_success, C88_failure: what holds for all runs."
  },
  {
   "property": "C89",
   "status": "proved",
   "theorems": [
    "C89_host",
    "C89_refuted_prefix_lost"
   ],
   "note": "C89_refuted_prefix_lost: the unrestricted claim is false of the code, as the statement says. C89_host: what holds for all runs."
  },
  {
   "property": "C90",
   "status": "proved",
   "theorems": [
    "C90_one_at_a_time",
    "C90_in_effect",
    "C90_running"
   ],
   "note": ""
  },
  {
   "property": "C91",
   "status": "proved",
   "theorems": [
    "C91_refuted",
    "C91_in_use"
   ],
   "note": "C91_refuted: the unrestricted claim is false of the code, as the statement says. C91_in_use: what holds for all runs."
  },
  {
   "property": "C92",
   "status": "proved",
   "theorems": [
    "C92_answered_in_turn",
    "C92_status",
    "C92_progress",
    "C92_taken",
    "C92_refuted_after_stop"
   ],
   "note": "C92_refuted_after_stop: the unrestricted claim is false of the code, as the statement says. C92_answered_in_turn, C92_status, C92_progress, C92_taken: what holds for all runs."
  },
  {
   "property": "C93",
   "status": "proved",
   "theorems": [
    "C93_ends",
    "C93_refuted_blocked",
    "C93_refuted_reachable"
   ],
   "note": "C93_refuted_blocked, C93_refuted_reachable: the unrestricted claim is false of the code, as the statement says. C93_ends: what holds for all runs."
  },
  {
   "property": "C94",
   "status": "proved",
   "theorems": [
    "C94_refuted",
    "C94_served"
   ],
   "note": "C94_refuted: the unrestricted claim is false of the code, as the statement says. C94_served: what holds for all runs."
  },
  {
   "property": "C95",
   "status": "proved",
   "theorems": [
    "C95_site_index_exact",
    "C95_refuted_no_site",
    "C95_sites_listed"
   ],
   "note": "C95_refuted_no_site: the unrestricted claim is false of the code, as the statement says. C95_site_index_exact, C95_sites_listed: what holds for all runs."
  },
  {
   "property": "C96",
   "status": "proved",
   "theorems": [
    "C96_after_flush",
    "C96_from_start",
    "C96_refuted_behind"
   ],
   "note": "C96_refuted_behind: the unrestricted claim is false of the code, as the statement says. C96_after_flush, C96_from_start: what holds for all runs."
  },
  {
   "property": "C97",
   "status": "proved",
   "theorems": [
    "C97_heals",
    "C97_next_resumes",
    "C97_send_resumes",
    "C97_accept_refuted"
   ],
   "note": "C97_accept_refuted: the unrestricted claim is false of the code, as the statement says. C97_heals, C97_next_resumes, C97_send_resumes: what holds for all runs."
  },
  {
   "property": "C98",
   "status": "proved",
   "theorems": [
    "C98_watched",
    "C98_listed",
    "C98_details",
    "C98_in_order",
    "C98_settled",
    "C98_missing_refuted"
   ],
   "note": "C98_missing_refuted: the unrestricted claim is false of the code, as the statement says. C98_watched, C98_listed, C98_details, C98_in_order, C98_settled: what holds for all runs."
  },
  {
   "property": "C99",
   "status": "proved",
   "theorems": [
    "C99_stuck_refuted",
    "C99_needs",
    "C99_goes_on"
   ],
   "note": "C99_stuck_refuted: the unrestricted claim is false of the code, as the statement says. C99_needs, C99_goes_on: what holds for all runs."
  },
  {
   "property": "C100",
   "status": "proved",
   "theorems": [
    "C100_starts",
    "C100_root",
    "C100_type",
    "C100_sources",
    "C100_offered",
    "C100_unknown",
    "C100_moved",
    "C100_moved_once",
    "C100_partition"
   ],
   "note": ""
  },
  {
   "property": "C101",
   "status": "proved",
   "theorems": [
    "C101_root",
    "C101_type",
    "C101_refuted"
   ],
   "note": "C101_refuted: the unrestricted claim is false of the code, as the statement says. C101_root, C101_type: what holds for all runs."
  },
  {
   "property": "C102",
   "status": "proved",
   "theorems": [
    "C102_nil",
    "C102_errors",
    "C102_next",
    "C102_returns"
   ],
   "note": ""
  },
  {
   "property": "C103",
   "status": "proved",
   "theorems": [
    "C103_course",
    "C103_asks",
    "C103_hears",
    "C103_after_message",
    "C103_after_wait",
    "C103_wait",
    "C103_again",
    "C103_gives_up",
    "C103_refuted"
   ],
   "note": "C103_refuted: the unrestricted claim is false of the code, as the statement says. C103_course, C103_asks, C103_hears, C103_after_message, C103_after_wait, C103_wait, C103_again, C103_gives_up: what holds for all runs."
  },
  {
   "property": "C104",
   "status": "proved",
   "theorems": [
    "C104_order",
    "C104_printed",
    "C104_skipped",
    "C104_filter",
    "C104_progress",
    "C104_return",
    "C104_lines",
    "C104_refuted_stop",
    "C104_refuted_year",
    "C104_refuted_write"
   ],
   "note": "C104_refuted_stop, C104_refuted_year, C104_refuted_write: the unrestricted claim is false of the code, as the statement says. C104_order, C104_printed, C104_skipped, C104_filter, C104_progress, C104_return, C104_lines: what holds for all runs."
  },
  {
   "property": "C105",
   "status": "proved",
   "theorems": [
    "C105_one_each",
    "C105_lasts",
    "C105_stays",
    "C105_refuted",
    "C105_all_end"
   ],
   "note": "C105_refuted: the unrestricted claim is false of the code, as the statement says. C105_one_each, C105_lasts, C105_stays, C105_all_end: what holds for all runs."
  },
  {
   "property": "C106",
   "status": "proved",
   "theorems": [
    "C106_exactly",
    "C106_only",
    "C106_survives",
    "C106_refuted"
   ],
   "note": "C106_refuted: the unrestricted claim is false of the code, as the statement says. C106_exactly, C106_only, C106_survives: what holds for all runs."
  },
  {
   "property": "C107",
   "status": "proved",
   "theorems": [
    "C107_recovers",
    "C107_not_before"
   ],
   "note": ""
  },
  {
   "property": "C108",
   "status": "proved",
   "theorems": [
    "C108_only_told",
    "C108_told",
    "C108_ends",
    "C108_grace",
    "C108_grace_refuted",
    "C108_accounted",
    "C108_unnoticed"
   ],
   "note": "C108_grace_refuted: the unrestricted claim is false of the code, as the statement says. C108_only_told, C108_told, C108_ends, C108_grace, C108_accounted, C108_unnoticed: what holds for all runs."
  },
  {
   "property": "C109",
   "status": "proved",
   "theorems": [
    "C109_ends_only",
    "C109_order",
    "C109_received",
    "C109_accepted",
    "C109_same_session",
    "C109_goes_on",
    "C109_nil_only",
    "C109_crash_only",
    "C109_never_crashes_refuted",
    "C109_closes",
    "C109_can_end",
    "C109_can_end_refuted"
   ],
   "note": "C109_never_crashes_refuted, C109_can_end_refuted: the unrestricted claim is false of the code, as the statement says. C109_ends_only, C109_order, C109_received, C109_accepted, C109_same_session, C109_goes_on, C109_nil_only, C109_crash_only, C109_closes, C109_can_end: what holds for all runs."
  },
  {
   "property": "C110",
   "status": "proved",
   "theorems": [
    "C110_as_before",
    "C110_may_call",
    "C110_comes_back",
    "C110_close_never",
    "C110_hangs",
    "C110_close_hangs",
    "C110_close_returns"
   ],
   "note": ""
  },
  {
   "property": "C111",
   "status": "proved",
   "theorems": [
    "C111_may_call",
    "C111_as_before",
    "C111_in_order",
    "C111_no_deadlock",
    "C111_ends",
    "C111_all_return",
    "C111_recursion",
    "C111_one_writer"
   ],
   "note": ""
  },
  {
   "property": "C112",
   "status": "proved",
   "theorems": [
    "C112_registers",
    "C112_encode",
    "C112_decode",
    "C112_decode_panic",
    "C112_refuses",
    "C112_round_trip",
    "C112_defined_not_received",
    "C112_defined_not_plain",
    "C112_value_receiver",
    "C112_interface",
    "C112_pointer_receiver_refuted",
    "C112_pointer_receiver_remedy",
    "C112_required_refuted",
    "C112_required_unless_nil",
    "C112_extends"
   ],
   "note": "C112_pointer_receiver_refuted, C112_required_refuted: the unrestricted claim is false of the code, as the statement says. C112_registers, C112_encode, C112_decode, C112_decode_panic, C112_refuses, C112_round_trip, C112_defined_not_received, C112_defined_not_plain, C112_value_receiver, C112_interface, C112_pointer_receiver_remedy, C112_required_unless_nil, C112_extends: what holds for all runs."
  },
  {
   "property": "C113",
   "status": "proved",
   "theorems": [
    "C113_project",
    "C113_registered",
    "C113_calls",
    "C113_activity",
    "C113_stored",
    "C113_can_store",
    "C113_in_order",
    "C113_silence",
    "C113_end_after_close",
    "C113_one_ends",
    "C113_close_twice",
    "C113_crashes",
    "C113_user_close",
    "C113_hangs",
    "C113_can_end",
    "C113_hangs_refuted",
    "C113_crash_refuted",
    "C113_race_refuted"
   ],
   "note": "C113_hangs_refuted, C113_crash_refuted, C113_race_refuted: the unrestricted claim is false of the code, as the statement says. C113_project, C113_registered, C113_calls, C113_activity, C113_stored, C113_can_store, C113_in_order, C113_silence, C113_end_after_close, C113_one_ends, C113_close_twice, C113_crashes, C113_user_close, C113_hangs, C113_can_end: what holds for all runs."
  },
  {
   "property": "C114",
   "status": "proved",
   "theorems": [
    "C114_project",
    "C114_routes",
    "C114_routes_types",
    "C114_order",
    "C114_waits",
    "C114_accepted",
    "C114_merged",
    "C114_nameless",
    "C114_kept",
    "C114_listed",
    "C114_can_finish",
    "C114_after_close",
    "C114_source_refuted",
    "C114_forgotten_refuted"
   ],
   "note": "C114_source_refuted, C114_forgotten_refuted: the unrestricted claim is false of the code, as the statement says. C114_project, C114_routes, C114_routes_types, C114_order, C114_waits, C114_accepted, C114_merged, C114_nameless, C114_kept, C114_listed, C114_can_finish, C114_after_close: what holds for all runs."
  },
  {
   "property": "C115",
   "status": "proved",
   "theorems": [
    "C115_arrives",
    "C115_served"
   ],
   "note": ""
  },
  {
   "property": "C116",
   "status": "proved",
   "theorems": [
    "C116_answers",
    "C116_maps",
    "C116_known",
    "C116_nested",
    "C116_stuck_only",
    "C116_returns",
    "C116_no_lock",
    "C116_forever",
    "C116_refuted"
   ],
   "note": "C116_refuted: the unrestricted claim is false of the code, as the statement says. C116_answers, C116_maps, C116_known, C116_nested, C116_stuck_only, C116_returns, C116_no_lock, C116_forever: what holds for all runs."
  },
  {
   "property": "C117",
   "status": "proved",
   "theorems": [
    "C117_accepts",
    "C117_values",
    "C117_compatible",
    "C117_message",
    "C117_encode",
    "C117_typed_nil",
    "C117_builtin"
   ],
   "note": ""
  },
  {
   "property": "C118",
   "status": "proved",
   "theorems": [
    "C118_applied",
    "C118_panics",
    "C118_replace_panics",
    "C118_again",
    "C118_index",
    "C118_lookup_panics",
    "C118_values",
    "C118_healed",
    "C118_exact_refuted"
   ],
   "note": "C118_exact_refuted: the unrestricted claim is false of the code, as the statement says. C118_applied, C118_panics, C118_replace_panics, C118_again, C118_index, C118_values, C118_healed: what holds for all runs."
  },
  {
   "property": "C119",
   "status": "proved",
   "theorems": [
    "C119_in_change",
    "C119_change_in",
    "C119_read_in",
    "C119_stuck_only",
    "C119_returns",
    "C119_refuted_change",
    "C119_refuted_read"
   ],
   "note": "C119_refuted_change, C119_refuted_read: the unrestricted claim is false of the code, as the statement says. C119_in_change, C119_change_in, C119_read_in, C119_stuck_only, C119_returns: what holds for all runs."
  },
  {
   "property": "C120",
   "status": "proved",
   "theorems": [
    "C120_once",
    "C120_numbers",
    "C120_closed",
    "C120_ends",
    "C120_new_link",
    "C120_waits",
    "C120_refuted_wait",
    "C120_refuted_stale",
    "C120_refuted_both"
   ],
   "note": "C120_refuted_wait, C120_refuted_stale, C120_refuted_both: the unrestricted claim is false of the code, as the statement says. C120_once, C120_numbers, C120_closed, C120_ends, C120_new_link, C120_waits: what holds for all runs."
  },
  {
   "property": "C121",
   "status": "proved",
   "theorems": [
    "C121_types",
    "C121_fields",
    "C121_sent",
    "C121_received",
    "C121_accepted"
   ],
   "note": ""
  },
  {
   "property": "C122",
   "status": "proved",
   "theorems": [
    "C122_single",
    "C122_history",
    "C122_told",
    "C122_revives",
    "C122_stuck",
    "C122_ended",
    "C122_late_refuted",
    "C122_stuck_example"
   ],
   "note": "C122_late_refuted: the unrestricted claim is false of the code, as the statement says. C122_single, C122_history, C122_told, C122_revives, C122_stuck, C122_ended, C122_stuck_example: what holds for all runs."
  },
  {
   "property": "C123",
   "status": "proved",
   "theorems": [
    "C123_single",
    "C123_updates",
    "C123_sending",
    "C123_waits",
    "C123_resumes",
    "C123_revives",
    "C123_stopped",
    "C123_order_refuted",
    "C123_flushes",
    "C123_flush_resumes",
    "C123_flush_kept_refuted"
   ],
   "note": "C123_order_refuted, C123_flush_kept_refuted: the unrestricted claim is false of the code, as the statement says. C123_single, C123_updates, C123_sending, C123_waits, C123_resumes, C123_revives, C123_stopped, C123_flushes, C123_flush_resumes: what holds for all runs."
  },
  {
   "property": "C124",
   "status": "proved",
   "theorems": [
    "C124_own",
    "C124_pass",
    "C124_limit",
    "C124_updates",
    "C124_sending",
    "C124_failing",
    "C124_only_asks",
    "C124_returns_refuted"
   ],
   "note": "C124_returns_refuted: the unrestricted claim is false of the code, as the statement says. C124_own, C124_pass, C124_limit, C124_updates, C124_sending, C124_failing, C124_only_asks: what holds for all runs."
  },
  {
   "property": "C125",
   "status": "proved",
   "theorems": [
    "C125_beats",
    "C125_alive",
    "C125_tool",
    "C125_listens",
    "C125_fixture"
   ],
   "note": ""
  },
  {
   "property": "C126",
   "status": "proved",
   "theorems": [
    "C126_forgotten",
    "C126_tool",
    "C126_stopped"
   ],
   "note": ""
  },
  {
   "property": "C127",
   "status": "proved",
   "theorems": [
    "C127_in_time",
    "C127_no_flushes",
    "C127_unbounded_refuted",
    "C127_same_runs"
   ],
   "note": "C127_unbounded_refuted: the unrestricted claim is false of the code, as the statement says. C127_in_time, C127_no_flushes, C127_same_runs: what holds for all runs."
  },
  {
   "property": "C128",
   "status": "proved",
   "theorems": [
    "C128_answered",
    "C128_unbounded_refuted"
   ],
   "note": "C128_unbounded_refuted: the unrestricted claim is false of the code, as the statement says. C128_answered: what holds for all runs."
  },
  {
   "property": "C129",
   "status": "proved",
   "theorems": [
    "C129_apart"
   ],
   "note": ""
  }
 ]
}