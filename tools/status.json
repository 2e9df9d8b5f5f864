{
 "C01": {
  "note": "normal_value spells out the normalisation; times must fit int64 microseconds (C10 treats the rest)."
 },
 "C04": {
  "note": "Exact characterisation of the panicking inputs; C04_decode_total_refuted shows the unrestricted claim is false of the code."
 },
 "C10": {
  "note": "Exact characterisation; C10_far_future_refuted shows that without the int64 bound a time is sent as a wrong time."
 },
 "C38": {
  "note": "The environment (map order, clock) used to diff each update is existential; C37 says what the diff is."
 },
 "C39": {
  "note": "C39_refuted: the claim as first stated is false of the code. C39_in_order/C39_encodable: exact account of what is sent."
 },
 "C41": {
  "note": "C41_refuted: the claim is false of the code. C41_kept: it holds when no smaller key is removed during the pass."
 },
 "C43": {
  "note": "C43_refuted: the claim is false of the code. C43_bounded: passes are bounded by messages plus receive errors."
 },
 "C42": {
  "note": "Safety part; C74_rests gives progress."
 },
 "C45": {
  "note": "C45_refuted/C45_spins_refuted: false before the first beacon was delivered. C45_stops: true afterwards."
 },
 "C46": {
  "note": "C46_refuted: false of the code for every configuration and time; C46_never_seen: consequence for the heartbeat allowance."
 },
 "C50": {
  "note": "C50_refuted: false of the code. C50_deadlock: exactly when it cannot return; C50_returns: it returns otherwise, once receivers fail with the context's error."
 },
 "C51": {
  "note": "C51_refuted/C51_second_close_panics: false of the code for every client. C51_first_close: the first call does not panic."
 },
 "C53": {
  "note": "known/answers spell out a map of identities; one Run, users, handlers and watches interleave at lock granularity."
 },
 "C54": {
  "note": "C54_fifo: delivered ++ waiting = issued, per kind."
 },
 "C55": {
  "note": "C55_refuted: the claim is false of the code. C55_in_order: it holds when no forgetting is taken while a discovery of the same source waits."
 },
 "C56": {
  "note": "C56_future_refuted: without the condition on added sources last-seen moves back."
 },
 "C57": {
  "note": "C57_refuted/C57_after_cancel_refuted: false of the code. C57_forever: nothing resolves it. C57_progress: no deadlock when handlers do not call back and Run goes on."
 },
 "C58": {
  "note": "C58_refuted: false of the code. C58_only/C58_others: exactly such messages stop it."
 },
 "C59": {
  "note": "C59_race_refuted: without the order of stores the claim fails. Time is one number per step; the decision, not the later lock acquisition of Forget, is what is timed."
 },
 "C60": {
  "note": "C60_refuted: the claim is false of the code. C60_own_identity/C60_calls: what does hold."
 },
 "C61": {
  "note": "C61_refuted: an error of the old session ends the new one when two goroutines share a link. The other theorems hold for every schedule, C61_ended_for_its_own_error for links used by one goroutine each, as in the packages of this repository."
 },
 "C62": {
  "note": "C62_refuted: with two goroutines a link goes back to the old session. C62_on_its_session holds for every schedule."
 },
 "C63": {
  "note": "C63_refuted: two goroutines report one session twice."
 },
 "C64": {
  "note": "C64_refuted: Next on a closed link looks again for ever (each look leads to the same state)."
 },
 "C65": {
  "note": "C65_refuted/C65_revived_refuted: false of the code. C65_alone: what holds when Close is not concurrent with other calls."
 },
 "C66": {
  "note": "C66_refuted: every positive credit is replaced by zero. C66_exact: the values that are used as asked for."
 },
 "C67": {
  "note": "C67_refuted: a call whose context ended never returns. C67_bounded/C67_ends_or_blocked: only the three named blockages can delay it."
 },
 "C75": {
  "note": "C75_stuck: the claim is false of the code; once a handler calls the container nothing happens any more, whatever the schedule. C75_otherwise: what holds if none does."
 },
 "C76": {
  "note": "C76_refuted: false of the code. C76_stopped counts exactly what stays open."
 },
 "C69": {
  "note": "C69_refuted: false of the code. C69_reached: what success does mean."
 },
 "C79": {
  "note": "C79_refuted: false of the code. C79_blocked: exactly how far the blockage reaches."
 },
 "C17": {
  "note": "C17_refuted_after_delete: the unrestricted claim is false of the code, as the statement says. C17_if_match, C17_unparseable_rejected: what holds for all runs."
 },
 "C18": {
  "note": "C18_refuted_large_offset: the unrestricted claim is false of the code, as the statement says. C18_etag_round_trip, C18_continue_round_trip, C18_continue_wraps, C18_etag_accepted_iff, C18_continue_accepted_iff: what holds for all runs."
 },
 "C24": {
  "note": "C24_refuted: the unrestricted claim is false of the code, as the statement says. C24_list_crash_iff, C24_index_crash_iff: what holds for all runs."
 },
 "C26": {
  "note": "C26_refuted_replace, C26_refuted_failing_accumulate: the unrestricted claim is false of the code, as the statement says. C26_events_describe, C26_events_replay, C26_events_replay_by_id: what holds for all runs."
 },
 "C29": {
  "note": "C29_refuted: the unrestricted claim is false of the code, as the statement says. C29_stale_value_stays: what holds for all runs."
 },
 "C30": {
  "note": "C30_refuted: the unrestricted claim is false of the code, as the statement says. C30_types_consistent, C30_accumulate_never_crashes: what holds for all runs."
 },
 "C33": {
  "note": "C33_order_refuted: the unrestricted claim is false of the code, as the statement says. C33_exactly_once, C33_one_writer: what holds for all runs."
 },
 "C34": {
  "note": "C34_refuted: the unrestricted claim is false of the code, as the statement says. C34_source_index_exact, C34_dot_free_sources: what holds for all runs."
 },
 "C70": {
  "note": "C70_refuted, C70_collision_refuted: the unrestricted claim is false of the code, as the statement says. C70_untyped, C70_by_type: what holds for all runs."
 },
 "C72": {
  "note": "C72_refuted: the unrestricted claim is false of the code, as the statement says. C72_resolved: what holds for all runs."
 },
 "C73": {
  "note": "C73_refuted: the unrestricted claim is false of the code, as the statement says. C73_write_shows, C73_index_is_frozen, C73_deleted_entry_stays_indexed, C73_harmless_writes, C73_unshared_maps, C73_same_site: what holds for all runs."
 },
 "C80": {
  "note": "C80_refuted: the unrestricted claim is false of the code, as the statement says. C80_distinct, C80_named: what holds for all runs."
 },
 "C81": {
  "note": "C81_octets_refuted: the unrestricted claim is false of the code, as the statement says. C81_life, C81_first, C81_count, C81_octets: what holds for all runs."
 },
 "C82": {
  "note": "C82_refuted: the unrestricted claim is false of the code, as the statement says. C82_no_flows: what holds for all runs."
 },
 "C83": {
  "note": "C83_refuted_flags_ignored, C83_refuted_config_without_ca, C83_refuted_missing_files: the unrestricted claim is false of the code, as the statement says. C83_flags_obeyed, C83_config_obeyed, C83_external_iff_tls: what holds for all runs."
 },
 "C85": {
  "note": "C85_refuted_quiet_minute: the unrestricted claim is false of the code, as the statement says. C85_gives_up_iff, C85_default_never_gives_up, C85_pauses, C85_waits: what holds for all runs."
 },
 "C86": {
  "note": "C86_refuted_storm, C86_refuted_kept_alive: the unrestricted claim is false of the code, as the statement says. C86_own_strategy, C86_first_failure: what holds for all runs."
 },
 "C88": {
  "note": "C88_refuted_status, C88_refuted_failure_keeps_file: the unrestricted claim is false of the code, as the statement says. C88_success, C88_failure: what holds for all runs."
 },
 "C89": {
  "note": "C89_refuted_prefix_lost: the unrestricted claim is false of the code, as the statement says. C89_host: what holds for all runs."
 },
 "C91": {
  "note": "C91_refuted: the unrestricted claim is false of the code, as the statement says. C91_in_use: what holds for all runs."
 },
 "C92": {
  "note": "C92_refuted_after_stop: the unrestricted claim is false of the code, as the statement says. C92_answered_in_turn, C92_status, C92_progress, C92_taken: what holds for all runs."
 },
 "C93": {
  "note": "C93_refuted_blocked, C93_refuted_reachable: the unrestricted claim is false of the code, as the statement says. C93_ends: what holds for all runs."
 },
 "C94": {
  "note": "C94_refuted: the unrestricted claim is false of the code, as the statement says. C94_served: what holds for all runs."
 },
 "C95": {
  "note": "C95_refuted_no_site: the unrestricted claim is false of the code, as the statement says. C95_site_index_exact, C95_sites_listed: what holds for all runs."
 },
 "C96": {
  "note": "C96_refuted_behind: the unrestricted claim is false of the code, as the statement says. C96_after_flush, C96_from_start: what holds for all runs."
 },
 "C97": {
  "note": "C97_accept_refuted: the unrestricted claim is false of the code, as the statement says. C97_heals, C97_next_resumes, C97_send_resumes: what holds for all runs."
 },
 "C98": {
  "note": "C98_missing_refuted: the unrestricted claim is false of the code, as the statement says. C98_watched, C98_listed, C98_details, C98_in_order, C98_settled: what holds for all runs."
 },
 "C99": {
  "note": "C99_stuck_refuted: the unrestricted claim is false of the code, as the statement says. C99_needs, C99_goes_on: what holds for all runs."
 },
 "C101": {
  "note": "C101_refuted: the unrestricted claim is false of the code, as the statement says. C101_root, C101_type: what holds for all runs."
 },
 "C103": {
  "note": "C103_refuted: the unrestricted claim is false of the code, as the statement says. C103_course, C103_asks, C103_hears, C103_after_message, C103_after_wait, C103_wait, C103_again, C103_gives_up: what holds for all runs."
 },
 "C104": {
  "note": "C104_refuted_stop, C104_refuted_year, C104_refuted_write: the unrestricted claim is false of the code, as the statement says. C104_order, C104_printed, C104_skipped, C104_filter, C104_progress, C104_return, C104_lines: what holds for all runs."
 },
 "C105": {
  "note": "C105_refuted: the unrestricted claim is false of the code, as the statement says. C105_one_each, C105_lasts, C105_stays, C105_all_end: what holds for all runs."
 },
 "C106": {
  "note": "C106_refuted: the unrestricted claim is false of the code, as the statement says. C106_exactly, C106_only, C106_survives: what holds for all runs."
 },
 "C108": {
  "note": "C108_grace_refuted: the unrestricted claim is false of the code, as the statement says. C108_only_told, C108_told, C108_ends, C108_grace, C108_accounted, C108_unnoticed: what holds for all runs."
 },
 "C109": {
  "note": "C109_never_crashes_refuted, C109_can_end_refuted: the unrestricted claim is false of the code, as the statement says. C109_ends_only, C109_order, C109_received, C109_accepted, C109_same_session, C109_goes_on, C109_nil_only, C109_crash_only, C109_closes, C109_can_end: what holds for all runs."
 },
 "C112": {
  "note": "C112_pointer_receiver_refuted, C112_required_refuted: the unrestricted claim is false of the code, as the statement says. C112_registers, C112_encode, C112_decode, C112_decode_panic, C112_refuses, C112_round_trip, C112_defined_not_received, C112_defined_not_plain, C112_value_receiver, C112_interface, C112_pointer_receiver_remedy, C112_required_unless_nil, C112_extends: what holds for all runs."
 },
 "C113": {
  "note": "C113_hangs_refuted, C113_crash_refuted, C113_race_refuted: the unrestricted claim is false of the code, as the statement says. C113_project, C113_registered, C113_calls, C113_activity, C113_stored, C113_can_store, C113_in_order, C113_silence, C113_end_after_close, C113_one_ends, C113_close_twice, C113_crashes, C113_user_close, C113_hangs, C113_can_end: what holds for all runs."
 },
 "C114": {
  "note": "C114_source_refuted, C114_forgotten_refuted: the unrestricted claim is false of the code, as the statement says. C114_project, C114_routes, C114_routes_types, C114_order, C114_waits, C114_accepted, C114_merged, C114_nameless, C114_kept, C114_listed, C114_can_finish, C114_after_close: what holds for all runs."
 },
 "C116": {
  "note": "C116_refuted: the unrestricted claim is false of the code, as the statement says. C116_answers, C116_maps, C116_known, C116_nested, C116_stuck_only, C116_returns, C116_no_lock, C116_forever: what holds for all runs."
 },
 "C118": {
  "note": "C118_exact_refuted: the unrestricted claim is false of the code, as the statement says. C118_applied, C118_panics, C118_replace_panics, C118_again, C118_index, C118_values, C118_healed: what holds for all runs."
 },
 "C119": {
  "note": "C119_refuted_change, C119_refuted_read: the unrestricted claim is false of the code, as the statement says. C119_in_change, C119_change_in, C119_read_in, C119_stuck_only, C119_returns: what holds for all runs."
 },
 "C120": {
  "note": "C120_refuted_wait, C120_refuted_stale, C120_refuted_both: the unrestricted claim is false of the code, as the statement says. C120_once, C120_numbers, C120_closed, C120_ends, C120_new_link, C120_waits: what holds for all runs."
 },
 "C122": {
  "note": "C122_late_refuted: the unrestricted claim is false of the code, as the statement says. C122_single, C122_history, C122_told, C122_revives, C122_stuck, C122_ended, C122_stuck_example: what holds for all runs."
 },
 "C123": {
  "note": "C123_order_refuted, C123_flush_kept_refuted: the unrestricted claim is false of the code, as the statement says. C123_single, C123_updates, C123_sending, C123_waits, C123_resumes, C123_revives, C123_stopped, C123_flushes, C123_flush_resumes: what holds for all runs."
 },
 "C124": {
  "note": "C124_returns_refuted: the unrestricted claim is false of the code, as the statement says. C124_own, C124_pass, C124_limit, C124_updates, C124_sending, C124_failing, C124_only_asks: what holds for all runs."
 },
 "C127": {
  "note": "C127_unbounded_refuted: the unrestricted claim is false of the code, as the statement says. C127_in_time, C127_no_flushes, C127_same_runs: what holds for all runs."
 },
 "C128": {
  "note": "C128_unbounded_refuted: the unrestricted claim is false of the code, as the statement says. C128_answered: what holds for all runs."
 }
}