{
 "claims": [
  {
   "property": "C01",
   "status": "proved",
   "theorems": [
    "C01_client_matches_server_after_one_change",
    "C01_client_matches_server_forever",
    "C01_unlisted_room_changes_nothing"
   ],
   "note": "Whenever an answer is returned (C03 says exactly when it is not). The hypothesis that sorting moves only the changed room is discharged for the real sort in C06."
  },
  {
   "property": "C02",
   "status": "partial",
   "theorems": [
    "C02_new_subscriptions_are_visible",
    "C02_rooms_coming_into_view_are_announced_partial",
    "C02_missing_announcement_refuted"
   ],
   "note": "Soundness without restriction; completeness except one exactly described removal case, which is refuted."
  },
  {
   "property": "C03",
   "status": "partial",
   "theorems": [
    "C03_crash_characterisation",
    "C03_never_crashes_partial",
    "C03_crash_refuted"
   ],
   "note": "Exact characterisation of the crash: removing the last of several rooms while a window starts at its position."
  },
  {
   "property": "C04",
   "status": "proved",
   "theorems": [
    "C04_validation_is_exact",
    "C04_inside_is_exact",
    "C04_slices_are_the_windows",
    "C04_every_covered_position_once"
   ],
   "note": ""
  },
  {
   "property": "C05",
   "status": "partial",
   "theorems": [
    "C05_delta_characterisation",
    "C05_delta_exact_partial",
    "C05_one_position_window_refuted"
   ],
   "note": "Exact characterisation for all valid windows. The literal property is refuted: a one-position window outside the other window list is reported neither as added nor as removed."
  },
  {
   "property": "C06",
   "status": "partial",
   "theorems": [
    "C06_sort_partial",
    "C06_stable_sort_is_unique",
    "C06_sort_orders_are_consistent",
    "C06_add",
    "C06_remove",
    "C06_history",
    "C06_resort_moves_only_the_changed_room",
    "C06_unknown_sort_order_refuted"
   ],
   "note": "Full for the five known sort orders. Refuted for unknown sort orders, which requests may contain: the new list then has no index."
  },
  {
   "property": "C07",
   "status": "partial",
   "theorems": [
    "C07_reported_operation_is_exact_partial",
    "C07_each_list_is_told_at_most_once_and_exists",
    "C07_update_is_stored",
    "C07_bump_timestamps",
    "C07_unknown_sort_order_refuted",
    "C07_new_list_contains_left_room_refuted"
   ],
   "note": "Exact whenever the index of the list is right (C06); refuted after an unknown sort order, and for lists created after the user left a room."
  },
  {
   "property": "C08",
   "status": "partial",
   "theorems": [
    "C08_filter_characterisation",
    "C08_filter_is_conjunction_partial",
    "C08_new_list_contents",
    "C08_spaces_ignored_with_types_refuted"
   ],
   "note": "Exact characterisation; refuted for filters which set both spaces and room_types."
  },
  {
   "property": "C09",
   "status": "proved",
   "theorems": [
    "C09_positions_count_processed_requests",
    "C09_success_takes_the_next_position",
    "C09_failure_takes_no_position",
    "C09_errors_are_reported",
    "C09_handler_is_given_the_request"
   ],
   "note": "Every history of a connection with arbitrary handler behaviour."
  },
  {
   "property": "C10",
   "status": "partial",
   "theorems": [
    "C10_retry_gets_same_response_partial",
    "C10_same_position_same_response",
    "C10_retry_is_processed_again_refuted"
   ],
   "note": "The response is the same without restriction; that the request is not processed again holds when the handler leaves the body of the request alone. Refuted otherwise: a request which adds an extension without lists/rooms is rewritten by the handler, so its retry is processed again. pos=0 is excluded: such a request opens a new connection (CreateConn)."
  },
  {
   "property": "C11",
   "status": "proved",
   "theorems": [
    "C11_unknown_position_rejected_without_effect"
   ],
   "note": ""
  },
  {
   "property": "C12",
   "status": "proved",
   "theorems": [
    "C12_reply_is_oldest_unseen",
    "C12_reply_is_never_nil",
    "C12_client_sees_every_response_once_in_order"
   ],
   "note": ""
  },
  {
   "property": "C13",
   "status": "partial",
   "theorems": [
    "C13_list_parameters_are_sticky_partial",
    "C13_extension_parameters_are_sticky",
    "C13_new_lists_are_sorted",
    "C13_zero_limit_is_ignored_refuted"
   ],
   "note": "Every history of requests. Refuted for timeline_limit 0, which is treated as not given."
  },
  {
   "property": "C14",
   "status": "partial",
   "theorems": [
    "C14_deleted_lists_are_gone_partial",
    "C14_reported_lists_are_exact",
    "C14_deleting_an_unknown_list_makes_it_refuted",
    "C14_subscribed_rooms",
    "C14_reported_subscriptions_partial",
    "C14_reported_unsubscriptions_partial",
    "C14_active_subscriptions_partial",
    "C14_subscribe_and_unsubscribe_refuted",
    "C14_changed_old_rooms_refuted",
    "C14_subscribed_before_joining_refuted"
   ],
   "note": "Effective lists and subscriptions are exact; refuted: deleting a list which does not exist makes an empty one, subscribing and unsubscribing in one request, changing only include_old_rooms, and rooms subscribed to before joining."
  },
  {
   "property": "C15",
   "status": "partial",
   "theorems": [
    "C15_largest_timeline_limit",
    "C15_required_state_partial",
    "C15_order_does_not_matter_partial",
    "C15_old_rooms_partial",
    "C15_all_state_is_narrowed_refuted",
    "C15_old_rooms_lost_refuted",
    "C15_heroes_lost_refuted"
   ],
   "note": "Limits and required state in full unless a request for all state meets named state keys; refuted for that case, for include_old_rooms (depends on the order) and for include_heroes (always lost)."
  },
  {
   "property": "C16",
   "status": "partial",
   "theorems": [
    "C16_every_room_exactly_once",
    "C16_combination_of_the_requests_partial",
    "C16_spare_capacity_refuted"
   ],
   "note": "Rooms exactly once without restriction. The combined content is exact when the slices have no spare capacity; refuted otherwise: Go's append overwrites the combination made for another room."
  },
  {
   "property": "C17",
   "status": "partial",
   "theorems": [
    "C17_included_exactly_when_wanted",
    "C17_state_sent_partial",
    "C17_lazy_loading_sends_other_types_refuted"
   ],
   "note": "Include and the query are exact; what is sent is exact unless $LAZY and a wildcard type are combined, which is refuted."
  },
  {
   "property": "C18",
   "status": "proved",
   "theorems": [
    "C18_tracker_is_latest_membership",
    "C18_invite_count",
    "C18_return_values",
    "C18_only_late_startup_panics"
   ],
   "note": ""
  },
  {
   "property": "C19",
   "status": "proved",
   "theorems": [
    "C19_membership_is_the_history",
    "C19_events_only_to_members",
    "C19_initial_state_only_to_members",
    "C19_ephemeral_only_to_members"
   ],
   "note": ""
  },
  {
   "property": "C20",
   "status": "partial",
   "theorems": [
    "C20_members_told_exactly_once",
    "C20_calls_carry_the_event",
    "C20_global_cache_first_and_once_partial",
    "C20_initial_state_exactly_once",
    "C20_ephemeral_exactly_once",
    "C20_fresh_join_flag",
    "C20_global_cache_once_refuted"
   ],
   "note": "Refuted in one corner: a leave/ban whose state_key is '-' calls the global cache twice. Everything else is proved without restriction."
  },
  {
   "property": "C21",
   "status": "proved",
   "theorems": [
    "C21_preemptive_bans_not_leaked"
   ],
   "note": ""
  },
  {
   "property": "C22",
   "status": "proved",
   "theorems": [
    "C22_counts_are_the_member_sets",
    "C22_initial_counts_are_the_member_sets"
   ],
   "note": "Join counts for all live events and bulk initial state; invite counts for member events and bulk initial state (other live events carry 0 by design and the receiver ignores it)."
  },
  {
   "property": "C23",
   "status": "partial",
   "theorems": [
    "C23_current_state_partial",
    "C23_separator_in_a_type_refuted",
    "C23_repeated_event_in_a_state_block_refuted"
   ],
   "note": "Every history of state blocks, timelines, clean-ups and invites with event types free of byte 0x1f and state blocks which do not repeat an event ID; refuted for both exceptions. Redaction is a parameter assumed to keep event ID, type, state key and membership (gomatrixserverlib)."
  },
  {
   "property": "C24",
   "status": "proved",
   "theorems": [
    "C24_only_what_follows_the_last_known_event",
    "C24_what_follows_is_unique",
    "C24_known_rooms_take_everything",
    "C24_new_rooms_begin_with_create",
    "C24_again_changes_nothing",
    "C24_again_later_changes_nothing",
    "C24_failure_changes_nothing"
   ],
   "note": "Every history of operations, including histories by several pollers. Also says which rows are marked as following a gap."
  },
  {
   "property": "C25",
   "status": "partial",
   "theorems": [
    "C25_state_before_partial",
    "C25_replaced_event_partial",
    "C25_separator_in_a_type_refuted"
   ],
   "note": "As for C23: event types free of byte 0x1f and state blocks which do not repeat an event ID. Refuted without the guard: types with that byte are confused, and the remembered state lacks an event."
  },
  {
   "property": "C26",
   "status": "partial",
   "theorems": [
    "C26_room_state_at_position_partial",
    "C26_nothing_before_the_first_event",
    "C26_state_from_the_future_refuted",
    "C26_message_as_state_refuted",
    "C26_returned_twice_refuted",
    "C26_state_lost_by_clean_up_refuted"
   ],
   "note": "Exact for positions at timeline events whose snapshot has not been cleaned up. Refuted: positions at state-block events see later state, a timeline event which is no state event may be returned, an event may be returned twice with a filter, and state is lost when the snapshot was cleaned up."
  },
  {
   "property": "C27",
   "status": "proved",
   "theorems": [
    "C27_visible_range",
    "C27_no_range"
   ],
   "note": "The ranges returned are exactly the maximal joined ranges up to the position, as the code defines them."
  },
  {
   "property": "C28",
   "status": "proved",
   "theorems": [
    "C28_timeline",
    "C28_answer"
   ],
   "note": "Limit, gap and order for every database content."
  },
  {
   "property": "C29",
   "status": "proved",
   "theorems": [
    "C29_ignored_messages_are_dropped"
   ],
   "note": "Initial timelines; the sender must be on the ignored list loaded for the user."
  },
  {
   "property": "C30",
   "status": "proved",
   "theorems": [
    "C30_read",
    "C30_nothing_is_lost",
    "C30_received_once_and_in_order",
    "C30_stays",
    "C30_answers"
   ],
   "note": "For every history of arrivals, reads by this and other devices, lost responses, failing database calls and restarts. After a restart the server ignores the since token once and reads from the start, so messages may come twice (example), none is lost."
  },
  {
   "property": "C31",
   "status": "partial",
   "theorems": [
    "C31_only_unread_is_removed",
    "C31_seen_request_is_cancelled_partial",
    "C31_cancelled_twice_refuted",
    "C31_repeated_batch_refuted",
    "C31_restart_refuted",
    "C31_key_collision_refuted",
    "C31_race_refuted",
    "C31_asked_again_refuted"
   ],
   "note": "What a batch removes is proved in full. A seen request is cancelled if one request and one cancellation arrive with its key and next_batch does not go back; without each of these guards a seen request can be left open (five histories shown)."
  },
  {
   "property": "C32",
   "status": "partial",
   "theorems": [
    "C32_read",
    "C32_response_partial",
    "C32_lost_answers_refuted",
    "C32_panic_refuted"
   ],
   "note": "Proved for the tables under every history, and for each request with everything that may happen while it waits. A change is lost for the client if two answers are lost in a row and the connection expires, or if the handler fails after the read (both shown)."
  },
  {
   "property": "C33",
   "status": "partial",
   "theorems": [
    "C33_client_sees_latest_once",
    "C33_fallback_types_stored",
    "C33_key_counts_stored_partial",
    "C33_key_counts_refuted"
   ],
   "note": "Fallback types: proved in full. Counts: proved unless zero keys are reported for an algorithm not listed before; that case and the empty report are missed by the code (shown)."
  },
  {
   "property": "C34",
   "status": "partial",
   "theorems": [
    "C34_retry_iff_a_section_failed",
    "C34_advances",
    "C34_never_past_unprocessed_data",
    "C34_receipts_and_counts_refuted"
   ],
   "note": "Proved: for every receiver behaviour the poller asks for a retry exactly if some reported failure is not a permanent data error, otherwise all sections were processed; after any history of responses, failures, crashes and restarts the stored position is reached by processed responses only. Missing: failures of receipts, typing and unread counts are not reported, so the position advances past them (C34_receipts_and_counts_refuted)."
  },
  {
   "property": "C35",
   "status": "proved",
   "theorems": [
    "C35_every_room_is_attempted",
    "C35_rest_of_the_room_refuted"
   ],
   "note": "Every joined, left and invited room is attempted up to its first failure, for every order and every failure pattern. C35_rest_of_the_room_refuted records that the rest of a failing room is skipped for good."
  },
  {
   "property": "C36",
   "status": "partial",
   "theorems": [
    "C36_stored_partial",
    "C36_retry_refuted"
   ],
   "note": "Proved if a failed write is always followed by a restart of the process (and hashes of the events seen differ, ids have no bar). A failed write followed by a retry loses the data, for every hash function (C36_retry_refuted)."
  },
  {
   "property": "C37",
   "status": "partial",
   "theorems": [
    "C37_last_given_partial",
    "C37_missing_counter_refuted",
    "C37_failed_query_refuted",
    "C37_key_collision_refuted"
   ],
   "note": "Proved for a user and room whose updates always give the same counters, without failing queries and key collisions; each guard is needed (three histories shown)."
  },
  {
   "property": "C38",
   "status": "proved",
   "theorems": [
    "C38_pack",
    "C38_unpack_of_pack",
    "C38_roundtrip",
    "C38_unthreaded_first",
    "C38_live_updates",
    "C38_delivered_to",
    "C38_private_live",
    "C38_initial",
    "C38_insert",
    "C38_failed_insert",
    "C38_insert_succeeds",
    "C38_two_receipts_refuted"
   ],
   "note": "For every list of receipts, every map order and every sequence of live updates. C38_two_receipts_refuted records that an upstream event with two unthreaded receipts of one user is refused as a whole."
  },
  {
   "property": "C39",
   "status": "proved",
   "theorems": [
    "C39_accepted_iff_no_other_drives",
    "C39_one_at_a_time",
    "C39_takeover"
   ],
   "note": "For every interleaving of updates, stopping pollers and left rooms, with any number of pollers and rooms."
  },
  {
   "property": "C40",
   "status": "proved",
   "theorems": [
    "C40_once_and_in_order",
    "C40_published_when_the_delay_expires",
    "C40_no_delay",
    "C40_other_updates_pass",
    "C40_held_back"
   ],
   "note": "For every history of updates, all-clears, passing time and timers firing in any order; the deadline says: if the timers that are due have fired."
  },
  {
   "property": "C41",
   "status": "partial",
   "theorems": [
    "C41_at_most_once",
    "C41_never_after_a_transaction_id",
    "C41_all_clear_partial",
    "C41_all_clear_is_given",
    "C41_after_five_minutes_refuted",
    "C41_terminated_poller_refuted"
   ],
   "note": "Proved while the event is remembered (five minutes) and the reporting pollers are among the known ones; both guards are needed (shown)."
  },
  {
   "property": "C42",
   "status": "partial",
   "theorems": [
    "C42_never_panics",
    "C42_never_skips",
    "C42_complete_releases",
    "C42_asked",
    "C42_waits_for_the_verdict_partial",
    "C42_expiry_while_waiting_refuted",
    "C42_failure_forgotten_refuted",
    "C42_skips_wait_iff",
    "C42_returns",
    "C42_wait_ends",
    "C42_panic_blocks_refuted",
    "C42_existing_poller_refuted",
    "C42_only_first_poll_limited"
   ],
   "note": "Exact outcome for calls that no restart overlaps; two schedules show that an overlapped call reports success without a sync. On the poller side a call that found a poller reports success even if it was refused, and a panic blocks callers forever."
  },
  {
   "property": "C43",
   "status": "proved",
   "theorems": [
    "C43_at_most_one",
    "C43_ensure",
    "C43_terminated_for_good",
    "C43_deviceIDs",
    "C43_expire_gathers",
    "C43_panicked_not_replaced_refuted",
    "C43_two_goroutines_refuted",
    "C43_num_pollers"
   ],
   "note": "For every interleaving of requests, terminations, syncs, loop ends and panics. Two observations about what 'terminated' does not cover: a poller whose loop panicked counts as not terminated and is never replaced, and a terminated poller may still work on a response while its replacement starts."
  },
  {
   "property": "C44",
   "status": "partial",
   "theorems": [
    "C44_found",
    "C44_removed_for_good",
    "C44_create_replaces",
    "C44_registered_partial",
    "C44_close_device_partial",
    "C44_close_users_partial",
    "C44_stale_callback_refuted",
    "C44_separator_refuted"
   ],
   "note": "What is found is alive, and removal and replacement are final, in every history. Registration and closing are proved for histories where no creation overtakes an expiry callback of the same ID; the race and the separator collision are shown."
  },
  {
   "property": "C45",
   "status": "partial",
   "theorems": [
    "C45_name_follows_the_rules",
    "C45_rules_are_deterministic",
    "C45_unchanged_fields_unchanged_name",
    "C45_limit_on_names_refuted",
    "C45_alone_with_one_hero_refuted"
   ],
   "note": "The name is exactly the one of the rules in RoomNameSpec.v; two details of the written rules are refuted (limit not applied when all others are heroes, bare name when alone with one hero)."
  },
  {
   "property": "C46",
   "status": "partial",
   "theorems": [
    "C46_name_avatar_alias",
    "C46_encrypted_upgraded",
    "C46_type_predecessor",
    "C46_children",
    "C46_counts_times",
    "C46_other_rooms",
    "C46_heroes_distinct",
    "C46_heroes_in_room",
    "C46_heroes_partial",
    "C46_hero_profile_refuted",
    "C46_heroes_lost_refuted",
    "C46_reset",
    "C46_reset_name_refuted",
    "C46_reset_children_refuted"
   ],
   "note": "All fields but heroes proved for every history of events. Heroes are distinct, at most six and in the room; they are exact if at most five users ever came, and wrong otherwise: with six heroes a change of profile is missed, and users who came seventh are never heroes. Reloading a room keeps a name which is no longer in the state and drops all children of a space."
  },
  {
   "property": "C47",
   "status": "partial",
   "theorems": [
    "C47_stored_invites_partial",
    "C47_late_invite_refuted",
    "C47_invite_lost_refuted"
   ],
   "note": "Exact for what is stored over every history. Refuted as a statement about the latest membership: an invite delivered late by a second device stays after the join, and a late state block withdraws a pending invite."
  },
  {
   "property": "C48",
   "status": "partial",
   "theorems": [
    "C48_current_snapshot_is_kept",
    "C48_nothing_else_is_deleted",
    "C48_recent_snapshots_are_kept_partial",
    "C48_state_blocks_push_snapshots_out_refuted"
   ],
   "note": "The current snapshot is always kept. The last events of a room keep their snapshots when state-block events count among them; refuted when only timeline events count, since each state block adds a snapshot without adding to the timeline."
  },
  {
   "property": "C49",
   "status": "partial",
   "theorems": [
    "C49_chunks_partial",
    "C49_no_rows_refuted",
    "C49_wide_rows_never_end_refuted"
   ],
   "note": "For one row or more and a limit that admits a row, the chunks concatenate to the input, none is empty and none exceeds the limit. Without rows there is one empty chunk; if one row exceeds the limit the loop never ends (both proved)."
  },
  {
   "property": "C50",
   "status": "partial",
   "theorems": [
    "C50_success_commits_everything",
    "C50_failure_leaves_no_effect",
    "C50_all_or_nothing",
    "C50_error_means_no_effect_partial",
    "C50_panic_nil_refuted",
    "C50_lost_answer_refuted"
   ],
   "note": "Proved for every body and every server behaviour, except that a body that panics with nil or ends its goroutine is committed half done, and that a lost answer to COMMIT is reported as a failure although the effects stay (both shown)."
  },
  {
   "property": "C51",
   "status": "proved",
   "theorems": [
    "C51_never_lost",
    "C51_notified"
   ],
   "note": "For every interleaving of stores and of any number of concurrent emit calls, with the promises of sync.Map's Range."
  },
  {
   "property": "C52",
   "status": "partial",
   "theorems": [
    "C52_in_order_partial",
    "C52_nothing_missed",
    "C52_position_goes_back_refuted",
    "C52_waiting_updates_refuted",
    "C52_kick_twice_refuted"
   ],
   "note": "Strictly increasing positions, from loads and live updates together, for all histories where an update that brings its own room into view is not older than what the connection processed. Without this, events are sent twice; three schedules show how. C52_nothing_missed: events in view are all delivered, in order."
  },
  {
   "property": "C53",
   "status": "partial",
   "theorems": [
    "C53_scope",
    "C53_visible",
    "C53_typing_live",
    "C53_data_live",
    "C53_live_only_in_scope",
    "C53_receipts_live",
    "C53_typing_initial",
    "C53_data_initial_partial",
    "C53_star_later_refuted",
    "C53_global_data_as_room_refuted",
    "C53_global_data_live"
   ],
   "note": "Scope is exact, live updates are exact per room, and the initial responses are exact for typing and for account data of real rooms. Two deviations are shown: a star that is not the first element, and global account data reported as data of a room with an empty ID."
  },
  {
   "property": "C54",
   "status": "partial",
   "theorems": [
    "C54_sent_once",
    "C54_sent_is_in_response",
    "C54_initial_members",
    "C54_sent_when_needed_partial",
    "C54_key_collision_refuted",
    "C54_empty_timeline_refuted",
    "C54_lost_when_sent_again_refuted",
    "C54_named_member_sent_again_refuted"
   ],
   "note": "Sent at most once for senders and typing users, and sent when needed, for every history. False as stated for rooms sent with an empty timeline, for rooms sent again within one response, and for members also asked for by name."
  },
  {
   "property": "C55",
   "status": "partial",
   "theorems": [
    "C55_in_order",
    "C55_refused_only_when_full",
    "C55_delivered",
    "C55_none_disappears_partial",
    "C55_closed_refuted"
   ],
   "note": "Proved for every schedule of callers, timeouts and one listener, for any buffer size. A send on a closed channel panics instead of returning an error (shown)."
  },
  {
   "property": "C56",
   "status": "partial",
   "theorems": [
    "C56_bound",
    "C56_token_and_since",
    "C56_never_anothers",
    "C56_served_as_registered",
    "C56_racing_registrations",
    "C56_pollers_partial",
    "C56_no_panic",
    "C56_last_token_refuted",
    "C56_foreign_row_refuted",
    "C56_racing_owners_refuted",
    "C56_refused"
   ],
   "note": "Binding proved for every history. The second half is false: if the last token of the query cannot be decrypted, no poller is started. Proved for the case that it can."
  },
  {
   "property": "C57",
   "status": "partial",
   "theorems": [
    "C57_batches",
    "C57_stored_relations_partial",
    "C57_old_state_block_refuted",
    "C57_redacted_relation_refuted"
   ],
   "note": "Exact for every sequence of batches, and for every history of the store in which no state block brings back an old space event and no redaction names one; refuted for both exceptions."
  },
  {
   "property": "C58",
   "status": "partial",
   "theorems": [
    "C58_chain_each_once",
    "C58_terminates_iff_partial",
    "C58_ranked_terminates_partial",
    "C58_call_terminates_partial",
    "C58_response",
    "C58_cycle_refuted",
    "C58_two_cycle_refuted",
    "C58_unknown_room_refuted",
    "C58_listed_room_served_as_old_refuted"
   ],
   "note": "False as stated: cycles of predecessors, and a joined predecessor the connection has no metadata for, make the request loop forever. Proved: the exact condition for termination, each old room once in a chain, and the exact content of the response."
  },
  {
   "property": "C59",
   "status": "proved",
   "theorems": [
    "C59_newer_wins",
    "C59_split_and_join",
    "C59_join_and_split"
   ],
   "note": "For deltas whose states are changed or left, which are the only ones the code makes."
  },
  {
   "property": "C60",
   "status": "partial",
   "theorems": [
    "C60_operations_characterisation",
    "C60_operations_are_well_formed_partial",
    "C60_null_operation_refuted"
   ],
   "note": "A JSON null operation is sent when the only room is removed and position 0 is not in the windows."
  },
  {
   "property": "C61",
   "status": "partial",
   "theorems": [
    "C61_client_is_right_about_every_list_partial",
    "C61_lists_stay_sorted",
    "C61_updates_can_share_a_response",
    "C61_one_position_window_refuted",
    "C61_leaving_get_all_rooms_refuted",
    "C61_unknown_sort_order_refuted"
   ],
   "note": "Proved over every history of updates, list requests and list deletions with known sort orders, windows, and no added one-position window; refuted for those three cases."
  },
  {
   "property": "C62",
   "status": "partial",
   "theorems": [
    "C62_changes_are_reported_partial",
    "C62_avatar_change_missed_refuted"
   ],
   "note": "Refuted for the avatar when a direct chat becomes an ordinary room."
  },
  {
   "property": "C63",
   "status": "partial",
   "theorems": [
    "C63_only_named_events_are_redacted_partial",
    "C63_redaction_in_another_room_refuted"
   ],
   "note": "Only named events change. Refuted: rows are found by event ID alone, so a redaction in one room redacts an event of another."
  },
  {
   "property": "C64",
   "status": "proved",
   "theorems": [
    "C64_prev_batch",
    "C64_closest_token_refuted"
   ],
   "note": "At or after the oldest served event. It need not be the closest such token, which is shown by a refutation of that stronger reading."
  },
  {
   "property": "C65",
   "status": "partial",
   "theorems": [
    "C65_own_events_partial",
    "C65_space_event_in_child_refuted",
    "C65_update_rooms"
   ],
   "note": "False for m.space.child events, which appear in the timeline of the child room; proved for all histories in which updates are for the event's own room."
  },
  {
   "property": "C66",
   "status": "proved",
   "theorems": [
    "C66_in_use_is_kept",
    "C66_unused_is_found"
   ],
   "note": "For every history of requests, each of which is one step, deletions and syncs."
  },
  {
   "property": "C67",
   "status": "partial",
   "theorems": [
    "C67_reported_once",
    "C67_right_partial",
    "C67_all_started",
    "C67_shared_error_refuted"
   ],
   "note": "Each device is reported once, but workers share the error variable, so that overlapping ones report each other's outcome. Right if they do not overlap, or if no poller fails."
  },
  {
   "property": "C68",
   "status": "partial",
   "theorems": [
    "C68_succeeds",
    "C68_joined_members",
    "C68_counts_partial",
    "C68_heroes_partial",
    "C68_name_alias_avatar",
    "C68_latest_events",
    "C68_encryption_kept",
    "C68_room_table",
    "C68_only_invited_refuted",
    "C68_messages_as_state_refuted"
   ],
   "note": "Proved for every reached database (see C23 for what reached asks of event types and state blocks). Invite count and heroes only if somebody is joined: otherwise they are lost. A message with the type of a state event counts as state, so a restarted server can take a room for encrypted or replaced which is not. Children are those of the spaces table (C57)."
  },
  {
   "property": "C69",
   "status": "partial",
   "theorems": [
    "C69_notification_count",
    "C69_highlight_count",
    "C69_invites",
    "C69_invite_present",
    "C69_invite_data",
    "C69_direct",
    "C69_tags",
    "C69_ignored",
    "C69_left_flag",
    "C69_left_partial",
    "C69_rejoined_refuted",
    "C69_direct_in_room_refuted",
    "C69_spaces_partial",
    "C69_own_child_refuted",
    "C69_update_changes_refuted",
    "C69_join_timing",
    "C69_updates"
   ],
   "note": "Proved for every history of calls, for each field. False for a user who rejoins a room without an invite: they are still taken to have left, and the room stays out of lists. Spaces are exact if no room is its own child; the map of spaces in an update is shared with the cache and changes later. Account data m.direct of a room replaces the global list."
  },
  {
   "property": "C70",
   "status": "partial",
   "theorems": [
    "C70_connections_know_partial",
    "C70_spaces_registered",
    "C70_one_cache_partial",
    "C70_lost_update_refuted",
    "C70_orphan_refuted",
    "C70_failed_register_refuted"
   ],
   "note": "False: a notification handled between reading and storing the cache is lost, and reloading a room or a failing registration can leave a connection with a cache that is told nothing. Proved for all schedules without these; children of spaces are never missed."
  },
  {
   "property": "C71",
   "status": "partial",
   "theorems": [
    "C71_as_last_told",
    "C71_in_space_partial",
    "C71_joined_later_refuted",
    "C71_left_later_refuted",
    "C71_told_of_joined_rooms"
   ],
   "note": "What counts is exactly what the user was last told while joined. False for a user who joins a space which the server knows already (its children are never learnt) and after leaving a space; proved if the membership does not change after the user was registered. State blocks of new rooms are left out."
  },
  {
   "property": "C72",
   "status": "partial",
   "theorems": [
    "C72_every_update_once",
    "C72_refused_after_loss",
    "C72_lost_only_when_full",
    "C72_no_gap_partial",
    "C72_ends",
    "C72_response",
    "C72_waits",
    "C72_never_stuck",
    "C72_caught_up",
    "C72_gap_refuted"
   ],
   "note": "Proved for every schedule, but for one detail: a request that is in flight when an update is lost can handle a later update of another sender without it. Proved without that if never two senders are blocked at once."
  },
  {
   "property": "C73",
   "status": "partial",
   "theorems": [
    "C73_one_at_a_time",
    "C73_as_if_in_turn",
    "C73_newer_ends_older_partial",
    "C73_told_only_for_cause",
    "C73_closed_partial",
    "C73_closed_is_not_found",
    "C73_full_wait_when_up_to_date",
    "C73_never_stuck",
    "C73_bounded",
    "C73_waiting_not_told_refuted",
    "C73_closed_after_rejected_refuted",
    "C73_older_ends_newer_refuted"
   ],
   "note": "Proved: served in turn, linearizable, no deadlock, ended only for cause. False: a request that waits for its turn when a newer one arrives is not ended by it, and closing a connection ends only the request that came last, even if that one was rejected for its parameters. Proved for a request that is being served when the newer one arrives."
  },
  {
   "property": "C74",
   "status": "partial",
   "theorems": [
    "C74_only_ids_differ",
    "C74_never_wrong",
    "C74_sender_is_shown_partial",
    "C74_sender_is_shown_once_partial",
    "C74_others_see_first_copy",
    "C74_nobody_else_partial",
    "C74_nobody_else_refuted",
    "C74_sender_is_shown_refuted"
   ],
   "note": "False: the table of events deletes unsigned.txn_id and not unsigned.transaction_id, so if the poller of the sending device is first, everyone is shown the ID; and one ID that is recorded already makes recording all IDs of a timeline fail. Proved that an ID is never wrong, and both halves with guards against these two."
  },
  {
   "property": "C75",
   "status": "partial",
   "theorems": [
    "C75_asks_from_position",
    "C75_advances_when_all_is_handled",
    "C75_to_device_last",
    "C75_expires_only_if",
    "C75_goes_on",
    "C75_sleeps_after_failures",
    "C75_releases",
    "C75_ended_releases",
    "C75_saves",
    "C75_nothing_is_skipped",
    "C75_outage_refuted",
    "C75_panic_never_releases_refuted"
   ],
   "note": "Proved for every trace. False: after a thousand failed requests, about an hour of outage, the token is given up though it was never refused; and a poller which panics before its first response was handled never releases those who wait."
  },
  {
   "property": "C76",
   "status": "partial",
   "theorems": [
    "C76_none_lost_partial",
    "C76_stored_once_partial",
    "C76_stored_once_without_crash",
    "C76_stored_once_refuted",
    "C76_none_lost_refuted"
   ],
   "note": "No message is lost, wherever the server crashes, unless the database refuses it as bad data. Stored once and in order if no crash comes between storing messages and storing the position; such a crash has them stored twice (shown)."
  },
  {
   "property": "C77",
   "status": "partial",
   "theorems": [
    "C77_follows_partial",
    "C77_was_so_partial",
    "C77_load_tells",
    "C77_event_tells",
    "C77_counts_tell",
    "C77_counts_go_back_refuted",
    "C77_name_lost_refuted",
    "C77_loaded_between_refuted",
    "C77_dropped_refuted",
    "C77_typing_clears_counts_refuted",
    "C77_direct_refuted"
   ],
   "note": "False in six ways, each with a concrete history: a held-back message brings old unread counts back; a change of name is lost when somebody types while it is held back; a load between two changes that cancel out; a change dropped with an ignored message; typing members reset unread counts; is_dm is never sent again. Proved for every history in which these circumstances do not arise. Timestamps, heroes and invites are left out."
  },
  {
   "property": "C78",
   "status": "partial",
   "theorems": [
    "C78_timeline_arrives_partial",
    "C78_up_to_date_partial",
    "C78_catches_up_partial",
    "C78_lost_when_query_fails_refuted",
    "C78_duplicate_refuted"
   ],
   "note": "False in two ways, each with a concrete history: if the query for new events fails when their message is received, they are never shown though later ones are; and events held back for transaction IDs are sent twice if the first of them brings the room into view after the connection went on with another room. Proved for every history without these, in which the user stays in the room and ignores nobody. Overflow of the buffer (C72) and space events (C65) are left out."
  },
  {
   "property": "C79",
   "status": "partial",
   "theorems": [
    "C79_upgrade",
    "C79_first_read",
    "C79_crashes",
    "C79_once",
    "C79_rooms",
    "C79_dead_invites",
    "C79_stuck_invites",
    "C79_back_to_json_partial",
    "C79_new_invite_refuted",
    "C79_step_back_refuted",
    "C79_too_many_refuted"
   ],
   "note": "The upgrade itself is proved. False for an invite that is newer than the room's state, which is removed though the homeserver will not send it again; for going back before the table of device list changes, which loses them; and for going back to JSON with more than 131072 changes for one device, which is refused. Each with a concrete database."
  },
  {
   "property": "C80",
   "status": "partial",
   "theorems": [
    "C80_private_partial",
    "C80_events",
    "C80_invites",
    "C80_invited_only",
    "C80_accepted",
    "C80_subscriptions",
    "C80_state_partial",
    "C80_listed_partial",
    "C80_window_after_kick_refuted",
    "C80_refused_invite_refuted",
    "C80_refused_invite_crash_refuted",
    "C80_banned_refuted",
    "C80_left_refuted",
    "C80_overtaken_refuted",
    "C80_before_join_refuted",
    "C80_note_refuted"
   ],
   "note": "Proved without condition for events as they happen, for invites, and for the metadata of subscribed rooms. False for rooms that come into a window, since the tracker is not asked for them: after a kick or a refused invite until the connection has got round to it, and for ever after a ban or after leaving of one's own accord, because the room stays in the lists (C81). required_state is read at an anchor that other rooms move on, so it can be of a time after a kick that is not yet handed out, or before the join. Each with a concrete history. Proved for every history in which nothing is asked at such a time. Timelines of rooms sent with initial: true are C27's."
  },
  {
   "property": "C81",
   "status": "partial",
   "theorems": [
    "C81_goes_partial",
    "C81_invited_partial",
    "C81_by_choice_refuted",
    "C81_banned_refuted"
   ],
   "note": "Proved for kicks, refused invites, and invites. False for leaving of one's own accord: the update that says so has no position and is dropped, as behind what was loaded, for every room that was there when the connection was set up or that was shown. False for bans: the poller passes on memberships of leave only. Each with a concrete history."
  },
  {
   "property": "C82",
   "status": "partial",
   "theorems": [
    "C82_rooms_partial",
    "C82_global_partial",
    "C82_nothing_invented",
    "C82_shifted_in_refuted",
    "C82_tagged_in_refuted",
    "C82_same_response_refuted",
    "C82_enabled_later_refuted"
   ],
   "note": "Holds for rooms that enter the scope with a request or with an update of their own other than account data, and for global data if the extension is enabled from the first request on. Refuted for rooms shifted into view by another room, for rooms brought in by their own account data, for rooms that leave and come back within one response, and for an extension enabled later. Unconditionally no data is given that was not stored for that room."
  },
  {
   "property": "C83",
   "status": "partial",
   "theorems": [
    "C83_typing_partial",
    "C83_nothing_invented",
    "C83_shifted_in_refuted",
    "C83_held_refuted"
   ],
   "note": "Refuted for rooms shifted into view by another room's update, and when an event is held back for its transaction ID while typing changes: its old copy is sent after the new event. Unconditionally a client is given only typing events of that room."
  },
  {
   "property": "C84",
   "status": "partial",
   "theorems": [
    "C84_own_partial",
    "C84_later_partial",
    "C84_not_newer",
    "C84_private",
    "C84_entered_live_refuted",
    "C84_earlier_refuted",
    "C84_step_back_refuted",
    "C84_threaded_refuted",
    "C84_broken_store_refuted"
   ],
   "note": "Proved for receipts without a thread if no poller brings back an older receipt, for the user's own receipts if the room comes into scope by a request, and for those of others from then on. That private receipts of others never get to a client is proved without hypotheses. Refuted: a room that comes into view because of an update gets no receipts; receipts of others at events that are not in the timeline are not sent; a poller that lags behind overwrites a newer receipt; threaded receipts at an event with another receipt of the user are dropped; a receipt is lost if the database fails."
  },
  {
   "property": "C85",
   "status": "partial",
   "theorems": [
    "C85_no_gate_panic",
    "C85_answered_partial",
    "C85_polled_partial",
    "C85_settled_partial",
    "C85_token_gone_refuted",
    "C85_orphan_refuted",
    "C85_misreported_refuted"
   ],
   "note": "False of the code: a token refused between the lookup of a request's token and its coming to the gate blocks the request and every later one for the device until a restart; a request between the announcement and the termination of a refused poller, or success misreported at startup, leave a device let through for ever that nobody polls for. Proved without these."
  },
  {
   "property": "C86",
   "status": "partial",
   "theorems": [
    "C86_one_device",
    "C86_positions_partial",
    "C86_everything_partial",
    "C86_missing_partial",
    "C86_heard",
    "C86_logout_refuted",
    "C86_restart_refuted",
    "C86_first_sync_refuted",
    "C86_panic_refuted"
   ],
   "note": "Proved for users with one device, and for several devices as long as a poller ends, or begins by skipping, only while another device in charge will hear of what is missing. Refuted in general: logging out of the first device before its poller heard of what the second one skipped loses it for good (C86_logout_refuted), also in the middle of the first sync, where all rooms are lost (C86_first_sync_refuted); after a restart a client that is faster than the start of the pollers does the same without any poller ending (C86_restart_refuted); a poller that panicked still counts as polling (C86_panic_refuted)."
  },
  {
   "property": "C87",
   "status": "partial",
   "theorems": [
    "C87_others_partial",
    "C87_one_silent_partial",
    "C87_waits_once",
    "C87_two_refuted",
    "C87_staggered_refuted"
   ],
   "note": "Proved for all runs: every connection that is not read is waited for once only, 5 seconds altogether; if callers wait for each other and handling no notification takes longer than 5 seconds, nothing is refused and who reads gets exactly what was meant for them, in order; if only one connection is not read, that holds whoever calls when. In general false: two connections that get full with the same notification make the handler wait for 10 seconds, callers give up after 5, ignore the error, and a client that reads never gets the notification; with callers that do not wait for each other, two connections that get full one after the other are enough."
  },
  {
   "property": "C88",
   "status": "partial",
   "theorems": [
    "C88_served",
    "C88_one_answer_partial",
    "C88_malformed",
    "C88_errors",
    "C88_own",
    "C88_empty_token_refuted",
    "C88_encoding_refuted",
    "C88_no_effect_refuted",
    "C88_bad_position_refuted",
    "C88_nameless_refuted"
   ],
   "note": "Proved for all requests: the equivalence; the table of errors; effects are only for the bearer of the token; a bad body or a missing token has no effect; one answer, if the token is not the empty one and writing works. Otherwise false: an empty token makes the handler panic, and there is no answer; a response that cannot be encoded gives an answer with status 200 and an error as its body; a bad timeout is refused only after the connection was replaced, which ends the client's session; a bad pos is reported as M_UNKNOWN_POS when there is no session; a homeserver that says yes without naming anybody makes the token one of the user with the empty name."
  },
  {
   "property": "C89",
   "status": "proved",
   "theorems": [
    "C89_request",
    "C89_poll",
    "C89_tokens_differ"
   ],
   "note": "Proved for all tokens. The text of encoding/json for the filter is taken as documented, and so is which bytes QueryEscape escapes."
  },
  {
   "property": "C90",
   "status": "partial",
   "theorems": [
    "C90_in_turn_partial",
    "C90_not_a_hero_partial",
    "C90_lost_refuted",
    "C90_changed_refuted",
    "C90_panic_refuted",
    "C90_twice_refuted"
   ],
   "note": "Proved for any number of connections that take turns with the update, whenever responses are encoded; and for all alternations if the user is not among the heroes. Otherwise false: RemoveHero shifts the array that the connections share, so two connections at once can lose a hero from the name, change the heroes of a response that is ready, panic in one of the requests, or keep a hero twice."
  },
  {
   "property": "C91",
   "status": "partial",
   "theorems": [
    "C91_members",
    "C91_afresh_partial",
    "C91_others",
    "C91_failed_query_refuted",
    "C91_survivor_refuted"
   ],
   "note": "The members part and the others part are proved. Starting afresh holds for histories in which no connection was made while an expired one of the same name was still to be cleared up (otherwise refuted: the connection survives without cache and registration), and only if the database answers (refuted: nothing is reloaded or retried)."
  },
  {
   "property": "C92",
   "status": "partial",
   "theorems": [
    "C92_shown_partial",
    "C92_updated",
    "C92_successor_refuted",
    "C92_left_refuted",
    "C92_all_rooms_refuted"
   ],
   "note": "Proved for all histories for rooms the user has not left and whose successor room (if any) the user does not come into or go from. False otherwise: joining the successor does not take the old room out, and leaving it does not bring it back, until the old room itself changes; a list made later shows rooms that were left; for a list with slow_get_all_rooms a change of filters is never applied - the old list is sent again and goes on being kept by the old filters."
  },
  {
   "property": "C93",
   "status": "partial",
   "theorems": [
    "C93_any_event_partial",
    "C93_types_partial",
    "C93_ranked_by_types_partial",
    "C93_timestamp_partial",
    "C93_new_list_refuted",
    "C93_changed_types_refuted",
    "C93_shown_first_refuted",
    "C93_joined_refuted",
    "C93_clocks_refuted",
    "C93_two_events_refuted"
   ],
   "note": "Proved without restrictions for lists that never ask for types. With types it holds for lists that are in the first request with types that never change, and for rooms whose timestamps do not go back before the connection is set up, that are not known before the join and are not sent as a whole while their events are on their way; each of these is needed: a list added later or with changed types keeps the old timestamps, an event held back while the room is sent is never counted, account data before the join make the join not count, setting up goes by the greatest timestamp. The timestamp in a response with two events of a room stays that of the first if no types are asked for."
  },
  {
   "property": "C94",
   "status": "partial",
   "theorems": [
    "C94_sent_partial",
    "C94_all_rooms_partial",
    "C94_updated_partial",
    "C94_switched_on_refuted",
    "C94_gone_refuted"
   ],
   "note": "Proved for requests that always ask for all rooms, in orders that exist, and for membership with the same filters and a steady successor room (as C92). False otherwise: turning the option on for an existing list sends nothing; a room that goes from the list is not reported as an operation."
  },
  {
   "property": "C95",
   "status": "partial",
   "theorems": [
    "C95_responses_partial",
    "C95_rooms_partial",
    "C95_left_refuted",
    "C95_count_alone_refuted"
   ],
   "note": "Proved for the requests of C61 (windows with known sort orders, no lone new position, not all rooms) and, for which rooms are in a list, while no room is replaced by another. False: rooms the user left are counted in a list made afterwards; a changed count alone does not end the wait."
  },
  {
   "property": "C96",
   "status": "partial",
   "theorems": [
    "C96_in_turn",
    "C96_results",
    "C96_workers",
    "C96_answered",
    "C96_goes_on",
    "C96_shut",
    "C96_panic_partial",
    "C96_panic_refuted"
   ],
   "note": "All but the last clause holds. A panic in a handler of something that users share, or of end-to-end encryption data, outside of a database transaction is in the executor's or a worker's goroutine, where nobody recovers: it ends the process for all users (C96_panic_refuted), although Poll recovers from panics of what it handles itself (C96_panic_partial)."
  },
  {
   "property": "C97",
   "status": "partial",
   "theorems": [
    "C97_follows_partial",
    "C97_picture_refuted",
    "C97_switched_on_refuted",
    "C97_two_lists_refuted",
    "C97_emptied_refuted"
   ],
   "note": "False in four ways: a hero who changes only their picture is not sent again (C97_picture_refuted); asking for heroes of a room already in view gets none until the name changes (C97_switched_on_refuted); a room which two lists bring into view comes without heroes because combining subscriptions drops include_heroes (C97_two_lists_refuted); when no heroes are left the empty list is left out of the response, so the client keeps the old ones (C97_emptied_refuted). C97_follows_partial excludes these, state written without an update (C77), and updates that are dropped or that are no events carrying news."
  },
  {
   "property": "C98",
   "status": "partial",
   "theorems": [
    "C98_longer_timeline_partial",
    "C98_other_state_partial",
    "C98_new_rooms_partial",
    "C98_subscribed_partial",
    "C98_nothing_else",
    "C98_all_rooms_refuted",
    "C98_heroes_refuted",
    "C98_not_taken_over_refuted"
   ],
   "note": "True of timelines and state of rooms in the windows of a list, and of subscriptions. False of lists that ask for all rooms and have no windows (C98_all_rooms_refuted) and of heroes and old rooms (C98_heroes_refuted); a subscription in which only these change is not even taken over for later updates (C98_not_taken_over_refuted). A new window of a single position sends nothing, see C05. That what is asked for is what is loaded is C16, C17 and C28."
  },
  {
   "property": "C99",
   "status": "partial",
   "theorems": [
    "C99_enough",
    "C99_enough_first",
    "C99_waits_with_nothing",
    "C99_timed_out_with_nothing",
    "C99_at_once",
    "C99_account_data_stays",
    "C99_typing_stays",
    "C99_count_refuted",
    "C99_first_refuted"
   ],
   "note": "True of everything but the counts of lists: a room that comes to a list outside the windows changes its count, and nobody is told until something else happens (C99_count_refuted). The first request of a client without rooms, which asks for no extensions, waits as long as it said although the client does not know its lists are empty (C99_first_refuted)."
  }
 ]
}