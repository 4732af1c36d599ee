{"claims": [
  {"property": "C01", "status": "proved", "theorems": ["C01_broker_recipients_exact", "C01_subscription_index_exact"], "note": ""},
  {"property": "C02", "status": "proved", "theorems": ["C02_topics_of_interest_exact", "C02_nothing_leaks"], "note": ""},
  {"property": "C03", "status": "proved", "theorems": ["C03_broadcast_from_user_exactly_once", "C03_broadcast_from_broker_exactly_once", "C03_broadcast_without_valid_topic"], "note": ""},
  {"property": "C04", "status": "proved", "theorems": ["C04_broker_frames_go_to_users_only", "C04_relay_to_broker_comes_from_user_loop"], "note": ""},
  {"property": "C05", "status": "proved", "theorems": ["C05_direct_from_user", "C05_direct_from_broker"], "note": ""},
  {"property": "C06", "status": "proved", "theorems": ["C06_user_frame_forwarded_unchanged", "C06_broker_frame_forwarded_unchanged", "C06_relayed_bytes_were_received"], "note": ""},
  {"property": "C07", "status": "proved", "theorems": ["C07_directory_iff_connected"], "note": ""},
  {"property": "C08", "status": "proved", "theorems": ["C08_gauges_exact"], "note": ""},
  {"property": "C09", "status": "proved", "theorems": ["C09_registered_is_latest", "C09_tasks_accounted", "C09_tasks_conserved", "C09_registered_loop_not_aborted"], "note": ""},
  {"property": "C10", "status": "proved", "theorems": ["C10_remove_user_frame", "C10_remove_broker_frame"], "note": ""},
  {"property": "C11", "status": "proved", "theorems": ["C11_interested_brokers_connected"], "note": ""},
  {"property": "C12", "status": "partial", "theorems": ["C12_users_connected_refuted", "C12_users_connected_guarded"], "note": "False as stated: C12_users_connected_refuted exhibits a schedule of the real code (a subscribe handled between removal of the user and cancellation of its loop). C12_users_connected_guarded proves the claim for every schedule in which subscriptions are performed only while the user is registered."},
  {"property": "C13", "status": "proved", "theorems": ["C13_reads_like_a_map"], "note": ""},
  {"property": "C14", "status": "proved", "theorems": ["C14_delta_exact", "C14_every_change_is_sent", "C14_second_delta_empty", "C14_iteration_order_irrelevant"], "note": ""},
  {"property": "C15", "status": "proved", "theorems": ["C15_merge_last_writer_wins", "C15_merge_changes_exact", "C15_merge_changes_once", "C15_merge_order_irrelevant"], "note": ""},
  {"property": "C16", "status": "proved", "theorems": ["C16_merge_idempotent", "C16_merge_never_goes_backwards", "C16_merge_deletes_only_for_newer"], "note": ""},
  {"property": "C17", "status": "proved", "theorems": ["C17_versions_bounded", "C17_increment_never_wraps"], "note": ""},
  {"property": "C18", "status": "proved", "theorems": ["C18_topic_sync_converges"], "note": ""},
  {"property": "C19", "status": "proved", "theorems": ["C19_advertisements_exact"], "note": ""},
  {"property": "C20", "status": "partial", "theorems": ["C20_three_brokers_disagree_refuted", "C20_disconnects_disagree_refuted", "C20_full_sync_stale_refuted", "C20_sequential_agreement_partial"], "note": "False as stated: three refutations (three brokers with a tie; deletions forgotten by their author; full copy taken while a change is unsent). Proved for any number of brokers over FIFO links when, per user, one broker at a time makes changes. Missing: nothing that holds is known to be left out; the code would have to change for the full statement."},
  {"property": "C21", "status": "proved", "theorems": ["C21_two_brokers_agree"], "note": "Under connects only, as stated; with disconnects it is false (C20_disconnects_disagree_refuted)."},
  {"property": "C22", "status": "proved", "theorems": ["C22_exactly_one_connection"], "note": ""},
  {"property": "C23", "status": "partial", "theorems": ["C23_no_news_disconnects_refuted", "C23_no_news_exact_partial"], "note": "False as stated: C23_no_news_disconnects_refuted. C23_no_news_exact_partial proves exactly when it holds (sender not greater than receiver) and exactly who is dropped otherwise."},
  {"property": "C24", "status": "partial", "theorems": ["C24_network_no_duplicates", "C24_network_order_same_loop", "C24_network_order_one_link", "C24_network_order_refuted", "C24_loop_order_on_connection", "C24_frame_once_per_peer"], "note": "No duplicates: proved for the whole network. Order: proved for frames reaching the delivering broker through one receive loop, and whenever there has been only one link between the two brokers; false in general (C24_network_order_refuted: a replaced link lets a later message overtake an earlier one)."},
  {"property": "C25", "status": "proved", "theorems": ["C25_network_delivery", "C25_network_recipient", "C25_delivery_has_a_reason"], "note": "Proved for every network history. Message hooks may rewrite messages, so C25_network_delivery speaks of the message as the hook of the delivering broker left it; C25_network_recipient of the published message when hooks do not rewrite."},
  {"property": "C26", "status": "proved", "theorems": ["C26_broadcast_complete", "C26_direct_complete", "C26_broadcast_finishes", "C26_direct_finishes", "C26_overlapping_broadcasts", "C26_overlapping_directs", "C26_overlapping_finish"], "note": "Any number of overlapping publications between two moments at which the network is at rest, with the network synchronised at the first. C26_overlapping_finish shows that rest is always reachable."},
  {"property": "C27", "status": "proved", "theorems": ["C27_embedded_single_use", "C27_redis_single_use", "C27_embedded_count", "C27_redis_count"], "note": ""},
  {"property": "C28", "status": "proved", "theorems": ["C28_embedded_binding", "C28_embedded_validation_not_expired", "C28_redis_binding", "C28_fresh_accepted", "C28_embedded_expiry_window_refuted"], "note": "C28_embedded_expiry_window_refuted records that SQLite tests the expiry at the start of the validation only; the not-expired part holds at that moment (C28_embedded_validation_not_expired)."},
  {"property": "C29", "status": "proved", "theorems": ["C29_admission_requires_authentication", "C29_admissions_bounded", "C29_one_key_one_name_refuted"], "note": "C29_one_key_one_name_refuted records that keys are registered as sent, so that a codec accepting several encodings gives one key several names."},
  {"property": "C30", "status": "partial", "theorems": ["C30_permits_only_for_whitelisted", "C30_embedded_whitelist", "C30_redis_whitelist", "C30_backends_agree", "C30_backends_agree_refuted"], "note": "False as stated for empty lists and lists with repetitions, on which the back ends differ (C30_backends_agree_refuted); agreement is proved for all other lists, and the exact answer of each back end for all lists."},
  {"property": "C31", "status": "proved", "theorems": ["C31_window", "C31_window_checked", "C31_wraparound_refuted"], "note": "C31_wraparound_refuted records the wrap of the unchecked subtraction for clocks before the fifth second of 1970."},
  {"property": "C32", "status": "proved", "theorems": ["C32_namespaces_disjoint", "C32_timestamp_determined"], "note": ""},
  {"property": "C33", "status": "proved", "theorems": ["C33_handshake_requires_broker_key"], "note": ""},
  {"property": "C34", "status": "proved", "theorems": ["C34_handshake_completes", "C34_clock_skew_refuted"], "note": "C34_clock_skew_refuted shows that the hypothesis of synchronised clocks is needed: one second of skew fails."},
  {"property": "C35", "status": "proved", "theorems": ["C35_exactly_one_dials", "C35_only_unconnected_listed", "C35_exactly_one_dials_embedded", "C35_exactly_one_dials_redis"], "note": ""},
  {"property": "C36", "status": "proved", "theorems": ["C36_roundtrip", "C36_parse_fails_without_separator", "C36_printing_injective", "C36_total_order"], "note": ""},
  {"property": "C37", "status": "partial", "theorems": ["C37_embedded_least", "C37_redis_least_connections_partial", "C37_redis_permits_ignored_refuted", "C37_embedded_global_permits_not_counted"], "note": "Proved for SQLite with per-broker permits. Redis ignores outstanding permits (C37_redis_permits_ignored_refuted); for it minimality in the number of connections is proved. With global permits SQLite counts none either."},
  {"property": "C38", "status": "proved", "theorems": ["C38_prune_keeps_exactly_valid_in_order", "C38_prune_members", "C38_prune_fails_iff_none_valid", "C38_prune_removes_all_duplicates_refuted"], "note": "Prune removes only adjacent repetitions, as stated; C38_prune_removes_all_duplicates_refuted records that other repetitions survive."},
  {"property": "C39", "status": "proved", "theorems": ["C39_framing_lossless", "C39_truncated_stream", "C39_pieces", "C39_bytes_on_transport"], "note": ""},
  {"property": "C40", "status": "proved", "theorems": ["C40_oversized_refused", "C40_allocations_within_limit", "C40_within_limit_accepted", "C40_sender_unchecked_refuted"], "note": "C40_sender_unchecked_refuted records that the sender does not check the limit itself."},
  {"property": "C41", "status": "proved", "theorems": ["C41_received_prefix_of_sent", "C41_nothing_lost"], "note": ""},
  {"property": "C42", "status": "proved", "theorems": ["C42_soft_close_flushes"], "note": ""},
  {"property": "C43", "status": "proved", "theorems": ["C43_pool_bounds_memory", "C43_capacity_conserved", "C43_kept_while_copies_exist", "C43_returned_with_last_copy", "C43_message_sizes"], "note": ""},
  {"property": "C44", "status": "partial", "theorems": ["C44_fitting_messages_received_partial", "C44_default_pool", "C44_larger_than_pool_refuted"], "note": "False for pools smaller than the message (C44_larger_than_pool_refuted: such a message blocks every connection of the broker for ever). Proved for pools no smaller than the largest message, in particular for the default pool."},
  {"property": "C45", "status": "proved", "theorems": ["C45_round_trip", "C45_context_is_text", "C45_encodes_iff", "C45_encoding_injective", "C45_encoding_size", "C45_encoding_octets", "C45_through_a_stream"], "note": "Model of the capnp builder and reader (segments, far pointers, segment table, traversal limit). Lists of 2^29 elements or more make the code panic (C45_encodes_iff), which is outside \"any message\" that can be framed. Contexts are the UTF-8 bytes of sequences of Unicode scalar values (Utf8Spec), and those are exactly the contexts that come back (C45_context_is_text)."},
  {"property": "C46", "status": "proved", "theorems": ["C46_decoding_is_safe", "C46_memory_bounded", "C46_decoded_is_real"], "note": "Bounds: 120+2n bytes read, 2n bytes in the message, 8n bytes taken for segments (attained: C46_memory_case). What is decoded is a value of the code's types (C46_decoded_is_real)."},
  {"property": "C47", "status": "partial", "theorems": ["C47_one_attempt", "C47_attempt_only_without_connection", "C47_given_up_after_error_partial", "C47_replaced_only_after_its_error_refuted"], "note": "The second half is false as stated: C47_replaced_only_after_its_error_refuted (a late error on the old connection takes away the new one). Proved: one attempt at a time, never while a connection is shared, and a connection is given up only after an error on it or on an older one."},
  {"property": "C48", "status": "partial", "theorems": ["C48_topics_match_partial", "C48_early_subscribe_refuted"], "note": "Proved for the client and for a broker that handles the requests of a connection in order, up to topics the broker does not know. False for the broker as it is: C48_early_subscribe_refuted (a request handled before the user is registered is lost)."},
  {"property": "C49", "status": "partial", "theorems": ["C49_closed_stays_closed_partial", "C49_pending_receive_refuted", "C49_close_never_returns_refuted", "C49_close_ends_reconnection_partial"], "note": "False as stated: a pending receive keeps its connection and may succeed (C49_pending_receive_refuted), and close may never return (C49_close_never_returns_refuted). C49_closed_stays_closed_partial proves the rest: nothing shared, no attempt, no connection, and every call started afterwards fails. C49_close_ends_reconnection_partial: close returns while a reconnection is running, which is aborted."},
  {"property": "C50", "status": "partial", "theorems": ["C50_redundant_call_disconnects_refuted", "C50_effective_call_harmless_partial"], "note": "False for every redundant call: C50_redundant_call_disconnects_refuted. Proved harmless for calls that change at least one topic the broker knows."},
  {"property": "C51", "status": "proved", "theorems": ["C51_user_frame_isolated", "C51_user_loop_isolated"], "note": ""},
  {"property": "C52", "status": "partial", "theorems": ["C52_old_failure_removes_new_refuted", "C52_old_send_failure_removes_new_refuted", "C52_why_a_connection_goes"], "note": "False as stated: two refutations (failing receive loop of the old connection; failing send on the old connection). C52_why_a_connection_goes proves the exhaustive list of causes by which a registered user connection can disappear."},
  {"property": "C53", "status": "partial", "theorems": ["C53_registered_without_loop_refuted", "C53_registered_has_live_loop_guarded"], "note": "False as stated: C53_registered_without_loop_refuted. Proved under the hypothesis that receive loops handle their first event after registration."},
  {"property": "C54", "status": "partial", "theorems": ["C54_early_subscribe_lost_refuted", "C54_early_topic_sync_lost_refuted", "C54_subscribe_takes_effect", "C54_topic_sync_takes_effect_when_registered"], "note": "False as stated: an early Subscribe and an early TopicSync are lost. Proved: updates handled while the peer is registered take effect."},
  {"property": "C55", "status": "proved", "theorems": ["C55_embedded_membership", "C55_redis_membership", "C55_connection_count", "C55_slash_refuted"], "note": ""},
  {"property": "C56", "status": "partial", "theorems": ["C56_reflection_refuted"], "note": "False: C56_reflection_refuted, for every key and identifier, the peer completes the handshake by sending the dialling broker its own request back."},
  {"property": "C57", "status": "partial", "theorems": ["C57_recovery_possible_partial", "C57_never_reconnects_refuted"], "note": "False: C57_never_reconnects_refuted. Proved: recovery is possible from every state in which no subscribe or unsubscribe call is pending."},
  {"property": "C58", "status": "partial", "theorems": ["C58_error_means_closed", "C58_success_without_connection_refuted"], "note": "The first half is false: C58_success_without_connection_refuted. The second half is proved."},
  {"property": "C59", "status": "partial", "theorems": ["C59_memory_is_held", "C59_memory_comes_back", "C59_no_deadlock_while_writes_succeed", "C59_reader_that_stops_refuted"], "note": "False: C59_reader_that_stops_refuted (a closed queue keeps its memory until the next message for that user, which cannot be received when the pool is full). Proved: every byte in use belongs to a message somebody has, all memory comes back when nothing is pending, and as long as no write fails the broker cannot get stuck."},
  {"property": "C60", "status": "partial", "theorems": ["C60_pipes_not_shared", "C60_joined_one_at_a_time", "C60_crossed_refuted", "C60_shifted_for_ever_refuted", "C60_bind_waits_refuted"], "note": "False when two callers overlap (C60_crossed_refuted), after one caller gave up (C60_shifted_for_ever_refuted: all later connections are wired wrongly), and binding waits for connectors (C60_bind_waits_refuted). Proved: pipes are never shared, and with one connector at a time the two directions belong together."},
  {"property": "C61", "status": "proved", "theorems": ["C61_failed_send_removes_user", "C61_failed_send_removes_broker"], "note": "The removal is the next step of the same task; the code does not suspend between the two."},
  {"property": "C62", "status": "proved", "theorems": ["C62_new_broker_is_told_everything"], "note": "For a handling task that runs to its end without a failed send (otherwise C61 applies). Serialisation failures of the own maps are not modelled."},
  {"property": "C63", "status": "proved", "theorems": ["C63_round_reaches_every_broker", "C63_arrival_announced_to_every_broker"], "note": "For a round that runs to its end without a failed send. What the change contains: C19, C20."},
  {"property": "C64", "status": "proved", "theorems": ["C64_topics_settle", "C64_directory_settles", "C64_only_known_topics", "C64_settled_is_synchronised", "C64_settled_broadcast_complete", "C64_settled_direct_complete"], "note": "Hypotheses: sync messages decode to what was encoded, hooks let them pass unchanged, frames are processed only after their connection is registered (without it: C54), fewer than 2^64 steps, subscriptions by connected users (without it: C53), and for the directory that the user was admitted once in the network (without it: C20-C23). Seen from a broker that shares a link with every broker that has users."},
  {"property": "C65", "status": "proved", "theorems": ["C65_comes_to_rest", "C65_round_can_be_completed", "C65_two_rounds_settle", "C65_second_round_disconnects_nobody", "C65_can_always_settle", "C65_one_round_is_not_enough"], "note": "Coming to rest needs no hypothesis. For the two rounds: sync messages decode to what was encoded; what brokers then know of each other needs the hypotheses of C64. That one round is not enough is shown by a concrete network."},
  {"property": "C66", "status": "proved", "theorems": ["C66_honest_user_admitted", "C66_unlucky_number_refuted"], "note": "A login is one run of the protocol on two connections that nothing breaks off; that a live broker is named is C37. C66_unlucky_number_refuted shows that the restriction on the number is needed: a draw of 0 or 1 fails the login."},
  {"property": "C67", "status": "proved", "theorems": ["C67_connected_means_validated", "C67_registrations", "C67_only_the_user_registered", "C67_connected_not_registered_refuted", "C67_reused_number_refuted", "C67_guessed_number_refuted"], "note": "Each premise is needed: C67_reused_number_refuted, C67_guessed_number_refuted. C67_connected_not_registered_refuted: success does not imply registration. Signatures are an arbitrary function; that a stranger has no valid signature is a premise."},
  {"property": "C68", "status": "proved", "theorems": ["C68_running_broker_alive", "C68_running_broker_listed", "C68_two_failures_refuted", "C68_stopped_broker_vanishes", "C68_missing_link_retried", "C68_dials_only_with_a_list"], "note": "C68_two_failures_refuted shows that the bound is sharp for slow calls. Sleeping lasts exactly ten seconds and computing takes no time; a call that timed out writes nothing later; clocks agree."},
  {"property": "C69", "status": "proved", "theorems": ["C69_broadcast_end_to_end", "C69_direct_end_to_end", "C69_only_published_messages"], "note": "Composition of C26, C64, C65 with C45 and C39. rkyv is an arbitrary pair of functions of which packing followed by unpacking is the identity. Sync messages of 2^29 bytes or more, on which the code panics, are represented by lists that are no byte strings. After the two rounds nothing else happens until the message has been passed on (C26 covers overlapping messages)."},
  {"property": "C70", "status": "proved", "theorems": ["C70_only_admitted_keys_take_part", "C70_only_the_owner_reads", "C70_only_owners_write", "C70_guessed_number_refuted"], "note": "Composition of C25 and C67. The premises on signatures, permits and numbers are needed: C70_guessed_number_refuted (a stranger who guesses the number reads the messages). Permits are random numbers of 32 (SQLite) or 64 (Redis) bits."},
  {"property": "C71", "status": "proved", "theorems": ["C71_login_registers", "C71_logged_in_is_connected", "C71_broadcast_between_users", "C71_direct_between_users", "C71_echo_drops_user_refuted"], "note": "Composition of C66, C52, C65 and C69. A session counts as undisturbed if no step of the broker is a failed send or receive on it, a removal of this user, a frame on it that the broker refuses, or a directory copy that lists the user, from a broker with a greater identifier; C71_echo_drops_user_refuted shows that the last one is needed: brokers that merely exchange what they know can drop a connected user (see C23)."},
  {"property": "C72", "status": "proved", "theorems": ["C72_revoked_user_leaves", "C72_revoked_for_good", "C72_removed_only_after_refusal", "C72_hanging_check_refuted", "C72_other_encoding_removed_refuted"], "note": "For queries that are answered: there is no time limit on them (C72_hanging_check_refuted). The broker looks up the bytes the user sent, the marshal the canonical form of the key (C72_other_encoding_removed_refuted)."},
  {"property": "C73", "status": "partial", "theorems": ["C73_redis_listed_user_stays_partial", "C73_checks_are_right", "C73_redis_unlisted_never_passes_partial", "C73_relisted_user_removed_refuted", "C73_anyone_passes_while_replaced_refuted", "C73_abolished_list_removes_refuted"], "note": "False for SQLite, where set_whitelist is three statements (C73_relisted_user_removed_refuted, C73_anyone_passes_while_replaced_refuted), and for Redis when the new list is empty (C73_abolished_list_removes_refuted). Proved for Redis with non-empty lists, and for both that an answer is right about one moment of the check. C30 takes checks and replacements for atomic."},
  {"property": "C74", "status": "partial", "theorems": ["C74_stranger_is_gone", "C74_marshal_closes_partial", "C74_stranger_takes_memory_refuted", "C74_header_takes_memory_refuted", "C74_memory_bounded", "C74_failed_answer_stays_refuted", "C74_unread_answer_stays_refuted", "C74_marshal_flush_refuted"], "note": "Proved for brokers. For marshals proved if no write fails while the connection is being closed and flushing does not wait; false otherwise: the soft close is then never answered, and the stranger keeps its connection and all the memory it takes (C74_failed_answer_stays_refuted, C74_unread_answer_stays_refuted, C74_marshal_flush_refuted; the last needs an answer the socket does not take at once). False: \"takes no memory before it is authenticated\" (C74_stranger_takes_memory_refuted: as much as the pool grants; C74_header_takes_memory_refuted: 536870911 bytes with the four bytes of a header)."},
  {"property": "C75", "status": "partial", "theorems": ["C75_written_or_closed", "C75_accepted", "C75_unfinished_message", "C75_flush_hangs_refuted", "C75_silent_peer_stays_refuted"], "note": "Proved for streams whose flush does not wait, that is all but TCP+TLS, the protocol of production users, for which it is false: the flush after each message has no time limit (C75_flush_hangs_refuted: any number of messages waits for any time). False for idle peers: on TCP there is no keep-alive (C75_silent_peer_stays_refuted; QUIC has an idle timeout of its own, which is not modelled). C55 to C61 take writes as they come, without times."},
  {"property": "C76", "status": "partial", "theorems": ["C76_healthy_broker_serves", "C76_healthy_marshal_serves", "C76_failed_accept_stops_refuted", "C76_failed_accept_stops_marshal_refuted"], "note": "Proved as long as no accept fails and no task panics. False for a failed accept: C76_failed_accept_stops_refuted, C76_failed_accept_stops_marshal_refuted (the comment in the code says that it keeps going)."},
  {"property": "C77", "status": "proved", "theorems": ["C77_attempt", "C77_pauses", "C77_connects", "C77_slow_steps_refuted", "C77_blocking_lookup_refuted"], "note": "C77_slow_steps_refuted: the limit of 10 s for the whole attempt is needed in the hypothesis, the limits of the steps do not imply it. C77_blocking_lookup_refuted: the limit does not interrupt a look-up. That an attempt is made at all: C57, C58."},
  {"property": "C78", "status": "partial", "theorems": ["C78_running_average", "C78_sample_between_reads_refuted"], "note": "Proved if no sample comes in between the two reads; false otherwise (C78_sample_between_reads_refuted). Natural numbers instead of floating-point numbers."},
  {"property": "C79", "status": "partial", "theorems": ["C79_given_authority", "C79_no_authority", "C79_one_file_refuted", "C79_any_server_refuted"], "note": "The last sentence is false: a server given one of the two files silently presents the test authority, whose key is in the source (C79_one_file_refuted), and all servers have the same name (C79_any_server_refuted). The rest is proved. What rustls accepts is an assumption."},
  {"property": "C80", "status": "partial", "theorems": ["C80_seeds_differ", "C80_second_key_refuted", "C80_numbers_repeat_refuted"], "note": "Proved for the first eight bytes or more drawn from fresh generators, which is how the code uses them. False for later draws, which are zeros (C80_second_key_refuted), and for numbers (C80_numbers_repeat_refuted)."},
  {"property": "C81", "status": "partial", "theorems": ["C81_local_ip", "C81_needs_local_ip_refuted", "C81_first_v4_dialled", "C81_other_addresses_refuted"], "note": "The first half sentence is proved. False: a broker never starts without a local address (C81_needs_local_ip_refuted); only the first address of a name is dialled, and only if it is an IPv4 address (C81_first_v4_dialled, C81_other_addresses_refuted)."},
  {"property": "C82", "status": "partial", "theorems": ["C82_why_a_link_goes", "C82_link_stays", "C82_linked_once_joined", "C82_linked_once_topics", "C82_crossed_dials_refuted"], "note": "Proved for brokers that are linked once (C82_link_stays, C82_linked_once_joined, C82_linked_once_topics); why a link goes is proved for any number of dials. The last sentence is false: two dials whose registrations cross lose both links (C82_crossed_dials_refuted). In NetModel both ends of a link come into being in one event."},
  {"property": "C83", "status": "partial", "theorems": ["C83_returning_user_known", "C83_settled_is_synchronised", "C83_returning_user_reached", "C83_late_farewell_refuted", "C83_late_farewell_loses_messages", "C83_stale_loop_refuted"], "note": "Proved for brokers that never draw up a list of users while an older list that says the user has gone is still being sent, and for receive loops that stop when told (C83_returning_user_known, C83_settled_is_synchronised, C83_returning_user_reached). The last sentence is false: an announcement that the user has gone can be overtaken by the one that it is back, after which the user stays unknown and messages to it are lost (C83_late_farewell_refuted, C83_late_farewell_loses_messages); the same if a stopped receive loop finishes late (C83_stale_loop_refuted)."},
  {"property": "C84", "status": "partial", "theorems": ["C84_listed_brokers_joined", "C84_linked_at_most_once", "C84_mesh_synchronised", "C84_mesh_broadcast_complete", "C84_eager_rounds_refuted"], "note": "Proved for brokers whose rounds begin while no dial of the other is under way and no link with it is still to be registered (C84_listed_brokers_joined, C84_linked_at_most_once, C84_mesh_synchronised, C84_mesh_broadcast_complete). The last sentence is false: rounds do not wait for dials, and two dials may end in no link at all (C84_eager_rounds_refuted), until the next round (C84_recovery_example). Rounds and dials are ordered but carry no times: connecting and authenticating are limited to 5 s each and rounds are 10 s apart, so that only resolving the name and registering the link can make a dial outlast a round."},
  {"property": "C85", "status": "partial", "theorems": ["C85_redis_choice", "C85_embedded_choice", "C85_redis_at_one_moment", "C85_redis_vanishing_broker_refuted"], "note": "Proved for SQLite in full (C85_embedded_choice). For Redis the choice, if one is made, is right (C85_redis_choice), but the last sentence is false: a broker that expires between the listing and the question about it makes the login fail although another is registered throughout (C85_redis_vanishing_broker_refuted). Permits are not counted with Redis, see C37."},
  {"property": "C86", "status": "partial", "theorems": ["C86_reads_follow_sends", "C86_conversation_complete", "C86_two_links_refuted"], "note": "Proved, across brokers, if there has only ever been one link from the publisher's broker to the reader's broker; that no message is read more often than sent is proved without this (C86_reads_follow_sends). C86_conversation_complete: any number of overlapping publications between two moments of rest, for publishers whose brokers are synchronised. False for the order when a second link replaces the first (C86_two_links_refuted)."},
  {"property": "C87", "status": "proved", "theorems": ["C87_user_known_once_told", "C87_topic_known_once_told", "C87_busy_direct", "C87_busy_broadcast", "C87_busy_same_broker", "C87_told_but_not_heard_refuted"], "note": "Sent means put into the queue of the connection of the recipient; with C39 and C86 this is what the client reads. The user is admitted to the network only once; receive loops handle their first frame after registration and no broker has made 2^64 steps (fine). A message sent after the announcement was sent and before it was applied can be lost (C87_told_but_not_heard_refuted)."},
  {"property": "C88", "status": "proved", "theorems": ["C88_rounds_keep_coming", "C88_topic_told_in_time", "C88_user_told_in_time", "C88_first_topics_told_in_time", "C88_broadcast_after_the_period", "C88_direct_soon_after_arrival", "C88_sooner_refuted"], "note": "Stated for a link that was set up before the period began and is not being ended, users admitted to the network once, and histories without failing serialisations or sends (fine). The bound on the processing time (delay) covers rounds of the sync task, handlers of new connections and removals, not the receive loops, which may take any time. C88_sooner_refuted shows that the ten seconds are needed. Time is counted in seconds on one clock."},
  {"property": "C89", "status": "proved", "theorems": ["C89_rounds_do_not_overlap", "C89_one_link", "C89_linked_in_time", "C89_broadcast_from_a_cold_start", "C89_direct_from_a_cold_start", "C89_slow_dials_refuted"], "note": "The condition that a dial and the processing delay together take less than 10 s is an assumption: the code limits connecting and authenticating to 5 s each, and does not limit the resolution of names. C89_slow_dials_refuted shows that it is needed. Discovery may fail, and dials may fail, before the period that is looked at, not during it. The two ends of a link are authenticated in one event; time is counted in seconds on one clock."},
  {"property": "C90", "status": "partial", "theorems": ["C90_found_after_moving", "C90_however_often", "C90_settled_is_synchronised", "C90_moved_user_reached", "C90_moved_user_hears_broadcasts", "C90_farewell_refuted", "C90_farewell_disconnects_refuted"], "note": "The network is assumed to come to rest between moves, the new broker to have heard of the last place and to have nothing to announce when the user comes, and the old broker to keep its connection until it hears of the move. C90_farewell_refuted and C90_farewell_disconnects_refuted show that the last cannot be dropped; C95_found_refuted shows that the new broker must have heard of the last place. C95 drops the other two and says what is left without them."},
  {"property": "C91", "status": "proved", "theorems": ["C91_records_agree", "C91_claims_exact", "C91_who_is_disconnected", "C91_second_login_stays", "C91_restart_keeps_users_refuted", "C91_ghosts_before_linking_refuted"], "note": "The exchange is four lists, read in the order sent, with nothing else happening at the two brokers meanwhile; what happens with more going on is C64, C83 and C90, for networks without restarts. C91_restart_keeps_users_refuted and C91_ghosts_before_linking_refuted show what the statement says about restarts."},
  {"property": "C92", "status": "proved", "theorems": ["C92_dropped_client_is_gone", "C92_at_most_one_more_connection", "C92_that_one_is_closed", "C92_closed_then_dropped", "C92_dropped_client_reconnects_refuted", "C92_dropped_client_freed_refuted", "C92_closed_and_dropped_freed_refuted"], "note": "The statement says what happens in each case. That a dropped client does nothing more without exception is false: C92_dropped_client_reconnects_refuted, C92_dropped_client_freed_refuted, C92_closed_and_dropped_freed_refuted."},
  {"property": "C93", "status": "proved", "theorems": ["C93_spread_evenly", "C93_rush_is_spread", "C93_next_user", "C93_next_user_redis", "C93_all_to_one_refuted", "C93_same_moment_refuted", "C93_rush_is_spread_redis_refuted"], "note": "The statement says what holds under which condition. That users are spread evenly without conditions is false: C93_all_to_one_refuted and C93_same_moment_refuted (both back ends), C93_rush_is_spread_redis_refuted."},
  {"property": "C94", "status": "proved", "theorems": ["C94_bytes_sent", "C94_bytes_received", "C94_all_accounted", "C94_never_fall", "C94_counters_exact_refuted"], "note": "The statement says up to which total it holds; beyond that the counters are not exact: C94_counters_exact_refuted."},
  {"property": "C95", "status": "partial", "theorems": ["C95_one_of_two_linked_brokers", "C95_nothing_older", "C95_two_homes_refuted", "C95_found_refuted", "C95_relink_disconnects_refuted"], "note": "Holds under the hypothesis never_lost; without it the first half is false (C95_two_homes_refuted). That every linked broker names the right broker, and that a settled user stays connected, is false even with it: C95_found_refuted, C95_relink_disconnects_refuted. C96 has a condition under which every linked broker names the right one."},
  {"property": "C96", "status": "partial", "theorems": ["C96_found_where_it_is", "C96_settled_is_synchronised", "C96_roaming_user_reached", "C96_roaming_user_hears_broadcasts", "C96_found_refuted"], "note": "Holds under the hypothesis never_lost; without it false (C96_found_refuted). Without the hypothesis informed it is false too (C95_found_refuted)."},
  {"property": "C97", "status": "proved", "theorems": ["C97_embedded_listing", "C97_embedded_choice", "C97_embedded_permit_accepted", "C97_embedded_permit_lapses", "C97_redis_clocks", "C97_fast_clock_erases_refuted", "C97_fast_broker_refuses_refuted", "C97_running_broker_listed", "C97_fifteen_seconds", "C97_sixteen_seconds_refuted"], "note": "Including the last sentence: C97_fast_clock_erases_refuted and C97_fast_broker_refuses_refuted refute the claim without the bound, C97_sixteen_seconds_refuted refutes the sentence on running brokers for sixteen seconds. Clocks run at the same speed and are not adjusted."},
  {"property": "C98", "status": "proved", "theorems": ["C98_named_when_listening", "C98_listed_was_listening", "C98_exclusive", "C98_names_differ", "C98_nothing_left", "C98_start_fails", "C98_restart", "C98_metrics_address", "C98_marshal_listens", "C98_listed_is_up_refuted", "C98_names_differ_refuted"], "note": "Including the last two sentences: C98_listed_is_up_refuted and C98_names_differ_refuted refute the claims without their conditions. Sockets are free at once when their process is gone."},
  {"property": "C99", "status": "proved", "theorems": ["C99_embedded_failover", "C99_redis_failover", "C99_at_once_refuted", "C99_skewed_failover"], "note": "Including the last sentence (C99_at_once_refuted). The clocks agree, but for C99_skewed_failover; the marshal asks the discovery service at one moment."},
  {"property": "C100", "status": "proved", "theorems": ["C100_nothing_lost", "C100_usable_once_opened", "C100_opening_succeeds", "C100_restart", "C100_other_columns_refuted"], "note": "Including the last sentence (C100_other_columns_refuted). The file system and SQLite do not fail; nobody deletes the file."},
  {"property": "C101", "status": "proved", "theorems": ["C101_two_errors_per_loss", "C101_waits_for_reconnection", "C101_goes_on", "C101_impatient_refuted"], "note": "Including the last sentence (C101_impatient_refuted)."}
]}
