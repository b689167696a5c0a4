{"claims": [
 {"property": "C01", "status": "proved", "theorems": ["C01_route_lookup_exact"], "note": "all histories, plain and shared operations mixed"},
 {"property": "C02", "status": "proved", "theorems": ["C02_dollar_topics_hidden", "C02_dollar_retained_hidden"], "note": "routing table and retained store, all histories"},
 {"property": "C03", "status": "partial", "theorems": ["C03_shared_pick_is_current_member", "C03_shared_members_exact_partial", "C03_shared_members_refuted"], "note": "selection proved for all histories; exact membership false in general, proved without the trigger"},
 {"property": "C04", "status": "partial", "theorems": ["C04_no_panic_partial", "C04_plain_no_panic", "C04_no_panic_refuted"], "note": "false in general, proved without the trigger"},
 {"property": "C05", "status": "proved", "theorems": ["C05_no_garbage"], "note": ""},
 {"property": "C06", "status": "proved", "theorems": ["C06_retained_exact"], "note": "all histories of stores and removals, all valid filters"},
 {"property": "C07", "status": "proved", "theorems": ["C07_retained_no_garbage"], "note": "all histories"},
 {"property": "C08", "status": "partial", "theorems": ["C08_window_partial", "C08_window_v3_partial", "C08_window_refuted", "C08_session_window_partial", "C08_v3_session_window_partial", "C08_session_receive_maximum", "session_is_a_run5", "session_is_a_run3", "C08_broker_window_partial", "C08_v3_broker_window_partial"], "note": "v5 and v3, every operation list; needs that no identifier was reused while held (guaranteed by C10's conditions). The unrestricted statement is false: C08_window_refuted. The session theorems say the same for whole session runs, with the identifiers in flight read off the packets written and received. The broker theorems say it for every connection of every run of the whole broker, with the Receive Maximum of that connection's CONNECT."},
 {"property": "C09", "status": "proved", "theorems": ["C09_order", "C09_order_v3", "C09_session_order", "C09_v3_session_order", "C09_broker_order", "C09_v3_broker_order", "C09_order_partial", "C09_order_v3_partial", "C09_session_order_partial", "C09_v3_session_order_partial", "C09_broker_order_partial", "C09_v3_broker_order_partial"], "note": "For queues and sessions the order needs a clock that does not go back between transmissions (v5 only: an expiry judged twice); the broker theorems discharge it. Identifiers may be in use twice. The _partial theorems are the older ones that need no identifier reuse; they say more about why a message is skipped."},
 {"property": "C10", "status": "partial", "theorems": ["C10_pid_unique_partial", "C10_pid_unique_v3_partial", "C10_pid_nonzero", "C10_pid_nonzero_v3", "C10_pid_unique_refuted", "C10_session_pid_partial", "C10_v3_session_pid_partial", "C10_broker_pid_partial", "C10_v3_broker_pid_partial"], "note": "Non-zero proved for every history. Uniqueness proved if nothing was dropped (limit <= 65535) or no held message is 65535 arrivals old; false in general because dropped messages consume identifiers. Also for whole session runs. Also for every session of every broker run."},
 {"property": "C11", "status": "partial", "theorems": ["C11_retransmission_partial", "C11_retransmission_v3_partial", "C11_session_retransmission_partial", "C11_v3_session_retransmission_partial", "C11_v3_dup_refuted", "C11_broker_retransmission_partial", "C11_v3_broker_retransmission_partial"], "note": "Every identifier follows the lifecycle automaton; needs no identifier reuse (see C10). Also for whole session runs. C11_v3_dup_refuted: an MQTT 3 SUBSCRIBE that ends the connection marks retained messages as sent that were never written. Also for every session of every broker run."},
 {"property": "C12", "status": "proved", "theorems": ["C12_queue_bounded", "C12_queue_bounded_v3", "C12_drop_when_full", "C12_drop_when_full_v3", "C12_drop_history", "C12_session_queue_bounded", "C12_v3_session_queue_bounded", "C12_session_drop_history", "C12_v3_session_drop_history", "C12_broker_drop_history_partial", "C12_v3_broker_drop_history_partial", "C12_session_joins", "C12_v3_session_joins", "C12_broker_joins", "C12_v3_broker_joins"], "note": "C12_queue_bounded and C12_drop_when_full hold for every history and state: a message is dropped exactly when the queue, finished entries at its front removed, has max_in_mem_pending_messages entries, and queued messages are untouched. Finished entries behind an unfinished one count. The history theorems (C12_drop_history and those for sessions and the broker) say the same in terms of what was queued before, and need that no packet identifier is in use twice (few_enough). The joins theorems say it for every message handed to a session of any run, with the configured limit and no assumption on identifiers: it is put at the end of the queue exactly if there is room, and no other entry changes."},
 {"property": "C13", "status": "partial", "theorems": ["C13_ack_local", "C13_ack_local_v3", "C13_unheld", "C13_unheld_v3", "C13_ack_accepted", "C13_ack_accepted_v3", "C13_ack_unknown", "C13_ack_unknown_v3", "C13_session_acks_partial", "C13_v3_session_acks_partial", "C13_not_in_flight_refuted", "C13_broker_ack_partial", "C13_v3_broker_ack_partial"], "note": "Every queue state: at most the named entry changes, and nothing when the identifier names no unfinished message. The full statement is refuted: a message that is unfinished but was never transmitted (so not in flight) can be acknowledged away. Acceptance relative to the history needs no identifier reuse. Also for whole session runs, with the PUBREL code that answers PUBREC. For every broker run (C13_broker_ack_partial): no other session is touched, and of the client's own messages only the one named, except that MQTT 5 messages whose lifetime is over may be given up when the server then writes what is due."},
 {"property": "C14", "status": "proved", "theorems": ["C14_expiry", "C14_sources", "C14_session_expiry", "C14_broker_expiry", "C14_expiry_partial", "C14_session_expiry_partial", "C14_broker_expiry_partial"], "note": "For intervals below 2^32, as the protocol encodes them. Transmissions are matched with queued messages one to one. The _partial theorems need no identifier reuse and name the state of the message before."},
 {"property": "C15", "status": "partial", "theorems": ["C15_resume", "C15_resume_v3", "C15_unfinished", "C15_unfinished_v3", "C15_session_resume", "C15_v3_session_resume", "C15_session_unfinished", "C15_v3_session_unfinished", "C15_broker_unfinished", "C15_v3_broker_unfinished", "C15_resume_partial", "C15_resume_v3_partial", "C15_session_resume_partial", "C15_v3_session_resume_partial"], "note": "Every state of a run: what is unfinished is kept in order and transmitted as the window allows, except what has expired. That the unfinished messages are those queued and not acknowledged is shown when messages have no expiry interval (v5) and always (v3). Partial because an MQTT 5 message can be given up for its age even after it was sent (C74_kept_refuted); MQTT 3 has no exception."},
 {"property": "C16", "status": "proved", "theorems": ["C16_aliases", "C68_only_published"], "note": "Every run of the outgoing side, every alias maximum, across reconnects. Messages to deliver are assumed to have a topic and no alias of their own (the publish handler removes it). On the level of whole broker runs: C68_only_published (what the client of a connection reads with its aliases is the topic of a published message)."},
 {"property": "C17", "status": "proved", "theorems": ["C17_alias_topic", "C17_bad_alias_refused"], "note": ""},
 {"property": "C18", "status": "partial", "theorems": ["C18_first_publish_forwarded_partial", "C18_repetition_not_forwarded", "C18_pubrel_frees", "C18_v3_first_publish_forwarded_partial", "C18_v3_repetition_not_forwarded", "C18_v3_pubrel_frees", "C18_lost_first_transmission_refuted"], "note": "False as stated: a PUBLISH marked DUP is acknowledged but never forwarded when the server never saw its first transmission (refuted theorem). Proved: at most once, and exactly once if the first transmission that arrives has DUP=0."},
 {"property": "C19", "status": "proved", "theorems": ["C19_receive_maximum", "C19_one_more_refused"], "note": ""},
 {"property": "C20", "status": "partial", "theorems": ["C20_delivered_qos", "C20_v3_delivered_qos_partial", "C20_v3_highest_qos_refuted"], "note": "Proved in full for v5 publishers. A v3 publisher sends one copy per matching subscription, each with that subscription's QoS, so \"highest\" is false there; the refutation shows it."},
 {"property": "C21", "status": "partial", "theorems": ["C21_own_message_partial", "C21_no_local_filters", "C21_shared_no_local_refuted"], "note": "Proved for plain subscriptions. No Local on a shared subscription is accepted and ignored; the refutation shows it."},
 {"property": "C22", "status": "proved", "theorems": ["C22_one_copy_with_ids", "C22_exactly_one"], "note": ""},
 {"property": "C23", "status": "partial", "theorems": ["C23_forwarded_retain_v5", "C23_forwarded_retain_v3_to_v5", "C23_v3_receiver_refuted", "C23_retained_on_subscribe_refuted"], "note": "Exact for v5 receivers of forwarded messages. False for v3 receivers and for retained messages sent on SUBSCRIBE, both refuted."},
 {"property": "C24", "status": "partial", "theorems": ["C24_retained_on_subscribe", "C24_v3_retained_on_subscribe_partial", "C24_v3_high_qos_dropped_refuted"], "note": "Exact for v5. MQTT 3 clients do not get retained messages whose QoS is above the granted one, refuted."},
 {"property": "C25", "status": "proved", "theorems": ["C25_suback", "C25_unsuback", "C25_v3_suback", "C25_v3_shared_refused", "C25_v3_unsuback"], "note": ""},
 {"property": "C26", "status": "proved", "theorems": ["ids_one_to_one", "ids_never_reused", "ids_removed_for_good", "session_has_its_id", "connect_never_panics"], "note": "Proved over all runs of the broker model: identifiers and ids are one-to-one, an id once used for an identifier never belongs to another and never comes back after removal, and CONNECT never panics."},
 {"property": "C27", "status": "partial", "theorems": ["gauge_at_least", "gauge_no_underflow", "gauge_exact_partial", "gauge_refuted"], "note": "The gauge never under-counts and never underflows in any run. It equals the number of connected clients in runs without takeovers of live connections; with them it over-counts for good (gauge_refuted)."},
 {"property": "C28", "status": "partial", "theorems": ["one_session_per_identifier", "identifier_served_partial", "takeover_possible", "lockout_refuted", "other_protocol_refuted"], "note": "One session per identifier always. A live task serves the identifier unless a connection in charge was given up between registration and CONNACK; that case locks the identifier out for good (lockout_refuted), and the other protocol version is always refused (other_protocol_refuted)."},
 {"property": "C29", "status": "partial", "theorems": ["session_present5", "session_present3_partial", "session_present3_refuted"], "note": "Full for protocol 5. For protocol 3 a session of the other level (3.1 or 3.1.1) is discarded (session_present3_refuted)."},
 {"property": "C30", "status": "partial", "theorems": ["clean_start_subscriptions", "clean_start_delivery_partial", "clean_start_routing_refuted"], "note": "A clean-start session has only its own subscriptions and drops messages routed by old ones, but they are still routed to it, and a shared-group message is lost that way (clean_start_routing_refuted)."},
 {"property": "C31", "status": "partial", "theorems": ["will_at_most_once", "no_will_after_disconnect", "no_will_after_reconnect", "will_not_too_early", "will_without_delay", "will_delay_pending", "will_by_session_end_partial", "will_lost_refuted", "will_takeover_refuted"], "note": "At most once, not after DISCONNECT 0, not after reconnect, not early and published by session end are proved. False for DISCONNECT with another reason (will_lost_refuted) and for taken-over connections (will_takeover_refuted)."},
 {"property": "C32", "status": "partial", "theorems": ["session_kept_long_enough", "session_zero_gone", "session_expiry_pending", "session_expired_gone", "session_zero_stays", "session_max_refuted", "session_routes_refuted", "session_expiry_cap_refuted"], "note": "Registry entries go exactly at expiry. The maximum interval is not infinite (session_max_refuted), routes of a session replaced by clean start stay (session_routes_refuted), DISCONNECT may exceed the configured maximum (session_expiry_cap_refuted)."},
 {"property": "C33", "status": "partial", "theorems": ["keep_alive_reason_partial", "keep_alive_regular_partial", "keep_alive_zero", "keep_alive_silent", "keep_alive_ends", "slow_connect_refuted"], "note": "Proved counting from the accepted connection for the only connection of its identifier; counting from CONNECT fails (slow_connect_refuted)."},
 {"property": "C34", "status": "partial", "theorems": ["keep_alive_reason_partial", "stale_timer_refuted", "C34_kick_ends", "C34_v3_kick_ends"], "note": "Every keep-alive kick comes from a timer of the same identifier; it may be the timer of an earlier connection (stale_timer_refuted). A task that finds a kick ends, unless a hook or a takeover is under way."},
 {"property": "C35", "status": "proved", "theorems": ["C35_bytes_are_packets"], "note": "Generic in the session; at every point the bytes accepted by the socket are a prefix of the encodings of the queued packets in order, equal when the queue is empty or the connection ends by DISCONNECT. Encodings are a parameter."},
 {"property": "C36", "status": "proved", "theorems": ["C36_bytes_in_order", "C36_end_of_stream", "C36_read_progress", "C36_writes", "C36_pongs", "C36_close"], "note": "for every sequence of WebSocket messages, buffer sizes and sink answers; the WebSocket framing itself (tungstenite) is outside the model C36_close: a shutdown is reported done only after a Close message was sent, and at most one is sent unless a shutdown failed."},
 {"property": "C37", "status": "partial", "theorems": ["C37_delivery_order_partial", "C37_v3_delivery_order_partial", "C37_end_delivers_partial", "C37_v3_end_delivers_partial", "C37_takeover_refuted", "C37_end_refuted"], "note": "Order, no loss and no failed assertion while the connection lives and is not taken over. The full statement is false: a takeover drops accepted messages, and the final emptying of the queues drops a message held by a sink."},
 {"property": "C38", "status": "partial", "theorems": ["C38_round_trip_partial", "C38_loaded_tables_round_trip", "C38_accepted_files", "C38_loaded_entries", "C38_trim", "C38_leading_space_refuted", "C38_line_feed_refuted"], "note": "Round trip for every table whose user names contain no line feed and do not begin with white space (false otherwise, two refutations). Exact characterisation of the accepted files and of the entries read from them."},
 {"property": "C39", "status": "partial", "theorems": ["C39_accepted_exactly_partial", "C39_inserted_accepted", "C39_removed_refused", "C39_connect5_refused", "C39_connect3_refused", "C39_connect5_accepted", "C39_short_hash_refuted"], "note": "Acceptance is characterised exactly. Partial because a PBKDF2 entry whose stored hash is shortened is accepted by the parser and compared only over the stored bytes (refutation). Digests are parameters."},
 {"property": "C40", "status": "partial", "theorems": ["C40_complete_partial", "C40_complete_rfc_partial", "C40_sound", "C40_no_replay", "C40_one_attempt", "C40_client_sound", "C40_flag_y_refuted", "C40_escaped_name_refuted", "C40_client_comma_refuted", "C40_client_panic_refuted"], "note": "Soundness, single use, freshness and both kinds of completeness are proved for names without comma. Conforming clients with the y flag or an escaped name are refused, and the client of the crate can panic; these are proved as refutations."},
 {"property": "C41", "status": "proved", "theorems": ["C41_v5_not_served", "C41_v3_not_served"], "note": "For every configuration, password table, CONNECT and sequence of AUTH packets."},
 {"property": "C42", "status": "partial", "theorems": ["C42_negotiated", "C42_keep_alive_partial", "C42_keep_alive_kept", "C42_limits_refuted"], "note": "The keep-alive limits hold only if the configured minimum is at most the maximum, which validation does not check."},
 {"property": "C43", "status": "proved", "theorems": ["C43_no_panic", "C43_mechanisms_usable", "C43_valid_facts"], "note": "The connection phase never panics under a valid configuration and every listed mechanism works for every configured user without a comma in the name."},
 {"property": "C44", "status": "partial", "theorems": ["C44_decodes_partial", "C44_accepts_only", "C44_local", "C44_long_tlvs_refuted", "C44_local_body_refuted"], "note": "Every header with up to 256 bytes of TLVs is decoded and exactly its bytes are consumed, for every way the bytes arrive; nothing else is accepted. False as stated for longer TLV lists and for LOCAL headers with a body (refuted). CRC-32C and UTF-8 validation are arbitrary functions."},
 {"property": "C45", "status": "partial", "theorems": ["C45_no_other_panic_partial", "C45_no_panic_refuted"], "note": "False as stated: a header with unspecified family or transport panics. The theorem says exactly which byte sequences panic."},
 {"property": "C46", "status": "partial", "theorems": ["C46_maximum_packet_size_partial", "C46_v3_publisher_partial", "C46_maximum_packet_size_refuted", "C46_v3_length_field_refuted"], "note": "True without aliases and subscription identifiers. The size checked is that of the publisher's packet, so the statement is false in general; two refutations."},
 {"property": "C47", "status": "partial", "theorems": ["C47_nothing_before_verdict", "C47_waits_for_verdict", "C47_refused", "C47_accepted", "C47_actions_applied", "C47_failed", "C47_v3_refused", "C47_v3_nothing_before_verdict", "C47_v3_accepted", "C47_connect_refused", "C47_after_connect_refuted", "C47_connect_accepted", "C47_connect_failed", "C47_v3_connect", "C47_after_connect_failed", "C47_after_connect_actions", "C47_afterwards_failed", "C47_v3_afterwards_failed"], "note": "Verdicts on PUBLISH, SUBSCRIBE, UNSUBSCRIBE and CONNECT are obeyed. The full statement is false: enable_after_connect is not looked at, and MQTT 3 refusals close the connection without a code. Also what an accepting and a failing connect hook do. If only the hook called afterwards fails, the packet has had its full effect while its answer is queued but not written."},
 {"property": "C48", "status": "proved", "theorems": ["C48_one_acknowledgement", "C48_large_packet_refused", "C48_v3_one_acknowledgement"], "note": ""},
 {"property": "C49", "status": "partial", "theorems": ["C49_acknowledged_is_handed_over_partial", "C49_v3_acknowledged_is_handed_over_partial", "C18_lost_first_transmission_refuted", "C49_broker_published", "C49_v3_broker_published", "C49_lives_agree", "C49_v3_lives_agree", "C49_one_record", "C49_published_any", "C49_v3_published_any"], "note": "Proved for every accepted PUBLISH that is not taken for a QoS 2 repetition. A QoS 2 PUBLISH with DUP=1 and an unknown identifier is acknowledged and lost, refuted. The broker theorems say it for every session whose SUBACK history has a matching filter. The events and the record of a session in these statements are determined by the history as far as it matters (C49_lives_agree, C49_one_record), so the statements hold of any (C49_published_any)."},
 {"property": "C50", "status": "partial", "theorems": ["C50_no_panic_partial", "C50_v3_no_panic_partial", "C50_no_panic_refuted", "C50_broker_no_panic_partial", "C50_unshared_no_panic", "C50_broker_no_panic_refuted", "C50_leave_no_panic_refuted", "C50_stayed_no_panic_partial", "C50_twice_no_panic_refuted"], "note": "Proved for all packets unless the index defect of shared groups was triggered; the refutation gives three packets that panic. For whole broker runs: no step of any run panics if no MQTT 5 client subscribed to a shared filter before (any filters may be unsubscribed from), and none at all if shared subscriptions are turned off; a run with shared subscriptions that panics refutes the rest. C50_leave_no_panic_refuted: with shared groups, the removal of a client that disconnects can panic. With shared groups: as long as nobody has left a share group (and no session was given up half-way), no step panics, not even the first leave, except an UNSUBSCRIBE that names a shared filter twice; C50_twice_no_panic_refuted shows that such a packet can panic."},
 {"property": "C51", "status": "partial", "theorems": ["C51_woken_partial", "C51_v3_woken_partial", "C51_short_write_refuted", "C51_given_up_takeover_refuted"], "note": "Proved for input and for other clients' queues. False for output: a short write suspends without registering for room in the socket; and after a takeover that was given up reading can stop for good."},
 {"property": "C52", "status": "proved", "theorems": ["C52_reply5", "C52_reply3", "C52_unasked"], "note": "Every step of every broker run, both protocols."},
 {"property": "C53", "status": "partial", "theorems": ["C53_recorded_is_routed", "C53_routed_exact_partial", "C53_routed_clients_partial", "clean_start_routing_refuted", "session_routes_refuted"], "note": "Granted subscriptions are always routed. The converse holds as long as no session is lost half-way or started afresh; otherwise it is refuted (stale routes). Plain filters; shared filters are C03."},
 {"property": "C54", "status": "partial", "theorems": ["C54_channel", "C54_sender", "C54_done", "C54_receiver5", "C54_receiver3", "C54_count", "C54_takeover_refuted"], "note": "Sender, channel and receiver accounting hold for every run. What a connection has queued when its session is taken over is lost although it was acknowledged (C54_takeover_refuted)."},
 {"property": "C55", "status": "partial", "theorems": ["C55_disconnect_reason", "C55_malformed_reason", "C55_connect_reason_partial", "C55_password_reason_refuted", "C55_connack_limit_refuted", "C55_malformed_loop"], "note": "DISCONNECT: all runs of the broker; CONNACK: all connection phases except the answer to a wrong password, for which the statement is false (finding). The same limit is not applied to a CONNACK without a reason string (finding). Hooks that add packets are not covered. Also in the event loop: nothing more is taken or queued after undecodable bytes."},
 {"property": "C56", "status": "partial", "theorems": ["C56_insert_interrupted_partial", "C56_remove_interrupted_partial", "C56_plain_hash_safe", "C56_weak_hash_refuted", "C56_atomic_refuted", "C56_colon_refuted"], "note": "The containment half for user names without a colon; false with a colon (finding). All-or-nothing is false (finding), and a cut PBKDF2 hash is checked on what is left of it (finding)."},
 {"property": "C57", "status": "partial", "theorems": ["C57_served_only", "C57_served", "C57_deadline_partial", "C57_connect_deadline_partial", "C57_starts", "C57_listeners", "C57_websocket_refuted", "C57_late_refuted", "C57_length_refuted", "C57_certificate_refuted"], "note": "Who is served, and the listeners, in full. The deadline is proved for listeners without WebSocket; the WebSocket handshake has no time limit (finding), nor has a write to a client that does not read. The TLS and WebSocket handshakes are parameters."},
 {"property": "C58", "status": "partial", "theorems": ["C58_metrics_partial", "C58_private", "C58_health", "C58_one_number", "C58_metrics_refuted"], "note": "The reported number is never too small, and exact without takeovers; a takeover makes it too large (finding, see C27)."},
 {"property": "C59", "status": "partial", "theorems": ["C59_cleared_partial", "C59_last_step_partial", "C59_work_shrinks", "C59_only_last_step", "C59_inbox_exists", "C59_circle", "C59_cleared_refuted", "C59_pair_refuted"], "note": "False in full: the last messages are handed over by waiting for room in inboxes of 8, and the connection that is over does not empty its own. C59_cleared_refuted: a client whose will goes to itself, with 8 messages waiting, is never cleared away and can never connect again. C59_pair_refuted: two clients wait for each other. Proved: C59_circle (such a circle lasts for ever), C59_cleared_partial (with a clear way to every receiver the connection is cleared away), C59_work_shrinks (the work left never grows)."},
 {"property": "C60", "status": "proved", "theorems": ["C60_transparent", "C60_transparent_v3", "C60_connect", "C60_after_connect", "C60_connect_v3"], "note": "A connection with any hooks enabled and the default answers ends in the same state with the same visible trace as one without hooks. The hypothesis is that the hook does answer."},
 {"property": "C61", "status": "partial", "theorems": ["C61_up", "C61_nobody_lost", "C61_apart", "C61_never_ends", "C61_http_down", "C61_accept_error_refuted", "C61_http_refuted", "C61_http_only_refuted"], "note": "Proved for MQTT listeners as long as accept does not fail, and the second of downtime always. False in full: a failed accept closes the socket and cuts off the clients that wait, and the HTTP endpoint is never opened again."},
 {"property": "C62", "status": "proved", "theorems": ["C62_no_panic", "C62_runs", "C62_serves", "C62_default"], "note": "Reading YAML and files is taken from serde and the operating system: the model starts at the parsed configuration and the text of the password file."},
 {"property": "C63", "status": "partial", "theorems": ["C63_subscriptions", "C63_subscriptions_v3_partial", "C63_will", "C63_no_ids", "C63_publish_refuted", "C63_wildcard_v3_refuted", "C63_will_v3_refuted"], "note": "Subscriptions and wills of v5 clients for whole broker runs; false of PUBLISH and of MQTT 3 wildcards and wills (refuted)."},
 {"property": "C64", "status": "partial", "theorems": ["C64_at_most_one", "C64_members_only", "C64_one_gets_it_partial", "C64_v3_refuted", "C64_dead_member_refuted"], "note": "Never two and only members, unconditionally; one gets it if all members are reachable. False of MQTT 3 publishers and of members given up half-way (refuted)."},
 {"property": "C65", "status": "partial", "theorems": ["C65_only_current", "C65_reads_are_lookups", "C65_holders_get_it_partial", "C65_filter_once", "C65_undisturbed", "C65_no_panic_partial", "C65_no_panic_refuted", "C65_holders_get_it_refuted", "C65_covered_refuted"], "note": "For every set of tasks and every interleaving of their locked sections: only holders of a matching subscription are given the message; a holder throughout is given it when the publish completes; a panic needs a matching unsubscribe during the publish. \"Always completes\" is false: the publish panics when the last subscriber of a matching filter leaves between lookup and reading, and then other holders get nothing."},
 {"property": "C66", "status": "proved", "theorems": ["C66_never_missed", "C66_once_refuted", "C66_last_is_retained_refuted"], "note": "For every interleaving. Stronger readings are refuted: it may be given twice, and the message given last need not be the retained one. The refuted readings are not part of the statement."},
 {"property": "C67", "status": "partial", "theorems": ["C67_v3", "C67_v5", "C67_one_answer", "C67_challenge", "C67_v3_session", "C67_v5_session", "C67_told_refuted", "C67_refused_changes_nothing_refuted"], "note": "The answer is characterised exactly, for both versions and for the whole SCRAM exchange. Not provable because false: a bad will topic and an identifier of the other version are answered with silence, and a CONNECT whose will is refused (0x9A, 0x9B) has already taken over the session, which is lost, and locks the identifier out."},
 {"property": "C68", "status": "proved", "theorems": ["C68_only_published", "C68_v3_only_published"], "note": "Both protocol versions, whole broker runs. Topic, payload, passed-on properties, QoS and lifetime. Hypotheses: packets as mqtt-proto decodes them, wills with a proper topic."},
 {"property": "C69", "status": "proved", "theorems": ["C69_untouched", "C69_inbox", "C69_cause", "C69_disconnect_cause"], "note": "Whole broker runs, both protocol versions. Another connection with the same identifier includes the timer of an earlier one (the finding of C34). Whether the socket fails is an input."},
 {"property": "C70", "status": "partial", "theorems": ["C70_room_first", "C70_bounded_partial", "C70_one_packet_refuted"], "note": "Everything but the last sentence is proved for the event loop of both protocols. The last sentence is false: one SUBSCRIBE that names a topic with a retained message n times queues n packets."},
 {"property": "C71", "status": "partial", "theorems": ["C71_start5", "C71_start3", "C71_others5", "C71_others3", "C71_poll5_partial", "C71_poll3_partial"], "note": "Every poll of the event loop, in every state it can be in, is a sequence of broker steps with the same effects; so what is proved of BrokerModel runs holds of the loop. Missing: other tasks act between two polls and not during one, the clock is read once, there are no hooks. When a session is being handed over the theorem speaks of the moment the request is taken; what a sink still holds when the state is built later is dropped by the loop."},
 {"property": "C72", "status": "partial", "theorems": ["C72_kept5", "C72_kept3_partial", "C72_qos2_v3_refuted", "C72_subscriptions_refuted"], "note": "MQTT 5 in full but for subscriptions, which are not limited (refuted for every number). MQTT 3: queue and inbox; QoS 2 identifiers are not limited by the configuration (refuted)."},
 {"property": "C73", "status": "proved", "theorems": ["C73_end_to_end_5_5", "C73_end_to_end_5_3", "C73_end_to_end_3_5", "C73_end_to_end_3_3", "C73_never_cut_off", "C73_accounted", "C73_any_5_5", "C73_any_5_3", "C73_any_3_5", "C73_any_3_3"], "note": "For subscriptions that are not shared, as the property says; shared ones are C21/C64. What a publisher had queued when its own session was taken over by another connection is lost (C54_takeover_refuted): then the queues between never became empty in the sense of gone_through. A v3 session looks at one of the filters of a message of a v5 client (fate3). Stated for any events and any record of the sessions in C73_any_*."},
 {"property": "C74", "status": "partial", "theorems": ["C74_kept_partial", "C74_v3_kept", "C74_connection", "C74_kept_refuted"], "note": "Full for MQTT 3 (C74_v3_kept), and for MQTT 5 on one connection or without an expiry interval (C74_connection). In full it is false of MQTT 5: a sent message whose lifetime ends after the client reconnected is dropped (C74_kept_refuted). C74_kept_partial states the claim with that exception. few_enough: no packet identifier in use twice (fewer than 65535 messages waiting and unfinished); C15_broker_unfinished covers messages without lifetimes without it."},
 {"property": "C75", "status": "partial", "theorems": ["C75_announced_partial", "C75_retained_refuted", "C75_transit_refuted"], "note": "The lifetime announced is never more than the publisher gave, and never missing or added. False in full: a retained message never expires, and the time spent on the way to the receiver's session does not count (both refuted). From the moment the receiver's session has the message its lifetime is counted down exactly: C14."},
 {"property": "C76", "status": "partial", "theorems": ["C76_once_partial", "C76_v3_once_partial", "C76_broker_once_partial", "C76_v3_broker_once_partial"], "note": "For every run of a session, alone or in the broker, with a correct client at the other end. Partial: identifiers must not come round while in use (few_enough; C10_pid_unique_refuted) nor while packets of their last use are still under way; with MQTT 5, exactly once also needs that no message already transmitted is given up for its age (C74_kept_refuted)."},
 {"property": "C77", "status": "partial", "theorems": ["C77_flow_v3", "C77_flow_v5_partial", "C77_stall_refuted"], "note": "For every connected client of every broker run, with the clock past the retransmission timeout and packet identifiers not coming round while in use (few_enough). MQTT 3 without exception. MQTT 5 partial: a message can wait behind an expired one, with nothing on its way, until the client sends a packet for another reason or another message comes (C77_stall_refuted)."},
 {"property": "C78", "status": "proved", "theorems": ["C78_publisher_waits", "C78_v3_publisher_waits", "C78_publisher_goes_on", "C78_v3_publisher_goes_on"], "note": "For the event loop with the MQTT 5 and MQTT 3 handlers. The count of waiting messages is right (tidy) in every session of every broker run: C54_count."},
 {"property": "C79", "status": "partial", "theorems": ["C79_done_v3", "C79_done_v5_partial", "C77_stall_refuted"], "note": "MQTT 3: every history, packet identifiers not coming round while in use (few_enough). MQTT 5 partial: when the server has just discarded an expired message the exchange can come to rest with a message that still waits (C77_stall_refuted)."},
 {"property": "C80", "status": "partial", "theorems": ["C80_to_application_5_5_partial", "C80_to_application_5_3_partial", "C80_to_application_3_5_partial", "C80_to_application_3_3_partial", "C80_any_5_5_partial", "C80_any_5_3_partial", "C80_any_3_5_partial", "C80_any_3_3_partial"], "note": "All four pairs of protocol versions. Missing: packet identifiers coming round while in use (few_enough, 65535 in a row); for a subscriber of MQTT 5, logs in which a message expired after being sent, and that the exchange does not rest too early, which C77_stall_refuted shows it can. Wills: C81. Shared subscriptions: C84; retained messages: C83. Stated for any events and any record of the sessions in C80_any_*."},
 {"property": "C81", "status": "partial", "theorems": ["C81_will_5_5", "C81_will_5_3", "C81_will_3_5", "C81_will_3_3", "C81_will_5_5_application_partial", "C81_will_5_3_application_partial", "C81_will_3_5_application_partial", "C81_will_3_3_application_partial", "C81_any_5_5", "C81_any_5_3", "C81_any_3_5", "C81_any_3_3", "C81_any_5_5_application_partial", "C81_any_5_3_application_partial", "C81_any_3_5_application_partial", "C81_any_3_3_application_partial"], "note": "All four pairs of protocol versions, to the session of the subscriber and what it does with the will. When a will is published: C31. The four theorems on the application have the limits of C80 (partial there). Stated for any record of the subscriber's session in C81_any_*. Up to the session of the subscriber the claim is proved in full; partial only for the last sentence, on the application."},
 {"property": "C82", "status": "proved", "theorems": ["C82_kept", "C82_untouched", "C82_determined"], "note": "The whole store, after every history of the broker. Packets are as the decoder lets them through (proper). C82_determined: the stores and removals are determined by the history."},
 {"property": "C83", "status": "partial", "theorems": ["C83_retained_5_partial", "C83_retained_3_partial"], "note": "Both protocol versions, for every SUBSCRIBE answered by SUBACK in the life of a session. Missing, as in C80: packet identifiers coming round while in use (few_enough); for MQTT 5, logs in which a message expired after being sent, and that the exchange does not rest too early (C77_stall_refuted)."},
 {"property": "C84", "status": "partial", "theorems": ["C84_group_partial", "C84_stayed_partial", "C84_group_any_partial", "C84_stayed_any_partial"], "note": "Missing: histories in which a session was given up half-way (lossless; C64_dead_member_refuted), groups the table has lost after a last member left (offers_group; C03_shared_members_refuted), and the limits of C80 for the application. C84_stayed_partial replaces the hypothesis about the routing table by one about the history: nobody has left a share group so far. Then every group with a member on record whose filter matches is served, with the QoS that member has on record. Stated for any events of the publisher's session in C84_*_any_partial."},
 {"property": "C85", "status": "proved", "theorems": ["C85_arrival", "C85_v3_arrival", "C85_broker_arrival", "C85_v3_broker_arrival", "C85_once", "C85_v3_once", "C85_broker_once", "C85_v3_broker_once"], "note": "C85_arrival and C85_v3_arrival hold for every queue of a session (MQTT 5: while the clock does not go back between transmissions), packet identifiers in use twice included; C85_once and C85_v3_once are the part on QoS 2, with its conditions: no_reuse (few_enough in the broker) and, in the client relation met, nothing under way about an identifier that is taken again, and expired_unsent (MQTT 5 only). The broker theorems carry all this to the sessions of every broker run, whose clock does not go back. C85_case loses a connection and receives 1, 1, 2, 3; C85_once_case loses one and gives \"x\", \"y\" to the application."},
 {"property": "C86", "status": "proved", "theorems": ["C86_from_publisher", "C86_to_client", "C86_v3_to_client", "C86_other", "C86_v3_other", "C86_qos0", "C86_v3_qos0"], "note": "C86_from_publisher: what any connection passed on to a client that has a session is, in order, the beginning of what it accepted for it. C86_to_client and C86_v3_to_client: what arrives, and what the application gets, is in the order of passing on; QoS 2 with the conditions of C85_once. C86_other, C86_v3_other: every other queued message was queued on a SUBSCRIBE. C86_qos0, C86_v3_qos0: a QoS 0 PUBLISH is written only when a message is handed over (and is that message) or on a SUBSCRIBE, and the messages are written in the order of passing on, each at most once; C86_qos0_case and zeros_case are their examples. C86_case is a run that meets the hypotheses; order_matters shows a log that the statement rules out."},
 {"property": "C87", "status": "proved", "theorems": ["C87_away", "C87_v3_away", "C87_all", "C87_v3_all"], "note": "Every run of the broker with packets as the decoder yields them and a clock after 1970; no assumption on packet identifiers. A full queue is one with max_in_mem_pending_messages entries after the finished ones at its front are removed. The message can be taken means that the step is possible; that the task is scheduled is the executor's part. C87_all says it for all the messages that wait, taken one after the other."}
]}
