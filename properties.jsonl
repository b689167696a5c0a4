{"id":"C01","title":"Publishes are routed to exactly the matching plain subscriptions","statement":"After any sequence of subscribe and unsubscribe calls, looking up a topic name returns, for plain (non $share) filters, exactly the currently subscribed (filter, client, QoS) triples whose filter matches the topic under MQTT rules ('+' one level, '#' the parent and any levels below it, literal levels otherwise), with the QoS of the latest subscribe, and no filter is returned twice.","quantifier":"every finite history of subscribe/unsubscribe operations by any clients on any valid filters (plain and shared mixed), and every topic name","why_tests_cant":"the trie is mutated by unbounded interleavings of inserts and pruning removals; a test only samples a few shapes","anchors":["akasa-core/src/protocols/mqtt/route.rs:RouteTable::get_matches","route.rs:RouteTable::subscribe","route.rs:RouteTable::unsubscribe","route.rs:RouteNode::insert","route.rs:RouteNode::remove"]}
{"id":"C02","title":"Wildcard-leading filters never see '$' topics","statement":"A topic beginning with '$' is never delivered to a subscription whose filter begins with '+' or '#', and a wildcard-leading filter never receives a retained message of a '$' topic.","quantifier":"every history of table operations, every '$'-topic and every wildcard-leading filter","why_tests_cant":"must hold for every tree shape and every deeper structure of topic and filter","anchors":["route.rs:RouteTable::get_matches","retain.rs:RetainTable::get_matches"]}
{"id":"C03","title":"Shared group selection picks one current member and groups hold all members","statement":"For every matching shared group exactly one client is selected; the selected client currently holds a subscription in that group; and the members stored for a group are exactly the clients that subscribed and have not unsubscribed, with their latest QoS.","quantifier":"every history of shared subscribe/unsubscribe operations, every topic, every random number or hash value used for the selection","why_tests_cant":"the swap-remove index bookkeeping must be right for every order of joins and leaves","anchors":["route.rs:SharedClients::insert","route.rs:SharedClients::remove","route.rs:SharedClients::get_by_number"]}
{"id":"C04","title":"Subscribe and unsubscribe never panic","statement":"No subscribe or unsubscribe call on a valid filter panics, whatever happened before.","quantifier":"every history of subscribe/unsubscribe operations","why_tests_cant":"an out-of-range index needs a particular earlier history","anchors":["route.rs:SharedClients::insert","route.rs:SharedClients::remove","v5/packet/subscribe.rs:handle_subscribe"]}
{"id":"C05","title":"Route table keeps no garbage","statement":"A lookup returns only non-empty entries carrying their filter, and when every subscription has been removed the table is empty again.","quantifier":"every history of subscribe/unsubscribe operations","why_tests_cant":"pruning must be right for every shape of the tree","anchors":["route.rs:RouteNode::remove","route.rs:RouteTable::unsubscribe"]}
{"id":"C06","title":"Retained store returns the latest retained message of exactly the matching topics","statement":"After any sequence of retained inserts and removals, asking for a filter returns, for each topic that matches the filter, the last message inserted for it and not since removed, exactly once, and nothing else; insert and remove return the previous message.","quantifier":"every finite history of insert/remove, every valid filter","why_tests_cant":"unbounded histories and tree shapes","anchors":["akasa-core/src/protocols/mqtt/retain.rs:RetainTable::get_matches","retain.rs:RetainTable::insert","retain.rs:RetainTable::remove"]}
{"id":"C07","title":"Retained store keeps no garbage","statement":"When the last retained message has been removed the table is empty again.","quantifier":"every history of insert/remove","why_tests_cant":"pruning must be right for every shape","anchors":["retain.rs:RetainNode::remove"]}
{"id":"C08","title":"In-flight window is respected","statement":"The server never has more than the client's Receive Maximum QoS 1/2 messages transmitted and not yet completed on a connection.","quantifier":"every interleaving of message arrivals, acknowledgements (valid or not), timer ticks and reconnects, every Receive Maximum","why_tests_cant":"depends on every schedule of acks and sends","anchors":["pending.rs:PendingPackets","v5/packet/common.rs:handle_pendings","v3/packet/common.rs:handle_pendings"]}
{"id":"C09","title":"First transmissions follow arrival order","statement":"QoS 1/2 messages are transmitted for the first time in the order in which they were queued for the client. None is skipped if no message has an expiry interval and the client acknowledges only what it was sent.","quantifier":"every schedule of arrivals, acks, ticks and reconnects","why_tests_cant":"order must hold for every schedule","anchors":["pending.rs:PendingPackets::get_ready_packet","v5/packet/common.rs:handle_pendings"]}
{"id":"C10","title":"Packet identifiers of queued messages are unique and non-zero","statement":"No two messages waiting in a client's outgoing queue carry the same packet identifier, and none is 0, including after the 16-bit counter wraps.","quantifier":"every history of a session, of any length, with a queue limit of at most 65535","why_tests_cant":"needs more than 65535 messages to wrap, and every ack pattern","anchors":["v5/session.rs:Session::incr_server_packet_id","v5/packet/publish.rs:recv_publish","pending.rs:PendingPackets::push_back"]}
{"id":"C11","title":"Retransmission discipline","statement":"An unacknowledged message is retransmitted on the same connection only after the resend timeout, a retransmitted PUBLISH has DUP=1 and a first transmission has DUP=0, once PUBACK or PUBCOMP was accepted nothing more is sent for that message, and once PUBREC was accepted only PUBREL is sent for it.","quantifier":"every schedule of arrivals, acks, ticks and reconnects","why_tests_cant":"temporal property over all histories","anchors":["pending.rs:PendingPackets","v5/packet/common.rs:handle_pendings","v3/packet/common.rs:handle_pendings"]}
{"id":"C12","title":"The outgoing queue is bounded and drops only when full","statement":"A client's outgoing queue never holds more than max_in_mem_pending_messages entries, a message is dropped only if the queue is full at its arrival, and dropping a message disturbs no queued message.","quantifier":"every history of a session","why_tests_cant":"every history","anchors":["pending.rs:PendingPackets::push_back","v5/packet/publish.rs:recv_publish"]}
{"id":"C13","title":"Acknowledgements act only on the message they name","statement":"PUBACK, PUBREC and PUBCOMP change at most the one queued message with that packet identifier; an identifier that is not in flight changes nothing and PUBREC/PUBREL answer it with 'packet identifier not found' in v5.","quantifier":"every queue state and every packet identifier","why_tests_cant":"every state and identifier","anchors":["pending.rs:PendingPackets::complete","pending.rs:PendingPackets::pubrec","v5/packet/publish.rs:handle_puback"]}
{"id":"C14","title":"Expired messages are not sent and the remaining lifetime is announced","statement":"A queued v5 message whose expiry interval has elapsed before its first transmission is never sent, and a transmitted one announces the original interval minus the time it waited.","quantifier":"every waiting time, expiry interval and schedule","why_tests_cant":"every time value","anchors":["v5/packet/common.rs:handle_pendings"]}
{"id":"C15","title":"A resumed session loses no queued message","statement":"When a client reconnects without clean start, every queued QoS 1/2 message that was not completed is still queued with its packet identifier and order, and is transmitted to the new connection as the window allows.","quantifier":"every session history and reconnect point","why_tests_cant":"every crash/reconnect point","anchors":["v5/message.rs:OnlineSession::build_state","v5/packet/connect.rs:session_connect","pending.rs:PendingPackets::reset_last_sent"]}
{"id":"C16","title":"Outgoing topic aliases always denote the right topic","statement":"A client that follows the MQTT 5 alias rules recovers the true topic of every PUBLISH it receives; the alias is never 0 and never above the client's Topic Alias Maximum.","quantifier":"every sequence of delivered topics and every alias maximum","why_tests_cant":"every sequence","anchors":["v5/packet/common.rs:get_or_assign_server_topic_alias","v5/packet/publish.rs:recv_publish"]}
{"id":"C17","title":"Incoming topic aliases resolve to the last topic bound","statement":"An accepted PUBLISH with an alias is treated as published on the topic most recently bound to the alias on this connection; alias 0, above the announced maximum, or unbound is refused.","quantifier":"every sequence of publishes on a connection","why_tests_cant":"every sequence","anchors":["v5/packet/publish.rs:handle_publish"]}
{"id":"C18","title":"QoS 2 publishes are forwarded exactly once","statement":"Between the first PUBLISH with a QoS 2 packet identifier and its PUBREL the message is forwarded exactly once however often the client retransmits it, and after PUBREL the identifier is free again.","quantifier":"every sequence of PUBLISH/PUBREL packets of a client with any packet identifiers and DUP flags","why_tests_cant":"every retransmission schedule","anchors":["v5/packet/publish.rs:handle_publish","v3/packet/publish.rs:handle_publish","v5/packet/publish.rs:handle_pubrel"]}
{"id":"C19","title":"Server Receive Maximum is enforced","statement":"A v5 client can have at most max_inflight_server QoS 2 identifiers outstanding; one more is refused with Receive Maximum exceeded and stores nothing.","quantifier":"every sequence of packets","why_tests_cant":"every sequence","anchors":["v5/packet/publish.rs:handle_publish"]}
{"id":"C20","title":"Delivered QoS is the minimum of published and granted QoS","statement":"A message is delivered to a subscriber with QoS = min(QoS published, highest QoS granted among the client's matching subscriptions).","quantifier":"every route table, topic and publish QoS","why_tests_cant":"every overlap of subscriptions","anchors":["v5/packet/publish.rs:send_publish","v5/packet/publish.rs:recv_publish","v3/packet/publish.rs:recv_publish"]}
{"id":"C21","title":"No Local is honoured","statement":"A client never receives a message it published itself through a v5 subscription made with No Local.","quantifier":"every set of subscriptions and every message","why_tests_cant":"every overlap of subscriptions with and without No Local","anchors":["v5/packet/publish.rs:recv_publish"]}
{"id":"C22","title":"One copy per v5 subscriber, with the identifiers of its matching subscriptions","statement":"However many of a client's plain filters match, a message of a v5 publisher is sent to it once, carrying only subscription identifiers of its matching subscriptions, and none of those is left out.","quantifier":"every route table and topic","why_tests_cant":"every overlap","anchors":["v5/packet/publish.rs:send_publish","v5/packet/publish.rs:recv_publish"]}
{"id":"C23","title":"RETAIN flag of forwarded messages","statement":"A message forwarded because of an established subscription has RETAIN=0 unless the v5 subscription set Retain As Published; a message sent because of a new subscription has RETAIN=1.","quantifier":"every message and subscription","why_tests_cant":"every combination of options over every route","anchors":["v5/packet/publish.rs:recv_publish","v3/packet/publish.rs:recv_publish","v5/packet/subscribe.rs:handle_subscribe"]}
{"id":"C24","title":"Retained messages sent on subscribe follow Retain Handling","statement":"On SUBSCRIBE the client is sent the retained messages matching each accepted filter: always for Retain Handling 0, only if the subscription is new for 1, never for 2.","quantifier":"every retained store, subscription list and session","why_tests_cant":"every store and history","anchors":["v5/packet/subscribe.rs:handle_subscribe","v3/packet/subscribe.rs:handle_subscribe"]}
{"id":"C25","title":"SUBACK and UNSUBACK answer every filter in order","statement":"Every accepted SUBSCRIBE/UNSUBSCRIBE is answered by exactly one acknowledgement with the same packet identifier and exactly one reason code per filter in the same order; a granted code is at most the maximum QoS and the filter is then routed with that QoS, and a refused filter changes nothing.","quantifier":"every subscription list and session state","why_tests_cant":"every list","anchors":["v5/packet/subscribe.rs","v3/packet/subscribe.rs"]}
{"id":"C26","title":"Client ids are never reused and map one-to-one to client identifiers","statement":"Every client identifier known to the server has exactly one internal id, distinct identifiers have distinct ids, ids are never reused, and the lookup after a known identifier connects never panics.","quantifier":"every interleaving of connects, offline and removals","why_tests_cant":"every interleaving","anchors":["akasa-core/src/state.rs:GlobalState::add_client","state.rs:GlobalState::remove_client"]}
{"id":"C27","title":"The online-clients gauge","statement":"The number reported as online clients equals the number of connected clients, and its decrement never underflows.","quantifier":"every interleaving of connects, takeovers, disconnects and removals","why_tests_cant":"every interleaving","anchors":["state.rs:GlobalState::offline_client","state.rs:GlobalState::online_clients_count"]}
{"id":"C28","title":"A client identifier is never locked out","statement":"Whatever happened to earlier connections, a client identifier can connect again: the control channel found for it is served by a live session.","quantifier":"every history of connection attempts and failures","why_tests_cant":"depends on failures between registering the session and starting to serve it","anchors":["state.rs:GlobalState::add_client","v5/packet/connect.rs:session_connect","v5/message.rs:handle_online"]}
{"id":"C29","title":"Session Present and session state on takeover","statement":"CONNACK has Session Present=1 exactly if clean start was not requested and an unexpired session of the identifier existed; then the subscriptions, queued messages, packet identifier counter and QoS 2 identifiers are those of the old session; otherwise the session starts empty.","quantifier":"every pair of old session and connect request","why_tests_cant":"every session state","anchors":["v5/packet/connect.rs:session_connect","v3/packet/connect.rs:handle_connect","v5/session.rs:Session::copy_from_state"]}
{"id":"C30","title":"Clean start discards old subscriptions","statement":"After a client connects with clean start, no message is routed to it because of a subscription of an earlier session.","quantifier":"every history","why_tests_cant":"needs the interaction of the routing table with every takeover history","anchors":["v5/packet/connect.rs:session_connect","state.rs:GlobalState::remove_client","v5/message.rs:handle_offline"]}
{"id":"C31","title":"Will message publication","statement":"The will is published at most once per connection; it is not published after a normal DISCONNECT or when the client reconnects before the will delay elapsed; otherwise it is published, at the latest when the session ends.","quantifier":"every way a connection can end and every timing","why_tests_cant":"every ordering of timers and events","anchors":["v5/message.rs:handle_will","v5/message.rs:handle_offline","v5/packet/connect.rs:handle_disconnect"]}
{"id":"C32","title":"Session expiry","statement":"A disconnected session is removed, with all of its routes and registry entries, once its session expiry interval has elapsed and not before; interval 0 removes it at once and the maximum value never removes it.","quantifier":"every interval and event order","why_tests_cant":"every timing","anchors":["v5/message.rs:handle_offline","state.rs:GlobalState::remove_client"]}
{"id":"C33","title":"Keep-alive","statement":"A client that sends a packet at least every keep-alive seconds is never disconnected by the keep-alive timer, and a silent one is disconnected no earlier than 1.5 and no later than 2 keep-alive intervals after its last packet.","quantifier":"every arrival pattern and keep-alive value","why_tests_cant":"every timing","anchors":["akasa-core/src/protocols/mqtt/common.rs:start_keep_alive_timer"]}
{"id":"C34","title":"A keep-alive timer only disconnects the connection it was started for","statement":"A connection is never disconnected because an earlier, taken-over connection of the same client stayed silent.","quantifier":"every sequence of takeovers","why_tests_cant":"needs the race of a stale timer","anchors":["protocols/mqtt/common.rs:start_keep_alive_timer","v5/message.rs:handle_online"]}
{"id":"C35","title":"Bytes written to the socket are exactly the encoded packets in order","statement":"Whatever number of bytes each write accepts and however writes interleave with new packets, the byte stream on the socket is the concatenation of the encodings of the queued packets in order, with nothing lost, repeated or torn.","quantifier":"every partial-write schedule and packet sequence","why_tests_cant":"every schedule","anchors":["akasa-core/src/protocols/mqtt/online_loop.rs:poll"]}
{"id":"C36","title":"WebSocket payloads form one byte stream","statement":"The bytes read through the WebSocket adapter are exactly the concatenated payloads of the binary frames in order, for every frame split and read buffer size.","quantifier":"every sequence of frames and read sizes","why_tests_cant":"every fragmentation","anchors":["akasa-core/src/server/mod.rs:WebSocketWrapper::poll_read"]}
{"id":"C37","title":"Back-pressured deliveries are neither lost nor reordered","statement":"Messages a session wants to send to other clients are delivered to each live destination in order and once, whatever destinations are full at whatever time, and the internal accounting assertion never fails.","quantifier":"every pattern of full, ready and closed destination channels","why_tests_cant":"every schedule","anchors":["online_loop.rs:poll","v5/message.rs:broadcast_packets"]}
{"id":"C38","title":"Password file round-trips","statement":"Writing a password table to a file and loading it gives back the same table, and loading never accepts a malformed line.","quantifier":"every table of user names and hashes","why_tests_cant":"every user name, including ones with separators","anchors":["akasa-core/src/protocols/mqtt/auth.rs:dump_passwords","auth.rs:load_passwords"]}
{"id":"C39","title":"Password check accepts exactly the right password","statement":"A user whose entry was created by insert-password is accepted with that password, and a connect with a missing user name, missing password or unknown user is refused; acceptance implies that the stored hash equals the hash of the presented password.","quantifier":"every table, user name, password and salt","why_tests_cant":"every input","anchors":["auth.rs:check_password","auth.rs:hash_password"]}
{"id":"C40","title":"SCRAM authentication is complete and sound","statement":"A conforming client with the right password completes the exchange and both sides accept; the server accepts a final message only if it carries the nonce and channel binding of this exchange and a proof that is valid for the stored password and these very messages.","quantifier":"every user, password, salt, iteration count, nonce and every byte string sent as final message","why_tests_cant":"every message","anchors":["akasa-core/src/protocols/scram/server.rs","scram/client.rs","scram/mod.rs"]}
{"id":"C41","title":"No client is served before it is authenticated","statement":"When authentication is enabled, a connection registers a session, changes any table or gets a success CONNACK only after the password check, and for enhanced authentication the SCRAM exchange, succeeded.","quantifier":"every packet sequence","why_tests_cant":"every sequence","anchors":["v5/packet/connect.rs:handle_connect","v3/packet/connect.rs:handle_connect","v5/packet/connect.rs:handle_auth"]}
{"id":"C42","title":"Connect negotiation respects the configured limits and announces what is applied","statement":"After a successful v5 CONNECT the session's expiry interval, receive maximum, maximum packet size, topic alias maximum and keep-alive are within the configured limits, and each value that differs from the requested one is announced in CONNACK.","quantifier":"every connect packet and every valid configuration","why_tests_cant":"every combination","anchors":["v5/packet/connect.rs:handle_connect","v5/packet/connect.rs:session_connect"]}
{"id":"C43","title":"A valid configuration never makes the server panic","statement":"If the configuration passes validation, the QoS limit lookup never panics and every configured SASL mechanism is usable.","quantifier":"every configuration","why_tests_cant":"every configuration","anchors":["akasa-core/src/config.rs:Config::is_valid","config.rs:Config::max_allowed_qos"]}
{"id":"C44","title":"PROXY v2 headers are decoded exactly","statement":"For every well-formed PROXY v2 header the addresses and TLVs encoded in it are recovered, exactly the header's bytes are consumed from the stream, and a malformed header is rejected with an error.","quantifier":"every header, every TLV list, every following payload","why_tests_cant":"every byte sequence","anchors":["akasa-core/src/server/proxy.rs:parse_header","proxy.rs:parse_tlvs"]}
{"id":"C45","title":"No input bytes make the PROXY header parser panic","statement":"Every byte sequence sent to a PROXY-enabled listener leads to acceptance or an error, never a panic.","quantifier":"every byte sequence","why_tests_cant":"every byte sequence","anchors":["proxy.rs:parse_header"]}
{"id":"C46","title":"The client's Maximum Packet Size is respected","statement":"The server never sends a v5 client a PUBLISH larger than the Maximum Packet Size it announced.","quantifier":"every message, subscription set and alias state","why_tests_cant":"every combination of properties added on the way","anchors":["v5/packet/publish.rs:recv_publish","v5/packet/common.rs:handle_pendings"]}
{"id":"C47","title":"Hook verdicts are obeyed","statement":"When a hook refuses or disconnects, the packet has no effect on routing, retained store or other clients and the client gets the reason code of the verdict; actions returned by a hook are applied.","quantifier":"every packet and hook verdict","why_tests_cant":"every packet","anchors":["akasa-core/src/hook.rs:handle_request","v5/message.rs:handle_packet"]}
{"id":"C48","title":"Every QoS 1/2 PUBLISH gets exactly one acknowledgement","statement":"An accepted QoS 1 PUBLISH is answered with exactly one PUBACK and an accepted QoS 2 PUBLISH with exactly one PUBREC carrying its packet identifier; QoS 0 gets none; a refused one ends the connection and routes nothing.","quantifier":"every publish packet and session state","why_tests_cant":"every packet and state","anchors":["v5/packet/publish.rs:handle_publish","v3/packet/publish.rs:handle_publish"]}
{"id":"C49","title":"An acknowledged publish is handed to every matching live subscriber","statement":"When a QoS 1/2 publish is acknowledged, for every client with a matching plain subscription at that time one message with its payload and topic was handed to that client's session.","quantifier":"every broker state and publish","why_tests_cant":"every routing state","anchors":["v5/packet/publish.rs:send_publish","v3/packet/publish.rs:send_publish"]}
{"id":"C50","title":"A packet stream never crashes a session","statement":"No sequence of well-formed MQTT packets from clients makes the packet handlers panic.","quantifier":"every packet sequence","why_tests_cant":"every sequence","anchors":["v5/message.rs:handle_packet","v3/message.rs:handle_packet"]}
{"id":"C51","title":"A suspended connection is woken by everything that lets it go on","statement":"Whenever the server's task for a connection suspends, it has registered to be woken by new input (or, when it holds input back because output is congested, by what relieves the congestion), by room in the socket for unsent bytes, and by room in the queue of every client it has undelivered messages for.","quantifier":"every history of polls and every behaviour of the socket and of other clients' queues","why_tests_cant":"a lost wake-up shows only under particular timings","anchors":["akasa-core/src/protocols/mqtt/online_loop.rs:poll"]}
{"id":"C52","title":"Every request gets exactly one response of the right kind, and nothing else is answered","statement":"A PUBLISH of QoS 1 or 2, PUBREC, PUBREL, SUBSCRIBE, UNSUBSCRIBE or PINGREQ is answered by exactly one packet of the prescribed kind with the same identifier (SUBACK and UNSUBACK with one code per filter), unless the packet is refused, in which case the only packet is a DISCONNECT (MQTT 5) or the connection ends (MQTT 3). All other packets a client receives are messages for it; an answer never goes to another connection.","quantifier":"every history of the broker and every incoming packet","why_tests_cant":"every history and interleaving of connections","anchors":["akasa-core/src/protocols/mqtt/v5/message.rs:handle_packet","akasa-core/src/protocols/mqtt/v3/message.rs:handle_packet"]}
{"id":"C53","title":"Messages are routed exactly to the subscriptions granted","statement":"At any time, what the broker would route to a client are the matching filters among those granted to its session by SUBACK and not removed since by UNSUBACK or a clean start, on this or earlier connections, with the QoS last granted.","quantifier":"every history of the broker, every topic and filter","why_tests_cant":"every history of subscriptions, reconnections, takeovers and expiries","anchors":["akasa-core/src/protocols/mqtt/route.rs","akasa-core/src/state.rs:remove_client","akasa-core/src/protocols/mqtt/v5/packet/subscribe.rs","akasa-core/src/protocols/mqtt/v5/packet/connect.rs"]}
{"id":"C54","title":"Messages between clients are accounted for","statement":"Every message a connection accepts for another client is passed on once, in order, with the sender's id, and reaches the receiver's session on whichever connection it lives, or is still waiting; nothing is made up, doubled or overtaken. The only exceptions are a receiver that is gone and the takeover of the sender's session.","quantifier":"every history of the broker, every pair of connections","why_tests_cant":"every interleaving of publishing, passing on, takeovers, going offline and coming back","anchors":["akasa-core/src/protocols/mqtt/online_loop.rs","akasa-core/src/protocols/mqtt/v5/message.rs:broadcast_packets","akasa-core/src/protocols/mqtt/v3/message.rs","akasa-core/src/state.rs","akasa-core/src/protocols/mqtt/v5/packet/connect.rs"]}
{"id":"C55","title":"Reason strings respect the client's wishes","statement":"A reason string is added to a CONNACK or DISCONNECT only if the client's CONNECT did not set Request Problem Information to 0 and the packet with it is no larger than the client's Maximum Packet Size; an undecodable packet is answered with its reason whenever both hold.","quantifier":"every history of the broker, every connection phase, every CONNECT and packet, every configuration","why_tests_cant":"every combination of limits, wishes, errors and earlier history","anchors":["akasa-core/src/protocols/mqtt/v5/packet/common.rs:build_error_connack","akasa-core/src/protocols/mqtt/v5/packet/common.rs:build_error_disconnect","akasa-core/src/protocols/mqtt/v5/packet/connect.rs:handle_connect","akasa-core/src/protocols/mqtt/v5/message.rs"]}
{"id":"C56","title":"An interrupted password command grants nobody new access","statement":"If insert-password or remove-password is stopped at any moment, whatever can be loaded from the file then contains only users who were in it before or are being inserted, each with the same algorithm and salt and with the same hash or a beginning of it; and the change is all or nothing.","quantifier":"every file, user, password and algorithm, every point at which the command stops","why_tests_cant":"every crash point of every rewrite of the file","anchors":["akasa/src/main.rs","akasa-core/src/protocols/mqtt/auth.rs:dump_passwords","akasa-core/src/protocols/mqtt/auth.rs:load_passwords"]}
{"id":"C57","title":"Only a proper and prompt MQTT client reaches a session","statement":"On each listener a connection is handed to the MQTT code exactly if its bytes, taken out of the PROXY header, the TLS session and the WebSocket frames configured for that listener, begin like a CONNECT packet of MQTT 3.1, 3.1.1 or 5.0 and arrive within five seconds; it is then served with the protocol it names under the address the PROXY header gives. Any other connection is closed after at most five seconds, whatever it sends and whenever. A listener demands the client certificates its configuration asks for.","quantifier":"every listener configuration, every byte sequence in every chunking, every arrival time","why_tests_cant":"all byte streams, chunkings and arrival times; all combinations of listener options","anchors":["akasa-core/src/server/mod.rs:handle_accept","akasa-core/src/server/mod.rs:build_tls_context","akasa-core/src/server/rt.rs:start","akasa-core/src/protocols/mqtt/v5/message.rs:handle_online","akasa-core/src/protocols/mqtt/v3/message.rs:handle_online"]}
{"id":"C58","title":"The HTTP endpoints report the truth, and only if asked to","statement":"GET /metrics answers with exactly one Prometheus sample, ONLINE_CLIENTS, whose value is the number of connected clients; without the prometheus option there is no such page and no answer depends on the clients. GET /health always answers ok.","quantifier":"every history of the whole broker and every request","why_tests_cant":"the number must be right after every interleaving of connections, disconnections and takeovers","anchors":["akasa-core/src/protocols/http/mod.rs:get_router","akasa-core/src/protocols/http/prometheus.rs:prometheus_metrics","akasa-core/src/protocols/http/health.rs:health","akasa-core/src/state.rs:online_clients_count"]}
{"id":"C59","title":"A connection that is over is cleared away","statement":"When the network connection of a client ends, the server passes on what the client had published last (its will included), gives it to every client that is still served, and then removes the client or keeps its session, so that the client can come back. No state in which this can never happen is reached.","quantifier":"every history of the whole broker and every schedule of its tasks","why_tests_cant":"it depends on how full the inboxes are and on which other connections end at the same moment; a test sees one schedule","anchors":["akasa-core/src/protocols/mqtt/v5/message.rs:broadcast_packets","akasa-core/src/protocols/mqtt/v5/message.rs:handle_online","akasa-core/src/protocols/mqtt/v3/message.rs:handle_online","akasa-core/src/state.rs:ClientSender"]}
{"id":"C60","title":"The hook that ships with the server changes nothing","statement":"With the default hook every client sees exactly what it would see without hooks: the same packets, the same acceptance or refusal of CONNECT, the same subscriptions, the same publications, whichever hooks are switched on and however long the hook takes to answer.","quantifier":"every choice of enabled hooks, every history of a connection in which the hook answers, MQTT 5 and MQTT 3","why_tests_cant":"all packets and all orders of packets and answers; a test compares two runs","anchors":["akasa/src/default_hook.rs:DefaultHook","akasa-core/src/hook.rs:Hook"]}
{"id":"C61","title":"The listeners stay up","statement":"While the server runs each configured listener accepts connections; after an error of the operating system it is open again within a second, other listeners are not affected, and clients that connected are served in the order in which they connected, none passed over. The same holds for the HTTP endpoint, and the process does not end by itself.","quantifier":"every sequence of errors, connections and times, every set of listeners","why_tests_cant":"errors of the operating system at every moment in every order; tests open one listener that works","anchors":["akasa-core/src/server/rt.rs:start","akasa-core/src/server/rt.rs:listen","akasa-core/src/server/http_api.rs:serve"]}
{"id":"C62","title":"The start command serves exactly what a valid configuration says","statement":"For every configuration and password file the start command either ends with an error message or serves the listeners the configuration names with the passwords of the file, never anything in between and never by a panic; it serves only if the configuration is valid, the TLS files load and, where passwords are demanded, the file parses. The configuration the server prints as its default is such a configuration.","quantifier":"every configuration, every content of the password file","why_tests_cant":"all combinations of configuration values and file contents","anchors":["akasa/src/main.rs:main","akasa-core/src/config.rs:is_valid","akasa-core/src/config.rs:new_allow_anonymous","akasa-core/src/server/rt.rs:start"]}
{"id":"C63","title":"Features that are switched off cannot be used","statement":"Whatever clients send, a server never takes on anything beyond what it says it offers: no subscription above the maximum QoS, with a wildcard, to a shared group or with a subscription identifier while these are unavailable, no will above the maximum QoS or with RETAIN while retained messages are unavailable, and no message published above the maximum QoS or stored although retained messages are unavailable.","quantifier":"every configuration, every interleaving of clients, connections, packets, wills and resumed sessions","why_tests_cant":"all configurations times all histories; tests try one refused packet on a fresh session","anchors":["akasa-core/src/protocols/mqtt/v5/packet/subscribe.rs:handle_subscribe","akasa-core/src/protocols/mqtt/v5/packet/connect.rs:session_connect","akasa-core/src/protocols/mqtt/v5/packet/publish.rs:handle_publish","akasa-core/src/protocols/mqtt/v3/packet/subscribe.rs:handle_subscribe","akasa-core/src/protocols/mqtt/v3/packet/connect.rs:handle_connect"]}
{"id":"C64","title":"A message for a shared subscription goes to exactly one member of the group","statement":"For every accepted message and every shared group with a member whose filter matches its topic, exactly one client that is a member at that time is handed the message on behalf of the group, whatever the random choice.","quantifier":"every history of subscribing and unsubscribing, every message, every choice, every set of other subscriptions","why_tests_cant":"the choice is random and the table depends on the whole history","anchors":["akasa-core/src/protocols/mqtt/v5/packet/publish.rs:send_publish","akasa-core/src/protocols/mqtt/v3/packet/publish.rs:send_publish","akasa-core/src/protocols/mqtt/route.rs:SharedClients"]}
{"id":"C65","title":"Publishing while others subscribe and unsubscribe","statement":"A publish that runs at the same time as subscribes, unsubscribes and other publishes gives the message only to clients that hold a matching subscription at some moment after the publish began, gives it to every client that holds a matching subscription throughout, and always completes.","quantifier":"every set of concurrent publishes, subscribes and unsubscribes, every interleaving of their locked sections","why_tests_cant":"the window is between the lookup of the matching filters and the reading of each filter's subscribers; a test cannot place another task there","anchors":["akasa-core/src/protocols/mqtt/v5/packet/publish.rs:send_publish","akasa-core/src/protocols/mqtt/v3/packet/publish.rs:send_publish","akasa-core/src/protocols/mqtt/route.rs:get_matches","akasa-core/src/protocols/mqtt/route.rs:RouteContent"]}
{"id":"C66","title":"Subscribing while a retained message is published misses nothing","statement":"A client that subscribes, and asks for retained messages, while a retained message is being published on a matching topic is given that message by the publisher or finds it among the retained messages.","quantifier":"every interleaving of the publish, the subscribe and any other publishes, subscribes and unsubscribes","why_tests_cant":"it depends on the order of four locked sections in two tasks","anchors":["akasa-core/src/protocols/mqtt/v5/packet/publish.rs:send_publish","akasa-core/src/protocols/mqtt/v5/packet/subscribe.rs:handle_subscribe","akasa-core/src/protocols/mqtt/v3/packet/publish.rs:send_publish","akasa-core/src/protocols/mqtt/v3/packet/subscribe.rs:handle_subscribe"]}
{"id":"C67","title":"Every CONNECT gets the answer the rules prescribe","statement":"Whether a client is served, asked to authenticate, refused (and with which code) or disconnected in silence is decided by the fields of its CONNECT, the configuration and the password table, by rules that give every CONNECT exactly one answer; a refused client is told why and changes nothing.","quantifier":"every CONNECT of every protocol version, every configuration, password table and set of SCRAM users, every sequence of packets the client sends before it is served","why_tests_cant":"the checks interact and their order decides the answer","anchors":["akasa-core/src/protocols/mqtt/v3/packet/connect.rs:handle_connect","akasa-core/src/protocols/mqtt/v5/packet/connect.rs:handle_connect","akasa-core/src/protocols/mqtt/v5/packet/connect.rs:session_connect","akasa-core/src/protocols/mqtt/v5/packet/connect.rs:handle_auth","akasa-core/src/protocols/mqtt/v5/message.rs"]}
{"id":"C68","title":"A client receives only what was published and what it asked for","statement":"Every PUBLISH the server writes to a client carries a topic, payload and properties that some client published earlier (in a packet the server accepted, or as a will that was due), at the QoS of that publication or a lower one and within the server's maximum; and the client has subscribed, on a connection with its own client identifier, to a filter that selects the topic. For an MQTT 5 client the topic is the one it resolves with the aliases it was taught.","quantifier":"every configuration, every history of any number of clients of every protocol version connecting, publishing, subscribing, losing their connection, taking sessions over, with retained messages, shared groups and wills, every schedule of the tasks","why_tests_cant":"a message passes through the routing table, the retained tree, queues of two tasks, offline storage, takeover and alias compression; each test sees one path","anchors":["akasa-core/src/protocols/mqtt/v5/packet/publish.rs:send_publish","akasa-core/src/protocols/mqtt/v5/packet/publish.rs:recv_publish","akasa-core/src/protocols/mqtt/v3/packet/publish.rs:send_publish","akasa-core/src/protocols/mqtt/v3/packet/publish.rs:recv_publish","akasa-core/src/protocols/mqtt/online_loop.rs","akasa-core/src/protocols/mqtt/v5/message.rs:handle_normal"]}
{"id":"C69","title":"Clients do not disturb each other","statement":"Whatever one client sends or fails to send, the connections and sessions of the others stay as they are: nothing is written to them, they are not closed, their wills are not published; all that happens to them is that messages are put at the end of their inbox. A client that is served stops being served only because of its own socket, its own packets or DISCONNECT, its own silence beyond 1.5 times the keep-alive, or another connection with its identifier; DISCONNECT is written only in answer to its own packet.","quantifier":"every history of any number of clients and connections, every next step of any of them","why_tests_cant":"it ranges over everything any other client could do at any moment","anchors":["akasa-core/src/protocols/mqtt/online_loop.rs","akasa-core/src/protocols/mqtt/v5/message.rs:handle_control","akasa-core/src/protocols/mqtt/v3/message.rs:handle_control","akasa-core/src/protocols/mqtt/common.rs:start_keep_alive_timer","akasa-core/src/state.rs:add_client"]}
{"id":"C70","title":"A client that does not read cannot make the server hold back without limit","statement":"While what waits to be written to a client is more than fifteen packets, or fourteen and a buffer of 2048 bytes, the server takes no packet from that client and no message for it; so at any moment what waits is bounded by that amount and what handling the last packet or message taken has added. The addition itself is bounded.","quantifier":"every connection, every sequence of packets, messages, hook answers and partial writes","why_tests_cant":"the amount depends on how the socket's partial writes interleave with packets and messages","anchors":["akasa-core/src/protocols/mqtt/online_loop.rs:poll","akasa-core/src/protocols/mqtt/online_loop.rs:too_much_write_data","akasa-core/src/protocols/mqtt/v5/packet/subscribe.rs:handle_subscribe"]}
{"id":"C71","title":"Grouping packets into wake-ups does not matter","statement":"Whatever a client's task takes in during one wake-up (packets, requests from other connections, messages from others) has the same effect as handling it one at a time in that order: the client sees the same packets in the same order, every other client is passed the same messages in the same order, the same subscriptions and retained messages are left, and the connection goes on, ends or hands its session over alike.","quantifier":"every connection of either protocol version, every state of the whole broker, every sequence of packets, partial writes, full channels and messages a wake-up can meet","why_tests_cant":"how much one wake-up takes in depends on the scheduler, the socket and the other clients","anchors":["akasa-core/src/protocols/mqtt/online_loop.rs:poll","akasa-core/src/protocols/mqtt/v5/message.rs","akasa-core/src/protocols/mqtt/v3/message.rs"]}
{"id":"C72","title":"What the server keeps for one client is limited by the configuration","statement":"For every client, connected or away, the server keeps at most max_in_mem_pending_messages messages not yet acknowledged, at most max_inflight_server open QoS 2 identifiers, at most topic_alias_max aliases and at most 8 messages in its inbox; its subscriptions are limited too.","quantifier":"every history of any number of clients of both protocol versions, every session in it","why_tests_cant":"the limits must survive every mix of packets, acknowledgements, losses, takeovers and reconnects","anchors":["akasa-core/src/protocols/mqtt/pending.rs:push_back","akasa-core/src/protocols/mqtt/v5/packet/publish.rs:handle_publish","akasa-core/src/protocols/mqtt/v3/packet/publish.rs:handle_publish","akasa-core/src/state.rs"]}
{"id": "C73", "title": "An accepted PUBLISH gets to every subscriber's session, once and in order", "statement": "A client publishes and the PUBLISH is neither refused nor the repetition of a QoS 2 one. Every client that was granted a matching, not shared subscription (its own No Local ones aside) and still has its session later on has been handed the message, on whichever connection, as soon as the queues between the two are empty: after everything the publisher's connection queued for it before, and before everything it queued later. The subscriber's session then passes topic and payload on to its client, with the QoS of the publication lowered to the one granted; it drops the message only if the client gave up a matching subscription in between, or the message exceeds the client's Maximum Packet Size, or it is a QoS 0 message and the client is away.", "quantifier": "every history of any number of clients, both protocol versions for publisher and subscriber, every order in which queues are emptied, subscribers leaving and coming back in between", "why_tests_cant": "the message crosses three queues served by different tasks, and connections end, resume and are taken over at any point on the way", "anchors": ["akasa-core/src/protocols/mqtt/v5/packet/publish.rs:handle_publish", "akasa-core/src/protocols/mqtt/v5/packet/publish.rs:send_publish", "akasa-core/src/protocols/mqtt/v3/packet/publish.rs:send_publish", "akasa-core/src/protocols/mqtt/online_loop.rs:poll", "akasa-core/src/protocols/mqtt/v5/message.rs:handle_normal", "akasa-core/src/protocols/mqtt/v3/message.rs:handle_normal"]}
{"id": "C74", "title": "A message that was sent stays until it is acknowledged", "statement": "Once a QoS 1 or 2 PUBLISH has been written to a client, the server keeps the message and sends it again, on this connection and on later ones, until the client acknowledges it or starts a new session. No other event of that client's session, no other client and no passing of time makes it go away.", "quantifier": "every history of any number of clients, every number of reconnections between the first transmission and the acknowledgement, every clock reading, both protocol versions", "why_tests_cant": "the loss needs a transmission, a broken connection and an elapsed lifetime in a particular order; a test sees the orders it was written for", "anchors": ["akasa-core/src/protocols/mqtt/pending.rs:reset_last_sent", "akasa-core/src/protocols/mqtt/pending.rs:get_ready_packet", "akasa-core/src/protocols/mqtt/pending.rs:clean_complete", "akasa-core/src/protocols/mqtt/v5/packet/common.rs:handle_pendings", "akasa-core/src/protocols/mqtt/v3/packet/common.rs:handle_pendings", "akasa-core/src/protocols/mqtt/v5/packet/connect.rs:session_connect"]}
{"id": "C75", "title": "A message does not outlive the lifetime its publisher gave it", "statement": "A message published with a Message Expiry Interval is not delivered to anybody when that interval has passed since the server accepted it, whether it is forwarded, kept for an absent client or retained; if it is delivered, the interval announced is what is left of it. A message published without an interval is delivered without one.", "quantifier": "every history of any number of clients, every clock reading, both protocol versions of the publisher, wills and retained messages included", "why_tests_cant": "a message passes queues, inboxes, sessions and the retained store with any delay in each; a test fixes the delays", "anchors": ["akasa-core/src/protocols/mqtt/v5/packet/publish.rs:send_publish", "akasa-core/src/protocols/mqtt/v5/packet/subscribe.rs:handle_subscribe", "akasa-core/src/protocols/mqtt/v5/packet/common.rs:handle_pendings", "akasa-core/src/protocols/mqtt/retain.rs:RetainContent"]}
{"id": "C76", "title": "A correct subscriber's application gets a QoS 2 message once", "statement": "A client that follows the standard (it gives a QoS 2 PUBLISH to its application unless the identifier is one it has stored, answers PUBREC, and forgets the identifier on PUBREL) gives every QoS 2 message the server queued for it to its application at most once, and exactly once when the exchange is finished, however often packets and acknowledgements are lost with a connection. With QoS 1 the application gets the message at least once when the server took the PUBACK.", "quantifier": "every history of the session and of the other clients, every way packets and acknowledgements are under way or lost when a connection ends, every number of reconnections and retransmissions, both protocol versions", "why_tests_cant": "the claim is about the server, the network and a client together; duplicates and losses depend on where exactly a connection breaks between four packets, any number of times", "anchors": ["akasa-core/src/protocols/mqtt/pending.rs:pubrec", "akasa-core/src/protocols/mqtt/pending.rs:complete", "akasa-core/src/protocols/mqtt/pending.rs:reset_last_sent", "akasa-core/src/protocols/mqtt/v5/packet/common.rs:handle_pendings", "akasa-core/src/protocols/mqtt/v5/packet/publish.rs:handle_pubrec", "akasa-core/src/protocols/mqtt/v3/packet/publish.rs:handle_pubrec"]}
{"id": "C77", "title": "Deliveries to a connected client do not stall", "statement": "While a client is connected and a QoS 1 or QoS 2 message the server accepted for it is unfinished (neither acknowledged nor given up for its age), some such message has been transmitted on this very connection and awaits the client's acknowledgement (or its PUBREC was answered with PUBREL and PUBCOMP is awaited). So a client that acknowledges what it gets always makes the server go on; no message waits for ever behind a full window, a reconnection or an expired message, although the server has no timer for transmissions.", "quantifier": "every history of the broker with any number of clients, every interleaving, disconnection, takeover and expiry, every configuration with a window that is not 0, both protocol versions", "why_tests_cant": "a stall is the absence of an event after some particular history of window sizes, acknowledgements, expiries and reconnections; a test sees only the histories it plays", "anchors": ["akasa-core/src/protocols/mqtt/pending.rs:get_ready_packet", "akasa-core/src/protocols/mqtt/pending.rs:clean_complete", "akasa-core/src/protocols/mqtt/v5/packet/common.rs:handle_pendings", "akasa-core/src/protocols/mqtt/v3/packet/common.rs:handle_pendings", "akasa-core/src/protocols/mqtt/online_loop.rs:OnlineLoop"]}
{"id": "C78", "title": "A publisher whose messages find no room is not read on", "statement": "While ten or more messages a client published wait for a place in other clients' inboxes, the server leaves whatever else the client sends in its socket, so a fast publisher cannot make the server store more and more for slow receivers. With fewer, and unless the client's own output is backed up, it is disconnecting, or a hook or takeover is in progress, the server takes the next packet in the same poll.", "quantifier": "every state of a connection whose count of waiting messages is right, everything the sockets, channels, hooks and other clients do during a poll, both protocol versions", "why_tests_cant": "the limit must hold for every mix of receivers, fullness of their inboxes, hook results and packets in the socket; a test fills one inbox in one way", "anchors": ["akasa-core/src/protocols/mqtt/online_loop.rs:poll", "akasa-core/src/protocols/mqtt/v5/message.rs:broadcast_packets_max", "akasa-core/src/protocols/mqtt/v3/message.rs:broadcast_packets_max"]}
{"id": "C79", "title": "With a client that answers, every accepted message comes to its end", "statement": "If a connected client answers what it gets as the standard says (PUBACK, PUBREC, PUBCOMP), then whenever nothing is under way between the server and the client any more, every QoS 1 and QoS 2 message the server accepted into the client's session has been acknowledged to the end, or given up for its age. The exchange cannot come to rest with an unfinished message. By then the client's application has got each acknowledged QoS 1 message at least once and each QoS 2 message exactly once.", "quantifier": "every history of the broker with any number of clients, every interleaving, disconnection, takeover and expiry, every behaviour of the network between the server and a client that follows the standard (delays, lost connections), both protocol versions", "why_tests_cant": "the claim is about the point where nothing happens any more, after any history of window sizes, losses and reconnections; a test can only wait for a while after the histories it plays", "anchors": ["akasa-core/src/protocols/mqtt/pending.rs:get_ready_packet", "akasa-core/src/protocols/mqtt/pending.rs:complete", "akasa-core/src/protocols/mqtt/v5/packet/common.rs:handle_pendings", "akasa-core/src/protocols/mqtt/v3/packet/common.rs:handle_pendings", "akasa-core/src/protocols/mqtt/v5/packet/publish.rs", "akasa-core/src/protocols/mqtt/v3/packet/publish.rs"]}
{"id": "C80", "title": "What one client publishes, the application of another gets", "statement": "When a client publishes with QoS 1 or 2 and the server accepts the PUBLISH, and another client was granted a subscription with a matching filter, then, once the messages between the two sessions have gone through, the subscriber's application gets this topic and payload, and nothing else in its place: with QoS 2 at most once, and exactly once when the server has taken the last acknowledgement; with QoS 1 at least once when it has taken the acknowledgement. The only ways out are that the subscription was ended first, that the message is too big for the client, that the QoS comes down to 0, that the client's queue was full, that the client asked for a clean start, or that the message expired. For a connected client of MQTT 3 the acknowledgement has been taken as soon as nothing is under way any more.", "quantifier": "every history of the broker with any number of clients before, between and after the two events, every interleaving, disconnection, takeover and resumption, every behaviour of the network between the server and a subscriber that follows the standard, both protocol versions on either side", "why_tests_cant": "the claim joins the publisher's connection, the routing table, the queues between connections, the subscriber's session over reconnections and the subscriber's side of the QoS handshake; a test plays one such chain", "anchors": ["akasa-core/src/protocols/mqtt/v5/packet/publish.rs:handle_publish", "akasa-core/src/protocols/mqtt/v5/packet/publish.rs:send_publish", "akasa-core/src/protocols/mqtt/v5/packet/publish.rs:recv_publish", "akasa-core/src/protocols/mqtt/v3/packet/publish.rs:handle_publish", "akasa-core/src/protocols/mqtt/v3/packet/publish.rs:recv_publish", "akasa-core/src/protocols/mqtt/pending.rs:push_back", "akasa-core/src/protocols/mqtt/v5/packet/common.rs:handle_pendings", "akasa-core/src/protocols/mqtt/v3/packet/common.rs:handle_pendings"]}
{"id": "C81", "title": "The will of a client that is gone gets to every subscriber", "statement": "When the server publishes the will of a connection, every client that holds a subscription with a filter matching the will's topic at that moment gets it: once the messages between the two have gone through, the subscriber's session has been handed the will's topic, payload and QoS exactly once per subscription (v3) or once (v5), after everything the same connection had published before, and has passed it on to its client, at once with QoS 0 and through its queue otherwise. The session drops it only if the subscription was ended before, if it is too big for the client, or if it comes down to QoS 0 and the client is away. With QoS 1 or 2 it then reaches the client's application under the guarantees of C80.", "quantifier": "every history of the broker with any number of clients, wills published at the end of a connection, after their delay or when the session expires, every interleaving, takeover and resumption on the subscriber's side, both protocol versions on either side", "why_tests_cant": "the will is published while the connection it belongs to is being torn down, from three different places, and its messages leave through the queues of a task that is about to end; that none of them is cut off by the end of the task, a takeover or a slow subscriber is a statement about all interleavings", "anchors": ["akasa-core/src/protocols/mqtt/v5/message.rs:handle_will", "akasa-core/src/protocols/mqtt/v5/message.rs:send_will", "akasa-core/src/protocols/mqtt/v5/message.rs:broadcast_packets", "akasa-core/src/protocols/mqtt/v3/message.rs:handle_will", "akasa-core/src/protocols/mqtt/v5/packet/publish.rs:send_publish", "akasa-core/src/protocols/mqtt/v3/packet/publish.rs:send_publish"]}
{"id": "C82", "title": "The retained message of a topic is the last one the server accepted for it", "statement": "At every moment a filter finds among the retained messages, for each topic it matches, exactly the last message the server accepted for that topic with RETAIN set, with its payload, QoS, properties and publisher, and nothing if that message had an empty payload. Messages count in the order in which the server took them, from clients of both protocol versions and from published wills, under the topic that a topic alias stands for. A PUBLISH that is refused, or that the server takes for a repetition of a QoS 2 message, changes nothing; nor does any step that is no PUBLISH and publishes no will: the end of the publishing connection or session, a clean start, subscriptions or the passing of time.", "quantifier": "every history of the broker with any number of clients of both protocol versions, every interleaving, every packet, every will, every topic and every filter", "why_tests_cant": "the store is shared by all connections and is written from packet handlers and from three places where wills are published; that it holds what the whole history calls for is a statement about all histories and orders", "anchors": ["akasa-core/src/protocols/mqtt/retain.rs:RetainTable::insert", "akasa-core/src/protocols/mqtt/retain.rs:RetainTable::remove", "akasa-core/src/protocols/mqtt/v5/packet/publish.rs:send_publish", "akasa-core/src/protocols/mqtt/v3/packet/publish.rs:send_publish", "akasa-core/src/protocols/mqtt/v5/message.rs:send_will", "akasa-core/src/protocols/mqtt/v3/message.rs:handle_will"]}
{"id": "C83", "title": "A new subscriber's application gets the retained messages", "statement": "When a client subscribes and the server answers with SUBACK, every retained message that one of the filters matches comes to the client: for MQTT 5 if the subscription is not refused, is not shared, its Retain Handling option asks for it (always, or only when the filter was not subscribed before, be it by an earlier filter of the same packet), No Local does not rule it out and it is not too big for the client; for MQTT 3 if its QoS is not above the granted one. The retained message of a topic is the last one accepted for it over the whole history. With QoS 0 it is written along with the SUBACK. With QoS 1 and 2 it is queued, unless the queue is full, and the client's application gets it, and nothing else in its place, over reconnections: with QoS 2 at most once, and exactly once when the server has taken the last acknowledgement; with QoS 1 at least once when it has taken the acknowledgement.", "quantifier": "every history of the broker before and after the SUBSCRIBE, with any number of clients, every interleaving, disconnection, takeover and resumption, every list of filters and options, every behaviour of the network between the server and a subscriber that follows the standard, both protocol versions", "why_tests_cant": "the claim joins what all clients stored over the history, the matching of every filter against every topic, the queue of the session and the QoS handshake over reconnections; a test plays one such chain", "anchors": ["akasa-core/src/protocols/mqtt/v5/packet/subscribe.rs:handle_subscribe", "akasa-core/src/protocols/mqtt/v3/packet/subscribe.rs:handle_subscribe", "akasa-core/src/protocols/mqtt/retain.rs:RetainTable::get_matches", "akasa-core/src/protocols/mqtt/v5/packet/publish.rs:recv_publish", "akasa-core/src/protocols/mqtt/v3/packet/publish.rs:recv_publish", "akasa-core/src/protocols/mqtt/pending.rs:push_back"]}
{"id": "C84", "title": "A message for a share group gets to one member, and to its application", "statement": "When an MQTT 5 client publishes and the server accepts the PUBLISH, then for every share group with a matching filter exactly one client is handed the message for that group. A connection of this client holds the shared subscription at that moment. Once the messages for this client have gone through, its session has got topic and payload, in the publisher's order, and its application gets the message under the same conditions as for a plain subscription, over disconnections, takeovers and resumptions.", "quantifier": "every history of the broker before, between and after the events, with any number of clients and groups, every way of choosing a member, every interleaving, disconnection, takeover and resumption, every behaviour of the network between the server and a subscriber that follows the standard", "why_tests_cant": "the member is chosen by hash, at random or in turn, and the claim joins the group's bookkeeping over the whole history, the queues between connections, the member's session and the QoS handshake; a test plays one choice in one chain", "anchors": ["akasa-core/src/protocols/mqtt/route.rs:SharedClients::get_by_hash", "akasa-core/src/protocols/mqtt/route.rs:SharedClients::get_by_number", "akasa-core/src/protocols/mqtt/v5/packet/publish.rs:send_publish", "akasa-core/src/protocols/mqtt/v5/packet/publish.rs:recv_publish", "akasa-core/src/protocols/mqtt/v5/message.rs:handle_normal", "akasa-core/src/protocols/mqtt/pending.rs:push_back"]}
{"id": "C85", "title": "Messages reach a subscriber and its application in the order in which they were queued", "statement": "Take what a client receives over all its connections, in the order in which it receives it: the transmissions of each connection arrive in order, and what is under way when a connection ends is lost. Each PUBLISH with QoS 1 or 2 carries a message that was queued for the session, and a message that arrives for the first time was queued after every message that has arrived before it. Only repetitions break the order. The application of a client that follows the standard gets the messages with QoS 1 in the same sense in the order in which they were queued. As long as no packet identifier is used for a second message before the first is finished and nothing of it is under way any more, and no message is given up for its age after it was transmitted, it gets the messages with QoS 2 each at most once and in the order in which they were queued.", "quantifier": "every sequence of queued messages, transmissions, acknowledgements, connections and Receive Maximum values, every point at which connections break, every number of packets lost with them, packet identifiers in use twice included", "why_tests_cant": "the claim is about first arrivals over any number of broken connections, with expired messages and a moving window in between; a test breaks a connection at one point", "anchors": ["akasa-core/src/protocols/mqtt/pending.rs:get_ready_packet", "akasa-core/src/protocols/mqtt/pending.rs:push_back", "akasa-core/src/protocols/mqtt/pending.rs:clean_complete", "akasa-core/src/protocols/mqtt/pending.rs:reset_last_sent", "akasa-core/src/protocols/mqtt/v5/packet/common.rs:handle_pendings", "akasa-core/src/protocols/mqtt/v3/packet/common.rs:handle_pendings"]}
{"id": "C86", "title": "Messages from one publisher reach a subscriber's application in the order of publication", "statement": "Take two messages with QoS 1 or 2 that one connection publishes and that are for the same client. The one accepted first is passed on first, and a message that reaches the client for the first time was passed on no earlier than every message that has reached it before; so the client receives them, repetitions aside, in the order in which they were published, over any number of its connections. The application of a client that follows the standard gets the messages with QoS 1 in this order, repetitions aside, and those with QoS 2 in this order (each at most once, C85), the latter as long as no packet identifier is used for a second message before the first is finished and nothing of it is under way any more, and no message is given up for its age after it was transmitted. Messages with QoS 0 are written at the moment they are handed over, each at most once and in the order in which they were passed on. Retained messages sent on a SUBSCRIBE are not messages of a publisher in this sense.", "quantifier": "every history of the broker, every publishing connection and subscriber of both protocol versions, every interleaving of publishing, passing on, taking, transmitting, acknowledging, every loss of connections and packets", "why_tests_cant": "a message goes through the publisher's queue, the receiver's channel, the session's queue and any number of broken connections; an overtaking needs a particular interleaving of several tasks", "anchors": ["akasa-core/src/protocols/mqtt/v5/message.rs:broadcast_packets", "akasa-core/src/protocols/mqtt/online_loop.rs", "akasa-core/src/protocols/mqtt/pending.rs:get_ready_packet", "akasa-core/src/protocols/mqtt/pending.rs:push_back", "akasa-core/src/protocols/mqtt/v5/packet/publish.rs:recv_publish", "akasa-core/src/protocols/mqtt/v3/packet/publish.rs:recv_publish"]}
{"id":"C87","title":"Messages for a client that is away are kept in its queue","statement":"While a client is away and its session is kept, the oldest message passed on to it can always be taken; nothing is written. A message of QoS 1 or 2 for a subscription the session still has, not longer than the client accepts, is put at the end of the client's queue with its topic, payload and the lower of the two QoS levels, unless the queue holds max_in_mem_pending_messages entries, in which case only this message is dropped. Any other message leaves the queue as it is.","quantifier":"every run of the broker, every client away, every message that waits for it","why_tests_cant":"every history of the broker, every queue and every message","anchors":["v5/message.rs:handle_normal","v5/packet/publish.rs:recv_publish","v3/message.rs:handle_normal","v3/packet/publish.rs:recv_publish","pending.rs:PendingPackets::push_back","v5/message.rs:handle_offline","v3/message.rs:handle_offline"]}
