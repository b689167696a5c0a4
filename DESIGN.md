# Formal model of akasamq/akasa in Rocq (Coq 8.16.1)

This document says what is modelled, how every property of `properties.jsonl` is stated and proved, what is trusted,
and what the proofs found out about the code. Paths are relative to `/repo/akasa-core/src` unless they say otherwise.

## 1. Shape of the development

`rocq/theories` holds, per component:

* `XxxModel.v`: executable Gallina functions, one per Rust function, each citing file and lines. No proofs.
* `XxxSpec.v`: a small independent specification (what MQTT or the user expects), not using model helpers.
* `XxxProofs.v`: lemmas.
* `XxxProps.v`: the property theorems only, each closed by `exact`, with `Print Assumptions`, and non-vacuity `Example`s.

Only the Coq standard library is used. Conventions:

* A panic (`unwrap` on `None`, out-of-range index, failed `assert!`, `unreachable!`) is the explicit value `None`/`Panic`.
* `HashMap` is an association list with unique keys. Its iteration order is arbitrary in Rust, so results that come from an
  iteration are stated up to permutation.
* Time is an explicit argument. Hash functions, HMAC, PBKDF2, random numbers and UTF-8 checks are parameters of the
  functions (Section variables that become ordinary arguments), never axioms.
* Lock-protected operations that hold the top-level lock for their whole duration are atomic steps.

## 2. Plan per property

| Id | Modelled | Method |
|----|----------|--------|
| C01, C02, C05 | route trie, all of `route.rs` | refinement of the trie to a set of subscriptions, induction on operation histories; matching specified by an inductive relation on level lists |
| C03, C04 | `SharedClients` with its index | refutation with a witness history for the stale index; invariant (members are current subscribers, no duplicates) for every history; full correctness for histories without the trigger |
| C06, C07 | retain trie, all of `retain.rs` | refinement to a finite map topic -> message |
| C08-C15 | `pending.rs`, `handle_pendings` (v3, v5), ack handlers, packet id counter, reconnect | state machine over operation lists; invariants relating the trace of sent packets to the queue |
| C08-C15, whole sessions | the outgoing side inside `srun5`/`srun3` session runs (`LinkSpec`) | simulation: every session run is a run of the outgoing side whose log is the packets on the wire |
| C16, C17 | alias tables | simulation of a client decoding aliases; abstract map for inbound aliases |
| C18, C19, C48 | inbound publish handling and `qos2_pids` | trace induction |
| C20-C24 | `send_publish`, `recv_publish`, `handle_subscribe` | functional specification of what is delivered |
| C25 | subscribe and unsubscribe handlers | functional specification |
| C26-C28 | `state.rs` registry | invariants over operation histories, refutations for the gauge and lock-out |
| C29, C30 | `session_connect`, `build_state`, `copy_from_state` | functional specification, refutation for stale routes |
| C31-C34 | offline loop, will, keep-alive timer | timed automata as functions of event lists |
| C35-C37 | write loop, websocket adapter, broadcast loop | stream invariants over arbitrary schedules |
| C38, C39 | `auth.rs`, base64, decimal numbers | round-trip proofs, hash functions as parameters |
| C40 | `scram/*` | completeness and soundness with HMAC/hash/PBKDF2 as parameters |
| C41, C42, C47 | connect state machine, hooks | invariants over packet sequences |
| C43 | config validation | case analysis |
| C44, C45 | `server/proxy.rs` | round-trip, byte accounting, refutation |
| C46 | size check | refutation and the bound that does hold |
| C08-C14, C49, whole broker | `LifeSpec`: what each session of a broker run has seen | simulation: every session of a broker run, followed over its connections, is a session run |
| C52 | the packets written at each step of a broker run | case analysis over all steps, answers specified in `ReplySpec` |
| C53 | routing table inside the broker, subscriptions read off SUBACK/UNSUBACK (`SubsSpec`, `RecordSpec`) | invariant over broker histories |
| C54 | queues, channels and sessions of a broker run (`AccSpec`) | accounting invariants over broker histories: sender, channel, receiver |
| C55 | reasons of CONNACK and DISCONNECT against the bytes of the packets (`ReasonSpec`) | what a session knows of its CONNECT never changes; induction over broker histories |
| C56 | the password file after an interrupted command (`interrupted`, `shortened`) | a beginning of the file is whole lines and a beginning of one line; base64 prefixes |
| C57 | the way from socket to handler, step by step with times (`AcceptModel`); the bytes to send (`AcceptSpec`) | each step read forwards and backwards against its bytes; a bound carried through the steps |
| C58 | the router and the metrics text (`HttpModel`); reading a scrape (`HttpSpec`) | decimal digits; the gauge of broker runs (C27) |
| C59 | the end of a connection and inboxes of eight messages (`BrokerModel`); circular waits and clear ways (`DrainSpec`) | circles are invariant; induction over the work left and the length of an inbox |
| C60 | the default hook (`StdHookModel`) as the answers given to the hook requests of a connection (`HookModel`) | induction over the life of the connection, with the hook answering, against the life without hooks |
| C61 | accept loops, their sleeps and the HTTP task as a transition system driven by the operating system (`ListenModel`); histories (`ListenSpec`) | invariants over all histories; concrete histories for the refutations |
| C62 | `Commands::Start` and the default configuration (`ListenModel`) | case analysis |
| C63 | subscriptions and wills of every session of the whole broker (`OfferSpec`) | invariants over broker runs; concrete runs for the refutations |
| C64 | a PUBLISH of the v5 session over the routing table of any call history (`GroupSpec`) | the cases of one PUBLISH (`SubFacts`) with the uniqueness of groups in the table; concrete runs for the refutations |
| C65 | tasks that publish, subscribe and unsubscribe, one locked section at a time, over a routing table whose nodes point to shared contents (`RaceModel`, `RaceSpec`) | a refinement of the pointer table to `RouteModel` that holds in every interleaving, and an invariant on what each publisher has still to read; concrete runs for the refutations |
| C66 | the same | the order of the four locked sections, on top of C65 |
| C67 | the connection phase with the password table and SCRAM in place (`ConnModel`, `ConfModel`); the rules are in `AdmitSpec` | the rules are deterministic and the phase shows the answer they give, case by case; a broker run for the refutation |
| C68 | the whole broker (`BrokerModel`); what it is to publish and to subscribe is in `OriginSpec`, in terms of packets and their answers | an invariant of runs: the routing table, the retained tree, every queue, channel and stored session hold only published messages; the clients' knowledge of aliases agrees with the server's |
| C69 | the whole broker (`BrokerModel`); causes are in `ApartSpec` | every step is split by the connection that takes it; causes from the registry invariant and the keep-alive history (C34) |
| C70 | the event loop (`OnlineModel`), with an event for everything it takes; the amounts are in `FlowSpec` | the write queue's shape and size at every check, carried through polls with the byte-stream invariant of C35 |
| C71 | the event loop (`OnlineModel` with the sessions of `HookModel`) next to the same connection in the broker (`BrokerModel`); what it is for the two to agree is in `BridgeSpec` | a simulation: each phase of a poll is a sequence of broker steps of that connection (`BridgeSim`), with the handlers commuting with what a channel's sink holds (`BridgeLift`) |
| C72 | the whole broker (`BrokerModel`) | the bounds of session runs (C12, C19, and a new one on aliases), carried to broker runs; the inbox from the channel account of C54; an induction for the refutation |
| C73 | the whole broker (`BrokerModel`); the way of a message in `EndSpec` | C49 (queued for every subscriber on record), C54 (queues and channels keep order and content) and the receiving session's `handle_normal` put together; a closed channel stays closed, so a client that has a session was never cut off |
| C74 | sessions of the whole broker (`LifeSpec`); an exchange left open and a lifetime that is over in `StaySpec` | an identifier sent and not acknowledged stays in flight in the automaton of `OutSpec.life` (C13, C15) unless it expires, and a sent message expires only after a new connection; the log of a session is split at the transmission |
| C75 | the whole broker; `m_life` and `within` in `OriginSpec` | the invariant of C68 keeps the lifetime of every message wherever it is; only the last step, the transmission, lowers it; the two ways in which time is not counted are runs |
| C76 | sessions alone and sessions of the whole broker; a correct client and a network that keeps the order and loses what is under way when a connection ends (`CliSpec`) | an invariant between the server's automaton for one identifier (`OutSpec.life`), the packets under way in both directions and what the client has stored, by induction on the common run; that a PUBREC for a message in flight is never refused comes from the window invariant of C08 (`mrun_taken`) |
| C77 | sessions of the whole broker; `on_its_way` (`StallSpec`) reads off the session's log whether something the client must acknowledge was sent on the present connection | after each flush of the queue (`handle_pendings`) either the window holds a message sent on this connection or the queue is empty or the flush just discarded an expired one; every step of a connected client ends in such a flush or leaves queue and log alone |
| C78 | the event loop (`OnlineModel`) with the handlers of `HookModel`; `undelivered` and `reading` in `FlowSpec` | hook results only add to the queues, so the count seen by the read phase is at least the one before the poll; the read phase then does not look at what is there to read |
| C79 | as C77, with the client of C76 (`CliSpec`) at the other end; `at_rest`, `all_ended` (`StallSpec`) | beside the invariant of C76: what was sent on this connection and is not acknowledged is under way, or its answer is; with nothing under way, C77 leaves no unfinished message |
| C80 | the broker model with the client of C76 at the subscriber's end; `gets`, `finds5`, `finds3` (`GetSpec`) | C73 gives the event at which the subscriber's session was handed the message; the log of the session (`LinkSpec`) is cut there, the message stands in it as queued or turned down, and the invariants of C76 and C79 say what the client's application gets from there on |
| C81 | the broker model; `gone_through`, `reached5`, `fate5`, `fate3` of C73 and `finds5`, `finds3` of C80, with the step that publishes a will in place of the PUBLISH | the step is one of three (end of the connection, delay over, session expired); in each the will is handed to the queues of the ending task as `send_publish` hands over a PUBLISH, and from there the lemmas of C73 and C80 take over. The validity of the will's topic name, which the decoder checks, is a hypothesis |
| C82 | the broker model; `updates` says of each step which stores and removals it calls for (from the packet, the answers, the life of the session and the wills put out), `keeps` runs it over the history; `retained` and the lookup of C06 | every step is gone through (`step_retain`): only a PUBLISH that comes to `send_publish` and a will that is sent write to the store; what a PUBLISH does is taken from the case analysis behind C17, C18 and C48, and C06 turns the list of stores into what a filter finds. `LivesProofs` shows that two lives of a session agree on aliases, open identifiers and subscriptions (a connection goes forward only, a session is handed over to it once, a fresh start after a takeover was asked for by the CONNECT), so `keeps` has one value (`C82_determined`) and the theorems of C49, C73, C80 and C84 hold for any life (`LivesProps`) |
| C83 | the broker model; the retained messages of C82 at the moment of the SUBSCRIBE (`keeps`), the events of the session (`life5`/`life3`), its log and the client of C80 (`gets`); `comes5`/`comes3` say what becomes of one message | the packet is traced back to the history (`origin5`/`origin3`), where C82 gives the store; the case analysis behind C24 gives what the SUBSCRIBE hands to the queue, each message is found in the log of that step, and the way on is that of C80. |
| C84 | the broker model; `offers_group` on the routing table at the moment of the PUBLISH, `held` for the subscriptions a connection holds, `arrives5` for what C73 and C80 say of the session and the application | C03 gives that the chosen entry is a current subscription, the history that a connection holds it (`all_held`, with `lossless`), C64 that no one else is handed the message for the group, and the way on is that of C73 and C80 (`way5`, `get5`); while nobody has left a share group (`stayed`), no leave was ever made for a member (`never`), so the table lists exactly the members on record and the hypothesis about the table goes away |
| C85 | the outgoing queue of a session as for C09, with a network that keeps the order of one connection and loses what is under way at its end (`arrives`); `shows` matches a PUBLISH with the number of the queued message it carries | the entries of the queue carry growing numbers; an entry with a transmission time on this connection has its number among the transmissions, and an entry whose number is missing there has only smaller ones before it or has expired (`ent`, `wstep_arr`); the cut of a connection keeps a prefix, and a number that is cut off has only smaller ones left (`first_cut`); a client of CliSpec takes a prefix of each connection (`met_arrives`); for QoS 2 every transmission carries the number of the last message queued under its identifier (`lastidx`, `mstep_tag`), and beside the invariant of C76 the numbers of what the application got are those of the QoS 2 messages received so far, so that a message is given on exactly at its first arrival (`J`, `j_receive`) |
| C86 | PubOrderSpec: `fed5`/`fed3` label each queued message of a log with the number of the message the session was handed when it queued it; the numbers are positions in what was passed on to the client (C54) | PubOrderProofs: the labels do not decrease along the queue (`fed5_agrees`), so the order of C85 is the order of passing on (`first_mono`), and what a connection passed on is a prefix of what it accepted, also after it has ended (`passed_prefix`). PubZeroSpec/PubZeroProofs for QoS 0: nothing in the queue has QoS 0, so such a PUBLISH is written only on the spot (`step_zero5`) |
| C87 | the broker model; `AwaySpec`: which messages are for the queue | the step of a task whose client is away, unfolded; what the message does to the queue from C12 (`joins`) |
| C09, C13-C15 with identifiers in use twice | the same machines; logs matched with queues by position, not by identifier (`OrderSpec`) | invariants over every run, carried to sessions and to broker runs by the two simulations above |
| C12 for every message | the session models; `FullSpec`: what a message may do to the queue (`joins`) | the limit and the identifier range are invariants of the outgoing side, carried to sessions and broker runs; then case analysis of the receive functions |
| C13 for broker runs | the broker model; what an acknowledgement may do to the list of kept messages in `AckSpec` | the step changes one task; the queue operation replaces the first entry it names, and the writing that follows only removes expired entries (`AckProofs`) |
| C49, C50 | composition of the above into a broker step function | invariants over broker histories |
| C51 | the event loop (`OnlineModel`), one poll with an arbitrary environment | a poll that suspends has asked to be woken by every source it waits for (OnlineWake); two refutations by runs |

No property is considered inexpressible. What a model cannot carry (memory, sockets, real clocks, the tokio scheduler)
is listed in section 4 for each component.

## 3. Trusted base

* Coq's kernel (coqc 8.16.1, and coqchk). No axiom of our own, no kernel check switched off, no functor or module type.
* `Print Assumptions` stands under every property theorem. It answers "Closed under the global context" for all of them.
  The only axioms in the loaded environment are the seven opaque constants of the standard library's
  `Coq.ssr.ssrunder.Under_rel` module; no theorem depends on them.
* The reading of the Rust source: nothing ties the model to the code but the citations.
* The following facts about crates that are not in the sandbox. The model assumes them.
  * mqtt-proto: `Pid` starts at 1 and `+= 1` goes from 65535 to 1. A `TopicName` has no wildcards but may be empty. A
    `TopicFilter` is valid in the sense of MQTT. `shared_info` splits `$share/group/filter`. `encode_len` is the length the
    MQTT format gives. The length of a packet that was decoded can be computed.
  * The hash of a PUBLISH (used to recognise QoS 2 repetitions) is an arbitrary function.
  * ring: `pbkdf2::verify` refuses an empty stored hash and derives as many bytes as are stored. HMAC, SHA and PBKDF2 are
    arbitrary functions.
  * crc32c: `crc32c_append(crc32c(a), b) = crc32c(a ++ b)`; otherwise arbitrary.
  * parking_lot locks do not poison.
  * tokio: `read_exact` reads exactly or fails; a TCP `poll_write` that accepts part of the bytes registers no waker.
  * flume: bounded channels are first in, first out; `SendSink` holds at most one message; sending to a channel whose
    receivers are gone fails.
  * tungstenite: the messages it yields and the answers of its sink are inputs of the model.
  * base64: the strict standard alphabet with padding. `str::trim` removes the Unicode White_Space characters. `u32::parse`
    accepts a leading `+` and leading zeros.
  * The `Instant`s read when two connections are acknowledged differ.

## 4. Modelled and not modelled

| Source | Model | Left out or simplified |
|--------|-------|------------------------|
| `protocols/mqtt/route.rs` | `RouteModel`, `RaceModel` | The per-node lock: an operation is one step, because the top lock is held throughout. `RaceModel` separates the lookup from the later reading of the contents it points to. The choice of a member in a shared group is a parameter. In runs of a session it may differ from packet to packet. In runs of the broker it is any function of what it is made for (the packet, or a will) and of the whole state, so it may be random; the one thing left out is two different choices for the same packet in exactly the same state. In C71 it is the same all the time. |
| `protocols/mqtt/retain.rs` | `RetainModel` | The per-node lock, as above. |
| `protocols/mqtt/pending.rs`, `v5/message.rs` and `v3/message.rs` `handle_pendings`, acknowledgement handlers, packet identifier counter | `PendingModel`, `OutModel`, `AliasModel` | Times in whole seconds. |
| `v5/packet/publish.rs`, `subscribe.rs`, `common.rs`, `v5/message.rs:427-528, 796-941` | `Sess5Model`, `GlobModel`, `MsgModel` | User properties and other properties that are only copied are one opaque string with its length. |
| `v3/packet/*.rs`, `v3/message.rs:250-460, 508-640` | `Sess3Model` | As above. |
| `v5/packet/connect.rs`, `v3/packet/connect.rs`, `config.rs` | `ConnModel`, `ConfModel` | TLS and file loading are left out. The UTF-8 check is a parameter of `ConnModel`; `ConfModel` puts the modelled check in. |
| `state.rs` | `RegModel` | Client ids are unbounded. |
| `v5/message.rs:48-333, 636-791, 943-965`, `v3/message.rs:40-215, 440-579`, `common.rs` | `BrokerModel` | Steps of all connections interleave in any order. One clock in milliseconds. Hooks off, except that they may fail at the beginning and end of a connection. Bytes are not modelled here. |
| `online_loop.rs` | `OnlineModel` | Generic in the session. Encodings are a parameter. One connection with an arbitrary environment. |
| `hook.rs`, hook parts of `message.rs` | `HookModel` | The service behind the channel is arbitrary. |
| `server/proxy.rs` | `ProxyModel` | - |
| `server/rt.rs` and `server/mod.rs` WebSocket adapter | `WsModel` | The WebSocket framing itself. |
| `server/mod.rs:41-298`, `server/rt.rs:12-155`, waits of `handle_online` | `AcceptModel` | The TLS and WebSocket handshakes are parameters; so is the time at which each step is ready. Whether certificate files load is an input. |
| `protocols/http/*.rs` | `HttpModel` | HTTP itself (axum); the OpenAPI pages are parameters. |
| `server/rt.rs:109-210`, `server/http_api.rs`, `akasa/src/main.rs` | `ListenModel`, `PassModel` | Whether a socket opens and `accept` succeeds is an input. The prompt of the password commands. That axum goes on after a failed `accept` is taken from axum. |
| `akasa/src/default_hook.rs` | `StdHookModel` | Logging. |
| `protocols/mqtt/auth.rs` | `TextModel`, `PassModel` | The file system: a file is a string. |
| `protocols/scram/*.rs` | `ScramModel` | The nonce is an input. |

Not modelled at all: socket options (`server/rt.rs`, `server/http_api.rs`), reading and printing YAML, logging, memory use, real time, the fairness of the tokio scheduler, and the byte codec of mqtt-proto.

Definitions that stand for a crate or the standard library (packet types and lengths, base64, text functions, the decoding of the
first packet) name the crate instead of lines in /repo. Functions that only replace a field of a record stand for assignments.

How the models hang together: `Sess5Model` and `Sess3Model` contain the packet handlers. `HookModel` and `OnlineModel` run
one connection. `BrokerModel` runs any number of connections; it calls the same handlers, the registry of `RegModel`, the
routing table and the retained store. C71 ties the two: a poll of the loop is a sequence of steps of the broker.

## 5. Findings

Every finding is a theorem with the suffix `_refuted`: a concrete run of the model in which the property is false. Each was
read back against the source.

| Theorem | What goes wrong | Where |
|---------|-----------------|-------|
| `C03_shared_members_refuted`, `C04_no_panic_refuted`, `C50_no_panic_refuted`, `C50_broker_no_panic_refuted`, `C50_leave_no_panic_refuted`, `C50_twice_no_panic_refuted` | Unsubscribing from a shared group leaves the index of the swapped member stale. Later a member is lost from the group, the removal panics, or the removal of a client that disconnects panics. One packet is enough: the last of three members sends an UNSUBSCRIBE that names the filter twice. | `route.rs`, `SharedClients` |
| `C08_window_refuted`, `C10_pid_unique_refuted` | Dropped messages consume packet identifiers; after 65535 of them an identifier that is still in use is used again. | `pending.rs`, `handle_normal` |
| `C11_v3_dup_refuted` | v3 SUBSCRIBE with a bad filter after a good one: the retained messages of the good one are marked as sent but not written, so they are first written with DUP=1. | `v3/packet/subscribe.rs:17-73` |
| `C18_lost_first_transmission_refuted` | A QoS 2 PUBLISH with DUP=1 whose first transmission was never seen is acknowledged and lost. | `v5/packet/publish.rs`, `v3/packet/publish.rs` |
| `C20_v3_highest_qos_refuted` | A v3 publisher's message is delivered once per matching subscription. | `v3/packet/publish.rs` |
| `C21_shared_no_local_refuted` | No Local on a shared subscription is accepted and ignored. | `v5/packet/subscribe.rs`, `publish.rs` |
| `C23_v3_receiver_refuted`, `C23_retained_on_subscribe_refuted` | The RETAIN flag is wrong for v3 receivers and for retained messages sent on SUBSCRIBE. | `recv_publish`, `handle_subscribe` |
| `C24_v3_high_qos_dropped_refuted` | v3 clients do not get retained messages whose QoS is above the granted one. | `v3/packet/subscribe.rs` |
| `gauge_refuted` | A takeover raises the online gauge and never lowers it. | `state.rs:144-165` |
| `lockout_refuted` | A connection lost between registration and CONNACK leaves an entry nobody serves; the identifier can never connect again. | `state.rs:144-216`, `connect.rs` |
| `other_protocol_refuted` | A client cannot come back with the other protocol version. | `handle_control` |
| `session_present3_refuted` | A v3 session is discarded when the protocol level changes between 3.1 and 3.1.1. | `v3/packet/connect.rs` |
| `clean_start_routing_refuted`, `session_routes_refuted` | Clean start keeps the old session's routes. A shared-group message picked for such a route is lost, even after the session is gone. | `v5/packet/connect.rs:216-345` |
| `will_lost_refuted` | DISCONNECT with reason 4 and no session expiry: the will is never published. | `v5/message.rs:301-332` |
| `will_takeover_refuted` | A taken-over connection loses its will. | `v5/message.rs:738-791` |
| `C13_not_in_flight_refuted` | After an expired message is discarded, the next one enters the in-flight window without being transmitted in that round. A PUBACK for it is accepted then, and the message is never delivered. | `pending.rs:48-160`, `v5/packet/common.rs` |
| `session_max_refuted` | Expiry 0xFFFFFFFF ends the session after 2^32-1 seconds. | `v5/message.rs:79-97` |
| `session_expiry_cap_refuted` | DISCONNECT may raise the expiry above the configured maximum. | `connect.rs:349-371` |
| `slow_connect_refuted` | The first keep-alive tick counts from when the connection was accepted, so a slow CONNECT is punished. | `common.rs:9-55` |
| `stale_timer_refuted` | The keep-alive timer of a taken-over connection ends its successor. | `common.rs:9-55` |
| `C37_takeover_refuted`, `C37_end_refuted`, `C54_takeover_refuted` | A takeover drops messages already accepted for other clients; ending a connection drops the one held by a sink. | `message.rs`, `online_loop.rs` |
| `C55_password_reason_refuted` | The CONNACK that refuses a wrong password carries an (empty) reason string even if the client asked for none or accepts only smaller packets. | `connect.rs`, `common.rs` |
| `C55_connack_limit_refuted` | A CONNACK that accepts the client may exceed the client's Maximum Packet Size. | `connect.rs` |
| `C56_atomic_refuted` | The password file is emptied before it is written again; an interruption locks out users who were to stay. | `main.rs` |
| `C56_weak_hash_refuted` | An interruption can cut a PBKDF2 hash short; the check then compares only the bytes that are left. | `main.rs`, `auth.rs` |
| `C56_colon_refuted` | With a colon in a user name, a cut line can be the valid line of another user. | `main.rs`, `auth.rs` |
| `C57_websocket_refuted`, `C57_late_refuted` | The five second limit does not cover the WebSocket handshake: a client can keep a connection open there for ever, and be served any time later. | `server/mod.rs:141` |
| `C57_length_refuted` | The remaining length of a v3 CONNECT is not looked at. | `v3/message.rs:104` |
| `C57_certificate_refuted` | `fail_if_no_peer_cert` without `verify_peer` demands no certificate. | `server/mod.rs:235` |
| `C58_metrics_refuted` | After a takeover /metrics reports a client too many. | `state.rs:144-165` |
| `C59_cleared_refuted` | A client with a will on a topic it subscribes to loses its connection while 8 messages wait for it: the task waits for room in its own inbox for ever, and the client identifier can never be used again. | `v5/message.rs:943-965`, `v3/message.rs:185-200` |
| `C59_pair_refuted` | Two clients whose wills are for each other wait for each other for ever when both connections end with full inboxes. | same |
| `C61_accept_error_refuted` | One failed `accept` (a client that gave up, too many open files) ends `listen`: the socket is closed, every client waiting in its queue is cut off and newcomers are refused for a second. | `server/rt.rs:201` |
| `C61_http_refuted` | An HTTP address that is taken for a moment at the start stays closed for ever, while the MQTT listeners try again every second. | `server/rt.rs:137-148` |
| `C61_http_only_refuted` | A server with HTTP alone ends without an error when its address is taken. | `server/rt.rs:137-155` |
| `C63_publish_refuted` | A v5 client that was told Maximum QoS 0 and Retain Available 0 publishes with QoS 2 and RETAIN: the message is acknowledged, forwarded and stored as retained. | `v5/packet/publish.rs` |
| `C63_wildcard_v3_refuted` | An MQTT 3 client is granted wildcard subscriptions, and is sent retained messages, on a server with both switched off. | `v3/packet/subscribe.rs` |
| `C63_will_v3_refuted` | An MQTT 3 will above the maximum QoS and with RETAIN is accepted, published and stored on such a server. | `v3/packet/connect.rs` |
| `C65_no_panic_refuted`, `C65_holders_get_it_refuted` | When the last subscriber of a matching filter leaves between a publisher's lookup and its reading of that filter, `topic_filter.as_ref().unwrap()` panics: the publisher's connection task dies and the remaining subscribers get nothing. | `v5/packet/publish.rs:353`, `v3/packet/publish.rs:198`, `route.rs` |
| `C65_covered_refuted` | A client that replaces one matching subscription by another, new one first, can miss a message. | `v5/packet/publish.rs` |
| `C66_once_refuted`, `C66_last_is_retained_refuted` | A message may be given both live and as retained; two concurrent retained publishes may be given in the order opposite to the one they were stored in. | `v5/packet/publish.rs`, `v5/packet/subscribe.rs` |
| `C67_refused_changes_nothing_refuted` | A CONNECT whose will asks for QoS or RETAIN that the server does not offer is refused only after it has taken over the session: the connected client is thrown out, its session is lost and the identifier is locked out for ever. | `v5/packet/connect.rs` `session_connect` |
| `C67_told_refuted` | A will topic that is empty or starts with `$`, and an identifier in use under the other protocol version, close the connection without a CONNACK. | `v5/packet/connect.rs`, `v3/packet/connect.rs`, `state.rs` |
| `C64_v3_refuted` | A message published by an MQTT 3 client never reaches shared subscribers. | `v3/packet/publish.rs` |
| `C64_dead_member_refuted` | A client whose connection broke between taking over its session and CONNACK stays a member of its groups for ever; messages the random choice gives it are acknowledged with success and lost although other members are connected. | `v5/message.rs`, `state.rs` |
| `C38_leading_space_refuted`, `C38_line_feed_refuted` | Password file: user names with leading white space or line feeds do not survive. | `auth.rs` |
| `C39_short_hash_refuted` | A shortened stored hash is accepted and only its bytes are compared. | `auth.rs` |
| `C40_flag_y_refuted`, `C40_escaped_name_refuted`, `C40_client_comma_refuted`, `C40_client_panic_refuted` | SCRAM: conforming clients are refused; the client can panic. | `scram/*.rs` |
| `C42_limits_refuted` | A configuration with minimum keep-alive above the maximum is valid. | `config.rs` |
| `C44_long_tlvs_refuted`, `C44_local_body_refuted`, `C45_no_panic_refuted` | PROXY headers: TLVs over 256 bytes and LOCAL with a body are mishandled; unspecified family panics. | `server/proxy.rs` |
| `C46_maximum_packet_size_refuted`, `C46_v3_length_field_refuted` | The client's Maximum Packet Size is compared with the publisher's packet. | `handle_normal` |
| `C47_after_connect_refuted` | `enable_after_connect` is never looked at. | `message.rs` |
| `C51_short_write_refuted`, `C51_given_up_takeover_refuted` | A short write registers no waker; a takeover that was given up can stop reading for good. | `online_loop.rs` |
| `C70_one_packet_refuted` | One SUBSCRIBE naming the same topic many times queues its retained message that many times, past the limit on waiting packets. | `subscribe.rs`, `online_loop.rs` |
| `C72_qos2_v3_refuted` | An MQTT 3 client can leave any number of QoS 2 identifiers open; `max_inflight_server` is not applied to it. | `v3/packet/publish.rs` |
| `C72_subscriptions_refuted` | A client can hold any number of subscriptions; there is no limit to configure. | `subscribe.rs` |
| `C74_kept_refuted` | MQTT 5: a message that was sent but not acknowledged is dropped if its expiry interval ends while the client is away. `reset_last_sent` forgets on reconnection that it was sent, and an expired message that was "never sent" is discarded (MQTT-4.4.0-1 asks for it to be resent). | `v5/packet/connect.rs:238`, `v5/packet/common.rs:166-241` |
| `C75_retained_refuted` | A retained message never expires: whoever subscribes later gets it with its full Message Expiry Interval (MQTT 5, 3.3.2.3.3 asks for the remaining time, and for the message to be dropped). | `v5/packet/subscribe.rs:86-118`, `retain.rs` |
| `C75_transit_refuted` | The time a message waits in the queues between publisher and receiver does not count: its lifetime starts when the receiver's session takes it. | `v5/packet/publish.rs`, `pending.rs:30-47` |
| `C77_stall_refuted` | MQTT 5: with Receive Maximum 1 a message behind an expired one is not transmitted when the client comes back. The flush discards the expired message but does not give its slot to the next one, and no timer starts another flush. The client gets the message only after it sends a packet for another reason or another message for it comes. | `v5/packet/common.rs:166-241`, `pending.rs` |

## 6. Tests against wrong programs

`seeded/LOG.jsonl` has one line per edit of the model: the definition, the edit, the claim it breaks, and the theorems that
failed. Edits that survived led to the theorems named in the field of tightened theorems.

How to read the field of failed theorems:

* Most edits were tried by rebuilding the whole development. The field then names the lemma at which the build stopped, or the
  property files that could not be built. A script that breaks does not by itself show that the statement has become false; an edit that
  changes nothing a user can see may break a script too.
* Where it says that the negation was proved (arrive01-arrive05), the conclusion of the theorem was refuted in Coq for a concrete run of
  the edited model. The proofs were not rebuilt.
* Where it says that a run was computed (zero01-zero05), the run was evaluated and its output compared with the statement by reading.
  The proofs were not rebuilt.
* Edits that survived were tried again when the model had grown; the second line has the same name with the letter r or b.
