{"id": "C01", "title": "Subscription index is exactly the subscription history", "statement": "After any sequence of subscribe, unsubscribe and remove operations, looking up a topic returns each subscriber exactly once, and it returns precisely those who subscribed to that topic and have neither unsubscribed from it nor been removed since.", "quantifier": "every finite sequence of associate / dissociate / remove-key operations, every key and every topic", "why_tests_cant": "The index is two mutually redundant hash maps; a missed update shows only after particular long interleavings of operations on overlapping keys and topics.", "anchors": ["cdn-broker/src/connections/broadcast/relational_map.rs: associate_key_with_values, dissociate_keys_from_value, remove_key, get_keys_by_value"]}
{"id": "C02", "title": "The set of topics of interest is exact and nothing is leaked", "statement": "The list of topics reported as having any subscriber contains a topic if and only if at least one subscriber currently holds it, without repetition, and once every subscriber has been removed the index is completely empty again.", "quantifier": "every finite operation sequence on the subscription index", "why_tests_cant": "Leaks and stale topics only accumulate over unbounded histories; tests look at a handful of states.", "anchors": ["cdn-broker/src/connections/broadcast/relational_map.rs: get_values, remove_key, dissociate_keys_from_value", "cdn-broker/src/connections/mod.rs: get_partial_topic_sync"]}
{"id": "C03", "title": "A broadcast reaches each interested party exactly once and nobody else", "statement": "For every broker state and topic list, a broadcast received from a user is handed to every locally subscribed user and to every connected broker that advertised one of the topics, exactly once each even if several topics match or topics repeat, and to nobody else.", "quantifier": "every reachable broker state, every topic list (including duplicates and unknown topics)", "why_tests_cant": "Needs all combinations of overlapping topic sets and subscribers.", "anchors": ["cdn-broker/src/connections/mod.rs: get_interested_by_topic", "cdn-broker/src/tasks/broker/handler.rs: handle_broadcast_message", "cdn-broker/src/tasks/user/handler.rs: user_receive_loop"]}
{"id": "C04", "title": "No forwarding loops: a message crosses at most one broker-to-broker link", "statement": "A message that a broker received from another broker is never sent on to any broker; consequently every delivered copy has travelled at most one broker-to-broker link, whatever the (possibly stale or contradictory) routing tables say.", "quantifier": "every broker state, every message received from a broker; every network history", "why_tests_cant": "A loop would need specific inconsistent tables on several brokers, i.e. rare distributed schedules.", "anchors": ["cdn-broker/src/tasks/broker/handler.rs: broker_receive_loop, handle_direct_message, handle_broadcast_message"]}
{"id": "C05", "title": "Direct messages go to at most one place, the right one", "statement": "A direct message is handed to the recipient's own connection if that recipient is connected to this broker; otherwise, if it came from a user and the directory names another connected broker, to that broker once; otherwise it is dropped. It is never handed to any other user.", "quantifier": "every reachable broker state, every recipient key, both origins", "why_tests_cant": "Depends on the agreement of two tables (directory and connection table) in every reachable state.", "anchors": ["cdn-broker/src/tasks/broker/handler.rs: handle_direct_message", "cdn-broker/src/tasks/user/sender.rs: try_send_to_user", "cdn-broker/src/tasks/broker/sender.rs: try_send_to_broker", "cdn-broker/src/connections/mod.rs: get_broker_identifier_of_user"]}
{"id": "C06", "title": "Relayed messages are byte-identical", "statement": "Every copy of a message that a broker emits because of an incoming direct or broadcast message is byte-for-byte the frame it received; the broker never alters or re-encodes it, and never emits a direct/broadcast frame that it did not receive.", "quantifier": "every broker state, every raw incoming frame, every message hook that does not replace the raw frame", "why_tests_cant": "Must hold for all payloads and states.", "anchors": ["cdn-broker/src/tasks/user/handler.rs: user_receive_loop", "cdn-broker/src/tasks/broker/handler.rs: broker_receive_loop"]}
{"id": "C07", "title": "The directory claims a user for this broker iff the user is connected to this broker", "statement": "In every reachable state, looking a user up in the broker's directory yields this broker itself if and only if the user currently has a connection registered at this broker.", "quantifier": "every finite sequence of broker-state operations, including arbitrary (even malicious) user-sync maps from peers", "why_tests_cant": "The directory is mutated by local events and by remote merges; agreement must survive every merge content and order.", "anchors": ["cdn-broker/src/connections/mod.rs: add_user, remove_user, apply_user_sync, get_broker_identifier_of_user", "cdn-broker/src/connections/versioned_map.rs: merge, remove_if_equals"]}
{"id": "C08", "title": "Connection gauges equal the number of connections", "statement": "The exported gauges for connected users and connected brokers always equal the number of registered users and brokers; they never drift and never go negative.", "quantifier": "every finite sequence of broker-state operations, including replacing an existing connection and removing an absent one", "why_tests_cant": "Drift by one per rare path (double add, double remove) is invisible in short tests.", "anchors": ["cdn-broker/src/connections/mod.rs: add_user, remove_user, add_broker, remove_broker", "cdn-broker/src/metrics.rs: NUM_USERS_CONNECTED, NUM_BROKERS_CONNECTED"]}
{"id": "C09", "title": "One live connection per identity; superseded handler tasks are always cancelled", "statement": "At any time at most one connection per user key (and per broker identity) is registered, it is the most recently added one not removed since, and the handler task of every connection that was ever registered and is no longer registered has been cancelled exactly once, while no registered connection's task has been cancelled by the broker state.", "quantifier": "every finite sequence of broker-state operations with distinct task handles", "why_tests_cant": "Task leaks appear only over histories with replaced and concurrently removed connections.", "anchors": ["cdn-broker/src/connections/mod.rs: add_user, add_broker, remove_user, remove_broker"]}
{"id": "C10", "title": "Removing a peer removes all of its routing interest and nothing else", "statement": "After a user or broker is removed, it is in no topic's recipient list and has no connection, while every other user's and broker's connection and subscriptions are exactly as before.", "quantifier": "every broker state and every identity", "why_tests_cant": "Frame conditions quantify over all other identities and topics.", "anchors": ["cdn-broker/src/connections/mod.rs: remove_user, remove_broker"]}
{"id": "C11", "title": "Only connected brokers are routing targets", "statement": "Every broker listed as interested in a topic is a currently connected broker.", "quantifier": "every finite sequence of broker-state operations a running broker can perform, with arbitrary topic-sync contents", "why_tests_cant": "A sync message may race with disconnection; needs every interleaving.", "anchors": ["cdn-broker/src/connections/mod.rs: apply_topic_sync, remove_broker, add_broker, subscribe_broker_to"]}
{"id": "C12", "title": "Only connected users hold subscriptions", "statement": "Every user that the subscription index lists for a topic is currently connected to this broker, so a broker never advertises a topic nobody at it wants.", "quantifier": "every interleaving of receive-loop steps with connection removal at lock granularity", "why_tests_cant": "The violating schedule needs a subscribe to be applied between removal of the user and cancellation of its task.", "anchors": ["cdn-broker/src/tasks/user/handler.rs: user_receive_loop", "cdn-broker/src/connections/mod.rs: subscribe_user_to, remove_user, get_partial_topic_sync"]}
{"id": "C13", "title": "The versioned map reads like an ordinary map", "statement": "For local operations the versioned map behaves exactly as an ordinary key/value map: a read returns the last value inserted and not removed since, conditional removal removes only on equality, and producing a delta or a full copy never changes what any read returns.", "quantifier": "every finite sequence of insert, remove, remove-if-equal, delta and full-copy operations, every key", "why_tests_cant": "Tombstones and version bookkeeping must be invisible to readers in all histories.", "anchors": ["cdn-broker/src/connections/versioned_map.rs: get, insert, remove, remove_if_equals, diff, get_full"]}
{"id": "C14", "title": "A delta contains exactly what changed since the previous delta", "statement": "The delta of the versioned map contains exactly the keys locally changed since the previous delta and not since overwritten by a newer remote value, each with its current value and version (deletions as deletions); a second delta with no change in between is empty.", "quantifier": "every finite operation sequence including merges of arbitrary remote maps", "why_tests_cant": "Missed or extra keys only show for specific interleavings of local change, merge and delta.", "anchors": ["cdn-broker/src/connections/versioned_map.rs: modify_local, diff, merge"]}
{"id": "C15", "title": "Merge is per-key last-writer-wins and independent of iteration order", "statement": "Merging a remote map changes a key only if the remote entry is strictly newer, or equally new and the remote side has the larger conflict identity, or the key is unknown and the remote value is present; all other keys, versions and values are untouched; the returned change list contains exactly the keys so affected, once each; and neither the result nor the set of changes depends on hash-map iteration order.", "quantifier": "every pair of maps, every key, every iteration order", "why_tests_cant": "Hash iteration order is random per process; tests sample one.", "anchors": ["cdn-broker/src/connections/versioned_map.rs: merge"]}
{"id": "C16", "title": "Merging is idempotent and never goes backwards", "statement": "Merging the same remote map a second time leaves the map unchanged, and no merge ever replaces a live entry by one with a smaller version.", "quantifier": "every pair of maps", "why_tests_cant": "Quantifies over all maps.", "anchors": ["cdn-broker/src/connections/versioned_map.rs: merge"]}
{"id": "C17", "title": "Version counters do not wrap in practice", "statement": "Starting from empty maps, no version counter anywhere in the network exceeds the number of local modifications ever made, so the 64-bit counters cannot wrap (and ordering of versions stays meaningful) as long as fewer than 2^64-1 local modifications happen.", "quantifier": "every finite history of local modifications, deltas and exchanges between any number of brokers", "why_tests_cant": "2^64 is out of reach for tests; the bound needs an inductive argument.", "anchors": ["cdn-broker/src/connections/versioned_map.rs: modify_local, merge"]}
{"id": "C18", "title": "Topic interest converges under reordering and duplication", "statement": "If a broker receives a full topic sync of a peer and every later partial topic sync, in any order and with any duplication, then its view of which topics the peer wants equals the peer's advertised topics.", "quantifier": "every history of the sending broker, every arrival order and multiplicity of its sync messages", "why_tests_cant": "Needs all permutations of message arrival.", "anchors": ["cdn-broker/src/connections/mod.rs: get_full_topic_sync, get_partial_topic_sync, apply_topic_sync", "cdn-broker/src/tasks/broker/sync.rs: full_topic_sync, partial_topic_sync"]}
{"id": "C19", "title": "Topic advertisements are exact", "statement": "Right after computing a partial topic sync a broker's advertised topics equal exactly the topics with at least one subscriber; if nothing changed nothing is sent; and each partial sync contains exactly the topics whose status changed.", "quantifier": "every reachable broker state", "why_tests_cant": "Quantifies over all histories of subscriptions and syncs.", "anchors": ["cdn-broker/src/connections/mod.rs: get_partial_topic_sync"]}
{"id": "C20", "title": "User directories of all brokers agree once changes have been exchanged", "statement": "After every broker's directory changes have been delivered to all others, all brokers agree on which broker every user is connected to.", "quantifier": "every history of connects, disconnects and syncs over any number of brokers", "why_tests_cant": "Distributed schedules over any number of brokers.", "anchors": ["cdn-broker/src/connections/mod.rs: get_partial_user_sync, apply_user_sync", "cdn-broker/src/connections/versioned_map.rs: merge, diff"]}
{"id": "C21", "title": "Two brokers agree after concurrent connects", "statement": "Two brokers that exchange partial user syncs, with users connecting to either of them at any time and messages reordered arbitrarily relative to local events, hold identical directories once all changes have been exchanged.", "quantifier": "every interleaving of connects, delta generation and delivery between two brokers", "why_tests_cant": "All interleavings.", "anchors": ["cdn-broker/src/connections/versioned_map.rs: merge, diff, insert"]}
{"id": "C22", "title": "A user connected to two brokers ends up connected to exactly one", "statement": "When a user is connected to two brokers at once, then after both have exchanged their changes exactly one of the two connections remains registered, namely at the broker to which both directories point.", "quantifier": "every interleaving of connects and syncs between two brokers", "why_tests_cant": "Requires the race between two connects and two syncs.", "anchors": ["cdn-broker/src/connections/mod.rs: add_user, apply_user_sync, remove_user"]}
{"id": "C23", "title": "Synchronisation that carries no news never disconnects a user", "statement": "Applying a user sync whose entries agree with what the broker already holds disconnects nobody.", "quantifier": "every broker state and every user-sync map consistent with it", "why_tests_cant": "Occurs only when brokers reconnect in a particular identity order.", "anchors": ["cdn-broker/src/connections/mod.rs: apply_user_sync, get_full_user_sync", "cdn-broker/src/connections/versioned_map.rs: merge"]}
{"id": "C24", "title": "Per-sender order and no duplicates on every connection", "statement": "On every user connection, the messages originating from any one publishing session arrive in the order they were published, and none arrives twice, no matter how connections, subscriptions and broker links come and go.", "quantifier": "every network history: any number of brokers, users, publications, link deliveries, and arbitrary changes of broker state in between", "why_tests_cant": "All distributed schedules.", "anchors": ["cdn-broker/src/tasks/broker/handler.rs: handle_direct_message, handle_broadcast_message, broker_receive_loop", "cdn-broker/src/tasks/user/handler.rs: user_receive_loop", "cdn-proto/src/connection/protocols/mod.rs: from_streams"]}
{"id": "C25", "title": "No misdelivery anywhere in the network", "statement": "Any direct message that arrives on a connection names that connection's authenticated key as recipient, and any broadcast that arrives on a connection was delivered while that user was subscribed at the delivering broker to one of its topics.", "quantifier": "every network history", "why_tests_cant": "All distributed schedules with stale tables.", "anchors": ["cdn-broker/src/tasks/broker/handler.rs: handle_direct_message, handle_broadcast_message"]}
{"id": "C26", "title": "Complete delivery in a synchronised network", "statement": "If all brokers are linked and their topic views and directories are up to date, then a broadcast reaches every subscribed user connected anywhere exactly once, and a direct message reaches its recipient wherever it is connected.", "quantifier": "every synchronised network state, any number of brokers and users", "why_tests_cant": "Any number of brokers and any subscription pattern.", "anchors": ["cdn-broker/src/tasks/broker/handler.rs: handle_direct_message, handle_broadcast_message", "cdn-broker/src/connections/mod.rs: get_interested_by_topic"]}
{"id": "C27", "title": "A permit admits at most one connection", "statement": "Each issued permit is accepted at most once by all brokers together, no matter how validations are interleaved.", "quantifier": "every history of permit issues and validations over both discovery back ends", "why_tests_cant": "Double spend needs concurrent validations and clock movement.", "anchors": ["cdn-proto/src/discovery/embedded.rs: issue_permit, validate_permit", "cdn-proto/src/discovery/redis.rs: issue_permit, validate_permit"]}
{"id": "C28", "title": "A permit is bound to key, broker and lifetime", "statement": "A broker accepts a permit only if it was issued for that broker, has not expired, and then authenticates exactly the public key for which it was issued.", "quantifier": "every history of issues, validations and clock values, both back ends, per-broker permits", "why_tests_cant": "Quantifies over histories and time.", "anchors": ["cdn-proto/src/discovery/embedded.rs: issue_permit, validate_permit, prune_expired", "cdn-proto/src/discovery/redis.rs: issue_permit, validate_permit"]}
{"id": "C29", "title": "Nobody is admitted without having authenticated to the marshal", "statement": "Whenever a broker registers a user key, the marshal earlier accepted a request for that key carrying a valid, fresh signature by it and passing the whitelist, and issued a permit for it; and the number of admissions never exceeds the number of such acceptances.", "quantifier": "every history of marshal and broker handshakes with adversarial messages", "why_tests_cant": "Adversarial message histories.", "anchors": ["cdn-proto/src/connection/auth/marshal.rs: verify_user", "cdn-proto/src/connection/auth/broker.rs: verify_user", "cdn-proto/src/discovery/embedded.rs: issue_permit, validate_permit"]}
{"id": "C30", "title": "Whitelist enforcement", "statement": "When a whitelist is set, the marshal never issues a permit for a key that is not on it; with no whitelist, nobody is refused for that reason; both back ends agree.", "quantifier": "every whitelist contents and key", "why_tests_cant": "All sets and keys, both back ends.", "anchors": ["cdn-proto/src/connection/auth/marshal.rs: verify_user", "cdn-proto/src/discovery/embedded.rs: set_whitelist, check_whitelist", "cdn-proto/src/discovery/redis.rs: set_whitelist, check_whitelist"]}
{"id": "C31", "title": "Authentication timestamps are accepted exactly in a five second window", "statement": "A signed timestamp is accepted exactly if it is not in the future and not more than five seconds old, for every 64-bit timestamp and every 64-bit clock at least five seconds after the epoch.", "quantifier": "all 2^128 pairs of clock and timestamp", "why_tests_cant": "The domain is far too large, and the unsigned subtraction can wrap.", "anchors": ["cdn-proto/src/connection/auth/marshal.rs: verify_user", "cdn-proto/src/connection/auth/broker.rs: verify_broker"]}
{"id": "C32", "title": "Signatures for one protocol cannot be reused in the other", "statement": "The byte strings signed for user-to-marshal authentication and for broker-to-broker authentication are never equal, and each determines its timestamp.", "quantifier": "all pairs of timestamps", "why_tests_cant": "Infinite input pairs.", "anchors": ["cdn-proto/src/crypto/signature.rs: Namespace, sign, verify"]}
{"id": "C33", "title": "Brokers only link after being shown their own broker key", "statement": "A broker completes the broker handshake only with a peer that presented this broker's own public key with a valid fresh signature under it in the broker namespace.", "quantifier": "every message sequence received in the handshake", "why_tests_cant": "All adversarial inputs.", "anchors": ["cdn-proto/src/connection/auth/broker.rs: verify_broker, authenticate_with_broker"]}
{"id": "C34", "title": "The broker handshake cannot deadlock between honest peers", "statement": "When an outbound and an inbound honest broker with the same key and synchronised clocks run the handshake over a FIFO connection, every interleaving terminates with both succeeding and each learning the other's identity.", "quantifier": "every interleaving of the two handshake programs", "why_tests_cant": "All schedules.", "anchors": ["cdn-broker/src/tasks/broker/handler.rs: handle_broker_connection", "cdn-proto/src/connection/auth/broker.rs: verify_broker, authenticate_with_broker"]}
{"id": "C35", "title": "For every pair of brokers exactly one side dials", "statement": "Given that both brokers see each other in discovery and are unconnected, exactly one of two distinct brokers dials the other, and a broker never dials one it is already connected to.", "quantifier": "every pair of broker identifiers, every discovery listing", "why_tests_cant": "Total-order argument over all identifier strings.", "anchors": ["cdn-broker/src/tasks/broker/heartbeat.rs: run_heartbeat_task", "cdn-proto/src/discovery/mod.rs: BrokerIdentifier Ord"]}
{"id": "C36", "title": "Broker identifiers survive printing and parsing", "statement": "Parsing a printed broker identifier returns it, provided the public endpoint and private endpoint contain no slash; the comparison on identifiers is a total order.", "quantifier": "all pairs of strings", "why_tests_cant": "Infinite strings.", "anchors": ["cdn-proto/src/discovery/mod.rs: BrokerIdentifier Display, TryFrom, Ord"]}
{"id": "C37", "title": "The marshal sends users to a least-loaded live broker", "statement": "The broker chosen for a user is one of the unexpired registered brokers, and no other unexpired broker has fewer connections plus outstanding permits; an error is returned exactly when there is none.", "quantifier": "every discovery state", "why_tests_cant": "All tables and loads.", "anchors": ["cdn-proto/src/discovery/embedded.rs: get_with_least_connections", "cdn-proto/src/discovery/redis.rs: get_with_least_connections"]}
{"id": "C38", "title": "Topic validation", "statement": "Topic validation keeps exactly the valid topics of the input in order, removes consecutive repetitions, and fails exactly if none is valid.", "quantifier": "every topic list, every validity predicate", "why_tests_cant": "Infinite lists.", "anchors": ["cdn-proto/src/def.rs: Topic::prune"]}
{"id": "C39", "title": "Framing is lossless for every message sequence and chunking", "statement": "Writing any sequence of messages up to the size limit and reading from the resulting byte stream returns the same sequence; a truncated stream yields a prefix of the messages and then an error, never a corrupted or partial message.", "quantifier": "every message sequence, every truncation point", "why_tests_cant": "Infinite sequences and all cut points.", "anchors": ["cdn-proto/src/connection/protocols/mod.rs: write_length_delimited, read_length_delimited"]}
{"id": "C40", "title": "Oversized frames are refused before memory is taken", "statement": "A frame whose announced length exceeds the limit is refused without allocating memory or consuming its body, and whatever the sender accepts for sending within the limit is accepted by the receiver.", "quantifier": "every announced length", "why_tests_cant": "All 2^32 lengths.", "anchors": ["cdn-proto/src/connection/protocols/mod.rs: read_length_delimited, write_length_delimited", "cdn-proto/src/lib.rs: MAX_MESSAGE_SIZE"]}
{"id": "C41", "title": "A connection delivers a prefix of what was sent", "statement": "On a connection the sequence of messages received is at every moment a prefix of the sequence of messages accepted by send, whatever the scheduling, queue capacities and failures of either task.", "quantifier": "every schedule of sender task, receiver task, application calls and failures", "why_tests_cant": "All interleavings and crash points.", "anchors": ["cdn-proto/src/connection/protocols/mod.rs: from_streams, send_message_raw, recv_message_raw"]}
{"id": "C42", "title": "Soft close returns only after everything was flushed", "statement": "If soft close returns success then every message accepted for sending before it has been written and flushed to the transport before the stream is closed.", "quantifier": "every schedule", "why_tests_cant": "All interleavings.", "anchors": ["cdn-proto/src/connection/protocols/mod.rs: soft_close, from_streams"]}
{"id": "C43", "title": "The memory pool bounds memory and never loses capacity", "statement": "The total size of messages held under the global pool never exceeds the pool size, and when all copies of all messages have been dropped the whole pool is available again.", "quantifier": "every history of allocations, clones and drops of messages", "why_tests_cant": "All histories of sharing.", "anchors": ["cdn-proto/src/connection/limiter/pool.rs: alloc, Allocation", "cdn-proto/src/connection/limiter/mod.rs: allocate_message_bytes"]}
{"id": "C44", "title": "Every message within the size limit can eventually be received", "statement": "A message no larger than the maximum message size does not block its connection forever when all other messages have been released.", "quantifier": "every pool size and message size", "why_tests_cant": "All size combinations; blocking forever is not observable in finite tests.", "anchors": ["cdn-proto/src/connection/protocols/mod.rs: read_length_delimited", "cdn-proto/src/connection/limiter/pool.rs: alloc"]}
{"id": "C45", "title": "Message encoding round-trips", "statement": "Decoding the encoding of any message returns that message.", "quantifier": "every message of every kind with arbitrary contents", "why_tests_cant": "Infinite payloads.", "anchors": ["cdn-proto/src/message.rs: serialize, deserialize", "cdn-proto/schema/messages.capnp"]}
{"id": "C46", "title": "Decoding arbitrary bytes is safe", "statement": "Decoding any byte string terminates with a message or an error, never reads outside the input, and reads at most a bounded multiple of the input size.", "quantifier": "every byte string", "why_tests_cant": "All byte strings.", "anchors": ["cdn-proto/src/message.rs: deserialize"]}
{"id": "C47", "title": "The client runs at most one reconnection at a time and shares its result", "statement": "However many tasks use a client concurrently, at most one connection attempt is in progress, and a connection is only replaced after an error on it (or none yet).", "quantifier": "every interleaving of client operations", "why_tests_cant": "All schedules.", "anchors": ["cdn-client/src/lib.rs: reconnect_if_needed, get_connection, disconnect_on_error"]}
{"id": "C48", "title": "Subscriptions survive reconnection", "statement": "Whenever a client is connected and its queued requests have been processed, the topics the broker holds for it equal the client's own subscribed set, including after any number of reconnections.", "quantifier": "every history of subscribe, unsubscribe, failure and reconnection", "why_tests_cant": "All histories and crash points.", "anchors": ["cdn-client/src/lib.rs: subscribe, unsubscribe, connect", "cdn-proto/src/connection/auth/user.rs: authenticate_with_broker"]}
{"id": "C49", "title": "A closed client stays closed", "statement": "After close returns, no connection is open and no operation ever opens one or reports success.", "quantifier": "every interleaving of close with other operations", "why_tests_cant": "All schedules.", "anchors": ["cdn-client/src/lib.rs: close, reconnect_if_needed, ensure_initialized"]}
{"id": "C50", "title": "Redundant subscribe or unsubscribe calls are harmless", "statement": "Subscribing to topics already subscribed to, or unsubscribing from topics not subscribed to, does not affect the connection.", "quantifier": "every subscription state and topic list", "why_tests_cant": "All states and lists.", "anchors": ["cdn-client/src/lib.rs: subscribe, unsubscribe", "cdn-broker/src/tasks/user/handler.rs: user_receive_loop", "cdn-proto/src/def.rs: Topic::prune"]}
{"id": "C51", "title": "A misbehaving user only hurts its own connection", "statement": "Whatever bytes a user sends, the only connection or subscription at the broker that can be removed or changed as a result is that user's own.", "quantifier": "every byte string, every broker state", "why_tests_cant": "All inputs.", "anchors": ["cdn-broker/src/tasks/user/handler.rs: user_receive_loop, handle_user_connection", "cdn-broker/src/connections/mod.rs"]}
{"id": "C52", "title": "The failure of an old connection never removes a newer one", "statement": "An error on a superseded connection of a user leaves the user's newer connection registered.", "quantifier": "every interleaving of reconnection, send failure and receive-loop failure at lock granularity", "why_tests_cant": "All schedules.", "anchors": ["cdn-broker/src/tasks/user/handler.rs: handle_user_connection", "cdn-broker/src/tasks/user/sender.rs: try_send_to_user", "cdn-broker/src/connections/mod.rs: remove_user"]}
{"id": "C53", "title": "Every registered connection has a live receive loop", "statement": "Whenever a user or broker connection is registered, its receive loop is running, so its messages are processed and its failure will be noticed.", "quantifier": "every interleaving of loop start, loop failure and registration", "why_tests_cant": "All schedules.", "anchors": ["cdn-broker/src/tasks/user/handler.rs: handle_user_connection", "cdn-broker/src/tasks/broker/handler.rs: handle_broker_connection"]}
{"id": "C54", "title": "Nothing sent right after the handshake is lost", "statement": "A subscription or topic sync that a peer sends immediately after a successful handshake takes effect at the broker.", "quantifier": "every interleaving of registration and receive loop", "why_tests_cant": "All schedules.", "anchors": ["cdn-broker/src/tasks/user/handler.rs: handle_user_connection", "cdn-broker/src/tasks/broker/handler.rs: handle_broker_connection", "cdn-broker/src/connections/mod.rs: apply_topic_sync, add_user, add_broker"]}
{"id": "C55", "title": "Broker membership listings reflect heartbeats", "statement": "A broker is listed to others exactly while its most recent heartbeat has not expired, with the connection count of that heartbeat, and a broker never lists itself.", "quantifier": "every history of heartbeats and clock values", "why_tests_cant": "All histories.", "anchors": ["cdn-proto/src/discovery/embedded.rs: perform_heartbeat, get_other_brokers", "cdn-proto/src/discovery/redis.rs: perform_heartbeat, get_other_brokers"]}
{"id": "C56", "title": "A peer without the broker key cannot link", "statement": "A peer that cannot produce signatures under the deployment's broker key does not complete the broker handshake with any broker, whichever side dialled.", "quantifier": "every strategy of the peer, including replaying and reflecting messages it has seen", "why_tests_cant": "Quantifies over adversarial strategies.", "anchors": ["cdn-proto/src/connection/auth/broker.rs: authenticate_with_broker, verify_broker", "cdn-broker/src/tasks/broker/handler.rs: handle_broker_connection"]}
{"id": "C57", "title": "The client can always recover", "statement": "Whatever calls have failed, a client that was not closed can be connected again by later calls; no combination of failing calls leaves it disconnected for ever.", "quantifier": "every interleaving of client calls, failures and reconnection attempts", "why_tests_cant": "Deadlock freedom over all schedules.", "anchors": ["cdn-client/src/lib.rs: reconnect_if_needed, subscribe, disconnect_on_error, connect"]}
{"id": "C58", "title": "Waiting for initialisation is truthful", "statement": "Waiting for the client to be initialised succeeds only after a connection has been established, and fails only if the client was closed.", "quantifier": "every interleaving of client calls", "why_tests_cant": "All schedules.", "anchors": ["cdn-client/src/lib.rs: ensure_initialized, close"]}
{"id": "C59", "title": "One user that stops reading cannot stop the others", "statement": "A user that keeps its connection open and reads nothing delays nobody else for ever: the memory its undelivered messages occupy comes back, and the broker goes on receiving messages from the other peers.", "quantifier": "every run of a broker: arrivals, sizes, recipients, the order of reads, writes and failures", "why_tests_cant": "Needs every order of events and every way of filling the memory pool.", "anchors": ["cdn-proto/src/connection/protocols/mod.rs: from_streams, read_length_delimited, write_length_delimited", "cdn-proto/src/connection/limiter/pool.rs: alloc", "cdn-broker/src/tasks/user/sender.rs: try_send_to_user"]}
{"id": "C60", "title": "The in-memory transport joins two ends", "statement": "Two peers connected through the in-memory transport receive exactly each other's bytes: whoever a caller of connect writes to writes to it. Connecting to one endpoint does not hold up binding another.", "quantifier": "every interleaving of bind, connect, accept, dropped calls and dropped listeners", "why_tests_cant": "All schedules of concurrent callers.", "anchors": ["cdn-proto/src/connection/protocols/memory.rs: connect, bind, accept, MemoryListener::drop"]}
{"id": "C61", "title": "A peer that cannot be reached is disconnected", "statement": "When the broker fails to send something to a user or to a broker, that peer is no longer connected once the sending task has gone on, whatever other tasks do in between; nothing is counted as sent.", "quantifier": "every state of a running broker, every interleaving of its tasks", "why_tests_cant": "All schedules.", "anchors": ["cdn-broker/src/tasks/user/sender.rs: try_send_to_user", "cdn-broker/src/tasks/broker/sender.rs: try_send_to_broker"]}
{"id": "C62", "title": "A broker that has just connected is told everything", "statement": "When a broker connects and stays connected, it is sent the complete user directory and the complete list of topics this broker's users are subscribed to, as they stand at some moment after its registration.", "quantifier": "every state of a running broker, every interleaving of its tasks", "why_tests_cant": "All schedules.", "anchors": ["cdn-broker/src/tasks/broker/handler.rs: handle_broker_connection", "cdn-broker/src/tasks/broker/sync.rs: full_topic_sync, full_user_sync"]}
{"id": "C63", "title": "Changes are announced to every connected broker", "statement": "When a user connects, and at every periodic round, what has changed in the directory and in the topics since the last announcement is sent to every broker that stays connected.", "quantifier": "every state of a running broker, every interleaving of its tasks, every number of peers", "why_tests_cant": "All schedules.", "anchors": ["cdn-broker/src/tasks/user/handler.rs: handle_user_connection", "cdn-broker/src/tasks/broker/sync.rs: partial_topic_sync, partial_user_sync, run_sync_task", "cdn-broker/src/tasks/broker/sender.rs: try_send_to_brokers"]}
{"id": "C64", "title": "A network with nothing under way knows its users", "statement": "When no broker has anything left to do and none has changes still to announce, every broker forwards a topic to exactly the connected brokers that have a subscriber, and knows the broker of every user that connected once. A message published then reaches every subscriber (or its addressee) exactly once, at whatever broker, and nobody else.", "quantifier": "every history of a network of brokers: connections made and lost, messages in any order on the links, every interleaving of the tasks of every broker", "why_tests_cant": "Needs every schedule of every number of brokers and the whole history of their sync messages.", "anchors": ["cdn-broker/src/tasks/broker/handler.rs: handle_broker_connection", "cdn-broker/src/tasks/broker/sync.rs: full_topic_sync, full_user_sync, partial_topic_sync, partial_user_sync", "cdn-broker/src/connections/mod.rs: apply_user_sync, apply_topic_sync", "cdn-broker/src/tasks/broker/handler.rs: handle_broadcast_message, handle_direct_message"]}
{"id": "C65", "title": "A network left alone settles", "statement": "From whatever situation, brokers that finish what they have begun and receive what was sent to them come to rest. After two rounds of periodic synchronisation in which every broker takes part, no broker has anything left to announce and linked brokers know each other's subscriptions and users. One round is not always enough. The second round disconnects nobody.", "quantifier": "every history of a network of any number of brokers, every interleaving of the rounds and of the messages they cause", "why_tests_cant": "Tests run single rounds between two brokers in one fixed order.", "anchors": ["cdn-broker/src/tasks/broker/sync.rs: run_sync_task, partial_user_sync, partial_topic_sync", "cdn-broker/src/connections/mod.rs: get_partial_user_sync, get_partial_topic_sync, apply_user_sync, apply_topic_sync", "cdn-broker/src/tasks/broker/handler.rs: broker_receive_loop", "cdn-broker/src/tasks/user/handler.rs: user_receive_loop"]}
{"id": "C66", "title": "An honest user is admitted", "statement": "A user whose key is whitelisted, whose clock agrees with the marshal's to five seconds and that presents its permit within thirty seconds is accepted by the broker the marshal named and registered there under its own key with its own topics, whatever other users, strangers and clean-ups do in between, provided the number drawn for it is drawn for nobody else, guessed by nobody, and greater than one (0 and 1 can be drawn and make the login fail).", "quantifier": "every history of a marshal, its brokers, any number of users and any number of strangers who send anything; both data bases, both build modes, any signature scheme", "why_tests_cant": "Tests log in one user at a time with nobody else present and never draw the numbers 0 and 1.", "anchors": ["cdn-proto/src/connection/auth/user.rs: authenticate_with_marshal, authenticate_with_broker", "cdn-proto/src/connection/auth/marshal.rs: verify_user", "cdn-proto/src/connection/auth/broker.rs: verify_user", "cdn-client/src/lib.rs: connect"]}
{"id": "C67", "title": "What success tells the client, and who is registered", "statement": "A client that reports a successful connection was given a permit for its own key on its own connection to the marshal, and a broker with the endpoint it was given accepted that permit. If nobody else presents a valid signature under a key or a permit given to its owner, and no number is drawn twice, then only the owner is registered under that key, with the topics it asked for, and only after it reported success. (Success does not mean registration: the broker answers before it reads the topics.)", "quantifier": "every history of a marshal, its brokers, any number of users and any number of strangers who send anything", "why_tests_cant": "Tests check the outcome of single logins; which premises impersonation needs concerns all interleavings with strangers.", "anchors": ["cdn-proto/src/connection/auth/user.rs: authenticate_with_marshal, authenticate_with_broker", "cdn-proto/src/connection/auth/marshal.rs: verify_user", "cdn-proto/src/connection/auth/broker.rs: verify_user"]}
{"id": "C68", "title": "Running brokers stay listed, stopped ones vanish, missing links are retried", "statement": "However slow the data base is, a running broker is listed for the other brokers and can be given to users at every moment after its first heartbeat, as long as no two of its heartbeats in a row fail (with quicker calls, more failures are harmless; with slow ones two are not). A minute after its task stopped nobody lists it. If at most g listings in a row fail, a running broker tries in every stretch of 10 (g + 2) seconds to connect to every larger running broker it is not connected to.", "quantifier": "every sequence of rounds of the heartbeat task with arbitrary durations and failures of both data-base calls, every history of the discovery service, both data bases, every moment", "why_tests_cant": "Tests do not wait for expiry and cannot vary the durations of data-base calls; the margin depends on the sum of several time-outs.", "anchors": ["cdn-broker/src/tasks/broker/heartbeat.rs: run_heartbeat_task", "cdn-proto/src/discovery/embedded.rs: perform_heartbeat, get_other_brokers, get_with_least_connections", "cdn-proto/src/discovery/redis.rs: perform_heartbeat, get_other_brokers, get_with_least_connections"]}
{"id": "C69", "title": "What one client sends is what the other receives", "statement": "After two rounds of synchronisation, a broadcast or direct message of any contents within the size limit can be encoded, and every user subscribed to one of its topics (or its addressee), at whatever broker, reads from its connection exactly this message with exactly these contents, once; nobody else reads anything. In every history whatsoever, what a user reads from its connection decodes and is a message some user published, for this user or a topic it was subscribed to.", "quantifier": "every history of a network of any number of brokers, every message, every interleaving of its distribution, the real encoding and framing", "why_tests_cant": "The path crosses encoder, framing, routing, synchronisation state, relaying and decoder; tests exercise single hops with fixed messages.", "anchors": ["cdn-client/src/lib.rs: send_broadcast_message, send_direct_message, receive_message", "cdn-proto/src/message.rs: serialize, deserialize", "cdn-proto/src/connection/protocols/mod.rs: read_length_delimited, write_length_delimited", "cdn-broker/src/tasks/broker/handler.rs: broker_receive_loop, handle_broadcast_message, handle_direct_message", "cdn-broker/src/tasks/user/handler.rs: user_receive_loop"]}
{"id": "C70", "title": "Who reads and who writes, from the login on", "statement": "Every copy that any broker sends to a user goes to a connection on which the key was admitted with a permit, and is the unchanged bytes of a frame that a user admitted somewhere in the network published. If nobody else presents a valid signature under a key or a permit given to its owner, and no number is drawn twice, then only the owner of a key receives what is sent to that key, and only owners of admitted keys are the source of what is received.", "quantifier": "every history of a marshal, data base, any number of brokers, users and strangers, from the first login step to the last delivery", "why_tests_cant": "The guarantee spans marshal, data base, two brokers and two clients under all interleavings with strangers.", "anchors": ["cdn-proto/src/connection/auth/marshal.rs: verify_user", "cdn-proto/src/connection/auth/broker.rs: verify_user", "cdn-broker/src/tasks/user/handler.rs: handle_user_connection, user_receive_loop", "cdn-broker/src/tasks/broker/handler.rs: broker_receive_loop, handle_broadcast_message, handle_direct_message"]}
{"id": "C71", "title": "Users who log in can talk to each other", "statement": "A user who completes its login is registered by the broker it was given, with its own key and topics, and is connected there once nothing is under way, if it is admitted once and nothing disturbs its session. After two rounds of synchronisation, when one such user sends a message, every other such user for which it is meant, at whatever broker, reads exactly this message from the connection it logged in on, once.", "quantifier": "every history of a marshal, data base, any number of brokers, users and strangers; every message; every interleaving", "why_tests_cant": "Composition of login, registration, synchronisation, routing and encoding over all schedules.", "anchors": ["cdn-client/src/lib.rs: send_broadcast_message, send_direct_message, receive_message", "cdn-proto/src/connection/auth/marshal.rs: verify_user", "cdn-proto/src/connection/auth/broker.rs: verify_user", "cdn-broker/src/tasks/user/handler.rs: handle_user_connection", "cdn-broker/src/tasks/broker/sync.rs: run_sync_task", "cdn-broker/src/tasks/broker/handler.rs: broker_receive_loop"]}
{"id": "C72", "title": "A user taken off the whitelist is disconnected", "statement": "From the moment a user's key is off the whitelist, its broker disconnects it within 60 s + D + 6 n D, where n bounds the broker's users and D the duration of every step of a check, whatever else happens at the broker; unless it is registered anew it stays disconnected. The broker's check removes nobody else: only users for whom, in that round, one query saw a whitelist and a later one did not find them on it; failed queries remove nobody.", "quantifier": "every history of a broker's connections, its whitelist task and the whitelist, all durations and failures of queries, both data bases", "why_tests_cant": "The check runs once a minute; tests do not wait for it and cannot vary the durations of queries.", "anchors": ["cdn-broker/src/tasks/broker/whitelist.rs: run_whitelist_task", "cdn-broker/src/connections/mod.rs: all_users, remove_user", "cdn-proto/src/discovery/embedded.rs: check_whitelist, set_whitelist", "cdn-proto/src/discovery/redis.rs: check_whitelist, set_whitelist"]}
{"id": "C73", "title": "Replacing the whitelist takes effect at once", "statement": "While one whitelist is being replaced by another, users on both are neither refused nor disconnected, and users on neither are not let in.", "quantifier": "every interleaving of the statements of replacements and checks, both data bases", "why_tests_cant": "The windows are between two statements.", "anchors": ["cdn-proto/src/discovery/embedded.rs: set_whitelist, check_whitelist", "cdn-proto/src/discovery/redis.rs: set_whitelist, check_whitelist", "cdn-proto/src/connection/auth/marshal.rs: verify_user", "cdn-broker/src/tasks/broker/whitelist.rs: run_whitelist_task"]}
{"id": "C74", "title": "Connections that do not log in are closed", "statement": "A connection to a broker that has not been authenticated within the limit of its set-up (TCP and in-memory: at once; TCP+TLS: 5 s; QUIC: 5 s from the end of the handshake) and another 5 s is dropped for good, and the memory for its messages is given back, whatever its peer sends. A marshal drops every connection at most 10 s per message it sent, and the time the stream takes to close, after these limits. Before it is authenticated a connection takes no memory for messages.", "quantifier": "every sequence and timing of events on a connection, all protocols", "why_tests_cant": "A test would have to wait for every time limit in every state of the connection's tasks.", "anchors": ["cdn-broker/src/tasks/user/listener.rs: run_user_listener_task", "cdn-broker/src/tasks/broker/listener.rs: run_broker_listener_task", "cdn-broker/src/tasks/user/handler.rs: handle_user_connection", "cdn-marshal/src/handlers.rs: handle_connection", "cdn-proto/src/connection/protocols/mod.rs: from_streams, read_length_delimited, soft_close", "cdn-proto/src/connection/protocols/tcp_tls.rs: finalize", "cdn-proto/src/connection/protocols/quic.rs: finalize, soft_close"]}
{"id": "C75", "title": "Peers that stop reading are cut off", "statement": "A message accepted for sending is written to the stream, after those accepted before it, within 10 s for each message waiting, or the connection takes no more messages. The memory reserved for a message of which the rest does not come is given back within 5 s. A peer that has vanished does not stay connected for ever.", "quantifier": "every sequence and timing of events on a connection, all protocols, queues of any length", "why_tests_cant": "Depends on timing, on the peer and on buffers; a queue of any length.", "anchors": ["cdn-proto/src/connection/protocols/mod.rs: from_streams, send_message_raw, read_length_delimited, write_length_delimited"]}
{"id": "C76", "title": "Servers keep serving", "statement": "However connections end or fail, a broker keeps accepting users and brokers, handles each accepted connection until it ends, and keeps doing its heartbeats, synchronisation and whitelist checks; a marshal keeps accepting users. A failure to accept one connection does not change this.", "quantifier": "every sequence of accepted, failed and ended connections, rounds and panics", "why_tests_cant": "Failures of accept are hard to provoke in a test, and what stops afterwards is hard to see.", "anchors": ["cdn-broker/src/lib.rs: start", "cdn-broker/src/tasks/user/listener.rs: run_user_listener_task", "cdn-broker/src/tasks/broker/listener.rs: run_broker_listener_task", "cdn-marshal/src/lib.rs: start"]}
{"id": "C77", "title": "A client connects as soon as it can", "statement": "If from some moment on every step of an attempt to connect would succeed, each within its own limit and all together within 10 s, a client that keeps trying is connected by the time one attempt takes after that moment and another 12 s (and the time an address look-up takes, which nothing interrupts). Failed attempts are followed by a pause of exactly 2 s.", "quantifier": "every start, all durations and outcomes of the steps of all attempts, all protocols", "why_tests_cant": "Combines nested time limits with arbitrary delays of resolver, marshal and broker; tests do not wait.", "anchors": ["cdn-client/src/lib.rs: connect, get_connection", "cdn-proto/src/connection/protocols/tcp.rs: connect", "cdn-proto/src/connection/protocols/tcp_tls.rs: connect", "cdn-proto/src/connection/protocols/quic.rs: connect"]}
{"id": "C78", "title": "The running latency is the average of the last period", "statement": "The running-latency metric is, after each period, the average of the latencies of the messages done with in the last period that had any.", "quantifier": "every sequence of periods and latencies, every interleaving of samples with the task's reads", "why_tests_cant": "The interleaving of samples with the two reads of the histogram cannot be provoked in a test.", "anchors": ["cdn-proto/src/metrics.rs: running_latency_calculator", "cdn-proto/src/connection/limiter/pool.rs: drop"]}
{"id": "C79", "title": "Clients accept the servers of the authority they trust, and no others", "statement": "A server that is given an authority's certificate and key starts if and only if both can be read and parsed; a client accepts it if and only if the authority has the name and key of the one the client trusts and the server holds its key. A server given neither uses the test authority, which clients accept only if told to. A server given any authority never presents another one, and a client is connected to the server it dialled.", "quantifier": "all contents of files, all authorities and keys, any signature scheme", "why_tests_cant": "Concerns all certificates and keys; tests use the built-in authority only.", "anchors": ["cdn-proto/src/crypto/tls.rs: load_ca, generate_cert_from_ca, generate_root_certificate_store", "cdn-proto/src/connection/protocols/tcp_tls.rs: connect", "cdn-proto/src/connection/protocols/quic.rs: connect"]}
{"id": "C80", "title": "Different seeds give different keys", "statement": "Two deterministic generators with different seeds give different bytes and so different keys; draws from one generator differ from each other.", "quantifier": "all pairs of seeds, any number of bytes drawn", "why_tests_cant": "There are 2^128 pairs of seeds.", "anchors": ["cdn-proto/src/crypto/rng.rs: DeterministicRng"]}
{"id": "C81", "title": "Endpoints mean what they say", "statement": "Wherever an endpoint in a broker's configuration says local_ip, the local address takes its place and nothing else changes; a broker whose endpoints do not say so does not need a local address. A name that resolves to an address that can be reached can be dialled.", "quantifier": "all configurations, all local addresses, all answers of the resolver", "why_tests_cant": "Tests use literal IPv4 endpoints.", "anchors": ["cdn-broker/src/lib.rs: new", "cdn-proto/src/connection/protocols/tcp.rs: connect", "cdn-proto/src/connection/protocols/tcp_tls.rs: connect", "cdn-proto/src/connection/protocols/quic.rs: connect"]}
{"id": "C82", "title": "Two brokers that found each other stay linked", "statement": "Once two brokers have authenticated each other, and as long as the network breaks no connection between them, both keep the connection and use it: what one announces reaches the other. A broker drops the link to another one only when a new link to it takes its place, when receiving on a link to it fails, or when a message to it cannot be sent. This holds also if one of them dials again before the first connection is ready.", "quantifier": "every execution of a network of brokers, every interleaving of tasks, any number of dials", "why_tests_cant": "Needs two dials that overlap and a particular order in which four tasks register them; tests connect brokers once.", "anchors": ["cdn-broker/src/tasks/broker/heartbeat.rs: run_heartbeat_task", "cdn-broker/src/tasks/broker/handler.rs: handle_broker_connection, broker_receive_loop", "cdn-broker/src/connections/mod.rs: add_broker, remove_broker"]}
{"id": "C83", "title": "A user that comes back is found again", "statement": "A user that disconnects and logs in again at the same broker, any number of times, is known to every other broker linked with that broker as soon as nothing is under way and that broker has announced its changes: direct messages to the user from anywhere reach its latest connection exactly once. This does not depend on the order in which the tasks of the brokers run.", "quantifier": "every history of a network of any number of brokers in which all logins of the user are at one broker, every interleaving of tasks", "why_tests_cant": "Needs two tasks of one broker that announce changes at the same moment in a particular order, while the user leaves and returns between two statements.", "anchors": ["cdn-broker/src/tasks/broker/sync.rs: partial_user_sync, full_user_sync, run_sync_task", "cdn-broker/src/tasks/user/handler.rs: handle_user_connection", "cdn-broker/src/connections/mod.rs: get_partial_user_sync, apply_user_sync", "cdn-broker/src/tasks/broker/handler.rs: broker_receive_loop"]}
{"id": "C84", "title": "Brokers that list each other become linked", "statement": "Whatever happened to two brokers before, once they have nothing to do and are not linked, and one of them is given a list that names the other, they become linked with each other by one link, provided the dial succeeds and no connection between them breaks; links there already are kept. So a network of brokers that are all listed delivers every message to every subscriber, without anybody linking them. It does not matter how long a dial takes.", "quantifier": "every history of a network of any number of brokers, every sequence of heartbeat rounds, dials and other events, every interleaving", "why_tests_cant": "Concerns all histories and all orders of rounds, dials and registrations; tests link two fresh brokers.", "anchors": ["cdn-broker/src/tasks/broker/heartbeat.rs: run_heartbeat_task", "cdn-broker/src/tasks/broker/handler.rs: handle_broker_connection", "cdn-broker/src/connections/mod.rs: all_brokers, add_broker"]}
{"id": "C85", "title": "The choice of a broker is right although brokers come and go meanwhile", "statement": "A user that logs in is sent to a broker that was registered when the brokers were listed, and no other broker registered then had fewer users when it was asked about, whatever brokers, users and other marshals do with the data base between the queries. If no query fails and some broker stays registered throughout, the login does not fail for want of a broker.", "quantifier": "every history of the data base between any two queries, every order in which brokers are asked about, every failure of a query, both data bases", "why_tests_cant": "The queries of one login interleave with heartbeats, expiries and other logins; tests make all queries at one moment with brokers that do not expire.", "anchors": ["cdn-proto/src/discovery/redis.rs: get_with_least_connections", "cdn-proto/src/discovery/embedded.rs: get_with_least_connections", "cdn-proto/src/connection/auth/marshal.rs: verify_user"]}
{"id": "C86", "title": "What a client reads from another client's session is what was sent, in order", "statement": "Whatever a client reads from its connection was sent by sessions of clients such that from each session it reads no message more often than the session sent it, and reads messages in the order in which the session sent them. Messages may be missing; but if from one moment of rest to the next users do nothing but publish, then a client of a synchronised network reads exactly the messages that are meant for it. This holds from the bytes written by the one client to the messages returned to the other, across brokers.", "quantifier": "every history of a network of any number of brokers and sessions, every interleaving, every message", "why_tests_cant": "Concerns all interleavings of tasks in several brokers and repeated messages with equal contents, which tests cannot tell apart.", "anchors": ["cdn-broker/src/tasks/user/handler.rs: user_receive_loop", "cdn-broker/src/tasks/broker/handler.rs: broker_receive_loop", "cdn-proto/src/connection/protocols/mod.rs: read_length_delimited, write_length_delimited", "cdn-proto/src/message.rs: deserialize"]}
{"id": "C87", "title": "A message gets through in the midst of other activity", "statement": "Once a broker has told a linked broker about one of its users (about a topic one of its users is subscribed to), and the linked broker has worked through what it had been sent by then, every direct message to that user (every broadcast on that topic) accepted afterwards from a client of the linked broker is sent to the user exactly once as soon as both brokers have worked through it. Nothing else needs to have come to rest: other users may come and go, other messages and announcements may be under way. Between clients of one broker no announcement is needed.", "quantifier": "every history of a network of any number of brokers and sessions, every interleaving, every user, topic and message; the link and the recipient's connection last", "why_tests_cant": "Tests check delivery after pauses in which the network comes to rest; that delivery does not depend on a moment of rest concerns all interleavings with unrelated activity.", "anchors": ["cdn-broker/src/tasks/user/handler.rs: user_receive_loop", "cdn-broker/src/tasks/broker/handler.rs: broker_receive_loop, handle_broker_connection", "cdn-broker/src/tasks/broker/sync.rs: partial_user_sync, partial_topic_sync, full_user_sync, full_topic_sync", "cdn-broker/src/tasks/user/sender.rs: try_send_to_user", "cdn-broker/src/tasks/broker/sender.rs: try_send_to_broker"]}
{"id": "C88", "title": "News is announced in time", "statement": "A broker tells a linked broker about a topic at the latest ten seconds and a bounded processing delay after it got its first subscriber, if it still has one then; and about a user, and the topics given at login, within two processing delays of the login. So a client of the linked broker that broadcasts on the topic after that time (sends to the user after that time) reaches the recipient, once the linked broker has read what it was sent, whatever else is going on. Up to ten seconds after a subscription a broadcast may be missed, even if every broker has finished everything it has begun.", "quantifier": "every history of a network of any number of brokers, every interleaving and every way in which time passes, every bound on the processing time; the link and the connection of the recipient last", "why_tests_cant": "The announcement of a subscription rides on a ten-second timer that is out of step with everything else; tests sleep longer than that and do not meet the boundary.", "anchors": ["cdn-broker/src/tasks/broker/sync.rs: run_sync_task, partial_user_sync, partial_topic_sync", "cdn-broker/src/tasks/user/handler.rs: handle_user_connection", "cdn-broker/src/tasks/broker/handler.rs: handle_broker_connection", "cdn-broker/src/lib.rs: Broker::start"]}
{"id": "C89", "title": "Brokers that discovery names to each other are linked within seconds, by one link", "statement": "If dials take less than ten seconds less the processing delay, a broker that asks discovery again has finished with every dial of the round before; two brokers are never linked twice as long as nothing breaks; and 20 s, a dial and two processing delays after the heartbeat task of the broker that dials was running, discovery having answered it and named the other broker, the two are linked at both ends and stay linked by that link as long as nothing breaks. From there on broadcasts and direct messages between clients of the two get through after the times of C88. If a dial may take ten seconds, a second one may be begun meanwhile and the two brokers be left without a link, though every dial succeeded.", "quantifier": "every history of a network of any number of brokers with any users, every interleaving and every way in which time passes, every bound on dials and on the processing time with a sum below ten seconds, every list discovery may give", "why_tests_cant": "Which rounds overlap which dials depends on the timing of three machines and the discovery service; tests link brokers at once on one machine.", "anchors": ["cdn-broker/src/tasks/broker/heartbeat.rs: run_heartbeat_task", "cdn-broker/src/tasks/broker/handler.rs: handle_broker_connection", "cdn-broker/src/lib.rs: Broker::start", "cdn-proto/src/connection/protocols/tcp.rs: connect"]}
{"id": "C90", "title": "A user that moves to another broker is found there", "statement": "A user connected to one broker connects to another one, which had heard where the user was; the old broker keeps its connection until it has heard of the move. Once the network is at rest and nothing is left to announce, every broker linked with the new broker says that the user is at the new broker, and the user is connected to no other; so however often it moves. Direct messages and broadcasts published then reach it exactly once, on its connection at the new broker. If the old broker notices first that the user has left, this may fail: the note that the user has gone and the note that it has come bear the same version number, a third broker may take the former for the newer and lose the user for good, and the new broker may take it for the newer and close the connection of a user that is connected nowhere else.", "quantifier": "every history of a network of any number of brokers with any users, every interleaving, any number of moves below 2^64", "why_tests_cant": "Whether the note of the old broker or that of the new one counts depends on the order of events on three machines and on the identities of the brokers; tests with one order of identities see one outcome.", "anchors": ["cdn-broker/src/connections/versioned_map.rs: modify_local", "cdn-broker/src/connections/versioned_map.rs: merge", "cdn-broker/src/connections/mod.rs: add_user", "cdn-broker/src/connections/mod.rs: apply_user_sync", "cdn-broker/src/connections/mod.rs: remove_user", "cdn-broker/src/tasks/broker/sync.rs: partial_user_sync", "cdn-broker/src/tasks/broker/sync.rs: run_sync_task"]}
{"id": "C91", "title": "Linking up puts right what brokers say about each other's users", "statement": "Whatever happened to two brokers before (restarts under the same identity, lost links, lost lists): once they have linked up, read each other's full lists and then each other's changes, they have the same on record about every user, and each says of the other exactly the users that are connected to it. This costs exactly those users their connections about whom the other broker had a record with a higher version, or the same version and the greater identity; those that log in again stay, even if the two link up again. In particular a broker that was started again drops users that came back to it, although nobody else claims them, when it links up with a broker that remembers its former life; and until then that broker says that all users of the former life are there.", "quantifier": "every pair of brokers and every two histories of operations of any length, unrelated to each other; every user", "why_tests_cant": "The histories are what a test would have to enumerate; the tests start brokers empty and never restart one.", "anchors": ["cdn-broker/src/connections/mod.rs: apply_user_sync", "cdn-broker/src/connections/mod.rs: get_full_user_sync", "cdn-broker/src/connections/mod.rs: get_partial_user_sync", "cdn-broker/src/connections/mod.rs: remove_broker", "cdn-broker/src/connections/mod.rs: remove_user", "cdn-broker/src/connections/versioned_map.rs: merge", "cdn-broker/src/connections/versioned_map.rs: diff", "cdn-broker/src/tasks/broker/sync.rs: full_user_sync", "cdn-broker/src/tasks/broker/handler.rs: handle_broker_connection"]}
{"id": "C92", "title": "A client that was dropped is gone", "statement": "Once an application has dropped the last handle of a client, its connection is closed and the client does nothing more. This holds unless it is reconnecting at that moment. Then it goes on trying, for as long as it takes, logs in once more, and closes that connection at once; it opens no further one. If close has returned before, it makes no attempt and opens no connection in any case; but when close was called at the same moment as a call that starts a reconnection, a task remains that wakes up every two seconds for ever.", "quantifier": "every history of calls, clones and drops, every interleaving, whatever the attempts come to; every continuation after the last handle was dropped", "why_tests_cant": "That something never happens again, however long one waits, cannot be observed by a test; the race needs an interleaving no test can force.", "anchors": ["cdn-client/src/lib.rs: Client", "cdn-client/src/lib.rs: reconnect_if_needed", "cdn-client/src/lib.rs: close", "cdn-proto/src/util.rs: AbortOnDropHandle", "cdn-proto/src/connection/protocols/mod.rs: ConnectionRef (Drop)"]}
{"id": "C93", "title": "Users are spread evenly over the brokers", "statement": "If discovery knows of all but k of the users it has sent to each broker whenever a marshal picks a broker, and nobody leaves, the numbers of users sent to any two brokers differ by at most k + 1. With the embedded data base this covers a rush of users that have not got to their brokers yet: the numbers differ by at most one, plus one for each other login that may be between picking its broker and issuing its permit. Whatever happened before, the next user is sent to a broker whose load exceeds that of any other by no more than what the heartbeats have missed. Nothing more can be relied on: users that connect at once are counted nowhere until the next heartbeat, so any number of them can be sent to the same broker in that time; so can any number whose logins pick a broker at the same moment; with Redis also users that have not connected yet.", "quantifier": "every set of brokers, every order of logins (picking a broker and issuing the permit may be interleaved with other logins), presented permits, heartbeats and departures at any moments, both back ends, every k", "why_tests_cant": "The spread depends on how many users log in between two heartbeats and on permits that wait; a test sees a few users and one timing.", "anchors": ["cdn-proto/src/discovery/embedded.rs: get_with_least_connections", "cdn-proto/src/discovery/redis.rs: get_with_least_connections", "cdn-proto/src/connection/auth/marshal.rs: verify_user", "cdn-broker/src/tasks/broker/heartbeat.rs: run_heartbeat_task", "cdn-proto/src/connection/auth/broker.rs: verify_user"]}
{"id": "C94", "title": "The byte counters count what was sent and received", "statement": "A process's counter of bytes sent is the sum of the sizes of the messages its transports have accepted to the last byte, and its counter of bytes received that of the messages that have arrived to the last byte, over all its connections and up to 2^53 bytes. Each message is counted once; one that is cut off midway is not counted, and the four bytes before each message are not. Once nothing is under way, both ends of every connection have counted everything that was sent. The counters never fall. Past 2^53 bytes they may stand still.", "quantifier": "every number of processes and connections, every interleaving of what happens on them, partial reads and writes, failures and closes at any moment", "why_tests_cant": "The counters sum over all connections of a process; tests look at one connection, and never at writes cut off midway nor at large totals.", "anchors": ["cdn-proto/src/connection/protocols/mod.rs: read_length_delimited, write_length_delimited", "cdn-proto/src/connection/metrics.rs: BYTES_SENT, BYTES_RECV"]}
{"id": "C95", "title": "A user that logged in at several brokers is left with one of any two linked ones", "statement": "A user logs in at any brokers of a network, in any order and however close to each other. If no broker that could say where the user is ceased to be able to (which happens when a broker notes, or hears, that the user has gone), then once everything is said and done the user is connected to at most one of any two linked brokers, and a broker linked with the one that has the user names that one, or another one about which it has a version number at least as high. This is not so if some broker forgot the user: the user may stay connected to two linked brokers for good. And without such loss, too, a third broker may name the wrong broker for good after two logins at the same moment; if it then loses its link with that broker and links up again, the user is disconnected, although nothing went wrong at its broker and it is connected nowhere else.", "quantifier": "every history of a network of any number of brokers with any users, every interleaving, any number of logins below 2^64", "why_tests_cant": "What is left depends on the order in which several machines hear of several logins and on their identities; tests have two brokers and one order.", "anchors": ["cdn-broker/src/connections/versioned_map.rs: modify_local", "cdn-broker/src/connections/versioned_map.rs: merge", "cdn-broker/src/connections/mod.rs: add_user", "cdn-broker/src/connections/mod.rs: apply_user_sync", "cdn-broker/src/connections/mod.rs: remove_user", "cdn-broker/src/connections/mod.rs: get_full_user_sync", "cdn-broker/src/tasks/broker/sync.rs: partial_user_sync", "cdn-broker/src/tasks/broker/sync.rs: run_sync_task"]}
{"id": "C96", "title": "A user that logs in at brokers that know where it was is found where it is", "statement": "A user moves about a network, logging in at one broker after another, each time at a broker about which none knows better where the user was last; other brokers may not have heard of the last logins yet, and the user may still be connected elsewhere. If no broker that could say where the user is ceased to be able to, then once everything is said and done the user is connected to one broker only, if those at which it was are linked with it, and every broker linked with that one names it, so that a message to the user that is published there afterwards reaches it exactly once. This is not so if a connection that the user leaves behind breaks before its broker has heard of the new login: another broker may then not know the user for good, although it is connected.", "quantifier": "every history of a network of any number of brokers with any users, every interleaving, any number of logins below 2^64", "why_tests_cant": "Whether an old claim can displace a newer one depends on the order in which several machines hear of several logins; tests have two brokers and wait between steps.", "anchors": ["cdn-broker/src/connections/versioned_map.rs: modify_local", "cdn-broker/src/connections/versioned_map.rs: merge", "cdn-broker/src/connections/mod.rs: add_user", "cdn-broker/src/connections/mod.rs: apply_user_sync", "cdn-broker/src/connections/mod.rs: remove_user", "cdn-broker/src/tasks/broker/sync.rs: partial_user_sync", "cdn-broker/src/tasks/broker/sync.rs: run_sync_task"]}
{"id": "C97", "title": "Clocks that differ a little do no harm", "statement": "The machines on which brokers and marshals run have clocks of their own. With the embedded data base, if no two of them differ by more than d, a broker is listed by every machine, and the marshal finds a broker, as long as the last heartbeat has d or more to run; whatever is listed or chosen has not been expired for longer than d; a permit is accepted as long as it has d or more to run, and nothing is accepted that expired more than d ago. A running broker whose heartbeats never fail twice in a row is listed by every machine at all times, and the marshal finds a broker, if clocks differ by less than fifteen seconds, however slow the data base is. With Redis nobody's clock matters. With the embedded data base it is not so for clocks that are further apart: one machine that is more than a minute ahead makes all brokers vanish for everybody whenever it looks, and a broker that is more than half a minute ahead admits nobody.", "quantifier": "every history of the discovery service with any number of machines, all clock offsets, all durations", "why_tests_cant": "Tests run on one machine with one clock.", "anchors": ["cdn-broker/src/tasks/broker/heartbeat.rs: run_heartbeat_task", "cdn-proto/src/discovery/embedded.rs: perform_heartbeat", "cdn-proto/src/discovery/embedded.rs: prune", "cdn-proto/src/discovery/embedded.rs: issue_permit", "cdn-proto/src/discovery/embedded.rs: validate_permit", "cdn-proto/src/discovery/embedded.rs: get_other_brokers", "cdn-proto/src/discovery/embedded.rs: get_with_least_connections", "cdn-proto/src/discovery/redis.rs: perform_heartbeat", "cdn-proto/src/discovery/redis.rs: issue_permit"]}
{"id": "C98", "title": "A broker is named only when it listens", "statement": "Every heartbeat in the discovery service was written by a broker that had been started and was listening for users and for brokers, on the sockets that its bind endpoints mean; so whatever broker a marshal chooses or another broker lists was listening at some time in the last minute. A server whose start fails leaves neither a name nor a socket behind. No two servers listen on the same socket, and running brokers whose advertised endpoints lead to what they bind have different names. A broker that has ended can be started again at once with the same configuration and has the same name and sockets. Metrics are served at the first IPv4 address of their endpoint; without one the server does not start. It is not so that a named broker is up: it may have gone less than a minute ago. Nor do brokers on different hosts that advertise the same endpoints get different names.", "quantifier": "all numbers of brokers and marshals on any hosts, all configurations, all interleavings of starting, failing, stopping and heartbeats", "why_tests_cant": "Tests start servers one after the other with ports chosen to be free, and never look at discovery while a server starts or fails to.", "anchors": ["cdn-broker/src/lib.rs: Broker::new, Broker::start", "cdn-marshal/src/lib.rs: Marshal::new", "cdn-broker/src/tasks/broker/heartbeat.rs: run_heartbeat_task", "cdn-proto/src/discovery/embedded.rs: get_other_brokers", "cdn-proto/src/discovery/embedded.rs: get_with_least_connections", "cdn-proto/src/discovery/redis.rs: get_other_brokers", "cdn-proto/src/discovery/redis.rs: get_with_least_connections"]}
{"id": "C99", "title": "Clients connect although brokers die", "statement": "As long as one broker keeps running (its heartbeats not failing twice in a row) and the marshal can be reached, every client gets connected, whatever the other brokers do: if from a time T on each of them either can be reached or writes no more heartbeats, then every client that is trying is connected at most seventy-two seconds after T (plus the time for looking up addresses and for one attempt), and a client that begins later is connected by its first attempt; with SQLite and clocks that differ by less than fifteen seconds it takes at most that much longer. It does not happen at once: for a minute the marshal may keep sending clients to a broker that has died, although another one could be reached.", "quantifier": "all histories of the discovery service, all numbers of brokers that die or stay at any time, all durations of the steps of an attempt that fit into ten seconds, SQLite and Redis", "why_tests_cant": "Tests do not kill brokers while clients connect, and none lasts a minute.", "anchors": ["cdn-client/src/lib.rs: connect", "cdn-client/src/lib.rs: reconnect_if_needed", "cdn-proto/src/connection/auth/marshal.rs: verify_user", "cdn-proto/src/discovery/embedded.rs: get_with_least_connections", "cdn-proto/src/discovery/redis.rs: get_with_least_connections", "cdn-broker/src/tasks/broker/heartbeat.rs: run_heartbeat_task"]}
{"id": "C100", "title": "Opening the discovery data base loses nothing", "statement": "Brokers and marshals may open a SQLite discovery data base at any time, together, again, and may die half-way: opening it changes nothing that anybody else stored or will be answered, succeeds whenever the file can be had, and afterwards every operation can be executed and behaves as though there had been one empty data base at the beginning and all operations at that path (and none at another) had been done with it. Tables of the same names that have other columns are not noticed when opening: then it succeeds and no heartbeat is ever written.", "quantifier": "all sequences of openings and operations of any number of processes at any number of paths, interleaved statement by statement, dying anywhere", "why_tests_cant": "Tests open a fresh data base once per process and never die in between.", "anchors": ["cdn-proto/src/discovery/embedded.rs: new", "cdn-proto/local_db/migrations.sql"]}
{"id": "C101", "title": "Every lost connection costs a receiving application two errors", "statement": "One task receives from a client in a loop, pausing after an error until the client has begun to reconnect. Getting the first connection costs one failing call and every lost connection exactly two (one notices, the next one starts reconnecting); the call after that waits for the new connection, however long it takes and however many attempts fail. So at any moment the number of errors seen differs from twice the number of connections by at most one. Nothing that happened keeps it from receiving again, if an attempt to connect succeeds. An application that calls again at once may see any number of errors before the client begins to reconnect.", "quantifier": "all interleavings of the receiving task and the reconnection tasks, all outcomes of operations and attempts, calls dropped while they wait, all initial topics", "why_tests_cant": "Tests lose no connections; the number of errors depends on the interleaving of tasks.", "anchors": ["cdn-client/src/lib.rs: receive_message", "cdn-client/src/lib.rs: reconnect_if_needed", "cdn-client/src/lib.rs: get_connection", "cdn-client/src/lib.rs: disconnect_on_error"]}
