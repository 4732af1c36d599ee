# Formal model of EspressoSystems/Push-CDN in Rocq

Push-CDN is a message distribution network. *Users* connect to *brokers* and exchange direct
and broadcast (by topic) messages; brokers are linked to each other; a *marshal* authenticates
users and gives them a one-time *permit* for a broker; *discovery* (SQLite or Redis) is the data
base shared by marshal and brokers.

`properties.jsonl` lists what users of that code rely on, `MANIFEST.json` says which theorems
settle each property, and this file says how the model is made and what has to be trusted.

## Approach

The model is a set of small, total, computable Gallina functions, written function by
function from the sources in `/repo`. Every definition cites the file and lines it stands for.
Stateful code is a `step` function; a history is a list of operations or events; a property is
proved for every history by induction, or for every input by case analysis. Concurrency is
interleaving at the points where another task can be seen to run (lock acquisition, await). Whatever the
environment decides (failures, timing, scheduling, contents) is an argument and therefore universally quantified.

Specifications are separate, smaller objects (a relation, an ordinary map, a predicate
on the history) and do not mention the model's own helpers.

Some properties are false of the code. Then there is a theorem `..._refuted` with a concrete
run of the model that violates the statement, the strongest version found that does hold (suffix
`_partial` or `_guarded`), and status `partial` in the manifest.

### Layout of `rocq/theories`

| files | contents |
|-------|----------|
| `*Model.v` | executable model, no proofs |
| `*Spec.v` | independent specification |
| `Properties*.v` | the property theorems (named `Cnn_…`), an `Example` beside each showing that its hypotheses can be met, and `Print Assumptions` |
| the others | lemmas |

| topic | model | properties |
|-------|-------|------------|
| subscription index | `RelMapModel` | `PropertiesMaps` C01, C02 |
| versioned map | `VMapModel`, network of maps `VNetModel` | `PropertiesMaps` C13–C17 |
| topic validation | `TopicModel` | `PropertiesMaps` C38 |
| connection state of a broker | `ConnModel` | `PropertiesConn` C07–C12 |
| message handling of a broker | `RouteModel` (actions), `TaskModel` (all tasks interleaved) | `PropertiesRoute` C03–C06, C51; `PropertiesTask` C09, C24, C25, C52–C54; `PropertiesEffects` C61–C63 |
| synchronisation between brokers | `SyncModel` | `PropertiesSync` C18–C23 |
| network of brokers | `NetModel` | `PropertiesNet` C24–C26; `PropertiesSettle` C64; `PropertiesRest` C65 |
| discovery | `DiscModel`, `DecModel`, `DialModel`, `IdModel` | `PropertiesDisc` C27, C28, C30, C35–C37, C55 |
| heartbeats over time | `HeartModel` | `PropertiesHeart` C68 |
| whitelist over time | `WhiteModel` | `PropertiesWhite` C72, C73 |
| a connection over time | `LifeModel` | `PropertiesLife` C74, C75 |
| main loops of the servers | `ServerModel` | `PropertiesServer` C76 |
| attempts to connect over time | `RetryModel` | `PropertiesRetry` C77 |
| latency metric, certificates, deterministic generator, endpoints | `LatencyModel`, `TlsModel`, `StartModel` | `PropertiesMisc` C78–C81 |
| links between brokers over their life | (`NetModel`, `TaskModel`) | `LinkSpec`, `LinkProofs`, `PropertiesLink` C82 |
| users that come back | (`NetModel`, `TaskModel`) | `ReturnSpec`, `ReturnProofs`, `PropertiesReturn` C83 |
| users that move to another broker | (`NetModel`, `TaskModel`) | `MoveSpec`, `MoveProofs`, `PropertiesMove` C90 |
| users that log in at several brokers | (`NetModel`, `TaskModel`) | `HomeSpec`, `HomeProofs`, `PropertiesHome` C95 |
| users that log in at brokers that know where they were | (`NetModel`, `TaskModel`) | `InformSpec`, `HomeProofs2`, `PropertiesInform` C96 |
| the discovery service for machines whose clocks differ | `SkewModel` (over `DiscModel`) | `SkewProofs`, `SkewHeartProofs`, `PropertiesSkew`, `PropertiesSkewHeart` C97 |
| starting and stopping brokers and marshals, sockets and names | `LaunchModel` (over `StartModel`, `DiscModel`), `LaunchSpec` | `LaunchProofs`, `PropertiesLaunch` C98 |
| attempts to connect while brokers die | `FailModel` (over `RetryModel`, `DiscModel`, `HeartModel`), `FailSpec` | `PropertiesFail`, `PropertiesSkewFail` C99 |
| opening a SQLite data base | `OpenModel` (over `DiscModel`), `OpenSpec` | `PropertiesOpen` C100 |
| an application that receives in a loop | `ClientModel`, `ReceiveSpec` | `PropertiesReceive` C101 |
| brokers with any past that link up | (`ConnModel`) | `LinkupSpec`, `LinkupProofs`, `LinkupProofs2`, `PropertiesLinkup` C91 |
| clients that are dropped | `HandleModel` (on `ClientModel`) | `HandleSpec`, `HandleProofs`, `PropertiesHandle` C92 |
| users that log in, connect and leave, around one data base | `LoadModel` (on `DiscModel`) | `LoadSpec`, `LoadProofs`, `LoadProofs2`, `PropertiesLoad` C93 |
| counters of bytes | `CountModel` (on `WireModel`) | `CountSpec`, `CountProofs`, `CountProofs2`, `PropertiesCount` C94 |
| reading client's view of order | (over `EndModel`) | `FifoSpec`, `FifoProofs`, `FifoComplete`, `PropertiesFifo` C86 |
| delivery while other things go on | (over `NetModel`) | `BusySpec`, `BusyProofs`, `BusyProofs2`, `BusyProofs3`, `PropertiesBusy` C87 |
| the ten-second timer of the sync task | `ClockModel` (over `NetModel`) | `ClockProofs`, `ClockProofs2`, `PropertiesClock` C88 |
| choice of a broker, query by query | `ChoiceModel` (over `DiscModel`) | `ChoiceSpec`, `ChoiceProofs`, `PropertiesChoice` C85 |
| formation of the network | `MeshModel` (heartbeat rounds and dials over `NetModel`) | `MeshSpec`, `MeshProofs`, `PropertiesMesh` C84 |
| formation of the network in time | `PaceModel` (the heartbeat task and dials, over `ClockModel`) | `PaceSpec`, `PaceProofs`, `PaceProofs2`, `PropertiesPace` C89 |
| authentication | `AuthModel`, `ShakeModel` | `PropertiesAuth` C29–C34, C56 |
| whole logins, with the user's side | `LoginModel` | `PropertiesLogin` C66, C67 |
| connections, framing, memory pool | `WireModel`, `PoolModel` | `PropertiesWire` C39–C44 |
| memory of a running broker | `FlowModel` | `PropertiesFlow` C59 |
| in-memory transport | `MemModel` | `PropertiesMem` C60 |
| message encoding | `MsgModel`, `CodecModel`; text in `Utf8Spec` | `PropertiesCodec` C45, C46 |
| from client to client with the real encoding | `EndModel` | `PropertiesEnd` C69 |
| whole system, from logins to deliveries | `SystemModel`; sessions in `StaySpec` | `PropertiesSystem` C70, C71 |
| client | `ClientModel` | `PropertiesClient` C47–C50, C57, C58 |

## Method per property

| id | modelled | proof method |
|----|----------|--------------|
| C01, C02 | `RelationalMap` with both indexes | refinement to a finite binary relation, induction over operations |
| C03–C06, C10 | `get_interested_by_topic`, `handle_direct_message`, `handle_broadcast_message`, the two receive loops | case analysis plus the state invariant |
| C07–C09, C11 | the whole of `Connections`, gauges, task handles | invariant by induction over operations with arbitrary sync contents |
| C12, C52–C54 | broker tasks at lock granularity | refutation by concrete schedule, plus the guarded version by invariant |
| C13–C17 | `VersionedMap` with 64-bit wrap | refinement to an ordinary map; per-key characterisation of merge; order independence; bound on versions over a network of maps |
| C18, C19 | topic sync of `Connections` | history invariant "each version of a topic has one status", then order-independence |
| C20–C23 | directory sync of `Connections` | two brokers: join-semilattice invariant; N brokers: sequential regime; refutations by concrete schedule |
| C24–C26 | network of brokers with FIFO links over the routing functions | provenance invariants over histories; pending-work measure for completeness |
| C27, C28, C30, C37, C55 | SQL tables and Redis keys as finite maps with explicit time | invariants over histories |
| C29, C31–C34, C56 | handshakes as step functions, signatures as an oracle | history invariant, exhaustive interleaving argument; a reflection run |
| C66, C67 | users, connections, marshal and brokers' handlers with strangers | stages of a login under arbitrary interference; origin of every message, permit and registration in the history |
| C68 | rounds of the heartbeat task with their durations | induction over rounds: age of the last heartbeat, time to the next listing |
| C72, C73 | the whitelist task and the statements of the data base, with times | a bound on the time of removal that no step increases; origin of every answer in the history |
| C74, C75 | a connection's set-up, authentication and two tasks, with time limits | a bound on the end of every phase and of every queued message that no step increases |
| C76 | the tasks of a server and what ends them | induction over histories |
| C77 | steps of an attempt with their limits, pauses between attempts | induction over steps and over attempts |
| C78–C81 | the metric's task, the choice of certificates, `DeterministicRng`, replacement of `local_ip`, choice of the address | list induction, case analysis |
| C82 | removals of a broker and their causes; a link that was made once and that nothing breaks is pending or registered | induction over the events of the network, handles as in C09 |
| C83 | what every list of users on its way says about one user, and what the last one on each link says | induction over the events of the network, without any order on versions |
| C84 | a pair of brokers has no link and at most one dial under way, or exactly one link and none | induction over rounds, dials and events of the network |
| C85 | each query sees some history; the table of totals holds for each broker what one of the queries saw | induction over the brokers asked about; after a clean-up at `t` nothing in the tables expired before `t` |
| C86 | frames of a session are numbered as received, and what is received is part of what was published | picking by increasing (different) positions gives a sublist (sub-multiset); composition of C24, C25, C39; picking exactly the positions with a property gives a filter, composition with C26 (`FifoComplete`) |
| C87 | a task that has finished its kth frame has done all actions of the frames up to the kth; entries about the user (topic) that are in the announcements of the one broker are applied by the other in order | induction over the later events: what is known stays known while the user stays connected, since all announcements that mention it say the same; then the steps of the handling of the one message are followed through both brokers |
| C88 | a moment of the network as old as [delay] has no unfinished task but receive loops; the sync task is asleep until at most 10 s from now, or in a round that began at most [delay] ago | the round that ends after the period began after the news, or the news was drawn by an earlier one; whoever draws the news has it sent to all linked brokers before the task is over |
| C89 | a dial is at most [limit] old and the heartbeat task has slept 10 s since it began; the registration of a link is at most [delay] old; a pair of brokers has no link and at most one dial under way, or exactly one link and none | induction over events; the list comes within 20 s and a delay, the dial within [limit] of it, the registrations within a delay of that |
| C90 | before the login every record and list says the old thing; after it every record and list says the old or the new thing, the new broker holds the new one, and each link from it has carried it, carries it or is about to | induction over the events from a moment of rest |
| C91 | unannounced changes are the broker's own, notes that a user has gone are unannounced | the exchange acts on each user's record by itself; case analysis on the two records |
| C92 | without handles no call is in progress, and the client is freed unless its task runs | induction over what follows; the task's states |
| C93 | users connected, permits waiting and logins under way are at most the users sent; heartbeats never overstate | induction over events; C37 for the choice |
| C94 | the bytes accepted by a transport are whole frames and part of one, likewise those read; doubles add whole numbers exactly up to 2^53 | induction over events; arithmetic of rounding |
| C95 | no record or list says that the user has gone, and every broker named in one has a record at least as new; each link from a broker that has the user has carried its claim, carries it or is about to, and where it has arrived the record is newer, or as new and the user is not connected if the claimant's identity is the greater | induction over events |
| C96 | no two claims with the same version differ, because a broker that takes the user on claims a version higher than any; from a record that names another broker one gets, following the brokers named, to one that has the user and whose record is newer | induction over events, then over versions |
| C97 | SQLite: the row of a broker is its last heartbeat, expiring by the clock of its writer, unless some clock showed a later time; Redis: the state is the one of true time, shifted | induction over histories |
| C98 | processes at their step of `new`, the sockets they hold, the history of the discovery service | invariant: a process holds the sockets of the bindings it has done, nobody else does; heartbeats traced back to their writer |
| C99 | the attempts of a client, each with the marshal's choice at its time | composition of C37, C68 and C77 |
| C100 | files with tables that may be missing, statements of any processes | invariant: a file holds what the statements executed on it made of an empty data base |
| C101 | `ClientModel` with one thread that receives | invariant: the balance of errors and connections in each phase of a reconnection |
| C35, C36 | identifier order, printing, parsing | order theory on byte strings |
| C38 | `Topic::prune` | list induction |
| C39–C42 | framing on byte lists; connection tasks as a transition system | list induction, invariants |
| C43, C44 | semaphore-based pool | conservation invariant, measure |
| C45, C46 | Cap'n Proto builder and reader for the message schema | memory-layout invariants (what each place holds, frame rule); cost-indexed specification of the reader monad |
| C47–C50, C57, C58 | client state machine | invariants, refutations by concrete schedule |
| C51 | user receive loop | case analysis |
| C65 | the same | ranks on actions (every action only leads to lower ones) and unread frames per link for coming to rest; two phases for the rounds: first only the brokers' own directory entries travel, then only topics |
| C64 | network of brokers, sync messages included | what each link has carried against what both ends hold (phases of a peer's registration), for topics and for one user's directory entry |
| C69 | the network with the real encoding and framing | composition of C26, C39, C45, C64, C65 |
| C70, C71 | logins and network in one run | composition (C25, C67; C66, C52, C65, C69); a session that nothing disturbs stays registered by an invariant over the broker's steps |
| C61–C63 | broker tasks at lock granularity | following one task through an arbitrary interleaving to its end |
| C60 | listeners, connectors and acceptors of the in-memory transport | invariants; induction on the number of later connections |
| C59 | readers, queues and writers of a broker over the memory pool | invariant counting the copies of each message, measure of work left, stuck-state invariant |

## Trusted base

1. Coq 8.16.1's kernel (and `vm_compute`, part of it, used in examples and refutations).
2. Axioms. There are none of our own. `Print Assumptions` stands under every theorem in
   `Properties*.v` and prints "Closed under the global context" for every one of them. The
   libraries used are Coq's standard library and std++; the only axioms in the loaded environment
   are the abstract members of `Coq.ssr.ssrunder.Under_rel` (`Over_rel`, `Under_rel_from_rel`, `over_rel`,
   `over_rel_done`, `Under_rel`, `Under_relE`, `under_rel_done`), which come with ssreflect's standard-library
   part and which no theorem depends on.
3. The reading of `/repo` into the model. The sources were read as text and never built or run.
4. The behaviour of dependencies, which are not in `/repo`, as described next.

### What is assumed about dependencies

* `std` collections: maps and sets; iteration order unspecified (theorems about returned vectors are
  about membership and repetitions, or about every order).
* `parking_lot::RwLock`, `tokio::sync::RwLock`: mutual exclusion; waiters may be served in any order.
* `tokio::sync::Semaphore` (1.47.1): FIFO, a waiter collects permits until it has all.
* `tokio::spawn`, `AbortHandle::abort`: an aborted task stops at some later suspension point, possibly after any
  number of further steps.
* `async-channel` (2.5.0): FIFO, bounded by its capacity, closed when one side is gone or says so; a closed
  channel keeps its contents until its last handle is dropped.
* Byte streams (TCP, TLS, QUIC, in-memory): FIFO, may be cut anywhere, arbitrary chunking.
* SQLite and Redis: every statement, command and MULTI block is atomic, and several statements in one call of `sqlx`
  are separate transactions (`DiscModel` takes `set_whitelist` and `check_whitelist` as a whole for atomic, `WhiteModel` does not); keys with a time to live vanish at
  their expiry.
* Time limits (`LifeModel`): a task whose limit has run out stops before anything happens later; computing takes no time.
* `rustls` (`TlsModel`): accepts a certificate if a trusted authority issued and signed it and it bears the name asked for; expiry is left out.
* `capnp` (0.20.6): modelled in `CodecModel` from the encoding specification and the crate's behaviour.
* `rkyv`: encoding of synchronisation maps is a pair of functions; where decoding must invert encoding
  it is a hypothesis of the theorem.
* BLS signatures: arbitrary functions for serialisation and verification. No theorem claims
  unforgeability; theorems say which verification succeeded on which bytes.

### Which code is modelled

| source | modelled | left out |
|--------|----------|----------|
| `cdn-broker/src/connections/**` | all functions | log lines |
| `cdn-broker/src/tasks/**` | handlers, senders, sync, whitelist, choice of brokers to dial, rounds of the heartbeat and whitelist tasks, the listeners; the timers of the sync, heartbeat and whitelist tasks (the last two also in `HeartModel` and `WhiteModel`) | log lines |
| `cdn-broker/src/lib.rs`, binaries | `new`: its steps, their order and failures; `start`: its tasks and what ends them; `local_ip` in endpoints | parsing of command lines, logging |
| `cdn-broker/src/metrics.rs` | the two gauges | registry |
| `cdn-marshal/src/**` | `handlers.rs`, `new`, `start` | parsing of command lines, logging |
| `cdn-client/src/lib.rs` | everything but contents of messages | construction from a configuration |
| `cdn-proto/src/connection/auth/**` | all four protocols | text of error answers |
| `cdn-proto/src/connection/protocols/mod.rs` | framing, both tasks of a connection, queues, soft close, counters of bytes | — |
| `cdn-proto/src/connection/protocols/memory.rs` | bind, connect, accept, drop | the bytes in the pipes |
| `cdn-proto/src/connection/protocols/{tcp,tcp_tls,quic}.rs` | time limits of `connect`, `finalize` and `soft_close`, which address is dialled, whether `flush` waits | the rest of a stream (a FIFO byte stream is assumed) |
| `cdn-proto/src/connection/limiter/**` | all | — |
| `cdn-proto/src/discovery/**` | all queries of both back ends (one at a time in `WhiteModel` and `ChoiceModel`, with failures in `ChoiceModel`; elsewhere a failed query is a handler that goes no further); opening a SQLite data base | connecting to Redis |
| `cdn-proto/src/message.rs`, `schema/messages.capnp` | encoding and decoding of every message | — |
| `cdn-proto/src/def.rs` | `Topic::prune`, message hooks | type wiring |
| `cdn-proto/src/crypto/signature.rs` | namespacing | BLS itself |
| `cdn-proto/src/crypto/{tls,rng}.rs` | all functions | X.509 and TLS themselves |
| `cdn-proto/src/metrics.rs` | `running_latency_calculator` | serving the metrics |
| `cdn-proto/src/{util,error}.rs` | `AbortOnDropHandle` | the rest |

Each `*Model.v` states its own simplifications at the top.

## Findings

Behaviour of the code that a user may not expect. Where a theorem shows it, its name is given.

Broker
* A subscription handled between removal of a user and cancellation of its loop stays for ever: `C12_users_connected_refuted`.
* A failing receive loop or send on an old connection removes the newer one: `C52_old_failure_removes_new_refuted`, `C52_old_send_failure_removes_new_refuted`.
* A connection can be registered whose loop has already ended: `C53_registered_without_loop_refuted`.
* A subscribe or topic synchronisation handled before registration is lost: `C54_early_subscribe_lost_refuted`, `C54_early_topic_sync_lost_refuted`.
* `Topic::prune` only removes adjacent repetitions: `C38_prune_removes_all_duplicates_refuted`.
* The whitelist monitor keeps a user when the query fails (`whitelist.rs` 36: `unwrap_or(true)`).
* The heartbeat loop repeats at once, without sleeping, when listing the other brokers fails (`heartbeat.rs` 52-60).
* An error from `accept` ends the listener task and with it the broker, or the marshal: `C76_failed_accept_stops_refuted`, `C76_failed_accept_stops_marshal_refuted`.

Synchronisation
* Three brokers can disagree for ever about a user: ties are broken by the identity of the sender and of the receiver, not of the author: `C20_three_brokers_disagree_refuted`.
* Deletions are forgotten by their author once sent: `C20_disconnects_disagree_refuted`.
* A full copy taken while a change is unsent makes the later delta ineffective: `C20_full_sync_stale_refuted`.
* A full copy that echoes a broker's own users to it disconnects them if the sender is greater: `C23_no_news_disconnects_refuted`.
* After a link is replaced, later messages can overtake earlier ones: `C24_network_order_refuted`, seen by the reading client: `C86_two_links_refuted`.
* A broker that has been told about a user but has not yet read the announcement drops messages to the user: `C87_told_but_not_heard_refuted`.
* A subscription made after the login is announced by a timer only: for up to 10 s broadcasts from clients of other brokers miss it (`C88_sooner_refuted`).
* Version counters wrap modulo 2^64; not in practice (`C17_increment_never_wraps`), but a peer may send the largest version.

Authentication and discovery
* A peer without the broker key can complete the handshake with a dialling broker by sending its request back: `C56_reflection_refuted`.
* A recorded broker request can be replayed within five seconds; the dialling side does not compare the identity answered with the one dialled.
* One second of clock skew in the wrong direction fails the broker handshake: `C34_clock_skew_refuted`.
* The timestamp subtraction wraps for clocks below five: `C31_wraparound_refuted`.
* Keys are registered as sent, so an encoding that is not canonical gives one key several names: `C29_one_key_one_name_refuted`.
* SQLite tests a permit's expiry only when the validation starts: `C28_embedded_expiry_window_refuted`.
* The back ends differ on empty whitelists and lists with repetitions: `C30_backends_agree_refuted`.
* Redis ignores outstanding permits when choosing a broker: `C37_redis_permits_ignored_refuted`; SQLite does so with global permits: `C37_embedded_global_permits_not_counted`.
* A user that has connected is counted nowhere until its broker's next heartbeat, since its permit is gone: any number of users can be sent to one broker in between, `C93_all_to_one_refuted`; so can any number of users whose logins pick a broker before any of them has its permit, on one marshal or several, `C93_same_moment_refuted`; with Redis they need not even connect, `C93_rush_is_spread_redis_refuted`.
* Two failed heartbeats in a row with a slow data base make a running broker vanish from the lists: `C68_two_failures_refuted`.
* Replacing the whitelist in SQLite is not atomic (three statements without a transaction): for a moment everybody is allowed, then for a moment nobody, and the broker disconnects users who are on both lists: `C73_anyone_passes_while_replaced_refuted`, `C73_relisted_user_removed_refuted`. Abolishing it in Redis can do the same: `C73_abolished_list_removes_refuted`.
* The marshal looks up the canonical form of a key, the broker the bytes it was sent: `C72_other_encoding_removed_refuted`. Nothing limits the time of a whitelist query: `C72_hanging_check_refuted`.
* A `/` inside an endpoint breaks identifiers: `C55_slash_refuted`.
* Permits 0 and 1 may be drawn at random, but the client takes an answer of at most 1 for a refusal: `C66_unlucky_number_refuted`.
* The client reports success before the broker has its topics, so a lost connection leaves it connected and registered nowhere: `C67_connected_not_registered_refuted`.
* A stranger who guesses a user's number receives that user's messages: `C70_guessed_number_refuted`.
* Two brokers that have just linked up and tell each other all they know can drop a user connected to one of them: `C71_echo_drops_user_refuted`.
* A number drawn again while a user still holds it registers that user under the other's key: `C67_reused_number_refuted`.

Connections
* The sender does not test the size limit: `C40_sender_unchecked_refuted`.
* A message larger than the memory pool blocks every connection of the broker for ever: `C44_larger_than_pool_refuted`.
* A user that stops reading can stop the broker: when its write times out its closed queue keeps the memory of everything in it until the next message for that user, and with the pool full that message cannot be received: `C59_reader_that_stops_refuted`.
* A soft close queued behind a failed write is never answered, so a marshal keeps for ever the connection of a stranger who lets the marshal's answer fail, and all memory this stranger takes from the pool: `C74_failed_answer_stays_refuted`, `C74_unread_answer_stays_refuted`.
* Strangers take memory from the pool before they log in, up to 536870911 bytes with one header of four bytes: `C74_stranger_takes_memory_refuted`, `C74_header_takes_memory_refuted`.
* With Redis, a broker that expires between two queries of a login makes the login fail, although others are registered: `C85_redis_vanishing_broker_refuted`.
* Flushing has no time limit, so a TCP+TLS user that stops reading is not cut off, and its queue grows: `C75_flush_hangs_refuted`. A vanished idle peer is never noticed on TCP: `C75_silent_peer_stays_refuted`.
* Overlapping or abandoned connects over the in-memory transport wire the wrong ends together, and a waiting connect keeps everybody from binding: `C60_crossed_refuted`, `C60_shifted_for_ever_refuted`, `C60_bind_waits_refuted`.
* A server given only one of the two files of its authority silently presents the test authority, whose key is in the source: `C79_one_file_refuted`. All servers' certificates bear the same name: `C79_any_server_refuted`.
* Names whose first address is an IPv6 address cannot be dialled, and other addresses are not tried: `C81_other_addresses_refuted`. A broker without a local address does not start, even if its endpoints do not need one: `C81_needs_local_ip_refuted`.
* A broker dials another one every 10 s until the link is registered, without waiting for the dial before. If two dials succeed and the two brokers register them in different orders, each keeps the link whose other end the other broker has stopped, and both links fail: `C82_crossed_dials_refuted`. The next heartbeat dials again: `C84_eager_rounds_refuted`, `C84_recovery_example`. It takes a dial of 10 s or more (`C89_slow_dials_refuted`); with faster ones it cannot happen (`C89_rounds_do_not_overlap`, `C89_one_link`).
* Changes are taken under the lock and sent after it is released, by several tasks (the sync task, and with `strong-consistency` every user's handler). If a user leaves and returns in between, the news that it has gone can be sent last; it bears the higher version, because deletions are forgotten once announced, so the other brokers forget the user, and direct messages to it from there are lost until its entry changes again: `C83_late_farewell_refuted`, `C83_late_farewell_loses_messages`. A receive loop that was told to stop while it waits for the lock can do the same: `C83_stale_loop_refuted`.
* Versions of directory entries count changes, not time, and ties are decided by the brokers' identities. A user that leaves one broker and logs in at another before the former has announced the departure (up to 10 s) produces two entries with the same version: 'gone' and 'here'. If the identity of the broker left is the greater one, the new broker closes the user's connection when it hears of the departure, and other brokers may lose the user although it stays connected (`C90_farewell_refuted`, `C90_farewell_disconnects_refuted`).
* A broker that loses a link keeps the other's users on record (the line that would remove them, `connections/mod.rs` 322-323, is commented out), and a broker that starts again counts versions from 1. When the two link up again, the users that have come back in the meantime lose their connections (`C91_restart_keeps_users_refuted`); those that log in after that stay (`C91_second_login_stays`).
* Which of two claims with the same version counts is decided by the identities of the sender and the receiver of a list, not of the claimants. After two logins at the same moment a third broker may therefore keep naming the wrong one (`C95_found_refuted`). When it links up again with the broker it names, that broker takes this for news, notes that it has no such user, and announces that the user has gone; the broker that does have the user then closes the connection (`C95_relink_disconnects_refuted`). A broker that was made to forget a user counts from 1 again, and then the user may stay connected to two brokers (`C95_two_homes_refuted`).
* SQLite rows expire by the clock of whoever cleans up: a machine a minute ahead deletes every broker, a broker half a minute ahead refuses every permit (`C97_fast_clock_erases_refuted`, `C97_fast_broker_refuses_refuted`).
* Discovery names brokers for up to a minute after they have gone (`C98_listed_is_up_refuted`); brokers on two hosts given the same advertised endpoints share a name (`C98_names_differ_refuted`). For that minute clients are sent to them again and again (`C99_at_once_refuted`).
* Opening a SQLite data base does not notice tables with other columns: `C100_other_columns_refuted`.
* An application that receives again right after an error may see any number of errors before the client begins to reconnect: `C101_impatient_refuted`.
* A latency that comes in between the two reads of the histogram spoils the metric: `C78_sample_between_reads_refuted`.
* Past 2^53 bytes the counters of bytes may stand still, `C94_counters_exact_refuted`; they leave out the headers.
* `DeterministicRng` gives the same numbers for ever, and zeros after eight bytes; `BLS::sign` uses it (`signature.rs` 138): `C80_second_key_refuted`, `C80_numbers_repeat_refuted`.
* The in-memory listener is never removed on drop: `memory.rs` 177-188 builds a future and does not await it.
* Decoding takes up to eight times the size of the input before it notices that the input is truncated (`C46_memory_case`), and a message can be twice as large as its encoding (`C46_shared_case`).
* Encoding a list of 2^29 elements panics: `C45_encodes_iff`.

Client
* A late error on an old connection takes away the new one: `C47_replaced_only_after_its_error_refuted`.
* A subscribe just after (re)connection can be lost: `C48_early_subscribe_refuted`.
* `close` may never return, and a pending receive keeps its connection: `C49_close_never_returns_refuted`, `C49_pending_receive_refuted`.
* The reconnection task owns the client whose field is the only handle that could abort it, so dropping a client does not stop it: `C92_dropped_client_reconnects_refuted`, `C92_dropped_client_freed_refuted`. A `close` that runs between the spawning of the task and the storing of its handle leaves the task behind: `C92_closed_and_dropped_freed_refuted`.
* A redundant subscribe or unsubscribe makes the broker disconnect the client: `C50_redundant_call_disconnects_refuted`.
* A pending subscribe can stop the client from ever reconnecting: `C57_never_reconnects_refuted`.
* Steps that each keep their limit can together be too slow for any attempt to succeed: `C77_slow_steps_refuted`. Looking up an address blocks the thread, and no limit interrupts it: `C77_blocking_lookup_refuted`.
* `ensure_initialized` can succeed without a connection: `C58_success_without_connection_refuted`.

## Testing the theorems

`seeded/LOG.jsonl` records deliberate bugs put into a copy of the model and which theorems stopped being provable.
Every attempt is one line; `outcome` says whether some theorem failed, all survived, or the edit was not well-typed.
A failing proof script counts as a failing theorem, which does not by itself show that the statement became false. Where
every theorem about the broken claim went through unharmed, one was strengthened or added (field `theorems_tightened`), or
`note` says why the claim stays true. Some late edits were tried against the theorems of the named claim only.
