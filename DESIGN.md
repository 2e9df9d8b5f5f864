# Formal model of c-kruse/vanflow in Rocq

Generated by `tools/gen_design.py` from `tools/design_head.md`,
`properties.jsonl` and `MANIFEST.json`.

## Approach

The Go code is modelled function by function as total Gallina definitions in
`rocq/theories/`.  Panics and errors are values.  Concurrent code is modelled as
a step function `step : state -> label -> option (state * list event)`: a label
is the next step of one goroutine, a call by a user, or something the outside
does (a network result, a tick of the clock, a value taken from a map in some
order).  `Run.v` defines runs; theorems quantify over every label sequence.
What the Go runtime and libraries may choose freely (clock, map iteration order,
the result of `sort.Slice`, network answers, randomness) is an argument or a
label with an explicit contract (`Env.v`), never an axiom.

- Model files hold definitions only; each cites file and lines in /repo and says
  where it simplifies.
- `Spec*.v`, and the section "Specification" at the top of some files, hold the
  vocabulary of the statements, written independently of the model's helpers.
- `*Facts.v`, `*Live.v`, `*Lemmas.v`, `*Progress.v` and the like hold proofs.
- `Props_*.v` hold the property theorems `Cnn_...`, for each property an
  `Example Cnn_example` that meets the hypotheses of its theorems in a
  non-trivial case, and `Print Assumptions`.

Where the code violates the property a user would expect, there is a theorem
`..._refuted...` with a concrete run or value, next to theorems that say exactly
what does hold (the condition under which the property holds, or how far the
violation reaches).  `properties.jsonl` says "(Violated: ...)" there.

## Trusted base

- The kernel of Coq 8.16.1, including the virtual machine used by `vm_compute`
  in examples and witnesses (re-checked by conversion by `coqchk`).
- Axioms: none.  `Print Assumptions` reports "Closed under the global context"
  for every property theorem.  (`coqchk` over the whole context
  lists seven constants of `Coq.ssr.ssrunder`, a module of the standard
  library that std++ loads; no theorem depends on them.)
- The definitions of the standard library and std++ (finite maps, lists,
  permutations) used in statements.
- The reading of the Go code, and of the libraries it calls, recorded in the
  model files: language semantics (channels, select, mutexes, defer, maps,
  integer conversion), reflect, time (Go 1.21 timers), context, sort, strings,
  encoding/base64, encoding/binary, encoding/json as a parameter, go-amqp,
  cenkalti/backoff v4.2.1, client-go.

## What is modelled

| Part of the code | Model | Left out or simplified |
|---|---|---|
| encoding/*.go, base.go (Time) | Encoding.v; UserCodec.v; RegistryConc.v (the mutex) | defined types over strings and numbers, and types with methods of their own, are in UserCodec.v only (records there are flat lists of tagged fields; attributes of an interface type hold an opaque value); in RegistryConc.v what Encode and Decode return depends only on the record and the maps |
| records.go, base.go | Records.v; WireTable.v (the same from the source text) | nothing: fifteen types transcribed |
| messages.go | Messages.v; UserMessages.v (any registry, types of the user, typed nil pointers) | AMQP properties reduced to the three fields the code touches |
| store/internal | SyncMap.v | the mutex (see StoreConc.v) |
| store/store.go, patcher.go, cache.go | Cache.v | handlers only observe; index functions are total; versions do not overflow int64; a key function that panics inside a sort gives "" |
| store/etag.go, continue.go | Tokens.v | nothing |
| store under concurrent calls | StoreConc.v; StoreReentry.v; StoreLock.v | in StoreConc.v and StoreReentry.v RWMutex is an abstract readers/writer lock without preference for waiting writers; in StoreLock.v it has it; handlers that call the store are in StoreReentry.v only, and call it one call after the other on the goroutine they are called on; index functions that call it are in StoreLock.v only, which leaves out what calls return |
| store whose index functions panic | IndexPanic.v | one call at a time; the deferred unlocks are assumed to run |
| annotation maps shared with callers | Alias.v | records as values |
| store/dispatch.go | Dispatch.v | nothing; maps are heap objects |
| eventsource/manager.go: diffRecord | Diff.v | |
| eventsource/manager.go: Run, PublishUpdate, serve, sendRecords, listenFlushes | Manager.v; ManagerRuns.v (any number of calls of Run); FlushAny.v (stores of any kind); ServeTime.v (with a clock) | one choice of map order and clock per batch; taking a message and sending it is one step; Manager.v has the package's own stores, FlushAny.v any that leave the selector alone; in ServeTime.v steps take no time, time passes between them |
| the loops of client.go (Listen), manager.go (listenFlushes), discovery.go (Run) over a container | Loops.v | one loop and its own link, anybody else on the same container; what happens to a message that was handed on is in Client.v, Manager.v and Discovery.v |
| eventsource/manager.go: sendKeepalives, sendWithTimeout | Keepalive.v | tickers are not stopped |
| eventsource/client.go, flush.go | Client.v; ClientReentry.v; WatchClient.v (with watches) | nil handlers; handlers that call the client are in ClientReentry.v only, and call it on the goroutine they are called on |
| eventsource/discovery.go, source.go | Discovery.v | one call of Run (several in DiscoveryRuns.v); one clock; a late ticker may tick once for each missed tick; watches are joined to the clients they watch in WatchClient.v |
| session/container.go, factory.go | Session.v; Restart.v (any number of calls of Start) | one call of Start in Session.v and what is built on it; AMQP library answers arbitrarily; error texts |
| session/mock.go | Mock.v | messages as numbers; Next as one step; Start, OnSessionError and Accept do nothing |
| reconnect pacing | Backoff.v | a container is reduced to its calls of the strategy; randomness is a label |
| cmd/vanflow-tool/main.go | Connect.v | flag parsing, the TLS handshake |
| cmd/vanflow-tool/serve.go, api.go | Tool.v (store), Collector.v (discovery and list of sources), Http.v (routes, answers), FlushTool.v (asking for records, also in log.go), ToolConns.v (connections, which errors stop it), ServeExit.v (how it ends), Collect.v (clients, watches, dispatchers and the store together) | logging; the rest of HTTP (methods are ignored by the code, hosts, CONNECT) |
| cmd/vanflow-tool/log.go | LogTool.v | logging; the text of a line beyond the fields it carries; listeners as in Client.v |
| cmd/vanflow-tool/fixture.go | Tool.v (data), Fixture.v (server), ServeExit.v (how it ends) | JSON parsing is a parameter; unparsable requests; the pauses between updates; managers only take updates while their context lasts; the mutex' critical sections are one step except in /flows |
| vancap/main.go | Vancap.v | logging, the contents of the deployment; answers of Kubernetes, network and file system are arguments |
| sources and the collecting tool: addresses used and listened on, intervals and timeouts | Live.v | with Keepalive.v and Discovery.v; what lies between them is described by arrival times within a bound |
| publisher to collector | EndToEnd.v; Arrive.v | composition of Manager.v, Messages.v, Dispatch.v, Cache.v; and of that with Collect.v |

Not modelled: the demo programs' text output, logging, metrics, Dockerfiles and
manifests; memory and data races below the granularity of the steps described in
the model files.

## Testing the theorems

`seeded/LOG.jsonl` lists wrong programs: an edit of a model definition the way a
realistic bug would change the code, the claim it breaks, the theorems that
failed to build, and the theorems that were added or tightened because of it.

## Per property


- **C01 Record round trip** (proved; Props_Encoding.v). Model: Encoding.v, spec in SpecEncoding.v. Struct types as a mutual inductive description, values as trees; mutual induction on the description. The specification is a recursion on the description that never mentions field tables or index paths.
  Theorems: `C01_record_round_trip`, `C01_normal_unchanged`. normal_value spells out the normalisation; times must fit int64 microseconds (C10 treats the rest).
- **C02 Re-encoding a decoded record invents nothing** (proved; Props_Encoding.v). Model: Encoding.v, spec in SpecEncoding.v. Struct types as a mutual inductive description, values as trees; mutual induction on the description. The specification is a recursion on the description that never mentions field tables or index paths.
  Theorems: `C02_reencode`.
- **C03 Encode succeeds exactly on complete, representable records** (proved; Props_Encoding.v). Model: Encoding.v, spec in SpecEncoding.v. Struct types as a mutual inductive description, values as trees; mutual induction on the description. The specification is a recursion on the description that never mentions field tables or index paths.
  Theorems: `C03_encode_iff`, `C03_encode_rejects`.
- **C04 Exactly which attribute sets crash Decode** (proved; Props_Encoding.v). Model: Encoding.v, spec in SpecEncoding.v. Struct types as a mutual inductive description, values as trees; mutual induction on the description. The specification is a recursion on the description that never mentions field tables or index paths.
  Theorems: `C04_decode_panic_iff`, `C04_no_nil_no_panic`, `C04_decode_total_refuted`. Exact characterisation of the panicking inputs; C04_decode_total_refuted shows the unrestricted claim is false of the code.
- **C05 Decode is strict on its own attributes and blind to all others** (proved; Props_Encoding.v). Model: Encoding.v, spec in SpecEncoding.v. Struct types as a mutual inductive description, values as trees; mutual induction on the description. The specification is a recursion on the description that never mentions field tables or index paths.
  Theorems: `C05_decode_strict`, `C05_decode_type_code`, `C05_decode_nil_set`, `C05_decode_blind`.
- **C06 Shape of encoded attribute sets** (proved; Props_Encoding.v). Model: Encoding.v, spec in SpecEncoding.v. Struct types as a mutual inductive description, values as trees; mutual induction on the description. The specification is a recursion on the description that never mentions field tables or index paths.
  Theorems: `C06_encode_exact`, `C06_encode_shape`.
- **C07 The type registry stays one-to-one and grows monotonically** (proved; Props_Encoding.v). Model: Encoding.v. Registry as two finite maps; induction over registration sequences; acceptance as an independent predicate on descriptions.
  Theorems: `C07_registered_history`, `C07_one_to_one`, `C07_tables_agree`, `C07_distinct_codepoints`, `C07_monotone`, `C07_failed_call_no_effect`.
- **C08 Registration accepts exactly the well-formed types** (proved; Props_Encoding.v). Model: Encoding.v. Registry as two finite maps; induction over registration sequences; acceptance as an independent predicate on descriptions.
  Theorems: `C08_register_iff`.
- **C09 The built-in record types are usable as shipped** (proved; Props_Encoding.v). Model: Records.v. Finite facts about the fifteen types by computation; the value-quantified part as instances of C01 and C03.
  Theorems: `C09_init_does_not_panic`, `C09_builtin_types`, `C09_shared_codepoints`, `C09_builtin_round_trip`.
- **C10 Timestamp codec** (proved; Props_Encoding.v). Model: Encoding.v, GoBase.v. Times as seconds and nanoseconds with explicit wrap-around; arithmetic.
  Theorems: `C10_time_round_trip`, `C10_time_encode_iff`, `C10_time_encode_other`, `C10_time_decode_iff`, `C10_far_future_refuted`. Exact characterisation; C10_far_future_refuted shows that without the int64 bound a time is sent as a wrong time.
- **C11 Beacon, heartbeat and flush messages round-trip** (proved; Props_Messages.v). Model: Messages.v, spec in SpecMessages.v. Case analysis and list induction over a model of the AMQP message.
  Theorems: `C11_beacon_round_trip`, `C11_heartbeat_round_trip`, `C11_flush_round_trip`.
- **C12 Message decoding is decided by the subject and total** (proved; Props_Messages.v). Model: Messages.v, spec in SpecMessages.v. Case analysis and list induction over a model of the AMQP message.
  Theorems: `C12_decode_beacon`, `C12_decode_heartbeat`, `C12_decode_flush`, `C12_decode_rejects`, `C12_decode_kind`, `C12_decode_no_panic`.
- **C13 Record messages round-trip record by record** (proved; Props_Messages.v). Model: Messages.v, spec in SpecMessages.v. Case analysis and list induction over a model of the AMQP message.
  Theorems: `C13_record_msg_round_trip`, `C13_encode_iff`, `C13_nil_record_rejected`.
- **C14 A bad record in a message does not corrupt its predecessors** (proved; Props_Messages.v). Model: Messages.v, spec in SpecMessages.v. Case analysis and list induction over a model of the AMQP message.
  Theorems: `C14_decode_prefix`.
- **C15 The store behaves like a map** (proved; Props_Store.v). Model: SyncMap.v, Cache.v, Tokens.v, spec in SpecStore.v and SpecTokens.v. Invariant that the indexes are exact; refinement of every operation to an index-free map for every environment; histories by induction.
  Theorems: `C15_store_is_a_map`.
- **C16 Add succeeds exactly when the key is absent** (proved; Props_Store.v). Model: SyncMap.v, Cache.v, Tokens.v, spec in SpecStore.v and SpecTokens.v. Invariant that the indexes are exact; refinement of every operation to an index-free map for every environment; histories by induction.
  Theorems: `C16_add_iff_absent`.
- **C17 If-Match updates detect every intervening write** (proved; Props_Store.v). Model: SyncMap.v, Cache.v, Tokens.v, spec in SpecStore.v and SpecTokens.v. Invariant that the indexes are exact; refinement of every operation to an index-free map for every environment; histories by induction.
  Theorems: `C17_if_match`, `C17_unparseable_rejected`, `C17_refuted_after_delete`. C17_refuted_after_delete: the unrestricted claim is false of the code, as the statement says. C17_if_match, C17_unparseable_rejected: what holds for all runs.
- **C18 ETag and continue tokens survive their text encoding** (proved; Props_Store.v). Model: SyncMap.v, Cache.v, Tokens.v, spec in SpecStore.v and SpecTokens.v. Invariant that the indexes are exact; refinement of every operation to an index-free map for every environment; histories by induction.
  Theorems: `C18_etag_round_trip`, `C18_continue_round_trip`, `C18_continue_wraps`, `C18_refuted_large_offset`, `C18_etag_accepted_iff`, `C18_continue_accepted_iff`. C18_refuted_large_offset: the unrestricted claim is false of the code, as the statement says. C18_etag_round_trip, C18_continue_round_trip, C18_continue_wraps, C18_etag_accepted_iff, C18_continue_accepted_iff: what holds for all runs.
- **C19 A failed store operation changes nothing** (proved; Props_Store.v). Model: SyncMap.v, Cache.v, Tokens.v, spec in SpecStore.v and SpecTokens.v. Invariant that the indexes are exact; refinement of every operation to an index-free map for every environment; histories by induction.
  Theorems: `C19_failure_changes_nothing`.
- **C20 Index lookups are exact** (proved; Props_Store.v). Model: SyncMap.v, Cache.v, Tokens.v, spec in SpecStore.v and SpecTokens.v. Invariant that the indexes are exact; refinement of every operation to an index-free map for every environment; histories by induction.
  Theorems: `C20_index_exact`, `C20_unknown_index`.
- **C21 Index values are exact** (proved; Props_Store.v). Model: SyncMap.v, Cache.v, Tokens.v, spec in SpecStore.v and SpecTokens.v. Invariant that the indexes are exact; refinement of every operation to an index-free map for every environment; histories by induction.
  Theorems: `C21_index_values_exact`.
- **C22 Selected lists are complete and in key order** (proved; Props_Store.v). Model: SyncMap.v, Cache.v, Tokens.v, spec in SpecStore.v and SpecTokens.v. Invariant that the indexes are exact; refinement of every operation to an index-free map for every environment; histories by induction.
  Theorems: `C22_list_ordered`, `C22_order_exists`, `C22_index_ordered`, `C22_list_complete`, `C22_ascending_sorted`, `C22_default_keys_distinct`.
- **C23 Paging enumerates the store** (proved; Props_Store.v). Model: SyncMap.v, Cache.v, Tokens.v, spec in SpecStore.v and SpecTokens.v. Invariant that the indexes are exact; refinement of every operation to an index-free map for every environment; histories by induction.
  Theorems: `C23_paging_enumerates`.
- **C24 Listing never crashes** (proved; Props_Store.v). Model: SyncMap.v, Cache.v, Tokens.v, spec in SpecStore.v and SpecTokens.v. Invariant that the indexes are exact; refinement of every operation to an index-free map for every environment; histories by induction.
  Theorems: `C24_list_crash_iff`, `C24_index_crash_iff`, `C24_refuted`. C24_refuted: the unrestricted claim is false of the code, as the statement says. C24_list_crash_iff, C24_index_crash_iff: what holds for all runs.
- **C25 Replace installs exactly the given set** (proved; Props_Store.v). Model: SyncMap.v, Cache.v, Tokens.v, spec in SpecStore.v and SpecTokens.v. Invariant that the indexes are exact; refinement of every operation to an index-free map for every environment; histories by induction.
  Theorems: `C25_replace_exact`.
- **C26 Change events replay to the store contents** (proved; Props_Store.v). Model: SyncMap.v, Cache.v, Tokens.v, spec in SpecStore.v and SpecTokens.v. Invariant that the indexes are exact; refinement of every operation to an index-free map for every environment; histories by induction.
  Theorems: `C26_events_describe`, `C26_events_replay`, `C26_events_replay_by_id`, `C26_refuted_replace`, `C26_refuted_failing_accumulate`. C26_refuted_replace, C26_refuted_failing_accumulate: the unrestricted claim is false of the code, as the statement says. C26_events_describe, C26_events_replay, C26_events_replay_by_id: what holds for all runs.
- **C27 Accumulate merges attributes, later values winning** (proved; Props_Store.v). Model: SyncMap.v, Cache.v, Tokens.v, spec in SpecStore.v and SpecTokens.v. Invariant that the indexes are exact; refinement of every operation to an index-free map for every environment; histories by induction.
  Theorems: `C27_accumulate_merges`, `C27_later_values_win`.
- **C28 Accumulate is idempotent and silent when nothing changes** (proved; Props_Store.v). Model: SyncMap.v, Cache.v, Tokens.v, spec in SpecStore.v and SpecTokens.v. Invariant that the indexes are exact; refinement of every operation to an index-free map for every environment; histories by induction.
  Theorems: `C28_no_change_is_silent`, `C28_change_is_reported`, `C28_repeat_is_noop`.
- **C29 An attribute can be reset through Accumulate** (proved; Props_Store.v). Model: SyncMap.v, Cache.v, Tokens.v, spec in SpecStore.v and SpecTokens.v. Invariant that the indexes are exact; refinement of every operation to an index-free map for every environment; histories by induction.
  Theorems: `C29_stale_value_stays`, `C29_refuted`. C29_refuted: the unrestricted claim is false of the code, as the statement says. C29_stale_value_stays: what holds for all runs.
- **C30 Accumulated entries keep type and record consistent** (proved; Props_Store.v). Model: SyncMap.v, Cache.v, Tokens.v, spec in SpecStore.v and SpecTokens.v. Invariant that the indexes are exact; refinement of every operation to an index-free map for every environment; histories by induction.
  Theorems: `C30_types_consistent`, `C30_refuted`, `C30_accumulate_never_crashes`. C30_refuted: the unrestricted claim is false of the code, as the statement says. C30_types_consistent, C30_accumulate_never_crashes: what holds for all runs.
- **C31 Timestamps say when an entry last changed** (proved; Props_Store.v). Model: SyncMap.v, Cache.v, Tokens.v, spec in SpecStore.v and SpecTokens.v. Invariant that the indexes are exact; refinement of every operation to an index-free map for every environment; histories by induction.
  Theorems: `C31_last_write`.
- **C32 Concurrent store calls are linearizable** (proved; Props_Conc.v). Model: StoreConc.v. Small steps under a readers/writer lock; simulation by the sequential store over all schedules.
  Theorems: `C32_linearizable`, `C32_effects_once`, `C32_program_order`, `C32_plain_map`, `C32_state`, `C32_no_deadlock`.
- **C33 Change events arrive in the order the changes were applied** (proved; Props_Conc.v). Model: StoreConc.v. Small steps under a readers/writer lock; simulation by the sequential store over all schedules.
  Theorems: `C33_order_refuted`, `C33_exactly_once`, `C33_one_writer`. C33_order_refuted: the unrestricted claim is false of the code, as the statement says. C33_exactly_once, C33_one_writer: what holds for all runs.
- **C34 Source index separates sources** (proved; Props_Store.v). Model: Cache.v. String lemmas; a witness.
  Theorems: `C34_source_index_exact`, `C34_dot_free_sources`, `C34_refuted`. C34_refuted: the unrestricted claim is false of the code, as the statement says. C34_source_index_exact, C34_dot_free_sources: what holds for all runs.
- **C35 Dispatch routes every record to the store registered for its type** (proved; Props_Dispatch.v). Model: Dispatch.v. Induction over registrations and messages, with maps as heap objects.
  Theorems: `C35_routing`, `C35_completes`, `C35_panic`, `C35_types_apart`.
- **C36 Dispatchers are snapshots of the registry** (proved; Props_Dispatch.v). Model: Dispatch.v. Induction over registrations and messages, with maps as heap objects.
  Theorems: `C36_snapshot`, `C36_dispatches`, `C36_completes`.
- **C37 Published deltas carry exactly what changed** (proved; Props_Converge.v). Model: Diff.v. Over the concrete codec, for all records and environments.
  Theorems: `C37_silent`, `C37_delta`.
- **C38 Updates are published in order, once, in bounded batches** (proved; Props_Manager.v). Model: Manager.v. Transition system of publishers, serve, sendRecords and listenFlushes; invariants with ghost histories over all label sequences.
  Theorems: `C38_in_order`. The environment (map order, clock) used to diff each update is existential; C37 says what the diff is.
- **C39 One bad record cannot suppress other records** (proved; Props_Manager.v). Model: Manager.v. Transition system of publishers, serve, sendRecords and listenFlushes; invariants with ghost histories over all label sequences.
  Theorems: `C39_refuted`, `C39_in_order`, `C39_encodable`. C39_refuted: the claim as first stated is false of the code. C39_in_order/C39_encodable: exact account of what is sent.
- **C40 A flush publishes every record of every store** (proved; Props_Manager.v). Model: Manager.v. Transition system of publishers, serve, sendRecords and listenFlushes; invariants with ghost histories over all label sequences.
  Theorems: `C40_complete`.
- **C41 A flush misses no record that stays in the store** (proved; Props_Manager.v). Model: Manager.v. Transition system of publishers, serve, sendRecords and listenFlushes; invariants with ghost histories over all label sequences.
  Theorems: `C41_refuted`, `C41_kept`. C41_refuted: the claim is false of the code. C41_kept: it holds when no smaller key is removed during the pass.
- **C42 No flush request is lost** (proved; Props_Manager.v). Model: Manager.v. Transition system of publishers, serve, sendRecords and listenFlushes; invariants with ghost histories over all label sequences.
  Theorems: `C42_pending`, `C42_served`. Safety part; C74_rests gives progress.
- **C43 Only flush requests cause flushes** (proved; Props_Manager.v). Model: Manager.v. Transition system of publishers, serve, sendRecords and listenFlushes; invariants with ghost histories over all label sequences.
  Theorems: `C43_refuted`, `C43_bounded`. C43_refuted: the claim is false of the code. C43_bounded: passes are bounded by messages plus receive errors.
- **C44 Keepalives: beacon first, then both kinds at their pace** (proved; Props_Keepalive.v). Model: Keepalive.v. Timed transition system; invariants over all timed runs; for progress, explicit continuations from every reachable state.
  Theorems: `C44_beacon_first`, `C44_contents`, `C44_pace`, `C44_defaults`, `C44_configured`, `C44_goes_on`.
- **C45 Cancelling the context stops the keepalive loop** (proved; Props_Keepalive.v). Model: Keepalive.v. Timed transition system; invariants over all timed runs; for progress, explicit continuations from every reachable state.
  Theorems: `C45_refuted`, `C45_spins_refuted`, `C45_stops`. C45_refuted/C45_spins_refuted: false before the first beacon was delivered. C45_stops: true afterwards.
- **C46 Sends are bounded by the delivery timeout** (proved; Props_Keepalive.v). Model: Keepalive.v. Timed transition system; invariants over all timed runs; for progress, explicit continuations from every reachable state.
  Theorems: `C46_refuted`, `C46_never_seen`. C46_refuted: false of the code for every configuration and time; C46_never_seen: consequence for the heartbeat allowance.
- **C47 A collector converges to the published state** (proved; Props_Converge.v). Model: Diff.v, Dispatch.v. Induction over chains of updates.
  Theorems: `C47_converges`, `C47_exact`, `C47_deliverable`.
- **C48 Handlers see every accepted, decodable message once and in order** (proved; Props_Client.v). Model: Client.v. Transition system of listeners, the lock, the wait group, Close and FlushOnFirstMessage.
  Theorems: `C48_delivery`, `C48_addresses`, `C48_goes_on`.
- **C49 No handler runs after Close returned** (proved; Props_Client.v). Model: Client.v. Transition system of listeners, the lock, the wait group, Close and FlushOnFirstMessage.
  Theorems: `C49_silent`.
- **C50 Close always returns** (proved; Props_Client.v). Model: Client.v. Transition system of listeners, the lock, the wait group, Close and FlushOnFirstMessage.
  Theorems: `C50_deadlock`, `C50_refuted`, `C50_returns`. C50_refuted: false of the code. C50_deadlock: exactly when it cannot return; C50_returns: it returns otherwise, once receivers fail with the context's error.
- **C51 Close can be called again** (proved; Props_Client.v). Model: Client.v. Transition system of listeners, the lock, the wait group, Close and FlushOnFirstMessage.
  Theorems: `C51_second_close_panics`, `C51_first_close`, `C51_refuted`. C51_refuted/C51_second_close_panics: false of the code for every client. C51_first_close: the first call does not panic.
- **C52 Flush-on-first-message sends one flush, after a message** (proved; Props_Client.v). Model: Client.v. Transition system of listeners, the lock, the wait group, Close and FlushOnFirstMessage.
  Theorems: `C52_at_most_one`, `C52_after_message`, `C52_cancelled`, `C52_flushes`, `C52_returns`, `C52_harmless`.
- **C53 Discovery state is a map of known sources** (proved; Props_Discovery.v). Model: Discovery.v. Transition system with the lock, two bounded channels and the handler goroutine; invariants, deadlock as a set of states closed under steps.
  Theorems: `C53_map`, `C53_answers`. known/answers spell out a map of identities; one Run, users, handlers and watches interleave at lock granularity.
- **C54 Discovered and forgotten notifications balance** (proved; Props_Discovery.v). Model: Discovery.v. Transition system with the lock, two bounded channels and the handler goroutine; invariants, deadlock as a set of states closed under steps.
  Theorems: `C54_balance`, `C54_fifo`. C54_fifo: delivered ++ waiting = issued, per kind.
- **C55 Notifications for one source arrive in order** (proved; Props_Discovery.v). Model: Discovery.v. Transition system with the lock, two bounded channels and the handler goroutine; invariants, deadlock as a set of states closed under steps.
  Theorems: `C55_refuted`, `C55_in_order`. C55_refuted: the claim is false of the code. C55_in_order: it holds when no forgetting is taken while a discovery of the same source waits.
- **C56 Source details are stable and last-seen never moves back** (proved; Props_Discovery.v). Model: Discovery.v. Transition system with the lock, two bounded channels and the handler goroutine; invariants, deadlock as a set of states closed under steps.
  Theorems: `C56_details`, `C56_last_seen`, `C56_future_refuted`. C56_future_refuted: without the condition on added sources last-seen moves back.
- **C57 Discovery never deadlocks** (proved; Props_Discovery.v). Model: Discovery.v. Transition system with the lock, two bounded channels and the handler goroutine; invariants, deadlock as a set of states closed under steps.
  Theorems: `C57_forever`, `C57_refuted`, `C57_after_cancel_refuted`, `C57_progress`. C57_refuted/C57_after_cancel_refuted: false of the code. C57_forever: nothing resolves it. C57_progress: no deadlock when handlers do not call back and Run goes on.
- **C58 Malformed messages do not stop discovery** (proved; Props_Discovery.v). Model: Discovery.v. Transition system with the lock, two bounded channels and the handler goroutine; invariants, deadlock as a set of states closed under steps.
  Theorems: `C58_refuted`, `C58_only`, `C58_others`. C58_refuted: false of the code. C58_only/C58_others: exactly such messages stop it.
- **C59 A watch forgets a source only after a full timeout of silence** (proved; Props_Discovery.v). Model: Discovery.v. Timed invariants of watches.
  Theorems: `C59_silence`, `C59_timeout`, `C59_decides_first`, `C59_silent_forgets`, `C59_zero`, `C59_never_hangs`, `C59_ends`, `C59_updates`, `C59_resets`, `C59_forgets`, `C59_race_refuted`. C59_race_refuted: without the order of stores the claim fails. Time is one number per step; the decision, not the later lock acquisition of Forget, is what is timed.
- **C60 A watch only forgets the source it was created for** (proved; Props_Discovery.v). Model: Discovery.v. Timed invariants of watches.
  Theorems: `C60_own_identity`, `C60_calls`, `C60_known`, `C60_refuted`. C60_refuted: the claim is false of the code. C60_own_identity/C60_calls: what does hold.
- **C61 Stale link errors never tear down a newer session** (proved; Props_Session.v). Model: Session.v. Transition system of the container and its links; invariants over all label sequences.
  Theorems: `C61_generations`, `C61_ended_for_its_own_report`, `C61_older_reports_ignored`, `C61_closed_after_its_end`, `C61_new_after_end`, `C61_ended_for_its_own_error`, `C61_refuted`. C61_refuted: an error of the old session ends the new one when two goroutines share a link. The other theorems hold for every schedule, C61_ended_for_its_own_error for links used by one goroutine each, as in the packages of this repository.
- **C62 Links always use the newest session they know** (proved; Props_Session.v). Model: Session.v. Transition system of the container and its links; invariants over all label sequences.
  Theorems: `C62_on_its_session`, `C62_forward`, `C62_refuted`. C62_refuted: with two goroutines a link goes back to the old session. C62_on_its_session holds for every schedule.
- **C63 A link reports at most one error per session** (proved; Props_Session.v). Model: Session.v. Transition system of the container and its links; invariants over all label sequences.
  Theorems: `C63_once`, `C63_for_its_own_error`, `C63_refuted`. C63_refuted: two goroutines report one session twice.
- **C64 Closed links fail fast** (proved; Props_Session.v). Model: Session.v. Transition system of the container and its links; invariants over all label sequences.
  Theorems: `C64_refused`, `C64_fail_fast`, `C64_next_needs_context`, `C64_refuted`. C64_refuted: Next on a closed link looks again for ever (each look leads to the same state).
- **C65 Closing a link while it is in use is safe** (proved; Props_Session.v). Model: Session.v. Transition system of the container and its links; invariants over all label sequences.
  Theorems: `C65_refuted`, `C65_revived_refuted`, `C65_alone`. C65_refuted/C65_revived_refuted: false of the code. C65_alone: what holds when Close is not concurrent with other calls.
- **C66 Requested receiver credit is used** (proved; Props_Session.v). Model: Session.v. Transition system of the container and its links; invariants over all label sequences.
  Theorems: `C66_exact`, `C66_refuted`. C66_refuted: every positive credit is replaced by zero. C66_exact: the values that are used as asked for.
- **C67 Link operations end when their context ends** (proved; Props_Session.v). Model: Session.v. Transition system of the container and its links; invariants over all label sequences.
  Theorems: `C67_refuted`, `C67_bounded`, `C67_ends_or_blocked`. C67_refuted: a call whose context ended never returns. C67_bounded/C67_ends_or_blocked: only the three named blockages can delay it.
- **C68 Mock router delivers to every subscriber in order** (proved; Props_Mock.v). Model: Mock.v. Transition system; invariants with ghost histories.
  Theorems: `C68_fifo`, `C68_available`, `C68_handed_over`, `C68_reaches_all`, `C68_failed`, `C68_same_order`, `C68_waits`, `C68_wakes`, `C68_progress`, `C68_after_close`, `C68_closed_sender`, `C68_next_error`.
- **C69 A successful mock send reached someone** (proved; Props_Mock.v). Model: Mock.v. Transition system; invariants with ghost histories.
  Theorems: `C69_refuted`, `C69_reached`. C69_refuted: false of the code. C69_reached: what success does mean.
- **C70 Collected records can be looked up by type and identity** (proved; Props_Tool.v). Model: Tool.v. Functional model of the collector store and of fixture data.
  Theorems: `C70_refuted`, `C70_untyped`, `C70_collision_refuted`, `C70_by_type`. C70_refuted, C70_collision_refuted: the unrestricted claim is false of the code, as the statement says. C70_untyped, C70_by_type: what holds for all runs.
- **C71 Fixture data is grouped by source without loss** (proved; Props_Tool.v). Model: Tool.v. Functional model of the collector store and of fixture data.
  Theorems: `C71_groups`, `C71_unique`, `C71_lookup`, `C71_stores`.
- **C72 Flow replay survives unpaired flows** (proved; Props_Tool.v). Model: Tool.v. Functional model of the collector store and of fixture data.
  Theorems: `C72_refuted`, `C72_resolved`. C72_refuted: the unrestricted claim is false of the code, as the statement says. C72_resolved: what holds for all runs.
- **C73 Callers can keep using the values they stored** (proved; Props_Alias.v). Model: Alias.v, spec in SpecAlias.v. Store with annotation maps as heap references; commutation with Cache.v.
  Theorems: `C73_refuted`, `C73_write_shows`, `C73_index_is_frozen`, `C73_deleted_entry_stays_indexed`, `C73_harmless_writes`, `C73_unshared_maps`, `C73_same_site`. C73_refuted: the unrestricted claim is false of the code, as the statement says. C73_write_shows, C73_index_is_frozen, C73_deleted_entry_stays_indexed, C73_harmless_writes, C73_unshared_maps, C73_same_site: what holds for all runs.
- **C74 The manager never gets stuck and never loops** (proved; Props_Manager.v). Model: Manager.v. A measure that every internal step decreases, and a progress argument.
  Theorems: `C74_rests`, `C74_no_crash`.
- **C75 Session error handlers may use the container** (proved; Props_Session.v). Model: Session.v. As C61-C67.
  Theorems: `C75_stuck`, `C75_otherwise`. C75_stuck: the claim is false of the code; once a handler calls the container nothing happens any more, whatever the schedule. C75_otherwise: what holds if none does.
- **C76 Connections are closed** (proved; Props_Session.v). Model: Session.v. As C61-C67.
  Theorems: `C76_stopped`, `C76_running`, `C76_refuted`. C76_refuted: false of the code. C76_stopped counts exactly what stays open.
- **C77 Waiting links are woken by a new session** (proved; Props_Session.v). Model: Session.v. As C61-C67.
  Theorems: `C77_woken`.
- **C78 Reconnect pacing resets only on success** (proved; Props_Session.v, Props_SessionLive.v). Model: Session.v. As C61-C67.
  Theorems: `C78_reset`, `C78_paced`.
- **C79 Slow receivers do not block mock senders for ever** (proved; Props_Mock.v). Model: Mock.v. A set of states closed under steps.
  Theorems: `C79_blocked`, `C79_full_iff`, `C79_refuted`. C79_refuted: false of the code. C79_blocked: exactly how far the blockage reaches.
- **C80 Every source of a fixture gets its manager** (proved; Props_Tool.v). Model: Tool.v. Functional model of fixtures and of flow replay.
  Theorems: `C80_refuted`, `C80_distinct`, `C80_named`. C80_refuted: the unrestricted claim is false of the code, as the statement says. C80_distinct, C80_named: what holds for all runs.
- **C81 Replayed flows have a complete and consistent life** (proved; Props_Tool.v). Model: Tool.v. Functional model of fixtures and of flow replay.
  Theorems: `C81_life`, `C81_first`, `C81_count`, `C81_octets`, `C81_octets_refuted`. C81_octets_refuted: the unrestricted claim is false of the code, as the statement says. C81_life, C81_first, C81_count, C81_octets: what holds for all runs.
- **C82 A replay request cannot crash the server by its numbers** (proved; Props_Tool.v). Model: Tool.v. Functional model of fixtures and of flow replay.
  Theorems: `C82_refuted`, `C82_no_flows`. C82_refuted: the unrestricted claim is false of the code, as the statement says. C82_no_flows: what holds for all runs.
- **C83 The connection is secured as asked** (proved; Props_Connect.v). Model: Connect.v. Case analysis over flags and files.
  Theorems: `C83_flags_obeyed`, `C83_config_obeyed`, `C83_external_iff_tls`, `C83_refuted_flags_ignored`, `C83_refuted_config_without_ca`, `C83_refuted_missing_files`. C83_refuted_flags_ignored, C83_refuted_config_without_ca, C83_refuted_missing_files: the unrestricted claim is false of the code, as the statement says. C83_flags_obeyed, C83_config_obeyed, C83_external_iff_tls: what holds for all runs.
- **C84 The tool talks to the server it is told to and starts only if it can** (proved; Props_Connect.v). Model: Connect.v. Case analysis over flags and files.
  Theorems: `C84_server`, `C84_starts_iff`.
- **C85 A container keeps trying to reconnect** (proved; Props_Backoff.v). Model: Backoff.v. Arithmetic over histories of strategy calls.
  Theorems: `C85_gives_up_iff`, `C85_default_never_gives_up`, `C85_pauses`, `C85_waits`, `C85_refuted_quiet_minute`. C85_refuted_quiet_minute: the unrestricted claim is false of the code, as the statement says. C85_gives_up_iff, C85_default_never_gives_up, C85_pauses, C85_waits: what holds for all runs.
- **C86 Containers do not disturb each other's pacing** (proved; Props_Backoff.v). Model: Backoff.v. Arithmetic over histories of strategy calls.
  Theorems: `C86_own_strategy`, `C86_first_failure`, `C86_refuted_storm`, `C86_refuted_kept_alive`. C86_refuted_storm, C86_refuted_kept_alive: the unrestricted claim is false of the code, as the statement says. C86_own_strategy, C86_first_failure: what holds for all runs.
- **C87 The capture tool removes what it created** (proved; Props_Vancap.v). Model: Vancap.v. Case analysis over all answers of the outside.
  Theorems: `C87_cleans_up`, `C87_crashes_iff`, `C87_readiness_ignored`.
- **C88 A successful capture is complete** (proved; Props_Vancap.v). Model: Vancap.v. Case analysis over all answers of the outside.
  Theorems: `C88_success`, `C88_refuted_status`, `C88_failure`, `C88_refuted_failure_keeps_file`. C88_refuted_status, C88_refuted_failure_keeps_file: the unrestricted claim is false of the code, as the statement says. C88_success, C88_failure: what holds for all runs.
- **C89 The capture tool connects to the cluster's API server** (proved; Props_Vancap.v). Model: Vancap.v. Case analysis over all answers of the outside.
  Theorems: `C89_host`, `C89_refuted_prefix_lost`. C89_refuted_prefix_lost: the unrestricted claim is false of the code, as the statement says. C89_host: what holds for all runs.
- **C90 One fixture at a time** (proved; Props_Fixture.v). Model: Fixture.v, spec in SpecFixture.v. Transition system of the server loop, requests, managers and replays.
  Theorems: `C90_one_at_a_time`, `C90_in_effect`, `C90_running`.
- **C91 Connections of a replaced fixture are released** (proved; Props_Fixture.v). Model: Fixture.v, spec in SpecFixture.v. Transition system of the server loop, requests, managers and replays.
  Theorems: `C91_refuted`, `C91_in_use`. C91_refuted: the unrestricted claim is false of the code, as the statement says. C91_in_use: what holds for all runs.
- **C92 A new fixture is taken up and its request answered** (proved; Props_Fixture.v). Model: Fixture.v, spec in SpecFixture.v. Transition system of the server loop, requests, managers and replays.
  Theorems: `C92_answered_in_turn`, `C92_status`, `C92_progress`, `C92_taken`, `C92_refuted_after_stop`. C92_refuted_after_stop: the unrestricted claim is false of the code, as the statement says. C92_answered_in_turn, C92_status, C92_progress, C92_taken: what holds for all runs.
- **C93 A replay ends** (proved; Props_Fixture.v). Model: Fixture.v, spec in SpecFixture.v. Transition system of the server loop, requests, managers and replays.
  Theorems: `C93_ends`, `C93_refuted_blocked`, `C93_refuted_reachable`. C93_refuted_blocked, C93_refuted_reachable: the unrestricted claim is false of the code, as the statement says. C93_ends: what holds for all runs.
- **C94 A slow client of the fixture server does not affect others** (proved; Props_Fixture.v). Model: Fixture.v, spec in SpecFixture.v. Transition system of the server loop, requests, managers and replays.
  Theorems: `C94_refuted`, `C94_served`. C94_refuted: the unrestricted claim is false of the code, as the statement says. C94_served: what holds for all runs.
- **C95 The site index groups entries by site** (proved; Props_Site.v). Model: Cache.v. Instance of C20 with the site index; string lemmas.
  Theorems: `C95_site_index_exact`, `C95_refuted_no_site`, `C95_sites_listed`. C95_refuted_no_site: the unrestricted claim is false of the code, as the statement says. C95_site_index_exact, C95_sites_listed: what holds for all runs.
- **C96 What is published arrives at every collector** (proved; Props_EndToEnd.v). Model: EndToEnd.v. Composition of the manager's runs with the wire format and the collector's store; invariant that relates the collector's copy to what is stored, queued and sent.
  Theorems: `C96_after_flush`, `C96_from_start`, `C96_refuted_behind`. C96_refuted_behind: the unrestricted claim is false of the code, as the statement says. C96_after_flush, C96_from_start: what holds for all runs.
- **C97 A failed session is replaced and links go on** (proved; Props_SessionLive.v). Model: Session.v. Explicit continuations from every reachable state (SessionLive.v).
  Theorems: `C97_heals`, `C97_next_resumes`, `C97_send_resumes`, `C97_accept_refuted`. C97_accept_refuted: the unrestricted claim is false of the code, as the statement says. C97_heals, C97_next_resumes, C97_send_resumes: what holds for all runs.
- **C98 The collector watches and lists exactly the sources it knows** (proved; Props_Collector.v). Model: Collector.v over Discovery.v. Counting invariant over watches and notifications; a set of states closed under steps, and a measure decreased by the handler otherwise.
  Theorems: `C98_watched`, `C98_listed`, `C98_details`, `C98_in_order`, `C98_settled`, `C98_missing_refuted`. C98_missing_refuted: the unrestricted claim is false of the code, as the statement says. C98_watched, C98_listed, C98_details, C98_in_order, C98_settled: what holds for all runs.
- **C99 The collector keeps going** (proved; Props_Collector.v). Model: Collector.v over Discovery.v. Counting invariant over watches and notifications; a set of states closed under steps, and a measure decreased by the handler otherwise.
  Theorems: `C99_stuck_refuted`, `C99_needs`, `C99_goes_on`. C99_stuck_refuted: the unrestricted claim is false of the code, as the statement says. C99_needs, C99_goes_on: what holds for all runs.
- **C100 The HTTP interface shows what was collected** (proved; Props_Http.v). Model: Http.v over Tool.v and Cache.v. Canonical paths and prefixes by induction on strings; routes by comparability of prefixes; lists by the exactness of List and Index, and a permutation of keys.
  Theorems: `C100_starts`, `C100_root`, `C100_type`, `C100_sources`, `C100_offered`, `C100_unknown`, `C100_moved`, `C100_moved_once`, `C100_partition`.
- **C101 A list is never blank** (proved; Props_Http.v). Model: Http.v over Tool.v and Cache.v. Canonical paths and prefixes by induction on strings; routes by comparability of prefixes; lists by the exactness of List and Index, and a permutation of keys.
  Theorems: `C101_root`, `C101_type`, `C101_refuted`. C101_refuted: the unrestricted claim is false of the code, as the statement says. C101_root, C101_type: what holds for all runs.
- **C102 What a link's methods return** (proved; Props_SessionLive.v). Model: Session.v. Invariant on where each call got its result from (SessionResults.v).
  Theorems: `C102_nil`, `C102_errors`, `C102_next`, `C102_returns`.
- **C103 Every discovered source is asked for its records** (proved; Props_FlushTool.v). Model: FlushTool.v. Invariant that relates the goroutine's position to the course of requests so far, and justifies each event by earlier ones; explicit continuations for progress.
  Theorems: `C103_course`, `C103_asks`, `C103_hears`, `C103_after_message`, `C103_after_wait`, `C103_wait`, `C103_again`, `C103_gives_up`, `C103_refuted`. C103_refuted: the unrestricted claim is false of the code, as the statement says. C103_course, C103_asks, C103_hears, C103_after_message, C103_after_wait, C103_wait, C103_again, C103_gives_up: what holds for all runs.
- **C104 The log command prints every selected message** (proved; Props_LogTool.v). Model: LogTool.v. Invariant that relates messages given, lines queued, in hand and dealt with; a measure for progress.
  Theorems: `C104_order`, `C104_printed`, `C104_skipped`, `C104_filter`, `C104_progress`, `C104_return`, `C104_lines`, `C104_refuted_stop`, `C104_refuted_year`, `C104_refuted_write`. C104_refuted_stop, C104_refuted_year, C104_refuted_write: the unrestricted claim is false of the code, as the statement says. C104_order, C104_printed, C104_skipped, C104_filter, C104_progress, C104_return, C104_lines: what holds for all runs.
- **C105 Connections of forgotten sources are released** (proved; Props_ToolConns.v). Model: ToolConns.v over Collector.v and Backoff.v. Invariant on which containers were started, gave up and returned; projection of runs to the pacing model; for the leak, a run for every n by induction on visits.
  Theorems: `C105_one_each`, `C105_lasts`, `C105_stays`, `C105_refuted`, `C105_all_end`. C105_refuted: the unrestricted claim is false of the code, as the statement says. C105_one_each, C105_lasts, C105_stays, C105_all_end: what holds for all runs.
- **C106 A failing connection does not stop the tool while it can recover** (proved; Props_ToolConns.v). Model: ToolConns.v over Collector.v and Backoff.v. Invariant on which containers were started, gave up and returned; projection of runs to the pacing model; for the leak, a run for every n by induction on visits.
  Theorems: `C106_exactly`, `C106_only`, `C106_survives`, `C106_refuted`. C106_refuted: the unrestricted claim is false of the code, as the statement says. C106_exactly, C106_only, C106_survives: what holds for all runs.
- **C107 A source whose connection is lost for good is connected again** (proved; Props_ToolRecovery.v). Model: ToolConns.v over Collector.v, Discovery.v and Backoff.v. Continuations built from those of the parts: the handler's measure, a watch's silence (WatchSilence.v), then the explicit steps of one discovery, lifted to the tool; for the converse an invariant on sources already connected (ToolRecovery.v).
  Theorems: `C107_recovers`, `C107_not_before`.
- **C108 The commands that serve HTTP end when told, and requests in progress get a second** (proved; Props_ServeExit.v). Model: ServeExit.v. An inductive invariant over all interleavings (the time it was told, the deadline, the flag of the server, the requests open and counted); explicit continuations for ending; a witness for the cancelled grace period (ServeExitFacts.v).
  Theorems: `C108_only_told`, `C108_told`, `C108_ends`, `C108_grace`, `C108_grace_refuted`, `C108_accounted`, `C108_unnoticed`. C108_grace_refuted: the unrestricted claim is false of the code, as the statement says. C108_only_told, C108_told, C108_ends, C108_grace, C108_accounted, C108_unnoticed: what holds for all runs.
- **C109 Receive loops hand on what was received and end only with their context** (proved; Props_Loops.v). Model: Loops.v over Session.v. An invariant that ties the loop's place, the state of its link and its running call to what was received and accepted, preserved by every step of the container and of other users (LoopsFacts.v); explicit continuations for going on, through every state a call can be in, using that the container mends itself (LoopsLive.v), and for returning once the context ended, by a rank of the running call (LoopsEnd.v); witnesses for the crash and for a loop that cannot return.
  Theorems: `C109_ends_only`, `C109_order`, `C109_received`, `C109_accepted`, `C109_same_session`, `C109_goes_on`, `C109_nil_only`, `C109_crash_only`, `C109_never_crashes_refuted`, `C109_closes`, `C109_can_end`, `C109_can_end_refuted`. C109_never_crashes_refuted, C109_can_end_refuted: the unrestricted claim is false of the code, as the statement says. C109_ends_only, C109_order, C109_received, C109_accepted, C109_same_session, C109_goes_on, C109_nil_only, C109_crash_only, C109_closes, C109_can_end: what holds for all runs.
- **C110 What a message handler may do with the client that called it** (proved; Props_ClientReentry.v). Model: ClientReentry.v over Client.v. Handlers as further users of the client, each with the call it is in; every run is a run of Client.v, so the theorems on clients carry over; while Close holds the lock and waits for a listener whose handler waits for the lock, nothing that needs the lock happens (an invariant); otherwise the steps that finish a call are exhibited, and Close is run to its end by induction on the rank of C50.
  Theorems: `C110_as_before`, `C110_may_call`, `C110_comes_back`, `C110_close_never`, `C110_hangs`, `C110_close_hangs`, `C110_close_returns`.
- **C111 Event handlers may use the store that called them** (proved; Props_StoreReentry.v). Model: StoreReentry.v over StoreConc.v. A handler's call as a further thread its caller waits for; every run is a run of StoreConc.v with more threads, so C32 and C33 carry over; an invariant on who waits for whom gives that some thread can step (StoreReentryFacts.v); each step brings one thread down a well-founded order, lifted to all threads; at any time only one of the writer and its handlers' calls can move and the others have no event left (StoreReentryOrder.v).
  Theorems: `C111_may_call`, `C111_as_before`, `C111_in_order`, `C111_no_deadlock`, `C111_ends`, `C111_all_return`, `C111_recursion`, `C111_one_writer`.
- **C112 Attributes of user-defined types** (proved; Props_UserCodec.v). Model: UserCodec.v over Encoding.v. A type is its pointers, its kind and the receivers of its two methods; the choice of codec and its effect are brought to a closed form by induction on the pointers (UserCodecFacts.v), lifted to records by induction on the fields; the user's methods are arbitrary functions; witnesses for the refuted beliefs; an embedding of the types of Encoding.v shows that the two models agree.
  Theorems: `C112_registers`, `C112_encode`, `C112_decode`, `C112_decode_panic`, `C112_refuses`, `C112_round_trip`, `C112_defined_not_received`, `C112_defined_not_plain`, `C112_value_receiver`, `C112_interface`, `C112_pointer_receiver_refuted`, `C112_pointer_receiver_remedy`, `C112_required_refuted`, `C112_required_unless_nil`, `C112_extends`. C112_pointer_receiver_refuted, C112_required_refuted: the unrestricted claim is false of the code, as the statement says. C112_registers, C112_encode, C112_decode, C112_decode_panic, C112_refuses, C112_round_trip, C112_defined_not_received, C112_defined_not_plain, C112_value_receiver, C112_interface, C112_pointer_receiver_remedy, C112_required_unless_nil, C112_extends: what holds for all runs.
- **C113 Watches and the clients they watch** (proved; Props_WatchClient.v). Model: WatchClient.v over Discovery.v and Client.v. The product of one discovery and any number of clients; a watch's handlers are handlers of its client, its Close a Close of its client. Every joint run projects to a run of either (WatchClientFacts.v), so what is proved of them carries over; an invariant ties the handlers in progress to the watches' pending times and closing watches to closing clients (WatchClientInv.v); the end by a measure on the client and the handlers in progress (WatchClientLive.v). Witnesses for the race, the hang and the crashes.
  Theorems: `C113_project`, `C113_registered`, `C113_calls`, `C113_activity`, `C113_stored`, `C113_can_store`, `C113_in_order`, `C113_silence`, `C113_end_after_close`, `C113_one_ends`, `C113_close_twice`, `C113_crashes`, `C113_user_close`, `C113_hangs`, `C113_can_end`, `C113_hangs_refuted`, `C113_crash_refuted`, `C113_race_refuted`. C113_hangs_refuted, C113_crash_refuted, C113_race_refuted: the unrestricted claim is false of the code, as the statement says. C113_project, C113_registered, C113_calls, C113_activity, C113_stored, C113_can_store, C113_in_order, C113_silence, C113_end_after_close, C113_one_ends, C113_close_twice, C113_crashes, C113_user_close, C113_hangs, C113_can_end: what holds for all runs.
- **C114 The collector with many sources** (proved; Props_Collect.v). Model: Collect.v over WatchClient.v, Dispatch.v and Tool.v. The product of the clients and watches with one store; a listener that runs a dispatcher is held until the records of its message are dispatched, one step each, so that dispatchers of several sources interleave. Runs project to WatchClient.v; the records dispatched are tied to messages by invariants (CollectFacts.v, CollectLive.v), what decodes is shown usable by the store, and the store is the result of the records that came, by induction over the run; entries by induction over those records. Witnesses for the refuted beliefs.
  Theorems: `C114_project`, `C114_routes`, `C114_routes_types`, `C114_order`, `C114_waits`, `C114_accepted`, `C114_merged`, `C114_nameless`, `C114_kept`, `C114_listed`, `C114_can_finish`, `C114_after_close`, `C114_source_refuted`, `C114_forgotten_refuted`. C114_source_refuted, C114_forgotten_refuted: the unrestricted claim is false of the code, as the statement says. C114_project, C114_routes, C114_routes_types, C114_order, C114_waits, C114_accepted, C114_merged, C114_nameless, C114_kept, C114_listed, C114_can_finish, C114_after_close: what holds for all runs.
- **C115 Records of many sources arrive at the tool** (proved; Props_Arrive.v). Model: Collect.v with Manager.v (EndToEnd.v, Arrive.v). What a manager sent ends, for each record, with its last version laid over the whole record (EndToEnd.v); decoding keeps contents; the collector dispatches just these records from that listener (C114), and the entry's attributes are the latest ones of what came, which are the same.
  Theorems: `C115_arrives`, `C115_served`.
- **C116 Using the record registry from many goroutines and from codecs** (proved; Props_RegistryConc.v). Model: RegistryConc.v over Encoding.v. A state machine of goroutines, each with its stack of calls, and a sync.RWMutex that lets waiting writers go first; what a call returns is a parameter that depends on the maps it looked at. Invariant: the mutex' counts agree with the stacks, and the maps a reader looked at are still the maps (RegistryConcFacts.v). Returns in order replay one after the other; termination by a measure; that a waiting codec waits for ever by induction over any continuation.
  Theorems: `C116_answers`, `C116_maps`, `C116_known`, `C116_nested`, `C116_stuck_only`, `C116_returns`, `C116_no_lock`, `C116_forever`, `C116_refuted`. C116_refuted: the unrestricted claim is false of the code, as the statement says. C116_answers, C116_maps, C116_known, C116_nested, C116_stuck_only, C116_returns, C116_no_lock, C116_forever: what holds for all runs.
- **C117 Programs with different record types exchange records** (proved; Props_Versions.v). Model: UserMessages.v over Encoding.v. messages.go for any registry and any types that implement Record. What Encode puts into a set (C06) against what Decode demands of it (C05), for two registries and two struct types (VersionsFacts.v); messages by induction on their records. The built-in registry's messages (Messages.v) are shown to be a special case.
  Theorems: `C117_accepts`, `C117_values`, `C117_compatible`, `C117_message`, `C117_encode`, `C117_typed_nil`, `C117_builtin`.
- **C118 Index functions that panic** (proved; Props_IndexPanic.v). Model: IndexPanic.v over SyncMap.v and Cache.v. The store once more with index functions that may panic at any of their calls; what was done until then stays. Per key: index entries agree with what is stored unless a call about that key panicked (invariant over histories of calls); the entries themselves change as in Cache.v. A witness shows the blank entry.
  Theorems: `C118_applied`, `C118_panics`, `C118_replace_panics`, `C118_again`, `C118_index`, `C118_lookup_panics`, `C118_values`, `C118_healed`, `C118_exact_refuted`. C118_exact_refuted: the unrestricted claim is false of the code, as the statement says. C118_applied, C118_panics, C118_replace_panics, C118_again, C118_index, C118_values, C118_healed: what holds for all runs.
- **C119 Index functions that call their store** (proved; Props_StoreLock.v). Model: StoreLock.v. The lock of the store as a machine with a stack of calls per goroutine: index functions may make any call at any moment they run. Invariant: the counts of the lock are those of the calls that hold it. A goroutine that waits in an index function stays there in every continuation, and while it does no writer is let in; otherwise a measure decreases with every step.
  Theorems: `C119_in_change`, `C119_change_in`, `C119_read_in`, `C119_stuck_only`, `C119_returns`, `C119_refuted_change`, `C119_refuted_read`. C119_refuted_change, C119_refuted_read: the unrestricted claim is false of the code, as the statement says. C119_in_change, C119_change_in, C119_read_in, C119_stuck_only, C119_returns: what holds for all runs.
- **C120 Starting a container again** (proved; Props_Restart.v). Model: Restart.v over Session.v. Any number of the container goroutines of Session.v over one set of container fields, with the links of Session.v. With one it is shown to be Session.v; invariants per goroutine and over all give the numbering, the closing and the reasons for ending; an invariant of states in which all links wait for another number than the newest gives the hangs.
  Theorems: `C120_once`, `C120_numbers`, `C120_closed`, `C120_ends`, `C120_new_link`, `C120_waits`, `C120_refuted_wait`, `C120_refuted_stale`, `C120_refuted_both`. C120_refuted_wait, C120_refuted_stale, C120_refuted_both: the unrestricted claim is false of the code, as the statement says. C120_once, C120_numbers, C120_closed, C120_ends, C120_new_link, C120_waits: what holds for all runs.
- **C121 Wire numbers of record fields** (proved; Props_Wire.v). Model: WireTable.v, WireFacts.v over Records.v. A table of type codes, names and fields that tools/gen_wire.py extracts from the source text is compared with the transcription in Records.v by computation. The rest follows from the general theorems on Encode and Decode, for all field values and attribute sets.
  Theorems: `C121_types`, `C121_fields`, `C121_sent`, `C121_received`, `C121_accepted`.
- **C122 Discovery run more than once** (proved; Props_DiscoveryRuns.v). Model: DiscoveryRuns.v, DiscoveryRunsFacts.v over Discovery.v. Each call of Run has its own place in Run, handler goroutine and context; the map, channels, lock and watches are shared. A step under a number is the step of Discovery.v with that call's own state, so the invariants of the map and the channels carry over to any number of calls. Progress is by a measure on what waits, permanence of a block by an invariant over runs without a new call.
  Theorems: `C122_single`, `C122_history`, `C122_told`, `C122_revives`, `C122_stuck`, `C122_ended`, `C122_late_refuted`, `C122_stuck_example`. C122_late_refuted: the unrestricted claim is false of the code, as the statement says. C122_single, C122_history, C122_told, C122_revives, C122_stuck, C122_ended, C122_stuck_example: what holds for all runs.
- **C123 Manager run more than once** (proved; Props_ManagerRuns.v). Model: ManagerRuns.v, ManagerRunsFacts.v, ManagerRunsFlush.v over Manager.v. Each call of Run has its own serve, listenFlushes, sendRecords and context; channels and stores are shared. A step of a call is the step of Manager.v with the call's own state. The invariant on updates is kept per call, with the updates the call took in place of those published; the one on messages is about the shared queue only. Flush requests are counted with those that calls have in hand, summed over the calls.
  Theorems: `C123_single`, `C123_updates`, `C123_sending`, `C123_waits`, `C123_resumes`, `C123_revives`, `C123_stopped`, `C123_order_refuted`, `C123_flushes`, `C123_flush_resumes`, `C123_flush_kept_refuted`. C123_order_refuted, C123_flush_kept_refuted: the unrestricted claim is false of the code, as the statement says. C123_single, C123_updates, C123_sending, C123_waits, C123_resumes, C123_revives, C123_stopped, C123_flushes, C123_flush_resumes: what holds for all runs.
- **C124 Flush over a store of another kind** (proved; Props_FlushAny.v). Model: FlushAny.v, FlushAnyFacts.v over Manager.v. The answer of List is a label, so the stores can do anything, at every call. A pass is characterised by an inductive specification of the questions and of the messages, proved by induction over the rest of the run; the invariants of Manager.v on updates and sending carry over because the answers change nothing else. The manager over the package's own stores is shown to be a case.
  Theorems: `C124_own`, `C124_pass`, `C124_limit`, `C124_updates`, `C124_sending`, `C124_failing`, `C124_only_asks`, `C124_returns_refuted`. C124_returns_refuted: the unrestricted claim is false of the code, as the statement says. C124_own, C124_pass, C124_limit, C124_updates, C124_sending, C124_failing, C124_only_asks: what holds for all runs.
- **C125 A source that goes on sending is not forgotten** (proved; Props_Live.v). Model: Live.v, LiveFacts.v over Keepalive.v and Discovery.v. A run of a source and a run of a collector on one clock, joined by an assumption on the network: each heartbeat is recorded by the watch within a delay. An invariant gives one heartbeat near every tick; the decision of a watch says that all activity is old (C59); the two contradict each other unless the source stopped or has not begun.
  Theorems: `C125_beats`, `C125_alive`, `C125_tool`, `C125_listens`, `C125_fixture`.
- **C126 A source that falls silent is forgotten** (proved; Props_Silent.v). Model: SilentFacts.v over Discovery.v. Runs in which the watch never has something to do for longer than P; the predicate carries along since when it has. An invariant says until when the watch can have unseen activity and by when its timer is due; it is kept by every step of the watch, of others and of the clock.
  Theorems: `C126_forgotten`, `C126_tool`, `C126_stopped`.
- **C127 Updates are not held back** (proved; Props_ServeTime.v). Model: ServeTime.v over Manager.v; ServeTimeFacts.v. Manager.v with a clock and the deadline of nextN's context; timed runs and runs of Manager.v are the same up to the clock. A ledger splits the published updates into handed on, in hand and in the channel; it bounds the deadline and since when the loop has something to do, for every update not handed on. Starvation by flushes: a run of any number of rounds, by induction.
  Theorems: `C127_in_time`, `C127_no_flushes`, `C127_unbounded_refuted`, `C127_same_runs`. C127_unbounded_refuted: the unrestricted claim is false of the code, as the statement says. C127_in_time, C127_no_flushes, C127_same_runs: what holds for all runs.
- **C128 Flush requests are answered in time** (proved; Props_ServeTime.v). Model: ServeFlushFacts.v. The steps of the loop are classified by how they change its place, the number of updates in the channel and of flush requests queued. For every request that no pass followed an invariant bounds the deadline and since when the loop has something to do; updates published since, less those in the channel, count the buffers that can come first.
  Theorems: `C128_answered`, `C128_unbounded_refuted`. C128_unbounded_refuted: the unrestricted claim is false of the code, as the statement says. C128_answered: what holds for all runs.
- **C129 Flush requests are served together** (proved; Props_ServeTime.v). Model: ServeFlushFacts.v. An invariant on the last pass: what is queued and drained is at most eight more than the requests since, and the deadline of the drain is a delay after it.
  Theorems: `C129_apart`.
