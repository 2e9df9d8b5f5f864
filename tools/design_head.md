# Formal model of c-kruse/vanflow in Rocq

Generated by `tools/gen_design.py` from `tools/design_head.md`,
`properties.jsonl` and `MANIFEST.json`.

## Approach

The Go code is modelled function by function as total Gallina definitions in
`rocq/theories/`.  Panics and errors are values.  Concurrent code is modelled as
a step function `step : state -> label -> option (state * list event)`: a label
is the next step of one goroutine, a call by a user, or something the outside
does (a network result, a tick of the clock, a value taken from a map in some
order).  `Run.v` defines runs; theorems quantify over every label sequence.
What the Go runtime and libraries may choose freely (clock, map iteration order,
the result of `sort.Slice`, network answers, randomness) is an argument or a
label with an explicit contract (`Env.v`), never an axiom.

- Model files hold definitions only; each cites file and lines in /repo and says
  where it simplifies.
- `Spec*.v`, and the section "Specification" at the top of some files, hold the
  vocabulary of the statements, written independently of the model's helpers.
- `*Facts.v`, `*Live.v`, `*Lemmas.v`, `*Progress.v` and the like hold proofs.
- `Props_*.v` hold the property theorems `Cnn_...`, for each property an
  `Example Cnn_example` that meets the hypotheses of its theorems in a
  non-trivial case, and `Print Assumptions`.

Where the code violates the property a user would expect, there is a theorem
`..._refuted...` with a concrete run or value, next to theorems that say exactly
what does hold (the condition under which the property holds, or how far the
violation reaches).  `properties.jsonl` says "(Violated: ...)" there.

## Trusted base

- The kernel of Coq 8.16.1, including the virtual machine used by `vm_compute`
  in examples and witnesses (re-checked by conversion by `coqchk`).
- Axioms: none.  `Print Assumptions` reports "Closed under the global context"
  for every property theorem.  (`coqchk` over the whole context
  lists seven constants of `Coq.ssr.ssrunder`, a module of the standard
  library that std++ loads; no theorem depends on them.)
- The definitions of the standard library and std++ (finite maps, lists,
  permutations) used in statements.
- The reading of the Go code, and of the libraries it calls, recorded in the
  model files: language semantics (channels, select, mutexes, defer, maps,
  integer conversion), reflect, time (Go 1.21 timers), context, sort, strings,
  encoding/base64, encoding/binary, encoding/json as a parameter, go-amqp,
  cenkalti/backoff v4.2.1, client-go.

## What is modelled

| Part of the code | Model | Left out or simplified |
|---|---|---|
| encoding/*.go, base.go (Time) | Encoding.v; UserCodec.v; RegistryConc.v (the mutex) | defined types over strings and numbers, and types with methods of their own, are in UserCodec.v only (records there are flat lists of tagged fields; attributes of an interface type hold an opaque value); in RegistryConc.v what Encode and Decode return depends only on the record and the maps |
| records.go, base.go | Records.v; WireTable.v (the same from the source text) | nothing: fifteen types transcribed |
| messages.go | Messages.v; UserMessages.v (any registry, types of the user, typed nil pointers) | AMQP properties reduced to the three fields the code touches |
| store/internal | SyncMap.v | the mutex (see StoreConc.v) |
| store/store.go, patcher.go, cache.go | Cache.v | handlers only observe; index functions are total; versions do not overflow int64; a key function that panics inside a sort gives "" |
| store/etag.go, continue.go | Tokens.v | nothing |
| store under concurrent calls | StoreConc.v; StoreReentry.v; StoreLock.v | in StoreConc.v and StoreReentry.v RWMutex is an abstract readers/writer lock without preference for waiting writers; in StoreLock.v it has it; handlers that call the store are in StoreReentry.v only, and call it one call after the other on the goroutine they are called on; index functions that call it are in StoreLock.v only, which leaves out what calls return |
| store whose index functions panic | IndexPanic.v | one call at a time; the deferred unlocks are assumed to run |
| annotation maps shared with callers | Alias.v | records as values |
| store/dispatch.go | Dispatch.v | nothing; maps are heap objects |
| eventsource/manager.go: diffRecord | Diff.v | |
| eventsource/manager.go: Run, PublishUpdate, serve, sendRecords, listenFlushes | Manager.v; ManagerRuns.v (any number of calls of Run); FlushAny.v (stores of any kind); ServeTime.v (with a clock) | one choice of map order and clock per batch; taking a message and sending it is one step; Manager.v has the package's own stores, FlushAny.v any that leave the selector alone; in ServeTime.v steps take no time, time passes between them |
| the loops of client.go (Listen), manager.go (listenFlushes), discovery.go (Run) over a container | Loops.v | one loop and its own link, anybody else on the same container; what happens to a message that was handed on is in Client.v, Manager.v and Discovery.v |
| eventsource/manager.go: sendKeepalives, sendWithTimeout | Keepalive.v | tickers are not stopped |
| eventsource/client.go, flush.go | Client.v; ClientReentry.v; WatchClient.v (with watches) | nil handlers; handlers that call the client are in ClientReentry.v only, and call it on the goroutine they are called on |
| eventsource/discovery.go, source.go | Discovery.v | one call of Run (several in DiscoveryRuns.v); one clock; a late ticker may tick once for each missed tick; watches are joined to the clients they watch in WatchClient.v |
| session/container.go, factory.go | Session.v; Restart.v (any number of calls of Start) | one call of Start in Session.v and what is built on it; AMQP library answers arbitrarily; error texts |
| session/mock.go | Mock.v | messages as numbers; Next as one step; Start, OnSessionError and Accept do nothing |
| reconnect pacing | Backoff.v | a container is reduced to its calls of the strategy; randomness is a label |
| cmd/vanflow-tool/main.go | Connect.v | flag parsing, the TLS handshake |
| cmd/vanflow-tool/serve.go, api.go | Tool.v (store), Collector.v (discovery and list of sources), Http.v (routes, answers), FlushTool.v (asking for records, also in log.go), ToolConns.v (connections, which errors stop it), ServeExit.v (how it ends), Collect.v (clients, watches, dispatchers and the store together) | logging; the rest of HTTP (methods are ignored by the code, hosts, CONNECT) |
| cmd/vanflow-tool/log.go | LogTool.v | logging; the text of a line beyond the fields it carries; listeners as in Client.v |
| cmd/vanflow-tool/fixture.go | Tool.v (data), Fixture.v (server), ServeExit.v (how it ends) | JSON parsing is a parameter; unparsable requests; the pauses between updates; managers only take updates while their context lasts; the mutex' critical sections are one step except in /flows |
| vancap/main.go | Vancap.v | logging, the contents of the deployment; answers of Kubernetes, network and file system are arguments |
| sources and the collecting tool: addresses used and listened on, intervals and timeouts | Live.v | with Keepalive.v and Discovery.v; what lies between them is described by arrival times within a bound |
| publisher to collector | EndToEnd.v; Arrive.v | composition of Manager.v, Messages.v, Dispatch.v, Cache.v; and of that with Collect.v |

Not modelled: the demo programs' text output, logging, metrics, Dockerfiles and
manifests; memory and data races below the granularity of the steps described in
the model files.

## Testing the theorems

`seeded/LOG.jsonl` lists wrong programs: an edit of a model definition the way a
realistic bug would change the code, the claim it breaks, the theorems that
failed to build, and the theorems that were added or tightened because of it.

## Per property

