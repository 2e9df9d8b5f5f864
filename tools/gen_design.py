#!/usr/bin/env python3
"""Writes /verif/DESIGN.md."""
import json, re, glob
M = {c["property"]: c for c in json.load(open("/verif/MANIFEST.json"))["claims"]}
where = {}
for fn in sorted(glob.glob("/verif/rocq/theories/Props_*.v")):
    for m in re.finditer(r"^(?:Theorem|Corollary) ((C\d+)_\w+)", open(fn).read(), re.M):
        where.setdefault(m.group(2), set()).add(fn.split("/")[-1])
# (first, last, model, how)
G = [
 (1, 6, "Encoding.v, spec in SpecEncoding.v", "Struct types as a mutual inductive description, values as trees; mutual induction on the description. The specification is a recursion on the description that never mentions field tables or index paths."),
 (7, 8, "Encoding.v", "Registry as two finite maps; induction over registration sequences; acceptance as an independent predicate on descriptions."),
 (9, 9, "Records.v", "Finite facts about the fifteen types by computation; the value-quantified part as instances of C01 and C03."),
 (10, 10, "Encoding.v, GoBase.v", "Times as seconds and nanoseconds with explicit wrap-around; arithmetic."),
 (11, 14, "Messages.v, spec in SpecMessages.v", "Case analysis and list induction over a model of the AMQP message."),
 (15, 31, "SyncMap.v, Cache.v, Tokens.v, spec in SpecStore.v and SpecTokens.v", "Invariant that the indexes are exact; refinement of every operation to an index-free map for every environment; histories by induction."),
 (32, 33, "StoreConc.v", "Small steps under a readers/writer lock; simulation by the sequential store over all schedules."),
 (34, 34, "Cache.v", "String lemmas; a witness."),
 (35, 36, "Dispatch.v", "Induction over registrations and messages, with maps as heap objects."),
 (37, 37, "Diff.v", "Over the concrete codec, for all records and environments."),
 (38, 43, "Manager.v", "Transition system of publishers, serve, sendRecords and listenFlushes; invariants with ghost histories over all label sequences."),
 (44, 46, "Keepalive.v", "Timed transition system; invariants over all timed runs; for progress, explicit continuations from every reachable state."),
 (47, 47, "Diff.v, Dispatch.v", "Induction over chains of updates."),
 (48, 52, "Client.v", "Transition system of listeners, the lock, the wait group, Close and FlushOnFirstMessage."),
 (53, 58, "Discovery.v", "Transition system with the lock, two bounded channels and the handler goroutine; invariants, deadlock as a set of states closed under steps."),
 (59, 60, "Discovery.v", "Timed invariants of watches."),
 (61, 67, "Session.v", "Transition system of the container and its links; invariants over all label sequences."),
 (68, 69, "Mock.v", "Transition system; invariants with ghost histories."),
 (70, 72, "Tool.v", "Functional model of the collector store and of fixture data."),
 (73, 73, "Alias.v, spec in SpecAlias.v", "Store with annotation maps as heap references; commutation with Cache.v."),
 (74, 74, "Manager.v", "A measure that every internal step decreases, and a progress argument."),
 (75, 78, "Session.v", "As C61-C67."),
 (79, 79, "Mock.v", "A set of states closed under steps."),
 (80, 82, "Tool.v", "Functional model of fixtures and of flow replay."),
 (83, 84, "Connect.v", "Case analysis over flags and files."),
 (85, 86, "Backoff.v", "Arithmetic over histories of strategy calls."),
 (87, 89, "Vancap.v", "Case analysis over all answers of the outside."),
 (90, 94, "Fixture.v, spec in SpecFixture.v", "Transition system of the server loop, requests, managers and replays."),
 (95, 95, "Cache.v", "Instance of C20 with the site index; string lemmas."),
 (96, 96, "EndToEnd.v", "Composition of the manager's runs with the wire format and the collector's store; invariant that relates the collector's copy to what is stored, queued and sent."),
 (97, 97, "Session.v", "Explicit continuations from every reachable state (SessionLive.v)."),
 (98, 99, "Collector.v over Discovery.v", "Counting invariant over watches and notifications; a set of states closed under steps, and a measure decreased by the handler otherwise."),
 (100, 101, "Http.v over Tool.v and Cache.v", "Canonical paths and prefixes by induction on strings; routes by comparability of prefixes; lists by the exactness of List and Index, and a permutation of keys."),
 (102, 102, "Session.v", "Invariant on where each call got its result from (SessionResults.v)."),
 (103, 103, "FlushTool.v", "Invariant that relates the goroutine's position to the course of requests so far, and justifies each event by earlier ones; explicit continuations for progress."),
 (104, 104, "LogTool.v", "Invariant that relates messages given, lines queued, in hand and dealt with; a measure for progress."),
 (105, 106, "ToolConns.v over Collector.v and Backoff.v", "Invariant on which containers were started, gave up and returned; projection of runs to the pacing model; for the leak, a run for every n by induction on visits."),
 (107, 107, "ToolConns.v over Collector.v, Discovery.v and Backoff.v", "Continuations built from those of the parts: the handler's measure, a watch's silence (WatchSilence.v), then the explicit steps of one discovery, lifted to the tool; for the converse an invariant on sources already connected (ToolRecovery.v)."),
 (108, 108, "ServeExit.v", "An inductive invariant over all interleavings (the time it was told, the deadline, the flag of the server, the requests open and counted); explicit continuations for ending; a witness for the cancelled grace period (ServeExitFacts.v)."),
 (109, 109, "Loops.v over Session.v", "An invariant that ties the loop's place, the state of its link and its running call to what was received and accepted, preserved by every step of the container and of other users (LoopsFacts.v); explicit continuations for going on, through every state a call can be in, using that the container mends itself (LoopsLive.v), and for returning once the context ended, by a rank of the running call (LoopsEnd.v); witnesses for the crash and for a loop that cannot return."),
 (110, 110, "ClientReentry.v over Client.v", "Handlers as further users of the client, each with the call it is in; every run is a run of Client.v, so the theorems on clients carry over; while Close holds the lock and waits for a listener whose handler waits for the lock, nothing that needs the lock happens (an invariant); otherwise the steps that finish a call are exhibited, and Close is run to its end by induction on the rank of C50."),
 (111, 111, "StoreReentry.v over StoreConc.v", "A handler's call as a further thread its caller waits for; every run is a run of StoreConc.v with more threads, so C32 and C33 carry over; an invariant on who waits for whom gives that some thread can step (StoreReentryFacts.v); each step brings one thread down a well-founded order, lifted to all threads; at any time only one of the writer and its handlers' calls can move and the others have no event left (StoreReentryOrder.v)."),
 (112, 112, "UserCodec.v over Encoding.v", "A type is its pointers, its kind and the receivers of its two methods; the choice of codec and its effect are brought to a closed form by induction on the pointers (UserCodecFacts.v), lifted to records by induction on the fields; the user's methods are arbitrary functions; witnesses for the refuted beliefs; an embedding of the types of Encoding.v shows that the two models agree."),
 (113, 113, "WatchClient.v over Discovery.v and Client.v", "The product of one discovery and any number of clients; a watch's handlers are handlers of its client, its Close a Close of its client. Every joint run projects to a run of either (WatchClientFacts.v), so what is proved of them carries over; an invariant ties the handlers in progress to the watches' pending times and closing watches to closing clients (WatchClientInv.v); the end by a measure on the client and the handlers in progress (WatchClientLive.v). Witnesses for the race, the hang and the crashes."),
 (114, 114, "Collect.v over WatchClient.v, Dispatch.v and Tool.v", "The product of the clients and watches with one store; a listener that runs a dispatcher is held until the records of its message are dispatched, one step each, so that dispatchers of several sources interleave. Runs project to WatchClient.v; the records dispatched are tied to messages by invariants (CollectFacts.v, CollectLive.v), what decodes is shown usable by the store, and the store is the result of the records that came, by induction over the run; entries by induction over those records. Witnesses for the refuted beliefs."),
 (115, 115, "Collect.v with Manager.v (EndToEnd.v, Arrive.v)", "What a manager sent ends, for each record, with its last version laid over the whole record (EndToEnd.v); decoding keeps contents; the collector dispatches just these records from that listener (C114), and the entry's attributes are the latest ones of what came, which are the same."),
 (116, 116, "RegistryConc.v over Encoding.v", "A state machine of goroutines, each with its stack of calls, and a sync.RWMutex that lets waiting writers go first; what a call returns is a parameter that depends on the maps it looked at. Invariant: the mutex' counts agree with the stacks, and the maps a reader looked at are still the maps (RegistryConcFacts.v). Returns in order replay one after the other; termination by a measure; that a waiting codec waits for ever by induction over any continuation."),
 (117, 117, "UserMessages.v over Encoding.v", "messages.go for any registry and any types that implement Record. What Encode puts into a set (C06) against what Decode demands of it (C05), for two registries and two struct types (VersionsFacts.v); messages by induction on their records. The built-in registry's messages (Messages.v) are shown to be a special case."),
 (118, 118, "IndexPanic.v over SyncMap.v and Cache.v", "The store once more with index functions that may panic at any of their calls; what was done until then stays. Per key: index entries agree with what is stored unless a call about that key panicked (invariant over histories of calls); the entries themselves change as in Cache.v. A witness shows the blank entry."),
 (119, 119, "StoreLock.v", "The lock of the store as a machine with a stack of calls per goroutine: index functions may make any call at any moment they run. Invariant: the counts of the lock are those of the calls that hold it. A goroutine that waits in an index function stays there in every continuation, and while it does no writer is let in; otherwise a measure decreases with every step."),
 (120, 120, "Restart.v over Session.v", "Any number of the container goroutines of Session.v over one set of container fields, with the links of Session.v. With one it is shown to be Session.v; invariants per goroutine and over all give the numbering, the closing and the reasons for ending; an invariant of states in which all links wait for another number than the newest gives the hangs."),
 (121, 121, "WireTable.v, WireFacts.v over Records.v", "A table of type codes, names and fields that tools/gen_wire.py extracts from the source text is compared with the transcription in Records.v by computation. The rest follows from the general theorems on Encode and Decode, for all field values and attribute sets."),
 (122, 122, "DiscoveryRuns.v, DiscoveryRunsFacts.v over Discovery.v", "Each call of Run has its own place in Run, handler goroutine and context; the map, channels, lock and watches are shared. A step under a number is the step of Discovery.v with that call's own state, so the invariants of the map and the channels carry over to any number of calls. Progress is by a measure on what waits, permanence of a block by an invariant over runs without a new call."),
 (123, 123, "ManagerRuns.v, ManagerRunsFacts.v, ManagerRunsFlush.v over Manager.v", "Each call of Run has its own serve, listenFlushes, sendRecords and context; channels and stores are shared. A step of a call is the step of Manager.v with the call's own state. The invariant on updates is kept per call, with the updates the call took in place of those published; the one on messages is about the shared queue only. Flush requests are counted with those that calls have in hand, summed over the calls."),
 (124, 124, "FlushAny.v, FlushAnyFacts.v over Manager.v", "The answer of List is a label, so the stores can do anything, at every call. A pass is characterised by an inductive specification of the questions and of the messages, proved by induction over the rest of the run; the invariants of Manager.v on updates and sending carry over because the answers change nothing else. The manager over the package's own stores is shown to be a case."),
 (125, 125, "Live.v, LiveFacts.v over Keepalive.v and Discovery.v", "A run of a source and a run of a collector on one clock, joined by an assumption on the network: each heartbeat is recorded by the watch within a delay. An invariant gives one heartbeat near every tick; the decision of a watch says that all activity is old (C59); the two contradict each other unless the source stopped or has not begun."),
 (126, 126, "SilentFacts.v over Discovery.v", "Runs in which the watch never has something to do for longer than P; the predicate carries along since when it has. An invariant says until when the watch can have unseen activity and by when its timer is due; it is kept by every step of the watch, of others and of the clock."),
 (127, 127, "ServeTime.v over Manager.v; ServeTimeFacts.v", "Manager.v with a clock and the deadline of nextN's context; timed runs and runs of Manager.v are the same up to the clock. A ledger splits the published updates into handed on, in hand and in the channel; it bounds the deadline and since when the loop has something to do, for every update not handed on. Starvation by flushes: a run of any number of rounds, by induction."),
 (128, 128, "ServeFlushFacts.v", "The steps of the loop are classified by how they change its place, the number of updates in the channel and of flush requests queued. For every request that no pass followed an invariant bounds the deadline and since when the loop has something to do; updates published since, less those in the channel, count the buffers that can come first."),
 (129, 129, "ServeFlushFacts.v", "An invariant on the last pass: what is queued and drained is at most eight more than the requests since, and the deadline of the drain is a delay after it."),
]
try:
    G += [tuple(x) for x in json.load(open("/verif/tools/design_more.json"))]
except FileNotFoundError:
    pass
out = [open("/verif/tools/design_head.md").read()]
for l in open("/verif/properties.jsonl"):
    p = json.loads(l); i = p["id"]; n = int(i[1:]); c = M.get(i)
    g = [x for x in G if x[0] <= n <= x[1]]
    assert len(g) == 1, (i, g)
    out.append(f"- **{i} {p['title']}** ({c['status'] if c else 'planned'}; {', '.join(sorted(where.get(i, [])))}). Model: {g[0][2]}. {g[0][3]}")
    if c:
        out.append("  Theorems: " + ", ".join(f"`{t}`" for t in c["theorems"]) + "." + (" " + c["note"] if c["note"] else ""))
open("/verif/DESIGN.md", "w").write("\n".join(out) + "\n")
