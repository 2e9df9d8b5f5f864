{"id": "C01", "title": "Record round trip", "statement": "For every record type that can be registered and does not tag a field with codepoint 0, decoding the result of a successful Encode yields a pointer to the same record up to the documented normalisation: untagged fields come back zero, a pointer to an empty value comes back nil, a time (within int64 microseconds of the epoch, see C10) comes back truncated to microseconds. A record already in that normal form comes back unchanged.", "quantifier": "every registrable struct type (arbitrary nesting of embedded structs and pointers), every value of it, every registration history", "why_tests_cant": "The set of struct types and values is infinite; the tests round-trip a dozen literals.", "anchors": ["encoding/encoder.go:Encode", "encoding/decoder.go:Decode", "encoding/encoding.go:typeEncoding.encode,typeEncoding.decode,fieldsForType"]}
{"id": "C02", "title": "Re-encoding a decoded record invents nothing", "statement": "If Decode accepts an attribute set, re-encoding the decoded record either yields exactly the received attributes restricted to the type's own codepoints with empty values dropped (plus the type code), or fails because a required attribute was present but empty. Decoding and re-encoding that set again gives the same set.", "quantifier": "every attribute set with keys and values of any dynamic type, every registered type", "why_tests_cant": "Attribute sets come from remote peers; tests use hand-picked maps.", "anchors": ["encoding/decoder.go:Decode", "encoding/encoder.go:Encode"]}
{"id": "C03", "title": "Encode succeeds exactly on complete, representable records", "statement": "Encode of a registered record (value or non-nil pointer) never panics; for times within int64 microseconds of the epoch (see C10 for the others) it succeeds if and only if every required field is non-empty and no time field lies before the Unix epoch (the zero time counts as unset), and otherwise returns an error. A nil record and an unregistered type are errors.", "quantifier": "every registered type and every value", "why_tests_cant": "Needs all combinations of required/optional fields and of empty values behind pointer chains.", "anchors": ["encoding/encoder.go:Encode", "encoding/encoding.go:typeEncoding.encode", "base.go:Time.EncodeRecordAttribute"]}
{"id": "C04", "title": "Exactly which attribute sets crash Decode", "statement": "Decode returns a record or an error for every attribute set without nil values. With nil values it panics if and only if some attribute of the type that is not a time is nil and every attribute before it (in field order) is acceptable. So the claim that Decode never panics on remote input is false of this code.", "quantifier": "every attribute set, every registration history", "why_tests_cant": "Input is chosen by a remote peer; no test passes a nil attribute.", "anchors": ["encoding/decoder.go:rawFieldDecoder.decode", "encoding/decoder.go:Decode"]}
{"id": "C05", "title": "Decode is strict on its own attributes and blind to all others", "statement": "Decode rejects a set that lacks the type code, has an unknown or non-uint32 type code, lacks a required attribute, or carries a value of the wrong dynamic type for one of the type's attributes; and its result depends on nothing else in the set: changing, adding or removing any other key (unknown codepoints, keys that are not uint32) does not change the outcome.", "quantifier": "every pair of attribute sets agreeing on the type's codepoints", "why_tests_cant": "Quantifies over all pairs of maps.", "anchors": ["encoding/decoder.go:Decode", "encoding/encoding.go:typeEncoding.decode"]}
{"id": "C06", "title": "Shape of encoded attribute sets", "statement": "A successful Encode yields a set whose keys are all uint32, whose key 0 carries the registered type code, whose other keys are codepoints of the record type, which has an attribute for every required field, and which has no nil, empty-string or zero-number values other than a time exactly at the epoch.", "quantifier": "every registered type without a field tagged 0, every value", "why_tests_cant": "Universally quantified over record values.", "anchors": ["encoding/encoding.go:typeEncoding.encode", "encoding/encoder.go:Encode"]}
{"id": "C07", "title": "The type registry stays one-to-one and grows monotonically", "statement": "After any sequence of registrations (including ones that panic and are recovered), every codepoint belongs to at most one type and every type to at most one codepoint, encoder and decoder tables agree, no registered type has two fields with the same codepoint, a failed registration changes nothing and a successful one keeps every earlier registration.", "quantifier": "every sequence of MustRegisterRecord calls", "why_tests_cant": "A property of all histories.", "anchors": ["encoding/encoding.go:MustRegisterRecord,newEncodingForType"]}
{"id": "C08", "title": "Registration accepts exactly the well-formed types", "statement": "MustRegisterRecord panics if and only if the codepoint or the type is already registered, the argument is not a struct (or non-nil pointer to one), some tagged exported field has a malformed tag or an unsupported type, or two fields share a codepoint.", "quantifier": "every struct descriptor, tag string and registry", "why_tests_cant": "Tags and types range over infinite sets.", "anchors": ["encoding/encoding.go:MustRegisterRecord,newEncodingForType,parseFieldOpts,fieldsForType", "encoding/encoder.go:getFieldEncoder", "encoding/decoder.go:getFieldDecoder"]}
{"id": "C09", "title": "The built-in record types are usable as shipped", "statement": "Package initialisation registers all fifteen record types at codepoints 0 to 14 without panicking; none tags a field with 0; each requires exactly its identity (codepoint 1); and whenever two built-in types share an attribute codepoint they give it the same value type. Hence every built-in record with a non-empty ID and times at or after the epoch (or unset) can be encoded and round-trips.", "quantifier": "all fifteen built-in types, every value of each", "why_tests_cant": "The last claim quantifies over all record values.", "anchors": ["records.go:init", "base.go:BaseRecord"]}
{"id": "C10", "title": "Timestamp codec", "statement": "For every time between the epoch and 2^63 microseconds after it, encoding then decoding gives that time truncated to microseconds; an unset (zero) time is omitted; times before the epoch are rejected by encode; wire values above 2^63-1 and values that are not uint64 are rejected by decode. (Violated outside int64 microseconds: some times after the year 294246 are silently encoded as a wrong time.)", "quantifier": "every representable instant and every wire value", "why_tests_cant": "64-bit ranges on both sides.", "anchors": ["base.go:Time.EncodeRecordAttribute,Time.DecodeRecordAttribute"]}
{"id": "C11", "title": "Beacon, heartbeat and flush messages round-trip", "statement": "Decoding an encoded beacon, heartbeat or flush message yields the same message with its addressing normalised: subject set to the kind's subject, a beacon addressed to mc/sfe.all, a heartbeat to mc/sfe.<identity>, a flush keeping To and ReplyTo.", "quantifier": "every message value", "why_tests_cant": "All strings and integers.", "anchors": ["messages.go:DecodeBeacon,BeaconMessage.Encode,DecodeHeartbeat,HeartbeatMessage.Encode,DecodeFlush,FlushMessage.Encode,Decode"]}
{"id": "C12", "title": "Message decoding is decided by the subject and total", "statement": "Decode of any AMQP message returns a message of the kind named by its subject, with every field either the matching property of the right type or empty, or an error when properties or subject are missing or the subject is unknown; for the three fixed kinds it never fails once the subject matches, whatever types the properties have.", "quantifier": "every AMQP message: missing properties, application properties of any type, any value section", "why_tests_cant": "Arbitrary remote input.", "anchors": ["messages.go:Decode,DecodeBeacon,DecodeHeartbeat,DecodeFlush"]}
{"id": "C13", "title": "Record messages round-trip record by record", "statement": "Encoding a record message whose records all encode and decoding it yields the same number of records, in order, each being the normal form of the original; encoding fails if and only if some record fails to encode.", "quantifier": "every list of built-in records", "why_tests_cant": "Unbounded lists of arbitrary records.", "anchors": ["messages.go:RecordMessage.Encode,DecodeRecord,decodeRecords"]}
{"id": "C14", "title": "A bad record in a message does not corrupt its predecessors", "statement": "Decoding a record message returns, in order, the records of the longest prefix of decodable elements, with an error exactly when that prefix is not the whole list; elements of types that are not records, non-map elements and non-list values are errors.", "quantifier": "every value section", "why_tests_cant": "All positions of a bad element.", "anchors": ["messages.go:decodeRecords,DecodeRecord"]}
{"id": "C15", "title": "The store behaves like a map", "statement": "Any sequence of Add, Update, Delete, Replace, Accumulate, Get, List, Index and IndexValues calls returns the results, and leaves the contents, that a plain key-to-(entry,version) map without indexes would, whatever the key function, index functions, map iteration orders and clock.", "quantifier": "every operation sequence, key function, indexer set, iteration order and clock", "why_tests_cant": "A property of all histories and of map iteration order.", "anchors": ["store/cache.go:objectCache", "store/internal/cache.go:SyncIndexedMap"]}
{"id": "C16", "title": "Add succeeds exactly when the key is absent", "statement": "In every reachable state Add stores the entry with the current time and returns no error if no entry has its key, and otherwise returns an error and changes nothing.", "quantifier": "every reachable store state and entry", "why_tests_cant": "The implementation tests a version counter, not presence; equivalence needs an invariant over all histories.", "anchors": ["store/cache.go:objectCache.Add", "store/internal/conditional.go:WhenNotExists"]}
{"id": "C17", "title": "If-Match updates detect every intervening write", "statement": "If an ETag was returned by Get for a key and the key has not been deleted or dropped by Replace since, an Update conditional on that ETag succeeds if and only if no write changed the entry in between. An ETag that does not parse is rejected. (Violated without the no-delete side condition: after delete and re-add a stale ETag matches again.)", "quantifier": "every history between the Get and the Update", "why_tests_cant": "Every interleaving of other writers.", "anchors": ["store/etag.go:getETag,decodeETag,getConditional,WithIfMatch", "store/cache.go:objectCache.Update", "store/internal/conditional.go:WhenVersionMatches"]}
{"id": "C18", "title": "ETag and continue tokens survive their text encoding", "statement": "Decoding a generated ETag gives back the version and timestamp in it; decoding a generated continue token gives back its offset whenever the offset is below 2^31; tokens that are not base64 or too short are rejected. (Violated at 2^31 and above: the offset comes back negative.)", "quantifier": "every version, time and offset", "why_tests_cant": "64-bit ranges and all byte strings.", "anchors": ["store/etag.go:getETag,decodeETag", "store/continue.go:encodeCacheContinue,decodeCacheContinue"]}
{"id": "C19", "title": "A failed store operation changes nothing", "statement": "When Add, Update, Delete, Replace or Accumulate returns an error the contents, versions and indexes are exactly as before.", "quantifier": "every reachable state and every failing call", "why_tests_cant": "All states and all failure causes.", "anchors": ["store/cache.go:objectCache", "store/internal/cache.go:SyncIndexedMap.Patch,SyncIndexedMap.Update"]}
{"id": "C20", "title": "Index lookups are exact", "statement": "In every reachable state Index(name, exemplar) returns every stored entry that shares at least one bucket with the exemplar, each exactly once, and no other; an unknown index name is an error.", "quantifier": "every operation history, every indexer (any number of buckets per entry, repeated buckets included)", "why_tests_cant": "Incremental index maintenance over all histories.", "anchors": ["store/internal/cache.go:SyncIndexedMap.reindex,unindex,Index", "store/cache.go:objectCache.Index"]}
{"id": "C21", "title": "Index values are exact", "statement": "In every reachable state IndexValues(name) returns exactly the buckets that contain at least one stored entry, each once; no stale or missing bucket.", "quantifier": "every operation history and indexer", "why_tests_cant": "Empty-bucket cleanup over all histories.", "anchors": ["store/internal/cache.go:SyncIndexedMap.IndexValues,unindex"]}
{"id": "C22", "title": "Selected lists are complete and in key order", "statement": "When stored entries have pairwise distinct sort keys, List with a selector and no limit returns every entry exactly once, ascending or descending by key, from the given offset, independent of map iteration order and of the sorting algorithm's internal choices.", "quantifier": "every reachable store, both orderings, every non-negative offset, every iteration order and any correct sort", "why_tests_cant": "Map iteration order is random and sort.Slice is unstable.", "anchors": ["store/cache.go:objectCache.applySelector,List,Index"]}
{"id": "C23", "title": "Paging enumerates the store", "statement": "On an unchanging store with fewer than 2^31 entries, calling List with a limit n>0 and following Continue until it is empty terminates and returns pages of at most n entries (all but the last exactly n) whose concatenation is the full ordered list; every page but the last carries a continue token.", "quantifier": "every store content, every limit, iteration order per call", "why_tests_cant": "Unbounded number of pages.", "anchors": ["store/cache.go:objectCache.applySelector", "store/continue.go:encodeCacheContinue,decodeCacheContinue"]}
{"id": "C24", "title": "Listing never crashes", "statement": "List and Index return a set or an error for every selector. (Violated: a negative Offset, or a continue token holding a negative offset, panics whenever it is below the length; the exact panic condition is proved.)", "quantifier": "every selector and every token string", "why_tests_cant": "Tokens are arbitrary strings.", "anchors": ["store/cache.go:objectCache.applySelector", "store/continue.go:decodeCacheContinue"]}
{"id": "C25", "title": "Replace installs exactly the given set", "statement": "After Replace the keys are exactly the keys of the given entries, each holding the last given entry with that key unmodified; kept keys' versions increase, new ones start at 1; indexes match the new contents. If any key fails to compute nothing changes.", "quantifier": "every reachable store and every list of entries", "why_tests_cant": "Duplicates and overlaps of arbitrary lists.", "anchors": ["store/cache.go:objectCache.Replace", "store/internal/cache.go:SyncIndexedMap.Replace"]}
{"id": "C26", "title": "Change events replay to the store contents", "statement": "For histories without Replace in which no Accumulate fails, replaying OnAdd, OnChange and OnDelete events in order over an empty map reproduces the contents, and each OnChange carries the entry being overwritten. (Violated in general: Replace emits no events, and a failing Accumulate calls OnAdd with an empty entry although nothing was added.)", "quantifier": "every operation history", "why_tests_cant": "All histories.", "anchors": ["store/cache.go:objectCache.Accumulate,Add,Update,Delete,Replace"]}
{"id": "C27", "title": "Accumulate merges attributes, later values winning", "statement": "Accumulating a sequence of records of one built-in type and one key leaves an entry whose attribute set is the union of the records' attribute sets with later values overriding earlier ones, and whose source, annotations and type are those of the first.", "quantifier": "every non-empty sequence of encodable records of one type with the same key", "why_tests_cant": "Unbounded sequences of partial updates.", "anchors": ["store/cache.go:objectCache.Accumulate", "store/patcher.go:recordPatcher.Patch"]}
{"id": "C28", "title": "Accumulate is idempotent and silent when nothing changes", "statement": "Accumulating a record whose attributes are already present with the same values changes nothing (contents, version, timestamp, indexes), fires no event and returns no error; in particular repeating an Accumulate is a no-op.", "quantifier": "every reachable store and record", "why_tests_cant": "All states.", "anchors": ["store/patcher.go:recordPatcher.Patch", "store/cache.go:objectCache.Accumulate"]}
{"id": "C29", "title": "An attribute can be reset through Accumulate", "statement": "After a source publishes a record with a field cleared or set to zero, the accumulated entry no longer has the old value. (Violated: empty values are never transmitted, so the stale value stays; proved: Accumulate never removes an attribute.)", "quantifier": "every record and entry", "why_tests_cant": "Needs all field/value combinations.", "anchors": ["store/patcher.go:recordPatcher.Patch", "encoding/encoder.go:rawFieldEncoder.encode,pointerEncoder.encode"]}
{"id": "C30", "title": "Accumulated entries keep type and record consistent", "statement": "The type recorded for an entry is the type of the record it holds. (Violated: accumulating a record of another type with the same key rewrites the record's type but not the entry's, and the type index keeps the old type; proved: it holds in histories where a key is only ever used with one type.)", "quantifier": "every history of Accumulate calls", "why_tests_cant": "All histories.", "anchors": ["store/patcher.go:recordPatcher.Patch", "store/cache.go:objectCache.Accumulate"]}
{"id": "C31", "title": "Timestamps say when an entry last changed", "statement": "UpdatedAt of an entry is the clock reading of the last Add, Update or effective Accumulate on its key; no-op Accumulates and operations on other keys leave it alone; Replace keeps the caller's value.", "quantifier": "every history and clock", "why_tests_cant": "All histories.", "anchors": ["store/cache.go:objectCache.Add,Update,Replace", "store/patcher.go:recordPatcher.Patch"]}
{"id": "C32", "title": "Concurrent store calls are linearizable", "statement": "Every interleaving of concurrent store calls, at the granularity of individual steps inside the lock, yields for every call the result it would have in some sequential order of the calls that respects real time; readers never see a half-applied Replace or a stale index.", "quantifier": "every number of goroutines, every program per goroutine, every schedule", "why_tests_cant": "All schedules.", "anchors": ["store/internal/cache.go:SyncIndexedMap"]}
{"id": "C33", "title": "Change events arrive in the order the changes were applied", "statement": "For concurrent writers to one key, handlers see changes in the order they took effect. (Violated: handlers run after the lock is released, so the final event can describe an overwritten value; proved: each applied change yields exactly one event.)", "quantifier": "every schedule of concurrent writers", "why_tests_cant": "All schedules.", "anchors": ["store/cache.go:objectCache.Accumulate,Add,Update,Delete"]}
{"id": "C34", "title": "Source index separates sources", "statement": "Looking up the default source index returns only entries of that source. (Violated: distinct sources can render to the same index string when names contain dots; proved: exact when version and type contain no dot, or more generally when the rendering is unambiguous.)", "quantifier": "every pair of source references", "why_tests_cant": "All strings.", "anchors": ["store/store.go:SourceRef.String", "store/cache.go:defaultIndexers"]}
{"id": "C35", "title": "Dispatch routes every record to the store registered for its type", "statement": "Dispatching a record message accumulates each record, in message order, with the dispatcher's source, into the store registered for its type and into no other; records of unregistered types are skipped; a failing record does not stop later ones.", "quantifier": "every registry, message and store state", "why_tests_cant": "All lists of records and failure positions.", "anchors": ["store/dispatch.go:Dispatcher.Dispatch,DispatchRegistry"]}
{"id": "C36", "title": "Dispatchers are snapshots of the registry", "statement": "A dispatcher keeps using the stores registered when it was created; later registrations affect only dispatchers created later; the last registration for a type wins.", "quantifier": "every sequence of registrations and dispatcher creations", "why_tests_cant": "All histories.", "anchors": ["store/dispatch.go:RegisterStore,NewDispatcher"]}
{"id": "C37", "title": "Published deltas carry exactly what changed", "statement": "For an update with a previous record, the manager publishes nothing if no attribute of the new record is new or different, and otherwise a record whose attributes are exactly the changed ones plus type and identity; accumulating it on top of the previous record gives the new record's attributes united with the old ones.", "quantifier": "every pair of built-in records", "why_tests_cant": "All pairs of records.", "anchors": ["eventsource/manager.go:diffRecord"]}
{"id": "C38", "title": "Updates are published in order, once, in bounded batches", "statement": "Under every schedule of publishers, timeouts, flushes and cancellation, the records of the update messages queued so far, concatenated, are the deltas of a prefix of the published updates in publication order, without loss or duplication; only what is still queued or buffered is missing; every update message has between 1 and max(1, UpdateBatchSize) records.", "quantifier": "every schedule, batch size and buffer time", "why_tests_cant": "All interleavings of channel operations and timers.", "anchors": ["eventsource/manager.go:Manager.serve,nextN,PublishUpdate"]}
{"id": "C39", "title": "One bad record cannot suppress other records", "statement": "A record that cannot be encoded does not prevent other published records from being sent. (Violated: it drops every record batched with it; proved: messages whose records all encode are sent in queue order.)", "quantifier": "every batch", "why_tests_cant": "All batch compositions.", "anchors": ["eventsource/manager.go:Manager.sendRecords", "messages.go:RecordMessage.Encode"]}
{"id": "C40", "title": "A flush publishes every record of every store", "statement": "When the stores do not change during it, servicing a flush queues messages that contain every record of every store exactly once, store by store in key order, at most FlushBatchSize records per message when that is positive.", "quantifier": "every list of stores, contents and batch size", "why_tests_cant": "Unbounded stores and page counts.", "anchors": ["eventsource/manager.go:Manager.serve", "store/cache.go:objectCache.applySelector"]}
{"id": "C41", "title": "A flush misses no record that stays in the store", "statement": "Every record present throughout a flush is published by it even if other records are added or deleted meanwhile. (Violated: pages are offset based, a deletion between pages skips a record; proved for unchanged stores and for stores where only later keys change.)", "quantifier": "every interleaving of store writes with the pages of a flush", "why_tests_cant": "All interleavings.", "anchors": ["eventsource/manager.go:Manager.serve", "store/cache.go:objectCache.applySelector"]}
{"id": "C42", "title": "No flush request is lost", "statement": "Every flush message received is followed by a complete pass over all stores that starts after it was received (unless the manager is stopped), even when the queue is full and the request is dropped or several requests are coalesced.", "quantifier": "every schedule of flush arrivals, drains and services", "why_tests_cant": "All interleavings.", "anchors": ["eventsource/manager.go:Manager.listenFlushes,serve,nextN"]}
{"id": "C43", "title": "Only flush requests cause flushes", "statement": "The manager queues a flush only for a received message. (Violated: a receive error other than cancellation also queues a flush; proved: the number of queued flushes never exceeds receives plus receive errors.)", "quantifier": "every sequence of receive outcomes", "why_tests_cant": "All outcome sequences.", "anchors": ["eventsource/manager.go:listenFlushes"]}
{"id": "C44", "title": "Keepalives: beacon first, then both kinds at their pace", "statement": "A source sends a successful beacon before its first heartbeat; afterwards each tick sends one message of its kind carrying the source's identity, version and addresses; heartbeats go to the alternate address exactly when configured; unset intervals default to 10s and 2s. Whatever sends return, this goes on until the context is cancelled.", "quantifier": "every sequence of ticks and send outcomes", "why_tests_cant": "All outcome sequences.", "anchors": ["eventsource/manager.go:sendKeepalives"]}
{"id": "C45", "title": "Cancelling the context stops the keepalive loop", "statement": "After the context is cancelled the keepalive loop ends. (Violated: if the initial beacon has not been sent it retries forever; proved: once the initial beacon was sent, cancellation stops it.)", "quantifier": "every schedule and cancellation point", "why_tests_cant": "All cancellation points.", "anchors": ["eventsource/manager.go:sendKeepalives,sendWithTimeout"]}
{"id": "C46", "title": "Sends are bounded by the delivery timeout", "statement": "A keepalive send returns once its timeout has expired. (Violated: the timeout context is never passed to the send.)", "quantifier": "every sender behaviour", "why_tests_cant": "All sender behaviours over time.", "anchors": ["eventsource/manager.go:sendWithTimeout"]}
{"id": "C47", "title": "A collector converges to the published state", "statement": "If a source publishes a chain of updates to a record and a collector accumulates the resulting record messages in order, the collector's copy has the attributes of the last published record together with those earlier attributes that were later cleared; when no attribute is ever cleared it equals the published record. Re-delivery of messages suffixes does not change that.", "quantifier": "every chain of updates, every batching", "why_tests_cant": "End-to-end over unbounded chains.", "anchors": ["eventsource/manager.go:diffRecord,serve", "store/patcher.go:recordPatcher.Patch", "messages.go:RecordMessage.Encode,DecodeRecord"]}
{"id": "C48", "title": "Handlers see every accepted, decodable message once and in order", "statement": "For each listener, every record (heartbeat) message that was received, accepted and decoded is passed exactly once to each record (heartbeat) handler registered by then, handlers in registration order, messages in arrival order; nothing else is passed to handlers. Whatever arrives and whatever receiving and accepting return, a listener goes on until its context is cancelled or the client closed.", "quantifier": "every sequence of receive/accept outcomes and registrations", "why_tests_cant": "All outcome sequences.", "anchors": ["eventsource/client.go:Client.Listen,getHandlers"]}
{"id": "C49", "title": "No handler runs after Close returned", "statement": "Once Close has returned, no handler is invoked by listeners started before it, under every schedule.", "quantifier": "every number of listeners, every schedule", "why_tests_cant": "All schedules.", "anchors": ["eventsource/client.go:Client.Close,Listen"]}
{"id": "C50", "title": "Close always returns", "statement": "Close returns once listeners have been cancelled. (Violated: Close waits for listeners while holding the lock a listener needs to deliver an in-flight message, a reachable deadlock; proved: it completes in every schedule in which no listener is between receiving a message and reading the handlers when Close takes the lock.)", "quantifier": "every schedule", "why_tests_cant": "Needs a specific interleaving.", "anchors": ["eventsource/client.go:Client.Close,getHandlers"]}
{"id": "C51", "title": "Close can be called again", "statement": "Calling Close twice is harmless. (Violated: the second call closes a closed channel and panics; proved: always if the first one has returned, and the first one never does so, whatever happened before it.)", "quantifier": "every client history", "why_tests_cant": "No test closes twice, yet the watch also closes the client.", "anchors": ["eventsource/client.go:Client.start,Close", "eventsource/discovery.go:watch.run"]}
{"id": "C52", "title": "Flush-on-first-message sends one flush, after a message", "statement": "FlushOnFirstMessage sends at most one flush, only after a heartbeat or record was delivered to its handlers after the call, returns the context error without flushing if the context ends first, and any number of messages from any number of listeners is harmless.", "quantifier": "every schedule of messages and cancellation", "why_tests_cant": "All schedules.", "anchors": ["eventsource/flush.go:FlushOnFirstMessage,messageAwaiter"]}
{"id": "C53", "title": "Discovery state is a map of known sources", "statement": "Get, List, Add, Forget and beacons behave like a map from identity to source: a beacon or Add for an unknown identity inserts it, Add of a known one returns false and changes nothing, Forget removes and reports whether it was known; List has each known source once.", "quantifier": "every sequence of calls and beacons", "why_tests_cant": "All histories.", "anchors": ["eventsource/discovery.go:Get,Add,Forget,List,observe"]}
{"id": "C54", "title": "Discovered and forgotten notifications balance", "statement": "In every reachable state, per identity, notifications of discovery issued minus notifications of forgetting issued is 1 if the source is known and 0 otherwise; each kind is delivered in the order issued, none lost or duplicated.", "quantifier": "every schedule", "why_tests_cant": "All schedules.", "anchors": ["eventsource/discovery.go:observe,Add,Forget,handleDiscovery"]}
{"id": "C55", "title": "Notifications for one source arrive in order", "statement": "Handlers see a source's discovery before its forgetting. (Violated: the two kinds travel in separate channels and a select picks either.)", "quantifier": "every schedule", "why_tests_cant": "All schedules.", "anchors": ["eventsource/discovery.go:handleDiscovery"]}
{"id": "C56", "title": "Source details are stable and last-seen never moves back", "statement": "While a source is known, later beacons change nothing but its last-seen time, and last-seen never decreases as long as the clock does not and no source was added with a last-seen time in the future (violated otherwise).", "quantifier": "every history of beacons, watch updates and clock readings", "why_tests_cant": "All histories.", "anchors": ["eventsource/discovery.go:observe,lastSeen"]}
{"id": "C57", "title": "Discovery never deadlocks", "statement": "Discovery keeps making progress when handlers call back into it. (Violated: with 34 sources discovered while a handler is running, a notifier blocks on a full channel holding the lock the handler needs; proved: with handlers that do not call back every reachable state can progress.)", "quantifier": "every schedule", "why_tests_cant": "Needs a specific interleaving.", "anchors": ["eventsource/discovery.go:observe,Add,Forget,Get,handleDiscovery,NewWatchClient"]}
{"id": "C58", "title": "Malformed messages do not stop discovery", "statement": "A message without properties or subject on the beacon address is skipped. (Violated: it dereferences nil and panics; messages with another subject are skipped, beacons are observed.)", "quantifier": "every message", "why_tests_cant": "Arbitrary remote input.", "anchors": ["eventsource/discovery.go:Discovery.Run"]}
{"id": "C59", "title": "A watch forgets a source only after a full timeout of silence", "statement": "A watch forgets its source only after deciding so at some time T when its timer ran out. If its timer was ever restarted, no client activity has a time within the Timeout before T; otherwise T is at least GracePeriod+Timeout after the start and all activity is from before the watch first looked. This presumes that activity is recorded in the order of its times (violated otherwise: two client handlers may store out of order). If no activity was recorded the watch can forget as soon as the first timer is due. A zero timeout never forgets, and stopping the timer never hangs. A watch ends only if its context ends or it has forgotten its source; new activity can show in the source's last seen time within one update interval (one second if unset).", "quantifier": "every timing of activity, ticks and timer expiry", "why_tests_cant": "All timings.", "anchors": ["eventsource/discovery.go:watch.run,advanceLastSeen,newWatch"]}
{"id": "C60", "title": "A watch only forgets the source it was created for", "statement": "A watch whose source was forgotten and discovered again does not forget the new one. (Violated: watches identify sources by ID only. Proved: a watch changes nothing but the entry of its own ID.)", "quantifier": "every history", "why_tests_cant": "All histories.", "anchors": ["eventsource/discovery.go:watch.run,Forget"]}
{"id": "C61", "title": "Stale link errors never tear down a newer session", "statement": "The container ends a session only for an error reported for that very session (or cancellation); an error reported for an earlier session is ignored; generations increase by one per established session; if every link is used by one goroutine, the session ends only for a network error that happened on it. (Violated with two goroutines on a link: the error is reported under the generation the link holds when it is handled, so an error of the old session ends the new one.)", "quantifier": "every schedule of links, errors and reconnects", "why_tests_cant": "All schedules.", "anchors": ["session/container.go:container.Start,link.handleError"]}
{"id": "C62", "title": "Links always use the newest session they know", "statement": "A link only uses a sender or receiver created on the session generation it currently holds; used by one goroutine, after an error it waits for a newer generation before using the network again and generations seen by it never decrease. (The last two are violated with two goroutines on a link.)", "quantifier": "every history of a link", "why_tests_cant": "All histories of failures and reconnects.", "anchors": ["session/container.go:link.awaitSession,getReceiver,getSender,handleError"]}
{"id": "C63", "title": "A link reports at most one error per session", "statement": "A link used by one goroutine reports at most one error for each session generation, in order, each after a network error of that call on that generation. (Violated with two goroutines on a link.)", "quantifier": "every history of a link", "why_tests_cant": "All histories.", "anchors": ["session/container.go:link.handleError,awaitSession"]}
{"id": "C64", "title": "Closed links fail fast", "statement": "Operations on a closed link return an error. (Proved for Send and Accept; violated for Next, which retries forever while the context is live.)", "quantifier": "every context state and history", "why_tests_cant": "Non-termination cannot be observed by a test.", "anchors": ["session/container.go:link.Next,Send,Accept,Close,awaitSession"]}
{"id": "C65", "title": "Closing a link while it is in use is safe", "statement": "Close concurrent with Send or Next leads to an error from the operation. (Violated: between the session check and link creation Close clears the session, and the operation dereferences nil; also an operation waiting for a session revives a closed link.)", "quantifier": "every schedule", "why_tests_cant": "Needs a specific interleaving.", "anchors": ["session/container.go:link.Close,awaitSession,getReceiver,getSender"]}
{"id": "C66", "title": "Requested receiver credit is used", "statement": "A receiver is opened with the credit the caller asked for. (Violated: positive credit is discarded by an inverted comparison; proved: exactly the non-positive values are passed on.)", "quantifier": "every credit value", "why_tests_cant": "No test inspects credit.", "anchors": ["session/container.go:ReceiverOptions.get"]}
{"id": "C67", "title": "Link operations end when their context ends", "statement": "Send and Next return after their context is cancelled. (Violated: reporting a session error blocks without regard to the context when 32 unread errors are queued.)", "quantifier": "every schedule", "why_tests_cant": "Needs more than 32 failing links and a stopped container.", "anchors": ["session/container.go:link.handleError"]}
{"id": "C68", "title": "Mock router delivers to every subscriber in order", "statement": "A message sent to an address is delivered once to every receiver open and subscribed at that time, in send order per receiver, and all receivers see all senders' messages in the same order; a send that fails delivers nothing; a send to an address nobody ever subscribed to waits until a receiver subscribes or the context ends, and no wake-up is lost; a closed receiver is delivered at most one more message.", "quantifier": "every sequence of sends, subscriptions, receives and closes", "why_tests_cant": "All schedules.", "anchors": ["session/mock.go:multicast.send,subscribe,mockReceiver"]}
{"id": "C69", "title": "A successful mock send reached someone", "statement": "Send returns success only if some open receiver got the message. (Violated: closed receivers stay subscribed and count as reached.)", "quantifier": "every history", "why_tests_cant": "All histories.", "anchors": ["session/mock.go:multicast.send,mockReceiver.send"]}
{"id": "C70", "title": "Collected records can be looked up by type and identity", "statement": "After the collector store of the tool accumulates a record, Get with the record's type and identity finds it, and records of different types with equal identities do not interfere. (Violated: Accumulate computes the key without the type, so Get misses it and equal identities collide across types.)", "quantifier": "every record", "why_tests_cant": "All pairs of records.", "anchors": ["cmd/vanflow-tool/serve.go:newFixtureStore", "store/cache.go:objectCache.Accumulate"]}
{"id": "C71", "title": "Fixture data is grouped by source without loss", "statement": "Grouping fixture entries by source keeps every entry of a configured type whose record parses, exactly once, under its own source, in input order, and nothing else.", "quantifier": "every request", "why_tests_cant": "All lists.", "anchors": ["cmd/vanflow-tool/fixture.go:groupEntriesBySource"]}
{"id": "C72", "title": "Flow replay survives unpaired flows", "statement": "Replaying flows works when a flow names a counterflow that is not in the fixture. (Violated: the missing side is an empty entry and the replay goroutine panics.)", "quantifier": "every set of flow records", "why_tests_cant": "All flow sets.", "anchors": ["cmd/vanflow-tool/fixture.go:ServeFlows,fakeFlow"]}
{"id": "C73", "title": "Callers can keep using the values they stored", "statement": "Changing an annotation map after storing the entry does not affect the store. (Violated: the map is shared, so index buckets go stale and lookups return wrong entries.)", "quantifier": "every history of stores and caller mutations", "why_tests_cant": "Aliasing is invisible to value-based tests.", "anchors": ["store/cache.go:objectCache.Add,Update,Index", "store/internal/cache.go:unindex"]}
{"id": "C74", "title": "The manager never gets stuck and never loops", "statement": "From every reachable state, left alone, the manager stops after a bounded number of its own steps, and it stops only when every published update, flush request and queued message has been dealt with; if the records handed to it are usable it never panics.", "quantifier": "every schedule, every reachable state, every store content below 2^31 entries", "why_tests_cant": "Absence of deadlock, livelock and panics over all schedules.", "anchors": ["eventsource/manager.go:Manager.serve,nextN,listenFlushes,sendRecords"]}
{"id": "C75", "title": "Session error handlers may use the container", "statement": "A session error handler can create links and register handlers. (Violated: handlers run with the container's mutex held, so a handler that calls the container blocks itself, and the container then never connects, closes, notifies, or creates a link again. Proved: if no handler does so, links can be created at any time, at once or as soon as the handlers that are running have returned.)", "quantifier": "every schedule", "why_tests_cant": "A deadlock over all continuations.", "anchors": ["session/container.go:container.Start,OnSessionError,NewReceiver,NewSender"]}
{"id": "C76", "title": "Connections are closed", "statement": "Every session is closed in order before the one after its successor is in use, and all are closed when Start returns. (Violated for connections on which no session could be opened: these stay open; proved: exactly these.)", "quantifier": "every history of dials, failures and reconnects", "why_tests_cant": "All histories.", "anchors": ["session/container.go:container.Start"]}
{"id": "C77", "title": "Waiting links are woken by a new session", "statement": "A call waiting for a session newer than the one it knows gets the newest one in two steps once one is established: no wake-up is lost, and it never takes an older one.", "quantifier": "every schedule", "why_tests_cant": "Lost wake-ups depend on the interleaving.", "anchors": ["session/container.go:container.awaitNextSession,Start,link.awaitSession"]}
{"id": "C78", "title": "Reconnect pacing resets only on success", "statement": "The retry strategy is reset only when an operation succeeded on the current session; a session that is established but never works does not reset it.", "quantifier": "every schedule", "why_tests_cant": "All schedules.", "anchors": ["session/container.go:container.Start,link.Send,Accept"]}
{"id": "C79", "title": "Slow receivers do not block mock senders for ever", "statement": "Send returns when its context ends or the receiver it waits for is closed. (Violated: the send to a full receiver waits with the address locked and heeds neither; until someone calls Next on that receiver nobody can send to, or subscribe to, the address.)", "quantifier": "every schedule", "why_tests_cant": "A blockage over all continuations.", "anchors": ["session/mock.go:multicast.send,subscribe,mockReceiver.send"]}
{"id": "C80", "title": "Every source of a fixture gets its manager", "statement": "For each source with an entry in the request a manager publishes that source's records. (Violated: managers are kept by source name, so of two sources that differ only in type one is dropped; proved: with distinct names each source has exactly its own.)", "quantifier": "every request", "why_tests_cant": "All sets of sources and all map iteration orders.", "anchors": ["cmd/vanflow-tool/fixture.go:fixtureServer.Start"]}
{"id": "C81", "title": "Replayed flows have a complete and consistent life", "statement": "A replay publishes, for each flow and side, one new record and then the given number of changes, each with the record before it as predecessor, the end time only in the last, and the server flow naming the client flow of the same number; nothing else is published; octets never decrease. (The last is violated when the uint64 sum overflows; proved below that.)", "quantifier": "every pair of flows, number of flows and number of increments", "why_tests_cant": "All counts and all octet values.", "anchors": ["cmd/vanflow-tool/fixture.go:fakeFlow"]}
{"id": "C82", "title": "A replay request cannot crash the server by its numbers", "statement": "A POST asking for any number of flows is answered without ending the process. (Violated: a negative number panics in the replay goroutine as soon as some flow names a counterflow; proved: exactly then.)", "quantifier": "every request and fixture", "why_tests_cant": "All numbers and fixtures.", "anchors": ["cmd/vanflow-tool/fixture.go:ServeFlows,fakeFlow"]}
{"id": "C83", "title": "The connection is secured as asked", "statement": "The tool connects with TLS, verifying the peer against the named CA and presenting the named certificate, whenever its flags or messaging config ask for it. (Violated in three ways: -ca and -tls-verify have no effect without -cert, verification asked for without a CA in the messaging config gives a plain connection, and a named certificate that does not exist goes unnoticed; proved: exactly as asked otherwise.)", "quantifier": "every combination of flags, messaging config and files", "why_tests_cant": "All combinations of settings and file states.", "anchors": ["cmd/vanflow-tool/main.go:main,tlsConfig.Parse"]}
{"id": "C84", "title": "The tool talks to the server it is told to and starts only if it can", "statement": "The address is the messaging config's if there is one and -server's otherwise; the tool starts exactly when given one known command and everything it needs can be read.", "quantifier": "every combination of flags, messaging config and files", "why_tests_cant": "All combinations of settings and file states.", "anchors": ["cmd/vanflow-tool/main.go:main"]}
{"id": "C85", "title": "A container keeps trying to reconnect", "statement": "A container gives up exactly when the time since the last reset plus the next pause exceeds the strategy's limit; with the default strategy it never does, and pauses stay within bounds. (Violated for the tool: the first failure after a minute without traffic is final.)", "quantifier": "every history of failures, successes and elapsed times, every random choice", "why_tests_cant": "All histories and random pauses.", "anchors": ["session/container.go:container.Start", "cmd/vanflow-tool/main.go:main"]}
{"id": "C86", "title": "Containers do not disturb each other's pacing", "statement": "How a container reconnects depends on its own failures only. (Violated for containers of one factory with a configured strategy: they share it, so failures of one lengthen the pauses of, or end, another; proved for containers with strategies of their own.)", "quantifier": "every interleaving of any number of containers", "why_tests_cant": "All interleavings; sharing is invisible to tests of one container.", "anchors": ["session/container.go:container.Start", "session/factory.go:factory.Create", "cmd/vanflow-tool/main.go:main"]}
{"id": "C87", "title": "The capture tool removes what it created", "statement": "Whatever fails, a crash included, the capture tool tries to delete its deployment exactly once, last, if and only if it created it; it crashes exactly when the deployment has no pod yet, whose readiness it does not look at.", "quantifier": "every combination of outside failures", "why_tests_cant": "All failure points.", "anchors": ["vancap/main.go:Vancap.Run"]}
{"id": "C88", "title": "A successful capture is complete", "statement": "When the capture tool reports success the output file holds the whole answer; when it fails a previous file is untouched. (The second is violated: it may be replaced by an initial part of the answer; and an answer of any status counts as success.)", "quantifier": "every combination of outside failures, every answer", "why_tests_cant": "All failure points and answers.", "anchors": ["vancap/main.go:Vancap.Run"]}
{"id": "C89", "title": "The capture tool connects to the cluster's API server", "statement": "The host used is the configured https URL without its scheme. (Violated: leading characters of the host among h, t, p, s, : and / are lost too; proved: right exactly for the other hosts.)", "quantifier": "every host", "why_tests_cant": "All strings.", "anchors": ["vancap/main.go:Vancap.Run"]}
{"id": "C90", "title": "One fixture at a time", "statement": "Managers at work at the same time are all of one configuration; once a configuration is in effect exactly one manager is at work for each source name in it, and \"running\" is reported only when every source of some received configuration has got its manager.", "quantifier": "every schedule of requests, loop steps, replays and shutdown", "why_tests_cant": "All interleavings.", "anchors": ["cmd/vanflow-tool/fixture.go:fixtureServer.Start,ServeFixture"]}
{"id": "C91", "title": "Connections of a replaced fixture are released", "statement": "After a new fixture is in effect only its sources' connections remain. (Violated: connections are started with the server's context, so one for every source of every fixture ever received stays open; proved: exactly these.)", "quantifier": "every schedule, any number of fixtures", "why_tests_cant": "Leaks over unbounded histories.", "anchors": ["cmd/vanflow-tool/fixture.go:fixtureServer.Start"]}
{"id": "C92", "title": "A new fixture is taken up and its request answered", "statement": "Each fixture received is answered once, not before the one before is entirely in effect; while nobody holds the mutex the loop reaches the next request in a bounded number of its own steps. (Violated once the server is being stopped: a request that reaches the loop then is never answered.)", "quantifier": "every schedule", "why_tests_cant": "Progress over all interleavings.", "anchors": ["cmd/vanflow-tool/fixture.go:fixtureServer.Start,ServeFixture"]}
{"id": "C93", "title": "A replay ends", "statement": "A replay publishes all its updates and its flows are counted. (Violated when a new fixture is posted during it: the stopped manager's queue fills and the replay is blocked for ever; proved as long as its managers are at work.)", "quantifier": "every schedule, any number of updates", "why_tests_cant": "A blockage over all continuations.", "anchors": ["cmd/vanflow-tool/fixture.go:fixtureServer.ServeFlows,fakeFlow", "eventsource/manager.go:Manager.PublishUpdate"]}
{"id": "C94", "title": "A slow client of the fixture server does not affect others", "statement": "Whatever one client does, others are served. (Violated: a request to /flows holds the mutex until its answer is written, and until then no status is told, no fixture posted, none taken into effect and no replay ends. Proved: nothing else holds others up; without such a request the status is told and a fixture can be posted at once, and when the answer is taken so it is again.)", "quantifier": "every schedule", "why_tests_cant": "A blockage over all continuations.", "anchors": ["cmd/vanflow-tool/fixture.go:fixtureServer.ServeFlows,ServeFixture,Start"]}
{"id": "C95", "title": "The site index groups entries by site", "statement": "Looking up the default site index returns exactly the entries of that site, and for an entry without site those without; the values listed are exactly the sites of stored entries. (Violated in that entries without site are mixed with those of a site called \"unknown\"; proved: exactly so.)", "quantifier": "every operation history", "why_tests_cant": "All histories and all annotations.", "anchors": ["store/cache.go:defaultIndexers,objectCache.Index"]}
{"id": "C96", "title": "What is published arrives at every collector", "statement": "Whenever a collector begins to listen: once everything published is sent, it has every attribute of the last version of each record for which it saw a first publication or a flush, whatever the interleaving of updates, batches and flushes; exactly the record if nothing was ever cleared. (Violated if a publisher stores a change only after publishing it: a flush in between leaves the old value for good. Proved for publishers that store first.)", "quantifier": "every schedule of the manager, any number of records, versions, updates, flushes", "why_tests_cant": "Composes publisher, batching, flush pages, wire format and collector over all interleavings.", "anchors": ["eventsource/manager.go:Manager.PublishUpdate,serve,sendRecords,listenFlushes,diffRecord", "store/dispatch.go:Dispatcher.Dispatch", "store/cache.go:objectCache.Accumulate", "encoding", "messages.go:RecordMessage.Encode"]}
{"id": "C97", "title": "A failed session is replaced and links go on", "statement": "While the container runs, from every state it can reach: once an error was reported for a session, and connecting succeeds, a later session is established. A Next interrupted by a network error then returns a message from the later session without being called again; a Send returns its error, and the next Send of that link goes out on the later session. (A failed Accept is not reported and does not by itself lead to a new session.)", "quantifier": "every schedule of container and links, any number of sessions, links and reports", "why_tests_cant": "Recovery from every reachable state, whatever is queued.", "anchors": ["session/container.go:container.Start,container.awaitNextSession,link.Next,link.Send,link.Accept,link.withReceiver,link.withSender,link.handleError"]}
{"id": "C98", "title": "The collector watches and lists exactly the sources it knows", "statement": "Until it is stopped, the tool's collector has, for each source it knows, exactly one watch or a discovery still to be handled, and none for others; starting a watch never fails. Whatever /sources/ lists is known or its removal is pending; the details listed are those the source is known by, unless a newer discovery is pending; when nothing is pending and notifications were taken in order, it lists exactly what is known. (Violated without that order: a source that is forgotten and comes back may have its second discovery handled before its removal, and is then missing from /sources/ although known and watched, until it is forgotten again.)", "quantifier": "every schedule, any number of sources", "why_tests_cant": "Counts and orders over all interleavings of beacons, watches and handlers.", "anchors": ["cmd/vanflow-tool/serve.go:serveRecords", "eventsource/discovery.go:Discovery.NewWatchClient,Discovery.handleDiscovery,Discovery.observe"]}
{"id": "C99", "title": "The collector keeps going", "statement": "Whatever sources announce themselves, the collector handles them. (Violated: when thirty-four announce themselves before the handler of the first has started its watch, it stops for good: nothing is discovered, forgotten, watched or listed any more. Proved: this takes thirty-four known sources or thirty-three pending removals; in every other state, while Run goes on, everything pending is handled.)", "quantifier": "every schedule, any number of sources", "why_tests_cant": "A deadlock and its exact condition over all interleavings.", "anchors": ["cmd/vanflow-tool/serve.go:serveRecords", "eventsource/discovery.go:Discovery.NewWatchClient,Discovery.observe,Discovery.handleDiscovery"]}
{"id": "C100", "title": "The HTTP interface shows what was collected", "statement": "GET / answers 200 with every entry collected and the list of paths offered; every path offered answers 200 without a redirect; the path of a type, and any path below it, lists exactly the entries of that type, /sources/ the sources; the lists of the types together are the list of all. Any other path answers 404 with the paths offered. A request is redirected exactly if its path is not canonical or lacks the last slash of an offered path, and never twice.", "quantifier": "every path, every history of collected records whose times JSON can hold, both flags", "why_tests_cant": "Quantifies over all strings as paths and all store contents.", "anchors": ["cmd/vanflow-tool/serve.go:serveRecords", "cmd/vanflow-tool/api.go:RecordsResponse"]}
{"id": "C101", "title": "A list is never blank", "statement": "Whatever sources send, the lists are answered with data. (Violated: a message may carry a time past the year 9999, which JSON encoding refuses; its error is dropped, and from then on / and the path of that record's type answer 200 with an empty body. Proved: a list is blank exactly if it has an entry with such a time, in full otherwise.)", "quantifier": "every message identity, every history before and after, every time zone", "why_tests_cant": "One record among any number; the effect lasts over all continuations.", "anchors": ["cmd/vanflow-tool/serve.go:serveRecords", "base.go:Time.DecodeRecordAttribute"]}
{"id": "C102", "title": "What a link's methods return", "statement": "Next, Accept and Send return nil only when their call of the network did, and then they do. An error they return is the call's context's, the network's, or says that the link was closed after Close was called; Next gives up only once its own context has ended.", "quantifier": "every schedule of container and links", "why_tests_cant": "Origin of every result over all interleavings and reconnections.", "anchors": ["session/container.go:link.Next,link.Send,link.Accept,link.Close,link.withReceiver,link.withSender,link.handleError"]}
{"id": "C103", "title": "Every discovered source is asked for its records", "statement": "The tool asks each source it discovers to send all its records: after the first record or heartbeat handled from it, and if none comes, after five seconds; the request can go out at once in the first case and within five seconds in any. A request ended by the five seconds is made a second time, never a third. (Violated: a first request that fails for any other reason, such as a connection that breaks, is not repeated, and the source is never asked although the connection is made again.)", "quantifier": "every schedule of messages, time, shutdown and results of sending", "why_tests_cant": "Interleavings of the timeout, the first message and the result of sending.", "anchors": ["cmd/vanflow-tool/serve.go:serveRecords", "cmd/vanflow-tool/log.go:logOnly", "eventsource/flush.go:FlushOnFirstMessage", "eventsource/client.go:Client.SendFlush"]}
{"id": "C104", "title": "The log command prints every selected message", "statement": "Each record message and heartbeat the log command's listeners receive is printed as one line, if its flag is set: per listener in order, each once, with the message's address, subject and contents; until told to stop it can always go on until everything received is printed, and then it returns after at most one more line. (Violated: up to sixty-four lines already queued are lost when it stops; a message with one time past the year 9999 is not printed at all; and after one failed write to stdout nothing is printed any more, although it goes on.)", "quantifier": "every schedule of listeners, loop and shutdown, any number of listeners and messages", "why_tests_cant": "Order, completeness and losses over all interleavings with a bounded queue.", "anchors": ["cmd/vanflow-tool/log.go:logOnly"]}
{"id": "C105", "title": "Connections of forgotten sources are released", "statement": "The tool makes one connection for each discovery it takes up, and none besides its own and these. (Violated: it lasts until it gives up reconnecting or the tool stops, whether or not its source is known; a source that comes and goes n times leaves n connections open when nothing is known, watched or listed any more. Proved: exactly these, and all end when the tool stops.)", "quantifier": "every schedule of beacons, watches, handlers and network failures, any number of sources", "why_tests_cant": "Counts over unbounded histories of sources coming and going.", "anchors": ["cmd/vanflow-tool/serve.go:serveRecords", "cmd/vanflow-tool/log.go:logOnly", "session/container.go:container.Start"]}
{"id": "C106", "title": "A failing connection does not stop the tool while it can recover", "statement": "Errors of clients' connections never stop the tool; of the discovery's connection exactly the last one does, when it gives up: that is when more than sixty seconds have passed since any connection was started or last used, counting the next pause. It survives the first failure within fifty-nine seconds. (Violated: pauses grow with the failures of all connections; when thirteen that were just in use fail at once, the tool stops without one attempt to reconnect.)", "quantifier": "every schedule of containers, time and failures, any number of sources", "why_tests_cant": "Timing and sharing across any number of containers.", "anchors": ["cmd/vanflow-tool/serve.go:serveRecords", "cmd/vanflow-tool/log.go:logOnly", "cmd/vanflow-tool/main.go:main", "session/container.go:container.Start"]}
{"id": "C107", "title": "A source whose connection is lost for good is connected again", "statement": "From every state the tool can reach before it stops or fails, whatever became of its connections and unless all handling has come to a stop (C99): after at most sixty seconds in which a source is silent and then one announcement of it, a new connection to it can have been made, by nothing but the tool's own steps and the connection's success, and it is listed with the details announced. It gets no new connection before it was forgotten: between two connections made for a source a watch forgot it, so beacons of a known source whose connection was given up do not bring it back.", "quantifier": "every reachable state of discovery, watches, handlers and connections, any number of sources", "why_tests_cant": "Recovery from every combination of pending notifications, timers and dead connections.", "anchors": ["cmd/vanflow-tool/serve.go:serveRecords", "eventsource/discovery.go:Discovery.Run", "eventsource/discovery.go:watch.run"]}
{"id": "C108", "title": "The commands that serve HTTP end when told, and requests in progress get a second", "statement": "The serve and fixture commands end only after they were told to, by a signal or by the last error of their container; each of these does tell them; a server that cannot listen or that fails takes no more requests and does not end the command. Once told, from every state and whatever its requests do, the command can end within a second. No request is taken after the server was told to shut down, and at the end every request taken was answered exactly once or is among those cut off. If requests are cut off they had at least a second, provided the container did not give up: a last container error handled during the shutdown cancels that second (refuted in general, with a run that ends at once), since the variable that the error handler calls was given a new value.", "quantifier": "every interleaving of signals, container errors, requests, the server's goroutine and the shutdown", "why_tests_cant": "The interleavings of the error handler, the signal and the shutdown decide which context is cancelled.", "anchors": ["cmd/vanflow-tool/serve.go:serveRecords", "cmd/vanflow-tool/fixture.go:serveFixture", "session/container.go:container.Start"]}
{"id": "C109", "title": "Receive loops hand on what was received and end only with their context", "statement": "The loops that receive messages (a client listening, an event source listening for flush requests, discovery listening for beacons) return, and close their receiver, only after their context ended, whatever errors the network gives. Each message a loop received is handed on at most once and in the order received, and the flush and beacon loops leave none out; a client hands on only messages whose acceptance succeeded. A message is accepted on the very session it was received from, never on a later one. While the context lives and the container is in service, a loop can always receive another message and hand it on. Once the context has ended, a loop can return by its own steps, whatever it was doing, if the container's handlers are not running and its queue of errors has room, and it has then closed its receiver; with the container stopped and the queue full it may never return (refuted in general, with a run). After its context ended, the flush loop can take a failed receive for a flush request and ask the network to accept a message that does not exist: it crashes exactly if a receiver is then still created for the ended context (refuted in general, with a run); the other loops never do.", "quantifier": "every interleaving of the loop, the container's reconnects, other users of the container, network answers and the end of the context", "why_tests_cant": "Needs a network error at the very moment the context ends, and acceptance interleaved with a reconnect.", "anchors": ["eventsource/client.go:Client.Listen", "eventsource/manager.go:Manager.listenFlushes", "eventsource/discovery.go:Discovery.Run", "session/container.go:link.Next", "session/container.go:link.Accept"]}
{"id": "C110", "title": "What a message handler may do with the client that called it", "statement": "A handler registered with OnRecord or OnHeartbeat may call any method of the client. Calls of OnRecord, OnHeartbeat and Listen made while no Close is in progress come back without anybody else having to act, and calls of SendFlush always do; a handler registered this way sees the next messages, not the one being handed on. Close called from a handler never returns, and after it no listener hands on another message and no method but SendFlush returns to anyone. The same befalls a Close called by somebody else when a handler calls OnRecord, OnHeartbeat, Listen or Close before it returned. Handlers that call at most SendFlush do not keep Close from returning.", "quantifier": "every number of listeners and handlers, every sequence of calls made by handlers and by others, every interleaving", "why_tests_cant": "The deadlocks need a handler running at the moment Close takes the lock, and that something never returns cannot be observed by a test.", "anchors": ["eventsource/client.go:Client.OnRecord,Client.OnHeartbeat,Client.Listen,Client.Close,Client.SendFlush,Client.getHandlers"]}
{"id": "C111", "title": "Event handlers may use the store that called them", "statement": "A handler given in the store's EventHandlers may call any method of that store. Whatever handlers call, the calls of all goroutines have the results and effects they would have had, had other goroutines made the handlers' calls; a handler's call finds the change the handler was called for made, and returns before the call that made that change does. While a call has not returned some goroutine can go on, and once handlers make no more calls all calls return after finitely many steps. If one goroutine and the handlers it causes to run are the only writers, handlers are called in the order of the changes. A handler that answers every change with another change never returns, nor does the call that made the first.", "quantifier": "every sequence of calls made by every number of goroutines and by the handlers, nested to any depth, every interleaving", "why_tests_cant": "Deadlocks and lost order depend on when other goroutines take the lock between a change and its handler, and on how deeply handlers nest.", "anchors": ["store/cache.go:objectCache.Add,objectCache.Update,objectCache.Delete,objectCache.Accumulate", "store/internal/cache.go:SyncIndexedMap"]}
{"id": "C112", "title": "Attributes of user-defined types", "statement": "A record type may use attribute types of the user's own. Registration takes a struct exactly if no codepoint repeats and every attribute type is, below its pointers, over a string or a 32 or 64 bit integer, or has an encoder the field can use and a decoder. An encoder method on the pointer serves only fields that are pointers; a decoder method on the pointer serves all. Encode yields for each field what its own encoder returns, or the value itself, or nothing if it is empty or behind a nil pointer, and nothing else; Decode takes exactly the sets whose attributes each field accepts. If fields use no methods or use them both ways and these fit together, records survive Encode and Decode. Refuted beliefs: that a type with both methods survives (with both on the pointer and a field that is not, Encode passes over the method Decode relies on); that required attributes are always there (an encoder may return nil without error). A registered field of a defined type without methods (type Name string) is never sent as a string and never received from one: Decode of the whole record fails. A decoder on the value loses what it decodes; interface types can be registered and crash when decoded.", "quantifier": "every struct type, every combination of value and pointer methods, pointers of any depth, every behaviour of the user's methods, every value and attribute set", "why_tests_cant": "Needs all combinations of receivers, kinds and pointer depths; the tests use two types.", "anchors": ["encoding/encoder.go:getFieldEncoder,rawFieldEncoder.encode,recordAttrFieldEncoder.encode", "encoding/decoder.go:getFieldDecoder,rawFieldDecoder.decode,recordAttrFieldDecoder.decode", "encoding/encoding.go:typeEncoding.encode,typeEncoding.decode"]}
{"id": "C113", "title": "Watches and the clients they watch", "statement": "A watch runs once both its handlers are registered with its client. Each call of one by the client records activity at the time of the call, before the calling listener does anything else; nothing else records activity. If the client has at most one listener, activity is recorded in order, so that a watch with a timeout forgets its source only after silence; with two listeners it may forget a source heard of within the timeout. A watch ends only after its own Close of the client returned, and then the listeners from before are silent. Of two watches of one client at most one ends: the second to close it, or a watch of a client its user closed, or a user of a client its watch closed, crashes the process. A watch never ends if a listener has a message in hand when it closes the client, or a Listen is under way; otherwise it can end by steps of its client's listeners, handlers and Close alone. What is proved of discovery and clients apart holds of them together.", "quantifier": "every number of clients, watches and listeners; every interleaving of discovery, watches, clients, handlers and users; every time step and message", "why_tests_cant": "Needs two packages' goroutines interleaved under all timings; the tests watch one client with one listener and never close it twice.", "anchors": ["eventsource/discovery.go:NewWatchClient,newWatch,watch.run", "eventsource/client.go:Listen,Close,handle"]}
{"id": "C114", "title": "The collector with many sources", "statement": "The tool gives each source a client, a watch and a dispatcher that sends every collected type to one store. Each listener dispatches the records of the messages it accepted that decode, in order, none twice and none left out, each message before it does anything else. Whatever the sources send, nothing crashes and every dispatcher can return. An identity's entry has the source and type label of the first record that came with it from any source, and the type of the last; if all are of one type, each attribute is that of the last record that had it. Of records without identity the first stays. \"/\" lists one entry for each identity that came and no other, or is blank if one of them has no JSON form. Entries stay, with source and type label, whatever happens. After a client's Close nothing of what its listeners received comes any more. Refuted beliefs: that an entry's attributes are from the source it is labelled with; that the entries of a source that was forgotten, its watch ended and client closed, are no longer served.", "quantifier": "every number of sources, clients, watches, listeners and messages; every interleaving of discovery, watches, clients, dispatchers and requests; every message content", "why_tests_cant": "Needs many sources whose messages interleave inside one store; the tool has no tests.", "anchors": ["cmd/vanflow-tool/serve.go:serveRecords", "store/dispatch.go:RegisterStore,NewDispatcher,Dispatch", "eventsource/client.go:Listen,Close,OnRecord", "eventsource/discovery.go:NewWatchClient", "store/cache.go:objectCache.Accumulate"]}
{"id": "C115", "title": "Records of many sources arrive at the tool", "statement": "However many sources the tool collects, and whatever the others send: once a listener of a source's client has accepted and handed on all record messages its manager sent since it was asked for a flush (or since it started), and no other listener brought a record with that identity, the tool's store has every record that was flushed or published, labelled with that source and its type, with all attributes of the last version published, and with no others unless some version cleared an attribute; and the list served at / has it.", "quantifier": "every number of sources, every sequence of updates and store changes at the publisher, every interleaving at publisher and collector, every content of the other sources' messages", "why_tests_cant": "Spans two programs and all their interleavings; a test sees one publisher, one collector and one timing.", "anchors": ["eventsource/manager.go:Manager.Run,Manager.PublishUpdate", "eventsource/client.go:Listen,SendFlush", "store/dispatch.go:Dispatch", "store/cache.go:objectCache.Accumulate", "cmd/vanflow-tool/serve.go:serveRecords"]}
{"id": "C116", "title": "Using the record registry from many goroutines and from codecs", "statement": "However many goroutines register record types, encode and decode at once, and whatever calls the codecs of attribute types make meanwhile: every call returns what it would had the registrations that returned before it been made one after the other in that order; once a registration has returned without a panic its type and codepoint are known to every call that returns later, and no other registration of that codepoint succeeds. While no codec makes such calls, or no registration is under way, all calls return. A codec may not count on it otherwise: one that encodes while another goroutine registers, and one that registers, wait for ever; then no registration ever returns, nor does any later call that needs the registry once the registration has its turn; and nothing else makes calls hang.", "quantifier": "every number of goroutines, every interleaving, every nesting of calls in codecs, every registry and every record", "why_tests_cant": "Needs all interleavings of readers and writers at the mutex and codecs that call back; the tests register in init functions and use one goroutine.", "anchors": ["encoding/encoding.go:MustRegisterRecord", "encoding/encoder.go:Encode", "encoding/decoder.go:Decode"]}
{"id": "C117", "title": "Programs with different record types exchange records", "statement": "A record that one program encodes is decoded by another whose type with that codepoint is a different one exactly if every attribute it carries has the type the other expects and it carries all that the other requires; then the other gets what was carried for each codepoint it knows and zero for the rest. So versions of a type that agree on the types of shared attributes can be mixed if the receiver requires nothing the sender does not. A record message of any registered types arrives with its records up to the first that the receiver does not accept, in order, and an error if there is one; receiving it never crashes. Encoding one fails if and only if some record does not encode. (A nil pointer in it crashes the sender.)", "quantifier": "every pair of registries, every struct type, every record and every list of records", "why_tests_cant": "Needs two programs with different registries; the tests encode and decode with one.", "anchors": ["messages.go:RecordMessage.Encode,DecodeRecord,decodeRecords", "encoding/encoder.go:Encode", "encoding/decoder.go:Decode"]}
{"id": "C118", "title": "Index functions that panic", "statement": "If an index function of a store panics and the caller recovers, the call has been applied all the same: later Get and List calls see exactly what they would had the function returned, no event handler is called, and the store can still be used. A call panics exactly if an index function panics on the entry it writes, replaces or deletes, so such an entry cannot be changed or deleted without another panic. Index lookups and index values stay exact for all keys no panicking call was about; for those keys a lookup may miss the entry or return a blank one, until a Replace succeeds, which makes all lookups exact again.", "quantifier": "for all index and key functions, histories of calls on one store with any of them panicking and recovered, map iteration orders, entries, indexes", "why_tests_cant": "Index functions that panic on unexpected records are rarely tested together with a recovering caller, and what is left in the indexes depends on map iteration order and on the history of the key.", "anchors": ["store/internal/cache.go:40-126", "store/internal/cache.go:153-219", "store/cache.go:78-94", "store/cache.go:160-245"]}
{"id": "C119", "title": "Index functions that call their store", "statement": "An index function may not use the store that called it. If Add, Update, Delete, Replace or Accumulate called it and it makes any call on the store, no call on the store returns to any goroutine from then on. If Index called it and it changes the store, neither its call nor Index returns, nor does any call that changes the store, and all later calls of other goroutines may hang too. If Index called it and it only reads, its call returns at once or never, and it returns if no call that changes the store is under way. As long as no index function calls the store, every call of every goroutine returns, and when nothing goes on although someone is in a call, some index function has called its store.", "quantifier": "every number of goroutines, every interleaving, every nesting of calls", "why_tests_cant": "Depends on the interleaving of readers and writers at the mutex; a test of an index function that reads its store passes when nobody writes.", "anchors": ["store/internal/cache.go:SyncIndexedMap.Patch,SyncIndexedMap.Update,SyncIndexedMap.Delete,SyncIndexedMap.Replace,SyncIndexedMap.Index,SyncIndexedMap.reindex,SyncIndexedMap.unindex", "store/cache.go:objectCache.Index"]}
{"id": "C120", "title": "Starting a container again", "statement": "Started once, a container does what the properties above say. Started again, after it has ended or while it runs: each call of Start numbers its sessions from one, closes all of them when it ends, and ends its newest one only for its own context or an error with that number; links made later use the session established last, and a call that waits since a session failed gets the newest session if its number differs. (Violated: that links go on. A link that lost the first session of the first time never gets the first session of the second, and no existing link works again until another link fails, the container is stopped or started once more; a link that still had a session of the first time ends the new one when its old one fails; with two running, errors are taken by the wrong one.)", "quantifier": "every number of calls of Start, every interleaving, every answer of the network", "why_tests_cant": "Needs sessions that fail before and after a restart and links that outlive it; the tests start each container once.", "anchors": ["session/container.go:container.Start,container.awaitNextSession,link.handleError,link.awaitSession"]}
{"id": "C121", "title": "Wire numbers of record fields", "statement": "A record type has the code, name and fields of a table extracted from the source text, and nothing else is registered. A sent record carries its type code, under each codepoint what the field of that name says, and no other attribute. A received record has in each field what its codepoint says, and it is accepted exactly if every codepoint can be read.", "quantifier": "for every record type, every value of every field and every received attribute set", "why_tests_cant": "Other programs read these numbers. A swapped codepoint or a renamed field still round-trips inside one program, so tests that encode and decode with the same code cannot see it, and they try a few field values only.", "anchors": ["records.go:9-221", "base.go:25-29", "encoding/encoder.go:36-60", "encoding/decoder.go:22-47"]}
{"id": "C122", "title": "Discovery run more than once", "statement": "Run may be called again on the same Discovery, after an earlier call ended or at the same time. The set of known sources and the notifications not yet handed out carry over. A source that is known is not announced again to a later caller's handlers: they hear only what was still waiting. Every notification goes to the handlers of exactly one of the calls, in the order in which notifications of its kind arose. A new call frees an Add, Forget or beacon that was blocked because an earlier call had ended or its handler had called back, and delivers everything that was waiting; without one such a block never ends. The claim that handlers are not called after their Run returned is refuted: they may still take notifications, even those caused by a later call, until their goroutine notices the end of its context, and never after that. With a single call everything proved of Discovery holds.", "quantifier": "all numbers of calls of Run, all interleavings of them with users, watches, beacons, cancellations and receive errors", "why_tests_cant": "Which of the concurrent handler goroutines takes a notification is the scheduler's choice; a test cannot show that none is ever lost or repeated, nor that a blocked call never returns.", "anchors": ["eventsource/discovery.go:17-24", "eventsource/discovery.go:49-88", "eventsource/discovery.go:101-128"]}
{"id": "C123", "title": "Manager run more than once", "statement": "PublishUpdate may be called before Run: 256 updates are accepted and wait, the next one blocks. Run may be called again on the same Manager, after an earlier call ended or at the same time. Updates and messages that wait carry over. Every published update is taken by exactly one call, in the order of publishing, and a call's update messages have the records of what it took, in order; at most one batch per call is lost, when the call ends with it in hand. Messages are taken for sending in the order they were queued, each once, whichever call queued them. After all earlier calls stopped, a new call goes on with the first update that waits; it can always make room for a blocked PublishUpdate and send what was left. A call whose loop has ended queues nothing more. Flush requests that wait carry over as well: one that no pass of any call followed waits, or a call has it in hand, or a cancelled call has ended; a later call can answer one that waits; all passes together are not more than the messages and errors received. (Violated: with two calls at once the updates of one record may be sent in the opposite order of publishing; a flush request that a call has in hand when it ends is lost.) One call made first behaves as proved of the manager elsewhere.", "quantifier": "all numbers of calls of Run, all interleavings with publishers, flush requests, store calls, cancellations and send results, all configurations", "why_tests_cant": "The scheduler chooses which call takes an update; no test covers all schedules, and losses show only if a call ends at the wrong moment.", "anchors": ["eventsource/manager.go:51-78", "eventsource/manager.go:80-100", "eventsource/manager.go:144-226"]}
{"id": "C124", "title": "Flush over a store of another kind", "statement": "A Manager may be given any implementation of store.Interface. A flush asks the stores one after the other, each from its beginning and with the configured limit, going on with the token of the last answer until that is empty; pages without records are skipped, all others are queued as one message each, in the order they came. After an error List is called again with the same token. What the stores answer does not affect the order and completeness of updates and of sending. While the store being asked only returns errors that are not the context's, nothing is queued, neither from the other stores nor from published updates, and the goroutine does not return, cancelled or not; so it is false that the goroutine returns when its context ends. The context's own error ends it once cancelled, and is retried before.", "quantifier": "all stores, i.e. all sequences of pages, tokens, errors and panics, all configurations, all interleavings with publishers, flush requests, cancellation and sending", "why_tests_cant": "The tests use the package's own store only, which never fails here; a failing store spins for ever, which a test cannot observe to the end.", "anchors": ["eventsource/manager.go:176-224", "store/store.go:77-90"]}
{"id": "C125", "title": "A source that goes on sending is not forgotten", "statement": "From its first beacon on, a source sends a heartbeat in every stretch of one heartbeat interval plus the longest time a Send keeps its goroutine. If heartbeats reach a collector's watch within a delay D, and interval, that time and D together are less than the watch's timeout, the watch decides to forget the source only before the first heartbeat can have come or after the source stopped. With the defaults and the tool's timeout this leaves 28 seconds for delays. The tool hears the heartbeats of a source exactly if they go to the source's usual address or its type is CONTROLLER; the fixture's sources are all heard.", "quantifier": "all configurations, all runs of the source and of the collector's discovery and watches, all delays within the bound", "why_tests_cant": "Tests run for seconds with fixed intervals; the bound is about all combinations of ticks, delays and resets.", "anchors": ["eventsource/manager.go:228-303", "eventsource/discovery.go:160-255", "cmd/vanflow-tool/serve.go:123-163", "cmd/vanflow-tool/log.go:57-105", "cmd/vanflow-tool/fixture.go:115-128"]}
{"id": "C126", "title": "A source that falls silent is forgotten", "statement": "If nothing is recorded for a watch after some time T, and the watch is given the processor and the lock within P whenever it has something to do, then it has removed its source one update interval and one timeout after T plus three times P, or, if later, when grace period and timeout from its start are over, unless its context is cancelled. For the tool's watches this is 31 seconds. So a source that stopped is forgotten within 31 seconds of its last message, plus the delay of that message.", "quantifier": "all watch configurations with a timeout, all schedules of watch, clock, other watches, handlers and calls in which the watch is served within P", "why_tests_cant": "A test sees single schedules; the claim bounds all interleavings of ticks, timer, activity and lock.", "anchors": ["eventsource/discovery.go:160-255", "cmd/vanflow-tool/serve.go:131", "cmd/vanflow-tool/log.go:62"]}
{"id": "C127", "title": "Updates are not held back", "statement": "At any time the updates published so far are those handed on to the sender and those still waiting. If the serving loop and the sender never have something to do for longer than P, each waiting update was published at most UpdateBufferTime plus twice FlushDelay and P ago, plus FlushDelay and P for every flush pass started since; without flush requests at most UpdateBufferTime and twice P ago. (There is no bound independent of flushes: as long as flushes are requested the select may prefer them, and an update waits one FlushDelay per pass.)", "quantifier": "all configurations, all histories of updates and flush requests, all schedules in which the loop is served within P", "why_tests_cant": "A test measures single schedules; the claim bounds the wait of every update in all interleavings of updates, flush requests, timers and sends.", "anchors": ["eventsource/manager.go:144-226", "eventsource/manager.go:341-358"]}
{"id": "C128", "title": "Flush requests are answered in time", "statement": "A flush request that no pass over the stores has followed yet was received at most FlushDelay, UpdateBufferTime and three times P ago, plus UpdateBufferTime and P for every update published since, if the serving loop and the sender never have something to do for longer than P. (A bound without the updates would be wrong: as long as updates are published a request may wait, n times UpdateBufferTime with n updates, even if the loop is never late.)", "quantifier": "all configurations, all histories of updates and flush requests, all schedules in which the loop is served within P", "why_tests_cant": "A test measures single schedules; the claim covers requests that arrive while updates are buffered, while others are drained and while a pass runs.", "anchors": ["eventsource/manager.go:144-226", "eventsource/manager.go:305-326", "eventsource/manager.go:341-358"]}
{"id": "C129", "title": "Flush requests are served together", "statement": "Two flush passes, one after the other, start at least FlushDelay apart, unless more than two thousand flush requests were received in between.", "quantifier": "all configurations, all histories, all schedules", "why_tests_cant": "A test would have to wait for the clock and could only try a few patterns of requests.", "anchors": ["eventsource/manager.go:177-194", "eventsource/manager.go:341-358"]}
