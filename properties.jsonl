{"id": "C01", "title": "Live list operations keep the client's windows equal to the server's list", "statement": "When one room is bumped, added to or removed from a sliding list, a client that applies the returned DELETE/INSERT operations to the window contents it already holds ends up with exactly the server's new list contents at every position inside its tracked windows.", "quantifier": "every list of distinct rooms, every set of valid (non-overlapping, well-formed) windows, every single add/remove/re-sort of one room, every client view that agreed with the server before the change", "why_tests_cant": "the number of lists, window layouts and from/to index pairs is unbounded; the table-driven tests enumerate a few dozen index pairs", "anchors": ["sync3/ops.go:CalculateListOps", "sync3/request.go:CalculateMoveIndexes", "sync3/request.go:WriteSwapOp", "sync3/range.go:ClosestInDirection"]}
{"id": "C02", "title": "Rooms that become visible in a window are announced", "statement": "After a live list change, every room that is inside a window now and was inside none before is in the set of rooms the connection is told to subscribe to, and every room in that set is inside a window now.", "quantifier": "every list, window set and single-room change", "why_tests_cant": "same unbounded space as the list operations; a missed announcement shows up only as a room with no data on the client", "anchors": ["sync3/ops.go:CalculateListOps", "sync3/handler/connstate_live.go:processLiveUpdateForList"]}
{"id": "C03", "title": "List operations never crash the request", "statement": "Computing the operations for a live list change never reads past the end of the list, whatever windows the client asked for.", "quantifier": "every list length, valid window set and add/remove/change", "why_tests_cant": "needs all boundary positions of windows relative to the (shrinking) list length", "anchors": ["sync3/ops.go:CalculateListOps", "sync3/sort.go:Get"]}
{"id": "C04", "title": "Window validation is exact and slicing stays in bounds", "statement": "A list's ranges are accepted exactly when each range is ordered and non-negative and no two ranges share a position; for accepted ranges the rooms returned for the windows are exactly the list positions covered by some range, each once, and never out of bounds.", "quantifier": "every list of integer pairs and every list of rooms", "why_tests_cant": "pairwise overlap over arbitrary many ranges, lists longer or shorter than the ranges", "anchors": ["sync3/range.go:Valid", "sync3/range.go:Inside", "sync3/range.go:SliceInto", "sync3/sort.go:Subslice"]}
{"id": "C05", "title": "Window changes are split into added, removed and unchanged positions", "statement": "When a client replaces its windows, the positions reported as added are those only in the new windows, removed those only in the old windows, and same those in both.", "quantifier": "every pair of valid window sets", "why_tests_cant": "sweep-line algorithm over arbitrarily many interval endpoints with ties", "anchors": ["sync3/range.go:Delta", "sync3/range.go:createRange", "sync3/range.go:sortPoints"]}
{"id": "C06", "title": "Sorted lists are permutations with a correct index", "statement": "Sorting a list keeps exactly the same rooms, orders them lexicographically by the requested comparators, and afterwards the reported index of each room is its position and rooms not in the list have none; adding or removing a room changes the list by just that room.", "quantifier": "every list, every sequence of add/remove/sort, every accepted sort order and room metadata", "why_tests_cant": "unbounded operation sequences; comparator totality/transitivity is a for-all property", "anchors": ["sync3/sort.go:Sort", "sync3/sort.go:Add", "sync3/sort.go:Remove", "sync3/sort.go:IndexOf"]}
{"id": "C07", "title": "Updating a room reports precisely which lists gain, lose or keep it", "statement": "When a room's metadata is updated, each list reports add, delete or change exactly according to whether the room was in it and whether it now satisfies the list's filter and has not been left; lists it neither was nor should be in report nothing.", "quantifier": "every collection of lists and filters, every prior room state and new metadata", "why_tests_cant": "quantifies over arbitrary filters and histories", "anchors": ["sync3/lists.go:SetRoom", "sync3/lists.go:AssignList"]}
{"id": "C08", "title": "Filters mean the conjunction of their fields", "statement": "A room is in a filtered list exactly when it satisfies every field the client set: dm-ness, encryption, invite state, tags and not_tags, name substring, space children, room types and not_room_types, and rooms whose upgraded replacement the user has joined are hidden.", "quantifier": "every filter and every room", "why_tests_cant": "product of ~10 optional filter fields and room attributes", "anchors": ["sync3/request.go:Include", "sync3/handler/connstate.go"]}
{"id": "C09", "title": "Connection positions advance by exactly one per processed request", "statement": "On a connection each successfully processed request yields a response with a position exactly one larger than any response before it; rejected or failed requests produce no new position.", "quantifier": "every sequence of requests, handler results, errors and panics", "why_tests_cant": "invariant over all histories", "anchors": ["sync3/conn.go:OnIncomingRequest"]}
{"id": "C10", "title": "Retried requests get the same response", "statement": "If a client repeats its last request (same pos, same body up to txn_id), it receives exactly the response it got before, and the handler is not invoked again.", "quantifier": "every history of a connection and any number of retries", "why_tests_cant": "histories mix retries, changed bodies, errors and buffered responses", "anchors": ["sync3/conn.go:OnIncomingRequest", "sync3/request.go:Same"]}
{"id": "C11", "title": "Unknown positions are rejected without side effects", "statement": "A request with a non-zero position that is neither an unacknowledged response's position nor the position of the last processed request is answered with M_UNKNOWN_POS and leaves the connection state unchanged.", "quantifier": "every history and every integer position", "why_tests_cant": "all integers and all histories", "anchors": ["sync3/conn.go:OnIncomingRequest", "internal/errors.go:ExpiredSessionError"]}
{"id": "C12", "title": "Responses are delivered in order with no gaps until acknowledged", "statement": "The response given to a request at position p is the oldest produced response with a position greater than p; no response is discarded before the client sends a position beyond it, so a client that always sends the last position it received sees every response exactly once, in order.", "quantifier": "every history of a connection, with lost responses at any point", "why_tests_cant": "crash/loss points are unbounded", "anchors": ["sync3/conn.go:OnIncomingRequest"]}
{"id": "C13", "title": "Request parameters are sticky", "statement": "Parameters a request does not mention keep the value last set on the connection; mentioned ones replace it; this holds per list and for extensions.", "quantifier": "every prior request and every delta", "why_tests_cant": "every subset of optional fields across any number of lists", "anchors": ["sync3/request.go:ApplyDelta", "sync3/extensions/extensions.go:ApplyDelta"]}
{"id": "C14", "title": "Deleting lists and unsubscribing rooms take effect exactly", "statement": "A list marked deleted is gone from the effective request; a room is subscribed exactly if it was subscribed or is newly subscribed and is not unsubscribed in this request; the reported new subscriptions and removed subscriptions are the differences.", "quantifier": "every prior request and every delta", "why_tests_cant": "map/set interplay for arbitrary sizes and duplicates", "anchors": ["sync3/request.go:ApplyDelta"]}
{"id": "C15", "title": "Combining subscriptions never loses requested data", "statement": "When a room is covered by several lists and subscriptions the effective subscription asks for at least the largest timeline limit and all required state of each, independent of the order of combination.", "quantifier": "every multiset of subscriptions", "why_tests_cant": "arbitrary number and order of subscriptions", "anchors": ["sync3/room.go:Combine", "sync3/handler/rooms_builder.go:BuildSubscriptions"]}
{"id": "C16", "title": "Rooms are loaded once per response with their combined subscription", "statement": "Building the subscriptions for a response lists every requested room exactly once, with the combination of exactly the subscriptions that requested it.", "quantifier": "every sequence of subscription/room registrations", "why_tests_cant": "arbitrary overlap between lists", "anchors": ["sync3/handler/rooms_builder.go"]}
{"id": "C17", "title": "required_state selects the requested state events", "statement": "A state event is included exactly when it matches a requested (type, state_key) pair with '*' wildcards, '$ME' replaced by the user, where a request for all state is narrowed by entries naming state keys of a type; '$LAZY' adds the members who sent a timeline event; the storage query built from the request returns a superset of what is included.", "quantifier": "every required_state list and every event", "why_tests_cant": "wildcard combinations for arbitrary strings", "anchors": ["internal/required_state_map.go:Include", "internal/required_state_map.go:QueryStateMap", "sync3/room.go:RequiredStateMap"]}
{"id": "C18", "title": "The joined-room tracker equals the fold of membership events", "statement": "After any sequence of joins, invites, leaves, bulk joins and reloads, the set of joined users of a room and of joined rooms of a user are mutual inverses and equal what the last membership change for each pair says.", "quantifier": "every operation sequence", "why_tests_cant": "unbounded interleavings of membership changes", "anchors": ["sync3/tracker.go"]}
{"id": "C19", "title": "Room events are delivered only to members", "statement": "A live event in a room reaches a user's cache only if the user is joined to the room after the event, or the event is that user's own leave/ban and they were joined or invited just before; nobody else's cache is called.", "quantifier": "every history of events, registrations and reloads", "why_tests_cant": "confidentiality: must hold in all histories", "anchors": ["sync3/dispatcher.go:OnNewEvent", "sync3/dispatcher.go:notifyListeners", "sync3/tracker.go"]}
{"id": "C20", "title": "Every joined registered user is told about each event exactly once, after the global cache", "statement": "For each live event every registered user joined to the room is called exactly once, and the global cache is called before any user.", "quantifier": "every history", "why_tests_cant": "completeness over arbitrary memberships and registration orders", "anchors": ["sync3/dispatcher.go:OnNewEvent", "sync3/dispatcher.go:notifyListeners"]}
{"id": "C21", "title": "Pre-emptive bans and stray leaves are not leaked", "statement": "A leave or ban for a user who was neither joined to nor invited to the room is not delivered to that user.", "quantifier": "every history and every target user", "why_tests_cant": "negative property over all histories", "anchors": ["sync3/dispatcher.go:OnNewEvent", "sync3/tracker.go:UserLeftRoom"]}
{"id": "C22", "title": "Join and invite counts are the sizes of the current member sets", "statement": "The join count attached to each dispatched event is the number of users joined after it, and the invite count attached to a membership event is the number of users invited after it.", "quantifier": "every history including duplicate invites and joins", "why_tests_cant": "increment/decrement schemes fail only on duplicate or reordered events", "anchors": ["sync3/dispatcher.go", "sync3/tracker.go:NumInvitedUsersForRoom"]}
{"id": "C23", "title": "A room's current state holds the latest event per (type, state_key)", "statement": "After storing any sequence of state blocks and timelines, the room's current snapshot contains exactly one event per (type, state_key) and it is the most recently stored one.", "quantifier": "every sequence of initialise/accumulate calls", "why_tests_cant": "unbounded histories of state changes", "anchors": ["state/accumulator.go:calculateNewSnapshot", "state/accumulator.go:Accumulate", "state/accumulator.go:Initialise"]}
{"id": "C24", "title": "Timelines are stored once and in order", "statement": "Storing a timeline that overlaps what is already known stores only the events after the last known one, gives them increasing positions in timeline order, and storing the same timeline again changes nothing.", "quantifier": "every database content and timeline, with arbitrary overlap, duplicates and repeats by several pollers", "why_tests_cant": "several pollers deliver overlapping timelines in every combination", "anchors": ["state/accumulator.go:filterToNewTimelineEvents", "state/accumulator.go:parseAndDeduplicateTimelineEvents", "state/accumulator.go:Accumulate"]}
{"id": "C25", "title": "Each event remembers the state before it", "statement": "The snapshot recorded with a timeline event is the room state after all earlier events and before that event; the event's own effect is visible only from the next snapshot on.", "quantifier": "every timeline and every prior state", "why_tests_cant": "off-by-one snapshots appear only with specific state/message interleavings", "anchors": ["state/accumulator.go:Accumulate", "state/storage.go:RoomStateAfterEventPosition"]}
{"id": "C26", "title": "Room state at a position is the state after the latest event up to it", "statement": "Asking for the state of a room at a position returns, for each (type, state_key), the latest stored event not after that position, restricted to the requested types and state keys.", "quantifier": "every history, position and filter", "why_tests_cant": "positions \u00d7 filters \u00d7 histories", "anchors": ["state/storage.go:RoomStateAfterEventPosition"]}
{"id": "C27", "title": "History visibility: users only get events from when they were in the room", "statement": "The event range computed for a user and room covers only positions at which the user was joined or invited, never events after they left and never events from before the last (re)join.", "quantifier": "every sequence of membership events between two positions", "why_tests_cant": "leave/rejoin/kick sequences of any length", "anchors": ["state/storage.go:VisibleEventNIDsBetween", "state/storage.go:visibleEventNIDsWithData", "state/storage.go:determineJoinedRoomsFromMemberships"]}
{"id": "C28", "title": "Timelines served have no gaps, respect the limit and are oldest first", "statement": "The recent timeline of a room has at most the requested number of events, in increasing position order, and contains consecutive timeline events up to the newest one with no known gap between them.", "quantifier": "every stored event sequence with gaps, and every limit", "why_tests_cant": "gap placement relative to the limit", "anchors": ["state/event_table.go:SelectLatestEventsBetween", "state/storage.go:LatestEventsInRooms"]}
{"id": "C29", "title": "Ignored users' messages are dropped and nothing else", "statement": "Events from ignored senders are removed from served timelines unless they are state events; all other events are kept in order.", "quantifier": "every timeline and ignore list", "why_tests_cant": "arbitrary mixes", "anchors": ["state/storage.go:DiscardIgnoredMessages", "sync3/caches/user.go:ShouldIgnore"]}
{"id": "C30", "title": "To-device messages are delivered in order, and removed only when acknowledged", "statement": "Reading a device's inbox from a position returns that device's stored messages with larger positions, oldest first, up to the limit; a message other than a cancelled key request stays readable until the client acknowledges a position at or beyond it, across restarts and retries.", "quantifier": "every sequence of inserts, reads and acknowledgements over any number of devices", "why_tests_cant": "lost messages make room keys unrecoverable; depends on all interleavings", "anchors": ["state/to_device_table.go", "sync3/extensions/todevice.go:ProcessInitial"]}
{"id": "C31", "title": "Key-request cancellation removes only what the recipient need not see", "statement": "A room-key request and its cancellation are both dropped only when neither was sent; a request the client may already have seen is never left uncancelled.", "quantifier": "every inbox content and batch", "why_tests_cant": "depends on the order and on which messages were already handed out", "anchors": ["state/to_device_table.go:InsertMessages"]}
{"id": "C32", "title": "Device-list changes are delivered at least once and then forgotten", "statement": "Every changed/left notification for a device is in the next non-initial read, is returned again by a repeat of the read until the following read acknowledges it, and is not returned after that; the latest state per user wins.", "quantifier": "every interleaving of updates, reads, retries and initial reads", "why_tests_cant": "lost or endlessly repeated changes depend on the interleaving", "anchors": ["state/device_list_table.go:SelectTx", "state/device_list_table.go:UpsertTx", "sync3/handler/handler.go:DeviceData"]}
{"id": "C33", "title": "One-time-key and fallback-key changes are reported", "statement": "Whenever the homeserver reports counts or fallback types different from the last ones processed, the stored device data and the changed flag are updated, so the client sees the latest values once.", "quantifier": "every sequence of upstream responses", "why_tests_cant": "map comparison pitfalls (missing keys, nil versus empty) are for-all properties", "anchors": ["sync2/poller.go:parseE2EEData", "state/device_data_table.go", "internal/device_data.go"]}
{"id": "C34", "title": "The upstream sync token never moves past unprocessed data", "statement": "A poller's position advances exactly when every section of the response was stored or failed with a permanent data error; after any crash the persisted position is at most the processed one, so every response section is processed at least once.", "quantifier": "every sequence of responses, failures and crash points", "why_tests_cant": "crash points and failure combinations are unbounded", "anchors": ["sync2/poller.go:poll", "sync2/poller.go:shouldRetry", "sync2/storage.go"]}
{"id": "C35", "title": "One bad room does not block others", "statement": "Processing a response attempts every joined, invited and left room even if some fail, and asks for a retry exactly if some failure is not a permanent data error.", "quantifier": "every set of rooms and failure pattern", "why_tests_cant": "all failure combinations, any iteration order", "anchors": ["sync2/poller.go:parseRoomsResponse", "sync2/poller.go:shouldRetry"]}
{"id": "C36", "title": "Account data survives a failed write and a retry", "statement": "Account data received from upstream is stored even if the first attempt to store it fails and the response is processed again.", "quantifier": "every sequence of attempts and failures", "why_tests_cant": "requires fault injection at each write", "anchors": ["sync2/handler2/handler.go:OnAccountData"]}
{"id": "C37", "title": "Stored unread counts track the latest upstream counts", "statement": "After processing a sequence of unread-count updates the stored counts for a user and room equal, per counter, the last value given.", "quantifier": "every sequence with missing and zero counters", "why_tests_cant": "needs the specific sequence of nil and zero values", "anchors": ["sync2/handler2/handler.go:UpdateUnreadCounts", "state/unread_table.go"]}
{"id": "C38", "title": "Receipts keep their meaning and private receipts stay private", "statement": "Packing receipts into an event and unpacking it yields the same receipts (one per event, user and thread choice), unthreaded receipts take precedence, and private receipts are delivered only to the user who made them.", "quantifier": "every list of receipts", "why_tests_cant": "nested JSON grouping for arbitrary combinations", "anchors": ["state/receipt_table.go:PackReceiptsIntoEDU", "sync3/handler/handler.go:OnReceipt", "sync3/extensions/receipts.go"]}
{"id": "C39", "title": "One poller at a time drives a room's typing state", "statement": "Typing updates for a room are accepted from one poller only, until that poller stops or the room is left; then another can take over.", "quantifier": "every interleaving of pollers, terminations and leaves", "why_tests_cant": "races between pollers", "anchors": ["sync2/handler2/handler.go:SetTyping", "sync2/handler2/handler.go:OnTerminated"]}
{"id": "C40", "title": "Waiting for transaction IDs neither loses, duplicates nor reorders events", "statement": "Updates queued while waiting for a transaction ID are each published exactly once and in arrival order per room, at the latest when the delay expires; without a delay they pass straight through.", "quantifier": "every sequence of updates, all-clears and timer firings", "why_tests_cant": "timer interleavings", "anchors": ["sync3/handler/txn_id_waiter.go"]}
{"id": "C41", "title": "The all-clear for an event is given at most once and only when safe", "statement": "The all-clear for an event is announced only after every device of the sender known when the event was first seen reported it without a transaction ID, at most once, and never after one device reported a transaction ID.", "quantifier": "every interleaving of device reports", "why_tests_cant": "device report orders", "anchors": ["sync2/txnid.go"]}
{"id": "C42", "title": "A connection is set up only after the poller's initial sync", "statement": "Ensuring a poller returns success only after that device's initial sync completed, and reports an expired token if the poller failed; waiting is never skipped.", "quantifier": "every interleaving of requests, completions and expiries", "why_tests_cant": "concurrency schedules", "anchors": ["sync3/handler/ensure_polling.go"]}
{"id": "C43", "title": "At most one running poller per device", "statement": "For each user and device there is at most one non-terminated poller, and a terminated poller is replaced by the next request.", "quantifier": "every sequence of ensure/expire/terminate steps", "why_tests_cant": "schedules", "anchors": ["sync2/poller.go:EnsurePolling", "sync2/poller.go:ExpirePollers"]}
{"id": "C44", "title": "The connection map stays consistent", "statement": "A connection found by ID is always registered for its user and alive; closing a device's or user's connections removes all of them and no others; creating a connection replaces the old one.", "quantifier": "every sequence of create/lookup/close/expire", "why_tests_cant": "histories with dead connections and delayed callbacks", "anchors": ["sync3/connmap.go"]}
{"id": "C45", "title": "Room names follow the documented precedence and never crash", "statement": "The room name is the explicit name, else the canonical alias, else built from at most the given number of heroes and the member counts, else 'Empty Room'; it is computed without panics for every metadata.", "quantifier": "every room metadata and hero limit", "why_tests_cant": "counts and hero lists of every size, including inconsistent ones", "anchors": ["internal/roomname.go:CalculateRoomName"]}
{"id": "C46", "title": "Global room metadata is the fold of the room's events", "statement": "After any sequence of events the cached name, alias, topic-independent metadata, encryption, predecessor/successor, heroes and space children equal the last relevant event of each kind, with no duplicate heroes.", "quantifier": "every event sequence", "why_tests_cant": "unbounded histories", "anchors": ["sync3/caches/global.go:OnNewEvent"]}
{"id": "C47", "title": "Invites appear while pending and disappear when answered", "statement": "A stored invite for a user and room is present exactly if the latest membership information for that pair is an invite.", "quantifier": "every sequence of invites, joins, leaves and state blocks", "why_tests_cant": "histories", "anchors": ["state/invites_table.go", "state/accumulator.go", "sync2/handler2/handler.go:OnInvite"]}
{"id": "C48", "title": "Snapshot clean-up never deletes state that is still reachable", "statement": "The clean-up job never removes a room's current snapshot nor the snapshots belonging to its most recent events that a timeline of maximal length can reach.", "quantifier": "every snapshot history", "why_tests_cant": "histories with interleaved rooms", "anchors": ["state/storage.go:RemoveInaccessibleStateSnapshots"]}
{"id": "C49", "title": "Bulk inserts are chunked without loss", "statement": "Splitting rows for bulk insertion yields chunks whose concatenation is the input, none empty and none exceeding the parameter limit.", "quantifier": "every number of rows, columns and limit", "why_tests_cant": "all sizes", "anchors": ["sqlutil/sql.go:Chunkify"]}
{"id": "C50", "title": "Database transactions are all-or-nothing", "statement": "A transactional operation that returns an error or panics leaves no effect; otherwise all effects are committed.", "quantifier": "every body, error and panic point", "why_tests_cant": "crash points", "anchors": ["sqlutil/sql.go:WithTransaction"]}
{"id": "C51", "title": "Device-data notifications are never lost", "statement": "Every device remembered for notification is included in a notification that is emitted after it was remembered, even if remembering races with emission.", "quantifier": "every interleaving of remember and emit steps", "why_tests_cant": "schedules of a concurrent map", "anchors": ["sync2/device_data_ticker.go"]}
{"id": "C52", "title": "A connection shows each event once and never an event older than its loaded position", "statement": "In a connection's timelines no event appears twice and events arrive in increasing position order per room, whether they come from the initial load or from live updates.", "quantifier": "every interleaving of loads and live updates", "why_tests_cant": "races between loading from the database and live delivery", "anchors": ["sync3/handler/connstate_live.go:processLiveUpdate", "sync3/handler/connstate.go"]}
{"id": "C53", "title": "Extensions apply only to their configured scope", "statement": "A scoped extension reports on a room exactly if the extension is enabled and the room is named by its rooms parameter, or visible in a list named by its lists parameter, with '*' meaning all.", "quantifier": "every scope configuration and visibility map", "why_tests_cant": "wildcards \u00d7 sets", "anchors": ["sync3/extensions/extensions.go:RoomInScope", "sync3/extensions/extensions.go:ApplyDelta"]}
{"id": "C54", "title": "Lazily loaded members are sent once per connection", "statement": "A member's state event is included for a room the first time the member is needed on a connection and not again until the tracking for the room is reset.", "quantifier": "every sequence of needs", "why_tests_cant": "histories", "anchors": ["sync3/handler/lazy_member.go"]}
{"id": "C55", "title": "Internal notifications are delivered in order without loss", "statement": "Payloads accepted on a channel are handed to the listener in the order they were accepted, each once; a payload is refused with an error only when the buffer stays full.", "quantifier": "every schedule of notifiers and the listener", "why_tests_cant": "schedules", "anchors": ["pubsub/pubsub.go"]}
{"id": "C56", "title": "Access tokens are bound to one user and device", "statement": "A stored access token resolves to the user and device it was first registered with, and a failed decryption of one token does not prevent pollers for the others from starting.", "quantifier": "every token table content", "why_tests_cant": "fault placement", "anchors": ["sync2/tokens_table.go"]}
{"id": "C57", "title": "Space relations equal the fold of m.space.child/parent events", "statement": "After processing batches of space events the stored parent/child relations are exactly those whose latest event has a valid via list.", "quantifier": "every batch sequence", "why_tests_cant": "batch ordering and duplicates", "anchors": ["state/spaces_table.go"]}
{"id": "C58", "title": "Including old rooms terminates", "statement": "Following a room's upgrade chain to include old rooms always terminates and adds each predecessor at most once.", "quantifier": "every predecessor graph, including cycles", "why_tests_cant": "adversarial room creators control predecessor links", "anchors": ["sync3/handler/connstate.go:buildRooms"]}
{"id": "C59", "title": "Device-list merging keeps the strongest state", "statement": "Combining device-list deltas keeps every user, with the newer delta's value winning for users in both, and splitting into changed/left arrays and back is lossless.", "quantifier": "every pair of deltas", "why_tests_cant": "arbitrary maps", "anchors": ["internal/device_lists.go", "internal/device_data.go"]}
{"id": "C60", "title": "List operations are well formed", "statement": "Every operation in a live list response is a DELETE at a position inside the client's windows or an INSERT, at a position inside the windows, of the room the server's list has there; there is no empty operation.", "quantifier": "every list, window set and single-room change", "why_tests_cant": "unbounded lists and window layouts; the client crashes on a malformed operation", "anchors": ["sync3/ops.go:CalculateListOps", "sync3/request.go:WriteDeleteOp", "sync3/request.go:WriteSwapOp"]}
{"id": "C61", "title": "A list request brings the client up to date, and it stays so", "statement": "After a request that creates a list, changes its windows, its sort order or its filters, the client which applies the SYNC and INVALIDATE operations knows the room at every position of its windows; over any later history of requests and room updates on any number of lists it stays right about all of them.", "quantifier": "every history of room updates and list requests, every number of lists and rooms", "why_tests_cant": "unbounded histories interleaving requests and updates over several lists", "anchors": ["sync3/handler/connstate.go:onIncomingListRequest", "sync3/handler/connstate_live.go:resort", "sync3/lists.go:AssignList", "sync3/lists.go:SetRoom"]}
{"id": "C62", "title": "Changed room fields are reported", "statement": "When a known room is updated, the flags sent with the update say exactly which of the joined count, invited count, notification count and highlight count changed, and whenever the name or avatar shown to the user changed that is reported too.", "quantifier": "every stored room and every update of it", "why_tests_cant": "names and avatars are computed from many fields; a missed combination leaves a client stale for ever", "anchors": ["sync3/lists.go:SetRoom", "sync3/room.go:SameRoomAvatar", "internal/roomname.go:SameRoomName"]}
{"id": "C63", "title": "A redaction affects only the event it names, in its own room", "statement": "Storing a timeline changes the stored content of an already stored event only if a redaction in that timeline names the event, and never changes events of other rooms.", "quantifier": "every database content and timeline with any redactions", "why_tests_cant": "the redaction and its target may be in any rooms, orders and earlier histories", "anchors": ["state/event_table.go:Redact", "state/accumulator.go:Accumulate"]}
{"id": "C64", "title": "The pagination token never skips events", "statement": "The token returned with a room's timeline, from which a client paginates back, is one stored with an event of that room at or after the oldest event served, or nothing if there is none; so paginating back from it skips no event before the served timeline.", "quantifier": "every database content, user, position and limit", "why_tests_cant": "depends on which of unboundedly many stored events carry tokens", "anchors": ["state/event_table.go:SelectClosestPrevBatch", "state/storage.go:LatestEventsInRooms"]}
{"id": "C65", "title": "A room's timeline shows only the room's own events", "statement": "Every event that a connection delivers in the timeline of a room is an event of that room.", "quantifier": "every history of requests and live updates on a connection", "why_tests_cant": "depends on which updates the caches send to which room over unbounded histories", "anchors": ["sync3/caches/user.go:OnSpaceUpdate", "sync3/handler/connstate_live.go:processLiveUpdate"]}
{"id": "C66", "title": "Only unused devices are expired", "statement": "The clean-up that stops the pollers of inactive devices finds a device only if no request was made with its tokens within the inactivity period less 24 hours, and finds every device whose requests are all longer ago than the period.", "quantifier": "every history of requests, token deletions and syncs, every period and time", "why_tests_cant": "the stored time lags behind the requests; depends on unbounded histories of request times", "anchors": ["sync2/devices_table.go:FindOldDevices", "sync2/tokens_table.go:MaybeUpdateLastSeen", "sync3/handler/handler.go:setupConnection"]}
{"id": "C67", "title": "The outcome of starting a poller at startup is reported for the right device", "statement": "For every device whose poller is started when the process starts, it is reported once whether that succeeded, and the report is about that device's own poller.", "quantifier": "every set of devices and every interleaving of the 16 workers", "why_tests_cant": "interleavings of workers", "anchors": ["sync2/handler2/handler.go:StartV2Pollers"]}
{"id": "C68", "title": "A restart brings back what was stored about rooms", "statement": "When the process starts it succeeds, whatever was stored, and for each stored room it knows the joined users, the join and invite counts, the heroes, the name, alias, avatar, encryption, type, predecessor, successor, children and latest events that the stored events imply. In particular no encrypted room is taken for an unencrypted one.", "quantifier": "every history of state blocks, timelines, invites and clean-ups, every order in which rows are returned, every content", "why_tests_cant": "a restart can happen after any history; queries must agree with every stored history", "anchors": ["state/storage.go:GlobalSnapshot", "state/storage.go:AllJoinedMembers", "state/storage.go:MetadataForAllRooms", "state/event_table.go:selectLatestEventByTypeInAllRooms", "state/rooms_table.go:Upsert"]}
{"id": "C69", "title": "What is known about a user's rooms is the latest that was said", "statement": "For each user and room, the notification and highlight counts, the direct-message flag, the tags, the ignored users, the pending invite with its name, avatar and members, whether the user left the room and which spaces it is in are what the latest count, account data, invite, leave or event said; every change is told to the user's connections once, with these values; an invite's update contains only what the invite says.", "quantifier": "every history of counts, account data, events, invites, leaves, typing and receipts for a user", "why_tests_cant": "the state is built by unbounded histories of interleaved kinds of updates", "anchors": ["sync3/caches/user.go:OnUnreadCounts", "sync3/caches/user.go:OnAccountData", "sync3/caches/user.go:OnInvite", "sync3/caches/user.go:OnLeftRoom", "sync3/caches/user.go:OnNewEvent", "sync3/caches/user.go:OnSpaceUpdate", "sync3/caches/user.go:NewInviteData", "sync3/lists.go:SetRoom"]}
{"id": "C70", "title": "Setting up a connection misses no update", "statement": "Once everything stored about a user has been notified and handled, every connection of the user knows what is stored about them, whatever was stored and notified while their first connection, or several at once, were being set up or a room was being reloaded; and all connections of a user share one cache, which is the one that is told about updates.", "quantifier": "every interleaving of any number of connection setups, writes, notifications and reloads of rooms for a user", "why_tests_cant": "interleavings of goroutines that read the database in several steps while notifications arrive", "anchors": ["sync3/handler/handler.go:userCache", "sync3/handler/handler.go:setupConnection", "sync3/handler/handler.go:OnInvalidateRoom", "sync3/dispatcher.go:Register", "sync3/caches/user.go:OnRegistered"]}
{"id": "C71", "title": "A list filtered by a space shows the space's rooms", "statement": "A room counts as being in a space, for a user's lists that are filtered by it, exactly if the user is joined to the space and the latest m.space.child event about the room in the space names a server, whenever the user or others joined or left the space and whenever children were added or removed.", "quantifier": "every history of events before and after the user is registered", "why_tests_cant": "membership and children change in unbounded histories, and what the user's cache knows depends on their order", "anchors": ["sync3/caches/user.go:OnRegistered", "sync3/caches/user.go:OnSpaceUpdate", "sync3/caches/global.go:OnNewEvent", "sync3/dispatcher.go:OnNewEvent", "sync3/request.go:Include"]}
{"id": "C72", "title": "A request waits for updates without losing any, and no longer than asked", "statement": "A request that has something to say is answered at once; otherwise it waits until an update gives it something to say, its timeout (at least 100 ms) is over or it is cancelled. Updates of a connection are handled once and in order; if one cannot be queued, because the client does not read, the connection is refused from then on, so that no client goes on without it. A client that always has data to fetch is not starved of updates.", "quantifier": "every interleaving of senders, timers, cancellations and requests on a connection, every size of the buffer", "why_tests_cant": "interleavings of goroutines on a bounded channel with timers", "anchors": ["sync3/handler/connstate_live.go:onUpdate", "sync3/handler/connstate_live.go:liveUpdate", "sync3/connmap.go:getConn", "sync3/handler/connstate.go:Destroy"]}
{"id": "C73", "title": "Requests on one connection are served in turn, and a newer one ends the wait of an older one", "statement": "However requests on a connection overlap, each gets the reply which it would get if they were served one after the other, in an order that respects which was answered before which arrived, and none is served before another is finished. A request that waits for updates ends when a newer one arrives or the connection is closed, and for no other reason than these, its client going away, its timeout or its data. No request is blocked for ever.", "quantifier": "every interleaving of any number of requests on a connection, with arbitrary results of the handler, clients that go away and the connection being closed", "why_tests_cant": "interleavings of goroutines between two mutexes", "anchors": ["sync3/conn.go:OnIncomingRequest", "sync3/handler/handler.go:setupConnection", "sync3/handler/connstate.go:Destroy", "sync3/handler/connstate.go:SetCancelCallback"]}
{"id": "C74", "title": "An event's transaction ID is shown to the device that sent it, and to nobody else", "statement": "An event that a device sent has, whenever that device is sent the event, the transaction ID with which the device sent it, whichever user's poller brought the event first; no other device, of the same user or of another, is shown a transaction ID in it. Nobody is shown a wrong ID, and nothing else in the event is changed.", "quantifier": "every history of polls, failed stores, cleanings and responses; every order of Go's maps", "why_tests_cant": "the same stored event is shared by all users, and which poller is first depends on the schedule", "anchors": ["sync2/handler2/handler.go:Accumulate", "state/txn_table.go:Insert", "state/txn_table.go:Clean", "state/event_table.go:Insert", "sync3/caches/user.go:AnnotateWithTransactionIDs"]}
{"id": "C75", "title": "A poller goes on from where it was until its token is refused", "statement": "Each request to the homeserver asks for what comes after the last response that was handled, and the position moves only once all of a response was handled, to-device messages last; a response that cannot be stored is asked for again, not skipped. After a failure the poller waits three seconds. The position is stored at once if the response had to-device messages, and at least every minute. The poller goes on until it is ended or the homeserver refuses its token; only then is the token given up. Requests that wait for its first sync are released when the first response was handled or the poller ends.", "quantifier": "every sequence of answers, errors, failures to handle a section, panics and terminations", "why_tests_cant": "the loop runs for ever, and failures can come in any order", "anchors": ["sync2/poller.go:Poll", "sync2/poller.go:poll", "sync2/client.go:DoSyncV2"]}
{"id": "C76", "title": "To-device messages from upstream are neither lost nor stored twice", "statement": "The homeserver forgets to-device messages once it is asked for what comes after them. Each message has been stored before that, wherever the server crashed and was restarted, and no message is stored twice; messages are stored in the order in which they were sent.", "quantifier": "every history of polls, failures and crashes between any two effects, with restarts from the stored position", "why_tests_cant": "crashes can come between any two effects", "anchors": ["sync2/poller.go:poll", "sync2/poller.go:parseToDeviceMessages", "sync2/devices_table.go:UpdateDeviceSince", "state/to_device_table.go:InsertMessages"]}
{"id": "C77", "title": "While a room is in view, the client's copy of it follows the room", "statement": "From the moment a room comes into a window or is subscribed to until it leaves, the client's copy of its name, avatar, unread counts, member counts and whether it is a direct chat, kept by merging each response into it as the JSON says (absent fields keep their value), is what the server knows once no update is outstanding, and meanwhile is something that was so at one moment.", "quantifier": "every history of events, held-back messages, typing, receipts, unread counts, loads at any database position and responses", "why_tests_cant": "an unbounded history of updates, in orders set by goroutines and timers, must lead to the same place", "anchors": ["sync3/handler/connstate_live.go:processLiveUpdate", "sync3/handler/connstate_live.go:processGlobalUpdates", "sync3/handler/connstate.go:getInitialRoomData", "sync3/handler/connstate.go:lazyLoadTypingMembers", "sync3/lists.go:SetRoom", "sync3/room.go:Room", "sync3/handler/txn_id_waiter.go:Ingest"]}
{"id": "C78", "title": "An event a poller stores reaches the client of a room in view, once and in order", "statement": "While a room is in view, what the client has of its timeline is a stretch of the room's timeline as the database has it: in the same order, with no event missing in between and none twice. Events missing at its end are on their way, and the server can always deliver them without anything else happening: afterwards the client has the latest events.", "quantifier": "every history of stored timelines of any rooms, messages between the two halves of the server, events held back for transaction IDs and released, buffered updates, loads of rooms at any moment, and responses", "why_tests_cant": "the parts are tested each on its own; whether what one promises is what the next relies on depends on every interleaving of pollers, timers and requests", "anchors": ["sync2/handler2/handler.go:Accumulate", "sync3/handler/handler.go:Accumulate", "sync3/dispatcher.go:OnNewEvent", "sync3/caches/user.go:OnNewEvent", "sync3/handler/txn_id_waiter.go:Ingest", "sync3/handler/connstate_live.go:processLiveUpdate", "sync3/handler/connstate.go:getInitialRoomData"]}
{"id": "C79", "title": "Upgrading the server loses nothing that was not to be cleaned up", "statement": "Whatever earlier version of the server left the database, and however often the server crashes during the upgrade, the upgrade ends in the same database: every device still has its key counts, fallback key types, unsent and unacknowledged device list changes, which is what the new version reads first; only rooms without a creation event, invites that the room's state contradicts, and the invites and sync positions of users with unread counts in unknown rooms are removed. An upgrade that is done is not done again, and going back a version gives the data there was.", "quantifier": "every database left by any version, every order of rows and map entries, every number and place of crashes", "why_tests_cant": "tests migrate a handful of rows once; they neither crash between migrations nor meet every stored value", "anchors": ["v3.go:Setup", "state/migrations/20230802121023_device_data_jsonb.go:upJSONB", "state/migrations/20230814183302_cbor_device_data.go:upCborDeviceData", "state/migrations/20230814183302_cbor_device_data.go:downCborDeviceData", "state/migrations/20230822180807_bogus_snapshot_cleanup.go:upBogusSnapshotCleanup", "state/migrations/20231019153023_cleanup_dead_invites.sql", "state/migrations/20231108122539_clear_stuck_invites.go:upClearStuckInvites", "state/migrations/20240517104423_device_list_table.go:upDeviceListTable"]}
{"id": "C80", "title": "Nothing of a room is shown to a user who is not in it", "statement": "Whatever a response shows of a room - an event as it happens, its name, avatar and member counts, its required_state - is as it was at a moment at which the user was in the room, or is their own departure; of a room they are only invited to it shows what the invite says and nothing else. This holds however the room gets into the response: a window, a subscription, as a predecessor, or because of an event.", "quantifier": "every history of stored events of any rooms, their being handed out in any order across rooms, invites and departures reported by the user's own poller at any time, account data, events held back for transaction IDs, requests for any windows and subscriptions and updates processed at any time", "why_tests_cant": "a leak needs a request between two steps of different goroutines, and a test can only try some of them", "anchors": ["sync3/handler/connstate.go:onIncomingListRequest", "sync3/handler/connstate.go:buildRoomSubscriptions", "sync3/handler/connstate.go:buildRooms", "sync3/handler/connstate.go:getInitialRoomData", "sync3/handler/connstate_live.go:processLiveUpdate", "sync3/handler/connstate_live.go:processGlobalUpdates", "sync3/dispatcher.go:OnNewEvent", "sync3/caches/user.go:OnLeftRoom", "sync3/caches/user.go:OnInvite", "sync2/poller.go:parseRoomsResponse"]}
{"id": "C81", "title": "Rooms come into a user's lists when they are invited, and go when they leave", "statement": "Once all updates have arrived, a room to which the user was invited is in their lists (as far as filters let it), and a room from which they departed - left, was kicked or banned, or refused an invite - is in none.", "quantifier": "every history as in C80, after the invite or the departure", "why_tests_cant": "updates are dropped or not depending on what was loaded before, which a test has to happen to do", "anchors": ["sync2/poller.go:parseRoomsResponse", "sync3/caches/user.go:OnLeftRoom", "sync3/handler/connstate_live.go:processLiveUpdate", "sync3/lists.go:SetRoom"]}
{"id": "C82", "title": "A client's copy of account data follows what is stored", "statement": "A client that applies the account data of all responses, newer data of a type replacing older data, has exactly the stored account data once everything stored was notified, every update was taken and the last request answered: of each room which the account data extension covers, and the user's global account data if the client asks for the extension.", "quantifier": "all stored data, all orders in which a poller's writes, the notifications, the room updates, the requests and the live updates interleave, all scopes of the extension and all rooms in view at each step", "why_tests_cant": "The copy depends on which of the three ways (initial load, load with a room's update, data update) each piece of data took and on how writes interleave with them; tests check one interleaving at a time.", "anchors": ["sync3/extensions/account_data.go AccountDataRequest.ProcessInitial, AppendLive", "sync3/handler/connstate.go onIncomingRequest", "sync3/handler/connstate_live.go processUpdate", "sync3/caches/user.go OnAccountData", "sync3/handler/handler.go OnAccountData", "state/account_data.go Insert, Select, SelectMany"]}
{"id": "C83", "title": "A client's copy of typing notifications follows the newest typing event", "statement": "When every update was taken and the last request answered, a client that keeps the last typing event it was given of each room has the newest typing event of each room which the typing extension covers.", "quantifier": "all sequences of typing events, room events (held back for their transaction ID or not), requests and live updates in any order, all scopes of the extension", "why_tests_cant": "Typing events travel with every update of the room, as a copy made when the update was made; whether an old copy can overtake a new event depends on the schedule.", "anchors": ["sync3/extensions/typing.go TypingRequest.ProcessInitial, AppendLive", "sync3/caches/user.go OnTyping, newRoomUpdate", "sync3/handler/txn_id_waiter.go TxnIDWaiter", "sync3/caches/global.go OnEphemeralEvent", "sync3/handler/connstate_live.go processUpdate"]}
{"id": "C84", "title": "Read receipts reach the client, and private ones nobody else", "statement": "When nothing is outstanding, a client that asks for the receipts of a room has the user's own receipts, public and private, as the server has stored them, and also every receipt of another user that came while the room was in scope. At no time does it have one newer than what is stored, and it never gets a private receipt of somebody else.", "quantifier": "all stores, rooms, users and m.receipt events, all interleavings of pollers, of the consumer of notifications, of requests and of live updates, all orders in which maps are walked and rows are read, and all crashes and new connections", "why_tests_cant": "whether a receipt gets lost depends on when it comes relative to a request, to the room's coming into view and to a crash, and on the iteration order of maps", "anchors": ["sync2/handler2/handler.go OnReceipt", "state/receipt_table.go Insert, SelectReceiptsForEvents, SelectReceiptsForUser, PackReceiptsIntoEDU", "sync3/handler/handler.go OnReceipt", "sync3/dispatcher.go OnReceipt", "sync3/extensions/receipts.go AppendLive, ProcessInitial", "sync3/extensions/extensions.go RoomInScope"]}
{"id": "C85", "title": "A request for a device gets an answer, and a device that is let through is polled", "statement": "A request that has to wait until the server polls for its device is answered once the server has done what there is to do, without a request to the server's gate ever crashing it. As long as requests for a device are let through without waiting, the server polls upstream for that device, or is about to notice that it does not.", "quantifier": "all stored tokens, devices and logins, all interleavings of requests, of the handling of messages, of pollers, of refused tokens, of the removal of unused pollers and of the startup of the server", "why_tests_cant": "it takes a token refused between two steps of a request, or a request between two steps of a poller's end, to lock a device out or leave it without a poller", "anchors": ["sync3/handler/ensure_polling.go EnsurePolling, OnInitialSyncComplete, OnExpiredToken", "sync2/handler2/handler.go EnsurePolling, StartV2Pollers, OnExpiredToken", "sync2/poller.go EnsurePolling, ExpirePollers, poll", "sync3/handler/handler.go setupConnection", "sync2/tokens_table.go GetTokenAndSince, Delete"]}
{"id": "C86", "title": "What happens in a user's rooms is stored, whichever of the user's devices hears of it", "statement": "A user's devices are polled for separately, and a device that starts to be polled for while another one is polled for skips, in its first sync, everything in the rooms. Nothing may get lost by that: once every device with a token has been told of everything up to the homeserver's present position, everything that happened up to there is in the proxy's database, so that clients can see it; and with a single device what is before any stored or held position is in the database at all times.", "quantifier": "all histories of things happening upstream, logins, requests to poll, polls answered at any position, stored or unstored positions, refused tokens, panics and restarts, for any number of devices", "why_tests_cant": "what is missing depends on which device's position was where when another one skipped and on what ended afterwards; tests start one or two pollers that stay alive", "anchors": ["sync2/poller.go: PollerMap.EnsurePolling", "sync2/poller.go: poller.poll", "sync2/client.go: HTTPClient.createSyncURL", "sync2/handler2/handler.go: StartV2Pollers, EnsurePolling, OnExpiredToken", "sync2/devices_table.go"]}
{"id": "C87", "title": "A client that stops reading costs other clients nothing", "statement": "When a client stops fetching its updates, or is slow to, the updates of all other clients still arrive, all of them and in order: the server waits a bounded time for the one that does not read, gives up on it, and loses nothing that was meant for the others.", "quantifier": "every set of connections, any of which may have stopped reading with its buffer filled to any degree; every sequence of notifications at any times, addressed to any connections in any order; callers that wait for each other and callers that do not; any buffer and channel size", "why_tests_cant": "what is lost depends on how many connections stop being read at which moment, on the times at which notifications arrive, and on a queue filling up behind a handler that waits; a test runs one such history at one pace", "anchors": ["pubsub/pubsub.go: PubSub.Notify, PubSub.Listen", "sync3/handler/connstate_live.go: connStateLive.onUpdate", "sync3/caches/user.go: emitOnRoomUpdate", "sync3/handler/connstate.go: ConnState.Alive", "v3.go: Setup"]}
{"id": "C88", "title": "Every request is answered once, and an error says what was wrong", "statement": "Every request to the sync endpoint gets exactly one answer. It is a response if and only if the method is POST, the body can be read and its parts are within limits, the token is one that belongs to somebody, pos and timeout are numbers or missing, the connection is there, and the connection answers. Otherwise the status and code tell which of these failed: 405 for the method, 400 for what is malformed, 401 for a missing token, 401 M_UNKNOWN_TOKEN for one that no longer is good, 502 if the homeserver cannot tell, 400 M_UNKNOWN_POS if the session is gone, and what the connection says otherwise. A refused request has no effect, and what a request does it does for the one whose token it bears.", "quantifier": "every method, body, Authorization header, pos and timeout, as arbitrary strings; every content of the token table, every answer of the homeserver to whoami, every state of connections, caches and pollers, every answer of the connection, and success or failure of writing the response", "why_tests_cant": "the answer depends on a dozen independent conditions that are checked in a certain order, over arbitrary strings; tests take one condition at a time, and the order only shows when several fail together", "anchors": ["sync3/handler/handler.go: ServeHTTP, serve, setupConnection, identifyUnknownAccessToken, parseIntFromQuery", "internal/request.go: ExtractAccessToken", "internal/errors.go: HandlerError", "sync2/client.go: WhoAmI", "sync3/request.go: Validate", "v3.go: allowCORS"]}
{"id": "C89", "title": "The homeserver is asked for what comes after the token it gave, whatever the token is", "statement": "When the server polls a homeserver, the homeserver reads in the address of the request exactly the since token it gave before, byte for byte, or none if there is none yet; a timeout of zero if and only if it is the first poll; and a filter that asks for no presence, for one event a room at first and 50 later, and for no rooms if and only if only to-device messages are wanted. What the poller gets is what the homeserver answers to that, and different tokens are never taken for each other.", "quantifier": "every token, as an arbitrary string of bytes, including ones with separators, percent signs, plus signs, spaces and bytes that are not ASCII; every base address without a query or fragment; first poll or not, rooms wanted or not; every behaviour of the homeserver", "why_tests_cant": "tokens are opaque strings that other software makes up; a test tries some, and an escape that is missing only shows with a token that has that character", "anchors": ["sync2/client.go: HTTPClient.createSyncURL, HTTPClient.DoSyncV2"]}
{"id": "C90", "title": "Connections of one user do not disturb each other", "statement": "When a user has several connections, each is told of a change of a room's members as if it were the only one: the heroes a client is sent, and those the room's name is made of, are the room's heroes without the user, a client that is not told knew already, and no request fails because of another connection.", "quantifier": "every list of heroes with or without the user in any place; any number of connections of the user, each with any knowledge of the room; every way in which their steps on the same update alternate, and every moment at which responses are encoded", "why_tests_cant": "what goes wrong depends on which instruction of one request falls between which two of another; a test hardly ever hits it, and the race detector only says so if it does", "anchors": ["internal/roomname.go: RoomMetadata.DeepCopy, RoomMetadata.RemoveHero", "sync3/caches/user.go: newRoomUpdate, emitOnRoomUpdate", "sync3/handler/connstate_live.go: processLiveUpdate, processGlobalUpdates"]}
{"id": "C91", "title": "When a room's state is replaced, everybody in it starts afresh and nobody else is disturbed", "statement": "After the proxy handled the notice that a room's state was replaced, the users it treats as joined or invited in that room are exactly those of the new state, other rooms' members are unchanged, and the rooms known for each user agree with that. Every user with a membership in the new state (also one who left or is banned) who was being served has no usable connection, no cached data and no registration left, so that their next request starts over. Every other user keeps all of these.", "quantifier": "every earlier history of memberships and of connections, every new membership list, every interleaved use of the connection map, every user and room", "why_tests_cant": "tests invalidate one room with a couple of users on a connection map with an ordinary history; the claim ranges over all histories of connections, expiries and memberships", "anchors": ["sync3/handler/handler.go:OnInvalidateRoom", "state/storage.go:FetchMemberships", "sync3/dispatcher.go:UnregisterBulk", "sync3/dispatcher.go:OnInvalidateRoom", "sync3/tracker.go:ReloadMembershipsForRoom", "sync3/connmap.go:CloseConnsForUsers"]}
{"id": "C92", "title": "At every moment a list shows exactly the rooms its filters ask for", "statement": "Whatever room updates, list requests, changes of filters and list deletions came before: a room is in a list of a connection exactly if the user has not left it and it passes, as it is now, the filters that the client asked for last; a room the connection does not know is in none; and the client knows the rooms at the positions of its windows.", "quantifier": "every history of room updates, list requests (any number of lists, windows, sort orders and filters) and list deletions of a connection, every room, every iteration order of Go maps", "why_tests_cant": "tests look at a list after a few updates with one filter; whether a list drifts away from its filters depends on the whole history, and on rooms other than the one that is looked at", "anchors": ["sync3/lists.go:SetRoom", "sync3/lists.go:AssignList", "sync3/request.go:Include", "sync3/request.go:FiltersChanged", "sync3/handler/connstate.go:onIncomingListRequest", "sync3/handler/connstate_live.go:resort"]}
{"id": "C93", "title": "Lists sorted by recency go by the events the client asked for", "statement": "In a list sorted by recency, a room comes before another if its latest event of interest is later: the latest event, since the user joined, of one of the types in the list's bump_event_types, of any type if there are none, and the join itself if there is no such event. Events of other types do not move a room. The timestamp sent with a room is the time of its latest event of interest.", "quantifier": "all histories of events, joins, other updates, connections being set up, list requests, deletions, events held back for transaction IDs, rooms sent as a whole and updates processed; all sets of types; any number of rooms and events", "why_tests_cant": "the order depends on what happened before the connection was made, while it was set up and since, and on the order in which events, held back events and responses go through; each test plays one order", "anchors": ["sync3/handler/connstate.go:load", "sync3/handler/connstate.go:getInitialRoomData", "sync3/handler/connstate_live.go:processLiveUpdate", "sync3/handler/connstate_live.go:processUpdatesForSubscriptions", "sync3/lists.go:SetRoom", "sync3/request.go:BumpEventTypes", "sync3/handler/txn_id_waiter.go"]}
{"id": "C94", "title": "A client that asks for all rooms of a list is sent every room in it", "statement": "If a client sets slow_get_all_rooms in every request for a list, then every room the list has was sent to the client in full for that list since the list was made: first all rooms that pass the filters, later each room the moment it comes into the list. With unchanged filters the list has exactly the rooms that pass them, of those the user has not left. Turning the option on for an existing list does not send its rooms, and when a room goes from such a list the response has no list operation that says so.", "quantifier": "every history of room updates, list requests (for this and any other list) and list deletions of any length, every room, list, filter and order of map iteration", "why_tests_cant": "the rooms that come into the list after the first response depend on the history of updates, and on requests for the list in between; a test plays one history", "anchors": ["sync3/handler/connstate.go:onIncomingListRequest", "sync3/handler/connstate_live.go:resort", "sync3/lists.go:SetRoom", "sync3/lists.go:AssignList"]}
{"id": "C95", "title": "After each response the client knows how many rooms each list has, and which are in its windows", "statement": "Every response is about exactly the lists the client asks for. For each, the count is the number of rooms in the list after all updates the response takes in, no room is in the list twice, the list is in the order asked for, and a client that applies all operations of the response in order knows the room at every position of its windows. The list has exactly the rooms that pass the filters asked for last, of those the user has not left. A change of the count alone does not end the client's wait.", "quantifier": "any number of requests and responses on a connection, each with any lists (new, changed, unchanged, deleted) in any order of map iteration and any number of room updates taken in; all rooms, windows, sort orders and filters", "why_tests_cant": "a response adds the operations of the request and of every update it takes in; whether they can be applied together and the count fits depends on the whole sequence, and the map order of lists is random; tests play a few sequences", "anchors": ["sync3/handler/connstate.go:onIncomingRequest", "sync3/handler/connstate.go:buildListSubscriptions", "sync3/handler/connstate_live.go:liveUpdate", "sync3/handler/connstate_live.go:processLiveUpdateForList", "sync3/lists.go:Count"]}
{"id": "C96", "title": "What pollers hear of is handled one piece at a time, and every call comes back with its own result", "statement": "Everything pollers hear of that users share (new events, state, invites, leaves, typing, receipts, account data, unread counts) is handled one piece after the other, whichever devices it comes from; a poller goes on only after its own piece was handled, exactly once and in the order in which it was heard of, and gets the result of that piece and not of another. End-to-end encryption data is handled by at most as many workers as there are. No piece waits forever, whoever is scheduled when. A poller none of whose handlers panicked can always go on with the next response once its calls are answered. After a shutdown nothing shared is handled any more. A panic in a handler stops nobody but the poller it works for.", "quantifier": "any number of pollers and calls, any number of workers (at least one), every schedule, results, panics and shutting down at any point", "why_tests_cant": "the interleavings of pollers, executor and workers cannot be enumerated, and that nothing waits forever is about all of them", "anchors": ["sync2/poller.go: PollerMap.execute, Accumulate, Initialise, SetTyping, OnInvite, OnLeftRoom, UpdateUnreadCounts, OnAccountData, OnReceipt, OnE2EEData, AddToDeviceMessages, UpdateDeviceSince, OnTerminated, OnExpiredToken, Terminate; poller.Poll (recover)", "internal/pool.go: WorkerPool", "sync2/handler2/handler.go: OnE2EEData"]}
{"id": "C97", "title": "A client that asks for heroes knows who they are", "statement": "While a room is in view of a client that asks for heroes (include_heroes, in the room's subscription or in a list it is visible in), and the room has no name of its own, so that clients name it after its heroes, the client knows the room's heroes, without the user, with their names and pictures, as soon as no update of the room is outstanding.", "quantifier": "every history of the room and of the user's unread counts, updates held back or not, the room coming into view by a request or by an update and leaving it, any number of responses, the client changing what it asks for at any point", "why_tests_cant": "what the client knows is the result of all responses so far, and an update that fails to send heroes shows only in some later state", "anchors": ["sync3/handler/connstate_live.go: processLiveUpdate, shouldIncludeHeroes", "sync3/handler/connstate.go: getInitialRoomData", "sync3/request.go: RoomSubscription.IncludeHeroes, Combine", "internal/roomname.go: CalculateRoomName, SameRoomName, sameHeroNames", "sync3/room.go: Room.Heroes"]}
{"id": "C98", "title": "A client that asks for more about rooms it has in view gets it", "statement": "When a request asks for more about rooms the client already has in view (a longer timeline, other required state, heroes, or the rooms they replaced), in a list or in a room subscription, the response contains those rooms with what is now asked for. Rooms about which nothing new is asked are not sent on account of the request.", "quantifier": "every effective request so far and every next request, changing any number of lists and subscriptions at once, all lists of rooms, and all orders in which the server takes lists, subscriptions and rooms", "why_tests_cant": "it concerns every combination of what was asked before and what is asked now, over several lists and subscriptions that are combined for the same room", "anchors": ["sync3/handler/connstate.go: onIncomingRequest, onIncomingListRequest, buildListSubscriptions, buildRoomSubscriptions", "sync3/request.go: ApplyDelta, TimelineLimitChanged, RequiredStateChanged, Combine", "sync3/handler/rooms_builder.go: AddSubscription, AddRoomsToSubscription, BuildSubscriptions"]}
{"id": "C99", "title": "A request is answered as soon as there is something to tell", "statement": "A request waits only while its response tells the client nothing: no list operation, no change in the number of rooms of a list, no room, no to-device message, no change of devices or keys, no account data, typing notification or receipt. If what the request asks for is something to tell, it does not wait at all. Account data and typing notifications that are to be told are told, whatever else happens before the response is sent.", "quantifier": "every response, every effect of updates on responses, and every interleaving of updates, requests, cancellations and the passing of time", "why_tests_cant": "a kind of data that the server forgets to look for only delays responses, until something else happens, which a test that sends one thing at a time and looks for it does not notice", "anchors": ["sync3/handler/connstate_live.go: liveUpdate", "sync3/response.go: Response.ListOps", "sync3/extensions/extensions.go: Response.HasData, fields", "sync3/extensions/todevice.go, e2ee.go, account_data.go, typing.go, receipts.go: HasData"]}
