# Formal model of the sliding-sync proxy

The model and proofs are Rocq (Coq 8.16.1) files in `rocq/theories` (logical
name `Verif`). They formalise the Go code in `/repo`, read as text; nothing is
executed.

## Layout

For each area `X` of the code there are up to four files:

- `XModel.v`  – Gallina port of the Go functions. Every definition cites the
  file and lines it models and states its simplifications.
- `XSpec.v`   – the small declarative vocabulary used to state the properties
  (independent of the ported helper functions).
- `XProofs.v` – lemmas and proofs.
- `XProps.v`  – only the property theorems, each closed by `exact lemma`, with
  non-vacuity examples beside them and `Print Assumptions` below.

## Modelling conventions

- Strings are Coq `string`s, Go `int`/`int64` values are `Z` (or `nat` for
  lengths/indices); overflow is not modelled (positions are far below 2^63).
- Go maps are `gmap`s; a loop over a map is a loop over *some* permutation of
  its entries, so theorems quantify over the iteration order where it matters.
- Errors are values, `nil` is an explicit case, a Go panic (index out of range,
  nil dereference) is an explicit outcome.
- Goroutines become step machines; a theorem quantifies over all step
  sequences. Critical sections under one mutex are one step.
- PostgreSQL tables are lists/maps with the semantics of the exact SQL used;
  a transaction is one atomic step. JSON parsing is abstracted to records of
  the fields the code reads.
- If the code does not satisfy the property, a `..._refuted` theorem exhibits
  the counterexample, and the strongest guarded version proved is named
  `..._partial`.

## Plan and status per property

- **C01 Live list operations keep the client's windows equal to the server's list** — ListOps: Gallina port of CalculateListOps and its helpers; a small independent client (sparse index->room map with shift-on-delete/insert) is the spec; theorem: applying the ops agrees with the new list on all windows.
  Status: proved. Whenever an answer is returned (C03 says exactly when it is not). The hypothesis that sorting moves only the changed room is discharged for the real sort in C06.
- **C02 Rooms that become visible in a window are announced** — ListOps: characterise the returned subscriptions against window membership before/after.
  Status: partial. Soundness without restriction; completeness except one exactly described removal case, which is refuted.
- **C03 List operations never crash the request** — ListOps: index reads return option; no read fails under the exact guard; refutation for the boundary case.
  Status: partial. Exact characterisation of the crash: removing the last of several rooms while a window starts at its position.
- **C04 Window validation is exact and slicing stays in bounds** — Ranges: Valid/Inside/SliceInto over Z pairs; iff with a declarative spec.
  Status: proved. 
- **C05 Window changes are split into added, removed and unchanged positions** — Ranges: Delta port; refutation witnesses plus a guarded theorem.
  Status: partial. Exact characterisation for all valid windows. The literal property is refuted: a one-position window outside the other window list is reported neither as added nor as removed.
- **C06 Sorted lists are permutations with a correct index** — SortableRooms: list + index map record, operations Add/Remove/Sort with comparators; invariant by induction over operations.
  Status: partial. Full for the five known sort orders. Refuted for unknown sort orders, which requests may contain: the new list then has no index.
- **C07 Updating a room reports precisely which lists gain, lose or keep it** — Lists: SetRoom/AssignList over finite maps; theorem relates the delta to before/after membership.
  Status: partial. Exact whenever the index of the list is right (C06); refuted after an unknown sort order, and for lists created after the user left a room.
- **C08 Filters mean the conjunction of their fields** — Filters: Include port against a boolean conjunction; refutation for spaces + room_types.
  Status: partial. Exact characterisation; refuted for filters which set both spaces and room_types.
- **C09 Connection positions advance by exactly one per processed request** — Conn: state machine with arbitrary handler results (response, error, panic); invariants by induction over histories.
  Status: proved. Every history of a connection with arbitrary handler behaviour.
- **C10 Retried requests get the same response** — Conn: retry theorem over every reachable state.
  Status: partial. The response is the same without restriction; that the request is not processed again holds when the handler leaves the body of the request alone. Refuted otherwise: a request which adds an extension without lists/rooms is rewritten by the handler, so its retry is processed again. pos=0 is excluded: such a request opens a new connection (CreateConn).
- **C11 Unknown positions are rejected without side effects** — Conn: rejection theorem, iff.
  Status: proved. 
- **C12 Responses are delivered in order with no gaps until acknowledged** — Conn: buffer invariant and a client-loop theorem.
  Status: proved. 
- **C13 Request parameters are sticky** — Request: ApplyDelta port over records of options and finite maps.
  Status: partial. Every history of requests. Refuted for timeline_limit 0, which is treated as not given.
- **C14 Deleting lists and unsubscribing rooms take effect exactly** — Request: characterisation of lists/subscriptions/deltas.
  Status: partial. Effective lists and subscriptions are exact; refuted: deleting a list which does not exist makes an empty one, subscribing and unsubscribing in one request, changing only include_old_rooms, and rooms subscribed to before joining.
- **C15 Combining subscriptions never loses requested data** — RoomSub: Combine port; monotonicity; refutations for include_old_rooms and heroes.
  Status: partial. Limits and required state in full unless a request for all state meets named state keys; refuted for that case, for include_old_rooms (depends on the order) and for include_heroes (always lost).
- **C16 Rooms are loaded once per response with their combined subscription** — RoomSub: RoomsBuilder port.
  Status: partial. Rooms exactly once without restriction. The combined content is exact when the slices have no spare capacity; refuted otherwise: Go's append overwrites the combination made for another room.
- **C17 required_state selects the requested state events** — RequiredState: port of map construction, Include and QueryStateMap on strings.
  Status: partial. Include and the query are exact; what is sent is exact unless $LAZY and a wildcard type are combined, which is refuted.
- **C18 The joined-room tracker equals the fold of membership events** — Tracker: port of the three maps; refinement to relations joined/invited.
  Status: proved. 
- **C19 Room events are delivered only to members** — Dispatch: port on top of the tracker; outputs are a list of (receiver, event) calls.
  Status: proved. 
- **C20 Every joined registered user is told about each event exactly once, after the global cache** — Dispatch: exactly-once and ordering of the call list.
  Status: partial. Refuted in one corner: a leave/ban whose state_key is '-' calls the global cache twice. Everything else is proved without restriction.
- **C21 Pre-emptive bans and stray leaves are not leaked** — Dispatch: negative corollary.
  Status: proved. 
- **C22 Join and invite counts are the sizes of the current member sets** — Dispatch: counts are cardinalities.
  Status: proved. Join counts for all live events and bulk initial state; invite counts for member events and bulk initial state (other live events carry 0 by design and the receiver ignores it).
- **C23 A room's current state holds the latest event per (type, state_key)** — Accum: small relational DB model (events, snapshots, rooms), port of Initialise/Accumulate; invariant by induction over calls.
  Status: partial. Every history of state blocks, timelines, clean-ups and invites with event types free of byte 0x1f and state blocks which do not repeat an event ID; refuted for both exceptions. Redaction is a parameter assumed to keep event ID, type, state key and membership (gomatrixserverlib).
- **C24 Timelines are stored once and in order** — Accum: suffix/NID-order/idempotence theorems.
  Status: proved. Every history of operations, including histories by several pollers. Also says which rows are marked as following a gap.
- **C25 Each event remembers the state before it** — Accum: before-snapshot theorem.
  Status: partial. As for C23: event types free of byte 0x1f and state blocks which do not repeat an event ID. Refuted without the guard: types with that byte are confused, and the remembered state lacks an event.
- **C26 Room state at a position is the state after the latest event up to it** — RoomState: port over the Accum DB; theorem for positions from the latest on; refutations for the filtered path.
  Status: partial. Exact for positions at timeline events whose snapshot has not been cleaned up. Refuted: positions at state-block events see later state, a timeline event which is no state event may be returned, an event may be returned twice with a filter, and state is lost when the snapshot was cleaned up.
- **C27 History visibility: users only get events from when they were in the room** — Visible: port over membership logs; spec quantifies over positions.
  Status: proved. The ranges returned are exactly the maximal joined ranges up to the position, as the code defines them.
- **C28 Timelines served have no gaps, respect the limit and are oldest first** — Timeline: port of query + truncation; suffix theorem.
  Status: proved. Limit, gap and order for every database content.
- **C29 Ignored users' messages are dropped and nothing else** — Timeline: filter characterisation.
  Status: proved. Initial timelines; the sender must be on the ignored list loaded for the user.
- **C30 To-device messages are delivered in order, and removed only when acknowledged** — ToDevice: table model; induction over operations.
  Status: proved. For every history of arrivals, reads by this and other devices, lost responses, failing database calls and restarts. After a restart the server ignores the since token once and reads from the start, so messages may come twice (example), none is lost.
- **C31 Key-request cancellation removes only what the recipient need not see** — ToDevice: refutations and guarded theorem.
  Status: partial. What a batch removes is proved in full. A seen request is cancelled if one request and one cancellation arrive with its key and next_batch does not go back; without each of these guards a seen request can be left open (five histories shown).
- **C32 Device-list changes are delivered at least once and then forgotten** — DeviceList: two-bucket table; induction over interleavings.
  Status: partial. Proved for the tables under every history, and for each request with everything that may happen while it waits. A change is lost for the client if two answers are lost in a row and the connection expires, or if the handler fails after the read (both shown).
- **C33 One-time-key and fallback-key changes are reported** — E2EE: parseE2EEData port; refutations and guard.
  Status: partial. Fallback types: proved in full. Counts: proved unless zero keys are reported for an algorithm not listed before; that case and the empty report are missed by the code (shown).
- **C34 The upstream sync token never moves past unprocessed data** — Poller: step machine with crash steps; invariant persisted<=processed.
  Status: partial. Proved: for every receiver behaviour the poller asks for a retry exactly if some reported failure is not a permanent data error, otherwise all sections were processed; after any history of responses, failures, crashes and restarts the stored position is reached by processed responses only. Missing: failures of receipts, typing and unread counts are not reported, so the position advances past them (C34_receipts_and_counts_refuted).
- **C35 One bad room does not block others** — Poller: parseRoomsResponse as a fold of per-room results.
  Status: proved. Every joined, left and invited room is attempted up to its first failure, for every order and every failure pattern. C35_rest_of_the_room_refuted records that the rest of a failing room is skipped for good.
- **C36 Account data survives a failed write and a retry** — AcctData: refutation with a failing write, guarded theorem.
  Status: partial. Proved if a failed write is always followed by a restart of the process (and hashes of the events seen differ, ids have no bar). A failed write followed by a retry loses the data, for every hash function (C36_retry_refuted).
- **C37 Stored unread counts track the latest upstream counts** — Unread: refutation and guarded theorem.
  Status: partial. Proved for a user and room whose updates always give the same counters, without failing queries and key collisions; each guard is needed (three histories shown).
- **C38 Receipts keep their meaning and private receipts stay private** — Receipts: port of pack/unpack and of the handler split.
  Status: proved. For every list of receipts, every map order and every sequence of live updates. C38_two_receipts_refuted records that an upstream event with two unthreaded receipts of one user is refused as a whole.
- **C39 One poller at a time drives a room's typing state** — Typing: step machine.
  Status: proved. For every interleaving of updates, stopping pollers and left rooms, with any number of pollers and rooms.
- **C40 Waiting for transaction IDs neither loses, duplicates nor reorders events** — TxnWaiter: step machine over queues and timers.
  Status: proved. For every history of updates, all-clears, passing time and timers firing in any order; the deadline says: if the timers that are due have fired.
- **C41 The all-clear for an event is given at most once and only when safe** — TxnPending: step machine.
  Status: partial. Proved while the event is remembered (five minutes) and the reporting pollers are among the known ones; both guards are needed (shown).
- **C42 A connection is set up only after the poller's initial sync** — EnsurePoll: step machine with waiting callers.
  Status: partial. Exact outcome for calls that no restart overlaps; two schedules show that an overlapped call reports success without a sync. On the poller side a call that found a poller reports success even if it was refused, and a panic blocks callers forever.
- **C43 At most one running poller per device** — PollerMap: step machine.
  Status: proved. For every interleaving of requests, terminations, syncs, loop ends and panics. Two observations about what 'terminated' does not cover: a poller whose loop panicked counts as not terminated and is never replaced, and a terminated poller may still work on a response while its replacement starts.
- **C44 The connection map stays consistent** — ConnMap: maps + cache + pending expiry callbacks.
  Status: partial. What is found is alive, and removal and replacement are final, in every history. Registration and closing are proved for histories where no creation overtakes an expiry callback of the same ID; the race and the separator collision are shown.
- **C45 Room names follow the documented precedence and never crash** — RoomName: port.
  Status: partial. The name is exactly the one of the rules in RoomNameSpec.v; two details of the written rules are refuted (limit not applied when all others are heroes, bare name when alone with one hero).
- **C46 Global room metadata is the fold of the room's events** — GlobalModel: port of the updates of the metadata of all rooms and of reloading a room; each field is read in the latest event which sets it (GlobalSpec.as_latest).
  Status: partial. All fields but heroes proved for every history of events. Heroes are distinct, at most six and in the room; they are exact if at most five users ever came, and wrong otherwise: with six heroes a change of profile is missed, and users who came seventh are never heroes. Reloading a room keeps a name which is no longer in the state and drops all children of a space.
- **C47 Invites appear while pending and disappear when answered** — Invites: table model with the membership fold.
  Status: partial. Exact for what is stored over every history. Refuted as a statement about the latest membership: an invite delivered late by a second device stays after the join, and a late state block withdraws a pending invite.
- **C48 Snapshot clean-up never deletes state that is still reachable** — Cleanup: port of the snapshot clean-up query.
  Status: partial. The current snapshot is always kept. The last events of a room keep their snapshots when state-block events count among them; refuted when only timeline events count, since each state block adds a snapshot without adding to the timeline.
- **C49 Bulk inserts are chunked without loss** — Chunkify: port.
  Status: partial. For one row or more and a limit that admits a row, the chunks concatenate to the input, none is empty and none exceeds the limit. Without rows there is one empty chunk; if one row exceeds the limit the loop never ends (both proved).
- **C50 Database transactions are all-or-nothing** — Txn: WithTransaction port over an abstract store.
  Status: partial. Proved for every body and every server behaviour, except that a body that panics with nil or ends its goroutine is committed half done, and that a lost answer to COMMIT is reported as a failure although the effects stay (both shown).
- **C51 Device-data notifications are never lost** — Ticker: step machine with interleaved Range/Delete.
  Status: proved. For every interleaving of stores and of any number of concurrent emit calls, with the promises of sync.Map's Range.
- **C52 A connection shows each event once and never an event older than its loaded position** — Feed: anchor and load positions of a connection over all histories of loads and live updates; refutations for overtaking updates, guarded theorem.
  Status: partial. Strictly increasing positions, from loads and live updates together, for all histories where an update that brings its own room into view is not older than what the connection processed. Without this, events are sent twice; three schedules show how. C52_nothing_missed: events in view are all delivered, in order.
- **C53 Extensions apply only to their configured scope** — ExtScope: port.
  Status: partial. Scope is exact, live updates are exact per room, and the initial responses are exact for typing and for account data of real rooms. Two deviations are shown: a star that is not the first element, and global account data reported as data of a room with an empty ID.
- **C54 Lazily loaded members are sent once per connection** — Feed/Lazy: the lazy cache in histories of a connection: what is tracked was sent or loaded, and is not sent again.
  Status: partial. Sent at most once for senders and typing users, and sent when needed, for every history. False as stated for rooms sent with an empty timeline, for rooms sent again within one response, and for members also asked for by name.
- **C55 Internal notifications are delivered in order without loss** — PubSub: bounded FIFO machine.
  Status: partial. Proved for every schedule of callers, timeouts and one listener, for any buffer size. A send on a closed channel panics instead of returning an error (shown).
- **C56 Access tokens are bound to one user and device** — Tok: port of the token and device tables over all histories of registrations, deletions and updates; encryption is any cipher that opens what it sealed, with hex and the stored format ported.
  Status: partial. Binding proved for every history. The second half is false: if the last token of the query cannot be decrypted, no poller is started. Proved for the case that it can.
- **C57 Space relations equal the fold of m.space.child/parent events** — Spaces: port.
  Status: partial. Exact for every sequence of batches, and for every history of the store in which no state block brings back an old space event and no redaction names one; refuted for both exceptions.
- **C58 Including old rooms terminates** — OldRooms: refutation and guarded termination.
  Status: partial. False as stated: cycles of predecessors, and a joined predecessor the connection has no metadata for, make the request loop forever. Proved: the exact condition for termination, each old room once in a chain, and the exact content of the response.
- **C59 Device-list merging keeps the strongest state** — DeviceDelta: port.
  Status: proved. For deltas whose states are changed or left, which are the only ones the code makes.
- **C60 List operations are well formed** — ListOps: characterise every operation returned.
  Status: partial. A JSON null operation is sent when the only room is removed and position 0 is not in the windows.
- **C61 A list request brings the client up to date, and it stays so** — LiveList: model list requests and live re-sorting on the real list state (index, filters, metadata) of a connection with any number of lists; invariant over all histories.
  Status: partial. Proved over every history of updates, list requests and list deletions with known sort orders, windows, and no added one-position window; refuted for those three cases.
- **C62 Changed room fields are reported** — Lists: the flags computed by SetRoom against the computed name, avatar and counts.
  Status: partial. Refuted for the avatar when a direct chat becomes an ordinary room.
- **C63 A redaction affects only the event it names, in its own room** — Accum: effect of the redaction step on the stored content.
  Status: partial. Only named events change. Refuted: rows are found by event ID alone, so a redaction in one room redacts an event of another.
- **C64 The pagination token never skips events** — Store: the token query against the stored rows.
  Status: proved. At or after the oldest served event. It need not be the closest such token, which is shown by a refutation of that stronger reading.
- **C65 A room's timeline shows only the room's own events** — Feed: origin of the timeline entries; refutation for m.space.child events.
  Status: partial. False for m.space.child events, which appear in the timeline of the child room; proved for all histories in which updates are for the event's own room.
- **C66 Only unused devices are expired** — Tok: the last_seen column over histories of requests (one step each), against FindOldDevices.
  Status: proved. For every history of requests, each of which is one step, deletions and syncs.
- **C67 The outcome of starting a poller at startup is reported for the right device** — Tok: step machine of the workers with the shared error variable; refutation and guarded theorems.
  Status: partial. Each device is reported once, but workers share the error variable, so that overlapping ones report each other's outcome. Right if they do not overlap, or if no poller fails.
- **C68 A restart brings back what was stored about rooms** — Start: GlobalSnapshot on the tables of Accum, for every reached database; refutations for rooms without joined members and for messages with the types of state events.
  Status: partial. Proved for every reached database (see C23 for what reached asks of event types and state blocks). Invite count and heroes only if somebody is joined: otherwise they are lost. A message with the type of a state event counts as state, so a restarted server can take a room for encrypted or replaced which is not. Children are those of the spaces table (C57).
- **C69 What is known about a user's rooms is the latest that was said** — User: the user cache as a fold over calls, with Go maps as addresses; each field is the value given by the latest fact. Refutations for rejoining, m.direct in a room, a room that is its own child and the shared map of spaces.
  Status: partial. Proved for every history of calls, for each field. False for a user who rejoins a room without an invite: they are still taken to have left, and the room stays out of lists. Spaces are exact if no room is its own child; the map of spaces in an update is shared with the cache and changes later. Account data m.direct of a room replaces the global list.
- **C70 Setting up a connection misses no update** — Setup: step machine of requests that set up the cache of a user, notifications and the reloading of a room, for all schedules; invariants, refutations by concrete schedules and guarded theorems.
  Status: partial. False: a notification handled between reading and storing the cache is lost, and reloading a room or a failing registration can leave a connection with a cache that is told nothing. Proved for all schedules without these; children of spaces are never missed.
- **C71 A list filtered by a space shows the space's rooms** — Space: dispatcher, children in the global cache and the cache of a user composed; exact characterisation for every history, refutations for joining and leaving a space later.
  Status: partial. What counts is exactly what the user was last told while joined. False for a user who joins a space which the server knows already (its children are never learnt) and after leaving a space; proved if the membership does not change after the user was registered. State blocks of new rooms are left out.
- **C72 A request waits for updates without losing any, and no longer than asked** — Loop: step machine of the channel with its blocked senders, timers, cancellation and the loop of liveUpdate, for an arbitrary way of processing updates; invariants over all schedules.
  Status: partial. Proved for every schedule, but for one detail: a request that is in flight when an update is lost can handle a later update of another sender without it. Proved without that if never two senders are blocked at once.
- **C73 Requests on one connection are served in turn, and a newer one ends the wait of an older one** — Reqs: step machine of requests on one connection, with both mutexes and both cancel callbacks; linearizability against the sequential connection of Conn, invariants over all schedules, refutations by concrete schedules.
  Status: partial. Proved: served in turn, linearizable, no deadlock, ended only for cause. False: a request that waits for its turn when a newer one arrives is not ended by it, and closing a connection ends only the request that came last, even if that one was rejected for its parameters. Proved for a request that is being served when the newer one arrives.
- **C74 An event's transaction ID is shown to the device that sent it, and to nobody else** — Txnid: the tables of events and of transaction IDs as folds over polls, with an honest homeserver as the truth; annotating a response in any map order. Invariants; refutations by concrete histories.
  Status: partial. False: the table of events deletes unsigned.txn_id and not unsigned.transaction_id, so if the poller of the sending device is first, everyone is shown the ID; and one ID that is recorded already makes recording all IDs of a timeline fail. Proved that an ID is never wrong, and both halves with guards against these two.
- **C75 A poller goes on from where it was until its token is refused** — Ploop: the poller's loop as a function from the answers it gets to the trace of what it does; every theorem is about every event of every trace. Refutations for an outage of the homeserver and for a panic.
  Status: partial. Proved for every trace. False: after a thousand failed requests, about an hour of outage, the token is given up though it was never refused; and a poller which panics before its first response was handled never releases those who wait.
- **C76 To-device messages from upstream are neither lost nor stored twice** — Ploop, Inbox: lives of a poller, each cut at any event and begun again at the stored position, with an honest homeserver that forgets what was acknowledged. Refutations for a crash between two writes and for messages the database refuses.
  Status: partial. No message is lost, wherever the server crashes, unless the database refuses it as bad data. Stored once and in order if no crash comes between storing messages and storing the position; such a crash has them stored twice (shown).
- **C77 While a room is in view, the client's copy of it follows the room** — View: one room on one connection as a step machine, from the caches through the held-back queue, the channel and SetRoom to the response and the client that merges it. Invariant between the client's copy, the record of the connection and the pending updates; refutations by concrete histories.
  Status: partial. False in six ways, each with a concrete history: a held-back message brings old unread counts back; a change of name is lost when somebody types while it is held back; a load between two changes that cancel out; a change dropped with an ignored message; typing members reset unread counts; is_dm is never sent again. Proved for every history in which these circumstances do not arise. Timestamps, heroes and invites are left out.
- **C78 An event a poller stores reaches the client of a room in view, once and in order** — Pipe: the store of Accum, the channel, the waiter of Txn, the buffer and the connection of Feed put together as one step machine. Invariant: the stored timeline is what the connection has come to, followed by what is in the buffer, held back and in the channel. Catching up by induction on what is on the way; refutations by concrete histories.
  Status: partial. False in two ways, each with a concrete history: if the query for new events fails when their message is received, they are never shown though later ones are; and events held back for transaction IDs are sent twice if the first of them brings the room into view after the connection went on with another room. Proved for every history without these, in which the user stays in the room and ignores nobody. Overflow of the buffer (C72) and space events (C65) are left out.
- **C79 Upgrading the server loses nothing that was not to be cleaned up** — Mig: each migration as a partial function on the tables, goose as a fold with crashes between its steps. Invariant: the data is written as the migrations run so far say, and means what it meant. What the new version reads is DeviceModel.Select on the result. Refutations by concrete databases, one of them reached by operations of the store of Accum.
  Status: partial. The upgrade itself is proved. False for an invite that is newer than the room's state, which is removed though the homeserver will not send it again; for going back before the table of device list changes, which loses them; and for going back to JSON with more than 131072 changes for one device, which is refused. Each with a concrete database.
- **C80 Nothing of a room is shown to a user who is not in it** — See: one user and one connection as a step machine, with the position of the latest event as the date of everything shown. Invariant: the tracker is the fold of what was handed out, what was handed out of a room is a prefix of what is stored, updates in the buffer are of times the user was in the room. Refutations by concrete histories.
  Status: partial. Proved without condition for events as they happen, for invites, and for the metadata of subscribed rooms. False for rooms that come into a window, since the tracker is not asked for them: after a kick or a refused invite until the connection has got round to it, and for ever after a ban or after leaving of one's own accord, because the room stays in the lists (C81). required_state is read at an anchor that other rooms move on, so it can be of a time after a kick that is not yet handed out, or before the join. Each with a concrete history. Proved for every history in which nothing is asked at such a time. Timelines of rooms sent with initial: true are C27's.
- **C81 Rooms come into a user's lists when they are invited, and go when they leave** — See: the machine of C80; invariants about the update that says so and about what is behind it in the buffer. Refutations by concrete histories.
  Status: partial. Proved for kicks, refused invites, and invites. False for leaving of one's own accord: the update that says so has no position and is dropped, as behind what was loaded, for every room that was there when the connection was set up or that was shown. False for bans: the poller passes on memberships of leave only. Each with a concrete history.
- **C82 A client's copy of account data follows what is stored** — FolModel: pollers' writes, notifications, the user cache's updates, the connection's queue and transaction ID hold, requests, live updates and the client's copy as one step machine, over ExtModel's extension code. Proof: what is on its way together with the copy says what is stored, for every type without an outstanding notification, kept by all steps.
  Status: partial. Holds for rooms that enter the scope with a request or with an update of their own other than account data, and for global data if the extension is enabled from the first request on. Refuted for rooms shifted into view by another room, for rooms brought in by their own account data, for rooms that leave and come back within one response, and for an extension enabled later. Unconditionally no data is given that was not stored for that room.
- **C83 A client's copy of typing notifications follows the newest typing event** — The same machine as C82. Proof: every queued update of the room carries the current typing event or a typing update follows it; kept by all steps if no event of the room is held back while typing changes.
  Status: partial. Refuted for rooms shifted into view by another room's update, and when an event is held back for its transaction ID while typing changes: its old copy is sent after the new event. Unconditionally a client is given only typing events of that room.
- **C84 Read receipts reach the client, and private ones nobody else** — Rfo: the server as a step machine for one client, with the tables of C38 and the scope of C53. Invariants per slot (room, user, thread, kind): everything on its way and in the copy is at most what is stored, the last one on its way is what is stored, and what is stored is on its way, in the response or in the copy as long as the room is in scope.
  Status: partial. Proved for receipts without a thread if no poller brings back an older receipt, for the user's own receipts if the room comes into scope by a request, and for those of others from then on. That private receipts of others never get to a client is proved without hypotheses. Refuted: a room that comes into view because of an update gets no receipts; receipts of others at events that are not in the timeline are not sent; a poller that lags behind overwrites a newer receipt; threaded receipts at an event with another receipt of the user are dropped; a receipt is lost if the database fails.
- **C85 A request for a device gets an answer, and a device that is let through is polled** — BegModel: the gate (EnsModel), the messages both ways, the poller map (PmapModel), the table of tokens and startup, as one machine. Answered: a measure decreases with every step the server does by itself, and an invariant says that for every open channel something is on its way; both for all runs in which the token is still stored when its poller is asked for and no poller panics. Polled: an invariant over all runs in which moreover a refused poller is announced and terminated at once and success at startup is reported truthfully. Each of these hypotheses is shown to be needed by a run of the code after which, in every continuation, the device stays locked out or without a poller.
  Status: partial. False of the code: a token refused between the lookup of a request's token and its coming to the gate blocks the request and every later one for the device until a restart; a request between the announcement and the termination of a refused poller, or success misreported at startup, leave a device let through for ever that nobody polls for. Proved without these.
- **C86 What happens in a user's rooms is stored, whichever of the user's devices hears of it** — SibModel: one user's pollers, rows and tokens over the homeserver's numbered stream. By invariant: if no poller begins by skipping, every position is complete; if pollers end or skip only while nothing depends on their device, then what is missing is always ahead of a device in charge, and nothing is missing once all are up to date. Refuted by witnesses whose loss is shown to be permanent for every continuation without a login.
  Status: partial. Proved for users with one device, and for several devices as long as a poller ends, or begins by skipping, only while another device in charge will hear of what is missing. Refuted in general: logging out of the first device before its poller heard of what the second one skipped loses it for good (C86_logout_refuted), also in the middle of the first sync, where all rooms are lost (C86_first_sync_refuted); after a restart a client that is faster than the start of the pollers does the same without any poller ending (C86_restart_refuted); a poller that panicked still counts as polling (C86_panic_refuted).
- **C87 A client that stops reading costs other clients nothing** — SlowModel is the channel between the pollers and the API process with the times at which things happen: Notify gives up after 5 seconds without room, the handler takes notifications one by one and waits for 5 seconds for a connection whose buffer is full, once. Invariants over runs bound when the channel has room again.
  Status: partial. Proved for all runs: every connection that is not read is waited for once only, 5 seconds altogether; if callers wait for each other and handling no notification takes longer than 5 seconds, nothing is refused and who reads gets exactly what was meant for them, in order; if only one connection is not read, that holds whoever calls when. In general false: two connections that get full with the same notification make the handler wait for 10 seconds, callers give up after 5, ignore the error, and a client that reads never gets the notification; with callers that do not wait for each other, two connections that get full one after the other are enough.
- **C88 Every request is answered once, and an error says what was wrong** — HttpModel is the handler as a function from a request and what the rest of the system says, to the effects it has and what it writes, with number parsing character by character. HttpSpec says what a number, a token and a request in order are without the handler. An equivalence says when there is a response; a table says which error there is otherwise.
  Status: partial. Proved for all requests: the equivalence; the table of errors; effects are only for the bearer of the token; a bad body or a missing token has no effect; one answer, if the token is not the empty one and writing works. Otherwise false: an empty token makes the handler panic, and there is no answer; a response that cannot be encoded gives an answer with status 200 and an error as its body; a bad timeout is refused only after the connection was replaced, which ends the client's session; a bad pos is reported as M_UNKNOWN_POS when there is no session; a homeserver that says yes without naming anybody makes the token one of the user with the empty name.
- **C89 The homeserver is asked for what comes after the token it gave, whatever the token is** — UrlModel writes the address as the code does, with QueryEscape byte by byte. UrlSpec is how the other side reads addresses and forms, written from the standards and not from the code. Reading what was written gives back what was meant, by induction on the token.
  Status: proved. Proved for all tokens. The text of encoding/json for the filter is taken as documented, and so is which bytes QueryEscape escapes.
- **C90 Connections of one user do not disturb each other** — HeroModel has the slice of heroes that all connections of a user share as an array with a length, and the steps a connection makes on it. An invariant over all alternations in which connections take turns, and one for users who are not heroes.
  Status: partial. Proved for any number of connections that take turns with the update, whenever responses are encoded; and for all alternations if the user is not among the heroes. Otherwise false: RemoveHero shifts the array that the connections share, so two connections at once can lose a hero from the name, change the heroes of a response that is ready, panic in one of the requests, or keep a hero twice.
- **C91 When a room's state is replaced, everybody in it starts afresh and nobody else is disturbed** — Model the handler as tracker, registered users, cached users and connection map (TrackerModel.v and CmapModel.v), FetchMemberships as a fold over the query's rows, and OnInvalidateRoom as their composition, with arbitrary connection map operations of other goroutines before the connections are closed. Tracker invariant of C18 gives the members; the connection map invariant of C44 gives that exactly the involved users' connections go.
  Status: partial. The members part and the others part are proved. Starting afresh holds for histories in which no connection was made while an expired one of the same name was still to be cleared up (otherwise refuted: the connection survives without cache and registration), and only if the database answers (refuted: nothing is reloaded or retried).
- **C92 At every moment a list shows exactly the rooms its filters ask for** — On the connection model of LiveListModel.v: an invariant that, for a given room, membership of every list is equivalent to the declarative meaning of its filters (ListsSpec.v), kept by updates of the room itself, of other rooms, by requests that keep or rebuild the list, and by deletions; together with the client invariant of C61.
  Status: partial. Proved for all histories for rooms the user has not left and whose successor room (if any) the user does not come into or go from. False otherwise: joining the successor does not take the old room out, and leaving it does not bring it back, until the old room itself changes; a list made later shows rooms that were left; for a list with slow_get_all_rooms a change of filters is never applied - the old list is sent again and goes on being kept by the old filters.
- **C93 Lists sorted by recency go by the events the client asked for** — RecModel.v puts the global cache (GlobalModel.v), the updates on their way to a connection (queue, held back events, load positions), load() and the connection's lists (LiveListModel.v) together in one step machine. RecSpec.v says what the latest event of interest is, over the log of events. Proofs by invariants over all runs: what the pending updates of a room will do to its timestamp gives the latest event of interest.
  Status: partial. Proved without restrictions for lists that never ask for types. With types it holds for lists that are in the first request with types that never change, and for rooms whose timestamps do not go back before the connection is set up, that are not known before the join and are not sent as a whole while their events are on their way; each of these is needed: a list added later or with changed types keeps the old timestamps, an event held back while the room is sent is never counted, account data before the join make the join not count, setting up goes by the greatest timestamp. The timestamp in a response with two events of a room stays that of the first if no types are asked for.
- **C94 A client that asks for all rooms of a list is sent every room in it** — The list machine of C61 with the rooms each list subscribes to. Invariant over histories: the index of the list is right and each of its rooms was sent; with constant filters also that a room the user has not left is in the list exactly if it passes.
  Status: partial. Proved for requests that always ask for all rooms, in orders that exist, and for membership with the same filters and a steady successor room (as C92). False otherwise: turning the option on for an existing list sends nothing; a room that goes from the list is not reported as an operation.
- **C95 After each response the client knows how many rooms each list has, and which are in its windows** — RespModel.v puts the lists of a request, the updates taken in and the counts together as one response. The client applies whole responses. The invariants of C61 and C92 are carried over sequences of exchanges; operations of several updates can be applied at once.
  Status: partial. Proved for the requests of C61 (windows with known sort orders, no lone new position, not all rooms) and, for which rooms are in a list, while no room is replaced by another. False: rooms the user left are counted in a list made afterwards; a changed count alone does not end the wait.
- **C96 What pollers hear of is handled one piece at a time, and every call comes back with its own result** — PoolModel.v is a step machine of pollers (each a list of calls, replaced at will whenever it makes none), the executor behind its unbuffered channel, and N workers behind a channel of N; PoolSpec.v says over the history of handlers started and over what overlapping, being answered once and one's own results mean. An invariant ties the history to who runs what. That nothing waits forever: every step lowers what is left by one, and when no step is possible all is done.
  Status: partial. All but the last clause holds. A panic in a handler of something that users share, or of end-to-end encryption data, outside of a database transaction is in the executor's or a worker's goroutine, where nobody recovers: it ends the process for all users (C96_panic_refuted), although Poll recovers from panics of what it handles itself (C96_panic_partial).
- **C97 A client that asks for heroes knows who they are** — WhoModel.v adds to the room of ViewModel.v the heroes of the response being made, those the client knows, and what the client asks for. The invariant: the client, after the response being made, knows the heroes of the metadata the connection recorded last whenever that metadata gives a calculated name; and the newest outstanding update, or without any the recorded metadata, has the heroes of the room's metadata.
  Status: partial. False in four ways: a hero who changes only their picture is not sent again (C97_picture_refuted); asking for heroes of a room already in view gets none until the name changes (C97_switched_on_refuted); a room which two lists bring into view comes without heroes because combining subscriptions drops include_heroes (C97_two_lists_refuted); when no heroes are left the empty list is left out of the response, so the client keeps the old ones (C97_emptied_refuted). C97_follows_partial excludes these, state written without an update (C77), and updates that are dropped or that are no events carrying news.
- **C98 A client that asks for more about rooms it has in view gets it** — MoreModel.v runs a request through ApplyDelta (RequestModel.v), the list requests of LiveListModel.v with the extra subscription for changed limits and state, and combines what the builder was told for a room (SubModel.v). Proved by showing which rooms each list adds with which subscription, that other lists of the request do not disturb it, and that combining only adds.
  Status: partial. True of timelines and state of rooms in the windows of a list, and of subscriptions. False of lists that ask for all rooms and have no windows (C98_all_rooms_refuted) and of heroes and old rooms (C98_heroes_refuted); a subscription in which only these change is not even taken over for later updates (C98_not_taken_over_refuted). A new window of a single position sends nothing, see C05. That what is asked for is what is loaded is C16, C17 and C28.
- **C99 A request is answered as soon as there is something to tell** — WakeModel.v models responses with all extensions and the condition of the loop; the loop is LoopModel.v with this condition. The condition is shown to be the declarative `tells`; that requests which have something to tell at first never block is an invariant of the loop, for every effect of updates. That updates only add to account data and typing notifications is by induction on the updates.
  Status: partial. True of everything but the counts of lists: a room that comes to a list outside the windows changes its count, and nobody is told until something else happens (C99_count_refuted). The first request of a client without rooms, which asks for no extensions, waits as long as it said although the client does not know its lists are empty (C99_first_refuted).

## Trusted base

- Coq's kernel (8.16.1) and the faithfulness of the model to the Go text.
- std++ (no axioms). `Print Assumptions` for every property theorem is printed
  during the build; for each the answer is "Closed under the global context", that is, no theorem rests on any axiom.
- The `coqchk`-style list of axioms of the loaded libraries contains seven entries
  of Coq's own `ssreflect` library (`Coq.ssr.ssrunder.Under_rel`: an opaque module
  signature which std++ loads for its tactics). No theorem depends on them:
  `Print Assumptions` does not list them.
- Hypotheses of theorems which stand for code outside the repository: Go map
  iteration may give any order (`ord_ok`), and `RedactEventJSON` of
  gomatrixserverlib keeps event ID, type, state key and membership (`redact_ok`).
- Not modelled: Go runtime/scheduler, network, JSON codecs, PostgreSQL
  internals, TLS/HTTP plumbing, metrics, tracing and logging.

## What is modelled and what is not, file by file

Generated from the citations in the models' comments. A function is listed as modelled
if a definition cites lines of it; what that definition leaves out is said in its comment.
The other functions of the file are listed as not modelled. Test code is left out.

- `cmd/syncv3/main.go`. Not modelled: defaulting; main; WaitForShutdown; executeMigrations; init.
- `internal/context.go`. Not modelled: RequestContext; AssociateUserIDWithRequest; SetConnBufferInfo; SetRequestContextResponseInfo; DecorateLogger; SetRequestContextSetupDuration; SetRequestContextProcessingDuration; RequestContextDurations.
- `internal/device_data.go` (DeviceModel). Modelled: setBit; isBitSet. Not modelled: DeviceKeyData.SetOTKCountChanged; DeviceKeyData.SetFallbackKeysChanged; DeviceKeyData.OTKCountChanged; DeviceKeyData.FallbackKeysChanged.
- `internal/device_lists.go` (DeviceModel). Modelled: DeviceLists.Combine; ToDeviceListChangesMap; DeviceListChangesArrays. Not modelled: MapStringInt.Value.
- `internal/errors.go` (HttpModel, ListsModel). Modelled: HandlerError.Error; HandlerError.Unwrap; HandlerError.JSON; ExpiredSessionError; assert. Not modelled: Assert; AssertWithContext; DataError.Error; NewDataError.
- `internal/event.go` (GlobalModel). Modelled: IsMembershipChange.
- `internal/pool.go` (PoolModel). Modelled: NewWorkerPool; WorkerPool.Start; WorkerPool.worker. Not modelled: WorkerPool.Stop; WorkerPool.Queue.
- `internal/request.go` (HttpModel). Modelled: ExtractAccessToken.
- `internal/required_state_map.go` (SubModel). Modelled: RequiredStateMap.Include; RequiredStateMap.Empty; RequiredStateMap.QueryStateMap. Not modelled: NewRequiredStateMap; RequiredStateMap.IsLazyLoading.
- `internal/roomname.go` (HeroModel, RoomNameModel, ViewModel, WhoModel). Modelled: NewRoomMetadata; RoomMetadata.DeepCopy; RoomMetadata.SameRoomName; sameHeroNames; RoomMetadata.RemoveHero; CalculateRoomName; disambiguate; CalculateAvatar. Not modelled: RoomMetadata.SameJoinCount; RoomMetadata.SameInviteCount; RoomMetadata.IsSpace.
- `internal/sentry.go`. Not modelled: GetSentryHubFromContextOrDefault; ReportPanicsToSentry.
- `internal/trace.go`. Not modelled: SetAttributeOnContext; attributesFromContext; Task.End; RuntimeTraceOTLPSpan.End; Logf; StartSpan; StartTask; ConfigureOTLP.
- `internal/util.go`. Not modelled: Keys; IsUnixSocket; UnixTransport; GetBaseURL.
- `pubsub/pubsub.go` (SlowModel, TickModel). Modelled: emptyPayload.Type; PubSub.getChan; PubSub.Notify; PubSub.Listen. Not modelled: NewPubSub; PubSub.Close; PromNotifier.Notify; PromNotifier.Close; NewPromNotifier.
- `pubsub/v2.go`. Not modelled: V2Initialise.Type; V2Accumulate.Type; V2TransactionID.Type; V2UnreadCounts.Type; V2AccountData.Type; V2LeaveRoom.Type; V2InviteRoom.Type; V2InitialSyncComplete.Type; V2DeviceData.Type; V2Typing.Type; V2Receipt.Type; V2DeviceMessages.Type; V2ExpiredToken.Type; V2StateRedaction.Type; V2InvalidateRoom.Type; NewV2Sub; V2Sub.Teardown; V2Sub.onMessage; V2Sub.Listen.
- `pubsub/v3.go`. Not modelled: V3EnsurePolling.Type; NewV3Sub; V3Sub.Teardown; V3Sub.onMessage; V3Sub.Listen.
- `sqlutil/sql.go` (AccumModel, PoolModel, SqlModel). Modelled: WithTransaction; Chunkify.
- `state/account_data.go` (ExtModel, FolModel, RecvModel). Modelled: NewAccountDataTable; AccountDataTable.Insert; AccountDataTable.Select; AccountDataTable.SelectMany. Not modelled: AccountDataTable.SelectWithType; AccountDataChunker.Len; AccountDataChunker.Subslice.
- `state/accumulator.go` (AccumModel). Modelled: Accumulator.calculateNewSnapshot; Accumulator.roomInfoDelta; Accumulator.Initialise; Accumulator.Accumulate; parseAndDeduplicateTimelineEvents; Accumulator.filterToNewTimelineEvents; ensureStateHasCreateEvent; stateMap.Ingest; stateMap.NIDs; Accumulator.stateMapAtSnapshot. Not modelled: NewAccumulator; Accumulator.strippedEventsForSnapshot.
- `state/device_data_table.go` (DeviceModel, MigModel). Modelled: NewDeviceDataTable; DeviceDataTable.Select; DeviceDataTable.Upsert.
- `state/device_list_table.go` (DeviceModel, SqlModel). Modelled: NewDeviceListTable; DeviceListTable.UpsertTx; DeviceListTable.SelectTx; DeviceListTable.selectDeviceListChangesInBucket. Not modelled: DeviceListTable.Upsert; DeviceListTable.Select; DeviceListChunker.Len; DeviceListChunker.Subslice.
- `state/event_table.go` (AccumModel, PipeModel, StartModel, StoreModel, TxnidModel). Modelled: Event.ensureFieldsSetOnEvent; StrippedEvents.NIDs; EventTable.SelectHighestNID; EventTable.Insert; EventTable.selectAny; EventTable.SelectByNIDs; EventTable.SelectStrippedEventsByNIDs; EventTable.UpdateBeforeSnapshotID; EventTable.LatestEventInRooms; EventTable.Redact; EventTable.SelectLatestEventsBetween; EventTable.selectLatestEventByTypeInAllRooms; EventTable.SelectEventsWithTypeStateKey; EventTable.SelectEventsWithTypeStateKeyInRooms; EventTable.SelectClosestPrevBatch; filterAndEnsureFieldsSet. Not modelled: NewEventTable; EventTable.SelectByIDs; EventTable.SelectNIDsByIDs; EventTable.SelectStrippedEventsByIDs; EventTable.SelectUnknownEventIDs; EventTable.LatestEventNIDInRooms; EventTable.SelectEventNIDsWithTypeInRoom; EventTable.SelectClosestPrevBatchByID; EventTable.SelectCreateEvent; EventChunker.Len; EventChunker.Subslice.
- `state/invites_table.go` (AccumModel). Modelled: NewInvitesTable; InvitesTable.RemoveInvite; InvitesTable.RemoveSupersededInvites; InvitesTable.InsertInvite. Not modelled: InvitesTable.SelectInviteState; InvitesTable.SelectAllInvitesForUser.
- `state/migrations/20230802121023_device_data_jsonb.go` (MigModel). Modelled: upJSONB; downJSONB. Not modelled: init.
- `state/migrations/20230814183302_cbor_device_data.go` (MigModel). Modelled: upCborDeviceData; downCborDeviceData. Not modelled: init.
- `state/migrations/20230822180807_bogus_snapshot_cleanup.go` (MigModel). Modelled: getBogusRooms. Not modelled: init; upBogusSnapshotCleanup; deleteFromTable; downBogusSnapshotCleanup.
- `state/migrations/20231108122539_clear_stuck_invites.go` (MigModel). Modelled: upClearStuckInvites. Not modelled: init; downClearStuckInvites.
- `state/migrations/20240517104423_device_list_table.go` (MigModel). Modelled: upDeviceListTable; downDeviceListTable. Not modelled: init; deserialiseCBOR.
- `state/receipt_table.go` (ReceiptModel, RfoModel). Modelled: NewReceiptTable; ReceiptTable.Insert; ReceiptTable.SelectReceiptsForEvents; ReceiptTable.SelectReceiptsForUser; ReceiptTable.bulkInsert; PackReceiptsIntoEDU; UnpackReceiptsFromEDU. Not modelled: ReceiptChunker.Len; ReceiptChunker.Subslice.
- `state/rooms_table.go` (AccumModel). Modelled: RoomsTable.Upsert; RoomsTable.CurrentAfterSnapshotID. Not modelled: NewRoomsTable; RoomsTable.SelectRoomInfos; RoomsTable.LatestNIDs.
- `state/snapshot_table.go` (AccumModel). Modelled: SnapshotTable.Select; SnapshotTable.Insert. Not modelled: NewSnapshotsTable; SnapshotTable.CurrentSnapshots; SnapshotTable.Delete.
- `state/spaces_table.go` (AccumModel). Modelled: NewSpaceRelationFromEvent; SpacesTable.HandleSpaceUpdates. Not modelled: SpaceRelation.Key; NewSpacesTable; SpacesTable.BulkInsert; SpacesTable.BulkDelete; SpacesTable.SelectChildren; SpaceRelationChunker.Len; SpaceRelationChunker.Subslice.
- `state/storage.go` (AccumModel, FolModel, GlobalModel, InvalModel, PipeModel, StartModel, StoreModel, SubModel, TxnidModel). Modelled: LatestEvents.DiscardIgnoredMessages; Storage.RoomAccountDatasWithType; Storage.AccountDatas; Storage.PrepareSnapshot; Storage.GlobalSnapshot; Storage.MetadataForAllRooms; Storage.ResetMetadataState; Storage.FetchMemberships; Storage.currentNotMembershipStateEventsInAllRooms; Storage.Accumulate; Storage.RoomStateAfterEventPosition; Storage.LatestEventsInRooms; Storage.RemoveInaccessibleStateSnapshots; Storage.visibleEventNIDsBetweenForRooms; Storage.VisibleEventNIDsBetween; Storage.visibleEventNIDsWithData; Storage.AllJoinedMembers; Storage.Cleaner; Storage.LatestEventNIDInRooms; Storage.determineJoinedRoomsFromMemberships; circularSlice[T].append. Not modelled: NewStorage; NewStorageWithDB; Storage.LatestEventNID; Storage.AccountData; Storage.InsertAccountData; Storage.Initialise; Storage.EventNIDs; Storage.StateSnapshot; Storage.GetClosestPrevBatch; Storage.RoomMembershipDelta; Storage.JoinedRoomsAfterPosition; Storage.Teardown.
- `state/to_device_table.go` (ToDevModel). Modelled: NewToDeviceTable; ToDeviceTable.SetUnackedPosition; ToDeviceTable.DeleteMessagesUpToAndIncluding; ToDeviceTable.DeleteAllMessagesForDevice; ToDeviceTable.Messages; ToDeviceTable.InsertMessages. Not modelled: ToDeviceRowChunker.Len; ToDeviceRowChunker.Subslice.
- `state/txn_table.go` (TxnidModel). Modelled: NewTransactionsTable; TransactionsTable.Insert; TransactionsTable.Clean; TransactionsTable.Select.
- `state/typing_table.go`. Not modelled: NewTypingTable; TypingTable.SelectHighestID; TypingTable.SetTyping; TypingTable.Typing.
- `state/unread_table.go` (RecvModel). Modelled: NewUnreadTable; UnreadTable.SelectUnreadCounters; UnreadTable.UpdateUnreadCounters. Not modelled: UnreadTable.SelectAllNonZeroCountsForUser.
- `sync2/client.go` (DeviceModel, HttpModel, SibModel, UrlModel). Modelled: HTTPClient.WhoAmI; HTTPClient.DoSyncV2; HTTPClient.createSyncURL. Not modelled: NewHTTPClient; newClient; HTTPClient.Versions.
- `sync2/device_data_ticker.go` (TickModel). Modelled: DeviceDataTicker.Remember; DeviceDataTicker.emitUpdate. Not modelled: NewDeviceDataTicker; DeviceDataTicker.Stop; DeviceDataTicker.SetCallback; DeviceDataTicker.Run.
- `sync2/devices_table.go` (PloopModel, SibModel, TokModel). Modelled: NewDevicesTable; DevicesTable.InsertDevice; DevicesTable.UpdateDeviceSince; DevicesTable.FindOldDevices.
- `sync2/handler2/handler.go` (BegModel, ConnModel, FolModel, PipeModel, PoolModel, RecvModel, RfoModel, SibModel, SlowModel, TokModel, TxnidModel). Modelled: Handler.StartV2Pollers; Handler.OnTerminated; Handler.OnExpiredToken; Handler.UpdateDeviceSince; Handler.OnE2EEData; Handler.Accumulate; Handler.Initialise; Handler.SetTyping; Handler.OnReceipt; Handler.UpdateUnreadCounts; Handler.OnAccountData; Handler.OnLeftRoom; Handler.EnsurePolling; Handler.ExpireOldPollers. Not modelled: NewHandler; Handler.Listen; Handler.Teardown; Handler.updateMetrics; Handler.addPrometheusMetrics; Handler.OnBulkDeviceDataUpdate; Handler.AddToDeviceMessages; Handler.OnInvite; Handler.startPollerExpiryTicker; fnvHash.
- `sync2/poller.go` (AccumModel, BegModel, DeviceModel, PloopModel, PmapModel, PollModel, PoolModel, RecvModel, SeeModel, SibModel). Modelled: NewPollerMap; PollerMap.Terminate; PollerMap.NumPollers; PollerMap.DeviceIDs; PollerMap.ExpirePollers; PollerMap.EnsurePolling; PollerMap.execute; PollerMap.UpdateDeviceSince; PollerMap.Accumulate; PollerMap.Initialise; PollerMap.SetTyping; PollerMap.OnInvite; PollerMap.OnLeftRoom; PollerMap.AddToDeviceMessages; PollerMap.OnTerminated; PollerMap.OnExpiredToken; PollerMap.UpdateUnreadCounts; PollerMap.OnAccountData; PollerMap.OnReceipt; PollerMap.OnE2EEData; newPoller; poller.Terminate; poller.Poll; poller.poll; shouldRetry; poller.parseToDeviceMessages; poller.parseE2EEData; poller.parseRoomsResponse. Not modelled: PollerMap.SetCallbacks; poller.WaitUntilInitialSync; poller.trackRequestDuration; poller.trackProcessDuration; labels; poller.parseGlobalAccountData; poller.maybeLogStats; poller.trackTimelineSize; poller.trackGappyStateSize.
- `sync2/storage.go`. Not modelled: NewStore; NewStoreWithDB; Storage.Teardown.
- `sync2/tokens_table.go` (BegModel, PollModel, SibModel, TokModel). Modelled: NewTokensTable; TokensTable.encrypt; TokensTable.decrypt; decrypt; TokensTable.Token; TokensTable.TokenForEachDevice; TokensTable.Insert; TokensTable.MaybeUpdateLastSeen; TokensTable.GetTokenAndSince; TokensTable.Delete. Not modelled: hashToken.
- `sync2/txnid.go` (TxnModel). Modelled: PendingTransactionIDs.MissingTxnID; PendingTransactionIDs.SeenTxnID; removeDevice. Not modelled: NewPendingTransactionIDs.
- `sync3/avatar.go` (ViewModel). Modelled: NewAvatarChange; AvatarChange.MarshalJSON. Not modelled: AvatarChange.UnmarshalJSON.
- `sync3/caches/global.go` (FolModel, GlobalModel, InvalModel, PipeModel, SpaceModel, StartModel, SubModel). Modelled: GlobalCache.copyRoom; GlobalCache.LoadJoinedRooms; GlobalCache.LoadRoomState; GlobalCache.Startup; GlobalCache.OnEphemeralEvent; GlobalCache.OnNewEvent; GlobalCache.OnInvalidateRoom. Not modelled: NewGlobalCache; GlobalCache.OnRegistered; GlobalCache.LoadRooms; GlobalCache.LoadRoomsFromMap; GlobalCache.LoadStateEvent; GlobalCache.OnReceipt.
- `sync3/caches/update.go` (ViewModel). Modelled: InviteUpdate.Type; TypingUpdate.Type; ReceiptUpdate.Type. Not modelled: RoomEventUpdate.Type; UnreadCountUpdate.Type; AccountDataUpdate.Type; RoomAccountDataUpdate.Type; DeviceDataUpdate.Type; DeviceEventsUpdate.Type.
- `sync3/caches/user.go` (FeedModel, FolModel, HeroModel, ListsModel, PipeModel, RecModel, SeeModel, SetupModel, SlowModel, SpaceModel, StoreModel, TxnidModel, UserModel, ViewModel). Modelled: NewUserRoomData; NewInviteData; InviteData.RoomMetadata; UserCache.OnRegistered; UserCache.LazyLoadTimelines; UserCache.LoadRoomData; UserCache.LoadRooms; roomUpdateCache.Type; roomUpdateCache.RoomID; roomUpdateCache.GlobalRoomMetadata; roomUpdateCache.UserRoomMetadata; UserCache.newRoomUpdate; UserCache.Invites; UserCache.AnnotateWithTransactionIDs; UserCache.OnEphemeralEvent; UserCache.OnReceipt; UserCache.emitOnRoomUpdate; UserCache.emitOnUpdate; UserCache.OnUnreadCounts; UserCache.OnSpaceUpdate; UserCache.OnNewEvent; UserCache.OnInvite; UserCache.OnLeftRoom; UserCache.OnAccountData; UserCache.ShouldIgnore. Not modelled: NewUserCache; UserCache.Subscribe; UserCache.Unsubscribe; UserCache.AttemptToFetchPrevBatch.
- `sync3/conn.go` (CmapModel, ConnModel, HttpModel, ReqsModel). Modelled: ConnID.String; NewConn; Conn.tryRequest; Conn.isOutstanding; Conn.OnIncomingRequest. Not modelled: Conn.Alive; Conn.OnUpdate; Conn.SetCancelCallback.
- `sync3/connmap.go` (CmapModel, LoopModel). Modelled: ConnMap.Conn; ConnMap.getConn; ConnMap.CreateConn; ConnMap.CloseConnsForDevice; ConnMap.connIDsForDevice; ConnMap.CloseConnsForUsers; ConnMap.closeConnExpires; ConnMap.closeConn; ConnMap.ClearUpdateQueues. Not modelled: NewConnMap; ConnMap.Teardown; ConnMap.UpdateMetrics; ConnMap.updateMetrics; ConnMap.Conns.
- `sync3/dispatcher.go` (DispatchModel, FolModel, InvalModel, PipeModel, ReceiptModel, RfoModel, SeeModel, SetupModel, SpaceModel). Modelled: Dispatcher.Startup; Dispatcher.Unregister; Dispatcher.UnregisterBulk; Dispatcher.Register; Dispatcher.newEventData; Dispatcher.OnNewInitialRoomState; Dispatcher.OnNewEvent; Dispatcher.OnEphemeralEvent; Dispatcher.OnReceipt; Dispatcher.notifyListeners; Dispatcher.OnInvalidateRoom. Not modelled: NewDispatcher; Dispatcher.IsUserJoined; Dispatcher.ReceiverForUser.
- `sync3/extensions/account_data.go` (ExtModel, WakeModel). Modelled: AccountDataResponse.HasData; AccountDataRequest.AppendLive; AccountDataRequest.ProcessInitial. Not modelled: AccountDataRequest.Name; accountEventsAsJSON.
- `sync3/extensions/e2ee.go` (DeviceModel). Modelled: E2EEResponse.HasData; E2EERequest.AppendLive; E2EERequest.ProcessInitial. Not modelled: E2EERequest.Name.
- `sync3/extensions/extensions.go` (ConnModel, ExtModel, FolModel, RequestModel, WakeModel). Modelled: Core.Name; Core.InterpretAsInitial; Core.ApplyDelta; Core.RoomInScope; ExtensionEnabled; Request.fields; Request.EnabledExtensions; Request.ApplyDelta; Request.InterpretAsInitial; Response.fields; Response.HasData; Handler.HandleLiveUpdate; Handler.Handle. Not modelled: Core.IsEnabled; Core.OnlyLists; Core.OnlyRooms; Request.setFields; isNil.
- `sync3/extensions/receipts.go` (ReceiptModel, RfoModel, WakeModel). Modelled: ReceiptsResponse.HasData; ReceiptsRequest.AppendLive; ReceiptsRequest.ProcessInitial. Not modelled: ReceiptsRequest.Name.
- `sync3/extensions/todevice.go` (ConnModel, RequestModel, ToDevModel, WakeModel). Modelled: ToDeviceRequest.ApplyDelta; ToDeviceRequest.AppendLive; ToDeviceRequest.ProcessInitial. Not modelled: ToDeviceRequest.Name; ToDeviceResponse.HasData.
- `sync3/extensions/typing.go` (ExtModel, WakeModel). Modelled: TypingResponse.HasData; TypingRequest.AppendLive; TypingRequest.ProcessInitial. Not modelled: TypingRequest.Name.
- `sync3/handler/connstate.go` (AllModel, CmapModel, FeedModel, FolModel, LiveListModel, LoopModel, MoreModel, OldModel, PipeModel, RecModel, ReqsModel, RequestModel, RespModel, SeeModel, SlowModel, SubModel, ViewModel, WhoModel). Modelled: NewConnState; ConnState.load; ConnState.OnIncomingRequest; ConnState.onIncomingRequest; ConnState.onIncomingListRequest; ConnState.buildListSubscriptions; ConnState.buildRoomSubscriptions; ConnState.buildRooms; ConnState.lazyLoadTypingMembers; ConnState.getInitialRoomData; ConnState.Destroy; ConnState.Alive; ConnState.UserID; ConnState.OnUpdate; ConnState.OnRoomUpdate; ConnState.PublishEventsUpTo; ConnState.SetCancelCallback; clampSliceRangeToListSize. Not modelled: ConnState.trackSetupDuration; ConnState.trackProcessDuration.
- `sync3/handler/connstate_live.go` (AllModel, CmapModel, DeviceModel, FeedModel, FolModel, HeroModel, LiveListModel, LoopModel, PipeModel, RecModel, RespModel, SeeModel, SlowModel, ViewModel, WakeModel, WhoModel). Modelled: connStateLive.onUpdate; connStateLive.liveUpdate; connStateLive.processUpdate; connStateLive.processLiveUpdate; connStateLive.processUpdatesForSubscriptions; connStateLive.processGlobalUpdates; connStateLive.processLiveUpdateForList; connStateLive.resort; connStateLive.shouldIncludeHeroes.
- `sync3/handler/ensure_polling.go` (BegModel, EnsModel). Modelled: EnsurePoller.EnsurePolling; EnsurePoller.OnInitialSyncComplete; EnsurePoller.OnExpiredToken. Not modelled: NewEnsurePoller; EnsurePoller.Teardown; EnsurePoller.calculateNumOutstanding.
- `sync3/handler/handler.go` (BegModel, DeviceModel, FolModel, HttpModel, InvalModel, PipeModel, ReceiptModel, ReqsModel, RfoModel, SeeModel, SetupModel, SpaceModel, TokModel, TxnidModel). Modelled: SyncLiveHandler.Startup; SyncLiveHandler.ServeHTTP; SyncLiveHandler.serve; SyncLiveHandler.setupConnection; SyncLiveHandler.identifyUnknownAccessToken; SyncLiveHandler.userCache; SyncLiveHandler.DeviceData; SyncLiveHandler.TransactionIDForEvents; SyncLiveHandler.Accumulate; SyncLiveHandler.OnUnreadCounts; SyncLiveHandler.OnDeviceData; SyncLiveHandler.OnDeviceMessages; SyncLiveHandler.OnInvite; SyncLiveHandler.OnLeftRoom; SyncLiveHandler.OnReceipt; SyncLiveHandler.OnTyping; SyncLiveHandler.OnAccountData; SyncLiveHandler.OnExpiredToken; SyncLiveHandler.OnInvalidateRoom; parseIntFromQuery. Not modelled: NewSync3Handler; SyncLiveHandler.Listen; SyncLiveHandler.Teardown; SyncLiveHandler.addPrometheusMetrics; SyncLiveHandler.CacheForUser; SyncLiveHandler.OnInitialSyncComplete; SyncLiveHandler.OnTransactionID; SyncLiveHandler.Initialise; SyncLiveHandler.OnStateRedaction.
- `sync3/handler/lazy_member.go` (FeedModel). Modelled: LazyCache.IsSet; LazyCache.IsLazyLoading; LazyCache.Add; LazyCache.AddUser. Not modelled: NewLazyCache.
- `sync3/handler/rooms_builder.go` (MoreModel, SubModel, WhoModel). Modelled: RoomsBuilder.AddSubscription; RoomsBuilder.AddRoomsToSubscription; RoomsBuilder.BuildSubscriptions; subKey. Not modelled: NewRoomsBuilder; RoomsBuilder.IncludesRoom.
- `sync3/handler/txn_id_waiter.go` (FolModel, RecModel, SeeModel, TxnModel, ViewModel). Modelled: NewTxnIDWaiter; TxnIDWaiter.Ingest; TxnIDWaiter.PublishUpToNID.
- `sync3/lists.go` (ExtModel, ListsModel, OpsModel, SeeModel, ViewModel). Modelled: InternalRequestLists.SetRoom; InternalRequestLists.DeleteList; InternalRequestLists.ListsByVisibleRoomIDs; InternalRequestLists.AssignList. Not modelled: NewInternalRequestLists; InternalRequestLists.RemoveRoom; InternalRequestLists.ReadOnlyRoom; InternalRequestLists.Get; InternalRequestLists.ListKeys; InternalRequestLists.Count; InternalRequestLists.Len.
- `sync3/ops.go` (LiveListModel, OpsModel). Modelled: CalculateListOps.
- `sync3/range.go` (RangeModel). Modelled: SliceRanges.Valid; SliceRanges.Inside; SliceRanges.ClosestInDirection; pointInfo.same; SliceRanges.Delta; SliceRanges.SliceInto; createRange; sortPoints.
- `sync3/request.go` (ConnModel, HttpModel, ListsModel, LiveListModel, MoreModel, OpsModel, RecModel, RequestModel, RespModel, SpaceModel, SubModel, WhoModel). Modelled: Request.Validate; RequestList.ShouldGetAllRooms; RequestList.SortOrderChanged; RequestList.TimelineLimitChanged; RequestList.FiltersChanged; RequestList.WriteDeleteOp; RequestList.CalculateMoveIndexes; RequestList.jumpedOverRanges; RequestList.WriteSwapOp; Request.Same; Request.ApplyDelta; RequestFilters.Include; RoomSubscription.RequiredStateChanged; RoomSubscription.LazyLoadMembers; RoomSubscription.IncludeHeroes; RoomSubscription.Combine; RoomSubscription.combineRecursive; RoomSubscription.RequiredStateMap; nullableStringExists. Not modelled: RequestList.WriteInsertOp; Request.SetPos; Request.TimeoutMSecs; Request.SetTimeoutMSecs; Request.ListKeys.
- `sync3/response.go` (FolModel, RespModel, WakeModel). Modelled: Response.ListOps; Response.RoomIDsToTimelineEventIDs. Not modelled: Response.PosInt; Response.UnmarshalJSON; ResponseOpRange.Op; ResponseOpRange.IncludedRoomIDs; ResponseOpSingle.Op; ResponseOpSingle.IncludedRoomIDs.
- `sync3/room.go` (ListsModel, RoomNameModel, ViewModel, WhoModel). Modelled: RoomConnMetadata.SameRoomAvatar; sameHeroAvatars; RoomConnMetadata.GetLastInterestedEventTimestamp.
- `sync3/sort.go` (ListsModel, OpsModel, RangeModel). Modelled: NewSortableRooms; SortableRooms.IndexOf; SortableRooms.Add; SortableRooms.Get; SortableRooms.Remove; SortableRooms.Subslice; SortableRooms.Sort; SortableRooms.resolveRooms; SortableRooms.comparatorSortByName; SortableRooms.comparatorSortByRecency; SortableRooms.comparatorSortByHighlightCount; SortableRooms.comparatorSortByNotificationLevel; SortableRooms.comparatorSortByNotificationCount; NewFilteredSortableRooms; FilteredSortableRooms.Add. Not modelled: SortableRooms.RoomIDs; SortableRooms.Len.
- `sync3/tracker.go` (SeeModel, TrackerModel). Modelled: NewJoinedRoomsTracker; JoinedRoomsTracker.Startup; JoinedRoomsTracker.IsUserJoined; JoinedRoomsTracker.UserJoinedRoom; JoinedRoomsTracker.UsersJoinedRoom; JoinedRoomsTracker.UserLeftRoom; JoinedRoomsTracker.JoinedRoomsForUser; JoinedRoomsTracker.JoinedUsersForRoom; JoinedRoomsTracker.UsersInvitedToRoom; JoinedRoomsTracker.NumInvitedUsersForRoom; JoinedRoomsTracker.ReloadMembershipsForRoom.
- `v3.go` (HttpModel, MigModel, SlowModel). Modelled: allowCORS; Setup. Not modelled: server.ServeHTTP; RunSyncV3Server; unixSocketListener; HandlerError.Error; HandlerError.JSON.

408 of 659 functions are modelled, at least in part.
