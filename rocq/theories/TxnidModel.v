(** Model of transaction IDs in events: [sync2/handler2/handler.go] 260-296,
    [state/txn_table.go], [state/event_table.go] 162-197 and [sync3/caches/user.go] 437-493. *)
From Verif Require Import Prelude.
Open Scope string_scope. Open Scope list_scope. Open Scope Z_scope.

(** The JSON of an event: its ID, its sender, unsigned.transaction_id and unsigned.txn_id, and
    the rest. Simplification: both are strings if they are there. *)
Record tev := mk_tev { t_id : string; t_sender : string; t_transaction : option string; t_txn : option string; t_rest : string }.

(** state/txn_table.go:24-34: the rows by their unique key, with the time. *)
Notation key := (string * string * string)%type.
Notation txns := (gmap key (string * Z)).
(** state/event_table.go: events by their ID. *)
Record tstore := mk_tstore { s_txns : txns; s_events : gmap string tev }.
Definition tstore0 : tstore := mk_tstore ∅ ∅.

(** handler.go:263-279: eventIDToTxnID; a map, so the last event with an ID counts. *)
Definition ids_of (evs : list tev) : gmap string string :=
  fold_left (fun m e => match t_transaction e with Some t => <[t_id e := t]> m | None => m end) evs ∅.

(** txn_table.go:37-56, Insert: one statement, which fails as a whole if the key of a row is in
    the table, there being no ON CONFLICT. [now] is the time. *)
Definition insert_txns (m : txns) (user dev : string) (ids : gmap string string) (now : Z) : txns :=
  let rows := map (fun e : string * string => ((user, dev, e.1), (e.2, now))) (map_to_list ids) in
  if forallb (fun r : key * (string * Z) => bool_decide (m !! r.1 = None)) rows
  then fold_left (fun m (r : key * (string * Z)) => <[r.1 := r.2]> m) rows m
  else m.

(** event_table.go:162-197, Insert: unsigned.txn_id is deleted; ON CONFLICT DO NOTHING. *)
Definition strip (e : tev) : tev := mk_tev (t_id e) (t_sender e) (t_transaction e) None (t_rest e).
Definition insert_events (m : gmap string tev) (evs : list tev) : gmap string tev :=
  fold_left (fun m e => match m !! t_id e with Some _ => m | None => <[t_id e := strip e]> m end) evs m.

(** What happens to the tables. [Poll]: handler.go:260-296, the poller of a device gets the
    timeline of a room; [ok] says whether the statement for the transaction IDs reached the
    database, [stored] which of the events Accumulate hands to the table of events, about which
    see C24. [State]: the state of a room (handler.go:371-377), for which transaction IDs are
    not looked at. [Clean]: txn_table.go:58-61, called at state/storage.go:1086. *)
Inductive top :=
| Poll (user dev : string) (evs : list tev) (ok : bool) (stored : tev -> bool) (now : Z)
| State (user dev : string) (evs : list tev) (stored : tev -> bool)
| Clean (boundary : Z).
Definition tstep (s : tstore) (o : top) : tstore :=
  match o with
  | Poll user dev evs ok stored now =>
      mk_tstore (if ok && (0 <? Z.of_nat (size (ids_of evs))) then insert_txns (s_txns s) user dev (ids_of evs) now else s_txns s)
        (insert_events (s_events s) (List.filter stored evs))
  | State _ _ evs stored => mk_tstore (s_txns s) (insert_events (s_events s) (List.filter stored evs))
  | Clean boundary => mk_tstore (filter (fun r : key * (string * Z) => boundary < r.2.2) (s_txns s)) (s_events s)
  end.
Definition truns (s : tstore) (l : list top) : tstore := fold_left tstep l s.

(** txn_table.go:63-74, Select, for the IDs [ids]. *)
Definition select (m : txns) (user dev : string) (ids : list string) : gmap string string :=
  fold_left (fun r id => match m !! (user, dev, id) with Some (t, _) => <[id := t]> r | None => r end) ids ∅.

(** user.go:445-470: the events of the response that the user sent, and where they are; the
    loop over the rooms is in some order. *)
Definition own (user : string) (room : string) (l : list tev) : list (string * (string * nat)) :=
  flat_map (fun ie : nat * tev => if String.eqb (t_sender ie.2) user then [(t_id ie.2, (room, ie.1))] else []) (zip (seq 0 (length l)) l).
Definition positions (user : string) (order : list (string * list tev)) : list (string * (string * nat)) :=
  flat_map (fun r => own user r.1 r.2) order.
Definition set_txn (t : string) (e : tev) : tev := mk_tev (t_id e) (t_sender e) (Some t) (t_txn e) (t_rest e).
(** user.go:437-493, AnnotateWithTransactionIDs. [rows] are the rows of the query in the order in
    which Go goes through the map. *)
Definition annotate (user : string) (order : list (string * list tev)) (rows : list (string * string)) (resp : gmap string (list tev))
  : gmap string (list tev) :=
  let where_ := fold_left (fun m (p : string * (string * nat)) => <[p.1 := p.2]> m) (positions user order) (∅ : gmap string (string * nat)) in
  fold_left (fun resp (r : string * string) =>
    match where_ !! r.1 with
    | Some (room, i) => alter (alter (set_txn r.2) i) room resp
    | None => resp
    end) rows resp.
(** The loop orders that are possible for a response: [order] is that of the rooms, [rows] that
    of the rows. There are no rows if the query fails (sync3/handler/handler.go:637-643), which is
    what [ok] says. *)
Definition orders (m : txns) (ok : bool) (user dev : string) (resp : gmap string (list tev)) (order : list (string * list tev)) (rows : list (string * string)) : Prop :=
  order ≡ₚ map_to_list resp /\
  rows ≡ₚ (if ok then map_to_list (select m user dev (map fst (positions user order))) else []).
