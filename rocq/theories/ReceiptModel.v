(** Model of receipts: state/receipt_table.go, sync3/handler/handler.go OnReceipt,
    sync3/dispatcher.go OnReceipt, sync3/extensions/receipts.go.

    Simplifications: an event is its decoded content, so marshalling and
    unmarshalling are the identity; Go's map iteration order is left open by
    permutations; the rows of one insert are sent in one chunk
    (receipt_table.go:132 allows 13107). *)
From Verif Require Import Prelude.
Open Scope string_scope. Open Scope list_scope. Open Scope Z_scope.

(** internal/receipt.go. *)
Record receipt := mk_receipt {
  rc_room : string; rc_event : string; rc_user : string; rc_ts : Z; rc_thread : string; rc_private : bool }.
Global Instance receipt_dec : EqDecision receipt.
Proof. solve_decision. Defined.

(** receipt_table.go:23-26, receiptInfo. *)
Record info := mk_info { i_ts : Z; i_thread : string }.
(** receipt_table.go:18-21, receiptContent; a nil map is an empty one. *)
Record content := mk_content { c_read : gmap string info; c_priv : gmap string info }.
Definition content0 : content := mk_content ∅ ∅.
(** receipt_table.go:13-16, the content of an m.receipt event, by event ID. *)
Notation edu := (gmap string content).

(** receipt_table.go:176-184 and 190-198: keep the receipt there is, unless this
    one is unthreaded. *)
Definition put (m : gmap string info) (r : receipt) : gmap string info :=
  if bool_decide (is_Some (m !! rc_user r)) && negb (bool_decide (rc_thread r = ""))
  then m else <[rc_user r := mk_info (rc_ts r) (rc_thread r)]> m.
(** receipt_table.go:172-200, one turn of the loop. *)
Definition add (e : edu) (r : receipt) : edu :=
  let c := default content0 (e !! rc_event r) in
  <[rc_event r := if rc_private r then mk_content (c_read c) (put (c_priv c) r)
                  else mk_content (put (c_read c) r) (c_priv c)]> e.
(** receipt_table.go:167-203, PackReceiptsIntoEDU. *)
Definition pack (l : list receipt) : edu := fold_left add l ∅.

(** receipt_table.go:230-253, UnpackReceiptsFromEDU, in one of the orders. *)
Definition unpack_read (room : string) (e : edu) : list receipt :=
  concat (map (fun x : string * content =>
    map (fun y : string * info => mk_receipt room x.1 y.1 (i_ts y.2) (i_thread y.2) false)
        (map_to_list (c_read x.2))) (map_to_list e)).
Definition unpack_priv (room : string) (e : edu) : list receipt :=
  concat (map (fun x : string * content =>
    map (fun y : string * info => mk_receipt room x.1 y.1 (i_ts y.2) (i_thread y.2) true)
        (map_to_list (c_priv x.2))) (map_to_list e)).
Definition unpacks (room : string) (e : edu) (pub priv : list receipt) : Prop :=
  Permutation pub (unpack_read room e) /\ Permutation priv (unpack_priv room e).

(** ** The tables, receipt_table.go:32-57: unique by room, user and thread. *)
Definition rkey (r : receipt) : string * string * string := (rc_room r, rc_user r, rc_thread r).
Notation rtable := (gmap (string * string * string) (string * Z)).
Record store := mk_store { s_pub : rtable; s_priv : rtable }.

(** receipt_table.go:128-163, bulkInsert: the rows in order. A row is written if
    it is new or its event differs. PostgreSQL refuses the statement if a row
    conflicts with one that it has written itself. *)
Fixpoint bulk (t : rtable) (touched : list (string * string * string)) (l : list receipt)
    : option (rtable * list receipt) :=
  match l with
  | [] => Some (t, [])
  | r :: rest =>
      if bool_decide (rkey r ∈ touched) then None
      else if bool_decide (fst <$> t !! rkey r = Some (rc_event r)) then bulk t touched rest
      else match bulk (<[rkey r := (rc_event r, rc_ts r)]> t) (rkey r :: touched) rest with
           | Some (t', new) => Some (t', r :: new)
           | None => None
           end
  end.
(** receipt_table.go:62-89, Insert, with the lists UnpackReceiptsFromEDU gave: one
    transaction. The result is the new receipts; [None] is an error. *)
Definition insert_receipts (s : store) (pub priv : list receipt) : store * option (list receipt) :=
  match bulk (s_pub s) [] pub with
  | None => (s, None)
  | Some (tp, np) =>
      match bulk (s_priv s) [] priv with
      | None => (s, None)
      | Some (tv, nv) => (mk_store tp tv, Some (np ++ nv))
      end
  end.

(** The rows of a table as receipts. *)
Definition rows (t : rtable) (private : bool) : list receipt :=
  map (fun x : (string * string * string) * (string * Z) =>
         mk_receipt x.1.1.1 x.2.1 x.1.1.2 x.2.2 x.1.2 private) (map_to_list t).
(** receipt_table.go:94-98, SelectReceiptsForEvents. *)
Definition receiptsForEvents (s : store) (room : string) (events : list string) : list receipt :=
  List.filter (fun r => bool_decide (rc_room r = room) && bool_decide (rc_event r ∈ events)) (rows (s_pub s) false).
(** receipt_table.go:101-126, SelectReceiptsForUser, the bucket of one room. *)
Definition receiptsForUser (s : store) (room user : string) : list receipt :=
  List.filter (fun r => bool_decide (rc_room r = room) && bool_decide (rc_user r = user))
    (rows (s_pub s) false ++ rows (s_priv s) true).

(** ** Sending *)

(** sync3/handler/handler.go:756-786, OnReceipt, and sync3/dispatcher.go:242-267:
    who is told of which receipt. [cached] says which users have a cache, which is
    also registered with the dispatcher; [joined] is the tracker. *)
Definition deliveries (cached : string -> bool) (joined : string -> list string) (rs : list receipt)
    : list (string * receipt) :=
  map (fun r => (rc_user r, r)) (List.filter (fun r => rc_private r && cached (rc_user r)) rs)
  ++ concat (map (fun r => map (fun u => (u, r)) (List.filter cached (joined (rc_room r))))
               (List.filter (fun r => negb (rc_private r)) rs)).

(** sync3/extensions/receipts.go:34-83, AppendLive: the response's rooms after one
    more receipt. [scope] is RoomInScope. *)
Inductive append_live (scope : string -> bool) (res : gmap string edu) (r : receipt) : gmap string edu -> Prop :=
  | live_out : scope (rc_room r) = false -> append_live scope res r res
  | live_first : scope (rc_room r) = true -> res !! rc_room r = None ->
      append_live scope res r (<[rc_room r := pack [r]]> res)
  | live_more e pub priv : scope (rc_room r) = true -> res !! rc_room r = Some e ->
      unpacks (rc_room r) e pub priv ->
      append_live scope res r (<[rc_room r := pack (pub ++ priv ++ [r])]> res).
Inductive append_all (scope : string -> bool) : gmap string edu -> list receipt -> gmap string edu -> Prop :=
  | all_nil res : append_all scope res [] res
  | all_cons res r res' l res'' : append_live scope res r res' -> append_all scope res' l res'' ->
      append_all scope res (r :: l) res''.

(** sync3/extensions/receipts.go:85-127, ProcessInitial: a room's event, if it has
    one, from its timeline's events and the user's own receipts. The rows come in
    any order. *)
Definition initial_edu (s : store) (user room : string) (timeline : list string) (l : list receipt) (e : edu) : Prop :=
  Permutation l (receiptsForEvents s room timeline ++ receiptsForUser s room user) /\ l <> [] /\ e = pack l.
