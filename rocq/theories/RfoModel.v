(** Model of the way of receipts to a client: from the pollers over the tables, the
    notifications, the user's cache and the connection into responses, and the copy the
    client keeps. [sync2/handler2/handler.go] OnReceipt, [sync3/handler/handler.go]
    OnReceipt, [sync3/dispatcher.go] OnReceipt, [sync3/extensions/receipts.go]; the
    tables and the packing of events are [ReceiptModel]'s.

    One user with one connection at a time. Left out: queries of the extension that
    fail, an updates channel that runs full (C72), responses that get lost (C10 gives
    them again) and updates other than receipts, except that they move rooms in and out
    of the scope of the extension. *)
From Verif Require Import Prelude RequestModel ExtModel ReceiptModel.
From Verif Require FolModel.
Open Scope string_scope. Open Scope list_scope. Open Scope Z_scope.

(** A room, a user, a thread, and whether the receipt is private. *)
Definition slot : Type := string * string * string * bool.
Definition slot_of (r : receipt) : slot := (rc_room r, rc_user r, rc_thread r, rc_private r).
(** What a receipt says: its event and time. *)
Definition mark_of (r : receipt) : string * Z := (rc_event r, rc_ts r).

(** [q_store]: the tables. [q_pend]: the V2Receipt notifications that were not handled
    yet. [q_on]: there is a connection; [q_queue]: the receipts in its updates channel.
    [q_exts], [q_place]: the extensions asked for and what decides their scope.
    [q_busy]: a request is being served; [q_resp]: the receipts of its response, by
    room. [q_copy]: what the client knows of each slot. *)
Record qstate := mk_q {
  q_store : store;
  q_pend : list (list receipt);
  q_on : bool;
  q_queue : list receipt;
  q_exts : exts;
  q_place : FolModel.place;
  q_busy : bool;
  q_resp : gmap string edu;
  q_copy : slot -> option (string * Z)
}.

(** An order in which Go walks a map or PostgreSQL gives rows: what [ord] says, if it
    is a permutation. *)
Definition ordered (ord : list receipt -> list receipt) (l : list receipt) : list receipt :=
  if decide (ord l ≡ₚ l) then ord l else l.

Inductive qaction :=
| Arrive (room : string) (e : edu) (ord : list receipt -> list receipt)
    (* a poller hands on an m.receipt event of a room *)
| Broken (room : string) (e : edu)
    (* the same, but the database fails *)
| Told (joined : string -> list string)
    (* the consumer handles the next notification; [joined]: who is in which room *)
| Crash
| Connect
    (* a new connection of a client that knows nothing *)
| Ask (ex : exts) (p : FolModel.place) (timelines : gmap string (list string)) (ord : list receipt -> list receipt)
    (* a request; [timelines]: the rooms of the response before live updates, with
       the events in their timelines *)
| Move (p : FolModel.place)
    (* an update that is no receipt is processed *)
| Next (p : FolModel.place) (ord : list receipt -> list receipt)
    (* the next receipt is processed *)
| Reply.

Section receipts.
(** The user of the connection. *)
Context (me : string).

(** extensions.go, RoomInScope of the receipts extension; ExtModel. *)
Definition in_view (ex : exts) (p : FolModel.place) (room : string) : bool :=
  match enabled_ext ex EReceipts with
  | Some e => roomInScope e room (FolModel.ctx_of p [] false)
  | None => false
  end.

(** sync3/extensions/receipts.go:85-127, ProcessInitial. *)
Definition load (s : store) (ex : exts) (p : FolModel.place) (timelines : gmap string (list string))
    (ord : list receipt -> list receipt) : gmap string edu :=
  map_imap (fun room events =>
    if in_view ex p room then
      match ordered ord (receiptsForEvents s room events ++ receiptsForUser s room me) with
      | [] => None
      | l => Some (pack l)
      end
    else None) timelines.

(** sync3/extensions/receipts.go:34-83, AppendLive. *)
Definition append (ex : exts) (p : FolModel.place) (res : gmap string edu) (r : receipt)
    (ord : list receipt -> list receipt) : gmap string edu :=
  if in_view ex p (rc_room r) then
    match res !! rc_room r with
    | None => <[rc_room r := pack [r]]> res
    | Some e => <[rc_room r := pack (ordered ord (unpack_read (rc_room r) e) ++ ordered ord (unpack_priv (rc_room r) e) ++ [r])]> res
    end
  else res.

(** A client takes the receipts of a response and keeps the newest of each slot. *)
Definition keep (c : slot -> option (string * Z)) (r : receipt) : slot -> option (string * Z) :=
  fun k => if bool_decide (slot_of r = k)
           then match c k with
                | Some (ev, ts) => if ts <? rc_ts r then Some (mark_of r) else Some (ev, ts)
                | None => Some (mark_of r)
                end
           else c k.
Definition entries (res : gmap string edu) : list receipt :=
  concat (map (fun x : string * edu => unpack_read x.1 x.2 ++ unpack_priv x.1 x.2) (map_to_list res)).

(** sync3/handler/handler.go:756-786 and sync3/dispatcher.go:242-267: the receipts
    that the user's cache is told. *)
Definition for_me (joined : string -> list string) (rs : list receipt) : list receipt :=
  map snd (List.filter (fun x : string * receipt => bool_decide (x.1 = me))
    (deliveries (fun u => bool_decide (u = me)) joined rs)).

Definition no_exts : exts := fun _ => None.
Definition no_place : FolModel.place := FolModel.mk_place ∅ [] [].

Definition qstep (s : qstate) (a : qaction) : qstate :=
  match a with
  | Arrive room e ord =>
      (* handler2/handler.go:416-432; receipt_table.go:62-89 *)
      match insert_receipts (q_store s) (ordered ord (unpack_read room e)) (ordered ord (unpack_priv room e)) with
      | (st, Some (r :: new)) =>
          mk_q st (q_pend s ++ [r :: new]) (q_on s) (q_queue s) (q_exts s) (q_place s) (q_busy s) (q_resp s) (q_copy s)
      | _ => s
      end
  | Broken _ _ =>
      (* handler2/handler.go:420-424: the error is logged *)
      s
  | Told joined =>
      match q_pend s with
      | [] => s
      | rs :: rest =>
          mk_q (q_store s) rest (q_on s) (if q_on s then q_queue s ++ for_me joined rs else q_queue s)
            (q_exts s) (q_place s) (q_busy s) (q_resp s) (q_copy s)
      end
  | Crash => mk_q (q_store s) [] false [] no_exts no_place false ∅ (q_copy s)
  | Connect => mk_q (q_store s) (q_pend s) true [] no_exts no_place false ∅ (fun _ => None)
  | Ask ex p timelines ord =>
      if q_busy s || negb (q_on s) then s
      else mk_q (q_store s) (q_pend s) true (q_queue s) ex p true (load (q_store s) ex p timelines ord) (q_copy s)
  | Move p =>
      if q_busy s then mk_q (q_store s) (q_pend s) (q_on s) (q_queue s) (q_exts s) p true (q_resp s) (q_copy s) else s
  | Next p ord =>
      if negb (q_busy s) then s
      else match q_queue s with
      | [] => s
      | r :: rest =>
          mk_q (q_store s) (q_pend s) (q_on s) rest (q_exts s) p true (append (q_exts s) p (q_resp s) r ord) (q_copy s)
      end
  | Reply =>
      if q_busy s
      then mk_q (q_store s) (q_pend s) (q_on s) (q_queue s) (q_exts s) (q_place s) false ∅
             (fold_left keep (entries (q_resp s)) (q_copy s))
      else s
  end.
Definition qrun (s : qstate) (l : list qaction) : qstate := fold_left qstep l s.
End receipts.

(** A server that was just started. *)
Definition qstart (st : store) : qstate := mk_q st [] false [] no_exts no_place false ∅ (fun _ => None).
