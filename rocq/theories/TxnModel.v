(** Model of waiting for transaction IDs: sync3/handler/txn_id_waiter.go and
    sync2/txnid.go.

    Both types lock a mutex for the whole of each method, so a method is one
    step. *)
From Verif Require Import Prelude.
Open Scope string_scope. Open Scope list_scope. Open Scope Z_scope.

(** * TxnIDWaiter *)

(** The fields of caches.EventData the waiter reads (txn_id_waiter.go:42-65),
    and a number standing for the rest. *)
Record ev := mk_ev {
  e_room : string; e_nid : Z; e_sender : string; e_state : bool; e_txn : string; e_rest : nat }.

(** caches.Update: a RoomEventUpdate or something else. *)
Inductive upd := Ev (e : ev) | Else (n : nat).

(** txn_id_waiter.go:9-16. [t_timers] are the calls time.AfterFunc has promised:
    when they are due, the room and the NID. *)
Record waiter := mk_waiter {
  t_queues : gmap string (list ev); t_timers : list (Z * (string * Z)) }.
(** txn_id_waiter.go:18-27, NewTxnIDWaiter. *)
Definition waiter0 : waiter := mk_waiter ∅ [].

(** txn_id_waiter.go:29-64, Ingest. The second result is what it publishes, each
    with the flag [delayed]. *)
Definition Ingest (user : string) (delay now : Z) (t : waiter) (up : upd)
    : waiter * list (bool * upd) :=
  if delay <=? 0 then (t, [(false, up)])
  else match up with
  | Else _ => (t, [(false, up)])
  | Ev e =>
      let roomQueued := bool_decide (is_Some (t_queues t !! e_room e)) in
      let missingTxnID := negb (e_state e) && bool_decide (e_sender e = user)
                          && bool_decide (e_txn e = "") in
      if negb (missingTxnID || roomQueued) then (t, [(false, up)])
      else
        let queue := default [] (t_queues t !! e_room e) in
        (mk_waiter (<[e_room e := queue ++ [e]]> (t_queues t))
                   (t_timers t ++ [(now + delay, (e_room e, e_nid e))]), [])
  end.

(** txn_id_waiter.go:73-79: the scan forwards. *)
Fixpoint split_at (nid : Z) (queue : list ev) : list ev * list ev :=
  match queue with
  | [] => ([], [])
  | e :: rest => if nid <? e_nid e then ([], queue)
                 else let '(a, b) := split_at nid rest in (e :: a, b)
  end.

(** txn_id_waiter.go:66-93, PublishUpToNID. *)
Definition PublishUpToNID (t : waiter) (room : string) (nid : Z) : waiter * list (bool * upd) :=
  match t_queues t !! room with
  | None => (t, [])
  | Some queue =>
      let '(toPublish, queue') := split_at nid queue in
      (mk_waiter (match queue' with
                  | [] => delete room (t_queues t)
                  | _ => <[room := queue']> (t_queues t)
                  end) (t_timers t),
       map (fun e => (true, Ev e)) toPublish)
  end.

(** * PendingTransactionIDs *)

(** sync2/txnid.go:36-42: the cache, without the times. *)
Notation pending := (gmap string (list string)).

(** txnid.go:111-121, removeDevice. *)
Fixpoint removeDevice (device : string) (devices : list string) : list string * bool :=
  match devices with
  | [] => ([], false)
  | other :: rest =>
      if decide (other = device) then (rest, true)
      else let '(l, changed) := removeDevice device rest in (other :: l, changed)
  end.

(** txnid.go:59-101, MissingTxnID; [known] is what the loader returns. Errors of
    the cache (it is never closed) are left out. *)
Definition MissingTxnID (p : pending) (known : list string) (eventID dev : string) : pending * bool :=
  let deviceIDs := default known (p !! eventID) in
  let '(deviceIDs', changed) := removeDevice dev deviceIDs in
  (if changed then <[eventID := deviceIDs']> p else p,
   changed && bool_decide (deviceIDs' = [])).

(** txnid.go:105-109, SeenTxnID. *)
Definition SeenTxnID (p : pending) (eventID : string) : pending := <[eventID := []]> p.

(** txnid.go:46-47: after five minutes the cache drops an entry. *)
Definition Expire (p : pending) (eventID : string) : pending := delete eventID p.
