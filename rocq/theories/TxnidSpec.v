(** What it means for transaction IDs to be shown to the device that sent the event. *)
From Verif Require Import Prelude TxnidModel.
Open Scope string_scope. Open Scope list_scope. Open Scope Z_scope.

(** The truth, which the homeserver knows: by which user an event was sent, and for some events
    by which device of theirs and with which transaction ID. *)
Record truth := mk_truth { by_user : string -> string; by_device : string -> option (string * string) }.

(** The homeserver tells a device only the IDs with which that device sent events. *)
Definition honest_event (T : truth) (user dev : string) (e : tev) : Prop :=
  t_sender e = by_user T (t_id e) /\
  (forall t, t_transaction e = Some t -> by_user T (t_id e) = user /\ by_device T (t_id e) = Some (dev, t)).
Definition honest (T : truth) (o : top) : Prop :=
  match o with
  | Poll user dev evs _ _ _ => Forall (honest_event T user dev) evs
  | State user dev evs _ => Forall (honest_event T user dev) evs
  | Clean _ => True
  end.

(** The copies of events that are handed to the table of events, in order. *)
Definition copies (l : list top) : list tev :=
  flat_map (fun o => match o with
    | Poll _ _ evs _ stored _ => List.filter stored evs
    | State _ _ evs stored => List.filter stored evs
    | Clean _ => [] end) l.
(** The first copy of an event. *)
Definition first_copy (l : list top) (id : string) (e : tev) : Prop :=
  exists before after, copies l = before ++ e :: after /\ t_id e = id /\ Forall (fun e' => t_id e' <> id) before.

(** A response is made of events in the table. *)
Definition from_table (s : tstore) (resp : gmap string (list tev)) : Prop :=
  forall room l e, resp !! room = Some l -> In e l -> s_events s !! t_id e = Some e.
(** Event number [i] of a room in a response. *)
Definition at_ (resp : gmap string (list tev)) (room : string) (i : nat) (e : tev) : Prop :=
  exists l, resp !! room = Some l /\ l !! i = Some e.
(** All but the transaction ID is the same. *)
Definition same_but_txn (e e' : tev) : Prop :=
  t_id e = t_id e' /\ t_sender e = t_sender e' /\ t_txn e = t_txn e' /\ t_rest e = t_rest e'.

(** The poller of this device has been told a transaction ID of this event. *)
Definition told (l : list top) (user dev id : string) : Prop :=
  exists evs ok stored now e, In (Poll user dev evs ok stored now) l /\ In e evs /\ t_id e = id /\ t_transaction e <> None.
(** This device sent the event. *)
Definition sent_by (T : truth) (id user dev : string) : Prop :=
  by_user T id = user /\ exists t, by_device T id = Some (dev, t).
