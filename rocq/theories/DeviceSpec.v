(** Specification of device-list changes and device keys, in terms of the
    history of one server: what pollers stored and what was read. *)
From Verif Require Import Prelude DeviceModel.
Open Scope list_scope. Open Scope Z_scope.

(** Something that happened: a poller stored key data and device-list changes
    for a device, or a request read them. An acknowledging read is one by a
    request that is not the first of its connection. *)
Inductive op :=
  | Stored (u d : string) (otk : option (gmap string Z)) (fallback : option (list string))
      (changes : option (gmap string Z))
  | Read (u d : string) (ack : bool).

(** Every change says "changed" (1) or "left" (2). *)
Definition valid_op (o : op) : Prop :=
  match o with
  | Stored _ _ _ _ (Some m) => forall t st, m !! t = Some st -> st = 1 \/ st = 2
  | _ => True
  end.

(** Histories are newest first. *)

(** The last thing said about user [t] to device [(u,d)] since the last
    acknowledging read. *)
Fixpoint unread (h : list op) (u d t : string) : option Z :=
  match h with
  | [] => None
  | Stored u' d' _ _ changes :: h' =>
      match (if decide (u' = u /\ d' = d) then (default ∅ changes : gmap string Z) !! t else None) with
      | Some st => Some st
      | None => unread h' u d t
      end
  | Read u' d' ack :: h' =>
      if decide (u' = u /\ d' = d /\ ack = true) then None else unread h' u d t
  end.

(** What the last acknowledging read gave. *)
Fixpoint in_flight (h : list op) (u d t : string) : option Z :=
  match h with
  | [] => None
  | Read u' d' ack :: h' =>
      if decide (u' = u /\ d' = d /\ ack = true) then unread h' u d t else in_flight h' u d t
  | _ :: h' => in_flight h' u d t
  end.

(** The last counts and fallback types stored. *)
Fixpoint last_otk (h : list op) (u d : string) : option (gmap string Z) :=
  match h with
  | [] => None
  | Stored u' d' (Some m) _ _ :: h' =>
      if decide (u' = u /\ d' = d) then Some m else last_otk h' u d
  | _ :: h' => last_otk h' u d
  end.
Fixpoint last_fallback (h : list op) (u d : string) : option (list string) :=
  match h with
  | [] => None
  | Stored u' d' _ (Some f) _ :: h' =>
      if decide (u' = u /\ d' = d) then Some f else last_fallback h' u d
  | _ :: h' => last_fallback h' u d
  end.

(** Were counts (fallback types) stored since the last acknowledging read? *)
Fixpoint otk_unread (h : list op) (u d : string) : bool :=
  match h with
  | [] => false
  | Stored u' d' (Some _) _ _ :: h' =>
      if decide (u' = u /\ d' = d) then true else otk_unread h' u d
  | Stored _ _ None _ _ :: h' => otk_unread h' u d
  | Read u' d' ack :: h' =>
      if decide (u' = u /\ d' = d /\ ack = true) then false else otk_unread h' u d
  end.
Fixpoint fallback_unread (h : list op) (u d : string) : bool :=
  match h with
  | [] => false
  | Stored u' d' _ (Some _) _ :: h' =>
      if decide (u' = u /\ d' = d) then true else fallback_unread h' u d
  | Stored _ _ _ None _ :: h' => fallback_unread h' u d
  | Read u' d' ack :: h' =>
      if decide (u' = u /\ d' = d /\ ack = true) then false else fallback_unread h' u d
  end.

(** The two arrays say, for each user, what [f] says, and name nobody twice. *)
Definition arrays_say (changed lefts : list string) (f : string -> option Z) : Prop :=
  NoDup changed /\ NoDup lefts
  /\ (forall t, t ∈ changed <-> f t = Some 1)
  /\ (forall t, t ∈ lefts <-> f t = Some 2).

(** The database after a history. *)
Section run.
  Context (ord : list (string * Z) -> list (string * Z)).
  Definition apply_op (s : ddb) (o : op) : ddb :=
    match o with
    | Stored u d otk fb ch => default s (Upsert ord s u d otk fb ch)
    | Read u d ack => (Select ord s u d ack).1
    end.
  Definition after (h : list op) : ddb := foldr (fun o s => apply_op s o) ddb0 h.
End run.

(** The lists a read (or a response) names. *)
Definition named (r : option DeviceData) : list string * list string :=
  match r with Some dd => (dd_changed dd, dd_left dd) | None => ([], []) end.
Definition reported (r : option E2EEResponse) : list string * list string :=
  match r with
  | Some x => default ([], []) (x_lists x)
  | None => ([], [])
  end.

(** A request of device [(u,d)] with the E2EE extension on: it is looked at
    once at the start, and then again whenever the connection is told that
    there is device data ([Poke]), until the response is sent; meanwhile
    anything may happen to the tables. *)
Inductive ev := Happens (o : op) | Poke.
Fixpoint go_on (ord : list (string * Z) -> list (string * Z)) (u d : string) (evs : list ev)
    (s : ddb) (r : option E2EEResponse) : ddb * option E2EEResponse :=
  match evs with
  | [] => (s, r)
  | Happens o :: evs' => go_on ord u d evs' (apply_op ord s o) r
  | Poke :: evs' => let '(s', r') := AppendLive ord s u d r in go_on ord u d evs' s' r'
  end.
Definition serve ord (u d : string) (first : bool) (evs : list ev) (s : ddb)
    : ddb * option E2EEResponse :=
  let '(s', r') := ProcessInitial ord s u d first None in go_on ord u d evs s' r'.

(** Nothing else reads the data of this device meanwhile (there is one
    connection). *)
Definition alone (u d : string) (e : ev) : Prop :=
  match e with
  | Happens (Read u' d' ack) => (u', d') <> (u, d)
  | Happens o => valid_op o
  | Poke => True
  end.

(** One response is processed by the poller of [(u,d)]; the call to store, if
    there is one, succeeds. (If it fails nothing changes and the same response
    is fetched again.) *)
Inductive polled (u d : string) : e2ee_mem -> list op -> e2ee_res -> e2ee_mem -> list op -> Prop :=
  | polled_nothing p h res p' :
      parseE2EEData p res = (None, p') -> polled u d p h res p' h
  | polled_stored p h res p' otk fb ch :
      parseE2EEData p res = (Some (otk, fb, ch), p') ->
      polled u d p h res p' (Stored u d otk fb ch :: h).

(** The life of one device: its poller's memory and the history. A response
    is processed, and stored if there is something to store and the database
    works; the poller may be replaced; clients may read. *)
Inductive lives (u d : string) (known : list op -> e2ee_res -> Prop)
    : e2ee_mem -> list op -> Prop :=
  | lives_start : lives u d known mem0 []
  | lives_poll p h res p' h' :
      lives u d known p h -> known h res -> polled u d p h res p' h' -> lives u d known p' h'
  | lives_replaced p h : lives u d known p h -> lives u d known mem0 h
  | lives_read p h u' d' ack : lives u d known p h -> lives u d known p (Read u' d' ack :: h)
  | lives_other p h u' d' otk fb ch :
      lives u d known p h -> (u', d') <> (u, d) -> lives u d known p (Stored u' d' otk fb ch :: h).

(** A response that reports zero keys does so for algorithms that were there
    before. *)
Definition zeros_known (u d : string) (h : list op) (res : e2ee_res) : Prop :=
  forall new old k, s_otk res = Some new -> new !! k = Some 0 ->
    last_otk h u d = Some old -> is_Some (old !! k).
