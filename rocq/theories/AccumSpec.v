(** Declarative vocabulary for the event store. *)
From Verif Require Import Prelude AccumModel.
Open Scope string_scope.
Open Scope list_scope.
Open Scope Z_scope.

(** A stored event is state: it came in a state block or it has a state key. *)
Definition state_row (e : event) : Prop := e_isstate e = true \/ r_skey (e_json e) <> None.
Definition ekey (e : event) : string * string := (e_type e, e_skey e).

(** In this room, among the events up to position [p], [e] is the most recently stored
    state event with its type and state key. *)
Definition newest (l : list event) (rm : string) (p : Z) (e : event) : Prop :=
  e ∈ l /\ e_room e = rm /\ state_row e /\ e_nid e <= p /\
  forall x, x ∈ l -> e_room x = rm -> state_row x -> ekey x = ekey e -> e_nid x <= p ->
            e_nid x <= e_nid e.

(** No state of the room is stored up to [p]. *)
Definition no_state (l : list event) (rm : string) (p : Z) : Prop :=
  forall e, e ∈ l -> e_room e = rm -> state_row e -> p < e_nid e.

(** A snapshot holds, once each, exactly the newest state events up to [p]; the ones
    about members are kept apart. *)
Definition holds_state (l : list event) (rm : string) (p : Z) (s : snap) : Prop :=
  s_room s = rm /\ NoDup (s_members s ++ s_others s) /\
  (forall n, n ∈ s_members s <->
     exists e, newest l rm p e /\ e_nid e = n /\ e_type e = "m.room.member") /\
  (forall n, n ∈ s_others s <->
     exists e, newest l rm p e /\ e_nid e = n /\ e_type e <> "m.room.member").

(** Operations whose event types do not contain the separator 0x1f, and whose state
    blocks do not repeat an event ID. *)
Definition no_sep (s : string) : Prop := forall a b, s <> a +:+ sep +:+ b.
Definition good_raw (r : raw) : Prop := forall ty, r_type r = Some ty -> no_sep ty.
Definition good_op (o : op) : Prop :=
  match o with
  | Initialise _ st => Forall good_raw st /\ NoDup (map r_id st)
  | Accumulate _ t => Forall good_raw (tl_events t)
  | _ => True
  end.

(** Redaction keeps what the code relies on. *)
Definition redact_ok (redact : raw -> raw -> raw -> raw) : Prop :=
  forall c b j, r_skey (redact c b j) = r_skey j /\ r_type (redact c b j) = r_type j /\
    r_id (redact c b j) = r_id j /\
    (r_type j = Some "m.room.member" -> r_mship (redact c b j) = r_mship j).
Definition ord_ok (ord : list Z -> list Z) : Prop := forall l, ord l ≡ₚ l.

(** A timeline entry the store accepts. *)
Definition valid_raw (r : raw) : Prop :=
  r_id r <> "" /\ r_type r <> None /\
  (r_type r = Some "m.room.member" -> r_skey r <> None -> r_skey r <> Some "" -> r_mship r <> "").

(** [e] is the state event with its type and state key which was stored last. *)
Definition latest_state (l : list event) (rm : string) (e : event) : Prop :=
  e ∈ l /\ e_room e = rm /\ state_row e /\
  forall x, x ∈ l -> e_room x = rm -> state_row x -> ekey x = ekey e -> e_nid x <= e_nid e.

(** The numbers in a snapshot. *)
Definition snap_nids (s : snap) : list Z := s_members s ++ s_others s.

(** Increasing positions. *)
Definition increasing (l : list event) : Prop := StronglySorted Z.lt (map e_nid l).

(** The IDs of the acceptable entries of a timeline, each once, in order. *)
Definition valid_rawb (r : raw) : bool :=
  negb (String.eqb (r_id r) "") &&
  match r_type r with None => false | Some _ => true end &&
  (negb (match r_type r with Some ty => String.eqb ty "m.room.member" | None => false end &&
         match r_skey r with Some k => negb (String.eqb k "") | None => false end)
   || negb (String.eqb (r_mship r) "")).
Fixpoint once (seen l : list string) : list string :=
  match l with
  | [] => []
  | x :: l => if bool_decide (x ∈ seen) then once seen l else x :: once (x :: seen) l
  end.
Definition timeline_ids (t : timeline) : list string :=
  once [] (map r_id (List.filter valid_rawb (tl_events t))).

(** [suffix] is what follows the last known ID in [ids]. *)
Definition after_known (known ids suffix : list string) : Prop :=
  exists pre, ids = pre ++ suffix /\ (forall x, x ∈ suffix -> x ∉ known) /\
    (pre = [] \/ exists pre' x, pre = pre' ++ [x] /\ x ∈ known).

(** The same tables; only the counter which numbers events may differ. *)
Definition same_tables (d d' : db) : Prop :=
  d_events d' = d_events d /\ d_snaps d' = d_snaps d /\ d_rooms d' = d_rooms d /\
  d_invites d' = d_invites d /\ d_spaces d' = d_spaces d.

(** Databases made by any operations. *)
Definition stored (ord : list Z -> list Z) (redact : raw -> raw -> raw -> raw) (d : db) : Prop :=
  exists ops, d = runs ord redact ops empty_db.
(** Databases made by the operations above. *)
Definition reached (ord : list Z -> list Z) (redact : raw -> raw -> raw -> raw) (d : db) : Prop :=
  exists ops, Forall good_op ops /\ d = runs ord redact ops empty_db.
