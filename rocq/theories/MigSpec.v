(** Specification of upgrades of the database. *)
From Verif Require Import Prelude AccumModel MigModel.
From Verif Require DeviceModel.
Open Scope string_scope. Open Scope list_scope. Open Scope Z_scope.

(** The versions which change how device data is kept. *)
Definition to_jsonb : Z := 20230802121023.
Definition to_cbor : Z := 20230814183302.
Definition to_table : Z := 20240517104423.
Definition applied (v : Z) (s : sdb) : bool := bool_decide (v ∈ v_applied s).
Definition up_to_date (s : sdb) : Prop := forall v,
  In v [20230728114555; to_jsonb; to_cbor; 20230822180807; 20230913120537; 20231019153023; 20231108122539; to_table] -> applied v s = true.

(** What the column has for a device, however it is written. *)
Definition written (s : sdb) (u d : string) : option odata :=
  match c_data (v_dev s) !! (u, d) with
  | Some (Some (Json o)) | Some (Some (Cbor o)) => Some o
  | _ => None
  end.
(** Key counts, fallback key types and which of them changed. *)
Definition key_data (s : sdb) (u d : string) : option (option (gmap string Z) * option (list string) * Z) :=
  (fun o => (o_otk o, o_fallback o, o_bits o)) <$> written s u d.
(** What the device was not told yet, and what it was told but did not acknowledge, about the
    devices of another user: in the column before the last migration, in the table after it. *)
Definition in_table (s : sdb) (u d target : string) (bucket : Z) : option Z :=
  default ∅ (c_lists (v_dev s)) !! (u, d, target, bucket).
Definition unsent (s : sdb) (u d target : string) : option Z :=
  if applied to_table s then in_table s u d target 1
  else o ← written s u d; default ∅ (o_new o) !! target.
Definition unacknowledged (s : sdb) (u d target : string) : option Z :=
  if applied to_table s then in_table s u d target 2
  else o ← written s u d; default ∅ (o_sent o) !! target.

(** What a server writes: changes are 1 (changed) or 2 (left), and maps have at most so many
    entries. *)
Definition sensible (o : odata) : Prop :=
  Z.of_nat (size (default ∅ (o_otk o))) <= 131072 /\
  forall m, m = default ∅ (o_new o) \/ m = default ∅ (o_sent o) ->
    Z.of_nat (size m) <= 1000000000 /\ forall t st, m !! t = Some st -> st = 1 \/ st = 2.
Definition no_lists (o : odata) : Prop := default ∅ (o_new o) = ∅ /\ default ∅ (o_sent o) = ∅.
(** The database is one that a version of the server left: data is written as the migrations
    run so far say. *)
Record left_by_a_server (s : sdb) : Prop := {
  l_order : (applied to_cbor s = true -> applied to_jsonb s = true) /\ (applied to_table s = true -> applied to_cbor s = true);
  l_type : c_type (v_dev s) = if applied to_cbor s then BYTEA else if applied to_jsonb s then JSONB else BYTEA;
  l_cells : forall u d c, c_data (v_dev s) !! (u, d) = Some c -> exists o, sensible o /\
    c = Some (if applied to_cbor s then Cbor o else Json o) /\ (applied to_table s = true -> no_lists o);
  l_table : applied to_table s = false -> default ∅ (c_lists (v_dev s)) = ∅
}.

(** The room is known but its m.room.create event is not. *)
Definition lacks_create (d : db) (rm : string) : Prop :=
  is_Some (d_rooms d !! rm) /\
  ~ exists e, e ∈ d_events d /\ e_room e = rm /\ e_type e = "m.room.create" /\ e_skey e = "".
(** By the room's current state, the user's membership is [m] (with "_" in front if the event
    did not change the membership). *)
Definition state_says (d : db) (rm user m : string) : Prop :=
  exists r s e, d_rooms d !! rm = Some r /\ d_snaps d !! rm_snap r = Some s /\
    e ∈ d_events d /\ e_nid e ∈ s_members s /\ e_skey e = user /\ e_member e = m.
(** The user has unread counts in a room that is not known. *)
Definition stuck (s : sdb) (user : string) : Prop :=
  exists rm, In (user, rm) (v_unread s) /\ d_rooms (v_store s) !! rm = None.
