(** Model of the migrations of the database (state/migrations) and of how they are run at
    startup (v3.go:115-126).

    What is in a column of bytes or JSON is what it decodes to. JSON and CBOR keep nil apart
    from empty. A migration is a transaction: [None] is an error, after which nothing of it
    remains. Migrations that only change columns the model does not have
    (20230728114555_device_data_drop_id.sql, 20230913120537_events_missing_previous.sql: the
    new column is false in every row) do nothing. *)
From Verif Require Import Prelude SqlModel AccumModel.
From Verif Require DeviceModel.
Open Scope string_scope. Open Scope list_scope. Open Scope Z_scope.

(** * Device data *)
(** 20240517104423_device_list_table.go:16-40, OldDeviceData. The user and device ID in it
    are not used. *)
Record odata := mk_odata {
  o_otk : option (gmap string Z); o_fallback : option (list string);
  o_new : option (gmap string Z); o_sent : option (gmap string Z); o_bits : Z
}.
(** Bytes which are such a value in JSON or in CBOR. *)
Inductive blob := Json (o : odata) | Cbor (o : odata).
(** A value of the column: NULL or bytes. *)
Definition cell := option blob.
(** The type of the column. *)
Inductive ctype := BYTEA | JSONB.
(** syncv3_device_data, by user and device, and syncv3_device_list_updates if it exists. *)
Record dev := mk_dev {
  c_type : ctype; c_data : gmap (string * string) cell;
  c_lists : option (gmap (string * string * string * Z) Z)
}.

(** github.com/fxamacker/cbor/v2, DecOptions.MaxMapPairs: a map with more entries is refused. *)
Definition pairs_ok (max : Z) (o : odata) : bool :=
  let ok (m : option (gmap string Z)) := Z.of_nat (size (default ∅ m)) <=? max in
  ok (o_otk o) && ok (o_new o) && ok (o_sent o).
Definition default_pairs : Z := 131072.
Definition of_cbor (max : Z) (c : cell) : option odata :=
  match c with Some (Cbor o) => if pairs_ok max o then Some o else None | _ => None end.
Definition of_json (c : cell) : option odata :=
  match c with Some (Json o) => Some o | _ => None end.

Section Order.
(** The orders in which Go ranges over its maps and in which the cursor goes through the table. *)
Context (ord : list (string * string * cell) -> list (string * string * cell))
        (ordm : list (string * Z) -> list (string * Z)).

(** 20230814183302_cbor_device_data.go:47-64 and its likes: a new column, NULL at first, is
    filled row by row. *)
Definition new_column (conv : cell -> option cell) (rows : gmap (string * string) cell)
    : option (gmap (string * string) cell) :=
  fold_left (fun acc kc =>
      match acc, conv kc.2 with
      | Some col, Some c => Some (<[kc.1 := c]> col)
      | _, _ => None
      end) (ord (map_to_list rows)) (Some ((fun _ => None) <$> rows)).

(** 20230802121023_device_data_jsonb.go:17-77, upJSONB. PostgreSQL refuses bytes that are not
    JSON. *)
Definition upJSONB (t : dev) : option dev :=
  match c_type t with
  | JSONB => Some t
  | BYTEA =>
      match new_column (fun c => match c with Some (Cbor _) => None | _ => Some c end) (c_data t) with
      | Some col => Some (mk_dev JSONB col (c_lists t))
      | None => None
      end
  end.
(** 79-97, downJSONB. *)
Definition downJSONB (t : dev) : option dev := Some (mk_dev BYTEA (c_data t) (c_lists t)).

(** 20230814183302_cbor_device_data.go:20-90, upCborDeviceData. *)
Definition upCborDeviceData (t : dev) : option dev :=
  match c_type t with
  | BYTEA => Some t
  | JSONB =>
      match new_column (fun c => o ← of_json c; Some (Some (Cbor o))) (c_data t) with
      | Some col => Some (mk_dev BYTEA col (c_lists t))
      | None => None
      end
  end.
(** 92-141, downCborDeviceData, which decodes with the default options. *)
Definition downCborDeviceData (t : dev) : option dev :=
  match new_column (fun c => o ← of_cbor default_pairs c; Some (Some (Json o))) (c_data t) with
  | Some col => Some (mk_dev JSONB col (c_lists t))
  | None => None
  end.

(** 20240517104423_device_list_table.go:103-119: the rows for one device. *)
Definition list_rows (u d : string) (o : odata) : list (string * string * string * Z * Z) :=
  map (fun kv => (u, d, kv.1, DeviceModel.BucketNew, kv.2)) (ordm (map_to_list (default ∅ (o_new o)))) ++
  map (fun kv => (u, d, kv.1, DeviceModel.BucketSent, kv.2)) (ordm (map_to_list (default ∅ (o_sent o)))).
(** 126-145: one INSERT. It fails if a key is there already or the state is no SMALLINT. *)
Definition insert_rows (rows : list (string * string * string * Z * Z))
    (t : gmap (string * string * string * Z) Z) : option (gmap (string * string * string * Z) Z) :=
  fold_left (fun acc r =>
      match acc with
      | Some t => if bool_decide (is_Some (t !! r.1)) || (r.2 <? -32768) || (32767 <? r.2)
                  then None else Some (<[r.1 := r.2]> t)
      | None => None
      end) rows (Some t).
(** 120-162: the rest of the loop's body, for one row of the cursor. *)
Definition move_lists (acc : option (gmap (string * string) cell * gmap (string * string * string * Z) Z))
    (row : string * string * cell) : option (gmap (string * string) cell * gmap (string * string * string * Z) Z) :=
  match acc with
  | None => None
  | Some (data, lists) =>
      let '(u, d, c) := row in
      match of_cbor 1000000000 c with
      | None => None
      | Some o =>
          match list_rows u d o with
          | [] => Some (data, lists)
          | rows =>
              match Chunkify (S (length rows)) 5 65535 rows with
              | None => None
              | Some chunks =>
                  match fold_left (fun acc chunk => t ← acc; insert_rows chunk t) chunks (Some lists) with
                  | None => None
                  | Some lists =>
                      Some (<[(u, d) := Some (Cbor (mk_odata (o_otk o) (o_fallback o) (Some ∅) (Some ∅) (o_bits o)))]> data, lists)
                  end
              end
          end
      end
  end.
(** 20240517104423_device_list_table.go:46-168, upDeviceListTable. A cursor does not see the
    updates made while it is open. *)
Definition upDeviceListTable (t : dev) : option dev :=
  match fold_left move_lists (ord (map_to_list (c_data t))) (Some (c_data t, default ∅ (c_lists t))) with
  | Some (data, lists) => Some (mk_dev (c_type t) data (Some lists))
  | None => None
  end.
(** 170-175, downDeviceListTable. *)
Definition downDeviceListTable (t : dev) : option dev := Some (mk_dev (c_type t) (c_data t) None).
End Order.

(** What the code of today reads (state/device_data_table.go:48-107): the tables of
    DeviceModel. Bytes it cannot decode are left out. *)
Definition as_read (t : dev) : DeviceModel.ddb :=
  DeviceModel.mk_ddb (default ∅ (c_lists t))
    (omap (fun c => o ← of_cbor default_pairs c; Some (DeviceModel.mk_keys (o_otk o) (o_fallback o) (o_bits o))) (c_data t)).

(** * Rooms and invites *)
(** 20230822180807_bogus_snapshot_cleanup.go:61-87, getBogusRooms. *)
Definition has_create (d : db) (rm : string) : bool :=
  existsb (fun e => String.eqb (e_room e) rm && String.eqb (e_type e) "m.room.create" && String.eqb (e_skey e) "") (d_events d).
Definition bogus (d : db) (rm : string) : bool := bool_decide (is_Some (d_rooms d !! rm)) && negb (has_create d rm).
(** 22-59: the rows of these rooms are deleted from three tables. *)
Definition upBogusSnapshotCleanup (d : db) : db :=
  DB (List.filter (fun e => negb (bogus d (e_room e))) (d_events d)) (d_seq d)
     (filter (fun s : Z * snap => bogus d (s_room s.2) = false) (d_snaps d)) (d_snapseq d)
     (filter (fun r : string * room => bogus d r.1 = false) (d_rooms d))
     (d_invites d) (d_spaces d).

(** 20231019153023_cleanup_dead_invites.sql:4-17. *)
Definition dead_invite (d : db) (user rm : string) : bool :=
  match d_rooms d !! rm with
  | None => false
  | Some r =>
      match d_snaps d !! rm_snap r with
      | None => false
      | Some s => existsb (fun e => bool_decide (e_nid e ∈ s_members s) && String.eqb (e_skey e) user
                    && negb (String.eqb (e_member e) "invite" || String.eqb (e_member e) "_invite")) (d_events d)
      end
  end.
Definition cleanup_dead_invites (d : db) : db :=
  set_invites (filter (fun i : (string * string) * string => dead_invite d i.1.1 i.1.2 = false) (d_invites d)) d.

(** * All tables, and the migrations that were run *)
(** [v_unread]: the keys of syncv3_unread, user and room. [v_since]: the tokens in
    syncv3_sync2_devices, by user and device. [v_applied]: goose's table of versions. *)
Record sdb := mk_sdb {
  v_dev : dev; v_store : db; v_unread : list (string * string);
  v_since : gmap (string * string) string; v_applied : gset Z
}.
(** 20231108122539_clear_stuck_invites.go:30-37: the users. *)
Definition stuck_users (s : sdb) : list string :=
  map fst (List.filter (fun ur => bool_decide (d_rooms (v_store s) !! ur.2 = None)) (v_unread s)).
(** 24-76, upClearStuckInvites. The query is taken to succeed: if it fails, closing its nil
    result panics (38), and the transaction is gone as well. *)
Definition upClearStuckInvites (s : sdb) : sdb :=
  let users := stuck_users s in
  mk_sdb (v_dev s)
    (set_invites (filter (fun i : (string * string) * string => i.1.1 ∉ users) (d_invites (v_store s))) (v_store s))
    (v_unread s)
    (map_imap (fun (k : string * string) t => Some (if bool_decide (k.1 ∈ users) then "" else t)) (v_since s))
    (v_applied s).

Definition with_dev (s : sdb) (t : dev) : sdb := mk_sdb t (v_store s) (v_unread s) (v_since s) (v_applied s).
Definition with_store (s : sdb) (d : db) : sdb := mk_sdb (v_dev s) d (v_unread s) (v_since s) (v_applied s).
Definition with_applied (s : sdb) (a : gset Z) : sdb := mk_sdb (v_dev s) (v_store s) (v_unread s) (v_since s) a.

Section Goose.
Context (ord : list (string * string * cell) -> list (string * string * cell))
        (ordm : list (string * Z) -> list (string * Z)).
(** The directory state/migrations, by version. *)
Definition migrations : list (Z * (sdb -> option sdb)) :=
  [(20230728114555, fun s => Some s);
   (20230802121023, fun s => with_dev s <$> upJSONB ord (v_dev s));
   (20230814183302, fun s => with_dev s <$> upCborDeviceData ord (v_dev s));
   (20230822180807, fun s => Some (with_store s (upBogusSnapshotCleanup (v_store s))));
   (20230913120537, fun s => Some s);
   (20231019153023, fun s => Some (with_store s (cleanup_dead_invites (v_store s))));
   (20231108122539, fun s => Some (upClearStuckInvites s));
   (20240517104423, fun s => with_dev s <$> upDeviceListTable ord ordm (v_dev s))].

(** v3.go:118-126: goose.Up with AllowMissing runs the migrations that are not in its table,
    oldest first, each in a transaction with its row in that table. After [k] of them the
    server crashes; an error makes Setup panic. The flag says whether startup goes on. *)
Fixpoint goose_up (k : nat) (ms : list (Z * (sdb -> option sdb))) (s : sdb) : sdb * bool :=
  match ms with
  | [] => (s, true)
  | (v, f) :: ms =>
      if bool_decide (v ∈ v_applied s) then goose_up k ms s
      else match k with
           | O => (s, false)
           | S k => match f s with
                    | Some s' => goose_up k ms (with_applied s' ({[ v ]} ∪ v_applied s'))
                    | None => (s, false)
                    end
           end
  end.
(** Starting the server again and again, with a crash after so many migrations each time. *)
Definition boots (ks : list nat) (s : sdb) : sdb := fold_left (fun s k => (goose_up k migrations s).1) ks s.
End Goose.
