(** Model of to-device messages: state/to_device_table.go and
    sync3/extensions/todevice.go.

    Simplifications: a message is a record of the fields the code reads and an
    opaque rest; logging and the debug warning are dropped; the since token is a
    parsed integer (the code rejects anything else). *)
From Verif Require Import Prelude SqlModel.
Open Scope string_scope. Open Scope list_scope. Open Scope Z_scope.

(** The fields InsertMessages reads (to_device_table.go:137-164), missing ones
    being the empty string as with gjson's .Str. *)
Record msg := mk_msg {
  g_type : string; g_sender : string; g_action : string;
  g_reqdev : string; g_reqid : string; g_rest : string }.

(** to_device_table.go:14-24: ActionRequest, ActionCancel, 0 is unknown. *)
Inductive action := Unknown | Request | Cancel.

(** to_device_table.go:26-36, ToDeviceRow, without the event type and sender
    columns, which are never read back. *)
Record row := mk_row {
  w_pos : Z; w_user : string; w_dev : string; w_msg : msg;
  w_key : option string; w_act : action }.

(** The tables: to_device_table.go:48-67. [d_seq] is the last value of the
    sequence that gives positions. *)
Record tdb := mk_tdb {
  d_rows : list row; d_ack : gmap (string * string) Z; d_seq : Z }.
Definition tdb0 : tdb := mk_tdb [] ∅ 0.

(** to_device_table.go:150-159: the row of a message: action and unique key. *)
Definition act_of (m : msg) : action :=
  if bool_decide (g_type m = "m.room_key_request") then
    if bool_decide (g_action m = "request") then Request
    else if bool_decide (g_action m = "request_cancellation") then Cancel else Unknown
  else Unknown.
Definition key_of (m : msg) : option string :=
  if bool_decide (g_type m = "m.room_key_request")
  then Some (g_type m +:+ "-" +:+ g_sender m +:+ "-" +:+ g_reqdev m +:+ "-" +:+ g_reqid m)
  else None.

(** to_device_table.go:160-165: the unique keys of the cancels (requests) in a
    batch. *)
Definition keys_with (a : action) (msgs : list msg) : list string :=
  omap (fun m => match act_of m, a with
                 | Request, Request | Cancel, Cancel => key_of m
                 | _, _ => None
                 end) msgs.

Definition mem_key (k : option string) (ks : list string) : bool :=
  match k with Some k => bool_decide (k ∈ ks) | None => false end.

(** to_device_table.go:170-171: is this row deleted by the cancels? *)
Definition is_cancelled (cancels : list string) (u d : string) (unack : Z) (r : row) : bool :=
  mem_key (w_key r) cancels && bool_decide (w_user r = u) && bool_decide (w_dev r = d)
  && (unack <? w_pos r).

(** to_device_table.go:181-198: is this message of the batch left out? [hit]
    are the keys of the rows that were deleted. *)
Definition left_out (hit reqs cancels : list string) (m : msg) : bool :=
  mem_key (key_of m) hit || (mem_key (key_of m) reqs && mem_key (key_of m) cancels).

(** to_device_table.go:206-218: the positions given to the new rows. [gap i]
    values of the sequence go to somebody else before the [i]th row. *)
Fixpoint number (u d : string) (gap : nat -> nat) (i : nat) (seq : Z) (msgs : list msg)
    : list row * Z :=
  match msgs with
  | [] => ([], seq)
  | m :: ms =>
      let p := seq + Z.of_nat (gap i) + 1 in
      let '(rows, seq') := number u d gap (S i) p ms in
      (mk_row p u d m (key_of m) (act_of m) :: rows, seq')
  end.

(** to_device_table.go:119-222, InsertMessages: one transaction; if [ok] is
    false the database fails and it is rolled back (numbers of the sequence may
    be used up: [gap 0] of them). The chunks of the INSERT together are the
    rows, in order (C49). *)
Definition InsertMessages (s : tdb) (u d : string) (msgs : list msg) (gap : nat -> nat) (ok : bool)
    : tdb :=
  if negb ok then mk_tdb (d_rows s) (d_ack s) (d_seq s + Z.of_nat (gap 0%nat))
  else
    let unack := default 0 (d_ack s !! (u, d)) in
    let cancels := keys_with Cancel msgs in
    let reqs := keys_with Request msgs in
    let '(kept, new) :=
      if bool_decide (cancels = []) then (d_rows s, msgs)
      else
        let hit := omap w_key (List.filter (is_cancelled cancels u d unack) (d_rows s)) in
        (List.filter (fun r => negb (is_cancelled cancels u d unack r)) (d_rows s),
         List.filter (fun m => negb (left_out hit reqs cancels m)) msgs) in
    let '(rows, seq) := number u d gap 0 (d_seq s) new in
    mk_tdb (kept ++ rows) (d_ack s) seq.

(** to_device_table.go:78-81, DeleteMessagesUpToAndIncluding. *)
Definition DeleteUpTo (s : tdb) (u d : string) (upto : Z) : tdb :=
  mk_tdb (List.filter (fun r => negb (bool_decide (w_user r = u) && bool_decide (w_dev r = d)
                                      && (w_pos r <=? upto))) (d_rows s)) (d_ack s) (d_seq s).

(** to_device_table.go:72-76, SetUnackedPosition. *)
Definition SetUnacked (s : tdb) (u d : string) (pos : Z) : tdb :=
  mk_tdb (d_rows s) (<[(u, d) := pos]> (d_ack s)) (d_seq s).

(** to_device_table.go:83-91, DeleteAllMessagesForDevice. *)
Definition DeleteAll (s : tdb) (u d : string) : tdb :=
  mk_tdb (List.filter (fun r => negb (bool_decide (w_user r = u) && bool_decide (w_dev r = d)))
           (d_rows s)) (delete (u, d) (d_ack s)) (d_seq s).

(** ORDER BY position ASC. *)
Fixpoint place (r : row) (l : list row) : list row :=
  match l with
  | [] => [r]
  | x :: l' => if w_pos r <=? w_pos x then r :: l else x :: place r l'
  end.
Definition by_position (l : list row) : list row := foldr place [] l.

(** to_device_table.go:96-117, Messages: the rows returned and upTo; [None] is
    Postgres refusing a negative LIMIT. *)
Definition Messages (s : tdb) (u d : string) (from limit : Z) : option (list row * Z) :=
  if limit <? 0 then None
  else
    let rows := firstn (Z.to_nat limit) (by_position
      (List.filter (fun r => bool_decide (w_user r = u) && bool_decide (w_dev r = d)
                             && (from <? w_pos r)) (d_rows s))) in
    Some (rows, match last rows with Some r => w_pos r | None => from end).

(** * The extension *)

(** The memory of the process: todevice.go:19, the last position told to each
    device ID. *)
Definition memory := gmap string Z.

(** Which database calls work. *)
Record weather := mk_weather { ok_delete : bool; ok_read : bool; ok_ack : bool }.

(** todevice.go:66-143, ProcessInitial (and AppendLive, 56-64, which calls it).
    The result is the response: NextBatch and the events. *)
Definition ProcessInitial (s : tdb) (mem : memory) (u d : string) (since : option Z) (limit : Z)
    (w : weather) : tdb * memory * option (Z * list row) :=
  let limit := if limit =? 0 then 100 else limit in
  let since := match mem !! d with None => None | Some _ => since end in
  let from := default 0 since in
  let s1 := match since with
            | Some f => if ok_delete w then DeleteUpTo s u d f else s
            | None => s
            end in
  if negb (ok_read w) then (s1, mem, None)
  else
    match Messages s1 u d from limit with
    | None => (s1, mem, None)
    | Some (msgs, upTo) =>
        if negb (ok_ack w) then (s1, mem, None)
        else (SetUnacked s1 u d upTo, <[d := upTo]> mem, Some (upTo, msgs))
    end.
