(** Model of how the devices of one user share the work of hearing about the user's rooms:
    [sync2/poller.go] 256-311 (EnsurePolling), 499-659 (Poll and poll), [sync2/client.go] 147-187
    (createSyncURL), [sync2/devices_table.go], [sync2/handler2/handler.go] 124-176 (StartV2Pollers),
    198-210 (OnExpiredToken), 223-229 (UpdateDeviceSince).

    What happens in the user's rooms is numbered from 1 in the order in which the homeserver's
    stream has it; a position in the stream is how much had happened before it, and "" is 0. A
    sync from a position has all that happened since, and a first sync all there is (as state).

    Simplifications: there is one user; a poll, from the answer to the stored position, is one
    step (what it does when something fails is PollModel and PloopModel, C34 and C75); events
    left out of a limited timeline are not counted as missing (C26, C37); waiting for the first
    sync is PmapModel and BegModel; a device has one token at a time; the position is read from
    the table when the poller is made, and not some time before. *)
From Verif Require Import Prelude.
Open Scope string_scope. Open Scope list_scope. Open Scope nat_scope.

(** A poller in the map. poller.go:426-462: [k_only] is initialToDeviceOnly, [k_term] is
    terminated, [k_dead] says that its goroutine has ended with a panic (511-521), [k_since] is
    the since of 489-494. A poller that was replaced in the map is terminated and does nothing. *)
Record sib := mk_sib { k_since : nat; k_only : bool; k_term : bool; k_dead : bool }.

(** [w_up]: how much has happened upstream. [w_stored]: what of it is in the proxy's database.
    [w_tokens]: the devices that have a token in syncv3_sync2_tokens. [w_rows]:
    syncv3_sync2_devices. [w_pollers]: PollerMap.Pollers. *)
Record world := mk_world {
  w_up : nat; w_stored : gset nat; w_tokens : gset string; w_rows : gmap string nat; w_pollers : gmap string sib }.
Definition world0 : world := mk_world 0 ∅ ∅ ∅ ∅.

(** What happened after [m], up to [n]. *)
Definition between (m n : nat) : gset nat := list_to_set (seq (S m) (n - m)).

(** poller.go:277-288: another device has a poller that is not terminated. *)
Definition otherDevice (w : world) (d : string) : bool :=
  existsb (fun e : string * sib => negb (bool_decide (e.1 = d)) && negb (k_term e.2)) (map_to_list (w_pollers w)).
(** poller.go:263-272: the device has a poller that is not terminated. *)
Definition exists_already (w : world) (d : string) : bool :=
  match w_pollers w !! d with Some p => negb (k_term p) | None => false end.

(** devices_table.go:38-47, InsertDevice, when a token of the device is stored
    (handler.go:474-497 of sync3/handler). *)
Definition login (w : world) (d : string) : world :=
  mk_world (w_up w) (w_stored w) ({[ d ]} ∪ w_tokens w)
    (match w_rows w !! d with Some _ => w_rows w | None => <[ d := 0 ]> (w_rows w) end) (w_pollers w).

(** poller.go:256-298: the position comes from the row (tokens_table.go:221-236,
    handler2/handler.go:126, 163, 570). [startup]: called by StartV2Pollers. A device without a token is not
    polled for. *)
Definition ensure (w : world) (d : string) (startup : bool) : world :=
  if bool_decide (d ∈ w_tokens w) then
    match w_rows w !! d with
    | Some since =>
        if exists_already w d then w
        else mk_world (w_up w) (w_stored w) (w_tokens w) (w_rows w)
               (<[ d := mk_sib since (otherDevice w d && negb startup) false false ]> (w_pollers w))
    | None => w
    end
  else w.

(** poller.go:499-659 for an answer that the homeserver made at [n]. client.go:168-171: with
    toDeviceOnly it has no rooms. [save]: 645-650, whether the position is stored. *)
Definition poll (w : world) (d : string) (n : nat) (save : bool) : world :=
  match w_pollers w !! d with
  | Some p =>
      if negb (k_term p) && negb (k_dead p) && (k_since p <=? n) && (n <=? w_up w) then
        mk_world (w_up w) (if k_only p then w_stored w else between (k_since p) n ∪ w_stored w) (w_tokens w)
          (if save then (match w_rows w !! d with Some _ => <[ d := n ]> (w_rows w) | None => w_rows w end) else w_rows w)
          (<[ d := mk_sib n false false false ]> (w_pollers w))
      else w
  | None => w
  end.

(** poller.go:225-248, 551-558, 592-603: the token is refused, failed a thousand times or was not
    used for long: the poller ends and the token is deleted (handler2/handler.go:198-202). *)
Definition expire (w : world) (d : string) : world :=
  match w_pollers w !! d with
  | Some p =>
      if k_term p then w
      else mk_world (w_up w) (w_stored w) (w_tokens w ∖ {[ d ]}) (w_rows w)
             (<[ d := mk_sib (k_since p) (k_only p) true (k_dead p) ]> (w_pollers w))
  | None => w
  end.
(** poller.go:511-521: a panic ends the goroutine and sets nothing. *)
Definition panic (w : world) (d : string) : world :=
  match w_pollers w !! d with
  | Some p => mk_world (w_up w) (w_stored w) (w_tokens w) (w_rows w)
                (<[ d := mk_sib (k_since p) (k_only p) (k_term p) true ]> (w_pollers w))
  | None => w
  end.
(** The proxy stops or crashes and starts again: the map is empty. *)
Definition restart (w : world) : world := mk_world (w_up w) (w_stored w) (w_tokens w) (w_rows w) ∅.

Inductive op :=
| Happens                                     (* something in one of the user's rooms *)
| Login (d : string)
| Ensure (d : string) (startup : bool)
| Poll (d : string) (n : nat) (save : bool)
| Expire (d : string) | Panic (d : string) | Restart.
Definition step (w : world) (o : op) : world :=
  match o with
  | Happens => mk_world (S (w_up w)) (w_stored w) (w_tokens w) (w_rows w) (w_pollers w)
  | Login d => login w d
  | Ensure d b => ensure w d b
  | Poll d n b => poll w d n b
  | Expire d => expire w d
  | Panic d => panic w d
  | Restart => restart w
  end.
Definition run (w : world) (l : list op) : world := fold_left step l w.
