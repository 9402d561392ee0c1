(** Specification of to-device messages: one client, its inbox, and everything
    else that may happen. *)
From Verif Require Import Prelude ToDevModel.
Open Scope string_scope. Open Scope list_scope. Open Scope Z_scope.

(** A message that no cancellation can concern. *)
Definition plain (m : msg) : bool := negb (bool_decide (g_type m = "m.room_key_request")).

(** What may happen, seen from the client of device [(u,d)]: messages arrive
    from the homeserver for some device; another device syncs; the server
    restarts; or this client asks, giving as since token the next_batch of the
    last response it received, and its response is received or lost. *)
Inductive happening :=
  | Arrive (u d : string) (msgs : list msg) (gap : nat -> nat) (ok : bool)
  | OtherSync (u d : string) (since : option Z) (limit : Z) (w : weather)
  | Restart
  | Ask (limit : Z) (w : weather) (received : bool).

(** The server, the client's since token and the messages it got. *)
Record world := mk_world {
  v_db : tdb; v_mem : memory; v_since : option Z; v_got : list row }.
Definition world0 : world := mk_world tdb0 ∅ None [].

Section client.
  Context (u d : string).

  Definition step (v : world) (h : happening) : world :=
    match h with
    | Arrive u' d' msgs gap ok =>
        mk_world (InsertMessages (v_db v) u' d' msgs gap ok) (v_mem v) (v_since v) (v_got v)
    | OtherSync u' d' since limit w =>
        let '(s, m, _) := ProcessInitial (v_db v) (v_mem v) u' d' since limit w in
        mk_world s m (v_since v) (v_got v)
    | Restart => mk_world (v_db v) ∅ (v_since v) (v_got v)
    | Ask limit w received =>
        let '(s, m, resp) := ProcessInitial (v_db v) (v_mem v) u d (v_since v) limit w in
        match resp with
        | Some (next, msgs) =>
            if received then mk_world s m (Some next) (v_got v ++ msgs)
            else mk_world s m (v_since v) (v_got v)
        | None => mk_world s m (v_since v) (v_got v)
        end
    end.

  Definition run (hs : list happening) : world := fold_left step hs world0.

  Definition other (h : happening) : Prop :=
    match h with OtherSync u' d' _ _ _ => (u', d') <> (u, d) | _ => True end.

  (** The plain messages that arrived for this device, in order. *)
  Definition arrived (hs : list happening) : list msg :=
    concat (map (fun h => match h with
      | Arrive u' d' msgs _ true =>
          if decide (u' = u /\ d' = d) then List.filter plain msgs else []
      | _ => [] end) hs).

  (** What the inbox holds. *)
  Definition inbox (v : world) (r : row) : Prop :=
    In r (d_rows (v_db v)) /\ w_user r = u /\ w_dev r = d.
End client.

(** Positions go up. *)
Definition ascending (l : list row) : Prop := StronglySorted (fun a b => w_pos a < w_pos b) l.

(** The response to a request of this client: next_batch and the messages. *)
Definition answer (u d : string) (v : world) (limit : Z) (w : weather) : option (Z * list row) :=
  (ProcessInitial (v_db v) (v_mem v) u d (v_since v) limit w).2.

(** The messages about one key request (by its unique key) that arrived for
    this device. *)
Definition about (u d k : string) (hs : list happening) : list msg :=
  concat (map (fun h => match h with
    | Arrive u' d' msgs _ true =>
        if decide (u' = u /\ d' = d)
        then List.filter (fun m => bool_decide (key_of m = Some k)) msgs else []
    | _ => [] end) hs).

(** The client has got a key request, and no cancellation of it was given to
    the client or waits in its inbox. *)
Definition left_open (u d k : string) (v : world) : bool :=
  let has a := existsb (fun r => bool_decide (key_of (w_msg r) = Some k)
                                 && bool_decide (g_action (w_msg r) = a)) in
  has "request" (v_got v)
  && negb (has "request_cancellation" (v_got v))
  && negb (has "request_cancellation"
       (List.filter (fun r => bool_decide (w_user r = u) && bool_decide (w_dev r = d))
                    (d_rows (v_db v)))).
