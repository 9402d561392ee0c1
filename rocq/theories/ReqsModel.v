(** Model of requests that arrive at one connection at the same time: [sync3/conn.go] 133-250
    with its two mutexes, and the callback with which a connection that is closed ends its
    request, [sync3/handler/handler.go] 404-411 and [sync3/handler/connstate.go] 724-774.

    Everything between two uses of a mutex is one step, any request may make the next step,
    and a mutex that is free may go to any of the requests which wait for it.

    Simplifications: writing the callback (connstate.go:772-774), which no mutex protects, is
    one step; what a request does before it finds the connection is elsewhere (C56, C42,
    C44). *)
From Verif Require Import Prelude ConnModel.
Open Scope string_scope. Open Scope list_scope. Open Scope Z_scope.

Section reqs.
  Context {Body Payload : Type} `{EqDecision Body} (body_zero : Body).
  Notation request := (request Body).
  Notation response := (response Payload).
  Notation conn := (conn Body Payload).
  Notation hresult := (hresult Body Payload).
  Notation reply := (reply Payload).

  (** conn.go:151-223, from the check of the position to the call of the handler: what it does
      to the connection, and the reply or the request for the handler with the response that
      waits to be sent. *)
  Definition begin (c : conn) (req : request) : conn * (reply + request * option response) :=
    let is_first := q_pos req =? 0 in
    let is_retransmit := negb is_first && (q_pos (c_last c) =? q_pos req) in
    let is_same := negb is_first && same_request (c_last c) req in
    if negb is_first && negb is_retransmit && negb (is_outstanding c (q_pos req)) then (c, inl RUnknownPos)
    else
      let '(del, next) := scan (q_pos req) 0 0 (c_resps c) in
      let c1 := mk_conn (c_last c) (drop del (c_resps c)) (c_pos c) in
      if is_retransmit && is_same then (c1, inl (reply_of next))
      else
        match next with
        | Some n =>
            if is_same then (c1, inl (RResp n))
            else (c1, inr (mk_request (q_pos req) (q_txn req) (q_body req) 1, next))
        | None => (c1, inr (req, None))
        end.

  (** Where a request is. *)
  Inductive place :=
  | Found                                             (* handler.go:406, has the connection *)
  | Called                                            (* 408, its callback is set *)
  | Waiting                                           (* conn.go:140-144, has ended the one before *)
  | Locked                                            (* 145-146, holds the mutex *)
  | Registered                                        (* 148-150, can be ended *)
  | Handling (q : request) (next : option response)   (* 224, in the handler *)
  | Done (r : reply)
  | Rejected.                                         (* handler.go:268-287, bad parameters *)

  (** The context of the HTTP request and the one made from it in conn.go:146 are done if it
      was cancelled. *)
  Record rq := mk_rq { v_req : request; v_at : place; v_outer : bool; v_inner : bool }.
  (** Whether the handler finds its context done. *)
  Definition told_to_end (r : rq) : bool := v_outer r || v_inner r.

  (** The connection, its requests in the order in which they found it, the request that holds
      c.mu, those whose cancellation is in cancelOutstandingRequest and cancelLatestReq, and
      whether the connection is in the map. [w_log]: who was served, with what the handler
      did (ghost). *)
  Record world := mk_world {
    w_conn : conn; w_reqs : list rq; w_holder : option nat; w_slot : option nat; w_latest : option nat;
    w_open : bool; w_log : list (nat * hresult) }.
  Definition world0 : world := mk_world (new_conn body_zero) [] None None None true [].

  Inductive act :=
  | Find (q : request) | Call (i : nat) | Reject (i : nat) | Ask (i : nat) | Lock (i : nat) | Register (i : nat)
  | Begin (i : nat) | End (i : nat) (h : hresult) | Gone (i : nat) | Close.

  Definition move (w : world) (i : nat) (p : place) : list rq :=
    alter (fun r => mk_rq (v_req r) p (v_outer r) (v_inner r)) i (w_reqs w).
  Definition end_outer (l : list rq) (o : option nat) : list rq :=
    match o with Some i => alter (fun r => mk_rq (v_req r) (v_at r) true (v_inner r)) i l | None => l end.
  Definition end_inner (l : list rq) (o : option nat) : list rq :=
    match o with Some i => alter (fun r => mk_rq (v_req r) (v_at r) (v_outer r) true) i l | None => l end.
  Definition at_place (w : world) (i : nat) : option place := v_at <$> w_reqs w !! i.

  (** None: the step is not possible. *)
  Definition act1 (w : world) (a : act) : option world :=
    match a with
    | Find q =>
        if w_open w then
          Some (mk_world (w_conn w) (w_reqs w ++ [mk_rq q Found false false]) (w_holder w) (w_slot w) (w_latest w) (w_open w) (w_log w))
        else None
    | Call i =>
        match at_place w i with
        | Some Found => Some (mk_world (w_conn w) (move w i Called) (w_holder w) (w_slot w) (Some i) (w_open w) (w_log w))
        | _ => None
        end
    | Reject i =>
        match at_place w i with
        | Some Called => Some (mk_world (w_conn w) (move w i Rejected) (w_holder w) (w_slot w) (w_latest w) (w_open w) (w_log w))
        | _ => None
        end
    | Ask i =>
        match at_place w i with
        | Some Called =>
            Some (mk_world (w_conn w) (end_inner (move w i Waiting) (w_slot w)) (w_holder w) (w_slot w) (w_latest w) (w_open w) (w_log w))
        | _ => None
        end
    | Lock i =>
        match at_place w i, w_holder w with
        | Some Waiting, None => Some (mk_world (w_conn w) (move w i Locked) (Some i) (w_slot w) (w_latest w) (w_open w) (w_log w))
        | _, _ => None
        end
    | Register i =>
        match at_place w i with
        | Some Locked => Some (mk_world (w_conn w) (move w i Registered) (w_holder w) (Some i) (w_latest w) (w_open w) (w_log w))
        | _ => None
        end
    | Begin i =>
        match w_reqs w !! i with
        | Some r =>
            match v_at r with
            | Registered =>
                match begin (w_conn w) (v_req r) with
                | (c, inl rep) => Some (mk_world c (move w i (Done rep)) None (w_slot w) (w_latest w) (w_open w)
                                          (w_log w ++ [(i, HErr 0 (q_body (v_req r)))]))
                | (c, inr (q, next)) => Some (mk_world c (move w i (Handling q next)) (w_holder w) (w_slot w) (w_latest w) (w_open w) (w_log w))
                end
            | _ => None
            end
        | None => None
        end
    | End i h =>
        match at_place w i with
        | Some (Handling q next) =>
            let '(c, o) := process (w_conn w) q next h in
            Some (mk_world c (move w i (Done (o_reply o))) None (w_slot w) (w_latest w) (w_open w) (w_log w ++ [(i, h)]))
        | _ => None
        end
    | Gone i =>
        Some (mk_world (w_conn w) (end_outer (w_reqs w) (Some i)) (w_holder w) (w_slot w) (w_latest w) (w_open w) (w_log w))
    | Close =>
        (* connstate.go:725-731, Destroy, by connmap.go, closeConn. *)
        Some (mk_world (w_conn w) (end_outer (w_reqs w) (w_latest w)) (w_holder w) (w_slot w) (w_latest w) false (w_log w))
    end.
  Fixpoint acts (w : world) (l : list act) : option world :=
    match l with [] => Some w | a :: l => match act1 w a with Some w' => acts w' l | None => None end end.
End reqs.
