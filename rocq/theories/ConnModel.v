(** Model of one sliding-sync connection: [sync3/conn.go].

    A connection is driven by a sequence of requests. What the request handler
    (the rest of the server) answers is arbitrary, so each step takes the
    handler's result as an input; it is consulted only when the code calls the
    handler. *)
From Verif Require Import Prelude.
Open Scope Z_scope.

Section conn.
  (** The JSON body of a request without [txn_id], and the payload of a
      response. [body_zero] is the body of Go's zero [Request]. *)
  Context {Body Payload : Type} `{EqDecision Body} (body_zero : Body).

  (** sync3/request.go:29-40, type Request. Simplification: every field that
      takes part in [json.Marshal] except [TxnID] is one opaque [q_body];
      [q_pos] and [q_timeout] are the unexported fields. *)
  Record request := mk_request {
    q_pos : Z; q_txn : string; q_body : Body; q_timeout : Z }.

  (** sync3/response.go, type Response, of which conn.go reads and writes only
      Pos and TxnID. Simplification: Pos is kept as an integer; the code prints
      it with "%d" (conn.go:239) and parses it back with PosInt. *)
  Record response := mk_response {
    r_pos : Z; r_txn : string; r_payload : Payload }.

  (** sync3/conn.go:44-66, type Conn: lastClientRequest, serverResponses,
      lastPos. The mutex is not modelled: it makes each request one step. *)
  Record conn := mk_conn {
    c_last : request; c_resps : list response; c_pos : Z }.

  (** sync3/conn.go:68-75, NewConn: zero values. *)
  Definition new_conn : conn := mk_conn (mk_request 0 "" body_zero 0) [] 0.

  (** What ConnHandler.OnIncomingRequest may do (conn.go:29-33, 93-122): give a
      response, an error carrying a status (an error which is not a
      *HandlerError has status 500, conn.go:226-232), or panic, which
      tryRequest turns into an error (conn.go:96-113). [b] is the body which the
      remembered request has afterwards. The handler shares the extension
      objects with it and writes to them (request.go:319-321,
      extensions.go:84-93, todevice.go:66-69 and 91-93), so the body may differ
      from what the client sent. *)
  Inductive hresult := HOk (p : Payload) (b : Body) | HErr (status : Z) (b : Body) | HPanic (b : Body).

  (** What the HTTP client gets. [RNil] is a nil response without an error,
      which the caller dereferences (handler.go:304), i.e. a crash. *)
  Inductive reply := RResp (r : response) | RNil | RErr (status : Z) | RUnknownPos.

  (** [o_call] is the request passed to the handler, if it was called. *)
  Record outcome := mk_outcome { o_reply : reply; o_call : option request }.

  (** sync3/request.go:273-291, Same. *)
  Definition same_request (a b : request) : bool := bool_decide (q_body a = q_body b).

  (** sync3/conn.go:124-131, isOutstanding. *)
  Definition is_outstanding (c : conn) (pos : Z) : bool :=
    existsb (fun r => r_pos r =? pos) (c_resps c).

  (** sync3/conn.go:168-180: the loop over serverResponses, returning
      delIndex+1 and nextUnACKedResponse. [i] is the loop index and [del] the
      current delIndex+1. *)
  Fixpoint scan (pos : Z) (i del : nat) (rs : list response) : nat * option response :=
    match rs with
    | [] => (del, None)
    | r :: rs' =>
        if pos >? r_pos r then scan pos (S i) (S i) rs'
        else if pos <? r_pos r then (del, Some r)
        else scan pos (S i) del rs'
    end.

  Definition reply_of (o : option response) : reply :=
    match o with Some r => RResp r | None => RNil end.

  (** sync3/conn.go:224-249: call the handler and buffer its response. [c] has
      already been purged. *)
  Definition process (c : conn) (req : request) (next : option response) (h : hresult)
    : conn * outcome :=
    let left r b := mk_request (q_pos r) (q_txn r) b (q_timeout r) in
    let failed b := mk_conn (left (c_last c) b) (c_resps c) (c_pos c) in
    match h with
    | HErr s b => (failed b, mk_outcome (RErr s) (Some req))
    | HPanic b => (failed b, mk_outcome (RErr 500) (Some req))
    | HOk p b =>
        let resp := mk_response (c_pos c + 1) (q_txn req) p in
        let c' := mk_conn (left req b) (c_resps c ++ [resp]) (r_pos resp) in
        let next' := match next with Some n => Some n | None => Some resp end in
        (c', mk_outcome (reply_of next') (Some req))
    end.

  (** sync3/conn.go:137-250, OnIncomingRequest. *)
  Definition on_incoming (c : conn) (req : request) (h : hresult) : conn * outcome :=
    let is_first := q_pos req =? 0 in
    let is_retransmit := negb is_first && (q_pos (c_last c) =? q_pos req) in
    let is_same := negb is_first && same_request (c_last c) req in
    if negb is_first && negb is_retransmit && negb (is_outstanding c (q_pos req)) then
      (c, mk_outcome RUnknownPos None)
    else
      let '(del, next) := scan (q_pos req) 0 0 (c_resps c) in
      let c1 := mk_conn (c_last c) (drop del (c_resps c)) (c_pos c) in
      if negb is_first && is_retransmit && is_same then
        (c1, mk_outcome (reply_of next) None)
      else
        match next with
        | Some n =>
            if is_same then (c1, mk_outcome (RResp n) None)
            else process c1 (mk_request (q_pos req) (q_txn req) (q_body req) 1) next h
        | None => process c1 req next h
        end.

  (** A history: the requests with the handler results, and the outcome of
      each, oldest first. *)
  Definition event : Type := request * hresult * outcome.

  Fixpoint run_from (c : conn) (evs : list (request * hresult)) : conn * list event :=
    match evs with
    | [] => (c, [])
    | (q, h) :: evs' =>
        let '(c', o) := on_incoming c q h in
        let '(c'', tr) := run_from c' evs' in
        (c'', (q, h, o) :: tr)
    end.

  Definition run (evs : list (request * hresult)) : conn * list event :=
    run_from new_conn evs.
End conn.

Arguments request : clear implicits.
Arguments response : clear implicits.
Arguments conn : clear implicits.
Arguments hresult : clear implicits.
Arguments reply : clear implicits.
Arguments outcome : clear implicits.
Arguments event : clear implicits.
