(** Properties of a connection (C09-C12). *)
From Verif Require Import Prelude ConnModel ConnSpec ConnProofs RequestModel.
Open Scope Z_scope.

(** C09. Every response handed out is the i-th successfully processed request's
    response and carries position i (counting from 1). *)
Theorem C09_positions_count_processed_requests :
  forall (Body Payload : Type) (E : EqDecision Body) (z : Body)
    (evs : list (request Body * hresult Body Payload)) c tr q h c' o r,
  run z evs = (c, tr) -> on_incoming c q h = (c', o) -> o_reply o = RResp r ->
  exists i t p, omap processed (tr ++ [(q, h, o)]) !! i = Some (t, p) /\
    r = mk_response (Z.of_nat i + 1) t p.
Proof. exact @reply_numbered. Qed.

(** C09. When the handler succeeds, exactly one response is produced, with the
    next position, the request's txn_id and the handler's payload, and the
    client gets some response. *)
Theorem C09_success_takes_the_next_position :
  forall (Body Payload : Type) (E : EqDecision Body) (z : Body)
    (evs : list (request Body * hresult Body Payload)) c tr q p b c' o,
  run z evs = (c, tr) -> on_incoming c q (HOk p b) = (c', o) -> o_call o <> None ->
  exists r, o_reply o = RResp r /\
    mk_response (Z.of_nat (length (produced tr)) + 1) (q_txn q) p
      ∈ produced (tr ++ [(q, HOk p b, o)]) /\
    length (produced (tr ++ [(q, HOk p b, o)])) = S (length (produced tr)).
Proof. exact @fresh_reply. Qed.

(** C09. An error, a panic, or a request the handler never sees produces no
    response and leaves the position and the remembered position alone; the
    remembered request changes only if the handler was called. *)
Theorem C09_failure_takes_no_position :
  forall (Body Payload : Type) (E : EqDecision Body) (z : Body)
    (evs : list (request Body * hresult Body Payload)) c tr q h c' o,
  run z evs = (c, tr) -> on_incoming c q h = (c', o) ->
  (forall p b, h <> HOk p b) \/ o_call o = None ->
  produced (tr ++ [(q, h, o)]) = produced tr /\ c_pos c' = c_pos c /\ q_pos (c_last c') = q_pos (c_last c) /\
  (o_call o = None -> c_last c' = c_last c).
Proof. exact @failed_no_response. Qed.

(** C09. Errors and panics reach the client as an error status. *)
Theorem C09_errors_are_reported :
  forall (Body Payload : Type) (E : EqDecision Body)
    (c : conn Body Payload) q h c' o,
  on_incoming c q h = (c', o) -> o_call o <> None ->
  match h with
  | HOk _ _ => True
  | HErr s _ => o_reply o = RErr s
  | HPanic _ => o_reply o = RErr 500
  end.
Proof. exact @processed_err_reply. Qed.

(** C09. The handler is given the request as the client sent it (the timeout may
    be shortened). *)
Theorem C09_handler_is_given_the_request :
  forall (Body Payload : Type) (E : EqDecision Body)
    (c : conn Body Payload) q h c' o q',
  on_incoming c q h = (c', o) -> o_call o = Some q' ->
  q_pos q' = q_pos q /\ q_txn q' = q_txn q /\ q_body q' = q_body q.
Proof. exact @handler_given. Qed.

(** C10. Repeating an answered request (same position and body, any txn_id,
    timeout and handler behaviour) gives the same response, does not call the
    handler, and leaves the connection unchanged, so it can be repeated any
    number of times. Partial: if the handler left the body of the request as the
    client sent it. *)
Theorem C10_retry_gets_same_response_partial :
  forall (Body Payload : Type) (E : EqDecision Body) (z : Body)
    (evs : list (request Body * hresult Body Payload)) c tr q h c' o r q' h',
  run z evs = (c, tr) -> on_incoming c q h = (c', o) -> o_reply o = RResp r ->
  q_pos q <> 0 -> q_pos q' = q_pos q -> q_body q' = q_body q ->
  body_left h = q_body q \/ o_call o = None ->
  on_incoming c' q' h' = (c', mk_outcome (RResp r) None).
Proof. exact @retry_same. Qed.

(** C10. Whatever the handler does to the request, and whatever the body, another
    request at the same position gets the same response, unless the handler is
    called and fails. *)
Theorem C10_same_position_same_response :
  forall (Body Payload : Type) (E : EqDecision Body) (z : Body)
    (evs : list (request Body * hresult Body Payload)) c tr q h c' o r q' h' c'' o',
  run z evs = (c, tr) -> on_incoming c q h = (c', o) -> o_reply o = RResp r ->
  q_pos q <> 0 -> q_pos q' = q_pos q -> on_incoming c' q' h' = (c'', o') ->
  o_reply o' = RResp r \/ (o_call o' <> None /\ forall p b, h' <> HOk p b).
Proof. exact @same_pos_same_reply. Qed.

(** C10 fails when the handler writes to the request: the request which adds an
    extension is processed again when it is retried. Here a body is the "rooms"
    of the to-device extension; the handler fills in the default as
    RequestModel.as_initial does. *)
Theorem C10_retry_is_processed_again_refuted :
  let body := option (list string) in
  let evs := [ (mk_request 0 "a" (None : body) 0, HOk 10%nat None);
               (mk_request 1 "b" None 0, HOk 20%nat (e_rooms (as_initial (mk_ext (Some true) None None 0 "")))) ] in
  let c := (run None evs).1 in
  map reply_to (run None evs).2 = [RResp (mk_response 1 "a" 10%nat); RResp (mk_response 2 "b" 20%nat)] /\
  (on_incoming c (mk_request 1 "b" None 0) (HOk 30%nat None)).2 =
    mk_outcome (RResp (mk_response 2 "b" 20%nat)) (Some (mk_request 1 "b" None 1)).
Proof. vm_compute. done. Qed.

(** C11. M_UNKNOWN_POS is answered exactly when the position is non-zero, not
    that of the last processed request, and not that of a response the client
    may still be at; then nothing changes and the handler is not called. *)
Theorem C11_unknown_position_rejected_without_effect :
  forall (Body Payload : Type) (E : EqDecision Body) (z : Body)
    (evs : list (request Body * hresult Body Payload)) c tr q h c' o,
  run z evs = (c, tr) -> on_incoming c q h = (c', o) ->
  (o_reply o = RUnknownPos <->
     q_pos q <> 0 /\ q_pos q <> q_pos (c_last c) /\
     ~ exists r, r ∈ produced tr /\ still_needed tr r /\ r_pos r = q_pos q) /\
  (o_reply o = RUnknownPos -> c' = c /\ o_call o = None).
Proof. exact @unknown_pos_iff. Qed.

(** C12. The response to a request at position [p] is the oldest produced one
    after [p] that the client has not already moved beyond. *)
Theorem C12_reply_is_oldest_unseen :
  forall (Body Payload : Type) (E : EqDecision Body) (z : Body)
    (evs : list (request Body * hresult Body Payload)) c tr q h c' o r,
  run z evs = (c, tr) -> on_incoming c q h = (c', o) -> o_reply o = RResp r ->
  oldest_after (q_pos q) (tr ++ [(q, h, o)]) r.
Proof. exact @reply_oldest. Qed.

(** C12. The server never answers with a nil response. *)
Theorem C12_reply_is_never_nil :
  forall (Body Payload : Type) (E : EqDecision Body) (z : Body)
    (evs : list (request Body * hresult Body Payload)) c tr q h c' o,
  run z evs = (c, tr) -> on_incoming c q h = (c', o) -> o_reply o <> RNil.
Proof. exact @reply_never_nil. Qed.

(** C12. Whatever replies get lost and whatever the handler does, a client that
    sends the position it last received sees the produced responses in order,
    each once, with none skipped. *)
Theorem C12_client_sees_every_response_once_in_order :
  forall (Body Payload : Type) (E : EqDecision Body) (z : Body)
    (ins : list (string * Body * hresult Body Payload * bool)) rs tr,
  client_run (new_conn z) 0 ins = (rs, tr) -> rs = take (length rs) (produced tr).
Proof. exact @client_run_ok. Qed.

(** ** The hypotheses are met by non-trivial histories *)
Definition ex_hist : list (request nat * hresult nat nat) :=
  [ (mk_request 0 "a" 1%nat 0, HOk 10%nat 1%nat);   (* response 1 *)
    (mk_request 1 "b" 1%nat 0, HOk 20%nat 1%nat);   (* response 2 *)
    (mk_request 1 "c" 2%nat 0, HOk 30%nat 2%nat);   (* changed body: response 3 buffered *)
    (mk_request 9 "d" 2%nat 0, HOk 40%nat 2%nat);   (* unknown position *)
    (mk_request 2 "e" 3%nat 0, HPanic 2%nat) ].     (* handler panics *)

Example ex_hist_replies :
  map reply_to (run 0%nat ex_hist).2 =
  [ RResp (mk_response 1 "a" 10%nat); RResp (mk_response 2 "b" 20%nat);
    RResp (mk_response 2 "b" 20%nat); RUnknownPos; RErr 500 ].
Proof. vm_compute. done. Qed.

(** After this history the client asks from 2 and gets the buffered response 3,
    also on retry, without calling the handler. *)
Example ex_retry :
  let c := (run 0%nat ex_hist).1 in
  exists c' , on_incoming c (mk_request 2 "f" 2%nat 0) (HErr 400 2%nat)
    = (c', mk_outcome (RResp (mk_response 3 "c" 30%nat)) None)
    /\ on_incoming c' (mk_request 2 "g" 2%nat 0) (HPanic 2%nat)
    = (c', mk_outcome (RResp (mk_response 3 "c" 30%nat)) None).
Proof. eexists; vm_compute; done. Qed.

Example ex_client :
  (client_run (Payload := nat) (new_conn 0%nat) 0
     [("a", 1%nat, HOk 10%nat 1%nat, true); ("b", 1%nat, HOk 20%nat 1%nat, false);
      ("c", 2%nat, HOk 30%nat 2%nat, true); ("d", 2%nat, HPanic 2%nat, true)]).1
  = [mk_response 1 "a" 10%nat; mk_response 2 "b" 20%nat; mk_response 3 "c" 30%nat].
Proof. vm_compute. done. Qed.

Print Assumptions C09_positions_count_processed_requests.
Print Assumptions C09_success_takes_the_next_position.
Print Assumptions C09_failure_takes_no_position.
Print Assumptions C09_errors_are_reported.
Print Assumptions C09_handler_is_given_the_request.
Print Assumptions C10_retry_gets_same_response_partial.
Print Assumptions C10_same_position_same_response.
Print Assumptions C10_retry_is_processed_again_refuted.
Print Assumptions C11_unknown_position_rejected_without_effect.
Print Assumptions C12_reply_is_oldest_unseen.
Print Assumptions C12_reply_is_never_nil.
Print Assumptions C12_client_sees_every_response_once_in_order.
