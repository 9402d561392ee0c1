(** What a client can observe of a connection's history, stated without
    reference to how the connection stores anything. *)
From Verif Require Import Prelude.
From Verif Require Import ConnModel.
Open Scope Z_scope.

Section spec.
  Context {Body Payload : Type} `{EqDecision Body}.

  (** Requests the server processed successfully: the handler was called and
      gave a payload. *)
  Definition processed (e : event Body Payload) : option (string * Payload) :=
    match e with
    | (q, HOk p _, o) => match o_call o with Some _ => Some (q_txn q, p) | None => None end
    | _ => None
    end.

  (** Number the processed requests from [n]: the responses that were ever
      produced, oldest first. *)
  Fixpoint number (n : Z) (l : list (string * Payload)) : list (response Payload) :=
    match l with
    | [] => []
    | (t, p) :: l' => mk_response n t p :: number (n + 1) l'
    end.

  Definition produced (tr : list (event Body Payload)) : list (response Payload) :=
    number 1 (omap processed tr).

  (** Requests not answered with M_UNKNOWN_POS; their positions acknowledge
      everything below. *)
  Definition accepted (e : event Body Payload) : Prop :=
    match e with (_, _, o) => o_reply o <> RUnknownPos end.

  Definition pos_of (e : event Body Payload) : Z :=
    match e with (q, _, _) => q_pos q end.

  Definition reply_to (e : event Body Payload) : reply Payload :=
    match e with (_, _, o) => o_reply o end.

  (** [still_needed tr r]: no accepted request went beyond response [r]. *)
  Definition still_needed (tr : list (event Body Payload)) (r : response Payload) : Prop :=
    forall e, e ∈ tr -> accepted e -> pos_of e <= r_pos r.

  (** The oldest response that the client has not seen at position [p]. *)
  Definition oldest_after (p : Z) (tr : list (event Body Payload)) (r : response Payload) : Prop :=
    r ∈ produced tr /\ p < r_pos r /\ still_needed tr r /\
    forall r', r' ∈ produced tr -> p < r_pos r' -> still_needed tr r' -> r_pos r <= r_pos r'.
  (** A client that always sends the position of the last response it received.
      [client_run c p ins]: the client is at position [p]; each input is what
      it sends (txn id, body), what the handler does, and whether the reply
      arrives. Returns the responses it received, oldest first, and the
      history. *)
  Fixpoint client_run (c : conn Body Payload) (p : Z)
    (ins : list (string * Body * hresult Body Payload * bool))
    : list (response Payload) * list (event Body Payload) :=
    match ins with
    | [] => ([], [])
    | (t, b, h, arrives) :: ins' =>
        let q := mk_request p t b 10000 in
        let '(c', o) := on_incoming c q h in
        match o_reply o with
        | RResp r =>
            if arrives then
              let '(rs, tr) := client_run c' (r_pos r) ins' in (r :: rs, (q, h, o) :: tr)
            else let '(rs, tr) := client_run c' p ins' in (rs, (q, h, o) :: tr)
        | _ => let '(rs, tr) := client_run c' p ins' in (rs, (q, h, o) :: tr)
        end
    end.

  (** The body the handler leaves behind in the remembered request. *)
  Definition body_left (h : hresult Body Payload) : Body :=
    match h with HOk _ b | HErr _ b | HPanic b => b end.
End spec.
