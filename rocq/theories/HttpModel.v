(** Model of how a request over HTTP is answered: [v3.go] 76-87 (allowCORS),
    [sync3/handler/handler.go] 186-212 (ServeHTTP), 214-341 (serve), 346-461 (setupConnection),
    463-504 (identifyUnknownAccessToken), 879-892 (parseIntFromQuery), [internal/request.go] 9-16
    (ExtractAccessToken), [internal/errors.go] 18-53 (HandlerError), [sync2/client.go] 88-113 (WhoAmI),
    [sync3/request.go] 42-50 (Validate).

    Simplifications: logging, tracing and metrics are left out, except that logging an error reads
    its text, which panics if there is none; what the tables, the homeserver, the pollers and the
    connection say to this request is given (TokModel, BegModel, ConnModel, CmapModel have
    them); nothing of a JSON error but its status and errcode is kept; Ranges that are null are no
    ranges, for which Valid holds as well. *)
From Coq Require Import Ascii.
From Verif Require Import Prelude RangeModel.
Open Scope string_scope. Open Scope list_scope. Open Scope Z_scope.

(** ** Numbers *)
(** strconv.ParseInt(s, 10, 64). *)
Definition digit (c : ascii) : option Z :=
  let n := Z.of_nat (nat_of_ascii c) in if (48 <=? n) && (n <=? 57) then Some (n - 48) else None.
Fixpoint digits (acc : Z) (s : string) : option Z :=
  match s with
  | EmptyString => Some acc
  | String c s => match digit c with Some d => digits (10 * acc + d) s | None => None end
  end.
Definition unsigned (s : string) : option Z := match s with EmptyString => None | _ => digits 0 s end.
Definition in_int64 (n : Z) : option Z := if (- 2 ^ 63 <=? n) && (n <? 2 ^ 63) then Some n else None.
Definition ParseInt (s : string) : option Z :=
  match s with
  | EmptyString => None
  | String c s' =>
      if Ascii.eqb c "+" then match unsigned s' with Some n => in_int64 n | None => None end
      else if Ascii.eqb c "-" then match unsigned s' with Some n => in_int64 (- n) | None => None end
      else match unsigned s with Some n => in_int64 n | None => None end
  end.
(** handler.go:879-892. *)
Definition parseIntFromQuery (s : string) : option Z := if String.eqb s "" then Some 0 else ParseInt s.

(** ** Requests *)
(** request.go, Request: the fields that matter here. The order of the lists is that in which the
    map is gone through. *)
Record fields := mk_fields { b_conn : string; b_txn : string; b_lists : list (string * ranges) }.
Inductive body := NoBody | Undecodable | Decoded (b : fields).
(** [q_auth]: the Authorization header, empty if there is none; [q_pos] and [q_timeout]: the query
    parameters, likewise. *)
Record request := mk_request { q_method : string; q_auth : string; q_body : body; q_pos : string; q_timeout : string }.

(** request.go:42-50, Validate. *)
Definition Validate (b : fields) : bool := (String.length (b_conn b) <=? 16)%nat && (String.length (b_txn b) <=? 64)%nat.

(** internal/request.go:9-16, ExtractAccessToken. *)
Fixpoint strip (p s : string) : option string :=
  match p, s with
  | EmptyString, _ => Some s
  | String a p, String c s => if Ascii.eqb a c then strip p s else None
  | String _ _, EmptyString => None
  end.
Definition ExtractAccessToken (auth : string) : option string :=
  if String.eqb auth "" then None
  else Some (match strip "Bearer " auth with Some t => t | None => auth end).

(** ** What others say *)
Definition connid : Type := string * string * string.
(** TokensTable.Token. *)
Inductive lookup := Known (user dev : string) | Unknown | TableFails.
(** The answer of the homeserver to /whoami: its status and the strings user_id and device_id of
    its body, empty if there are none. *)
Inductive said := NoAnswer | Said (status : Z) (user dev : string).
Record herr := mk_herr { h_status : Z; h_err : bool (* Err is not nil *); h_code : string }.
(** Conn.OnIncomingRequest. The errors it returns have an Err (conn.go:161, 230-238). *)
Inductive reply := Reply (r : string) | Refusal (status : Z) (code : string).
Inductive encoded := EncodedOk | ClientGone | EncodeFails.
Record env := mk_env {
  v_token : string -> lookup;
  v_who : string -> said;
  v_insert : bool;                        (* the transaction that stores token and device *)
  v_conn : connid -> bool;                (* ConnMap.Conn finds it *)
  v_expired : string -> string -> bool;   (* EnsurePolling *)
  v_gone : bool;                          (* the client has gone meanwhile *)
  v_cache : string -> bool;               (* userCache *)
  v_answer : connid -> fields -> Z -> Z -> reply;
  v_encode : encoded }.

(** ** What is done *)
Inductive effect :=
  | Asked (token : string) | Stored (token user dev : string) | Polled (user dev : string)
  | Took (c : connid)       (* SetCancelCallback: the request is the connection's current one *)
  | Created (c : connid)    (* CreateConn, which closes one that exists *)
  | Ran (c : connid) (pos timeout : Z).
Inductive content := Response (r : string) | Error (status : Z) (code : string).
Inductive write := Pause | Status (n : Z) | Body (c : content).

(** sync2/client.go:88-113, WhoAmI. *)
Inductive who := WhoIs (user dev : string) | HTTP401 | WhoErr.
Definition WhoAmI (v : env) (token : string) : who :=
  match v_who v token with
  | NoAnswer => WhoErr
  | Said st user dev => if negb (st =? 200) then (if st =? 401 then HTTP401 else WhoErr) else WhoIs user dev
  end.

(** handler.go:463-504, identifyUnknownAccessToken. *)
Definition identifyUnknownAccessToken (v : env) (token : string) : list effect * (string * string + herr) :=
  match WhoAmI v token with
  | HTTP401 => ([Asked token], inr (mk_herr 401 true "M_UNKNOWN_TOKEN"))
  | WhoErr => ([Asked token], inr (mk_herr 502 true ""))
  | WhoIs user dev =>
      if v_insert v then ([Asked token; Stored token user dev], inl (user, dev))
      else ([Asked token], inr (mk_herr 500 true ""))
  end.

(** handler.go:346-461, setupConnection. MaybeUpdateLastSeen never fails the request. *)
Definition setupConnection (v : env) (q : request) (b : fields) : list effect * (connid + herr) :=
  match ExtractAccessToken (q_auth q) with
  | None => ([], inr (mk_herr 401 true ""))
  | Some token =>
      if String.eqb token "" then ([], inr (mk_herr 401 false ""))
      else
        let '(es, found) :=
          match v_token v token with
          | Known user dev => ([], inl (user, dev))
          | Unknown => identifyUnknownAccessToken v token
          | TableFails => ([], inr (mk_herr 500 true ""))
          end in
        match found with
        | inr h => (es, inr h)
        | inl (user, dev) =>
            let c := (user, dev, b_conn b) in
            if negb (String.eqb (q_pos q) "") then
              if v_conn v c then (es ++ [Took c], inl c) else (es, inr (mk_herr 400 true "M_UNKNOWN_POS"))
            else if v_expired v user dev then (es ++ [Polled user dev], inr (mk_herr 401 true "M_UNKNOWN_TOKEN"))
            else if v_gone v then (es ++ [Polled user dev], inr (mk_herr 400 true ""))
            else if negb (v_cache v user) then (es ++ [Polled user dev], inr (mk_herr 500 true ""))
            else (es ++ [Polled user dev; Created c], inl c)
        end
  end.

(** handler.go:214-341, serve: what it does, what it writes, and the error it returns. [None] is a
    panic. *)
Definition outcome : Type := list effect * list write * option (option herr).
Definition logged (es : list effect) (ws : list write) (h : herr) : outcome :=
  (es, ws, if h_err h then Some (Some h) else None).
Definition bad (es : list effect) : outcome := (es, [], Some (Some (mk_herr 400 true ""))).
Definition serve_body (v : env) (q : request) (b : fields) : outcome :=
  if negb (forallb (fun l => valid l.2) (b_lists b)) then bad []
  else
    match setupConnection v q b with
    | (es, inr h) => logged es [] h
    | (es, inl c) =>
        match parseIntFromQuery (q_pos q) with
        | None => bad es
        | Some pos =>
            match (if String.eqb (q_timeout q) "" then Some 10000 else parseIntFromQuery (q_timeout q)) with
            | None => bad es
            | Some timeout =>
                let es := es ++ [Ran c pos timeout] in
                match v_answer v c b pos timeout with
                | Refusal st code => logged es [] (mk_herr st true code)
                | Reply r =>
                    match v_encode v with
                    | EncodedOk => (es, [Status 200; Body (Response r)], Some None)
                    | ClientGone => logged es [Status 200] (mk_herr 499 true "")
                    | EncodeFails => logged es [Status 200] (mk_herr 500 true "")
                    end
                end
            end
        end
    end.
Definition serve (v : env) (q : request) : outcome :=
  match q_body q with
  | NoBody => serve_body v q (mk_fields "" "" [])
  | Undecodable => bad []
  | Decoded b => if negb (Validate b) then bad [] else serve_body v q b
  end.

(** handler.go:186-212, ServeHTTP. *)
Definition ServeHTTP (v : env) (q : request) : list effect * option (list write) :=
  if negb (String.eqb (q_method q) "POST") then ([], Some [Status 405])
  else
    match serve v q with
    | (es, ws, None) => (es, None)
    | (es, ws, Some None) => (es, Some ws)
    | (es, ws, Some (Some h)) =>
        (es, if h_err h then
               Some (ws ++ (if String.eqb (h_code h) "M_UNKNOWN_POS" then [] else [Pause])
                       ++ [Status (h_status h); Body (Error (h_status h) (h_code h))])
             else None)
    end.

(** v3.go:76-87, allowCORS. *)
Definition handle (v : env) (q : request) : list effect * option (list write) :=
  if String.eqb (q_method q) "OPTIONS" then ([], Some [Status 200]) else ServeHTTP v q.
