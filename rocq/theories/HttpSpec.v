(** What is said about answers to requests, apart from how they are computed. *)
From Coq Require Import Ascii.
From Verif Require Import Prelude RangeModel RangeSpec HttpModel.
Open Scope string_scope. Open Scope list_scope. Open Scope Z_scope.

(** ** Numbers in a query *)
Inductive decimal : string -> Z -> Prop :=
  | decimal_one c n : 0 <= n <= 9 -> c = ascii_of_nat (48 + Z.to_nat n) -> decimal (String c "") n
  | decimal_more s c m n : decimal s m -> 0 <= n <= 9 -> c = ascii_of_nat (48 + Z.to_nat n) ->
      decimal (s +:+ String c "") (10 * m + n).
Definition integer (s : string) (n : Z) : Prop :=
  - 2 ^ 63 <= n < 2 ^ 63 /\
  (decimal s n \/ (exists s', s = "+" +:+ s' /\ decimal s' n) \/ (exists s', s = "-" +:+ s' /\ decimal s' (- n))).
(** A parameter that is missing has its default. *)
Definition number (s : string) (default n : Z) : Prop := (s = "" /\ n = default) \/ (s <> "" /\ integer s n).

(** ** Requests *)
(** What the request's body says: nothing, if there is none. *)
Definition sent (q : request) (b : fields) : Prop :=
  (q_body q = NoBody /\ b = mk_fields "" "" []) \/ q_body q = Decoded b.
Definition acceptable (b : fields) : Prop :=
  (String.length (b_conn b) <= 16)%nat /\ (String.length (b_txn b) <= 64)%nat /\
  forall key r, In (key, r) (b_lists b) -> windows_ok r.
(** The token a request bears. The word Bearer may be left out. *)
Definition bears (q : request) (token : string) : Prop :=
  token <> "" /\ (q_auth q = "Bearer " +:+ token \/ (q_auth q = token /\ forall t, token <> "Bearer " +:+ t)).
(** Whose token it is: the table knows it, or the homeserver said so and it was stored. *)
Definition identified (v : env) (token user dev : string) : Prop :=
  v_token v token = Known user dev \/
  (v_token v token = Unknown /\ v_who v token = Said 200 user dev /\ v_insert v = true).
(** The connection the request is for is there: it was found, or it could be made. *)
Definition connected (v : env) (q : request) (c : connid) : Prop :=
  (q_pos q <> "" /\ v_conn v c = true) \/
  (q_pos q = "" /\ v_expired v c.1.1 c.1.2 = false /\ v_gone v = false /\ v_cache v c.1.1 = true).
(** Everything is in order, and [r] is the connection's answer. *)
Definition in_order (v : env) (q : request) (r : string) : Prop :=
  exists b token user dev pos timeout,
    sent q b /\ acceptable b /\ bears q token /\ identified v token user dev /\
    number (q_pos q) 0 pos /\ number (q_timeout q) 10000 timeout /\
    connected v q (user, dev, b_conn b) /\ v_answer v (user, dev, b_conn b) b pos timeout = Reply r.

(** ** Answers *)
(** The client is answered with an error: after a pause, unless its session has ended. *)
Definition answered_with (ws : list write) (n : Z) (code : string) : Prop :=
  ws = (if decide (code = "M_UNKNOWN_POS") then [] else [Pause]) ++ [Status n; Body (Error n code)].
(** Whom something is done for. *)
Definition done_for (e : effect) : option (string * string) :=
  match e with
  | Asked _ => None
  | Stored _ user dev | Polled user dev => Some (user, dev)
  | Took c | Created c | Ran c _ _ => Some c.1
  end.
