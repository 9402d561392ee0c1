(** Specification of access tokens. *)
From Coq Require Import Ascii.
From Verif Require Import Prelude TokModel.
Open Scope string_scope. Open Scope list_scope. Open Scope Z_scope.

(** What was sealed can be opened with the same key and nonce. *)
Definition opens (cr : crypto) : Prop := forall key nonce t, c_open cr key nonce (c_seal cr key nonce t) = Some t.
(** Opening with another key gives what was sealed or fails. *)
Definition authentic (cr : crypto) : Prop := forall key key' nonce t,
  c_open cr key nonce (c_seal cr key' nonce t) = Some t \/ c_open cr key nonce (c_seal cr key' nonce t) = None.
(** No other token in the history has the same hash. *)
Definition no_collision (cr : crypto) (hist : list top) (plain : string) : Prop :=
  forall key p user dev now nonce, In (Register key p user dev now nonce) hist -> c_hash cr p = c_hash cr plain -> p = plain.
(** Nonces have the right length. *)
Definition good_nonces (hist : list top) : Prop :=
  forall key p user dev now nonce, In (Register key p user dev now nonce) hist -> String.length nonce = 12%nat.

(** Every registration of the token was followed by its deletion. *)
Definition not_registered (cr : crypto) (hist : list top) (plain : string) : Prop :=
  forall pre key user dev now nonce post, hist = pre ++ Register key plain user dev now nonce :: post -> In (Delete (c_hash cr plain)) post.
(** The token was registered for this user and device, it was not registered before, and
    it was not deleted since. *)
Definition first_registered (cr : crypto) (hist : list top) (key plain user dev : string) : Prop :=
  exists pre now nonce post, hist = pre ++ Register key plain user dev now nonce :: post
    /\ not_registered cr pre plain /\ ~ In (Delete (c_hash cr plain)) post.

(** ** Requests over time *)
Inductive rstep :=
  | RRequest (key plain : string) (w : who) (now : Z) (nonce : string)
  | RDelete (hash : string)
  | RSince (user dev since : string).
Definition rstep1 (cr : crypto) (st : store) (s : rstep) : store :=
  match s with
  | RRequest key plain w now nonce => (identify cr key st plain w now nonce).1
  | RDelete hash => delete_token st hash
  | RSince user dev since => update_since st user dev since
  end.
Definition rruns (cr : crypto) (st : store) (l : list rstep) : store := fold_left (rstep1 cr) l st.
(** A request of the device at this time, with a token, given by its hash, that was not
    deleted since. *)
Definition requested (cr : crypto) (hist : list rstep) (d : string * string) (hash : string) (time : Z) : Prop :=
  exists pre key plain w nonce post t, hist = pre ++ RRequest key plain w time nonce :: post
    /\ c_hash cr plain = hash
    /\ (identify cr key (rruns cr store0 pre) plain w time nonce).2 = Known t
    /\ (k_user t, k_dev t) = d /\ ~ In (RDelete hash) post.

(** ** Starting pollers *)
(** What the steps of the workers say: the device whose poller was started, and whether
    that failed. *)
Fixpoint starts (l : list forpoller) (steps : list wstep) : list (string * string * bool) :=
  match steps, l with
  | WStarted failed :: steps, t :: l => (p_user t, p_dev t, negb failed) :: starts l steps
  | _ :: steps, l => starts l steps
  | [], _ => []
  end.
(** Every report is made before the next poller is started. *)
Fixpoint one_by_one (steps : list wstep) : Prop :=
  match steps with
  | [] => True
  | WStarted _ :: WReport 0 :: steps => one_by_one steps
  | _ => False
  end.
