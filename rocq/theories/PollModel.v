(** Model of the poll loop: sync2/poller.go, poll and the parse functions.

    The receiver (sync2/handler2/handler.go) is an oracle: for each call it
    decides, knowing all calls before, how the call ends. Map iteration order is
    the order of the lists of rooms, which theorems leave open.

    Simplifications: metrics, logging and sleeping are dropped; whether the
    end-to-end encryption section needs a call (poller.go:709-752) is a flag, see
    DeviceModel.v for its contents; events keep only what poller.go reads. *)
From Verif Require Import Prelude.
Open Scope string_scope. Open Scope list_scope.

(** An event: is it a create event with empty state key (poller.go:815), is it a
    membership "leave" of the poller's user (895), and anything else. *)
Record tev := mk_tev { t_create : bool; t_leave : bool; t_rest : nat }.

Inductive eph := Typing | Receipt | OtherEph.

(** poller.go:784-955 reads these parts of the response. *)
Record joined := mk_joined {
  j_room : string; j_state : list tev; j_eph : list eph; j_acct : nat (* how many *);
  j_tl : list tev; j_unread : bool (* some counter is given *) }.
Record left_room := mk_left { l_room : string; l_tl : list tev }.
Record response := mk_response {
  r_next : string; r_e2ee : bool; r_acct : nat;
  r_join : list joined; r_leave : list left_room; r_invite : list string;
  r_todev : nat }.

(** Calls of the receiver. *)
Inductive call :=
  | OnE2EEData | OnAccountData (room : string) | Initialise (room : string) (evs : list tev)
  | SetTyping (room : string) | OnReceipt (room : string)
  | Accumulate (room : string) (evs : list tev) | UpdateUnreadCounts (room : string)
  | OnLeftRoom (room : string) (ev : tev) | OnInvite (room : string) | AddToDeviceMessages.

(** How a call ends: [Data] is an internal.DataError, [Wrapped] an error that
    wraps one, [Fail] any other error, [Crash] a panic or the end of the
    process. *)
Inductive outcome := Ok | Data | Wrapped | Fail | Crash.

Definition trace := list (call * outcome).
Definition oracle := trace -> call -> outcome.

(** Make a call. *)
Definition make (env : oracle) (tr : trace) (c : call) : option (trace * outcome) :=
  match env tr c with Crash => None | o => Some (tr ++ [(c, o)], o) end.

(** poller.go:690-697, shouldRetry. *)
Definition shouldRetry (o : outcome) : bool := match o with Fail => true | _ => false end.

(** poller.go:813-821: take the first create event out of the timeline. *)
Fixpoint take_create (tl : list tev) : option (tev * list tev) :=
  match tl with
  | [] => None
  | e :: rest =>
      if t_create e then Some (e, rest)
      else match take_create rest with
           | Some (c, rest') => Some (c, e :: rest')
           | None => None
           end
  end.

(** poller.go:853-863: the ephemeral events; neither function returns an error. *)
Fixpoint ephemeral (env : oracle) (tr : trace) (room : string) (l : list eph) : option trace :=
  match l with
  | [] => Some tr
  | Typing :: r => match make env tr (SetTyping room) with
                   | Some (tr', _) => ephemeral env tr' room r | None => None end
  | Receipt :: r => match make env tr (OnReceipt room) with
                    | Some (tr', _) => ephemeral env tr' room r | None => None end
  | OtherEph :: r => ephemeral env tr room r
  end.

(** poller.go:852-888: a joined room after its state is in. The result says how
    the room ended. *)
Definition after_state (env : oracle) (tr : trace) (r : joined) : option (trace * outcome) :=
  match ephemeral env tr (j_room r) (j_eph r) with
  | None => None
  | Some tr =>
      let acct := match j_acct r with
                  | O => Some (tr, Ok)
                  | _ => make env tr (OnAccountData (j_room r))
                  end in
      match acct with
      | None => None
      | Some (tr, Ok) =>
          let tl := match j_tl r with
                    | [] => Some (tr, Ok)
                    | evs => make env tr (Accumulate (j_room r) evs)
                    end in
          match tl with
          | None => None
          | Some (tr, Ok) =>
              if j_unread r then
                match make env tr (UpdateUnreadCounts (j_room r)) with
                | None => None | Some (tr, _) => Some (tr, Ok)
                end
              else Some (tr, Ok)
          | Some (tr, o) => Some (tr, o)
          end
      | Some (tr, o) => Some (tr, o)
      end
  end.

(** poller.go:800-888: one joined room. *)
Definition join_room (env : oracle) (tr : trace) (r : joined) : option (trace * outcome) :=
  match j_state r with
  | [] => after_state env tr r
  | evs =>
      match make env tr (Initialise (j_room r) evs) with
      | None => None
      | Some (tr, Ok) => after_state env tr r
      | Some (tr, Data) =>
          match take_create (j_tl r) with
          | None => Some (tr, Data)
          | Some (c, tl) =>
              let r' := mk_joined (j_room r) (c :: evs) (j_eph r) (j_acct r) tl (j_unread r) in
              match make env tr (Initialise (j_room r) (c :: evs)) with
              | None => None
              | Some (tr, Ok) => after_state env tr r'
              | Some (tr, o) => Some (tr, o)
              end
          end
      | Some (tr, o) => Some (tr, o)
      end
  end.

(** poller.go:889-910: one room left. *)
Definition leave_room (env : oracle) (tr : trace) (r : left_room) : option (trace * outcome) :=
  let tl := match l_tl r with
            | [] => Some (tr, Ok)
            | evs => make env tr (Accumulate (l_room r) evs)
            end in
  match tl with
  | None => None
  | Some (tr, Ok) =>
      match List.find t_leave (l_tl r) with
      | None => Some (tr, Ok)
      | Some e => make env tr (OnLeftRoom (l_room r) e)
      end
  | Some (tr, o) => Some (tr, o)
  end.

(** The loops: errors are collected (lastErrs). *)
Fixpoint each {A} (f : trace -> A -> option (trace * outcome)) (tr : trace) (errs : list outcome)
    (l : list A) : option (trace * list outcome) :=
  match l with
  | [] => Some (tr, errs)
  | x :: rest =>
      match f tr x with
      | None => None
      | Some (tr', Ok) => each f tr' errs rest
      | Some (tr', o) => each f tr' (errs ++ [o]) rest
      end
  end.

(** poller.go:917-955: the error returned, as shouldRetry will see it. *)
Definition joined_error (errs : list outcome) : outcome :=
  match errs with
  | [] => Ok
  | [e] => e
  | _ => match List.filter shouldRetry errs with
         | [] => Wrapped   (* errors.Join of data errors only *)
         | _ => Fail       (* errors.Join of retriable errors only *)
         end
  end.

(** poller.go:784-955, parseRoomsResponse. *)
Definition parseRoomsResponse (env : oracle) (tr : trace) (res : response) : option (trace * outcome) :=
  match each (join_room env) tr [] (r_join res) with
  | None => None
  | Some (tr, errs) =>
      match each (leave_room env) tr errs (r_leave res) with
      | None => None
      | Some (tr, errs) =>
          match each (fun tr room => make env tr (OnInvite room)) tr errs (r_invite res) with
          | None => None
          | Some (tr, errs) => Some (tr, joined_error errs)
          end
      end
  end.

(** A section that makes one call or none. *)
Definition section (env : oracle) (tr : trace) (needed : bool) (c : call) : option (trace * outcome) :=
  if needed then make env tr c else Some (tr, Ok).

(** poller.go:604-637: all sections. The flag says that the response must be
    processed again. *)
Definition process (env : oracle) (res : response) : option (trace * bool) :=
  match section env [] (r_e2ee res) OnE2EEData with
  | None => None
  | Some (tr, o) =>
    if shouldRetry o then Some (tr, true) else
    match section env tr (negb (r_acct res =? 0)%nat) (OnAccountData "") with
    | None => None
    | Some (tr, o) =>
      if shouldRetry o then Some (tr, true) else
      match parseRoomsResponse env tr res with
      | None => None
      | Some (tr, o) =>
        if shouldRetry o then Some (tr, true) else
        match section env tr (negb (r_todev res =? 0)%nat) AddToDeviceMessages with
        | None => None
        | Some (tr, o) => Some (tr, shouldRetry o)
        end
      end
    end
  end.

(** What survives: the token in the devices table and, while a poller runs, its
    own since token. *)
Record poller := mk_poller { p_stored : string; p_since : string }.

(** poller.go:549-659, poll, after DoSyncV2 succeeded. [late] says that the
    token was last stored more than a minute ago, [stored] that storing it
    works. If a call crashes the poller ends; the next one starts from the
    stored token (poller.go:256-310, tokens_table.go:221-239). *)
Definition poll (p : poller) (env : oracle) (res : response) (late stored : bool) : poller :=
  match process env res with
  | None => mk_poller (p_stored p) (p_stored p)
  | Some (_, true) => p
  | Some (_, false) =>
      mk_poller (if (late || negb (r_todev res =? 0)%nat) && stored then r_next res else p_stored p)
                (r_next res)
  end.
