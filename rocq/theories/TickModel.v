(** Model of sync2/device_data_ticker.go and pubsub/pubsub.go as machines whose
    steps may be interleaved in any way.

    Simplifications: times are left out, a tick or a timeout may come at any
    moment; metrics are dropped. *)
From Verif Require Import Prelude.
Open Scope string_scope. Open Scope list_scope. Open Scope nat_scope.

(** * DeviceDataTicker *)

(** sync2.PollerID: user and device. *)
Definition pid := (string * string)%type.

(** device_data_ticker.go:58-76: a call of emitUpdate. sync.Map's Range promises:
    no key is visited twice; a key that is in the map during the whole call is
    visited; a visited key was in the map at some point during the call.
    [m_seen] are the keys that were there at some point, [m_stable] those that
    were there all the time, [m_taken] those visited, in order, and [m_del] the
    key whose Delete (line 68) comes next. *)
Record emitter := mk_emitter {
  m_seen : gset pid; m_stable : gset pid; m_taken : list pid; m_del : option pid }.

(** The map, the calls that run, and what was given to the callback. *)
Record ticker := mk_ticker {
  k_map : gset pid; k_run : gmap nat emitter; k_out : list (gmap string (list string)) }.
Definition ticker0 : ticker := mk_ticker ∅ ∅ [].

(** device_data_ticker.go:60-66: the payload. *)
Definition payload (taken : list pid) : gmap string (list string) :=
  fold_left (fun p x => <[x.1 := default [] (p !! x.1) ++ [x.2]]> p) taken ∅.

Inductive tick_step :=
  | Store (x : pid)            (* device_data_ticker.go:52 *)
  | Begin (i : nat)            (* 58-60: the ticker, or Remember without one (53-55) *)
  | Visit (i : nat) (x : pid)  (* 62-66 *)
  | Delete (i : nat)           (* 68 *)
  | Emit (i : nat).            (* 71-74 *)

(** [None]: the step is not possible now. *)
Definition tick (s : ticker) (st : tick_step) : option ticker :=
  match st with
  | Store x =>
      Some (mk_ticker ({[x]} ∪ k_map s)
        ((fun e => mk_emitter ({[x]} ∪ m_seen e) (m_stable e) (m_taken e) (m_del e)) <$> k_run s)
        (k_out s))
  | Begin i =>
      match k_run s !! i with
      | Some _ => None
      | None => Some (mk_ticker (k_map s) (<[i := mk_emitter (k_map s) (k_map s) [] None]> (k_run s)) (k_out s))
      end
  | Visit i x =>
      match k_run s !! i with
      | Some (mk_emitter seen stable taken None) =>
          if decide (x ∈ seen /\ x ∉ taken)
          then Some (mk_ticker (k_map s) (<[i := mk_emitter seen stable (taken ++ [x]) (Some x)]> (k_run s)) (k_out s))
          else None
      | _ => None
      end
  | Delete i =>
      match k_run s !! i with
      | Some (mk_emitter seen stable taken (Some x)) =>
          Some (mk_ticker (k_map s ∖ {[x]})
            ((fun e => mk_emitter (m_seen e) (m_stable e ∖ {[x]}) (m_taken e) (m_del e))
               <$> <[i := mk_emitter seen stable taken None]> (k_run s)) (k_out s))
      | _ => None
      end
  | Emit i =>
      match k_run s !! i with
      | Some (mk_emitter seen stable taken None) =>
          if forallb (fun x => bool_decide (x ∈ taken)) (elements stable)
          then Some (mk_ticker (k_map s) (delete i (k_run s))
                 (k_out s ++ match taken with [] => [] | _ => [payload taken] end))
          else None
      | _ => None
      end
  end.

(** * PubSub *)

(** A payload; [Empty] is the emptyPayload of pubsub.go:24-33. *)
Inductive pl := P (n : nat) | Empty.

(** One channel (a Go channel of capacity [bufferSize], pubsub.go:67-76), its
    one listener and the calls of Notify on it.
    [c_buf] is the buffer, [c_sendq] the blocked senders (first come first
    served; the flag says that this is the send of emptyPayload, which does not
    time out), [c_idle] says that the listener waits, [c_owes] the calls that
    must still send emptyPayload. The last four are records of what happened:
    payloads accepted, given to the callback, refused with an error, and calls
    that panicked. *)
Record chan := mk_chan {
  c_cap : nat; c_buf : list pl; c_sendq : list (nat * pl); c_idle : bool; c_closed : bool;
  c_owes : list nat;
  c_accepted : list pl; c_handled : list pl; c_refused : list (nat * pl); c_panicked : list nat }.
Definition chan0 (cap : nat) : chan := mk_chan cap [] [] false false [] [] [] [] [].

(** pubsub.go:109-117: the callback is not called for emptyPayload. *)
Definition handle (h : list pl) (p : pl) : list pl :=
  match p with Empty => h | P _ => h ++ [p] end.

(** pubsub.go:85-92: with no buffer the caller goes on with the second send. *)
Definition owe (cap : nat) (j : nat) (p : pl) (owes : list nat) : list nat :=
  match cap, p with 0, P _ => owes ++ [j] | _, _ => owes end.

(** A send on the channel. *)
Definition send (c : chan) (j : nat) (p : pl) : chan :=
  if c_closed c then
    mk_chan (c_cap c) (c_buf c) (c_sendq c) (c_idle c) (c_closed c) (c_owes c)
            (c_accepted c) (c_handled c) (c_refused c) (c_panicked c ++ [j])
  else if c_idle c then
    mk_chan (c_cap c) (c_buf c) (c_sendq c) false false (owe (c_cap c) j p (c_owes c))
            (c_accepted c ++ [p]) (handle (c_handled c) p) (c_refused c) (c_panicked c)
  else if decide (length (c_buf c) < c_cap c) then
    mk_chan (c_cap c) (c_buf c ++ [p]) (c_sendq c) false false (owe (c_cap c) j p (c_owes c))
            (c_accepted c ++ [p]) (c_handled c) (c_refused c) (c_panicked c)
  else
    mk_chan (c_cap c) (c_buf c) (c_sendq c ++ [(j, p)]) false false (c_owes c)
            (c_accepted c) (c_handled c) (c_refused c) (c_panicked c).

Inductive pub_step :=
  | Notify (j : nat) (n : nat)   (* pubsub.go:78-81: call [j] *)
  | Timeout (j : nat)            (* 82-83 *)
  | Flush (j : nat)              (* 89 *)
  | Receive                      (* 111: the listener asks for the next payload *)
  | Close.                       (* 96-107 *)

Definition pub (c : chan) (st : pub_step) : option chan :=
  match st with
  | Notify j n => Some (send c j (P n))
  | Flush j =>
      if decide (j ∈ c_owes c)
      then Some (send (mk_chan (c_cap c) (c_buf c) (c_sendq c) (c_idle c) (c_closed c)
             (List.filter (fun x => negb (x =? j)) (c_owes c))
             (c_accepted c) (c_handled c) (c_refused c) (c_panicked c)) j Empty)
      else None
  | Timeout j =>
      match List.find (fun x => (x.1 =? j) && match x.2 with P _ => true | Empty => false end) (c_sendq c) with
      | None => None
      | Some x =>
          Some (mk_chan (c_cap c) (c_buf c)
                 (List.filter (fun y => negb ((y.1 =? j) && match y.2 with P _ => true | Empty => false end)) (c_sendq c))
                 (c_idle c) (c_closed c) (c_owes c)
                 (c_accepted c) (c_handled c) (c_refused c ++ [x]) (c_panicked c))
      end
  | Receive =>
      if c_idle c then None
      else match c_buf c, c_sendq c with
      | p :: buf, [] =>
          Some (mk_chan (c_cap c) buf [] false (c_closed c) (c_owes c)
                 (c_accepted c) (handle (c_handled c) p) (c_refused c) (c_panicked c))
      | p :: buf, (j, q) :: sendq =>
          Some (mk_chan (c_cap c) (buf ++ [q]) sendq false (c_closed c) (owe (c_cap c) j q (c_owes c))
                 (c_accepted c ++ [q]) (handle (c_handled c) p) (c_refused c) (c_panicked c))
      | [], (j, q) :: sendq =>
          Some (mk_chan (c_cap c) [] sendq false (c_closed c) (owe (c_cap c) j q (c_owes c))
                 (c_accepted c ++ [q]) (handle (c_handled c) q) (c_refused c) (c_panicked c))
      | [], [] =>
          if c_closed c then None
          else Some (mk_chan (c_cap c) [] [] true false (c_owes c)
                 (c_accepted c) (c_handled c) (c_refused c) (c_panicked c))
      end
  | Close =>
      if c_closed c then Some c
      else Some (mk_chan (c_cap c) (c_buf c) [] (c_idle c) true (c_owes c)
                  (c_accepted c) (c_handled c) (c_refused c) (c_panicked c ++ map fst (c_sendq c)))
  end.
