(** Model of how polling for a device begins and ends: a request passes the gate
    (EnsModel, sync3/handler/ensure_polling.go), which asks the other half of the server
    for a poller (sync2/handler2/handler.go:564-596, EnsurePolling); that calls the poller
    map (PmapModel, sync2/poller.go:256-309) and tells the gate the outcome. Pollers are
    also started when the server starts (handler2/handler.go:124-176) and end when
    upstream refuses their token (poller.go:549-620) or nobody uses the device
    (handler2/handler.go:610-630).

    Sections under a mutex, database queries and messages are single steps. Messages are
    delivered in order (C55).

    Simplifications: a token stands for its hash too (C56 is about the difference); the
    since token of a row is not updated; metrics, logging and connections are left out. *)
From Verif Require Import Prelude PmapModel EnsModel.
Open Scope string_scope. Open Scope list_scope. Open Scope nat_scope.

(** pubsub/v2.go, V2InitialSyncComplete and V2ExpiredToken. *)
Inductive msg := Completed (p : pid) (success : bool) | Expired (p : pid).
Definition msg_pid (x : msg) : pid := match x with Completed p _ => p | Expired p => p end.

(** [b_rows]: the stored tokens with their device and since token. [b_checked]: requests
    whose token was looked up. [b_gate]: the gate. [b_asks]: V3EnsurePolling messages on
    their way. [b_map]: the poller map. [b_who]: of each call of the map's EnsurePolling,
    the device and whether it was made at startup. [b_msgs]: messages on their way to the
    gate. [b_boot]: devices for which a poller is still to be started at startup.
    [b_stopping]: pollers terminated by ExpirePollers of which the gate is not told yet.
    [b_refused]: pollers with a refused token of which the gate is told, but which are not
    yet terminated. *)
Record beg := mk_beg {
  b_rows : gmap string (pid * string); b_checked : list (pid * string);
  b_gate : gate; b_asks : list (pid * string);
  b_map : pmap; b_who : list (pid * bool); b_msgs : list msg;
  b_boot : list (pid * string * string); b_stopping : list nat; b_refused : list nat }.

(** The server was just started; [boot] is what TokenForEachDevice returned
    (sync2/tokens_table.go:140-177). *)
Definition start (rows : gmap string (pid * string)) (boot : list (pid * string * string)) : beg :=
  mk_beg rows [] gate0 [] pmap0 [] [] boot [] [].

Inductive act :=
| Login (token : string) (p : pid) (since : string)
    (* a token becomes known: sync3/handler/handler.go:463-500, identifyUnknownAccessToken *)
| Identify (token : string)
    (* a request's token is looked up: sync3/handler/handler.go:364 *)
| Request (i : nat)
    (* such a request comes to the gate: handler.go:418 *)
| Waken (n : nat)
    (* a request that waits is woken, if it can be *)
| Handle (ok : bool)
    (* the next V3EnsurePolling message is handled; [ok]: the query works *)
| Boot (i : nat)
    (* a worker starts a poller at startup *)
| Answer (n : nat) (report : bool)
    (* a call of the map's EnsurePolling returns, if it can. At startup the workers share
       one variable for the outcome (handler2/handler.go:156, C67): [report] is what is in
       it when the message is made *)
| Polled (s : nat) | Ended (s : nat) | Panicked (s : nat)
    (* a poller has processed a response; its loop ends; it panics *)
| Refuse (s : nat)
    (* upstream refuses a poller's token, or it has failed a thousand times *)
| Announce (s : nat) | Halt (s : nat)
    (* the same, in two steps: poller.go:564-565 and 598-599 *)
| Stop (s : nat) | Tell (s : nat)
    (* a poller of an unused device, in two steps: poller.go:239-242 *)
| Deliver.
    (* the gate handles the next message: handler.go:645-647, 816-819 *)

(** Setters. *)
Definition with_map (m : pmap) (s : beg) : beg :=
  mk_beg (b_rows s) (b_checked s) (b_gate s) (b_asks s) m (b_who s) (b_msgs s) (b_boot s) (b_stopping s) (b_refused s).
Definition with_gate (g : gate) (s : beg) : beg :=
  mk_beg (b_rows s) (b_checked s) g (b_asks s) (b_map s) (b_who s) (b_msgs s) (b_boot s) (b_stopping s) (b_refused s).

(** sync2/poller.go:485-487. *)
Definition halt (s : beg) (i : nat) : beg := with_map (step (b_map s) (Terminate i)) s.
(** sync2/handler2/handler.go:198-209, OnExpiredToken. *)
Definition announce (s : beg) (i : nat) : beg :=
  match pm_all (b_map s) !! i with
  | Some q => mk_beg (delete (q_token q) (b_rows s)) (b_checked s) (b_gate s) (b_asks s) (b_map s) (b_who s)
                (b_msgs s ++ [Expired (q_pid q)]) (b_boot s) (b_stopping s) (b_refused s)
  | None => s
  end.
Definition live (s : beg) (i : nat) : bool :=
  match pm_all (b_map s) !! i with Some q => q_run q && negb (q_term q) | None => false end.

Definition bstep (s : beg) (a : act) : option beg :=
  match a with
  | Login token p since =>
      (* sync2/tokens_table.go:174-198, Insert: an existing row is kept *)
      match b_rows s !! token with
      | Some _ => Some s
      | None => Some (mk_beg (<[token := (p, since)]> (b_rows s)) (b_checked s) (b_gate s) (b_asks s) (b_map s) (b_who s)
                        (b_msgs s) (b_boot s) (b_stopping s) (b_refused s))
      end
  | Identify token =>
      match b_rows s !! token with
      | Some (p, _) => Some (mk_beg (b_rows s) (b_checked s ++ [(p, token)]) (b_gate s) (b_asks s) (b_map s) (b_who s)
                               (b_msgs s) (b_boot s) (b_stopping s) (b_refused s))
      | None => Some s
      end
  | Request i =>
      match b_checked s !! i with
      | None => Some s
      | Some (p, token) =>
          g ← call (b_gate s) p;
          (* ensure_polling.go:111-116: the poller is asked for if the gate says so *)
          let asks := if decide (length (g_asked g) = length (g_asked (b_gate s))) then [] else [(p, token)] in
          Some (mk_beg (b_rows s) (delete i (b_checked s)) g (b_asks s ++ asks) (b_map s) (b_who s)
                  (b_msgs s) (b_boot s) (b_stopping s) (b_refused s))
      end
  | Waken n => Some (with_gate (wake (b_gate s) n) s)
  | Handle ok =>
      match b_asks s with
      | [] => Some s
      | (p, token) :: rest =>
          match (if ok then b_rows s !! token else None) with
          | Some (p', since) =>
              (* tokens_table.go:230-236 *)
              if decide (p' = p) then
                Some (mk_beg (b_rows s) (b_checked s) (b_gate s) rest (step (b_map s) (Ensure p token since false))
                        (b_who s ++ [(p, false)]) (b_msgs s) (b_boot s) (b_stopping s) (b_refused s))
              else Some (mk_beg (b_rows s) (b_checked s) (b_gate s) rest (b_map s) (b_who s) (b_msgs s) (b_boot s) (b_stopping s) (b_refused s))
          | None =>
              (* handler2/handler.go:571-575: the error is logged *)
              Some (mk_beg (b_rows s) (b_checked s) (b_gate s) rest (b_map s) (b_who s) (b_msgs s) (b_boot s) (b_stopping s) (b_refused s))
          end
      end
  | Boot i =>
      match b_boot s !! i with
      | None => Some s
      | Some (p, token, since) =>
          Some (mk_beg (b_rows s) (b_checked s) (b_gate s) (b_asks s) (step (b_map s) (Ensure p token since true))
                  (b_who s ++ [(p, true)]) (b_msgs s) (delete i (b_boot s)) (b_stopping s) (b_refused s))
      end
  | Answer n report =>
      match pm_calls (b_map s) !! n, pm_calls (returns (b_map s) n) !! n, b_who s !! n with
      | Some (Returned _ _ _), _, _ => Some s
      | _, Some (Returned _ _ ok), Some (p, boot) =>
          Some (mk_beg (b_rows s) (b_checked s) (b_gate s) (b_asks s) (returns (b_map s) n) (b_who s)
                  (b_msgs s ++ [Completed p (if boot : bool then report else ok)]) (b_boot s) (b_stopping s) (b_refused s))
      | _, _, _ => Some s
      end
  | Polled i => Some (with_map (step (b_map s) (Sync i)) s)
  | Ended i => Some (with_map (step (b_map s) (LoopEnd i)) s)
  | Panicked i => Some (with_map (step (b_map s) (Panic i)) s)
  | Refuse i => if live s i then Some (halt (announce s i) i) else Some s
  | Announce i =>
      if live s i then
        let s' := announce s i in
        Some (mk_beg (b_rows s') (b_checked s') (b_gate s') (b_asks s') (b_map s') (b_who s') (b_msgs s') (b_boot s') (b_stopping s') (i :: b_refused s'))
      else Some s
  | Halt i =>
      if bool_decide (i ∈ b_refused s) then
        let s' := halt s i in
        Some (mk_beg (b_rows s') (b_checked s') (b_gate s') (b_asks s') (b_map s') (b_who s') (b_msgs s') (b_boot s') (b_stopping s')
                (List.filter (fun j => negb (Nat.eqb j i)) (b_refused s')))
      else Some s
  | Stop i =>
      (* poller.go:225-240; that a poller ends between being looked for and being
         terminated is left out *)
      if bool_decide (i < length (pm_all (b_map s))) && negb (terminated (b_map s) i) then
        let s' := halt s i in
        Some (mk_beg (b_rows s') (b_checked s') (b_gate s') (b_asks s') (b_map s') (b_who s') (b_msgs s') (b_boot s') (i :: b_stopping s') (b_refused s'))
      else Some s
  | Tell i =>
      if bool_decide (i ∈ b_stopping s) then
        let s' := announce s i in
        Some (mk_beg (b_rows s') (b_checked s') (b_gate s') (b_asks s') (b_map s') (b_who s') (b_msgs s') (b_boot s')
                (List.filter (fun j => negb (Nat.eqb j i)) (b_stopping s')) (b_refused s'))
      else Some s
  | Deliver =>
      match b_msgs s with
      | [] => Some s
      | x :: rest =>
          g ← (match x with Completed p ok => complete (b_gate s) p ok | Expired p => Some (expire (b_gate s) p) end);
          Some (mk_beg (b_rows s) (b_checked s) g (b_asks s) (b_map s) (b_who s) rest (b_boot s) (b_stopping s) (b_refused s))
      end
  end.
Fixpoint brun (s : beg) (l : list act) : option beg :=
  match l with [] => Some s | a :: l => s' ← bstep s a; brun s' l end.
