(** Model of the poller map: sync2/poller.go.

    The lock of the map makes the first half of EnsurePolling one step; the caller
    then waits for the poller's first sync and returns in another step. The
    terminated flag is atomic, so setting it is one step, which may happen at any
    moment (a refused token, 1000 failures, ExpirePollers, Terminate).

    Simplifications: what a poll does with its response is elsewhere (PollModel);
    here a poll either completes, or the loop ends, or it panics. A poll that is in
    flight when the flag is set may still complete. Logging, metrics and the
    executor are dropped. *)
From Verif Require Import Prelude.
Open Scope string_scope. Open Scope list_scope. Open Scope nat_scope.

(** sync2/poller.go:23-26, PollerID. *)
Record pid := mk_pid { p_user : string; p_device : string }.
Global Instance pid_dec : EqDecision pid.
Proof. solve_decision. Defined.
Global Instance pid_countable : Countable pid.
Proof.
  apply (inj_countable' (fun p => (p_user p, p_device p)) (fun q => mk_pid q.1 q.2)). by intros [].
Defined.

(** sync2/poller.go:426-462, with whether its goroutine runs and whether it
    processed a response completely (ghost). [q_wg] says that wg.Done was called. *)
Record poller := mk_poller {
  q_pid : pid; q_token : string; q_since : string; q_todevonly : bool;
  q_term : bool; q_wg : bool; q_run : bool; q_synced : bool }.

(** A call of EnsurePolling: waiting for the poller with a serial number or done. *)
Inductive caller :=
| WaitOld (s : nat)                   (* 269-271, the poller existed *)
| WaitNew (s : nat) (wait : bool)     (* 301-305, it was made by this call *)
| Returned (s : nat) (created ok : bool).

(** sync2/poller.go:83-95. Pollers are numbered in the order of their creation. *)
Record pmap := mk_pmap { pm_all : list poller; pm_cur : gmap pid nat; pm_calls : list caller }.
Definition pmap0 : pmap := mk_pmap [] ∅ [].

Definition terminated (m : pmap) (s : nat) : bool :=
  match pm_all m !! s with Some q => q_term q | None => false end.

(** sync2/poller.go:277-288, the loop over the map: does a different device of the
    user have a poller that is not terminated? *)
Definition otherDevice (m : pmap) (p : pid) : bool :=
  existsb (fun e : pid * nat => bool_decide (p_user e.1 = p_user p) && negb (bool_decide (p_device e.1 = p_device p))
                                && negb (terminated m e.2))
          (map_to_list (pm_cur m)).

(** sync2/poller.go:464-478, newPoller. *)
Definition newPoller (p : pid) (token since : string) (todevonly : bool) : poller :=
  mk_poller p token since todevonly false false true false.

(** sync2/poller.go:256-301, the first half of EnsurePolling. *)
Definition ensure (m : pmap) (p : pid) (token since : string) (startup : bool) : pmap :=
  let make :=
    let needToWait := negb (otherDevice m p) in
    let s := length (pm_all m) in
    mk_pmap (pm_all m ++ [newPoller p token since (negb needToWait && negb startup)])
      (<[p := s]> (pm_cur m)) (pm_calls m ++ [WaitNew s needToWait]) in
  match pm_cur m !! p with
  | Some s => if terminated m s then make else mk_pmap (pm_all m) (pm_cur m) (pm_calls m ++ [WaitOld s])
  | None => make
  end.

(** sync2/poller.go:301-309 (and 269-272), the second half. *)
Definition returns (m : pmap) (n : nat) : pmap :=
  let released s := match pm_all m !! s with Some q => q_wg q | None => false end in
  let out c := mk_pmap (pm_all m) (pm_cur m) (<[n := c]> (pm_calls m)) in
  match pm_calls m !! n with
  | Some (WaitOld s) => if released s then out (Returned s false true) else m
  | Some (WaitNew s wait) =>
      if negb wait || released s then
        if terminated m s then out (Returned s false false) else out (Returned s true true)
      else m
  | _ => m
  end.

Definition on_poller (m : pmap) (s : nat) (f : poller -> poller) : pmap :=
  mk_pmap (alter f s (pm_all m)) (pm_cur m) (pm_calls m).

(** sync2/poller.go:485-487, Terminate of one poller. *)
Definition terminate (q : poller) : poller :=
  mk_poller (q_pid q) (q_token q) (q_since q) (q_todevonly q) true (q_wg q) (q_run q) (q_synced q).
(** sync2/poller.go:637-659, the end of a poll that processed everything. *)
Definition sync (q : poller) : poller :=
  if q_run q then mk_poller (q_pid q) (q_token q) (q_since q) false (q_term q) true true true else q.
(** sync2/poller.go:529-544, the loop is left: every error return of poll
    (549-659) is behind a terminated flag or a call of Terminate. *)
Definition loop_end (q : poller) : poller :=
  if q_run q && q_term q then mk_poller (q_pid q) (q_token q) (q_since q) (q_todevonly q) true true false (q_synced q)
  else q.
(** sync2/poller.go:511-521: a panic is recovered by the deferred function; it
    neither sets the flag nor calls wg.Done. *)
Definition panic (q : poller) : poller :=
  if q_run q then mk_poller (q_pid q) (q_token q) (q_since q) (q_todevonly q) (q_term q) (q_wg q) false (q_synced q)
  else q.

(** sync2/poller.go:225-237, ExpirePollers: the pollers it will terminate. They are
    terminated one by one afterwards (238-244), without the lock. *)
Definition gather (m : pmap) (ps : list pid) : list nat :=
  flat_map (fun p => match pm_cur m !! p with
                     | Some s => if terminated m s then [] else [s] | None => [] end) ps.

(** sync2/poller.go:213-222, DeviceIDs, and 200-209, NumPollers. *)
Definition deviceIDs (m : pmap) (user : string) : list string :=
  flat_map (fun e : pid * nat => if negb (terminated m e.2) && bool_decide (p_user e.1 = user)
                                 then [p_device e.1] else []) (map_to_list (pm_cur m)).
Definition numPollers (m : pmap) : nat :=
  length (List.filter (fun e : pid * nat => negb (terminated m e.2)) (map_to_list (pm_cur m))).

Inductive op :=
| Ensure (p : pid) (token since : string) (startup : bool) | Return (n : nat)
| Terminate (s : nat) | Sync (s : nat) | LoopEnd (s : nat) | Panic (s : nat).
Definition step (m : pmap) (o : op) : pmap :=
  match o with
  | Ensure p token since startup => ensure m p token since startup
  | Return n => returns m n
  | Terminate s => on_poller m s terminate
  | Sync s => on_poller m s sync
  | LoopEnd s => on_poller m s loop_end
  | Panic s => on_poller m s panic
  end.
Definition run (m : pmap) (os : list op) : pmap := fold_left step os m.
