(** Vocabulary for C96: what can be seen of the handlers. *)
From Verif Require Import Prelude PoolModel.
Open Scope string_scope.
Open Scope list_scope.
Open Scope Z_scope.

(** The handler of poller [i]'s call [j] is over with [e]. *)
Definition over (i : nat) (j : job) (e : ev) : Prop := e = EPanic i j \/ exists r, e = EEnd i j r.

(** The call is about data that users share: new events, state, typing, invites, leaves, unread
    counts, account data, receipts. *)
Definition shared (j : job) : Prop :=
  j_cb j ∈ [CAccumulate; CInitialise; CTyping; CInvite; CLeft; CUnread; CAccount; CReceipt].

(** Two handlers may not run at the same time: both handle data that all users share, or both
    are for the same poller. *)
Definition exclusive (i : nat) (j : job) (i' : nat) (j' : job) : Prop :=
  i = i' \/ (shared j /\ shared j').

(** In a history handlers that may not run at the same time do not: before the second is
    started the first is over. *)
Definition never_overlap (l : list ev) : Prop :=
  forall l1 i j l2 i' j' l3, l = l1 ++ EStart i j :: l2 ++ EStart i' j' :: l3 ->
    exclusive i j i' j' -> exists e, e ∈ l2 /\ over i j e.

(** What poller [i]'s handlers gave, in order. *)
Definition given (i : nat) (l : list ev) : list (job * Z) :=
  omap (fun e => match e with EEnd i' j r => if decide (i' = i) then Some (j, r) else None | _ => None end) l.

(** How many handlers of end-to-end encryption data were started, and how many of them are over. *)
Definition for_worker (j : job) : bool := match j_cb j with CE2EE => true | _ => false end.
Definition started (l : list ev) : nat :=
  length (filter (fun e => match e with EStart _ j => for_worker j | _ => false end = true) l).
Definition ended (l : list ev) : nat :=
  length (filter (fun e => match e with EEnd _ j _ | EPanic _ j => for_worker j | _ => false end = true) l).

(** A step of the machinery itself: no new work, no panic, no shutting down. *)
Definition plain (a : act) : Prop := match a with Begin _ | Take | Finish _ _ => True | _ => False end.

(** Nothing of the machinery can move. *)
Definition at_rest (s : sys) : Prop := forall a, plain a -> step s a = None.

(** Every call was made, run and answered. *)
Definition all_done (s : sys) : Prop := forall i p, s_pollers s !! i = Some p -> p_todo p = [] /\ p_phase p = Idle.

(** How many steps a call takes. *)
Definition steps_for (j : job) : nat := match job_way j with ByWorker => 3 | _ => 2 end.
Definition steps_in_all (work : list (list job)) : nat := sum_list_with (sum_list_with steps_for) work.

(** Every result, and every panic, is that of a handler that was started before and of which
    nothing was heard since. *)
Definition once (l : list ev) : Prop :=
  forall l1 e l2 i j, l = l1 ++ e :: l2 -> over i j e ->
    exists la lb, l1 = la ++ EStart i j :: lb /\ forall e', e' ∈ lb -> ~ over i j e' /\ e' <> EStart i j.
