(** Specification of how polling begins and ends. *)
From Verif Require Import Prelude PmapModel PmapSpec EnsModel BegModel.
Open Scope string_scope. Open Scope list_scope. Open Scope nat_scope.

(** Something holds at every step of a run. *)
Fixpoint every_step (P : beg -> act -> Prop) (s : beg) (l : list act) : Prop :=
  match l with
  | [] => True
  | a :: l' => P s a /\ forall s', bstep s a = Some s' -> every_step P s' l'
  end.

(** The [n]th request waits at the gate, for the device [p]. *)
Definition waits (s : beg) (n : nat) (p : pid) : Prop := exists c, g_calls (b_gate s) !! n = Some (p, Waiting c).
(** The gate lets requests for the device pass at once. *)
Definition lets_through (s : beg) (p : pid) : Prop :=
  exists ch, g_pending (b_gate s) !! p = Some (mk_info true false ch).
(** The device has a poller, which runs. *)
Definition polled (s : beg) (p : pid) : Prop := exists i, active (b_map s) p i /\ running (b_map s) i.

(** When a message that asks for a poller is handled, the token is still stored, as one of
    the device, and the database works. *)
Definition token_there (s : beg) (a : act) : Prop :=
  match a with
  | Handle ok => match b_asks s with
                 | (p, token) :: _ => ok = true /\ exists since, b_rows s !! token = Some (p, since)
                 | [] => True
                 end
  | _ => True
  end.
Definition unpanicked (_ : beg) (a : act) : Prop := match a with Panicked _ => False | _ => True end.
(** A refused token is announced and the poller terminated at once. *)
Definition at_once (_ : beg) (a : act) : Prop := match a with Announce _ | Halt _ => False | _ => True end.
(** At startup success is reported only of pollers that are not terminated. *)
Definition truthful (s : beg) (a : act) : Prop :=
  match a with
  | Answer n report => forall i, (pm_calls (b_map s) !! n = Some (WaitOld i) \/ exists w, pm_calls (b_map s) !! n = Some (WaitNew i w)) ->
      report = true -> terminated (b_map s) i = false
  | _ => True
  end.

(** What the server does by itself, given that upstream answers: handle messages, go on
    where something was waited for, process responses of upstream. *)
Definition by_itself (a : act) : Prop :=
  match a with Waken _ | Handle _ | Answer _ _ | Polled _ | Ended _ | Deliver => True | _ => False end.
(** Such steps, each of which does something. *)
Fixpoint works (s : beg) (l : list act) : Prop :=
  match l with
  | [] => True
  | a :: l' => by_itself a /\ exists s', bstep s a = Some s' /\ s' <> s /\ works s' l'
  end.
(** Nothing is left to do. *)
Definition idle (s : beg) : Prop := forall a, by_itself a -> bstep s a = Some s.
