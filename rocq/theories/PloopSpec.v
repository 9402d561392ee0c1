(** What a poller's loop is expected to do, said about what it does in order. *)
From Verif Require Import Prelude PloopModel.
Open Scope string_scope. Open Scope list_scope. Open Scope Z_scope.

(** The position after [tr], if it was [p] before. *)
Fixpoint position (p : string) (tr : list ev) : string :=
  match tr with
  | [] => p
  | Advances s _ :: tr => position s tr
  | _ :: tr => position p tr
  end.
Definition is_advances (e : ev) : bool := match e with Advances _ _ => true | _ => false end.
Definition is_gets (e : ev) : bool := match e with Gets _ => true | _ => false end.
Definition is_saves (e : ev) : bool := match e with Saves _ _ _ => true | _ => false end.
Definition is_asks (e : ev) : bool := match e with Asks _ _ _ => true | _ => false end.
Definition is_releases (e : ev) : bool := match e with Releases => true | _ => false end.

(** A section was handled for good. *)
Definition for_good (o : outcome) : Prop := o = Fine \/ o = BadData.
(** The answers to the requests. *)
Definition is_answer (e : ev) : bool := match e with Fails _ | Gets _ => true | _ => false end.
Definition is_fails (e : ev) : bool := match e with Fails _ => true | _ => false end.
(** The last [n] answers were errors. *)
Definition only_errors_for (n : nat) (tr : list ev) : Prop :=
  exists before errors, List.filter is_answer tr = before ++ errors /\ length errors = n /\ Forall (fun e => is_fails e = true) errors.
(** Something that went wrong. *)
Definition failure (e : ev) : bool := match e with Fails _ | Handles _ Retry _ => true | _ => false end.

(** About a round: nobody ends the poller, nothing panics, the token is accepted. *)
Definition undisturbed (n : round) : Prop :=
  n_stop0 n = false /\ n_stop1 n = false /\ n_stop2 n = false /\ (forall x, n_outcome n x <> Panic) /\
  n_http n <> inl 401 /\ n_http n <> inl 403.
Definition is_error (n : round) : Prop := exists code, n_http n = inl code.

(** To-device messages are numbered; [pos] says how many the homeserver had sent before it made
    a token. It forgets messages once it is asked for what comes after them: [acked]. *)
Section homeserver.
  Variable pos : string -> nat.
  Fixpoint acked (tr : list ev) : nat :=
    match tr with
    | [] => 0
    | Asks s _ _ :: tr => Nat.max (pos s) (acked tr)
    | _ :: tr => acked tr
    end.
  (** An answer has the messages between those that were forgotten and its token. *)
  Definition honest (tr : list ev) : Prop :=
    forall before since first only a after, tr = before ++ Asks since first only :: Gets a :: after ->
    let from := acked (before ++ [Asks since first only]) in
    (from <= pos (a_next a))%nat /\ a_msgs a = seq from (pos (a_next a) - from).
End homeserver.
(** The messages that were stored, in this order. *)
Fixpoint stored (tr : list ev) : list nat :=
  match tr with
  | [] => []
  | Handles ToDevice Fine a :: tr => a_msgs a ++ stored tr
  | _ :: tr => stored tr
  end.

(** When the position was last stored. *)
Definition last_save (tr : list ev) : option Z :=
  List.fold_left (fun o e => match e with Saves _ t _ => Some t | _ => o end) tr None.
(** It has to be stored if the response had to-device messages or if that was not done for a
    minute. *)
Definition due (tr : list ev) (t : Z) : Prop :=
  (exists o r, last tr = Some (Handles ToDevice o r) /\ a_msgs r <> []) \/ match last_save tr with Some t' => t' + 60000 < t | None => True end.

(** A round whose response cannot be stored. *)
Definition cannot_store (n : round) : Prop :=
  undisturbed n /\ exists a x, n_http n = inr a /\ n_outcome n x = Retry /\ (x = ToDevice -> a_msgs a <> []).

(** To-device messages were stored after the position was last stored. *)
Definition unsaved (tr : list ev) : bool :=
  List.fold_left (fun u e => match e with
    | Handles ToDevice Fine a => if (0 <? length (a_msgs a))%nat then true else u
    | Saves _ _ true => false
    | _ => u
    end) tr false.
(** To-device messages were given up. *)
Definition given_up (tr : list ev) : Prop := exists a, In (Handles ToDevice BadData a) tr.
