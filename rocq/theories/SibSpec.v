(** What a user relies on whose devices are polled for one by one. *)
From Verif Require Import Prelude SibModel.
Open Scope string_scope. Open Scope list_scope. Open Scope nat_scope.

(** All that happened up to [n] is in the database. *)
Definition complete (w : world) (n : nat) : Prop := forall k, 1 <= k <= n -> k ∈ w_stored w.
(** Every device with a token is polled for, and has been told of everything. *)
Definition up_to_date (w : world) : Prop :=
  w_tokens w <> ∅ /\
  forall d, d ∈ w_tokens w -> w_pollers w !! d = Some (mk_sib (w_up w) false false false).
(** The positions: of pollers and in the table. *)
Definition position (w : world) (n : nat) : Prop :=
  (exists d p, w_pollers w !! d = Some p /\ k_since p = n) \/ (exists d, w_rows w !! d = Some n).

(** [d] will hear of all that happened after [m]: it is polled for, or will be once the proxy
    has started. *)
Definition in_charge (w : world) (d : string) (m : nat) : Prop :=
  d ∈ w_tokens w /\
  match w_pollers w !! d with
  | Some p => k_since p = m /\ k_only p = false /\ k_term p = false /\ k_dead p = false
  | None => w_rows w !! d = Some m
  end.
(** A device is about to skip what happened in the rooms. *)
Definition about_to_skip (w : world) : Prop := exists d p, w_pollers w !! d = Some p /\ k_only p = true /\ k_term p = false /\ k_dead p = false.
(** Something is missing although some device is past it. *)
Definition missing (w : world) (k : nat) : Prop := 1 <= k /\ k ∉ w_stored w /\ exists n, position w n /\ k <= n.
(** Nothing depends on [d] alone: what is missing another device will hear of, and another
    device is in charge if one is about to skip something. *)
Definition spare (w : world) (d : string) : Prop :=
  (forall k, missing w k -> exists d' m, d' <> d /\ in_charge w d' m /\ m < k) /\
  (about_to_skip w -> exists d' m, d' <> d /\ in_charge w d' m).
(** Making a poller for [d] makes one that skips what happened in the rooms. *)
Definition skips (w : world) (d : string) : Prop :=
  exists p, w_pollers (ensure w d false) !! d = Some p /\ k_only p = true /\ w_pollers w !! d <> Some p.
(** A poller ends, or begins by skipping, only while nothing depends on its device, and if it
    skips somebody else is in charge. *)
Definition orderly (w : world) (o : op) : Prop :=
  match o with
  | Expire d | Panic d => spare w d
  | Ensure d false => skips w d -> spare w d /\ exists d' m', d' <> d /\ in_charge w d' m'
  | _ => True
  end.
(** [P] holds of each step and the state before it. *)
Fixpoint throughout (P : world -> op -> Prop) (w : world) (l : list op) : Prop :=
  match l with [] => True | o :: l => P w o /\ throughout P (step w o) l end.
(** The devices a run is about. *)
Definition device_of (o : op) : option string :=
  match o with Login d | Ensure d _ | Poll d _ _ | Expire d | Panic d => Some d | Happens | Restart => None end.
