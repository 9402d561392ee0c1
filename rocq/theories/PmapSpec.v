(** Specification of the poller map. *)
From Verif Require Import Prelude PmapModel.
Open Scope string_scope. Open Scope list_scope. Open Scope nat_scope.

(** The poller with serial number [s] exists, is for [p] and is not terminated. *)
Definition active (m : pmap) (p : pid) (s : nat) : Prop :=
  exists q, pm_all m !! s = Some q /\ q_pid q = p /\ q_term q = false.
(** Its goroutine runs. *)
Definition running (m : pmap) (s : nat) : Prop := exists q, pm_all m !! s = Some q /\ q_run q = true.
(** It processed a sync response completely. *)
Definition synced (m : pmap) (s : nat) : Prop := exists q, pm_all m !! s = Some q /\ q_synced q = true.

Definition no_panic (os : list op) : Prop := forall s, ~ In (Panic s) os.
