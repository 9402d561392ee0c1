(** Specification of the gate in front of new connections, in terms of the history
    of calls and of messages from the pollers. *)
From Verif Require Import Prelude PmapModel EnsModel.
Open Scope string_scope. Open Scope list_scope. Open Scope nat_scope.

Global Instance gop_dec : EqDecision gop.
Proof. solve_decision. Defined.

(** The first message of a completed initial sync of a device, if there is one. *)
Fixpoint first_complete (p : pid) (os : list gop) : option bool :=
  match os with
  | [] => None
  | Complete p' s :: os => if decide (p' = p) then Some s else first_complete p os
  | _ :: os => first_complete p os
  end.
(** A message that the device's token expired. *)
Definition expires (p : pid) (os : list gop) : bool := bool_decide (Expire p ∈ os).
(** What a call has to report after these messages: nothing yet, or whether the
    poller failed. *)
Definition verdict (p : pid) (os : list gop) : option bool :=
  match first_complete p os with None => None | Some s => Some (negb s || expires p os) end.

(** The history says that the device's initial sync succeeded and its token did not
    expire since. *)
Definition succeeded (p : pid) (os : list gop) : Prop :=
  exists a b, os = a ++ Complete p true :: b /\ ~ In (Expire p) b.

(** No call for the device comes after bad news about it. *)
Definition no_restart (p : pid) (os : list gop) : Prop :=
  forall a b, os = a ++ Call p :: b -> first_complete p a <> Some false /\ expires p a = false.
