(** Membership as a relation: what each operation says about one user and room.
    The newest operation is first in the list. *)
From Verif Require Import Prelude TrackerModel.

(** Is [u] joined to [r] after the operations [ops] (newest first)? *)
Fixpoint says_joined (ops : list top) (u r : string) : Prop :=
  match ops with
  | [] => False
  | TStartup m :: ops' => exists us, (r, us) ∈ m /\ u ∈ us
  | TJoin us r' :: ops' => (r = r' /\ u ∈ us) \/ says_joined ops' u r
  | TLeave u' r' :: ops' => ~ (r = r' /\ u = u') /\ says_joined ops' u r
  | TInvite _ _ :: ops' => says_joined ops' u r
  | TReload r' js _ :: ops' => (r = r' /\ u ∈ js) \/ (r <> r' /\ says_joined ops' u r)
  end.

(** Is [u] invited to [r]? *)
Fixpoint says_invited (ops : list top) (u r : string) : Prop :=
  match ops with
  | [] => False
  | TStartup m :: ops' => says_invited ops' u r
  | TJoin us r' :: ops' => ~ (r = r' /\ u ∈ us) /\ says_invited ops' u r
  | TLeave u' r' :: ops' => ~ (r = r' /\ u = u') /\ says_invited ops' u r
  | TInvite us r' :: ops' => (r = r' /\ u ∈ us) \/ says_invited ops' u r
  | TReload r' _ is :: ops' => (r = r' /\ u ∈ is) \/ (r <> r' /\ says_invited ops' u r)
  end.

(** Startup lists each room once: it is a Go map. *)
Definition startup_wf (o : top) : Prop :=
  match o with TStartup m => NoDup m.*1 | _ => True end.
