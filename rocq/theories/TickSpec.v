(** Specification of internal notifications. *)
From Verif Require Import Prelude TickModel.
Open Scope string_scope. Open Scope list_scope. Open Scope nat_scope.

(** Runs of a machine: [None] if some step was not possible. *)
Fixpoint ticks (s : ticker) (l : list tick_step) : option ticker :=
  match l with
  | [] => Some s
  | st :: r => match tick s st with Some s' => ticks s' r | None => None end
  end.
Fixpoint pubs (c : chan) (l : list pub_step) : option chan :=
  match l with
  | [] => Some c
  | st :: r => match pub c st with Some c' => pubs c' r | None => None end
  end.

(** A notification names a device. *)
Definition names (p : gmap string (list string)) (x : pid) : Prop :=
  x.2 ∈ default [] (p !! x.1).

(** Payloads of callers, without the internal ones. *)
Definition real (l : list pl) : list pl :=
  List.filter (fun p => match p with P _ => true | Empty => false end) l.

(** The calls that were made, each with its own number, and their payloads. *)
Definition calls (l : list pub_step) : list nat := omap (fun st => match st with Notify j _ => Some j | _ => None end) l.
Definition notified (l : list pub_step) : list pl := omap (fun st => match st with Notify _ n => Some (P n) | _ => None end) l.
