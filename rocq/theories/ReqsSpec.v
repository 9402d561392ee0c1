(** What it means for requests at the same time to be served well. *)
From Verif Require Import Prelude ConnModel ReqsModel.
Open Scope string_scope. Open Scope list_scope. Open Scope Z_scope.

Section reqs.
  Context {Body Payload : Type} `{EqDecision Body}.
  Notation world := (@world Body Payload).
  Notation act := (@act Body Payload).

  (** The request is in the part of the code that only one may be in. *)
  Definition inside (w : world) (i : nat) : Prop :=
    match at_place w i with Some Locked | Some Registered | Some (Handling _ _) => True | _ => False end.
  (** It is being served and can be ended. *)
  Definition served (w : world) (i : nat) : Prop :=
    match at_place w i with Some Registered | Some (Handling _ _) => True | _ => False end.
  Definition unfinished (w : world) (i : nat) : Prop :=
    match at_place w i with Some (Done _) | Some Rejected | None => False | _ => True end.
  (** Its handler finds that it should end. *)
  Definition is_told (w : world) (i : nat) : Prop := exists r, w_reqs w !! i = Some r /\ told_to_end r = true.

  (** The requests that were served, in that order, with what the handler did. *)
  Definition history (w : world) : list (request Body * hresult Body Payload) :=
    flat_map (fun e : nat * hresult Body Payload => match w_reqs w !! e.1 with Some r => [(v_req r, e.2)] | None => [] end) (w_log w).

  (** Steps by which a request gets on, and requests that come. *)
  Definition gets_on (a : act) : bool := match a with Find _ | Gone _ | Close => false | _ => true end.
  Definition comes (a : act) : bool := match a with Find _ => true | _ => false end.
End reqs.
