(** Declarative vocabulary for sticky requests. *)
From Verif Require Import Prelude RangeModel RoomNameModel ListsModel RequestModel.
Open Scope string_scope.
Open Scope list_scope.
Open Scope Z_scope.

(** What a client has said about a list since it came into being, oldest first.
    None: there is no such list. *)
Definition said_next (so_far : option (list rlist)) (now : option rlist) : option (list rlist) :=
  match so_far, now with
  | s, None => s
  | None, Some l => Some [l]
  | Some ls, Some l => if rl_deleted l then None else Some (ls ++ [l])
  end.
Definition said (key : string) (reqs : list req) : option (list rlist) :=
  foldl (fun s r => said_next s (rq_lists r !! key)) None reqs.

(** What a client has said about an extension. *)
Definition said_ext (k : ext_kind) (reqs : list req) : list ext := omap (fun r => rq_exts r k) reqs.

(** The last value that was given. *)
Definition last_given {A B} (f : A -> option B) (l : list A) : option B := last (omap f l).
(** Fields where the zero value means "not given". *)
Definition given_limit (n : Z) : option Z := if n =? 0 then None else Some n.
Definition given_since (s : string) : option string := if String.eqb s "" then None else Some s.
(** A sort order given when the list is made must not be empty. *)
Definition first_sort (l : rlist) : option (list string) :=
  match rl_sort l with Some (x :: s) => Some (x :: s) | _ => Some ["by_recency"] end.
Definition sort_given (ls : list rlist) : option (list string) :=
  match ls with
  | [] => None
  | l :: rest => last_given id (first_sort l :: map rl_sort rest)
  end.

(** The room is subscribed to by a request. *)
Definition subscribed (r : option req) (x : string) : option room_sub :=
  match r with Some r => rq_subs r !! x | None => None end.

(** A request whose subscriptions are to rooms the user has joined, which does
    not also unsubscribe from them, and which changes a subscription only
    together with its required state or timeline limit. *)
Definition plain_request (r : option req) (next : req) (joined : string -> bool) : Prop :=
  forall x s, rq_subs next !! x = Some s ->
    joined x = true /\ x ∉ rq_unsubs next /\
    forall o, subscribed r x = Some o -> state_of o = state_of s -> sub_limit o = sub_limit s -> o = s.
