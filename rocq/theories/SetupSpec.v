(** When a user's connections know what is stored. *)
From Verif Require Import Prelude SetupModel.
Open Scope string_scope. Open Scope list_scope. Open Scope Z_scope.

(** What a connection sees. *)
Definition sees (s : st) (t : nat) (k : key) : option Z :=
  match conns s !! t with Some c => Some (val (default ∅ (caches s !! c)) k) | None => None end.
(** All notifications are handled, and no request is being set up. *)
Definition idle (s : st) : Prop := writer s = None /\ queue s = [] /\ threads s = ∅ /\ (inval s).2 = 0%nat.

(** Steps that are not the problem: [P x s] for each step [x] taken in state [s]. *)
Fixpoint always (P : step -> st -> Prop) (l : list step) (s : st) : Prop :=
  match l with
  | [] => True
  | x :: l => P x s /\ match next x s with Some s' => always P l s' | None => True end
  end.
(** No notification about something is handled while a request that has read it already has
    not stored its cache yet. *)
Definition no_lost (x : step) (s : st) : Prop :=
  x = Deliver -> forall t c n k v q, threads s !! t = Some (Reading c n) -> queue s = (k, v) :: q -> ~ (section k < n)%nat.
(** Rooms are not invalidated while a request is between having a cache and its
    connection, and registering does not fail. *)
Definition no_orphan (x : step) (s : st) : Prop :=
  match x with
  | Unregister | Delete | Close => forall t c, threads s !! t <> Some (Registering c) /\ threads s !! t <> Some (Connecting c)
  | RegisterFails _ => False
  | _ => True
  end.
(** Keys have the sections 0 to 5. *)
Definition sane (x : step) (_ : st) : Prop := match x with Write k _ => (section k <= 5)%nat | _ => True end.
