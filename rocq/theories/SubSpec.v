(** Declarative vocabulary for required state and combined subscriptions. *)
From Verif Require Import Prelude RequestModel SubModel.
Open Scope string_scope.
Open Scope list_scope.
Open Scope Z_scope.

(** $ME stands for the user. *)
Definition key_of (user k : string) : string := if String.eqb k "$ME" then user else k.
(** An entry matches an event. *)
Definition matches (user : string) (t : tuple) (ty sk : string) : Prop :=
  (t.1 = "*" \/ t.1 = ty) /\ (t.2 = "*" \/ key_of user t.2 = sk).
(** An entry for events of this very type and one state key. *)
Definition names_key (user : string) (req : list tuple) (ty sk : string) : Prop :=
  exists k, (ty, k) ∈ req /\ ty <> "*" /\ k <> "*" /\ key_of user k = sk.
(** A request for all state, ["*","*"], is narrowed by entries which name state
    keys of a type; otherwise an event is wanted if an entry matches. *)
Definition wanted (user : string) (req : list tuple) (ty sk : string) : Prop :=
  if bool_decide (("*", "*") ∈ req) then
    (exists k, names_key user req ty k) -> names_key user req ty sk
  else exists t, t ∈ req /\ matches user t ty sk.
(** Lazy loading of members is requested. *)
Definition wants_lazy (req : list tuple) : Prop := ("m.room.member", "$LAZY") ∈ req.

(** All slices use their whole array. *)
Definition no_spare (h : heap) (s : option slice) : Prop :=
  match s with
  | Some s => exists arr, h !! sl_arr s = Some arr /\ length arr = sl_len s
  | None => True
  end.
Definition no_spare_sub (h : heap) (s : hsub) : Prop :=
  no_spare h (h_state s) /\ match h_old s with Some o => no_spare h (o_state o) | None => True end.

(** The room was added to the subscription. *)
Definition asked (b : builder) (x : string) (id : nat) : Prop :=
  exists rooms, b_rooms b !! id = Some rooms /\ x ∈ rooms.

(** The same, said of the calls: the subscriptions in order and who asked for what. *)
Definition subs_of (ops : list bop) : list hsub :=
  omap (fun o => match o with AddSub s => Some s | AddRooms _ _ => None end) ops.
Definition requested (ops : list bop) (x : string) (id : nat) : Prop :=
  exists rooms, AddRooms id rooms ∈ ops /\ x ∈ rooms.
(** Rooms are only added to IDs which were given out. *)
Definition ids_known (ops : list bop) : Prop :=
  forall id rooms, AddRooms id rooms ∈ ops -> (id < length (subs_of ops))%nat.
