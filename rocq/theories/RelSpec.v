(** Vocabulary for space relations and invites. *)
From Verif Require Import Prelude AccumModel.
Open Scope string_scope.
Open Scope list_scope.
Open Scope Z_scope.

(** The state event [e] speaks about the relation (parent, child, kind): a space names
    its child (kind 2), or a room names its parent space (kind 1). *)
Definition about (k : string * string * Z) (e : event) : Prop :=
  r_skey (e_json e) <> None /\
  (e_type e = "m.space.child" /\ k = (e_room e, e_skey e, 2) \/
   e_type e = "m.space.parent" /\ k = (e_skey e, e_room e, 1)).
(** It says that the relation holds. *)
Definition holds (e : event) : Prop := r_via (e_json e) = true.
(** Ordering and suggestion come with child events only. *)
Definition details (e : event) : space :=
  if String.eqb (e_type e) "m.space.child" then Space (r_order (e_json e)) (r_suggested (e_json e))
  else Space "" false.
(** [e] is the last event about [k] in the order of [l]. *)
Definition last_about (l : list event) (k : string * string * Z) (e : event) : Prop :=
  exists pre post, l = pre ++ e :: post /\ about k e /\ forall x, x ∈ post -> ~ about k x.

(** A raw event about a space relation. *)
Definition space_raw (r : raw) : bool :=
  has_key r && match r_type r with
               | Some ty => String.eqb ty "m.space.child" || String.eqb ty "m.space.parent"
               | None => false end.
(** Operations which do not bring back old space events: a state block has one entry per
    type and state key, and an entry which is stored already is still the last one
    about its relation; and no redaction names a space event. *)
Definition steady_op (d : db) (o : op) : Prop :=
  match o with
  | Initialise rm st =>
      NoDup (map (fun r => (r_type r, r_skey r)) (List.filter space_raw st)) /\
      (forall r e, r ∈ st -> space_raw r = true -> e ∈ d_events d -> e_id e = r_id r ->
         e_room e = rm /\ e_json e = r /\ exists k, last_about (d_events d) k e)
  | Accumulate rm t =>
      forall r, r ∈ tl_events t -> r_type r = Some "m.room.redaction" ->
        (forall e k, e ∈ d_events d -> e_id e = r_redacts r -> ~ about k e) /\
        (forall r', r' ∈ tl_events t -> r_id r' = r_redacts r -> space_raw r' = false)
  | _ => True
  end.
Fixpoint steady (ord : list Z -> list Z) (redact : raw -> raw -> raw -> raw) (ops : list op) (d : db) : Prop :=
  match ops with
  | [] => True
  | o :: ops => steady_op d o /\ steady ord redact ops (run ord redact o d)
  end.

(** [e] is the last of [l] about the membership of [u], and it is not an invite. *)
Definition final_no (l : list event) (u : string) : Prop :=
  exists pre e post, l = pre ++ e :: post /\ e_type e = "m.room.member" /\ e_skey e = u /\
    e_member e <> "invite" /\ e_member e <> "_invite" /\
    forall x, x ∈ post -> e_type x = "m.room.member" -> e_skey x <> u.
(** The rows which were added. *)
Definition added (d d' : db) : list event := List.filter (fun e => d_seq d <? e_nid e) (d_events d').

(** [o], done at [d], brings the news that [u] is not invited to [rm]: it stores
    something, and the last entry about [u] of the state block, or of the rows added from
    the timeline, is not an invite. *)
Definition answers (ord : list Z -> list Z) (redact : raw -> raw -> raw -> raw) (d : db) (o : op) (u rm : string) : Prop :=
  added d (run ord redact o d) <> [] /\
  match o with
  | Initialise rm' st => rm' = rm /\ final_no (omap (ensure_fields rm true) st) u
  | Accumulate rm' t => rm' = rm /\ final_no (added d (run ord redact o d)) u
  | _ => False
  end.
