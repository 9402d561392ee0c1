(** Specification of the scope of extensions. *)
From Verif Require Import Prelude RangeModel RangeSpec RequestModel ExtModel.
Open Scope string_scope. Open Scope list_scope. Open Scope Z_scope.

(** The rooms parameter names a room: it starts with the star and the room is
    subscribed to, or it does not and lists the room. *)
Definition names (param all : list string) (x : string) : Prop :=
  if bool_decide (head param = Some "*") then In x all else In x param.
(** The scope of an extension. *)
Definition in_scope (e : ext) (c : ectx) (room : string) : Prop :=
  names (default [] (e_rooms e)) (x_subs c) room
  \/ exists l, In l (default [] (x_lists c !! room)) /\ names (default [] (e_lists e)) (x_all_lists c) l.

(** A room is visible in a list: all rooms were requested, or one of the list's
    windows covers the room's position. *)
Definition visible_in (l : vlist) (room : string) : Prop :=
  if v_all l then In room (v_rooms l)
  else exists i, v_rooms l !! Z.to_nat i = Some room /\ 0 <= i /\ covers (v_ranges l) i.

(** What the data of a room in the table is. *)
Definition data_of (rows : list adata) (room : string) : list string :=
  map snd (List.filter (fun d => bool_decide (d.1 = room)) rows).

(** The rooms a response reports on. *)
Definition reports_data (r : eresp) (room : string) : Prop :=
  exists a d, r_acct r = Some a /\ a_rooms a !! room = Some d.
Definition reports_typing (r : eresp) (room : string) : Prop :=
  exists m ev, r_typing r = Some m /\ m !! room = Some ev.

(** An extension that the client asked for and enabled. *)
Definition asked (r : exts) (k : ext_kind) (e : ext) : Prop := r k = Some e /\ e_enabled e = Some true.

(** What an update says about typing in a room: a typing update says it always, other
    updates of the room only if the room is part of the response. *)
Definition typing_news (c : ectx) (u : update) (room : string) : option string :=
  match u with
  | UTyping r t => if bool_decide (r = room) then t else None
  | URoom r t | URoomData r t _ => if bool_decide (r = room /\ is_Some (x_timeline c !! room)) then t else None
  | _ => None
  end.
(** What an update adds to a room's account data: its own data, or what is stored
    when the room comes into the response for the first time. *)
Definition data_news (c : ectx) (rows : option (list adata)) (loaded : Prop) (u : update) (room : string) (d : list string) : Prop :=
  match u with
  | URoomData r _ d' => r = room /\ d = d'
  | UTyping r _ | URoom r _ =>
      r = room /\ is_Some (x_timeline c !! room) /\ ~ loaded /\ exists l, rows = Some l /\ d = data_of l room /\ d <> []
  | _ => False
  end.

Definition typing_of (r : eresp) (room : string) : option string := m ← r_typing r; m !! room.
Definition room_data_of (r : eresp) (room : string) : option (list string) := a ← r_acct r; a_rooms a !! room.
Definition loaded_in (r : eresp) (room : string) : Prop := exists a, r_acct r = Some a /\ In room (a_loaded a).
