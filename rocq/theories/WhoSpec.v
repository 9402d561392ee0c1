(** Vocabulary for C97. *)
From Verif Require Import Prelude RoomNameModel GlobalModel ListsModel RequestModel SubModel ViewModel ViewSpec WhoModel.
Open Scope string_scope.
Open Scope list_scope.
Open Scope Z_scope.

(** The room has no name of its own and somebody else is, or was, in it: clients name it after
    its heroes. *)
Definition named_after (m : room_meta) : Prop :=
  m_name m = "" /\ m_alias m = "" /\ (m_heroes m <> [] \/ 1 < m_join m + m_invite m).

(** The heroes as the user should see them: without the user. *)
Definition heroes_for (me : string) (m : room_meta) : list hero := m_heroes (without me m).

(** What the client knows of the heroes once the response being made has arrived. *)
Definition sees_heroes (w : wstate) : list hero :=
  match s_resp (w_room w) with Some r => merge_heroes r (w_resp w) (w_client w) | None => w_client w end.

(** The client asks for heroes, by the subscription or by a list the room is visible in. *)
Definition wants (w : wstate) : Prop :=
  (exists s, w_sub w = Some s /\ sub_heroes s = Some true) \/ exists l, l ∈ w_lists w /\ sub_heroes l = Some true.

(** The metadata the connection recorded last. *)
Definition recorded_meta (w : wstate) : option room_meta := c_meta <$> s_entry (w_room w).

(** Heroes that have the same IDs and names. *)
Definition same_people (a b : list hero) : Prop := map (fun h => (h_id h, h_name h)) a = map (fun h => (h_id h, h_name h)) b.

(** Nothing a name depends on is different, nor are the heroes' pictures. *)
Definition as_before (m m' : room_meta) : Prop :=
  m_name m = m_name m' /\ m_alias m = m_alias m' /\ m_join m = m_join m' /\ m_invite m = m_invite m' /\
  m_heroes m = m_heroes m'.

(** There is somebody to tell of. *)
Definition somebody (me : string) (m : room_meta) : Prop := named_after (without me m) -> heroes_for me m <> [].

(** The circumstances under which C97 is proved. While the room is in view: *)
Definition calm (me : string) (w : wstate) (x : waction) : Prop :=
  let s := w_room w in
  match x with
  | Asks sub lists => s_shown s = true -> wants (mk_w s sub lists (w_resp w) (w_client w))
  | Do a added =>
      match a with
      | State m => s_shown s = false
      | Enter _ =>
          (* one subscription brings it into view, which asks for heroes as the request does, and
             the connection is up to date *)
          added.2 = [] /\ sub_heroes added.1 = Some true /\ wants w /\ pending s = [] /\
          (forall m, recorded_meta w = Some m -> as_before m (without me (s_meta s)))
      | Take _ fresh _ =>
          forall up q, s_queue s = up :: q -> somebody me (up_meta up) /\
          (fresh = true -> added.2 = [] /\ sub_heroes added.1 = Some true /\ wants w /\ q = [] /\ s_held s = [] /\
             dropped (s_pos s) up = false /\ up_meta up = s_meta s) /\
          (s_shown s = true -> forall m, recorded_meta w = Some m ->
             (* nobody changes just their picture *)
             (same_people (m_heroes m) (heroes_for me (up_meta up)) -> m_heroes m = heroes_for me (up_meta up)) /\
             (* what is dropped, or comes with something that is no event, is nothing new *)
             (dropped (s_pos s) up = true \/ (up_event up = None /\ s_resp s = None /\ fresh = false) ->
                as_before m (without me (up_meta up))))
      | _ => True
      end
  end.

Fixpoint all_calm lower (me : string) (w : wstate) (l : list waction) : Prop :=
  match l with
  | [] => True
  | x :: l' => calm me w x /\ all_calm lower me (wstep lower me w x) l'
  end.
