(** The words used to state that a client's copy of a room follows the room. *)
From Verif Require Import Prelude RoomNameModel GlobalModel ListsModel ViewModel.
Open Scope string_scope.
Open Scope list_scope.
Open Scope Z_scope.

(** The room as the user should see it, given its metadata (without the user
    among the heroes) and the user's own data. *)
Definition look (m : room_meta) (u : user_data) : view :=
  mk_view (display_name m)
          (if String.eqb (calc_avatar m (u_dm u)) "" then None else Some (calc_avatar m (u_dm u)))
          (u_notif u) (u_high u) (u_dm u) (m_join m) (m_invite m).

(** What the server knows now. *)
Definition known me (s : state) : view := look (without me (s_meta s)) (s_user s).

(** What an update says. *)
Definition says me (up : update) : view := look (without me (up_meta up)) (up_user up).

(** What the client's copy is once the response being made has arrived. *)
Definition sees (s : state) : option view :=
  match s_resp s with Some r => Some (merge (s_client s) r) | None => s_client s end.

(** What the connection recorded last. *)
Definition recorded (s : state) : option view :=
  (fun e => look (c_meta e) (mk_user (c_dm e) (c_notif e) (c_highlight e))) <$> s_entry s.

(** Updates not processed yet, oldest first. *)
Definition pending (s : state) : list update := s_queue s ++ s_held s.

(** Apart from the unread counts the two are the same. *)
Definition same_but_counts (a b : view) : Prop :=
  v_name a = v_name b /\ v_avatar a = v_avatar b /\ v_dm a = v_dm b /\
  v_joined a = v_joined b /\ v_invited a = v_invited b.

(** A client can be told: the name is not empty, somebody is joined and the
    avatar is not the word that stands for "no avatar". *)
Definition tellable me (m : room_meta) : Prop :=
  display_name (without me m) <> "" /\ m_join m <> 0 /\
  forall dm, calc_avatar (without me m) dm <> deleted_avatar.

(** The circumstances under which C77 is proved. *)
Definition gentle me (s : state) (a : action) : Prop :=
  match a with
  | Event _ m _ => tellable me m
  | State m => tellable me m /\ s_shown s = false
  | Direct _ => s_shown s = false
  | Counts _ _ =>
      (* no event of the room is being held back *)
      s_shown s = true -> s_held s = []
  | Enter _ =>
      (* the connection is up to date with the room *)
      pending s = [] /\ recorded s = Some (known me s)
  | Take _ fresh _ =>
      forall up q, s_queue s = up :: q ->
      (* the room is loaded: this is the last update, and it is up to date *)
      (fresh = true -> q = [] /\ s_held s = [] /\ says me up = known me s /\ dropped (s_pos s) up = false) /\
      (s_shown s = true -> forall r, recorded s = Some r ->
         v_dm (says me up) = v_dm r /\
         (* a dropped event says nothing new *)
         (dropped (s_pos s) up = true -> says me up = r) /\
         (* an update which is not an event says nothing new but counts, unless the
            room is in the response already *)
         (up_event up = None -> s_resp s = None -> fresh = false -> same_but_counts (says me up) r))
  | Members =>
      s_shown s = true -> s_resp s = None ->
      forall r, recorded s = Some r -> v_notif r = 0 /\ v_high r = 0
  | Other | Release _ | Answer | Hide => True
  end.

(** Every action of the run is taken in such circumstances. *)
Fixpoint all_gentle lower me (s : state) (l : list action) : Prop :=
  match l with
  | [] => True
  | a :: l' => gentle me s a /\ all_gentle lower me (step lower me s a) l'
  end.
