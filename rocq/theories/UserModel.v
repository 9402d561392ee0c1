(** Model of what is kept for a user about rooms: [sync3/caches/user.go]. *)
From Verif Require Import Prelude RoomNameModel.
Open Scope string_scope. Open Scope list_scope. Open Scope Z_scope.

(** ** Invites *)
(** An event of invite_state and what is read in it; strings that are missing are "". *)
Record istate := mk_istate {
  s_type : string; s_key : string; s_sender : string; s_name : string; s_url : string; s_alias : string;
  s_display : string; s_avatar : string; s_roomtype : string; s_direct : bool; s_ts : Z
}.

(** user.go:79-91, InviteData; of InviteEvent only the event itself. *)
Record invite := mk_invite {
  i_state : list istate; i_heroes : list hero; i_event : option istate; i_name : string; i_avatar : string;
  i_alias : string; i_ts : Z; i_enc : bool; i_dm : bool; i_type : string
}.

(** user.go:99-137, the loop of NewInviteData. *)
Definition invite_step (user : string) (i : invite) (e : istate) : invite :=
  let ty := s_type e in
  if String.eqb ty "m.room.member" then
    if String.eqb user (s_key e) then
      mk_invite (i_state i) (i_heroes i) (Some e) (i_name i) (i_avatar i) (i_alias i) (s_ts e) (i_enc i) (s_direct e) (i_type i)
    else if String.eqb (s_key e) (s_sender e) then
      mk_invite (i_state i) (i_heroes i ++ [mk_hero (s_key e) (s_display e) (s_avatar e)]) (i_event i) (i_name i) (i_avatar i)
        (i_alias i) (i_ts i) (i_enc i) (i_dm i) (i_type i)
    else i
  else if String.eqb ty "m.room.name" then
    mk_invite (i_state i) (i_heroes i) (i_event i) (s_name e) (i_avatar i) (i_alias i) (i_ts i) (i_enc i) (i_dm i) (i_type i)
  else if String.eqb ty "m.room.avatar" then
    mk_invite (i_state i) (i_heroes i) (i_event i) (i_name i) (s_url e) (i_alias i) (i_ts i) (i_enc i) (i_dm i) (i_type i)
  else if String.eqb ty "m.room.canonical_alias" then
    mk_invite (i_state i) (i_heroes i) (i_event i) (i_name i) (i_avatar i) (s_alias e) (i_ts i) (i_enc i) (i_dm i) (i_type i)
  else if String.eqb ty "m.room.encryption" then
    mk_invite (i_state i) (i_heroes i) (i_event i) (i_name i) (i_avatar i) (i_alias i) (i_ts i) true (i_dm i) (i_type i)
  else if String.eqb ty "m.room.create" then
    mk_invite (i_state i) (i_heroes i) (i_event i) (i_name i) (i_avatar i) (i_alias i) (i_ts i) (i_enc i) (i_dm i) (s_roomtype e)
  else i.

(** user.go:93-152, NewInviteData; None is nil. *)
Definition new_invite (user : string) (state : list istate) : option invite :=
  let i := fold_left (invite_step user) state (mk_invite state [] None "" "" "" 0 false false "") in
  match i_event i with None => None | Some _ => Some i end.

(** user.go:154-170, RoomMetadata. *)
Definition invite_meta (room : string) (i : invite) : room_meta :=
  mk_meta room (i_heroes i) (i_name i) (i_avatar i) (i_alias i) 1 1 (i_ts i) ∅ (i_enc i) None None
    (if String.eqb (i_type i) "" then None else Some (i_type i)) ∅.

(** ** The cache *)
(** user.go:41-68, UserRoomData. Spaces is a Go map, which copies of the struct share: the
    field has its address. CanonicalisedName and ResolvedAvatarURL are not set here. *)
Record urd := mk_urd {
  u_dm : bool; u_invite : bool; u_left : bool; u_notif : Z; u_high : Z; u_inv : option invite;
  u_spaces : nat; u_tags : gmap string string; u_timing : Z * Z
}.

(** An event as EventData, with what is read in the content: membership and whether via is
    an array. *)
Record uevent := mk_uevent {
  e_room : string; e_type : string; e_key : option string; e_membership : string; e_via : bool; e_sender : string
}.

(** A row of account data: the room, "" if it is global, the type and what is read in the
    content: for m.direct the room IDs, for m.tag the tags with their orders, for
    m.ignored_user_list the users, None if ignored_users is not an object. *)
Record adata := mk_adata {
  d_room : string; d_type : string; d_direct : list string; d_tags : list (string * string); d_ignored : option (list string)
}.

(** Where the global metadata in an update comes from. *)
Inductive source := FromGlobal | FromInvite (m : room_meta) | FromNothing.
Inductive kind :=
  | KUnread (decreased : bool) | KEvent (e : uevent) | KInvite | KLeave (e : uevent) (always : bool)
  | KData (l : list adata) | KTyping | KReceipt (r : string).
(** sync3/caches/update.go. *)
Inductive update :=
  | RoomUp (room : string) (u : urd) (src : source) (k : kind)
  | GlobalUp (l : list adata).

(** user.go:191-206, UserCache, with the memory of the Spaces maps and the updates that its
    listeners were given. *)
Record ucache := mk_ucache {
  c_rooms : gmap string urd; c_heap : gmap nat (gset string); c_next : nat; c_ignored : gset string; c_out : list update
}.
Definition ucache0 : ucache := mk_ucache ∅ ∅ 0 ∅ [].

Definition alloc (c : ucache) : ucache * nat :=
  (mk_ucache (c_rooms c) (<[c_next c := ∅]> (c_heap c)) (S (c_next c)) (c_ignored c) (c_out c), c_next c).
(** user.go:70-75, NewUserRoomData. *)
Definition new_urd (c : ucache) : ucache * urd :=
  let (c, a) := alloc c in (c, mk_urd false false false 0 0 None a ∅ (0, 0)).
(** user.go:349-357, LoadRoomData. *)
Definition load_urd (c : ucache) (room : string) : ucache * urd :=
  match c_rooms c !! room with Some u => (c, u) | None => new_urd c end.
Definition put_urd (c : ucache) (room : string) (u : urd) : ucache :=
  mk_ucache (<[room := u]> (c_rooms c)) (c_heap c) (c_next c) (c_ignored c) (c_out c).
Definition emit (c : ucache) (u : update) : ucache :=
  mk_ucache (c_rooms c) (c_heap c) (c_next c) (c_ignored c) (c_out c ++ [u]).
(** user.go:396-415, newRoomUpdate, and emitOnRoomUpdate, 519-529. *)
Definition emit_room (c : ucache) (room : string) (k : kind) : ucache :=
  let (c, u) := load_urd c room in emit c (RoomUp room u FromGlobal k).

Definition with_counts (u : urd) (high notif : Z) : urd :=
  mk_urd (u_dm u) (u_invite u) (u_left u) notif high (u_inv u) (u_spaces u) (u_tags u) (u_timing u).
Definition with_dm (b : bool) (u : urd) : urd :=
  mk_urd b (u_invite u) (u_left u) (u_notif u) (u_high u) (u_inv u) (u_spaces u) (u_tags u) (u_timing u).
Definition with_tags (u : urd) (t : gmap string string) : urd :=
  mk_urd (u_dm u) (u_invite u) (u_left u) (u_notif u) (u_high u) (u_inv u) (u_spaces u) t (u_timing u).
Definition with_timing (u : urd) (t : Z * Z) : urd :=
  mk_urd (u_dm u) (u_invite u) (u_left u) (u_notif u) (u_high u) (u_inv u) (u_spaces u) (u_tags u) t.

(** user.go:543-570, OnUnreadCounts. *)
Definition on_unread (c : ucache) (room : string) (high notif : option Z) : ucache :=
  let (c, u) := load_urd c room in
  let dec := match high with Some h => h <? u_high u | None => false end in
  let u1 := with_counts u (default (u_high u) high) (u_notif u) in
  let dec := match notif with Some n => if dec then dec else n <? u_notif u1 | None => dec end in
  let u2 := with_counts u1 (u_high u1) (default (u_notif u1) notif) in
  emit_room (put_urd c room u2) room (KUnread dec).

(** user.go:572-594, OnSpaceUpdate; [joined] is joinChecker.IsUserJoined of the child. *)
Definition on_space (c : ucache) (parent child : string) (deleted : bool) (e : uevent) (joined : bool) : ucache :=
  let (c, u) := load_urd c child in
  let old := default ∅ (c_heap c !! u_spaces u) in
  let new := if deleted then old ∖ {[ parent ]} else {[ parent ]} ∪ old in
  let c := mk_ucache (c_rooms c) (<[u_spaces u := new]> (c_heap c)) (c_next c) (c_ignored c) (c_out c) in
  let c := put_urd c child u in
  if joined then emit_room c child (KEvent e) else c.

(** user.go:596-624, OnNewEvent. *)
Definition on_event (user : string) (c : ucache) (e : uevent) (child_joined : bool) : ucache :=
  let (c, u) := load_urd c (e_room e) in
  let own := match e_key e with Some k => String.eqb k user | None => false end in
  let u :=
    if u_invite u && String.eqb (e_type e) "m.room.member" && own then
      if String.eqb (e_membership e) "invite" then u
      else mk_urd (u_dm u) false (u_left u) (u_notif u) 0 (u_inv u) (u_spaces u) (u_tags u) (u_timing u)
    else u in
  let c :=
    match e_key e with
    | Some child => if String.eqb (e_type e) "m.space.child" then on_space c (e_room e) child (negb (e_via e)) e child_joined else c
    | None => c
    end in
  emit_room (put_urd c (e_room e) u) (e_room e) (KEvent e).

(** user.go:626-648, OnInvite. *)
Definition on_invite (user : string) (c : ucache) (room : string) (state : list istate) : ucache :=
  match new_invite user state with
  | None => c
  | Some i =>
      let (c, u) := load_urd c room in
      let u := mk_urd (i_dm i) true false (u_notif u) 1 (Some i) (u_spaces u) (u_tags u) (u_timing u) in
      emit (put_urd c room u) (RoomUp room u (FromInvite (invite_meta room i)) KInvite)
  end.

(** user.go:650-697, OnLeftRoom. *)
Definition on_left (c : ucache) (room : string) (e : uevent) : ucache :=
  let (c, u) := load_urd c room in
  let was := u_invite u in
  let u := mk_urd (u_dm u) false true (u_notif u) 0 None (u_spaces u) (u_tags u) (u_timing u) in
  let kick := String.eqb (e_type e) "m.room.member" && String.eqb (e_membership e) "leave" && negb (String.eqb (default "" (e_key e)) (e_sender e)) in
  emit (put_urd c room u) (RoomUp room u FromNothing (KLeave e (was || kick))).

(** user.go:708-735: m.direct. The order in which new rooms are added only matters for the
    addresses. *)
Definition add_dm (c : ucache) (room : string) : ucache :=
  let (c, u) := new_urd c in put_urd c room (with_dm true u).
Definition on_direct (c : ucache) (rooms : list string) : ucache :=
  let new := List.filter (fun r => match c_rooms c !! r with Some _ => false | None => true end) (remove_dups rooms) in
  let c := mk_ucache (map_imap (fun r u => Some (with_dm (bool_decide (r ∈ rooms)) u)) (c_rooms c))
             (c_heap c) (c_next c) (c_ignored c) (c_out c) in
  fold_left add_dm new c.

(** user.go:704-756, the loop: the cache and tagUpdates. *)
Definition add_tag (m : gmap string string) (t : string * string) : gmap string string := <[t.1 := t.2]> m.
Definition data_step (s : ucache * gmap string (gmap string string)) (d : adata) : ucache * gmap string (gmap string string) :=
  let (c, tags) := s in
  if String.eqb (d_type d) "m.direct" then (on_direct c (d_direct d), tags)
  else if String.eqb (d_type d) "m.tag" then
    (c, <[d_room d := fold_left add_tag (d_tags d) (default ∅ (tags !! d_room d))]> tags)
  else if String.eqb (d_type d) "m.ignored_user_list" then
    if negb (String.eqb (d_room d) "") then s
    else match d_ignored d with
         | None => s
         | Some l => (mk_ucache (c_rooms c) (c_heap c) (c_next c) (list_to_set l) (c_out c), tags)
         end
  else s.
(** user.go:757-770. *)
Definition put_tags (c : ucache) (kv : string * gmap string string) : ucache :=
  let (c, u) := load_urd c kv.1 in put_urd c kv.1 (with_tags u kv.2).
(** user.go:771-786; [order] is the order in which Go gives the rooms of the map. *)
Definition emit_data (l : list adata) (c : ucache) (room : string) : ucache :=
  let mine := List.filter (fun d => String.eqb (d_room d) room) l in
  if String.eqb room "" then emit c (GlobalUp mine) else emit_room c room (KData mine).
(** user.go:699-788, OnAccountData. *)
Definition on_account (c : ucache) (l : list adata) (order : list string) : ucache :=
  let (c, tags) := fold_left data_step l (c, ∅) in
  let c := fold_left put_tags (map_to_list tags) c in
  fold_left (emit_data l) order c.

(** user.go:238-318, OnRegistered: the rooms that LoadJoinedRooms finds, their children if
    they are spaces, each with whether the user is joined to it, and when the user joined. *)
Record jroom := mk_jroom { j_room : string; j_children : list (string * bool); j_timing : Z * Z }.
Definition on_registered1 (c : ucache) (j : jroom) : ucache :=
  let c := fold_left (fun c ch => on_space c (j_room j) ch.1 false (mk_uevent (j_room j) "m.space.child" (Some ch.1) "" false "") ch.2)
             (j_children j) c in
  let (c, u) := load_urd c (j_room j) in put_urd c (j_room j) (with_timing u (j_timing j)).
Definition on_registered (c : ucache) (l : list jroom) : ucache := fold_left on_registered1 l c.

(** user.go:499-517, OnEphemeralEvent and OnReceipt. *)
Inductive ucall :=
  | CUnread (room : string) (high notif : option Z)
  | CAccount (l : list adata) (order : list string)
  | CEvent (e : uevent) (child_joined : bool)
  | CInvite (room : string) (state : list istate)
  | CLeft (room : string) (e : uevent)
  | CRegistered (l : list jroom)
  | CTyping (room : string)
  | CReceipt (room : string) (r : string).
Definition ucall1 (user : string) (c : ucache) (x : ucall) : ucache :=
  match x with
  | CUnread room h n => on_unread c room h n
  | CAccount l order => on_account c l order
  | CEvent e j => on_event user c e j
  | CInvite room s => on_invite user c room s
  | CLeft room e => on_left c room e
  | CRegistered l => on_registered c l
  | CTyping room => emit_room c room KTyping
  | CReceipt room r => emit_room c room (KReceipt r)
  end.
Definition ucalls (user : string) (c : ucache) (l : list ucall) : ucache := fold_left (ucall1 user) l c.

(** ** Reading it *)
(** user.go:349-374, LoadRoomData and LoadRooms, as a value. *)
Definition get (c : ucache) (room : string) : urd := default (load_urd c room).2 (c_rooms c !! room).
Definition spaces (c : ucache) (room : string) : gset string :=
  match c_rooms c !! room with Some u => default ∅ (c_heap c !! u_spaces u) | None => ∅ end.
(** user.go:417-429, Invites. *)
Definition invites (c : ucache) : gmap string urd :=
  filter (fun kv : string * urd => u_invite kv.2 = true /\ u_inv kv.2 <> None) (c_rooms c).
(** user.go:790-795, ShouldIgnore. *)
Definition should_ignore (c : ucache) (user : string) : bool := bool_decide (user ∈ c_ignored c).
