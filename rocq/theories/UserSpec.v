(** What is known about a user's rooms, as the latest thing the server was told. *)
From Verif Require Import Prelude RoomNameModel UserModel.
Open Scope string_scope. Open Scope list_scope. Open Scope Z_scope.

(** The things that calls say. *)
Inductive fact :=
  | Notif (room : string) (n : Z)                  (* the notification count *)
  | High (room : string) (n : Z)                   (* the highlight count *)
  | Direct (rooms : list string)                   (* m.direct lists these rooms *)
  | Tagged (room : string) (tags : list (string * string))
  | Ignored (users : list string)
  | Invited (room : string) (i : invite)           (* a well formed invite *)
  | Left (room : string)                           (* the room was in the leave section *)
  | Own (room : string) (membership : string)      (* the user's own member event *)
  | Child (parent child : string) (is_child : bool)
  | Joined (room : string) (at_ : Z * Z).           (* found when the cache was registered *)

Definition data_facts (d : adata) : list fact :=
  if String.eqb (d_type d) "m.direct" then [Direct (d_direct d)]
  else if String.eqb (d_type d) "m.tag" then [Tagged (d_room d) (d_tags d)]
  else if String.eqb (d_type d) "m.ignored_user_list" && String.eqb (d_room d) "" then
    match d_ignored d with Some l => [Ignored l] | None => [] end
  else [].
Definition opt_fact {A} (f : A -> fact) (x : option A) : list fact := match x with Some a => [f a] | None => [] end.
Definition facts1 (user : string) (c : ucall) : list fact :=
  match c with
  | CUnread room h n => opt_fact (High room) h ++ opt_fact (Notif room) n
  | CAccount l _ => flat_map data_facts l
  | CEvent e _ =>
      match e_key e with
      | Some k =>
          if String.eqb (e_type e) "m.room.member" && String.eqb k user then [Own (e_room e) (e_membership e)]
          else if String.eqb (e_type e) "m.space.child" then [Child (e_room e) k (e_via e)]
          else []
      | None => []
      end
  | CInvite room s => opt_fact (Invited room) (new_invite user s)
  | CLeft room _ => [Left room]
  | CRegistered l => flat_map (fun j => map (fun ch : string * bool => Child (j_room j) ch.1 true) (j_children j) ++ [Joined (j_room j) (j_timing j)]) l
  | CTyping _ | CReceipt _ _ => []
  end.
Definition facts (user : string) (l : list ucall) : list fact := flat_map (facts1 user) l.

(** The value which the latest fact gives, for facts that may depend on what was said
    before them: [sets before f] is the value that [f] gives. *)
Definition as_latest {A} (sets : list fact -> fact -> option A) (l : list fact) (first v : A) : Prop :=
  (forall l1 f l2 x, l = l1 ++ f :: l2 -> sets l1 f = Some x ->
     (forall m1 g m2, l2 = m1 ++ g :: m2 -> sets (l1 ++ f :: m1) g = None) -> v = x)
  /\ ((forall l1 f l2, l = l1 ++ f :: l2 -> sets l1 f = None) -> v = first).

Definition sets_notif (room : string) (_ : list fact) (f : fact) : option Z :=
  match f with Notif r n => if String.eqb r room then Some n else None | _ => None end.
(** An invite is pending: the latest of invite, leaving and a member event other than an
    invite is an invite. *)
Definition sets_pending (room : string) (_ : list fact) (f : fact) : option bool :=
  match f with
  | Invited r _ => if String.eqb r room then Some true else None
  | Left r => if String.eqb r room then Some false else None
  | Own r m => if String.eqb r room && negb (String.eqb m "invite") then Some false else None
  | _ => None
  end.
Definition pending (room : string) (l : list fact) : Prop := as_latest (sets_pending room) l false true.
(** The highlight count: the one given, one for an invite, none when the invite is
    answered or the room is left. *)
Definition sets_high (is_pending : list fact -> bool) (room : string) (before : list fact) (f : fact) : option Z :=
  match f with
  | High r n => if String.eqb r room then Some n else None
  | Invited r _ => if String.eqb r room then Some 1 else None
  | Left r => if String.eqb r room then Some 0 else None
  | Own r m => if String.eqb r room && negb (String.eqb m "invite") && is_pending before then Some 0 else None
  | _ => None
  end.
Definition sets_dm (room : string) (_ : list fact) (f : fact) : option bool :=
  match f with
  | Direct l => Some (bool_decide (room ∈ l))
  | Invited r i => if String.eqb r room then Some (i_dm i) else None
  | _ => None
  end.
Definition tags_of (l : list (string * string)) : gmap string string := fold_left (fun m t => <[t.1 := t.2]> m) l ∅.
Definition sets_tags (room : string) (_ : list fact) (f : fact) : option (gmap string string) :=
  match f with Tagged r l => if String.eqb r room then Some (tags_of l) else None | _ => None end.
Definition sets_ignored (_ : list fact) (f : fact) : option (gset string) :=
  match f with Ignored l => Some (list_to_set l) | _ => None end.
Definition sets_left (room : string) (_ : list fact) (f : fact) : option bool :=
  match f with
  | Invited r _ => if String.eqb r room then Some false else None
  | Left r => if String.eqb r room then Some true else None
  | _ => None
  end.
(** The user is out of the room: left it, and did not come back. *)
Definition sets_out (room : string) (_ : list fact) (f : fact) : option bool :=
  match f with
  | Left r => if String.eqb r room then Some true else None
  | Invited r _ => if String.eqb r room then Some false else None
  | Own r m => if String.eqb r room && String.eqb m "join" then Some false else None
  | _ => None
  end.
Definition sets_child (parent child : string) (_ : list fact) (f : fact) : option bool :=
  match f with
  | Child p c b => if String.eqb p parent && String.eqb c child then Some b else None
  | _ => None
  end.
Definition sets_timing (room : string) (_ : list fact) (f : fact) : option (Z * Z) :=
  match f with Joined r t => if String.eqb r room then Some t else None | _ => None end.

(** The rows of one call of OnAccountData are rows of a table with the primary key (user,
    room, type). *)
Definition rows_ok (l : list ucall) : Prop :=
  forall d order, In (CAccount d order) l -> List.NoDup (map (fun x => (d_room x, d_type x)) d).
(** No room is its own child. *)
Definition no_own_child (user : string) (l : list ucall) : Prop := forall p c b, In (Child p c b) (facts user l) -> p <> c.

(** ** What the listeners are told *)
(** The room of an update, "" if it is global, and what it says. *)
Definition told1 (u : update) : string * kind :=
  match u with RoomUp room _ _ k => (room, k) | GlobalUp l => ("", KData l) end.
(** A count that is given is lower than the one known. *)
Definition lower (now : Z) (given : option Z) : bool := match given with Some n => n <? now | None => false end.
(** The member event removes the user: somebody else made it. *)
Definition removed (e : uevent) : bool :=
  String.eqb (e_type e) "m.room.member" && String.eqb (e_membership e) "leave"
  && match e_key e with Some k => negb (String.eqb k (e_sender e)) | None => negb (String.eqb "" (e_sender e)) end.
(** What a call tells, with what is known before it. *)
Definition tells (user : string) (c : ucache) (x : ucall) : list (string * kind) :=
  match x with
  | CUnread room h n => [(room, KUnread (lower (u_high (get c room)) h || lower (u_notif (get c room)) n))]
  | CAccount l order => map (fun room => (room, KData (List.filter (fun d => String.eqb (d_room d) room) l))) order
  | CEvent e j =>
      match e_key e with
      | Some child => if String.eqb (e_type e) "m.space.child" && j then [(child, KEvent e)] else []
      | None => []
      end ++ [(e_room e, KEvent e)]
  | CInvite room s => match new_invite user s with Some _ => [(room, KInvite)] | None => [] end
  | CLeft room e => [(room, KLeave e (u_invite (get c room) || removed e))]
  | CRegistered l =>
      flat_map (fun j => flat_map (fun ch : string * bool =>
        if ch.2 then [(ch.1, KEvent (mk_uevent (j_room j) "m.space.child" (Some ch.1) "" false ""))] else []) (j_children j)) l
  | CTyping room => [(room, KTyping)]
  | CReceipt room r => [(room, KReceipt r)]
  end.
(** What is known about a room, without its spaces. *)
Definition known (c : ucache) (room : string) :=
  let u := get c room in (u_dm u, u_invite u, u_left u, u_notif u, u_high u, u_inv u, u_tags u).
Definition in_update (u : urd) := (u_dm u, u_invite u, u_left u, u_notif u, u_high u, u_inv u, u_tags u).

(** ** What an invite says *)
Definition last_where (p : istate -> bool) (l : list istate) : option istate := List.find p (rev l).
Definition of_type (ty : string) (e : istate) : bool := String.eqb (s_type e) ty.
Definition mine (user : string) (e : istate) : bool := of_type "m.room.member" e && String.eqb (s_key e) user.
(** A member event of somebody else, made by themself. *)
Definition other (user : string) (e : istate) : bool :=
  of_type "m.room.member" e && negb (String.eqb (s_key e) user) && String.eqb (s_key e) (s_sender e).
Definition said {A} (f : istate -> A) (first : A) (e : option istate) : A := match e with Some e => f e | None => first end.

(** The metadata with which an invited user's room is shown: what the invite itself says, one
    member who has joined and one who is invited, and nothing of the room's history. *)
Definition of_the_invite (room : string) (i : invite) (m : room_meta) : Prop :=
  m_room m = room /\ m_heroes m = i_heroes i /\ m_name m = i_name i /\ m_avatar m = i_avatar i /\ m_alias m = i_alias i /\
  m_join m = 1 /\ m_invite m = 1 /\ m_last_ts m = i_ts i /\ m_latest m = ∅ /\ m_encrypted m = i_enc i /\
  m_predecessor m = None /\ m_upgraded m = None /\ m_type m = (if decide (i_type i = "") then None else Some (i_type i)) /\ m_children m = ∅.
