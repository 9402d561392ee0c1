(** Model of sorted, filtered room lists: [sync3/sort.go], [sync3/lists.go],
    [sync3/room.go] and the filters in [sync3/request.go]. *)
From Verif Require Import Prelude RoomNameModel.
Open Scope string_scope.
Open Scope list_scope.
Open Scope Z_scope.

(** sync3/room.go:31-57 with sync3/caches/user.go:41-68. Dropped:
    ResolvedAvatarURL (written, never read), Invite and JoinTiming (not used by
    lists), the order of tags (only membership is used). *)
Record conn_room := mk_conn_room {
  c_meta : room_meta;
  c_dm : bool;
  c_invite : bool;
  c_left : bool;                 (* HasLeft *)
  c_notif : Z;
  c_highlight : Z;
  c_canon : string;              (* CanonicalisedName *)
  c_spaces : gset string;
  c_tags : gset string;
  c_ts : gmap string Z           (* LastInterestedEventTimestamps, by list *)
}.

(** sync3/request.go:488-501. A nil and an empty slice behave the same. *)
Record filters := mk_filters {
  f_spaces : list string;
  f_dm : option bool;
  f_encrypted : option bool;
  f_invite : option bool;
  f_tombstoned : option bool;
  f_types : list (option string);
  f_not_types : list (option string);
  f_name : string;
  f_tags : list string;
  f_not_tags : list string
}.

(** &RequestFilters{}, sync3/sort.go:225-227. *)
Definition no_filters : filters := mk_filters [] None None None None [] [] "" [] [].

(** The room name with at most five names. CalculateRoomName does not panic for
    this limit and does not depend on the order of map iteration (C45). *)
Definition display_name (m : room_meta) : string :=
  match room_name id m 5 with Some (s, _) => s | None => "" end.

(** Go's strings.Contains. *)
Fixpoint is_prefix (p s : string) : bool :=
  match p, s with
  | EmptyString, _ => true
  | String a p', String b s' => Ascii.eqb a b && is_prefix p' s'
  | _, _ => false
  end.
Fixpoint contains (s sub : string) : bool :=
  is_prefix sub s || match s with EmptyString => false | String _ s' => contains s' sub end.

(** sync3/request.go:679-696, nullableStringExists. *)
Definition nullable_exists (arr : list (option string)) (input : option string) : bool :=
  existsb (fun a => match input, a with
                    | None, None => true
                    | Some x, Some y => String.eqb y x
                    | _, _ => false
                    end) arr.

(** A set boolean field that disagrees: [rf.X != nil && *rf.X != v]. *)
Definition bool_differs (f : option bool) (v : bool) : bool :=
  match f with Some b => negb (Bool.eqb b v) | None => false end.

Section lower.
(** Go's strings.ToLower, left open. *)
Context (lower : string -> string).

(** sync3/request.go:503-566, Include. *)
Definition include (f : filters) (r : conn_room) (find : string -> option conn_room) : bool :=
  let replaced :=
    match m_upgraded (c_meta r) with
    | Some next => match find next with
                   | Some n => negb (c_left n) && negb (c_invite n)
                   | None => false
                   end
    | None => false
    end in
  if replaced then false
  else if bool_differs (f_encrypted f) (m_encrypted (c_meta r)) then false
  else if bool_differs (f_tombstoned f) (match m_upgraded (c_meta r) with Some _ => true | None => false end) then false
  else if bool_differs (f_dm f) (c_dm r) then false
  else if bool_differs (f_invite f) (c_invite r) then false
  else if negb (String.eqb (f_name f) "") && negb (contains (lower (display_name (c_meta r))) (lower (f_name f))) then false
  else if existsb (fun t => bool_decide (t ∈ c_tags r)) (f_not_tags f) then false
  else if negb (length (f_tags f) =? 0)%nat && negb (existsb (fun t => bool_decide (t ∈ c_tags r)) (f_tags f)) then false
  else if nullable_exists (f_not_types f) (m_type (c_meta r)) then false
  else if negb (length (f_types f) =? 0)%nat then nullable_exists (f_types f) (m_type (c_meta r))
  else if negb (length (f_spaces f) =? 0)%nat then existsb (fun s => bool_decide (s ∈ c_spaces r)) (f_spaces f)
  else true.
End lower.

(** ** Sorting *)

(** sync3/room.go:90-107, GetLastInterestedEventTimestamp. Simplified: the write
    of the fallback into the map is dropped. It is not observable: SetRoom falls
    back to the same value (sync3/lists.go:107-110). *)
Definition get_ts (key : string) (r : conn_room) : Z :=
  match c_ts r !! key with Some t => t | None => m_last_ts (c_meta r) end.

(** sync3/sort.go:129-214, the comparators: 1 = first goes first, -1 = second
    goes first, 0 = tied. *)
Definition cmp_name (a b : conn_room) : Z :=
  if String.eqb (c_canon a) (c_canon b) then 0
  else if String.ltb (c_canon a) (c_canon b) then 1 else -1.
Definition cmp_recency (key : string) (a b : conn_room) : Z :=
  if get_ts key a =? get_ts key b then 0 else if get_ts key b <? get_ts key a then 1 else -1.
Definition cmp_highlight (a b : conn_room) : Z :=
  if c_highlight a =? c_highlight b then 0 else if c_highlight b <? c_highlight a then 1 else -1.
Definition cmp_notif (a b : conn_room) : Z :=
  if c_notif a =? c_notif b then 0 else if c_notif b <? c_notif a then 1 else -1.
Definition cmp_level (a b : conn_room) : Z :=
  if (0 <? c_highlight a) && (0 <? c_highlight b) then 0
  else if 0 <? c_highlight a then 1
  else if 0 <? c_highlight b then -1
  else if (0 <? c_notif a) && (0 <? c_notif b) then
    if m_encrypted (c_meta a) && negb (m_encrypted (c_meta b)) then 1
    else if m_encrypted (c_meta b) && negb (m_encrypted (c_meta a)) then -1
    else 0
  else if 0 <? c_notif a then 1
  else if 0 <? c_notif b then -1
  else 0.

(** sync3/sort.go:92-108 with the names of sync3/request.go:14-18; None is the
    "unknown sort order" error. *)
Definition comparator (key : string) (s : string) : option (conn_room -> conn_room -> Z) :=
  if String.eqb s "by_highlight_count" then Some cmp_highlight
  else if String.eqb s "by_notification_count" then Some cmp_notif
  else if String.eqb s "by_name" then Some cmp_name
  else if String.eqb s "by_recency" then Some (cmp_recency key)
  else if String.eqb s "by_notification_level" then Some cmp_level
  else None.

(** sync3/sort.go:109-121, the less function of sort.SliceStable. *)
Fixpoint sort_less (cs : list (conn_room -> conn_room -> Z)) (a b : conn_room) : bool :=
  match cs with
  | [] => false
  | c :: cs' => if c a b =? 1 then true else if c a b =? -1 then false else sort_less cs' a b
  end.

(** sort.SliceStable as a stable insertion sort. For a less function which is a
    strict weak order all stable sorts give the same list (proved in C06). *)
Fixpoint ins {A} (less : A -> A -> bool) (x : A) (l : list A) : list A :=
  match l with
  | [] => [x]
  | y :: l' => if less y x then y :: ins less x l' else x :: l
  end.
Definition isort {A} (less : A -> A -> bool) (l : list A) : list A :=
  foldr (ins less) [] l.

(** sync3/sort.go:16-21. The finder and list key are passed where needed. *)
Record srooms := mk_srooms {
  s_ids : list string;
  s_idx : gmap string nat        (* roomIDToIndex *)
}.

(** sync3/sort.go:23-30, NewSortableRooms: the index starts empty. *)
Definition new_srooms (rooms : list string) : srooms := mk_srooms rooms ∅.

(** sync3/sort.go:32-35, IndexOf. *)
Definition s_index_of (s : srooms) (room : string) : option nat := s_idx s !! room.

(** sync3/sort.go:46-54, Add. *)
Definition s_add (s : srooms) (room : string) : srooms * bool :=
  match s_idx s !! room with
  | Some _ => (s, false)
  | None => (mk_srooms (s_ids s ++ [room]) (<[room := length (s_ids s)]> (s_idx s)), true)
  end.

(** Writing the index of every room from position [k] on: the loops at
    sync3/sort.go:71-73 and 122-124. *)
Fixpoint write_index (k : nat) (l : list string) (m : gmap string nat) : gmap string nat :=
  match l with
  | [] => m
  | x :: l' => write_index (S k) l' (<[x := k]> m)
  end.

(** sync3/sort.go:62-75, Remove; the second component is the returned index. *)
Definition s_remove (s : srooms) (room : string) : srooms * Z :=
  match s_idx s !! room with
  | None => (s, -1)
  | Some i =>
      let ids := take i (s_ids s) ++ drop (S i) (s_ids s) in
      (mk_srooms ids (write_index i (drop i ids) (delete room (s_idx s))), Z.of_nat i)
  end.

(** sync3/sort.go:89-127, Sort. The bool is false when an error is returned
    (and nothing changes). None is the panic on a room the finder does not know:
    a stable sort of two or more rooms compares each of them at least once. The
    assertion at sort.go:91 only logs (internal/errors.go:99-116). *)
Definition s_sort (find : string -> option conn_room) (key : string) (sorts : list string) (s : srooms)
    : option (srooms * bool) :=
  match mapM (comparator key) sorts with
  | None => Some (s, false)
  | Some cs =>
      let known := forallb (fun r => match find r with Some _ => true | None => false end) (s_ids s) in
      if known || (length (s_ids s) <? 2)%nat || (length cs =? 0)%nat then
        let less x y := match find x, find y with
                        | Some a, Some b => sort_less cs a b
                        | _, _ => false
                        end in
        let ids := isort less (s_ids s) in
        Some (mk_srooms ids (write_index 0 ids (s_idx s)), true)
      else None
  end.

(** sync3/sort.go:218-221. *)
Record flist := mk_flist { fl_rooms : srooms; fl_filter : filters }.

(** sync3/lists.go:48-51. Map of lists and map of all rooms. *)
Record rlists := mk_rlists {
  l_all : gmap string conn_room;
  l_lists : gmap string flist
}.
Definition new_rlists : rlists := mk_rlists ∅ ∅.

(** sync3/ops.go / sync3/lists.go:21-28. *)
Inductive lop := LAdd | LDel | LChange.
Global Instance lop_eq_dec : EqDecision lop. Proof. solve_decision. Defined.

(** sync3/lists.go:35-43. *)
Record room_delta := mk_delta {
  d_name : bool; d_avatar : bool; d_join : bool; d_invite : bool;
  d_notif : bool; d_highlight : bool;
  d_lists : list (string * lop)
}.

(** sync3/room.go:61-73, SameRoomAvatar. *)
Definition same_room_avatar (r next : conn_room) : bool :=
  let same := String.eqb (m_avatar (c_meta r)) (m_avatar (c_meta next)) in
  if c_dm next then
    same && same_hero_avatars (m_heroes (c_meta r)) (m_heroes (c_meta next)) &&
    (length (m_heroes (c_meta next)) =? 1)%nat
  else same.

(** strings.Trim with the cutset "#!():_@". *)
Definition in_cutset (a : Ascii.ascii) : bool :=
  existsb (Ascii.eqb a) (String.list_ascii_of_string "#!():_@").
Fixpoint drop_cutset (l : list Ascii.ascii) : list Ascii.ascii :=
  match l with
  | [] => []
  | a :: l' => if in_cutset a then drop_cutset l' else l
  end.
Definition trim (s : string) : string :=
  String.string_of_list_ascii (rev (drop_cutset (rev (drop_cutset (String.list_ascii_of_string s))))).

Section lists.
Context (lower : string -> string).

(** sync3/lists.go:73-76 and 113-116: the name used to sort. *)
Definition canonical_name (m : room_meta) : string := lower (trim (display_name m)).

(** sync3/lists.go:94-111: the new timestamps of a known room. *)
Definition merge_ts (lists : gmap string flist) (existing : conn_room) (new_ts : gmap string Z) : gmap string Z :=
  map_imap (fun key _ =>
    Some (match new_ts !! key with
          | Some t => t
          | None => match c_ts existing !! key with
                    | Some t => t
                    | None => m_last_ts (c_meta existing)
                    end
          end)) lists.

(** sync3/lists.go:60-119: the metadata that is stored. *)
Definition stored_room (s : rlists) (r : conn_room) : conn_room :=
  match l_all s !! m_room (c_meta r) with
  | Some existing =>
      mk_conn_room (c_meta r) (c_dm r) (c_invite r) (c_left r) (c_notif r) (c_highlight r)
        (if same_room_name (c_meta existing) (c_meta r) then c_canon existing else canonical_name (c_meta r))
        (c_spaces r) (c_tags r) (merge_ts (l_lists s) existing (c_ts r))
  | None =>
      mk_conn_room (c_meta r) (c_dm r) (c_invite r) (c_left r) (c_notif r) (c_highlight r)
        (canonical_name (c_meta r)) (c_spaces r) (c_tags r) (c_ts r)
  end.

(** sync3/lists.go:123-150: what one list reports. *)
Definition list_delta (all : gmap string conn_room) (r : conn_room) (fl : flist) : option lop :=
  let exists_ := match s_idx (fl_rooms fl) !! m_room (c_meta r) with Some _ => true | None => false end in
  let should := include lower (fl_filter fl) r (fun x => all !! x) && negb (c_left r) in
  match exists_, should with
  | true, true => Some LChange
  | true, false => Some LDel
  | false, true => Some LAdd
  | false, false => None
  end.

(** sync3/lists.go:59-153, SetRoom. [ord] is Go's order of iteration over the lists. *)
Definition set_room (ord : list (string * flist) -> list (string * flist)) (s : rlists) (r : conn_room)
    : rlists * room_delta :=
  let r' := stored_room s r in
  let all := <[m_room (c_meta r) := r']> (l_all s) in
  let lists := omap (fun '(key, fl) => (fun op => (key, op)) <$> list_delta all r' fl)
                    (ord (map_to_list (l_lists s))) in
  let d :=
    match l_all s !! m_room (c_meta r) with
    | Some e =>
        mk_delta (negb (same_room_name (c_meta e) (c_meta r)))
                 (negb (same_room_avatar e r))
                 (negb (m_join (c_meta e) =? m_join (c_meta r)))
                 (negb (m_invite (c_meta e) =? m_invite (c_meta r)))
                 (negb (c_notif e =? c_notif r))
                 (negb (c_highlight e =? c_highlight r)) lists
    | None => mk_delta false false false false false false lists
    end in
  (mk_rlists all (l_lists s), d).

(** sync3/sort.go:223-238, NewFilteredSortableRooms. *)
Definition new_flist (find : string -> option conn_room) (rooms : list string) (f : option filters) : flist :=
  let f := default no_filters f in
  mk_flist (new_srooms (omap (fun x => match find x with
                                       | Some r => if include lower f r find then Some x else None
                                       | None => None
                                       end) rooms)) f.

(** sync3/sort.go:240-246, FilteredSortableRooms.Add; None is the nil room. *)
Definition f_add (find : string -> option conn_room) (fl : flist) (room : string) : option (flist * bool) :=
  match find room with
  | None => None
  | Some r =>
      if include lower (fl_filter fl) r find
      then let '(s, b) := s_add (fl_rooms fl) room in Some (mk_flist s (fl_filter fl), b)
      else Some (fl, false)
  end.

(** sync3/lists.go:229-253, AssignList; the bool says whether the list is new.
    [ord] is the order of iteration over all rooms. None is a panic. *)
Definition assign_list (ord : list string -> list string) (s : rlists) (key : string) (f : option filters)
    (sorts : option (list string)) (overwrite : bool) : option (rlists * flist * bool) :=
  match l_lists s !! key, overwrite with
  | Some fl, false => Some (s, fl, false)
  | _, _ =>
      let find x := l_all s !! x in
      let fl := new_flist find (ord (elements (dom (l_all s)))) f in
      match sorts with
      | None => Some (mk_rlists (l_all s) (<[key := fl]> (l_lists s)), fl, true)
      | Some so =>
          match s_sort find key so (fl_rooms fl) with
          | None => None
          | Some (sr, _) =>
              let fl := mk_flist sr (fl_filter fl) in
              Some (mk_rlists (l_all s) (<[key := fl]> (l_lists s)), fl, true)
          end
      end
  end.

(** sync3/lists.go:161-166, DeleteList. *)
Definition delete_list (s : rlists) (key : string) : rlists :=
  mk_rlists
    ((fun r => mk_conn_room (c_meta r) (c_dm r) (c_invite r) (c_left r) (c_notif r) (c_highlight r)
                 (c_canon r) (c_spaces r) (c_tags r) (delete key (c_ts r))) <$> l_all s)
    (delete key (l_lists s)).
End lists.
