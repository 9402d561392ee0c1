(** Model of room metadata, room names and avatars: [internal/roomname.go]. *)
From Verif Require Import Prelude.
From stdpp Require Import pretty.
Open Scope string_scope.
Open Scope list_scope.
Open Scope Z_scope.

(** internal/roomname.go:148-152. *)
Record hero := mk_hero { h_id : string; h_name : string; h_avatar : string }.

(** internal/roomname.go:29-53. Dropped: TypingEvent (see the typing model).
    Counts are unbounded integers, timestamps natural numbers as integers. *)
Record room_meta := mk_meta {
  m_room : string;
  m_heroes : list hero;
  m_name : string;             (* NameEvent; "" when unset *)
  m_avatar : string;           (* AvatarEvent *)
  m_alias : string;            (* CanonicalAlias *)
  m_join : Z;
  m_invite : Z;
  m_last_ts : Z;               (* LastMessageTimestamp *)
  m_latest : gmap string (Z * Z);  (* LatestEventsByType: NID, timestamp *)
  m_encrypted : bool;
  m_predecessor : option string;
  m_upgraded : option string;
  m_type : option string;
  m_children : gset string     (* ChildSpaceRooms *)
}.

(** internal/roomname.go:55-61, NewRoomMetadata. *)
Definition new_meta (room : string) : room_meta :=
  mk_meta room [] "" "" "" 0 0 0 ∅ false None None None ∅.

(** internal/roomname.go:216-219: the name a hero goes by. *)
Definition hero_name (h : hero) : string :=
  if String.eqb (h_name h) "" then h_id h else h_name h.

(** internal/roomname.go:214-221: the map from name to hero indexes. *)
Definition names_index (heroes : list hero) : gmap string (list nat) :=
  foldl (fun m '(i, h) => <[hero_name h := default [] (m !! hero_name h) ++ [i]]> m)
        ∅ (imap (fun i h => (i, h)) heroes).

(** internal/roomname.go:229-236: the name written for a hero whose name is shared. *)
Definition full_name (h : hero) : string :=
  (hero_name h ++ " (" ++ h_id h ++ ")")%string.

(** internal/roomname.go:213-240, disambiguate. [ord] is Go's order of
    iteration over the map. *)
Definition disambiguate (ord : list (string * list nat) -> list (string * list nat))
    (heroes : list hero) : list string :=
  foldl (fun out '(name, indexes) =>
           match indexes with
           | [i] => <[i := name]> out
           | _ => foldl (fun out i =>
                    match heroes !! i with
                    | Some h => <[i := full_name h]> out
                    | None => out
                    end) out indexes
           end)
        (replicate (length heroes) "") (ord (map_to_list (names_index heroes))).

(** Go's strings.Join. *)
Fixpoint go_join (sep : string) (l : list string) : string :=
  match l with
  | [] => ""
  | [x] => x
  | x :: l' => (x ++ sep ++ go_join sep l')%string
  end.

(** Go's slice expression [l[:n]]; None is the panic. *)
Definition slice_to {A} (l : list A) (n : Z) : option (list A) :=
  if (0 <=? n) && (n <=? Z.of_nat (length l)) then Some (take (Z.to_nat n) l) else None.

(** internal/roomname.go:156-211, CalculateRoomName; None is a panic. *)
Definition room_name ord (m : room_meta) (max_names : Z) : option (string * bool) :=
  if negb (String.eqb (m_name m) "") then Some (m_name m, false)
  else if negb (String.eqb (m_alias m) "") then Some (m_alias m, false)
  else
    let names := disambiguate ord (m_heroes m) in
    let others := m_join m + m_invite m - 1 in
    let alone := others <=? 0 in
    if (length (m_heroes m) =? 0)%nat && alone then Some ("Empty Room", false)
    else if others <=? Z.of_nat (length (m_heroes m)) then
      match names with
      | [x] => Some (x, true)
      | _ =>
          match slice_to names (Z.of_nat (length names) - 1), last names with
          | Some front, Some final =>
              let s := (go_join ", " front ++ " and " ++ final)%string in
              if alone then Some (("Empty Room (was " ++ s ++ ")")%string, true) else Some (s, true)
          | _, _ => None
          end
      end
    else
      let entries := Z.min (Z.of_nat (length names)) max_names in
      match slice_to names entries with
      | None => None
      | Some front =>
          let s := (go_join ", " front ++ " and " ++ pretty (others - entries) ++ " others")%string in
          if 1 <? m_join m + m_invite m then Some (s, true)
          else Some (("Empty Room (was " ++ s ++ ")")%string, true)
      end.

(** internal/roomname.go:246-254, CalculateAvatar. *)
Definition calc_avatar (m : room_meta) (is_dm : bool) : string :=
  if negb (String.eqb (m_avatar m) "") then m_avatar m
  else match m_heroes m with
       | [h] => if is_dm then h_avatar h else ""
       | _ => ""
       end.

(** internal/roomname.go:120-133, sameHeroNames. *)
Fixpoint same_hero_names (a b : list hero) : bool :=
  match a, b with
  | [], [] => true
  | x :: a', y :: b' => String.eqb (h_id x) (h_id y) && String.eqb (h_name x) (h_name y) && same_hero_names a' b'
  | _, _ => false
  end.

(** internal/roomname.go:103-110, SameRoomName. *)
Definition same_room_name (m o : room_meta) : bool :=
  String.eqb (m_room m) (m_room o) && String.eqb (m_name m) (m_name o) &&
  String.eqb (m_alias m) (m_alias o) && (m_join m =? m_join o) && (m_invite m =? m_invite o) &&
  same_hero_names (m_heroes m) (m_heroes o).

(** internal/roomname.go:135-142, RemoveHero: the first hero with that ID goes. *)
Fixpoint remove_hero (user : string) (l : list hero) : list hero :=
  match l with
  | [] => []
  | h :: l' => if String.eqb (h_id h) user then l' else h :: remove_hero user l'
  end.

(** sync3/room.go:75-88, sameHeroAvatars. *)
Fixpoint same_hero_avatars (a b : list hero) : bool :=
  match a, b with
  | [], [] => true
  | x :: a', y :: b' => String.eqb (h_id x) (h_id y) && String.eqb (h_avatar x) (h_avatar y) && same_hero_avatars a' b'
  | _, _ => false
  end.
