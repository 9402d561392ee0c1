(** Model of required state and of combining room subscriptions:
    [internal/required_state_map.go], [sync3/request.go] and
    [sync3/handler/rooms_builder.go]. *)
From Verif Require Import Prelude RequestModel.
Open Scope string_scope.
Open Scope list_scope.
Open Scope Z_scope.

Notation tuple := (string * string)%type.

(** ** Required state *)

(** internal/required_state_map.go:5-11. The set of event types with wildcard
    state keys is kept as a list: only membership is used. *)
Record rsm := mk_rsm {
  r_wild_keys : list string;            (* eventTypesWithWildcardStateKeys *)
  r_wild_types : list string;           (* stateKeysForWildcardEventType *)
  r_exact : gmap string (list string);  (* eventTypeToStateKeys *)
  r_all : bool;
  r_lazy : bool
}.
(** sync3/request.go:587-594, LazyLoadMembers. *)
Definition lazy_members (req : list tuple) : bool :=
  existsb (fun t : tuple => String.eqb t.1 "m.room.member" && String.eqb t.2 "$LAZY") req.
(** sync3/request.go:654-672: one required_state entry. *)
Definition rsm_add (user : string) (m : rsm) (t : tuple) : rsm :=
  let k := if String.eqb t.2 "$ME" then user else t.2 in
  if String.eqb t.1 "*" then
    if String.eqb k "*" then mk_rsm (r_wild_keys m) (r_wild_types m) (r_exact m) true (r_lazy m)
    else mk_rsm (r_wild_keys m) (r_wild_types m ++ [k]) (r_exact m) (r_all m) (r_lazy m)
  else if String.eqb k "*" then mk_rsm (t.1 :: r_wild_keys m) (r_wild_types m) (r_exact m) (r_all m) (r_lazy m)
  else mk_rsm (r_wild_keys m) (r_wild_types m)
         (<[t.1 := default [] (r_exact m !! t.1) ++ [k]]> (r_exact m)) (r_all m) (r_lazy m).
(** sync3/request.go:649-677, RequiredStateMap. *)
Definition required_state_map (user : string) (req : list tuple) : rsm :=
  foldl (rsm_add user) (mk_rsm [] [] ∅ false (lazy_members req)) req.
(** internal/required_state_map.go:30-62, Include. *)
Definition rsm_include (m : rsm) (ty sk : string) : bool :=
  let exact := default [] (r_exact m !! ty) in
  if r_all m then
    if (0 <? length exact)%nat then existsb (fun k => String.eqb k sk) exact else true
  else existsb (fun k => String.eqb k sk || String.eqb k "*") (r_wild_types m)
       || existsb (fun t => String.eqb t ty) (r_wild_keys m)
       || existsb (fun k => String.eqb k sk) exact.
(** internal/required_state_map.go:64-69, Empty. *)
Definition rsm_empty (m : rsm) : bool :=
  negb (r_all m) && negb (r_lazy m) && bool_decide (r_exact m = ∅)
  && (length (r_wild_types m) =? 0)%nat && (length (r_wild_keys m) =? 0)%nat.
(** internal/required_state_map.go:74-93, QueryStateMap; a nil slice is []. *)
Definition query_state_map (m : rsm) : gmap string (list string) :=
  if r_all m then ∅
  else if (length (r_wild_types m) =? 0)%nat then
    let q := map_imap (fun ty ks => Some (if String.eqb ty "m.room.member" && r_lazy m then [] else ks)) (r_exact m) in
    foldr (fun ty q => <[ty := []]> q) q (r_wild_keys m)
  else ∅.
(** state/storage.go:514-516: which state events a query map asks for. *)
Definition query_matches (q : gmap string (list string)) (ty sk : string) : bool :=
  bool_decide (q = ∅) ||
  match q !! ty with
  | Some [] => true
  | Some ks => bool_decide (sk ∈ ks)
  | None => false
  end.

(** A state event: type, state key, the rest. *)
Record sev := mk_sev { se_type : string; se_key : string; se_body : string }.
(** sync3/caches/global.go:205-220: the events of one room to send. [users] are
    the senders in the timeline. *)
Definition load_room_state (m : rsm) (users : list string) (evs : list sev) : list sev :=
  concat (map (fun ev =>
    if rsm_include m (se_type ev) (se_key ev) then [ev]
    else if r_lazy m then omap (fun u => if String.eqb (se_key ev) u then Some ev else None) users
    else []) evs).

(** sync3/caches/global.go:191-223, LoadRoomState, for one room whose current
    state is [evs]; the query is taken to return the state events it asks for. *)
Definition load_state (user : string) (req : list tuple) (users : list string) (evs : list sev) : list sev :=
  let m := required_state_map user req in
  if rsm_empty m then []
  else load_room_state m users (List.filter (fun ev => query_matches (query_state_map m) (se_type ev) (se_key ev)) evs).

(** ** Combining subscriptions *)

(** sync3/request.go:606-628, combineRecursive, on values; [rec] is the depth
    flag checkOldRooms, true only at the top. *)
Definition app_state (a b : option (list tuple)) : option (list tuple) :=
  match b with
  | None | Some [] => a
  | Some ys => Some (default [] a ++ ys)
  end.
Definition combine_flat (a b : room_sub) : room_sub :=
  mk_sub (app_state (sub_state a) (sub_state b))
    (if sub_limit b <? sub_limit a then sub_limit a else sub_limit b) None None.
Definition combine (a b : room_sub) : room_sub :=
  let c := combine_flat a b in
  mk_sub (sub_state c) (sub_limit c)
    (match sub_old a, sub_old b with
     | None, o => o
     | Some x, Some y => Some (combine_flat x y)
     | Some _, None => None
     end) None.
(** rooms_builder.go:97-106: combining the subscriptions of a room. *)
Definition combine_all (s : room_sub) (rest : list room_sub) : room_sub := foldl combine s rest.

(** ** The same with Go's slices *)

(** Backing arrays; a slice is an array and a length, its capacity is that of the
    array (slices here always start at the start of their array). *)
Notation heap := (list (list tuple)).
Record slice := mk_slice { sl_arr : nat; sl_len : nat }.
Definition read (h : heap) (s : option slice) : list tuple :=
  match s with
  | Some s => take (sl_len s) (default [] (h !! sl_arr s))
  | None => []
  end.
Section grow.
(** How much spare room Go leaves when it allocates for [n] elements. *)
Context (grow : nat -> nat).
Definition alloc (h : heap) (xs : list tuple) : heap * option slice :=
  (h ++ [xs ++ replicate (grow (length xs)) ("", "")], Some (mk_slice (length h) (length xs))).
(** Go's append(a, b...). *)
Definition go_append (h : heap) (a b : option slice) : heap * option slice :=
  match read h b with
  | [] => (h, a)
  | xs =>
      match a with
      | None => alloc h xs
      | Some s =>
          let arr := default [] (h !! sl_arr s) in
          if (sl_len s + length xs <=? length arr)%nat
          then (<[sl_arr s := take (sl_len s) arr ++ xs ++ drop (sl_len s + length xs) arr]> h,
                Some (mk_slice (sl_arr s) (sl_len s + length xs)))
          else alloc h (read h a ++ xs)
      end
  end.

(** sync3/request.go:568-573 as Go stores it. Simplification: only one level of
    include_old_rooms, as deeper levels are never read (request.go:616-626,
    connstate.go:476-500). *)
Record old_sub := mk_old { o_state : option slice; o_limit : Z; o_heroes : option bool }.
Record hsub := mk_hsub { h_state : option slice; h_limit : Z; h_old : option old_sub; h_heroes : option bool }.
Definition read_old (h : heap) (o : old_sub) : room_sub :=
  mk_sub (match o_state o with Some _ => Some (read h (o_state o)) | None => None end) (o_limit o) None (o_heroes o).
Definition read_sub (h : heap) (s : hsub) : room_sub :=
  mk_sub (match h_state s with Some _ => Some (read h (h_state s)) | None => None end) (h_limit s)
    (read_old h <$> h_old s) (h_heroes s).
Definition zmax (a b : Z) : Z := if b <? a then a else b.
(** sync3/request.go:601-628, Combine. *)
Definition combine_h (h : heap) (a b : hsub) : heap * hsub :=
  let '(h1, st) := go_append h (h_state a) (h_state b) in
  match h_old a, h_old b with
  | Some x, Some y =>
      let '(h2, st2) := go_append h1 (o_state x) (o_state y) in
      (h2, mk_hsub st (zmax (h_limit a) (h_limit b)) (Some (mk_old st2 (zmax (o_limit x) (o_limit y)) None)) None)
  | None, o => (h1, mk_hsub st (zmax (h_limit a) (h_limit b)) o None)
  | Some _, None => (h1, mk_hsub st (zmax (h_limit a) (h_limit b)) None None)
  end.
Fixpoint combine_list (h : heap) (s : hsub) (rest : list hsub) : heap * hsub :=
  match rest with
  | [] => (h, s)
  | x :: rest' => let '(h1, s1) := combine_h h s x in combine_list h1 s1 rest'
  end.

(** rooms_builder.go:30-33. *)
Record builder := mk_builder { b_subs : list hsub; b_rooms : gmap nat (list string) }.
Definition new_builder : builder := mk_builder [] ∅.
(** rooms_builder.go:53-56, AddSubscription. *)
Definition add_subscription (b : builder) (s : hsub) : builder * nat :=
  (mk_builder (b_subs b ++ [s]) (b_rooms b), length (b_subs b)).
(** rooms_builder.go:59-62, AddRoomsToSubscription. *)
Definition add_rooms (b : builder) (id : nat) (rooms : list string) : builder :=
  mk_builder (b_subs b) (<[id := default [] (b_rooms b !! id) ++ rooms]> (b_rooms b)).
(** A sequence of calls; the builder starts empty. *)
Inductive bop := AddSub (s : hsub) | AddRooms (id : nat) (rooms : list string).
Definition bstep (b : builder) (o : bop) : builder :=
  match o with
  | AddSub s => fst (add_subscription b s)
  | AddRooms id rooms => add_rooms b id rooms
  end.
Definition bruns (ops : list bop) : builder := foldl bstep new_builder ops.
(** rooms_builder.go:68-77: the subscriptions of a room, in ascending order
    (subKey, rooms_builder.go:125-129, sorts the list of IDs in place). *)
Definition ids_of (b : builder) (x : string) : list nat :=
  merge_sort le (omap (fun '(id, rooms) => if bool_decide (x ∈ (rooms : list string)) then Some id else None)
                   (map_to_list (b_rooms b))).
(** All rooms, each once. *)
Definition all_rooms (b : builder) : list string :=
  elements (list_to_set (concat (map snd (map_to_list (b_rooms b)))) : gset string).
(** rooms_builder.go:79-113: the loop over the rooms. A subscription is known by
    its list of IDs: the code's pointers are one-to-one with its keys
    (fmt.Sprintf of a list of integers is injective). None: an ID out of range,
    a panic. *)
Record bstate := mk_bstate {
  bs_heap : heap;
  bs_combined : gmap (list nat) hsub;        (* subIDToSub, combined ones *)
  bs_rooms : gmap (list nat) (list string)   (* subToRoomIDs *)
}.
Definition build_room (b : builder) (st : bstate) (x : string) : option bstate :=
  let ids := ids_of b x in
  match mapM (fun i => b_subs b !! i) ids with
  | None | Some [] => None
  | Some (s :: rest) =>
      let '(h, c) :=
        match rest, bs_combined st !! ids with
        | [], _ => (bs_heap st, bs_combined st)
        | _, Some _ => (bs_heap st, bs_combined st)
        | _, None => let '(h, s') := combine_list (bs_heap st) s rest in (h, <[ids := s']> (bs_combined st))
        end in
      Some (mk_bstate h c (<[ids := default [] (bs_rooms st !! ids) ++ [x]]> (bs_rooms st)))
  end.
Fixpoint build_loop (b : builder) (st : bstate) (rooms : list string) : option bstate :=
  match rooms with
  | [] => Some st
  | x :: rooms' => match build_room b st x with Some st' => build_loop b st' rooms' | None => None end
  end.
(** The subscription of a list of IDs. *)
Definition sub_of_ids (b : builder) (st : bstate) (ids : list nat) : option hsub :=
  match ids with
  | [i] => b_subs b !! i
  | _ => bs_combined st !! ids
  end.
(** rooms_builder.go:66-123, BuildSubscriptions. [ord] and [ord2] are orders of
    map iteration. *)
Definition build_subscriptions (ord : list string -> list string)
    (ord2 : list (list nat * list string) -> list (list nat * list string))
    (h : heap) (b : builder) : option (heap * list (hsub * list string)) :=
  match build_loop b (mk_bstate h ∅ ∅) (ord (all_rooms b)) with
  | None => None
  | Some st =>
      (fun l => (bs_heap st, l)) <$>
        mapM (fun '(ids, rooms) => (fun s => (s, rooms)) <$> sub_of_ids b st ids) (ord2 (map_to_list (bs_rooms st)))
  end.
End grow.
