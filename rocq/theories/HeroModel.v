(** Model of what the connections of one user do with the same update of a room, at the same time:
    [sync3/caches/user.go] 397-415 (newRoomUpdate), 522-532 (emitOnRoomUpdate), [internal/roomname.go] 67-99 (DeepCopy),
    135-142 (RemoveHero), [sync3/handler/connstate_live.go] 360-373 (the part of processGlobalUpdates that hands the
    room to the lists), 270-284 (the part of processLiveUpdate that says what the room's name is).

    All connections get a pointer to the same metadata. Its heroes are a slice: an array, and how much of it is
    used. Steps of different connections alternate in any way.

    Simplifications: reading or writing the length is one step, and so are copying, looking through or moving the
    elements of the array (in Go none of them is); the rest of the metadata is not written to and is left out; the
    avatar, for which RemoveHero is called once more, is left out; the room has no name of its own, the client
    wants heroes, and the room is visible. *)
From Verif Require Import Prelude.
Open Scope string_scope. Open Scope list_scope. Open Scope nat_scope.

(** internal/roomname.go:148-152, Hero: the ID and the display name. *)
Definition hero : Type := string * string.
Definition no_hero : hero := ("", "").

(** internal/roomname.go:135-142, RemoveHero, on a slice nobody else has. *)
Fixpoint without (user : string) (hs : list hero) : list hero :=
  match hs with
  | [] => []
  | h :: hs => if bool_decide (h.1 = user) then hs else h :: without user hs
  end.
(** The place of the user among the heroes. *)
Fixpoint place (user : string) (hs : list hero) : option nat :=
  match hs with
  | [] => None
  | h :: hs => if bool_decide (h.1 = user) then Some 0 else S <$> place user hs
  end.

(** Where a connection is with the update. *)
Inductive at_ :=
  | Start
  | Len (l : nat)                      (* DeepCopy, roomname.go:83: make([]Hero, len(m.Heroes)) *)
  | Copied (own : list hero)           (* roomname.go:84: copy(newMetadata.Heroes, m.Heroes) *)
  | Range (l : nat)                    (* roomname.go:136: range m.Heroes takes the slice as it is now *)
  | Found (i : nat)                    (* roomname.go:137: h.ID == userID *)
  | Moved (l : nat)                    (* roomname.go:138: append moved the elements *)
  | Removed                            (* roomname.go:138: m.Heroes = ..., or nothing to remove *)
  | Named (named : list hero) (l : nat) (* connstate_live.go:276-282: the name, and Heroes of the response *)
  | Sent (named heroes : list hero)    (* the response is encoded *)
  | Same                               (* the room's name is what it was for this connection *)
  | Panicked.

(** The array, how much of it is used, and where the connections are. *)
Record shared := mk_shared { h_arr : list hero; h_len : nat; h_at : gmap nat at_ }.
Definition where_ (s : shared) (k : nat) : at_ := default Start (h_at s !! k).
Definition goto (s : shared) (k : nat) (a : at_) : shared := mk_shared (h_arr s) (h_len s) (<[ k := a ]> (h_at s)).

(** user.go:397-415, newRoomUpdate: LoadRooms copies the global metadata, for all connections of the user. *)
Definition newRoomUpdate (heroes : list hero) : shared := mk_shared heroes (length heroes) ∅.

(** One step of connection [k] of [user]. [stored k]: the heroes it has in its lists for the room. *)
Definition step (user : string) (stored : nat -> list hero) (s : shared) (k : nat) : shared :=
  match where_ s k with
  | Start => goto s k (Len (h_len s))
  | Len l => goto s k (Copied (take l (take (h_len s) (h_arr s)) ++ replicate (l - h_len s) no_hero))
  | Copied p => if bool_decide (without user p = stored k) then goto s k Same else goto s k (Range (h_len s))
  | Range l => match place user (take l (h_arr s)) with Some i => goto s k (Found i) | None => goto s k Removed end
  | Found i =>
      if h_len s <? S i then goto s k Panicked (* m.Heroes[i+1:] *)
      else goto (mk_shared (take i (h_arr s) ++ drop (S i) (take (h_len s) (h_arr s)) ++ drop (pred (h_len s)) (h_arr s))
                           (h_len s) (h_at s)) k (Moved (pred (h_len s)))
  | Moved l => goto (mk_shared (h_arr s) l (h_at s)) k Removed
  | Removed => goto s k (Named (take (h_len s) (h_arr s)) (h_len s))
  | Named named l => goto s k (Sent named (take l (h_arr s)))
  | Sent _ _ | Same | Panicked => s
  end.
Definition steps (user : string) (stored : nat -> list hero) : shared -> list nat -> shared := foldl (step user stored).
