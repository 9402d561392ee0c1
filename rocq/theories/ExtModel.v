(** Model of the scope of extensions: sync3/extensions/extensions.go,
    account_data.go, typing.go and sync3/lists.go ListsByVisibleRoomIDs.

    Simplifications: tracing and logging are dropped; a response is the data of the
    extensions concerned. The iteration order of Go maps is a list. A failing
    database query is an argument. Receipts are in ReceiptModel, with the scope as
    a parameter there. *)
From Verif Require Import Prelude RangeModel RequestModel.
Open Scope string_scope. Open Scope list_scope. Open Scope Z_scope.

(** extensions.go:279-304, Context. *)
Record ectx := mk_ectx {
  x_timeline : gmap string (list string);   (* RoomIDToTimeline *)
  x_initial : bool;
  x_lists : gmap string (list string);      (* RoomIDsToLists *)
  x_all_lists : list string;
  x_subs : list string }.                   (* AllSubscribedRooms *)

(** extensions.go:120, 132: the first element is the star. *)
Definition star (l : list string) : bool := match l with [] => false | x :: _ => String.eqb x "*" end.

(** extensions.go:121-151, RoomInScope; a nil slice is empty. *)
Definition roomInScope (e : ext) (room : string) (c : ectx) : bool :=
  let rooms := default [] (e_rooms e) in
  let rooms := if star rooms then x_subs c else rooms in
  if existsb (fun r => String.eqb r room) rooms then true
  else
    let lists := default [] (e_lists e) in
    let lists := if star lists then x_all_lists c else lists in
    existsb (fun v => existsb (fun l => String.eqb v l) lists) (default [] (x_lists c !! room)).

(** extensions.go:153-159, ExtensionEnabled. *)
Definition enabled (e : ext) : bool := match e_enabled e with Some true => true | _ => false end.
(** extensions.go:187-199, EnabledExtensions, for one extension. *)
Definition enabled_ext (r : exts) (k : ext_kind) : option ext :=
  match r k with Some e => if enabled e then Some e else None | None => None end.

(** sync3/lists.go:199-228, ListsByVisibleRoomIDs. A list is given with its key,
    whether all its rooms were requested, its windows and its sorted rooms. *)
Record vlist := mk_vlist { v_key : string; v_all : bool; v_ranges : ranges; v_rooms : list string }.
Definition mark (key : string) (m : gmap string (list string)) (room : string) : gmap string (list string) :=
  <[room := default [] (m !! room) ++ [key]]> m.
Definition visible_step (acc : option (gmap string (list string))) (l : vlist) : option (gmap string (list string)) :=
  m ← acc;
  if v_all l then Some (fold_left (mark (v_key l)) (v_rooms l) m)
  else ss ← slice_into (v_ranges l) (v_rooms l); Some (fold_left (mark (v_key l)) (concat ss) m).
Definition listsByVisibleRoomIDs (ls : list vlist) : option (gmap string (list string)) :=
  fold_left visible_step ls (Some ∅).

(** ** Account data *)

(** state/account_data.go:15-20, without the user: room ("" for global) and data. *)
Definition adata : Type := string * string.
(** state/account_data.go:79-89, SelectMany. *)
Definition selectMany (rows : list adata) (rooms : list string) : list adata :=
  match rooms with
  | [] => List.filter (fun d => bool_decide (d.1 = "")) rows
  | _ => List.filter (fun d => bool_decide (d.1 ∈ rooms)) rows
  end.

(** account_data.go:21-27, AccountDataResponse. *)
Record aresp := mk_aresp { a_global : list string; a_rooms : gmap string (list string); a_loaded : list string }.
Definition aresp0 : aresp := mk_aresp [] ∅ [].

(** sync3/caches/update.go: the updates. Every update of a room carries the room's
    typing event, if there is one. *)
Inductive update :=
| UGlobalData (d : list string)
| URoomData (room : string) (typing : option string) (d : list string)
| UTyping (room : string) (typing : option string)
| URoom (room : string) (typing : option string)   (* any other update of a room *)
| UOther.
(** The room and typing event of a caches.RoomUpdate. *)
Definition room_update (u : update) : option (string * option string) :=
  match u with
  | URoomData r t _ | UTyping r t | URoom r t => Some (r, t)
  | _ => None
  end.

(** account_data.go:83-91, the end of AppendLive. *)
Definition add_data (res : option aresp) (global : list string) (room : option (string * list string)) : option aresp :=
  match global, room with
  | [], None => res
  | _, _ =>
      let a := default aresp0 res in
      let a := mk_aresp (a_global a ++ global) (a_rooms a) (a_loaded a) in
      match room with
      | None => Some a
      | Some (r, d) => Some (mk_aresp (a_global a) (<[r := default [] (a_rooms a !! r) ++ d]> (a_rooms a)) (r :: a_loaded a))
      end
  end.
(** account_data.go:44-92, AppendLive. [rows] are the stored rows of the user, None
    if the query fails. *)
Definition acct_live (e : ext) (c : ectx) (rows : option (list adata)) (res : option aresp) (u : update) : option aresp :=
  match u with
  | UGlobalData d => add_data res d None
  | URoomData room _ d => if roomInScope e room c then add_data res [] (Some (room, d)) else res
  | UOther => res
  | UTyping room _ | URoom room _ =>
      if negb (roomInScope e room c) then res
      else if bool_decide (is_Some (x_timeline c !! room)) then
        if match res with Some a => bool_decide (room ∈ a_loaded a) | None => false end then res
        else match rows with
             | None => res
             | Some rows => match map snd (selectMany rows [room]) with
                            | [] => res
                            | d => add_data res [] (Some (room, d)) end
             end
      else res
  end.

(** account_data.go:94-133, ProcessInitial. [order] is the order of the rooms of
    the response. The slice is made with their number as its length, so rooms out of
    scope leave empty strings at its end. *)
Definition acct_rooms (e : ext) (c : ectx) (order : list string) : list string :=
  let inscope := List.filter (fun r => roomInScope e r c) order in
  inscope ++ replicate (length order - length inscope) "".
Definition add_row (a : aresp) (d : adata) : aresp :=
  mk_aresp (a_global a) (<[d.1 := default [] (a_rooms a !! d.1) ++ [d.2]]> (a_rooms a)) (d.1 :: a_loaded a).
Definition acct_initial (e : ext) (c : ectx) (order : list string) (rows rows' : option (list adata)) : option aresp :=
  let rooms := acct_rooms e c order in
  let a := if (0 <? Z.of_nat (length rooms)) then
             match rows with None => aresp0 | Some rows => fold_left add_row (selectMany rows rooms) aresp0 end
           else aresp0 in
  let a := if x_initial c then
             match rows' with
             | None => a | Some rows' => mk_aresp (map snd (selectMany rows' [])) (a_rooms a) (a_loaded a) end
           else a in
  if (0 <? Z.of_nat (size (a_rooms a))) || (0 <? Z.of_nat (length (a_global a))) then Some a else None.

(** ** Typing *)

(** typing.go:31-65, AppendLive; the response is the map of rooms. *)
Definition typing_live (e : ext) (c : ectx) (res : option (gmap string string)) (u : update) : option (gmap string string) :=
  let found :=
    match u with
    | UTyping room t => Some (room, t)
    | _ => match room_update u with
           | Some (room, t) => if bool_decide (is_Some (x_timeline c !! room)) then Some (room, t) else None
           | None => None end
    end in
  match found with
  | Some (room, Some ev) =>
      if String.eqb room "" then res
      else if negb (roomInScope e room c) then res
      else Some (<[room := ev]> (default ∅ res))
  | _ => res
  end.

(** typing.go:67-93, ProcessInitial. [meta] gives the typing event of a room. *)
Definition typing_initial (e : ext) (c : ectx) (order : list string) (meta : string -> option string) : option (gmap string string) :=
  let m := fold_left (fun m room => match meta room with
                                    | Some ev => if roomInScope e room c then <[room := ev]> m else m
                                    | None => m end) order ∅ in
  if (0 <? Z.of_nat (size m)) then Some m else None.

(** ** The handler: extensions.go:319-341, for these two extensions. *)
Record eresp := mk_eresp { r_acct : option aresp; r_typing : option (gmap string string) }.
Definition eresp0 : eresp := mk_eresp None None.
Definition handle_live (r : exts) (c : ectx) (rows : option (list adata)) (res : eresp) (u : update) : eresp :=
  mk_eresp
    (match enabled_ext r EAccountData with Some e => acct_live e c rows (r_acct res) u | None => r_acct res end)
    (match enabled_ext r ETyping with Some e => typing_live e c (r_typing res) u | None => r_typing res end).
Definition handle (r : exts) (c : ectx) (order : list string) (rows rows' : option (list adata)) (meta : string -> option string) : eresp :=
  mk_eresp
    (match enabled_ext r EAccountData with Some e => acct_initial e c order rows rows' | None => None end)
    (match enabled_ext r ETyping with Some e => typing_initial e c order meta | None => None end).
