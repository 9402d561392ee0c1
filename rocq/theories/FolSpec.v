(** What it means that a client's copy of account data and typing follows the server. *)
From Verif Require Import Prelude RequestModel ExtModel ExtSpec FolModel.
Open Scope string_scope. Open Scope list_scope. Open Scope Z_scope.

(** The scope of an extension as the connection stands: it is enabled, and its
    parameters name the room or a list in which the room is visible. *)
Definition covered (k : ext_kind) (s : fstate) (room : string) : Prop :=
  exists e, asked (f_exts s) k e /\ in_scope e (ctx_of (f_place s) [] false) room.

(** The stored rows: at most one for each room and type. *)
Definition one_each (type_of : string -> string) (rows : list adata) : Prop :=
  NoDup (map (fun x : adata => (x.1, type_of x.2)) rows).
(** A row of the given room and type is stored. *)
Definition stored (type_of : string -> string) (rows : list adata) (room t d : string) : Prop :=
  In (room, d) rows /\ type_of d = t.
(** The client's data of one type is what is stored. *)
Definition same_data (type_of : string -> string) (rows : list adata) (room : string) (copy : string -> option string) : Prop :=
  forall t d, copy t = Some d <-> stored type_of rows room t d.

(** Outstanding notifications are about what is stored. *)
Definition sound_pend (type_of : string -> string) (s : fstate) : Prop :=
  forall room types t, In (room, types) (f_pend s) -> In t types -> exists d, stored type_of (f_rows s) room t d.

(** A start: a connection made while the table is as the code keeps it. *)
Definition starts (type_of : string -> string) (s : fstate) : Prop :=
  exists rows pend typ, s = fstart rows pend typ /\ one_each type_of rows /\ sound_pend type_of s.

(** Nothing is outstanding: every notification was handled, every update taken, and
    the last request was answered. *)
Definition settled (s : fstate) : Prop := f_pend s = [] /\ f_queue s = [] /\ f_busy s = false.

(** A property of every step of a run. *)
Fixpoint each_step (type_of : string -> string) (P : fstate -> faction -> Prop) (s : fstate) (l : list faction) : Prop :=
  match l with
  | [] => True
  | a :: l' => P s a /\ each_step type_of P (fstep type_of s a) l'
  end.

(** How a room comes into the scope of the account data extension: a request has it
    among the rooms of its response; or an update of the room itself, other than one
    of its account data, has it in the response, in which there is no account data of
    the room yet. *)
Definition enters_with_data (type_of : string -> string) (room : string) (s : fstate) (a : faction) : Prop :=
  ~ covered EAccountData s room -> covered EAccountData (fstep type_of s a) room ->
  match a with
  | Request _ _ here => In room here
  | Take _ added =>
      In room (f_here s ++ added)
      /\ (exists t q, f_queue s = URoom room t :: q \/ f_queue s = UTyping room t :: q)
      /\ resp_data (f_resp s) room = []
  | _ => True
  end.

(** The same for typing: any update of the room itself will do. *)
Definition enters_with_typing (type_of : string -> string) (room : string) (s : fstate) (a : faction) : Prop :=
  ~ covered ETyping s room -> covered ETyping (fstep type_of s a) room ->
  match a with
  | Request _ _ here => In room here
  | Take _ added =>
      In room (f_here s ++ added) /\ exists u q, f_queue s = u :: q /\ room_of u = Some room
  | _ => True
  end.

(** Typing in the room does not change while one of its events is held back, and the
    user is in the room. *)
Definition typing_unheld (room : string) (s : fstate) (a : faction) : Prop :=
  match a with
  | Typed r ev member => r = room -> member = true /\ (f_typ s room = Some ev \/ forall u, In u (f_held s) -> room_of u <> Some room)
  | _ => True
  end.

(** The extension is enabled in every request. *)
Definition always_asked (k : ext_kind) (s : fstate) (a : faction) : Prop :=
  match a with Request ex _ _ => exists e, asked ex k e | _ => True end.

(** Data of a room ("" for global data) that was stored at the start or since. *)
Definition ever_stored (s : fstate) (l : list faction) (room d : string) : Prop :=
  In (room, d) (f_rows s) \/ exists data, In (Store room data) l /\ In d data.
(** A typing event of a room that was known at the start or came since. *)
Definition ever_typed (s : fstate) (l : list faction) (room ev : string) : Prop :=
  f_typ s room = Some ev \/ exists m, In (Typed room ev m) l.
