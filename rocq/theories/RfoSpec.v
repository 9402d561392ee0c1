(** What it means that a client's copy of receipts follows the server. *)
From Verif Require Import Prelude RequestModel ExtModel ExtSpec ReceiptModel RfoModel.
From Verif Require FolModel.
Open Scope string_scope. Open Scope list_scope. Open Scope Z_scope.

(** The receipts extension is enabled, and its parameters name the room or a list in
    which the room is visible. *)
Definition covers (s : qstate) (room : string) : Prop :=
  exists e, asked (q_exts s) EReceipts e /\ in_scope e (FolModel.ctx_of (q_place s) [] false) room.

(** What is stored in a slot: event and time. *)
Definition stored_in (s : qstate) (k : slot) : option (string * Z) :=
  let '(room, user, thread, private) := k in
  (if private : bool then s_priv (q_store s) else s_pub (q_store s)) !! (room, user, thread).

(** Nothing is outstanding. *)
Definition done_with (s : qstate) : Prop := q_pend s = [] /\ q_queue s = [] /\ q_busy s = false.

Fixpoint every_step (me : string) (P : qstate -> qaction -> Prop) (s : qstate) (l : list qaction) : Prop :=
  match l with
  | [] => True
  | a :: l' => P s a /\ every_step me P (qstep me s a) l'
  end.

(** An event of another poller does not bring a receipt back that is not newer than
    the stored one. *)
Definition no_step_back (k : slot) (s : qstate) (a : qaction) : Prop :=
  match a with
  | Arrive room e _ =>
      forall r ev ts, (In r (unpack_read room e) \/ In r (unpack_priv room e)) -> slot_of r = k ->
        stored_in s k = Some (ev, ts) -> rc_event r <> ev -> ts < rc_ts r
  | _ => True
  end.
(** The user is in the room whenever notifications are handled. *)
Definition in_room (me room : string) (s : qstate) (a : qaction) : Prop :=
  match a with Told joined => In me (joined room) | _ => True end.
(** A room comes into the scope of the extension by a request, as one of the rooms of
    its response. *)
Definition enters_by_request (me room : string) (s : qstate) (a : qaction) : Prop :=
  ~ covers s room -> covers (qstep me s a) room ->
  match a with Ask _ _ timelines _ => is_Some (timelines !! room) | _ => False end.
(** The room stays in scope. *)
Definition stays (me room : string) (s : qstate) (a : qaction) : Prop := covers (qstep me s a) room.
