(** Specification of account data, unread counts and typing. *)
From Verif Require Import Prelude RecvModel.
Open Scope string_scope. Open Scope list_scope. Open Scope Z_scope.

(** ** Account data: batches of events of a user and a room ("" for global ones)
    arrive, and the server restarts. *)
Inductive ahap := Batch (user room : string) (evs : list adata) (e : ending) | ARestart.
Definition astep (hash : adata -> Z) (s : acct) (h : ahap) : acct :=
  match h with
  | Batch user room evs e => (onAccountData hash s user room evs e).1
  | ARestart => mk_acct ∅ (a_tab s)
  end.
Definition arun (hash : adata -> Z) (hs : list ahap) : acct := fold_left (astep hash) hs acct0.
(** The events the poller was told are stored, oldest first. *)
Fixpoint acked (hash : adata -> Z) (s : acct) (hs : list ahap) : list (slot * adata) :=
  match hs with
  | [] => []
  | h :: rest =>
      match h with
      | Batch user room evs e =>
          if (onAccountData hash s user room evs e).2
          then map (fun d => ((user, room, d_type d), d)) evs else []
      | ARestart => []
      end ++ acked hash (astep hash s h) rest
  end.
Definition latest (k : slot) (l : list (slot * adata)) : option adata :=
  fold_left (fun old x => if decide (x.1 = k) then Some x.2 else old) l None.
Definition batch_events (hs : list ahap) : list adata :=
  concat (map (fun h => match h with Batch _ _ evs _ => evs | ARestart => [] end) hs).

(** A name without the separator "|" of keys. *)
Definition bar : Ascii.ascii := Ascii.Ascii false false true true true true true false.
Fixpoint no_bar (s : string) : Prop :=
  match s with EmptyString => True | String c r => c <> bar /\ no_bar r end.
Example bar_example : String bar "" = "|".
Proof. reflexivity. Qed.

(** ** Unread counts: updates of a room and user, and restarts. *)
Inductive uhap := Counts (room user : string) (hi no : option Z) (ok : bool) | URestart.
Definition ustep (s : unread) (h : uhap) : unread :=
  match h with
  | Counts room user hi no ok => updateUnread s room user hi no ok
  | URestart => mk_unread ∅ (u_tab s)
  end.
Definition urun (hs : list uhap) : unread := fold_left ustep hs unread0.
(** The values last given for each counter. *)
Definition given (user room : string) (hs : list uhap) : Z * Z :=
  fold_left (fun old h =>
    match h with
    | Counts room' user' hi no _ =>
        if decide (room' = room /\ user' = user)
        then (default old.1 hi, default old.2 no) else old
    | URestart => old
    end) hs (0, 0).

(** ** Typing: updates by pollers, pollers stopping, rooms left. *)
Inductive thap := Typed (p : pid) (room : string) | Stopped (p : pid) | Left (room : string) (ok : bool).
Definition tstep (t : typing) (h : thap) : typing :=
  match h with
  | Typed p room => (setTyping t p room).1
  | Stopped p => onTerminated t p
  | Left room ok => onLeftRoom t room ok
  end.
Definition trun (hs : list thap) : typing := fold_left tstep hs ∅.
(** An update made after a history is passed on. *)
Definition accepted (hs : list thap) (p : pid) (room : string) : Prop := (setTyping (trun hs) p room).2 = true.
(** A poller drives a room: its update was passed on, and since then it has not
    stopped and the room was not left. *)
Definition drives (p : pid) (room : string) (hs : list thap) : Prop :=
  exists a b, hs = a ++ Typed p room :: b /\ accepted a p room
    /\ ~ In (Stopped p) b /\ ~ In (Left room true) b.
Definition real (p : pid) : Prop := i_user p <> "" /\ i_device p <> "".
Definition real_pollers (hs : list thap) : Prop := forall p room, In (Typed p room) hs -> real p.
