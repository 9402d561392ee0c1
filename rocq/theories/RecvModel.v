(** Model of three parts of the poller's receiver, sync2/handler2/handler.go:
    account data, unread counts and typing. The receiver's callbacks run one at
    a time (sync2/poller.go:312-415, the executor of the PollerMap), except for
    OnTerminated, which takes typingMu.

    Simplifications: JSON events are records of what is read; metrics, logging
    and notifications are dropped unless named. *)
From Verif Require Import Prelude.
Open Scope string_scope. Open Scope list_scope. Open Scope Z_scope.

(** ** Account data *)

(** An event of account data: its type and everything else. *)
Record adata := mk_adata { d_type : string; d_rest : string }.
Global Instance adata_dec : EqDecision adata.
Proof. solve_decision. Defined.

(** The table syncv3_account_data, unique by user, room and type
    (state/account_data.go:24-39); "" is the global room. *)
Definition slot : Type := string * string * string.
Notation atable := (gmap slot adata).
(** handler.go:45-60, accountDataMap: the hash last seen for a key. *)
Notation amap := (gmap string Z).

Record acct := mk_acct { a_map : amap; a_tab : atable }.
Definition acct0 : acct := mk_acct ∅ ∅.

(** handler.go:493. *)
Definition acct_key (user room type : string) : string := (user ++ "|" ++ room ++ "|" ++ type)%string.

(** handler.go:491-504: leave out what is as it was last time, and remember the
    rest. [hash] is fnvHash. *)
Fixpoint dedupe (hash : adata -> Z) (user room : string) (m : amap) (evs : list adata) : amap * list adata :=
  match evs with
  | [] => (m, [])
  | e :: rest =>
      let k := acct_key user room (d_type e) in
      if bool_decide (m !! k = Some (hash e)) then dedupe hash user room m rest
      else let (m', l) := dedupe hash user room (<[k := hash e]> m) rest in (m', e :: l)
  end.

(** state/storage.go InsertAccountData and state/account_data.go:41-66: all or
    nothing; of several events for a slot the last one counts. *)
Definition insert_data (user room : string) (tab : atable) (evs : list adata) : atable :=
  fold_left (fun t e => <[(user, room, d_type e) := e]> t) evs tab.

(** How storing ends: it works, it fails, or the process ends while it goes on
    and nothing was stored (the map is lost then). *)
Inductive ending := Stored | Failed | Died.

(** handler.go:487-525, OnAccountData. The flag says that nil is returned. *)
Definition onAccountData (hash : adata -> Z) (s : acct) (user room : string) (evs : list adata) (e : ending)
    : acct * bool :=
  let (m, l) := dedupe hash user room (a_map s) evs in
  match l with
  | [] => (mk_acct m (a_tab s), true)
  | _ => match e with
         | Stored => (mk_acct m (insert_data user room (a_tab s) l), true)
         | Failed => (mk_acct m (a_tab s), false)
         | Died => (mk_acct ∅ (a_tab s), false)
         end
  end.

(** ** Unread counts *)

(** The table syncv3_unread (state/unread_table.go:13-24): highlight and
    notification counts by user and room. *)
Notation utable := (gmap (string * string) (Z * Z)).
(** handler.go:45-60, unreadMap. *)
Record unread := mk_unread { u_map : gmap string (Z * Z); u_tab : utable }.
Definition unread0 : unread := mk_unread ∅ ∅.

(** state/unread_table.go:54-76. *)
Definition updateCounters (t : utable) (user room : string) (hi no : option Z) : utable :=
  match hi, no with
  | Some h, Some n => <[(user, room) := (h, n)]> t
  | Some h, None =>
      <[(user, room) := match t !! (user, room) with Some (_, n) => (h, n) | None => (h, 0) end]> t
  | None, Some n =>
      <[(user, room) := match t !! (user, room) with Some (h, _) => (h, n) | None => (0, n) end]> t
  | None, None => t
  end.

(** handler.go:450-485, UpdateUnreadCounts; [ok] says that the query works. *)
Definition updateUnread (s : unread) (room user : string) (hi no : option Z) (ok : bool) : unread :=
  let key := (room ++ user)%string in
  let new := (default 0 hi, default 0 no) in
  if bool_decide (u_map s !! key = Some new) then s
  else mk_unread (<[key := new]> (u_map s))
         (if ok then updateCounters (u_tab s) user room hi no else u_tab s).

(** state/unread_table.go:46-51, SelectUnreadCounters; no row reads as zeros. *)
Definition selectUnread (s : unread) (user room : string) : Z * Z := default (0, 0) (u_tab s !! (user, room)).

(** ** Typing *)

(** sync2/poller.go:24-27, PollerID. *)
Record pid := mk_pid { i_user : string; i_device : string }.
Global Instance pid_dec : EqDecision pid.
Proof. solve_decision. Defined.
(** handler.go:45-60, typingHandler: a missing entry is the zero PollerID. *)
Notation typing := (gmap string pid).

(** handler.go:396-416, SetTyping. The flag says that the update is passed on. *)
Definition setTyping (t : typing) (p : pid) (room : string) : typing * bool :=
  let old := default (mk_pid "" "") (t !! room) in
  let assigned := negb (bool_decide (i_device old = "")) && negb (bool_decide (i_user old = "")) in
  if assigned && negb (bool_decide (old = p)) then (t, false)
  else if negb assigned then (<[room := p]> t, true)
  else (t, true).

(** handler.go:186-196, OnTerminated. *)
Definition onTerminated (t : typing) (p : pid) : typing :=
  filter (fun kv => kv.2 <> p) t.

(** handler.go:541-562, OnLeftRoom; [ok] says that removing the invite works. *)
Definition onLeftRoom (t : typing) (room : string) (ok : bool) : typing :=
  if ok then delete room t else t.
