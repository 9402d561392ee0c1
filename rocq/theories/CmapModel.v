(** Model of the connection map: sync3/connmap.go.

    Every method holds the mutex, so it is one step. The ttlcache library runs
    the expiration callback in a goroutine of its own, after the item has left the
    cache; such callbacks wait in [m_pending] until they get the mutex.

    Simplifications: metrics, logging, sleeping and the contents of connections
    are dropped. A connection is identified by a serial number. *)
From Verif Require Import Prelude.
Open Scope string_scope. Open Scope list_scope. Open Scope nat_scope.

(** sync3/conn.go:19-23, ConnID. *)
Record connid := mk_connid { x_user : string; x_device : string; x_cid : string }.
Global Instance connid_dec : EqDecision connid.
Proof. solve_decision. Defined.
(** sync3/conn.go:25-27, ConnID.String. *)
Definition key (i : connid) : string := (x_user i ++ "|" ++ x_device i ++ "|" ++ x_cid i)%string.

Record conn := mk_conn { x_serial : nat; x_id : connid }.
Global Instance conn_dec : EqDecision conn.
Proof. solve_decision. Defined.
Definition ckey (c : conn) : string := key (x_id c).

(** connmap.go:16-29, with the connections whose buffer is full
    (connstate.go:733-735, never reset) and those that were destroyed. *)
Record cmap := mk_cmap {
  m_cache : gmap string conn; m_byid : gmap string conn; m_byuser : gmap string (list conn);
  m_pending : list conn; m_dead : list conn; m_destroyed : list conn; m_next : nat }.
Definition cmap0 : cmap := mk_cmap ∅ ∅ ∅ [] [] [] 0.

Definition conns_of (m : cmap) (user : string) : list conn := default [] (m_byuser m !! user).

(** connmap.go:224-247, closeConn. *)
Definition closeConn (m : cmap) (c : conn) : cmap :=
  mk_cmap (m_cache m) (delete (ckey c) (m_byid m))
    (<[x_user (x_id c) := List.filter (fun d => negb (bool_decide (x_device (x_id d) = x_device (x_id c))
                                              && bool_decide (x_cid (x_id d) = x_cid (x_id c))))
                         (conns_of m (x_user (x_id c)))]> (m_byuser m))
    (m_pending m) (m_dead m) (m_destroyed m ++ [c]) (m_next m).

(** connmap.go:116-133, getConn. *)
Definition getConn (m : cmap) (i : connid) : cmap * option conn :=
  match m_cache m !! key i with
  | None => (m, None)
  | Some c => if bool_decide (c ∈ m_dead m) then (closeConn m c, None) else (m, Some c)
  end.

(** connmap.go:135-160, CreateConn. *)
Definition createConn (m : cmap) (i : connid) : cmap * conn :=
  let (m, old) := getConn m i in
  let m := match old with Some c => closeConn m c | None => m end in
  let c := mk_conn (m_next m) i in
  (mk_cmap (<[key i := c]> (m_cache m)) (<[key i := c]> (m_byid m))
     (<[x_user i := conns_of m (x_user i) ++ [c]]> (m_byuser m))
     (m_pending m) (m_dead m) (m_destroyed m) (S (m_next m)), c).

(** ttlcache Remove, and an item's expiry: it leaves the cache and its callback
    starts. *)
Definition remove (m : cmap) (k : string) : cmap :=
  match m_cache m !! k with
  | None => m
  | Some c => mk_cmap (delete k (m_cache m)) (m_byid m) (m_byuser m) (m_pending m ++ [c]) (m_dead m)
                (m_destroyed m) (m_next m)
  end.

(** connmap.go:213-222, closeConnExpires, for the callback at a place of the queue. *)
Definition callback (m : cmap) (n : nat) : cmap :=
  match m_pending m !! n with
  | None => m
  | Some c =>
      closeConn (mk_cmap (m_cache m) (m_byid m) (m_byuser m) (take n (m_pending m) ++ drop (S n) (m_pending m))
                   (m_dead m) (m_destroyed m) (m_next m)) c
  end.

(** connmap.go:176-188, connIDsForDevice; the loop of CloseConnsForDevice
    (162-174) then removes each of them from the cache, without the mutex. *)
Definition idsForDevice (m : cmap) (user device : string) : list connid :=
  map x_id (List.filter (fun c => bool_decide (x_device (x_id c) = device)) (conns_of m user)).

(** connmap.go:190-211, CloseConnsForUsers. *)
Definition closeUsers (m : cmap) (users : list string) : cmap :=
  fold_left (fun m u => fold_left (fun m c => remove m (ckey c)) (conns_of m u) m) users m.

(** connmap.go:249-256, ClearUpdateQueues: the connections it reaches. *)
Definition reached (m : cmap) (user : string) : list conn := conns_of m user.

(** A connection's buffer gets full (connstate_live.go:33-47). *)
Definition fill (m : cmap) (c : conn) : cmap :=
  mk_cmap (m_cache m) (m_byid m) (m_byuser m) (m_pending m) (c :: m_dead m) (m_destroyed m) (m_next m).

Inductive op := Get (i : connid) | Create (i : connid) | Remove (k : string) | Callback (n : nat)
  | CloseUsers (us : list string) | Fill (c : conn).
Definition step (m : cmap) (o : op) : cmap :=
  match o with
  | Get i => (getConn m i).1
  | Create i => (createConn m i).1
  | Remove k => remove m k
  | Callback n => callback m n
  | CloseUsers us => closeUsers m us
  | Fill c => fill m c
  end.
Definition run (m : cmap) (os : list op) : cmap := fold_left step os m.
