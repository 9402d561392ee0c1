(** Model of how notifications wait for connections that are not read: [pubsub/pubsub.go] 79-97
    (Notify) and 112-121 (Listen), [sync3/handler/connstate_live.go] 14-48 (onUpdate),
    [sync3/caches/user.go] 522-545 (emitOnRoomUpdate and emitOnUpdate), [sync3/handler/connstate.go]
    724-745 (Destroy, Alive, OnUpdate), with the times at which things happen, in milliseconds.

    There is one channel, which holds [room] notifications (50, v3.go:127), and one goroutine that
    handles them one by one. Notify waits for at most 5 seconds for room in the channel; the
    callers do not look at the error (handler2/handler.go:205, 257, 305, 312, 345, 356, 384, 388,
    412, 430, 443, 479, 519, 534, 556, 590). Go lets those who wait for room in a channel go on in
    the order in which they came.

    Simplifications: a connection is either read often enough that there always is room in its
    buffer, or it is not read at all; apart from waiting for a connection, handling a
    notification takes a given time; if there is room at the very moment at which the 5 seconds
    are over, the notification gets in; updates held for transaction IDs are TxnModel (C40). *)
From Verif Require Import Prelude.
Open Scope string_scope. Open Scope list_scope. Open Scope nat_scope.

(** connstate_live.go:16, BufferWaitTime, and pubsub.go:83. *)
Definition BufferWaitTime : nat := 5000.
Definition NotifyWaitTime : nat := 5000.

(** A connection: whether the client reads it, how many updates are in its buffer, bufferFull,
    and the notifications it got updates from. *)
Record conn := mk_conn { n_reads : bool; n_fill : nat; n_full : bool; n_got : list nat }.
(** A notification: its number, how long handling it takes apart from waiting, and the
    connections it has updates for, in the order in which they get them. *)
Record note := mk_note { o_id : nat; o_work : nat; o_to : list string }.

Section slow.
  (** The size of the buffer of a connection (2000, v3.go:133-135) and of the channel. *)
  Context (size room : nat).

  (** connstate_live.go:31-48, onUpdate: the connection afterwards and how long it took. *)
  Definition onUpdate (c : conn) (id : nat) : conn * nat :=
    if n_full c then (c, 0)
    else if n_reads c then (mk_conn true (n_fill c) false (n_got c ++ [id]), 0)
    else if n_fill c <? size then (mk_conn false (S (n_fill c)) false (n_got c ++ [id]), 0)
    else (mk_conn false (n_fill c) true (n_got c), BufferWaitTime).

  (** user.go:522-545: the connections one after the other. *)
  Fixpoint emit (cs : gmap string conn) (id : nat) (to : list string) : gmap string conn * nat :=
    match to with
    | [] => (cs, 0)
    | k :: to =>
        match cs !! k with
        | Some c => let '(c', t) := onUpdate c id in let '(cs', t') := emit (<[ k := c' ]> cs) id to in (cs', t + t')
        | None => emit cs id to
        end
    end.

  (** The times at which notifications were taken out of the channel, last first; when the last
      one was handled; the connections. *)
  Record state := mk_state { s_taken : list nat; s_free : nat; s_conns : gmap string conn }.
  Definition state0 (cs : gmap string conn) : state := mk_state [] 0 cs.

  (** When there is room in the channel for another notification: at once, or when the one was
      taken after which [room] more came. A channel without a buffer (v3.go:129-132, for tests)
      is not modelled. *)
  Definition room_at (s : state) : nat := match s_taken s !! pred room with Some t => t | None => 0 end.

  (** pubsub.go:79-97 and 112-121 for a call of Notify at [now]: when it returned and whether
      the notification got in. *)
  Definition notify (s : state) (now : nat) (o : note) : state * (nat * bool) :=
    let put := Nat.max now (room_at s) in
    if now + NotifyWaitTime <? put then (s, (now + NotifyWaitTime, false))
    else
      let take := Nat.max put (s_free s) in
      let '(cs, waited) := emit (s_conns s) (o_id o) (o_to o) in
      (mk_state (take :: s_taken s) (take + o_work o + waited) cs, (put, true)).

  (** The calls of Notify in the order of their times. *)
  Fixpoint run (s : state) (l : list (nat * note)) : state * list (nat * bool) :=
    match l with
    | [] => (s, [])
    | (now, o) :: l => let '(s, r) := notify s now o in let '(s', rs) := run s l in (s', r :: rs)
    end.
End slow.
