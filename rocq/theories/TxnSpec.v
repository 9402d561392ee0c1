(** Specification of waiting for transaction IDs. *)
From Verif Require Import Prelude TxnModel.
Open Scope string_scope. Open Scope list_scope. Open Scope Z_scope.

(** What may happen to one connection's waiter: an update arrives; somebody
    clears a room up to a NID; time passes; a timer that is due fires. *)
Inductive moment :=
  | Update (up : upd) | Clear (room : string) (nid : Z) | Pass (dt : nat) | Fires (i : nat).

Record world := mk_world { v_now : Z; v_t : waiter; v_out : list (bool * upd) }.
Definition world0 : world := mk_world 0 waiter0 [].

Section waiting.
  Context (user : string) (delay : Z).

  Definition step (v : world) (m : moment) : world :=
    match m with
    | Update up =>
        let '(t, out) := Ingest user delay (v_now v) (v_t v) up in
        mk_world (v_now v) t (v_out v ++ out)
    | Clear room nid =>
        let '(t, out) := PublishUpToNID (v_t v) room nid in
        mk_world (v_now v) t (v_out v ++ out)
    | Pass dt => mk_world (v_now v + Z.of_nat dt) (v_t v) (v_out v)
    | Fires i =>
        match t_timers (v_t v) !! i with
        | Some (due, (room, nid)) =>
            if due <=? v_now v then
              let '(t, out) := PublishUpToNID
                (mk_waiter (t_queues (v_t v)) (delete i (t_timers (v_t v)))) room nid in
              mk_world (v_now v) t (v_out v ++ out)
            else v
        | None => v
        end
    end.
  Definition run (ms : list moment) : world := fold_left step ms world0.
End waiting.

(** The events of a room that arrived, that were published, and that wait. *)
Definition of_room (room : string) (up : upd) : list ev :=
  match up with Ev e => if decide (e_room e = room) then [e] else [] | Else _ => [] end.
Definition received (room : string) (ms : list moment) : list ev :=
  concat (map (fun m => match m with Update up => of_room room up | _ => [] end) ms).
Definition published (room : string) (v : world) : list ev :=
  concat (map (fun p => of_room room p.2) (v_out v)).
Definition waiting (room : string) (v : world) : list ev := default [] (t_queues (v_t v) !! room).

(** Updates that are not room events. *)
Definition elses (l : list upd) : list upd :=
  List.filter (fun u => match u with Else _ => true | _ => false end) l.
Definition updates (ms : list moment) : list upd :=
  concat (map (fun m => match m with Update up => [up] | _ => [] end) ms).

(** Every timer that is due has fired. *)
Definition on_time (v : world) : Prop :=
  forall due k, In (due, k) (t_timers (v_t v)) -> v_now v < due.

(** Reports of the pollers about events: this device of the sender got the event
    without a transaction ID, the pollers known being [known]; some device got
    it with one; the five minutes are over. *)
Inductive report :=
  | Missing (e dev : string) (known : list string) | Seen (e : string) | Forget (e : string).

Definition rstep (p : pending) (r : report) : pending * bool :=
  match r with
  | Missing e dev known => MissingTxnID p known e dev
  | Seen e => (SeenTxnID p e, false)
  | Forget e => (Expire p e, false)
  end.
(** The state after some reports, and which of them gave the all-clear. *)
Fixpoint reports (p : pending) (rs : list report) : pending * list (report * bool) :=
  match rs with
  | [] => (p, [])
  | r :: rest => let '(p1, b) := rstep p r in
                 let '(p2, l) := reports p1 rest in (p2, (r, b) :: l)
  end.
(** Does the last of these reports give the all-clear? *)
Definition all_clear (rs : list report) (r : report) : bool := (rstep (reports ∅ rs).1 r).2.
Definition event_of (r : report) : string :=
  match r with Missing e _ _ | Seen e | Forget e => e end.
