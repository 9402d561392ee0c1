(** Model of the gate in front of new connections:
    sync3/handler/ensure_polling.go.

    Every section under the mutex is one step: the start of EnsurePolling, its end
    after the channel was closed, OnInitialSyncComplete and OnExpiredToken. Channels
    are numbered; waiting for one ends once it is closed. Closing a nil or a closed
    channel panics, which is None.

    Simplifications: tracing, logging and the gauge are dropped. The notification
    that asks for the poller (112-116) is recorded together with the section before
    it. *)
From Verif Require Import Prelude PmapModel.
Open Scope string_scope. Open Scope list_scope. Open Scope nat_scope.

(** ensure_polling.go:16-26, pendingInfo. *)
Record info := mk_info { i_done : bool; i_expired : bool; i_ch : option nat }.
(** The zero value, which a map lookup returns for a missing key. *)
Definition info0 : info := mk_info false false None.

Inductive cstate := Waiting (ch : nat) | Finished (expired : bool).

(** ensure_polling.go:30-39, with the channels made and closed so far, the callers
    in the order of their calls and the requests sent to the pollers. *)
Record gate := mk_gate {
  g_pending : gmap pid info; g_next : nat; g_closed : list nat;
  g_calls : list (pid * cstate); g_asked : list pid }.
Definition gate0 : gate := mk_gate ∅ 0 [] [] [].

Definition entry (g : gate) (p : pid) : info := default info0 (g_pending g !! p).

Definition close_ch (closed : list nat) (ch : option nat) : option (list nat) :=
  match ch with
  | None => None
  | Some c => if bool_decide (c ∈ closed) then None else Some (c :: closed)
  end.

(** ensure_polling.go:63-122, up to the wait. *)
Definition call (g : gate) (p : pid) : option gate :=
  let expired := i_expired (entry g p) in
  if negb expired && i_done (entry g p) then
    Some (mk_gate (g_pending g) (g_next g) (g_closed g) (g_calls g ++ [(p, Finished expired)]) (g_asked g))
  else
    (* 77-85 *)
    r ← (if expired then
           cl ← (match i_ch (entry g p) with None => Some (g_closed g) | Some c => close_ch (g_closed g) (Some c) end);
           Some (delete p (g_pending g), cl)
         else Some (g_pending g, g_closed g));
    let (pending, closed) := r : gmap pid info * list nat in
    match i_ch (default info0 (pending !! p)) with
    | Some c => Some (mk_gate pending (g_next g) closed (g_calls g ++ [(p, Waiting c)]) (g_asked g))
    | None =>
        Some (mk_gate (<[p := mk_info false false (Some (g_next g))]> pending) (S (g_next g)) closed
                (g_calls g ++ [(p, Waiting (g_next g))]) (g_asked g ++ [p]))
    end.

(** ensure_polling.go:96-101 and 121-127: after the channel was closed. *)
Definition wake (g : gate) (n : nat) : gate :=
  match g_calls g !! n with
  | Some (p, Waiting c) =>
      if bool_decide (c ∈ g_closed g) then
        mk_gate (g_pending g) (g_next g) (g_closed g)
          (<[n := (p, Finished (i_expired (entry g p)))]> (g_calls g)) (g_asked g)
      else g
  | _ => g
  end.

(** ensure_polling.go:130-167, OnInitialSyncComplete. *)
Definition complete (g : gate) (p : pid) (success : bool) : option gate :=
  match g_pending g !! p with
  | None => Some (mk_gate (<[p := mk_info true (negb success) None]> (g_pending g)) (g_next g) (g_closed g) (g_calls g) (g_asked g))
  | Some i =>
      if i_done i then Some g
      else
        cl ← close_ch (g_closed g) (i_ch i);
        Some (mk_gate (<[p := mk_info true (if i_expired i then true else negb success) None]> (g_pending g))
                (g_next g) cl (g_calls g) (g_asked g))
  end.

(** ensure_polling.go:169-186, OnExpiredToken. *)
Definition expire (g : gate) (p : pid) : gate :=
  match g_pending g !! p with
  | None => g
  | Some i => mk_gate (<[p := mk_info (i_done i) true (i_ch i)]> (g_pending g)) (g_next g) (g_closed g) (g_calls g) (g_asked g)
  end.

Inductive gop := Call (p : pid) | Wake (n : nat) | Complete (p : pid) (success : bool) | Expire (p : pid).
Definition gstep (g : gate) (o : gop) : option gate :=
  match o with
  | Call p => call g p
  | Wake n => Some (wake g n)
  | Complete p s => complete g p s
  | Expire p => Some (expire g p)
  end.
Fixpoint grun (g : gate) (os : list gop) : option gate :=
  match os with [] => Some g | o :: os => g' ← gstep g o; grun g' os end.
