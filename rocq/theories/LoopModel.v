(** Model of waiting for updates on a connection: [sync3/handler/connstate_live.go] 15-117,
    with the look-up of connections in [sync3/connmap.go] 110-135. *)
From Verif Require Import Prelude.
Open Scope list_scope. Open Scope Z_scope.

Section loop.
  (** Updates, and the response with the state of the connection, about which nothing is
      said here but how an update changes it ([proc]: processUpdate, 119-133) and whether the
      response has something to say ([has]: the condition of the loop in 67). *)
  Context {A R : Type}.
  Variable proc : A -> R -> R.
  Variable has : R -> bool.
  (** The size of the channel (connstate.go:83) and BufferWaitTime (connstate_live.go:16). *)
  Variable cap : nat.
  Variable wait : Z.

  (** Where a request is in liveUpdate. *)
  Inductive place :=
    | Loop                (* 67-75 *)
    | Select (until : Z)  (* 76-87, blocked *)
    | Inner               (* 90-94 *)
    | After               (* 98-104 *)
    | Catch (left_ : nat). (* 105-108 *)
  Record request := mk_request {
    r_initial : bool; r_start : Z; r_timeout : Z; r_streamed : bool; r_n : nat; r_resp : R; r_place : place;
    (* For the specification: the timeout that was asked for, the response at first, the
       number of updates that were handled before, and of those handled or queued then. *)
    r_asked : Z; r_first : R; r_before : nat; r_seen : nat
  }.
  Inductive why := Data | TimedOut | GaveUp.
  (** A request that ended: how, when, which updates were handled by then and whether it was
      cancelled. *)
  Record result := mk_result { e_req : request; e_why : why; e_at : Z; e_handled : list A; e_cancelled : bool }.

  (** The channel, the senders which are blocked on it with the time since when, in the order
      in which Go serves them, bufferFull, and the request that holds the mutex of the
      connection. For the specification: all calls of onUpdate, the updates that were
      handled, those that were lost in 41-45 and those that were ignored in 34-36. *)
  Record st := mk_st {
    queue : list A; blocked : list (A * Z); full : bool; now : Z; cancelled : bool;
    req : option request; accepted : nat; refused : nat; results : list result;
    called : list A; handled : list A; lost : list A; ignored : list A
  }.
  Definition st0 : st := mk_st [] [] false 0 false None 0 0 [] [] [] [] [].

  Inductive step :=
    | Call (u : A)          (* onUpdate is called, by any goroutine *)
    | Expire (i : nat)      (* the timer of the i-th blocked sender fires: 39-44 *)
    | Tick (d : Z)          (* time passes *)
    | Cancel                (* the client goes away or sends another request *)
    | LookUp                (* connmap.go:119-135 by a request *)
    | Begin (initial : bool) (timeout : Z) (r : R) (* the mutex is taken and what the request asks for is in the response *)
    | Go                    (* the request proceeds where it has no choice *)
    | Take                  (* the cases of the select: 88, *)
    | Give                  (* 78-81 *)
    | Time.                 (* 82-85 *)

  (** Receiving from the channel: the oldest element, and the first blocked sender fills the
      place. *)
  Definition receive (q : list A) (b : list (A * Z)) : option (A * list A * list (A * Z)) :=
    match q, b with
    | x :: q, [] => Some (x, q, [])
    | x :: q, (y, _) :: b => Some (x, q ++ [y], b)
    | [], (y, _) :: b => Some (y, [], b)
    | [], [] => None
    end.

  Definition set_req (s : st) (r : request) : st :=
    mk_st (queue s) (blocked s) (full s) (now s) (cancelled s) (Some r) (accepted s) (refused s) (results s)
      (called s) (handled s) (lost s) (ignored s).
  Definition at_place (r : request) (p : place) : request :=
    mk_request (r_initial r) (r_start r) (r_timeout r) (r_streamed r) (r_n r) (r_resp r) p (r_asked r) (r_first r) (r_before r) (r_seen r).
  Definition finish (s : st) (r : request) (w : why) : st :=
    mk_st (queue s) (blocked s) (full s) (now s) false None (accepted s) (refused s)
      (results s ++ [mk_result r w (now s) (handled s) (cancelled s)]) (called s) (handled s) (lost s) (ignored s).
  (** 88-90, 92-94, 106-107: one update is received and processed. *)
  Definition consume (s : st) (r : request) (p : place) : option st :=
    match receive (queue s) (blocked s) with
    | None => None
    | Some (u, q, b) =>
        Some (mk_st q b (full s) (now s) (cancelled s)
          (Some (mk_request (r_initial r) (r_start r) (r_timeout r) (r_streamed r) (S (r_n r)) (proc u (r_resp r)) p (r_asked r) (r_first r) (r_before r) (r_seen r)))
          (accepted s) (refused s) (results s) (called s) (handled s ++ [u]) (lost s) (ignored s))
    end.

  (** None: the step is not possible. *)
  Definition do (s : st) (x : step) : option st :=
    match x with
    | Call u =>
        if full s then
          Some (mk_st (queue s) (blocked s) (full s) (now s) (cancelled s) (req s) (accepted s) (refused s) (results s)
                  (called s ++ [u]) (handled s) (lost s) (ignored s ++ [u]))
        else if (length (queue s) <? cap)%nat then
          Some (mk_st (queue s ++ [u]) (blocked s) (full s) (now s) (cancelled s) (req s) (accepted s) (refused s) (results s)
                  (called s ++ [u]) (handled s) (lost s) (ignored s))
        else
          Some (mk_st (queue s) (blocked s ++ [(u, now s)]) (full s) (now s) (cancelled s) (req s) (accepted s) (refused s) (results s)
                  (called s ++ [u]) (handled s) (lost s) (ignored s))
    | Expire i =>
        match blocked s !! i with
        | Some (u, t) =>
            if now s <? t + wait then None
            else (* Destroy cancels the request in flight: connstate.go:725-731 *)
              Some (mk_st (queue s) (take i (blocked s) ++ drop (S i) (blocked s)) true (now s)
                      (match req s with Some _ => true | None => cancelled s end) (req s) (accepted s) (refused s) (results s)
                      (called s) (handled s) (lost s ++ [u]) (ignored s))
        | None => None
        end
    | Tick d =>
        if d <? 0 then None
        else Some (mk_st (queue s) (blocked s) (full s) (now s + d) (cancelled s) (req s) (accepted s) (refused s) (results s)
                     (called s) (handled s) (lost s) (ignored s))
    | Cancel =>
        match req s with
        | Some _ => Some (mk_st (queue s) (blocked s) (full s) (now s) true (req s) (accepted s) (refused s) (results s)
                            (called s) (handled s) (lost s) (ignored s))
        | None => None
        end
    | LookUp =>
        if full s then
          Some (mk_st (queue s) (blocked s) (full s) (now s) (cancelled s) (req s) (accepted s) (S (refused s)) (results s)
                  (called s) (handled s) (lost s) (ignored s))
        else
          Some (mk_st (queue s) (blocked s) (full s) (now s) (cancelled s) (req s) (S (accepted s)) (refused s) (results s)
                  (called s) (handled s) (lost s) (ignored s))
    | Begin initial timeout r =>
        match req s, accepted s with
        | None, S n =>
            (* 59-66 *)
            let t := if timeout <? 100 then 100 else timeout in
            Some (mk_st (queue s) (blocked s) (full s) (now s) false
                    (Some (mk_request initial (now s) t false 0 r Loop timeout r (length (handled s)) (length (handled s) + length (queue s))))
                    n (refused s) (results s) (called s) (handled s) (lost s) (ignored s))
        | _, _ => None
        end
    | Go =>
        match req s with
        | None => None
        | Some r =>
            match r_place r with
            | Loop =>
                if has (r_resp r) then Some (set_req s (at_place r After))
                else
                  let r := mk_request (r_initial r) (r_start r) (r_timeout r) true (r_n r) (r_resp r) (r_place r) (r_asked r) (r_first r) (r_before r) (r_seen r) in
                  let left_ := r_timeout r - (now s - r_start r) in
                  if left_ <? 0 then Some (finish s r TimedOut)
                  else Some (set_req s (at_place r (Select (now s + left_))))
            | Select _ => None
            | Inner =>
                if ((0 <? length (queue s)) && (r_n r <? 100))%nat then consume s r Inner
                else Some (set_req s (at_place r Loop))
            | After =>
                if (negb (r_streamed r) && negb (r_initial r) && (0 <? length (queue s))%nat)
                then Some (set_req s (at_place r (Catch (length (queue s)))))
                else Some (finish s r Data)
            | Catch 0 => Some (finish s r Data)
            | Catch (S k) => consume s r (Catch k)
            end
        end
    | Take =>
        match req s with
        | Some r => match r_place r with Select _ => consume s r Inner | _ => None end
        | None => None
        end
    | Give =>
        match req s with
        | Some r => match r_place r with Select _ => if cancelled s then Some (finish s r GaveUp) else None | _ => None end
        | None => None
        end
    | Time =>
        match req s with
        | Some r => match r_place r with Select t => if now s <? t then None else Some (finish s r TimedOut) | _ => None end
        | None => None
        end
    end.
  Fixpoint runs (l : list step) (s : st) : option st :=
    match l with
    | [] => Some s
    | x :: l => match do s x with Some s => runs l s | None => None end
    end.
End loop.
