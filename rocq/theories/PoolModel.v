(** Model of how the pollers' data reaches its handlers: [sync2/poller.go] (PollerMap's
    callbacks, execute, Terminate; Poll's recover), [internal/pool.go] (all of it) and
    [sync2/handler2/handler.go] (OnE2EEData).

    A step machine: pollers, the executor's goroutine and the workers run at the same time
    and any of them may move next. What a handler does and returns is arbitrary.

    Simplifications: a poller is the list of callbacks it has still to make, and whenever it
    makes none it may be given another list (what it calls for depends on responses and on
    what came back). A sender that finds the channel full, or nobody receiving, is not stuck
    in a state of its own: its step is not possible until there is room. Panics inside of
    database transactions are errors, not panics (sqlutil/sql.go:28-48, see C50). *)
From Verif Require Import Prelude.
Open Scope string_scope.
Open Scope list_scope.
Open Scope Z_scope.

(** sync2/poller.go:27-79: V2DataReceiver's methods. *)
Inductive callback :=
  | CSince | CAccumulate | CInitialise | CTyping | CToDevice | CUnread | CInvite | CLeft
  | CAccount | CReceipt | CE2EE | CTerminated | CExpired.

(** How a callback is run: by the executor, by a worker or by the poller itself. *)
Inductive way := ByExecutor | ByWorker | BySelf.

(** sync2/poller.go:315-420: the callbacks that are sent to the executor, those that are
    called as they are (317, 373, 378, 382, 421), and handler.go:230-253: the one that is
    queued for the workers. *)
Definition way_of (c : callback) : way :=
  match c with
  | CAccumulate | CInitialise | CTyping | CInvite | CLeft | CUnread | CAccount | CReceipt => ByExecutor
  | CE2EE => ByWorker
  | CSince | CToDevice | CTerminated | CExpired => BySelf
  end.

(** One call, with its arguments. *)
Record job := mk_job { j_cb : callback; j_arg : nat }.
Definition job_way (j : job) : way := way_of (j_cb j).

(** Where a poller is with its first call: not made, sent to the workers, being run. *)
Inductive phase := Idle | Queued | Running.

(** A poller: the calls it has to make, how far the first one is, what its calls gave so far,
    and whether it has panicked and only its deferred function is left (poller.go:511-521). *)
Record pollr := mk_pollr { p_todo : list job; p_phase : phase; p_got : list (job * Z); p_dying : bool }.

(** What can be seen: handlers being started, giving a result, and panicking. *)
Inductive ev := EStart (i : nat) (j : job) | EEnd (i : nat) (j : job) (r : Z) | EPanic (i : nat) (j : job).

(** pool.go:3-6: N and the channel, with the workers that are busy; poller.go:113-131: the
    pollers and the executor, closed or not; whether the process is gone. *)
Record sys := mk_sys { s_n : nat; s_pollers : list pollr; s_exec : option nat;
  s_queue : list nat; s_busy : list nat; s_closed : bool; s_down : bool; s_log : list ev }.

Inductive act := Begin (i : nat) | Take | Finish (i : nat) (r : Z) | Panic (i : nat) | Fetch (i : nat) (js : list job) | Shut.

(** poller.go:511-521: the poller panics: it recovers, calls OnTerminated, and is gone. *)
Definition die (p : pollr) : pollr := mk_pollr [mk_job CTerminated 0] Idle (p_got p) true.

(** The poller's first call is at phase [ph]. *)
Definition at_phase (p : pollr) (ph : phase) : pollr := mk_pollr (p_todo p) ph (p_got p) (p_dying p).

Definition with_log (s : sys) (e : ev) : list ev := s_log s ++ [e].

(** poller.go:323-333 and its like, up to the send; pool.go:60-62. *)
Definition begin_ (s : sys) (i : nat) : option sys :=
  match s_pollers s !! i with
  | None => None
  | Some p =>
      match p_phase p, p_todo p with
      | Idle, j :: _ =>
          match job_way j with
          | ByExecutor =>
              if s_closed s then
                (* a send on a closed channel panics, in the poller *)
                Some (mk_sys (s_n s) (<[i := die p]> (s_pollers s)) (s_exec s) (s_queue s) (s_busy s) (s_closed s) (s_down s) (s_log s))
              else
                match s_exec s with
                | Some _ => None
                | None => Some (mk_sys (s_n s) (<[i := at_phase p Running]> (s_pollers s)) (Some i) (s_queue s) (s_busy s) (s_closed s) (s_down s) (with_log s (EStart i j)))
                end
          | ByWorker =>
              if decide (length (s_queue s) < s_n s)%nat then
                Some (mk_sys (s_n s) (<[i := at_phase p Queued]> (s_pollers s)) (s_exec s) (s_queue s ++ [i]) (s_busy s) (s_closed s) (s_down s) (s_log s))
              else None
          | BySelf => Some (mk_sys (s_n s) (<[i := at_phase p Running]> (s_pollers s)) (s_exec s) (s_queue s) (s_busy s) (s_closed s) (s_down s) (with_log s (EStart i j)))
          end
      | _, _ => None
      end
  end.

(** pool.go:44-48 and 65-69: N workers, each takes the first in the channel and runs it. *)
Definition take (s : sys) : option sys :=
  match s_queue s with
  | [] => None
  | i :: q =>
      if decide (length (s_busy s) < s_n s)%nat then
        match s_pollers s !! i with
        | Some p =>
            match p_todo p with
            | j :: _ => Some (mk_sys (s_n s) (<[i := at_phase p Running]> (s_pollers s)) (s_exec s) q (i :: s_busy s) (s_closed s) (s_down s) (with_log s (EStart i j)))
            | [] => None
            end
        | None => None
        end
      else None
  end.

(** poller.go:326-332 and its like, handler.go:233-252: the handler returned, its result is
    set, and the caller, which waited, returns with it. The executor and the worker take the
    next one (poller.go:309-313; pool.go:65-69). *)
Definition finish (s : sys) (i : nat) (r : Z) : option sys :=
  match s_pollers s !! i with
  | None => None
  | Some p =>
      match p_phase p, p_todo p with
      | Running, j :: t =>
          let exec := match job_way j with ByExecutor => None | _ => s_exec s end in
          let busy := match job_way j with ByWorker => filter (fun k => k ≠ i) (s_busy s) | _ => s_busy s end in
          Some (mk_sys (s_n s) (<[i := mk_pollr t Idle (p_got p ++ [(j, r)]) (p_dying p)]> (s_pollers s)) exec (s_queue s) busy
            (s_closed s) (s_down s) (with_log s (EEnd i j r)))
      | _, _ => None
      end
  end.

(** A handler panics. poller.go:309-313 and pool.go:65-69: neither the executor nor the
    workers recover, so the process ends. poller.go:511-521: Poll recovers, but not from a
    panic of its deferred function. *)
Definition panic (s : sys) (i : nat) : option sys :=
  match s_pollers s !! i with
  | None => None
  | Some p =>
      match p_phase p, p_todo p with
      | Running, j :: t =>
          match job_way j, p_dying p with
          | BySelf, false => Some (mk_sys (s_n s) (<[i := die p]> (s_pollers s)) (s_exec s) (s_queue s) (s_busy s) (s_closed s) (s_down s) (with_log s (EPanic i j)))
          | _, _ => Some (mk_sys (s_n s) (s_pollers s) (s_exec s) (s_queue s) (s_busy s) (s_closed s) true (with_log s (EPanic i j)))
          end
      | _, _ => None
      end
  end.

(** poller.go:530-537: a poller that makes no call goes on with others, unless it panicked. *)
Definition fetch (s : sys) (i : nat) (js : list job) : option sys :=
  match s_pollers s !! i with
  | None => None
  | Some p =>
      match p_phase p, p_dying p with
      | Idle, false => Some (mk_sys (s_n s) (<[i := mk_pollr js Idle (p_got p) false]> (s_pollers s)) (s_exec s) (s_queue s) (s_busy s) (s_closed s) (s_down s) (s_log s))
      | _, _ => None
      end
  end.

(** poller.go:176-198: the executor's channel is closed, once. What it runs it finishes. *)
Definition shut (s : sys) : option sys :=
  if s_closed s then None
  else Some (mk_sys (s_n s) (s_pollers s) (s_exec s) (s_queue s) (s_busy s) true (s_down s) (s_log s)).

Definition step (s : sys) (a : act) : option sys :=
  if s_down s then None
  else match a with
  | Begin i => begin_ s i
  | Take => take s
  | Finish i r => finish s i r
  | Panic i => panic s i
  | Fetch i js => fetch s i js
  | Shut => shut s
  end.

Fixpoint run (s : sys) (l : list act) : option sys :=
  match l with
  | [] => Some s
  | a :: l' => match step s a with Some s' => run s' l' | None => None end
  end.

(** poller.go:135-150 and pool.go:20-42: at the start there is nothing: [n] workers and any
    number of pollers that have made no call. *)
Definition start (n : nat) (work : list (list job)) : sys :=
  mk_sys n (map (fun js => mk_pollr js Idle [] false) work) None [] [] false false [].
