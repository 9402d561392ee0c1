(** Model of the loop of a poller: [sync2/poller.go] 499-659, Poll and poll. What the sections of
    a response do is in PollModel (C34); here they have an outcome each, and time passes. *)
From Verif Require Import Prelude.
Open Scope string_scope. Open Scope list_scope. Open Scope Z_scope.

(** The sections of a response in the order in which poll handles them: 610, 616, 622, 634. *)
Inductive section := E2EE | Account | Rooms | ToDevice.
(** How handling a section ends: no error, an error to retry, an error about which retrying
    cannot help (690-697), a panic. *)
Inductive outcome := Fine | Retry | BadData | Panic.

(** A response: next_batch and the to-device messages, of which only their number in the
    sequence of messages for the device is looked at. *)
Record answer := mk_answer { a_next : string; a_msgs : list nat }.

(** What happens in one round of the loop. The three flags say whether somebody calls Terminate
    (484-486) before the loop looks (530), while it sleeps and while the request is made;
    [n_request] and [n_work] are how long the request and handling the response take, in
    milliseconds; [n_saves] says whether the database accepts the position. *)
Record round := mk_round {
  n_stop0 : bool; n_stop1 : bool; n_stop2 : bool;
  n_http : Z + answer; (* an error with a status code, 0 if there was none, or a response *)
  n_request : Z; n_work : Z; n_outcome : section -> outcome; n_saves : bool }.

(** What the loop does. *)
Inductive ev :=
| Sleeps (ms : Z)
| Asks (since : string) (first todevice_only : bool)
| Fails (code : Z)                            (* the answer is an error *)
| Gets (a : answer)                           (* the answer is a response *)
| Handles (x : section) (o : outcome) (a : answer)
| Advances (since : string) (at_ : Z)          (* 644: the position is that of the response *)
| Saves (since : string) (at_ : Z) (ok : bool) (* UpdateDeviceSince *)
| Releases                                    (* wg.Done *)
| Expires                                     (* OnExpiredToken *)
| Terminates.                                 (* OnTerminated *)

(** poller.go:489-494, pollLoopState, with the fields of the poller that poll changes, and the
    time. [p_stored] is None for time.Time{}. *)
Record ploop := mk_ploop {
  p_first : bool; p_fails : nat; p_since : string; p_stored : option Z; p_term : bool; p_tdonly : bool; p_now : Z }.
(** poller.go:523-529. *)
Definition ploop0 (since : string) (tdonly : bool) (now : Z) : ploop := mk_ploop true 0 since None false tdonly now.

Inductive next := Again | Halt | Panics.

(** poller.go:699-707, parseToDeviceMessages: without messages the receiver is not called. *)
Definition outcome_in (f : section -> outcome) (a : answer) (x : section) : outcome :=
  match x, a_msgs a with ToDevice, [] => Fine | _, _ => f x end.
(** poller.go:608-639: the sections, until one is to be retried. *)
Fixpoint sections (l : list section) (f : section -> outcome) (a : answer) : list ev * next :=
  match l with
  | [] => ([], Again)
  | x :: l =>
      match outcome_in f a x with
      | Panic => ([Handles x Panic a], Panics)
      | Retry => ([Handles x Retry a], Halt)
      | o => let '(evs, n) := sections l f a in (Handles x o a :: evs, n)
      end
  end.
Definition all_sections : list section := [E2EE; Account; Rooms; ToDevice].

(** poller.go:641-656: a response has been handled. *)
Definition advance (s : ploop) (a : answer) (saves : bool) : ploop * list ev :=
  let save := match p_stored s with Some t => 60000 <? p_now s - t | None => true end || (0 <? length (a_msgs a))%nat in
  (mk_ploop false (p_fails s) (a_next a) (if save then Some (p_now s) else p_stored s) (p_term s) (p_tdonly s) (p_now s),
   Advances (a_next a) (p_now s) :: (if save then [Saves (a_next a) (p_now s) saves] else []) ++ (if p_first s then [Releases] else [])).

(** poller.go:586-656: after the request was made. *)
Definition got (s : ploop) (n : round) : ploop * list ev * next :=
  match n_http n with
  | inl code =>
      if (code =? 401) || (code =? 403)
      then (mk_ploop (p_first s) (p_fails s) (p_since s) (p_stored s) true (p_tdonly s) (p_now s), [Fails code; Expires], Halt)
      else (mk_ploop (p_first s) (S (p_fails s)) (p_since s) (p_stored s) (p_term s) (p_tdonly s) (p_now s), [Fails code], Again)
  | inr a =>
      let s1 := mk_ploop (p_first s) 0 (p_since s) (p_stored s) (p_term s) false (p_now s + n_work n) in
      match sections all_sections (n_outcome n) a with
      | (evs, Panics) => (s1, Gets a :: evs, Panics)
      | (evs, Halt) => (mk_ploop (p_first s1) 1 (p_since s1) (p_stored s1) (p_term s1) (p_tdonly s1) (p_now s1), Gets a :: evs, Again)
      | (evs, Again) => let '(s2, more) := advance s1 a (n_saves n) in (s2, Gets a :: evs ++ more, Again)
      end
  end.

(** poller.go:549-659, poll. *)
Definition poll (s : ploop) (n : round) : ploop * list ev * next :=
  if (0 <? p_fails s)%nat && (1000 <? p_fails s)%nat
  then (mk_ploop (p_first s) (p_fails s) (p_since s) (p_stored s) true (p_tdonly s) (p_now s), [Expires], Halt)
  else
    let slept := if (0 <? p_fails s)%nat then [Sleeps 3000] else [] in
    let now := if (0 <? p_fails s)%nat then p_now s + 3000 else p_now s in
    let term := p_term s || n_stop1 n in
    if term then (mk_ploop (p_first s) (p_fails s) (p_since s) (p_stored s) true (p_tdonly s) now, slept, Halt)
    else
      let asked := slept ++ [Asks (p_since s) (p_first s) (p_tdonly s)] in
      let s1 := mk_ploop (p_first s) (p_fails s) (p_since s) (p_stored s) (n_stop2 n) (p_tdonly s) (now + n_request n) in
      if n_stop2 n then (s1, asked, Halt)
      else let '(s2, evs, x) := got s1 n in (s2, asked ++ evs, x).

(** poller.go:499-544, Poll: the loop, with what happens in each round. None: it is still
    running. Some: it has ended, and whether by a panic (511-521). *)
Definition finish (s : ploop) : list ev := (if p_first s then [Releases] else []) ++ [Terminates].
Fixpoint loop (s : ploop) (l : list round) : list ev * option bool :=
  match l with
  | [] => ([], None)
  | n :: l =>
      if p_term s || n_stop0 n then (finish s, Some false)
      else
        match poll s n with
        | (s, evs, Again) => let '(more, r) := loop s l in (evs ++ more, r)
        | (s, evs, Halt) => (evs ++ finish s, Some false)
        | (s, evs, Panics) => (evs ++ [Terminates], Some true)
        end
  end.
Definition trace (since : string) (tdonly : bool) (now : Z) (l : list round) : list ev := (loop (ploop0 since tdonly now) l).1.
Definition ended (since : string) (tdonly : bool) (now : Z) (l : list round) : option bool := (loop (ploop0 since tdonly now) l).2.

(** The device's poller over the life of the server: each life of it begins at the position that
    is stored, "" at first (sync2/devices_table.go:36-48), and ends somewhere in its trace, by a
    crash or otherwise. Simplification: the trace of a life is cut between two of its events, so
    that each of them happens or does not. *)
Record life := mk_life { f_tdonly : bool; f_now : Z; f_rounds : list round; f_cut : nat }.
Fixpoint saved (since : string) (tr : list ev) : string :=
  match tr with
  | [] => since
  | Saves s _ true :: tr => saved s tr
  | _ :: tr => saved since tr
  end.
Fixpoint lives (since : string) (l : list life) : list ev :=
  match l with
  | [] => []
  | f :: l =>
      let tr := take (f_cut f) (trace since (f_tdonly f) (f_now f) (f_rounds f)) in
      tr ++ lives (saved since tr) l
  end.
