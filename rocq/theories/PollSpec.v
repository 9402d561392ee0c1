(** Specification of processing a response. *)
From Verif Require Import Prelude PollModel.
Open Scope string_scope. Open Scope list_scope.

(** Calls whose failure the caller gets to know. *)
Definition reports (c : call) : bool :=
  match c with SetTyping _ | OnReceipt _ | UpdateUnreadCounts _ => false | _ => true end.
Definition fine (x : call * outcome) : Prop := reports x.1 = true -> x.2 = Ok.
Definition failed (x : call * outcome) : Prop := reports x.1 = true /\ x.2 <> Ok.
(** A failure that is not a permanent data error. *)
Definition transient (x : call * outcome) : Prop := reports x.1 = true /\ x.2 = Fail.

(** A plan is followed to its end, or up to the first call that fails. *)
Definition follows (plan : list call) (tr : trace) : Prop :=
  (map fst tr = plan /\ Forall fine tr)
  \/ exists done c o rest, tr = done ++ [(c, o)] /\ plan = map fst done ++ c :: rest
       /\ Forall fine done /\ failed (c, o).

(** What there is to do for a joined room, a left one, an invite. *)
Definition if_some {A} (l : list A) (c : call) : list call := match l with [] => [] | _ => [c] end.
Definition ephs (room : string) (l : list eph) : list call :=
  concat (map (fun e => match e with
    | Typing => [SetTyping room] | Receipt => [OnReceipt room] | OtherEph => [] end) l).
Definition join_plan (r : joined) (state tl : list tev) : list call :=
  if_some state (Initialise (j_room r) state)
  ++ ephs (j_room r) (j_eph r)
  ++ (if decide (j_acct r = 0) then [] else [OnAccountData (j_room r)])
  ++ if_some tl (Accumulate (j_room r) tl)
  ++ (if j_unread r then [UpdateUnreadCounts (j_room r)] else []).
(** If the state has a data error and the create event is in the timeline, it is
    moved and the room done again. *)
Definition join_done (r : joined) (tr : trace) : Prop :=
  (follows (join_plan r (j_state r) (j_tl r)) tr
   /\ (head tr = Some (Initialise (j_room r) (j_state r), Data) -> Forall (fun e => t_create e = false) (j_tl r)))
  \/ exists a c b tr', j_tl r = a ++ c :: b /\ t_create c = true /\ Forall (fun e => t_create e = false) a
       /\ tr = (Initialise (j_room r) (j_state r), Data) :: tr'
       /\ follows (join_plan r (c :: j_state r) (a ++ b)) tr'.
Definition leave_done (r : left_room) (tr : trace) : Prop :=
  follows (if_some (l_tl r) (Accumulate (l_room r) (l_tl r))
           ++ match List.find t_leave (l_tl r) with Some e => [OnLeftRoom (l_room r) e] | None => [] end) tr.
Definition invite_done (room : string) (tr : trace) : Prop := follows [OnInvite room] tr.
Definition rooms_done (res : response) (tr : trace) : Prop :=
  exists jt lt it, tr = concat jt ++ concat lt ++ concat it
    /\ Forall2 join_done (r_join res) jt /\ Forall2 leave_done (r_leave res) lt
    /\ Forall2 invite_done (r_invite res) it.

(** What happens to a device's poller: responses are processed; the poller stops
    and another starts from the stored token. [v_done] are the responses that
    were processed, with the token they were asked with. *)
Inductive happening :=
  | Response (env : oracle) (res : response) (late stored : bool) | Restart.
Record world := mk_world { v_p : poller; v_done : list (string * response) }.
Definition world0 : world := mk_world (mk_poller "" "") [].
Definition step (v : world) (h : happening) : world :=
  match h with
  | Restart => mk_world (mk_poller (p_stored (v_p v)) (p_stored (v_p v))) (v_done v)
  | Response env res late stored =>
      mk_world (poll (v_p v) env res late stored)
        (match process env res with
         | Some (_, false) => v_done v ++ [(p_since (v_p v), res)]
         | _ => v_done v
         end)
  end.
Definition run (hs : list happening) : world := fold_left step hs world0.
(** One processed response leads from a token to the next. *)
Definition leads (v : world) (s t : string) : Prop :=
  exists res, In (s, res) (v_done v) /\ r_next res = t.
