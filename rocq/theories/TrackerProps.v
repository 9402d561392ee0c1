(** Properties of the joined-rooms tracker (C18). *)
From Verif Require Import Prelude TrackerModel TrackerSpec TrackerProofs.

(** C18. After any operations, all queries answer what the latest operation
    about each user and room says; the two directions agree. *)
Theorem C18_tracker_is_latest_membership :
  forall (ops : list top) t,
  Forall startup_wf ops -> trun new_tracker ops = Some t ->
  (forall u r, is_user_joined t u r = true <-> says_joined (reverse ops) u r) /\
  (forall u r, r ∈ joined_rooms_for_user t u <-> says_joined (reverse ops) u r) /\
  (forall u, NoDup (joined_rooms_for_user t u)) /\
  (forall r f u, u ∈ (joined_users_for_room t r f).1 <-> f u = true /\ says_joined (reverse ops) u r) /\
  (forall r f, NoDup (joined_users_for_room t r f).1) /\
  (forall r f, (joined_users_for_room t r f).2 = length (joined_users_for_room t r (fun _ => true)).1).
Proof. exact tracker_joined_spec. Qed.

(** C18. The invite count is the number of invited users. *)
Theorem C18_invite_count :
  forall (ops : list top) t r (l : list string),
  Forall startup_wf ops -> trun new_tracker ops = Some t ->
  NoDup l -> (forall u, u ∈ l <-> says_invited (reverse ops) u r) ->
  num_invited t r = length l.
Proof. exact tracker_invited_spec. Qed.

(** C18. Joining reports whether somebody was new; leaving reports whether the
    user was joined or invited. *)
Theorem C18_return_values :
  forall (ops : list top) t,
  Forall startup_wf ops -> trun new_tracker ops = Some t ->
  (forall us r, (users_joined_room t us r).2 = true <->
     exists u, u ∈ us /\ ~ says_joined (reverse ops) u r) /\
  (forall u r, (user_left_room t u r).2 = true <->
     says_joined (reverse ops) u r \/ says_invited (reverse ops) u r).
Proof. exact tracker_returns. Qed.

(** C18. Nothing panics except a Startup on a tracker that has data. *)
Theorem C18_only_late_startup_panics :
  forall t o, tstep t o = None ->
  exists m, o = TStartup m /\ (t_joined t <> ∅ \/ t_rooms t <> ∅).
Proof. exact tracker_panics_only_startup. Qed.

Definition ex_ops : list top :=
  [TStartup [("!a", ["@x"; "@y"]); ("!b", ["@x"])]; TInvite ["@z"] "!a"; TJoin ["@z"] "!a";
   TLeave "@x" "!a"; TReload "!b" ["@y"] ["@x"]]%string.

Example ex_ops_run :
  match trun new_tracker ex_ops with
  | Some t => (is_user_joined t "@z" "!a", is_user_joined t "@x" "!a",
               is_user_joined t "@x" "!b", is_user_joined t "@y" "!b", num_invited t "!b")
  | None => (false, false, false, false, 0)
  end = (true, false, false, true, 1).
Proof. vm_compute. done. Qed.

Example ex_ops_wf : Forall startup_wf ex_ops.
Proof. repeat constructor; cbn; set_solver. Qed.

Print Assumptions C18_tracker_is_latest_membership.
Print Assumptions C18_invite_count.
Print Assumptions C18_return_values.
Print Assumptions C18_only_late_startup_panics.
