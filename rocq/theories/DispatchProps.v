(** Properties of the dispatcher (C19-C22). *)
From Verif Require Import Prelude TrackerModel TrackerSpec DispatchModel DispatchSpec DispatchProofs.
Open Scope string_scope.
Open Scope list_scope.

(** The dispatcher's notion of membership is the history's. *)
Theorem C19_membership_is_the_history :
  forall ord, (forall l, ord l ≡ₚ l) ->
  forall ops d cs,
  Forall dop_wf ops -> drun ord new_dispatcher ops = Some (d, cs) ->
  forall u r, is_user_joined (d_jrt d) u r = true <-> h_joined (reverse ops) u r.
Proof. exact dispatcher_membership. Qed.

(** C19. Whatever happened before, a live event is only passed to the global
    cache, to users joined once the event is taken into account, and to the
    target of a leave or ban who was joined or invited. *)
Theorem C19_events_only_to_members :
  forall ord, (forall l, ord l ≡ₚ l) ->
  forall ops d cs room ev nid mid d' cs' c,
  Forall dop_wf ops -> drun ord new_dispatcher ops = Some (d, cs) ->
  on_new_event ord d room ev nid mid = (d', cs') -> c ∈ cs' ->
  cl_user c = all_users \/
  h_joined (DEvent room ev nid mid :: reverse ops) (cl_user c) room \/
  own_leave (reverse ops) room ev (cl_user c).
Proof. exact events_only_to_members. Qed.

(** C19. The same for initial state blocks: members according to the block, or,
    if the room already had members, as for the block's events fed one by one. *)
Theorem C19_initial_state_only_to_members :
  forall ord, (forall l, ord l ≡ₚ l) ->
  forall ops d cs room st d' cs' c,
  Forall dop_wf ops -> drun ord new_dispatcher ops = Some (d, cs) ->
  on_new_initial_state ord d room st = (d', cs') -> c ∈ cs' ->
  cl_user c = all_users \/
  ((~ exists v, h_joined (reverse ops) v room) /\ state_says st (cl_user c) "join") \/
  (exists pre ev post, st = pre ++ ev :: post /\
     (h_joined (DEvent room ev 0 [] :: reverse (as_live room pre) ++ reverse ops) (cl_user c) room \/
      own_leave (reverse (as_live room pre) ++ reverse ops) room ev (cl_user c))).
Proof. exact initial_only_to_members. Qed.

(** C19. Typing and receipts only reach the global cache and joined users. *)
Theorem C19_ephemeral_only_to_members :
  forall ord, (forall l, ord l ≡ₚ l) ->
  forall ops d cs room mid p d' cs' c,
  Forall dop_wf ops -> drun ord new_dispatcher ops = Some (d, cs) ->
  broadcast ord d room mid p = (d', cs') -> c ∈ cs' ->
  cl_what c = p /\ d_recv d' !! cl_user c = Some (cl_recv c) /\
  (cl_user c = all_users \/ h_joined (reverse ops) (cl_user c) room).
Proof. exact broadcast_only_to_members. Qed.

(** C20. A user registered before and after who is joined (or whose own leave it
    is) is called exactly once. *)
Theorem C20_members_told_exactly_once :
  forall ord, (forall l, ord l ≡ₚ l) ->
  forall ops d cs room ev nid mid d' cs' u,
  Forall dop_wf ops -> drun ord new_dispatcher ops = Some (d, cs) ->
  on_new_event ord d room ev nid mid = (d', cs') ->
  u <> all_users -> is_Some (d_recv d !! u) -> is_Some (d_recv d' !! u) ->
  h_joined (DEvent room ev nid mid :: reverse ops) u room \/ own_leave (reverse ops) room ev u ->
  times_called u cs' = 1.
Proof. exact events_exactly_once. Qed.

(** C20. Every call goes to the receiver registered for that user and carries
    this event, its room and its position. *)
Theorem C20_calls_carry_the_event :
  forall ord, (forall l, ord l ≡ₚ l) ->
  forall ops d cs room ev nid mid d' cs' c,
  Forall dop_wf ops -> drun ord new_dispatcher ops = Some (d, cs) ->
  on_new_event ord d room ev nid mid = (d', cs') -> c ∈ cs' ->
  d_recv d' !! cl_user c = Some (cl_recv c) /\
  exists e, cl_what c = POnEvent e /\ ed_ev e = ev /\ ed_room e = room /\ ed_nid e = nid.
Proof. exact event_calls_carry_event. Qed.

(** C20. The global cache is called first, and only once unless the event is a
    member event of a "user" named "-" (see the refutation below). *)
Theorem C20_global_cache_first_and_once_partial :
  forall ord, (forall l, ord l ≡ₚ l) ->
  forall ops d cs room ev nid mid d' cs' g,
  Forall dop_wf ops -> drun ord new_dispatcher ops = Some (d, cs) ->
  on_new_event ord d room ev nid mid = (d', cs') ->
  d_recv d' !! all_users = Some g ->
  exists c rest, cs' = c :: rest /\ cl_user c = all_users /\ cl_recv c = g /\
    ((forall m, member_change ev <> Some (all_users, m)) -> times_called all_users rest = 0).
Proof. exact events_global_first. Qed.

(** C20. A bulk initial state block passes every event of the block, in order,
    exactly once to the global cache and to each user joined by it. *)
Theorem C20_initial_state_exactly_once :
  forall ord, (forall l, ord l ≡ₚ l) ->
  forall ops d cs room st d' cs' u,
  Forall dop_wf ops -> drun ord new_dispatcher ops = Some (d, cs) ->
  (~ exists v, h_joined (reverse ops) v room) ->
  on_new_initial_state ord d room st = (d', cs') ->
  is_Some (d_recv d !! u) -> u = all_users \/ state_says st u "join" ->
  omap (fun c => if String.eqb (cl_user c) u
                 then match cl_what c with POnEvent e => Some (ed_ev e) | _ => None end
                 else None) cs' = st.
Proof. exact initial_exactly_once. Qed.

(** C20. Typing and receipts: exactly once to each registered member. *)
Theorem C20_ephemeral_exactly_once :
  forall ord, (forall l, ord l ≡ₚ l) ->
  forall ops d cs room mid p d' cs' u,
  Forall dop_wf ops -> drun ord new_dispatcher ops = Some (d, cs) ->
  broadcast ord d room mid p = (d', cs') ->
  is_Some (d_recv d !! u) -> is_Some (d_recv d' !! u) ->
  u = all_users \/ h_joined (reverse ops) u room ->
  times_called u cs' = 1.
Proof. exact broadcast_exactly_once. Qed.

(** C20. A user's own join is flagged as a fresh join exactly if they were not
    joined before. *)
Theorem C20_fresh_join_flag :
  forall ord, (forall l, ord l ≡ₚ l) ->
  forall ops d cs room ev nid mid d' cs' c e,
  Forall dop_wf ops -> drun ord new_dispatcher ops = Some (d, cs) ->
  on_new_event ord d room ev nid mid = (d', cs') -> c ∈ cs' -> cl_what c = POnEvent e ->
  cl_user c <> all_users ->
  ed_force e = true <->
  member_change ev = Some (cl_user c, "join") /\ ~ h_joined (reverse ops) (cl_user c) room.
Proof. exact force_initial_spec. Qed.

(** C21. A leave or ban of a user who was neither joined nor invited is not
    passed to that user. *)
Theorem C21_preemptive_bans_not_leaked :
  forall ord, (forall l, ord l ≡ₚ l) ->
  forall ops d cs room ev nid mid d' cs' u m,
  Forall dop_wf ops -> drun ord new_dispatcher ops = Some (d, cs) ->
  on_new_event ord d room ev nid mid = (d', cs') ->
  u <> all_users ->
  member_change ev = Some (u, m) -> is_leave m ->
  ~ h_joined (reverse ops) u room -> ~ h_invited (reverse ops) u room ->
  times_called u cs' = 0.
Proof. exact no_leak. Qed.

(** C22. The join count of a live event is the number of joined users after it;
    the invite count of a member event is the number of invited users after it. *)
Theorem C22_counts_are_the_member_sets :
  forall ord, (forall l, ord l ≡ₚ l) ->
  forall ops d cs room ev nid mid d' cs' c e js is,
  Forall dop_wf ops -> drun ord new_dispatcher ops = Some (d, cs) ->
  on_new_event ord d room ev nid mid = (d', cs') -> c ∈ cs' -> cl_what c = POnEvent e ->
  NoDup js -> (forall u, u ∈ js <-> h_joined (DEvent room ev nid mid :: reverse ops) u room) ->
  NoDup is -> (forall u, u ∈ is <-> h_invited (DEvent room ev nid mid :: reverse ops) u room) ->
  ed_joins e = length js /\
  (member_change ev <> None -> ed_invites e = length is).
Proof. exact counts_are_sizes. Qed.

(** C22. The same for bulk initial state. *)
Theorem C22_initial_counts_are_the_member_sets :
  forall ord, (forall l, ord l ≡ₚ l) ->
  forall ops d cs room st d' cs' c e js is,
  Forall dop_wf ops -> drun ord new_dispatcher ops = Some (d, cs) ->
  (~ exists v, h_joined (reverse ops) v room) ->
  on_new_initial_state ord d room st = (d', cs') -> c ∈ cs' -> cl_what c = POnEvent e ->
  NoDup js -> (forall u, u ∈ js <-> h_joined (DInitial room st :: reverse ops) u room) ->
  NoDup is -> (forall u, u ∈ is <-> h_invited (DInitial room st :: reverse ops) u room) ->
  ed_joins e = length js /\ ed_invites e = length is.
Proof. exact initial_counts. Qed.

(** ** Examples *)
Definition member (u m : string) : rawev := mk_rawev ("$" ++ u ++ m)%string "m.room.member" (Some u) m.
Definition msg : rawev := mk_rawev "$msg" "m.room.message" None "".

Definition ex_dops : list dop :=
  [DStartup [("!a", ["@x"])]; DReg (Reg all_users 0); DReg (Reg "@x" 1); DReg (Reg "@y" 2);
   DReg (Reg "@z" 3); DEvent "!a" (member "@y" "invite") 1 []; DEvent "!a" (member "@y" "join") 2 []].

(** Alice banned: she and Bob and the global cache hear of it, Zoe does not; a
    later message is not passed to Alice. *)
Example ex_dispatch :
  match drun (fun l => l) new_dispatcher ex_dops with
  | Some (d, cs) =>
      let '(d1, c1) := on_new_event (fun l => l) d "!a" (member "@x" "ban") 3 [] in
      let '(d2, c2) := on_new_event (fun l => l) d1 "!a" msg 4 [] in
      let '(d3, c3) := on_new_event (fun l => l) d2 "!a" (member "@z" "ban") 5 [] in
      (map cl_user cs, map cl_user c1, map cl_user c2, map cl_user c3)
  | None => ([], [], [], [])
  end = (["-"; "@x"; "-"; "@x"; "@y"] , ["-"; "@y"; "@x"], ["-"; "@y"], ["-"; "@y"]).
Proof. vm_compute. done. Qed.

Example ex_dops_wf : Forall dop_wf ex_dops.
Proof. repeat constructor; cbn; set_solver. Qed.

(** C20 refuted in full generality: a leave event whose state_key is "-" makes
    the dispatcher call the global cache twice for one event. *)
Theorem C20_global_cache_once_refuted :
  exists ops room ev nid,
    Forall dop_wf ops /\
    match drun (fun l => l) new_dispatcher ops with
    | Some (d, _) =>
        times_called all_users (on_new_event (fun l => l) d room ev nid []).2
    | None => 0
    end = 2.
Proof.
  exists [DReg (Reg all_users 0); DEvent "!a" (member "-" "invite") 1 []], "!a", (member "-" "leave"), 2%Z.
  split; [repeat constructor|vm_compute; done].
Qed.

Print Assumptions C19_membership_is_the_history.
Print Assumptions C19_events_only_to_members.
Print Assumptions C19_initial_state_only_to_members.
Print Assumptions C19_ephemeral_only_to_members.
Print Assumptions C20_members_told_exactly_once.
Print Assumptions C20_calls_carry_the_event.
Print Assumptions C20_global_cache_first_and_once_partial.
Print Assumptions C20_initial_state_exactly_once.
Print Assumptions C20_ephemeral_exactly_once.
Print Assumptions C20_fresh_join_flag.
Print Assumptions C21_preemptive_bans_not_leaked.
Print Assumptions C22_counts_are_the_member_sets.
Print Assumptions C22_initial_counts_are_the_member_sets.
Print Assumptions C20_global_cache_once_refuted.
