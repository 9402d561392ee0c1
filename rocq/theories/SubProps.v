(** C15, C16, C17: combined subscriptions and required state. *)
From Verif Require Import Prelude RequestModel SubModel SubSpec SubProofs SubProofs2.
Open Scope string_scope.
Open Scope list_scope.
Open Scope Z_scope.

(** ** C15 *)

(** The combined limit is the largest one. *)
Theorem C15_largest_timeline_limit :
  forall s rest,
  (forall x, x ∈ s :: rest -> sub_limit x <= sub_limit (combine_all s rest)) /\
  exists x, x ∈ s :: rest /\ sub_limit (combine_all s rest) = sub_limit x.
Proof. exact combine_all_limit. Qed.

(** A state event is wanted by the combination exactly if it is wanted by one of
    the subscriptions, and lazy loading is on exactly if one of them wants it.
    Partial: for event types whose state keys nobody names while somebody asks
    for all state. *)
Theorem C15_required_state_partial :
  forall user s rest ty sk,
  (forall x y, x ∈ s :: rest -> y ∈ s :: rest -> ("*", "*") ∈ state_of x ->
     forall k, ~ names_key user (state_of y) ty k) ->
  ((exists x, x ∈ s :: rest /\ wanted user (state_of x) ty sk) <->
   wanted user (state_of (combine_all s rest)) ty sk) /\
  (wants_lazy (state_of (combine_all s rest)) <-> exists x, x ∈ s :: rest /\ wants_lazy (state_of x)).
Proof.
  intros user s rest ty sk H. split; [exact (combine_all_wanted user s rest ty sk H)|].
  apply combine_all_elem.
Qed.

(** The order in which subscriptions are combined changes neither. *)
Theorem C15_order_does_not_matter_partial :
  forall s1 r1 s2 r2, s1 :: r1 ≡ₚ s2 :: r2 ->
  sub_limit (combine_all s1 r1) = sub_limit (combine_all s2 r2) /\
  (forall user ty sk,
     wanted user (state_of (combine_all s1 r1)) ty sk <-> wanted user (state_of (combine_all s2 r2)) ty sk) /\
  (wants_lazy (state_of (combine_all s1 r1)) <-> wants_lazy (state_of (combine_all s2 r2))).
Proof.
  intros s1 r1 s2 r2 Hp. destruct (combine_all_perm _ _ _ _ Hp) as [H1 H2]. split_and!; [done| |apply H2].
  intros user ty sk. by apply wanted_perm.
Qed.

(** Old rooms: if every subscription asks for them, everything asked for is kept. *)
Theorem C15_old_rooms_partial :
  forall s rest, Forall (fun x => is_Some (sub_old x)) (s :: rest) ->
  exists o, sub_old (combine_all s rest) = Some o /\
    (forall t, t ∈ state_of o <-> exists x y, x ∈ s :: rest /\ sub_old x = Some y /\ t ∈ state_of y) /\
    (forall x y, x ∈ s :: rest -> sub_old x = Some y -> sub_limit y <= sub_limit o).
Proof. exact combine_all_old. Qed.

(** A list which asks for all state loses the members when another list asks for
    one member only. *)
Definition everything := mk_sub (Some [("*", "*")]) 1 None None.
Definition only_me := mk_sub (Some [("m.room.member", "$ME")]) 20 None None.
Theorem C15_all_state_is_narrowed_refuted :
  wanted "@me" (state_of everything) "m.room.member" "@you" /\
  ~ wanted "@me" (state_of (combine_all everything [only_me])) "m.room.member" "@you" /\
  ~ wanted "@me" (state_of (combine_all only_me [everything])) "m.room.member" "@you".
Proof.
  assert (Hu : "@me" <> "*") by done. split_and!.
  - apply include_spec; [done|]. vm_compute. reflexivity.
  - intros H. apply include_spec in H; [|done]. vm_compute in H. discriminate.
  - intros H. apply include_spec in H; [|done]. vm_compute in H. discriminate.
Qed.
(** Whether old rooms are included depends on the order. *)
Definition with_old := mk_sub None 1 (Some (mk_sub (Some [("m.room.create", "")]) 1 None None)) None.
Theorem C15_old_rooms_lost_refuted :
  sub_old (combine_all with_old [everything]) = None /\
  sub_old (combine_all everything [with_old]) = sub_old with_old /\ sub_old with_old <> None.
Proof. split_and!; [reflexivity|reflexivity|discriminate]. Qed.
(** Heroes are lost even if every subscription asks for them. *)
Theorem C15_heroes_lost_refuted :
  forall s x rest, sub_heroes (combine_all s (x :: rest)) = None.
Proof.
  intros s x rest. unfold combine_all. cbn [foldl].
  assert (H : forall rest a, sub_heroes a = None -> sub_heroes (foldl combine a rest) = None).
  { clear. induction rest as [|y rest IH]; intros a Ha; [done|]. cbn [foldl]. apply IH. done. }
  apply H. done.
Qed.

Example C15_example :
  let a := mk_sub (Some [("m.room.name", ""); ("m.room.member", "$LAZY")]) 5 None None in
  let b := mk_sub (Some [("*", ""); ("m.room.member", "$ME")]) 20 None None in
  let c := combine_all a [b; only_me] in
  (sub_limit c, state_of c) =
  (20, [("m.room.name", ""); ("m.room.member", "$LAZY"); ("*", ""); ("m.room.member", "$ME"); ("m.room.member", "$ME")]) /\
  (forall x y, x ∈ [a; b; only_me] -> y ∈ [a; b; only_me] -> ("*", "*") ∈ state_of x ->
     forall k, ~ names_key "@me" (state_of y) "m.room.member" k).
Proof.
  cbv zeta. split; [vm_compute; reflexivity|]. intros x y Hx _ Hs.
  repeat (apply elem_of_cons in Hx as [-> |Hx]; [repeat (apply elem_of_cons in Hs as [Hs|Hs]; [discriminate|]); by apply elem_of_nil in Hs|]).
  by apply elem_of_nil in Hx.
Qed.

(** ** C16 *)

(** Every requested room is in exactly one of the built subscriptions, once, and
    no other room is; nothing crashes. *)
Theorem C16_every_room_exactly_once :
  forall grow ord ord2, (forall l, ord l ≡ₚ l) -> (forall l, ord2 l ≡ₚ l) ->
  forall h ops, ids_known ops ->
  exists h' l, build_subscriptions grow ord ord2 h (bruns ops) = Some (h', l) /\
    NoDup (concat (map snd l)) /\
    forall x, x ∈ concat (map snd l) <-> exists id, requested ops x id.
Proof.
  intros grow ord ord2 H1 H2 h ops Hk. destruct (bruns_spec ops) as [Hs Ha].
  destruct (build_some grow ord H1 ord2 H2 h (bruns ops)) as [[h' l] Hb].
  { intros x id Hx. apply Ha in Hx as (rooms & Hin & _). rewrite Hs. by eapply Hk. }
  exists h', l. split; [done|]. destruct (build_rooms grow ord H1 ord2 H2 _ _ _ _ Hb) as [Hn He].
  split; [done|]. intros x. rewrite He. by setoid_rewrite Ha.
Qed.

(** The subscription built for a room is the combination of exactly the
    subscriptions which requested it, in the order they were added. Partial: if
    the required_state of the subscriptions has no spare capacity. *)
Theorem C16_combination_of_the_requests_partial :
  forall grow ord ord2, (forall l, ord l ≡ₚ l) -> (forall l, ord2 l ≡ₚ l) ->
  forall h ops h' l, Forall (no_spare_sub h) (subs_of ops) ->
  build_subscriptions grow ord ord2 h (bruns ops) = Some (h', l) ->
  forall s rooms x, (s, rooms) ∈ l -> x ∈ rooms ->
  exists ids s0 rest,
    StronglySorted lt ids /\ (forall id, id ∈ ids <-> requested ops x id) /\
    mapM (fun id => subs_of ops !! id) ids = Some (s0 :: rest) /\
    read_sub h' s = combine_all (read_sub h s0) (map (read_sub h) rest).
Proof.
  intros grow ord ord2 H1 H2 h ops h' l Hs Hb s rooms x Hin Hx. destruct (bruns_spec ops) as [Hss Ha].
  rewrite <- Hss in Hs |- *.
  destruct (build_content grow ord H1 ord2 H2 _ _ _ _ Hs Hb _ _ _ Hin Hx) as (ids & s0 & rest & _ & K1 & K2 & K3 & K4).
  exists ids, s0, rest. split_and!; try done. intros id. by rewrite <- Ha.
Qed.

(** Three lists: the state slice of the first has room for four entries and holds
    three, as Go's JSON decoder leaves it. Combining it with the second list and
    with the third writes to the same place. *)
Definition slice_of (a n : nat) : hsub := mk_hsub (Some (mk_slice a n)) 1 None None.
Definition three_lists (spare : list tuple) : heap :=
  [[("A", ""); ("B", ""); ("C", "")] ++ spare; [("D", "")]; [("E", "")]].
Definition three_ops : list bop :=
  [AddSub (slice_of 0 3); AddRooms 0 ["x"; "y"]; AddSub (slice_of 1 1); AddRooms 1 ["x"];
   AddSub (slice_of 2 1); AddRooms 2 ["y"]].
Definition built (spare : list tuple) : option (list (list string * list tuple)) :=
  (fun r => map (fun p : hsub * list string => (p.2, state_of (read_sub r.1 p.1))) r.2) <$>
    build_subscriptions (fun n => n) (fun l => l) (fun l => l) (three_lists spare) (bruns three_ops).
Theorem C16_spare_capacity_refuted :
  built [("", "")] =
  Some [(["x"], [("A", ""); ("B", ""); ("C", ""); ("E", "")]); (["y"], [("A", ""); ("B", ""); ("C", ""); ("E", "")])] /\
  ids_known three_ops.
Proof.
  split; [vm_compute; reflexivity|]. intros id rooms H. vm_compute subs_of. cbn [length].
  unfold three_ops in H. repeat (apply elem_of_cons in H as [H|H]; [try discriminate; injection H as -> ->; lia|]).
  by apply elem_of_nil in H.
Qed.
Example C16_example_without_spare_capacity :
  built [] =
  Some [(["x"], [("A", ""); ("B", ""); ("C", ""); ("D", "")]); (["y"], [("A", ""); ("B", ""); ("C", ""); ("E", "")])] /\
  Forall (no_spare_sub (three_lists [])) (subs_of three_ops).
Proof.
  split; [vm_compute; reflexivity|]. repeat constructor; cbn; by eexists.
Qed.

(** ** C17 *)

(** Which events are included, and that the database is asked for them. *)
Theorem C17_included_exactly_when_wanted :
  forall user, user <> "*" -> forall req ty sk,
  (rsm_include (required_state_map user req) ty sk = true <-> wanted user req ty sk) /\
  (wanted user req ty sk \/ (wants_lazy req /\ ty = "m.room.member") ->
   query_matches (query_state_map (required_state_map user req)) ty sk = true).
Proof. intros user Hu req ty sk. split; [by apply include_spec|by apply query_superset]. Qed.

(** The state events sent for a room: those wanted and, with lazy loading, the
    members with an event in the timeline; each once and in order. Partial: with
    lazy loading, if no entry has a wildcard type. *)
Theorem C17_state_sent_partial :
  forall user, user <> "*" -> forall req users evs, NoDup users ->
  (forall k, ("*", k) ∉ req) \/ ~ wants_lazy req ->
  load_state user req users evs `sublist_of` evs /\
  forall ev, ev ∈ load_state user req users evs <->
    ev ∈ evs /\ (wanted user req (se_type ev) (se_key ev) \/
      (wants_lazy req /\ se_type ev = "m.room.member" /\ se_key ev ∈ users)).
Proof.
  intros user Hu req users evs Hn H. split; [by apply load_state_sublist|]. intros ev. destruct H as [H|H].
  - by apply load_state_exact.
  - rewrite load_state_elem by done. tauto.
Qed.

(** With a wildcard type, lazy loading sends any event whose state key is a sender. *)
Theorem C17_lazy_loading_sends_other_types_refuted :
  let req := [("m.room.member", "$LAZY"); ("*", "")] in
  let ev := mk_sev "org.other" "@you" "" in
  load_state "@me" req ["@you"] [ev] = [ev] /\
  ~ wanted "@me" req "org.other" "@you" /\ se_type ev <> "m.room.member".
Proof.
  cbv zeta. split_and!; [vm_compute; reflexivity| |discriminate].
  intros H. apply include_spec in H; [|done]. vm_compute in H. discriminate.
Qed.
Example C17_example :
  let evs := [mk_sev "m.room.create" "" "c"; mk_sev "m.room.member" "@me" "1"; mk_sev "m.room.member" "@you" "2";
              mk_sev "m.room.member" "@she" "3"; mk_sev "m.space.child" "!a" "4"; mk_sev "m.room.name" "" "5"] in
  map se_body (load_state "@me" [("m.room.member", "$LAZY"); ("m.room.member", "$ME"); ("m.space.child", "*"); ("m.room.name", "")] ["@you"] evs)
  = ["1"; "2"; "4"; "5"] /\
  map se_body (load_state "@me" [("*", "*"); ("m.room.member", "$ME")] ["@you"] evs) = ["c"; "1"; "4"; "5"].
Proof. vm_compute. done. Qed.

Print Assumptions C15_largest_timeline_limit.
Print Assumptions C15_required_state_partial.
Print Assumptions C15_order_does_not_matter_partial.
Print Assumptions C15_old_rooms_partial.
Print Assumptions C15_all_state_is_narrowed_refuted.
Print Assumptions C15_old_rooms_lost_refuted.
Print Assumptions C15_heroes_lost_refuted.
Print Assumptions C16_every_room_exactly_once.
Print Assumptions C16_combination_of_the_requests_partial.
Print Assumptions C16_spare_capacity_refuted.
Print Assumptions C17_included_exactly_when_wanted.
Print Assumptions C17_state_sent_partial.
Print Assumptions C17_lazy_loading_sends_other_types_refuted.
