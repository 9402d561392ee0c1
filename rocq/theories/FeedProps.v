(** C52, C54 and C65: timelines and lazily loaded members on a connection. *)
From Coq Require Import Ascii.
From Verif Require Import Prelude AccumModel AccumSpec AccumProps StoreModel StoreSpec StoreProps RequestModel SubModel SubSpec SubProofs FeedModel FeedSpec FeedProofs.
Open Scope string_scope. Open Scope list_scope. Open Scope Z_scope.

(** ** C52: order *)

(** C52. On a connection a room's events arrive in increasing position order since the
    room was last sent as initial, from loading and live updates together, so none
    arrives twice. Missing: histories in which an update that brings its own room
    into view is older than what the connection has processed, refuted below, and
    events without a position. *)
Theorem C52_in_order_partial ord redact env steps c : redact_ok redact -> 0 <= fe_max env ->
  Forall (good_step ord redact) steps -> timely_run env feed0 steps c ->
  forall room, StronglySorted Z.lt (nids (view_of c room)) /\ NoDup (nids (view_of c room)).
Proof.
  intros Hre Hmax Hg Hr.
  assert (H0 : finv feed0 /\ forall room, StronglySorted Z.lt (nids (view_of feed0 room))).
  { split; intros r; [unfold eff|unfold view_of]; cbn [f_view f_pending feed0]; rewrite !lookup_empty; cbn; repeat split; constructor. }
  enough (H : finv c /\ forall room, StronglySorted Z.lt (nids (view_of c room))).
  { intros room. destruct H as [_ H]. split; [done|]. specialize (H room). induction H as [|n l Hs IH Hf]; constructor; [|done].
    intros Hin. rewrite Forall_forall in Hf. apply Hf in Hin. lia. }
  revert Hg H0. induction Hr as [c|c s l c' Ht Hr IH]; intros Hg [Hi Hv]; [done|]. inversion Hg; subst. apply IH; [done|].
  split; [by eapply fstep_inv|]. intros room. destruct s as [pos lps|inits|v inits shown|r users|]; cbn [fstep1 fst].
  - unfold load. destruct (f_anchor c <=? 0); apply Hv.
  - unfold view_of. rewrite load_rooms_view. apply Hv.
  - rewrite (view_live env c v inits shown). apply Hv.
  - unfold lazy_typing. destruct (isLazyLoading _ _); [|apply Hv]. destruct (typing_members _ _ _ _) as [[? ?] ?]. apply Hv.
  - destruct (eff_respond c room) as [-> _]. apply (Hi room).
Qed.
Print Assumptions C52_in_order_partial.

Lemma load_rooms_other env room inits : Forall (fun i => i_room i <> room) inits -> forall c,
  lp_of (load_rooms env c inits) room = lp_of c room /\ eff (load_rooms env c inits) room = eff c room.
Proof.
  unfold load_rooms. induction 1 as [|i inits Hi H IH]; intros c; [done|]. cbn [fold_left]. destruct (IH (get_initial env c i)) as [-> ->].
  unfold get_initial, lp_of, eff. cbv zeta. cbn [f_lp f_pending f_view]. split.
  - destruct (load_timeline _ _ _); [by rewrite lookup_insert_ne|done].
  - by rewrite lookup_insert_ne.
Qed.
Lemma aside_step env room s c : aside room s -> lp_of (fstep1 env c s).1 room = lp_of c room /\ eff (fstep1 env c s).1 room = eff c room.
Proof.
  intros H. destruct s as [pos lps|inits|v inits shown|r users|]; cbn [fstep1 fst aside] in *; [done| | | |].
  - by apply load_rooms_other.
  - destruct H as [Hne Hf]. unfold process_live. cbv zeta. destruct (_ && (t_nid (v_ent v) =? 0)); [done|].
    destruct (negb (v_always v) && _); [done|]. destruct (negb (v_state v) && _); [done|].
    set (c1 := mk_feed (if f_anchor c <? t_nid (v_ent v) then t_nid (v_ent v) else f_anchor c) (f_lp c) (f_lazy c) (f_pending c) (f_view c)).
    destruct (load_rooms_other env room inits Hf c1) as [H1 H2].
    change (lp_of c1 room) with (lp_of c room) in H1. change (eff c1 room) with (eff c room) in H2. rewrite <- H1, <- H2.
    set (c2 := load_rooms env c1 inits). clearbody c2. destruct shown; [|done].
    assert (Hlp : forall b : bool, default 0 ((if b then f_lp c2 else <[v_room v := t_nid (v_ent v)]> (f_lp c2)) !! room) = lp_of c2 room).
    { intros []; [done|]. by rewrite lookup_insert_ne. }
    destruct (v_event v); [|split; [done|unfold eff; cbn [fst f_view f_pending]; by rewrite lookup_insert_ne]].
    destruct (_ && (t_nid (v_ent v) <=? _)).
    + split; [unfold lp_of at 1; cbn [fst f_lp]; apply Hlp|]. unfold eff. cbn [fst f_view f_pending]. by rewrite lookup_insert_ne.
    + destruct (lazy_member _ _ _ _ _) as [[? ?] ?]. split; [unfold lp_of at 1; cbn [fst f_lp]; apply Hlp|].
      unfold eff. cbn [fst f_view f_pending]. by rewrite lookup_insert_ne.
  - unfold lazy_typing. destruct (isLazyLoading _ _); [|done]. destruct (typing_members _ _ _ _) as [[lz members] sent]. cbn [fst].
    destruct (0 <? _); [|done]. split; [done|]. apply (eff_same c r members (f_lp c) lz).
  - split; [done|]. apply eff_respond.
Qed.

(** C52. Nothing is missed either: while a room stays in view, the client gets exactly
    the events beyond the room's loaded position, in the order of the updates. *)
Theorem C52_nothing_missed env room steps es c : feeds room steps es ->
  StronglySorted Z.lt (map t_nid es) -> Forall (fun e => lp_of c room < t_nid e /\ 0 < t_nid e) es ->
  next_view (fruns env c steps) room = next_view c room ++ es.
Proof.
  unfold next_view. intros H. revert c. induction H as [|s l es Ha Hf IH|s e l es Hs Hf IH]; intros c Hso Hpos.
  - by rewrite app_nil_r.
  - unfold fruns. cbn [fold_left]. fold (fruns env (fstep1 env c s).1 l). destruct (aside_step env room s c Ha) as [H1 H2].
    rewrite IH; [|done|by rewrite H1]. rewrite !(proj1 (eff_respond _ _)). by rewrite H2.
  - unfold fruns. cbn [fold_left]. fold (fruns env (fstep1 env c s).1 l).
    cbn [map] in Hso. apply StronglySorted_inv in Hso as [Hso Hlt]. inversion Hpos as [|? ? [He1 He2] Hpos']; subst.
    assert (Hstep : lp_of (fstep1 env c s).1 room = t_nid e /\ eff (fstep1 env c s).1 room = eff c room ++ [e]).
    { destruct Hs as (v & inits & -> & Hr & Hv & Hev & Hal & Hig & Hin). cbn [fstep1]. unfold process_live. cbv zeta.
      rewrite Hal, Hr, Hv, Hev. cbn [negb andb].
      assert (E0 : (t_nid e =? 0) = false) by lia. rewrite E0.
      assert (E1 : (0 <? lp_of c room) && (t_nid e <? lp_of c room) = false) by lia. rewrite E1.
      assert (E2 : negb (v_state v) && v_ignored v = false) by (destruct Hig as [-> | ->]; [done|by rewrite andb_false_r]). rewrite E2.
      set (c1 := mk_feed (if f_anchor c <? t_nid e then t_nid e else f_anchor c) (f_lp c) (f_lazy c) (f_pending c) (f_view c)).
      destruct (load_rooms_other env room inits Hin c1) as [H1 H2].
      change (lp_of c1 room) with (lp_of c room) in H1. change (eff c1 room) with (eff c room) in H2. rewrite H1. rewrite <- H2.
      set (c2 := load_rooms env c1 inits). clearbody c2.
      assert (E3 : (t_nid e <=? lp_of c room) = false) by lia. rewrite E3.
      destruct (lazy_member _ _ _ _ _) as [[lz members] sent]. cbn [fst]. split.
      - unfold lp_of. cbn [f_lp]. by rewrite lookup_insert.
      - by destruct (eff_append c2 room e members (<[room := t_nid e]> (f_lp c2)) lz) as [? _]. }
    destruct Hstep as [H1 H2]. rewrite IH; [|done|].
    + rewrite !(proj1 (eff_respond _ _)), H2. by rewrite <- app_assoc.
    + rewrite H1. apply List.Forall_forall. intros x Hx.
      destruct (proj1 (List.Forall_forall _ _) Hpos' x Hx) as [? ?].
      split; [|done]. apply (proj1 (List.Forall_forall _ _) Hlt). apply in_map_iff. by exists x.
Qed.
Print Assumptions C52_nothing_missed.

(** *** Examples and refutations *)
Definition env1 : fenv := mk_fenv "@a" 50 head.
Definition ops1 : list op :=
  [Initialise "!r" [ev "c1" "m.room.create" (Some ""); mem "j1" "@a" "join"];
   Initialise "!s" [ev "c2" "m.room.create" (Some ""); mem "j2" "@a" "join"];
   Accumulate "!r" (Timeline [ev "m5" "m.room.message" None] false "");
   Accumulate "!r" (Timeline [ev "m6" "m.room.message" None] false "");
   Accumulate "!s" (Timeline [ev "m7" "m.room.message" None] false "")].
Definition db1 : db := runs id keep ops1 empty_db.
Definition init1 (room : string) (limit : Z) : finit := mk_finit room limit [] (Some db1) [] [] false.
Definition msg (nid : Z) (id room sender : string) : live := mk_live room (mk_tent nid id room sender) false false true false true.
Definition v5 := msg 5 "m5" "!r" "@a".
Definition v6 := msg 6 "m6" "!r" "@a".
Definition v7 := msg 7 "m7" "!s" "@a".
Lemma some_inj (x y : db) : Some x = Some y -> x = y.
Proof. by intros [= ->]. Qed.
Lemma good1 room limit : good_init id keep (init1 room limit).
Proof. intros d Hd. apply some_inj in Hd. exists ops1. by rewrite <- Hd. Qed.

Ltac good := repeat first [apply good1 | constructor]; try (cbn; lia).

(** A room is loaded on request and two events follow. *)
Definition steps1 : list fstep :=
  [FLoad 5 {[ "!r" := 5; "!s" := 4 ]}; FRooms [init1 "!r" 10]; FLive v5 [] true; FRespond; FLive v6 [] true; FLive v7 [] false; FRespond].
Example C52_example : Forall (good_step id keep) steps1 /\ timely_run env1 feed0 steps1 (fruns env1 feed0 steps1)
  /\ map t_id (view_of (fruns env1 feed0 steps1) "!r") = ["m5"; "m6"].
Proof.
  split; [|split; [|vm_compute; reflexivity]].
  - good.
  - repeat (constructor; [done || (intros (i & [] & _))|]). constructor.
Qed.
Example C52_nothing_missed_example : feeds "!r" [FLive v5 [] true; FRespond; FLive v7 [] false; FLive v6 [] true] [v_ent v5; v_ent v6].
Proof.
  apply feeds_event; [exists v5, []; repeat split; try done; by right|]. apply feeds_aside; [done|]. apply feeds_aside; [done|].
  apply feeds_event; [exists v6, []; repeat split; try done; by right|]. constructor.
Qed.

(** C52 fails if updates of different rooms overtake each other, which pollers of
    different users make them do. The update with event 7 comes first and moves the
    anchor, so that the load caused by event 5 has events 5 and 6; then the position
    of the room goes back to 5, and event 6 is sent again. *)
Theorem C52_position_goes_back_refuted :
  let steps := [FLoad 4 {[ "!r" := 2; "!s" := 4 ]}; FLive v7 [] false; FLive v5 [init1 "!r" 10] true; FLive v6 [] true; FRespond] in
  Forall (good_step id keep) steps /\ map t_id (view_of (fruns env1 feed0 steps) "!r") = ["m5"; "m6"; "m6"].
Proof.
  split; [|vm_compute; reflexivity]. good.
Qed.
Print Assumptions C52_position_goes_back_refuted.

(** C52 fails even if updates come in order: those waiting when the connection loads
    are older than the anchor, and a room that is not among the loaded ones has no
    position to skip them by. *)
Theorem C52_waiting_updates_refuted :
  let steps := [FLoad 7 {[ "!s" := 7 ]}; FLive v5 [init1 "!r" 10] true; FLive v6 [] true; FRespond] in
  Forall (good_step id keep) steps /\ map t_id (view_of (fruns env1 feed0 steps) "!r") = ["m5"; "m6"; "m6"].
Proof.
  split; [|vm_compute; reflexivity]. good.
Qed.

(** C52 fails for a kick: the event arrives with its position, and again without one
    from the leave section, which is always processed. *)
Theorem C52_kick_twice_refuted :
  let kick always nid := mk_live "!r" (mk_tent nid "k8" "!r" "@b") true always true false true in
  let steps := [FLoad 7 {[ "!r" := 6; "!s" := 7 ]}; FLive (kick false 8) [] true; FLive (kick true 0) [] true; FRespond] in
  Forall (good_step id keep) steps /\ timely_run env1 feed0 steps (fruns env1 feed0 steps)
  /\ map t_id (view_of (fruns env1 feed0 steps) "!r") = ["k8"; "k8"].
Proof.
  cbv zeta. split; [|split; [|vm_compute; reflexivity]].
  - repeat constructor; try (cbn; lia).
  - repeat (constructor; [done || (intros (i & [] & _))|]). constructor.
Qed.

(** ** C65: whose events *)

(** C65. A room's timeline has only events of the room, if updates carry events of
    their own rooms. *)
Theorem C65_own_events_partial ord redact env steps : redact_ok redact -> 0 <= fe_max env -> Forall (good_step ord redact) steps ->
  Forall (fun s => match s with FLive v _ _ => t_room (v_ent v) = v_room v | _ => True end) steps ->
  forall room e, In e (view_of (fruns env feed0 steps) room) -> t_room e = room.
Proof.
  intros Hre Hmax Hg Ho.
  set (P := fun c : feed => forall room e, In e (view_of c room) \/ In e (lr_timeline (default lroom0 (f_pending c !! room))) -> t_room e = room).
  assert (H0 : P feed0).
  { intros room e. unfold view_of. cbn [f_view f_pending feed0]. rewrite !lookup_empty. by intros [[]|[]]. }
  enough (H : P (fruns env feed0 steps)) by (intros room e He; apply H; by left).
  assert (Hinit : forall inits c, Forall (good_init ord redact) inits -> P c -> P (load_rooms env c inits)).
  { unfold load_rooms. induction inits as [|i inits IH]; intros c Hgi HP; [done|]. inversion Hgi as [|? ? Hi Hgi']; subst. cbn [fold_left].
    apply IH; [done|]. intros room e. unfold get_initial. cbv zeta. cbn [f_pending f_view]. unfold view_of. cbn [f_view].
    destruct (decide (room = i_room i)) as [->|Hne].
    - rewrite lookup_insert. cbn [default from_option id lr_timeline]. intros [He|He]; [apply HP; by left|].
      destruct (load_timeline env (f_anchor c) i) as [l|] eqn:E; [|done].
      destruct (load_ok _ _ _ _ _ _ Hre Hmax Hi E) as (_ & _ & Hin & _). by apply Hin.
    - rewrite lookup_insert_ne by done. apply HP. }
  revert Hg Ho H0. generalize feed0. induction steps as [|s steps IH]; intros c Hg Ho HP; [done|].
  inversion Hg as [|? ? Hgs Hg']; subst. inversion Ho as [|? ? Hos Ho']; subst. unfold fruns. cbn [fold_left]. apply IH; [done..|].
  destruct s as [pos lps|inits|v inits shown|r users|]; cbn [fstep1 fst].
  - unfold load. by destruct (f_anchor c <=? 0).
  - by apply Hinit.
  - destruct Hgs as [Hgi _]. unfold process_live. cbv zeta. destruct (_ && (t_nid (v_ent v) =? 0)); [done|].
    destruct (negb (v_always v) && _); [done|]. destruct (negb (v_state v) && _); [done|].
    set (c1 := mk_feed (if f_anchor c <? t_nid (v_ent v) then t_nid (v_ent v) else f_anchor c) (f_lp c) (f_lazy c) (f_pending c) (f_view c)).
    assert (HP2 : P (load_rooms env c1 inits)) by (by apply Hinit).
    set (c2 := load_rooms env c1 inits) in *. clearbody c2. destruct shown; [|done].
    assert (Hput : forall lp lz r, (forall e, In e (lr_timeline r) -> t_room e = v_room v) -> P (mk_feed (f_anchor c2) lp lz (<[v_room v := r]> (f_pending c2)) (f_view c2))).
    { intros lp lz r Hr room e. unfold view_of. cbn [f_view f_pending]. intros [He|He]; [apply HP2; by left|].
      destruct (decide (room = v_room v)) as [->|Hne].
      - rewrite lookup_insert in He. by apply Hr.
      - rewrite lookup_insert_ne in He by done. apply HP2. by right. }
    assert (Hold : forall e, In e (lr_timeline (default lroom0 (f_pending c2 !! v_room v))) -> t_room e = v_room v) by (intros e He; apply HP2; by right).
    destruct (v_event v); [|by apply Hput]. destruct (_ && (t_nid (v_ent v) <=? _)); [by apply Hput|].
    destruct (lazy_member _ _ _ _ _) as [[lz members] sent]. apply Hput. cbn [lr_timeline]. intros e He.
    apply in_app_iff in He as [He|[<-|[]]]; [by apply Hold|done].
  - unfold lazy_typing. destruct (isLazyLoading _ _); [|done]. destruct (typing_members _ _ _ _) as [[lz members] sent].
    destruct (0 <? _); [|done]. intros room e. unfold view_of. cbn [fst f_view f_pending]. intros [He|He]; [apply HP; by left|].
    destruct (decide (room = r)) as [->|Hne]; [rewrite lookup_insert in He|rewrite lookup_insert_ne in He by done]; apply HP; by right.
  - intros room e. unfold view_of, respond. cbn [f_view f_pending]. rewrite lookup_empty. intros [He|[]].
    rewrite lookup_merge in He. destruct (f_pending c !! room) as [r|] eqn:E.
    + assert (Hr : forall x, In x (lr_timeline r) -> t_room x = room).
      { intros x Hx. apply HP. right. by rewrite E. }
      assert (Hw : forall x, In x (default [] (f_view c !! room)) -> t_room x = room) by (intros x Hx; apply HP; by left).
      destruct (f_view c !! room) as [w|] eqn:Ew; cbn in He; destruct (lr_initial r); try (by apply Hr);
        apply in_app_iff in He as [He|He]; (by apply Hr) || (by apply Hw).
    + apply HP. left. unfold view_of. destruct (f_view c !! room); done.
Qed.
Print Assumptions C65_own_events_partial.
Example C65_example : Forall (fun s => match s with FLive v _ _ => t_room (v_ent v) = v_room v | _ => True end) steps1.
Proof. by repeat constructor. Qed.

(** C65 fails for m.space.child events: they are sent to the child room's connections
    as well and end up in the child room's timeline, whose position becomes that of
    the event. *)
Theorem C65_space_event_in_child_refuted :
  let e := mk_tent 8 "space" "!s" "@a" in
  let steps := FLoad 7 {[ "!r" := 6; "!s" := 7 ]} ::
    map (fun room => FLive (mk_live room e true false true false true) [] true) (update_rooms (fun _ => true) "!s" (Some "!r")) ++ [FRespond] in
  map (fun x => (t_id x, t_room x)) (view_of (fruns env1 feed0 steps) "!r") = [("space", "!s")]
  /\ lp_of (fruns env1 feed0 steps) "!r" = 8.
Proof. split; vm_compute; reflexivity. Qed.
Print Assumptions C65_space_event_in_child_refuted.
