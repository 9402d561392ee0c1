(** C26-C29, C64: queries on the event store. *)
From Verif Require Import Prelude AccumModel AccumSpec AccumProofs AccumProofs4 AccumProofs5 AccumProofs6 AccumProps
  StoreModel StoreSpec StoreProofs.
Open Scope string_scope.
Open Scope list_scope.
Open Scope Z_scope.

Lemma stored_base ord redact d : redact_ok redact -> stored ord redact d -> base0 d.
Proof. intros Hr (ops & ->). by apply (runs_ids ord redact Hr ops empty_db empty_base0). Qed.

(** * C26: the state of a room at a position *)
(** [x] is the last event of the room up to the position.  The answer is the newest state
    event of each type and state key up to the position, restricted to the requested ones;
    each is there once, except that with a filter [x] may be there twice if it has no
    snapshot of its own.  Partial.  It is asked that
    - the snapshot before [x] is still stored, or [x] is a state event and the room's last
      event altogether (a state-block event has no snapshot of its own);
    - with a filter, [x] is a state event or does not match the filter. *)
Theorem C26_room_state_at_position_partial : forall ord redact d rm r pos x f,
  ord_ok ord -> redact_ok redact -> reached ord redact d ->
  d_rooms d !! rm = Some r ->
  last_row (d_events d) rm pos x ->
  (e_before x <> 0 -> d_snaps d !! e_before x <> None) ->
  (e_before x <> 0 \/ (state_row x /\ e_nid x = rm_latest r)) ->
  (f = ∅ \/ state_row x \/ ~ wanted f x) ->
  exists l, room_state_after d rm pos f = Ok (Some l) /\
    (forall e, e ∈ l <-> newest (d_events d) rm pos e /\ wanted f e) /\
    (f = ∅ \/ e_before x <> 0 -> NoDup l).
Proof.
  intros ord redact d rm r pos x f Ho Hr Hre Hrm Hx Hsn Hg Hm. destruct (reached_inv _ _ _ Ho Hr Hre) as [k Hi].
  apply (room_state_ok k d rm pos x r f); try done. intros Hb. destruct (d_snaps d !! e_before x) eqn:E; [by eexists|].
  by destruct (Hsn Hb).
Qed.
Print Assumptions C26_room_state_at_position_partial.

(** A room without events up to the position is not in the answer. *)
Theorem C26_nothing_before_the_first_event : forall ord redact d rm pos f,
  ord_ok ord -> redact_ok redact -> reached ord redact d ->
  (forall e, e ∈ d_events d -> e_room e = rm -> pos < e_nid e) ->
  room_state_after d rm pos f = Ok None.
Proof.
  intros ord redact d rm pos f Ho Hr Hre Hno. destruct (reached_inv _ _ _ Ho Hr Hre) as [k Hi].
  by eapply room_state_none.
Qed.
Print Assumptions C26_nothing_before_the_first_event.

Definition answer (o : outcome (option (list event))) : option (list (Z * string)) :=
  match o with Ok (Some l) => Some (positions l) | _ => None end.
(** Positions in the middle of a history, with and without filters. *)
Example C26_example :
  answer (room_state_after after_history "!r" 6 ∅) = Some [(1, "create"); (5, "topic1"); (6, "leave")] /\
  answer (room_state_after after_history "!r" 7 {["m.room.topic" := [""]]}) = Some [(7, "topic2")] /\
  answer (room_state_after after_history "!r" 100 {["m.room.member" := []]}) = Some [(6, "leave")] /\
  answer (room_state_after after_history "!r" 0 ∅) = None.
Proof. repeat split; vm_compute; reflexivity. Qed.
Example C26_hypotheses_hold :
  match latest_event_in after_history "!r" 6 with
  | Some x => (e_nid x, 0 <? e_before x, match d_snaps after_history !! e_before x with Some _ => true | None => false end)
  | None => (0, false, false)
  end = (6, true, true).
Proof. vm_compute. reflexivity. Qed.

(** Without the guard on [x]: a client whose position is at the end of a state block gets
    state from later events (here even two topics). *)
Theorem C26_state_from_the_future_refuted :
  exists ops pos e l, Forall good_op ops /\
    room_state_after (runs id keep ops empty_db) "!r" pos ∅ = Ok (Some l) /\ e ∈ l /\ pos < e_nid e.
Proof.
  exists history, 3. assert (Hd : runs id keep history empty_db = after_history) by (unfold after_history; reflexivity). rewrite Hd. clear Hd.
  destruct (room_state_after after_history "!r" 3 ∅) as [[l|]|] eqn:E.
  - assert (Ha : map e_nid l = [1; 3; 6; 7]).
    { change (match Ok (Some l) with Ok (Some l) => map e_nid l | _ => [] end = [1; 3; 6; 7]). rewrite <-E. vm_compute. reflexivity. }
    destruct l as [|a [|a' [|b l]]]; [done|done|done|]. injection Ha as H1 H1' H2 H3. exists b. eexists. split; [apply history_good|].
    split; [reflexivity|]. split; [apply elem_of_list_further, elem_of_list_further, elem_of_list_here|]. rewrite H2. done.
  - exfalso. assert (H : match room_state_after after_history "!r" 3 ∅ with Ok None => true | _ => false end = false) by (vm_compute; reflexivity).
    by rewrite E in H.
  - exfalso. assert (H : match room_state_after after_history "!r" 3 ∅ with Fail _ => true | _ => false end = false) by (vm_compute; reflexivity).
    by rewrite E in H.
Qed.
Print Assumptions C26_state_from_the_future_refuted.

(** A message is returned as state when its type is asked for. *)
Theorem C26_message_as_state_refuted :
  answer (room_state_after after_history "!r" 8 {["m.room.message" := [""]]}) = Some [(8, "msg2")] /\
  exists e, e ∈ d_events after_history /\ e_nid e = 8 /\ ~ state_row e.
Proof.
  split; [vm_compute; reflexivity|].
  assert (H : existsb (fun e => (e_nid e =? 8) && negb (e_isstate e || has_key (e_json e))) (d_events after_history) = true)
    by (vm_compute; reflexivity).
  revert H. generalize (d_events after_history). intros l H. apply existsb_exists in H as (e & He & Hb).
  apply andb_true_iff in Hb as [Hn Hb]. apply negb_true_iff in Hb. exists e. split; [by apply elem_of_list_In|].
  split; [lia|]. rewrite <-srow_spec. unfold srow. by rewrite Hb.
Qed.
Print Assumptions C26_message_as_state_refuted.

(** The last event of a state block is returned twice when it is asked for. *)
Theorem C26_returned_twice_refuted :
  answer (room_state_after (runs id keep (take 1 history) empty_db) "!r" 3 {["m.room.topic" := [""]]}) =
    Some [(3, "topic0"); (3, "topic0")].
Proof. vm_compute. reflexivity. Qed.
Print Assumptions C26_returned_twice_refuted.

(** After the clean-up job a client which is far enough behind silently loses state. *)
Fixpoint name (n : nat) : string := match n with O => "t" | S n => "t" +:+ name n end.
Fixpoint topics (n : nat) : list raw :=
  match n with
  | O => []
  | S n => topics n ++ [ev (name n) "m.room.topic" (Some "")]
  end.
Definition cleaned : db :=
  runs id keep [Initialise "!r" [ev "create" "m.room.create" (Some "")];
                Accumulate "!r" (Timeline (topics 53) false "")] empty_db.
Theorem C26_state_lost_by_clean_up_refuted :
  answer (room_state_after cleaned "!r" 2 {["m.room.create" := [""]]}) = Some [(1, "create")] /\
  answer (room_state_after (clean_snaps 50 cleaned) "!r" 2 {["m.room.create" := [""]]}) = Some [].
Proof. split; vm_compute; reflexivity. Qed.
Print Assumptions C26_state_lost_by_clean_up_refuted.

(** * C27: visibility *)
(** Every stored event in the range was stored while the user was in the room, or is the
    one by which they left, or an invite to them.  The range never starts before the last
    time they joined.  If they have been in the room from [p] until [to], the range has
    everything from [p] on.  Holds after every history of operations. *)
Theorem C27_visible_range : forall ord redact d user rm from to a b,
  redact_ok redact -> stored ord redact d -> 0 <= from <= to ->
  visible_range d user rm from to = Some (a, b) ->
  (forall e, e ∈ d_events d -> a <= e_nid e <= b ->
     in_room (d_events d) user rm (e_nid e) \/ leaves_at (d_events d) user rm (e_nid e) \/
     member_at (d_events d) user rm (e_nid e) "invite") /\
  b <= to /\
  (forall q, from < q <= to -> joins_at (d_events d) user rm q -> q <= a) /\
  (forall p, from <= p <= to -> (forall r, p <= r <= to -> in_room (d_events d) user rm r) -> a <= p /\ b = to).
Proof.
  intros ord redact d user rm from to a b Hre Hst Hft Hv. apply stored_base in Hst as Hb; [|done].
  destruct (visible_ok d user rm from to a b) as (H1 & H2 & H3 & H4); [apply Hb|intros e He; apply Hb in He; lia|done..|].
  split; [|done]. intros e He Hab. apply H2; [apply Hb in He; lia|done].
Qed.
Print Assumptions C27_visible_range.

(** No range: the user was not in the room and has no membership event in between. *)
Theorem C27_no_range : forall ord redact d user rm from to p,
  redact_ok redact -> stored ord redact d -> 0 <= from <= to -> visible_range d user rm from to = None -> from <= p <= to ->
  ~ in_room (d_events d) user rm p /\ (from < p -> forall m, ~ member_at (d_events d) user rm p m).
Proof.
  intros ord redact d user rm from to p Hre Hst Hft Hv Hp. apply stored_base in Hst as Hb; [|done].
  eapply visible_none; [apply Hb|intros e He; apply Hb in He; lia|done..].
Qed.
Print Assumptions C27_no_range.

(** Join, leave, invite, join again, kicked: at different positions. *)
Definition comings : list op :=
  [Initialise "!r" [ev "create" "m.room.create" (Some ""); mem "j0" "@a" "join"];
   Accumulate "!r" (Timeline [ev "m1" "m.room.message" None; mem "j1" "@b" "join"; ev "m2" "m.room.message" None;
      mem "l1" "@b" "leave"; ev "m3" "m.room.message" None; mem "i1" "@b" "invite"; ev "m4" "m.room.message" None;
      mem "j2" "@b" "join"; ev "m5" "m.room.message" None; mem "k" "@b" "ban"; ev "m6" "m.room.message" None] false "")].
Definition coming_db : db := runs id keep comings empty_db.
Example C27_example :
  stored id keep coming_db /\
  positions (d_events coming_db) =
    [(1, "create"); (2, "j0"); (3, "m1"); (4, "j1"); (5, "m2"); (6, "l1"); (7, "m3"); (8, "i1"); (9, "m4"); (10, "j2");
     (11, "m5"); (12, "k"); (13, "m6")] /\
  map (visible_range coming_db "@b" "!r" 0) [3; 5; 7; 9; 11; 13] =
    [None; Some (4, 5); Some (4, 6); Some (8, 8); Some (10, 11); Some (10, 12)] /\
  visible_range coming_db "@b" "!r" 5 7 = Some (5, 6).
Proof. split; [eexists; reflexivity|]. repeat split; vm_compute; reflexivity. Qed.

(** * C28: recent timelines *)
(** The limit which applies: the requested one, but not above the server's (0: none). *)
Definition effective (limit max : Z) : Z := if bool_decide (max = 0) then limit else Z.min limit max.

(** The timeline has at most that many events, in order, all from the room's timelines
    and the visible range; it misses no event between its first one and the end of the
    range; only its first event may follow a gap; and it is only shorter than the limit if
    there is a gap or nothing more. *)
Theorem C28_timeline : forall ord redact pick d user rm to limit max l a b,
  redact_ok redact -> stored ord redact d -> 0 <= max ->
  visible_range d user rm 0 to = Some (a, b) ->
  latest_in_room pick d user rm to limit max = Ok (Some l) ->
  (Z.of_nat (length (le_timeline l)) <= effective limit max) /\
  increasing (le_timeline l) /\
  (forall e, e ∈ le_timeline l -> timeline_row (d_events d) rm a b e) /\
  (forall e x, e ∈ le_timeline l -> timeline_row (d_events d) rm a b x -> e_nid e <= e_nid x -> x ∈ le_timeline l) /\
  (forall e y, e ∈ le_timeline l -> y ∈ le_timeline l -> e_nid y < e_nid e -> e_missing e = false) /\
  (forall x, timeline_row (d_events d) rm a b x -> x ∉ le_timeline l ->
     Z.of_nat (length (le_timeline l)) = effective limit max \/ exists e, e ∈ le_timeline l /\ e_missing e = true) /\
  (forall e, last (le_timeline l) = Some e -> le_nid l = e_nid e).
Proof.
  intros ord redact pick d user rm to limit max l a b Hre Hst Hmax Hv Hl. apply stored_base in Hst as Hb; [|done].
  unfold latest_in_room in Hl. rewrite Hv in Hl.
  assert (Heff : (if negb (max =? 0) && (max <? limit) then max else limit) = effective limit max).
  { unfold effective. destruct (Z.eqb_spec max 0), (Z.ltb_spec max limit); cbn; case_bool_decide; lia. }
  rewrite Heff in Hl. destruct (Z.ltb_spec (effective limit max) 0) as [|Hpos]; [done|]. injection Hl as <-.
  destruct (between_ok d rm (a - 1) b (Z.to_nat (effective limit max))) as (H1 & H2 & H3 & H4 & H5 & H6); [apply Hb|].
  replace (a - 1 + 1) with a in * by lia. cbn [le_timeline le_nid].
  split; [lia|]. split; [done|]. split; [done|]. split; [done|]. split; [done|]. split.
  - intros x Hx Hn. destruct (H6 x Hx Hn) as [H|H]; [left; lia|by right].
  - intros e He. destruct (latest_between d rm (a - 1) b (Z.to_nat (effective limit max))) as [|y l']; [done|].
    cbn [rev] in He. rewrite last_snoc in He. by injection He as ->.
Qed.
Print Assumptions C28_timeline.

(** A room with a range always gets an answer, unless the requested limit is negative. *)
Theorem C28_answer : forall pick d user rm to limit max r,
  0 <= max -> visible_range d user rm 0 to = Some r ->
  (0 <= limit -> exists l, latest_in_room pick d user rm to limit max = Ok (Some l)) /\
  (limit < 0 -> latest_in_room pick d user rm to limit max = Fail false).
Proof.
  intros pick d user rm to limit max [a b] Hm Hv. unfold latest_in_room. rewrite Hv. split; intros Hl.
  - destruct (negb (max =? 0) && (max <? limit)).
    + destruct (Z.ltb_spec max 0); [lia|]. eauto.
    + destruct (Z.ltb_spec limit 0); [lia|]. eauto.
  - assert ((if negb (max =? 0) && (max <? limit) then max else limit) = limit) as ->.
    { destruct (Z.ltb_spec max limit); [lia|]. by rewrite andb_false_r. }
    by destruct (Z.ltb_spec limit 0); [|lia].
Qed.
Print Assumptions C28_answer.

Definition served (o : outcome (option latest_events)) : option (list string * string * Z) :=
  match o with Ok (Some l) => Some (map e_id (le_timeline l), le_prev l, le_nid l) | _ => None end.
(** A limited timeline begins with an event which follows a gap. *)
Definition gap_db : db :=
  runs id keep (comings ++ [Accumulate "!r" (Timeline [ev "n1" "m.room.message" None; ev "n2" "m.room.message" None] true "p2")]) empty_db.
Example C28_example :
  stored id keep gap_db /\
  served (latest_in_room head gap_db "@b" "!r" 11 3 50) = Some (["j2"; "m5"], "p2", 11) /\
  served (latest_in_room head gap_db "@b" "!r" 11 1 50) = Some (["m5"], "p2", 11) /\
  served (latest_in_room head gap_db "@a" "!r" 12 3 2) = Some (["m5"; "k"], "p2", 12) /\
  served (latest_in_room head gap_db "@a" "!r" 15 10 50) = Some (["n1"; "n2"], "p2", 15).
Proof. split; [eexists; reflexivity|]. repeat split; vm_compute; reflexivity. Qed.

(** * C64: the pagination token *)
(** The token, if any, was stored with an event of the room which is not before the
    oldest event served: paginating back from it skips nothing. *)
Theorem C64_prev_batch : forall pick d user rm to limit max l,
  (forall rows e, pick rows = Some e -> e ∈ rows) ->
  latest_in_room pick d user rm to limit max = Ok (Some l) -> le_prev l <> "" ->
  exists e x, e ∈ d_events d /\ e_room e = rm /\ e_prev e = Some (le_prev l) /\
    head (le_timeline l) = Some x /\ e_nid x <= e_nid e.
Proof.
  intros pick d user rm to limit max l Hpick Hl Hne. unfold latest_in_room in Hl.
  destruct (visible_range d user rm 0 to) as [[a b]|]; [|done].
  destruct (_ <? 0); [done|]. injection Hl as <-. cbn [le_prev le_timeline] in *.
  destruct (latest_between _ _ _ _ _) as [|y l' _] using rev_ind; [done|].
  rewrite last_snoc in *. rewrite rev_app_distr. cbn [rev app head].
  destruct (e_nid y =? 0); [done|]. unfold closest_prev in *. destruct (pick _) as [e|] eqn:E; [|done].
  apply Hpick in E. rewrite elem_of_list_In, filter_In, <-elem_of_list_In in E. destruct E as [He Hc].
  apply andb_true_iff in Hc as [Hc Hn]. apply andb_true_iff in Hc as [Hp Hr]. apply String.eqb_eq in Hr.
  destruct (e_prev e) as [p|] eqn:Ep; [|done]. exists e, y. cbn in *. split; [done|]. split; [done|]. split; [done|]. split; [done|lia].
Qed.
Print Assumptions C64_prev_batch.

(** It need not be the closest one: the query has no ORDER BY. *)
Definition two_tokens : db :=
  runs id keep (comings ++ [Accumulate "!r" (Timeline [ev "n1" "m.room.message" None] true "p2");
                            Accumulate "!r" (Timeline [ev "n2" "m.room.message" None] false "p3")]) empty_db.
Theorem C64_closest_token_refuted :
  served (latest_in_room head two_tokens "@a" "!r" 15 10 50) = Some (["n1"; "n2"], "p2", 15) /\
  served (latest_in_room last two_tokens "@a" "!r" 15 10 50) = Some (["n1"; "n2"], "p3", 15).
Proof. split; vm_compute; reflexivity. Qed.
Print Assumptions C64_closest_token_refuted.

(** * C29: ignored users *)
(** What is served is the loaded timeline without the messages of users on the last valid
    ignore list; the rest keeps its order. *)
Theorem C29_ignored_messages_are_dropped : forall pick lists d user rm to limit max l l',
  lazy_load_timeline pick (fold_left on_ignored_list lists []) d user rm to limit max = Some l' ->
  latest_in_room pick d user rm to limit max = Ok (Some l) ->
  le_timeline l' `sublist_of` le_timeline l /\
  forall e, e ∈ le_timeline l' <->
    e ∈ le_timeline l /\
    (r_skey (e_json e) <> None \/
     ~ exists pre ignored post, lists = pre ++ Some ignored :: post /\
         (forall x, x ∈ post -> x = None) /\ r_sender (e_json e) ∈ ignored).
Proof.
  intros pick lists d user rm to limit max l l' Hz Hl. unfold lazy_load_timeline in Hz. rewrite Hl in Hz.
  injection Hz as <-. cbn [le_timeline].
  assert (Hlist : forall u, u ∈ fold_left on_ignored_list lists [] <->
    exists pre ignored post, lists = pre ++ Some ignored :: post /\ (forall x, x ∈ post -> x = None) /\ u ∈ ignored).
  { intros u. induction lists as [|c lists IH] using rev_ind.
    - cbn. split; [intros H; by apply elem_of_nil in H|]. intros (pre & ? & ? & H & _). by destruct pre.
    - rewrite fold_left_app. cbn. destruct c as [ig|]; cbn.
      + split.
        * intros H. exists lists, ig, []. split; [done|]. split; [intros x Hx; by apply elem_of_nil in Hx|done].
        * intros (pre & ig' & post & H & Hp & Hu).
          destruct post as [|y post _] using rev_ind.
          -- apply app_inj_tail in H as [_ [= ->]]. done.
          -- rewrite app_comm_cons, app_assoc in H. apply app_inj_tail in H as [_ <-].
             specialize (Hp (Some ig)). feed specialize Hp; [apply elem_of_app; right; by apply elem_of_list_singleton|]. done.
      + rewrite IH. split.
        * intros (pre & ig & post & -> & Hp & Hu). exists pre, ig, (post ++ [None]).
          split; [by rewrite <-app_assoc|]. split; [|done]. intros x Hx. apply elem_of_app in Hx as [Hx|Hx]; [by apply Hp|].
          by apply elem_of_list_singleton in Hx.
        * intros (pre & ig & post & H & Hp & Hu). destruct post as [|y post _] using rev_ind.
          -- apply app_inj_tail in H as [_ [=]].
          -- rewrite app_comm_cons, app_assoc in H. apply app_inj_tail in H as [-> _]. exists pre, ig, post.
             split; [done|]. split; [|done]. intros x Hx. apply Hp. apply elem_of_app. by left. }
  split.
  - unfold discard_ignored. induction (le_timeline l) as [|e tl IH]; [constructor|]. cbn. destruct (_ || _); by constructor.
  - intros e. unfold discard_ignored. rewrite elem_of_list_In, filter_In, <-elem_of_list_In, orb_true_iff, negb_true_iff.
    apply and_iff_compat_l. unfold has_key, should_ignore.
    rewrite <-Hlist. destruct (r_skey (e_json e)); [split; [by left|by left]|].
    destruct (existsb _ _) eqn:Ee.
    + apply existsb_str in Ee. split; intros [?|H]; done.
    + split; intros _; right; [|done]. intros H. apply existsb_str in H. congruence.
Qed.
Print Assumptions C29_ignored_messages_are_dropped.

Example C29_example :
  let talk := [ev "m1" "m.room.message" None; mem "j" "@b" "join";
               Raw "m2" (Some "m.room.message") None "" false "@b" "" false "" false None None "" "";
               Raw "t" (Some "m.room.topic") (Some "") "" false "@b" "" false "" false None None "" ""] in
  let d := runs id keep [Initialise "!r" [ev "create" "m.room.create" (Some ""); mem "j0" "@a" "join"];
                         Accumulate "!r" (Timeline talk false "")] empty_db in
  let load lists := match lazy_load_timeline head (fold_left on_ignored_list lists []) d "@a" "!r" 100 10 50 with
                    | Some l => map e_id (le_timeline l) | None => [] end in
  load [] = ["m1"; "j"; "m2"; "t"] /\ load [Some ["@b"]; None] = ["m1"; "j"; "t"] /\
  load [Some ["@b"]; Some ["@c"]] = ["m1"; "j"; "m2"; "t"].
Proof. repeat split; vm_compute; reflexivity. Qed.
