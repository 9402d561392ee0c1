(** C23-C25, C63: what the event store keeps. *)
From Verif Require Import Prelude AccumModel AccumSpec AccumProofs AccumProofs3 AccumProofs4 AccumProofs5 AccumProofs6.
Open Scope string_scope.
Open Scope list_scope.
Open Scope Z_scope.

Lemma reached_inv ord redact d : ord_ok ord -> redact_ok redact -> reached ord redact d -> exists k, Inv k d.
Proof.
  intros Ho Hr (ops & Hg & ->). exists (true && negb (existsb is_clean ops)).
  apply (runs_inv ord redact Ho Hr ops true empty_db); [apply empty_inv|done].
Qed.

(** * C23: the current state of a room *)
(** A room with a stored state event has a current snapshot.  It holds exactly the last
    stored state event of each type and state key.  Partial: [reached] asks for event
    types without the byte 0x1f and for state blocks which do not repeat an event ID;
    the two theorems after this one show that it fails otherwise. *)
Theorem C23_current_state_partial : forall ord redact d rm e,
  ord_ok ord -> redact_ok redact -> reached ord redact d ->
  e ∈ d_events d -> e_room e = rm -> state_row e ->
  exists m s, d_rooms d !! rm = Some m /\ d_snaps d !! rm_snap m = Some s /\
    NoDup (snap_nids s) /\
    (forall n, n ∈ snap_nids s <-> exists x, latest_state (d_events d) rm x /\ e_nid x = n) /\
    (forall a b, latest_state (d_events d) rm a -> latest_state (d_events d) rm b -> ekey a = ekey b -> a = b).
Proof.
  intros ord redact d rm e Ho Hr Hre He Hrm Hs. destruct (reached_inv _ _ _ Ho Hr Hre) as [k Hi].
  destruct (current_state_ok k d rm e Hi He Hrm Hs) as (m & s & H1 & H2 & H3 & H4).
  exists m, s. split; [done|]. split; [done|]. split; [done|]. split; [done|].
  intros a b Ha Hb Hk. apply (latest_newest d rm _ (iv_base _ _ Hi)) in Ha, Hb.
  eapply newest_unique; [apply (iv_base _ _ Hi)|done..].
Qed.
Print Assumptions C23_current_state_partial.

(** Events for examples. *)
Definition ev (id ty : string) (sk : option string) : raw :=
  Raw id (Some ty) sk "" false "@a" "" false "" false None None "" "".
Definition mem (id user ms : string) : raw :=
  Raw id (Some "m.room.member") (Some user) ms true user "" false "" false None None "" "".
Definition redaction (id target : string) : raw :=
  Raw id (Some "m.room.redaction") None "" false "@a" target false "" false None None "" "".
Definition keep (c b j : raw) : raw := j.
Definition blank (c b j : raw) : raw :=
  Raw (r_id j) (r_type j) (r_skey j) (r_mship j) (r_change j) (r_sender j) "" false "" false None None "" "redacted".
Lemma blank_ok : redact_ok blank. Proof. by intros c b j. Qed.
Lemma keep_ok : redact_ok keep. Proof. by intros c b j. Qed.
Lemma id_ok : ord_ok id. Proof. by intros l. Qed.

Definition no_sepb (s : string) : bool :=
  (fix go s := match s with EmptyString => true
               | String c s => negb (Ascii.eqb c (Ascii.ascii_of_nat 31)) && go s end) s.
Lemma no_sepb_ok s : no_sepb s = true -> no_sep s.
Proof.
  intros H a b ->. induction a as [|c a IH].
  - rewrite app_nil_l' in H. unfold sep in H. rewrite app_cons in H. cbn in H. done.
  - rewrite app_cons in H. cbn in H. apply andb_true_iff in H as [_ H]. by apply IH.
Qed.
Lemma ev_good id ty sk : no_sepb ty = true -> good_raw (ev id ty sk).
Proof. intros H ty' [= <-]. by apply no_sepb_ok. Qed.
Lemma mem_good id u m : good_raw (mem id u m).
Proof. intros ty' [= <-]. by apply no_sepb_ok. Qed.
Lemma redaction_good id u : good_raw (redaction id u).
Proof. intros ty' [= <-]. by apply no_sepb_ok. Qed.

(** A room made by a state block, then two overlapping timelines. *)
Definition t1 : timeline :=
  Timeline [ev "msg1" "m.room.message" None; ev "topic1" "m.room.topic" (Some ""); mem "leave" "@b" "leave"] true "p1".
Definition t2 : timeline :=
  Timeline [ev "topic1" "m.room.topic" (Some ""); mem "leave" "@b" "leave";
            ev "topic2" "m.room.topic" (Some ""); ev "msg2" "m.room.message" None;
            ev "msg2" "m.room.message" None] false "".
Definition history : list op :=
  [Initialise "!r" [ev "create" "m.room.create" (Some ""); mem "joinb" "@b" "join"; ev "topic0" "m.room.topic" (Some "")];
   Accumulate "!r" t1; Accumulate "!r" t2].
Lemma t1_good : Forall good_raw (tl_events t1).
Proof. repeat constructor; by apply no_sepb_ok || (intros ty' [= <-]; by apply no_sepb_ok). Qed.
Lemma t2_good : Forall good_raw (tl_events t2).
Proof. repeat constructor; by apply no_sepb_ok || (intros ty' [= <-]; by apply no_sepb_ok). Qed.
Lemma history_good : Forall good_op history.
Proof.
  apply Forall_cons; split; [|apply Forall_cons; split; [apply t1_good|apply Forall_cons; split; [apply t2_good|apply Forall_nil_2]]].
  split.
  - repeat constructor; intros ty' [= <-]; by apply no_sepb_ok.
  - cbn. repeat (apply NoDup_cons; split; [set_solver|]). apply NoDup_nil_2.
Qed.
Definition after_history : db := runs id keep history empty_db.
Lemma history_reached : reached id keep after_history.
Proof. exists history. split; [apply history_good|reflexivity]. Qed.

Example C23_example :
  map (fun e => (e_nid e, e_id e)) (d_events after_history) =
    [(1, "create"); (2, "joinb"); (3, "topic0"); (4, "msg1"); (5, "topic1"); (6, "leave"); (7, "topic2"); (8, "msg2")] /\
  match d_rooms after_history !! "!r" with
  | Some m => option_map snap_nids (d_snaps after_history !! rm_snap m)
  | None => None
  end = Some [6; 1; 7].
Proof. split; vm_compute; reflexivity. Qed.

(** The type "x", 0x1f, "y" with state key "z" and the type "x" with state key
    "y", 0x1f, "z" are confused: the first event is lost from the current state. *)
Definition sep_history : list op :=
  [Initialise "!r" [ev "create" "m.room.create" (Some "")];
   Accumulate "!r" (Timeline [ev "one" ("x" +:+ sep +:+ "y") (Some "z"); ev "two" "x" (Some ("y" +:+ sep +:+ "z"))] false "")].
Theorem C23_separator_in_a_type_refuted :
  exists ops e s, e ∈ d_events (runs id keep ops empty_db) /\
    latest_state (d_events (runs id keep ops empty_db)) "!r" e /\
    d_snaps (runs id keep ops empty_db) !! current_snap (runs id keep ops empty_db) "!r" = Some s /\
    e_nid e ∉ snap_nids s.
Proof.
  exists sep_history. set (d := runs id keep sep_history empty_db).
  assert (Hev : exists a b c, d_events d = [a; b; c] /\ e_room b = "!r" /\ e_nid b = 2 /\ has_key (e_json b) = true /\
    ekey a <> ekey b /\ ekey c <> ekey b).
  { eexists _, _, _. split; [vm_compute; reflexivity|]. repeat split; vm_compute; discriminate. }
  destruct Hev as (a & b & c & Hev & Hr & Hn & Hk & H1 & H2).
  exists b. assert (Hs : exists s, d_snaps d !! current_snap d "!r" = Some s /\ snap_nids s = [1; 3]).
  { eexists. split; vm_compute; reflexivity. }
  destruct Hs as (s & Hs & Hnids). exists s. clearbody d.
  assert (Hb : b ∈ d_events d) by (rewrite Hev; apply elem_of_list_further, elem_of_list_here).
  split; [done|]. split; [|split; [done|]].
  - split; [done|]. split; [done|]. split.
    + right. unfold has_key in Hk. by destruct (r_skey (e_json b)).
    + rewrite Hev. intros x Hx _ _ Hxk. rewrite !elem_of_cons in Hx.
      destruct Hx as [-> |[-> |[-> |Hx]]]; [congruence|lia|congruence|by apply elem_of_nil in Hx].
  - rewrite Hn, Hnids. intros Hin. rewrite !elem_of_cons in Hin.
    destruct Hin as [Hin|[Hin|Hin]]; [lia|lia|by apply elem_of_nil in Hin].
Qed.
Print Assumptions C23_separator_in_a_type_refuted.

(** A state block which lists an event twice with a later one for the same key between:
    the earlier one becomes current. *)
Definition repeat_history : list op :=
  [Initialise "!r" [ev "create" "m.room.create" (Some ""); ev "old" "m.room.topic" (Some "");
                    ev "new" "m.room.topic" (Some ""); ev "old" "m.room.topic" (Some "")]].
Theorem C23_repeated_event_in_a_state_block_refuted :
  exists ops e s, e ∈ d_events (runs id keep ops empty_db) /\
    latest_state (d_events (runs id keep ops empty_db)) "!r" e /\
    d_snaps (runs id keep ops empty_db) !! current_snap (runs id keep ops empty_db) "!r" = Some s /\
    e_nid e ∉ snap_nids s.
Proof.
  exists repeat_history. set (d := runs id keep repeat_history empty_db).
  assert (Hev : exists a b c, d_events d = [a; b; c] /\ e_room c = "!r" /\ e_nid c = 3 /\ e_nid b = 2 /\ e_isstate c = true /\
    ekey a <> ekey c).
  { eexists _, _, _. split; [vm_compute; reflexivity|]. repeat split; vm_compute; discriminate. }
  destruct Hev as (a & b & c & Hev & Hr & Hn & Hnb & Hk & H1).
  exists c. assert (Hs : exists s, d_snaps d !! current_snap d "!r" = Some s /\ snap_nids s = [2; 1]).
  { eexists. split; vm_compute; reflexivity. }
  destruct Hs as (s & Hs & Hnids). exists s. clearbody d.
  assert (Hc : c ∈ d_events d) by (rewrite Hev; apply elem_of_list_further, elem_of_list_further, elem_of_list_here).
  split; [done|]. split; [|split; [done|]].
  - split; [done|]. split; [done|]. split; [by left|].
    rewrite Hev. intros x Hx _ _ Hxk. rewrite !elem_of_cons in Hx.
    destruct Hx as [-> |[-> |[-> |Hx]]]; [congruence|lia|lia|by apply elem_of_nil in Hx].
  - rewrite Hn, Hnids. intros Hin. rewrite !elem_of_cons in Hin.
    destruct Hin as [Hin|[Hin|Hin]]; [lia|lia|by apply elem_of_nil in Hin].
Qed.
Print Assumptions C23_repeated_event_in_a_state_block_refuted.

(** * C24: timelines *)
Lemma stored_base ord redact d : redact_ok redact -> stored ord redact d -> base0 d.
Proof.
  intros Hr (ops & ->). by apply (runs_ids ord redact Hr ops empty_db empty_base0).
Qed.

(** A call which succeeds either changes no table, or it appends rows whose IDs are what
    follows the last known event of the timeline (entries which are not acceptable and
    repeats are passed over), with higher positions than everything before, in order.
    The first new row is marked as following a gap when the homeserver said so and
    nothing of the timeline was known. *)
Theorem C24_only_what_follows_the_last_known_event : forall ord redact d rm t r d',
  redact_ok redact -> stored ord redact d -> accumulate redact rm t d = (Ok r, d') ->
  (same_tables d d' /\ ar_new r = 0) \/
  exists new, new <> [] /\
    after_known (map e_id (d_events d)) (timeline_ids t) (map e_id new) /\
    positions (d_events d') = positions (d_events d) ++ positions new /\
    increasing (d_events d') /\ (forall e, e ∈ new -> e_room e = rm) /\
    NoDup (map e_id (d_events d')) /\
    map e_missing new = match map e_id new with
                        | [] => []
                        | _ :: l => (tl_limited t && bool_decide (map e_id new = timeline_ids t))
                                      :: map (fun _ => false) l
                        end /\
    map e_missing (d_events d') = map e_missing (d_events d) ++ map e_missing new /\
    ar_new r = Z.of_nat (length new) /\ ar_nids r = map e_nid new.
Proof.
  intros ord redact d rm t r d' Hr Hre Hacc. pose proof (stored_base _ _ _ Hr Hre) as Hb.
  destruct (accumulate_rows redact Hr rm t d r d' Hb Hacc)
    as [[H ->]|(new & H1 & H2 & H3 & H4 & H5 & H6 & H7 & H8 & _)]; [by left|].
  right. exists new. split; [done|]. split; [done|]. split; [done|].
  pose proof (run_ids ord redact Hr (Accumulate rm t) d Hb) as [Hb' _].
  rewrite (run_accumulate ord redact _ _ _ _ _ Hacc) in Hb'. destruct Hb' as [B1 B2 B3 B4].
  split; [exact B1|]. split; [intros e He; by apply H5|]. split; [done|]. split; [done|]. split; [|done].
  apply (f_equal (map e_missing)) in H4. rewrite !map_map, !map_app in H4. exact H4.
Qed.
Print Assumptions C24_only_what_follows_the_last_known_event.

(** What is stored is decided by the tables and the timeline alone. *)
Theorem C24_what_follows_is_unique : forall known ids s1 s2,
  after_known known ids s1 -> after_known known ids s2 -> s1 = s2.
Proof. exact after_known_unique. Qed.
Print Assumptions C24_what_follows_is_unique.

(** A room which has a current snapshot takes all of them; a room which has none takes
    them only if they begin with its create event. *)
Theorem C24_known_rooms_take_everything : forall ord redact d rm t r d' ids,
  redact_ok redact -> stored ord redact d -> accumulate redact rm t d = (Ok r, d') ->
  after_known (map e_id (d_events d)) (timeline_ids t) ids ->
  current_snap d rm <> 0 ->
  map e_id (d_events d') = map e_id (d_events d) ++ ids.
Proof.
  intros ord redact d rm t r d' ids Hr Hre Hacc Hak Hc.
  by apply (accumulate_known_room redact Hr rm t d r d' ids (stored_base _ _ _ Hr Hre)).
Qed.
Print Assumptions C24_known_rooms_take_everything.

Theorem C24_new_rooms_begin_with_create : forall ord redact d rm t r d',
  redact_ok redact -> stored ord redact d -> accumulate redact rm t d = (Ok r, d') ->
  current_snap d rm = 0 -> 0 < ar_new r ->
  exists e l, map strip (d_events d') = map strip (d_events d ++ e :: l) /\
    e_room e = rm /\ e_type e = "m.room.create" /\ e_skey e = "".
Proof.
  intros ord redact d rm t r d' Hr Hre Hacc Hc Hpos.
  destruct (accumulate_rows redact Hr rm t d r d' (stored_base _ _ _ Hr Hre) Hacc)
    as [[_ ->]|(new & H1 & H2 & H3 & H4 & H5 & H6 & H7 & H8 & H9 & _)]; [cbn in Hpos; lia|].
  destruct (H9 Hc) as (e & l & -> & Hcr). exists e, l. split; [done|]. split; [apply H5, elem_of_list_here|].
  unfold is_create in Hcr. apply andb_true_iff in Hcr as [E1 E2]. by apply String.eqb_eq in E1, E2.
Qed.
Print Assumptions C24_new_rooms_begin_with_create.

(** The same timeline again, straight away, changes nothing. *)
Theorem C24_again_changes_nothing : forall ord redact d rm t r d1,
  redact_ok redact -> stored ord redact d -> accumulate redact rm t d = (Ok r, d1) ->
  exists r' d2, accumulate redact rm t d1 = (Ok r', d2) /\ same_tables d1 d2 /\ ar_new r' = 0 /\ ar_nids r' = [].
Proof.
  intros ord redact d rm t r d1 Hr Hre Hacc.
  by apply (repeat_now ord redact Hr rm t d r d1 (stored_base _ _ _ Hr Hre)).
Qed.
Print Assumptions C24_again_changes_nothing.

(** Nor later, whatever other pollers stored in between. *)
Theorem C24_again_later_changes_nothing : forall ord redact d rm t r d1 ops,
  redact_ok redact -> stored ord redact d ->
  accumulate redact rm t d = (Ok r, d1) -> 0 < ar_new r ->
  let d2 := runs ord redact ops d1 in
  exists r' d3, accumulate redact rm t d2 = (Ok r', d3) /\ same_tables d2 d3 /\ ar_new r' = 0 /\ ar_nids r' = [].
Proof.
  intros ord redact d rm t r d1 ops Hr Hre Hacc Hpos.
  by apply (repeat_after ord redact Hr rm t d r d1 ops (stored_base _ _ _ Hr Hre)).
Qed.
Print Assumptions C24_again_later_changes_nothing.

(** A call which fails changes no table. *)
Theorem C24_failure_changes_nothing : forall redact rm t d b d',
  accumulate redact rm t d = (Fail b, d') -> same_tables d d'.
Proof. exact accumulate_fail. Qed.
Print Assumptions C24_failure_changes_nothing.

Example C24_example : timeline_ids t2 = ["topic1"; "leave"; "topic2"; "msg2"] /\
  map e_missing (d_events after_history) = [false; false; false; true; false; false; false; false].
Proof. split; vm_compute; reflexivity. Qed.
Example C24_example_of_a_success :
  match accumulate keep "!r" t2 (runs id keep (take 2 history) empty_db) with
  | (Ok r, d') => (ar_new r, ar_nids r, length (d_events d')) = (2, [7; 8], 8%nat)
  | _ => False
  end.
Proof. vm_compute. reflexivity. Qed.

(** * C25: the state before an event *)
(** The snapshot stored with a timeline event holds exactly the state from the events
    before it; 0 stands for no state.  Clean-up (C48) may remove the snapshot; what is
    still there is right.  Partial: [reached], as for C23. *)
Theorem C25_state_before_partial : forall ord redact ops e,
  ord_ok ord -> redact_ok redact -> Forall good_op ops ->
  let d := runs ord redact ops empty_db in
  e ∈ d_events d -> e_isstate e = false ->
  (e_before e = 0 /\ no_state (d_events d) (e_room e) (e_nid e - 1)) \/
  (e_before e <> 0 /\
   (Forall (fun o => forall n, o <> Clean n) ops -> is_Some (d_snaps d !! e_before e)) /\
   forall s, d_snaps d !! e_before e = Some s -> holds_state (d_events d) (e_room e) (e_nid e - 1) s).
Proof.
  intros ord redact ops e Ho Hr Hg d He Hs.
  pose proof (runs_inv ord redact Ho Hr ops true empty_db (empty_inv true) Hg) as Hi. fold d in Hi.
  pose proof (iv_rows _ _ Hi e He) as Hrow. unfold row_ok in Hrow. rewrite Hs in Hrow.
  destruct Hrow as ([H|(H0 & Hk & Hh)] & _); [by left|]. right. split; [lia|]. split; [|done].
  intros Hnc. apply Hk. apply negb_true_iff. clear -Hnc. induction ops as [|o ops IH]; [done|].
  apply Forall_cons in Hnc as [H1 H2]. cbn. rewrite (IH H2), orb_false_r. destruct o; try done. by destruct (H1 limit).
Qed.
Print Assumptions C25_state_before_partial.

(** A timeline state event also remembers which event it replaced in that state. *)
Theorem C25_replaced_event_partial : forall ord redact d e,
  ord_ok ord -> redact_ok redact -> reached ord redact d ->
  e ∈ d_events d -> e_isstate e = false ->
  match r_skey (e_json e) with
  | None => e_replaces e = 0
  | Some _ =>
      (exists x, newest (d_events d) (e_room e) (e_nid e - 1) x /\ ekey x = ekey e /\ e_replaces e = e_nid x) \/
      (e_replaces e = 0 /\ forall x, newest (d_events d) (e_room e) (e_nid e - 1) x -> ekey x <> ekey e)
  end.
Proof.
  intros ord redact d e Ho Hr Hre He Hs. destruct (reached_inv _ _ _ Ho Hr Hre) as [k Hi].
  pose proof (iv_rows _ _ Hi e He) as Hrow. unfold row_ok in Hrow. rewrite Hs in Hrow.
  destruct Hrow as (_ & H & _). unfold replaces_ok, has_key in H. destruct (r_skey (e_json e)); done.
Qed.
Print Assumptions C25_replaced_event_partial.

Example C25_example :
  map (fun e => (e_id e, e_replaces e, option_map snap_nids (d_snaps after_history !! e_before e)))
    (List.filter (fun e => negb (e_isstate e)) (d_events after_history)) =
  [("msg1", 0, Some [2; 3; 1]); ("topic1", 3, Some [2; 3; 1]); ("leave", 2, Some [2; 1; 5]);
   ("topic2", 5, Some [6; 1; 5]); ("msg2", 0, Some [6; 1; 7])].
Proof. vm_compute. reflexivity. Qed.

(** The guards are needed: with the confused keys of C23, the snapshot remembered for the message
    that follows lacks an event of the room's state. *)
Definition sep_then_message : list op :=
  sep_history ++ [Accumulate "!r" (Timeline [ev "msg" "m.room.message" None] false "")].
Theorem C25_separator_in_a_type_refuted :
  exists ops e s, e ∈ d_events (runs id keep ops empty_db) /\ e_isstate e = false /\
    d_snaps (runs id keep ops empty_db) !! e_before e = Some s /\
    ~ holds_state (d_events (runs id keep ops empty_db)) (e_room e) (e_nid e - 1) s.
Proof.
  exists sep_then_message. set (d := runs id keep sep_then_message empty_db).
  assert (Hev : exists a b c m, d_events d = [a; b; c; m] /\ e_room b = "!r" /\ e_nid b = 2 /\ has_key (e_json b) = true /\
    ekey a <> ekey b /\ ekey c <> ekey b /\ e_isstate m = false /\ e_room m = "!r" /\ e_nid m = 4 /\ e_type b <> "m.room.member" /\
    exists s, d_snaps d !! e_before m = Some s /\ s_others s = [1; 3]).
  { eexists _, _, _, _. split; [vm_compute; reflexivity|].
    repeat match goal with |- _ /\ _ => split; [first [vm_compute; reflexivity|vm_compute; discriminate]|] end.
    eexists. split; vm_compute; reflexivity. }
  destruct Hev as (a & b & c & m & Hev & Hr & Hn & Hk & H1 & H2 & Hm1 & Hm2 & Hm3 & Ht & s & Hs & Ho). clearbody d.
  exists m, s. split; [rewrite Hev; set_solver|]. split; [done|]. split; [done|].
  intros (_ & _ & _ & H). assert (Hin : 2 ∈ s_others s).
  { apply H. exists b. split; [|done]. rewrite Hm2, Hm3. split; [rewrite Hev; set_solver|]. split; [done|]. split; [|split; [lia|]].
    - right. unfold has_key in Hk. by destruct (r_skey (e_json b)).
    - rewrite Hev. intros x Hx _ _ Hxk Hp. rewrite !elem_of_cons in Hx.
      destruct Hx as [-> |[-> |[-> |[-> |Hx]]]]; [congruence|lia|congruence|lia|by apply elem_of_nil in Hx]. }
  rewrite Ho in Hin. rewrite !elem_of_cons in Hin. destruct Hin as [Hin|[Hin|Hin]]; [lia|lia|by apply elem_of_nil in Hin].
Qed.
Print Assumptions C25_separator_in_a_type_refuted.

(** * C63: redactions *)
(** Storing a timeline changes the content of a stored event only when a redaction in
    that timeline names it.  Partial: the redaction may be in another room, as the next
    theorem shows. *)
Theorem C63_only_named_events_are_redacted_partial : forall ord redact d rm t r d' x,
  ord_ok ord -> redact_ok redact -> reached ord redact d -> Forall good_raw (tl_events t) ->
  accumulate redact rm t d = (Ok r, d') -> x ∈ d_events d ->
  exists x', x' ∈ d_events d' /\ e_nid x' = e_nid x /\ e_id x' = e_id x /\
    (e_json x' = e_json x \/
     exists c b, e_json x' = redact c b (e_json x) /\ b ∈ tl_events t /\ r_type b = Some "m.room.redaction" /\
       r_skey b = None /\ r_redacts b = e_id x).
Proof.
  intros ord redact d rm t r d' x Ho Hr Hre Hg Hacc Hx. destruct (reached_inv _ _ _ Ho Hr Hre) as [k Hi].
  by apply (accumulate_content ord redact Ho Hr k rm t d r d' x).
Qed.
Print Assumptions C63_only_named_events_are_redacted_partial.

(** A redaction in one room removes the content of an event in another. *)
Definition cross_history : list op :=
  [Initialise "!a" [ev "createa" "m.room.create" (Some ""); ev "topica" "m.room.topic" (Some "")];
   Initialise "!b" [ev "createb" "m.room.create" (Some "")]].
Lemma cross_reached : reached id blank (runs id blank cross_history empty_db).
Proof.
  exists cross_history. split; [|reflexivity].
  apply Forall_cons; split; [|apply Forall_cons; split; [|apply Forall_nil_2]];
    (split; [repeat constructor; intros ty' [= <-]; by apply no_sepb_ok|]);
    cbn; repeat (apply NoDup_cons; split; [set_solver|]); apply NoDup_nil_2.
Qed.
Theorem C63_redaction_in_another_room_refuted :
  exists d t, reached id blank d /\ Forall good_raw (tl_events t) /\
    exists r d' x x', accumulate blank "!b" t d = (Ok r, d') /\ x ∈ d_events d /\ x' ∈ d_events d' /\
      e_room x = "!a" /\ e_nid x' = e_nid x /\ e_json x' <> e_json x.
Proof.
  exists (runs id blank cross_history empty_db), (Timeline [redaction "red" "topica"] false "").
  split; [apply cross_reached|]. split; [repeat constructor; apply redaction_good|].
  destruct (accumulate blank "!b" (Timeline [redaction "red" "topica"] false "") (runs id blank cross_history empty_db))
    as [[r|b] d'] eqn:E; [|exfalso; vm_compute in E; discriminate E].
  assert (Hd' : d' = snd (accumulate blank "!b" (Timeline [redaction "red" "topica"] false "") (runs id blank cross_history empty_db)))
    by (by rewrite E).
  assert (H1 : exists a b c, d_events (runs id blank cross_history empty_db) = [a; b; c] /\ e_room b = "!a" /\
     e_nid b = 2 /\ r_rest (e_json b) = "").
  { eexists _, _, _. split; [vm_compute; reflexivity|]. vm_compute. auto. }
  assert (H2 : exists a b c e, d_events d' = [a; b; c; e] /\ e_nid b = 2 /\ r_rest (e_json b) = "redacted").
  { rewrite Hd'. eexists _, _, _, _. split; [vm_compute; reflexivity|]. vm_compute. auto. }
  clear Hd' E. destruct H1 as (a & b & c & Hd & Hb1 & Hb2 & Hb3). destruct H2 as (a' & b' & c' & e' & Hd' & Hb1' & Hb2').
  exists r, d', b, b'. split; [done|]. rewrite Hd, Hd'.
  split; [apply elem_of_list_further, elem_of_list_here|]. split; [apply elem_of_list_further, elem_of_list_here|].
  split; [done|]. split; [congruence|]. intros Heq. rewrite Heq in Hb2'. rewrite Hb3 in Hb2'. done.
Qed.
Print Assumptions C63_redaction_in_another_room_refuted.

Example C63_example :
  let d := runs id blank (history ++ [Accumulate "!r" (Timeline [redaction "red" "topic2"] false "")]) empty_db in
  map (fun e => (e_id e, r_rest (e_json e))) (drop 6 (d_events d)) = [("topic2", "redacted"); ("msg2", ""); ("red", "")].
Proof. vm_compute. reflexivity. Qed.
