(** C48: the clean-up of snapshots keeps what can still be reached. *)
From Verif Require Import Prelude AccumModel AccumSpec AccumProofs AccumProofs3 AccumProofs4 AccumProofs5 AccumProofs6 AccumProps SnapProofs.
Open Scope string_scope.
Open Scope list_scope.
Open Scope Z_scope.

(** The events of the room which were stored at or after this position. *)
Definition stored_since (d : db) (rm : string) (n : Z) : nat :=
  length (List.filter (fun e => String.eqb (e_room e) rm && (n <=? e_nid e)) (d_events d)).
Definition timeline_since (d : db) (rm : string) (n : Z) : nat :=
  length (List.filter (fun e => String.eqb (e_room e) rm && (n <=? e_nid e) && negb (e_isstate e)) (d_events d)).

(** A room which has a state event has its current snapshot, with its content, after a
    clean-up, whatever number of snapshots is kept. *)
Theorem C48_current_snapshot_is_kept : forall ord redact d rm e n,
  ord_ok ord -> redact_ok redact -> reached ord redact d ->
  e ∈ d_events d -> e_room e = rm -> state_row e ->
  exists m s, d_rooms (clean_snaps n d) !! rm = Some m /\ d_rooms d !! rm = Some m /\
    d_snaps (clean_snaps n d) !! rm_snap m = Some s /\ d_snaps d !! rm_snap m = Some s.
Proof.
  intros ord redact d rm e n Ho Hr Hre He Hrm Hs.
  destruct (C23_current_state_partial ord redact d rm e Ho Hr Hre He Hrm Hs) as (m & s & H1 & H2 & _).
  destruct (reached_inv _ _ _ Ho Hr Hre) as [k Hi].
  exists m, s. split; [done|]. split; [done|]. split; [|done].
  assert (Hre' : reached ord redact (clean_snaps n d)).
  { destruct Hre as (ops & Hg & ->). exists (ops ++ [Clean n]). split; [apply Forall_app; by repeat constructor|].
    generalize empty_db. clear. induction ops as [|o ops IH]; intros d; cbn; [done|apply IH]. }
  destruct (C23_current_state_partial ord redact (clean_snaps n d) rm e Ho Hr Hre' He Hrm Hs) as (m' & s' & H1' & H2' & _).
  cbn [clean_snaps set_snaps d_rooms] in H1'. assert (m' = m) as -> by congruence.
  rewrite H2'. apply clean_snaps_sub in H2'. congruence.
Qed.
Print Assumptions C48_current_snapshot_is_kept.

(** A clean-up deletes snapshots and nothing else. *)
Theorem C48_nothing_else_is_deleted : forall n d,
  d_events (clean_snaps n d) = d_events d /\ d_rooms (clean_snaps n d) = d_rooms d /\
  d_seq (clean_snaps n d) = d_seq d /\ d_snapseq (clean_snaps n d) = d_snapseq d /\
  d_invites (clean_snaps n d) = d_invites d /\
  (forall id s, d_snaps (clean_snaps n d) !! id = Some s -> d_snaps d !! id = Some s).
Proof. intros n d. repeat split. intros id s. apply clean_snaps_sub. Qed.
Print Assumptions C48_nothing_else_is_deleted.

(** Over every history whose clean-ups keep [lim] or more snapshots besides the current one,
    the state before each of the last [lim] stored events of a room is still there, if the
    event came in a timeline.  Partial: state-block events count among the last
    [lim] here; the next theorem shows that it fails when only timeline events count. *)
Theorem C48_recent_snapshots_are_kept_partial : forall ord redact ops lim e,
  ord_ok ord -> redact_ok redact -> Forall good_op ops ->
  (forall n, Clean n ∈ ops -> (lim <= n)%nat) ->
  let d := runs ord redact ops empty_db in
  e ∈ d_events d -> e_isstate e = false ->
  (stored_since d (e_room e) (e_nid e) <= lim)%nat ->
  e_before e = 0 /\ no_state (d_events d) (e_room e) (e_nid e - 1) \/
  exists s, d_snaps d !! e_before e = Some s /\ holds_state (d_events d) (e_room e) (e_nid e - 1) s.
Proof.
  intros ord redact ops lim e Ho Hr Hg Hn d He Hs Hle.
  assert (Hc : cinv lim d).
  { apply (runs_cinv ord redact Ho Hr lim ops true); [apply empty_inv|done|done|].
    intros x Hx. cbn in Hx. by apply elem_of_nil in Hx. }
  assert (Hre : reached ord redact d) by (exists ops; done).
  destruct (reached_inv ord redact d Ho Hr Hre) as [k Hi].
  destruct (Hc e He Hs) as [_ Hp]. pose proof (iv_rows _ _ Hi e He) as Hrow. unfold row_ok in Hrow. rewrite Hs in Hrow.
  destruct Hrow as ([[H0 Hb]|(H0 & _ & Hh)] & _); [by left|right].
  destruct (Hp ltac:(lia) Hle) as [s Hss]. exists s. split; [done|]. by apply Hh.
Qed.
Print Assumptions C48_recent_snapshots_are_kept_partial.

Definition topics (n : nat) : list raw := [ev "create" "m.room.create" (Some ""); ev (String (Ascii.ascii_of_nat (64 + n)) "") "m.room.topic" (Some "")].
Definition one_message (id : string) : timeline := Timeline [ev id "m.room.message" None] false "".
(** Fifty-one later state blocks push the snapshot of the newest message out. *)
Definition pushed_out : list op :=
  [Initialise "!r" (topics 0); Accumulate "!r" (one_message "hello")] ++
  map (fun i => Initialise "!r" (topics i)) (seq 1 51) ++ [Clean 50].
Theorem C48_state_blocks_push_snapshots_out_refuted :
  ~ (forall ord redact ops lim e,
  ord_ok ord -> redact_ok redact -> Forall good_op ops ->
  (forall n, Clean n ∈ ops -> (lim <= n)%nat) ->
  e ∈ d_events (runs ord redact ops empty_db) -> e_isstate e = false ->
  (timeline_since (runs ord redact ops empty_db) (e_room e) (e_nid e) <= lim)%nat ->
  e_before e = 0 \/ exists s, d_snaps (runs ord redact ops empty_db) !! e_before e = Some s).
Proof.
  intros H.
  assert (Hg : Forall good_op pushed_out).
  { unfold pushed_out. apply Forall_app. split; [|apply Forall_app; split].
    - repeat constructor; try (apply not_elem_of_nil); try (by apply ev_good); try (cbn; set_solver).
    - apply Forall_map, Forall_true. intros i. split.
      + repeat constructor; by apply ev_good.
      + cbn. repeat constructor; [|apply not_elem_of_nil]. intros Hin. apply elem_of_list_singleton in Hin. discriminate.
    - repeat constructor. }
  assert (Hc : forall n, Clean n ∈ pushed_out -> (50 <= n)%nat).
  { intros n Hin. unfold pushed_out in Hin. apply elem_of_app in Hin as [Hin|Hin].
    - apply elem_of_cons in Hin as [?|Hin]; [done|]. apply elem_of_list_singleton in Hin. done.
    - apply elem_of_app in Hin as [Hin|Hin].
      + apply elem_of_list_fmap in Hin as (i & ? & _). done.
      + apply elem_of_list_singleton in Hin. injection Hin as ->. lia. }
  specialize (H id keep pushed_out 50%nat).
  assert (Hw : existsb (fun e => negb (e_isstate e) &&
      Nat.leb (timeline_since (runs id keep pushed_out empty_db) (e_room e) (e_nid e)) 50 && negb (e_before e =? 0) &&
      match d_snaps (runs id keep pushed_out empty_db) !! e_before e with Some _ => false | None => true end)
    (d_events (runs id keep pushed_out empty_db)) = true) by (vm_compute; reflexivity).
  revert H Hw. generalize (runs id keep pushed_out empty_db) as D. intros D H Hw.
  apply existsb_exists in Hw as (e & He & Hb). rewrite <-elem_of_list_In in He.
  apply andb_true_iff in Hb as [Hb Hb4]. apply andb_true_iff in Hb as [Hb Hb3]. apply andb_true_iff in Hb as [Hb1 Hb2].
  apply negb_true_iff in Hb1. apply Nat.leb_le in Hb2.
  destruct (H e id_ok keep_ok Hg Hc He Hb1 Hb2) as [H0|[s Hs]]; [by rewrite H0 in Hb3|by rewrite Hs in Hb4].
Qed.
Print Assumptions C48_state_blocks_push_snapshots_out_refuted.

(** A history with clean-ups in which old snapshots do go: after a
    state block of two and four timeline events, the last two keep their snapshot. *)
Definition cleaned : list op :=
  [Initialise "!r" (topics 0);
   Accumulate "!r" (Timeline [ev "a" "m.room.topic" (Some ""); ev "b" "m.room.topic" (Some "")] false "");
   Clean 2;
   Accumulate "!r" (Timeline [ev "c" "m.room.topic" (Some ""); ev "d" "m.room.topic" (Some "")] false "");
   Clean 2].
Example C48_example :
  map (fun e => (e_id e, e_isstate e, stored_since (runs id keep cleaned empty_db) "!r" (e_nid e),
     match d_snaps (runs id keep cleaned empty_db) !! e_before e with Some _ => true | None => false end))
    (d_events (runs id keep cleaned empty_db))
  = [("create", true, 6%nat, false); ("@", true, 5%nat, false); ("a", false, 4%nat, false);
     ("b", false, 3%nat, false); ("c", false, 2%nat, true); ("d", false, 1%nat, true)].
Proof. vm_compute. reflexivity. Qed.
