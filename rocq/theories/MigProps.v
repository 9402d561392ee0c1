(** Properties of upgrades of the database: C79. *)
From Verif Require Import Prelude AccumModel MigModel MigSpec MigProofs.
From Verif Require AccumProps DeviceModel DeviceSpec DeviceProofs DeviceProps.
Open Scope string_scope. Open Scope list_scope. Open Scope Z_scope.

Section Order.
Context (ord : list (string * string * cell) -> list (string * string * cell)) (Hord : forall l, ord l ≡ₚ l)
        (ordm : list (string * Z) -> list (string * Z)) (Hordm : forall l, ordm l ≡ₚ l).
Notation up k s := (goose_up k (migrations ord ordm) s).

(** C79: whatever version of the server left the database, the upgrade works, and afterwards
    it has for every device the key data, the unsent and the unacknowledged device list
    changes it had before. *)
Theorem C79_upgrade (s : sdb) : left_by_a_server s -> exists s',
  up 8%nat s = (s', true) /\ up_to_date s' /\ left_by_a_server s' /\
  forall u d, key_data s' u d = key_data s u d /\
    forall target, unsent s' u d target = unsent s u d target /\ unacknowledged s' u d target = unacknowledged s u d target.
Proof using Hord Hordm. intros Hs. destruct (upgrade ord Hord ordm Hordm 8 s Hs) as (s' & H1 & H2 & H3 & H4); [lia|]. exists s'. auto. Qed.

(** ... so that the first read of a device's data by the new version gives exactly these: the
    acknowledging read the unsent changes, any other read the unacknowledged ones. *)
Theorem C79_first_read (s s' : sdb) (u d : string) (ack : bool) : left_by_a_server s -> up 8%nat s = (s', true) ->
  let r := (DeviceModel.Select ordm (as_read (v_dev s')) u d ack).2 in
  (fun x => (DeviceModel.k_otk (DeviceModel.dd_keys x), DeviceModel.k_fallback (DeviceModel.dd_keys x), DeviceModel.k_bits (DeviceModel.dd_keys x))) <$> r = key_data s u d /\
  (key_data s u d <> None ->
   DeviceSpec.arrays_say (DeviceSpec.named r).1 (DeviceSpec.named r).2 (if ack then unsent s u d else unacknowledged s u d)).
Proof using Hord Hordm.
  intros Hs Hup. destruct (C79_upgrade s Hs) as (s'' & E & H1 & H2 & H3). rewrite Hup in E. injection E as <-. cbv zeta.
  destruct (H3 u d) as [Hk Hl]. rewrite <- Hk. clear Hk.
  assert (Ht : applied to_table s' = true) by (apply H1; cbn; tauto). assert (Hc : applied to_cbor s' = true) by (apply H1; cbn; tauto).
  assert (Hd : (written s' u d = None /\ DeviceModel.t_data (as_read (v_dev s')) !! (u, d) = None) \/
    exists o, written s' u d = Some o /\ DeviceModel.t_data (as_read (v_dev s')) !! (u, d) = Some (DeviceModel.mk_keys (o_otk o) (o_fallback o) (o_bits o))).
  { cbn [as_read DeviceModel.t_data]. destruct (c_data (v_dev s') !! (u, d)) as [c|] eqn:E; rewrite (written_eq _ _ _ _ E).
    - right. destruct (l_cells _ H2 u d c E) as (o & Ho & -> & Hn). rewrite Hc in *. specialize (Hn Ht). exists o. split; [done|].
      rewrite lookup_omap. rewrite E. cbn [mbind option_bind of_cbor].
      replace (pairs_ok default_pairs o) with true; [done|]. symmetry. unfold pairs_ok, default_pairs. destruct Ho as [Ho _]. destruct Hn as [-> ->].
      rewrite map_size_empty. rewrite !andb_true_iff, !Z.leb_le. lia.
    - left. split; [done|]. by rewrite lookup_omap, E. }
  assert (Hun : forall t, (if ack then unsent s u d else unacknowledged s u d) t = default ∅ (c_lists (v_dev s')) !! (u, d, t, if ack then 1 else 2)).
  { intros t. destruct (Hl t) as [L1 L2]. destruct ack; [rewrite <- L1|rewrite <- L2]; unfold unsent, unacknowledged; by rewrite Ht. }
  unfold DeviceModel.Select. unfold key_data. destruct Hd as [[-> ->]|(o & -> & ->)]; [done|]. cbn [fmap option_fmap option_map].
  destruct ack.
  - pose proof (DeviceProofs.SelectTx_ack (DeviceModel.t_lists (as_read (v_dev s'))) u d) as HS.
    destruct (DeviceModel.SelectTx _ u d true) as [t' r]. destruct HS as (S1 & _).
    pose proof (DeviceProofs.DLCA_spec ordm Hordm r) as HD. destruct (DeviceModel.DeviceListChangesArrays ordm r) as [ch lf]. cbn [negb DeviceModel.k_bits].
    destruct (o_bits o =? 0); cbn; (split; [done|]); intros _; (eapply DeviceProps.arrays_ext; [|exact HD]); intros t; cbn beta; rewrite S1; symmetry; apply Hun.
  - unfold DeviceModel.SelectTx. cbn [negb].
    pose proof (DeviceProofs.DLCA_spec ordm Hordm (DeviceModel.in_bucket (DeviceModel.t_lists (as_read (v_dev s'))) u d DeviceModel.BucketSent)) as HD.
    destruct (DeviceModel.DeviceListChangesArrays ordm _) as [ch lf]. cbn. split; [done|]. intros _.
    eapply DeviceProps.arrays_ext; [|exact HD]. intros t. cbn beta. rewrite DeviceProofs.in_bucket_lookup. symmetry. apply Hun.
Qed.

(** Crashes do not matter: however often the server dies between two migrations, and wherever,
    once a start gets through the database is that of an upgrade without crashes. This needs
    no assumption about the database. *)
Theorem C79_crashes (s s' : sdb) (ks : list nat) (k : nat) :
  up k (boots ord ordm ks s) = (s', true) -> up 8%nat s = (s', true).
Proof using.
  intros H. apply (up_done _ _ 8%nat) in H; [|cbn; lia]. revert s H. unfold boots. induction ks as [|k1 ks IH]; intros s H; [done|].
  cbn [fold_left] in H. apply IH in H. rewrite up_again in H; [done|apply migrations_keep_table|cbn; lia].
Qed.
(** A server that is up to date changes nothing. *)
Theorem C79_once (s s' s'' : sdb) (k k' : nat) (b : bool) : up k s = (s', true) -> up k' s' = (s'', b) -> s'' = s' /\ b = true.
Proof using.
  intros H H'. rewrite up_none in H'; [by injection H' as <- <-|]. eapply up_all; [apply migrations_keep_table|exact H].
Qed.
End Order.

(** C79: the clean-up of rooms without a creation event removes all rows of these rooms, and
    leaves the rows of every other room, and every invite, as they were. *)
Theorem C79_rooms (d : db) (rm : string) :
  let d' := upBogusSnapshotCleanup d in
  let rows (d : db) := List.filter (fun e => String.eqb (e_room e) rm) (d_events d) in
  (lacks_create d rm -> d_rooms d' !! rm = None /\ rows d' = [] /\ forall id s, d_snaps d' !! id = Some s -> s_room s <> rm) /\
  (~ lacks_create d rm -> d_rooms d' !! rm = d_rooms d !! rm /\ rows d' = rows d /\
     forall id s, s_room s = rm -> d_snaps d' !! id = Some s <-> d_snaps d !! id = Some s) /\
  d_invites d' = d_invites d /\ d_spaces d' = d_spaces d.
Proof.
  cbv zeta. assert (Hb : forall rm, bogus d rm = true <-> lacks_create d rm).
  { clear rm. intros rm. unfold bogus, lacks_create, has_create. rewrite andb_true_iff, bool_decide_eq_true, negb_true_iff, <- not_true_iff_false, existsb_exists.
    setoid_rewrite andb_true_iff. setoid_rewrite andb_true_iff. setoid_rewrite String.eqb_eq. setoid_rewrite <- elem_of_list_In. naive_solver. }
  split; [|split; [|done]].
  - intros H. apply Hb in H. cbn. split; [|split].
    + apply map_filter_lookup_None. right. intros x _. cbn. by rewrite H.
    + induction (d_events d) as [|e l IH]; [done|]. cbn [List.filter]. destruct (bogus d (e_room e)) eqn:E; cbn [negb]; [done|].
      cbn [List.filter]. destruct (String.eqb_spec (e_room e) rm) as [<-|]; [congruence|done].
    + intros id s Hs <-. apply map_filter_lookup_Some in Hs as [_ Hs]. cbn in Hs. congruence.
  - intros H. rewrite <- Hb in H. apply not_true_iff_false in H. cbn. split; [|split].
    + destruct (d_rooms d !! rm) as [r|] eqn:E; [by apply map_filter_lookup_Some|apply map_filter_lookup_None; by left].
    + induction (d_events d) as [|e l IH]; [done|]. cbn [List.filter]. destruct (bogus d (e_room e)) eqn:E; cbn [negb List.filter].
      * destruct (String.eqb_spec (e_room e) rm) as [<-|]; [congruence|done].
      * by rewrite IH.
    + intros id s <-. rewrite map_filter_lookup_Some. cbn. naive_solver.
Qed.

(** C79: the clean-up of invites removes an invite if and only if the room's current state has
    for this user a membership other than an invite; nothing else changes. *)
Theorem C79_dead_invites (d : db) (user rm inv : string) :
  let d' := cleanup_dead_invites d in
  (d_invites d' !! (user, rm) = Some inv <->
   d_invites d !! (user, rm) = Some inv /\ forall m, state_says d rm user m -> m = "invite" \/ m = "_invite") /\
  d_events d' = d_events d /\ d_snaps d' = d_snaps d /\ d_rooms d' = d_rooms d /\ d_spaces d' = d_spaces d.
Proof.
  cbv zeta. split; [|done]. unfold cleanup_dead_invites. cbn. rewrite map_filter_lookup_Some. cbn [fst snd].
  assert (Hd : dead_invite d user rm = true <-> exists m, state_says d rm user m /\ m <> "invite" /\ m <> "_invite").
  { unfold dead_invite, state_says. destruct (d_rooms d !! rm) as [r|]; [|naive_solver].
    destruct (d_snaps d !! rm_snap r) as [s|] eqn:Es; [|naive_solver].
    rewrite existsb_exists. setoid_rewrite andb_true_iff. setoid_rewrite andb_true_iff. setoid_rewrite bool_decide_eq_true. setoid_rewrite negb_true_iff.
    setoid_rewrite orb_false_iff. setoid_rewrite String.eqb_eq. setoid_rewrite String.eqb_neq. setoid_rewrite <- elem_of_list_In. split.
    - intros (e & He & (H1 & H2) & H3 & H4). exists (e_member e). split; [|done]. exists r, s, e. done.
    - intros (m & (r' & s' & e & [= <-] & E & He & H1 & H2 & <-) & H3 & H4). rewrite Es in E. injection E as <-. exists e. done. }
  rewrite <- not_true_iff_false, Hd. split; intros [H1 H2]; (split; [done|]).
  - intros m Hm. destruct (decide (m = "invite")) as [|N1]; [by left|]. destruct (decide (m = "_invite")) as [|N2]; [by right|].
    exfalso. apply H2. eauto.
  - intros (m & Hm & N1 & N2). destruct (H2 m Hm); done.
Qed.

(** C79: users with unread counts in a room that is not known lose their invites and the
    position their devices had reached, so that the next poll starts anew and brings the
    invites again; nobody else is affected. *)
Theorem C79_stuck_invites (s : sdb) (user : string) :
  let s' := upClearStuckInvites s in
  (stuck s user -> (forall rm, d_invites (v_store s') !! (user, rm) = None) /\
     forall dev, v_since s' !! (user, dev) = (fun _ => "") <$> v_since s !! (user, dev)) /\
  (~ stuck s user -> (forall rm, d_invites (v_store s') !! (user, rm) = d_invites (v_store s) !! (user, rm)) /\
     forall dev, v_since s' !! (user, dev) = v_since s !! (user, dev)) /\
  v_dev s' = v_dev s /\ v_unread s' = v_unread s /\ d_rooms (v_store s') = d_rooms (v_store s) /\
  d_events (v_store s') = d_events (v_store s) /\ d_snaps (v_store s') = d_snaps (v_store s).
Proof.
  cbv zeta. assert (Hu : user ∈ stuck_users s <-> stuck s user).
  { unfold stuck_users, stuck. rewrite elem_of_list_fmap. split.
    - intros ([u rm] & -> & H). apply elem_of_list_In, filter_In in H as [H1 H2]. apply bool_decide_eq_true in H2. eauto.
    - intros (rm & H1 & H2). exists (user, rm). split; [done|]. apply elem_of_list_In, filter_In. split; [done|]. by apply bool_decide_eq_true. }
  rewrite <- Hu. split; [|split; [|done]]; intros H; cbn; split.
  - intros rm. apply map_filter_lookup_None. right. intros x _. cbn. naive_solver.
  - intros dev. rewrite map_lookup_imap. cbn. rewrite bool_decide_true by done. by destruct (v_since s !! (user, dev)).
  - intros rm. destruct (d_invites (v_store s) !! (user, rm)) as [i|] eqn:E; [by apply map_filter_lookup_Some|apply map_filter_lookup_None; by left].
  - intros dev. rewrite map_lookup_imap. cbn. rewrite bool_decide_false by done. by destruct (v_since s !! (user, dev)).
Qed.

(** Going back from CBOR to JSON gives the data there was, if no map in it has more than
    131072 entries. *)
Theorem C79_back_to_json_partial (ord : list (string * string * cell) -> list (string * string * cell)) (t t' : dev) : (forall l, ord l ≡ₚ l) ->
  (forall u d c, c_data t !! (u, d) = Some c -> exists o, c = Some (Json o) /\ pairs_ok 131072 o = true) -> c_type t = JSONB ->
  upCborDeviceData ord t = Some t' -> downCborDeviceData ord t' = Some t.
Proof.
  intros Hord Hc Ht. unfold upCborDeviceData, downCborDeviceData. rewrite Ht.
  destruct (column ord Hord (fun c => o ← of_json c; Some (Some (Cbor o))) (c_data t)) as (col & -> & H1).
  { intros [u d] c E. destruct (Hc u d c E) as (o & -> & _). cbn. eauto. }
  intros [= <-]. cbn [c_data c_lists].
  assert (Hcol : forall u d, (c_data t !! (u, d) = None /\ col !! (u, d) = None) \/
    exists o, pairs_ok 131072 o = true /\ c_data t !! (u, d) = Some (Some (Json o)) /\ col !! (u, d) = Some (Some (Cbor o))).
  { intros u d. destruct (c_data t !! (u, d)) as [c|] eqn:E; [right|left].
    - destruct (Hc u d c E) as (o & -> & Ho). exists o. split; [done|]. split; [done|]. etrans; [exact (H1 (u, d))|]. by rewrite E.
    - split; [done|]. etrans; [exact (H1 (u, d))|]. by rewrite E. }
  destruct (column ord Hord (fun c => o ← of_cbor default_pairs c; Some (Some (Json o))) col) as (col' & -> & H2).
  { intros [u d] c E. destruct (Hcol u d) as [[_ H]|(o & Ho & _ & H)]; apply (eq_trans (eq_sym E)) in H; [done|]. apply (inj Some) in H as ->. cbn.
    unfold default_pairs. rewrite Ho. cbn. eauto. }
  f_equal. destruct t as [ty data lists]. cbn in *. subst ty. f_equal. apply map_eq. intros [u d]. etrans; [exact (H2 (u, d))|].
  destruct (Hcol u d) as [[E1 E2]|(o & Ho & E1 & E2)]; (etrans; [refine (f_equal (fun x => mbind _ x) E2)|]); (etrans; [|symmetry; exact E1]); [done|]. cbn. unfold default_pairs. by rewrite Ho.
Qed.

(** ** Examples and refutations *)
Definition m1 : gmap string Z := <["@b" := 1]> (<["@c" := 2]> ∅).
Definition od : odata := mk_odata (Some (<["curve" := 50]> ∅)) (Some ["signed"]) (Some m1) (Some (<["@d" := 1]> ∅)) 3.
Definition room_db : db := runs id AccumProps.keep
  [Initialise "!r" [AccumProps.ev "create" "m.room.create" (Some ""); AccumProps.mem "join" "@a" "join"];
   Accumulate "!r" (Timeline [AccumProps.mem "leave" "@a" "leave"] false "");
   Invite "@a" "!r" "again"] empty_db.
(** What a server that knew the first five migrations left. *)
Definition old_db : sdb :=
  mk_sdb (mk_dev BYTEA (<[("@a", "phone") := Some (Cbor od)]> ∅) None) room_db [("@z", "!unknown")]
    (<[("@a", "phone") := "s5"]> (<[("@z", "phone") := "s6"]> ∅))
    {[ 20230728114555; to_jsonb; to_cbor; 20230822180807; 20230913120537 ]}.
(** ... and one from before the first. *)
Definition oldest_db : sdb :=
  mk_sdb (mk_dev BYTEA (<[("@a", "phone") := Some (Json od)]> ∅) None) room_db [] (<[("@a", "phone") := "s5"]> ∅) ∅.

Lemma od_sensible : sensible od.
Proof.
  split; [vm_compute; discriminate|]. intros m [-> | ->]; cbn; (split; [vm_compute; discriminate|]); intros t st H.
  - unfold m1 in H. apply lookup_insert_Some in H as [[_ <-]|[_ H]]; [by left|]. apply lookup_insert_Some in H as [[_ <-]|[_ H]]; [by right|]. by rewrite lookup_empty in H.
  - apply lookup_insert_Some in H as [[_ <-]|[_ H]]; [by left|]. by rewrite lookup_empty in H.
Qed.
Lemma old_left : left_by_a_server old_db.
Proof.
  split.
  - split; intros H; vm_compute in H; vm_compute; done.
  - vm_compute; done.
  - intros u d c H. cbn in H. assert (E1 : applied to_cbor old_db = true) by (vm_compute; done). assert (E2 : applied to_table old_db = false) by (vm_compute; done).
    rewrite E1, E2. destruct (decide ((u, d) = ("@a", "phone"))) as [E|E].
    + rewrite E, lookup_insert in H. injection H as <-. exists od. split; [apply od_sensible|done].
    + rewrite lookup_insert_ne in H by done. by rewrite lookup_empty in H.
  - done.
Qed.
Lemma oldest_left : left_by_a_server oldest_db.
Proof.
  split.
  - split; intros H; vm_compute in H; done.
  - vm_compute; done.
  - intros u d c H. cbn in H. assert (E1 : applied to_cbor oldest_db = false) by (vm_compute; done). assert (E2 : applied to_table oldest_db = false) by (vm_compute; done).
    rewrite E1, E2. destruct (decide ((u, d) = ("@a", "phone"))) as [E|E].
    + rewrite E, lookup_insert in H. injection H as <-. exists od. split; [apply od_sensible|done].
    + rewrite lookup_insert_ne in H by done. by rewrite lookup_empty in H.
  - done.
Qed.
Example C79_example : left_by_a_server old_db /\ left_by_a_server oldest_db /\
  unsent oldest_db "@a" "phone" "@c" = Some 2 /\ unacknowledged oldest_db "@a" "phone" "@d" = Some 1 /\
  key_data oldest_db "@a" "phone" = Some (o_otk od, Some ["signed"], 3) /\
  (** a crash after the third migration, and another after two more *)
  (let s' := boots id id [3%nat; 2%nat; 8%nat] oldest_db in
   applied to_table s' = true /\ unsent s' "@a" "phone" "@c" = Some 2 /\ unacknowledged s' "@a" "phone" "@d" = Some 1 /\
   (DeviceModel.Select id (as_read (v_dev s')) "@a" "phone" true).2 = Some (DeviceModel.mk_data (DeviceModel.mk_keys (o_otk od) (Some ["signed"]) 3) ["@b"] ["@c"])) /\
  stuck old_db "@z" /\ ~ stuck old_db "@a" /\ state_says room_db "!r" "@a" "leave" /\ ~ lacks_create room_db "!r".
Proof.
  split; [apply old_left|]. split; [apply oldest_left|]. split; [vm_compute; reflexivity|]. split; [vm_compute; reflexivity|].
  split; [reflexivity|]. split; [cbv zeta|].
  { split; [vm_compute; reflexivity|]. split; [vm_compute; reflexivity|]. split; [vm_compute; reflexivity|]. vm_compute; reflexivity. }
  split. { exists "!unknown". split; [by left|vm_compute; reflexivity]. }
  split. { intros (rm & [E|[]] & _). discriminate. }
  split.
  { destruct (d_rooms room_db !! "!r") as [r|] eqn:Er; [|vm_compute in Er; discriminate].
    destruct (d_snaps room_db !! rm_snap r) as [sn|] eqn:Es.
    - destruct (nth_error (d_events room_db) 2) as [e|] eqn:Ee; [|vm_compute in Ee; discriminate].
      exists r, sn, e. split; [done|]. split; [done|]. split; [apply elem_of_list_In; by eapply nth_error_In|].
      vm_compute in Er. injection Er as <-. vm_compute in Es. injection Es as <-. vm_compute in Ee. injection Ee as <-. cbn. set_solver.
    - vm_compute in Er. injection Er as <-. vm_compute in Es. discriminate. }
  intros [_ H]. apply H. destruct (nth_error (d_events room_db) 0) as [e|] eqn:Ee; [|vm_compute in Ee; discriminate].
  exists e. split; [apply elem_of_list_In; by eapply nth_error_In|]. vm_compute in Ee. injection Ee as <-. done.
Qed.

(** C79 fails for invites: a user who left a room and was invited to it again has an invite
    which the upgrade takes away, because the room's state is that of the time at which they left (and
    it stays so until someone whose sync the server follows is in the room). The position of their devices is kept, so
    the homeserver does not send the invite again. *)
Theorem C79_new_invite_refuted : ~ forall (s s' : sdb) (u rm inv : string), left_by_a_server s ->
  goose_up 8 (migrations id id) s = (s', true) -> d_invites (v_store s) !! (u, rm) = Some inv ->
  d_invites (v_store s') !! (u, rm) = Some inv \/ forall dev, default "" (v_since s' !! (u, dev)) = "".
Proof.
  intros H. specialize (H old_db (goose_up 8 (migrations id id) old_db).1 "@a" "!r" "again" old_left).
  destruct H as [H|H].
  - destruct (C79_upgrade id (fun l => reflexivity l) id (fun l => reflexivity l) old_db old_left) as (s' & E & _). by rewrite E.
  - vm_compute; reflexivity.
  - vm_compute in H. discriminate.
  - specialize (H "phone"). vm_compute in H. discriminate.
Qed.
(** C79 fails for a step back: taking the last migration back, and running it again, loses the
    changes. *)
Theorem C79_step_back_refuted : ~ forall t t1 t2 t3 : dev, upDeviceListTable id id t = Some t1 -> downDeviceListTable t1 = Some t2 ->
  upDeviceListTable id id t2 = Some t3 -> forall k, default ∅ (c_lists t3) !! k = default ∅ (c_lists t1) !! k.
Proof.
  intros H.
  assert (E : match upDeviceListTable id id (v_dev old_db) with
              | Some t1 => match downDeviceListTable t1 with
                           | Some t2 => match upDeviceListTable id id t2 with
                                        | Some t3 => (default ∅ (c_lists t3) !! ("@a", "phone", "@c", 1), default ∅ (c_lists t1) !! ("@a", "phone", "@c", 1))
                                        | None => (None, None)
                                        end
                           | None => (None, None)
                           end
              | None => (None, None)
              end = (None, Some 2)) by (vm_compute; reflexivity).
  destruct (upDeviceListTable id id (v_dev old_db)) as [t1|] eqn:E1; [|discriminate].
  destruct (downDeviceListTable t1) as [t2|] eqn:E2; [|discriminate].
  destruct (upDeviceListTable id id t2) as [t3|] eqn:E3; [|discriminate].
  specialize (H _ _ _ _ E1 E2 E3 ("@a", "phone", "@c", 1)). injection E as A B. rewrite A, B in H. discriminate.
Qed.
(** C79 fails for a step back to JSON if a device has too many changes: it is refused. *)
Lemma big_map n : exists m : gmap string Z, size m = n /\ forall t st, m !! t = Some st -> st = 1.
Proof.
  induction n as [|n (m & Hm & H)]; [exists ∅; split; [apply map_size_empty|intros t st E; by rewrite lookup_empty in E]|].
  exists (<[fresh (dom m) := 1]> m). split.
  - rewrite map_size_insert_None; [by rewrite Hm|]. apply not_elem_of_dom, is_fresh.
  - intros t st E. apply lookup_insert_Some in E as [[_ E]|[_ E]]; [done|by apply (H t)].
Qed.
Lemma one_row conv (k : string * string) (c : cell) : new_column id conv {[ k := c ]} = (fun c' => {[ k := c' ]}) <$> conv c.
Proof.
  unfold new_column. unfold id. rewrite map_to_list_singleton. cbn [fold_left snd fst]. destruct (conv c) as [c'|]; [|done]. cbn. f_equal.
  by rewrite map_fmap_singleton, insert_singleton.
Qed.
Theorem C79_too_many_refuted : ~ forall t t' : dev, c_type t = JSONB -> (forall u d c, c_data t !! (u, d) = Some c -> exists o, c = Some (Json o) /\ sensible o) ->
  upCborDeviceData id t = Some t' -> downCborDeviceData id t' <> None.
Proof.
  intros H. destruct (big_map (Z.to_nat 131073)) as (m & Hsz & Hm).
  set (o := mk_odata None None (Some m) None 0).
  apply (H (mk_dev JSONB {[ ("@a", "phone") := Some (Json o) ]} None) (mk_dev BYTEA {[ ("@a", "phone") := Some (Cbor o) ]} None)).
  - done.
  - intros u d c E. cbn in E. apply lookup_singleton_Some in E as [_ <-]. exists o. split; [done|]. split; [cbn; rewrite map_size_empty; lia|].
    intros m' [-> | ->]; cbn; (split; [rewrite ?map_size_empty, ?Hsz; lia|]); intros t st E.
    + left. by apply (Hm t).
    + by rewrite lookup_empty in E.
  - unfold upCborDeviceData. cbn [c_type c_data c_lists]. by rewrite one_row.
  - unfold downCborDeviceData. cbn [c_data]. rewrite one_row. cbn [of_cbor]. replace (pairs_ok default_pairs o) with false; [done|].
    symmetry. unfold pairs_ok. cbv zeta. change (default ∅ (o_new o)) with m. rewrite Hsz. destruct (Z.leb_spec (Z.of_nat (Z.to_nat 131073)) default_pairs) as [L|L].
    + unfold default_pairs in L. lia.
    + by rewrite andb_false_r.
Qed.

Print Assumptions C79_upgrade. Print Assumptions C79_first_read. Print Assumptions C79_crashes. Print Assumptions C79_once.
Print Assumptions C79_rooms. Print Assumptions C79_dead_invites. Print Assumptions C79_stuck_invites. Print Assumptions C79_back_to_json_partial.
Print Assumptions C79_new_invite_refuted. Print Assumptions C79_step_back_refuted. Print Assumptions C79_too_many_refuted.
