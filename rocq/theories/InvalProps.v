(** C91: when a room's state is replaced, everybody in it starts afresh, and
    nobody else is disturbed. *)
From Verif Require Import Prelude TrackerModel TrackerSpec TrackerProofs CmapModel CmapSpec CmapProps InvalModel InvalSpec.
Open Scope string_scope. Open Scope list_scope. Open Scope nat_scope.

(** * The query's rows *)

Lemma sort_fold rows a b c j i l :
  fold_left sort_row rows (a, b, c) = (j, i, l) ->
  (forall u, In u j <-> In u a \/ joined_in rows u)
  /\ (forall u, In u i <-> In u b \/ invited_in rows u)
  /\ (forall u, In u j \/ In u i \/ In u l <-> (In u a \/ In u b \/ In u c) \/ involved_in rows u).
Proof.
  unfold joined_in, invited_in, involved_in.
  revert a b c; induction rows as [|[v w] rows IH]; intros a b c; cbn [fold_left].
  - intros [= <- <- <-]. cbn. split_and!; intros u; [tauto|tauto|]. split; [tauto|]. intros [H|(w0 & [])]. exact H.
  - intros E. unfold sort_row in E at 2. cbn [fst snd] in E.
    assert (Hx : forall u, (exists w0, In (u, w0) ((v, w) :: rows)) <-> u = v \/ exists w0, In (u, w0) rows).
    { intros u. split.
      - intros (w0 & [H|H]); [left|right; by exists w0]. by injection H.
      - intros [->|(w0 & H)]; [exists w; by left|exists w0; by right]. }
    assert (Hy : forall u x, In (u, x) ((v, w) :: rows) <-> (u = v /\ x = w) \/ In (u, x) rows).
    { intros u x. cbn [In]. split; (intros [H|H]; [left|by right]); [by injection H|destruct H as [-> ->]; done]. }
    assert (Hz : forall u, In u [v] <-> u = v) by (intros u; cbn; intuition congruence).
    assert (W1 : "join" <> "_join" /\ "join" <> "invite" /\ "join" <> "_invite" /\ "_join" <> "invite" /\ "_join" <> "_invite"
                 /\ "invite" <> "_invite") by done.
    destruct W1 as (W1 & W2 & W3 & W4 & W5 & W6).
    assert (G : forall u, (In u j <-> In u (a ++ if bool_decide (w = "_join") || bool_decide (w = "join") then [v] else []) \/ (In (u, "join") rows \/ In (u, "_join") rows)) 
       /\ (In u i <-> In u (b ++ if bool_decide (w = "_invite") || bool_decide (w = "invite") then [v] else []) \/ (In (u, "invite") rows \/ In (u, "_invite") rows))
       /\ (In u j \/ In u i \/ In u l <-> (In u a \/ In u b \/ In u c \/ u = v) \/ (exists w, In (u, w) rows))).
    { intros u. repeat case_bool_decide; try congruence; cbn [orb] in *; apply IH in E as (E1 & E2 & E3);
        rewrite E3, E1, E2, ?app_nil_r, ?in_app_iff, ?Hz; tauto. }
    assert (Hif : forall u (x : bool), In u (if x then [v] else []) <-> x = true /\ u = v).
    { intros u [|]; [rewrite Hz; tauto|]. cbn. split; [done|]. intros [H _]. discriminate H. }
    assert (Hor : forall x y, bool_decide (w = x) || bool_decide (w = y) = true <-> y = w \/ x = w).
    { intros x y. rewrite orb_true_iff, !bool_decide_eq_true. split; (intros [->| ->]; [by right|by left]). }
    clear E IH. split_and!; intros u; destruct (G u) as (G1 & G2 & G3); clear G.
    + rewrite G1, !Hy, in_app_iff, Hif, (Hor "_join" "join"). clear. tauto.
    + rewrite G2, !Hy, in_app_iff, Hif, (Hor "_invite" "invite"). clear. tauto.
    + rewrite G3, Hx. clear. tauto.
Qed.

Lemma fetch_spec rows j i l :
  fetch_memberships rows = (j, i, l) ->
  (forall u, In u j <-> joined_in rows u) /\ (forall u, In u i <-> invited_in rows u)
  /\ (forall u, In u (j ++ i ++ l) <-> involved_in rows u).
Proof.
  intros E. apply sort_fold in E as (E1 & E2 & E3). split_and!; intros u.
  - rewrite E1. cbn. tauto.
  - rewrite E2. cbn. tauto.
  - rewrite !in_app_iff, E3. cbn. tauto.
Qed.

Lemma unregister_fold us : forall rs out rs' out',
  fold_left (fun '(rs, out) u => if bool_decide (u ∈ rs) then (rs ∖ {[u]}, out ++ [u]) else (rs, out)) us (rs, out)
    = (rs' : gset string, out') ->
  (forall u, u ∈ rs' <-> u ∈ rs /\ ~ In u us) /\ (forall u, In u out' <-> In u out \/ (u ∈ rs /\ In u us)).
Proof.
  induction us as [|v us IH]; intros rs out rs' out'; cbn [fold_left].
  - intros [= <- <-]. split; intros u; cbn; naive_solver.
  - case_bool_decide; intros E; apply IH in E as (E1 & E2); split; intros u; rewrite ?E1, ?E2, ?in_app_iff; cbn [In].
    + set_solver.
    + destruct (decide (u = v)) as [->|]; set_solver.
    + destruct (decide (u = v)) as [->|]; naive_solver.
    + destruct (decide (u = v)) as [->|]; naive_solver.
Qed.

Lemma caches_fold us : forall (cs : gset string) u,
  u ∈ fold_left (fun cs u => cs ∖ {[u]}) us cs <-> u ∈ cs /\ ~ In u us.
Proof.
  induction us as [|v us IH]; intros cs u; cbn [fold_left In]; [tauto|]. rewrite IH. set_solver.
Qed.

Lemma invalidate_spec h room rows between :
  exists j i un,
    (forall u, In u j <-> joined_in rows u) /\ (forall u, In u i <-> invited_in rows u)
    /\ (forall u, In u un <-> u ∈ h_receivers h /\ involved_in rows u)
    /\ let h' := invalidate_room h room (Some rows) between in
       h_tracker h' = reload_memberships (h_tracker h) room j i
       /\ (forall u, u ∈ h_receivers h' <-> u ∈ h_receivers h /\ ~ involved_in rows u)
       /\ (forall u, u ∈ h_caches h' <-> u ∈ h_caches h /\ ~ In u un)
       /\ h_conns h' = closeUsers (run (h_conns h) between) un.
Proof.
  unfold invalidate_room. destruct (fetch_memberships rows) as [[j i] l] eqn:Ef.
  apply fetch_spec in Ef as (Hj & Hi & Hl).
  destruct (unregister_bulk _ _) as [rs un] eqn:Eu. apply unregister_fold in Eu as (Hr & Hu).
  exists j, i, un. split; [done|]. split; [done|]. split; [intros u; rewrite Hu, Hl; cbn; tauto|].
  cbn zeta. cbn [h_tracker h_receivers h_caches h_conns]. split; [done|]. split; [intros u; rewrite Hr, Hl; done|].
  split; [|done]. intros u. apply caches_fold.
Qed.

(** Closing only takes away. *)
Lemma usable_remove m k c : usable (remove m k) c -> usable m c.
Proof.
  unfold usable, remove, getConn. destruct (m_cache m !! k) as [d|] eqn:E; [|done]. cbn [m_cache m_dead].
  destruct (decide (k = key (x_id c))) as [->|Hne]; [by rewrite lookup_delete|].
  rewrite lookup_delete_ne by done. destruct (m_cache m !! key (x_id c)) as [e|]; [|done].
  by case_bool_decide.
Qed.
Lemma usable_removes cs : forall m c, usable (fold_left (fun m c => remove m (ckey c)) cs m) c -> usable m c.
Proof. induction cs as [|d cs IH]; intros m c; cbn [fold_left]; [done|]. intros H. by apply IH, usable_remove in H. Qed.
Lemma usable_closeUsers us : forall m c, usable (closeUsers m us) c -> usable m c.
Proof.
  unfold closeUsers. induction us as [|u us IH]; intros m c; cbn [fold_left]; [done|].
  intros H. apply IH, usable_removes in H. done.
Qed.

(** * Who is in the room *)

(** Afterwards exactly those are joined and invited whom the new state says, in
    other rooms nothing changed, and the rooms known for each user agree. *)
Theorem C91_members ops t h room rows between u r :
  Forall startup_wf ops -> trun new_tracker ops = Some t -> h_tracker h = t ->
  let t' := h_tracker (invalidate_room h room (Some rows) between) in
  (is_user_joined t' u r = true <->
     (r = room /\ joined_in rows u) \/ (r <> room /\ is_user_joined t u r = true))
  /\ (In r (joined_rooms_for_user t' u) <-> is_user_joined t' u r = true)
  /\ (u ∈ get_set (t_invited t') r <->
     (r = room /\ invited_in rows u) \/ (r <> room /\ u ∈ get_set (t_invited t) r)).
Proof.
  intros Hwf Ht <-. cbn zeta.
  destruct (invalidate_spec h room rows between) as (j & i & un & Hj & Hi & _ & Ht' & _). cbn zeta in Ht'. rewrite Ht'.
  pose proof (tracker_joined_spec ops (h_tracker h) Hwf Ht) as (HJ & HR & _).
  assert (Hinv : tinv (h_tracker h) (fun u r => is_user_joined (h_tracker h) u r = true) (fun u r => u ∈ get_set (t_invited (h_tracker h)) r)).
  { split; intros u0 r0.
    - unfold is_user_joined. by rewrite bool_decide_eq_true.
    - rewrite HJ, <- HR. unfold joined_rooms_for_user. by rewrite elem_of_elements.
    - done. }
  apply (tinv_reload _ _ _ room j i) in Hinv as [G1 G2 G3].
  assert (G1' : is_user_joined (reload_memberships (h_tracker h) room j i) u r = true <->
                (r = room /\ u ∈ j) \/ (r <> room /\ is_user_joined (h_tracker h) u r = true)).
  { unfold is_user_joined at 1. rewrite bool_decide_eq_true. apply G1. }
  split; [rewrite G1', elem_of_list_In, Hj; done|]. split.
  - rewrite G1'. unfold joined_rooms_for_user. rewrite <- elem_of_list_In, elem_of_elements. apply G2.
  - rewrite G3, elem_of_list_In, Hi. done.
Qed.

(** * Who starts afresh *)

(** Everybody with a membership in the new state who was being served starts
    afresh, whatever else happened to the connections meanwhile; as long as no
    connection was created while an expired one of the same name was still to be
    cleared up, and no name contains the separator. *)
Theorem C91_afresh_partial os h room rows between u :
  h_conns h = run cmap0 os -> plain_ops (os ++ between) -> quiet (os ++ between) ->
  involved_in rows u -> u ∈ h_receivers h -> afresh (invalidate_room h room (Some rows) between) u.
Proof.
  intros Hc Hp Hq Hin Hr.
  destruct (invalidate_spec h room rows between) as (j & i & un & _ & _ & Hun & _ & Hrs & Hcs & Hcl). cbn zeta in *.
  assert (Hu : In u un) by (apply Hun; done).
  split; [rewrite Hrs; tauto|]. split; [rewrite Hcs; tauto|].
  intros c Hcu Hus. rewrite Hcl, Hc in Hus.
  assert (Erun : run (run cmap0 os) between = run cmap0 (os ++ between)) by (unfold run; by rewrite fold_left_app).
  rewrite Erun in Hus. pose proof (usable_closeUsers _ _ _ Hus) as Hus0.
  apply (C44_close_users_partial _ _ _ Hp Hq Hus0) in Hus. apply Hus. rewrite Hcu. done.
Qed.

(** Nobody else notices: whoever is not in the new state keeps receiver, cache
    and every connection. *)
Theorem C91_others os h room rows between u :
  h_conns h = run cmap0 os -> plain_ops (os ++ between) -> quiet (os ++ between) ->
  ~ involved_in rows u ->
  let h' := invalidate_room h room (Some rows) between in
  (u ∈ h_receivers h' <-> u ∈ h_receivers h) /\ (u ∈ h_caches h' <-> u ∈ h_caches h)
  /\ forall c, x_user (x_id c) = u -> (usable (h_conns h') c <-> usable (run (h_conns h) between) c).
Proof.
  intros Hc Hp Hq Hin. cbn zeta.
  destruct (invalidate_spec h room rows between) as (j & i & un & _ & _ & Hun & _ & Hrs & Hcs & Hcl). cbn zeta in *.
  assert (Hu : ~ In u un) by (rewrite Hun; tauto).
  split; [rewrite Hrs; tauto|]. split; [rewrite Hcs; tauto|].
  intros c Hcu. rewrite Hcl, Hc.
  assert (Erun : run (run cmap0 os) between = run cmap0 (os ++ between)) by (unfold run; by rewrite fold_left_app).
  rewrite Erun. split; [apply usable_closeUsers|]. intros Hus.
  apply (C44_close_users_partial _ _ _ Hp Hq Hus). rewrite Hcu. done.
Qed.

(** * Where it goes wrong *)

Definition ann1 : connid := mk_connid "@ann" "PHONE" "main".
Definition bob1 : connid := mk_connid "@bob" "WEB" "main".
Definition ex_tracker : tracker := (users_joined_room new_tracker ["@ann"; "@bob"] "!r").1.
Definition ex_handler (os : list op) : handler :=
  mk_handler ex_tracker {["@ann"; "@bob"]} {["@ann"; "@bob"]} (run cmap0 os).

(** If the database cannot be asked for the members, the room's members stay those
    of the state that was replaced and nobody starts afresh; nothing tries again. *)
Theorem C91_failed_query_refuted :
  exists h rows, is_user_joined (h_tracker h) "@ann" "!r" = true /\ involved_in rows "@ann" /\ ~ joined_in rows "@ann"
    /\ "@ann" ∈ h_receivers h
    /\ let h' := invalidate_room h "!r" None [] in
       is_user_joined (h_tracker h') "@ann" "!r" = true /\ h' = h /\ usable (h_conns h') (mk_conn 0 ann1).
Proof.
  exists (ex_handler [Create ann1; Create bob1]), [("@ann", "ban"); ("@bob", "join")].
  split; [vm_compute; reflexivity|]. split; [exists "ban"; by left|].
  split; [unfold joined_in; cbn; intros H; intuition congruence|]. split; [cbn; set_solver|].
  cbn zeta. split; [vm_compute; reflexivity|]. split; [reflexivity|]. vm_compute. reflexivity.
Qed.

(** A connection made while an expired one of the same name was still to be
    cleared up survives: it has lost its cache and receiver, and is not told
    anything any more. *)
Theorem C91_survivor_refuted :
  exists os, let h := ex_handler os in
    plain_ops os /\ "@ann" ∈ h_receivers h
    /\ let h' := invalidate_room h "!r" (Some [("@ann", "join"); ("@bob", "join")]) [] in
       "@ann" ∉ h_receivers h' /\ "@ann" ∉ h_caches h' /\ usable (h_conns h') (mk_conn 2 ann1)
       /\ ~ usable (h_conns h') (mk_conn 1 bob1).
Proof.
  exists [Create ann1; Create bob1; Remove (key ann1); Create ann1; Callback 0]. cbn zeta.
  split.
  { intros i [[= <-]|[[= <-]|[H|[[= <-]|[H|[]]]]]]; try discriminate H; split; vm_compute; intros; intuition discriminate. }
  split; [cbn; set_solver|].
  destruct (invalidate_spec (ex_handler [Create ann1; Create bob1; Remove (key ann1); Create ann1; Callback 0]) "!r"
     [("@ann", "join"); ("@bob", "join")] []) as (j & i & un & _ & _ & Hun & _ & Hrs & Hcs & _). cbn zeta in *.
  assert (Hin : involved_in [("@ann", "join"); ("@bob", "join")] "@ann") by (exists "join"; by left).
  split; [rewrite Hrs; tauto|]. split; [rewrite Hcs, Hun; cbn [h_receivers ex_handler]; intros [_ H]; apply H; split; [set_solver|done]|].
  split; [vm_compute; reflexivity|]. vm_compute. discriminate.
Qed.

(** * Cases *)

(** Ann is banned and Cyd invited; Bob is in another room only. *)
Definition ex_rows : list row := [("@ann", "ban"); ("@cyd", "_invite")].
Definition ex_os : list op := [Create ann1; Create bob1].
Lemma ex_plain : plain_ops (ex_os ++ [Create (mk_connid "@bob" "WEB" "two")]).
Proof. intros i [[= <-]|[[= <-]|[[= <-]|[]]]]; split; vm_compute; intros; intuition discriminate. Qed.
Lemma ex_quiet : quiet (ex_os ++ [Create (mk_connid "@bob" "WEB" "two")]).
Proof.
  intros a i b E c Hc. exfalso.
  assert (Ea : a = take (length a) (ex_os ++ [Create (mk_connid "@bob" "WEB" "two")])) by (rewrite E; by rewrite take_app).
  assert (El : length a < 3).
  { apply (f_equal length) in E. rewrite !app_length in E. cbn [length ex_os] in E. lia. }
  assert (E0 : m_pending (run cmap0 a) = []).
  { rewrite Ea. generalize (length a), El. clear. intros n Hn.
    destruct n as [|[|[|n]]]; [vm_compute; reflexivity..|lia]. }
  rewrite E0 in Hc. destruct Hc.
Qed.
Example C91_case :
  let h' := invalidate_room (ex_handler ex_os) "!r" (Some ex_rows) [Create (mk_connid "@bob" "WEB" "two")] in
  afresh h' "@ann" /\ usable (h_conns h') (mk_conn 1 bob1) /\ usable (h_conns h') (mk_conn 2 (mk_connid "@bob" "WEB" "two"))
  /\ is_user_joined (h_tracker h') "@ann" "!r" = false /\ num_invited (h_tracker h') "!r" = 1.
Proof.
  cbn zeta. split.
  { apply (C91_afresh_partial ex_os); [reflexivity|apply ex_plain|apply ex_quiet|exists "ban"; by left|cbn; set_solver]. }
  split; [vm_compute; reflexivity|]. split; [vm_compute; reflexivity|]. split; vm_compute; reflexivity.
Qed.

Print Assumptions C91_members.
Print Assumptions C91_afresh_partial.
Print Assumptions C91_others.
Print Assumptions C91_failed_query_refuted.
Print Assumptions C91_survivor_refuted.
