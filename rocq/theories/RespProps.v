(** C95: after each response the client knows how many rooms each list has, and which
    are in its windows. *)
From Verif Require Import Prelude RangeModel RangeSpec OpsModel OpsSpec RoomNameModel ListsModel ListsSpec SortProofs ListsProofs ListsProofs2
  ListsProps LiveListModel LiveListSpec LiveListProofs LiveListProofs2 LiveListProps FltSpec FltProps RespModel RespSpec.
Open Scope string_scope.
Open Scope list_scope.
Open Scope Z_scope.

(** * Views *)

Lemma world_ok_ext s reqs vs vs' : (forall k, vs k = vs' k) -> world_ok (mk_world s reqs vs) -> world_ok (mk_world s reqs vs').
Proof. intros E [H1 H2]. split; [done|]. intros k rq fl Hrq Hfl. cbn [w_views]. rewrite <- E. by apply (H2 k rq fl). Qed.

Lemma client_update_ext reqs out : forall vs vs', (forall k, vs k = vs' k) -> forall k, client_update reqs vs out k = client_update reqs vs' out k.
Proof.
  induction out as [|[key os] out IH]; intros vs vs' E k; [apply E|]. rewrite !client_update_cons. apply IH.
  intros j. unfold set_view. destruct (String.eqb j key); [by rewrite E|apply E].
Qed.

Lemma read_add reqs vs out : forall resp, Forall (fun p : string * list resp_op => clean p.2) out ->
  forall k, client_update reqs (read_response reqs vs resp) out k = read_response reqs vs (add_ops resp out) k.
Proof.
  induction out as [|[key os] out IH]; intros resp Hc k; [done|]. apply Forall_cons in Hc as [Hc Hcs]. cbn [snd] in Hc.
  rewrite client_update_cons. unfold add_ops. cbn [foldl]. fold (add_ops (<[key := mk_resp (rl_ranges (default (mk_resp [] [] 0) (resp !! key)))
      (rl_ops (default (mk_resp [] [] 0) (resp !! key)) ++ os) (rl_count (default (mk_resp [] [] 0) (resp !! key)))]> resp) out).
  rewrite <- (IH _ Hcs). apply client_update_ext. intros j. unfold set_view. destruct (String.eqb_spec j key) as [->|Hne].
  - unfold read_response. rewrite lookup_insert. destruct (resp !! key) as [e|]; cbn [default from_option rl_ranges rl_ops].
    + by rewrite client_apply_clean.
    + done.
  - unfold read_response. by rewrite lookup_insert_ne.
Qed.

Lemma list_ops_clean lower find key rq fl room o fl1 os ss : list_ops lower find key rq fl room o = Some (fl1, os, ss) -> clean os.
Proof.
  unfold list_ops.
  assert (Hw : clean [write_delete_op (q_windows rq) 0]).
  { unfold write_delete_op. cbn. by destruct (inside _ 0). }
  destruct (s_index_of _ room) as [i|]; destruct o; try (by intros [= <- <- <-]);
    (destruct (modify_list _ _ _ _ _ _ _); [|done]);
    (destruct (_ =? -1); [by intros [= <- <- <-]|]);
    (destruct (move_indexes _ _ _) as [ms|]; [|done]);
    (destruct (moves_ops _ _ _ _ _ _ _ _) as [[os1 ss1]|] eqn:E; [|done]);
    intros [= <- <- <-]; by apply moves_clean in E.
Qed.
Lemma resort_clean lower find key rq fl room o fl1 os ss : resort lower find key rq fl room o = Some (fl1, os, ss) -> clean os.
Proof.
  unfold resort. destruct (q_all rq); [|apply list_ops_clean].
  destruct o; [destruct (f_add _ _ _ _) as [[? ?]|]; [|done]|..]; by intros [= _ <- _].
Qed.
Lemma run_deltas_clean lower reqs room : forall ds s s' out,
  run_deltas lower s reqs room ds = Some (s', out) -> Forall (fun p : string * list resp_op => clean p.2) out.
Proof.
  induction ds as [|[key o] ds IH]; intros s s' out H; cbn [run_deltas] in H; [injection H as <- <-; constructor|].
  destruct (l_lists s !! key) as [fl|]; [|done]. destruct (reqs !! key) as [rq|]; [|done].
  destruct (resort _ _ _ _ _ _ _) as [[[fl1 os] ss]|] eqn:E; [|done].
  destruct (run_deltas lower (put_list s key fl1) reqs room ds) as [[s2 out2]|] eqn:E2; [|done]. injection H as <- <-.
  constructor; [by eapply resort_clean|by eapply IH].
Qed.
Lemma live_update_clean lower ord s reqs r s' out :
  live_update lower ord s reqs r = Some (s', out) -> Forall (fun p : string * list resp_op => clean p.2) out.
Proof. unfold live_update. destruct (set_room lower ord s r) as [s1 d]. apply run_deltas_clean. Qed.
Lemma run_deltas_keys lower reqs room : forall ds s s' out key os,
  run_deltas lower s reqs room ds = Some (s', out) -> (key, os) ∈ out -> is_Some (reqs !! key).
Proof.
  induction ds as [|[k o] ds IH]; intros s s' out key os H Hin; cbn [run_deltas] in H; [injection H as <- <-; by apply elem_of_nil in Hin|].
  destruct (l_lists s !! k) as [fl|]; [|done]. destruct (reqs !! k) as [rq|] eqn:Er; [|done].
  destruct (resort _ _ _ _ _ _ _) as [[[fl1 os1] ss]|] eqn:E; [|done].
  destruct (run_deltas lower (put_list s k fl1) reqs room ds) as [[s2 out2]|] eqn:E2; [|done]. injection H as <- <-.
  apply elem_of_cons in Hin as [Ek|Hin]; [injection Ek as -> _; by exists rq|by eapply IH].
Qed.

(** * The invariant *)

(** For one room: what C92 says, while the room is not replaced. *)
Definition room_ok (lower : string -> string) (x : string) (w : world) : Prop :=
  shown_ok lower x w /\ forall r, l_all (w_lists w) !! x = Some r -> m_room (c_meta r) = x /\ not_replaced r.

Lemma shown_ext lower x s reqs vs vs' : shown_ok lower x (mk_world s reqs vs) -> shown_ok lower x (mk_world s reqs vs').
Proof. done. Qed.

Lemma steady_quiet x w w' : (forall r, l_all (w_lists w) !! x = Some r -> not_replaced r) -> steady x w w'.
Proof. intros H r next Hr Hu. specialize (H r Hr). unfold not_replaced in H. rewrite H in Hu. discriminate Hu. Qed.

Lemma good_tail (reqs : gmap string req_list) (c : change) cs key (o : option req_list) :
  ch_key c = key -> NoDup (ch_key <$> c :: cs) ->
  (forall c' next, c' ∈ c :: cs -> ch_next c' = Some next ->
    good_request next /\ (reqs !! ch_key c' = None -> q_sort next <> []) /\
    no_lone_window (reqs !! ch_key c') next (ch_chg c') /\ noticed (reqs !! ch_key c') next (ch_chg c')) ->
  forall c' next, c' ∈ cs -> ch_next c' = Some next ->
    good_request next /\ (partial_alter (fun _ => o) key reqs !! ch_key c' = None -> q_sort next <> []) /\
    no_lone_window (partial_alter (fun _ => o) key reqs !! ch_key c') next (ch_chg c') /\
    noticed (partial_alter (fun _ => o) key reqs !! ch_key c') next (ch_chg c').
Proof.
  intros <- Hnd H c' next Hc Hn. rewrite fmap_cons in Hnd. apply NoDup_cons in Hnd as [Hnin _].
  assert (ch_key c <> ch_key c'). { intros E. apply Hnin. apply elem_of_list_fmap. by exists c'. }
  rewrite lookup_partial_alter_ne by done. apply H; [by right|done].
Qed.

(** The lists of a request, one after the other. *)
Lemma ask_ok lower ord : (forall key l, ord key l ≡ₚ l) -> forall cs s reqs vs s' reqs' resp,
  NoDup (ch_key <$> cs) ->
  (forall c next, c ∈ cs -> ch_next c = Some next ->
    good_request next /\ (reqs !! ch_key c = None -> q_sort next <> []) /\
    no_lone_window (reqs !! ch_key c) next (ch_chg c) /\ noticed (reqs !! ch_key c) next (ch_chg c)) ->
  ask lower ord s reqs cs = Some (s', reqs', resp) ->
  world_ok (mk_world s reqs vs) ->
  world_ok (mk_world s' reqs' (read_response reqs' vs resp)) /\
  (forall x, room_ok lower x (mk_world s reqs vs) -> room_ok lower x (mk_world s' reqs' vs)) /\
  (forall k, k ∉ ch_key <$> cs -> resp !! k = None /\ reqs' !! k = reqs !! k) /\
  (forall k, k ∈ ch_key <$> cs -> (is_Some (resp !! k) <-> is_Some (reqs' !! k))).
Proof.
  intros Hord. induction cs as [|c cs IH]; intros s reqs vs s' reqs' resp Hnd Hg H Hw; cbn [ask] in H.
  - injection H as <- <- <-. split_and!; [|done| |].
    + apply (world_ok_ext _ _ vs); [|done]. intros k. unfold read_response. by rewrite lookup_empty.
    + intros k _. by rewrite lookup_empty.
    + intros k Hk. by apply elem_of_nil in Hk.
  - pose proof Hnd as Hnd0. rewrite fmap_cons in Hnd. apply NoDup_cons in Hnd as [Hnin Hnd].
    destruct (ch_next c) as [next|] eqn:En.
    + destruct (list_request lower (ord (ch_key c)) s (ch_key c) (reqs !! ch_key c) next (ch_chg c)) as [[[s1 ms] subs]|] eqn:Er; [|done].
      destruct (ask lower ord s1 (<[ch_key c := next]> reqs) cs) as [[[s2 reqs2] resp2]|] eqn:Ea; [|done]. injection H as <- <- <-.
      destruct (Hg c next) as (G1 & G2 & G3 & G4); [left|done|].
      assert (Hstep : step lower (mk_world s reqs vs) (mk_world s1 (<[ch_key c := next]> reqs) (set_view vs (ch_key c) (client_ranges (vs (ch_key c)) ms)))).
      { exact (step_request lower (ord (ch_key c)) (mk_world s reqs vs) (ch_key c) next (ch_chg c) s1 ms subs (Hord (ch_key c)) G1 G2 G3 G4 Er). }
      destruct (IH s1 (<[ch_key c := next]> reqs) (set_view vs (ch_key c) (client_ranges (vs (ch_key c)) ms)) s2 reqs2 resp2 Hnd) as (I1 & I2 & I3 & I4).
      { exact (good_tail reqs c cs (ch_key c) (Some next) eq_refl Hnd0 Hg). }
      { done. }
      { apply (happens_ok lower (mk_world s reqs vs)); [by apply step_happens|done]. }
      destruct (I3 _ Hnin) as [I3a I3b]. split_and!.
      * eapply world_ok_ext; [|exact I1]. intros k. unfold read_response. destruct (decide (k = ch_key c)) as [->|Hne].
        -- rewrite I3a, lookup_insert, set_view_eq. done.
        -- rewrite lookup_insert_ne by done. by rewrite set_view_ne.
      * intros x [Hs Hq]. destruct (I2 x) as [J1 J2]; [|by split]. split.
        -- apply (step_shown lower x (mk_world s reqs vs) _ Hstep); [|done|done]. apply steady_quiet. intros r Hr. by apply Hq.
        -- cbn [w_lists]. destruct (request_ok lower (ord (ch_key c)) (mk_world s reqs vs) (ch_key c) next (ch_chg c) s1 ms subs (Hord _) Hw G1 G2 G3 Er) as (Hall & _).
           cbn [w_lists] in Hall. rewrite Hall. exact Hq.
      * intros k Hk. rewrite fmap_cons in Hk. apply not_elem_of_cons in Hk as [Hne Hk]. destruct (I3 k Hk) as [J1 J2].
        rewrite lookup_insert_ne by done. rewrite J2, lookup_insert_ne by done. done.
      * intros k Hk. destruct (decide (k = ch_key c)) as [->|Hne].
        -- rewrite I3b, !lookup_insert. split; by eexists.
        -- rewrite lookup_insert_ne by done. apply I4. rewrite fmap_cons in Hk. by apply elem_of_cons in Hk as [?|?].
    + assert (Hstep : step lower (mk_world s reqs vs) (mk_world (delete_list s (ch_key c)) (delete (ch_key c) reqs) vs)).
      { exact (step_delete lower (mk_world s reqs vs) (ch_key c)). }
      destruct (IH (delete_list s (ch_key c)) (delete (ch_key c) reqs) vs s' reqs' resp Hnd) as (I1 & I2 & I3 & I4).
      { exact (good_tail reqs c cs (ch_key c) None eq_refl Hnd0 Hg). }
      { done. }
      { apply (happens_ok lower (mk_world s reqs vs)); [by apply step_happens|done]. }
      destruct (I3 _ Hnin) as [I3a I3b]. split_and!.
      * done.
      * intros x [Hs Hq]. apply I2. split.
        -- apply (step_shown lower x (mk_world s reqs vs) _ Hstep); [|done|done]. apply steady_quiet. intros r Hr. by apply Hq.
        -- cbn [w_lists delete_list l_all]. intros r Hr. rewrite lookup_fmap in Hr. destruct (l_all s !! x) as [r0|] eqn:E0; [|done].
           cbn in Hr. injection Hr as <-. exact (Hq r0 E0).
      * intros k Hk. rewrite fmap_cons in Hk. apply not_elem_of_cons in Hk as [Hne Hk]. destruct (I3 k Hk) as [J1 J2].
        split; [done|]. rewrite J2. by rewrite lookup_delete_ne.
      * intros k Hk. destruct (decide (k = ch_key c)) as [->|Hne].
        -- rewrite I3a, I3b, lookup_delete. split; intros [? ?]; discriminate.
        -- apply I4. rewrite fmap_cons in Hk. by apply elem_of_cons in Hk as [?|?].
Qed.

Lemma add_ops_keys out : forall resp k, is_Some (add_ops resp out !! k) <-> is_Some (resp !! k) \/ exists os, (k, os) ∈ out.
Proof.
  induction out as [|[key os] out IH]; intros resp k.
  - cbn. split; [by left|]. intros [?|[os Hos]]; [done|by apply elem_of_nil in Hos].
  - unfold add_ops. cbn [foldl]. fold (add_ops (<[key := mk_resp (rl_ranges (default (mk_resp [] [] 0) (resp !! key)))
      (rl_ops (default (mk_resp [] [] 0) (resp !! key)) ++ os) (rl_count (default (mk_resp [] [] 0) (resp !! key)))]> resp) out).
    rewrite IH. destruct (decide (k = key)) as [->|Hne].
    + rewrite lookup_insert. split; [|by left; eexists]. intros _. right. exists os. left.
    + rewrite lookup_insert_ne by done. split; (intros [?|[o Ho]]; [by left|right]).
      * exists o. by right.
      * exists o. apply elem_of_cons in Ho as [Eo|Ho]; [|done]. injection Eo as ? _. congruence.
Qed.

(** The updates of a response. *)
Lemma take_in_ok lower vs reqs : forall us s resp s' resp',
  Forall (fun u : conn_room * (list (string * flist) -> list (string * flist)) => forall l, u.2 l ≡ₚ l) us ->
  take_in lower s reqs resp us = Some (s', resp') ->
  world_ok (mk_world s reqs (read_response reqs vs resp)) ->
  world_ok (mk_world s' reqs (read_response reqs vs resp')) /\
  (forall x, Forall (fun u : conn_room * (list (string * flist) -> list (string * flist)) => not_replaced u.1) us ->
     room_ok lower x (mk_world s reqs vs) -> room_ok lower x (mk_world s' reqs vs)) /\
  ((forall k, is_Some (reqs !! k) <-> is_Some (resp !! k)) -> forall k, is_Some (reqs !! k) <-> is_Some (resp' !! k)).
Proof.
  induction us as [|[r ord] us IH]; intros s resp s' resp' Ho H Hw; cbn [take_in] in H.
  - injection H as <- <-. split_and!; done.
  - apply Forall_cons in Ho as [Ho Hos]. cbn [snd] in Ho.
    destruct (live_update lower ord s reqs r) as [[s1 out]|] eqn:El; [|done].
    assert (Hw1 : world_ok (mk_world s1 reqs (read_response reqs vs (add_ops resp out)))).
    { apply (world_ok_ext _ _ (client_update reqs (read_response reqs vs resp) out)).
      - apply read_add. by eapply live_update_clean.
      - exact (update_ok lower ord (mk_world s reqs (read_response reqs vs resp)) r s1 out Ho Hw El). }
    destruct (IH s1 (add_ops resp out) s' resp' Hos H Hw1) as (I1 & I2 & I3). split_and!.
    + done.
    + intros x HQ [Hs Hq]. apply Forall_cons in HQ as [HQ HQs]. cbn [fst] in HQ. apply (I2 x HQs). split.
      * assert (Hstep : step lower (mk_world s reqs (read_response reqs vs resp)) (mk_world s1 reqs (client_update reqs (read_response reqs vs resp) out))).
        { exact (step_update lower ord (mk_world s reqs (read_response reqs vs resp)) r s1 out Ho El). }
        pose proof (step_shown lower x _ _ Hstep) as Hsh. apply (shown_ext lower x s1 reqs (client_update reqs (read_response reqs vs resp) out) vs).
        apply Hsh; [|done|exact (shown_ext lower x s reqs vs _ Hs)]. apply steady_quiet. intros r0 Hr0. by apply Hq.
      * cbn [w_lists]. intros r0 Hr0.
        assert (Hall : l_all s1 = <[m_room (c_meta r) := stored_room lower s r]> (l_all s)).
        { unfold live_update in El. pose proof (delta_lists_NoDup lower ord s r Ho) as Hnd.
          assert (Hall0 : l_all (set_room lower ord s r).1 = <[m_room (c_meta r) := stored_room lower s r]> (l_all s)) by done.
          destruct (set_room lower ord s r) as [s0 d]. cbn [fst snd] in *.
          by destruct (run_deltas_content lower _ reqs _ _ _ _ _ Hall0 El Hnd) as (J & _). }
        rewrite Hall in Hr0. destruct (decide (x = m_room (c_meta r))) as [->|Hne].
        -- rewrite lookup_insert in Hr0. injection Hr0 as <-. unfold not_replaced. rewrite stored_meta. split; [done|exact HQ].
        -- rewrite lookup_insert_ne in Hr0 by done. exact (Hq r0 Hr0).
    + intros Hk. apply I3. intros k. rewrite add_ops_keys, <- Hk. split; [by left|]. intros [?|[os Hin]]; [done|].
      unfold live_update in El. destruct (set_room lower ord s r) as [s0 d]. by eapply run_deltas_keys.
Qed.

Lemma read_counted s reqs vs resp k : read_response reqs vs (counted s resp) k = read_response reqs vs resp k.
Proof. unfold read_response, counted. rewrite map_lookup_imap. by destruct (resp !! k). Qed.

Definition talk_ok (t : talk_state) : Prop :=
  world_ok (t_world t) /\
  forall key, is_Some (w_reqs (t_world t) !! key) <-> is_Some (t_counts t !! key).
Definition counts_ok (t : talk_state) : Prop :=
  forall key n, t_counts t !! key = Some n ->
    exists fl, l_lists (w_lists (t_world t)) !! key = Some fl /\ n = length (s_ids (fl_rooms fl)).

Lemma respond_ok lower ord w cs us s' reqs' resp :
  (forall key l, ord key l ≡ₚ l) ->
  Forall (fun u : conn_room * (list (string * flist) -> list (string * flist)) => forall l, u.2 l ≡ₚ l) us ->
  good_changes (w_reqs w) cs -> respond lower ord (w_lists w) (w_reqs w) cs us = Some (s', reqs', resp) -> world_ok w ->
  let t := mk_talk (mk_world s' reqs' (read_response reqs' (w_views w) resp)) (rl_count <$> resp) in
  talk_ok t /\ counts_ok t /\
  forall x, Forall (fun u : conn_room * (list (string * flist) -> list (string * flist)) => not_replaced u.1) us ->
    room_ok lower x w -> room_ok lower x (t_world t).
Proof.
  intros Ho Hu (Hnd & Hcov & Hg) H Hw t. unfold respond in H.
  destruct (ask lower ord (w_lists w) (w_reqs w) cs) as [[[s1 reqs1] resp1]|] eqn:Ea; [|done].
  destruct (take_in lower s1 reqs1 resp1 us) as [[s2 resp2]|] eqn:Et; [|done]. injection H as <- <- <-.
  assert (Ew : w = mk_world (w_lists w) (w_reqs w) (w_views w)) by (by destruct w).
  rewrite Ew in Hw. destruct (ask_ok lower ord Ho cs _ _ (w_views w) _ _ _ Hnd Hg Ea Hw) as (I1 & I2 & I3 & I4).
  destruct (take_in_ok lower (w_views w) reqs1 us s1 resp1 s2 resp2 Hu Et I1) as (J1 & J2 & J3).
  assert (K : forall k, is_Some (reqs1 !! k) <-> is_Some (resp2 !! k)).
  { apply J3. intros k. destruct (decide (k ∈ ch_key <$> cs)) as [Hk|Hk]; [symmetry; by apply I4|].
    destruct (I3 k Hk) as [-> ->]. split; [|by intros [? ?]]. intros Hs. by destruct (Hk (Hcov k Hs)). }
  assert (Hw2 : world_ok (t_world t)).
  { apply (world_ok_ext _ _ (read_response reqs1 (w_views w) resp2)); [|done]. intros k. symmetry. apply read_counted. }
  split; [split; [exact Hw2|]|split].
  - intros k. unfold t. cbn [t_world w_reqs t_counts]. rewrite K, lookup_fmap, fmap_is_Some. unfold counted. rewrite map_lookup_imap.
    destruct (resp2 !! k); cbn; [split; by eexists|done].
  - intros k n Hn. unfold t in Hn, Hw2 |- *. cbn [t_counts t_world w_lists] in *. rewrite lookup_fmap in Hn. unfold counted in Hn. rewrite map_lookup_imap in Hn.
    destruct (resp2 !! k) as [e|] eqn:Ee; [|done]. cbn in Hn. injection Hn as <-.
    destruct (proj1 (proj1 Hw2 k)) as [fl Hfl]. { cbn [t_world w_reqs]. apply K. rewrite Ee. by eexists. }
    cbn [t_world w_lists] in Hfl. exists fl. rewrite Hfl. done.
  - intros x HQ Hx. rewrite Ew in Hx. apply (J2 x HQ). by apply I2.
Qed.

Lemma opening_ok lower Q t : opening Q t ->
  talk_ok t /\ counts_ok t /\ (forall x, (forall r, Q r -> not_replaced r) -> room_ok lower x (t_world t)).
Proof.
  intros (H1 & H2 & H3 & H4). split; [split; [split|]|split].
  - intros k. rewrite H1, H2, !lookup_empty. split; intros [? ?]; discriminate.
  - intros k rq fl H. rewrite H2, lookup_empty in H. discriminate H.
  - intros k. rewrite H2, H3, !lookup_empty. split; intros [? ?]; discriminate.
  - intros k n H. rewrite H3, lookup_empty in H. discriminate H.
  - intros x HQ. split.
    + intros k rq fl H. rewrite H2, lookup_empty in H. discriminate H.
    + intros r Hr. destruct (H4 x r Hr). split; [done|by apply HQ].
Qed.

Lemma talk_all_ok lower Q t0 t : talk lower Q t0 t -> opening Q t0 ->
  talk_ok t /\ counts_ok t /\ (forall x, (forall r, Q r -> not_replaced r) -> room_ok lower x (t_world t)).
Proof.
  induction 1 as [t|t1 t2 ord cs us s' reqs' resp _ IH Ho HQ Hg Hr]; intros Hop; [by apply opening_ok|].
  destruct (IH Hop) as ([Hw Hk] & Hc & Hx).
  destruct (respond_ok lower ord (t_world t2) cs us s' reqs' resp Ho) as (J1 & J2 & J3); [|done|done|done|].
  - eapply Forall_impl; [exact HQ|]. by intros u [_ ?].
  - split; [done|]. split; [done|]. intros x Hn. apply J3; [|by apply Hx]. eapply Forall_impl; [exact HQ|]. intros u [Hu _]. by apply Hn.
Qed.

(** * C95 *)

(** After any number of requests and responses, each for any lists and with any
    number of updates: the last response was about exactly the lists the client
    asks for, its count is the number of rooms in the list, no room is listed
    twice, the list is in the order asked for, and the client, that applied each
    response as a whole, is right about every position of its windows. *)
Theorem C95_responses_partial lower t0 t :
  opening (fun _ => True) t0 -> talk lower (fun _ => True) t0 t ->
  (forall key, is_Some (t_counts t !! key) <-> is_Some (w_reqs (t_world t) !! key)) /\
  forall key rq, w_reqs (t_world t) !! key = Some rq -> exists fl,
    l_lists (w_lists (t_world t)) !! key = Some fl /\ NoDup (s_ids (fl_rooms fl)) /\
    t_counts t !! key = Some (length (s_ids (fl_rooms fl))) /\
    in_order (fun x => l_all (w_lists (t_world t)) !! x) key (q_sort rq) (s_ids (fl_rooms fl)) /\
    agrees (q_windows rq) (s_ids (fl_rooms fl)) (w_views (t_world t) key).
Proof.
  intros Hop Ht. destruct (talk_all_ok lower _ t0 t Ht Hop) as ([[Hdom Hok] Hk] & Hc & _). split; [intros key; by rewrite Hk|].
  intros key rq Hrq. destruct (proj1 (Hdom key)) as [fl Hfl]; [by exists rq|]. exists fl.
  destruct (Hok key rq fl Hrq Hfl) as (_ & [Hi _] & Hord & Ha). split_and!; [done|by apply index_ok_NoDup| |done|done].
  destruct (proj1 (Hk key)) as [n Hn]; [by exists rq|]. destruct (Hc key n Hn) as (fl' & Hfl' & ->). rewrite Hn.
  rewrite Hfl in Hfl'. by injection Hfl' as ->.
Qed.

(** If no room is replaced by another, the list has exactly the rooms that pass the
    filters asked for last, of those the user has not left. So without rooms the
    user left, the count is the number of rooms that pass. *)
Theorem C95_rooms_partial lower t0 t key rq :
  opening not_replaced t0 -> talk lower not_replaced t0 t -> w_reqs (t_world t) !! key = Some rq ->
  exists ids, NoDup ids /\ t_counts t !! key = Some (length ids) /\ agrees (q_windows rq) ids (w_views (t_world t) key) /\
    forall x r, l_all (w_lists (t_world t)) !! x = Some r -> c_left r = false ->
      (x ∈ ids <-> accepted lower (wanted rq) r (fun y => l_all (w_lists (t_world t)) !! y)).
Proof.
  intros Hop Ht Hrq. destruct (talk_all_ok lower _ t0 t Ht Hop) as ([[Hdom Hok] Hk] & Hc & Hx).
  destruct (proj1 (Hdom key)) as [fl Hfl]; [by exists rq|]. exists (s_ids (fl_rooms fl)).
  destruct (Hok key rq fl Hrq Hfl) as (_ & [Hi _] & _ & Ha). split_and!; [by apply index_ok_NoDup| |done|].
  - destruct (proj1 (Hk key)) as [n Hn]; [by exists rq|]. destruct (Hc key n Hn) as (fl' & Hfl' & ->). rewrite Hn.
    rewrite Hfl in Hfl'. by injection Hfl' as ->.
  - intros x r Hr Hl. destruct (Hx x (fun _ H => H)) as [Hs _]. by apply (Hs key rq fl Hrq Hfl).
Qed.

(** * Playing a talk *)

Local Instance filters_dec' : EqDecision filters.
Proof. solve_decision. Defined.

Definition change_b (reqs : gmap string req_list) (c : change) : bool :=
  match ch_next c with
  | None => true
  | Some q =>
      valid (q_windows q) && negb (q_all q) && negb (bool_decide (q_sort q = [])) &&
      forallb (fun x => bool_decide (known_sort x)) (q_sort q) && forallb (fun '(i, j) => negb (i =? j)) (q_windows q) &&
      (ch_chg c || bool_decide (match reqs !! ch_key c with Some p => q_filters p | None => None end = q_filters q))
  end.
Definition changes_b (reqs : gmap string req_list) (cs : list change) : bool :=
  bool_decide (NoDup (ch_key <$> cs)) && bool_decide (Forall (fun k => k ∈ ch_key <$> cs) (map_to_list reqs).*1) && forallb (change_b reqs) cs.
Lemma changes_b_ok reqs cs : changes_b reqs cs = true -> good_changes reqs cs.
Proof.
  intros H. unfold changes_b in H. apply andb_prop in H as [H H3]. apply andb_prop in H as [H1 H2].
  apply bool_decide_eq_true in H1. apply bool_decide_eq_true in H2. split; [done|]. split.
  - intros key [rq Hrq]. rewrite Forall_forall in H2. apply H2. apply elem_of_list_fmap. exists (key, rq). split; [done|].
    by apply elem_of_map_to_list.
  - intros c q Hc Hq. rewrite forallb_forall in H3. apply elem_of_list_In in Hc. specialize (H3 c Hc). unfold change_b in H3. rewrite Hq in H3.
    apply andb_prop in H3 as [H3 Hn]. apply andb_prop in H3 as [H3 Hw]. apply andb_prop in H3 as [H3 Hs].
    apply andb_prop in H3 as [H3 He]. apply andb_prop in H3 as [Hv Ha].
    split_and!.
    + split_and!; [done| |by destruct (q_all q)]. apply Forall_forall. intros y Hy.
      rewrite forallb_forall in Hs. apply elem_of_list_In in Hy. specialize (Hs y Hy). by apply bool_decide_eq_true in Hs.
    + intros _ E. rewrite E in He. discriminate He.
    + unfold no_lone_window. destruct (reqs !! ch_key c) as [p|]; [|done]. intros _ _ _ i Hi.
      rewrite forallb_forall in Hw. apply elem_of_list_In in Hi. specialize (Hw (i, i) Hi). cbn in Hw. lia.
    + unfold noticed. intros Hd. destruct (ch_chg c); [done|]. cbn [orb] in Hn. apply bool_decide_eq_true in Hn. by destruct (Hd Hn).
Qed.

Fixpoint talk_all (t : talk_state) (xs : list (list change * list conn_room)) : option talk_state :=
  match xs with
  | [] => Some t
  | (cs, us) :: xs' =>
      if changes_b (w_reqs (t_world t)) cs && forallb (fun r => bool_decide (m_upgraded (c_meta r) = None)) us then
        match respond id (fun _ => id) (w_lists (t_world t)) (w_reqs (t_world t)) cs (map (fun r => (r, id)) us) with
        | Some (s', reqs', resp) =>
            talk_all (mk_talk (mk_world s' reqs' (read_response reqs' (w_views (t_world t)) resp)) (rl_count <$> resp)) xs'
        | None => None
        end
      else None
  end.
Lemma talk_all_talk xs : forall t0 t t', talk id not_replaced t0 t -> talk_all t xs = Some t' -> talk id not_replaced t0 t'.
Proof.
  induction xs as [|[cs us] xs IH]; intros t0 t t' Ht H; cbn [talk_all] in H; [by injection H as <-|].
  destruct (changes_b _ _ && _) eqn:Ec; [|done]. apply andb_prop in Ec as [Ec Eu].
  destruct (respond _ _ _ _ _ _) as [[[s' reqs'] resp]|] eqn:Er; [|done].
  refine (IH t0 _ t' _ H). apply (talk_step id not_replaced t0 t (fun _ => id) cs (map (fun r => (r, id)) us) s' reqs' resp);
    [done|done| |by apply changes_b_ok|done].
  apply Forall_forall. intros u Hu. apply elem_of_list_In, in_map_iff in Hu as (r & <- & Hr). split; [|done]. cbn [fst].
  rewrite forallb_forall in Eu. specialize (Eu r Hr). by apply bool_decide_eq_true in Eu.
Qed.

(** What the client knows of a list: the count and some positions; and the server's list. *)
Definition known (key : string) (pos : list Z) (o : option talk_state) : option (option nat * list (option string) * option (list string)) :=
  (fun t => (t_counts t !! key, map (w_views (t_world t) key) pos,
             (fun fl => s_ids (fl_rooms fl)) <$> l_lists (w_lists (t_world t)) !! key)) <$> o.

(** A connection with these rooms, before the first request. *)
Definition fresh (rooms : list conn_room) : talk_state :=
  mk_talk (mk_world (mk_rlists (list_to_map (map (fun r => (m_room (c_meta r), r)) rooms)) ∅) ∅ (fun _ _ => None)) ∅.
Lemma fresh_opening rooms : Forall not_replaced rooms -> opening not_replaced (fresh rooms).
Proof.
  intros H. split_and!; [done|done|done|]. intros x r Hr. cbn in Hr. apply elem_of_list_to_map_2 in Hr.
  apply elem_of_list_In, in_map_iff in Hr as (r' & [= <- <-] & Hr). rewrite Forall_forall in H. split; [done|]. apply H. by apply elem_of_list_In.
Qed.

(** * A case *)

(** Four rooms, a list of all by recency and one of direct messages. Then three
    updates in one response: "a" has a message, "b" becomes a direct message and
    the user leaves "c". Then the list of direct messages is deleted. *)
Definition recent (a b : Z) : option req_list := Some (win [(a, b)] ["by_recency"] None false).
Definition direct : option req_list := Some (win [(0, 4)] ["by_name"] (Some true) false).
Definition c95_rooms : list conn_room := [rm "a" 1 false; rm "b" 2 false; rm "c" 3 false; rm "d" 4 true].
Definition c95_talk : list (list change * list conn_room) :=
  [([mk_change "k" (recent 0 1) false; mk_change "d" direct true], []);
   ([mk_change "d" direct false; mk_change "k" (recent 0 1) false],
      [rm "a" 9 false; rm "b" 10 true; left_now (rm "c" 11 false)]);
   ([mk_change "d" None false; mk_change "k" (recent 0 4) false], [rm "e" 12 false])].
Example C95_example :
  known "k" [0; 1; 2] (talk_all (fresh c95_rooms) (take 1 c95_talk)) = Some (Some 4%nat, [Some "d"; Some "c"; None], Some ["d"; "c"; "b"; "a"])
  /\ known "d" [0; 1] (talk_all (fresh c95_rooms) (take 1 c95_talk)) = Some (Some 1%nat, [Some "d"; None], Some ["d"])
  /\ known "k" [0; 1; 2] (talk_all (fresh c95_rooms) (take 2 c95_talk)) = Some (Some 3%nat, [Some "b"; Some "a"; None], Some ["b"; "a"; "d"])
  /\ known "d" [0; 1; 2] (talk_all (fresh c95_rooms) (take 2 c95_talk)) = Some (Some 2%nat, [Some "d"; Some "b"; None], Some ["d"; "b"])
  /\ known "k" [0; 1; 2; 3; 4] (talk_all (fresh c95_rooms) c95_talk)
     = Some (Some 4%nat, [Some "e"; Some "b"; Some "a"; Some "d"; None], Some ["e"; "b"; "a"; "d"])
  /\ known "d" [] (talk_all (fresh c95_rooms) c95_talk) = Some (None, [], None).
Proof. repeat (split; [vm_compute; reflexivity|]). vm_compute. reflexivity. Qed.
Example C95_example_is_a_talk : exists t, opening not_replaced (fresh c95_rooms) /\ talk id not_replaced (fresh c95_rooms) t /\
  talk_all (fresh c95_rooms) c95_talk = Some t.
Proof.
  assert (Hx : match known "k" [] (talk_all (fresh c95_rooms) c95_talk) with Some _ => true | None => false end = true)
    by (vm_compute; reflexivity).
  assert (Ho : opening not_replaced (fresh c95_rooms)).
  { apply fresh_opening. repeat constructor. }
  pose proof (fun t => talk_all_talk c95_talk (fresh c95_rooms) (fresh c95_rooms) t (talk_nil id not_replaced _)) as Hp.
  revert Hx Hp. generalize (talk_all (fresh c95_rooms) c95_talk). intros o Hx Hp. destruct o as [t|]; [|discriminate Hx].
  exists t. split; [exact Ho|]. split; [exact (Hp t eq_refl)|exact eq_refl].
Qed.

(** * Where it is false *)

(** Rooms the user left are counted in a list that is made afterwards. *)
Theorem C95_left_refuted :
  known "k" [0; 1] (talk_all (fresh [rm "a" 1 false; rm "b" 2 false])
    [([], [left_now (rm "b" 3 false)]); ([mk_change "k" (recent 0 4) false], [])])
  = Some (Some 2%nat, [Some "b"; Some "a"], Some ["b"; "a"]).
Proof. vm_compute. reflexivity. Qed.

(** The count changes and there is nothing that would end the client's wait: the
    new room is behind the window, so there are no operations, and no room of the
    window changed. *)
Theorem C95_count_alone_refuted :
  match talk_all (fresh [rm "a" 5 false; rm "b" 6 false]) [([mk_change "k" (recent 0 1) false], [])] with
  | Some t =>
      match respond id (fun _ => id) (w_lists (t_world t)) (w_reqs (t_world t)) [mk_change "k" (recent 0 1) false] [(rm "c" 1 false, id)] with
      | Some (_, _, resp) => Some (t_counts t !! "k", (fun e => (rl_ranges e, rl_ops e, rl_count e)) <$> resp !! "k")
      | None => None
      end
  | None => None
  end = Some (Some 2%nat, Some ([], [], 3%nat)).
Proof. vm_compute. reflexivity. Qed.

Print Assumptions C95_responses_partial.
Print Assumptions C95_rooms_partial.
Print Assumptions C95_left_refuted.
Print Assumptions C95_count_alone_refuted.
