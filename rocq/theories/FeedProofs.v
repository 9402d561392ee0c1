(** Proofs about timelines on a connection. *)
From Verif Require Import Prelude AccumModel AccumSpec AccumProofs6 StoreModel StoreSpec StoreProofs StoreProps RequestModel SubModel SubSpec FeedModel FeedSpec.
Open Scope string_scope. Open Scope list_scope. Open Scope Z_scope.

Lemma no_range_before d user rm to : to <= 0 -> visible_range d user rm 0 to = None.
Proof.
  intros Hto. unfold visible_range.
  assert (H : forall from t, t <= from -> membership_logs d user rm from t = []).
  { intros from t Ht. unfold membership_logs. assert (Hn : List.filter (fun e => (from <? e_nid e) && (e_nid e <=? t) &&
      String.eqb (e_type e) "m.room.member" && String.eqb (e_skey e) user && String.eqb (e_room e) rm) (d_events d) = []).
    { induction (d_events d) as [|e l IH]; [done|]. cbn [List.filter]. assert (Hf : (from <? e_nid e) && (e_nid e <=? t) = false) by lia.
      by rewrite Hf. }
    by rewrite Hn. }
  rewrite (H 0 0) by lia. cbn. by rewrite (H 0 to) by lia.
Qed.

Lemma sorted_sublist (l1 l2 : list Z) : l1 `sublist_of` l2 -> StronglySorted Z.lt l2 -> StronglySorted Z.lt l1.
Proof.
  induction 1 as [|x l1 l2 H IH|x l1 l2 H IH]; intros Hs; [constructor| |].
  - apply StronglySorted_inv in Hs as [Hs Hf]. constructor; [by apply IH|]. rewrite Forall_forall in *. intros y Hy. apply Hf.
    eapply elem_of_submseteq; [done|]. by apply sublist_submseteq.
  - apply StronglySorted_inv in Hs as [Hs Hf]. by apply IH.
Qed.

Lemma discard_sublist f l : discard_ignored f l `sublist_of` l.
Proof. unfold discard_ignored. induction l as [|e l IH]; [constructor|]. cbn. destruct (_ || _); by constructor. Qed.

(** What a loaded timeline is like. *)
Lemma load_ok ord redact env anchor i l : redact_ok redact -> 0 <= fe_max env -> good_init ord redact i ->
  load_timeline env anchor i = Some l ->
  let tl := timeline_of (Some l) in
  0 < anchor /\ StronglySorted Z.lt (map t_nid tl) /\ (forall e, In e tl -> 0 < t_nid e <= le_nid l /\ t_room e = i_room i) /\ le_nid l <= anchor.
Proof.
  intros Hre Hmax Hg Hl. cbv zeta. unfold load_timeline in Hl. destruct (i_db i) as [d|] eqn:Ed; [|done].
  pose proof (Hg d Ed) as Hst. pose proof (stored_base _ _ _ Hre Hst) as Hb.
  unfold lazy_load_timeline in Hl. destruct (latest_in_room _ _ _ _ _ _ _) as [[l0|]|] eqn:E; [|done..]. injection Hl as <-.
  cbn [timeline_of le_timeline le_nid].
  destruct (visible_range d (fe_user env) (i_room i) 0 anchor) as [[a b]|] eqn:Ev; [|unfold latest_in_room in E; by rewrite Ev in E].
  assert (Hpos : 0 < anchor). { destruct (Z.leb_spec anchor 0) as [H|H]; [|done]. by rewrite no_range_before in Ev. }
  destruct (C28_timeline _ _ _ _ _ _ _ _ _ _ _ _ Hre Hst Hmax Ev E) as (_ & Hs & Hrow & _ & _ & _ & Hlast).
  destruct (C27_visible_range _ _ _ _ _ _ _ _ _ Hre Hst (conj (Z.le_refl 0) (Z.lt_le_incl _ _ Hpos)) Ev) as (_ & Hbt & _).
  assert (Hsub : discard_ignored (should_ignore (i_ignored i)) (le_timeline l0) `sublist_of` le_timeline l0).
  { apply discard_sublist. }
  assert (Hmap : map t_nid (map of_event (discard_ignored (should_ignore (i_ignored i)) (le_timeline l0))) `sublist_of` map e_nid (le_timeline l0)).
  { rewrite map_map. change (fun x => t_nid (of_event x)) with e_nid. by apply fmap_sublist. }
  assert (Hle : forall e, e ∈ le_timeline l0 -> e_nid e <= le_nid l0).
  { intros e He. destruct (last (le_timeline l0)) as [x|] eqn:El.
    - rewrite (Hlast x eq_refl). apply last_Some in El as [pre Epre]. rewrite Epre in *. apply elem_of_app in He as [He|He].
      + unfold increasing in Hs. rewrite map_app in Hs. cbn [map] in Hs.
        assert (Hlt : e_nid e < e_nid x); [|lia].
        clear -Hs He. induction pre as [|y pre IH]; [by apply elem_of_nil in He|]. cbn [map app] in Hs. apply StronglySorted_inv in Hs as [Hs Hf].
        apply elem_of_cons in He as [->|He]; [|by apply IH]. rewrite Forall_forall in Hf. apply Hf. apply elem_of_app. right. apply elem_of_list_here.
      + apply elem_of_list_singleton in He as ->. lia.
    - apply last_None in El. rewrite El in He. by apply elem_of_nil in He. }
  split; [done|]. split; [by eapply sorted_sublist|]. split.
  - intros e He. apply in_map_iff in He as (x & <- & Hx). apply filter_In in Hx as [Hx _]. apply elem_of_list_In in Hx.
    destruct (Hrow x Hx) as (H1 & H2 & _). split; [|done]. split; [|by apply Hle]. apply Hb in H1. cbn. lia.
  - destruct (last (le_timeline l0)) as [x|] eqn:El.
    + rewrite (Hlast x eq_refl). apply last_Some in El as [pre Epre].
      destruct (Hrow x) as (_ & _ & _ & H); [rewrite Epre; apply elem_of_app; right; apply elem_of_list_here|]. lia.
    + apply last_None in El. unfold latest_in_room in E. rewrite Ev in E. destruct (_ <? 0); [done|]. injection E as <-.
      cbn [le_timeline le_nid] in *. destruct (latest_between d (i_room i) (a - 1) b _) as [|y ys]; [cbn; lia|].
      cbn [rev] in El. by apply app_eq_nil in El as [_ ?].
Qed.

(** What the client will have of a room once the response is sent. *)
Definition eff (c : feed) (room : string) : list tent := default [] (show (f_view c !! room) (f_pending c !! room)).
Definition finv (c : feed) : Prop := forall room,
  StronglySorted Z.lt (nids (eff c room)) /\ Forall (fun n => n <= lp_of c room) (nids (eff c room)) /\ (f_anchor c <= 0 -> nids (eff c room) = []).

Lemma nids_app l1 l2 : nids (l1 ++ l2) = nids l1 ++ nids l2.
Proof. unfold nids. by rewrite map_app, List.filter_app. Qed.
Lemma nids_pos l : (forall e, In e l -> 0 < t_nid e) -> nids l = map t_nid l.
Proof.
  intros H. unfold nids. induction l as [|e l IH]; [done|]. cbn [map List.filter]. assert (He : 0 < t_nid e) by (apply H; by left).
  assert (Hb : (0 <? t_nid e) = true) by lia. rewrite Hb, IH; [done|]. intros x Hx. apply H. by right.
Qed.
Lemma sorted_snoc l x : StronglySorted Z.lt l -> Forall (fun n => n < x) l -> StronglySorted Z.lt (l ++ [x]).
Proof.
  induction l as [|y l IH]; intros Hs Hf; [repeat constructor|]. apply StronglySorted_inv in Hs as [Hs Hy]. inversion Hf; subst.
  cbn. constructor; [by apply IH|]. apply Forall_app. split; [done|]. by repeat constructor.
Qed.

Lemma get_initial_inv ord redact env c i : redact_ok redact -> 0 <= fe_max env -> good_init ord redact i -> finv c -> finv (get_initial env c i).
Proof.
  intros Hre Hmax Hg Hi room. destruct (Hi room) as (H1 & H2 & H3). unfold get_initial. cbv zeta.
  set (tl := load_timeline env (f_anchor c) i).
  unfold eff, lp_of. cbn [f_view f_pending f_lp f_anchor]. destruct (decide (room = i_room i)) as [->|Hne].
  - rewrite lookup_insert. cbn [show lr_initial default from_option id lr_timeline].
    destruct tl as [l|] eqn:E.
    + destruct (load_ok _ _ _ _ _ _ Hre Hmax Hg E) as (Hp & Hs & Hin & _).
      rewrite nids_pos by (intros e He; apply Hin in He; lia). split; [done|]. split; [|lia].
      rewrite lookup_insert. cbn [default from_option id]. apply List.Forall_forall. intros n Hn. apply in_map_iff in Hn as (e & <- & He).
      apply Hin in He. lia.
    + cbn. repeat split; constructor.
  - rewrite lookup_insert_ne by done. split; [done|]. split; [|done].
    destruct tl as [l|]; [rewrite lookup_insert_ne by done|]; done.
Qed.
Lemma load_rooms_inv ord redact env : redact_ok redact -> 0 <= fe_max env -> forall inits c, Forall (good_init ord redact) inits -> finv c ->
  finv (load_rooms env c inits).
Proof.
  intros Hre Hmax. unfold load_rooms. induction inits as [|i inits IH]; intros c Hg Hi; [done|]. inversion Hg; subst. cbn [fold_left].
  apply IH; [done|]. by eapply get_initial_inv.
Qed.
Lemma load_rooms_anchor env inits : forall c, f_anchor (load_rooms env c inits) = f_anchor c.
Proof. unfold load_rooms. induction inits as [|i inits IH]; intros c; [done|]. cbn [fold_left]. by rewrite IH. Qed.
Lemma load_rooms_view env inits : forall c, f_view (load_rooms env c inits) = f_view c.
Proof. unfold load_rooms. induction inits as [|i inits IH]; intros c; [done|]. cbn [fold_left]. by rewrite IH. Qed.
(** Loading moves the position of the loaded rooms only, and not beyond the anchor. *)
Lemma load_rooms_lp ord redact env : redact_ok redact -> 0 <= fe_max env -> forall inits c room, Forall (good_init ord redact) inits ->
  lp_of (load_rooms env c inits) room = lp_of c room
  \/ ((exists i, In i inits /\ i_room i = room) /\ lp_of (load_rooms env c inits) room <= f_anchor c).
Proof.
  intros Hre Hmax. unfold load_rooms. induction inits as [|i inits IH]; intros c room Hg; [by left|]. inversion Hg as [|? ? Hgi Hg']; subst. cbn [fold_left].
  destruct (IH (get_initial env c i) room Hg') as [H|((i' & H1 & H2) & H3)].
  - rewrite H. unfold get_initial, lp_of. cbv zeta. cbn [f_lp]. destruct (load_timeline env (f_anchor c) i) as [l|] eqn:E; [|by left].
    destruct (decide (room = i_room i)) as [->|Hne].
    + rewrite lookup_insert. cbn. right. split; [exists i; split; [by left|done]|]. by destruct (load_ok _ _ _ _ _ _ Hre Hmax Hgi E) as (_ & _ & _ & ?).
    + rewrite lookup_insert_ne by done. by left.
  - right. split; [exists i'; split; [by right|done]|done].
Qed.

(** The view of a room that gets an entry. *)
Lemma eff_append c room e members lp lz : let r := default lroom0 (f_pending c !! room) in
  let c' := mk_feed (f_anchor c) lp lz (<[room := mk_lroom (lr_initial r) (lr_timeline r ++ [e]) members]> (f_pending c)) (f_view c) in
  eff c' room = eff c room ++ [e] /\ (forall room', room' <> room -> eff c' room' = eff c room').
Proof.
  cbv zeta. unfold eff. cbn [f_view f_pending]. split.
  - rewrite lookup_insert. destruct (f_pending c !! room) as [r|]; cbn.
    + destruct (lr_initial r); [done|]. by rewrite app_assoc.
    + by destruct (f_view c !! room).
  - intros room' Hne. by rewrite lookup_insert_ne.
Qed.
Lemma eff_same c room members lp lz : let r := default lroom0 (f_pending c !! room) in
  forall room', eff (mk_feed (f_anchor c) lp lz (<[room := mk_lroom (lr_initial r) (lr_timeline r) members]> (f_pending c)) (f_view c)) room' = eff c room'.
Proof.
  cbv zeta. unfold eff. cbn [f_view f_pending]. intros room'. destruct (decide (room' = room)) as [->|Hne].
  - rewrite lookup_insert. destruct (f_pending c !! room) as [r|]; cbn; [by destruct (lr_initial r)|].
    destruct (f_view c !! room); cbn; [by rewrite app_nil_r|done].
  - by rewrite lookup_insert_ne.
Qed.
Lemma eff_respond c room : view_of (respond c) room = eff c room /\ eff (respond c) room = eff c room.
Proof.
  assert (H : view_of (respond c) room = eff c room).
  { unfold view_of, respond, eff. cbn [f_view]. rewrite lookup_merge. destruct (f_view c !! room), (f_pending c !! room); done. }
  split; [done|]. rewrite <- H. unfold eff at 1. unfold respond at 2. cbn [f_pending]. by rewrite lookup_empty.
Qed.

Lemma lroom_eta r : r = mk_lroom (lr_initial r) (lr_timeline r) (lr_members r).
Proof. by destruct r. Qed.

Lemma process_live_inv ord redact env c v inits shown : redact_ok redact -> 0 <= fe_max env ->
  good_step ord redact (FLive v inits shown) -> timely c (FLive v inits shown) -> finv c -> finv (process_live env c v inits shown).1.
Proof.
  intros Hre Hmax [Hg Hnid] Ht Hi. unfold process_live. cbv zeta.
  destruct (negb (v_always v) && (t_nid (v_ent v) =? 0)) eqn:E0; [done|].
  destruct (negb (v_always v) && ((0 <? lp_of c (v_room v)) && (t_nid (v_ent v) <? lp_of c (v_room v)))) eqn:E1; [done|].
  destruct (negb (v_state v) && v_ignored v); [done|].
  set (c1 := mk_feed (if f_anchor c <? t_nid (v_ent v) then t_nid (v_ent v) else f_anchor c) (f_lp c) (f_lazy c) (f_pending c) (f_view c)).
  assert (Hi1 : finv c1).
  { intros room. destruct (Hi room) as (H1 & H2 & H3). split; [done|]. split; [done|]. cbn [f_anchor c1]. intros Ha. apply H3.
    destruct (f_anchor c <? t_nid (v_ent v)) eqn:E; lia. }
  pose proof (load_rooms_inv _ _ env Hre Hmax inits c1 Hg Hi1) as Hi2.
  pose proof (load_rooms_lp _ _ env Hre Hmax inits c1 (v_room v) Hg) as Hlp.
  pose proof (load_rooms_anchor env inits c1) as Ha2.
  set (c2 := load_rooms env c1 inits) in *. clearbody c2.
  destruct shown; [|done]. set (r := default lroom0 (f_pending c2 !! v_room v)).
  assert (Hkeep : forall lp lz members, (forall room, lp_of c2 room <= default 0 (lp !! room)) ->
     finv (mk_feed (f_anchor c2) lp lz (<[v_room v := mk_lroom (lr_initial r) (lr_timeline r) members]> (f_pending c2)) (f_view c2))).
  { intros lp lz members Hle room. destruct (Hi2 room) as (H1 & H2 & H3). unfold r. rewrite eff_same. split; [done|]. split; [|done].
    eapply Forall_impl; [done|]. intros n Hn. specialize (Hle room). unfold lp_of in *. cbn [f_lp] in *. lia. }
  assert (Hup : v_always v = false -> lp_of c2 (v_room v) <= t_nid (v_ent v)).
  { intros Hal. rewrite Hal in *. destruct Hlp as [->|[Hex Hle]].
    - change (lp_of c1 (v_room v)) with (lp_of c (v_room v)). cbn in E1, Hnid. lia.
    - destruct (Ht Hex) as [?|Hanc]; [congruence|]. cbn [f_anchor c1] in Hle. destruct (f_anchor c <? t_nid (v_ent v)); lia. }
  destruct (v_event v).
  2:{ cbn [fst]. fold r. rewrite (lroom_eta r). apply Hkeep. intros room. unfold lp_of. lia. }
  assert (Hlp' : forall room, lp_of c2 room <= default 0 ((if v_always v then f_lp c2 else <[v_room v := t_nid (v_ent v)]> (f_lp c2)) !! room)).
  { intros room. destruct (v_always v) eqn:Ea; [unfold lp_of; lia|]. destruct (decide (room = v_room v)) as [->|Hne].
    - rewrite lookup_insert. by apply Hup.
    - rewrite lookup_insert_ne by done. unfold lp_of. lia. }
  destruct (negb (v_always v) && (t_nid (v_ent v) <=? lp_of c2 (v_room v))) eqn:Eadv.
  - cbn [fst]. fold r. rewrite (lroom_eta r). by apply Hkeep.
  - destruct (lazy_member _ _ _ _ _) as [[lz members] sent]. cbn [fst].
    intros room. destruct (eff_append c2 (v_room v) (v_ent v) members
      (if v_always v then f_lp c2 else <[v_room v := t_nid (v_ent v)]> (f_lp c2)) lz) as [Hsame Hother]. cbv zeta in Hsame, Hother. fold r in Hsame, Hother.
    destruct (Hi2 room) as (H1 & H2 & H3). destruct (decide (room = v_room v)) as [->|Hne].
    + rewrite Hsame, nids_app. unfold lp_of. cbn [f_lp f_anchor]. destruct (v_always v) eqn:Eal.
      * assert (Hz : nids [v_ent v] = []) by (unfold nids; cbn; rewrite Hnid; done). rewrite Hz, app_nil_r. done.
      * cbn in Eadv, E0. assert (Hz : nids [v_ent v] = [t_nid (v_ent v)]).
        { unfold nids. cbn. assert (Hb : (0 <? t_nid (v_ent v)) = true) by lia. by rewrite Hb. }
        rewrite Hz, lookup_insert. cbn [default from_option id]. split; [|split].
        -- apply sorted_snoc; [done|]. eapply Forall_impl; [done|]. cbn. intros n Hn. lia.
        -- apply Forall_app. split; [|repeat constructor; lia]. eapply Forall_impl; [done|]. cbn. intros n Hn. lia.
        -- rewrite Ha2. cbn [f_anchor c1]. intros Hneg. destruct (f_anchor c <? t_nid (v_ent v)) eqn:E; lia.
    + rewrite Hother by done. split; [done|]. split; [|done]. eapply Forall_impl; [done|]. intros n Hn. specialize (Hlp' room). unfold lp_of in *. cbn [f_lp] in *. lia.
Qed.

Lemma fstep_inv ord redact env c s : redact_ok redact -> 0 <= fe_max env -> good_step ord redact s -> timely c s -> finv c -> finv (fstep1 env c s).1.
Proof.
  intros Hre Hmax Hg Ht Hi. destruct s as [pos lps|inits|v inits shown|room users|]; cbn [fstep1 fst].
  - unfold load. destruct (f_anchor c <=? 0) eqn:E; [|done]. intros room. destruct (Hi room) as (H1 & H2 & H3).
    assert (Hn : nids (eff c room) = []) by (apply H3; lia).
    change (eff (mk_feed pos (lps ∪ f_lp c) (f_lazy c) (f_pending c) (f_view c)) room) with (eff c room). rewrite Hn.
    repeat split; constructor.
  - by eapply load_rooms_inv.
  - by eapply process_live_inv.
  - unfold lazy_typing. destruct (isLazyLoading (f_lazy c) room); [|done].
    destruct (typing_members _ _ _ _) as [[lz members] sent]. cbn [fst]. destruct (0 <? Z.of_nat (length members)).
    + intros room'. destruct (Hi room') as (H1 & H2 & H3).
      pose proof (eff_same c room members (f_lp c) lz) as He. cbv zeta in He. rewrite He. done.
    + intros room'. apply (Hi room').
  - intros room. destruct (eff_respond c room) as [_ ->]. apply (Hi room).
Qed.

Lemma view_live env c v inits shown room : view_of (process_live env c v inits shown).1 room = view_of c room.
Proof.
  unfold process_live. cbv zeta. destruct (_ && (t_nid (v_ent v) =? 0)); [done|].
  destruct (negb (v_always v) && _); [done|]. destruct (negb (v_state v) && _); [done|].
  set (c1 := mk_feed (if f_anchor c <? t_nid (v_ent v) then t_nid (v_ent v) else f_anchor c) (f_lp c) (f_lazy c) (f_pending c) (f_view c)).
  assert (H : f_view (load_rooms env c1 inits) = f_view c) by exact (load_rooms_view env inits c1).
  set (c2 := load_rooms env c1 inits) in *. clearbody c2. unfold view_of. destruct shown; [|cbn [fst]; by rewrite H].
  destruct (v_event v); [|cbn [fst f_view]; by rewrite H]. destruct (_ && (t_nid (v_ent v) <=? _)); [cbn [fst f_view]; by rewrite H|].
  destruct (lazy_member _ _ _ _ _) as [[? ?] ?]. cbn [fst f_view]. by rewrite H.
Qed.
