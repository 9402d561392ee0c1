(** C54: lazily loaded members. *)
From Coq Require Import Ascii.
From Verif Require Import Prelude AccumModel AccumSpec AccumProps StoreModel RequestModel SubModel SubSpec SubProofs FeedModel FeedSpec FeedProofs FeedProps.
Open Scope string_scope. Open Scope list_scope. Open Scope Z_scope.

(** ** The key *)
Lemma lkey_inj r1 u1 r2 u2 : no_space r1 -> no_space r2 -> lkey r1 u1 = lkey r2 u2 -> r1 = r2 /\ u1 = u2.
Proof.
  unfold lkey. revert r2. induction r1 as [|a r1 IH]; intros [|b r2] H1 H2 H; cbn in *.
  - split; [done|]. by injection H.
  - injection H as <- _. by destruct H2 as [? _].
  - injection H as -> _. by destruct H1 as [? _].
  - destruct H1 as [_ H1], H2 as [_ H2]. injection H as -> H. destruct (IH r2 H1 H2 H) as [-> ->]. done.
Qed.
(** Outside of that, two rooms share a key. *)
Theorem C54_key_collision_refuted :
  lkey "!a" "@x | @y" = lkey "!a | @x" "@y" /\ "!a" <> "!a | @x".
Proof. done. Qed.

(** ** Tracking only grows *)
Lemma addUser_set room lz user r u : isSet (addUser room lz user) r u = bool_decide (lkey r u = lkey room user) || isSet lz r u.
Proof.
  unfold isSet, addUser. cbn [lz_cache]. apply eq_bool_prop_intro. rewrite orb_True, !bool_decide_spec. set_solver.
Qed.
Lemma addUsers_set room users r u : forall lz, isSet (addUsers lz room users) r u = true <->
  (exists x, In x users /\ lkey r u = lkey room x) \/ isSet lz r u = true.
Proof.
  unfold addUsers. induction users as [|x users IH]; intros lz; cbn [fold_left].
  - split; [by right|]. by intros [(? & [] & _)|?].
  - rewrite IH, addUser_set, orb_true_iff, bool_decide_eq_true. split.
    + intros [(y & H1 & H2)|[H|H]]; [left; exists y; split; [by right|done]|left; exists x; split; [by left|done]|by right].
    + intros [(y & [<-|H1] & H2)|H]; [right; by left|left; by exists y|right; by right].
Qed.
Lemma lazy_member_set lz room user found members lz' members' sent r u :
  lazy_member lz room user found members = (lz', members', sent) ->
  (isSet lz' r u = true <-> isSet lz r u = true \/ exists x, In x sent /\ lkey r u = lkey x.1 x.2)
  /\ (forall x, In x sent -> x = (room, user) /\ isSet lz room user = false /\ isLazyLoading lz room = true /\ found = true)
  /\ members' = members ++ map snd sent
  /\ (isLazyLoading lz room = true -> found = true -> isSet lz' room user = true)
  /\ (isLazyLoading lz room = true -> isLazyLoading lz' room = true).
Proof.
  unfold lazy_member. intros H. destruct (isLazyLoading lz room) eqn:El; cbn [andb] in H.
  - destruct (isSet lz room user) eqn:Es; cbn [negb] in H.
    + injection H as <- <- <-. rewrite app_nil_r. split; [|done]. split; [by left|]. by intros [?|(? & [] & _)].
    + destruct found.
      * injection H as <- <- <-. cbn [map snd]. split; [|split; [|split; [done|split]]].
        -- rewrite addUser_set, orb_true_iff, bool_decide_eq_true. split.
           ++ intros [H|H]; [right; exists (room, user); split; [by left|done]|by left].
           ++ intros [H|(x & [<-|[]] & H)]; [by right|by left].
        -- by intros x [<-|[]].
        -- intros _ _. rewrite addUser_set. by rewrite bool_decide_eq_true_2.
        -- intros _. unfold isLazyLoading, addUser. cbn [lz_rooms]. apply bool_decide_eq_true. set_solver.
      * injection H as <- <- <-. rewrite app_nil_r. split; [|done]. split; [by left|]. by intros [?|(? & [] & _)].
  - injection H as <- <- <-. rewrite app_nil_r. split; [|done]. split; [by left|]. by intros [?|(? & [] & _)].
Qed.
Lemma typing_members_set room users : forall lz members lz' members' sent,
  typing_members lz room users members = (lz', members', sent) ->
  (forall r u, isSet lz' r u = true <-> isSet lz r u = true \/ exists x, In x sent /\ lkey r u = lkey x.1 x.2)
  /\ (forall x, In x sent -> x.1 = room /\ isSet lz room x.2 = false) /\ NoDup sent
  /\ members' = members ++ map snd sent
  /\ (isLazyLoading lz room = true -> forall u, In (u, true) users -> isSet lz' room u = true).
Proof.
  induction users as [|[u0 found] users IH]; intros lz members lz' members' sent H; cbn [typing_members] in H.
  - injection H as <- <- <-. rewrite app_nil_r. split; [|split; [done|split; [constructor|done]]]. intros r u. split; [by left|].
    by intros [?|(? & [] & _)].
  - destruct (lazy_member lz room u0 found members) as [[lz1 m1] s1] eqn:E1.
    destruct (typing_members lz1 room users m1) as [[lz2 m2] s2] eqn:E2. injection H as <- <- <-.
    destruct (IH _ _ _ _ _ E2) as (H1 & H2 & H3 & H4 & H5).
    assert (Hb : forall r u, isSet lz1 r u = true <-> isSet lz r u = true \/ exists x, In x s1 /\ lkey r u = lkey x.1 x.2).
    { intros r u. by apply (lazy_member_set _ _ _ _ _ _ _ _ r u E1). }
    destruct (lazy_member_set _ _ _ _ _ _ _ _ room u0 E1) as (_ & Hs & Hm & Ht & Hl). split; [|split; [|split; [|split]]].
    + intros r u. rewrite H1, Hb. split.
      * intros [[H|(x & Hx & He)]|(x & Hx & He)]; [by left|right; exists x; split; [apply in_app_iff; by left|done]|right; exists x; split; [apply in_app_iff; by right|done]].
      * intros [H|(x & Hx & He)]; [left; by left|]. apply in_app_iff in Hx as [Hx|Hx]; [left; right; by exists x|right; by exists x].
    + intros x Hx. apply in_app_iff in Hx as [Hx|Hx].
      * destruct (Hs x Hx) as (-> & ? & _). done.
      * destruct (H2 x Hx) as [? Hn]. split; [done|]. destruct (isSet lz room x.2) eqn:E; [|done].
        assert (Hx1 : isSet lz1 room x.2 = true) by (apply Hb; by left). congruence.
    + apply NoDup_app. split; [|split; [|done]].
      * destruct s1 as [|y [|z s1]]; [constructor|apply NoDup_singleton|]. unfold lazy_member in E1.
        destruct (_ && _); [destruct found|]; by injection E1.
      * intros x Hx Hx2. rewrite elem_of_list_In in Hx, Hx2. destruct (H2 x Hx2) as [Hr Hn].
        assert (Hx1 : isSet lz1 room x.2 = true); [|congruence]. apply Hb. right. exists x. split; [done|]. by rewrite Hr.
    + rewrite H4, Hm, map_app. by rewrite app_assoc.
    + intros Hlz u [Hu|Hu].
      * injection Hu as -> ->. apply H1. left. by apply Ht.
      * apply H5; [by apply Hl|done].
Qed.

(** The users whose events a load brings are tracked afterwards, and no others are added. *)
Lemma get_initial_set env c i r u : isSet (f_lazy (get_initial env c i)) r u = true <->
  isSet (f_lazy c) r u = true \/ (wants_lazy (i_req i) /\ exists e, In e (timeline_of (load_timeline env (f_anchor c) i)) /\ lkey r u = lkey (i_room i) (t_sender e)).
Proof.
  unfold get_initial. cbv zeta. cbn [f_lazy]. destruct (lazy_members (i_req i)) eqn:El.
  - rewrite addUsers_set. apply lazy_spec in El. split.
    + intros [(x & Hx & He)|H]; [|by left]. right. split; [done|]. unfold senders in Hx.
      apply elem_of_list_In, elem_of_remove_dups, elem_of_list_In, in_map_iff in Hx as (e & <- & He'). by exists e.
    + intros [H|(_ & e & He & Hk)]; [by right|]. left. exists (t_sender e). split; [|done].
      unfold senders. apply elem_of_list_In, elem_of_remove_dups, elem_of_list_In, in_map_iff. by exists e.
  - split; [by left|]. intros [?|[H _]]; [done|]. apply lazy_spec in H. congruence.
Qed.
Lemma load_rooms_set env r u inits : forall c, isSet (f_lazy (load_rooms env c inits)) r u = true <->
  isSet (f_lazy c) r u = true \/ exists i e, In i inits /\ wants_lazy (i_req i)
    /\ In e (timeline_of (load_timeline env (f_anchor c) i)) /\ lkey r u = lkey (i_room i) (t_sender e).
Proof.
  unfold load_rooms. induction inits as [|i inits IH]; intros c; cbn [fold_left].
  - split; [by left|]. by intros [?|(? & ? & [] & _)].
  - rewrite IH, get_initial_set. change (f_anchor (get_initial env c i)) with (f_anchor c). split.
    + intros [[H|(Hw & e & He & Hk)]|(i' & e & Hi & Hw & He & Hk)]; [by left|right; exists i, e; split; [by left|done]|right; exists i', e; split; [by right|done]].
    + intros [H|(i' & e & [<-|Hi] & Hw & He & Hk)]; [left; by left|left; right; split; [done|by exists e]|right; by exists i', e].
Qed.

(** A step tracks what was tracked, the members it sends, and the senders it loads. *)
Lemma live_anchor c v : (if f_anchor c <? t_nid (v_ent v) then t_nid (v_ent v) else f_anchor c) = Z.max (f_anchor c) (t_nid (v_ent v)).
Proof. destruct (f_anchor c <? t_nid (v_ent v)) eqn:E; lia. Qed.
(** What a live update does when it is not skipped, and that it does nothing otherwise. *)
Lemma process_live_cases env c v inits shown : process_live env c v inits shown = (c, []) \/
  let c2 := load_rooms env (mk_feed (Z.max (f_anchor c) (t_nid (v_ent v))) (f_lp c) (f_lazy c) (f_pending c) (f_view c)) inits in
  let r := default lroom0 (f_pending c2 !! v_room v) in
  ((process_live env c v inits shown).2 = [] /\ f_lazy (process_live env c v inits shown).1 = f_lazy c2)
  \/ exists lz members sent lp, lazy_member (f_lazy c2) (v_room v) (t_sender (v_ent v)) (v_found v) (lr_members r) = (lz, members, sent)
     /\ process_live env c v inits shown = (mk_feed (f_anchor c2) lp lz
             (<[v_room v := mk_lroom (lr_initial r) (lr_timeline r ++ [v_ent v]) members]> (f_pending c2)) (f_view c2), sent).
Proof.
  unfold process_live. cbv zeta. destruct (_ && (t_nid (v_ent v) =? 0)); [by left|].
  destruct (negb (v_always v) && _); [by left|]. destruct (negb (v_state v) && _); [by left|]. right. rewrite live_anchor.
  set (c2 := load_rooms env _ inits). clearbody c2. destruct shown; [|by left]. destruct (v_event v); [|by left].
  destruct (_ && (t_nid (v_ent v) <=? _)); [by left|]. right.
  destruct (lazy_member _ _ _ _ _) as [[lz members] sent]. by eexists _, _, _, _.
Qed.
(** [loads_sender] up to the key. *)
Definition loads_key (env : fenv) (c : feed) (s : fstep) (k : string) : Prop :=
  exists room user, loads_sender env c s room user /\ k = lkey room user.
Lemma step_set env c s r u : isSet (f_lazy (fstep1 env c s).1) r u = true ->
  isSet (f_lazy c) r u = true \/ (exists x, In x (fstep1 env c s).2 /\ lkey r u = lkey x.1 x.2) \/ loads_key env c s (lkey r u).
Proof.
  intros Hset. destruct (isSet (f_lazy c) r u) eqn:E0; [by left|right].
  assert (Hne : fstep1 env c s <> (c, [])) by (intros E; rewrite E in Hset; cbn [fst] in Hset; congruence).
  revert Hset. destruct s as [pos lps|inits|v inits shown|room users|]; cbn [fstep1 fst snd] in *.
  - unfold load. destruct (f_anchor c <=? 0); cbn [f_lazy]; congruence.
  - rewrite load_rooms_set. intros [H|(i & e & Hi & Hw & He & Hk)]; [congruence|]. right. exists (i_room i), (t_sender e). split; [|done].
    split; [done|]. exists (f_anchor c), inits, i, e. split; [by left|done].
  - destruct (process_live_cases env c v inits shown) as [E|Hcase]; [done|]. cbv zeta in Hcase.
    set (c2 := load_rooms env _ inits) in *.
    assert (Hc2 : isSet (f_lazy c2) r u = true -> loads_key env c (FLive v inits shown) (lkey r u)).
    { unfold c2. rewrite load_rooms_set. cbn [f_lazy f_anchor]. intros [H|(i & e & Hi & Hw & He & Hk)]; [congruence|].
      exists (i_room i), (t_sender e). split; [|done]. split; [done|]. eexists _, inits, i, e. split; [right; by exists v, shown|done]. }
    destruct Hcase as [[H1 H2]|(lz & members & sent & lp & E & H)].
    + rewrite H2. intros H. right. by apply Hc2.
    + rewrite H. cbn [fst snd f_lazy]. intros Hs. apply (lazy_member_set _ _ _ _ _ _ _ _ r u E) in Hs as [Hs|Hs]; [right; by apply Hc2|by left].
  - unfold lazy_typing. destruct (isLazyLoading (f_lazy c) room); [|cbn [fst]; congruence].
    destruct (typing_members _ _ _ _) as [[lz members] sent] eqn:E. cbn [fst snd f_lazy].
    destruct (typing_members_set _ _ _ _ _ _ _ E) as (H1 & _). intros H. apply H1 in H as [?|?]; [congruence|by left].
  - unfold respond. cbn [f_lazy]. congruence.
Qed.
Lemma step_keeps env c s r u : isSet (f_lazy c) r u = true -> isSet (f_lazy (fstep1 env c s).1) r u = true.
Proof.
  intros Hc. destruct s as [pos lps|inits|v inits shown|room users|]; cbn [fstep1 fst].
  - unfold load. by destruct (f_anchor c <=? 0).
  - apply load_rooms_set. by left.
  - destruct (process_live_cases env c v inits shown) as [->|Hcase]; [done|]. cbv zeta in Hcase. set (c2 := load_rooms env _ inits) in *.
    assert (Hc2 : isSet (f_lazy c2) r u = true) by (unfold c2; apply load_rooms_set; by left).
    destruct Hcase as [[_ ->]|(lz & members & sent & lp & E & ->)]; [done|]. cbn [fst f_lazy].
    apply (lazy_member_set _ _ _ _ _ _ _ _ r u E). by left.
  - unfold lazy_typing. destruct (isLazyLoading (f_lazy c) room); [|done]. destruct (typing_members _ _ _ _) as [[lz members] sent] eqn:E.
    cbn [fst f_lazy]. destruct (typing_members_set _ _ _ _ _ _ _ E) as (H1 & _). apply H1. by left.
  - done.
Qed.
Lemma step_adds env c s r u : In (r, u) (fstep1 env c s).2 \/ loads_sender env c s r u -> isSet (f_lazy (fstep1 env c s).1) r u = true.
Proof.
  intros H. destruct s as [pos lps|inits|v inits shown|room users|]; cbn [fstep1 fst snd] in *.
  - destruct H as [[]|[_ (? & ? & ? & ? & [[? _]|(? & ? & ? & _)] & _)]]; done.
  - destruct H as [[]|[_ (anchor & inits' & i & e & Hs & Hi & Hr & Hw & He & Hu)]]. destruct Hs as [[[= <-] ->]|(? & ? & ? & _)]; [|done].
    apply load_rooms_set. right. exists i, e. split; [done|]. split; [done|]. split; [done|]. by rewrite Hr, Hu.
  - destruct (process_live_cases env c v inits shown) as [E0|Hcase].
    + rewrite E0 in H |- *. destruct H as [[]|[H _]]. cbn [fstep1] in H. by rewrite E0 in H.
    + cbv zeta in Hcase. set (c2 := load_rooms env _ inits) in *.
      assert (Hc2 : loads_sender env c (FLive v inits shown) r u -> isSet (f_lazy c2) r u = true).
      { intros (_ & anchor & inits' & i & e & Hs & Hi & Hr & Hw & He & Hu). destruct Hs as [[? _]|(v' & shown' & [= <- <- <-] & ->)]; [done|].
        unfold c2. apply load_rooms_set. right. exists i, e. split; [done|]. split; [done|]. split; [done|]. by rewrite Hr, Hu. }
      destruct Hcase as [[H1 H2]|(lz & members & sent & lp & E & E')].
      * rewrite H1 in H. rewrite H2. destruct H as [[]|H]. by apply Hc2.
      * rewrite E' in H |- *. cbn [fst snd f_lazy] in *. apply (lazy_member_set _ _ _ _ _ _ _ _ r u E).
        destruct H as [H|H]; [right; by exists (r, u)|left; by apply Hc2].
  - destruct H as [H|[_ (? & ? & ? & ? & [[? _]|(? & ? & ? & _)] & _)]]; [|done..].
    unfold lazy_typing in *. destruct (isLazyLoading (f_lazy c) room); [|done]. destruct (typing_members _ _ _ _) as [[lz members] sent] eqn:E.
    cbn [fst snd f_lazy] in *. destruct (typing_members_set _ _ _ _ _ _ _ E) as (H1 & _). apply H1. right. by exists (r, u).
  - destruct H as [[]|[_ (? & ? & ? & ? & [[? _]|(? & ? & ? & _)] & _)]]; done.
Qed.
Lemma step_not_tracked env c s r u : In (r, u) (fstep1 env c s).2 -> isSet (f_lazy c) r u = false.
Proof.
  intros H. destruct (isSet (f_lazy c) r u) eqn:E0; [exfalso|done]. destruct s as [pos lps|inits|v inits shown|room users|]; cbn [fstep1 snd] in H; [done..| | |done].
  - destruct (process_live_cases env c v inits shown) as [E|Hcase]; [by rewrite E in H|]. cbv zeta in Hcase. set (c2 := load_rooms env _ inits) in *.
    destruct Hcase as [[H1 _]|(lz & members & sent & lp & E & E')]; [by rewrite H1 in H|]. rewrite E' in H. cbn [snd] in H.
    destruct (lazy_member_set _ _ _ _ _ _ _ _ r u E) as (_ & Hs & _). destruct (Hs _ H) as ([= -> ->] & Hn & _).
    assert (Hc2 : isSet (f_lazy c2) (v_room v) (t_sender (v_ent v)) = true) by (unfold c2; apply load_rooms_set; by left). congruence.
  - unfold lazy_typing in H. destruct (isLazyLoading (f_lazy c) room); [|done]. destruct (typing_members _ _ _ _) as [[lz members] sent] eqn:E.
    cbn [snd] in H. destruct (typing_members_set _ _ _ _ _ _ _ E) as (_ & H2 & _). destruct (H2 _ H) as [Hr Hn]. cbn in Hr, Hn. subst r. congruence.
Qed.
Lemma runs_keep env l r u : forall c, isSet (f_lazy c) r u = true -> isSet (f_lazy (fruns env c l)) r u = true.
Proof.
  unfold fruns. induction l as [|s l IH]; intros c H; [done|]. cbn [fold_left]. apply IH. by apply step_keeps.
Qed.

(** ** C54 *)

(** C54. A member event that was sent for a sender or a typing user, or that belongs to
    a sender in a room sent as initial, is never sent again for a sender or a typing
    user, on this connection; nor is it twice in one response. *)
Theorem C54_sent_once env c s l s' room user :
  In (room, user) (fstep1 env c s).2 \/ loads_sender env c s room user ->
  ~ In (room, user) (fstep1 env (fruns env (fstep1 env c s).1 l) s').2
  /\ NoDup (fstep1 env c s).2.
Proof.
  intros H. split.
  - intros Hin. apply step_not_tracked in Hin. rewrite runs_keep in Hin; [done|]. by apply step_adds.
  - destruct s as [pos lps|inits|v inits shown|r users|]; cbn [fstep1 snd]; try constructor.
    + destruct (process_live_cases env c v inits shown) as [->|Hcase]; [constructor|]. cbv zeta in Hcase.
      destruct Hcase as [[-> _]|(lz & members & sent & lp & E & ->)]; [constructor|]. cbn [snd]. unfold lazy_member in E.
      destruct (_ && _); [destruct (v_found v)|]; injection E as _ _ <-; constructor; [|constructor]. apply not_elem_of_nil.
    + unfold lazy_typing. destruct (isLazyLoading (f_lazy c) r); [|constructor]. destruct (typing_members _ _ _ _) as [[lz members] sent] eqn:E.
      cbn [snd]. by destruct (typing_members_set _ _ _ _ _ _ _ E) as (_ & _ & H2 & _).
Qed.
Print Assumptions C54_sent_once.

(** C54. The member events of senders and typing users are in the response being made. *)
Theorem C54_sent_is_in_response env c s room user : In (room, user) (fstep1 env c s).2 ->
  exists r, f_pending (fstep1 env c s).1 !! room = Some r /\ In user (lr_members r).
Proof.
  destruct s as [pos lps|inits|v inits shown|r users|]; cbn [fstep1 snd fst]; [done..| | |done].
  - destruct (process_live_cases env c v inits shown) as [->|Hcase]; [done|]. cbv zeta in Hcase.
    destruct Hcase as [[-> _]|(lz & members & sent & lp & E & ->)]; [done|]. cbn [snd fst f_pending]. intros H.
    destruct (lazy_member_set _ _ _ _ _ _ _ _ room user E) as (_ & Hs & Hm & _). destruct (Hs _ H) as ([= -> ->] & _).
    rewrite lookup_insert. eexists. split; [done|]. cbn [lr_members]. rewrite Hm. apply in_app_iff. right. apply in_map_iff. by exists (v_room v, t_sender (v_ent v)).
  - unfold lazy_typing. destruct (isLazyLoading (f_lazy c) r); [|done]. destruct (typing_members _ _ _ _) as [[lz members] sent] eqn:E.
    cbn [snd fst f_pending]. intros H. destruct (typing_members_set _ _ _ _ _ _ _ E) as (_ & H2 & _ & H3 & _).
    destruct (H2 _ H) as [Hr _]. cbn in Hr. subst room.
    assert (Hin : In user members) by (rewrite H3; apply in_app_iff; right; apply in_map_iff; by exists (r, user)).
    destruct members as [|m members]; [done|]. cbn [length]. assert (Hb : (0 <? Z.of_nat (S (length members))) = true) by lia. rewrite Hb.
    rewrite lookup_insert. by eexists.
Qed.

(** C54. With lazy loading, a room sent as initial has the member events of the senders
    in its timeline that are in its state. *)
Theorem C54_initial_members env c i ev e : fe_user env <> "*" -> wants_lazy (i_req i) -> i_invite i = false ->
  In ev (i_state i) -> se_type ev = "m.room.member" ->
  In e (timeline_of (load_timeline env (f_anchor c) i)) -> t_sender e = se_key ev ->
  exists r, f_pending (get_initial env c i) !! i_room i = Some r /\ lr_initial r = true /\ In e (lr_timeline r) /\ In (se_key ev) (lr_members r).
Proof.
  intros Hu Hw Hinv Hev Ht He Hk. unfold get_initial. cbv zeta. cbn [f_pending]. rewrite lookup_insert. eexists. split; [done|].
  cbn [lr_initial lr_timeline lr_members]. split; [done|]. split; [done|]. rewrite Hinv. apply in_map_iff. exists ev. split; [done|].
  apply filter_In. split; [|by rewrite Ht]. apply elem_of_list_In, load_state_elem; [done|]. split; [by apply elem_of_list_In|]. right.
  split; [done|]. split.
  - unfold senders. rewrite elem_of_remove_dups, elem_of_list_In, in_map_iff. by exists e.
  - apply query_superset; [done|]. right. done.
Qed.
Print Assumptions C54_initial_members.

(** ** Which rooms are lazily loaded *)
Lemma addUsers_lazy room users r : forall lz, isLazyLoading (addUsers lz room users) r = true <->
  (r = room /\ users <> []) \/ isLazyLoading lz r = true.
Proof.
  unfold addUsers, isLazyLoading. induction users as [|x users IH]; intros lz; cbn [fold_left].
  - split; [by right|]. by intros [[_ ?]|?].
  - rewrite IH. unfold addUser. cbn [lz_rooms]. rewrite !bool_decide_eq_true, elem_of_union, elem_of_singleton. split.
    + intros [[-> _]|[->|?]]; [by left|by left|by right].
    + intros [[-> _]|?]; right; [by left|by right].
Qed.
Lemma get_initial_lazy env c i : (isLazyLoading (f_lazy c) (i_room i) = true \/ (wants_lazy (i_req i) /\ timeline_of (load_timeline env (f_anchor c) i) <> [])) ->
  isLazyLoading (f_lazy (get_initial env c i)) (i_room i) = true.
Proof.
  unfold get_initial. cbv zeta. cbn [f_lazy]. intros [H|[Hw Ht]].
  - destruct (lazy_members _); [|done]. apply addUsers_lazy. by right.
  - apply lazy_spec in Hw. rewrite Hw. apply addUsers_lazy. left. split; [done|]. unfold senders.
    destruct (timeline_of _) as [|e tl]; [done|]. intros E.
    assert (Hx : t_sender e ∈ remove_dups (map t_sender (e :: tl))) by (apply elem_of_remove_dups; cbn; by left).
    rewrite E in Hx. by apply elem_of_nil in Hx.
Qed.
Lemma get_initial_lazy_keeps env c i r : isLazyLoading (f_lazy c) r = true -> isLazyLoading (f_lazy (get_initial env c i)) r = true.
Proof. unfold get_initial. cbv zeta. cbn [f_lazy]. destruct (lazy_members _); [|done]. intros H. apply addUsers_lazy. by right. Qed.
Lemma load_rooms_lazy_keeps env l r : forall c, isLazyLoading (f_lazy c) r = true -> isLazyLoading (f_lazy (load_rooms env c l)) r = true.
Proof. unfold load_rooms. induction l as [|i l IH]; intros c H; [done|]. cbn [fold_left]. apply IH. by apply get_initial_lazy_keeps. Qed.
Lemma load_rooms_lazy env l i e : forall c, In i l -> wants_lazy (i_req i) -> In e (timeline_of (load_timeline env (f_anchor c) i)) ->
  isLazyLoading (f_lazy (load_rooms env c l)) (i_room i) = true.
Proof.
  induction l as [|j l IH]; intros c Hi Hw He; [done|]. destruct Hi as [->|Hi].
  - unfold load_rooms. cbn [fold_left]. apply load_rooms_lazy_keeps, get_initial_lazy. right. split; [done|]. intros E. by rewrite E in He.
  - unfold load_rooms. cbn [fold_left]. by apply IH.
Qed.
Lemma step_lazy_keeps env c s r : isLazyLoading (f_lazy c) r = true -> isLazyLoading (f_lazy (fstep1 env c s).1) r = true.
Proof.
  intros Hc. destruct s as [pos lps|inits|v inits shown|room users|]; cbn [fstep1 fst].
  - unfold load. by destruct (f_anchor c <=? 0).
  - by apply load_rooms_lazy_keeps.
  - destruct (process_live_cases env c v inits shown) as [->|Hcase]; [done|]. cbv zeta in Hcase. set (c2 := load_rooms env _ inits) in *.
    assert (Hc2 : isLazyLoading (f_lazy c2) r = true) by (unfold c2; by apply load_rooms_lazy_keeps).
    destruct Hcase as [[_ ->]|(lz & members & sent & lp & E & ->)]; [done|]. cbn [fst f_lazy].
    clearbody c2. unfold lazy_member in E. destruct (_ && _); [destruct (v_found v)|]; injection E as <- _ _; [|done..].
    unfold isLazyLoading, addUser in *. cbn [lz_rooms]. rewrite bool_decide_eq_true in *. set_solver.
  - unfold lazy_typing. destruct (isLazyLoading (f_lazy c) room); [|done]. destruct (typing_members _ _ _ _) as [[lz members] sent] eqn:E.
    cbn [fst f_lazy]. clear -Hc E. revert Hc E. generalize (f_lazy c), (lr_members (default lroom0 (f_pending c !! room))).
    revert lz members sent. induction users as [|[u found] users IH]; intros lz members sent lz0 m0 Hc E; cbn [typing_members] in E.
    + by injection E as <- _ _.
    + destruct (lazy_member _ _ _ _ _) as [[lz1 m1] s1] eqn:E1. destruct (typing_members lz1 _ _ _) as [[lz2 m2] s2] eqn:E2.
      injection E as <- _ _. refine (IH _ _ _ _ _ _ E2). unfold lazy_member in E1. destruct (_ && _); [destruct found|]; injection E1 as <- _ _; [|done..].
      unfold isLazyLoading, addUser in *. cbn [lz_rooms]. rewrite bool_decide_eq_true in *. set_solver.
  - done.
Qed.
Lemma runs_lazy_keep env l r : forall c, isLazyLoading (f_lazy c) r = true -> isLazyLoading (f_lazy (fruns env c l)) r = true.
Proof. unfold fruns. induction l as [|s l IH]; intros c H; [done|]. cbn [fold_left]. apply IH. by apply step_lazy_keeps. Qed.
Lemma fruns_app env c l1 l2 : fruns env c (l1 ++ l2) = fruns env (fruns env c l1) l2.
Proof. unfold fruns. by rewrite fold_left_app. Qed.

(** What is tracked was sent, or loaded. *)
Lemma sent_room env c s x : In x (fstep1 env c s).2 -> In x.1 (step_rooms s).
Proof.
  destruct s as [pos lps|inits|v inits shown|room users|]; cbn [fstep1 snd step_rooms]; [done..| | |done].
  - destruct (process_live_cases env c v inits shown) as [->|Hcase]; [done|]. cbv zeta in Hcase.
    destruct Hcase as [[-> _]|(lz & members & sent & lp & E & ->)]; [done|]. cbn [snd]. intros H.
    destruct (lazy_member_set _ _ _ _ _ _ _ _ "" "" E) as (_ & Hs & _). destruct (Hs _ H) as (-> & _). by left.
  - unfold lazy_typing. destruct (isLazyLoading _ _); [|done]. destruct (typing_members _ _ _ _) as [[lz members] sent] eqn:E.
    cbn [snd]. intros H. destruct (typing_members_set _ _ _ _ _ _ _ E) as (_ & H2 & _). destruct (H2 _ H) as [-> _]. by left.
Qed.
Lemma loads_room env c s r u : loads_sender env c s r u -> In r (step_rooms s).
Proof.
  intros (_ & anchor & inits & i & e & Hs & Hi & <- & _). destruct Hs as [[-> _]|(v & shown & -> & _)]; cbn [step_rooms]; [|right]; by apply in_map.
Qed.
Lemma tracked_why env r u steps : no_space r -> Forall (fun s => Forall no_space (step_rooms s)) steps ->
  tracked (fruns env feed0 steps) r u ->
  at_some_step env steps (fun c s => In (r, u) (fstep1 env c s).2 \/ loads_sender env c s r u).
Proof.
  intros Hr. induction steps as [|s steps IH] using rev_ind; intros Hns Ht; [by unfold tracked, isSet in Ht; cbn in Ht; apply bool_decide_eq_true, elem_of_empty in Ht|].
  apply Forall_app in Hns as [Hns1 Hns2]. apply Forall_cons in Hns2 as [Hs _]. rewrite fruns_app in Ht.
  change (fruns env (fruns env feed0 steps) [s]) with (fstep1 env (fruns env feed0 steps) s).1 in Ht. unfold tracked in Ht.
  rewrite List.Forall_forall in Hs.
  destruct (step_set _ _ _ _ _ Ht) as [H|[([r' u'] & Hin & Hk)|(r' & u' & Hl & Hk)]].
  - destruct (IH Hns1 H) as (pre & s' & post & -> & Hp). exists pre, s', (post ++ [s]). by rewrite <- app_assoc.
  - cbn [fst snd] in Hk. pose proof (Hs _ (sent_room _ _ _ _ Hin)) as Hr'. cbn [fst] in Hr'. destruct (lkey_inj _ _ _ _ Hr Hr' Hk) as [<- <-].
    exists steps, s, []. split; [done|]. by left.
  - pose proof (Hs _ (loads_room _ _ _ _ _ Hl)) as Hr'. destruct (lkey_inj _ _ _ _ Hr Hr' Hk) as [<- <-].
    exists steps, s, []. split; [done|]. by right.
Qed.

Lemma lazy_room env steps room user : at_some_step env steps (fun c s => loads_sender env c s room user) ->
  isLazyLoading (f_lazy (fruns env feed0 steps)) room = true.
Proof.
  intros (pre & s & post & -> & Hne & anchor & inits & i & e & Hs & Hi & <- & Hw & He & Hu). rewrite fruns_app. cbn [fruns fold_left].
  apply runs_lazy_keep. set (c := fruns env feed0 pre) in *. destruct Hs as [[-> ->]|(v & shown & -> & ->)]; cbn [fstep1 fst] in *.
  - by apply load_rooms_lazy with e.
  - destruct (process_live_cases env c v inits shown) as [E|Hcase]; [done|]. cbv zeta in Hcase. set (c2 := load_rooms env _ inits) in *.
    assert (Hc2 : isLazyLoading (f_lazy c2) (i_room i) = true) by (by apply load_rooms_lazy with e).
    destruct Hcase as [[_ ->]|(lz & members & sent & lp & E & ->)]; [done|]. cbn [fst f_lazy].
    clearbody c2. unfold lazy_member in E. destruct (_ && _); [destruct (v_found v)|]; injection E as <- _ _; [|done..].
    unfold isLazyLoading, addUser in *. cbn [lz_rooms]. rewrite bool_decide_eq_true in *. set_solver.
Qed.

Lemma self_app {A} (l : list A) x : l = l ++ [x] -> False.
Proof. intros H. apply (f_equal length) in H. rewrite app_length in H. cbn in H. lia. Qed.
Lemma live_shown env c v inits :
  (process_live env c v inits true = (c, []) /\ process_live env c v inits false = (c, []))
  \/ exists c2, ((exists lp, process_live env c v inits true = (mk_feed (f_anchor c2) lp (f_lazy c2) (<[v_room v := default lroom0 (f_pending c2 !! v_room v)]> (f_pending c2)) (f_view c2), []))
      \/ exists lz members sent lp, let r := default lroom0 (f_pending c2 !! v_room v) in
         lazy_member (f_lazy c2) (v_room v) (t_sender (v_ent v)) (v_found v) (lr_members r) = (lz, members, sent)
         /\ process_live env c v inits true = (mk_feed (f_anchor c2) lp lz
             (<[v_room v := mk_lroom (lr_initial r) (lr_timeline r ++ [v_ent v]) members]> (f_pending c2)) (f_view c2), sent))
     /\ (forall r, isLazyLoading (f_lazy c) r = true -> isLazyLoading (f_lazy c2) r = true)
     /\ process_live env c v inits false = (c2, []).
Proof.
  unfold process_live. cbv zeta. destruct (_ && (t_nid (v_ent v) =? 0)); [by left|].
  destruct (negb (v_always v) && _); [by left|]. destruct (negb (v_state v) && _); [by left|]. right.
  match goal with |- context [load_rooms env ?c1 inits] => set (c0 := c1) end.
  exists (load_rooms env c0 inits). split; [|split; [|done]].
  2:{ intros r H. by apply load_rooms_lazy_keeps. }
  set (c2 := load_rooms env c0 inits). clearbody c2. destruct (v_event v); [|left; by eexists].
  destruct (_ && (t_nid (v_ent v) <=? _)); [left; by eexists|]. right.
  destruct (lazy_member _ _ _ _ _) as [[lz members] sent]. by eexists _, _, _, _.
Qed.

(** C54, first half: once a room was sent with lazy loading and a timeline, a further
    event for it whose sender has a member event in the room goes along with that member
    event, unless at an earlier step of the connection it was sent already, or the room
    was sent as initial with an event of the sender. ([shown] being false is the same
    update with nothing put into the timeline.)
    Missing: what was sent at the earlier step may have been replaced before it reached
    the client, and rooms sent with an empty timeline are not lazily loaded; see below. *)
Theorem C54_sent_when_needed_partial env steps v inits :
  let room := v_room v in
  let user := t_sender (v_ent v) in
  let steps' := steps ++ [FLive v inits true] in
  Forall (fun s => Forall no_space (step_rooms s)) steps' ->
  v_found v = true ->
  pending_timeline (fruns env feed0 steps') room
    = pending_timeline (fruns env feed0 (steps ++ [FLive v inits false])) room ++ [v_ent v] ->
  (exists u, at_some_step env steps (fun c s => loads_sender env c s room u)) ->
  at_some_step env steps' (fun c s => In (room, user) (fstep1 env c s).2 \/ loads_sender env c s room user).
Proof.
  intros room user steps' Hns Hf Htl [u Hu]. apply tracked_why; [|done|].
  { apply Forall_app in Hns as [_ Hns]. apply Forall_cons in Hns as [Hns _]. cbn [step_rooms] in Hns. by apply Forall_cons in Hns as [Hns _]. }
  apply lazy_room in Hu. unfold steps' in *. rewrite !fruns_app in *. set (c := fruns env feed0 steps) in *. clearbody c.
  cbn [fruns fold_left fstep1] in *. unfold tracked. unfold pending_timeline in Htl.
  destruct (live_shown env c v inits) as [[E1 E2]|(c2 & E1 & Hk & E2)].
  { exfalso. rewrite E1, E2 in Htl. by eapply self_app. }
  rewrite E2 in Htl. cbn [fst] in Htl. destruct E1 as [(lp & E1)|(lz & members & sent & lp & El & E1)]; rewrite E1 in *; cbn [fst f_pending f_lazy] in *.
  - exfalso. rewrite lookup_insert in Htl. cbn [default from_option id] in Htl. by eapply self_app.
  - apply (lazy_member_set _ _ _ _ _ _ _ _ room user El); [|done]. by apply Hk.
Qed.
Print Assumptions C54_sent_when_needed_partial.

(** *** Examples and refutations *)
Definition lazyreq : list tuple := [("m.room.member", "$LAZY")].
Definition lazy1 (room : string) (limit : Z) (req : list tuple) : finit :=
  mk_finit room limit req (Some db1) [] [mk_sev "m.room.member" "@a" "a"; mk_sev "m.room.member" "@b" "b"] false.
(** The member events sent for a room by now, and the users whose events it has. *)
Definition members_of (c : feed) (room : string) : list string := lr_members (default lroom0 (f_pending c !! room)).
Definition steps2 : list fstep := [FLoad 5 {[ "!r" := 5; "!s" := 4 ]}; FRooms [lazy1 "!r" 1 lazyreq]; FRespond].
Definition w8 := msg 8 "m8" "!r" "@b".
Definition w9 := msg 9 "m9" "!r" "@b".
(** A room is sent with an event by @a; then @b sends two messages, and is typing. *)
Example C54_example :
  map t_sender (view_of (fruns env1 feed0 steps2) "!r") = ["@a"]
  /\ members_of (fruns env1 feed0 (firstn 2 steps2)) "!r" = ["@a"]
  /\ (fstep1 env1 (fruns env1 feed0 steps2) (FLive v6 [] true)).2 = []
  /\ (fstep1 env1 (fruns env1 feed0 steps2) (FLive w8 [] true)).2 = [("!r", "@b")]
  /\ (fstep1 env1 (fruns env1 feed0 steps2) (FTyping "!r" [("@a", true); ("@b", true); ("@b", true)])).2 = [("!r", "@b")]
  /\ members_of (fruns env1 feed0 (steps2 ++ [FLive w8 [] true])) "!r" = ["@b"]
  /\ members_of (fruns env1 feed0 (steps2 ++ [FLive w8 [] true; FRespond; FLive w9 [] true])) "!r" = [].
Proof. split_and!; vm_compute; reflexivity. Qed.
(** The hypotheses of [C54_sent_when_needed_partial] hold in it. *)
Example C54_needed_example :
  Forall (fun s => Forall no_space (step_rooms s)) (steps2 ++ [FLive w8 [] true])
  /\ map t_id (pending_timeline (fruns env1 feed0 (steps2 ++ [FLive w8 [] true])) "!r") = ["m8"]
  /\ map t_id (pending_timeline (fruns env1 feed0 (steps2 ++ [FLive w8 [] false])) "!r") = []
  /\ at_some_step env1 steps2 (fun c s => loads_sender env1 c s "!r" "@a").
Proof.
  split; [|split; [|split]].
  - repeat constructor; done.
  - vm_compute; reflexivity.
  - vm_compute; reflexivity.
  - exists (firstn 1 steps2), (FRooms [lazy1 "!r" 1 lazyreq]), [FRespond]. split; [reflexivity|]. split.
    + intros E. apply (f_equal (fun x => map t_id (pending_timeline x.1 "!r"))) in E. vm_compute in E. done.
    + exists 5, [lazy1 "!r" 1 lazyreq], (lazy1 "!r" 1 lazyreq), (mk_tent 5 "m5" "!r" "@a"). split; [left; split; [done|vm_compute; reflexivity]|].
      split; [by left|]. split; [done|]. split; [by left|]. split; [|done].
      assert (E : timeline_of (load_timeline env1 5 (lazy1 "!r" 1 lazyreq)) = [mk_tent 5 "m5" "!r" "@a"]) by (vm_compute; reflexivity).
      rewrite E. by left.
Qed.

(** C54 fails for a room that was sent with an empty timeline, which is so for a timeline
    limit of 0 and for rooms that have no timeline yet: lazily loaded rooms are those that
    had a user added to the cache, so that the member event of a later sender, who is not
    known to the client, is never sent. *)
Theorem C54_empty_timeline_refuted :
  let steps := [FLoad 4 {[ "!r" := 2; "!s" := 4 ]}; FRooms [lazy1 "!r" 20 lazyreq]; FRespond; FLive w8 [] true] in
  map t_id (pending_timeline (fruns env1 feed0 steps) "!r") = ["m8"]
  /\ members_of (fruns env1 feed0 (firstn 2 steps)) "!r" = [] /\ members_of (fruns env1 feed0 steps) "!r" = [].
Proof. split_and!; vm_compute; reflexivity. Qed.

(** C54 fails if a later update in the same response sends the room as initial again: the
    response has the room without the member event, which is taken for sent. Here @b sends
    message 8, the room leaves the window because of another room, and message 9 by @a
    brings it back; with a timeline limit of 1, the room has message 9 only. The next
    message of @b, 10, comes without the member event as well. *)
Definition from_b (id : string) : raw := Raw id (Some "m.room.message") None "" false "@b" "" false "" false None None "" "".
Definition db2 : db := runs id keep (ops1 ++
  [Accumulate "!r" (Timeline [from_b "m8"] false ""); Accumulate "!r" (Timeline [ev "m9" "m.room.message" None] false "")]) empty_db.
Definition again2 : finit :=
  mk_finit "!r" 1 lazyreq (Some db2) [] [mk_sev "m.room.member" "@a" "a"; mk_sev "m.room.member" "@b" "b"] false.
Theorem C54_lost_when_sent_again_refuted :
  let steps := steps2 ++ [FLive w8 [] true; FLive (msg 9 "m9" "!r" "@a") [again2] true] in
  let steps' := steps ++ [FRespond; FLive (msg 10 "m10" "!r" "@b") [] true] in
  (fstep1 env1 (fruns env1 feed0 steps2) (FLive w8 [] true)).2 = [("!r", "@b")]
  /\ members_of (fruns env1 feed0 steps) "!r" = ["@a"]
  /\ map t_id (pending_timeline (fruns env1 feed0 steps) "!r") = ["m9"]
  /\ members_of (fruns env1 feed0 steps') "!r" = []
  /\ map t_id (pending_timeline (fruns env1 feed0 steps') "!r") = ["m10"].
Proof. split_and!; vm_compute; reflexivity. Qed.

(** C54 fails for a member that is asked for by name next to lazy loading: their event is
    sent with the room, and again with their first message. *)
Theorem C54_named_member_sent_again_refuted :
  let steps := [FLoad 5 {[ "!r" := 5; "!s" := 4 ]}; FRooms [lazy1 "!r" 1 (("m.room.member", "@b") :: lazyreq)]; FRespond; FLive w8 [] true] in
  members_of (fruns env1 feed0 (firstn 2 steps)) "!r" = ["@a"; "@b"] /\ members_of (fruns env1 feed0 steps) "!r" = ["@b"].
Proof. split_and!; vm_compute; reflexivity. Qed.
Print Assumptions C54_lost_when_sent_again_refuted.
