(** Lemmas about the restart. *)
From Verif Require Import Prelude AccumModel AccumSpec AccumProofs AccumProofs3 AccumProofs4 AccumProofs5 AccumProofs6 RoomNameModel StartModel StartSpec.
From Verif Require GlobalModel GlobalSpec GlobalProofs.
Open Scope string_scope. Open Scope list_scope. Open Scope Z_scope.

(** Which rows are in the current snapshots. *)
Section rows.
  Context (k : bool) (d : db) (Hi : Inv k d).
  Lemma in_current_snaps s : s ∈ current_snaps d <-> exists rm r, d_rooms d !! rm = Some r /\ d_snaps d !! rm_snap r = Some s.
  Proof using.
    unfold current_snaps. rewrite elem_of_list_omap. split.
    - intros ((rm & r) & H & E). apply elem_of_map_to_list in H. by exists rm, r.
    - intros (rm & r & H & E). exists (rm, r). split; [by apply elem_of_map_to_list|done].
  Qed.
  Lemma existsb_nid n l : existsb (Z.eqb n) l = true <-> n ∈ l.
  Proof using.
    rewrite existsb_exists. split.
    - intros (x & Hx & E). apply Z.eqb_eq in E. subst x. by apply elem_of_list_In.
    - intros H. exists n. split; [by apply elem_of_list_In|apply Z.eqb_refl].
  Qed.
  Lemma current_holds rm r s : d_rooms d !! rm = Some r -> d_snaps d !! rm_snap r = Some s -> holds_state (d_events d) rm (d_seq d) s.
  Proof using Hi.
    intros Hr Hs. destruct (iv_room _ _ Hi _ _ Hr) as [[[E _]|(_ & s' & Hs' & Hh)] _ _ _ _].
    - rewrite E in Hs. apply (iv_range _ _ Hi) in Hs. lia.
    - congruence.
  Qed.
  Lemma state_has_snap e : latest_state (d_events d) (e_room e) e -> exists r s, d_rooms d !! e_room e = Some r /\ d_snaps d !! rm_snap r = Some s.
  Proof using Hi.
    intros (He & _ & Hs & _). destruct (current_state_ok k d (e_room e) e Hi He eq_refl Hs) as (m & s & H1 & H2 & _). by exists m, s.
  Qed.
  Lemma in_members_spec e : e ∈ d_events d -> in_members d e = true <-> latest_state (d_events d) (e_room e) e /\ e_type e = "m.room.member".
  Proof using Hi.
    intros He. unfold in_members. rewrite existsb_exists. split.
    - intros (s & Hs & Hn). apply elem_of_list_In, in_current_snaps in Hs. destruct Hs as (rm & r & Hr & Hs). apply existsb_nid in Hn.
      destruct (current_holds _ _ _ Hr Hs) as (_ & _ & Hm & _). apply Hm in Hn. destruct Hn as (x & Hx & En & Et).
      assert (x = e) as ->. { apply (sorted_inj (d_events d)); [apply (bs_sorted _ (iv_base _ _ Hi))|by destruct Hx|done|done]. }
      apply (latest_newest d rm e (iv_base _ _ Hi)) in Hx. assert (e_room e = rm) as -> by (destruct Hx as (_ & ? & _); done). done.
    - intros (Hl & Et). destruct (state_has_snap e Hl) as (r & s & Hr & Hs). exists s. split.
      + apply elem_of_list_In, in_current_snaps. eauto.
      + apply existsb_nid. destruct (current_holds _ _ _ Hr Hs) as (_ & _ & Hm & _). apply Hm. exists e.
        split; [by apply (latest_newest d _ e (iv_base _ _ Hi))|done].
  Qed.
  Lemma in_others_spec e : e ∈ d_events d -> in_others d e = true <-> latest_state (d_events d) (e_room e) e /\ e_type e <> "m.room.member".
  Proof using Hi.
    intros He. unfold in_others. rewrite existsb_exists. split.
    - intros (s & Hs & Hn). apply elem_of_list_In, in_current_snaps in Hs. destruct Hs as (rm & r & Hr & Hs). apply existsb_nid in Hn.
      destruct (current_holds _ _ _ Hr Hs) as (_ & _ & _ & Hm). apply Hm in Hn. destruct Hn as (x & Hx & En & Et).
      assert (x = e) as ->. { apply (sorted_inj (d_events d)); [apply (bs_sorted _ (iv_base _ _ Hi))|by destruct Hx|done|done]. }
      apply (latest_newest d rm e (iv_base _ _ Hi)) in Hx. assert (e_room e = rm) as -> by (destruct Hx as (_ & ? & _); done). done.
    - intros (Hl & Et). destruct (state_has_snap e Hl) as (r & s & Hr & Hs). exists s. split.
      + apply elem_of_list_In, in_current_snaps. eauto.
      + apply existsb_nid. destruct (current_holds _ _ _ Hr Hs) as (_ & _ & _ & Hm). apply Hm. exists e.
        split; [by apply (latest_newest d _ e (iv_base _ _ Hi))|done].
  Qed.
End rows.

Lemma is_join_spec e : is_join e = true <-> is_in "join" e.
Proof. unfold is_join, is_in. by rewrite orb_true_iff, !String.eqb_eq. Qed.
Lemma is_invite_spec e : is_invite e = true <-> is_in "invite" e.
Proof. unfold is_invite, is_in. by rewrite orb_true_iff, !String.eqb_eq. Qed.
Lemma join_not_invite e : is_join e = true -> is_invite e = false.
Proof. unfold is_join, is_invite. intros H. apply orb_true_iff in H. rewrite !String.eqb_eq in H. destruct H as [-> | ->]; reflexivity. Qed.

(** The members by room. *)
Definition room_is (rm : string) (e : event) : bool := String.eqb (e_room e) rm.
Definition came (d : db) : list event := List.filter (fun e => in_members d e && (is_join e || is_invite e)) (d_events d).
Definition came_in (d : db) (rm : string) : list event := List.filter (room_is rm) (came d).
Lemma in_came d rm e : In e (came_in d rm) <-> In e (d_events d) /\ in_members d e = true /\ (is_join e = true \/ is_invite e = true) /\ e_room e = rm.
Proof.
  unfold came_in, came, room_is. rewrite !filter_In, andb_true_iff, orb_true_iff, String.eqb_eq. tauto.
Qed.
Definition gather1 (g : gathered) (e : event) : gathered :=
  if is_join e then Gathered (ga_joined g ++ [e_skey e]) (ga_invited g) (GlobalModel.circ_append 6 (ga_heroes g) (e_nid e))
  else if is_invite e then Gathered (ga_joined g) (ga_invited g + 1) (GlobalModel.circ_append 6 (ga_heroes g) (e_nid e))
  else g.
Lemma gather_room rm l : forall m,
  default no_members (fold_left gather_row l m !! rm) = fold_left gather1 (List.filter (room_is rm) l) (default no_members (m !! rm))
  /\ (is_Some (fold_left gather_row l m !! rm) <-> is_Some (m !! rm) \/ List.filter (room_is rm) l <> []).
Proof.
  induction l as [|e l IH]; intros m; [cbn; split; [done|]; tauto|]. cbn [fold_left List.filter]. destruct (IH (gather_row m e)) as (I1 & I2).
  rewrite I1, I2. unfold gather_row, room_is. destruct (String.eqb_spec (e_room e) rm) as [<-|N].
  - rewrite lookup_insert. split; [done|]. split; [intros _; by right|intros _; left; eauto].
  - rewrite lookup_insert_ne by done. done.
Qed.
Lemma gather1_fold l : Forall (fun e => is_join e = true \/ is_invite e = true) l ->
  let g := fold_left gather1 l no_members in
  ga_joined g = map e_skey (List.filter is_join l) /\ ga_invited g = Z.of_nat (length (List.filter is_invite l))
  /\ ga_heroes g = fold_left (GlobalModel.circ_append 6) (map e_nid l) ([], 0%nat).
Proof.
  cbn zeta. induction l as [|e l IH] using rev_ind; [done|]. intros [H He]%Forall_app. pose proof (proj1 (Forall_singleton _ _) He) as He2. clear He. rename He2 into He. cbn beta in He.
  destruct (IH H) as (I1 & I2 & I3). rewrite fold_left_app, !List.filter_app, !map_app, fold_left_app. cbn [fold_left List.filter map].
  set (g := fold_left gather1 l no_members) in *. unfold gather1. destruct (is_join e) eqn:Ej.
  - rewrite (join_not_invite _ Ej). cbn [ga_joined ga_invited ga_heroes]. rewrite I1, I2, I3, !app_nil_r. done.
  - assert (is_invite e = true) as -> by (clear -He Ej; intuition congruence). cbn [ga_joined ga_invited ga_heroes]. rewrite I1, I2, I3, !app_nil_r, app_length. cbn [length].
    split_and!; [done|lia|done].
Qed.
Lemma came_forall d rm : Forall (fun e => is_join e = true \/ is_invite e = true) (came_in d rm).
Proof. apply List.Forall_forall. intros e He. apply in_came in He. tauto. Qed.
Lemma gather_at d rm : default no_members (gather d !! rm) =
  Gathered (map e_skey (List.filter is_join (came_in d rm))) (Z.of_nat (length (List.filter is_invite (came_in d rm))))
    (fold_left (GlobalModel.circ_append 6) (map e_nid (came_in d rm)) ([], 0%nat)).
Proof.
  unfold gather. destruct (gather_room rm (came d) ∅) as (E & _). fold (came d). rewrite E. rewrite lookup_empty. cbn [default from_option].
  destruct (gather1_fold _ (came_forall d rm)) as (I1 & I2 & I3). fold (came_in d rm). destruct (fold_left gather1 (came_in d rm) no_members).
  cbn in *. congruence.
Qed.
Lemma gather_some d rm : is_Some (gather d !! rm) <-> came_in d rm <> [].
Proof.
  unfold gather. destruct (gather_room rm (came d) ∅) as (_ & E). fold (came d). rewrite E, lookup_empty. fold (came_in d rm).
  split; [intros [H|H]; [by destruct H|done]|by right].
Qed.

(** The heroes which are selected. *)
Lemma filter_drop_nids {A} (f : A -> Z) (P : A -> bool) l : forall k, List.NoDup (map f l) ->
  List.filter (fun x => existsb (Z.eqb (f x)) (map f (drop k (List.filter P l)))) l = drop k (List.filter P l).
Proof.
  induction l as [|x l IH]; intros n ND; [cbn [List.filter]; by rewrite drop_nil|]. cbn [map] in ND. apply NoDup_cons_iff in ND. destruct ND as (N & ND).
  assert (forall j, existsb (Z.eqb (f x)) (map f (drop j (List.filter P l))) = false) as Hx.
  { intros j. apply not_true_iff_false. rewrite existsb_nid. intros X. apply N. apply elem_of_list_In, in_map_iff in X.
    destruct X as (y & E & Hy). rewrite <- E. apply in_map. apply filter_In with (f := P). rewrite <- (take_drop j (List.filter P l)). apply in_or_app. by right. }
  cbn [List.filter]. destruct (P x) eqn:Ep.
  - destruct n as [|n].
    + cbn [drop map existsb]. rewrite Z.eqb_refl. cbn [orb]. f_equal. transitivity (List.filter (fun y => existsb (Z.eqb (f y)) (map f (drop 0 (List.filter P l)))) l); [|exact (IH 0%nat ND)].
      cbn [drop]. apply filter_ext_in.
      intros y Hy. cbn [existsb]. destruct (Z.eqb_spec (f y) (f x)) as [E|E]; [|done]. exfalso. apply N. rewrite <- E. by apply in_map.
    + cbn [drop]. rewrite Hx. by apply IH.
  - rewrite Hx. by apply IH.
Qed.
Lemma circ_nids (l : list Z) n : n ∈ (fold_left (GlobalModel.circ_append 6) l ([], 0%nat)).1 <-> n ∈ GlobalSpec.last_n 6 l.
Proof. by rewrite (GlobalProofs.circ_permutation 6 l) by lia. Qed.

Section heroes.
  Context (k : bool) (d : db) (Hi : Inv k d).
  Lemma nodup_nids : List.NoDup (map e_nid (d_events d)).
  Proof using Hi. apply NoDup_ListNoDup. apply sorted_nodup. apply (bs_sorted _ (iv_base _ _ Hi)). Qed.
  Lemma came_in_events rm e : In e (came_in d rm) -> e ∈ d_events d /\ e_room e = rm.
  Proof using. intros H. apply in_came in H. split; [apply elem_of_list_In|]; tauto. Qed.
  Lemma vals_in rm n : n ∈ fst (ga_heroes (default no_members (gather d !! rm))) <-> n ∈ map e_nid (GlobalSpec.last_n 6 (came_in d rm)).
  Proof using. rewrite gather_at. cbn [ga_heroes]. rewrite circ_nids, GlobalProofs.last_n_map. done. Qed.
  Lemma hero_nid_in n : n ∈ all_hero_nids (gather d) <-> exists rm, n ∈ map e_nid (GlobalSpec.last_n 6 (came_in d rm)).
  Proof using.
    unfold all_hero_nids. rewrite elem_of_list_In, in_concat. split.
    - intros (l & Hl & Hn). apply in_map_iff in Hl. destruct Hl as ((rm & g) & <- & Hg). apply elem_of_list_In, elem_of_map_to_list in Hg.
      exists rm. apply vals_in. rewrite Hg. by apply elem_of_list_In.
    - intros (rm & Hn). apply vals_in in Hn. destruct (gather d !! rm) as [g|] eqn:Eg.
      + exists (fst (ga_heroes g)). split; [|by apply elem_of_list_In]. apply in_map_iff. exists (rm, g). split; [done|].
        by apply elem_of_list_In, elem_of_map_to_list.
      + by apply elem_of_nil in Hn.
  Qed.
  Lemma hero_nids_nodup : NoDup (all_hero_nids (gather d)).
  Proof using Hi.
    unfold all_hero_nids.
    assert (forall l : list (string * gathered), NoDup l.*1 -> (forall rm g, (rm, g) ∈ l -> gather d !! rm = Some g) ->
      NoDup (concat (map (fun kv : string * gathered => fst (ga_heroes (snd kv))) l))) as Gen.
    { induction l as [|(rm & g) l IH]; intros ND Hg; [constructor|]. cbn [map concat snd]. apply NoDup_cons in ND. destruct ND as (N & ND).
      apply NoDup_app. split_and!.
      - assert (fst (ga_heroes g) = fst (ga_heroes (default no_members (gather d !! rm)))) as -> by (rewrite (Hg rm g); [done|apply elem_of_list_here]).
        rewrite gather_at. cbn [ga_heroes]. rewrite (GlobalProofs.circ_permutation 6) by lia. apply NoDup_ListNoDup.
        unfold GlobalSpec.last_n. apply GlobalProofs.nodup_drop.
        unfold came_in, came. apply NoDup_ListNoDup. apply sorted_nodup, sorted_filter, sorted_filter. apply (bs_sorted _ (iv_base _ _ Hi)).
      - intros n Hn Hn2. apply elem_of_list_In, in_concat in Hn2. destruct Hn2 as (l' & Hl' & Hn2). apply in_map_iff in Hl'.
        destruct Hl' as ((rm2 & g2) & <- & Hg2). apply elem_of_list_In in Hg2. cbn [snd] in *.
        assert (n ∈ map e_nid (GlobalSpec.last_n 6 (came_in d rm))) as H1 by (apply vals_in; rewrite (Hg rm g); [done|apply elem_of_list_here]).
        assert (n ∈ map e_nid (GlobalSpec.last_n 6 (came_in d rm2))) as H2.
        { apply vals_in. rewrite (Hg rm2 g2); [by apply elem_of_list_In|by apply elem_of_list_further]. }
        apply elem_of_list_In, in_map_iff in H1, H2. destruct H1 as (a & Ea & Ha). destruct H2 as (b & Eb & Hb).
        apply GlobalProofs.last_n_sub, came_in_events in Ha, Hb. destruct Ha as (Ha & Ra), Hb as (Hb & Rb).
        assert (a = b) as -> by (apply (sorted_inj (d_events d)); [apply (bs_sorted _ (iv_base _ _ Hi))|done|done|congruence]).
        apply N. assert (rm2 = rm) as -> by congruence. apply elem_of_list_fmap. by exists (rm, g2).
      - apply IH; [done|]. intros rm' g' H'. apply Hg. by apply elem_of_list_further. }
    apply Gen; [apply NoDup_fst_map_to_list|]. intros rm g H. by apply elem_of_map_to_list.
  Qed.
  Definition hero_rows : list event := List.filter (fun e => existsb (Z.eqb (e_nid e)) (all_hero_nids (gather d))) (d_events d).
  Lemma select_heroes : select_nids d (all_hero_nids (gather d)) = Ok hero_rows.
  Proof using Hi.
    unfold select_nids. fold hero_rows. assert (length hero_rows = length (all_hero_nids (gather d))) as ->.
    { rewrite <- (map_length e_nid hero_rows). apply Permutation_length. apply NoDup_Permutation.
      - apply sorted_nodup, sorted_filter. apply (bs_sorted _ (iv_base _ _ Hi)).
      - apply hero_nids_nodup.
      - intros n. rewrite elem_of_list_In, in_map_iff. split.
        + intros (e & <- & He). apply filter_In in He. destruct He as (_ & He). by apply existsb_nid.
        + intros Hn. pose proof Hn as Hn2. apply hero_nid_in in Hn. destruct Hn as (rm & Hn). apply elem_of_list_In, in_map_iff in Hn.
          destruct Hn as (e & <- & He). exists e. split; [done|]. apply filter_In. apply GlobalProofs.last_n_sub, came_in_events in He. destruct He as (He & _).
          split; [by apply elem_of_list_In|by apply existsb_nid]. }
    by rewrite Nat.eqb_refl, orb_true_r.
  Qed.
  Lemma hero_rows_room rm : List.filter (room_is rm) hero_rows = GlobalSpec.last_n 6 (came_in d rm).
  Proof using Hi.
    assert (came_in d rm = List.filter (fun e => room_is rm e && (in_members d e && (is_join e || is_invite e))) (d_events d)) as E.
    { unfold came_in, came. generalize (d_events d). clear. induction l as [|e l IH]; [done|]. cbn [List.filter].
      destruct (in_members d e && _) eqn:E1; cbn [List.filter]; rewrite ?andb_true_r, ?andb_false_r; [|done]. by rewrite IH. }
    unfold GlobalSpec.last_n. rewrite E at 2. rewrite <- (filter_drop_nids e_nid _ (d_events d) _ nodup_nids). rewrite <- E.
    change (drop (length (came_in d rm) - 6) (came_in d rm)) with (GlobalSpec.last_n 6 (came_in d rm)). unfold hero_rows.
    assert (forall e, In e (d_events d) -> (existsb (Z.eqb (e_nid e)) (all_hero_nids (gather d)) && room_is rm e)
      = existsb (Z.eqb (e_nid e)) (map e_nid (GlobalSpec.last_n 6 (came_in d rm)))) as Ext.
    { intros e He. apply eq_true_iff_eq. rewrite andb_true_iff, !existsb_nid, hero_nid_in. unfold room_is. rewrite String.eqb_eq. split.
      - intros ((rm2 & Hn) & <-). apply elem_of_list_In, in_map_iff in Hn. destruct Hn as (x & Ex & Hx).
        pose proof Hx as Hx2. apply GlobalProofs.last_n_sub, came_in_events in Hx2. destruct Hx2 as (Hx2 & Hr).
        assert (x = e) as -> by (apply (sorted_inj (d_events d)); [apply (bs_sorted _ (iv_base _ _ Hi))|done|by apply elem_of_list_In|done]).
        rewrite Hr. apply elem_of_list_In, in_map_iff. by exists e.
      - intros Hn. split; [by exists rm|]. apply elem_of_list_In, in_map_iff in Hn. destruct Hn as (x & Ex & Hx).
        apply GlobalProofs.last_n_sub, came_in_events in Hx. destruct Hx as (Hx & Hr).
        assert (x = e) as -> by (apply (sorted_inj (d_events d)); [apply (bs_sorted _ (iv_base _ _ Hi))|done|by apply elem_of_list_In|done]). done. }
    revert Ext. generalize (map e_nid (GlobalSpec.last_n 6 (came_in d rm))) (all_hero_nids (gather d)). generalize (d_events d). clear.
    intros l N1 N2 Ext. induction l as [|e l IH]; [done|]. cbn [List.filter].
    rewrite <- (Ext e (or_introl eq_refl)). rewrite <- IH by (intros x Hx; apply Ext; by right).
    destruct (existsb (Z.eqb (e_nid e)) N2); cbn [andb List.filter]; done.
  Qed.
End heroes.

(** Folds which change one room at a time. *)
Section fold.
  Context (f : room_meta -> event -> room_meta).
  Definition at_room (m : gmap string room_meta) (e : event) : gmap string room_meta := <[e_room e := f (load_meta m (e_room e)) e]> m.
  Lemma fold_room rm l : forall m,
    load_meta (fold_left at_room l m) rm = fold_left f (List.filter (room_is rm) l) (load_meta m rm)
    /\ (is_Some (fold_left at_room l m !! rm) <-> is_Some (m !! rm) \/ List.filter (room_is rm) l <> []).
  Proof using.
    induction l as [|e l IH]; intros m; [split; [done|]; cbn; tauto|]. cbn [fold_left List.filter]. destruct (IH (at_room m e)) as (I1 & I2).
    rewrite I1, I2. unfold at_room, room_is. destruct (String.eqb_spec (e_room e) rm) as [<-|N].
    - unfold load_meta. rewrite lookup_insert. split; [done|]. split; [intros _; by right|intros _; left; eauto].
    - unfold load_meta. rewrite lookup_insert_ne by done. done.
  Qed.
End fold.
Lemma filter_perm {A} (f : A -> bool) l1 l2 : l1 ≡ₚ l2 -> List.filter f l1 ≡ₚ List.filter f l2.
Proof.
  induction 1 as [|x l1 l2 H IH|x y l|l1 l2 l3 H1 IH1 H2 IH2]; cbn [List.filter].
  - done.
  - destruct (f x); [by constructor|done].
  - destruct (f x), (f y); try done. constructor.
  - by transitivity (List.filter f l2).
Qed.
Lemma map_filter_nodup {A B} (g : A -> B) (f : A -> bool) l : List.NoDup (map g l) -> List.NoDup (map g (List.filter f l)).
Proof.
  induction l as [|x l IH]; [done|]. cbn [map]. intros (N & ND)%NoDup_cons_iff. cbn [List.filter]. destruct (f x); [|by apply IH].
  cbn [map]. constructor; [|by apply IH]. intros X. apply N. apply in_map_iff in X. destruct X as (y & <- & Hy). apply in_map.
  apply filter_In in Hy. apply Hy.
Qed.

Section fields.
  Context (c_name c_url c_alias c_display c_avatar : raw -> string) (c_ts : raw -> Z) (any : list event -> list event).
  Context (k : bool) (d : db) (Hi : Inv k d) (Hany : any_ok any).

  (** The latest events. *)
  Definition latest1 (md : room_meta) (e : event) : room_meta :=
    GlobalModel.set_latest md (if m_last_ts md <? c_ts (e_json e) then c_ts (e_json e) else m_last_ts md)
      (<[default "" (r_type (e_json e)) := (e_nid e, c_ts (e_json e))]> (m_latest md)).
  Definition name1 (md : room_meta) (e : event) : room_meta :=
    if String.eqb (e_skey e) "" then
      if String.eqb (e_type e) "m.room.name" then GlobalModel.set_name md (c_name (e_json e))
      else if String.eqb (e_type e) "m.room.canonical_alias" then GlobalModel.set_alias md (c_alias (e_json e))
      else if String.eqb (e_type e) "m.room.avatar" then GlobalModel.set_avatar md (c_url (e_json e))
      else md
    else md.
  Lemma latest_step_at m e : latest_step c_ts m e = at_room latest1 m e.
  Proof using. done. Qed.
  Lemma name_step_at m e : name_step c_name c_url c_alias m e = at_room name1 m e.
  Proof using. done. Qed.

  (** Fields which the two folds do not touch. *)
  Definition rest (md : room_meta) := (m_room md, m_heroes md, m_join md, m_invite md, m_encrypted md, m_predecessor md, m_upgraded md, m_type md, m_children md).
  Lemma latest1_rest l : forall md, rest (fold_left latest1 l md) = rest md /\ m_name (fold_left latest1 l md) = m_name md
    /\ m_avatar (fold_left latest1 l md) = m_avatar md /\ m_alias (fold_left latest1 l md) = m_alias md.
  Proof using. induction l as [|e l IH]; intros md; [done|]. cbn [fold_left]. destruct (IH (latest1 md e)) as (-> & -> & -> & ->). done. Qed.
  Lemma name1_rest l : forall md, rest (fold_left name1 l md) = rest md /\ m_last_ts (fold_left name1 l md) = m_last_ts md
    /\ m_latest (fold_left name1 l md) = m_latest md.
  Proof using.
    induction l as [|e l IH]; intros md; [done|]. cbn [fold_left]. destruct (IH (name1 md e)) as (-> & -> & ->). unfold name1.
    destruct (String.eqb (e_skey e) ""); [|done]. destruct (String.eqb (e_type e) "m.room.name"); [done|].
    destruct (String.eqb (e_type e) "m.room.canonical_alias"); [done|]. by destruct (String.eqb (e_type e) "m.room.avatar").
  Qed.
  Lemma latest1_types l : (forall e, In e l -> r_type (e_json e) = Some (e_type e)) -> List.NoDup (map e_type l) -> forall md ty,
    (forall e, In e l -> e_type e = ty -> m_latest (fold_left latest1 l md) !! ty = Some (e_nid e, c_ts (e_json e)))
    /\ ((forall e, In e l -> e_type e <> ty) -> m_latest (fold_left latest1 l md) !! ty = m_latest md !! ty).
  Proof using.
    induction l as [|x l IH]; intros HT ND md ty; [done|]. cbn [map] in ND. apply NoDup_cons_iff in ND. destruct ND as (N & ND).
    cbn [fold_left]. destruct (IH (fun e He => HT e (or_intror He)) ND (latest1 md x) ty) as (I1 & I2). split.
    - intros e [<-|He] Et; [|by apply I1]. rewrite I2.
      + unfold latest1. cbn [GlobalModel.set_latest m_latest]. rewrite (HT x (or_introl eq_refl)). cbn [default from_option id]. rewrite Et. by rewrite lookup_insert.
      + intros e He E. apply N. rewrite Et, <- E. by apply in_map.
    - intros HN. rewrite I2 by (intros e He; apply HN; by right). unfold latest1. cbn [GlobalModel.set_latest m_latest].
      rewrite (HT x (or_introl eq_refl)). cbn [default from_option id]. rewrite lookup_insert_ne; [done|]. apply HN. by left.
  Qed.
  Lemma latest1_ts l : forall md, (forall e, In e l -> c_ts (e_json e) <= m_last_ts (fold_left latest1 l md)) /\ m_last_ts md <= m_last_ts (fold_left latest1 l md)
    /\ (m_last_ts (fold_left latest1 l md) = m_last_ts md \/ exists e, In e l /\ c_ts (e_json e) = m_last_ts (fold_left latest1 l md)).
  Proof using.
    induction l as [|x l IH]; intros md; [split_and!; [done|cbn; lia|by left]|]. cbn [fold_left]. destruct (IH (latest1 md x)) as (I1 & I2 & I3).
    assert (m_last_ts md <= m_last_ts (latest1 md x) /\ c_ts (e_json x) <= m_last_ts (latest1 md x)
      /\ (m_last_ts (latest1 md x) = m_last_ts md \/ m_last_ts (latest1 md x) = c_ts (e_json x))) as (H1 & H2 & H3).
    { unfold latest1. cbn [GlobalModel.set_latest m_last_ts]. destruct (Z.ltb_spec (m_last_ts md) (c_ts (e_json x))); lia. }
    split_and!.
    - intros e [<-|He]; [lia|by apply I1].
    - lia.
    - destruct I3 as [E|(e & He & E)]; [|right; exists e; split; [by right|done]].
      rewrite E. destruct H3 as [H3|H3]; [by left|]. right. exists x. split; [by left|lia].
  Qed.
  Lemma name1_fields l : List.NoDup (map ekey l) -> forall md,
    (forall e, In e l -> e_skey e = "" -> e_type e = "m.room.name" -> m_name (fold_left name1 l md) = c_name (e_json e))
    /\ ((forall e, In e l -> e_skey e = "" -> e_type e <> "m.room.name") -> m_name (fold_left name1 l md) = m_name md)
    /\ (forall e, In e l -> e_skey e = "" -> e_type e = "m.room.canonical_alias" -> m_alias (fold_left name1 l md) = c_alias (e_json e))
    /\ ((forall e, In e l -> e_skey e = "" -> e_type e <> "m.room.canonical_alias") -> m_alias (fold_left name1 l md) = m_alias md)
    /\ (forall e, In e l -> e_skey e = "" -> e_type e = "m.room.avatar" -> m_avatar (fold_left name1 l md) = c_url (e_json e))
    /\ ((forall e, In e l -> e_skey e = "" -> e_type e <> "m.room.avatar") -> m_avatar (fold_left name1 l md) = m_avatar md).
  Proof using.
    induction l as [|x l IH]; intros ND md; [done|]. cbn [map] in ND. apply NoDup_cons_iff in ND. destruct ND as (N & ND).
    cbn [fold_left]. destruct (IH ND (name1 md x)) as (I1 & I2 & I3 & I4 & I5 & I6).
    assert (forall e, In e l -> e_skey e = e_skey x -> e_type e <> e_type x) as Nx.
    { intros e He Ek Et. apply N. apply in_map_iff. exists e. split; [|done]. unfold ekey. congruence. }
    split_and!.
    - intros e [<-|He] Ek Et; [|by apply (I1 e)]. rewrite I2 by (intros e He Ek2; rewrite <- Et; apply Nx; congruence).
      unfold name1. by rewrite Ek, Et.
    - intros HN. rewrite I2 by (intros e He; apply HN; by right). unfold name1. destruct (String.eqb_spec (e_skey x) "") as [Ek|Ek]; [|done].
      destruct (String.eqb_spec (e_type x) "m.room.name") as [Et|Et]; [by destruct (HN x (or_introl eq_refl) Ek)|].
      destruct (String.eqb (e_type x) "m.room.canonical_alias"); [done|]. by destruct (String.eqb (e_type x) "m.room.avatar").
    - intros e [<-|He] Ek Et; [|by apply (I3 e)]. rewrite I4 by (intros e He Ek2; rewrite <- Et; apply Nx; congruence).
      unfold name1. by rewrite Ek, Et.
    - intros HN. rewrite I4 by (intros e He; apply HN; by right). unfold name1. destruct (String.eqb_spec (e_skey x) "") as [Ek|Ek]; [|done].
      destruct (String.eqb (e_type x) "m.room.name"); [done|].
      destruct (String.eqb_spec (e_type x) "m.room.canonical_alias") as [Et|Et]; [by destruct (HN x (or_introl eq_refl) Ek)|].
      by destruct (String.eqb (e_type x) "m.room.avatar").
    - intros e [<-|He] Ek Et; [|by apply (I5 e)]. rewrite I6 by (intros e He Ek2; rewrite <- Et; apply Nx; congruence).
      unfold name1. by rewrite Ek, Et.
    - intros HN. rewrite I6 by (intros e He; apply HN; by right). unfold name1. destruct (String.eqb_spec (e_skey x) "") as [Ek|Ek]; [|done].
      destruct (String.eqb (e_type x) "m.room.name"); [done|]. destruct (String.eqb (e_type x) "m.room.canonical_alias"); [done|].
      destruct (String.eqb_spec (e_type x) "m.room.avatar") as [Et|Et]; [by destruct (HN x (or_introl eq_refl) Ek)|done].
  Qed.

  (** The rows of a room. *)
  Definition latest_in (rm : string) : list event := List.filter (room_is rm) (any (latest_rows d)).
  Definition names_in (rm : string) : list event := List.filter (room_is rm) (any (name_rows d)).
  Lemma in_latest_in rm r e : d_rooms d !! rm = Some r -> In e (latest_in rm) <-> latest_of_type d rm (e_type e) e.
  Proof using Hany.
    intros Hr. unfold latest_in. rewrite filter_In, (Hany (latest_rows d)). unfold room_is, latest_rows. rewrite filter_In, String.eqb_eq, andb_true_iff, forallb_forall.
    unfold latest_of_type. rewrite elem_of_list_In. split.
    - intros ((He & (_ & HA)) & <-). split_and!; try done. intros x Hx Rx Tx. apply elem_of_list_In, HA in Hx. rewrite Rx, Tx, !String.eqb_refl in Hx. cbn in Hx. lia.
    - intros (He & Er & _ & HA). split; [|done]. split; [done|]. rewrite Er, Hr. split; [done|]. intros x Hx.
      destruct (String.eqb_spec (e_room x) rm) as [Rx|]; [|done]. destruct (String.eqb_spec (e_type x) (e_type e)) as [Tx|]; [|done]. cbn.
      apply Z.leb_le. apply HA; [by apply elem_of_list_In|done|done].
  Qed.
  Lemma any_nodup_nids l : List.NoDup (map e_nid l) -> List.NoDup (map e_nid (any l)).
  Proof using Hany. intros H. eapply Permutation_NoDup; [|exact H]. apply Permutation_map. symmetry. apply Hany. Qed.
  Lemma latest_in_types rm r : d_rooms d !! rm = Some r -> List.NoDup (map e_type (latest_in rm)).
  Proof using Hi Hany.
    intros Hr.
    assert (forall a b, In a (latest_in rm) -> In b (latest_in rm) -> e_type a = e_type b -> e_nid a = e_nid b) as Inj.
    { intros a b Ha Hb E. apply (in_latest_in rm r a Hr) in Ha. apply (in_latest_in rm r b Hr) in Hb.
      destruct Ha as (Ha & Ra & _ & HA). destruct Hb as (Hb & Rb & _ & HB). specialize (HA b Hb Rb (eq_sym E)). specialize (HB a Ha Ra E). lia. }
    assert (List.NoDup (map e_nid (latest_in rm))) as ND.
    { unfold latest_in. apply map_filter_nodup. apply any_nodup_nids. unfold latest_rows. apply map_filter_nodup. apply (nodup_nids k d Hi). }
    revert Inj ND. generalize (latest_in rm). clear. induction l as [|x l IH]; intros Inj ND; [constructor|].
    cbn [map] in *. apply NoDup_cons_iff in ND. destruct ND as (N & ND). constructor.
    - intros X. apply in_map_iff in X. destruct X as (y & E & Hy). apply N. rewrite (Inj x y); [by apply in_map|by left|by right|done].
    - apply IH; [|done]. intros a b Ha Hb. apply Inj; by right.
  Qed.
  Lemma in_names_in rm e : In e (names_in rm) <-> latest_state (d_events d) rm e /\ (e_type e = "m.room.name" \/ e_type e = "m.room.canonical_alias" \/ e_type e = "m.room.avatar").
  Proof using Hi Hany.
    unfold names_in. rewrite filter_In, (Hany (name_rows d)). unfold room_is, name_rows. rewrite filter_In, String.eqb_eq, andb_true_iff, !orb_true_iff, !String.eqb_eq. split.
    - intros ((He & (Ht & Ho)) & <-). apply (in_others_spec k d Hi) in Ho; [|by apply elem_of_list_In]. tauto.
    - intros (Hl & Ht). assert (e_room e = rm) as <- by (destruct Hl as (_ & ? & _); done). split; [|done].
      assert (e ∈ d_events d) as He by (by destruct Hl). split; [by apply elem_of_list_In|]. split; [tauto|].
      apply (in_others_spec k d Hi); [done|]. split; [done|]. intros X. rewrite X in Ht. destruct Ht as [?|[?|?]]; done.
  Qed.
  Lemma names_in_keys rm : List.NoDup (map ekey (names_in rm)).
  Proof using Hi Hany.
    assert (forall a b, In a (names_in rm) -> In b (names_in rm) -> ekey a = ekey b -> e_nid a = e_nid b) as Inj.
    { intros a b Ha Hb E. apply in_names_in in Ha, Hb. destruct Ha as ((Ha & Ra & Sa & HA) & _). destruct Hb as ((Hb & Rb & Sb & HB) & _).
      specialize (HA b Hb Rb Sb (eq_sym E)). specialize (HB a Ha Ra Sa E). lia. }
    assert (List.NoDup (map e_nid (names_in rm))) as ND.
    { unfold names_in. apply map_filter_nodup. apply any_nodup_nids. unfold name_rows. apply map_filter_nodup. apply (nodup_nids k d Hi). }
    revert Inj ND. generalize (names_in rm). clear. induction l as [|x l IH]; intros Inj ND; [constructor|].
    cbn [map] in *. apply NoDup_cons_iff in ND. destruct ND as (N & ND). constructor.
    - intros X. apply in_map_iff in X. destruct X as (y & E & Hy). apply N. rewrite (Inj x y); [by apply in_map|by left|by right|done].
    - apply IH; [|done]. intros a b Ha Hb. apply Inj; by right.
  Qed.

  (** The rooms table. *)
  Definition info1 (r : room) (md : room_meta) : room_meta :=
    mk_meta (m_room md) (m_heroes md) (m_name md) (m_avatar md) (m_alias md) (m_join md) (m_invite md) (m_last_ts md) (m_latest md)
      (rm_enc r) (rm_pred r) (rm_upgraded r) (rm_type r) (m_children md).
  Lemma infos_at l : NoDup l.*1 -> forall m rm,
    (forall r, (rm, r) ∈ l -> fold_left info_row l m !! rm = Some (info1 r (load_meta m rm)))
    /\ (rm ∉ l.*1 -> fold_left info_row l m !! rm = m !! rm).
  Proof using.
    induction l as [|(rm0 & r0) l IH]; intros ND m rm; [split; [intros r H; by apply elem_of_nil in H|done]|].
    cbn [fold_left]. apply NoDup_cons in ND. destruct ND as (N & ND). destruct (IH ND (info_row m (rm0, r0)) rm) as (I1 & I2). split.
    - intros r [E|H]%elem_of_cons.
      + injection E as <- <-. rewrite I2 by done. unfold info_row. by rewrite lookup_insert.
      + rewrite (I1 r H). unfold info_row, load_meta. rewrite lookup_insert_ne; [done|]. intros ->. apply N. apply elem_of_list_fmap. by exists (rm, r).
    - intros HN. cbn in HN. apply not_elem_of_cons in HN. destruct HN as (HN1 & HN2). rewrite I2 by done. unfold info_row. by rewrite lookup_insert_ne.
  Qed.
  (** The children. *)
  Definition child_set (rm : string) : gset string := list_to_set (map fst (List.filter (fun r : string * Z => (snd r) =? 2) (relations_of d rm))).
  Lemma in_child_set rm c : c ∈ child_set rm <-> is_Some (d_spaces d !! (rm, c, 2)).
  Proof using.
    unfold child_set. rewrite elem_of_list_to_set, elem_of_list_In, in_map_iff. split.
    - intros ((c' & rel) & <- & H). apply filter_In in H. destruct H as (H & E). cbn [snd fst] in *. apply Z.eqb_eq in E. subst rel.
      apply elem_of_list_In in H. unfold relations_of in H. apply elem_of_list_omap in H. destruct H as ((((p & c2) & rel) & sp) & H & E). cbn [fst] in E.
      apply elem_of_map_to_list in H. destruct (String.eqb_spec p rm) as [->|]; [|done]. injection E as -> ->. by exists sp.
    - intros (sp & H). exists (c, 2). split; [done|]. apply filter_In. split; [|done]. apply elem_of_list_In. unfold relations_of. apply elem_of_list_omap.
      exists ((rm, c, 2), sp). split; [by apply elem_of_map_to_list|]. cbn [fst]. by rewrite String.eqb_refl.
  Qed.
  Lemma children_at l : NoDup l -> forall m rm,
    (forall md, rm ∈ l -> m !! rm = Some md -> fold_left (child_step d) l m !! rm =
       Some (match relations_of d rm with [] => md | _ => GlobalModel.set_children md (child_set rm) end))
    /\ (rm ∉ l -> fold_left (child_step d) l m !! rm = m !! rm).
  Proof using.
    assert (forall m rm0 rm, rm0 <> rm -> child_step d m rm0 !! rm = m !! rm) as Ne.
    { intros m rm0 rm N. unfold child_step. destruct (relations_of d rm0); [done|]. destruct (m !! rm0); [|done]. by rewrite lookup_insert_ne. }
    induction l as [|rm0 l IH]; intros ND m rm; [split; [intros md H; by apply elem_of_nil in H|done]|].
    cbn [fold_left]. apply NoDup_cons in ND. destruct ND as (N & ND). destruct (IH ND (child_step d m rm0) rm) as (I1 & I2). split.
    - intros md [<-|H]%elem_of_cons Hm.
      + rewrite I2 by done. unfold child_step. unfold child_set. destruct (relations_of d rm) as [|x rels] eqn:E; [done|]. rewrite Hm. by rewrite lookup_insert.
      + apply (I1 md H). rewrite Ne; [done|]. intros ->. done.
    - intros HN. apply not_elem_of_cons in HN. destruct HN as (HN1 & HN2). rewrite I2 by done. by apply Ne.
  Qed.

  (** Everything about a room. *)
  Definition base_meta (rm : string) : room_meta :=
    match List.filter is_join (came_in d rm) with
    | [] => new_meta rm
    | js => mk_meta rm (map (fun e => mk_hero (e_skey e) (c_display (e_json e)) (c_avatar (e_json e))) (reverse (GlobalSpec.last_n 6 (came_in d rm))))
              "" "" "" (Z.of_nat (length js)) (Z.of_nat (length (List.filter is_invite (came_in d rm)))) 0 ∅ false None None None ∅
    end.
  Lemma all_joined_at : exists joined m, all_joined c_display c_avatar d = Some (joined, m) /\ forall rm,
    default [] (joined !! rm) = map e_skey (List.filter is_join (came_in d rm)) /\ load_meta m rm = base_meta rm
    /\ (is_Some (m !! rm) -> List.filter is_join (came_in d rm) <> []).
  Proof using Hi.
    unfold all_joined. rewrite (select_heroes k d Hi). do 2 eexists. split; [reflexivity|]. intros rm.
    pose proof (gather_at d rm) as Eg. unfold load_meta, base_meta. rewrite lookup_fmap, map_lookup_imap.
    destruct (gather d !! rm) as [g|] eqn:E.
    - cbn [default from_option id] in Eg. subst g. destruct (List.filter is_join (came_in d rm)) as [|x js] eqn:Ej.
      + assert (filter (fun kv : string * gathered => ga_joined (snd kv) <> []) (gather d) !! rm = None) as ->.
        { apply map_filter_lookup_None. right. intros g' Hg' X. rewrite E in Hg'. injection Hg' as <-. cbn in X. done. }
        cbn [fmap option_fmap option_map mbind option_bind default from_option]. split_and!; [done|done|]. intros (? & ?); done.
      + match goal with H : gather d !! rm = Some ?g |- _ =>
          assert (filter (fun kv : string * gathered => ga_joined (snd kv) <> []) (gather d) !! rm = Some g) as -> by (apply map_filter_lookup_Some; split; [done|cbn; done]) end.
        cbn [fmap option_fmap option_map mbind option_bind default from_option id ga_joined ga_invited]. split_and!; [done| |done].
        unfold heroes_of. rewrite <- (hero_rows_room k d Hi rm). by rewrite map_length.
    - assert (filter (fun kv : string * gathered => ga_joined (snd kv) <> []) (gather d) !! rm = None) as ->.
      { apply map_filter_lookup_None. by left. }
      assert (came_in d rm = []) as ->.
      { destruct (came_in d rm) eqn:E2; [done|]. assert (is_Some (gather d !! rm)) as X by (apply gather_some; by rewrite E2). rewrite E in X. by destruct X. }
      cbn. split_and!; [done|done|]. intros (? & ?); done.
  Qed.
  Lemma no_room_no_meta joined m0 rm : all_joined c_display c_avatar d = Some (joined, m0) -> d_rooms d !! rm = None ->
    metadata_for_all c_name c_url c_alias c_ts any d m0 !! rm = None.
  Proof using Hi Hany.
    intros E Hn. destruct all_joined_at as (joined' & m' & E' & HA). rewrite E in E'. injection E' as <- <-. destruct (HA rm) as (_ & _ & HS).
    assert (forall e, In e (d_events d) -> room_is rm e = false) as Nr.
    { intros e He. unfold room_is. apply String.eqb_neq. destruct (iv_noroom _ _ Hi rm Hn) as (N & _). apply N. by apply elem_of_list_In. }
    assert (forall l, (forall e, In e l -> In e (d_events d)) -> List.filter (room_is rm) l = []) as Nl.
    { intros l Hl. induction l as [|x l IH]; [done|]. cbn [List.filter]. rewrite Nr by (apply Hl; by left). apply IH. intros e He. apply Hl. by right. }
    assert (m0 !! rm = None) as N0.
    { destruct (m0 !! rm) as [md|] eqn:Em; [|done]. destruct (HS (ex_intro _ md eq_refl)). unfold came_in. rewrite Nl; [done|].
      intros e He. unfold came in He. apply filter_In in He. apply He. }
    unfold metadata_for_all.
    change (fold_left (latest_step c_ts)) with (fold_left (at_room latest1)).
    change (fold_left (name_step c_name c_url c_alias)) with (fold_left (at_room name1)).
    destruct (fold_room latest1 rm (any (latest_rows d)) m0) as (_ & L1).
    set (m1 := fold_left (at_room latest1) (any (latest_rows d)) m0) in *.
    destruct (fold_room name1 rm (any (name_rows d)) m1) as (_ & L2).
    set (m2 := fold_left (at_room name1) (any (name_rows d)) m1) in *.
    assert (m1 !! rm = None) as N1.
    { apply eq_None_not_Some. rewrite L1, N0, Nl; [intros [X|X]; [by destruct X|done]|].
      intros e He. rewrite (Hany (latest_rows d)) in He. apply filter_In in He. apply He. }
    assert (m2 !! rm = None) as N2.
    { apply eq_None_not_Some. rewrite L2, N1, Nl; [intros [X|X]; [by destruct X|done]|].
      intros e He. rewrite (Hany (name_rows d)) in He. apply filter_In in He. apply He. }
    assert (rm ∉ (map_to_list (d_rooms d)).*1) as Nk.
    { intros X. apply elem_of_list_fmap in X. destruct X as ((rm' & r) & E1 & X). cbn in E1. subst rm'. apply elem_of_map_to_list in X. congruence. }
    destruct (infos_at (map_to_list (d_rooms d)) (NoDup_fst_map_to_list _) m2 rm) as (_ & L3). specialize (L3 Nk). rewrite N2 in L3.
    assert (NoDup (map fst (List.filter (fun kv : string * room => is_space (snd kv)) (map_to_list (d_rooms d))))) as ND.
    { apply NoDup_ListNoDup, map_filter_nodup, NoDup_ListNoDup. apply NoDup_fst_map_to_list. }
    destruct (children_at _ ND (fold_left info_row (map_to_list (d_rooms d)) m2) rm) as (_ & C2). rewrite C2; [done|].
    intros X. apply Nk. apply elem_of_list_In, in_map_iff in X. destruct X as (kv & E1 & X). apply filter_In in X. apply elem_of_list_In, in_map_iff. exists kv. tauto.
  Qed.
  Lemma snapshot_at : exists joined m, global_snapshot c_name c_url c_alias c_display c_avatar c_ts any d = Some (joined, m) /\
    (forall rm, default [] (joined !! rm) = map e_skey (List.filter is_join (came_in d rm))) /\
    (forall rm r, d_rooms d !! rm = Some r -> exists md, m !! rm = Some md /\
       let md0 := fold_left name1 (names_in rm) (fold_left latest1 (latest_in rm) (base_meta rm)) in
       md = (if is_space r then match relations_of d rm with [] => info1 r md0 | _ => GlobalModel.set_children (info1 r md0) (child_set rm) end
             else info1 r md0)) /\
    (forall rm, d_rooms d !! rm = None -> m !! rm = None).
  Proof using Hi Hany.
    destruct all_joined_at as (joined & m0 & E & HA). unfold global_snapshot. rewrite E. do 2 eexists. split; [reflexivity|].
    split; [intros rm; by destruct (HA rm)|]. split; [|intros rm; by apply (no_room_no_meta joined)]. intros rm r Hr. destruct (HA rm) as (_ & HB & _).
    unfold metadata_for_all.
    change (fold_left (latest_step c_ts)) with (fold_left (at_room latest1)).
    change (fold_left (name_step c_name c_url c_alias)) with (fold_left (at_room name1)).
    destruct (fold_room latest1 rm (any (latest_rows d)) m0) as (L1 & _). fold (latest_in rm) in L1. rewrite HB in L1.
    set (m1 := fold_left (at_room latest1) (any (latest_rows d)) m0) in *.
    destruct (fold_room name1 rm (any (name_rows d)) m1) as (L2 & _). fold (names_in rm) in L2. rewrite L1 in L2.
    set (m2 := fold_left (at_room name1) (any (name_rows d)) m1) in *.
    destruct (infos_at (map_to_list (d_rooms d)) (NoDup_fst_map_to_list _) m2 rm) as (L3 & _).
    specialize (L3 r (proj2 (elem_of_map_to_list _ _ _) Hr)). rewrite L2 in L3.
    set (m3 := fold_left info_row (map_to_list (d_rooms d)) m2) in *.
    assert (NoDup (map fst (List.filter (fun kv : string * room => is_space (snd kv)) (map_to_list (d_rooms d))))) as ND.
    { apply NoDup_ListNoDup, map_filter_nodup, NoDup_ListNoDup. apply NoDup_fst_map_to_list. }
    destruct (children_at _ ND m3 rm) as (C1 & C2).
    assert (rm ∈ map fst (List.filter (fun kv : string * room => is_space (snd kv)) (map_to_list (d_rooms d))) <-> is_space r = true) as Hs.
    { rewrite elem_of_list_In, in_map_iff. split.
      - intros ((rm' & r') & E1 & H). cbn [fst] in E1. subst rm'. apply filter_In in H. destruct H as (H & Hs). apply elem_of_list_In, elem_of_map_to_list in H. cbn [snd] in Hs. change (d_rooms d !! rm = Some r') in H. rewrite Hr in H. injection H as <-. done.
      - intros Hs. exists (rm, r). split; [done|]. apply filter_In. split; [by apply elem_of_list_In, elem_of_map_to_list|done]. }
    destruct (is_space r).
    - rewrite (C1 _ (proj2 Hs eq_refl) L3). by eexists.
    - rewrite C2 by (rewrite Hs; done). rewrite L3. by eexists.
  Qed.
End fields.

(** An encryption event marks its room as encrypted. *)
Definition enc_row (e : event) : Prop := e_type e = "m.room.encryption" /\ e_skey e = "".
Definition marked (rooms : gmap string room) (l : list event) : Prop :=
  forall e, e ∈ l -> enc_row e -> exists r, rooms !! e_room e = Some r /\ rm_enc r = true.
Definition tags (l : list event) : list (string * string * string) := map (fun e => (e_room e, e_type e, e_skey e)) l.
Lemma marked_tags rooms l l' : tags l' = tags l -> marked rooms l -> marked rooms l'.
Proof.
  intros E H e He (Ht & Hk). assert ((e_room e, e_type e, e_skey e) ∈ tags l) as X.
  { rewrite <- E. apply elem_of_list_In, in_map_iff. exists e. split; [done|by apply elem_of_list_In]. }
  apply elem_of_list_In, in_map_iff in X. destruct X as (x & Ex & Hx). apply elem_of_list_In in Hx. injection Ex as E1 E2 E3.
  rewrite <- E1. apply H; [done|]. split; congruence.
Qed.
Lemma info_enc l : forall i, (i_enc i = true \/ exists e, e ∈ l /\ enc_row e) -> i_enc (fold_left info_step l i) = true.
Proof.
  assert (forall i e, i_enc (info_step i e) = (i_enc i || (String.eqb (e_type e) "m.room.encryption" && String.eqb (e_skey e) ""))%bool) as St.
  { intros i e. unfold info_step. destruct (String.eqb_spec (e_skey e) "") as [Ek|Ek]; [|rewrite !andb_false_r, orb_false_r; done].
    rewrite !andb_true_r. destruct (String.eqb (e_type e) "m.room.encryption"), (String.eqb (e_type e) "m.room.tombstone"), (String.eqb (e_type e) "m.room.create"),
      (r_replacement (e_json e)), (r_roomtype (e_json e)), (String.eqb (r_pred (e_json e)) ""); cbn; rewrite ?orb_true_r, ?orb_false_r; done. }
  induction l as [|x l IH]; intros i H; cbn [fold_left].
  - destruct H as [H|(e & He & _)]; [done|by apply elem_of_nil in He].
  - apply IH. rewrite St. destruct H as [-> |(e & [->|He]%elem_of_cons & Hr)]; [by left| |right; eauto].
    left. destruct Hr as (-> & ->). by rewrite orb_true_r.
Qed.
Lemma insert_rows l : forall d d1 m, insert d l = (d1, m) -> d_rooms d1 = d_rooms d /\ exists ext, d_events d1 = d_events d ++ ext
  /\ forall x, x ∈ ext -> exists e n, e ∈ l /\ x = set_nid n e /\ is_Some (m !! e_id e).
Proof.
  induction l as [|e l IH]; intros d d1 m H; cbn [insert] in H.
  - injection H as <- <-. split; [done|]. exists []. rewrite app_nil_r. split; [done|]. intros x Hx. by apply elem_of_nil in Hx.
  - destruct (known (d_events d) (e_id e)).
    + destruct (IH _ _ _ H) as (H1 & ext & H2 & H3). split; [done|]. exists ext. split; [done|]. intros x Hx. destruct (H3 x Hx) as (y & n & Hy & E & S).
      exists y, n. split; [by right|done].
    + destruct (insert _ l) as (d' & m') eqn:E. injection H as <- <-. destruct (IH _ _ _ E) as (H1 & ext & H2 & H3).
      split; [done|]. exists (set_nid (d_seq d + 1) e :: ext). rewrite H2. cbn [d_events set_seq set_events]. rewrite <- app_assoc. split; [done|].
      intros x [->|Hx]%elem_of_cons.
      * exists e, (d_seq d + 1). split; [by left|]. split; [done|]. rewrite lookup_insert. eauto.
      * destruct (H3 x Hx) as (y & n & Hy & Ex & S). exists y, n. split; [by right|]. split; [done|].
        destruct (decide (e_id e = e_id y)) as [E1|E1]; [rewrite E1, lookup_insert; eauto|]. by rewrite lookup_insert_ne.
Qed.
Lemma roll_tags rm l : forall d sid o d', roll rm d sid l = (o, d') -> tags (d_events d') = tags (d_events d) /\ d_rooms d' = d_rooms d.
Proof.
  assert (forall d n s r, tags (d_events (update_before d n s r)) = tags (d_events d)) as Ub.
  { intros d n s r. unfold tags, update_before. cbn [d_events set_events]. rewrite map_map. apply map_ext. intros e. by destruct (e_nid e =? n). }
  induction l as [|e l IH]; intros d sid o d' H; cbn [roll] in H; [by injection H as _ <-|].
  destruct (e_isstate e).
  - destruct (if _ : bool then _ else _) as [old|b]; [|by injection H as _ <-].
    destruct (calc_snapshot old e) as [[new rep]|]; [|by injection H as _ <-].
    unfold insert_snap in H. apply IH in H as [H Hq]. rewrite H, Hq. split; [|done]. by rewrite Ub.
  - apply IH in H as [H Hq]. rewrite H, Hq. split; [by rewrite Ub|done].
Qed.
Lemma upsert_at d rm i s l : exists r, d_rooms (upsert_room d rm i s l) !! rm = Some r /\ (i_enc i = true -> rm_enc r = true)
  /\ (forall r', d_rooms d !! rm = Some r' -> rm_enc r' = true -> rm_enc r = true).
Proof.
  unfold upsert_room. cbn [set_rooms d_rooms]. rewrite lookup_insert. eexists. split; [reflexivity|]. destruct (d_rooms d !! rm) as [o|]; cbn [rm_enc].
  - split; [intros ->; done|]. intros r' [= <-] ->. by rewrite orb_true_r.
  - split; [done|]. done.
Qed.
Lemma marked_upsert d rm i s l rows ext : (forall x, x ∈ ext -> e_room x = rm /\ (enc_row x -> i_enc i = true)) ->
  marked (d_rooms d) rows -> marked (d_rooms (upsert_room d rm i s l)) (rows ++ ext).
Proof.
  intros He Hm e [H|H]%elem_of_app Hr.
  - destruct (Hm e H Hr) as (r & Hl & Hen). destruct (decide (e_room e = rm)) as [E|N].
    + destruct (upsert_at d rm i s l) as (r2 & H1 & H2 & H3). exists r2. rewrite E. split; [done|]. rewrite E in Hl. by apply (H3 r).
    + exists r. split; [|done]. unfold upsert_room. cbn [set_rooms d_rooms]. by rewrite lookup_insert_ne.
  - destruct (He e H) as (E & Hi). destruct (upsert_at d rm i s l) as (r2 & H1 & H2 & H3). exists r2. rewrite E. split; [done|]. apply H2. by apply Hi.
Qed.
Lemma filter_ensure_room rm st e : e ∈ filter_ensure rm st -> e_room e = rm.
Proof.
  unfold filter_ensure. rewrite elem_of_list_omap. intros (r & _ & E). revert E. unfold ensure_fields. destruct (String.eqb (r_id r) ""); [done|].
  destruct (r_type r) as [ty|]; [|done]. destruct (negb _ && _).
  - destruct (String.eqb (r_mship r) ""); [done|]. by intros [= <-].
  - by intros [= <-].
Qed.
Lemma dedup_room rm prev l : forall first seen e, e ∈ dedup rm prev first seen l -> e_room e = rm.
Proof.
  induction l as [|r l IH]; intros first seen e H; cbn [dedup] in H; [by apply elem_of_nil in H|].
  destruct (ensure_fields rm false r) as [y|] eqn:E; [|by apply IH in H]. destruct (existsb _ seen); [by apply IH in H|].
  apply elem_of_cons in H. destruct H as [->|H]; [|by apply IH in H].
  assert (e_room y = rm) as Er.
  { revert E. clear. unfold ensure_fields. destruct (String.eqb (r_id r) ""); [done|]. destruct (r_type r) as [ty|]; [|done]. destruct (negb _ && _).
    - destruct (String.eqb (r_mship r) ""); [done|]. by intros [= <-].
    - by intros [= <-]. }
  by destruct (first && _).
Qed.
Lemma news_room rm t rows x : x ∈ mark_gap (tl_limited t) (dedup rm (tl_prev t) true [] (tl_events t)) (filter_new rows (dedup rm (tl_prev t) true [] (tl_events t))) -> e_room x = rm.
Proof.
  set (inc := dedup rm (tl_prev t) true [] (tl_events t)). intros H.
  assert (exists y, y ∈ filter_new rows inc /\ e_room x = e_room y) as (y & Hy & ->).
  { revert H. unfold mark_gap. destruct (filter_new rows inc) as [|e news]; [intros H; by apply elem_of_nil in H|]. destruct inc as [|i inc']; [eauto|].
    destruct (tl_limited t && _); [|eauto]. intros [->|H]%elem_of_cons; [exists e; split; [by left|done]|exists x; split; [by right|done]]. }
  destruct (filter_new_sub rows inc) as (pre & E). apply (dedup_room rm (tl_prev t) (tl_events t) true []). fold inc. rewrite E. apply elem_of_app. by right.
Qed.
Section enc.
  Context (ord : list Z -> list Z) (redact : raw -> raw -> raw -> raw).
  Lemma redact_tags d rm m d' : redact_step redact d rm m = Some d' -> tags (d_events d') = tags (d_events d) /\ d_rooms d' = d_rooms d.
  Proof using.
    unfold redact_step. case_match; [intros E; injection E as <-; done|]. case_match; [|done]. intros E; injection E as <-.
    unfold redact_rows, tags. cbn [d_events set_events d_rooms]. split; [|done]. rewrite map_map. apply map_ext. intros x. by destruct (m !! e_id x).
  Qed.
  Lemma run_marked o d : marked (d_rooms d) (d_events d) -> marked (d_rooms (run ord redact o d)) (d_events (run ord redact o d)).
  Proof using.
    intros Hm. destruct o as [rm st|rm t|n|u rm i|u rm]; cbn [run]; try done.
    - unfold initialise. destruct st as [|s0 st0]; [done|]. set (st := s0 :: st0).
      destruct (init_txn ord rm st d) as ([r|b] & d') eqn:E; cbn [snd]; [|done]. revert E. unfold init_txn.
      destruct (Nat.eqb (length (filter_ensure rm st)) 0); [done|]. destruct (_ && _); [done|].
      destruct (insert d (filter_ensure rm st)) as (d1 & m) eqn:Ei. destruct (insert_rows _ _ _ _ Ei) as (Er & ext & Ee & Hx).
      destruct (Nat.eqb (size m) 0) eqn:Es.
      + intros [= _ <-]. rewrite Er, Ee. assert (ext = []) as ->.
        { destruct ext as [|x ext]; [done|]. destruct (Hx x) as (y & n & _ & _ & (z & Hz)); [by left|]. apply Nat.eqb_eq, map_size_empty_inv in Es. by rewrite Es, lookup_empty in Hz. }
        by rewrite app_nil_r.
      + destruct (if _ : bool then _ else _) as [cur|b]; [|done]. destruct (sm_nids ord _) as (mem & oth). unfold insert_snap.
        intros [= _ <-]. cbn [d_events upsert_room set_rooms space_updates set_spaces supersede_invites set_invites set_snaps].
        rewrite Ee. apply marked_upsert; [|cbn [d_rooms space_updates set_spaces supersede_invites set_invites set_snaps]; by rewrite Er].
        intros x H. destruct (Hx x H) as (y & n & Hy & -> & _). split; [change (e_room y = rm); by apply (filter_ensure_room rm st)|].
        intros Hr. apply info_enc. right. exists y. split; [exact Hy|exact Hr].
    - unfold accumulate. destruct (tl_events t) as [|s0 st0] eqn:Et; [done|].
      destruct (acc_txn redact rm t d) as ([r|b] & d') eqn:E; cbn [snd]; [|done]. revert E. unfold acc_txn.
      pose proof (news_room rm t (d_events d)) as Hroom.
      set (news := mark_gap _ _ _) in *. destruct news as [|first news'] eqn:En; [by intros [= _ <-]|].
      destruct (_ && _); [by intros [= _ <-]|]. rewrite <- En in *. clear En.
      destruct (insert d news) as (d1 & m) eqn:Ei. destruct (insert_rows _ _ _ _ Ei) as (Er & ext & Ee & Hx).
      destruct (Nat.eqb (size m) 0) eqn:Es.
      + intros [= _ <-]. rewrite Er, Ee. assert (ext = []) as ->.
        { destruct ext as [|x ext]; [done|]. destruct (Hx x) as (y & n & _ & _ & (z & Hz)); [by left|]. apply Nat.eqb_eq, map_size_empty_inv in Es. by rewrite Es, lookup_empty in Hz. }
        by rewrite app_nil_r.
      + destruct (redact_step redact d1 rm (redactions (post_insert m news))) as [d2|] eqn:Ered; [|done].
        assert (tags (d_events d2) = tags (d_events d1) /\ d_rooms d2 = d_rooms d1) as (T2 & R2).
        { by apply (redact_tags d1 rm (redactions (post_insert m news))). }
        destruct (roll rm d2 (current_snap d rm) (post_insert m news)) as ([sid|b] & d3) eqn:Eroll; [|done].
        destruct (roll_tags _ _ _ _ _ _ Eroll) as (T3 & R3).
        intros [= _ <-]. cbn [d_events upsert_room set_rooms space_updates set_spaces supersede_invites set_invites].
        apply (marked_tags _ (d_events d ++ ext)); [by rewrite T3, T2, Ee|].
        apply marked_upsert; [|cbn [d_rooms space_updates set_spaces supersede_invites set_invites]; by rewrite R3, R2, Er].
        intros x H. destruct (Hx x H) as (y & n & Hy & -> & (z & Hz)). split; [change (e_room y = rm); by apply Hroom|].
        intros Hr. apply info_enc. right. exists (set_isstate (e_isstate y || has_key (e_json y)) (set_nid z y)). split; [|done].
        unfold post_insert. apply elem_of_list_omap. exists y. split; [done|]. by rewrite Hz.
  Qed.
  Lemma runs_marked ops : forall d, marked (d_rooms d) (d_events d) -> marked (d_rooms (runs ord redact ops d)) (d_events (runs ord redact ops d)).
  Proof using. induction ops as [|o ops IH]; intros d H; [done|]. cbn [runs fold_left]. apply IH. by apply run_marked. Qed.
End enc.
