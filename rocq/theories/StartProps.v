(** C68: what a restarted server knows about the rooms. *)
From Verif Require Import Prelude AccumModel AccumSpec AccumProofs AccumProofs3 AccumProofs4 AccumProofs5 AccumProofs6 AccumProps RoomNameModel StartModel StartSpec StartProofs.
From Verif Require GlobalModel GlobalSpec GlobalProofs.
Open Scope string_scope. Open Scope list_scope. Open Scope Z_scope.

Section Restart.
(** The readers of an event's content, the orders in which maps and tables are gone
    through, and the redaction algorithm are arbitrary. *)
Context (c_name c_url c_alias c_display c_avatar : raw -> string) (c_ts : raw -> Z).
Context (ord : list Z -> list Z) (redact : raw -> raw -> raw -> raw) (any : list event -> list event).
Context (Hord : ord_ok ord) (Hredact : redact_ok redact) (Hany : any_ok any).
Notation start := (global_snapshot c_name c_url c_alias c_display c_avatar c_ts any).

Lemma start_at d joined m : reached ord redact d -> start d = Some (joined, m) -> exists k, Inv k d /\
  (forall rm, default [] (joined !! rm) = map e_skey (List.filter is_join (came_in d rm))) /\
  (forall rm r md, d_rooms d !! rm = Some r -> m !! rm = Some md ->
     let md0 := fold_left (name1 c_name c_url c_alias) (names_in any d rm) (fold_left (latest1 c_ts) (latest_in any d rm) (base_meta c_display c_avatar d rm)) in
     md = (if is_space r then match relations_of d rm with [] => info1 r md0 | _ => GlobalModel.set_children (info1 r md0) (child_set d rm) end
           else info1 r md0)) /\
  (forall rm, is_Some (m !! rm) <-> is_Some (d_rooms d !! rm)).
Proof using Hord Hredact Hany.
  intros Hr E. destruct (reached_inv _ _ _ Hord Hredact Hr) as (k & Hi). exists k. split; [done|].
  destruct (snapshot_at c_name c_url c_alias c_display c_avatar c_ts any k d Hi Hany) as (j & m' & E' & H1 & H2 & H3).
  rewrite E in E'. injection E' as <- <-. split; [done|]. split.
  - intros rm r md Hrm Hmd. destruct (H2 rm r Hrm) as (md' & Hmd' & Heq). rewrite Hmd in Hmd'. injection Hmd' as <-. exact Heq.
  - intros rm. split; intros H.
    + destruct (d_rooms d !! rm) as [r|] eqn:Er; [eauto|]. rewrite H3 in H by done. by destruct H.
    + destruct H as (r & Er). destruct (H2 rm r Er) as (md & Hmd & _). eauto.
Qed.
Lemma came_arrivals k d rm : Inv k d -> arrivals d rm (came_in d rm).
Proof using.
  intros Hi. split.
  - unfold increasing. assert (StronglySorted Z.lt (map e_nid (d_events d))) as Hs by apply (bs_sorted _ (iv_base _ _ Hi)).
    unfold came_in, came. revert Hs. generalize (d_events d). intros l Hs. induction l as [|x l IH]; [constructor|].
    cbn [map] in Hs. apply StronglySorted_inv in Hs. destruct Hs as (Hs & Hf). cbn [List.filter].
    destruct (in_members d x && (is_join x || is_invite x)); [|by apply IH]. cbn [List.filter]. destruct (room_is rm x); [|by apply IH].
    cbn [map]. constructor; [by apply IH|]. apply List.Forall_forall. intros n Hn. apply in_map_iff in Hn. destruct Hn as (y & <- & Hy).
    apply filter_In in Hy. destruct Hy as (Hy & _). apply filter_In in Hy. destruct Hy as (Hy & _).
    apply (proj1 (List.Forall_forall _ _) Hf). by apply in_map.
  - intros e. rewrite elem_of_list_In, in_came, <- is_join_spec, <- is_invite_spec. split.
    + intros (He & Hm & Hj & Er). apply elem_of_list_In in He. apply (in_members_spec k d Hi e He) in Hm. rewrite <- Er. tauto.
    + intros (Hl & Ht & Hj). assert (e_room e = rm) as Er by (destruct Hl as (_ & ? & _); done). assert (e ∈ d_events d) as He by (by destruct Hl).
      split; [by apply elem_of_list_In|]. split; [|tauto]. apply (in_members_spec k d Hi e He). rewrite Er. tauto.
Qed.
Lemma users_of k d rm ms (f : event -> bool) : Inv k d -> (forall e, f e = true <-> is_in ms e) -> ms = "join" \/ ms = "invite" ->
  all_users d rm ms (map e_skey (List.filter f (came_in d rm))).
Proof using.
  intros Hi Hf Hms. destruct (came_arrivals k d rm Hi) as (Hs & Ha). split.
  - apply NoDup_ListNoDup.
    assert (forall a b, In a (List.filter f (came_in d rm)) -> In b (List.filter f (came_in d rm)) -> e_skey a = e_skey b -> e_nid a = e_nid b) as Inj.
    { intros a b Ia Ib E. apply filter_In in Ia, Ib. destruct Ia as (Ia & _). destruct Ib as (Ib & _). apply elem_of_list_In, Ha in Ia. apply elem_of_list_In, Ha in Ib.
      destruct Ia as ((A1 & A2 & A3 & A4) & At & _). destruct Ib as ((B1 & B2 & B3 & B4) & Bt & _).
      assert (ekey a = ekey b) as Ek by (unfold ekey; congruence). specialize (A4 b B1 B2 B3 (eq_sym Ek)). specialize (B4 a A1 A2 A3 Ek). lia. }
    assert (List.NoDup (map e_nid (List.filter f (came_in d rm)))) as ND.
    { apply map_filter_nodup. unfold came_in, came. apply map_filter_nodup, map_filter_nodup, (nodup_nids k d Hi). }
    revert Inj ND. generalize (List.filter f (came_in d rm)). clear. induction l as [|x l IH]; intros Inj ND; [constructor|].
    cbn [map] in *. apply NoDup_cons_iff in ND. destruct ND as (N & ND). constructor.
    + intros X. apply in_map_iff in X. destruct X as (y & E & Hy). apply N. rewrite (Inj x y); [by apply in_map|by left|by right|done].
    + apply IH; [|done]. intros a b A B. apply Inj; by right.
  - intros u. rewrite elem_of_list_In, in_map_iff. unfold has_membership. split.
    + intros (e & <- & He). apply filter_In in He. destruct He as (He & Hfe). apply elem_of_list_In, Ha in He. apply Hf in Hfe. exists e. tauto.
    + intros (e & Hl & Ht & Hk & Hin). exists e. split; [done|]. apply filter_In. split; [|by apply Hf]. apply elem_of_list_In, Ha.
      split; [done|]. split; [done|]. destruct Hms as [-> | ->]; [by left|by right].
Qed.
Lemma users_length d rm ms l1 l2 : all_users d rm ms l1 -> all_users d rm ms l2 -> length l1 = length l2.
Proof using.
  intros (N1 & H1) (N2 & H2). apply Permutation_length. apply NoDup_Permutation; [done|done|]. intros u. by rewrite H1, H2.
Qed.

(** A restart never fails, whatever was stored, and gives metadata for precisely the
    rooms which were stored. *)
Theorem C68_succeeds : forall d, reached ord redact d ->
  exists joined m, start d = Some (joined, m) /\ forall rm, is_Some (m !! rm) <-> is_Some (d_rooms d !! rm).
Proof using Hord Hredact Hany.
  intros d Hr. destruct (reached_inv _ _ _ Hord Hredact Hr) as (k & Hi).
  destruct (snapshot_at c_name c_url c_alias c_display c_avatar c_ts any k d Hi Hany) as (j & m & E & _). exists j, m. split; [done|].
  destruct (start_at d j m Hr E) as (_ & _ & _ & _ & H). exact H.
Qed.

(** The tracker of joined rooms starts with precisely the users who are joined in the
    current state, each once per room. *)
Theorem C68_joined_members : forall d joined m rm, reached ord redact d -> start d = Some (joined, m) ->
  all_users d rm "join" (default [] (joined !! rm)).
Proof using Hord Hredact Hany.
  intros d joined m rm Hr E. destruct (start_at d joined m Hr E) as (k & Hi & H & _). rewrite H. apply (users_of k); [done|apply is_join_spec|by left].
Qed.

(** The join count is the number of joined users. Of a room in which someone is joined,
    the invite count is the number of invited users. Partial: see
    C68_only_invited_refuted for other rooms. *)
Theorem C68_counts_partial : forall d joined m rm md, reached ord redact d -> start d = Some (joined, m) -> m !! rm = Some md ->
  (forall users, all_users d rm "join" users -> m_join md = Z.of_nat (length users)) /\
  (forall users, all_users d rm "invite" users -> (exists u, has_membership d rm u "join") -> m_invite md = Z.of_nat (length users)).
Proof using Hord Hredact Hany.
  intros d joined m rm md Hr E Hmd. destruct (start_at d joined m Hr E) as (k & Hi & _ & H & Hs).
  destruct (proj1 (Hs rm) (ex_intro _ md Hmd)) as (r & Hrm). specialize (H rm r md Hrm Hmd). cbn zeta in H.
  set (md1 := fold_left (latest1 c_ts) (latest_in any d rm) (base_meta c_display c_avatar d rm)) in H.
  destruct (name1_rest c_name c_url c_alias (names_in any d rm) md1) as (R1 & _ & _).
  destruct (latest1_rest c_ts (latest_in any d rm) (base_meta c_display c_avatar d rm)) as (R2 & _). fold md1 in R2. rewrite R2 in R1. unfold rest in R1. injection R1 as _ _ J I _ _ _ _ _.
  set (md0 := fold_left (name1 c_name c_url c_alias) (names_in any d rm) md1) in *.
  assert (m_join md = m_join md0 /\ m_invite md = m_invite md0) as (-> & ->).
  { rewrite H. destruct (is_space r); [destruct (relations_of d rm); done|done]. }
  rewrite J, I. unfold base_meta.
  pose proof (users_of k d rm "join" is_join Hi is_join_spec (or_introl eq_refl)) as U1.
  pose proof (users_of k d rm "invite" is_invite Hi is_invite_spec (or_intror eq_refl)) as U2.
  split.
  - intros users HU. rewrite (users_length _ _ _ _ _ HU U1), map_length. by destruct (List.filter is_join (came_in d rm)).
  - intros users HU (u & Hu). rewrite (users_length _ _ _ _ _ HU U2), map_length. destruct U1 as (_ & U1). apply U1 in Hu.
    destruct (List.filter is_join (came_in d rm)); [by apply elem_of_nil in Hu|done].
Qed.

(** Of a room in which someone is joined, the heroes are the last six who came, the most
    recent first, with the profiles in those events. *)
Theorem C68_heroes_partial : forall d joined m rm md l, reached ord redact d -> start d = Some (joined, m) -> m !! rm = Some md ->
  arrivals d rm l -> (exists u, has_membership d rm u "join") ->
  m_heroes md = map (fun e => mk_hero (e_skey e) (c_display (e_json e)) (c_avatar (e_json e))) (reverse (GlobalSpec.last_n 6 l)).
Proof using Hord Hredact Hany.
  intros d joined m rm md l Hr E Hmd Hl (u & Hu). destruct (start_at d joined m Hr E) as (k & Hi & _ & H & Hs).
  destruct (proj1 (Hs rm) (ex_intro _ md Hmd)) as (r & Hrm). specialize (H rm r md Hrm Hmd). cbn zeta in H.
  set (md1 := fold_left (latest1 c_ts) (latest_in any d rm) (base_meta c_display c_avatar d rm)) in H.
  destruct (name1_rest c_name c_url c_alias (names_in any d rm) md1) as (R1 & _ & _).
  destruct (latest1_rest c_ts (latest_in any d rm) (base_meta c_display c_avatar d rm)) as (R2 & _). fold md1 in R2. rewrite R2 in R1. unfold rest in R1. injection R1 as _ He _ _ _ _ _ _ _.
  set (md0 := fold_left (name1 c_name c_url c_alias) (names_in any d rm) md1) in *.
  assert (m_heroes md = m_heroes md0) as -> by (rewrite H; destruct (is_space r); [destruct (relations_of d rm); done|done]).
  rewrite He. unfold base_meta. destruct (users_of k d rm "join" is_join Hi is_join_spec (or_introl eq_refl)) as (_ & U1). apply U1 in Hu.
  assert (l = came_in d rm) as ->.
  { destruct (came_arrivals k d rm Hi) as (S2 & A2). destruct Hl as (S1 & A1).
    assert (forall e, In e l <-> In e (came_in d rm)) as Same by (intros e; rewrite <- !elem_of_list_In, A1, A2; done).
    revert S1 S2 Same. generalize (came_in d rm) as l2. clear. unfold increasing. induction l as [|x l IH]; intros l2 S1 S2 Same.
    - destruct l2 as [|y l2]; [done|]. destruct (proj2 (Same y)). by left.
    - destruct l2 as [|y l2]; [destruct (proj1 (Same x)); by left|]. cbn [map] in S1, S2. apply StronglySorted_inv in S1, S2.
      destruct S1 as (S1 & F1). destruct S2 as (S2 & F2).
      assert (forall z, In z l -> e_nid x < e_nid z) as G1 by (intros z Hz; apply (proj1 (List.Forall_forall _ _) F1); by apply in_map).
      assert (forall z, In z l2 -> e_nid y < e_nid z) as G2 by (intros z Hz; apply (proj1 (List.Forall_forall _ _) F2); by apply in_map).
      assert (x = y) as <-.
      { destruct (proj1 (Same x) (or_introl eq_refl)) as [->|Hx]; [done|]. destruct (proj2 (Same y) (or_introl eq_refl)) as [->|Hy]; [done|].
        apply G2 in Hx. apply G1 in Hy. lia. }
      f_equal. apply IH; [done|done|]. intros e. split; intros He.
      + destruct (proj1 (Same e) (or_intror He)) as [<-|H]; [|done]. apply G1 in He. lia.
      + destruct (proj2 (Same e) (or_intror He)) as [<-|H]; [|done]. apply G2 in He. lia. }
  destruct (List.filter is_join (came_in d rm)); [by apply elem_of_nil in Hu|done].
Qed.

(** Name, alias and avatar are those of the current state, and empty if there is none. *)
Theorem C68_name_alias_avatar : forall d joined m rm md, reached ord redact d -> start d = Some (joined, m) -> m !! rm = Some md ->
  (forall e, current d rm "m.room.name" e -> m_name md = c_name (e_json e)) /\ ((forall e, ~ current d rm "m.room.name" e) -> m_name md = "") /\
  (forall e, current d rm "m.room.canonical_alias" e -> m_alias md = c_alias (e_json e)) /\ ((forall e, ~ current d rm "m.room.canonical_alias" e) -> m_alias md = "") /\
  (forall e, current d rm "m.room.avatar" e -> m_avatar md = c_url (e_json e)) /\ ((forall e, ~ current d rm "m.room.avatar" e) -> m_avatar md = "").
Proof using Hord Hredact Hany.
  intros d joined m rm md Hr E Hmd. destruct (start_at d joined m Hr E) as (k & Hi & _ & H & Hs).
  destruct (proj1 (Hs rm) (ex_intro _ md Hmd)) as (r & Hrm). specialize (H rm r md Hrm Hmd). cbn zeta in H.
  set (md1 := fold_left (latest1 c_ts) (latest_in any d rm) (base_meta c_display c_avatar d rm)) in H.
  destruct (latest1_rest c_ts (latest_in any d rm) (base_meta c_display c_avatar d rm)) as (_ & B1 & B2 & B3). fold md1 in B1, B2, B3.
  destruct (name1_fields c_name c_url c_alias (names_in any d rm) (names_in_keys any k d Hi Hany rm) md1) as (I1 & I2 & I3 & I4 & I5 & I6).
  set (md0 := fold_left (name1 c_name c_url c_alias) (names_in any d rm) md1) in *.
  assert (m_name md = m_name md0 /\ m_alias md = m_alias md0 /\ m_avatar md = m_avatar md0) as (-> & -> & ->).
  { rewrite H. destruct (is_space r); [destruct (relations_of d rm); done|done]. }
  assert (m_name (base_meta c_display c_avatar d rm) = "" /\ m_alias (base_meta c_display c_avatar d rm) = "" /\ m_avatar (base_meta c_display c_avatar d rm) = "") as (N1 & N2 & N3).
  { unfold base_meta. by destruct (List.filter is_join (came_in d rm)). }
  rewrite N1 in B1. rewrite N3 in B2. rewrite N2 in B3. clear N1 N2 N3.
  pose proof (in_names_in any k d Hi Hany rm) as Hin. unfold current. split_and!.
  - intros e (Hl & Ht & Hk). apply (I1 e); [|done|done]. apply Hin. tauto.
  - intros N. rewrite I2, B1; [done|]. intros e He Hk Ht. apply (N e). apply Hin in He. tauto.
  - intros e (Hl & Ht & Hk). apply (I3 e); [|done|done]. apply Hin. tauto.
  - intros N. rewrite I4, B3; [done|]. intros e He Hk Ht. apply (N e). apply Hin in He. tauto.
  - intros e (Hl & Ht & Hk). apply (I5 e); [|done|done]. apply Hin. tauto.
  - intros N. rewrite I6, B2; [done|]. intros e He Hk Ht. apply (N e). apply Hin in He. tauto.
Qed.

(** The latest event of each type, with its position and timestamp, and no other; the
    room's last timestamp is the greatest of theirs (0 at least). *)
Theorem C68_latest_events : forall d joined m rm md, reached ord redact d -> start d = Some (joined, m) -> m !! rm = Some md ->
  (forall type e, latest_of_type d rm type e -> m_latest md !! type = Some (e_nid e, c_ts (e_json e)) /\ c_ts (e_json e) <= m_last_ts md) /\
  (forall type, (forall e, ~ latest_of_type d rm type e) -> m_latest md !! type = None) /\
  (m_last_ts md = 0 \/ exists type e, latest_of_type d rm type e /\ m_last_ts md = c_ts (e_json e)) /\ 0 <= m_last_ts md.
Proof using Hord Hredact Hany.
  intros d joined m rm md Hr E Hmd. destruct (start_at d joined m Hr E) as (k & Hi & _ & H & Hs).
  destruct (proj1 (Hs rm) (ex_intro _ md Hmd)) as (r & Hrm). specialize (H rm r md Hrm Hmd). cbn zeta in H.
  set (md1 := fold_left (latest1 c_ts) (latest_in any d rm) (base_meta c_display c_avatar d rm)) in H.
  destruct (name1_rest c_name c_url c_alias (names_in any d rm) md1) as (_ & R1 & R2).
  set (md0 := fold_left (name1 c_name c_url c_alias) (names_in any d rm) md1) in *.
  assert (m_latest md = m_latest md1 /\ m_last_ts md = m_last_ts md1) as (-> & ->).
  { rewrite <- R1, <- R2, H. destruct (is_space r); [destruct (relations_of d rm); done|done]. }
  assert (m_latest (base_meta c_display c_avatar d rm) = ∅ /\ m_last_ts (base_meta c_display c_avatar d rm) = 0) as (B1 & B2).
  { unfold base_meta. by destruct (List.filter is_join (came_in d rm)). }
  assert (forall e, In e (latest_in any d rm) -> r_type (e_json e) = Some (e_type e)) as HT.
  { intros e He. apply (in_latest_in any d Hany rm r e Hrm) in He. destruct He as (He & _). by destruct (bs_cols _ (iv_base _ _ Hi) e He) as (_ & ? & _). }
  pose proof (latest_in_types any k d Hi Hany rm r Hrm) as ND.
  destruct (latest1_ts c_ts (latest_in any d rm) (base_meta c_display c_avatar d rm)) as (T1 & T2 & T3). fold md1 in T1, T2, T3. rewrite B2 in *.
  split_and!.
  - intros type e He. assert (e_type e = type) as <- by (by destruct He as (_ & _ & ? & _)). apply (in_latest_in any d Hany rm r e Hrm) in He. split; [|by apply T1].
    by apply (latest1_types c_ts (latest_in any d rm) HT ND (base_meta c_display c_avatar d rm) (e_type e)).
  - intros type N. destruct (latest1_types c_ts (latest_in any d rm) HT ND (base_meta c_display c_avatar d rm) type) as (_ & L). unfold md1. rewrite L, B1; [done|].
    intros e He <-. apply (in_latest_in any d Hany rm r e Hrm) in He. by apply (N e).
  - destruct T3 as [T3|(e & He & T3)]; [by left|]. right. exists (e_type e), e. split; [by apply (in_latest_in any d Hany rm r e Hrm)|done].
  - done.
Qed.

(** A room with a stored encryption event is never taken for an unencrypted one. *)
Theorem C68_encryption_kept : forall d joined m rm e, reached ord redact d -> start d = Some (joined, m) ->
  e ∈ d_events d -> e_room e = rm -> e_type e = "m.room.encryption" -> e_skey e = "" ->
  exists md, m !! rm = Some md /\ m_encrypted md = true.
Proof using Hord Hredact Hany.
  intros d joined m rm e Hr E He Er Et Ek. destruct (start_at d joined m Hr E) as (k & Hi & _ & H & Hs).
  assert (marked (d_rooms d) (d_events d)) as Hm.
  { destruct Hr as (ops & _ & ->). apply runs_marked. intros x Hx. by apply elem_of_nil in Hx. }
  destruct (Hm e He (conj Et Ek)) as (r & Hrm & Hen). rewrite Er in Hrm. destruct (proj2 (Hs rm) (ex_intro _ r Hrm)) as (md & Hmd). exists md. split; [done|].
  rewrite (H rm r md Hrm Hmd). cbn zeta. destruct (is_space r); [destruct (relations_of d rm); done|done].
Qed.

(** Encryption, successor, type and predecessor are those of the rooms table; the
    children of a space are those of the spaces table (C57), and other rooms have none. *)
Theorem C68_room_table : forall d joined m rm md r, reached ord redact d -> start d = Some (joined, m) -> m !! rm = Some md -> d_rooms d !! rm = Some r ->
  m_encrypted md = rm_enc r /\ m_upgraded md = rm_upgraded r /\ m_type md = rm_type r /\ m_predecessor md = rm_pred r /\
  forall child, child ∈ m_children md <-> rm_type r = Some "m.space" /\ is_Some (d_spaces d !! (rm, child, 2)).
Proof using Hord Hredact Hany.
  intros d joined m rm md r Hr E Hmd Hrm. destruct (start_at d joined m Hr E) as (k & Hi & _ & H & Hs). specialize (H rm r md Hrm Hmd). cbn zeta in H.
  set (md1 := fold_left (latest1 c_ts) (latest_in any d rm) (base_meta c_display c_avatar d rm)) in H.
  destruct (name1_rest c_name c_url c_alias (names_in any d rm) md1) as (R1 & _ & _).
  destruct (latest1_rest c_ts (latest_in any d rm) (base_meta c_display c_avatar d rm)) as (R2 & _). fold md1 in R2. rewrite R2 in R1. unfold rest in R1. injection R1 as _ _ _ _ _ _ _ _ Hc.
  set (md0 := fold_left (name1 c_name c_url c_alias) (names_in any d rm) md1) in *.
  assert (m_children md0 = ∅) as Hc0 by (rewrite Hc; unfold base_meta; by destruct (List.filter is_join (came_in d rm))).
  assert (is_space r = true <-> rm_type r = Some "m.space") as Hsp.
  { unfold is_space. destruct (rm_type r) as [ty|]; [|done]. rewrite String.eqb_eq. split; [by intros ->|by intros [= ->]]. }
  assert (m_encrypted md = rm_enc r /\ m_upgraded md = rm_upgraded r /\ m_type md = rm_type r /\ m_predecessor md = rm_pred r) as (A1 & A2 & A3 & A4).
  { rewrite H. destruct (is_space r); [destruct (relations_of d rm); done|done]. }
  split_and!; try done. intros child. rewrite <- Hsp, <- in_child_set. rewrite H. destruct (is_space r).
  - destruct (relations_of d rm) as [|x rels] eqn:Erel.
    + cbn [info1 m_children]. rewrite Hc0. unfold child_set. rewrite Erel. cbn. split; [intros X; set_solver|intros (_ & X); set_solver].
    + cbn [info1 GlobalModel.set_children m_children]. tauto.
  - cbn [info1 m_children]. rewrite Hc0. split; [intros X; set_solver|intros (X & _); done].
Qed.
End Restart.
Print Assumptions C68_succeeds.
Print Assumptions C68_joined_members.
Print Assumptions C68_counts_partial.
Print Assumptions C68_heroes_partial.
Print Assumptions C68_name_alias_avatar.
Print Assumptions C68_latest_events.
Print Assumptions C68_encryption_kept.
Print Assumptions C68_room_table.

(** A concrete history: a named room whose members came and went, and its restart. The
    part of the content which is left over stands for every content read. *)
Definition text (j : raw) : string := r_rest j.
Definition stamp (j : raw) : Z := Z.of_nat (String.length (r_rest j)).
Notation restart := (global_snapshot text text text text text stamp id).
Definition with_text (t : string) (j : raw) : raw :=
  Raw (r_id j) (r_type j) (r_skey j) (r_mship j) (r_change j) (r_sender j) (r_redacts j) (r_via j) (r_order j) (r_suggested j) (r_replacement j) (r_roomtype j) (r_pred j) t.
Definition of_room {A} (f : room_meta -> A) (d : db) (rm : string) : option A :=
  match restart d with Some (_, m) => option_map f (m !! rm) | None => None end.
Definition joined_in (d : db) (rm : string) : list string :=
  match restart d with Some (j, _) => default [] (j !! rm) | None => [] end.
Definition start_history : list op :=
  [Initialise "!r" [ev "create" "m.room.create" (Some ""); with_text "Alice" (mem "ja" "@a" "join"); with_text "Bob" (mem "ib" "@b" "invite"); with_text "Old name" (ev "n1" "m.room.name" (Some ""))];
   Accumulate "!r" (Timeline [with_text "Carol" (mem "jc" "@c" "join"); with_text "Robert" (mem "jb" "@b" "join"); with_text "New" (ev "n2" "m.room.name" (Some "")); mem "la" "@a" "leave";
                              with_text "Dave" (mem "id" "@d" "invite"); ev "enc" "m.room.encryption" (Some "")] false "")].
Definition start_db : db := runs id keep start_history empty_db.
Lemma start_reached : reached id keep start_db.
Proof.
  exists start_history. split; [|reflexivity]. apply Forall_cons; split; [|apply Forall_cons; split; [|apply Forall_nil_2]].
  - split; [repeat constructor; intros ty' [= <-]; by apply no_sepb_ok|]. apply (bool_decide_eq_true_1 _). vm_compute. reflexivity.
  - repeat constructor; intros ty' [= <-]; by apply no_sepb_ok.
Qed.
Example C68_example :
  joined_in start_db "!r" = ["@c"; "@b"] /\
  of_room (fun md => (m_name md, m_join md, m_invite md, m_encrypted md)) start_db "!r" = Some ("New", 2, 1, true) /\
  of_room (fun md => map (fun h => (h_id h, h_name h)) (m_heroes md)) start_db "!r" = Some [("@d", "Dave"); ("@b", "Robert"); ("@c", "Carol")] /\
  of_room (fun md => (m_last_ts md, m_latest md !! "m.room.name", m_latest md !! "m.room.topic")) start_db "!r" = Some (4, Some (7, 3), None).
Proof. split; [|split; [|split]]; vm_compute; reflexivity. Qed.

(** A room in which users are invited but nobody is joined loses its invite count and its
    heroes at a restart. *)
Definition only_invited : list op :=
  [Initialise "!r" [ev "create" "m.room.create" (Some ""); mem "ja" "@a" "join"; with_text "Bob" (mem "ib" "@b" "invite")];
   Accumulate "!r" (Timeline [mem "la" "@a" "leave"] false "")].
Theorem C68_only_invited_refuted :
  let d := runs id keep only_invited empty_db in
  reached id keep d /\ has_membership d "!r" "@b" "invite" /\ of_room (fun md => (m_invite md, m_heroes md)) d "!r" = Some (0, []).
Proof.
  cbv zeta. split; [|split].
  - exists only_invited. split; [|reflexivity]. apply Forall_cons; split; [|apply Forall_cons; split; [|apply Forall_nil_2]].
    + split; [repeat constructor; intros ty' [= <-]; by apply no_sepb_ok|]. apply (bool_decide_eq_true_1 _). vm_compute. reflexivity.
    + repeat constructor; intros ty' [= <-]; by apply no_sepb_ok.
  - assert (exists e1 e2 e3 e4, d_events (runs id keep only_invited empty_db) = [e1; e2; e3; e4] /\ ekey e1 <> ekey e3 /\ ekey e2 <> ekey e3 /\ ekey e4 <> ekey e3
      /\ e_room e3 = "!r" /\ e_isstate e3 = true /\ e_type e3 = "m.room.member" /\ e_skey e3 = "@b" /\ e_member e3 = "invite") as (e1 & e2 & e3 & e4 & E & N1 & N2 & N4 & F1 & F2 & F3 & F4 & F5).
    { do 4 eexists. split; [vm_compute; reflexivity|]. by repeat split. }
    revert E. generalize (runs id keep only_invited empty_db). intros d E.
    exists e3. unfold latest_state. rewrite E. split; [|split; [done|split; [done|by left]]]. split; [right; right; left|]. split; [done|]. split; [by left|].
    intros x Hx _ _ Hk. apply elem_of_list_In in Hx. destruct Hx as [<-|[<-|[<-|[<-|[]]]]]; [done|done|lia|done].
  - vm_compute. reflexivity.
Qed.
Print Assumptions C68_only_invited_refuted.

(** Messages count as state at a restart: whoever may send messages can have a room taken
    for encrypted, for replaced by another room and for the successor of another room, by
    messages with the types of those state events. *)
Definition fake (id ty : string) : raw :=
  Raw id (Some ty) None "" false "@mallory" "" false "" false (Some "!evil") None "!evil" "".
Definition fakes : list op :=
  [Initialise "!r" [ev "create" "m.room.create" (Some ""); mem "ja" "@a" "join"; mem "jm" "@mallory" "join"];
   Accumulate "!r" (Timeline [fake "m1" "m.room.encryption"; fake "m2" "m.room.tombstone"; fake "m3" "m.room.create"] false "")].
Theorem C68_messages_as_state_refuted :
  let d := runs id keep fakes empty_db in
  reached id keep d /\
  (forall e, e ∈ d_events d -> e_type e = "m.room.encryption" \/ e_type e = "m.room.tombstone" -> ~ state_row e) /\
  (forall e, e ∈ d_events d -> e_type e = "m.room.create" -> state_row e -> r_pred (e_json e) = "") /\
  of_room (fun md => (m_encrypted md, m_upgraded md, m_predecessor md)) d "!r" = Some (true, Some "!evil", Some "!evil").
Proof.
  cbv zeta. split; [|split; [|split]].
  - exists fakes. split; [|reflexivity]. apply Forall_cons; split; [|apply Forall_cons; split; [|apply Forall_nil_2]].
    + split; [repeat constructor; intros ty' [= <-]; by apply no_sepb_ok|]. apply (bool_decide_eq_true_1 _). vm_compute. reflexivity.
    + repeat constructor; intros ty' [= <-]; by apply no_sepb_ok.
  - assert (Forall (fun e => e_type e = "m.room.encryption" \/ e_type e = "m.room.tombstone" -> ~ state_row e) (d_events (runs id keep fakes empty_db))) as H.
    { assert (exists l, d_events (runs id keep fakes empty_db) = l /\ Forall (fun e => e_type e = "m.room.encryption" \/ e_type e = "m.room.tombstone" -> ~ state_row e) l) as (l & -> & H); [|done].
      eexists. split; [vm_compute; reflexivity|]. unfold state_row. repeat (apply Forall_cons; split; [cbn; intros [?|?]; try done; intros [?|?]; done|]). apply Forall_nil_2. }
    intros e He. exact (proj1 (Forall_forall _ _) H e He).
  - assert (Forall (fun e => e_type e = "m.room.create" -> state_row e -> r_pred (e_json e) = "") (d_events (runs id keep fakes empty_db))) as H.
    { assert (exists l, d_events (runs id keep fakes empty_db) = l /\ Forall (fun e => e_type e = "m.room.create" -> state_row e -> r_pred (e_json e) = "") l) as (l & -> & H); [|done].
      eexists. split; [vm_compute; reflexivity|]. unfold state_row. repeat (apply Forall_cons; split; [cbn; intros ?; try done; intros [?|?]; done|]). apply Forall_nil_2. }
    intros e He. exact (proj1 (Forall_forall _ _) H e He).
  - vm_compute. reflexivity.
Qed.
Print Assumptions C68_messages_as_state_refuted.
