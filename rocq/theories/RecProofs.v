(** Lemmas about recency. *)
From Verif Require Import Prelude RangeModel RangeSpec OpsModel OpsSpec RoomNameModel GlobalModel GlobalProofs ListsModel ListsSpec SortProofs
  ListsProofs ListsProofs2 LiveListModel LiveListSpec LiveListProofs LiveListProofs2 LiveListProps RecModel RecSpec.
Open Scope string_scope.
Open Scope list_scope.
Open Scope Z_scope.

(** * The connection's rooms *)

Lemma run_deltas_all lower reqs room : forall ds s s' out,
  run_deltas lower s reqs room ds = Some (s', out) -> l_all s' = l_all s.
Proof.
  induction ds as [|[key o] ds IH]; intros s s' out H; cbn [run_deltas] in H; [by injection H as <- _|].
  destruct (l_lists s !! key) as [fl|]; [|done]. destruct (reqs !! key) as [rq|]; [|done].
  destruct (resort _ _ _ _ _ _ _) as [[[fl1 os] ss]|]; [|done].
  destruct (run_deltas lower (put_list s key fl1) reqs room ds) as [[s2 out2]|] eqn:E; [|done].
  injection H as <- _. by apply IH in E.
Qed.

Lemma live_update_all lower ord s reqs r s' out :
  live_update lower ord s reqs r = Some (s', out) -> l_all s' = <[m_room (c_meta r) := stored_room lower s r]> (l_all s).
Proof.
  unfold live_update. destruct (set_room lower ord s r) as [s1 d] eqn:E. intros H. apply run_deltas_all in H.
  rewrite H. unfold set_room in E. by injection E as <- _.
Qed.

Lemma assign_all lower ord s key f so b s1 fl c : assign_list lower ord s key f so b = Some (s1, fl, c) -> l_all s1 = l_all s.
Proof.
  unfold assign_list. destruct (l_lists s !! key) as [fl0|], b.
  all: try (by intros [= <- _ _]).
  all: destruct so as [so|]; [destruct (s_sort _ _ _ _) as [[sr ok]|]; [|done]|]; by intros [= <- _ _].
Qed.

Lemma list_request_all lower ord s key prev next chg s' ms subs :
  list_request lower ord s key prev next chg = Some (s', ms, subs) -> l_all s' = l_all s.
Proof.
  unfold list_request. destruct (assign_list lower ord s key _ _ false) as [[[s1 fl] created]|] eqn:E; [|done].
  apply assign_all in E. destruct (q_all next && (created || chg)); [by intros [= <- _ _]|].
  match goal with |- match ?M with _ => _ end = _ -> _ => destruct M as [[added removed]|]; [|done] end.
  destruct (sort_changed prev next || chg).
  - destruct chg.
    + destruct (assign_list lower ord s1 key _ _ true) as [[[s2 fl2] c2]|] eqn:E2; [|done]. apply assign_all in E2.
      destruct (s_sort _ _ _ _) as [[sr ok]|]; [|done]. destruct (sync_ranges _ _) as [[? ?]|]; [|done].
      intros [= <- _ _]. cbn. congruence.
    + destruct (s_sort _ _ _ _) as [[sr ok]|]; [|done]. destruct (sync_ranges _ _) as [[? ?]|]; [|done].
      intros [= <- _ _]. cbn. congruence.
  - destruct (sync_ranges _ _) as [[? ?]|]; [|done]. intros [= <- _ _]. done.
Qed.

Lemma set_room_new lower ord s r : l_lists s = ∅ -> (forall l, ord l ≡ₚ l) ->
  live_update lower ord s ∅ r = Some ((set_room lower ord s r).1, []).
Proof.
  intros Hl Ho. unfold live_update, set_room. cbn [fst]. rewrite Hl, map_to_list_empty.
  assert (E : ord [] = []) by (apply Permutation_nil; symmetry; apply Ho). rewrite E. cbn [omap list_omap d_lists].
  destruct (l_all s !! _); done.
Qed.

(** * Events of a room *)

Definition evs (x : string) (log : list gevent) : list gevent := filter (fun e => g_room e = x) log.
Definition last_ts (x : string) (log : list gevent) : Z :=
  match last (evs x log) with Some e => g_ts e | None => 0 end.
Definition last_of (t x : string) (log : list gevent) : option (Z * Z) :=
  (fun e => (g_nid e, g_ts e)) <$> last (filter (fun e => g_room e = x /\ g_type e = t) log).

Lemma last_filter_snoc {A} (P : A -> Prop) `{!forall a, Decision (P a)} l a :
  last (filter P (l ++ [a])) = if decide (P a) then Some a else last (filter P l).
Proof. rewrite filter_app. cbn. destruct (decide (P a)); [by rewrite last_snoc|by rewrite app_nil_r]. Qed.

Lemma last_filter_Some {A} (P : A -> Prop) `{!forall a, Decision (P a)} l a :
  last (filter P l) = Some a -> P a /\ exists i, l !! i = Some a /\ forall j b, (i < j)%nat -> l !! j = Some b -> ~ P b.
Proof.
  induction l as [|b l IH] using rev_ind; [done|]. rewrite last_filter_snoc. destruct (decide (P b)) as [Hb|Hb].
  - intros [= ->]. split; [done|]. exists (length l). split; [by rewrite lookup_app_r, Nat.sub_diag by lia|].
    intros j c Hj Hc. apply lookup_lt_Some in Hc. rewrite app_length in Hc. cbn in Hc. lia.
  - intros HL. destruct (IH HL) as (HP & i & Hi & Hlast). split; [done|]. exists i. split; [by apply lookup_app_l_Some|].
    intros j c Hj Hc. apply lookup_app_Some in Hc as [Hc|[Hle Hc]]; [by eapply Hlast|].
    destruct (j - length l)%nat; [|done]. by injection Hc as <-.
Qed.

Lemma last_filter_None {A} (P : A -> Prop) `{!forall a, Decision (P a)} l a :
  last (filter P l) = None -> a ∈ l -> ~ P a.
Proof.
  intros HL Ha HP. apply last_None in HL. assert (Hin : a ∈ filter P l) by (by apply elem_of_list_filter). rewrite HL in Hin. by apply elem_of_nil in Hin.
Qed.

Lemma last_ts_snoc x log e : last_ts x (log ++ [e]) = if decide (g_room e = x) then g_ts e else last_ts x log.
Proof. unfold last_ts, evs. rewrite last_filter_snoc. by destruct (decide _). Qed.
Lemma last_nid_snoc x log e : last_nid x (log ++ [e]) = if decide (g_room e = x) then g_nid e else last_nid x log.
Proof. unfold last_nid. rewrite last_filter_snoc. by destruct (decide _). Qed.
Lemma last_of_snoc t x log e :
  last_of t x (log ++ [e]) = if decide (g_room e = x /\ g_type e = t) then Some (g_nid e, g_ts e) else last_of t x log.
Proof. unfold last_of. rewrite last_filter_snoc. by destruct (decide _). Qed.
Lemma interest_snoc log e x join types : latest_interest (log ++ [e]) x join types =
  if decide (g_room e = x /\ join.1 < g_nid e /\ interesting types e) then g_ts e else latest_interest log x join types.
Proof. unfold latest_interest. rewrite last_filter_snoc. by destruct (decide _). Qed.

Definition numbered (log : list gevent) : Prop := forall i e, log !! i = Some e -> g_nid e = 1 + Z.of_nat i.
Lemma numbered_le log e : numbered log -> e ∈ log -> 0 < g_nid e <= Z.of_nat (length log).
Proof. intros Hn [i Hi]%elem_of_list_lookup. rewrite (Hn i e Hi). apply lookup_lt_Some in Hi. lia. Qed.
Lemma numbered_inj log e e' : numbered log -> e ∈ log -> e' ∈ log -> g_nid e = g_nid e' -> e = e'.
Proof.
  intros Hn [i Hi]%elem_of_list_lookup [j Hj]%elem_of_list_lookup. rewrite (Hn i e Hi), (Hn j e' Hj). intros E.
  assert (i = j) by lia. congruence.
Qed.
Lemma last_nid_ge log e : numbered log -> e ∈ log -> g_nid e <= last_nid (g_room e) log.
Proof.
  intros Hn He. unfold last_nid. destruct (last (filter _ log)) as [e'|] eqn:E.
  - apply last_filter_Some in E as (_ & i & Hi & Hmax). apply elem_of_list_lookup in He as [j Hj].
    rewrite (Hn i e' Hi), (Hn j e Hj). destruct (decide (i < j)%nat) as [Hij|Hij]; [|lia]. by destruct (Hmax j e Hij Hj).
  - by destruct (last_filter_None _ _ e E He).
Qed.
Lemma last_nid_le x log : numbered log -> 0 <= last_nid x log <= Z.of_nat (length log).
Proof.
  intros Hn. unfold last_nid. destruct (last (filter _ log)) as [e'|] eqn:E; [|lia].
  apply last_filter_Some in E as (_ & i & Hi & _). assert (e' ∈ log) by (by eapply elem_of_list_lookup_2). pose proof (numbered_le log e' Hn H). lia.
Qed.

(** The global cache knows the latest events. *)
Definition knows (x : string) (log : list gevent) (m : room_meta) : Prop :=
  m_room m = x /\ m_last_ts m = last_ts x log /\ forall t, m_latest m !! t = last_of t x log.

Lemma on_event_room m e : m_room (on_event m e) = m_room m.
Proof. types e ltac:(branch e). Qed.

Lemma knows_step c log e x :
  (forall x, knows x log (default (new_meta x) (c !! x))) ->
  knows x (log ++ [e]) (default (new_meta x) (on_new_event c e !! x)).
Proof.
  intros H. unfold on_new_event. destruct (decide (g_room e = x)) as [<-|Hx].
  - rewrite lookup_insert. cbn [default from_option id]. specialize (H (g_room e)) as (H1 & H2 & H3).
    set (m := default _ _) in *. split_and!; cbn [set_latest m_room m_last_ts m_latest].
    + by rewrite on_event_room.
    + rewrite last_ts_snoc. by destruct (decide _).
    + intros t. rewrite last_of_snoc, on_event_latest. destruct (decide (g_type e = t)) as [<-|Ht].
      * rewrite lookup_insert. by destruct (decide _) as [|[]].
      * rewrite lookup_insert_ne by done. destruct (decide _) as [[_ ?]|_]; [done|]. apply H3.
  - rewrite lookup_insert_ne by done. specialize (H x) as (H1 & H2 & H3). split_and!; [done| |].
    + rewrite last_ts_snoc. by destruct (decide _).
    + intros t. rewrite last_of_snoc. destruct (decide _) as [[? _]|_]; [done|]. apply H3.
Qed.

Lemma same_room_eq m m' : same_room m m' = true -> m_room m = m_room m' /\ m_last_ts m = m_last_ts m' /\ m_latest m = m_latest m'.
Proof. unfold same_room. rewrite !andb_true_iff, !bool_decide_eq_true. tauto. Qed.
Lemma knows_same x log m m' : same_room m m' = true -> knows x log m -> knows x log m'.
Proof. intros (H1 & H2 & H3)%same_room_eq. unfold knows. by rewrite H1, H2, H3. Qed.

(** * Updates on their way *)

Definition pend (x : string) (s : st) : list upd := filter (fun u => u_of u = x) (s_queue s ++ s_held s).

Lemma is_for_spec x u : is_for x u = true <-> u_of u = x.
Proof. unfold is_for. apply String.eqb_eq. Qed.
Lemma not_held x l : existsb (is_for x) l = false -> filter (fun u => u_of u = x) l = [].
Proof.
  intros H. induction l as [|u l IH]; [done|]. cbn in H. apply orb_false_iff in H as [H1 H2]. rewrite filter_cons.
  destruct (decide (u_of u = x)) as [E|E]; [|by apply IH]. apply is_for_spec in E. congruence.
Qed.

(** Positions of the events among updates. *)
Definition nids (l : list upd) : list Z := omap (fun u => fst <$> u_event u) l.

Record base (lower : string -> string) (s : st) : Prop := mk_base {
  b_nid : numbered (s_log s);
  b_cache : forall x, knows x (s_log s) (default (new_meta x) (s_cache s !! x));
  b_join : forall x j, s_join s !! x = Some j -> exists e, e ∈ s_log s /\ g_room e = x /\ g_nid e = j.1 /\ g_ts e = j.2;
  b_off : s_on s = false -> s_queue s = [] /\ s_held s = [] /\ s_loaded s = false;
  b_new : s_loaded s = false -> s_world s = new_world /\ s_pos s = ∅;
  b_pos : forall x n, s_pos s !! x = Some n -> 0 <= n <= last_nid x (s_log s);
  b_ev : forall u nid t, u ∈ s_queue s ++ s_held s -> u_event u = Some (nid, t) ->
    exists e, e ∈ s_log s /\ g_room e = u_of u /\ g_nid e = nid /\ g_type e = t /\ m_last_ts (c_meta (u_room u)) = g_ts e;
  b_sorted : forall x, StronglySorted Z.lt (nids (pend x s));
  b_cur : forall x u, is_Some (s_join s !! x) -> last (pend x s) = Some u ->
    knows x (s_log s) (c_meta (u_room u)) /\ (forall nid t, u_event u = Some (nid, t) -> nid = last_nid x (s_log s));
  b_now : forall x r, is_Some (s_join s !! x) -> pend x s = [] -> l_all (w_lists (s_world s)) !! x = Some r ->
    knows x (s_log s) (c_meta r);
  b_world : history lower new_world (s_world s)
}.

Lemma history_snoc lower w1 w2 w3 : history lower w1 w2 -> happens lower w2 w3 -> history lower w1 w3.
Proof.
  induction 1 as [w|w1 w2 w3' H1 H2 IH]; intros H; [eapply history_step; [done|apply history_nil]|].
  eapply history_step; [done|by apply IH].
Qed.

Lemma init_base lower : base lower init_st.
Proof.
  split; cbn [init_st s_log s_cache s_join s_on s_loaded s_held s_queue s_pos s_world]; try done.
  - intros u nid t Hu. by apply elem_of_nil in Hu.
  - intros x. constructor.
  - apply history_nil.
Qed.

Lemma knows_other x log e m : g_room e <> x -> knows x log m -> knows x (log ++ [e]) m.
Proof.
  intros Hx (H1 & H2 & H3). split_and!; [done| |].
  - rewrite last_ts_snoc. by destruct (decide _).
  - intros t. rewrite last_of_snoc. destruct (decide _) as [[? _]|_]; [done|]. apply H3.
Qed.

Lemma StronglySorted_snoc_lt l n : StronglySorted Z.lt l -> Forall (fun m => m < n) l -> StronglySorted Z.lt (l ++ [n]).
Proof.
  induction 1 as [|a l HS IH HF]; intros H; cbn; [by repeat constructor|]. apply Forall_cons in H as [Ha Hl]. constructor; [by apply IH|].
  apply Forall_app. split; [done|]. by repeat constructor.
Qed.

Lemma elem_of_nids n l : n ∈ nids l <-> exists u t, u ∈ l /\ u_event u = Some (n, t).
Proof.
  unfold nids. rewrite elem_of_list_omap. split.
  - intros (u & Hu & E). destruct (u_event u) as [[n' t]|] eqn:Eu; [|done]. cbn in E. injection E as ->. by exists u, t.
  - intros (u & t & Hu & E). exists u. split; [done|]. by rewrite E.
Qed.
Lemma nids_app l1 l2 : nids (l1 ++ l2) = nids l1 ++ nids l2.
Proof. apply omap_app. Qed.

(** What handing out an event does to the updates on their way. *)
Lemma hand_out_pend s e r hold join s' :
  (forall x, knows x (s_log s) (default (new_meta x) (s_cache s !! x))) ->
  hand_out s e r hold join = Some s' ->
  s_log s' = s_log s ++ [e] /\ s_cache s' = on_new_event (s_cache s) e /\ s_join s' = join /\ s_on s' = s_on s
  /\ s_loaded s' = s_loaded s /\ s_pos s' = s_pos s /\ s_types s' = s_types s /\ s_world s' = s_world s
  /\ g_nid e = next_nid s /\ knows (g_room e) (s_log s ++ [e]) (c_meta r)
  /\ ((s_on s = true /\ is_Some (join !! g_room e)
       /\ (forall x, pend x s' = pend x s ++ (if decide (g_room e = x) then [mk_upd r (Some (g_nid e, g_type e))] else []))
          /\ forall u', u' ∈ s_queue s' ++ s_held s' -> u' ∈ s_queue s ++ s_held s \/ u' = mk_upd r (Some (g_nid e, g_type e)))
      \/ ((s_on s = false \/ join !! g_room e = None) /\ s_queue s' = s_queue s /\ s_held s' = s_held s)).
Proof.
  intros HK. unfold hand_out. destruct (bool_decide (g_nid e = next_nid s)) eqn:E1; [|done]. apply bool_decide_eq_true in E1. cbn [andb].
  destruct (on_new_event (s_cache s) e !! g_room e) as [m|] eqn:E2; [|done]. destruct (same_room m (c_meta r)) eqn:E3; [|done].
  assert (HKr : knows (g_room e) (s_log s ++ [e]) (c_meta r)).
  { eapply knows_same; [exact E3|]. pose proof (knows_step (s_cache s) (s_log s) e (g_room e) HK) as H. by rewrite E2 in H. }
  set (u := mk_upd r (Some (g_nid e, g_type e))).
  assert (Hu : u_of u = g_room e) by (destruct HKr as [H _]; done).
  destruct (s_on s && bool_decide (is_Some (join !! g_room e))) eqn:E4.
  - apply andb_true_iff in E4 as [E4 E5]. apply bool_decide_eq_true in E5.
    destruct (hold || existsb (is_for (g_room e)) (s_held s)) eqn:E6; intros [= <-]; cbn.
    all: split_and!; try done; left; split_and!; try done.
    + intros x. unfold pend. cbn. rewrite app_assoc, filter_app. f_equal. rewrite filter_cons, filter_nil, <- Hu. done.
    + intros u'. rewrite app_assoc, elem_of_app, elem_of_list_singleton. tauto.
    + apply orb_false_iff in E6 as [_ E6]. intros x. unfold pend. cbn. rewrite !filter_app, filter_cons, filter_nil, <- Hu.
      destruct (decide (u_of u = x)) as [<-|]; [|by rewrite !app_nil_r].
      rewrite <- Hu in E6. by rewrite (not_held _ _ E6), !app_nil_r.
    + intros u'. rewrite !elem_of_app, elem_of_list_singleton. tauto.
  - intros [= <-]. cbn. split_and!; try done. right. split_and!; try done. apply andb_false_iff in E4 as [E4|E4]; [by left|].
    apply bool_decide_eq_false in E4. right. destruct (join !! g_room e) eqn:E; [|done]. by destruct E4.
Qed.

Lemma base_event lower s e r hold join s' : base lower s ->
  (join = s_join s \/ (s_join s !! g_room e = None /\ join = <[g_room e := (g_nid e, g_ts e)]> (s_join s))) ->
  hand_out s e r hold join = Some s' -> base lower s'.
Proof.
  intros B Hj H. apply hand_out_pend in H as (L & C & J & O & LD & P & T & W & N & K & H); [|apply B].
  assert (Hnum : numbered (s_log s ++ [e])).
  { intros i e' Hi. apply lookup_app_Some in Hi as [Hi|[Hle Hi]]; [by apply (b_nid _ _ B)|].
    destruct (i - length (s_log s))%nat as [|k] eqn:Ek; [|done]. injection Hi as <-. rewrite N. unfold next_nid. lia. }
  assert (Hin : e ∈ s_log s ++ [e]) by (apply elem_of_app; right; by left).
  assert (Hold : forall e', e' ∈ s_log s -> e' ∈ s_log s ++ [e]) by (intros; apply elem_of_app; by left).
  assert (Hmono : forall x, last_nid x (s_log s) <= last_nid x (s_log s ++ [e])).
  { intros x. rewrite last_nid_snoc. destruct (decide _) as [_|]; [|lia]. pose proof (last_nid_le x _ (b_nid _ _ B)).
    rewrite N. unfold next_nid. lia. }
  assert (Hjx : forall x, g_room e <> x -> join !! x = s_join s !! x).
  { intros x Hx. destruct Hj as [->|[_ ->]]; [done|]. by rewrite lookup_insert_ne. }
  split.
  - by rewrite L.
  - intros x. rewrite L, C. apply knows_step, B.
  - intros x j. rewrite J, L. intros Hx. destruct (decide (g_room e = x)) as [<-|Hne].
    + destruct Hj as [Hj|[Hn Hj]]; subst join.
      * destruct (b_join _ _ B _ _ Hx) as (e' & H1 & H2). exists e'. split; [by apply Hold|done].
      * rewrite lookup_insert in Hx. injection Hx as <-. by exists e.
    + rewrite Hjx in Hx by done. destruct (b_join _ _ B _ _ Hx) as (e' & H1 & H2). exists e'. split; [by apply Hold|done].
  - rewrite O, LD. intros Ho. destruct (b_off _ _ B Ho) as (H1 & H2 & H3). destruct H as [[Ho' _]|(_ & -> & ->)]; [congruence|done].
  - rewrite LD, W, P. apply B.
  - intros x n. rewrite P, L. intros Hx. pose proof (b_pos _ _ B _ _ Hx). pose proof (Hmono x). lia.
  - intros u nid t Hu Eu. rewrite L. destruct H as [(_ & _ & _ & Hq)|(_ & Hq & Hh)].
    + apply Hq in Hu as [Hu| ->].
      * destruct (b_ev _ _ B u nid t Hu Eu) as (e' & H1 & H2). exists e'. split; [by apply Hold|done].
      * cbn in Eu. injection Eu as <- <-. exists e. destruct K as (K1 & K2 & _). unfold u_of. cbn. rewrite K1, K2, last_ts_snoc.
        by destruct (decide _).
    + rewrite Hq, Hh in Hu. destruct (b_ev _ _ B u nid t Hu Eu) as (e' & H1 & H2). exists e'. split; [by apply Hold|done].
  - intros x. destruct H as [(_ & _ & Hp & _)|(_ & Hq & Hh)].
    + rewrite Hp, nids_app. destruct (decide (g_room e = x)) as [<-|]; [|cbn; rewrite app_nil_r; apply B].
      cbn. apply StronglySorted_snoc_lt; [apply B|]. apply Forall_forall. intros n Hn. apply elem_of_nids in Hn as (u & t & Hu & Eu).
      unfold pend in Hu. apply elem_of_list_filter in Hu as [_ Hu]. destruct (b_ev _ _ B u n t Hu Eu) as (e' & H1 & _ & <- & _).
      pose proof (numbered_le _ _ (b_nid _ _ B) H1). rewrite N. unfold next_nid. lia.
    + unfold pend. rewrite Hq, Hh. apply B.
  - intros x u. rewrite J, L. intros Hx Hu. destruct (decide (g_room e = x)) as [<-|Hne].
    + destruct H as [(_ & _ & Hp & _)|(Ho & Hq & Hh)].
      * rewrite Hp in Hu. destruct (decide _); [|done]. rewrite last_snoc in Hu. injection Hu as <-. cbn. split; [done|].
        intros ? ? [= <- _]. rewrite last_nid_snoc. by destruct (decide _).
      * destruct Ho as [Ho|Ho]; [|rewrite Ho in Hx; by destruct Hx]. destruct (b_off _ _ B Ho) as (H1 & H2 & H3).
        unfold pend in Hu. rewrite Hq, Hh, H1, H2 in Hu. done.
    + rewrite Hjx in Hx by done. assert (Hp : pend x s' = pend x s).
      { destruct H as [(_ & _ & Hp & _)|(Ho & Hq & Hh)]; [rewrite Hp; destruct (decide _); [done|by rewrite app_nil_r]|].
        unfold pend. by rewrite Hq, Hh. }
      rewrite Hp in Hu. destruct (b_cur _ _ B x u Hx Hu) as [H1 H2]. split; [by apply knows_other|].
      intros nid t Eu. rewrite last_nid_snoc. destruct (decide _); [done|]. by eapply H2.
  - intros x r0. rewrite J, L, W. intros Hx Hp Hr. destruct (decide (g_room e = x)) as [<-|Hne].
    + destruct H as [(_ & _ & Hp' & _)|(Ho & Hq & Hh)].
      * rewrite Hp' in Hp. destruct (decide _); [|done]. by destruct (pend (g_room e) s).
      * destruct Ho as [Ho|Ho]; [|rewrite Ho in Hx; by destruct Hx]. destruct (b_off _ _ B Ho) as (H1 & H2 & H3).
        destruct (b_new _ _ B H3) as [Hw _]. rewrite Hw in Hr. done.
    + rewrite Hjx in Hx by done. apply knows_other; [done|]. apply (b_now _ _ B x r0 Hx); [|done].
      destruct H as [(_ & _ & Hp' & _)|(Ho & Hq & Hh)]; [rewrite Hp' in Hp; destruct (decide _); [done|by rewrite app_nil_r in Hp]|].
      unfold pend in Hp. by rewrite Hq, Hh in Hp.
  - rewrite W. apply B.
Qed.

(** * Setting up the connection *)

Lemma stored_ts lower s r key : get_ts key (stored_room lower s r) =
  match l_all s !! m_room (c_meta r) with
  | Some e => match l_lists s !! key with
              | Some _ => default (get_ts key e) (c_ts r !! key)
              | None => m_last_ts (c_meta r)
              end
  | None => get_ts key r
  end.
Proof.
  unfold stored_room. destruct (l_all s !! m_room (c_meta r)) as [e|]; [|done]. unfold get_ts. cbn. unfold merge_ts.
  rewrite map_lookup_imap. destruct (l_lists s !! key); cbn; [|done]. by destruct (c_ts r !! key).
Qed.

Definition load_all (lower : string -> string) (types : gmap string (list string)) (s : st) (l : option rlists) (rooms : list conn_room) : option rlists :=
  foldl (fun l r => match l with Some l => load_one lower types s l r | None => None end) l rooms.
Lemma load_all_None lower types s rooms : load_all lower types s None rooms = None.
Proof. induction rooms as [|r rooms IH]; [done|]. exact IH. Qed.

Lemma load_all_rooms lower types s : forall rooms l l',
  load_all lower types s (Some l) rooms = Some l' -> l_lists l = ∅ -> NoDup (map (fun r => m_room (c_meta r)) rooms) ->
  (forall x, x ∈ map (fun r => m_room (c_meta r)) rooms -> l_all l !! x = None) ->
  l_lists l' = ∅ /\
  (forall vs, history lower (mk_world l ∅ vs) (mk_world l' ∅ vs)) /\
  forall x, match l_all l' !! x with
    | Some r => l_all l !! x = Some r \/
        exists j m, s_join s !! x = Some j /\ s_cache s !! x = Some m /\ same_room m (c_meta r) = true /\
          forall key, get_ts key r = match types !! key with Some ts => load_interest j (c_meta r) ts | None => m_last_ts (c_meta r) end
    | None => l_all l !! x = None /\ x ∉ map (fun r => m_room (c_meta r)) rooms
    end.
Proof.
  induction rooms as [|r rooms IH]; intros l l' H Hl Hnd Hnew.
  - cbn in H. injection H as <-. split_and!; [done| |].
    + intros vs. apply history_nil.
    + intros x. destruct (l_all l !! x); [by left|]. split; [done|]. apply not_elem_of_nil.
  - unfold load_all in H. cbn [foldl] in H. fold (load_all lower types s (load_one lower types s l r) rooms) in H.
    destruct (load_one lower types s l r) as [l1|] eqn:E; [|by rewrite load_all_None in H].
    unfold load_one in E. destruct (s_join s !! m_room (c_meta r)) as [j|] eqn:Ej; [|done].
    destruct (s_cache s !! m_room (c_meta r)) as [m|] eqn:Em; [|done]. destruct (same_room m (c_meta r)) eqn:Es; [|done].
    injection E as E. cbn in Hnd. apply NoDup_cons in Hnd as [Hnin Hnd].
    set (r1 := with_ts r (load_bumps j (c_meta r) types)) in *.
    assert (Hl1 : l_lists l1 = ∅) by (subst l1; cbn; done).
    assert (Hall1 : l_all l1 = <[m_room (c_meta r) := stored_room lower l r1]> (l_all l)) by (subst l1; cbn; done).
    destruct (IH l1 l' H Hl1 Hnd) as (I1 & I2 & I3).
    { intros x Hx. rewrite Hall1, lookup_insert_ne; [|intros <-; done]. apply Hnew. cbn. by right. }
    split_and!; [done| |].
    + intros vs. eapply history_step; [|apply I2].
      pose proof (on_update lower id (mk_world l ∅ vs) r1 l1 []) as HU. cbn [w_lists w_reqs w_views] in HU. apply HU; [done|].
      rewrite set_room_new by done. rewrite <- E. reflexivity.
    + intros x. specialize (I3 x). destruct (l_all l' !! x) as [rx|].
      * destruct I3 as [I3|I3]; [|by right]. rewrite Hall1 in I3. destruct (decide (m_room (c_meta r) = x)) as [<-|Hx].
        -- rewrite lookup_insert in I3. injection I3 as <-. right. exists j, m. rewrite stored_meta. split_and!; [done|done|done|].
           intros key. rewrite stored_ts. cbn [with_ts c_meta r1]. rewrite Hnew by (cbn; left).
           unfold get_ts, r1. cbn [with_ts c_ts c_meta]. unfold load_bumps. rewrite lookup_fmap. by destruct (types !! key).
        -- rewrite lookup_insert_ne in I3 by done. by left.
      * destruct I3 as [I3 I4]. rewrite Hall1 in I3. apply lookup_insert_None in I3 as [I3 Hx]. split; [done|].
        cbn. rewrite not_elem_of_cons. split; [|done]. by intros ->.
Qed.

Lemma history_trans lower w1 w2 w3 : history lower w1 w2 -> history lower w2 w3 -> history lower w1 w3.
Proof. induction 1 as [w|w1 w2 w3' H1 H2 IH]; intros H; [done|]. eapply history_step; [done|by apply IH]. Qed.

(** * What each step does *)

Lemma release_pend x (q h : list upd) i u : h !! i = Some u -> existsb (is_for (u_of u)) (take i h) = false ->
  filter (fun u => u_of u = x) ((q ++ [u]) ++ take i h ++ drop (S i) h) = filter (fun u => u_of u = x) (q ++ h).
Proof.
  intros Hi Hn. apply take_drop_middle in Hi. rewrite <- Hi at 3. rewrite !filter_app, filter_cons, filter_nil. cbn.
  destruct (decide (u_of u = x)) as [<-|Hx]; [|by rewrite app_nil_r].
  rewrite (not_held _ _ Hn). by rewrite <- app_assoc.
Qed.

(** Steps that leave everything alone but the queue of updates, seen per room, and
    positions. *)
Lemma base_same lower s s' : base lower s ->
  s_log s' = s_log s -> s_cache s' = s_cache s -> s_join s' = s_join s -> s_on s' = s_on s -> s_loaded s' = s_loaded s ->
  (forall x, pend x s' = pend x s) -> (forall u, u ∈ s_queue s' ++ s_held s' <-> u ∈ s_queue s ++ s_held s) ->
  (s_loaded s = false -> s_world s' = s_world s /\ s_pos s' = s_pos s) ->
  (forall x n, s_pos s' !! x = Some n -> 0 <= n <= last_nid x (s_log s)) ->
  (forall x r', l_all (w_lists (s_world s')) !! x = Some r' ->
     exists r, l_all (w_lists (s_world s)) !! x = Some r /\ c_meta r = c_meta r') ->
  history lower new_world (s_world s') -> base lower s'.
Proof.
  intros B L C J O LD Hp Hq Hn Hpos Hall Hh. split.
  - rewrite L. apply B.
  - rewrite L, C. apply B.
  - rewrite L, J. apply B.
  - rewrite O, LD. intros Ho. destruct (b_off _ _ B Ho) as (H1 & H2 & H3). rewrite H1, H2 in Hq. split_and!; [| |done].
    + destruct (s_queue s') as [|u q]; [done|]. destruct (proj1 (elem_of_nil u)). apply Hq. left.
    + destruct (s_held s') as [|u q]; [done|]. destruct (proj1 (elem_of_nil u)). apply Hq. apply elem_of_app. right. left.
  - rewrite LD. intros Hl. destruct (Hn Hl) as [-> ->]. by apply B.
  - intros x n Hx. rewrite L. by apply Hpos.
  - intros u nid t Hu. rewrite L. apply Hq in Hu. by apply B.
  - intros x. rewrite Hp. apply B.
  - intros x u. rewrite J, L, Hp. apply B.
  - intros x r. rewrite J, L, Hp. intros Hx Hnp Hr. destruct (Hall x r Hr) as (r0 & Hr0 & <-). by apply (b_now _ _ B x r0).
  - done.
Qed.

Lemma pend_cons x u q h : filter (fun u => u_of u = x) ((u :: q) ++ h) =
  if decide (u_of u = x) then u :: filter (fun u => u_of u = x) (q ++ h) else filter (fun u => u_of u = x) (q ++ h).
Proof. cbn [app]. by rewrite filter_cons. Qed.

Lemma base_step lower s a s' : base lower s -> fine s a -> do lower s a = Some s' -> base lower s'.
Proof.
  intros B Hf H. destruct a as [e r hold|e r hold|r| |types rooms|ord key next chg types|key|i|room n|ord shown]; cbn [do] in H.
  - eapply base_event; [done| |done]. by left.
  - destruct (s_join s !! g_room e) eqn:Ej; [done|]. destruct (String.eqb _ _); [|done].
    eapply base_event; [done| |done]. by right.
  - destruct (same_room _ _) eqn:Es; [|done]. destruct (s_on s) eqn:Eo; [|by injection H as <-]. injection H as <-.
    assert (HK : knows (m_room (c_meta r)) (s_log s) (c_meta r)) by (eapply knows_same; [exact Es|apply B]).
    assert (Hin : forall u', u' ∈ (s_queue s ++ [mk_upd r None]) ++ s_held s -> u' ∈ s_queue s ++ s_held s \/ u' = mk_upd r None).
    { intros u'. rewrite !elem_of_app, elem_of_list_singleton. tauto. }
    assert (Hnids : forall x, nids (filter (fun u => u_of u = x) ((s_queue s ++ [mk_upd r None]) ++ s_held s)) = nids (pend x s)).
    { intros x. unfold pend. rewrite !filter_app, !nids_app, filter_cons, filter_nil. destruct (decide _); cbn; by rewrite app_nil_r. }
    split; cbn [s_log s_cache s_join s_on s_loaded s_held s_queue s_pos s_types s_world]; try apply B.
    + done.
    + intros u nid t Hu Eu. apply Hin in Hu as [Hu| ->]; [|done]. by apply (b_ev _ _ B u).
    + intros x. unfold pend. cbn [s_queue s_held]. rewrite Hnids. apply B.
    + intros x u Hx Hu. unfold pend in Hu. cbn [s_queue s_held] in Hu. rewrite !filter_app, filter_cons, filter_nil in Hu.
      change (u_of (mk_upd r None)) with (m_room (c_meta r)) in Hu.
      (* such an update goes past those held back *)
      destruct (filter (fun u => u_of u = x) (s_held s)) as [|h hs] eqn:Eh.
      * rewrite app_nil_r in Hu. destruct (decide (m_room (c_meta r) = x)) as [<-|Hne].
        -- rewrite last_snoc in Hu. injection Hu as <-. by split.
        -- rewrite app_nil_r in Hu. apply (b_cur _ _ B x u Hx). unfold pend. by rewrite filter_app, Eh, app_nil_r.
      * rewrite last_app_cons in Hu. apply (b_cur _ _ B x u Hx). unfold pend. by rewrite filter_app, Eh, last_app_cons.
    + intros x r0 Hx Hp. unfold pend in Hp. cbn [s_queue s_held] in Hp. rewrite !filter_app in Hp. apply app_eq_nil in Hp as [Hp1 Hp2].
      apply app_eq_nil in Hp1 as [Hp1 _]. apply (b_now _ _ B x r0 Hx). unfold pend. by rewrite filter_app, Hp1, Hp2.
  - injection H as <-. split; cbn [s_log s_cache s_join s_on s_loaded s_held s_queue s_pos s_types s_world]; try apply B. done.
  - destruct (s_on s) eqn:Eo; [|done]. destruct (s_loaded s) eqn:El; [done|]. cbn [andb negb] in H.
    destruct (bool_decide (NoDup _)) eqn:End; [|done]. destruct (bool_decide (_ = dom _)) eqn:Edom; [|done]. cbn [andb] in H.
    apply bool_decide_eq_true in End, Edom.
    destruct (foldl _ _ rooms) as [l|] eqn:E; [|done]. injection H as <-. destruct (b_new _ _ B El) as [Hw Hpos].
    assert (E' : load_all lower types s (Some (w_lists (s_world s))) rooms = Some l) by exact E.
    rewrite Hw in E'. apply load_all_rooms in E' as (I1 & I2 & I3); [|done|done|done].
    split; cbn [s_log s_cache s_join s_on s_loaded s_held s_queue s_pos s_types s_world]; try apply B; try done.
    + intros x n. rewrite map_lookup_imap. destruct (s_join s !! x); [|done]. cbn. intros [= <-].
      pose proof (last_nid_le x _ (b_nid _ _ B)). lia.
    + intros x r Hx Hp Hr. cbn [w_lists] in Hr. specialize (I3 x). rewrite Hr in I3. destruct I3 as [I3|(j & m & _ & Hm & Hs & _)].
      { done. }
      eapply knows_same; [exact Hs|]. pose proof (b_cache _ _ B x) as HK. by rewrite Hm in HK.
    + rewrite Hw. apply I2.
  - destruct (s_loaded s) eqn:El; [|done]. destruct Hf as (Ho & Hg & Hn & Hlw).
    destruct (list_request _ _ _ _ _ _ _) as [[[l ms] subs]|] eqn:E; [|done]. injection H as <-.
    eapply base_same; [exact B|..]; cbn [s_log s_cache s_join s_on s_loaded s_held s_queue s_pos s_types s_world]; try done; try (rewrite El; done).
    + apply B.
    + intros x r' Hr. cbn in Hr. apply list_request_all in E. rewrite E in Hr. by exists r'.
    + eapply history_snoc; [apply B|]. by eapply on_request.
  - destruct (s_loaded s) eqn:El; [|done]. injection H as <-.
    eapply base_same; [exact B|..]; cbn [s_log s_cache s_join s_on s_loaded s_held s_queue s_pos s_types s_world]; try done; try (rewrite El; done).
    + apply B.
    + intros x r'. cbn. rewrite lookup_fmap. destruct (l_all _ !! x) as [r|]; [|done]. cbn. intros [= <-]. by exists r.
    + eapply history_snoc; [apply B|]. apply on_delete.
  - destruct (s_held s !! i) as [u|] eqn:Eu; [|done]. destruct (existsb _ _) eqn:Ex; [done|]. cbn [negb] in H. injection H as <-.
    eapply base_same; [exact B|..]; cbn [s_log s_cache s_join s_on s_loaded s_held s_queue s_pos s_types s_world]; try done.
    + intros x. unfold pend. cbn [s_queue s_held]. by apply release_pend.
    + intros u'. apply take_drop_middle in Eu. rewrite <- Eu at 3. rewrite !elem_of_app, !elem_of_cons, !elem_of_nil. tauto.
    + apply B.
    + intros x r' Hr. by exists r'.
    + apply B.
  - destruct (s_loaded s) eqn:El; [|done]. cbn [andb] in H. destruct (_ <=? n) eqn:E1; [|done]. destruct (n <=? _) eqn:E2; [|done].
    cbn [andb] in H. injection H as <-. apply Z.leb_le in E1, E2.
    eapply base_same; [exact B|..]; cbn [s_log s_cache s_join s_on s_loaded s_held s_queue s_pos s_types s_world]; try done; try (rewrite El; done).
    + intros x n' Hx. destruct (decide (room = x)) as [<-|Hne].
      * rewrite lookup_insert in Hx. injection Hx as <-. split; [|done]. destruct (s_pos s !! room) as [n0|] eqn:E0; cbn in E1; [|lia].
        pose proof (b_pos _ _ B room n0 E0). lia.
      * rewrite lookup_insert_ne in Hx by done. by apply B.
    + intros x r' Hr. by exists r'.
    + apply B.
  - destruct (s_queue s) as [|u q] eqn:Eq; [done|]. destruct (s_loaded s) eqn:El; [|done].
    destruct (bool_decide (dom _ = dom _)) eqn:Ed; [|done]. cbn [andb] in H.
    assert (Hin : forall u', u' ∈ q ++ s_held s -> u' ∈ s_queue s ++ s_held s) by (intros u' Hu; rewrite Eq; cbn; by right).
    assert (Hp : forall x, pend x s = if decide (u_of u = x) then u :: filter (fun u => u_of u = x) (q ++ s_held s)
                                       else filter (fun u => u_of u = x) (q ++ s_held s)).
    { intros x. unfold pend. by rewrite Eq, pend_cons. }
    assert (Hon : s_on s = false -> False).
    { intros Ho. destruct (b_off _ _ B Ho) as (Hq & _). congruence. }
    assert (Hsorted : forall x, StronglySorted Z.lt (nids (filter (fun u => u_of u = x) (q ++ s_held s)))).
    { intros x. pose proof (b_sorted _ _ B x) as HS. rewrite Hp in HS. destruct (decide _); [|done].
      unfold nids in HS. cbn in HS. destruct (u_event u) as [[? ?]|]; cbn in HS; [by destruct (StronglySorted_inv HS)|done]. }
    assert (Hcur : forall x u', is_Some (s_join s !! x) -> last (filter (fun u => u_of u = x) (q ++ s_held s)) = Some u' ->
              last (pend x s) = Some u').
    { intros x u' Hx Hu. rewrite Hp. destruct (decide _); [|done]. by rewrite last_cons, Hu. }
    assert (Hlast : is_Some (s_join s !! u_of u) -> filter (fun u' => u_of u' = u_of u) (q ++ s_held s) = [] -> last (pend (u_of u) s) = Some u).
    { intros Hx Hn. rewrite Hp. destruct (decide _); [|done]. by rewrite Hn. }
    match type of H with (if ?b then _ else _) = _ => destruct b eqn:Eb end.
    + injection H as <-.
      split; cbn [s_log s_cache s_join s_on s_loaded s_held s_queue s_pos s_types s_world]; try apply B; try done.
      * intros u' nid t Hu. by apply B, Hin.
      * intros x u' Hx Hu. unfold pend in Hu. cbn [s_queue s_held] in Hu. by apply B, Hcur.
      * intros x r Hx Hn Hr. unfold pend in Hn. cbn [s_queue s_held] in Hn. destruct (decide (u_of u = x)) as [<-|Hne].
        -- exfalso. destruct (b_cur _ _ B _ _ Hx (Hlast Hx Hn)) as [_ Hl]. destruct (u_event u) as [[nid t]|]; [|done].
           specialize (Hl nid t eq_refl). apply andb_true_iff in Eb as [E1 E2]. apply Z.ltb_lt in E1, E2.
           destruct (s_pos s !! u_of u) as [n0|] eqn:E0; cbn in *; [|lia]. pose proof (b_pos _ _ B _ _ E0). lia.
        -- apply (b_now _ _ B x r Hx); [|done]. rewrite Hp. by destruct (decide _).
    + destruct (live_update _ _ _ _ _) as [[l out]|] eqn:E; [|done]. injection H as <-.
      pose proof (live_update_all _ _ _ _ _ _ _ E) as Hall. cbn [with_ts c_meta] in Hall.
      split; cbn [s_log s_cache s_join s_on s_loaded s_held s_queue s_pos s_types s_world]; try apply B; try done.
      * intros x n Hx. destruct (u_event u) as [[nid t]|] eqn:Eu; [|by apply B]. destruct shown; [|by apply B].
        destruct (decide (u_of u = x)) as [<-|Hne].
        -- rewrite lookup_insert in Hx. injection Hx as <-. destruct (b_ev _ _ B u nid t) as (e & He & Hr & Hn & _); [rewrite Eq; by left|done|].
           pose proof (last_nid_ge _ _ (b_nid _ _ B) He) as Hge. rewrite Hr in Hge. pose proof (numbered_le _ _ (b_nid _ _ B) He). lia.
        -- rewrite lookup_insert_ne in Hx by done. by apply B.
      * intros u' nid t Hu. by apply B, Hin.
      * intros x u' Hx Hu. unfold pend in Hu. cbn [s_queue s_held] in Hu. by apply B, Hcur.
      * intros x r Hx Hn Hr. unfold pend in Hn. cbn [s_queue s_held] in Hn. cbn [w_lists] in Hr. rewrite Hall in Hr.
        fold (u_of u) in Hr. destruct (decide (u_of u = x)) as [<-|Hne].
        -- rewrite lookup_insert in Hr. injection Hr as <-. rewrite stored_meta. cbn [with_ts c_meta].
           by destruct (b_cur _ _ B _ _ Hx (Hlast Hx Hn)) as [HK _].
        -- rewrite lookup_insert_ne in Hr by done. apply (b_now _ _ B x r Hx); [|done]. rewrite Hp. by destruct (decide _).
      * eapply history_snoc; [apply B|]. by eapply on_update.
Qed.

Lemma run_base lower P s : run lower P init_st s -> base lower s.
Proof.
  intros H. remember init_st as s0 eqn:E0. induction H as [s|s1 s2 s3 a H1 IH Hf HP Hd]; [subst; apply init_base|].
  eapply base_step; [by apply IH|done|done].
Qed.
