(** Lemmas about recency: the timestamps of a list. *)
From Verif Require Import Prelude RangeModel RangeSpec OpsModel OpsSpec RoomNameModel GlobalModel GlobalProofs ListsModel ListsSpec SortProofs
  ListsProofs ListsProofs2 LiveListModel LiveListSpec LiveListProofs LiveListProofs2 LiveListProps RecModel RecSpec RecProofs.
Open Scope string_scope.
Open Scope list_scope.
Open Scope Z_scope.

Lemma dom_lists lower s key : base lower s -> dom (s_types s) = dom (w_reqs (s_world s)) ->
  (is_Some (s_types s !! key) <-> is_Some (l_lists (w_lists (s_world s)) !! key)).
Proof.
  intros B Hd. destruct (history_ok lower _ _ (b_world _ _ B) new_world_ok) as [Hw _]. rewrite <- (Hw key).
  rewrite <- !elem_of_dom. by rewrite Hd.
Qed.

(** ** Lists that go by every event *)

Definition plain_ok (key : string) (s : st) : Prop :=
  (forall ts, s_types s !! key = Some ts -> ts = []) /\
  forall x r, l_all (w_lists (s_world s)) !! x = Some r -> get_ts key r = m_last_ts (c_meta r).

Lemma plain_bumps key m ev types : (forall ts, types !! key = Some ts -> ts = []) ->
  default (m_last_ts m) (live_bumps m ev types !! key) = m_last_ts m.
Proof.
  intros H. unfold live_bumps. rewrite lookup_omap. destruct (types !! key) as [ts|] eqn:E; [|done]. by rewrite (H ts eq_refl).
Qed.

Lemma plain_step lower key s a s' : base lower s -> plain_ok key s -> plain key s a -> do lower s a = Some s' -> plain_ok key s'.
Proof.
  intros B [Ht Hts] Hp H. destruct a as [e r hold|e r hold|r| |types rooms|ord k next chg types|k|i|room n|ord shown]; cbn [do] in H.
  - apply hand_out_pend in H as (L & C & J & O & LD & P & T & W & N & K & H); [|apply B]. unfold plain_ok. by rewrite T, W.
  - destruct (s_join s !! g_room e); [done|]. destruct (String.eqb _ _); [|done].
    apply hand_out_pend in H as (L & C & J & O & LD & P & T & W & N & K & H); [|apply B]. unfold plain_ok. by rewrite T, W.
  - destruct (same_room _ _); [|done]. destruct (s_on s); by injection H as <-.
  - by injection H as <-.
  - destruct (s_on s && negb (s_loaded s)) eqn:E0; [|done]. apply andb_true_iff in E0 as [Eo El]. apply negb_true_iff in El. cbn [andb] in H.
    destruct (bool_decide (NoDup _)) eqn:End; [|done]. destruct (bool_decide (_ = dom _)) eqn:Edom; [|done]. cbn [andb] in H.
    apply bool_decide_eq_true in End, Edom.
    destruct (foldl _ _ rooms) as [l|] eqn:E; [|done]. injection H as <-. destruct (b_new _ _ B El) as [Hw Hpos].
    assert (E' : load_all lower types s (Some (w_lists (s_world s))) rooms = Some l) by exact E.
    rewrite Hw in E'. apply load_all_rooms in E' as (I1 & I2 & I3); [|done|done|done].
    cbn in Hp. split; cbn [s_types s_world w_lists].
    + intros ts Hk. by rewrite Hk in Hp.
    + intros x r Hr. specialize (I3 x). rewrite Hr in I3. destruct I3 as [I3|(j & m & _ & _ & _ & Hg)]; [done|].
      rewrite Hg. destruct (types !! key) as [ts|]; [|done]. cbn in Hp. by subst ts.
  - destruct (s_loaded s); [|done]. destruct (list_request _ _ _ _ _ _ _) as [[[l ms] subs]|] eqn:E; [|done]. injection H as <-.
    apply list_request_all in E. unfold plain_ok. cbn [s_types s_world w_lists]. rewrite E. split; [|done].
    intros ts. destruct (decide (k = key)) as [->|Hk]; [|rewrite lookup_insert_ne by done; apply Ht].
    rewrite lookup_insert. intros [= <-]. by apply Hp.
  - destruct (s_loaded s); [|done]. injection H as <-. split; cbn [s_types s_world w_lists].
    + intros ts. rewrite lookup_delete_Some. intros [_ Hk]. by apply Ht.
    + intros x r'. cbn. rewrite lookup_fmap. destruct (l_all _ !! x) as [r|] eqn:Er; [|done]. cbn. intros [= <-]. unfold get_ts. cbn.
      destruct (decide (k = key)) as [->|Hk]; [by rewrite lookup_delete|]. rewrite lookup_delete_ne by done. by apply (Hts x r).
  - destruct (s_held s !! i); [|done]. destruct (negb _); [|done]. by injection H as <-.
  - destruct (_ && _); [|done]. by injection H as <-.
  - destruct (s_queue s) as [|u q] eqn:Eq; [done|]. destruct (s_loaded s) eqn:El; [|done].
    destruct (bool_decide (dom _ = dom _)) eqn:Ed; [|done]. cbn [andb] in H. apply bool_decide_eq_true in Ed.
    match type of H with (if ?b then _ else _) = _ => destruct b eqn:Eb end; [by injection H as <-|].
    destruct (live_update _ _ _ _ _) as [[l out]|] eqn:E; [|done]. injection H as <-.
    pose proof (live_update_all _ _ _ _ _ _ _ E) as Hall. cbn [with_ts c_meta] in Hall.
    split; cbn [s_types s_world w_lists]; [done|]. rewrite Hall. intros x r.
    destruct (decide (m_room (c_meta (u_room u)) = x)) as [<-|Hne]; [|rewrite lookup_insert_ne by done; apply Hts].
    rewrite lookup_insert. intros [= <-]. rewrite stored_ts, stored_meta. cbn [with_ts c_meta c_ts].
    pose proof (plain_bumps key (c_meta (u_room u)) (snd <$> u_event u) (s_types s) Ht) as Hb.
    destruct (l_all _ !! _) as [e|] eqn:Ee; [|exact Hb].
    destruct (l_lists _ !! key) as [fl|] eqn:El'; [|done].
    destruct (proj2 (dom_lists lower s key B Ed)) as [ts Hk]; [by exists fl|].
    unfold live_bumps. rewrite lookup_omap, Hk, (Ht ts Hk). done.
Qed.

Lemma run_plain lower (P : st -> act -> Prop) key s : (forall s a, P s a -> plain key s a) -> run lower P init_st s -> plain_ok key s.
Proof.
  intros HP H. pose proof H as HB. remember init_st as s0 eqn:E0. induction H as [s|s1 s2 s3 a H1 IH Hf Ha Hd].
  - subst s. split; [done|]. intros x r Hr. done.
  - subst s1. exact (plain_step lower key s2 a s3 (run_base _ _ _ H1) (IH eq_refl H1) (HP _ _ Ha) Hd).
Qed.

Lemma quiet_pend x s : quiet x s -> pend x s = [].
Proof.
  intros H. unfold pend, quiet in *. induction (s_queue s ++ s_held s) as [|u l IH]; [done|]. rewrite filter_cons.
  destruct (decide (u_of u = x)) as [E|E]; [destruct (H u); [by left|done]|]. apply IH. intros u' Hu. apply H. by right.
Qed.

(** The latest event of any type since the join is the latest event. *)
Lemma interest_any log x j e : numbered log -> e ∈ log -> g_room e = x -> g_nid e = j.1 -> g_ts e = j.2 ->
  latest_interest log x j [] = last_ts x log.
Proof.
  intros Hn He Hx Hj1 Hj2. unfold latest_interest, last_ts, evs.
  destruct (last (filter (fun e => g_room e = x) log)) as [e1|] eqn:E1; [|by destruct (last_filter_None _ _ e E1 He)].
  pose proof E1 as E1'. apply last_filter_Some in E1' as (H1 & i & Hi & Hmax).
  destruct (last (filter _ log)) as [e2|] eqn:E2 at 1.
  - apply last_filter_Some in E2 as ((H2 & H3 & _) & i2 & Hi2 & Hmax2). f_equal.
    assert (~ (i < i2)%nat) by (intros Hlt; by apply (Hmax i2 e2)).
    assert (~ (i2 < i)%nat).
    { intros Hlt. apply (Hmax2 i e1 Hlt Hi). split_and!; [done| |by left].
      rewrite (Hn i e1 Hi). rewrite (Hn i2 e2 Hi2) in H3. lia. }
    assert (i = i2) by lia. congruence.
  - apply elem_of_list_lookup in He as [k Hk].
    assert (~ (i < k)%nat) by (intros Hlt; by apply (Hmax k e)).
    assert (~ (k < i)%nat).
    { intros Hlt. apply (last_filter_None _ _ e1 E2); [by eapply elem_of_list_lookup_2|]. split_and!; [done| |by left].
      rewrite <- Hj1, (Hn i e1 Hi), (Hn k e Hk). lia. }
    assert (i = k) by lia. congruence.
Qed.

(** ** Lists that go by some types of events *)

Section bump.
Context (lower : string -> string) (key : string) (T : list string) (HT : T <> []) (x : string).

(** What an update does to the timestamp of the room. *)
Definition bump (v : Z) (u : upd) : Z :=
  match u_event u with Some (_, t) => if existsb (String.eqb t) T then m_last_ts (c_meta (u_room u)) else v | None => v end.

(** Updates that are not left out as already sent. *)
Definition counts (lp : Z) (u : upd) : Prop := match u_event u with Some (nid, _) => lp <= nid | None => True end.
Global Instance counts_dec lp u : Decision (counts lp u).
Proof. unfold counts. destruct (u_event u) as [[nid t]|]; apply _. Defined.
Definition after (lp : Z) (v : Z) (l : list upd) : Z := foldl bump v (filter (counts lp) l).

Definition lp_of (s : st) : Z := default 0 (s_pos s !! x).

Definition bump_ok (s : st) : Prop :=
  (s_loaded s = true -> s_types s !! key = Some T) /\
  match s_join s !! x with
  | None => pend x s = [] /\ l_all (w_lists (s_world s)) !! x = None
  | Some j => s_loaded s = true ->
      match l_all (w_lists (s_world s)) !! x with
      | Some r => after (lp_of s) (get_ts key r) (pend x s) = latest_interest (s_log s) x j T
      | None => exists u rest t, pend x s = u :: rest /\ u_event u = Some (j.1, t) /\ m_last_ts (c_meta (u_room u)) = j.2 /\
                  lp_of s <= j.1 /\ after (lp_of s) j.2 rest = latest_interest (s_log s) x j T
      end
  end /\
  (s_loaded s = false -> forall j e e', s_join s !! x = Some j -> e ∈ s_log s -> e' ∈ s_log s -> g_room e = x -> g_room e' = x ->
     j.1 <= g_nid e -> g_nid e <= g_nid e' -> g_ts e <= g_ts e').

Lemma existsb_elem t : existsb (String.eqb t) T = true <-> t ∈ T.
Proof.
  rewrite existsb_exists. split.
  - intros (y & Hy & E). apply String.eqb_eq in E as ->. by apply elem_of_list_In.
  - intros H. exists t. split; [by apply elem_of_list_In|apply String.eqb_refl].
Qed.

Lemma interesting_T e : interesting T e <-> existsb (String.eqb (g_type e)) T = true.
Proof. rewrite existsb_elem. unfold interesting. tauto. Qed.

Lemma live_bumps_T m ev types : types !! key = Some T ->
  live_bumps m ev types !! key = match ev with Some t => if existsb (String.eqb t) T then Some (m_last_ts m) else None | None => None end.
Proof. intros H. unfold live_bumps. rewrite lookup_omap, H. cbn. clear -HT. by destruct T. Qed.

Lemma after_snoc lp v l u : after lp v (l ++ [u]) = if decide (counts lp u) then bump (after lp v l) u else after lp v l.
Proof.
  unfold after. rewrite filter_app, foldl_app, filter_cons, filter_nil. by destruct (decide (counts lp u)).
Qed.
Lemma after_cons lp v l u : after lp v (u :: l) = after lp (if decide (counts lp u) then bump v u else v) l.
Proof. unfold after. rewrite filter_cons. by destruct (decide (counts lp u)). Qed.
Lemma after_ext lp lp' v l : (forall u, u ∈ l -> counts lp u <-> counts lp' u) -> after lp v l = after lp' v l.
Proof.
  unfold after. intros H. f_equal. induction l as [|u l IH]; [done|]. rewrite !filter_cons.
  assert (E : counts lp u <-> counts lp' u) by (apply H; by left).
  rewrite IH by (intros u' Hu; apply H; by right). destruct (decide (counts lp u)), (decide (counts lp' u)); tauto.
Qed.

(** Setting up: the latest of the latest events of each type. *)
Lemma load_interest_spec log m j e0 : numbered log -> knows x log m -> e0 ∈ log -> g_room e0 = x -> g_nid e0 = j.1 -> g_ts e0 = j.2 ->
  (forall e e', e ∈ log -> e' ∈ log -> g_room e = x -> g_room e' = x -> j.1 <= g_nid e -> g_nid e <= g_nid e' -> g_ts e <= g_ts e') ->
  load_interest j m T = latest_interest log x j T.
Proof.
  intros Hn (_ & _ & HK) He0 Hx0 Hj1 Hj2 Hup.
  assert (E : load_interest j m T = foldl (fun acc t => let timing := default (0, 0) (m_latest m !! t) in
           if (j.1 <? timing.1) && (acc <? timing.2) then timing.2 else acc) j.2 T) by (unfold load_interest; by destruct T).
  rewrite E. clear E. unfold latest_interest.
  (* the fold is the least upper bound *)
  assert (Hmax : forall ts acc, let r := foldl (fun acc t => let timing := default (0, 0) (m_latest m !! t) in
           if (j.1 <? timing.1) && (acc <? timing.2) then timing.2 else acc) acc ts in
           acc <= r /\ (forall t, t ∈ ts -> j.1 < (default (0, 0) (m_latest m !! t)).1 -> (default (0, 0) (m_latest m !! t)).2 <= r) /\
           (r = acc \/ exists t, t ∈ ts /\ j.1 < (default (0, 0) (m_latest m !! t)).1 /\ r = (default (0, 0) (m_latest m !! t)).2)).
  { induction ts as [|t ts IH]; intros acc.
    - cbn. split_and!; [lia|intros t Ht; by apply elem_of_nil in Ht|by left].
    - cbn [foldl]. set (timing := default (0, 0) (m_latest m !! t)).
      set (acc1 := if (j.1 <? timing.1) && (acc <? timing.2) then timing.2 else acc).
      specialize (IH acc1) as (I1 & I2 & I3). cbv zeta in *.
      assert (HA : acc <= acc1 /\ (j.1 < timing.1 -> timing.2 <= acc1) /\ (acc1 = acc \/ (j.1 < timing.1 /\ acc1 = timing.2))).
      { unfold acc1. destruct (j.1 <? timing.1) eqn:E1, (acc <? timing.2) eqn:E2; cbn [andb];
          rewrite ?Z.ltb_lt, ?Z.ltb_ge in *; split_and!; try lia; (try by left); (try by right). }
      destruct HA as (A1 & A2 & A3). split_and!; [lia| |].
      + intros t' Ht Hlt. apply elem_of_cons in Ht as [->|Ht]; [fold timing in Hlt |- *; specialize (A2 Hlt); lia|by apply I2].
      + destruct I3 as [->|(t' & Ht' & H1 & H2)].
        * destruct A3 as [->|[A3 ->]]; [by left|]. right. exists t. split_and!; [by left|done|done].
        * right. exists t'. split_and!; [by right|done|done]. }
  specialize (Hmax T j.2) as (M1 & M2 & M3). cbv zeta in *. set (r := foldl _ _ _) in *.
  destruct (last (filter _ log)) as [e|] eqn:El.
  - apply last_filter_Some in El as ((H1 & H2 & H3) & i & Hi & Hlast).
    assert (He : e ∈ log) by (by eapply elem_of_list_lookup_2).
    assert (Hty : g_type e ∈ T) by (destruct H3; [done|done]).
    assert (Hof : last_of (g_type e) x log = Some (g_nid e, g_ts e)).
    { unfold last_of. destruct (last (filter (fun e' => g_room e' = x /\ g_type e' = g_type e) log)) as [e'|] eqn:E'.
      - apply last_filter_Some in E' as ((F1 & F2) & i' & Hi' & Hl'). cbn.
        assert (~ (i' < i)%nat) by (intros Hlt; by apply (Hl' i e)).
        assert (~ (i < i')%nat).
        { intros Hlt. apply (Hlast i' e' Hlt Hi'). split_and!; [done| |right; by rewrite F2].
          rewrite (Hn _ _ Hi'). rewrite (Hn _ _ Hi) in H2. lia. }
        assert (i = i') by lia. by simplify_eq.
      - by destruct (last_filter_None _ _ e E' He). }
    assert (L1 : g_ts e <= r).
    { specialize (M2 (g_type e) Hty). rewrite HK, Hof in M2. cbn in M2. by apply M2. }
    assert (L2 : r <= g_ts e); [|lia].
    destruct M3 as [->|(t & Ht & Hlt & ->)].
    + rewrite <- Hj2. apply Hup; try done; lia.
    + rewrite HK in Hlt |- *. unfold last_of in *. destruct (last (filter (fun e' => g_room e' = x /\ g_type e' = t) log)) as [e'|] eqn:E'; cbn in *.
      * apply last_filter_Some in E' as ((F1 & F2) & i' & Hi' & Hl'). assert (e' ∈ log) by (by eapply elem_of_list_lookup_2).
        apply Hup; try done; [lia|]. rewrite (Hn _ _ Hi'), (Hn _ _ Hi).
        destruct (decide (i < i')%nat) as [Hii|Hii]; [|lia]. exfalso. apply (Hlast i' e' Hii Hi'). split_and!; [done|done|right; by rewrite F2].
      * pose proof (numbered_le _ _ Hn He0). lia.
  - destruct M3 as [->|(t & Ht & Hlt & Hr)]; [done|]. exfalso. rewrite HK in Hlt. unfold last_of in Hlt.
    destruct (last (filter (fun e' => g_room e' = x /\ g_type e' = t) log)) as [e'|] eqn:E'; cbn in *.
    + apply last_filter_Some in E' as ((F1 & F2) & i' & Hi' & Hl'). apply (last_filter_None _ _ e' El); [by eapply elem_of_list_lookup_2|].
      split_and!; [done|done|right; by rewrite F2].
    + pose proof (numbered_le _ _ Hn He0). lia.
Qed.

Lemma counts_old u s : base lower s -> u ∈ pend x s -> forall nid t, u_event u = Some (nid, t) -> 0 < nid <= last_nid x (s_log s).
Proof.
  intros B Hu nid t Eu. apply elem_of_list_filter in Hu as [Hx Hu]. destruct (b_ev _ _ B u nid t Hu Eu) as (e & He & Hr & <- & _).
  pose proof (numbered_le _ _ (b_nid _ _ B) He). pose proof (last_nid_ge _ _ (b_nid _ _ B) He). rewrite Hr, Hx in *. lia.
Qed.

Lemma lp_le s : base lower s -> 0 <= lp_of s <= last_nid x (s_log s).
Proof.
  intros B. unfold lp_of. destruct (s_pos s !! x) as [n|] eqn:E; cbn; [by apply (b_pos _ _ B)|].
  pose proof (last_nid_le x _ (b_nid _ _ B)). lia.
Qed.

Lemma interest_own log j : numbered log -> (forall e, e ∈ log -> g_nid e <= j.1) -> latest_interest log x j T = j.2.
Proof.
  intros Hn H. unfold latest_interest. destruct (last (filter _ log)) as [e|] eqn:E; [|done].
  apply last_filter_Some in E as ((_ & H2 & _) & i & Hi & _). assert (He : e ∈ log) by (by eapply elem_of_list_lookup_2).
  specialize (H e He). lia.
Qed.

(** The event may be left to process although setting up has counted it. *)
Lemma after_load log s v j : base lower s -> log = s_log s -> s_join s !! x = Some j -> v = latest_interest log x j T ->
  after (last_nid x log) v (pend x s) = v.
Proof.
  intros B -> Hj Hv. destruct (b_join _ _ B x j Hj) as (e0 & He0 & Hx0 & Hj1 & Hj2).
  assert (H : forall l, (forall u, u ∈ l -> u ∈ pend x s) -> after (last_nid x (s_log s)) v l = v); [|by apply H].
  induction l as [|u l IH]; intros Hl; [done|]. rewrite after_cons.
  assert (E : (if decide (counts (last_nid x (s_log s)) u) then bump v u else v) = v).
  { destruct (decide _) as [Hc|]; [|done]. unfold counts in Hc. unfold bump. destruct (u_event u) as [[nid t]|] eqn:Eu; [|done].
    destruct (existsb (String.eqb t) T) eqn:Et; [|done]. assert (Hu : u ∈ pend x s) by (apply Hl; by left).
    pose proof (counts_old u s B Hu nid t Eu) as Hle. apply elem_of_list_filter in Hu as [Hux Hu].
    destruct (b_ev _ _ B u nid t Hu Eu) as (e & He & Hr & Hnid & Ht & ->). rewrite Hux in Hr.
    assert (Hmax : forall e', e' ∈ s_log s -> g_room e' = x -> g_nid e' <= g_nid e).
    { intros e' He' Hx'. pose proof (last_nid_ge _ _ (b_nid _ _ B) He') as Hge. rewrite Hx' in Hge. lia. }
    rewrite Hv. unfold latest_interest. destruct (last (filter _ (s_log s))) as [e1|] eqn:E1.
    - apply last_filter_Some in E1 as ((F1 & F2 & F3) & i & Hi & Hlast). assert (He1 : e1 ∈ s_log s) by (by eapply elem_of_list_lookup_2).
      pose proof (Hmax e1 He1 F1). f_equal. apply (numbered_inj _ _ _ (b_nid _ _ B)); try done.
      apply elem_of_list_lookup in He as [k Hk]. rewrite (b_nid _ _ B _ _ Hi), (b_nid _ _ B _ _ Hk) in *.
      destruct (decide (i < k)%nat) as [Hik|Hik]; [|lia]. exfalso. apply (Hlast k e Hik Hk). split_and!; [done| |].
      + rewrite (b_nid _ _ B _ _ Hk). lia.
      + apply interesting_T. by rewrite Ht.
    - destruct (decide (j.1 < g_nid e)) as [Hlt|Hge].
      + exfalso. apply (last_filter_None _ _ e E1 He). split_and!; [done|done|]. apply interesting_T. by rewrite Ht.
      + rewrite <- Hj2. f_equal. apply (numbered_inj _ _ _ (b_nid _ _ B)); try done. specialize (Hmax e0 He0 Hx0). lia. }
  rewrite E. apply IH. intros u' Hu'. apply Hl. by right.
Qed.

Lemma bump_event s e r hold join s' : base lower s -> bump_ok s ->
  (join = s_join s /\ (g_room e = x -> s_loaded s = false -> forall j e', s_join s !! x = Some j ->
      e' ∈ s_log s -> g_room e' = x -> j.1 <= g_nid e' -> g_ts e' <= g_ts e)
   \/ s_join s !! g_room e = None /\ join = <[g_room e := (g_nid e, g_ts e)]> (s_join s)) ->
  hand_out s e r hold join = Some s' -> bump_ok s'.
Proof.
  intros B (I1 & I2 & I3) Hj H. apply hand_out_pend in H as (L & C & J & O & LD & P & Ty & W & N & K & H); [|apply B].
  assert (Hnew : forall e', e' ∈ s_log s -> g_nid e' < g_nid e).
  { intros e' He'. pose proof (numbered_le _ _ (b_nid _ _ B) He'). rewrite N. unfold next_nid. lia. }
  assert (HlpE : lp_of s' = lp_of s) by (unfold lp_of; by rewrite P). pose proof (lp_le s B) as Hlp.
  pose proof (last_nid_le x _ (b_nid _ _ B)) as Hll. assert (Hne : lp_of s < g_nid e) by (rewrite N; unfold next_nid; lia).
  split; [by rewrite LD, Ty|]. rewrite J, W, LD, L, HlpE. destruct (decide (g_room e = x)) as [Hx|Hx].
  - (* an event of the room *)
    destruct Hj as [[-> Hup]|[Hn ->]].
    + destruct (s_join s !! x) as [j|] eqn:Ej.
      * assert (Hjl : j.1 < g_nid e).
        { destruct (b_join _ _ B x j Ej) as (e0 & He0 & _ & <- & _). by apply Hnew. }
        split.
        -- intros Hl. specialize (I2 Hl). destruct H as [(Ho & _ & Hp & _)|([Ho|Ho] & _)].
           2:{ destruct (b_off _ _ B Ho) as (_ & _ & Hl'). congruence. }
           2:{ rewrite Hx in Ho. congruence. }
           assert (Hp' : pend x s' = pend x s ++ [mk_upd r (Some (g_nid e, g_type e))]) by (rewrite Hp; by destruct (decide _)).
           assert (HA : forall v l, after (lp_of s) v (l ++ [mk_upd r (Some (g_nid e, g_type e))]) =
                      if existsb (String.eqb (g_type e)) T then g_ts e else after (lp_of s) v l).
           { intros v l. rewrite after_snoc. destruct (decide _) as [_|Hc]; [|destruct Hc; cbn; lia]. unfold bump. cbn.
             destruct K as (_ & -> & _). rewrite last_ts_snoc, Hx. by destruct (decide _). }
           rewrite interest_snoc.
           assert (HI : (if decide (g_room e = x /\ j.1 < g_nid e /\ interesting T e) then g_ts e else latest_interest (s_log s) x j T) =
                        if existsb (String.eqb (g_type e)) T then g_ts e else latest_interest (s_log s) x j T).
           { pose proof (interesting_T e) as HIT. destruct (decide _) as [(_ & _ & Hi)|Hi], (existsb _ _); try done.
             - exfalso. by apply HIT in Hi.
             - exfalso. apply Hi. split_and!; [done|done|]. by apply HIT. }
           rewrite HI. destruct (l_all (w_lists (s_world s)) !! x) as [rx|].
           ++ rewrite Hp', HA, I2. done.
           ++ destruct I2 as (u & rest & t & Hpu & Eu & Hm & Hle & Ha). exists u, (rest ++ [mk_upd r (Some (g_nid e, g_type e))]), t.
              rewrite Hp', Hpu. split_and!; [done|done|done|done|]. rewrite HA, Ha. done.
        -- intros Hl j' e1 e2 [= <-] He1 He2 H1 H2 Hle1 Hle2. apply elem_of_app in He1 as [He1|He1], He2 as [He2|He2].
           ++ by apply (I3 Hl j).
           ++ apply elem_of_list_singleton in He2 as ->. by apply (Hup Hx Hl j).
           ++ apply elem_of_list_singleton in He1 as ->. specialize (Hnew e2 He2). lia.
           ++ apply elem_of_list_singleton in He1 as ->, He2 as ->. lia.
      * split; [|done]. destruct I2 as [Hp Hl]. split; [|done]. destruct H as [(_ & Ho & _)|(_ & Hq & Hh)].
        -- rewrite Hx, Ej in Ho. by destruct Ho.
        -- unfold pend. by rewrite Hq, Hh.
    + (* the join *)
      rewrite Hx in *. rewrite lookup_insert. rewrite Hn in I2. destruct I2 as [Hp Hl]. split.
      * intros Hld. rewrite Hl. destruct H as [(Ho & _ & Hp' & _)|([Ho|Ho] & _)].
        2:{ destruct (b_off _ _ B Ho) as (_ & _ & Hl'). congruence. }
        2:{ rewrite lookup_insert in Ho. done. }
        specialize (Hp' x). rewrite Hp in Hp'. destruct (decide (x = x)); [|done]. cbn in Hp'.
        eexists _, [], (g_type e). split_and!; [exact Hp'|done| |cbn; lia|].
        -- cbn. destruct K as (_ & -> & _). rewrite last_ts_snoc, Hx. by destruct (decide _).
        -- cbn. symmetry. change (g_ts e) with (g_nid e, g_ts e).2. apply interest_own.
           { intros i e' Hi. apply lookup_app_Some in Hi as [Hi|[Hle Hi]]; [by apply (b_nid _ _ B)|].
             destruct (i - length (s_log s))%nat as [|k] eqn:Ek; [|done]. injection Hi as <-. rewrite N. unfold next_nid. lia. }
           intros e' He'. cbn. apply elem_of_app in He' as [He'|He']; [specialize (Hnew e' He'); lia|].
           apply elem_of_list_singleton in He' as ->. lia.
      * intros Hld j e1 e2 [= <-] He1 He2 H1 H2 Hle1 Hle2. cbn in *.
        apply elem_of_app in He1 as [He1|He1]; [specialize (Hnew e1 He1); lia|].
        apply elem_of_app in He2 as [He2|He2]; [specialize (Hnew e2 He2); apply elem_of_list_singleton in He1 as ->; lia|].
        apply elem_of_list_singleton in He1 as ->, He2 as ->. lia.
  - (* another room *)
    assert (Hjx : join !! x = s_join s !! x).
    { destruct Hj as [[-> _]|[_ ->]]; [done|]. by rewrite lookup_insert_ne. }
    assert (Hp : pend x s' = pend x s).
    { destruct H as [(_ & _ & Hp & _)|(Ho & Hq & Hh)]; [rewrite Hp; destruct (decide _); [done|by rewrite app_nil_r]|].
      unfold pend. by rewrite Hq, Hh. }
    rewrite Hjx, Hp. assert (HI : forall j, latest_interest (s_log s ++ [e]) x j T = latest_interest (s_log s) x j T).
    { intros j. rewrite interest_snoc. destruct (decide _) as [[? _]|]; done. }
    split.
    + destruct (s_join s !! x) as [j|]; [|done]. by rewrite HI.
    + intros Hl j e1 e2 Ej He1 He2 H1 H2. apply elem_of_app in He1 as [He1|He1]; [|apply elem_of_list_singleton in He1 as ->; done].
      apply elem_of_app in He2 as [He2|He2]; [|apply elem_of_list_singleton in He2 as ->; done]. by apply (I3 Hl j).
Qed.

(** Steps that change nothing the timestamp of the room depends on. *)
Lemma bump_same s s' : bump_ok s ->
  s_loaded s' = s_loaded s -> s_types s' !! key = s_types s !! key -> s_join s' = s_join s -> s_log s' = s_log s ->
  s_pos s' !! x = s_pos s !! x -> pend x s' = pend x s ->
  (forall r, l_all (w_lists (s_world s)) !! x = Some r -> exists r', l_all (w_lists (s_world s')) !! x = Some r' /\ get_ts key r' = get_ts key r) ->
  (l_all (w_lists (s_world s)) !! x = None -> l_all (w_lists (s_world s')) !! x = None) -> bump_ok s'.
Proof.
  intros (I1 & I2 & I3) Hl Ht Hj HL Hpos Hp Hr Hn. unfold bump_ok, lp_of. rewrite Hl, Ht, Hj, HL, Hpos, Hp.
  split_and!; [done| |done]. destruct (s_join s !! x) as [j|].
  - intros HH. specialize (I2 HH). destruct (l_all (w_lists (s_world s)) !! x) as [r|].
    + destruct (Hr r eq_refl) as (r' & -> & ->). done.
    + rewrite (Hn eq_refl). done.
  - destruct I2 as [H1 H2]. split; [done|]. by apply Hn.
Qed.

Lemma bump_step s a s' : base lower s -> bump_ok s -> calm key T x s a -> fine s a -> do lower s a = Some s' -> bump_ok s'.
Proof.
  intros B HI (Ha & Hrb & Hjf & Hcu) Hf H. pose proof HI as (I1 & I2 & I3).
  destruct a as [e r hold|e r hold|r| |types rooms|ord k next chg types|k|i|room n|ord shown]; cbn [do] in H.
  - eapply bump_event; [done|done| |done]. left. split; [done|]. intros Hx Hl j e' Hj. by apply (Hrb Hx Hl j).
  - destruct (s_join s !! g_room e) eqn:Ej; [done|]. destruct (String.eqb _ _); [|done].
    eapply bump_event; [done|done| |done]. by right.
  - destruct (same_room _ _) eqn:Es; [|done]. destruct (s_on s) eqn:Eo; [|by injection H as <-]. injection H as <-.
    destruct (decide (m_room (c_meta r) = x)) as [Hx|Hx].
    + destruct (Hjf Hx) as [[j Ej] Hk]. unfold bump_ok, lp_of.
      cbn [s_log s_cache s_join s_on s_loaded s_held s_queue s_pos s_types s_world]. rewrite Ej in *.
      split_and!; [done| |done]. intros Hl. specialize (I2 Hl). destruct (Hk Hl) as [r0 Hr0]. rewrite Hr0 in *. rewrite <- I2.
      unfold pend. cbn [s_queue s_held]. fold (lp_of s). rewrite !filter_app, filter_cons, filter_nil.
      change (u_of (mk_upd r None)) with (m_room (c_meta r)). destruct (decide _); [|done].
      unfold after. rewrite <- !app_assoc, !filter_app, !foldl_app, filter_cons, filter_nil. by destruct (decide _).
    + eapply bump_same; [exact HI|..]; cbn [s_log s_cache s_join s_on s_loaded s_held s_queue s_pos s_types s_world]; try done.
      * unfold pend. cbn [s_queue s_held]. rewrite !filter_app, filter_cons, filter_nil.
        change (u_of (mk_upd r None)) with (m_room (c_meta r)). destruct (decide _); [done|]. by rewrite app_nil_r.
      * intros r0 Hr0. by exists r0.
  - injection H as <-. exact HI.
  - destruct (s_on s) eqn:Eo; [|done]. destruct (s_loaded s) eqn:El; [done|]. cbn [andb negb] in H.
    destruct (bool_decide (NoDup _)) eqn:End; [|done]. destruct (bool_decide (_ = dom _)) eqn:Edom; [|done]. cbn [andb] in H.
    apply bool_decide_eq_true in End, Edom.
    destruct (foldl _ _ rooms) as [l|] eqn:E; [|done]. injection H as <-. destruct (b_new _ _ B El) as [Hw Hpos].
    assert (E' : load_all lower types s (Some (w_lists (s_world s))) rooms = Some l) by exact E.
    rewrite Hw in E'. apply load_all_rooms in E' as (J1 & J2 & J3); [|done|done|done].
    unfold bump_ok, lp_of. cbn [s_log s_cache s_join s_on s_loaded s_held s_queue s_pos s_types s_world w_lists].
    split_and!; [done| |done]. specialize (J3 x). destruct (s_join s !! x) as [j|] eqn:Ej.
    + intros _. rewrite map_lookup_imap, Ej. cbn [default from_option id].
      destruct (l_all l !! x) as [r|].
      * destruct J3 as [J3|(j' & m & Hj' & Hm & Hs & Hg)]; [done|]. rewrite Hg, Ha. injection Hj' as <-.
        destruct (b_join _ _ B x j Ej) as (e0 & He0 & Hx0 & Hj1 & Hj2).
        assert (HK : knows x (s_log s) (c_meta r)).
        { eapply knows_same; [exact Hs|]. pose proof (b_cache _ _ B x) as HK. by rewrite Hm in HK. }
        rewrite (load_interest_spec (s_log s) (c_meta r) j e0 (b_nid _ _ B) HK He0 Hx0 Hj1 Hj2).
        -- by apply (after_load (s_log s) s _ j).
        -- intros e1 e2. by apply (I3 eq_refl j).
      * destruct J3 as [_ J3]. exfalso. apply J3. apply (elem_of_list_to_set (C := gset string)). rewrite Edom. apply elem_of_dom. by exists j.
    + destruct I2 as [Hp _]. split; [exact Hp|]. destruct (l_all l !! x) as [r|]; [|done].
      destruct J3 as [J3|(j' & m & Hj' & _)]; done.
  - destruct (s_loaded s) eqn:El; [|done]. destruct (list_request _ _ _ _ _ _ _) as [[[l ms] subs]|] eqn:E; [|done]. injection H as <-.
    apply list_request_all in E.
    eapply bump_same; [exact HI|..]; cbn [s_log s_cache s_join s_on s_loaded s_held s_queue s_pos s_types s_world w_lists]; try done.
    + destruct (decide (k = key)) as [->|Hk]; [|by rewrite lookup_insert_ne]. rewrite lookup_insert. specialize (Ha eq_refl). cbn in Ha. rewrite Ha. symmetry. by apply I1.
    + intros r Hr. exists r. by rewrite E.
    + by rewrite E.
  - destruct (s_loaded s) eqn:El; [|done]. injection H as <-. cbn in Ha.
    eapply bump_same; [exact HI|..]; cbn [s_log s_cache s_join s_on s_loaded s_held s_queue s_pos s_types s_world w_lists]; try done.
    + by rewrite lookup_delete_ne.
    + intros r Hr. cbn. rewrite lookup_fmap, Hr. eexists. split; [done|]. unfold get_ts. cbn. by rewrite lookup_delete_ne.
    + intros Hr. cbn. by rewrite lookup_fmap, Hr.
  - destruct (s_held s !! i) as [u|] eqn:Eu; [|done]. destruct (existsb _ _) eqn:Ex; [done|]. cbn [negb] in H. injection H as <-.
    eapply bump_same; [exact HI|..]; cbn [s_log s_cache s_join s_on s_loaded s_held s_queue s_pos s_types s_world]; try done.
    + unfold pend. cbn [s_queue s_held]. by apply release_pend.
    + intros r Hr. by exists r.
  - destruct (s_loaded s) eqn:El; [|done]. cbn [andb] in H. destruct (_ <=? n) eqn:E1; [|done]. destruct (n <=? _) eqn:E2; [|done].
    cbn [andb] in H. injection H as <-. apply Z.leb_le in E1, E2. cbn in Hcu.
    destruct (decide (room = x)) as [->|Hne].
    2:{ eapply bump_same; [exact HI|..]; cbn [s_log s_cache s_join s_on s_loaded s_held s_queue s_pos s_types s_world]; try done.
        - by rewrite lookup_insert_ne.
        - intros r Hr. by exists r. }
    unfold bump_ok, lp_of. cbn [s_log s_cache s_join s_on s_loaded s_held s_queue s_pos s_types s_world].
    rewrite lookup_insert. cbn [default from_option id]. split_and!; [done| |done].
    assert (HE : forall v l, (forall u, u ∈ l -> u ∈ pend x s) -> after n v l = after (lp_of s) v l).
    { intros v l Hl. apply after_ext. intros u Hu. specialize (Hl u Hu). apply elem_of_list_filter in Hl as [Hx Hu']. unfold counts.
      destruct (u_event u) as [[nid t]|] eqn:Eu; [|done]. specialize (Hcu eq_refl u nid t Hu' Hx Eu). fold (lp_of s) in E1, Hcu. lia. }
    destruct (s_join s !! x) as [j|]; [|exact I2]. intros Hl. specialize (I2 eq_refl).
    destruct (l_all (w_lists (s_world s)) !! x) as [r|].
    + change (pend x _) with (pend x s). rewrite HE by done. exact I2.
    + destruct I2 as (u & rest & t & Hpu & Eu & Hm & Hle & Haf). exists u, rest, t. change (pend x _) with (pend x s).
      rewrite HE by (intros u' Hu'; rewrite Hpu; by right). split_and!; try done.
      assert (Hu : u ∈ pend x s) by (rewrite Hpu; by left). apply elem_of_list_filter in Hu as [Hx Hu].
      specialize (Hcu eq_refl u j.1 t Hu Hx Eu). fold (lp_of s) in Hcu. lia.
  - destruct (s_queue s) as [|u q] eqn:Eq; [done|]. destruct (s_loaded s) eqn:El; [|done].
    destruct (bool_decide (dom _ = dom _)) eqn:Ed; [|done]. cbn [andb] in H. apply bool_decide_eq_true in Ed.
    specialize (I1 eq_refl).
    assert (Hp : pend x s = if decide (u_of u = x) then u :: filter (fun u => u_of u = x) (q ++ s_held s)
                                       else filter (fun u => u_of u = x) (q ++ s_held s)).
    { unfold pend. by rewrite Eq, pend_cons. }
    assert (Hfl : is_Some (l_lists (w_lists (s_world s)) !! key)).
    { apply (dom_lists lower s key B Ed). by exists T. }
    destruct (decide (u_of u = x)) as [Hx|Hx].
    2:{ match type of H with (if ?b then _ else _) = _ => destruct b eqn:Eb end.
        - injection H as <-.
          eapply bump_same; [exact HI|..]; cbn [s_log s_cache s_join s_on s_loaded s_held s_queue s_pos s_types s_world]; try done.
          intros r Hr. by exists r.
        - destruct (live_update _ _ _ _ _) as [[l out]|] eqn:E; [|done]. injection H as <-.
          pose proof (live_update_all _ _ _ _ _ _ _ E) as Hall. cbn [with_ts c_meta] in Hall. fold (u_of u) in Hall.
          eapply bump_same; [exact HI|..]; cbn [s_log s_cache s_join s_on s_loaded s_held s_queue s_pos s_types s_world w_lists]; try done.
          + destruct (u_event u) as [[nid t]|]; [|done]. destruct shown; [|done]. by rewrite lookup_insert_ne.
          + intros r Hr. exists r. rewrite Hall. by rewrite lookup_insert_ne.
          + intros Hr. rewrite Hall. by rewrite lookup_insert_ne. }
    destruct (s_join s !! x) as [j|] eqn:Ej; [|destruct I2 as [I2 _]; congruence]. specialize (I2 eq_refl).
    (* later events of the room come later *)
    set (rest := filter (fun u => u_of u = x) (q ++ s_held s)) in *.
    assert (Hlater : forall nid t u' nid' t', u_event u = Some (nid, t) -> u' ∈ rest -> u_event u' = Some (nid', t') -> nid < nid').
    { intros nid t u' nid' t' Eu Hu' Eu'. pose proof (b_sorted _ _ B x) as HS. rewrite Hp in HS. unfold nids in HS. cbn in HS.
      rewrite Eu in HS. cbn in HS. apply StronglySorted_inv in HS as [_ HS]. rewrite Forall_forall in HS. apply HS.
      apply elem_of_nids. by exists u', t'. }
    rewrite Hx in H. fold (lp_of s) in H.
    match type of H with (if ?b then _ else _) = _ => destruct b eqn:Eb end.
    + (* left out *)
      injection H as <-. unfold bump_ok, lp_of. cbn [s_log s_cache s_join s_on s_loaded s_held s_queue s_pos s_types s_world].
      rewrite Ej. split_and!; [done| |done]. intros _. unfold pend. cbn [s_queue s_held]. fold rest. fold (lp_of s).
      destruct (u_event u) as [[nid t]|] eqn:Eu; [|done]. apply andb_true_iff in Eb as [Eb1 Eb2]. apply Z.ltb_lt in Eb1, Eb2.
      destruct (l_all (w_lists (s_world s)) !! x) as [r|].
      * rewrite Hp, after_cons in I2. destruct (decide (counts (lp_of s) u)) as [Hc|Hc]; [|exact I2].
        unfold counts in Hc. rewrite Eu in Hc. lia.
      * destruct I2 as (u0 & rest0 & t0 & Hpu & Eu0 & _ & Hle & _). rewrite Hp in Hpu. injection Hpu as -> _. rewrite Eu0 in Eu. injection Eu as <- _. lia.
    + destruct (live_update _ _ _ _ _) as [[l out]|] eqn:E; [|done]. injection H as <-.
      pose proof (live_update_all _ _ _ _ _ _ _ E) as Hall. cbn [with_ts c_meta] in Hall. fold (u_of u) in Hall. rewrite Hx in Hall.
      unfold bump_ok, lp_of. cbn [s_log s_cache s_join s_on s_loaded s_held s_queue s_pos s_types s_world w_lists].
      rewrite Ej, Hall, lookup_insert. split_and!; [done| |done]. intros _. unfold pend. cbn [s_queue s_held]. fold rest.
      rewrite stored_ts. cbn [with_ts c_meta c_ts]. fold (u_of u). rewrite Hx. destruct Hfl as [fl Hfl]. rewrite Hfl.
      (* being shown does not leave out anything else *)
      assert (HE : forall v, after (default 0 (match u_event u with
                        | Some (nid, _) => if shown then <[x := nid]> (s_pos s) else s_pos s | None => s_pos s end !! x)) v rest =
                   after (lp_of s) v rest).
      { intros v. destruct (u_event u) as [[nid t]|] eqn:Eu; [|done]. destruct shown; [|done]. rewrite lookup_insert. cbn.
        apply after_ext. intros u' Hu'. unfold counts. destruct (u_event u') as [[nid' t']|] eqn:Eu'; [|done].
        pose proof (Hlater nid t u' nid' t' eq_refl Hu' Eu'). pose proof (lp_le s B).
        apply andb_false_iff in Eb as [Eb|Eb]; apply Z.ltb_ge in Eb; [|lia].
        assert (0 < nid); [|lia]. assert (Hu : u ∈ pend x s) by (rewrite Hp; by left).
        by destruct (counts_old u s B Hu nid t Eu). }
      rewrite HE.
      assert (Hc : counts (lp_of s) u).
      { unfold counts. destruct (u_event u) as [[nid t]|] eqn:Eu; [|done]. pose proof (lp_le s B).
        apply andb_false_iff in Eb as [Eb|Eb]; apply Z.ltb_ge in Eb; [|lia].
        assert (Hu : u ∈ pend x s) by (rewrite Hp; by left). pose proof (counts_old u s B Hu nid t Eu). lia. }
      assert (HB : forall v, default v (live_bumps (c_meta (u_room u)) (snd <$> u_event u) (s_types s) !! key) = bump v u).
      { intros v. rewrite (live_bumps_T _ _ _ I1). unfold bump. destruct (u_event u) as [[nid t]|]; cbn; [|done]. by destruct (existsb _ _). }
      destruct (l_all (w_lists (s_world s)) !! x) as [r|].
      * rewrite HB. rewrite Hp, after_cons in I2. by destruct (decide (counts (lp_of s) u)).
      * destruct I2 as (u0 & rest0 & t0 & Hpu & Eu0 & Hm & Hle & Haf). rewrite Hp in Hpu. injection Hpu as <- <-.
        rewrite <- Haf. f_equal. change (default (m_last_ts (c_meta (u_room u))) (live_bumps (c_meta (u_room u)) (snd <$> u_event u) (s_types s) !! key) = j.2).
        rewrite HB. unfold bump. rewrite Eu0. destruct (existsb _ _); done.
Qed.
End bump.
