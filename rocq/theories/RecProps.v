(** C93: lists sorted by recency go by the events the client asked for. *)
From Verif Require Import Prelude RangeModel RangeSpec OpsModel OpsSpec RoomNameModel GlobalModel GlobalProofs ListsModel ListsSpec SortProofs
  ListsProofs ListsProofs2 LiveListModel LiveListSpec LiveListProofs LiveListProofs2 LiveListProps RecModel RecSpec RecProofs RecProofs2.
Open Scope string_scope.
Open Scope list_scope.
Open Scope Z_scope.

(** Two rooms of a list sorted by recency. *)
Lemma listed_ts lower s key a b : base lower s -> sorted_by_recency key s -> listed_before key s a b ->
  exists ra rb, l_all (w_lists (s_world s)) !! a = Some ra /\ l_all (w_lists (s_world s)) !! b = Some rb /\ get_ts key rb <= get_ts key ra.
Proof.
  intros B (rq & rest & Hrq & Hs) (fl & i & j & Hfl & Hij & Ha & Hb).
  destruct (history_ok lower _ _ (b_world _ _ B) new_world_ok) as [_ Hok].
  destruct (Hok key rq fl Hrq Hfl) as (_ & [_ Hk] & Ho & _).
  destruct (Hk a) as [ra Hra]; [by eapply elem_of_list_lookup_2|]. destruct (Hk b) as [rb Hrb]; [by eapply elem_of_list_lookup_2|].
  exists ra, rb. split_and!; [done|done|]. specialize (Ho i j a b ra rb Hij Ha Hb Hra Hrb). rewrite Hs in Ho. cbn in Ho.
  destruct (decide (get_ts key rb <= get_ts key ra)) as [|Hlt]; [done|]. destruct Ho. left. right. left. split; [done|lia].
Qed.

(** C93, lists without bump_event_types: as long as the client asks for no types in a
    list, the room with the later event comes first, once all updates of the rooms are
    processed. *)
Theorem C93_any_event_partial :
  forall lower key s a b ja jb,
  run lower (plain key) init_st s -> sorted_by_recency key s -> listed_before key s a b ->
  s_join s !! a = Some ja -> s_join s !! b = Some jb -> quiet a s -> quiet b s ->
  latest_interest (s_log s) b jb [] <= latest_interest (s_log s) a ja [].
Proof.
  intros lower key s a b ja jb H Hs Hl Hja Hjb Hqa Hqb. pose proof (run_base _ _ _ H) as B.
  destruct (run_plain lower (plain key) key s (fun _ _ Hp => Hp) H) as [_ Hts].
  destruct (listed_ts lower s key a b B Hs Hl) as (ra & rb & Hra & Hrb & Hle).
  rewrite (Hts a ra Hra), (Hts b rb Hrb) in Hle.
  assert (HH : forall x r j, l_all (w_lists (s_world s)) !! x = Some r -> s_join s !! x = Some j -> quiet x s ->
            latest_interest (s_log s) x j [] = m_last_ts (c_meta r)).
  { intros x r j Hr Hj Hq. destruct (b_join _ _ B x j Hj) as (e & He & Hx & Hj1 & Hj2).
    rewrite (interest_any _ x j e (b_nid _ _ B) He Hx Hj1 Hj2).
    destruct (b_now _ _ B x r) as (_ & Hm & _); [by exists j|by apply quiet_pend|done|]. by rewrite Hm. }
  rewrite (HH a ra ja), (HH b rb jb); done.
Qed.
Print Assumptions C93_any_event_partial.

Lemma run_bump lower (P : st -> act -> Prop) key T x s : T <> [] -> (forall s a, P s a -> calm key T x s a) ->
  run lower P init_st s -> bump_ok key T x s.
Proof.
  intros HT HP H. remember init_st as s0 eqn:E0. induction H as [s|s1 s2 s3 a H1 IH Hf Ha Hd].
  - subst s. split_and!; [done| |done]. cbn. by split.
  - subst s1. exact (bump_step lower key T HT x s2 a s3 (run_base _ _ _ H1) (IH eq_refl) (HP _ _ Ha) Hf Hd).
Qed.

(** C93, lists with bump_event_types: of two rooms that are calm (see RecSpec.v), the one
    with the later event of these types comes first, once all their updates are
    processed. *)
Theorem C93_types_partial :
  forall lower key types s a b ja jb, types <> [] ->
  run lower (fun s act => calm key types a s act /\ calm key types b s act) init_st s ->
  sorted_by_recency key s -> listed_before key s a b ->
  s_join s !! a = Some ja -> s_join s !! b = Some jb -> quiet a s -> quiet b s ->
  latest_interest (s_log s) b jb types <= latest_interest (s_log s) a ja types.
Proof.
  intros lower key types s a b ja jb HT H Hs Hl Hja Hjb Hqa Hqb. pose proof (run_base _ _ _ H) as B.
  destruct (listed_ts lower s key a b B Hs Hl) as (ra & rb & Hra & Hrb & Hle).
  assert (HL : s_loaded s = true).
  { destruct (s_loaded s) eqn:El; [done|]. destruct (b_new _ _ B El) as [Hw _]. rewrite Hw in Hra. done. }
  assert (HH : forall x r j, bump_ok key types x s -> l_all (w_lists (s_world s)) !! x = Some r -> s_join s !! x = Some j -> quiet x s ->
            latest_interest (s_log s) x j types = get_ts key r).
  { intros x r j (_ & I2 & _) Hr Hj Hq. rewrite Hj, Hr, (quiet_pend x s Hq) in I2. specialize (I2 HL). by rewrite <- I2. }
  rewrite (HH a ra ja), (HH b rb jb); try done.
  - eapply run_bump; [done| |exact H]. by intros ? ? [_ ?].
  - eapply run_bump; [done| |exact H]. by intros ? ? [? _].
Qed.
Print Assumptions C93_types_partial.

(** Under the same guard, every room the user is in is known to the connection once it
    is quiet, and is ranked by its latest interesting event. *)
Theorem C93_ranked_by_types_partial :
  forall lower key types s x j, types <> [] ->
  run lower (calm key types x) init_st s -> s_loaded s = true -> s_join s !! x = Some j -> quiet x s ->
  exists r, l_all (w_lists (s_world s)) !! x = Some r /\ get_ts key r = latest_interest (s_log s) x j types.
Proof.
  intros lower key types s x j HT H HL Hj Hq.
  destruct (run_bump lower (calm key types x) key types x s HT (fun _ _ Hp => Hp) H) as (_ & I2 & _).
  rewrite Hj, (quiet_pend x s Hq) in I2. specialize (I2 HL). destruct (l_all _ !! x) as [r|]; [by exists r|].
  destruct I2 as (u & rest & t & Hn & _). done.
Qed.
Print Assumptions C93_ranked_by_types_partial.

(** ** The timestamp sent with a room *)

Lemma run_rising lower x s : run lower (rising x) init_st s ->
  forall e e', e ∈ s_log s -> e' ∈ s_log s -> g_room e = x -> g_room e' = x -> 0 <= g_ts e /\ (g_nid e <= g_nid e' -> g_ts e <= g_ts e').
Proof.
  intros H. remember init_st as s0 eqn:E0. induction H as [s|s1 s2 s3 a H1 IH Hf Ha Hd].
  - subst s. intros e e' He. by apply elem_of_nil in He.
  - subst s1. specialize (IH eq_refl). pose proof (run_base _ _ _ H1) as B.
    assert (HE : forall e, s_log s3 = s_log s2 ++ [e] -> g_nid e = next_nid s2 ->
              (g_room e = x -> 0 <= g_ts e /\ forall e', e' ∈ s_log s2 -> g_room e' = x -> g_ts e' <= g_ts e) ->
              forall e1 e2, e1 ∈ s_log s3 -> e2 ∈ s_log s3 -> g_room e1 = x -> g_room e2 = x -> 0 <= g_ts e1 /\ (g_nid e1 <= g_nid e2 -> g_ts e1 <= g_ts e2)).
    { intros e L N Hup e1 e2 He1 He2 Hx1 Hx2. rewrite L in He1, He2. apply elem_of_app in He1 as [He1|He1], He2 as [He2|He2].
      - by apply IH.
      - apply elem_of_list_singleton in He2 as ->. split; [by destruct (IH e1 e1)|]. intros _. by apply Hup.
      - apply elem_of_list_singleton in He1 as ->. split; [by apply Hup|]. pose proof (numbered_le _ _ (b_nid _ _ B) He2) as Hle.
        rewrite N. unfold next_nid. lia.
      - apply elem_of_list_singleton in He1 as ->, He2 as ->. split; [by apply Hup|lia]. }
    assert (HS : s_log s3 = s_log s2 -> forall e1 e2, e1 ∈ s_log s3 -> e2 ∈ s_log s3 -> g_room e1 = x -> g_room e2 = x ->
              0 <= g_ts e1 /\ (g_nid e1 <= g_nid e2 -> g_ts e1 <= g_ts e2)) by (by intros ->).
    destruct a as [e r hold|e r hold|r| |types rooms|ord k next chg types|k|i|room n|ord shown]; cbn [do] in Hd.
    + apply hand_out_pend in Hd as (L & C & J & O & LD & P & Ty & W & N & K & Hd); [|apply B]. by apply (HE e).
    + destruct (s_join s2 !! g_room e); [done|]. destruct (String.eqb _ _); [|done].
      apply hand_out_pend in Hd as (L & C & J & O & LD & P & Ty & W & N & K & Hd); [|apply B]. by apply (HE e).
    + destruct (same_room _ _); [|done]. destruct (s_on s2); injection Hd as <-; by apply HS.
    + injection Hd as <-. by apply HS.
    + destruct (_ && _); [|done]. destruct (foldl _ _ _); [|done]. injection Hd as <-. by apply HS.
    + destruct (s_loaded s2); [|done]. destruct (list_request _ _ _ _ _ _ _) as [[[l ms] subs]|]; [|done]. injection Hd as <-. by apply HS.
    + destruct (s_loaded s2); [|done]. injection Hd as <-. by apply HS.
    + destruct (s_held s2 !! i); [|done]. destruct (negb _); [|done]. injection Hd as <-. by apply HS.
    + destruct (_ && _); [|done]. injection Hd as <-. by apply HS.
    + destruct (s_queue s2) as [|u q]; [done|]. destruct (_ && _); [|done].
      match type of Hd with (if ?b then _ else _) = _ => destruct b end; [injection Hd as <-; by apply HS|].
      destruct (live_update _ _ _ _ _) as [[l out]|]; [|done]. injection Hd as <-. by apply HS.
Qed.

Lemma latest_of_spec m : forall types start, let r := latest_of m types start in
  start <= r /\ (forall t, t ∈ types -> (default (0, 0) (m_latest m !! t)).2 <= r) /\
  (r = start \/ exists t, t ∈ types /\ r = (default (0, 0) (m_latest m !! t)).2).
Proof.
  unfold latest_of. induction types as [|t types IH]; intros start; cbv zeta.
  - cbn. split_and!; [lia|intros t Ht; by apply elem_of_nil in Ht|by left].
  - cbn [foldl]. set (ts := (default (0, 0) (m_latest m !! t)).2). set (acc := if start <? ts then ts else start).
    specialize (IH acc) as (I1 & I2 & I3). assert (HA : start <= acc /\ ts <= acc /\ (acc = start \/ acc = ts)).
    { unfold acc. destruct (start <? ts) eqn:E; [apply Z.ltb_lt in E|apply Z.ltb_ge in E]; split_and!; try lia; auto. }
    destruct HA as (A1 & A2 & A3). split_and!; [lia| |].
    + intros t' Ht. apply elem_of_cons in Ht as [->|Ht]; [fold ts; lia|by apply I2].
    + destruct I3 as [->|(t' & Ht & ->)]; [|right; exists t'; split; [by right|done]].
      destruct A3 as [->| ->]; [by left|]. right. exists t. split; [by left|done].
Qed.

(** With timestamps that never go back, the latest event of each type tells the latest
    interesting one. *)
Lemma rising_latest log x j e0 m types : numbered log -> knows x log m -> e0 ∈ log -> g_room e0 = x -> g_nid e0 = j.1 -> g_ts e0 = j.2 ->
  (forall e e', e ∈ log -> e' ∈ log -> g_room e = x -> g_room e' = x -> 0 <= g_ts e /\ (g_nid e <= g_nid e' -> g_ts e <= g_ts e')) ->
  types <> [] ->
  let L := latest_interest log x j types in
  0 <= j.2 <= L /\ (forall t, t ∈ types -> (default (0, 0) (m_latest m !! t)).2 <= L) /\
  (L = j.2 \/ exists t, t ∈ types /\ L = (default (0, 0) (m_latest m !! t)).2).
Proof.
  intros Hn (_ & _ & HK) He0 Hx0 Hj1 Hj2 Hup HT. cbv zeta.
  assert (H0 : 0 <= j.2) by (rewrite <- Hj2; by apply (Hup e0 e0)).
  unfold latest_interest. destruct (last (filter _ log)) as [e|] eqn:El.
  - apply last_filter_Some in El as ((H1 & H2 & H3) & i & Hi & Hlast).
    assert (He : e ∈ log) by (by eapply elem_of_list_lookup_2). assert (Hty : g_type e ∈ types) by (destruct H3; done).
    assert (Hge : j.2 <= g_ts e) by (rewrite <- Hj2; apply (Hup e0 e); try done; lia). split_and!; [lia|lia| |].
    + intros t Ht. rewrite HK. unfold last_of. destruct (last (filter (fun e' => g_room e' = x /\ g_type e' = t) log)) as [e'|] eqn:E'; cbn; [|lia].
      apply last_filter_Some in E' as ((F1 & F2) & i' & Hi' & Hl'). assert (e' ∈ log) by (by eapply elem_of_list_lookup_2).
      apply (Hup e' e); try done. rewrite (Hn _ _ Hi'), (Hn _ _ Hi). destruct (decide (i < i')%nat) as [Hii|Hii]; [|lia].
      exfalso. apply (Hlast i' e' Hii Hi'). split_and!; [done| |right; by rewrite F2].
      rewrite (Hn _ _ Hi'). rewrite (Hn _ _ Hi) in H2. lia.
    + right. exists (g_type e). split; [done|]. rewrite HK. unfold last_of.
      destruct (last (filter (fun e' => g_room e' = x /\ g_type e' = g_type e) log)) as [e'|] eqn:E'.
      * apply last_filter_Some in E' as ((F1 & F2) & i' & Hi' & Hl'). cbn.
        assert (~ (i' < i)%nat) by (intros Hlt; by apply (Hl' i e)).
        assert (~ (i < i')%nat).
        { intros Hlt. apply (Hlast i' e' Hlt Hi'). split_and!; [done| |right; by rewrite F2].
          rewrite (Hn _ _ Hi'). rewrite (Hn _ _ Hi) in H2. lia. }
        assert (i = i') by lia. by simplify_eq.
      * by destruct (last_filter_None _ _ e E' He).
  - split_and!; [lia|lia| |by left]. intros t Ht. rewrite HK. unfold last_of.
    destruct (last (filter (fun e' => g_room e' = x /\ g_type e' = t) log)) as [e'|] eqn:E'; cbn; [|lia].
    apply last_filter_Some in E' as ((F1 & F2) & i' & Hi' & Hl'). assert (He' : e' ∈ log) by (by eapply elem_of_list_lookup_2).
    rewrite <- Hj2. apply (Hup e' e0); try done. destruct (decide (g_nid e' <= g_nid e0)) as [|Hgt]; [done|].
    exfalso. apply (last_filter_None _ _ e' El He'). split_and!; [done|lia|right; by rewrite F2].
Qed.

(** C93, the timestamp sent with a room: if timestamps of its events never go back and
    all its updates are processed, it is the time of the latest interesting event. It
    goes with the room as a whole, and with the latest event as it happens, unless the
    response already has a timestamp for the room and no types are asked for. *)
Theorem C93_timestamp_partial :
  forall lower x s j r types,
  run lower (rising x) init_st s -> s_join s !! x = Some j -> quiet x s -> l_all (w_lists (s_world s)) !! x = Some r ->
  let L := latest_interest (s_log s) x j types in
  initial_timestamp types (c_meta r) j.2 = L /\
  forall before, types <> [] \/ before = 0 -> before <= L -> live_timestamp before types (c_meta r) j.2 = L.
Proof.
  intros lower x s j r types H Hj Hq Hr. cbv zeta. pose proof (run_base _ _ _ H) as B. pose proof (run_rising lower x s H) as Hup.
  destruct (b_join _ _ B x j Hj) as (e0 & He0 & Hx0 & Hj1 & Hj2).
  assert (HK : knows x (s_log s) (c_meta r)) by (apply (b_now _ _ B x r); [by exists j|by apply quiet_pend|done]).
  destruct (decide (types = [])) as [->|HT].
  - assert (HL : latest_interest (s_log s) x j [] = m_last_ts (c_meta r)).
    { rewrite (interest_any _ x j e0 (b_nid _ _ B) He0 Hx0 Hj1 Hj2). by destruct HK as (_ & -> & _). }
    assert (Hge : j.2 <= m_last_ts (c_meta r)).
    { destruct HK as (_ & -> & _). unfold last_ts, evs. destruct (last (filter _ (s_log s))) as [e|] eqn:E.
      - apply last_filter_Some in E as (F1 & i & Hi & Hl). rewrite <- Hj2. apply (Hup e0 e); try done; [by eapply elem_of_list_lookup_2|].
        apply elem_of_list_lookup in He0 as [k Hk]. rewrite (b_nid _ _ B _ _ Hk), (b_nid _ _ B _ _ Hi).
        destruct (decide (i < k)%nat) as [Hik|]; [|lia]. by destruct (Hl k e0 Hik Hk).
      - by destruct (last_filter_None _ _ e0 E He0). }
    rewrite HL. unfold initial_timestamp, live_timestamp. cbn [latest_of foldl]. split; [done|].
    intros before [Hn| ->] Hb; [done|]. cbn. destruct (_ <? j.2) eqn:E; [apply Z.ltb_lt in E; lia|done].
  - destruct (rising_latest (s_log s) x j e0 (c_meta r) types (b_nid _ _ B) HK He0 Hx0 Hj1 Hj2 Hup HT) as (R1 & R2 & R3). split.
    + unfold initial_timestamp. destruct (latest_of_spec (c_meta r) types 0) as (S1 & S2 & S3). cbv zeta in *.
      set (L := latest_interest _ _ _ _) in *. set (t := latest_of _ _ _) in *.
      assert (Ht : t <= L) by (destruct S3 as [->|(t' & Ht' & ->)]; [lia|by apply R2]).
      destruct (t =? 0) eqn:E0; cbn [orb].
      * apply Z.eqb_eq in E0. destruct types as [|t0 ts]; [done|]. destruct R3 as [R3|(t' & Ht' & R3)]; [lia|]. specialize (S2 t' Ht'). lia.
      * destruct (t <? j.2) eqn:E1; [apply Z.ltb_lt in E1|apply Z.ltb_ge in E1].
        -- destruct types as [|t0 ts]; [done|]. destruct R3 as [R3|(t' & Ht' & R3)]; [lia|]. specialize (S2 t' Ht'). lia.
        -- destruct R3 as [R3|(t' & Ht' & R3)]; [lia|]. specialize (S2 t' Ht'). lia.
    + intros before _ Hb. unfold live_timestamp. destruct (latest_of_spec (c_meta r) types before) as (S1 & S2 & S3). cbv zeta in *.
      set (L := latest_interest _ _ _ _) in *. set (t := latest_of _ _ _) in *.
      assert (Ht : t <= L) by (destruct S3 as [->|(t' & Ht' & ->)]; [lia|by apply R2]).
      replace (match types with [] => if t =? 0 then m_last_ts (c_meta r) else t | _ :: _ => t end) with t by (by destruct types).
      destruct (t <? j.2) eqn:E1; [apply Z.ltb_lt in E1|apply Z.ltb_ge in E1].
      * destruct R3 as [R3|(t' & Ht' & R3)]; [lia|]. specialize (S2 t' Ht'). lia.
      * destruct R3 as [R3|(t' & Ht' & R3)]; [lia|]. specialize (S2 t' Ht'). lia.
Qed.
Print Assumptions C93_timestamp_partial.

(** ** Concrete runs *)

(** What can be played: events and updates take their metadata from the cache. *)
Inductive cmd :=
| CEvent (room type : string) (ts : Z) (hold : bool)
| CJoin (room : string) (ts : Z) (hold : bool)
| COther (room : string)
| CListen
| CLoad (types : gmap string (list string))
| CList (key : string) (types : option (list string))
| CRelease (i : nat)
| CShow (room : string) (n : Z)
| CProcess (shown : bool).

Definition sample_event (room type : string) (ts nid : Z) : gevent :=
  mk_gevent room type None "" "" "" "" None "" false "" false "" "" 0 0 ts nid.
Definition sample_room (m : room_meta) : conn_room := mk_conn_room m false false false 0 0 "" ∅ ∅ ∅.
Definition the_room (s : st) (e : gevent) : conn_room :=
  sample_room (default (new_meta (g_room e)) (on_new_event (s_cache s) e !! g_room e)).
Definition now_room (s : st) (room : string) : conn_room := sample_room (default (new_meta room) (s_cache s !! room)).
Definition the_list : req_list := mk_req (Some [(0, 9)]) ["by_recency"] None false.
Definition to_act (s : st) (c : cmd) : act :=
  match c with
  | CEvent room type ts hold => let e := sample_event room type ts (next_nid s) in AEvent e (the_room s e) hold
  | CJoin room ts hold => let e := sample_event room "m.room.member" ts (next_nid s) in AJoin e (the_room s e) hold
  | COther room => AOther (now_room s room)
  | CListen => AListen
  | CLoad types => ALoad types (map (fun p => now_room s p.1) (map_to_list (s_join s)))
  | CList key types => ARequest id key the_list false types
  | CRelease i => ARelease i
  | CShow room n => AShow room n
  | CProcess shown => AProcess id shown
  end.
Fixpoint play (check : st -> act -> bool) (s : st) (cs : list cmd) : option st :=
  match cs with
  | [] => Some s
  | c :: cs => if check s (to_act s c) then match do id s (to_act s c) with Some s' => play check s' cs | None => None end else None
  end.

Lemma play_fine s c : fine s (to_act s c).
Proof.
  destruct c; try done; [|by intros l]. cbn. split_and!; [by intros l| |done|].
  - split_and!; [vm_compute; done| |done]. apply Forall_cons. split; [|apply Forall_nil; done]. unfold known_sort. right. left.
  - unfold no_lone_window. destruct (_ !! key) as [p|]; [|done]. intros _ _ _ i Hi. cbn in Hi.
    apply elem_of_list_singleton in Hi. injection Hi as H1 H2. lia.
Qed.

Lemma play_run (P : st -> act -> Prop) check : (forall s a, check s a = true -> P s a) ->
  forall cs s0 s s', run id P s0 s -> play check s cs = Some s' -> run id P s0 s'.
Proof.
  intros HP. induction cs as [|c cs IH]; intros s0 s s' H Hp; cbn [play] in Hp; [by injection Hp as <-|].
  destruct (check s (to_act s c)) eqn:Ec; [|done]. destruct (do id s (to_act s c)) as [s1|] eqn:Ed; [|done].
  eapply IH; [|exact Hp]. eapply run_step; [exact H|apply play_fine|by apply HP|exact Ed].
Qed.

(** The guards can be checked. *)
Definition plain_b (key : string) (s : st) (a : act) : bool :=
  match a with
  | ALoad types _ => bool_decide (default [] (types !! key) = [])
  | ARequest _ k _ _ types => negb (String.eqb k key) || bool_decide (next_types (s_types s !! key) types = [])
  | _ => true
  end.
Lemma plain_b_ok key s a : plain_b key s a = true -> plain key s a.
Proof.
  destruct a; cbn; try done; intros H.
  - by apply bool_decide_eq_true in H.
  - intros ->. rewrite String.eqb_refl in H. by apply bool_decide_eq_true in H.
Qed.

Definition rising_b (room : string) (s : st) (a : act) : bool :=
  match a with
  | AEvent e _ _ | AJoin e _ _ => negb (String.eqb (g_room e) room) || ((0 <=? g_ts e) &&
      forallb (fun e' => negb (String.eqb (g_room e') room) || (g_ts e' <=? g_ts e)) (s_log s))
  | _ => true
  end.
Lemma rising_b_ok room s a : rising_b room s a = true -> rising room s a.
Proof.
  assert (HH : forall e, negb (String.eqb (g_room e) room) || ((0 <=? g_ts e) &&
      forallb (fun e' => negb (String.eqb (g_room e') room) || (g_ts e' <=? g_ts e)) (s_log s)) = true ->
      g_room e = room -> 0 <= g_ts e /\ forall e', e' ∈ s_log s -> g_room e' = room -> g_ts e' <= g_ts e).
  { intros e H <-. rewrite String.eqb_refl in H. apply andb_true_iff in H as [H1 H2]. apply Z.leb_le in H1. split; [done|].
    rewrite forallb_forall in H2. intros e' He' Hx. specialize (H2 e'). rewrite Hx, String.eqb_refl in H2.
    apply Z.leb_le, H2. by apply elem_of_list_In. }
  destruct a; cbn; try done; apply HH.
Qed.

Definition calm_b (key : string) (types : list string) (room : string) (s : st) (a : act) : bool :=
  match a with
  | AEvent e r h => s_loaded s || rising_b room s a
  | AOther r => negb (String.eqb (m_room (c_meta r)) room) || (bool_decide (is_Some (s_join s !! room)) &&
      (negb (s_loaded s) || bool_decide (is_Some (l_all (w_lists (s_world s)) !! room))))
  | ALoad ts _ => bool_decide (ts !! key = Some types)
  | ARequest _ k _ _ ts => negb (String.eqb k key) || bool_decide (next_types (s_types s !! key) ts = types)
  | ADelete k => negb (String.eqb k key)
  | AShow y n => negb (String.eqb y room) || forallb (fun u => negb (is_for room u) ||
      match u_event u with Some (nid, _) => (nid <? default 0 (s_pos s !! room)) || (n <=? nid) | None => true end) (s_queue s ++ s_held s)
  | _ => true
  end.
Lemma calm_b_ok key types room s a : calm_b key types room s a = true -> calm key types room s a.
Proof.
  destruct a as [e r hold|e r hold|r| |ts rooms|ord k next chg ts|k|i|y n|ord shown]; unfold calm; cbn; intros H; try done.
  - split_and!; try done. intros Hx Hl j e' _ He' Hx' _. rewrite Hl in H. cbn [orb] in H.
    apply (rising_b_ok room s (AEvent e r hold)) in H. by apply (H Hx).
  - split_and!; try done. intros <-. rewrite String.eqb_refl in H. cbn in H. apply andb_true_iff in H as [H1 H2].
    apply bool_decide_eq_true in H1. split; [done|]. intros Hl. rewrite Hl in H2. by apply bool_decide_eq_true in H2.
  - split_and!; try done. by apply bool_decide_eq_true in H.
  - split_and!; try done. intros ->. rewrite String.eqb_refl in H. by apply bool_decide_eq_true in H.
  - split_and!; try done. intros ->. by rewrite String.eqb_refl in H.
  - split_and!; try done. intros -> u nid t Hu Hx Eu. rewrite String.eqb_refl in H. cbn in H. rewrite forallb_forall in H.
    specialize (H u). rewrite Eu in H. assert (Hi : is_for room u = true) by (by apply is_for_spec). rewrite Hi in H. cbn in H.
    apply elem_of_list_In in Hu. specialize (H Hu). apply orb_true_iff in H as [H|H]; [left; by apply Z.ltb_lt|right; by apply Z.leb_le].
Qed.

Definition quiet_b (room : string) (s : st) : bool := forallb (fun u => negb (is_for room u)) (s_queue s ++ s_held s).
Lemma quiet_b_ok room s : quiet_b room s = true -> quiet room s.
Proof.
  unfold quiet_b. rewrite forallb_forall. intros H u Hu Hx. apply elem_of_list_In in Hu. specialize (H u Hu).
  apply is_for_spec in Hx. by rewrite Hx in H.
Qed.

(** What is seen of a state: the list, the timestamps the rooms should go by, and the
    ones they go by. *)
Definition seen (key : string) (types : list string) (s : st) (rooms : list string) : list string * list (Z * Z * bool) :=
  (default [] ((fun fl => s_ids (fl_rooms fl)) <$> l_lists (w_lists (s_world s)) !! key),
   map (fun x => (match s_join s !! x with Some j => latest_interest (s_log s) x j types | None => 0 end,
                  match l_all (w_lists (s_world s)) !! x with Some r => get_ts key r | None => 0 end, quiet_b x s)) rooms).

Lemma seen_before key types s rooms l rest (i j : nat) a b : seen key types s rooms = (l, rest) -> (i < j)%nat ->
  l !! i = Some a -> l !! j = Some b -> listed_before key s a b.
Proof.
  unfold seen. intros H Hij Ha Hb. injection H as H _. destruct (l_lists (w_lists (s_world s)) !! key) as [fl|] eqn:E; cbn in H.
  - exists fl, i, j. by rewrite H.
  - subst l. by rewrite lookup_nil in Ha.
Qed.

Definition result (check : st -> act -> bool) (cs : list cmd) : st := default init_st (play check init_st cs).
Lemma result_run (P : st -> act -> Prop) check cs : (forall s a, check s a = true -> P s a) ->
  (match play check init_st cs with Some _ => true | None => false end) = true -> run id P init_st (result check cs).
Proof.
  intros HP H. unfold result. destruct (play check init_st cs) as [s|] eqn:E; [|done].
  eapply play_run; [exact HP|apply run_nil|exact E].
Qed.

(** The example: messages and a reaction before the connection is made, a message that is
    held back, a room joined later and shown as a whole. *)
Definition messages : gmap string (list string) := {["k" := ["m.room.message"]]}.
Definition story : list cmd :=
  [CJoin "a" 10 false; CJoin "b" 20 false; CEvent "a" "m.room.message" 30 false; CEvent "b" "m.reaction" 40 false;
   CListen; CEvent "b" "m.reaction" 50 false; CLoad messages; CList "k" None; CProcess true;
   CEvent "b" "m.room.message" 60 true; CEvent "a" "m.reaction" 70 false; CJoin "c" 80 false; CProcess true; CProcess true;
   CRelease 0%nat; COther "b"; CProcess true; CProcess true; CShow "c" 8; CEvent "c" "m.reaction" 90 false; CProcess false].
Example C93_types_example :
  let s := result (fun s act => calm_b "k" ["m.room.message"] "c" s act && calm_b "k" ["m.room.message"] "b" s act) story in
  run id (fun s act => calm "k" ["m.room.message"] "c" s act /\ calm "k" ["m.room.message"] "b" s act) init_st s /\
  sorted_by_recency "k" s /\ listed_before "k" s "c" "b" /\
  seen "k" ["m.room.message"] s ["c"; "b"; "a"] = (["c"; "b"; "a"], [(80, 80, true); (60, 60, true); (30, 30, true)]).
Proof.
  cbv zeta. split_and!.
  - apply result_run; [|vm_compute; reflexivity]. intros s a H. apply andb_true_iff in H as [H1 H2]. split; by apply calm_b_ok.
  - exists the_list, []. split; [vm_compute; reflexivity|done].
  - eapply (seen_before _ ["m.room.message"] _ ["c"; "b"; "a"] ["c"; "b"; "a"] [(80, 80, true); (60, 60, true); (30, 30, true)] 0 1);
      [vm_compute; reflexivity|lia|done|done].
  - vm_compute. reflexivity.
Qed.

(** The same story for a client that asks for no types. *)
Definition plain_story : list cmd :=
  map (fun c => match c with CLoad _ => CLoad {["k" := []]} | c => c end) story.
Example C93_any_event_example :
  let s := result (plain_b "k") plain_story in
  run id (plain "k") init_st s /\ sorted_by_recency "k" s /\ listed_before "k" s "c" "a" /\ listed_before "k" s "a" "b" /\
  seen "k" [] s ["c"; "a"; "b"] = (["c"; "a"; "b"], [(90, 90, true); (70, 70, true); (60, 60, true)]).
Proof.
  cbv zeta. split_and!.
  - apply result_run; [|vm_compute; reflexivity]. intros s a H. by apply plain_b_ok.
  - exists the_list, []. split; [vm_compute; reflexivity|done].
  - eapply (seen_before _ [] _ ["c"; "a"; "b"] ["c"; "a"; "b"] [(90, 90, true); (70, 70, true); (60, 60, true)] 0 1);
      [vm_compute; reflexivity|lia|done|done].
  - eapply (seen_before _ [] _ ["c"; "a"; "b"] ["c"; "a"; "b"] [(90, 90, true); (70, 70, true); (60, 60, true)] 1 2);
      [vm_compute; reflexivity|lia|done|done].
  - vm_compute. reflexivity.
Qed.

Example C93_timestamp_example :
  let s := result (rising_b "b") story in
  run id (rising "b") init_st s /\ quiet "b" s /\ s_join s !! "b" = Some (2, 20) /\
  option_map (fun r => (initial_timestamp ["m.room.message"] (c_meta r) 20, initial_timestamp ["m.reaction"] (c_meta r) 20,
                        live_timestamp 0 ["m.room.message"] (c_meta r) 20)) (l_all (w_lists (s_world s)) !! "b") = Some (60, 50, 60).
Proof.
  cbv zeta. split_and!.
  - apply result_run; [|vm_compute; reflexivity]. intros s a H. by apply rising_b_ok.
  - apply quiet_b_ok. vm_compute. reflexivity.
  - vm_compute. reflexivity.
  - vm_compute. reflexivity.
Qed.

(** ** Where it fails *)

(** A room comes first although the events of the other one are later. *)
Definition out_of_order (key : string) (types : list string) (s : st) (a b : string) : Prop :=
  sorted_by_recency key s /\ s_types s !! key = Some types /\ listed_before key s a b /\ quiet a s /\ quiet b s /\
  exists ja jb, s_join s !! a = Some ja /\ s_join s !! b = Some jb /\
    latest_interest (s_log s) a ja types < latest_interest (s_log s) b jb types.

Definition both_rise (s : st) (a : act) : Prop := rising "a" s a /\ rising "b" s a.
Definition both_rise_b (s : st) (a : act) : bool := rising_b "a" s a && rising_b "b" s a.
Lemma both_rise_ok s a : both_rise_b s a = true -> both_rise s a.
Proof. intros H. apply andb_true_iff in H as [H1 H2]. split; by apply rising_b_ok. Qed.

Lemma out_of_order_by key types s a b ja jb ta tb ga gb :
  w_reqs (s_world s) !! key = Some the_list -> s_types s !! key = Some types ->
  s_join s !! a = Some ja -> s_join s !! b = Some jb ->
  seen key types s [a; b] = ([a; b], [(ta, ga, true); (tb, gb, true)]) -> ta < tb -> out_of_order key types s a b.
Proof.
  intros Hr Ht Ha Hb Hs Hlt. pose proof Hs as Hs'. unfold seen in Hs'. cbn [map] in Hs'. rewrite Ha, Hb in Hs'. injection Hs' as H1 H2 H3 H4 H5 H6 H7.
  unfold out_of_order. split_and!; [by exists the_list, []|done| |by apply quiet_b_ok|by apply quiet_b_ok|].
  - eapply (seen_before _ _ _ _ _ _ 0 1); [exact Hs|lia|done|done].
  - exists ja, jb. split_and!; [done|done|lia].
Qed.

(** C93 fails for a list that is not in the first request: its types count for nothing
    until the next event of a room (the timestamps of a list are worked out when the
    connection is set up, connstate.go:126). *)
Theorem C93_new_list_refuted :
  exists s, run id both_rise init_st s /\ out_of_order "k" ["m.room.message"] s "b" "a".
Proof.
  exists (result both_rise_b
    [CJoin "a" 10 false; CJoin "b" 20 false; CEvent "a" "m.room.message" 30 false; CEvent "b" "m.reaction" 40 false;
     CListen; CLoad ∅; CList "k" (Some ["m.room.message"])]).
  split; [apply result_run; [apply both_rise_ok|vm_compute; reflexivity]|].
  apply (out_of_order_by _ _ _ _ _ (2, 20) (1, 10) 20 30 40 30); vm_compute; reflexivity.
Qed.
Print Assumptions C93_new_list_refuted.

(** C93 fails when the client asks for other types in a list: the rooms keep the
    timestamps they have. *)
Theorem C93_changed_types_refuted :
  exists s, run id both_rise init_st s /\ out_of_order "k" ["m.reaction"] s "a" "b".
Proof.
  exists (result both_rise_b
    [CJoin "a" 10 false; CJoin "b" 20 false; CEvent "a" "m.room.message" 30 false; CEvent "b" "m.reaction" 40 false;
     CListen; CLoad messages; CList "k" (Some ["m.room.message"]); CList "k" (Some ["m.reaction"])]).
  split; [apply result_run; [apply both_rise_ok|vm_compute; reflexivity]|].
  apply (out_of_order_by _ _ _ _ _ (1, 10) (2, 20) 10 40 30 20); vm_compute; reflexivity.
Qed.
Print Assumptions C93_changed_types_refuted.

(** C93 fails when a room is sent as a whole while one of its events is held back: the
    event is then left out, and does not move the room. *)
Theorem C93_shown_first_refuted :
  exists s, run id both_rise init_st s /\ out_of_order "k" ["m.room.message"] s "b" "a".
Proof.
  exists (result both_rise_b
    [CJoin "a" 10 false; CJoin "b" 20 false; CEvent "b" "m.room.message" 30 false;
     CListen; CLoad messages; CList "k" None; CEvent "a" "m.room.message" 40 true; CEvent "a" "m.reaction" 50 false;
     CShow "a" 5; CRelease 0%nat; CRelease 0%nat; CProcess true; CProcess true]).
  split; [apply result_run; [apply both_rise_ok|vm_compute; reflexivity]|].
  apply (out_of_order_by _ _ _ _ _ (2, 20) (1, 10) 30 40 30 10); vm_compute; reflexivity.
Qed.
Print Assumptions C93_shown_first_refuted.

(** C93 fails for a room the user joins when its account data come first: the room is
    known by then, and joining it does not count. *)
Theorem C93_joined_refuted :
  exists s, run id both_rise init_st s /\ out_of_order "k" ["m.room.message"] s "b" "a".
Proof.
  exists (result both_rise_b
    [CEvent "a" "m.room.topic" 5 false; CJoin "b" 20 false; CEvent "b" "m.room.message" 30 false;
     CListen; CLoad messages; CList "k" None; COther "a"; CJoin "a" 80 false; CProcess true; CProcess true]).
  split; [apply result_run; [apply both_rise_ok|vm_compute; reflexivity]|].
  apply (out_of_order_by _ _ _ _ _ (2, 20) (4, 80) 30 80 30 5); vm_compute; reflexivity.
Qed.
Print Assumptions C93_joined_refuted.

(** C93 fails when clocks differ: setting up a connection goes by the greatest
    timestamp, not by the latest event. *)
Theorem C93_clocks_refuted :
  exists s, run id (fun s act => join_first "a" s act /\ caught_up "a" s act /\ asks "k" ["m.room.message"; "m.reaction"] s act) init_st s /\
    out_of_order "k" ["m.room.message"; "m.reaction"] s "a" "b".
Proof.
  exists (result (fun s act => match act with AOther _ | AShow _ _ => false | _ => true end && calm_b "k" ["m.room.message"; "m.reaction"] "c" s act)
    [CJoin "a" 10 false; CJoin "b" 20 false; CEvent "a" "m.room.message" 50 false; CEvent "a" "m.reaction" 30 false;
     CEvent "b" "m.room.message" 40 false; CListen; CLoad {["k" := ["m.room.message"; "m.reaction"]]}; CList "k" None]).
  split; [apply result_run; [|vm_compute; reflexivity]|].
  - intros s a H. apply andb_true_iff in H as [H1 H2]. apply calm_b_ok in H2 as [H2 _]. destruct a; done.
  - apply (out_of_order_by _ _ _ _ _ (1, 10) (2, 20) 30 40 50 40); vm_compute; reflexivity.
Qed.
Print Assumptions C93_clocks_refuted.

(** C93 fails for the timestamp of a room that has two events in a response: without
    types, the one of the first stays. *)
Theorem C93_two_events_refuted :
  exists s1 s2 r1 r2 j, run id (rising "a") init_st s1 /\ run id (rising "a") s1 s2 /\
    l_all (w_lists (s_world s1)) !! "a" = Some r1 /\ l_all (w_lists (s_world s2)) !! "a" = Some r2 /\
    s_join s2 !! "a" = Some j /\ quiet "a" s1 /\ quiet "a" s2 /\
    live_timestamp (live_timestamp 0 [] (c_meta r1) j.2) [] (c_meta r2) j.2 < latest_interest (s_log s2) "a" j [].
Proof.
  set (first := [CJoin "a" 10 false; CListen; CLoad ∅; CList "k" None; CEvent "a" "m.room.message" 30 false; CProcess true]).
  set (then_ := [CEvent "a" "m.room.message" 40 false; CProcess true]).
  set (s1 := result (rising_b "a") first). set (s2 := default init_st (play (rising_b "a") s1 then_)).
  exists s1, s2, (default (sample_room (new_meta "")) (l_all (w_lists (s_world s1)) !! "a")),
    (default (sample_room (new_meta "")) (l_all (w_lists (s_world s2)) !! "a")), (1, 10). split_and!.
  - apply result_run; [apply rising_b_ok|vm_compute; reflexivity].
  - eapply (play_run _ (rising_b "a") (rising_b_ok "a") then_ s1 s1 s2); [apply run_nil|].
    assert (E : match play (rising_b "a") s1 then_ with Some _ => true | None => false end = true) by (vm_compute; reflexivity).
    unfold s2. by destruct (play (rising_b "a") s1 then_).
  - assert (E : bool_decide (is_Some (l_all (w_lists (s_world s1)) !! "a")) = true) by (vm_compute; reflexivity).
    apply bool_decide_eq_true in E as [r E]. by rewrite E.
  - assert (E : bool_decide (is_Some (l_all (w_lists (s_world s2)) !! "a")) = true) by (vm_compute; reflexivity).
    apply bool_decide_eq_true in E as [r E]. by rewrite E.
  - vm_compute. reflexivity.
  - apply quiet_b_ok. vm_compute. reflexivity.
  - apply quiet_b_ok. vm_compute. reflexivity.
  - vm_compute. reflexivity.
Qed.
Print Assumptions C93_two_events_refuted.
