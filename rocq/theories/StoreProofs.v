(** Proofs about visible ranges and timelines. *)
From Verif Require Import Prelude AccumModel AccumSpec AccumProofs AccumProofs2 AccumProofs3 AccumProofs4 AccumProofs5 AccumProofs6 StoreModel StoreSpec.
Open Scope string_scope.
Open Scope list_scope.
Open Scope Z_scope.

(** * Memberships as a list *)
Notation mlog := (list (Z * string)).
Definition in_log (F : mlog) (p : Z) : Prop :=
  exists q, q <= p /\ (q, "join") ∈ F /\ forall r m, (r, m) ∈ F -> q < r <= p -> ~ leaves m.
Definition joins_log (F : mlog) (q : Z) : Prop := (q, "join") ∈ F /\ ~ in_log F (q - 1).
Definition ok_log (F : mlog) (p : Z) : Prop :=
  in_log F p \/ (in_log F (p - 1) /\ exists m, leaves m /\ (p, m) ∈ F) \/ (p, "invite") ∈ F.
Definition below (F : mlog) (u : Z) : Prop := forall r m, (r, m) ∈ F -> r <= u.

Lemma in_log_early F n m p : p < n -> in_log (F ++ [(n, m)]) p <-> in_log F p.
Proof.
  intros Hp. split; intros (q & Hq & Hj & Hn).
  - exists q. split; [done|]. apply elem_of_app in Hj as [Hj|Hj].
    + split; [done|]. intros r k Hr. apply Hn. apply elem_of_app. by left.
    + apply elem_of_list_singleton in Hj as [= -> ->]. lia.
  - exists q. split; [done|]. split; [apply elem_of_app; by left|].
    intros r k Hr Hrp. apply elem_of_app in Hr as [Hr|Hr]; [by eapply Hn|].
    apply elem_of_list_singleton in Hr as [= -> ->]. lia.
Qed.
Lemma in_log_late F u n m p : below F u -> u < n -> n <= p ->
  in_log (F ++ [(n, m)]) p <-> m = "join" \/ (~ leaves m /\ in_log F u).
Proof.
  intros Hb Hu Hp. split.
  - intros (q & Hq & Hj & Hn). apply elem_of_app in Hj as [Hj|Hj].
    + right. split; [apply (Hn n m); [apply elem_of_app; right; by apply elem_of_list_singleton|]; specialize (Hb _ _ Hj); lia|].
      exists q. split; [by eapply Hb|]. split; [done|]. intros r k Hr Hrp. apply (Hn r k); [apply elem_of_app; by left|lia].
    + apply elem_of_list_singleton in Hj as [= -> ->]. by left.
  - intros [-> |[Hm (q & Hq & Hj & Hn)]].
    + exists n. split; [lia|]. split; [apply elem_of_app; right; by apply elem_of_list_singleton|].
      intros r k Hr Hrp. apply elem_of_app in Hr as [Hr|Hr]; [specialize (Hb _ _ Hr); lia|].
      apply elem_of_list_singleton in Hr as [= -> ->]. lia.
    + exists q. split; [lia|]. split; [apply elem_of_app; by left|].
      intros r k Hr Hrp. apply elem_of_app in Hr as [Hr|Hr].
      * apply (Hn r k Hr). specialize (Hb _ _ Hr). lia.
      * apply elem_of_list_singleton in Hr as [= -> ->]. done.
Qed.
Lemma in_log_top F u p : below F u -> u <= p -> in_log F p <-> in_log F u.
Proof.
  intros Hb Hp. split; intros (q & Hq & Hj & Hn); exists q.
  - split; [by eapply Hb|]. split; [done|]. intros r k Hr Hrp. apply (Hn r k Hr). lia.
  - split; [lia|]. split; [done|]. intros r k Hr Hrp. apply (Hn r k Hr). specialize (Hb _ _ Hr). lia.
Qed.
Lemma joins_log_early F n m q : q < n -> joins_log (F ++ [(n, m)]) q <-> joins_log F q.
Proof.
  intros Hq. unfold joins_log. rewrite in_log_early by lia. split; intros [H1 H2]; (split; [|done]).
  - apply elem_of_app in H1 as [H1|H1]; [done|]. apply elem_of_list_singleton in H1 as [= -> ->]. lia.
  - apply elem_of_app; by left.
Qed.
Lemma ok_log_early F n m p : p < n -> ok_log F p -> ok_log (F ++ [(n, m)]) p.
Proof.
  intros Hp [H|[[H (k & Hk & Hin)]|H]].
  - left. by rewrite in_log_early.
  - right; left. rewrite in_log_early by lia. split; [done|]. exists k. split; [done|]. apply elem_of_app; by left.
  - right; right. apply elem_of_app; by left.
Qed.

(** * The join state *)
Lemma joined_from_log F : forall u, below F u -> StronglySorted Z.lt (map fst F) ->
  (match joined_from F with Some _ => true | None => false end = true <-> in_log F u).
Proof.
  induction F as [|[n m] F IH] using rev_ind; intros u Hb Hs.
  { cbn. split; [done|]. intros (q & _ & Hj & _). by apply elem_of_nil in Hj. }
  unfold joined_from. rewrite fold_left_app. cbn [fold_left].
  rewrite map_app in Hs. cbn in Hs.
  assert (Hn : below F (n - 1)).
  { intros r k Hr. enough (r < n) by lia. clear -Hs Hr. induction F as [|[a b] F IH]; [by apply elem_of_nil in Hr|].
    cbn in Hs. apply StronglySorted_inv in Hs as [Hs Hf]. apply elem_of_cons in Hr as [[= -> ->]|Hr]; [|by apply IH].
    rewrite Forall_app in Hf. destruct Hf as [_ Hf]. by apply Forall_cons in Hf as [Hf _]. }
  assert (Hs' : StronglySorted Z.lt (map fst F)).
  { clear -Hs. induction F as [|[a b] F IH]; [constructor|]. cbn in *.
    apply StronglySorted_inv in Hs as [Hs Hf]. constructor; [by apply IH|].
    rewrite Forall_app in Hf. apply Hf. }
  specialize (IH (n - 1) Hn Hs').
  rewrite (in_log_late F (n - 1) n m u Hn); [|lia|apply (Hb n m), elem_of_app; right; by apply elem_of_list_singleton].
  rewrite <-IH. change (fold_left joined_step F None) with (joined_from F). unfold joined_step, leaves. cbn [fst snd].
  destruct (String.eqb_spec m "join") as [->|Hj].
  { destruct (joined_from F); split; [by left|done|by left|done]. }
  destruct (String.eqb_spec m "ban") as [->|Hba]; cbn.
  { split; [done|]. intros [H|[H _]]; [done|]. exfalso. apply H. by right. }
  destruct (String.eqb_spec m "leave") as [->|Hl]; cbn.
  { split; [done|]. intros [H|[H _]]; [done|]. exfalso. apply H. by left. }
  split; [|by intros [?|[_ ?]]]. intros H. right. split; [|done]. by intros [?|?].
Qed.

(** * The algorithm *)
Definition vinv (from u : Z) (F : mlog) (st : bool * Z * option (Z * Z)) : Prop :=
  let '(j, start, res) := st in
  below F u /\ from <= u /\ (j = true <-> in_log F u) /\
  (j = true -> from <= start <= u /\ (forall p, start <= p <= u -> in_log F p) /\
     (forall q, from < q <= u -> joins_log F q -> q <= start) /\
     (forall p, from <= p <= u -> (forall r, p <= r <= u -> in_log F r) -> start <= p)) /\
  (forall a b, res = Some (a, b) -> from <= a /\ a <= b /\ b <= u /\ (forall p, a <= p <= b -> ok_log F p) /\
     (j = false -> forall q, from < q <= u -> joins_log F q -> q <= a)) /\
  (j = false -> res = None -> forall q, from < q <= u -> ~ joins_log F q).

Lemma vstep from u F st n m : vinv from u F st -> u < n -> vinv from n (F ++ [(n, m)]) (vis_step st (n, m)).
Proof.
  destruct st as [[j start] res]. intros (Hb & Hfu & Hj & Hjt & Hres & Hnone) Hn.
  assert (Hin : (n, m) ∈ F ++ [(n, m)]) by (apply elem_of_app; right; by apply elem_of_list_singleton).
  assert (Hb' : below (F ++ [(n, m)]) n).
  { intros r k Hr. apply elem_of_app in Hr as [Hr|Hr]; [specialize (Hb _ _ Hr); lia|].
    apply elem_of_list_singleton in Hr as [= -> ->]. lia. }
  assert (Hgap : forall p, u <= p < n -> in_log (F ++ [(n, m)]) p <-> in_log F u).
  { intros p Hp. rewrite in_log_early by lia. apply in_log_top; [done|lia]. }
  assert (Hjgap : forall q, u < q < n -> ~ joins_log (F ++ [(n, m)]) q).
  { intros q Hq [Hq' _]. apply elem_of_app in Hq' as [Hq'|Hq']; [specialize (Hb _ _ Hq'); lia|].
    apply elem_of_list_singleton in Hq' as [= -> _]. lia. }
  assert (Hjn : forall q, q <= n -> joins_log (F ++ [(n, m)]) q -> q = n /\ m = "join" /\ ~ in_log F u \/ q <= u /\ joins_log F q).
  { intros q Hq HJ. destruct (decide (q = n)) as [->|].
    - left. destruct HJ as [HJ1 HJ2]. rewrite (Hgap (n - 1)) in HJ2 by lia. split; [done|]. split; [|done].
      apply elem_of_app in HJ1 as [HJ1|HJ1]; [specialize (Hb _ _ HJ1); lia|].
      by apply elem_of_list_singleton in HJ1 as [= <-].
    - right. destruct (decide (q <= u)) as [Hle|]; [|exfalso; apply (Hjgap q); [lia|done]].
      split; [done|]. by apply joins_log_early in HJ; [|lia]. }
  unfold vis_step. destruct (j && _) eqn:E1; [|destruct (negb j && String.eqb m "join") eqn:E2; [|destruct (negb j && String.eqb m "invite") eqn:E3]].
  - (* leaves *)
    apply andb_true_iff in E1 as [-> E1]. assert (Hl : leaves m).
    { apply orb_true_iff in E1 as [E1|E1]; apply String.eqb_eq in E1; [by left|by right]. }
    assert (Hmj : m <> "join") by (intros ->; by destruct Hl).
    destruct (Hjt eq_refl) as (Hst & Hall & Hq & Hmax).
    assert (Hju : in_log F u) by (by apply Hj).
    split; [done|]. split; [lia|]. split; [|split; [done|split; [|done]]].
    + split; [done|]. rewrite (in_log_late F u n m n) by (done || lia). by intros [?|[? _]].
    + intros a b [= <- <-]. split; [lia|]. split; [lia|]. split; [lia|]. split.
      * intros p Hp. destruct (decide (p = n)) as [->|].
        -- right; left. rewrite (Hgap (n - 1)) by lia. split; [done|]. by exists m.
        -- left. destruct (decide (p <= u)); [rewrite in_log_early by lia; apply Hall; lia|by apply Hgap; [lia|]].
      * intros _ q Hqr HJ. destruct (Hjn q ltac:(lia) HJ) as [(-> & ? & _)|[? HJ']]; [done|]. apply Hq; [lia|done].
  - (* joins *)
    apply andb_true_iff in E2 as [Hj2 E2]. destruct j; [done|]. apply String.eqb_eq in E2 as ->.
    split; [done|]. split; [lia|]. split; [|split; [|split; [|done]]].
    + split; [|done]. intros _. rewrite (in_log_late F u n "join" n) by (done || lia). by left.
    + intros _. split; [lia|]. split; [|split].
      * intros p Hp. replace p with n by lia. rewrite (in_log_late F u n "join" n) by (done || lia). by left.
      * intros q Hq _. lia.
      * intros p Hp Hall. destruct (decide (n <= p)); [done|exfalso].
        destruct (Hj) as [_ Hj']. enough (false = true) by done. apply Hj'.
        destruct (decide (p <= u)).
        -- apply (Hgap u); [lia|]. apply Hall. lia.
        -- apply (Hgap p); [lia|]. apply Hall. lia.
    + intros a b Hab. destruct (Hres a b Hab) as (H1 & H2 & H3 & H4 & _). split; [done|]. split; [done|]. split; [lia|].
      split; [|done]. intros p Hp. apply ok_log_early; [lia|]. by apply H4.
  - (* invited *)
    apply andb_true_iff in E3 as [Hj2 E3]. destruct j; [done|]. apply String.eqb_eq in E3 as ->.
    split; [done|]. split; [lia|]. split; [|split; [done|split; [|done]]].
    + split; [done|]. rewrite (in_log_late F u n "invite" n) by (done || lia). rewrite <-Hj. by intros [?|[_ ?]].
    + intros a b [= <- <-]. split; [lia|]. split; [lia|]. split; [lia|]. split.
      * intros p Hp. replace p with n by lia. by right; right.
      * intros _ q Hq _. lia.
  - (* nothing *)
    assert (Hsame : in_log (F ++ [(n, m)]) n <-> in_log F u).
    { rewrite (in_log_late F u n m n) by (done || lia). rewrite <-Hj. destruct j; cbn in *.
      - apply orb_false_iff in E1 as [E1 E1']. apply String.eqb_neq in E1, E1'. split; [done|]. intros _. right.
        split; [|done]. by intros [?|?].
      - apply String.eqb_neq in E2. split; [by intros [?|[_ ?]]|done]. }
    assert (Hjn' : forall q, from < q <= n -> joins_log (F ++ [(n, m)]) q -> from < q <= u /\ joins_log F q).
    { intros q Hq HJ. destruct (Hjn q ltac:(lia) HJ) as [(-> & -> & Hni)|[? ?]]; [|split; [lia|done]].
      exfalso. apply Hni. apply Hsame. rewrite (in_log_late F u n "join" n) by (done || lia). by left. }
    split; [done|]. split; [lia|]. split; [by rewrite Hsame|]. split; [|split].
    + intros ->. destruct (Hjt eq_refl) as (Hst & Hall & Hq & Hmax).
      assert (Hju : in_log F u) by (by apply Hj).
      split; [lia|]. split; [|split].
      * intros p Hp. destruct (decide (p = n)) as [->|]; [by apply Hsame|].
        destruct (decide (p <= u)); [rewrite in_log_early by lia; apply Hall; lia|by apply Hgap; [lia|]].
      * intros q Hqr HJ. destruct (Hjn' q Hqr HJ). by apply Hq.
      * intros p Hp Hr. destruct (decide (p <= u)); [|lia]. apply Hmax; [lia|]. intros r Hrr.
        rewrite <-(in_log_early F n m) by lia. apply Hr. lia.
    + intros a b Hab. destruct (Hres a b Hab) as (H1 & H2 & H3 & H4 & H5). split; [done|]. split; [done|]. split; [lia|].
      split; [intros p Hp; apply ok_log_early; [lia|by apply H4]|].
      intros Hjf q Hq HJ. destruct (Hjn' q Hq HJ). by apply H5.
    + intros Hjf Hrn q Hq HJ. destruct (Hjn' q Hq HJ). by eapply Hnone.
Qed.

Lemma vfold from (G : mlog) : forall u F st, vinv from u F st -> StronglySorted Z.lt (map fst G) ->
  (forall r m, (r, m) ∈ G -> u < r) ->
  exists u', u <= u' /\ (forall to, u <= to -> below G to -> u' <= to) /\ vinv from u' (F ++ G) (fold_left vis_step G st).
Proof.
  induction G as [|[n m] G IH]; intros u F st Hi Hs Hu.
  { exists u. rewrite app_nil_r. split; [lia|]. split; [|done]. intros to H _. done. }
  cbn in Hs. apply StronglySorted_inv in Hs as [Hs Hf].
  assert (Hn : u < n) by (apply (Hu n m), elem_of_list_here).
  destruct (IH n (F ++ [(n, m)]) (vis_step st (n, m))) as (u' & H1 & H2 & H3); [by apply (vstep from u)|done| |].
  { intros r k Hr. rewrite Forall_forall in Hf. apply Hf. apply elem_of_list_fmap. by exists (r, k). }
  exists u'. split; [lia|]. rewrite <-app_assoc in H3. split; [|done].
  intros to Hto Hb. apply H2; [apply (Hb n m), elem_of_list_here|].
  intros r k Hr. apply (Hb r k). by apply elem_of_list_further.
Qed.

(** What the algorithm gives, on lists. *)
Lemma visible_nids_ok (F G : mlog) from to a b :
  0 <= from <= to -> StronglySorted Z.lt (map fst F) -> StronglySorted Z.lt (map fst G) ->
  below F from -> (forall r m, (r, m) ∈ G -> from < r <= to) ->
  (match joined_from F with Some _ => true | None => false end = true \/ G <> []) ->
  visible_nids (match joined_from F with Some _ => true | None => false end) from to G = (a, b) ->
  (forall p, 0 < p -> a <= p <= b -> ok_log (F ++ G) p) /\ b <= to /\
  (forall q, from < q <= to -> joins_log (F ++ G) q -> q <= a) /\
  (forall p, from <= p <= to -> (forall r, p <= r <= to -> in_log (F ++ G) r) -> a <= p /\ b = to).
Proof.
  intros Hft HsF HsG HbF HbG Hne. pose proof (joined_from_log F from HbF HsF) as Hj.
  remember (match joined_from F with Some _ => true | None => false end) as j eqn:Ej. clear Ej.
  unfold visible_nids.
  destruct G as [|g G'].
  { destruct Hne as [-> |]; [|done]. intros [= <- <-]. rewrite app_nil_r. split; [|split; [lia|split]].
    - intros p _ Hp. left. apply (in_log_top F from); [done|lia|by apply Hj].
    - intros q Hq [Hq' _]. specialize (HbF _ _ Hq'). lia.
    - intros p Hp _. split; [lia|done]. }
  remember (g :: G') as G eqn:EG. clear g G' EG Hne.
  destruct (vfold from G from F (j, if j then from else -1, None)) as (u & Hu1 & Hu2 & Hi).
  { split; [done|]. split; [lia|]. split; [done|]. split; [|split; [done|]].
    - intros ->. split; [lia|]. split; [|split].
      + intros p Hp. replace p with from by lia. by apply Hj.
      + intros q Hq. lia.
      + intros p Hp _. lia.
    - intros _ _ q Hq. lia. }
  { done. }
  { intros r m Hr. specialize (HbG _ _ Hr). lia. }
  assert (Hut : u <= to) by (apply Hu2; [lia|]; intros r m Hr; specialize (HbG _ _ Hr); lia).
  destruct (fold_left vis_step G _) as [[j' start] res]. destruct Hi as (Hb & Hfu & Hj' & Hjt & Hres & Hnone).
  assert (Hlate : forall p, u <= p -> in_log (F ++ G) p <-> in_log (F ++ G) u) by (intros p Hp; by apply in_log_top).
  assert (Hjl : forall q, joins_log (F ++ G) q -> q <= u) by (intros q [Hq _]; by eapply Hb).
  destruct j'.
  - intros [= <- <-]. destruct (Hjt eq_refl) as (Hst & Hall & Hq & Hmax). split; [|split; [lia|split]].
    + intros p _ Hp. left. destruct (decide (p <= u)); [apply Hall; lia|]. apply Hlate; [lia|by apply Hj'].
    + intros q Hqr HJ. apply Hq; [|done]. specialize (Hjl q HJ). lia.
    + intros p Hp Hr. split; [|done]. destruct (decide (p <= u)); [|lia]. apply Hmax; [lia|]. intros r Hrr. apply Hr. lia.
  - assert (Hno : forall p, from <= p <= to -> (forall r, p <= r <= to -> in_log (F ++ G) r) -> False).
    { intros p Hp Hr. enough (false = true) by done. apply Hj'. apply (Hlate to); [done|]. apply Hr. lia. }
    destruct res as [[a' b']|].
    + intros [= <- <-]. destruct (Hres _ _ eq_refl) as (H1 & H2 & H3 & H4 & H5). split; [|split; [lia|split]].
      * intros p _ Hp. by apply H4.
      * intros q Hq HJ. apply H5; [done| |done]. specialize (Hjl q HJ). lia.
      * intros p Hp Hr. exfalso. by eapply Hno.
    + intros [= <- <-]. split; [lia|]. split; [lia|]. split.
      * intros q Hq HJ. exfalso. apply (Hnone eq_refl eq_refl q); [|done]. specialize (Hjl q HJ). lia.
      * intros p Hp Hr. exfalso. by eapply Hno.
Qed.

(** * From lists to the store *)
Lemma logs_spec d user rm from to p m :
  (p, m) ∈ membership_logs d user rm from to <-> member_at (d_events d) user rm p m /\ from < p <= to.
Proof.
  unfold membership_logs, member_at. rewrite elem_of_list_fmap. split.
  - intros (e & [= -> ->] & He). rewrite elem_of_list_In, filter_In, <-elem_of_list_In in He.
    destruct He as [He Hb]. repeat (apply andb_true_iff in Hb as [Hb ?]).
    repeat match goal with H : String.eqb _ _ = true |- _ => apply String.eqb_eq in H end.
    split; [|lia]. exists e. auto 10.
  - intros [(e & He & <- & Hr & Ht & Hs & <-) Hp]. exists e. split; [done|].
    rewrite elem_of_list_In, filter_In, <-elem_of_list_In. split; [done|].
    rewrite Hr, Ht, Hs, !String.eqb_refl, !andb_true_r. lia.
Qed.
Lemma logs_sorted d user rm from to : sorted (d_events d) ->
  StronglySorted Z.lt (map fst (membership_logs d user rm from to)).
Proof.
  intros Hs. unfold membership_logs. rewrite map_map. cbn. by apply sorted_filter.
Qed.
Lemma in_log_room d user rm from to p : (forall e, e ∈ d_events d -> 0 < e_nid e) -> from <= p <= to -> 0 <= from ->
  in_log (membership_logs d user rm 0 from ++ membership_logs d user rm from to) p <-> in_room (d_events d) user rm p.
Proof.
  intros Hpos Hp H0. assert (Hin : forall q m, q <= to -> (q, m) ∈ membership_logs d user rm 0 from ++ membership_logs d user rm from to <-> member_at (d_events d) user rm q m).
  { intros q m Hq. rewrite elem_of_app, !logs_spec. split; [by intros [[? _]|[? _]]|]. intros H.
    assert (0 < q) by (destruct H as (e & He & <- & _); by apply Hpos). destruct (decide (q <= from)); [left|right]; (split; [done|lia]). }
  unfold in_log, in_room. split; intros (q & Hq & Hj & Hn); exists q; (split; [done|]); (split; [apply Hin; [lia|done]|]);
    intros r m Hr Hrr; apply (Hn r m); try done; apply Hin; try done; lia.
Qed.
(** Positions before [from]. *)
Lemma in_log_room_early d user rm from to p : (forall e, e ∈ d_events d -> 0 < e_nid e) -> p <= to ->
  0 <= from <= to ->
  in_log (membership_logs d user rm 0 from ++ membership_logs d user rm from to) p <-> in_room (d_events d) user rm p.
Proof.
  intros Hpos Hp H0. assert (Hin : forall q m, q <= to -> (q, m) ∈ membership_logs d user rm 0 from ++ membership_logs d user rm from to <-> member_at (d_events d) user rm q m).
  { intros q m Hq. rewrite elem_of_app, !logs_spec. split; [by intros [[? _]|[? _]]|]. intros H.
    assert (0 < q) by (destruct H as (e & He & <- & _); by apply Hpos). destruct (decide (q <= from)); [left|right]; (split; [done|lia]). }
  unfold in_log, in_room. split; intros (q & Hq & Hj & Hn); exists q; (split; [done|]); (split; [apply Hin; [lia|done]|]);
    intros r m Hr Hrr; apply (Hn r m); try done; apply Hin; try done; lia.
Qed.
Lemma log_in d user rm from to q m : (forall e, e ∈ d_events d -> 0 < e_nid e) -> q <= to ->
  (q, m) ∈ membership_logs d user rm 0 from ++ membership_logs d user rm from to <-> member_at (d_events d) user rm q m.
Proof.
  intros Hpos Hq. rewrite elem_of_app, !logs_spec. split; [by intros [[? _]|[? _]]|]. intros H.
  assert (0 < q) by (destruct H as (e & He & <- & _); by apply Hpos). destruct (decide (q <= from)); [left|right]; (split; [done|lia]).
Qed.

Lemma visible_ok d user rm from to a b : sorted (d_events d) -> (forall e, e ∈ d_events d -> 0 < e_nid e) ->
  0 <= from <= to -> visible_range d user rm from to = Some (a, b) ->
  b <= to /\
  (forall p, 0 < p -> a <= p <= b ->
     in_room (d_events d) user rm p \/ leaves_at (d_events d) user rm p \/ member_at (d_events d) user rm p "invite") /\
  (forall q, from < q <= to -> joins_at (d_events d) user rm q -> q <= a) /\
  (forall p, from <= p <= to -> (forall r, p <= r <= to -> in_room (d_events d) user rm r) -> a <= p /\ b = to).
Proof.
  intros Hs Hpos Hft Hv. unfold visible_range in Hv.
  set (F := membership_logs d user rm 0 from) in *. set (G := membership_logs d user rm from to) in *.
  assert (HV : visible_nids (match joined_from F with Some _ => true | None => false end) from to G = (a, b) /\
    (match joined_from F with Some _ => true | None => false end = true \/ G <> [])).
  { destruct (joined_from F); [split; [congruence|by left]|].
    destruct G; [done|]. split; [congruence|by right]. }
  destruct HV as [HV Hne].
  destruct (visible_nids_ok F G from to a b) as (H1 & H2 & H3 & H4); try done.
  { by apply logs_sorted. } { by apply logs_sorted. }
  { intros r m Hr. apply logs_spec in Hr. lia. }
  { intros r m Hr. apply logs_spec in Hr. lia. }
  split; [done|]. split; [|split].
  - intros p Hp0 Hp. destruct (H1 p Hp0 Hp) as [H|[[H (m & Hm & Hin)]|H]].
    + left. apply (in_log_room_early d user rm from to); [done|lia|lia|done].
    + right; left. split; [apply (in_log_room_early d user rm from to); [done|lia|lia|done]|].
      exists m. split; [done|]. apply (log_in d user rm from to); [done|lia|done].
    + right; right. apply (log_in d user rm from to); [done|lia|done].
  - intros q Hq [Hj Hn]. apply H3; [done|]. split; [apply (log_in d user rm from to); [done|lia|done]|].
    intros H. apply Hn. apply (in_log_room_early d user rm from to) in H; [done|done|lia|lia].
  - intros p Hp Hr. apply H4; [done|]. intros r Hrr. apply (in_log_room_early d user rm from to); [done|lia|lia|].
    by apply Hr.
Qed.
Lemma visible_none d user rm from to p : sorted (d_events d) -> (forall e, e ∈ d_events d -> 0 < e_nid e) ->
  0 <= from <= to -> visible_range d user rm from to = None -> from <= p <= to ->
  ~ in_room (d_events d) user rm p /\ (from < p -> forall m, ~ member_at (d_events d) user rm p m).
Proof.
  intros Hs Hpos Hft Hv Hp. unfold visible_range in Hv.
  destruct (joined_from (membership_logs d user rm 0 from)) eqn:Ej; [done|].
  destruct (membership_logs d user rm from to) eqn:EG; [|done].
  assert (Hno : forall q m, from < q <= to -> ~ member_at (d_events d) user rm q m).
  { intros q m Hq Hm. assert ((q, m) ∈ membership_logs d user rm from to) as H by (by apply logs_spec).
    rewrite EG in H. by apply elem_of_nil in H. }
  split; [|intros Hf m; apply Hno; lia].
  intros Hi. pose proof (joined_from_log (membership_logs d user rm 0 from) from) as Hj. rewrite Ej in Hj.
  enough (false = true) by done. apply Hj.
  - intros r m Hr. apply logs_spec in Hr. lia.
  - by apply logs_sorted.
  - apply (in_log_room_early d user rm from to) in Hi; [|done|lia|lia]. rewrite EG, app_nil_r in Hi.
    apply (in_log_top _ from p) in Hi; [done| |lia]. intros r m Hr. apply logs_spec in Hr. lia.
Qed.

(** * Timelines *)
Lemma cut_gap_prefix l : exists rest, l = cut_gap l ++ rest /\
  (forall pre e post, cut_gap l = pre ++ e :: post -> post <> [] -> e_missing e = false) /\
  (rest = [] \/ exists e, e ∈ cut_gap l /\ e_missing e = true).
Proof.
  induction l as [|e l (rest & Hl & Hm & Hr)]; cbn [cut_gap].
  { exists []. split; [done|]. split; [|by left]. intros [|? pre] ? ? Habs; discriminate. }
  destruct (e_missing e) eqn:Em.
  - exists l. split; [done|]. split.
    + intros [|x pre] y post [= -> H]; [by destruct post|]. by destruct pre.
    + right. exists e. split; [apply elem_of_list_here|done].
  - exists rest. split; [cbn; by rewrite <-Hl|]. split.
    + intros [|x pre] y post [= -> H] Hp; [done|]. by eapply Hm.
    + destruct Hr as [Hr|(x & Hx & Hxm)]; [by left|right]. exists x. split; [by apply elem_of_list_further|done].
Qed.

Lemma sorted_app l1 l2 : sorted (l1 ++ l2) ->
  sorted l1 /\ sorted l2 /\ forall x y, x ∈ l1 -> y ∈ l2 -> e_nid x < e_nid y.
Proof.
  unfold sorted, nids. rewrite map_app. induction l1 as [|a l1 IH]; cbn.
  { intros H. split; [constructor|]. split; [done|]. intros x y Hx. by apply elem_of_nil in Hx. }
  intros H. apply StronglySorted_inv in H as [H Hf]. destruct (IH H) as (H1 & H2 & H3).
  rewrite Forall_app in Hf. destruct Hf as [Hf1 Hf2]. split; [by constructor|]. split; [done|].
  intros x y Hx Hy. apply elem_of_cons in Hx as [-> |Hx]; [|by apply H3].
  rewrite Forall_forall in Hf2. apply Hf2. apply elem_of_list_fmap. by exists y.
Qed.

Lemma between_ok d rm lower upper limit : sorted (d_events d) ->
  let tl := rev (latest_between d rm lower upper limit) in
  (length tl <= limit)%nat /\ sorted tl /\
  (forall e, e ∈ tl -> timeline_row (d_events d) rm (lower + 1) upper e) /\
  (forall e x, e ∈ tl -> timeline_row (d_events d) rm (lower + 1) upper x -> e_nid e <= e_nid x -> x ∈ tl) /\
  (forall e y, e ∈ tl -> y ∈ tl -> e_nid y < e_nid e -> e_missing e = false) /\
  (forall x, timeline_row (d_events d) rm (lower + 1) upper x -> x ∉ tl ->
     length tl = limit \/ exists e, e ∈ tl /\ e_missing e = true).
Proof.
  intros Hs tl. unfold latest_between in tl.
  set (rows := List.filter _ (d_events d)) in tl.
  assert (Hrows : forall e, e ∈ rows <-> timeline_row (d_events d) rm (lower + 1) upper e).
  { intros e. unfold rows, timeline_row. rewrite elem_of_list_In, filter_In, <-elem_of_list_In.
    rewrite !andb_true_iff, negb_true_iff, String.eqb_eq. split; intros H; repeat split; try apply H; try lia; destruct H as [_ H]; lia. }
  assert (Hrs : sorted rows) by (by apply sorted_filter). clearbody rows.
  destruct (cut_gap_prefix (take limit (rev rows))) as (rest & Hcut & Hm & Hrest).
  set (cut := cut_gap (take limit (rev rows))) in *. clearbody cut.
  (* rows = rev (drop) ++ rev rest ++ tl *)
  assert (Heq : rows = rev (drop limit (rev rows)) ++ rev rest ++ tl).
  { rewrite <-(rev_involutive rows) at 1. rewrite <-(take_drop limit (rev rows)) at 1. rewrite Hcut at 1.
    unfold tl. by rewrite !rev_app_distr. }
  pose proof Hrs as Hrs'. rewrite Heq in Hrs'. apply sorted_app in Hrs' as (_ & Hrs' & Hlt1).
  apply sorted_app in Hrs' as (_ & Htl & Hlt2).
  assert (Hin : forall x, x ∈ rows <-> x ∈ rev (drop limit (rev rows)) \/ x ∈ rev rest \/ x ∈ tl).
  { intros x. rewrite Heq at 1. by rewrite !elem_of_app. }
  split.
  { unfold tl. rewrite rev_length. assert (length cut <= length (take limit (rev rows)))%nat by (rewrite Hcut, app_length; lia).
    rewrite take_length in H. lia. }
  split; [done|]. split; [|split; [|split]].
  - intros e He. apply Hrows, Hin. auto.
  - intros e x He Hx Hle. apply Hrows, Hin in Hx as [Hx|[Hx|Hx]]; [| |done].
    + specialize (Hlt1 x e Hx). rewrite elem_of_app in Hlt1. specialize (Hlt1 (or_intror He)). lia.
    + specialize (Hlt2 x e Hx He). lia.
  - intros e y He Hy Hlt. assert (He' : e ∈ cut).
    { unfold tl in He. by rewrite elem_of_list_In, <-in_rev, <-elem_of_list_In in He. }
    apply elem_of_list_split in He' as (pre & post & Hc). apply (Hm pre e post Hc). intros ->.
    unfold tl in Hy, Htl. rewrite Hc, rev_app_distr in Hy, Htl. cbn in Hy, Htl.
    apply elem_of_cons in Hy as [-> |Hy]; [lia|].
    apply StronglySorted_inv in Htl as [_ Hf]. rewrite Forall_forall in Hf.
    specialize (Hf (e_nid y)). feed specialize Hf; [apply elem_of_list_fmap; by exists y|]. lia.
  - intros x Hx Hnot. apply Hrows, Hin in Hx as [Hx|[Hx|Hx]]; [| |done].
    + destruct Hrest as [-> |(e & He & Hem)].
      * left. rewrite app_nil_r in Hcut. unfold tl. rewrite rev_length, <-Hcut, take_length.
        rewrite elem_of_list_In, <-in_rev, <-elem_of_list_In in Hx.
        assert (length (drop limit (rev rows)) <> 0)%nat by (destruct (drop limit (rev rows)); [by apply elem_of_nil in Hx|done]).
        rewrite drop_length in H. lia.
      * right. exists e. split; [|done]. unfold tl. by rewrite elem_of_list_In, <-in_rev, <-elem_of_list_In.
    + destruct Hrest as [-> |(e & He & Hem)]; [by apply elem_of_nil in Hx|].
      right. exists e. split; [|done]. unfold tl. by rewrite elem_of_list_In, <-in_rev, <-elem_of_list_In.
Qed.

(** * Room state at a position *)
Lemma latest_event_last d rm pos x : sorted (d_events d) -> last_row (d_events d) rm pos x ->
  latest_event_in d rm pos = Some x.
Proof.
  intros Hs (Hx & Hr & Hp & Hmax). unfold latest_event_in.
  set (l := List.filter _ _).
  assert (Hl : forall e, e ∈ l <-> e ∈ d_events d /\ e_room e = rm /\ e_nid e <= pos).
  { intros e. unfold l. rewrite elem_of_list_In, filter_In, <-elem_of_list_In, andb_true_iff, String.eqb_eq, Z.leb_le. done. }
  assert (Hls : sorted l) by (by apply sorted_filter). clearbody l.
  assert (Hxl : x ∈ l) by (by apply Hl).
  destruct l as [|y l _] using rev_ind; [by apply elem_of_nil in Hxl|]. rewrite last_snoc. f_equal.
  apply (sorted_inj (d_events d)); [done| |done|].
  - apply Hl, elem_of_app. right. by apply elem_of_list_singleton.
  - assert (Hy : y ∈ l ++ [y]) by (apply elem_of_app; right; by apply elem_of_list_singleton).
    apply Hl in Hy as (Hy1 & Hy2 & Hy3). specialize (Hmax y Hy1 Hy2 Hy3).
    apply elem_of_app in Hxl as [Hxl|Hxl]; [|by apply elem_of_list_singleton in Hxl as ->].
    apply sorted_app in Hls as (_ & _ & Hlt). specialize (Hlt x y Hxl). rewrite elem_of_list_singleton in Hlt. specialize (Hlt eq_refl). lia.
Qed.
Lemma latest_event_none d rm pos : (forall e, e ∈ d_events d -> e_room e = rm -> pos < e_nid e) ->
  latest_event_in d rm pos = None.
Proof.
  intros H. unfold latest_event_in. assert (Hl : List.filter (fun e => String.eqb (e_room e) rm && (e_nid e <=? pos)) (d_events d) = []).
  { apply elem_of_nil_inv. intros e He. rewrite elem_of_list_In, filter_In, <-elem_of_list_In, andb_true_iff, String.eqb_eq, Z.leb_le in He.
    destruct He as (He & Hr & Hp). specialize (H e He Hr). lia. }
  by rewrite Hl.
Qed.

Lemma latest_for_ok d rm r pos x : sorted (d_events d) -> room_inv d rm r -> last_row (d_events d) rm pos x ->
  latest_for d r rm pos = Ok (Some x).
Proof.
  intros Hs Hi Hx. unfold latest_for. destruct (Z.ltb_spec pos (rm_latest r)); [by rewrite (latest_event_last d rm pos x)|].
  destruct (rv_latest _ _ _ Hi) as (e & He & Her & Hen). pose proof (rv_max _ _ _ Hi) as Hmax.
  assert (x = e) as ->.
  { destruct Hx as (Hx & Hr & Hp & Hm). apply (sorted_inj (d_events d)); [done..|].
    specialize (Hm e He Her). specialize (Hmax x Hx Hr). lia. }
  destruct (select_ok d [rm_latest r] Hs) as (l & -> & Hls & Hl).
  { apply NoDup_singleton. }
  { intros n Hn. apply elem_of_list_singleton in Hn as ->. eauto. }
  assert (He' : e ∈ l) by (apply Hl; split; [done|by apply elem_of_list_singleton]).
  destruct l as [|y l]; [by apply elem_of_nil in He'|]. cbn. do 2 f_equal.
  destruct (proj1 (Hl y)) as [Hy Hyn]; [apply elem_of_list_here|]. apply elem_of_list_singleton in Hyn.
  apply (sorted_inj (d_events d)); [done..|]. congruence.
Qed.

Lemma replace_first_spec old new l : NoDup l -> new ∉ l -> old ∈ l ->
  NoDup (replace_first old new l) /\ forall n, n ∈ replace_first old new l <-> n = new \/ (n ∈ l /\ n <> old).
Proof.
  induction l as [|m l IH]; intros Hnd Hn Ho; [by apply elem_of_nil in Ho|]. cbn [replace_first].
  apply NoDup_cons in Hnd as [Hm Hnd]. apply not_elem_of_cons in Hn as [Hnm Hn].
  destruct (Z.eqb_spec m old) as [-> |Hne].
  - split; [apply NoDup_cons; done|]. intros n. rewrite !elem_of_cons. split.
    + intros [-> |H]; [by left|right]. split; [by right|]. by intros ->.
    + intros [-> |[[-> |H] Hd]]; [by left|done|by right].
  - apply elem_of_cons in Ho as [Ho|Ho]; [by subst|]. destruct (IH Hnd Hn Ho) as [H1 H2]. split.
    + apply NoDup_cons. split; [|done]. rewrite H2. intros [-> |[H _]]; [by apply Hnm|by apply Hm].
    + intros n. rewrite !elem_of_cons, H2. split.
      * intros [-> |[-> |[H Hd]]]; [right; split; [by left|done]|by left|right; split; [by right|done]].
      * intros [-> |[[-> |H] Hd]]; [right; by left|by left|right; right; done].
Qed.

Lemma newest_last_row l rm pos x e : last_row l rm pos x -> newest l rm pos e <-> newest l rm (e_nid x) e.
Proof.
  intros (Hx & Hr & Hp & Hmax). split; intros (H1 & H2 & H3 & H4 & H5).
  - split; [done|]. split; [done|]. split; [done|]. split; [by apply Hmax|]. intros y Hy Hyr Hys Hk Hyp. apply H5; [done..|lia].
  - split; [done|]. split; [done|]. split; [done|]. split; [lia|]. intros y Hy Hyr Hys Hk Hyp. apply H5; [done..|by apply Hmax].
Qed.
Lemma newest_nonstate l rm x e : x ∈ l -> sorted l -> ~ state_row x -> newest l rm (e_nid x) e <-> newest l rm (e_nid x - 1) e.
Proof.
  intros Hx Hs Hn. assert (Hne : forall y, y ∈ l -> state_row y -> e_nid y <= e_nid x -> e_nid y <= e_nid x - 1).
  { intros y Hy Hys Hle. destruct (decide (e_nid y = e_nid x)) as [Heq|]; [|lia].
    exfalso. apply Hn. by rewrite <-(sorted_inj l y x Hs Hy Hx Heq). }
  split; intros (H1 & H2 & H3 & H4 & H5).
  - split; [done|]. split; [done|]. split; [done|]. split; [by apply Hne|]. intros y Hy Hyr Hys Hk Hyp. apply H5; [done..|lia].
  - split; [done|]. split; [done|]. split; [done|]. split; [lia|]. intros y Hy Hyr Hys Hk Hyp. apply H5; [done..|by apply Hne].
Qed.

(** The snapshot the code starts from: either the state before [x], with [x] from a
    timeline, or the state after [x]. *)
Definition start_ok (d : db) (rm : string) (x : event) (s : snap) : Prop :=
  (e_isstate x = false /\ replaces_ok (d_events d) x /\ holds_state (d_events d) rm (e_nid x - 1) s) \/
  (state_row x /\ e_replaces x = 0 /\ holds_state (d_events d) rm (e_nid x) s).

Lemma start_snap_ok k d rm pos x r : Inv k d -> d_rooms d !! rm = Some r -> last_row (d_events d) rm pos x ->
  (e_before x <> 0 -> is_Some (d_snaps d !! e_before x)) ->
  (e_before x <> 0 \/ (state_row x /\ e_nid x = rm_latest r)) ->
  exists s, 0 < start_snap d rm x /\ d_snaps d !! start_snap d rm x = Some s /\ start_ok d rm x s.
Proof.
  intros Hi Hr Hx Hsn Hg. pose proof Hx as (Hxl & Hxr & Hxp & _).
  pose proof (iv_rows _ _ Hi x Hxl) as Hrow. unfold row_ok in Hrow. unfold start_snap.
  destruct (Z.eqb_spec (e_before x) 0) as [Hb|Hb].
  - destruct Hg as [|[Hst Hlat]]; [done|]. pose proof (iv_room _ _ Hi rm r Hr) as Hri.
    destruct (rv_cur _ _ _ Hri) as [[H0 Hno]|(H0 & s & Hs & Hh)].
    { specialize (Hno x Hxl Hxr Hst). pose proof (bs_nid _ (iv_base _ _ Hi) x Hxl). lia. }
    unfold current_snap. rewrite Hr. exists s. split; [done|]. split; [done|]. right. split; [done|]. split.
    + destruct (e_isstate x) eqn:Ei; [apply Hrow|]. destruct Hrow as ([(_ & Hno)|[? _]] & Hrep & _); [|lia].
      unfold replaces_ok in Hrep. destruct (has_key (e_json x)); [|done].
      destruct Hrep as [(y & Hy & _)|[? _]]; [|done]. destruct Hy as (H1 & H2 & H3 & H4 & _).
      rewrite Hxr in *. specialize (Hno y H1 H2 H3). lia.
    + eapply holds_ext; [|exact Hh]. intros e.
      assert (Hlast : last_row (d_events d) rm (d_seq d) x).
      { split; [done|]. split; [done|]. split; [apply (bs_nid _ (iv_base _ _ Hi) x Hxl)|].
        intros y Hy Hyr _. rewrite Hlat. by apply (rv_max _ _ _ Hri). }
      symmetry. by rewrite (newest_last_row _ _ _ _ _ Hlast).
  - destruct (Hsn Hb) as [s Hs]. destruct (e_isstate x) eqn:Ei; [by destruct Hrow|].
    destruct Hrow as ([[? _]|(H0 & _ & Hh)] & Hrep & _); [done|]. exists s. split; [done|]. split; [done|].
    left. split; [done|]. split; [done|]. rewrite <-Hxr. by apply Hh.
Qed.

Lemma state_row_key x : e_isstate x = false -> state_row x <-> has_key (e_json x) = true.
Proof. intros Hi. rewrite <-srow_spec. unfold srow. by rewrite Hi. Qed.

Lemma roll_forward_ok d rm x s : sorted (d_events d) -> (forall e, e ∈ d_events d -> 0 < e_nid e) ->
  x ∈ d_events d -> e_room x = rm -> start_ok d rm x s ->
  NoDup (roll_forward x (s_members s ++ s_others s)) /\
  forall n, n ∈ roll_forward x (s_members s ++ s_others s) <-> exists e, newest (d_events d) rm (e_nid x) e /\ e_nid e = n.
Proof.
  intros Hs Hpos Hx Hr Hok. unfold roll_forward.
  destruct Hok as [(Hi & Hrep & Hh)|(Hst & Hrep & Hh)].
  - pose proof Hh as (_ & Hnd & _).
    assert (Hin : forall n, n ∈ s_members s ++ s_others s <-> exists e, newest (d_events d) rm (e_nid x - 1) e /\ e_nid e = n)
      by (intros n; by apply holds_elem).
    unfold replaces_ok in Hrep. destruct (has_key (e_json x)) eqn:Hk.
    + assert (Hst : state_row x) by (by apply state_row_key).
      assert (Hxn : e_nid x ∉ s_members s ++ s_others s).
      { rewrite Hin. intros (e & (_ & _ & _ & Hle & _) & Heq). lia. }
      destruct Hrep as [(y & Hy & Hyk & Hyn)|[H0 Hno]].
      * destruct (Z.eqb_spec (e_replaces x) 0) as [H0|_]; cbn.
        { pose proof (Hpos y (proj1 Hy)). lia. }
        rewrite Hr in Hy. destruct (replace_first_spec (e_replaces x) (e_nid x) (s_members s ++ s_others s) Hnd Hxn) as [H1 H2].
        { apply Hin. exists y. by rewrite Hyn. }
        split; [done|]. intros n. rewrite H2, Hin. split.
        -- intros [-> |[(e & He & <-) Hne]].
           ++ exists x. split; [|done]. apply newest_step; [done..|]. by left.
           ++ exists e. split; [|done]. apply newest_step; [done..|]. right. split; [done|].
              intros Hek. apply Hne. rewrite Hyn. f_equal. apply (newest_unique (d_events d) rm (e_nid x - 1)); [done..|congruence].
        -- intros (e & He & <-). apply newest_step in He as [-> |[He Hek]]; [by left| |done..]. right. split; [by exists e|].
           rewrite Hyn. intros Heq. apply Hek. rewrite <-Hyk. f_equal.
           apply (sorted_inj (d_events d)); [done|apply He|apply Hy|done].
      * rewrite H0. cbn. destruct (existsb (Z.eqb (e_nid x)) (s_members s ++ s_others s)) eqn:Ee.
        { apply existsb_nid in Ee. done. }
        split.
        { apply NoDup_app. split; [done|]. split; [|apply NoDup_singleton]. intros n Hn ->%elem_of_list_singleton. done. }
        intros n. rewrite elem_of_app, elem_of_list_singleton, Hin. rewrite Hr in Hno. split.
        -- intros [(e & He & <-)| ->].
           ++ exists e. split; [|done]. apply newest_step; [done..|]. right. split; [done|]. by apply Hno.
           ++ exists x. split; [|done]. apply newest_step; [done..|]. by left.
        -- intros (e & He & <-). apply newest_step in He as [-> |[He Hek]]; [by right| |done..]. left. by exists e.
    + split; [done|]. intros n. rewrite Hin. assert (Hnst : ~ state_row x) by (rewrite state_row_key by done; congruence).
      split; intros (e & He & <-); exists e; (split; [|done]); by apply (newest_nonstate _ rm x e Hx Hs Hnst).
  - pose proof Hh as (_ & Hnd & _).
    assert (Hin : forall n, n ∈ s_members s ++ s_others s <-> exists e, newest (d_events d) rm (e_nid x) e /\ e_nid e = n)
      by (intros n; by apply holds_elem).
    assert (Hxin : e_nid x ∈ s_members s ++ s_others s).
    { apply Hin. exists x. split; [|done]. apply newest_step; [done..|]. by left. }
    rewrite Hrep. cbn. apply existsb_nid in Hxin. rewrite Hxin. destruct (has_key _); done.
Qed.

Lemma where_wanted f e : f <> ∅ -> where_clause f e = true <-> wanted f e.
Proof.
  intros Hf. unfold where_clause, wanted. split.
  - intros H. right. destruct (f !! e_type e) as [[|k ks]|] eqn:E; [exists []; auto| |done].
    exists (k :: ks). split; [done|]. right. by apply existsb_str.
  - intros [->|(ks & -> & [-> |Hin])]; [done|done|]. destruct ks; [done|]. by apply existsb_str.
Qed.

Lemma column_ok (f : gmap string (list string)) l rm p s e : holds_state l rm p s -> sorted l -> e ∈ l -> where_clause f e = true ->
  e_nid e ∈ nid_column f s <-> newest l rm p e.
Proof.
  intros Hh Hs Hel Hw.
  assert (Hall : e_nid e ∈ s_members s ++ s_others s <-> newest l rm p e).
  { rewrite (holds_elem _ _ _ _ _ Hh). split.
    - intros (y & Hy & Heq). by rewrite <-(sorted_inj l y e Hs (proj1 Hy) Hel Heq).
    - intros H. by exists e. }
  destruct Hh as (_ & _ & Hm & Ho).
  assert (Hty : exists ks, f !! e_type e = Some ks) by (unfold where_clause in Hw; destruct (f !! e_type e); [eauto|done]).
  destruct Hty as [ks Hks]. unfold nid_column.
  destruct (has_member_filter f && negb (has_other_filter f)) eqn:E1; [|destruct (negb (has_member_filter f) && has_other_filter f) eqn:E2].
  - apply andb_true_iff in E1 as [_ E1]. unfold has_other_filter in E1. rewrite negb_involutive in E1.
    apply Nat.eqb_eq in E1. apply map_size_empty_inv in E1.
    assert (Hmem : e_type e = "m.room.member").
    { destruct (decide (e_type e = "m.room.member")) as [|Hne]; [done|].
      assert (delete "m.room.member" f !! e_type e = Some ks) as H by (by rewrite lookup_delete_ne).
      rewrite E1 in H. by rewrite lookup_empty in H. }
    rewrite <-Hall, elem_of_app. split; [by left|]. intros [H|H]; [done|]. apply Ho in H as (y & Hy & Heq & Hne).
    exfalso. apply Hne. by rewrite (sorted_inj l y e Hs (proj1 Hy) Hel Heq).
  - apply andb_true_iff in E2 as [E2 _]. unfold has_member_filter in E2.
    assert (Hmem : e_type e <> "m.room.member") by (intros Heq; rewrite Heq in Hks; by rewrite Hks in E2).
    rewrite <-Hall, elem_of_app. split; [by right|]. intros [H|H]; [|done]. apply Hm in H as (y & Hy & Heq & Hne).
    exfalso. apply Hmem. by rewrite <-(sorted_inj l y e Hs (proj1 Hy) Hel Heq).
  - rewrite <-Hall, !elem_of_app. tauto.
Qed.

Lemma filtered_ok d rm x s sid (f : gmap string (list string)) : sorted (d_events d) -> (forall e, e ∈ d_events d -> 0 < e_nid e) ->
  (forall e, e ∈ d_events d -> e_room e = rm -> e_nid e <= e_nid x -> True) ->
  x ∈ d_events d -> e_room x = rm -> d_snaps d !! sid = Some s -> start_ok d rm x s -> f <> ∅ ->
  (~ state_row x -> ~ wanted f x) ->
  (forall e, e ∈ filtered_state d sid f x <-> newest (d_events d) rm (e_nid x) e /\ wanted f e) /\
  (e_before x <> 0 -> start_snap d rm x = sid -> e_isstate x = false -> holds_state (d_events d) rm (e_nid x - 1) s ->
   NoDup (filtered_state d sid f x)).
Proof.
  intros Hs Hpos _ Hx Hr Hsn Hok Hf Hmsg. unfold filtered_state, query_rows. rewrite Hsn.
  set (rows := List.filter _ (d_events d)).
  assert (Hrows : forall p, holds_state (d_events d) rm p s -> forall e, e ∈ rows <-> newest (d_events d) rm p e /\ wanted f e).
  { intros p Hh e. unfold rows. rewrite elem_of_list_In, filter_In, <-elem_of_list_In, andb_true_iff, existsb_nid.
    split.
    - intros (He & Hw & Hn). split; [|by apply where_wanted]. by apply (column_ok f _ _ _ _ _ Hh Hs He Hw).
    - intros [He Hw]. apply where_wanted in Hw; [|done]. split; [apply He|]. split; [done|].
      apply (column_ok f _ _ _ _ _ Hh Hs (proj1 He) Hw). done. }
  assert (Hrs : sorted rows) by (by apply sorted_filter). clearbody rows.
  set (g := fun e => if e_replaces x =? e_nid e then x else e).
  assert (Hw0 : e_replaces x = 0 -> forall e, e ∈ rows -> g e = e).
  { intros H0 e He. unfold g. rewrite H0. destruct (Z.eqb_spec 0 (e_nid e)) as [Hz|]; [|done].
    assert (exists p, holds_state (d_events d) rm p s) as [p Hp] by (destruct Hok as [(_ & _ & H)|(_ & _ & H)]; eauto).
    pose proof (proj1 (Hrows p Hp e) He) as [Hn _]. pose proof (Hpos e (proj1 Hn)). lia. }
  assert (Hmap0 : e_replaces x = 0 -> map g rows = rows).
  { intros H0. rewrite <-(map_id rows) at 2. apply map_ext_in. intros e He. apply Hw0; [done|by apply elem_of_list_In]. }
  assert (Hside : forall e, e ∈ (if (e_replaces x =? 0) && where_clause f x then [x] else []) <->
    e = x /\ e_replaces x = 0 /\ wanted f x).
  { intros e. destruct (Z.eqb_spec (e_replaces x) 0) as [H0|H0]; cbn.
    - destruct (where_clause f x) eqn:Ew.
      + rewrite elem_of_list_singleton. apply where_wanted in Ew; [|done]. split; [by intros ->|by intros [-> _]].
      + rewrite elem_of_nil. split; [done|]. intros (_ & _ & H). apply where_wanted in H; [congruence|done].
    - rewrite elem_of_nil. split; [done|]. by intros (_ & ? & _). }
  assert (Hwx : forall e, ekey e = ekey x -> wanted f e -> wanted f x).
  { intros e [= Ht Hk] [|(ks & H1 & H2)]; [by left|]. right. exists ks. rewrite <-Ht, <-Hk. done. }
  assert (Hwx' : forall e, ekey e = ekey x -> wanted f x -> wanted f e).
  { intros e [= Ht Hk] [|(ks & H1 & H2)]; [by left|]. right. exists ks. rewrite Ht, Hk. done. }
  destruct Hok as [(Hi & Hrep & Hh)|(Hst & Hrep & Hh)].
  - specialize (Hrows _ Hh). unfold replaces_ok in Hrep.
    destruct (has_key (e_json x)) eqn:Hk.
    + assert (Hst : state_row x) by (by apply state_row_key).
      destruct Hrep as [(y & Hy & Hyk & Hyn)|[H0 Hno]].
      * assert (Hy0 : e_replaces x <> 0) by (pose proof (Hpos y (proj1 Hy)); lia). rewrite Hr in Hy.
        assert (Hg : forall e, e ∈ rows -> (g e = x /\ e = y) \/ (g e = e /\ e <> y)).
        { intros e He. unfold g. destruct (Z.eqb_spec (e_replaces x) (e_nid e)) as [Heq|Hne].
          - left. split; [done|]. apply Hrows in He as [He _]. apply (sorted_inj (d_events d)); [done|apply He|apply Hy|congruence].
          - right. split; [done|]. intros ->. congruence. }
        split.
        -- intros e. rewrite elem_of_app, Hside, elem_of_list_fmap, (newest_step _ rm x e Hs Hx Hr Hst). split.
           ++ intros [(z & -> & Hz)|(_ & ? & _)]; [|done]. destruct (Hg z Hz) as [[-> ->]|[-> Hne]].
              ** split; [by left|]. apply Hrows in Hz as [_ Hz]. by apply (Hwx y).
              ** apply Hrows in Hz as [Hz1 Hz2]. split; [|done]. right. split; [done|]. intros Hzk. apply Hne.
                 apply (newest_unique (d_events d) rm (e_nid x - 1)); [done..|congruence].
           ++ intros [[-> |[He Hek]] Hw].
              ** left. exists y. assert (Hyr : y ∈ rows) by (apply Hrows; split; [done|by apply (Hwx' y)]).
                 split; [|done]. destruct (Hg y Hyr) as [[-> _]|[_ ?]]; done.
              ** left. exists e. assert (Her : e ∈ rows) by (by apply Hrows). split; [|done].
                 destruct (Hg e Her) as [[_ ->]|[-> _]]; [|done]. by rewrite Hyk in Hek.
        -- intros _ _ _ _. destruct (Z.eqb_spec (e_replaces x) 0); [done|]. cbn. rewrite app_nil_r.
           assert (Hnd : NoDup rows) by (apply (NoDup_fmap_1 e_nid); by apply sorted_nodup).
           assert (Hxr : x ∉ rows). { intros H. apply Hrows in H as [(_ & _ & _ & H & _) _]. lia. }
           clear Hrows Hw0 Hmap0 Hrs.
           induction rows as [|e rows IH]; [constructor|]. apply NoDup_cons in Hnd as [Hen Hnd].
           apply not_elem_of_cons in Hxr as [Hxe Hxr]. cbn. apply NoDup_cons. split; [|apply IH; [intros; apply Hg; by apply elem_of_list_further|done..]].
           intros Hin. apply elem_of_list_fmap in Hin as (z & Hz & Hzr).
           assert (Hze : z <> e) by (intros ->; done).
           destruct (Hg e ltac:(apply elem_of_list_here)) as [[He1 He2]|[He1 He2]];
           destruct (Hg z ltac:(by apply elem_of_list_further)) as [[Hz1 Hz2]|[Hz1 Hz2]].
           ++ apply Hze. congruence.
           ++ apply Hxr. congruence.
           ++ apply Hxe. congruence.
           ++ apply Hze. congruence.
      * rewrite (Hmap0 H0). rewrite Hr in Hno. split.
        -- intros e. rewrite elem_of_app, Hside, Hrows, (newest_step _ rm x e Hs Hx Hr Hst). split.
           ++ intros [[He Hw]|(-> & _ & Hw)]; [|by split; [left|]]. split; [|done]. right. split; [done|]. by apply Hno.
           ++ intros [[-> |[He Hek]] Hw]; [by right|by left].
        -- intros _ _ _ _. apply NoDup_app. split; [apply (NoDup_fmap_1 e_nid); by apply sorted_nodup|]. split.
           ++ intros e He Hin. apply Hside in Hin as (-> & _). apply Hrows in He as [(_ & _ & _ & H & _) _]. lia.
           ++ destruct (_ && _); [apply NoDup_singleton|constructor].
    + rewrite (Hmap0 Hrep). assert (Hnst : ~ state_row x) by (rewrite state_row_key by done; congruence). split.
      * intros e. rewrite elem_of_app, Hside, Hrows, (newest_nonstate _ rm x e Hx Hs Hnst). split; [|by left].
        intros [?|(-> & _ & Hw)]; [done|]. exfalso. by apply Hmsg.
      * intros _ _ _ _. destruct (where_clause f x) eqn:Ew; [apply where_wanted in Ew; [|done]; exfalso; by apply Hmsg|].
        rewrite andb_false_r, app_nil_r. apply (NoDup_fmap_1 e_nid). by apply sorted_nodup.
  - specialize (Hrows _ Hh). rewrite (Hmap0 Hrep). split.
    + intros e. rewrite elem_of_app, Hside, Hrows. split; [|by left]. intros [?|(-> & _ & Hw)]; [done|].
      split; [|done]. apply newest_step; [done..|by left].
    + intros _ _ Hi Hh1. exfalso. destruct Hh as (_ & _ & Hm & Ho). destruct Hh1 as (_ & _ & Hm1 & Ho1).
      assert (Hnx : newest (d_events d) rm (e_nid x) x) by (apply newest_step; [done..|by left]).
      destruct (decide (e_type x = "m.room.member")) as [Ht|Ht].
      * assert (e_nid x ∈ s_members s) as H by (apply Hm; eauto). apply Hm1 in H as (e & (_ & _ & _ & H & _) & Heq & _). lia.
      * assert (e_nid x ∈ s_others s) as H by (apply Ho; eauto). apply Ho1 in H as (e & (_ & _ & _ & H & _) & Heq & _). lia.
Qed.

Lemma room_state_ok k d rm pos x r (f : gmap string (list string)) : Inv k d -> d_rooms d !! rm = Some r ->
  last_row (d_events d) rm pos x ->
  (e_before x <> 0 -> is_Some (d_snaps d !! e_before x)) ->
  (e_before x <> 0 \/ (state_row x /\ e_nid x = rm_latest r)) ->
  (f = ∅ \/ state_row x \/ ~ wanted f x) ->
  exists l, room_state_after d rm pos f = Ok (Some l) /\
    (forall e, e ∈ l <-> newest (d_events d) rm pos e /\ wanted f e) /\
    ((f = ∅ \/ e_before x <> 0) -> NoDup l).
Proof.
  intros Hi Hr Hx Hsn Hg Hmsg. pose proof Hx as (Hxl & Hxr & Hxp & _).
  pose proof (bs_sorted _ (iv_base _ _ Hi)) as Hs.
  assert (Hpos : forall e, e ∈ d_events d -> 0 < e_nid e) by (intros e He; apply (bs_nid _ (iv_base _ _ Hi) e He)).
  destruct (start_snap_ok k d rm pos x r Hi Hr Hx Hsn Hg) as (s & H0 & Hsid & Hok).
  unfold room_state_after. rewrite Hr, (latest_for_ok d rm r pos x Hs (iv_room _ _ Hi rm r Hr) Hx).
  destruct (Nat.eqb_spec (size f) 0) as [Hf|Hf].
  - apply map_size_empty_inv in Hf as ->. unfold select_snap. destruct (Z.eqb_spec (start_snap d rm x) 0) as [?|_]; [lia|]. rewrite Hsid.
    destruct (roll_forward_ok d rm x s Hs Hpos Hxl Hxr Hok) as [Hnd Hel].
    destruct (select_ok d _ Hs Hnd) as (l & -> & Hls & Hl).
    { intros n Hn. apply Hel in Hn as (e & He & <-). exists e. split; [apply He|done]. }
    exists l. split; [done|]. split; [|intros _; apply (NoDup_fmap_1 e_nid); by apply sorted_nodup].
    intros e. rewrite Hl, Hel, (newest_last_row _ _ _ _ _ Hx). split.
    + intros [He (y & Hy & Heq)]. rewrite <-(sorted_inj _ y e Hs (proj1 Hy) He Heq). split; [done|by left].
    + intros [He _]. split; [apply He|by exists e].
  - assert (Hf' : f <> ∅) by (intros ->; by rewrite map_size_empty in Hf).
    destruct (filtered_ok d rm x s (start_snap d rm x) f Hs Hpos ltac:(done) Hxl Hxr Hsid Hok Hf') as [H1 H2].
    { intros Hn. destruct Hmsg as [?|[?|?]]; done. }
    exists (filtered_state d (start_snap d rm x) f x). split; [done|]. split.
    + intros e. by rewrite H1, (newest_last_row _ _ _ _ _ Hx).
    + intros [?|Hb]; [done|]. destruct (e_isstate x) eqn:Ei.
      * pose proof (iv_rows _ _ Hi x Hxl) as Hrow. unfold row_ok in Hrow. rewrite Ei in Hrow. by destruct Hrow.
      * apply H2; [done..|]. destruct Hok as [(_ & _ & ?)|(Hst & _ & Hh)]; [done|].
        pose proof (iv_rows _ _ Hi x Hxl) as Hrow. unfold row_ok in Hrow. rewrite Ei in Hrow.
        destruct Hrow as ([[? _]|(_ & _ & Hrow)] & _); [done|]. rewrite <-Hxr. apply Hrow.
        unfold start_snap in Hsid. by destruct (Z.eqb_spec (e_before x) 0).
Qed.
Lemma room_state_none k d rm pos f : Inv k d -> (forall e, e ∈ d_events d -> e_room e = rm -> pos < e_nid e) ->
  room_state_after d rm pos f = Ok None.
Proof.
  intros Hi Hno. unfold room_state_after. destruct (d_rooms d !! rm) as [r|] eqn:Er; [|done].
  destruct (rv_latest _ _ _ (iv_room _ _ Hi rm r Er)) as (e & He & Her & Hen). specialize (Hno e He Her) as Hlt.
  unfold latest_for. destruct (Z.ltb_spec pos (rm_latest r)); [|lia]. by rewrite latest_event_none.
Qed.
