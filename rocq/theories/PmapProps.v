(** C43 (and the poller map's part of C42): pollers. *)
From Verif Require Import Prelude PmapModel PmapSpec.
Open Scope string_scope. Open Scope list_scope. Open Scope nat_scope.

(** ** Invariants *)
Definition inv (m : pmap) : Prop :=
  (* the map holds pollers of their key *)
  (forall p s, pm_cur m !! p = Some s -> exists q, pm_all m !! s = Some q /\ q_pid q = p)
  (* a poller that is not terminated is in the map *)
  /\ (forall s q, pm_all m !! s = Some q -> q_term q = false -> pm_cur m !! q_pid q = Some s)
  (* waiters are released by a sync or by the end of a terminated loop *)
  /\ (forall s q, pm_all m !! s = Some q -> q_wg q = true -> q_synced q = true \/ (q_term q = true /\ q_run q = false))
  (* calls wait for existing pollers *)
  /\ (forall n s, (pm_calls m !! n = Some (WaitOld s) \/ exists w, pm_calls m !! n = Some (WaitNew s w)) ->
        s < length (pm_all m)).

Lemma inv_init : inv pmap0.
Proof.
  split; [intros p s H; cbn in H; by rewrite lookup_empty in H|]. split; [intros s q H; cbn in H; by rewrite lookup_nil in H|].
  split; [intros s q H; cbn in H; by rewrite lookup_nil in H|]. intros n s [H|[w H]]; cbn in H; by rewrite lookup_nil in H.
Qed.

Lemma inv_on_poller m s f :
  (forall q, q_pid (f q) = q_pid q) -> (forall q, q_term q = true -> q_term (f q) = true) ->
  (forall q, (q_wg q = true -> q_synced q = true \/ (q_term q = true /\ q_run q = false)) ->
     q_wg (f q) = true -> q_synced (f q) = true \/ (q_term (f q) = true /\ q_run (f q) = false)) ->
  inv m -> inv (on_poller m s f).
Proof.
  intros Hp Ht Hw (H1 & H2 & H3 & H4). split; [|split; [|split]]; cbn.
  - intros p s' H. destruct (H1 p s' H) as (q & Hq & E). destruct (decide (s = s')) as [<-|Hs].
    + exists (f q). rewrite list_lookup_alter, Hq. split; [done|]. by rewrite Hp.
    + exists q. by rewrite list_lookup_alter_ne.
  - intros s' q Hq Hterm. destruct (decide (s = s')) as [<-|Hs].
    + rewrite list_lookup_alter in Hq. destruct (pm_all m !! s) as [q0|] eqn:E; [|done]. cbn in Hq. inversion Hq; subst q.
      rewrite Hp. apply H2; [done|]. destruct (q_term q0) eqn:Et; [|done]. by rewrite (Ht q0 Et) in Hterm.
    + rewrite list_lookup_alter_ne in Hq by done. by apply H2.
  - intros s' q Hq Hwg. destruct (decide (s = s')) as [<-|Hs].
    + rewrite list_lookup_alter in Hq. destruct (pm_all m !! s) as [q0|] eqn:E; [|done]. cbn in Hq. inversion Hq; subst q.
      apply Hw; [|done]. by apply (H3 s).
    + rewrite list_lookup_alter_ne in Hq by done. by apply (H3 s').
  - intros n s' H. rewrite alter_length. by apply (H4 n).
Qed.

Lemma inv_step m o : inv m -> inv (step m o).
Proof.
  intros H. destruct o as [p token since startup|n|s|s|s|s]; cbn [step].
  - destruct H as (H1 & H2 & H3 & H4).
    assert (Hmake : (forall s q, pm_cur m !! p = Some s -> pm_all m !! s = Some q -> q_term q = true) ->
      inv (mk_pmap (pm_all m ++ [newPoller p token since (negb (negb (otherDevice m p)) && negb startup)])
        (<[p := length (pm_all m)]> (pm_cur m)) (pm_calls m ++ [WaitNew (length (pm_all m)) (negb (otherDevice m p))]))).
    { intros Hold. set (q0 := newPoller _ _ _ _). split; [|split; [|split]]; cbn [pm_all pm_cur pm_calls].
      - intros p' s H. destruct (decide (p = p')) as [<-|Hp].
        + rewrite lookup_insert in H. inversion H; subst s. exists q0. split; [|done].
          by rewrite lookup_app_r, Nat.sub_diag by lia.
        + rewrite lookup_insert_ne in H by done. destruct (H1 p' s H) as (q & Hq & E). exists q. split; [|done].
          by apply lookup_app_l_Some.
      - intros s q Hq Hterm. apply lookup_app_Some in Hq as [Hq|[Hlen Hq]].
        + pose proof (H2 s q Hq Hterm) as Hc. rewrite lookup_insert_ne; [done|]. intros E. rewrite <- E in Hc.
          rewrite (Hold s q Hc Hq) in Hterm. done.
        + apply list_lookup_singleton_Some in Hq as [Hs <-]. cbn. rewrite lookup_insert. f_equal. lia.
      - intros s q Hq Hwg. apply lookup_app_Some in Hq as [Hq|[Hlen Hq]]; [by apply (H3 s)|].
        apply list_lookup_singleton_Some in Hq as [Hs <-]. done.
      - intros n s H. rewrite app_length. cbn.
        assert (Hx : (pm_calls m !! n = Some (WaitOld s) \/ exists w, pm_calls m !! n = Some (WaitNew s w)) \/ s = length (pm_all m)).
        { destruct H as [H|[w H]]; apply lookup_app_Some in H as [H|[Hl H]].
          - left. by left.
          - by apply list_lookup_singleton_Some in H as [_ H].
          - left. right. by exists w.
          - apply list_lookup_singleton_Some in H as [_ H]. inversion H. by right. }
        destruct Hx as [Hx| ->]; [specialize (H4 n s Hx); lia|lia]. }
    unfold ensure. cbv zeta. destruct (pm_cur m !! p) as [s|] eqn:Ec.
    + destruct (terminated m s) eqn:Et.
      * apply Hmake. intros s' q [= <-] Hq. unfold terminated in Et. by rewrite Hq in Et.
      * split; [done|]. split; [done|]. split; [done|]. cbn. intros n s' Hn.
        assert (Hx : (pm_calls m !! n = Some (WaitOld s') \/ exists w, pm_calls m !! n = Some (WaitNew s' w)) \/ s = s').
        { destruct Hn as [H|[w H]]; apply lookup_app_Some in H as [H|[Hl H]].
          - left. by left.
          - apply list_lookup_singleton_Some in H as [_ H]. inversion H. by right.
          - left. right. by exists w.
          - by apply list_lookup_singleton_Some in H as [_ H]. }
        destruct Hx as [Hx|<-]; [by apply (H4 n)|]. destruct (H1 p s Ec) as (q & Hq & _). by apply lookup_lt_Some in Hq.
    + apply Hmake. intros s' q [=].
  - destruct H as (H1 & H2 & H3 & H4).
    assert (Hout : forall s a b, inv (mk_pmap (pm_all m) (pm_cur m) (<[n := Returned s a b]> (pm_calls m)))).
    { intros s a b. split; [done|]. split; [done|]. split; [done|]. cbn. intros n' s' Hn.
      destruct (decide (n = n')) as [<-|Hne].
      - destruct (decide (n < length (pm_calls m))) as [Hl|Hl].
        + rewrite list_lookup_insert in Hn by done. destruct Hn as [Hn|[w Hn]]; done.
        + rewrite list_insert_ge in Hn by lia. by apply (H4 n).
      - rewrite list_lookup_insert_ne in Hn by done. by apply (H4 n'). }
    assert (Hid : inv m) by done. clear H1 H2 H3 H4. unfold returns. cbv zeta. destruct (pm_calls m !! n) as [[s|s w|s a b]|]; [| |done..].
    + by destruct (match pm_all m !! s with Some q => q_wg q | None => false end).
    + destruct (negb w || _); [|done]. by destruct (terminated m s).
  - apply inv_on_poller; [done..| |done]. intros q Hq Hw. cbn in *. specialize (Hq Hw). destruct Hq as [Hq|[_ Hq]]; [by left|by right].
  - apply inv_on_poller; [..|done]; intros q; unfold sync; destruct (q_run q) eqn:Er; cbn; try done.
    + intros _ _. by left.
    + intros Hq Hw. rewrite Er. by apply Hq.
  - apply inv_on_poller; [..|done]; intros q; unfold loop_end; destruct (q_run q && q_term q) eqn:Er; cbn; try done.
    + intros _ _. by right.
  - apply inv_on_poller; [..|done]; intros q; unfold panic; destruct (q_run q) eqn:Er; cbn; try done.
    + intros Hq Hw. destruct (Hq Hw) as [Hs|[_ Hs]]; [by left|congruence].
    + intros Hq Hw. rewrite Er. by apply Hq.
Qed.
Lemma inv_run os : forall m, inv m -> inv (run m os).
Proof. induction os as [|o os IH]; intros m H; [done|]. cbn. apply IH. by apply inv_step. Qed.

(** C43. At every moment of every history each device has at most one poller that
    is not terminated. *)
Theorem C43_at_most_one os p s s' :
  active (run pmap0 os) p s -> active (run pmap0 os) p s' -> s = s'.
Proof.
  intros (q & Hq & Hp & Ht) (q' & Hq' & Hp' & Ht'). destruct (inv_run os pmap0 inv_init) as (_ & H2 & _).
  pose proof (H2 s q Hq Ht) as E. pose proof (H2 s' q' Hq' Ht') as E'. rewrite Hp in E. rewrite Hp' in E'. congruence.
Qed.
Print Assumptions C43_at_most_one.

(** C43. A request for a device whose pollers, if any, are all terminated makes a
    poller for it, with the given token and position; a request for a device with a
    poller that is not terminated makes none. *)
Theorem C43_ensure os p token since startup :
  let m := run pmap0 os in let m' := ensure m p token since startup in
  ((forall s, ~ active m p s) ->
     exists q, pm_all m' = pm_all m ++ [q] /\ q_pid q = p /\ q_token q = token /\ q_since q = since
       /\ q_term q = false /\ q_run q = true /\ active m' p (length (pm_all m)))
  /\ (forall s, active m p s -> pm_all m' = pm_all m /\ active m' p s).
Proof.
  cbn zeta. destruct (inv_run os pmap0 inv_init) as (H1 & H2 & _). set (m := run pmap0 os) in *. split.
  - intros Hno. exists (newPoller p token since (negb (negb (otherDevice m p)) && negb startup)).
    assert (E : ensure m p token since startup =
      mk_pmap (pm_all m ++ [newPoller p token since (negb (negb (otherDevice m p)) && negb startup)])
        (<[p := length (pm_all m)]> (pm_cur m)) (pm_calls m ++ [WaitNew (length (pm_all m)) (negb (otherDevice m p))])).
    { unfold ensure. cbv zeta. destruct (pm_cur m !! p) as [s|] eqn:Ec; [|done].
      destruct (terminated m s) eqn:Et; [done|]. exfalso. destruct (H1 p s Ec) as (q & Hq & Hp). apply (Hno s).
      exists q. split; [done|]. split; [done|]. unfold terminated in Et. by rewrite Hq in Et. }
    rewrite E. cbn [pm_all]. repeat (split; [done|]). eexists. cbn [pm_all].
    rewrite lookup_app_r, Nat.sub_diag by lia. split; [reflexivity|]. done.
  - intros s (q & Hq & Hp & Ht). pose proof (H2 s q Hq Ht) as Hc. rewrite Hp in Hc.
    assert (E : ensure m p token since startup = mk_pmap (pm_all m) (pm_cur m) (pm_calls m ++ [WaitOld s])).
    { unfold ensure. rewrite Hc. unfold terminated. by rewrite Hq, Ht. }
    rewrite E. split; [done|]. exists q. done.
Qed.
Print Assumptions C43_ensure.

(** C43. A terminated poller stays terminated, so what replaced it is a new one. *)
Theorem C43_terminated_for_good os os' s q :
  pm_all (run pmap0 os) !! s = Some q -> q_term q = true ->
  exists q', pm_all (run pmap0 (os ++ os')) !! s = Some q' /\ q_pid q' = q_pid q /\ q_term q' = true.
Proof.
  intros Hq Ht. unfold run. rewrite fold_left_app. fold (run pmap0 os). revert q Hq Ht. generalize (run pmap0 os).
  induction os' as [|o os' IH]; intros m q Hq Ht; [by exists q|]. cbn.
  assert (Hs : exists q', pm_all (step m o) !! s = Some q' /\ q_pid q' = q_pid q /\ q_term q' = true).
  { assert (Hon : forall f s', (forall q, q_pid (f q) = q_pid q) -> (forall q, q_term q = true -> q_term (f q) = true) ->
      exists q', pm_all (on_poller m s' f) !! s = Some q' /\ q_pid q' = q_pid q /\ q_term q' = true).
    { intros f s' Hp Hf. cbn. destruct (decide (s' = s)) as [->|Hs].
      - exists (f q). rewrite list_lookup_alter, Hq. split; [done|]. split; [by rewrite Hp|by apply Hf].
      - exists q. by rewrite list_lookup_alter_ne. }
    destruct o as [p token since startup|n|s'|s'|s'|s']; cbn [step].
    - exists q. split; [|done]. unfold ensure. cbv zeta. destruct (pm_cur m !! p) as [s'|]; [destruct (terminated m s')|]; cbn;
        [by apply lookup_app_l_Some|done|by apply lookup_app_l_Some].
    - exists q. split; [|done]. unfold returns. cbv zeta. destruct (pm_calls m !! n) as [[s'|s' w|s' a b]|]; [| |done..].
      + by destruct (match pm_all m !! s' with Some q => q_wg q | None => false end).
      + destruct (negb w || _); [|done]. by destruct (terminated m s').
    - by apply Hon.
    - apply Hon; intros x; unfold sync; by destruct (q_run x).
    - apply Hon; intros x; unfold loop_end; by destruct (q_run x && q_term x).
    - apply Hon; intros x; unfold panic; by destruct (q_run x). }
  destruct Hs as (q1 & Hq1 & Hp1 & Ht1). destruct (IH _ q1 Hq1 Ht1) as (q2 & Hq2 & Hp2 & Ht2).
  exists q2. split; [done|]. split; [congruence|done].
Qed.
Print Assumptions C43_terminated_for_good.

(** C43. The device IDs reported for a user are those with a poller that is not
    terminated, each once; the count of pollers is theirs over all users. *)
Theorem C43_deviceIDs os user :
  NoDup (deviceIDs (run pmap0 os) user)
  /\ (forall d, In d (deviceIDs (run pmap0 os) user) <-> exists s, active (run pmap0 os) (mk_pid user d) s).
Proof.
  destruct (inv_run os pmap0 inv_init) as (H1 & H2 & _). set (m := run pmap0 os) in *. unfold deviceIDs. split.
  - pose proof (NoDup_map_to_list (pm_cur m)) as Hnd.
    assert (Hk : forall e e', In e (map_to_list (pm_cur m)) -> In e' (map_to_list (pm_cur m)) -> e.1 = e'.1 -> e = e').
    { intros [k s] [k' s'] He He' E. cbn in E. subst k'. apply elem_of_list_In, elem_of_map_to_list in He.
      apply elem_of_list_In, elem_of_map_to_list in He'. congruence. }
    induction (map_to_list (pm_cur m)) as [|e l IH]; [constructor|]. cbn [flat_map]. inversion Hnd as [|? ? Hnin Hnd']; subst.
    assert (IH' : NoDup (flat_map (fun e : pid * nat => if negb (terminated m e.2) && bool_decide (p_user e.1 = user) then [p_device e.1] else []) l)).
    { apply IH; [done|]. intros a b Ha Hb. apply Hk; by right. }
    destruct (negb (terminated m e.2) && bool_decide (p_user e.1 = user)) eqn:E; [|done]. cbn [app]. constructor; [|done].
    rewrite elem_of_list_In. intros Hin. apply in_flat_map in Hin as (e' & He' & Hin).
    destruct (negb (terminated m e'.2) && bool_decide (p_user e'.1 = user)) eqn:E'; [|done]. destruct Hin as [Hd|[]].
    apply andb_true_iff in E as [_ E], E' as [_ E']. apply bool_decide_eq_true in E, E'.
    apply Hnin. apply elem_of_list_In. rewrite (Hk e e'); [done|by left|by right|].
    destruct (e.1) as [u1 d1], (e'.1) as [u2 d2]. cbn in *. congruence.
  - intros d. rewrite in_flat_map. split.
    + intros ([[u d'] s] & He & Hin). cbn in Hin. destruct (terminated m s) eqn:Et; [done|]. cbn in Hin.
      case_bool_decide as Hu; [|done]. destruct Hin as [<-|[]]. subst u. apply elem_of_list_In, elem_of_map_to_list in He.
      destruct (H1 _ _ He) as (q & Hq & Hp). exists s, q. split; [done|]. split; [done|]. unfold terminated in Et. by rewrite Hq in Et.
    + intros (s & q & Hq & Hp & Ht). exists (mk_pid user d, s). split.
      * apply elem_of_list_In, elem_of_map_to_list. rewrite <- Hp. by apply H2.
      * cbn. unfold terminated. rewrite Hq, Ht. cbn. rewrite bool_decide_eq_true_2 by done. by left.
Qed.
Print Assumptions C43_deviceIDs.

(** C43. Expiring devices gathers exactly their pollers that are not terminated. *)
Theorem C43_expire_gathers os ps s :
  In s (gather (run pmap0 os) ps) <-> exists p, In p ps /\ active (run pmap0 os) p s.
Proof.
  destruct (inv_run os pmap0 inv_init) as (H1 & H2 & _). set (m := run pmap0 os) in *. unfold gather. rewrite in_flat_map.
  split; intros (p & Hp & H); exists p; (split; [done|]).
  - destruct (pm_cur m !! p) as [s'|] eqn:E; [|done]. destruct (terminated m s') eqn:Et; [done|]. destruct H as [<-|[]].
    destruct (H1 _ _ E) as (q & Hq & Hqp). exists q. split; [done|]. split; [done|]. unfold terminated in Et. by rewrite Hq in Et.
  - destruct H as (q & Hq & Hqp & Ht). pose proof (H2 s q Hq Ht) as Hc. rewrite Hqp in Hc. rewrite Hc.
    unfold terminated. rewrite Hq, Ht. by left.
Qed.
Print Assumptions C43_expire_gathers.

(** ** When a call returns (the poller map's part of C42) *)

Lemma otherDevice_spec os p :
  otherDevice (run pmap0 os) p = true <->
  exists d s, d <> p_device p /\ active (run pmap0 os) (mk_pid (p_user p) d) s.
Proof.
  destruct (inv_run os pmap0 inv_init) as (H1 & H2 & _). set (m := run pmap0 os) in *. unfold otherDevice. rewrite existsb_exists. split.
  - intros ([[u d] s] & He & Hb). cbn in Hb. apply andb_true_iff in Hb as [Hb Ht]. apply andb_true_iff in Hb as [Hu Hd].
    apply bool_decide_eq_true in Hu. apply negb_true_iff, bool_decide_eq_false in Hd. apply negb_true_iff in Ht. subst u.
    apply elem_of_list_In, elem_of_map_to_list in He. destruct (H1 _ _ He) as (q & Hq & Hp). exists d, s. split; [done|].
    exists q. split; [done|]. split; [done|]. unfold terminated in Ht. by rewrite Hq in Ht.
  - intros (d & s & Hd & q & Hq & Hp & Ht). exists (mk_pid (p_user p) d, s). split.
    + apply elem_of_list_In, elem_of_map_to_list. rewrite <- Hp. by apply H2.
    + cbn. unfold terminated. rewrite Hq, Ht. rewrite bool_decide_eq_true_2, bool_decide_eq_false_2 by done. done.
Qed.

(** C42. A call that made a poller skips the wait only if another device of the
    user has a poller; that poller then first fetches to-device messages only,
    except at startup. *)
Theorem C42_skips_wait_iff os p token since startup :
  let m := run pmap0 os in let m' := ensure m p token since startup in
  (forall s, ~ active m p s) ->
  exists q wait, pm_all m' = pm_all m ++ [q] /\ pm_calls m' = pm_calls m ++ [WaitNew (length (pm_all m)) wait]
    /\ (wait = false <-> exists d s, d <> p_device p /\ active m (mk_pid (p_user p) d) s)
    /\ (q_todevonly q = true <-> wait = false /\ startup = false).
Proof.
  cbn zeta. intros Hno. destruct (inv_run os pmap0 inv_init) as (H1 & H2 & _). pose proof (otherDevice_spec os p) as Ho.
  set (m := run pmap0 os) in *.
  exists (newPoller p token since (negb (negb (otherDevice m p)) && negb startup)), (negb (otherDevice m p)).
  assert (E : ensure m p token since startup =
      mk_pmap (pm_all m ++ [newPoller p token since (negb (negb (otherDevice m p)) && negb startup)])
        (<[p := length (pm_all m)]> (pm_cur m)) (pm_calls m ++ [WaitNew (length (pm_all m)) (negb (otherDevice m p))])).
  { unfold ensure. cbv zeta. destruct (pm_cur m !! p) as [s|] eqn:Ec; [|done].
    destruct (terminated m s) eqn:Et; [done|]. exfalso. destruct (H1 p s Ec) as (q & Hq & Hp). apply (Hno s).
    exists q. split; [done|]. split; [done|]. unfold terminated in Et. by rewrite Hq in Et. }
  rewrite E. split; [done|]. split; [done|]. rewrite negb_false_iff. split; [exact Ho|]. cbn.
  rewrite negb_involutive. destruct (otherDevice m p), startup; naive_solver.
Qed.
Print Assumptions C42_skips_wait_iff.

(** C42. When a call that waited for a poller it made returns success, the poller
    processed a sync completely and was not terminated; when it returns failure, the
    poller was terminated. When a call that found a poller returns, the poller
    processed a sync completely or was terminated. *)
Theorem C42_returns os n s created ok :
  let m := run pmap0 os in
  pm_calls m !! n <> Some (Returned s created ok) -> pm_calls (returns m n) !! n = Some (Returned s created ok) ->
  (pm_calls m !! n = Some (WaitNew s true) /\ created = ok
     /\ (if ok then synced m s /\ terminated m s = false else terminated m s = true))
  \/ (pm_calls m !! n = Some (WaitNew s false) /\ created = ok /\ terminated m s = negb ok)
  \/ (pm_calls m !! n = Some (WaitOld s) /\ created = false /\ ok = true /\ (synced m s \/ terminated m s = true)).
Proof.
  cbn zeta. destruct (inv_run os pmap0 inv_init) as (_ & _ & H3 & _). set (m := run pmap0 os) in *. unfold returns. cbv zeta.
  destruct (pm_calls m !! n) as [[s'|s' w|s' a b]|] eqn:E; intros Hne H.
  - destruct (pm_all m !! s') as [q|] eqn:Eq; [|congruence]. destruct (q_wg q) eqn:Ew; [|congruence]. cbn in H.
    apply lookup_lt_Some in E as Hl. rewrite list_lookup_insert in H by done. inversion H; subst. right. right.
    split; [done|]. split; [done|]. split; [done|]. destruct (H3 s q Eq Ew) as [Hs|[Ht _]].
    + left. by exists q.
    + right. unfold terminated. by rewrite Eq.
  - apply lookup_lt_Some in E as Hl. destruct w; cbn [negb orb] in H.
    + destruct (pm_all m !! s') as [q|] eqn:Eq; [|congruence]. destruct (q_wg q) eqn:Ew; [|congruence]. left.
      destruct (terminated m s') eqn:Et; cbn in H; rewrite list_lookup_insert in H by done; inversion H; subst.
      * done.
      * split; [done|]. split; [done|]. split; [|done]. destruct (H3 s q Eq Ew) as [Hs|[Ht _]]; [by exists q|].
        unfold terminated in Et. rewrite Eq in Et. congruence.
    + right. left. destruct (terminated m s') eqn:Et; cbn in H; rewrite list_lookup_insert in H by done; inversion H; by subst.
  - congruence.
  - congruence.
Qed.
Print Assumptions C42_returns.

(** C42. Waiting for a poller that does not panic ends: if the poller processes a
    sync, or its loop ends, the call returns. *)
Theorem C42_wait_ends os n s o :
  let m := run pmap0 os in
  (pm_calls m !! n = Some (WaitOld s) \/ exists w, pm_calls m !! n = Some (WaitNew s w)) ->
  running m s -> o = Sync s \/ (o = LoopEnd s /\ terminated m s = true) ->
  exists created ok, pm_calls (returns (step m o) n) !! n = Some (Returned s created ok).
Proof.
  cbn zeta. set (m := run pmap0 os). intros Hn (q & Hq & Hr) Ho.
  assert (Hs : exists q', pm_all (step m o) !! s = Some q' /\ q_wg q' = true /\ pm_calls (step m o) = pm_calls m).
  { destruct Ho as [->|[-> Ht]]; cbn.
    - exists (sync q). rewrite list_lookup_alter, Hq. split; [done|]. unfold sync. by rewrite Hr.
    - exists (loop_end q). rewrite list_lookup_alter, Hq. split; [done|]. unfold terminated in Ht. rewrite Hq in Ht.
      unfold loop_end. by rewrite Hr, Ht. }
  destruct Hs as (q' & Hq' & Hw & Hc). unfold returns. cbv zeta. rewrite Hc.
  destruct Hn as [Hn|[w Hn]]; rewrite Hn, Hq', Hw; apply lookup_lt_Some in Hn as Hl.
  - exists false, true. cbn. by rewrite list_lookup_insert.
  - rewrite orb_true_r. destruct (terminated (step m o) s); cbn; rewrite list_lookup_insert by done; eauto.
Qed.
Print Assumptions C42_wait_ends.

(** ** Examples and refutations *)
Definition pa := mk_pid "@a" "D".
Definition pb := mk_pid "@a" "E".
Example C43_example :
  let m := run pmap0 [Ensure pa "t" "" false; Sync 0; Return 0; Ensure pb "u" "" false; Return 1; Terminate 0;
                      LoopEnd 0; Ensure pa "t2" "s" false; Sync 2; Return 2] in
  active m pa 2 /\ active m pb 1 /\ terminated m 0 = true
  /\ pm_calls m = [Returned 0 true true; Returned 1 true true; Returned 2 true true]
  /\ numPollers m = 2.
Proof.
  cbn zeta. split; [eexists; repeat split; vm_compute; reflexivity|]. split; [eexists; repeat split; vm_compute; reflexivity|].
  repeat split; vm_compute; reflexivity.
Qed.

(** C43 fails for a poller whose loop panicked: it does not run any more, but it is
    not terminated, so requests for the device never make another one. *)
Theorem C43_panicked_not_replaced_refuted :
  exists os p s, active (run pmap0 os) p s /\ ~ running (run pmap0 os) s
    /\ forall token since startup, pm_all (ensure (run pmap0 os) p token since startup) = pm_all (run pmap0 os).
Proof.
  exists [Ensure pa "t" "" false; Sync 0; Return 0; Panic 0], pa, 0. split; [|split].
  - eexists; repeat split; vm_compute; reflexivity.
  - intros (q & Hq & Hr). vm_compute in Hq. inversion Hq; subst. discriminate Hr.
  - intros. destruct (C43_ensure [Ensure pa "t" "" false; Sync 0; Return 0; Panic 0] pa token since startup) as [_ H].
    apply (H 0). eexists; repeat split; vm_compute; reflexivity.
Qed.
Print Assumptions C43_panicked_not_replaced_refuted.

(** C42 fails likewise: after a panic before the first sync is complete, callers
    wait forever. *)
Theorem C42_panic_blocks_refuted os' :
  pm_calls (run (run pmap0 [Ensure pa "t" "" false; Panic 0]) os') !! 0 = Some (WaitNew 0 true).
Proof.
  assert (H : forall os m, (exists q, pm_all m !! 0 = Some q /\ q_run q = false /\ q_wg q = false) ->
     pm_calls m !! 0 = Some (WaitNew 0 true) -> pm_calls (run m os) !! 0 = Some (WaitNew 0 true)).
  { clear os'. induction os as [|o os IH]; intros m (q & Hq & Hr & Hw) Hc; [done|]. cbn. apply IH.
    - assert (Hon : forall f s, (f q = q \/ (q_run (f q) = false /\ q_wg (f q) = false)) ->
        exists q', pm_all (on_poller m s f) !! 0 = Some q' /\ q_run q' = false /\ q_wg q' = false).
      { intros f s Hf. cbn. destruct (decide (s = 0)) as [->|Hs].
        - rewrite list_lookup_alter, Hq. cbn. exists (f q). split; [done|]. destruct Hf as [->|Hf]; done.
        - exists q. by rewrite list_lookup_alter_ne. }
      destruct o as [p token since startup|n|s|s|s|s]; cbn [step].
      + exists q. split; [|done]. unfold ensure. cbv zeta. destruct (pm_cur m !! p) as [s'|]; [destruct (terminated m s')|]; cbn;
          [by apply lookup_app_l_Some|done|by apply lookup_app_l_Some].
      + exists q. split; [|done]. unfold returns. cbv zeta. destruct (pm_calls m !! n) as [[s'|s' w|s' a b]|]; [| |done..].
        * by destruct (match pm_all m !! s' with Some q => q_wg q | None => false end).
        * destruct (negb w || _); [|done]. by destruct (terminated m s').
      + apply Hon. by right.
      + apply Hon. left. unfold sync. by rewrite Hr.
      + apply Hon. left. unfold loop_end. by rewrite Hr.
      + apply Hon. left. unfold panic. by rewrite Hr.
    - destruct o as [p token since startup|n|s|s|s|s]; cbn [step]; try done.
      + unfold ensure. cbv zeta. destruct (pm_cur m !! p) as [s'|]; [destruct (terminated m s')|]; cbn; by apply lookup_app_l_Some.
      + unfold returns. cbv zeta. destruct (pm_calls m !! n) as [[s'|s' w|s' a b]|] eqn:E; [| |done..].
        * destruct (match pm_all m !! s' with Some q => q_wg q | None => false end); [|done]. cbn.
          rewrite list_lookup_insert_ne; [done|]. intros ->. congruence.
        * destruct (decide (n = 0)) as [->|Hn].
          -- assert (s' = 0) as -> by congruence. assert (w = true) as -> by congruence. by rewrite Hq, Hw.
          -- destruct (negb w || _); [|done]. destruct (terminated m s'); cbn; by rewrite list_lookup_insert_ne. }
  apply H; [|by vm_compute]. eexists. repeat split; vm_compute; reflexivity.
Qed.
Print Assumptions C42_panic_blocks_refuted.

(** C42 fails for a call that found the poller: it reports success although the
    token was refused before any sync was complete. *)
Theorem C42_existing_poller_refuted :
  let m := run pmap0 [Ensure pa "t" "" false; Ensure pa "t" "" false; Terminate 0; LoopEnd 0; Return 0; Return 1] in
  pm_calls m = [Returned 0 false false; Returned 0 false true] /\ ~ synced m 0 /\ terminated m 0 = true.
Proof.
  cbn zeta. split; [vm_compute; reflexivity|]. split; [|vm_compute; reflexivity].
  intros (q & Hq & Hs). vm_compute in Hq. inversion Hq; subst. discriminate Hs.
Qed.

(** C43, about goroutines: a terminated poller may still be working on a response
    when its replacement starts, so for a while two run for one device. *)
Theorem C43_two_goroutines_refuted :
  exists os p s s' q q', s <> s' /\ pm_all (run pmap0 os) !! s = Some q /\ pm_all (run pmap0 os) !! s' = Some q'
    /\ q_pid q = p /\ q_pid q' = p /\ running (run pmap0 os) s /\ running (run pmap0 os) s'.
Proof.
  exists [Ensure pa "t" "" false; Sync 0; Terminate 0; Ensure pa "t" "" false], pa, 0, 1.
  do 2 eexists. split; [done|]. repeat (split; [vm_compute; reflexivity|]). split; eexists; split; vm_compute; reflexivity.
Qed.

(** C43. The number of pollers given is that of the pollers which are not terminated. *)
Theorem C43_num_pollers os :
  exists l, NoDup l /\ (forall s, s ∈ l <-> exists p, active (run pmap0 os) p s) /\ numPollers (run pmap0 os) = length l.
Proof.
  destruct (inv_run os pmap0 inv_init) as (H1 & H2 & _). set (m := run pmap0 os) in *. unfold numPollers.
  exists (map snd (List.filter (fun e : pid * nat => negb (terminated m e.2)) (map_to_list (pm_cur m)))).
  rewrite map_length. split; [|split; [|done]].
  - pose proof (NoDup_map_to_list (pm_cur m)) as Hnd.
    assert (Hk : forall e e', In e (map_to_list (pm_cur m)) -> In e' (map_to_list (pm_cur m)) -> e.2 = e'.2 -> e = e').
    { intros [k s] [k' s'] He He' E. cbn in E. subst s'. apply elem_of_list_In, elem_of_map_to_list in He.
      apply elem_of_list_In, elem_of_map_to_list in He'. destruct (H1 _ _ He) as (q & Hq & <-), (H1 _ _ He') as (q' & Hq' & <-). congruence. }
    induction (map_to_list (pm_cur m)) as [|e l IH]; [constructor|]. inversion Hnd as [|? ? Hnin Hnd']; subst. cbn [List.filter].
    assert (IH' := IH Hnd' (fun a b Ha Hb => Hk a b (or_intror Ha) (or_intror Hb))).
    destruct (negb (terminated m e.2)); [|done]. cbn [map]. constructor; [|done].
    rewrite elem_of_list_In, in_map_iff. intros (e' & E & He'). apply filter_In in He' as [He' _]. apply Hnin. apply elem_of_list_In.
    rewrite (Hk e e'); [done|by left|by right|done].
  - intros s. rewrite elem_of_list_In, in_map_iff. split.
    + intros ([p s'] & <- & He). cbn. apply filter_In in He as [He Ht]. cbn in Ht. apply elem_of_list_In, elem_of_map_to_list in He.
      destruct (H1 _ _ He) as (q & Hq & Hp). exists p, q. split; [done|]. split; [done|]. unfold terminated in Ht. rewrite Hq in Ht. by destruct (q_term q).
    + intros (p & q & Hq & Hp & Ht). exists (p, s). split; [done|]. apply filter_In. split.
      * apply elem_of_list_In, elem_of_map_to_list. rewrite <- Hp. by apply H2.
      * cbn. unfold terminated. by rewrite Hq, Ht.
Qed.
Print Assumptions C43_num_pollers.

(** C42. A poller which has processed a response is not limited to to-device messages any more. *)
Theorem C42_only_first_poll_limited os s q :
  pm_all (run pmap0 os) !! s = Some q -> q_synced q = true -> q_todevonly q = false.
Proof.
  assert (Hall : forall os m, Forall (fun q => q_synced q = true -> q_todevonly q = false) (pm_all m) ->
    Forall (fun q => q_synced q = true -> q_todevonly q = false) (pm_all (run m os))).
  { clear. induction os as [|o os IH]; intros m H; [done|]. cbn [run fold_left]. apply IH. clear IH.
    assert (Hon : forall f s, (forall q, (q_synced q = true -> q_todevonly q = false) -> q_synced (f q) = true -> q_todevonly (f q) = false) ->
      Forall (fun q => q_synced q = true -> q_todevonly q = false) (pm_all (on_poller m s f))).
    { intros f s Hf. cbn. apply Forall_lookup. intros i q Hq. rewrite Forall_lookup in H. destruct (decide (s = i)) as [<-|Hs].
      - rewrite list_lookup_alter in Hq. destruct (pm_all m !! s) as [q0|] eqn:E; [|done]. cbn in Hq. injection Hq as <-. apply Hf. by apply (H s).
      - rewrite list_lookup_alter_ne in Hq by done. by apply (H i). }
    destruct o as [p token since startup|n|s|s|s|s]; cbn [step].
    - unfold ensure. cbv zeta. destruct (pm_cur m !! p) as [s'|]; [destruct (terminated m s')|]; cbn; [|done|]; apply Forall_app; (split; [done|]); by constructor.
    - unfold returns. cbv zeta. destruct (pm_calls m !! n) as [[s'|s' w|s' a b]|]; [| |done..].
      + by destruct (match pm_all m !! s' with Some q => q_wg q | None => false end).
      + destruct (negb w || _); [|done]. by destruct (terminated m s').
    - apply Hon. by intros q.
    - apply Hon. intros q Hq. unfold sync. by destruct (q_run q).
    - apply Hon. intros q Hq. unfold loop_end. by destruct (q_run q && q_term q).
    - apply Hon. intros q Hq. unfold panic. by destruct (q_run q). }
  intros Hq Hs. assert (H0 := Hall os pmap0 (Forall_nil_2 _)). rewrite Forall_lookup in H0. by apply (H0 s q Hq).
Qed.
Print Assumptions C42_only_first_poll_limited.
Example C42_limited_then_not :
  let m := run pmap0 [Ensure (mk_pid "@a" "D1") "t" "" false; Ensure (mk_pid "@a" "D2") "t" "" false] in
  map q_todevonly (pm_all m) = [false; true] /\ numPollers m = 2
  /\ map q_todevonly (pm_all (run m [Sync 1])) = [false; false] /\ numPollers (run m [Sync 1; Terminate 0]) = 1.
Proof. vm_compute. done. Qed.
