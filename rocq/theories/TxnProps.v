(** Properties C40 and C41. *)
From Verif Require Import Prelude TxnModel TxnSpec TxnProofs.
Open Scope string_scope. Open Scope list_scope. Open Scope Z_scope.

(** * C40 *)

(** Whatever happens, in every room what was published and what waits are, in
    this order, exactly the events that arrived: nothing is lost, doubled or
    overtaken. *)
Theorem C40_once_and_in_order user delay ms room :
  let v := run user delay ms in
  published room v ++ waiting room v = received room ms.
Proof.
  intros v. destruct (run_inv user delay room ms) as (_ & gone & q & Ht & Hg & Hq & _).
  fold v in Hg, Hq. rewrite <- Hg, <- Hq, <- map_app, <- Ht. apply timed_received.
Qed.

(** The delay is a bound: once it is over for an event, and the timers that are
    due have fired, this event and all before it in its room are published. *)
Theorem C40_published_when_the_delay_expires user delay a e b :
  let ms := a ++ Update (Ev e) :: b in
  let v := run user delay ms in
  v_now (run user delay a) + delay <= v_now v -> on_time v ->
  exists later, published (e_room e) v = received (e_room e) (a ++ [Update (Ev e)]) ++ later.
Proof.
  intros ms v Hdue Hon. set (room := e_room e).
  pose proof (C40_once_and_in_order user delay ms room) as Hall. cbn zeta in Hall. fold v in Hall.
  destruct (run_inv user delay room ms) as (_ & gone & q & Ht & Hg & Hq & Hr).
  fold v in Hg, Hq, Hr. unfold v in Hdue. rewrite !run_now in Hdue.
  assert (Esplit : ms = (a ++ [Update (Ev e)]) ++ b) by (unfold ms; by rewrite <- app_assoc).
  assert (Hta : timed room 0 ms = timed room 0 (a ++ [Update (Ev e)]) ++ timed room (passed a) b).
  { rewrite Esplit, (timed_app room (a ++ [Update (Ev e)])). do 2 f_equal. rewrite passed_app. cbn. lia. }
  assert (Hlen : (length (timed room 0 (a ++ [Update (Ev e)])) <= length gone)%nat).
  { destruct q as [|[t h] q].
    - rewrite app_nil_r in Ht. rewrite <- Ht, Hta, app_length. lia.
    - destruct (Nat.le_gt_cases (length (timed room 0 (a ++ [Update (Ev e)]))) (length gone)) as [?|Hlt]; [done|].
      exfalso. assert (Hin : In (t, h) (timed room 0 (a ++ [Update (Ev e)]))).
      { apply elem_of_list_In, elem_of_list_lookup. exists (length gone).
        assert (E : timed room 0 ms !! length gone = Some (t, h)).
        { rewrite Ht, lookup_app_r, Nat.sub_diag by lia. done. }
        rewrite Hta, lookup_app_l in E by lia. done. }
      apply timed_times in Hin. rewrite passed_app in Hin. cbn in Hin.
      specialize (Hr [] t h q eq_refl ltac:(constructor)). apply Hon in Hr.
      unfold v in Hr. rewrite run_now in Hr. lia. }
  assert (Hpre : received room (a ++ [Update (Ev e)]) = firstn (length (timed room 0 (a ++ [Update (Ev e)]))) (published room v)).
  { rewrite <- Hg, <- (timed_received room (a ++ [Update (Ev e)]) 0), firstn_map. f_equal.
    assert (E : firstn (length (timed room 0 (a ++ [Update (Ev e)]))) (timed room 0 ms)
      = firstn (length (timed room 0 (a ++ [Update (Ev e)]))) (gone ++ q)) by (by rewrite Ht).
    rewrite Hta, take_app in E. etransitivity; [exact E|]. by apply take_app_le. }
  exists (skipn (length (timed room 0 (a ++ [Update (Ev e)]))) (published room v)).
  by rewrite Hpre, firstn_skipn.
Qed.

(** Without a delay everything passes straight through. *)
Theorem C40_no_delay user delay ms :
  delay <= 0 -> v_out (run user delay ms) = map (fun u => (false, u)) (updates ms).
Proof.
  intros Hd. induction ms as [|m ms IH] using rev_ind; [reflexivity|].
  assert (Hnone : forall r, t_queues (v_t (run user delay ms)) !! r = None).
  { intros r. destruct (run_inv user delay r ms) as (H0 & _).
    destruct (t_queues (v_t (run user delay ms)) !! r) eqn:E; [|done].
    destruct (H0 _ _ E) as (_ & _ & ?). lia. }
  unfold updates in *. rewrite map_app, concat_app, map_app, <- IH. cbn [map concat].
  unfold run. rewrite fold_left_app. cbn [fold_left]. fold (run user delay ms).
  change (fold_left (step user delay) ms world0) with (run user delay ms).
  set (v := run user delay ms) in *. clearbody v.
  destruct m as [up|r nid|dt|i]; cbn [step].
  - unfold Ingest. destruct (Z.leb_spec delay 0); [|lia]. cbn. done.
  - unfold PublishUpToNID. rewrite Hnone. cbn. done.
  - cbn. by rewrite app_nil_r.
  - cbn. rewrite app_nil_r. destruct (t_timers (v_t v) !! i) as [[due [r nid]]|]; [|done].
    destruct (due <=? v_now v); [|done]. unfold PublishUpToNID. cbn [t_queues]. rewrite Hnone.
    cbn. by rewrite app_nil_r.
Qed.

(** Updates other than room events are never held back. *)
Theorem C40_other_updates_pass user delay ms :
  elses (map snd (v_out (run user delay ms))) = elses (updates ms)
  /\ forall n, v_out (run user delay (ms ++ [Update (Else n)]))
               = v_out (run user delay ms) ++ [(false, Else n)].
Proof.
  assert (Hpub : forall t r nid, elses (map snd (PublishUpToNID t r nid).2) = []).
  { intros t r nid. unfold PublishUpToNID. destruct (t_queues t !! r) as [q|]; [|done].
    destruct (split_at nid q) as [a b]. cbn. clear. induction a as [|e a IH]; done. }
  assert (Happ : forall a b, elses (a ++ b) = elses a ++ elses b) by (apply List.filter_app).
  split.
  - induction ms as [|m ms IH] using rev_ind; [reflexivity|].
    unfold updates in *. rewrite map_app, concat_app, Happ, <- IH. cbn [map concat].
    unfold run. rewrite fold_left_app. cbn [fold_left].
    change (fold_left (step user delay) ms world0) with (run user delay ms).
    set (v := run user delay ms) in *. clearbody v.
    destruct m as [up|r nid|dt|i]; cbn [step app].
    + unfold Ingest. destruct (delay <=? 0); [|destruct up as [e|n]].
      * cbn [v_out]. by rewrite map_app, Happ.
      * destruct (negb _); cbn [v_out]; by rewrite map_app, Happ.
      * cbn [v_out]. by rewrite map_app, Happ.
    + specialize (Hpub (v_t v) r nid). destruct (PublishUpToNID (v_t v) r nid) as [t out].
      cbn [v_out snd] in *. by rewrite map_app, Happ, Hpub.
    + cbn. by rewrite app_nil_r.
    + destruct (t_timers (v_t v) !! i) as [[due [r nid]]|]; [|cbn; by rewrite app_nil_r].
      destruct (due <=? v_now v); [|cbn; by rewrite app_nil_r].
      specialize (Hpub (mk_waiter (t_queues (v_t v)) (delete i (t_timers (v_t v)))) r nid).
      destruct (PublishUpToNID _ r nid) as [t out]. cbn [v_out snd] in *. by rewrite map_app, Happ, Hpub.
  - intros n. unfold run. rewrite fold_left_app. cbn [fold_left step]. unfold Ingest.
    by destruct (delay <=? 0).
Qed.

(** What is held back, and what frees it: an event is published on arrival only
    if nothing of its room waits and it is not an own message without
    transaction ID; later only by a call that clears its room up to its NID, or
    a due timer for its room and at least its NID. *)
Theorem C40_held_back user delay ms m :
  0 < delay ->
  let v := run user delay ms in
  exists out, v_out (run user delay (ms ++ [m])) = v_out v ++ out
    /\ forall delayed e, In (delayed, Ev e) out ->
         (delayed = false /\ m = Update (Ev e) /\ waiting (e_room e) v = []
          /\ ~ (e_state e = false /\ e_sender e = user /\ e_txn e = ""))
         \/ (delayed = true /\ exists n, e_nid e <= n /\
              (m = Clear (e_room e) n
               \/ exists i due, m = Fires i /\ t_timers (v_t v) !! i = Some (due, (e_room e, n))
                                /\ due <= v_now v)).
Proof.
  intros Hd v.
  assert (Hpub : forall timers r nid delayed e,
    In (delayed, Ev e) (PublishUpToNID (mk_waiter (t_queues (v_t v)) timers) r nid).2 ->
    delayed = true /\ e_nid e <= nid /\ e_room e = r).
  { intros timers r nid delayed e. unfold PublishUpToNID. cbn [t_queues].
    destruct (run_inv user delay r ms) as (H0 & _). fold v in H0.
    destruct (t_queues (v_t v) !! r) as [q|] eqn:E; [|intros []].
    destruct (H0 _ _ E) as (_ & Hr & _).
    pose proof (split_at_spec nid q) as S. destruct (split_at nid q) as [a b]. destruct S as (-> & Sa & _).
    cbn. intros Hin. apply in_map_iff in Hin as (x & Ex & Hx). inversion Ex; subst.
    apply Forall_app in Hr as [Hr _]. rewrite List.Forall_forall in Hr, Sa. split; [done|]. split; auto. }
  unfold run. rewrite fold_left_app. cbn [fold_left].
  change (fold_left (step user delay) ms world0) with v.
  destruct m as [up|r nid|dt|i]; cbn [step].
  - unfold Ingest. destruct (Z.leb_spec delay 0); [lia|].
    destruct up as [x|n].
    + destruct (negb _) eqn:En; cbn [v_out].
      * eexists. split; [reflexivity|]. intros delayed e [Hx|[]]. inversion Hx; subst. left.
        split; [done|]. split; [done|]. apply negb_true_iff, orb_false_iff in En as [E1 E2].
        apply bool_decide_eq_false in E2. split.
        -- unfold waiting. apply eq_None_not_Some in E2. by rewrite E2.
        -- intros (Q1 & Q2 & Q3). rewrite Q1, Q2, Q3, !bool_decide_true in E1 by done. done.
      * exists []. split; [reflexivity|]. intros ? ? [].
    + eexists. split; [reflexivity|]. intros delayed e [Hx|[]]. inversion Hx.
  - specialize (Hpub (t_timers (v_t v)) r nid).
    assert (E : mk_waiter (t_queues (v_t v)) (t_timers (v_t v)) = v_t v) by (by destruct (v_t v)).
    rewrite E in Hpub. destruct (PublishUpToNID (v_t v) r nid) as [t out]. exists out. split; [reflexivity|].
    intros delayed e Hin. apply Hpub in Hin as (-> & H & <-). right. split; [done|].
    exists nid. split; [done|]. by left.
  - exists []. rewrite app_nil_r. split; [reflexivity|]. intros ? ? [].
  - destruct (t_timers (v_t v) !! i) as [[due [r nid]]|] eqn:Ei.
    2:{ exists []. rewrite app_nil_r. split; [reflexivity|]. intros ? ? []. }
    destruct (Z.leb_spec due (v_now v)).
    2:{ exists []. rewrite app_nil_r. split; [reflexivity|]. intros ? ? []. }
    specialize (Hpub (delete i (t_timers (v_t v))) r nid).
    destruct (PublishUpToNID _ r nid) as [t out]. exists out. split; [reflexivity|].
    intros delayed e Hin. apply Hpub in Hin as (-> & Hn & <-). right. split; [done|].
    exists nid. split; [done|]. right. by exists i, due.
Qed.

(** Cases: NIDs out of order, a message of somebody else behind an own one, a
    clear for one room, a timer for the other. *)
Definition own (room : string) (nid : Z) : upd := Ev (mk_ev room nid "@me:x" false "" 0).
Definition theirs (room : string) (nid : Z) : upd := Ev (mk_ev room nid "@you:x" false "" 0).
Definition story : list moment :=
  [Update (theirs "!a" 1); Update (own "!a" 5); Update (theirs "!a" 4); Update (own "!b" 6);
   Update (Else 7); Pass 3; Update (own "!a" 8); Fires 2; Clear "!a" 5; Pass 7; Fires 0; Fires 0; Fires 0].
Example C40_story :
  map (fun p => match p.2 with Ev e => (p.1, e_nid e) | Else n => (p.1, -1) end)
    (v_out (run "@me:x" 10 story))
  = [(false, 1); (false, -1); (true, 5); (true, 4); (true, 6)]
  /\ map e_nid (waiting "!a" (run "@me:x" 10 story)) = [8]
  /\ t_timers (v_t (run "@me:x" 10 story)) = [(13, ("!a", 8))]
  /\ v_now (run "@me:x" 10 story) = 10.
Proof. vm_compute. done. Qed.

(** * C41 *)

(** At most one all-clear per event, within the five minutes it is remembered. *)
Theorem C41_at_most_once a r b r' :
  let e := event_of r in
  all_clear a r = true -> event_of r' = e -> ~ In (Forget e) b ->
  all_clear (a ++ r :: b) r' = false.
Proof.
  intros e H1 H2 Hf. unfold all_clear in *. apply (empty_silent e); [|exact H2].
  rewrite reports_app. destruct (reports ∅ a) as [p l] eqn:E. cbn [reports]. cbn [fst] in H1.
  pose proof (clear_empties e p r eq_refl H1) as Hp.
  destruct (rstep p r) as [p1 x]. cbn in Hp. pose proof (empty_stays e b p1 Hp Hf) as G.
  destruct (reports p1 b). exact G.
Qed.

(** None after a transaction ID was seen. *)
Theorem C41_never_after_a_transaction_id a e b r :
  event_of r = e -> ~ In (Forget e) b -> all_clear (a ++ Seen e :: b) r = false.
Proof.
  intros H2 Hf. unfold all_clear. apply (empty_silent e); [|exact H2].
  rewrite reports_app. destruct (reports ∅ a) as [p l]. cbn [reports rstep].
  pose proof (empty_stays e b (SeenTxnID p e)) as G. unfold SeenTxnID in *.
  rewrite lookup_insert in G. specialize (G eq_refl Hf). by destruct (reports _ b).
Qed.

(** The all-clear comes only when every device known at the first report has
    reported. Guards: the five minutes are not over, pollers are listed once,
    and those who report are among the known ones. *)
Theorem C41_all_clear_partial rs e dev known :
  ~ In (Forget e) rs ->
  (forall d k, In (Missing e d k) (rs ++ [Missing e dev known]) -> NoDup k /\ d ∈ k) ->
  all_clear rs (Missing e dev known) = true ->
  ~ In (Seen e) rs
  /\ exists a d0 k0 b, rs ++ [Missing e dev known] = a ++ Missing e d0 k0 :: b
       /\ (forall r, In r a -> event_of r <> e)
       /\ (forall x, x ∈ k0 -> exists k, In (Missing e x k) (Missing e d0 k0 :: b)).
Proof.
  intros Hf Hk Hc.
  assert (Hs : ~ In (Seen e) rs).
  { intros Hin. apply in_split in Hin as (l1 & l2 & ->).
    rewrite C41_never_after_a_transaction_id in Hc; [done|done|].
    intros H. apply Hf. apply in_or_app. right. by right. }
  split; [exact Hs|].
  assert (Hm : means e (rs ++ [Missing e dev known]) (Some [])).
  { pose proof (reports_means e (rs ++ [Missing e dev known])) as M. rewrite state_snoc in M.
    unfold all_clear in Hc. rewrite (clear_empties e) in M by done. apply M.
    - rewrite in_app_iff. by intros [?|[?|[]]].
    - intros d k Hin. by apply (Hk d k). }
  cbn [means] in Hm. destruct Hm as [[Hx _]|(_ & _ & a & d0 & k0 & b & E & H3 & H4 & H5)].
  { exfalso. apply in_app_or in Hx as [?|[?|[]]]; done. }
  exists a, d0, k0, b. split; [exact E|]. split.
  - intros r Hr Hev. assert (Hin : In r (rs ++ [Missing e dev known])) by (rewrite E; apply in_or_app; by left).
    destruct r as [e' d k|e'|e']; cbn in Hev; subst e'.
    + destruct (Hk d k Hin) as [_ ?]. by apply (H4 d k Hr).
    + apply in_app_or in Hin as [?|[?|[]]]; done.
    + apply in_app_or in Hin as [?|[?|[]]]; done.
  - intros x Hx. destruct (H5 x) as [_ G].
    assert (Hdec : forall l, {forall k, ~ In (Missing e x k) l} + {exists k, In (Missing e x k) l}).
    { clear. induction l as [|r l [IH|IH]]; [left; by intros k []| |right; destruct IH as [k ?]; exists k; by right].
      destruct r as [e' d k|e'|e'].
      - destruct (decide (e' = e)) as [->|]; [|left; intros k' [E|?]; [by inversion E|by eapply IH]].
        destruct (decide (d = x)) as [->|]; [right; exists k; by left|].
        left; intros k' [E|?]; [by inversion E|by eapply IH].
      - left; intros k' [E|?]; [by inversion E|by eapply IH].
      - left; intros k' [E|?]; [by inversion E|by eapply IH]. }
    destruct (Hdec (Missing e d0 k0 :: b)) as [Hno|?]; [|done].
    exfalso. specialize (G (conj Hx Hno)). by apply not_elem_of_nil in G.
Qed.

(** And then it does come. *)
Theorem C41_all_clear_is_given a e d0 k0 b :
  let rs := a ++ Missing e d0 k0 :: b in
  (forall r, In r a -> event_of r <> e) -> d0 ∈ k0 ->
  ~ In (Forget e) rs -> ~ In (Seen e) rs -> (forall d k, In (Missing e d k) rs -> NoDup k) ->
  (forall x, x ∈ k0 -> exists k, In (Missing e x k) (Missing e d0 k0 :: b)) ->
  exists b1 r b2, rs = b1 ++ r :: b2 /\ event_of r = e /\ all_clear b1 r = true.
Proof.
  intros rs Ha Hd Hf Hs Hn Hall.
  assert (Hend : (reports ∅ rs).1 !! e = Some []).
  { pose proof (reports_means e rs Hf Hn) as M.
    destruct ((reports ∅ rs).1 !! e) as [l|]; cbn [means] in M.
    - destruct M as [[? ?]|(_ & _ & a' & d' & k' & b' & E & H3 & H4 & H5)]; [done|].
      assert (E' : a = a' /\ Missing e d0 k0 :: b = Missing e d' k' :: b').
      { unfold rs in E. clear -E Ha H4 Hd. revert a' E H4. induction a as [|x a IH]; intros [|x' a'] E H4.
        - done.
        - exfalso. cbn in E. inversion E; subst. by apply (H4 d0 k0 ltac:(by left)).
        - exfalso. cbn in E. inversion E; subst. by apply (Ha (Missing e d' k') ltac:(by left)).
        - cbn in E. inversion E; subst.
          destruct (IH ltac:(intros r Hr; apply Ha; by right) a') as [-> ?]; [done| |done].
          intros d k Hin. apply (H4 d k). by right. }
      destruct E' as [-> E']. inversion E'; subst. f_equal. apply elem_of_nil_inv. intros x Hx.
      apply H5 in Hx as [Hx Hno]. destruct (Hall x Hx) as [k Hk]. by apply (Hno k).
    - exfalso. destruct M as [_ M]. apply (M d0 k0); [|done]. unfold rs. apply in_or_app. right. by left. }
  clear Ha Hd Hn Hall. clearbody rs. clear a d0 k0 b. revert Hf Hs Hend.
  induction rs as [|r rs IH] using rev_ind; intros Hf Hs Hend; [cbn in Hend; by rewrite lookup_empty in Hend|].
  rewrite state_snoc in Hend.
  assert (Hf' : ~ In (Forget e) rs) by (intros H; apply Hf, in_or_app; by left).
  assert (Hs' : ~ In (Seen e) rs) by (intros H; apply Hs, in_or_app; by left).
  destruct (decide ((reports ∅ rs).1 !! e = Some [])) as [Hp|Hp].
  - destruct (IH Hf' Hs' Hp) as (b1 & r0 & b2 & -> & ? & ?). exists b1, r0, (b2 ++ [r]).
    by rewrite <- app_assoc.
  - exists rs, r, []. split; [done|].
    destruct (decide (event_of r = e)) as [Ee|Ene]; [|by rewrite rstep_other in Hend].
    split; [done|]. unfold all_clear. set (p := (reports ∅ rs).1) in *. clearbody p.
    destruct r as [e' d k|e'|e']; cbn in Ee; subst e'; cbn [rstep] in *.
    + unfold MissingTxnID in *. destruct (removeDevice d _) as [l []]; cbn in *; [|done].
      rewrite lookup_insert in Hend. inversion Hend. by rewrite bool_decide_true.
    + exfalso. apply Hs, in_or_app. right. by left.
    + exfalso. apply Hf, in_or_app. right. by left.
Qed.

Example C41_three_devices :
  (reports ∅ [Missing "$e" "A" ["A"; "B"; "C"]; Missing "$f" "A" ["A"]; Missing "$e" "C" ["A"; "C"];
              Missing "$e" "A" ["A"; "B"]; Missing "$e" "B" ["B"]; Missing "$e" "B" ["B"]]).2.*2
  = [false; true; false; false; true; false].
Proof. vm_compute. reflexivity. Qed.
Example C41_transaction_id :
  (reports ∅ [Missing "$e" "A" ["A"; "B"]; Seen "$e"; Missing "$e" "B" ["A"; "B"]]).2.*2
  = [false; false; false].
Proof. vm_compute. reflexivity. Qed.

(** After five minutes the event is forgotten: the all-clear is given although
    a transaction ID was seen, and may be given again. *)
Theorem C41_after_five_minutes_refuted :
  all_clear [Missing "$e" "A" ["A"; "B"]; Seen "$e"; Forget "$e"] (Missing "$e" "B" ["B"]) = true.
Proof. vm_compute. reflexivity. Qed.

(** A poller that has just been terminated reports first: the devices known then
    are not remembered, and B is never waited for. *)
Theorem C41_terminated_poller_refuted :
  all_clear [Missing "$e" "A" ["B"; "C"]] (Missing "$e" "C" ["C"]) = true.
Proof. vm_compute. reflexivity. Qed.

Print Assumptions C40_once_and_in_order.
Print Assumptions C40_published_when_the_delay_expires.
Print Assumptions C40_no_delay.
Print Assumptions C40_other_updates_pass.
Print Assumptions C40_held_back.
Print Assumptions C41_at_most_once.
Print Assumptions C41_never_after_a_transaction_id.
Print Assumptions C41_all_clear_partial.
Print Assumptions C41_all_clear_is_given.
Print Assumptions C41_after_five_minutes_refuted.
Print Assumptions C41_terminated_poller_refuted.
