(** Lemmas about waiting for transaction IDs. *)
From Verif Require Import Prelude TxnModel TxnSpec.
Open Scope string_scope. Open Scope list_scope. Open Scope Z_scope.

Lemma split_at_spec nid q :
  let '(a, b) := split_at nid q in
  q = a ++ b /\ Forall (fun e => e_nid e <= nid) a
  /\ match b with [] => True | e :: _ => nid < e_nid e end.
Proof.
  induction q as [|e q IH]; cbn; [done|].
  destruct (Z.ltb_spec nid (e_nid e)); [done|].
  destruct (split_at nid q) as [a b]. destruct IH as (-> & H1 & H2).
  split; [done|]. split; [|done]. constructor; [lia|done].
Qed.

Section waiting.
  Context (user : string) (delay : Z).
  Local Notation step := (step user delay).
  Local Notation run := (run user delay).

  Fixpoint passed (ms : list moment) : Z :=
    match ms with [] => 0 | Pass dt :: r => Z.of_nat dt + passed r | _ :: r => passed r end.
  Fixpoint timed (room : string) (now : Z) (ms : list moment) : list (Z * ev) :=
    match ms with
    | [] => []
    | Update up :: r => map (fun e => (now, e)) (of_room room up) ++ timed room now r
    | Pass dt :: r => timed room (now + Z.of_nat dt) r
    | _ :: r => timed room now r
    end.

  Lemma passed_nonneg ms : 0 <= passed ms.
  Proof using. induction ms as [|[] ms IH]; cbn; lia. Qed.
  Lemma passed_app a b : passed (a ++ b) = passed a + passed b.
  Proof using. induction a as [|[] a IH]; cbn; lia. Qed.
  Lemma timed_app room a : forall now b,
    timed room now (a ++ b) = timed room now a ++ timed room (now + passed a) b.
  Proof using.
    induction a as [|[] a IH]; intros now b; cbn [timed passed app].
    - by rewrite Z.add_0_r.
    - rewrite IH. by rewrite app_assoc.
    - apply IH.
    - rewrite IH. do 2 f_equal. lia.
    - apply IH.
  Qed.
  Lemma timed_times room ms : forall now t e, In (t, e) (timed room now ms) -> now <= t <= now + passed ms.
  Proof using.
    induction ms as [|[up| |dt|] ms IH]; intros now t e H; cbn [timed passed] in *.
    - destruct H.
    - apply in_app_or in H as [H|H].
      + apply in_map_iff in H as (x & E & _). inversion E; subst. pose proof (passed_nonneg ms). lia.
      + by apply IH in H.
    - by apply IH in H.
    - apply IH in H. lia.
    - by apply IH in H.
  Qed.
  Lemma timed_received room ms : forall now, map snd (timed room now ms) = received room ms.
  Proof using.
    unfold received. induction ms as [|[up| |dt|] ms IH]; intros now; cbn [timed map concat app]; auto.
    rewrite map_app, IH, map_map. cbn. by rewrite map_id.
  Qed.
  Lemma of_room_one room up e : In e (of_room room up) -> up = Ev e /\ e_room e = room.
  Proof using.
    destruct up as [x|]; cbn; [|done]. destruct (decide (e_room x = room)); [|done].
    by intros [->|[]].
  Qed.
  Lemma run_now ms : v_now (run ms) = passed ms.
  Proof using.
    unfold TxnSpec.run. induction ms as [|m ms IH] using rev_ind; [reflexivity|].
    rewrite fold_left_app, passed_app. cbn [fold_left]. set (v := fold_left step ms world0) in *.
    clearbody v. destruct m as [up|room nid|dt|i]; cbn [TxnSpec.step passed].
    - destruct (Ingest user delay (v_now v) (v_t v) up); cbn. lia.
    - destruct (PublishUpToNID (v_t v) room nid); cbn. lia.
    - cbn. lia.
    - destruct (t_timers (v_t v) !! i) as [[due [room nid]]|]; [|lia].
      destruct (due <=? v_now v); [|lia]. destruct (PublishUpToNID _ room nid); cbn. lia.
  Qed.

  (** The queue of a room, with arrival times: whoever has a NID above all
      before them has a timer. *)
  Definition records (room : string) (timers : list (Z * (string * Z))) (q : list (Z * ev)) : Prop :=
    forall q1 t e q2, q = q1 ++ (t, e) :: q2 -> Forall (fun x => e_nid x.2 < e_nid e) q1 ->
    In (t + delay, (room, e_nid e)) timers.

  Definition inv (room : string) (v : world) (ms : list moment) : Prop :=
    (forall r q, t_queues (v_t v) !! r = Some q ->
       q <> [] /\ Forall (fun e => e_room e = r) q /\ 0 < delay)
    /\ exists gone q, timed room 0 ms = gone ++ q
      /\ map snd gone = published room v /\ map snd q = waiting room v
      /\ records room (t_timers (v_t v)) q.

  Lemma published_app room now t v out :
    published room (mk_world now t (v_out v ++ out))
    = published room v ++ concat (map (fun p => of_room room p.2) out).
  Proof using. unfold published. cbn [v_out]. by rewrite map_app, concat_app. Qed.

  Lemma of_room_all room r a :
    Forall (fun e => e_room e = r) a ->
    concat (map (fun p => of_room room p.2) (map (fun e => (true, Ev e)) a))
    = if decide (r = room) then a else [].
  Proof using.
    induction 1 as [|e a Hr _ IH]; cbn; [by destruct (decide _)|]. rewrite IH, Hr.
    destruct (decide (r = room)); done.
  Qed.

  (** Clearing, with some timers for this room and NID gone. *)
  Lemma publish_inv room r nid v ms timers' :
    inv room v ms ->
    (forall x, In x (t_timers (v_t v)) -> x.2 <> (r, nid) -> In x timers') ->
    let '(t, out) := PublishUpToNID (mk_waiter (t_queues (v_t v)) timers') r nid in
    inv room (mk_world (v_now v) t (v_out v ++ out)) ms.
  Proof using.
    intros (H0 & gone & q & Ht & Hg & Hq & Hr) Htim. unfold PublishUpToNID. cbn [t_queues t_timers].
    destruct (t_queues (v_t v) !! r) as [queue|] eqn:E.
    - destruct (H0 r queue E) as (_ & Hroom & Hdel).
      pose proof (split_at_spec nid queue) as S. destruct (split_at nid queue) as [a b].
      destruct S as (-> & Sa & Sb). apply Forall_app in Hroom as [Hra Hrb]. split.
      + intros r' q'. cbn [v_t t_queues]. destruct b as [|x b].
        * destruct (decide (r = r')) as [->|Hne]; [by rewrite lookup_delete|].
          rewrite lookup_delete_ne by done. apply H0.
        * destruct (decide (r = r')) as [->|Hne].
          -- rewrite lookup_insert. intros [= <-]. done.
          -- rewrite lookup_insert_ne by done. apply H0.
      + destruct (decide (room = r)) as [->|Hne].
        * unfold waiting in Hq. rewrite E in Hq. cbn in Hq.
          assert (Hsplit : exists qa qb, q = qa ++ qb /\ map snd qa = a /\ map snd qb = b).
          { exists (firstn (length a) q), (skipn (length a) q). rewrite firstn_skipn. split; [done|].
            rewrite <- firstn_map, <- skipn_map, Hq.
            by rewrite take_app, drop_app. }
          destruct Hsplit as (qa & qb & -> & Ha & Hb).
          exists (gone ++ qa), qb. split; [by rewrite Ht, app_assoc|]. split; [|split].
          -- rewrite map_app, published_app, Hg. f_equal. rewrite Ha, (of_room_all r r) by done.
             by rewrite decide_True.
          -- unfold waiting. cbn [v_t t_queues]. rewrite Hb. destruct b; [by rewrite lookup_delete|by rewrite lookup_insert].
          -- cbn [v_t t_timers]. intros q1 t e q2 Eq Hf.
             assert (nid < e_nid e).
             { destruct q1 as [|[t1 e1] q1]; subst qb; cbn in Hb.
               - subst b. exact Sb.
               - subst b. apply Forall_inv in Hf. cbn in Hf. lia. }
             apply Htim; [|cbn; intros Ee; inversion Ee; lia].
             apply (Hr (qa ++ q1) t e q2); [by rewrite Eq, app_assoc|]. apply Forall_app. split; [|done].
             rewrite Forall_forall in Sa. apply Forall_forall. intros [t1 e1] Hin. cbn.
             assert (e_nid e1 <= nid); [|lia]. apply Sa. rewrite <- Ha. apply elem_of_list_fmap.
             by exists (t1, e1).
        * exists gone, q. split; [done|]. split; [|split].
          -- rewrite published_app, Hg, (of_room_all room r) by done.
             rewrite decide_False by congruence. by rewrite app_nil_r.
          -- unfold waiting. cbn [v_t t_queues]. rewrite Hq. unfold waiting. f_equal.
             destruct b; [by rewrite lookup_delete_ne|by rewrite lookup_insert_ne].
          -- cbn [v_t t_timers]. intros q1 t e q2 Eq Hf. apply Htim; [by apply (Hr q1 t e q2)|].
             cbn. congruence.
    - split; [exact H0|]. exists gone, q. split; [done|]. rewrite published_app. cbn [map concat].
      rewrite app_nil_r. split; [done|]. split; [done|]. cbn [v_t t_timers].
      destruct (decide (room = r)) as [->|Hne].
      + unfold waiting in Hq. rewrite E in Hq. apply map_eq_nil in Hq as ->.
        intros q1 t e q2 Eq. by destruct q1.
      + intros q1 t e q2 Eq Hf. apply Htim; [by apply (Hr q1 t e q2)|]. cbn. congruence.
  Qed.

  Lemma step_inv room m ms : inv room (run ms) ms -> inv room (step (run ms) m) (ms ++ [m]).
  Proof using.
    intros H. pose proof (run_now ms) as Hnow. set (v := run ms) in *. clearbody v.
    assert (Hsame : forall m', match m' with Update _ => False | _ => True end ->
      timed room 0 (ms ++ [m']) = timed room 0 ms).
    { intros m' Hm. rewrite timed_app. destruct m'; cbn; try done; by rewrite app_nil_r. }
    destruct m as [up|r nid|dt|i]; cbn [TxnSpec.step].
    - destruct H as (H0 & gone & q & Ht & Hg & Hq & Hr).
      assert (Et : timed room 0 (ms ++ [Update up])
        = timed room 0 ms ++ map (fun e => (v_now v, e)) (of_room room up)).
      { rewrite timed_app. cbn. by rewrite app_nil_r, Hnow. }
      assert (Hstraight : t_queues (v_t v) !! room = None \/ of_room room up = [] ->
        inv room (mk_world (v_now v) (v_t v) (v_out v ++ [(false, up)])) (ms ++ [Update up])).
      { intros Hc. split; [exact H0|]. rewrite Et, published_app. cbn [map concat snd].
        rewrite app_nil_r. destruct Hc as [Hc|Hc].
        - unfold waiting in Hq. rewrite Hc in Hq. apply map_eq_nil in Hq as ->.
          exists (gone ++ map (fun e => (v_now v, e)) (of_room room up)), [].
          rewrite Ht, !app_nil_r. split; [done|]. split; [|split].
          + rewrite map_app, map_map, Hg. cbn. by rewrite map_id.
          + unfold waiting. cbn [v_t]. by rewrite Hc.
          + intros q1 t e q2 Eq. by destruct q1.
        - exists gone, q. rewrite Hc, Ht, Hg. cbn. rewrite !app_nil_r. done. }
      unfold Ingest. destruct (delay <=? 0) eqn:Ed; [|destruct up as [e|n]].
      + apply Hstraight. left. destruct (t_queues (v_t v) !! room) as [x|] eqn:E0; [|done].
        destruct (H0 _ _ E0) as (_ & _ & ?). lia.
      + destruct (negb _) eqn:En.
        * apply Hstraight. apply negb_true_iff, orb_false_iff in En as [_ En].
          apply bool_decide_eq_false in En. cbn. destruct (decide (e_room e = room)) as [<-|]; [left|by right].
          by apply eq_None_not_Some.
        * cbn [v_t]. split.
          -- intros r' q'. cbn [v_t t_queues]. destruct (decide (e_room e = r')) as [<-|Hne].
             ++ rewrite lookup_insert. intros [= <-]. split; [by destruct (default _ _)|]. split; [|lia].
                apply Forall_app. split; [|by constructor].
                destruct (t_queues (v_t v) !! e_room e) as [q0|] eqn:E0; [|constructor].
                by apply (H0 _ _ E0).
             ++ rewrite lookup_insert_ne by done. apply H0.
          -- rewrite Et, published_app. cbn [map concat]. rewrite app_nil_r. cbn [of_room].
             destruct (decide (e_room e = room)) as [Hroom|Hne].
             ++ exists gone, (q ++ [(v_now v, e)]). rewrite Ht, <- app_assoc. split; [done|]. split; [done|].
                split; [rewrite map_app, Hq; unfold waiting; cbn [v_t t_queues]; rewrite <- Hroom, lookup_insert; done|].
                cbn [v_t t_timers]. intros q1 t x q2 Eq Hf. apply in_or_app.
                destruct q2 as [|y q2] using rev_ind; [|clear IHq2].
                ** apply app_inj_tail in Eq as [-> Eq]. inversion Eq; subst. right. by left.
                ** left. rewrite app_comm_cons, app_assoc in Eq. apply app_inj_tail in Eq as [-> _].
                   by apply (Hr q1 t x q2).
             ++ exists gone, q. cbn. rewrite app_nil_r. split; [done|]. split; [done|]. split.
                ** unfold waiting. cbn [v_t t_queues]. by rewrite lookup_insert_ne.
                ** cbn [v_t t_timers]. intros q1 t x q2 Eq Hf. apply in_or_app. left. by apply (Hr q1 t x q2).
      + apply Hstraight. by right.
    - pose proof (publish_inv room r nid v ms (t_timers (v_t v)) H) as P.
      assert (E : mk_waiter (t_queues (v_t v)) (t_timers (v_t v)) = v_t v) by (by destruct (v_t v)).
      rewrite E in P. destruct (PublishUpToNID (v_t v) r nid) as [t out].
      unfold inv in *. rewrite Hsame by done. apply P. auto.
    - unfold inv in *. rewrite Hsame by done. exact H.
    - destruct (t_timers (v_t v) !! i) as [[due [r nid]]|] eqn:Ei.
      2:{ unfold inv in *. rewrite Hsame by done. exact H. }
      destruct (due <=? v_now v).
      2:{ unfold inv in *. rewrite Hsame by done. exact H. }
      pose proof (publish_inv room r nid v ms (delete i (t_timers (v_t v))) H) as P.
      destruct (PublishUpToNID _ r nid) as [t out]. unfold inv in *. rewrite Hsame by done. apply P.
      intros x Hx Hne. apply elem_of_list_In. apply elem_of_list_In, elem_of_list_lookup in Hx as [j Hj].
      destruct (decide (i = j)) as [->|Hij]; [rewrite Ei in Hj; inversion Hj; subst; by destruct Hne|].
      apply elem_of_list_lookup. destruct (decide (j < i)%nat).
      + exists j. by rewrite lookup_delete_lt.
      + exists (j - 1)%nat. rewrite lookup_delete_ge by lia. rewrite <- Hj. f_equal. lia.
  Qed.

  Lemma run_inv room ms : inv room (run ms) ms.
  Proof using.
    induction ms as [|m ms IH] using rev_ind.
    - split; [intros r q; cbn; by rewrite lookup_empty|]. exists [], []. repeat split; try done.
      intros q1 t e q2 Eq. by destruct q1.
    - unfold TxnSpec.run. rewrite fold_left_app. cbn [fold_left]. by apply step_inv.
  Qed.
End waiting.

(** Pending transaction IDs. *)
Lemma removeDevice_spec d l :
  NoDup l ->
  let '(l', changed) := removeDevice d l in
  changed = bool_decide (d ∈ l) /\ NoDup l' /\ (forall x, x ∈ l' <-> x ∈ l /\ x <> d).
Proof.
  induction 1 as [|y l Hy Hn IH]; cbn [removeDevice].
  - split; [|split]; [by rewrite bool_decide_false by (apply not_elem_of_nil)|constructor|].
    intros x. split; [intros H; inversion H|intros [H _]; inversion H].
  - destruct (decide (y = d)) as [->|Hne].
    + split; [by rewrite bool_decide_true by (by left)|]. split; [done|].
      intros x. rewrite elem_of_cons. split.
      * intros Hx. split; [by right|]. by intros ->.
      * intros [[->|?] ?]; done.
    + destruct (removeDevice d l) as [l' changed]. destruct IH as (-> & H1 & H2). split; [|split].
      * apply bool_decide_ext. rewrite elem_of_cons. split; [by right|by intros [?|?]].
      * constructor; [|done]. intros Hx. by apply H2 in Hx as [? _].
      * intros x. rewrite !elem_of_cons, H2. split; [intros [->|[? ?]]; auto|intros [[?|?] ?]; auto].
Qed.

Lemma reports_app a : forall p b,
  reports p (a ++ b) =
  let '(p1, l1) := reports p a in let '(p2, l2) := reports p1 b in (p2, l1 ++ l2).
Proof.
  induction a as [|r a IH]; intros p b; cbn [reports app].
  - by destruct (reports p b).
  - destruct (rstep p r) as [p1 x]. rewrite IH. destruct (reports p1 a) as [p2 l1].
    by destruct (reports p2 b).
Qed.

(** The devices that must still report [e]. *)
Lemma rstep_other p r e : event_of r <> e -> (rstep p r).1 !! e = p !! e.
Proof.
  intros Hne. destruct r as [e' d k|e'|e']; cbn in *.
  - unfold MissingTxnID. destruct (removeDevice d _) as [l []]; cbn; [|done].
    by rewrite lookup_insert_ne.
  - unfold SeenTxnID. by rewrite lookup_insert_ne.
  - unfold Expire. by rewrite lookup_delete_ne.
Qed.


Definition about (e : string) (r : report) : Prop :=
  match r with Missing e' _ _ => e' = e | _ => False end.

Lemma state_snoc rs r : (reports ∅ (rs ++ [r])).1 = (rstep (reports ∅ rs).1 r).1.
Proof.
  rewrite reports_app. destruct (reports ∅ rs) as [p l]. cbn.
  by destruct (rstep p r).
Qed.

(** What the entry of [e] means. *)
Definition means (e : string) (rs : list report) (o : option (list string)) : Prop :=
  match o with
  | None => ~ In (Seen e) rs /\ forall d k, In (Missing e d k) rs -> d ∉ k
  | Some l =>
      (In (Seen e) rs /\ l = [])
      \/ (~ In (Seen e) rs /\ NoDup l /\ exists a d0 k0 b, rs = a ++ Missing e d0 k0 :: b
            /\ d0 ∈ k0 /\ (forall d k, In (Missing e d k) a -> d ∉ k)
            /\ forall x, x ∈ l <-> x ∈ k0 /\ forall k, ~ In (Missing e x k) (Missing e d0 k0 :: b))
  end.

Lemma reports_means e rs :
  ~ In (Forget e) rs -> (forall d k, In (Missing e d k) rs -> NoDup k) ->
  means e rs ((reports ∅ rs).1 !! e).
Proof.
  induction rs as [|r rs IH] using rev_ind; intros Hf Hn.
  - cbn. rewrite lookup_empty. cbn. split; [done|intros ? ? []].
  - assert (IH' : means e rs ((reports ∅ rs).1 !! e)).
    { apply IH; [intros H; apply Hf, in_or_app; by left|]. intros d k H. apply (Hn d k), in_or_app. by left. }
    clear IH. rewrite state_snoc. set (p := (reports ∅ rs).1) in *. clearbody p.
    destruct (decide (event_of r = e)) as [Ee|Ene].
    2:{ rewrite rstep_other by done. destruct (p !! e) as [l|]; cbn [means] in *.
        - destruct IH' as [[? ?]|(H1 & H2 & a & d0 & k0 & b & -> & H3 & H4 & H5)].
          + left. split; [apply in_or_app; by left|done].
          + right. split; [rewrite in_app_iff; intros [?|[Hx|[]]]; [done|subst r; done]|].
            split; [done|]. exists a, d0, k0, (b ++ [r]). split; [by rewrite <- app_assoc|].
            split; [done|]. split; [done|]. intros x. rewrite H5. split; intros [G1 G2]; (split; [done|]); intros k.
            * rewrite app_comm_cons, in_app_iff. intros [?|[Hx|[]]]; [by eapply G2|]. subst r. done.
            * intros Hx. apply (G2 k). rewrite app_comm_cons. apply in_or_app. by left.
        - destruct IH' as [H1 H2]. split.
          + rewrite in_app_iff. intros [?|[Hx|[]]]; [done|subst r; done].
          + intros d k. rewrite in_app_iff. intros [?|[Hx|[]]]; [eauto|subst r; done]. }
    destruct r as [e' d k|e'|e']; cbn in Ee; subst e'.
    + cbn [rstep]. unfold MissingTxnID.
      destruct (p !! e) as [l|] eqn:Ep; cbn [default from_option id means] in *.
      * destruct IH' as [[H1 ->]|(H1 & H2 & a & d0 & k0 & b & -> & H3 & H4 & H5)].
        -- cbn [removeDevice fst]. rewrite Ep. left. split; [apply in_or_app; by left|done].
        -- pose proof (removeDevice_spec d l H2) as R. destruct (removeDevice d l) as [l' changed].
           destruct R as (-> & R1 & R2).
           assert (Hl : forall l2, NoDup l2 -> (forall x, x ∈ l2 <-> x ∈ l /\ x <> d) ->
             means e ((a ++ Missing e d0 k0 :: b) ++ [Missing e d k]) (Some l2)).
           { intros l2 N2 E2. right. split; [rewrite in_app_iff; by intros [?|[?|[]]]|]. split; [done|].
             exists a, d0, k0, (b ++ [Missing e d k]). split; [by rewrite <- app_assoc|]. split; [done|]. split; [done|].
             intros x. rewrite E2, H5. split.
             - intros [[G1 G2] G3]. split; [done|]. intros k'. rewrite app_comm_cons, in_app_iff.
               intros [?|[Hx|[]]]; [by eapply G2|]. by inversion Hx.
             - intros [G1 G2]. split; [split; [done|]|].
               + intros k' Hx. apply (G2 k'). rewrite app_comm_cons. apply in_or_app. by left.
               + intros ->. apply (G2 k). rewrite app_comm_cons. apply in_or_app. right. by left. }
           case_bool_decide; cbn [fst].
           ++ rewrite lookup_insert. by apply Hl.
           ++ rewrite Ep. apply Hl; [done|]. intros x. split; [|tauto]. intros Hx. split; [done|]. by intros ->.
      * destruct IH' as [H1 H2].
        assert (Nk : NoDup k) by (apply (Hn d k), in_or_app; right; by left).
        pose proof (removeDevice_spec d k Nk) as R. destruct (removeDevice d k) as [l' changed].
        destruct R as (-> & R1 & R2). case_bool_decide as Hd; cbn [fst].
        -- rewrite lookup_insert. right. split; [rewrite in_app_iff; by intros [?|[?|[]]]|]. split; [done|].
           exists rs, d, k, []. split; [done|]. split; [done|]. split; [done|].
           intros x. rewrite R2. split; intros [G1 G2]; (split; [done|]).
           ++ intros k' [Hx|[]]. by inversion Hx.
           ++ intros ->. apply (G2 k). by left.
        -- rewrite Ep. split; [rewrite in_app_iff; by intros [?|[?|[]]]|].
           intros d' k'. rewrite in_app_iff. intros [?|[Hx|[]]]; [eauto|]. inversion Hx; subst. done.
    + cbn [rstep]. unfold SeenTxnID. cbn [fst]. rewrite lookup_insert. left.
      split; [apply in_or_app; right; by left|done].
    + exfalso. apply Hf, in_or_app. right. by left.
Qed.

(** Once nobody is left, it stays so. *)
Lemma empty_stays e b : forall p, p !! e = Some [] -> ~ In (Forget e) b ->
  (reports p b).1 !! e = Some [].
Proof.
  induction b as [|r b IH]; intros p Hp Hf; cbn [reports]; [done|].
  assert (Hs : (rstep p r).1 !! e = Some []).
  { destruct (decide (event_of r = e)) as [Ee|Ene]; [|by rewrite rstep_other].
    destruct r as [e' d k|e'|e']; cbn in Ee; subst e'; cbn [rstep].
    - unfold MissingTxnID. rewrite Hp. done.
    - unfold SeenTxnID. cbn. apply lookup_insert.
    - exfalso. apply Hf. by left. }
  destruct (rstep p r) as [p1 x]. cbn in Hs. specialize (IH p1 Hs).
  destruct (reports p1 b). apply IH. intros H. apply Hf. by right.
Qed.
Lemma empty_silent e p r : p !! e = Some [] -> event_of r = e -> (rstep p r).2 = false.
Proof.
  intros Hp Ee. destruct r as [e' d k|e'|e']; cbn in Ee; subst e'; cbn [rstep]; try done.
  unfold MissingTxnID. by rewrite Hp.
Qed.
Lemma clear_empties e p r : event_of r = e -> (rstep p r).2 = true -> (rstep p r).1 !! e = Some [].
Proof.
  intros Ee. destruct r as [e' d k|e'|e']; cbn in Ee; subst e'; cbn [rstep]; try done.
  unfold MissingTxnID. destruct (removeDevice d _) as [l []]; cbn; [|done].
  intros H. apply bool_decide_eq_true in H as ->. apply lookup_insert.
Qed.
