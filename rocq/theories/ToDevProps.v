(** Properties C30 and C31. *)
From Verif Require Import Prelude ToDevModel ToDevSpec ToDevProofs.
Open Scope string_scope. Open Scope list_scope. Open Scope Z_scope.

Lemma ascending_same l1 : forall l2,
  ascending l1 -> ascending l2 -> (forall r, In r l1 <-> In r l2) -> l1 = l2.
Proof.
  induction l1 as [|x l1 IH]; intros l2 H1 H2 H.
  - destruct l2 as [|y l2]; [reflexivity|]. destruct (H y) as [_ G]. destruct G. by left.
  - inversion_clear H1 as [|? ? Hs1 Hf1]. rewrite List.Forall_forall in Hf1.
    destruct l2 as [|y l2]; [destruct (H x) as [G _]; destruct G; by left|].
    inversion_clear H2 as [|? ? Hs2 Hf2]. rewrite List.Forall_forall in Hf2.
    assert (x = y) as ->.
    { destruct (H x) as [G1 _]. destruct (H y) as [_ G2].
      destruct (G1 ltac:(by left)) as [->|Hx]; [reflexivity|].
      destruct (G2 ltac:(by left)) as [->|Hy]; [reflexivity|].
      specialize (Hf1 y Hy). specialize (Hf2 x Hx). cbn in Hf1, Hf2. lia. }
    f_equal. apply IH; [done|done|]. intros r. destruct (H r) as [G1 G2]. split; intros Hr.
    + destruct (G1 ltac:(by right)) as [->|?]; [|done]. specialize (Hf1 r Hr). cbn in Hf1. lia.
    + destruct (G2 ltac:(by right)) as [->|?]; [|done]. specialize (Hf2 r Hr). cbn in Hf2. lia.
Qed.

Section props.
Context (u d : string).

(** C30, reading: after any history, a request with a since token (ignored if
    the server does not know the device yet) gets exactly the messages of its
    inbox with larger positions up to next_batch, oldest first, at most as many
    as the limit says (100 if it is 0), and all of them if there are fewer. *)
Theorem C30_read hs since limit w next msgs :
  Forall (other u d) hs -> 0 <= default 0 since ->
  let v := run u d hs in
  (ProcessInitial (v_db v) (v_mem v) u d since limit w).2 = Some (next, msgs) ->
  let from := default 0 (match v_mem v !! d with None => None | Some _ => since end) in
  let most := Z.to_nat (if limit =? 0 then 100 else limit) in
  ascending msgs
  /\ (forall r, In r msgs <-> inbox u d v r /\ from < w_pos r <= next)
  /\ (length msgs <= most)%nat
  /\ ((length msgs < most)%nat -> forall r, inbox u d v r -> from < w_pos r -> In r msgs).
Proof using.
  intros Ho Hs0 v E from most. destruct (run_inv u d hs Ho) as [log (Hw & _)]. fold v in Hw.
  pose proof (process_shape (v_db v) (v_mem v) u d since limit w) as P. cbn zeta in P.
  destruct (ProcessInitial (v_db v) (v_mem v) u d since limit w) as [[s' mem'] resp] eqn:E'.
  cbn [snd] in E. subst resp.
  destruct (ask_reads u d _ _ _ _ _ _ _ _ _ Hw Hs0 E') as (Hin & Ha & _).
  fold from in Hin. fold from in P.
  assert (Hib : forall r, inbox u d v r <-> In r (d_rows (v_db v)) /\ mine u d r = true).
  { intros r. unfold inbox. rewrite mine_spec. tauto. }
  destruct P as (del & Er & _ & _ & _ & _ & _ & n & Em & En & Hn & _). fold most in Hn. subst n.
  split; [exact Ha|]. split.
  { intros r. rewrite Hin, Hib. tauto. }
  split; [rewrite Em; apply firstn_le_length|].
  intros Hlt r Hi Hpos. apply Hin. apply Hib in Hi as [Hi Hm]. split; [exact Hi|]. split; [exact Hm|].
  split; [exact Hpos|].
  destruct (Z.le_gt_cases (w_pos r) next) as [Hle|Hgt]; [exact Hle|]. exfalso.
  set (l := by_position (List.filter (fun r => bool_decide (w_user r = u)
     && bool_decide (w_dev r = d) && (from <? w_pos r)) (d_rows s'))) in *.
  assert (Hall : msgs = l).
  { rewrite Em. apply firstn_all2. rewrite Em, firstn_length in Hlt. lia. }
  assert (In r l).
  { unfold l. rewrite by_position_sorted.
    - apply filter_In. apply mine_spec in Hm as [M1 M2]. split.
      + rewrite Er. apply filter_In. split; [exact Hi|]. apply negb_true_iff.
        destruct (Z.leb_spec (w_pos r) from); [lia|]. by rewrite !andb_false_r.
      + rewrite M1, M2, !bool_decide_true by done. cbn. lia.
    - rewrite Er, filter_filter. apply ascending_filter, Hw. }
  rewrite <- Hall in H. apply Hin in H. lia.
Qed.

(** C30, nothing is lost: over every history — messages for this and other
    devices, other clients, failing databases, lost responses, server restarts
    — the plain messages that arrived have increasing positions, and each was
    received by the client or is in its inbox beyond the client's since token. *)
Theorem C30_nothing_is_lost hs :
  Forall (other u d) hs ->
  let v := run u d hs in
  exists log,
    map w_msg log = arrived u d hs /\ ascending log
    /\ (forall r, In r log -> In r (v_got v) \/ (inbox u d v r /\ default 0 (v_since v) < w_pos r)).
Proof using.
  intros Ho v. destruct (run_inv u d hs Ho) as [log (Hw & _ & Ha & Hm & Hl & _ & Hg)].
  fold v in Hl, Hg. exists log. split; [exact Hm|]. split; [exact Ha|].
  intros r Hi. destruct (Hg r Hi) as [?|[? ?]]; [by left|right]. split; [|done].
  split; [done|]. destruct (Hl r Hi) as (Hmi & _). by apply mine_spec in Hmi.
Qed.

(** Without restarts. *)
Definition inv2 (v : world) (log : list row) : Prop :=
  ascending (List.filter (fun r => plain (w_msg r)) (v_got v))
  /\ (forall r, In r (List.filter (fun r => plain (w_msg r)) (v_got v)) <->
        In r log /\ w_pos r <= default 0 (v_since v))
  /\ (forall r, In r log -> default 0 (v_since v) < w_pos r -> In r (d_rows (v_db v)))
  /\ (v_since v = None \/ exists p, v_mem v !! d = Some p).

Lemma run_inv2 hs :
  Forall (other u d) hs -> ~ In Restart hs ->
  exists log, inv u d (run u d hs) log (arrived u d hs) /\ inv2 (run u d hs) log.
Proof using.
  unfold run. induction hs as [|h hs IH] using rev_ind; intros Ho Hnr.
  - exists []. cbn. unfold inv, wf, inv2. cbn.
    repeat split; try done; try lia; try constructor; try done.
  - apply Forall_app in Ho as [Ho Hh]. apply Forall_cons in Hh as [Hh _].
    destruct (IH Ho) as [log [Hi Hi2]]; [intros ?; apply Hnr, in_or_app; by left|].
    assert (Harr : arrived u d (hs ++ [h]) = arrived u d hs ++ arrives u d h).
    { unfold arrived. rewrite map_app, concat_app. cbn [map concat]. rewrite app_nil_r.
      reflexivity. }
    rewrite fold_left_app, Harr. cbn [fold_left].
    set (v := fold_left (step u d) hs world0) in *. clearbody v.
    destruct Hi2 as (G1 & G2 & G3 & G4).
    destruct h as [u' d' msgs gap ok|u' d' since limit w| |limit w received].
    + destruct (arrive_inv u d _ _ _ u' d' msgs gap ok Hi) as (new & H & Hpos & Hin & Hk).
      exists (log ++ new). split; [exact H|]. unfold inv2. cbn [step v_got v_since v_mem] in *.
      destruct Hi as (Hw & Hsi & Ha & Hm & Hl & Hr & Hg).
      split; [exact G1|]. split; [|split; [|exact G4]].
      * intros r. rewrite G2. rewrite in_app_iff. split; [tauto|].
        intros [[?|Hn] Hp]; [done|]. specialize (Hpos r Hn). lia.
      * intros r Hr' Hp. apply in_app_or in Hr' as [Hr'|Hr'].
        -- destruct (Hl r Hr') as (? & ? & _). apply Hk; auto.
        -- by apply Hin.
    + exists log. cbn [arrives]. rewrite app_nil_r.
      destruct (other_inv u d v log (arrived u d hs) u' d' since limit w Hh Hi) as [H Hio].
      split; [exact H|]. unfold inv2.
      assert (Eg : v_got (step u d v (OtherSync u' d' since limit w)) = v_got v
        /\ v_since (step u d v (OtherSync u' d' since limit w)) = v_since v
        /\ (v_mem (step u d v (OtherSync u' d' since limit w)) = v_mem v \/ exists p,
            v_mem (step u d v (OtherSync u' d' since limit w)) = <[d' := p]> (v_mem v))).
      { cbn [step]. pose proof (process_shape (v_db v) (v_mem v) u' d' since limit w) as P.
        cbn zeta in P. destruct (ProcessInitial (v_db v) (v_mem v) u' d' since limit w) as [[s' mem'] resp].
        destruct P as (_ & _ & _ & _ & _ & P). cbn [v_got v_since v_mem].
        split; [reflexivity|]. split; [reflexivity|].
        destruct resp as [[next msgs]|]; [right; exists next|left]; apply P. }
      destruct Eg as (-> & -> & Emem). split; [exact G1|]. split; [exact G2|]. split.
      * intros r Hr' Hp. destruct Hi as (_ & _ & _ & _ & Hl & _). destruct (Hl r Hr') as (? & _).
        apply Hio; [done|]. by apply G3.
      * destruct G4 as [?|[p Hp]]; [by left|right]. destruct Emem as [-> | [q ->]]; [by exists p|].
        destruct (decide (d' = d)) as [->|Hne]; [exists q; apply lookup_insert|].
        exists p. etransitivity; [by apply (lookup_insert_ne (M:=gmap string))|done].
    + exfalso. apply Hnr, in_or_app. right. by left.
    + exists log. cbn [arrives]. rewrite app_nil_r.
      split; [by apply ask_inv|].
      destruct Hi as (Hw & Hsi & Ha & Hm & Hl & Hr & Hg). cbn [step].
      destruct (ProcessInitial (v_db v) (v_mem v) u d (v_since v) limit w) as [[s' mem'] resp] eqn:E.
      destruct (ask_deletes u d _ _ _ _ _ _ _ _ E) as (Es & Hsub & Hkeep & _).
      pose proof (process_shape (v_db v) (v_mem v) u d (v_since v) limit w) as P. cbn zeta in P.
      rewrite E in P. destruct P as (_ & _ & _ & _ & _ & P).
      assert (Hmem : v_since v = None \/ exists p, mem' !! d = Some p).
      { destruct resp as [[next msgs]|].
        - destruct P as [-> _]. right. exists next. apply lookup_insert.
        - destruct P as [-> _]. exact G4. }
      assert (Hlost : inv2 (mk_world s' mem' (v_since v) (v_got v)) log).
      { unfold inv2. cbn [v_db v_since v_got v_mem]. split; [exact G1|]. split; [exact G2|].
        split; [|exact Hmem]. intros r Hr' Hp. apply Hkeep; auto. }
      destruct resp as [[next msgs]|]; [|exact Hlost]. destruct received; [|exact Hlost].
      destruct (ask_reads u d _ _ _ _ _ _ _ _ _ Hw (proj1 Hsi) E) as (Hin & Hasc & Hn0 & _ & _).
      assert (Hfrom : default 0 (match v_mem v !! d with None => None | Some _ => v_since v end)
        = default 0 (v_since v)).
      { destruct G4 as [-> | [p ->]]; [by destruct (v_mem v !! d)|reflexivity]. }
      rewrite Hfrom in Hin, Hn0. set (from := default 0 (v_since v)) in *.
      unfold inv2. cbn [v_db v_since v_got v_mem default from_option id].
      assert (Hfil : forall (f : row -> bool) (a b : list row),
        List.filter f (a ++ b) = List.filter f a ++ List.filter f b).
      { intros f a b. induction a as [|x a IHa]; [reflexivity|]. cbn. destruct (f x); cbn; by rewrite IHa. }
      split; [|split; [|split]].
      * rewrite Hfil. apply ascending_app; [exact G1|by apply ascending_filter|].
        intros a b Hx Hy. apply G2 in Hx as [_ Hx]. apply filter_In in Hy as [Hy _].
        apply Hin in Hy. lia.
      * intros r. rewrite Hfil, in_app_iff, G2, filter_In, Hin. split.
        -- intros [[? ?]|[(? & ? & ? & ?) ?]]; [split; [done|lia]|]. split; [by apply Hr|lia].
        -- intros [Hil Hp]. destruct (Z.le_gt_cases (w_pos r) from) as [Hle|Hgt]; [by left|right].
           destruct (Hl r Hil) as (? & ? & _). repeat split; auto.
      * intros r Hr' Hp. apply Hkeep; [|fold from; lia]. apply G3; [done|lia].
      * right. destruct P as [-> _]. exists next. apply lookup_insert.
Qed.

(** C30, order: as long as the server does not restart, the plain messages the
    client received are exactly those that arrived up to its since token, each
    once and in order; the others wait in the inbox. *)
Theorem C30_received_once_and_in_order hs :
  Forall (other u d) hs -> ~ In Restart hs ->
  let v := run u d hs in
  exists log,
    map w_msg log = arrived u d hs /\ ascending log
    /\ List.filter (fun r => plain (w_msg r)) (v_got v) =
       List.filter (fun r => w_pos r <=? default 0 (v_since v)) log
    /\ (forall r, In r log -> default 0 (v_since v) < w_pos r -> inbox u d v r).
Proof using.
  intros Ho Hnr v. destruct (run_inv2 hs Ho Hnr) as (log & Hi & G1 & G2 & G3 & _).
  fold v in Hi, G1, G2, G3. destruct Hi as (_ & _ & Ha & Hm & Hl & _).
  exists log. split; [exact Hm|]. split; [exact Ha|]. split.
  - apply ascending_same; [exact G1|by apply ascending_filter|].
    intros r. rewrite G2, filter_In, Z.leb_le. tauto.
  - intros r Hi Hp. destruct (Hl r Hi) as (Hmi & _). apply mine_spec in Hmi as [? ?].
    split; [by apply G3|done].
Qed.

(** C30, staying: whatever happens next, a message stays in the inbox, with its
    position, unless the client asks with a since token at or beyond it, or a
    cancellation of its key request arrives while it is beyond the last
    position read. *)
Theorem C30_stays hs h r :
  Forall (other u d) (hs ++ [h]) ->
  let v := run u d hs in
  inbox u d v r ->
  inbox u d (run u d (hs ++ [h])) r
  \/ ((exists limit w received, h = Ask limit w received) /\ w_pos r <= default 0 (v_since v))
  \/ (exists msgs gap k, h = Arrive u d msgs gap true /\ key_of (w_msg r) = Some k
        /\ (exists c, In c msgs /\ act_of c = Cancel /\ key_of c = Some k)
        /\ default 0 (d_ack (v_db v) !! (u, d)) < w_pos r).
Proof using.
  intros Ho v [Hi [Hu Hd]]. unfold run. rewrite fold_left_app. cbn [fold_left].
  change (fold_left (step u d) hs world0) with v.
  apply Forall_app in Ho as [Ho Hh]. apply Forall_cons in Hh as [Hh _].
  destruct (run_inv u d hs Ho) as [log Hinv]. fold v in Hinv.
  destruct h as [u' d' msgs gap ok|u' d' since limit w| |limit w received].
  - unfold inbox. cbn [step v_db].
    destruct (insert_shape (v_db v) u' d' msgs gap ok) as [(-> & Er & _)|(-> & _ & rows & Er & _)].
    + left. rewrite Er. done.
    + rewrite Er. destruct (is_cancelled (keys_with Cancel msgs) u' d'
        (default 0 (d_ack (v_db v) !! (u', d'))) r) eqn:E.
      * right. right. unfold is_cancelled in E. rewrite !andb_true_iff in E.
        destruct E as [[[E1 E2] E3] E4]. apply bool_decide_eq_true in E2, E3.
        subst u' d'. rewrite Hu, Hd in *.
        destruct Hinv as ((_ & _ & H3) & _). destruct (H3 r Hi) as (_ & Hk & _).
        unfold mem_key in E1. destruct (w_key r) as [k|]; [|done].
        apply bool_decide_eq_true in E1. exists msgs, gap, k. split; [reflexivity|].
        split; [done|]. split; [|lia].
        unfold keys_with in E1. apply elem_of_list_omap in E1 as (c & Hc & Hk').
        exists c. apply elem_of_list_In in Hc. split; [exact Hc|]. destruct (act_of c); try done.
      * left. split; [|done]. apply in_or_app. left. apply filter_In. split; [done|]. by rewrite E.
  - left. destruct (other_inv u d v log _ u' d' since limit w Hh Hinv) as [_ Hio].
    split; [|done]. apply Hio; [by apply mine_spec|done].
  - left. split; done.
  - unfold inbox. cbn [step].
    destruct (ProcessInitial (v_db v) (v_mem v) u d (v_since v) limit w) as [[s' mem'] resp] eqn:E.
    destruct (ask_deletes u d _ _ _ _ _ _ _ _ E) as (_ & _ & Hkeep & _).
    destruct (Z.le_gt_cases (w_pos r) (default 0 (v_since v))) as [Hle|Hgt].
    + right. left. eauto 6.
    + left. specialize (Hkeep r Hi ltac:(lia)).
      destruct resp as [[next ms]|]; [destruct received|]; done.
Qed.

(** * C31 *)

(** C31, what cancellations remove: when messages arrive, only unread messages
    (beyond the last position read) whose key is cancelled in the batch leave
    the inbox; and a message of the batch is not stored only if its key is
    cancelled in the batch, and an unread message with that key was removed or
    the batch holds the request as well. Everything else is stored in order. *)
Theorem C31_only_unread_is_removed hs msgs gap :
  Forall (other u d) hs ->
  let v := run u d hs in
  let v' := run u d (hs ++ [Arrive u d msgs gap true]) in
  let unack := default 0 (d_ack (v_db v) !! (u, d)) in
  let removed r := inbox u d v r /\ ~ inbox u d v' r in
  let cancelled k := exists c, In c msgs /\ act_of c = Cancel /\ key_of c = Some k in
  (forall r, removed r ->
     unack < w_pos r /\ exists k, key_of (w_msg r) = Some k /\ cancelled k)
  /\ exists rows stored,
       (forall r, In r rows -> inbox u d v' r) /\ map w_msg rows = stored
       /\ ascending rows /\ (forall r r', In r rows -> inbox u d v r' -> w_pos r' < w_pos r)
       /\ sublist stored msgs
       /\ forall m, In m msgs -> In m stored \/
            exists k, key_of m = Some k /\ cancelled k
              /\ ((exists r, removed r /\ key_of (w_msg r) = Some k)
                  \/ exists q, In q msgs /\ act_of q = Request /\ key_of q = Some k).
Proof using.
  intros Ho v v' unack removed cancelled.
  assert (Ev' : v' = step u d v (Arrive u d msgs gap true)).
  { unfold v', run. by rewrite fold_left_app. }
  destruct (run_inv u d hs Ho) as [log Hinv]. fold v in Hinv.
  destruct Hinv as ((Hw1 & Hw2 & Hw3) & _).
  assert (Hcan : forall k, k ∈ keys_with Cancel msgs <-> cancelled k).
  { intros k. unfold keys_with. rewrite elem_of_list_omap. split.
    - intros (c & Hc & Hk). exists c. apply elem_of_list_In in Hc. destruct (act_of c); done.
    - intros (c & Hc & Ha & Hk). exists c. apply elem_of_list_In in Hc. by rewrite Ha. }
  assert (Hreq : forall k, k ∈ keys_with Request msgs <->
    exists q, In q msgs /\ act_of q = Request /\ key_of q = Some k).
  { intros k. unfold keys_with. rewrite elem_of_list_omap. split.
    - intros (c & Hc & Hk). exists c. apply elem_of_list_In in Hc. destruct (act_of c); done.
    - intros (c & Hc & Ha & Hk). exists c. apply elem_of_list_In in Hc. by rewrite Ha. }
  pose proof (insert_shape (v_db v) u d msgs gap true) as Hsh. cbn zeta in Hsh.
  fold unack in Hsh. destruct Hsh as [[? _]|(_ & _ & rows & Er & Has & Hp & Hs & Hmm & Hk)]; [done|].
  assert (Ein : forall r, inbox u d v' r <->
    (In r (d_rows (v_db v)) /\ is_cancelled (keys_with Cancel msgs) u d unack r = false
     \/ In r rows) /\ w_user r = u /\ w_dev r = d).
  { intros r. unfold inbox. rewrite Ev'. cbn [step v_db]. rewrite Er, in_app_iff, filter_In, negb_true_iff.
    tauto. }
  assert (Hrem : forall r, removed r ->
    is_cancelled (keys_with Cancel msgs) u d unack r = true).
  { intros r [[H1 H2] H3]. destruct (is_cancelled _ u d unack r) eqn:E; [reflexivity|].
    exfalso. apply H3. apply Ein. split; [left; done|done]. }
  assert (Hhit : forall k, k ∈ omap w_key (List.filter (is_cancelled (keys_with Cancel msgs) u d unack)
      (d_rows (v_db v))) -> exists r, removed r /\ key_of (w_msg r) = Some k).
  { intros k Hk'. apply elem_of_list_omap in Hk' as (r & Hr & Hkr). exists r.
    apply elem_of_list_In, filter_In in Hr as [Hr Hc]. destruct (Hw3 r Hr) as (Hpos & Hkk & _).
    split; [|congruence]. pose proof Hc as Hc'. unfold is_cancelled in Hc'. rewrite !andb_true_iff in Hc'.
    destruct Hc' as [[[_ E2] E3] _]. apply bool_decide_eq_true in E2, E3.
    split; [done|]. intros Hx. apply Ein in Hx as [[[_ Hx]|Hx] _]; [congruence|].
    specialize (Hp r Hx). lia. }
  split.
  - intros r Hr. pose proof (Hrem r Hr) as Hc. unfold is_cancelled in Hc. rewrite !andb_true_iff in Hc.
    destruct Hc as [[[E1 _] _] E4]. split; [lia|]. destruct Hr as [[Hr _] _].
    destruct (Hw3 r Hr) as (_ & Hkk & _). unfold mem_key in E1. rewrite Hkk in E1.
    destruct (key_of (w_msg r)) as [k|]; [|done]. exists k. split; [reflexivity|].
    apply Hcan. by apply bool_decide_eq_true in E1.
  - exists rows, (map w_msg rows). split; [|split; [reflexivity|split; [exact Has|split; [|split]]]].
    + intros r Hr. apply Ein. destruct (Hk r Hr) as (? & ? & _). auto.
    + intros r r' Hr [Hr' _]. specialize (Hp r Hr). specialize (Hw3 r' Hr'). lia.
    + rewrite Hmm. generalize (fun m => negb (left_out (omap w_key (List.filter
        (is_cancelled (keys_with Cancel msgs) u d unack) (d_rows (v_db v))))
        (keys_with Request msgs) (keys_with Cancel msgs) m)). clear. intros f.
      induction msgs as [|m l IH]; [constructor|]. cbn [List.filter].
      destruct (f m); by constructor.
    + intros m Hm. rewrite Hmm. rewrite filter_In. set (lo := left_out _ _ _ m).
      destruct lo eqn:E; [right|left; done]. unfold lo, left_out in E.
      destruct (key_of m) as [k|] eqn:Ek; [|done]. exists k. split; [reflexivity|].
      apply orb_true_iff in E as [E|E].
      * cbn in E. apply bool_decide_eq_true in E. destruct (Hhit k E) as (r & Hr & Hkr).
        split; [|left; eauto]. pose proof (Hrem r Hr) as Hc. unfold is_cancelled in Hc.
        rewrite !andb_true_iff in Hc. destruct Hc as [[[E1 _] _] _].
        destruct Hr as [[Hr _] _]. destruct (Hw3 r Hr) as (_ & Hkk & _).
        rewrite Hkk, Hkr in E1. apply Hcan. by apply bool_decide_eq_true in E1.
      * apply andb_true_iff in E as [E1 E2]. cbn in E1, E2.
        apply bool_decide_eq_true in E1, E2. split; [by apply Hcan|right; by apply Hreq].
Qed.

(** At most as many rows about a key as messages about it arrived. *)
Definition with_key (k : string) (r : row) : bool := mine u d r && bool_decide (w_key r = Some k).

Lemma about_snoc k hs h : about u d k (hs ++ [h]) = about u d k hs ++ about u d k [h].
Proof using. unfold about. by rewrite map_app, concat_app. Qed.

Lemma filter_length_le {A} (f g : A -> bool) l :
  (forall x, f x = true -> g x = true) -> (length (List.filter f l) <= length (List.filter g l))%nat.
Proof using.
  intros H. induction l as [|x l IH]; [reflexivity|]. cbn [List.filter].
  destruct (f x) eqn:E; [rewrite (H x E); cbn; lia|]. destruct (g x); cbn; lia.
Qed.

Lemma keyed_rows_bound k hs :
  Forall (other u d) hs ->
  (length (List.filter (with_key k) (d_rows (v_db (run u d hs)))) <= length (about u d k hs))%nat.
Proof using.
  induction hs as [|h hs IH] using rev_ind; intros Ho; [cbn; lia|].
  apply Forall_app in Ho as [Ho Hh]. specialize (IH Ho).
  rewrite about_snoc, app_length. unfold run in *. rewrite fold_left_app. cbn [fold_left].
  set (v := fold_left (step u d) hs world0) in *. clearbody v.
  assert (Hsync : forall u' d' since limit w,
    (length (List.filter (with_key k) (d_rows (ProcessInitial (v_db v) (v_mem v) u' d' since limit w).1.1))
     <= length (List.filter (with_key k) (d_rows (v_db v))))%nat).
  { intros. pose proof (process_shape (v_db v) (v_mem v) u' d' since limit w) as P. cbn zeta in P.
    destruct (ProcessInitial (v_db v) (v_mem v) u' d' since limit w) as [[s' mem'] resp].
    cbn [fst]. destruct P as (del & -> & _). rewrite filter_filter. apply filter_length_le.
    intros x E. by apply andb_true_iff in E as [? _]. }
  destruct h as [u' d' msgs gap ok|u' d' since limit w| |limit w received].
  - cbn [step v_db].
    destruct (insert_shape (v_db v) u' d' msgs gap ok) as [(-> & -> & _)|(-> & _ & rows & -> & _ & _ & _ & Hmm & Hk)];
      [lia|].
    rewrite List.filter_app, app_length, filter_filter.
    assert (H1 : (length (List.filter (fun r => with_key k r &&
       negb (is_cancelled (keys_with Cancel msgs) u' d' (default 0%Z (d_ack (v_db v) !! (u', d'))) r)) (d_rows (v_db v)))
       <= length (List.filter (with_key k) (d_rows (v_db v))))%nat).
    { apply filter_length_le. intros x E. by apply andb_true_iff in E as [? _]. }
    assert (H2 : (length (List.filter (with_key k) rows) <= length (about u d k [Arrive u' d' msgs gap true]))%nat).
    { unfold about. cbn [map concat]. rewrite app_nil_r. destruct (decide (u' = u /\ d' = d)) as [[-> ->]|Hne].
      - assert (E : length (List.filter (with_key k) rows) =
          length (List.filter (fun m => bool_decide (key_of m = Some k)) (map w_msg rows))).
        { clear -Hk. induction rows as [|r l IH]; [reflexivity|]. cbn [List.filter map].
          destruct (Hk r ltac:(by left)) as (E1 & E2 & E3 & _). unfold with_key at 1.
          unfold mine. rewrite E1, E2, E3, !(bool_decide_true (_ = _)) by done. cbn [andb].
          destruct (bool_decide (key_of (w_msg r) = Some k)); cbn; rewrite IH; auto;
            intros r' Hr'; apply Hk; by right. }
        rewrite E, Hmm. clear.
        generalize (fun m => negb (left_out (omap w_key (List.filter
          (is_cancelled (keys_with Cancel msgs) u d (default 0%Z (d_ack (v_db v) !! (u, d)))) (d_rows (v_db v))))
          (keys_with Request msgs) (keys_with Cancel msgs) m)). intros f.
        induction msgs as [|m l IH]; [reflexivity|]. cbn [List.filter].
        destruct (f m); cbn [List.filter]; destruct (bool_decide (key_of m = Some k)); cbn; lia.
      - assert (E : List.filter (with_key k) rows = []).
        { apply filter_none. intros r Hr. destruct (Hk r Hr) as (E1 & E2 & _).
          unfold with_key. destruct (mine u d r) eqn:Em; [|reflexivity].
          apply mine_spec in Em as [? ?]. exfalso. apply Hne. split; congruence. }
        rewrite E. cbn. lia. }
    lia.
  - cbn [step]. specialize (Hsync u' d' since limit w).
    destruct (ProcessInitial (v_db v) (v_mem v) u' d' since limit w) as [[s' mem'] resp].
    cbn [fst v_db] in *. lia.
  - cbn [step v_db]. lia.
  - cbn [step]. specialize (Hsync u d (v_since v) limit w).
    destruct (ProcessInitial (v_db v) (v_mem v) u d (v_since v) limit w) as [[s' mem'] resp].
    cbn [fst] in Hsync. destruct resp as [[next ms]|]; [destruct received|]; cbn [v_db]; lia.
Qed.

(** C31, as far as it holds: a key request was given to the client; its
    cancellation arrives later. If only one message about that request arrived
    before, none in between, the batch holds just the one cancellation, and
    next_batch never went back in between, then the cancellation is stored (and
    stays until acknowledged, [C30_stays], or cancelled again). *)
Theorem C31_seen_request_is_cancelled_partial h1 limit w received h2 msgs gap k next got r c :
  let hs := h1 ++ Ask limit w received :: h2 in
  Forall (other u d) hs ->
  answer u d (run u d h1) limit w = Some (next, got) ->
  In r got -> key_of (w_msg r) = Some k ->
  length (about u d k h1) = 1%nat -> about u d k h2 = [] ->
  (forall h2a limit' w' received' h2b next' got',
     h2 = h2a ++ Ask limit' w' received' :: h2b ->
     answer u d (run u d (h1 ++ Ask limit w received :: h2a)) limit' w' = Some (next', got') ->
     next <= next') ->
  List.filter (fun m => bool_decide (key_of m = Some k)) msgs = [c] -> act_of c = Cancel ->
  exists r', inbox u d (run u d (hs ++ [Arrive u d msgs gap true])) r' /\ w_msg r' = c.
Proof using.
  intros hs Ho Hans Hr Hkr H1 H2 Hmono Hc Hact.
  assert (Ho1 : Forall (other u d) h1) by (unfold hs in Ho; by apply Forall_app in Ho as [? _]).
  (* Invariant after the request: the position read is at least [next], and
     every message about the key is at most [next]. *)
  assert (G : forall l, (exists l', h2 = l ++ l') ->
    let v := run u d (h1 ++ Ask limit w received :: l) in
    next <= default 0 (d_ack (v_db v) !! (u, d))
    /\ (forall x, In x (d_rows (v_db v)) -> with_key k x = true -> w_pos x <= next)).
  { induction l as [|h l IH] using rev_ind; intros [l' El'] v.
    - subst v. destruct (run_inv u d h1 Ho1) as [log (Hw & Hsi & _)].
      pose proof (keyed_rows_bound k h1 Ho1) as Hb. rewrite H1 in Hb.
      unfold answer in Hans. unfold run. rewrite fold_left_app. cbn [fold_left].
      change (fold_left (step u d) h1 world0) with (run u d h1).
      set (v1 := run u d h1) in *. cbn [step].
      pose proof (process_shape (v_db v1) (v_mem v1) u d (v_since v1) limit w) as P. cbn zeta in P.
      destruct (ProcessInitial (v_db v1) (v_mem v1) u d (v_since v1) limit w) as [[s' mem'] resp] eqn:E.
      cbn [snd] in Hans. subst resp.
      destruct (ask_reads u d _ _ _ _ _ _ _ _ _ Hw (proj1 Hsi) E) as (Hin & _).
      destruct (ask_deletes u d _ _ _ _ _ _ _ _ E) as (_ & Hsub & _).
      apply Hin in Hr as (Hri & Hrm & _ & Hrn).
      destruct P as (_ & _ & _ & _ & _ & _ & Hack & _).
      assert (Hrk : with_key k r = true).
      { unfold with_key. rewrite Hrm. cbn. apply bool_decide_eq_true.
        destruct Hw as (_ & _ & Hw). destruct (Hw r Hri) as (_ & -> & _). exact Hkr. }
      assert (Hall : forall x, In x (d_rows (v_db v1)) -> with_key k x = true -> x = r).
      { intros x Hx Hxk.
        assert (In x (List.filter (with_key k) (d_rows (v_db v1)))) by (apply filter_In; done).
        assert (In r (List.filter (with_key k) (d_rows (v_db v1)))) by (apply filter_In; done).
        destruct (List.filter (with_key k) (d_rows (v_db v1))) as [|y [|z l]]; [done| |cbn in Hb; lia].
        destruct H as [->|[]], H0 as [->|[]]. reflexivity. }
      destruct received; cbn [v_db]; rewrite Hack; cbn [default from_option id];
        (split; [lia|]); intros x Hx Hxk; apply Hsub in Hx; rewrite (Hall x Hx Hxk); exact Hrn.
    - subst v. assert (Hpre : exists l', h2 = l ++ l') by (exists (h :: l'); rewrite El', <- app_assoc; reflexivity).
      destruct (IH Hpre) as [IH1 IH2]. clear IH.
      assert (Eapp : h1 ++ Ask limit w received :: l ++ [h] = (h1 ++ Ask limit w received :: l) ++ [h])
        by (rewrite <- app_assoc; reflexivity).
      rewrite Eapp. unfold run. rewrite fold_left_app. cbn [fold_left].
      change (fold_left (step u d) (h1 ++ Ask limit w received :: l) world0)
        with (run u d (h1 ++ Ask limit w received :: l)).
      assert (Hho : other u d h).
      { assert (Hin : h ∈ hs) by (unfold hs; rewrite El'; apply elem_of_app; right; right;
          apply elem_of_app; left; apply elem_of_app; right; by left).
        rewrite Forall_forall in Ho. by apply Ho. }
      assert (Hab : about u d k [h] = []).
      { assert (E : about u d k h2 = about u d k l ++ about u d k [h] ++ about u d k l').
        { rewrite El'. unfold about. rewrite !map_app, !concat_app, <- app_assoc. reflexivity. }
        rewrite H2 in E. symmetry in E. apply app_eq_nil in E as [_ E]. by apply app_eq_nil in E as [E _]. }
      pose proof (Hmono l) as Hm. set (v := run u d (h1 ++ Ask limit w received :: l)) in *.
      clearbody v.
      destruct h as [u' d' ms g ok|u' d' since lim' w'| |lim' w' rec'].
      + cbn [step v_db].
        destruct (insert_shape (v_db v) u' d' ms g ok) as [(-> & -> & _ & ->)|(-> & -> & rows & -> & _ & _ & _ & Hmm & Hk)];
          [done|]. split; [exact IH1|]. intros x Hx Hxk. apply in_app_or in Hx as [Hx|Hx].
        { apply filter_In in Hx as [Hx _]. by apply IH2. }
        exfalso. destruct (Hk x Hx) as (E1 & E2 & E3 & _). unfold with_key in Hxk.
        apply andb_true_iff in Hxk as [Hxm Hxk]. apply bool_decide_eq_true in Hxk.
        apply mine_spec in Hxm as [M1 M2].
        unfold about in Hab. cbn [map concat] in Hab. rewrite app_nil_r in Hab.
        rewrite decide_True in Hab by (split; congruence).
        assert (Hxm : In (w_msg x) (map w_msg rows)) by (by apply in_map).
        rewrite Hmm in Hxm. apply filter_In in Hxm as [Hxm _].
        assert (In (w_msg x) (List.filter (fun m => bool_decide (key_of m = Some k)) ms)).
        { apply filter_In. split; [done|]. apply bool_decide_eq_true. congruence. }
        by rewrite Hab in H.
      + cbn [step]. pose proof (process_shape (v_db v) (v_mem v) u' d' since lim' w') as P. cbn zeta in P.
        destruct (ProcessInitial (v_db v) (v_mem v) u' d' since lim' w') as [[s' mem'] resp].
        destruct P as (del & Er & _ & _ & Hacks & _). cbn [v_db].
        rewrite Hacks by (intros E; by apply Hho). split; [exact IH1|].
        intros x Hx. rewrite Er in Hx. apply filter_In in Hx as [Hx _]. by apply IH2.
      + cbn [step v_db]. done.
      + cbn [step]. pose proof (process_shape (v_db v) (v_mem v) u d (v_since v) lim' w') as P. cbn zeta in P.
        specialize (Hm lim' w' rec' l'). unfold answer in Hm.
        destruct (ProcessInitial (v_db v) (v_mem v) u d (v_since v) lim' w') as [[s' mem'] resp].
        destruct P as (del & Er & _ & _ & _ & P). cbn [snd] in Hm.
        destruct resp as [[n' g']|].
        * destruct P as (_ & Hack & _).
          assert (Hn' : next <= n').
          { apply (Hm n' g'); [|reflexivity]. rewrite El', <- app_assoc. reflexivity. }
          destruct rec'; cbn [v_db]; rewrite Hack; cbn [default from_option id];
            (split; [lia|]); intros x Hx; rewrite Er in Hx; apply filter_In in Hx as [Hx _]; by apply IH2.
        * destruct P as [_ Hack]. cbn [v_db]. rewrite Hack. split; [exact IH1|].
          intros x Hx. rewrite Er in Hx. apply filter_In in Hx as [Hx _]. by apply IH2. }
  destruct (G h2) as [G1 G2]; [exists []; by rewrite app_nil_r|]. fold hs in G1, G2.
  destruct (run_inv u d hs Ho) as [log ((_ & _ & Hw) & _)].
  unfold run. rewrite fold_left_app. cbn [fold_left].
  change (fold_left (step u d) hs world0) with (run u d hs).
  set (v := run u d hs) in *. cbn [step].
  pose proof (insert_shape (v_db v) u d msgs gap true) as Hsh. cbn zeta in Hsh.
  destruct Hsh as [[? _]|(_ & _ & rows & Er & _ & _ & _ & Hmm & Hk)]; [done|].
  assert (Hcin : In c msgs /\ key_of c = Some k).
  { assert (Hx : In c (List.filter (fun m => bool_decide (key_of m = Some k)) msgs)) by (rewrite Hc; by left).
    apply filter_In in Hx as [? Hx]. by apply bool_decide_eq_true in Hx. }
  destruct Hcin as [Hcin Hck].
  assert (Hst : In c (map w_msg rows)).
  { rewrite Hmm. apply filter_In. split; [exact Hcin|]. apply negb_true_iff.
    unfold left_out. rewrite Hck. apply orb_false_iff. split.
    - cbn. apply bool_decide_eq_false. intros Hx. apply elem_of_list_omap in Hx as (x & Hx & Hxk).
      apply elem_of_list_In, filter_In in Hx as [Hx Hxc]. unfold is_cancelled in Hxc.
      rewrite !andb_true_iff in Hxc. destruct Hxc as [[[_ E2] E3] E4].
      assert (w_pos x <= next); [|lia]. apply G2; [exact Hx|]. unfold with_key, mine.
      rewrite E2, E3. cbn. by apply bool_decide_eq_true.
    - apply andb_false_iff. left. cbn. apply bool_decide_eq_false. intros Hx.
      unfold keys_with in Hx. apply elem_of_list_omap in Hx as (q & Hq & Hqk).
      destruct (act_of q) eqn:Eq; try done. apply elem_of_list_In in Hq.
      assert (Hy : In q (List.filter (fun m => bool_decide (key_of m = Some k)) msgs)).
      { apply filter_In. split; [exact Hq|]. by apply bool_decide_eq_true. }
      rewrite Hc in Hy. destruct Hy as [->|[]]. congruence. }
  apply in_map_iff in Hst as (r' & Er' & Hr'). exists r'. split; [|exact Er'].
  destruct (Hk r' Hr') as (? & ? & _). split; [|done]. cbn [v_db]. rewrite Er.
  apply in_or_app. by right.
Qed.
End props.
Print Assumptions C30_read.
Print Assumptions C30_nothing_is_lost.
Print Assumptions C30_received_once_and_in_order.
Print Assumptions C30_stays.
Print Assumptions C31_only_unread_is_removed.
Print Assumptions C31_seen_request_is_cancelled_partial.

(** A working server answers any request with a limit that is not negative. *)
Theorem C30_answers u d v limit :
  0 <= limit -> exists next msgs,
  answer u d v limit (mk_weather true true true) = Some (next, msgs).
Proof.
  intros Hl. unfold answer, ProcessInitial. cbn [ok_read ok_ack ok_delete negb].
  unfold Messages. destruct (Z.eqb_spec limit 0) as [->|Hne].
  - eexists _, _. reflexivity.
  - destruct (Z.ltb_spec limit 0); [lia|]. eexists _, _. reflexivity.
Qed.

(** * Cases *)
Definition fine : weather := mk_weather true true true.
Definition hello (t : string) : msg := mk_msg "m.room.encrypted" "@a:x" "" "" "" t.
Definition asks (dev id : string) : msg := mk_msg "m.room_key_request" "@a:x" "request" dev id "".
Definition cancels (dev id : string) : msg :=
  mk_msg "m.room_key_request" "@a:x" "request_cancellation" dev id "".
Definition in1 (msgs : list msg) : happening := Arrive "@u:x" "D" msgs (fun _ => 0%nat) true.
Definition got_rests (v : world) : list (Z * string) :=
  map (fun r => (w_pos r, g_rest (w_msg r))) (v_got v).

(** Limits, a lost response, a failed write, another device, then a restart. *)
Definition story : list happening :=
  [in1 [hello "a"; hello "b"; asks "DD" "1"]; Arrive "@u:x" "E" [hello "z"] (fun _ => 0%nat) true;
   Ask 1 fine true; Ask 0 fine false; Arrive "@u:x" "D" [hello "c"] (fun _ => 0%nat) false;
   OtherSync "@v:x" "D" (Some 2) 0 fine; in1 [cancels "DD" "1"; hello "d"];
   Ask 0 (mk_weather false true true) true].
Example C30_story : Forall (other "@u:x" "D") story /\ ~ In Restart story
  /\ got_rests (run "@u:x" "D" story) = [(1, "a"); (2, "b"); (3, ""); (5, ""); (6, "d")]
  /\ map g_rest (arrived "@u:x" "D" story) = ["a"; "b"; "d"].
Proof.
  split; [|split; [|split]]; [| |vm_compute; reflexivity|vm_compute; reflexivity].
  - unfold story. repeat (apply Forall_cons_2; [try done|]). by apply Forall_nil_2.
  - unfold story. intros H. cbn in H. intuition discriminate.
Qed.

(** A restart makes the server forget that it knows the device: it reads from
    the start, so messages received before come again. *)
Example C30_restart_repeats :
  exists hs, Forall (other "@u:x" "D") hs
  /\ got_rests (run "@u:x" "D" hs) = [(1, "a"); (1, "a")].
Proof.
  exists [in1 [hello "a"]; Ask 0 fine true; Restart; Ask 0 fine true]. split.
  - repeat (apply Forall_cons_2; [done|]). by apply Forall_nil_2.
  - vm_compute. reflexivity.
Qed.

(** Positive case of C31: the request is seen, then cancelled; and an unseen
    request disappears together with its cancellation. *)
Example C31_seen_then_cancelled :
  map (fun r => g_action (w_msg r))
    (v_got (run "@u:x" "D" [in1 [asks "DD" "1"]; Ask 0 fine true; in1 [hello "x"];
                            in1 [cancels "DD" "1"]; Ask 0 fine true]))
  = ["request"; ""; "request_cancellation"].
Proof. vm_compute. reflexivity. Qed.
Example C31_guard_met :
  let h1 := [in1 [hello "y"; asks "DD" "1"]] in let h2 := [in1 [hello "x"]; Restart] in
  let k := "m.room_key_request-@a:x-DD-1" in
  (exists next got r, answer "@u:x" "D" (run "@u:x" "D" h1) 0 fine = Some (next, got)
     /\ In r got /\ key_of (w_msg r) = Some k)
  /\ length (about "@u:x" "D" k h1) = 1%nat /\ about "@u:x" "D" k h2 = []
  /\ (forall h2a limit' w' received' h2b, h2 <> h2a ++ Ask limit' w' received' :: h2b).
Proof.
  split; [|split; [|split]].
  - eexists _, _, _. split; [reflexivity|]. split; [right; left; reflexivity|]. vm_compute. reflexivity.
  - vm_compute. reflexivity.
  - vm_compute. reflexivity.
  - intros [|x [|y [|z h2a]]] l w r b H; inversion H.
Qed.
Example C31_unseen_vanishes :
  let v := run "@u:x" "D" [in1 [asks "DD" "1"; hello "x"]; in1 [cancels "DD" "1"; hello "y"]] in
  map (fun r => g_rest (w_msg r)) (d_rows (v_db v)) = ["x"; "y"].
Proof. vm_compute. reflexivity. Qed.

(** * Where C31 fails: the client keeps a request that was cancelled. In each
    history the cancellation arrives after the client got the request. *)

(** The cancellation arrives twice before the client asks again: the second one
    deletes the first and is itself dropped. *)
Theorem C31_cancelled_twice_refuted :
  left_open "@u:x" "D" "m.room_key_request-@a:x-DD-1"
    (run "@u:x" "D" [in1 [asks "DD" "1"]; Ask 0 fine true;
                     in1 [cancels "DD" "1"]; in1 [cancels "DD" "1"]; Ask 0 fine true]) = true.
Proof. vm_compute. reflexivity. Qed.

(** The poller repeats a batch (its since token was not stored), now with the
    cancellation in it. *)
Theorem C31_repeated_batch_refuted :
  left_open "@u:x" "D" "m.room_key_request-@a:x-DD-1"
    (run "@u:x" "D" [in1 [asks "DD" "1"]; Ask 0 fine true;
                     in1 [asks "DD" "1"; cancels "DD" "1"]; Ask 0 fine true]) = true.
Proof. vm_compute. reflexivity. Qed.

(** After a restart the client's since token is ignored, a small limit moves
    the position back below a request the client has. *)
Theorem C31_restart_refuted :
  left_open "@u:x" "D" "m.room_key_request-@a:x-DD-1"
    (run "@u:x" "D" [in1 [hello "a"; asks "DD" "1"]; Ask 0 fine true; Restart; Ask 1 fine true;
                     in1 [cancels "DD" "1"]; Ask 0 fine true]) = true.
Proof. vm_compute. reflexivity. Qed.

(** The key joins the fields with dashes: cancelling request "B-1" of device
    "A" when request "1" of device "A-B" waits unread removes that one, and the
    cancellation is not stored. *)
Theorem C31_key_collision_refuted :
  key_of (asks "A-B" "1") = key_of (asks "A" "B-1")
  /\ left_open "@u:x" "D" "m.room_key_request-@a:x-A-B-1"
    (run "@u:x" "D" [in1 [asks "A" "B-1"]; Ask 0 fine true; in1 [asks "A-B" "1"];
                     in1 [cancels "A" "B-1"]; Ask 0 fine true]) = true.
Proof. split; vm_compute; reflexivity. Qed.

(** The messages are read before the position read is stored
    (todevice.go:113-127): a cancellation that arrives in between removes the
    request which is already on its way to the client. *)
Theorem C31_race_refuted :
  let s1 := InsertMessages tdb0 "@u:x" "D" [asks "DD" "1"] (fun _ => 0%nat) true in
  let sent := Messages s1 "@u:x" "D" 0 100 in
  let s2 := InsertMessages s1 "@u:x" "D" [cancels "DD" "1"] (fun _ => 0%nat) true in
  let s3 := SetUnacked s2 "@u:x" "D" 1 in
  option_map (fun p => map (fun r => g_action (w_msg r)) p.1) sent = Some ["request"]
  /\ length (d_rows s3) = 0%nat.
Proof. split; vm_compute; reflexivity. Qed.

(** A request made again after a cancellation, in one batch: both are dropped,
    so the client never sees the request that is still open. *)
Theorem C31_asked_again_refuted :
  let v := run "@u:x" "D" [in1 [cancels "DD" "1"; asks "DD" "1"]] in
  length (d_rows (v_db v)) = 0%nat.
Proof. vm_compute. reflexivity. Qed.
Print Assumptions C30_answers.
Print Assumptions C31_cancelled_twice_refuted.
Print Assumptions C31_repeated_batch_refuted.
Print Assumptions C31_restart_refuted.
Print Assumptions C31_key_collision_refuted.
Print Assumptions C31_race_refuted.
Print Assumptions C31_asked_again_refuted.
