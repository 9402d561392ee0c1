(** C44: the connection map. *)
From Verif Require Import Prelude RecvModel RecvSpec RecvProps CmapModel CmapSpec.
Open Scope string_scope. Open Scope list_scope. Open Scope nat_scope.

Lemma key_inj i j : plain i -> plain j -> key i = key j -> i = j.
Proof.
  intros [H1 H2] [H3 H4] H. apply (acct_key_inj _ _ _ _ _ _ H1 H2 H3 H4) in H as (E1 & E2 & E3).
  destruct i, j; cbn in *; by subst.
Qed.

(** ** What is in the cache *)

Definition wf (m : cmap) : Prop :=
  (forall k c, m_cache m !! k = Some c -> ckey c = k /\ x_serial c < m_next m)
  /\ (forall c, In c (m_pending m) -> x_serial c < m_next m).

Lemma wf_close m c : wf m -> wf (closeConn m c).
Proof. done. Qed.
Lemma wf_get m i : wf m -> wf (getConn m i).1.
Proof.
  intros H. unfold getConn. destruct (m_cache m !! key i) as [c|]; [|done]. by destruct (bool_decide _).
Qed.
Lemma wf_remove m k : wf m -> wf (remove m k).
Proof.
  intros [H1 H2]. unfold remove. destruct (m_cache m !! k) as [c|] eqn:E; [|done]. split; cbn.
  - intros k' c' H. apply lookup_delete_Some in H as [_ H]. by apply H1.
  - intros c' H. apply in_app_or in H as [H|[<-|[]]]; [by apply H2|]. by apply (H1 k).
Qed.
Lemma get_facts m i : m_cache (getConn m i).1 = m_cache m /\ m_next (getConn m i).1 = m_next m
  /\ m_pending (getConn m i).1 = m_pending m /\ m_dead (getConn m i).1 = m_dead m.
Proof.
  unfold getConn. destruct (m_cache m !! key i) as [c|]; [|done]. by destruct (bool_decide _).
Qed.
(** The state of createConn before the new connection is put in. *)
Definition cleared (m : cmap) (i : connid) : cmap :=
  match (getConn m i).2 with Some c => closeConn (getConn m i).1 c | None => (getConn m i).1 end.
Lemma create_eq m i : createConn m i =
  (mk_cmap (<[key i := mk_conn (m_next (cleared m i)) i]> (m_cache (cleared m i)))
     (<[key i := mk_conn (m_next (cleared m i)) i]> (m_byid (cleared m i)))
     (<[x_user i := conns_of (cleared m i) (x_user i) ++ [mk_conn (m_next (cleared m i)) i]]> (m_byuser (cleared m i)))
     (m_pending (cleared m i)) (m_dead (cleared m i)) (m_destroyed (cleared m i)) (S (m_next (cleared m i))),
   mk_conn (m_next (cleared m i)) i).
Proof. unfold createConn, cleared. destruct (getConn m i) as [m' [c|]]; done. Qed.
Lemma cleared_facts m i : m_cache (cleared m i) = m_cache m /\ m_next (cleared m i) = m_next m
  /\ m_pending (cleared m i) = m_pending m /\ m_dead (cleared m i) = m_dead m.
Proof. unfold cleared. destruct ((getConn m i).2); apply (get_facts m i). Qed.

Lemma wf_closeUsers us : forall m, wf m -> wf (closeUsers m us).
Proof.
  unfold closeUsers. induction us as [|u us IH]; intros m H; [done|]. cbn [fold_left]. apply IH.
  generalize (conns_of m u). intros l. revert m H. induction l as [|c l IHl]; intros m H; [done|].
  cbn [fold_left]. apply IHl. by apply wf_remove.
Qed.
Lemma wf_step m o : wf m -> wf (step m o).
Proof.
  intros H. destruct o as [i|i|k|n|us|c]; cbn [step].
  - by apply wf_get.
  - rewrite create_eq. cbn [fst]. destruct (cleared_facts m i) as (E1 & E2 & E3 & _).
    destruct H as [H1 H2]. split; cbn; rewrite ?E1, ?E2, ?E3.
    + intros k c Hl. destruct (decide (key i = k)) as [<-|Hk].
      * rewrite lookup_insert in Hl. inversion Hl; subst. cbn. split; [done|lia].
      * rewrite lookup_insert_ne in Hl by done. destruct (H1 k c Hl). split; [done|lia].
    + intros c Hc. specialize (H2 c Hc). lia.
  - by apply wf_remove.
  - unfold callback. destruct (m_pending m !! n) as [c|] eqn:E; [|done]. apply wf_close.
    destruct H as [H1 H2]. split; cbn; [done|]. intros c' Hc. apply H2.
    apply in_app_or in Hc as [Hc|Hc].
    + rewrite <- (take_drop n (m_pending m)). apply in_or_app. by left.
    + rewrite <- (take_drop (S n) (m_pending m)). apply in_or_app. by right.
  - by apply wf_closeUsers.
  - done.
Qed.
Lemma wf_run os : forall m, wf m -> wf (run m os).
Proof. induction os as [|o os IH]; intros m H; [done|]. cbn. apply IH. by apply wf_step. Qed.
Lemma wf_init : wf cmap0.
Proof. split; [|done]. intros k c H. cbn in H. by rewrite lookup_empty in H. Qed.

(** C44. A connection that is found is alive and has the key that was asked for;
    if the IDs have no separator in their user and device, it has the ID itself.
    This holds in every history. *)
Theorem C44_found os i c :
  (getConn (run cmap0 os) i).2 = Some c ->
  alive (run cmap0 os) c /\ key (x_id c) = key i /\ (plain i -> plain (x_id c) -> x_id c = i).
Proof.
  pose proof (wf_run os cmap0 wf_init) as [H1 _]. set (m := run cmap0 os) in *.
  unfold getConn, alive. destruct (m_cache m !! key i) as [d|] eqn:E; [|done].
  case_bool_decide as Hd; [done|]. cbn. intros [= ->]. destruct (H1 _ _ E) as [Hk _].
  split; [by rewrite <- elem_of_list_In|]. split; [exact Hk|]. intros Hp Hq. by apply key_inj.
Qed.
Print Assumptions C44_found.

(** What leaves the cache never comes back. *)
Lemma gone_remove m k c : m_cache (remove m k) !! ckey c = Some c -> m_cache m !! ckey c = Some c.
Proof.
  unfold remove. destruct (m_cache m !! k) as [d|]; [|done]. cbn. intros H. by apply lookup_delete_Some in H as [_ H].
Qed.
Lemma gone_closeUsers us c : forall m, m_cache (closeUsers m us) !! ckey c = Some c -> m_cache m !! ckey c = Some c.
Proof.
  unfold closeUsers. induction us as [|u us IH]; intros m H; [done|]. cbn [fold_left] in H. apply IH in H.
  revert H. generalize (conns_of m u). intros l. revert m. induction l as [|d l IHl]; intros m H; [done|].
  cbn [fold_left] in H. apply IHl in H. by apply gone_remove in H.
Qed.
Lemma next_closeUsers us : forall m, m_next (closeUsers m us) = m_next m.
Proof.
  unfold closeUsers. induction us as [|u us IH]; intros m; [done|]. cbn [fold_left]. rewrite IH.
  generalize (conns_of m u). intros l. revert m. induction l as [|d l IHl]; intros m; [done|].
  cbn [fold_left]. rewrite IHl. unfold remove. by destruct (m_cache m !! ckey d).
Qed.
Lemma gone_step m o c : x_serial c < m_next m -> m_cache m !! ckey c <> Some c ->
  x_serial c < m_next (step m o) /\ m_cache (step m o) !! ckey c <> Some c.
Proof.
  intros Hs Hc. destruct o as [i|i|k|n|us|d]; cbn [step].
  - destruct (get_facts m i) as (-> & -> & _). done.
  - rewrite create_eq. cbn. destruct (cleared_facts m i) as (-> & -> & _). split; [lia|].
    destruct (decide (key i = ckey c)) as [E|E].
    + rewrite E, lookup_insert. intros [= H]. rewrite <- H in Hs. cbn in Hs. lia.
    + by rewrite lookup_insert_ne.
  - split; [unfold remove; by destruct (m_cache m !! k)|]. intros H. apply Hc. by apply gone_remove in H.
  - unfold callback. by destruct (m_pending m !! n).
  - rewrite next_closeUsers. split; [done|]. intros H. apply Hc. by apply gone_closeUsers in H.
  - done.
Qed.
Lemma gone_run os c : forall m, x_serial c < m_next m -> m_cache m !! ckey c <> Some c ->
  m_cache (run m os) !! ckey c <> Some c.
Proof.
  induction os as [|o os IH]; intros m H1 H2; [done|]. cbn. apply gone_step with (o := o) in H2 as [H3 H4]; [|done].
  by apply IH.
Qed.
Lemma usable_cache m c : usable m c -> m_cache m !! ckey c = Some c.
Proof.
  unfold usable, getConn, ckey. destruct (m_cache m !! key (x_id c)) as [d|]; [|done].
  case_bool_decide; [done|]. cbn. by intros [= ->].
Qed.

(** C44. Once a connection's ID has been removed from the cache, as closing and
    expiry do, the connection is never found again, whatever happens. *)
Theorem C44_removed_for_good os c os' i :
  usable (run cmap0 os) c -> (getConn (run cmap0 (os ++ Remove (ckey c) :: os')) i).2 <> Some c.
Proof.
  intros Hu Hg. apply usable_cache in Hu. pose proof (wf_run os cmap0 wf_init) as [H1 _].
  destruct (H1 _ _ Hu) as [_ Hs].
  assert (Hk : key i = ckey c).
  { apply (C44_found (os ++ Remove (ckey c) :: os')) in Hg as (_ & Hk & _). done. }
  assert (Hgone : m_cache (run cmap0 (os ++ Remove (ckey c) :: os')) !! ckey c <> Some c).
  { unfold run. rewrite fold_left_app. cbn [fold_left]. apply gone_run.
    - fold (run cmap0 os). cbn [step]. unfold remove. rewrite Hu. done.
    - fold (run cmap0 os). cbn [step]. unfold remove. rewrite Hu. cbn. rewrite lookup_delete. done. }
  apply Hgone. set (m' := run cmap0 (os ++ Remove (ckey c) :: os')) in *. unfold getConn in Hg. rewrite Hk in Hg.
  destruct (m_cache m' !! ckey c) as [d|]; [|done].
  destruct (bool_decide (d ∈ m_dead m')); [done|]. cbn in Hg. by inversion Hg.
Qed.
Print Assumptions C44_removed_for_good.

(** C44. Creating a connection replaces the one with the same ID: the new one is
    found, the old one was destroyed and is never found again. *)
Theorem C44_create_replaces os i os' j :
  let m := run cmap0 os in let c := (createConn m i).2 in
  x_id c = i /\ ((forall d, In d (m_dead m) -> x_serial d < m_next m) -> (getConn (createConn m i).1 i).2 = Some c)
  /\ (forall d, (getConn m i).2 = Some d ->
        d <> c /\ In d (m_destroyed (createConn m i).1) /\ (getConn (run (createConn m i).1 os') j).2 <> Some d).
Proof.
  cbn zeta. pose proof (wf_run os cmap0 wf_init) as Hwf. pose proof (C44_found os i) as Hfound.
  assert (Hrun : run (createConn (run cmap0 os) i).1 os' = run cmap0 (os ++ Create i :: os')).
  { unfold run. by rewrite fold_left_app. }
  rewrite Hrun.
  set (m := run cmap0 os) in *. rewrite create_eq. cbn [snd fst].
  destruct (cleared_facts m i) as (E1 & E2 & E3 & E4).
  split; [done|]. split.
  - intros Hdead. unfold getConn. cbn [m_cache m_dead]. rewrite lookup_insert, E2, E4.
    rewrite bool_decide_eq_false_2; [done|]. intros Hin. apply elem_of_list_In, Hdead in Hin. cbn in Hin. lia.
  - intros d Hd. destruct (Hfound d Hd) as (_ & Hk & _).
    assert (Hc : m_cache m !! key i = Some d).
    { unfold getConn in Hd. destruct (m_cache m !! key i) as [x|]; [|done]. case_bool_decide; [done|].
      cbn in Hd. by inversion Hd. }
    destruct Hwf as [Hwf _]. destruct (Hwf _ _ Hc) as [_ Hs].
    split; [intros ->; cbn in Hs; lia|]. split.
    + cbn [m_destroyed]. unfold cleared. rewrite Hd. cbn. apply in_or_app. right. by left.
    + intros Hg. assert (Hkj : key j = ckey d).
      { apply C44_found in Hg as (_ & Hkj & _). done. }
      assert (Hgone : m_cache (run cmap0 (os ++ Create i :: os')) !! ckey d <> Some d).
      { unfold run. rewrite fold_left_app. cbn [fold_left]. apply gone_run; fold (run cmap0 os); fold m; cbn [step];
          rewrite create_eq; cbn.
        - rewrite E2. lia.
        - unfold ckey. rewrite Hk, lookup_insert. intros [= H]. rewrite <- H in Hs. cbn in Hs. lia. }
      apply Hgone. set (m' := run cmap0 (os ++ Create i :: os')) in *. unfold getConn in Hg. rewrite Hkj in Hg.
      destruct (m_cache m' !! ckey d) as [x|]; [|done].
      destruct (bool_decide (x ∈ m_dead m')); [done|]. cbn in Hg. by inversion Hg.
Qed.
Print Assumptions C44_create_replaces.

(** ** Histories in which no creation overtakes a callback for its ID *)

(** The maps list the same connections. *)
Definition same (m : cmap) : Prop :=
  (forall k c, m_byid m !! k = Some c -> ckey c = k /\ plain (x_id c) /\ In c (conns_of m (x_user (x_id c))))
  /\ (forall u c, In c (conns_of m u) -> x_user (x_id c) = u /\ m_byid m !! ckey c = Some c).
(** What is in the cache is registered, unless it is dead. *)
Definition good (m : cmap) : Prop :=
  same m
  /\ (forall k c, m_cache m !! k = Some c -> ckey c = k /\ plain (x_id c)
        /\ (m_byid m !! k = Some c \/ (m_byid m !! k = None /\ In c (m_dead m))))
  /\ (forall c, In c (m_pending m) -> plain (x_id c) /\ m_cache m !! ckey c = None)
  /\ (forall k c, m_byid m !! k = Some c -> m_cache m !! k = Some c \/ In c (m_pending m)).

Lemma conns_of_insert m u l v : default [] (<[u := l]> (m_byuser m) !! v) = if decide (u = v) then l else conns_of m v.
Proof. destruct (decide (u = v)) as [->|H]; [by rewrite lookup_insert|by rewrite lookup_insert_ne]. Qed.

Lemma same_close m c : plain (x_id c) -> same m -> same (closeConn m c).
Proof.
  intros Hp [H1 H2]. split.
  - intros k d H. cbn in H. apply lookup_delete_Some in H as [Hne H]. destruct (H1 k d H) as (Hk & Hd & Hin).
    split; [done|]. split; [done|]. unfold conns_of, closeConn. cbn [m_byuser]. rewrite conns_of_insert.
    destruct (decide (x_user (x_id c) = x_user (x_id d))) as [Eu|]; [|done].
    apply filter_In. rewrite Eu. split; [done|]. apply negb_true_iff, andb_false_iff.
    destruct (bool_decide (x_device (x_id d) = x_device (x_id c))) eqn:E1; [|by left].
    destruct (bool_decide (x_cid (x_id d) = x_cid (x_id c))) eqn:E2; [|by right]. exfalso.
    apply bool_decide_eq_true in E1, E2. apply Hne. rewrite <- Hk. unfold ckey, key. by rewrite Eu, E1, E2.
  - intros u d H. unfold conns_of, closeConn in H. cbn [m_byuser] in H. rewrite conns_of_insert in H.
    destruct (decide (x_user (x_id c) = u)) as [<-|Hu].
    + apply filter_In in H as [Hin Hb]. destruct (H2 _ _ Hin) as [Eu Hd]. split; [done|]. cbn.
      rewrite lookup_delete_ne; [done|]. intros Hk.
      apply negb_true_iff in Hb. apply andb_false_iff in Hb.
      destruct (H1 _ _ Hd) as (_ & Hpd & _). apply key_inj in Hk; [|done..].
      rewrite Hk in Hb. by rewrite !bool_decide_eq_true_2 in Hb by done; destruct Hb.
    + destruct (H2 _ _ H) as [Eu Hd]. split; [done|]. cbn. rewrite lookup_delete_ne; [done|].
      intros Hk. destruct (H1 _ _ Hd) as (_ & Hpd & _). apply key_inj in Hk; [|done..]. apply Hu. by rewrite Hk.
Qed.

(** Closing a connection that is not needed in the cache any more. *)
Lemma good_close_dead m k c : m_cache m !! k = Some c -> In c (m_dead m) -> good m -> good (closeConn m c).
Proof.
  intros Hc Hdead (H1 & H2 & H3 & H4). destruct (H2 _ _ Hc) as (Hk & Hp & Hr). split; [by apply same_close|].
  split; [|split].
  - intros k' d Hd. change (m_cache m !! k' = Some d) in Hd. destruct (H2 _ _ Hd) as (Hk' & Hpd & Hrd).
    split; [done|]. split; [done|]. cbn. destruct (decide (ckey c = k')) as [E|E].
    + rewrite E, lookup_delete. right. split; [done|]. assert (d = c) as -> by congruence. done.
    + by rewrite lookup_delete_ne.
  - done.
  - intros k' d Hd. cbn in Hd. apply lookup_delete_Some in Hd as [_ Hd]. by apply H4.
Qed.

Lemma good_get m i : good m -> good (getConn m i).1.
Proof.
  intros H. unfold getConn. destruct (m_cache m !! key i) as [c|] eqn:E; [|done].
  case_bool_decide as Hd; [|done]. cbn. eapply good_close_dead; [done|by apply elem_of_list_In|done].
Qed.

Lemma good_remove m k : good m -> good (remove m k).
Proof.
  intros (H1 & H2 & H3 & H4). unfold remove. destruct (m_cache m !! k) as [c|] eqn:E; [|done].
  destruct (H2 _ _ E) as (Hk & Hp & Hr). split; [done|]. cbn. split; [|split].
  - intros k' d Hd. apply lookup_delete_Some in Hd as [_ Hd]. by apply H2.
  - intros d Hd. apply in_app_or in Hd as [Hd|[<-|[]]].
    + destruct (H3 d Hd). split; [done|]. by rewrite lookup_delete_None; right.
    + split; [done|]. rewrite Hk. by rewrite lookup_delete.
  - intros k' d Hd. destruct (H4 _ _ Hd) as [Hc|Hc].
    + destruct (decide (k = k')) as [<-|Hne].
      * right. apply in_or_app. right. left. congruence.
      * left. by rewrite lookup_delete_ne.
    + right. apply in_or_app. by left.
Qed.
Lemma good_closeUsers us : forall m, good m -> good (closeUsers m us).
Proof.
  unfold closeUsers. induction us as [|u us IH]; intros m H; [done|]. cbn [fold_left]. apply IH.
  generalize (conns_of m u). intros l. revert m H. induction l as [|c l IHl]; intros m H; [done|].
  cbn [fold_left]. apply IHl. by apply good_remove.
Qed.

Lemma good_callback m n : good m -> good (callback m n).
Proof.
  intros (H1 & H2 & H3 & H4). unfold callback. destruct (m_pending m !! n) as [c|] eqn:E; [|done].
  assert (Hin : In c (m_pending m)) by (apply elem_of_list_In; by eapply elem_of_list_lookup_2).
  destruct (H3 c Hin) as [Hp Hnone].
  set (m' := mk_cmap _ _ _ _ _ _ _). assert (Hs : same m') by exact H1.
  split; [by apply same_close|]. cbn. split; [|split].
  - intros k d Hd. destruct (H2 _ _ Hd) as (Hk & Hpd & Hr). split; [done|]. split; [done|].
    rewrite lookup_delete_ne; [done|]. intros Ek. rewrite Ek in Hnone. congruence.
  - intros d Hd. apply H3. apply in_app_or in Hd as [Hd|Hd].
    + rewrite <- (take_drop n (m_pending m)). apply in_or_app. by left.
    + rewrite <- (take_drop (S n) (m_pending m)). apply in_or_app. by right.
  - intros k d Hd. apply lookup_delete_Some in Hd as [Hne Hd]. destruct (H4 _ _ Hd) as [Hc|Hc]; [by left|]. right.
    rewrite <- (take_drop_middle (m_pending m) n c E) in Hc. apply in_app_or in Hc as [Hc|[->|Hc]].
    + apply in_or_app. by left.
    + exfalso. destruct H1 as [H1 _]. destruct (H1 _ _ Hd) as (Hk & _). done.
    + apply in_or_app. by right.
Qed.

Lemma cleared_good m i : plain i -> good m -> (forall c, In c (m_pending m) -> x_id c <> i) ->
  same (cleared m i) /\ m_byid (cleared m i) !! key i = None
  /\ (forall k, k <> key i -> m_byid (cleared m i) !! k = m_byid m !! k).
Proof.
  intros Hp Hg Hq. assert (Hg' := Hg). destruct Hg' as (H1 & H2 & H3 & H4). unfold cleared, getConn.
  destruct (m_cache m !! key i) as [c|] eqn:E; cbn.
  - destruct (H2 _ _ E) as (Hk & Hpc & Hr).
    assert (Hx : same (closeConn m c) /\ m_byid (closeConn m c) !! key i = None
      /\ (forall k, k <> key i -> m_byid (closeConn m c) !! k = m_byid m !! k)).
    { split; [by apply same_close|]. cbn. rewrite Hk. split; [by rewrite lookup_delete|].
      intros k Hne. by rewrite lookup_delete_ne. }
    case_bool_decide; exact Hx.
  - split; [done|]. split; [|done]. destruct (m_byid m !! key i) as [c|] eqn:Eb; [|done]. exfalso.
    destruct (H4 _ _ Eb) as [Hc|Hc]; [congruence|]. destruct H1 as [H1 _]. destruct (H1 _ _ Eb) as (Hk & Hpc & _).
    apply key_inj in Hk; [|done..]. by apply (Hq c Hc).
Qed.

Lemma good_create m i : plain i -> good m -> (forall c, In c (m_pending m) -> x_id c <> i) -> good (createConn m i).1.
Proof.
  intros Hp Hg Hq. destruct (cleared_good m i Hp Hg Hq) as ([S1 S2] & Hnone & Hother).
  destruct Hg as (H1 & H2 & H3 & H4). destruct (cleared_facts m i) as (E1 & E2 & E3 & E4).
  rewrite create_eq. cbn [fst]. set (c := mk_conn _ i). rewrite E1, E3, E4. split; [split|]; cbn [m_byid m_cache m_pending m_dead].
  - intros k d Hd. unfold conns_of. cbn [m_byuser]. rewrite conns_of_insert. destruct (decide (key i = k)) as [<-|Hk].
    + rewrite lookup_insert in Hd. inversion Hd; subst d. split; [done|]. split; [done|].
      cbn. rewrite decide_True by done. apply in_or_app. right. by left.
    + rewrite lookup_insert_ne in Hd by done. destruct (S1 _ _ Hd) as (Hkd & Hpd & Hin). split; [done|]. split; [done|].
      destruct (decide (x_user i = x_user (x_id d))) as [Eu|]; [|done]. rewrite Eu. apply in_or_app. by left.
  - intros u d Hd. unfold conns_of in Hd. cbn [m_byuser] in Hd. rewrite conns_of_insert in Hd.
    assert (Hold : In d (conns_of (cleared m i) u) -> x_user (x_id d) = u /\ <[key i:=c]> (m_byid (cleared m i)) !! ckey d = Some d).
    { intros Hin. destruct (S2 _ _ Hin) as [Eu Hd']. split; [done|]. rewrite lookup_insert_ne; [done|].
      intros Hk. rewrite <- Hk in Hd'. congruence. }
    destruct (decide (x_user i = u)) as [Eu|]; [|by apply Hold].
    apply in_app_or in Hd as [Hd|[<-|[]]]; [apply Hold; by rewrite <- Eu|].
    cbn. split; [done|]. by rewrite lookup_insert.
  - split; [|split].
    + intros k d Hd. destruct (decide (key i = k)) as [<-|Hk].
      * rewrite lookup_insert in Hd. inversion Hd; subst d. split; [done|]. split; [done|]. left. by rewrite lookup_insert.
      * rewrite lookup_insert_ne in Hd by done. destruct (H2 _ _ Hd) as (Hkd & Hpd & Hr). split; [done|]. split; [done|].
        rewrite lookup_insert_ne by done. by rewrite Hother.
    + intros d Hd. destruct (H3 d Hd) as [Hpd Hc]. split; [done|]. rewrite lookup_insert_ne; [done|].
      intros Hk. apply (Hq d Hd). symmetry. by apply key_inj.
    + intros k d Hd. destruct (decide (key i = k)) as [<-|Hk].
      * rewrite lookup_insert in Hd. left. rewrite lookup_insert. done.
      * rewrite lookup_insert_ne in Hd by done. rewrite Hother in Hd by done. rewrite lookup_insert_ne by done. by apply H4.
Qed.

Lemma good_run os : plain_ops os -> quiet os -> good (run cmap0 os).
Proof.
  intros Hp Hq. induction os as [|o os IH] using rev_ind.
  { split; [split|]; cbn.
    - intros k c H. by rewrite lookup_empty in H.
    - intros u c H. unfold conns_of in H. cbn in H. by rewrite lookup_empty in H.
    - split; [|split]; [|done|]; intros k c H; by rewrite lookup_empty in H. }
  assert (IH' : good (run cmap0 os)).
  { apply IH.
    - intros i Hi. apply Hp. apply in_or_app. by left.
    - intros a i b -> c Hc. eapply (Hq a i (b ++ [o])); [by rewrite <- app_assoc|done]. }
  unfold run. rewrite fold_left_app. cbn [fold_left]. fold (run cmap0 os).
  destruct o as [i|i|k|n|us|c]; cbn [step].
  - by apply good_get.
  - apply good_create; [apply Hp; apply in_or_app; right; by left|done|].
    intros c Hc. by eapply (Hq os i []).
  - by apply good_remove.
  - by apply good_callback.
  - by apply good_closeUsers.
  - destruct IH' as (H1 & H2 & H3 & H4). split; [done|]. cbn. split; [|done].
    intros k d Hd. destruct (H2 _ _ Hd) as (Hk & Hpd & [Hr|[Hr Hdd]]); (split; [done|]); (split; [done|]); [by left|].
    right. split; [done|]. by right.
Qed.

(** C44, for histories in which no creation overtakes a callback for its ID, and
    IDs without separators: a connection that is found is registered, so closing
    its device or user and clearing queues reach it.
    Missing: the race, refuted below. *)
Theorem C44_registered_partial os i c :
  plain_ops os -> quiet os -> (getConn (run cmap0 os) i).2 = Some c ->
  registered (run cmap0 os) c /\ In c (reached (run cmap0 os) (x_user (x_id c)))
  /\ In (x_id c) (idsForDevice (run cmap0 os) (x_user (x_id c)) (x_device (x_id c))).
Proof.
  intros Hp Hq Hf. destruct (good_run os Hp Hq) as ([H1 H1'] & H2 & H3 & H4). pose proof (C44_found os i c Hf) as (Hal & Hk & _).
  set (m := run cmap0 os) in *.
  assert (Hc : m_cache m !! key i = Some c).
  { unfold getConn in Hf. destruct (m_cache m !! key i) as [x|]; [|done].
    destruct (bool_decide _); [done|]. cbn in Hf. by inversion Hf. }
  destruct (H2 _ _ Hc) as (Hck & Hpc & [Hr|[_ Hd]]); [|by destruct Hal].
  rewrite <- Hck in Hr. destruct (H1 _ _ Hr) as (_ & _ & Hin). split; [done|]. split; [done|].
  unfold idsForDevice. apply in_map. apply filter_In. split; [done|]. by apply bool_decide_eq_true.
Qed.
Print Assumptions C44_registered_partial.

(** C44, for the same histories: closing a device removes its connections. Let the
    IDs be gathered and, with anything in between, each be removed from the cache.
    Then no connection the device had can be found any more. *)
Theorem C44_close_device_partial os user device os' c i :
  plain_ops os -> quiet os -> usable (run cmap0 os) c -> x_user (x_id c) = user -> x_device (x_id c) = device ->
  (forall j, In j (idsForDevice (run cmap0 os) user device) -> In (Remove (key j)) os') ->
  (getConn (run cmap0 (os ++ os')) i).2 <> Some c.
Proof.
  intros Hp Hq Hu <- <- Hall. destruct (C44_registered_partial os (x_id c) c Hp Hq Hu) as (_ & _ & Hin).
  specialize (Hall _ Hin). apply in_split in Hall as (a & b & ->). intros Hg.
  pose proof (C44_found _ _ _ Hg) as (Hal & Hk & _).
  apply usable_cache in Hu. pose proof (wf_run os cmap0 wf_init) as [Hw _]. destruct (Hw _ _ Hu) as [_ Hs].
  assert (Hc : m_cache (run cmap0 (os ++ a ++ Remove (key (x_id c)) :: b)) !! ckey c = Some c).
  { set (m' := run cmap0 (os ++ a ++ Remove (key (x_id c)) :: b)) in *. unfold getConn in Hg.
    rewrite <- Hk in Hg. unfold ckey. destruct (m_cache m' !! key (x_id c)) as [x|]; [|done].
    destruct (bool_decide _); [done|]. cbn in Hg. by inversion Hg. }
  revert Hc. unfold run. rewrite app_assoc, fold_left_app. cbn [fold_left]. fold (run cmap0 (os ++ a)).
  assert (Hs' : x_serial c < m_next (run cmap0 (os ++ a))).
  { clear -Hs. unfold run. rewrite fold_left_app. fold (run cmap0 os). revert Hs. generalize (run cmap0 os). induction a as [|o a IH]; intros m Hs; [done|].
    cbn. apply IH. clear IH. destruct o as [j|j|k|n|us|d]; cbn [step].
    - by destruct (get_facts m j) as (_ & -> & _).
    - rewrite create_eq. cbn. destruct (cleared_facts m j) as (_ & -> & _). lia.
    - unfold remove. by destruct (m_cache m !! k).
    - unfold callback. by destruct (m_pending m !! n).
    - by rewrite next_closeUsers.
    - done. }
  apply gone_run.
  - cbn [step]. unfold remove. by destruct (m_cache (run cmap0 (os ++ a)) !! key (x_id c)).
  - cbn [step]. unfold remove, ckey. destruct (m_cache (run cmap0 (os ++ a)) !! key (x_id c)) as [x|] eqn:E; cbn [m_cache].
    + by rewrite lookup_delete.
    + by rewrite E.
Qed.
Print Assumptions C44_close_device_partial.

(** C44, for the same histories: closing users makes exactly their connections
    unusable. *)
Theorem C44_close_users_partial os us c :
  plain_ops os -> quiet os -> usable (run cmap0 os) c ->
  (usable (closeUsers (run cmap0 os) us) c <-> ~ In (x_user (x_id c)) us).
Proof.
  intros Hp Hq Hu. pose proof (good_run os Hp Hq) as Hg. set (m := run cmap0 os) in *.
  destruct (C44_registered_partial os (x_id c) c Hp Hq Hu) as ([Hr Hin] & _ & _). fold m in Hr, Hin.
  assert (Hdead0 : ~ c ∈ m_dead m).
  { unfold usable, getConn in Hu. destruct (m_cache m !! key (x_id c)) as [x|]; [|done].
    case_bool_decide as Hx; [done|]. cbn in Hu. by inversion Hu; subst. }
  apply usable_cache in Hu.
  assert (Hpc : plain (x_id c)) by (destruct Hg as ([H1 _] & _); by apply (H1 _ _ Hr)).
  (* removing keys keeps everything but the cache and the queue *)
  assert (Hrm : forall l m0, m_byuser (fold_left (fun m c => remove m (ckey c)) l m0) = m_byuser m0
     /\ m_dead (fold_left (fun m c => remove m (ckey c)) l m0) = m_dead m0
     /\ (m_cache (fold_left (fun m c => remove m (ckey c)) l m0) !! ckey c
         = if decide (ckey c ∈ map ckey l) then None else m_cache m0 !! ckey c)).
  { induction l as [|d l IH]; intros m0; cbn [fold_left map].
    - split; [done|]. split; [done|]. by rewrite decide_False by (intros H; by apply elem_of_nil in H).
    - destruct (IH (remove m0 (ckey d))) as (E1 & E2 & E3). rewrite E1, E2, E3.
      assert (Hrem : m_byuser (remove m0 (ckey d)) = m_byuser m0 /\ m_dead (remove m0 (ckey d)) = m_dead m0
        /\ m_cache (remove m0 (ckey d)) = delete (ckey d) (m_cache m0)).
      { unfold remove. destruct (m_cache m0 !! ckey d) eqn:E; [done|]. split; [done|]. split; [done|]. by rewrite delete_notin. }
      destruct Hrem as (-> & -> & ->). split; [done|]. split; [done|].
      destruct (decide (ckey c ∈ map ckey l)) as [Hx|Hx].
      + by rewrite decide_True by (by apply elem_of_cons; right).
      + destruct (decide (ckey d = ckey c)) as [Hd|Hd].
        * rewrite decide_True by (apply elem_of_cons; by left). by rewrite Hd, lookup_delete.
        * rewrite decide_False by (rewrite elem_of_cons; intros [H|H]; [by apply Hd|done]).
          by rewrite lookup_delete_ne. }
  assert (Hgen : forall us m0, m_byuser m0 = m_byuser m ->
     m_dead (closeUsers m0 us) = m_dead m0
     /\ m_cache (closeUsers m0 us) !! ckey c = if decide (x_user (x_id c) ∈ us) then None else m_cache m0 !! ckey c).
  { clear us. induction us as [|u us IH]; intros m0 Hb; unfold closeUsers; cbn [fold_left].
    - split; [done|]. by rewrite decide_False by (intros H; by apply elem_of_nil in H).
    - fold (closeUsers (fold_left (fun m c => remove m (ckey c)) (conns_of m0 u) m0) us).
      destruct (Hrm (conns_of m0 u) m0) as (E1 & E2 & E3). destruct (IH (fold_left (fun m c => remove m (ckey c)) (conns_of m0 u) m0)) as [F1 F2].
      { by rewrite E1. }
      rewrite F1, F2, E2, E3. split; [done|].
      destruct (decide (x_user (x_id c) ∈ us)) as [Hx|Hx]; [by rewrite decide_True by (by apply elem_of_cons; right)|].
      assert (Eco : conns_of m0 u = conns_of m u) by (unfold conns_of; by rewrite Hb). rewrite Eco.
      destruct (decide (x_user (x_id c) = u)) as [Hxu|Hxu].
      + rewrite (decide_True (P := x_user (x_id c) ∈ u :: us)) by (apply elem_of_cons; by left).
        rewrite decide_True; [done|]. apply elem_of_list_In. apply in_map. by rewrite <- Hxu.
      + rewrite (decide_False (P := x_user (x_id c) ∈ u :: us)) by (rewrite elem_of_cons; intros [H|H]; done).
        rewrite decide_False; [done|]. intros Hk. apply elem_of_list_In, in_map_iff in Hk as (d & Hk & Hd).
        destruct Hg as ([H1 H1'] & _). destruct (H1' _ _ Hd) as [Hdu Hdr]. destruct (H1 _ _ Hdr) as (_ & Hpd & _).
        apply key_inj in Hk; [|done..]. apply Hxu. by rewrite <- Hk. }
  destruct (Hgen us m eq_refl) as [F1 F2]. unfold usable, getConn, ckey in *. rewrite F2, F1.
  destruct (decide (x_user (x_id c) ∈ us)) as [Hx|Hx].
  - split; [done|]. intros H. exfalso. apply H. by apply elem_of_list_In.
  - rewrite Hu, bool_decide_eq_false_2 by done. split; [|done]. intros _ H. apply Hx. by apply elem_of_list_In.
Qed.
Print Assumptions C44_close_users_partial.

(** ** Examples and refutations *)
Definition id1 := mk_connid "@a" "D" "c1".
Definition id2 := mk_connid "@a" "E" "c2".
Example C44_quiet_example :
  let os := [Create id1; Create id2; Create id1; Remove (key id2); Callback 0; Create id2] in
  plain_ops os /\ quiet os /\ (getConn (run cmap0 os) id1).2 = Some (mk_conn 2 id1)
  /\ (getConn (run cmap0 os) id2).2 = Some (mk_conn 3 id2)
  /\ (getConn (closeUsers (run cmap0 os) ["@a"]) id2).2 = None.
Proof.
  cbn zeta. split.
  { intros i H. cbn in H. repeat (destruct H as [H|H]; [inversion H; subst; repeat split; done|]). done. }
  split; [|repeat split; vm_compute; reflexivity].
  intros a i b E c Hc.
  destruct a as [|o1 a]; [done|]. destruct a as [|o2 a]; [cbn in E; by inversion E; subst; cbn in Hc|].
  destruct a as [|o3 a]; [cbn in E; by inversion E; subst; vm_compute in Hc|].
  destruct a as [|o4 a]; [done|]. destruct a as [|o5 a]; [done|].
  destruct a as [|o6 a]; [cbn in E; by inversion E; subst; vm_compute in Hc|].
  destruct a; done.
Qed.

(** C44 fails without the guard. A connection expires; before the callback gets the
    mutex the client comes back and a connection with the same ID is made. The
    callback removes the new connection from the maps. It is found and alive, but
    not registered: closing the device or the user (for instance because the token
    expired) does not reach it. *)
Theorem C44_stale_callback_refuted :
  let m := run cmap0 [Create id1; Remove (key id1); Create id1; Callback 0] in
  let c := mk_conn 1 id1 in
  usable m c /\ alive m c /\ ~ registered m c /\ reached m "@a" = [] /\ idsForDevice m "@a" "D" = []
  /\ usable (closeUsers m ["@a"]) c.
Proof.
  cbn zeta. split; [vm_compute; reflexivity|]. split; [by vm_compute|].
  split; [intros [H _]; vm_compute in H; discriminate|]. repeat split; vm_compute; reflexivity.
Qed.

(** C44 fails for IDs with a separator: a connection is found under another ID. *)
Theorem C44_separator_refuted :
  let i := mk_connid "@a" "D" "x|y" in let j := mk_connid "@a" "D|x" "y" in
  i <> j /\ (getConn (run cmap0 [Create i]) j).2 = Some (mk_conn 0 i).
Proof. split; [done|]. vm_compute. reflexivity. Qed.

(** A dead connection stays in the cache after it was closed; it is closed again by
    every lookup until it is replaced or expires. *)
Example C44_dead_stays_example :
  let c := mk_conn 0 id1 in let m := run cmap0 [Create id1; Fill c; Get id1; Get id1] in
  m_cache m !! key id1 = Some c /\ m_byid m !! key id1 = None /\ m_destroyed m = [c; c].
Proof. repeat split; vm_compute; reflexivity. Qed.
