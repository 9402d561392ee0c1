(** C36, C37, C39: account data, unread counts and typing. *)
From Verif Require Import Prelude RecvModel RecvSpec.
Open Scope string_scope. Open Scope list_scope. Open Scope Z_scope.

(** ** C36 *)

Lemma bar_inj a b x y : no_bar a -> no_bar b ->
  (a ++ "|" ++ x)%string = (b ++ "|" ++ y)%string -> a = b /\ x = y.
Proof.
  revert b. induction a as [|c a IH]; intros [|d b] Ha Hb H; cbn in *.
  - by inversion H.
  - inversion H; subst. by destruct Hb.
  - inversion H; subst. by destruct Ha.
  - inversion H; subst. destruct Ha as [_ Ha], Hb as [_ Hb].
    destruct (IH b Ha Hb) as [-> ->]; done.
Qed.
Lemma acct_key_inj u r t u' r' t' :
  no_bar u -> no_bar r -> no_bar u' -> no_bar r' ->
  acct_key u r t = acct_key u' r' t' -> u = u' /\ r = r' /\ t = t'.
Proof.
  intros ???? H. unfold acct_key in H. apply bar_inj in H as [-> H]; [|done..].
  apply bar_inj in H as [-> ->]; done.
Qed.

Section acct.
Context (hash : adata -> Z) (evs_all : list adata).
Context (hash_inj : forall d d', In d evs_all -> In d' evs_all -> hash d = hash d' -> d = d').

(** What is remembered is what is stored. *)
Definition agree (m : amap) (tab : atable) : Prop :=
  forall u r t h, no_bar u -> no_bar r -> m !! acct_key u r t = Some h ->
    exists d, tab !! (u, r, t) = Some d /\ d_type d = t /\ hash d = h /\ In d evs_all.

Lemma dedupe_spec u r evs : no_bar u -> no_bar r -> Forall (fun d => In d evs_all) evs ->
  forall m tab m' l, agree m tab -> dedupe hash u r m evs = (m', l) ->
  agree m' (insert_data u r tab l) /\ insert_data u r tab l = insert_data u r tab evs.
Proof using hash_inj.
  intros Hu Hr. induction evs as [|d evs IH]; intros Hin m tab m' l Hag H; cbn [dedupe] in H.
  { inversion H; subst. done. }
  apply Forall_cons in Hin as [Hd Hin].
  case_bool_decide as Hk.
  - destruct (IH Hin m tab m' l Hag H) as [H1 H2]. split; [done|]. rewrite H2. cbn [insert_data fold_left].
    unfold insert_data. cbn [fold_left]. f_equal. symmetry.
    destruct (Hag u r (d_type d) (hash d) Hu Hr Hk) as (d' & Ht & Hty & Hh & Hin').
    apply (hash_inj d' d Hin' Hd) in Hh as ->. by apply insert_id.
  - destruct (dedupe hash u r (<[acct_key u r (d_type d):=hash d]> m) evs) as [m1 l1] eqn:E.
    inversion H; subst. unfold insert_data. cbn [fold_left]. apply (IH Hin _ (<[(u, r, d_type d) := d]> tab) _ _) in E; [exact E|].
    intros u' r' t h Hu' Hr' Hl. destruct (decide (acct_key u r (d_type d) = acct_key u' r' t)) as [He|He].
    + pose proof He as He'. apply acct_key_inj in He' as (<- & <- & <-); [|done..].
      rewrite lookup_insert in Hl. inversion Hl; subst. exists d. by rewrite lookup_insert.
    + rewrite lookup_insert_ne in Hl by done. destruct (Hag u' r' t h Hu' Hr' Hl) as (d' & Ht & Hty & Hh & Hin').
      exists d'. rewrite lookup_insert_ne; [done|]. intros [= <- <- <-]. by apply He.
Qed.
End acct.

Lemma insert_data_latest u r evs : forall (tab : atable) (k : slot),
  insert_data u r tab evs !! k
  = fold_left (fun old (x : slot * adata) => if decide (x.1 = k) then Some x.2 else old)
      (map (fun d => ((u, r, d_type d), d)) evs) (tab !! k).
Proof.
  induction evs as [|d evs IH]; intros tab k; [done|]. unfold insert_data. cbn [fold_left map]. unfold insert_data in IH.
  rewrite IH. f_equal. cbn [fst snd]. case_decide as Hk.
  - rewrite <- Hk. by rewrite lookup_insert.
  - by rewrite lookup_insert_ne.
Qed.

(** C36, if storing never fails while the process lives on: what is stored is, for
    every user, room and type, the latest event that was acknowledged. A batch
    that fails together with the process is not acknowledged.
    Missing: a failed attempt followed by a retry, refuted below. *)
Theorem C36_stored_partial hash hs (k : slot) :
  (forall user room evs e, In (Batch user room evs e) hs -> no_bar user /\ no_bar room /\ e <> Failed) ->
  (forall d d', In d (batch_events hs) -> In d' (batch_events hs) -> hash d = hash d' -> d = d') ->
  a_tab (arun hash hs) !! k = latest k (acked hash acct0 hs).
Proof.
  intros Hok Hinj. unfold arun, latest.
  enough (Hgen : forall hs' s, (forall user room evs e, In (Batch user room evs e) hs' -> no_bar user /\ no_bar room /\ e <> Failed) ->
     (forall d, In d (batch_events hs') -> In d (batch_events hs)) ->
     agree hash (batch_events hs) (a_map s) (a_tab s) ->
     a_tab (fold_left (astep hash) hs' s) !! k
     = fold_left (fun old (x : slot * adata) => if decide (x.1 = k) then Some x.2 else old) (acked hash s hs') (a_tab s !! k)).
  { apply (Hgen hs acct0); [done|done|]. intros u r t h _ _ H. cbn in H. by rewrite lookup_empty in H. }
  clear Hok. induction hs' as [|h hs' IH]; intros s Hok Hsub Hag; [done|].
  cbn [fold_left acked]. rewrite fold_left_app.
  assert (Hsub' : forall d, In d (batch_events hs') -> In d (batch_events hs)).
  { intros d Hd. apply Hsub. unfold batch_events. cbn. apply in_or_app. by right. }
  assert (Hok' : forall user room evs e, In (Batch user room evs e) hs' -> no_bar user /\ no_bar room /\ e <> Failed).
  { intros ???? H. eapply Hok. by right. }
  destruct h as [user room evs e|].
  - destruct (Hok user room evs e) as (Hu & Hr & He); [by left|].
    assert (Hin : Forall (fun d => In d (batch_events hs)) evs).
    { apply List.Forall_forall. intros d Hd. apply Hsub. unfold batch_events. cbn. apply in_or_app. by left. }
    cbn [astep]. unfold onAccountData. destruct (dedupe hash user room (a_map s) evs) as [m l] eqn:E.
    destruct (dedupe_spec hash (batch_events hs) Hinj user room evs Hu Hr Hin _ (a_tab s) _ _ Hag E) as [Hag' Heq].
    destruct l as [|d l].
    + cbn [fst snd]. rewrite IH; [|done|done|exact Hag']. f_equal. cbn [a_tab].
      rewrite <- insert_data_latest. rewrite <- Heq. done.
    + destruct e; [|done|].
      * cbn [fst snd]. rewrite IH; [|done|done|exact Hag']. f_equal. cbn [a_tab].
        rewrite <- insert_data_latest. by rewrite <- Heq.
      * cbn [fst snd]. rewrite IH; [done|done|done|]. intros u r t h _ _ H. cbn in H. by rewrite lookup_empty in H.
  - cbn [astep]. rewrite IH; [done|done|done|]. intros u r t h _ _ H. cbn in H. by rewrite lookup_empty in H.
Qed.
Print Assumptions C36_stored_partial.

Definition hlen (d : adata) : Z := Z.of_nat (String.length (d_rest d)) * 1000 + Z.of_nat (String.length (d_type d)).
Definition direct1 := mk_adata "m.direct" "{1}".
Definition direct2 := mk_adata "m.direct" "{12}".
Definition hist36 : list ahap :=
  [Batch "@a" "" [direct1] Died; Batch "@a" "" [direct1; direct2] Stored; Batch "@a" "" [direct2] Stored;
   ARestart; Batch "@a" "!r" [direct1] Stored; Batch "@a" "" [direct1] Stored].
Example C36_stored_example :
  (forall user room evs e, In (Batch user room evs e) hist36 -> no_bar user /\ no_bar room /\ e <> Failed)
  /\ (forall d d', In d (batch_events hist36) -> In d' (batch_events hist36) -> hlen d = hlen d' -> d = d')
  /\ a_tab (arun hlen hist36) !! ("@a", "", "m.direct") = Some direct1
  /\ a_tab (arun hlen (take 4 hist36)) !! ("@a", "", "m.direct") = Some direct2.
Proof.
  split; [|split; [|split; vm_compute; reflexivity]].
  - intros user room evs e H. cbn in H.
    repeat (destruct H as [H|H]; [inversion H; subst; repeat split; done|]). done.
  - intros d d' Hd Hd' E. cbn in Hd, Hd'.
    assert (Hx : d = direct1 \/ d = direct2) by naive_solver.
    assert (Hy : d' = direct1 \/ d' = direct2) by naive_solver.
    destruct Hx as [->| ->], Hy as [->| ->]; done.
Qed.

(** C36 fails: the hash is remembered before the event is stored. When storing
    fails and the response is processed again, the event is taken for a
    duplicate; it is acknowledged and never stored. *)
Theorem C36_retry_refuted hash :
  let hs := [Batch "@a" "" [direct1] Failed; Batch "@a" "" [direct1] Stored] in
  acked hash acct0 hs = [(("@a", "", "m.direct"), direct1)]
  /\ a_tab (arun hash hs) !! ("@a", "", "m.direct") = None.
Proof.
  unfold arun, direct1. cbn [fold_left astep acked]. unfold onAccountData.
  assert (E1 : dedupe hash "@a" "" (a_map acct0) [direct1]
     = (<[acct_key "@a" "" "m.direct" := hash direct1]> ∅, [direct1])).
  { cbn [dedupe acct0 a_map]. rewrite bool_decide_eq_false_2; [done|]. rewrite lookup_empty. done. }
  assert (E2 : dedupe hash "@a" "" (<[acct_key "@a" "" "m.direct" := hash direct1]> ∅) [direct1]
     = (<[acct_key "@a" "" "m.direct" := hash direct1]> ∅, [])).
  { cbn [dedupe]. rewrite bool_decide_eq_true_2; [done|]. cbn [direct1 d_type]. apply lookup_insert. }
  unfold direct1 in E1, E2. rewrite E1. cbn [fst snd a_map a_tab]. rewrite E2. cbn. done.
Qed.
Print Assumptions C36_retry_refuted.

(** ** C37 *)

(** The update's pattern of present counters. *)
Definition shape (hi no : option Z) : bool * bool := (bool_decide (is_Some hi), bool_decide (is_Some no)).

(** C37, for a user and room whose updates always give the same counters, if no
    update fails and no other pair has the same key: the stored counts are the
    last ones given. Missing: each of the guards is needed, see below. *)
Theorem C37_last_given_partial hs user room sh :
  (forall room' user' hi no ok, In (Counts room' user' hi no ok) hs ->
     (room' ++ user')%string = (room ++ user)%string ->
     room' = room /\ user' = user /\ ok = true /\ shape hi no = sh) ->
  selectUnread (urun hs) user room = given user room hs.
Proof.
  intros Hok.
  enough (Hgen : selectUnread (urun hs) user room = given user room hs
    /\ forall h n, u_map (urun hs) !! (room ++ user)%string = Some (h, n) ->
         (sh.1 = true -> (selectUnread (urun hs) user room).1 = h)
         /\ (sh.2 = true -> (selectUnread (urun hs) user room).2 = n)) by apply Hgen.
  induction hs as [|x hs IH] using rev_ind.
  { cbn. split; [done|]. intros h n H. by rewrite lookup_empty in H. }
  destruct IH as [I1 I2]. { intros. eapply Hok; [|done]. apply in_or_app. by left. }
  unfold urun, given in *. rewrite !fold_left_app. cbn [fold_left].
  set (s := fold_left ustep hs unread0) in *. set (g := fold_left _ hs (0, 0)) in *.
  destruct x as [room' user' hi no ok|]; cbn [ustep].
  2:{ split; [done|]. intros h n H. cbn in H. by rewrite lookup_empty in H. }
  assert (Hin : In (Counts room' user' hi no ok) (hs ++ [Counts room' user' hi no ok])).
  { apply in_or_app. right. by left. }
  specialize (Hok _ _ _ _ _ Hin).
  destruct (decide ((room' ++ user')%string = (room ++ user)%string)) as [He|He].
  - destruct (Hok He) as (-> & -> & -> & Hsh). rewrite decide_True by done.
    unfold updateUnread. case_bool_decide as Hm.
    + destruct (I2 _ _ Hm) as [J1 J2]. split; [|done]. rewrite I1 in *. unfold shape in Hsh. subst sh. cbn in J1, J2.
      rewrite (surjective_pairing g). f_equal.
      * destruct hi as [z|]; [|done]. rewrite J1 by done. done.
      * destruct no as [z|]; [|done]. rewrite J2 by done. done.
    + unfold selectUnread in *. cbn [u_tab u_map].
      assert (E : default (0, 0) (updateCounters (u_tab s) user room hi no !! (user, room)) = (default g.1 hi, default g.2 no)).
      { unfold updateCounters. rewrite <- I1.
        destruct hi as [h|], no as [n|]; cbn [default from_option id].
        - by rewrite lookup_insert.
        - rewrite lookup_insert. by destruct (u_tab s !! (user, room)) as [[??]|].
        - rewrite lookup_insert. by destruct (u_tab s !! (user, room)) as [[??]|].
        - by destruct (default (0, 0) (u_tab s !! (user, room))). }
      rewrite E. split; [done|]. intros h n Hl. rewrite lookup_insert in Hl. inversion Hl; subst.
      split; cbn; intros H; apply bool_decide_eq_true in H as [z ->]; done.
  - rewrite decide_False by (intros [-> ->]; done).
    assert (Hs : selectUnread (updateUnread s room' user' hi no ok) user room = selectUnread s user room).
    { unfold updateUnread, selectUnread. case_bool_decide; [done|]. cbn [u_tab]. destruct ok; [|done].
      f_equal. unfold updateCounters. assert (Hne : (user', room') <> (user, room)) by (intros [= -> ->]; done).
      destruct hi, no; by rewrite ?lookup_insert_ne. }
    rewrite Hs. split; [done|]. intros h n Hl. apply I2. unfold updateUnread in Hl. case_bool_decide; [done|].
    cbn [u_map] in Hl. by rewrite lookup_insert_ne in Hl by done.
Qed.
Print Assumptions C37_last_given_partial.

Example C37_last_given_example :
  let hs := [Counts "!r" "@a" (Some 1) (Some 2) true; Counts "!r" "@a" (Some 1) (Some 2) true;
             URestart; Counts "!r" "@a" (Some 0) (Some 2) true; Counts "!s" "@a" None (Some 7) true] in
  selectUnread (urun hs) "@a" "!r" = (0, 2) /\ given "@a" "!r" hs = (0, 2)
  /\ selectUnread (urun hs) "@a" "!s" = (0, 7).
Proof. repeat split; vm_compute; reflexivity. Qed.

(** A missing counter is taken for zero: the reset to zero after it is missed. *)
Theorem C37_missing_counter_refuted :
  let hs := [Counts "!r" "@a" (Some 5) (Some 5) true; Counts "!r" "@a" (Some 5) None true;
             Counts "!r" "@a" (Some 5) (Some 0) true] in
  given "@a" "!r" hs = (5, 0) /\ selectUnread (urun hs) "@a" "!r" = (5, 5).
Proof. split; vm_compute; reflexivity. Qed.

(** The counts are remembered before they are stored: after a failed query the
    same counts are not stored again. *)
Theorem C37_failed_query_refuted :
  let hs := [Counts "!r" "@a" (Some 1) (Some 1) false; Counts "!r" "@a" (Some 1) (Some 1) true] in
  given "@a" "!r" hs = (1, 1) /\ selectUnread (urun hs) "@a" "!r" = (0, 0).
Proof. split; vm_compute; reflexivity. Qed.

(** The key is the room followed by the user, with nothing between. *)
Theorem C37_key_collision_refuted :
  let hs := [Counts "!r@b:x" "@a:x" (Some 1) (Some 1) true; Counts "!r" "@b:x@a:x" (Some 1) (Some 1) true] in
  given "@b:x@a:x" "!r" hs = (1, 1) /\ selectUnread (urun hs) "@b:x@a:x" "!r" = (0, 0).
Proof. split; vm_compute; reflexivity. Qed.

(** ** C39 *)

Lemma assigned_real p : real p -> negb (bool_decide (i_device p = "")) && negb (bool_decide (i_user p = "")) = true.
Proof. intros [H1 H2]. by rewrite !bool_decide_eq_false_2. Qed.
Lemma setTyping_none t p room : t !! room = None -> setTyping t p room = (<[room := p]> t, true).
Proof. intros H. unfold setTyping. rewrite H. done. Qed.
Lemma setTyping_some t p room q : real q -> t !! room = Some q ->
  setTyping t p room = (t, bool_decide (q = p)).
Proof.
  intros Hr H. unfold setTyping. rewrite H. cbn [default from_option id]. rewrite (assigned_real q Hr).
  by case_bool_decide.
Qed.

Lemma drives_snoc_set q room hs p room' : drives q room hs -> drives q room (hs ++ [Typed p room']).
Proof.
  intros (a & b & -> & Ha & H1 & H2). exists a, (b ++ [Typed p room']). rewrite <- app_assoc. split; [done|].
  split; [done|]. split; intros Hin; apply in_app_or in Hin as [Hin|[Hin|[]]]; done.
Qed.
Lemma drives_unsnoc q room hs h : drives q room (hs ++ [h]) ->
  (drives q room hs /\ h <> Stopped q /\ h <> Left room true)
  \/ (h = Typed q room /\ accepted hs q room).
Proof.
  intros (a & b & E & Ha & H1 & H2). destruct b as [|b0 b] using rev_ind.
  - right. apply app_inj_tail in E as [-> ->]. done.
  - left. rewrite app_comm_cons, app_assoc in E. apply app_inj_tail in E as [-> ->].
    split; [|split; intros ->; [apply H1|apply H2]; apply in_or_app; right; by left].
    exists a, b. split; [done|]. split; [done|].
    split; intros Hin; [apply H1|apply H2]; apply in_or_app; by left.
Qed.

Lemma drives_lookup hs room q : real_pollers hs ->
  (trun hs !! room = Some q <-> drives q room hs) /\ (forall r p, trun hs !! r = Some p -> real p).
Proof.
  revert q room. induction hs as [|h hs IH] using rev_ind; intros q room Hreal.
  { cbn. split; [|intros r p H; by rewrite lookup_empty in H]. rewrite lookup_empty. split; [done|].
    intros (a & b & E & _). by destruct a. }
  assert (Hreal' : real_pollers hs).
  { intros p r H. apply (Hreal p r). apply in_or_app. by left. }
  assert (IHr : forall r p, trun hs !! r = Some p -> real p) by (by apply (IH q room)).
  assert (IHd : forall q room, trun hs !! room = Some q <-> drives q room hs) by (intros q' r'; by apply IH).
  clear IH. unfold trun. rewrite fold_left_app. cbn [fold_left]. fold (trun hs).
  destruct h as [p room'|p|room' ok]; cbn [tstep].
  - assert (Hp : real p). { apply (Hreal p room'). apply in_or_app. right. by left. }
    destruct (trun hs !! room') as [q'|] eqn:El.
    + rewrite (setTyping_some _ p room' q' (IHr _ _ El) El). cbn [fst]. split; [|done]. rewrite IHd. split.
      * apply drives_snoc_set.
      * intros H. apply drives_unsnoc in H as [[H _]|[[= -> ->] Hacc]]; [done|].
        unfold accepted in Hacc. rewrite (setTyping_some _ q room q' (IHr _ _ El) El) in Hacc.
        cbn [snd] in Hacc. apply bool_decide_eq_true in Hacc as ->. by apply IHd.
    + rewrite setTyping_none by done. cbn [fst]. destruct (decide (room' = room)) as [->|Hne].
      * rewrite lookup_insert. split.
        -- split.
           ++ intros [= ->]. exists hs, []. split; [done|]. split; [|by split; intros []]. unfold accepted. by rewrite setTyping_none.
           ++ intros H. apply drives_unsnoc in H as [[H _]|[[= ->] _]]; [|done].
              apply IHd in H. congruence.
        -- intros r p' H. destruct (decide (room = r)) as [->|Hr].
           ++ rewrite lookup_insert in H. by inversion H; subst.
           ++ rewrite lookup_insert_ne in H by done. by apply (IHr r).
      * rewrite lookup_insert_ne by done. split.
        -- rewrite IHd. split; [apply drives_snoc_set|].
           intros H. apply drives_unsnoc in H as [[H _]|[[= -> ->] _]]; done.
        -- intros r p' H. destruct (decide (room' = r)) as [->|Hr].
           ++ rewrite lookup_insert in H. by inversion H; subst.
           ++ rewrite lookup_insert_ne in H by done. by apply (IHr r).
  - unfold onTerminated. split.
    + rewrite map_filter_lookup_Some. cbn [snd]. rewrite IHd. split.
      * intros [(a & b & -> & Ha & H1 & H2) Hne]. exists a, (b ++ [Stopped p]). rewrite <- app_assoc.
        split; [done|]. split; [done|]. split; intros Hin; apply in_app_or in Hin as [Hin|[Hin|[]]]; try done.
        inversion Hin; subst. done.
      * intros H. apply drives_unsnoc in H as [(H & Hne & _)|[H _]]; [|done]. split; [done|]. intros ->. done.
    + intros r p' H. apply map_filter_lookup_Some in H as [H _]. by apply (IHr r).
  - unfold onLeftRoom. destruct ok.
    + split.
      * rewrite lookup_delete_Some, IHd. split.
        -- intros [Hne (a & b & -> & Ha & H1 & H2)]. exists a, (b ++ [Left room' true]). rewrite <- app_assoc.
           split; [done|]. split; [done|]. split; intros Hin; apply in_app_or in Hin as [Hin|[Hin|[]]]; try done.
           inversion Hin; subst. done.
        -- intros H. apply drives_unsnoc in H as [(H & _ & Hne)|[H _]]; [|done]. split; [|done]. intros ->. done.
      * intros r p' H. apply lookup_delete_Some in H as [_ H]. by apply (IHr r).
    + split; [|done]. rewrite IHd. split.
      * intros (a & b & -> & Ha & H1 & H2). exists a, (b ++ [Left room' false]). rewrite <- app_assoc.
        split; [done|]. split; [done|]. split; intros Hin; apply in_app_or in Hin as [Hin|[Hin|[]]]; done.
      * intros H. apply drives_unsnoc in H as [(H & _ & _)|[H _]]; done.
Qed.

(** C39. A poller's update for a room is passed on exactly if no other poller
    drives the room. *)
Theorem C39_accepted_iff_no_other_drives hs p room : real_pollers hs ->
  accepted hs p room <-> ~ exists q, q <> p /\ drives q room hs.
Proof.
  intros Hreal. pose proof (drives_lookup hs room) as Hd. unfold accepted.
  destruct (trun hs !! room) as [q|] eqn:E.
  - destruct (Hd q Hreal) as [Hq Hr]. rewrite (setTyping_some _ _ _ q (Hr _ _ E) E). cbn [snd].
    rewrite bool_decide_eq_true. split.
    + intros -> (q' & Hne & Hq'). apply (Hd q' Hreal) in Hq'. congruence.
    + intros H. destruct (decide (q = p)) as [|Hne]; [done|]. exfalso. apply H. exists q. split; [done|]. by apply Hq.
  - rewrite setTyping_none by done. split; [|done]. intros _ (q & _ & Hq). apply (Hd q Hreal) in Hq. congruence.
Qed.
Print Assumptions C39_accepted_iff_no_other_drives.

(** C39. Between accepted updates of two pollers, the first stops or the room is
    left. *)
Theorem C39_one_at_a_time a b p q room :
  real_pollers (a ++ Typed p room :: b) -> p <> q ->
  accepted a p room -> accepted (a ++ Typed p room :: b) q room ->
  In (Stopped p) b \/ In (Left room true) b.
Proof.
  intros Hreal Hne Ha Hq. apply C39_accepted_iff_no_other_drives in Hq; [|done].
  destruct (in_dec (ltac:(solve_decision) : EqDecision thap) (Stopped p) b) as [|H1]; [by left|].
  destruct (in_dec (ltac:(solve_decision) : EqDecision thap) (Left room true) b) as [|H2]; [by right|].
  exfalso. apply Hq. exists p. split; [done|]. by exists a, b.
Qed.

(** C39. Once the driving poller stopped or the room was left, any poller is
    accepted; and one that drives stays accepted. *)
Theorem C39_takeover hs p q room :
  real_pollers hs ->
  (drives p room hs -> accepted (hs ++ [Stopped p]) q room /\ accepted hs p room)
  /\ accepted (hs ++ [Left room true]) q room.
Proof.
  intros Hreal.
  assert (Hx : forall h, (forall p r, h <> Typed p r) -> real_pollers (hs ++ [h])).
  { intros h Hh p' r H. apply in_app_or in H as [H|[H|[]]]; [by apply (Hreal p' r)|by apply Hh in H]. }
  split.
  - intros Hd. pose proof (drives_lookup hs room p Hreal) as [Hl _]. split.
    + apply C39_accepted_iff_no_other_drives; [by apply Hx|]. intros (q' & _ & Hq').
      apply drives_unsnoc in Hq' as [(Hq' & Hs & _)|[H _]]; [|done].
      apply Hl in Hd. apply (drives_lookup hs room q' Hreal) in Hq'. congruence.
    + apply C39_accepted_iff_no_other_drives; [done|]. intros (q' & Hne & Hq').
      apply Hl in Hd. apply (drives_lookup hs room q' Hreal) in Hq'. congruence.
  - apply C39_accepted_iff_no_other_drives; [by apply Hx|]. intros (q' & _ & Hq').
    apply drives_unsnoc in Hq' as [(Hq' & _ & Hs)|[H _]]; done.
Qed.
Print Assumptions C39_takeover.

Example C39_example :
  let p := mk_pid "@a" "A" in let q := mk_pid "@b" "B" in
  let hs := [Typed p "!r"; Typed q "!r"; Typed q "!s"] in
  real_pollers hs /\ drives p "!r" hs /\ ~ accepted hs q "!r" /\ accepted (hs ++ [Stopped p]) q "!r"
  /\ accepted (hs ++ [Left "!r" true]) q "!r" /\ ~ accepted (hs ++ [Left "!r" false]) q "!r".
Proof.
  cbn zeta. split.
  { intros p r H. cbn in H. destruct H as [H|[H|[H|[]]]]; inversion H; subst; done. }
  split. { exists [], [Typed (mk_pid "@b" "B") "!r"; Typed (mk_pid "@b" "B") "!s"]. repeat split.
           - cbn. intros [H|[H|[]]]; done.
           - cbn. intros [H|[H|[]]]; done. }
  unfold accepted. repeat split; vm_compute; done.
Qed.
