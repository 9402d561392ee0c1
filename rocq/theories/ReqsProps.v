(** C73: requests that arrive at one connection at the same time. *)
From Verif Require Import Prelude ConnModel ConnSpec ConnProofs ReqsModel ReqsSpec ReqsProofs.
Open Scope string_scope. Open Scope list_scope. Open Scope Z_scope.

Section reqs.
  Context {Body Payload : Type} `{EqDecision Body} (body_zero : Body).
  Notation world := (@world Body Payload).
  Notation act := (@act Body Payload).
  Notation start := (world0 body_zero : world).

  (** C73. However requests interleave, at most one at a time is served. *)
  Theorem C73_one_at_a_time l w i j : acts start l = Some w -> inside w i -> inside w j -> i = j.
  Proof. intros E Hi Hj. destruct (inv_acts l _ _ E (inv0 body_zero)) as [H _]. apply H in Hi, Hj. congruence. Qed.

  (** C73. Every request that gets a reply gets the one which it would get if the requests were
      served one after the other, in an order in which it is once, with the same handler; and
      a request that finds the connection when another has its reply comes after that one,
      since what is served later comes later in the order. *)
  Theorem C73_as_if_in_turn l w :
    acts start l = Some w ->
    NoDup (map fst (w_log w))
    /\ (forall i rep, at_place w i = Some (Done rep) <->
          exists k h r o, w_log w !! k = Some (i, h) /\ w_reqs w !! i = Some r
            /\ (run body_zero (history w)).2 !! k = Some (v_req r, h, o) /\ o_reply o = rep)
    /\ (forall l1 l2 w1, l = l1 ++ l2 -> acts start l1 = Some w1 -> w_log w1 `prefix_of` w_log w).
  Proof.
    intros E. destruct (in_turn_acts body_zero l _ _ E (inv0 body_zero) (in_turn0 body_zero)) as (I1 & I2 & I3 & I4 & _). split; [done|]. split.
    - intros i rep. split.
      + intros Hd. pose proof (I2 i rep Hd) as Hi. apply in_map_iff in Hi as ([j h] & Hj & Hi). cbn in Hj. subst j.
        apply elem_of_list_In, elem_of_list_lookup in Hi as [k Hk]. destruct (I4 k i h Hk) as (r & o & Hr & Ht & Ha).
        exists k, h, r, o. repeat (split; [done|]). unfold at_place in Hd. rewrite Hr in Hd. cbn in Hd. rewrite Ha in Hd. by injection Hd.
      + intros (k & h & r & o & Hk & Hr & Ht & <-). destruct (I4 k i h Hk) as (r' & o' & Hr' & Ht' & Ha). unfold at_place. rewrite Hr'. cbn. rewrite Ha. congruence.
    - intros l1 l2 w1 -> E1. rewrite acts_app, E1 in E. clear -E. revert w1 E. induction l2 as [|a l2 IH]; intros w1; cbn [acts]; [by intros [= <-]|].
      destruct (act1 w1 a) as [w2|] eqn:E2; [|done]. intros E. etrans; [|by apply (IH w2)].
      clear -E2. unfold act1 in E2. repeat case_match; simplify_eq; cbn [w_log]; done || by apply prefix_app_r.
  Qed.

  (** C73. A request that is being served when another arrives is told to end. Missing: a
      request that has not got so far when the other one arrives, refuted below. *)
  Theorem C73_newer_ends_older_partial l1 j l2 w1 w i :
    acts start l1 = Some w1 -> acts start (l1 ++ Ask j :: l2) = Some w -> served w1 i -> is_told w i.
  Proof.
    intros E1 E Hs. rewrite acts_app, E1 in E. cbn [acts] in E. destruct (act1 w1 (Ask j)) as [w2|] eqn:E2; [|done].
    apply (told_mono l2 w2 w i E). destruct (inv_acts l1 _ _ E1 (inv0 body_zero)) as [_ H]. specialize (H i Hs).
    assert (Hr : exists r, w_reqs w1 !! i = Some r). { unfold served, at_place in Hs. destruct (w_reqs w1 !! i) as [r|]; [by exists r|done]. }
    destruct Hr as [r Hr]. destruct (act_flags w1 (Ask j) w2 i r E2 Hr) as (r' & Hr' & _ & Hi & _). exists r'. split; [done|].
    unfold told_to_end. rewrite Hi, bool_decide_eq_true_2 by done. by rewrite !orb_true_r.
  Qed.

  Lemma slot_registered l : forall w i, acts start l = Some w -> w_slot w = Some i ->
    In (Register i) l /\ match at_place w i with Some Registered | Some (Handling _ _) | Some (Done _) => True | _ => False end.
  Proof.
    induction l as [|a l IH] using rev_ind; intros w i; [by intros [= <-]|]. rewrite acts_app. destruct (acts start l) as [w1|] eqn:E1; [|done]. cbn [acts].
    destruct (act1 w1 a) as [w2|] eqn:E2; [|done]. intros [= <-] Hs. destruct (act_shared w1 a w2 E2) as (_ & Hsl & _). destruct (act_places w1 a w2 E2) as [Hk Hn].
    assert (Old : w_slot w1 = Some i -> In (Register i) (l ++ [a]) /\ match at_place w2 i with Some Registered | Some (Handling _ _) | Some (Done _) => True | _ => False end).
    { intros Ho. destruct (IH w1 i eq_refl Ho) as [H1 H2]. split; [apply in_or_app; by left|].
      destruct (decide (who w1 a = Some i)) as [W|W]; [|by rewrite (Hk i W)]. specialize (Hn i W).
      destruct a as [q|x|x|x|x|x|x|x h|x|]; cbn [next_place] in Hn; try (destruct Hn as [Hx _]; rewrite Hx in H2; done); try done.
      - destruct Hn as [_ Hn]. by destruct (at_place w2 i) as [[]|].
      - destruct Hn as [_ [r ->]]. done. }
    rewrite Hsl in Hs. destruct a as [q|x|x|x|x|x|x|x h|x|]; try (by apply Old). injection Hs as ->.
    split; [apply in_or_app; right; by left|]. destruct (Hn i eq_refl) as [_ ->]. done.
  Qed.

  (** C73. A request is told to end only if another one arrived after it got the connection, or
      its client went away, or the connection was closed. *)
  Theorem C73_told_only_for_cause l w i :
    acts start l = Some w -> is_told w i ->
    (exists l1 j l2, l = l1 ++ Ask j :: l2 /\ j <> i /\ In (Register i) l1) \/ In (Gone i) l \/ In Close l.
  Proof.
    revert w. induction l as [|a l IH] using rev_ind; intros w.
    { intros [= <-] (r & Hr & _). done. }
    rewrite acts_app. destruct (acts start l) as [w1|] eqn:E1; [|done]. cbn [acts]. destruct (act1 w1 a) as [w2|] eqn:E2; [|done]. intros [= <-] (r' & Hr' & Ht).
    assert (Old : is_told w1 i -> (exists l1 j l2, l ++ [a] = l1 ++ Ask j :: l2 /\ j <> i /\ In (Register i) l1) \/ In (Gone i) (l ++ [a]) \/ In Close (l ++ [a])).
    { intros H. destruct (IH w1 eq_refl H) as [(l1 & j & l2 & -> & Hj & Hi)|[H1|H1]].
      - left. exists l1, j, (l2 ++ [a]). rewrite <-app_assoc. done.
      - right. left. apply in_or_app. by left.
      - right. right. apply in_or_app. by left. }
    destruct (w_reqs w1 !! i) as [r|] eqn:Hr.
    - destruct (act_flags w1 a w2 i r E2 Hr) as (r2 & Hr2 & _ & Hi & Ho). assert (r2 = r') as -> by congruence. unfold told_to_end in Ht. rewrite Hi, Ho in Ht.
      destruct (v_outer r) eqn:Eo; [apply Old; exists r; split; [done|]; unfold told_to_end; by rewrite Eo|].
      destruct (v_inner r) eqn:Ei; [apply Old; exists r; split; [done|]; unfold told_to_end; by rewrite Ei, orb_true_r|]. cbn [orb] in Ht.
      destruct a as [q|x|x|x|x|x|x|x h|x|]; cbn [orb] in Ht; try discriminate Ht.
      + apply bool_decide_eq_true in Ht. destruct (slot_registered l w1 i E1 Ht) as [Hreg Hat]. left. exists l, x, []. split; [done|]. split; [|done].
        intros ->. destruct (act_places w1 (Ask i) w2 E2) as [_ Hn]. destruct (Hn i eq_refl) as [Hx _]. by rewrite Hx in Hat.
      + rewrite orb_false_r in Ht. apply bool_decide_eq_true in Ht as ->. right. left. apply in_or_app. right. by left.
      + right. right. apply in_or_app. right. by left.
    - exfalso. assert (Hx : at_place w1 i = None) by (unfold at_place; by rewrite Hr).
      destruct (act_places w1 a w2 E2) as [Hk Hn]. destruct (decide (who w1 a = Some i)) as [W|W].
      + specialize (Hn i W). rewrite Hx in Hn. destruct a as [q|x|x|x|x|x|x|x h|x|]; cbn [next_place] in Hn; try (by destruct Hn).
        * cbn [who] in W. injection W as <-. cbn [act1] in E2. destruct (w_open w1); [|done]. apply (inj Some) in E2. subst w2. cbn [w_reqs] in Hr'.
          rewrite lookup_app_r, Nat.sub_diag in Hr' by lia. injection Hr' as <-. done.
        * destruct Hn as [(q & n & ?) _]. done.
      + specialize (Hk i W). rewrite Hx in Hk. unfold at_place in Hk. by rewrite Hr' in Hk.
  Qed.

  (** C73. When the connection is closed, a request is told to end if it is the latest that
      came, or if another came while it was served, before or after. Missing: others, refuted
      below. *)
  Theorem C73_closed_partial l1 l2 w1 w i :
    acts start l1 = Some w1 -> acts start (l1 ++ Close :: l2) = Some w -> is_Some (w_reqs w1 !! i) ->
    w_latest w1 = Some i
    \/ (exists m1 j m2 v, l1 ++ Close :: l2 = m1 ++ Ask j :: m2 /\ acts start m1 = Some v /\ served v i) ->
    is_told w i.
  Proof.
    intros E1 E [r Hr] [Hl|(m1 & j & m2 & v & Em & Ev & Hs)].
    - rewrite acts_app, E1 in E. cbn [acts] in E. destruct (act1 w1 Close) as [w2|] eqn:E2; [|done].
      apply (told_mono l2 w2 w i E). destruct (act_flags w1 Close w2 i r E2 Hr) as (r' & Hr' & _ & _ & Ho). exists r'. split; [done|].
      unfold told_to_end. rewrite Ho, bool_decide_eq_true_2 by done. by rewrite orb_true_r.
    - rewrite Em in E. exact (C73_newer_ends_older_partial m1 j m2 v w i Ev E Hs).
  Qed.

  (** C73. A connection that was closed is not found again. *)
  Theorem C73_closed_is_not_found l1 l2 w :
    acts start (l1 ++ Close :: l2) = Some w -> forall q, ~ In (Find q) l2.
  Proof.
    intros E q Hq. rewrite acts_app in E. destruct (acts start l1) as [w1|]; [|done]. cbn [acts act1] in E.
    set (w2 := mk_world _ _ _ _ _ false _) in E. assert (Ho : w_open w2 = false) by reflexivity. clearbody w2.
    revert w2 Ho E. induction l2 as [|a l2 IH]; intros w2 Ho E; [destruct Hq|]. cbn [acts] in E.
    destruct (act1 w2 a) as [w3|] eqn:Ea; [|done]. destruct Hq as [->|Hq].
    - cbn [act1] in Ea. rewrite Ho in Ea. done.
    - refine (IH Hq w3 _ E). clear - Ea Ho. destruct a; cbn [act1] in Ea;
        repeat match type of Ea with context [match ?x with _ => _ end] => destruct x; try discriminate Ea end; injection Ea as <-; try exact Ho; reflexivity.
  Qed.

  Lemma begin_waits (c : conn Body Payload) tr req c' q n :
    Inv c tr -> begin c req = (c', inr (q, n)) ->
    c_pos c' = c_pos c /\ match n with None => q = req /\ q_pos req = c_pos c | Some r => q_timeout q = 1 /\ q_pos req < r_pos r end.
  Proof.
    intros Hi E. unfold begin in E. pose proof (inv_pos _ _ Hi) as Hp. pose proof (inv_ack _ _ Hi) as Ha. pose proof (ackpos_nonneg tr) as Hn0.
    assert (Hpos : negb (q_pos req =? 0) && negb (negb (q_pos req =? 0) && (q_pos (c_last c) =? q_pos req)) && negb (is_outstanding c (q_pos req)) = false ->
      0 <= q_pos req <= c_pos c).
    { intros H. destruct (Z.eqb_spec (q_pos req) 0) as [->|N0]; [lia|]. cbn [negb andb] in H. destruct (Z.eqb_spec (q_pos (c_last c)) (q_pos req)) as [El|Nl].
      - pose proof (inv_last0 _ _ Hi). pose proof (inv_last _ _ Hi). lia.
      - cbn [negb andb] in H. apply negb_false_iff in H. unfold is_outstanding in H. apply existsb_exists in H as (r & Hr & Er).
        apply Z.eqb_eq in Er. rewrite (inv_resps _ _ Hi) in Hr. apply elem_of_list_In, number_elem in Hr as (i & tp & Hl & ->). cbn in Er.
        apply lookup_lt_Some in Hl. rewrite drop_length in Hl. lia. }
    destruct (negb (q_pos req =? 0) && negb (negb (q_pos req =? 0) && (q_pos (c_last c) =? q_pos req)) && negb (is_outstanding c (q_pos req))) eqn:Ek; [done|].
    specialize (Hpos eq_refl). rewrite (inv_resps _ _ Hi) in E. unfold kept in E.
    rewrite scan_number in E by (rewrite drop_length; lia).
    match type of E with context [head ?x] => destruct (head x) as [nx|] eqn:Eh end.
    - repeat match type of E with context [if ?b then (_, inl _) else _] => destruct b; [discriminate E|] end. injection E as <- <- <-. cbn. split; [done|]. split; [done|].
      rewrite head_lookup in Eh. rewrite number_lookup in Eh. destruct (drop _ _ !! 0%nat); [|done]. cbn in Eh. injection Eh as <-. cbn. lia.
    - repeat match type of E with context [if ?b then (_, inl _) else _] => destruct b; [discriminate E|] end. injection E as <- <- <-. cbn. split; [done|]. split; [done|].
      rewrite head_lookup, number_lookup, lookup_drop, lookup_drop in Eh.
      destruct (omap processed tr !! _) eqn:El in Eh; [done|]. apply lookup_ge_None in El. lia.
  Qed.

  (** C73. A request is served with the waiting time that it asks for only if its client has
      seen every response there is; otherwise it waits at most a millisecond, and the client
      gets a response that it has not seen. *)
  Theorem C73_full_wait_when_up_to_date l w i r q n :
    acts start l = Some w -> w_reqs w !! i = Some r -> v_at r = Handling q n ->
    match n with None => q = v_req r /\ q_pos q = c_pos (w_conn w) | Some x => q_timeout q = 1 /\ q_pos (v_req r) < r_pos x end.
  Proof.
    intros E Hr Ha. destruct (in_turn_acts body_zero l _ _ E (inv0 body_zero) (in_turn0 body_zero)) as (_ & _ & _ & _ & I5 & _).
    specialize (I5 i r q n Hr Ha). destruct (run body_zero (history w)) as [c tr] eqn:Er. cbn [fst] in I5. apply run_inv in Er.
    destruct (begin_waits c tr (v_req r) (w_conn w) q n Er I5) as [H1 H2]. destruct n as [x|]; [done|]. destruct H2 as [-> H2]. split; [done|]. lia.
  Qed.

  (** C73. As long as a request has no reply, some request can get on, and every request gets
      on at most six times: so all get their replies if the handler ends. *)
  Theorem C73_never_stuck l w i :
    acts start l = Some w -> unfinished w i -> exists a w', gets_on a = true /\ act1 w a = Some w'.
  Proof.
    intros E Hu. destruct (inv_acts l _ _ E (inv0 body_zero)) as [H _]. destruct (w_holder w) as [k|] eqn:Eh.
    - assert (Hk : inside w k) by (by apply H). unfold inside in Hk. destruct (at_place w k) as [[]|] eqn:Ek; try done.
      + exists (Register k). eexists. split; [done|]. cbn [act1]. rewrite Ek. reflexivity.
      + exists (Begin k). cbn [act1]. apply at_reqs in Ek as (r & Hr & Ha). rewrite Hr, Ha. destruct (begin (w_conn w) (v_req r)) as [c [rep|[q n]]]; by eexists.
      + exists (End k (HErr 0 body_zero)). cbn [act1]. rewrite Ek. destruct (process (w_conn w) q next (HErr 0 body_zero)). by eexists.
    - unfold unfinished in Hu. destruct (at_place w i) as [[]|] eqn:Ei; try done.
      + exists (Call i). cbn [act1]. rewrite Ei. by eexists.
      + exists (Ask i). cbn [act1]. rewrite Ei. by eexists.
      + exists (Lock i). cbn [act1]. rewrite Ei, Eh. by eexists.
      + assert (Hk : inside w i) by (unfold inside; by rewrite Ei). apply H in Hk. congruence.
      + assert (Hk : inside w i) by (unfold inside; by rewrite Ei). apply H in Hk. congruence.
      + assert (Hk : inside w i) by (unfold inside; by rewrite Ei). apply H in Hk. congruence.
  Qed.

  Definition rank (p : option (@place Body Payload)) : nat :=
    match p with
    | None | Some Found => 0 | Some Called => 1 | Some Waiting => 2 | Some Locked => 3 | Some Registered => 4 | Some (Handling _ _) => 5
    | Some (Done _) | Some Rejected => 6
    end.
  Definition total (n : nat) (w : world) : nat := sum_list (map (fun i => rank (at_place w i)) (seq 0 n)).
  Lemma sum_le (f g : nat -> nat) l : (forall i, f i <= g i)%nat -> (sum_list (map f l) <= sum_list (map g l))%nat.
  Proof. intros H. induction l as [|i l IH]; [done|]. cbn. specialize (H i). lia. Qed.
  Lemma sum_lt (f g : nat -> nat) l k : (forall i, f i <= g i)%nat -> (f k < g k)%nat -> In k l -> (S (sum_list (map f l)) <= sum_list (map g l))%nat.
  Proof.
    intros H Hk. induction l as [|i l IH]; [done|]. cbn. specialize (sum_le f g l H) as Hl. specialize (H i). intros [->|Hi]; [lia|]. specialize (IH Hi). lia.
  Qed.
  Lemma length_act (w : world) (a : act) w' : act1 w a = Some w' -> length (w_reqs w') = (length (w_reqs w) + (if comes a then 1 else 0))%nat.
  Proof.
    intros E. unfold act1 in E. repeat case_match; simplify_eq; cbn [w_reqs comes]; unfold move, end_inner, end_outer;
      repeat case_match; rewrite ?alter_length, ?app_length; cbn; lia.
  Qed.
  Lemma total_act n (w : world) (a : act) w' : act1 w a = Some w' -> (length (w_reqs w') <= n)%nat ->
    (total n w + (if gets_on a then 1 else 0) <= total n w')%nat.
  Proof.
    intros E Hn. destruct (act_places w a w' E) as [Hk Hm]. unfold total.
    assert (Hle : forall i, (rank (at_place w i) <= rank (at_place w' i))%nat).
    { intros i. destruct (decide (who w a = Some i)) as [W|W]; [|by rewrite (Hk i W)]. specialize (Hm i W).
      destruct a as [q|x|x|x|x|x|x|x h|x|]; cbn [next_place] in Hm; try (destruct Hm as [-> ->]; cbn; lia); try done.
      - destruct Hm as [-> Hx]. destruct (at_place w' i) as [[]|]; try done; cbn; lia.
      - destruct Hm as [(q & m & ->) [r ->]]. cbn. lia. }
    destruct (gets_on a) eqn:Eg; [|rewrite Nat.add_0_r; by apply sum_le].
    assert (Hex : exists i, who w a = Some i). { destruct a; try discriminate Eg; by eexists. }
    destruct Hex as [i W]. rewrite Nat.add_comm. apply (sum_lt _ _ _ i Hle).
    - specialize (Hm i W). destruct a as [q|x|x|x|x|x|x|x h|x|]; cbn [next_place] in Hm; try discriminate Eg; try (destruct Hm as [-> ->]; cbn; lia); try done.
      + destruct Hm as [-> Hx]. destruct (at_place w' i) as [[]|]; try done; cbn; lia.
      + destruct Hm as [(q & m & ->) [r ->]]. cbn. lia.
    - apply in_seq. split; [lia|]. cbn. enough (i < length (w_reqs w'))%nat by lia.
      specialize (Hm i W). assert (Hx : at_place w' i <> None).
      { destruct a as [q|x|x|x|x|x|x|x h|x|]; cbn [next_place] in Hm; try (destruct Hm as [_ ->]; done); try done.
        - destruct Hm as [_ Hm]. by destruct (at_place w' i).
        - destruct Hm as [_ [r ->]]. done. }
      unfold at_place in Hx. destruct (w_reqs w' !! i) as [r|] eqn:Hr; [|done]. by apply lookup_lt_Some in Hr.
  Qed.
  Theorem C73_bounded l w :
    acts start l = Some w -> (length (List.filter gets_on l) <= 6 * length (List.filter comes l))%nat.
  Proof.
    intros E. set (n := length (w_reqs w)).
    assert (Hlen : forall (l : list act) (v v' : world), acts v l = Some v' -> length (w_reqs v') = (length (w_reqs v) + length (List.filter comes l))%nat).
    { clear. induction l as [|a l IH]; intros v v'; cbn [acts]; [intros [= <-]; cbn; lia|]. destruct (act1 v a) as [v1|] eqn:E1; [|done]. intros E.
      rewrite (IH v1 v' E), (length_act v a v1 E1). cbn [List.filter]. destruct (comes a); cbn; lia. }
    assert (Htot : forall (l : list act) (v v' : world), acts v l = Some v' -> (length (w_reqs v') <= n)%nat -> (total n v + length (List.filter gets_on l) <= total n v')%nat).
    { clear -Hlen. induction l as [|a l IH]; intros v v'; cbn [acts]; [intros [= <-] _; cbn; lia|]. destruct (act1 v a) as [v1|] eqn:E1; [|done]. intros E Hn.
      specialize (IH v1 v' E Hn). pose proof (Hlen l v1 v' E) as H1. pose proof (total_act n v a v1 E1 ltac:(lia)) as H2.
      cbn [List.filter]. destruct (gets_on a); cbn [length]; lia. }
    assert (Hmax : (total n w <= 6 * n)%nat).
    { clear. unfold total. enough (forall m s, sum_list (map (fun i => rank (at_place w i)) (seq s m)) <= 6 * m)%nat by done.
      induction m as [|m IH]; intros s; [done|]. cbn [seq map]. specialize (IH (S s)).
      change (rank (at_place w s) + sum_list (map (fun i => rank (at_place w i)) (seq (S s) m)) <= 6 * S m)%nat.
      assert (rank (at_place w s) <= 6)%nat by (destruct (at_place w s) as [[]|]; cbn; lia). lia. }
    pose proof (Hlen l _ _ E) as H1. pose proof (Htot l _ _ E ltac:(lia)) as H2. cbn [world0 w_reqs length] in H1. fold n in H1. lia.
  Qed.
End reqs.
Print Assumptions C73_one_at_a_time.
Print Assumptions C73_as_if_in_turn.
Print Assumptions C73_newer_ends_older_partial.
Print Assumptions C73_told_only_for_cause.
Print Assumptions C73_closed_partial.
Print Assumptions C73_closed_is_not_found.
Print Assumptions C73_full_wait_when_up_to_date.
Print Assumptions C73_never_stuck.
Print Assumptions C73_bounded.

(** ** Cases *)
Definition rq_ (pos : Z) (body : string) : request string := mk_request pos "" body 30000.
Definition act_ := @act string string.
(** The first request of the connection, up to its reply. *)
Definition first : list act_ :=
  [Find (rq_ 0 "a"); Call 0%nat; Ask 0%nat; Lock 0%nat; Register 0%nat; Begin 0%nat; End 0%nat (HOk "one" "a")].
Definition second : list act_ := [Find (rq_ 1 "b"); Call 1%nat; Ask 1%nat; Lock 1%nat; Register 1%nat; Begin 1%nat].
Definition view (l : list act_) := (fun w => map (fun r => (v_at r, told_to_end r)) (w_reqs w)) <$> acts (world0 "") l.

(** The second request waits for updates until the third arrives; both get their replies. *)
Example C73_example :
  view (first ++ second) = Some [(Done (RResp (mk_response 1 "" "one")), true); (Handling (rq_ 1 "b") None, false)]
  /\ view (first ++ second ++ [Find (rq_ 1 "c"); Call 2%nat; Ask 2%nat])
     = Some [(Done (RResp (mk_response 1 "" "one")), true); (Handling (rq_ 1 "b") None, true); (Waiting, false)]
  /\ view (first ++ second ++ [Find (rq_ 1 "c"); Call 2%nat; Ask 2%nat; End 1%nat (HOk "two" "b"); Lock 2%nat; Register 2%nat; Begin 2%nat; End 2%nat (HOk "three" "c")])
     = Some [(Done (RResp (mk_response 1 "" "one")), true); (Done (RResp (mk_response 2 "" "two")), true); (Done (RResp (mk_response 2 "" "two")), false)].
Proof. repeat split; vm_compute; reflexivity. Qed.

(** C73 fails for a request that waits for its turn when another arrives: it is served with the
    full waiting time although there is a newer one, which waits until it ends by itself. *)
Theorem C73_waiting_not_told_refuted :
  view (first ++ [Find (rq_ 1 "b"); Call 1%nat; Ask 1%nat; Find (rq_ 1 "c"); Call 2%nat; Ask 2%nat; Lock 1%nat; Register 1%nat; Begin 1%nat])
  = Some [(Done (RResp (mk_response 1 "" "one")), true); (Handling (rq_ 1 "b") None, false); (Waiting, false)]
  /\ view (first ++ second ++ [Find (rq_ 1 "c"); Call 2%nat; Ask 2%nat; Find (rq_ 1 "d"); Call 3%nat; Ask 3%nat;
        End 1%nat (HErr 500 "b"); Lock 2%nat; Register 2%nat; Begin 2%nat])
     = Some [(Done (RResp (mk_response 1 "" "one")), true); (Done (RErr 500), true); (Handling (rq_ 1 "c") None, false); (Waiting, false)].
Proof. split; vm_compute; reflexivity. Qed.
Print Assumptions C73_waiting_not_told_refuted.

(** C73 fails when a request with bad parameters has come since: closing the connection ends
    that request, which has its answer, and not the one that waits. *)
Theorem C73_closed_after_rejected_refuted :
  view (first ++ second ++ [Find (rq_ 1 "c"); Call 2%nat; Reject 2%nat; Close])
  = Some [(Done (RResp (mk_response 1 "" "one")), true); (Handling (rq_ 1 "b") None, false); (Rejected, true)].
Proof. vm_compute. reflexivity. Qed.
Print Assumptions C73_closed_after_rejected_refuted.
(** And an older request that is slow to arrive ends a newer one. *)
Theorem C73_older_ends_newer_refuted :
  view (first ++ [Find (rq_ 1 "b"); Call 1%nat; Find (rq_ 1 "c"); Call 2%nat; Ask 2%nat; Lock 2%nat; Register 2%nat; Begin 2%nat; Ask 1%nat])
  = Some [(Done (RResp (mk_response 1 "" "one")), true); (Waiting, false); (Handling (rq_ 1 "c") None, true)].
Proof. vm_compute. reflexivity. Qed.
Print Assumptions C73_older_ends_newer_refuted.
