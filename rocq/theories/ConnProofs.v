From Verif Require Import Prelude.
From Verif Require Import ConnModel ConnSpec.
Open Scope Z_scope.

Section proofs.
  Context {Body Payload : Type} `{EqDecision Body} (z : Body).
  Implicit Types (l : list (string * Payload)) (tr : list (event Body Payload)).
  Local Notation on_incoming := (@on_incoming Body Payload _).
  Local Notation run := (@run Body Payload _ z).
  Local Notation run_from := (@run_from Body Payload _).

  (** ** Numbered lists *)
  Lemma number_length n l : length (number n l) = length l.
  Proof. revert n; induction l as [|[t p] l IH]; intros n; cbn; [done|by rewrite IH]. Qed.

  Lemma number_lookup n l i :
    number n l !! i = (fun tp => mk_response (n + Z.of_nat i) tp.1 tp.2) <$> l !! i.
  Proof.
    revert n i; induction l as [|[t p] l IH]; intros n i; [by rewrite !lookup_nil|].
    destruct i as [|i]; cbn.
    - by rewrite Z.add_0_r.
    - rewrite IH. destruct (l !! i); cbn; [|done]. do 2 f_equal. lia.
  Qed.

  Lemma number_app n l1 l2 :
    number n (l1 ++ l2) = number n l1 ++ number (n + Z.of_nat (length l1)) l2.
  Proof.
    revert n; induction l1 as [|[t p] l1 IH]; intros n; cbn.
    - by rewrite Z.add_0_r.
    - rewrite IH. do 3 f_equal. lia.
  Qed.

  Lemma number_drop n k l : drop k (number n l) = number (n + Z.of_nat k) (drop k l).
  Proof.
    apply list_eq; intros i. rewrite lookup_drop, !number_lookup, lookup_drop.
    destruct (l !! (k + i)%nat); cbn; [|done]. do 2 f_equal. lia.
  Qed.

  Lemma number_elem n l r :
    r ∈ number n l <->
    exists i tp, l !! i = Some tp /\ r = mk_response (n + Z.of_nat i) tp.1 tp.2.
  Proof.
    rewrite elem_of_list_lookup. split.
    - intros [i Hi]. rewrite number_lookup in Hi. destruct (l !! i) as [tp|] eqn:E; [|done].
      cbn in Hi. injection Hi as <-. eauto.
    - intros (i & tp & Hi & ->). exists i. by rewrite number_lookup, Hi.
  Qed.

  (** ** The purge loop on a numbered buffer *)
  Lemma scan_number p n l i del :
    p - n <= Z.of_nat (length l) ->
    scan p i del (number n l) =
      ((if p >? n then (i + Z.to_nat (p - n))%nat else del),
       head (number (Z.max n (p + 1)) (drop (Z.to_nat (p + 1 - n)) l))).
  Proof.
    revert n i del; induction l as [|[t q] l IH]; intros n i del Hle; cbn [number scan].
    - rewrite drop_nil; cbn. destruct (p >? n) eqn:E; [|done].
      cbn in Hle. lia.
    - cbn [r_pos length] in *.
      destruct (p >? n) eqn:E.
      + rewrite IH by lia. f_equal.
        * destruct (p >? n + 1) eqn:E2; [lia|].
          replace (p - n) with 1 by lia. lia.
        * replace (Z.to_nat (p + 1 - n)) with (S (Z.to_nat (p + 1 - (n + 1)))) by lia.
          cbn [drop]. do 2 f_equal. lia.
      + destruct (p <? n) eqn:E2.
        * replace (Z.to_nat (p + 1 - n)) with 0%nat by lia. cbn [drop number head].
          rewrite Z.max_l by lia. done.
        * rewrite IH by lia. f_equal.
          -- destruct (p >? n + 1) eqn:E3; [lia|done].
          -- assert (p = n) as -> by lia.
             replace (Z.to_nat (n + 1 - (n + 1))) with 0%nat by lia.
             replace (Z.to_nat (n + 1 - n)) with 1%nat by lia. cbn [drop].
             rewrite drop_0. do 2 f_equal. lia.
  Qed.

  (** ** Acknowledged position of a history *)
  Definition acceptedb (e : event Body Payload) : bool :=
    match reply_to e with RUnknownPos => false | _ => true end.

  Lemma acceptedb_spec e : acceptedb e = true <-> accepted e.
  Proof. destruct e as [[q h] [[] c]]; cbn; split; congruence || done. Qed.

  Fixpoint ackpos tr : Z :=
    match tr with
    | [] => 0
    | e :: tr' => if acceptedb e then Z.max (pos_of e) (ackpos tr') else ackpos tr'
    end.

  Lemma ackpos_nonneg tr : 0 <= ackpos tr.
  Proof. induction tr as [|e tr IH]; cbn; [lia|]. destruct (acceptedb e); lia. Qed.

  Lemma ackpos_app tr1 tr2 : ackpos (tr1 ++ tr2) = Z.max (ackpos tr1) (ackpos tr2).
  Proof.
    induction tr1 as [|e tr1 IH]; cbn.
    - pose proof (ackpos_nonneg tr2). lia.
    - rewrite IH. destruct (acceptedb e); lia.
  Qed.

  Lemma ackpos_ge tr e : e ∈ tr -> accepted e -> pos_of e <= ackpos tr.
  Proof.
    induction tr as [|e' tr IH]; intros Hin Ha; [by apply elem_of_nil in Hin|].
    apply elem_of_cons in Hin as [->|Hin]; cbn.
    - rewrite (proj2 (acceptedb_spec e') Ha). lia.
    - specialize (IH Hin Ha). destruct (acceptedb e'); lia.
  Qed.

  Lemma ackpos_le tr a : 0 <= a ->
    (forall e, e ∈ tr -> accepted e -> pos_of e <= a) -> ackpos tr <= a.
  Proof.
    intros Ha; induction tr as [|e tr IH]; intros Hall; cbn; [done|].
    assert (ackpos tr <= a) by (apply IH; intros; apply Hall; [by right|done]).
    destruct (acceptedb e) eqn:E; [|done].
    assert (pos_of e <= a) by (apply Hall; [by left|by apply acceptedb_spec]). lia.
  Qed.

  Lemma still_needed_iff tr r : 1 <= r_pos r -> still_needed tr r <-> ackpos tr <= r_pos r.
  Proof.
    intros Hr. split.
    - intros Hs. apply ackpos_le; [lia|]. intros e He Ha. by apply Hs.
    - intros Hle e He Ha. pose proof (ackpos_ge tr e He Ha). lia.
  Qed.

  (** ** The invariant *)
  Definition kept (tr : list (event Body Payload)) : nat := Z.to_nat (ackpos tr - 1).

  Record Inv (c : conn Body Payload) (tr : list (event Body Payload)) : Prop := {
    inv_pos : c_pos c = Z.of_nat (length (omap processed tr));
    inv_ack : ackpos tr <= c_pos c;
    inv_resps : c_resps c = number (Z.of_nat (kept tr) + 1) (drop (kept tr) (omap processed tr));
    inv_last0 : 0 <= q_pos (c_last c);
    inv_last : q_pos (c_last c) <> 0 -> q_pos (c_last c) < c_pos c }.

  Lemma Inv_new : Inv (new_conn z) [].
  Proof. split; cbn; try lia; done. Qed.

  (** The response at the front when the client is at [p], given what is kept. *)
  Definition front (tr : list (event Body Payload)) (p : Z) : option (response Payload) :=
    let m := Z.to_nat (Z.max (ackpos tr - 1) p) in
    head (number (Z.of_nat m + 1) (drop m (omap processed tr))).

  Lemma head_number_drop m l r :
    head (number (Z.of_nat m + 1) (drop m l)) = Some r <->
    exists tp, l !! m = Some tp /\ r = mk_response (Z.of_nat m + 1) tp.1 tp.2.
  Proof.
    assert (head (number (Z.of_nat m + 1) (drop m l)) =
            (fun tp => mk_response (Z.of_nat m + 1) tp.1 tp.2) <$> l !! m) as ->.
    { rewrite head_lookup, number_lookup, lookup_drop.
      replace (m + 0)%nat with m by lia. destruct (l !! m); cbn; [|done].
      do 2 f_equal. lia. }
    destruct (l !! m) as [tp|]; cbn; split.
    - intros [= <-]. eauto.
    - intros (tp' & [= ->] & ->). done.
    - done.
    - intros (tp' & ? & _). done.
  Qed.

  Lemma front_oldest tr p r :
    0 <= p -> front tr p = Some r -> oldest_after p tr r.
  Proof.
    intros Hp Hf. unfold front in Hf. apply head_number_drop in Hf as (tp & Htp & ->).
    pose proof (ackpos_nonneg tr).
    set (m := Z.to_nat (Z.max (ackpos tr - 1) p)) in *.
    repeat split; cbn [r_pos].
    - apply number_elem. exists m, tp. split; [done|]. f_equal. lia.
    - lia.
    - apply still_needed_iff; cbn [r_pos]; lia.
    - intros r' Hr' Hlt Hs. apply number_elem in Hr' as (i & tp' & Hi & ->).
      apply still_needed_iff in Hs; cbn [r_pos] in *; lia.
  Qed.

  Lemma processed_snoc tr (e : event Body Payload) :
    omap processed (tr ++ [e]) =
    omap processed tr ++ match processed e with Some x => [x] | None => [] end.
  Proof. rewrite omap_app. f_equal. Qed.

  (** Everything one step does, in one place. *)
  Lemma step_ok c tr q h c' o :
    Inv c tr -> on_incoming c q h = (c', o) ->
    let tr' := tr ++ [(q, h, o)] in
    Inv c' tr' /\
    (o_reply o = RUnknownPos <->
       q_pos q <> 0 /\ q_pos q <> q_pos (c_last c) /\
       ~ (Z.max 1 (ackpos tr) <= q_pos q <= c_pos c)) /\
    (o_reply o = RUnknownPos -> c' = c /\ o_call o = None) /\
    (o_reply o <> RUnknownPos -> 0 <= q_pos q <= c_pos c) /\
    o_reply o <> RNil /\
    (forall r, o_reply o = RResp r -> front tr' (q_pos q) = Some r).
  Proof.
    intros [Hpos Hack Hres Hl0 Hl] Hstep.
    pose proof (ackpos_nonneg tr) as Hnn.
    assert (Hout : is_outstanding c (q_pos q) = true <->
                   Z.max 1 (ackpos tr) <= q_pos q <= c_pos c).
    { unfold is_outstanding. rewrite Hres, existsb_exists. split.
      - intros (r & Hin & Hr). apply elem_of_list_In, number_elem in Hin as (i & tp & Hi & ->).
        rewrite lookup_drop in Hi. apply lookup_lt_Some in Hi. unfold kept in *. cbn in Hr. lia.
      - intros Hrng. unfold kept in *.
        destruct (omap processed tr !! Z.to_nat (q_pos q - 1)) as [tp|] eqn:E.
        + exists (mk_response (q_pos q) tp.1 tp.2). split; [|cbn; lia].
          apply elem_of_list_In, number_elem.
          exists (Z.to_nat (q_pos q - 1) - Z.to_nat (ackpos tr - 1))%nat, tp.
          rewrite lookup_drop. split; [|f_equal; lia].
          rewrite <- E. f_equal. lia.
        + apply lookup_ge_None in E. lia. }
    unfold ConnModel.on_incoming in Hstep.
    set (is_first := q_pos q =? 0) in *.
    destruct (negb is_first && negb (negb is_first && (q_pos (c_last c) =? q_pos q))
              && negb (is_outstanding c (q_pos q))) eqn:Hrej.
    { injection Hstep as <- <-.
      assert (q_pos q <> 0 /\ q_pos q <> q_pos (c_last c) /\
              ~ (Z.max 1 (ackpos tr) <= q_pos q <= c_pos c)) as Hr.
      { rewrite <- Hout. subst is_first. destruct (is_outstanding c (q_pos q)); lia. }
      assert (Hak : ackpos (tr ++ [(q, h, mk_outcome RUnknownPos None)]) = ackpos tr)
        by (rewrite ackpos_app; cbn; lia).
      assert (Hpr : omap processed (tr ++ [(q, h, mk_outcome (@RUnknownPos Payload) (@None (request Body)))])
                    = omap processed tr)
        by (rewrite processed_snoc; cbn; destruct h; cbn; by rewrite app_nil_r).
      split; [|split_and!; cbn; done].
      split; rewrite ?Hak, ?Hpr; try done. unfold kept; by rewrite Hak. }
    assert (Hacc : 0 <= q_pos q <= c_pos c).
    { subst is_first. destruct (is_outstanding c (q_pos q)) eqn:E.
      - destruct Hout as [Hout _]. specialize (Hout eq_refl). lia.
      - lia. }
    assert (Hnrej : ~ (q_pos q <> 0 /\ q_pos q <> q_pos (c_last c) /\
              ~ (Z.max 1 (ackpos tr) <= q_pos q <= c_pos c))).
    { rewrite <- Hout. subst is_first. destruct (is_outstanding c (q_pos q)); lia. }
    destruct (scan (q_pos q) 0 0 (c_resps c)) as [del next] eqn:Hscan.
    rewrite Hres, scan_number in Hscan
      by (rewrite drop_length; unfold kept; lia).
    injection Hscan as Hdel Hnext.
    set (ack' := Z.max (ackpos tr) (q_pos q)).
    assert (Hkept : (kept tr + del)%nat = Z.to_nat (ack' - 1)).
    { subst ack' del. unfold kept. destruct (q_pos q >? Z.of_nat (Z.to_nat (ackpos tr - 1)) + 1) eqn:E; lia. }
    assert (Hdrop : drop del (c_resps c) =
        number (Z.of_nat (Z.to_nat (ack' - 1)) + 1) (drop (Z.to_nat (ack' - 1)) (omap processed tr))).
    { rewrite Hres, number_drop, drop_drop, Hkept. f_equal. lia. }
    set (m := Z.to_nat (Z.max (ack' - 1) (q_pos q))).
    assert (Hnext' : next = head (number (Z.of_nat m + 1) (drop m (omap processed tr)))).
    { rewrite <- Hnext. rewrite drop_drop. subst m ack'. unfold kept.
      f_equal. f_equal; [lia|]. f_equal. lia. }
    clear Hnext Hdel.
    (* generic consequences of an accepted step that does not run the handler *)
    assert (Hquiet : forall rep,
      accepted (q, h, mk_outcome rep None) ->
      Inv (mk_conn (c_last c) (drop del (c_resps c)) (c_pos c)) (tr ++ [(q, h, mk_outcome rep None)])
      /\ front (tr ++ [(q, h, mk_outcome rep None)]) (q_pos q) = next).
    { intros rep Ha.
      assert (Hak : ackpos (tr ++ [(q, h, mk_outcome rep None)]) = ack').
      { rewrite ackpos_app. cbn. rewrite (proj2 (acceptedb_spec _) Ha). lia. }
      assert (Hpr : omap processed (tr ++ [(q, h, mk_outcome rep None)]) = omap processed tr).
      { rewrite processed_snoc; cbn. destruct h; by rewrite app_nil_r. }
      split.
      - split; cbn; rewrite ?Hpr, ?Hak; try done; [subst ack'; lia|].
        unfold kept. by rewrite Hak.
      - unfold front. rewrite Hpr, Hak, Hnext'. done. }
    (* the handler ran *)
    assert (Hproc : forall q', q_pos q' = q_pos q -> q_txn q' = q_txn q ->
      (c', o) = process (mk_conn (c_last c) (drop del (c_resps c)) (c_pos c)) q' next h ->
      Inv c' (tr ++ [(q, h, o)]) /\ o_reply o <> RNil /\ o_reply o <> RUnknownPos /\
      (forall r, o_reply o = RResp r -> front (tr ++ [(q, h, o)]) (q_pos q) = Some r)).
    { intros q' Hq' Hq't Heq.
      assert (Ho : o_call o = Some q' /\ accepted (q, h, o)).
      { unfold process in Heq. destruct h; injection Heq as -> ->; cbn; try (split; done).
        destruct next; cbn; done. }
      destruct Ho as [Hcall Ha].
      assert (Hak : ackpos (tr ++ [(q, h, o)]) = ack').
      { rewrite ackpos_app. cbn [ackpos]. rewrite (proj2 (acceptedb_spec _) Ha). cbn. lia. }
      destruct h as [p b|s b|b].
      2,3: match goal with |- Inv _ (_ ++ [(_, ?h, _)]) /\ _ =>
          assert (Hpr : omap processed (tr ++ [(q, h, o)]) = omap processed tr)
            by (rewrite processed_snoc; cbn; by rewrite app_nil_r) end;
        unfold process in Heq; injection Heq as -> Heqo;
        (split_and!; [|rewrite Heqo; done..]);
        (split; cbn [c_pos c_resps c_last]; rewrite ?Hpr, ?Hak;
          [done|subst ack'; lia|unfold kept; by rewrite Hak|done|done]).
      assert (Hpr : omap processed (tr ++ [(q, HOk p b, o)]) = omap processed tr ++ [(q_txn q, p)]).
      { rewrite processed_snoc. cbn. by rewrite Hcall. }
      unfold process in Heq. injection Heq as -> Heqo.
      assert (Hlen : (Z.to_nat (ack' - 1) <= length (omap processed tr))%nat) by (subst ack'; lia).
      split_and!.
      - split; cbn [c_pos c_resps c_last r_pos q_pos]; rewrite ?Hpr, ?Hak, ?Hq'.
        + rewrite app_length; cbn; lia.
        + subst ack'; lia.
        + unfold kept. rewrite Hak. rewrite drop_app_le by lia.
          rewrite number_app, Hdrop. f_equal. cbn. do 2 f_equal; [|by rewrite Hq't].
          rewrite drop_length. lia.
        + lia.
        + lia.
      - rewrite Heqo; cbn. destruct next; done.
      - done.
      - intros r. rewrite Heqo; cbn. intros Hrep.
        unfold front. rewrite Heqo in Hak, Hpr. cbn in Hak, Hpr.
        rewrite Hak, Hpr. fold m.
        destruct next as [n|]; cbn in Hrep; injection Hrep as <-.
        + symmetry in Hnext'. apply head_number_drop in Hnext' as (tp & Htp & ->).
          apply head_number_drop. exists tp. split; [|done]. by apply lookup_app_l_Some.
        + symmetry in Hnext'.
          assert (m = length (omap processed tr)) as Hm.
          { assert (omap processed tr !! m = None) as Hnone.
            { destruct (omap processed tr !! m) as [tp|] eqn:E; [|done].
              exfalso. assert (head (number (Z.of_nat m + 1) (drop m (omap processed tr))) =
                Some (mk_response (Z.of_nat m + 1) tp.1 tp.2)) as Hc
                by (apply head_number_drop; eauto). congruence. }
            apply lookup_ge_None in Hnone. subst m ack'. lia. }
          apply head_number_drop. exists (q_txn q, p).
          rewrite Hm. rewrite lookup_app_r by lia. rewrite Nat.sub_diag. split; [done|].
          cbn. rewrite Hq't. f_equal. lia. }
    set (is_re := negb is_first && (q_pos (c_last c) =? q_pos q)) in *.
    set (is_same := negb is_first && same_request (c_last c) q) in *.
    destruct (negb is_first && is_re && is_same) eqn:Hcached.
    - injection Hstep as <- <-.
      assert (Hne : next <> None).
      { rewrite Hnext'. intros Hnone.
        assert (q_pos q < c_pos c) as Hlt.
        { assert (q_pos q <> 0 /\ q_pos (c_last c) = q_pos q) as [Hq0 Hql] by (subst is_re is_first; lia).
          rewrite <- Hql. apply Hl. congruence. }
        destruct (omap processed tr !! m) as [tp|] eqn:E.
        - assert (head (number (Z.of_nat m + 1) (drop m (omap processed tr))) =
                Some (mk_response (Z.of_nat m + 1) tp.1 tp.2)) as Hc
                by (apply head_number_drop; eauto). congruence.
        - apply lookup_ge_None in E. subst m ack'. lia. }
      destruct next as [n|]; [|done]. cbn [reply_of].
      destruct (Hquiet (RResp n)) as [Hi Hf]; [done|].
      split_and!; try done; cbn.
      intros r [= <-]. done.
    - destruct next as [n|].
      + destruct is_same.
        * injection Hstep as <- <-.
          destruct (Hquiet (RResp n)) as [Hi Hf]; [done|].
          split_and!; try done; cbn.
          intros r [= <-]. done.
        * destruct (Hproc (mk_request (q_pos q) (q_txn q) (q_body q) 1)) as (Hi & H1 & H2 & H3); [done..|].
          split_and!; try done.
      + destruct (Hproc q) as (Hi & H1 & H2 & H3); [done..|].
        split_and!; try done.
  Qed.

  Lemma run_from_app c evs1 evs2 :
    run_from c (evs1 ++ evs2) =
    let '(c1, t1) := run_from c evs1 in
    let '(c2, t2) := run_from c1 evs2 in (c2, t1 ++ t2).
  Proof.
    revert c; induction evs1 as [|[q h] evs1 IH]; intros c; cbn.
    - by destruct (run_from c evs2).
    - destruct (on_incoming c q h) as [c' o]. rewrite IH.
      destruct (run_from c' evs1) as [c1 t1]. by destruct (run_from c1 evs2).
  Qed.

  Lemma run_from_inv c tr evs c' tr' :
    Inv c tr -> run_from c evs = (c', tr') -> Inv c' (tr ++ tr').
  Proof.
    revert c tr tr'; induction evs as [|[q h] evs IH]; intros c tr tr' HI Hrun; cbn in Hrun.
    - injection Hrun as <- <-. by rewrite app_nil_r.
    - destruct (on_incoming c q h) as [c1 o] eqn:Hs.
      destruct (run_from c1 evs) as [c2 t2] eqn:Hr. injection Hrun as <- <-.
      destruct (step_ok c tr q h c1 o HI Hs) as (HI1 & _).
      replace (tr ++ (q, h, o) :: t2) with ((tr ++ [(q, h, o)]) ++ t2)
        by (by rewrite <- app_assoc).
      by apply (IH c1).
  Qed.

  Lemma run_inv evs c tr : run evs = (c, tr) -> Inv c tr.
  Proof. intros Hr. apply (run_from_inv (new_conn z) [] evs c tr); [apply Inv_new|done]. Qed.

  (** ** Property lemmas *)
  Lemma reply_oldest evs c tr q h c' o r :
    run evs = (c, tr) -> on_incoming c q h = (c', o) -> o_reply o = RResp r ->
    oldest_after (q_pos q) (tr ++ [(q, h, o)]) r.
  Proof.
    intros Hr Hs Ho. apply run_inv in Hr.
    destruct (step_ok c tr q h c' o Hr Hs) as (HI & _ & _ & Hacc & _ & Hf).
    apply front_oldest; [|by apply Hf].
    destruct (Hacc ltac:(congruence)). lia.
  Qed.

  Lemma reply_never_nil evs c tr q h c' o :
    run evs = (c, tr) -> on_incoming c q h = (c', o) -> o_reply o <> RNil.
  Proof. intros Hr Hs. apply run_inv in Hr. by destruct (step_ok c tr q h c' o Hr Hs) as (_&_&_&_&?&_). Qed.

  Lemma oldest_is_next p tr r :
    oldest_after p tr r ->
    (forall e, e ∈ tr -> accepted e -> pos_of e <= p) -> 0 <= p ->
    r_pos r = p + 1.
  Proof.
    intros (Hin & Hlt & Hs & Hmin) Hall Hp.
    apply number_elem in Hin as (i & tp & Hi & ->). cbn in *.
    destruct (omap processed tr !! Z.to_nat p) as [tp'|] eqn:E.
    - specialize (Hmin (mk_response (p + 1) tp'.1 tp'.2)). cbn in Hmin.
      assert (1 + Z.of_nat i <= p + 1); [|lia]. apply Hmin; [|lia|].
      + apply number_elem. exists (Z.to_nat p), tp'. split; [done|]. f_equal; lia.
      + intros e He Ha. specialize (Hall e He Ha). cbn. lia.
    - apply lookup_ge_None in E. apply lookup_lt_Some in Hi. lia.
  Qed.

  (** Positions: a processed request gets the next number. *)
  Lemma reply_numbered evs c tr q h c' o r :
    run evs = (c, tr) -> on_incoming c q h = (c', o) -> o_reply o = RResp r ->
    exists i t p, omap processed (tr ++ [(q, h, o)]) !! i = Some (t, p) /\
      r = mk_response (Z.of_nat i + 1) t p.
  Proof.
    intros Hr Hs Ho. destruct (reply_oldest evs c tr q h c' o r Hr Hs Ho) as (Hin & _).
    apply number_elem in Hin as (i & [t p] & Hi & ->). exists i, t, p. split; [done|].
    cbn. f_equal. lia.
  Qed.

  Lemma fresh_reply evs c tr q p b c' o :
    run evs = (c, tr) -> on_incoming c q (HOk p b) = (c', o) -> o_call o <> None ->
    exists r, o_reply o = RResp r /\
    mk_response (Z.of_nat (length (produced tr)) + 1) (q_txn q) p ∈ produced (tr ++ [(q, HOk p b, o)]) /\
    length (produced (tr ++ [(q, HOk p b, o)])) = S (length (produced tr)).
  Proof.
    intros Hr Hs Hc.
    assert (Hp : produced (tr ++ [(q, HOk p b, o)]) = produced tr ++
      [mk_response (Z.of_nat (length (produced tr)) + 1) (q_txn q) p]).
    { unfold produced. rewrite processed_snoc. cbn. destruct (o_call o); [|done].
      rewrite number_app, number_length. cbn. do 3 f_equal. lia. }
    rewrite Hp, app_length. cbn.
    enough (exists r, o_reply o = RResp r) as [r Hrr].
    { exists r. split; [done|]. split; [|lia]. apply elem_of_app. right. by apply elem_of_list_singleton. }
    unfold ConnModel.on_incoming in Hs.
    repeat match type of Hs with
    | context [if ?b then _ else _] => destruct b
    | context [let '(_, _) := scan ?a ?b ?c ?d in _] => destruct (scan a b c d) as [? [|]]
    | context [match ?x with Some _ => _ | None => _ end] => destruct x
    end; unfold process in Hs; injection Hs as <- <-; cbn in *; eauto; done.
  Qed.

  Lemma failed_no_response evs c tr q h c' o :
    run evs = (c, tr) -> on_incoming c q h = (c', o) ->
    (forall p b, h <> HOk p b) \/ o_call o = None ->
    produced (tr ++ [(q, h, o)]) = produced tr /\ c_pos c' = c_pos c /\ q_pos (c_last c') = q_pos (c_last c) /\
    (o_call o = None -> c_last c' = c_last c).
  Proof.
    intros Hr Hs Hno. apply run_inv in Hr.
    destruct (step_ok c tr q h c' o Hr Hs) as (HI & _).
    assert (Hp : omap processed (tr ++ [(q, h, o)]) = omap processed tr).
    { rewrite processed_snoc. cbn. destruct h; try by rewrite app_nil_r.
      destruct Hno as [Hno|Hno]; [by destruct (Hno p b)|]. rewrite Hno. by rewrite app_nil_r. }
    split_and!.
    - unfold produced. by rewrite Hp.
    - rewrite (inv_pos _ _ HI), Hp. symmetry. apply (inv_pos _ _ Hr).
    - unfold ConnModel.on_incoming in Hs.
      repeat match type of Hs with
      | context [if ?b then _ else _] => destruct b
      | context [let '(_, _) := scan ?a ?b ?c ?d in _] => destruct (scan a b c d) as [? [|]]
      end; unfold process in Hs; destruct h; injection Hs as <- <-; cbn in *; try done;
      (destruct Hno as [Hno|Hno]; [by edestruct Hno|done]).
    - unfold ConnModel.on_incoming in Hs.
      repeat match type of Hs with
      | context [if ?b then _ else _] => destruct b
      | context [let '(_, _) := scan ?a ?b ?c ?d in _] => destruct (scan a b c d) as [? [|]]
      end; unfold process in Hs; destruct h; injection Hs as <- <-; cbn in *; done.
  Qed.

  Lemma processed_err_reply c q h c' o :
    on_incoming c q h = (c', o) -> o_call o <> None ->
    match h with
    | HOk _ _ => True
    | HErr s _ => o_reply o = RErr s
    | HPanic _ => o_reply o = RErr 500
    end.
  Proof.
    intros Hs Hc. unfold ConnModel.on_incoming in Hs.
    repeat match type of Hs with
    | context [if ?b then _ else _] => destruct b
    | context [let '(_, _) := scan ?a ?b ?c ?d in _] => destruct (scan a b c d) as [? [|]]
    end; unfold process in Hs; destruct h; injection Hs as <- <-; cbn in *; done.
  Qed.

  (** The position of an answered request stays known. *)
  Lemma still_known evs c tr q h c' o r (q' : request Body) :
    run evs = (c, tr) -> on_incoming c q h = (c', o) -> o_reply o = RResp r ->
    q_pos q <> 0 -> q_pos q' = q_pos q ->
    (q_pos (c_last c') =? q_pos q') || is_outstanding c' (q_pos q') = true.
  Proof.
    intros Hr Hs Ho H0 Hqp. pose proof (run_inv _ _ _ Hr) as HI0.
    pose proof (step_ok c tr q h c' o HI0 Hs) as (_ & _ & _ & Hacc & _).
    specialize (Hacc ltac:(congruence)).
       unfold ConnModel.on_incoming in Hs.
      destruct (q_pos q =? 0) eqn:E0; [lia|]. cbn [negb andb] in Hs.
      destruct (negb (q_pos (c_last c) =? q_pos q) && negb (is_outstanding c (q_pos q))) eqn:Ek.
      { injection Hs as <- <-. cbn in Ho. congruence. }
      assert (Hk : q_pos (c_last c) = q_pos q \/ is_outstanding c (q_pos q) = true).
      { destruct (is_outstanding c (q_pos q)); [by right|left; lia]. }
      assert (Houtk : forall del next, scan (q_pos q) 0 0 (c_resps c) = (del, next) ->
        is_outstanding c (q_pos q) = true ->
        existsb (fun r0 => r_pos r0 =? q_pos q) (drop del (c_resps c)) = true).
      { intros del next Hsc Hout.
        pose proof HI0 as [Hpos0 Hak0 Hres0 _ _].
        assert (Hsc' := Hsc). rewrite Hres0, scan_number in Hsc' by (rewrite drop_length; unfold kept; lia).
        injection Hsc' as Hdel _.
        unfold is_outstanding in Hout. apply existsb_exists in Hout as (x & Hx & Hxp).
        apply existsb_exists. exists x. split; [|done].
        apply elem_of_list_In. apply elem_of_list_In in Hx.
        rewrite Hres0 in Hx |- *. rewrite number_drop.
        apply number_elem in Hx as (i & tp & Hi & ->). cbn in Hxp.
        apply number_elem. exists (i - del)%nat, tp.
        unfold kept in *. rewrite lookup_drop in Hi. rewrite !lookup_drop.
        destruct (q_pos q >? Z.of_nat (Z.to_nat (ackpos tr - 1)) + 1) eqn:E.
        - split; [rewrite <- Hi; f_equal; lia|]. f_equal. lia.
        - split; [rewrite <- Hi; f_equal; lia|]. f_equal. lia. }
      destruct (scan (q_pos q) 0 0 (c_resps c)) as [del next] eqn:Hsc.
      specialize (Houtk del next eq_refl).
      assert (Hkeep : forall rep, o = mk_outcome rep None ->
        c' = mk_conn (c_last c) (drop del (c_resps c)) (c_pos c) ->
        (q_pos (c_last c') =? q_pos q') || is_outstanding c' (q_pos q') = true).
      { intros rep _ ->. cbn. rewrite Hqp. destruct Hk as [Hk|Hk].
        - apply orb_true_iff. left. lia.
        - apply orb_true_iff. right. unfold is_outstanding. cbn. by apply Houtk. }
      destruct ((q_pos (c_last c) =? q_pos q) && same_request (c_last c) q) eqn:Ec.
      { injection Hs as <- <-. by eapply Hkeep. }
      destruct next as [n|].
      - destruct (same_request (c_last c) q) eqn:Es.
        + injection Hs as <- <-. by eapply Hkeep.
        + destruct h; unfold process in Hs; injection Hs as <- <-; cbn in Ho; try done.
          cbn. apply orb_true_iff. left. lia.
      - destruct h; unfold process in Hs; injection Hs as <- <-; cbn in Ho; try done.
        cbn. apply orb_true_iff. left. lia. 
  Qed.

  (** Retries. *)
  Lemma retry_same evs c tr q h c' o r q' h' :
    run evs = (c, tr) -> on_incoming c q h = (c', o) -> o_reply o = RResp r ->
    q_pos q <> 0 -> q_pos q' = q_pos q -> q_body q' = q_body q ->
    body_left h = q_body q \/ o_call o = None ->
    on_incoming c' q' h' = (c', mk_outcome (RResp r) None).
  Proof.
    intros Hr Hs Ho H0 Hqp Hqb Hleft.
    pose proof (run_inv _ _ _ Hr) as HI0.
    destruct (step_ok c tr q h c' o HI0 Hs) as (HI & _ & _ & Hacc & _ & Hf).
    specialize (Hf r Ho). specialize (Hacc ltac:(congruence)).
    set (tr' := tr ++ [(q, h, o)]) in *.
    assert (Hack : q_pos q <= ackpos tr').
    { apply (ackpos_ge tr' (q, h, o)); [|cbn; congruence].
      apply elem_of_app. right. by apply elem_of_list_singleton. }
    (* what the purge loop finds now *)
    destruct HI as [Hpos Hak Hres Hl0 Hl].
    pose proof (ackpos_nonneg tr').
    assert (Hscan : scan (q_pos q') 0 0 (c_resps c') = (0%nat, Some r)).
    { rewrite Hres, Hqp, scan_number by (rewrite drop_length; unfold kept; lia).
      unfold kept. destruct (q_pos q >? Z.of_nat (Z.to_nat (ackpos tr' - 1)) + 1) eqn:E; [lia|].
      f_equal. rewrite <- Hf. unfold front. rewrite drop_drop.
      f_equal. f_equal; [lia|]. f_equal. lia. }
    (* the request is recognised and considered the same *)
    assert (Hsame : same_request (c_last c') q' = true).
    { unfold same_request. rewrite Hqb.
      unfold ConnModel.on_incoming in Hs.
      destruct (q_pos q =? 0) eqn:E0; [lia|]. cbn [negb andb] in Hs.
      destruct (negb (q_pos (c_last c) =? q_pos q) && negb (is_outstanding c (q_pos q))).
      { injection Hs as <- <-. cbn in Ho. congruence. }
      destruct (scan (q_pos q) 0 0 (c_resps c)) as [del next].
      destruct ((q_pos (c_last c) =? q_pos q) && same_request (c_last c) q) eqn:Ec.
      { injection Hs as <- <-. cbn. apply andb_true_iff in Ec as [_ Ec]. exact Ec. }
      destruct next as [n|].
      - destruct (same_request (c_last c) q) eqn:Es.
        + injection Hs as <- <-. cbn. exact Es.
        + destruct h; unfold process in Hs; injection Hs as <- <-; cbn in Ho; try done.
          cbn in Hleft |- *. apply bool_decide_eq_true. by destruct Hleft.
      - destruct h; unfold process in Hs; injection Hs as <- <-; cbn in Ho; try done.
        cbn in Hleft |- *. apply bool_decide_eq_true. by destruct Hleft. }
    assert (Hknown : (q_pos (c_last c') =? q_pos q') || is_outstanding c' (q_pos q') = true).
    { eapply still_known; eauto. }
    unfold ConnModel.on_incoming. rewrite Hscan, Hsame.
    destruct (q_pos q' =? 0) eqn:E0; [lia|]. cbn [negb andb].
    assert (negb (q_pos (c_last c') =? q_pos q') && negb (is_outstanding c' (q_pos q')) = false) as ->.
    { destruct (q_pos (c_last c') =? q_pos q'), (is_outstanding c' (q_pos q')); cbn in *; done. }
    rewrite andb_true_r, drop_0. cbn [reply_of].
    assert (mk_conn (c_last c') (c_resps c') (c_pos c') = c') as -> by (by destruct c').
    by destruct (q_pos (c_last c') =? q_pos q').
  Qed.

  (** What the handler is given. *)
  Lemma handler_given c q h c' o q' :
    on_incoming c q h = (c', o) -> o_call o = Some q' ->
    q_pos q' = q_pos q /\ q_txn q' = q_txn q /\ q_body q' = q_body q.
  Proof.
    intros Hs Hc. unfold ConnModel.on_incoming in Hs.
    repeat match type of Hs with
    | context [if ?b then _ else _] => destruct b
    | context [let '(_, _) := scan ?a ?b ?c ?d in _] => destruct (scan a b c d) as [? [|]]
    end; unfold process in Hs; destruct h; injection Hs as <- <-; cbn in *; simplify_eq; done.
  Qed.
  (** A second request at the same position is answered with the same response,
      or with the error of the handler. *)
  Lemma same_pos_same_reply evs c tr q h c' o r q' h' c'' o' :
    run evs = (c, tr) -> on_incoming c q h = (c', o) -> o_reply o = RResp r ->
    q_pos q <> 0 -> q_pos q' = q_pos q ->
    on_incoming c' q' h' = (c'', o') ->
    o_reply o' = RResp r \/
    (o_call o' <> None /\ forall p b, h' <> HOk p b).
  Proof.
    intros Hr Hs Ho H0 Hqp Hs'.
    pose proof (run_inv _ _ _ Hr) as HI0.
    destruct (step_ok c tr q h c' o HI0 Hs) as (HI & _ & _ & Hacc & _ & Hf).
    specialize (Hf r Ho). specialize (Hacc ltac:(congruence)).
    set (tr' := tr ++ [(q, h, o)]) in *.
    assert (Hack : q_pos q <= ackpos tr').
    { apply (ackpos_ge tr' (q, h, o)); [|cbn; congruence].
      apply elem_of_app. right. by apply elem_of_list_singleton. }
    destruct HI as [Hpos Hak Hres Hl0 Hl].
    pose proof (ackpos_nonneg tr').
    assert (Hscan : scan (q_pos q') 0 0 (c_resps c') = (0%nat, Some r)).
    { rewrite Hres, Hqp, scan_number by (rewrite drop_length; unfold kept; lia).
      unfold kept. destruct (q_pos q >? Z.of_nat (Z.to_nat (ackpos tr' - 1)) + 1) eqn:E; [lia|].
      f_equal. rewrite <- Hf. unfold front. rewrite drop_drop.
      f_equal. f_equal; [lia|]. f_equal. lia. }
    assert (Hknown : (q_pos (c_last c') =? q_pos q') || is_outstanding c' (q_pos q') = true).
    { eapply still_known; eauto. }
    unfold ConnModel.on_incoming in Hs'. rewrite Hscan in Hs'.
    destruct (q_pos q' =? 0) eqn:E0; [lia|]. cbn [negb andb] in Hs'.
    assert (Hk : negb (q_pos (c_last c') =? q_pos q') && negb (is_outstanding c' (q_pos q')) = false).
    { destruct (q_pos (c_last c') =? q_pos q'), (is_outstanding c' (q_pos q')); cbn in *; done. }
    rewrite Hk in Hs'.
    destruct ((q_pos (c_last c') =? q_pos q') && same_request (c_last c') q'); [injection Hs' as <- <-; by left|].
    destruct (same_request (c_last c') q'); [injection Hs' as <- <-; by left|].
    destruct h'; unfold process in Hs'; injection Hs' as <- <-; cbn; [by left|by right..].
  Qed.

  (** Unknown positions. *)
  Lemma unknown_pos_iff evs c tr q h c' o :
    run evs = (c, tr) -> on_incoming c q h = (c', o) ->
    (o_reply o = RUnknownPos <->
       q_pos q <> 0 /\ q_pos q <> q_pos (c_last c) /\
       ~ exists r, r ∈ produced tr /\ still_needed tr r /\ r_pos r = q_pos q) /\
    (o_reply o = RUnknownPos -> c' = c /\ o_call o = None).
  Proof.
    intros Hr Hs. apply run_inv in Hr.
    destruct (step_ok c tr q h c' o Hr Hs) as (HI & Hiff & Hq & _).
    split; [|done]. rewrite Hiff. do 2 (apply and_iff_compat_l).
    pose proof (ackpos_nonneg tr).
    enough (Z.max 1 (ackpos tr) <= q_pos q <= c_pos c <->
            exists r, r ∈ produced tr /\ still_needed tr r /\ r_pos r = q_pos q) as -> by done.
    rewrite (inv_pos _ _ Hr). split.
    - intros Hrng. destruct (omap processed tr !! Z.to_nat (q_pos q - 1)) as [tp|] eqn:E.
      + exists (mk_response (q_pos q) tp.1 tp.2). split_and!; [|apply still_needed_iff; cbn; lia|done].
        apply number_elem. exists (Z.to_nat (q_pos q - 1)), tp. split; [done|f_equal; lia].
      + apply lookup_ge_None in E. lia.
    - intros (r & Hin & Hsn & Hp). apply number_elem in Hin as (i & tp & Hi & ->).
      apply still_needed_iff in Hsn; cbn in *; [|lia]. apply lookup_lt_Some in Hi. lia.
  Qed.

  (** ** The well-behaved client *)
  Local Notation client_run := (@client_run Body Payload _).
  Lemma number_take_snoc n k l tp :
    l !! k = Some tp ->
    number n (take (S k) l) = number n (take k l) ++ [mk_response (n + Z.of_nat k) tp.1 tp.2].
  Proof.
    intros Hk. rewrite (take_S_r _ _ _ Hk), number_app. destruct tp as [t p]. cbn.
    rewrite take_length. apply lookup_lt_Some in Hk. do 3 f_equal. lia.
  Qed.

  Lemma client_run_gen c p tr ins rs tr' :
    Inv c tr -> 0 <= p <= c_pos c -> (forall e, e ∈ tr -> accepted e -> pos_of e <= p) ->
    client_run c p ins = (rs, tr') ->
    number 1 (take (Z.to_nat p) (omap processed tr)) ++ rs =
    number 1 (take (Z.to_nat p + length rs) (omap processed (tr ++ tr'))).
  Proof.
    revert c p tr rs tr'; induction ins as [|[[[t b] h] arr] ins IH];
      intros c p tr rs tr' HI Hp Hall Hrun; cbn in Hrun.
    { injection Hrun as <- <-. rewrite !app_nil_r. cbn. by rewrite Nat.add_0_r. }
    set (q := mk_request p t b 10000) in *.
    destruct (on_incoming c q h) as [c' o] eqn:Hs.
    destruct (step_ok c tr q h c' o HI Hs) as (HI' & _ & _ & Hacc & _ & Hf).
    assert (Hall' : forall e, e ∈ tr ++ [(q, h, o)] -> accepted e -> pos_of e <= p).
    { intros e He Ha. apply elem_of_app in He as [He|He]; [by apply Hall|].
      apply elem_of_list_singleton in He as ->. cbn. lia. }
    assert (Hmono : c_pos c <= c_pos c').
    { rewrite (inv_pos _ _ HI'), (inv_pos _ _ HI), processed_snoc, app_length. lia. }
    assert (Hsilent : forall rs0 tr0, client_run c' p ins = (rs0, tr0) -> rs0 = rs ->
       (q, h, o) :: tr0 = tr' ->
       number 1 (take (Z.to_nat p) (omap processed tr)) ++ rs =
       number 1 (take (Z.to_nat p + length rs) (omap processed (tr ++ tr')))).
    { intros rs0 tr0 Hr -> <-.
      specialize (IH c' p (tr ++ [(q, h, o)]) rs tr0 HI' ltac:(lia) Hall' Hr).
      rewrite <- app_assoc in IH. cbn [app] in IH. etrans; [|exact IH]. f_equal. f_equal.
      rewrite processed_snoc, take_app_le; [done|].
      pose proof (inv_pos _ _ HI). lia. }
    destruct (o_reply o) as [r| |s|] eqn:Ho.
    2-4: destruct (client_run c' p ins) as [rs0 tr0] eqn:Hr; injection Hrun as -> <-;
         by eapply Hsilent.
    destruct arr.
    2: destruct (client_run c' p ins) as [rs0 tr0] eqn:Hr; injection Hrun as -> <-;
       by eapply Hsilent.
    destruct (client_run c' (r_pos r) ins) as [rs0 tr0] eqn:Hr. injection Hrun as <- <-.
    specialize (Hf r eq_refl).
    assert (Hold : oldest_after p (tr ++ [(q, h, o)]) r) by (apply front_oldest; [lia|done]).
    assert (Hrp : r_pos r = p + 1) by (eapply oldest_is_next; [done|done|lia]).
    destruct Hold as (Hin & _). apply number_elem in Hin as (i & tp & Hi & ->). cbn in Hrp.
    assert (i = Z.to_nat p) as -> by lia.
    cbn [r_pos] in Hr.
    specialize (IH c' (1 + Z.of_nat (Z.to_nat p)) (tr ++ [(q, h, o)]) rs0 tr0 HI').
    pose proof (lookup_lt_Some _ _ _ Hi) as Hlt.
    pose proof (inv_pos _ _ HI') as Hcp'.
    feed specialize IH; [lia| |done|].
    { intros e He Ha. specialize (Hall' e He Ha). lia. }
    rewrite <- app_assoc in IH. cbn [app] in IH.
    replace (Z.to_nat (1 + Z.of_nat (Z.to_nat p))) with (S (Z.to_nat p)) in IH by lia.
    rewrite (number_take_snoc _ _ _ _ Hi) in IH. cbn [length].
    replace (Z.to_nat p + S (length rs0))%nat with (S (Z.to_nat p) + length rs0)%nat by lia.
    etrans; [|exact IH]. rewrite <- app_assoc. cbn [app]. f_equal. f_equal.
    rewrite processed_snoc, take_app_le; [done|].
    pose proof (inv_pos _ _ HI). lia.
  Qed.

  Lemma client_run_ok ins rs tr :
    client_run (new_conn z) 0 ins = (rs, tr) ->
    rs = take (length rs) (produced tr).
  Proof.
    intros Hr. pose proof (client_run_gen (new_conn z) 0 [] ins rs tr Inv_new) as H.
    feed specialize H; [cbn; lia|intros e He; by apply elem_of_nil in He|done|].
    cbn [take Z.to_nat number app Nat.add] in H. unfold produced.
    rewrite H at 1. apply list_eq. intros i.
    destruct (decide (i < length rs)%nat) as [Hi|Hi].
    - rewrite lookup_take by done. rewrite !number_lookup, lookup_take by done. done.
    - rewrite (lookup_take_ge (number _ _)) by lia. rewrite number_lookup, lookup_take_ge by lia. done.
  Qed.
End proofs.
