(** Proofs about requests at the same time. *)
From Verif Require Import Prelude ConnModel ReqsModel ReqsSpec.
Open Scope string_scope. Open Scope list_scope. Open Scope Z_scope.

Section reqs.
  Context {Body Payload : Type} `{EqDecision Body} (body_zero : Body).
  Notation world := (@world Body Payload).
  Notation act := (@act Body Payload).
  Notation place := (@place Body Payload).
  Implicit Types w : world.
  Implicit Types a : act.

  Lemma begin_spec (c : conn Body Payload) q h :
    on_incoming c q h = match begin c q with
                        | (c', inl rep) => (c', mk_outcome rep None)
                        | (c', inr (q', next)) => process c' q' next h
                        end.
  Proof.
    unfold on_incoming, begin. destruct (q_pos q =? 0); cbn [negb andb].
    - destruct (scan (q_pos q) 0 0 (c_resps c)) as [del [n|]]; reflexivity.
    - destruct (q_pos (c_last c) =? q_pos q); cbn [negb andb].
      + destruct (scan (q_pos q) 0 0 (c_resps c)) as [del [n|]]; destruct (same_request (c_last c) q); reflexivity.
      + destruct (is_outstanding c (q_pos q)); cbn [negb]; [|reflexivity].
        destruct (scan (q_pos q) 0 0 (c_resps c)) as [del [n|]]; destruct (same_request (c_last c) q); reflexivity.
  Qed.

  Lemma acts_app w l1 l2 : acts w (l1 ++ l2) = match acts w l1 with Some w' => acts w' l2 | None => None end.
  Proof. revert w. induction l1 as [|a l1 IH]; intros w; cbn [acts app]; [reflexivity|]. destruct (act1 w a); [apply IH|reflexivity]. Qed.

  (** What a step does to the requests. *)
  Lemma move_lookup w i p j :
    move w i p !! j = if decide (i = j) then (fun r => mk_rq (v_req r) p (v_outer r) (v_inner r)) <$> w_reqs w !! j else w_reqs w !! j.
  Proof. unfold move. case_decide as E; [subst; by rewrite list_lookup_alter|by rewrite list_lookup_alter_ne]. Qed.
  Lemma end_inner_lookup (l : list (@rq Body Payload)) o j :
    end_inner l o !! j = if decide (o = Some j) then (fun r => mk_rq (v_req r) (v_at r) (v_outer r) true) <$> l !! j else l !! j.
  Proof.
    unfold end_inner. destruct o as [i|]; case_decide as E; [|by rewrite list_lookup_alter_ne by congruence|done|done].
    injection E as ->. by rewrite list_lookup_alter.
  Qed.
  Lemma end_outer_lookup (l : list (@rq Body Payload)) o j :
    end_outer l o !! j = if decide (o = Some j) then (fun r => mk_rq (v_req r) (v_at r) true (v_inner r)) <$> l !! j else l !! j.
  Proof.
    unfold end_outer. destruct o as [i|]; case_decide as E; [|by rewrite list_lookup_alter_ne by congruence|done|done].
    injection E as ->. by rewrite list_lookup_alter.
  Qed.
  Lemma place_move c w i p h s t o g j :
    at_place (mk_world c (move w i p) h s t o g) j = if decide (i = j) then (fun _ => p) <$> w_reqs w !! j else at_place w j.
  Proof. unfold at_place. cbn [w_reqs]. rewrite move_lookup. case_decide; [|done]. by destruct (w_reqs w !! j). Qed.
  Lemma place_inner c l k h s t o g j :
    at_place (mk_world c (end_inner l k) h s t o g : world) j = v_at <$> l !! j.
  Proof. unfold at_place. cbn [w_reqs]. rewrite end_inner_lookup. case_decide; [|done]. by destruct (l !! j). Qed.
  Lemma place_outer c l k h s t o g j :
    at_place (mk_world c (end_outer l k) h s t o g : world) j = v_at <$> l !! j.
  Proof. unfold at_place. cbn [w_reqs]. rewrite end_outer_lookup. case_decide; [|done]. by destruct (l !! j). Qed.
  Lemma place_app c l r h s t o g j :
    at_place (mk_world c (l ++ [r]) h s t o g : world) j = if decide (j = length l) then Some (v_at r) else v_at <$> l !! j.
  Proof.
    unfold at_place. cbn [w_reqs]. destruct (decide (j = length l)) as [->|N].
    - by rewrite lookup_app_r, Nat.sub_diag by lia.
    - destruct (decide (j < length l)%nat) as [L|L]; [by rewrite lookup_app_l by lia|].
      rewrite lookup_app_r by lia. destruct (j - length l)%nat as [|k] eqn:E; [lia|]. cbn. rewrite lookup_ge_None_2 by lia. reflexivity.
  Qed.
  Lemma place_move' w i p j : v_at <$> move w i p !! j = if decide (i = j) then (fun _ => p) <$> w_reqs w !! j else at_place w j.
  Proof. rewrite move_lookup. case_decide; [|reflexivity]. by destruct (w_reqs w !! j). Qed.

  (** The request that a step is about moves as follows, and the others stay. *)
  Definition who (w : world) (a : act) : option nat :=
    match a with
    | Find _ => Some (length (w_reqs w))
    | Call i | Reject i | Ask i | Lock i | Register i | Begin i | End i _ => Some i
    | Gone _ | Close => None
    end.
  Definition next_place (w : world) (a : act) (old new : option place) : Prop :=
    match a with
    | Find q => old = None /\ new = Some Found
    | Call _ => old = Some Found /\ new = Some Called
    | Reject _ => old = Some Called /\ new = Some Rejected
    | Ask _ => old = Some Called /\ new = Some Waiting
    | Lock _ => old = Some Waiting /\ new = Some Locked
    | Register _ => old = Some Locked /\ new = Some Registered
    | Begin _ => old = Some Registered /\ match new with Some (Done _) | Some (Handling _ _) => True | _ => False end
    | End _ _ => (exists q n, old = Some (Handling q n)) /\ exists r, new = Some (Done r)
    | Gone _ | Close => False
    end.
  Lemma at_reqs w i p : at_place w i = Some p -> exists r, w_reqs w !! i = Some r /\ v_at r = p.
  Proof. unfold at_place. destruct (w_reqs w !! i) as [r|]; [|done]. intros [= <-]. by exists r. Qed.

  Ltac step_cases E w :=
    unfold act1 in E;
    repeat match type of E with
    | context [match at_place w ?i with _ => _ end] => let H := fresh "Hp" in destruct (at_place w i) as [[]|] eqn:H; try discriminate E
    end.

  Lemma act_places w a w' :
    act1 w a = Some w' ->
    (forall i, who w a <> Some i -> at_place w' i = at_place w i)
    /\ (forall i, who w a = Some i -> next_place w a (at_place w i) (at_place w' i)).
  Proof.
    intros E. destruct a as [q|i|i|i|i|i|i|i h|i|]; cbn [who].
    - cbn [act1] in E. destruct (w_open w); [|discriminate]. injection E as <-. split; intros i Hi.
      + rewrite place_app. case_decide as D; [subst; done|reflexivity].
      + injection Hi as <-. cbn [next_place]. rewrite place_app, decide_True by done. split; [|done].
        unfold at_place. by rewrite lookup_ge_None_2 by lia.
    - step_cases E w. injection E as <-. split; intros j Hj.
      + rewrite place_move, decide_False by congruence. reflexivity.
      + injection Hj as <-. cbn [next_place]. rewrite place_move, decide_True by done. apply at_reqs in Hp as Hr. destruct Hr as (r & Hr & _). by rewrite Hr.
    - step_cases E w. injection E as <-. split; intros j Hj.
      + rewrite place_move, decide_False by congruence. reflexivity.
      + injection Hj as <-. cbn [next_place]. rewrite place_move, decide_True by done. apply at_reqs in Hp as Hr. destruct Hr as (r & Hr & _). by rewrite Hr.
    - step_cases E w. injection E as <-. split; intros j Hj.
      + rewrite place_inner, place_move', decide_False by congruence. reflexivity.
      + injection Hj as <-. cbn [next_place]. rewrite place_inner, place_move', decide_True by done. apply at_reqs in Hp as Hr. destruct Hr as (r & Hr & _). by rewrite Hr.
    - step_cases E w. destruct (w_holder w); [discriminate|]. injection E as <-. split; intros j Hj.
      + rewrite place_move, decide_False by congruence. reflexivity.
      + injection Hj as <-. cbn [next_place]. rewrite place_move, decide_True by done. apply at_reqs in Hp as Hr. destruct Hr as (r & Hr & _). by rewrite Hr.
    - step_cases E w. injection E as <-. split; intros j Hj.
      + rewrite place_move, decide_False by congruence. reflexivity.
      + injection Hj as <-. cbn [next_place]. rewrite place_move, decide_True by done. apply at_reqs in Hp as Hr. destruct Hr as (r & Hr & _). by rewrite Hr.
    - cbn [act1] in E. destruct (w_reqs w !! i) as [r|] eqn:Er; [|discriminate]. destruct (v_at r) eqn:Ev; try discriminate E.
      assert (Hp : at_place w i = Some Registered) by (unfold at_place; by rewrite Er; cbn; rewrite Ev).
      destruct (begin (w_conn w) (v_req r)) as [c [rep|[q n]]]; injection E as <-; (split; intros j Hj);
        [rewrite place_move, decide_False by congruence; reflexivity
        |injection Hj as <-; cbn [next_place]; rewrite place_move, decide_True, Er by done; by split
        |rewrite place_move, decide_False by congruence; reflexivity
        |injection Hj as <-; cbn [next_place]; rewrite place_move, decide_True, Er by done; by split].
    - step_cases E w. destruct (process (w_conn w) q next h) as [c o]. injection E as <-. split; intros j Hj.
      + rewrite place_move, decide_False by congruence. reflexivity.
      + injection Hj as <-. cbn [next_place]. rewrite place_move, decide_True by done. apply at_reqs in Hp as Hr. destruct Hr as (r & Hr & _). rewrite Hr.
        split; [by do 2 eexists|by eexists].
    - cbn [act1] in E. apply (inj Some) in E. subst w'. split; [|done]. intros j _. rewrite place_outer. reflexivity.
    - cbn [act1] in E. apply (inj Some) in E. subst w'. split; [|done]. intros j _. rewrite place_outer. reflexivity.
  Qed.

  (** The shared variables. *)
  Lemma act_shared w a w' :
    act1 w a = Some w' ->
    w_holder w' = match a with
                  | Lock i => Some i
                  | End _ _ => None
                  | Begin i => match at_place w' i with Some (Done _) => None | _ => w_holder w end
                  | _ => w_holder w end
    /\ w_slot w' = match a with Register i => Some i | _ => w_slot w end
    /\ w_latest w' = match a with Call i => Some i | _ => w_latest w end
    /\ (match a with Lock _ => w_holder w = None | _ => True end).
  Proof.
    intros E. destruct a as [q|i|i|i|i|i|i|i h|i|].
    - cbn [act1] in E. destruct (w_open w); [|discriminate]. by injection E as <-.
    - step_cases E w. by injection E as <-.
    - step_cases E w. by injection E as <-.
    - step_cases E w. by injection E as <-.
    - step_cases E w. destruct (w_holder w); [discriminate|]. by injection E as <-.
    - step_cases E w. by injection E as <-.
    - cbn [act1] in E. destruct (w_reqs w !! i) as [r|] eqn:Er; [|discriminate]. destruct (v_at r) eqn:Ev; try discriminate E.
      destruct (begin (w_conn w) (v_req r)) as [c [rep|[q n]]]; injection E as <-; rewrite place_move, decide_True, Er by done; by repeat split.
    - step_cases E w. destruct (process (w_conn w) q next h) as [c o]. by injection E as <-.
    - cbn [act1] in E. by injection E as <-.
    - cbn [act1] in E. by injection E as <-.
  Qed.

  Definition inv w : Prop :=
    (forall i, inside w i <-> w_holder w = Some i) /\ (forall i, served w i -> w_slot w = Some i).
  Lemma inv0 : inv (world0 body_zero).
  Proof. split; intros i; unfold inside, served, at_place, world0; cbn; done. Qed.
  Lemma inv_act w a w' : act1 w a = Some w' -> inv w -> inv w'.
  Proof.
    intros E [I1 I2]. destruct (act_places w a w' E) as [Hs Hn]. destruct (act_shared w a w' E) as (Hh & Hsl & _ & Hf).
    assert (Same : forall i, who w a <> Some i -> (inside w' i <-> inside w i) /\ (served w' i <-> served w i)).
    { intros i Hi. unfold inside, served. by rewrite (Hs i Hi). }
    assert (Uniq : forall i j, inside w i -> inside w j -> i = j).
    { intros i j Hi Hj. apply I1 in Hi, Hj. congruence. }
    assert (SI : forall i, served w i -> inside w i). { intros i. unfold inside, served. by destruct (at_place w i) as [[]|]. }
    destruct (who w a) as [k|] eqn:Ek.
    - specialize (Hn k eq_refl). split; intros i.
      + destruct (decide (k = i)) as [<-|N].
        * unfold inside at 1. pose proof (I1 k) as Ik. unfold inside in Ik.
          destruct a as [q|x|x|x|x|x|x|x h|x|]; cbn [who] in Ek; try discriminate Ek; injection Ek as Ek; try subst k; cbn [next_place] in Hn;
            try (destruct Hn as [Ho Hnw]; rewrite Hnw, Hh; rewrite Ho in Ik; exact Ik || (split; congruence) || tauto).
          -- destruct Hn as [Ho Hnw]. rewrite Ho in Ik. rewrite Hh. destruct (at_place w' x) as [[]|]; try done; tauto.
          -- destruct Hn as [(q & n & Ho) [r Hnw]]. rewrite Hnw, Hh. done.
        * destruct (Same i) as [-> _]; [congruence|]. rewrite I1, Hh.
          destruct a as [q|x|x|x|x|x|x|x h|x|]; cbn [who] in Ek; try discriminate Ek; injection Ek as Ek; try subst k; try reflexivity.
          -- rewrite Hf. split; congruence.
          -- cbn [next_place] in Hn. destruct Hn as [Ho Hnw]. assert (Hx : inside w x) by (unfold inside; by rewrite Ho). apply I1 in Hx.
             destruct (at_place w' x) as [[]|]; try done; rewrite ?Hx; split; congruence.
          -- cbn [next_place] in Hn. destruct Hn as [(q & n & Ho) _]. assert (Hx : inside w x) by (unfold inside; by rewrite Ho). apply I1 in Hx.
             rewrite Hx. split; congruence.
      + destruct (decide (k = i)) as [<-|N].
        * unfold served. pose proof (I2 k) as Ik. unfold served in Ik.
          destruct a as [q|x|x|x|x|x|x|x h|x|]; cbn [who] in Ek; try discriminate Ek; injection Ek as Ek; try subst k; cbn [next_place] in Hn;
            try (destruct Hn as [Ho Hnw]; rewrite Hnw, Hsl; rewrite ?Ho in Ik; done).
          -- destruct Hn as [Ho Hnw]. rewrite Ho in Ik. rewrite Hsl. intros _. by apply Ik.
          -- destruct Hn as [_ [r Hnw]]. by rewrite Hnw.
        * intros Hsv. apply (Same i) in Hsv; [|congruence]. rewrite Hsl.
          destruct a as [q|x|x|x|x|x|x|x h|x|]; try (by apply I2).
          cbn [who] in Ek. injection Ek as ->. cbn [next_place] in Hn. destruct Hn as [Ho _]. exfalso. apply N, Uniq; [|by apply SI].
          unfold inside. by rewrite Ho.
    - split; intros i.
      + destruct (Same i) as [-> _]; [congruence|]. rewrite I1, Hh. destruct a; cbn [who] in Ek; try discriminate Ek; reflexivity.
      + intros Hsv. apply (Same i) in Hsv; [|congruence]. rewrite Hsl. destruct a; cbn [who] in Ek; try discriminate Ek; by apply I2.
  Qed.
  Lemma inv_acts l w w' : acts w l = Some w' -> inv w -> inv w'.
  Proof.
    revert w. induction l as [|a l IH]; intros w; cbn [acts]; [by intros [= <-]|].
    destruct (act1 w a) as [w1|] eqn:E; [|done]. intros H Hi. apply (IH w1); [done|]. by apply (inv_act w a).
  Qed.

  (** ** The contexts *)
  Lemma act_flags w a w' i r :
    act1 w a = Some w' -> w_reqs w !! i = Some r ->
    exists r', w_reqs w' !! i = Some r' /\ v_req r' = v_req r
      /\ v_inner r' = v_inner r || match a with Ask _ => bool_decide (w_slot w = Some i) | _ => false end
      /\ v_outer r' = v_outer r || match a with Gone j => bool_decide (i = j) | Close => bool_decide (w_latest w = Some i) | _ => false end.
  Proof.
    intros E Hr.
    assert (Hm : forall j p, exists r', move w j p !! i = Some r' /\ v_req r' = v_req r /\ v_inner r' = v_inner r /\ v_outer r' = v_outer r).
    { intros j p. rewrite move_lookup, Hr. case_decide; cbn; by eexists. }
    destruct a as [q|j|j|j|j|j|j|j h|j|].
    - cbn [act1] in E. destruct (w_open w); [|discriminate]. injection E as <-. exists r. cbn [w_reqs]. rewrite !orb_false_r.
      split; [by apply lookup_app_l_Some|done].
    - step_cases E w. injection E as <-. cbn [w_reqs]. destruct (Hm j Called) as (r' & ? & ? & ? & ?). exists r'. by rewrite !orb_false_r.
    - step_cases E w. injection E as <-. cbn [w_reqs]. destruct (Hm j Rejected) as (r' & ? & ? & ? & ?). exists r'. by rewrite !orb_false_r.
    - step_cases E w. injection E as <-. cbn [w_reqs]. destruct (Hm j Waiting) as (r' & Hr' & ? & Hi & ?).
      rewrite end_inner_lookup, Hr'. case_decide as D; cbn.
      + eexists. split; [reflexivity|]. cbn. rewrite bool_decide_eq_true_2 by done. rewrite orb_true_r, orb_false_r. done.
      + eexists. split; [reflexivity|]. rewrite bool_decide_eq_false_2 by done. by rewrite !orb_false_r.
    - step_cases E w. destruct (w_holder w); [discriminate|]. injection E as <-. cbn [w_reqs]. destruct (Hm j Locked) as (r' & ? & ? & ? & ?). exists r'. by rewrite !orb_false_r.
    - step_cases E w. injection E as <-. cbn [w_reqs]. destruct (Hm j Registered) as (r' & ? & ? & ? & ?). exists r'. by rewrite !orb_false_r.
    - cbn [act1] in E. destruct (w_reqs w !! j) as [rj|] eqn:Er; [|discriminate]. destruct (v_at rj) eqn:Ev; try discriminate E.
      destruct (begin (w_conn w) (v_req rj)) as [c [rep|[q n]]]; injection E as <-; cbn [w_reqs].
      + destruct (Hm j (Done rep)) as (r' & ? & ? & ? & ?). exists r'. by rewrite !orb_false_r.
      + destruct (Hm j (Handling q n)) as (r' & ? & ? & ? & ?). exists r'. by rewrite !orb_false_r.
    - step_cases E w. destruct (process (w_conn w) q next h) as [c o]. injection E as <-. cbn [w_reqs].
      destruct (Hm j (Done (o_reply o))) as (r' & ? & ? & ? & ?). exists r'. by rewrite !orb_false_r.
    - cbn [act1] in E. apply (inj Some) in E. subst w'. cbn [w_reqs]. rewrite end_outer_lookup, Hr. case_decide as D; cbn.
      + injection D as ->. eexists. split; [reflexivity|]. cbn. rewrite bool_decide_eq_true_2 by done. by rewrite orb_true_r, orb_false_r.
      + eexists. split; [reflexivity|]. rewrite bool_decide_eq_false_2 by congruence. by rewrite !orb_false_r.
    - cbn [act1] in E. apply (inj Some) in E. subst w'. cbn [w_reqs]. rewrite end_outer_lookup, Hr. case_decide as D; cbn.
      + eexists. split; [reflexivity|]. cbn. rewrite bool_decide_eq_true_2 by done. by rewrite orb_true_r, orb_false_r.
      + eexists. split; [reflexivity|]. rewrite bool_decide_eq_false_2 by done. by rewrite !orb_false_r.
  Qed.
  Lemma told_mono l : forall w w' i, acts w l = Some w' -> is_told w i -> is_told w' i.
  Proof.
    induction l as [|a l IH]; intros w w' i; cbn [acts]; [by intros [= <-]|]. destruct (act1 w a) as [w1|] eqn:E; [|done].
    intros H (r & Hr & Ht). apply (IH w1 w' i H). destruct (act_flags w a w1 i r E Hr) as (r' & Hr' & _ & Hi & Ho). exists r'. split; [done|].
    unfold told_to_end in *. rewrite Hi, Ho. destruct (v_inner r), (v_outer r); cbn in *; try done; rewrite ?orb_true_r; done.
  Qed.

  (** ** In turn *)
  Lemma run_from_app (c : conn Body Payload) l1 l2 :
    run_from c (l1 ++ l2) = let '(c1, t1) := run_from c l1 in let '(c2, t2) := run_from c1 l2 in (c2, t1 ++ t2).
  Proof.
    revert c. induction l1 as [|[q h] l1 IH]; intros c; cbn [run_from app].
    - destruct (run_from c l2). reflexivity.
    - destruct (on_incoming c q h) as [c1 o]. rewrite IH. destruct (run_from c1 l1) as [c2 t1]. destruct (run_from c2 l2). reflexivity.
  Qed.
  Lemma run_from_length (c : conn Body Payload) l : length (run_from c l).2 = length l.
  Proof.
    revert c. induction l as [|[q h] l IH]; intros c; cbn [run_from]; [reflexivity|]. destruct (on_incoming c q h) as [c1 o].
    specialize (IH c1). destruct (run_from c1 l). cbn in *. lia.
  Qed.

  (** [tr] is the history with the outcomes. *)
  Definition in_turn w : Prop :=
    (forall i h, In (i, h) (w_log w) -> exists rep, at_place w i = Some (Done rep))
    /\ (forall i rep, at_place w i = Some (Done rep) -> In i (map fst (w_log w)))
    /\ NoDup (map fst (w_log w))
    /\ (forall k i h, w_log w !! k = Some (i, h) ->
          exists r o, w_reqs w !! i = Some r /\ (run body_zero (history w)).2 !! k = Some (v_req r, h, o) /\ v_at r = Done (o_reply o))
    /\ (forall i r q n, w_reqs w !! i = Some r -> v_at r = Handling q n -> begin (run body_zero (history w)).1 (v_req r) = (w_conn w, inr (q, n)))
    /\ ((forall i q n, at_place w i <> Some (Handling q n)) -> w_conn w = (run body_zero (history w)).1).

  Lemma history_length w : (forall i h, In (i, h) (w_log w) -> is_Some (w_reqs w !! i)) -> length (history w) = length (w_log w).
  Proof.
    unfold history. induction (w_log w) as [|[i h] l IH]; intros H; [reflexivity|]. cbn [flat_map fst snd].
    destruct (H i h) as [r ->]; [by left|]. rewrite app_length, IH; [reflexivity|]. intros j g Hj. apply (H j g). by right.
  Qed.
  Lemma history_same w w' :
    w_log w' = w_log w -> (forall i h, In (i, h) (w_log w) -> v_req <$> w_reqs w' !! i = v_req <$> w_reqs w !! i) -> history w' = history w.
  Proof.
    intros Hl H. unfold history. rewrite Hl. clear Hl. induction (w_log w) as [|[i h] l IH]; [reflexivity|]. cbn [flat_map fst snd].
    rewrite IH by (intros j g Hj; apply (H j g); by right). f_equal. specialize (H i h (or_introl eq_refl)).
    destruct (w_reqs w' !! i), (w_reqs w !! i); cbn in H; try discriminate H; [|reflexivity]. by injection H as ->.
  Qed.

  Lemma reqs_kept w a w' i r : act1 w a = Some w' -> w_reqs w !! i = Some r -> exists r', w_reqs w' !! i = Some r' /\ v_req r' = v_req r.
  Proof. intros E Hr. destruct (act_flags w a w' i r E Hr) as (r' & H1 & H2 & _). by exists r'. Qed.
  Lemma reqs_back w a w' i r' : act1 w a = Some w' -> at_place w i <> None -> w_reqs w' !! i = Some r' ->
    exists r, w_reqs w !! i = Some r /\ v_req r' = v_req r.
  Proof.
    intros E Hn Hr. unfold at_place in Hn. destruct (w_reqs w !! i) as [r|] eqn:Er; [|done]. destruct (reqs_kept w a w' i r E Er) as (r2 & H1 & H2).
    exists r. split; [done|]. congruence.
  Qed.

  (** A step after which the same requests are done and in the handler. *)
  Lemma in_turn_same w a w' :
    act1 w a = Some w' -> w_log w' = w_log w -> w_conn w' = w_conn w ->
    (forall i rep, at_place w' i = Some (Done rep) <-> at_place w i = Some (Done rep)) ->
    (forall i q n, at_place w' i = Some (Handling q n) <-> at_place w i = Some (Handling q n)) ->
    in_turn w -> in_turn w'.
  Proof.
    intros E Hl Hc Hd Hh (I1 & I2 & I3 & I4 & I5 & I6).
    assert (Hist : history w' = history w).
    { apply history_same; [done|]. intros i h Hi. destruct (I1 i h Hi) as [rep Hr]. apply at_reqs in Hr as (r & Hr & _).
      destruct (reqs_kept w a w' i r E Hr) as (r' & Hr' & Eq). rewrite Hr, Hr'. cbn. by rewrite Eq. }
    unfold in_turn. rewrite Hl, Hist, Hc. split; [|split; [|split; [|split; [|split]]]].
    - intros i h Hi. destruct (I1 i h Hi) as [rep Hr]. exists rep. by apply Hd.
    - intros i rep Hi. apply Hd in Hi. by apply (I2 i rep).
    - done.
    - intros k i h Hk. destruct (I4 k i h Hk) as (r & o & Hr & Ht & Ha). destruct (reqs_kept w a w' i r E Hr) as (r' & Hr' & Eq).
      exists r', o. split; [done|]. rewrite Eq. split; [done|].
      assert (at_place w i = Some (Done (o_reply o))) as D by (unfold at_place; by rewrite Hr; cbn; rewrite Ha).
      apply Hd in D. unfold at_place in D. rewrite Hr' in D. by injection D.
    - intros i r q n Hr Ha. assert (at_place w' i = Some (Handling q n)) as D by (unfold at_place; by rewrite Hr; cbn; rewrite Ha).
      apply Hh in D. destruct (reqs_back w a w' i r E) as (r0 & Hr0 & Eq); [by rewrite D|done|]. rewrite Eq. apply (I5 i r0 q n Hr0).
      unfold at_place in D. rewrite Hr0 in D. by injection D.
    - intros Hno. apply I6. intros i q n D. apply Hh in D. by apply (Hno i q n).
  Qed.

  (** A step with which request [i] is done. *)
  Lemma in_turn_done w a w' i r h o :
    act1 w a = Some w' -> inv w -> w_reqs w !! i = Some r ->
    w_log w' = w_log w ++ [(i, h)] ->
    on_incoming (run body_zero (history w)).1 (v_req r) h = (w_conn w', o) ->
    inside w i -> (forall j, j <> i -> at_place w' j = at_place w j) -> at_place w' i = Some (Done (o_reply o)) ->
    in_turn w -> in_turn w'.
  Proof.
    intros E [Iv1 Iv2] Hr Hl Ho Hin Hs Hd (I1 & I2 & I3 & I4 & I5 & I6).
    assert (Hnl : ~ In i (map fst (w_log w))).
    { intros [[j g] [Hj Hi]]%in_map_iff. cbn in Hj. subst j. destruct (I1 i g Hi) as [rep Hx]. unfold inside in Hin. by rewrite Hx in Hin. }
    destruct (reqs_kept w a w' i r E Hr) as (ri & Hri & Eqi).
    assert (Hist : history w' = history w ++ [(v_req r, h)]).
    { unfold history. rewrite Hl, flat_map_app. cbn [flat_map fst snd app]. rewrite Hri, Eqi. f_equal.
      assert (Hx : forall j g, In (j, g) (w_log w) -> v_req <$> w_reqs w' !! j = v_req <$> w_reqs w !! j).
      { intros j g Hj. destruct (I1 j g Hj) as [rep Hx]. apply at_reqs in Hx as (rj & Hrj & _).
        destruct (reqs_kept w a w' j rj E Hrj) as (r' & Hr' & Eq). rewrite Hrj, Hr'. cbn. by rewrite Eq. }
      clear -Hx. induction (w_log w) as [|[j g] l IH]; [reflexivity|]. cbn [flat_map fst snd].
      rewrite IH by (intros k f Hk; apply (Hx k f); by right). f_equal. specialize (Hx j g (or_introl eq_refl)).
      destruct (w_reqs w' !! j), (w_reqs w !! j); cbn in Hx; try discriminate Hx; [|reflexivity]. by injection Hx as ->. }
    assert (Hlen : length (run body_zero (history w)).2 = length (w_log w)).
    { unfold run. rewrite run_from_length. apply history_length. intros j g Hj. destruct (I1 j g Hj) as [rep Hx]. apply at_reqs in Hx as (rj & Hrj & _). by exists rj. }
    assert (Hrun : run body_zero (history w') = (w_conn w', (run body_zero (history w)).2 ++ [(v_req r, h, o)])).
    { unfold run in *. rewrite Hist, run_from_app. destruct (run_from (new_conn body_zero) (history w)) as [c1 t1]. cbn [fst snd] in *.
      cbn [run_from]. by rewrite Ho. }
    assert (Hnh : forall j q n, at_place w' j <> Some (Handling q n)).
    { intros j q n D. destruct (decide (j = i)) as [->|N]; [congruence|]. rewrite (Hs j N) in D. apply N.
      assert (Hj : inside w j) by (unfold inside; by rewrite D). apply Iv1 in Hj, Hin. congruence. }
    unfold in_turn. rewrite Hrun. cbn [fst snd]. rewrite Hl. split; [|split; [|split; [|split; [|split]]]].
    - intros j g [Hj|[[= <- <-]|[]]]%in_app_or; [|by eexists]. destruct (I1 j g Hj) as [rep Hx]. exists rep. rewrite Hs; [done|].
      intros ->. apply Hnl. apply in_map_iff. by exists (i, g).
    - intros j rep Hj. rewrite map_app. apply in_or_app. destruct (decide (j = i)) as [->|N]; [right; by left|]. left.
      rewrite (Hs j N) in Hj. by apply (I2 j rep).
    - rewrite map_app. apply NoDup_app. split; [done|]. split; [|cbn; constructor; [by intros ?%elem_of_nil|constructor]].
      intros x Hx Hy. cbn in Hy. apply elem_of_list_singleton in Hy as ->. by apply Hnl, elem_of_list_In.
    - intros k j g Hk. destruct (decide (k < length (w_log w))%nat) as [L|L].
      + rewrite lookup_app_l in Hk by done. destruct (I4 k j g Hk) as (rj & oj & Hrj & Ht & Ha).
        assert (Nj : j <> i). { intros ->. apply Hnl. apply in_map_iff. exists (i, g). split; [done|]. apply elem_of_list_In. by apply elem_of_list_lookup_2 in Hk. }
        destruct (reqs_kept w a w' j rj E Hrj) as (r' & Hr' & Eq). exists r', oj. split; [done|]. rewrite Eq, lookup_app_l by exact (eq_ind_r (fun n => (k < n)%nat) L Hlen).
        split; [done|]. specialize (Hs j Nj). unfold at_place in Hs. rewrite Hrj, Hr' in Hs. injection Hs as ->. done.
      + rewrite lookup_app_r in Hk by lia. destruct (k - length (w_log w))%nat as [|k'] eqn:Ek; [|by destruct k'].
        injection Hk as <- <-. exists ri, o. split; [done|]. rewrite Eqi. rewrite lookup_app_r by exact (eq_ind_r (fun n => (n <= k)%nat) (proj1 (Nat.nlt_ge _ _) L) Hlen).
        match goal with |- context [(k - ?n)%nat] => assert (Hz : (k - n)%nat = 0%nat); [exact (eq_ind_r (fun m => (k - m)%nat = 0%nat) Ek Hlen)|rewrite Hz] end. split; [done|]. unfold at_place in Hd. rewrite Hri in Hd. by injection Hd.
    - intros j rj q n Hrj Ha. exfalso. apply (Hnh j q n). unfold at_place. rewrite Hrj. cbn. by rewrite Ha.
    - reflexivity.
  Qed.

  Lemma in_turn_act w a w' : act1 w a = Some w' -> inv w -> in_turn w -> in_turn w'.
  Proof.
    intros E Hinv Ht. destruct (act_places w a w' E) as [Hs Hn].
    assert (Simple : w_log w' = w_log w -> w_conn w' = w_conn w ->
      (forall i, who w a = Some i -> (forall rep, at_place w i <> Some (Done rep) /\ at_place w' i <> Some (Done rep))
         /\ forall q n, at_place w i <> Some (Handling q n) /\ at_place w' i <> Some (Handling q n)) -> in_turn w').
    { intros Hl Hc Hx. apply (in_turn_same w a w' E Hl Hc); [| |done].
      - intros i rep. destruct (decide (who w a = Some i)) as [W|W]; [|by rewrite Hs]. destruct (Hx i W) as [Hd _]. destruct (Hd rep). done.
      - intros i q n. destruct (decide (who w a = Some i)) as [W|W]; [|by rewrite Hs]. destruct (Hx i W) as [_ Hd]. destruct (Hd q n). done. }
    destruct a as [q|i|i|i|i|i|i|i h|i|]; cbn [who] in *.
    - assert (Ew := E). cbn [act1] in Ew. destruct (w_open w); [|discriminate]. apply (inj Some) in Ew. apply Simple; [by rewrite <-Ew..|].
      intros j [= <-]. destruct (Hn _ eq_refl) as [-> ->]. done.
    - assert (Ew := E). step_cases Ew w. apply (inj Some) in Ew. apply Simple; [by rewrite <-Ew..|]. intros j [= <-]. destruct (Hn _ eq_refl) as [-> ->]. done.
    - assert (Ew := E). step_cases Ew w. apply (inj Some) in Ew. apply Simple; [by rewrite <-Ew..|]. intros j [= <-]. destruct (Hn _ eq_refl) as [-> ->]. done.
    - assert (Ew := E). step_cases Ew w. apply (inj Some) in Ew. apply Simple; [by rewrite <-Ew..|]. intros j [= <-]. destruct (Hn _ eq_refl) as [-> ->]. done.
    - assert (Ew := E). step_cases Ew w. destruct (w_holder w); [discriminate|]. apply (inj Some) in Ew. apply Simple; [by rewrite <-Ew..|]. intros j [= <-]. destruct (Hn _ eq_refl) as [-> ->]. done.
    - assert (Ew := E). step_cases Ew w. apply (inj Some) in Ew. apply Simple; [by rewrite <-Ew..|]. intros j [= <-]. destruct (Hn _ eq_refl) as [-> ->]. done.
    - destruct (Hn i eq_refl) as [Ho _]. assert (Ew := E). cbn [act1] in Ew. destruct (w_reqs w !! i) as [r|] eqn:Er; [|discriminate].
      destruct (v_at r) eqn:Ev; try discriminate Ew.
      assert (Hin : inside w i) by (unfold inside; by rewrite Ho).
      assert (Hc : w_conn w = (run body_zero (history w)).1).
      { destruct Ht as (_ & _ & _ & _ & _ & I6). apply I6. intros j q n D.
        assert (Hj : inside w j) by (unfold inside; by rewrite D). destruct Hinv as [Iv1 _]. apply Iv1 in Hj, Hin. assert (i = j) by congruence. subst j. congruence. }
      destruct (begin (w_conn w) (v_req r)) as [c [rep|[q n]]] eqn:Eb; apply (inj Some) in Ew.
      + apply (in_turn_done w (Begin i) w' i r (HErr 0 (q_body (v_req r))) (mk_outcome rep None)); try done.
        * by rewrite <-Ew.
        * rewrite <-Hc, begin_spec, Eb, <-Ew. reflexivity.
        * intros j Nj. apply Hs. congruence.
        * rewrite <-Ew, place_move, decide_True, Er by done. reflexivity.
      + destruct Ht as (I1 & I2 & I3 & I4 & I5 & I6).
        assert (Hh : history w' = history w).
        { apply history_same; [by rewrite <-Ew|]. intros j g Hj. destruct (I1 j g Hj) as [rep Hx]. apply at_reqs in Hx as (rj & Hrj & _).
          destruct (reqs_kept _ _ _ _ _ E Hrj) as (r' & Hr' & Eq). rewrite Hrj, Hr'. cbn. by rewrite Eq. }
        assert (Hl : w_log w' = w_log w) by (by rewrite <-Ew). assert (Hc' : w_conn w' = c) by (by rewrite <-Ew).
        assert (Hi : at_place w' i = Some (Handling q n)). { rewrite <-Ew, place_move, decide_True, Er by done. reflexivity. }
        assert (Hsame : forall j, j <> i -> at_place w' j = at_place w j) by (intros j Nj; apply Hs; congruence).
        unfold in_turn. rewrite Hh, Hl, Hc'. split; [|split; [|split; [|split; [|split]]]].
        * intros j g Hj. destruct (I1 j g Hj) as [rep Hx]. exists rep. rewrite Hsame; [done|]. intros ->. congruence.
        * intros j rep Hj. destruct (decide (j = i)) as [->|N]; [congruence|]. rewrite (Hsame j N) in Hj. by apply (I2 j rep).
        * done.
        * intros k j g Hk. destruct (I4 k j g Hk) as (rj & oj & Hrj & Htr & Ha). destruct (reqs_kept _ _ _ _ _ E Hrj) as (r' & Hr' & Eq).
          exists r', oj. split; [done|]. rewrite Eq. split; [done|].
          assert (Nj : j <> i). { intros ->. rewrite Er in Hrj. injection Hrj as <-. congruence. }
          specialize (Hsame j Nj). unfold at_place in Hsame. rewrite Hr', Hrj in Hsame. injection Hsame as ->. done.
        * intros j rj q' n' Hrj Ha. assert (D : at_place w' j = Some (Handling q' n')) by (unfold at_place; by rewrite Hrj; cbn; rewrite Ha).
          destruct (decide (j = i)) as [->|N].
          -- assert (q' = q /\ n' = n) as [-> ->] by (split; congruence). destruct (reqs_kept _ _ _ _ _ E Er) as (r' & Hr' & Eq).
             assert (rj = r') as -> by congruence. rewrite Eq, <-Hc. exact Eb.
          -- exfalso. apply N. rewrite (Hsame j N) in D. assert (Hj : inside w j) by (unfold inside; by rewrite D).
             destruct Hinv as [Iv1 _]. apply Iv1 in Hj, Hin. congruence.
        * intros Hno. exfalso. by apply (Hno i q n).
    - destruct (Hn i eq_refl) as [(q & n & Ho) _]. assert (Ew := E). cbn [act1] in Ew. rewrite Ho in Ew.
      destruct (process (w_conn w) q n h) as [c o] eqn:Ep. apply (inj Some) in Ew.
      apply at_reqs in Ho as Hr. destruct Hr as (r & Hr & Ha).
      apply (in_turn_done w (End i h) w' i r h o); try done.
      + by rewrite <-Ew.
      + destruct Ht as (_ & _ & _ & _ & I5 & _). rewrite begin_spec, (I5 i r q n Hr Ha), Ep, <-Ew. reflexivity.
      + unfold inside. by rewrite Ho.
      + intros j Nj. apply Hs. congruence.
      + rewrite <-Ew, place_move, decide_True, Hr by done. reflexivity.
    - assert (Ew := E). cbn [act1] in Ew. apply (inj Some) in Ew. apply Simple; [by rewrite <-Ew..|]. done.
    - assert (Ew := E). cbn [act1] in Ew. apply (inj Some) in Ew. apply Simple; [by rewrite <-Ew..|]. done.
  Qed.
  Lemma in_turn0 : in_turn (world0 body_zero).
  Proof. unfold in_turn, world0. cbn. split; [done|]. split; [done|]. split; [constructor|]. done. Qed.
  Lemma in_turn_acts l : forall w w', acts w l = Some w' -> inv w -> in_turn w -> in_turn w'.
  Proof.
    induction l as [|a l IH]; intros w w'; cbn [acts]; [by intros [= <-]|]. destruct (act1 w a) as [w1|] eqn:E; [|done].
    intros H Hi Ht. apply (IH w1 w' H); [by apply (inv_act w a)|by apply (in_turn_act w a)].
  Qed.
End reqs.
