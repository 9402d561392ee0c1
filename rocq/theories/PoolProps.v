(** C96: what pollers hear of is handled one piece after the other, each call comes back with
    its own result, and none waits forever. *)
From Verif Require Import Prelude PoolModel PoolSpec.
Open Scope string_scope.
Open Scope list_scope.
Open Scope Z_scope.

Lemma shared_way j : shared j <-> job_way j = ByExecutor.
Proof. unfold shared, job_way. destruct (j_cb j); cbn; rewrite !elem_of_cons, elem_of_nil; naive_solver. Qed.
Lemma for_worker_way j : for_worker j = match job_way j with ByWorker => true | _ => false end.
Proof. unfold for_worker, job_way. by destruct (j_cb j). Qed.

(** * Histories *)

(** The handler of poller [i] that is being run, after a history. *)
Definition upd (i : nat) (o : option job) (e : ev) : option job :=
  match e with
  | EStart k j => if decide (k = i) then Some j else o
  | EEnd k _ _ | EPanic k _ => if decide (k = i) then None else o
  end.
Definition open (i : nat) (l : list ev) : option job := fold_left (upd i) l None.

Lemma open_snoc i l e : open i (l ++ [e]) = upd i (open i l) e.
Proof. unfold open. by rewrite fold_left_app. Qed.

#[local] Arguments open : simpl never.
#[local] Arguments given : simpl never.
#[local] Arguments started : simpl never.
#[local] Arguments ended : simpl never.
#[local] Arguments with_log : simpl never.

Inductive wf : list ev -> Prop :=
  | wf_nil : wf []
  | wf_start l i j : wf l -> (forall k j', open k l = Some j' -> ~ exclusive k j' i j) -> wf (l ++ [EStart i j])
  | wf_over l i j e : wf l -> open i l = Some j -> over i j e -> wf (l ++ [e]).

Lemma wf_snoc_inv l e : wf (l ++ [e]) ->
  wf l /\ match e with
          | EStart i j => forall k j', open k l = Some j' -> ~ exclusive k j' i j
          | EEnd i j _ | EPanic i j => open i l = Some j
          end.
Proof.
  intros H. inversion H as [E|l0 i j Hw Hx E|l0 i j e0 Hw Ho Hov E].
  - by destruct l.
  - apply app_inj_tail in E as [-> <-]. done.
  - apply app_inj_tail in E as [-> ->]. destruct Hov as [->|[r ->]]; done.
Qed.

Lemma wf_prefix l1 l2 : wf (l1 ++ l2) -> wf l1.
Proof.
  induction l2 as [|e l2 IH] using rev_ind; [by rewrite app_nil_r|].
  rewrite app_assoc. intros H. apply IH. by apply wf_snoc_inv in H as [H _].
Qed.

Lemma still_open l1 i j l2 : wf (l1 ++ EStart i j :: l2) -> (forall e, e ∈ l2 -> ~ over i j e) ->
  open i (l1 ++ EStart i j :: l2) = Some j.
Proof.
  induction l2 as [|e l2 IH] using rev_ind; intros Hw Hn.
  - rewrite open_snoc. cbn. by rewrite decide_True.
  - assert (Hn' : forall e', e' ∈ l2 -> ~ over i j e') by (intros e' He'; apply Hn, elem_of_app; by left).
    assert (He : ~ over i j e) by (apply Hn, elem_of_app; right; by apply elem_of_list_singleton).
    replace (l1 ++ EStart i j :: l2 ++ [e]) with ((l1 ++ EStart i j :: l2) ++ [e]) in Hw |- * by (by rewrite <-app_assoc).
    apply wf_snoc_inv in Hw as [Hw Hlast]. specialize (IH Hw Hn').
    rewrite open_snoc, IH. destruct e as [k j'|k j' r|k j']; cbn.
    + case_decide as Hk; [|done]. subst k. exfalso. apply (Hlast i j IH). by left.
    + case_decide as Hk; [|done]. subst k. exfalso. apply He. right. exists r. rewrite IH in Hlast. by injection Hlast as ->.
    + case_decide as Hk; [|done]. subst k. exfalso. apply He. left. rewrite IH in Hlast. by injection Hlast as ->.
Qed.

#[local] Instance callback_eq_dec : EqDecision callback.
Proof. intros x y. unfold Decision. decide equality. Defined.
#[local] Instance job_eq_dec : EqDecision job.
Proof. intros [c a] [c' a']. unfold Decision. destruct (decide (c = c')) as [->|]; [|right; congruence].
  destruct (decide (a = a')) as [->|]; [by left|right; congruence]. Defined.

#[local] Instance over_dec i j e : Decision (over i j e).
Proof.
  destruct e as [k j'|k j' r|k j'].
  - right. by intros [H|[r H]].
  - destruct (decide (k = i)) as [->|Hk]; [destruct (decide (j' = j)) as [->|Hj]|].
    + left. right. by exists r.
    + right. intros [H|[r' H]]; congruence.
    + right. intros [H|[r' H]]; congruence.
  - destruct (decide (k = i)) as [->|Hk]; [destruct (decide (j' = j)) as [->|Hj]|].
    + left. by left.
    + right. intros [H|[r' H]]; congruence.
    + right. intros [H|[r' H]]; congruence.
Defined.

Lemma wf_never_overlap l : wf l -> never_overlap l.
Proof.
  intros Hw l1 i j l2 i' j' l3 -> Hx.
  destruct (decide (Exists (over i j) l2)) as [H|H].
  - apply Exists_exists in H as (e & He & Ho). by exists e.
  - exfalso. replace (l1 ++ EStart i j :: l2 ++ EStart i' j' :: l3) with (((l1 ++ EStart i j :: l2) ++ [EStart i' j']) ++ l3) in Hw
      by (by rewrite <-!app_assoc).
    apply wf_prefix in Hw. apply wf_snoc_inv in Hw as [Hw Hlast].
    refine (Hlast i j _ Hx). apply still_open; [done|].
    intros e He Ho. apply H, Exists_exists. by exists e.
Qed.

(** * The machine's invariant *)

Definition runs (ps : list pollr) (i : nat) (j : job) : Prop :=
  exists p t, ps !! i = Some p /\ p_phase p = Running /\ p_todo p = j :: t.
Definition waits (ps : list pollr) (i : nat) (j : job) : Prop :=
  exists p t, ps !! i = Some p /\ p_phase p = Queued /\ p_todo p = j :: t.

Record always (s : sys) : Prop := {
  al_wf : wf (s_log s);
  al_got : forall i p, s_pollers s !! i = Some p -> p_got p = given i (s_log s);
  al_pool : (started (s_log s) <= ended (s_log s) + s_n s)%nat }.

Record while_up (s : sys) : Prop := {
  up_open : forall i j, open i (s_log s) = Some j <-> runs (s_pollers s) i j;
  up_exec : forall i, s_exec s = Some i <-> exists j, runs (s_pollers s) i j /\ job_way j = ByExecutor;
  up_busy : forall i, i ∈ s_busy s <-> exists j, runs (s_pollers s) i j /\ job_way j = ByWorker;
  up_queue : forall i, i ∈ s_queue s <-> exists j, waits (s_pollers s) i j /\ job_way j = ByWorker;
  up_queue_nd : NoDup (s_queue s);
  up_busy_nd : NoDup (s_busy s);
  up_phase : forall i p, s_pollers s !! i = Some p -> p_phase p <> Idle -> exists j t, p_todo p = j :: t /\ (p_phase p = Queued -> job_way j = ByWorker);
  up_queue_len : (length (s_queue s) <= s_n s)%nat;
  up_busy_len : (length (s_busy s) <= s_n s)%nat;
  up_count : started (s_log s) = (ended (s_log s) + length (s_busy s))%nat }.

Definition inv (s : sys) : Prop := always s /\ (s_down s = false -> while_up s).

Lemma started_snoc l e : started (l ++ [e]) = (started l + match e with EStart _ j => if for_worker j then 1 else 0 | _ => 0 end)%nat.
Proof.
  unfold started. rewrite filter_app, app_length. f_equal.
  rewrite filter_cons. destruct e as [k j|k j r|k j]; cbn; [|done..]. by destruct (for_worker j).
Qed.

Lemma ended_snoc l e : ended (l ++ [e]) = (ended l + match e with EStart _ _ => 0 | EEnd _ j _ | EPanic _ j => if for_worker j then 1 else 0 end)%nat.
Proof.
  unfold ended. rewrite filter_app, app_length. f_equal.
  rewrite filter_cons. destruct e as [k j|k j r|k j]; cbn; [done|..]; by destruct (for_worker j).
Qed.

Lemma given_snoc i l e : given i (l ++ [e]) = given i l ++ match e with EEnd k j r => if decide (k = i) then [(j, r)] else [] | _ => [] end.
Proof.
  unfold given. rewrite omap_app. f_equal. destruct e as [k j|k j r|k j]; cbn; [done| |done]. by case_decide.
Qed.

Lemma runs_insert ps i p0 p k j : ps !! i = Some p0 ->
  runs (<[i := p]> ps) k j <-> (k = i /\ p_phase p = Running /\ exists t, p_todo p = j :: t) \/ (k <> i /\ runs ps k j).
Proof.
  intros Hi. pose proof (lookup_lt_Some _ _ _ Hi) as Hlt. unfold runs. split.
  - intros (q & t & Hq & Hp & Ht). destruct (decide (k = i)) as [->|Hne].
    + rewrite list_lookup_insert in Hq by done. injection Hq as <-. left. eauto.
    + rewrite list_lookup_insert_ne in Hq by done. right. eauto 10.
  - intros [(-> & Hp & t & Ht)|(Hne & q & t & Hq & Hp & Ht)].
    + exists p, t. by rewrite list_lookup_insert.
    + exists q, t. by rewrite list_lookup_insert_ne.
Qed.

Lemma waits_insert ps i p0 p k j : ps !! i = Some p0 ->
  waits (<[i := p]> ps) k j <-> (k = i /\ p_phase p = Queued /\ exists t, p_todo p = j :: t) \/ (k <> i /\ waits ps k j).
Proof.
  intros Hi. pose proof (lookup_lt_Some _ _ _ Hi) as Hlt. unfold waits. split.
  - intros (q & t & Hq & Hp & Ht). destruct (decide (k = i)) as [->|Hne].
    + rewrite list_lookup_insert in Hq by done. injection Hq as <-. left. eauto.
    + rewrite list_lookup_insert_ne in Hq by done. right. eauto 10.
  - intros [(-> & Hp & t & Ht)|(Hne & q & t & Hq & Hp & Ht)].
    + exists p, t. by rewrite list_lookup_insert.
    + exists q, t. by rewrite list_lookup_insert_ne.
Qed.

Lemma lookup_insert_cases (ps : list pollr) i p k q : <[i := p]> ps !! k = Some q -> (k = i /\ q = p) \/ (k <> i /\ ps !! k = Some q).
Proof.
  intros H. destruct (decide (k = i)) as [->|Hne].
  - pose proof (lookup_lt_Some _ _ _ H) as Hlt. rewrite insert_length in Hlt.
    rewrite list_lookup_insert in H by done. injection H as <-. by left.
  - rewrite list_lookup_insert_ne in H by done. by right.
Qed.

Lemma runs_fun ps i j j' : runs ps i j -> runs ps i j' -> j = j'.
Proof. intros (p & t & Hp & _ & Ht) (p' & t' & Hp' & _ & Ht'). rewrite Hp in Hp'. injection Hp' as <-. rewrite Ht in Ht'. by injection Ht'. Qed.

Lemma start_inv n work : inv (start n work).
Proof.
  assert (Hidle : forall i p, s_pollers (start n work) !! i = Some p -> p_phase p = Idle /\ p_got p = []).
  { intros i p Hp. cbn in Hp. apply list_lookup_fmap_inv in Hp as (js & -> & _). done. }
  split.
  - split; cbn; [exact wf_nil| |unfold started; cbn; lia]. intros i p Hp. by apply Hidle in Hp as [_ ->].
  - intros _. split; cbn; try (exact (NoDup_nil_2)); try lia; try done.
    + intros i j. split; [done|]. intros (p & t & Hp & Hr & _). apply Hidle in Hp as [Hp _]. congruence.
    + intros i. split; [done|]. intros (j & (p & t & Hp & Hr & _) & _). apply Hidle in Hp as [Hp _]. congruence.
    + intros i. split; [intros H; by apply elem_of_nil in H|]. intros (j & (p & t & Hp & Hr & _) & _). apply Hidle in Hp as [Hp _]. congruence.
    + intros i. split; [intros H; by apply elem_of_nil in H|]. intros (j & (p & t & Hp & Hr & _) & _). apply Hidle in Hp as [Hp _]. congruence.
    + intros i p Hp Hn. by apply Hidle in Hp as [Hp _].
Qed.

(** A poller that is not running one of its calls can start one that may run now. *)
Lemma may_start s i p j : while_up s -> s_pollers s !! i = Some p -> p_phase p <> Running ->
  (job_way j = ByExecutor -> s_exec s = None) ->
  forall k j', open k (s_log s) = Some j' -> ~ exclusive k j' i j.
Proof.
  intros U Hp Hnr Hx k j' Hk [->|[H1 H2]]; [|apply shared_way in H1, H2].
  - apply (up_open s U) in Hk as (q & t & Hq & Hr & _). rewrite Hp in Hq. injection Hq as <-. done.
  - apply (up_open s U) in Hk. assert (s_exec s = Some k) as E by (apply (up_exec s U); by exists j').
    by rewrite (Hx H2) in E.
Qed.

Lemma not_runs ps i p j : ps !! i = Some p -> p_phase p <> Running -> ~ runs ps i j.
Proof. intros Hp Hn (q & t & Hq & Hr & _). rewrite Hp in Hq. by injection Hq as <-. Qed.
Lemma not_waits ps i p j : ps !! i = Some p -> p_phase p <> Queued -> ~ waits ps i j.
Proof. intros Hp Hn (q & t & Hq & Hr & _). rewrite Hp in Hq. by injection Hq as <-. Qed.

Ltac got A Hp := unfold with_log; intros k q Hq; apply lookup_insert_cases in Hq as [[-> ->]|[Hne Hq]]; cbn;
  [rewrite ?given_snoc, ?app_nil_r; apply (al_got _ A _ _ Hp)|rewrite ?given_snoc, ?app_nil_r; by apply (al_got _ A)].

Lemma begin_inv s i s' : inv s -> s_down s = false -> begin_ s i = Some s' -> inv s'.
Proof.
  intros [A U] Hd H. specialize (U Hd). unfold begin_ in H.
  destruct (s_pollers s !! i) as [p|] eqn:Hp; [|done].
  destruct (p_phase p) eqn:Hph; try done. destruct (p_todo p) as [|j t] eqn:Ht; [done|].
  assert (Hnr : p_phase p <> Running) by congruence. assert (Hnq : p_phase p <> Queued) by congruence.
  assert (Hni : forall j', ~ runs (s_pollers s) i j') by (intros j'; by apply (not_runs _ _ p)).
  assert (Hnw : forall j', ~ waits (s_pollers s) i j') by (intros j'; by apply (not_waits _ _ p)).
  destruct (job_way j) eqn:Hw.
  - destruct (s_closed s) eqn:Hc.
    + (* the poller panics *)
      injection H as <-. split.
      * split; cbn; [apply A|got A Hp|apply A].
      * intros _. split; cbn.
        -- intros k j'. rewrite (up_open s U), (runs_insert _ _ p) by done. cbn. split.
           ++ intros Hr. right. split; [|done]. intros ->. by apply Hni in Hr.
           ++ intros [(_ & Hf & _)|[_ Hr]]; done.
        -- intros k. rewrite (up_exec s U). split; intros (j' & Hr & Hj'); exists j'; split; try done.
           ++ apply (runs_insert _ _ p); [done|]. right. split; [|done]. intros ->. by apply Hni in Hr.
           ++ apply (runs_insert _ _ p) in Hr as [(_ & Hf & _)|[_ Hr]]; done.
        -- intros k. rewrite (up_busy s U). split; intros (j' & Hr & Hj'); exists j'; split; try done.
           ++ apply (runs_insert _ _ p); [done|]. right. split; [|done]. intros ->. by apply Hni in Hr.
           ++ apply (runs_insert _ _ p) in Hr as [(_ & Hf & _)|[_ Hr]]; done.
        -- intros k. rewrite (up_queue s U). split; intros (j' & Hr & Hj'); exists j'; split; try done.
           ++ apply (waits_insert _ _ p); [done|]. right. split; [|done]. intros ->. by apply Hnw in Hr.
           ++ apply (waits_insert _ _ p) in Hr as [(_ & Hf & _)|[_ Hr]]; done.
        -- apply U.
        -- apply U.
        -- intros k q Hq Hqp. apply lookup_insert_cases in Hq as [[-> ->]|[Hne Hq]]; [done|]. by apply (up_phase s U k q).
        -- apply U.
        -- apply U.
        -- apply U.
    + destruct (s_exec s) as [e|] eqn:He; [done|]. injection H as <-. split.
      * split; cbn; [|got A Hp|].
        -- apply wf_start; [apply A|]. by apply (may_start s i p j).
        -- unfold with_log. rewrite started_snoc, ended_snoc. rewrite ?for_worker_way, Hw. pose proof (al_pool s A). lia.
      * intros _. split; cbn.
        -- intros k j'. unfold with_log. rewrite open_snoc. cbn. rewrite (runs_insert _ _ p) by done. cbn.
           case_decide as Hk.
           ++ subst k. split; [intros E; injection E as <-; left; eauto|].
              intros [(_ & _ & t' & E)|[Hne _]]; [|done]. rewrite Ht in E. by injection E as <-.
           ++ rewrite (up_open s U). split; [intros Hr; right; split; [by intros ->|done]|]. intros [(-> & _)|[_ Hr]]; done.
        -- intros k. split.
           ++ intros E. injection E as <-. exists j. split; [|done]. apply (runs_insert _ _ p); [done|]. left. cbn. eauto.
           ++ intros (j' & Hr & Hj'). apply (runs_insert _ _ p) in Hr as [(-> & _)|[Hne Hr]]; [done| |done].
              assert (s_exec s = Some k) as E by (apply (up_exec s U); by exists j'). by rewrite He in E.
        -- intros k. rewrite (up_busy s U). split; intros (j' & Hr & Hj'); exists j'; split; try done.
           ++ apply (runs_insert _ _ p); [done|]. right. split; [|done]. intros ->. by apply Hni in Hr.
           ++ apply (runs_insert _ _ p) in Hr as [(_ & _ & t' & E)|[_ Hr]]; [cbn in E; rewrite Ht in E; injection E as <-; congruence|done|done].
        -- intros k. rewrite (up_queue s U). split; intros (j' & Hr & Hj'); exists j'; split; try done.
           ++ apply (waits_insert _ _ p); [done|]. right. split; [|done]. intros ->. by apply Hnw in Hr.
           ++ apply (waits_insert _ _ p) in Hr as [(_ & Hf & _)|[_ Hr]]; done.
        -- apply U.
        -- apply U.
        -- intros k q Hq Hqp. apply lookup_insert_cases in Hq as [[-> ->]|[Hne Hq]]; [cbn; exists j, t; by split|]. by apply (up_phase s U k q).
        -- apply U.
        -- apply U.
        -- unfold with_log. rewrite started_snoc, ended_snoc. rewrite ?for_worker_way, Hw. rewrite (up_count s U). lia.
  - destruct (decide (length (s_queue s) < s_n s)%nat) as [Hlt|]; [|done]. injection H as <-. split.
    + split; cbn; [apply A|got A Hp|apply A].
    + intros _. split; cbn.
      * intros k j'. rewrite (up_open s U), (runs_insert _ _ p) by done. cbn. split.
        -- intros Hr. right. split; [|done]. intros ->. by apply Hni in Hr.
        -- intros [(_ & Hf & _)|[_ Hr]]; done.
      * intros k. rewrite (up_exec s U). split; intros (j' & Hr & Hj'); exists j'; split; try done.
        -- apply (runs_insert _ _ p); [done|]. right. split; [|done]. intros ->. by apply Hni in Hr.
        -- apply (runs_insert _ _ p) in Hr as [(_ & Hf & _)|[_ Hr]]; done.
      * intros k. rewrite (up_busy s U). split; intros (j' & Hr & Hj'); exists j'; split; try done.
        -- apply (runs_insert _ _ p); [done|]. right. split; [|done]. intros ->. by apply Hni in Hr.
        -- apply (runs_insert _ _ p) in Hr as [(_ & Hf & _)|[_ Hr]]; done.
      * intros k. rewrite elem_of_app, elem_of_list_singleton, (up_queue s U). split.
        -- intros [(j' & Hr & Hj')| ->].
           ++ exists j'. split; [|done]. apply (waits_insert _ _ p); [done|]. right. split; [|done]. intros ->. by apply Hnw in Hr.
           ++ exists j. split; [|done]. apply (waits_insert _ _ p); [done|]. left. cbn. eauto.
        -- intros (j' & Hr & Hj'). apply (waits_insert _ _ p) in Hr as [(-> & _)|[_ Hr]]; [by right|left; by exists j'|done].
      * apply NoDup_app. split; [apply U|]. split; [|apply NoDup_singleton].
        intros k Hk E. apply elem_of_list_singleton in E as ->. apply (up_queue s U) in Hk as (j' & Hr & _). by apply Hnw in Hr.
      * apply U.
      * intros k q Hq Hqp. apply lookup_insert_cases in Hq as [[-> ->]|[Hne Hq]]; [cbn; exists j, t; by split|]. by apply (up_phase s U k q).
      * rewrite app_length. cbn. lia.
      * apply U.
      * apply U.
  - injection H as <-. split.
    + split; cbn; [|got A Hp|].
      * apply wf_start; [apply A|]. apply (may_start s i p j); [done..|]. congruence.
      * unfold with_log. rewrite started_snoc, ended_snoc. rewrite ?for_worker_way, Hw. pose proof (al_pool s A). lia.
    + intros _. split; cbn.
      * intros k j'. unfold with_log. rewrite open_snoc. cbn. rewrite (runs_insert _ _ p) by done. cbn.
        case_decide as Hk.
        -- subst k. split; [intros E; injection E as <-; left; eauto|].
           intros [(_ & _ & t' & E)|[Hne _]]; [|done]. rewrite Ht in E. by injection E as <-.
        -- rewrite (up_open s U). split; [intros Hr; right; split; [by intros ->|done]|]. intros [(-> & _)|[_ Hr]]; done.
      * intros k. rewrite (up_exec s U). split; intros (j' & Hr & Hj'); exists j'; split; try done.
        -- apply (runs_insert _ _ p); [done|]. right. split; [|done]. intros ->. by apply Hni in Hr.
        -- apply (runs_insert _ _ p) in Hr as [(_ & _ & t' & E)|[_ Hr]]; [cbn in E; rewrite Ht in E; injection E as <-; congruence|done|done].
      * intros k. rewrite (up_busy s U). split; intros (j' & Hr & Hj'); exists j'; split; try done.
        -- apply (runs_insert _ _ p); [done|]. right. split; [|done]. intros ->. by apply Hni in Hr.
        -- apply (runs_insert _ _ p) in Hr as [(_ & _ & t' & E)|[_ Hr]]; [cbn in E; rewrite Ht in E; injection E as <-; congruence|done|done].
      * intros k. rewrite (up_queue s U). split; intros (j' & Hr & Hj'); exists j'; split; try done.
        -- apply (waits_insert _ _ p); [done|]. right. split; [|done]. intros ->. by apply Hnw in Hr.
        -- apply (waits_insert _ _ p) in Hr as [(_ & Hf & _)|[_ Hr]]; done.
      * apply U.
      * apply U.
      * intros k q Hq Hqp. apply lookup_insert_cases in Hq as [[-> ->]|[Hne Hq]]; [cbn; exists j, t; by split|]. by apply (up_phase s U k q).
      * apply U.
      * apply U.
      * unfold with_log. rewrite started_snoc, ended_snoc. rewrite ?for_worker_way, Hw. rewrite (up_count s U). lia.
Qed.

Lemma take_inv s s' : inv s -> s_down s = false -> take s = Some s' -> inv s'.
Proof.
  intros [A U] Hd H. specialize (U Hd). unfold take in H.
  destruct (s_queue s) as [|i qs] eqn:Hqs; [done|].
  destruct (decide (length (s_busy s) < s_n s)%nat) as [Hlt|]; [|done].
  destruct (s_pollers s !! i) as [p|] eqn:Hp; [|done].
  destruct (p_todo p) as [|j t] eqn:Ht; [done|]. injection H as <-.
  assert (exists j', waits (s_pollers s) i j' /\ job_way j' = ByWorker) as (j' & (p' & t' & Hp' & Hph & Ht') & Hw).
  { apply (up_queue s U). rewrite Hqs. by left. }
  rewrite Hp in Hp'. injection Hp' as <-. rewrite Ht in Ht'. injection Ht' as <- <-.
  assert (Hnr : p_phase p <> Running) by congruence.
  assert (Hni : forall j', ~ runs (s_pollers s) i j') by (intros j'; by apply (not_runs _ _ p)).
  pose proof (up_queue_nd s U) as Hnd. rewrite Hqs in Hnd. apply NoDup_cons in Hnd as [Hnin Hnd].
  assert (Hnb : i ∉ s_busy s). { intros Hb. apply (up_busy s U) in Hb as (j' & Hr & _). by apply Hni in Hr. }
  split.
  - split; cbn; [|got A Hp|].
    + apply wf_start; [apply A|]. apply (may_start s i p j); [done..|]. congruence.
    + unfold with_log. rewrite started_snoc, ended_snoc. rewrite ?for_worker_way, Hw. rewrite (up_count s U). lia.
  - intros _. split; cbn.
    + intros k j'. unfold with_log. rewrite open_snoc. cbn. rewrite (runs_insert _ _ p) by done. cbn.
      case_decide as Hk.
      * subst k. split; [intros E; injection E as <-; left; eauto|].
        intros [(_ & _ & t' & E)|[Hne _]]; [|done]. rewrite Ht in E. by injection E as <-.
      * rewrite (up_open s U). split; [intros Hr; right; split; [by intros ->|done]|]. intros [(-> & _)|[_ Hr]]; done.
    + intros k. rewrite (up_exec s U). split; intros (j' & Hr & Hj'); exists j'; split; try done.
      * apply (runs_insert _ _ p); [done|]. right. split; [|done]. intros ->. by apply Hni in Hr.
      * apply (runs_insert _ _ p) in Hr as [(_ & _ & t' & E)|[_ Hr]]; [cbn in E; rewrite Ht in E; injection E as <-; congruence|done|done].
    + intros k. rewrite elem_of_cons, (up_busy s U). split.
      * intros [->|(j' & Hr & Hj')].
        -- exists j. split; [|done]. apply (runs_insert _ _ p); [done|]. left. cbn. eauto.
        -- exists j'. split; [|done]. apply (runs_insert _ _ p); [done|]. right. split; [|done]. intros ->. by apply Hni in Hr.
      * intros (j' & Hr & Hj'). apply (runs_insert _ _ p) in Hr as [(-> & _)|[_ Hr]]; [by left|right; by exists j'|done].
    + intros k. pose proof (up_queue s U k) as Hk. rewrite Hqs, elem_of_cons in Hk. split.
      * intros Hin. destruct (proj1 Hk (or_intror Hin)) as (j' & Hr & Hj'). exists j'. split; [|done].
        apply (waits_insert _ _ p); [done|]. right. split; [by intros ->|done].
      * intros (j' & Hr & Hj'). apply (waits_insert _ _ p) in Hr as [(_ & Hf & _)|[Hne Hr]]; [done| |done].
        destruct (proj2 Hk (ex_intro _ j' (conj Hr Hj'))) as [->|Hin]; done.
    + done.
    + apply NoDup_cons. split; [done|apply U].
    + intros k q Hq Hqp. apply lookup_insert_cases in Hq as [[-> ->]|[Hne Hq]]; [cbn; exists j, t; by split|]. by apply (up_phase s U k q).
    + pose proof (up_queue_len s U) as Hl. rewrite Hqs in Hl. cbn in Hl. lia.
    + lia.
    + unfold with_log. rewrite started_snoc, ended_snoc. rewrite ?for_worker_way, Hw. rewrite (up_count s U). lia.
Qed.

Lemma remove_length (l : list nat) i : NoDup l -> i ∈ l -> length l = S (length (filter (fun k => k <> i) l)).
Proof.
  induction l as [|x l IH]; intros Hnd Hin; [by apply elem_of_nil in Hin|].
  apply NoDup_cons in Hnd as [Hx Hnd]. rewrite filter_cons. case_decide as Hd; cbn.
  - f_equal. apply IH; [done|]. apply elem_of_cons in Hin as [->|Hin]; done.
  - subst x. f_equal. symmetry. clear -Hx. induction l as [|y l IH]; [done|].
    rewrite filter_cons. rewrite decide_True by (intros ->; apply Hx; by left).
    cbn. f_equal. apply IH. intros Hy. apply Hx. by right.
Qed.

Lemma finish_inv s i r s' : inv s -> s_down s = false -> finish s i r = Some s' -> inv s'.
Proof.
  intros [A U] Hd H. specialize (U Hd). unfold finish in H.
  destruct (s_pollers s !! i) as [p|] eqn:Hp; [|done].
  destruct (p_phase p) eqn:Hph; try done. destruct (p_todo p) as [|j t] eqn:Ht; [done|].
  assert (Hr0 : runs (s_pollers s) i j) by (exists p, t; done).
  assert (Hfun : forall j', runs (s_pollers s) i j' -> j' = j) by (intros j' Hj'; by apply (runs_fun (s_pollers s) i)).
  assert (Hnw : forall j', ~ waits (s_pollers s) i j') by (intros j'; apply (not_waits _ _ p); [done|congruence]).
  cbn zeta in H. injection H as <-.
  assert (Hlen : job_way j = ByWorker -> length (s_busy s) = S (length (filter (fun k => k <> i) (s_busy s)))).
  { intros Hw. apply remove_length; [apply U|]. apply (up_busy s U). by exists j. }
  split.
  - split; cbn.
    + apply (wf_over _ i j); [apply A|by apply (up_open s U)|right; by exists r].
    + unfold with_log. intros k q Hq. apply lookup_insert_cases in Hq as [[-> ->]|[Hne Hq]]; cbn; rewrite given_snoc.
      * rewrite decide_True by done. by rewrite (al_got s A i p Hp).
      * rewrite decide_False by done. rewrite app_nil_r. by apply (al_got s A).
    + unfold with_log. rewrite started_snoc, ended_snoc. pose proof (al_pool s A). destruct (for_worker j); lia.
  - intros _. split; cbn.
    + intros k j'. unfold with_log. rewrite open_snoc. cbn. rewrite (runs_insert _ _ p) by done. cbn.
      case_decide as Hk.
      * subst k. split; [done|]. intros [(_ & Hf & _)|[Hne _]]; done.
      * rewrite (up_open s U). split; [intros Hr; right; split; [by intros ->|done]|]. intros [(-> & _)|[_ Hr]]; done.
    + intros k. split.
      * intros E. assert (s_exec s = Some k /\ job_way j <> ByExecutor) as [E' Hj] by (by destruct (job_way j)).
        apply (up_exec s U) in E' as (j' & Hr & Hj'). exists j'. split; [|done].
        apply (runs_insert _ _ p); [done|]. right. split; [|done]. intros ->. apply Hfun in Hr. congruence.
      * intros (j' & Hr & Hj'). apply (runs_insert _ _ p) in Hr as [(_ & Hf & _)|[Hne Hr]]; [done| |done].
        assert (s_exec s = Some k) as E by (apply (up_exec s U); by exists j').
        destruct (job_way j) eqn:Hw; [|done|done]. exfalso.
        assert (s_exec s = Some i) as E2 by (apply (up_exec s U); by exists j). congruence.
    + intros k. split.
      * intros Hk. assert (k ∈ s_busy s /\ (job_way j = ByWorker -> k <> i)) as [Hin Hkw].
        { destruct (job_way j); [done| |done]. apply elem_of_list_filter in Hk as [Hk1 Hk2]. done. }
        apply (up_busy s U) in Hin as (j' & Hr & Hj'). exists j'. split; [|done].
        apply (runs_insert _ _ p); [done|]. right. split; [|done]. intros ->. apply Hfun in Hr. subst j'. by apply Hkw.
      * intros (j' & Hr & Hj'). apply (runs_insert _ _ p) in Hr as [(_ & Hf & _)|[Hne Hr]]; [done| |done].
        assert (k ∈ s_busy s) as Hin by (apply (up_busy s U); by exists j').
        destruct (job_way j); [done| |done]. by apply elem_of_list_filter.
    + intros k. rewrite (up_queue s U). split; intros (j' & Hr & Hj'); exists j'; split; try done.
      * apply (waits_insert _ _ p); [done|]. right. split; [|done]. intros ->. by apply Hnw in Hr.
      * apply (waits_insert _ _ p) in Hr as [(_ & Hf & _)|[_ Hr]]; done.
    + apply U.
    + destruct (job_way j); [apply U|apply NoDup_filter, U|apply U].
    + intros k q Hq Hqp. apply lookup_insert_cases in Hq as [[-> ->]|[Hne Hq]]; [done|]. by apply (up_phase s U k q).
    + apply U.
    + pose proof (up_busy_len s U). destruct (job_way j) eqn:Hw; [done| |done]. rewrite Hlen in H by done. lia.
    + unfold with_log. rewrite started_snoc, ended_snoc. rewrite (up_count s U). rewrite for_worker_way.
      destruct (job_way j) eqn:Hw; [lia| |lia]. rewrite Hlen by done. lia.
Qed.

Lemma panic_inv s i s' : inv s -> s_down s = false -> panic s i = Some s' -> inv s'.
Proof.
  intros [A U] Hd H. specialize (U Hd). unfold panic in H.
  destruct (s_pollers s !! i) as [p|] eqn:Hp; [|done].
  destruct (p_phase p) eqn:Hph; try done. destruct (p_todo p) as [|j t] eqn:Ht; [done|].
  assert (Hr0 : runs (s_pollers s) i j) by (exists p, t; done).
  assert (Hfun : forall j', runs (s_pollers s) i j' -> j' = j) by (intros j' Hj'; by apply (runs_fun (s_pollers s) i)).
  assert (Hnw : forall j', ~ waits (s_pollers s) i j') by (intros j'; apply (not_waits _ _ p); [done|congruence]).
  assert (Hwf : wf (with_log s (EPanic i j))) by (apply (wf_over _ i j); [apply A|by apply (up_open s U)|by left]).
  assert (Hgone : always (mk_sys (s_n s) (s_pollers s) (s_exec s) (s_queue s) (s_busy s) (s_closed s) true (with_log s (EPanic i j)))).
  { split; cbn; [done| |].
    - unfold with_log. intros k q Hq. rewrite given_snoc, app_nil_r. by apply (al_got s A).
    - unfold with_log. rewrite started_snoc, ended_snoc. pose proof (al_pool s A). destruct (for_worker j); lia. }
  destruct (job_way j) eqn:Hw; [injection H as <-; split; [done|cbn; done]..|].
  destruct (p_dying p) eqn:Hdy; [injection H as <-; split; [done|cbn; done]|]. injection H as <-.
  split.
  - split; cbn; [done|got A Hp|].
    unfold with_log. rewrite started_snoc, ended_snoc. pose proof (al_pool s A). rewrite ?for_worker_way, Hw. lia.
  - intros _. split; cbn.
    + intros k j'. unfold with_log. rewrite open_snoc. cbn. rewrite (runs_insert _ _ p) by done. cbn.
      case_decide as Hk.
      * subst k. split; [done|]. intros [(_ & Hf & _)|[Hne _]]; done.
      * rewrite (up_open s U). split; [intros Hr; right; split; [by intros ->|done]|]. intros [(-> & _)|[_ Hr]]; done.
    + intros k. rewrite (up_exec s U). split; intros (j' & Hr & Hj'); exists j'; split; try done.
      * apply (runs_insert _ _ p); [done|]. right. split; [|done]. intros ->. apply Hfun in Hr. congruence.
      * apply (runs_insert _ _ p) in Hr as [(_ & Hf & _)|[_ Hr]]; done.
    + intros k. rewrite (up_busy s U). split; intros (j' & Hr & Hj'); exists j'; split; try done.
      * apply (runs_insert _ _ p); [done|]. right. split; [|done]. intros ->. apply Hfun in Hr. congruence.
      * apply (runs_insert _ _ p) in Hr as [(_ & Hf & _)|[_ Hr]]; done.
    + intros k. rewrite (up_queue s U). split; intros (j' & Hr & Hj'); exists j'; split; try done.
      * apply (waits_insert _ _ p); [done|]. right. split; [|done]. intros ->. by apply Hnw in Hr.
      * apply (waits_insert _ _ p) in Hr as [(_ & Hf & _)|[_ Hr]]; done.
    + apply U.
    + apply U.
    + intros k q Hq Hqp. apply lookup_insert_cases in Hq as [[-> ->]|[Hne Hq]]; [done|]. by apply (up_phase s U k q).
    + apply U.
    + apply U.
    + unfold with_log. rewrite started_snoc, ended_snoc. rewrite (up_count s U). rewrite ?for_worker_way, Hw. lia.
Qed.

Lemma fetch_inv s i js s' : inv s -> s_down s = false -> fetch s i js = Some s' -> inv s'.
Proof.
  intros [A U] Hd H. specialize (U Hd). unfold fetch in H.
  destruct (s_pollers s !! i) as [p|] eqn:Hp; [|done].
  destruct (p_phase p) eqn:Hph; try done. destruct (p_dying p) eqn:Hdy; [done|]. injection H as <-.
  assert (Hni : forall j', ~ runs (s_pollers s) i j') by (intros j'; apply (not_runs _ _ p); [done|congruence]).
  assert (Hnw : forall j', ~ waits (s_pollers s) i j') by (intros j'; apply (not_waits _ _ p); [done|congruence]).
  split.
  - split; cbn; [apply A|got A Hp|apply A].
  - intros _. split; cbn.
    + intros k j'. rewrite (up_open s U), (runs_insert _ _ p) by done. cbn. split.
      * intros Hr. right. split; [|done]. intros ->. by apply Hni in Hr.
      * intros [(_ & Hf & _)|[_ Hr]]; done.
    + intros k. rewrite (up_exec s U). split; intros (j' & Hr & Hj'); exists j'; split; try done.
      * apply (runs_insert _ _ p); [done|]. right. split; [|done]. intros ->. by apply Hni in Hr.
      * apply (runs_insert _ _ p) in Hr as [(_ & Hf & _)|[_ Hr]]; done.
    + intros k. rewrite (up_busy s U). split; intros (j' & Hr & Hj'); exists j'; split; try done.
      * apply (runs_insert _ _ p); [done|]. right. split; [|done]. intros ->. by apply Hni in Hr.
      * apply (runs_insert _ _ p) in Hr as [(_ & Hf & _)|[_ Hr]]; done.
    + intros k. rewrite (up_queue s U). split; intros (j' & Hr & Hj'); exists j'; split; try done.
      * apply (waits_insert _ _ p); [done|]. right. split; [|done]. intros ->. by apply Hnw in Hr.
      * apply (waits_insert _ _ p) in Hr as [(_ & Hf & _)|[_ Hr]]; done.
    + apply U.
    + apply U.
    + intros k q Hq Hqp. apply lookup_insert_cases in Hq as [[-> ->]|[Hne Hq]]; [done|]. by apply (up_phase s U k q).
    + apply U.
    + apply U.
    + apply U.
Qed.

Lemma step_inv s a s' : inv s -> step s a = Some s' -> inv s'.
Proof.
  intros I H. unfold step in H. destruct (s_down s) eqn:Hd; [done|].
  destruct a as [i| |i r|i|i js|].
  - by apply (begin_inv s i).
  - by apply (take_inv s).
  - by apply (finish_inv s i r).
  - by apply (panic_inv s i).
  - by apply (fetch_inv s i js).
  - unfold shut in H. destruct (s_closed s); [done|]. injection H as <-. destruct I as [A U]. specialize (U Hd).
    split; [split; cbn; apply A|]. intros _. split; cbn; apply U.
Qed.

Lemma run_inv s l s' : inv s -> run s l = Some s' -> inv s'.
Proof.
  revert s. induction l as [|a l IH]; intros s I H; cbn in H; [by injection H as <-|].
  destruct (step s a) as [s1|] eqn:E; [|done]. apply (IH s1); [by apply (step_inv s a)|done].
Qed.

(** * Handlers do not overlap, and results are those of one's own calls *)

Theorem C96_in_turn n work h s :
  run (start n work) h = Some s -> never_overlap (s_log s).
Proof. intros H. apply wf_never_overlap. exact (al_wf s (proj1 (run_inv _ _ _ (start_inv n work) H))). Qed.

Lemma open_started l i j : wf l -> open i l = Some j ->
  exists la lb, l = la ++ EStart i j :: lb /\ forall e', e' ∈ lb -> ~ over i j e' /\ e' <> EStart i j.
Proof.
  induction l as [|e l IH] using rev_ind; intros Hw Ho; [done|].
  apply wf_snoc_inv in Hw as [Hw Hlast]. rewrite open_snoc in Ho.
  destruct e as [k j'|k j' r|k j']; cbn in Ho; case_decide as Hk; try done.
  - subst k. injection Ho as ->. exists l, []. split; [done|]. intros e' He'. by apply elem_of_nil in He'.
  - destruct (IH Hw Ho) as (la & lb & -> & Hlb). exists la, (lb ++ [EStart k j']). split; [by rewrite <-app_assoc|].
    intros e' He'. apply elem_of_app in He' as [He'|He']; [by apply Hlb|]. apply elem_of_list_singleton in He' as ->.
    split; [by intros [H|[r H]]|congruence].
  - destruct (IH Hw Ho) as (la & lb & -> & Hlb). exists la, (lb ++ [EEnd k j' r]). split; [by rewrite <-app_assoc|].
    intros e' He'. apply elem_of_app in He' as [He'|He']; [by apply Hlb|]. apply elem_of_list_singleton in He' as ->.
    split; [intros [H|[r' H]]; congruence|done].
  - destruct (IH Hw Ho) as (la & lb & -> & Hlb). exists la, (lb ++ [EPanic k j']). split; [by rewrite <-app_assoc|].
    intros e' He'. apply elem_of_app in He' as [He'|He']; [by apply Hlb|]. apply elem_of_list_singleton in He' as ->.
    split; [intros [H|[r' H]]; congruence|done].
Qed.

Theorem C96_results n work h s :
  run (start n work) h = Some s ->
  once (s_log s) /\ forall i p, s_pollers s !! i = Some p -> p_got p = given i (s_log s).
Proof.
  intros H. pose proof (proj1 (run_inv _ _ _ (start_inv n work) H)) as A. split; [|apply A].
  intros l1 e l2 i j E Ho. pose proof (al_wf s A) as Hw. rewrite E in Hw.
  replace (l1 ++ e :: l2) with ((l1 ++ [e]) ++ l2) in Hw by (by rewrite <-app_assoc).
  apply wf_prefix in Hw. apply wf_snoc_inv in Hw as [Hw Hlast]. apply open_started; [done|].
  destruct Ho as [->|[r ->]]; exact Hlast.
Qed.

Lemma step_n s a s' : step s a = Some s' -> s_n s' = s_n s.
Proof.
  intros H. unfold step in H. destruct (s_down s); [done|]. destruct a as [i| |i r|i|i js|].
  - unfold begin_ in H. repeat case_match; try done; by injection H as <-.
  - unfold take in H. repeat case_match; try done; by injection H as <-.
  - unfold finish in H. repeat case_match; try done; by injection H as <-.
  - unfold panic in H. repeat case_match; try done; by injection H as <-.
  - unfold fetch in H. repeat case_match; try done; by injection H as <-.
  - unfold shut in H. repeat case_match; try done; by injection H as <-.
Qed.

Lemma run_n s l s' : run s l = Some s' -> s_n s' = s_n s.
Proof.
  revert s. induction l as [|a l IH]; intros s H; cbn in H; [by injection H as <-|].
  destruct (step s a) as [s1|] eqn:E; [|done]. rewrite (IH s1 H). by apply (step_n s a).
Qed.

Theorem C96_workers n work h s :
  run (start n work) h = Some s -> (started (s_log s) <= ended (s_log s) + n)%nat.
Proof.
  intros H. pose proof (al_pool s (proj1 (run_inv _ _ _ (start_inv n work) H))) as Hp.
  by rewrite (run_n _ _ _ H) in Hp.
Qed.

(** * Every call is answered *)

Definition left_of (p : pollr) : nat :=
  match p_phase p, p_todo p with
  | Queued, _ :: t => S (S (sum_list_with steps_for t))
  | Running, _ :: t => S (sum_list_with steps_for t)
  | _, todo => sum_list_with steps_for todo
  end.
Definition left_in (s : sys) : nat := sum_list_with left_of (s_pollers s).

Lemma sum_insert (ps : list pollr) i p0 p : ps !! i = Some p0 ->
  (sum_list_with left_of (<[i := p]> ps) + left_of p0 = sum_list_with left_of ps + left_of p)%nat.
Proof.
  revert i. induction ps as [|x ps IH]; intros i H; [done|]. destruct i as [|i].
  - cbn in H |- *. injection H as ->. lia.
  - specialize (IH i H). change (<[S i:=p]> (x :: ps)) with (x :: <[i:=p]> ps). cbn [sum_list_with]. lia.
Qed.

(** What a poller will have got once it made all its calls. *)
Definition calls (p : pollr) : list job := map fst (p_got p) ++ p_todo p.

Lemma calls_insert (ps : list pollr) i p0 p : ps !! i = Some p0 -> calls p = calls p0 ->
  map calls (<[i := p]> ps) = map calls ps.
Proof.
  revert i. induction ps as [|x ps IH]; intros i H E; [done|]. destruct i as [|i].
  - cbn in H |- *. injection H as ->. by rewrite E.
  - change (<[S i:=p]> (x :: ps)) with (x :: <[i:=p]> ps). cbn [map]. by rewrite (IH i H E).
Qed.

Lemma plain_step s a s' : inv s -> plain a -> s_closed s = false -> step s a = Some s' ->
  s_closed s' = false /\ s_down s' = false /\ s_n s' = s_n s /\ left_in s = S (left_in s') /\ map calls (s_pollers s') = map calls (s_pollers s).
Proof.
  intros [A U] Hpl Hc H. unfold step in H. destruct (s_down s) eqn:Hd; [done|]. specialize (U eq_refl).
  destruct a as [i| |i r|i|i js|]; try done.
  - unfold begin_ in H. destruct (s_pollers s !! i) as [p|] eqn:Hp; [|done].
    destruct (p_phase p) eqn:Hph; try done. destruct (p_todo p) as [|j t] eqn:Ht; [done|]. rewrite Hc in H.
    assert (Hl : left_of p = (steps_for j + sum_list_with steps_for t)%nat) by (unfold left_of; by rewrite Hph, Ht).
    destruct (job_way j) eqn:Hw.
    + destruct (s_exec s); [done|]. injection H as <-. cbn. split; [done|]. split; [done|]. split; [done|].
      split; [|by apply (calls_insert _ _ p)].
      unfold left_in. cbn. pose proof (sum_insert _ _ _ (at_phase p Running) Hp) as E.
      assert (Hl' : left_of (at_phase p Running) = S (sum_list_with steps_for t)) by (unfold left_of; cbn; by rewrite Ht).
      assert (Hst : steps_for j = 2%nat) by (unfold steps_for; by rewrite Hw).
      lia.
    + destruct (decide (length (s_queue s) < s_n s)%nat); [|done]. injection H as <-. cbn. split; [done|]. split; [done|]. split; [done|].
      split; [|by apply (calls_insert _ _ p)].
      unfold left_in. cbn. pose proof (sum_insert _ _ _ (at_phase p Queued) Hp) as E.
      assert (Hl' : left_of (at_phase p Queued) = S (S (sum_list_with steps_for t))) by (unfold left_of; cbn; by rewrite Ht).
      assert (Hst : steps_for j = 3%nat) by (unfold steps_for; by rewrite Hw).
      lia.
    + injection H as <-. cbn. split; [done|]. split; [done|]. split; [done|].
      split; [|by apply (calls_insert _ _ p)].
      unfold left_in. cbn. pose proof (sum_insert _ _ _ (at_phase p Running) Hp) as E.
      assert (Hl' : left_of (at_phase p Running) = S (sum_list_with steps_for t)) by (unfold left_of; cbn; by rewrite Ht).
      assert (Hst : steps_for j = 2%nat) by (unfold steps_for; by rewrite Hw).
      lia.
  - unfold take in H. destruct (s_queue s) as [|i qs] eqn:Hqs; [done|].
    destruct (decide (length (s_busy s) < s_n s)%nat) as [Hlt|]; [|done].
    destruct (s_pollers s !! i) as [p|] eqn:Hp; [|done].
    destruct (p_todo p) as [|j t] eqn:Ht; [done|]. injection H as <-. cbn. split; [done|]. split; [done|]. split; [done|].
    assert (exists j', waits (s_pollers s) i j' /\ job_way j' = ByWorker) as (j' & (p' & t' & Hp' & Hph & Ht') & Hw).
    { apply (up_queue s U). rewrite Hqs. by left. }
    rewrite Hp in Hp'. injection Hp' as <-.
    split; [|by apply (calls_insert _ _ p)].
    unfold left_in. cbn. pose proof (sum_insert _ _ _ (at_phase p Running) Hp) as E.
    assert (Hl : left_of p = S (S (sum_list_with steps_for t))) by (unfold left_of; by rewrite Hph, Ht).
    assert (Hl' : left_of (at_phase p Running) = S (sum_list_with steps_for t)) by (unfold left_of; cbn; by rewrite Ht).
    lia.
  - unfold finish in H. destruct (s_pollers s !! i) as [p|] eqn:Hp; [|done].
    destruct (p_phase p) eqn:Hph; try done. destruct (p_todo p) as [|j t] eqn:Ht; [done|]. cbn zeta in H. injection H as <-.
    cbn. split; [done|]. split; [done|]. split; [done|]. split.
    + unfold left_in. cbn. pose proof (sum_insert _ _ _ (mk_pollr t Idle (p_got p ++ [(j, r)]) (p_dying p)) Hp) as E.
      assert (Hl : left_of p = S (sum_list_with steps_for t)) by (unfold left_of; by rewrite Hph, Ht).
      assert (Hl' : left_of (mk_pollr t Idle (p_got p ++ [(j, r)]) (p_dying p)) = sum_list_with steps_for t) by done.
      lia.
    + apply (calls_insert _ _ p); [done|]. unfold calls. cbn. rewrite Ht, map_app, <-app_assoc. done.
Qed.

Lemma rest_done s : inv s -> (1 <= s_n s)%nat -> s_down s = false -> s_closed s = false -> at_rest s -> all_done s.
Proof.
  intros [A U] Hn Hd Hc Hrest. specialize (U Hd).
  assert (Hno : forall i j, ~ runs (s_pollers s) i j).
  { intros i j (p & t & Hp & Hph & Ht). specialize (Hrest (Finish i 0) I). unfold step in Hrest. rewrite Hd in Hrest.
    unfold finish in Hrest. by rewrite Hp, Hph, Ht in Hrest. }
  assert (Hb : s_busy s = []).
  { destruct (s_busy s) as [|k b] eqn:Hb; [done|]. destruct (proj1 (up_busy s U k)) as (j & Hr & _); [rewrite Hb; by left|]. by apply Hno in Hr. }
  assert (Hq : s_queue s = []).
  { destruct (s_queue s) as [|k q] eqn:Hq; [done|]. exfalso.
    destruct (proj1 (up_queue s U k)) as (j & (p & t & Hp & Hph & Ht) & _); [rewrite Hq; by left|].
    specialize (Hrest Take I). unfold step in Hrest. rewrite Hd in Hrest. unfold take in Hrest.
    rewrite Hq, Hb, Hp, Ht in Hrest. rewrite decide_True in Hrest by (cbn; lia). done. }
  intros i p Hp. destruct (p_phase p) eqn:Hph.
  - split; [|done]. destruct (p_todo p) as [|j t] eqn:Ht; [done|]. exfalso.
    specialize (Hrest (Begin i) I). unfold step in Hrest. rewrite Hd in Hrest. unfold begin_ in Hrest. rewrite Hp, Hph, Ht, Hc in Hrest.
    destruct (job_way j).
    + destruct (s_exec s) as [k|] eqn:He; [|done]. destruct (proj1 (up_exec s U k) He) as (j' & Hr & _). by apply Hno in Hr.
    + rewrite Hq in Hrest. rewrite decide_True in Hrest by (cbn; lia). done.
    + done.
  - exfalso. destruct (up_phase s U i p Hp) as (j & t & Ht & Hw); [congruence|].
    assert (i ∈ s_queue s) as Hin by (apply (up_queue s U); exists j; split; [exists p, t; done|by apply Hw]).
    rewrite Hq in Hin. by apply elem_of_nil in Hin.
  - exfalso. destruct (up_phase s U i p Hp) as (j & t & Ht & Hw); [congruence|]. apply (Hno i j). exists p, t. done.
Qed.

Lemma left_le s : (left_in s <= steps_in_all (map p_todo (s_pollers s)))%nat.
Proof.
  unfold left_in, steps_in_all. induction (s_pollers s) as [|p ps IH]; [done|]. cbn.
  assert (left_of p <= sum_list_with steps_for (p_todo p))%nat; [|lia]. clear. unfold left_of.
  destruct (p_phase p); destruct (p_todo p) as [|j t]; cbn; try lia; unfold steps_for; destruct (job_way j); cbn; try lia.
Qed.

(** From any point on, whoever moves when, no call waits forever: the machinery makes at most
    so many steps, and when it can make none every call has been answered, each poller's in
    the order in which they were made. *)
Theorem C96_answered n work h s l s' :
  (1 <= n)%nat -> run (start n work) h = Some s -> s_closed s = false -> s_down s = false ->
  Forall plain l -> run s l = Some s' ->
  (length l <= steps_in_all (map p_todo (s_pollers s)))%nat /\
  (at_rest s' -> all_done s' /\
    forall i p, s_pollers s !! i = Some p ->
      exists p', s_pollers s' !! i = Some p' /\ map fst (p_got p') = map fst (p_got p) ++ p_todo p).
Proof.
  intros Hn Hh Hc Hd Hpl Hl.
  pose proof (run_inv _ _ _ (start_inv n work) Hh) as I.
  assert (Hsn : s_n s = n) by exact (run_n _ _ _ Hh).
  assert (length l + left_in s' = left_in s /\ s_closed s' = false /\ s_down s' = false /\
    map calls (s_pollers s') = map calls (s_pollers s))%nat as (Hlen & Hc' & Hd' & Hcalls).
  { clear Hh Hsn. revert s I Hc Hd Hl. induction Hpl as [|a l Ha Hpl IH]; intros s I Hc Hd Hl; cbn in Hl.
    - injection Hl as <-. done.
    - destruct (step s a) as [s1|] eqn:E1; [|done].
      destruct (plain_step s a s1 I Ha Hc E1) as (Hc1 & Hd1 & _ & Hl1 & Hca1).
      destruct (IH s1 (step_inv s a s1 I E1) Hc1 Hd1 Hl) as (H1 & H2 & H3 & H4).
      split; [cbn; lia|]. split; [done|]. split; [done|]. by rewrite H4. }
  split; [pose proof (left_le s); lia|]. intros Hrest.
  pose proof (run_inv _ _ _ I Hl) as I'.
  assert (Hdone : all_done s') by (apply rest_done; [done|rewrite (run_n _ _ _ Hl), Hsn; done|done..]).
  split; [done|]. intros i p Hp.
  assert (map calls (s_pollers s') !! i = Some (calls p)) as Hi.
  { rewrite Hcalls, list_lookup_fmap, Hp. done. }
  rewrite list_lookup_fmap in Hi. destruct (s_pollers s' !! i) as [p'|] eqn:Hp'; [|done].
  injection Hi as Hi. exists p'. split; [done|]. destruct (Hdone i p' Hp') as [Ht _].
  unfold calls in Hi. by rewrite Ht, app_nil_r in Hi.
Qed.

(** * Shutting down *)

Lemma step_log s a s' : step s a = Some s' -> exists l, s_log s' = s_log s ++ l /\
  (s_closed s = true -> s_closed s' = true /\ (while_up s -> forall i j, EStart i j ∈ l -> job_way j <> ByExecutor)).
Proof.
  intros H. unfold step in H. destruct (s_down s); [done|].
  assert (Hone : forall (e : ev) i j, EStart i j ∈ [e] -> e = EStart i j) by (intros e i j He; by apply elem_of_list_singleton in He).
  assert (Hnil : forall i j, EStart i j ∈ ([] : list ev) -> job_way j <> ByExecutor) by (intros i j He; by apply elem_of_nil in He).
  destruct a as [i| |i r|i|i js|].
  - unfold begin_ in H. destruct (s_pollers s !! i) as [p|]; [|done]. destruct (p_phase p); try done.
    destruct (p_todo p) as [|j t]; [done|]. destruct (job_way j) eqn:Hw.
    + destruct (s_closed s) eqn:Hc.
      * injection H as <-. exists []. cbn. by rewrite app_nil_r.
      * destruct (s_exec s); [done|]. injection H as <-. eexists. split; [reflexivity|]. done.
    + destruct (decide _); [|done]. injection H as <-. exists []. cbn. by rewrite app_nil_r.
    + injection H as <-. eexists. split; [reflexivity|]. intros Hc. split; [done|]. intros _ i' j' He.
      apply Hone in He. injection He as <- <-. congruence.
  - unfold take in H. destruct (s_queue s) as [|i q] eqn:Hq; [done|]. destruct (decide _); [|done].
    destruct (s_pollers s !! i) as [p|] eqn:Hp; [|done]. destruct (p_todo p) as [|j t] eqn:Ht; [done|]. injection H as <-.
    eexists. split; [reflexivity|]. intros Hc. split; [done|]. intros U i' j' He. apply Hone in He. injection He as <- <-.
    destruct (proj1 (up_queue s U i)) as (j' & (p' & t' & Hp' & _ & Ht') & Hw); [rewrite Hq; by left|].
    rewrite Hp in Hp'. injection Hp' as <-. rewrite Ht in Ht'. injection Ht' as <- <-. congruence.
  - unfold finish in H. destruct (s_pollers s !! i) as [p|]; [|done]. destruct (p_phase p); try done.
    destruct (p_todo p) as [|j t]; [done|]. cbn zeta in H. injection H as <-. eexists. split; [reflexivity|].
    intros Hc. split; [done|]. intros _ i' j' He. apply Hone in He. done.
  - unfold panic in H. destruct (s_pollers s !! i) as [p|]; [|done]. destruct (p_phase p); try done.
    destruct (p_todo p) as [|j t]; [done|].
    assert (s_log s' = s_log s ++ [EPanic i j] /\ s_closed s' = s_closed s) as [E1 E2].
    { destruct (job_way j); [by injection H as <-..|]. destruct (p_dying p); by injection H as <-. }
    exists [EPanic i j]. split; [done|]. intros Hc. split; [congruence|]. intros _ i' j' He. apply Hone in He. done.
  - unfold fetch in H. destruct (s_pollers s !! i) as [p|]; [|done]. destruct (p_phase p); try done.
    destruct (p_dying p); [done|]. injection H as <-. exists []. cbn. by rewrite app_nil_r.
  - unfold shut in H. destruct (s_closed s) eqn:Hc; [done|]. injection H as <-. exists []. cbn. rewrite app_nil_r. done.
Qed.

(** ** Pollers go on *)
Definition dead_panicked (s : sys) : Prop :=
  s_closed s = false -> forall i p, s_pollers s !! i = Some p -> p_dying p = true -> exists j, EPanic i j ∈ s_log s.
Lemma dead_keep s s' i p p' more :
  dead_panicked s -> (s_closed s' = false -> s_closed s = false) -> s_pollers s !! i = Some p ->
  s_pollers s' = <[i := p']> (s_pollers s) -> s_log s' = s_log s ++ more ->
  (s_closed s' = false -> p_dying p' = true -> p_dying p = true \/ exists j, EPanic i j ∈ more) -> dead_panicked s'.
Proof.
  intros D Hc Hp Hps Hl Hd Hc' k q Hk Hq. rewrite Hps in Hk. rewrite Hl. destruct (decide (k = i)) as [-> |Hne].
  - rewrite list_lookup_insert in Hk by (by eapply lookup_lt_Some). injection Hk as <-.
    destruct (Hd Hc' Hq) as [H|[j H]].
    + destruct (D (Hc Hc') i p Hp H) as [j Hj]. exists j. apply elem_of_app. by left.
    + exists j. apply elem_of_app. by right.
  - rewrite list_lookup_insert_ne in Hk by done. destruct (D (Hc Hc') k q Hk Hq) as [j Hj]. exists j. apply elem_of_app. by left.
Qed.
Lemma dead_step s a s' : dead_panicked s -> step s a = Some s' -> dead_panicked s'.
Proof.
  intros D H. unfold step in H. destruct (s_down s); [discriminate H|]. destruct a as [i| |i r|i|i js|].
  - unfold begin_ in H. destruct (s_pollers s !! i) as [p|] eqn:Hp; [|discriminate H].
    destruct (p_phase p); try discriminate H. destruct (p_todo p) as [|j t]; [discriminate H|]. destruct (job_way j).
    + destruct (s_closed s) eqn:Hc.
      * injection H as <-. intros H1. discriminate H1.
      * destruct (s_exec s); [discriminate H|]. injection H as <-.
        eapply (dead_keep s _ i p _ _ D); [intros _; exact Hc|exact Hp|reflexivity|reflexivity|]. intros _ H1. left. exact H1.
    + destruct (decide _); [|discriminate H]. injection H as <-.
      eapply (dead_keep s _ i p _ [] D); [intros H1; exact H1|exact Hp|reflexivity|symmetry; apply app_nil_r|]. intros _ H1. left. exact H1.
    + injection H as <-.
      eapply (dead_keep s _ i p _ _ D); [intros H1; exact H1|exact Hp|reflexivity|reflexivity|]. intros _ H1. left. exact H1.
  - unfold take in H. destruct (s_queue s) as [|i q]; [discriminate H|]. destruct (decide _); [|discriminate H].
    destruct (s_pollers s !! i) as [p|] eqn:Hp; [|discriminate H]. destruct (p_todo p); [discriminate H|]. injection H as <-.
    eapply (dead_keep s _ i p _ _ D); [intros H1; exact H1|exact Hp|reflexivity|reflexivity|]. intros _ H1. left. exact H1.
  - unfold finish in H. destruct (s_pollers s !! i) as [p|] eqn:Hp; [|discriminate H].
    destruct (p_phase p); try discriminate H. destruct (p_todo p) as [|j t]; [discriminate H|]. injection H as <-.
    eapply (dead_keep s _ i p _ _ D); [intros H1; exact H1|exact Hp|reflexivity|reflexivity|]. intros _ H1. left. exact H1.
  - unfold panic in H. destruct (s_pollers s !! i) as [p|] eqn:Hp; [|discriminate H].
    destruct (p_phase p); try discriminate H. destruct (p_todo p) as [|j t]; [discriminate H|].
    assert (Hmore : exists j', EPanic i j' ∈ [EPanic i j]) by (exists j; by apply elem_of_list_singleton).
    assert (Hdown : dead_panicked (mk_sys (s_n s) (s_pollers s) (s_exec s) (s_queue s) (s_busy s) (s_closed s) true (with_log s (EPanic i j)))).
    { intros Hc k q Hk Hq. destruct (D Hc k q Hk Hq) as [j' Hj]. exists j'. apply elem_of_app. by left. }
    destruct (job_way j); [injection H as <-; exact Hdown|injection H as <-; exact Hdown|].
    destruct (p_dying p); injection H as <-; [exact Hdown|].
    eapply (dead_keep s _ i p _ _ D); [intros H1; exact H1|exact Hp|reflexivity|reflexivity|]. intros _ _. right. exact Hmore.
  - unfold fetch in H. destruct (s_pollers s !! i) as [p|] eqn:Hp; [|discriminate H].
    destruct (p_phase p); try discriminate H. destruct (p_dying p); [discriminate H|]. injection H as <-.
    eapply (dead_keep s _ i p _ [] D); [intros H1; exact H1|exact Hp|reflexivity|symmetry; apply app_nil_r|].
    cbn. intros _ H1. discriminate H1.
  - unfold shut in H. destruct (s_closed s); [discriminate H|]. injection H as <-. intros H1. discriminate H1.
Qed.

(** A poller none of whose handlers panicked goes on: whenever its calls are answered it can
    fetch again, and then has the new calls to make, whatever happened to others. *)
Theorem C96_goes_on n work h s i p js :
  run (start n work) h = Some s -> s_closed s = false -> s_down s = false ->
  s_pollers s !! i = Some p -> p_phase p = Idle -> (forall j, EPanic i j ∉ s_log s) ->
  exists s' p', step s (Fetch i js) = Some s' /\ s_pollers s' !! i = Some p' /\ p_todo p' = js /\ p_got p' = p_got p /\
    s_log s' = s_log s /\ forall k, k <> i -> s_pollers s' !! k = s_pollers s !! k.
Proof.
  intros Hh Hc Hdn Hp Hph Hno.
  assert (D : dead_panicked s).
  { assert (D0 : dead_panicked (start n work)).
    { intros _ k q Hk Hq. unfold start in Hk. cbn in Hk. rewrite list_lookup_fmap in Hk.
      destruct (work !! k); [|discriminate Hk]. injection Hk as <-. discriminate Hq. }
    clear -Hh D0. revert D0 Hh. generalize (start n work). induction h as [|a h IH]; intros s0 D0 Hh; cbn in Hh.
    - injection Hh as <-. exact D0.
    - destruct (step s0 a) as [s1|] eqn:E; [|discriminate Hh]. exact (IH s1 (dead_step _ _ _ D0 E) Hh). }
  assert (Hdy : p_dying p = false).
  { destruct (p_dying p) eqn:Hdy; [|reflexivity]. destruct (D Hc i p Hp Hdy) as [j Hj]. destruct (Hno j Hj). }
  unfold step. rewrite Hdn. unfold fetch. rewrite Hp, Hph, Hdy. eexists _, _. split; [reflexivity|]. cbn.
  split; [apply list_lookup_insert; by eapply lookup_lt_Some|]. split; [reflexivity|]. split; [reflexivity|]. split; [reflexivity|].
  intros k Hk. by apply list_lookup_insert_ne.
Qed.

(** Once it is shut down nothing that users share is handled any more, but for what was
    being handled. *)
Theorem C96_shut n work h s l s' :
  run (start n work) h = Some s -> s_closed s = true -> run s l = Some s' ->
  exists more, s_log s' = s_log s ++ more /\ forall i j, EStart i j ∈ more -> ~ shared j.
Proof.
  intros Hh. pose proof (run_inv _ _ _ (start_inv n work) Hh) as I. clear Hh. revert s I.
  induction l as [|a l IH]; intros s I Hc Hl; cbn in Hl.
  - injection Hl as <-. exists []. rewrite app_nil_r. split; [done|]. intros i j He. by apply elem_of_nil in He.
  - destruct (step s a) as [s1|] eqn:E1; [|done]. destruct (step_log s a s1 E1) as (m1 & Hm1 & Hs1).
    assert (Hd : s_down s = false) by (unfold step in E1; by destruct (s_down s)).
    destruct (Hs1 Hc) as [Hc1 Hst1]. specialize (Hst1 (proj2 I Hd)).
    destruct (IH s1 (step_inv s a s1 I E1) Hc1 Hl) as (m2 & Hm2 & Hst2).
    exists (m1 ++ m2). split; [by rewrite Hm2, Hm1, app_assoc|]. intros i j He. apply elem_of_app in He as [He|He]; [rewrite shared_way; by apply (Hst1 i j)|by apply (Hst2 i j)].
Qed.

(** * Panics *)

(** "A handler's panic stops nobody but the poller it works for": not so for what users
    share. Poller 0's new events bring the handler down while poller 1 waits with its own, and
    the process is gone. *)
Definition two : list (list job) := [[mk_job CAccumulate 1; mk_job CToDevice 2]; [mk_job CAccumulate 3]].

Theorem C96_panic_refuted :
  exists s, run (start 500 two) [Begin 0; Panic 0]%nat = Some s /\ s_down s = true /\
    (forall a, step s a = None) /\
    (exists p, s_pollers s !! 1%nat = Some p /\ p_todo p = [mk_job CAccumulate 3] /\ p_got p = []).
Proof.
  eexists. split; [reflexivity|]. split; [reflexivity|]. split; [intros a; reflexivity|].
  eexists. split; [reflexivity|]. split; reflexivity.
Qed.

(** It is so for what a poller handles itself. The poller reports that it ended and is gone;
    all others, the executor and the workers go on as if nothing had happened. *)
Theorem C96_panic_partial n work h s i p j t s' :
  run (start n work) h = Some s -> s_pollers s !! i = Some p -> p_phase p = Running -> p_todo p = j :: t ->
  job_way j = BySelf -> p_dying p = false -> step s (Panic i) = Some s' ->
  s_down s' = false /\ s_exec s' = s_exec s /\ s_queue s' = s_queue s /\ s_busy s' = s_busy s /\
  (forall k, k <> i -> s_pollers s' !! k = s_pollers s !! k) /\
  (exists p', s_pollers s' !! i = Some p' /\ map j_cb (p_todo p') = [CTerminated] /\ p_got p' = p_got p /\
     forall js, fetch s' i js = None).
Proof.
  intros Hh Hp Hph Ht Hw Hdy H. unfold step in H. destruct (s_down s) eqn:Hd; [done|]. unfold panic in H.
  rewrite Hp, Hph, Ht, Hw, Hdy in H. injection H as <-. cbn. split; [done|]. split; [done|]. split; [done|]. split; [done|].
  pose proof (lookup_lt_Some _ _ _ Hp) as Hlt. split; [intros k Hk; by rewrite list_lookup_insert_ne|].
  exists (die p). rewrite list_lookup_insert by done. split; [done|]. split; [done|]. split; [done|].
  intros js. unfold fetch. cbn. by rewrite list_lookup_insert.
Qed.

(** * Examples *)

(** Three pollers, one worker: room data in turn, keys by the worker, to-device by itself, all
    at the same time where they may. *)
Definition three : list (list job) :=
  [[mk_job CAccumulate 1; mk_job CE2EE 2]; [mk_job CAccumulate 3; mk_job CE2EE 4]; [mk_job CToDevice 5; mk_job CSince 6]].

Definition busy_day : list act :=
  [Begin 0; Begin 2; Finish 0 7; Begin 1; Begin 0; Take; Finish 1 8; Begin 1; Finish 2 9; Finish 0 10; Take; Begin 2; Finish 1 11; Finish 2 12]%nat%Z.

Example C96_example : exists s, run (start 1 three) busy_day = Some s /\ s_closed s = false /\ s_down s = false /\
  map (fun p => (p_todo p, map snd (p_got p))) (s_pollers s) = [([], [7; 10]); ([], [8; 11]); ([], [9; 12])] /\
  length busy_day = steps_in_all three /\ Forall plain busy_day.
Proof.
  eexists. split; [vm_compute; reflexivity|]. split; [reflexivity|]. split; [reflexivity|]. split; [reflexivity|].
  split; [reflexivity|]. unfold busy_day. repeat constructor.
Qed.

(** The other poller cannot start before the first is through, nor can more be queued than
    there is room for. *)
Example C96_example_waits :
  run (start 1 three) [Begin 0; Begin 1]%nat = None /\
  (exists s, run (start 1 [[mk_job CE2EE 1]; [mk_job CE2EE 2]; [mk_job CE2EE 3]]) [Begin 0; Take; Begin 1]%nat = Some s /\ begin_ s 2%nat = None /\ take s = None).
Proof. split; [reflexivity|]. eexists. split; [reflexivity|]. split; reflexivity. Qed.

(** Without workers, which the server never is, a call for them would wait forever. *)
Example C96_example_no_workers : at_rest (start 0 [[mk_job CE2EE 1]]) /\ ~ all_done (start 0 [[mk_job CE2EE 1]]).
Proof.
  split.
  - intros a Ha. destruct a as [[|[|i]]| |[|[|i]] r|i|i js|]; try done; reflexivity.
  - intros H. destruct (H 0%nat _ eq_refl) as [H1 _]. discriminate.
Qed.

(** Shut down while a poller has something in hand, the next thing makes it panic and end. *)
Example C96_example_shut : exists s, run (start 1 two) [Begin 0; Shut; Finish 0 7; Begin 0; Finish 0 1; Begin 1; Begin 1; Finish 1 0]%nat%Z = Some s /\
  map (fun p => (p_todo p, map fst (p_got p), p_dying p)) (s_pollers s) =
    [([], [mk_job CAccumulate 1; mk_job CToDevice 2], false); ([], [mk_job CTerminated 0], true)].
Proof. eexists. split; [vm_compute; reflexivity|]. reflexivity. Qed.

(** A panic while a poller handles its own. *)
Example C96_example_own_panic : exists s s', run (start 1 three) [Begin 2]%nat = Some s /\ step s (Panic 2) = Some s' /\ s_down s' = false.
Proof. eexists. eexists. split; [reflexivity|]. split; reflexivity. Qed.

(** One poller has panicked; another, which has not, fetches again and again. *)
Example C96_example_goes_on : exists s p,
  run (start 1 three) [Begin 2; Panic 2; Begin 0; Finish 0 7; Fetch 0 [mk_job CTyping 8]; Begin 0; Finish 0 9]%nat%Z = Some s /\
  s_closed s = false /\ s_down s = false /\ s_pollers s !! 0%nat = Some p /\ p_phase p = Idle /\ (forall j, EPanic 0 j ∉ s_log s) /\
  (exists s', step s (Fetch 0 [mk_job CInvite 9]) = Some s') /\ (exists j, EPanic 2 j ∈ s_log s) /\ step s (Fetch 2 []) = None.
Proof.
  eexists _, _. split; [vm_compute; reflexivity|]. split; [reflexivity|]. split; [reflexivity|]. split; [reflexivity|]. split; [reflexivity|].
  split; [intros j Hj; cbn in Hj; repeat (apply elem_of_cons in Hj as [Hj|Hj]; [discriminate Hj|]); by apply elem_of_nil in Hj|].
  split; [eexists; reflexivity|]. split; [|reflexivity]. exists (mk_job CToDevice 5). cbn. right. left.
Qed.

Print Assumptions C96_goes_on.
Print Assumptions C96_in_turn.
Print Assumptions C96_results.
Print Assumptions C96_workers.
Print Assumptions C96_answered.
Print Assumptions C96_shut.
Print Assumptions C96_panic_refuted.
Print Assumptions C96_panic_partial.
Print Assumptions C96_example.
