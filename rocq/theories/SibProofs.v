(** Invariants of the pollers of a user's devices. *)
From Verif Require Import Prelude SibModel SibSpec.
Open Scope string_scope. Open Scope list_scope. Open Scope nat_scope.

Lemma elem_between k m n : k ∈ between m n <-> m < k <= n.
Proof. unfold between. rewrite elem_of_list_to_set, elem_of_seq. lia. Qed.

Lemma otherDevice_spec w d : otherDevice w d = true <-> exists d' p, d' <> d /\ w_pollers w !! d' = Some p /\ k_term p = false.
Proof.
  unfold otherDevice. rewrite existsb_exists. split.
  - intros ((d', p) & Hin & Hb). apply elem_of_list_In, elem_of_map_to_list in Hin. cbn [fst snd] in Hb.
    apply andb_prop in Hb as [H1 H2]. apply negb_true_iff in H1, H2. apply bool_decide_eq_false in H1. eauto.
  - intros (d' & p & Hne & Hp & Ht). exists (d', p). split; [by apply elem_of_list_In, elem_of_map_to_list|].
    cbn [fst snd]. rewrite bool_decide_eq_false_2 by done. by rewrite Ht.
Qed.

(** The row of a device is never ahead of its poller, and a running poller has a token. *)
Record base (w : world) : Prop := {
  b_row : forall d p, w_pollers w !! d = Some p -> exists m, w_rows w !! d = Some m /\ m <= k_since p;
  b_tok : forall d p, w_pollers w !! d = Some p -> k_term p = false -> d ∈ w_tokens w;
  b_has : forall d, d ∈ w_tokens w -> is_Some (w_rows w !! d);
  b_up : forall n, position w n -> n <= w_up w }.

Lemma base0 : base world0.
Proof.
  split; cbn.
  - intros d p H. by rewrite lookup_empty in H.
  - intros d p H. by rewrite lookup_empty in H.
  - intros d H. set_solver.
  - intros n [(d & p & H & _) | (d & H)]; cbn in H; by rewrite lookup_empty in H.
Qed.

Lemma position_poller w d p : w_pollers w !! d = Some p -> position w (k_since p).
Proof. intros H. left. eauto. Qed.
Lemma position_row w d n : w_rows w !! d = Some n -> position w n.
Proof. intros H. right. eauto. Qed.

(** What the steps are, with their conditions read off. *)
Inductive stepped (w : world) : op -> world -> Prop :=
| St_none o : stepped w o w
| St_happens : stepped w Happens (mk_world (S (w_up w)) (w_stored w) (w_tokens w) (w_rows w) (w_pollers w))
| St_login d : stepped w (Login d) (login w d)
| St_ensure d b since :
    d ∈ w_tokens w -> w_rows w !! d = Some since -> (forall p, w_pollers w !! d = Some p -> k_term p = true) ->
    stepped w (Ensure d b) (mk_world (w_up w) (w_stored w) (w_tokens w) (w_rows w)
      (<[ d := mk_sib since (otherDevice w d && negb b) false false ]> (w_pollers w)))
| St_poll d n save p m :
    w_pollers w !! d = Some p -> k_term p = false -> k_dead p = false -> k_since p <= n -> n <= w_up w -> w_rows w !! d = Some m ->
    stepped w (Poll d n save) (mk_world (w_up w) (if k_only p then w_stored w else between (k_since p) n ∪ w_stored w) (w_tokens w)
      (if save then <[ d := n ]> (w_rows w) else w_rows w) (<[ d := mk_sib n false false false ]> (w_pollers w)))
| St_expire d p : w_pollers w !! d = Some p -> k_term p = false ->
    stepped w (Expire d) (mk_world (w_up w) (w_stored w) (w_tokens w ∖ {[ d ]}) (w_rows w)
      (<[ d := mk_sib (k_since p) (k_only p) true (k_dead p) ]> (w_pollers w)))
| St_panic d p : w_pollers w !! d = Some p ->
    stepped w (Panic d) (mk_world (w_up w) (w_stored w) (w_tokens w) (w_rows w)
      (<[ d := mk_sib (k_since p) (k_only p) (k_term p) true ]> (w_pollers w)))
| St_restart : stepped w Restart (restart w).

Lemma step_stepped w o : base w -> stepped w o (step w o).
Proof.
  intros B. destruct o as [|d|d b|d n save|d|d|]; cbn [step].
  - apply St_happens.
  - apply St_login.
  - unfold ensure. case_bool_decide as Ht; [|apply St_none].
    destruct (w_rows w !! d) as [since|] eqn:Er; [|apply St_none].
    unfold exists_already. destruct (w_pollers w !! d) as [p|] eqn:Ep.
    + destruct (k_term p) eqn:Etm; cbn [negb]; [|apply St_none]. apply St_ensure; [done|done|]. intros q Hq. congruence.
    + apply St_ensure; [done|done|]. intros q Hq. congruence.
  - unfold poll. destruct (w_pollers w !! d) as [p|] eqn:Ep; [|apply St_none].
    destruct (negb (k_term p) && negb (k_dead p) && (k_since p <=? n) && (n <=? w_up w)) eqn:Eb; [|apply St_none].
    apply andb_prop in Eb as [Eb H4]. apply andb_prop in Eb as [Eb H3]. apply andb_prop in Eb as [H1 H2].
    apply negb_true_iff in H1, H2. apply Nat.leb_le in H3, H4.
    destruct (b_row w B d p Ep) as (m & Hm & _). rewrite Hm. by apply (St_poll w d n save p m).
  - unfold expire. destruct (w_pollers w !! d) as [p|] eqn:Ep; [|apply St_none].
    destruct (k_term p) eqn:Et; [apply St_none|]. by apply St_expire.
  - unfold panic. destruct (w_pollers w !! d) as [p|] eqn:Ep; [|apply St_none]. by apply St_panic.
  - apply St_restart.
Qed.

Lemma login_row w d d' n : w_rows (login w d) !! d' = Some n -> w_rows w !! d' = Some n \/ (d' = d /\ n = 0 /\ w_rows w !! d = None).
Proof.
  cbn [login w_rows]. destruct (w_rows w !! d) eqn:E; [by left|].
  intros H. destruct (decide (d' = d)) as [-> | Hne].
  - rewrite lookup_insert in H. right. split; [done|]. split; [congruence|done].
  - rewrite lookup_insert_ne in H by congruence. by left.
Qed.
Lemma login_row_old w d d' n : w_rows w !! d' = Some n -> w_rows (login w d) !! d' = Some n.
Proof.
  cbn [login w_rows]. intros H. destruct (w_rows w !! d) eqn:E; [done|]. rewrite lookup_insert_ne; [done|]. intros ->. congruence.
Qed.

(** The positions there are after a step were there before, or are that of the poll. *)
Lemma position_step w o w' n : base w -> stepped w o w' -> position w' n ->
  position w n \/ n = 0 \/ exists d save, o = Poll d n save.
Proof.
  intros B St Hp. destruct St as [o| |d|d b since Ht Hr Hterm|d n0 save p m Hpo Hnt Hnd Hle Hup Hm|d p Hpo Hnt|d p Hpo|].
  - by left.
  - by left.
  - destruct Hp as [(d' & p & H & E) | (d' & H)]; [left; left; eauto|].
    destruct (login_row _ _ _ _ H) as [H' | (-> & -> & _)]; [left; right; eauto | by right; left].
  - destruct Hp as [(d' & p & H & E) | (d' & H)]; [|left; right; eauto]. cbn [w_pollers] in H.
    apply lookup_insert_Some in H as [(<- & <-) | (Hne & H)]; [|left; left; eauto]. cbn [k_since] in E. subst n. left; right; eauto.
  - destruct Hp as [(d' & q & H & E) | (d' & H)].
    + cbn [w_pollers] in H. apply lookup_insert_Some in H as [(<- & <-) | (Hne & H)]; [|left; left; eauto].
      cbn [k_since] in E. subst n0. right; right; eauto.
    + cbn [w_rows] in H. destruct save; [|left; right; eauto].
      apply lookup_insert_Some in H as [(<- & <-) | (Hne & H)]; [right; right; eauto | left; right; eauto].
  - destruct Hp as [(d' & q & H & E) | (d' & H)]; [|left; right; eauto]. cbn [w_pollers] in H.
    apply lookup_insert_Some in H as [(<- & <-) | (Hne & H)]; [|left; left; eauto]. cbn [k_since] in E. left; left; eauto.
  - destruct Hp as [(d' & q & H & E) | (d' & H)]; [|left; right; eauto]. cbn [w_pollers] in H.
    apply lookup_insert_Some in H as [(<- & <-) | (Hne & H)]; [|left; left; eauto]. cbn [k_since] in E. left; left; eauto.
  - destruct Hp as [(d' & q & H & E) | (d' & H)]; [|left; right; eauto]. cbn [restart w_pollers] in H. by rewrite lookup_empty in H.
Qed.

Lemma base_step w o : base w -> base (step w o).
Proof.
  intros B. pose proof (step_stepped w o B) as St. revert St. generalize (step w o) as w'. intros w' St.
  assert (Hup : forall n, position w' n -> n <= w_up w').
  { intros n Hn. destruct (position_step _ _ _ _ B St Hn) as [H | [-> | (d & save & ->)]]; [|lia|].
    - pose proof (b_up w B n H) as H'. clear Hn. inversion St; subst; cbn [w_up login restart]; lia.
    - inversion St; subst; cbn [w_up]; [|lia]. by apply (b_up _ B). }
  destruct St as [o| |d|d b since Ht Hr Hterm|d n0 save p m Hpo Hnt Hnd Hle Hn0 Hm|d p Hpo Hnt|d p Hpo|]; [done|..].
  - split; [exact (b_row w B) | exact (b_tok w B) | exact (b_has w B) | exact Hup].
  - split; [| | |exact Hup].
    + intros d' p Hp. destruct (b_row w B d' p Hp) as (m & Hm & Hle). exists m. split; [by apply login_row_old|done].
    + intros d' p Hp Ht. pose proof (b_tok w B d' p Hp Ht). cbn. set_solver.
    + intros d' Hd. cbn [login w_tokens] in Hd. apply elem_of_union in Hd as [Hd | Hd].
      * apply elem_of_singleton in Hd as ->. cbn [login w_rows]. destruct (w_rows w !! d) eqn:E; [by rewrite E|]. rewrite lookup_insert. by eexists.
      * destruct (b_has w B d' Hd) as (m & Hm). exists m. by apply login_row_old.
  - split; [| |exact (b_has w B)|exact Hup]; cbn [w_pollers w_rows w_tokens].
    + intros d' p Hp. apply lookup_insert_Some in Hp as [(<- & <-) | (Hne & Hp)]; [|exact (b_row w B d' p Hp)]. cbn. eauto.
    + intros d' p Hp Htm. apply lookup_insert_Some in Hp as [(<- & <-) | (Hne & Hp)]; [done|exact (b_tok w B d' p Hp Htm)].
  - split; [| | |exact Hup]; cbn [w_pollers w_rows w_tokens].
    + intros d' q Hq. apply lookup_insert_Some in Hq as [(<- & <-) | (Hne & Hq)]; cbn [k_since].
      * destruct save; [rewrite lookup_insert; eauto|]. destruct (b_row w B d p Hpo) as (m' & Hm' & Hle'). exists m'. split; [done|lia].
      * destruct (b_row w B d' q Hq) as (m' & Hm' & Hle'). exists m'. split; [|done]. destruct save; [|done]. by rewrite lookup_insert_ne.
    + intros d' q Hq Htm. apply lookup_insert_Some in Hq as [(<- & <-) | (Hne & Hq)]; [exact (b_tok w B d p Hpo Hnt)|exact (b_tok w B d' q Hq Htm)].
    + intros d' Hd. destruct (b_has w B d' Hd) as (m' & Hm'). destruct save; [|eauto].
      destruct (decide (d' = d)) as [-> | Hne]; [rewrite lookup_insert; eauto|]. rewrite lookup_insert_ne by congruence. eauto.
  - split; [| | |exact Hup]; cbn [w_pollers w_rows w_tokens].
    + intros d' q Hq. apply lookup_insert_Some in Hq as [(<- & <-) | (Hne & Hq)]; [exact (b_row w B d p Hpo)|exact (b_row w B d' q Hq)].
    + intros d' q Hq Htm. apply lookup_insert_Some in Hq as [(<- & <-) | (Hne & Hq)]; [discriminate Htm|].
      pose proof (b_tok w B d' q Hq Htm). set_solver.
    + intros d' Hd. apply (b_has w B). set_solver.
  - split; [| |exact (b_has w B)|exact Hup]; cbn [w_pollers w_rows w_tokens].
    + intros d' q Hq. apply lookup_insert_Some in Hq as [(<- & <-) | (Hne & Hq)]; [exact (b_row w B d p Hpo)|exact (b_row w B d' q Hq)].
    + intros d' q Hq Htm. apply lookup_insert_Some in Hq as [(<- & <-) | (Hne & Hq)]; [exact (b_tok w B d p Hpo Htm)|exact (b_tok w B d' q Hq Htm)].
  - split; [| |exact (b_has w B)|exact Hup]; cbn [restart w_pollers w_rows w_tokens]; intros d' q Hq; by rewrite lookup_empty in Hq.
Qed.

Lemma stored_step w o k : k ∈ w_stored w -> k ∈ w_stored (step w o).
Proof.
  intros H. destruct o as [|d|d b|d n save|d|d|]; cbn [step login restart w_stored]; try exact H.
  - unfold ensure. case_bool_decide; [|done]. destruct (w_rows w !! d); [|done]. by destruct (exists_already w d).
  - unfold poll. destruct (w_pollers w !! d) as [p|]; [|done].
    destruct (negb (k_term p) && _ && _ && _); [|done]. cbn [w_stored]. destruct (k_only p); [done|]. set_solver.
  - unfold expire. destruct (w_pollers w !! d) as [p|]; [|done]. by destruct (k_term p).
  - unfold panic. by destruct (w_pollers w !! d) as [p|].
Qed.

Lemma skips_intro w d since : d ∈ w_tokens w -> w_rows w !! d = Some since ->
  (forall p, w_pollers w !! d = Some p -> k_term p = true) -> otherDevice w d = true -> skips w d.
Proof.
  intros Ht Hr Hterm Eo. unfold skips, ensure. rewrite bool_decide_eq_true_2 by done. rewrite Hr.
  assert (Ex : exists_already w d = false).
  { unfold exists_already. destruct (w_pollers w !! d) as [q|] eqn:Eq; [|done]. by rewrite (Hterm q eq_refl). }
  rewrite Ex. cbn [w_pollers]. rewrite lookup_insert. eexists. split; [done|]. split; [cbn; by rewrite Eo|].
  intros E. pose proof (Hterm _ E) as E'. discriminate E'.
Qed.

(** ** When nobody skips *)
Record full (w : world) : Prop := {
  f_base : base w;
  f_all : forall n, position w n -> complete w n;
  f_none : forall d p, w_pollers w !! d = Some p -> k_only p = false }.
Lemma full0 : full world0.
Proof.
  split; [exact base0| |].
  - intros n [(d & p & H & _) | (d & H)]; cbn in H; by rewrite lookup_empty in H.
  - intros d p H. cbn in H. by rewrite lookup_empty in H.
Qed.
Lemma full_step w o : full w -> (forall d, o = Ensure d false -> ~ skips w d) -> full (step w o).
Proof.
  intros F Hs. destruct F as [B A N].
  assert (N' : forall d p, w_pollers (step w o) !! d = Some p -> k_only p = false).
  { intros d' q Hq. destruct (k_only q) eqn:Eo; [exfalso|done].
    pose proof (step_stepped w o B) as St. revert Hq Hs. revert St. generalize (step w o) as w'. intros w' St. destruct St as [o| |d|d b since Ht Hr Hterm|d n0 save p m Hpo Hnt Hnd Hle Hn0 Hm|d p Hpo Hnt|d p Hpo|].
    all: try (intros Hq _; pose proof (N d' q Hq); congruence).
    all: cbn [w_pollers restart]; try (intros Hq _; by rewrite lookup_empty in Hq).
    all: intros Hq Hs; apply lookup_insert_Some in Hq as [(<- & <-) | (Hne & Hq)]; [|pose proof (N d' q Hq); congruence].
    - cbn [k_only] in Eo. apply andb_prop in Eo as [Eo Eb]. apply negb_true_iff in Eb. subst b.
      exact (Hs d eq_refl (skips_intro w d since Ht Hr Hterm Eo)).
    - discriminate Eo.
    - cbn [k_only] in Eo. pose proof (N d p Hpo). congruence.
    - cbn [k_only] in Eo. pose proof (N d p Hpo). congruence. }
  split; [by apply base_step| |exact N'].
  intros n Hn k Hk. destruct (position_step w o _ n B (step_stepped w o B) Hn) as [H | [-> | (d & save & ->)]].
  - apply stored_step. by apply (A n H).
  - lia.
  - pose proof (step_stepped w (Poll d n save) B) as St. revert Hn. revert St. generalize (step w (Poll d n save)) as w'. intros w' St Hn.
    inversion St as [| | | |d0 n0 save0 p m Hpo Hnt Hnd Hle Hn0 Hm| | |]; subst; [by apply (A n Hn)|].
    cbn [w_stored]. rewrite (N d p Hpo). destruct (decide (k <= k_since p)).
    + apply elem_of_union_r. apply (A _ (position_poller w d p Hpo)). lia.
    + apply elem_of_union_l, elem_between. lia.
Qed.

(** ** When somebody is always in charge *)
Record guarded (w : world) : Prop := {
  g_base : base w;
  g_all : forall n k, position w n -> 1 <= k <= n -> k ∈ w_stored w \/ exists d m, in_charge w d m /\ m < k;
  g_some : about_to_skip w -> exists d m, in_charge w d m }.
Lemma guarded0 : guarded world0.
Proof.
  split; [exact base0| |].
  - intros n k [(d & p & H & _) | (d & H)]; cbn in H; by rewrite lookup_empty in H.
  - intros (d & p & H & _). cbn in H. by rewrite lookup_empty in H.
Qed.
Lemma charge_position w d m : in_charge w d m -> position w m.
Proof.
  intros (_ & H). destruct (w_pollers w !! d) as [p|] eqn:E; [destruct H as (<- & _); by apply (position_poller w d)|by apply (position_row w d)].
Qed.
Lemma charge_fun w d m m' : in_charge w d m -> in_charge w d m' -> m = m'.
Proof. intros (_ & H) (_ & H'). destruct (w_pollers w !! d); [destruct H as (<- & _), H' as (<- & _); done|congruence]. Qed.

(** A device that a step is not about stays in charge. *)
Lemma charge_other w o w' d m : stepped w o w' -> o <> Restart -> device_of o <> Some d -> in_charge w d m -> in_charge w' d m.
Proof.
  intros St Hr Hd (Ht & Hc). destruct St as [o| |d0|d0 b since Ht0 Hr0 Hterm|d0 n0 save p m0 Hpo Hnt Hnd Hle Hn0 Hm|d0 p Hpo Hnt|d0 p Hpo|]; cbn [device_of] in Hd.
  - by split.
  - by split.
  - split; [cbn; set_solver|]. cbn [login w_pollers]. destruct (w_pollers w !! d); [done|]. by apply login_row_old.
  - split; [done|]. cbn [w_pollers w_rows]. rewrite lookup_insert_ne by congruence. done.
  - split; [done|]. cbn [w_pollers w_rows]. rewrite lookup_insert_ne by congruence. destruct (w_pollers w !! d); [done|].
    destruct save; [|done]. by rewrite lookup_insert_ne by congruence.
  - split; [cbn [w_tokens]; apply elem_of_difference; split; [done|]; rewrite elem_of_singleton; congruence|].
    cbn [w_pollers w_rows]. rewrite lookup_insert_ne by congruence. done.
  - split; [done|]. cbn [w_pollers w_rows]. rewrite lookup_insert_ne by congruence. done.
  - done.
Qed.

Lemma guarded_step w o : guarded w -> orderly w o -> guarded (step w o).
Proof.
  intros [B A G] Ho.
  pose proof (step_stepped w o B) as St. pose proof (base_step w o B) as B'.
  pose proof (stored_step w o) as Hst. revert B' Hst St. generalize (step w o) as w'. intros w' B' Hst St.
  split; [exact B'| |].
  - intros n k Hn Hk. pose proof (position_step _ _ _ _ B St Hn) as Hpos.
    pose proof (fun d m H1 H2 => charge_other w o w' d m St H1 H2) as Hch.
    destruct St as [o| |d|d b since Ht Hr Hterm|d n0 save p m Hpo Hnt Hnd Hle Hn0 Hm|d p Hpo Hnt|d p Hpo|].
    + exact (A n k Hn Hk).
    + exact (A n k Hn Hk).
    + destruct Hpos as [H | [-> | (d' & save & E)]]; [|lia|discriminate E].
      destruct (A n k H Hk) as [H1 | (d' & m & Hc & Hm)]; [by left|right]. exists d', m. split; [|done].
      destruct Hc as (Ht & Hc). split; [cbn; set_solver|]. cbn [login w_pollers]. destruct (w_pollers w !! d'); [done|]. by apply login_row_old.
    + destruct Hpos as [H | [-> | (d' & save & E)]]; [|lia|discriminate E].
      destruct (A n k H Hk) as [H1 | (d' & m & Hc & Hm)]; [by left|].
      destruct (decide (d' = d)) as [-> | Hne].
      2:{ right. exists d', m. split; [|done]. apply Hch; [discriminate|cbn; congruence|done]. }
      assert (Em : m = since).
      { destruct Hc as (_ & Hc). destruct (w_pollers w !! d) as [q|] eqn:Eq; [|congruence].
        destruct Hc as (_ & _ & Hc & _). rewrite (Hterm q eq_refl) in Hc. discriminate Hc. }
      subst m. destruct (otherDevice w d && negb b) eqn:Eo.
      * apply andb_prop in Eo as [Eo Eb]. apply negb_true_iff in Eb. subst b.
        pose proof (skips_intro w d since Ht Hr Hterm Eo) as Hsk.
        destruct (Ho Hsk) as [[Hsp _] _]. cbn [w_stored]. destruct (decide (k ∈ w_stored w)) as [Hks | Hks]; [by left|right].
        destruct (Hsp k) as (d' & m' & Hne & Hc' & Hlt); [split; [lia|]; split; [done|]; exists n; split; [done|lia]|].
        exists d', m'. split; [|done]. apply Hch; [discriminate|cbn; congruence|done].
      * right. exists d, since. split; [|done]. split; [done|]. cbn [w_pollers]. rewrite lookup_insert. done.
    + (* a poll *)
      assert (Htok : d ∈ w_tokens w) by exact (b_tok w B d p Hpo Hnt).
      destruct (k_only p) eqn:Eo; cbn [w_stored].
      * assert (Hd : forall m, ~ in_charge w d m) by (intros m' (_ & Hc); rewrite Hpo in Hc; destruct Hc as (_ & Hc & _); congruence).
        assert (Hold : forall n', position w n' -> 1 <= k <= n' -> k ∈ w_stored w \/ (exists d' m', in_charge (mk_world (w_up w) (w_stored w) (w_tokens w) (if save then <[ d := n0 ]> (w_rows w) else w_rows w) (<[ d := mk_sib n0 false false false ]> (w_pollers w))) d' m' /\ m' < k)).
        { intros n' Hn' Hk'. destruct (A n' k Hn' Hk') as [H1 | (d' & m' & Hc & Hm')]; [by left|right]. exists d', m'. split; [|done].
          apply Hch; [discriminate| |done]. cbn. intros E. apply (inj Some) in E. subst d'. by apply (Hd m'). }
        destruct Hpos as [H | [-> | (d0 & save0 & E)]]; [exact (Hold n H Hk)|lia|].
        injection E as <- <- <-.
        destruct G as (d' & m' & Hc). { exists d, p. done. }
        destruct (decide (k <= m')) as [Hkm | Hkm]; [apply (Hold m'); [by apply (charge_position w d')|lia]|].
        right. exists d', m'. split; [|lia]. apply Hch; [discriminate| |done]. cbn. intros E. apply (inj Some) in E. subst d'. by apply (Hd m').
      * assert (Hd : in_charge w d (k_since p)) by (split; [done|]; rewrite Hpo; done).
        destruct (decide (k <= n0)) as [Hkn | Hkn].
        -- destruct (decide (k <= k_since p)) as [Hks | Hks]; [|left; apply elem_of_union_l, elem_between; lia].
           destruct (A (k_since p) k (position_poller w d p Hpo)) as [H1 | (d' & m' & Hc & Hm')]; [lia|left; by apply elem_of_union_r|].
           right. exists d', m'. split; [|done]. apply Hch; [discriminate| |done]. cbn. intros E. apply (inj Some) in E. subst d'.
           pose proof (charge_fun _ _ _ _ Hd Hc). lia.
        -- destruct Hpos as [H | [-> | (d0 & save0 & E)]]; [|lia|injection E as <- <- <-; lia].
           destruct (A n k H Hk) as [H1 | (d' & m' & Hc & Hm')]; [left; by apply elem_of_union_r|right].
           destruct (decide (d' = d)) as [-> | Hne].
           ++ exists d, n0. split; [|lia]. split; [done|]. cbn [w_pollers]. rewrite lookup_insert. done.
           ++ exists d', m'. split; [|done]. apply Hch; [discriminate|cbn; congruence|done].
    + destruct Hpos as [H | [-> | (d' & save & E)]]; [|lia|discriminate E]. cbn [w_stored].
      destruct (A n k H Hk) as [H1 | (d' & m' & Hc & Hm')]; [by left|].
      destruct (decide (d' = d)) as [-> | Hne].
      * destruct (decide (k ∈ w_stored w)) as [Hks | Hks]; [by left|right]. destruct Ho as [Hsp _].
        destruct (Hsp k) as (d' & m & Hne & Hc' & Hlt); [split; [lia|]; split; [done|]; exists n; split; [done|lia]|].
        exists d', m. split; [|done]. apply Hch; [discriminate|cbn; congruence|done].
      * right. exists d', m'. split; [|done]. apply Hch; [discriminate|cbn; congruence|done].
    + destruct Hpos as [H | [-> | (d' & save & E)]]; [|lia|discriminate E]. cbn [w_stored].
      destruct (A n k H Hk) as [H1 | (d' & m' & Hc & Hm')]; [by left|].
      destruct (decide (d' = d)) as [-> | Hne].
      * destruct (decide (k ∈ w_stored w)) as [Hks | Hks]; [by left|right]. destruct Ho as [Hsp _].
        destruct (Hsp k) as (d' & m & Hne & Hc' & Hlt); [split; [lia|]; split; [done|]; exists n; split; [done|lia]|].
        exists d', m. split; [|done]. apply Hch; [discriminate|cbn; congruence|done].
      * right. exists d', m'. split; [|done]. apply Hch; [discriminate|cbn; congruence|done].
    + destruct Hpos as [H | [-> | (d' & save & E)]]; [|lia|discriminate E]. cbn [restart w_stored].
      destruct (A n k H Hk) as [H1 | (d' & m' & Hc & Hm')]; [by left|right].
      destruct Hc as (Ht & Hc). destruct (w_pollers w !! d') as [q|] eqn:Eq.
      * destruct Hc as (<- & _). destruct (b_row w B d' q Eq) as (m & Hr & Hle). exists d', m. split; [|lia]. split; [done|].
        cbn [restart w_pollers w_rows]. by rewrite lookup_empty.
      * exists d', m'. split; [|done]. split; [done|]. cbn [restart w_pollers w_rows]. by rewrite lookup_empty.
  - intros Hsk. pose proof (fun d m H1 H2 => charge_other w o w' d m St H1 H2) as Hch.
    destruct St as [o| |d|d b since Ht Hr Hterm|d n0 save p m Hpo Hnt Hnd Hle Hn0 Hm|d p Hpo Hnt|d p Hpo|].
    + exact (G Hsk).
    + exact (G Hsk).
    + destruct (G Hsk) as (d' & m & (Ht & Hc)). exists d', m. split; [cbn; set_solver|]. cbn [login w_pollers]. destruct (w_pollers w !! d'); [done|]. by apply login_row_old.
    + destruct (otherDevice w d && negb b) eqn:Eo.
      * apply andb_prop in Eo as [Eo Eb]. apply negb_true_iff in Eb. subst b.
        pose proof (skips_intro w d since Ht Hr Hterm Eo) as Hs.
        destruct (Ho Hs) as [_ (d' & m' & Hne & Hc)]. exists d', m'. apply Hch; [discriminate|cbn; congruence|done].
      * exists d, since. split; [done|]. cbn [w_pollers]. rewrite lookup_insert. done.
    + assert (Htok : d ∈ w_tokens w) by exact (b_tok w B d p Hpo Hnt).
      exists d, n0. split; [done|]. cbn [w_pollers]. rewrite lookup_insert. done.
    + destruct Hsk as (d' & q & Hq & Ho' & Ht' & Hd'). cbn [w_pollers] in Hq. apply lookup_insert_Some in Hq as [(<- & <-) | (Hne & Hq)]; [discriminate Ht'|].
      assert (Hsk : about_to_skip w) by (exists d', q; done). destruct Ho as [_ Ho]. destruct (Ho Hsk) as (d2 & m2 & Hne2 & Hc2).
      exists d2, m2. apply Hch; [discriminate|cbn; congruence|done].
    + destruct Hsk as (d' & q & Hq & Ho' & Ht' & Hd'). cbn [w_pollers] in Hq. apply lookup_insert_Some in Hq as [(<- & <-) | (Hne & Hq)]; [discriminate Hd'|].
      assert (Hsk : about_to_skip w) by (exists d', q; done). destruct Ho as [_ Ho]. destruct (Ho Hsk) as (d2 & m2 & Hne2 & Hc2).
      exists d2, m2. apply Hch; [discriminate|cbn; congruence|done].
    + destruct Hsk as (d' & q & Hq & _). cbn [restart w_pollers] in Hq. by rewrite lookup_empty in Hq.
Qed.

(** ** What is lost *)
Record lost (k : nat) (w : world) : Prop := {
  l_base : base w;
  l_not : k ∉ w_stored w;
  l_ahead : forall d, d ∈ w_tokens w -> exists m, w_rows w !! d = Some m /\ k <= m }.
Lemma lost_step k w o : lost k w -> (forall d, o <> Login d) -> lost k (step w o).
Proof.
  intros [B N L] Hl. pose proof (step_stepped w o B) as St. pose proof (base_step w o B) as B'.
  revert B' St. generalize (step w o) as w'. intros w' B' St. split; [exact B'| |].
  - destruct St as [o| |d|d b since Ht Hr Hterm|d n0 save p m Hpo Hnt Hnd Hle Hn0 Hm|d p Hpo Hnt|d p Hpo|]; try exact N.
    cbn [w_stored]. destruct (k_only p); [done|]. rewrite not_elem_of_union. split; [|done]. rewrite elem_between.
    destruct (L d (b_tok w B d p Hpo Hnt)) as (m' & Hm' & Hk). destruct (b_row w B d p Hpo) as (m'' & Hm'' & Hle').
    assert (m' = m'') by congruence. lia.
  - destruct St as [o| |d|d b since Ht Hr Hterm|d n0 save p m Hpo Hnt Hnd Hle Hn0 Hm|d p Hpo Hnt|d p Hpo|]; try exact L.
    + by destruct (Hl d).
    + intros d' Hd'. cbn [w_tokens w_rows] in *. destruct (L d' Hd') as (m' & Hm' & Hk). destruct save; [|eauto].
      destruct (decide (d' = d)) as [-> | Hne]; [|rewrite lookup_insert_ne by congruence; eauto].
      rewrite lookup_insert. exists n0. split; [done|]. destruct (b_row w B d p Hpo) as (m'' & Hm'' & Hle').
      assert (m' = m'') by congruence. lia.
    + intros d' Hd'. cbn [w_tokens w_rows] in *. apply L. set_solver.
Qed.
Lemma run_app w l l' : run w (l ++ l') = run (run w l) l'.
Proof. unfold run. apply fold_left_app. Qed.
Lemma base_run l w : base w -> base (run w l).
Proof. revert w. induction l as [|o l IH]; intros w B; [done|]. cbn [run fold_left]. apply IH. by apply base_step. Qed.
