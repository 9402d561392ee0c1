(** Properties C51 and C55. *)
From Verif Require Import Prelude TickModel TickSpec.
Open Scope string_scope. Open Scope list_scope. Open Scope nat_scope.

(** * C51 *)
Lemma payload_names taken x : names (payload taken) x <-> x ∈ taken.
Proof.
  unfold names, payload. induction taken as [|y taken IH] using rev_ind.
  - cbn. rewrite lookup_empty. cbn. split; intros H; inversion H.
  - rewrite fold_left_app. cbn [fold_left].
    set (p := fold_left (fun p x => <[x.1 := default [] (p !! x.1) ++ [x.2]]> p) taken ∅) in *.
    rewrite elem_of_app, elem_of_list_singleton, <- IH.
    destruct x as [u d], y as [u' d']. cbn.
    destruct (decide (u' = u)) as [->|Hne].
    + rewrite lookup_insert. cbn. rewrite elem_of_app, elem_of_list_singleton.
      split; (intros [?|E]; [by left|right]); [by subst|by inversion E].
    + rewrite lookup_insert_ne by done. split; [by left|]. intros [?|E]; [done|]. by inversion E.
Qed.

Lemma ticks_app a : forall s b, ticks s (a ++ b) = match ticks s a with Some s' => ticks s' b | None => None end.
Proof. induction a as [|st a IH]; intros s b; cbn; [done|]. destruct (tick s st); [apply IH|done]. Qed.

(** Where a remembered device is: told since there were [n] notifications, in
    the map, or in the hands of a call of emitUpdate. *)
Definition kept (x : pid) (n : nat) (s : ticker) : Prop :=
  (exists p, In p (skipn n (k_out s)) /\ names p x)
  \/ x ∈ k_map s \/ exists i e, k_run s !! i = Some e /\ x ∈ m_taken e.
(** The same, when call [i] began after it was remembered. *)
Definition covered (x : pid) (n : nat) (i : nat) (s : ticker) : Prop :=
  (exists p, In p (skipn n (k_out s)) /\ names p x)
  \/ (x ∈ k_map s /\ exists e, k_run s !! i = Some e /\ x ∈ m_stable e)
  \/ exists j e, k_run s !! j = Some e /\ x ∈ m_taken e.

Definition inv (s : ticker) : Prop :=
  forall i e x, k_run s !! i = Some e -> m_del e = Some x -> x ∈ m_taken e.

Lemma tick_inv s st s' : inv s -> tick s st = Some s' -> inv s'.
Proof.
  intros Hi. destruct st as [x|i|i x|i|i]; cbn [tick].
  - intros [= <-] j e y. cbn [k_run]. rewrite lookup_fmap.
    destruct (k_run s !! j) as [e'|] eqn:E; [|done]. intros [= <-]. cbn. by apply (Hi j).
  - destruct (k_run s !! i) eqn:E; [done|]. intros [= <-] j e y. cbn [k_run].
    destruct (decide (i = j)) as [->|Hne]; [rewrite lookup_insert; by intros [= <-]|].
    rewrite lookup_insert_ne by done. apply Hi.
  - destruct (k_run s !! i) as [[seen stable taken [?|]]|] eqn:E; try done.
    destruct (decide _); [|done]. intros [= <-] j e y. cbn [k_run].
    destruct (decide (i = j)) as [->|Hne].
    + rewrite lookup_insert. intros [= <-]. cbn. intros [= ->]. apply elem_of_app. right. by left.
    + rewrite lookup_insert_ne by done. apply Hi.
  - destruct (k_run s !! i) as [[seen stable taken [x|]]|] eqn:E; try done.
    intros [= <-] j e y. cbn [k_run]. rewrite lookup_fmap.
    destruct (decide (i = j)) as [->|Hne].
    + rewrite lookup_insert. cbn. by intros [= <-].
    + rewrite lookup_insert_ne by done. destruct (k_run s !! j) as [e'|] eqn:E'; [|done].
      cbn. intros [= <-]. cbn. by apply (Hi j).
  - destruct (k_run s !! i) as [[seen stable taken [x|]]|] eqn:E; try done.
    destruct (forallb _ _); [|done]. intros [= <-] j e y. cbn [k_run].
    destruct (decide (i = j)) as [->|Hne]; [by rewrite lookup_delete|].
    rewrite lookup_delete_ne by done. apply Hi.
Qed.

Lemma told_grows x n s out :
  (exists p, In p (skipn n (k_out s)) /\ names p x) ->
  exists p, In p (skipn n (k_out s ++ out)) /\ names p x.
Proof.
  intros (p & Hp & Hx). exists p. split; [|done]. rewrite skipn_app. apply in_or_app. by left.
Qed.

(** What [tick] does to the disjunct "in somebody's hands". *)
Lemma held_step x n s st s' :
  n <= length (k_out s) -> tick s st = Some s' ->
  (exists i e, k_run s !! i = Some e /\ x ∈ m_taken e) ->
  (exists p, In p (skipn n (k_out s')) /\ names p x)
  \/ exists i e, k_run s' !! i = Some e /\ x ∈ m_taken e.
Proof.
  intros Hn Hst (i0 & e0 & H0 & Hx). destruct st as [y|i|i y|i|i]; cbn [tick] in Hst.
  - inversion Hst; subst; clear Hst. right. exists i0. cbn [k_run]. rewrite lookup_fmap, H0. eauto.
  - destruct (k_run s !! i) eqn:E; [done|]. inversion Hst; subst; clear Hst. right. exists i0, e0.
    cbn [k_run]. rewrite lookup_insert_ne; [done|]. intros ->. congruence.
  - destruct (k_run s !! i) as [[seen stable taken [?|]]|] eqn:E; try done.
    destruct (decide _); [|done]. inversion Hst; subst; clear Hst. right. cbn [k_run].
    destruct (decide (i = i0)) as [->|Hne].
    + exists i0. rewrite lookup_insert. eexists. split; [done|]. rewrite E in H0. inversion H0; subst.
      cbn in *. apply elem_of_app. by left.
    + exists i0, e0. by rewrite lookup_insert_ne.
  - destruct (k_run s !! i) as [[seen stable taken [z|]]|] eqn:E; try done.
    inversion Hst; subst; clear Hst. right. cbn [k_run]. exists i0. rewrite lookup_fmap.
    destruct (decide (i = i0)) as [->|Hne].
    + rewrite lookup_insert. cbn. eexists. split; [done|]. rewrite E in H0. inversion H0; subst. done.
    + rewrite lookup_insert_ne by done. rewrite H0. cbn. eauto.
  - destruct (k_run s !! i) as [[seen stable taken [z|]]|] eqn:E; try done.
    destruct (forallb _ _); [|done]. inversion Hst; subst; clear Hst. cbn [k_run k_out].
    destruct (decide (i = i0)) as [->|Hne].
    + left. rewrite E in H0. inversion H0; subst. cbn in Hx. exists (payload taken). split.
      * rewrite skipn_app. apply in_or_app. right. replace (n - length (k_out s)) with 0 by lia.
        cbn. destruct taken; [by apply not_elem_of_nil in Hx|]. by left.
      * by apply payload_names.
    + right. exists i0, e0. by rewrite lookup_delete_ne.
Qed.

Lemma out_grows s st s' : tick s st = Some s' -> exists out, k_out s' = k_out s ++ out.
Proof.
  destruct st as [y|i|i y|i|i]; cbn [tick].
  - intros [= <-]. exists []. by rewrite app_nil_r.
  - destruct (k_run s !! i); [done|]. intros [= <-]. exists []. by rewrite app_nil_r.
  - destruct (k_run s !! i) as [[seen stable taken [?|]]|]; try done. destruct (decide _); [|done].
    intros [= <-]. exists []. by rewrite app_nil_r.
  - destruct (k_run s !! i) as [[seen stable taken [?|]]|]; try done.
    intros [= <-]. exists []. by rewrite app_nil_r.
  - destruct (k_run s !! i) as [[seen stable taken [?|]]|]; try done. destruct (forallb _ _); [|done].
    intros [= <-]. eexists. done.
Qed.

Lemma kept_step x n s st s' :
  n <= length (k_out s) -> inv s -> tick s st = Some s' -> kept x n s -> kept x n s'.
Proof.
  intros Hn Hi Hst Hk. destruct (out_grows _ _ _ Hst) as [out Eo].
  destruct Hk as [H|[H|H]].
  - left. rewrite Eo. by apply told_grows.
  - destruct st as [y|i|i y|i|i]; cbn [tick] in Hst.
    + inversion Hst; subst. right. left. cbn. apply elem_of_union. by right.
    + destruct (k_run s !! i); [done|]. inversion Hst; subst. right. by left.
    + destruct (k_run s !! i) as [[seen stable taken [?|]]|]; try done. destruct (decide _); [|done].
      inversion Hst; subst. right. by left.
    + destruct (k_run s !! i) as [[seen stable taken [z|]]|] eqn:E; try done. inversion Hst; subst.
      destruct (decide (x = z)) as [->|Hne].
      * right. right. exists i. cbn [k_run]. rewrite lookup_fmap, lookup_insert. cbn.
        eexists. split; [done|]. cbn. apply (Hi i _ z E). done.
      * right. left. cbn. apply elem_of_difference. split; [done|]. by rewrite elem_of_singleton.
    + destruct (k_run s !! i) as [[seen stable taken [?|]]|]; try done. destruct (forallb _ _); [|done].
      inversion Hst; subst. right. by left.
  - destruct (held_step _ _ _ _ _ Hn Hst H) as [G|G]; [by left|]. right. by right.
Qed.

Lemma covered_step x n i0 s st s' :
  n <= length (k_out s) -> inv s -> tick s st = Some s' -> covered x n i0 s -> covered x n i0 s'.
Proof.
  intros Hn Hi Hst Hk. destruct (out_grows _ _ _ Hst) as [out Eo].
  destruct Hk as [H|[[H (e0 & H0 & Hs0)]|H]].
  - left. rewrite Eo. by apply told_grows.
  - destruct st as [y|i|i y|i|i]; cbn [tick] in Hst.
    + inversion Hst; subst. right. left. cbn. split; [apply elem_of_union; by right|].
      rewrite lookup_fmap, H0. eauto.
    + destruct (k_run s !! i) eqn:E; [done|]. inversion Hst; subst. right. left. split; [done|]. exists e0.
      cbn. rewrite lookup_insert_ne; [done|]. intros ->. congruence.
    + destruct (k_run s !! i) as [[seen stable taken [?|]]|] eqn:E; try done. destruct (decide _); [|done].
      inversion Hst; subst. right. left. split; [done|]. cbn. destruct (decide (i = i0)) as [->|Hne].
      * rewrite lookup_insert. rewrite E in H0. inversion H0; subst. eauto.
      * rewrite lookup_insert_ne by done. eauto.
    + destruct (k_run s !! i) as [[seen stable taken [z|]]|] eqn:E; try done. inversion Hst; subst.
      destruct (decide (x = z)) as [->|Hne].
      * right. right. exists i. cbn [k_run]. rewrite lookup_fmap, lookup_insert. cbn.
        eexists. split; [done|]. cbn. apply (Hi i _ z E). done.
      * right. left. cbn. split; [apply elem_of_difference; split; [done|]; by rewrite elem_of_singleton|].
        rewrite lookup_fmap. destruct (decide (i = i0)) as [->|Hni].
        -- rewrite lookup_insert. cbn. eexists. split; [done|]. cbn. rewrite E in H0. inversion H0; subst.
           cbn in Hs0. apply elem_of_difference. split; [done|]. by rewrite elem_of_singleton.
        -- rewrite lookup_insert_ne by done. rewrite H0. cbn. eexists. split; [done|]. cbn.
           apply elem_of_difference. split; [done|]. by rewrite elem_of_singleton.
    + destruct (k_run s !! i) as [[seen stable taken [?|]]|] eqn:E; try done.
      destruct (forallb _ _) eqn:Ef; [|done]. inversion Hst; subst.
      destruct (decide (i = i0)) as [->|Hne].
      * left. rewrite E in H0. inversion H0; subst. cbn in Hs0. cbn [k_out].
        assert (Hx : x ∈ taken).
        { rewrite forallb_forall in Ef. assert (Hin : In x (elements stable)) by (apply elem_of_list_In; by apply elem_of_elements).
          apply Ef in Hin. by apply bool_decide_eq_true in Hin. }
        exists (payload taken). split.
        -- rewrite skipn_app. apply in_or_app. right. replace (n - length (k_out s)) with 0 by lia.
           cbn. destruct taken; [by apply not_elem_of_nil in Hx|]. by left.
        -- by apply payload_names.
      * right. left. split; [done|]. exists e0. cbn. by rewrite lookup_delete_ne.
  - destruct (held_step _ _ _ _ _ Hn Hst H) as [G|G]; [by left|]. right. by right.
Qed.

Lemma ticks_inv l : forall s s', inv s -> ticks s l = Some s' ->
  inv s' /\ length (k_out s) <= length (k_out s').
Proof.
  induction l as [|st l IH]; intros s s' Hi H; cbn in H; [by inversion H; subst|].
  destruct (tick s st) as [s1|] eqn:E; [|done]. pose proof (tick_inv _ _ _ Hi E) as Hi1.
  destruct (IH s1 s' Hi1 H) as [? ?]. destruct (out_grows _ _ _ E) as [out Eo].
  rewrite Eo, app_length in *. split; [done|]. lia.
Qed.
Lemma ticks_kept x n l : forall s s', n <= length (k_out s) -> inv s -> ticks s l = Some s' ->
  kept x n s -> kept x n s'.
Proof.
  induction l as [|st l IH]; intros s s' Hn Hi H Hk; cbn in H; [by inversion H; subst|].
  destruct (tick s st) as [s1|] eqn:E; [|done]. destruct (out_grows _ _ _ E) as [out Eo].
  apply (IH s1 s'); [rewrite Eo, app_length; lia|by eapply tick_inv|done|by eapply kept_step].
Qed.
Lemma ticks_covered x n i l : forall s s', n <= length (k_out s) -> inv s -> ticks s l = Some s' ->
  covered x n i s -> covered x n i s'.
Proof.
  induction l as [|st l IH]; intros s s' Hn Hi H Hk; cbn in H; [by inversion H; subst|].
  destruct (tick s st) as [s1|] eqn:E; [|done]. destruct (out_grows _ _ _ E) as [out Eo].
  apply (IH s1 s'); [rewrite Eo, app_length; lia|by eapply tick_inv|done|by eapply covered_step].
Qed.
Lemma inv0 : inv ticker0.
Proof. intros i e x. cbn. by rewrite lookup_empty. Qed.

(** C51: a device is remembered; then, under any interleaving of further
    remembering and emitting, it is named by a notification emitted since, or it
    is still there to be taken by the next one, or a call that will still emit
    has it. *)
Theorem C51_never_lost a x b s s' :
  ticks ticker0 (a ++ [Store x]) = Some s -> ticks s b = Some s' ->
  (exists p, In p (skipn (length (k_out s)) (k_out s')) /\ names p x)
  \/ x ∈ k_map s' \/ exists i e, k_run s' !! i = Some e /\ x ∈ m_taken e.
Proof.
  intros Ha Hb. destruct (ticks_inv _ _ _ inv0 Ha) as [Hi _].
  apply (ticks_kept x (length (k_out s)) b s s'); [lia|done|done|].
  rewrite ticks_app in Ha. destruct (ticks ticker0 a) as [s0|]; [|done]. cbn in Ha. inversion Ha; subst.
  right. left. cbn. apply elem_of_union. left. by apply elem_of_singleton.
Qed.

(** C51: once a call of emitUpdate has begun after the device was remembered
    and all calls have finished, a notification emitted since names it. *)
Theorem C51_notified a x b i c s s' :
  ticks ticker0 (a ++ [Store x]) = Some s -> ticks s (b ++ Begin i :: c) = Some s' ->
  k_run s' = ∅ ->
  exists p, In p (skipn (length (k_out s)) (k_out s')) /\ names p x.
Proof.
  intros Ha Hb Hidle. set (n := length (k_out s)).
  destruct (ticks_inv _ _ _ inv0 Ha) as [Hi _]. rewrite ticks_app in Hb.
  destruct (ticks s b) as [s1|] eqn:E1; [|done]. cbn [ticks] in Hb.
  destruct (tick s1 (Begin i)) as [s2|] eqn:E2; [|done].
  destruct (ticks_inv _ _ _ Hi E1) as [Hi1 Hn1].
  pose proof (C51_never_lost a x b s s1 Ha E1) as Hk. fold n in Hk.
  assert (Hc : covered x n i s2).
  { cbn [tick] in E2. destruct (k_run s1 !! i) eqn:E; [done|]. inversion E2; subst. unfold covered.
    cbn [k_out k_map k_run]. destruct Hk as [H|[H|(j & e & H & Hx)]].
    - by left.
    - right. left. split; [done|]. eexists. rewrite lookup_insert. done.
    - right. right. exists j, e. rewrite lookup_insert_ne; [done|]. intros ->. congruence. }
  assert (Hi2 : inv s2) by (by eapply tick_inv).
  destruct (out_grows _ _ _ E2) as [out Eo].
  pose proof (ticks_covered x n i c s2 s' ltac:(rewrite Eo, app_length; unfold n; lia) Hi2 Hb Hc) as Hfin.
  destruct Hfin as [H|[(_ & e & H & _)|(j & e & H & _)]]; [done| |]; by rewrite Hidle, lookup_empty in H.
Qed.

(** A device remembered again between being visited and being deleted. *)
Definition race : list tick_step :=
  [Begin 0; Visit 0 ("@u", "D"); Store ("@u", "E"); Store ("@u", "D"); Delete 0; Emit 0; Begin 0;
   Visit 0 ("@u", "E"); Delete 0; Emit 0].
Example C51_race :
  option_map (fun s => (bool_decide (k_run s = ∅), map (fun p => default [] (p !! "@u")) (k_out s), elements (k_map s)))
    (ticks ticker0 (Store ("@u", "D") :: race)) = Some (true, [["D"]; ["E"]], []).
Proof. vm_compute. reflexivity. Qed.

(** * C55 *)
Lemma real_app a b : real (a ++ b) = real a ++ real b.
Proof. apply List.filter_app. Qed.
Lemma handle_real h p : real (handle h p) = real h ++ real [p].
Proof. destruct p; cbn; [by rewrite real_app|by rewrite app_nil_r]. Qed.

Definition pinv (c : chan) : Prop :=
  c_handled c ++ real (c_buf c) = real (c_accepted c)
  /\ length (c_buf c) <= c_cap c
  /\ (c_sendq c <> [] -> length (c_buf c) = c_cap c /\ c_idle c = false)
  /\ (c_idle c = true -> c_buf c = []).

Lemma handle_is h p : handle h p = h ++ real [p].
Proof. destruct p; cbn; [done|by rewrite app_nil_r]. Qed.

Lemma send_inv c j p : pinv c -> pinv (send c j p) /\ c_cap (send c j p) = c_cap c.
Proof.
  intros (H1 & H2 & H3 & H4). unfold send.
  destruct (c_closed c); [done|]. destruct (c_idle c) eqn:Ei.
  - assert (Hb : c_buf c = []) by (by apply H4).
    assert (Hs : c_sendq c = []) by (destruct (c_sendq c); [done|]; by destruct H3).
    unfold pinv. cbn. rewrite Hb, Hs in *. cbn in *. rewrite app_nil_r in *.
    rewrite handle_is, real_app, H1. repeat split; try done; lia.
  - destruct (decide _) as [Hl|Hl].
    + assert (Hs : c_sendq c = []) by (destruct (c_sendq c); [done|]; destruct H3; [done|lia]).
      unfold pinv. cbn. rewrite Hs, !real_app, app_assoc, H1, app_length. cbn. repeat split; try done; lia.
    + unfold pinv. cbn. repeat split; try done; lia.
Qed.

Lemma pub_inv c st c' : pinv c -> pub c st = Some c' -> pinv c' /\ c_cap c' = c_cap c.
Proof.
  intros Hi. pose proof Hi as (H1 & H2 & H3 & H4). destruct st as [j n|j|j| |]; cbn [pub].
  - intros [= <-]. by apply send_inv.
  - destruct (List.find _ _) as [x|] eqn:E; [|done]. intros [= <-]. unfold pinv. cbn [c_cap c_buf c_sendq c_idle c_closed c_owes c_accepted c_handled c_refused c_panicked].
    split; [|done]. split; [done|]. split; [done|]. split; [|done].
    intros _. apply H3. intros Hs. rewrite Hs in E. done.
  - destruct (decide _); [|done]. intros [= <-].
    match goal with |- pinv (send ?c0 _ _) /\ _ => pose proof (send_inv c0 j Empty Hi) as G end. exact G.
  - destruct (c_idle c) eqn:Ei; [done|].
    destruct (c_buf c) as [|p buf] eqn:Eb, (c_sendq c) as [|[j q] sq] eqn:Es.
    + destruct (c_closed c); [done|]. intros [= <-]. unfold pinv. cbn [c_cap c_buf c_sendq c_idle c_closed c_owes c_accepted c_handled c_refused c_panicked]. repeat split; done.
    + intros [= <-]. unfold pinv. cbn [c_cap c_buf c_sendq c_idle c_closed c_owes c_accepted c_handled c_refused c_panicked]. cbn in H1. rewrite app_nil_r in *.
      rewrite handle_is, real_app, H1. destruct H3 as [H3 _]; [done|]. repeat split; done.
    + intros [= <-]. unfold pinv. cbn [c_cap c_buf c_sendq c_idle c_closed c_owes c_accepted c_handled c_refused c_panicked]. rewrite handle_is, <- H1, <- app_assoc.
      cbn in H2. repeat split; try done; try lia. by destruct p.
    + intros [= <-]. unfold pinv. cbn [c_cap c_buf c_sendq c_idle c_closed c_owes c_accepted c_handled c_refused c_panicked]. rewrite handle_is, !real_app, <- H1, app_length. cbn in H2.
      destruct H3 as [H3 _]; [done|]. cbn in H3. cbn [length].
      repeat split; try done; try lia. rewrite <- !app_assoc. by destruct p.
  - destruct (c_closed c); [intros [= <-]; done|]. intros [= <-]. unfold pinv. cbn [c_cap c_buf c_sendq c_idle c_closed c_owes c_accepted c_handled c_refused c_panicked]. done.
Qed.

Lemma pubs_inv l : forall c c', pinv c -> pubs c l = Some c' -> pinv c' /\ c_cap c' = c_cap c.
Proof.
  induction l as [|st l IH]; intros c c' Hi H; cbn in H; [by inversion H; subst|].
  destruct (pub c st) as [c1|] eqn:E; [|done]. destruct (pub_inv _ _ _ Hi E) as [Hi1 E1].
  destruct (IH c1 c' Hi1 H) as [? ?]. split; [done|congruence].
Qed.
Lemma pinv0 cap : pinv (chan0 cap).
Proof. unfold pinv. cbn. repeat split; try done; lia. Qed.

(** C55: under every schedule, the payloads given to the callback, followed by
    those in the buffer (never more than its size), are those accepted, in
    order. *)
Theorem C55_in_order cap l c :
  pubs (chan0 cap) l = Some c ->
  exists waiting, c_handled c ++ waiting = real (c_accepted c)
    /\ waiting = real (c_buf c) /\ length (c_buf c) <= cap.
Proof.
  intros H. destruct (pubs_inv l _ _ (pinv0 cap) H) as [(H1 & H2 & _) E].
  exists (real (c_buf c)). cbn in E. rewrite E in H2. done.
Qed.

Lemma pubs_app a : forall c b, pubs c (a ++ b) = match pubs c a with Some c' => pubs c' b | None => None end.
Proof. induction a as [|st a IH]; intros c b; cbn; [done|]. destruct (pub c st); [apply IH|done]. Qed.

Definition blocked (j : nat) (c : chan) : Prop := exists n, In (j, P n) (c_sendq c).

Lemma send_sendq c j p j' n : In (j', P n) (c_sendq (send c j p)) -> In (j', P n) (c_sendq c) \/ (j' = j /\ p = P n).
Proof.
  unfold send. destruct (c_closed c); [by left|]. destruct (c_idle c); [by left|].
  destruct (decide _); [by left|]. cbn. rewrite in_app_iff. intros [?|[E|[]]]; [by left|right].
  by inversion E.
Qed.

Lemma pub_blocked j c st c' : pub c st = Some c' -> (forall n, st <> Notify j n) -> blocked j c' -> blocked j c.
Proof.
  intros H Hne [n Hn]. destruct st as [j' m|j'|j'| |]; cbn [pub] in H.
  - inversion H; subst. apply send_sendq in Hn as [Hn|[-> [= ->]]]; [by exists n|]. by destruct (Hne n).
  - destruct (List.find _ _); [|done]. inversion H; subst. cbn in Hn. apply filter_In in Hn as [Hn _]. by exists n.
  - destruct (decide _); [|done]. inversion H; subst. apply send_sendq in Hn as [Hn|[_ ?]]; [|done]. by exists n.
  - destruct (c_idle c); [done|]. destruct (c_buf c) as [|p buf], (c_sendq c) as [|[j' q] sq] eqn:Es.
    + destruct (c_closed c); [done|]. inversion H; subst. destruct Hn.
    + inversion H; subst. exists n. rewrite Es. by right.
    + inversion H; subst. destruct Hn.
    + inversion H; subst. exists n. rewrite Es. by right.
  - destruct (c_closed c); inversion H; subst; [by exists n|]. destruct Hn.
Qed.

(** C55: a call that is refused was blocked all the time since it was made, and
    all that time the buffer was full and the listener was not waiting. *)
Theorem C55_refused_only_when_full cap a j n b1 b2 c c' c1 :
  pubs (chan0 cap) (a ++ Notify j n :: b1 ++ b2) = Some c ->
  (forall m, ~ In (Notify j m) (b1 ++ b2)) ->
  pub c (Timeout j) = Some c' ->
  pubs (chan0 cap) (a ++ Notify j n :: b1) = Some c1 ->
  length (c_buf c1) = cap /\ c_idle c1 = false /\ blocked j c1.
Proof.
  intros H Hno Ht H1.
  assert (Hb : blocked j c).
  { cbn [pub] in Ht. destruct (List.find _ _) as [[j' p]|] eqn:E; [|done].
    apply find_some in E as [Hin E]. cbn in E. apply andb_true_iff in E as [E1 E2].
    apply Nat.eqb_eq in E1 as ->. destruct p as [m|]; [|done]. by exists m. }
  assert (E : pubs c1 b2 = Some c).
  { rewrite app_comm_cons, app_assoc, pubs_app, H1 in H. exact H. }
  assert (Hb1 : blocked j c1).
  { clear H1. assert (Hno2 : forall m, ~ In (Notify j m) b2) by (intros m Hm; apply (Hno m), in_or_app; by right).
    clear Hno H Ht. revert c1 E. induction b2 as [|st b2 IH]; intros c1 E; cbn in E; [by inversion E; subst|].
    destruct (pub c1 st) as [c2|] eqn:E2; [|done].
    eapply pub_blocked; [exact E2| |].
    - intros m ->. apply (Hno2 m). by left.
    - apply IH; [intros m Hm; apply (Hno2 m); by right|done]. }
  destruct (pubs_inv _ _ _ (pinv0 cap) H1) as [(_ & _ & H3 & _) Ec]. cbn in Ec.
  destruct Hb1 as [m Hm]. destruct H3 as [H3 H4]; [by intros Hs; rewrite Hs in Hm|].
  rewrite <- Ec. split; [done|]. split; [done|]. by exists m.
Qed.

(** C55: as the listener goes on, what waits is handed over: after as many
    receptions as there are payloads in the buffer, all that had been accepted
    are handled, in order. *)
Theorem C55_delivered cap l c :
  pubs (chan0 cap) l = Some c -> c_idle c = false ->
  exists c', pubs c (repeat Receive (length (c_buf c))) = Some c'
    /\ exists more, c_handled c' = real (c_accepted c) ++ more.
Proof.
  intros H Hidle. destruct (pubs_inv l _ _ (pinv0 cap) H) as [(H1 & _) _]. clear H.
  assert (G : forall k c, c_idle c = false -> k <= length (c_buf c) ->
    exists c' rest, pubs c (repeat Receive k) = Some c'
      /\ c_handled c' = c_handled c ++ real (firstn k (c_buf c)) ++ rest /\ rest = []).
  { induction k as [|k IH]; intros c0 Hi Hk.
    - exists c0, []. cbn. by rewrite app_nil_r.
    - cbn [repeat pubs pub]. rewrite Hi. destruct (c_buf c0) as [|p buf] eqn:Eb; [cbn in Hk; lia|].
      cbn [length] in Hk. destruct (c_sendq c0) as [|[j q] sq].
      + match goal with |- context [pubs ?x _] => destruct (IH x eq_refl) as (c' & rest & E & Eh & Er); [cbn; lia|] end.
        exists c', rest. split; [exact E|]. split; [|done]. rewrite Eh. cbn [c_handled c_buf].
        rewrite handle_is, <- app_assoc. cbn [firstn]. by destruct p.
      + match goal with |- context [pubs ?x _] => destruct (IH x eq_refl) as (c' & rest & E & Eh & Er);
          [cbn; rewrite app_length; lia|] end.
        exists c', rest. split; [exact E|]. split; [|done]. rewrite Eh. cbn [c_handled c_buf].
        rewrite handle_is, <- app_assoc, take_app_le by lia. cbn [firstn]. by destruct p. }
  destruct (G (length (c_buf c)) c Hidle (le_n _)) as (c' & rest & E & Eh & ->).
  exists c'. split; [exact E|]. exists []. rewrite firstn_all, app_nil_r in Eh. by rewrite Eh, H1, app_nil_r.
Qed.

(** C55: as long as the channel is not closed, no payload disappears: each one was
    accepted, waits in a blocked call, or was refused with an error. *)
Definition isP (x : nat * pl) : bool := match x.2 with P _ => true | Empty => false end.
Lemma real_snd q : real (map snd q) = map snd (List.filter isP q).
Proof. induction q as [|[j [n|]] q IH]; cbn; [done|f_equal; exact IH|exact IH]. Qed.
Definition linv (l : list pub_step) (c : chan) : Prop :=
  c_closed c = false
  /\ List.NoDup (map fst (List.filter isP (c_sendq c)))
  /\ (forall x, In x (List.filter isP (c_sendq c)) -> In x.1 (calls l))
  /\ real (c_accepted c) ++ map snd (List.filter isP (c_sendq c)) ++ map snd (c_refused c) ≡ₚ notified l.
Lemma split_out j (q : list (nat * pl)) x :
  List.NoDup (map fst (List.filter isP q)) ->
  List.find (fun x => (x.1 =? j) && match x.2 with P _ => true | Empty => false end) q = Some x ->
  let q' := List.filter (fun y => negb ((y.1 =? j) && match y.2 with P _ => true | Empty => false end)) q in
  List.filter isP q ≡ₚ x :: List.filter isP q' /\ List.NoDup (map fst (List.filter isP q')).
Proof.
  cbv zeta. induction q as [|y q IH]; intros Hnd Hf; [discriminate|]. cbn in Hf |- *.
  destruct y as [j' [n|]]; cbn in *.
  - destruct (j' =? j) eqn:E; cbn in *.
    + injection Hf as <-. apply Nat.eqb_eq in E as ->. inversion Hnd as [|? ? Hni Hnd']; subst.
      assert (Hid : List.filter isP (List.filter (fun y => negb ((y.1 =? j) && match y.2 with P _ => true | Empty => false end)) q) = List.filter isP q).
      { clear -Hni. induction q as [|[j' [m|]] q IH]; cbn in *; [done| |].
        - destruct (j' =? j) eqn:E; cbn. { apply Nat.eqb_eq in E as ->. exfalso. apply Hni. by left. } f_equal. apply IH. intros H. apply Hni. by right.
        - rewrite andb_false_r. cbn. by apply IH. }
      rewrite Hid. done.
    + inversion Hnd as [|? ? Hni Hnd']; subst. destruct (IH Hnd' Hf) as [P1 P2]. split; [rewrite P1; constructor|].
      constructor; [|exact P2]. intros Hin. apply Hni. apply in_map_iff in Hin as (z & <- & Hz). apply in_map.
      apply filter_In in Hz as [Hz Hz']. apply filter_In in Hz as [Hz _]. by apply filter_In.
  - rewrite andb_false_r in *. cbn. by apply IH.
Qed.
Lemma send_linv l c j p st :
  st = Notify j match p with P n => n | Empty => 0 end \/ p = Empty -> (p <> Empty -> ~ In j (calls l)) ->
  linv l c -> linv (match p with P n => l ++ [Notify j n] | Empty => l end) (send c j p).
Proof.
  intros _ Hj (H1 & H2 & H3 & H4).
  assert (Hc : forall x, In x (calls l) -> In x (calls match p with P n => l ++ [Notify j n] | Empty => l end)).
  { intros x Hx. destruct p; [|exact Hx]. unfold calls. rewrite omap_app. apply in_or_app. by left. }
  assert (Hn : notified (match p with P n => l ++ [Notify j n] | Empty => l end) = notified l ++ real [p]).
  { destruct p; cbn; [|by rewrite app_nil_r]. unfold notified. by rewrite omap_app. }
  unfold send. rewrite H1. destruct (c_idle c); [|destruct (decide (length (c_buf c) < c_cap c)) as [Hlt|Hge]]; (split; [reflexivity|]); cbn [c_sendq c_accepted c_refused].
  - split; [exact H2|]. split; [intros x Hx; by apply Hc, H3|]. rewrite Hn, <-H4, real_app. solve_Permutation.
  - split; [exact H2|]. split; [intros x Hx; by apply Hc, H3|]. rewrite Hn, <-H4, real_app. solve_Permutation.
  - rewrite List.filter_app, !map_app. destruct p as [n|]; cbn.
    + split; [|split].
      * apply NoDup_ListNoDup. rewrite NoDup_app. split; [by apply NoDup_ListNoDup|]. split; [|apply NoDup_singleton].
        intros x Hx ->%elem_of_list_singleton. apply elem_of_list_In, in_map_iff in Hx as (y & <- & Hy). apply Hj; [done|]. by apply H3.
      * intros x [Hx|[<-|[]]]%in_app_or; [by apply Hc, H3|]. cbn. unfold calls. rewrite omap_app. apply in_or_app. right. by left.
      * cbn in Hn. rewrite Hn, <-H4. solve_Permutation.
    + rewrite !app_nil_r. split; [exact H2|]. split; [exact H3|]. exact H4.
Qed.
Lemma pub_linv l st c c' :
  linv l c -> st <> Close -> List.NoDup (calls (l ++ [st])) -> pub c st = Some c' -> linv (l ++ [st]) c'.
Proof.
  intros Hi Hcl Hnd H.
  assert (Hsame : match st with Notify _ _ => False | _ => True end -> calls (l ++ [st]) = calls l /\ notified (l ++ [st]) = notified l).
  { intros Hst. unfold calls, notified. rewrite !omap_app. destruct st; cbn; rewrite ?app_nil_r; done. }
  assert (Heq : forall c1, match st with Notify _ _ => False | _ => True end -> linv l c1 -> linv (l ++ [st]) c1).
  { intros c1 Hst (A & B & C & D). destruct (Hsame Hst) as [E1 E2]. unfold linv. rewrite E1, E2. done. }
  destruct st as [j n|j|j| |]; cbn [pub] in H.
  - injection H as <-. apply (send_linv l c j (P n) (Notify j n)); [by left| |exact Hi].
    intros _ Hin. unfold calls in Hnd. rewrite omap_app in Hnd. apply NoDup_ListNoDup, NoDup_app in Hnd as (_ & Hx & _).
    apply (Hx j); [by apply elem_of_list_In|]. cbn. by apply elem_of_list_singleton.
  - apply Heq; [done|]. destruct (List.find _ _) as [x|] eqn:E; [|discriminate]. injection H as <-. destruct Hi as (H1 & H2 & H3 & H4).
    destruct (split_out j (c_sendq c) x H2 E) as [P1 P2]. split; [exact H1|]. cbn [c_sendq c_accepted c_refused]. split; [exact P2|]. split.
    + intros y Hy. apply H3. apply elem_of_list_In. rewrite P1. apply elem_of_list_In. by right.
    + rewrite <-H4, P1, map_app. cbn. solve_Permutation.
  - apply Heq; [done|]. destruct (decide _); [|discriminate]. injection H as <-. apply (send_linv l _ j Empty (Flush j)); [by right|done|exact Hi].
  - apply Heq; [done|]. destruct Hi as (H1 & H2 & H3 & H4). destruct (c_idle c); [discriminate|].
    destruct (c_buf c) as [|p buf], (c_sendq c) as [|[j q] sq] eqn:Eq; rewrite ?H1 in H; injection H as <-; (split; [first [exact H1|reflexivity]|]); cbn [c_sendq c_accepted c_refused].
    + by rewrite ?Eq.
    + cbn in *. destruct q as [n|]; cbn in *.
      * inversion H2; subst. split; [done|]. split; [intros x Hx; apply H3; by right|]. rewrite <-H4, real_app. cbn. solve_Permutation.
      * split; [done|]. split; [done|]. rewrite real_app. cbn. by rewrite app_nil_r.
    + by rewrite ?Eq.
    + cbn in *. destruct q as [n|]; cbn in *.
      * inversion H2; subst. split; [done|]. split; [intros x Hx; apply H3; by right|]. rewrite <-H4, real_app. cbn. solve_Permutation.
      * split; [done|]. split; [done|]. rewrite real_app. cbn. by rewrite app_nil_r.
  - done.
Qed.
Theorem C55_none_disappears_partial cap l c :
  ~ In Close l -> List.NoDup (calls l) -> pubs (chan0 cap) l = Some c ->
  real (c_accepted c) ++ real (map snd (c_sendq c)) ++ map snd (c_refused c) ≡ₚ notified l.
Proof.
  intros Hcl Hnd H. rewrite real_snd. enough (linv l c) as (_ & _ & _ & Hx) by exact Hx.
  revert c H. induction l as [|st l IH] using rev_ind; intros c H.
  { cbn in H. injection H as <-. repeat split; try done. all: constructor. }
  rewrite pubs_app in H. destruct (pubs (chan0 cap) l) as [c0|] eqn:E; [|discriminate]. cbn in H. destruct (pub c0 st) as [c1|] eqn:E1; [|discriminate].
  injection H as <-. eapply pub_linv; [|intros ->; apply Hcl, in_or_app; right; by left|exact Hnd|exact E1].
  apply IH; [intros Hx; apply Hcl, in_or_app; by left| |done].
  unfold calls in Hnd. rewrite omap_app in Hnd. apply NoDup_ListNoDup, NoDup_app in Hnd as [Hnd _]. by apply NoDup_ListNoDup.
Qed.


(** Cases: a buffer of two, a blocked call that gets in, one that times out. *)
Definition busy : list pub_step :=
  [Receive; Notify 1 10; Notify 2 20; Notify 3 30; Notify 4 40; Notify 5 50; Timeout 5; Receive; Receive].
Example C55_busy :
  option_map (fun c => (c_handled c, real (c_accepted c), c_buf c, c_refused c)) (pubs (chan0 2) busy)
  = Some ([P 10; P 20; P 30], [P 10; P 20; P 30; P 40], [P 40], [(5, P 50)]).
Proof. vm_compute. reflexivity. Qed.
Example C55_no_buffer :
  option_map (fun c => (c_handled c, c_owes c))
    (pubs (chan0 0) [Notify 1 10; Receive; Flush 1; Receive; Receive; Notify 2 20])
  = Some ([P 10; P 20], [2]).
Proof. vm_compute. reflexivity. Qed.

(** Notifying after Close, or being blocked when Close comes, is not reported
    as an error: the send panics. *)
Theorem C55_closed_refuted :
  option_map (fun c => (c_refused c, c_panicked c)) (pubs (chan0 1) [Notify 1 10; Notify 2 20; Close; Notify 3 30])
  = Some ([], [2; 3]).
Proof. vm_compute. reflexivity. Qed.

Print Assumptions C51_never_lost.
Print Assumptions C51_notified.
Print Assumptions C55_in_order.
Print Assumptions C55_refused_only_when_full.
Print Assumptions C55_delivered.
Print Assumptions C55_none_disappears_partial.
Print Assumptions C55_closed_refuted.

Example C55_busy_schedule : ~ In Close busy /\ List.NoDup (calls busy).
Proof.
  split; [|apply NoDup_ListNoDup; apply (bool_decide_eq_true_1 _); vm_compute; reflexivity].
  intros H. repeat (destruct H as [H|H]; [discriminate|]). destruct H.
Qed.
