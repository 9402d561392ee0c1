(** Proofs about waiting for updates on a connection. *)
From Verif Require Import Prelude LoopModel.
Open Scope list_scope. Open Scope Z_scope.

Section loop.
  Context {A R : Type}.
  Variable proc : A -> R -> R.
  Variable has : R -> bool.
  Variable cap : nat.
  Variable wait : Z.
  Notation do := (do proc has cap wait).
  Notation runs := (runs proc has cap wait).
  Notation st := (@st A R).
  Notation request := (@request R).

  Lemma runs_app l m s : runs (l ++ m) s = match runs l s with Some s => runs m s | None => None end.
  Proof. revert s. induction l as [|x l IH]; intros s; [reflexivity|]. cbn. destruct (do s x); [apply IH|reflexivity]. Qed.
  Lemma runs_ind (P : st -> Prop) l s0 s :
    P s0 -> (forall s x s', P s -> do s x = Some s' -> P s') -> runs l s0 = Some s -> P s.
  Proof.
    intros H0 Hs. revert s0 H0. induction l as [|x l IH]; intros s0 H0 Hr. { by injection Hr as <-. }
    cbn in Hr. destruct (do s0 x) as [s1|] eqn:E; [|discriminate]. eapply IH; [|exact Hr]. by eapply Hs.
  Qed.

  Lemma receive_line (q : list A) b u q' b' :
    receive q b = Some (u, q', b') -> q ++ map fst b = u :: q' ++ map fst b'.
  Proof.
    unfold receive. destruct q as [|x q], b as [|[y t] b]; intros [= <- <- <-]; cbn; [reflexivity| |].
    - by rewrite app_nil_r.
    - by rewrite <-app_assoc.
  Qed.
  Lemma receive_size (q : list A) b u q' b' :
    receive q b = Some (u, q', b') -> (b' <> [] -> b <> []) /\ ((b <> [] -> length q = cap) -> (b' <> [] -> length q' = cap)) /\ (length q' <= length q)%nat.
  Proof.
    unfold receive. destruct q as [|x q], b as [|[y t] b]; intros [= <- <- <-]; cbn.
    - split; [done|]. split; [|lia]. intros H _. by apply H.
    - split; [done|]. split; [done|lia].
    - rewrite app_length. cbn. split; [done|]. split; [|lia]. intros H _. specialize (H ltac:(done)). lia.
  Qed.

  (** ** The line of updates *)
  Record line (s : st) : Prop := {
    l_alive : lost s = [] -> full s = false /\ ignored s = [] /\ called s = handled s ++ queue s ++ map fst (blocked s);
    l_dead : lost s <> [] -> full s = true;
    l_le : (length (queue s) <= cap)%nat;
    l_cap : blocked s <> [] -> length (queue s) = cap;
    l_times : forall u t, In (u, t) (blocked s) -> t <= now s
  }.
  Lemma line0 : line st0.
  Proof. split; cbn; [by intros _|by intros []|lia|done|done]. Qed.

  Lemma line_consume s r p s' : line s -> consume proc s r p = Some s' -> line s'.
  Proof.
    intros [H1 H2 Hc H3 H4] E. unfold consume in E. destruct (receive (queue s) (blocked s)) as [[[u q] b]|] eqn:Er; [|discriminate].
    injection E as <-. pose proof (receive_line _ _ _ _ _ Er) as El. destruct (receive_size _ _ _ _ _ Er) as (S1 & S2 & S3).
    split; cbn [lost full ignored called handled queue blocked now].
    - intros Hl. destruct (H1 Hl) as (F & I & ->). split; [exact F|]. split; [exact I|]. rewrite El. by rewrite <-app_assoc.
    - exact H2.
    - lia.
    - by apply S2.
    - intros x t Hi. apply (H4 x t). revert Er. unfold receive. destruct (queue s), (blocked s) as [|[y t'] b0]; intros [= <- <- <-]; cbn in *; tauto.
  Qed.
  Lemma line_set s r : line s -> line (set_req s r).
  Proof. by intros [H1 H2 Hc H3 H4]; split. Qed.
  Lemma line_finish s r w : line s -> line (finish s r w).
  Proof. by intros [H1 H2 Hc H3 H4]; split. Qed.

  Lemma line_step s x s' : line s -> do s x = Some s' -> line s'.
  Proof.
    intros H E. destruct x as [u|i|d| | |initial timeout r| | | |]; cbn [LoopModel.do] in E.
    - destruct H as [H1 H2 Hc H3 H4]. destruct (full s) eqn:F; [|destruct (Nat.ltb_spec (length (queue s)) cap) as [L|L]]; injection E as <-;
        split; cbn [lost full ignored called handled queue blocked now].
      + intros Hl. destruct (H1 Hl) as [? _]. congruence.
      + done.
      + exact Hc.
      + exact H3.
      + exact H4.
      + intros Hl. destruct (H1 Hl) as (_ & I & ->). split; [done|]. split; [exact I|].
        assert (Hb : blocked s = []). { destruct (blocked s) as [|y b] eqn:Eb; [reflexivity|]. specialize (H3 ltac:(done)). lia. }
        rewrite Hb. cbn. by rewrite !app_nil_r, <-app_assoc.
      + intros Hl. specialize (H2 Hl). congruence.
      + rewrite app_length. cbn. lia.
      + intros Hb. specialize (H3 Hb). lia.
      + exact H4.
      + intros Hl. destruct (H1 Hl) as (_ & I & ->). split; [done|]. split; [exact I|]. rewrite map_app. cbn. by rewrite <-!app_assoc.
      + intros Hl. specialize (H2 Hl). congruence.
      + exact Hc.
      + intros _. lia.
      + intros y t [Hi|[[= <- <-]|[]]]%in_app_or; [by apply (H4 y t)|lia].
    - destruct (blocked s !! i) as [[u t]|] eqn:Ei; [|discriminate]. destruct (Z.ltb_spec (now s) (t + wait)); [discriminate|]. injection E as <-.
      destruct H as [H1 H2 Hc H3 H4]. split; cbn [lost full ignored called handled queue blocked now].
      + intros [_ [=]]%app_eq_nil.
      + done.
      + exact Hc.
      + intros _. apply H3. intros Hb. by rewrite Hb in Ei.
      + intros y t' Hi. apply (H4 y t'). rewrite <-(take_drop i (blocked s)). apply in_app_or in Hi as [Hi|Hi]; apply in_or_app; [by left|right].
        rewrite (drop_S _ _ _ Ei). by right.
    - destruct (Z.ltb_spec d 0); [discriminate|]. injection E as <-. destruct H as [H1 H2 Hc H3 H4]. split; try assumption.
      cbn. intros y t Hi. specialize (H4 y t Hi). lia.
    - destruct (req s); [|discriminate]. injection E as <-. destruct H as [H1 H2 Hc H3 H4]. by split.
    - destruct (full s) eqn:F; injection E as <-; destruct H as [H1 H2 Hc H3 H4]; rewrite F in *; by split.
    - destruct (req s); [discriminate|]. destruct (accepted s); [discriminate|]. injection E as <-. destruct H as [H1 H2 Hc H3 H4]. by split.
    - destruct (req s) as [r|]; [|discriminate]. destruct (r_place r) as [| | | |[|k]].
      + destruct (has (r_resp r)); [injection E as <-; by apply line_set|].
        cbv zeta in E. cbn [r_timeout r_start] in E. destruct (_ <? 0); injection E as <-; [by apply line_finish|by apply line_set].
      + discriminate.
      + destruct (_ && _); [by eapply line_consume|]. injection E as <-. by apply line_set.
      + destruct (_ && _); injection E as <-; [by apply line_set|by apply line_finish].
      + injection E as <-. by apply line_finish.
      + by eapply line_consume.
    - destruct (req s) as [r|]; [|discriminate]. destruct (r_place r); try discriminate. by eapply line_consume.
    - destruct (req s) as [r|]; [|discriminate]. destruct (r_place r); try discriminate. destruct (cancelled s); [|discriminate]. injection E as <-. by apply line_finish.
    - destruct (req s) as [r|]; [|discriminate]. destruct (r_place r); try discriminate. destruct (_ <? _); [discriminate|]. injection E as <-. by apply line_finish.
  Qed.
  Lemma line_runs l s : runs l st0 = Some s -> line s.
  Proof. apply runs_ind; [exact line0|]. intros. by eapply line_step. Qed.

  (** ** With one sender *)
  Record single (s : st) : Prop := {
    g_alive : full s = false -> called s = handled s ++ queue s ++ map fst (blocked s);
    g_dead : full s = true -> blocked s = [] /\ exists more, called s = handled s ++ queue s ++ more
  }.
  Lemma single_consume s r p s' : single s -> consume proc s r p = Some s' -> single s'.
  Proof.
    intros [H1 H2] E. unfold consume in E. destruct (receive (queue s) (blocked s)) as [[[u q] b]|] eqn:Er; [|discriminate].
    injection E as <-. pose proof (receive_line _ _ _ _ _ Er) as El. split; cbn [full called handled queue blocked].
    - intros F. rewrite (H1 F), El. by rewrite <-app_assoc.
    - intros F. destruct (H2 F) as [B [more M]]. rewrite B in *. unfold receive in Er. destruct (queue s) as [|x q0]; [discriminate|]. injection Er as <- <- <-.
      split; [reflexivity|]. exists more. rewrite M. by rewrite <-app_assoc.
  Qed.
  Lemma single_step s x s' :
    line s -> single s -> (length (blocked s) <= 1)%nat -> do s x = Some s' -> single s'.
  Proof.
    intros L [H1 H2] Hone E.
    assert (Hsame : forall s', full s' = full s -> called s' = called s -> handled s' = handled s -> queue s' = queue s -> blocked s' = blocked s -> single s').
    { intros s1 E1 E2 E3 E4 E5. split; rewrite E1, E2, E3, E4, E5; assumption. }
    destruct x as [u|i|d| | |initial timeout r| | | |]; cbn [LoopModel.do] in E.
    - destruct (full s) eqn:F; [|destruct (Nat.ltb_spec (length (queue s)) cap) as [Hq|Hq]]; injection E as <-; split; cbn [full called handled queue blocked]; try congruence.
      + intros _. destruct (H2 eq_refl) as [B [more M]]. split; [exact B|]. exists (more ++ [u]). rewrite M. by rewrite <-!app_assoc.
      + intros _. rewrite (H1 eq_refl).
        assert (Hb : blocked s = []). { destruct (blocked s) as [|y b] eqn:Eb; [reflexivity|]. pose proof (l_cap _ L). rewrite Eb in *. specialize (H ltac:(done)). lia. }
        rewrite Hb. cbn. by rewrite !app_nil_r, <-app_assoc.
      + intros _. rewrite (H1 eq_refl), map_app. cbn. by rewrite <-!app_assoc.
    - destruct (blocked s !! i) as [[u t]|] eqn:Ei; [|discriminate]. destruct (Z.ltb_spec (now s) (t + wait)); [discriminate|]. injection E as <-.
      destruct (blocked s) as [|[y t'] [|]] eqn:Eb; [done| |cbn in Hone; lia]. destruct i as [|i]; [|done]. injection Ei as <- <-.
      split; cbn [full called handled queue blocked]; [done|]. intros _. split; [reflexivity|].
      destruct (full s) eqn:F.
      + destruct (H2 eq_refl) as [B _]. discriminate.
      + exists [y]. rewrite (H1 eq_refl). reflexivity.
    - destruct (Z.ltb_spec d 0); [discriminate|]. injection E as <-. by apply Hsame.
    - destruct (req s); [|discriminate]. injection E as <-. by apply Hsame.
    - destruct (full s) eqn:F; injection E as <-; by apply Hsame.
    - destruct (req s); [discriminate|]. destruct (accepted s); [discriminate|]. injection E as <-. by apply Hsame.
    - destruct (req s) as [r|]; [|discriminate]. destruct (r_place r) as [| | | |[|k]].
      + destruct (has (r_resp r)); [injection E as <-; by apply Hsame|].
        cbv zeta in E. cbn [r_timeout r_start] in E. destruct (_ <? 0); injection E as <-; by apply Hsame.
      + discriminate.
      + destruct (_ && _); [eapply single_consume; [|exact E]; by split|]. injection E as <-. by apply Hsame.
      + destruct (_ && _); injection E as <-; by apply Hsame.
      + injection E as <-. by apply Hsame.
      + eapply single_consume; [|exact E]; by split.
    - destruct (req s) as [r|]; [|discriminate]. destruct (r_place r); try discriminate. eapply single_consume; [|exact E]; by split.
    - destruct (req s) as [r|]; [|discriminate]. destruct (r_place r); try discriminate. destruct (cancelled s); [|discriminate]. injection E as <-. by apply Hsame.
    - destruct (req s) as [r|]; [|discriminate]. destruct (r_place r); try discriminate. destruct (_ <? _); [discriminate|]. injection E as <-. by apply Hsame.
  Qed.

  (** ** The request *)
  Definition caught (s : st) (r : request) : Prop := (Nat.min (r_seen r) (r_before r + 100) <= length (handled s))%nat.
  Definition place_ok (s : st) (r : request) : Prop :=
    match r_place r with
    | Loop => (r_streamed r = false /\ r_n r = 0%nat) \/ (r_streamed r = true /\ caught s r)
    | Select t => t = r_start r + r_timeout r /\ has (r_resp r) = false /\ r_streamed r = true
    | Inner => r_streamed r = true
    | After => has (r_resp r) = true /\ ((r_streamed r = false /\ r_n r = 0%nat) \/ (r_streamed r = true /\ caught s r))
    | Catch k => (k <= length (queue s))%nat /\ (r_seen r <= length (handled s) + k)%nat /\ r_streamed r = false
        /\ has (r_first r) = true /\ ((forall u x, has x = true -> has (proc u x) = true) -> has (r_resp r) = true)
    end.
  Record going (s : st) (r : request) : Prop := {
    o_timeout : r_timeout r = Z.max 100 (r_asked r);
    o_resp : r_resp r = fold_left (fun x u => proc u x) (drop (r_before r) (handled s)) (r_first r);
    o_n : length (handled s) = (r_before r + r_n r)%nat;
    o_seen : (r_seen r <= length (handled s) + length (queue s))%nat;
    o_first : r_streamed r = true -> has (r_first r) = false;
    o_place : place_ok s r
  }.
  (** What holds of a request that ended. *)
  Record ended (e : result) : Prop := {
    n_resp : r_resp (e_req e) = fold_left (fun x u => proc u x) (drop (r_before (e_req e)) (e_handled e)) (r_first (e_req e));
    n_time : e_why e = TimedOut -> has (r_resp (e_req e)) = false /\ r_start (e_req e) + Z.max 100 (r_asked (e_req e)) <= e_at e;
    n_gave : e_why e = GaveUp -> e_cancelled e = true;
    n_data : e_why e = Data -> (forall u x, has x = true -> has (proc u x) = true) -> has (r_resp (e_req e)) = true;
    n_caught : e_why e = Data -> r_initial (e_req e) = false \/ has (r_first (e_req e)) = false ->
       (Nat.min (r_seen (e_req e)) (r_before (e_req e) + 100) <= length (e_handled e))%nat;
    n_all : e_why e = Data -> r_initial (e_req e) = false -> has (r_first (e_req e)) = true -> (r_seen (e_req e) <= length (e_handled e))%nat
  }.

  Definition req_ok (s : st) : Prop := (forall r, req s = Some r -> going s r) /\ (forall e, In e (results s) -> ended e).
  Lemma req_ok0 : req_ok st0.
  Proof. split; [discriminate|intros e []]. Qed.

  (** Steps of others: the queue may only grow at its end. *)
  Lemma going_other s s' r :
    handled s' = handled s -> (length (queue s) <= length (queue s'))%nat -> going s r -> going s' r.
  Proof.
    intros E1 E2 [G1 G2 G3 G4 G5 G6]. split; try assumption; rewrite ?E1; try assumption; [lia|].
    unfold place_ok, caught in *. destruct (r_place r); rewrite ?E1; try assumption. destruct G6 as (K1 & K2 & K3). split; [lia|]. by split.
  Qed.
  Lemma receive_len (q : list A) b u q' b' : receive q b = Some (u, q', b') -> (length q <= S (length q'))%nat.
  Proof. unfold receive. destruct q as [|x q], b as [|[y t] b]; intros [= <- <- <-]; cbn; rewrite ?app_length; cbn; lia. Qed.

  Lemma ok_consume s r p s' :
    req_ok s -> req s = Some r -> consume proc s r p = Some s' ->
    (forall r', r' = mk_request (r_initial r) (r_start r) (r_timeout r) (r_streamed r) (S (r_n r)) (r_resp r') p (r_asked r) (r_first r) (r_before r) (r_seen r) ->
       (exists u, r_resp r' = proc u (r_resp r)) -> length (handled s') = S (length (handled s)) -> (length (queue s) <= S (length (queue s')))%nat -> place_ok s' r') ->
    req_ok s'.
  Proof.
    intros [H1 H2] Er E Hp. specialize (H1 r Er) as [G1 G2 G3 G4 G5 G6]. unfold consume in E.
    destruct (receive (queue s) (blocked s)) as [[[u q] b]|] eqn:Ec; [|discriminate]. pose proof (receive_len _ _ _ _ _ Ec) as Hlen. injection E as <-.
    cbn [handled queue] in Hp. split; [|exact H2]. cbn [req]. intros r' [= <-].
    split; cbn [r_timeout r_asked r_resp r_before r_first r_n r_seen r_streamed handled queue].
    - exact G1.
    - rewrite drop_app_le by lia. rewrite fold_left_app. cbn. by rewrite G2.
    - rewrite app_length. cbn. lia.
    - rewrite app_length. cbn. lia.
    - exact G5.
    - apply Hp; [reflexivity|by eexists|rewrite app_length; cbn; lia|lia].
  Qed.
  Lemma ok_set s r r' :
    req_ok s -> req s = Some r -> r_timeout r' = r_timeout r -> r_asked r' = r_asked r -> r_resp r' = r_resp r -> r_before r' = r_before r ->
    r_first r' = r_first r -> r_n r' = r_n r -> r_seen r' = r_seen r -> (r_streamed r' = true -> has (r_first r) = false) -> place_ok s r' ->
    req_ok (set_req s r').
  Proof.
    intros [H1 H2] Er E1 E2 E3 E4 E5 E6 E7 E8 Hp. specialize (H1 r Er) as [G1 G2 G3 G4 G5 G6]. split; [|exact H2]. cbn [req set_req].
    intros r1 [= <-]. split; cbn [handled queue set_req]; rewrite ?E1, ?E2, ?E3, ?E4, ?E5, ?E6, ?E7; try assumption.
  Qed.
  Lemma ok_finish s r w :
    req_ok s -> ended (mk_result r w (now s) (handled s) (cancelled s)) -> req_ok (finish s r w).
  Proof.
    intros [H1 H2] He. split; [discriminate|]. cbn [results finish]. intros e [Hi|[<-|[]]]%in_app_or; [by apply H2|exact He].
  Qed.

  Lemma req_step s x s' : line s -> req_ok s -> do s x = Some s' -> req_ok s'.
  Proof.
    intros L H E.
    assert (Hsame : forall s', req s' = req s -> results s' = results s -> handled s' = handled s -> (length (queue s) <= length (queue s'))%nat -> req_ok s').
    { intros s1 E1 E2 E3 E4. destruct H as [H1 H2]. split; rewrite ?E1, ?E2; [|exact H2]. intros r Hr. eapply going_other; [exact E3|exact E4|]. by apply H1. }
    destruct x as [u|i|d| | |initial timeout r| | | |]; cbn [LoopModel.do] in E.
    - destruct (full s); [|destruct (_ <? _)%nat]; injection E as <-; apply Hsame; try reflexivity; cbn; rewrite ?app_length; lia.
    - destruct (blocked s !! i) as [[u t]|]; [|discriminate]. destruct (_ <? _); [discriminate|]. injection E as <-. by apply Hsame.
    - destruct (_ <? 0); [discriminate|]. injection E as <-. by apply Hsame.
    - destruct (req s) eqn:Er; [|discriminate]. injection E as <-. apply Hsame; try reflexivity; cbn; congruence.
    - destruct (full s); injection E as <-; by apply Hsame.
    - destruct (req s); [discriminate|]. destruct (accepted s); [discriminate|]. injection E as <-. destruct H as [_ H2]. split; [|exact H2].
      cbn [req]. intros r0 [= <-]. split; cbn [r_timeout r_asked r_resp r_before r_first r_n r_seen r_streamed handled queue].
      + destruct (Z.ltb_spec timeout 100); lia.
      + by rewrite drop_ge by lia.
      + lia.
      + lia.
      + discriminate.
      + unfold place_ok. cbn. by left.
    - destruct (req s) as [r|] eqn:Er; [|discriminate]. pose proof (proj1 H r Er) as G. destruct G as [G1 G2 G3 G4 G5 G6].
      unfold place_ok in G6. destruct (r_place r) as [| | | |[|k]] eqn:Ep.
      + destruct (has (r_resp r)) eqn:Eh.
        * injection E as <-. eapply ok_set; [exact H|exact Er|try reflexivity..|]; [exact G5|].
          unfold place_ok, caught, at_place. cbn. rewrite Eh. split; [reflexivity|]. exact G6.
        * assert (Hf : has (r_first r) = false).
          { destruct G6 as [[_ N]|[S _]]; [|by apply G5]. rewrite N in G3. rewrite drop_ge in G2 by lia. cbn in G2. by rewrite <-G2. }
          cbv zeta in E. cbn [r_timeout r_start] in E.
          destruct (Z.ltb_spec (r_timeout r - (now s - r_start r)) 0) as [Hlt|Hge]; injection E as <-.
          -- apply ok_finish; [exact H|]. split; cbn [e_req e_why e_at e_handled e_cancelled r_resp r_before r_first r_start r_asked]; try discriminate; [exact G2|].
             intros _. split; [exact Eh|]. lia.
          -- eapply ok_set; [exact H|exact Er|reflexivity..|by intros _|].
             unfold place_ok. cbn. split; [lia|]. by split.
      + discriminate.
      + destruct ((0 <? length (queue s)) && (r_n r <? 100))%nat eqn:Eb.
        * eapply ok_consume; [exact H|exact Er|exact E|]. intros r' -> _ _ _. exact G6.
        * injection E as <-. eapply ok_set; [exact H|exact Er|reflexivity..|exact G5|].
          unfold place_ok, caught. cbn. right. split; [exact G6|].
          apply andb_false_iff in Eb as [Eb|Eb]; apply Nat.ltb_ge in Eb; lia.
      + destruct (negb (r_streamed r) && negb (r_initial r) && (0 <? length (queue s))%nat) eqn:Eb; injection E as <-.
        * apply andb_prop in Eb as [[Es Ei]%andb_prop Eq]. apply negb_true_iff in Es, Ei. destruct G6 as [Eh [[_ N]|[S _]]]; [|congruence].
          eapply ok_set; [exact H|exact Er|reflexivity..|exact G5|]. unfold place_ok. cbn. split; [lia|]. split; [lia|]. split; [exact Es|].
          split; [|by intros _]. rewrite N in G3. rewrite drop_ge in G2 by lia. cbn in G2. by rewrite <-G2.
        * apply ok_finish; [exact H|]. destruct G6 as [Eh G6].
          split; cbn [e_req e_why e_at e_handled e_cancelled]; try discriminate; [exact G2|by intros _ _| |].
          -- intros _ Hor. destruct G6 as [[S N]|[S C]]; [|exact C]. rewrite S in Eb. destruct Hor as [Ei|Ef].
             ++ rewrite Ei in Eb. cbn [negb andb] in Eb. apply Nat.ltb_ge in Eb. lia.
             ++ rewrite N in G3. rewrite drop_ge in G2 by lia. cbn in G2. rewrite <-G2, Eh in Ef. discriminate.
          -- intros _ Ei Ef. destruct G6 as [[S N]|[S C]]; [|rewrite (G5 S) in Ef; discriminate]. rewrite S, Ei in Eb. cbn [negb andb] in Eb. apply Nat.ltb_ge in Eb. lia.
      + injection E as <-. destruct G6 as (K1 & K2 & K3 & K4 & K5). apply ok_finish; [exact H|].
        split; cbn [e_req e_why e_at e_handled e_cancelled]; try discriminate; [exact G2|by intros _| |]; intros; lia.
      + destruct G6 as (K1 & K2 & K3 & K4 & K5). eapply ok_consume; [exact H|exact Er|exact E|].
        intros r' Er' [u Hu] Hh Hq. rewrite Er'. unfold place_ok. cbn. split; [lia|]. split; [lia|]. split; [exact K3|]. split; [exact K4|].
        intros Hm. rewrite Hu. apply Hm, K5, Hm.
    - destruct (req s) as [r|] eqn:Er; [|discriminate]. pose proof (proj1 H r Er) as G. destruct G as [G1 G2 G3 G4 G5 G6].
      unfold place_ok in G6. destruct (r_place r) eqn:Ep; try discriminate.
      eapply ok_consume; [exact H|exact Er|exact E|]. intros r' -> _ _ _. apply G6.
    - destruct (req s) as [r|] eqn:Er; [|discriminate]. pose proof (proj1 H r Er) as G. destruct G as [G1 G2 G3 G4 G5 G6].
      destruct (r_place r) eqn:Ep; try discriminate. destruct (cancelled s) eqn:Ec; [|discriminate]. injection E as <-.
      apply ok_finish; [exact H|]. split; cbn [e_req e_why e_at e_handled e_cancelled]; try discriminate; [exact G2|by intros _].
    - destruct (req s) as [r|] eqn:Er; [|discriminate]. pose proof (proj1 H r Er) as G. destruct G as [G1 G2 G3 G4 G5 G6].
      unfold place_ok in G6. destruct (r_place r) as [|t| | |] eqn:Ep; try discriminate. destruct (Z.ltb_spec (now s) t); [discriminate|]. injection E as <-.
      apply ok_finish; [exact H|]. split; cbn [e_req e_why e_at e_handled e_cancelled]; try discriminate; [exact G2|]. intros _. destruct G6 as (-> & Eh & _). split; [exact Eh|]. lia.
  Qed.
  Lemma req_runs l s : runs l st0 = Some s -> req_ok s.
  Proof.
    intros Hr. refine (proj2 (runs_ind (fun s => line s /\ req_ok s) l st0 s _ _ Hr)).
    - split; [exact line0|exact req_ok0].
    - intros s1 x s2 [H1 H2] E. split; [by eapply line_step|by eapply req_step].
  Qed.
End loop.
