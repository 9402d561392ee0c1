(** Properties of waiting for updates on a connection. *)
From Verif Require Import Prelude LoopModel LoopProofs.
Open Scope string_scope. Open Scope list_scope. Open Scope Z_scope.

Section loop.
  Context {A R : Type}.
  Variable proc : A -> R -> R.
  Variable has : R -> bool.
  Variable cap : nat.
  Variable wait : Z.
  Notation do := (do proc has cap wait).
  Notation runs := (runs proc has cap wait).
  Notation st := (@st A R).

  (** As long as no update is lost, every update is handled once, in order, or is still in
      line to be. *)
  Theorem C72_every_update_once l (s : st) :
    runs l st0 = Some s -> lost s = [] -> called s = handled s ++ queue s ++ map fst (blocked s).
  Proof. intros H Hl. destruct (line_runs _ _ _ _ _ _ H) as [H1 _ _ _ _]. by apply H1. Qed.

  (** After an update was lost or ignored the connection is never found again; before, it
      always is. *)
  Theorem C72_refused_after_loss l (s : st) :
    runs l st0 = Some s ->
    exists s', do s LookUp = Some s' /\
      if bool_decide (lost s ++ ignored s = []) then accepted s' = S (accepted s) /\ refused s' = refused s
      else accepted s' = accepted s /\ refused s' = S (refused s).
  Proof.
    intros H. destruct (line_runs _ _ _ _ _ _ H) as [H1 H2 _ _ _]. cbn [LoopModel.do].
    destruct (lost s) as [|u m] eqn:El.
    - destruct (H1 eq_refl) as (F & I & _). rewrite F, I. eexists. split; [reflexivity|]. by rewrite bool_decide_eq_true_2.
    - rewrite (H2 ltac:(done)). eexists. split; [reflexivity|]. rewrite bool_decide_eq_false_2 by done. by split.
  Qed.

  (** An update is only lost if the channel is full and its sender waited all the time; the
      connection is then of no more use, and the request that is served is told to end. *)
  Theorem C72_lost_only_when_full l (s : st) i s' :
    runs l st0 = Some s -> do s (Expire i) = Some s' ->
    exists u t, In (u, t) (blocked s) /\ t + wait <= now s /\ length (queue s) = cap /\ lost s' = lost s ++ [u] /\
      full s' = true /\ (is_Some (req s) -> cancelled s' = true).
  Proof.
    intros H E. destruct (line_runs _ _ _ _ _ _ H) as [_ _ _ H3 _]. cbn [LoopModel.do] in E.
    destruct (blocked s !! i) as [[u t]|] eqn:Ei; [|discriminate]. destruct (Z.ltb_spec (now s) (t + wait)); [discriminate|]. injection E as <-.
    exists u, t. split; [by apply elem_of_list_In, (elem_of_list_lookup_2 _ i)|]. split; [lia|]. split; [|split; [reflexivity|]].
    - apply H3. intros Hb. by rewrite Hb in Ei.
    - split; [reflexivity|]. cbn. intros [r ->]. reflexivity.
  Qed.

  (** If never two senders are blocked at once, even a request that goes on after a loss
      handles no update without all those before it. *)
  Theorem C72_no_gap_partial l (s : st) :
    runs l st0 = Some s ->
    (forall l1 l2 s1, l = l1 ++ l2 -> runs l1 st0 = Some s1 -> (length (blocked s1) <= 1)%nat) ->
    exists more, called s = handled s ++ queue s ++ more.
  Proof.
    intros H Hone. assert (single s) as [G1 G2].
    { revert s H. induction l as [|x l IH] using rev_ind; intros s H.
      { injection H as <-. split; [by intros _|done]. }
      rewrite runs_app in H. destruct (runs l st0) as [s1|] eqn:E1; [|discriminate]. cbn in H. destruct (do s1 x) as [s2|] eqn:E2; [|discriminate]. injection H as <-.
      eapply single_step; [by eapply line_runs| | |exact E2].
      - apply IH; [|reflexivity]. intros l1 l2 s3 -> E3. eapply (Hone l1 (l2 ++ [x])); [by rewrite <-app_assoc|exact E3].
      - by eapply (Hone l [x]). }
    destruct (full s) eqn:F; [by apply G2|]. rewrite (G1 eq_refl). by eexists.
  Qed.

  (** A request ends without data only when its timeout, or 100 ms if it is less, is over, or
      when it is cancelled. *)
  Theorem C72_ends l (s : st) e :
    runs l st0 = Some s -> In e (results s) ->
    match e_why e with
    | TimedOut => has (r_resp (e_req e)) = false /\ r_start (e_req e) + Z.max 100 (r_asked (e_req e)) <= e_at e
    | GaveUp => e_cancelled e = true
    | Data => (forall u x, has x = true -> has (proc u x) = true) -> has (r_resp (e_req e)) = true
    end.
  Proof.
    intros H Hi. destruct (proj2 (req_runs _ _ _ _ _ _ H) e Hi) as [_ N1 N2 N3 _ _].
    destruct (e_why e); auto.
  Qed.

  (** Its response is what it had at first, changed by all updates handled since, in order. *)
  Theorem C72_response l (s : st) e :
    runs l st0 = Some s -> In e (results s) ->
    r_resp (e_req e) = fold_left (fun x u => proc u x) (drop (r_before (e_req e)) (e_handled e)) (r_first (e_req e)).
  Proof. intros H Hi. apply (proj2 (req_runs _ _ _ _ _ _ H) e Hi). Qed.

  (** A request waits only while it has no data, and then an update, a cancellation or the
      end of its timeout lets it go on. *)
  Theorem C72_waits l (s : st) r t :
    runs l st0 = Some s -> req s = Some r -> r_place r = Select t ->
    has (r_resp r) = false
    /\ (queue s <> [] -> is_Some (do s Take))
    /\ (cancelled s = true -> is_Some (do s Give))
    /\ (r_start r + Z.max 100 (r_asked r) <= now s -> is_Some (do s Time)).
  Proof.
    intros H Hr Hp. destruct (proj1 (req_runs _ _ _ _ _ _ H) r Hr) as [G1 _ _ _ _ G6]. unfold place_ok in G6. rewrite Hp in G6.
    destruct G6 as (-> & Eh & _). split; [exact Eh|]. cbn [LoopModel.do]. rewrite Hr, Hp. split; [|split].
    - intros Hq. unfold consume, receive. destruct (queue s); [done|]. destruct (blocked s) as [|[]]; by eexists.
    - intros ->. by eexists.
    - intros Ht. rewrite G1. destruct (Z.ltb_spec (now s) (r_start r + Z.max 100 (r_asked r))); [lia|]. by eexists.
  Qed.
  (** Otherwise nothing stops it: in particular it never blocks on the channel. *)
  Theorem C72_never_stuck l (s : st) r :
    runs l st0 = Some s -> req s = Some r -> (forall t, r_place r <> Select t) -> is_Some (do s Go).
  Proof.
    intros H Hr Hp. destruct (proj1 (req_runs _ _ _ _ _ _ H) r Hr) as [_ _ _ _ _ G6]. unfold place_ok in G6.
    assert (Hc : forall p, (0 < length (queue s))%nat -> is_Some (consume proc s r p)).
    { intros p Hq. unfold consume, receive. destruct (queue s); [cbn in Hq; lia|]. destruct (blocked s) as [|[]]; by eexists. }
    cbn [LoopModel.do]. rewrite Hr. destruct (r_place r) as [|t| | |[|k]] eqn:Ep.
    - destruct (has _); [by eexists|]. cbv zeta. destruct (_ <? 0); by eexists.
    - by destruct (Hp t).
    - destruct ((0 <? length (queue s)) && (r_n r <? 100))%nat eqn:Eb; [|by eexists]. apply Hc. apply andb_prop in Eb as [Eb _]. by apply Nat.ltb_lt.
    - destruct (_ && _); by eexists.
    - by eexists.
    - apply Hc. lia.
  Qed.

  (** No starvation: a request that ends with data, other than a first one which has data at
      once, has handled all updates that were queued when it began or at least a hundred,
      and all of them if it had data at once. *)
  Theorem C72_caught_up l (s : st) e :
    runs l st0 = Some s -> In e (results s) -> e_why e = Data ->
    r_initial (e_req e) = false \/ has (r_first (e_req e)) = false ->
    (Nat.min (r_seen (e_req e)) (r_before (e_req e) + 100) <= length (e_handled e))%nat
    /\ (has (r_first (e_req e)) = true -> (r_seen (e_req e) <= length (e_handled e))%nat).
  Proof.
    intros H Hi Hw Ho. destruct (proj2 (req_runs _ _ _ _ _ _ H) e Hi) as [_ _ _ _ N4 N5].
    split; [by apply N4|]. intros Hf. destruct Ho as [Ho|Ho]; [by apply N5|congruence].
  Qed.
End loop.
Print Assumptions C72_every_update_once.
Print Assumptions C72_refused_after_loss.
Print Assumptions C72_lost_only_when_full.
Print Assumptions C72_no_gap_partial.
Print Assumptions C72_ends.
Print Assumptions C72_response.
Print Assumptions C72_waits.
Print Assumptions C72_never_stuck.
Print Assumptions C72_caught_up.

(** With two senders, one for delayed events (txn_id_waiter.go:56) and one for all else, a
    request in flight can handle an update although one before it was lost. *)
Definition add (u : nat) (r : list nat) : list nat := r ++ [u].
Definition some_data (r : list nat) : bool := negb (length r =? 0)%nat.
Notation go := (runs add some_data 1 5000).
Definition gap : list (@step nat (list nat)) :=
  [LookUp; Begin false 30000 []; Call 1%nat; Call 2%nat; Tick 1; Call 3%nat; Go; Tick 4999; Expire 0%nat; Take; Go; Go; Go; Go].
Theorem C72_gap_refuted :
  option_map (fun s => (called s, handled s, lost s, map (fun e => r_resp (e_req e)) (results s))) (go gap st0)
  = Some ([1; 2; 3]%nat, [1; 3]%nat, [2]%nat, [[1; 3]%nat]).
Proof. vm_compute. reflexivity. Qed.
Print Assumptions C72_gap_refuted.

(** Cases of the theorems: a first request with data, a second one that catches up, a third
    that waits for an update and a fourth that times out. *)
Definition busy : list (@step nat (list nat)) :=
  [LookUp; Begin true 0 [0%nat]; Call 1%nat; Go; Go;
   LookUp; Begin false 0 [0%nat]; Go; Go; Go; Go;
   LookUp; Begin false 30000 []; Go; Tick 20; Call 2%nat; Take; Go; Go; Go;
   LookUp; Begin false 50 []; Go; Tick 100; Time].
Example C72_example :
  option_map (fun s => (map (fun e => (e_why e, r_resp (e_req e), e_at e)) (results s), called s, lost s)) (go busy st0)
  = Some ([(Data, [0%nat], 0); (Data, [0; 1]%nat, 0); (Data, [2]%nat, 20); (TimedOut, [], 120)], [1; 2]%nat, []).
Proof. vm_compute. reflexivity. Qed.
Fixpoint one_sender (l : list (@step nat (list nat))) (s : st) : bool :=
  (length (blocked s) <=? 1)%nat && match l with [] => true | x :: l => match do add some_data 1 5000 s x with Some s => one_sender l s | None => true end end.
Lemma one_sender_spec l s : one_sender l s = true ->
  forall l1 l2 s1, l = l1 ++ l2 -> go l1 s = Some s1 -> (length (blocked s1) <= 1)%nat.
Proof.
  revert s. induction l as [|x l IH]; intros s H l1 l2 s1 E Hr; cbn [one_sender] in H; apply andb_prop in H as [H1 H2].
  - symmetry in E. apply app_eq_nil in E as [-> _]. injection Hr as <-. by apply Nat.leb_le.
  - destruct l1 as [|y l1]. { injection Hr as <-. by apply Nat.leb_le. }
    injection E as <- E. cbn [LoopModel.runs] in Hr. destruct (do add some_data 1 5000 s x) as [s2|]; [|discriminate]. by eapply IH.
Qed.
Example C72_one_sender_example l1 l2 s : busy = l1 ++ l2 -> go l1 st0 = Some s -> (length (blocked s) <= 1)%nat.
Proof. apply one_sender_spec. vm_compute. reflexivity. Qed.
