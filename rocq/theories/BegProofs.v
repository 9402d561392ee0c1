(** Proofs about [BegModel]. *)
From Verif Require Import Prelude PmapModel PmapSpec PmapProps EnsModel EnsSpec EnsProps BegModel BegSpec.
Open Scope string_scope. Open Scope list_scope. Open Scope nat_scope.

Ltac bcbn := cbn [b_rows b_checked b_gate b_asks b_map b_who b_msgs b_boot b_stopping b_refused with_map with_gate].
Ltac bcbn_in H := cbn [b_rows b_checked b_gate b_asks b_map b_who b_msgs b_boot b_stopping b_refused with_map with_gate] in H.

(** ** Sums *)
Definition sumf {A} (f : A -> nat) (l : list A) : nat := foldr (fun x n => f x + n) 0 l.
Lemma sumf_app {A} (f : A -> nat) l l' : sumf f (l ++ l') = sumf f l + sumf f l'.
Proof. induction l as [|x l IH]; [done|]. change (f x + sumf f (l ++ l') = f x + sumf f l + sumf f l'). lia. Qed.
Lemma sumf_insert {A} (f : A -> nat) l : forall n x y, l !! n = Some y -> sumf f (<[n := x]> l) + f y = sumf f l + f x.
Proof.
  induction l as [|z l IH]; intros n x y H; [done|]. destruct n as [|n].
  - injection H as ->. change (f x + sumf f l + f y = f y + sumf f l + f x). lia.
  - specialize (IH n x y H). change (f z + sumf f (<[n := x]> l) + f y = f z + sumf f l + f x). lia.
Qed.
Lemma sumf_alter {A} (f : A -> nat) (g : A -> A) l n y : l !! n = Some y -> sumf f (alter g n l) + f y = sumf f l + f (g y).
Proof.
  revert n. induction l as [|z l IH]; intros n H; [done|]. destruct n as [|n].
  - injection H as ->. change (f (g y) + sumf f l + f y = f y + sumf f l + f (g y)). lia.
  - specialize (IH n H). change (f z + sumf f (alter g n l) + f y = f z + sumf f l + f (g y)). lia.
Qed.

(** ** The poller map *)
Definition waiting_on (m : pmap) (n i : nat) : Prop :=
  pm_calls m !! n = Some (WaitOld i) \/ exists w, pm_calls m !! n = Some (WaitNew i w).
Lemma ensure_cases m p token since startup : inv m ->
  (exists i, active m p i /\ ensure m p token since startup = mk_pmap (pm_all m) (pm_cur m) (pm_calls m ++ [WaitOld i]))
  \/ (exists td w, ensure m p token since startup =
        mk_pmap (pm_all m ++ [newPoller p token since td]) (<[p := length (pm_all m)]> (pm_cur m)) (pm_calls m ++ [WaitNew (length (pm_all m)) w])).
Proof.
  intros (H1 & _). unfold ensure. cbv zeta. destruct (pm_cur m !! p) as [i|] eqn:E; [|right; eauto].
  destruct (terminated m i) eqn:Et; [right; eauto|]. left. exists i. split; [|done].
  destruct (H1 p i E) as (q & Hq & Hp). exists q. unfold terminated in Et. rewrite Hq in Et. done.
Qed.
Lemma returns_cases m n : returns m n = m \/
  exists i created ok, waiting_on m n i /\ returns m n = mk_pmap (pm_all m) (pm_cur m) (<[n := Returned i created ok]> (pm_calls m))
    /\ (ok = true -> terminated m i = false \/ pm_calls m !! n = Some (WaitOld i)).
Proof.
  unfold returns. cbv zeta. destruct (pm_calls m !! n) as [[i|i w|i c o]|] eqn:E; [| |by left..].
  - destruct (match pm_all m !! i with Some q => q_wg q | None => false end); [|by left]. right. exists i, false, true.
    split; [by left|]. split; [done|]. by right.
  - destruct (negb w || _); [|by left]. right. destruct (terminated m i) eqn:Et.
    + exists i, false, false. split; [right; by exists w|]. split; done.
    + exists i, true, true. split; [right; by exists w|]. split; [done|]. by left.
Qed.
Lemma waiting_lt m n i : waiting_on m n i -> n < length (pm_calls m).
Proof. intros [H|[w H]]; by apply lookup_lt_Some in H. Qed.
Lemma waiting_snoc_wait m all cur x n i : waiting_on (mk_pmap all cur (pm_calls m ++ [x])) n i ->
  waiting_on m n i \/ (n = length (pm_calls m) /\ (x = WaitOld i \/ exists w, x = WaitNew i w)).
Proof.
  unfold waiting_on. cbn [pm_calls]. intros [H|[w H]]; apply app_one_lookup in H as [H|[-> H]].
  - left. by left.
  - right. split; [done|]. by left.
  - left. right. by exists w.
  - right. split; [done|]. right. by exists w.
Qed.
Lemma waiting_snoc_keep m all cur x n i : waiting_on m n i -> waiting_on (mk_pmap all cur (pm_calls m ++ [x])) n i.
Proof. intros [H|[w H]]; [left|right; exists w]; cbn; by apply lookup_app_l_Some. Qed.

(** ** Invariant *)
Definition for_dev (s : beg) (p : pid) : Prop :=
  (exists t, (p, t) ∈ b_asks s) \/ (exists n i b, waiting_on (b_map s) n i /\ b_who s !! n = Some (p, b)) \/ (exists ok, Completed p ok ∈ b_msgs s).
Record binv (s : beg) : Prop := mk_binv {
  v_gate : ginv (b_gate s);
  v_map : inv (b_map s);
  v_len : length (b_who s) = length (pm_calls (b_map s));
  v_pid : forall n i, waiting_on (b_map s) n i -> exists q b, pm_all (b_map s) !! i = Some q /\ b_who s !! n = Some (q_pid q, b);
  v_run : forall i q, pm_all (b_map s) !! i = Some q -> q_wg q = false \/ q_term q = false -> q_run q = true;
  v_dev : forall i q, pm_all (b_map s) !! i = Some q -> q_synced q = true -> q_todevonly q = false;
  v_sync : forall i q, pm_all (b_map s) !! i = Some q -> q_run q = true -> q_wg q = true -> q_synced q = true
}.
Definition flies (s : beg) : Prop := forall p i c, g_pending (b_gate s) !! p = Some i -> i_ch i = Some c -> for_dev s p.

Lemma binv_start rows boot : binv (start rows boot).
Proof.
  split; cbn; try done.
  - apply ginv_init.
  - apply inv_init.
  - intros n i [H|[w H]]; by destruct n.
Qed.

(** Changing one poller. *)
Lemma binv_poller s i f :
  (forall q, q_pid (f q) = q_pid q) ->
  (forall q, (q_wg q = false \/ q_term q = false -> q_run q = true) -> q_wg (f q) = false \/ q_term (f q) = false -> q_run (f q) = true) ->
  (forall q, (q_synced q = true -> q_todevonly q = false) -> q_synced (f q) = true -> q_todevonly (f q) = false) ->
  (forall q, (q_run q = true -> q_wg q = true -> q_synced q = true) -> q_run (f q) = true -> q_wg (f q) = true -> q_synced (f q) = true) ->
  inv (on_poller (b_map s) i f) -> binv s -> binv (with_map (on_poller (b_map s) i f) s).
Proof.
  intros H1 H2 H3 H4 Hm [V1 V2 V3 V4 V5 V6 V7]. split; bcbn; try done.
  - intros n j Hw. destruct (V4 n j Hw) as (q & b & Hq & Hb). cbn [on_poller pm_all]. destruct (decide (i = j)) as [<-|Hn].
    + exists (f q), b. rewrite list_lookup_alter, Hq. by rewrite H1.
    + exists q, b. by rewrite list_lookup_alter_ne.
  - intros j q Hq. cbn [on_poller pm_all] in Hq. destruct (decide (i = j)) as [<-|Hn].
    + rewrite list_lookup_alter in Hq. destruct (pm_all (b_map s) !! i) as [q0|] eqn:E; [|done]. injection Hq as <-. apply H2. by apply (V5 i).
    + rewrite list_lookup_alter_ne in Hq by done. by apply (V5 j).
  - intros j q Hq. cbn [on_poller pm_all] in Hq. destruct (decide (i = j)) as [<-|Hn].
    + rewrite list_lookup_alter in Hq. destruct (pm_all (b_map s) !! i) as [q0|] eqn:E; [|done]. injection Hq as <-. apply H3. by apply (V6 i).
    + rewrite list_lookup_alter_ne in Hq by done. by apply (V6 j).
  - intros j q Hq. cbn [on_poller pm_all] in Hq. destruct (decide (i = j)) as [<-|Hn].
    + rewrite list_lookup_alter in Hq. destruct (pm_all (b_map s) !! i) as [q0|] eqn:E; [|done]. injection Hq as <-. apply H4. by apply (V7 i).
    + rewrite list_lookup_alter_ne in Hq by done. by apply (V7 j).
Qed.
Lemma binv_halt s i : binv s -> binv (halt s i).
Proof.
  intros H. apply binv_poller; [done| |done|done|apply (inv_step _ (Terminate i)), H|done].
  intros q Hq [Hw|Hw]; [apply Hq; by left|done].
Qed.
(** Nothing of this depends on the rest. *)
Lemma binv_rest s s' : b_gate s' = b_gate s -> b_map s' = b_map s -> b_who s' = b_who s -> binv s -> binv s'.
Proof. intros E1 E2 E3 [V1 V2 V3 V4 V5 V6 V7]. split; rewrite ?E1, ?E2, ?E3; done. Qed.
Lemma announce_rest s i : b_gate (announce s i) = b_gate s /\ b_map (announce s i) = b_map s /\ b_who (announce s i) = b_who s
  /\ b_asks (announce s i) = b_asks s /\ b_boot (announce s i) = b_boot s /\ b_stopping (announce s i) = b_stopping s /\ b_refused (announce s i) = b_refused s.
Proof. unfold announce. by destruct (pm_all (b_map s) !! i). Qed.
Lemma announce_msgs s i : b_msgs (announce s i) = b_msgs s \/ exists q, pm_all (b_map s) !! i = Some q /\ b_msgs (announce s i) = b_msgs s ++ [Expired (q_pid q)].
Proof. unfold announce. destruct (pm_all (b_map s) !! i) as [q|] eqn:E; [right; by exists q|by left]. Qed.

Lemma binv_ensure s p token since startup rows checked asks boot :
  binv s -> binv (mk_beg rows checked (b_gate s) asks (step (b_map s) (Ensure p token since startup)) (b_who s ++ [(p, startup)]) (b_msgs s) boot (b_stopping s) (b_refused s)).
Proof.
  intros [V1 V2 V3 V4 V5 V6 V7]. pose proof (inv_step (b_map s) (Ensure p token since startup) V2) as Hi. cbn [step] in *.
  destruct (ensure_cases (b_map s) p token since startup V2) as [(i & Ha & E)|(td & w & E)]; rewrite E in *; split; bcbn; cbn [pm_all pm_calls] in *; try done.
  - rewrite !app_length. cbn. lia.
  - intros n j Hw. apply waiting_snoc_wait in Hw as [Hw|[-> [Hx|[w Hx]]]].
    + destruct (V4 n j Hw) as (q & b & Hq & Hb). exists q, b. split; [done|]. by apply lookup_app_l_Some.
    + injection Hx as ->. destruct Ha as (q & Hq & Hp & _). exists q, startup. split; [done|]. rewrite <- V3, lookup_app_r, Nat.sub_diag by lia. by rewrite Hp.
    + done.
  - rewrite !app_length. cbn. lia.
  - intros n j Hw. apply waiting_snoc_wait in Hw as [Hw|[-> [Hx|[w' Hx]]]].
    + destruct (V4 n j Hw) as (q & b & Hq & Hb). exists q, b. split; by apply lookup_app_l_Some.
    + done.
    + injection Hx as <- _. exists (newPoller p token since td), startup. split.
      * rewrite lookup_app_r, Nat.sub_diag by lia. done.
      * rewrite <- V3, lookup_app_r, Nat.sub_diag by lia. done.
  - intros j q Hq. apply app_one_lookup in Hq as [Hq|[_ ->]]; [by apply (V5 j)|done].
  - intros j q Hq. apply app_one_lookup in Hq as [Hq|[_ ->]]; [by apply (V6 j)|done].
  - intros j q Hq. apply app_one_lookup in Hq as [Hq|[_ ->]]; [by apply (V7 j)|done].
Qed.

Lemma binv_step s a : unpanicked s a -> binv s -> exists s', bstep s a = Some s' /\ binv s'.
Proof.
  intros Hn Hv. pose proof Hv as [V1 V2 V3 V4 V5 V6 V7]. destruct a as [token p since|token|i|n|ok|i|n report|i|i|i|i|i|i|i|i|]; cbn [bstep].
  - destruct (b_rows s !! token); eexists; (split; [done|]); [done|by apply (binv_rest s)].
  - destruct (b_rows s !! token) as [[p ?]|]; eexists; (split; [done|]); [by apply (binv_rest s)|done].
  - destruct (b_checked s !! i) as [[p token]|]; [|eexists; split; done]. destruct (ginv_call _ p V1) as (g' & -> & Hg). cbn [mbind option_bind].
    eexists; split; [done|]. by split.
  - destruct (ginv_step _ (Wake n) V1) as (g' & E & Hg). injection E as <-. eexists; split; [done|]. by split.
  - destruct (b_asks s) as [|[p token] rest]; [eexists; split; done|].
    destruct (if ok then b_rows s !! token else None) as [[p' since]|]; [|eexists; split; [done|by apply (binv_rest s)]].
    destruct (decide (p' = p)) as [->|]; [|eexists; split; [done|by apply (binv_rest s)]]. eexists; split; [done|]. by apply binv_ensure.
  - destruct (b_boot s !! i) as [[[p token] since]|]; [|eexists; split; done]. eexists; split; [done|]. by apply binv_ensure.
  - destruct (returns_cases (b_map s) n) as [E|(i & cr & ok & Hw & E & _)].
    + rewrite E. destruct (pm_calls (b_map s) !! n) as [[?|??|???]|]; eexists; (split; [done|done]).
    + rewrite E. destruct (V4 n i Hw) as (q & b & Hq & Hb). cbn [pm_calls]. rewrite list_lookup_insert by (by eapply waiting_lt). rewrite Hb.
      assert (Hs : binv (mk_beg (b_rows s) (b_checked s) (b_gate s) (b_asks s) (returns (b_map s) n) (b_who s)
                  (b_msgs s ++ [Completed (q_pid q) (if b then report else ok)]) (b_boot s) (b_stopping s) (b_refused s))).
      { split; bcbn; try done.
        - apply (inv_step _ (Return n)), V2.
        - rewrite E. cbn [pm_calls]. by rewrite insert_length.
        - rewrite E. cbn [pm_all]. intros n' j Hj. apply V4. destruct (decide (n = n')) as [<-|Hne].
          + destruct Hj as [Hj|[w Hj]]; cbn in Hj; rewrite list_lookup_insert in Hj by (by eapply waiting_lt); done.
          + destruct Hj as [Hj|[w Hj]]; cbn in Hj; rewrite list_lookup_insert_ne in Hj by done; [by left|right; by exists w].
        - rewrite E. done.
        - rewrite E. done.
        - rewrite E. done. }
      rewrite E in Hs. destruct Hw as [Hw|[w Hw]]; rewrite Hw; eexists; (split; [done|done]).
  - eexists; split; [done|]. apply binv_poller; [| | | |apply (inv_step _ (Sync i)), V2|done]; intros q; unfold sync; destruct (q_run q) eqn:Er; cbn; rewrite ?Er; auto; try done.
  - eexists; split; [done|]. apply binv_poller; [| | | |apply (inv_step _ (LoopEnd i)), V2|done]; intros q; unfold loop_end; destruct (q_run q && q_term q) eqn:Er; cbn; auto; try done.
    intros _ [?|?]; done.
  - done.
  - destruct (live s i); [|eexists; split; done]. eexists; split; [done|]. apply binv_halt. destruct (announce_rest s i) as (E1 & E2 & E3 & _). by apply (binv_rest s).
  - destruct (live s i); [|eexists; split; done]. eexists; split; [done|]. destruct (announce_rest s i) as (E1 & E2 & E3 & _). by apply (binv_rest s).
  - case_bool_decide; [|eexists; split; done]. eexists; split; [done|]. by apply (binv_rest (halt s i)); [| | |apply binv_halt].
  - destruct (_ && _); [|eexists; split; done]. eexists; split; [done|]. by apply (binv_rest (halt s i)); [| | |apply binv_halt].
  - case_bool_decide; [|eexists; split; done]. eexists; split; [done|]. destruct (announce_rest s i) as (E1 & E2 & E3 & _). by apply (binv_rest s).
  - destruct (b_msgs s) as [|x rest]; [eexists; split; done|].
    destruct x as [p ok|p].
    + destruct (ginv_step _ (Complete p ok) V1) as (g' & E & Hg). cbn [gstep] in E. rewrite E. cbn [mbind option_bind]. eexists; split; [done|]. by split.
    + destruct (ginv_step _ (Expire p) V1) as (g' & E & Hg). cbn [gstep] in E. injection E as <-. cbn [mbind option_bind]. eexists; split; [done|]. by split.
Qed.

(** ** Every open channel will be closed *)
Lemma for_dev_rest s s' p :
  (forall t, (p, t) ∈ b_asks s -> (p, t) ∈ b_asks s') ->
  (forall n i, waiting_on (b_map s) n i -> waiting_on (b_map s') n i) -> b_who s' = b_who s ->
  (forall ok, Completed p ok ∈ b_msgs s -> Completed p ok ∈ b_msgs s') -> for_dev s p -> for_dev s' p.
Proof.
  intros H1 H2 H3 H4 [[t H]|[(n & i & b & H & Hb)|[ok H]]].
  - left. eauto.
  - right. left. exists n, i, b. rewrite H3. eauto.
  - right. right. eauto.
Qed.
Lemma flies_start rows boot : flies (start rows boot).
Proof. intros p i c H. cbn in H. by rewrite lookup_empty in H. Qed.
Lemma flies_same s s' : g_pending (b_gate s') = g_pending (b_gate s) -> (forall p, for_dev s p -> for_dev s' p) -> flies s -> flies s'.
Proof. intros E H Hf p i c Hi Hc. rewrite E in Hi. eauto. Qed.
Lemma for_dev_ensure s p token since startup rows checked asks boot p' :
  inv (b_map s) -> length (b_who s) = length (pm_calls (b_map s)) ->
  (forall t, (p', t) ∈ b_asks s -> p' = p \/ (p', t) ∈ asks) ->
  for_dev s p' -> for_dev (mk_beg rows checked (b_gate s) asks (step (b_map s) (Ensure p token since startup)) (b_who s ++ [(p, startup)]) (b_msgs s) boot (b_stopping s) (b_refused s)) p'.
Proof.
  intros Hi Hl Ha. cbn [step]. assert (Hx : exists all cur x j, ensure (b_map s) p token since startup = mk_pmap all cur (pm_calls (b_map s) ++ [x])
      /\ (x = WaitOld j \/ exists w, x = WaitNew j w)).
  { destruct (ensure_cases (b_map s) p token since startup Hi) as [(i & _ & E)|(td & w & E)]; rewrite E; do 4 eexists; (split; [done|]); eauto. }
  destruct Hx as (all & cur & x & j & -> & Hx). intros [[t H]|[(n & i & b & H & Hb)|[ok H]]].
  - destruct (Ha t H) as [->|H']; [|left; eauto]. right. left. exists (length (pm_calls (b_map s))), j, startup. bcbn. split.
    + unfold waiting_on. cbn [pm_calls]. rewrite lookup_app_r, Nat.sub_diag by lia. cbn.
      destruct Hx as [->|[w ->]]; [by left|right; by exists w].
    + rewrite <- Hl, lookup_app_r, Nat.sub_diag by lia. done.
  - right. left. exists n, i, b. bcbn. split; [by apply waiting_snoc_keep|by apply lookup_app_l_Some].
  - right. right. eauto.
Qed.

Lemma flies_step s a s' : binv s -> token_there s a -> bstep s a = Some s' -> flies s -> flies s'.
Proof.
  intros Hv Ht E Hf. pose proof Hv as [V1 V2 V3 V4 V5 V6 V7]. destruct a as [token p since|token|i|n|ok|i|n report|i|i|i|i|i|i|i|i|]; cbn [bstep] in E.
  - destruct (b_rows s !! token); injection E as <-; [done|]. by apply (flies_same s).
  - destruct (b_rows s !! token) as [[p ?]|]; injection E as <-; [|done]. by apply (flies_same s).
  - destruct (b_checked s !! i) as [[p token]|]; [|injection E as <-; done].
    destruct (call_cases _ p V1) as [(Hd & He & Ec)|[(c & Hp & Ec)|(_ & cl & Hcl & Ec)]]; rewrite Ec in E; cbn [mbind option_bind] in E; injection E as <-.
    + apply (flies_same s); [done| |done]. intros p'. apply for_dev_rest; try done. intros t H. bcbn. by apply elem_of_app; left.
    + apply (flies_same s); [done| |done]. intros p'. apply for_dev_rest; try done. intros t H. bcbn. by apply elem_of_app; left.
    + rewrite decide_False by (cbn [g_asked]; rewrite app_length; cbn [length]; lia). intros p' i' c' Hi Hc. bcbn_in Hi. cbn [g_pending] in Hi. destruct (decide (p = p')) as [<-|Hne].
      * left. exists token. bcbn. apply elem_of_app. right. by apply elem_of_list_singleton.
      * rewrite lookup_insert_ne in Hi by done. specialize (Hf p' i' c' Hi Hc). revert Hf. apply for_dev_rest; try done.
        intros t H. bcbn. by apply elem_of_app; left.
  - injection E as <-. apply (flies_same s); [|done|done]. bcbn. unfold wake. destruct (g_calls (b_gate s) !! n) as [[p [c|]]|]; try done.
    by destruct (bool_decide _).
  - cbn [token_there] in Ht. destruct (b_asks s) as [|[p token] rest] eqn:Ea; [by injection E as <-|]. destruct Ht as (-> & since & Hr).
    rewrite Hr, decide_True in E by done. injection E as <-. apply (flies_same s); [done| |done]. intros p'.
    apply for_dev_ensure; [done|done|]. intros t H. rewrite Ea in H. apply elem_of_cons in H as [H|H]; [left; by inversion H|by right].
  - destruct (b_boot s !! i) as [[[p token] since]|]; injection E as <-; [|done]. apply (flies_same s); [done| |done]. intros p'.
    apply for_dev_ensure; [done|done|]. intros t H. by right.
  - destruct (returns_cases (b_map s) n) as [Er|(i & cr & ok & Hw & Er & _)].
    + rewrite Er in E. destruct (pm_calls (b_map s) !! n) as [[?|??|???]|]; injection E as <-; done.
    + rewrite Er in E. destruct (V4 n i Hw) as (q & b & Hq & Hb). cbn [pm_calls] in E. rewrite list_lookup_insert, Hb in E by (by eapply waiting_lt).
      assert (Hs : s' = mk_beg (b_rows s) (b_checked s) (b_gate s) (b_asks s) (returns (b_map s) n) (b_who s)
                  (b_msgs s ++ [Completed (q_pid q) (if b then report else ok)]) (b_boot s) (b_stopping s) (b_refused s)).
      { rewrite Er. destruct Hw as [Hw|[w Hw]]; rewrite Hw in E; by injection E as <-. }
      subst s'. apply (flies_same s); [done| |done]. intros p' [[t H]|[(n' & i' & b' & H & Hb')|[ok' H]]].
      * left. eauto.
      * destruct (decide (n = n')) as [<-|Hne].
        -- rewrite Hb in Hb'. injection Hb' as <- <-. right. right. eexists. bcbn. apply elem_of_app. right. by apply elem_of_list_singleton.
        -- right. left. exists n', i', b'. bcbn. split; [|done]. rewrite Er. unfold waiting_on. cbn [pm_calls].
           rewrite !list_lookup_insert_ne by done. done.
      * right. right. exists ok'. bcbn. by apply elem_of_app; left.
  - injection E as <-. by apply (flies_same s).
  - injection E as <-. by apply (flies_same s).
  - injection E as <-. by apply (flies_same s).
  - destruct (live s i); injection E as <-; [|done]. destruct (announce_rest s i) as (E1 & E2 & E3 & E4 & _). apply (flies_same s); [cbn [halt with_map b_gate]; by rewrite E1| |done].
    intros p'. apply for_dev_rest; bcbn; cbn [halt with_map b_asks b_map b_who b_msgs]; rewrite ?E2, ?E3, ?E4; try done.
    intros ok H. destruct (announce_msgs s i) as [->|(q & _ & ->)]; [done|by apply elem_of_app; left].
  - destruct (live s i); injection E as <-; [|done]. destruct (announce_rest s i) as (E1 & E2 & E3 & E4 & _). apply (flies_same s); [bcbn; by rewrite E1| |done].
    intros p'. apply for_dev_rest; bcbn; rewrite ?E2, ?E3, ?E4; try done.
    intros ok H. destruct (announce_msgs s i) as [->|(q & _ & ->)]; [done|by apply elem_of_app; left].
  - case_bool_decide; injection E as <-; [|done]. by apply (flies_same s).
  - destruct (_ && _); injection E as <-; [|done]. by apply (flies_same s).
  - case_bool_decide; injection E as <-; [|done]. destruct (announce_rest s i) as (E1 & E2 & E3 & E4 & _). apply (flies_same s); [bcbn; by rewrite E1| |done].
    intros p'. apply for_dev_rest; bcbn; rewrite ?E2, ?E3, ?E4; try done.
    intros ok Hm. destruct (announce_msgs s i) as [->|(q & _ & ->)]; [done|by apply elem_of_app; left].
  - destruct (b_msgs s) as [|x rest] eqn:Em; [by injection E as <-|].
    assert (Hkeep : forall p', (forall ok, x <> Completed p' ok) -> forall g, for_dev s p' ->
      for_dev (mk_beg (b_rows s) (b_checked s) g (b_asks s) (b_map s) (b_who s) rest (b_boot s) (b_stopping s) (b_refused s)) p').
    { intros p' Hx g. apply for_dev_rest; try done. intros ok H. rewrite Em in H. apply elem_of_cons in H as [H|H]; [|done]. destruct (Hx ok); congruence. }
    destruct x as [p ok|p].
    + assert (Hg : exists g, complete (b_gate s) p ok = Some g /\ (forall i, g_pending g !! p = Some i -> i_ch i = None)
                     /\ (forall p', p' <> p -> g_pending g !! p' = g_pending (b_gate s) !! p')).
      { destruct V1 as (G1 & _). unfold complete. destruct (g_pending (b_gate s) !! p) as [i|] eqn:Ep.
        - specialize (G1 p i Ep). destruct (i_done i) eqn:Ed.
          + eexists. split; [done|]. split; [|done]. intros i' Hi'. rewrite Ep in Hi'. injection Hi' as <-. destruct (i_ch i); [|done]. by destruct G1.
          + destruct (i_ch i) as [c|]; [|done]. destruct G1 as (_ & _ & G1). cbn [close_ch]. rewrite bool_decide_eq_false_2 by done. eexists. split; [done|].
            cbn [g_pending]. split; [intros i'; rewrite lookup_insert; intros Hi'; by injection Hi' as <-|]. intros p' Hp'. by rewrite lookup_insert_ne.
        - eexists. split; [done|]. cbn [g_pending]. split; [intros i'; rewrite lookup_insert; intros Hi'; by injection Hi' as <-|]. intros p' Hp'. by rewrite lookup_insert_ne. }
      destruct Hg as (g & Eg & Hg1 & Hg2). rewrite Eg in E. cbn [mbind option_bind] in E. injection E as <-. intros p' i c Hi Hc. bcbn_in Hi.
      destruct (decide (p' = p)) as [->|Hne]; [rewrite (Hg1 i Hi) in Hc; done|]. rewrite Hg2 in Hi by done. apply Hkeep; [|by eapply Hf]. intros ok' H. congruence.
    + cbn [mbind option_bind] in E. injection E as <-. intros p' i c Hi Hc. bcbn_in Hi. apply Hkeep; [done|]. unfold expire in Hi.
      destruct (g_pending (b_gate s) !! p) as [i0|] eqn:Ep; [|by eapply Hf]. cbn [g_pending] in Hi. destruct (decide (p = p')) as [<-|Hne].
      * rewrite lookup_insert in Hi. injection Hi as <-. cbn in Hc. by eapply Hf.
      * rewrite lookup_insert_ne in Hi by done. by eapply Hf.
Qed.

(** ** The steps come to an end *)
Definition w_call (c : caller) : nat := match c with Returned _ _ _ => 0 | _ => 3 end.
Definition w_poller (q : poller) : nat := (if q_run q then 1 else 0) + (if q_wg q then 0 else 1).
Definition w_wait (c : pid * cstate) : nat := match c.2 with Waiting _ => 1 | _ => 0 end.
Definition work (s : beg) : nat :=
  6 * length (b_asks s) + sumf w_call (pm_calls (b_map s)) + sumf w_poller (pm_all (b_map s)) + length (b_msgs s) + sumf w_wait (g_calls (b_gate s)).

Lemma work_ensure m p token since startup : inv m ->
  sumf w_call (pm_calls (ensure m p token since startup)) + sumf w_poller (pm_all (ensure m p token since startup))
  <= 5 + sumf w_call (pm_calls m) + sumf w_poller (pm_all m).
Proof.
  intros Hi. destruct (ensure_cases m p token since startup Hi) as [(i & _ & ->)|(td & w & ->)]; cbn [pm_calls pm_all]; rewrite !sumf_app.
  - change (sumf w_call [WaitOld i]) with 3. lia.
  - change (sumf w_call [WaitNew (length (pm_all m)) w]) with 3. change (sumf w_poller [newPoller p token since td]) with 2. lia.
Qed.
Lemma on_poller_same m i f : (forall q, pm_all m !! i = Some q -> f q = q) -> on_poller m i f = m.
Proof.
  intros H. unfold on_poller. assert (E : alter f i (pm_all m) = pm_all m); [|rewrite E; by destruct m].
  apply list_eq. intros j. destruct (decide (i = j)) as [<-|Hn].
  - rewrite list_lookup_alter. destruct (pm_all m !! i) as [q|] eqn:Eq; [|done]. cbn. f_equal. by apply H.
  - by rewrite list_lookup_alter_ne.
Qed.
Lemma with_map_same s m : m = b_map s -> with_map m s = s.
Proof. intros ->. by destruct s. Qed.
Lemma complete_calls g p ok g' : complete g p ok = Some g' -> g_calls g' = g_calls g.
Proof.
  unfold complete. destruct (g_pending g !! p) as [i|]; [|intros H; by injection H as <-]. destruct (i_done i); [intros H; by injection H as <-|].
  destruct (close_ch _ _); cbn; [intros H; by injection H as <-|done].
Qed.
Lemma expire_calls g p : g_calls (expire g p) = g_calls g.
Proof. unfold expire. by destruct (g_pending g !! p). Qed.

Lemma sync_same s i q : binv s -> pm_all (b_map s) !! i = Some q -> (q_run q = true -> q_wg q = true) -> sync q = q.
Proof.
  intros [V1 V2 V3 V4 V5 V6 V7] Hq Hw. unfold sync. destruct (q_run q) eqn:Er; [|done]. specialize (Hw eq_refl).
  pose proof (V7 i q Hq Er Hw) as Hs. pose proof (V6 i q Hq Hs) as Ht. destruct q; cbn in *; by subst.
Qed.

Lemma work_step s a s' : binv s -> by_itself a -> bstep s a = Some s' -> s' <> s -> work s' < work s.
Proof.
  intros Hv Hb E Hn. pose proof Hv as [V1 V2 V3 V4 V5 V6 V7]. unfold work. destruct a as [token p since|token|i|n|ok|i|n report|i|i|i|i|i|i|i|i|]; try done; cbn [bstep] in E.
  - injection E as <-. bcbn. unfold wake in *. destruct (g_calls (b_gate s) !! n) as [[p [c|e]]|] eqn:Ec; [|by destruct Hn; destruct s..].
    destruct (bool_decide (c ∈ g_closed (b_gate s))); [|by destruct Hn; destruct s]. cbn [g_calls].
    pose proof (sumf_insert w_wait _ n (p, Finished (i_expired (entry (b_gate s) p))) _ Ec) as Hs.
    change (w_wait (p, Waiting c)) with 1 in Hs. change (w_wait (p, Finished _)) with 0 in Hs. lia.
  - destruct (b_asks s) as [|[p token] rest] eqn:Ea; [by injection E as <-|].
    destruct (if ok then b_rows s !! token else None) as [[p' since]|]; [destruct (decide (p' = p))|]; injection E as <-; bcbn; cbn [length step]; try lia.
    pose proof (work_ensure (b_map s) p token since false V2). lia.
  - destruct (returns_cases (b_map s) n) as [Er|(i & cr & ok & Hw & Er & _)].
    + rewrite Er in E. destruct (pm_calls (b_map s) !! n) as [[?|??|???]|]; injection E as <-; done.
    + rewrite Er in E. destruct (V4 n i Hw) as (q & b & Hq & Hb'). cbn [pm_calls] in E. rewrite list_lookup_insert, Hb' in E by (by eapply waiting_lt).
      assert (Hs : exists y, pm_calls (b_map s) !! n = Some y /\ w_call y = 3 /\ s' = mk_beg (b_rows s) (b_checked s) (b_gate s) (b_asks s) (returns (b_map s) n) (b_who s)
                  (b_msgs s ++ [Completed (q_pid q) (if b then report else ok)]) (b_boot s) (b_stopping s) (b_refused s)).
      { rewrite Er. destruct Hw as [Hw|[w Hw]]; rewrite Hw in E; injection E as <-; rewrite Hw; eexists; done. }
      destruct Hs as (y & Hy & Hwy & ->). bcbn. rewrite Er. cbn [pm_calls pm_all].
      pose proof (sumf_insert w_call _ n (Returned i cr ok) _ Hy) as Hs. change (w_call (Returned i cr ok)) with 0 in Hs. rewrite app_length. cbn [length]. lia.
  - injection E as <-. cbn [step] in *. destruct (pm_all (b_map s) !! i) as [q|] eqn:Eq.
    2: { destruct Hn. apply with_map_same, on_poller_same. intros q Hq. congruence. }
    destruct (q_run q && negb (q_wg q)) eqn:Eb.
    + apply andb_true_iff in Eb as [Er Ew]. apply negb_true_iff in Ew. bcbn. cbn [on_poller pm_calls pm_all].
      pose proof (sumf_alter w_poller sync _ i q Eq) as Hs. unfold sync in Hs at 2. rewrite Er in Hs. unfold w_poller in Hs at 2 4. cbn [q_run q_wg] in Hs. rewrite Er, Ew in Hs. lia.
    + destruct Hn. apply with_map_same, on_poller_same. intros q' Hq'. rewrite Eq in Hq'. injection Hq' as <-. apply (sync_same s i); [done|done|].
      intros Er. rewrite Er in Eb. cbn in Eb. by apply negb_false_iff in Eb.
  - injection E as <-. cbn [step] in *. destruct (pm_all (b_map s) !! i) as [q|] eqn:Eq.
    2: { destruct Hn. apply with_map_same, on_poller_same. intros q Hq. congruence. }
    destruct (q_run q && q_term q) eqn:Eb.
    + bcbn. cbn [on_poller pm_calls pm_all].
      pose proof (sumf_alter w_poller loop_end _ i q Eq) as Hs. unfold loop_end in Hs at 2. rewrite Eb in Hs. unfold w_poller in Hs at 2 4. cbn [q_run q_wg] in Hs.
      apply andb_true_iff in Eb as [Er _]. rewrite Er in Hs. destruct (q_wg q); lia.
    + destruct Hn. apply with_map_same, on_poller_same. intros q' Hq'. rewrite Eq in Hq'. injection Hq' as <-. unfold loop_end. by rewrite Eb.
  - destruct (b_msgs s) as [|x rest] eqn:Em; [by injection E as <-|]. destruct x as [p ok|p].
    + destruct (complete (b_gate s) p ok) as [g|] eqn:Eg; cbn [mbind option_bind] in E; [|done]. injection E as <-. bcbn. rewrite (complete_calls _ _ _ _ Eg). cbn [length]. lia.
    + cbn [mbind option_bind] in E. injection E as <-. bcbn. rewrite expire_calls. cbn [length]. lia.
Qed.

Lemma by_itself_unpanicked s a : by_itself a -> unpanicked s a.
Proof. by destruct a. Qed.
Lemma works_bound l : forall s, binv s -> works s l -> length l <= work s.
Proof.
  induction l as [|a l IH]; intros s Hv Hw; cbn [length]; [lia|]. destruct Hw as (Hb & s' & E & Hn & Hw).
  pose proof (work_step s a s' Hv Hb E Hn). destruct (binv_step s a (by_itself_unpanicked s a Hb) Hv) as (s2 & E2 & Hv').
  rewrite E in E2. injection E2 as <-. specialize (IH s' Hv' Hw). lia.
Qed.

Lemma idle_no_wait s : binv s -> flies s -> idle s -> forall n p, ~ waits s n p.
Proof.
  intros Hv Hf Hi n p (c & Hc). pose proof Hv as [V1 V2 V3 V4 V5 V6 V7]. destruct V1 as (G1 & G2 & G3 & G4).
  destruct (G3 n p c Hc) as [Hcl|(i & Hp & Hch)].
  - pose proof (Hi (Waken n) I) as E. cbn [bstep] in E. apply (inj Some) in E. apply (f_equal (fun s => g_calls (b_gate s) !! n)) in E.
    bcbn_in E. unfold wake in E. rewrite Hc, bool_decide_eq_true_2 in E by done. cbn [g_calls] in E.
    rewrite list_lookup_insert in E by (by eapply lookup_lt_Some). congruence.
  - destruct (Hf p i c Hp Hch) as [[t H]|[(n' & j & b & H & Hb)|[ok H]]].
    + pose proof (Hi (Handle true) I) as E. cbn [bstep] in E. destruct (b_asks s) as [|[p' token] rest] eqn:Ea; [by apply elem_of_nil in H|].
      assert (Hl : exists s2, Some s2 = Some s /\ b_asks s2 = rest).
      { destruct (b_rows s !! token) as [[p'' since]|]; [destruct (decide (p'' = p'))|]; (eexists; split; [exact E|]); done. }
      destruct Hl as (s2 & E2 & Hl). apply (inj Some) in E2. subst s2. rewrite Ea in Hl. apply (f_equal length) in Hl. cbn in Hl. lia.
    + destruct (V4 n' j H) as (q & b' & Hq & Hb').
      assert (Hw : q_wg q = true).
      { destruct (q_wg q) eqn:Ew; [done|]. pose proof (Hi (Polled j) I) as E. cbn [bstep step] in E. apply (inj Some) in E.
        apply (f_equal (fun s => pm_all (b_map s) !! j)) in E. bcbn_in E. cbn [on_poller pm_all] in E. rewrite list_lookup_alter, Hq in E. cbn in E.
        apply (inj Some) in E. apply (f_equal q_wg) in E. unfold sync in E. rewrite (V5 j q Hq (or_introl Ew)) in E. cbn in E. congruence. }
      pose proof (Hi (Answer n' true) I) as E. cbn [bstep] in E.
      assert (Hr : exists cr ok, returns (b_map s) n' = mk_pmap (pm_all (b_map s)) (pm_cur (b_map s)) (<[n' := Returned j cr ok]> (pm_calls (b_map s)))).
      { unfold returns. cbv zeta. destruct H as [H|[w H]]; rewrite H, Hq, Hw, ?orb_true_r; [eauto|]. destruct (terminated _ _); eauto. }
      destruct Hr as (cr & ok & Hr). rewrite Hr in E. cbn [pm_calls] in E. rewrite list_lookup_insert, Hb' in E by (by eapply waiting_lt).
      assert (Hm : exists s2, Some s2 = Some s /\ length (b_msgs s2) = S (length (b_msgs s))).
      { destruct H as [H|[w H]]; rewrite H in E; (eexists; split; [exact E|]); bcbn; rewrite app_length; cbn; lia. }
      destruct Hm as (s2 & E2 & Hm). apply (inj Some) in E2. subst s2. lia.
    + destruct (binv_step s Deliver I Hv) as (s' & E & _). rewrite (Hi Deliver I) in E. apply (inj Some) in E. subst s'.
      pose proof (Hi Deliver I) as E. cbn [bstep] in E. destruct (b_msgs s) as [|x rest] eqn:Em; [by apply elem_of_nil in H|].
      destruct (match x with Completed p0 ok0 => complete (b_gate s) p0 ok0 | Expired p0 => Some (expire (b_gate s) p0) end) as [g|]; cbn [mbind option_bind] in E; [|done].
      apply (inj Some) in E. apply (f_equal (fun s => length (b_msgs s))) in E. bcbn_in E. rewrite Em in E. cbn in E. lia.
Qed.

(** ** A device that is let through is polled *)
Definition stopping (s : beg) (p : pid) : Prop := exists i q, i ∈ b_stopping s /\ pm_all (b_map s) !! i = Some q /\ q_pid q = p.
Definition has (s : beg) (p : pid) : Prop := exists i, active (b_map s) p i.
Definition asked (s : beg) (p : pid) : Prop := exists t, (p, t) ∈ b_asks s.
Definition kind (s : beg) (p : pid) : Prop := has s p \/ Expired p ∈ b_msgs s \/ stopping s p.
Record kinv (s : beg) : Prop := mk_kinv {
  k_ask : forall p, asked s p -> g_pending (b_gate s) !! p <> None;
  k_who : forall p n, b_who s !! n = Some (p, false) -> g_pending (b_gate s) !! p <> None;
  k_in : forall p i, g_pending (b_gate s) !! p = Some i -> i_expired i = false -> kind s p \/ asked s p;
  k_out : forall p a b, g_pending (b_gate s) !! p = None -> b_msgs s = a ++ Completed p true :: b -> has s p \/ Expired p ∈ b \/ stopping s p
}.
Lemma kinv_start rows boot : kinv (start rows boot).
Proof.
  split; cbn.
  - intros p [t H]. by apply elem_of_nil in H.
  - intros p n H. by rewrite lookup_nil in H.
  - intros p i H. by rewrite lookup_empty in H.
  - intros p a b _ H. by destruct a.
Qed.
Lemma has_poller s i f p : (forall q, q_pid (f q) = q_pid q) -> (forall q, q_term (f q) = q_term q) -> has s p -> has (with_map (on_poller (b_map s) i f) s) p.
Proof.
  intros H1 H2 (j & q & Hq & Hp & Ht). exists j. unfold active. bcbn. cbn [on_poller pm_all]. destruct (decide (i = j)) as [<-|Hn].
  - exists (f q). rewrite list_lookup_alter, Hq. rewrite H1, H2. done.
  - exists q. by rewrite list_lookup_alter_ne.
Qed.
Lemma stopping_poller s i f p : (forall q, q_pid (f q) = q_pid q) -> stopping s p -> stopping (with_map (on_poller (b_map s) i f) s) p.
Proof.
  intros H1 (j & q & Hj & Hq & Hp). exists j. bcbn. cbn [on_poller pm_all]. destruct (decide (i = j)) as [<-|Hn].
  - exists (f q). rewrite list_lookup_alter, Hq. by rewrite H1.
  - exists q. by rewrite list_lookup_alter_ne.
Qed.
Lemma has_terminate s i q p : pm_all (b_map s) !! i = Some q -> has s p -> has (halt s i) p \/ p = q_pid q.
Proof.
  intros Hi (j & q' & Hq & Hp & Ht). destruct (decide (i = j)) as [<-|Hn]; [right; congruence|]. left. exists j, q'. unfold halt. bcbn. cbn [step on_poller pm_all].
  by rewrite list_lookup_alter_ne.
Qed.
Lemma has_rest s s' p : b_map s' = b_map s -> has s p -> has s' p.
Proof. unfold has. by intros ->. Qed.
Lemma stopping_rest s s' p : b_map s' = b_map s -> (forall i, i ∈ b_stopping s -> i ∈ b_stopping s') -> stopping s p -> stopping s' p.
Proof. intros E H (i & q & Hi & Hq & Hp). exists i, q. rewrite E. eauto. Qed.

(** A step that neither touches the gate nor loses anything. *)
Lemma kinv_same s s' :
  b_gate s' = b_gate s -> b_asks s' = b_asks s -> b_who s' = b_who s ->
  (b_msgs s' = b_msgs s \/ exists p, b_msgs s' = b_msgs s ++ [Expired p]) ->
  (forall p, has s p -> has s' p \/ stopping s' p \/ b_msgs s' = b_msgs s ++ [Expired p]) ->
  (forall p, stopping s p -> stopping s' p \/ b_msgs s' = b_msgs s ++ [Expired p]) ->
  kinv s -> kinv s'.
Proof.
  intros E1 E2 E3 Hm Hh Hs [K1 K2 K3 K4]. split; rewrite ?E1, ?E3.
  - intros p H. apply K1. unfold asked in *. by rewrite <- E2.
  - done.
  - intros p i Hp He. destruct (K3 p i Hp He) as [[H|[H|H]]|H].
    + left. destruct (Hh p H) as [H'|[H'|H']]; [by left|by right; right|right; left]. rewrite H'. apply elem_of_app. right. by apply elem_of_list_singleton.
    + left. right. left. destruct Hm as [->|[p' ->]]; [done|by apply elem_of_app; left].
    + left. destruct (Hs p H) as [H'|H']; [by right; right|right; left]. rewrite H'. apply elem_of_app. right. by apply elem_of_list_singleton.
    + right. unfold asked in *. by rewrite E2.
  - intros p a b Hp Hab.
    assert (Hb : exists b0, b_msgs s = a ++ Completed p true :: b0 /\ ((b = b0 /\ b_msgs s' = b_msgs s) \/ exists p', b = b0 ++ [Expired p'] /\ b_msgs s' = b_msgs s ++ [Expired p'])).
    { destruct Hm as [Hm|[p' Hm]]; [exists b; rewrite <- Hm; eauto|]. destruct b as [|x b _] using rev_ind.
      - rewrite Hm in Hab. apply app_inj_tail in Hab as [_ Hab]. done.
      - rewrite Hm, app_comm_cons, app_assoc in Hab. apply app_inj_tail in Hab as [Hab <-]. exists b. split; [done|]. right. exists p'. done. }
    destruct Hb as (b0 & Hb0 & Hb).
    assert (Hlast : b_msgs s' = b_msgs s ++ [Expired p] -> Expired p ∈ b).
    { intros H. destruct Hb as [[_ Hb]|(p' & -> & Hb)]; rewrite Hb in H.
      - apply (f_equal length) in H. rewrite app_length in H. cbn in H. lia.
      - apply app_inj_tail in H as [_ H]. rewrite H. apply elem_of_app. right. by apply elem_of_list_singleton. }
    destruct (K4 p a b0 Hp Hb0) as [H|[H|H]].
    + destruct (Hh p H) as [H'|[H'|H']]; [by left|by right; right|right; left; by apply Hlast].
    + right. left. destruct Hb as [[-> _]|(p' & -> & _)]; [done|by apply elem_of_app; left].
    + destruct (Hs p H) as [H'|H']; [by right; right|right; left; by apply Hlast].
Qed.
Lemma stopping_halt s i p : stopping s p -> stopping (halt s i) p.
Proof. intros H. by apply stopping_poller. Qed.

Lemma kinv_ensure s p token since startup rows checked asks boot :
  inv (b_map s) -> (startup = false -> g_pending (b_gate s) !! p <> None) ->
  (forall t p', (p', t) ∈ asks -> (p', t) ∈ b_asks s) -> (forall t p', (p', t) ∈ b_asks s -> p' = p \/ (p', t) ∈ asks) ->
  kinv s -> kinv (mk_beg rows checked (b_gate s) asks (step (b_map s) (Ensure p token since startup)) (b_who s ++ [(p, startup)]) (b_msgs s) boot (b_stopping s) (b_refused s)).
Proof.
  intros Hi Hp Ha Ha' [K1 K2 K3 K4]. cbn [step].
  assert (Hnew : exists i, active (ensure (b_map s) p token since startup) p i).
  { destruct (ensure_cases (b_map s) p token since startup Hi) as [(i & Hact & ->)|(td & w & ->)]; [by exists i|].
    exists (length (pm_all (b_map s))), (newPoller p token since td). cbn [pm_all]. rewrite lookup_app_r, Nat.sub_diag by lia. done. }
  assert (Hall : forall j q, pm_all (b_map s) !! j = Some q -> pm_all (ensure (b_map s) p token since startup) !! j = Some q).
  { intros j q Hq. destruct (ensure_cases (b_map s) p token since startup Hi) as [(i & Hact & ->)|(td & w & ->)]; [done|]. cbn [pm_all]. by apply lookup_app_l_Some. }
  set (s' := mk_beg _ _ _ _ _ _ _ _ _ _).
  assert (Hh : forall p', has s p' -> has s' p').
  { intros p' (j & q & Hq & Hj). exists j, q. split; [by apply Hall|done]. }
  assert (Hs : forall p', stopping s p' -> stopping s' p').
  { intros p' (j & q & Hj & Hq & Hpq). exists j, q. split; [done|]. split; [by apply Hall|done]. }
  split.
  - intros p' [t H]. apply K1. exists t. by apply Ha.
  - intros p' n H. subst s'. bcbn_in H. apply app_one_lookup in H as [H|[_ H]]; [by apply (K2 p' n)|]. injection H as -> <-. by apply Hp.
  - intros p' i H He. destruct (K3 p' i H He) as [[H'|[H'|H']]|[t H']].
    + left. left. by apply Hh.
    + left. right. by left.
    + left. right. right. by apply Hs.
    + destruct (Ha' t p' H') as [->|H'']; [left; by left|right; by exists t].
  - intros p' a b Hn Hab. destruct (K4 p' a b Hn Hab) as [H|[H|H]]; [left; by apply Hh|by right; left|right; right; by apply Hs].
Qed.

Lemma kinv_step s a s' : binv s -> unpanicked s a -> token_there s a -> at_once s a -> truthful s a -> bstep s a = Some s' -> kinv s -> kinv s'.
Proof.
  intros Hv Hup Ht Ho Htr E Hk. pose proof Hv as [V1 V2 V3 V4 V5 V6 V7]. pose proof Hk as [K1 K2 K3 K4].
  destruct a as [token p since|token|i|n|ok|i|n report|i|i|i|i|i|i|i|i|]; cbn [bstep] in E.
  - destruct (b_rows s !! token); injection E as <-; [done|]. apply (kinv_same s); try done; [by left| |]; intros p' H; by left.
  - destruct (b_rows s !! token) as [[p ?]|]; injection E as <-; [|done]. apply (kinv_same s); try done; [by left| |]; intros p' H; by left.
  - destruct (b_checked s !! i) as [[p token]|]; [|injection E as <-; done].
    destruct (call_cases _ p V1) as [(Hd & He & Ec)|[(c & Hp & Ec)|(_ & cl & Hcl & Ec)]]; rewrite Ec in E; cbn [mbind option_bind] in E; injection E as <-.
    + rewrite decide_True, app_nil_r by done. by split.
    + rewrite decide_True, app_nil_r by done. by split.
    + rewrite decide_False by (cbn [g_asked]; rewrite app_length; cbn [length]; lia). split; unfold asked; bcbn; cbn [g_pending].
      * intros p' [t H]. apply elem_of_app in H as [H|H].
        -- destruct (decide (p = p')) as [<-|Hne]; [by rewrite lookup_insert|]. rewrite lookup_insert_ne by done. apply K1. by exists t.
        -- apply elem_of_list_singleton in H. injection H as -> ->. by rewrite lookup_insert.
      * intros p' n H. destruct (decide (p = p')) as [<-|Hne]; [by rewrite lookup_insert|]. rewrite lookup_insert_ne by done. by apply (K2 p' n).
      * intros p' i' H He. destruct (decide (p = p')) as [<-|Hne].
        -- right. exists token. apply elem_of_app. right. by apply elem_of_list_singleton.
        -- rewrite lookup_insert_ne in H by done. destruct (K3 p' i' H He) as [H'|[t H']]; [by left|]. right. exists t. by apply elem_of_app; left.
      * intros p' a b H. destruct (decide (p = p')) as [<-|Hne]; [by rewrite lookup_insert in H|]. rewrite lookup_insert_ne in H by done. by apply K4.
  - injection E as <-. assert (Eg : g_pending (wake (b_gate s) n) = g_pending (b_gate s)).
    { unfold wake. destruct (g_calls (b_gate s) !! n) as [[p [c|]]|]; try done. by destruct (bool_decide _). }
    split; bcbn; rewrite Eg; done.
  - cbn [token_there] in Ht. destruct (b_asks s) as [|[p token] rest] eqn:Ea; [by injection E as <-|]. destruct Ht as (-> & since & Hr).
    rewrite Hr, decide_True in E by done. injection E as <-. apply kinv_ensure; try done.
    + intros _. apply K1. exists token. rewrite Ea. apply elem_of_cons. by left.
    + intros t p' H. rewrite Ea. apply elem_of_cons. by right.
    + intros t p' H. rewrite Ea in H. apply elem_of_cons in H as [H|H]; [left; by inversion H|by right].
  - destruct (b_boot s !! i) as [[[p token] since]|]; injection E as <-; [|done]. apply kinv_ensure; try done. intros t p' H. by right.
  - destruct (returns_cases (b_map s) n) as [Er|(i & cr & ok & Hw & Er & Hok)].
    + rewrite Er in E. destruct (pm_calls (b_map s) !! n) as [[?|??|???]|]; injection E as <-; done.
    + rewrite Er in E. destruct (V4 n i Hw) as (q & b & Hq & Hb). cbn [pm_calls] in E. rewrite list_lookup_insert, Hb in E by (by eapply waiting_lt).
      assert (Hs : s' = mk_beg (b_rows s) (b_checked s) (b_gate s) (b_asks s) (returns (b_map s) n) (b_who s)
                  (b_msgs s ++ [Completed (q_pid q) (if b then report else ok)]) (b_boot s) (b_stopping s) (b_refused s)).
      { rewrite Er. destruct Hw as [Hw|[w Hw]]; rewrite Hw in E; by injection E as <-. }
      subst s'.
      assert (Hall : pm_all (returns (b_map s) n) = pm_all (b_map s)) by (by rewrite Er).
      set (s' := mk_beg _ _ _ _ _ _ _ _ _ _).
      assert (Hh : forall p', has s p' -> has s' p') by (intros p' (j & q' & Hj); exists j, q'; subst s'; bcbn; by rewrite Hall).
      assert (Hst : forall p', stopping s p' -> stopping s' p') by (intros p' (j & q' & Hj); exists j, q'; subst s'; bcbn; by rewrite Hall).
      split; [done|done|..].
      * intros p' i' H He. destruct (K3 p' i' H He) as [[H'|[H'|H']]|H']; [left; left; by apply Hh| |left; right; right; by apply Hst|by right].
        left. right. left. subst s'. bcbn. by apply elem_of_app; left.
      * intros p' a b' Hn Hab. subst s'. bcbn_in Hn. bcbn_in Hab. destruct b' as [|x b' _] using rev_ind.
        -- apply app_inj_tail in Hab as [_ Hab]. injection Hab as Hp Hr. subst p'. destruct b.
           ++ left. apply Hh. exists i, q. split; [done|]. split; [done|]. specialize (Htr i Hw Hr). unfold terminated in Htr. by rewrite Hq in Htr.
           ++ by destruct (K2 (q_pid q) n Hb).
        -- rewrite app_comm_cons, app_assoc in Hab. apply app_inj_tail in Hab as [Hab <-]. destruct (K4 p' a b' Hn Hab) as [H|[H|H]].
           ++ left. by apply Hh.
           ++ right. left. by apply elem_of_app; left.
           ++ right. right. by apply Hst.
  - injection E as <-. cbn [step]. apply (kinv_same s); try done; [by left| |]; intros p' H; left.
    + apply has_poller; [..|done]; intros q; unfold sync; by destruct (q_run q).
    + apply stopping_poller; [..|done]; intros q; unfold sync; by destruct (q_run q).
  - injection E as <-. cbn [step]. apply (kinv_same s); try done; [by left| |]; intros p' H; left.
    + apply has_poller; [..|done]; intros q; unfold loop_end; destruct (q_run q); [|done..| |done]; cbn; by destruct (q_term q) eqn:Eq.
    + apply stopping_poller; [..|done]; intros q; unfold loop_end; by destruct (q_run q && q_term q).
  - done.
  - unfold live in E. destruct (pm_all (b_map s) !! i) as [q|] eqn:Eq; [|by injection E as <-]. destruct (q_run q && negb (q_term q)); injection E as <-; [|done].
    assert (Em : b_msgs (halt (announce s i) i) = b_msgs s ++ [Expired (q_pid q)]) by (unfold halt, announce; by rewrite Eq).
    destruct (announce_rest s i) as (E1 & E2 & E3 & E4 & _ & E6 & _).
    apply (kinv_same s); [done|done|done|right; by exists (q_pid q)|..|done].
    + intros p H. destruct (has_terminate s i q p Eq H) as [H'| ->]; [|right; right; done]. left. revert H'. apply has_rest. cbn. by rewrite E2.
    + intros p H. left. apply (stopping_halt _ i) in H. revert H. apply stopping_rest; cbn; rewrite ?E2, ?E6; done.
  - done.
  - done.
  - destruct (bool_decide _ && _) eqn:Eg; injection E as <-; [|done]. apply andb_true_iff in Eg as [Eg _]. apply bool_decide_eq_true in Eg.
    apply lookup_lt_is_Some in Eg as [q Eq]. apply (kinv_same s); [done|done|done|by left|..|done].
    + intros p H. destruct (has_terminate s i q p Eq H) as [H'| ->]; [left; done|]. right. left. exists i, (terminate q). bcbn. split; [apply elem_of_cons; by left|].
      unfold halt. bcbn. cbn [step on_poller pm_all]. by rewrite list_lookup_alter, Eq.
    + intros p H. left. apply (stopping_halt _ i) in H. revert H. apply stopping_rest; [done|]. intros j Hj. bcbn. apply elem_of_cons. by right.
  - case_bool_decide as Hst; injection E as <-; [|done]. destruct (announce_rest s i) as (E1 & E2 & E3 & E4 & _ & E6 & _).
    apply (kinv_same s); [done|done|done|..|done].
    + bcbn. destruct (announce_msgs s i) as [->|(q & _ & ->)]; [by left|right; by exists (q_pid q)].
    + intros p H. left. revert H. by apply has_rest.
    + intros p (j & q & Hj & Hq & Hp). destruct (decide (j = i)) as [->|Hne].
      * right. bcbn. unfold announce. rewrite Hq. bcbn. by rewrite Hp.
      * left. exists j, q. bcbn. rewrite E2, E6. split; [|done]. apply elem_of_list_In, filter_In. split; [by apply elem_of_list_In|]. apply negb_true_iff. by apply Nat.eqb_neq.
  - destruct (b_msgs s) as [|x rest] eqn:Em; [by injection E as <-|]. destruct x as [p ok|p].
    + destruct (complete (b_gate s) p ok) as [g|] eqn:Eg; cbn [mbind option_bind] in E; [|done]. injection E as <-.
      assert (Hg : (forall p', p' <> p -> g_pending g !! p' = g_pending (b_gate s) !! p')
        /\ exists i', g_pending g !! p = Some i' /\ (i_expired i' = false -> (exists i0, g_pending (b_gate s) !! p = Some i0 /\ i_expired i0 = false) \/ (g_pending (b_gate s) !! p = None /\ ok = true))).
      { unfold complete in Eg. destruct (g_pending (b_gate s) !! p) as [i0|] eqn:Ep.
        - destruct (i_done i0); [injection Eg as <-; split; [done|]; exists i0; split; [done|]; intros He; left; by exists i0|].
          destruct (close_ch _ _); cbn in Eg; [|done]. injection Eg as <-. cbn [g_pending]. split; [intros p' Hp'; by rewrite lookup_insert_ne|].
          rewrite lookup_insert. eexists. split; [done|]. cbn. intros He. left. exists i0. split; [done|]. by destruct (i_expired i0).
        - injection Eg as <-. cbn [g_pending]. split; [intros p' Hp'; by rewrite lookup_insert_ne|]. rewrite lookup_insert. eexists. split; [done|]. cbn. intros He. right.
          split; [done|]. by destruct ok. }
      destruct Hg as (Hg1 & i1 & Hi1 & Hg2).
      assert (Hne : forall p', g_pending (b_gate s) !! p' <> None -> g_pending g !! p' <> None).
      { intros p' H. destruct (decide (p' = p)) as [->|Hnp]; [congruence|]. by rewrite Hg1. }
      assert (Hin : forall p', Expired p' ∈ b_msgs s -> Expired p' ∈ rest).
      { intros p' H. rewrite Em in H. apply elem_of_cons in H as [H|H]; done. }
      split; unfold asked, kind; bcbn.
      * intros p' H. by apply Hne, K1.
      * intros p' n H. by apply Hne, (K2 p' n).
      * intros p' i' H He. assert (Hcase : (exists i0, g_pending (b_gate s) !! p' = Some i0 /\ i_expired i0 = false) \/ (p' = p /\ g_pending (b_gate s) !! p = None /\ ok = true)).
        { destruct (decide (p' = p)) as [->|Hnp]; [|left; exists i'; by rewrite <- Hg1]. rewrite Hi1 in H. injection H as ->. destruct (Hg2 He) as [?|?]; [by left|by right]. }
        destruct Hcase as [(i0 & H0 & He0)|(-> & H0 & ->)].
        -- destruct (K3 p' i0 H0 He0) as [[H'|[H'|H']]|H']; [left; by left|left; right; left; by apply Hin|left; by right; right|by right].
        -- left. destruct (K4 p [] rest H0 eq_refl) as [H'|[H'|H']]; [by left|right; by left|by right; right].
      * intros p' a b Hn Hab. destruct (decide (p' = p)) as [->|Hnp]; [congruence|]. rewrite Hg1 in Hn by done.
        apply (K4 p' (Completed p ok :: a) b Hn). rewrite Hab. done.
    + cbn [mbind option_bind] in E. injection E as <-.
      assert (Hg : forall p', (g_pending (b_gate s) !! p' = None -> g_pending (expire (b_gate s) p) !! p' = None) /\ (g_pending (b_gate s) !! p' <> None -> g_pending (expire (b_gate s) p) !! p' <> None)
        /\ (forall i', g_pending (expire (b_gate s) p) !! p' = Some i' -> i_expired i' = false -> p' <> p /\ g_pending (b_gate s) !! p' = Some i')).
      { intros p'. unfold expire. destruct (g_pending (b_gate s) !! p) as [i0|] eqn:Ep.
        - cbn [g_pending]. destruct (decide (p = p')) as [<-|Hnp].
          + rewrite lookup_insert, Ep. split; [done|]. split; [done|]. intros i' H He. by injection H as <-.
          + rewrite lookup_insert_ne by done. split; [done|]. split; [done|]. intros i' H He. split; [congruence|done].
        - split; [done|]. split; [done|]. intros i' H He. split; [congruence|done]. }
      split; unfold asked, kind; bcbn.
      * intros p' H. by apply Hg, K1.
      * intros p' n H. by apply Hg, (K2 p' n).
      * intros p' i' H He. destruct (Hg p') as (_ & _ & H3). destruct (H3 i' H He) as [Hnp H0].
        destruct (K3 p' i' H0 He) as [[H'|[H'|H']]|H']; [left; by left| |left; by right; right|by right].
        left. right. left. rewrite Em in H'. apply elem_of_cons in H' as [H'|H']; [congruence|done].
      * intros p' a b Hn Hab. assert (H0 : g_pending (b_gate s) !! p' = None).
        { destruct (g_pending (b_gate s) !! p') eqn:E0; [|done]. destruct (Hg p') as (_ & H2 & _). rewrite E0 in H2. by destruct H2. }
        apply (K4 p' (Expired p :: a) b H0). rewrite Hab. done.
Qed.

(** ** A device nothing is done for any more *)
Record dead (s : beg) (p : pid) (e : info) : Prop := mk_dead {
  d_gate : ginv (b_gate s);
  d_map : inv (b_map s);
  d_entry : g_pending (b_gate s) !! p = Some e;
  d_ask : forall t, ~ (p, t) ∈ b_asks s;
  d_boot : forall t x, ~ (p, t, x) ∈ b_boot s;
  d_who : forall n i, waiting_on (b_map s) n i -> exists p' b, b_who s !! n = Some (p', b) /\ p' <> p;
  d_len : length (b_who s) = length (pm_calls (b_map s));
  d_term : forall i q, pm_all (b_map s) !! i = Some q -> q_pid q = p -> q_term q = true;
  d_stop : forall i, i ∈ b_stopping s -> forall q, pm_all (b_map s) !! i = Some q -> q_pid q <> p;
  d_pid : forall i, i ∈ b_stopping s -> exists q, pm_all (b_map s) !! i = Some q;
  d_msgs : forall x, x ∈ b_msgs s -> msg_pid x <> p
}.
Definition closed_entry (e : info) : Prop := e = mk_info true false None \/ exists c, e = mk_info false false (Some c).

Lemma dead_poller s p e i f :
  (forall q, q_pid (f q) = q_pid q) -> (forall q, q_term q = true -> q_term (f q) = true) -> inv (on_poller (b_map s) i f) ->
  dead s p e -> dead (with_map (on_poller (b_map s) i f) s) p e.
Proof.
  intros H1 H2 Hm [D1 D2 D3 D4 D5 D6 D7 D8 D9 D10 D11].
  assert (Hl : forall j q, alter f i (pm_all (b_map s)) !! j = Some q -> exists q0, pm_all (b_map s) !! j = Some q0 /\ (q = q0 \/ q = f q0)).
  { intros j q Hq. destruct (decide (i = j)) as [<-|Hn]; [|rewrite list_lookup_alter_ne in Hq by done; eauto]. rewrite list_lookup_alter in Hq.
    destruct (pm_all (b_map s) !! i) as [q0|]; [|done]. injection Hq as <-. eauto. }
  split; bcbn; cbn [on_poller pm_all]; try done.
  - intros j q Hq Hp. destruct (Hl j q Hq) as (q0 & Hq0 & [->| ->]); [by apply (D8 j)|]. apply H2, (D8 j); [done|]. by rewrite <- H1.
  - intros j Hj q Hq. destruct (Hl j q Hq) as (q0 & Hq0 & [->| ->]); [by apply (D9 j)|]. rewrite H1. by apply (D9 j).
  - intros j Hj. destruct (D10 j Hj) as (q & Hq). destruct (decide (i = j)) as [<-|Hn]; [|exists q; by rewrite list_lookup_alter_ne].
    exists (f q). by rewrite list_lookup_alter, Hq.
Qed.
Lemma dead_rest s s' p e : b_gate s' = b_gate s -> b_map s' = b_map s -> b_who s' = b_who s -> b_asks s' = b_asks s -> b_boot s' = b_boot s ->
  (forall i, i ∈ b_stopping s' -> i ∈ b_stopping s \/ exists q, pm_all (b_map s) !! i = Some q /\ q_pid q <> p) ->
  (forall x, x ∈ b_msgs s' -> x ∈ b_msgs s \/ msg_pid x <> p) -> dead s p e -> dead s' p e.
Proof.
  intros E1 E2 E3 E4 E5 H1 H2 [D1 D2 D3 D4 D5 D6 D7 D8 D9 D10 D11]. split; rewrite ?E1, ?E2, ?E3, ?E4, ?E5; try done.
  - intros i Hi q Hq. destruct (H1 i Hi) as [Hi'|(q' & Hq' & Hp)]; [by apply (D9 i)|]. congruence.
  - intros i Hi. destruct (H1 i Hi) as [Hi'|(q' & Hq' & Hp)]; [by apply D10|by exists q'].
  - intros x Hx. destruct (H2 x Hx) as [Hx'|Hx']; [by apply D11|done].
Qed.
Lemma dead_halt s p e i : dead s p e -> dead (halt s i) p e.
Proof. intros H. apply dead_poller; [done|done|apply (inv_step _ (Terminate i)), H|done]. Qed.
Lemma dead_ensure s p e p' token since startup rows checked asks boot :
  p' <> p -> (forall t, (p, t) ∈ asks -> (p, t) ∈ b_asks s) -> (forall t x, (p, t, x) ∈ boot -> (p, t, x) ∈ b_boot s) ->
  dead s p e -> dead (mk_beg rows checked (b_gate s) asks (step (b_map s) (Ensure p' token since startup)) (b_who s ++ [(p', startup)]) (b_msgs s) boot (b_stopping s) (b_refused s)) p e.
Proof.
  intros Hp Ha Hb [D1 D2 D3 D4 D5 D6 D7 D8 D9 D10 D11]. pose proof (inv_step (b_map s) (Ensure p' token since startup) D2) as Hi. cbn [step] in *.
  assert (Hx : exists more cur x, ensure (b_map s) p' token since startup = mk_pmap (pm_all (b_map s) ++ more) cur (pm_calls (b_map s) ++ [x])
      /\ forall q, q ∈ more -> q_pid q = p').
  { destruct (ensure_cases (b_map s) p' token since startup D2) as [(i & _ & E)|(td & w & E)]; rewrite E.
    - exists []. rewrite app_nil_r. do 2 eexists. split; [done|]. intros q Hq. by apply elem_of_nil in Hq.
    - do 3 eexists. split; [done|]. intros q Hq. apply elem_of_list_singleton in Hq. by subst. }
  destruct Hx as (more & cur & x & E & Hmore). rewrite E in *.
  assert (Hl : forall j q, (pm_all (b_map s) ++ more) !! j = Some q -> pm_all (b_map s) !! j = Some q \/ q_pid q = p').
  { intros j q Hq. apply lookup_app_Some in Hq as [Hq|[_ Hq]]; [by left|]. right. apply Hmore. by eapply elem_of_list_lookup_2. }
  split; bcbn; cbn [pm_all pm_calls]; try done.
  - intros t H. by apply (D4 t), Ha.
  - intros t y H. by apply (D5 t y), Hb.
  - intros n i Hw. apply waiting_snoc_wait in Hw as [Hw|[-> _]].
    + destruct (D6 n i Hw) as (p2 & b & H & Hn). exists p2, b. split; [by apply lookup_app_l_Some|done].
    + exists p', startup. rewrite <- D7, lookup_app_r, Nat.sub_diag by lia. done.
  - rewrite !app_length. cbn. lia.
  - intros j q Hq Hpq. destruct (Hl j q Hq) as [Hq'|Hq']; [by apply (D8 j)|congruence].
  - intros j Hj q Hq. destruct (Hl j q Hq) as [Hq'|Hq']; [by apply (D9 j)|congruence].
  - intros j Hj. destruct (D10 j Hj) as (q & Hq). exists q. by apply lookup_app_l_Some.
Qed.

Lemma elem_of_delete_list {A} (x : A) (i : nat) (l : list A) : x ∈ delete i l -> x ∈ l.
Proof.
  revert i. induction l as [|y l IH]; intros i H; [done|]. destruct i as [|i]; cbn in H; [by apply elem_of_cons; right|].
  apply elem_of_cons in H as [->|H]; apply elem_of_cons; [by left|right]. by apply (IH i).
Qed.
Lemma dead_live s p e i : dead s p e -> live s i = true -> exists q, pm_all (b_map s) !! i = Some q /\ q_pid q <> p.
Proof.
  intros D H. unfold live in H. destruct (pm_all (b_map s) !! i) as [q|] eqn:Eq; [|done]. exists q. split; [done|]. intros Hp.
  rewrite (d_term _ _ _ D i q Eq Hp), andb_false_r in H. done.
Qed.
Lemma dead_announce s p e i q : pm_all (b_map s) !! i = Some q -> q_pid q <> p -> dead s p e -> dead (announce s i) p e.
Proof.
  intros Hq Hp. unfold announce. rewrite Hq. apply dead_rest; try done; [by left|]. bcbn. intros x Hx. apply elem_of_app in Hx as [Hx|Hx]; [by left|].
  apply elem_of_list_singleton in Hx. subst x. by right.
Qed.

Lemma dead_step s a s' p e : closed_entry e -> bstep s a = Some s' -> dead s p e -> dead s' p e.
Proof.
  intros He E D. pose proof D as [D1 D2 D3 D4 D5 D6 D7 D8 D9 D10 D11]. destruct a as [token p' since|token|i|n|ok|i|n report|i|i|i|i|i|i|i|i|]; cbn [bstep] in E.
  - destruct (b_rows s !! token); injection E as <-; [done|]. by apply (dead_rest s); auto.
  - destruct (b_rows s !! token) as [[p' ?]|]; injection E as <-; [|done]. by apply (dead_rest s); auto.
  - destruct (b_checked s !! i) as [[p' token]|]; [|injection E as <-; done].
    assert (Hne : (g_pending (b_gate s) !! p' = None \/ i_expired (entry (b_gate s) p') = true) -> p' <> p).
    { intros H ->. destruct H as [H|H]; [congruence|]. rewrite (entry_Some _ _ _ D3) in H. destruct He as [->|[c ->]]; done. }
    destruct (ginv_call _ p' D1) as (g' & Eg & Hg). rewrite Eg in E. cbn [mbind option_bind] in E. injection E as <-.
    destruct (call_cases _ p' D1) as [(Hd & Hx & Ec)|[(c & Hp & Ec)|(Hor & cl & Hcl & Ec)]]; rewrite Ec in Eg; apply (inj Some) in Eg; subst g'.
    + rewrite decide_True, app_nil_r by done. by split.
    + rewrite decide_True, app_nil_r by done. by split.
    + specialize (Hne Hor). rewrite decide_False by (cbn [g_asked]; rewrite app_length; cbn [length]; lia). split; try done; bcbn.
      * cbn [g_pending]. by rewrite lookup_insert_ne.
      * intros t H. apply elem_of_app in H as [H|H]; [by apply (D4 t)|]. apply elem_of_list_singleton in H. congruence.
  - injection E as <-. destruct (ginv_step _ (Wake n) D1) as (g' & Eg & Hg). injection Eg as <-. split; try done. bcbn. unfold wake.
    destruct (g_calls (b_gate s) !! n) as [[? [c|]]|]; try done. by destruct (bool_decide _).
  - destruct (b_asks s) as [|[p' token] rest] eqn:Ea; [by injection E as <-|].
    assert (Hne : p' <> p) by (intros ->; apply (D4 token); apply elem_of_cons; by left).
    assert (Hrest : forall t, ~ (p, t) ∈ rest) by (intros t H; apply (D4 t); apply elem_of_cons; by right).
    destruct (if ok then b_rows s !! token else None) as [[p2 since]|]; [destruct (decide (p2 = p'))|]; injection E as <-; [|by split..].
    apply dead_ensure; try done. intros t H. by destruct (Hrest t).
  - destruct (b_boot s !! i) as [[[p' token] since]|] eqn:Eb; injection E as <-; [|done].
    assert (Hne : p' <> p) by (intros ->; apply (D5 token since); by eapply elem_of_list_lookup_2).
    apply dead_ensure; try done. intros t x H. by apply elem_of_delete_list in H.
  - destruct (returns_cases (b_map s) n) as [Er|(i & cr & ok & Hw & Er & _)].
    + rewrite Er in E. destruct (pm_calls (b_map s) !! n) as [[?|??|???]|]; injection E as <-; done.
    + rewrite Er in E. destruct (D6 n i Hw) as (p' & b & Hb & Hne). cbn [pm_calls] in E. rewrite list_lookup_insert, Hb in E by (by eapply waiting_lt).
      assert (Hs : s' = mk_beg (b_rows s) (b_checked s) (b_gate s) (b_asks s) (returns (b_map s) n) (b_who s)
                  (b_msgs s ++ [Completed p' (if b then report else ok)]) (b_boot s) (b_stopping s) (b_refused s)).
      { rewrite Er. destruct Hw as [Hw|[w Hw]]; rewrite Hw in E; by injection E as <-. }
      subst s'. pose proof (inv_step _ (Return n) D2) as Hi. cbn [step] in Hi. split; bcbn; rewrite ?Er in *; cbn [pm_all pm_calls]; try done.
      * intros n' j Hj. apply (D6 n' j). destruct (decide (n = n')) as [<-|Hn].
        -- destruct Hj as [Hj|[w Hj]]; cbn [pm_calls] in Hj; rewrite list_lookup_insert in Hj by (by eapply waiting_lt); done.
        -- destruct Hj as [Hj|[w Hj]]; cbn [pm_calls] in Hj; rewrite list_lookup_insert_ne in Hj by done; [by left|right; by exists w].
      * by rewrite insert_length.
      * intros x Hx. apply elem_of_app in Hx as [Hx|Hx]; [by apply D11|]. apply elem_of_list_singleton in Hx. by subst x.
  - injection E as <-. apply dead_poller; [| |apply (inv_step _ (Sync i)), D2|done]; intros q; unfold sync; by destruct (q_run q).
  - injection E as <-. apply dead_poller; [| |apply (inv_step _ (LoopEnd i)), D2|done]; intros q; unfold loop_end; by destruct (q_run q && q_term q).
  - injection E as <-. apply dead_poller; [| |apply (inv_step _ (Panic i)), D2|done]; intros q; unfold panic; by destruct (q_run q).
  - destruct (live s i) eqn:El; injection E as <-; [|done]. destruct (dead_live s p e i D El) as (q & Hq & Hp). by apply dead_halt, (dead_announce s p e i q).
  - destruct (live s i) eqn:El; injection E as <-; [|done]. destruct (dead_live s p e i D El) as (q & Hq & Hp).
    apply (dead_rest (announce s i)); auto. by apply (dead_announce s p e i q).
  - case_bool_decide; injection E as <-; [|done]. apply (dead_rest (halt s i)); auto. by apply dead_halt.
  - destruct (bool_decide _ && _) eqn:Eg; injection E as <-; [|done]. apply andb_true_iff in Eg as [Eg Et]. apply bool_decide_eq_true in Eg.
    apply lookup_lt_is_Some in Eg as [q Eq]. unfold terminated in Et. rewrite Eq in Et. apply negb_true_iff in Et.
    apply (dead_rest (halt s i)); auto; [|by apply dead_halt]. intros j Hj. bcbn_in Hj. apply elem_of_cons in Hj as [->|Hj]; [right|by left].
    exists (terminate q). unfold halt. bcbn. cbn [step on_poller pm_all]. rewrite list_lookup_alter, Eq. split; [done|]. cbn. intros Hp. rewrite (D8 i q Eq Hp) in Et. done.
  - case_bool_decide as Hst; injection E as <-; [|done]. destruct (D10 i Hst) as (q & Hq). apply (dead_rest (announce s i)); auto.
    + intros j Hj. left. bcbn_in Hj. apply elem_of_list_In, filter_In in Hj as [Hj _]. by apply elem_of_list_In.
    + apply (dead_announce s p e i q); [done|by apply (D9 i)|done].
  - destruct (b_msgs s) as [|x rest] eqn:Em; [by injection E as <-|].
    assert (Hx : msg_pid x <> p) by (apply D11; apply elem_of_cons; by left).
    assert (Hrest : forall y, y ∈ rest -> msg_pid y <> p) by (intros y Hy; apply D11; apply elem_of_cons; by right).
    destruct x as [p' ok|p'].
    + destruct (ginv_step _ (Complete p' ok) D1) as (g' & Eg & Hg). cbn [gstep] in Eg. rewrite Eg in E. cbn [mbind option_bind] in E. injection E as <-.
      split; try done. bcbn. cbn in Hx. unfold complete in Eg. destruct (g_pending (b_gate s) !! p') as [i0|].
      * destruct (i_done i0); [by injection Eg as <-|]. destruct (close_ch _ _); cbn in Eg; [|done]. injection Eg as <-. cbn [g_pending]. by rewrite lookup_insert_ne.
      * injection Eg as <-. cbn [g_pending]. by rewrite lookup_insert_ne.
    + destruct (ginv_step _ (Expire p') D1) as (g' & Eg & Hg). cbn [gstep] in Eg. injection Eg as <-. cbn [mbind option_bind] in E. injection E as <-.
      split; try done. bcbn. cbn in Hx. unfold expire. destruct (g_pending (b_gate s) !! p') as [i0|]; [|done]. cbn [g_pending]. by rewrite lookup_insert_ne.
Qed.
Lemma dead_run l : forall s s' p e, closed_entry e -> brun s l = Some s' -> dead s p e -> dead s' p e.
Proof.
  induction l as [|a l IH]; intros s s' p e He E D; cbn [brun] in E; [by injection E as <-|].
  destruct (bstep s a) as [s1|] eqn:Ea; cbn [mbind option_bind] in E; [|done]. apply (IH s1 s'); [done|done|]. by apply (dead_step s a).
Qed.
Lemma dead_not_polled s p e : dead s p e -> ~ exists i, active (b_map s) p i.
Proof. intros D (i & q & Hq & Hp & Ht). rewrite (d_term _ _ _ D i q Hq Hp) in Ht. done. Qed.

(** ** Requests for a device nothing is done for *)
Lemma gate_cases s a s' : bstep s a = Some s' ->
  g_calls (b_gate s') = g_calls (b_gate s) \/ (exists p, call (b_gate s) p = Some (b_gate s')) \/ (exists n, b_gate s' = wake (b_gate s) n).
Proof.
  intros E. destruct a as [token p' since|token|i|n|ok|i|n report|i|i|i|i|i|i|i|i|]; cbn [bstep] in E.
  - destruct (b_rows s !! token); injection E as <-; by left.
  - destruct (b_rows s !! token) as [[p' ?]|]; injection E as <-; by left.
  - destruct (b_checked s !! i) as [[p' token]|]; [|injection E as <-; by left]. destruct (call (b_gate s) p') as [g|] eqn:Eg; cbn [mbind option_bind] in E; [|done].
    injection E as <-. right. left. by exists p'.
  - injection E as <-. right. right. by exists n.
  - destruct (b_asks s) as [|[p' token] rest]; [injection E as <-; by left|].
    destruct (if ok then b_rows s !! token else None) as [[p2 since]|]; [destruct (decide (p2 = p'))|]; injection E as <-; by left.
  - destruct (b_boot s !! i) as [[[p' token] since]|]; injection E as <-; by left.
  - left. destruct (pm_calls (b_map s) !! n) as [[?|??|???]|]; destruct (pm_calls (returns (b_map s) n) !! n) as [[?|??|???]|]; destruct (b_who s !! n) as [[??]|]; by injection E as <-.
  - injection E as <-; by left.
  - injection E as <-; by left.
  - injection E as <-; by left.
  - left. destruct (live s i); injection E as <-; [|done]. unfold halt. bcbn. by rewrite (proj1 (announce_rest s i)).
  - left. destruct (live s i); injection E as <-; [|done]. bcbn. by rewrite (proj1 (announce_rest s i)).
  - case_bool_decide; injection E as <-; by left.
  - destruct (_ && _); injection E as <-; by left.
  - left. case_bool_decide; injection E as <-; [|done]. bcbn. by rewrite (proj1 (announce_rest s i)).
  - left. destruct (b_msgs s) as [|x rest]; [by injection E as <-|]. destruct x as [p' ok|p'].
    + destruct (complete (b_gate s) p' ok) as [g|] eqn:Eg; cbn [mbind option_bind] in E; [|done]. injection E as <-. by apply (complete_calls _ p' ok).
    + cbn [mbind option_bind] in E. injection E as <-. bcbn. by rewrite expire_calls.
Qed.
Definition stuck (s : beg) (p : pid) (n c : nat) : Prop :=
  g_calls (b_gate s) !! n = Some (p, Waiting c) /\ forall m x, n <= m -> g_calls (b_gate s) !! m = Some (p, x) -> x = Waiting c.
Lemma stuck_step s a s' p n c : bstep s a = Some s' -> dead s p (mk_info false false (Some c)) -> stuck s p n c -> stuck s' p n c.
Proof.
  intros E D [H1 H2]. pose proof (d_gate _ _ _ D) as Hg. pose proof (d_entry _ _ _ D) as He.
  destruct (gate_cases s a s' E) as [Ec|[(p' & Ec)|(k & Ec)]].
  - unfold stuck. by rewrite Ec.
  - assert (Hx : exists x, g_calls (b_gate s') = g_calls (b_gate s) ++ [(p', x)] /\ (p' = p -> x = Waiting c)).
    { destruct (call_cases _ p' Hg) as [(Hd & Hx & Eq)|[(c' & Hp & Eq)|(Hor & cl & Hcl & Eq)]]; rewrite Ec in Eq; apply (inj Some) in Eq; rewrite Eq; eexists; (split; [done|]); intros ->.
      - rewrite (entry_Some _ _ _ He) in Hd. done.
      - rewrite He in Hp. congruence.
      - destruct Hor as [Hor|Hor]; [congruence|]. rewrite (entry_Some _ _ _ He) in Hor. done. }
    destruct Hx as (x & Hx & Hxp). split; rewrite Hx.
    + by apply lookup_app_l_Some.
    + intros m y Hm Hy. apply app_one_lookup in Hy as [Hy|[_ Hy]]; [by apply (H2 m)|]. injection Hy as <- ->. by apply Hxp.
  - assert (Hopen : ~ c ∈ g_closed (b_gate s)) by (destruct Hg as (G1 & _); by destruct (G1 p _ He) as (_ & _ & ?)).
    unfold stuck. rewrite Ec. unfold wake. destruct (g_calls (b_gate s) !! k) as [[p' [c'|e]]|] eqn:Ek; [|done..]. case_bool_decide as Hc; [|done]. cbn [g_calls].
    destruct (decide (k = n)) as [->|Hkn]; [congruence|]. split; [by rewrite list_lookup_insert_ne|]. intros m x Hm Hx. destruct (decide (k = m)) as [->|Hkm].
    + rewrite list_lookup_insert in Hx by (by eapply lookup_lt_Some). injection Hx as -> _. specialize (H2 m _ Hm Ek). congruence.
    + rewrite list_lookup_insert_ne in Hx by done. by apply (H2 m).
Qed.
Lemma stuck_run l : forall s s' p n c, brun s l = Some s' -> dead s p (mk_info false false (Some c)) -> stuck s p n c -> stuck s' p n c.
Proof.
  induction l as [|a l IH]; intros s s' p n c E D Hs; cbn [brun] in E; [by injection E as <-|].
  destruct (bstep s a) as [s1|] eqn:Ea; cbn [mbind option_bind] in E; [|done]. apply (IH s1); [done| |by apply (stuck_step s a)].
  apply (dead_step s a); [right; by exists c|done|done].
Qed.

(** ** Runs *)
Lemma run_binv l : forall s, every_step unpanicked s l -> binv s -> exists s', brun s l = Some s' /\ binv s'.
Proof.
  induction l as [|a l IH]; intros s Hu Hv; [by exists s|]. destruct Hu as [Hu Hl]. destruct (binv_step s a Hu Hv) as (s1 & E & Hv1).
  cbn [brun]. rewrite E. cbn [mbind option_bind]. apply IH; [by apply Hl|done].
Qed.
Lemma run_flies l : forall s s', every_step unpanicked s l -> every_step token_there s l -> brun s l = Some s' -> binv s -> flies s -> binv s' /\ flies s'.
Proof.
  induction l as [|a l IH]; intros s s' Hu Ht E Hv Hf; cbn [brun] in E; [by injection E as <-|]. destruct Hu as [Hu Hul], Ht as [Ht Htl].
  destruct (binv_step s a Hu Hv) as (s1 & E1 & Hv1). rewrite E1 in E. cbn [mbind option_bind] in E.
  apply (IH s1); [by apply Hul|by apply Htl|done|done|]. by apply (flies_step s a).
Qed.
Lemma run_kinv l : forall s s', every_step unpanicked s l -> every_step token_there s l -> every_step at_once s l -> every_step truthful s l ->
  brun s l = Some s' -> binv s -> kinv s -> binv s' /\ kinv s'.
Proof.
  induction l as [|a l IH]; intros s s' Hu Ht Ho Htr E Hv Hk; cbn [brun] in E; [by injection E as <-|]. destruct Hu as [Hu Hul], Ht as [Ht Htl], Ho as [Ho Hol], Htr as [Htr Htrl].
  destruct (binv_step s a Hu Hv) as (s1 & E1 & Hv1). rewrite E1 in E. cbn [mbind option_bind] in E.
  apply (IH s1); [by apply Hul|by apply Htl|by apply Hol|by apply Htrl|done|done|]. by apply (kinv_step s a).
Qed.
