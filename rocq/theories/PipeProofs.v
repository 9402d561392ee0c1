(** Proofs about the way of an event from a poller to a client. *)
From Verif Require Import Prelude AccumModel AccumSpec AccumProofs AccumProofs2 AccumProofs4 AccumProofs5 AccumProofs6
  StoreModel StoreSpec StoreProofs StoreProps RequestModel SubModel SubSpec FeedModel FeedSpec FeedProofs PipeModel PipeSpec.
From Verif Require TxnModel.
Open Scope string_scope. Open Scope list_scope. Open Scope Z_scope.

(** ** The store *)

Definition lab (e : event) : Z * string * string * bool := (e_nid e, e_id e, e_room e, e_isstate e).
Lemma strip_lab l l' : map strip l = map strip l' -> map lab l = map lab l'.
Proof. intros H. apply (f_equal (map lab)) in H. by rewrite !map_map in H. Qed.

Lemma insert_flags b l : forall d d1 m, insert d l = (d1, m) -> Forall (fun e => e_isstate e = b) l ->
  exists ext, d_events d1 = d_events d ++ ext /\ Forall (fun e => e_isstate e = b /\ d_seq d < e_nid e) ext.
Proof.
  induction l as [|e l IH]; intros d d1 m Hins Hf; cbn [insert] in Hins.
  { injection Hins as <- <-. exists []. by rewrite app_nil_r. }
  inversion Hf as [|? ? He Hf']; subst. destruct (known (d_events d) (e_id e)).
  - destruct (IH _ _ _ Hins Hf') as (ext & H1 & H2). exists ext. split; [done|]. eapply Forall_impl; [exact H2|].
    intros x [H3 H4]. split; [done|]. cbn in H4. lia.
  - destruct (insert _ l) as [d' m'] eqn:E. injection Hins as <- <-.
    destruct (IH _ _ _ E Hf') as (ext & H1 & H2). exists (set_nid (d_seq d + 1) e :: ext). split.
    + rewrite H1. cbn. by rewrite <- app_assoc.
    + constructor; [cbn; split; [done|lia]|]. eapply Forall_impl; [exact H2|]. intros x [H3 H4]. split; [done|]. cbn in H4. lia.
Qed.
Lemma ensure_flag rm b r e : ensure_fields rm b r = Some e -> e_isstate e = b.
Proof.
  unfold ensure_fields. destruct (String.eqb (r_id r) ""); [done|]. destruct (r_type r); [|done].
  destruct (_ && _); [destruct (String.eqb _ ""); [done|]|]; by intros [= <-].
Qed.
Lemma dedup_flag rm prev l : forall first seen e, e ∈ dedup rm prev first seen l -> e_isstate e = false.
Proof.
  induction l as [|r l IH]; intros first seen e; cbn [dedup]; [intros H; by apply elem_of_nil in H|].
  destruct (ensure_fields rm false r) as [x|] eqn:Ee; [|apply IH]. apply ensure_flag in Ee.
  destruct (existsb _ _); [apply IH|]. intros He. apply elem_of_cons in He as [-> |He]; [|by eapply IH].
  by destruct (_ && _).
Qed.
Lemma numbered_flag p l l' : numbered p l l' -> Forall (fun e => e_isstate e = false) l -> Forall (fun e => e_isstate e = false) l'.
Proof. induction 1 as [p|p q l l' Hle H IH|p n e l l' Hlt H IH]; intros Hf; [done|by apply IH|]. inversion Hf; subst. constructor; [done|by apply IH]. Qed.
Lemma new_rows_flag rm t d new : new_rows rm t d new -> Forall (fun e => e_isstate e = false) new.
Proof.
  unfold new_rows. intros H. eapply numbered_flag; [exact H|]. apply Forall_forall. intros e He.
  unfold fresh in He. apply elem_of_list_In, filter_In in He as [He _]. apply elem_of_list_In in He.
  set (inc := dedup rm (tl_prev t) true [] (tl_events t)) in *.
  assert (Hin : e_isstate e ∈ map e_isstate (filter_new (d_events d) inc)).
  { assert (map e_isstate (mark_gap (tl_limited t) inc (filter_new (d_events d) inc)) = map e_isstate (filter_new (d_events d) inc)) as <-.
    { unfold mark_gap. destruct (filter_new (d_events d) inc) as [|x l], inc as [|i inc']; try done. by destruct (_ && _). }
    apply elem_of_list_fmap. eauto. }
  apply elem_of_list_fmap in Hin as (y & -> & Hy). destruct (filter_new_sub (d_events d) inc) as (pre & Heq).
  apply (dedup_flag rm (tl_prev t) (tl_events t) true []). fold inc. rewrite Heq. apply elem_of_app. by right.
Qed.

Section Ops.
Context (ord : list Z -> list Z) (redact : raw -> raw -> raw -> raw).
Hypothesis Hred : redact_ok redact.

(** What is published about a write. *)
Definition news (d : db) (o : op) : list (string * list Z) :=
  match o with
  | Accumulate rm t => match fst (accumulate redact rm t d) with
                       | Ok r => if ar_new r =? 0 then [] else [(rm, ar_nids r)]
                       | Fail _ => []
                       end
  | _ => []
  end.

Lemma store_step o d : base0 d -> exists new, map lab (d_events (run ord redact o d)) = map lab (d_events d) ++ map lab new /\
  base0 (run ord redact o d) /\ d_seq d <= d_seq (run ord redact o d) /\
  (forall e, e ∈ new -> d_seq d < e_nid e) /\
  ((news d o = [] /\ Forall (fun e => e_isstate e = true) new)
   \/ exists rm, news d o = [(rm, map e_nid new)] /\ Forall (fun e => e_isstate e = false /\ e_room e = rm) new).
Proof.
  intros Hb. pose proof (proj1 (run_ids ord redact Hred o d Hb)) as Hb'.
  assert (Hsame : forall d', d_events d' = d_events d -> base0 d' -> d_seq d <= d_seq d' -> news d o = [] ->
    exists new, map lab (d_events d') = map lab (d_events d) ++ map lab new /\ base0 d' /\ d_seq d <= d_seq d' /\
      (forall e, e ∈ new -> d_seq d < e_nid e) /\
      ((news d o = [] /\ Forall (fun e => e_isstate e = true) new)
       \/ exists rm, news d o = [(rm, map e_nid new)] /\ Forall (fun e => e_isstate e = false /\ e_room e = rm) new)).
  { intros d' He H1 H2 H3. exists []. split; [by rewrite He, app_nil_r|]. split; [done|]. split; [done|].
    split; [intros e Hx; by apply elem_of_nil in Hx|]. by left. }
  destruct o as [rm st|rm t|n|u rm i|u rm]; try (apply Hsame; [done|done|cbn; lia|done]).
  - cbn [run] in *. revert Hb'. unfold initialise. destruct st as [|r st]; [intros Hb'; apply Hsame; [done|done|cbn; lia|done]|]. unfold init_txn.
    destruct (Nat.eqb _ 0); [intros Hb'; apply Hsame; [done|done|cbn; lia|done]|].
    destruct (_ && _); [intros Hb'; apply Hsame; [done|done|cbn; lia|done]|].
    destruct (insert d (filter_ensure rm (r :: st))) as [d1 m] eqn:Eins.
    destruct (insert_grow _ _ _ _ Hb Eins) as (Hb1 & Hq & _).
    destruct (insert_flags true _ _ _ _ Eins) as (ext & He & Hf).
    { apply Forall_forall. intros e He. unfold filter_ensure in He. apply elem_of_list_omap in He as (x & _ & Hx). by eapply ensure_flag. }
    assert (Hgood : forall d', d_events d' = d_events d1 -> d_seq d' = d_seq d1 -> base0 d' -> exists new,
      map lab (d_events d') = map lab (d_events d) ++ map lab new /\ base0 d' /\ d_seq d <= d_seq d' /\
      (forall e, e ∈ new -> d_seq d < e_nid e) /\
      ((news d (Initialise rm (r :: st)) = [] /\ Forall (fun e => e_isstate e = true) new)
       \/ exists rm', news d (Initialise rm (r :: st)) = [(rm', map e_nid new)] /\ Forall (fun e => e_isstate e = false /\ e_room e = rm') new)).
    { intros d' He' Hq' Hb'. exists ext. split; [by rewrite He', He, map_app|]. split; [done|]. split; [lia|].
      rewrite Forall_forall in Hf. split; [intros e Hx; by apply Hf|]. left. split; [done|]. apply Forall_forall. intros e Hx. by apply Hf. }
    destruct (Nat.eqb _ 0); [by apply Hgood|].
    destruct (if _ : bool then _ else _) as [cur|b]; [|intros Hb'; apply Hsame; [done|done|cbn; lia|done]].
    destruct (sm_nids _ _) as [mem oth]. unfold insert_snap. by apply Hgood.
  - pose proof (acc_txn0 redact Hred rm t d Hb) as Hok. cbn [run news] in *. unfold accumulate in *.
    destruct (tl_events t) eqn:Et; [apply Hsame; [done|done|cbn; lia|done]|].
    destruct (acc_txn redact rm t d) as [[r'|b] d'] eqn:Ea; [|apply Hsame; [done|done|cbn; lia|done]]. cbn [fst snd] in *.
    destruct Hok as (_ & Hq & [[(He & _) ->]|(new & Hnew & Hne & Hst & _ & _ & Hn & Hnids)]).
    + apply Hsame; [done|done|lia|done].
    + exists new. split; [rewrite <- map_app; by apply strip_lab|]. split; [done|]. split; [done|].
      split; [intros e Hx; by apply (numbered_gt _ _ _ Hnew)|]. right. exists rm.
      destruct (Z.eqb_spec (ar_new r') 0) as [H0|_]; [destruct new; [done|cbn in Hn; lia]|]. split; [by rewrite Hnids|].
      pose proof (new_rows_flag _ _ _ _ Hnew) as Hfl. rewrite Forall_forall in *. intros e Hx. split; [by apply Hfl|].
      destruct (news_ok0 rm t (d_events d)) as [_ Hroom]. cbv zeta in Hroom. unfold new_rows in Hnew. cbv zeta in Hnew.
      assert (Hin : e_room e ∈ map e_room new) by (apply elem_of_list_fmap; eauto).
      apply numbered_nonid in Hnew. apply (f_equal (map e_room)) in Hnew. rewrite !map_map in Hnew.
      change (fun x => e_room (set_nid 0 x)) with e_room in Hnew. rewrite Hnew in Hin.
      apply elem_of_list_fmap in Hin as (y & -> & Hy). unfold fresh in Hy. apply elem_of_list_In, filter_In in Hy as [Hy _].
      apply Hroom. by apply elem_of_list_In.
Qed.
End Ops.

(** ** The stored timeline of a room *)

Definition trows (l : list event) (rm : string) : list (Z * string) :=
  map (fun e => (e_nid e, e_id e)) (List.filter (fun e => String.eqb (e_room e) rm && negb (e_isstate e)) l).
Lemma trows_lab rm : forall l l', map lab l = map lab l' -> trows l rm = trows l' rm.
Proof.
  induction l as [|e l IH]; intros [|e' l']; cbn; try done. intros H. injection H as H1 H2 H3 H4 H5.
  unfold trows. cbn [List.filter]. rewrite H3, H4. pose proof (IH _ H5) as H. unfold trows in H.
  destruct (_ && _); cbn [map]; [by rewrite H1, H2, H|done].
Qed.
Lemma trows_app l1 l2 rm : trows (l1 ++ l2) rm = trows l1 rm ++ trows l2 rm.
Proof. unfold trows. by rewrite List.filter_app, map_app. Qed.
Lemma trows_state l rm : Forall (fun e => e_isstate e = true) l -> trows l rm = [].
Proof. unfold trows. induction 1 as [|e l He H IH]; [done|]. cbn [List.filter]. rewrite He, andb_false_r. done. Qed.
Lemma trows_room l rm rm' : Forall (fun e => e_isstate e = false /\ e_room e = rm') l ->
  trows l rm = if String.eqb rm' rm then map (fun e => (e_nid e, e_id e)) l else [].
Proof.
  unfold trows. induction 1 as [|e l [H1 H2] H IH]; [by destruct (String.eqb rm' rm)|]. cbn [List.filter]. rewrite H1, H2.
  destruct (String.eqb rm' rm); cbn [andb negb map]; [by rewrite IH|done].
Qed.
Lemma trows_sorted l rm : sorted l -> StronglySorted Z.lt (map fst (trows l rm)).
Proof. intros H. unfold trows. rewrite map_map. cbn. apply (sorted_filter (fun e => String.eqb (e_room e) rm && negb (e_isstate e))) in H. exact H. Qed.
Lemma trows_in l rm p : p ∈ trows l rm -> exists e, e ∈ l /\ p = (e_nid e, e_id e) /\ e_room e = rm /\ e_isstate e = false.
Proof.
  unfold trows. intros H. apply elem_of_list_fmap in H as (e & -> & He). apply elem_of_list_In, filter_In in He as [He H].
  apply andb_true_iff in H as [H1 H2]. apply String.eqb_eq in H1. apply negb_true_iff in H2. exists e. split; [by apply elem_of_list_In|done].
Qed.

(** Up to a position. *)
Definition upto (n : Z) (l : list (Z * string)) : list (Z * string) := List.filter (fun p => p.1 <=? n) l.
Lemma upto_app n a b : upto n (a ++ b) = upto n a ++ upto n b.
Proof. apply List.filter_app. Qed.
Lemma upto_all n l : Forall (fun p => p.1 <= n) l -> upto n l = l.
Proof. unfold upto. induction 1 as [|p l H _ IH]; [done|]. cbn [List.filter]. destruct (Z.leb_spec p.1 n); [by rewrite IH|lia]. Qed.
Lemma upto_none n l : Forall (fun p => n < p.1) l -> upto n l = [].
Proof. unfold upto. induction 1 as [|p l H _ IH]; [done|]. cbn [List.filter]. destruct (Z.leb_spec p.1 n); [lia|done]. Qed.
Lemma upto_split n l : StronglySorted Z.lt (map fst l) -> exists rest, l = upto n l ++ rest /\ Forall (fun p => n < p.1) rest.
Proof.
  unfold upto. induction l as [|p l IH]; intros Hs; [by exists []|]. cbn [map] in Hs. apply StronglySorted_inv in Hs as [Hs Hf].
  cbn [List.filter]. destruct (Z.leb_spec p.1 n) as [H|H].
  - destruct (IH Hs) as (rest & H1 & H2). exists rest. split; [cbn; by f_equal|done].
  - exists (p :: l). assert (Hall : Forall (fun q => n < q.1) l).
    { apply Forall_forall. intros q Hq. assert (p.1 < q.1); [|lia]. apply (proj1 (Forall_forall _ _) Hf). apply elem_of_list_fmap. eauto. }
    split; [|by constructor]. pose proof (upto_none n l Hall) as Hn. unfold upto in Hn. by rewrite Hn.
Qed.

(** A lower bound on a sorted list leaves a tail of it. *)
Lemma filter_above (P : event -> bool) (lo : Z) l : sorted l ->
  exists k, List.filter (fun e => (lo <? e_nid e) && P e) l = drop k (List.filter P l).
Proof.
  unfold sorted, nids. induction l as [|e l IH]; intros Hs; [by exists 0%nat|]. cbn [map] in Hs. apply StronglySorted_inv in Hs as [Hs Hf].
  cbn [List.filter]. destruct (Z.ltb_spec lo (e_nid e)) as [H|H]; cbn [andb].
  - assert (Hall : List.filter (fun e => (lo <? e_nid e) && P e) l = List.filter P l).
    { apply filter_ext_in. intros x Hx. apply elem_of_list_In in Hx. rewrite Forall_forall in Hf.
      assert (e_nid e < e_nid x) by (apply Hf, elem_of_list_fmap; eauto). destruct (Z.ltb_spec lo (e_nid x)); [done|lia]. }
    exists 0%nat. rewrite Hall. cbn. by destruct (P e).
  - destruct (IH Hs) as (k & Hk). destruct (P e); [exists (S k)|exists k]; by rewrite Hk.
Qed.
Lemma cut_gap_prefix l : exists k, cut_gap l = take k l.
Proof.
  induction l as [|e l (k & IH)]; [by exists 0%nat|]. cbn. destruct (e_missing e); [by exists 1%nat|]. exists (S k). cbn. by rewrite IH.
Qed.
Lemma rev_take {A} k (l : list A) : exists j, rev (take k (rev l)) = drop j l.
Proof.
  exists (length l - k)%nat. rewrite List.firstn_rev, rev_involutive. done.
Qed.

Definition tkey (t : tent) : Z * string := (t_nid t, t_id t).
(** What a room is like after it was sent with initial: true at [pos]. *)
Definition loaded (d : db) (rm : string) (pos n : Z) (tl : list tent) : Prop :=
  (n = 0 /\ tl = []) \/
  (0 < n /\ exists k id, map tkey tl = drop k (upto pos (trows (d_events d) rm)) /\ last (upto pos (trows (d_events d) rm)) = Some (n, id)).

Lemma discard_nobody l : discard_ignored (should_ignore []) l = l.
Proof.
  unfold discard_ignored. induction l as [|e l IH]; [done|]. cbn [List.filter]. rewrite IH.
  change (should_ignore [] (r_sender (e_json e))) with false. by rewrite orb_true_r.
Qed.

Lemma trows_upto pos l rm : upto pos (trows l rm) =
  map (fun e => (e_nid e, e_id e)) (List.filter (fun e => (e_nid e <=? pos) && String.eqb (e_room e) rm && negb (e_isstate e)) l).
Proof.
  unfold upto, trows. induction l as [|e l IH]; [done|]. cbn [List.filter].
  destruct (String.eqb (e_room e) rm && negb (e_isstate e)) eqn:E.
  - cbn [map List.filter fst]. rewrite <- andb_assoc, E, andb_true_r. destruct (e_nid e <=? pos); cbn [map]; by rewrite IH.
  - rewrite <- andb_assoc, E, andb_false_r. done.
Qed.

Lemma load_gives ord redact env d i rm pos : redact_ok redact -> stored ord redact d -> 0 <= fe_max env -> 0 < pos ->
  i_room i = rm -> i_db i <> None -> 0 <= i_limit i -> i_ignored i = [] -> in_room (d_events d) (fe_user env) rm pos ->
  exists l, load_timeline env pos (at_db d i) = Some l /\ loaded d rm pos (le_nid l) (timeline_of (Some l)).
Proof.
  intros Hre Hst Hmax Hpos Hrm Hdb Hlim Hign Hin. pose proof (StoreProps.stored_base _ _ _ Hre Hst) as Hb.
  unfold load_timeline, at_db. cbn [i_db i_room i_ignored i_limit]. destruct (i_db i) as [d0|]; [|done]. rewrite Hign, Hrm.
  unfold lazy_load_timeline. destruct (visible_range d (fe_user env) rm 0 pos) as [[a b]|] eqn:Ev.
  2:{ exfalso. destruct (C27_no_range _ _ _ _ _ _ _ pos Hre Hst (conj (Z.le_refl 0) (Z.lt_le_incl _ _ Hpos)) Ev) as [Hno _]; [lia|done]. }
  assert (b = pos) as ->.
  { destruct (C27_visible_range _ _ _ _ _ _ _ _ _ Hre Hst (conj (Z.le_refl 0) (Z.lt_le_incl _ _ Hpos)) Ev) as (_ & _ & _ & H).
    apply (H pos); [lia|]. intros r Hr. by replace r with pos by lia. }
  unfold latest_in_room. rewrite Ev.
  set (lim := if negb (fe_max env =? 0) && (fe_max env <? i_limit i) then fe_max env else i_limit i).
  assert (Hl : 0 <= lim) by (unfold lim; destruct (_ && _); lia).
  destruct (Z.ltb_spec lim 0); [lia|]. eexists. split; [reflexivity|]. cbn [le_nid timeline_of le_timeline]. rewrite discard_nobody.
  unfold latest_between. set (F := List.filter _ (d_events d)).
  assert (HF : exists k, map (fun e => (e_nid e, e_id e)) F = drop k (upto pos (trows (d_events d) rm))).
  { rewrite trows_upto. unfold F. destruct (filter_above (fun e => (e_nid e <=? pos) && String.eqb (e_room e) rm && negb (e_isstate e)) (a - 1) (d_events d)) as (k & Hk).
    { apply Hb. }
    exists k. rewrite (filter_ext _ (fun e => (a - 1 <? e_nid e) && ((e_nid e <=? pos) && String.eqb (e_room e) rm && negb (e_isstate e)))).
    2:{ intros e. by rewrite !andb_assoc. }
    rewrite Hk. apply (fmap_drop (fun e => (e_nid e, e_id e))). }
  assert (Hpl : forall e, e ∈ F -> 0 < e_nid e).
  { intros e He. apply elem_of_list_In, filter_In in He as [He _]. apply elem_of_list_In in He. by apply Hb in He as [? _]. }
  destruct HF as (k & HF). destruct (cut_gap_prefix (take (Z.to_nat lim) (rev F))) as (k1 & Hk1). rewrite Hk1, take_take.
  set (m := (k1 `min` Z.to_nat lim)%nat). clearbody m. destruct (take m (rev F)) as [|e evs] eqn:Et; [by left|]. right.
  assert (Hrev : rev F = e :: (evs ++ drop m (rev F))).
  { pose proof (take_drop m (rev F)) as Htd. rewrite Et in Htd. exact (eq_sym Htd). }
  assert (HFe : F = rev (evs ++ drop m (rev F)) ++ [e]).
  { apply (f_equal (@rev event)) in Hrev. rewrite rev_involutive in Hrev. exact Hrev. }
  cbn beta match. split; [apply Hpl; rewrite HFe; apply elem_of_app; right; apply elem_of_list_here|].
  destruct (rev_take m F) as (j & Hj). rewrite Et in Hj. exists (j + k)%nat, (e_id e). rewrite Hj. split.
  - rewrite map_map. change (fun x => tkey (of_event x)) with (fun e => (e_nid e, e_id e)).
    rewrite (fmap_drop (fun e => (e_nid e, e_id e))). change (fmap (fun e => (e_nid e, e_id e)) F) with (map (fun e => (e_nid e, e_id e)) F).
    rewrite HF, drop_drop. f_equal. lia.
  - assert (Hlast : last (map (fun e => (e_nid e, e_id e)) F) = Some (e_nid e, e_id e)).
    { rewrite HFe, map_app. cbn [map]. by rewrite last_snoc. }
    rewrite HF in Hlast. set (T := upto pos (trows (d_events d) rm)) in *. rewrite <- (take_drop k T), last_app, Hlast. done.
Qed.

Lemma load_rooms_rm ord redact env d rm pos inits : redact_ok redact -> stored ord redact d -> 0 <= fe_max env -> 0 < pos ->
  Forall (fun i => i_room i = rm -> i_db i <> None /\ 0 <= i_limit i /\ i_ignored i = [] /\ in_room (d_events d) (fe_user env) rm pos) inits ->
  forall c, f_anchor c = pos ->
  (Forall (fun i => i_room i <> rm) inits /\ lp_of (load_rooms env c (map (at_db d) inits)) rm = lp_of c rm /\ eff (load_rooms env c (map (at_db d) inits)) rm = eff c rm)
  \/ ((exists i, In i inits /\ i_room i = rm) /\ loaded d rm pos (lp_of (load_rooms env c (map (at_db d) inits)) rm) (eff (load_rooms env c (map (at_db d) inits)) rm)).
Proof.
  intros Hre Hst Hmax Hpos. unfold load_rooms. induction 1 as [|i inits Hi Hf IH]; intros c Hc; [by left|]. cbn [map fold_left].
  set (c1 := get_initial env c (at_db d i)). destruct (IH c1 Hc) as [(H1 & H2 & H3)|((j & Hj & Hjr) & H)].
  2:{ right. split; [exists j; split; [by right|done]|done]. }
  destruct (decide (i_room i = rm)) as [E|E].
  - right. split; [exists i; split; [by left|done]|]. rewrite H2, H3. destruct (Hi E) as (A1 & A2 & A3 & A4).
    destruct (load_gives ord redact env d i rm pos) as (l & Hl & Hld); [done..|].
    unfold c1, get_initial, lp_of, eff. cbv zeta. rewrite Hc, Hl. change (i_room (at_db d i)) with (i_room i). rewrite E.
    cbn [f_lp f_view f_pending]. rewrite !lookup_insert. exact Hld.
  - left. split; [by constructor|]. rewrite H2, H3. unfold c1, get_initial, lp_of, eff. cbv zeta.
    change (i_room (at_db d i)) with (i_room i). cbn [f_lp f_view f_pending]. split.
    + destruct (load_timeline _ _ _); [by rewrite lookup_insert_ne|done].
    + by rewrite lookup_insert_ne.
Qed.

(** ** The connection *)

(** The client's copy is a stretch of the timeline which ends at the room's position; what
    was passed on to the connection before is not beyond it. *)
Definition view_ok (d : db) (rm : string) (c : feed) (C : list Z) : Prop :=
  (lp_of c rm = 0 /\ eff c rm = []) \/
  (0 < lp_of c rm /\ Forall (fun n => n <= lp_of c rm) C /\
   exists k, map tkey (eff c rm) = drop k (upto (lp_of c rm) (trows (d_events d) rm))).

Lemma sorted_split (l : list (Z * string)) C n rest : StronglySorted Z.lt (map fst l) -> map fst l = C ++ n :: rest ->
  exists RC id RR, l = RC ++ (n, id) :: RR /\ map fst RC = C /\ map fst RR = rest /\
    Forall (fun p => p.1 < n) RC /\ Forall (fun p => n < p.1) RR.
Proof.
  intros Hs He. revert C He Hs. induction l as [|[m id] l IH]; intros C He Hs; [by destruct C|].
  cbn [map fst] in *. apply StronglySorted_inv in Hs as [Hs Hf]. destruct C as [|m' C]; cbn in He; injection He as Hm He.
  - subst m. exists [], id, l. split; [done|]. split; [done|]. split; [done|]. split; [constructor|].
    apply Forall_forall. intros p Hp. apply (proj1 (Forall_forall _ _) Hf). apply elem_of_list_fmap. eauto.
  - subst m'. destruct (IH C He Hs) as (RC & i & RR & -> & H1 & H2 & H3 & H4).
    exists ((m, id) :: RC), i, RR. split; [done|]. split; [cbn; by rewrite H1|]. split; [done|]. split; [|done].
    constructor; [|done]. cbn. apply (proj1 (Forall_forall _ _) Hf). rewrite map_app. apply elem_of_app. right. apply elem_of_list_here.
Qed.
Lemma upto_at n RC id RR : Forall (fun p => p.1 < n) RC -> Forall (fun p => n < p.1) RR ->
  upto n (RC ++ (n, id) :: RR) = RC ++ [(n, id)].
Proof.
  intros H1 H2. change (RC ++ (n, id) :: RR) with (RC ++ ([(n, id)] ++ RR)). rewrite !upto_app.
  rewrite (upto_all n RC) by (eapply Forall_impl; [exact H1|]; cbn; lia). rewrite (upto_none n RR H2), app_nil_r.
  f_equal. apply upto_all. constructor; [cbn; lia|constructor].
Qed.
Lemma upto_below n m RC id RR : Forall (fun p => p.1 <= m) RC -> Forall (fun p => n < p.1) RR -> m < n ->
  upto m (RC ++ (n, id) :: RR) = RC.
Proof.
  intros H1 H2 Hm. rewrite upto_app. rewrite (upto_all m RC H1). rewrite (upto_none m); [by rewrite app_nil_r|].
  constructor; [cbn; lia|]. eapply Forall_impl; [exact H2|]. cbn. lia.
Qed.
Lemma drop_snoc {A} k (l : list A) x : exists k', drop k l ++ [x] = drop k' (l ++ [x]).
Proof. exists (k `min` length l)%nat. rewrite drop_app_le by lia. f_equal. destruct (Nat.le_ge_cases k (length l)); [by rewrite Nat.min_l by lia|]. rewrite Nat.min_r by lia. rewrite !drop_ge by lia. done. Qed.

Lemma last_bound (l : list (Z * string)) n id : StronglySorted Z.lt (map fst l) -> last l = Some (n, id) -> Forall (fun p => p.1 <= n) l.
Proof.
  intros Hs Hl. apply last_Some in Hl as (pre & ->). rewrite map_app in Hs. cbn in Hs.
  destruct (sorted_split (pre ++ [(n, id)]) (map fst pre) n []) as (RC & i & RR & H1 & H2 & H3 & H4 & H5); [by rewrite map_app|by rewrite map_app|].
  rewrite H1. apply Forall_app. split; [eapply Forall_impl; [exact H4|]; cbn; lia|]. destruct RR; [|done]. constructor; [cbn; lia|constructor].
Qed.
Lemma sublist_sorted_app (a b : list Z) : StronglySorted Z.lt (a ++ b) -> StronglySorted Z.lt a.
Proof. intros H. eapply sorted_sublist; [|exact H]. apply sublist_inserts_r. done. Qed.

Lemma loaded_view d rm pos c C rest : sorted (d_events d) -> map fst (trows (d_events d) rm) = C ++ rest ->
  Forall (fun n => n <= pos) C -> loaded d rm pos (lp_of c rm) (eff c rm) -> view_ok d rm c C /\ lp_of c rm <= Z.max 0 pos /\ 0 <= lp_of c rm.
Proof.
  intros Hs Hsp HC Hl. pose proof (trows_sorted _ rm Hs) as Hts. set (T := trows (d_events d) rm) in *.
  destruct Hl as [[H1 H2]|(Hn & k & id & Hk & Hlast)]; [split; [by left|lia]|].
  destruct (upto_split pos T Hts) as (R & HR1 & HR2).
  assert (Hus : StronglySorted Z.lt (map fst (upto pos T))).
  { rewrite HR1, map_app in Hts. by eapply sublist_sorted_app. }
  pose proof (last_bound _ _ _ Hus Hlast) as Hb.
  assert (Hle : lp_of c rm <= pos).
  { assert (Hin : (lp_of c rm, id) ∈ upto pos T) by (by apply last_Some_elem_of).
    unfold upto in Hin. apply elem_of_list_In, filter_In in Hin as [_ Hin]. cbn in Hin. lia. }
  split; [|lia]. right. split; [done|]. split.
  - apply Forall_forall. intros n Hx. assert (Hp : n ∈ map fst T) by (rewrite Hsp; apply elem_of_app; by left).
    apply elem_of_list_fmap in Hp as (p & -> & Hp). rewrite HR1 in Hp. apply elem_of_app in Hp as [Hp|Hp].
    + by apply (proj1 (Forall_forall _ _) Hb).
    + pose proof (proj1 (Forall_forall _ _) HR2 p Hp). pose proof (proj1 (Forall_forall _ _) HC _ Hx). cbn in *. lia.
  - assert (Hu : upto (lp_of c rm) (upto pos T ++ R) = upto pos T).
    { rewrite upto_app, (upto_all _ _ Hb), (upto_none _ R), app_nil_r; [done|]. eapply Forall_impl; [exact HR2|]. cbn. lia. }
    rewrite <- HR1 in Hu. exists k. fold T. by rewrite Hk, Hu.
Qed.

(** An event of another room. *)
Lemma live_other ord redact env d rm c v inits shown C rest b : redact_ok redact -> stored ord redact d -> 0 <= fe_max env ->
  v_room v <> rm -> v_always v = false -> 0 < t_nid (v_ent v) -> 0 < f_anchor c ->
  Forall (fun i => i_room i = rm -> i_db i <> None /\ 0 <= i_limit i /\ i_ignored i = [] /\
     in_room (d_events d) (fe_user env) rm (Z.max (f_anchor c) (t_nid (v_ent v)))) inits ->
  ((exists i, In i inits /\ i_room i = rm) -> lp_of c (v_room v) <= t_nid (v_ent v) /\ v_ignored v = false) ->
  map fst (trows (d_events d) rm) = C ++ rest -> Forall (fun n => n <= f_anchor c) C ->
  0 <= lp_of c rm <= f_anchor c -> (b = true -> view_ok d rm c C) ->
  let c' := (process_live env c v (map (at_db d) inits) shown).1 in
  f_anchor c <= f_anchor c' <= Z.max (f_anchor c) (t_nid (v_ent v)) /\ 0 <= lp_of c' rm <= f_anchor c' /\
  (b || existsb (fun i => String.eqb (i_room i) rm) inits = true -> view_ok d rm c' C).
Proof.
  intros Hre Hst Hmax Hne Hal Hnid Hpos Hg Htaken Hsp HC Hlp Hview c'. subst c'.
  pose proof (StoreProps.stored_base _ _ _ Hre Hst) as Hb0.
  assert (Hno : forall P : Prop, (~ exists i, In i inits /\ i_room i = rm) -> (b = true -> P) -> b || existsb (fun i => String.eqb (i_room i) rm) inits = true -> P).
  { intros P Hn HP Hx. apply orb_true_iff in Hx as [Hx|Hx]; [by apply HP|]. apply existsb_exists in Hx as (i & Hi & Hr).
    apply String.eqb_eq in Hr. destruct Hn. by exists i. }
  unfold process_live. cbv zeta. rewrite Hal. cbn [negb andb].
  destruct (Z.eqb_spec (t_nid (v_ent v)) 0); [lia|].
  destruct ((0 <? lp_of c (v_room v)) && (t_nid (v_ent v) <? lp_of c (v_room v))) eqn:Esk.
  { cbn [fst]. split; [lia|]. split; [done|]. apply Hno; [|done]. intros Hex. apply Htaken in Hex. lia. }
  destruct (negb (v_state v) && v_ignored v) eqn:Eig.
  { cbn [fst]. split; [lia|]. split; [done|]. apply Hno; [|done]. intros Hex. apply Htaken in Hex as [_ Hex]. rewrite Hex, andb_false_r in Eig. done. }
  set (a' := if f_anchor c <? t_nid (v_ent v) then t_nid (v_ent v) else f_anchor c).
  assert (Ha : a' = Z.max (f_anchor c) (t_nid (v_ent v))) by (unfold a'; destruct (Z.ltb_spec (f_anchor c) (t_nid (v_ent v))); lia).
  set (c1 := mk_feed a' (f_lp c) (f_lazy c) (f_pending c) (f_view c)).
  assert (Hc2 : f_anchor (load_rooms env c1 (map (at_db d) inits)) = a') by (rewrite load_rooms_anchor; done).
  destruct (load_rooms_rm ord redact env d rm a' inits Hre Hst Hmax ltac:(lia)) with (c := c1) as [(H1 & H2 & H3)|(Hex & Hld)]; [by rewrite Ha|done| |].
  all: set (c2 := load_rooms env c1 (map (at_db d) inits)) in *; clearbody c2.
  - change (lp_of c1 rm) with (lp_of c rm) in H2. change (eff c1 rm) with (eff c rm) in H3.
    assert (Hfin : forall c', f_anchor c' = a' -> lp_of c' rm = lp_of c2 rm -> eff c' rm = eff c2 rm ->
      f_anchor c <= f_anchor c' <= Z.max (f_anchor c) (t_nid (v_ent v)) /\ 0 <= lp_of c' rm <= f_anchor c' /\
      (b || existsb (fun i => String.eqb (i_room i) rm) inits = true -> view_ok d rm c' C)).
    { intros c' E1 E2 E3. rewrite E1, E2, H2. split; [lia|]. split; [lia|]. apply Hno.
      - intros (i & Hi & Hr). rewrite List.Forall_forall in H1. by apply (H1 i Hi).
      - unfold view_ok. rewrite E2, E3, H2, H3. done. }
    destruct shown; [|by apply Hfin].
    destruct (v_event v); cbn [fst]; [|apply Hfin; [done|done|unfold eff; cbn [f_view f_pending]; by rewrite lookup_insert_ne]].
    destruct (t_nid (v_ent v) <=? lp_of c2 (v_room v)).
    + apply Hfin; [done|unfold lp_of; cbn [fst f_lp]; by rewrite lookup_insert_ne|unfold eff; cbn [fst f_view f_pending]; by rewrite lookup_insert_ne].
    + destruct (lazy_member _ _ _ _ _) as [[? ?] ?].
      apply Hfin; [done|unfold lp_of; cbn [fst f_lp]; by rewrite lookup_insert_ne|unfold eff; cbn [fst f_view f_pending]; by rewrite lookup_insert_ne].
  - assert (Hfin : forall c', f_anchor c' = a' -> lp_of c' rm = lp_of c2 rm -> eff c' rm = eff c2 rm ->
      f_anchor c <= f_anchor c' <= Z.max (f_anchor c) (t_nid (v_ent v)) /\ 0 <= lp_of c' rm <= f_anchor c' /\
      (b || existsb (fun i => String.eqb (i_room i) rm) inits = true -> view_ok d rm c' C)).
    { intros c' E1 E2 E3. rewrite <- E2, <- E3 in Hld. destruct (loaded_view d rm a' c' C rest) as (V & V1 & V2); [apply Hb0|done| |done|].
      - eapply Forall_impl; [exact HC|]. cbn. lia.
      - split; [lia|]. split; [lia|]. done. }
    destruct shown; [|by apply Hfin].
    destruct (v_event v); cbn [fst]; [|apply Hfin; [done|done|unfold eff; cbn [f_view f_pending]; by rewrite lookup_insert_ne]].
    destruct (t_nid (v_ent v) <=? lp_of c2 (v_room v)).
    + apply Hfin; [done|unfold lp_of; cbn [fst f_lp]; by rewrite lookup_insert_ne|unfold eff; cbn [fst f_view f_pending]; by rewrite lookup_insert_ne].
    + destruct (lazy_member _ _ _ _ _) as [[? ?] ?].
      apply Hfin; [done|unfold lp_of; cbn [fst f_lp]; by rewrite lookup_insert_ne|unfold eff; cbn [fst f_view f_pending]; by rewrite lookup_insert_ne].
Qed.

(** An event of the room itself. *)
Lemma live_own ord redact env d rm c v inits shown C rest b : redact_ok redact -> stored ord redact d -> 0 <= fe_max env ->
  v_room v = rm -> v_always v = false -> v_event v = true -> v_ignored v = false -> 0 < f_anchor c ->
  Forall (fun i => i_room i = rm -> i_db i <> None /\ 0 <= i_limit i /\ i_ignored i = [] /\
     in_room (d_events d) (fe_user env) rm (Z.max (f_anchor c) (t_nid (v_ent v)))) inits ->
  ((exists i, In i inits /\ i_room i = rm) -> lp_of c rm <= t_nid (v_ent v) /\ f_anchor c <= t_nid (v_ent v)) ->
  map fst (trows (d_events d) rm) = C ++ t_nid (v_ent v) :: rest -> tkey (v_ent v) ∈ trows (d_events d) rm ->
  Forall (fun n => n <= f_anchor c) C ->
  0 <= lp_of c rm <= f_anchor c -> (b = true -> view_ok d rm c C) ->
  let c' := (process_live env c v (map (at_db d) inits) shown).1 in
  f_anchor c <= f_anchor c' <= Z.max (f_anchor c) (t_nid (v_ent v)) /\ 0 <= lp_of c' rm <= f_anchor c' /\
  Forall (fun n => n <= f_anchor c') (C ++ [t_nid (v_ent v)]) /\
  ((b || existsb (fun i => String.eqb (i_room i) rm) inits) && shown = true -> view_ok d rm c' (C ++ [t_nid (v_ent v)])).
Proof.
  intros Hre Hst Hmax Hroom Hal Hev Hign Hpos Hg Htimely Hsp Hkey HC Hlp Hview c'. subst c'.
  pose proof (StoreProps.stored_base _ _ _ Hre Hst) as Hb0.
  assert (Hts : StronglySorted Z.lt (map fst (trows (d_events d) rm))) by (apply trows_sorted, Hb0).
  assert (Hnid : 0 < t_nid (v_ent v)).
  { apply trows_in in Hkey as (e & He & Hk & _). apply Hb0 in He as [He _]. injection Hk as -> _. done. }
  destruct (sorted_split _ _ _ _ Hts Hsp) as (RC & id & RR & HT & HRC & HRR & Hlo & Hhi).
  set (n := t_nid (v_ent v)) in *.
  assert (Hid : tkey (v_ent v) = (n, id)).
  { rewrite HT in Hkey. apply elem_of_app in Hkey as [Hk|Hk].
    - pose proof (proj1 (Forall_forall _ _) Hlo _ Hk) as H. cbn in H. lia.
    - apply elem_of_cons in Hk as [Hk|Hk]; [done|]. pose proof (proj1 (Forall_forall _ _) Hhi _ Hk) as H. cbn in H. lia. }
  assert (Hupn : upto n (trows (d_events d) rm) = RC ++ [(n, id)]) by (rewrite HT; by apply upto_at).
  assert (HCn : Forall (fun m => m <= n) (C ++ [n])).
  { apply Forall_app. split; [|constructor; [lia|constructor]]. rewrite <- HRC. apply Forall_forall. intros m Hm.
    apply elem_of_list_fmap in Hm as (p & -> & Hp). pose proof (proj1 (Forall_forall _ _) Hlo p Hp) as Hq. cbn in Hq |- *. lia. }
  assert (Hno : forall P : Prop, (~ exists i, In i inits /\ i_room i = rm) -> (b = true -> P) -> b || existsb (fun i => String.eqb (i_room i) rm) inits = true -> P).
  { intros P Hn HP Hx. apply orb_true_iff in Hx as [Hx|Hx]; [by apply HP|]. apply existsb_exists in Hx as (i & Hi & Hr).
    apply String.eqb_eq in Hr. destruct Hn. by exists i. }
  unfold process_live. cbv zeta. rewrite Hal, Hev, Hign, Hroom. fold n. cbn [negb andb].
  destruct (Z.eqb_spec n 0); [lia|].
  destruct ((0 <? lp_of c rm) && (n <? lp_of c rm)) eqn:Esk.
  { cbn [fst]. split; [lia|]. split; [done|]. split.
    - eapply Forall_impl; [exact HCn|]. cbn. lia.
    - intros Hx. apply andb_true_iff in Hx as [Hx _]. revert Hx. apply Hno; [intros Hex; apply Htimely in Hex; lia|].
      intros Hbt. destruct (Hview Hbt) as [[H0 _]|(H1 & H2 & H3)]; [lia|]. right. split; [done|]. split; [|done].
      eapply Forall_impl; [exact HCn|]. cbn. lia. }
  rewrite andb_false_r.
  set (a' := if f_anchor c <? n then n else f_anchor c).
  assert (Ha : a' = Z.max (f_anchor c) n) by (unfold a'; destruct (Z.ltb_spec (f_anchor c) n); lia).
  set (c1 := mk_feed a' (f_lp c) (f_lazy c) (f_pending c) (f_view c)).
  assert (Hc2 : f_anchor (load_rooms env c1 (map (at_db d) inits)) = a') by (rewrite load_rooms_anchor; done).
  assert (HCa : Forall (fun m => m <= a') (C ++ [n])) by (eapply Forall_impl; [exact HCn|]; cbn; lia).
  (* what the step leaves *)
  assert (Hfresh : forall c' k, lp_of c' rm = n -> map tkey (eff c' rm) = drop k (RC ++ [(n, id)]) -> view_ok d rm c' (C ++ [n])).
  { intros c' k E1 E2. right. rewrite E1. split; [done|]. split; [done|]. exists k. by rewrite Hupn. }
  destruct (load_rooms_rm ord redact env d rm a' inits Hre Hst Hmax ltac:(lia)) with (c := c1) as [(H1 & H2 & H3)|(Hex & Hld)]; [by rewrite Ha|done| |].
  all: set (c2 := load_rooms env c1 (map (at_db d) inits)) in *; clearbody c2.
  - change (lp_of c1 rm) with (lp_of c rm) in H2. change (eff c1 rm) with (eff c rm) in H3.
    destruct shown; cbn [fst].
    2:{ rewrite Hc2, H2. split; [lia|]. split; [lia|]. split; [done|]. by rewrite andb_false_r. }
    rewrite H2. rewrite andb_true_r. 
    assert (Hnot : ~ exists i, In i inits /\ i_room i = rm).
    { intros (i & Hi & Hr). rewrite List.Forall_forall in H1. by apply (H1 i Hi). }
    destruct (Z.leb_spec n (lp_of c rm)) as [Hle|Hlt]; cbn [andb fst f_anchor].
    + assert (n = lp_of c rm) as Hn by lia.
      match goal with |- context [view_ok d rm ?x _] => set (c3 := x) end.
      assert (E1 : lp_of c3 rm = n) by (unfold c3, lp_of; cbn [f_lp]; by rewrite lookup_insert).
      assert (E2 : eff c3 rm = eff c rm).
      { rewrite <- H3. unfold c3, eff. cbn [f_view f_pending]. rewrite lookup_insert. destruct (f_pending c2 !! rm) as [r|]; [done|]. cbn.
        destruct (f_view c2 !! rm); cbn; by rewrite ?app_nil_r. }
      rewrite E1, Hc2. split; [lia|]. split; [lia|]. split; [done|]. apply Hno; [done|]. intros Hbt.
      destruct (Hview Hbt) as [[H0 _]|(_ & _ & k & Hk)]; [lia|]. apply (Hfresh _ k); [done|]. rewrite E2, Hk, <- Hn. by rewrite Hupn.
    + destruct (lazy_member _ _ _ _ _) as [[lz mem] sent]. cbn [fst f_anchor].
      match goal with |- context [view_ok d rm ?x _] => set (c3 := x) end.
      assert (E1 : lp_of c3 rm = n) by (unfold c3, lp_of; cbn [f_lp]; by rewrite lookup_insert).
      assert (E2 : eff c3 rm = eff c rm ++ [v_ent v]).
      { rewrite <- H3. by destruct (eff_append c2 rm (v_ent v) mem (<[rm := n]> (f_lp c2)) lz) as [? _]. }
      rewrite E1, Hc2. split; [lia|]. split; [lia|]. split; [done|]. apply Hno; [done|]. intros Hbt.
      destruct (Hview Hbt) as [[_ H0]|(Hp & HCL & k & Hk)].
      * apply (Hfresh _ (length RC)); [done|]. rewrite E2, H0. cbn [map app]. rewrite Hid. by rewrite drop_app.
      * destruct (drop_snoc k RC (n, id)) as (k' & Hk'). apply (Hfresh _ k'); [done|]. rewrite E2, map_app. cbn [map]. rewrite Hid, Hk, <- Hk'.
        assert (Hu : upto (lp_of c rm) (trows (d_events d) rm) = RC).
        { rewrite HT. apply upto_below; [|done|done]. apply Forall_forall. intros p Hp'. apply (proj1 (Forall_forall _ _) HCL).
          rewrite <- HRC. apply elem_of_list_fmap. eauto. }
        by rewrite Hu.
  - destruct (Htimely Hex) as [_ Hat]. assert (a' = n) as Han by lia. rewrite Han in *.
    destruct shown; cbn [fst].
    2:{ destruct (loaded_view d rm n c2 (C ++ [n]) rest) as (_ & V1 & V2); [apply Hb0|by rewrite <- app_assoc|done|done|].
        rewrite Hc2. split; [lia|]. split; [lia|]. split; [done|]. by rewrite andb_false_r. }
    destruct Hld as [[L1 L2]|(L0 & k & id' & Hk & Hlast)].
    + rewrite L1. destruct (Z.leb_spec n 0); [lia|]. cbn [andb].
      destruct (lazy_member _ _ _ _ _) as [[lz mem] sent]. cbn [fst f_anchor].
      match goal with |- context [view_ok d rm ?x _] => set (c3 := x) end.
      assert (E1 : lp_of c3 rm = n) by (unfold c3, lp_of; cbn [f_lp]; by rewrite lookup_insert).
      assert (E2 : eff c3 rm = [v_ent v]).
      { destruct (eff_append c2 rm (v_ent v) mem (<[rm := n]> (f_lp c2)) lz) as [E _]. etransitivity; [exact E|]. by rewrite L2. }
      rewrite E1, Hc2. split; [lia|]. split; [lia|]. split; [done|]. intros _.
      apply (Hfresh _ (length RC)); [done|]. rewrite E2. cbn [map]. rewrite Hid. by rewrite drop_app.
    + rewrite Hupn in Hk, Hlast. rewrite last_snoc in Hlast. injection Hlast as Hln _.
      destruct (Z.leb_spec n (lp_of c2 rm)); [|lia]. cbn [andb fst f_anchor].
      match goal with |- context [view_ok d rm ?x _] => set (c3 := x) end.
      assert (E1 : lp_of c3 rm = n) by (unfold c3, lp_of; cbn [f_lp]; by rewrite lookup_insert).
      assert (E2 : eff c3 rm = eff c2 rm).
      { unfold c3, eff. cbn [f_view f_pending]. rewrite lookup_insert. destruct (f_pending c2 !! rm) as [r|]; [done|]. cbn.
        destruct (f_view c2 !! rm); cbn; by rewrite ?app_nil_r. }
      rewrite E1, Hc2. split; [lia|]. split; [lia|]. split; [done|]. intros _. apply (Hfresh _ k); [done|]. by rewrite E2.
Qed.
