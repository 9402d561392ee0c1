(** The invariant of the way from a poller to a client. *)
From Verif Require Import Prelude AccumModel AccumSpec AccumProofs AccumProofs5 AccumProofs6
  StoreModel StoreSpec StoreProofs StoreProps RequestModel SubModel SubSpec FeedModel FeedSpec FeedProofs PipeModel PipeSpec PipeProofs.
From Verif Require TxnModel.
Open Scope string_scope. Open Scope list_scope. Open Scope Z_scope.

(** ** Handing events out *)

Lemma sorted_same (a b : list Z) : StronglySorted Z.lt a -> StronglySorted Z.lt b -> (forall x, x ∈ a <-> x ∈ b) -> a = b.
Proof.
  revert b. induction a as [|x a IH]; intros b Ha Hb Heq.
  - destruct b as [|y b]; [done|]. exfalso. assert (H : y ∈ @nil Z) by (apply Heq, elem_of_list_here). by apply elem_of_nil in H.
  - destruct b as [|y b]; [exfalso; assert (H : x ∈ @nil Z) by (apply Heq, elem_of_list_here); by apply elem_of_nil in H|].
    apply StronglySorted_inv in Ha as [Ha Fa]. apply StronglySorted_inv in Hb as [Hb Fb].
    pose proof (proj1 (Forall_forall _ _) Fa) as Fa'. pose proof (proj1 (Forall_forall _ _) Fb) as Fb'.
    assert (x = y) as <-.
    { assert (H1 : x ∈ y :: b) by (apply Heq, elem_of_list_here). assert (H2 : y ∈ x :: a) by (apply Heq, elem_of_list_here).
      apply elem_of_cons in H1 as [->|H1]; [done|]. apply elem_of_cons in H2 as [->|H2]; [done|].
      apply Fa' in H2. apply Fb' in H1. lia. }
    f_equal. apply IH; [done|done|]. intros z. split; intros Hz.
    + assert (H : z ∈ x :: b) by (apply Heq, elem_of_list_further, Hz). apply elem_of_cons in H as [->|H]; [apply Fa' in Hz; lia|done].
    + assert (H : z ∈ x :: a) by (apply Heq, elem_of_list_further, Hz). apply elem_of_cons in H as [->|H]; [apply Fb' in Hz; lia|done].
Qed.

(** The rows with some positions. *)
Lemma select_all d l : base0 d -> StronglySorted Z.lt l -> Forall (fun n => exists e, e ∈ d_events d /\ e_nid e = n) l ->
  exists rows, select_nids d l = Ok rows /\ map e_nid rows = l /\ Forall (fun e => e ∈ d_events d) rows.
Proof.
  intros Hb Hs Hall. unfold select_nids. set (rows := List.filter _ (d_events d)).
  assert (Hin : forall e, e ∈ rows <-> e ∈ d_events d /\ e_nid e ∈ l).
  { intros e. unfold rows. rewrite elem_of_list_In, filter_In, <- elem_of_list_In. split; intros [H1 H2]; (split; [done|]).
    - apply existsb_exists in H2 as (n & Hn & He). apply Z.eqb_eq in He. rewrite He. by apply elem_of_list_In.
    - apply existsb_exists. exists (e_nid e). split; [by apply elem_of_list_In|]. by apply Z.eqb_eq. }
  assert (Hrows : map e_nid rows = l).
  { apply sorted_same; [|done|].
    - pose proof (AccumProofs.sorted_filter (fun e => existsb (Z.eqb (e_nid e)) l) (d_events d) (b0_sorted d Hb)) as H. exact H.
    - intros n. split; intros Hn.
      + apply elem_of_list_fmap in Hn as (e & -> & He). by apply Hin in He as [_ He].
      + pose proof (proj1 (Forall_forall _ _) Hall n Hn) as (e & He & <-). apply elem_of_list_fmap. exists e. split; [done|]. by apply Hin. }
  exists rows. split.
  - assert (length rows = length l) as -> by (by rewrite <- Hrows, map_length). rewrite Nat.eqb_refl, orb_true_r. done.
  - split; [done|]. apply Forall_forall. intros e He. by apply Hin in He as [He _].
Qed.

(** What is known of the events which the connection was given. *)
Definition entry_ok (d : db) (rm : string) (log : list (tent * bool)) (e : TxnModel.ev) : Prop :=
  exists t st, log !! TxnModel.e_rest e = Some (t, st) /\ t_nid t = TxnModel.e_nid e /\ t_room t = TxnModel.e_room e /\ 0 < t_nid t <= d_seq d
    /\ (t_room t = rm -> tkey t ∈ trows (d_events d) rm).
Lemma entry_mono d rm log x e : entry_ok d rm log e -> entry_ok d rm (log ++ x) e.
Proof. intros (t & st & H1 & H2). exists t, st. split; [by apply lookup_app_l_Some|done]. Qed.
Record entries_ok (d : db) (delay : Z) (rm : string) (s : pipe) : Prop := {
  en_queue : Forall (entry_ok d rm (p_log s)) (p_queue s);
  en_wait : forall r q, TxnModel.t_queues (p_wait s) !! r = Some q -> Forall (fun e => TxnModel.e_room e = r /\ entry_ok d rm (p_log s) e) q;
  en_delay : delay <= 0 -> TxnModel.t_queues (p_wait s) = ∅
}.

Definition staged (s : pipe) (rm : string) : list Z := buffered s rm ++ held_back s rm.
Definition rest_same (s s' : pipe) : Prop := p_db s' = p_db s /\ p_bus s' = p_bus s /\ p_on s' = p_on s /\ p_conn s' = p_conn s.

Lemma hand_out_one d user delay now joined txn room rm s e :
  p_on s = true -> joined (e_id e) = true \/ room <> rm -> 0 < e_nid e <= d_seq d -> (room = rm -> (e_nid e, e_id e) ∈ trows (d_events d) rm) ->
  entries_ok d delay rm s ->
  let s' := hand_out user delay now joined txn room s (e, e_nid e) in
  entries_ok d delay rm s' /\ rest_same s s' /\ staged s' rm = staged s rm ++ (if String.eqb room rm then [e_nid e] else []).
Proof.
  intros Hon Hj Hn Hrow Hen. cbv zeta. unfold hand_out.
  assert (Ej : p_on s && joined (e_id e) = joined (e_id e)) by (by rewrite Hon). rewrite Ej. clear Ej. destruct (joined (e_id e)) eqn:Ej.
  2:{ split; [done|]. split; [done|]. destruct Hj as [Hj|Hj]; [done|]. apply String.eqb_neq in Hj. by rewrite Hj, app_nil_r. }
  set (up := TxnModel.mk_ev room (e_nid e) (r_sender (e_json e)) (has_key (e_json e)) (txn (e_id e)) (length (p_log s))).
  set (x := (mk_tent (e_nid e) (e_id e) room (r_sender (e_json e)), has_key (e_json e))).
  assert (Hup : entry_ok d rm (p_log s ++ [x]) up).
  { unfold entry_ok, x. do 2 eexists. split.
    { unfold up. cbn [TxnModel.e_rest]. rewrite lookup_app_r by lia. rewrite Nat.sub_diag. reflexivity. }
    cbn [t_nid t_room]. split; [done|]. split; [done|]. split; [done|]. intros E. unfold tkey. cbn [t_nid t_id]. by apply Hrow. }
  destruct Hen as [E1 E2 E3].
  assert (E1' : Forall (entry_ok d rm (p_log s ++ [x])) (p_queue s)) by (eapply Forall_impl; [exact E1|]; intros; by apply entry_mono).
  assert (E2' : forall r q, TxnModel.t_queues (p_wait s) !! r = Some q -> Forall (fun e => TxnModel.e_room e = r /\ entry_ok d rm (p_log s ++ [x]) e) q).
  { intros r q Hq. eapply Forall_impl; [by apply E2|]. intros y [H1 H2]. split; [done|]. by apply entry_mono. }
  assert (Hpass : held_back s room = [] ->
    let s' := mk_pipe (p_db s) (p_bus s) (p_on s) (p_log s ++ [x]) (p_wait s) (p_queue s ++ [up]) (p_conn s) in
    entries_ok d delay rm s' /\ rest_same s s' /\ staged s' rm = staged s rm ++ (if String.eqb room rm then [e_nid e] else [])).
  { intros Hh. cbv zeta. split; [split; cbn [p_queue p_wait p_log]|split; [done|]].
    - apply Forall_app. split; [done|]. by constructor.
    - exact E2'.
    - done.
    - unfold staged, buffered. cbn [p_queue]. rewrite List.filter_app. cbn [List.filter]. change (TxnModel.e_room up) with room.
      change (held_back _ rm) with (held_back s rm) at 1.
      destruct (String.eqb_spec room rm) as [->|Hne]; [|by rewrite !app_nil_r]. rewrite Hh, map_app, !app_nil_r. done. }
  unfold TxnModel.Ingest. destruct (Z.leb_spec delay 0) as [Hd|Hd].
  { apply Hpass. unfold held_back. by rewrite (E3 Hd), lookup_empty. }
  cbv zeta. change (TxnModel.e_room up) with room.
  destruct (negb (_ || bool_decide (is_Some (TxnModel.t_queues (p_wait s) !! room)))) eqn:Eq.
  { apply Hpass. unfold held_back. apply negb_true_iff, orb_false_iff in Eq as [_ Eq]. apply bool_decide_eq_false in Eq.
    destruct (TxnModel.t_queues (p_wait s) !! room); [|done]. destruct Eq. eauto. }
  split; [split; cbn [p_queue p_wait p_log TxnModel.t_queues]|split; [done|]].
  - cbn. by rewrite app_nil_r.
  - intros r q Hq. destruct (decide (r = room)) as [->|Hne].
    + rewrite lookup_insert in Hq. injection Hq as <-. apply Forall_app. split; [|by constructor].
      destruct (TxnModel.t_queues (p_wait s) !! room) as [q0|] eqn:E; [|constructor]. by apply E2'.
    + rewrite lookup_insert_ne in Hq by done. by apply E2'.
  - lia.
  - unfold staged, buffered, held_back. cbn [p_queue p_wait TxnModel.t_queues].
    change (events_of []) with (@nil TxnModel.ev). rewrite app_nil_r.
    destruct (String.eqb_spec room rm) as [->|Hne].
    + rewrite lookup_insert. unfold default at 1. unfold id. rewrite map_app, app_assoc. done.
    + rewrite lookup_insert_ne by done. by rewrite app_nil_r.
Qed.

Lemma hand_out_all d user delay now joined txn room rm rows : forall s,
  p_on s = true -> (forall id, joined id = true) \/ room <> rm ->
  Forall (fun e => 0 < e_nid e <= d_seq d /\ (room = rm -> (e_nid e, e_id e) ∈ trows (d_events d) rm)) rows ->
  entries_ok d delay rm s ->
  let s' := fold_left (hand_out user delay now joined txn room) (zip rows (map e_nid rows)) s in
  entries_ok d delay rm s' /\ rest_same s s' /\ staged s' rm = staged s rm ++ (if String.eqb room rm then map e_nid rows else []).
Proof.
  induction rows as [|e rows IH]; intros s Hon Hj Hf Hen; cbv zeta.
  { cbn. split; [done|]. split; [done|]. destruct (String.eqb room rm); by rewrite app_nil_r. }
  inversion Hf as [|? ? [H1 H2] Hf']; subst. cbn [map zip zip_with fold_left].
  destruct (hand_out_one d user delay now joined txn room rm s e) as (A1 & A2 & A3); [done| |done|done|done|].
  { destruct Hj as [Hj|Hj]; [left; by apply Hj|by right]. }
  set (s1 := hand_out user delay now joined txn room s (e, e_nid e)) in *. clearbody s1.
  destruct A2 as (B1 & B2 & B3 & B4).
  destruct (IH s1) as (C1 & (C2 & C3 & C4 & C5) & C6); [by rewrite B3|done|done|done|]. split; [done|]. split.
  - split; [by rewrite C2|]. split; [by rewrite C3|]. split; [by rewrite C4|by rewrite C5].
  - etransitivity; [exact C6|]. rewrite A3, <- app_assoc. by destruct (String.eqb room rm).
Qed.

Lemma hand_out_off user delay now joined txn room l : forall s, p_on s = false -> fold_left (hand_out user delay now joined txn room) l s = s.
Proof.
  induction l as [|[e n] l IH]; intros s Hoff; [done|]. cbn [fold_left].
  assert (hand_out user delay now joined txn room s (e, n) = s) as -> by (unfold hand_out; by rewrite Hoff). by apply IH.
Qed.

(** Releasing. *)
Lemma split_at_app nid q : forall a b, TxnModel.split_at nid q = (a, b) -> q = a ++ b.
Proof.
  induction q as [|e q IH]; intros a b; cbn; [intros [= <- <-]; done|]. destruct (nid <? TxnModel.e_nid e); [intros [= <- <-]; done|].
  destruct (TxnModel.split_at nid q) as [a' b']. intros [= <- <-]. cbn. by rewrite (IH a' b').
Qed.
Lemma events_of_ev (f : bool) l : events_of (map (fun e => (f, TxnModel.Ev e)) l) = l.
Proof. unfold events_of. induction l as [|e l IH]; [done|]. cbn [map]. cbn. by f_equal. Qed.

(** ** The invariant *)
Section Inv.
Context (ord : list Z -> list Z) (redact : raw -> raw -> raw -> raw) (env : fenv) (delay : Z) (rm : string).
Hypothesis Hred : redact_ok redact.
Hypothesis Hmax : 0 <= fe_max env.

Record pinv (s : pipe) (b : bool) : Prop := {
  pi_stored : stored ord redact (p_db s);
  pi_bus : Forall (fun p => StronglySorted Z.lt p.2 /\ Forall (fun n => exists e, e ∈ d_events (p_db s) /\ e_nid e = n) p.2) (p_bus s);
  pi_en : entries_ok (p_db s) delay rm s;
  pi_off : p_on s = false -> p_queue s = [] /\ TxnModel.t_queues (p_wait s) = ∅ /\ f_anchor (p_conn s) <= 0;
  pi_low : f_anchor (p_conn s) <= 0 -> lp_of (p_conn s) rm = 0 /\ b = false;
  pi_anchor : f_anchor (p_conn s) <= d_seq (p_db s);
  pi_lp : 0 < f_anchor (p_conn s) -> 0 <= lp_of (p_conn s) rm <= f_anchor (p_conn s);
  pi_main : exists C, map fst (trows (d_events (p_db s)) rm) = C ++ on_the_way s rm /\
    (0 < f_anchor (p_conn s) -> Forall (fun n => n <= f_anchor (p_conn s)) C) /\
    (b = true -> view_ok (p_db s) rm (p_conn s) C)
}.

Lemma pinv0 : pinv pipe0 false.
Proof.
  split; cbn; try done.
  - by exists [].
  - split; cbn; [constructor| |done]. intros r q Hq. by rewrite lookup_empty in Hq.
  - exists []. done.
Qed.

Lemma stored_run d o : stored ord redact d -> stored ord redact (run ord redact o d).
Proof. intros (ops & ->). exists (ops ++ [o]). unfold runs. by rewrite fold_left_app. Qed.

Lemma lab_in l l' e : map lab l' = map lab l -> e ∈ l -> exists e', e' ∈ l' /\ e_nid e' = e_nid e.
Proof.
  intros Hl He. assert (H : lab e ∈ map lab l') by (rewrite Hl; apply elem_of_list_fmap; eauto).
  apply elem_of_list_fmap in H as (e' & H & He'). exists e'. split; [done|]. unfold lab in H. by injection H.
Qed.

(** Storing. *)
Lemma store_inv s b o : pinv s b -> pinv (pstep1 ord redact env delay s (PStore o)) b.
Proof.
  intros [I1 I2 I3 I4 I5 I6 I7 I8]. pose proof (StoreProps.stored_base _ _ _ Hred I1) as Hb.
  destruct (store_step ord redact Hred o (p_db s) Hb) as (new & Hlab & Hb' & Hseq & Hgt & Hnews).
  assert (Hstep : pstep1 ord redact env delay s (PStore o) =
    mk_pipe (run ord redact o (p_db s)) (p_bus s ++ news redact (p_db s) o) (p_on s) (p_log s) (p_wait s) (p_queue s) (p_conn s)).
  { cbn [pstep1]. f_equal. unfold news. destruct o; try by rewrite app_nil_r.
    destruct (accumulate _ _ _ _).1; [|by rewrite app_nil_r]. destruct (_ =? 0); [by rewrite app_nil_r|done]. }
  rewrite Hstep. set (d := p_db s) in *. set (d' := run ord redact o d) in *.
  assert (HT : trows (d_events d') rm = trows (d_events d) rm ++ trows new rm).
  { rewrite <- trows_app. apply trows_lab. by rewrite map_app. }
  assert (Hkeep : forall e, e ∈ d_events d -> exists e', e' ∈ d_events d' /\ e_nid e' = e_nid e).
  { intros e He. apply (lab_in (d_events d ++ new)); [by rewrite map_app|]. apply elem_of_app. by left. }
  assert (Hnewin : forall e, e ∈ new -> exists e', e' ∈ d_events d' /\ e_nid e' = e_nid e).
  { intros e He. apply (lab_in (d_events d ++ new)); [by rewrite map_app|]. apply elem_of_app. by right. }
  assert (Hent : forall e, entry_ok d rm (p_log s) e -> entry_ok d' rm (p_log s) e).
  { intros e (t & st & H1 & H2 & H3 & H4 & H5). exists t, st. split; [done|]. split; [done|]. split; [done|]. split; [lia|].
    intros E. rewrite HT. apply elem_of_app. left. by apply H5. }
  split; cbn [p_db p_bus p_on p_log p_wait p_queue p_conn].
  - by apply stored_run.
  - apply Forall_app. split.
    + eapply Forall_impl; [exact I2|]. intros p [H1 H2]. split; [done|]. eapply Forall_impl; [exact H2|].
      intros n (e & He & <-). apply Hkeep in He as (e' & H3 & H4). by exists e'.
    + destruct Hnews as [[-> _]|(r & -> & _)]; constructor; [|constructor]. cbn [snd]. split.
      * assert (Hsort : StronglySorted Z.lt (map e_nid (d_events d'))) by apply Hb'.
        assert (Hm : map e_nid (d_events d') = map e_nid (d_events d) ++ map e_nid new).
        { pose proof (f_equal (map (fun x => x.1.1.1)) Hlab) as H. rewrite map_app, !map_map in H. exact H. }
        rewrite Hm in Hsort. eapply sorted_sublist; [|exact Hsort]. by apply sublist_inserts_l.
      * apply Forall_forall. intros n Hn. apply elem_of_list_fmap in Hn as (e & -> & He). apply Hnewin in He as (e' & H1 & H2). by exists e'.
  - destruct I3 as [E1 E2 E3]. split; cbn [p_queue p_wait p_log].
    + eapply Forall_impl; [exact E1|]. done.
    + intros r q Hq. eapply Forall_impl; [by apply (E2 r)|]. intros e [H1 H2]. split; [done|]. by apply Hent.
    + done.
  - done.
  - done.
  - fold d' in Hseq. lia.
  - done.
  - destruct I8 as (C & M1 & M2 & M3). exists C. split; [|split; [done|]].
    + rewrite HT, map_app, M1, <- app_assoc. f_equal. unfold on_the_way, buffered, held_back, in_channel.
      cbn [p_queue p_wait p_bus]. rewrite <- !app_assoc. do 2 f_equal. rewrite List.filter_app, map_app, concat_app. f_equal.
      destruct Hnews as [[-> Hs]|(r & -> & Hs)].
      * by rewrite (trows_state _ _ Hs).
      * rewrite (trows_room _ rm r Hs). cbn [List.filter fst]. destruct (String.eqb r rm); [|done]. cbn. rewrite map_map, app_nil_r. done.
    + intros Hbt. destruct (M3 Hbt) as [H|(H1 & H2 & k & H3)]; [by left|]. right. split; [done|]. split; [done|]. exists k. rewrite H3.
      rewrite HT, upto_app, (upto_none _ (trows new rm)), app_nil_r; [done|].
      apply Forall_forall. intros p Hp. apply trows_in in Hp as (e & He & -> & _). cbn [fst]. pose proof (Hgt e He).
      assert (0 < f_anchor (p_conn s)) as Ha by (destruct (Z.leb_spec (f_anchor (p_conn s)) 0) as [H0|]; [apply I5 in H0 as [_ ?]; congruence|done]).
      pose proof (I7 Ha). lia.
Qed.

(** Receiving a message. *)
Lemma dispatch_inv s b ok joined txn now : pinv s b -> goes_well env rm s (PDispatch ok joined txn now) ->
  pinv (pstep1 ord redact env delay s (PDispatch ok joined txn now)) b.
Proof.
  intros I Hg. pose proof I as [I1 I2 I3 I4 I5 I6 I7 I8]. pose proof (StoreProps.stored_base _ _ _ Hred I1) as Hb.
  cbn [goes_well] in Hg. unfold next_message in Hg. cbn [pstep1]. destruct (p_bus s) as [|[room l] bus] eqn:Ebus; [done|]. cbn in Hg.
  inversion I2 as [|? ? [Hls Hlin] Hbus']; subst. cbn [snd] in *.
  set (s1 := mk_pipe (p_db s) bus (p_on s) (p_log s) (p_wait s) (p_queue s) (p_conn s)).
  assert (E1 : entries_ok (p_db s) delay rm s1) by (by destruct I3; split).
  destruct I8 as (C & M1 & M2 & M3).
  assert (Hway : on_the_way s rm = staged s1 rm ++ (if String.eqb room rm then l else []) ++ in_channel s1 rm).
  { unfold on_the_way, staged, in_channel. rewrite Ebus. cbn [p_bus s1 List.filter fst]. rewrite <- app_assoc. do 2 f_equal.
    by destruct (String.eqb room rm). }
  (* a message which is dropped *)
  assert (Hdrop : room <> rm \/ p_on s = false -> pinv s1 b).
  { intros Hd. split; cbn [p_db p_bus p_on p_log p_wait p_queue p_conn s1]; try done.
    destruct Hd as [Hne|Hoff].
    - exists C. split; [|done]. rewrite M1, Hway. apply String.eqb_neq in Hne. rewrite Hne. unfold on_the_way, staged. by rewrite <- !app_assoc.
    - destruct (I4 Hoff) as (Q1 & Q2 & Q3). exists (C ++ if String.eqb room rm then l else []). split; [|split].
      + rewrite M1, Hway, <- app_assoc. f_equal. unfold on_the_way, staged, buffered, held_back. cbn [p_queue p_wait s1]. rewrite Q1, Q2, lookup_empty. done.
      + lia.
      + intros Hbt. apply I5 in Q3 as [_ Q3]. congruence. }
  unfold on_accumulate. destruct (decide (room = rm)) as [Hr|Hr].
  2:{ destruct ok; [|by apply Hdrop; left]. destruct (select_all (p_db s) l Hb Hls Hlin) as (rows & Hsel & Hnids & Hrows).
      change (p_db s1) with (p_db s). rewrite Hsel. destruct (p_on s) eqn:Eon; [|rewrite hand_out_off by done; by apply Hdrop; right].
      rewrite <- Hnids. destruct (hand_out_all (p_db s) (fe_user env) delay now joined txn room rm rows s1) as (A1 & (A2 & A3 & A4 & A5) & A6); [done|by right| |done|].
      { eapply Forall_impl; [exact Hrows|]. intros e He. split; [|done]. by apply Hb. }
      set (s2 := fold_left _ _ s1) in *. clearbody s2. destruct (Hdrop (or_introl Hr)) as [J1 J2 J3 J4 J5 J6 J7 J8].
      split; rewrite ?A2, ?A3, ?A4, ?A5; try done.
      destruct J8 as (C' & N1 & N2). exists C'. split; [|done]. rewrite N1. f_equal. unfold on_the_way. unfold in_channel. rewrite A3.
      apply String.eqb_neq in Hr. rewrite Hr, app_nil_r in A6. unfold staged in A6. rewrite !app_assoc. by rewrite A6. }
  subst room. destruct (Hg eq_refl) as [-> Hj]. destruct (select_all (p_db s) l Hb Hls Hlin) as (rows & Hsel & Hnids & Hrows).
  change (p_db s1) with (p_db s). rewrite Hsel. destruct (p_on s) eqn:Eon; [|rewrite hand_out_off by done; by apply Hdrop; right].
  rewrite <- Hnids. destruct (hand_out_all (p_db s) (fe_user env) delay now joined txn rm rm rows s1) as (A1 & (A2 & A3 & A4 & A5) & A6); [done|by left| |done|].
  { apply Forall_forall. intros e He. pose proof (proj1 (Forall_forall _ _) Hrows e He) as Hin. split; [by apply Hb|]. intros _.
    (* a position in the channel belongs to a row of the timeline *)
    assert (Hn : e_nid e ∈ map fst (trows (d_events (p_db s)) rm)).
    { rewrite M1, Hway, String.eqb_refl. apply elem_of_app. right. apply elem_of_app. right. apply elem_of_app. left.
      rewrite <- Hnids. apply elem_of_list_fmap. eauto. }
    apply elem_of_list_fmap in Hn as (p & Hp1 & Hp2). pose proof Hp2 as Hp3. apply trows_in in Hp3 as (x & Hx & -> & _). cbn [fst] in Hp1.
    assert (x = e) as -> by (by apply (sorted_inj (d_events (p_db s))); [apply Hb|..]). done. }
  set (s2 := fold_left _ _ s1) in *. clearbody s2.
  split; rewrite ?A2, ?A3, ?A4, ?A5; try done.
  exists C. split; [|done]. change (p_db s1) with (p_db s). rewrite M1. f_equal. rewrite Hway, String.eqb_refl. unfold on_the_way. rewrite String.eqb_refl in A6.
  unfold in_channel. rewrite A3. rewrite (app_assoc (buffered s2 rm)). unfold staged at 1 in A6. rewrite A6, <- Hnids. by rewrite <- app_assoc.
Qed.

Lemma register_inv s b : pinv s b -> pinv (pstep1 ord redact env delay s PRegister) b.
Proof. intros [I1 I2 I3 I4 I5 I6 I7 I8]. split; cbn [pstep1 p_db p_bus p_on p_log p_wait p_queue p_conn]; try done. by destruct I3; split. Qed.

Lemma filter_own (l : list TxnModel.ev) r : Forall (fun e => TxnModel.e_room e = r) l ->
  List.filter (fun e => String.eqb (TxnModel.e_room e) rm) l = if String.eqb r rm then l else [].
Proof.
  induction 1 as [|e l He H IH]; [by destruct (String.eqb r rm)|]. cbn [List.filter]. rewrite He, IH. by destruct (String.eqb r rm).
Qed.

Lemma release_inv s b r nid : pinv s b -> pinv (pstep1 ord redact env delay s (PRelease r nid)) b.
Proof.
  intros I. pose proof I as [I1 I2 I3 I4 I5 I6 I7 I8]. cbn [pstep1]. unfold TxnModel.PublishUpToNID.
  destruct (TxnModel.t_queues (p_wait s) !! r) as [q|] eqn:Eq.
  2:{ change (events_of []) with (@nil TxnModel.ev). rewrite app_nil_r. by destruct s. }
  destruct (TxnModel.split_at nid q) as [a q'] eqn:Es. apply split_at_app in Es as ->. rewrite events_of_ev.
  destruct I3 as [E1 E2 E3]. pose proof (E2 r _ Eq) as Hq. apply Forall_app in Hq as [Ha Hq'].
  set (w := match q' with [] => delete r (TxnModel.t_queues (p_wait s)) | _ => <[r := q']> (TxnModel.t_queues (p_wait s)) end).
  assert (Hw : forall r', default [] (w !! r') = if String.eqb r' r then q' else default [] (TxnModel.t_queues (p_wait s) !! r')).
  { intros r'. unfold w. destruct (String.eqb_spec r' r) as [->|Hne].
    - destruct q'; [by rewrite lookup_delete|by rewrite lookup_insert].
    - destruct q'; [by rewrite lookup_delete_ne|by rewrite lookup_insert_ne]. }
  assert (Hwin : forall r' q0, w !! r' = Some q0 -> Forall (fun e => TxnModel.e_room e = r' /\ entry_ok (p_db s) rm (p_log s) e) q0).
  { intros r' q0. unfold w. destruct (decide (r' = r)) as [->|Hne].
    - destruct q' as [|y q']; [by rewrite lookup_delete|]. rewrite lookup_insert. by intros [= <-].
    - destruct q' as [|y q']; [rewrite lookup_delete_ne by done|rewrite lookup_insert_ne by done]; apply E2. }
  split; cbn [p_db p_bus p_on p_log p_wait p_queue p_conn]; try done.
  - split; cbn [p_queue p_wait p_log TxnModel.t_queues].
    + apply Forall_app. split; [done|]. eapply Forall_impl; [exact Ha|]. by intros e [_ ?].
    + exact Hwin.
    + intros Hd. apply E3 in Hd. rewrite Hd, lookup_empty in Eq. done.
  - intros Hoff. destruct (I4 Hoff) as (_ & Q2 & _). rewrite Q2, lookup_empty in Eq. done.
  - destruct I8 as (C & M1 & M2). exists C. split; [|done]. rewrite M1. f_equal.
    unfold on_the_way, buffered, held_back, in_channel. cbn [p_queue p_wait p_bus TxnModel.t_queues]. rewrite Hw.
    rewrite List.filter_app, map_app. rewrite (filter_own a r) by (eapply Forall_impl; [exact Ha|]; by intros e [? _]).
    destruct (String.eqb_spec rm r) as [<-|Hne].
    + rewrite Eq, String.eqb_refl. unfold default, id. rewrite map_app, <- !app_assoc. done.
    + assert (Hf : String.eqb r rm = false) by (apply String.eqb_neq; congruence). rewrite Hf. cbn [map]. by rewrite app_nil_r.
Qed.

(** The connection. *)
Lemma conn_inv s b b' c : pinv s b -> p_on s = true \/ f_anchor c <= 0 ->
  (f_anchor c <= 0 -> lp_of c rm = 0 /\ b' = false) -> f_anchor c <= d_seq (p_db s) -> (0 < f_anchor c -> 0 <= lp_of c rm <= f_anchor c) ->
  (forall C, map fst (trows (d_events (p_db s)) rm) = C ++ on_the_way s rm ->
     (0 < f_anchor (p_conn s) -> Forall (fun n => n <= f_anchor (p_conn s)) C) -> (b = true -> view_ok (p_db s) rm (p_conn s) C) ->
     (0 < f_anchor c -> Forall (fun n => n <= f_anchor c) C) /\ (b' = true -> view_ok (p_db s) rm c C)) ->
  pinv (with_conn c s) b'.
Proof.
  intros [I1 I2 I3 I4 I5 I6 I7 I8] Hon Hlow Han Hlp Hmain. split; cbn [with_conn p_db p_bus p_on p_log p_wait p_queue p_conn]; try done.
  - by destruct I3; split.
  - intros Hoff. destruct (I4 Hoff) as (Q1 & Q2 & Q3). split; [done|]. split; [done|]. destruct Hon as [Hon|Hon]; [congruence|done].
  - destruct I8 as (C & M1 & M2 & M3). exists C. split; [done|]. by apply Hmain.
Qed.
Lemma conn_same s b c : pinv s b -> f_anchor c = f_anchor (p_conn s) -> lp_of c rm = lp_of (p_conn s) rm -> eff c rm = eff (p_conn s) rm ->
  pinv (with_conn c s) b.
Proof.
  intros I E1 E2 E3. apply (conn_inv s b b c I); rewrite ?E1, ?E2; try apply I.
  - destruct (p_on s) eqn:Eon; [by left|]. right. by destruct (pi_off _ _ I Eon) as (_ & _ & ?).
  - intros C M1 M2 M3. split; [done|]. unfold view_ok. rewrite E2, E3. done.
Qed.

Lemma highest_ge d e : e ∈ d_events d -> e_nid e <= highest d.
Proof.
  unfold highest. assert (H : forall l z, z <= fold_left Z.max l z /\ forall x, x ∈ l -> x <= fold_left Z.max l z).
  { induction l as [|y l IH]; intros z; cbn [fold_left]; [split; [lia|]; intros x Hx; by apply elem_of_nil in Hx|].
    destruct (IH (Z.max z y)) as [H1 H2]. split; [lia|]. intros x Hx. apply elem_of_cons in Hx as [->|Hx]; [lia|by apply H2]. }
  intros He. apply H. apply elem_of_list_fmap. eauto.
Qed.
Lemma highest_le d : base0 d -> highest d <= d_seq d.
Proof.
  intros [_ _ H1 H2]. unfold highest. assert (H : forall l z, z <= d_seq d -> Forall (fun x => x <= d_seq d) l -> fold_left Z.max l z <= d_seq d).
  { induction l as [|y l IH]; intros z Hz Hf; cbn [fold_left]; [done|]. inversion Hf; subst. apply IH; [lia|done]. }
  apply H; [done|]. apply Forall_forall. intros x Hx. apply elem_of_list_fmap in Hx as (e & -> & He). by apply H1.
Qed.
Lemma room_positions_ok d pos rooms n : base0 d -> room_positions d pos rooms !! rm = Some n -> 0 <= n <= pos.
Proof.
  intros Hb. unfold room_positions. induction rooms as [|r rooms IH]; cbn [fold_right]; [by rewrite lookup_empty|].
  destruct (room_position d pos r) as [m|] eqn:E; [|done]. destruct (decide (rm = r)) as [->|Hne].
  - rewrite lookup_insert. intros [= <-]. unfold room_position in E. apply last_Some_elem_of in E.
    apply elem_of_list_fmap in E as (e & -> & He). apply elem_of_list_In, filter_In in He as [He Hp]. apply elem_of_list_In in He.
    apply Hb in He. lia.
  - rewrite lookup_insert_ne by done. done.
Qed.

Lemma load_inv s b rooms : pinv s b -> goes_well env rm s (PLoad rooms) -> pinv (pstep1 ord redact env delay s (PLoad rooms)) b.
Proof.
  intros I (Hon & _ & Hpos). pose proof (StoreProps.stored_base _ _ _ Hred (pi_stored _ _ I)) as Hb. cbn [pstep1 fstep1 fst]. unfold load.
  destruct (Z.leb_spec (f_anchor (p_conn s)) 0) as [Hlow|Hhigh]; [|apply (conn_same s b); done].
  destruct (pi_low _ _ I Hlow) as [Hlp ->].
  apply (conn_inv s false false); cbn [f_anchor]; [done|by left|lia|by apply highest_le| |].
  - intros _. unfold lp_of. cbn [f_lp]. destruct (room_positions (p_db s) (highest (p_db s)) rooms !! rm) as [n|] eqn:E.
    + rewrite (lookup_union_Some_l _ _ _ _ E). cbn. by apply (room_positions_ok _ _ _ _ Hb) in E.
    + rewrite lookup_union_r by done. unfold lp_of in Hlp. rewrite Hlp. lia.
  - intros C M1 _ _. split; [|done]. intros _. apply Forall_forall. intros n Hn.
    assert (Hin : n ∈ map fst (trows (d_events (p_db s)) rm)) by (rewrite M1; apply elem_of_app; by left).
    apply elem_of_list_fmap in Hin as (p & -> & Hp). apply trows_in in Hp as (e & He & -> & _). by apply highest_ge.
Qed.

Lemma on_of s b : pinv s b -> 0 < f_anchor (p_conn s) -> p_on s = true.
Proof. intros I Hp. destruct (p_on s) eqn:E; [done|]. destruct (pi_off _ _ I E) as (_ & _ & ?). lia. Qed.

Lemma rooms_inv s b inits : pinv s b -> goes_well env rm s (PRooms inits) ->
  pinv (pstep1 ord redact env delay s (PRooms inits)) (in_view_after rm s (PRooms inits) b).
Proof.
  intros I [Hpos Hg]. cbn [pstep1 fstep1 fst in_view_after].
  set (c' := load_rooms env (p_conn s) (map (at_db (p_db s)) inits)).
  assert (Ha : f_anchor c' = f_anchor (p_conn s)) by apply load_rooms_anchor.
  pose proof (StoreProps.stored_base _ _ _ Hred (pi_stored _ _ I)) as Hb.
  destruct (load_rooms_rm ord redact env (p_db s) rm (f_anchor (p_conn s)) inits Hred (pi_stored _ _ I) Hmax Hpos Hg (p_conn s) eq_refl)
    as [(H1 & H2 & H3)|(Hex & Hld)].
  - assert (b || existsb (fun i => String.eqb (i_room i) rm) inits = b) as ->.
    { destruct (existsb _ inits) eqn:E; [|by rewrite orb_false_r]. exfalso. apply existsb_exists in E as (i & Hi & Hr). apply String.eqb_eq in Hr.
      rewrite List.Forall_forall in H1. by apply (H1 i Hi). }
    by apply conn_same.
  - assert (Hlv : forall C, map fst (trows (d_events (p_db s)) rm) = C ++ on_the_way s rm -> Forall (fun n => n <= f_anchor (p_conn s)) C ->
      view_ok (p_db s) rm c' C /\ lp_of c' rm <= Z.max 0 (f_anchor (p_conn s)) /\ 0 <= lp_of c' rm).
    { intros C M1 M2. eapply loaded_view; [apply Hb|exact M1|exact M2|exact Hld]. }
    apply (conn_inv s b); rewrite ?Ha.
    + done.
    + left. by eapply on_of.
    + lia.
    + apply I.
    + intros _. destruct (pi_main _ _ I) as (C & M1 & M2 & _). destruct (Hlv C M1 (M2 Hpos)) as (_ & ? & ?). lia.
    + intros C M1 M2 _. split; [done|]. intros _. by apply Hlv; [|apply M2].
Qed.

Lemma consume_inv s b inits shown ignored found : pinv s b -> goes_well env rm s (PConsume inits shown ignored found) ->
  pinv (pstep1 ord redact env delay s (PConsume inits shown ignored found)) (in_view_after rm s (PConsume inits shown ignored found) b).
Proof.
  intros I (Hpos & Hown & Hall). pose proof I as [I1 I2 I3 I4 I5 I6 I7 I8]. cbn [pstep1 in_view_after]. unfold next_update in *.
  destruct (p_queue s) as [|e queue] eqn:Equ; [done|]. cbn [head fmap option_fmap option_map] in *.
  destruct I3 as [E1 E2 E3]. rewrite Equ in E1. inversion E1 as [|? ? (t & st & T1 & T2 & T3 & T4 & T5) E1']; subst.
  rewrite T1. cbn [fstep1].
  set (v := mk_live (t_room t) t st false true ignored found).
  destruct (Hall _ _ eq_refl) as [Hloads Htaken]. rewrite <- T2 in Hloads, Htaken. rewrite <- T3 in Htaken.
  assert (Hon : p_on s = true) by (by eapply on_of).
  destruct I8 as (C & M1 & M2 & M3). specialize (M2 Hpos). pose proof (I7 Hpos) as Hlp.
  set (s' := mk_pipe (p_db s) (p_bus s) (p_on s) (p_log s) (p_wait s) queue (p_conn s)).
  assert (Hway : on_the_way s rm = (if String.eqb (t_room t) rm then [t_nid t] else []) ++
     on_the_way s' rm).
  { unfold on_the_way, buffered, held_back, in_channel. cbn [p_queue p_wait p_bus]. rewrite Equ. cbn [List.filter]. rewrite <- T3.
    destruct (String.eqb (t_room t) rm); [|done]. cbn [map app]. by rewrite T2. }
  set (c' := (process_live env (p_conn s) v (map (at_db (p_db s)) inits) shown).1).
  assert (Hrest : forall b' C', f_anchor (p_conn s) <= f_anchor c' <= Z.max (f_anchor (p_conn s)) (t_nid t) -> 0 <= lp_of c' rm <= f_anchor c' ->
    map fst (trows (d_events (p_db s)) rm) = C' ++ on_the_way s' rm ->
    Forall (fun n => n <= f_anchor c') C' -> (b' = true -> view_ok (p_db s) rm c' C') ->
    pinv (mk_pipe (p_db s) (p_bus s) (p_on s) (p_log s) (p_wait s) queue c') b').
  { intros b' C' R1 R2 R3 R4 R5. split; cbn [p_db p_bus p_on p_log p_wait p_queue p_conn]; try done.
    - congruence.
    - lia.
    - lia.
    - exists C'. done. }
  destruct (String.eqb_spec (t_room t) rm) as [Hr|Hr].
  - rewrite <- T3, Hr, String.eqb_refl. destruct (Hown (t_nid t)) as [Hign Htimely]; [by rewrite <- T3, Hr, T2|].
    rewrite Hway in M1. cbn [app] in M1. rewrite Hr in Htaken.
    destruct (live_own ord redact env (p_db s) rm (p_conn s) v inits shown C (on_the_way s' rm) b Hred I1 Hmax Hr eq_refl eq_refl Hign Hpos) as (A1 & A2 & A3 & A4);
      [exact Hloads| |exact M1|by apply T5|done|done|done|].
    { intros Hex. split; [by apply Htaken|by apply Htimely]. }
    apply (Hrest _ (C ++ [t_nid t])); [done|done|by rewrite <- app_assoc|done|done].
  - rewrite <- T3. apply String.eqb_neq in Hr as Hrf. rewrite Hrf. cbn [app] in Hway. rewrite Hway in M1.
    destruct (live_other ord redact env (p_db s) rm (p_conn s) v inits shown C (on_the_way s' rm) b Hred I1 Hmax Hr eq_refl (proj1 T4) Hpos) as (A1 & A2 & A3);
      [exact Hloads|exact Htaken|exact M1|done|done|done|].
    apply (Hrest _ C); [done|done|done| |done].
    eapply Forall_impl; [exact M2|]. cbn. fold c' in A1. lia.
Qed.

Lemma typing_inv s b r users : pinv s b -> pinv (pstep1 ord redact env delay s (PTyping r users)) b.
Proof.
  intros I. cbn [pstep1 fstep1]. unfold lazy_typing. destruct (isLazyLoading _ _); [|by apply conn_same].
  destruct (typing_members _ _ _ _) as [[lz members] sent]. cbn [fst].
  destruct (0 <? _); [|by apply conn_same]. apply conn_same; [done|done|done|].
  apply (eff_same (p_conn s) r members (f_lp (p_conn s)) lz).
Qed.
Lemma respond_inv s b : pinv s b -> pinv (pstep1 ord redact env delay s PRespond) b.
Proof. intros I. cbn [pstep1 fstep1 fst]. apply conn_same; [done|done|done|]. apply eff_respond. Qed.

Lemma step_inv s b st : pinv s b -> goes_well env rm s st -> pinv (pstep1 ord redact env delay s st) (in_view_after rm s st b).
Proof.
  intros I Hg. destruct st as [o| |ok joined txn now|r nid|inits shown ignored found|rooms|inits|r users|].
  - by apply store_inv.
  - by apply register_inv.
  - by apply dispatch_inv.
  - by apply release_inv.
  - by apply consume_inv.
  - by apply load_inv.
  - by apply rooms_inv.
  - by apply typing_inv.
  - by apply respond_inv.
Qed.
Lemma run_pinv l s b : well_run ord redact env delay rm l s b -> pinv s b.
Proof. induction 1 as [|l s b st H IH Hg]; [apply pinv0|by apply step_inv]. Qed.
End Inv.
