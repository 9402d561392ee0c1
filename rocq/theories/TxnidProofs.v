(** Lemmas about the model of transaction IDs. *)
From Verif Require Import Prelude TxnidModel TxnidSpec.
Open Scope string_scope. Open Scope list_scope. Open Scope Z_scope.

Section fold_insert.
  Context {K : Type} `{EqDecision K, Countable K} {A : Type}.
  Definition fins (rows : list (K * A)) (m : gmap K A) : gmap K A :=
    fold_left (fun m (r : K * A) => <[r.1 := r.2]> m) rows m.

  Lemma fins_sound rows : forall m k v, fins rows m !! k = Some v -> In (k, v) rows \/ m !! k = Some v.
  Proof.
    induction rows as [|[k0 v0] rows IH]; intros m k v E; [right; exact E|].
    destruct (IH _ _ _ E) as [Hi | E']; [left; right; exact Hi|].
    cbn in E'. destruct (decide (k0 = k)) as [<- | Hne].
    - rewrite lookup_insert in E'. injection E' as <-. left. left. reflexivity.
    - rewrite lookup_insert_ne in E' by exact Hne. right. exact E'.
  Qed.

  Lemma fins_keep rows : forall m k, is_Some (m !! k) -> is_Some (fins rows m !! k).
  Proof.
    induction rows as [|[k0 v0] rows IH]; intros m k E; [exact E|].
    apply IH. cbn. destruct (decide (k0 = k)) as [<- | Hne].
    - rewrite lookup_insert. eauto.
    - rewrite lookup_insert_ne by exact Hne. exact E.
  Qed.

  Lemma fins_complete rows : forall m k v, In (k, v) rows -> is_Some (fins rows m !! k).
  Proof.
    induction rows as [|[k0 v0] rows IH]; intros m k v Hi; [destruct Hi|]. destruct Hi as [E | Hi].
    - injection E as -> ->. apply (fins_keep rows (<[k := v]> m)). rewrite lookup_insert. eauto.
    - exact (IH _ _ _ Hi).
  Qed.

  Lemma fins_other rows : forall m k, (forall v, ~ In (k, v) rows) -> fins rows m !! k = m !! k.
  Proof.
    induction rows as [|[k0 v0] rows IH]; intros m k Hn; [reflexivity|].
    change (fins rows (<[k0 := v0]> m) !! k = m !! k). rewrite IH.
    - apply lookup_insert_ne. intros ->. exact (Hn v0 (or_introl eq_refl)).
    - intros v Hv. exact (Hn v (or_intror Hv)).
  Qed.
End fold_insert.

(* ---- the transaction IDs of a timeline ---- *)

Lemma ids_of_sound evs id t : ids_of evs !! id = Some t -> exists e, In e evs /\ t_id e = id /\ t_transaction e = Some t.
Proof.
  unfold ids_of. enough (G : forall m, fold_left (fun (m : gmap string string) e => match t_transaction e with Some t => <[t_id e := t]> m | None => m end) evs m !! id = Some t ->
    m !! id = Some t \/ exists e, In e evs /\ t_id e = id /\ t_transaction e = Some t).
  { intros E. destruct (G _ E) as [E' | E']; [rewrite lookup_empty in E'; discriminate | exact E']. }
  induction evs as [|e evs IH]; intros m E; [left; exact E|].
  destruct (IH _ E) as [E' | (e' & Hi & E')]; [| right; exists e'; split; [right; exact Hi | exact E']].
  destruct (t_transaction e) as [t0|] eqn:Et; [|left; exact E'].
  destruct (decide (t_id e = id)) as [Heq | Hne].
  - rewrite Heq, lookup_insert in E'. injection E' as ->. right. exists e. split; [left; reflexivity | split; assumption].
  - rewrite lookup_insert_ne in E' by exact Hne. left. exact E'.
Qed.

Lemma ids_of_complete evs e t : In e evs -> t_transaction e = Some t -> is_Some (ids_of evs !! t_id e).
Proof.
  unfold ids_of. intros Hi Et.
  set (f := fun (m : gmap string string) (e : tev) => match t_transaction e with Some t => <[t_id e := t]> m | None => m end).
  assert (Keep : forall evs m, is_Some (m !! t_id e) -> is_Some (fold_left f evs m !! t_id e)).
  { clear. intros evs. induction evs as [|e' evs IH]; intros m Hm; [exact Hm|]. apply IH. unfold f.
    destruct (t_transaction e') as [t'|]; [|exact Hm].
    destruct (decide (t_id e' = t_id e)) as [-> | Hne]; [rewrite lookup_insert; eauto | rewrite lookup_insert_ne by exact Hne; exact Hm]. }
  generalize (∅ : gmap string string). revert Hi. induction evs as [|e' evs IH]; intros Hi m; [destruct Hi|].
  destruct Hi as [-> | Hi]; [|exact (IH Hi _)].
  apply (Keep evs). unfold f. rewrite Et, lookup_insert. eauto.
Qed.

Lemma ids_of_honest T user dev evs e t : Forall (honest_event T user dev) evs -> In e evs -> t_transaction e = Some t ->
  ids_of evs !! t_id e = Some t.
Proof.
  intros HT Hi Et. destruct (ids_of_complete _ _ _ Hi Et) as [t' E]. rewrite E. f_equal.
  destruct (ids_of_sound _ _ _ E) as (e' & Hi' & Eid & Et').
  rewrite Forall_forall in HT.
  destruct (HT e (proj2 (elem_of_list_In _ _) Hi)) as [_ H1]. destruct (HT e' (proj2 (elem_of_list_In _ _) Hi')) as [_ H2].
  destruct (H1 _ Et) as [_ D1]. destruct (H2 _ Et') as [_ D2]. rewrite Eid in D2. rewrite D1 in D2. injection D2 as ->. reflexivity.
Qed.

(* ---- the table of transaction IDs ---- *)

Definition rows_of (user dev : string) (ids : gmap string string) (now : Z) : list (key * (string * Z)) :=
  map (fun e : string * string => ((user, dev, e.1), (e.2, now))) (map_to_list ids).

Lemma rows_of_in user dev ids now k v : In (k, v) (rows_of user dev ids now) <->
  exists id t, k = (user, dev, id) /\ v = (t, now) /\ ids !! id = Some t.
Proof.
  unfold rows_of. rewrite in_map_iff. split.
  - intros ([id t] & E & Hi). cbn in E. injection E as <- <-. exists id, t. split; [reflexivity|]. split; [reflexivity|].
    apply elem_of_map_to_list. apply elem_of_list_In. exact Hi.
  - intros (id & t & -> & -> & E). exists (id, t). split; [reflexivity|]. apply elem_of_list_In. apply elem_of_map_to_list. exact E.
Qed.

Lemma insert_txns_sound m user dev ids now k v : insert_txns m user dev ids now !! k = Some v ->
  m !! k = Some v \/ exists id t, k = (user, dev, id) /\ v = (t, now) /\ ids !! id = Some t.
Proof.
  unfold insert_txns. fold (rows_of user dev ids now). destruct (forallb _ _); [|left; assumption].
  intros E. destruct (fins_sound _ _ _ _ E) as [Hi | E']; [right; apply rows_of_in; exact Hi | left; exact E'].
Qed.

Lemma insert_txns_mono m user dev ids now k v : m !! k = Some v -> insert_txns m user dev ids now !! k = Some v.
Proof.
  unfold insert_txns. fold (rows_of user dev ids now). destruct (forallb _ _) eqn:F; [|exact (fun E => E)].
  intros E. rewrite <- E. apply (fins_other (rows_of user dev ids now) m k). intros v' Hv.
  rewrite forallb_forall in F. specialize (F _ Hv). apply bool_decide_eq_true_1 in F. cbn in F. rewrite F in E. discriminate.
Qed.

Lemma insert_txns_fresh m user dev ids now id t : (forall i, is_Some (ids !! i) -> m !! (user, dev, i) = None) ->
  ids !! id = Some t -> insert_txns m user dev ids now !! (user, dev, id) = Some (t, now).
Proof.
  intros Hf E. unfold insert_txns. fold (rows_of user dev ids now).
  assert (F : forallb (fun r : key * (string * Z) => bool_decide (m !! r.1 = None)) (rows_of user dev ids now) = true).
  { apply forallb_forall. intros [k v] Hi. apply rows_of_in in Hi. destruct Hi as (i & t' & -> & _ & Ei).
    apply bool_decide_eq_true_2. apply Hf. eauto. }
  rewrite F.
  assert (Hin : In ((user, dev, id), (t, now)) (rows_of user dev ids now)) by (apply rows_of_in; eauto).
  destruct (fins_complete _ m _ _ Hin) as [v E']. unfold fins in E'.
  destruct (fins_sound _ _ _ _ E') as [Hi | Em].
  - apply rows_of_in in Hi. destruct Hi as (i & t' & Ek & -> & Ei). injection Ek as <-. rewrite E in Ei. injection Ei as <-. exact E'.
  - rewrite Hf in Em by eauto. discriminate.
Qed.

(** Every row is true. *)
Definition true_rows (T : truth) (m : txns) : Prop :=
  forall user dev id t now, m !! (user, dev, id) = Some (t, now) -> by_user T id = user /\ by_device T id = Some (dev, t).

Lemma tstep_true_rows T s o : honest T o -> true_rows T (s_txns s) -> true_rows T (s_txns (tstep s o)).
Proof.
  intros Ho Hs. destruct o as [user dev evs ok stored now | user dev evs stored | b]; cbn [tstep s_txns].
  - destruct (ok && _); [|exact Hs]. intros u d id t n E.
    destruct (insert_txns_sound _ _ _ _ _ _ _ E) as [E' | (i & t' & Ek & Ev & Ei)]; [exact (Hs _ _ _ _ _ E')|].
    injection Ek as -> -> ->. injection Ev as -> ->. destruct (ids_of_sound _ _ _ Ei) as (e & Hi & Eid & Et).
    cbn in Ho. rewrite Forall_forall in Ho. destruct (Ho e (proj2 (elem_of_list_In _ _) Hi)) as [_ H]. rewrite Eid in H. exact (H _ Et).
  - exact Hs.
  - intros u d id t n E. apply map_filter_lookup_Some in E. exact (Hs _ _ _ _ _ (proj1 E)).
Qed.

Lemma truns_true_rows T l : forall s, Forall (honest T) l -> true_rows T (s_txns s) -> true_rows T (s_txns (truns s l)).
Proof.
  induction l as [|o l IH]; intros s Hl Hs; [exact Hs|]. apply Forall_cons in Hl. destruct Hl as [Ho Hl].
  exact (IH (tstep s o) Hl (tstep_true_rows T s o Ho Hs)).
Qed.

Lemma true_rows0 T : true_rows T (s_txns tstore0).
Proof. intros u d id t n E. cbn in E. rewrite lookup_empty in E. discriminate. Qed.

(** A row stays until it is cleaned. *)
Lemma truns_row_stays l : forall s k t now, s_txns s !! k = Some (t, now) ->
  Forall (fun o => match o with Clean b => b < now | _ => True end) l -> s_txns (truns s l) !! k = Some (t, now).
Proof.
  induction l as [|o l IH]; intros s k t now E Hl; [exact E|]. apply Forall_cons in Hl. destruct Hl as [Ho Hl].
  apply (IH (tstep s o)); [|exact Hl]. destruct o as [user dev evs ok stored n | user dev evs stored | b]; cbn [tstep s_txns].
  - destruct (ok && _); [apply insert_txns_mono|]; exact E.
  - exact E.
  - apply map_filter_lookup_Some. split; [exact E | exact Ho].
Qed.

(* ---- the table of events ---- *)

Lemma insert_events_app m l1 l2 : insert_events m (l1 ++ l2) = insert_events (insert_events m l1) l2.
Proof. unfold insert_events. apply fold_left_app. Qed.

Lemma truns_events l : forall s, s_events (truns s l) = insert_events (s_events s) (copies l).
Proof.
  induction l as [|o l IH]; intros s; [reflexivity|].
  change (truns s (o :: l)) with (truns (tstep s o) l). rewrite IH.
  destruct o as [user dev evs ok stored n | user dev evs stored | b]; cbn [tstep s_events copies flat_map];
    rewrite ?insert_events_app; reflexivity.
Qed.

Lemma insert_events_keep evs : forall m id e, m !! id = Some e -> insert_events m evs !! id = Some e.
Proof.
  induction evs as [|e0 evs IH]; intros m id e E; [exact E|]. apply IH.
  destruct (m !! t_id e0) eqn:E0; [exact E|]. rewrite lookup_insert_ne; [exact E|]. intros Heq. rewrite Heq in E0. congruence.
Qed.

Lemma insert_events_other evs : forall m id, Forall (fun e => t_id e <> id) evs -> insert_events m evs !! id = m !! id.
Proof.
  induction evs as [|e0 evs IH]; intros m id Hl; [reflexivity|]. apply Forall_cons in Hl. destruct Hl as [H0 Hl].
  change (insert_events (match m !! t_id e0 with Some _ => m | None => <[t_id e0 := strip e0]> m end) evs !! id = m !! id).
  rewrite IH by exact Hl. destruct (m !! t_id e0); [reflexivity|]. apply lookup_insert_ne. exact H0.
Qed.

(** The table has the first copy. *)
Lemma table_first_copy l id e : first_copy l id e -> s_events (truns tstore0 l) !! id = Some (strip e).
Proof.
  intros (before & after & Ec & <- & Hb). rewrite truns_events, Ec, insert_events_app. cbn [s_events tstore0].
  change (insert_events (match insert_events ∅ before !! t_id e with Some _ => insert_events ∅ before
    | None => <[t_id e := strip e]> (insert_events ∅ before) end) after !! t_id e = Some (strip e)).
  apply insert_events_keep. rewrite insert_events_other by exact Hb. rewrite lookup_empty. apply lookup_insert.
Qed.

Lemma first_copy_exists l id : (exists e, first_copy l id e) \/ Forall (fun e => t_id e <> id) (copies l).
Proof.
  unfold first_copy. induction (copies l) as [|e es IH]; [right; constructor|].
  destruct (decide (t_id e = id)) as [E | E].
  - left. exists e, [], es. split; [reflexivity|]. split; [exact E | constructor].
  - destruct IH as [(e' & b & a & Ec & Ei & Hb) | Hn].
    + left. exists e', (e :: b), a. split; [rewrite Ec; reflexivity|]. split; [exact Ei | constructor; assumption].
    + right. constructor; assumption.
Qed.

Lemma table_is_first_copy l id e : s_events (truns tstore0 l) !! id = Some e -> exists e0, first_copy l id e0 /\ e = strip e0.
Proof.
  intros E. destruct (first_copy_exists l id) as [(e0 & Hf) | Hn].
  - exists e0. split; [exact Hf|]. rewrite (table_first_copy _ _ _ Hf) in E. congruence.
  - rewrite truns_events, insert_events_other in E by exact Hn. cbn in E. rewrite lookup_empty in E. discriminate.
Qed.

Lemma copies_honest T l e : Forall (honest T) l -> In e (copies l) -> exists user dev, honest_event T user dev e.
Proof.
  intros Hl Hi. unfold copies in Hi. apply in_flat_map in Hi. destruct Hi as (o & Ho & Hi).
  rewrite Forall_forall in Hl. specialize (Hl o (proj2 (elem_of_list_In _ _) Ho)).
  destruct o as [user dev evs ok stored n | user dev evs stored | b]; cbn in Hl, Hi; [| |destruct Hi];
    apply filter_In in Hi; rewrite Forall_forall in Hl; exists user, dev; apply Hl; apply elem_of_list_In; exact (proj1 Hi).
Qed.

Lemma first_copy_in l id e : first_copy l id e -> In e (copies l) /\ t_id e = id.
Proof. intros (b & a & -> & Ei & _). split; [apply in_or_app; right; left; reflexivity | exact Ei]. Qed.

(* ---- annotating a response ---- *)

Lemma in_zip_seq (l : list tev) : forall k i e, In (i, e) (zip (seq k (length l)) l) <-> (k <= i)%nat /\ l !! (i - k)%nat = Some e.
Proof.
  induction l as [|e0 l IH]; intros k i e.
  - cbn. split; [intros [] | intros [_ E]; discriminate].
  - cbn [length seq]. change (zip (k :: seq (S k) (length l)) (e0 :: l)) with ((k, e0) :: zip (seq (S k) (length l)) l).
    split.
    + intros [E | Hi].
      * injection E as <- <-. split; [lia|]. rewrite Nat.sub_diag. reflexivity.
      * apply IH in Hi. destruct Hi as [Hk E]. split; [lia|]. replace (i - k)%nat with (S (i - S k)) by lia. exact E.
    + intros [Hk E]. destruct (decide (i = k)) as [-> | Hne].
      * rewrite Nat.sub_diag in E. cbn in E. injection E as ->. left. reflexivity.
      * right. apply IH. split; [lia|]. replace (i - k)%nat with (S (i - S k)) in E by lia. exact E.
Qed.

Lemma in_own user room l id p : In (id, p) (own user room l) <->
  exists i e, p = (room, i) /\ l !! i = Some e /\ t_id e = id /\ t_sender e = user.
Proof.
  unfold own. rewrite in_flat_map. split.
  - intros ([i e] & Hz & Hi). cbn in Hi. destruct (String.eqb (t_sender e) user) eqn:Es; [|destruct Hi].
    destruct Hi as [E | []]. injection E as <- <-. apply in_zip_seq in Hz. rewrite Nat.sub_0_r in Hz.
    exists i, e. split; [reflexivity|]. split; [exact (proj2 Hz)|]. split; [reflexivity | apply String.eqb_eq; exact Es].
  - intros (i & e & -> & El & <- & Es). exists (i, e). split.
    + apply in_zip_seq. rewrite Nat.sub_0_r. split; [lia | exact El].
    + cbn. rewrite Es, String.eqb_refl. left. reflexivity.
Qed.

Lemma in_positions user resp order id room i : order ≡ₚ map_to_list resp ->
  (In (id, (room, i)) (positions user order) <-> exists e, at_ resp room i e /\ t_id e = id /\ t_sender e = user).
Proof.
  intros Hp. unfold positions. rewrite in_flat_map. split.
  - intros ([r l] & Hr & Hi). cbn in Hi. apply in_own in Hi. destruct Hi as (j & e & E & El & Ei & Es). injection E as -> ->.
    exists e. split; [|split; assumption]. exists l. split; [|exact El].
    apply elem_of_map_to_list. rewrite <- Hp. apply elem_of_list_In. exact Hr.
  - intros (e & (l & Er & El) & Ei & Es). exists (room, l). split.
    + apply elem_of_list_In. rewrite Hp. apply elem_of_map_to_list. exact Er.
    + apply in_own. exists i, e. split; [reflexivity|]. split; [exact El|]. split; assumption.
Qed.

Lemma select_sound m user dev ids id t : select m user dev ids !! id = Some t -> In id ids /\ exists now, m !! (user, dev, id) = Some (t, now).
Proof.
  unfold select. enough (G : forall r, fold_left (fun (r : gmap string string) id => match m !! (user, dev, id) with Some (t, _) => <[id := t]> r | None => r end) ids r !! id = Some t ->
    r !! id = Some t \/ (In id ids /\ exists now, m !! (user, dev, id) = Some (t, now))).
  { intros E. destruct (G _ E) as [E' | E']; [rewrite lookup_empty in E'; discriminate | exact E']. }
  induction ids as [|i ids IH]; intros r E; [left; exact E|].
  destruct (IH _ E) as [E' | [Hi E']]; [|right; split; [right; exact Hi | exact E']].
  destruct (m !! (user, dev, i)) as [[t0 n]|] eqn:Em; [|left; exact E'].
  destruct (decide (i = id)) as [-> | Hne].
  - rewrite lookup_insert in E'. injection E' as ->. right. split; [left; reflexivity | eauto].
  - rewrite lookup_insert_ne in E' by exact Hne. left. exact E'.
Qed.

Lemma select_complete m user dev ids id t now : In id ids -> m !! (user, dev, id) = Some (t, now) -> select m user dev ids !! id = Some t.
Proof.
  intros Hi Em. unfold select.
  set (f := fun (r : gmap string string) id => match m !! (user, dev, id) with Some (t, _) => <[id := t]> r | None => r end).
  assert (Keep : forall ids r, r !! id = Some t -> fold_left f ids r !! id = Some t).
  { clear Hi. intros l. induction l as [|i l IH]; intros r Hr; [exact Hr|]. apply IH. unfold f.
    destruct (decide (i = id)) as [-> | Hne]; [rewrite Em; apply lookup_insert|].
    destruct (m !! (user, dev, i)) as [[t0 n]|]; [rewrite lookup_insert_ne by exact Hne|]; exact Hr. }
  generalize (∅ : gmap string string). revert Hi. induction ids as [|i l IH]; intros Hi r; [destruct Hi|].
  destruct Hi as [-> | Hi]; [|exact (IH Hi _)]. apply (Keep l). unfold f. rewrite Em. apply lookup_insert.
Qed.

(** What the loop over the rows does to one event. *)
Definition mark (W : gmap string (string * nat)) (room : string) (i : nat) (rows : list (string * string)) (e : tev) : tev :=
  fold_left (fun e (r : string * string) => if bool_decide (W !! r.1 = Some (room, i)) then set_txn r.2 e else e) rows e.

Lemma at_alter (resp : gmap string (list tev)) f room0 i0 room i e' :
  at_ (alter (alter f i0) room0 resp) room i e' <->
  exists e, at_ resp room i e /\ e' = if bool_decide ((room0, i0) = (room, i)) then f e else e.
Proof.
  unfold at_. split.
  - intros (l & El & Ei). destruct (decide (room0 = room)) as [-> | Hr].
    + rewrite lookup_alter in El. destruct (resp !! room) as [l0|]; [|discriminate]. cbn in El. injection El as <-.
      destruct (decide (i0 = i)) as [-> | Hi].
      * rewrite list_lookup_alter in Ei. destruct (l0 !! i) as [e|] eqn:E0; [|discriminate]. cbn in Ei. injection Ei as <-.
        exists e. split; [eauto|]. rewrite bool_decide_eq_true_2 by reflexivity. reflexivity.
      * rewrite list_lookup_alter_ne in Ei by exact Hi. exists e'. split; [eauto|].
        rewrite bool_decide_eq_false_2 by congruence. reflexivity.
    + rewrite lookup_alter_ne in El by exact Hr. exists e'. split; [eauto|]. rewrite bool_decide_eq_false_2 by congruence. reflexivity.
  - intros (e & (l & El & Ei) & ->). destruct (decide (room0 = room)) as [-> | Hr].
    + exists (alter f i0 l). split; [rewrite lookup_alter, El; reflexivity|].
      destruct (decide (i0 = i)) as [-> | Hi].
      * rewrite list_lookup_alter, Ei, bool_decide_eq_true_2 by reflexivity. reflexivity.
      * rewrite list_lookup_alter_ne by exact Hi. rewrite bool_decide_eq_false_2 by congruence. exact Ei.
    + exists l. rewrite lookup_alter_ne by exact Hr. split; [exact El|]. rewrite bool_decide_eq_false_2 by congruence. exact Ei.
Qed.

Definition where_is (user : string) (order : list (string * list tev)) : gmap string (string * nat) :=
  fins (positions user order) ∅.

Lemma annotate_at user order rows : forall resp room i e',
  at_ (annotate user order rows resp) room i e' <-> exists e, at_ resp room i e /\ e' = mark (where_is user order) room i rows e.
Proof.
  unfold annotate. fold (fins (positions user order) (∅ : gmap string (string * nat))). fold (where_is user order).
  generalize (where_is user order) as W. intros W. induction rows as [|[id t] rows IH]; intros resp room i e'.
  - cbn. split; [intros H; eauto | intros (e & H & ->); exact H].
  - cbn [fold_left fst snd]. rewrite IH. unfold mark at 2. cbn [fold_left fst snd]. fold (mark W room i rows).
    destruct (W !! id) as [[room0 i0]|] eqn:EW.
    + split.
      * intros (e & H & ->). apply at_alter in H. destruct H as (e0 & H & ->). exists e0. split; [exact H|].
        unfold mark. f_equal. destruct (decide ((room0, i0) = (room, i))) as [E | E].
        -- rewrite !bool_decide_eq_true_2 by congruence. reflexivity.
        -- rewrite !bool_decide_eq_false_2 by congruence. reflexivity.
      * intros (e & H & ->). exists (if bool_decide ((room0, i0) = (room, i)) then set_txn t e else e). split.
        -- apply at_alter. exists e. split; [exact H | reflexivity].
        -- unfold mark. f_equal. destruct (decide ((room0, i0) = (room, i))) as [E | E].
           ++ rewrite !bool_decide_eq_true_2 by congruence. reflexivity.
           ++ rewrite !bool_decide_eq_false_2 by congruence. reflexivity.
    + split; intros (e & H & ->); exists e; (split; [exact H|]); unfold mark; f_equal; rewrite bool_decide_eq_false_2 by congruence; reflexivity.
Qed.

Lemma mark_same W room i rows : forall e, same_but_txn e (mark W room i rows e).
Proof.
  induction rows as [|r rows IH]; intros e; [repeat split|]. unfold mark. cbn [fold_left]. fold (mark W room i rows).
  destruct (bool_decide _); [|exact (IH e)]. destruct (IH (set_txn r.2 e)) as (A & B & C & D). repeat split; assumption.
Qed.

(** A mark is an ID in a row for that place, or there was none. *)
Lemma mark_cases W room i rows : forall e, t_transaction (mark W room i rows e) = t_transaction e \/
  exists r, In r rows /\ W !! r.1 = Some (room, i) /\ t_transaction (mark W room i rows e) = Some r.2.
Proof.
  induction rows as [|r rows IH]; intros e; [left; reflexivity|]. unfold mark. cbn [fold_left]. fold (mark W room i rows).
  destruct (bool_decide (W !! r.1 = Some (room, i))) eqn:Eb.
  - apply bool_decide_eq_true_1 in Eb. destruct (IH (set_txn r.2 e)) as [E | (r' & Hi & Ew & E)].
    + right. exists r. split; [left; reflexivity|]. split; [exact Eb | exact E].
    + right. exists r'. split; [right; exact Hi|]. split; assumption.
  - destruct (IH e) as [E | (r' & Hi & Ew & E)]; [left; exact E|]. right. exists r'. split; [right; exact Hi|]. split; assumption.
Qed.

Lemma mark_hit W room i rows : forall e r, In r rows -> W !! r.1 = Some (room, i) ->
  exists r', In r' rows /\ W !! r'.1 = Some (room, i) /\ t_transaction (mark W room i rows e) = Some r'.2.
Proof.
  induction rows as [|r0 rows IH]; intros e r Hi Ew; [destruct Hi|]. unfold mark. cbn [fold_left]. fold (mark W room i rows).
  destruct Hi as [-> | Hi].
  - rewrite bool_decide_eq_true_2 by exact Ew. destruct (mark_cases W room i rows (set_txn r.2 e)) as [E | (r' & Hi & Ew' & E)].
    + exists r. split; [left; reflexivity|]. split; [exact Ew | exact E].
    + exists r'. split; [right; exact Hi|]. split; assumption.
  - destruct (IH (if bool_decide (W !! r0.1 = Some (room, i)) then set_txn r0.2 e else e) r Hi Ew) as (r' & Hi' & Ew' & E).
    exists r'. split; [right; exact Hi'|]. split; assumption.
Qed.

Lemma where_is_sound user resp order id room i : order ≡ₚ map_to_list resp -> where_is user order !! id = Some (room, i) ->
  exists e, at_ resp room i e /\ t_id e = id /\ t_sender e = user.
Proof.
  intros Hp E. apply (in_positions user resp order id room i Hp). unfold where_is in E.
  destruct (fins_sound _ _ _ _ E) as [Hi | E']; [exact Hi | rewrite lookup_empty in E'; discriminate].
Qed.

Lemma where_is_complete user resp order room i e : order ≡ₚ map_to_list resp -> at_ resp room i e -> t_sender e = user ->
  exists room' i', where_is user order !! t_id e = Some (room', i').
Proof.
  intros Hp Ha Es. assert (Hi : In (t_id e, (room, i)) (positions user order)) by (apply (in_positions user resp order _ room i Hp); eauto).
  destruct (fins_complete _ ∅ _ _ Hi) as [[r j] E]. eauto.
Qed.

Lemma at_fun resp room i e e' : at_ resp room i e -> at_ resp room i e' -> e = e'.
Proof. intros (l & El & Ei) (l' & El' & Ei'). rewrite El in El'. injection El' as <-. rewrite Ei in Ei'. injection Ei' as <-. reflexivity. Qed.
