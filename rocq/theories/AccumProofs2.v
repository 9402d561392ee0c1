(** Lemmas about the event store: inserting rows and rolling snapshots forward. *)
From Verif Require Import Prelude AccumModel AccumSpec AccumProofs.
Open Scope string_scope.
Open Scope list_scope.
Open Scope Z_scope.

(** * Inserting rows *)
Lemma known_spec l id : known l id = true <-> id ∈ map e_id l.
Proof.
  unfold known. rewrite existsb_exists, elem_of_list_fmap. split.
  - intros (e & He & Heq). apply String.eqb_eq in Heq. exists e. split; [done|by apply elem_of_list_In].
  - intros (e & -> & He). exists e. split; [by apply elem_of_list_In|apply String.eqb_refl].
Qed.
Lemma known_false l id : known l id = false <-> id ∉ map e_id l.
Proof. rewrite <-known_spec. by destruct (known l id). Qed.

(** The rows a list of events becomes. *)
Inductive numbered : Z -> list event -> list event -> Prop :=
| numbered_nil p : numbered p [] []
| numbered_skip p q l l' : p <= q -> numbered q l l' -> numbered p l l'
| numbered_cons p n e l l' : p < n -> numbered n l l' -> numbered p (e :: l) (set_nid n e :: l').

Lemma numbered_mono p q l l' : p <= q -> numbered q l l' -> numbered p l l'.
Proof. apply numbered_skip. Qed.
Lemma numbered_gt p l l' : numbered p l l' -> forall e, e ∈ l' -> p < e_nid e.
Proof.
  induction 1 as [p|p q l l' Hle H IH|p n e l l' Hlt H IH]; intros x Hx.
  - by apply elem_of_nil in Hx.
  - specialize (IH _ Hx). lia.
  - apply elem_of_cons in Hx as [-> |Hx]; [done|]. specialize (IH _ Hx). lia.
Qed.
Lemma numbered_sorted p l l' : numbered p l l' -> sorted l'.
Proof.
  induction 1 as [p|p q l l' Hle H IH|p n e l l' Hlt H IH]; [constructor|done|].
  unfold sorted, nids in *. cbn. constructor; [done|].
  rewrite Forall_forall. intros m Hm. apply elem_of_list_fmap in Hm as (x & -> & Hx).
  by apply (numbered_gt _ _ _ H).
Qed.
Lemma numbered_nonid p l l' : numbered p l l' -> map (set_nid 0) l' = map (set_nid 0) l.
Proof. induction 1 as [p|p q l l' Hle H IH|p n e l l' Hlt H IH]; cbn; [done|done|by rewrite IH]. Qed.
Lemma numbered_ids p l l' : numbered p l l' -> map e_id l' = map e_id l.
Proof. induction 1 as [p|p q l l' Hle H IH|p n e l l' Hlt H IH]; cbn; [done|done|by rewrite IH]. Qed.

Definition fresh (rows l : list event) : list event := List.filter (fun e => negb (known rows (e_id e))) l.

Lemma insert_spec l : forall d d' m, NoDup (map e_id l) -> insert d l = (d', m) ->
  exists new, numbered (d_seq d) (fresh (d_events d) l) new /\
    d' = set_seq (d_seq d + Z.of_nat (length l)) (set_events (d_events d ++ new) d) /\
    (forall e, e ∈ new -> e_nid e <= d_seq d') /\
    (forall id n, m !! id = Some n <-> exists e, e ∈ new /\ e_id e = id /\ e_nid e = n) /\
    size m = length new.
Proof.
  induction l as [|e l IH]; intros d d' m Hnd H; cbn [insert] in H.
  { injection H as <- <-. exists []. split; [constructor|]. split.
    { cbn. rewrite app_nil_r, Z.add_0_r. by destruct d. }
    split; [intros e He; by apply elem_of_nil in He|]. split.
    - intros id n. rewrite lookup_empty. split; [done|]. intros (e & He & _). by apply elem_of_nil in He.
    - apply map_size_empty. }
  cbn in Hnd. apply NoDup_cons in Hnd as [Hnin Hnd].
  unfold fresh. cbn [List.filter].
  destruct (known (d_events d) (e_id e)) eqn:Ek; cbn [negb].
  - destruct (IH _ _ _ Hnd H) as (new & Hnum & Hd & Hle & Hm & Hsz). cbn in Hnum, Hd.
    exists new. split; [eapply numbered_mono; [|exact Hnum]; lia|]. split.
    { rewrite Hd. cbn [length]. unfold set_seq, set_events. cbn. f_equal. lia. }
    split; [done|]. split; done.
  - destruct (insert _ l) as [d1 m1] eqn:E. injection H as <- <-.
    destruct (IH _ _ _ Hnd E) as (new & Hnum & Hd & Hle & Hm & Hsz). cbn in Hnum, Hd.
    assert (Hf : fresh (d_events d ++ [set_nid (d_seq d + 1) e]) l = fresh (d_events d) l).
    { unfold fresh. clear -Hnin. induction l as [|x l IH]; [done|]. cbn [List.filter].
      cbn in Hnin. apply not_elem_of_cons in Hnin as [H1 H2].
      assert (known (d_events d ++ [set_nid (d_seq d + 1) e]) (e_id x) = known (d_events d) (e_id x)) as ->.
      { unfold known. rewrite existsb_app. cbn. rewrite orb_false_r.
        assert (String.eqb (e_id e) (e_id x) = false) as -> by (by apply String.eqb_neq).
        apply orb_false_r. }
      by rewrite (IH H2). }
    rewrite Hf in Hnum.
    exists (set_nid (d_seq d + 1) e :: new). split; [apply numbered_cons; [lia|done]|]. split.
    { rewrite Hd. cbn [length]. unfold set_seq, set_events. cbn. rewrite <-app_assoc. cbn. f_equal. lia. }
    assert (Hno : forall n, m1 !! e_id e = Some n -> False).
    { intros n Hn. apply Hm in Hn as (x & Hx & Hid & _).
      apply Hnin. assert (e_id x ∈ map e_id new) as Hx' by (apply elem_of_list_fmap; eauto).
      rewrite (numbered_ids _ _ _ Hnum) in Hx'. rewrite Hid in Hx'.
      apply elem_of_list_fmap in Hx' as (y & Hy & Hy2).
      unfold fresh in Hy2. apply elem_of_list_In, filter_In in Hy2 as [Hy2 _].
      rewrite Hy. apply elem_of_list_fmap. exists y. split; [done|by apply elem_of_list_In]. }
    split; [|split].
    + intros x Hx. apply elem_of_cons in Hx as [-> |Hx]; [|by apply Hle].
      rewrite Hd. cbn. lia.
    + intros id n. destruct (decide (id = e_id e)) as [-> |Hne].
      * rewrite lookup_insert. split.
        -- intros [= <-]. exists (set_nid (d_seq d + 1) e). split; [apply elem_of_list_here|done].
        -- intros (x & Hx & Hid & Hn). apply elem_of_cons in Hx as [-> |Hx]; [by cbn in Hn; subst|].
           exfalso. apply (Hno n). apply Hm. eauto.
      * rewrite lookup_insert_ne by done. rewrite Hm. split.
        -- intros (x & Hx & Hid & Hn). exists x. split; [by apply elem_of_list_further|done].
        -- intros (x & Hx & Hid & Hn). apply elem_of_cons in Hx as [-> |Hx]; [done|eauto].
    + rewrite map_size_insert_None by (destruct (m1 !! e_id e) eqn:E1; [destruct (Hno _ eq_refl)|done]).
      cbn. by rewrite Hsz.
Qed.

(** The numbers handed out, put back on the events, give the rows. *)
Lemma omap_rows (f : event -> event) (m : gmap string Z) l rows new p :
  NoDup (map e_id l) -> numbered p (fresh rows l) new ->
  (forall id n, m !! id = Some n <-> exists e, e ∈ new /\ e_id e = id /\ e_nid e = n) ->
  (forall e n, f (set_nid n e) = set_nid n (f e)) ->
  omap (fun e => match m !! e_id e with Some n => Some (set_nid n (f e)) | None => None end) l = map f new.
Proof.
  intros Hnd Hnum Hm Hf.
  assert (Hidn : NoDup (map e_id new)).
  { rewrite (numbered_ids _ _ _ Hnum). clear -Hnd. unfold fresh.
    induction l as [|x l IH]; [constructor|]. cbn in Hnd |- *. apply NoDup_cons in Hnd as [H1 H2].
    destruct (negb _); [|by apply IH]. cbn. apply NoDup_cons. split; [|by apply IH].
    intros Hin. apply H1. apply elem_of_list_fmap in Hin as (y & Hy & Hin). apply elem_of_list_fmap.
    exists y. split; [done|]. apply elem_of_list_In, filter_In in Hin as [Hin _]. by apply elem_of_list_In. }
  assert (Hm2 : forall e, e ∈ new -> m !! e_id e = Some (e_nid e)) by (intros e He; apply Hm; eauto).
  assert (Hm3 : forall e, known rows (e_id e) = true -> m !! e_id e = None).
  { intros e Hk. destruct (m !! e_id e) as [n|] eqn:E; [|done]. apply Hm in E as (x & Hx & Hid & _).
    assert (e_id x ∈ map e_id new) as Hx' by (apply elem_of_list_fmap; eauto).
    rewrite (numbered_ids _ _ _ Hnum) in Hx'. apply elem_of_list_fmap in Hx' as (y & Hy & Hin).
    apply elem_of_list_In, filter_In in Hin as [_ Hin]. rewrite <-Hy, Hid, Hk in Hin. done. }
  clear Hm Hidn Hnd. remember (fresh rows l) as fl eqn:Hfl. revert l Hfl.
  induction Hnum as [p|p q fl new Hle Hnum IH|p n e fl new Hlt Hnum IH]; intros l Hfl.
  - induction l as [|x l IHl]; [done|]. unfold fresh in Hfl. cbn in Hfl |- *.
    destruct (known rows (e_id x)) eqn:Ek; [|done]. cbn in Hfl. rewrite (Hm3 _ Ek). by apply IHl.
  - by apply IH.
  - induction l as [|x l IHl]; [done|]. unfold fresh in Hfl. cbn in Hfl |- *.
    destruct (known rows (e_id x)) eqn:Ek; cbn in Hfl.
    + rewrite (Hm3 _ Ek). by apply IHl.
    + injection Hfl as -> Hfl.
      pose proof (Hm2 (set_nid n x) (elem_of_list_here _ _)) as Hmx. cbn in Hmx. rewrite Hmx.
      rewrite Hf. f_equal. apply IH; [|done]. intros y Hy. apply Hm2. by apply elem_of_list_further.
Qed.

(** * The state map *)
Definition sm_ok (P : event -> Prop) (m : state_map) : Prop :=
  (forall k n, sm_members m !! k = Some n <->
     exists e, P e /\ e_type e = "m.room.member" /\ e_skey e = k /\ e_nid e = n) /\
  (forall k n, sm_others m !! k = Some n <->
     exists e, P e /\ e_type e <> "m.room.member" /\ ekey e = k /\ e_nid e = n).

Lemma is_member_spec e : is_member e = true <-> e_type e = "m.room.member".
Proof. unfold is_member. by rewrite String.eqb_eq. Qed.
Lemma is_member_false e : is_member e = false <-> e_type e <> "m.room.member".
Proof. unfold is_member. by rewrite String.eqb_neq. Qed.

Lemma ingest_ok (P Q : event -> Prop) m (new e : event) :
  sm_ok P m -> (forall x, Q x <-> x = e \/ (P x /\ ekey x <> ekey e)) ->
  e_nid new = e_nid e -> ekey new = ekey e -> sm_ok Q (ingest m new).
Proof.
  intros [Hm Ho] HQ Hn Hk. assert (e_type new = e_type e) as Ht by (unfold ekey in Hk; congruence).
  assert (e_skey new = e_skey e) as Hsk by (unfold ekey in Hk; congruence).
  unfold ingest. destruct (is_member new) eqn:Em.
  - apply is_member_spec in Em. split; cbn [sm_members sm_others].
    + intros k n. destruct (decide (k = e_skey e)) as [-> |Hne].
      * rewrite Hsk, lookup_insert. split.
        -- intros [= <-]. exists e. split; [apply HQ; by left|]. split; [congruence|auto].
        -- intros (x & Hx & Hxt & Hxk & Hxn). apply HQ in Hx as [-> |[_ Hx]]; [congruence|].
           exfalso. apply Hx. unfold ekey. congruence.
      * rewrite lookup_insert_ne by congruence. rewrite Hm. split.
        -- intros (x & Hx & Hxt & Hxk & Hxn). exists x. split; [|done]. apply HQ. right. split; [done|].
           unfold ekey. congruence.
        -- intros (x & Hx & Hxt & Hxk & Hxn). apply HQ in Hx as [-> |[Hx _]]; [congruence|eauto 10].
    + intros k n. rewrite Ho. split.
      * intros (x & Hx & Hxt & Hxk & Hxn). exists x. split; [|done]. apply HQ. right. split; [done|].
        unfold ekey. congruence.
      * intros (x & Hx & Hxt & Hxk & Hxn). apply HQ in Hx as [-> |[Hx _]]; [congruence|eauto 10].
  - apply is_member_false in Em. split; cbn [sm_members sm_others].
    + intros k n. rewrite Hm. split.
      * intros (x & Hx & Hxt & Hxk & Hxn). exists x. split; [|done]. apply HQ. right. split; [done|].
        unfold ekey. congruence.
      * intros (x & Hx & Hxt & Hxk & Hxn). apply HQ in Hx as [-> |[Hx _]]; [congruence|eauto 10].
    + change (e_type new, e_skey new) with (ekey new). rewrite Hk. intros k n.
      destruct (decide (k = ekey e)) as [-> |Hne].
      * rewrite lookup_insert. split.
        -- intros [= <-]. exists e. split; [apply HQ; by left|]. split; [congruence|auto].
        -- intros (x & Hx & Hxt & Hxk & Hxn). apply HQ in Hx as [-> |[_ Hx]]; [congruence|done].
      * rewrite lookup_insert_ne by congruence. rewrite Ho. split.
        -- intros (x & Hx & Hxt & Hxk & Hxn). exists x. split; [|done]. apply HQ. right. split; [done|congruence].
        -- intros (x & Hx & Hxt & Hxk & Hxn). apply HQ in Hx as [-> |[Hx _]]; [congruence|eauto 10].
Qed.

Lemma sm_ok_ext (P Q : event -> Prop) m : (forall x, P x <-> Q x) -> sm_ok P m -> sm_ok Q m.
Proof.
  intros H [Hm Ho]. split; intros k n.
  - rewrite Hm. split; intros (x & Hx & Hr); exists x; (split; [by apply H|done]).
  - rewrite Ho. split; intros (x & Hx & Hr); exists x; (split; [by apply H|done]).
Qed.

Lemma ingest_all (l : list event) : forall (P : event -> Prop) m,
  sm_ok P m -> (forall a b, a ∈ l -> b ∈ l -> ekey a = ekey b -> a = b) -> NoDup l ->
  (forall a b, a ∈ l -> P b -> ekey a <> ekey b) ->
  sm_ok (fun x => P x \/ x ∈ l) (fold_left ingest l m).
Proof.
  induction l as [|e l IH]; intros P m Hm Hinj Hnd Hdis; cbn [fold_left].
  { eapply sm_ok_ext; [|exact Hm]. intros x. split; [by left|]. intros [?|H]; [done|by apply elem_of_nil in H]. }
  apply NoDup_cons in Hnd as [Hnin Hnd].
  assert (H1 : sm_ok (fun x => P x \/ x = e) (ingest m e)).
  { eapply (ingest_ok P _ m e e); [exact Hm| |done..]. intros x. split.
    - intros [Hx| ->]; [right|by left]. split; [done|]. intros Heq.
      apply (Hdis e x); [apply elem_of_list_here|done|done].
    - intros [-> |[Hx _]]; auto. }
  eapply sm_ok_ext; [|apply (IH (fun x => P x \/ x = e)); [exact H1| |done|]].
  - intros x. cbn. rewrite elem_of_cons. tauto.
  - intros a b Ha Hb. apply Hinj; by apply elem_of_list_further.
  - intros a b Ha [Hb| ->].
    + apply Hdis; [by apply elem_of_list_further|done].
    + intros Hk. apply Hnin. rewrite <-(Hinj a e); [done|by apply elem_of_list_further|apply elem_of_list_here|done].
Qed.

Lemma sm_empty_ok (P : event -> Prop) : (forall x, ~ P x) -> sm_ok P (StateMap ∅ ∅).
Proof.
  intros H. split; intros k n; cbn; rewrite lookup_empty; (split; [done|]); intros (x & Hx & _); by apply H in Hx.
Qed.

Lemma map_values_nodup {K} `{Countable K} (m : gmap K Z) :
  (forall a b n, m !! a = Some n -> m !! b = Some n -> a = b) -> NoDup (map snd (map_to_list m)).
Proof.
  intros Hinj. assert (Hnd : NoDup (map_to_list m)) by apply NoDup_map_to_list.
  assert (Hl : forall a n, (a, n) ∈ map_to_list m -> m !! a = Some n) by (intros a n; apply elem_of_map_to_list).
  revert Hnd Hl. generalize (map_to_list m). intros l. induction l as [|[a n] l IH]; intros Hnd Hl; [constructor|].
  cbn. apply NoDup_cons in Hnd as [Hn Hnd]. apply NoDup_cons. split.
  - intros Hin. apply elem_of_list_fmap in Hin as ([b n'] & Heq & Hin). cbn in Heq. subst n'.
    assert (a = b) as <-.
    { apply (Hinj a b n); apply Hl; [apply elem_of_list_here|by apply elem_of_list_further]. }
    done.
  - apply IH; [done|]. intros b n' Hb. apply Hl. by apply elem_of_list_further.
Qed.
Lemma map_values_elem {K} `{Countable K} (m : gmap K Z) n :
  n ∈ map snd (map_to_list m) <-> exists k, m !! k = Some n.
Proof.
  rewrite elem_of_list_fmap. split.
  - intros ([k n'] & -> & Hin). apply elem_of_map_to_list in Hin. eauto.
  - intros (k & Hk). exists (k, n). split; [done|]. by apply elem_of_map_to_list.
Qed.

Lemma sm_holds (ord : list Z -> list Z) l rm p m : ord_ok ord -> sorted l ->
  sm_ok (newest l rm p) m -> holds_state l rm p (Snap rm (sm_nids ord m).1 (sm_nids ord m).2).
Proof.
  intros Hord Hso [Hm Ho]. unfold ord_ok in Hord. unfold holds_state. cbn [s_room s_members s_others sm_nids fst snd].
  assert (Hem : forall n, n ∈ map snd (map_to_list (sm_members m)) <->
     exists e, newest l rm p e /\ e_nid e = n /\ e_type e = "m.room.member").
  { intros n. rewrite map_values_elem. split.
    - intros (k & Hk). apply Hm in Hk as (e & He & Ht & _ & Hn). eauto.
    - intros (e & He & Hn & Ht). exists (e_skey e). apply Hm. eauto 10. }
  assert (Heo : forall n, n ∈ map snd (map_to_list (sm_others m)) <->
     exists e, newest l rm p e /\ e_nid e = n /\ e_type e <> "m.room.member").
  { intros n. rewrite map_values_elem. split.
    - intros (k & Hk). apply Ho in Hk as (e & He & Ht & _ & Hn). eauto.
    - intros (e & He & Hn & Ht). exists (ekey e). apply Ho. eauto 10. }
  split; [done|]. split; [|split].
  - rewrite !Hord. apply NoDup_app. split; [|split].
    + apply map_values_nodup. intros a b n Ha Hb.
      apply Hm in Ha as (e & He & _ & <- & Hn). apply Hm in Hb as (e' & He' & _ & <- & Hn').
      assert (e = e') as -> by (apply (sorted_inj l); [done|apply He|apply He'|congruence]). done.
    + intros n Hn Hn'. apply Hem in Hn as (e & He & Hen & Ht). apply Heo in Hn' as (e' & He' & Hen' & Ht').
      assert (e = e') as -> by (apply (sorted_inj l); [done|apply He|apply He'|congruence]). done.
    + apply map_values_nodup. intros a b n Ha Hb.
      apply Ho in Ha as (e & He & _ & <- & Hn). apply Ho in Hb as (e' & He' & _ & <- & Hn').
      assert (e = e') as -> by (apply (sorted_inj l); [done|apply He|apply He'|congruence]). done.
  - intros n. rewrite (Hord (map snd (map_to_list (sm_members m)))). apply Hem.
  - intros n. rewrite (Hord (map snd (map_to_list (sm_others m)))). apply Heo.
Qed.
