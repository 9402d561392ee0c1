(** The invariant of the event store holds along every history. *)
From Verif Require Import Prelude AccumModel AccumSpec AccumProofs AccumProofs2 AccumProofs3.
Open Scope string_scope.
Open Scope list_scope.
Open Scope Z_scope.

Definition cols_ok (e : event) : Prop :=
  no_sep (e_type e) /\ r_type (e_json e) = Some (e_type e) /\ r_id (e_json e) = e_id e /\
  e_skey e = match r_skey (e_json e) with Some s => s | None => "" end.

Record room_inv (d : db) (rm : string) (m : room) : Prop := {
  rv_cur : cur_ok (d_events d) (d_snaps d) rm (d_seq d) (rm_snap m);
  rv_range : 0 <= rm_snap m <= d_snapseq d;
  rv_top : forall id s, d_snaps d !! id = Some s -> s_room s = rm -> id <= rm_snap m;
  rv_latest : exists e, e ∈ d_events d /\ e_room e = rm /\ e_nid e = rm_latest m;
  rv_max : forall e, e ∈ d_events d -> e_room e = rm -> e_nid e <= rm_latest m
}.

Record base (d : db) : Prop := {
  bs_sorted : sorted (d_events d);
  bs_ids : NoDup (map e_id (d_events d));
  bs_nid : forall e, e ∈ d_events d -> 0 < e_nid e <= d_seq d;
  bs_seq : 0 <= d_seq d;
  bs_cols : forall e, e ∈ d_events d -> cols_ok e
}.

Record Inv (k : bool) (d : db) : Prop := {
  iv_base : base d;
  iv_snapseq : 0 <= d_snapseq d;
  iv_range : forall id s, d_snaps d !! id = Some s -> 0 < id <= d_snapseq d;
  iv_room : forall rm m, d_rooms d !! rm = Some m -> room_inv d rm m;
  iv_noroom : forall rm, d_rooms d !! rm = None ->
    (forall e, e ∈ d_events d -> e_room e <> rm) /\
    (forall id s, d_snaps d !! id = Some s -> s_room s <> rm);
  iv_rows : forall x, x ∈ d_events d -> row_ok k d x
}.

Lemma empty_inv k : Inv k empty_db.
Proof.
  split; cbn.
  - split; cbn; try done; [constructor|constructor|intros e He; by apply elem_of_nil in He|
      intros e He; by apply elem_of_nil in He].
  - lia.
  - intros id s. by rewrite lookup_empty.
  - intros rm m. by rewrite lookup_empty.
  - intros rm _. split; [intros e He; by apply elem_of_nil in He|]. intros id s. by rewrite lookup_empty.
  - intros x Hx. by apply elem_of_nil in Hx.
Qed.

(** * Events before they are stored *)
Definition proto (rm : string) (b : bool) (e : event) : Prop :=
  e_room e = rm /\ e_isstate e = b /\ e_before e = 0 /\ e_replaces e = 0 /\ cols_ok e.

Lemma ensure_proto rm b r e : good_raw r -> ensure_fields rm b r = Some e ->
  proto rm b e /\ e_json e = r /\ e_id e = r_id r.
Proof.
  intros Hg. unfold ensure_fields. destruct (String.eqb_spec (r_id r) ""); [done|].
  destruct (r_type r) as [ty|] eqn:Et; [|done].
  assert (Hsep : no_sep ty) by (by apply Hg).
  destruct (_ && _).
  - destruct (String.eqb (r_mship r) ""); [done|]. intros [= <-]. unfold proto, cols_ok. cbn. auto 15.
  - intros [= <-]. unfold proto, cols_ok. cbn. auto 15.
Qed.

Lemma filter_ensure_proto rm st : Forall good_raw st -> Forall (proto rm true) (filter_ensure rm st).
Proof.
  intros Hg. rewrite Forall_forall. intros e He. unfold filter_ensure in He.
  apply elem_of_list_omap in He as (r & Hr & He). rewrite Forall_forall in Hg.
  by destruct (ensure_proto rm true r e (Hg r Hr) He).
Qed.
Lemma filter_ensure_ids rm st : Forall good_raw st -> NoDup (map r_id st) ->
  NoDup (map e_id (filter_ensure rm st)).
Proof.
  unfold filter_ensure. induction st as [|r st IH]; intros Hg Hnd; [constructor|].
  cbn in Hnd. apply NoDup_cons in Hnd as [Hn Hnd]. apply Forall_cons in Hg as [Hg1 Hg].
  cbn [omap list_omap]. destruct (ensure_fields rm true r) as [e|] eqn:Ee; [|by apply IH].
  cbn. apply NoDup_cons. split; [|by apply IH].
  intros Hin. apply elem_of_list_fmap in Hin as (x & Hx & Hin). apply elem_of_list_omap in Hin as (r' & Hr' & Hx').
  rewrite Forall_forall in Hg.
  destruct (ensure_proto _ _ _ _ Hg1 Ee) as (_ & _ & H1).
  destruct (ensure_proto _ _ _ _ (Hg r' Hr') Hx') as (_ & _ & H2).
  apply Hn. apply elem_of_list_fmap. exists r'. split; [congruence|done].
Qed.

Lemma dedup_spec rm prev l : forall first seen, Forall good_raw l ->
  Forall (proto rm false) (dedup rm prev first seen l) /\ NoDup (map e_id (dedup rm prev first seen l)) /\
  (forall e, e ∈ dedup rm prev first seen l -> e_id e ∉ seen).
Proof.
  induction l as [|r l IH]; intros first seen Hg; cbn [dedup].
  { split; [constructor|]. split; [constructor|]. intros e He. by apply elem_of_nil in He. }
  apply Forall_cons in Hg as [Hg1 Hg].
  destruct (ensure_fields rm false r) as [e|] eqn:Ee; [|by apply IH].
  destruct (existsb (String.eqb (e_id e)) seen) eqn:Es; [by apply IH|].
  destruct (IH false (e_id e :: seen) Hg) as (H1 & H2 & H3).
  set (e' := if _ : bool then _ else _).
  assert (He' : proto rm false e' /\ e_id e' = e_id e).
  { destruct (ensure_proto _ _ _ _ Hg1 Ee) as (Hp & _). unfold e'. destruct (_ && _); [|done].
    split; [|done]. destruct Hp as (?&?&?&?&Hcols). unfold proto. cbn. repeat split; try done; apply Hcols. }
  destruct He' as [Hp' Hid]. clearbody e'. split; [by constructor|]. split.
  - cbn. apply NoDup_cons. split; [|done]. intros Hin. apply elem_of_list_fmap in Hin as (x & Hx & Hin).
    apply (H3 x Hin). rewrite <-Hx, Hid. apply elem_of_list_here.
  - intros x Hx. apply elem_of_cons in Hx as [-> |Hx].
    + rewrite Hid. intros Hin. apply existsb_str in Hin. congruence.
    + intros Hin. apply (H3 x Hx). by apply elem_of_list_further.
Qed.

(** The new events are the end of the timeline, from after the last known event. *)
Lemma after_suffix rows l : exists pre, l = pre ++ after_last_known rows l /\
  (forall e, e ∈ after_last_known rows l -> known rows (e_id e) = false) /\
  (pre = [] \/ exists x pre', pre = pre' ++ [x] /\ known rows (e_id x) = true).
Proof.
  induction l as [|e l IH]; cbn [after_last_known].
  { exists []. split; [done|]. split; [intros e He; by apply elem_of_nil in He|by left]. }
  destruct (existsb (fun x => known rows (e_id x)) (e :: l)) eqn:Ex.
  - destruct IH as (pre & Heq & Hun & Hpre). exists (e :: pre). split; [cbn; by rewrite <-Heq|]. split; [done|].
    right. destruct Hpre as [-> |(x & pre' & -> & Hk)].
    + exists e, []. split; [done|]. cbn in Ex. apply orb_true_iff in Ex as [Ex|Ex]; [done|].
      exfalso. cbn in Heq. apply existsb_exists in Ex as (y & Hy & Hky).
      rewrite Heq in Hy. apply elem_of_list_In in Hy. rewrite (Hun y Hy) in Hky. done.
    + exists x, (e :: pre'). done.
  - exists []. split; [done|]. split; [|by left]. intros x Hx.
    destruct (known rows (e_id x)) eqn:Ek; [|done]. exfalso.
    assert (existsb (fun x => known rows (e_id x)) (e :: l) = true); [|congruence].
    apply existsb_exists. exists x. split; [by apply elem_of_list_In|done].
Qed.

Lemma filter_new_fresh rows l : fresh rows (filter_new rows l) = after_last_known rows l.
Proof.
  unfold filter_new. destruct (Nat.leb_spec (length l) 1) as [Hlen|Hlen].
  - destruct l as [|e [|e2 l]]; [done| |cbn in Hlen; lia]. cbn. destruct (known rows (e_id e)); done.
  - destruct (forallb _ l) eqn:Ef.
    + cbn. rewrite forallb_forall in Ef. clear Hlen. symmetry.
      induction l as [|e l IH]; [done|]. cbn. rewrite (Ef e) by (by left). cbn. apply IH.
      intros x Hx. apply Ef. by right.
    + destruct (after_suffix rows l) as (pre & _ & Hun & _). unfold fresh.
      clear Ef Hlen. induction (after_last_known rows l) as [|e m IH]; [done|].
      cbn. rewrite (Hun e) by apply elem_of_list_here. cbn. f_equal. apply IH.
      intros x Hx. apply Hun. by apply elem_of_list_further.
Qed.

Lemma filter_new_sub rows l : exists pre, l = pre ++ filter_new rows l.
Proof.
  unfold filter_new. destruct (Nat.leb _ 1); [by exists []|]. destruct (forallb _ l).
  - exists l. by rewrite app_nil_r.
  - destruct (after_suffix rows l) as (pre & H & _). eauto.
Qed.

Lemma mark_gap_map lim inc news : map (set_missing false) (mark_gap lim inc news) = map (set_missing false) news.
Proof. unfold mark_gap. destruct news as [|e news], inc as [|i inc]; try done. by destruct (_ && _). Qed.
Lemma mark_gap_ids lim inc news : map e_id (mark_gap lim inc news) = map e_id news.
Proof. unfold mark_gap. destruct news as [|e news], inc as [|i inc]; try done. by destruct (_ && _). Qed.
Lemma mark_gap_proto rm lim inc news : Forall (proto rm false) news -> Forall (proto rm false) (mark_gap lim inc news).
Proof.
  unfold mark_gap. destruct news as [|e news], inc as [|i inc]; try done. destruct (_ && _); [|done].
  rewrite !Forall_cons. intros [Hp H]. split; [|done].
  destruct Hp as (?&?&?&?&Hcols). unfold proto. cbn. repeat split; try done; apply Hcols.
Qed.

Lemma news_ok rm t rows : Forall good_raw (tl_events t) ->
  let inc := dedup rm (tl_prev t) true [] (tl_events t) in
  let news := mark_gap (tl_limited t) inc (filter_new rows inc) in
  Forall (proto rm false) news /\ NoDup (map e_id news).
Proof.
  intros Hg inc news. destruct (dedup_spec rm (tl_prev t) (tl_events t) true [] Hg) as (H1 & H2 & _).
  fold inc in H1, H2. destruct (filter_new_sub rows inc) as (pre & Heq). split.
  - apply mark_gap_proto. rewrite Heq in H1. by apply Forall_app in H1 as [_ H1].
  - unfold news. rewrite mark_gap_ids. rewrite Heq, map_app in H2. by apply NoDup_app in H2 as (_ & _ & H2).
Qed.

(** * Storing *)
Lemma numbered_proto p l l' rm b : numbered p l l' -> Forall (proto rm b) l -> Forall (proto rm b) l'.
Proof.
  induction 1 as [p|p q l l' Hle H IH|p n e l l' Hlt H IH]; [done|done|].
  rewrite !Forall_cons. intros [Hp Hl]. split; [|by apply IH].
  destruct Hp as (?&?&?&?&Hcols). unfold proto. cbn. repeat split; try done; apply Hcols.
Qed.

Lemma insert_base d rm b l d1 m : base d -> Forall (proto rm b) l -> NoDup (map e_id l) ->
  insert d l = (d1, m) ->
  exists new, numbered (d_seq d) (fresh (d_events d) l) new /\
    d1 = set_seq (d_seq d + Z.of_nat (length l)) (set_events (d_events d ++ new) d) /\
    (forall id n, m !! id = Some n <-> exists e, e ∈ new /\ e_id e = id /\ e_nid e = n) /\
    size m = length new /\ Forall (proto rm b) new /\ base d1.
Proof.
  intros [H1 H2 H3 H4 H5] Hp Hnd Hins.
  destruct (insert_spec _ _ _ _ Hnd Hins) as (new & Hnum & Hd & Hle & Hm & Hsz).
  exists new. split; [done|]. split; [done|]. split; [done|]. split; [done|].
  assert (Hpn : Forall (proto rm b) new).
  { eapply numbered_proto; [exact Hnum|]. unfold fresh. rewrite Forall_forall in Hp |- *. intros x Hx.
    apply Hp. apply elem_of_list_In, filter_In in Hx as [Hx _]. by apply elem_of_list_In. }
  split; [done|]. pose proof (numbered_gt _ _ _ Hnum) as Hgt.
  rewrite Hd. split; cbn.
  - apply sorted_app; [done|by eapply numbered_sorted|]. intros a c Ha Hc.
    specialize (H3 a Ha). specialize (Hgt c Hc). lia.
  - rewrite map_app, (numbered_ids _ _ _ Hnum). apply NoDup_app. split; [done|]. split.
    + intros id Hid Hid2. apply elem_of_list_fmap in Hid2 as (x & -> & Hx). unfold fresh in Hx.
      apply elem_of_list_In, filter_In in Hx as [_ Hx]. apply negb_true_iff, known_false in Hx. done.
    + clear -Hnd. unfold fresh. induction l as [|x l IH]; [constructor|]. cbn in Hnd |- *.
      apply NoDup_cons in Hnd as [Hn Hnd]. destruct (negb _); [|by apply IH]. cbn. apply NoDup_cons.
      split; [|by apply IH]. intros Hin. apply Hn. apply elem_of_list_fmap in Hin as (y & Hy & Hin).
      apply elem_of_list_In, filter_In in Hin as [Hin _]. apply elem_of_list_fmap. exists y.
      split; [done|by apply elem_of_list_In].
  - intros x Hx. apply elem_of_app in Hx as [Hx|Hx].
    + specialize (H3 x Hx). lia.
    + specialize (Hgt x Hx). specialize (Hle x Hx). rewrite Hd in Hle. cbn in Hle. lia.
  - lia.
  - intros x Hx. apply elem_of_app in Hx as [Hx|Hx]; [by apply H5|].
    rewrite Forall_forall in Hpn. apply (Hpn x Hx).
Qed.

(** Rows of one room do not matter to another one. *)
Lemma newest_far l l' rm p q x :
  (forall e, e_room e = rm -> (e ∈ l <-> e ∈ l')) ->
  (forall e, e ∈ l -> e_room e = rm -> e_nid e <= p) ->
  (forall e, e ∈ l' -> e_room e = rm -> e_nid e <= q) ->
  newest l rm p x -> newest l' rm q x.
Proof.
  intros Hin Hp Hq (Hx & Hr & Hs & Hxp & Hmax). apply Hin in Hx; [|done].
  repeat split; try done; [by apply Hq|]. intros y Hy Hyr Hys Hk _. apply Hin in Hy; [|done].
  apply Hmax; try done. by apply Hp.
Qed.
Lemma cur_far l l' sn sn' rm p q sid :
  (forall e, e_room e = rm -> (e ∈ l <-> e ∈ l')) ->
  (forall e, e ∈ l -> e_room e = rm -> e_nid e <= p) ->
  (forall e, e ∈ l' -> e_room e = rm -> e_nid e <= q) ->
  (forall s, sn !! sid = Some s -> s_room s = rm -> sn' !! sid = Some s) ->
  cur_ok l sn rm p sid -> cur_ok l' sn' rm q sid.
Proof.
  intros Hin Hp Hq Hsn [[-> Hn]|(H0 & s & Hs & Hh)].
  - left. split; [done|]. intros e He Hr Hst. apply Hin in He; [|done]. specialize (Hn e He Hr Hst).
    specialize (Hp e He Hr). lia.
  - right. split; [done|]. exists s. split; [apply Hsn; [done|apply Hh]|].
    eapply holds_ext; [|exact Hh]. intros x. split; apply newest_far; try done.
    intros e Hr. symmetry. by apply Hin.
Qed.
Lemma cur_core l l' sn rm p sid : map core l = map core l' -> cur_ok l sn rm p sid -> cur_ok l' sn rm p sid.
Proof.
  intros Hc [[-> Hn]|(H0 & s & Hs & Hh)].
  - left. split; [done|]. by eapply no_state_core.
  - right. split; [done|]. exists s. split; [done|]. by eapply holds_core.
Qed.

Lemma room_or_none k d rm : Inv k d ->
  cur_ok (d_events d) (d_snaps d) rm (d_seq d) (current_snap d rm) /\
  0 <= current_snap d rm <= d_snapseq d /\
  (forall id s, d_snaps d !! id = Some s -> s_room s = rm -> id <= current_snap d rm).
Proof.
  intros Hi. unfold current_snap. destruct (d_rooms d !! rm) as [m|] eqn:Em.
  - destruct (iv_room _ _ Hi _ _ Em) as [H1 H2 H3 _ _]. auto.
  - destruct (iv_noroom _ _ Hi _ Em) as [H1 H2]. split; [|split].
    + left. split; [done|]. intros e He Hr. by destruct (H1 e He).
    + pose proof (iv_snapseq _ _ Hi). lia.
    + intros id s Hs Hr. by destruct (H2 id s Hs).
Qed.

(** A new version of the database after storing in room [rm]. *)
Lemma inv_after k d d' rm new m :
  Inv k d ->
  map core (d_events d') = map core (d_events d ++ new) ->
  (forall x, x ∈ new -> e_room x = rm /\ d_seq d < e_nid x) ->
  base d' -> d_snapseq d <= d_snapseq d' -> d_seq d <= d_seq d' ->
  (forall id s, d_snaps d !! id = Some s -> d_snaps d' !! id = Some s) ->
  (forall id s, d_snaps d' !! id = Some s -> d_snaps d !! id = Some s \/ (s_room s = rm /\ d_snapseq d < id <= d_snapseq d')) ->
  d_rooms d' = <[rm := m]> (d_rooms d) -> room_inv d' rm m ->
  (forall x, x ∈ d_events d' -> row_ok k d' x) ->
  Inv k d'.
Proof.
  intros Hi Hc Hnew Hb Hsq Hseq Hkeep Hsn Hrooms Hroom Hrows. split; try done.
  - pose proof (iv_snapseq _ _ Hi). lia.
  - intros id s Hs. apply Hsn in Hs as [Hs|[_ Hs]].
    + apply (iv_range _ _ Hi) in Hs. lia.
    + pose proof (iv_snapseq _ _ Hi). lia.
  - intros rm' m' Hm'. rewrite Hrooms in Hm'. destruct (decide (rm = rm')) as [<-|Hne].
    { rewrite lookup_insert in Hm'. by injection Hm' as <-. }
    rewrite lookup_insert_ne in Hm' by done. destruct (iv_room _ _ Hi _ _ Hm') as [R1 R2 R3 R4 R5].
    assert (Hrm' : forall e, e_room e = rm' -> (e ∈ d_events d <-> e ∈ d_events d ++ new)).
    { intros e Hr. rewrite elem_of_app. split; [auto|]. intros [?|He]; [done|].
      destruct (Hnew e He) as [Hr2 _]. congruence. }
    split.
    + eapply cur_core; [symmetry; exact Hc|]. eapply cur_far; [exact Hrm'| | | |exact R1].
      * intros e He _. apply (bs_nid _ (iv_base _ _ Hi) e He).
      * intros e He Hr. apply Hrm' in He; [|done]. pose proof (bs_nid _ (iv_base _ _ Hi) e He). lia.
      * intros s Hs _. by apply Hkeep.
    + lia.
    + intros id s Hs Hr. apply Hsn in Hs as [Hs|[Hr2 _]]; [by eapply R3|congruence].
    + destruct R4 as (e & He & Hr & Hn). apply Hrm' in He; [|done].
      destruct (core_in _ _ _ (eq_sym Hc) He) as (y & Hy & Hcy). exists y.
      apply core_eq in Hcy as (?&?&?&_). split; [done|]. split; congruence.
    + intros e He Hr. destruct (core_in _ _ _ Hc He) as (y & Hy & Hcy).
      apply core_eq in Hcy as (Hn&_&Hr2&_). rewrite <-Hn. apply R5; [|congruence].
      apply Hrm'; [congruence|done].
  - intros rm' Hm'. rewrite Hrooms in Hm'. destruct (decide (rm = rm')) as [<-|Hne].
    { by rewrite lookup_insert in Hm'. }
    rewrite lookup_insert_ne in Hm' by done. destruct (iv_noroom _ _ Hi _ Hm') as [H1 H2]. split.
    + intros e He Hr. destruct (core_in _ _ _ Hc He) as (y & Hy & Hcy).
      apply core_eq in Hcy as (_&_&Hr2&_). apply elem_of_app in Hy as [Hy|Hy].
      * apply (H1 y Hy). congruence.
      * destruct (Hnew y Hy). congruence.
    + intros id s Hs Hr. apply Hsn in Hs as [Hs|[Hr2 _]]; [by apply (H2 id s)|congruence].
Qed.

(** Only the tables of events, snapshots and rooms matter. *)
Lemma inv_ext k d d' : d_events d' = d_events d -> d_seq d <= d_seq d' -> d_snaps d' = d_snaps d ->
  d_snapseq d <= d_snapseq d' -> d_rooms d' = d_rooms d -> Inv k d -> Inv k d'.
Proof.
  intros He Hq Hs Hsq Hr [H1 H2 H3 H4 H5 H6]. destruct H1 as [B1 B2 B3 B4 B5]. split.
  - split; rewrite ?He; try done; [|lia]. intros e Hx. specialize (B3 e Hx). lia.
  - lia.
  - rewrite Hs. intros id s Hid. specialize (H3 id s Hid). lia.
  - rewrite Hr. intros rm m Hm. destruct (H4 rm m Hm) as [R1 R2 R3 R4 R5].
    split; rewrite ?He, ?Hs; try done; [|lia].
    eapply cur_far; [done| | | |exact R1].
    + intros e Hx _. apply (B3 e Hx).
    + intros e Hx _. specialize (B3 e Hx). lia.
    + done.
  - rewrite Hr, He, Hs. done.
  - rewrite He. intros x Hx. apply (row_ok_mono k d d' x []).
    + by rewrite app_nil_r, He.
    + intros e Hn. by apply elem_of_nil in Hn.
    + rewrite Hs. done.
    + rewrite Hs. done.
    + done.
    + by apply H6.
Qed.

Lemma rollback_inv k d d' : Inv k d -> d_seq d <= d_seq d' -> d_snapseq d <= d_snapseq d' -> Inv k (rollback d d').
Proof. intros Hi H1 H2. by apply (inv_ext k d). Qed.

(** * The latest number *)
Lemma fold_max_ge l : forall a, a <= fold_left Z.max l a /\ forall x, x ∈ l -> x <= fold_left Z.max l a.
Proof.
  induction l as [|y l IH]; intros a; cbn; [split; [lia|intros x Hx; by apply elem_of_nil in Hx]|].
  destruct (IH (Z.max a y)) as [H1 H2]. split; [lia|]. intros x Hx.
  apply elem_of_cons in Hx as [-> |Hx]; [lia|by apply H2].
Qed.
Lemma fold_max_in l : forall a, fold_left Z.max l a = a \/ fold_left Z.max l a ∈ l.
Proof.
  induction l as [|y l IH]; intros a; cbn; [by left|].
  destruct (IH (Z.max a y)) as [H|H].
  - rewrite H. destruct (Z.max_spec a y) as [[_ ->]|[_ ->]]; [right; apply elem_of_list_here|by left].
  - right. by apply elem_of_list_further.
Qed.

(** * Initialise *)
Lemma ingest_news (l : list event) rm news : forall m p,
  sorted l -> sorted news -> (forall e, e ∈ news -> e ∈ l /\ e_room e = rm /\ state_row e /\ p < e_nid e) ->
  (forall e, e ∈ l -> e_room e = rm -> p < e_nid e -> e ∈ news) ->
  sm_ok (newest l rm p) m ->
  exists q, p <= q /\ (forall e, e ∈ l -> e_room e = rm -> e_nid e <= q) /\ sm_ok (newest l rm q) (fold_left ingest news m).
Proof.
  induction news as [|e news IH]; intros m p Hso Hsn Hin Hall Hm; cbn [fold_left].
  { exists p. split; [lia|]. split; [|done]. intros e He Hr.
    destruct (Z_le_gt_dec (e_nid e) p) as [|Hgt]; [done|].
    specialize (Hall e He Hr ltac:(lia)). by apply elem_of_nil in Hall. }
  destruct (Hin e) as (Hel & Her & Hes & Hep); [apply elem_of_list_here|].
  unfold sorted, nids in Hsn. cbn in Hsn. apply StronglySorted_inv in Hsn as [Hsn Hf]. rewrite Forall_forall in Hf.
  destruct (IH (ingest m e) (e_nid e)) as (q & Hq & Hqall & Hsm); try done.
  - intros x Hx. destruct (Hin x) as (?&?&?&?); [by apply elem_of_list_further|]. repeat split; try done.
    apply Hf. apply elem_of_list_fmap. eauto.
  - intros x Hx Hr Hp. assert (x ∈ e :: news) as Hx2 by (apply Hall; [done..|lia]).
    apply elem_of_cons in Hx2 as [-> |]; [lia|done].
  - apply (ingest_ok (newest l rm (e_nid e - 1)) (newest l rm (e_nid e)) m e e).
    + eapply sm_ok_ext; [|exact Hm]. intros x. apply newest_skip; [|lia]. intros y Hy Hyr Hys Hyp.
      assert (y ∈ e :: news) as Hy2 by (by apply Hall). apply elem_of_cons in Hy2 as [-> |Hy2]; [lia|].
      specialize (Hf (e_nid y)). feed specialize Hf; [apply elem_of_list_fmap; eauto|]. lia.
    + intros x. by apply newest_step.
    + done.
    + done.
  - exists q. split; [lia|]. done.
Qed.

Lemma state_map_ok k d rm d1 : Inv k d -> 0 < current_snap d rm -> d_snaps d1 = d_snaps d ->
  (exists new, d_events d1 = d_events d ++ new /\ forall x, x ∈ new -> d_seq d < e_nid x) -> sorted (d_events d1) ->
  exists m, state_map_at d1 (current_snap d rm) = Ok m /\ sm_ok (newest (d_events d1) rm (d_seq d)) m.
Proof.
  intros Hi Hpos Hsn (new & Hev & Hnew) Hso.
  destruct (room_or_none k d rm Hi) as ([[H0 _]|(_ & s & Hs & Hh)] & _); [lia|].
  unfold state_map_at, select_snap. assert ((current_snap d rm =? 0) = false) as -> by lia.
  rewrite Hsn, Hs.
  destruct (select_holds d1 rm (d_seq d) s Hso) as (l & -> & Hsl & Hl).
  { rewrite Hev. by apply holds_app. }
  eexists. split; [done|].
  eapply sm_ok_ext; [|apply (ingest_all l (fun _ => False))].
  - intros x. cbn. rewrite Hl. tauto.
  - apply sm_empty_ok. by intros x [].
  - intros a b Ha Hb. apply (newest_unique (d_events d1) rm (d_seq d)); [done|by apply Hl..].
  - apply (NoDup_fmap_1 e_nid). by apply sorted_nodup.
  - done.
Qed.

Section Ops.
Context (ord : list Z -> list Z) (redact : raw -> raw -> raw -> raw).
Hypothesis Hord : ord_ok ord.
Hypothesis Hred : redact_ok redact.

(** What a call to Initialise which stored something did. *)
Definition init_effect (k : bool) (rm : string) (st : list raw) (d : db) (d' : db) : Prop :=
  Inv k d' /\ d_seq d <= d_seq d' /\
  ((d_events d' = d_events d /\ d_snaps d' = d_snaps d /\ d_rooms d' = d_rooms d) \/
   exists new, numbered (d_seq d) (fresh (d_events d) (filter_ensure rm st)) new /\ new <> [] /\
     d_events d' = d_events d ++ new).

Lemma base_same d d' : d_events d' = d_events d -> d_seq d' = d_seq d -> base d -> base d'.
Proof. intros H1 H2 [? ? ? ? ?]. split; rewrite ?H1, ?H2; done. Qed.

Lemma init_txn_ok k rm st d : Inv k d -> Forall good_raw st -> NoDup (map r_id st) ->
  match init_txn ord rm st d with
  | (Ok _, d') => init_effect k rm st d d'
  | (Fail _, d') => d_seq d <= d_seq d' /\ d_snapseq d <= d_snapseq d'
  end.
Proof.
  intros Hi Hg Hnd. unfold init_txn.
  set (events := filter_ensure rm st).
  assert (Hp : Forall (proto rm true) events) by (by apply filter_ensure_proto).
  assert (Hndi : NoDup (map e_id events)) by (by apply filter_ensure_ids).
  destruct (Nat.eqb (length events) 0); [split; reflexivity|].
  destruct ((current_snap d rm =? 0) && negb (has_create events)); [split; reflexivity|].
  destruct (insert d events) as [d1 m] eqn:Eins.
  destruct (insert_base d rm true events d1 m (iv_base _ _ Hi) Hp Hndi Eins)
    as (new & Hnum & Hd1 & Hm & Hsz & Hpn & Hb1).
  pose proof (numbered_gt _ _ _ Hnum) as Hgt.
  destruct (Nat.eqb_spec (size m) 0) as [Hz|Hz].
  { assert (new = []) as -> by (destruct new; [done|cbn in Hsz; lia]).
    assert (He1 : d_events d1 = d_events d) by (rewrite Hd1; cbn; apply app_nil_r).
    split; [|split].
    - apply (inv_ext k d); [done|rewrite Hd1; cbn; lia|by rewrite Hd1|rewrite Hd1; cbn; lia|by rewrite Hd1|done].
    - rewrite Hd1. cbn. lia.
    - left. rewrite He1, Hd1. done. }
  assert (Hnews : omap (fun e => match m !! e_id e with Some n => Some (set_nid n e) | None => None end) events = new).
  { rewrite (omap_rows (fun e => e) m events (d_events d) new (d_seq d)); try done. apply map_id. }
  rewrite Hnews. clear Hnews.
  rewrite Forall_forall in Hpn.
  assert (Hin : forall e, e ∈ new -> e ∈ d_events d1 /\ e_room e = rm /\ state_row e /\ d_seq d < e_nid e).
  { intros e He. destruct (Hpn e He) as (Hr & Hs & _). repeat split; try done; [|by left|by apply Hgt].
    rewrite Hd1. cbn. apply elem_of_app. by right. }
  assert (Hrest : forall e, e ∈ d_events d1 -> e_room e = rm -> d_seq d < e_nid e -> e ∈ new).
  { intros e He _ Hlt. rewrite Hd1 in He. cbn in He. apply elem_of_app in He as [He|He]; [|done].
    pose proof (bs_nid _ (iv_base _ _ Hi) e He). lia. }
  assert (Hcurm : exists cur, (if 0 <? current_snap d rm then state_map_at d1 (current_snap d rm)
             else Ok (StateMap ∅ ∅)) = Ok cur /\ sm_ok (newest (d_events d1) rm (d_seq d)) cur).
  { destruct (Z.ltb_spec 0 (current_snap d rm)) as [Hlt|Hle].
    - apply (state_map_ok k); try done.
      + by rewrite Hd1.
      + exists new. split; [by rewrite Hd1|done].
      + apply Hb1.
    - eexists. split; [done|]. apply sm_empty_ok. intros x Hx.
      destruct (room_or_none k d rm Hi) as ([[_ Hn]|(H0 & _)] & _); [|lia].
      rewrite Hd1 in Hx. cbn in Hx. apply newest_app in Hx; [|done].
      destruct Hx as (Hx & Hr & Hs & Hxp & _). specialize (Hn x Hx Hr Hs). lia. }
  destruct Hcurm as (cur & -> & Hsm).
  destruct (ingest_news (d_events d1) rm new cur (d_seq d) (bs_sorted _ Hb1) (numbered_sorted _ _ _ Hnum)
              Hin Hrest Hsm) as (q & Hq & Hqall & Hsm').
  pose proof (sm_holds ord _ _ _ _ Hord (bs_sorted _ Hb1) Hsm') as Hh.
  destruct (sm_nids ord (fold_left ingest new cur)) as [mem oth] eqn:Esm. cbn [fst snd] in Hh.
  unfold insert_snap.
  set (latest := fold_left Z.max mem (fold_left Z.max oth 0)).
  set (d4 := upsert_room _ _ _ _ _).
  assert (He4 : d_events d4 = d_events d ++ new) by (unfold d4; rewrite Hd1; done).
  assert (Hq4 : d_seq d4 = d_seq d1) by done.
  assert (Hq4' : d_seq d <= d_seq d4) by (rewrite Hq4, Hd1; cbn; lia).
  assert (Hs4 : d_snaps d4 = <[d_snapseq d + 1 := Snap rm mem oth]> (d_snaps d)) by (unfold d4; rewrite Hd1; done).
  assert (Hn4 : d_snapseq d4 = d_snapseq d + 1) by (unfold d4; rewrite Hd1; done).
  assert (Hnewne : new <> []) by (intros ->; done).
  split; [|split; [lia|right; exists new; done]].
  assert (Hroom4 : exists mr, d_rooms d4 = <[rm := mr]> (d_rooms d) /\ rm_snap mr = d_snapseq d + 1 /\ rm_latest mr = latest).
  { unfold d4, upsert_room. cbn. rewrite Hd1. cbn. destruct (d_rooms d !! rm) as [o|]; eexists; split; [done|done|done|done]. }
  destruct Hroom4 as (mr & Hr4 & Hmr1 & Hmr2).
  assert (Hsn4 : forall id s, d_snaps d4 !! id = Some s -> d_snaps d !! id = Some s \/
            (s_room s = rm /\ d_snapseq d < id <= d_snapseq d4)).
  { intros id s. rewrite Hs4, Hn4. destruct (decide (id = d_snapseq d + 1)) as [-> |Hne].
    - rewrite lookup_insert. intros [= <-]. right. cbn. split; [done|lia].
    - rewrite lookup_insert_ne by done. by left. }
  assert (Hkeep4 : forall id s, d_snaps d !! id = Some s -> d_snaps d4 !! id = Some s).
  { intros id s Hs. rewrite Hs4, lookup_insert_ne; [done|]. apply (iv_range _ _ Hi) in Hs. lia. }
  assert (Hb4 : base d4).
  { apply (base_same d1); [rewrite He4, Hd1; done|done|done]. }
  apply (inv_after k d d4 rm new mr Hi); try done.
  - by rewrite He4.
  - intros x Hx. destruct (Hpn x Hx) as (Hr & _). split; [done|by apply Hgt].
  - lia.
  - split.
    + right. rewrite Hmr1. split; [pose proof (iv_snapseq _ _ Hi); lia|]. eexists.
      split; [rewrite Hs4; apply lookup_insert|]. eapply holds_ext; [|exact Hh].
      assert (d_events d1 = d_events d4) as -> by (rewrite He4, Hd1; done).
      assert (Hmax : forall e, e ∈ d_events d4 -> e_room e = rm -> e_nid e <= d_seq d4).
      { intros e He _. apply (bs_nid _ Hb4 e He). }
      assert (Hqall4 : forall e, e ∈ d_events d4 -> e_room e = rm -> e_nid e <= q).
      { intros e He Hr. apply Hqall; [|done]. rewrite Hd1. cbn. by rewrite <-He4. }
      intros x. split; apply newest_far; done.
    + rewrite Hmr1, Hn4. pose proof (iv_snapseq _ _ Hi). lia.
    + rewrite Hmr1. intros id s Hs _. apply Hsn4 in Hs as [Hs|[_ Hs]]; [|lia].
      apply (iv_range _ _ Hi) in Hs. lia.
    + rewrite Hmr2. unfold latest.
      assert (Hex : exists n, n ∈ mem ++ oth /\ 0 < n).
      { destruct (list_eq_nil_dec (rev new)) as [Hnil|Hnil].
        { exfalso. apply Hnewne. apply (f_equal (@rev event)) in Hnil. by rewrite rev_involutive in Hnil. }
        destruct (exists_last Hnewne) as (pre & e & He).
        assert (e ∈ new) as Hen by (rewrite He; apply elem_of_app; right; apply elem_of_list_singleton; done).
        destruct (Hin e Hen) as (Hel & Her & Hes & Hep).
        assert (Hnw : newest (d_events d1) rm q e).
        { repeat split; try done; [by apply Hqall|]. intros x Hx Hxr Hxs Hxk Hxp.
          destruct (Z_le_gt_dec (e_nid x) (d_seq d)) as [|Hgtx]; [lia|].
          pose proof (Hrest x Hx Hxr ltac:(lia)) as Hxn.
          rewrite He in Hxn. apply elem_of_app in Hxn as [Hxn|Hxn].
          - pose proof (numbered_sorted _ _ _ Hnum) as Hsn. rewrite He in Hsn. unfold sorted, nids in Hsn.
            rewrite map_app in Hsn. clear -Hsn Hxn. induction pre as [|y pre IH]; [by apply elem_of_nil in Hxn|].
            cbn in Hsn. apply StronglySorted_inv in Hsn as [Hsn Hf]. apply elem_of_cons in Hxn as [-> |Hxn].
            + rewrite Forall_forall in Hf. specialize (Hf (e_nid e)). feed specialize Hf; [|lia].
              apply elem_of_app. right. apply elem_of_list_here.
            + by apply IH.
          - apply elem_of_list_singleton in Hxn as ->. lia. }
        exists (e_nid e). split.
        - apply (holds_elem _ _ _ _ (e_nid e) Hh). eauto.
        - pose proof (bs_seq _ (iv_base _ _ Hi)). lia. }
      destruct Hex as (n & Hn & Hn0).
      assert (Hlat : latest ∈ mem ++ oth).
      { unfold latest. rewrite elem_of_app. destruct (fold_max_in mem (fold_left Z.max oth 0)) as [Heq|]; [|by left].
        rewrite Heq. destruct (fold_max_in oth 0) as [Heq2|]; [|by right].
        exfalso. apply elem_of_app in Hn as [Hn|Hn].
        - pose proof (proj2 (fold_max_ge mem (fold_left Z.max oth 0)) n Hn). lia.
        - pose proof (proj2 (fold_max_ge oth 0) n Hn). lia. }
      apply (holds_elem _ _ _ _ _ Hh) in Hlat as (e & (He & Hr & _) & Hen). exists e.
      split; [rewrite He4; rewrite Hd1 in He; done|]. split; done.
    + intros e He Hr. rewrite Hmr2.
      destruct (exists_last Hnewne) as (pre & z & Hz2).
      assert (z ∈ new) as Hzn by (rewrite Hz2; apply elem_of_app; right; apply elem_of_list_singleton; done).
      destruct (Hin z Hzn) as (Hzl & Hzr & Hzs & Hzp).
      assert (Hzmax : forall x, x ∈ d_events d1 -> e_room x = rm -> e_nid x <= e_nid z).
      { intros x Hx Hxr. destruct (Z_le_gt_dec (e_nid x) (d_seq d)) as [|Hgtx]; [lia|].
        pose proof (Hrest x Hx Hxr ltac:(lia)) as Hxn.
        rewrite Hz2 in Hxn. apply elem_of_app in Hxn as [Hxn|Hxn].
        - pose proof (numbered_sorted _ _ _ Hnum) as Hsn. rewrite Hz2 in Hsn. unfold sorted, nids in Hsn.
          rewrite map_app in Hsn. clear -Hsn Hxn. induction pre as [|y pre IH]; [by apply elem_of_nil in Hxn|].
          cbn in Hsn. apply StronglySorted_inv in Hsn as [Hsn Hf]. apply elem_of_cons in Hxn as [-> |Hxn].
          + rewrite Forall_forall in Hf. specialize (Hf (e_nid z)). feed specialize Hf; [|lia].
            apply elem_of_app. right. apply elem_of_list_here.
          + by apply IH.
        - apply elem_of_list_singleton in Hxn as ->. lia. }
      assert (Hnw : newest (d_events d1) rm q z).
      { repeat split; try done; [by apply Hqall|]. intros x Hx Hxr _ _ _. by apply Hzmax. }
      assert (e_nid z ∈ mem ++ oth) as Hzin by (apply (holds_elem _ _ _ _ (e_nid z) Hh); eauto).
      assert (e_nid e <= e_nid z).
      { apply Hzmax; [|done]. rewrite Hd1. cbn. by rewrite <-He4. }
      unfold latest. apply elem_of_app in Hzin as [Hn|Hn].
      * pose proof (proj2 (fold_max_ge mem (fold_left Z.max oth 0)) _ Hn). lia.
      * pose proof (proj2 (fold_max_ge oth 0) _ Hn).
        pose proof (proj1 (fold_max_ge mem (fold_left Z.max oth 0))). lia.
  - intros x Hx. rewrite He4 in Hx. apply elem_of_app in Hx as [Hx|Hx].
    + apply (row_ok_mono k d d4 x new); try done.
      * by rewrite He4.
      * intros e He. specialize (Hgt e He). pose proof (bs_nid _ (iv_base _ _ Hi) x Hx). lia.
      * intros id s Hs Hle. apply Hsn4 in Hs as [?|[_ ?]]; [done|lia].
      * lia.
      * by apply (iv_rows _ _ Hi).
    + destruct (Hpn x Hx) as (_ & Hst & Hbf & Hrp & _). unfold row_ok. by rewrite Hst.
Qed.
End Ops.
