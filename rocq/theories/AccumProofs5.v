(** Timelines, the cleaner, and whole histories. *)
From Verif Require Import Prelude AccumModel AccumSpec AccumProofs AccumProofs2 AccumProofs3 AccumProofs4.
Open Scope string_scope.
Open Scope list_scope.
Open Scope Z_scope.

(** A row without its JSON and without the columns filled in by the roll. *)
Definition blank_raw : raw :=
  Raw "" None None "" false "" "" false "" false None None "" "".
Definition strip (e : event) : event := set_before 0 0 (set_json blank_raw e).

Section Ops.
Context (ord : list Z -> list Z) (redact : raw -> raw -> raw -> raw).
Hypothesis Hord : ord_ok ord.
Hypothesis Hred : redact_ok redact.

Lemma redact_row (c : raw) (m : gmap string raw) (e : event) :
  let e' := match m !! e_id e with Some b => set_json (redact c b (e_json e)) e | None => e end in
  core e' = core e /\ strip e' = strip e /\ e_before e' = e_before e /\ e_replaces e' = e_replaces e /\
  (cols_ok e -> cols_ok e').
Proof.
  cbn. destruct (m !! e_id e) as [b|]; [|done]. destruct (Hred c b (e_json e)) as (H1 & H2 & H3 & _).
  split; [|split; [|split; [|split]]]; try done.
  - unfold core, has_key. cbn. by rewrite H1.
  - unfold cols_ok. cbn. rewrite H1, H2, H3. done.
Qed.

Lemma redact_rows_spec d c m :
  let d' := redact_rows redact d c m in
  map core (d_events d') = map core (d_events d) /\ map strip (d_events d') = map strip (d_events d) /\
  (forall x, x ∈ d_events d' -> exists y, y ∈ d_events d /\ core x = core y /\ e_before x = e_before y /\
     e_replaces x = e_replaces y /\ (cols_ok y -> cols_ok x)) /\
  d_seq d' = d_seq d /\ d_snaps d' = d_snaps d /\ d_snapseq d' = d_snapseq d /\ d_rooms d' = d_rooms d.
Proof.
  cbn. split; [|split; [|split]]; try done.
  - rewrite map_map. apply map_ext. intros e. apply redact_row.
  - rewrite map_map. apply map_ext. intros e. apply redact_row.
  - intros x Hx. apply elem_of_list_fmap in Hx as (y & -> & Hy). exists y. split; [done|].
    destruct (redact_row c m y) as (?&?&?&?&?). done.
Qed.

Lemma redact_step_rows d rm m d' : redact_step redact d rm m = Some d' ->
  exists c, d_events d' = map (fun e => match m !! e_id e with
              Some b => set_json (redact c b (e_json e)) e | None => e end) (d_events d).
Proof.
  unfold redact_step. destruct (Nat.eqb_spec (size m) 0) as [Hz|Hz].
  - intros [= <-]. exists blank_raw. apply map_size_empty_iff in Hz. subst m.
    symmetry. etransitivity; [|apply map_id]. apply map_ext. intros e. by rewrite lookup_empty.
  - destruct (List.find _ _) as [c|]; [|done]. intros [= <-]. by exists (e_json c).
Qed.

Lemma redact_step_spec d rm m d' : redact_step redact d rm m = Some d' ->
  map core (d_events d') = map core (d_events d) /\ map strip (d_events d') = map strip (d_events d) /\
  (forall x, x ∈ d_events d' -> exists y, y ∈ d_events d /\ core x = core y /\ e_before x = e_before y /\
     e_replaces x = e_replaces y /\ (cols_ok y -> cols_ok x)) /\
  d_seq d' = d_seq d /\ d_snaps d' = d_snaps d /\ d_snapseq d' = d_snapseq d /\ d_rooms d' = d_rooms d.
Proof.
  unfold redact_step. destruct (Nat.eqb _ 0).
  - intros [= <-]. repeat split; try done. intros x Hx. exists x. done.
  - destruct (List.find _ _) as [c|]; [|done]. intros [= <-]. apply redact_rows_spec.
Qed.

Lemma row_ok_like k d x y : core x = core y -> e_before x = e_before y -> e_replaces x = e_replaces y ->
  row_ok k d y -> row_ok k d x.
Proof.
  intros Hc Hb Hr. pose proof (core_ekey _ _ Hc) as Hk. apply core_eq in Hc as (Hn&?&Hrm&?&?&Hi&Hh).
  unfold row_ok, before_ok, replaces_ok. rewrite Hi, Hb, Hr, Hk, Hn, Hrm, Hh. done.
Qed.

Lemma strip_set_before l l' : map (set_before 0 0) l = map (set_before 0 0) l' -> map strip l = map strip l'.
Proof.
  intros H. apply (f_equal (map (set_json blank_raw))) in H. rewrite !map_map in H.
  rewrite (map_ext strip (fun e => set_json blank_raw (set_before 0 0 e))) by done.
  rewrite H. by apply map_ext.
Qed.

Lemma cols_before s r e : cols_ok e -> cols_ok (set_before s r e).
Proof. done. Qed.
Lemma set_before_cols l l' : map (set_before 0 0) l = map (set_before 0 0) l' ->
  (forall e, e ∈ l' -> cols_ok e) -> forall e, e ∈ l -> cols_ok e.
Proof.
  intros Heq H e He.
  assert (set_before 0 0 e ∈ map (set_before 0 0) l') as Hin.
  { rewrite <-Heq. apply elem_of_list_fmap. eauto. }
  apply elem_of_list_fmap in Hin as (y & Hy & Hin). specialize (H y Hin).
  assert (cols_ok (set_before 0 0 e)) as Hc by (rewrite Hy; done). done.
Qed.

(** What a timeline which stored something did. *)
Definition new_rows (rm : string) (t : timeline) (d : db) (new : list event) : Prop :=
  let inc := dedup rm (tl_prev t) true [] (tl_events t) in
  numbered (d_seq d) (fresh (d_events d) (mark_gap (tl_limited t) inc (filter_new (d_events d) inc))) new.

Definition flag_state (e : event) : event := set_isstate (e_isstate e || has_key (e_json e)) e.

Definition acc_same (d d' : db) : Prop :=
  d_events d' = d_events d /\ d_snaps d' = d_snaps d /\ d_rooms d' = d_rooms d /\
  d_invites d' = d_invites d /\ d_spaces d' = d_spaces d /\ d_snapseq d' = d_snapseq d.

Definition acc_effect (k : bool) (rm : string) (t : timeline) (d d' : db) (r : acc_result) : Prop :=
  Inv k d' /\ d_seq d <= d_seq d' /\
  ((acc_same d d' /\ r = AccResult 0 [] false) \/
   exists new, new_rows rm t d new /\ new <> [] /\
     map core (d_events d') = map core (d_events d ++ new) /\
     map strip (d_events d') = map strip (d_events d ++ new) /\
     (current_snap d rm = 0 -> exists e new', new = e :: new' /\ is_create e = true) /\
     (exists c, map (set_before 0 0) (d_events d') =
        map (fun e => set_before 0 0 (match redactions (map flag_state new) !! e_id e with
               Some b => set_json (redact c b (e_json e)) e | None => e end)) (d_events d ++ new)) /\
     ar_new r = Z.of_nat (length new) /\ ar_nids r = map e_nid new).

Lemma strip_core_nid l l' : map strip l = map strip l' -> map e_nid l = map e_nid l' /\ map e_id l = map e_id l'.
Proof.
  intros H. split.
  - apply (f_equal (map e_nid)) in H. rewrite !map_map in H. done.
  - apply (f_equal (map e_id)) in H. rewrite !map_map in H. done.
Qed.

Lemma base_core d d' : map core (d_events d') = map core (d_events d) -> d_seq d' = d_seq d ->
  (forall e, e ∈ d_events d' -> cols_ok e) -> base d -> base d'.
Proof.
  intros Hc Hq Hcols [B1 B2 B3 B4 B5]. split; rewrite ?Hq; try done.
  - unfold sorted. by rewrite (core_sorted _ _ Hc).
  - by rewrite (core_ids _ _ Hc).
  - intros e He. destruct (core_in _ _ _ Hc He) as (y & Hy & Hcy).
    apply core_eq in Hcy as (Hn & _). rewrite <-Hn. by apply B3.
Qed.

Lemma news_shape lim inc rows : let news := mark_gap lim inc (filter_new rows inc) in
  fresh rows news = [] \/ fresh rows news = news.
Proof.
  cbn. assert (H : fresh rows (filter_new rows inc) = [] \/ fresh rows (filter_new rows inc) = filter_new rows inc).
  { rewrite filter_new_fresh. unfold filter_new. destruct (Nat.leb_spec (length inc) 1) as [Hle|].
    - destruct inc as [|e [|e2 inc]]; [by left| |cbn in Hle; lia]. cbn.
      destruct (known rows (e_id e)); [by left|by right].
    - destruct (forallb _ inc) eqn:Ef; [|by right]. left. clear -Ef.
      induction inc as [|e inc IH]; [done|]. cbn in Ef. apply andb_true_iff in Ef as [E1 E2]. cbn. rewrite E1. cbn. by apply IH. }
  unfold mark_gap. destruct (filter_new rows inc) as [|e l]; [done|]. destruct inc as [|i inc]; [done|].
  destruct (_ && _); [|done]. unfold fresh in *. cbn in *. destruct (negb (known rows (e_id e))).
  - destruct H as [H|H]; [done|]. right. injection H as H. by rewrite H.
  - destruct H as [H|H]; [by left|]. exfalso.
    assert (Hlen : (length (List.filter (fun e => negb (known rows (e_id e))) l) <= length l)%nat) by (clear; induction l as [|x l IH]; cbn; [lia|destruct (negb _); cbn; lia]).
    rewrite H in Hlen. cbn in Hlen. lia.
Qed.

Lemma acc_txn_ok k rm t d : Inv k d -> Forall good_raw (tl_events t) ->
  match acc_txn redact rm t d with
  | (Ok r, d') => acc_effect k rm t d d' r
  | (Fail _, d') => d_seq d <= d_seq d' /\ d_snapseq d <= d_snapseq d'
  end.
Proof.
  intros Hi Hg. unfold acc_txn, acc_effect, new_rows.
  destruct (news_ok rm t (d_events d) Hg) as [Hp Hndi].
  set (inc := dedup rm (tl_prev t) true [] (tl_events t)) in *.
  pose proof (news_shape (tl_limited t) inc (d_events d)) as Hshape. cbn in Hshape.
  remember (mark_gap (tl_limited t) inc (filter_new (d_events d) inc)) as news eqn:Enews.
  assert (Hsame : acc_effect k rm t d d (AccResult 0 [] false)).
  { split; [done|]. split; [lia|]. left. repeat split. }
  unfold acc_effect, new_rows in Hsame. fold inc in Hsame. rewrite <-Enews in Hsame. clear Enews.
  destruct news as [|first news'] eqn:En; [exact Hsame|]. rewrite <-En in *.
  destruct ((current_snap d rm =? 0) && negb (is_create first)) eqn:Eg; [exact Hsame|].
  destruct (insert d news) as [d1 m] eqn:Eins.
  destruct (insert_base d rm false news d1 m (iv_base _ _ Hi) Hp Hndi Eins)
    as (new & Hnum & Hd1 & Hm & Hsz & Hpn & Hb1).
  pose proof (numbered_gt _ _ _ Hnum) as Hgt.
  destruct (Nat.eqb_spec (size m) 0) as [Hz|Hz].
  { assert (new = []) as -> by (destruct new; [done|cbn in Hsz; lia]).
    assert (He1 : d_events d1 = d_events d) by (rewrite Hd1; cbn; apply app_nil_r).
    split; [|split].
    - apply (inv_ext k d); [done|rewrite Hd1; cbn; lia|by rewrite Hd1|rewrite Hd1; cbn; lia|by rewrite Hd1|done].
    - rewrite Hd1. cbn. lia.
    - left. split; [|done]. split; [done|]. rewrite Hd1. done. }
  set (f := flag_state).
  assert (Hpost : post_insert m news = map f new).
  { unfold post_insert. etransitivity; [|apply (omap_rows f m news (d_events d) new (d_seq d)); done].
    apply list_omap_ext. apply Forall2_same_length_lookup_2; [done|]. intros i x y Hx Hy.
    assert (x = y) as -> by congruence. destruct (m !! e_id y); done. }
  rewrite Hpost. clear Hpost.
  rewrite Forall_forall in Hpn.
  assert (He1 : d_events d1 = d_events d ++ new) by (by rewrite Hd1).
  assert (Hq1 : d_seq d <= d_seq d1) by (rewrite Hd1; cbn; lia).
  destruct (redact_step redact d1 rm (redactions (map f new))) as [d2|] eqn:Ered;
    [|split; [done|rewrite Hd1; cbn; lia]].
  destruct (redact_step_spec _ _ _ _ Ered) as (Hc2 & Hst2 & Hel2 & Hq2 & Hs2 & Hn2 & Hr2).
  assert (Hsn : d_snaps d2 = d_snaps d) by (rewrite Hs2, Hd1; done).
  assert (Hnn : d_snapseq d2 = d_snapseq d) by (rewrite Hn2, Hd1; done).
  assert (Hb2 : base d2).
  { apply (base_core d1); try done. intros e He. destruct (Hel2 e He) as (y & Hy & _ & _ & _ & Hcol).
    apply Hcol. by apply (bs_cols _ Hb1). }
  destruct (room_or_none k d rm Hi) as (Hcur & Hrange & Htop).
  assert (Hri : rollinv k rm d2 (current_snap d rm) (d_seq d)).
  { split.
    - apply Hb2.
    - intros x Hx. apply (bs_cols _ Hb2 x Hx).
    - rewrite Hsn. eapply cur_core; [symmetry; exact Hc2|]. rewrite He1.
      destruct Hcur as [[H0 Hn]|(H0 & s & Hs & Hh)].
      + left. split; [done|]. by apply no_state_app.
      + right. split; [done|]. exists s. split; [done|]. by apply holds_app.
    - by rewrite Hnn.
    - rewrite Hsn, Hnn. apply (iv_range _ _ Hi).
    - rewrite Hsn. exact Htop.
    - intros x Hx Hor. destruct (Hel2 x Hx) as (y & Hy & Hc & Hbf & Hrp & _).
      eapply row_ok_like; [exact Hc|done|done|].
      rewrite He1 in Hy. apply elem_of_app in Hy as [Hy|Hy].
      + apply (row_ok_mono k d d2 y new); try done.
        * by rewrite Hc2, He1.
        * intros e He. specialize (Hgt e He). pose proof (bs_nid _ (iv_base _ _ Hi) y Hy). lia.
        * rewrite Hsn. done.
        * rewrite Hsn. done.
        * lia.
        * by apply (iv_rows _ _ Hi).
      + exfalso. apply core_eq in Hc as (Hcn&_&Hcr&_). destruct (Hpn y Hy) as (Hyr & _).
        specialize (Hgt y Hy). destruct Hor; [congruence|lia]. }
  assert (Htd : todo rm d2 (d_seq d) (map f new)).
  { apply (todo_core rm d1 d2); [done|]. split.
    - unfold sorted, nids. rewrite map_map. exact (numbered_sorted _ _ _ Hnum).
    - intros e He. apply elem_of_list_fmap in He as (x & -> & Hx). cbn. split; [by apply Hgt|].
      exists x. destruct (Hpn x Hx) as (Hxr & Hxi & _). rewrite He1, Hxi. repeat split; try done.
      apply elem_of_app. by right.
    - intros x Hx Hxr Hp2. rewrite He1 in Hx. apply elem_of_app in Hx as [Hx|Hx].
      { pose proof (bs_nid _ (iv_base _ _ Hi) x Hx). lia. }
      exists (f x). split; [|done]. apply elem_of_list_fmap. eauto. }
  destruct (roll_spec k rm (map f new) d2 _ _ Hri Htd) as (sid & d3 & q & -> & Hri3 & Hgr & Hpq & Hqall).
  set (d5 := upsert_room _ _ _ _ _). set (latest := fold_left Z.max _ 0) in *.
  assert (He5 : d_events d5 = d_events d3) by done.
  assert (Hs5 : d_snaps d5 = d_snaps d3) by done.
  assert (Hn5 : d_snapseq d5 = d_snapseq d3) by done.
  assert (Hq5 : d_seq d5 = d_seq d1) by (rewrite <-Hq2, <-(gr_seq _ _ _ Hgr); done).
  assert (Hcore : map core (d_events d5) = map core (d_events d ++ new)).
  { rewrite He5, (gr_core _ _ _ Hgr), Hc2, He1. done. }
  assert (Hstrip : map strip (d_events d5) = map strip (d_events d ++ new)).
  { rewrite He5, (strip_set_before _ _ (gr_rows _ _ _ Hgr)), Hst2, He1. done. }
  assert (Hnewne : new <> []) by (intros ->; done).
  assert (Hmr : exists mr, d_rooms d5 = <[rm := mr]> (d_rooms d) /\ rm_snap mr = sid /\ rm_latest mr = latest).
  { assert (d_rooms d3 = d_rooms d) as Hrr.
    { rewrite (gr_rooms _ _ _ Hgr), Hr2, Hd1. done. }
    unfold d5, upsert_room. cbn. rewrite Hrr.
    destruct (d_rooms d !! rm) as [o|]; eexists; split; [done|done|done|done]. }
  destruct Hmr as (mr & Hr5 & Hmr1 & Hmr2).
  assert (Hb5 : base d5).
  { apply (base_core d2); [by rewrite He5, (gr_core _ _ _ Hgr)|by rewrite Hq5|rewrite He5|done].
    apply (set_before_cols _ _ (gr_rows _ _ _ Hgr)). apply Hb2. }
  split; [|split; [lia|]].
  2:{ right. exists new. split; [done|]. split; [done|]. split; [done|]. split; [done|]. split.
      - intros H0. rewrite H0 in Eg. cbn in Eg. apply negb_false_iff in Eg.
        destruct Hshape as [Hfr|Hfr].
        { rewrite Hfr in Hnum. apply numbered_ids in Hnum. destruct new; [done|]. cbn in Hnum. done. }
        rewrite Hfr, En in Hnum. apply numbered_nonid in Hnum.
        destruct new as [|e new']; [done|]. 
        exists e, new'. split; [done|]. unfold is_create in *.
        apply (f_equal (fun l => match l with z :: _ => (e_type z, e_skey z) | [] => ("", "") end)) in Hnum. cbn in Hnum. injection Hnum as -> ->. done.
      - split.
        + destruct (redact_step_rows _ _ _ _ Ered) as (c & Hc). exists c.
          rewrite He5, (gr_rows _ _ _ Hgr), Hc, He1, map_map. done.
        + cbn. rewrite Hsz, map_map. done. }
  assert (Hgr2 : grows rm d2 d3) by done. destruct Hgr2 as [G1 G2 G3 G4 G5 G6 G7 G8 G9].
  assert (Hsn5 : forall id s, d_snaps d5 !! id = Some s -> d_snaps d !! id = Some s \/
            (s_room s = rm /\ d_snapseq d < id <= d_snapseq d5)).
  { intros id s Hs. rewrite Hs5 in Hs. rewrite Hn5. destruct (G9 id s Hs) as [H|[Hr Hlt]].
    - left. by rewrite <-Hsn.
    - right. split; [done|]. rewrite <-Hnn. pose proof (ri_range _ _ _ _ _ Hri3 id s Hs). lia. }
  apply (inv_after k d d5 rm new mr Hi); try done.
  - intros x Hx. destruct (Hpn x Hx) as (Hr & _). split; [done|by apply Hgt].
  - rewrite Hn5, <-Hnn. done.
  - lia.
  - intros id s Hs. rewrite Hs5. apply G8. by rewrite Hsn.
  - assert (Hmax5 : forall e, e ∈ d_events d5 -> e_room e = rm -> e_nid e <= latest).
    { intros e He Hr. destruct (core_in _ _ _ Hcore He) as (y & Hy & Hcy).
      apply core_eq in Hcy as (Hn & _ & Hr' & _).
      assert (Hnew : forall z, z ∈ new -> e_nid z <= latest).
      { intros z Hz2. unfold latest. apply (fold_max_ge (map e_nid (map f new)) 0).
        rewrite map_map. apply elem_of_list_fmap. eauto. }
      apply elem_of_app in Hy as [Hy|Hy].
      - destruct new as [|z new']; [done|]. specialize (Hnew z ltac:(apply elem_of_list_here)).
        specialize (Hgt z ltac:(apply elem_of_list_here)). pose proof (bs_nid _ (iv_base _ _ Hi) y Hy). lia.
      - specialize (Hnew y Hy). lia. }
    split.
    + rewrite Hmr1. rewrite He5, Hs5. eapply cur_far; [done|exact Hqall| |done|apply (ri_cur _ _ _ _ _ Hri3)].
      intros e He _. rewrite <-He5 in He. apply (bs_nid _ Hb5 e He).
    + rewrite Hmr1, Hn5. apply (ri_sid _ _ _ _ _ Hri3).
    + rewrite Hmr1, Hs5. apply (ri_top _ _ _ _ _ Hri3).
    + rewrite Hmr2. unfold latest. rewrite map_map. change (map (fun x => e_nid (f x)) new) with (map e_nid new).
      destruct (fold_max_in (map e_nid new) 0) as [H0|Hin].
      * exfalso. destruct new as [|z new']; [done|].
        pose proof (proj2 (fold_max_ge (map e_nid (z :: new')) 0) (e_nid z) ltac:(apply elem_of_list_here)).
        specialize (Hgt z ltac:(apply elem_of_list_here)). pose proof (bs_seq _ (iv_base _ _ Hi)). lia.
      * apply elem_of_list_fmap in Hin as (z & Hz2 & Hin). rewrite Hz2.
        assert (z ∈ d_events d ++ new) as Hz3 by (apply elem_of_app; by right).
        destruct (core_in _ _ _ (eq_sym Hcore) Hz3) as (y & Hy & Hcy).
        apply core_eq in Hcy as (Hn & _ & Hr' & _). exists y. split; [done|].
        destruct (Hpn z Hin) as (Hzr & _). split; [congruence|done].
    + rewrite Hmr2. exact Hmax5.
  - intros x Hx. rewrite He5 in Hx.
    assert (row_ok k d3 x) as Hrow.
    { apply (ri_rows _ _ _ _ _ Hri3 x Hx). destruct (decide (e_room x = rm)) as [He|]; [right|by left].
      by apply Hqall. }
    apply (row_ok_mono k d3 d5 x []); try done.
    + by rewrite app_nil_r.
    + intros e He. by apply elem_of_nil in He.
Qed.

(** * The cleaner *)
Lemma clean_snaps_sub n d id s : d_snaps (clean_snaps n d) !! id = Some s -> d_snaps d !! id = Some s.
Proof. unfold clean_snaps. cbn. intros H. by apply map_filter_lookup_Some in H as [H _]. Qed.
(** The snapshot with the highest number in its room is kept. *)
Lemma clean_keeps_top n d id s : d_snaps d !! id = Some s ->
  (forall id' s', d_snaps d !! id' = Some s' -> s_room s' = s_room s -> id' <= id) ->
  d_snaps (clean_snaps n d) !! id = Some s.
Proof.
  intros Hs Htop. unfold clean_snaps. cbn. apply map_filter_lookup_Some. split; [done|]. cbn.
  apply Nat.leb_le. unfold snap_rank.
  set (g := fun kv : Z * snap => String.eqb (s_room kv.2) (s_room s) && (id <=? kv.1)).
  assert (Hall : forall kv, kv ∈ map_to_list (d_snaps d) -> g kv = true -> kv = (id, s)).
  { intros [id' s'] Hin Hg. apply elem_of_map_to_list in Hin. unfold g in Hg. cbn in Hg.
    apply andb_true_iff in Hg as [H1 H2]. apply String.eqb_eq in H1. specialize (Htop id' s' Hin H1).
    assert (id' = id) as -> by lia. congruence. }
  pose proof (NoDup_map_to_list (d_snaps d)) as Hnd. revert Hall Hnd.
  generalize (map_to_list (d_snaps d)) as l. intros l Hall Hnd.
  assert (length (List.filter g l) <= 1)%nat; [|lia].
  induction l as [|kv l IH]; [cbn; lia|]. apply NoDup_cons in Hnd as [Hn Hnd]. cbn.
  assert (Hall' : forall kv', kv' ∈ l -> g kv' = true -> kv' = (id, s)).
  { intros kv' Hin. apply Hall. by apply elem_of_list_further. }
  destruct (g kv) eqn:Eg; [|by apply IH].
  assert (List.filter g l = []) as ->; [|cbn; lia].
  destruct (List.filter g l) as [|kv' l'] eqn:Ef; [done|exfalso].
  assert (In kv' (List.filter g l)) as Hin by (rewrite Ef; by left). apply filter_In in Hin as [Hin Hg].
  apply elem_of_list_In in Hin. apply Hn.
  rewrite (Hall kv ltac:(apply elem_of_list_here) Eg), <-(Hall' kv' Hin Hg). done.
Qed.

Lemma clean_inv k n d : Inv k d -> Inv false (clean_snaps n d).
Proof.
  intros [H1 H2 H3 H4 H5 H6]. split; try done.
  - by apply (base_same d).
  - intros id s Hs. apply clean_snaps_sub in Hs. by apply (H3 id s).
  - intros rm m Hm. destruct (H4 rm m Hm) as [R1 R2 R3 R4 R5]. split; try done.
    + destruct R1 as [[H0 Hn]|(H0 & s & Hs & Hh)]; [by left|]. right. split; [done|]. exists s.
      split; [|done]. apply clean_keeps_top; [done|]. intros id' s' Hs' Hr. apply (R3 id' s'); [done|].
      rewrite Hr. apply Hh.
    + intros id s Hs. apply clean_snaps_sub in Hs. by apply R3.
  - intros rm Hm. destruct (H5 rm Hm) as [Ha Hb]. split; [done|]. intros id s Hs. apply clean_snaps_sub in Hs. by eapply Hb.
  - intros x Hx. specialize (H6 x Hx). unfold row_ok in *. destruct (e_isstate x); [done|].
    destruct H6 as (Hb & Hr & Hle). split; [|done]. destruct Hb as [Hb|(H0 & _ & Hh)]; [by left|].
    right. split; [done|]. split; [done|]. intros s Hs. apply clean_snaps_sub in Hs. by apply Hh.
Qed.

(** * Histories *)
Definition is_clean (o : op) : bool := match o with Clean _ => true | _ => false end.

Lemma inv_weaken d : Inv true d -> Inv false d.
Proof.
  intros [H1 H2 H3 H4 H5 H6]. split; try done. intros x Hx. specialize (H6 x Hx). unfold row_ok in *.
  destruct (e_isstate x); [done|]. destruct H6 as (Hb & Hr). split; [|done].
  destruct Hb as [Hb|(H0 & _ & Hh)]; [by left|]. right. done.
Qed.

Lemma run_inv k o d : Inv k d -> good_op o -> Inv (k && negb (is_clean o)) (run ord redact o d).
Proof.
  intros Hi Hg. destruct o as [rm st|rm t|n|u rm i|u rm]; cbn [run is_clean negb good_op] in *.
  - rewrite andb_true_r. unfold initialise. destruct st as [|r st]; [done|]. destruct Hg as [Hg Hnd].
    pose proof (init_txn_ok ord Hord k rm (r :: st) d Hi Hg Hnd) as H.
    destruct (init_txn _ _ _ _) as [[res|b] d']; [apply H|]. destruct H. by apply rollback_inv.
  - rewrite andb_true_r. unfold accumulate. destruct (tl_events t) as [|r l] eqn:Et; [done|]. rewrite <-Et in Hg.
    pose proof (acc_txn_ok k rm t d Hi Hg) as H.
    destruct (acc_txn _ _ _ _) as [[res|b] d']; [apply H|]. destruct H. by apply rollback_inv.
  - rewrite andb_false_r. by eapply clean_inv.
  - rewrite andb_true_r. apply (inv_ext k d); try done; cbn; lia.
  - rewrite andb_true_r. apply (inv_ext k d); try done; cbn; lia.
Qed.

Lemma runs_inv ops : forall k d, Inv k d -> Forall good_op ops ->
  Inv (k && negb (existsb is_clean ops)) (runs ord redact ops d).
Proof.
  induction ops as [|o ops IH]; intros k d Hi Hg; cbn.
  - by rewrite andb_true_r.
  - apply Forall_cons in Hg as [Hg1 Hg]. rewrite negb_orb, andb_assoc. apply IH; [|done]. by apply run_inv.
Qed.
End Ops.
