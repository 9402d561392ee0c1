(** Which snapshots the cleaner keeps. *)
From Verif Require Import Prelude AccumModel AccumSpec AccumProofs AccumProofs2 AccumProofs3 AccumProofs4 AccumProofs5 AccumProofs6.
Open Scope string_scope.
Open Scope list_scope.
Open Scope Z_scope.

(** Stored events of a room from a position on. *)
Definition rows_from (l : list event) (rm : string) (n : Z) : nat :=
  length (List.filter (fun e => String.eqb (e_room e) rm && (n <=? e_nid e)) l).
(** Snapshots of a room made after the one with this number. *)
Definition after (sn : gmap Z snap) (rm : string) (id : Z) : nat :=
  length (List.filter (fun kv : Z * snap => String.eqb (s_room (snd kv)) rm && (id <? fst kv)) (map_to_list sn)).

Lemma filter_length_le {A} (f g : A -> bool) l : (forall x, x ∈ l -> f x = true -> g x = true) ->
  (length (List.filter f l) <= length (List.filter g l))%nat.
Proof.
  induction l as [|x l IH]; intros H; cbn; [lia|].
  assert (IH' := IH ltac:(intros y Hy; apply H; by apply elem_of_list_further)).
  destruct (f x) eqn:E; [rewrite (H x ltac:(apply elem_of_list_here) E); cbn; lia|]. destruct (g x); cbn; lia.
Qed.
Lemma filter_perm {A} (f : A -> bool) l l' : l ≡ₚ l' -> length (List.filter f l) = length (List.filter f l').
Proof.
  induction 1 as [|x l l' H IH|x y l|l1 l2 l3 H1 IH1 H2 IH2]; cbn; [done|destruct (f x); cbn; lia|destruct (f x), (f y); done|lia].
Qed.
Lemma after_insert sn rm id n s : sn !! n = None -> (after (<[n := s]> sn) rm id <= S (after sn rm id))%nat.
Proof.
  intros Hn. unfold after. rewrite (filter_perm _ _ _ (map_to_list_insert sn n s Hn)). cbn.
  destruct (_ && _); cbn; lia.
Qed.
Lemma after_top sn rm id : (forall i s, sn !! i = Some s -> s_room s = rm -> i <= id) -> after sn rm id = 0%nat.
Proof.
  intros H. unfold after. assert (List.filter (fun kv : Z * snap => String.eqb (s_room (snd kv)) rm && (id <? fst kv)) (map_to_list sn) = []) as ->; [|done].
  apply elem_of_nil_inv. intros [i s] Hin. rewrite elem_of_list_In, filter_In, <-elem_of_list_In in Hin.
  destruct Hin as [Hin Hb]. apply elem_of_map_to_list in Hin. cbn in Hb. apply andb_true_iff in Hb as [H1 H2].
  apply String.eqb_eq in H1. specialize (H i s Hin H1). lia.
Qed.
Lemma after_other sn rm rm' id n s : sn !! n = None -> s_room s = rm' -> rm' <> rm -> after (<[n := s]> sn) rm id = after sn rm id.
Proof.
  intros Hn Hs Hne. unfold after. rewrite (filter_perm _ _ _ (map_to_list_insert sn n s Hn)). cbn.
  destruct (String.eqb_spec (s_room s) rm); [congruence|]. done.
Qed.
Lemma after_clean n d rm id : (after (d_snaps (clean_snaps n d)) rm id <= after (d_snaps d) rm id)%nat.
Proof.
  unfold clean_snaps. cbn [d_snaps set_snaps]. set (P := fun kv : Z * snap => _). unfold after.
  assert (H : map_to_list (filter P (d_snaps d)) ≡ₚ filter P (map_to_list (d_snaps d))).
  { rewrite map_filter_alt. apply map_to_list_to_map.
    apply (NoDup_fmap_2_strong fst).
    - intros [i s] [j t] Hi Hj Heq. cbn in Heq. subst j. apply elem_of_list_filter in Hi as [_ Hi], Hj as [_ Hj].
      apply elem_of_map_to_list in Hi, Hj. congruence.
    - apply NoDup_filter, NoDup_map_to_list. }
  rewrite (filter_perm _ _ _ H). generalize (map_to_list (d_snaps d)) as l. intros l. clear H.
  set (f := fun kv : Z * snap => String.eqb _ _ && _).
  induction l as [|kv l IH]; [done|]. rewrite filter_cons. destruct (decide (P kv)); cbn; destruct (f kv); cbn; lia.
Qed.
Lemma rank_after d id s : (snap_rank d id s <= S (after (d_snaps d) (s_room s) id))%nat.
Proof.
  unfold snap_rank, after. pose proof (NoDup_fst_map_to_list (d_snaps d)) as Hnd. revert Hnd.
  generalize (map_to_list (d_snaps d)) as l. induction l as [|[i t] l IH]; intros Hnd; cbn; [lia|].
  cbn in Hnd. apply NoDup_cons in Hnd as [Hn Hnd]. specialize (IH Hnd).
  destruct (String.eqb (s_room t) (s_room s)); cbn; [|done].
  destruct (Z.leb_spec id i), (Z.ltb_spec id i); cbn; try lia.
  assert (i = id) as -> by lia.
  assert (length (List.filter (fun kv : Z * snap => String.eqb (s_room kv.2) (s_room s) && (id <=? kv.1)%Z) l) <=
          length (List.filter (fun kv : Z * snap => String.eqb (s_room kv.2) (s_room s) && (id <? kv.1)%Z) l))%nat; [|lia].
  apply filter_length_le. intros [j u] Hin Hb. cbn in *. apply andb_true_iff in Hb as [-> Hb]. cbn.
  assert (j <> id) by (intros ->; apply Hn, elem_of_list_fmap; by exists (id, u)). lia.
Qed.

Lemma rows_from_app l l' rm n : rows_from (l ++ l') rm n = (rows_from l rm n + rows_from l' rm n)%nat.
Proof. unfold rows_from. by rewrite List.filter_app, app_length. Qed.
Lemma rows_from_core l l' rm n : map core l = map core l' -> rows_from l rm n = rows_from l' rm n.
Proof.
  revert l'. induction l as [|e l IH]; intros [|e' l'] H; try done. cbn in H. injection H as H1 H2 H3 H4 H5 H6 H7 H8.
  unfold rows_from in *. cbn. rewrite H1, H3. specialize (IH l' H8). destruct (_ && _); cbn; lia.
Qed.
Lemma rows_from_all l rm n : (forall e, e ∈ l -> e_room e = rm /\ n <= e_nid e) -> rows_from l rm n = length l.
Proof.
  induction l as [|e l IH]; intros H; [done|]. unfold rows_from in *. cbn.
  destruct (H e ltac:(apply elem_of_list_here)) as [-> Hn]. rewrite String.eqb_refl. cbn.
  destruct (Z.leb_spec n (e_nid e)); [|lia]. cbn. f_equal. apply IH. intros x Hx. apply H. by apply elem_of_list_further.
Qed.

(** Rolling forward. *)
Lemma roll_count rm l : forall d sid sid' d', roll rm d sid l = (Ok sid', d') ->
  (forall id s, d_snaps d !! id = Some s -> id <= d_snapseq d) ->
  (forall id s, d_snaps d !! id = Some s -> s_room s = rm -> id <= sid) ->
  (sid <> 0 -> is_Some (d_snaps d !! sid)) ->
  NoDup (map e_nid l) ->
  (forall r y, (after (d_snaps d') r y <= after (d_snaps d) r y + length l)%nat) /\
  (forall r y, r <> rm -> after (d_snaps d') r y = after (d_snaps d) r y) /\
  (forall id, is_Some (d_snaps d !! id) -> is_Some (d_snaps d' !! id)) /\
  (forall x, x ∈ d_events d' -> e_nid x ∉ map e_nid l -> x ∈ d_events d) /\
  (forall x pre e post, x ∈ d_events d' -> l = pre ++ e :: post -> e_nid x = e_nid e ->
     (after (d_snaps d') rm (e_before x) <= S (length post))%nat /\
     (e_before x <> 0 -> is_Some (d_snaps d' !! e_before x))).
Proof.
  induction l as [|e l IH]; intros d sid sid' d' H Hrange Htop Hpres Hnd.
  { cbn in H. injection H as <- <-. split; [intros; lia|]. split; [done|]. split; [done|]. split; [done|].
    intros x [|? pre] ? ? _ Habs; discriminate. }
  cbn in Hnd. apply NoDup_cons in Hnd as [Hen Hnd]. cbn [roll] in H.
  (* one step: new snapshots [sn] of at most one more, and the row of [e] gets [sid] *)
  assert (Hstep : forall (d1 : db) rep sid1, roll rm (update_before d1 (e_nid e) sid rep) sid1 l = (Ok sid', d') ->
    d_events d1 = d_events d ->
    (forall id s, d_snaps d1 !! id = Some s -> id <= d_snapseq d1) ->
    (forall id s, d_snaps d1 !! id = Some s -> s_room s = rm -> id <= sid1) ->
    (sid1 <> 0 -> is_Some (d_snaps d1 !! sid1)) ->
    (forall r y, (after (d_snaps d1) r y <= S (after (d_snaps d) r y))%nat) ->
    (forall r y, r <> rm -> after (d_snaps d1) r y = after (d_snaps d) r y) ->
    (forall id, is_Some (d_snaps d !! id) -> is_Some (d_snaps d1 !! id)) ->
  (forall r y, (after (d_snaps d') r y <= after (d_snaps d) r y + S (length l))%nat) /\
  (forall r y, r <> rm -> after (d_snaps d') r y = after (d_snaps d) r y) /\
  (forall id, is_Some (d_snaps d !! id) -> is_Some (d_snaps d' !! id)) /\
  (forall x, x ∈ d_events d' -> e_nid x ∉ e_nid e :: map e_nid l -> x ∈ d_events d) /\
  (forall x pre e' post, x ∈ d_events d' -> e :: l = pre ++ e' :: post -> e_nid x = e_nid e' ->
     (after (d_snaps d') rm (e_before x) <= S (length post))%nat /\
     (e_before x <> 0 -> is_Some (d_snaps d' !! e_before x)))).
  { intros d1 rep sid1 Hroll Hev R1 R2 R3 R4 R5 R6.
    destruct (IH _ _ _ _ Hroll R1 R2 R3 Hnd) as (I1 & I2 & I3 & I4 & I5). cbn [d_snaps update_before set_events] in I1, I2, I3.
    split; [intros r y; specialize (I1 r y); specialize (R4 r y); lia|].
    split; [intros r y Hr; rewrite (I2 r y Hr); by apply R5|].
    split; [auto|]. split.
    - intros x Hx Hn. apply not_elem_of_cons in Hn as [Hn1 Hn2]. apply I4 in Hx; [|done].
      apply update_elem in Hx as (y & Hy & _ & [[Hyn Hxy]|[_ ->]]); [|by rewrite <-Hev].
      exfalso. apply Hn1. rewrite Hxy. done.
    - intros x [|z pre] e' post Hx Hl Hxn.
      + injection Hl as <- <-. apply I4 in Hx; [|by rewrite Hxn].
        apply update_elem in Hx as (y & Hy & _ & [[Hyn ->]|[Hyn ->]]); [|done]. cbn [e_before set_before].
        split; [|auto]. specialize (I1 rm sid). specialize (R4 rm sid). rewrite (after_top (d_snaps d) rm sid Htop) in R4. lia.
      + injection Hl as <- ->. by eapply I5. }
  destruct (e_isstate e).
  - destruct (if _ : bool then _ else _) as [old|b]; [|done].
    destruct (calc_snapshot old e) as [[new rep]|]; [|done]. unfold insert_snap in H.
    assert (Hfresh : d_snaps d !! (d_snapseq d + 1) = None).
    { destruct (d_snaps d !! (d_snapseq d + 1)) as [s|] eqn:Es; [|done]. specialize (Hrange _ _ Es). lia. }
    apply (Hstep _ _ _ H); [done|..]; cbn.
    + intros id s Hs. destruct (decide (id = d_snapseq d + 1)) as [-> |Hne]; [lia|].
      rewrite lookup_insert_ne in Hs by done. specialize (Hrange _ _ Hs). lia.
    + intros id s Hs _. destruct (decide (id = d_snapseq d + 1)) as [-> |Hne]; [lia|].
      rewrite lookup_insert_ne in Hs by done. specialize (Hrange _ _ Hs). lia.
    + intros _. rewrite lookup_insert. by eexists.
    + intros r y. by apply after_insert.
    + intros r y Hr. by apply (after_other _ _ rm).
    + intros id [s Hs]. rewrite lookup_insert_ne; [by eexists|]. intros <-. congruence.
  - apply (Hstep d _ _ H); try done. intros r y. lia.
Qed.

(** * The invariant *)
Definition cinv (lim : nat) (d : db) : Prop := forall x, x ∈ d_events d -> e_isstate x = false ->
  (after (d_snaps d) (e_room x) (e_before x) <= rows_from (d_events d) (e_room x) (e_nid x))%nat /\
  (e_before x <> 0 -> (rows_from (d_events d) (e_room x) (e_nid x) <= lim)%nat -> is_Some (d_snaps d !! e_before x)).

Section Ops.
Context (ord : list Z -> list Z) (redact : raw -> raw -> raw -> raw).
Hypothesis Hord : ord_ok ord.
Hypothesis Hred : redact_ok redact.

Lemma split_at {A} (x : A) l : x ∈ l -> exists pre post, l = pre ++ x :: post.
Proof. intros H. apply elem_of_list_split in H as (a & b & ->). eauto. Qed.

Lemma acc_cinv lim k rm t d r d' : Inv k d -> Forall good_raw (tl_events t) -> cinv lim d ->
  acc_txn redact rm t d = (Ok r, d') -> cinv lim d'.
Proof.
  intros Hi Hg Hc. unfold acc_txn.
  destruct (news_ok rm t (d_events d) Hg) as [Hp Hndi].
  set (inc := dedup rm (tl_prev t) true [] (tl_events t)) in *.
  remember (mark_gap (tl_limited t) inc (filter_new (d_events d) inc)) as news eqn:Enews. clear Enews.
  destruct news as [|first news'] eqn:En; [by intros [= _ <-]|]. rewrite <-En in *.
  destruct ((current_snap d rm =? 0) && negb (is_create first)); [by intros [= _ <-]|].
  destruct (insert d news) as [d1 m] eqn:Eins.
  destruct (insert_base d rm false news d1 m (iv_base _ _ Hi) Hp Hndi Eins)
    as (new & Hnum & Hd1 & Hm & Hsz & Hpn & Hb1).
  pose proof (numbered_gt _ _ _ Hnum) as Hgt. pose proof (numbered_sorted _ _ _ Hnum) as Hns.
  assert (He1 : d_events d1 = d_events d ++ new) by (by rewrite Hd1).
  assert (Hs1 : d_snaps d1 = d_snaps d) by (by rewrite Hd1).
  destruct (Nat.eqb_spec (size m) 0) as [Hz|Hz].
  { assert (new = []) as -> by (destruct new; [done|cbn in Hsz; lia]). rewrite app_nil_r in He1.
    intros [= _ <-]. unfold cinv. by rewrite He1, Hs1. }
  assert (Hpost : post_insert m news = map flag_state new).
  { unfold post_insert. etransitivity; [|apply (omap_rows flag_state m news (d_events d) new (d_seq d)); done].
    apply list_omap_ext. apply Forall2_same_length_lookup_2; [done|]. intros i x y Hx Hy.
    assert (x = y) as -> by congruence. destruct (m !! e_id y); done. }
  rewrite Hpost. clear Hpost. rewrite Forall_forall in Hpn.
  destruct (redact_step redact d1 rm _) as [d2|] eqn:Ered; [|done].
  destruct (redact_step_spec redact Hred _ _ _ _ Ered) as (Hc2 & _ & Hel2 & _ & Hs2 & Hn2 & _).
  destruct (roll rm d2 (current_snap d rm) (map flag_state new)) as [[sid|b] d3] eqn:Eroll; [|done].
  intros [= _ <-].
  assert (Hn1 : d_snapseq d1 = d_snapseq d) by (by rewrite Hd1).
  destruct (room_or_none k d rm Hi) as (Hcur & Hrange & Htop).
  destruct (roll_count rm _ _ _ _ _ Eroll) as (R1 & R2 & R3 & R4 & R5).
  { rewrite Hs2, Hn2, Hs1, Hn1. intros id s Hs. apply (iv_range _ _ Hi id s Hs). }
  { rewrite Hs2, Hs1. exact Htop. }
  { rewrite Hs2, Hs1. intros H0. destruct Hcur as [[? _]|(_ & s & Hs & _)]; [done|by eexists]. }
  { rewrite map_map. change (map (fun x => e_nid (flag_state x)) new) with (map e_nid new). by apply sorted_nodup. }
  rewrite map_length in R1. rewrite Hs2, Hs1 in R1, R2, R3.
  assert (Hcore3 : map core (d_events d3) = map core (d_events d ++ new)).
  { pose proof (roll_strip _ _ _ _ _ _ Eroll) as [Hrs _]. rewrite <-He1, <-Hc2.
    apply (f_equal (map core)) in Hrs. rewrite !map_map in Hrs. exact Hrs. }
  assert (Hrows : forall x n, rows_from (d_events d3) x n = (rows_from (d_events d) x n + rows_from new x n)%nat).
  { intros x n. rewrite (rows_from_core _ _ x n Hcore3). apply rows_from_app. }
  change (cinv lim d3). intros x Hx Hxs.
  destruct (core_in _ _ _ Hcore3 Hx) as (y & Hy & Hcy). apply core_eq in Hcy as (Hyn & _ & Hyr & _ & _ & Hyi & _).
  apply elem_of_app in Hy as [Hy|Hy].
  - (* an old row *)
    assert (Hnot : e_nid x ∉ map e_nid (map flag_state new)).
    { rewrite map_map. intros Hin. apply elem_of_list_fmap in Hin as (z & Hz1 & Hz2). cbn in Hz1.
      specialize (Hgt z Hz2). pose proof (bs_nid _ (iv_base _ _ Hi) y Hy). lia. }
    apply R4 in Hx; [|done]. destruct (Hel2 x Hx) as (z & Hz1 & Hz2 & Hz3 & _).
    assert (z = y) as ->.
    { apply core_eq in Hz2 as (Hz2 & _). apply (sorted_inj (d_events d1)); [apply Hb1|done|rewrite He1; apply elem_of_app; by left|lia]. }
    destruct (Hc y Hy ltac:(congruence)) as [C1 C2]. rewrite Hyr, Hyn in C1, C2. rewrite Hz3, Hrows.
    destruct (decide (e_room x = rm)) as [Hr|Hr].
    + assert (rows_from new (e_room x) (e_nid x) = length new) as ->.
      { apply rows_from_all. intros z Hz'. destruct (Hpn z Hz') as (Hzr & _). split; [congruence|].
        specialize (Hgt z Hz'). pose proof (bs_nid _ (iv_base _ _ Hi) y Hy). lia. }
      split; [specialize (R1 (e_room x) (e_before y)); lia|]. intros H0 Hle. apply R3. apply C2; [done|lia].
    + split; [rewrite (R2 _ _ Hr); lia|]. intros H0 Hle. apply R3. apply C2; [done|lia].
  - (* a new row *)
    destruct (split_at y new Hy) as (pre & post & Hsp).
    destruct (R5 x (map flag_state pre) (flag_state y) (map flag_state post) Hx) as [Ha Hb].
    { rewrite Hsp, map_app. done. } { done. }
    rewrite map_length in Ha.
    destruct (Hpn y Hy) as (Hyrm & _). rewrite Hrows.
    assert (Hin : (S (length post) <= rows_from new (e_room x) (e_nid x))%nat).
    { rewrite Hsp, rows_from_app. assert (rows_from (y :: post) (e_room x) (e_nid x) = length (y :: post)) as ->; [|cbn; lia].
      apply rows_from_all. intros z Hz'. split.
      - destruct (Hpn z) as (Hzr & _); [|congruence]. rewrite Hsp. apply elem_of_app. by right.
      - rewrite Hsp in Hns. unfold sorted, nids in Hns. rewrite map_app in Hns.
        apply elem_of_cons in Hz' as [-> |Hz']; [lia|]. assert (e_nid y < e_nid z); [|lia].
        clear -Hns Hz'. induction pre as [|a pre IH]; cbn in Hns.
        + apply StronglySorted_inv in Hns as [_ Hf]. rewrite Forall_forall in Hf. apply Hf. apply elem_of_list_fmap. by exists z.
        + apply StronglySorted_inv in Hns as [Hns _]. by apply IH. }
    rewrite <-Hyr, Hyrm in *. split; [lia|]. intros H0 _. by apply Hb.
Qed.

Lemma init_cinv lim k rm st d r d' : Inv k d -> Forall good_raw st -> NoDup (map r_id st) -> cinv lim d ->
  init_txn ord rm st d = (Ok r, d') -> cinv lim d'.
Proof.
  intros Hi Hg Hnd Hc. unfold init_txn. set (events := filter_ensure rm st).
  assert (Hp : Forall (proto rm true) events) by (by apply filter_ensure_proto).
  assert (Hndi : NoDup (map e_id events)) by (by apply filter_ensure_ids).
  destruct (Nat.eqb (length events) 0); [done|].
  destruct ((current_snap d rm =? 0) && negb (has_create events)); [done|].
  destruct (insert d events) as [d1 m] eqn:Eins.
  destruct (insert_base d rm true events d1 m (iv_base _ _ Hi) Hp Hndi Eins)
    as (new & Hnum & Hd1 & Hm & Hsz & Hpn & Hb1).
  pose proof (numbered_gt _ _ _ Hnum) as Hgt.
  assert (He1 : d_events d1 = d_events d ++ new) by (by rewrite Hd1).
  assert (Hs1 : d_snaps d1 = d_snaps d) by (by rewrite Hd1).
  assert (Hn1 : d_snapseq d1 = d_snapseq d) by (by rewrite Hd1).
  destruct (Nat.eqb_spec (size m) 0) as [Hz|Hz].
  { assert (new = []) as -> by (destruct new; [done|cbn in Hsz; lia]). rewrite app_nil_r in He1.
    intros [= _ <-]. unfold cinv. by rewrite He1, Hs1. }
  destruct (if _ : bool then state_map_at _ _ else _) as [cur|]; [|done].
  destruct (sm_nids ord _) as [mem oth]. intros [= _ <-].
  intros x Hx Hxs.
  match goal with |- context [d_snaps ?D] => set (D' := D) in * end.
  assert (HeD : d_events D' = d_events d ++ new) by exact He1.
  assert (HsD : d_snaps D' = <[d_snapseq d + 1 := Snap rm mem oth]> (d_snaps d)).
  { rewrite <-Hs1, <-Hn1. reflexivity. }
  rewrite HeD, HsD in *. clearbody D'.
  assert (Hfresh : d_snaps d !! (d_snapseq d + 1) = None).
  { destruct (d_snaps d !! (d_snapseq d + 1)) as [s|] eqn:Es; [|done]. pose proof (iv_range _ _ Hi _ _ Es). lia. }
  rewrite Forall_forall in Hpn.
  apply elem_of_app in Hx as [Hx|Hx]; [|destruct (Hpn x Hx) as (_ & ? & _); congruence].
  destruct (Hc x Hx Hxs) as [C1 C2]. rewrite rows_from_app.
  split.
  - destruct (decide (e_room x = rm)) as [Hr|Hr].
    + pose proof (after_insert (d_snaps d) (e_room x) (e_before x) (d_snapseq d + 1) (Snap rm mem oth) Hfresh).
      assert (rows_from new (e_room x) (e_nid x) = length new) as ->; [|rewrite Hsz in Hz; lia].
      apply rows_from_all. intros z Hz'. destruct (Hpn z Hz') as (Hzr & _). split; [congruence|].
      specialize (Hgt z Hz'). pose proof (bs_nid _ (iv_base _ _ Hi) x Hx). lia.
    + rewrite (after_other _ _ rm) by done. lia.
  - intros H0 Hle. destruct C2 as [s Hs]; [done|lia|]. rewrite lookup_insert_ne; [by eexists|].
    pose proof (iv_range _ _ Hi _ _ Hs). lia.
Qed.

Lemma clean_cinv lim n k d : Inv k d -> (lim <= n)%nat -> cinv lim d -> cinv lim (clean_snaps n d).
Proof.
  intros Hi Hle Hc x Hx Hxs. cbn [d_events clean_snaps set_snaps] in *. destruct (Hc x Hx Hxs) as [C1 C2]. split.
  - pose proof (after_clean n d (e_room x) (e_before x)). lia.
  - intros H0 Hrows. destruct (C2 H0 Hrows) as [s Hs]. exists s. unfold clean_snaps. cbn. apply map_filter_lookup_Some.
    split; [done|]. cbn. apply Nat.leb_le. pose proof (rank_after d (e_before x) s) as Hr.
    assert (Hroom : s_room s = e_room x).
    { pose proof (iv_rows _ _ Hi x Hx) as Hrow. unfold row_ok in Hrow. rewrite Hxs in Hrow.
      destruct Hrow as ([[? _]|(_ & _ & Hh)] & _); [done|]. apply (Hh s Hs). }
    rewrite Hroom in Hr. lia.
Qed.

Lemma run_cinv lim k o d : Inv k d -> good_op o -> (forall n, o = Clean n -> (lim <= n)%nat) ->
  cinv lim d -> cinv lim (run ord redact o d).
Proof.
  intros Hi Hg Hn Hc. destruct o as [rm st|rm t|n|u rm i|u rm]; cbn [run good_op] in *.
  - unfold initialise. destruct st as [|r st]; [done|]. destruct Hg as [Hg Hnd].
    destruct (init_txn _ _ _ _) as [[res|b] d'] eqn:E; [|done]. by eapply (init_cinv lim k rm (r :: st) d).
  - unfold accumulate. destruct (tl_events t) as [|r l] eqn:Et; [done|]. rewrite <-Et in Hg.
    destruct (acc_txn _ _ _ _) as [[res|b] d'] eqn:E; [|done]. by eapply (acc_cinv lim k rm t d).
  - eapply clean_cinv; [done|by apply Hn|done].
  - done.
  - done.
Qed.
Lemma runs_cinv lim ops : forall k d, Inv k d -> Forall good_op ops -> (forall n, Clean n ∈ ops -> (lim <= n)%nat) ->
  cinv lim d -> cinv lim (runs ord redact ops d).
Proof.
  induction ops as [|o ops IH]; intros k d Hi Hg Hn Hc; cbn; [done|].
  apply Forall_cons in Hg as [Hg1 Hg].
  eapply IH; [by apply (run_inv ord redact Hord Hred k)|done| |].
  - intros n Hin. apply Hn. by apply elem_of_list_further.
  - eapply run_cinv; [done|done| |done]. intros n ->. apply Hn, elem_of_list_here.
Qed.
End Ops.
