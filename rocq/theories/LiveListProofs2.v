(** Lemmas about list requests and whole histories. *)
From Verif Require Import Prelude RangeModel RangeSpec RangeProofs OpsModel OpsSpec OpsProofs OpsProofs2
  RoomNameModel ListsModel ListsSpec SortProofs ListsProofs ListsProofs2 LiveListModel LiveListSpec LiveListProofs.
Open Scope string_scope.
Open Scope list_scope.
Open Scope Z_scope.

Lemma client_ranges_app v a b : client_ranges v (a ++ b) = client_ranges (client_ranges v a) b.
Proof. unfold client_ranges. by rewrite foldl_app. Qed.

Lemma covers_cons sr r i : covers (sr :: r) i <-> sr.1 <= i <= sr.2 \/ covers r i.
Proof.
  unfold covers. split.
  - intros (tr & Hin & Hi). apply elem_of_cons in Hin as [->|Hin]; [by left|]. right. eauto.
  - intros [Hi|(tr & Hin & Hi)]; [exists sr|exists tr]; (split; [|done]); [by left|by right].
Qed.

Lemma invalidate_keeps r n v i : ~ covers r i -> client_ranges v (invalidate r n) i = v i.
Proof.
  revert v; induction r as [|sr r IH]; intros v Hn; [done|].
  assert (~ covers r i) by (intros Hc; apply Hn; apply covers_cons; by right).
  assert (~ sr.1 <= i <= sr.2) by (intros Hc; apply Hn; apply covers_cons; by left).
  unfold invalidate. cbn [omap list_omap]. destruct (Z.leb_spec n sr.1); [by apply IH|].
  change (client_ranges v (MInvalidate (clamp sr n).1 (clamp sr n).2 :: invalidate r n) i = v i).
  change (client_ranges (client_range v (MInvalidate (clamp sr n).1 (clamp sr n).2)) (invalidate r n) i = v i).
  rewrite IH by done. cbn [client_range]. unfold clamp.
  destruct (Z.leb_spec sr.2 (n - 1)); cbn [fst snd].
  - destruct (Z.leb_spec sr.1 i); destruct (Z.leb_spec i sr.2); cbn; try done. lia.
  - destruct (Z.leb_spec sr.1 i); destruct (Z.leb_spec i (n - 1)); cbn; try done. lia.
Qed.

(** One synced range. *)
Lemma slice_one sr (l : list string) ids rest i :
  slice_into [sr] l = Some (ids :: rest) ->
  let c := clamp sr (Z.of_nat (length l)) in
  (c.1 <= i <= c.2 <-> sr.1 <= i <= sr.2 /\ i < Z.of_nat (length l)) /\
  (c.1 <= i <= c.2 -> get ids (i - c.1) = get l i).
Proof.
  cbn [slice_into]. destruct (Z.eqb_spec (Z.of_nat (length l)) 0) as [|Hn0]; [done|].
  destruct (Z.leb_spec (Z.of_nat (length l)) sr.1) as [H1|H1]; destruct (Z.leb_spec (Z.of_nat (length l)) sr.2) as [H2|H2];
    cbn [andb]; try done.
  - (* inverted range *)
    intros _. cbn zeta. unfold clamp. destruct (Z.leb_spec sr.2 (Z.of_nat (length l) - 1)); [|lia]. split; lia.
  - (* clipped *)
    destruct (subslice l sr.1 (Z.of_nat (length l) - 1 + 1)) as [s|] eqn:E; [|done].
    intros [= <- <-]. cbn zeta. unfold clamp. destruct (Z.leb_spec sr.2 (Z.of_nat (length l) - 1)); [lia|].
    cbn [fst snd]. split; [lia|]. intros Hi. unfold subslice in E. destruct (_ && _); [|done].
    unfold go_slice in E. destruct (Z.leb_spec 0 sr.1) as [H0|]; [|done]. cbn [andb] in E.
    destruct (_ && _); [|done]. injection E as <-. unfold get.
    destruct (Z.leb_spec 0 (i - sr.1)); [|lia]. destruct (Z.leb_spec 0 i); [|lia].
    rewrite lookup_take by lia. rewrite lookup_drop. f_equal. lia.
  - destruct (subslice l sr.1 (sr.2 + 1)) as [s|] eqn:E; [|done].
    intros [= <- <-]. cbn zeta. unfold clamp. destruct (Z.leb_spec sr.2 (Z.of_nat (length l) - 1)); [|lia].
    cbn [fst snd]. split; [lia|]. intros Hi. unfold subslice in E. destruct (_ && _); [|done].
    unfold go_slice in E. destruct (Z.leb_spec 0 sr.1) as [H0|]; [|done]. cbn [andb] in E.
    destruct (_ && _); [|done]. injection E as <-. unfold get.
    destruct (Z.leb_spec 0 (i - sr.1)); [|lia]. destruct (Z.leb_spec 0 i); [|lia].
    rewrite lookup_take by lia. rewrite lookup_drop. f_equal. lia.
Qed.
Lemma slice_none sr (l : list string) i :
  slice_into [sr] l = Some [] -> ~ (sr.1 <= i <= sr.2 /\ i < Z.of_nat (length l)) \/ i < 0.
Proof.
  cbn [slice_into]. destruct (Z.eqb_spec (Z.of_nat (length l)) 0) as [|Hn0]; [lia|].
  destruct (Z.leb_spec (Z.of_nat (length l)) sr.1) as [H1|H1]; destruct (Z.leb_spec (Z.of_nat (length l)) sr.2) as [H2|H2];
    cbn [andb]; try lia.
  - destruct (subslice _ _ _); done.
  - destruct (subslice _ _ _); done.
Qed.

Lemma sync_ranges_spec added l ms subs v i :
  sync_ranges added l = Some (ms, subs) -> 0 <= i ->
  (covers added i -> i < Z.of_nat (length l) -> client_ranges v ms i = get l i) /\
  (~ (covers added i /\ i < Z.of_nat (length l)) -> client_ranges v ms i = v i).
Proof.
  revert ms subs v; induction added as [|sr added IH]; intros ms subs v H Hi0.
  - cbn in H. injection H as <- <-. split; [|done]. intros (tr & Hin & _). by apply elem_of_nil in Hin.
  - cbn [sync_ranges] in H. destruct (slice_into [sr] l) as [[|ids rest]|] eqn:E; [| |done].
    + destruct (sync_ranges added l) as [[ms1 subs1]|] eqn:E1; [|done]. injection H as <- <-.
      destruct (IH ms1 subs1 v eq_refl Hi0) as [IH1 IH2].
      pose proof (slice_none sr l i E) as Hno. split.
      * intros Hc Hl. apply covers_cons in Hc as [Hc|Hc]; [|by apply IH1]. destruct Hno as [Hno|]; [by destruct Hno|lia].
      * intros Hn. apply IH2. intros [Hc Hl]. apply Hn. split; [|done]. apply covers_cons. by right.
    + destruct (sync_ranges added l) as [[ms1 subs1]|] eqn:E1; [|done]. injection H as <- <-.
      set (c := clamp sr (Z.of_nat (length l))).
      set (v1 := client_range v (MSync c.1 c.2 ids)).
      change (client_ranges v (MSync c.1 c.2 ids :: ms1)) with (client_ranges v1 ms1).
      destruct (IH ms1 subs1 v1 eq_refl Hi0) as [IH1 IH2].
      destruct (slice_one sr l ids rest i E) as [Hs1 Hs2]. fold c in Hs1, Hs2.
      assert (Hv1 : v1 i = if (c.1 <=? i) && (i <=? c.2) then get ids (i - c.1) else v i) by done.
      split.
      * intros Hc Hl. destruct (covers_dec added i) as [Ha|Ha]; [by apply IH1|].
        rewrite IH2 by tauto. apply covers_cons in Hc as [Hc|]; [|done].
        assert (Hcc : c.1 <= i <= c.2) by (by apply Hs1). rewrite Hv1.
        destruct (Z.leb_spec c.1 i); [|lia]. destruct (Z.leb_spec i c.2); [|lia]. by apply Hs2.
      * intros Hn. rewrite IH2.
        -- rewrite Hv1. destruct (Z.leb_spec c.1 i); destruct (Z.leb_spec i c.2); cbn; try done.
           destruct Hn. assert (Hcc : c.1 <= i <= c.2) by done. apply Hs1 in Hcc as [Hcc Hl].
           split; [|done]. apply covers_cons. by left.
        -- intros [Hc Hl]. apply Hn. split; [|done]. apply covers_cons. by right.
Qed.

Lemma covers_nonneg r i : windows_ok r -> covers r i -> 0 <= i.
Proof. intros [Hb _] (sr & Hsr & Hi). specialize (Hb sr Hsr). lia. Qed.

(** ** New lists *)
Lemma base_known lower (s : rlists) rooms f :
  all_known (fun x => l_all s !! x) (base_rooms lower s rooms f).
Proof.
  intros x Hx. unfold base_rooms in Hx. apply elem_of_list_omap in Hx as (y & Hy & He).
  destruct (l_all s !! y) eqn:E; [|done]. destruct (include _ _ _ _); [|done]. injection He as <-. by rewrite E.
Qed.
Lemma assign_fine lower ord s key f sorts b s1 fl created :
  (forall l, ord l ≡ₚ l) -> Forall known_sort sorts -> (b = true \/ l_lists s !! key = None) ->
  assign_list lower ord s key f (Some sorts) b = Some (s1, fl, created) ->
  created = true /\ l_all s1 = l_all s /\ l_lists s1 = <[key := fl]> (l_lists s) /\ list_fine (l_all s) fl.
Proof.
  intros Ho Hs Hb. rewrite assign_new by done. cbn zeta.
  set (rooms := ord (elements (dom (l_all s)))).
  destruct (all_rooms_order ord s Ho) as [Hn Hr]. fold rooms in Hn, Hr.
  destruct (base_rooms_spec lower s rooms f Hn Hr) as [H1 _].
  unfold new_flist. cbn zeta. fold (base_rooms lower s rooms f). cbn [fl_rooms fl_filter].
  destruct (s_sort_full (fun x => l_all s !! x) key sorts (new_srooms (base_rooms lower s rooms f)) Hs) as (sr & E & Hp & _ & Hi & _).
  { apply base_known. }
  { done. }
  { intros x [i Hx]. cbn in Hx. by rewrite lookup_empty in Hx. }
  rewrite E. intros [= <- <- <-]. split_and!; [done|done|done|]. split; [done|].
  intros x Hx. cbn [fl_rooms] in Hx. rewrite Hp in Hx. by apply base_known in Hx.
Qed.

(** ** The request *)
Lemma resorted_ok all key rq fl2 sr ok ms subs v :
  good_request rq -> list_fine all fl2 ->
  s_sort (fun x => all !! x) key (q_sort rq) (fl_rooms fl2) = Some (sr, ok) ->
  sync_ranges (q_windows rq) (s_ids sr) = Some (ms, subs) ->
  forall inv, list_ok all key rq (mk_flist sr (fl_filter fl2)) (client_ranges v (inv ++ ms)).
Proof.
  intros Hg [Hi Hk] Hsort Hsync inv. destruct Hg as (Hv & Hs & Hall).
  destruct (s_sort_full (fun x => all !! x) key (q_sort rq) (fl_rooms fl2) Hs Hk) as (sr' & E & Hp & Hord & Hi' & _).
  { by apply index_ok_NoDup. }
  { intros x Hx. by apply index_ok_elem. }
  rewrite E in Hsort. injection Hsort as <- _.
  split_and!; [by split_and!| |done|].
  - split; [done|]. intros x Hx. cbn [fl_rooms] in Hx. rewrite Hp in Hx. by apply Hk.
  - intros i Hc Hl. cbn [fl_rooms] in *. rewrite client_ranges_app.
    apply valid_spec in Hv. pose proof (covers_nonneg _ _ Hv Hc) as H0.
    destruct (sync_ranges_spec _ _ _ _ (client_ranges v inv) i Hsync H0) as [H1 _]. by apply H1.
Qed.

Lemma list_ok_all all key rq fl v : list_ok all key rq fl v -> list_fine all fl.
Proof. by intros (_ & H & _). Qed.

Lemma request_ok lower ord w key next chg s' ms subs :
  (forall l, ord l ≡ₚ l) -> world_ok w -> good_request next ->
  (w_reqs w !! key = None -> q_sort next <> []) -> no_lone_window (w_reqs w !! key) next chg ->
  list_request lower ord (w_lists w) key (w_reqs w !! key) next chg = Some (s', ms, subs) ->
  l_all s' = l_all (w_lists w) /\
  exists fl, l_lists s' = <[key := fl]> (l_lists (w_lists w)) /\
    list_ok (l_all (w_lists w)) key next fl (client_ranges (w_views w key) ms).
Proof.
  intros Hord [Hdom Hok] Hg Hnew Hlone H. pose proof Hg as (Hv & Hs & Hall).
  unfold list_request in H.
  destruct (assign_list lower ord (w_lists w) key (q_filters next) (Some (q_sort next)) false) as [[[s1 fl] created]|] eqn:EA; [|done].
  rewrite Hall in H. cbn [andb] in H.
  (* the list we start from *)
  assert (Hstart : l_all s1 = l_all (w_lists w) /\ l_lists s1 = <[key := fl]> (l_lists (w_lists w)) /\
     list_fine (l_all (w_lists w)) fl /\
     (forall p, w_reqs w !! key = Some p -> list_ok (l_all (w_lists w)) key p fl (w_views w key))).
  { destruct (w_reqs w !! key) as [p|] eqn:Ep.
    - destruct (proj1 (Hdom key)) as [fl0 Hfl0]; [by exists p|].
      unfold assign_list in EA. rewrite Hfl0 in EA. injection EA as <- <- _.
      pose proof (Hok key p fl0 Ep Hfl0) as Hok0. split_and!; [done| |by destruct Hok0 as (_ & ? & _)|].
      + by rewrite insert_id.
      + intros p' [= <-]. done.
    - assert (Hnone : l_lists (w_lists w) !! key = None).
      { destruct (l_lists (w_lists w) !! key) eqn:El; [|done]. destruct (proj2 (Hdom key)) as [? ?]; [by eexists|]. congruence. }
      destruct (assign_fine lower ord (w_lists w) key (q_filters next) (q_sort next) false s1 fl created Hord Hs (or_intror Hnone) EA)
        as (-> & H1 & H2 & H3). split_and!; [done|done|done|done]. }
  clear EA. destruct Hstart as (Hall1 & Hl1 & Hfine & Hprev).
  set (prev := w_reqs w !! key) in *.
  set (pr := match prev with Some p => q_ranges p | None => None end) in *.
  match type of H with match ?M with _ => _ end = _ => destruct M as [[added removed]|] eqn:ED; [|done] end.
  destruct (sort_changed prev next || chg) eqn:Echg.
  - (* re-sorted *)
    assert (Hassigned : exists s2 fl2 c, (if chg then assign_list lower ord s1 key (q_filters next) (Some (q_sort next)) true
              else Some (s1, fl, false)) = Some (s2, fl2, c) /\ l_all s2 = l_all (w_lists w) /\
              l_lists s2 = <[key := fl2]> (l_lists (w_lists w)) /\ list_fine (l_all (w_lists w)) fl2).
    { destruct chg.
      - destruct (assign_list lower ord s1 key (q_filters next) (Some (q_sort next)) true) as [[[s2 fl2] c]|] eqn:E2; [|done].
        destruct (assign_fine lower ord s1 key (q_filters next) (q_sort next) true s2 fl2 c Hord Hs (or_introl eq_refl) E2)
          as (_ & H1 & H2 & H3). rewrite Hall1 in H1, H3. rewrite Hl1 in H2. rewrite insert_insert in H2.
        exists s2, fl2, c. done.
      - exists s1, fl, false. done. }
    destruct Hassigned as (s2 & fl2 & c & EA & Hall2 & Hl2 & Hfine2). rewrite EA in H.
    rewrite Hall2 in H.
    destruct (s_sort _ key (q_sort next) (fl_rooms fl2)) as [[sr ok]|] eqn:ES; [|done].
    destruct (sync_ranges (q_windows next) (s_ids sr)) as [[ms1 subs1]|] eqn:EY; [|done].
    injection H as <- <- <-. cbn [put_list l_all l_lists]. split; [done|].
    exists (mk_flist sr (fl_filter fl2)). rewrite Hl2, insert_insert. split; [done|].
    by apply (resorted_ok _ _ _ _ _ ok _ subs1).
  - (* same order *)
    apply orb_false_iff in Echg as [Esc ->].
    destruct prev as [p|] eqn:Eprev.
    2:{ exfalso. cbn in Esc. apply negb_false_iff in Esc. destruct (q_sort next) eqn:En; [|done]. by apply Hnew. }
    cbn in Esc. apply negb_false_iff in Esc. apply bool_decide_eq_true in Esc.
    destruct (sync_ranges added (s_ids (fl_rooms fl))) as [[ms1 subs1]|] eqn:EY; [|done].
    injection H as <- <- <-. split; [done|]. exists fl. split; [done|].
    destruct (Hprev p eq_refl) as ((Hvp & Hsp & Hallp) & _ & Hop & Hap).
    split_and!; [done..|by rewrite <- Esc|].
    intros i Hc Hl. rewrite client_ranges_app.
    apply valid_spec in Hv. pose proof (covers_nonneg _ _ Hv Hc) as H0.
    destruct (sync_ranges_spec _ _ _ _ (client_ranges (w_views w key) (invalidate removed (Z.of_nat (length (s_ids (fl_rooms fl)))))) i EY H0) as [Hy1 Hy2].
    cbn [no_lone_window] in Hlone. subst pr. cbn in ED. destruct (q_ranges p) as [pw|] eqn:Epw.
    + assert (Hqp : q_windows p = pw) by (unfold q_windows; by rewrite Epw).
      rewrite Hqp in Hvp, Hap, Hlone. apply valid_spec in Hvp.
      destruct (delta_spec_full pw (q_windows next) Hvp Hv) as (a & rm & sm & Hd & Ha & Hrm & _).
      rewrite Hd in ED. cbn in ED. injection ED as <- <-.
      destruct (covers_dec pw i) as [Hcp|Hcp].
      * rewrite Hy2 by (intros [Hca _]; apply Ha in Hca; tauto).
        rewrite invalidate_keeps by (intros Hcr; apply Hrm in Hcr; tauto). by apply Hap.
      * apply Hy1; [|done]. apply Ha. split; [done|]. intros [Hlo _].
        apply Hcp. by apply Hlone.
    + injection ED as <- <-. by apply Hy1.
Qed.

(** ** Deleting a list *)
Lemma goes_first_forget key k sorts a b :
  key <> k ->
  goes_first key sorts
    (mk_conn_room (c_meta a) (c_dm a) (c_invite a) (c_left a) (c_notif a) (c_highlight a) (c_canon a) (c_spaces a) (c_tags a) (delete k (c_ts a)))
    (mk_conn_room (c_meta b) (c_dm b) (c_invite b) (c_left b) (c_notif b) (c_highlight b) (c_canon b) (c_spaces b) (c_tags b) (delete k (c_ts b)))
  <-> goes_first key sorts a b.
Proof.
  intros Hne. revert a b. induction sorts as [|s sorts IH]; intros a b; cbn [goes_first]; [done|].
  rewrite IH.
  assert (Hb : forall a b, before key s
    (mk_conn_room (c_meta a) (c_dm a) (c_invite a) (c_left a) (c_notif a) (c_highlight a) (c_canon a) (c_spaces a) (c_tags a) (delete k (c_ts a)))
    (mk_conn_room (c_meta b) (c_dm b) (c_invite b) (c_left b) (c_notif b) (c_highlight b) (c_canon b) (c_spaces b) (c_tags b) (delete k (c_ts b)))
    <-> before key s a b).
  { intros a' b'. unfold before, get_ts, level. cbn. rewrite !lookup_delete_ne by done. done. }
  rewrite !Hb. done.
Qed.

Lemma delete_ok w key :
  world_ok w -> world_ok (mk_world (delete_list (w_lists w) key) (delete key (w_reqs w)) (w_views w)).
Proof.
  intros [Hdom Hok]. split; cbn [w_reqs w_lists w_views].
  - intros k. unfold delete_list. cbn [l_lists]. rewrite !lookup_delete_is_Some. by rewrite Hdom.
  - intros k rq fl Hrq Hfl. unfold delete_list in *. cbn [l_lists l_all] in *.
    apply lookup_delete_Some in Hrq as [Hne Hrq]. apply lookup_delete_Some in Hfl as [_ Hfl].
    destruct (Hok k rq fl Hrq Hfl) as (Hg & [Hi Hk] & Ho & Ha).
    split_and!; [done| | |done].
    + split; [done|]. intros x Hx. cbn. rewrite lookup_fmap. destruct (Hk x Hx) as [r Hr]. rewrite Hr. eauto.
    + intros i j x y a b Hij Hx Hy Hax Hby. cbn in Hax, Hby. rewrite lookup_fmap in Hax, Hby.
      destruct (l_all (w_lists w) !! x) as [a0|] eqn:Ea; [|done]. destruct (l_all (w_lists w) !! y) as [b0|] eqn:Eb; [|done].
      cbn in Hax, Hby. injection Hax as <-. injection Hby as <-.
      rewrite (goes_first_forget k key) by done. by apply (Ho i j x y).
Qed.

(** ** Histories *)
Lemma happens_ok lower w w' : happens lower w w' -> world_ok w -> world_ok w'.
Proof.
  intros [ord w0 r s' out Ho Hl|ord w0 key next chg s' ms subs Ho Hg Hn Hlo Hr|w0 key] Hw.
  - by apply (update_ok lower ord w0 r).
  - destruct (request_ok lower ord w0 key next chg s' ms subs Ho Hw Hg Hn Hlo Hr) as (Hall & fl & Hl & Hok).
    destruct Hw as [Hdom Hoks]. split; cbn [w_reqs w_lists w_views].
    + intros k. rewrite Hl. destruct (decide (k = key)) as [->|Hne].
      * rewrite !lookup_insert. split; eauto.
      * rewrite !lookup_insert_ne by done. apply Hdom.
    + intros k rq fl' Hrq Hfl'. rewrite Hl in Hfl'. rewrite Hall. destruct (decide (k = key)) as [->|Hne].
      * rewrite lookup_insert in Hrq. rewrite lookup_insert in Hfl'. injection Hrq as <-. injection Hfl' as <-. by rewrite set_view_eq.
      * rewrite lookup_insert_ne in Hrq by done. rewrite lookup_insert_ne in Hfl' by done. rewrite set_view_ne by done. by apply Hoks.
  - by apply delete_ok.
Qed.
Lemma history_ok lower w w' : history lower w w' -> world_ok w -> world_ok w'.
Proof. induction 1 as [|w1 w2 w3 H _ IH]; [done|]. intros Hw. apply IH. by apply (happens_ok lower w1). Qed.

Lemma new_world_ok : world_ok new_world.
Proof.
  split.
  - intros key. split; intros [? H]; cbn in H; by rewrite lookup_empty in H.
  - intros key rq fl H. cbn in H. by rewrite lookup_empty in H.
Qed.
Lemma world_ok_right w : world_ok w -> client_right w.
Proof.
  intros [Hdom Hok] key rq Hrq. destruct (proj1 (Hdom key)) as [fl Hfl]; [by exists rq|].
  exists fl. split; [done|]. by destruct (Hok key rq fl Hrq Hfl) as (_ & _ & _ & Ha).
Qed.

(** ** Several updates in one response *)
Fixpoint clean (os : list resp_op) : Prop :=
  match os with
  | [] => True
  | ODelete _ :: _ => True
  | ONull :: os' => clean os'
  | OInsert _ _ :: _ => False
  end.
Lemma client_apply_clean r v o1 o2 :
  clean o2 -> client_apply r v (o1 ++ o2) = client_apply r (client_apply r v o1) o2.
Proof.
  revert o1. induction o2 as [|[i| |] o2 IH]; intros o1 Hc.
  - by rewrite client_apply_app.
  - by rewrite client_apply_app.
  - done.
  - change (ONull :: o2) with ([ONull] ++ o2). rewrite app_assoc, IH by done.
    unfold client_apply at 2. rewrite foldl_app. cbn [foldl client_op].
    fold (client_apply r v o1). unfold client_apply at 3. cbn [app foldl client_op]. done.
Qed.
Lemma moves_clean r new room op to was single ms os ss :
  moves_ops r new room op to was single ms = Some (os, ss) -> clean os.
Proof.
  revert os ss. induction ms as [|m ms IH]; intros os ss H; cbn in H; [by injection H as <- _|].
  destruct (move_ops r new room op to was single m) as [[o s]|] eqn:E; [|done].
  destruct (moves_ops r new room op to was single ms) as [[os1 ss1]|] eqn:E1; [|done].
  injection H as <- _. specialize (IH _ _ eq_refl). unfold move_ops in E. destruct (get new m.2) as [x|]; [|done].
  destruct (_ && _ && _ && _ && _); [by injection E as <- _|].
  destruct (_ && _ && _).
  - injection E as <- _. unfold write_delete_op. destruct (m.1 <? 0); [done|]. by destruct (inside r m.1).
  - by injection E as <- _.
Qed.
Lemma calc_clean r sort l room op l1 os ss :
  calculate_list_ops r sort l room op = Some (l1, os, ss) -> clean os.
Proof.
  unfold calculate_list_ops.
  assert (Hw : clean [write_delete_op r 0]).
  { unfold write_delete_op. cbn. by destruct (inside r 0). }
  destruct (index_of l room) as [i|]; destruct op;
    try (by intros [= <- <- <-]);
    (destruct (_ =? -1); [by intros [= <- <- <-]|]);
    (destruct (move_indexes _ _ _) as [ms|]; [|done]);
    (destruct (moves_ops _ _ _ _ _ _ _ _) as [[os1 ss1]|] eqn:E; [|done]);
    intros [= <- <- <-]; by apply moves_clean in E.
Qed.
