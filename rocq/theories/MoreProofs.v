(** Proofs for C98. *)
From Verif Require Import Prelude RangeModel RangeSpec RangeProofs OpsModel OpsSpec RoomNameModel ListsModel LiveListModel LiveListSpec LiveListProofs LiveListProofs2 RequestModel SubModel MoreModel MoreSpec.
Open Scope string_scope.
Open Scope list_scope.
Open Scope Z_scope.

(** ** Combining *)
Lemma combine_ge a b : sub_limit a <= sub_limit (combine a b) /\ sub_limit b <= sub_limit (combine a b).
Proof. cbn. destruct (Z.ltb_spec (sub_limit b) (sub_limit a)); lia. Qed.
Lemma combine_state a b t : t ∈ state_of a \/ t ∈ state_of b -> t ∈ state_of (combine a b).
Proof.
  unfold state_of, combine, combine_flat, app_state. cbn. destruct (sub_state b) as [[|y ys]|]; cbn.
  - intros [H|H]; [done|]. by apply elem_of_nil in H.
  - intros H. apply elem_of_app. done.
  - intros [H|H]; [done|]. by apply elem_of_nil in H.
Qed.
Lemma combine_all_first rest : forall s, sub_limit s <= sub_limit (combine_all s rest) /\ forall t, t ∈ state_of s -> t ∈ state_of (combine_all s rest).
Proof.
  induction rest as [|r rest IH]; intros s; [split; [cbn; lia|done]|].
  change (combine_all s (r :: rest)) with (combine_all (combine s r) rest). destruct (IH (combine s r)) as [H1 H2].
  pose proof (combine_ge s r). split; [lia|]. intros t Ht. apply H2, combine_state. by left.
Qed.
Lemma combine_all_rest rest : forall s r, r ∈ rest -> sub_limit r <= sub_limit (combine_all s rest) /\ forall t, t ∈ state_of r -> t ∈ state_of (combine_all s rest).
Proof.
  induction rest as [|r0 rest IH]; intros s r H; [by apply elem_of_nil in H|].
  change (combine_all s (r0 :: rest)) with (combine_all (combine s r0) rest).
  apply elem_of_cons in H as [->|H]; [|by apply IH].
  destruct (combine_all_first rest (combine s r0)) as [H1 H2]. pose proof (combine_ge s r0).
  split; [lia|]. intros t Ht. apply H2, combine_state. by right.
Qed.

Lemma sent_some (a : adds) p x : p ∈ a -> x ∈ p.2 ->
  exists s, sent a x = Some s /\ sub_limit p.1 <= sub_limit s /\ forall t, t ∈ state_of p.1 -> t ∈ state_of s.
Proof.
  intros Hp Hx. unfold sent.
  assert (Hf : p ∈ List.filter (fun p : room_sub * list string => bool_decide (x ∈ p.2)) a).
  { apply elem_of_list_In, filter_In. split; [by apply elem_of_list_In|]. by apply bool_decide_eq_true_2. }
  destruct (List.filter _ a) as [|q rest]; [by apply elem_of_nil in Hf|]. eexists. split; [done|].
  apply elem_of_cons in Hf as [->|Hf]; [apply combine_all_first|].
  apply combine_all_rest. apply elem_of_list_fmap. by exists p.
Qed.
Lemma sent_none (a : adds) x s : sent a x = Some s -> exists p, p ∈ a /\ x ∈ p.2.
Proof.
  unfold sent. intros H. destruct (List.filter _ a) as [|q rest] eqn:E; [done|]. exists q.
  assert (Hq : In q (List.filter (fun p : room_sub * list string => bool_decide (x ∈ p.2)) a)) by (rewrite E; by left).
  apply filter_In in Hq as [H1 H2]. split; [by apply elem_of_list_In|]. by apply bool_decide_eq_true_1 in H2.
Qed.

(** ** Slices *)
Lemma get_lookup (l : list string) i x : get l i = Some x <-> 0 <= i /\ l !! Z.to_nat i = Some x.
Proof. unfold get. destruct (Z.leb_spec 0 i); split; [done|by intros [_ H1]|done|intros [H1 _]; lia]. Qed.

Lemma sync_subs added l : forall ms subs i x, sync_ranges added l = Some (ms, subs) ->
  covers added i -> 0 <= i -> l !! Z.to_nat i = Some x -> x ∈ subs.
Proof.
  induction added as [|sr added IH]; intros ms subs i x H Hc H0 Hx.
  { destruct Hc as (tr & Hin & _). by apply elem_of_nil in Hin. }
  assert (Hl : i < Z.of_nat (length l)) by (apply lookup_lt_Some in Hx; lia).
  cbn [sync_ranges] in H. destruct (slice_into [sr] l) as [[|ids rest]|] eqn:E; [| |done];
    destruct (sync_ranges added l) as [[ms1 subs1]|] eqn:E1; try done; injection H as <- <-.
  - apply covers_cons in Hc as [Hc|Hc]; [|by eapply IH].
    destruct (slice_none sr l i E) as [Hno|]; [by destruct Hno|lia].
  - apply elem_of_app. apply covers_cons in Hc as [Hc|Hc]; [left|right; by eapply IH].
    destruct (slice_one sr l ids rest i E) as [Hs1 Hs2].
    assert (Hcc : (clamp sr (Z.of_nat (length l))).1 <= i <= (clamp sr (Z.of_nat (length l))).2) by (by apply Hs1).
    specialize (Hs2 Hcc). assert (Hg : get l i = Some x) by (by apply get_lookup).
    rewrite Hg in Hs2. apply get_lookup in Hs2 as [_ Hs2]. by eapply elem_of_list_lookup_2.
Qed.

Lemma subslice_in (l : list string) a b s x : subslice l a b = Some s -> x ∈ s -> exists i, a <= i < b /\ 0 <= i /\ l !! Z.to_nat i = Some x.
Proof.
  unfold subslice, go_slice. destruct (_ && _ && _); [|done]. destruct ((0 <=? a) && (a <=? b) && _) eqn:E; [|done].
  apply andb_true_iff in E as [E _]. apply andb_true_iff in E as [E1 E2]. apply Z.leb_le in E1, E2.
  intros [= <-] Hx. apply elem_of_list_lookup in Hx as [j Hj].
  assert (Hj2 : (j < Z.to_nat (b - a))%nat).
  { destruct (decide (j < Z.to_nat (b - a))%nat) as [H|H]; [done|]. rewrite lookup_take_ge in Hj by lia. done. }
  rewrite lookup_take in Hj by lia. rewrite lookup_drop in Hj. exists (a + Z.of_nat j).
  split; [lia|]. split; [lia|]. rewrite <-Hj. f_equal. lia.
Qed.

Lemma slice_elem r (l : list string) : forall ss x, slice_into r l = Some ss -> x ∈ concat ss -> x ∈ l.
Proof.
  induction r as [|sr r IH]; intros ss x H Hx; cbn [slice_into] in H.
  { injection H as <-. by apply elem_of_nil in Hx. }
  destruct (Z.eqb_spec (Z.of_nat (length l)) 0); [by eapply IH|]. destruct (_ && _); [by eapply IH|].
  destruct (subslice l _ _) as [s|] eqn:E; [|done]. destruct (slice_into r l) as [ss1|] eqn:E1; [|done]. injection H as <-.
  cbn [concat] in Hx. apply elem_of_app in Hx as [Hx|Hx]; [|by eapply IH].
  destruct (subslice_in _ _ _ _ _ E Hx) as (i & _ & _ & Hl). by eapply elem_of_list_lookup_2.
Qed.

Lemma sync_elem added l : forall ms subs x, sync_ranges added l = Some (ms, subs) -> x ∈ subs -> x ∈ l.
Proof.
  induction added as [|sr added IH]; intros ms subs x H Hx; cbn [sync_ranges] in H.
  { injection H as <- <-. by apply elem_of_nil in Hx. }
  destruct (slice_into [sr] l) as [[|ids rest]|] eqn:E; [| |done];
    destruct (sync_ranges added l) as [[ms1 subs1]|] eqn:E1; try done; injection H as <- <-; [by eapply IH|].
  apply elem_of_app in Hx as [Hx|Hx]; [|by eapply IH]. eapply slice_elem; [exact E|]. cbn [concat]. apply elem_of_app. by left.
Qed.

Lemma slice_in r (l : list string) : valid r = true -> forall ss x, slice_into r l = Some ss -> (x ∈ concat ss <-> in_windows r l x).
Proof.
  intros Hv ss x Hs. apply valid_spec in Hv. rewrite (slices_cover_once r l ss Hv Hs).
  unfold in_windows. rewrite elem_of_list_omap. unfold covered_positions. split.
  - intros (i & Hi & Hl). apply elem_of_list_In, filter_In in Hi as [Hi Hb]. exists i.
    apply existsb_exists in Hb as (sr & Hsr & Hb). apply andb_true_iff in Hb as [H1 H2]. apply Z.leb_le in H1, H2.
    split; [exists sr; split; [by apply elem_of_list_In|done]|]. split; [|done].
    apply in_map_iff in Hi as (n & <- & _). lia.
  - intros (i & (sr & Hsr & Hi) & H0 & Hl). exists i. split; [|done]. apply elem_of_list_In, filter_In. split.
    + apply in_map_iff. exists (Z.to_nat i). split; [lia|]. apply in_seq. apply lookup_lt_Some in Hl. lia.
    + apply existsb_exists. exists sr. split; [by apply elem_of_list_In|]. apply andb_true_iff. by rewrite !Z.leb_le.
Qed.

(** ** One list *)
Lemma assign_key lower ord s key f so b s1 fl created : assign_list lower ord s key f so b = Some (s1, fl, created) ->
  l_lists s1 !! key = Some fl /\ (forall k, k <> key -> l_lists s1 !! k = l_lists s !! k) /\
  (b = false -> created = bool_decide (l_lists s !! key = None)).
Proof.
  unfold assign_list. intros H.
  assert (Hnew : forall fl0, Some (mk_rlists (l_all s) (<[key := fl0]> (l_lists s)), fl0, true) = Some (s1, fl, created) ->
    l_lists s1 !! key = Some fl /\ (forall k, k <> key -> l_lists s1 !! k = l_lists s !! k) /\ created = true).
  { intros fl0 [= <- <- <-]. cbn. split; [by rewrite lookup_insert|]. split; [|done]. intros k Hk. by rewrite lookup_insert_ne. }
  destruct (l_lists s !! key) as [fl0|] eqn:E; destruct b.
  - destruct so as [so|]; [destruct (s_sort _ _ _ _) as [[sr ok]|]; [|done]|]; apply Hnew in H as (H1 & H2 & H3); split_and!; done.
  - injection H as <- <- <-. split; [done|]. split; [done|]. done.
  - destruct so as [so|]; [destruct (s_sort _ _ _ _) as [[sr ok]|]; [|done]|]; apply Hnew in H as (H1 & H2 & H3); split_and!; done.
  - destruct so as [so|]; [destruct (s_sort _ _ _ _) as [[sr ok]|]; [|done]|]; apply Hnew in H as (H1 & H2 & H3); split_and!; done.
Qed.

Lemma rooms_lookup s key fl : l_lists s !! key = Some fl -> rooms_of s key = s_ids (fl_rooms fl).
Proof. unfold rooms_of. by intros ->. Qed.

Lemma list_request_shape lower ord s key prev next chg s' ms ids :
  list_request lower ord s key prev next chg = Some (s', ms, ids) ->
  (forall k, k <> key -> l_lists s' !! k = l_lists s !! k) /\
  if q_all next && (bool_decide (l_lists s !! key = None) || chg) then ids = rooms_of s' key
  else if sort_changed prev next || chg then exists ms', sync_ranges (q_windows next) (rooms_of s' key) = Some (ms', ids)
  else exists ms' added, sync_ranges added (rooms_of s' key) = Some (ms', ids) /\
    match prev with
    | Some p => match q_ranges p with
                | Some pr => exists rm sm, delta pr (q_windows next) = Some (added, rm, sm)
                | None => added = q_windows next end
    | None => added = q_windows next end.
Proof.
  unfold list_request. destruct (assign_list lower ord s key (q_filters next) (Some (q_sort next)) false) as [[[s1 fl] created]|] eqn:E; [|done].
  destruct (assign_key _ _ _ _ _ _ _ _ _ _ E) as (Hk & Hf & Hcr). specialize (Hcr eq_refl). rewrite <-Hcr.
  destruct (q_all next && (created || chg)).
  { intros [= <- <- <-]. split; [done|]. symmetry. by apply rooms_lookup. }
  destruct (match match prev with Some p => q_ranges p | None => None end with Some pr => _ | None => _ end) as [[added removed]|] eqn:Ed; [|done].
  destruct (sort_changed prev next || chg) eqn:Es.
  - destruct (if chg then _ else _) as [[[s2 fl2] c2]|] eqn:E2; [|done].
    destruct (s_sort _ _ _ _) as [[sr ok]|]; [|done]. destruct (sync_ranges (q_windows next) (s_ids sr)) as [[ms1 ids1]|] eqn:Ey; [|done].
    intros [= <- <- <-]. cbn. assert (H2 : forall k, k <> key -> l_lists s2 !! k = l_lists s !! k).
    { destruct chg.
      - destruct (assign_key _ _ _ _ _ _ _ _ _ _ E2) as (_ & Hf2 & _). intros k Hne. by rewrite Hf2, Hf.
      - injection E2 as <- <- <-. done. }
    split; [intros k Hne; rewrite lookup_insert_ne by done; by apply H2|].
    exists ms1. by rewrite (rooms_lookup _ _ (mk_flist sr (fl_filter fl2))) by (cbn; by rewrite lookup_insert).
  - destruct (sync_ranges added (s_ids (fl_rooms fl))) as [[ms1 ids1]|] eqn:Ey; [|done]. intros [= <- <- <-].
    split; [done|]. exists ms1, added. rewrite (rooms_lookup _ _ _ Hk). split; [done|].
    destruct prev as [p|]; [|by injection Ed as <- <-]. destruct (q_ranges p) as [pr|]; [|by injection Ed as <- <-].
    destruct (delta pr (q_windows next)) as [[[a0 r0] s0]|]; [|done]. injection Ed as <- <-. by exists r0, s0.
Qed.

(** What a list adds: everything about rooms it is new to; what changed about the others. *)
Lemma list_adds_shape lower joined ord s key prev next chg s' a : valid (windows next) = true ->
  list_adds lower joined ord s key prev next chg = Some (s', a) ->
  (forall k, k <> key -> l_lists s' !! k = l_lists s !! k) /\
  exists ids extra, a = (list_sub next, ids) :: extra /\
  (forall x, x ∈ ids -> x ∈ rooms_of s' key) /\
  (forall x, in_windows (windows next) (rooms_of s' key) x ->
     match prev with
     | None => x ∈ ids
     | Some p =>
         (default [] (rl_sort p) <> default [] (rl_sort next) \/ chg = true -> x ∈ ids) /\
         (default [] (rl_sort p) = default [] (rl_sort next) -> chg = false -> joined x = true ->
            (rl_limit p <> rl_limit next -> x ∈ ids \/ exists q, q ∈ extra /\ x ∈ q.2 /\ sub_limit q.1 = rl_limit next) /\
            (default [] (rl_state p) <> default [] (rl_state next) -> x ∈ ids \/ exists q, q ∈ extra /\ x ∈ q.2 /\ state_of q.1 = default [] (rl_state next)))
     end) /\
  (forall q x, q ∈ extra -> x ∈ q.2 -> exists p, prev = Some p /\ joined x = true /\ in_windows (windows next) (rooms_of s' key) x /\
     (rl_limit p <> rl_limit next \/ default [] (rl_state p) <> default [] (rl_state next))) /\
  (forall p, prev = Some p -> default [] (rl_sort p) = default [] (rl_sort next) -> chg = false -> windows p = windows next ->
     default false (rl_all next) = false \/ l_lists s !! key <> None -> ids = []) /\
  (forall p, prev = Some p -> rl_ranges p <> None -> default [] (rl_sort p) = default [] (rl_sort next) -> chg = false -> valid (windows p) = true ->
     forall i x, covers (windows next) i -> ~ covers (windows p) i -> ~ lone (windows next) (windows p) i -> rooms_of s' key !! Z.to_nat i = Some x -> x ∈ ids).
Proof.
  intros Hv. unfold list_adds.
  destruct (list_request lower ord s key (list_windows <$> prev) (list_windows next) chg) as [[[s1 ms] ids]|] eqn:E; [|done].
  destruct (list_request_shape _ _ _ _ _ _ _ _ _ _ E) as [Hf Hshape].
  destruct (q_all (list_windows next) && (bool_decide (l_lists s !! key = None) || chg)) eqn:Eall.
  { intros [= <- <-]. split; [done|]. exists ids, []. split; [done|]. subst ids.
    assert (Hin : forall x, in_windows (windows next) (rooms_of s1 key) x -> x ∈ rooms_of s1 key) by (intros x (i & _ & _ & Hl); by eapply elem_of_list_lookup_2).
    split; [done|]. split; [|split; [|split]].
    - intros x Hx. apply Hin in Hx. destruct prev; [|done]. split; [done|]. intros _ _ _. split; intros _; by left.
    - intros q x Hq. by apply elem_of_nil in Hq.
    - intros p -> Hs -> Hw Hg. cbn in Eall. apply andb_true_iff in Eall as [E1 E2]. rewrite orb_false_r in E2. apply bool_decide_eq_true_1 in E2.
      destruct Hg as [Hg|Hg]; [cbn in E1; congruence|done].
    - intros p _ _ _ _ _ i x _ _ _ Hl. by eapply elem_of_list_lookup_2. }
  assert (Hsc : forall p, sort_changed (Some (list_windows p)) (list_windows next) = negb (bool_decide (default [] (rl_sort p) = default [] (rl_sort next)))) by done.
  assert (Hids : forall x, x ∈ ids -> x ∈ rooms_of s1 key).
  { intros x Hx. destruct (sort_changed _ _ || chg); [destruct Hshape as (ms' & Hy)|destruct Hshape as (ms' & added & Hy & _)]; by eapply sync_elem. }
  assert (Hnewly : forall i x, covers (windows next) i -> 0 <= i -> rooms_of s1 key !! Z.to_nat i = Some x ->
     match prev with None => x ∈ ids | Some p => default [] (rl_sort p) <> default [] (rl_sort next) \/ chg = true -> x ∈ ids end).
  { intros i x Hc H0 Hl. destruct prev as [p|].
    - intros Hor. change (list_windows <$> Some p) with (Some (list_windows p)) in Hshape. rewrite Hsc in Hshape.
      assert (Hb : negb (bool_decide (default [] (rl_sort p) = default [] (rl_sort next))) || chg = true).
      { apply orb_true_iff. destruct Hor as [Hor| ->]; [left|by right]. by rewrite bool_decide_eq_false_2. }
      rewrite Hb in Hshape. destruct Hshape as (ms' & Hy). by eapply sync_subs.
    - cbn [fmap option_fmap option_map] in Hshape. destruct (sort_changed None _ || chg); [destruct Hshape as (ms' & Hy)|destruct Hshape as (ms' & added & Hy & ->)]; by eapply sync_subs. }
  assert (Hsame : forall p, prev = Some p -> default [] (rl_sort p) = default [] (rl_sort next) -> chg = false -> windows p = windows next -> ids = []).
  { intros p -> Hs -> Hw. change (list_windows <$> Some p) with (Some (list_windows p)) in Hshape. rewrite Hsc in Hshape.
    rewrite bool_decide_eq_true_2 in Hshape by done. cbn [negb orb] in Hshape. destruct Hshape as (ms' & added & Hy & Hd).
    cbn [q_ranges list_windows] in Hd. assert (added = []) as ->.
    { change (q_windows (list_windows next)) with (windows next) in Hd. unfold windows in Hw at 1. destruct (rl_ranges p) as [pr|].
      - cbn in Hw. subst pr. destruct Hd as (rm & sm & Hd). unfold delta in Hd. rewrite bool_decide_eq_true_2 in Hd by done. by injection Hd as <- _ _.
      - cbn in Hw. by rewrite Hd, <-Hw. }
    cbn in Hy. by injection Hy as _ <-. }
  assert (Hadd : forall p, prev = Some p -> rl_ranges p <> None -> default [] (rl_sort p) = default [] (rl_sort next) -> chg = false -> valid (windows p) = true ->
     forall i x, covers (windows next) i -> ~ covers (windows p) i -> ~ lone (windows next) (windows p) i -> rooms_of s1 key !! Z.to_nat i = Some x -> x ∈ ids).
  { intros p -> Hr Hs -> Hvp i x Hc Hn Hl Hx. change (list_windows <$> Some p) with (Some (list_windows p)) in Hshape. rewrite Hsc in Hshape.
    rewrite bool_decide_eq_true_2 in Hshape by done. cbn [negb orb] in Hshape. destruct Hshape as (ms' & added & Hy & Hd).
    cbn [q_ranges list_windows] in Hd. change (q_windows (list_windows next)) with (windows next) in Hd.
    unfold windows in Hvp, Hn, Hl at 2. destruct (rl_ranges p) as [pr|]; [|done]. cbn in Hvp, Hn, Hl.
    destruct Hd as (rm & sm & Hd). pose proof (proj1 (valid_spec _) Hvp) as Ok1. pose proof (proj1 (valid_spec _) Hv) as Ok2.
    destruct (delta_spec_full pr (windows next) Ok1 Ok2) as (a0 & r0 & m0 & Hd' & Ha & _). rewrite Hd in Hd'. injection Hd' as <- <- <-.
    eapply sync_subs; [exact Hy| |by eapply covers_nonneg|exact Hx]. apply Ha. done. }
  destruct (new_sub prev next chg) as [rs|] eqn:En.
  - change (match l_lists s1 !! key with Some fl => s_ids (fl_rooms fl) | None => [] end) with (rooms_of s1 key).
    destruct (slice_into (q_windows (list_windows next)) (rooms_of s1 key)) as [ss|] eqn:Ess; [|done]. intros [= <- <-].
    change (q_windows (list_windows next)) with (windows next) in Ess.
    split; [done|]. exists ids, [(rs, List.filter joined (concat ss))]. split; [done|]. split; [done|].
    unfold new_sub in En. destruct prev as [p|]; [|done]. rewrite Hsc in En.
    destruct (negb (negb _) && negb chg && _) eqn:Econd; [|done]. injection En as <-.
    apply andb_true_iff in Econd as [Econd Ech]. apply andb_true_iff in Econd as [Esort Echg].
    rewrite negb_involutive in Esort. apply bool_decide_eq_true_1 in Esort. apply negb_true_iff in Echg. subst chg.
    assert (Hlim : limit_changed p next = true <-> rl_limit p <> rl_limit next) by (unfold limit_changed; rewrite negb_true_iff, Z.eqb_neq; done).
    assert (Hst : state_changed (list_sub p) (list_sub next) = true <-> default [] (rl_state p) <> default [] (rl_state next)).
    { unfold state_changed, state_of, list_sub. cbn. rewrite negb_true_iff, bool_decide_eq_false. done. }
    split; [|split; [|split]].
    + intros x Hw. split; [intros [H|H]; done|]. intros _ _ Hj.
      assert (Hx : x ∈ List.filter joined (concat ss)).
      { apply elem_of_list_In, filter_In. split; [|done]. apply elem_of_list_In. by apply (slice_in _ _ Hv _ _ Ess). }
      split; intros Hc; right; (eexists; split; [by left|]; split; [exact Hx|]); cbn.
      * by rewrite (proj2 Hlim Hc).
      * unfold state_of. cbn. by rewrite (proj2 Hst Hc).
    + intros q x Hq Hx. apply elem_of_list_singleton in Hq as ->. cbn in Hx. apply elem_of_list_In, filter_In in Hx as [Hx Hj].
      apply elem_of_list_In, (slice_in _ _ Hv _ _ Ess) in Hx. exists p. split; [done|]. split; [done|]. split; [done|].
      apply orb_true_iff in Ech as [Ech|Ech]; [left; by apply Hlim|right; by apply Hst].
    + intros p' H1 H2 H3 H4 _. by apply (Hsame p').
    + exact Hadd.
  - intros [= <- <-]. split; [done|]. exists ids, []. split; [done|]. split; [done|]. split; [|split; [|split]].
    + intros x (i & Hc & H0 & Hl). specialize (Hnewly i x Hc H0 Hl). destruct prev as [p|]; [|done]. split; [done|].
      intros Hs -> Hj. unfold new_sub in En. rewrite Hsc in En. rewrite bool_decide_eq_true_2 in En by done. cbn [negb andb] in En.
      destruct (limit_changed p next) eqn:E1; [done|]. destruct (state_changed (list_sub p) (list_sub next)) eqn:E2; [done|].
      split; intros Hne; exfalso; apply Hne.
      * unfold limit_changed in E1. by apply negb_false_iff, Z.eqb_eq in E1.
      * unfold state_changed in E2. apply negb_false_iff in E2. by apply bool_decide_eq_true_1 in E2.
    + intros q x Hq. by apply elem_of_nil in Hq.
    + intros p' H1 H2 H3 H4 _. by apply (Hsame p').
    + exact Hadd.
Qed.

(** ** All lists *)
Lemma list_adds_frame lower joined ord s key prev next chg s' a k :
  list_adds lower joined ord s key prev next chg = Some (s', a) -> k <> key -> l_lists s' !! k = l_lists s !! k.
Proof.
  unfold list_adds. destruct (list_request _ _ _ _ _ _ _) as [[[s1 ms] ids]|] eqn:E; [|done].
  destruct (list_request_shape _ _ _ _ _ _ _ _ _ _ E) as [Hf _].
  intros H Hk. assert (s1 = s') as <-; [|by apply Hf].
  destruct (_ && _); [by injection H|]. destruct (new_sub _ _ _); [|by injection H]. destruct (slice_into _ _); [by injection H|done].
Qed.

Lemma delete_other s key k : k <> key -> l_lists (delete_list s key) !! k = l_lists s !! k.
Proof. intros Hk. cbn. by rewrite lookup_delete_ne. Qed.

Lemma lists_add_frame lower joined ord chg cs : forall s s' a k,
  lists_add lower joined ord chg s cs = Some (s', a) -> k ∉ map fst cs -> l_lists s' !! k = l_lists s !! k.
Proof.
  induction cs as [|[key [prev [next|]]] cs IH]; intros s s' a k H Hk; cbn [lists_add] in H.
  - by injection H as <- _.
  - cbn in Hk. apply not_elem_of_cons in Hk as [Hk1 Hk2].
    destruct (list_adds _ _ _ _ _ _ _ _) as [[s1 a1]|] eqn:E; [|done]. destruct (lists_add lower joined ord chg s1 cs) as [[s2 a2]|] eqn:E2; [|done].
    injection H as <- <-. rewrite (IH _ _ _ _ E2 Hk2). by eapply list_adds_frame.
  - cbn in Hk. apply not_elem_of_cons in Hk as [Hk1 Hk2]. rewrite (IH _ _ _ _ H Hk2). by apply delete_other.
Qed.

Lemma lists_add_in lower joined ord chg cs : forall s s' a key prev next, NoDup (map fst cs) ->
  lists_add lower joined ord chg s cs = Some (s', a) -> (key, (prev, Some next)) ∈ cs ->
  exists s0 s1 a0, list_adds lower joined (ord key) s0 key prev next (chg prev next) = Some (s1, a0) /\
    rooms_of s' key = rooms_of s1 key /\ l_lists s0 !! key = l_lists s !! key /\ forall p, p ∈ a0 -> p ∈ a.
Proof.
  induction cs as [|[k c] cs IH]; intros s s' a key prev next Hn H Hin; [by apply elem_of_nil in Hin|].
  cbn in Hn. apply NoDup_cons in Hn as [Hk Hn]. apply elem_of_cons in Hin as [Heq|Hin].
  - injection Heq as <- <-. cbn [lists_add] in H.
    destruct (list_adds _ _ _ _ _ _ _ _) as [[s1 a1]|] eqn:E; [|done]. destruct (lists_add lower joined ord chg s1 cs) as [[s2 a2]|] eqn:E2; [|done].
    injection H as <- <-. exists s, s1, a1. split; [done|]. split; [|split; [done|]].
    + unfold rooms_of. by rewrite (lists_add_frame _ _ _ _ _ _ _ _ _ E2 Hk).
    + intros p Hp. apply elem_of_app. by left.
  - assert (Hne : key <> k) by (intros ->; apply Hk, elem_of_list_fmap; by exists (k, (prev, Some next))).
    destruct c as [pv [nx|]]; cbn [lists_add] in H.
    + destruct (list_adds _ _ _ _ _ _ _ _) as [[s1 a1]|] eqn:E; [|done]. destruct (lists_add lower joined ord chg s1 cs) as [[s2 a2]|] eqn:E2; [|done].
      injection H as <- <-. destruct (IH _ _ _ _ _ _ Hn E2 Hin) as (s3 & s4 & a0 & H1 & H2 & H3 & H4).
      exists s3, s4, a0. split; [done|]. split; [done|]. split; [rewrite H3; by eapply list_adds_frame|].
      intros p Hp. apply elem_of_app. right. by apply H4.
    + destruct (IH _ _ _ _ _ _ Hn H Hin) as (s3 & s4 & a0 & H1 & H2 & H3 & H4).
      exists s3, s4, a0. split; [done|]. split; [done|]. split; [rewrite H3; by apply delete_other|done].
Qed.

Lemma lists_add_from lower joined ord chg cs : forall s s' a p, NoDup (map fst cs) ->
  lists_add lower joined ord chg s cs = Some (s', a) -> p ∈ a ->
  exists key prev next s0 s1 a0, (key, (prev, Some next)) ∈ cs /\
    list_adds lower joined (ord key) s0 key prev next (chg prev next) = Some (s1, a0) /\
    rooms_of s' key = rooms_of s1 key /\ l_lists s0 !! key = l_lists s !! key /\ p ∈ a0.
Proof.
  induction cs as [|[k c] cs IH]; intros s s' a p Hn H Hp.
  { cbn in H. injection H as _ <-. by apply elem_of_nil in Hp. }
  cbn in Hn. apply NoDup_cons in Hn as [Hk Hn].
  assert (Hne : forall key prev next, (key, (prev, Some next)) ∈ cs -> key <> k).
  { intros key prev next Hin ->. apply Hk, elem_of_list_fmap. by exists (k, (prev, Some next)). }
  destruct c as [pv [nx|]]; cbn [lists_add] in H.
  - destruct (list_adds _ _ _ _ _ _ _ _) as [[s1 a1]|] eqn:E; [|done]. destruct (lists_add lower joined ord chg s1 cs) as [[s2 a2]|] eqn:E2; [|done].
    injection H as <- <-. apply elem_of_app in Hp as [Hp|Hp].
    + exists k, pv, nx, s, s1, a1. split; [by left|]. split; [done|]. split; [|done].
      unfold rooms_of. by rewrite (lists_add_frame _ _ _ _ _ _ _ _ _ E2 Hk).
    + destruct (IH _ _ _ _ Hn E2 Hp) as (key & prev & next & s3 & s4 & a0 & H1 & H2 & H3 & H4 & H5).
      exists key, prev, next, s3, s4, a0. split; [by right|]. split; [done|]. split; [done|]. split; [|done].
      rewrite H4. eapply list_adds_frame; [exact E|]. by eapply Hne.
  - destruct (IH _ _ _ _ Hn H Hp) as (key & prev & next & s3 & s4 & a0 & H1 & H2 & H3 & H4 & H5).
    exists key, prev, next, s3, s4, a0. split; [by right|]. split; [done|]. split; [done|]. split; [|done].
    rewrite H4. apply delete_other. by eapply Hne.
Qed.

(** ** The request *)
Lemma ask_lists lower joined sord lord ord chg m s next m' s' a :
  (forall l, lord l ≡ₚ l) -> ask_for lower joined sord lord ord chg m s next = Some (m', s', a) ->
  exists cs a1 a2, a = a1 ++ a2 /\ lists_add lower joined ord chg s cs = Some (s', a2) /\ NoDup (map fst cs) /\
    (forall key p n, (key, (p, Some n)) ∈ cs <-> asked m key = p /\ rq_lists m' !! key = Some n) /\
    exists d, apply_delta sord m next = (m', d) /\ a1 = subs_add joined (rq_subs m') (dl_subs d).
Proof.
  intros Hl. unfold ask_for. destruct (apply_delta sord m next) as [m1 d] eqn:E.
  destruct (lists_add lower joined ord chg s (lord (map_to_list (dl_lists d)))) as [[s1 a2]|] eqn:E2; [|done].
  intros [= <- <- <-]. exists (lord (map_to_list (dl_lists d))), (subs_add joined (rq_subs m1) (dl_subs d)), a2.
  split; [done|]. split; [done|]. split; [rewrite (Permutation_map fst (Hl _)); apply NoDup_fst_map_to_list|]. split; [|by exists d].
  intros key p n. rewrite (Hl _), elem_of_map_to_list. unfold apply_delta in E.
  destruct (unsub ∅ _ _) as [subs0 out0]. destruct (unsub _ _ _) as [subs1 out1]. injection E as <- <-. cbn.
  assert (Hask : asked m key = rq_lists (default empty_req m) !! key) by (destruct m; [done|cbn; by rewrite lookup_empty]).
  rewrite Hask, lookup_merge. set (mm := merge list_result _ _). destruct (rq_lists (default empty_req m) !! key) as [p0|]; destruct (mm !! key) as [n0|]; cbn; naive_solver.
Qed.
