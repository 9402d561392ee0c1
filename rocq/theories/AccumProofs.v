(** Lemmas about the event store: rows, keys and snapshots. *)
From Verif Require Import Prelude AccumModel AccumSpec.
Open Scope string_scope.
Open Scope list_scope.
Open Scope Z_scope.

(** * Rows as far as state goes *)
Definition srow (e : event) : bool := e_isstate e || has_key (e_json e).
Lemma srow_spec e : srow e = true <-> state_row e.
Proof.
  unfold srow, state_row, has_key. destruct (e_isstate e), (r_skey (e_json e)); cbn; intuition congruence.
Qed.
Definition core (e : event) : Z * string * string * string * string * bool * bool :=
  (e_nid e, e_id e, e_room e, e_type e, e_skey e, e_isstate e, has_key (e_json e)).

Lemma core_eq a b : core a = core b ->
  e_nid a = e_nid b /\ e_id a = e_id b /\ e_room a = e_room b /\ e_type a = e_type b /\
  e_skey a = e_skey b /\ e_isstate a = e_isstate b /\ has_key (e_json a) = has_key (e_json b).
Proof. unfold core. intros H. inversion H. auto 10. Qed.
Lemma core_srow a b : core a = core b -> (state_row a <-> state_row b).
Proof.
  intros H. apply core_eq in H as (?&?&?&?&?&Hi&Hk).
  rewrite <-!srow_spec. unfold srow. rewrite Hi, Hk. done.
Qed.
Lemma core_ekey a b : core a = core b -> ekey a = ekey b.
Proof. intros H. apply core_eq in H as (?&?&?&?&?&_). unfold ekey. congruence. Qed.

Lemma core_in (l l' : list event) e : map core l = map core l' -> e ∈ l -> exists e', e' ∈ l' /\ core e' = core e.
Proof.
  intros H He. assert (core e ∈ map core l') as Hc.
  { rewrite <-H. apply elem_of_list_fmap. eauto. }
  apply elem_of_list_fmap in Hc as (e' & Heq & Hin). eauto.
Qed.

Lemma newest_core l l' rm p e : map core l = map core l' -> newest l rm p e ->
  exists e', newest l' rm p e' /\ core e' = core e.
Proof.
  intros H (Hin & Hr & Hs & Hp & Hmax).
  destruct (core_in _ _ _ H Hin) as (e' & Hin' & Hc).
  exists e'. split; [|done].
  pose proof (core_eq _ _ Hc) as (Hn & _ & Hrm & _).
  repeat split; [done|congruence| |lia|].
  { apply (core_srow _ _ Hc). done. }
  intros x Hx Hxr Hxs Hxk Hxp.
  destruct (core_in _ _ _ (eq_sym H) Hx) as (y & Hy & Hyc).
  pose proof (core_eq _ _ Hyc) as (Hyn & _ & Hyr & _).
  rewrite Hn, <-Hyn. apply Hmax; [done|congruence| | |lia].
  - apply (core_srow _ _ Hyc). done.
  - rewrite (core_ekey _ _ Hyc), Hxk. apply core_ekey, Hc.
Qed.

Lemma no_state_core l l' rm p : map core l = map core l' -> no_state l rm p -> no_state l' rm p.
Proof.
  intros H Hn e He Hr Hs.
  destruct (core_in _ _ _ (eq_sym H) He) as (y & Hy & Hc).
  pose proof (core_eq _ _ Hc) as (Hyn & _ & Hyr & _).
  rewrite <-Hyn. apply Hn; [done|congruence|]. apply (core_srow _ _ Hc). done.
Qed.

Lemma holds_core l l' rm p s : map core l = map core l' -> holds_state l rm p s -> holds_state l' rm p s.
Proof.
  intros H (Hr & Hnd & Hm & Ho). repeat split; try done.
  - intros Hn. apply Hm in Hn as (e & He & Hn & Ht).
    destruct (newest_core _ _ _ _ _ H He) as (e' & He' & Hc). exists e'.
    apply core_eq in Hc as (?&?&?&?&_). split; [done|split; congruence].
  - intros (e & He & Hn & Ht). apply Hm.
    destruct (newest_core _ _ _ _ _ (eq_sym H) He) as (e' & He' & Hc). exists e'.
    apply core_eq in Hc as (?&?&?&?&_). split; [done|split; congruence].
  - intros Hn. apply Ho in Hn as (e & He & Hn & Ht).
    destruct (newest_core _ _ _ _ _ H He) as (e' & He' & Hc). exists e'.
    apply core_eq in Hc as (?&?&?&?&_). split; [done|split; congruence].
  - intros (e & He & Hn & Ht). apply Ho.
    destruct (newest_core _ _ _ _ _ (eq_sym H) He) as (e' & He' & Hc). exists e'.
    apply core_eq in Hc as (?&?&?&?&_). split; [done|split; congruence].
Qed.

(** * Sorted rows *)
Definition nids (l : list event) : list Z := map e_nid l.
Definition sorted (l : list event) : Prop := StronglySorted Z.lt (nids l).

Lemma sorted_inj l a b : sorted l -> a ∈ l -> b ∈ l -> e_nid a = e_nid b -> a = b.
Proof.
  unfold sorted, nids. induction l as [|x l IH]; intros Hs Ha Hb Hn; [by apply elem_of_nil in Ha|].
  cbn in Hs. apply StronglySorted_inv in Hs as [Hs Hf]. rewrite Forall_forall in Hf.
  assert (Hlt : forall y, y ∈ l -> e_nid x < e_nid y).
  { intros y Hy. apply Hf. apply elem_of_list_In, in_map, elem_of_list_In, Hy. }
  apply elem_of_cons in Ha as [->|Ha]; apply elem_of_cons in Hb as [->|Hb].
  - done.
  - specialize (Hlt _ Hb). lia.
  - specialize (Hlt _ Ha). lia.
  - by apply IH.
Qed.
Lemma sorted_nodup l : sorted l -> NoDup (nids l).
Proof.
  unfold sorted, nids. induction l as [|x l IH]; cbn; intros Hs; [constructor|].
  apply StronglySorted_inv in Hs as [Hs Hf]. rewrite Forall_forall in Hf.
  constructor; [|by apply IH]. intros Hin. specialize (Hf _ Hin). lia.
Qed.
Lemma sorted_app l1 l2 : sorted l1 -> sorted l2 ->
  (forall a b, a ∈ l1 -> b ∈ l2 -> e_nid a < e_nid b) -> sorted (l1 ++ l2).
Proof.
  unfold sorted, nids. induction l1 as [|x l IH]; cbn; intros H1 H2 H; [done|].
  apply StronglySorted_inv in H1 as [H1 Hf]. constructor.
  - apply IH; [done..|]. intros a b Ha Hb. apply H; [by apply elem_of_cons; right|done].
  - rewrite Forall_forall in *. intros n Hn. rewrite map_app in Hn. apply elem_of_app in Hn as [Hn|Hn].
    + by apply Hf.
    + apply elem_of_list_fmap in Hn as (b & -> & Hb). apply H; [apply elem_of_cons; by left|done].
Qed.
Lemma sorted_filter (f : event -> bool) l : sorted l -> sorted (List.filter f l).
Proof.
  unfold sorted, nids. induction l as [|x l IH]; cbn; intros Hs; [done|].
  apply StronglySorted_inv in Hs as [Hs Hf]. destruct (f x); cbn; [|by apply IH].
  constructor; [by apply IH|]. rewrite Forall_forall in *. intros n Hn.
  apply elem_of_list_fmap in Hn as (b & -> & Hb). apply elem_of_list_In, filter_In in Hb as [Hb _].
  apply Hf. apply elem_of_list_fmap. exists b. split; [done|]. by apply elem_of_list_In.
Qed.
Lemma core_sorted l l' : map core l = map core l' -> nids l = nids l'.
Proof.
  revert l'. induction l as [|a l IH]; intros [|b l'] H; try done.
  injection H as Hn _ _ _ _ _ _ H. cbn. unfold nids in IH. rewrite (IH _ H). congruence.
Qed.
Lemma core_ids l l' : map core l = map core l' -> map e_id l = map e_id l'.
Proof.
  revert l'. induction l as [|a l IH]; intros [|b l'] H; try done.
  injection H as _ Hn _ _ _ _ _ H. cbn. rewrite (IH _ H). congruence.
Qed.

(** * Moving the position *)
Lemma newest_unique l rm p a b : sorted l -> newest l rm p a -> newest l rm p b -> ekey a = ekey b -> a = b.
Proof.
  intros Hs (Ha & Har & Has & Hap & Hamax) (Hb & Hbr & Hbs & Hbp & Hbmax) Hk.
  apply (sorted_inj l); [done..|].
  specialize (Hamax b Hb Hbr Hbs (eq_sym Hk) Hbp). specialize (Hbmax a Ha Har Has Hk Hap). lia.
Qed.

Lemma newest_skip l rm p q x :
  (forall e, e ∈ l -> e_room e = rm -> state_row e -> p < e_nid e -> q < e_nid e) -> p <= q ->
  (newest l rm p x <-> newest l rm q x).
Proof.
  intros Hno Hle. split; intros (Hx & Hr & Hs & Hp & Hmax).
  - repeat split; try done; [lia|]. intros y Hy Hyr Hys Hk Hyq. apply Hmax; try done.
    destruct (Z_le_gt_dec (e_nid y) p) as [|Hgt]; [done|].
    specialize (Hno y Hy Hyr Hys ltac:(lia)). lia.
  - repeat split; try done.
    + destruct (Z_le_gt_dec (e_nid x) p) as [|Hgt]; [done|].
      specialize (Hno x Hx Hr Hs ltac:(lia)). lia.
    + intros y Hy Hyr Hys Hk Hyq. apply Hmax; try done. lia.
Qed.

Lemma newest_step l rm e x : sorted l -> e ∈ l -> e_room e = rm -> state_row e ->
  (newest l rm (e_nid e) x <-> x = e \/ (newest l rm (e_nid e - 1) x /\ ekey x <> ekey e)).
Proof.
  intros Hso He Hr Hst. split.
  - intros (Hx & Hxr & Hxs & Hxp & Hmax).
    destruct (decide (e_nid x = e_nid e)) as [Heq|Hne].
    { left. by apply (sorted_inj l). }
    right. split.
    + repeat split; try done; [lia|]. intros y Hy Hyr Hys Hk Hyp. apply Hmax; try done. lia.
    + intros Hk. specialize (Hmax e He Hr Hst (eq_sym Hk) ltac:(lia)). lia.
  - intros [-> |[(Hx & Hxr & Hxs & Hxp & Hmax) Hk]].
    + repeat split; try done; lia.
    + repeat split; try done; [lia|]. intros y Hy Hyr Hys Hyk Hyp.
      destruct (decide (e_nid y = e_nid e)) as [Heq|Hne].
      * assert (y = e) as -> by (by apply (sorted_inj l)). congruence.
      * apply Hmax; try done. lia.
Qed.

(** Rows added later do not matter. *)
Lemma newest_app l new rm p x : (forall e, e ∈ new -> p < e_nid e) ->
  (newest (l ++ new) rm p x <-> newest l rm p x).
Proof.
  intros Hnew. split; intros (Hx & Hr & Hs & Hp & Hmax).
  - apply elem_of_app in Hx as [Hx|Hx]; [|specialize (Hnew _ Hx); lia].
    repeat split; try done. intros y Hy. apply Hmax. apply elem_of_app. by left.
  - repeat split; try done; [apply elem_of_app; by left|].
    intros y Hy Hyr Hys Hyk Hyp. apply elem_of_app in Hy as [Hy|Hy]; [by apply Hmax|].
    specialize (Hnew _ Hy). lia.
Qed.

(** * Snapshots *)
Lemma holds_ext l l' rm p q s :
  (forall x, newest l rm p x <-> newest l' rm q x) -> holds_state l rm p s -> holds_state l' rm q s.
Proof.
  intros H (Hr & Hnd & Hm & Ho). split; [done|]. split; [done|]. split; intros n.
  - rewrite Hm. split; intros (e & He & Hn & Ht); exists e; (split; [by apply H|done]).
  - rewrite Ho. split; intros (e & He & Hn & Ht); exists e; (split; [by apply H|done]).
Qed.

Lemma holds_elem l rm p s n : holds_state l rm p s ->
  (n ∈ s_members s ++ s_others s <-> exists e, newest l rm p e /\ e_nid e = n).
Proof.
  intros (Hr & Hnd & Hm & Ho). rewrite elem_of_app, Hm, Ho. split.
  - intros [(e & He & Hn & _)|(e & He & Hn & _)]; eauto.
  - intros (e & He & Hn). destruct (decide (e_type e = "m.room.member")); [left|right]; eauto.
Qed.

Lemma existsb_nid n l : existsb (Z.eqb n) l = true <-> n ∈ l.
Proof.
  rewrite existsb_exists. split.
  - intros (m & Hm & Heq). apply Z.eqb_eq in Heq as ->. by apply elem_of_list_In.
  - intros H. exists n. split; [by apply elem_of_list_In|apply Z.eqb_refl].
Qed.

Lemma select_ok d ns : sorted (d_events d) -> NoDup ns ->
  (forall n, n ∈ ns -> exists e, e ∈ d_events d /\ e_nid e = n) ->
  exists l, select_nids d ns = Ok l /\ sorted l /\
    forall x, x ∈ l <-> x ∈ d_events d /\ e_nid x ∈ ns.
Proof.
  intros Hs Hnd Hall. unfold select_nids.
  set (l := List.filter _ _).
  assert (Hl : forall x, x ∈ l <-> x ∈ d_events d /\ e_nid x ∈ ns).
  { intros x. unfold l. rewrite elem_of_list_In, filter_In, <-elem_of_list_In, existsb_nid. done. }
  assert (Hls : sorted l) by (by apply sorted_filter).
  assert (Hlen : length l = length ns).
  { rewrite <-(map_length e_nid l). apply Permutation_length, NoDup_Permutation; [by apply sorted_nodup|done|].
    intros n. rewrite elem_of_list_fmap. split.
    - intros (e & -> & He). by apply Hl in He as [_ He].
    - intros Hn. destruct (Hall n Hn) as (e & He & <-). exists e. split; [done|]. by apply Hl. }
  rewrite Hlen, Nat.eqb_refl, orb_true_r. eauto.
Qed.

Lemma select_holds d rm p s : sorted (d_events d) -> holds_state (d_events d) rm p s ->
  exists l, select_nids d (s_members s ++ s_others s) = Ok l /\ sorted l /\
    forall x, x ∈ l <-> newest (d_events d) rm p x.
Proof.
  intros Hs Hh. pose proof Hh as (_ & Hnd & _).
  destruct (select_ok d (s_members s ++ s_others s) Hs Hnd) as (l & Hl & Hls & Hel).
  { intros n Hn. apply (holds_elem _ _ _ _ _ Hh) in Hn as (e & (He & _) & Hn). eauto. }
  exists l. split; [done|]. split; [done|]. intros x. rewrite Hel, (holds_elem _ _ _ _ _ Hh). split.
  - intros [Hx (e & He & Hn)]. assert (e = x) as <- by (apply (sorted_inj (d_events d)); [done|apply He|done..]).
    done.
  - intros Hx. split; [apply Hx|eauto].
Qed.

(** * Keys *)
Lemma app_cons c (a b : string) : String c a +:+ b = String c (a +:+ b).
Proof. reflexivity. Qed.
Lemma app_nil_l' (b : string) : "" +:+ b = b.
Proof. reflexivity. Qed.
Lemma tuple_inj_aux (a b x y : string) : no_sep a -> no_sep b ->
  a +:+ sep +:+ x = b +:+ sep +:+ y -> a = b /\ x = y.
Proof.
  revert b. induction a as [|c a IH]; intros [|c' b] Ha Hb H.
  - unfold sep in H. rewrite !app_nil_l', !app_cons, !app_nil_l' in H. by injection H.
  - unfold sep in H. rewrite !app_nil_l', !app_cons in H. injection H as Hc _. exfalso. apply (Hb "" b).
    rewrite app_nil_l'. unfold sep. rewrite app_cons, app_nil_l'. by rewrite Hc.
  - unfold sep in H. rewrite !app_nil_l', !app_cons in H. injection H as Hc _. exfalso. apply (Ha "" a).
    rewrite app_nil_l'. unfold sep. rewrite app_cons, app_nil_l'. by rewrite <-Hc.
  - rewrite !app_cons in H. injection H as -> H.
    destruct (IH b) as [-> ->]; try done.
    + intros u v Hu. apply (Ha (String c' u) v). rewrite app_cons. by rewrite Hu.
    + intros u v Hu. apply (Hb (String c' u) v). rewrite app_cons. by rewrite Hu.
Qed.
Lemma tuple_key_inj a b : no_sep (e_type a) -> no_sep (e_type b) ->
  (tuple_key a = tuple_key b <-> ekey a = ekey b).
Proof.
  intros Ha Hb. unfold tuple_key, ekey. split; [|intros [= Ht Hk]; by rewrite Ht, Hk].
  intros H. destruct (tuple_inj_aux _ _ _ _ Ha Hb H) as [-> ->]. done.
Qed.

(** * calculateNewSnapshot *)
Lemma existsb_str s l : existsb (String.eqb s) l = true <-> s ∈ l.
Proof.
  rewrite existsb_exists. split.
  - intros (m & Hm & Heq). apply String.eqb_eq in Heq as ->. by apply elem_of_list_In.
  - intros H. exists s. split; [by apply elem_of_list_In|apply String.eqb_refl].
Qed.

Lemma calc_loop_spec old new seen added rep res :
  NoDup (map tuple_key old) -> (forall e, e ∈ old -> tuple_key e ∉ seen) ->
  (forall e, e ∈ old -> e_nid e <> e_nid new) ->
  exists out rep', calc_loop old new seen added rep res = Some (res ++ out, rep') /\
    (forall x, x ∈ out <-> (x = new /\ (added = false \/ tuple_key new ∈ map tuple_key old))
                           \/ (x ∈ old /\ tuple_key x <> tuple_key new)) /\
    ((exists e, e ∈ old /\ tuple_key e = tuple_key new /\ rep' = e_nid e) \/
     (rep' = rep /\ tuple_key new ∉ map tuple_key old)) /\
    (NoDup (map e_nid old) -> (added = true -> tuple_key new ∉ map tuple_key old) -> NoDup (map e_nid out)).
Proof.
  revert seen added rep res. induction old as [|e old IH]; intros seen added rep res Hnd Hseen Hnid; cbn [calc_loop].
  { destruct added.
    - exists [], rep. rewrite app_nil_r. split; [done|]. split.
      + intros x. split; [intros H; by apply elem_of_nil in H|].
        intros [[_ [?|H]]|[H _]]; [done|by apply elem_of_nil in H..].
      + split; [right; split; [done|apply not_elem_of_nil]|intros _ _; constructor].
    - exists [new], rep. split; [done|]. split.
      + intros x. rewrite elem_of_list_singleton. split; [intros ->; left; auto|].
        intros [[-> _]|[H _]]; [done|by apply elem_of_nil in H].
      + split; [right; split; [done|apply not_elem_of_nil]|intros _ _; apply NoDup_singleton]. }
  cbn in Hnd. apply NoDup_cons in Hnd as [Hnin Hnd].
  assert (existsb (String.eqb (tuple_key e)) seen = false) as ->.
  { destruct (existsb _ _) eqn:E; [|done]. apply existsb_str in E.
    destruct (Hseen e ltac:(by apply elem_of_list_here) E). }
  assert ((e_nid e =? e_nid new) = false) as ->.
  { apply Z.eqb_neq, Hnid, elem_of_list_here. }
  cbn [andb].
  assert (Hseen' : forall e0, e0 ∈ old -> tuple_key e0 ∉ tuple_key e :: seen).
  { intros e0 H0. apply not_elem_of_cons. split.
    - intros Heq. apply Hnin. rewrite <-Heq. apply elem_of_list_fmap. eauto.
    - apply Hseen. by apply elem_of_list_further. }
  assert (Hnid' : forall e0, e0 ∈ old -> e_nid e0 <> e_nid new).
  { intros e0 H0. apply Hnid. by apply elem_of_list_further. }
  destruct (String.eqb (tuple_key e) (tuple_key new)) eqn:Ek.
  - apply String.eqb_eq in Ek.
    destruct (IH (tuple_key e :: seen) true (e_nid e) (res ++ [new]) Hnd Hseen' Hnid')
      as (out & rep' & Heq & Hout & Hrep & Hndo).
    assert (Hnew : tuple_key new ∉ map tuple_key old) by (by rewrite <-Ek).
    exists (new :: out), rep'. rewrite Heq, <-app_assoc. split; [done|]. split; [|split].
    + intros x. rewrite elem_of_cons, Hout. cbn [map]. rewrite !elem_of_cons. split.
      * intros [-> |[[-> [?|?]]|[Hx Hk]]]; [left; split; [done|right; left; done]|done|done|right; auto].
      * intros [[-> _]|[[-> |Hx] Hk]]; [by left| |right; right; done]. congruence.
    + left. destruct Hrep as [(e0 & He0 & Hk & _)|[-> _]].
      * exfalso. apply Hnew. rewrite <-Hk. apply elem_of_list_fmap. eauto.
      * exists e. split; [apply elem_of_list_here|done].
    + intros Hn Hadd. cbn in Hn |- *. apply NoDup_cons in Hn as [Hn1 Hn2]. apply NoDup_cons. split.
      * intros Hin. apply elem_of_list_fmap in Hin as (x & Hx & Hin). apply Hout in Hin as [[-> [?|?]]|[Hin _]];
          [done|done|]. by apply (Hnid' x Hin).
      * by apply Hndo.
  - apply String.eqb_neq in Ek.
    destruct (IH (tuple_key e :: seen) added rep (res ++ [e]) Hnd Hseen' Hnid')
      as (out & rep' & Heq & Hout & Hrep & Hndo).
    exists (e :: out), rep'. rewrite Heq, <-app_assoc. split; [done|]. split; [|split].
    + intros x. rewrite elem_of_cons, Hout. cbn [map]. rewrite !elem_of_cons. split.
      * intros [-> |[[-> [?|?]]|[Hx Hk]]]; [right; auto|left; auto..|right; auto].
      * intros [[-> [?|[?|?]]]|[[-> |Hx] Hk]]; auto; congruence.
    + destruct Hrep as [(e0 & He0 & Hk & Hr)|[-> Hr]].
      * left. exists e0. split; [by apply elem_of_list_further|done].
      * right. split; [done|]. cbn. apply not_elem_of_cons. split; [congruence|done].
    + intros Hn Hadd. cbn in Hn, Hadd |- *. apply NoDup_cons in Hn as [Hn1 Hn2]. apply NoDup_cons. split.
      * intros Hin. apply elem_of_list_fmap in Hin as (x & Hx & Hin). apply Hout in Hin as [[-> _]|[Hin _]].
        -- apply (Hnid e); [apply elem_of_list_here|done].
        -- apply Hn1. apply elem_of_list_fmap. eauto.
      * apply Hndo; [done|]. intros Ha Hin. apply (Hadd Ha). by apply elem_of_list_further.
Qed.

Lemma calc_spec old new :
  (forall e, e ∈ old -> no_sep (e_type e)) -> no_sep (e_type new) ->
  sorted old -> (forall a b, a ∈ old -> b ∈ old -> ekey a = ekey b -> a = b) ->
  (forall e, e ∈ old -> e_nid e <> e_nid new) ->
  exists out rep, calc_snapshot old new = Some (out, rep) /\
    (forall x, x ∈ out <-> x = new \/ (x ∈ old /\ ekey x <> ekey new)) /\
    ((exists e, e ∈ old /\ ekey e = ekey new /\ rep = e_nid e) \/
     (rep = 0 /\ forall e, e ∈ old -> ekey e <> ekey new)) /\
    NoDup (map e_nid out).
Proof.
  intros Hsep Hsn Hso Hinj Hnid.
  assert (Hkey : forall e, e ∈ old -> (tuple_key e = tuple_key new <-> ekey e = ekey new)).
  { intros e He. apply tuple_key_inj; auto. }
  assert (Hnd : NoDup (map tuple_key old)).
  { assert (Hs2 : NoDup (nids old)) by (by apply sorted_nodup).
    clear Hso Hkey Hnid. induction old as [|a l IH]; [constructor|]. cbn in Hs2 |- *.
    apply NoDup_cons in Hs2 as [Hs2 Hs3]. apply NoDup_cons. split.
    - intros Hin. apply elem_of_list_fmap in Hin as (b & Hk & Hb).
      apply tuple_key_inj in Hk; [|apply Hsep; by (apply elem_of_list_here || apply elem_of_list_further)..].
      assert (a = b) as <- by (apply Hinj; [apply elem_of_list_here|by apply elem_of_list_further|done]).
      apply Hs2. apply elem_of_list_fmap. eauto.
    - apply IH; [..|done].
      + intros e He. apply Hsep. by apply elem_of_list_further.
      + intros x y Hx Hy. apply Hinj; by apply elem_of_list_further. }
  destruct (calc_loop_spec old new [] false 0 [] Hnd) as (out & rep & Heq & Hout & Hrep & Hndo).
  { intros e _. apply not_elem_of_nil. }
  { done. }
  exists out, rep. split; [exact Heq|]. split; [|split].
  - intros x. rewrite Hout. split.
    + intros [[-> _]|[Hx Hk]]; [by left|right]. split; [done|]. by rewrite <-Hkey.
    + intros [-> |[Hx Hk]]; [left; auto|right]. split; [done|]. by rewrite Hkey.
  - destruct Hrep as [(e & He & Hk & ->)|[-> Hno]].
    + left. exists e. split; [done|]. by rewrite <-Hkey.
    + right. split; [done|]. intros e He Hk. apply Hno. apply Hkey in Hk; [|done].
      rewrite <-Hk. apply elem_of_list_fmap. eauto.
  - apply Hndo; [by apply sorted_nodup|done].
Qed.

Lemma member_nids_elem l n : n ∈ member_nids l <-> exists e, e ∈ l /\ e_nid e = n /\ e_type e = "m.room.member".
Proof.
  unfold member_nids. rewrite elem_of_list_fmap. split.
  - intros (e & -> & He). rewrite elem_of_list_In, filter_In in He. destruct He as [He Hm].
    apply String.eqb_eq in Hm. exists e. split; [by apply elem_of_list_In|done].
  - intros (e & He & <- & Ht). exists e. split; [done|]. rewrite elem_of_list_In, filter_In.
    split; [by apply elem_of_list_In|]. by apply String.eqb_eq.
Qed.
Lemma other_nids_elem l n : n ∈ other_nids l <-> exists e, e ∈ l /\ e_nid e = n /\ e_type e <> "m.room.member".
Proof.
  unfold other_nids. rewrite elem_of_list_fmap. split.
  - intros (e & -> & He). rewrite elem_of_list_In, filter_In in He. destruct He as [He Hm].
    apply negb_true_iff, String.eqb_neq in Hm. exists e. split; [by apply elem_of_list_In|done].
  - intros (e & He & <- & Ht). exists e. split; [done|]. rewrite elem_of_list_In, filter_In.
    split; [by apply elem_of_list_In|]. by apply negb_true_iff, String.eqb_neq.
Qed.
Lemma split_nids_nodup l : NoDup (map e_nid l) -> NoDup (member_nids l ++ other_nids l).
Proof.
  assert (Hp : member_nids l ++ other_nids l ≡ₚ map e_nid l).
  { unfold member_nids, other_nids. induction l as [|e l IH]; [done|]. cbn.
    destruct (is_member e) eqn:Em; cbn.
    - by rewrite IH.
    - rewrite <-Permutation_middle. by rewrite IH. }
  by rewrite Hp.
Qed.

(** One state event is added to a snapshot. *)
Lemma holds_step (l : list event) rm e (new : event) (old out : list event) :
  sorted l -> e ∈ l -> e_room e = rm -> state_row e ->
  (forall x, x ∈ old <-> newest l rm (e_nid e - 1) x) ->
  e_nid new = e_nid e -> ekey new = ekey e ->
  (forall x, x ∈ out <-> x = new \/ (x ∈ old /\ ekey x <> ekey new)) ->
  NoDup (map e_nid out) ->
  holds_state l rm (e_nid e) (Snap rm (member_nids out) (other_nids out)).
Proof.
  intros Hso He Hr Hs Hold Hn Hk Hout Hnd. assert (e_type new = e_type e) as Ht by (unfold ekey in Hk; congruence).
  repeat split; cbn [s_members s_others].
  - by apply split_nids_nodup.
  - intros Hin. apply member_nids_elem in Hin as (x & Hx & Hxn & Hxt). apply Hout in Hx as [-> |[Hx Hxk]].
    + exists e. split; [apply newest_step; auto|split; congruence].
    + exists x. split; [|done]. apply newest_step; auto. right. split; [by apply Hold|congruence].
  - intros (x & Hx & Hxn & Hxt). apply member_nids_elem. apply newest_step in Hx; try done.
    destruct Hx as [-> |[Hx Hxk]].
    + exists new. split; [apply Hout; by left|split; congruence].
    + exists x. split; [|done]. apply Hout. right. split; [by apply Hold|congruence].
  - intros Hin. apply other_nids_elem in Hin as (x & Hx & Hxn & Hxt). apply Hout in Hx as [-> |[Hx Hxk]].
    + exists e. split; [apply newest_step; auto|split; congruence].
    + exists x. split; [|done]. apply newest_step; auto. right. split; [by apply Hold|congruence].
  - intros (x & Hx & Hxn & Hxt). apply other_nids_elem. apply newest_step in Hx; try done.
    destruct Hx as [-> |[Hx Hxk]].
    + exists new. split; [apply Hout; by left|split; congruence].
    + exists x. split; [|done]. apply Hout. right. split; [by apply Hold|congruence].
Qed.
