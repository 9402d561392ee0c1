(** The invariant of the event store: what each row and snapshot says. *)
From Verif Require Import Prelude AccumModel AccumSpec AccumProofs AccumProofs2.
Open Scope string_scope.
Open Scope list_scope.
Open Scope Z_scope.

Definition replaces_ok (l : list event) (e : event) : Prop :=
  if has_key (e_json e) then
    (exists x, newest l (e_room e) (e_nid e - 1) x /\ ekey x = ekey e /\ e_replaces e = e_nid x) \/
    (e_replaces e = 0 /\ forall x, newest l (e_room e) (e_nid e - 1) x -> ekey x <> ekey e)
  else e_replaces e = 0.
Definition before_ok (k : bool) (l : list event) (sn : gmap Z snap) (e : event) : Prop :=
  (e_before e = 0 /\ no_state l (e_room e) (e_nid e - 1)) \/
  (0 < e_before e /\ (k = true -> is_Some (sn !! e_before e)) /\
   forall s, sn !! e_before e = Some s -> holds_state l (e_room e) (e_nid e - 1) s).
Definition row_ok (k : bool) (d : db) (e : event) : Prop :=
  if e_isstate e then e_before e = 0 /\ e_replaces e = 0
  else before_ok k (d_events d) (d_snaps d) e /\ replaces_ok (d_events d) e /\ e_before e <= d_snapseq d.

Definition cur_ok (l : list event) (sn : gmap Z snap) (rm : string) (p sid : Z) : Prop :=
  (sid = 0 /\ no_state l rm p) \/ (0 < sid /\ exists s, sn !! sid = Some s /\ holds_state l rm p s).

Lemma no_state_app l new rm p : (forall e, e ∈ new -> p < e_nid e) ->
  no_state l rm p -> no_state (l ++ new) rm p.
Proof.
  intros Hn H e He Hr Hs. apply elem_of_app in He as [He|He]; [by apply H|by apply Hn].
Qed.
Lemma holds_app l new rm p s : (forall e, e ∈ new -> p < e_nid e) ->
  holds_state l rm p s -> holds_state (l ++ new) rm p s.
Proof. intros Hn. apply holds_ext. intros x. by rewrite newest_app. Qed.

Lemma row_ok_mono k d d' x new :
  map core (d_events d') = map core (d_events d ++ new) ->
  (forall e, e ∈ new -> e_nid x <= e_nid e) ->
  (forall id s, d_snaps d' !! id = Some s -> id <= d_snapseq d -> d_snaps d !! id = Some s) ->
  (k = true -> forall id s, d_snaps d !! id = Some s -> d_snaps d' !! id = Some s) ->
  d_snapseq d <= d_snapseq d' ->
  row_ok k d x -> row_ok k d' x.
Proof.
  intros Hc Hnew Hs1 Hs2 Hle. unfold row_ok. destruct (e_isstate x); [done|].
  intros (Hb & Hr & Hbe). split; [|split; [|lia]].
  - destruct Hb as [[H0 Hn]|(H0 & Hk & Hh)].
    + left. split; [done|]. eapply no_state_core; [symmetry; exact Hc|].
      apply no_state_app; [|done]. intros e He. specialize (Hnew e He). lia.
    + right. split; [done|]. split.
      * intros Hkt. destruct (Hk Hkt) as [s Hs]. exists s. by apply Hs2.
      * intros s Hs. apply Hs1 in Hs; [|done]. eapply holds_core; [symmetry; exact Hc|].
        apply holds_app; [|by apply Hh]. intros e He. specialize (Hnew e He). lia.
  - unfold replaces_ok in *. destruct (has_key (e_json x)); [|done].
    assert (Hlt : forall e, e ∈ new -> e_nid x - 1 < e_nid e) by (intros e He; specialize (Hnew e He); lia).
    destruct Hr as [(y & Hy & Hk & Hrep)|[H0 Hno]].
    + left. apply (newest_app _ new) in Hy; [|done].
      destruct (newest_core _ _ _ _ _ (eq_sym Hc) Hy) as (y' & Hy' & Hcy).
      exists y'. split; [done|]. split; [by rewrite (core_ekey _ _ Hcy)|].
      apply core_eq in Hcy as (Hn & _). congruence.
    + right. split; [done|]. intros y Hy.
      destruct (newest_core _ _ _ _ _ Hc Hy) as (y' & Hy' & Hcy).
      apply newest_app in Hy'; [|done]. rewrite <-(core_ekey _ _ Hcy). by apply Hno.
Qed.

(** * Rolling forward *)
Record rollinv (k : bool) (rm : string) (d : db) (sid p : Z) : Prop := {
  ri_sorted : sorted (d_events d);
  ri_sep : forall x, x ∈ d_events d -> no_sep (e_type x);
  ri_cur : cur_ok (d_events d) (d_snaps d) rm p sid;
  ri_sid : 0 <= sid <= d_snapseq d;
  ri_range : forall id s, d_snaps d !! id = Some s -> 0 < id <= d_snapseq d;
  ri_top : forall id s, d_snaps d !! id = Some s -> s_room s = rm -> id <= sid;
  ri_rows : forall x, x ∈ d_events d -> e_room x <> rm \/ e_nid x <= p -> row_ok k d x
}.

Record todo (rm : string) (d : db) (p : Z) (l : list event) : Prop := {
  td_sorted : sorted l;
  td_row : forall e, e ∈ l -> p < e_nid e /\ exists x, x ∈ d_events d /\ e_nid x = e_nid e /\
             e_room x = rm /\ ekey x = ekey e /\ e_isstate x = false /\ has_key (e_json x) = e_isstate e;
  td_all : forall x, x ∈ d_events d -> e_room x = rm -> p < e_nid x -> exists e, e ∈ l /\ e_nid e = e_nid x
}.

Lemma update_core d n s r : map core (d_events (update_before d n s r)) = map core (d_events d).
Proof.
  unfold update_before. cbn. rewrite map_map. apply map_ext. intros e. by destruct (_ =? _).
Qed.
Lemma update_elem d n s r x : x ∈ d_events (update_before d n s r) ->
  exists y, y ∈ d_events d /\ core x = core y /\
    ((e_nid y = n /\ x = set_before s r y) \/ (e_nid y <> n /\ x = y)).
Proof.
  unfold update_before. cbn. intros Hx. apply elem_of_list_fmap in Hx as (y & -> & Hy). exists y.
  split; [done|]. destruct (Z.eqb_spec (e_nid y) n); auto.
Qed.

Lemma todo_core rm d d' p l : map core (d_events d) = map core (d_events d') -> todo rm d p l -> todo rm d' p l.
Proof.
  intros Hc [H1 H2 H3]. split; [done| |].
  - intros e He. destruct (H2 e He) as (Hp & x & Hx & Hn & Hr & Hk & Hi & Hh). split; [done|].
    destruct (core_in _ _ _ Hc Hx) as (y & Hy & Hcy).
    exists y. pose proof (core_ekey _ _ Hcy). apply core_eq in Hcy as (?&?&?&?&?&?&?).
    split; [done|]. repeat split; congruence.
  - intros x Hx Hr Hp. destruct (core_in _ _ _ (eq_sym Hc) Hx) as (y & Hy & Hcy).
    apply core_eq in Hcy as (Hn&?&?&?&?&?&?).
    destruct (H3 y Hy) as (e & He & Hen); [congruence|lia|]. exists e. split; [done|congruence].
Qed.

Record grows (rm : string) (d d' : db) : Prop := {
  gr_core : map core (d_events d') = map core (d_events d);
  gr_rows : map (set_before 0 0) (d_events d') = map (set_before 0 0) (d_events d);
  gr_seq : d_seq d' = d_seq d;
  gr_rooms : d_rooms d' = d_rooms d;
  gr_invites : d_invites d' = d_invites d;
  gr_spaces : d_spaces d' = d_spaces d;
  gr_snapseq : d_snapseq d <= d_snapseq d';
  gr_keep : forall id s, d_snaps d !! id = Some s -> d_snaps d' !! id = Some s;
  gr_new : forall id s, d_snaps d' !! id = Some s -> d_snaps d !! id = Some s \/
             (s_room s = rm /\ d_snapseq d < id)
}.
Lemma grows_refl rm d : grows rm d d.
Proof. split; try done; auto. Qed.
Lemma grows_trans rm a b c : grows rm a b -> grows rm b c -> grows rm a c.
Proof.
  intros [A1 A0 A2 A3 A4 A5 A6 A7 A8] [B1 B0 B2 B3 B4 B5 B6 B7 B8]. split; try congruence.
  - lia.
  - auto.
  - intros id s H. apply B8 in H as [H|[H H']]; [by apply A8|]. right. split; [done|lia].
Qed.

Lemma update_rows d n s r :
  map (set_before 0 0) (d_events (update_before d n s r)) = map (set_before 0 0) (d_events d).
Proof.
  unfold update_before. cbn. rewrite map_map. apply map_ext. intros e. by destruct (_ =? _).
Qed.

Lemma todo_next rm d p e l : todo rm d p (e :: l) -> todo rm d (e_nid e) l.
Proof.
  intros [H1 H2 H3]. unfold sorted, nids in H1. cbn in H1.
  apply StronglySorted_inv in H1 as [H1 Hf]. rewrite Forall_forall in Hf. split; [done| |].
  - intros x Hx. destruct (H2 x) as [_ Hr]; [by apply elem_of_list_further|]. split; [|done].
    apply Hf. apply elem_of_list_fmap. eauto.
  - intros x Hx Hr Hp. destruct (H3 x Hx Hr) as (y & Hy & Hyn).
    { destruct (H2 e) as [? _]; [apply elem_of_list_here|]. lia. }
    apply elem_of_cons in Hy as [-> |Hy]; [lia|eauto].
Qed.

Lemma cur_skip k rm d sid p q : rollinv k rm d sid p -> p <= q ->
  (forall e, e ∈ d_events d -> e_room e = rm -> p < e_nid e -> q < e_nid e) ->
  cur_ok (d_events d) (d_snaps d) rm q sid.
Proof.
  intros [_ _ Hc _ _ _ _] Hle Hno. destruct Hc as [[-> Hn]|(H0 & s & Hs & Hh)].
  - left. split; [done|]. intros e He Hr Hst. apply Hno; [done..|]. by apply Hn.
  - right. split; [done|]. exists s. split; [done|]. eapply holds_ext; [|exact Hh].
    intros x. apply newest_skip; [|done]. intros e He Hr _. by apply Hno.
Qed.

(** The position just before the next event to process. *)
Lemma before_next rm d p e l : todo rm d p (e :: l) ->
  forall x, x ∈ d_events d -> e_room x = rm -> p < e_nid x -> e_nid e - 1 < e_nid x.
Proof.
  intros [H1 H2 H3] x Hx Hr Hp. destruct (H3 x Hx Hr Hp) as (y & Hy & <-).
  apply elem_of_cons in Hy as [-> |Hy]; [lia|].
  unfold sorted, nids in H1. cbn in H1. apply StronglySorted_inv in H1 as [_ Hf].
  rewrite Forall_forall in Hf. specialize (Hf (e_nid y)). feed specialize Hf; [apply elem_of_list_fmap; eauto|]. lia.
Qed.

Lemma roll_spec k rm l : forall d sid p, rollinv k rm d sid p -> todo rm d p l ->
  exists sid' d' q, roll rm d sid l = (Ok sid', d') /\ rollinv k rm d' sid' q /\ grows rm d d' /\
    p <= q /\ (forall x, x ∈ d_events d' -> e_room x = rm -> e_nid x <= q).
Proof.
  induction l as [|e l IH]; intros d sid p Hi Ht; cbn [roll].
  { exists sid, d, p. split; [done|]. split; [done|]. split; [apply grows_refl|]. split; [lia|].
    intros x Hx Hr. destruct (Z_le_gt_dec (e_nid x) p) as [|Hgt]; [done|].
    destruct Ht as [_ _ H3]. destruct (H3 x Hx Hr ltac:(lia)) as (y & Hy & _). by apply elem_of_nil in Hy. }
  pose proof (before_next _ _ _ _ _ Ht) as Hbn.
  assert (He : e ∈ e :: l) by apply elem_of_list_here.
  destruct (td_row _ _ _ _ Ht e He) as (Hpe & row & Hrow & Hrn & Hrr & Hrk & Hri & Hrh).
  assert (Hcur : cur_ok (d_events d) (d_snaps d) rm (e_nid e - 1) sid) by (eapply cur_skip; [exact Hi|lia|exact Hbn]).
  assert (Hstep : forall (d2 : db) (sid2 rep : Z),
    map core (d_events d2) = map core (d_events d) ->
    (forall x, x ∈ d_events d2 -> exists y, y ∈ d_events d /\ core x = core y /\
       ((e_nid y = e_nid e /\ x = set_before sid rep y) \/ (e_nid y <> e_nid e /\ x = y))) ->
    cur_ok (d_events d2) (d_snaps d2) rm (e_nid e) sid2 -> 0 <= sid2 <= d_snapseq d2 ->
    (forall id s, d_snaps d2 !! id = Some s -> 0 < id <= d_snapseq d2) ->
    (forall id s, d_snaps d2 !! id = Some s -> s_room s = rm -> id <= sid2) ->
    grows rm d d2 ->
    (if e_isstate e then
       (exists x, newest (d_events d) rm (e_nid e - 1) x /\ ekey x = ekey e /\ rep = e_nid x) \/
       (rep = 0 /\ forall x, newest (d_events d) rm (e_nid e - 1) x -> ekey x <> ekey e)
     else rep = 0) ->
    exists sid' d' q, roll rm d2 sid2 l = (Ok sid', d') /\ rollinv k rm d' sid' q /\ grows rm d d' /\
      p <= q /\ (forall x, x ∈ d_events d' -> e_room x = rm -> e_nid x <= q)).
  { intros d2 sid2 rep Hc Hel Hcur2 Hsid2 Hrange2 Htop2 Hgr Hrep.
    destruct (IH d2 sid2 (e_nid e)) as (sid' & d' & q & Hroll & Hi' & Hg' & Hq & Hall).
    - split; try done.
      + unfold sorted. rewrite (core_sorted _ _ Hc). apply Hi.
      + intros x Hx. destruct (Hel x Hx) as (y & Hy & Hcy & _). apply core_eq in Hcy as (_&_&_&->&_).
        by apply (ri_sep _ _ _ _ _ Hi).
      + intros x Hx Hcase. destruct (Hel x Hx) as (y & Hy & Hcy & Hxy).
        assert (Hmono : row_ok k d x -> row_ok k d2 x).
        { apply (row_ok_mono k d d2 x []).
          - by rewrite app_nil_r.
          - intros z Hz. by apply elem_of_nil in Hz.
          - intros id s Hs Hle. destruct (gr_new _ _ _ Hgr id s Hs) as [?|[_ ?]]; [done|lia].
          - intros _. apply (gr_keep _ _ _ Hgr).
          - apply (gr_snapseq _ _ _ Hgr). }
        apply Hmono. destruct Hxy as [[Hn ->]|[Hn ->]].
        * assert (y = row) as -> by (apply (sorted_inj (d_events d)); [apply Hi|done..|congruence]).
          unfold row_ok. cbn. rewrite Hri. split; [|split].
          -- unfold before_ok. cbn. rewrite Hrr, Hn. destruct Hcur as [[-> Hns]|(H0 & s & Hs & Hh)].
             ++ by left.
             ++ right. split; [done|]. split; [by rewrite Hs; eauto|]. intros s' Hs'. congruence.
          -- unfold replaces_ok. cbn. rewrite Hrh, Hrr, Hn. change (ekey (set_before sid rep row)) with (ekey row).
             rewrite Hrk. exact Hrep.
          -- apply (ri_sid _ _ _ _ _ Hi).
        * apply (ri_rows _ _ _ _ _ Hi); [done|]. destruct Hcase as [?|Hle]; [by left|].
          destruct (decide (e_room y = rm)) as [Hyr|]; [|by left]. right.
          destruct (Z_le_gt_dec (e_nid y) p) as [|Hgt]; [done|]. specialize (Hbn y Hy Hyr ltac:(lia)). lia.
    - apply todo_next in Ht. eapply todo_core; [symmetry; exact Hc|done].
    - exists sid', d', q. split; [done|]. split; [done|]. split; [by eapply grows_trans|]. split; [lia|done]. }
  destruct (e_isstate e) eqn:Est.
  - (* a state event *)
    assert (Hsr : state_row row).
    { apply srow_spec. unfold srow. rewrite Hrh. apply orb_true_r. }
    assert (Hold : exists old, (if sid =? 0 then Ok []
        else match select_snap d sid with
             | Fail b => Fail b
             | Ok s => select_nids d (s_members s ++ s_others s) end) = Ok old /\ sorted old /\
        forall x, x ∈ old <-> newest (d_events d) rm (e_nid e - 1) x).
    { destruct Hcur as [[-> Hns]|(H0 & s & Hs & Hh)].
      - exists []. split; [done|]. split; [constructor|]. intros x. split; [intros H; by apply elem_of_nil in H|].
        intros (Hx & Hxr & Hxs & Hxp & _). specialize (Hns x Hx Hxr Hxs). lia.
      - unfold select_snap. assert ((sid =? 0) = false) as -> by lia. rewrite Hs.
        apply (select_holds d rm); [apply Hi|done]. }
    destruct Hold as (old & -> & Hso & Hold).
    assert (Hty : e_type e = e_type row) by (unfold ekey in Hrk; congruence).
    destruct (calc_spec old e) as (out & rep & -> & Hout & Hrep & Hnd).
    { intros x Hx. apply (ri_sep _ _ _ _ _ Hi). apply Hold in Hx. apply Hx. }
    { rewrite Hty. by apply (ri_sep _ _ _ _ _ Hi). }
    { done. }
    { intros a b Ha Hb. apply newest_unique with (l := d_events d) (rm := rm) (p := e_nid e - 1);
        [apply Hi|by apply Hold..]. }
    { intros x Hx. apply Hold in Hx as (_&_&_&Hx&_). lia. }
    unfold insert_snap.
    apply (Hstep _ _ rep).
    + etransitivity; [apply update_core|done].
    + intros x Hx. apply update_elem in Hx as (y & Hy & Hr). exists y. done.
    + right. split; [pose proof (ri_sid _ _ _ _ _ Hi); lia|].
      exists (Snap rm (member_nids out) (other_nids out)). split; [cbn; by rewrite lookup_insert|].
      eapply holds_core; [symmetry; apply update_core|]. cbn [d_events set_snaps].
      rewrite <-Hrn. eapply (holds_step (d_events d) rm row e old out); [apply Hi|done|done|done| |done|done|done|done].
      rewrite Hrn. done.
    + cbn. pose proof (ri_sid _ _ _ _ _ Hi). lia.
    + cbn. intros id s Hs. destruct (decide (id = d_snapseq d + 1)) as [-> |Hne].
      * pose proof (ri_sid _ _ _ _ _ Hi). lia.
      * rewrite lookup_insert_ne in Hs by done. apply (ri_range _ _ _ _ _ Hi) in Hs. lia.
    + cbn. intros id s Hs _. destruct (decide (id = d_snapseq d + 1)) as [-> |Hne]; [lia|].
      rewrite lookup_insert_ne in Hs by done. apply (ri_range _ _ _ _ _ Hi) in Hs. lia.
    + split; try done.
      * etransitivity; [apply update_core|done].
      * etransitivity; [apply update_rows|done].
      * cbn. lia.
      * cbn. intros id s Hs. rewrite lookup_insert_ne; [done|].
        apply (ri_range _ _ _ _ _ Hi) in Hs. lia.
      * cbn. intros id s Hs. destruct (decide (id = d_snapseq d + 1)) as [-> |Hne].
        -- rewrite lookup_insert in Hs. injection Hs as <-. right. split; [done|lia].
        -- rewrite lookup_insert_ne in Hs by done. by left.
    + destruct Hrep as [(x & Hx & Hk & Hr)|[-> Hno]].
      * left. exists x. split; [by apply Hold|done].
      * right. split; [done|]. intros x Hx. apply Hno. by apply Hold.
  - apply (Hstep _ _ 0); [apply update_core|intros x Hx; by apply update_elem in Hx| |apply Hi..| |done].
    + assert (Hc2 : cur_ok (d_events d) (d_snaps d) rm (e_nid e) sid).
      { destruct Hcur as [[-> Hns]|(H0 & s & Hs & Hh)].
        - left. split; [done|]. intros x Hx Hxr Hxs. pose proof (Hns x Hx Hxr Hxs).
          destruct (decide (e_nid x = e_nid e)) as [Heq|]; [|lia].
          assert (x = row) as -> by (apply (sorted_inj (d_events d)); [apply Hi|done..|congruence]).
          exfalso. apply srow_spec in Hxs. unfold srow in Hxs. rewrite Hri, Hrh in Hxs. done.
        - right. split; [done|]. exists s. split; [done|]. eapply holds_ext; [|exact Hh].
          intros x. apply newest_skip; [|lia]. intros y Hy Hyr Hys Hyp.
          destruct (decide (e_nid y = e_nid e)) as [Heq|]; [|lia].
          assert (y = row) as -> by (apply (sorted_inj (d_events d)); [apply Hi|done..|congruence]).
          exfalso. apply srow_spec in Hys. unfold srow in Hys. rewrite Hri, Hrh in Hys. done. }
      destruct Hc2 as [[-> Hns]|(H0 & s & Hs & Hh)].
      * left. split; [done|]. eapply no_state_core; [symmetry; apply update_core|done].
      * right. split; [done|]. exists s. split; [done|]. eapply holds_core; [symmetry; apply update_core|done].
    + split; try done; first [apply update_core|apply update_rows|by cbn; auto].
Qed.
