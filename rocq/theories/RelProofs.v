(** Space relations and invites over whole histories. *)
From Verif Require Import Prelude AccumModel AccumSpec AccumProofs AccumProofs2 AccumProofs3 AccumProofs4 AccumProofs5 AccumProofs6 RelSpec.
Open Scope string_scope.
Open Scope list_scope.
Open Scope Z_scope.

Notation key := (string * string * Z)%type.

(** * One relation at a time *)
Definition rel_step (k : key) (acc : option space) (e : event) : option space :=
  match space_relation e with
  | Some (k', s, del) => if bool_decide (k' = k) then (if del : bool then None else Some s) else acc
  | None => acc
  end.
Definition rel_fold (k : key) (l : list event) (a : option space) : option space := fold_left (rel_step k) l a.

Lemma updates_lookup d l k : d_spaces (space_updates d l) !! k = rel_fold k l (d_spaces d !! k).
Proof.
  unfold space_updates. cbn [d_spaces set_spaces].
  set (rels := fold_left _ l ∅). set (f := fun (old : option space) (upd : option (space * bool)) => _).
  assert (f None None = None) as Hf by done.
  rewrite lookup_merge. unfold diag_None.
  assert (H : forall (m : gmap key (space * bool)) a,
    match fold_left (fun (m : gmap key (space * bool)) e =>
                match space_relation e with
                | Some (k, s, del) => <[k := (s, del)]> m
                | None => m
                end) l m !! k with
    | Some (s, false) => Some s | Some (_, true) => None | None => a end =
    rel_fold k l (match m !! k with Some (s, false) => Some s | Some (_, true) => None | None => a end)).
  { clear. unfold rel_fold. induction l as [|e l IH]; intros m a; cbn [fold_left]; [done|].
    rewrite IH. f_equal. unfold rel_step. destruct (space_relation e) as [[[k' s] del]|]; [|done].
    case_bool_decide as Hk; [subst; rewrite lookup_insert; by destruct del|by rewrite lookup_insert_ne]. }
  specialize (H ∅ (d_spaces d !! k)). rewrite lookup_empty in H. unfold rels in *. clear rels. rewrite <-H.
  destruct (fold_left _ l ∅ !! k) as [[s []]|], (d_spaces d !! k); done.
Qed.

Lemma has_key_iff r : has_key r = true <-> r_skey r <> None.
Proof. unfold has_key. destruct (r_skey r); split; done. Qed.
Lemma about_iff k e : about k e <-> exists s b, space_relation e = Some (k, s, b).
Proof.
  unfold about, space_relation. rewrite <-has_key_iff. destruct (has_key (e_json e)); cbn.
  - split.
    + intros [_ [[-> ->]|[-> ->]]]; cbn; eauto.
    + intros (s & b & H). split; [done|]. destruct (String.eqb_spec (e_type e) "m.space.child"); [left; by simplify_eq|].
      destruct (String.eqb_spec (e_type e) "m.space.parent"); [right; by simplify_eq|done].
  - split; [intros [? _]; done|intros (s & b & ?); done].
Qed.
Lemma about_rel k e : about k e -> space_relation e = Some (k, details e, negb (r_via (e_json e))).
Proof.
  unfold about, space_relation, details. rewrite <-has_key_iff. intros [-> [[-> ->]|[-> ->]]]; done.
Qed.
Lemma about_key k k' e : about k e -> about k' e -> k = k'.
Proof. intros H H'. apply about_rel in H, H'. congruence. Qed.
Lemma step_about k a e : about k e -> rel_step k a e = if r_via (e_json e) then Some (details e) else None.
Proof.
  intros H. unfold rel_step. rewrite (about_rel _ _ H). rewrite bool_decide_true by done. by destruct (r_via (e_json e)).
Qed.
Lemma step_other k a e : ~ about k e -> rel_step k a e = a.
Proof.
  intros H. unfold rel_step. destruct (space_relation e) as [[[k' s] b]|] eqn:E; [|done].
  rewrite bool_decide_false; [done|]. intros ->. apply H, about_iff. eauto.
Qed.
Lemma about_dec k e : {about k e} + {~ about k e}.
Proof.
  destruct (space_relation e) as [[[k' s] b]|] eqn:E.
  - destruct (decide (k' = k)) as [-> |Hne]; [left; apply about_iff; eauto|].
    right. intros H. apply about_rel in H. congruence.
  - right. intros H. apply about_rel in H. congruence.
Qed.
Lemma fold_none k l a : (forall x, x ∈ l -> ~ about k x) -> rel_fold k l a = a.
Proof.
  unfold rel_fold. revert a. induction l as [|e l IH]; intros a H; cbn; [done|].
  rewrite step_other by (apply H, elem_of_list_here). apply IH. intros x Hx. apply H. by apply elem_of_list_further.
Qed.
Lemma fold_app k l l' a : rel_fold k (l ++ l') a = rel_fold k l' (rel_fold k l a).
Proof. apply fold_left_app. Qed.
Lemma fold_last k l a e : last_about l k e -> rel_fold k l a = if r_via (e_json e) then Some (details e) else None.
Proof.
  intros (pre & post & -> & Ha & Hn). rewrite fold_app.
  change (rel_fold k post (rel_step k (rel_fold k pre a) e) = if r_via (e_json e) then Some (details e) else None).
  rewrite fold_none by done. by apply step_about.
Qed.
Lemma last_or_none k l : (exists e, last_about l k e) \/ (forall x, x ∈ l -> ~ about k x).
Proof.
  induction l as [|e l IH]; [right; intros x Hx; by apply elem_of_nil in Hx|].
  destruct IH as [(x & pre & post & -> & Ha & Hn)|IH].
  - left. exists x, (e :: pre), post. done.
  - destruct (about_dec k e) as [H|H].
    + left. exists e, [], l. done.
    + right. intros x Hx. apply elem_of_cons in Hx as [-> |Hx]; [done|by apply IH].
Qed.
Lemma fold_spec k l s : rel_fold k l None = Some s <-> exists e, last_about l k e /\ holds e /\ s = details e.
Proof.
  split.
  - intros H. destruct (last_or_none k l) as [[e He]|Hn].
    + rewrite (fold_last _ _ _ _ He) in H. exists e. destruct (r_via (e_json e)) eqn:Ev; [|done]. simplify_eq. done.
    + by rewrite fold_none in H.
  - intros (e & He & Hv & ->). rewrite (fold_last _ _ _ _ He). unfold holds in Hv. by rewrite Hv.
Qed.

(** Rows which look alike to a relation. *)
Definition alike (a b : event) : Prop :=
  e_room a = e_room b /\ e_type a = e_type b /\ e_skey a = e_skey b /\
  (e_json a = e_json b \/ (forall k, ~ about k a) /\ (forall k, ~ about k b)).
Lemma alike_step k acc a b : alike a b -> rel_step k acc a = rel_step k acc b.
Proof.
  intros (H1 & H2 & H3 & [H4|[H4 H5]]).
  - unfold rel_step, space_relation. by rewrite H1, H2, H3, H4.
  - by rewrite !step_other.
Qed.
Lemma alike_fold k l l' a : Forall2 alike l l' -> rel_fold k l a = rel_fold k l' a.
Proof.
  intros H. revert a. unfold rel_fold. induction H as [|x y l l' Hxy H IH]; intros a; cbn; [done|].
  rewrite (alike_step k a x y Hxy). apply IH.
Qed.

(** * The two transactions *)
Lemma roll_rel rm l : forall d sid o d', roll rm d sid l = (o, d') -> d_spaces d' = d_spaces d /\ d_invites d' = d_invites d.
Proof.
  induction l as [|e l IH]; intros d sid o d' H; cbn [roll] in H; [by injection H as _ <-|].
  destruct (e_isstate e).
  - destruct (if _ : bool then _ else _) as [old|b]; [|by injection H as _ <-].
    destruct (calc_snapshot old e) as [[new rep]|]; [|by injection H as _ <-].
    unfold insert_snap in H. apply IH in H as [-> ->]. done.
  - apply IH in H as [-> ->]. done.
Qed.

Section Ops.
Context (ord : list Z -> list Z) (redact : raw -> raw -> raw -> raw).

Lemma redact_rel d rm m d' : redact_step redact d rm m = Some d' -> d_spaces d' = d_spaces d /\ d_invites d' = d_invites d.
Proof.
  unfold redact_step. destruct (Nat.eqb _ 0); [by intros [= <-]|]. destruct (List.find _ _); [|done]. by intros [= <-].
Qed.

Lemma acc_rel rm t d r d' : Forall good_raw (tl_events t) ->
  acc_txn redact rm t d = (Ok r, d') ->
  (d_events d' = d_events d /\ d_spaces d' = d_spaces d /\ d_invites d' = d_invites d) \/
  exists new c, new_rows rm t d new /\ new <> [] /\ Forall (proto rm false) new /\
    map (set_before 0 0) (d_events d') =
      map (fun e => set_before 0 0 (match redactions (map flag_state new) !! e_id e with
             Some b => set_json (redact c b (e_json e)) e | None => e end)) (d_events d ++ new) /\
    d_spaces d' = d_spaces (space_updates d (map flag_state new)) /\
    d_invites d' = d_invites (supersede_invites d rm (map flag_state new)).
Proof.
  intros Hg. unfold acc_txn, new_rows.
  destruct (news_ok rm t (d_events d) Hg) as [Hp Hndi].
  set (inc := dedup rm (tl_prev t) true [] (tl_events t)) in *.
  remember (mark_gap (tl_limited t) inc (filter_new (d_events d) inc)) as news eqn:Enews. clear Enews.
  destruct news as [|first news'] eqn:En; [intros [= _ <-]; by left|]. rewrite <-En in *.
  destruct ((current_snap d rm =? 0) && negb (is_create first)); [intros [= _ <-]; by left|].
  destruct (insert d news) as [d1 m] eqn:Eins.
  destruct (insert_spec _ _ _ _ Hndi Eins) as (new & Hnum & Hd1 & _ & Hm & Hsz).
  assert (He1 : d_events d1 = d_events d ++ new) by (by rewrite Hd1).
  destruct (Nat.eqb_spec (size m) 0) as [Hz|Hz].
  { assert (new = []) as -> by (destruct new; [done|cbn in Hsz; lia]). rewrite app_nil_r in He1.
    intros [= _ <-]. left. rewrite He1, Hd1. done. }
  assert (Hpost : post_insert m news = map flag_state new).
  { unfold post_insert. etransitivity; [|apply (omap_rows flag_state m news (d_events d) new (d_seq d)); done].
    apply list_omap_ext. apply Forall2_same_length_lookup_2; [done|]. intros i x y Hx Hy.
    assert (x = y) as -> by congruence. destruct (m !! e_id y); done. }
  rewrite Hpost. clear Hpost.
  destruct (redact_step redact d1 rm _) as [d2|] eqn:Ered; [|done].
  destruct (redact_step_rows redact _ _ _ _ Ered) as [c Hc]. destruct (redact_rel _ _ _ _ Ered) as [Hsp2 Hin2].
  destruct (roll rm d2 (current_snap d rm) (map flag_state new)) as [[sid|b] d3] eqn:Eroll; [|done].
  intros [= _ <-]. destruct (roll_rel _ _ _ _ _ _ Eroll) as [Hsp3 Hin3]. destruct (roll_strip _ _ _ _ _ _ Eroll) as [Hst _].
  right. exists new, c. split; [done|]. split; [intros ->; done|]. split.
  { eapply numbered_proto; [exact Hnum|]. unfold fresh. rewrite Forall_forall in Hp |- *. intros x Hx.
    apply Hp. apply elem_of_list_In, filter_In in Hx as [Hx _]. by apply elem_of_list_In. }
  split; [|split].
  - change (map (set_before 0 0) (d_events d3) = map (fun e => set_before 0 0 (match redactions (map flag_state new) !! e_id e with
             Some b => set_json (redact c b (e_json e)) e | None => e end)) (d_events d ++ new)).
    rewrite Hst, Hc, He1, map_map. done.
  - assert (Hd : d_spaces d3 = d_spaces d) by (rewrite Hsp3, Hsp2, Hd1; done).
    unfold space_updates, supersede_invites. cbn [d_spaces set_spaces set_invites upsert_room set_rooms]. by rewrite Hd.
  - assert (Hd : d_invites d3 = d_invites d) by (rewrite Hin3, Hin2, Hd1; done).
    unfold space_updates, supersede_invites. cbn [d_invites set_spaces set_invites upsert_room set_rooms]. by rewrite Hd.
Qed.

Lemma init_rel rm st d r d' : Forall good_raw st -> NoDup (map r_id st) ->
  init_txn ord rm st d = (Ok r, d') ->
  (d_events d' = d_events d /\ d_spaces d' = d_spaces d /\ d_invites d' = d_invites d) \/
  exists new, numbered (d_seq d) (fresh (d_events d) (filter_ensure rm st)) new /\ new <> [] /\
    d_events d' = d_events d ++ new /\
    d_spaces d' = d_spaces (space_updates d (filter_ensure rm st)) /\
    d_invites d' = d_invites (supersede_invites d rm (filter_ensure rm st)).
Proof.
  intros Hg Hnd. unfold init_txn. set (events := filter_ensure rm st).
  assert (Hndi : NoDup (map e_id events)) by (by apply filter_ensure_ids).
  destruct (Nat.eqb (length events) 0); [done|].
  destruct ((current_snap d rm =? 0) && negb (has_create events)); [done|].
  destruct (insert d events) as [d1 m] eqn:Eins.
  destruct (insert_spec _ _ _ _ Hndi Eins) as (new & Hnum & Hd1 & _ & Hm & Hsz).
  assert (He1 : d_events d1 = d_events d ++ new) by (by rewrite Hd1).
  destruct (Nat.eqb_spec (size m) 0) as [Hz|Hz].
  { assert (new = []) as -> by (destruct new; [done|cbn in Hsz; lia]). rewrite app_nil_r in He1.
    intros [= _ <-]. left. rewrite He1, Hd1. done. }
  destruct (if _ : bool then state_map_at _ _ else _) as [cur|]; [|done].
  destruct (sm_nids ord _) as [mem oth]. intros [= _ <-].
  right. exists new. split; [done|]. split; [intros ->; done|]. split; [exact He1|].
  assert (Hd : d_spaces d1 = d_spaces d) by (rewrite Hd1; done).
  assert (Hi : d_invites d1 = d_invites d) by (rewrite Hd1; done).
  unfold space_updates, supersede_invites, insert_snap.
  cbn [d_spaces d_invites set_spaces set_invites upsert_room set_rooms set_snaps fst snd]. by rewrite Hd, Hi.
Qed.

(** * Spaces *)
Definition sinv (d : db) : Prop := forall k, d_spaces d !! k = rel_fold k (d_events d) None.

Lemma flag_alike l : Forall2 alike (map flag_state l) l.
Proof. induction l as [|e l IH]; [constructor|]. cbn. constructor; [|done]. unfold alike. cbn. auto. Qed.
Lemma numbered_alike p l l' : numbered p l l' -> Forall2 alike l l'.
Proof. induction 1; [constructor|done|]. constructor; [|done]. unfold alike. cbn. auto. Qed.
Lemma alike_refl e : alike e e. Proof. unfold alike. auto. Qed.

Lemma before_fold k l l' a : map (set_before 0 0) l = map (set_before 0 0) l' -> rel_fold k l a = rel_fold k l' a.
Proof.
  intros H. apply alike_fold. revert l' H. induction l as [|e l IH]; intros [|e' l'] H; try done. cbn [map] in H.
  injection H as H1 H2 H3 H4 H5 H6 H7 H8 H9 H10 H11. constructor; [|by apply IH]. unfold alike. auto.
Qed.

Lemma redactions_from l id b : redactions l !! id = Some b ->
  exists e, e ∈ l /\ e_type e = "m.room.redaction" /\ b = e_json e /\ r_redacts (e_json e) = id.
Proof.
  unfold redactions.
  assert (H : forall m : gmap string raw, fold_left (fun (m : gmap string raw) e =>
    if negb (e_isstate e) && String.eqb (e_type e) "m.room.redaction"
       && negb (String.eqb (r_redacts (e_json e)) "")
    then <[r_redacts (e_json e) := e_json e]> m else m) l m !! id = Some b ->
    m !! id = Some b \/ exists e, e ∈ l /\ e_type e = "m.room.redaction" /\ b = e_json e /\ r_redacts (e_json e) = id).
  { induction l as [|e l IH]; intros m; cbn [fold_left]; [by left|]. intros H. apply IH in H as [H|(x & Hx & Hr)].
    - destruct (_ && _) eqn:Ec; [|by left]. apply andb_true_iff in Ec as [Ec _]. apply andb_true_iff in Ec as [_ Ec].
      apply String.eqb_eq in Ec. destruct (decide (r_redacts (e_json e) = id)) as [<-|Hne].
      + rewrite lookup_insert in H. injection H as <-. right. exists e. split; [apply elem_of_list_here|done].
      + rewrite lookup_insert_ne in H by done. by left.
    - right. exists x. split; [by apply elem_of_list_further|done]. }
  intros Hl. apply H in Hl as [Hl|Hl]; [by rewrite lookup_empty in Hl|done].
Qed.

Lemma ensure_type rm b r e : ensure_fields rm b r = Some e ->
  e_room e = rm /\ r_type r = Some (e_type e) /\ e_json e = r /\ e_id e = r_id r /\
  (r_skey r = Some (e_skey e) \/ r_skey r = None).
Proof.
  unfold ensure_fields. destruct (String.eqb_spec (r_id r) ""); [done|].
  destruct (r_type r) as [ty|] eqn:Et; [|done].
  destruct (_ && _); [destruct (String.eqb (r_mship r) ""); [done|]|]; intros [= <-]; cbn;
    destruct (r_skey r); auto 10.
Qed.
Lemma dedup_from rm prev l : forall first seen e, e ∈ dedup rm prev first seen l ->
  exists r, r ∈ l /\ r_type r = Some (e_type e) /\ e_json e = r /\ e_id e = r_id r /\ e_room e = rm.
Proof.
  induction l as [|r l IH]; intros first seen e He; cbn [dedup] in He; [by apply elem_of_nil in He|].
  assert (Hrec : forall f s, e ∈ dedup rm prev f s l -> exists r0, r0 ∈ r :: l /\ r_type r0 = Some (e_type e) /\ e_json e = r0 /\ e_id e = r_id r0 /\ e_room e = rm).
  { intros f s Hin. destruct (IH _ _ _ Hin) as (r0 & Hr & Hx). exists r0. split; [by apply elem_of_list_further|done]. }
  destruct (ensure_fields rm false r) as [x|] eqn:Ex; [|by eapply Hrec].
  destruct (existsb _ seen); [by eapply Hrec|].
  apply elem_of_cons in He as [-> |He]; [|by eapply Hrec].
  exists r. split; [apply elem_of_list_here|]. destruct (ensure_type _ _ _ _ Ex) as (? & ? & ? & ? & _).
  destruct (_ && _); cbn; auto.
Qed.

Lemma new_from rm t d new e : new_rows rm t d new -> e ∈ new ->
  exists r, r ∈ tl_events t /\ r_type r = Some (e_type e) /\ e_json e = r /\ e_id e = r_id r /\ e_room e = rm.
Proof.
  unfold new_rows. set (inc := dedup rm (tl_prev t) true [] (tl_events t)). intros Hnum He.
  assert (Hex : exists x, x ∈ fresh (d_events d) (mark_gap (tl_limited t) inc (filter_new (d_events d) inc)) /\
    e_type x = e_type e /\ e_json x = e_json e /\ e_id x = e_id e /\ e_room x = e_room e).
  { revert Hnum He. generalize (fresh (d_events d) (mark_gap (tl_limited t) inc (filter_new (d_events d) inc))) as l.
    generalize (d_seq d) as p. intros p l. induction 1 as [p|p q l l' Hle H IH|p n x l l' Hlt H IH]; intros He.
    - by apply elem_of_nil in He. - by apply IH.
    - apply elem_of_cons in He as [-> |He]; [exists x; split; [apply elem_of_list_here|done]|].
      destruct (IH He) as (y & Hy & Hr). exists y. split; [by apply elem_of_list_further|done]. }
  destruct Hex as (x & Hx & H1 & H2 & H3 & H4). rewrite <-H1, <-H2, <-H3, <-H4.
  unfold fresh in Hx. rewrite elem_of_list_In, filter_In, <-elem_of_list_In in Hx. destruct Hx as [Hx _].
  assert (Hex : exists y, y ∈ filter_new (d_events d) inc /\ e_type y = e_type x /\ e_json y = e_json x /\ e_id y = e_id x /\ e_room y = e_room x).
  { revert Hx. unfold mark_gap. destruct (filter_new _ _) as [|a l]; [intros Hx; by apply elem_of_nil in Hx|].
    destruct inc as [|i inc']; [intros Hx; exists x; done|]. destruct (_ && _); [|intros Hx; exists x; done].
    intros Hx. apply elem_of_cons in Hx as [-> |Hx]; [exists a; split; [apply elem_of_list_here|done]|].
    exists x. split; [by apply elem_of_list_further|done]. }
  destruct Hex as (y & Hy & H5 & H6 & H7 & H8). rewrite <-H5, <-H6, <-H7, <-H8.
  destruct (filter_new_sub (d_events d) inc) as [pre Hpre].
  apply (dedup_from rm (tl_prev t) (tl_events t) true []). fold inc. rewrite Hpre. apply elem_of_app. by right.
Qed.

Lemma about_space k e r : about k e -> r_type r = Some (e_type e) -> e_json e = r -> space_raw r = true.
Proof.
  intros [Hk Hor] Ht Hj. unfold space_raw. rewrite Hj, <-has_key_iff in Hk. rewrite Hk, Ht. cbn.
  destruct Hor as [[-> _]|[-> _]]; done.
Qed.

Lemma acc_sinv rm t d r d' : redact_ok redact -> Forall good_raw (tl_events t) -> steady_op d (Accumulate rm t) ->
  sinv d -> acc_txn redact rm t d = (Ok r, d') -> sinv d'.
Proof.
  intros Hred Hg Hst Hs H. apply acc_rel in H as [(H1 & H2 & _)|(new & c & Hnew & _ & _ & Hrows & Hsp & _)]; [|..|done].
  { intros k. rewrite H1, H2. apply Hs. }
  intros k. rewrite Hsp, updates_lookup, Hs.
  rewrite (alike_fold k _ _ _ (flag_alike new)), <-fold_app.
  symmetry.
  rewrite (before_fold k (d_events d') (map (fun e => match redactions (map flag_state new) !! e_id e with
             Some b => set_json (redact c b (e_json e)) e | None => e end) (d_events d ++ new)) None); [|by rewrite Hrows, map_map].
  apply alike_fold.
  assert (Hall : Forall (fun e => alike (match redactions (map flag_state new) !! e_id e with
             Some b => set_json (redact c b (e_json e)) e | None => e end) e) (d_events d ++ new)).
  { rewrite Forall_forall. intros e He. destruct (redactions _ !! e_id e) as [b|] eqn:Eb; [|apply alike_refl].
    apply redactions_from in Eb as (y & Hy & Hty & -> & Hid). apply elem_of_list_fmap in Hy as (z & -> & Hz). cbn in Hty, Hid |- *.
    destruct (new_from _ _ _ _ _ Hnew Hz) as (rz & Hrz & Htz & Hjz & _ & _).
    cbn in Hst. destruct (Hst rz Hrz ltac:(congruence)) as [Hst1 Hst2].
    assert (Hna : forall k', ~ about k' e).
    { intros k' Hab. apply elem_of_app in He as [He|He].
      - apply (Hst1 e k' He); [congruence|done].
      - destruct (new_from _ _ _ _ _ Hnew He) as (re & Hre & Hte & Hje & Hie & _).
        pose proof (about_space _ _ _ Hab Hte Hje) as Hsr. rewrite (Hst2 re Hre) in Hsr; [done|congruence]. }
    unfold alike. cbn. split; [done|]. split; [done|]. split; [done|]. right. split; [|done].
    intros k' Hab. apply (Hna k'). unfold about in *. cbn in Hab.
    destruct (Hred c (e_json z) (e_json e)) as (Hk & _). by rewrite Hk in Hab. }
  clear -Hall. induction Hall; cbn; [constructor|by constructor].
Qed.

(** State blocks. *)
Lemma block_one k rm st : NoDup (map (fun r => (r_type r, r_skey r)) (List.filter space_raw st)) ->
  (forall x, x ∈ filter_ensure rm st -> ~ about k x) \/
  exists pre e post, filter_ensure rm st = pre ++ e :: post /\ about k e /\
    (forall x, x ∈ pre ++ post -> ~ about k x).
Proof.
  unfold filter_ensure. induction st as [|r st IH]; intros Hnd; [left; intros x Hx; by apply elem_of_nil in Hx|].
  cbn [List.filter] in Hnd. cbn [omap list_omap].
  assert (Hnd' : NoDup (map (fun r => (r_type r, r_skey r)) (List.filter space_raw st))).
  { destruct (space_raw r); [cbn in Hnd; by apply NoDup_cons in Hnd as [_ Hnd]|done]. }
  specialize (IH Hnd'). destruct (ensure_fields rm true r) as [e|] eqn:Ee; [|exact IH].
  change (omap (ensure_fields rm true) st) with (filter_ensure rm st) in *.
  change ((fix go (l : list raw) : list event := _) st) with (filter_ensure rm st) || idtac.
  destruct (ensure_type _ _ _ _ Ee) as (E1 & E2 & E3 & E4 & E5).
  destruct (about_dec k e) as [Hab|Hab].
  - right. exists [], e, (filter_ensure rm st). split; [done|]. split; [done|]. cbn. intros x Hx Hxa.
    pose proof (about_space _ _ _ Hab E2 E3) as Hsr. rewrite Hsr in Hnd. cbn in Hnd. apply NoDup_cons in Hnd as [Hn _].
    apply Hn. apply elem_of_list_fmap. unfold filter_ensure in Hx. apply elem_of_list_omap in Hx as (r' & Hr' & Hx).
    destruct (ensure_type _ _ _ _ Hx) as (X1 & X2 & X3 & X4 & X5).
    exists r'. split.
    + destruct Hab as [Hk1 Hab], Hxa as [Hk2 Hxa]. rewrite E3 in Hk1. rewrite X3 in Hk2. rewrite E2, X2.
      destruct E5 as [E5|?]; [|done]. destruct X5 as [X5|?]; [|done]. rewrite E5, X5.
      destruct Hab as [[Ht1 Hkk]|[Ht1 Hkk]], Hxa as [[Ht2 Hkk2]|[Ht2 Hkk2]]; rewrite Ht1, Ht2; congruence.
    + rewrite elem_of_list_In, filter_In, <-elem_of_list_In. split; [done|]. by eapply about_space.
  - destruct IH as [IH|(pre & x & post & Heq & Hx & Hn)].
    + left. intros x Hx. apply elem_of_cons in Hx as [-> |Hx]; [done|by apply IH].
    + right. exists (e :: pre), x, post. split; [by rewrite Heq|]. split; [done|]. cbn. intros y Hy.
      apply elem_of_cons in Hy as [-> |Hy]; [done|by apply Hn].
Qed.

Lemma about_cols k a b : e_room a = e_room b -> e_type a = e_type b -> e_skey a = e_skey b -> e_json a = e_json b ->
  about k a -> about k b.
Proof. unfold about. by intros -> -> -> ->. Qed.

Lemma init_sinv rm st d r d' : Forall good_raw st -> NoDup (map r_id st) -> steady_op d (Initialise rm st) -> base d ->
  sinv d -> init_txn ord rm st d = (Ok r, d') -> sinv d'.
Proof.
  intros Hg Hnd [Hone Hold] Hb Hs H.
  apply init_rel in H as [(H1 & H2 & _)|(new & Hnum & _ & Hrows & Hsp & _)]; [|..|done|done].
  { intros k. rewrite H1, H2. apply Hs. }
  intros k. rewrite Hsp, updates_lookup, Hs, Hrows, fold_app.
  rewrite <-(alike_fold k _ _ _ (numbered_alike _ _ _ Hnum)).
  set (cur := rel_fold k (d_events d) None).
  destruct (block_one k rm st Hone) as [Hno|(pre & e & post & Heq & Hab & Hno)].
  - rewrite !fold_none; [done| |done]. intros x Hx. apply Hno. unfold fresh in Hx.
    rewrite elem_of_list_In, filter_In, <-elem_of_list_In in Hx. apply Hx.
  - assert (Hlast : last_about (filter_ensure rm st) k e).
    { exists pre, post. split; [done|]. split; [done|]. intros x Hx. apply Hno. apply elem_of_app. by right. }
    rewrite (fold_last _ _ _ _ Hlast).
    destruct (known (d_events d) (e_id e)) eqn:Ek.
    + assert (Hcur : cur = if r_via (e_json e) then Some (details e) else None).
      { unfold known in Ek. apply existsb_exists in Ek as (x & Hx & Hid). rewrite <-elem_of_list_In in Hx. apply String.eqb_eq in Hid.
        assert (He : e ∈ filter_ensure rm st) by (rewrite Heq; apply elem_of_app; right; apply elem_of_list_here).
        unfold filter_ensure in He. apply elem_of_list_omap in He as (re & Hre & He).
        destruct (ensure_type _ _ _ _ He) as (E1 & E2 & E3 & E4 & E5).
        destruct (Hold re x Hre (about_space _ _ _ Hab E2 E3) Hx ltac:(congruence)) as (Hxr & Hxj & k' & Hl).
        assert (Hxa : about k x).
        { destruct Hl as (? & ? & _ & Hax & _). destruct (bs_cols _ Hb x Hx) as (_ & Hc1 & _ & Hc2).
          apply (about_cols k e x); [congruence|..|congruence|done].
          - rewrite Hxj in Hc1. congruence.
          - rewrite Hxj in Hc2. destruct Hab as [Hk _]. rewrite E3 in Hk. destruct E5 as [E5|?]; [|done].
            rewrite E5 in Hc2. congruence. }
        assert (k' = k) as -> by (destruct Hl as (? & ? & _ & Hax & _); by eapply about_key).
        unfold cur. rewrite (fold_last _ _ _ _ Hl). rewrite Hxj, E3. unfold details. rewrite Hxj, E3.
        destruct (bs_cols _ Hb x Hx) as (_ & Hc1 & _). rewrite Hxj in Hc1.
        assert (e_type x = e_type e) as -> by congruence. done. }
      rewrite fold_none; [by rewrite Hcur|]. intros x Hx. unfold fresh in Hx.
      rewrite elem_of_list_In, filter_In, <-elem_of_list_In in Hx. destruct Hx as [Hx Hkn].
      rewrite Heq in Hx. apply elem_of_app in Hx as [Hx|Hx]; [apply Hno, elem_of_app; by left|].
      apply elem_of_cons in Hx as [-> |Hx]; [by rewrite Ek in Hkn|apply Hno, elem_of_app; by right].
    + symmetry. apply fold_last. unfold fresh. rewrite Heq, List.filter_app. cbn. rewrite Ek. cbn.
      eexists _, _. split; [done|]. split; [done|]. intros x Hx.
      rewrite elem_of_list_In, filter_In, <-elem_of_list_In in Hx. apply Hno, elem_of_app. right. apply Hx.
Qed.

Lemma empty_sinv : sinv empty_db.
Proof. intros k. cbn. by rewrite lookup_empty. Qed.
Lemma run_sinv k o d : redact_ok redact -> Inv k d -> good_op o -> steady_op d o -> sinv d -> sinv (run ord redact o d).
Proof.
  intros Hred Hi Hg Hst Hs. destruct o as [rm st|rm t|n|u rm i|u rm]; cbn [run good_op] in *.
  - unfold initialise. destruct st as [|r st]; [done|]. destruct Hg as [Hg Hnd].
    destruct (init_txn _ _ _ _) as [[res|b] d'] eqn:E; [|done]. eapply init_sinv; try done. apply (iv_base _ _ Hi).
  - unfold accumulate. destruct (tl_events t) as [|r l] eqn:Et; [done|]. rewrite <-Et in Hg.
    destruct (acc_txn _ _ _ _) as [[res|b] d'] eqn:E; [|done]. by eapply (acc_sinv rm t d).
  - done.
  - done.
  - done.
Qed.
Lemma runs_sinv ops : ord_ok ord -> redact_ok redact -> forall k d, Inv k d -> Forall good_op ops -> steady ord redact ops d ->
  sinv d -> sinv (runs ord redact ops d).
Proof.
  intros Hord Hred. induction ops as [|o ops IH]; intros k d Hi Hg Hst Hs; cbn; [done|].
  apply Forall_cons in Hg as [Hg1 Hg]. destruct Hst as [Hst1 Hst].
  eapply IH; [by apply (run_inv ord redact Hord Hred k)|done|done|]. by eapply run_sinv.
Qed.

(** * Invites *)
Definition not_invite (ms : string) : bool := negb (String.eqb ms "invite" || String.eqb ms "_invite").
Lemma not_invite_iff ms : not_invite ms = true <-> ms <> "invite" /\ ms <> "_invite".
Proof. unfold not_invite. destruct (String.eqb_spec ms "invite"), (String.eqb_spec ms "_invite"); cbn; naive_solver. Qed.
Definition memb_step (u : string) (acc : option string) (e : event) : option string :=
  if String.eqb (e_type e) "m.room.member" && String.eqb (e_skey e) u then Some (e_member e) else acc.
Lemma final_lookup l u : final_memberships l !! u = fold_left (memb_step u) l None.
Proof.
  unfold final_memberships.
  assert (H : forall m : gmap string string, fold_left (fun (m : gmap string string) e =>
    if String.eqb (e_type e) "m.room.member" then <[e_skey e := e_member e]> m else m) l m !! u
    = fold_left (memb_step u) l (m !! u)).
  { induction l as [|e l IH]; intros m; cbn [fold_left]; [done|]. rewrite IH. f_equal. unfold memb_step.
    destruct (String.eqb _ _); cbn; [|done]. destruct (String.eqb_spec (e_skey e) u) as [-> |Hne].
    - by rewrite lookup_insert. - by rewrite lookup_insert_ne. }
  rewrite H. by rewrite lookup_empty.
Qed.
Lemma memb_none l u a : (forall x, x ∈ l -> e_type x = "m.room.member" -> e_skey x <> u) -> fold_left (memb_step u) l a = a.
Proof.
  revert a. induction l as [|e l IH]; intros a H; cbn; [done|]. rewrite IH.
  - unfold memb_step. destruct (String.eqb_spec (e_type e) "m.room.member") as [Ht|]; [|done].
    destruct (String.eqb_spec (e_skey e) u) as [Hs|]; [|done]. by destruct (H e (elem_of_list_here _ _) Ht).
  - intros x Hx. apply H. by apply elem_of_list_further.
Qed.
Lemma final_no_iff l u : final_no l u <-> exists ms, final_memberships l !! u = Some ms /\ not_invite ms = true.
Proof.
  rewrite final_lookup. split.
  - intros (pre & e & post & -> & Ht & Hs & H1 & H2 & Hn). exists (e_member e).
    rewrite fold_left_app. cbn [fold_left]. rewrite memb_none by done. split; [|by apply not_invite_iff].
    unfold memb_step. rewrite Ht, Hs, !String.eqb_refl. done.
  - intros (ms & H & Hni). induction l as [|e l IH] using rev_ind; [done|].
    rewrite fold_left_app in H. cbn [fold_left] in H. unfold memb_step at 1 in H.
    destruct (String.eqb_spec (e_type e) "m.room.member") as [Ht|Ht]; cbn in H.
    + destruct (String.eqb_spec (e_skey e) u) as [Hs|Hs].
      * injection H as <-. apply not_invite_iff in Hni as [? ?]. exists l, e, []. repeat split; try done.
        intros x Hx. by apply elem_of_nil in Hx.
      * destruct (IH H) as (pre & x & post & -> & ? & ? & ? & ? & Hn). exists pre, x, (post ++ [e]).
        split; [by rewrite <-app_assoc|]. repeat split; try done. intros y Hy. apply elem_of_app in Hy as [Hy|Hy]; [by apply Hn|].
        apply elem_of_list_singleton in Hy as ->. done.
    + destruct (IH H) as (pre & x & post & -> & ? & ? & ? & ? & Hn). exists pre, x, (post ++ [e]).
      split; [by rewrite <-app_assoc|]. repeat split; try done. intros y Hy. apply elem_of_app in Hy as [Hy|Hy]; [by apply Hn|].
      apply elem_of_list_singleton in Hy as ->. done.
Qed.
Lemma supersede_lookup d rm l u rm' :
  rm' = rm /\ final_no l u /\ d_invites (supersede_invites d rm l) !! (u, rm') = None \/
  ~ (rm' = rm /\ final_no l u) /\ d_invites (supersede_invites d rm l) !! (u, rm') = d_invites d !! (u, rm').
Proof.
  unfold supersede_invites. cbn [d_invites set_invites]. rewrite final_no_iff.
  set (P := fun kv : (string * string) * string => _).
  destruct (decide (rm' = rm)) as [-> |Hne].
  - destruct (final_memberships l !! u) as [ms|] eqn:Em.
    + destruct (not_invite ms) eqn:En.
      * left. split; [done|]. split; [by eauto|]. apply map_filter_lookup_None. right. intros x _. unfold P. cbn.
        rewrite String.eqb_refl, Em. fold (not_invite ms). rewrite En. done.
      * right. split; [intros [_ (ms' & [= <-] & ?)]; congruence|].
        destruct (d_invites d !! (u, rm)) as [x|] eqn:Ex; [|apply map_filter_lookup_None; by left].
        apply map_filter_lookup_Some. split; [done|]. unfold P. cbn. rewrite Em. fold (not_invite ms). rewrite En.
        by rewrite andb_false_r.
    + right. split; [intros [_ (ms' & ? & ?)]; congruence|].
      destruct (d_invites d !! (u, rm)) as [x|] eqn:Ex; [|apply map_filter_lookup_None; by left].
      apply map_filter_lookup_Some. split; [done|]. unfold P. cbn. rewrite Em. by rewrite andb_false_r.
  - right. split; [intros [? _]; congruence|].
    destruct (d_invites d !! (u, rm')) as [x|] eqn:Ex; [|apply map_filter_lookup_None; by left].
    apply map_filter_lookup_Some. split; [done|]. unfold P. cbn. destruct (String.eqb_spec rm' rm); [done|]. done.
Qed.

Definition mcols (e : event) : string * string * string := (e_type e, e_skey e, e_member e).
Lemma final_cols l l' u : map mcols l = map mcols l' -> final_no l u <-> final_no l' u.
Proof.
  intros H. rewrite !final_no_iff, !final_lookup.
  assert (Hf : forall a, fold_left (memb_step u) l a = fold_left (memb_step u) l' a); [|by rewrite Hf].
  revert l' H. induction l as [|e l IH]; intros [|e' l'] H a; try done. cbn in H. injection H as H1 H2 H3 H4.
  cbn. unfold memb_step at 2 4. rewrite H1, H2, H3. by apply IH.
Qed.

Lemma added_nil d l : base d -> d_events d = l -> List.filter (fun e => d_seq d <? e_nid e) l = [].
Proof.
  intros Hb <-. apply elem_of_nil_inv. intros e He. rewrite elem_of_list_In, filter_In, <-elem_of_list_In in He.
  destruct He as [He Hl]. pose proof (bs_nid _ Hb e He). lia.
Qed.
Lemma added_all p l : (forall e, e ∈ l -> p < e_nid e) -> List.filter (fun e => p <? e_nid e) l = l.
Proof.
  induction l as [|e l IH]; intros H; cbn; [done|]. destruct (Z.ltb_spec p (e_nid e)).
  - f_equal. apply IH. intros x Hx. apply H. by apply elem_of_list_further.
  - specialize (H e (elem_of_list_here _ _)). lia.
Qed.
Lemma filter_cols p l l' : map (fun e => (e_nid e, mcols e)) l = map (fun e => (e_nid e, mcols e)) l' ->
  map mcols (List.filter (fun e => p <? e_nid e) l) = map mcols (List.filter (fun e => p <? e_nid e) l').
Proof.
  revert l'. induction l as [|e l IH]; intros [|e' l'] H; try done. cbn in H. injection H as H1 H2 H3 H4 H5.
  cbn. rewrite H1. specialize (IH l' H5). destruct (p <? e_nid e'); cbn; [|done]. rewrite IH. f_equal. unfold mcols. congruence.
Qed.

Lemma run_invite k o d u rm : Inv k d -> good_op o ->
  (exists i, o = Invite u rm i /\ d_invites (run ord redact o d) !! (u, rm) = Some i) \/
  (o = Retire u rm /\ d_invites (run ord redact o d) !! (u, rm) = None) \/
  (forall i, o <> Invite u rm i) /\ o <> Retire u rm /\
  (answers ord redact d o u rm /\ d_invites (run ord redact o d) !! (u, rm) = None \/
   ~ answers ord redact d o u rm /\ d_invites (run ord redact o d) !! (u, rm) = d_invites d !! (u, rm)).
Proof.
  intros Hi Hg. pose proof (iv_base _ _ Hi) as Hb.
  assert (Hsame : forall o', d_events (run ord redact o' d) = d_events d -> d_invites (run ord redact o' d) = d_invites d ->
    answers ord redact d o' u rm /\ d_invites (run ord redact o' d) !! (u, rm) = None \/
   ~ answers ord redact d o' u rm /\ d_invites (run ord redact o' d) !! (u, rm) = d_invites d !! (u, rm)).
  { intros o' He Hin. right. split; [|by rewrite Hin]. intros [Ha _]. apply Ha. unfold added. rewrite He. by apply added_nil. }
  destruct o as [rm' st|rm' t|n|u' rm' i|u' rm'].
  - right. right. split; [done|]. split; [done|]. cbn [good_op] in Hg. destruct Hg as [Hg Hnd].
    unfold answers. pose proof (Hsame (Initialise rm' st)) as Hs. unfold answers in Hs. cbn [run] in *. unfold initialise in *.
    destruct st as [|r0 st0] eqn:Est; [by apply Hs|]. rewrite <-Est in *. clear r0 st0 Est.
    destruct (init_txn ord rm' st d) as [[res|b] d'] eqn:E; [|by apply Hs]. cbn [snd] in *.
    apply init_rel in E as [(H1 & H2 & H3)|(new & Hnum & Hne & Hrows & Hsp & Hin)]; [by apply Hs|..|done|done].
    assert (Hadd : added d d' = new).
    { unfold added. rewrite Hrows, List.filter_app, (added_nil d) by done. apply added_all. by apply (numbered_gt _ _ _ Hnum). }
    rewrite Hadd, Hin.
    destruct (supersede_lookup d rm' (filter_ensure rm' st) u rm) as [(-> & Hf & Hl)|[Hf Hl]].
    + left. done.
    + right. split; [|done]. intros (_ & -> & Hx). by apply Hf.
  - right. right. split; [done|]. split; [done|]. cbn [good_op] in Hg.
    unfold answers. pose proof (Hsame (Accumulate rm' t)) as Hs. unfold answers in Hs. cbn [run] in *. unfold accumulate in *.
    destruct (tl_events t) as [|r0 st0] eqn:Est; [by apply Hs|]. rewrite <-Est in Hg. clear r0 st0 Est.
    destruct (acc_txn redact rm' t d) as [[res|b] d'] eqn:E; [|by apply Hs]. cbn [snd] in *.
    apply acc_rel in E as [(H1 & H2 & H3)|(new & c & Hnew & Hne & _ & Hrows & Hsp & Hin)]; [by apply Hs|..|done].
    assert (Hcols : map (fun e => (e_nid e, mcols e)) (d_events d') = map (fun e => (e_nid e, mcols e)) (d_events d ++ new)).
    { apply (f_equal (map (fun e => (e_nid e, mcols e)))) in Hrows. rewrite !map_map in Hrows.
      etransitivity; [exact Hrows|]. apply map_ext. intros e. by destruct (_ !! e_id e). }
    assert (Hadd : map mcols (added d d') = map mcols new).
    { unfold added. rewrite (filter_cols _ _ _ Hcols), List.filter_app, (added_nil d) by done. f_equal. apply added_all.
      by apply (numbered_gt _ _ _ Hnew). }
    assert (Hne' : added d d' <> []) by (intros H0; rewrite H0 in Hadd; by destruct new).
    rewrite Hin.
    destruct (supersede_lookup d rm' (map flag_state new) u rm) as [(-> & Hf & Hl)|[Hf Hl]].
    + left. split; [|done]. split; [done|]. split; [done|]. eapply final_cols; [exact Hadd|].
      eapply final_cols; [|exact Hf]. rewrite map_map. done.
    + right. split; [|done]. intros (_ & -> & Hx). apply Hf. split; [done|]. eapply final_cols; [|eapply final_cols; [|exact Hx]].
      * rewrite map_map. reflexivity.
      * by rewrite Hadd.
  - right. right. split; [done|]. split; [done|]. by apply Hsame.
  - destruct (decide ((u', rm') = (u, rm))) as [[= -> ->]|Hne].
    + left. exists i. split; [done|]. cbn. by rewrite lookup_insert.
    + right. right. split; [intros i' [= -> -> ->]; done|]. split; [done|]. right. split; [by intros [_ ?]|]. cbn. by rewrite lookup_insert_ne.
  - destruct (decide ((u', rm') = (u, rm))) as [[= -> ->]|Hne].
    + right. left. split; [done|]. cbn. by rewrite lookup_delete.
    + right. right. split; [done|]. split; [intros [= -> ->]; done|]. right. split; [by intros [_ ?]|]. cbn. by rewrite lookup_delete_ne.
Qed.
Lemma runs_app ops ops' d : runs ord redact (ops ++ ops') d = runs ord redact ops' (runs ord redact ops d).
Proof. apply fold_left_app. Qed.
End Ops.
