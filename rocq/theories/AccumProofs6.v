(** What the invariant says in the words of the specification. *)
From Verif Require Import Prelude AccumModel AccumSpec AccumProofs AccumProofs2 AccumProofs3 AccumProofs4 AccumProofs5.
Open Scope string_scope.
Open Scope list_scope.
Open Scope Z_scope.

Lemma latest_newest d rm e : base d -> latest_state (d_events d) rm e <-> newest (d_events d) rm (d_seq d) e.
Proof.
  intros Hb. unfold latest_state, newest. split.
  - intros (H1 & H2 & H3 & H4). repeat split; try done; [|intros; by apply H4].
    apply (bs_nid _ Hb e H1).
  - intros (H1 & H2 & H3 & _ & H4). repeat split; try done. intros x Hx Hr Hs Hk. apply H4; try done.
    apply (bs_nid _ Hb x Hx).
Qed.

Lemma current_state_ok k d rm e : Inv k d -> e ∈ d_events d -> e_room e = rm -> state_row e ->
  exists m s, d_rooms d !! rm = Some m /\ d_snaps d !! rm_snap m = Some s /\
    NoDup (snap_nids s) /\
    forall n, n ∈ snap_nids s <-> exists x, latest_state (d_events d) rm x /\ e_nid x = n.
Proof.
  intros Hi He Hr Hs. destruct (d_rooms d !! rm) as [m|] eqn:Em.
  2:{ destruct (iv_noroom _ _ Hi _ Em) as [H _]. by destruct (H e He). }
  destruct (iv_room _ _ Hi _ _ Em) as [[[_ Hn]|(_ & s & Hsn & Hh)] _ _ _ _].
  { specialize (Hn e He Hr Hs). pose proof (bs_nid _ (iv_base _ _ Hi) e He). lia. }
  exists m, s. split; [done|]. split; [done|]. split; [apply Hh|]. intros n.
  unfold snap_nids. rewrite (holds_elem _ _ _ _ n Hh). split; intros (x & Hx & Hn); exists x; split; try done.
  - by apply (latest_newest d rm x (iv_base _ _ Hi)).
  - by apply (latest_newest d rm x (iv_base _ _ Hi)).
Qed.

(** * Timelines *)
Lemma ensure_valid rm b r : (exists e, ensure_fields rm b r = Some e) <-> valid_rawb r = true.
Proof.
  unfold ensure_fields, valid_rawb. destruct (String.eqb (r_id r) ""); cbn; [split; [intros [? ?]; done|done]|].
  destruct (r_type r) as [ty|]; cbn; [|split; [intros [? ?]; done|done]].
  destruct (r_skey r) as [sk|]; cbn.
  - rewrite (andb_comm (String.eqb ty "m.room.member")).
    destruct (negb (String.eqb sk "") && String.eqb ty "m.room.member"); cbn; [|split; [done|eauto]].
    destruct (String.eqb (r_mship r) ""); cbn; split; try done; [intros [? ?]; done|eauto].
  - rewrite andb_false_r. cbn. split; [done|eauto].
Qed.

Lemma dedup_ids rm prev l : forall first seen seen', (forall x, x ∈ seen <-> x ∈ seen') ->
  map e_id (dedup rm prev first seen l) = once seen' (map r_id (List.filter valid_rawb l)).
Proof.
  induction l as [|r l IH]; intros first seen seen' Hse; cbn [dedup List.filter]; [done|].
  destruct (ensure_fields rm false r) as [e|] eqn:Ee.
  - assert (valid_rawb r = true) as -> by (apply (ensure_valid rm false); eauto). cbn.
    assert (e_id e = r_id r) as Hid.
    { revert Ee. unfold ensure_fields. destruct (String.eqb (r_id r) ""); [done|]. destruct (r_type r); [|done].
      destruct (_ && _); [destruct (String.eqb _ "")|]; intros [= <-] || done; done. }
    destruct (existsb (String.eqb (e_id e)) seen) eqn:Ex.
    + apply existsb_str in Ex. rewrite bool_decide_eq_true_2; [|by apply Hse; rewrite <-Hid]. by apply IH.
    + rewrite bool_decide_eq_false_2.
      2:{ intros Hin. apply Hse in Hin. rewrite <-Hid in Hin. apply existsb_str in Hin. congruence. }
      cbn [map]. f_equal.
      * by destruct (_ && _).
      * apply IH. intros x. rewrite Hid, !elem_of_cons, Hse. done.
  - assert (valid_rawb r = false) as ->; [|by apply IH].
    destruct (valid_rawb r) eqn:Ev; [|done]. apply (ensure_valid rm false) in Ev as [e He]. congruence.
Qed.

Lemma known_ids rows id : known rows id = true <-> id ∈ map e_id rows.
Proof.
  unfold known. rewrite existsb_exists. rewrite elem_of_list_fmap. split.
  - intros (e & He & Hid). apply String.eqb_eq in Hid. exists e. split; [done|by apply elem_of_list_In].
  - intros (e & -> & He). exists e. split; [by apply elem_of_list_In|apply String.eqb_refl].
Qed.

Lemma after_known_spec rows l : after_known (map e_id rows) (map e_id l) (map e_id (after_last_known rows l)).
Proof.
  destruct (after_suffix rows l) as (pre & Heq & Hun & Hpre). exists (map e_id pre). split.
  - by rewrite <-map_app, <-Heq.
  - split.
    + intros x Hx Hk. apply elem_of_list_fmap in Hx as (e & -> & He). apply known_ids in Hk.
      rewrite (Hun e He) in Hk. done.
    + destruct Hpre as [-> |(x & pre' & -> & Hk)]; [by left|]. right. exists (map e_id pre'), (e_id x).
      split; [by rewrite map_app|]. by apply known_ids.
Qed.

Lemma after_known_unique known ids s1 s2 : after_known known ids s1 -> after_known known ids s2 -> s1 = s2.
Proof.
  intros (p1 & E1 & H1 & L1) (p2 & E2 & H2 & L2). subst ids.
  assert (Hgen : forall (p1 p2 s1 s2 : list string), p1 ++ s1 = p2 ++ s2 -> (forall x, x ∈ s1 -> x ∉ known) ->
    (p2 = [] \/ exists p x, p2 = p ++ [x] /\ x ∈ known) -> exists r, p1 = p2 ++ r /\ s2 = r ++ s1).
  { clear. intros p1. induction p1 as [|a p1 IH]; intros p2 s1 s2 Heq Hs1 Hl.
    - destruct Hl as [-> |(p & x & -> & Hx)]; [exists []; done|]. exfalso. cbn in Heq. apply (Hs1 x); [|done].
      rewrite Heq. rewrite !elem_of_app. left. right. apply elem_of_list_here.
    - destruct p2 as [|b p2].
      + cbn in Heq. exists (a :: p1). done.
      + cbn in Heq. injection Heq as -> Heq. destruct (IH p2 s1 s2 Heq Hs1) as (r & Hr1 & Hr2).
        { destruct Hl as [|(p & x & Hp & Hx)]; [done|]. destruct p as [|c p].
          - cbn in Hp. injection Hp as _ ->. by left.
          - cbn in Hp. injection Hp as _ ->. right. eauto. }
        exists r. split; [by rewrite Hr1|done]. }
  destruct (Hgen p1 p2 s1 s2 E2 H1 L2) as (r & Hr1 & Hr2).
  destruct (Hgen p2 p1 s2 s1 (eq_sym E2) H2 L1) as (r' & Hr1' & Hr2').
  rewrite Hr1' in Hr1. rewrite <-app_assoc in Hr1.
  assert (r' ++ r = []) as Hnil.
  { apply (app_inv_head p1). by rewrite app_nil_r. }
  apply app_eq_nil in Hnil as [_ ->]. by cbn in Hr2.
Qed.


(** * Facts which hold for every input *)
Record base0 (d : db) : Prop := {
  b0_sorted : sorted (d_events d);
  b0_ids : NoDup (map e_id (d_events d));
  b0_nid : forall e, e ∈ d_events d -> 0 < e_nid e <= d_seq d;
  b0_seq : 0 <= d_seq d
}.
Lemma base_base0 d : base d -> base0 d.
Proof. by intros [? ? ? ? _]. Qed.
Lemma empty_base0 : base0 empty_db.
Proof. apply base_base0, (iv_base true), empty_inv. Qed.

Lemma insert_grow l : forall d d1 m, base0 d -> insert d l = (d1, m) ->
  base0 d1 /\ d_seq d <= d_seq d1 /\ exists ext, d_events d1 = d_events d ++ ext.
Proof.
  induction l as [|e l IH]; intros d d1 m Hb Hins; cbn [insert] in Hins.
  { injection Hins as <- <-. split; [done|]. split; [lia|]. exists []. by rewrite app_nil_r. }
  destruct Hb as [H1 H2 H3 H4].
  destruct (known (d_events d) (e_id e)) eqn:Ek.
  - assert (Hb : base0 (set_seq (d_seq d + 1) d)).
    { split; cbn; [done|done|intros x Hx; specialize (H3 x Hx); lia|lia]. }
    destruct (IH _ _ _ Hb Hins) as (Hb1 & Hq & Hx).
    split; [done|]. cbn in Hq, Hx. split; [lia|done].
  - destruct (insert _ l) as [d' m'] eqn:E. injection Hins as <- <-.
    assert (Hb : base0 (set_seq (d_seq d + 1) (set_events (d_events d ++ [set_nid (d_seq d + 1) e]) d))).
    { split; cbn; [| | |lia].
      - apply sorted_app; [done|repeat constructor|].
        intros a c Ha Hc. apply elem_of_list_singleton in Hc as ->. specialize (H3 a Ha). cbn. lia.
      - rewrite map_app. apply NoDup_app. split; [done|]. split; [|apply NoDup_singleton].
        intros x Hx Hx2. apply elem_of_list_singleton in Hx2 as ->. apply known_false in Ek. done.
      - intros x Hx. apply elem_of_app in Hx as [Hx|Hx].
        + specialize (H3 x Hx). lia.
        + apply elem_of_list_singleton in Hx as ->. cbn. lia. }
    destruct (IH _ _ _ Hb E) as (Hb1 & Hq & ext & Hx).
    split; [done|]. cbn in Hq, Hx. split; [lia|]. exists (set_nid (d_seq d + 1) e :: ext).
    by rewrite Hx, <-app_assoc.
Qed.

Lemma insert0 d l d1 m : base0 d -> NoDup (map e_id l) -> insert d l = (d1, m) ->
  exists new, numbered (d_seq d) (fresh (d_events d) l) new /\
    d1 = set_seq (d_seq d + Z.of_nat (length l)) (set_events (d_events d ++ new) d) /\
    size m = length new /\ base0 d1 /\
    (forall id n, m !! id = Some n <-> exists e, e ∈ new /\ e_id e = id /\ e_nid e = n).
Proof.
  intros Hb Hnd Hins. destruct (insert_spec _ _ _ _ Hnd Hins) as (new & Hnum & Hd & _ & Hm & Hsz).
  exists new. split; [done|]. split; [done|]. split; [done|]. split; [|done].
  by destruct (insert_grow _ _ _ _ Hb Hins).
Qed.

Lemma roll_strip rm l : forall d sid o d', roll rm d sid l = (o, d') ->
  map (set_before 0 0) (d_events d') = map (set_before 0 0) (d_events d) /\ d_seq d' = d_seq d.
Proof.
  induction l as [|e l IH]; intros d sid o d' H; cbn [roll] in H; [by injection H as _ <-|].
  destruct (e_isstate e).
  - destruct (if _ : bool then _ else _) as [old|b]; [|by injection H as _ <-].
    destruct (calc_snapshot old e) as [[new rep]|]; [|by injection H as _ <-].
    unfold insert_snap in H. apply IH in H as [H Hq]. rewrite H, Hq. split; [|done].
    etransitivity; [apply update_rows|done].
  - apply IH in H as [H Hq]. rewrite H, Hq. split; [apply update_rows|done].
Qed.

Lemma base0_strip d d' : map strip (d_events d') = map strip (d_events d) -> d_seq d' = d_seq d -> base0 d -> base0 d'.
Proof.
  intros Hst Hq [B1 B2 B3 B4].
  assert (Hn : map e_nid (d_events d') = map e_nid (d_events d)).
  { apply (f_equal (map e_nid)) in Hst. by rewrite !map_map in Hst. }
  assert (Hid : map e_id (d_events d') = map e_id (d_events d)).
  { apply (f_equal (map e_id)) in Hst. by rewrite !map_map in Hst. }
  split; rewrite ?Hq, ?Hid; try done.
  - unfold sorted, nids in *. by rewrite Hn.
  - intros e He. assert (e_nid e ∈ map e_nid (d_events d)) as Hin.
    { rewrite <-Hn. apply elem_of_list_fmap. eauto. }
    apply elem_of_list_fmap in Hin as (y & -> & Hy). by apply B3.
Qed.

Lemma dedup_once rm prev l : forall first seen,
  NoDup (map e_id (dedup rm prev first seen l)) /\
  (forall e, e ∈ dedup rm prev first seen l -> e_id e ∉ seen /\ e_room e = rm).
Proof.
  induction l as [|r l IH]; intros first seen; cbn [dedup].
  { split; [constructor|]. intros e He. by apply elem_of_nil in He. }
  destruct (ensure_fields rm false r) as [e|] eqn:Ee; [|by apply IH].
  destruct (existsb (String.eqb (e_id e)) seen) eqn:Es; [by apply IH|].
  destruct (IH false (e_id e :: seen)) as (H2 & H3).
  set (e' := if _ : bool then _ else _).
  assert (He' : e_id e' = e_id e /\ e_room e' = rm).
  { assert (e_room e = rm).
    { revert Ee. clear. unfold ensure_fields. destruct (String.eqb (r_id r) ""); [done|]. destruct (r_type r); [|done].
      destruct (_ && _); [destruct (String.eqb _ ""); [done|]|]; intros [= <-]; done. }
    unfold e'. by destruct (_ && _). }
  destruct He' as [Hid Hrm]. clearbody e'. split.
  - cbn. apply NoDup_cons. split; [|done]. intros Hin. apply elem_of_list_fmap in Hin as (x & Hx & Hin).
    apply (H3 x Hin). rewrite <-Hx, Hid. apply elem_of_list_here.
  - intros x Hx. apply elem_of_cons in Hx as [-> |Hx].
    + split; [|done]. rewrite Hid. intros Hin. apply existsb_str in Hin. congruence.
    + destruct (H3 x Hx) as [H4 H5]. split; [|done]. intros Hin. apply H4. by apply elem_of_list_further.
Qed.

Lemma news_ok0 rm t rows :
  let inc := dedup rm (tl_prev t) true [] (tl_events t) in
  let news := mark_gap (tl_limited t) inc (filter_new rows inc) in
  NoDup (map e_id news) /\ (forall e, e ∈ news -> e_room e = rm).
Proof.
  intros inc news. destruct (dedup_once rm (tl_prev t) (tl_events t) true []) as (H2 & H3).
  fold inc in H2, H3. destruct (filter_new_sub rows inc) as (pre & Heq). split.
  - unfold news. rewrite mark_gap_ids. rewrite Heq, map_app in H2. by apply NoDup_app in H2 as (_ & _ & H2).
  - intros e He. assert (e_room e ∈ map e_room (filter_new rows inc)) as Hin.
    { assert (map e_room news = map e_room (filter_new rows inc)) as <-.
      { unfold news, mark_gap. destruct (filter_new rows inc) as [|x l], inc as [|i inc']; try done. by destruct (_ && _). }
      apply elem_of_list_fmap. eauto. }
    apply elem_of_list_fmap in Hin as (y & -> & Hy). apply H3. rewrite Heq. apply elem_of_app. by right.
Qed.

Section Ops.
Context (ord : list Z -> list Z) (redact : raw -> raw -> raw -> raw).
Hypothesis Hord : ord_ok ord.
Hypothesis Hred : redact_ok redact.

Lemma acc_txn0 rm t d : base0 d ->
  match acc_txn redact rm t d with
  | (Ok r, d') => base0 d' /\ d_seq d <= d_seq d' /\
    ((same_tables d d' /\ r = AccResult 0 [] false) \/
     exists new, new_rows rm t d new /\ new <> [] /\
       map strip (d_events d') = map strip (d_events d ++ new) /\
       (current_snap d rm = 0 -> exists e new', new = e :: new' /\ is_create e = true) /\
       (exists c, map (set_before 0 0) (d_events d') =
          map (fun e => set_before 0 0 (match redactions (map flag_state new) !! e_id e with
               Some b => set_json (redact c b (e_json e)) e | None => e end)) (d_events d ++ new)) /\
       ar_new r = Z.of_nat (length new) /\ ar_nids r = map e_nid new)
  | (Fail _, d') => d_seq d <= d_seq d'
  end.
Proof.
  intros Hb. unfold acc_txn, new_rows.
  destruct (news_ok0 rm t (d_events d)) as [Hndi _].
  set (inc := dedup rm (tl_prev t) true [] (tl_events t)) in *.
  pose proof (news_shape (tl_limited t) inc (d_events d)) as Hshape. cbn in Hshape.
  remember (mark_gap (tl_limited t) inc (filter_new (d_events d) inc)) as news eqn:Enews.
  assert (Hsame : base0 d /\ d_seq d <= d_seq d) by (split; [done|lia]).
  clear Enews.
  destruct news as [|first news'] eqn:En; [split; [done|]; split; [lia|]; by left|]. rewrite <-En in *.
  destruct ((current_snap d rm =? 0) && negb (is_create first)) eqn:Eg; [split; [done|]; split; [lia|]; by left|].
  destruct (insert d news) as [d1 m] eqn:Eins.
  destruct (insert0 d news d1 m Hb Hndi Eins) as (new & Hnum & Hd1 & Hsz & Hb1 & Hm).
  assert (Hq1 : d_seq d <= d_seq d1) by (rewrite Hd1; cbn; lia).
  destruct (Nat.eqb_spec (size m) 0) as [Hz|Hz].
  { assert (new = []) as -> by (destruct new; [done|cbn in Hsz; lia]).
    split; [done|]. split; [done|]. left. split; [|done]. rewrite Hd1. unfold same_tables. cbn. by rewrite app_nil_r. }
  assert (Hpost : post_insert m news = map flag_state new).
  { unfold post_insert. etransitivity; [|apply (omap_rows flag_state m news (d_events d) new (d_seq d)); done].
    apply list_omap_ext. apply Forall2_same_length_lookup_2; [done|]. intros i x y Hx Hy.
    assert (x = y) as -> by congruence. destruct (m !! e_id y); done. }
  rewrite Hpost. clear Hpost.
  destruct (redact_step redact d1 rm (redactions (map flag_state new))) as [d2|] eqn:Ered; [|done].
  destruct (redact_step_spec redact Hred _ _ _ _ Ered) as (_ & Hst2 & _ & Hq2 & _ & _ & _).
  destruct (redact_step_rows redact _ _ _ _ Ered) as (c & Hc).
  destruct (roll rm d2 (current_snap d rm) (map flag_state new)) as [[sid|b] d3] eqn:Er;
    apply roll_strip in Er as [Hr3 Hq3]; [|lia].
  assert (Hne : new <> []) by (intros ->; done).
  set (d5 := upsert_room _ _ _ _ _).
  assert (He5 : d_events d5 = d_events d3) by done.
  assert (Hq5 : d_seq d5 = d_seq d1) by (rewrite <-Hq2, <-Hq3; done).
  assert (Hst : map strip (d_events d5) = map strip (d_events d1)).
  { rewrite He5, (strip_set_before _ _ Hr3). done. }
  split; [by apply (base0_strip d1)|]. split; [lia|]. right. exists new.
  split; [done|]. split; [done|]. split; [by rewrite Hst, Hd1|]. split; [|split].
  - intros H0. rewrite H0 in Eg. cbn in Eg. apply negb_false_iff in Eg.
    destruct Hshape as [Hfr|Hfr].
    { rewrite Hfr in Hnum. apply numbered_ids in Hnum. destruct new; [done|]. cbn in Hnum. done. }
    rewrite Hfr, En in Hnum. apply numbered_nonid in Hnum.
    destruct new as [|e new']; [done|].
    exists e, new'. split; [done|]. unfold is_create in *.
    apply (f_equal (fun l => match l with z :: _ => (e_type z, e_skey z) | [] => ("", "") end)) in Hnum.
    cbn in Hnum. injection Hnum as -> ->. done.
  - exists c. rewrite He5, Hr3, Hc, Hd1, map_map. done.
  - cbn. rewrite Hsz, map_map. done.
Qed.

Definition positions (l : list event) : list (Z * string) := map (fun e => (e_nid e, e_id e)) l.

(** Everything a successful call does to the table of events. *)
Lemma accumulate_rows rm t d r d' : base0 d ->
  accumulate redact rm t d = (Ok r, d') ->
  (same_tables d d' /\ r = AccResult 0 [] false) \/
  exists new, new <> [] /\ after_known (map e_id (d_events d)) (timeline_ids t) (map e_id new) /\
    positions (d_events d') = positions (d_events d) ++ positions new /\
    map strip (d_events d') = map strip (d_events d ++ new) /\
    (forall e, e ∈ new -> e_room e = rm /\ d_seq d < e_nid e) /\
    map e_missing new = match map e_id new with
                        | [] => []
                        | _ :: l => (tl_limited t && bool_decide (map e_id new = timeline_ids t))
                                      :: map (fun _ => false) l
                        end /\
    ar_new r = Z.of_nat (length new) /\ ar_nids r = map e_nid new /\
    (current_snap d rm = 0 -> exists e new', new = e :: new' /\ is_create e = true) /\
    (exists c, map (set_before 0 0) (d_events d') =
        map (fun e => set_before 0 0 (match redactions (map flag_state new) !! e_id e with
               Some b => set_json (redact c b (e_json e)) e | None => e end)) (d_events d ++ new)) /\
    map e_json new = map e_json (after_last_known (d_events d) (dedup rm (tl_prev t) true [] (tl_events t))).
Proof.
  intros Hb H. unfold accumulate in H. destruct (tl_events t) as [|r0 l0] eqn:Et.
  { injection H as <- <-. left. done. }
  rewrite <-Et. pose proof (acc_txn0 rm t d Hb) as Hok.
  destruct (acc_txn redact rm t d) as [[r1|b] d1]; [|done]. injection H as -> ->.
  destruct Hok as (_ & _ & [Hs|(new & Hnew & Hne & Hstrip & Hcr & Hjs & Hn1 & Hn2)]); [by left|].
  right. exists new. split; [done|]. unfold new_rows in Hnew.
  destruct (news_ok0 rm t (d_events d)) as [Hnd Hrm].
  set (inc := dedup rm (tl_prev t) true [] (tl_events t)) in *.
  set (news := mark_gap (tl_limited t) inc (filter_new (d_events d) inc)) in *.
  assert (Hids : map e_id inc = timeline_ids t) by (by apply dedup_ids).
  assert (Hfresh : fresh (d_events d) news = news).
  { destruct (news_shape (tl_limited t) inc (d_events d)) as [Hf|Hf]; fold news in Hf; [|done].
    rewrite Hf in Hnew. apply numbered_ids in Hnew. by destruct new. }
  pose proof (numbered_ids _ _ _ Hnew) as Hnid.
  assert (Hfi : map e_id (fresh (d_events d) news) = map e_id (after_last_known (d_events d) inc)).
  { rewrite <-filter_new_fresh. unfold fresh.
    assert (Hmg : forall (a b : list event), map e_id a = map e_id b ->
      map e_id (List.filter (fun e => negb (known (d_events d) (e_id e))) a) =
      map e_id (List.filter (fun e => negb (known (d_events d) (e_id e))) b)).
    { intros a. induction a as [|x a IH]; intros [|y b] Hab; try done. cbn in Hab. injection Hab as Hxy Hab.
      cbn. rewrite Hxy. destruct (negb _); cbn; [f_equal; [done|by apply IH]|by apply IH]. }
    apply Hmg. apply mark_gap_ids. }
  assert (Hak : after_known (map e_id (d_events d)) (timeline_ids t) (map e_id new)).
  { rewrite Hnid, Hfi, <-Hids. apply after_known_spec. }
  split; [done|]. split; [|split; [done|split; [|split]]].
  - unfold positions. apply (f_equal (map (fun e => (e_nid e, e_id e)))) in Hstrip. rewrite !map_map in Hstrip.
    cbn in Hstrip. by rewrite Hstrip, map_app.
  - intros e He. split; [|by apply (numbered_gt _ _ _ Hnew)].
    rewrite Hfresh in Hnew. apply numbered_nonid in Hnew. apply (f_equal (map e_room)) in Hnew.
    rewrite !map_map in Hnew.
    assert (e_room e ∈ map e_room news) as Hin.
    { change (e_room e ∈ map (fun x => e_room (set_nid 0 x)) news). rewrite <-Hnew. apply elem_of_list_fmap. eauto. }
    apply elem_of_list_fmap in Hin as (y & -> & Hy). by apply Hrm.
  - rewrite Hfresh in Hnew, Hnid. 
    assert (Hmiss : map e_missing new = map e_missing news).
    { apply numbered_nonid in Hnew. apply (f_equal (map e_missing)) in Hnew. by rewrite !map_map in Hnew. }
    rewrite Hmiss, Hnid, <-Hids.
    assert (Hinc0 : forall e, e ∈ inc -> e_missing e = false).
    { clear. unfold inc. generalize true ([] : list string). induction (tl_events t) as [|x l IH]; intros fst seen e He; cbn in He.
      { by apply elem_of_nil in He. }
      destruct (ensure_fields rm false x) as [y|] eqn:Ey; [|by eapply IH].
      destruct (existsb _ seen); [by eapply IH|]. apply elem_of_cons in He as [-> |He]; [|by eapply IH].
      assert (e_missing y = false) as Hy.
      { revert Ey. unfold ensure_fields. destruct (String.eqb (r_id x) ""); [done|]. destruct (r_type x); [|done].
        destruct (_ && _); [destruct (String.eqb _ "")|]; intros [= <-] || done; done. }
      by destruct (_ && _). }
    destruct (filter_new_sub (d_events d) inc) as (pre & Hpre).
    assert (Hndi : NoDup (map e_id inc)) by apply (dedup_once rm (tl_prev t) (tl_events t) true []).
    revert Hpre Hnid. unfold news, mark_gap. destruct (filter_new (d_events d) inc) as [|e l] eqn:Ef.
    { intros _ Hx. by destruct new. }
    intros Hpre Hnid. destruct inc as [|i inc'] eqn:Einc; [by destruct pre|].
    assert (Hl : forall x, x ∈ e :: l -> e_missing x = false).
    { intros x Hx. apply Hinc0. rewrite Hpre. apply elem_of_app. by right. }
    assert (Hlf : map e_missing l = map (fun _ => false) (map e_id l)).
    { rewrite map_map. apply map_ext_in. intros x Hx. apply Hl. apply elem_of_list_further. by apply elem_of_list_In. }
    destruct (String.eqb_spec (e_id e) (e_id i)) as [Hei|Hei].
    + assert (pre = []) as ->.
      { destruct pre as [|p pre]; [done|exfalso]. cbn in Hpre. injection Hpre as -> Hpre.
        cbn in Hndi. apply NoDup_cons in Hndi as [Hni _]. apply Hni. rewrite Hpre, map_app, <-Hei. cbn.
        apply elem_of_app. right. apply elem_of_list_here. }
      cbn in Hpre. injection Hpre as <- <-. rewrite andb_true_r. destruct (tl_limited t); cbn.
      * rewrite bool_decide_eq_true_2 by done. by rewrite Hlf.
      * by rewrite Hlf, (Hl i) by apply elem_of_list_here.
    + rewrite andb_false_r. cbn. rewrite bool_decide_eq_false_2.
      * rewrite andb_false_r, Hlf, (Hl e) by apply elem_of_list_here. done.
      * intros Heq. cbn in Heq. by injection Heq.
  - split; [done|]. split; [done|]. split; [done|]. split; [done|].
    apply numbered_nonid in Hnew. apply (f_equal (map e_json)) in Hnew. rewrite !map_map in Hnew.
    rewrite Hfresh in Hnew. etransitivity; [exact Hnew|]. rewrite <-filter_new_fresh.
    transitivity (map e_json (filter_new (d_events d) inc)).
    + unfold news, mark_gap. destruct (filter_new _ inc) as [|e l]; [done|]. destruct inc as [|i inc']; [done|].
      by destruct (_ && _).
    + f_equal. symmetry. clear -Hfresh. unfold news, mark_gap in Hfresh.
      destruct (filter_new _ inc) as [|e l]; [done|]. destruct inc as [|i inc']; [done|].
      destruct (_ && _); [|done]. unfold fresh in *. cbn in *. destruct (negb _).
      * injection Hfresh as H. by rewrite H.
      * exfalso. apply (f_equal length) in Hfresh. cbn in Hfresh.
        assert (Hlen : (length (List.filter (fun e => negb (known (d_events d) (e_id e))) l) <= length l)%nat)
          by (clear; induction l as [|x l IH]; cbn; [lia|destruct (negb _); cbn; lia]).
        lia.
Qed.

(** Content changes only by redactions in the timeline, and they always do it. *)
Lemma redactions_lookup (l : list event) (id : string) (b : raw) : forall m0 : gmap string raw,
  (fold_left (fun m e =>
    if negb (e_isstate e) && String.eqb (e_type e) "m.room.redaction"
       && negb (String.eqb (r_redacts (e_json e)) "")
    then <[r_redacts (e_json e) := e_json e]> m else m) l m0) !! id = Some b ->
  m0 !! id = Some b \/ exists e, e ∈ l /\ e_json e = b /\ r_redacts b = id /\ e_type e = "m.room.redaction" /\
    e_isstate e = false /\ id <> "".
Proof.
  induction l as [|e l IH]; intros m0 H; cbn in H; [by left|].
  apply IH in H as [H|(x & Hx & H)]; [|right; exists x; split; [by apply elem_of_list_further|done]].
  destruct (negb (e_isstate e) && _ && _) eqn:E; [|by left].
  apply andb_true_iff in E as [E E3]. apply andb_true_iff in E as [E1 E2].
  destruct (decide (r_redacts (e_json e) = id)) as [<-|Hne].
  - rewrite lookup_insert in H. injection H as <-. right. exists e. split; [apply elem_of_list_here|].
    apply String.eqb_eq in E2. apply negb_true_iff, String.eqb_neq in E3. apply negb_true_iff in E1. done.
  - rewrite lookup_insert_ne in H by done. by left.
Qed.
Lemma redactions_none (l : list event) (id : string) : forall m0 : gmap string raw, (forall e, e ∈ l -> e_isstate e = false -> e_type e = "m.room.redaction" ->
    r_redacts (e_json e) <> id) ->
  m0 !! id = None ->
  (fold_left (fun m e =>
    if negb (e_isstate e) && String.eqb (e_type e) "m.room.redaction"
       && negb (String.eqb (r_redacts (e_json e)) "")
    then <[r_redacts (e_json e) := e_json e]> m else m) l m0) !! id = None.
Proof.
  induction l as [|e l IH]; intros m0 H H0; cbn; [done|]. apply IH.
  - intros x Hx. apply H. by apply elem_of_list_further.
  - destruct (negb (e_isstate e) && _ && _) eqn:E; [|done].
    apply andb_true_iff in E as [E E3]. apply andb_true_iff in E as [E1 E2].
    rewrite lookup_insert_ne; [done|]. apply H; [apply elem_of_list_here|by apply negb_true_iff|by apply String.eqb_eq].
Qed.

Lemma dedup_json rm prev l : forall first seen e, e ∈ dedup rm prev first seen l ->
  e_json e ∈ l /\ e_isstate e = false /\ e_id e = r_id (e_json e) /\ r_type (e_json e) = Some (e_type e).
Proof.
  induction l as [|x l IH]; intros fst seen e He; cbn in He; [by apply elem_of_nil in He|].
  assert (Hrec : forall fst seen, e ∈ dedup rm prev fst seen l -> e_json e ∈ x :: l /\ e_isstate e = false /\
    e_id e = r_id (e_json e) /\ r_type (e_json e) = Some (e_type e)).
  { intros f2 s2 H. destruct (IH _ _ _ H) as [H1 H2]. split; [by apply elem_of_list_further|done]. }
  destruct (ensure_fields rm false x) as [y|] eqn:Ey; [|by eapply Hrec].
  destruct (existsb _ seen); [by eapply Hrec|]. apply elem_of_cons in He as [-> |He]; [|by eapply Hrec].
  assert (e_json y = x /\ e_isstate y = false /\ e_id y = r_id x /\ r_type x = Some (e_type y)) as (H1 & H2 & H3 & H4).
  { revert Ey. unfold ensure_fields. destruct (String.eqb (r_id x) ""); [done|]. destruct (r_type x) as [ty|]; [|done].
    clear. destruct (_ && _); [destruct (String.eqb (r_mship x) ""); [done|]|]; intros [= <-]; repeat split. }
  destruct (_ && _); cbn; rewrite ?H1; (split; [apply elem_of_list_here|done]).
Qed.

Lemma accumulate_content k rm t d r d' x : Inv k d -> Forall good_raw (tl_events t) ->
  accumulate redact rm t d = (Ok r, d') -> x ∈ d_events d ->
  exists x', x' ∈ d_events d' /\ e_nid x' = e_nid x /\ e_id x' = e_id x /\
    (e_json x' = e_json x \/
     exists c b, e_json x' = redact c b (e_json x) /\ b ∈ tl_events t /\ r_type b = Some "m.room.redaction" /\
       r_skey b = None /\ r_redacts b = e_id x).
Proof.
  intros Hi Hg Hacc Hx.
  destruct (accumulate_rows rm t d r d' (base_base0 _ (iv_base _ _ Hi)) Hacc)
    as [[(He & _) _]|(new & _ & _ & _ & _ & Hroom & _ & _ & _ & _ & (c & Hjs) & Hnj)].
  { exists x. rewrite He. auto. }
  set (g := fun e : event => match redactions (map flag_state new) !! e_id e with
                     Some b => set_json (redact c b (e_json e)) e | None => e end) in Hjs.
  assert (Hin : set_before 0 0 (g x) ∈ map (set_before 0 0) (d_events d')).
  { rewrite Hjs. apply elem_of_list_fmap. exists x. split; [done|]. apply elem_of_app. by left. }
  apply elem_of_list_fmap in Hin as (x' & Hxx & Hx'). exists x'. split; [done|].
  assert (e_nid x' = e_nid (g x) /\ e_id x' = e_id (g x) /\ e_json x' = e_json (g x)) as (-> & -> & ->).
  { apply (f_equal (fun z => (e_nid z, e_id z, e_json z))) in Hxx. cbn in Hxx. injection Hxx as -> -> ->. done. }
  unfold g. destruct (redactions (map flag_state new) !! e_id x) as [b|] eqn:Eb; [|auto].
  split; [done|]. split; [done|]. right. exists c, b. split; [done|].
  apply redactions_lookup in Eb as [Eb|(e & He & Hej & Hr & Hty & Hst & _)]; [by rewrite lookup_empty in Eb|].
  apply elem_of_list_fmap in He as (z & -> & Hz). cbn in Hej, Hty, Hst.
  apply orb_false_iff in Hst as [_ Hk]. rewrite Hej in Hk. unfold has_key in Hk.
  assert (e_json z ∈ map e_json new) as Hzj by (apply elem_of_list_fmap; eauto). rewrite Hnj in Hzj.
  apply elem_of_list_fmap in Hzj as (y & Hy1 & Hy2).
  destruct (after_suffix (d_events d) (dedup rm (tl_prev t) true [] (tl_events t))) as (pre & Hpre & _).
  assert (y ∈ dedup rm (tl_prev t) true [] (tl_events t)) as Hy3 by (rewrite Hpre; apply elem_of_app; by right).
  destruct (dedup_json _ _ _ _ _ _ Hy3) as (H1 & H2 & H3 & H4).
  rewrite <-Hy1, Hej in H1, H4. split; [done|].
  assert (e_type z = e_type y) as Hzy.
  { assert (Hcz : cols_ok z \/ True) by auto. clear Hcz.
    destruct (run_inv ord redact Hord Hred k (Accumulate rm t) d Hi Hg) as [Hb _ _ _ _ _].
    cbn [run] in Hb. rewrite Hacc in Hb. cbn [snd] in Hb.
    assert (set_before 0 0 (g z) ∈ map (set_before 0 0) (d_events d')) as Hgz.
    { rewrite Hjs. apply elem_of_list_fmap. exists z. split; [done|]. apply elem_of_app. by right. }
    apply elem_of_list_fmap in Hgz as (z' & Hzz & Hz').
    destruct (bs_cols _ Hb z' Hz') as (_ & Hct & _).
    assert (e_type z' = e_type z /\ r_type (e_json z') = r_type (e_json z)) as [E1 E2].
    { apply (f_equal (fun q => (e_type q, r_type (e_json q)))) in Hzz. cbn in Hzz.
      assert (e_type (g z) = e_type z /\ r_type (e_json (g z)) = r_type (e_json z)) as [G1 G2].
      { unfold g. destruct (_ !! e_id z) as [b2|]; [|done]. cbn. split; [done|]. apply Hred. }
      rewrite G1, G2 in Hzz. injection Hzz as -> ->. done. }
    rewrite E1, E2, Hej, H4 in Hct. by injection Hct. }
  split; [congruence|]. split; [|done]. destruct (r_skey b); done.
Qed.

(** A timeline whose last acceptable event is known changes nothing. *)
Lemma after_last_nil rows l : (forall y, last l = Some y -> known rows (e_id y) = true) ->
  after_last_known rows l = [].
Proof.
  intros Hl. induction l as [|e l IH]; [done|]. cbn [after_last_known].
  assert (existsb (fun x => known rows (e_id x)) (e :: l) = true) as ->.
  { apply existsb_exists. destruct (last (e :: l)) as [y|] eqn:El.
    - exists y. split; [|by apply Hl]. apply elem_of_list_In. by apply last_Some_elem_of.
    - apply last_None in El. done. }
  destruct l as [|e2 l]; [done|]. apply IH.
  intros y Hy. apply Hl. done.
Qed.

Lemma acc_known rm t d id : base0 d ->
  last (timeline_ids t) = Some id -> id ∈ map e_id (d_events d) ->
  match accumulate redact rm t d with (Ok r, d') => same_tables d d' /\ r = AccResult 0 [] false | _ => False end.
Proof.
  intros Hb Hlast Hin. unfold accumulate. destruct (tl_events t) as [|r0 l0] eqn:Et; [done|].
  unfold acc_txn. rewrite Et. rewrite <-Et in *. clear Et.
  set (inc := dedup rm (tl_prev t) true [] (tl_events t)).
  assert (Hids : map e_id inc = timeline_ids t) by (by apply dedup_ids).
  assert (Hlk : forall y, last inc = Some y -> known (d_events d) (e_id y) = true).
  { intros y Hy. apply known_ids. rewrite <-Hids in Hlast.
    change (map e_id inc) with (e_id <$> inc) in Hlast. rewrite fmap_last, Hy in Hlast. cbn in Hlast.
    injection Hlast as ->. done. }
  assert (Hfr : fresh (d_events d) (mark_gap (tl_limited t) inc (filter_new (d_events d) inc)) = []).
  { assert (Hal : after_last_known (d_events d) inc = []).
    { by apply after_last_nil. }
    rewrite <-filter_new_fresh in Hal.
    unfold mark_gap. destruct (filter_new (d_events d) inc) as [|e l]; [done|]. destruct inc as [|i inc']; [done|].
    destruct (_ && _); [|done]. unfold fresh in *. cbn in *. destruct (negb _); [done|done]. }
  pose proof (news_ok0 rm t (d_events d)) as [Hnd _]. fold inc in Hnd.
  set (news := mark_gap (tl_limited t) inc (filter_new (d_events d) inc)) in *.
  destruct news as [|first news'] eqn:En; [done|]. rewrite <-En in *.
  destruct (_ && _); [done|]. destruct (insert d news) as [d1 m] eqn:Eins.
  destruct (insert0 d news d1 m Hb Hnd Eins) as (new & Hnum & Hd1 & Hsz & _).
  rewrite Hfr in Hnum. assert (new = []) as -> by (apply numbered_ids in Hnum; by destruct new).
  rewrite Hsz. cbn. split; [|done]. rewrite Hd1. unfold same_tables. cbn. by rewrite app_nil_r.
Qed.

Lemma after_known_last known ids s id : after_known known ids s -> last ids = Some id ->
  id ∈ known \/ id ∈ s.
Proof.
  intros (pre & -> & _ & Hpre) Hl. rewrite last_app in Hl. destruct (last s) as [y|] eqn:Es.
  - injection Hl as ->. right. by apply last_Some_elem_of.
  - destruct Hpre as [-> |(pre' & x & -> & Hx)]; [done|]. rewrite last_snoc in Hl. injection Hl as ->. by left.
Qed.

(** Events are never removed. *)
Lemma run_ids o d : base0 d -> base0 (run ord redact o d) /\
  exists new, map e_id (d_events (run ord redact o d)) = map e_id (d_events d) ++ new.
Proof.
  intros Hb.
  assert (Hroll : forall d' : db, d_seq d <= d_seq d' -> base0 (rollback d d') /\
     exists new, map e_id (d_events (rollback d d')) = map e_id (d_events d) ++ new).
  { intros d' Hq. destruct Hb as [H1 H2 H3 H4]. split.
    - split; cbn; try done; [|lia]. intros e He. specialize (H3 e He). lia.
    - exists []. cbn. by rewrite app_nil_r. }
  assert (Hsame : base0 d /\ exists new, map e_id (d_events d) = map e_id (d_events d) ++ new).
  { split; [done|]. exists []. by rewrite app_nil_r. }
  destruct o as [rm st|rm t|n|u rm i|u rm]; cbn [run];
    try (split; [by destruct Hb|exists []; cbn; by rewrite app_nil_r]).
  - unfold initialise. destruct st as [|r st]; [done|]. unfold init_txn.
    destruct (Nat.eqb _ 0); [apply Hroll; lia|].
    destruct (_ && _); [apply Hroll; lia|].
    destruct (insert d (filter_ensure rm (r :: st))) as [d1 m] eqn:Eins.
    destruct (insert_grow _ _ _ _ Hb Eins) as (Hb1 & Hq & ext & He).
    assert (Hgood : forall d', d_events d' = d_events d1 -> d_seq d' = d_seq d1 ->
      base0 d' /\ exists new, map e_id (d_events d') = map e_id (d_events d) ++ new).
    { intros d' He' Hq'. destruct Hb1 as [A1 A2 A3 A4]. split.
      - split; rewrite ?He', ?Hq'; done.
      - exists (map e_id ext). by rewrite He', He, map_app. }
    destruct (Nat.eqb _ 0); [by apply Hgood|].
    destruct (if _ : bool then _ else _) as [cur|b]; [|by apply Hroll].
    destruct (sm_nids _ _) as [mem oth]. unfold insert_snap. by apply Hgood.
  - pose proof (acc_txn0 rm t d Hb) as Hok. unfold accumulate. destruct (tl_events t) eqn:Et; [done|].
    destruct (acc_txn redact rm t d) as [[r'|b] d'] eqn:Ea; [|by apply Hroll]. cbn [snd].
    destruct Hok as (Hb' & Hq & [[(He & _) _]|(new & _ & _ & Hst & _)]).
    + split; [done|]. exists []. by rewrite He, app_nil_r.
    + split; [done|]. exists (map e_id new). apply (f_equal (map e_id)) in Hst.
      rewrite !map_map, map_app in Hst. exact Hst.
Qed.
Lemma runs_ids ops : forall d, base0 d -> base0 (runs ord redact ops d) /\
  exists new, map e_id (d_events (runs ord redact ops d)) = map e_id (d_events d) ++ new.
Proof.
  induction ops as [|o ops IH]; intros d Hb; cbn; [split; [done|]; exists []; by rewrite app_nil_r|].
  destruct (run_ids o d Hb) as (Hb1 & n1 & H1). destruct (IH (run ord redact o d) Hb1) as (Hb2 & n2 & H2).
  split; [done|]. exists (n1 ++ n2). unfold runs in H2. by rewrite H2, H1, app_assoc.
Qed.

Lemma run_accumulate rm t d r d' : accumulate redact rm t d = (Ok r, d') -> run ord redact (Accumulate rm t) d = d'.
Proof. cbn. by intros ->. Qed.

Lemma repeat_after rm t d r d1 ops : base0 d ->
  accumulate redact rm t d = (Ok r, d1) -> 0 < ar_new r ->
  let d2 := runs ord redact ops d1 in
  exists r' d3, accumulate redact rm t d2 = (Ok r', d3) /\ same_tables d2 d3 /\ ar_new r' = 0 /\ ar_nids r' = [].
Proof.
  intros Hb Hacc Hpos d2.
  destruct (accumulate_rows rm t d r d1 Hb Hacc) as [[_ ->]|(new & Hne & Hak & Hp & _)]; [cbn in Hpos; lia|].
  assert (Hb1 : base0 d1).
  { rewrite <-(run_accumulate _ _ _ _ _ Hacc). by apply (run_ids (Accumulate rm t)). }
  destruct (runs_ids ops d1 Hb1) as (Hb2 & n2 & Hids2). fold d2 in Hids2, Hb2.
  assert (Hids1 : map e_id (d_events d1) = map e_id (d_events d) ++ map e_id new).
  { apply (f_equal (map snd)) in Hp. unfold positions in Hp. by rewrite map_app, !map_map in Hp. }
  destruct (last (timeline_ids t)) as [id|] eqn:El.
  2:{ apply last_None in El. rewrite El in Hak. destruct Hak as (pre & Heq & _). symmetry in Heq.
      apply app_eq_nil in Heq as [_ Heq]. by destruct new. }
  assert (Hin : id ∈ map e_id (d_events d2)).
  { rewrite Hids2, Hids1, !elem_of_app. left. by apply (after_known_last _ _ _ _ Hak). }
  pose proof (acc_known rm t d2 id Hb2 El Hin) as H.
  destruct (accumulate redact rm t d2) as [[r'|] d3]; [|done]. exists r', d3. destruct H as [H ->]. done.
Qed.

Lemma once_in seen l x : x ∈ once seen l -> x ∈ l.
Proof.
  revert seen. induction l as [|y l IH]; intros seen; cbn; [done|]. case_bool_decide.
  - intros Hx. apply elem_of_list_further. by apply (IH seen).
  - rewrite !elem_of_cons. intros [-> |Hx]; [by left|right; by eapply IH].
Qed.

(** Straight away again: whether or not anything was stored. *)
Lemma repeat_now rm t d r d1 : base0 d ->
  accumulate redact rm t d = (Ok r, d1) ->
  exists r' d2, accumulate redact rm t d1 = (Ok r', d2) /\ same_tables d1 d2 /\ ar_new r' = 0 /\ ar_nids r' = [].
Proof.
  intros Hb Hacc.
  destruct (accumulate_rows rm t d r d1 Hb Hacc) as [[Hs ->]|(new & Hne & _ & _ & _ & _ & _ & Hn & _)].
  2:{ apply (repeat_after rm t d r d1 [] Hb Hacc). rewrite Hn. destruct new; [done|cbn; lia]. }
  assert (Hb1 : base0 d1).
  { rewrite <-(run_accumulate _ _ _ _ _ Hacc). by apply (run_ids (Accumulate rm t)). }
  (* nothing was stored: either the room is unknown or everything was known *)
  unfold accumulate in Hacc |- *. destruct (tl_events t) as [|r0 l0] eqn:Et.
  { injection Hacc as <-. eexists _, _. split; [done|]. done. }
  clear Et.
  destruct Hs as (He & Hsn & Hrm & Hin & Hsp).
  unfold acc_txn in *. rewrite He.
  set (inc := dedup rm (tl_prev t) true [] (tl_events t)) in *.
  set (news := mark_gap (tl_limited t) inc (filter_new (d_events d) inc)) in *.
  assert (Hcs : current_snap d1 rm = current_snap d rm) by (unfold current_snap; by rewrite Hrm).
  rewrite Hcs. pose proof (news_ok0 rm t (d_events d)) as [Hnd _]. fold inc in Hnd. fold news in Hnd.
  destruct news as [|first news'] eqn:En; [eexists _, _; split; [done|]; done|]. rewrite <-En in *.
  destruct (_ && _) eqn:Eg; [eexists _, _; split; [done|]; done|].
  destruct (insert d news) as [da ma] eqn:Ea. destruct (insert d1 news) as [db mb] eqn:Eb.
  destruct (insert0 d news da ma Hb Hnd Ea) as (newa & Hnuma & Hda & Hsza & _).
  destruct (insert0 d1 news db mb Hb1 Hnd Eb) as (newb & Hnumb & Hdb & Hszb & _).
  assert (newa = []) as ->.
  { destruct (Nat.eqb_spec (size ma) 0) as [Hz|Hz]; [destruct newa; [done|cbn in Hsza; lia]|exfalso].
    destruct (redact_step redact da rm _) as [dd|]; [|done]. destruct (roll rm dd _ _) as [[|] d3]; [|done].
    injection Hacc as Hacc _. lia. }
  rewrite He in Hnumb.
  assert (newb = []) as ->.
  { apply numbered_ids in Hnuma. apply numbered_ids in Hnumb. rewrite <-Hnuma in Hnumb. by destruct newb. }
  rewrite Hszb. cbn. eexists _, _. split; [done|]. rewrite Hdb. unfold same_tables. cbn. by rewrite app_nil_r.
Qed.

Lemma accumulate_known_room rm t d r d' ids : base0 d ->
  accumulate redact rm t d = (Ok r, d') ->
  after_known (map e_id (d_events d)) (timeline_ids t) ids ->
  current_snap d rm <> 0 ->
  map e_id (d_events d') = map e_id (d_events d) ++ ids.
Proof.
  intros Hb Hacc Hak Hc.
  destruct (accumulate_rows rm t d r d' Hb Hacc) as [[Hsame Hr0]|(new & _ & Hak2 & Hpos & _)].
  2:{ apply (f_equal (map snd)) in Hpos. unfold positions in Hpos. rewrite map_app, !map_map in Hpos.
      rewrite (after_known_unique _ _ _ _ Hak Hak2). exact Hpos. }
  rewrite (proj1 Hsame). enough (ids = []) as -> by (by rewrite app_nil_r).
  unfold accumulate in Hacc. destruct (tl_events t) as [|r0 l0] eqn:Et.
  { unfold timeline_ids in Hak. rewrite Et in Hak. cbn in Hak. destruct Hak as (pre & Heq & _).
    symmetry in Heq. by apply app_eq_nil in Heq as [_ ->]. }
  clear Et. unfold acc_txn in Hacc.
  set (inc := dedup rm (tl_prev t) true [] (tl_events t)) in *.
  assert (Hids : map e_id inc = timeline_ids t) by (by apply dedup_ids).
  pose proof (after_known_spec (d_events d) inc) as Hak2. rewrite Hids in Hak2.
  rewrite (after_known_unique _ _ _ _ Hak Hak2), <-filter_new_fresh.
  pose proof (news_ok0 rm t (d_events d)) as [Hnd _]. fold inc in Hnd.
  remember (mark_gap (tl_limited t) inc (filter_new (d_events d) inc)) as news eqn:Enews.
  assert (Hfn : fresh (d_events d) news = [] -> map e_id (fresh (d_events d) (filter_new (d_events d) inc)) = []).
  { rewrite Enews. unfold mark_gap. destruct (filter_new (d_events d) inc) as [|x l]; [done|].
    destruct inc as [|i inc']; [by intros ->|]. destruct (_ && _); [|by intros ->].
    unfold fresh. cbn. destruct (negb _); [done|]. by intros ->. }
  apply Hfn. clear Hfn. destruct news as [|first news'] eqn:En; [done|]. rewrite <-En in *.
  assert ((current_snap d rm =? 0) = false) as Hz0 by lia. rewrite Hz0 in Hacc. cbn [andb] in Hacc.
  destruct (insert d news) as [d1 m] eqn:Eins.
  destruct (insert0 d news d1 m Hb Hnd Eins) as (new & Hnum & Hd1 & Hsz & _).
  assert (new = []) as ->.
  { destruct (Nat.eqb_spec (size m) 0) as [Hz|Hz]; [destruct new; [done|cbn in Hsz; lia]|exfalso].
    destruct (redact_step redact d1 rm _) as [dd|]; [|done]. destruct (roll rm dd _ _) as [[|] d3]; [|done].
    injection Hacc as Hacc _. rewrite Hr0 in Hacc. injection Hacc as Hacc _. lia. }
  apply numbered_ids in Hnum. by destruct (fresh (d_events d) news).
Qed.

Lemma accumulate_fail rm t d b d' : accumulate redact rm t d = (Fail b, d') -> same_tables d d'.
Proof.
  unfold accumulate. destruct (tl_events t); [done|]. destruct (acc_txn _ _ _ _) as [[|] d1]; [done|].
  intros [= _ <-]. done.
Qed.
End Ops.
