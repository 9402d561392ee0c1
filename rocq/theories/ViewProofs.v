(** Proofs about [ViewModel]. *)
From Verif Require Import Prelude RoomNameModel GlobalModel ListsModel ListsProofs2 ViewModel ViewSpec.
Open Scope string_scope.
Open Scope list_scope.
Open Scope Z_scope.

Definition look_of (e : conn_room) : view := look (c_meta e) (mk_user (c_dm e) (c_notif e) (c_highlight e)).

Lemma view_eq v w :
  v_name v = v_name w -> v_avatar v = v_avatar w -> v_notif v = v_notif w -> v_high v = v_high w ->
  v_dm v = v_dm w -> v_joined v = v_joined w -> v_invited v = v_invited w -> v = w.
Proof. destruct v, w; cbn; intros; by subst. Qed.

Lemma look_of_stored lower me e m u :
  look_of (set_entry lower e (entry_of me m u)).1 = look (without me m) u.
Proof.
  unfold set_entry, stored_room. cbn [fst]. destruct e as [e|].
  - cbn. rewrite lookup_insert. unfold look_of. cbn. by destruct u.
  - cbn. rewrite lookup_empty. unfold look_of. cbn. by destruct u.
Qed.

Lemma merge_initial me old m u :
  tellable me m -> merge old (initial_room me m u) = look (without me m) u.
Proof.
  intros (Hn & Hj & Ha). unfold merge, initial_room, look. cbn [rr_initial rr_name rr_avatar rr_notif rr_high rr_dm rr_joined rr_invited].
  apply view_eq; cbn [v_name v_avatar v_notif v_high v_dm v_joined v_invited]; try done.
  - destruct (String.eqb_spec (display_name (without me m)) ""); [done|done].
  - unfold new_avatar_change. specialize (Ha (u_dm u)).
    destruct (String.eqb_spec (calc_avatar (without me m) (u_dm u)) "") as [E|E]; cbn; [done|].
    destruct (String.eqb_spec (calc_avatar (without me m) (u_dm u)) ""); [done|].
    destruct (String.eqb_spec (calc_avatar (without me m) (u_dm u)) deleted_avatar); [done|done].
  - by rewrite orb_false_r.
  - cbn. destruct (Z.eqb_spec (m_join m) 0); done.
Qed.

(** The changed fields bring a copy which agrees with the record, but for the
    counts, in line with the update. *)
Lemma merge_changes lower me old e up r :
  tellable me (up_meta up) ->
  v_dm (says me up) = c_dm e ->
  same_but_counts (merge old r) (look_of e) ->
  same_but_counts (merge old (add_changes me (set_entry lower (Some e) (entry_of me (up_meta up) (up_user up))).2 up r)) (says me up).
Proof.
  intros (Hn & Hj & Ha) Hdm (S1 & S2 & S3 & S4 & S5).
  unfold set_entry. cbn [snd].
  set (c := entry_of me (up_meta up) (up_user up)).
  set (s := mk_rlists (<[m_room (c_meta c) := e]> ∅) ∅).
  destruct (flags_ok lower id s c e (lookup_insert _ _ _)) as (F1 & F2 & F3 & F4 & F5 & F6).
  set (d := (set_room lower id s c).2) in *. clearbody d.
  cbn in F1, F2, F5, F6. change (v_dm (says me up)) with (u_dm (up_user up)) in Hdm.
  unfold same_but_counts, merge, add_changes, says, look in *.
  cbn [rr_initial rr_name rr_avatar rr_notif rr_high rr_dm rr_joined rr_invited v_name v_avatar v_notif v_high v_dm v_joined v_invited] in *.
  set (b := if rr_initial r then blank else default blank old) in *. clearbody b.
  split_and!.
  - destruct (d_name d).
    + destruct (String.eqb_spec (display_name (without me (up_meta up))) ""); done.
    + rewrite S1. by apply F5.
  - destruct (d_avatar d).
    + specialize (Ha (u_dm (up_user up))). unfold new_avatar_change.
      destruct (String.eqb_spec (calc_avatar (without me (up_meta up)) (u_dm (up_user up))) "") as [E|E]; cbn; [done|].
      destruct (String.eqb_spec (calc_avatar (without me (up_meta up)) (u_dm (up_user up))) ""); [done|].
      destruct (String.eqb_spec (calc_avatar (without me (up_meta up)) (u_dm (up_user up))) deleted_avatar); [done|done].
    + rewrite S2. cbn. rewrite F6; [done|done|by rewrite Hdm].
  - rewrite S3. cbn. by rewrite Hdm.
  - destruct (d_join d).
    + destruct (Z.eqb_spec (m_join (up_meta up)) 0); done.
    + rewrite S4. cbn. destruct (Z.eqb_spec (m_join (c_meta e)) (m_join (up_meta up))); [done|].
      exfalso. assert (false = true) by (by apply F1). done.
  - destruct (d_invite d); [done|]. rewrite S5. cbn.
    destruct (Z.eqb_spec (m_invite (c_meta e)) (m_invite (up_meta up))); [done|].
    exfalso. assert (false = true) by (by apply F2). done.
Qed.

(** The counts. *)
Lemma counts_flags lower me e up :
  let d := (set_entry lower (Some e) (entry_of me (up_meta up) (up_user up))).2 in
  d_highlight d || d_notif d = false ->
  c_notif e = u_notif (up_user up) /\ c_highlight e = u_high (up_user up).
Proof.
  unfold set_entry. cbn [snd]. set (c := entry_of me (up_meta up) (up_user up)).
  set (s := mk_rlists (<[m_room (c_meta c) := e]> ∅) ∅).
  destruct (flags_ok lower id s c e (lookup_insert _ _ _)) as (_ & _ & F3 & F4 & _ & _).
  set (d := (set_room lower id s c).2) in *. clearbody d. intros Hd. apply orb_false_iff in Hd as [Hh Hn]. rewrite Hh in F4. rewrite Hn in F3. cbn in F3, F4.
  destruct (Z.eqb_spec (c_notif e) (u_notif (up_user up))) as [->|N]; [|by apply F3 in N].
  destruct (Z.eqb_spec (c_highlight e) (u_high (up_user up))) as [->|N]; [done|by apply F4 in N].
Qed.

Definition with_resp (r : option resp_room) (old : option view) : option view :=
  match r with Some r => Some (merge old r) | None => old end.

(** One processed update which is not dropped. *)
Lemma take_update_ok lower me inside fresh pos up s e :
  dropped (s_pos s) up = false ->
  s_shown s || fresh = true ->
  s_entry s = Some e ->
  tellable me (up_meta up) ->
  (fresh = true -> tellable me (s_meta s) /\ says me up = known me s) ->
  (fresh = false -> v_dm (says me up) = c_dm e /\ sees s = Some (look_of e) /\
     (up_event up = None -> s_resp s = None -> same_but_counts (says me up) (look_of e))) ->
  let s' := take_update lower me inside fresh pos up s in
  sees s' = Some (says me up) /\ s_shown s' = true /\
  recorded s' = Some (says me up) /\ s_meta s' = s_meta s /\ s_user s' = s_user s /\
  s_queue s' = s_queue s /\ s_held s' = s_held s /\ exists e', s_entry s' = Some e' /\ look_of e' = says me up.
Proof.
  intros Hd Hsh He Ht Hf Hnf. cbv zeta. unfold take_update. rewrite Hd, He.
  destruct (set_entry lower (Some e) (entry_of me (up_meta up) (up_user up))) as [e' d] eqn:Es.
  assert (He' : look_of e' = says me up).
  { pose proof (look_of_stored lower me (Some e) (up_meta up) (up_user up)) as H. rewrite Es in H. exact H. }
  assert (Hd' : d = (set_entry lower (Some e) (entry_of me (up_meta up) (up_user up))).2) by (by rewrite Es).
  assert (Hin : inside || s_shown s || fresh = true).
  { rewrite <- orb_assoc, Hsh. apply orb_true_r. }
  rewrite Hin. rewrite Hsh.
  set (r0 := if fresh then Some (initial_room me (s_meta s) (s_user s)) else s_resp s).
  (* what is seen before the changes *)
  assert (Hr0 : fresh = true -> with_resp r0 (s_client s) = Some (says me up)).
  { intros ->. destruct (Hf eq_refl) as [Htm Hk]. unfold r0. cbn. rewrite (merge_initial me _ _ _ Htm), Hk. done. }
  assert (Hr0' : fresh = false -> with_resp r0 (s_client s) = Some (look_of e)).
  { intros ->. by destruct (Hnf eq_refl) as (_ & Hsees & _). }
  (* the final form of the response *)
  assert (Hmain : forall r1 : option resp_room,
    (* the room was in the response, or nothing is new but counts *)
    (fresh = true -> with_resp r1 (s_client s) = Some (says me up) /\ is_Some r1) ->
    (fresh = false ->
       match r1 with
       | Some r => same_but_counts (merge (s_client s) r) (look_of e) /\
                   ((rr_notif r = u_notif (up_user up) /\ rr_high r = u_high (up_user up)) \/
                    (rr_notif r = c_notif e /\ rr_high r = c_highlight e))
       | None => s_client s = Some (look_of e) /\ same_but_counts (says me up) (look_of e)
       end) ->
    with_resp (add_counts d up (add_changes me d up <$> r1)) (s_client s) = Some (says me up)).
  { intros r1 H1 H2. destruct fresh.
    - destruct (H1 eq_refl) as [Hw [r ->]]. cbn [with_resp fmap option_fmap option_map] in *.
      apply (inj Some) in Hw. unfold add_counts.
      assert (Hc : merge (s_client s) (add_changes me d up r) = says me up).
      { clear -Hw Ht. destruct Ht as (Hn & Hj & Ha). rewrite <- Hw.
        pose proof (f_equal v_name Hw) as N1. pose proof (f_equal v_avatar Hw) as N2.
        pose proof (f_equal v_joined Hw) as N3. pose proof (f_equal v_invited Hw) as N4.
        unfold merge, add_changes, says, look in *.
        cbn [rr_initial rr_name rr_avatar rr_notif rr_high rr_dm rr_joined rr_invited v_name v_avatar v_notif v_high v_dm v_joined v_invited] in *.
        set (b := if rr_initial r then blank else default blank (s_client s)) in *. clearbody b.
        apply view_eq; cbn [v_name v_avatar v_notif v_high v_dm v_joined v_invited]; try done.
        - destruct (d_name d); [|done]. rewrite N1. destruct (String.eqb_spec (display_name (without me (up_meta up))) ""); done.
        - destruct (d_avatar d); [|done]. rewrite N2. specialize (Ha (u_dm (up_user up))). unfold new_avatar_change.
          destruct (String.eqb_spec (calc_avatar (without me (up_meta up)) (u_dm (up_user up))) "") as [E|E]; cbn; [done|].
          destruct (String.eqb_spec (calc_avatar (without me (up_meta up)) (u_dm (up_user up))) ""); [done|].
          destruct (String.eqb_spec (calc_avatar (without me (up_meta up)) (u_dm (up_user up))) deleted_avatar); [done|done].
        - destruct (d_join d); [|done]. rewrite N3. cbn. destruct (Z.eqb_spec (m_join (up_meta up)) 0); done.
        - destruct (d_invite d); [|done]. by rewrite N4. }
      destruct (d_highlight d || d_notif d); cbn [with_resp]; [|by rewrite Hc].
      f_equal. rewrite <- Hc. pose proof (f_equal v_notif Hc) as N1. pose proof (f_equal v_high Hc) as N2.
      apply view_eq; try done; cbn in *; by rewrite ?N1, ?N2.
    - destruct (Hnf eq_refl) as (Hdm & Hsees & _). specialize (H2 eq_refl). destruct r1 as [r|].
      + destruct H2 as [Hsame Hcnt]. cbn [fmap option_fmap option_map].
        pose proof (merge_changes lower me (s_client s) e up r Ht Hdm Hsame) as (C1 & C2 & C3 & C4 & C5).
        rewrite <- Hd' in *. unfold add_counts.
        destruct (d_highlight d || d_notif d) eqn:Ed; cbn [with_resp]; f_equal; apply view_eq; try done.
        * destruct Hcnt as [[E1 E2]|[E1 E2]]; cbn; [done|].
          rewrite Hd' in Ed. destruct (counts_flags _ _ _ _ Ed) as [D1 D2]. by rewrite E1, D1.
        * destruct Hcnt as [[E1 E2]|[E1 E2]]; cbn; [done|].
          rewrite Hd' in Ed. destruct (counts_flags _ _ _ _ Ed) as [D1 D2]. by rewrite E2, D2.
      + destruct H2 as (Hc & C1 & C2 & C3 & C4 & C5). cbn [fmap option_fmap option_map]. unfold add_counts.
        destruct (d_highlight d || d_notif d) eqn:Ed; cbn [with_resp]; rewrite Hc.
        * f_equal. by apply view_eq.
        * f_equal. rewrite Hd' in Ed. destruct (counts_flags _ _ _ _ Ed) as [D1 D2].
          apply view_eq; try done. }
  assert (Hfin : with_resp (add_counts d up (add_changes me d up <$>
     (match up_event up with Some _ => Some (add_event r0 up) | None => r0 end))) (s_client s) = Some (says me up)).
  { apply Hmain.
    - intros Efr. specialize (Hr0 Efr). destruct (up_event up) as [ev|].
      + split; [|eauto]. subst r0. rewrite Efr in *. cbn [with_resp add_event default] in *.
        apply (inj Some) in Hr0. f_equal. rewrite <- Hr0.
        pose proof (f_equal v_notif Hr0) as N1. pose proof (f_equal v_high Hr0) as N2.
        apply view_eq; try done; cbn in *; by rewrite ?N1, ?N2.
      + split; [done|]. subst r0. rewrite Efr. eauto.
    - intros Efr. specialize (Hr0' Efr). destruct (Hnf Efr) as (Hdm & Hsees & Hnone).
      destruct (up_event up) as [ev|] eqn:Eev.
      + split; [|left; done]. destruct r0 as [r|]; cbn [with_resp] in Hr0'.
        * apply (inj Some) in Hr0'. rewrite <- Hr0'. done.
        * unfold add_event. cbn [default]. unfold merge. rewrite Hr0'. done.
      + assert (Er : r0 = s_resp s) by (unfold r0; by rewrite Efr).
        destruct r0 as [r|]; cbn [with_resp] in Hr0'.
        * apply (inj Some) in Hr0'. split; [by rewrite Hr0'|]. right.
          pose proof (f_equal v_notif Hr0') as N1. pose proof (f_equal v_high Hr0') as N2. done.
        * split; [done|]. apply Hnone; done. }
  destruct (up_event up) as [ev|]; cbn [s_resp s_client s_shown s_entry s_meta s_user s_queue s_held];
    (split; [exact Hfin|]; split_and!; try done; [unfold recorded; cbn; f_equal; exact He'|eauto]).
Qed.

Record inv me (hist : list view) (s : state) : Prop := {
  i_tell : tellable me (s_meta s);
  i_pend : forall up, up ∈ pending s -> tellable me (up_meta up) /\ says me up ∈ hist;
  i_known : known me s ∈ hist;
  i_rec : exists e, s_entry s = Some e /\ look_of e ∈ hist;
  i_sees : s_shown s = true -> sees s = recorded s;
  i_last : s_shown s = true ->
    match last (pending s) with Some up => says me up = known me s | None => recorded s = Some (known me s) end
}.

Lemma recorded_entry s e : s_entry s = Some e -> recorded s = Some (look_of e).
Proof. intros H. unfold recorded. by rewrite H. Qed.

Lemma inv_start lower me m u pos : tellable me m -> inv me [known me (start lower me m u pos)] (start lower me m u pos).
Proof.
  intros H. unfold start.
  split; cbn [s_meta s_user s_entry s_queue s_held s_resp s_client s_shown]; try done.
  - intros up Hu. unfold pending in Hu. cbn in Hu. by apply elem_of_nil in Hu.
  - apply elem_of_list_here.
  - eexists. split; [done|]. rewrite look_of_stored. apply elem_of_list_here.
Qed.

(** Adding to the history. *)
Lemma inv_more me hist hist' s : (forall v, v ∈ hist -> v ∈ hist') -> inv me hist s -> inv me hist' s.
Proof.
  intros Hsub []. split; auto.
  - intros up Hu. destruct (i_pend0 up Hu). auto.
  - destruct i_rec0 as (e & ? & ?). eauto.
Qed.

Lemma last_pending_snoc (q h : list update) up : last (q ++ h ++ [up]) = Some up.
Proof. by rewrite app_assoc, last_snoc. Qed.
Lemma last_app_nonempty {A} (l k : list A) : k <> [] -> last (l ++ k) = last k.
Proof.
  intros Hk. destruct (exists_last Hk) as (k' & x & ->). by rewrite app_assoc, !last_snoc.
Qed.

Lemma inv_step lower me hist s a :
  inv me hist s -> gentle me s a ->
  inv me (known me (step lower me s a) :: hist) (step lower me s a).
Proof.
  intros HI Hg. destruct HI as [It Ip Ik (e & Ee & Ie) Is Il].
  destruct a as [ev m hold|m| |n h|b|k|pos|inside fresh pos| | |]; cbn [step gentle] in *.
  - (* Event *)
    set (up := mk_update (Some ev) m (s_user s)).
    assert (Hp : forall q h, q ++ h = pending s ++ [up] ->
      inv me (look (without me m) (s_user s) :: hist) (set_queue (set_known s m (s_user s)) q h)).
    { intros q h Hq. split; cbn [set_queue set_known s_meta s_user s_entry s_queue s_held s_resp s_client s_shown]; try done.
      - intros x Hx. unfold pending in Hx. cbn in Hx. rewrite Hq in Hx. apply elem_of_app in Hx as [Hx|Hx].
        + destruct (Ip x Hx). split; [done|by right].
        + apply elem_of_list_singleton in Hx as ->. split; [done|left].
      - left.
      - exists e. split; [done|by right].
      - intros _. unfold pending. cbn. rewrite Hq, last_snoc. done. }
    destruct (hold || _) eqn:Eh.
    + apply (Hp (s_queue s) (s_held s ++ [up])). unfold pending. by rewrite app_assoc.
    + apply (Hp (s_queue s ++ [up]) (s_held s)). apply orb_false_iff in Eh as [_ Eh].
      apply negb_false_iff, Nat.eqb_eq in Eh. cbn in Eh. destruct (s_held s) eqn:E; [|done].
      unfold pending. rewrite E. by rewrite !app_nil_r.
  - (* State *)
    destruct Hg as [Ht Hs]. split; cbn [set_known s_meta s_user s_entry s_queue s_held s_resp s_client s_shown]; try done.
    + intros x Hx. destruct (Ip x Hx). split; [done|by right].
    + left.
    + exists e. split; [done|by right].
    + intros Hs'. by rewrite Hs in Hs'.
  - (* Other *)
    set (up := mk_update None (s_meta s) (s_user s)).
    split; cbn [set_queue s_meta s_user s_entry s_queue s_held s_resp s_client s_shown]; try done.
    + intros x Hx. unfold pending in Hx. cbn in Hx. rewrite !elem_of_app, elem_of_list_singleton in Hx.
      destruct Hx as [[Hx| ->]|Hx].
      * destruct (Ip x); [unfold pending; set_solver|]. split; [done|by right].
      * split; [done|left].
      * destruct (Ip x); [unfold pending; set_solver|]. split; [done|by right].
    + left.
    + exists e. split; [done|by right].
    + intros Hs. specialize (Il Hs). unfold pending in *. cbn. destruct (s_held s) as [|h0 hs] eqn:E.
      * rewrite app_nil_r, last_snoc. done.
      * rewrite last_app_nonempty by done. rewrite last_app_nonempty in Il by done. exact Il.
  - (* Counts *)
    set (u := mk_user (u_dm (s_user s)) n h). set (up := mk_update None (s_meta s) u).
    split; cbn [set_queue set_known s_meta s_user s_entry s_queue s_held s_resp s_client s_shown]; try done.
    + intros x Hx. unfold pending in Hx. cbn in Hx. rewrite !elem_of_app, elem_of_list_singleton in Hx.
      destruct Hx as [[Hx| ->]|Hx].
      * destruct (Ip x); [unfold pending; set_solver|]. split; [done|by right].
      * split; [done|left].
      * destruct (Ip x); [unfold pending; set_solver|]. split; [done|by right].
    + left.
    + exists e. split; [done|by right].
    + intros Hs. rewrite (Hg Hs). unfold pending. cbn. rewrite app_nil_r, last_snoc. done.
  - (* Direct *)
    split; cbn [set_known s_meta s_user s_entry s_queue s_held s_resp s_client s_shown]; try done.
    + intros x Hx. destruct (Ip x Hx). split; [done|by right].
    + left.
    + exists e. split; [done|by right].
    + intros Hs'. by rewrite Hg in Hs'.
  - (* Release *)
    assert (Hq : (s_queue s ++ take k (s_held s)) ++ drop k (s_held s) = pending s).
    { unfold pending. by rewrite <- app_assoc, take_drop. }
    split; unfold pending; cbn [set_queue s_meta s_user s_entry s_queue s_held s_resp s_client s_shown]; rewrite ?Hq; try done.
    + intros x Hx. destruct (Ip x Hx). split; [done|by right].
    + left.
    + exists e. split; [done|by right].
  - (* Enter *)
    destruct Hg as [Hp Hr].
    split; cbn [set_resp s_meta s_user s_entry s_queue s_held s_resp s_client s_shown]; try done.
    + intros x Hx. destruct (Ip x Hx). split; [done|by right].
    + left.
    + exists e. split; [done|by right].
    + intros _. unfold sees. cbn [set_resp s_resp s_client]. rewrite merge_initial by done. symmetry. exact Hr.
    + intros _. unfold pending in *. cbn. rewrite Hp. exact Hr.
  - (* Take *)
    destruct (s_queue s) as [|up q] eqn:Eq.
    { apply (inv_more me hist); [by right|]. split; eauto. }
    destruct (Hg up q eq_refl) as [Hf Hn]. clear Hg.
    set (s0 := set_queue s q (s_held s)).
    destruct (Ip up) as [Htu Hhu]; [unfold pending; rewrite Eq; left|].
    assert (Hpend : pending s = up :: pending s0) by (unfold pending; by rewrite Eq).
    destruct (dropped (s_pos s0) up) eqn:Ed.
    { assert (Hs0 : take_update lower me inside fresh pos up s0 = s0) by (unfold take_update; by rewrite Ed).
      rewrite Hs0. split; cbn [s0 set_queue s_meta s_user s_entry s_queue s_held s_resp s_client s_shown]; try done.
      - intros x Hx. destruct (Ip x); [rewrite Hpend; by right|]. split; [done|by right].
      - left.
      - exists e. split; [done|by right].
      - intros Hs. specialize (Il Hs). rewrite Hpend in Il.
        destruct (Hn Hs (look_of e)) as (_ & Hdr & _); [by apply recorded_entry|].
        specialize (Hdr Ed). destruct (pending s0) as [|p ps] eqn:Ep; [|done].
        cbn in Il |- *. change (recorded s = Some (known me s)). rewrite (recorded_entry s e Ee), <- Hdr. by rewrite Il. }
    destruct (s_shown s || fresh) eqn:Esh.
    + pose proof (take_update_ok lower me inside fresh pos up s0 e Ed Esh Ee Htu) as H.
      cbv zeta in H. destruct H as (H1 & H2 & H3 & H4 & H5 & H6 & H7 & e' & H8 & H9).
      * intros ->. destruct (Hf eq_refl) as (_ & _ & Hk & _). done.
      * intros Efr. rewrite Efr, orb_false_r in Esh. 
        destruct (Hn Esh (look_of e)) as (Hdm & _ & Hno); [by apply recorded_entry|].
        split; [done|]. split.
        -- change (sees s = Some (look_of e)). rewrite (Is Esh). by apply recorded_entry.
        -- intros A B. by apply Hno.
      * set (s' := take_update lower me inside fresh pos up s0) in *.
        assert (Hk : known me s' = known me s) by (unfold known; by rewrite H4, H5).
        assert (Hps : pending s' = pending s0) by (unfold pending; by rewrite H6, H7).
        rewrite Hk. split; try rewrite Hps; try done.
        -- rewrite H4. done.
        -- intros x Hx. destruct (Ip x); [rewrite Hpend; by right|]. split; [done|by right].
        -- rewrite Hk. left.
        -- exists e'. split; [done|]. rewrite H9. by right.
        -- intros _. by rewrite H1, H3.
        -- intros _. destruct fresh.
           ++ destruct (Hf eq_refl) as (-> & Hh & Hs & _). unfold s0, pending. cbn. rewrite Hh. cbn. by rewrite H3, Hk, Hs.
           ++ rewrite orb_false_r in Esh. specialize (Il Esh). rewrite Hpend in Il. rewrite H3, Hk.
              destruct (pending s0) as [|p ps] eqn:Ep; [cbn in Il |- *; by rewrite Il|].
              change (last (up :: p :: ps)) with (last (p :: ps)) in Il.
              destruct (last (p :: ps)) eqn:El; [exact Il|by apply last_None in El].
    + (* not in view *)
      apply orb_false_iff in Esh as [Es ->].
      assert (HH : let s' := take_update lower me inside false pos up s0 in
        s_meta s' = s_meta s0 /\ s_user s' = s_user s0 /\ pending s' = pending s0 /\ s_shown s' = false /\
        exists e', s_entry s' = Some e' /\ look_of e' = says me up).
      { cbv zeta. unfold take_update. rewrite Ed. unfold s0. cbn [set_queue s_meta s_user s_entry s_queue s_held s_resp s_client s_shown].
        rewrite Es, Ee. pose proof (look_of_stored lower me (Some e) (up_meta up) (up_user up)) as Hl.
        destruct (set_entry lower (Some e) (entry_of me (up_meta up) (up_user up))) as [e' d]. cbn [fst] in Hl.
        destruct (up_event up); [destruct (inside || false || false)|]; cbn; split_and!; try done; eauto. }
      cbv zeta in HH. destruct HH as (H4 & H5 & Hps & Hsh & e' & H8 & H9).
      set (s' := take_update lower me inside false pos up s0) in *.
      assert (Hk : known me s' = known me s) by (unfold known; by rewrite H4, H5).
      rewrite Hk. split; try rewrite Hps; try done.
      * by rewrite H4.
      * intros x Hx. destruct (Ip x); [rewrite Hpend; by right|]. split; [done|by right].
      * rewrite Hk. left.
      * exists e'. split; [done|]. rewrite H9. by right.
      * rewrite Hsh. done.
      * rewrite Hsh. done.
  - (* Members *)
    split; cbn [set_resp s_meta s_user s_entry s_queue s_held s_resp s_client s_shown]; try done.
    + intros x Hx. destruct (Ip x Hx). split; [done|by right].
    + left.
    + exists e. split; [done|by right].
    + intros Hs. specialize (Is Hs). change (recorded (set_resp s (s_pos s) (Some (default empty_resp (s_resp s))) (s_client s) (s_shown s))) with (recorded s).
      unfold sees in *. cbn [set_resp s_resp s_client]. destruct (s_resp s) as [r|] eqn:Er; [done|].
      cbn [default]. destruct (Hg Hs eq_refl (look_of e)) as [Z1 Z2]; [by apply recorded_entry|].
      rewrite (recorded_entry s e Ee) in *. rewrite Is. f_equal. apply view_eq; try done.
  - (* Answer *)
    split; cbn [set_resp s_meta s_user s_entry s_queue s_held s_resp s_client s_shown]; try done.
    + intros x Hx. destruct (Ip x Hx). split; [done|by right].
    + left.
    + exists e. split; [done|by right].
  - (* Hide *)
    split; cbn [set_resp s_meta s_user s_entry s_queue s_held s_resp s_client s_shown]; try done.
    + intros x Hx. destruct (Ip x Hx). split; [done|by right].
    + left.
    + exists e. split; [done|by right].
Qed.

Lemma inv_run lower me l s hist :
  inv me hist s -> all_gentle lower me s l ->
  exists hist', inv me hist' (run lower me s l) /\
    forall v, v ∈ hist' -> v ∈ hist \/ exists k, v = known me (run lower me s (take k l)).
Proof.
  revert s hist. induction l as [|a l IH]; intros s hist HI Hg.
  - exists hist. split; [done|]. by left.
  - destruct Hg as [Hg Hg']. destruct (IH _ _ (inv_step lower me hist s a HI Hg) Hg') as (h' & H1 & H2).
    exists h'. split; [done|]. intros v Hv. destruct (H2 v Hv) as [Hv'|[k ->]].
    + apply elem_of_cons in Hv' as [->|Hv']; [right; by exists 1%nat|by left].
    + right. by exists (S k).
Qed.
