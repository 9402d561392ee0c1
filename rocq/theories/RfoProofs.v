(** Proofs about [RfoModel]: what is on its way to the client and the client's copy
    together say what is stored. *)
From Verif Require Import Prelude RequestModel ExtModel ExtSpec ExtProps ReceiptModel ReceiptSpec ReceiptProps RfoModel RfoSpec.
From Verif Require FolModel FolProofs.
Open Scope string_scope. Open Scope list_scope. Open Scope Z_scope.

Ltac qcbn := cbn [q_store q_pend q_on q_queue q_exts q_place q_busy q_resp q_copy].

Lemma ordered_perm ord l : ordered ord l ≡ₚ l.
Proof. unfold ordered. by case_decide. Qed.
Lemma ordered_In ord l r : In r (ordered ord l) <-> In r l.
Proof. rewrite <- !elem_of_list_In. by rewrite ordered_perm. Qed.

Lemma in_view_covers s room : in_view (q_exts s) (q_place s) room = true <-> covers s room.
Proof.
  unfold in_view, covers. split.
  - destruct (enabled_ext (q_exts s) EReceipts) as [e|] eqn:E; [|done]. intros Hs. exists e. split; [by apply enabled_spec|by apply C53_scope].
  - intros (e & Ha & Hs). rewrite (proj2 (enabled_spec _ _ _) Ha). by apply C53_scope.
Qed.

(** ** Storing *)
Definition tab (st : store) (private : bool) : rtable := if private then s_priv st else s_pub st.
Lemma rkey_slot r r' : slot_of r = slot_of r' <-> rkey r = rkey r' /\ rc_private r = rc_private r'.
Proof. unfold slot_of, rkey. split; [intros [= -> -> -> ->]; done|intros [[= -> -> ->] ->]; done]. Qed.

Lemma find_key (l : list receipt) r : NoDup (map rkey l) -> In r l -> List.find (fun x => bool_decide (rkey x = rkey r)) l = Some r.
Proof.
  induction l as [|x l IH]; [done|]. cbn [map]. intros Hnd Hin. apply NoDup_cons in Hnd as [Hx Hnd]. cbn [List.find]. destruct Hin as [->|Hin].
  - by rewrite bool_decide_eq_true_2.
  - rewrite bool_decide_eq_false_2; [by apply IH|]. intros E. apply Hx. rewrite E. apply elem_of_list_In. by apply in_map.
Qed.
Lemma find_none (l : list receipt) k : (forall r, In r l -> rkey r <> k) -> List.find (fun x => bool_decide (rkey x = k)) l = None.
Proof.
  intros H. destruct (List.find _ l) as [r|] eqn:E; [|done]. apply find_some in E as [Hin E]. apply bool_decide_eq_true in E. by apply H in Hin.
Qed.

Lemma insert_slot st pub priv st' new : insert_receipts st pub priv = (st', Some new) ->
  (forall r, In r pub -> rc_private r = false) -> (forall r, In r priv -> rc_private r = true) ->
  (forall r, In r new -> In r pub \/ In r priv)
  /\ (forall r, In r new -> tab st' (rc_private r) !! rkey r = Some (mark_of r) /\ fst <$> tab st (rc_private r) !! rkey r <> Some (rc_event r))
  /\ (forall b k, (forall r, In r new -> rc_private r = b -> rkey r <> k) -> tab st' b !! k = tab st b !! k).
Proof.
  unfold insert_receipts. destruct (bulk (s_pub st) [] pub) as [[tp np]|] eqn:E1; [|done].
  destruct (bulk (s_priv st) [] priv) as [[tv nv]|] eqn:E2; [|done]. intros [= <- <-] Hpub Hpriv.
  apply bulk_spec in E1 as (_ & N1 & F1 & H1). apply bulk_spec in E2 as (_ & N2 & F2 & H2).
  assert (Hnp : forall r, In r np -> In r pub /\ changes (s_pub st) r = true) by (intros r; rewrite F1; apply filter_In).
  assert (Hnv : forall r, In r nv -> In r priv /\ changes (s_priv st) r = true) by (intros r; rewrite F2; apply filter_In).
  split; [|split].
  - intros r [Hr|Hr]%in_app_iff; [left; by apply Hnp|right; by apply Hnv].
  - intros r [Hr|Hr]%in_app_iff.
    + destruct (Hnp r Hr) as [Hi Hc]. rewrite (Hpub r Hi). cbn [tab s_pub]. rewrite H1, (find_key _ _ N1 Hr). split; [done|].
      unfold changes in Hc. intros E. by rewrite bool_decide_eq_true_2 in Hc.
    + destruct (Hnv r Hr) as [Hi Hc]. rewrite (Hpriv r Hi). cbn [tab s_priv]. rewrite H2, (find_key _ _ N2 Hr). split; [done|].
      unfold changes in Hc. intros E. by rewrite bool_decide_eq_true_2 in Hc.
  - intros b k Hk. destruct b; cbn [tab s_pub s_priv].
    + rewrite H2, find_none; [done|]. intros r Hr. apply Hk; [apply in_app_iff; by right|]. by apply Hpriv, Hnv.
    + rewrite H1, find_none; [done|]. intros r Hr. apply Hk; [apply in_app_iff; by left|]. by apply Hpub, Hnp.
Qed.

(** ** Packing *)
Lemma live_says room e r ord k :
  says (pack (ordered ord (unpack_read room e) ++ ordered ord (unpack_priv room e) ++ [r])) k =
    if decide (place_of r = k)
    then (if bool_decide (is_Some (says e k)) && negb (bool_decide (rc_thread r = "")) then says e k else Some (info_of r))
    else says e k.
Proof.
  assert (Hu : unpacks room e (ordered ord (unpack_read room e)) (ordered ord (unpack_priv room e))) by (split; apply ordered_perm).
  rewrite app_assoc, C38_pack, chosen_snoc. pose proof (chosen_unpacks _ _ _ _ k Hu) as Hc.
  case_decide; [|done]. rewrite <- Hc. rewrite (bool_decide_ext _ _ (fmap_is_Some info_of (chosen k (ordered ord (unpack_read room e) ++ ordered ord (unpack_priv room e))))).
  by destruct (_ && _).
Qed.

(** What is said of a slot without a thread in the response. *)
Definition res_says (res : gmap string edu) (room user : string) (b : bool) (m : string * Z) : Prop :=
  exists e, res !! room = Some e /\ says e (m.1, user, b) = Some (mk_info m.2 "").

Lemma append_says ex p res r ord room user b m :
  res_says (append ex p res r ord) room user b m ->
  res_says res room user b m \/ (slot_of r = (room, user, "", b) /\ mark_of r = m).
Proof.
  unfold append. destruct (in_view ex p (rc_room r)); [|by left]. intros (e & He & Hs).
  destruct (decide (rc_room r = room)) as [Hr|Hr].
  - destruct (res !! rc_room r) as [e0|] eqn:E0.
    + rewrite Hr, lookup_insert in He. injection He as <-. rewrite <- Hr, live_says in Hs.
      case_decide as Hp; [|left; exists e0; by rewrite <- Hr].
      destruct (_ && _); [left; exists e0; by rewrite <- Hr|]. right. unfold place_of, info_of, slot_of, mark_of in *.
      destruct m as [ev ts]. cbn [fst snd] in *. injection Hp as H1 H2 H3. injection Hs as H4 H5. split; congruence.
    + rewrite Hr, lookup_insert in He. injection He as <-. change [r] with ([] ++ [r]) in Hs. rewrite pack_snoc, says_add in Hs.
      case_decide as Hp; [|by unfold says, pack in Hs; cbn in Hs; rewrite lookup_empty in Hs].
      assert (Hn : says (pack []) (m.1, user, b) = None) by (unfold says, pack; cbn; by rewrite lookup_empty). rewrite Hn in Hs.
      rewrite (bool_decide_eq_false_2 (is_Some None)) in Hs by (by intros [? ?]). cbn [andb] in Hs.
      right. unfold place_of, info_of, slot_of, mark_of in *.
      destruct m as [ev ts]. cbn [fst snd] in *. injection Hp as H1 H2 H3. injection Hs as H4 H5. split; congruence.
  - left. exists e. split; [|done]. destruct (res !! rc_room r); by rewrite lookup_insert_ne in He.
Qed.
Lemma append_new ex p res r ord : in_view ex p (rc_room r) = true -> rc_thread r = "" ->
  res_says (append ex p res r ord) (rc_room r) (rc_user r) (rc_private r) (mark_of r).
Proof.
  intros Hv Ht. unfold append. rewrite Hv. destruct (res !! rc_room r) as [e0|] eqn:E0; eexists; (split; [by rewrite lookup_insert|]).
  - rewrite live_says. unfold mark_of. cbn [fst snd]. rewrite decide_True by done. rewrite (bool_decide_eq_true_2 (rc_thread r = "")) by done.
    cbn [negb]. rewrite andb_false_r. unfold info_of. by rewrite Ht.
  - change [r] with ([] ++ [r]). rewrite pack_snoc, says_add. unfold mark_of. cbn [fst snd]. rewrite decide_True by done.
    rewrite (bool_decide_eq_true_2 (rc_thread r = "")) by done. cbn [negb]. rewrite andb_false_r. unfold info_of. by rewrite Ht.
Qed.
Lemma append_keeps ex p res r ord room user b m : slot_of r <> (room, user, "", b) ->
  res_says res room user b m -> res_says (append ex p res r ord) room user b m.
Proof.
  intros Hne (e & He & Hs). unfold append. destruct (in_view ex p (rc_room r)); [|by exists e].
  destruct (decide (rc_room r = room)) as [Hr|Hr].
  - rewrite Hr, He. eexists. split; [by rewrite lookup_insert|]. rewrite live_says. case_decide as Hp; [|done].
    rewrite Hs. rewrite (bool_decide_eq_true_2 (is_Some _)) by (by eexists). cbn [andb].
    destruct (decide (rc_thread r = "")) as [Ht|Ht]; [|by rewrite bool_decide_eq_false_2].
    exfalso. apply Hne. unfold slot_of, place_of in *. injection Hp as H1 H2 H3. congruence.
  - exists e. split; [|done]. destruct (res !! rc_room r); by rewrite lookup_insert_ne.
Qed.

(** The client's copy. *)
Lemma in_entries res r : In r (entries res) <-> exists e, res !! rc_room r = Some e /\ says e (place_of r) = Some (info_of r).
Proof.
  unfold entries. rewrite in_concat. split.
  - intros (l & Hl & Hr). apply in_map_iff in Hl as ([room e] & <- & Hx). apply elem_of_list_In, elem_of_map_to_list in Hx. cbn in *.
    apply in_app_iff in Hr as [Hr|Hr]; [apply in_unpack_read in Hr as (Hroom & _ & Hs)|apply in_unpack_priv in Hr as (Hroom & _ & Hs)]; exists e; by subst.
  - intros (e & He & Hs). eexists. split.
    + apply in_map_iff. exists (rc_room r, e). split; [done|]. apply elem_of_list_In. by apply elem_of_map_to_list.
    + cbn. apply in_app_iff. destruct (rc_private r) eqn:E; [right; by apply in_unpack_priv|left; by apply in_unpack_read].
Qed.
Definition le (m : string * Z) (o : option (string * Z)) : Prop := exists ev ts, o = Some (ev, ts) /\ (m.2 < ts \/ m = (ev, ts)).
Lemma keep_le k o l : forall c, (forall r, In r l -> slot_of r = k -> le (mark_of r) o) -> (forall m, c k = Some m -> le m o) ->
  forall m, fold_left keep l c k = Some m -> le m o.
Proof.
  induction l as [|r l IH]; intros c Hl Hc m; cbn [fold_left]; [apply Hc|]. apply IH; [intros; apply Hl; [by right|done]|].
  intros m'. unfold keep. case_bool_decide as Hk; [|apply Hc].
  assert (Hr : le (mark_of r) o) by (apply Hl; [by left|done]).
  destruct (c k) as [[ev ts]|] eqn:E; [|by intros [= <-]]. destruct (ts <? rc_ts r); [by intros [= <-]|]. intros [= <-]. by apply Hc.
Qed.
Lemma keep_best k ev ts l : forall c, (forall r, In r l -> slot_of r = k -> le (mark_of r) (Some (ev, ts))) -> (forall m, c k = Some m -> le m (Some (ev, ts))) ->
  c k = Some (ev, ts) \/ (exists r, In r l /\ slot_of r = k /\ mark_of r = (ev, ts)) ->
  fold_left keep l c k = Some (ev, ts).
Proof.
  induction l as [|r l IH]; intros c Hl Hc He; cbn [fold_left]; [destruct He as [He|(r & [] & _)]; done|].
  apply IH.
  - intros x Hx. apply Hl. by right.
  - intros m Hm. apply (keep_le k (Some (ev, ts)) [r] c); [|done|done]. intros x [<-|[]]. apply Hl. by left.
  - unfold keep. case_bool_decide as Hk.
    + assert (Hr : le (mark_of r) (Some (ev, ts))) by (apply Hl; [by left|done]).
      destruct Hr as (ev' & ts' & [= <- <-] & Hr). destruct He as [He|(x & [<-|Hx] & Hxk & Hxm)].
      * left. rewrite He. destruct (Z.ltb_spec ts (rc_ts r)); [|done]. destruct Hr as [Hr|Hr]; cbn in Hr; [lia|by rewrite Hr].
      * left. destruct (c k) as [[ev1 ts1]|] eqn:E; [|by rewrite Hxm]. destruct (Hc _ eq_refl) as (ev2 & ts2 & [= <- <-] & H1). cbn in H1.
        rewrite Hxm. injection Hxm as Hx1 Hx2. rewrite Hx2. destruct (Z.ltb_spec ts1 ts); [done|]. destruct H1 as [H1|H1]; [lia|by rewrite H1].
      * right. by exists x.
    + destruct He as [He|(x & [<-|Hx] & Hxk & Hxm)]; [by left|done|right; by exists x].
Qed.

Section inv.
Context (me room user : string) (b : bool).
Hypothesis Hb : b = true -> user = me.
Notation k := ((room, user, "", b) : slot).
Notation stepq := (qstep me).
Definition keyf (l : list receipt) : list receipt := List.filter (fun r => bool_decide (slot_of r = k)) l.
Lemma keyf_app l l' : keyf (l ++ l') = keyf l ++ keyf l'.
Proof. apply List.filter_app. Qed.
Lemma keyf_In l r : In r (keyf l) <-> In r l /\ slot_of r = k.
Proof. unfold keyf. rewrite filter_In. by rewrite bool_decide_eq_true. Qed.
Lemma last_app {A} (l l' : list A) : last (l ++ l') = match last l' with Some x => Some x | None => last l end.
Proof. destruct (last l') as [x|] eqn:E; [apply last_Some in E as [l0 ->]; by rewrite app_assoc, last_snoc|]. apply last_None in E as ->. by rewrite app_nil_r. Qed.
Lemma last_keyf l r : last (keyf l) = Some r -> In r l /\ slot_of r = k.
Proof. intros E. apply keyf_In. apply last_Some in E as [l0 ->]. apply in_app_iff. right. by left. Qed.

(** What the user is told ends, for the slot, with the same receipt. *)
Lemma for_me_In joined rs r : In r (for_me me joined rs) -> In r rs.
Proof.
  unfold for_me. intros Hr. apply in_map_iff in Hr as ([u x] & <- & Hx). apply filter_In in Hx as [Hx _]. by apply C38_delivered_to in Hx as (Hx & _).
Qed.
Lemma last_repeat (r : receipt) (l : list string) : l <> [] -> last (map (fun _ => r) l) = Some r.
Proof. intros Hl. destruct (exists_last Hl) as (l' & x & ->). rewrite map_app. cbn [map]. by rewrite last_snoc. Qed.
Lemma keyf_repeat (r : receipt) (l : list string) : keyf (map (fun _ => r) l) = if decide (slot_of r = k) then map (fun _ => r) l else [].
Proof.
  unfold keyf. induction l as [|u l IHl]; [by destruct (decide _)|]. cbn [map List.filter]. rewrite IHl.
  destruct (decide (slot_of r = k)); [by rewrite bool_decide_eq_true_2|by rewrite bool_decide_eq_false_2].
Qed.
Lemma for_me_last joined rs : In me (joined room) -> last (keyf (for_me me joined rs)) = last (keyf rs).
Proof.
  intros Hj. unfold for_me, deliveries. rewrite List.filter_app, map_app, keyf_app.
  set (priv := keyf (map snd (List.filter _ (map _ _)))). set (pub := keyf (map snd (List.filter _ (concat _)))).
  assert (Hpriv : priv = if b then keyf rs else []).
  { unfold priv. clear -Hb. induction rs as [|r rs IH]; [by destruct b|]. cbn [List.filter].
    destruct (rc_private r && bool_decide (rc_user r = me)) eqn:E.
    - cbn [map List.filter fst]. apply andb_true_iff in E as [E1 E2]. rewrite E2. clear E2. cbn [map snd]. unfold keyf in *. cbn [List.filter].
      case_bool_decide as Hk.
      + unfold slot_of in Hk. injection Hk as _ _ _ Hk. rewrite E1 in Hk. subst b. by rewrite IH.
      + by rewrite IH.
    - rewrite IH. destruct b eqn:Eb; [|done]. unfold keyf. cbn [List.filter]. rewrite bool_decide_eq_false_2; [done|].
      unfold slot_of. intros [= _ Hu _ Hp]. apply andb_false_iff in E as [E|E]; [congruence|]. apply bool_decide_eq_false in E. apply E. rewrite Hu. by apply Hb. }
  assert (Hpub : last pub = if b then None else last (keyf rs)).
  { unfold pub. clear priv Hpriv pub. induction rs as [|r rs IH] using rev_ind; [by destruct b|].
    rewrite List.filter_app, map_app, concat_app, List.filter_app, map_app, !keyf_app, !last_app, IH. clear IH. cbn [List.filter].
    destruct (rc_private r) eqn:Ep; cbn [negb].
    - cbn. destruct b eqn:Eb; [done|]. rewrite (bool_decide_eq_false_2 (slot_of r = _)); [done|]. unfold slot_of. intros [= _ _ _ Hp]. by rewrite Hp in Ep.
    - cbn [map concat]. rewrite app_nil_r.
      set (js := List.filter (fun u => bool_decide (u = me)) (joined (rc_room r))).
      assert (Hjs : List.filter (fun x : string * receipt => bool_decide (x.1 = me)) (map (fun u => (u, r)) js) = map (fun u => (u, r)) js).
      { unfold js. induction (joined (rc_room r)) as [|u l IHl]; [done|]. cbn [List.filter]. destruct (bool_decide (u = me)) eqn:E; [|done].
        cbn [map List.filter fst]. by rewrite E, IHl. }
      rewrite Hjs, map_map. cbn [snd].
      destruct (decide (slot_of r = k)) as [Hk|Hk].
      + assert (Hr1 : keyf [r] = [r]) by (unfold keyf; cbn [List.filter]; by rewrite bool_decide_eq_true_2). rewrite Hr1.
        rewrite keyf_repeat, decide_True, last_repeat; [| |done].
        * cbn. unfold slot_of in Hk. injection Hk as _ _ _ Hk. rewrite Ep in Hk. by rewrite <- Hk.
        * intros E. assert (In me js) as Hin. { apply filter_In. unfold slot_of in Hk. injection Hk as Hk _ _ _. rewrite Hk. split; [done|]. by apply bool_decide_eq_true. }
          by rewrite E in Hin.
      + assert (Hr1 : keyf [r] = []) by (unfold keyf; cbn [List.filter]; by rewrite bool_decide_eq_false_2). rewrite Hr1.
        rewrite keyf_repeat, decide_False; done. }
  rewrite last_app, Hpub, Hpriv. by destruct b; [|destruct (last (keyf rs))].
Qed.

Notation sto s := (stored_in s k).
Record rinv (s : qstate) : Prop := mk_rinv {
  i_le : forall r, slot_of r = k -> In r (q_queue s ++ concat (q_pend s)) -> le (mark_of r) (sto s);
  i_resp : forall m, res_says (q_resp s) room user b m -> le m (sto s);
  i_copy : forall m, q_copy s k = Some m -> le m (sto s);
  i_last : forall r, last (keyf (q_queue s ++ concat (q_pend s))) = Some r -> sto s = Some (mark_of r);
  i_off : q_on s = false -> q_queue s = [] /\ q_exts s = no_exts;
  i_rest : q_busy s = false -> q_resp s = ∅
}.
(** What is stored is on its way or known. *)
Definition known (s : qstate) : Prop :=
  (exists r, last (keyf (q_queue s ++ concat (q_pend s))) = Some r)
  \/ match sto s with
     | None => True
     | Some m => res_says (q_resp s) room user b m \/ q_copy s k = Some m
     end.

Lemma none_says m : ~ res_says ∅ room user b m.
Proof. intros (e & He & _). by rewrite lookup_empty in He. Qed.

Lemma load_says st ex p tl ord m : res_says (load me st ex p tl ord) room user b m ->
  (if b then s_priv st else s_pub st) !! (room, user, "") = Some m.
Proof.
  intros (e & He & Hs). unfold load in He. rewrite map_lookup_imap in He. destruct (tl !! room) as [evs|]; [|done]. cbn in He.
  destruct (in_view ex p room); [|done]. set (l := ordered ord _) in He.
  assert (Hl : forall r, In r l -> rc_room r = room /\ tab st (rc_private r) !! rkey r = Some (mark_of r)).
  { intros r Hr. apply ordered_In, in_app_iff in Hr.
    assert (Hrow : In r (rows (s_pub st) false ++ rows (s_priv st) true) /\ rc_room r = room).
    { destruct Hr as [Hr|Hr]; apply filter_In in Hr as [Hr E]; apply andb_true_iff in E as [E _]; apply bool_decide_eq_true in E; (split; [|done]).
      - apply in_app_iff. by left.
      - done. }
    destruct Hrow as [Hrow Hroom]. split; [done|]. apply in_app_iff in Hrow as [Hrow|Hrow]; apply in_rows in Hrow as [-> Hrow]; exact Hrow. }
  assert (e = pack l) as -> by (destruct l; [done|by injection He as <-]). rewrite C38_pack in Hs.
  destruct (chosen _ l) as [r|] eqn:Ec; [|done]. apply chosen_in in Ec as [Hin Hp]. injection Hs as Hts Hth.
  destruct (Hl r Hin) as [Hroom Htab]. unfold place_of in Hp. injection Hp as H1 H2 H3. rewrite H3 in Htab.
  unfold rkey, mark_of in Htab. rewrite Hroom, H2, Hth, H1, Hts in Htab. destruct m. exact Htab.
Qed.
Lemma load_own st ex p tl ord m : user = me -> in_view ex p room = true -> is_Some (tl !! room) ->
  (if b then s_priv st else s_pub st) !! (room, user, "") = Some m -> res_says (load me st ex p tl ord) room user b m.
Proof.
  intros Hu Hv [evs Htl] Hst. unfold load, res_says. rewrite map_lookup_imap, Htl. cbn [mbind option_bind]. rewrite Hv.
  set (l := ordered ord _). set (r := mk_receipt room m.1 user m.2 "" b).
  assert (Hr : In r l).
  { apply ordered_In, in_app_iff. right. apply filter_In. cbn [rc_room rc_user r]. rewrite !bool_decide_eq_true_2 by done. split; [|done].
    apply in_app_iff. destruct m as [ev ts]. destruct b; [right|left]; by apply in_rows. }
  assert (Hl : forall x, In x l -> place_of x = place_of r -> rc_thread x = "" -> info_of x = mk_info m.2 "").
  { intros x Hx Hp Ht. apply ordered_In, in_app_iff in Hx.
    assert (Hrow : In x (rows (s_pub st) false ++ rows (s_priv st) true) /\ rc_room x = room).
    { destruct Hx as [Hx|Hx]; apply filter_In in Hx as [Hx E]; apply andb_true_iff in E as [E _]; apply bool_decide_eq_true in E; (split; [|done]).
      - apply in_app_iff. by left.
      - done. }
    destruct Hrow as [Hrow Hroom]. unfold place_of in Hp. cbn in Hp. injection Hp as H1 H2 H3.
    assert (Htab : (if b then s_priv st else s_pub st) !! rkey x = Some (mark_of x)).
    { apply in_app_iff in Hrow as [Hrow|Hrow]; apply in_rows in Hrow as [Hpv Hrow]; rewrite Hpv in H3; by rewrite <- H3. }
    unfold rkey in Htab. rewrite Hroom, H2, Ht, Hst in Htab. injection Htab as ->. unfold info_of. by rewrite Ht. }
  exists (pack l). split; [by destruct l|]. rewrite C38_pack.
  destruct (C38_unthreaded_first l r Hr eq_refl) as (x & Hc & Ht & Hx). change (m.1, user, b) with (place_of r). rewrite Hc.
  apply chosen_in in Hc as [_ Hp]. cbn [fmap option_fmap option_map]. f_equal. by apply Hl.
Qed.
Lemma stored_in_load s m : sto s = Some m <-> (if b then s_priv (q_store s) else s_pub (q_store s)) !! (room, user, "") = Some m.
Proof. done. Qed.

Lemma keyf_nil_iff l : last (keyf l) = None <-> keyf l = [].
Proof. apply last_None. Qed.

(** ** Steps *)
Lemma rinv_step s a : no_step_back k s a -> in_room me room s a -> rinv s -> rinv (stepq s a).
Proof.
  intros Hn Hj Hi. pose proof Hi as [I1 I2 I3 I4 I5 I6].
  destruct a as [rm e ord|rm e|joined| | |ex p tl ord|p|p ord|]; cbn [qstep].
  - destruct (insert_receipts _ _ _) as [st [[|r0 new0]|]] eqn:E; [done| |done]. set (new := r0 :: new0) in *.
    destruct (insert_slot _ _ _ _ _ E) as (J1 & J2 & J3).
    { intros r Hr. apply ordered_In, in_unpack_read in Hr. tauto. }
    { intros r Hr. apply ordered_In, in_unpack_priv in Hr. tauto. }
    assert (Hin : forall r, In r new -> In r (unpack_read rm e) \/ In r (unpack_priv rm e)).
    { intros r Hr. apply J1 in Hr. by rewrite !ordered_In in Hr. }
    set (s' := mk_q _ _ _ _ _ _ _ _ _).
    assert (Hst : forall r, In r new -> slot_of r = k -> sto s' = Some (mark_of r) /\ fst <$> sto s <> Some (rc_event r)).
    { intros r Hr Hk. destruct (J2 r Hr) as [G1 G2]. unfold slot_of in Hk. injection Hk as K1 K2 K3 K4. unfold rkey in G1, G2.
      rewrite K1, K2, K3, K4 in G1, G2. done. }
    assert (Hle : forall m, le m (sto s) -> le m (sto s')).
    { intros m Hm. destruct (List.find (fun r => bool_decide (slot_of r = k)) new) as [r|] eqn:Ef.
      - apply find_some in Ef as [Hr Hk]. apply bool_decide_eq_true in Hk. destruct (Hst r Hr Hk) as [-> G2].
        destruct Hm as (ev & ts & Hs & Hm). exists (rc_event r), (rc_ts r). split; [done|]. left.
        assert (ts < rc_ts r). { apply (Hn r ev ts); [by apply Hin|done|done|]. intros Hev. apply G2. rewrite Hs. cbn. by rewrite Hev. }
        destruct Hm as [Hm | ->]; cbn; lia.
      - assert (sto s' = sto s) as ->; [|done]. apply (J3 b (room, user, "")). intros r Hr Hp Hk.
        pose proof (List.find_none _ _ Ef r Hr) as Ef'. cbn beta in Ef'. apply bool_decide_eq_false in Ef'. apply Ef'. unfold slot_of, rkey in *. injection Hk as -> -> ->. by rewrite Hp. }
    assert (Hcat : concat (q_pend s ++ [new]) = concat (q_pend s) ++ new) by (rewrite concat_app; cbn [concat]; by rewrite app_nil_r).
    subst s'. split; qcbn; try done.
    + intros r Hk. rewrite Hcat, app_assoc. intros [Hr|Hr]%in_app_iff; [by apply Hle, I1|]. destruct (Hst r Hr Hk) as [-> _]. exists (rc_event r), (rc_ts r). split; [done|]. by right.
    + intros m Hm. by apply Hle, I2.
    + intros m Hm. by apply Hle, I3.
    + intros r. rewrite Hcat, app_assoc, keyf_app, last_app. destruct (last (keyf new)) as [x|] eqn:El.
      * intros [= ->]. apply last_keyf in El as [Hr Hk]. by apply (Hst r Hr Hk).
      * intros Hl. apply keyf_nil_iff in El. apply I4 in Hl. rewrite <- Hl. apply (J3 b (room, user, "")). intros x Hx Hp Hk.
        assert (In x (keyf new)) as Hxx; [|by rewrite El in Hxx]. apply keyf_In. split; [done|]. unfold slot_of, rkey in *. injection Hk as -> -> ->. by rewrite Hp.
  - done.
  - destruct (q_pend s) as [|rs rest] eqn:Ep; [done|]. cbn [concat] in I1, I4. destruct (q_on s) eqn:Eo.
    + assert (Hlast : last (keyf ((q_queue s ++ for_me me joined rs) ++ concat rest)) = last (keyf (q_queue s ++ rs ++ concat rest))).
      { rewrite !keyf_app, !last_app. cbn [in_room] in Hj. rewrite (for_me_last _ _ Hj). by destruct (last (keyf (concat rest))). }
      split; qcbn; try done.
      * intros r Hk Hr. apply I1; [done|]. rewrite !in_app_iff in *. destruct Hr as [[Hr|Hr]|Hr]; [by left| |by right; right]. right. left. by eapply for_me_In.
      * intros r. rewrite Hlast. apply I4.
    + destruct (I5 eq_refl) as [Eq He]. rewrite Eq in *. split; qcbn; try done.
      * intros r Hk Hr. apply I1; [done|]. cbn [app] in *. apply in_app_iff. by right.
      * intros r Hl. apply I4. cbn [app] in *. rewrite keyf_app, last_app, Hl. done.
  - split; qcbn; try done.
    + intros m Hm. by apply none_says in Hm.
  - split; qcbn; try done.
    + intros r Hk Hr. apply I1; [done|]. apply in_app_iff. by right.
    + intros m Hm. by apply none_says in Hm.
    + intros r Hl. apply I4. cbn [app] in Hl. rewrite keyf_app, last_app, Hl. done.
  - destruct (q_busy s) eqn:Eb; [done|]. destruct (q_on s) eqn:Eo; cbn [orb negb]; [|done]. split; qcbn; try done.
    intros m Hm. apply load_says in Hm. apply stored_in_load in Hm. exists m.1, m.2. split; [by destruct m|]. right. by destruct m.
  - destruct (q_busy s) eqn:Eb; [|done]. by split.
  - destruct (q_busy s) eqn:Eb; cbn [negb]; [|done]. destruct (q_queue s) as [|r rest] eqn:Eq; [done|]. split; qcbn; try done.
    + intros x Hk Hx. apply I1; [done|]. by right.
    + intros m Hm. apply append_says in Hm as [Hm|[Hk <-]]; [by apply I2|]. apply I1; [done|]. by left.
    + intros x Hl. apply I4. cbn [app]. unfold keyf in *. cbn [List.filter]. case_bool_decide; [|done].
      destruct (List.filter _ (rest ++ concat (q_pend s))) eqn:E; [done|]. exact Hl.
    + intros Ho. destruct (I5 Ho). done.
  - destruct (q_busy s) eqn:Eb; [|done]. split; qcbn; try done.
    + intros m Hm. by apply none_says in Hm.
    + apply keep_le; [|done]. intros r Hr Hk. apply in_entries in Hr as (e & He & Hs). apply I2. unfold slot_of in Hk. injection Hk as K1 K2 K3 K4.
      exists e. rewrite <- K1. split; [done|]. unfold place_of, info_of in Hs. by rewrite K2, K3, K4 in Hs.
Qed.

Lemma known_step s a : no_step_back k s a -> in_room me room s a -> rinv s -> covers s room -> covers (stepq s a) room -> known s -> known (stepq s a).
Proof.
  intros Hn Hj Hi Hc Hc' Hk. pose proof Hi as [I1 I2 I3 I4 I5 I6].
  destruct a as [rm e ord|rm e|joined| | |ex p tl ord|p|p ord|]; cbn [qstep] in *.
  - destruct (insert_receipts _ _ _) as [st [[|r0 new0]|]] eqn:E; [done| |done]. set (new := r0 :: new0) in *.
    destruct (insert_slot _ _ _ _ _ E) as (J1 & J2 & J3).
    { intros r Hr. apply ordered_In, in_unpack_read in Hr. tauto. }
    { intros r Hr. apply ordered_In, in_unpack_priv in Hr. tauto. }
    unfold known. qcbn.
    assert (Hcat : concat (q_pend s ++ [new]) = concat (q_pend s) ++ new) by (rewrite concat_app; cbn [concat]; by rewrite app_nil_r).
    rewrite Hcat, app_assoc, keyf_app, last_app. destruct (last (keyf new)) as [x|] eqn:El; [left; by exists x|].
    apply keyf_nil_iff in El. set (s' := mk_q _ _ _ _ _ _ _ _ _).
    assert (Hsto : sto s' = sto s).
    { apply (J3 b (room, user, "")). intros x Hx Hp Hkk.
      assert (In x (keyf new)) as Hxx; [|by rewrite El in Hxx]. apply keyf_In. split; [done|]. unfold slot_of, rkey in *. injection Hkk as -> -> ->. by rewrite Hp. }
    rewrite Hsto. exact Hk.
  - done.
  - destruct (q_pend s) as [|rs rest] eqn:Ep; [done|]. destruct (q_on s) eqn:Eo.
    + unfold known. qcbn. rewrite !keyf_app, !last_app. cbn [in_room] in Hj. rewrite (for_me_last _ _ Hj).
      unfold known in Hk. rewrite Ep in Hk. cbn [concat] in Hk. rewrite !keyf_app, !last_app in Hk. destruct Hk as [[r Hk]|Hk]; [|by right].
      left. exists r. by destruct (last (keyf (concat rest))).
    + destruct (I5 eq_refl) as [_ He]. destruct Hc as (e & [Ha _] & _). by rewrite He in Ha.
  - destruct Hc' as (e & [Ha _] & _). done.
  - destruct Hc' as (e & [Ha _] & _). done.
  - destruct (q_busy s) eqn:Eb; [done|]. destruct (q_on s) eqn:Eo; cbn [orb negb] in *; [|done]. unfold known in *. qcbn.
    destruct Hk as [Hk|Hk]; [by left|]. right. change (stored_in (mk_q (q_store s) (q_pend s) true (q_queue s) ex p true (load me (q_store s) ex p tl ord) (q_copy s)) k) with (sto s).
    destruct (sto s) as [m|]; [|done]. destruct Hk as [Hk|Hk]; [|by right]. rewrite (I6 eq_refl) in Hk. by apply none_says in Hk.
  - destruct (q_busy s) eqn:Eb; [|done]. exact Hk.
  - destruct (q_busy s) eqn:Eb; cbn [negb] in *; [|done]. destruct (q_queue s) as [|r rest] eqn:Eq; [done|]. unfold known in *. qcbn. rewrite Eq in Hk.
    set (s' := mk_q _ _ _ _ _ _ _ _ _) in *. change (sto s') with (sto s).
    destruct (last (keyf (rest ++ concat (q_pend s)))) as [x|] eqn:El; [left; by exists x|]. right. apply keyf_nil_iff in El.
    destruct (decide (slot_of r = k)) as [Hr|Hr].
    + assert (Hs : sto s = Some (mark_of r)).
      { apply I4. unfold keyf in *. cbn [app List.filter]. rewrite bool_decide_eq_true_2 by done. by rewrite El. }
      rewrite Hs. left. unfold slot_of in Hr. injection Hr as R1 R2 R3 R4. rewrite <- R1, <- R2, <- R4. apply append_new; [|done].
      apply in_view_covers in Hc'. rewrite R1. exact Hc'.
    + destruct Hk as [[x Hk]|Hk].
      * exfalso. unfold keyf in *. cbn [app List.filter] in Hk. rewrite bool_decide_eq_false_2 in Hk by done. by rewrite El in Hk.
      * destruct (sto s) as [m|]; [|done]. destruct Hk as [Hk|Hk]; [|by right]. left. by apply append_keeps.
  - destruct (q_busy s) eqn:Eb; [|done]. unfold known in *. qcbn. destruct Hk as [Hk|Hk]; [by left|]. right.
    set (s' := mk_q _ _ _ _ _ _ _ _ _) in *. change (sto s') with (sto s). destruct (sto s) as [[ev ts]|] eqn:Es; [|done]. right.
    apply keep_best.
    + intros r Hr Hkr. apply in_entries in Hr as (e & He & Hs). apply I2. unfold slot_of in Hkr. injection Hkr as K1 K2 K3 K4.
      exists e. rewrite <- K1. split; [done|]. unfold place_of, info_of in Hs. by rewrite K2, K3, K4 in Hs.
    + done.
    + destruct Hk as [(e & He & Hs)|Hk]; [|by left]. right. exists (mk_receipt room ev user ts "" b). split; [|done]. apply in_entries. by exists e.
Qed.
Lemma covers_dec s : covers s room \/ ~ covers s room.
Proof. destruct (in_view (q_exts s) (q_place s) room) eqn:E; [left; by apply in_view_covers|right]. intros H. apply in_view_covers in H. by rewrite E in H. Qed.

Lemma own_step s a : user = me -> no_step_back k s a -> in_room me room s a -> enters_by_request me room s a -> rinv s ->
  (covers s room -> known s) -> covers (stepq s a) room -> known (stepq s a).
Proof.
  intros Hu Hn Hj He Hi Hk Hc'. destruct (covers_dec s) as [Hc|Hc]; [apply known_step; auto|].
  specialize (He Hc Hc'). destruct a as [rm e ord|rm e|joined| | |ex p tl ord|p|p ord|]; try done. cbn [qstep] in *.
  destruct (q_busy s || negb (q_on s)); [done|]. unfold known. qcbn. right. set (s' := mk_q _ _ _ _ _ _ _ _ _) in *. change (sto s') with (sto s).
  destruct (sto s) as [m|] eqn:Es; [|done]. left. apply load_own; [done| |done|done]. by apply in_view_covers in Hc'.
Qed.

Theorem own_run l : forall s, user = me -> rinv s -> (covers s room -> known s) ->
  every_step me (fun s a => no_step_back k s a /\ in_room me room s a /\ enters_by_request me room s a) s l ->
  rinv (qrun me s l) /\ (covers (qrun me s l) room -> known (qrun me s l)).
Proof.
  unfold qrun. induction l as [|a l IH]; intros s Hu Hi Hk He; cbn [fold_left]; [done|]. destruct He as [(H1 & H2 & H3) He].
  apply IH; [done|by apply rinv_step|by apply own_step|done].
Qed.
Theorem rinv_run l : forall s, rinv s -> every_step me (fun s a => no_step_back k s a /\ in_room me room s a) s l -> rinv (qrun me s l).
Proof.
  unfold qrun. induction l as [|a l IH]; intros s Hi He; cbn [fold_left]; [done|]. destruct He as [(H1 & H2) He].
  apply IH; [by apply rinv_step|done].
Qed.
Theorem stays_run l : forall s, rinv s -> covers s room -> known s ->
  every_step me (fun s a => no_step_back k s a /\ in_room me room s a /\ stays me room s a) s l ->
  rinv (qrun me s l) /\ known (qrun me s l).
Proof.
  unfold qrun. induction l as [|a l IH]; intros s Hi Hc Hk He; cbn [fold_left]; [done|]. destruct He as [(H1 & H2 & H3) He].
  apply IH; [by apply rinv_step|done|by apply known_step|done].
Qed.
Lemma rinv_start st : rinv (qstart st).
Proof. split; cbn; try done. intros m Hm. by apply none_says in Hm. Qed.
Lemma done_known s : done_with s -> rinv s -> known s -> q_copy s k = sto s.
Proof.
  intros (Hp & Hq & Hbu) Hi Hk. unfold known in Hk. rewrite Hp, Hq in Hk. destruct Hk as [[r Hk]|Hk]; [done|].
  destruct (sto s) as [m|] eqn:Es.
  - destruct Hk as [Hk|Hk]; [|done]. rewrite (i_rest _ Hi Hbu) in Hk. by apply none_says in Hk.
  - destruct (q_copy s k) as [m|] eqn:Ec; [|done]. destruct (i_copy _ Hi _ Ec) as (ev & ts & H & _). by rewrite Es in H.
Qed.
End inv.
