(** C38: receipts. *)
From Verif Require Import Prelude ReceiptModel ReceiptSpec.
Open Scope string_scope. Open Scope list_scope. Open Scope Z_scope.

Lemma says_add e r k :
  says (add e r) k =
    if decide (place_of r = k)
    then (if bool_decide (is_Some (says e k)) && negb (bool_decide (rc_thread r = ""))
          then says e k else Some (info_of r))
    else says e k.
Proof.
  destruct k as [[ev u] b]. unfold says, add, place_of. cbn [fst snd].
  case_decide as E.
  - inversion E; subst. rewrite lookup_insert. unfold put, info_of.
    destruct (e !! rc_event r) as [c|]; cbn [default from_option id].
    + destruct (rc_private r); cbn [c_read c_priv]; destruct (bool_decide (is_Some _) && _) eqn:Eb;
        by rewrite ?lookup_insert.
    + rewrite (bool_decide_eq_false_2 (is_Some None)) by (by intros [? ?]). cbn [andb].
      destruct (rc_private r); cbn [c_read c_priv content0]; rewrite lookup_empty;
        rewrite (bool_decide_eq_false_2 (is_Some None)) by (by intros [? ?]); cbn [andb]; by rewrite lookup_insert.
  - destruct (decide (rc_event r = ev)) as [Hev|Hev].
    + rewrite Hev, lookup_insert. unfold put.
      destruct (e !! ev) as [c|]; cbn [default from_option id]; destruct (rc_private r) eqn:Ep, b; cbn [c_read c_priv content0];
        try done; try (destruct (_ && _); [done|]);
        rewrite lookup_insert_ne by congruence; done.
    + by rewrite lookup_insert_ne.
Qed.

Lemma chosen_snoc k l r :
  chosen k (l ++ [r]) =
    if decide (place_of r = k)
    then (if bool_decide (is_Some (chosen k l)) && negb (bool_decide (rc_thread r = ""))
          then chosen k l else Some r)
    else chosen k l.
Proof.
  unfold chosen. rewrite List.filter_app. cbn [List.filter].
  destruct (decide (place_of r = k)) as [E|E].
  - rewrite (bool_decide_eq_true_2 _ E). rewrite List.filter_app. cbn [List.filter].
    set (here := List.filter _ l). destruct (decide (rc_thread r = "")) as [Et|Et].
    + rewrite (bool_decide_eq_true_2 _ Et). rewrite last_snoc. cbn [negb]. by rewrite andb_false_r.
    + rewrite (bool_decide_eq_false_2 _ Et), app_nil_r. cbn [negb]. rewrite andb_true_r.
      destruct (last (List.filter _ here)) as [x|]; [by rewrite bool_decide_eq_true_2|].
      destruct here as [|x here]; cbn [head app].
      * rewrite bool_decide_eq_false_2; [done|by intros [? ?]].
      * by rewrite bool_decide_eq_true_2.
  - rewrite (bool_decide_eq_false_2 _ E), app_nil_r. done.
Qed.

Lemma pack_snoc l r : pack (l ++ [r]) = add (pack l) r.
Proof. unfold pack. by rewrite fold_left_app. Qed.

(** C38. A packed event says at each place what the chosen receipt says. *)
Theorem C38_pack l k : says (pack l) k = info_of <$> chosen k l.
Proof.
  induction l as [|r l IH] using rev_ind.
  { unfold says, pack. cbn. by rewrite lookup_empty. }
  rewrite pack_snoc, says_add, chosen_snoc, IH. destruct (decide (place_of r = k)); [|done].
  rewrite (bool_decide_ext _ _ (fmap_is_Some info_of (chosen k l))). by destruct (_ && _).
Qed.

(** ** Unpacking *)

Lemma NoDup_concat_map {A B} (f : A -> list B) (l : list A) :
  NoDup l -> (forall x, In x l -> NoDup (f x)) ->
  (forall x y z, In x l -> In y l -> In z (f x) -> In z (f y) -> x = y) -> NoDup (concat (map f l)).
Proof.
  induction l as [|a l IH]; intros Hl Hf Hd; cbn; [constructor|]. apply NoDup_cons in Hl as [Ha Hl].
  apply NoDup_app. split; [apply Hf; by left|]. split.
  - intros z Hz Hc. apply elem_of_list_In in Hz, Hc. apply in_concat in Hc as (y & Hy & Hz').
    apply in_map_iff in Hy as (x & <- & Hx).
    assert (a = x) as -> by (apply (Hd a x z); [by left|by right|done|done]).
    apply Ha. by apply elem_of_list_In.
  - apply IH; [done|intros; apply Hf; by right|]. intros x y z Hx Hy. apply Hd; by right.
Qed.

Lemma in_unpack_read room e r :
  In r (unpack_read room e)
  <-> rc_room r = room /\ rc_private r = false /\ says e (place_of r) = Some (info_of r).
Proof.
  unfold unpack_read, says, place_of. cbn [fst snd]. rewrite in_concat. split.
  - intros (x & Hx & Hr). apply in_map_iff in Hx as ([ev c] & <- & Hec). apply in_map_iff in Hr as ([u i] & <- & Hui).
    cbn [fst snd rc_room rc_private rc_event rc_user] in *.
    apply elem_of_list_In, elem_of_map_to_list in Hec. apply elem_of_list_In, elem_of_map_to_list in Hui.
    rewrite Hec, Hui. split; [done|]. split; [done|]. unfold info_of. cbn. by destruct i.
  - intros (<- & Hp & H). rewrite Hp in H. destruct (e !! rc_event r) as [c|] eqn:E; [|done].
    eexists. split.
    + apply in_map_iff. exists (rc_event r, c). split; [done|]. apply elem_of_list_In. by apply elem_of_map_to_list.
    + apply in_map_iff. exists (rc_user r, info_of r). cbn. split; [destruct r; cbn in *; by subst|].
      apply elem_of_list_In. by apply elem_of_map_to_list.
Qed.
Lemma in_unpack_priv room e r :
  In r (unpack_priv room e)
  <-> rc_room r = room /\ rc_private r = true /\ says e (place_of r) = Some (info_of r).
Proof.
  unfold unpack_priv, says, place_of. cbn [fst snd]. rewrite in_concat. split.
  - intros (x & Hx & Hr). apply in_map_iff in Hx as ([ev c] & <- & Hec). apply in_map_iff in Hr as ([u i] & <- & Hui).
    cbn [fst snd rc_room rc_private rc_event rc_user] in *.
    apply elem_of_list_In, elem_of_map_to_list in Hec. apply elem_of_list_In, elem_of_map_to_list in Hui.
    rewrite Hec, Hui. split; [done|]. split; [done|]. unfold info_of. cbn. by destruct i.
  - intros (<- & Hp & H). rewrite Hp in H. destruct (e !! rc_event r) as [c|] eqn:E; [|done].
    eexists. split.
    + apply in_map_iff. exists (rc_event r, c). split; [done|]. apply elem_of_list_In. by apply elem_of_map_to_list.
    + apply in_map_iff. exists (rc_user r, info_of r). cbn. split; [destruct r; cbn in *; by subst|].
      apply elem_of_list_In. by apply elem_of_map_to_list.
Qed.
Lemma nodup_unpack_read room e : NoDup (unpack_read room e).
Proof.
  apply NoDup_concat_map; [apply NoDup_map_to_list| |].
  - intros [ev c] _. cbn. apply NoDup_fmap_2_strong; [|apply NoDup_map_to_list].
    intros [u i] [u' i'] _ _ H. inversion H; subst. f_equal. destruct i, i'; cbn in *; by subst.
  - intros [ev c] [ev' c'] z Hx Hy Hz Hz'. cbn in *. apply in_map_iff in Hz as (y & <- & _).
    apply in_map_iff in Hz' as (y' & H & _). inversion H; subst.
    apply elem_of_list_In, elem_of_map_to_list in Hx. apply elem_of_list_In, elem_of_map_to_list in Hy. congruence.
Qed.
Lemma nodup_unpack_priv room e : NoDup (unpack_priv room e).
Proof.
  apply NoDup_concat_map; [apply NoDup_map_to_list| |].
  - intros [ev c] _. cbn. apply NoDup_fmap_2_strong; [|apply NoDup_map_to_list].
    intros [u i] [u' i'] _ _ H. inversion H; subst. f_equal. destruct i, i'; cbn in *; by subst.
  - intros [ev c] [ev' c'] z Hx Hy Hz Hz'. cbn in *. apply in_map_iff in Hz as (y & <- & _).
    apply in_map_iff in Hz' as (y' & H & _). inversion H; subst.
    apply elem_of_list_In, elem_of_map_to_list in Hx. apply elem_of_list_In, elem_of_map_to_list in Hy. congruence.
Qed.

Lemma in_unpacks room e pub priv r : unpacks room e pub priv ->
  (In r (pub ++ priv) <-> rc_room r = room /\ says e (place_of r) = Some (info_of r)).
Proof.
  intros [Hp Hv]. rewrite in_app_iff. rewrite <- !elem_of_list_In. rewrite Hp, Hv, !elem_of_list_In.
  rewrite in_unpack_read, in_unpack_priv. destruct (rc_private r); naive_solver.
Qed.
Lemma nodup_unpacks room e pub priv : unpacks room e pub priv -> NoDup (pub ++ priv).
Proof.
  intros [Hp Hv]. rewrite Hp, Hv. apply NoDup_app. split; [apply nodup_unpack_read|].
  split; [|apply nodup_unpack_priv]. intros r H1 H2. apply elem_of_list_In in H1, H2.
  apply in_unpack_read in H1 as (_ & H1 & _). apply in_unpack_priv in H2 as (_ & H2 & _). congruence.
Qed.

(** C38. Unpacking what was packed yields exactly the chosen receipts, one per
    event, user and kind. *)
Theorem C38_unpack_of_pack room l pub priv : unpacks room (pack l) pub priv ->
  (forall r, In r (pub ++ priv) <-> rc_room r = room /\ info_of <$> chosen (place_of r) l = Some (info_of r))
  /\ (forall r, In r pub -> rc_private r = false) /\ (forall r, In r priv -> rc_private r = true)
  /\ NoDup (map place_of (pub ++ priv)).
Proof.
  intros H. split; [|split; [|split]].
  - intros r. rewrite (in_unpacks room _ pub priv r H), C38_pack. done.
  - intros r Hr. destruct H as [Hp _]. apply elem_of_list_In in Hr. rewrite Hp in Hr.
    apply elem_of_list_In, in_unpack_read in Hr. tauto.
  - intros r Hr. destruct H as [_ Hp]. apply elem_of_list_In in Hr. rewrite Hp in Hr.
    apply elem_of_list_In, in_unpack_priv in Hr. tauto.
  - apply NoDup_fmap_2_strong; [|by eapply nodup_unpacks]. intros x y Hx Hy E.
    apply elem_of_list_In in Hx, Hy. apply (in_unpacks room _ pub priv _ H) in Hx as [R1 S1].
    apply (in_unpacks room _ pub priv _ H) in Hy as [R2 S2]. rewrite E, S2 in S1. inversion S1 as [[H1 H2]].
    unfold place_of in E. destruct x, y; cbn in *. inversion E; by subst.
Qed.
Print Assumptions C38_unpack_of_pack.

Lemma chosen_unique l r : NoDup (map place_of l) -> In r l -> chosen (place_of r) l = Some r.
Proof.
  intros Hnd Hin. unfold chosen.
  assert (E : List.filter (fun x => bool_decide (place_of x = place_of r)) l = [r]).
  { revert Hnd Hin. induction l as [|x l IH]; intros Hnd Hin; [done|]. cbn in Hnd. apply NoDup_cons in Hnd as [Hx Hnd].
    cbn [List.filter]. destruct Hin as [->|Hin].
    - rewrite bool_decide_eq_true_2 by done. f_equal.
      destruct (List.filter _ l) as [|y ys] eqn:E; [done|]. exfalso.
      assert (In y (y :: ys)) as Hy by (by left). rewrite <- E in Hy. apply filter_In in Hy as [Hy Hk].
      apply bool_decide_eq_true in Hk. apply Hx. rewrite <- Hk. apply elem_of_list_In. by apply in_map.
    - rewrite bool_decide_eq_false_2; [by apply IH|]. intros Hk. apply Hx. rewrite Hk.
      apply elem_of_list_In. by apply in_map. }
  rewrite E. cbn [List.filter]. by case_bool_decide.
Qed.
Lemma chosen_in k l r : chosen k l = Some r -> In r l /\ place_of r = k.
Proof.
  unfold chosen. set (here := List.filter _ l). intros H.
  assert (Hin : In r here).
  { destruct (last (List.filter _ here)) as [x|] eqn:E.
    - inversion H; subst. apply last_Some in E as [l' E].
      assert (In r (List.filter (fun r => bool_decide (rc_thread r = "")) here)) as Hr.
      { rewrite E. apply in_or_app. right. by left. }
      by apply filter_In in Hr as [Hr _].
    - destruct here as [|x h]; [done|]. inversion H; subst. by left. }
  apply filter_In in Hin as [Hin Hk]. apply bool_decide_eq_true in Hk. done.
Qed.

(** C38. A list of receipts of one room with at most one per event, user and kind
    comes back as it was, up to its order. *)
Theorem C38_roundtrip room l pub priv :
  (forall r, In r l -> rc_room r = room) -> NoDup (map place_of l) ->
  unpacks room (pack l) pub priv -> Permutation (pub ++ priv) l.
Proof.
  intros Hroom Hnd H. apply NoDup_Permutation; [by eapply nodup_unpacks|by eapply NoDup_fmap_1|].
  intros r. rewrite !elem_of_list_In. destruct (C38_unpack_of_pack _ _ _ _ H) as [Hin _]. rewrite Hin. split.
  - intros [Hr Hc]. apply fmap_Some in Hc as (r' & Hc & Hi). apply chosen_in in Hc as [Hc Hk].
    assert (r = r') as ->; [|done]. assert (rc_room r' = room) by auto.
    unfold place_of, info_of in *. destruct r, r'; cbn in *. inversion Hk; inversion Hi; by subst.
  - intros Hr. split; [auto|]. by rewrite chosen_unique.
Qed.
Print Assumptions C38_roundtrip.

(** C38. If some receipt for a place is unthreaded, an unthreaded one is sent. *)
Theorem C38_unthreaded_first l r : In r l -> rc_thread r = "" ->
  exists r', chosen (place_of r) l = Some r' /\ rc_thread r' = "" /\ In r' l.
Proof.
  intros Hin Ht. unfold chosen. set (here := List.filter _ l).
  assert (Hr : In r (List.filter (fun r => bool_decide (rc_thread r = "")) here)).
  { apply filter_In. split; [apply filter_In; split; [done|]|]; by apply bool_decide_eq_true. }
  destruct (last (List.filter (fun r => bool_decide (rc_thread r = "")) here)) as [x|] eqn:E.
  - exists x. split; [done|]. apply last_Some in E as [l' E].
    assert (Hx : In x (List.filter (fun r => bool_decide (rc_thread r = "")) here)).
    { rewrite E. apply in_or_app. right. by left. }
    apply filter_In in Hx as [Hx Hxt]. apply bool_decide_eq_true in Hxt. split; [done|].
    by apply filter_In in Hx as [Hx _].
  - apply last_None in E. rewrite E in Hr. done.
Qed.

(** ** Live updates *)

Lemma edu_says_ext (e e' : edu) : (forall k, says e k = says e' k) ->
  forall room pub priv pub' priv', unpacks room e pub priv -> unpacks room e' pub' priv' ->
  Permutation (pub ++ priv) (pub' ++ priv').
Proof.
  intros H room pub priv pub' priv' H1 H2.
  apply NoDup_Permutation; [by eapply nodup_unpacks..|]. intros r. rewrite !elem_of_list_In.
  rewrite (in_unpacks _ _ _ _ r H1), (in_unpacks _ _ _ _ r H2), H. done.
Qed.

(** Chosen from the unpacked receipts. *)
Lemma chosen_unpacks room e pub priv k : unpacks room e pub priv ->
  info_of <$> chosen k (pub ++ priv) = says e k.
Proof.
  intros H. assert (Hnd : NoDup (map place_of (pub ++ priv))).
  { apply NoDup_fmap_2_strong; [|by eapply nodup_unpacks]. intros x y Hx Hy E.
    apply elem_of_list_In in Hx, Hy. apply (in_unpacks room _ pub priv _ H) in Hx as [R1 S1].
    apply (in_unpacks room _ pub priv _ H) in Hy as [R2 S2]. rewrite E, S2 in S1. inversion S1 as [[H1 H2]].
    unfold place_of in E. destruct x, y; cbn in *. inversion E; by subst. }
  destruct (chosen k (pub ++ priv)) as [r|] eqn:E.
  - apply chosen_in in E as [Hin <-]. apply (in_unpacks room _ pub priv _ H) in Hin as [_ ->]. done.
  - destruct (says e k) as [i|] eqn:Es; [|done]. exfalso. destruct k as [[ev u] b].
    set (r := mk_receipt room ev u (i_ts i) (i_thread i) b).
    assert (Hi : info_of r = i) by (by destruct i).
    assert (Hin : In r (pub ++ priv)).
    { apply (in_unpacks room e pub priv r H). split; [done|]. rewrite Hi. exact Es. }
    apply (chosen_unique _ _ Hnd) in Hin. cbn in Hin. unfold place_of in Hin. cbn in Hin. congruence.
Qed.

(** C38. However receipts are added one by one, a room's event says what packing
    them all at once would say. *)
Theorem C38_live_updates scope l res : append_all scope ∅ l res ->
  forall room, match res !! room with
    | Some e => scope room = true
        /\ forall k, says e k = info_of <$> chosen k (List.filter (fun r => bool_decide (rc_room r = room)) l)
    | None => forall r, In r l -> rc_room r = room -> scope room = false
    end.
Proof.
  intros Hall room.
  enough (Hgen : forall res0 l0, append_all scope res0 l res ->
    match res0 !! room with
    | Some e => scope room = true /\ forall k, says e k = info_of <$> chosen k (List.filter (fun r => bool_decide (rc_room r = room)) l0)
    | None => forall r, In r l0 -> rc_room r = room -> scope room = false end ->
    match res !! room with
    | Some e => scope room = true /\ forall k, says e k = info_of <$> chosen k (List.filter (fun r => bool_decide (rc_room r = room)) (l0 ++ l))
    | None => forall r, In r (l0 ++ l) -> rc_room r = room -> scope room = false end).
  { apply (Hgen ∅ []); [done|]. by rewrite lookup_empty. }
  clear Hall. revert res. induction l as [|r l IH]; intros res res0 l0 Hall H0.
  { inversion Hall; subst. by rewrite app_nil_r. }
  inversion Hall as [|? ? res' ? ? Hr Hall']; subst.
  replace (l0 ++ r :: l) with ((l0 ++ [r]) ++ l) by (by rewrite <- app_assoc).
  apply (IH res res' (l0 ++ [r]) Hall'). clear IH Hall Hall'.
  destruct (decide (rc_room r = room)) as [Er|Er].
  2:{ assert (El : res' !! room = res0 !! room).
      { inversion Hr; subst; [done|..]; by rewrite lookup_insert_ne. }
      rewrite El, List.filter_app. cbn [List.filter]. rewrite (bool_decide_eq_false_2 _ Er), app_nil_r.
      destruct (res0 !! room); [done|]. intros x Hx Hxr. apply in_app_or in Hx as [Hx|[<-|[]]]; [by eapply H0|done]. }
  rewrite List.filter_app. cbn [List.filter]. rewrite (bool_decide_eq_true_2 _ Er).
  inversion Hr as [Hs|Hs Hn|e pub priv Hs Hsome Hu]; subst.
  - destruct (res' !! rc_room r) as [e|]; [destruct H0 as [H0 _]; congruence|done].
  - rewrite Hn in H0. rewrite lookup_insert. split; [done|]. intros k. rewrite C38_pack. f_equal.
    assert (Hnil : List.filter (fun x => bool_decide (rc_room x = rc_room r)) l0 = []).
    { destruct (List.filter _ l0) as [|y ys] eqn:E; [done|]. exfalso.
      assert (In y (y :: ys)) as Hy by (by left). rewrite <- E in Hy. apply filter_In in Hy as [Hy Hk].
      apply bool_decide_eq_true in Hk. specialize (H0 y Hy Hk). congruence. }
    by rewrite Hnil.
  - rewrite Hsome in H0. destruct H0 as [_ H0]. rewrite lookup_insert. split; [done|]. intros k.
    rewrite app_assoc, C38_pack, !chosen_snoc.
    pose proof (chosen_unpacks _ _ _ _ k Hu) as Hc. rewrite H0 in Hc.
    destruct (decide (place_of r = k)); [|done].
    assert (Hiff : is_Some (chosen k (pub ++ priv))
      <-> is_Some (chosen k (List.filter (fun x => bool_decide (rc_room x = rc_room r)) l0))).
    { rewrite <- (fmap_is_Some info_of), Hc. by rewrite fmap_is_Some. }
    rewrite (bool_decide_ext _ _ Hiff). by destruct (_ && _).
Qed.
Print Assumptions C38_live_updates.

(** ** Privacy *)

(** C38. A live private receipt reaches only its user, a public one exactly the
    joined users with a cache. *)
Theorem C38_delivered_to cached joined rs u r :
  In (u, r) (deliveries cached joined rs)
  <-> In r rs /\ cached u = true /\ (if rc_private r then u = rc_user r else In u (joined (rc_room r))).
Proof.
  unfold deliveries. rewrite in_app_iff, in_map_iff, in_concat. split.
  - intros [(x & [= <- ->] & Hx)|(x & Hx & Hr)].
    + apply filter_In in Hx as [Hx Hp]. apply andb_true_iff in Hp as [-> Hc]. done.
    + apply in_map_iff in Hx as (y & <- & Hy). apply in_map_iff in Hr as (v & [= -> ->] & Hv).
      apply filter_In in Hy as [Hy Hp]. apply filter_In in Hv as [Hv Hc]. by destruct (rc_private r).
  - intros (Hin & Hc & Hp). destruct (rc_private r) eqn:E.
    + subst. left. exists r. split; [done|]. apply filter_In. split; [done|]. by rewrite E, Hc.
    + right. eexists. split.
      * apply in_map_iff. exists r. split; [done|]. apply filter_In. by rewrite E.
      * apply in_map_iff. exists u. split; [done|]. by apply filter_In.
Qed.

(** C38. Whatever is delivered, no response of a user has a private receipt of
    somebody else. *)
Theorem C38_private_live cached joined rs scope u l res room e ev user :
  (forall r, In r l -> In (u, r) (deliveries cached joined rs)) ->
  append_all scope ∅ l res -> res !! room = Some e ->
  is_Some (says e (ev, user, true)) -> user = u /\ exists r, In r rs /\ rc_user r = u /\ rc_event r = ev /\ rc_room r = room.
Proof.
  intros Hl Hall Hres [i Hi]. pose proof (C38_live_updates scope l res Hall room) as H. rewrite Hres in H.
  destruct H as [_ H]. rewrite H in Hi. apply fmap_Some in Hi as (r & Hc & _). apply chosen_in in Hc as [Hin Hk].
  apply filter_In in Hin as [Hin Hroom]. apply bool_decide_eq_true in Hroom. specialize (Hl r Hin).
  apply C38_delivered_to in Hl as (Hrs & _ & Hp). unfold place_of in Hk. inversion Hk as [[H1 H2 H3]]. rewrite H3 in Hp.
  subst. split; [done|]. by exists r.
Qed.
Print Assumptions C38_private_live.

Lemma in_rows t b r : In r (rows t b) <-> rc_private r = b /\ t !! rkey r = Some (rc_event r, rc_ts r).
Proof.
  unfold rows, rkey. rewrite in_map_iff. split.
  - intros ([[[rm u] th] [ev ts]] & <- & H). cbn. apply elem_of_list_In, elem_of_map_to_list in H. done.
  - intros [<- H]. exists ((rc_room r, rc_user r, rc_thread r), (rc_event r, rc_ts r)). cbn.
    split; [by destruct r|]. apply elem_of_list_In. by apply elem_of_map_to_list.
Qed.

(** C38. A room's first event says something about a user and event exactly if
    there is a stored receipt for them: a public one on the timeline or of the user
    who asks, or a private one of the user who asks. *)
Theorem C38_initial s user room timeline l e ev u (private : bool) :
  initial_edu s user room timeline l e ->
  is_Some (says e (ev, u, private))
  <-> exists ts thread, (if private then s_priv s else s_pub s) !! (room, u, thread) = Some (ev, ts)
        /\ (if private then u = user else (In ev timeline \/ u = user)).
Proof.
  intros (Hp & _ & ->). rewrite C38_pack, fmap_is_Some. split.
  - intros [r Hr]. apply chosen_in in Hr as [Hin Hk]. unfold place_of in Hk. inversion Hk; subst.
    apply elem_of_list_In in Hin. rewrite Hp in Hin. apply elem_of_list_In, in_app_or in Hin as [Hin|Hin].
    + apply filter_In in Hin as [Hin Hb]. apply andb_true_iff in Hb as [Hb1 Hb2].
      apply bool_decide_eq_true in Hb1, Hb2. apply in_rows in Hin as [Hpr Hin]. rewrite Hpr.
      exists (rc_ts r), (rc_thread r). unfold rkey in Hin. rewrite Hb1 in Hin. split; [done|]. left. by apply elem_of_list_In.
    + apply filter_In in Hin as [Hin Hb]. apply andb_true_iff in Hb as [Hb1 Hb2].
      apply bool_decide_eq_true in Hb1, Hb2. exists (rc_ts r), (rc_thread r).
      apply in_app_or in Hin as [Hin|Hin]; apply in_rows in Hin as [Hpr Hin]; rewrite Hpr; unfold rkey in Hin;
        rewrite Hb1 in Hin; (split; [done|]); [by right|done].
  - intros (ts & thread & Hl & Hw).
    set (r := mk_receipt room ev u ts thread private).
    assert (Hin : In r l).
    { apply elem_of_list_In. rewrite Hp. apply elem_of_list_In. apply in_or_app.
      destruct private.
      - subst. right. apply filter_In. cbn. rewrite !bool_decide_eq_true_2 by done. split; [|done].
        apply in_or_app. right. by apply in_rows.
      - destruct Hw as [Hw|Hw].
        + left. apply elem_of_list_In in Hw. apply filter_In. cbn. rewrite !bool_decide_eq_true_2 by done. split; [|done]. by apply in_rows.
        + right. subst. apply filter_In. cbn. rewrite !bool_decide_eq_true_2 by done. split; [|done].
          apply in_or_app. left. by apply in_rows. }
    destruct (chosen (ev, u, private) l) as [x|] eqn:E; [done|]. exfalso. unfold chosen in E.
    set (here := List.filter _ l) in E. assert (In r here) as Hh.
    { apply filter_In. split; [done|]. by apply bool_decide_eq_true. }
    destruct (last _); [done|]. destruct here; done.
Qed.
Print Assumptions C38_initial.

(** ** Storing *)

Lemma bulk_spec l : forall t touched t' new,
  bulk t touched l = Some (t', new) ->
  (forall r, In r l -> ~ rkey r ∈ touched) /\ NoDup (map rkey new)
  /\ new = List.filter (changes t) l
  /\ (forall k, t' !! k = match List.find (fun r => bool_decide (rkey r = k)) new with
        | Some r => Some (rc_event r, rc_ts r) | None => t !! k end).
Proof.
  induction l as [|r l IH]; intros t touched t' new H; cbn [bulk] in H.
  { inversion H; subst. repeat split; try done; constructor. }
  case_bool_decide as Ht; [done|]. cbn [List.filter]. unfold changes at 1.
  case_bool_decide as Hc; cbn [negb].
  - apply IH in H as (H1 & H2 & H3 & H4). split; [|done]. intros x [<-|Hx]; auto.
  - destruct (bulk _ _ l) as [[t1 n1]|] eqn:E; [|done]. inversion H; subst.
    apply IH in E as (H1 & H2 & H3 & H4).
    assert (Hnew : List.filter (changes (<[rkey r:=(rc_event r, rc_ts r)]> t)) l = List.filter (changes t) l).
    { apply filter_ext_in. intros x Hx. unfold changes. rewrite lookup_insert_ne; [done|].
      intros Hk. apply (H1 x Hx). rewrite Hk. apply elem_of_list_here. }
    rewrite <- Hnew, <- H3. split; [|split; [|split; [done|]]].
    + intros x [<-|Hx]; [done|]. intros Hk. apply (H1 x Hx). by apply elem_of_list_further.
    + cbn. apply NoDup_cons. split; [|done]. intros Hk. apply elem_of_list_In, in_map_iff in Hk as (x & Hk & Hx).
      rewrite H3 in Hx. apply filter_In in Hx as [Hx _]. apply (H1 x Hx). rewrite Hk. apply elem_of_list_here.
    + intros k. rewrite H4. cbn [List.find]. case_bool_decide as Hk.
      * subst k. destruct (List.find _ n1) as [x|] eqn:Ef; [|by rewrite lookup_insert]. exfalso.
        apply find_some in Ef as [Hx Hk]. apply bool_decide_eq_true in Hk. rewrite H3 in Hx.
        apply filter_In in Hx as [Hx _]. apply (H1 x Hx). rewrite Hk. apply elem_of_list_here.
      * destruct (List.find _ n1); [done|]. by rewrite lookup_insert_ne.
Qed.

(** C38. If an insert succeeds, the new receipts are exactly those whose event
    differs from the stored one; they are stored, and nothing else changes. *)
Theorem C38_insert s pub priv s' new : insert_receipts s pub priv = (s', Some new) ->
  new = List.filter (changes (s_pub s)) pub ++ List.filter (changes (s_priv s)) priv
  /\ (forall k, s_pub s' !! k = match List.find (fun r => bool_decide (rkey r = k)) (List.filter (changes (s_pub s)) pub) with
        | Some r => Some (rc_event r, rc_ts r) | None => s_pub s !! k end)
  /\ (forall k, s_priv s' !! k = match List.find (fun r => bool_decide (rkey r = k)) (List.filter (changes (s_priv s)) priv) with
        | Some r => Some (rc_event r, rc_ts r) | None => s_priv s !! k end).
Proof.
  unfold insert_receipts. destruct (bulk (s_pub s) [] pub) as [[tp np]|] eqn:E1; [|done].
  destruct (bulk (s_priv s) [] priv) as [[tv nv]|] eqn:E2; [|done]. intros [= <- <-].
  apply bulk_spec in E1 as (_ & _ & -> & H1). apply bulk_spec in E2 as (_ & _ & -> & H2). done.
Qed.
Theorem C38_failed_insert s pub priv s' : insert_receipts s pub priv = (s', None) -> s' = s.
Proof.
  unfold insert_receipts. destruct (bulk (s_pub s) [] pub) as [[tp np]|]; [|by intros [= <-]].
  destruct (bulk (s_priv s) [] priv) as [[tv nv]|]; [done|by intros [= <-]].
Qed.
(** An event with at most one receipt per user and thread is never refused. *)
Theorem C38_insert_succeeds s pub priv :
  NoDup (map rkey pub) -> NoDup (map rkey priv) -> exists s' new, insert_receipts s pub priv = (s', Some new).
Proof.
  enough (H : forall l t touched, NoDup (map rkey l) -> (forall r, In r l -> ~ rkey r ∈ touched) -> is_Some (bulk t touched l)).
  { intros H1 H2. unfold insert_receipts.
    destruct (H pub (s_pub s) [] H1) as [[tp np] ->]; [intros ? _ Hx; by apply elem_of_nil in Hx|].
    destruct (H priv (s_priv s) [] H2) as [[tv nv] ->]; [intros ? _ Hx; by apply elem_of_nil in Hx|]. eauto. }
  induction l as [|r l IH]; intros t touched Hnd Ht; [done|]. cbn in Hnd. apply NoDup_cons in Hnd as [Hr Hnd].
  cbn [bulk]. rewrite bool_decide_eq_false_2 by (apply Ht; by left). case_bool_decide.
  - apply IH; [done|]. intros x Hx. apply Ht. by right.
  - destruct (IH (<[rkey r:=(rc_event r, rc_ts r)]> t) (rkey r :: touched) Hnd) as [[t1 n1] ->]; [|done].
    intros x Hx Hk. apply elem_of_cons in Hk as [Hk|Hk]; [|by apply (Ht x); [right|]].
    apply Hr. rewrite <- Hk. apply elem_of_list_In. by apply in_map.
Qed.
Print Assumptions C38_insert_succeeds.

(** Otherwise it can be refused as a whole: a user's unthreaded receipts for two
    events in one upstream event; nothing of it is stored, not even the receipts
    of others. *)
Theorem C38_two_receipts_refuted :
  let a := mk_receipt "!r" "$1" "@a" 10 "" false in let a' := mk_receipt "!r" "$2" "@a" 20 "" false in
  let b := mk_receipt "!r" "$2" "@b" 20 "" false in
  unpacks "!r" (pack [a; a'; b]) [a; b; a'] []
  /\ insert_receipts (mk_store ∅ ∅) [a; b; a'] [] = (mk_store ∅ ∅, None).
Proof.
  cbn zeta. split; [|vm_compute; reflexivity]. split; [|vm_compute; constructor].
  symmetry. apply NoDup_Permutation; [apply nodup_unpack_read| |].
  - repeat constructor; set_solver.
  - intros r. rewrite !elem_of_list_In. vm_compute. naive_solver.
Qed.

Example C38_example :
  let t := mk_receipt "!r" "$1" "@a" 10 "$t" false in let u := mk_receipt "!r" "$1" "@a" 20 "" false in
  let p := mk_receipt "!r" "$1" "@a" 30 "" true in
  says (pack [t; u; p]) ("$1", "@a", false) = Some (mk_info 20 "")
  /\ says (pack [u; t; p]) ("$1", "@a", false) = Some (mk_info 20 "")
  /\ says (pack [u; t; p]) ("$1", "@a", true) = Some (mk_info 30 "")
  /\ deliveries (fun _ => true) (fun _ => ["@a"; "@b"]) [u; p] = [("@a", p); ("@a", u); ("@b", u)]
  /\ (exists s new, insert_receipts (mk_store ∅ ∅) [u; t] [p] = (s, Some new) /\ new = [u; t; p]
       /\ exists l e, initial_edu s "@b" "!r" ["$1"] l e /\ says e ("$1", "@a", false) = Some (mk_info 20 "")
            /\ says e ("$1", "@a", true) = None).
Proof.
  cbn zeta. repeat (split; [vm_compute; reflexivity|]). eexists _, _. split; [reflexivity|]. split; [vm_compute; reflexivity|].
  eexists _, _. split; [split; [reflexivity|]; split; [|reflexivity]; vm_compute; done|].
  split; vm_compute; reflexivity.
Qed.
