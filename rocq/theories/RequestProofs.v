(** Proofs about sticky requests. *)
From Verif Require Import Prelude RangeModel RoomNameModel ListsModel RequestModel RequestSpec.
Open Scope string_scope.
Open Scope list_scope.
Open Scope Z_scope.

Lemma last_given_snoc {A B} (f : A -> option B) l x :
  last_given f (l ++ [x]) = newer (f x) (last_given f l).
Proof.
  unfold last_given. rewrite omap_app. cbn. destruct (f x) as [b|]; cbn.
  - by rewrite last_snoc.
  - by rewrite app_nil_r.
Qed.
Lemma newer_limit n o :
  (if n =? 0 then default 0 o else n) = default 0 (newer (given_limit n) o).
Proof. unfold given_limit. by destruct (n =? 0). Qed.
Lemma newer_since n o :
  (if String.eqb n "" then default "" o else n) = default "" (newer (given_since n) o).
Proof. unfold given_since. by destruct (String.eqb n ""). Qed.

Definition said_list (ls : list rlist) : rlist :=
  mk_rlist (last_given rl_state ls) (default 0 (last_given (fun l => given_limit (rl_limit l)) ls))
    (last_given rl_old ls) (last_given rl_heroes ls) (last_given rl_ranges ls) (sort_given ls)
    (last_given rl_filters ls) (last_given rl_all ls)
    (match ls with [l] => rl_deleted l | _ => false end) (last_given rl_bump ls).

Lemma last_given_one {A B} (f : A -> option B) x : last_given f [x] = f x.
Proof. unfold last_given. cbn. by destruct (f x). Qed.
Lemma given_limit_id n : default 0 (given_limit n) = n.
Proof. unfold given_limit. by destruct (Z.eqb_spec n 0) as [->|]. Qed.
Lemma given_since_id n : default "" (given_since n) = n.
Proof. unfold given_since. by destruct (String.eqb_spec n "") as [->|]. Qed.
Lemma said_list_one l : said_list [l] = new_rlist l.
Proof.
  unfold said_list. rewrite !last_given_one, given_limit_id. cbn [sort_given map]. rewrite last_given_one.
  unfold new_rlist, first_sort, id. destruct l as [st li ol he ra so fi al de bu].
  destruct so as [[|s so]|]; done.
Qed.
Lemma sort_given_snoc ls l : ls <> [] -> sort_given (ls ++ [l]) = newer (rl_sort l) (sort_given ls).
Proof.
  destruct ls as [|a ls]; [done|]. intros _. cbn [sort_given app]. rewrite map_app. cbn [map].
  change (first_sort a :: map rl_sort ls ++ [rl_sort l]) with ((first_sort a :: map rl_sort ls) ++ [rl_sort l]).
  by rewrite last_given_snoc.
Qed.
Lemma said_list_snoc ls l : ls <> [] -> said_list (ls ++ [l]) = list_merge (said_list ls) l.
Proof.
  intros H. unfold said_list, list_merge; cbn. rewrite !last_given_snoc, sort_given_snoc by done.
  f_equal; [by rewrite newer_limit|]. destruct ls as [|a [|b ls]]; done.
Qed.

Lemma said_ne key reqs ls : said key reqs = Some ls -> ls <> [].
Proof.
  unfold said. revert ls. induction reqs as [|r reqs IH] using rev_ind; intros ls; [done|].
  rewrite foldl_app. cbn. set (s := foldl _ None reqs) in *. unfold said_next.
  destruct s as [ls1|], (rq_lists r !! key) as [l|]; try done.
  - destruct (rl_deleted l); [done|]. intros [= <-]. by destruct ls1.
  - apply IH.
  - by intros [= <-].
Qed.

Lemma effective_snoc ord reqs r :
  effective ord (reqs ++ [r]) = Some (apply_delta ord (effective ord reqs) r).1.
Proof. unfold effective, effective_from. by rewrite foldl_app. Qed.

Lemma apply_lists ord r next key :
  rq_lists (apply_delta ord r next).1 !! key =
  list_result (rq_lists (default empty_req r) !! key) (rq_lists next !! key).
Proof.
  unfold apply_delta. destruct (unsub ∅ _ _) as [s0 o0]. destruct (unsub (rq_subs next) _ _) as [s1 o1].
  cbn [fst rq_lists]. rewrite lookup_merge. unfold diag_None, list_result.
  by destruct (rq_lists (default empty_req r) !! key), (rq_lists next !! key).
Qed.

Lemma effective_lists ord reqs key :
  rq_lists (default empty_req (effective ord reqs)) !! key = said_list <$> said key reqs.
Proof.
  induction reqs as [|r reqs IH] using rev_ind.
  - cbn. by rewrite lookup_empty.
  - rewrite effective_snoc. change (default empty_req (Some ?x)) with x. rewrite apply_lists, IH.
    unfold said. rewrite foldl_app. cbn [foldl]. fold (said key reqs).
    destruct (said key reqs) as [ls|] eqn:E, (rq_lists r !! key) as [l|]; cbn; try done.
    + destruct (rl_deleted l); cbn; [done|]. f_equal. rewrite said_list_snoc; [done|]. by eapply said_ne.
    + by rewrite said_list_one.
Qed.

(** Extensions. *)
Definition said_ext_value (es : list ext) : option ext :=
  match es with
  | [] => None
  | _ => Some (mk_ext (last_given e_enabled es) (Some (default ["*"] (last_given e_lists es)))
                 (Some (default ["*"] (last_given e_rooms es)))
                 (default 0 (last_given (fun e => given_limit (e_limit e)) es))
                 (default "" (last_given (fun e => given_since (e_since e)) es)))
  end.
Lemma said_ext_snoc es e :
  said_ext_value (es ++ [e]) =
  match said_ext_value es with None => Some (as_initial e) | Some o => Some (ext_delta o e) end.
Proof.
  destruct es as [|a es].
  - cbn [app said_ext_value]. rewrite !last_given_one, given_limit_id, given_since_id. unfold as_initial. f_equal. destruct e as [en li ro lm si]. f_equal.
    + by destruct li.
    + by destruct ro.
  - change ((a :: es) ++ [e]) with (a :: (es ++ [e])) at 1. cbn [said_ext_value].
    change (a :: (es ++ [e])) with ((a :: es) ++ [e]). rewrite !last_given_snoc.
    unfold ext_delta; cbn. rewrite newer_limit, newer_since. f_equal. f_equal.
    + destruct (e_lists e); done.
    + destruct (e_rooms e); done.
Qed.
Lemma effective_exts ord reqs k :
  rq_exts (default empty_req (effective ord reqs)) k = said_ext_value (said_ext k reqs).
Proof.
  induction reqs as [|r reqs IH] using rev_ind; [done|].
  rewrite effective_snoc. change (default empty_req (Some ?x)) with x.
  unfold said_ext in *. rewrite omap_app. cbn [omap list_omap].
  assert (Hx : rq_exts (apply_delta ord (effective ord reqs) r).1 k =
     match rq_exts r k with
     | None => rq_exts (default empty_req (effective ord reqs)) k
     | Some n => match rq_exts (default empty_req (effective ord reqs)) k with
                 | None => Some (as_initial n) | Some e => Some (ext_delta e n) end
     end).
  { unfold apply_delta. destruct (effective ord reqs) as [m|]; cbn [default from_option id].
    - destruct (unsub ∅ _ _) as [s0 o0]. destruct (unsub (rq_subs r) _ _) as [s1 o1]. cbn.
      unfold exts_delta. by destruct (rq_exts r k), (rq_exts m k).
    - destruct (unsub ∅ _ _) as [s0 o0]. destruct (unsub (rq_subs r) _ _) as [s1 o1]. cbn.
      unfold exts_initial. by destruct (rq_exts r k). }
  rewrite Hx, IH. destruct (rq_exts r k) as [n|]; cbn.
  - by rewrite said_ext_snoc.
  - by rewrite app_nil_r.
Qed.

(** Subscriptions. *)
Lemma unsub_lookup ns s rooms x :
  (unsub ns s rooms).1 !! x = if bool_decide (x ∈ rooms) then None else s !! x.
Proof.
  revert s. induction rooms as [|y rooms IH]; intros s; cbn [unsub]; [done|].
  specialize (IH (delete y s)). destruct (unsub ns (delete y s) rooms) as [s' out] eqn:E. cbn [fst] in *.
  rewrite IH. repeat case_bool_decide; try done; try set_solver.
  - assert (x = y) as -> by set_solver. by rewrite lookup_delete.
  - rewrite lookup_delete_ne; [done|set_solver].
Qed.
Lemma unsub_out ns s rooms x :
  x ∈ (unsub ns s rooms).2 <-> x ∈ rooms /\ is_Some (s !! x) /\ ns !! x = None.
Proof.
  revert s. induction rooms as [|y rooms IH]; intros s; cbn [unsub]; [set_solver|].
  specialize (IH (delete y s)). destruct (unsub ns (delete y s) rooms) as [s' out] eqn:E. cbn [snd] in *.
  destruct (decide (x = y)) as [->|Hne].
  - rewrite lookup_delete in IH. destruct (s !! y) as [v|] eqn:Es.
    + destruct (ns !! y) eqn:En; [set_solver by eauto|].
      split; [intros _; split_and!; [set_solver|by eexists|done]|intros _; set_solver].
    + assert (y ∉ out) by (intros H%IH; destruct H as (_ & [? H] & _); done).
      split; [done|intros (_ & [? H1] & _); done].
  - rewrite lookup_delete_ne in IH by done.
    destruct (s !! y), (ns !! y); set_solver.
Qed.
Lemma unsub_out_NoDup ns s rooms : NoDup (unsub ns s rooms).2.
Proof.
  revert s. induction rooms as [|y rooms IH]; intros s; cbn [unsub]; [constructor|].
  specialize (IH (delete y s)). pose proof (unsub_out ns (delete y s) rooms y) as Ho.
  destruct (unsub ns (delete y s) rooms) as [s' out] eqn:E. cbn [snd] in *.
  destruct (s !! y), (ns !! y); try done. constructor; [|done].
  rewrite Ho, lookup_delete. by intros (_ & [? H] & _).
Qed.

(** In an effective request nothing is unsubscribed. *)
Definition settled (r : option req) : Prop := match r with Some r => rq_unsubs r = [] | None => True end.
Lemma apply_settled ord r next : settled (Some (apply_delta ord r next).1).
Proof.
  unfold apply_delta. destruct (unsub ∅ _ _) as [s0 o0]. by destruct (unsub (rq_subs next) _ _) as [s1 o1].
Qed.
Lemma effective_settled ord reqs : settled (effective ord reqs).
Proof.
  induction reqs as [|r reqs _] using rev_ind; [done|]. rewrite effective_snoc. apply apply_settled.
Qed.
Lemma settled_default r : settled r -> rq_unsubs (default empty_req r) = [].
Proof. by destruct r. Qed.
Lemma subscribed_default r x : subscribed r x = rq_subs (default empty_req r) !! x.
Proof. destruct r; cbn; [done|by rewrite lookup_empty]. Qed.

Lemma apply_subs ord r next x :
  settled r ->
  rq_subs (apply_delta ord r next).1 !! x =
  if bool_decide (x ∈ rq_unsubs next) then None else newer (rq_subs next !! x) (subscribed r x).
Proof.
  intros Hs. unfold apply_delta. rewrite subscribed_default, (settled_default r Hs). cbn [unsub].
  pose proof (unsub_lookup (rq_subs next) (rq_subs next ∪ rq_subs (default empty_req r)) (rq_unsubs next) x) as H.
  destruct (unsub (rq_subs next) _ _) as [s1 o1]. cbn in *. rewrite H, lookup_union.
  case_bool_decide; [done|]. by destruct (rq_subs next !! x), (rq_subs (default empty_req r) !! x).
Qed.
Lemma apply_unsubs ord r next x :
  settled r ->
  (x ∈ dl_unsubs (apply_delta ord r next).2 <->
   x ∈ rq_unsubs next /\ is_Some (subscribed r x) /\ rq_subs next !! x = None) /\
  NoDup (dl_unsubs (apply_delta ord r next).2).
Proof.
  intros Hs. unfold apply_delta. rewrite subscribed_default, (settled_default r Hs). cbn [unsub].
  pose proof (unsub_out (rq_subs next) (rq_subs next ∪ rq_subs (default empty_req r)) (rq_unsubs next) x) as H.
  pose proof (unsub_out_NoDup (rq_subs next) (rq_subs next ∪ rq_subs (default empty_req r)) (rq_unsubs next)) as H2.
  destruct (unsub (rq_subs next) _ _) as [s1 o1]. cbn in *. split; [|done]. rewrite H, lookup_union.
  split; intros (H1 & H3 & H4); rewrite H4 in *; split_and!; try done.
  - by destruct (rq_subs (default empty_req r) !! x).
  - by destruct (rq_subs (default empty_req r) !! x).
Qed.
Lemma new_subs_elem ord old result x :
  (forall l, ord l ≡ₚ l) ->
  x ∈ new_subs ord old result <->
  exists s, result !! x = Some s /\
    match old !! x with
    | Some o => state_of o <> state_of s \/ sub_limit o <> sub_limit s
    | None => True
    end.
Proof.
  intros Ho. unfold new_subs. rewrite elem_of_list_omap. split.
  - intros ([y s] & Hin & H). rewrite (Ho _) in Hin. apply elem_of_map_to_list in Hin.
    destruct (old !! y) as [o|] eqn:Eo.
    + destruct (state_changed o s || negb (sub_limit o =? sub_limit s)) eqn:E; [|done]. injection H as <-.
      exists s. split; [done|]. rewrite Eo. unfold state_changed in E.
      apply orb_true_iff in E as [E|E]; [left|right; lia].
      intros Heq. rewrite bool_decide_eq_true_2 in E by done. done.
    + injection H as <-. exists s. by rewrite Eo.
  - intros (s & Hs & H). exists (x, s). split; [rewrite (Ho _); by apply elem_of_map_to_list|].
    destruct (old !! x) as [o|]; [|done].
    assert (state_changed o s || negb (sub_limit o =? sub_limit s) = true) as ->; [|done].
    unfold state_changed. destruct H as [H|H].
    + by rewrite bool_decide_eq_false_2.
    + apply orb_true_iff. right. lia.
Qed.
Lemma new_subs_NoDup ord old result : (forall l, ord l ≡ₚ l) -> NoDup (new_subs ord old result).
Proof.
  intros Ho. unfold new_subs.
  assert (Hn : NoDup (ord (map_to_list result)).*1).
  { rewrite (Ho _). apply NoDup_fst_map_to_list. }
  revert Hn. generalize (ord (map_to_list result)). intros l. induction l as [|[y s] l IH]; intros Hn; [constructor|].
  cbn in Hn. apply NoDup_cons in Hn as [Hy Hn]. cbn.
  assert (Hnin : y ∉ omap (fun '(x, s) => match old !! x with
     | Some o => if state_changed o s || negb (sub_limit o =? sub_limit s) then Some x else None
     | None => Some x end) l).
  { intros ([z s'] & Hin & Hz)%elem_of_list_omap. assert (z = y) as ->.
    { destruct (old !! z); [destruct (_ || _)|]; congruence. }
    apply Hy. apply elem_of_list_fmap. by exists (y, s'). }
  destruct (old !! y); [destruct (_ || _)|]; try (constructor; [done|]); by apply IH.
Qed.
Lemma apply_new_subs ord r next x :
  (forall l, ord l ≡ₚ l) ->
  (x ∈ dl_subs (apply_delta ord r next).2 <->
   exists s, rq_subs (apply_delta ord r next).1 !! x = Some s /\
     match subscribed r x with
     | Some o => state_of o <> state_of s \/ sub_limit o <> sub_limit s
     | None => True
     end) /\ NoDup (dl_subs (apply_delta ord r next).2).
Proof.
  intros Ho. rewrite subscribed_default. unfold apply_delta.
  destruct (unsub ∅ _ _) as [s0 o0]. destruct (unsub (rq_subs next) _ _) as [s1 o1]. cbn.
  split; [by apply new_subs_elem|by apply new_subs_NoDup].
Qed.

(** Active subscriptions. *)
Lemma build_lookup joined muxed active subs unsubs x :
  build_room_subs joined muxed active subs unsubs !! x =
  if bool_decide (x ∈ unsubs) then None
  else if bool_decide (x ∈ subs) && joined x then newer (muxed !! x) (active !! x) else active !! x.
Proof.
  unfold build_room_subs. set (a := foldl _ active subs).
  assert (Ha : a !! x = if bool_decide (x ∈ subs) && joined x then newer (muxed !! x) (active !! x) else active !! x).
  { subst a. revert active. induction subs as [|y subs IH]; intros active; cbn [foldl]; [done|].
    rewrite IH. destruct (decide (x = y)) as [->|Hne].
    - rewrite (bool_decide_eq_true_2 (y ∈ y :: subs)) by set_solver. cbn.
      destruct (joined y) eqn:Ej; rewrite ?andb_false_r; [|done]. rewrite andb_true_r.
      destruct (muxed !! y) as [s|] eqn:Em; cbn.
      + rewrite lookup_insert. by case_bool_decide.
      + by case_bool_decide.
    - replace (bool_decide (x ∈ y :: subs)) with (bool_decide (x ∈ subs)) by (apply bool_decide_ext; set_solver).
      assert ((if joined y then match muxed !! y with Some s => <[y:=s]> active | None => active end else active) !! x
              = active !! x) as ->; [|done].
      destruct (joined y); [|done]. destruct (muxed !! y); [|done]. by rewrite lookup_insert_ne. }
  rewrite <- Ha. clear Ha. clearbody a. revert a. induction unsubs as [|y unsubs IH]; intros a; cbn [foldl]; [done|].
  rewrite IH. repeat case_bool_decide; try done; try set_solver.
  - assert (x = y) as -> by set_solver. by rewrite lookup_delete.
  - rewrite lookup_delete_ne; [done|set_solver].
Qed.

Lemma active_step ord c next joined :
  (forall l, ord l ≡ₚ l) -> settled (sc_muxed c) ->
  (forall x, sc_active c !! x = subscribed (sc_muxed c) x) -> plain_request (sc_muxed c) next joined ->
  let c' := sub_request ord c next joined in
  settled (sc_muxed c') /\ forall x, sc_active c' !! x = subscribed (sc_muxed c') x.
Proof.
  intros Ho Hs Ha Hp. cbn zeta. unfold sub_request.
  pose proof (apply_settled ord (sc_muxed c) next) as Hset.
  pose proof (fun x => apply_subs ord (sc_muxed c) next x Hs) as Hsub.
  pose proof (fun x => proj1 (apply_unsubs ord (sc_muxed c) next x Hs)) as Hun.
  pose proof (fun x => proj1 (apply_new_subs ord (sc_muxed c) next x Ho)) as Hnew.
  destruct (apply_delta ord (sc_muxed c) next) as [m d]. cbn in *. split; [done|]. intros x.
  rewrite build_lookup, Ha. specialize (Hsub x). specialize (Hun x). specialize (Hnew x).
  destruct (rq_subs next !! x) as [s|] eqn:En.
  - destruct (Hp x s En) as (Hj & Hnu & Hsame). rewrite (bool_decide_eq_false_2 (x ∈ rq_unsubs next)) in Hsub by done.
    cbn in Hsub. rewrite Hsub.
    rewrite bool_decide_eq_false_2 by (rewrite Hun; tauto). rewrite Hj, andb_true_r. cbn.
    destruct (decide (x ∈ dl_subs d)) as [Hd|Hd]; [by rewrite (bool_decide_eq_true_2 _ Hd)|].
    rewrite (bool_decide_eq_false_2 _ Hd). rewrite Hnew in Hd.
    destruct (subscribed (sc_muxed c) x) as [o|] eqn:Eo.
    + destruct (decide (state_of o = state_of s)) as [He|He]; [|destruct Hd; exists s; split; [done|by left]].
      destruct (decide (sub_limit o = sub_limit s)) as [Hl|Hl]; [|destruct Hd; exists s; split; [done|by right]].
      f_equal. by apply Hsame.
    + destruct Hd. by exists s.
  - destruct (decide (x ∈ dl_unsubs d)) as [Hd|Hd].
    + rewrite (bool_decide_eq_true_2 _ Hd). rewrite Hun in Hd. destruct Hd as (H1 & _).
      by rewrite bool_decide_eq_true_2 in Hsub by done.
    + rewrite (bool_decide_eq_false_2 _ Hd). rewrite Hun in Hd.
      destruct (decide (x ∈ rq_unsubs next)) as [H1|H1].
      * rewrite bool_decide_eq_true_2 in Hsub by done.
        rewrite Hsub. destruct (subscribed (sc_muxed c) x) eqn:Eo; [|by destruct (_ && _)].
        destruct Hd. split_and!; [done|by eexists|done].
      * rewrite bool_decide_eq_false_2 in Hsub by done.
        cbn in Hsub. rewrite Hsub. by destruct (_ && _), (subscribed (sc_muxed c) x).
Qed.

Lemma muxed_effective ord reqs : sc_muxed (sub_requests ord reqs) = effective ord (map fst reqs).
Proof.
  unfold sub_requests. induction reqs as [|[next joined] reqs IH] using rev_ind; [done|].
  rewrite foldl_app, map_app. cbn [foldl map fst]. rewrite effective_snoc, <- IH.
  unfold sub_request. by destruct (apply_delta ord _ next) as [m d].
Qed.
Lemma active_effective ord reqs :
  (forall l, ord l ≡ₚ l) ->
  (forall pre next joined post, reqs = pre ++ (next, joined) :: post ->
     plain_request (effective ord (map fst pre)) next joined) ->
  forall x, sc_active (sub_requests ord reqs) !! x = subscribed (effective ord (map fst reqs)) x.
Proof.
  intros Ho. induction reqs as [|[next joined] reqs IH] using rev_ind; intros Hp x.
  - unfold sub_requests. cbn. by rewrite lookup_empty.
  - rewrite <- muxed_effective. unfold sub_requests. rewrite foldl_app. cbn [foldl]. fold (sub_requests ord reqs).
    apply active_step; [done| | |].
    + rewrite muxed_effective. apply effective_settled.
    + intros y. rewrite muxed_effective. apply IH. intros pre nx jn post ->. apply (Hp pre nx jn (post ++ [(next, joined)])).
      by rewrite <- app_assoc.
    + rewrite muxed_effective. by apply (Hp reqs next joined []).
Qed.
Lemma apply_dlists ord r next key :
  dl_lists (apply_delta ord r next).2 !! key =
  match rq_lists (default empty_req r) !! key, rq_lists (apply_delta ord r next).1 !! key with
  | None, None => None
  | p, c => Some (p, c)
  end.
Proof.
  unfold apply_delta. destruct (unsub ∅ _ _) as [s0 o0]. destruct (unsub (rq_subs next) _ _) as [s1 o1].
  cbn [fst snd rq_lists dl_lists]. rewrite lookup_merge. unfold diag_None.
  by destruct (rq_lists (default empty_req r) !! key), (merge list_result _ _ !! key).
Qed.
