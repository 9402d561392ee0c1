(** Proofs about room names. *)
From Verif Require Import Prelude RoomNameModel RoomNameSpec.
From stdpp Require Import pretty.
Open Scope string_scope.
Open Scope list_scope.
Open Scope Z_scope.

(** Indexes, from [k], of the heroes who go by [n]. *)
Fixpoint positions (n : string) (k : nat) (l : list hero) : list nat :=
  match l with
  | [] => []
  | h :: l' => (if String.eqb (hero_name h) n then [k] else []) ++ positions n (S k) l'
  end.

Lemma positions_app n k l1 l2 :
  positions n k (l1 ++ l2) = positions n k l1 ++ positions n (k + length l1) l2.
Proof.
  revert k; induction l1 as [|h l1 IH]; intros k; cbn; [by rewrite Nat.add_0_r|].
  rewrite IH, <- app_assoc. by rewrite Nat.add_succ_r.
Qed.
Lemma positions_elem n k l i :
  i ∈ positions n k l <-> exists h, (k <= i)%nat /\ l !! (i - k)%nat = Some h /\ hero_name h = n.
Proof.
  revert k; induction l as [|h l IH]; intros k; cbn.
  - split; [intros H; by apply elem_of_nil in H|]. intros (h & _ & H & _). done.
  - rewrite elem_of_app, IH. split.
    + intros [H|(h' & Hk & Hl & Hn)].
      * destruct (String.eqb_spec (hero_name h) n); [|by apply elem_of_nil in H].
        apply elem_of_list_singleton in H as ->. exists h. split_and!; [lia| |done].
        by rewrite Nat.sub_diag.
      * exists h'. split_and!; [lia| |done]. replace (i - k)%nat with (S (i - S k)) by lia. done.
    + intros (h' & Hk & Hl & Hn). destruct (decide (i = k)) as [->|].
      * left. rewrite Nat.sub_diag in Hl. injection Hl as ->. subst n. rewrite String.eqb_refl. by left.
      * right. exists h'. split_and!; [lia| |done]. replace (i - k)%nat with (S (i - S k)) in Hl by lia. done.
Qed.
Lemma positions_length n k l :
  length (positions n k l) = length (filter (fun g => hero_name g = n) l).
Proof.
  revert k; induction l as [|h l IH]; intros k; cbn [positions]; [done|].
  rewrite app_length, IH. rewrite filter_cons.
  destruct (String.eqb_spec (hero_name h) n); destruct (decide (hero_name h = n)); try done.
Qed.

Lemma names_index_spec l n :
  names_index l !! n = match positions n 0 l with [] => None | ps => Some ps end.
Proof.
  unfold names_index. revert n. induction l as [|h l IH] using rev_ind; intros n; [done|].
  rewrite imap_app. cbn. rewrite foldl_app. cbn. rewrite Nat.add_0_r.
  rewrite positions_app. cbn. rewrite app_nil_r.
  destruct (String.eqb_spec (hero_name h) n) as [<-|Hn].
  - rewrite lookup_insert, IH. destruct (positions (hero_name h) 0 l); done.
  - rewrite lookup_insert_ne by done. rewrite IH, app_nil_r. done.
Qed.

Lemma shared_fold (heroes : list hero) (is : list nat) (out : list string) :
  let res := foldl (fun out i => match heroes !! i with
                                 | Some h => <[i := full_name h]> out
                                 | None => out end) out is in
  length res = length out /\
  forall i, (i < length out)%nat ->
  res !! i = if decide (i ∈ is) then match heroes !! i with Some h => Some (full_name h) | None => out !! i end
             else out !! i.
Proof.
  cbn zeta. revert out; induction is as [|k is IH]; intros out; cbn.
  - split; [done|]. intros i Hi. destruct (decide (i ∈ [])) as [H|]; [by apply elem_of_nil in H|done].
  - destruct (heroes !! k) as [h|] eqn:Ek.
    + destruct (IH (<[k:=full_name h]> out)) as [Hlen Hi]. rewrite insert_length in Hlen, Hi.
      split; [done|]. intros i Hlt. rewrite Hi by done.
      destruct (decide (i = k)) as [->|Hne].
      * rewrite Ek. rewrite list_lookup_insert by done.
        destruct (decide (k ∈ is)); destruct (decide (k ∈ k :: is)) as [|Hn]; try done;
          destruct Hn; by left.
      * rewrite list_lookup_insert_ne by done.
        destruct (decide (i ∈ is)) as [H1|H1]; destruct (decide (i ∈ k :: is)) as [H2|H2]; try done.
        -- destruct H2. by right.
        -- apply elem_of_cons in H2 as [|]; done.
    + destruct (IH out) as [Hlen Hi]. split; [done|]. intros i Hlt. rewrite Hi by done.
      destruct (decide (i = k)) as [->|Hne].
      * rewrite Ek. destruct (decide (k ∈ is)); destruct (decide (k ∈ k :: is)); done.
      * destruct (decide (i ∈ is)) as [H1|H1]; destruct (decide (i ∈ k :: is)) as [H2|H2]; try done.
        -- destruct H2. by right.
        -- apply elem_of_cons in H2 as [|]; done.
Qed.

Lemma disambiguate_spec ord heroes :
  (forall l, ord l ≡ₚ l) -> disambiguate ord heroes = shown_names heroes.
Proof.
  intros Hord. unfold disambiguate.
  set (step := fun (out : list string) '((name, indexes) : string * list nat) => _).
  assert (Hgen : forall es out,
    (forall n ps, (n, ps) ∈ es -> ps = positions n 0 heroes /\ ps <> []) ->
    length out = length heroes ->
    length (foldl step out es) = length heroes /\
    forall i h, heroes !! i = Some h ->
      ((exists ps, (hero_name h, ps) ∈ es) -> foldl step out es !! i = Some (shown_name heroes h)) /\
      ((out !! i = Some (shown_name heroes h)) -> foldl step out es !! i = Some (shown_name heroes h))).
  { induction es as [|[n ps] es IH]; intros out Hes Hlen.
    - split; [done|]. intros i h Hh. split; [|done]. intros (ps & H). by apply elem_of_nil in H.
    - destruct (Hes n ps ltac:(by left)) as [Hps Hne].
      assert (Hstep : length (step out (n, ps)) = length heroes /\
        forall i h, heroes !! i = Some h ->
          step out (n, ps) !! i = if decide (hero_name h = n) then Some (shown_name heroes h) else out !! i).
      { assert (Hin : forall i h, heroes !! i = Some h -> hero_name h = n <-> i ∈ ps).
        { intros i h Hh. rewrite Hps, positions_elem. rewrite Nat.sub_0_r. split.
          - intros Hn. exists h. split_and!; [lia|done|done].
          - intros (h' & _ & Hh' & Hn). congruence. }
        assert (Hcnt : forall h, hero_name h = n ->
                  length (filter (fun g => hero_name g = hero_name h) heroes) = length ps).
        { intros h ->. by rewrite Hps, positions_length. }
        unfold step. destruct ps as [|p [|p2 ps]]; [done|..].
        - split; [by rewrite insert_length|]. intros i h Hh. destruct (decide (hero_name h = n)) as [Hn|Hn].
          + pose proof (proj1 (Hin i h Hh) Hn) as Hi. apply elem_of_list_singleton in Hi as ->.
            rewrite list_lookup_insert by (rewrite Hlen; by eapply lookup_lt_Some).
            unfold shown_name. rewrite (Hcnt h Hn). cbn. by rewrite Hn.
          + rewrite list_lookup_insert_ne; [done|]. intros ->. apply Hn, (Hin i h Hh). by left.
        - destruct (shared_fold heroes (p :: p2 :: ps) out) as [Hl Hi]. split; [by rewrite <- Hlen|].
          intros i h Hh. rewrite Hi by (rewrite Hlen; by eapply lookup_lt_Some).
          rewrite Hh. destruct (decide (i ∈ p :: p2 :: ps)) as [H1|H1].
          + pose proof (proj2 (Hin i h Hh) H1) as Hn. destruct (decide (hero_name h = n)); [|done].
            unfold shown_name. rewrite (Hcnt h Hn). done.
          + destruct (decide (hero_name h = n)) as [Hn|]; [|done]. destruct H1. by apply (Hin i h Hh). }
      destruct Hstep as [Hsl Hsi].
      destruct (IH (step out (n, ps))) as [IHl IHi]; [intros ? ? H; apply Hes; by right|done|].
      split; [done|]. intros i h Hh. destruct (IHi i h Hh) as [IH1 IH2]. cbn [foldl]. split.
      + intros (ps' & H). apply elem_of_cons in H as [H|H]; [|apply IH1; by exists ps'].
        injection H as Hn _. apply IH2. rewrite (Hsi i h Hh). destruct (decide (hero_name h = n)); done.
      + intros Ho. apply IH2. rewrite (Hsi i h Hh). by destruct (decide (hero_name h = n)). }
  destruct (Hgen (ord (map_to_list (names_index heroes))) (replicate (length heroes) "")) as [Hlen Hi].
  { intros n ps H. rewrite Hord in H. apply elem_of_map_to_list in H. rewrite names_index_spec in H.
    destruct (positions n 0 heroes) eqn:E; [done|]. injection H as <-. done. }
  { by rewrite replicate_length. }
  apply list_eq. intros i. unfold shown_names. rewrite list_lookup_fmap.
  destruct (heroes !! i) as [h|] eqn:Eh; cbn.
  - destruct (Hi i h Eh) as [H _]. apply H.
    assert (Hp : i ∈ positions (hero_name h) 0 heroes).
    { apply positions_elem. exists h. split_and!; [lia| |done]. by rewrite Nat.sub_0_r. }
    exists (positions (hero_name h) 0 heroes). rewrite Hord. apply elem_of_map_to_list.
    rewrite names_index_spec. destruct (positions (hero_name h) 0 heroes); [by apply elem_of_nil in Hp|done].
  - apply lookup_ge_None. rewrite Hlen. by apply lookup_ge_None in Eh.
Qed.

Lemma slice_to_ok {A} (l : list A) n :
  0 <= n <= Z.of_nat (length l) -> slice_to l n = Some (take (Z.to_nat n) l).
Proof. intros H. unfold slice_to. assert ((0 <=? n) && (n <=? Z.of_nat (length l)) = true) as -> by lia. done. Qed.

Lemma shown_name_single h : shown_name [h] h = hero_name h.
Proof.
  unfold shown_name. rewrite filter_cons. by destruct (decide (hero_name h = hero_name h)).
Qed.
Lemma shown_names_length l : length (shown_names l) = length l.
Proof. apply map_length. Qed.

Lemma name_ok ord m limit :
  (forall l, ord l ≡ₚ l) -> 0 <= limit ->
  exists s b, room_name ord m limit = Some (s, b) /\ name_is m limit s.
Proof.
  intros Hord Hlim. unfold room_name. cbn zeta.
  destruct (String.eqb_spec (m_name m) "") as [Hn|Hn]; cbn [negb]; [|eexists _, _; split; [done|by constructor]].
  destruct (String.eqb_spec (m_alias m) "") as [Ha|Ha]; cbn [negb]; [|eexists _, _; split; [done|by constructor]].
  rewrite (disambiguate_spec _ _ Hord).
  pose proof (shown_names_length (m_heroes m)) as Hlen.
  destruct ((length (m_heroes m) =? 0)%nat && (m_join m + m_invite m - 1 <=? 0)) eqn:E0.
  { eexists _, _; split; [done|]. apply name_empty; [done|done| |lia]. apply nil_length_inv. lia. }
  destruct (m_join m + m_invite m - 1 <=? Z.of_nat (length (m_heroes m))) eqn:E1.
  - destruct (shown_names (m_heroes m)) as [|x [|y l]] eqn:E.
    + cbn in Hlen. lia.
    + eexists _, _; split; [done|]. destruct (m_heroes m) as [|h [|h2 hs]] eqn:Eh; [done| |done].
      cbn [shown_names map] in E. injection E as <-. rewrite shown_name_single. apply name_one_hero with (h := h); try done. cbn in E1. lia.
    + destruct (exists_last (l := x :: y :: l)) as (front & final & Hf); [done|].
      rewrite Hf. rewrite slice_to_ok by (rewrite app_length; cbn; lia).
      assert (Z.to_nat (Z.of_nat (length (front ++ [final])) - 1) = length front) as ->
        by (rewrite app_length; cbn; lia).
      rewrite take_app, last_snoc.
      assert (front <> []) as Hfne by (intros ->; done).
      rewrite Hf in E.
      destruct (m_join m + m_invite m - 1 <=? 0) eqn:E2.
      * eexists _, _; split; [done|]. apply name_was; try done. lia.
      * eexists _, _; split; [done|]. apply name_all_heroes; try done. lia.
  - rewrite slice_to_ok by lia.
    assert (1 <? m_join m + m_invite m = true) as -> by lia.
    eexists _, _; split; [done|]. 
    pose proof (name_some_heroes m limit (Z.to_nat (Z.min (Z.of_nat (length (m_heroes m))) limit)) Hn Ha
      ltac:(lia) ltac:(lia)) as H.
    rewrite Hlen. rewrite Z2Nat.id in H by lia. unfold and_list in H. exact H.
Qed.

Lemma shown_names_nil l : shown_names l = [] -> l = [].
Proof. by destruct l. Qed.

Lemma name_is_computed m limit s :
  0 <= limit -> name_is m limit s -> fst <$> room_name id m limit = Some s.
Proof.
  intros Hlim H.
  assert (Hl : forall front final, shown_names (m_heroes m) = front ++ [final] -> front <> [] ->
             (2 <= length (m_heroes m))%nat).
  { intros front final Hf Hne. rewrite <- shown_names_length, Hf, app_length. destruct front; [done|cbn; lia]. }
  pose proof (shown_names_length (m_heroes m)) as Hlen.
  assert (Hall : forall front final, shown_names (m_heroes m) = front ++ [final] -> front <> [] ->
    match shown_names (m_heroes m) with
    | [x] => Some (x, true)
    | _ => match slice_to (shown_names (m_heroes m)) (Z.of_nat (length (shown_names (m_heroes m))) - 1),
                 last (shown_names (m_heroes m)) with
           | Some fr, Some fi =>
              if m_join m + m_invite m - 1 <=? 0
              then Some (("Empty Room (was " ++ (go_join ", " fr ++ " and " ++ fi) ++ ")")%string, true)
              else Some ((go_join ", " fr ++ " and " ++ fi)%string, true)
           | _, _ => None
           end
    end = if m_join m + m_invite m - 1 <=? 0
          then Some (("Empty Room (was " ++ and_list front final ++ ")")%string, true)
          else Some (and_list front final, true)).
  { intros front final Hf Hne. rewrite Hf. rewrite slice_to_ok by (rewrite app_length; cbn; lia).
    assert (Z.to_nat (Z.of_nat (length (front ++ [final])) - 1) = length front) as ->
      by (rewrite app_length; cbn; lia).
    rewrite take_app, last_snoc. destruct front as [|x [|y fr]]; done. }
  unfold room_name. cbn zeta. rewrite (disambiguate_spec id _ ltac:(done)).
  destruct H as [Hn|Hn Ha|Hn Ha Hh Hc|h Hn Ha Hh Hc|front final Hn Ha Hf Hne Hc|front final Hn Ha Hf Hne Hc|k Hn Ha Hc Hk].
  - destruct (String.eqb_spec (m_name m) ""); done.
  - rewrite Hn. destruct (String.eqb_spec (m_alias m) ""); done.
  - rewrite Hn, Ha, Hh. cbn. assert (m_join m + m_invite m - 1 <=? 0 = true) as -> by lia. done.
  - rewrite Hn, Ha, Hh. cbn [length]. cbn [negb String.eqb andb Nat.eqb].
    assert (m_join m + m_invite m - 1 <=? Z.of_nat 1 = true) as -> by lia.
    cbn [shown_names map]. rewrite shown_name_single. done.
  - rewrite Hn, Ha. cbn [negb String.eqb]. specialize (Hl _ _ Hf Hne).
    assert ((length (m_heroes m) =? 0)%nat = false) as -> by lia. cbn [andb].
    assert (m_join m + m_invite m - 1 <=? Z.of_nat (length (m_heroes m)) = true) as -> by lia.
    rewrite (Hall _ _ Hf Hne).
    assert (m_join m + m_invite m - 1 <=? 0 = false) as -> by lia. done.
  - rewrite Hn, Ha. cbn [negb String.eqb]. specialize (Hl _ _ Hf Hne).
    assert ((length (m_heroes m) =? 0)%nat = false) as -> by lia. cbn [andb].
    assert (m_join m + m_invite m - 1 <=? Z.of_nat (length (m_heroes m)) = true) as -> by lia.
    rewrite (Hall _ _ Hf Hne).
    assert (m_join m + m_invite m - 1 <=? 0 = true) as -> by lia. done.
  - rewrite Hn, Ha. cbn [negb String.eqb].
    assert (m_join m + m_invite m - 1 <=? 0 = false) as -> by lia. rewrite andb_false_r.
    assert (m_join m + m_invite m - 1 <=? Z.of_nat (length (m_heroes m)) = false) as -> by lia.
    rewrite Hlen, <- Hk. rewrite slice_to_ok by lia.
    assert (1 <? m_join m + m_invite m = true) as -> by lia. rewrite Nat2Z.id. done.
Qed.

Lemma name_unique m limit s1 s2 : 0 <= limit -> name_is m limit s1 -> name_is m limit s2 -> s1 = s2.
Proof. intros Hl H1 H2. apply name_is_computed in H1, H2; [|done..]. congruence. Qed.

(** ** Comparing rooms for a change of name. *)
Lemma same_hero_names_spec a b :
  same_hero_names a b = true <->
  map (fun h => (h_id h, h_name h)) a = map (fun h => (h_id h, h_name h)) b.
Proof.
  revert b; induction a as [|x a IH]; intros [|y b]; cbn; try done.
  rewrite !andb_true_iff, IH, !String.eqb_eq. split.
  - intros [[-> ->] ->]. done.
  - intros H. injection H as -> -> ->. done.
Qed.

Lemma same_room_name_same ord m o limit :
  (forall l, ord l ≡ₚ l) ->
  same_room_name m o = true -> room_name ord m limit = room_name ord o limit.
Proof.
  intros Hord H. unfold same_room_name in H. rewrite !andb_true_iff in H.
  destruct H as [[[[[_ Hn] Ha] Hj] Hi] Hh].
  apply String.eqb_eq in Hn, Ha. apply Z.eqb_eq in Hj, Hi. apply same_hero_names_spec in Hh.
  assert (Hlen : length (m_heroes m) = length (m_heroes o)).
  { apply (f_equal length) in Hh. by rewrite !map_length in Hh. }
  assert (Hs : shown_names (m_heroes m) = shown_names (m_heroes o)).
  { assert (Hhn : forall h, hero_name h = (fun p : string * string => if String.eqb p.2 "" then p.1 else p.2) (h_id h, h_name h))
      by done.
    assert (Hmap : forall l, shown_names l =
      map (fun p : string * string =>
             let nm (p : string * string) := if String.eqb p.2 "" then p.1 else p.2 in
             if (length (filter (fun q => nm q = nm p) (map (fun h => (h_id h, h_name h)) l)) =? 1)%nat
             then nm p else (nm p ++ " (" ++ p.1 ++ ")")%string)
          (map (fun h => (h_id h, h_name h)) l)).
    { intros l. unfold shown_names. rewrite map_map. apply map_ext. intros h. unfold shown_name. cbn zeta.
      assert (Hf : length (filter (fun g => hero_name g = hero_name h) l) =
        length (filter (fun q : string * string =>
           (if String.eqb q.2 "" then q.1 else q.2) = (if String.eqb (h_id h, h_name h).2 "" then (h_id h, h_name h).1 else (h_id h, h_name h).2))
           (map (fun h => (h_id h, h_name h)) l))).
      { induction l as [|g l IH]; [done|]. cbn [map]. rewrite !filter_cons.
        change (hero_name g) with ((if String.eqb (h_id g, h_name g).2 "" then (h_id g, h_name g).1 else (h_id g, h_name g).2)).
        change (hero_name h) with ((if String.eqb (h_id h, h_name h).2 "" then (h_id h, h_name h).1 else (h_id h, h_name h).2)) in *.
        destruct (decide _); cbn [length]; rewrite IH; done. }
      rewrite Hf. done. }
    rewrite !Hmap, Hh. done. }
  unfold room_name. rewrite !(disambiguate_spec _ _ Hord), Hn, Ha, Hj, Hi, Hlen, Hs. done.
Qed.
