(** C90: the connections of one user do not disturb each other. *)
From Verif Require Import Prelude HeroModel HeroSpec.
Open Scope string_scope. Open Scope list_scope. Open Scope nat_scope.

Lemma where_goto s k a k' : where_ (goto s k a) k' = if decide (k' = k) then a else where_ s k'.
Proof. unfold where_, goto. cbn [h_at]. case_decide as E; [subst k'; by rewrite lookup_insert|by rewrite lookup_insert_ne]. Qed.
Lemma where_arr arr n at' k : where_ (mk_shared arr n at') k = default Start (at' !! k).
Proof. done. Qed.
Lemma without_others user heroes : NoDup (map fst heroes) -> without user heroes = others user heroes.
Proof.
  unfold others. induction heroes as [|h hs IH]; [done|]. cbn [map]. intros [Hn Hd]%NoDup_cons. cbn [without].
  rewrite filter_cons. case_bool_decide as E.
  - destruct (decide (h.1 <> user)); [done|]. symmetry. clear IH Hd. rewrite <- E. clear E n user.
    induction hs as [|h' hs IH]; [done|]. rewrite filter_cons. cbn [map] in Hn. apply not_elem_of_cons in Hn as [Hn1 Hn2].
    destruct (decide (h'.1 <> h.1)) as [_|Hd]; [by rewrite IH|]. destruct Hd. congruence.
  - destruct (decide (h.1 <> user)); [|done]. by rewrite IH.
Qed.
Lemma without_not_in user hs : (forall h, In h hs -> h.1 <> user) -> without user hs = hs.
Proof.
  induction hs as [|h hs IH]; intros H; [done|]. cbn [without]. rewrite bool_decide_eq_false_2 by (apply H; by left).
  f_equal. apply IH. intros x Hx. apply H. by right.
Qed.
Lemma others_not user hs : forall h, In h (others user hs) -> h.1 <> user.
Proof. unfold others. intros h Hin. apply elem_of_list_In, elem_of_list_filter in Hin. tauto. Qed.
Lemma place_none user hs : (forall h, In h hs -> h.1 <> user) -> place user hs = None.
Proof.
  induction hs as [|h hs IH]; intros H; [done|]. cbn [place]. rewrite bool_decide_eq_false_2 by (apply H; by left).
  rewrite IH; [done|]. intros x Hx. apply H. by right.
Qed.
Lemma place_none_inv user hs : place user hs = None -> without user hs = hs.
Proof.
  induction hs as [|h hs IH]; [done|]. cbn [place without]. case_bool_decide; [discriminate|].
  destruct (place user hs); [discriminate|]. intros _. by rewrite IH.
Qed.
Lemma place_some user hs i : place user hs = Some i -> i < length hs /\ take i hs ++ drop (S i) hs = without user hs.
Proof.
  revert i. induction hs as [|h hs IH]; intros i; [discriminate|]. cbn [place without]. case_bool_decide as E.
  - intros [= <-]. cbn. split; [lia|]. by rewrite drop_0.
  - destruct (place user hs) as [j|]; [|discriminate]. intros [= <-]. destruct (IH j eq_refl) as [H1 H2]. cbn [length]. split; [lia|].
    cbn [take drop app]. by rewrite H2.
Qed.
Lemma without_length user hs i : place user hs = Some i -> length (without user hs) = pred (length hs).
Proof. intros H. apply place_some in H as [H1 <-]. rewrite app_length, take_length, drop_length. lia. Qed.

Section heroes.
  Context (user : string) (heroes : list hero) (stored : nat -> list hero) (Hnd : NoDup (map fst heroes)).
  Let own := others user heroes.

  (** The slice holds [m]. *)
  Definition holds (s : shared) (m : list hero) : Prop := take (h_len s) (h_arr s) = m /\ h_len s = length m.
  Definition ok (s : shared) (k : nat) : Prop :=
    match where_ s k with
    | Start | Same => True
    | Len l => l = h_len s
    | Copied p => without user p = own
    | Range l => l = h_len s
    | Found i => holds s heroes /\ place user heroes = Some i
    | Moved l => l = length own /\ take l (h_arr s) = own
    | Removed => holds s own
    | Named named l => named = own /\ l = length own /\ take l (h_arr s) = own /\ holds s own
    | Sent named hs => named = own /\ hs = own
    | Panicked => False
    end.
  Definition moving (s : shared) : Prop := exists k l, where_ s k = Moved l.
  Definition good (s : shared) : Prop :=
    (forall k, ok s k) /\ (forall k, where_ s k = Same -> stored k = own) /\ (~ moving s -> holds s heroes \/ holds s own) /\
    (moving s -> h_len s = length heroes /\ forall k named l, where_ s k <> Named named l).

  Lemma others_without : without user heroes = own.
  Proof. by apply without_others. Qed.
  Lemma own_without : without user own = own.
  Proof. apply without_not_in. apply others_not. Qed.
  Lemma own_no_place : place user own = None.
  Proof. apply place_none. apply others_not. Qed.
  (** Changing where one connection is, but nothing else. *)
  Lemma ok_goto s k a k' : k' <> k -> ok s k' -> ok (goto s k a) k'.
  Proof. intros Hne. unfold ok. rewrite where_goto. destruct (decide (k' = k)); [done|]. exact id. Qed.
  Lemma moving_goto s k a : (forall l, a <> Moved l) -> (forall l, where_ s k <> Moved l) -> moving (goto s k a) <-> moving s.
  Proof.
    intros Ha Hk. split; intros (k' & l & H); exists k', l.
    - rewrite where_goto in H. destruct (decide (k' = k)); [by destruct (Ha l)|done].
    - rewrite where_goto. destruct (decide (k' = k)) as [-> | ?]; [by destruct (Hk l)|done].
  Qed.
  Lemma good_goto s k a : good s -> (forall l, a <> Moved l) -> (forall l, where_ s k <> Moved l) ->
    ok (goto s k a) k -> (a = Same -> stored k = own) -> (moving s -> forall named l, a <> Named named l) -> good (goto s k a).
  Proof.
    intros (G1 & G2 & G3 & G4) Ha Hk Hok Hs Hn. split; [|split; [|split]].
    - intros k'. destruct (decide (k' = k)) as [-> | Hne]; [done|]. by apply ok_goto.
    - intros k'. rewrite where_goto. destruct (decide (k' = k)) as [-> | Hne]; [done|]. apply G2.
    - rewrite moving_goto by done. exact G3.
    - rewrite moving_goto by done. intros M. destruct (G4 M) as [M1 M2]. split; [done|]. intros k' named l. rewrite where_goto.
      destruct (decide (k' = k)); [by apply Hn|apply M2].
  Qed.
  Lemma busy_moving s k k' l : (forall a b, busy s a -> busy s b -> a = b) -> where_ s k = Moved l -> busy s k' -> k' = k.
  Proof. intros H E Hb. apply H; [done|]. unfold busy. by rewrite E. Qed.

  Lemma step_good s k : (forall a b, busy s a -> busy s b -> a = b) -> (forall a b, busy (step user stored s k) a -> busy (step user stored s k) b -> a = b) ->
    good s -> good (step user stored s k).
  Proof.
    intros Hone Hone' G. pose proof G as (G1 & G2 & G3 & G4). pose proof (G1 k) as Hk. unfold ok in Hk.
    assert (Hm : forall l, where_ s k <> Moved l -> True) by done. clear Hm.
    unfold step in *. destruct (where_ s k) as [|l|p|l|i|l| |named l|named hs| |] eqn:Ek.
    - (* Start *) apply good_goto; [done|done|by rewrite Ek| |done|done]. unfold ok. rewrite where_goto, decide_True by done. done.
    - (* Len *) assert (NM : ~ moving s). { intros (k' & l' & E). assert (k = k') as <- by (apply (busy_moving s k' k l'); [done|done|unfold busy; by rewrite Ek]). congruence. }
      apply good_goto; [done|done|by rewrite Ek| |done|done]. unfold ok. rewrite where_goto, decide_True by done. subst l.
      rewrite Nat.sub_diag. cbn [replicate]. rewrite app_nil_r, take_take, Nat.min_id.
      destruct (G3 NM) as [[-> _]|[-> _]]; [apply others_without|apply own_without].
    - (* Copied *) assert (NM : ~ moving s). { intros (k' & l' & E). assert (k = k') as <- by (apply (busy_moving s k' k l'); [done|done|unfold busy; by rewrite Ek]). congruence. }
      case_bool_decide as E.
      + apply good_goto; [done|done|by rewrite Ek| |congruence|done]. unfold ok. by rewrite where_goto, decide_True.
      + apply good_goto; [done|done|by rewrite Ek| |done|done]. unfold ok. by rewrite where_goto, decide_True.
    - (* Range *) assert (NM : ~ moving s). { intros (k' & l' & E). assert (k = k') as <- by (apply (busy_moving s k' k l'); [done|done|unfold busy; by rewrite Ek]). congruence. }
      subst l. destruct (place user (take (h_len s) (h_arr s))) as [i|] eqn:Ep.
      + apply good_goto; [done|done|by rewrite Ek| |done|done]. unfold ok. rewrite where_goto, decide_True by done.
        destruct (G3 NM) as [H|H]; pose proof H as [H1 H2]; rewrite H1 in Ep; [|by rewrite own_no_place in Ep]. done.
      + apply good_goto; [done|done|by rewrite Ek| |done|done]. unfold ok. rewrite where_goto, decide_True by done.
        destruct (G3 NM) as [H|H]; pose proof H as [H1 H2]; [|done]. rewrite H1 in Ep. apply place_none_inv in Ep. rewrite others_without in Ep. by rewrite Ep.
    - (* Found *) assert (NM : ~ moving s). { intros (k' & l' & E). assert (k = k') as <- by (apply (busy_moving s k' k l'); [done|done|unfold busy; by rewrite Ek]). congruence. }
      destruct Hk as [[H1 H2] Hp]. pose proof (place_some user heroes i Hp) as [Hi Hw]. pose proof (without_length user heroes i Hp) as Hl.
      rewrite others_without in Hw, Hl. destruct (Nat.ltb_spec (h_len s) (S i)) as [Hlt|_]; [lia|].
      set (s' := goto _ k _) in *.
      assert (Hpre : take (pred (h_len s)) (h_arr s') = own).
      { cbn [s' goto h_arr]. rewrite H1, app_assoc.
        assert (Ht : take i (h_arr s) = take i heroes) by (rewrite <- H1, take_take; f_equal; lia).
        rewrite Ht, Hw, H2, <- Hl. by rewrite take_app. }
      assert (NN : forall k' named l, where_ s k' <> Named named l).
      { intros k' named l E. pose proof (G1 k') as Ho. unfold ok in Ho. rewrite E in Ho. destruct Ho as (_ & _ & _ & Ho1 & Ho2). 
        assert (Eo : heroes = own) by congruence. pose proof own_no_place as C. rewrite <- Eo in C. congruence. }
      split; [|split; [|split]].
      + intros k'. unfold ok. unfold s'. rewrite where_goto. destruct (decide (k' = k)) as [-> | Hne].
        { split; [rewrite H2; by symmetry|exact Hpre]. }
        assert (Hnb : ~ busy s k') by (intros Hb; apply Hne, Hone; [done|unfold busy; by rewrite Ek]).
        pose proof (G1 k') as Ho. unfold ok, busy in Ho, Hnb. change (where_ (mk_shared ?a ?b (h_at s)) k') with (where_ s k').
        destruct (where_ s k') eqn:Ek'; try done. by destruct (NN k' named l).
      + intros k'. unfold s'. rewrite where_goto. destruct (decide (k' = k)); [done|]. apply G2.
      + intros NM'. destruct NM'. exists k, (pred (h_len s)). unfold s'. by rewrite where_goto, decide_True.
      + intros _. split; [done|]. intros k' named l. unfold s'. rewrite where_goto. destruct (decide (k' = k)); [done|]. apply NN.
    - (* Moved *) destruct Hk as [-> Ht]. assert (M : moving s) by (by exists k, (length own)). destruct (G4 M) as [M1 M2].
      set (s' := goto _ k _) in *.
      assert (Ho : holds s' own) by done.
      split; [|split; [|split]].
      + intros k'. unfold ok. unfold s'. rewrite where_goto. destruct (decide (k' = k)) as [-> | Hne]; [done|].
        assert (Hnb : ~ busy s k') by (intros Hb; apply Hne, Hone; [done|unfold busy; by rewrite Ek]).
        pose proof (G1 k') as Hk'. unfold ok, busy in Hk', Hnb. change (where_ (mk_shared ?a ?b (h_at s)) k') with (where_ s k').
        destruct (where_ s k') eqn:Ek'; try done. by destruct (M2 k' named l).
      + intros k'. unfold s'. rewrite where_goto. destruct (decide (k' = k)); [done|]. apply G2.
      + intros _. by right.
      + intros (k' & l' & E). unfold s' in E. rewrite where_goto in E. destruct (decide (k' = k)) as [-> | Hne]; [done|].
        change (where_ s k' = Moved l') in E. destruct Hne. apply Hone; unfold busy; [by rewrite E|by rewrite Ek].
    - (* Removed *) assert (NM : ~ moving s). { intros (k' & l' & E). assert (k = k') as <- by (apply (busy_moving s k' k l'); [done|done|unfold busy; by rewrite Ek]). congruence. }
      apply good_goto; [done|done|by rewrite Ek| |done|done]. unfold ok. rewrite where_goto, decide_True by done. destruct Hk as [H1 H2].
      split; [done|]. split; [done|]. split; [done|]. split; done.
    - (* Named *) destruct Hk as (-> & -> & H1 & H2). apply good_goto; [done|done|by rewrite Ek| |done|done]. unfold ok. by rewrite where_goto, decide_True.
    - done.
    - done.
    - done.
  Qed.
  Lemma good_new : good (newRoomUpdate heroes).
  Proof.
    assert (E : forall k, where_ (newRoomUpdate heroes) k = Start) by (intros k; unfold where_, newRoomUpdate; cbn [h_at]; by rewrite lookup_empty).
    split; [|split; [|split]].
    - intros k. unfold ok. by rewrite E.
    - intros k. by rewrite E.
    - intros _. left. unfold holds, newRoomUpdate. cbn [h_arr h_len]. by rewrite take_ge.
    - intros (k & l & H). by rewrite E in H.
  Qed.
End heroes.

(** If the connections take turns with an update, each is told what is right, whatever their order, however many
    there are, and whenever the responses are sent. *)
Theorem C90_in_turn_partial : forall user heroes stored l,
  NoDup (map fst heroes) -> in_turn user stored (newRoomUpdate heroes) l ->
  forall k, right user heroes stored (steps user stored (newRoomUpdate heroes) l) k.
Proof.
  intros user heroes stored l Hnd Ht k.
  assert (G : good user heroes stored (steps user stored (newRoomUpdate heroes) l)).
  { induction l as [|x l IH] using rev_ind; [by apply good_new|]. unfold steps. rewrite foldl_app. cbn [foldl].
    apply step_good; [done| | |].
    - intros a b. apply (Ht l [x]). done.
    - intros a b. pose proof (Ht (l ++ [x]) []) as H. rewrite app_nil_r in H. specialize (H eq_refl a b). unfold steps in H. rewrite foldl_app in H. exact H.
    - apply IH. intros l1 l2 ->. apply (Ht l1 (l2 ++ [x])). by rewrite app_assoc. }
  destruct G as (G1 & G2 & _). specialize (G1 k). specialize (G2 k). unfold right, ok in *. destruct (where_ _ k); try done. by apply G2.
Qed.
Print Assumptions C90_in_turn_partial.

(** If the user is not among the heroes, nothing is moved, and nothing goes wrong however their steps alternate. *)
Theorem C90_not_a_hero_partial : forall user heroes stored l,
  (forall h, In h heroes -> h.1 <> user) -> forall k, right user heroes stored (steps user stored (newRoomUpdate heroes) l) k.
Proof.
  intros user heroes stored l Hno.
  assert (Hown : others user heroes = heroes).
  { unfold others. induction heroes as [|h hs IH]; [done|]. rewrite filter_cons, decide_True by (apply Hno; by left). f_equal. apply IH. intros x Hx. apply Hno. by right. }
  set (good s := h_arr s = heroes /\ h_len s = length heroes /\ forall k,
    match where_ s k with
    | Start | Removed => True
    | Len l | Range l => l = length heroes
    | Copied p => p = heroes
    | Named named l => named = heroes /\ l = length heroes
    | Sent named hs => named = heroes /\ hs = heroes
    | Same => stored k = heroes
    | Found _ | Moved _ | Panicked => False
    end).
  assert (G : good (steps user stored (newRoomUpdate heroes) l)).
  { induction l as [|x l IH] using rev_ind.
    - split; [done|]. split; [done|]. intros k. unfold where_, steps, newRoomUpdate. cbn [foldl h_at]. by rewrite lookup_empty.
    - unfold steps in *. rewrite foldl_app. cbn [foldl]. set (s := foldl _ _ _) in *. clearbody s. destruct IH as (G1 & G2 & G3).
      assert (K : forall a, match a with
          | Start | Removed => True
          | Len l | Range l => l = length heroes
          | Copied p => p = heroes
          | Named named l => named = heroes /\ l = length heroes
          | Sent named hs => named = heroes /\ hs = heroes
          | Same => stored x = heroes
          | Found _ | Moved _ | Panicked => False
          end -> good (goto s x a)).
      { intros a Ha. split; [done|]. split; [done|]. intros k. rewrite where_goto. destruct (decide (k = x)) as [-> | ?]; [exact Ha|apply G3]. }
      pose proof (G3 x) as Hx. unfold step. destruct (where_ s x) as [|n|p|n|i|n| |named n|named hs| |] eqn:Ex; try done.
      + by apply K.
      + apply K. subst n. rewrite G1, G2, Nat.sub_diag, take_take, Nat.min_id, take_ge by done. by rewrite app_nil_r.
      + subst p. rewrite without_not_in by done. case_bool_decide; apply K; [by symmetry|done].
      + subst n. rewrite G1, take_ge, place_none by done. by apply K.
      + apply K. rewrite G1, G2, take_ge by done. done.
      + destruct Hx as [-> ->]. apply K. rewrite G1, take_ge by done. done. }
  intros k. unfold right. rewrite Hown. destruct G as (_ & _ & G). specialize (G k). destruct (where_ _ k); done.
Qed.
Print Assumptions C90_not_a_hero_partial.

(** ** Examples *)
Definition five : list hero := [("@a", "Ann"); ("@b", "Bob"); ("@c", "Cat"); ("@d", "Dan"); ("@me", "Me")].
Definition mid : list hero := [("@a", "Ann"); ("@me", "Me"); ("@c", "Cat"); ("@d", "Dan")].
Definition nothing_stored : nat -> list hero := fun _ => [].
(** Two connections in turn; the first sends its response last. The hypotheses of the first theorem are met. *)
Definition busyb (s : shared) (k : nat) : bool := match where_ s k with Start | Named _ _ | Sent _ _ | Same | Panicked => false | _ => true end.
Lemma in_turn_check user stored s l ks :
  (forall k, k ∉ ks -> h_at s !! k = None) -> (forall k, In k l -> k ∈ ks) ->
  forallb (fun n => (length (filter (fun k => busyb (steps user stored s (firstn n l)) k = true) ks) <=? 1)) (seq 0 (S (length l))) = true ->
  NoDup ks -> in_turn user stored s l.
Proof.
  intros H0 Hl Hc Hnd l1 l2 E k k' Hb Hb'.
  assert (Hs : forall l1, (forall k, In k l1 -> k ∈ ks) -> forall k, k ∉ ks -> h_at (steps user stored s l1) !! k = None).
  { clear -H0. induction l1 as [|x l1 IH] using rev_ind; intros Hin k Hk; [by apply H0|]. unfold steps. rewrite foldl_app. cbn [foldl].
    assert (Hx : x <> k) by (intros ->; apply Hk, Hin, in_app_iff; right; by left).
    assert (IH' : h_at (steps user stored s l1) !! k = None) by (apply IH; [intros y Hy; apply Hin, in_app_iff; by left|done]).
    unfold steps in IH'. set (t := foldl _ _ _) in *. unfold step.
    repeat match goal with |- context [match ?x with _ => _ end] => destruct x end; unfold goto; cbn [h_at]; rewrite ?lookup_insert_ne by done; done. }
  assert (Hk : forall k, busy (steps user stored s l1) k -> k ∈ filter (fun k => busyb (steps user stored s l1) k = true) ks).
  { intros j Hj. apply elem_of_list_filter. split; [unfold busy, busyb in *; by destruct (where_ _ j)|].
    destruct (decide (j ∈ ks)) as [|Hnj]; [done|]. exfalso. assert (Hn : h_at (steps user stored s l1) !! j = None).
    { apply Hs; [|done]. intros y Hy. apply Hl. rewrite E. apply in_app_iff. by left. }
    unfold busy, where_ in Hj. by rewrite Hn in Hj. }
  assert (Hlen : length (filter (fun k => busyb (steps user stored s l1) k = true) ks) <= 1).
  { rewrite forallb_forall in Hc. specialize (Hc (length l1)). rewrite E in Hc. rewrite firstn_app, Nat.sub_diag, firstn_O, app_nil_r, firstn_all in Hc.
    apply Nat.leb_le, Hc, in_seq. rewrite app_length. lia. }
  apply Hk in Hb. apply Hk in Hb'. destruct (filter _ ks) as [|a [|b r]]; [by apply elem_of_nil in Hb| |cbn in Hlen; lia].
  apply elem_of_list_singleton in Hb. apply elem_of_list_singleton in Hb'. congruence.
Qed.
Definition turns : list nat := [1; 1; 1; 1; 1; 1; 1; 2; 2; 2; 2; 2; 2; 1].
Example C90_example :
  NoDup (map fst mid) /\ in_turn "@me" nothing_stored (newRoomUpdate mid) turns /\
  let s := steps "@me" nothing_stored (newRoomUpdate mid) turns in
  where_ s 1 = Sent (others "@me" mid) (others "@me" mid) /\ where_ s 2 = Sent (others "@me" mid) (others "@me" mid) /\
  others "@me" mid = [("@a", "Ann"); ("@c", "Cat"); ("@d", "Dan")].
Proof.
  split; [apply (bool_decide_eq_true_1 _); vm_compute; reflexivity|]. split.
  - apply (in_turn_check _ _ _ _ [1; 2]).
    + intros k _. apply lookup_empty.
    + intros k Hk. apply elem_of_list_In. cbn in *. tauto.
    + vm_compute. reflexivity.
    + apply (bool_decide_eq_true_1 _); vm_compute; reflexivity.
  - vm_compute. repeat split.
Qed.

(** ** Where it fails *)
(** Two devices of a user at once: a hero is gone from the name and the list, ... *)
Theorem C90_lost_refuted : exists user heroes l, NoDup (map fst heroes) /\
  where_ (steps user nothing_stored (newRoomUpdate heroes) l) 2 = Sent [("@a", "Ann"); ("@d", "Dan")] [("@a", "Ann"); ("@d", "Dan")] /\
  others user heroes = [("@a", "Ann"); ("@c", "Cat"); ("@d", "Dan")].
Proof.
  exists "@me", mid, [1; 1; 1; 1; 2; 2; 2; 2; 1; 1; 2; 2; 2; 2].
  split; [apply (bool_decide_eq_true_1 _); vm_compute; reflexivity|]. vm_compute. repeat split.
Qed.
(** ... or the response that is ready is changed before it is sent, so that the heroes are not those in the name, ... *)
Theorem C90_changed_refuted : exists user heroes l, NoDup (map fst heroes) /\
  where_ (steps user nothing_stored (newRoomUpdate heroes) l) 1 =
    Sent [("@a", "Ann"); ("@c", "Cat"); ("@d", "Dan")] [("@a", "Ann"); ("@d", "Dan"); ("@d", "Dan")].
Proof.
  exists "@me", mid, [1; 1; 1; 1; 2; 2; 2; 2; 1; 1; 1; 2; 2; 1].
  split; [apply (bool_decide_eq_true_1 _); vm_compute; reflexivity|]. vm_compute. reflexivity.
Qed.
(** ... or a request fails with a panic, ... *)
Theorem C90_panic_refuted : exists user heroes l, NoDup (map fst heroes) /\
  where_ (steps user nothing_stored (newRoomUpdate heroes) l) 2 = Panicked.
Proof.
  exists "@me", five, [1; 1; 1; 1; 2; 2; 2; 2; 1; 1; 2].
  split; [apply (bool_decide_eq_true_1 _); vm_compute; reflexivity|]. vm_compute. reflexivity.
Qed.
(** ... or the connection keeps heroes for the room that it has not, one of them twice. *)
Theorem C90_twice_refuted : exists user heroes l own, NoDup (map fst heroes) /\
  where_ (steps user nothing_stored (newRoomUpdate heroes) l) 2 = Copied own /\
  without user own = [("@a", "Ann"); ("@c", "Cat"); ("@d", "Dan"); ("@d", "Dan")].
Proof.
  exists "@me", mid, [1; 1; 1; 1; 2; 1; 2], [("@a", "Ann"); ("@c", "Cat"); ("@d", "Dan"); ("@d", "Dan")].
  split; [apply (bool_decide_eq_true_1 _); vm_compute; reflexivity|]. vm_compute. repeat split.
Qed.
Print Assumptions C90_lost_refuted.
Print Assumptions C90_changed_refuted.
Print Assumptions C90_panic_refuted.
Print Assumptions C90_twice_refuted.
