(** Proofs about list operations. *)
From Verif Require Import Prelude RangeModel RangeSpec RangeProofs OpsModel OpsSpec.
Open Scope Z_scope.

(** ** Lists by integer index *)
Lemma get_range l i x : get l i = Some x -> 0 <= i < Z.of_nat (length l).
Proof.
  unfold get. destruct (0 <=? i) eqn:E; [|done]. intros H. apply lookup_lt_Some in H. lia.
Qed.
Lemma get_in_range l i : 0 <= i < Z.of_nat (length l) -> exists x, get l i = Some x.
Proof.
  intros Hi. unfold get. assert (0 <=? i = true) as -> by lia.
  apply lookup_lt_is_Some_2. lia.
Qed.
Lemma get_app_l p q i : i < Z.of_nat (length p) -> get (p ++ q) i = get p i.
Proof.
  intros Hi. unfold get. destruct (0 <=? i) eqn:E; [|done]. apply lookup_app_l. lia.
Qed.
Lemma get_app_r p q i : Z.of_nat (length p) <= i -> get (p ++ q) i = get q (i - Z.of_nat (length p)).
Proof.
  intros Hi. unfold get. assert (0 <=? i = true) as -> by lia.
  assert (0 <=? i - Z.of_nat (length p) = true) as -> by lia.
  rewrite lookup_app_r by lia. f_equal. lia.
Qed.
Lemma get_cons x q i : get (x :: q) i = if i =? 0 then Some x else get q (i - 1).
Proof.
  unfold get. destruct (Z.eqb_spec i 0) as [->|Hne]; [done|].
  destruct (0 <=? i) eqn:E.
  - assert (0 <=? i - 1 = true) as -> by lia.
    replace (Z.to_nat i) with (S (Z.to_nat (i - 1))) by lia. done.
  - assert (0 <=? i - 1 = false) as -> by lia. done.
Qed.
Lemma get_ins p q x i :
  get (p ++ x :: q) i =
    if i <? Z.of_nat (length p) then get (p ++ q) i
    else if i =? Z.of_nat (length p) then Some x else get (p ++ q) (i - 1).
Proof.
  destruct (i <? Z.of_nat (length p)) eqn:E.
  - rewrite !get_app_l by lia. done.
  - rewrite get_app_r by lia. rewrite get_cons.
    destruct (Z.eqb_spec i (Z.of_nat (length p))) as [->|Hne].
    + by rewrite Z.sub_diag.
    + assert (i - Z.of_nat (length p) =? 0 = false) as -> by lia.
      rewrite get_app_r by lia. f_equal. lia.
Qed.

Lemma index_of_None l x : index_of l x = None <-> x ∉ l.
Proof.
  induction l as [|y l IH]; cbn; [set_solver|].
  destruct (String.eqb_spec y x) as [->|Hne]; [set_solver|].
  destruct (index_of l x); cbn; set_solver.
Qed.
Lemma index_of_app p q x : x ∉ p -> index_of (p ++ x :: q) x = Some (Z.of_nat (length p)).
Proof.
  induction p as [|y p IH]; cbn [app index_of].
  - by rewrite String.eqb_refl.
  - intros Hx. destruct (String.eqb_spec y x) as [->|Hne]; [set_solver|].
    rewrite IH by set_solver. cbn [option_map length]. f_equal. lia.
Qed.
Lemma get_elem l i x : get l i = Some x -> x ∈ l.
Proof.
  unfold get. destruct (0 <=? i); [|done]. apply elem_of_list_lookup_2.
Qed.
Lemma elem_get l x : x ∈ l -> exists i, get l i = Some x.
Proof.
  intros Hx. apply elem_of_list_lookup in Hx as [i Hi]. exists (Z.of_nat i). unfold get.
  assert (0 <=? Z.of_nat i = true) as -> by lia. by rewrite Nat2Z.id.
Qed.
Lemma list_remove_app p q x : x ∉ p -> list_remove (p ++ x :: q) x = p ++ q.
Proof.
  intros Hx. unfold list_remove. rewrite index_of_app by done.
  rewrite Nat2Z.id. rewrite take_app_alt by done. f_equal.
  rewrite drop_app_ge by lia. replace (length p + 1 - length p)%nat with 1%nat by lia. done.
Qed.

(** ** The shape of a change, position by position. *)
Record shape (op : list_op) (room : string) (l l' : list string) (f t : Z) : Prop := {
  sh_f : 0 <= f;
  sh_t : 0 <= t < Z.of_nat (length l');
  sh_out : forall i, 0 <= i < Z.of_nat (length l') -> (i < f /\ i < t) \/ (f < i /\ t < i) ->
    get l' i = get l i /\ i < Z.of_nat (length l);
  sh_down : forall i, t < i <= f -> i < Z.of_nat (length l') ->
    get l' i = get l (i - 1) /\ i - 1 < Z.of_nat (length l);
  sh_up : forall i, f <= i < t -> get l' i = get l (i + 1) /\ i + 1 < Z.of_nat (length l);
  sh_del : op = OpDel ->
    t = Z.of_nat (length l') - 1 /\ Z.of_nat (length l) = Z.of_nat (length l') + 1 /\ f <= t + 1 /\
    (f <= t -> get l' t = get l (t + 1)) /\ room ∉ l' /\ (t < f -> get l' t = get l t);
  sh_nodel : op <> OpDel -> (forall i, get l' i = Some room <-> i = t) /\
    Z.of_nat (length l) <= Z.of_nat (length l');
  sh_change : op = OpChange -> get l f = Some room /\ f < Z.of_nat (length l) /\
    length l' = length l /\ (f = t -> get l' t = get l t);
  sh_add : op = OpAdd -> f = Z.of_nat (length l) /\ length l' = S (length l) }.

Lemma not_in_get l x i : x ∉ l -> get l i <> Some x.
Proof. intros H E. apply get_elem in E. done. Qed.

Lemma shape_add room p q :
  room ∉ p ++ q ->
  shape OpAdd room (p ++ q) (p ++ room :: q) (Z.of_nat (length (p ++ q))) (Z.of_nat (length p)).
Proof.
  intros Hn. assert (Hlen : length (p ++ room :: q) = S (length (p ++ q)))
    by (rewrite !app_length; cbn; lia).
  assert (Hpq : (length p <= length (p ++ q))%nat) by (rewrite app_length; lia).
  split; rewrite ?Hlen; try done; try lia.
  - intros i Hi Hc. rewrite get_ins. split; [|lia].
    assert (i <? Z.of_nat (length p) = true) as -> by lia. done.
  - intros i Hi Hi'. rewrite get_ins. split; [|lia].
    assert (i <? Z.of_nat (length p) = false) as -> by lia.
    assert (i =? Z.of_nat (length p) = false) as -> by lia. done.
  - intros _. split; [|lia]. intros i. rewrite get_ins.
    pose proof (not_in_get _ _ i Hn). pose proof (not_in_get _ _ (i - 1) Hn).
    destruct (i <? Z.of_nat (length p)) eqn:E1; [split; [done|lia]|].
    destruct (i =? Z.of_nat (length p)) eqn:E2; [split; [intros _; lia|done]|split; [done|lia]].
Qed.

Lemma shape_del room p q :
  room ∉ p ++ q -> p ++ q <> [] ->
  shape OpDel room (p ++ room :: q) (p ++ q) (Z.of_nat (length p)) (Z.of_nat (length (p ++ q)) - 1).
Proof.
  intros Hn Hne. assert (Hlen : length (p ++ room :: q) = S (length (p ++ q)))
    by (rewrite !app_length; cbn; lia).
  assert (Hpq : (length p <= length (p ++ q))%nat) by (rewrite app_length; lia).
  assert (0 < length (p ++ q))%nat by (destruct (p ++ q); cbn; [done|lia]).
  split; rewrite ?Hlen; try done; try lia.
  - intros i Hi Hc. rewrite get_ins. split; [|lia].
    assert (i <? Z.of_nat (length p) = true) as -> by lia. done.
  - intros i Hi. rewrite get_ins. split; [|lia].
    assert (i + 1 <? Z.of_nat (length p) = false) as -> by lia.
    assert (i + 1 =? Z.of_nat (length p) = false) as -> by lia. f_equal. lia.
  - intros _. split_and!; [done|lia|lia| |done|].
    2:{ intros Hf. rewrite get_ins.
        assert (Z.of_nat (length (p ++ q)) - 1 <? Z.of_nat (length p) = true) as -> by lia. done. }
    intros Hf. rewrite get_ins.
    assert (Z.of_nat (length (p ++ q)) - 1 + 1 <? Z.of_nat (length p) = false) as -> by lia.
    assert (Z.of_nat (length (p ++ q)) - 1 + 1 =? Z.of_nat (length p) = false) as -> by lia.
    f_equal. lia.
Qed.

Lemma shape_move room p q p' q' :
  room ∉ p ++ q -> p ++ q = p' ++ q' ->
  shape OpChange room (p ++ room :: q) (p' ++ room :: q') (Z.of_nat (length p)) (Z.of_nat (length p')).
Proof.
  intros Hn Heq. assert (Hlen : length (p ++ room :: q) = S (length (p ++ q)))
    by (rewrite !app_length; cbn; lia).
  assert (Hlen' : length (p' ++ room :: q') = S (length (p ++ q)))
    by (rewrite Heq, !app_length; cbn; lia).
  assert (Hpq : (length p <= length (p ++ q))%nat) by (rewrite app_length; lia).
  assert (Hpq' : (length p' <= length (p ++ q))%nat) by (rewrite Heq, app_length; lia).
  split; rewrite ?Hlen, ?Hlen'; try done; try lia.
  - intros i Hi Hc. split; [|lia]. rewrite !get_ins, Heq.
    destruct (i <? Z.of_nat (length p)) eqn:E1, (i <? Z.of_nat (length p')) eqn:E2; try lia; [done|].
    assert (i =? Z.of_nat (length p) = false) as -> by lia.
    assert (i =? Z.of_nat (length p') = false) as -> by lia. done.
  - intros i Hi Hi'. split; [|lia]. rewrite !get_ins, Heq.
    assert (i <? Z.of_nat (length p') = false) as -> by lia.
    assert (i =? Z.of_nat (length p') = false) as -> by lia.
    assert (i - 1 <? Z.of_nat (length p) = true) as -> by lia. done.
  - intros i Hi. split; [|lia]. rewrite !get_ins, Heq.
    assert (i <? Z.of_nat (length p') = true) as -> by lia.
    assert (i + 1 <? Z.of_nat (length p) = false) as -> by lia.
    assert (i + 1 =? Z.of_nat (length p) = false) as -> by lia. f_equal. lia.
  - intros _. split; [|lia]. intros i. rewrite get_ins, <- Heq.
    pose proof (not_in_get _ _ i Hn). pose proof (not_in_get _ _ (i - 1) Hn).
    destruct (i <? Z.of_nat (length p')) eqn:E1; [split; [done|lia]|].
    destruct (i =? Z.of_nat (length p')) eqn:E2; [split; [intros _; lia|done]|split; [done|lia]].
  - intros _. split_and!; [|lia|done|].
    + rewrite get_ins. assert (Z.of_nat (length p) <? Z.of_nat (length p) = false) as -> by lia.
      by rewrite Z.eqb_refl.
    + intros Hpp. rewrite !get_ins. rewrite Hpp.
      assert (Z.of_nat (length p') <? Z.of_nat (length p') = false) as -> by lia. by rewrite Z.eqb_refl.
Qed.

(** ** The moves, window by window *)
Definition win_move (f t : Z) (sr : range) : option (Z * Z) :=
  let inw i := (sr.1 <=? i) && (i <=? sr.2) in
  if inw f && inw t then Some (f, t)
  else if inw f then Some (f, if t <? f then sr.1 else sr.2)
  else if inw t then Some (if f <? t then sr.1 else sr.2, t)
  else if ((Z.min f t <? sr.1) && (sr.2 <? Z.max f t)) then Some (jump_index f t sr)
  else None.

(** A move stays in its window and goes in the direction of the change. *)
Lemma win_move_spec f t sr a b :
  sr.1 <= sr.2 -> win_move f t sr = Some (a, b) ->
  sr.1 <= a <= sr.2 /\ sr.1 <= b <= sr.2 /\
  (t <= f -> t <= b /\ b <= a /\ a <= f /\ (a = f \/ a = sr.2) /\ (b = t \/ b = sr.1)) /\
  (f <= t -> f <= a /\ a <= b /\ b <= t /\ (a = f \/ a = sr.1) /\ (b = t \/ b = sr.2)) /\
  (sr.1 <= f <= sr.2 -> a = f) /\ (sr.1 <= t <= sr.2 -> b = t).
Proof.
  intros Hsr. unfold win_move, jump_index.
  destruct ((sr.1 <=? f) && (f <=? sr.2)) eqn:Ef, ((sr.1 <=? t) && (t <=? sr.2)) eqn:Et; cbn [andb].
  - intros [= <- <-]. lia.
  - intros [= <- <-]. destruct (t <? f) eqn:E; lia.
  - intros [= <- <-]. destruct (f <? t) eqn:E; lia.
  - destruct ((Z.min f t <? sr.1) && (sr.2 <? Z.max f t)) eqn:Ej; [|done].
    destruct (t <? f) eqn:E; intros [= <- <-]; lia.
Qed.

Lemma win_move_None f t sr :
  sr.1 <= sr.2 -> win_move f t sr = None ->
  forall i, sr.1 <= i <= sr.2 -> (i < f /\ i < t) \/ (f < i /\ t < i).
Proof.
  intros Hsr. unfold win_move, jump_index.
  destruct ((sr.1 <=? f) && (f <=? sr.2)) eqn:Ef, ((sr.1 <=? t) && (t <=? sr.2)) eqn:Et; cbn [andb]; try done.
  destruct ((Z.min f t <? sr.1) && (sr.2 <? Z.max f t)) eqn:Ej; [done|]. intros _ i Hi. lia.
Qed.

Lemma jumped_over_omap r f t :
  (forall sr, sr ∈ r -> sr.1 <= sr.2) ->
  (forall sr, sr ∈ r -> ~ (sr.1 <= f <= sr.2) /\ ~ (sr.1 <= t <= sr.2)) ->
  map (jump_index f t) (jumped_over r f t) = omap (win_move f t) r.
Proof.
  intros Hb Hn. unfold jumped_over. cbv zeta. induction r as [|sr r IH]; [done|]. cbn [List.filter omap list_omap].
  specialize (IH ltac:(intros; apply Hb; set_solver) ltac:(intros; apply Hn; set_solver)).
  specialize (Hb sr ltac:(set_solver)). specialize (Hn sr ltac:(set_solver)).
  unfold win_move at 1.
  assert ((sr.1 <=? f) && (f <=? sr.2) = false) as -> by lia.
  assert ((sr.1 <=? t) && (t <=? sr.2) = false) as -> by lia. cbn [andb].
  assert (((if f <? t then f else t) <? sr.1) && (sr.1 <? (if f <? t then t else f)) &&
          ((if f <? t then f else t) <? sr.2) && (sr.2 <? (if f <? t then t else f))
          = (Z.min f t <? sr.1) && (sr.2 <? Z.max f t)) as ->
    by (destruct (f <? t) eqn:E; lia).
  destruct ((Z.min f t <? sr.1) && (sr.2 <? Z.max f t)); cbn [map]; rewrite IH; done.
Qed.

(** Windows holding an end of the move are not jumped over. *)
Lemma jumped_over_not sr r f t :
  sr.1 <= f <= sr.2 \/ sr.1 <= t <= sr.2 -> jumped_over (sr :: r) f t = jumped_over r f t.
Proof.
  intros H. unfold jumped_over. cbn [List.filter].
  assert (((if f <? t then f else t) <? sr.1) && (sr.1 <? (if f <? t then t else f)) &&
          ((if f <? t then f else t) <? sr.2) && (sr.2 <? (if f <? t then t else f)) = false) as ->;
    [|done]. destruct (f <? t) eqn:E; lia.
Qed.
Lemma jumped_over_perm r r' f t : r ≡ₚ r' -> jumped_over r f t ≡ₚ jumped_over r' f t.
Proof.
  intros H. unfold jumped_over. cbv zeta. induction H; cbn [List.filter]; try done.
  - destruct (_ && _); by rewrite IHPermutation.
  - destruct (_ && _), (_ && _); try done. constructor.
  - etrans; done.
Qed.

Lemma windows_disjoint_cons sr r i :
  windows_ok (sr :: r) -> sr.1 <= i <= sr.2 -> forall tr, tr ∈ r -> ~ (tr.1 <= i <= tr.2).
Proof.
  intros Hok Hi tr Htr Hi'. apply disjoint_list_ok in Hok as (_ & Hd & _).
  specialize (Hd tr Htr). lia.
Qed.
Lemma windows_ok_cons sr r : windows_ok (sr :: r) -> windows_ok r.
Proof. rewrite <- !disjoint_list_ok. cbn. tauto. Qed.

Lemma moves_perm r f t :
  windows_ok r ->
  exists ms, move_indexes r f t = Some ms /\ ms ≡ₚ omap (win_move f t) r.
Proof.
  intros Hok. unfold move_indexes.
  assert (Hbd : forall sr, sr ∈ r -> sr.1 <= sr.2) by (intros sr Hsr; pose proof (windows_bounds _ _ Hok Hsr); lia).
  destruct (inside r f) as [fr|] eqn:Ef, (inside r t) as [tr|] eqn:Et.
  - apply inside_Some in Ef as [Hfr Hf], Et as [Htr Ht].
    case_bool_decide as Heq.
    + subst tr. eexists. split; [done|].
      apply elem_of_Permutation in Hfr as [r1 Hp]. rewrite Hp. cbn.
      assert (Hok1 : windows_ok (fr :: r1)) by (by eapply windows_ok_perm).
      assert (win_move f t fr = Some (f, t)) as ->.
      { unfold win_move. assert ((fr.1 <=? f) && (f <=? fr.2) && ((fr.1 <=? t) && (t <=? fr.2)) = true) as -> by lia. done. }
      assert (omap (win_move f t) r1 = []) as ->; [|done].
      apply elem_of_nil_inv. intros m Hm. apply elem_of_list_omap in Hm as (sr & Hsr & Hm).
      pose proof (windows_disjoint_cons _ _ _ Hok1 Hf sr Hsr).
      pose proof (windows_disjoint_cons _ _ _ Hok1 Ht sr Hsr).
      apply disjoint_list_ok in Hok1 as (_ & Hd & Hok1). specialize (Hd sr Hsr).
      apply disjoint_list_ok in Hok1. pose proof (windows_bounds _ _ Hok1 Hsr).
      unfold win_move in Hm.
      assert ((sr.1 <=? f) && (f <=? sr.2) = false) as E1 by lia.
      assert ((sr.1 <=? t) && (t <=? sr.2) = false) as E2 by lia. rewrite E1, E2 in Hm. cbn [andb] in Hm.
      assert ((Z.min f t <? sr.1) && (sr.2 <? Z.max f t) = false) as E3 by lia. by rewrite E3 in Hm.
    + assert (Ha : closest_in_direction r f (t <? f) = Some (if t <? f then fr.1 else fr.2)).
      { destruct (t <? f); [by apply closest_down_inside|by apply closest_up_inside]. }
      assert (Hb : closest_in_direction r t (f <? t) = Some (if f <? t then tr.1 else tr.2)).
      { destruct (f <? t); [by apply closest_down_inside|by apply closest_up_inside]. }
      rewrite Ha, Hb. eexists. split; [done|].
      apply elem_of_Permutation in Hfr as [r1 Hp]. rewrite Hp in Htr.
      apply elem_of_cons in Htr as [?|Htr]; [congruence|].
      apply elem_of_Permutation in Htr as [r2 Hp2].
      assert (Hpp : r ≡ₚ fr :: tr :: r2) by (by rewrite Hp, Hp2).
      assert (Hok1 : windows_ok (fr :: tr :: r2)) by (by eapply windows_ok_perm).
      assert (Hft : ~ (tr.1 <= f <= tr.2)) by (apply (windows_disjoint_cons _ _ _ Hok1 Hf); set_solver).
      assert (Htf : ~ (fr.1 <= t <= fr.2)).
      { intros Hx. apply (windows_disjoint_cons _ _ _ Hok1 Hx tr); [set_solver|done]. }
      rewrite (jumped_over_perm _ _ f t Hpp), Hpp. rewrite !jumped_over_not by lia.
      cbn [omap list_omap].
      assert (win_move f t fr = Some (f, if t <? f then fr.1 else fr.2)) as ->.
      { unfold win_move. assert ((fr.1 <=? f) && (f <=? fr.2) = true) as -> by lia.
        assert ((fr.1 <=? t) && (t <=? fr.2) = false) as -> by lia. done. }
      assert (win_move f t tr = Some (if f <? t then tr.1 else tr.2, t)) as ->.
      { unfold win_move. assert ((tr.1 <=? f) && (f <=? tr.2) = false) as -> by lia.
        assert ((tr.1 <=? t) && (t <=? tr.2) = true) as -> by lia. done. }
      constructor. constructor. rewrite jumped_over_omap; [done| |].
      * intros sr Hsr. apply Hbd. rewrite Hpp. set_solver.
      * intros sr Hsr. split; [apply (windows_disjoint_cons _ _ _ Hok1 Hf); set_solver|].
        apply windows_ok_cons in Hok1. by apply (windows_disjoint_cons _ _ _ Hok1 Ht).
  - apply inside_Some in Ef as [Hfr Hf]. apply inside_None in Et.
    assert (Ha : closest_in_direction r f (t <? f) = Some (if t <? f then fr.1 else fr.2)).
    { destruct (t <? f); [by apply closest_down_inside|by apply closest_up_inside]. }
    rewrite Ha. eexists. split; [done|].
    assert (Htf : ~ (fr.1 <= t <= fr.2)) by (intros Hx; apply Et; by exists fr).
    assert (Ht' : forall sr, sr ∈ r -> ~ (sr.1 <= t <= sr.2)) by (intros sr Hsr Hx; apply Et; by exists sr).
    apply elem_of_Permutation in Hfr as [r1 Hp].
    assert (Hok1 : windows_ok (fr :: r1)) by (by eapply windows_ok_perm).
    rewrite (jumped_over_perm _ _ f t Hp), Hp, jumped_over_not by lia. cbn [omap list_omap].
    assert (win_move f t fr = Some (f, if t <? f then fr.1 else fr.2)) as ->.
    { unfold win_move. assert ((fr.1 <=? f) && (f <=? fr.2) = true) as -> by lia.
      assert ((fr.1 <=? t) && (t <=? fr.2) = false) as -> by lia. done. }
    constructor. rewrite jumped_over_omap; [done| |].
    + intros sr Hsr. apply Hbd. rewrite Hp. set_solver.
    + intros sr Hsr. split; [by apply (windows_disjoint_cons _ _ _ Hok1 Hf)|].
      apply Ht'. rewrite Hp. set_solver.
  - apply inside_Some in Et as [Htr Ht]. apply inside_None in Ef.
    assert (Hb : closest_in_direction r t (f <? t) = Some (if f <? t then tr.1 else tr.2)).
    { destruct (f <? t); [by apply closest_down_inside|by apply closest_up_inside]. }
    rewrite Hb. eexists. split; [done|].
    assert (Hft : ~ (tr.1 <= f <= tr.2)) by (intros Hx; apply Ef; by exists tr).
    assert (Hf' : forall sr, sr ∈ r -> ~ (sr.1 <= f <= sr.2)) by (intros sr Hsr Hx; apply Ef; by exists sr).
    apply elem_of_Permutation in Htr as [r1 Hp].
    assert (Hok1 : windows_ok (tr :: r1)) by (by eapply windows_ok_perm).
    rewrite (jumped_over_perm _ _ f t Hp), Hp, jumped_over_not by lia. cbn [omap list_omap].
    assert (win_move f t tr = Some (if f <? t then tr.1 else tr.2, t)) as ->.
    { unfold win_move. assert ((tr.1 <=? f) && (f <=? tr.2) = false) as -> by lia.
      assert ((tr.1 <=? t) && (t <=? tr.2) = true) as -> by lia. done. }
    constructor. rewrite jumped_over_omap; [done| |].
    + intros sr Hsr. apply Hbd. rewrite Hp. set_solver.
    + intros sr Hsr. split; [apply Hf'; rewrite Hp; set_solver|].
      by apply (windows_disjoint_cons _ _ _ Hok1 Ht).
  - apply inside_None in Ef, Et. eexists. split; [done|].
    rewrite jumped_over_omap; [done|done|].
    intros sr Hsr. split; intros Hx; [apply Ef|apply Et]; by exists sr.
Qed.

(** ** The client *)
Lemma in_windows_covers r i : in_windows r i = true <-> covers r i.
Proof.
  unfold in_windows, covers. rewrite existsb_exists. setoid_rewrite <- elem_of_list_In.
  split; intros (sr & Hin & H); exists sr; (split; [done|lia]).
Qed.

Definition starts_clean (os : list resp_op) : Prop :=
  match os with [] => True | ODelete _ :: _ => True | _ => False end.

Lemma client_apply_app r v o1 o2 :
  starts_clean o2 ->
  client_apply r v (o1 ++ o2) = client_apply r (client_apply r v o1) o2.
Proof.
  intros Hc. unfold client_apply. rewrite foldl_app.
  destruct o2 as [|[i| |] o2]; try done.
Qed.

Lemma swap_effect r v a b x sr j :
  sr ∈ r -> sr.1 <= a <= sr.2 -> sr.1 <= b <= sr.2 -> (a <> b -> v b <> None) ->
  client_apply r v [ODelete a; OInsert b x] j =
    if j =? b then Some x
    else if (b <? j) && (j <=? a) then v (j - 1)
    else if (a <=? j) && (j <? b) then v (j + 1)
    else v j.
Proof.
  intros Hsr Ha Hb Hv. unfold client_apply. cbn.
  destruct (Z.eqb_spec j b) as [->|Hjb]; [done|].
  destruct (Z.eqb_spec b a) as [<-|Hab].
  - destruct (Z.eqb_spec j b); [lia|].
    assert ((b <? j) && (j <=? b) = false) as -> by lia.
    assert ((b <=? j) && (j <? b) = false) as -> by lia. done.
  - destruct (v b) as [y|] eqn:Ey; [|destruct (Hv ltac:(lia)); done].
    destruct ((b <? j) && (j <=? a)) eqn:E1.
    + assert (in_windows r j = true) as -> by (apply in_windows_covers; exists sr; split; [done|lia]).
      cbn [andb]. destruct (Z.eqb_spec (j - 1) a); [lia|done].
    + cbn [andb]. destruct ((a <=? j) && (j <? b)) eqn:E2.
      * assert (in_windows r j = true) as -> by (apply in_windows_covers; exists sr; split; [done|lia]).
        cbn [andb]. destruct (Z.eqb_spec (j + 1) a); [lia|done].
      * cbn [andb]. destruct (Z.eqb_spec j a); [lia|done].
Qed.

Lemma delete_effect r v a j :
  client_apply r v [ODelete a] j =
    if (a <=? j) && in_windows r j then v (j + 1) else if j =? a then None else v j.
Proof.
  unfold client_apply. cbn. destruct ((a <=? j) && in_windows r j) eqn:E; [|done].
  destruct (Z.eqb_spec (j + 1) a); [lia|done].
Qed.

Section main.
  Context (r : ranges) (Hok : windows_ok r).
  Context (op : list_op) (room : string) (l l' : list string) (f t : Z).
  Context (Hsh : shape op room l l' f t).
  Context (was single : bool).
  Context (Hwas : was = true -> covers r f).
  Context (Hsingle : single = true -> was = true ->
    forall sr m, sr ∈ r -> win_move f t sr = Some m -> sr.1 <= f <= sr.2).

  Context (Hnp : forall sr a b, sr ∈ r -> win_move f t sr = Some (a, b) -> b < Z.of_nat (length l')).

  Notation n := (Z.of_nat (length l)).
  Notation n' := (Z.of_nat (length l')).

  (** When the room at the end of the list is what fills the gap. *)
  Definition shifted_sent : bool := match inside r n' with Some _ => true | None => false end.
  Lemma shifted_sent_spec : shifted_sent = true <-> covers r n'.
  Proof.
    unfold shifted_sent. rewrite <- inside_is_Some. destruct (inside r n'); split; intros H;
      [eauto|done|done|by destruct H].
  Qed.

  (** The three forms of a move's operations. *)
  Lemma move_ops_cases sr m o s :
    sr ∈ r -> win_move f t sr = Some m ->
    move_ops r l' room op t was single m = Some (o, s) ->
    (o = [] /\ s = [] /\ op = OpChange /\ f = t /\ m = (t, t) /\ was = true) \/
    (o = [ODelete m.1] /\ s = [] /\ op = OpDel /\ m.2 = t /\ covers r n') \/
    (exists x, get l' m.2 = Some x /\ o = [ODelete m.1; OInsert m.2 x] /\
       (s = if (negb (m.2 =? t)) || negb was then [x] else if bool_decide (op = OpAdd) then [x] else []) /\
       ~ (op = OpDel /\ m.2 = t /\ covers r n')).
  Proof.
    intros Hsr Hm. destruct m as [a b]. unfold move_ops. cbn [fst snd].
    pose proof (windows_bounds _ _ Hok Hsr) as Hbd.
    destruct (win_move_spec f t sr a b ltac:(lia) Hm) as (Ha & Hb & _ & _ & Haf & Hbt).
    destruct (get l' b) as [x|] eqn:Ex; [|done].
    destruct (String.eqb x room && (a =? b) && bool_decide (op = OpChange) && was && single) eqn:E1.
    - intros [= <- <-]. left.
      apply andb_true_iff in E1 as [E1 Es]. apply andb_true_iff in E1 as [E1 Ew].
      apply andb_true_iff in E1 as [E1 Eo]. apply andb_true_iff in E1 as [E1 Eab].
      apply bool_decide_eq_true in Eo. apply String.eqb_eq in E1. subst x.
      pose proof (sh_nodel _ _ _ _ _ _ Hsh ltac:(by rewrite Eo)) as [Hu _]. apply Hu in Ex.
      pose proof (Hsingle Es Ew sr (a, b) Hsr Hm) as Hfin. specialize (Haf Hfin).
      split_and!; [done|done|done|lia| |done]. f_equal; lia.
    - clear E1. intros H. right.
      assert (Hdc : (b =? t) && bool_decide (op = OpDel) &&
           (String.eqb x room || ((b =? n' - 1) && shifted_sent)) = true <->
           op = OpDel /\ b = t /\ covers r n').
      { rewrite <- shifted_sent_spec. split.
        - intros E. apply andb_true_iff in E as [E E2]. apply andb_true_iff in E as [Eb Eo].
          apply bool_decide_eq_true in Eo. pose proof (sh_del _ _ _ _ _ _ Hsh Eo) as (Ht & _ & _ & _ & Hnr & _).
          split_and!; [done|lia|]. apply orb_true_iff in E2 as [E2|E2].
          + apply String.eqb_eq in E2. subst x. apply get_elem in Ex. done.
          + by apply andb_true_iff in E2 as [_ E2].
        - intros (Eo & -> & Es). pose proof (sh_del _ _ _ _ _ _ Hsh Eo) as (Ht & _).
          rewrite Es. rewrite bool_decide_true by done. rewrite Z.eqb_refl. cbn [andb].
          assert (t =? n' - 1 = true) as -> by lia. by rewrite orb_true_r. }
      fold shifted_sent in H.
      destruct ((b =? t) && bool_decide (op = OpDel) &&
           (String.eqb x room || ((b =? n' - 1) && shifted_sent))) eqn:E2.
      + left. injection H as <- <-. destruct (proj1 Hdc eq_refl) as (Eo & Eb & Ec).
        split_and!; [|done|done|done|done].
        unfold write_delete_op. assert (a <? 0 = false) as -> by lia.
        destruct (inside r a) eqn:Ei; [done|]. apply inside_None in Ei. destruct Ei. exists sr. done.
      + right. exists x. injection H as <- <-. split_and!; [done|done| |].
        * destruct (b =? t), was; cbn [negb orb andb]; rewrite ?andb_false_r; cbn; try done.
          by destruct (bool_decide (op = OpAdd)).
        * intros Hx. apply Hdc in Hx. congruence.
  Qed.

  Lemma win_move_above ur :
    f <= t -> ur.1 <= t + 1 <= ur.2 -> ~ (ur.1 <= t <= ur.2) -> win_move f t ur = None.
  Proof.
    intros Hft Hu Ht. unfold win_move.
    assert ((ur.1 <=? f) && (f <=? ur.2) = false) as -> by lia.
    assert ((ur.1 <=? t) && (t <=? ur.2) = false) as -> by lia. cbn [andb].
    assert ((Z.min f t <? ur.1) && (ur.2 <? Z.max f t) = false) as -> by lia. done.
  Qed.
  Lemma win_move_just_above ur :
    f = t + 1 -> ur.1 <= f <= ur.2 ->
    win_move f t ur = Some (f, if (ur.1 <=? t) then t else ur.1).
  Proof.
    intros -> Hu. unfold win_move.
    assert ((ur.1 <=? t + 1) && (t + 1 <=? ur.2) = true) as -> by lia.
    destruct (ur.1 <=? t) eqn:E.
    - assert (t <=? ur.2 = true) as -> by lia. done.
    - cbn [andb]. assert (t <? t + 1 = true) as -> by lia. done.
  Qed.
  Lemma lone_delete_from sr a i :
    sr ∈ r -> win_move f t sr = Some (a, t) -> sr.1 <= t <= sr.2 -> a <= i -> i <= t -> n' = t + 1 -> f <= t + 1 ->
    covers r n' -> f <= i \/ f <= t /\ a < f.
  Proof.
    intros Hsr Hm Ht Hai Hit Hn Hf (ur & Hur & Hu).
    destruct (decide (f <= t)) as [Hft|Hft].
    - destruct (win_move_spec f t sr a t ltac:(lia) Hm) as (_ & _ & _ & Hup & _ & _).
      destruct (Hup Hft) as (? & _). lia.
    - assert (Hf1 : f = t + 1) by lia.
      pose proof (win_move_just_above ur Hf1 ltac:(lia)) as Hum.
      pose proof (Hnp ur _ _ Hur Hum) as Hb.
      destruct (ur.1 <=? t) eqn:E; [|lia].
      assert (sr = ur) as <- by (apply (windows_same r sr ur t); [done..|lia|lia]).
      rewrite Hum in Hm. injection Hm as <-. lia.
  Qed.

  (** Windows already dealt with hold the new list, the others the old one. *)
  Definition progress (dn : list range) (v : view) : Prop :=
    forall sr i, sr ∈ r -> sr.1 <= i <= sr.2 ->
    (sr ∈ dn -> i < n' -> v i = get l' i) /\
    (sr ∉ dn -> i < n -> (i < n' \/ (forall tr, tr ∈ dn -> ~ (tr.1 <= t <= tr.2))) -> v i = get l i).

  Lemma step_progress dn v sr m o s :
    progress dn v -> sr ∈ r -> sr ∉ dn -> (forall tr, tr ∈ dn -> tr ∈ r /\ is_Some (win_move f t tr)) ->
    win_move f t sr = Some m ->
    move_ops r l' room op t was single m = Some (o, s) ->
    progress (sr :: dn) (client_apply r v o).
  Proof.
    intros Hp Hsr Hnd Hsub Hm Ho. destruct m as [a b].
    pose proof (windows_bounds _ _ Hok Hsr) as Hbd.
    destruct (win_move_spec f t sr a b ltac:(lia) Hm) as (Ha & Hb & Hdown & Hup & Haf & Hbt).
    assert (Hdir : (t < f /\ t <= b <= a /\ a <= f /\ (a = f \/ a = sr.2) /\ (b = t \/ b = sr.1)) \/
                   (f <= t /\ f <= a <= b /\ b <= t /\ (a = f \/ a = sr.1) /\ (b = t \/ b = sr.2))).
    { destruct (decide (f <= t)) as [Hd|Hd];
        [destruct (Hup Hd) as (?&?&?&?&?); right|destruct (Hdown ltac:(lia)) as (?&?&?&?&?); left]; auto with lia. }
    clear Hdown Hup.
    destruct Hsh as [Hf Ht Hout Hdn Hsup Hdel Hnodel Hchange Hadd].
    destruct (move_ops_cases sr (a, b) o s Hsr Hm Ho) as
      [(-> & _ & Hop & Hft & [= -> ->] & _)|[(-> & _ & Hop & Hbt' & Hc)|(x & Hx & -> & _ & Hnot)]];
      cbn [fst snd] in *.
    - (* nothing to do *)
      intros tr i Htr Hi. destruct (Hp tr i Htr Hi) as [H1 H2]. cbn. split.
      + intros Hin Hlt. apply elem_of_cons in Hin as [->|Hin]; [|by apply H1].
        destruct (Hchange Hop) as (_ & _ & Hlen & Hsame).
        rewrite H2; [|done|lia|lia].
        destruct (decide (i = t)) as [->|Hne]; [symmetry; by apply Hsame|].
        symmetry. apply Hout; lia.
      + intros Hin Hlt Hor. apply H2; [by apply not_elem_of_cons in Hin as [_ Hin]|done|].
        destruct Hor as [?|Hor]; [by left|]. right. intros ur Hur. apply Hor. by right.
    - (* a lone DELETE *)
      subst b. destruct (Hdel Hop) as (Htn & Hnn & Hft1 & Hdt & _ & Hdt').
      intros tr i Htr Hi. destruct (Hp tr i Htr Hi) as [H1 H2]. rewrite delete_effect.
      assert (in_windows r i = true) as -> by (apply in_windows_covers; by exists tr).
      assert (Htw : forall tr, tr ∈ dn -> ~ (tr.1 <= t <= tr.2)).
      { intros ur Hur Hx. assert (sr = ur); [|congruence]. destruct (Hsub ur Hur). by apply (windows_same r sr ur t). }
      destruct (decide (tr = sr)) as [->|Hne].
      + split; [|intros []; by left]. intros _ Hlt. destruct (a <=? i) eqn:Eai; cbn [andb].
        * (* the rooms above move down *)
          assert (Hfi : f <= i).
          { destruct (lone_delete_from sr a i Hsr Hm Hb ltac:(lia) ltac:(lia) ltac:(lia) Hft1 Hc) as [?|[? ?]]; lia. }
          destruct (decide (i = t)) as [->|Hit].
          -- destruct Hc as (ur & Hur & Hu). destruct (Hp ur (t + 1) Hur ltac:(lia)) as [_ H3].
             rewrite H3; [symmetry; apply Hdt; lia| | lia | right; exact Htw].
             intros Hin. destruct (decide (ur = sr)) as [->|]; [done|].
             (* a processed window starting at the end of the list is never moved *)
             destruct (Hsub ur Hin) as [_ [[ua ub] Hum]].
             rewrite win_move_above in Hum; [done|lia|lia|by apply Htw].
          -- destruct (Hp sr (i + 1) Hsr ltac:(lia)) as [_ H3].
             rewrite H3; [symmetry; apply Hsup; lia|done|lia|right; exact Htw].
        * destruct (Z.eqb_spec i a); [lia|]. rewrite H2; [|done|lia|by left; lia]. symmetry.
          destruct (decide (i = t /\ t < f)) as [[-> ?]|]; [by apply Hdt'|apply Hout; lia].
      + split.
        * intros Hin Hlt. apply elem_of_cons in Hin as [?|Hin]; [done|].
          assert (a <=? i = false) as ->.
          { apply not_true_iff_false. intros Hx. assert (sr = tr); [|congruence].
            apply (windows_same r sr tr i); [done..|lia|done]. }
          cbn [andb]. destruct (Z.eqb_spec i a); [|by apply H1].
          subst i. assert (sr = tr); [|congruence]. by apply (windows_same r sr tr a).
        * intros Hin Hlt Hor. assert (Hlt' : i < n').
          { destruct Hor as [?|Hor]; [done|]. exfalso. apply (Hor sr); [by left|done]. }
          assert (a <=? i = false) as ->.
          { apply not_true_iff_false. intros Hx. assert (sr = tr); [|congruence].
            apply (windows_same r sr tr i); [done..|lia|done]. }
          cbn [andb]. destruct (Z.eqb_spec i a).
          { subst i. assert (sr = tr); [|congruence]. by apply (windows_same r sr tr a). }
          apply H2; [by apply not_elem_of_cons in Hin as [_ Hin]|done|by left].
    - (* DELETE and INSERT *)
      assert (Hb' : b < n') by (apply get_range in Hx; lia).
      assert (Hvb : a <> b -> v b <> None).
      { intros Hne. destruct (Hp sr b Hsr Hb) as [_ H2].
        assert (b < n) as Hbn.
        { destruct op; [destruct (Hadd eq_refl); lia|destruct (Hdel eq_refl) as (?&?&_); lia|
            destruct (Hchange eq_refl) as (?&?&?&_); lia]. }
        rewrite H2; [|done|done|by left]. destruct (get_in_range l b) as [y Hy]; [lia|]. by rewrite Hy. }
      clear Hdel Hnodel Hchange Hadd Haf Hbt Hnot Ho Hm.
      intros tr i Htr Hi. destruct (Hp tr i Htr Hi) as [H1 H2].
      rewrite (swap_effect r v a b x sr i Hsr Ha Hb Hvb).
      destruct (decide (tr = sr)) as [->|Hne].
      + split; [|intros []; by left]. intros _ Hlt.
        destruct (Z.eqb_spec i b) as [->|Hib]; [done|].
        destruct ((b <? i) && (i <=? a)) eqn:E1.
        * destruct (Hdn i) as [He Hl]; [lia|lia|].
          destruct (Hp sr (i - 1) Hsr ltac:(lia)) as [_ H3]. rewrite H3; [by symmetry|done|lia|left; lia].
        * destruct ((a <=? i) && (i <? b)) eqn:E2.
          -- destruct (Hsup i) as [He Hl]; [lia|].
             destruct (Hp sr (i + 1) Hsr ltac:(lia)) as [_ H3]. rewrite H3; [by symmetry|done|lia|left; lia].
          -- assert (Hoo : (i < f /\ i < t) \/ (f < i /\ t < i)).
             { destruct (decide (f <= t)); lia. }
             destruct (Hout i) as [He Hl]; [lia|done|].
             rewrite H2; [by symmetry|done|lia|by left].
      + assert (i <> b) by (intros ->; assert (sr = tr); [|congruence]; by apply (windows_same r sr tr b)).
        assert (Hia : ~ (sr.1 <= i <= sr.2))
          by (intros Hx'; assert (sr = tr); [|congruence]; by apply (windows_same r sr tr i)).
        assert (i =? b = false) as -> by lia.
        assert ((b <? i) && (i <=? a) = false) as -> by lia.
        assert ((a <=? i) && (i <? b) = false) as -> by lia.
        split.
        * intros Hin Hlt. apply elem_of_cons in Hin as [?|Hin]; [done|by apply H1].
        * intros Hin Hlt Hor. apply H2; [by apply not_elem_of_cons in Hin as [_ Hin]|done|].
          destruct Hor as [?|Hor]; [by left|]. right. intros ur Hur. apply Hor. by right.
  Qed.
End main.
