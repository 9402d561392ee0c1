(** Stable sorting: proofs about [isort]. *)
From Verif Require Import Prelude RoomNameModel ListsModel.

Section isort.
  Context {A : Type} `{EqDecision A} (less : A -> A -> bool).
  Notation le x y := (less y x = false).
  (** [less] is a strict weak order. *)
  Context (Hasym : forall x y, less x y = true -> less y x = false).
  Context (Htrans : forall x y z, le x y -> le y z -> le x z).

  Lemma ins_perm x l : ins less x l ≡ₚ x :: l.
  Proof.
    clear. induction l as [|y l IH]; cbn; [done|]. destruct (less y x); [|done].
    rewrite IH. apply Permutation_swap.
  Qed.
  Lemma isort_perm l : isort less l ≡ₚ l.
  Proof. clear -A. induction l as [|x l IH]; cbn; [done|]. rewrite ins_perm. by rewrite IH. Qed.

  Lemma ins_sorted x l :
    StronglySorted (fun a b => le a b) l -> StronglySorted (fun a b => le a b) (ins less x l).
  Proof.
    induction l as [|y l IH]; intros Hs; cbn; [repeat constructor|].
    apply StronglySorted_inv in Hs as [Hs Hy].
    destruct (less y x) eqn:E.
    - constructor; [by apply IH|]. rewrite ins_perm. constructor; [by apply Hasym|done].
    - constructor; [by constructor|]. constructor; [done|]. eapply Forall_impl; [exact Hy|].
      intros z Hz. by apply (Htrans x y z).
  Qed.
  Lemma isort_sorted l : StronglySorted (fun a b => le a b) (isort less l).
  Proof. induction l as [|x l IH]; cbn; [constructor|]. by apply ins_sorted. Qed.

  Lemma ins_filter (P : A -> Prop) `{!forall x, Decision (P x)} x l :
    StronglySorted (fun a b => le a b) l ->
    filter P (ins less x l) = if decide (P x) then ins less x (filter P l) else filter P l.
  Proof.
    induction l as [|y l IH]; intros Hs; cbn [ins].
    - rewrite filter_cons. rewrite filter_nil. destruct (decide (P x)); done.
    - apply StronglySorted_inv in Hs as [Hs Hy]. destruct (less y x) eqn:E.
      + rewrite !filter_cons. rewrite IH by done. destruct (decide (P y)); destruct (decide (P x)); cbn [ins]; try done.
        by rewrite E.
      + rewrite filter_cons. destruct (decide (P x)); [|done].
        assert (Hall : Forall (fun z => le x z) (y :: l)).
        { constructor; [done|]. eapply Forall_impl; [exact Hy|]. intros z Hz. by apply (Htrans x y z). }
        assert (Hall' : Forall (fun z => le x z) (filter P (y :: l))).
        { apply Forall_forall. intros z Hz. apply elem_of_list_filter in Hz as [_ Hz].
          by apply (proj1 (Forall_forall _ _) Hall z Hz). }
        destruct (filter P (y :: l)) as [|z l']; [done|]. cbn. inversion Hall' as [|? ? Hz _]. by rewrite Hz.
  Qed.
  Lemma isort_filter (P : A -> Prop) `{!forall x, Decision (P x)} l :
    filter P (isort less l) = isort less (filter P l).
  Proof.
    induction l as [|x l IH]; [done|]. cbn [isort foldr]. fold (isort less l).
    rewrite ins_filter by apply isort_sorted. rewrite filter_cons. rewrite IH.
    destruct (decide (P x)); done.
  Qed.

  Lemma isort_id l : StronglySorted (fun a b => le a b) l -> isort less l = l.
  Proof.
    clear -A. induction l as [|x l IH]; intros Hs; [done|]. apply StronglySorted_inv in Hs as [Hs Hx].
    cbn [isort foldr]. fold (isort less l). rewrite IH by done.
    destruct l as [|y l]; [done|]. cbn. inversion Hx as [|? ? Hy _]. by rewrite Hy.
  Qed.

  (** Stability: rooms that tie keep their order. *)
  Definition tied (x y : A) : Prop := less x y = false /\ less y x = false.
  Global Instance tied_dec x y : Decision (tied x y).
  Proof. unfold tied. solve_decision. Defined.

  Lemma isort_stable k l : filter (tied k) (isort less l) = filter (tied k) l.
  Proof.
    rewrite isort_filter. apply isort_id.
    assert (Hall : Forall (tied k) (filter (tied k) l)).
    { apply Forall_forall. intros z Hz. by apply elem_of_list_filter in Hz as [Hz _]. }
    induction (filter (tied k) l) as [|x l' IH]; [constructor|].
    inversion Hall as [|? ? Hx Hl]; subst. constructor; [by apply IH|].
    eapply Forall_impl; [exact Hl|]. intros z [H1 H2]. destruct Hx as [H3 H4].
    apply (Htrans x k z); done.
  Qed.

  (** Uniqueness: a sorted list with the same ties in the same order is the same list. *)
  Lemma sorted_unique l1 l2 :
    StronglySorted (fun a b => le a b) l1 -> StronglySorted (fun a b => le a b) l2 ->
    (forall k, filter (tied k) l1 = filter (tied k) l2) -> l1 = l2.
  Proof.
    revert l2. induction l1 as [|x l1 IH]; intros l2 H1 H2 Hf.
    - destruct l2 as [|y l2]; [done|]. specialize (Hf y). rewrite filter_nil, filter_cons in Hf.
      destruct (decide (tied y y)) as [|Hn]; [done|]. destruct Hn.
      assert (less y y = false) by (destruct (less y y) eqn:E; [by rewrite (Hasym y y E) in E|done]). by split.
    - assert (Hrefl : forall z, less z z = false).
      { intros z. destruct (less z z) eqn:E; [by rewrite (Hasym z z E) in E|done]. }
      destruct l2 as [|y l2].
      { specialize (Hf x). rewrite filter_nil, filter_cons in Hf.
        destruct (decide (tied x x)) as [|Hn]; [done|]. destruct Hn. by split. }
      apply StronglySorted_inv in H1 as [H1 Hx]. apply StronglySorted_inv in H2 as [H2 Hy].
      assert (Hxin : x ∈ y :: l2).
      { pose proof (Hf x) as Hfx. rewrite filter_cons in Hfx.
        destruct (decide (tied x x)) as [|Hn]; [|destruct Hn; by split].
        assert (Hxx : x ∈ filter (tied x) (y :: l2)) by (rewrite <- Hfx; by left).
        by apply elem_of_list_filter in Hxx as [_ Hxx]. }
      assert (Hyin : y ∈ x :: l1).
      { pose proof (Hf y) as Hfy. rewrite (filter_cons _ y) in Hfy.
        destruct (decide (tied y y)) as [|Hn]; [|destruct Hn; by split].
        assert (Hyy : y ∈ filter (tied y) (x :: l1)) by (rewrite Hfy; by left).
        by apply elem_of_list_filter in Hyy as [_ Hyy]. }
      assert (Hle1 : le y x).
      { apply elem_of_cons in Hxin as [->|Hxin]; [done|]. by apply (proj1 (Forall_forall _ _) Hy x Hxin). }
      assert (Hle2 : le x y).
      { apply elem_of_cons in Hyin as [->|Hyin]; [done|]. by apply (proj1 (Forall_forall _ _) Hx y Hyin). }
      assert (x = y) as <-.
      { pose proof (Hf x) as Hfx. rewrite !filter_cons in Hfx.
        destruct (decide (tied x x)) as [|Hn]; [|destruct Hn; by split].
        destruct (decide (tied x y)) as [|Hn]; [by injection Hfx|destruct Hn; by split]. }
      f_equal. apply IH; [done|done|]. intros k. specialize (Hf k). rewrite !filter_cons in Hf.
      destruct (decide (tied k x)); [by injection Hf|done].
  Qed.

  Lemma isort_unique l l2 :
    StronglySorted (fun a b => le a b) l2 -> (forall k, filter (tied k) l2 = filter (tied k) l) ->
    l2 = isort less l.
  Proof.
    intros H1 H2. apply sorted_unique; [done|apply isort_sorted|]. intros k. by rewrite H2, isort_stable.
  Qed.
End isort.

(** Only the values of [less] on the list matter. *)
Lemma ins_ext {A} (f g : A -> A -> bool) x l :
  (forall y, y ∈ l -> f y x = g y x) -> ins f x l = ins g x l.
Proof.
  induction l as [|y l IH]; intros H; cbn; [done|]. rewrite (H y) by (by left).
  destruct (g y x); [|done]. rewrite IH; [done|]. intros z Hz. apply H. by right.
Qed.
Lemma isort_ext {A} (f g : A -> A -> bool) l :
  (forall x y, x ∈ l -> y ∈ l -> f x y = g x y) -> isort f l = isort g l.
Proof.
  induction l as [|x l IH]; intros H; [done|]. cbn [isort foldr]. fold (isort f l). fold (isort g l).
  rewrite IH by (intros a b Ha Hb; apply H; by right).
  apply ins_ext. intros y Hy. rewrite (isort_perm g l) in Hy. apply H; [by right|by left].
Qed.
