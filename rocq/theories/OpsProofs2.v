(** Proofs about list operations: from single moves to the whole function. *)
From Verif Require Import Prelude RangeModel RangeSpec RangeProofs OpsModel OpsSpec OpsProofs.
Open Scope Z_scope.

Lemma moves_ops_Forall r new room op to was single ms os ss :
  moves_ops r new room op to was single ms = Some (os, ss) ->
  forall m, m ∈ ms -> exists o s, move_ops r new room op to was single m = Some (o, s) /\
    (forall x, x ∈ o -> x ∈ os) /\ (forall x, x ∈ s -> x ∈ ss).
Proof.
  revert os ss; induction ms as [|m ms IH]; intros os ss H m' Hm'; [by apply elem_of_nil in Hm'|].
  cbn in H. destruct (move_ops r new room op to was single m) as [[o s]|] eqn:E1; [|done].
  destruct (moves_ops r new room op to was single ms) as [[os' ss']|] eqn:E2; [|done].
  injection H as <- <-. apply elem_of_cons in Hm' as [->|Hm'].
  - exists o, s. split; [done|]. split; intros x Hx; apply elem_of_app; by left.
  - destruct (IH os' ss' eq_refl m' Hm') as (o' & s' & Ho & H1 & H2). exists o', s'. split; [done|].
    split; intros x Hx; apply elem_of_app; right; auto.
Qed.

Lemma moves_ops_elem r new room op to was single ms os ss :
  moves_ops r new room op to was single ms = Some (os, ss) ->
  (forall x, x ∈ os -> exists m o s, m ∈ ms /\ move_ops r new room op to was single m = Some (o, s) /\ x ∈ o) /\
  (forall x, x ∈ ss -> exists m o s, m ∈ ms /\ move_ops r new room op to was single m = Some (o, s) /\ x ∈ s).
Proof.
  revert os ss; induction ms as [|m ms IH]; intros os ss H; cbn in H.
  - injection H as <- <-. split; intros x Hx; by apply elem_of_nil in Hx.
  - destruct (move_ops r new room op to was single m) as [[o s]|] eqn:E1; [|done].
    destruct (moves_ops r new room op to was single ms) as [[os' ss']|] eqn:E2; [|done].
    injection H as <- <-. destruct (IH os' ss' eq_refl) as [H1 H2].
    split; intros x Hx; apply elem_of_app in Hx as [Hx|Hx].
    + exists m, o, s. split; [by left|done].
    + destruct (H1 x Hx) as (m' & o' & s' & Hm & ?). exists m', o', s'. split; [by right|done].
    + exists m, o, s. split; [by left|done].
    + destruct (H2 x Hx) as (m' & o' & s' & Hm & ?). exists m', o', s'. split; [by right|done].
Qed.

Lemma moves_ops_None r new room op to was single ms :
  moves_ops r new room op to was single ms = None <->
  exists m, m ∈ ms /\ move_ops r new room op to was single m = None.
Proof.
  induction ms as [|m ms IH]; cbn.
  - split; [done|]. intros (m & Hm & _). by apply elem_of_nil in Hm.
  - destruct (move_ops r new room op to was single m) as [[o s]|] eqn:E1.
    + destruct (moves_ops r new room op to was single ms) as [[os' ss']|] eqn:E2.
      * split; [done|]. intros (m' & Hm & He). apply elem_of_cons in Hm as [->|Hm]; [congruence|].
        assert (Some (os', ss') = None) by (apply IH; eauto). done.
      * split; [|done]. intros _. destruct (proj1 IH eq_refl) as (m' & Hm & He).
        exists m'. split; [by right|done].
    + split; [|done]. intros _. exists m. split; [by left|done].
Qed.

Lemma move_ops_None r new room op to was single m :
  move_ops r new room op to was single m = None <-> get new m.2 = None.
Proof.
  unfold move_ops. destruct (get new m.2); [|done].
  split; [|done]. repeat case_match; done.
Qed.

Lemma windows_NoDup r : windows_ok r -> NoDup r.
Proof.
  rewrite <- disjoint_list_ok. induction r as [|sr r IH]; [constructor|]. cbn.
  intros (Hb & Hd & Hr). apply NoDup_cons. split; [|auto]. intros Hin. specialize (Hd sr Hin). lia.
Qed.

Section main.
  Context (r : ranges) (Hok : windows_ok r).
  Context (op : list_op) (room : string) (l l' : list string) (f t : Z).
  Context (Hsh : shape op room l l' f t).
  Context (was single : bool).
  Context (Hwas : was = true -> covers r f).
  Context (Hsingle : single = true -> was = true ->
    forall sr m, sr ∈ r -> win_move f t sr = Some m -> sr.1 <= f <= sr.2).
  Context (Hnp : forall sr a b, sr ∈ r -> win_move f t sr = Some (a, b) -> b < Z.of_nat (length l')).

  Lemma progress_ext dn dn' v :
    (forall sr, sr ∈ dn <-> sr ∈ dn') ->
    progress r l l' t dn v -> progress r l l' t dn' v.
  Proof.
    intros He Hp sr i Hsr Hi. destruct (Hp sr i Hsr Hi) as [H1 H2]. split.
    - intros Hin. apply H1. by apply He.
    - intros Hin Hlt Hor. apply H2; [by rewrite He|done|].
      destruct Hor as [?|Hor]; [by left|]. right. intros tr Htr. apply Hor. by apply He.
  Qed.

  Lemma run_progress (ps : list (range * (Z * Z))) :
    forall dn v os ss,
    (forall p, p ∈ ps -> p.1 ∈ r /\ win_move f t p.1 = Some p.2) ->
    NoDup (map fst ps) -> (forall p, p ∈ ps -> p.1 ∉ dn) ->
    (forall sr, sr ∈ dn -> sr ∈ r /\ is_Some (win_move f t sr)) ->
    progress r l l' t dn v ->
    moves_ops r l' room op t was single (map snd ps) = Some (os, ss) ->
    starts_clean os /\ progress r l l' t (map fst ps ++ dn) (client_apply r v os).
  Proof.
    induction ps as [|[sr m] ps IH]; intros dn v os ss Hps Hnd Hdisj Hdn Hp Ho; cbn in Ho.
    - injection Ho as <- <-. split; [done|]. exact Hp.
    - destruct (move_ops r l' room op t was single m) as [[o s]|] eqn:E1; [|done].
      destruct (moves_ops r l' room op t was single (map snd ps)) as [[os' ss']|] eqn:E2; [|done].
      injection Ho as <- <-.
      destruct (Hps (sr, m)) as [Hsr Hm]; [by left|]. cbn [fst snd] in *.
      apply NoDup_cons in Hnd as [Hni Hnd].
      assert (Hp1 : progress r l l' t (sr :: dn) (client_apply r v o)).
      { eapply step_progress; eauto. apply (Hdisj (sr, m)). by left. }
      destruct (IH (sr :: dn) (client_apply r v o) os' ss') as [Hc Hp2]; [ | done | | | done | done | ].
      + intros p Hin. apply Hps. by right.
      + intros p Hin Hx. apply elem_of_cons in Hx as [Hx|Hx].
        * apply Hni. cbn [fst] in *. rewrite <- Hx. apply elem_of_list_In, in_map, elem_of_list_In, Hin.
        * apply (Hdisj p); [by right|done].
      + intros tr Htr. apply elem_of_cons in Htr as [->|Htr]; [|by apply Hdn]. split; [done|]. by rewrite Hm.
      + rewrite client_apply_app by done. split.
        * destruct (move_ops_cases r Hok op room l l' f t Hsh was single Hwas Hsingle Hnp sr m o s Hsr Hm E1) as
            [(-> & _)|[(-> & _)|(x & _ & -> & _)]]; done.
        * eapply progress_ext; [|exact Hp2]. intros tr. cbn [map app fst]. rewrite elem_of_app, !elem_of_cons, elem_of_app. tauto.
  Qed.

  Lemma moves_agree ms os ss v :
    ms ≡ₚ omap (win_move f t) r ->
    moves_ops r l' room op t was single ms = Some (os, ss) ->
    agrees r l v -> agrees r l' (client_apply r v os).
  Proof.
    intros Hms Ho Hv.
    set (wp := omap (fun sr => option_map (fun m => (sr, m)) (win_move f t sr)) r).
    assert (Hwp : map snd wp = omap (win_move f t) r).
    { subst wp. clear. induction r as [|sr r' IH]; [done|]. cbn. destruct (win_move f t sr); cbn; by rewrite IH. }
    rewrite <- Hwp in Hms. apply Permutation_map_inv in Hms as (ps & -> & Hps).
    assert (Hwpe : forall p, p ∈ wp <-> p.1 ∈ r /\ win_move f t p.1 = Some p.2).
    { intros [sr m]. subst wp. rewrite elem_of_list_omap. cbn. split.
      - intros (sr' & Hin & He). destruct (win_move f t sr') eqn:E; cbn in He; [|done]. injection He as <- <-. done.
      - intros [Hin He]. exists sr. by rewrite He. }
    assert (Hfst : NoDup (map fst wp)).
    { pose proof (windows_NoDup r Hok) as Hnd. subst wp. clear -Hnd.
      induction r as [|sr r' IH]; [constructor|]. apply NoDup_cons in Hnd as [Hni Hnd]. cbn.
      destruct (win_move f t sr); cbn; [|auto]. constructor; [|auto].
      intros Hin. apply elem_of_list_In, in_map_iff in Hin as ([x y] & <- & Hin). apply elem_of_list_In, elem_of_list_omap in Hin as (z & Hz & He).
      destruct (win_move f t z); cbn in He; [|done]. injection He as -> ->. done. }
    destruct (run_progress ps [] v os ss) as [_ Hp].
    - intros p Hin. apply Hwpe. by rewrite Hps.
    - by rewrite <- Hps.
    - intros p _ Hx. by apply elem_of_nil in Hx.
    - intros sr Hx. by apply elem_of_nil in Hx.
    - intros sr i Hsr Hi. split; [intros Hx; by apply elem_of_nil in Hx|].
      intros _ Hlt _. apply Hv; [by exists sr|done].
    - done.
    - intros i (sr & Hsr & Hi) Hlt. destruct (Hp sr i Hsr Hi) as [H1 H2].
      destruct (win_move f t sr) as [m|] eqn:Em.
      + apply H1; [|done]. rewrite app_nil_r. rewrite <- Hps.
        apply elem_of_list_In, in_map_iff. exists (sr, m). split; [done|]. apply elem_of_list_In. by apply Hwpe.
      + pose proof (windows_bounds _ _ Hok Hsr).
        pose proof (win_move_None f t sr ltac:(lia) Em i Hi) as Ho'.
        destruct (sh_out _ _ _ _ _ _ Hsh i) as [He Hl]; [lia|done|].
        rewrite He. apply H2; [|done|by left]. rewrite app_nil_r, <- Hps.
        intros Hin. apply elem_of_list_In, in_map_iff in Hin as (p & <- & Hin). apply elem_of_list_In in Hin.
        apply Hwpe in Hin as [_ Hin]. congruence.
  Qed.

  (** Subscriptions. *)
  Lemma moves_subs_sound ms os ss x :
    ms ≡ₚ omap (win_move f t) r ->
    moves_ops r l' room op t was single ms = Some (os, ss) ->
    x ∈ ss -> visible r l' x.
  Proof.
    intros Hms Ho Hx. destruct (moves_ops_elem _ _ _ _ _ _ _ _ _ _ Ho) as [_ H2].
    destruct (H2 x Hx) as (m & o & s & Hm & Hmo & Hxs). rewrite Hms in Hm.
    apply elem_of_list_omap in Hm as (sr & Hsr & Hm).
    destruct (move_ops_cases r Hok op room l l' f t Hsh was single Hwas Hsingle Hnp sr m o s Hsr Hm Hmo) as
      [(_ & -> & _)|[(_ & -> & _)|(y & Hy & _ & -> & _)]]; try by apply elem_of_nil in Hxs.
    exists m.2. destruct m as [a b]. pose proof (windows_bounds _ _ Hok Hsr).
    destruct (win_move_spec f t sr a b ltac:(lia) Hm) as (_ & Hb & _). split; [by exists sr|]. cbn in *.
    rewrite Hy. f_equal. destruct (negb (b =? t) || negb was); [by apply elem_of_list_singleton in Hxs|].
    destruct (bool_decide (op = OpAdd)); [by apply elem_of_list_singleton in Hxs|by apply elem_of_nil in Hxs].
  Qed.

  Lemma moves_subs_complete ms os ss x :
    ms ≡ₚ omap (win_move f t) r ->
    moves_ops r l' room op t was single ms = Some (os, ss) ->
    visible r l' x -> ~ visible r l x ->
    ~ (op = OpDel /\ covers r f /\ covers r (Z.of_nat (length l') - 1) /\ ~ covers r (Z.of_nat (length l'))) ->
    x ∈ ss.
  Proof.
    intros Hms Ho (i & (sr & Hsr & Hi) & Hx) Hnv Hexc.
    pose proof (get_range _ _ _ Hx) as Hir. pose proof (windows_bounds _ _ Hok Hsr) as Hbd.
    assert (Hvis : forall j, sr.1 <= j <= sr.2 -> get l j <> Some x).
    { intros j Hj He. apply Hnv. exists j. split; [by exists sr|done]. }
    destruct (win_move f t sr) as [[a b]|] eqn:Em.
    2:{ exfalso. pose proof (win_move_None f t sr ltac:(lia) Em i Hi) as Ho'.
        destruct (sh_out _ _ _ _ _ _ Hsh i) as [He Hl]; [lia|done|]. apply (Hvis i Hi). congruence. }
    destruct (win_move_spec f t sr a b ltac:(lia) Em) as (Ha & Hb & Hdown & Hup & Haf & Hbt).
    assert (Hm : (a, b) ∈ ms) by (rewrite Hms; apply elem_of_list_omap; by exists sr).
    destruct (moves_ops_Forall _ _ _ _ _ _ _ _ _ _ Ho _ Hm) as (o & s & Hmo & _ & Hss).
    destruct (decide (i = b)) as [->|Hib].
    2:{ exfalso.
      destruct (decide (f <= t)) as [Hft|Hft].
      - specialize (Hup Hft). clear Hdown. destruct (decide (a <= i < b)).
        + destruct (sh_up _ _ _ _ _ _ Hsh i) as [He Hl]; [lia|]. apply (Hvis (i + 1)); [lia|congruence].
        + destruct (sh_out _ _ _ _ _ _ Hsh i) as [He Hl]; [lia|lia|]. apply (Hvis i); [lia|congruence].
      - specialize (Hdown ltac:(lia)). clear Hup. destruct (decide (b < i <= a)).
        + destruct (sh_down _ _ _ _ _ _ Hsh i) as [He Hl]; [lia|lia|]. apply (Hvis (i - 1)); [lia|congruence].
        + destruct (sh_out _ _ _ _ _ _ Hsh i) as [He Hl]; [lia|lia|]. apply (Hvis i); [lia|congruence]. }
    destruct (move_ops_cases r Hok op room l l' f t Hsh was single Hwas Hsingle Hnp sr (a, b) o s Hsr Em Hmo) as
      [(_ & _ & Hop & Hft & [= -> ->] & _)|[(_ & _ & Hop & Hbt' & Hc)|(y & Hy & _ & Hs & Hnot)]]; cbn [fst snd] in *.
    - exfalso. destruct (sh_change _ _ _ _ _ _ Hsh Hop) as (_ & _ & _ & Hsame).
      apply (Hvis t Hi). rewrite <- (Hsame Hft). done.
    - exfalso. subst b. destruct (sh_del _ _ _ _ _ _ Hsh Hop) as (Htn & Hnn & Hft1 & Hdt & _ & Hdt').
      destruct (decide (f <= t)) as [Hft|Hft].
      + apply Hnv. exists (t + 1). split; [|rewrite <- Hdt by done; done].
        replace (t + 1) with (Z.of_nat (length l')) by lia. done.
      + apply (Hvis t Hi). rewrite <- Hdt' by lia. done.
    - assert (y = x) as -> by congruence. apply Hss. rewrite Hs.
      destruct (Z.eqb_spec b t) as [->|Hbt']; cbn [negb orb]; [|by left].
      destruct was eqn:Ew; cbn [negb]; [|by left].
      destruct op eqn:Eop; [rewrite bool_decide_true by done; by left| |].
      + exfalso. apply Hexc. destruct (sh_del _ _ _ _ _ _ Hsh eq_refl) as (Htn & _).
        split_and!; [done|by apply Hwas| |].
        * exists sr. split; [done|lia].
        * intros Hc. by apply Hnot.
      + exfalso. destruct (sh_change _ _ _ _ _ _ Hsh eq_refl) as (Hlf & _).
        destruct (sh_nodel _ _ _ _ _ _ Hsh ltac:(done)) as [Hu _].
        assert (get l' t = Some room) as Hrt by (by apply Hu).
        apply Hnv. exists f. split; [by apply Hwas|congruence].
  Qed.

  Lemma moves_wellformed ms os ss o :
    ms ≡ₚ omap (win_move f t) r ->
    moves_ops r l' room op t was single ms = Some (os, ss) -> o ∈ os ->
    match o with
    | ODelete i => covers r i
    | OInsert i x => covers r i /\ get l' i = Some x
    | ONull => False
    end.
  Proof.
    intros Hms Ho Hx. destruct (moves_ops_elem _ _ _ _ _ _ _ _ _ _ Ho) as [H1 _].
    destruct (H1 o Hx) as (m & oo & s & Hm & Hmo & Hxs). rewrite Hms in Hm.
    apply elem_of_list_omap in Hm as (sr & Hsr & Hm). destruct m as [a b].
    pose proof (windows_bounds _ _ Hok Hsr).
    destruct (win_move_spec f t sr a b ltac:(lia) Hm) as (Ha & Hb & _).
    destruct (move_ops_cases r Hok op room l l' f t Hsh was single Hwas Hsingle Hnp sr (a, b) oo s Hsr Hm Hmo) as
      [(-> & _)|[(-> & _)|(y & Hy & -> & _)]]; cbn [fst snd] in *.
    - by apply elem_of_nil in Hxs.
    - apply elem_of_list_singleton in Hxs as ->. by exists sr.
    - apply elem_of_cons in Hxs as [->|Hxs]; [by exists sr|]. apply elem_of_list_singleton in Hxs as ->.
      split; [by exists sr|done].
  Qed.

End main.

(** When a move reads past the end of the list. *)
Lemma moves_panic r op room l' f t was single ms :
  windows_ok r ->
  ms ≡ₚ omap (win_move f t) r ->
  moves_ops r l' room op t was single ms = None <->
  exists sr a b, sr ∈ r /\ win_move f t sr = Some (a, b) /\ Z.of_nat (length l') <= b.
Proof.
  intros Hok Hms. rewrite moves_ops_None. split.
  - intros ([a b] & Hm & He). rewrite Hms in Hm. apply elem_of_list_omap in Hm as (sr & Hsr & Hm).
    apply move_ops_None in He. cbn in He. exists sr, a, b. split_and!; [done|done|].
    destruct (decide (b < Z.of_nat (length l'))); [|lia].
    pose proof (windows_bounds _ _ Hok Hsr).
    destruct (win_move_spec f t sr a b ltac:(lia) Hm) as (_ & Hb & _).
    destruct (get_in_range l' b) as [y Hy]; [lia|congruence].
  - intros (sr & a & b & Hsr & Hm & Hb). exists (a, b). split.
    + rewrite Hms. apply elem_of_list_omap. by exists sr.
    + apply move_ops_None. cbn. destruct (get l' b) as [y|] eqn:E; [|done].
      apply get_range in E. lia.
Qed.

(** ** CalculateListOps *)
Lemma app_mid_inj (x : string) p q p' q' :
  x ∉ p -> x ∉ p' -> p ++ x :: q = p' ++ x :: q' -> p = p' /\ q = q'.
Proof.
  revert p'; induction p as [|y p IH]; intros [|y' p'] Hp Hp' He; cbn in He.
  - injection He as ->. done.
  - injection He as -> _. destruct Hp'. by left.
  - injection He as -> _. destruct Hp. by left.
  - injection He as -> He. destruct (IH p') as [-> ->]; [..|done|done].
    + intros Hx. apply Hp. by right.
    + intros Hx. apply Hp'. by right.
Qed.

Definition changed (sort : list string -> list string) (l : list string) (room : string) (op : list_op) :=
  match op with
  | OpAdd => sort (list_add l room)
  | OpDel => list_remove l room
  | OpChange => sort l
  end.
Definition was_inside (r : ranges) (op : list_op) (f : Z) : bool :=
  match op with
  | OpAdd => false
  | _ => match inside r f with Some _ => true | None => false end
  end.

Lemma calc_cases r sort l room op :
  NoDup l -> sort_moves_only sort l room op ->
  one_room_change room op l (changed sort l room op) /\
  ((op = OpDel /\ l = [room] /\ calculate_list_ops r sort l room op = Some ([], [write_delete_op r 0], [])) \/
   exists f t, shape op room l (changed sort l room op) f t /\
     default (Z.of_nat (length l)) (index_of l room) = f /\
     calculate_list_ops r sort l room op =
       match move_indexes r f t with
       | None => None
       | Some ms =>
           match moves_ops r (changed sort l room op) room op t (was_inside r op f) (length ms =? 1)%nat ms with
           | Some (os, ss) => Some (changed sort l room op, os, ss)
           | None => None
           end
       end).
Proof.
  intros Hnd Hs. destruct op; cbn [sort_moves_only] in Hs.
  - destruct Hs as [Hni Hch]. inversion Hch as [| |p q p' q' Hpq Heq Hop Hl Hl'].
    assert (Hp : room ∉ p) by (intros Hx; apply Hpq, elem_of_app; by left).
    destruct (app_mid_inj room p q l [] Hp Hni Hl) as [-> ->].
    rewrite app_nil_r in Heq, Hpq.
    assert (Hadd : list_add l room = l ++ [room])
      by (unfold list_add; by rewrite (proj2 (index_of_None l room) Hni)).
    assert (Hchg : changed sort l room OpAdd = p' ++ room :: q')
      by (cbn; rewrite Hadd; done).
    rewrite Hchg. rewrite Heq in Hpq, Hni. split; [rewrite Heq; by constructor|]. right.
    exists (Z.of_nat (length l)), (Z.of_nat (length p')). rewrite Heq at 1 2.
    split; [by apply shape_add|]. rewrite <- Heq in Hni, Hpq.
    rewrite (proj2 (index_of_None l room) Hni). split; [done|].
    unfold calculate_list_ops. rewrite (proj2 (index_of_None l room) Hni). cbn zeta. unfold default; cbn [from_option id].
    rewrite Hadd. rewrite <- Hl'.
    rewrite index_of_app by (intros Hx; apply Hpq; rewrite Heq; apply elem_of_app; by left).
    unfold default; cbn [from_option id]. assert (Z.of_nat (length p') =? -1 = false) as -> by lia. done.
  - apply elem_of_list_split in Hs as (p & q & ->).
    assert (Hpq : room ∉ p ++ q).
    { apply NoDup_app in Hnd as (_ & Hd & Hq). apply NoDup_cons in Hq as [Hq _].
      intros Hx. apply elem_of_app in Hx as [Hx|Hx]; [|done]. apply (Hd room Hx). by left. }
    assert (Hp : room ∉ p) by (intros Hx; apply Hpq, elem_of_app; by left).
    cbn [changed]. rewrite list_remove_app by done. split; [by constructor|].
    destruct (p ++ q) as [|x pq] eqn:Epq.
    + left. apply app_eq_nil in Epq as [-> ->]. split_and!; [done|done|].
      unfold calculate_list_ops. cbn [app index_of]. rewrite String.eqb_refl. cbn zeta.
      assert (list_remove [room] room = []) as -> by (apply (list_remove_app [] [] room); by apply not_elem_of_nil).
      cbn [length Z.of_nat Z.sub Z.eqb Z.opp Z.add Pos.eqb]. done.
    + right. rewrite <- Epq in *. exists (Z.of_nat (length p)), (Z.of_nat (length (p ++ q)) - 1).
      split; [apply shape_del; [done|by rewrite Epq]|].
      rewrite index_of_app by done. split; [done|].
      unfold calculate_list_ops. rewrite index_of_app by done. cbn zeta. unfold default; cbn [from_option id].
      rewrite list_remove_app by done.
      assert (Z.of_nat (length (p ++ q)) - 1 =? -1 = false) as -> by (rewrite Epq; cbn; lia). done.
  - inversion Hs as [| |p q p' q' Hpq Heq Hop Hl Hl']. split; [cbn; rewrite <- Hl'; by constructor|]. right.
    cbn [changed]. rewrite <- Hl'. exists (Z.of_nat (length p)), (Z.of_nat (length p')).
    split; [by apply shape_move|].
    assert (Hp : room ∉ p) by (intros Hx; apply Hpq, elem_of_app; by left).
    assert (Hp' : room ∉ p') by (intros Hx; apply Hpq; rewrite Heq; apply elem_of_app; by left).
    rewrite index_of_app by done. split; [done|].
    unfold calculate_list_ops. rewrite index_of_app by done. cbn zeta. unfold default; cbn [from_option id].
    rewrite <- Hl'. rewrite index_of_app by done. unfold default; cbn [from_option id].
    assert (Z.of_nat (length p') =? -1 = false) as -> by lia. done.
Qed.

Lemma was_inside_covers r op f : was_inside r op f = true -> covers r f.
Proof.
  unfold was_inside. destruct op; [done|..]; destruct (inside r f) eqn:E; try done;
    intros _; apply inside_is_Some; by rewrite E.
Qed.

Lemma omap_single {A B} (g : A -> option B) (l : list A) x y :
  NoDup l -> length (omap g l) = 1%nat -> x ∈ l -> y ∈ l -> is_Some (g x) -> is_Some (g y) -> x = y.
Proof.
  intros Hnd Hlen Hx Hy [gx Hgx] [gy Hgy].
  apply elem_of_Permutation in Hx as [l1 Hp]. rewrite Hp in Hy, Hlen.
  apply elem_of_cons in Hy as [->|Hy]; [done|].
  apply elem_of_Permutation in Hy as [l2 Hp2]. rewrite Hp2 in Hlen. cbn in Hlen. rewrite Hgx, Hgy in Hlen. cbn in Hlen. lia.
Qed.

Lemma single_ok r op f t ms :
  windows_ok r -> ms ≡ₚ omap (win_move f t) r ->
  (length ms =? 1)%nat = true -> was_inside r op f = true ->
  forall sr m, sr ∈ r -> win_move f t sr = Some m -> sr.1 <= f <= sr.2.
Proof.
  intros Hok Hms Hs Hw sr m Hsr Hm. apply was_inside_covers in Hw as (fr & Hfr & Hf).
  assert (sr = fr); [|by subst]. apply Nat.eqb_eq in Hs. rewrite Hms in Hs.
  apply (omap_single (win_move f t) r sr fr); [by apply windows_NoDup|done|done|done|by rewrite Hm|].
  unfold win_move. assert ((fr.1 <=? f) && (f <=? fr.2) = true) as -> by lia.
  destruct ((fr.1 <=? t) && (t <=? fr.2)); cbn; eauto.
Qed.

(** Everything that holds of a run which does not panic. *)
Lemma calc_ok r sort l room op l1 os ss :
  windows_ok r -> NoDup l -> sort_moves_only sort l room op ->
  calculate_list_ops r sort l room op = Some (l1, os, ss) ->
  one_room_change room op l l1 /\
  (forall v, agrees r l v -> agrees r l1 (client_apply r v os)) /\
  (forall x, x ∈ ss -> visible r l1 x) /\
  (forall x, visible r l1 x -> ~ visible r l x ->
     ~ (op = OpDel /\ (exists f, get l f = Some room /\ covers r f) /\
        covers r (Z.of_nat (length l1) - 1) /\ ~ covers r (Z.of_nat (length l1))) ->
     x ∈ ss) /\
  (forall o, o ∈ os -> match o with
     | ODelete i => covers r i
     | OInsert i x => covers r i /\ get l1 i = Some x
     | ONull => op = OpDel /\ l = [room] /\ ~ covers r 0
     end).
Proof.
  intros Hok Hnd Hs Hc. destruct (calc_cases r sort l room op Hnd Hs) as [Hch Hcases].
  destruct Hcases as [(-> & -> & He)|(f & t & Hsh & Hf & He)]; rewrite He in Hc.
  - injection Hc as <- <- <-. split_and!.
    + cbn in Hch. change (list_remove [room] room) with (list_remove ([] ++ room :: []) room) in Hch.
      rewrite list_remove_app in Hch by (by apply not_elem_of_nil). exact Hch.
    + intros v _ i (sr & Hsr & Hi) Hlt. pose proof (windows_bounds _ _ Hok Hsr). cbn in Hlt. lia.
    + intros x Hx. by apply elem_of_nil in Hx.
    + intros x (i & _ & Hx). apply get_range in Hx. cbn in Hx. lia.
    + intros o Ho. apply elem_of_list_singleton in Ho as ->. unfold write_delete_op.
      cbn. destruct (inside r 0) eqn:E.
      * apply inside_is_Some. by rewrite E.
      * split_and!; [done|done|by apply inside_None].
  - destruct (moves_perm r f t Hok) as (ms & Hms & Hp). rewrite Hms in Hc.
    destruct (moves_ops r (changed sort l room op) room op t (was_inside r op f) (length ms =? 1)%nat ms)
      as [[os' ss']|] eqn:Eo; [|done]. injection Hc as <- <- <-.
    assert (Hnp : forall sr a b, sr ∈ r -> win_move f t sr = Some (a, b) ->
      b < Z.of_nat (length (changed sort l room op))).
    { intros sr a b Hsr Hm. destruct (decide (b < Z.of_nat (length (changed sort l room op)))); [done|].
      assert (moves_ops r (changed sort l room op) room op t (was_inside r op f) (length ms =? 1)%nat ms = None) as Hx.
      { apply (moves_panic r op room _ f t _ _ ms Hok Hp). exists sr, a, b. split_and!; [done|done|lia]. }
      congruence. }
    pose proof (was_inside_covers r op f) as Hwas.
    pose proof (single_ok r op f t ms Hok Hp) as Hsg.
    split_and!.
    + done.
    + intros v Hv. eapply moves_agree; eauto.
    + intros x Hx. eapply moves_subs_sound; eauto.
    + intros x Hv Hnv Hex. eapply (moves_subs_complete r Hok op room l _ f t Hsh); eauto.
      intros (Hop & Hcf & Hct & Hcn). apply Hex. split_and!; [done| |done|done].
      exists f. split; [|done]. rewrite <- Hf. subst op. cbn [sort_moves_only] in Hs.
      destruct (index_of l room) as [k|] eqn:Ei; [|by apply index_of_None in Ei].
      cbn. clear -Ei. revert k Ei. induction l as [|y l IH]; [done|]. cbn. intros k.
      destruct (String.eqb_spec y room) as [->|]; [intros [= <-]; done|].
      destruct (index_of l room) as [k'|]; cbn; [|done]. intros [= <-]. specialize (IH k' eq_refl).
      pose proof (get_range _ _ _ IH). rewrite get_cons. destruct (1 + k' =? 0) eqn:E0; [lia|].
      replace (1 + k' - 1) with k' by lia. done.
    + intros o Ho.
      pose proof (moves_wellformed r Hok op room l _ f t Hsh _ _ Hwas Hsg Hnp ms os' ss' o Hp Eo Ho) as Hwf.
      destruct o; done.
Qed.

Lemma calc_panic r sort l room op :
  windows_ok r -> NoDup l -> sort_moves_only sort l room op ->
  calculate_list_ops r sort l room op = None <->
  op = OpDel /\ (1 < length l)%nat /\ get l (Z.of_nat (length l) - 1) = Some room /\
  exists sr, sr ∈ r /\ sr.1 = Z.of_nat (length l) - 1.
Proof.
  intros Hok Hnd Hs. destruct (calc_cases r sort l room op Hnd Hs) as [Hch Hcases].
  destruct Hcases as [(-> & -> & He)|(f & t & Hsh & Hf & He)]; rewrite He.
  - split; [done|]. intros (_ & Hx & _). cbn in Hx. lia.
  - destruct (moves_perm r f t Hok) as (ms & Hms & Hp). rewrite Hms.
    assert (Hiff : match moves_ops r (changed sort l room op) room op t (was_inside r op f) (length ms =? 1)%nat ms with
             | Some (os, ss) => Some (changed sort l room op, os, ss)
             | None => None
             end = None <->
      moves_ops r (changed sort l room op) room op t (was_inside r op f) (length ms =? 1)%nat ms = None).
    { destruct (moves_ops _ _ _ _ _ _ _ _) as [[os ss]|]; done. }
    rewrite Hiff, (moves_panic r op room _ f t _ _ ms Hok Hp). clear Hiff.
    set (l' := changed sort l room op) in *.
    pose proof (sh_t _ _ _ _ _ _ Hsh) as Ht.
    split.
    + intros (sr & a & b & Hsr & Hm & Hb). pose proof (windows_bounds _ _ Hok Hsr) as Hbd.
      destruct (win_move_spec f t sr a b ltac:(lia) Hm) as (Ha & Hb' & Hdown & Hup & Haf & Hbt).
      destruct (decide (f <= t)) as [Hft|Hft]; [specialize (Hup Hft); lia|].
      specialize (Hdown ltac:(lia)). clear Hup.
      destruct op.
      * exfalso. destruct (sh_add _ _ _ _ _ _ Hsh eq_refl) as [H1 H2]. lia.
      * destruct (sh_del _ _ _ _ _ _ Hsh eq_refl) as (Htn & Hnn & Hf1 & _).
        split_and!; [done|lia| |exists sr; split; [done|lia]].
        inversion Hch as [|p q Hpq Hop Hl Hl'|]. rewrite <- Hl in Hf.
        rewrite index_of_app in Hf by (intros Hx; apply Hpq, elem_of_app; by left). cbn in Hf.
        rewrite get_ins. rewrite <- Hl in Hnn. rewrite Hf.
        assert (Z.of_nat (length (p ++ room :: q)) - 1 <? f = false) as -> by lia.
        assert (Z.of_nat (length (p ++ room :: q)) - 1 =? f = true) as -> by lia. done.
      * exfalso. destruct (sh_change _ _ _ _ _ _ Hsh eq_refl) as (_ & H1 & H2 & _). lia.
    + intros (-> & Hlen & Hg & sr & Hsr & Hsr1).
      destruct (sh_del _ _ _ _ _ _ Hsh eq_refl) as (Htn & Hnn & Hf1 & _).
      assert (f = t + 1) as Hfe.
      { inversion Hch as [|p q Hpq Hop Hl Hl'|]. rewrite <- Hl in Hf, Hg.
        rewrite index_of_app in Hf by (intros Hx; apply Hpq, elem_of_app; by left). cbn in Hf.
        rewrite get_ins in Hg. rewrite Hf in Hg. rewrite <- Hl in Hnn.
        destruct (Z.of_nat (length (p ++ room :: q)) - 1 <? f) eqn:E1; [by apply get_elem in Hg|].
        destruct (Z.of_nat (length (p ++ room :: q)) - 1 =? f) eqn:E2; [lia|by apply get_elem in Hg]. }
      pose proof (windows_bounds _ _ Hok Hsr) as Hbd.
      exists sr, f, sr.1. split_and!; [done| |lia].
      unfold win_move. assert ((sr.1 <=? f) && (f <=? sr.2) = true) as -> by lia.
      assert ((sr.1 <=? t) && (t <=? sr.2) = false) as -> by lia.
      cbn [andb]. assert (t <? f = true) as -> by lia. done.
Qed.

Lemma calc_absent r sort l room op :
  room ∉ l -> op <> OpAdd -> calculate_list_ops r sort l room op = Some (l, [], []).
Proof.
  intros Hni Hop. unfold calculate_list_ops. rewrite (proj2 (index_of_None l room) Hni). by destruct op.
Qed.

Lemma one_room_change_NoDup room op l l1 : one_room_change room op l l1 -> NoDup l -> NoDup l1.
Proof.
  intros Hc Hnd. destruct Hc as [p q Hn|p q Hn|p q p' q' Hn He].
  - rewrite <- Permutation_middle. by constructor.
  - rewrite <- Permutation_middle in Hnd. by apply NoDup_cons in Hnd as [_ Hnd].
  - rewrite <- Permutation_middle in *. rewrite <- He. done.
Qed.

Lemma session_agrees r l v l' v' :
  windows_ok r -> NoDup l -> session r l v l' v' -> agrees r l v -> agrees r l' v'.
Proof.
  intros Hok Hnd Hs. induction Hs as [|l v l1 os ss l2 v2 sort room op Hsm Hc Hs IH]; [done|].
  intros Hv. destruct (calc_ok r sort l room op l1 os ss Hok Hnd Hsm Hc) as (Hch & Ha & _).
  apply IH; [by eapply one_room_change_NoDup|by apply Ha].
Qed.
