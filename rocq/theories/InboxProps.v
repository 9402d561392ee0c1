(** C76: to-device messages which the homeserver has are neither lost nor stored twice. *)
From Verif Require Import Prelude PloopModel PloopSpec PloopProofs PloopProps.
Open Scope string_scope. Open Scope list_scope. Open Scope Z_scope.

Section inbox.
  Variable pos : string -> nat.

  Lemma honest_app a b : honest pos (a ++ b) -> honest pos a.
  Proof. intros H before since first only r after ->. apply (H before since first only r (after ++ b)). rewrite <- app_assoc. reflexivity. Qed.
  Lemma given_up_app a b : ~ given_up (a ++ b) -> ~ given_up a.
  Proof. intros H [r Hr]. apply H. exists r. apply in_or_app. left. exact Hr. Qed.

  (** ** Nothing is lost *)
  Definition has (n : nat) (tr : list ev) : Prop := forall i, (i < n)%nat -> In i (stored tr).
  Lemma has_app n a b : has n a -> has n (a ++ b).
  Proof. intros H i Hi. rewrite stored_app. apply in_or_app. left. apply H. exact Hi. Qed.
  Definition q_has (pre : list ev) (e : ev) : Prop :=
    honest pos (pre ++ [e]) -> ~ given_up (pre ++ [e]) ->
    match e with Asks s _ _ => has (pos s) pre | Saves s _ _ => has (pos s) pre | _ => True end.
  Definition inv_has (pre : list ev) (since : string) : Prop :=
    honest pos pre -> ~ given_up pre -> has (pos since) pre /\ has (acked pos pre) pre.

  Lemma stored_gets pre woke s f t a o1 o2 o3 o4 rest :
    Forall (fun e => match e with Sleeps _ => True | _ => False end) woke ->
    let tr := pre ++ woke ++ Asks s f t :: Gets a :: [Handles E2EE o1 a; Handles Account o2 a; Handles Rooms o3 a; Handles ToDevice o4 a] ++ rest in
    for_good o4 -> honest pos tr -> ~ given_up tr ->
    has (pos s) pre -> has (acked pos pre) pre ->
    o4 = Fine /\ has (pos (a_next a)) (pre ++ woke ++ [Asks s f t; Gets a; Handles E2EE o1 a; Handles Account o2 a; Handles Rooms o3 a; Handles ToDevice o4 a]).
  Proof.
    intros Hw tr Ho Hh Hg H1 H2.
    assert (E4 : o4 = Fine).
    { destruct Ho as [-> | ->]; [reflexivity|]. exfalso. apply Hg. exists a. unfold tr. apply in_or_app. right. apply in_or_app. right. cbn. auto 10. }
    split; [exact E4|]. subst o4.
    assert (Ew : acked pos woke = 0%nat /\ stored woke = []).
    { clear - Hw. induction Hw as [|e l He Hl IH]; [split; reflexivity|]. destruct e; try contradiction. exact IH. }
    destruct Ew as [Ew Es].
    specialize (Hh (pre ++ woke) s f t a ([Handles E2EE o1 a; Handles Account o2 a; Handles Rooms o3 a; Handles ToDevice Fine a] ++ rest)).
    unfold tr in Hh. rewrite <- app_assoc in Hh. specialize (Hh eq_refl). cbn zeta in Hh. destruct Hh as [Hle Em].
    rewrite !acked_app, Ew in Em, Hle. cbn [acked] in Em, Hle.
    intros i Hi. rewrite !stored_app, Es. cbn [stored app]. rewrite !app_nil_r. apply in_or_app.
    destruct (le_lt_dec (Nat.max (Nat.max (acked pos pre) 0) (Nat.max (pos s) 0)) i) as [Hge | Hlt].
    - right. rewrite Em. apply in_seq. lia.
    - left. destruct (le_lt_dec (acked pos pre) i); [apply H1; lia | apply H2; lia].
  Qed.
  Lemma woken_sleeps s : Forall (fun e => match e with Sleeps _ => True | _ => False end) (woken s).
  Proof. unfold woken. destruct (0 <? p_fails s)%nat; repeat constructor. Qed.
  Lemma woken_acked s : acked pos (woken s) = 0%nat.
  Proof. unfold woken. destruct (0 <? p_fails s)%nat; reflexivity. Qed.
  Lemma q_has_other pre l : Forall (fun e => match e with Asks _ _ _ | Saves _ _ _ => False | _ => True end) l -> every q_has pre l.
  Proof.
    intros H. revert pre. induction H as [|e l He Hl IH]; intros pre; [apply every_nil|]. rewrite every_cons. split; [|apply IH].
    intros _ _. destruct e; try exact I; contradiction.
  Qed.
  Lemma handling_other a evs x : handling a evs x -> Forall (fun e => match e with Asks _ _ _ | Saves _ _ _ => False | _ => True end) evs.
  Proof. intros H. inversion H; subst; repeat constructor. Qed.
  Lemma handling_acked a evs x : handling a evs x -> acked pos evs = 0%nat.
  Proof. intros H. inversion H; subst; reflexivity. Qed.
  Lemma finish_other s : Forall (fun e => match e with Asks _ _ _ | Saves _ _ _ => False | _ => True end) (finish s).
  Proof. unfold finish. destruct (p_first s); repeat constructor. Qed.
  Lemma woken_other s : Forall (fun e => match e with Asks _ _ _ | Saves _ _ _ => False | _ => True end) (woken s).
  Proof. unfold woken. destruct (0 <? p_fails s)%nat; repeat constructor. Qed.

  Lemma q_has_asks pre s rest : inv_has pre (p_since s) ->
    every q_has (pre ++ woken s ++ [asking s]) rest -> every q_has pre (woken s ++ asking s :: rest).
  Proof.
    intros Hi Hr. apply every_app. split; [apply q_has_other, woken_other|]. apply every_cons. split.
    - intros Hh Hg. cbn. apply has_app. rewrite <- app_assoc in Hh, Hg. apply honest_app in Hh. apply given_up_app in Hg. exact (proj1 (Hi Hh Hg)).
    - rewrite <- app_assoc. exact Hr.
  Qed.
  Lemma inv_has_more pre s evs : inv_has pre (p_since s) -> acked pos evs = 0%nat -> inv_has (pre ++ woken s ++ asking s :: evs) (p_since s).
  Proof.
    intros Hi He Hh Hg. apply honest_app in Hh. apply given_up_app in Hg. destruct (Hi Hh Hg) as [H1 H2].
    split; [apply has_app; exact H1|]. rewrite !acked_app, woken_acked. cbn [acked asking]. unfold asking. cbn [acked]. rewrite He.
    intros i Hlt. apply has_app with (n := Nat.max (acked pos pre) (pos (p_since s))); [|lia].
    intros j Hj. destruct (le_lt_dec (acked pos pre) j); [apply H1; lia | apply H2; lia].
  Qed.

  Lemma loop_has : forall l pre s, inv_has pre (p_since s) -> every q_has pre (loop s l).1.
  Proof.
    apply (loop_every q_has (fun pre s => inv_has pre (p_since s))); [|intros pre s _; apply q_has_other, finish_other].
    intros pre s n s' evs x Hi Ht Hp. apply (poll_rounds _ _ _ _ _ Ht) in Hp. destruct Hp.
    - split; [apply q_has_other; repeat constructor | apply q_has_other, finish_other].
    - split; [apply q_has_other, woken_other | apply q_has_other, finish_other].
    - split; [apply q_has_asks; [exact Hi | apply every_nil] | apply q_has_other, finish_other].
    - split; [apply q_has_asks; [exact Hi | apply q_has_other; repeat constructor] | apply q_has_other, finish_other].
    - split; [apply q_has_asks; [exact Hi | apply q_has_other; repeat constructor] | exact (inv_has_more pre s [Fails code] Hi eq_refl)].
    - split; [|intros _ _; exact I].
      apply q_has_asks; [exact Hi|]. apply q_has_other. constructor; [exact I|]. eapply handling_other. eassumption.
    - split; [|refine (inv_has_more pre s (Gets a :: evs) Hi _); cbn [acked]; eapply handling_acked; eassumption].
      apply q_has_asks; [exact Hi|]. apply q_has_other. constructor; [exact I|]. eapply handling_other. eassumption.
    - assert (exists o1 o2 o3 o4, evs = [Handles E2EE o1 a; Handles Account o2 a; Handles Rooms o3 a; Handles ToDevice o4 a] /\ for_good o4) as (o1 & o2 & o3 & o4 & -> & Ho).
      { inversion H0; subst; try (match goal with H : _ \/ _ |- _ => destruct H as [[? ?] | [? ?]]; discriminate end). do 4 eexists. split; [reflexivity | assumption]. }
      set (tail := Advances (a_next a) now :: (if save then [Saves (a_next a) now ok] else []) ++ (if p_first s then [Releases] else [])).
      assert (Hst : forall rest, let tr := pre ++ woken s ++ asking s :: Gets a :: [Handles E2EE o1 a; Handles Account o2 a; Handles Rooms o3 a; Handles ToDevice o4 a] ++ rest in
        honest pos tr -> ~ given_up tr ->
        has (pos (a_next a)) (pre ++ woken s ++ [asking s; Gets a; Handles E2EE o1 a; Handles Account o2 a; Handles Rooms o3 a; Handles ToDevice o4 a])).
      { intros rest tr Hh Hg. pose proof (honest_app _ _ Hh) as Hh'. pose proof (given_up_app _ _ Hg) as Hg'. destruct (Hi Hh' Hg') as [H2 H3].
        apply (stored_gets pre (woken s) _ _ _ a o1 o2 o3 o4 rest (woken_sleeps s) Ho Hh Hg H2 H3). }
      split.
      + apply q_has_asks; [exact Hi|]. rewrite every_cons. split; [intros _ _; exact I|].
        apply every_app. split; [apply q_has_other; repeat constructor|]. unfold tail. rewrite every_cons. split; [intros _ _; exact I|].
        apply every_app. split.
        * destruct save; [|apply every_nil]. rewrite every_cons. split; [|apply every_nil]. intros Hh Hg. cbn.
          rewrite <- !app_assoc in Hh, Hg. cbn [app] in Hh, Hg.
          specialize (Hst [Advances (a_next a) now; Saves (a_next a) now ok] Hh Hg).
          apply (has_app _ _ [Advances (a_next a) now]) in Hst. repeat rewrite <- app_assoc in Hst. repeat rewrite <- app_assoc. cbn [app] in *. exact Hst.
        * apply q_has_other. destruct (p_first s); repeat constructor.
      + intros Hh Hg. cbn [p_since]. split.
        * specialize (Hst tail Hh Hg). apply (has_app _ _ tail) in Hst. rewrite <- !app_assoc in Hst. exact Hst.
        * refine (proj2 (inv_has_more pre s _ Hi _ Hh Hg)). cbn. destruct save, (p_first s); reflexivity.
  Qed.

  (** What follows for the position to begin again with. *)
  Lemma every_saved tr : forall pre since, every q_has pre tr -> inv_has pre since ->
    inv_has (pre ++ tr) (saved since tr).
  Proof.
    induction tr as [|e tr IH] using rev_ind; intros pre since He Hi.
    - rewrite app_nil_r. exact Hi.
    - apply every_app in He. destruct He as [He1 He2]. apply every_cons in He2. destruct He2 as [He2 _].
      specialize (IH pre since He1 Hi). intros Hh Hg. specialize (He2 ltac:(rewrite <- app_assoc; exact Hh) ltac:(rewrite <- app_assoc; exact Hg)).
      rewrite app_assoc in Hh, Hg |- *. destruct (IH (honest_app _ _ Hh) (given_up_app _ _ Hg)) as [I1 I2].
      rewrite saved_app. rewrite (acked_app pos (pre ++ tr)).
      assert (I1' := has_app _ _ [e] I1). assert (I2' := has_app _ _ [e] I2).
      destruct e as [| s f t | | | | |s t []| | |]; cbn [saved acked]; (split; [try exact I1'; try (apply has_app; exact He2)|]);
        try (rewrite Nat.max_0_r; exact I2').
      intros i Hlt. destruct (le_lt_dec (acked pos (pre ++ tr)) i); [apply (has_app _ _ _ He2); lia | apply I2'; lia].
  Qed.
  Lemma lives_has l : forall pre since, inv_has pre since -> every q_has pre (lives since l).
  Proof.
    induction l as [|f l IH]; intros pre since Hi; cbn [lives]; [apply every_nil|].
    assert (Ht : every q_has pre (take (f_cut f) (trace since (f_tdonly f) (f_now f) (f_rounds f)))).
    { apply every_take. apply (loop_has (f_rounds f) pre (ploop0 since (f_tdonly f) (f_now f))). exact Hi. }
    apply every_app. split; [exact Ht|]. apply IH. apply every_saved; assumption.
  Qed.
End inbox.

(** Nothing is lost, whenever the server crashes: what the homeserver is asked to forget has been
    stored. Messages which the database refuses as bad data are given up on. *)
Theorem C76_none_lost_partial : forall pos l a s f t b,
  pos "" = 0%nat -> honest pos (lives "" l) -> ~ given_up (lives "" l) ->
  lives "" l = a ++ Asks s f t :: b ->
  forall i, (i < pos s)%nat -> In i (stored a).
Proof.
  intros pos l a s f t b H0 Hh Hg E i Hi.
  assert (I0 : inv_has pos [] "") by (intros _ _; split; intros j Hj; [rewrite H0 in Hj; lia | cbn in Hj; lia]).
  assert (E2 : lives "" l = (a ++ [Asks s f t]) ++ b) by (rewrite <- app_assoc; exact E).
  apply (lives_has pos l [] "" I0 a (Asks s f t) b E); [| |exact Hi].
  - rewrite E2 in Hh. exact (honest_app _ _ _ Hh).
  - rewrite E2 in Hg. exact (given_up_app _ _ Hg).
Qed.
Print Assumptions C76_none_lost_partial.

Section once.
  Variable pos : string -> nat.
  Definition ordered (tr : list ev) : Prop := stored tr = seq 0 (length (stored tr)).
  Definition q_once (pre : list ev) (e : ev) : Prop :=
    honest pos (pre ++ [e]) -> ~ given_up (pre ++ [e]) ->
    ordered (pre ++ [e]) /\ match e with Asks s _ _ => pos s = length (stored pre) | Saves s _ _ => pos s = length (stored pre) | _ => True end.
  Definition inv_once (pre : list ev) (since : string) : Prop :=
    honest pos pre -> ~ given_up pre -> stored pre = seq 0 (pos since) /\ (acked pos pre <= pos since)%nat.

  (** Events which neither store messages nor tell a position. *)
  Definition plain (e : ev) : Prop := match e with Asks _ _ _ | Saves _ _ _ | Handles ToDevice Fine _ => False | _ => True end.
  Lemma plain_stored l : Forall plain l -> stored l = [].
  Proof. intros H. induction H as [|e l He Hl IH]; [reflexivity|]. destruct e as [| | | |x o a| | | | |]; try exact IH; try contradiction. destruct x, o; try exact IH. contradiction. Qed.
  Lemma plain_acked l : Forall plain l -> acked pos l = 0%nat.
  Proof. intros H. induction H as [|e l He Hl IH]; [reflexivity|]. destruct e as [| | | |x o a| | | | |]; try exact IH; contradiction. Qed.
  Lemma q_once_plain pre l : Forall plain l -> (honest pos pre -> ~ given_up pre -> ordered pre) -> every q_once pre l.
  Proof.
    intros H. revert pre. induction H as [|e l He Hl IH]; intros pre Hi; [apply every_nil|].
    assert (Hx : honest pos (pre ++ [e]) -> ~ given_up (pre ++ [e]) -> ordered (pre ++ [e])).
    { intros Hh Hg. unfold ordered. rewrite stored_app, (plain_stored [e]) by (constructor; [exact He | constructor]). rewrite app_nil_r.
      exact (Hi (honest_app _ _ _ Hh) (given_up_app _ _ Hg)). }
    rewrite every_cons. split; [|apply IH; exact Hx].
    intros Hh Hg. split; [exact (Hx Hh Hg)|]. destruct e; try exact I; contradiction.
  Qed.
  Lemma inv_ordered pre since : inv_once pre since -> honest pos pre -> ~ given_up pre -> ordered pre.
  Proof. intros Hi Hh Hg. destruct (Hi Hh Hg) as [E _]. unfold ordered. rewrite E, seq_length. reflexivity. Qed.
  Lemma woken_plain s : Forall plain (woken s).
  Proof. unfold woken. destruct (0 <? p_fails s)%nat; repeat constructor. Qed.
  Lemma finish_plain s : Forall plain (finish s).
  Proof. unfold finish. destruct (p_first s); repeat constructor. Qed.
  Lemma handling_plain a evs x : handling a evs x -> x <> Again -> Forall plain evs.
  Proof. intros H Hx. inversion H; subst; try congruence; repeat constructor; match goal with H : _ = Retry /\ _ \/ _ |- _ => destruct H as [[-> _] | [-> _]] end; exact I. Qed.

  Lemma inv_asks pre s : inv_once pre (p_since s) -> inv_once (pre ++ woken s ++ [asking s]) (p_since s).
  Proof.
    intros Hi Hh Hg. destruct (Hi (honest_app _ _ _ Hh) (given_up_app _ _ Hg)) as [E1 E2].
    rewrite !stored_app, !acked_app, (plain_stored _ (woken_plain s)), (plain_acked _ (woken_plain s)). cbn. rewrite app_nil_r. split; [exact E1 | lia].
  Qed.
  Lemma inv_plain pre since l : inv_once pre since -> Forall plain l -> inv_once (pre ++ l) since.
  Proof.
    intros Hi Hl Hh Hg. destruct (Hi (honest_app _ _ _ Hh) (given_up_app _ _ Hg)) as [E1 E2].
    rewrite stored_app, acked_app, (plain_stored _ Hl), (plain_acked _ Hl), app_nil_r. split; [exact E1 | lia].
  Qed.
  Lemma q_once_asks pre s rest : inv_once pre (p_since s) ->
    every q_once (pre ++ woken s ++ [asking s]) rest -> every q_once pre (woken s ++ asking s :: rest).
  Proof.
    intros Hi Hr. apply every_app. split; [apply q_once_plain; [apply woken_plain | exact (inv_ordered _ _ Hi)]|]. apply every_cons. split.
    - intros Hh Hg. rewrite <- app_assoc in Hh, Hg. split; [rewrite <- app_assoc; exact (inv_ordered _ _ (inv_asks _ _ Hi) Hh Hg)|].
      cbn. rewrite stored_app, (plain_stored _ (woken_plain s)), app_nil_r.
      destruct (Hi (honest_app _ _ _ Hh) (given_up_app _ _ Hg)) as [-> _]. rewrite seq_length. reflexivity.
    - rewrite <- app_assoc. exact Hr.
  Qed.
  Lemma once_more pre s a l : Forall plain l -> inv_once pre (p_since s) ->
    let pre' := pre ++ woken s ++ asking s :: Gets a :: l in
    inv_once (pre' ++ [Handles ToDevice Fine a]) (a_next a).
  Proof.
    intros Hl Hi pre' Hh Hg. destruct (Hi ltac:(apply (honest_app _ pre (woken s ++ asking s :: Gets a :: l ++ [Handles ToDevice Fine a])); unfold pre' in Hh; rewrite <- !app_assoc in Hh; exact Hh)
      ltac:(apply (given_up_app pre (woken s ++ asking s :: Gets a :: l ++ [Handles ToDevice Fine a])); unfold pre' in Hg; rewrite <- !app_assoc in Hg; exact Hg)) as [E1 E2].
    specialize (Hh (pre ++ woken s) (p_since s) (p_first s) (p_tdonly s) a (l ++ [Handles ToDevice Fine a])). unfold pre' in *.
    rewrite <- !app_assoc in Hh. specialize (Hh eq_refl). cbn zeta in Hh. destruct Hh as [Hle Em].
    rewrite !acked_app, (plain_acked _ (woken_plain s)) in Hle, Em. cbn [acked] in Hle, Em.
    replace (Nat.max (acked pos pre) (Nat.max 0 (Nat.max (pos (p_since s)) 0))) with (pos (p_since s)) in * by lia.
    rewrite !stored_app, !acked_app, (plain_stored _ (woken_plain s)), (plain_acked _ (woken_plain s)).
    unfold asking. cbn [stored acked app]. rewrite (plain_stored _ Hl), (plain_acked _ Hl), !app_nil_r, E1, Em. cbn [app]. split; [|lia].
    rewrite <- seq_app. f_equal. lia.
  Qed.

  Lemma loop_once : forall l pre s, inv_once pre (p_since s) -> every q_once pre (loop s l).1.
  Proof.
    apply (loop_every q_once (fun pre s => inv_once pre (p_since s))); [|intros pre s Hi; apply q_once_plain; [apply finish_plain | exact (inv_ordered _ _ Hi)]].
    intros pre s n s' evs x Hi Ht Hp. apply (poll_rounds _ _ _ _ _ Ht) in Hp.
    assert (Hplain : forall l1 l2, Forall plain l1 -> Forall plain l2 -> every q_once pre l1 /\ every q_once (pre ++ l1) l2).
    { intros l1 l2 H1 H2. split; [apply q_once_plain; [exact H1 | exact (inv_ordered _ _ Hi)]|].
      apply q_once_plain; [exact H2|]. exact (inv_ordered _ _ (inv_plain _ _ _ Hi H1)). }
    assert (Hasks : forall l1 l2, Forall plain l1 -> Forall plain l2 ->
      every q_once pre (woken s ++ asking s :: l1) /\ every q_once (pre ++ woken s ++ asking s :: l1) l2 /\ inv_once (pre ++ woken s ++ asking s :: l1) (p_since s)).
    { intros l1 l2 H1 H2. pose proof (inv_asks _ _ Hi) as Ha. pose proof (inv_plain _ _ _ Ha H1) as Hb.
      rewrite <- !app_assoc in Hb. cbn [app] in Hb. split; [apply q_once_asks; [exact Hi|]; apply q_once_plain; [exact H1 | exact (inv_ordered _ _ Ha)]|].
      split; [apply q_once_plain; [exact H2 | exact (inv_ordered _ _ Hb)] | exact Hb]. }
    destruct Hp.
    - apply Hplain; [repeat constructor | apply finish_plain].
    - apply Hplain; [apply woken_plain | apply finish_plain].
    - destruct (Hasks [] (finish s') ltac:(constructor) (finish_plain s')) as (H2 & H3 & _). split; assumption.
    - destruct (Hasks [Fails code; Expires] (finish s') ltac:(repeat constructor) (finish_plain s')) as (H2 & H3 & _). split; assumption.
    - destruct (Hasks [Fails code] [] ltac:(repeat constructor) ltac:(constructor)) as (H2 & _ & H3). split; assumption.
    - destruct (Hasks (Gets a :: evs) [Terminates] ltac:(constructor; [exact I | eapply handling_plain; [eassumption | discriminate]]) ltac:(repeat constructor)) as (H2 & H3 & _).
      split; [exact H2|]. apply every_cons in H3. exact (proj1 H3).
    - destruct (Hasks (Gets a :: evs) [] ltac:(constructor; [exact I | eapply handling_plain; [eassumption | discriminate]]) ltac:(repeat constructor)) as (H2 & _ & H3).
      split; assumption.
    - assert (exists o1 o2 o3 o4, evs = [Handles E2EE o1 a; Handles Account o2 a; Handles Rooms o3 a] ++ [Handles ToDevice o4 a] /\ for_good o4) as (o1 & o2 & o3 & o4 & -> & Ho).
      { inversion H0; subst; try (match goal with H : _ \/ _ |- _ => destruct H as [[? ?] | [? ?]]; discriminate end). do 4 eexists. split; [reflexivity | assumption]. }
      set (front := [Handles E2EE o1 a; Handles Account o2 a; Handles Rooms o3 a]).
      assert (Hfront : Forall plain front) by (repeat constructor).
      destruct (Hasks (Gets a :: front) [] ltac:(constructor; [exact I | exact Hfront]) ltac:(constructor)) as (F1 & _ & F2).
      set (pre' := pre ++ woken s ++ asking s :: Gets a :: front) in *.
      set (tail := Advances (a_next a) now :: (if save then [Saves (a_next a) now ok] else []) ++ (if p_first s then [Releases] else [])).
      assert (Hm : inv_once (pre' ++ [Handles ToDevice o4 a]) (a_next a)).
      { destruct Ho as [-> | ->]; [exact (once_more pre s a front Hfront Hi)|].
        intros _ Hg. exfalso. apply Hg. exists a. apply in_or_app. right. left. reflexivity. }
      assert (Hadv : inv_once ((pre' ++ [Handles ToDevice o4 a]) ++ [Advances (a_next a) now]) (a_next a)) by (apply inv_plain; [exact Hm | repeat constructor]).
      assert (Hsv : save = true -> inv_once (((pre' ++ [Handles ToDevice o4 a]) ++ [Advances (a_next a) now]) ++ [Saves (a_next a) now ok]) (a_next a)).
      { intros _ Hh Hg. destruct (Hadv (honest_app _ _ _ Hh) (given_up_app _ _ Hg)) as [A1 A2]. rewrite stored_app, acked_app. cbn. rewrite app_nil_r. split; [exact A1 | lia]. }
      assert (Etr : woken s ++ asking s :: Gets a :: (front ++ [Handles ToDevice o4 a]) ++ tail = (woken s ++ asking s :: Gets a :: front) ++ Handles ToDevice o4 a :: tail).
      { rewrite <- !app_assoc. reflexivity. }
      rewrite Etr. split.
      + apply every_app. split; [exact F1|]. fold pre'. rewrite every_cons. split.
        { intros Hh Hg. split; [exact (inv_ordered _ _ Hm Hh Hg) | exact I]. }
        unfold tail. rewrite every_cons. split.
        { intros Hh Hg. split; [exact (inv_ordered _ _ Hadv Hh Hg) | exact I]. }
        destruct save.
        * cbn [app]. rewrite every_cons. split.
          { intros Hh Hg. split; [exact (inv_ordered _ _ (Hsv eq_refl) Hh Hg)|]. cbn.
            destruct (Hadv (honest_app _ _ _ Hh) (given_up_app _ _ Hg)) as [-> _]. rewrite seq_length. reflexivity. }
          apply q_once_plain; [destruct (p_first s); repeat constructor | exact (inv_ordered _ _ (Hsv eq_refl))].
        * apply q_once_plain; [destruct (p_first s); repeat constructor | exact (inv_ordered _ _ Hadv)].
      + cbn [p_since].
        replace (pre ++ (woken s ++ asking s :: Gets a :: front) ++ Handles ToDevice o4 a :: tail) with
          (((pre' ++ [Handles ToDevice o4 a]) ++ [Advances (a_next a) now]) ++ (if save then [Saves (a_next a) now ok] else []) ++ (if p_first s then [Releases] else []))
          by (unfold pre', tail; rewrite <- !app_assoc; reflexivity).
        destruct save.
        * rewrite app_assoc. apply inv_plain; [exact (Hsv eq_refl) | destruct (p_first s); repeat constructor].
        * apply inv_plain; [exact Hadv | destruct (p_first s); repeat constructor].
  Qed.

  Lemma unsaved_snoc tr e : unsaved (tr ++ [e]) = match e with
    | Handles ToDevice Fine a => if (0 <? length (a_msgs a))%nat then true else unsaved tr
    | Saves _ _ true => false
    | _ => unsaved tr
    end.
  Proof. unfold unsaved. rewrite List.fold_left_app. reflexivity. Qed.

  (** What follows for the position to begin again with. *)
  Lemma every_once_saved tr : forall pre since, every q_once pre tr -> inv_once pre since -> unsaved pre = false ->
    honest pos (pre ++ tr) -> ~ given_up (pre ++ tr) ->
    ordered (pre ++ tr) /\ (acked pos (pre ++ tr) <= length (stored (pre ++ tr)))%nat /\
    (unsaved (pre ++ tr) = false -> pos (saved since tr) = length (stored (pre ++ tr))).
  Proof.
    induction tr as [|e tr IH] using rev_ind; intros pre since He Hi Hu Hh Hg.
    - rewrite app_nil_r in *. destruct (Hi Hh Hg) as [E1 E2]. split; [exact (inv_ordered _ _ Hi Hh Hg)|]. rewrite E1, seq_length. split; [exact E2 | reflexivity].
    - apply every_app in He. destruct He as [He1 He2]. apply every_cons in He2. destruct He2 as [He2 _].
      rewrite app_assoc in Hh, Hg |- *. specialize (He2 Hh Hg). destruct He2 as [Ho He2].
      destruct (IH pre since He1 Hi Hu (honest_app _ _ _ Hh) (given_up_app _ _ Hg)) as (I1 & I2 & I3).
      split; [exact Ho|]. rewrite saved_app, (acked_app pos (pre ++ tr)), (stored_app (pre ++ tr)), app_length, unsaved_snoc.
      destruct e as [| s f t | | |x o a| |s t []| | |]; cbn [saved acked stored length]; rewrite ?Nat.add_0_r, ?Nat.max_0_r; try (split; [exact I2 | exact I3]).
      + split; [lia | exact I3].
      + destruct x, o; cbn [length]; rewrite ?Nat.add_0_r; try (split; [exact I2 | exact I3]).
        rewrite app_nil_r. split; [lia|]. destruct (0 <? length (a_msgs a))%nat eqn:El; [discriminate|].
        intros Hx. apply Nat.ltb_ge in El. rewrite (I3 Hx). lia.
      + split; [exact I2|]. intros _. exact He2.
  Qed.
  Lemma lives_once l : forall pre since, inv_once pre since -> unsaved pre = false ->
    (forall l1 f l2, l = l1 ++ f :: l2 -> unsaved (pre ++ lives since l1) = false) ->
    honest pos (pre ++ lives since l) -> ~ given_up (pre ++ lives since l) -> ordered (pre ++ lives since l).
  Proof.
    induction l as [|f l IH]; intros pre since Hi Hu Hc Hh Hg; cbn [lives] in *.
    { rewrite app_nil_r in *. exact (inv_ordered _ _ Hi Hh Hg). }
    set (tr := take (f_cut f) (trace since (f_tdonly f) (f_now f) (f_rounds f))) in *.
    assert (Ht : every q_once pre tr).
    { apply every_take. apply (loop_once (f_rounds f) pre (ploop0 since (f_tdonly f) (f_now f))). exact Hi. }
    destruct l as [|g l].
    { cbn [lives] in *. rewrite app_nil_r in *. destruct (every_once_saved tr pre since Ht Hi Hu Hh Hg) as [H _]. exact H. }
    rewrite app_assoc in Hh, Hg |- *.
    assert (Hu' : unsaved (pre ++ tr) = false).
    { specialize (Hc [f] g l eq_refl). cbn [lives] in Hc. fold tr in Hc. rewrite app_nil_r in Hc. exact Hc. }
    destruct (every_once_saved tr pre since Ht Hi Hu (honest_app _ _ _ Hh) (given_up_app _ _ Hg)) as (H1 & H2 & H3). specialize (H3 Hu').
    apply IH; auto.
    - intros _ _. rewrite H3. split; [exact H1 | exact H2].
    - intros l1 f' l2 El. specialize (Hc (f :: l1) f' l2). cbn [lives app] in Hc. fold tr in Hc. rewrite app_assoc in Hc. apply Hc. rewrite El. reflexivity.
  Qed.
End once.

(** If, whenever the server crashes, the position has been stored after messages were stored,
    then no message is stored twice, and they are stored in the order in which they were sent. *)
Theorem C76_stored_once_partial : forall pos l,
  pos "" = 0%nat -> honest pos (lives "" l) -> ~ given_up (lives "" l) ->
  (forall l1 f l2, l = l1 ++ f :: l2 -> unsaved (lives "" l1) = false) ->
  stored (lives "" l) = seq 0 (length (stored (lives "" l))).
Proof.
  intros pos l H0 Hh Hg Hc. apply (lives_once pos l [] ""); auto.
  intros _ _. rewrite H0. split; [reflexivity | cbn; lia].
Qed.
Print Assumptions C76_stored_once_partial.

(** Above all: without a crash every message is stored once, in order. *)
Theorem C76_stored_once_without_crash : forall pos td now l k,
  pos "" = 0%nat -> let tr := take k (trace "" td now l) in honest pos tr -> ~ given_up tr ->
  stored tr = seq 0 (length (stored tr)).
Proof.
  intros pos td now l k H0 tr Hh Hg.
  assert (E : lives "" [mk_life td now l k] = tr) by (cbn; rewrite app_nil_r; reflexivity).
  rewrite <- E in *. apply (C76_stored_once_partial pos); auto.
  intros l1 f l2 El. destruct l1 as [|x l1]; [reflexivity|]. destruct l1; discriminate.
Qed.
Print Assumptions C76_stored_once_without_crash.

(** ** An example and what does not hold *)
Definition at_s (s : string) : nat := if decide (s = "s1") then 1 else if decide (s = "s2") then 3 else 0.
Definition crash_before_saving (k : nat) : list life :=
  [mk_life false 0 [a_round (inr (mk_answer "s1" [0]%nat)) fine] k;
   mk_life false 0 [a_round (inr (mk_answer "s1" [0]%nat)) fine; a_round (inr (mk_answer "s2" [1; 2]%nat)) fine] 100].
Definition crash_after_saving : list life :=
  [mk_life false 0 [a_round (inr (mk_answer "s1" [0]%nat)) fine] 8;
   mk_life false 0 [a_round (inr (mk_answer "s2" [1; 2]%nat)) fine] 100].
(** To be honest, decided. *)
Fixpoint honest_from (pos : string -> nat) (k : nat) (tr : list ev) : bool :=
  match tr with
  | [] => true
  | Asks s _ _ :: tr =>
      let k := Nat.max k (pos s) in
      match tr with
      | Gets a :: _ => (k <=? pos (a_next a))%nat && bool_decide (a_msgs a = seq k (pos (a_next a) - k))
      | _ => true
      end && honest_from pos k tr
  | _ :: tr => honest_from pos k tr
  end.
Lemma honest_from_ok pos tr : forall pre, honest_from pos (acked pos pre) tr = true ->
  forall before since first only a after, tr = before ++ Asks since first only :: Gets a :: after ->
  let from := acked pos (pre ++ before ++ [Asks since first only]) in
  (from <= pos (a_next a))%nat /\ a_msgs a = seq from (pos (a_next a) - from).
Proof.
  induction tr as [|e tr IH]; intros pre H before since first only a after E; [destruct before; discriminate|].
  destruct before as [|e' before]; cbn [app] in E; injection E as -> E.
  - subst tr. cbn [honest_from] in H. apply andb_true_iff in H. destruct H as [H _]. apply andb_true_iff in H. destruct H as [H1 H2].
    apply Nat.leb_le in H1. apply bool_decide_eq_true_1 in H2. cbn [app]. rewrite acked_app. cbn [acked]. rewrite Nat.max_0_r. split; assumption.
  - assert (Hx : honest_from pos (acked pos (pre ++ [e'])) tr = true).
    { rewrite acked_app. destruct e'; cbn [honest_from acked] in *; rewrite ?Nat.max_0_r; try exact H. apply andb_true_iff in H. exact (proj2 H). }
    specialize (IH (pre ++ [e']) Hx before since first only a after E). rewrite <- app_assoc in IH. exact IH.
Qed.
Lemma honest_from_honest pos tr : honest_from pos 0 tr = true -> honest pos tr.
Proof. intros H. exact (honest_from_ok pos tr [] H). Qed.
Definition gives_up (tr : list ev) : bool := existsb (fun e => match e with Handles ToDevice BadData _ => true | _ => false end) tr.
Lemma gives_up_not tr : gives_up tr = false -> ~ given_up tr.
Proof.
  intros H [a Ha]. assert (E : gives_up tr = true) by (apply existsb_exists; exists (Handles ToDevice BadData a); split; [exact Ha | reflexivity]). congruence.
Qed.

Example C76_hypotheses : at_s "" = 0%nat /\ honest at_s (lives "" crash_after_saving) /\ ~ given_up (lives "" crash_after_saving) /\
  (forall l1 f l2, crash_after_saving = l1 ++ f :: l2 -> unsaved (lives "" l1) = false) /\ stored (lives "" crash_after_saving) = [0; 1; 2]%nat.
Proof.
  split; [reflexivity|]. split; [apply honest_from_honest; vm_compute; reflexivity|]. split; [apply gives_up_not; vm_compute; reflexivity|]. split; [|vm_compute; reflexivity].
  intros l1 f l2 E. destruct l1 as [|x l1]; [reflexivity|]. injection E as <- E. destruct l1 as [|y l1]; [vm_compute; reflexivity|]. injection E as <- E. destruct l1; discriminate.
Qed.

(** A crash after messages were stored and before the position was has them stored twice. *)
Theorem C76_stored_once_refuted : exists pos l,
  pos "" = 0%nat /\ honest pos (lives "" l) /\ ~ given_up (lives "" l) /\ stored (lives "" l) = [0; 0; 1; 2]%nat.
Proof.
  exists at_s, (crash_before_saving 6). split; [reflexivity|]. split; [apply honest_from_honest; vm_compute; reflexivity|].
  split; [apply gives_up_not; vm_compute; reflexivity | vm_compute; reflexivity].
Qed.
Print Assumptions C76_stored_once_refuted.

(** Messages which the database refuses as bad data are lost. *)
Definition bad_data : list life :=
  [mk_life false 0 [a_round (inr (mk_answer "s1" [0]%nat)) (fun x => match x with ToDevice => BadData | _ => Fine end); a_round (inr (mk_answer "s2" [1; 2]%nat)) fine] 100].
Theorem C76_none_lost_refuted : exists pos l,
  pos "" = 0%nat /\ honest pos (lives "" l) /\
  exists a s f t b i, lives "" l = a ++ Asks s f t :: b /\ (i < pos s)%nat /\ ~ In i (stored a).
Proof.
  exists at_s, bad_data.
  split; [reflexivity|]. split; [apply honest_from_honest; vm_compute; reflexivity|].
  exists (take 9 (lives "" bad_data)), "s1", false, false, (drop 10 (lives "" bad_data)), 0%nat.
  split; [vm_compute; reflexivity|]. split; [vm_compute; lia|]. vm_compute. intros [].
Qed.
Print Assumptions C76_none_lost_refuted.
