(** C75: a poller goes on from where it was until its token is refused. *)
From Verif Require Import Prelude PloopModel PloopSpec PloopProofs.
Open Scope string_scope. Open Scope list_scope. Open Scope Z_scope.

(** Going through the events of a round. *)
Ltac lists := unfold woken, asking, finish; cbn [app map];
  repeat match goal with
  | |- context [if ?b then [Sleeps 3000] else []] => destruct b eqn:?; cbn [app]
  | |- context [if ?b then [Saves _ _ _] else []] => destruct b eqn:?; cbn [app]
  | |- context [if ?b then [Releases] else []] => destruct b eqn:?; cbn [app]
  end.
Ltac handlings := match goal with H : handling _ _ _ |- _ => inversion H; subst; clear H end;
  try match goal with H : _ = Retry /\ _ = _ \/ _ = Panic /\ _ = _ |- _ => destruct H as [[? ?] | [? ?]]; try discriminate; subst end.
Ltac walk := repeat (rewrite every_cons; split); try apply every_nil.

(** ** Where it asks from *)
Definition inv_pos (since : string) (td : bool) (pre : list ev) (s : ploop) : Prop :=
  p_since s = position since pre /\ p_first s = negb (existsb is_advances pre) /\ p_tdonly s = td && negb (existsb is_gets pre).
Definition q_pos (since : string) (td : bool) (pre : list ev) (e : ev) : Prop :=
  match e with
  | Asks s f t => s = position since pre /\ f = negb (existsb is_advances pre) /\ t = td && negb (existsb is_gets pre)
  | _ => True
  end.

Lemma loop_pos since td : forall l pre s, inv_pos since td pre s -> every (q_pos since td) pre (loop s l).1.
Proof.
  apply loop_every.
  - intros pre s n s' evs x (I1 & I2 & I3) Ht Hp. apply (poll_rounds _ _ _ _ _ Ht) in Hp.
    destruct Hp; try handlings; (split; [lists; walk; cbn; try exact I; rewrite ?position_app, ?existsb_app; cbn; rewrite ?orb_false_r; auto|]);
      try exact I; try (lists; walk; exact I);
      unfold inv_pos; cbn [p_since p_first p_tdonly]; rewrite ?position_app, ?existsb_app; lists; cbn; rewrite ?orb_false_r, ?orb_true_r, ?andb_false_r; cbn; auto.
  - intros pre s _. lists; walk; exact I.
Qed.

(** Every request asks for what comes after the last response that was handled; it says that it
    is the first one until a response was handled, and asks only for to-device messages, if the
    poller is to do so at first, until there was a response. *)
Theorem C75_asks_from_position : forall since td now l a s f t b,
  trace since td now l = a ++ Asks s f t :: b ->
  s = position since a /\ f = negb (existsb is_advances a) /\ t = td && negb (existsb is_gets a).
Proof.
  intros since td now l a s f t b E. unfold trace in E.
  assert (I0 : inv_pos since td [] (ploop0 since td now)) by (split; [reflexivity | split; [reflexivity | cbn; rewrite andb_true_r; reflexivity]]).
  exact (loop_pos since td l [] _ I0 a (Asks s f t) b E).
Qed.
Print Assumptions C75_asks_from_position.

(** ** When it advances *)
Definition q_adv (pre : list ev) (e : ev) : Prop :=
  match e with
  | Advances s _ => exists a0 r o1 o2 o3 o4, pre = a0 ++ [Gets r; Handles E2EE o1 r; Handles Account o2 r; Handles Rooms o3 r; Handles ToDevice o4 r] /\
      s = a_next r /\ for_good o1 /\ for_good o2 /\ for_good o3 /\ for_good o4
  | Handles ToDevice _ r => exists a0 o1 o2 o3, pre = a0 ++ [Gets r; Handles E2EE o1 r; Handles Account o2 r; Handles Rooms o3 r] /\
      for_good o1 /\ for_good o2 /\ for_good o3
  | _ => True
  end.

(** The position moves only once all four sections of the response were handled in order, none
    of them to be retried; to-device messages are handled last. *)
Lemma snoc4 {A} (pre : list A) x1 x2 x3 x4 : (((pre ++ [x1]) ++ [x2]) ++ [x3]) ++ [x4] = pre ++ [x1; x2; x3; x4].
Proof. rewrite <- !app_assoc. reflexivity. Qed.
Lemma snoc5 {A} (pre : list A) x1 x2 x3 x4 x5 : ((((pre ++ [x1]) ++ [x2]) ++ [x3]) ++ [x4]) ++ [x5] = pre ++ [x1; x2; x3; x4; x5].
Proof. rewrite <- !app_assoc. reflexivity. Qed.
Lemma loop_adv : forall l pre s, True -> every q_adv pre (loop s l).1.
Proof.
  apply (loop_every q_adv (fun _ _ => True)).
  - intros pre s n s' evs x _ Ht Hp. apply (poll_rounds _ _ _ _ _ Ht) in Hp.
    destruct Hp; try handlings; (split; [lists; walk; cbn; try exact I|]); try exact I; try (lists; walk; exact I);
      first [ do 6 eexists; split; [apply snoc5|]; split; [reflexivity|]; repeat split; assumption
            | do 4 eexists; split; [apply snoc4|]; repeat split; assumption ].
  - intros pre s _. lists; walk; exact I.
Qed.
Theorem C75_advances_when_all_is_handled : forall since td now l a s t b,
  trace since td now l = a ++ Advances s t :: b ->
  exists a0 r o1 o2 o3 o4, a = a0 ++ [Gets r; Handles E2EE o1 r; Handles Account o2 r; Handles Rooms o3 r; Handles ToDevice o4 r] /\
    s = a_next r /\ for_good o1 /\ for_good o2 /\ for_good o3 /\ for_good o4.
Proof. intros since td now l a s t b E. exact (loop_adv l [] _ I a (Advances s t) b E). Qed.
Print Assumptions C75_advances_when_all_is_handled.
Theorem C75_to_device_last : forall since td now l a o r b,
  trace since td now l = a ++ Handles ToDevice o r :: b ->
  exists a0 o1 o2 o3, a = a0 ++ [Gets r; Handles E2EE o1 r; Handles Account o2 r; Handles Rooms o3 r] /\
    for_good o1 /\ for_good o2 /\ for_good o3.
Proof. intros since td now l a o r b E. exact (loop_adv l [] _ I a (Handles ToDevice o r) b E). Qed.
Print Assumptions C75_to_device_last.

(** ** When the token counts as expired *)
Lemma only_errors_le n m tr : (m <= n)%nat -> only_errors_for n tr -> only_errors_for m tr.
Proof.
  intros Hm (b & es & E & Hl & Hf). exists (b ++ take (n - m) es), (drop (n - m) es). split.
  - rewrite E, <- app_assoc, take_drop. reflexivity.
  - split; [rewrite drop_length; lia | apply Forall_drop; exact Hf].
Qed.
Lemma only_errors_0 tr : only_errors_for 0 tr.
Proof. exists (List.filter is_answer tr), []. split; [rewrite app_nil_r; reflexivity|]. split; [reflexivity | constructor]. Qed.
Lemma only_errors_S n tr code evs : only_errors_for n tr -> List.filter is_answer evs = [Fails code] -> only_errors_for (S n) (tr ++ evs).
Proof.
  intros (b & es & E & Hl & Hf) Ee. exists b, (es ++ [Fails code]). rewrite List.filter_app, E, Ee, <- app_assoc. split; [reflexivity|].
  split; [rewrite app_length; cbn; lia|]. apply Forall_app. split; [exact Hf | repeat constructor].
Qed.
Lemma only_errors_none n tr evs : only_errors_for n tr -> List.filter is_answer evs = [] -> only_errors_for n (tr ++ evs).
Proof. intros (b & es & E & H) Ee. exists b, es. rewrite List.filter_app, E, Ee, app_nil_r. split; [reflexivity | exact H]. Qed.

Definition inv_exp (pre : list ev) (s : ploop) : Prop := exists k, (p_fails s <= S k)%nat /\ only_errors_for k pre.
Definition q_exp (pre : list ev) (e : ev) : Prop :=
  match e with
  | Expires => (exists a code, pre = a ++ [Fails code] /\ (code = 401 \/ code = 403)) \/ only_errors_for 1000 pre
  | _ => True
  end.
Lemma loop_exp : forall l pre s, inv_exp pre s -> every q_exp pre (loop s l).1.
Proof.
  apply loop_every.
  - intros pre s n s' evs x (k & Hk & Ho) Ht Hp. apply (poll_rounds _ _ _ _ _ Ht) in Hp.
    destruct Hp; try handlings; (split; [try (lists; walk; cbn; exact I)|]); try exact I; try (lists; walk; exact I);
      try (exists 0%nat; split; [cbn; lia | apply only_errors_0]).
    + lists; walk. right. apply (only_errors_le k); [lia | exact Ho].
    + lists; walk; try exact I; left; (do 2 eexists; split; [reflexivity | assumption]).
    + exists (S k). split; [cbn; lia|]. apply (only_errors_S k pre code); [exact Ho|]. lists; reflexivity.
  - intros pre s _. lists; walk; exact I.
Qed.

(** The token counts as expired only if the homeserver has just refused it with 401 or 403, or if
    the last thousand requests failed. *)
Theorem C75_expires_only_if : forall since td now l a b,
  trace since td now l = a ++ Expires :: b ->
  (exists a' code, a = a' ++ [Fails code] /\ (code = 401 \/ code = 403)) \/ only_errors_for 1000 a.
Proof.
  intros since td now l a b E.
  assert (I0 : inv_exp [] (ploop0 since td now)) by (exists 0%nat; split; [cbn; lia | apply only_errors_0]).
  exact (loop_exp l [] _ I0 a Expires b E).
Qed.
Print Assumptions C75_expires_only_if.

(** ** When it goes on *)
Lemma undisturbed_poll s n : undisturbed n -> p_term s = false -> (p_fails s <= 1000)%nat ->
  exists s' evs, poll s n = (s', evs, Again) /\ p_term s' = false /\ length (List.filter is_asks evs) = 1%nat /\ ~ In Expires evs /\
    (is_error n /\ p_fails s' = S (p_fails s) \/ ~ is_error n /\ (p_fails s' <= 1)%nat).
Proof.
  intros (H0 & H1 & H2 & Hp & Ha & Hb) Ht Hf. unfold poll.
  replace (1000 <? p_fails s)%nat with false by (symmetry; apply Nat.ltb_ge; exact Hf). rewrite andb_false_r, Ht, H1, H2. cbn [orb].
  unfold got. cbn [p_first p_fails p_since p_stored p_term p_tdonly p_now]. destruct (n_http n) as [code | a] eqn:Eh.
  - assert (Ec : (code =? 401) || (code =? 403) = false).
    { apply orb_false_iff. split; apply Z.eqb_neq; congruence. }
    rewrite Ec. do 2 eexists. split; [reflexivity|]. split; [reflexivity|]. split; [destruct (0 <? p_fails s)%nat; reflexivity|].
    split; [destruct (0 <? p_fails s)%nat; cbn; intuition discriminate|]. left. split; [exists code; exact Eh | reflexivity].
  - assert (Hn : ~ is_error n) by (intros [c Ec]; congruence).
    destruct (sections all_sections (n_outcome n) a) as [evs0 x0] eqn:Es. destruct x0.
    + apply sections_handling in Es. unfold advance. cbn [p_first p_fails p_since p_stored p_term p_tdonly p_now].
      do 2 eexists. split; [reflexivity|]. split; [reflexivity|]. inversion Es; subst;
      [|match goal with H : _ \/ _ |- _ => destruct H as [[? ?] | [? ?]]; discriminate end ..].
      split; [lists; reflexivity|]. split; [lists; cbn; intuition discriminate|]. right. split; [exact Hn | cbn; lia].
    + apply sections_handling in Es. do 2 eexists. split; [reflexivity|]. split; [reflexivity|].
      inversion Es; subst; (split; [lists; reflexivity|]; split; [lists; cbn; intuition discriminate|]; right; split; [exact Hn | cbn; lia]).
    + exfalso. destruct (sections_spec _ _ _ _ _ Es) as (done & _ & b & y & r & _ & _ & _ & Ey).
      unfold outcome_in in Ey. destruct y; try exact (Hp _ Ey). destruct (a_msgs a); [discriminate | exact (Hp _ Ey)].
Qed.

(** A poller which nobody ends, whose token is not refused, and whose requests do not fail a
    thousand times in a row, is still running, has made a request in every round, and its token
    does not count as expired. *)
Theorem C75_goes_on : forall since td now l,
  Forall undisturbed l ->
  (forall l1 errors l2, l = l1 ++ errors ++ l2 -> Forall is_error errors -> (length errors < 1000)%nat) ->
  ended since td now l = None /\ length (List.filter is_asks (trace since td now l)) = length l /\ ~ In Expires (trace since td now l).
Proof.
  intros since td now l. unfold ended, trace.
  enough (G : forall l s k, p_term s = false -> (p_fails s <= S k)%nat -> (k < 1000)%nat ->
    Forall undisturbed l ->
    (forall errors l2, l = errors ++ l2 -> Forall is_error errors -> (k + length errors < 1000)%nat) ->
    (forall l1 errors l2, l = l1 ++ errors ++ l2 -> Forall is_error errors -> (length errors < 1000)%nat) ->
    (loop s l).2 = None /\ length (List.filter is_asks (loop s l).1) = length l /\ ~ In Expires (loop s l).1).
  { intros Hu Hc. apply (G l (ploop0 since td now) 0%nat); try reflexivity; try assumption.
    - apply Nat.le_succ_diag_r.
    - apply Nat.ltb_lt. reflexivity.
    - intros errors l2 E. apply (Hc [] errors l2). exact E. }
  clear. intros l. induction l as [|n l IH]; intros s k Ht Hf Hk Hu Hpre Hall; [cbn; auto|].
  apply Forall_cons in Hu. destruct Hu as [Hn Hu]. cbn [loop].
  rewrite Ht, (proj1 Hn). cbn [orb].
  destruct (undisturbed_poll s n Hn Ht ltac:(lia)) as (s' & evs & -> & Ht' & Hasks & Hexp & Hcase).
  assert (G : (loop s' l).2 = None /\ length (List.filter is_asks (loop s' l).1) = length l /\ ~ In Expires (loop s' l).1).
  { destruct Hcase as [[He Ef] | [He Ef]].
    - apply (IH s' (S k)); auto.
      + lia.
      + specialize (Hpre [n] l eq_refl ltac:(constructor; [exact He | constructor])). cbn in Hpre. lia.
      + intros errors l2 -> Hes. specialize (Hpre (n :: errors) l2 eq_refl ltac:(constructor; assumption)). cbn in Hpre. lia.
      + intros l1 errors l2 ->. apply (Hall (n :: l1) errors l2). reflexivity.
    - apply (IH s' 0%nat); auto.
      + apply Nat.ltb_lt. reflexivity.
      + intros errors l2 ->. intros Hes. apply (Hall [n] errors l2); [reflexivity | exact Hes].
      + intros l1 errors l2 ->. apply (Hall (n :: l1) errors l2). reflexivity. }
  destruct (loop s' l) as [more r]. cbn in G |- *. destruct G as (G1 & G2 & G3). split; [exact G1|]. split.
  - rewrite List.filter_app, app_length, Hasks, G2. reflexivity.
  - rewrite in_app_iff. tauto.
Qed.
Print Assumptions C75_goes_on.

(** ** Waiting after a failure *)
Definition after_failure (tr : list ev) : bool := match last tr with Some e => failure e | None => false end.
Definition inv_sleep (pre : list ev) (s : ploop) : Prop := (0 <? p_fails s)%nat = after_failure pre.
Definition q_sleep (pre : list ev) (e : ev) : Prop :=
  match e with
  | Asks _ _ _ => after_failure pre = false
  | Sleeps ms => ms = 3000 /\ after_failure pre = true
  | _ => True
  end.
Lemma after_failure_snoc tr e : after_failure (tr ++ [e]) = failure e.
Proof. unfold after_failure. rewrite last_snoc. reflexivity. Qed.
Lemma after_failure_cons tr e l : after_failure (tr ++ e :: l) = after_failure (e :: l).
Proof. unfold after_failure. rewrite last_app_cons. reflexivity. Qed.
Lemma loop_sleep : forall l pre s, inv_sleep pre s -> every q_sleep pre (loop s l).1.
Proof.
  apply loop_every.
  - intros pre s n s' evs x Hi Ht Hp. unfold inv_sleep in *. apply (poll_rounds _ _ _ _ _ Ht) in Hp.
    destruct Hp; try handlings; (split; [lists; walk; cbn [q_sleep]; rewrite ?after_failure_snoc; auto; fail|]); try exact I; try (lists; walk; exact I);
      cbn [p_fails]; lists; rewrite after_failure_cons; reflexivity.
  - intros pre s _. lists; walk; exact I.
Qed.
(** After a failed request or a failure to handle a response it sleeps three seconds before it
    asks again, and it does not sleep otherwise. *)
Theorem C75_sleeps_after_failures : forall since td now l a e b,
  trace since td now l = a ++ e :: b ->
  (is_asks e = true -> after_failure a = false) /\ (forall ms, e = Sleeps ms -> ms = 3000 /\ after_failure a = true).
Proof.
  intros since td now l a e b E. pose proof (loop_sleep l [] (ploop0 since td now) eq_refl a e b E) as H. split.
  - destruct e; try discriminate. intros _. exact H.
  - intros ms ->. exact H.
Qed.
Print Assumptions C75_sleeps_after_failures.


(** ** Releasing those who wait for the first sync *)
Definition inv_rel (pre : list ev) (s : ploop) : Prop :=
  existsb is_releases pre = negb (p_first s) /\ existsb is_advances pre = negb (p_first s) /\ last pre <> Some Terminates.
Definition q_rel (pre : list ev) (e : ev) : Prop :=
  last pre <> Some Terminates /\
  (last pre = Some Releases -> existsb is_advances pre = true \/ e = Terminates) /\
  match e with
  | Releases => existsb is_releases pre = false
  | Asks _ _ _ => existsb is_releases pre = existsb is_advances pre
  | _ => True
  end.
Lemma last_releases pre : last pre = Some Releases -> existsb is_releases pre = true.
Proof.
  intros H. apply last_Some in H. destruct H as [l ->]. rewrite existsb_app. cbn. apply orb_true_r.
Qed.
Ltac rel := unfold q_rel; rewrite ?last_snoc, ?existsb_app; cbn; rewrite ?orb_false_r;
       repeat split; try (intros; discriminate); try congruence; auto;
       try (intros Hx; apply last_releases in Hx; left; congruence).
Lemma finish_rel pre s : inv_rel pre s -> every q_rel pre (finish s).
Proof. intros (I1 & I2 & I3). lists; walk; rel. Qed.
Lemma loop_rel : forall l pre s, inv_rel pre s -> every q_rel pre (loop s l).1.
Proof.
  apply loop_every; [|exact finish_rel].
  intros pre s n s' evs x (I1 & I2 & I3) Ht Hp. apply (poll_rounds _ _ _ _ _ Ht) in Hp.
  destruct Hp; try handlings; (split; [lists; walk; rel; fail|]); try apply finish_rel;
    first [ unfold inv_rel; rewrite ?existsb_app; lists; rewrite ?last_app_cons, ?app_nil_r; cbn; rewrite ?orb_false_r, ?orb_true_r; repeat split; congruence
          | unfold inv_rel; rewrite ?existsb_app, ?I1, ?I2; lists; rewrite ?last_app_cons, ?app_nil_r; cbn; rewrite ?orb_false_r, ?orb_true_r; repeat split; congruence
          | unfold q_rel; lists; rewrite last_app_cons; cbn; repeat split; congruence ].
Qed.

(** Things about what comes later as well; they have to stay true as more comes. *)
Definition everyF (Q : list ev -> ev -> list ev -> Prop) (pre tr : list ev) : Prop :=
  forall a e b, tr = a ++ e :: b -> Q (pre ++ a) e b.
Lemma everyF_nil Q pre : everyF Q pre [].
Proof. intros a e b E. destruct a; discriminate. Qed.
Lemma everyF_cons Q pre e tr : everyF Q pre (e :: tr) <-> Q pre e tr /\ everyF Q (pre ++ [e]) tr.
Proof.
  split.
  - intros H. split.
    + specialize (H [] e tr eq_refl). rewrite app_nil_r in H. exact H.
    + intros a e' b ->. specialize (H (e :: a) e' b eq_refl). rewrite <- app_assoc. exact H.
  - intros [H1 H2] a e' b E. destruct a as [|x a]; cbn in E; injection E as -> E.
    + rewrite app_nil_r, <- E. exact H1.
    + specialize (H2 a e' b E). rewrite <- app_assoc in H2. exact H2.
Qed.
Lemma everyF_app (Q : list ev -> ev -> list ev -> Prop) : (forall pre e b more, Q pre e b -> Q pre e (b ++ more)) ->
  forall tr1 pre tr2, everyF Q pre tr1 -> everyF Q (pre ++ tr1) tr2 -> everyF Q pre (tr1 ++ tr2).
Proof.
  intros Hm tr1. induction tr1 as [|e tr1 IH]; intros pre tr2 H1 H2; cbn [app].
  - rewrite app_nil_r in H2. exact H2.
  - apply everyF_cons in H1. destruct H1 as [He H1]. apply everyF_cons. split; [apply Hm; exact He|].
    apply IH; [exact H1|]. rewrite <- app_assoc. exact H2.
Qed.
Lemma loop_everyF (Q : list ev -> ev -> list ev -> Prop) (Inv : list ev -> ploop -> Prop) :
  (forall pre e b more, Q pre e b -> Q pre e (b ++ more)) ->
  (forall pre s n s' evs x, Inv pre s -> p_term s || n_stop0 n = false -> poll s n = (s', evs, x) ->
     everyF Q pre evs /\ match x with
                        | Again => Inv (pre ++ evs) s'
                        | Halt => everyF Q (pre ++ evs) (finish s')
                        | Panics => Q (pre ++ evs) Terminates []
                        end) ->
  (forall pre s, Inv pre s -> everyF Q pre (finish s)) ->
  forall l pre s, Inv pre s -> everyF Q pre (loop s l).1.
Proof.
  intros Hm Hstep Hfin l. induction l as [|n l IH]; intros pre s Hi; cbn [loop]; [apply everyF_nil|].
  destruct (p_term s || n_stop0 n) eqn:Et; [exact (Hfin pre s Hi)|].
  destruct (poll s n) as [[s' evs] x] eqn:Ep. destruct (Hstep _ _ _ _ _ _ Hi Et Ep) as [He Hx]. destruct x.
  - specialize (IH _ _ Hx). destruct (loop s' l) as [more r]. cbn in *. apply everyF_app; assumption.
  - cbn. apply everyF_app; assumption.
  - cbn. apply everyF_app; [exact Hm | exact He|]. apply everyF_cons. split; [exact Hx | apply everyF_nil].
Qed.
Ltac walkF := repeat (rewrite everyF_cons; split); try match goal with |- everyF _ _ [] => apply everyF_nil end.

(** What follows when those who wait are released, or the position advances for the first time. *)
Definition q_relF (pre : list ev) (e : ev) (b : list ev) : Prop :=
  match e with
  | Releases => existsb is_advances pre = true \/ b <> []
  | Advances _ _ => existsb is_releases (pre ++ b) = true
  | _ => True
  end.
Ltac firsts := match goal with H : p_first _ = _ |- _ => rewrite H; cbn end.
Lemma loop_relF : forall l pre s, existsb is_releases pre = negb (p_first s) -> everyF q_relF pre (loop s l).1.
Proof.
  apply (loop_everyF q_relF (fun pre s => existsb is_releases pre = negb (p_first s))).
  - intros pre e b more. destruct e; cbn; auto.
    + intros Hb. rewrite app_assoc, existsb_app, Hb. reflexivity.
    + intros [H | H]; [left; exact H | right; destruct b; [congruence | discriminate]].
  - intros pre s n s' evs x Hi Ht Hp. apply (poll_rounds _ _ _ _ _ Ht) in Hp.
    destruct Hp; try handlings; (split; [lists; walkF; cbn; try exact I; rewrite ?existsb_app; cbn; rewrite ?Hi, ?orb_false_r, ?orb_true_r; try firsts; auto|]); try exact I;
      try (lists; walkF; cbn; try exact I; right; discriminate);
      rewrite ?existsb_app, ?Hi; lists; cbn; rewrite ?orb_false_r, ?orb_true_r; try firsts; auto.
  - intros pre s Hi. lists; walkF; cbn; try exact I. right. discriminate.
Qed.
(** The poller which has handled its first response releases those who wait for it, once; if it
    releases them before it has handled a response then it ends, and it does nothing after its
    end. *)
Theorem C75_releases : forall since td now l a e b,
  trace since td now l = a ++ e :: b ->
  ~ In Terminates a /\
  (is_advances e = true -> In Releases (a ++ b)) /\
  (e = Releases -> ~ In Releases a /\ (existsb is_advances a = true \/ b = [Terminates])) /\
  (is_asks e = true -> (In Releases a <-> existsb is_advances a = true)).
Proof.
  intros since td now l a e b E.
  assert (I0 : inv_rel [] (ploop0 since td now)) by (repeat split; discriminate).
  pose proof (loop_rel l [] _ I0 : every q_rel [] (trace since td now l)) as H.
  pose proof (loop_relF l [] (ploop0 since td now) eq_refl : everyF q_relF [] (trace since td now l)) as HF.
  assert (Hin : forall tr, In Releases tr <-> existsb is_releases tr = true).
  { intros tr. rewrite existsb_exists. split; [intros Hi; exists Releases; auto | intros (x & Hi & Hx); destruct x; try discriminate; exact Hi]. }
  assert (Ht : forall a e b, trace since td now l = a ++ e :: b -> ~ In Terminates a).
  { clear - H. intros a e b E Hi. apply in_split in Hi. destruct Hi as (a1 & a2 & ->).
    rewrite <- app_assoc in E. cbn [app] in E. destruct (a2 ++ e :: b) as [|e' b'] eqn:E2; [destruct a2; discriminate|].
    specialize (H (a1 ++ [Terminates]) e' b'). cbn [app] in H. rewrite <- app_assoc in H. specialize (H E). destruct H as [H _].
    rewrite last_snoc in H. congruence. }
  split; [exact (Ht a e b E)|]. pose proof (H a e b E) as He. pose proof (HF a e b E) as Hf. cbn [app] in He, Hf. split; [|split].
  - intros Ha. destruct e; try discriminate. apply Hin. exact Hf.
  - intros ->. destruct He as (_ & _ & He). split; [rewrite Hin; congruence|].
    destruct Hf as [Hf | Hf]; [left; exact Hf|]. destruct (existsb is_advances a) eqn:Ea; [left; reflexivity|]. right. destruct b as [|e' b']; [congruence|].
    assert (E' : trace since td now l = (a ++ [Releases]) ++ e' :: b') by (rewrite <- app_assoc; exact E).
    pose proof (H _ _ _ E') as (_ & H2 & _). cbn [app] in H2. rewrite last_snoc, existsb_app, Ea in H2. destruct (H2 eq_refl) as [H3 | ->]; [discriminate|].
    destruct b' as [|e2 b2]; [reflexivity|]. exfalso.
    refine (Ht (a ++ [Releases; Terminates]) e2 b2 _ _); [rewrite <- app_assoc; exact E|]. apply in_or_app. right. cbn. auto.
  - intros Hk. destruct e; try discriminate. destruct He as (_ & _ & He). rewrite Hin, He. reflexivity.
Qed.
Print Assumptions C75_releases.

(** When the poller has ended, other than by a panic, those who wait have been released, and the
    end is noted. *)
Theorem C75_ended_releases : forall since td now l,
  ended since td now l = Some false -> In Releases (trace since td now l) /\ exists a, trace since td now l = a ++ [Terminates].
Proof.
  intros since td now l. unfold ended, trace.
  enough (G : forall l s, (loop s l).2 = Some false -> (p_first s = true -> In Releases (loop s l).1) /\ exists a, (loop s l).1 = a ++ [Terminates]).
  { intros H. destruct (G l _ H) as [G1 G2]. split; [apply G1; reflexivity | exact G2]. }
  clear. intros l. induction l as [|n l IH]; intros s; [discriminate|]. cbn [loop].
  destruct (p_term s || n_stop0 n) eqn:Et.
  - intros _. split; [intros Hf; unfold finish; rewrite Hf; left; reflexivity | do 1 eexists; reflexivity].
  - destruct (poll s n) as [[s' evs] x] eqn:Ep. apply (poll_rounds _ _ _ _ _ Et) in Ep. destruct x.
    + specialize (IH s'). destruct (loop s' l) as [more r]. cbn in IH |- *. intros Hr. destruct (IH Hr) as [I1 [a' I2]]. split.
      * intros Hf. apply in_or_app. destruct (p_first s') eqn:Ef; [right; apply I1; reflexivity|]. left.
        inversion Ep; subst; cbn [p_first] in Ef; try congruence. rewrite Hf. apply in_or_app. right. right. right. apply in_or_app. right. right. apply in_or_app. right. left. reflexivity.
      * exists (evs ++ a'). rewrite I2, app_assoc. reflexivity.
    + intros _. cbn. split.
      * intros Hf. apply in_or_app. right. assert (E : p_first s' = true) by (inversion Ep; subst; congruence). unfold finish. rewrite E. left. reflexivity.
      * unfold finish. exists (evs ++ (if p_first s' then [Releases] else [])). rewrite app_assoc. reflexivity.
    + discriminate.
Qed.
Print Assumptions C75_ended_releases.

(** ** When the position is stored *)
Lemma last_save_app a b : last_save (a ++ b) = List.fold_left (fun o e => match e with Saves _ t _ => Some t | _ => o end) b (last_save a).
Proof. apply List.fold_left_app. Qed.
Definition q_save (pre : list ev) (e : ev) (b : list ev) : Prop :=
  match e with
  | Advances s t => due pre t -> exists ok b', b = Saves s t ok :: b'
  | Saves s t _ => exists pre', pre = pre' ++ [Advances s t] /\ due pre' t
  | _ => True
  end.
Lemma loop_save : forall l pre s, p_stored s = last_save pre -> everyF q_save pre (loop s l).1.
Proof.
  apply (loop_everyF q_save (fun pre s => p_stored s = last_save pre)).
  - intros pre e b more. destruct e; cbn; auto. intros H Hd. destruct (H Hd) as (ok & b' & ->). exists ok, (b' ++ more). reflexivity.
  - intros pre s n s' evs x Hi Ht Hp. apply (poll_rounds _ _ _ _ _ Ht) in Hp.
    destruct Hp; try handlings; (split; [lists; walkF; cbn [q_save]; try exact I|]); try exact I; try (lists; walkF; exact I);
      cbn [p_stored]; try (rewrite last_save_app; lists; cbn; rewrite <- ?Hi; try reflexivity; congruence);
      try (intros _; do 2 eexists; reflexivity).
    all: try (do 1 eexists; split; [reflexivity|]); unfold due; rewrite ?last_snoc, ?last_save_app; cbn; rewrite <- ?Hi;
      match goal with H : _ || (0 <? length (a_msgs ?ans))%nat = _ |- _ => rename H into Hs; rename ans into rr end.
    all: try (match goal with |- _ \/ _ -> _ => idtac end; apply orb_false_iff in Hs; destruct Hs as [Hs1 Hs2]; apply Nat.ltb_ge in Hs2;
      intros [(o & r & E & Hr) | Hd]; [injection E as <- <-; destruct (a_msgs rr); [congruence | cbn in Hs2; lia] |
      exfalso; destruct (p_stored s); [apply Z.ltb_ge in Hs1; lia | discriminate]]).
    all: apply orb_true_iff in Hs; destruct Hs as [Hs | Hs];
      [right; destruct (p_stored s); [apply Z.ltb_lt in Hs; lia | exact I] |
       left; do 2 eexists; split; [reflexivity|]; intros Em; rewrite Em in Hs; discriminate].
  - intros pre s _. lists; walkF; exact I.
Qed.
(** When the position advances it is stored at once if that is due; it is stored at no other
    time. *)
Theorem C75_saves : forall since td now l a e b,
  trace since td now l = a ++ e :: b ->
  match e with
  | Advances s t => due a t -> exists ok b', b = Saves s t ok :: b'
  | Saves s t _ => exists a', a = a' ++ [Advances s t] /\ due a' t
  | _ => True
  end.
Proof. intros since td now l a e b E. exact (loop_save l [] (ploop0 since td now) eq_refl a e b E). Qed.
Print Assumptions C75_saves.

(** ** A response that cannot be stored *)
Lemma cannot_store_poll s n : cannot_store n -> p_term s = false -> (p_fails s <= 1000)%nat ->
  exists s' evs, poll s n = (s', evs, Again) /\ p_term s' = false /\ (p_fails s' <= 1)%nat /\ p_since s' = p_since s /\
    List.filter is_asks evs = [Asks (p_since s) (p_first s) (p_tdonly s)] /\ existsb is_advances evs = false.
Proof.
  intros ((H0 & H1 & H2 & Hp & _ & _) & a & x & Eh & Ex & Hm) Ht Hf. unfold poll.
  replace (1000 <? p_fails s)%nat with false by (symmetry; apply Nat.ltb_ge; exact Hf). rewrite andb_false_r, Ht, H1, H2. cbn [orb].
  unfold got. cbn [p_first p_fails p_since p_stored p_term p_tdonly p_now]. rewrite Eh.
  assert (Eo : outcome_in (n_outcome n) a x = Retry).
  { unfold outcome_in. destruct x; try exact Ex. destruct (a_msgs a); [exfalso; apply Hm; reflexivity | exact Ex]. }
  destruct (sections all_sections (n_outcome n) a) as [evs0 x0] eqn:Es. destruct x0.
  - exfalso. destruct (sections_spec _ _ _ _ _ Es) as (done & _ & _ & Hg). rewrite Forall_forall in Hg.
    specialize (Hg x ltac:(destruct x; repeat constructor)). rewrite Eo in Hg. destruct Hg; discriminate.
  - apply sections_handling in Es. do 2 eexists. split; [reflexivity|]. split; [reflexivity|]. split; [cbn; lia|]. split; [reflexivity|].
    inversion Es; subst; (split; [lists; reflexivity | lists; reflexivity]).
  - exfalso. destruct (sections_spec _ _ _ _ _ Es) as (done & _ & b & y & r & _ & _ & _ & Ey).
    unfold outcome_in in Ey. destruct y; try exact (Hp _ Ey). destruct (a_msgs a); [discriminate | exact (Hp _ Ey)].
Qed.
(** As long as a response cannot be stored, the same is asked for again: nothing is skipped, and
    the poller does not end. *)
Theorem C75_nothing_is_skipped : forall since td now l, Forall cannot_store l ->
  ended since td now l = None /\ existsb is_advances (trace since td now l) = false /\
  length (List.filter is_asks (trace since td now l)) = length l /\
  (forall s f t, In (Asks s f t) (trace since td now l) -> s = since).
Proof.
  intros since td now l. unfold ended, trace.
  enough (G : forall l s, p_term s = false -> (p_fails s <= 1)%nat -> Forall cannot_store l ->
    (loop s l).2 = None /\ existsb is_advances (loop s l).1 = false /\ length (List.filter is_asks (loop s l).1) = length l /\
    (forall s0 f t, In (Asks s0 f t) (loop s l).1 -> s0 = p_since s)).
  { intros Hl. apply (G l (ploop0 since td now)); [reflexivity | apply Nat.le_0_l | exact Hl]. }
  clear. intros l. induction l as [|n l IH]; intros s Ht Hf Hl; [cbn; repeat split; contradiction|].
  apply Forall_cons in Hl. destruct Hl as [Hn Hl]. cbn [loop]. rewrite Ht, (proj1 (proj1 Hn)). cbn [orb].
  assert (Hf' : (p_fails s <= 1000)%nat) by lia.
  destruct (cannot_store_poll s n Hn Ht Hf') as (s' & evs & -> & Ht' & Hf2 & Es & Ha & Hv).
  specialize (IH s' Ht' Hf2 Hl). rewrite Es in IH. destruct (loop s' l) as [more r]. cbn in IH |- *. destruct IH as (I1 & I2 & I3 & I4).
  split; [exact I1|]. split; [rewrite existsb_app, Hv, I2; reflexivity|]. split.
  - rewrite List.filter_app, app_length, Ha, I3. reflexivity.
  - intros s0 f t Hi. apply in_app_iff in Hi. destruct Hi as [Hi | Hi]; [|exact (I4 _ _ _ Hi)].
    assert (Hx : In (Asks s0 f t) (List.filter is_asks evs)) by (apply List.filter_In; split; [exact Hi | reflexivity]).
    rewrite Ha in Hx. destruct Hx as [E | []]. injection E as <- _ _. reflexivity.
Qed.
Print Assumptions C75_nothing_is_skipped.


(** ** Examples and what does not hold *)
Definition a_round (h : Z + answer) (f : section -> outcome) : round := mk_round false false false h 100 100 f true.
Definition fine : section -> outcome := fun _ => Fine.

(** A round of everything: a response with a message, one without, an error, a failure to store. *)
Definition some_rounds : list round :=
  [a_round (inr (mk_answer "s1" [0]%nat)) fine; a_round (inr (mk_answer "s2" [])) fine; a_round (inl 500) fine;
   a_round (inr (mk_answer "s3" [1]%nat)) (fun x => match x with Rooms => Retry | _ => Fine end); a_round (inr (mk_answer "s3" [1]%nat)) fine; a_round (inl 401) fine].
Example C75_some_trace : trace "" true 0 some_rounds =
  let r1 := mk_answer "s1" [0]%nat in let r2 := mk_answer "s2" [] in let r3 := mk_answer "s3" [1]%nat in
  [Asks "" true true; Gets r1; Handles E2EE Fine r1; Handles Account Fine r1; Handles Rooms Fine r1; Handles ToDevice Fine r1; Advances "s1" 200; Saves "s1" 200 true; Releases;
   Asks "s1" false false; Gets r2; Handles E2EE Fine r2; Handles Account Fine r2; Handles Rooms Fine r2; Handles ToDevice Fine r2; Advances "s2" 400;
   Asks "s2" false false; Fails 500; Sleeps 3000;
   Asks "s2" false false; Gets r3; Handles E2EE Fine r3; Handles Account Fine r3; Handles Rooms Retry r3; Sleeps 3000;
   Asks "s2" false false; Gets r3; Handles E2EE Fine r3; Handles Account Fine r3; Handles Rooms Fine r3; Handles ToDevice Fine r3; Advances "s3" 6900; Saves "s3" 6900 true;
   Asks "s3" false false; Fails 401; Expires; Terminates].
Proof. reflexivity. Qed.
Example C75_some_undisturbed : Forall undisturbed (take 5 some_rounds) /\
  ended "" true 0 (take 5 some_rounds) = None /\ ended "" true 0 some_rounds = Some false.
Proof.
  split; [|split; reflexivity]. repeat constructor; cbn; try congruence; try (intros []; discriminate).
Qed.
Example C75_some_cannot_store : cannot_store (a_round (inr (mk_answer "s3" [1]%nat)) (fun x => match x with Rooms => Retry | _ => Fine end)).
Proof.
  split; [repeat constructor; cbn; try congruence; try (intros []; discriminate)|]. do 2 eexists. split; [reflexivity|]. split; [exact (eq_refl : _ Rooms = Retry) | discriminate].
Qed.

Lemma expires_in tr : existsb (fun e => match e with Expires => true | _ => false end) tr = true -> In Expires tr.
Proof. rewrite existsb_exists. intros (e & Hi & He). destruct e; try discriminate. exact Hi. Qed.
Lemma refusals_in tr : forallb (fun e => match e with Fails c => negb ((c =? 401) || (c =? 403)) | _ => true end) tr = true ->
  forall e, In e tr -> e <> Fails 401 /\ e <> Fails 403.
Proof. rewrite forallb_forall. intros E e Hi. specialize (E e Hi). split; intros ->; discriminate. Qed.
(** A homeserver that is out of order for long enough has the token count as expired though it
    never refused it. *)
Theorem C75_outage_refuted : exists l,
  Forall undisturbed l /\ In Expires (trace "" false 0 l) /\ ended "" false 0 l = Some false /\
  forall e, In e (trace "" false 0 l) -> e <> Fails 401 /\ e <> Fails 403.
Proof.
  exists (repeat (a_round (inl 502) fine) 1002). split; [|split; [|split]].
  - apply List.Forall_forall. intros n Hn. apply repeat_spec in Hn. subst n. repeat constructor; cbn; try congruence; try (intros []; discriminate).
  - apply expires_in. vm_compute. reflexivity.
  - vm_compute. reflexivity.
  - apply refusals_in. vm_compute. reflexivity.
Qed.
Print Assumptions C75_outage_refuted.

(** If handling the first response panics, those who wait for it are never released. *)
Theorem C75_panic_never_releases_refuted : exists l,
  ended "" false 0 l = Some true /\ ~ In Releases (trace "" false 0 l).
Proof.
  exists [a_round (inr (mk_answer "s1" [])) (fun x => match x with Rooms => Panic | _ => Fine end)].
  split; [reflexivity|]. vm_compute. intuition discriminate.
Qed.
Print Assumptions C75_panic_never_releases_refuted.
