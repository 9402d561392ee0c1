(** Lemmas about processing a response. *)
From Verif Require Import Prelude PollModel PollSpec.
Open Scope string_scope. Open Scope list_scope.

Lemma make_spec env tr c tr' o :
  make env tr c = Some (tr', o) -> tr' = tr ++ [(c, o)] /\ o <> Crash.
Proof. unfold make. destruct (env tr c) eqn:E; try done; by intros [= <- <-]. Qed.

Lemma follows_nil : follows [] [].
Proof. left. split; [done|constructor]. Qed.

(** Going on after a completed plan. *)
Lemma follows_app p1 t1 p2 t2 :
  map fst t1 = p1 -> Forall fine t1 -> follows p2 t2 -> follows (p1 ++ p2) (t1 ++ t2).
Proof.
  intros H1 F1 [[H2 F2]|(done & c & o & rest & -> & -> & F2 & Hf)].
  - left. rewrite map_app, H1, H2. split; [done|]. by apply Forall_app.
  - right. exists (t1 ++ done), c, o, rest. rewrite map_app, H1, <- !app_assoc.
    split; [done|]. split; [done|]. split; [by apply Forall_app|done].
Qed.
(** Stopping early. *)
Lemma follows_stop p1 t1 c o p2 :
  map fst t1 = p1 -> Forall fine t1 -> failed (c, o) -> follows (p1 ++ c :: p2) (t1 ++ [(c, o)]).
Proof. intros <- F Hf. right. by exists t1, c, o, p2. Qed.

(** A room ended with outcome [o]: the trace it made. *)
Definition ended (tr : trace) (o : outcome) : Prop :=
  (o = Ok /\ Forall fine tr) \/ (o <> Ok /\ o <> Crash /\ exists t c, tr = t ++ [(c, o)] /\ Forall fine t /\ failed (c, o)).

Lemma ephemeral_spec env room l : forall tr tr',
  ephemeral env tr room l = Some tr' ->
  exists t, tr' = tr ++ t /\ map fst t = ephs room l /\ Forall fine t.
Proof.
  induction l as [|e l IH]; intros tr tr' H; cbn [ephemeral] in H.
  - inversion H; subst. exists []. rewrite app_nil_r. repeat split; constructor.
  - destruct e.
    + destruct (make env tr (SetTyping room)) as [[tr1 o]|] eqn:E; [|done]. apply make_spec in E as [-> _].
      apply IH in H as (t & -> & Ht & Hf). exists ((SetTyping room, o) :: t). rewrite <- app_assoc.
      split; [done|]. split; [cbn; f_equal; exact Ht|]. constructor; [done|done].
    + destruct (make env tr (OnReceipt room)) as [[tr1 o]|] eqn:E; [|done]. apply make_spec in E as [-> _].
      apply IH in H as (t & -> & Ht & Hf). exists ((OnReceipt room, o) :: t). rewrite <- app_assoc.
      split; [done|]. split; [cbn; f_equal; exact Ht|]. constructor; [done|done].
    + apply IH in H as (t & -> & Ht & Hf). by exists t.
Qed.

(** A step of a plan that reports. *)
Lemma one_spec env tr c tr' o :
  reports c = true -> make env tr c = Some (tr', o) ->
  tr' = tr ++ [(c, o)] /\ ((o = Ok /\ fine (c, o)) \/ (o <> Ok /\ failed (c, o) /\ o <> Crash)).
Proof.
  intros Hr H. apply make_spec in H as [-> Hc]. split; [done|].
  destruct o; [left; done|right; done..].
Qed.

Definition tail_plan (r : joined) : list call :=
  ephs (j_room r) (j_eph r)
  ++ (if decide (j_acct r = 0) then [] else [OnAccountData (j_room r)])
  ++ if_some (j_tl r) (Accumulate (j_room r) (j_tl r))
  ++ (if j_unread r then [UpdateUnreadCounts (j_room r)] else []).

Lemma ended_ok_app t1 t2 o : Forall fine t1 -> ended t2 o -> ended (t1 ++ t2) o.
Proof.
  intros F [[-> H]|(Ho & Hc & t & c & -> & H & Hf)].
  - left. split; [done|]. by apply Forall_app.
  - right. split; [done|]. split; [done|]. exists (t1 ++ t), c. rewrite <- app_assoc. split; [done|]. split; [|done].
    by apply Forall_app.
Qed.
Lemma ended_stop t c o : Forall fine t -> o <> Ok -> o <> Crash -> failed (c, o) -> ended (t ++ [(c, o)]) o.
Proof. intros. right. split; [done|]. split; [done|]. by exists t, c. Qed.

Lemma after_state_spec env tr r tr' o :
  after_state env tr r = Some (tr', o) ->
  exists t, tr' = tr ++ t /\ follows (tail_plan r) t /\ ended t o.
Proof.
  unfold after_state, tail_plan. destruct (ephemeral env tr (j_room r) (j_eph r)) as [tr1|] eqn:E1; [|done].
  apply ephemeral_spec in E1 as (t1 & -> & M1 & F1).
  set (acct := match j_acct r with O => _ | _ => _ end).
  assert (Ha : forall tr2 o2, acct = Some (tr2, o2) -> exists t2, tr2 = (tr ++ t1) ++ t2 /\
    ((o2 = Ok /\ map fst t2 = (if decide (j_acct r = 0) then [] else [OnAccountData (j_room r)]) /\ Forall fine t2)
     \/ (o2 <> Ok /\ j_acct r <> 0 /\ t2 = [(OnAccountData (j_room r), o2)] /\ failed (OnAccountData (j_room r), o2) /\ o2 <> Crash))).
  { intros tr2 o2. unfold acct. destruct (j_acct r) as [|n] eqn:En.
    - intros [= <- <-]. exists []. rewrite app_nil_r. split; [done|]. left. repeat split; constructor.
    - intros H. apply one_spec in H as [-> [[-> Hf]|(Ho & Hf & Hcr)]]; [| |done].
      + eexists. split; [done|]. left. cbn. repeat split; repeat constructor.
      + eexists. split; [done|]. right. done. }
  destruct acct as [[tr2 o2]|]; [|done]. destruct (Ha tr2 o2 eq_refl) as (t2 & -> & H2).
  destruct H2 as [(-> & M2 & F2)|(Ho2 & Hn & -> & Hf2 & Hcr)].
  2:{ intros H. assert (E : tr' = (tr ++ t1) ++ [(OnAccountData (j_room r), o2)] /\ o = o2).
      { by destruct o2; inversion H; subst. }
      destruct E as [-> ->]. eexists. split; [by rewrite <- app_assoc|]. split.
      - rewrite decide_False by done. by apply follows_stop.
      - by apply ended_stop. }
  set (tl := match j_tl r with [] => _ | _ => _ end).
  assert (Hb : forall tr3 o3, tl = Some (tr3, o3) -> exists t3, tr3 = ((tr ++ t1) ++ t2) ++ t3 /\
    ((o3 = Ok /\ map fst t3 = if_some (j_tl r) (Accumulate (j_room r) (j_tl r)) /\ Forall fine t3)
     \/ (o3 <> Ok /\ j_tl r <> [] /\ t3 = [(Accumulate (j_room r) (j_tl r), o3)]
         /\ failed (Accumulate (j_room r) (j_tl r), o3) /\ o3 <> Crash))).
  { intros tr3 o3. unfold tl. destruct (j_tl r) as [|x l] eqn:En.
    - intros [= <- <-]. exists []. rewrite app_nil_r. split; [done|]. left. repeat split; constructor.
    - intros H. apply one_spec in H as [-> [[-> Hf]|(Ho & Hf & Hcr)]]; [| |done].
      + eexists. split; [done|]. left. cbn. repeat split; repeat constructor.
      + eexists. split; [done|]. right. done. }
  destruct tl as [[tr3 o3]|]; [|done]. destruct (Hb tr3 o3 eq_refl) as (t3 & -> & H3).
  destruct H3 as [(-> & M3 & F3)|(Ho3 & Hn & -> & Hf3 & Hcr)].
  2:{ intros H. assert (E : tr' = ((tr ++ t1) ++ t2) ++ [(Accumulate (j_room r) (j_tl r), o3)] /\ o = o3).
      { by destruct o3; inversion H; subst. }
      destruct E as [-> ->]. exists (t1 ++ t2 ++ [(Accumulate (j_room r) (j_tl r), o3)]).
      split; [by rewrite <- !app_assoc|]. split.
      - apply follows_app; [done|done|]. unfold if_some. destruct (j_tl r) as [|x l] eqn:El; [done|]. cbn [app].
        by apply follows_stop.
      - apply ended_ok_app; [done|]. by apply ended_stop. }
  destruct (j_unread r).
  - destruct (make env _ (UpdateUnreadCounts (j_room r))) as [[tr4 o4]|] eqn:E4; [|done].
    intros [= <- <-]. apply make_spec in E4 as [-> _].
    exists (t1 ++ t2 ++ t3 ++ [(UpdateUnreadCounts (j_room r), o4)]). split; [by rewrite <- !app_assoc|]. split.
    + apply follows_app; [done|done|]. apply follows_app; [done|done|]. apply follows_app; [done|done|].
      left. split; [done|]. repeat constructor. done.
    + left. split; [done|]. repeat (apply Forall_app; split; [done|]). repeat constructor. done.
  - intros [= <- <-]. exists (t1 ++ t2 ++ t3). split; [by rewrite <- !app_assoc|]. split.
    + apply follows_app; [done|done|]. apply follows_app; [done|done|]. rewrite app_nil_r.
      left. done.
    + left. split; [done|]. repeat (apply Forall_app; split; [done|]). done.
Qed.

Lemma take_create_spec tl c tl' :
  take_create tl = Some (c, tl') ->
  exists a b, tl = a ++ c :: b /\ tl' = a ++ b /\ t_create c = true /\ Forall (fun e => t_create e = false) a.
Proof.
  revert tl'. induction tl as [|e tl IH]; intros tl' H; cbn in H; [done|].
  destruct (t_create e) eqn:Ee.
  - inversion H; subst. exists [], tl'. done.
  - destruct (take_create tl) as [[c' r']|]; [|done]. inversion H; subst.
    destruct (IH r' eq_refl) as (a & b & -> & -> & Hc & Hf). exists (e :: a), b.
    repeat split; try done. by constructor.
Qed.

(** How a joined room's outcome relates to its calls. *)
Definition room_ended (t : trace) (o : outcome) : Prop :=
  (Exists transient t <-> o = Fail) /\ o <> Crash.
Lemma fine_not_transient t : Forall fine t -> ~ Exists transient t.
Proof.
  intros F H. apply Exists_exists in H as ([c o] & Hin & Hr & Ho).
  rewrite Forall_forall in F. specialize (F _ Hin Hr). cbn in *. congruence.
Qed.
Lemma ended_room t o : ended t o -> room_ended t o.
Proof.
  intros [[-> H]|(Ho & Hc & t' & c & -> & H & [Hr Hf])].
  - split; [|done]. split; [|done]. intros Hx. exfalso. by apply (fine_not_transient _ H).
  - split; [|done]. split.
    + intros Hx. apply Exists_app in Hx as [Hx|Hx]; [exfalso; by apply (fine_not_transient _ H)|].
      apply Exists_cons in Hx as [[_ Hx]|Hx]; [exact Hx|by apply Exists_nil in Hx].
    + intros ->. apply Exists_app. right. constructor. done.
Qed.

Lemma take_create_none tl : take_create tl = None -> Forall (fun e => t_create e = false) tl.
Proof.
  induction tl as [|e tl IH]; cbn; [constructor|]. destruct (t_create e) eqn:E; [done|].
  destruct (take_create tl) as [[??]|]; [done|]. intros _. constructor; [done|]. by apply IH.
Qed.

Lemma tail_plan_eq r s tl : join_plan r s tl
  = if_some s (Initialise (j_room r) s) ++ tail_plan (mk_joined (j_room r) s (j_eph r) (j_acct r) tl (j_unread r)).
Proof. done. Qed.

Lemma ephs_head room l c : In c (ephs room l) -> reports c = false.
Proof.
  unfold ephs. intros H. apply in_concat in H as (x & Hx & Hc). apply in_map_iff in Hx as (e & <- & _).
  destruct e; cbn in Hc; [destruct Hc as [<-|[]]|destruct Hc as [<-|[]]|done]; done.
Qed.

Lemma follows_in plan t x : follows plan t -> In x t -> In x.1 plan.
Proof.
  intros [[<- _]|(d & c & o & rest & -> & -> & _ & _)] H.
  - by apply in_map.
  - apply in_app_or in H as [H|[<-|[]]]; apply in_or_app; [left; by apply in_map|right; by left].
Qed.
Lemma tail_no_init r t a b : follows (tail_plan r) t -> head t <> Some (Initialise a b, Data).
Proof.
  intros H Hh. destruct t as [|x t]; [done|]. inversion Hh; subst.
  apply (follows_in _ _ (Initialise a b, Data)) in H; [|by left]. cbn [fst] in H. unfold tail_plan in H.
  repeat (apply in_app_or in H as [H|H]).
  - apply ephs_head in H. done.
  - destruct (decide (j_acct r = 0)); [done|]. destruct H as [H|[]]. done.
  - destruct (j_tl r); [done|]. destruct H as [H|[]]. done.
  - destruct (j_unread r); [|done]. destruct H as [H|[]]. done.
Qed.

Lemma join_room_spec env tr r tr' o :
  join_room env tr r = Some (tr', o) ->
  exists t, tr' = tr ++ t /\ join_done r t /\ room_ended t o.
Proof.
  unfold join_room. destruct (j_state r) as [|x evs] eqn:Es.
  { intros H. apply after_state_spec in H as (t & -> & Hf & He). exists t. split; [done|].
    split; [|by apply ended_room]. left. rewrite Es. split; [exact Hf|]. intros Hh.
    exfalso. by apply (tail_no_init _ _ _ _ Hf Hh). }
  destruct (make env tr _) as [[tr1 o1]|] eqn:E1; [|done]. apply one_spec in E1 as [-> H1]; [|done].
  destruct o1.
  - intros H. apply after_state_spec in H as (t & -> & Hf & He). eexists. split; [by rewrite <- app_assoc|].
    split.
    + left. rewrite Es. split; [|done]. rewrite tail_plan_eq.
      apply follows_app; [done|by repeat constructor|]. exact Hf.
    + apply ended_room. apply ended_ok_app; [by repeat constructor|done].
  - destruct (take_create (j_tl r)) as [[c tl]|] eqn:Ec.
    + apply take_create_spec in Ec as (a & b & Etl & -> & Hc & Ha).
      destruct (make env _ _) as [[tr2 o2]|] eqn:E2; [|done]. apply one_spec in E2 as [-> H2]; [|done].
      intros H. assert (Hgoal : exists t, tr' = ((tr ++ [(Initialise (j_room r) (x :: evs), Data)])) ++ t
        /\ follows (join_plan r (c :: x :: evs) (a ++ b)) t /\ ended t o).
      { destruct H2 as [[-> Hf2]|(Ho & Hf2 & Hcr)].
        - apply after_state_spec in H as (t & -> & Hf & He). eexists. split; [by rewrite <- app_assoc|]. split.
          + rewrite tail_plan_eq. apply follows_app; [done|by repeat constructor|]. exact Hf.
          + apply ended_ok_app; [by repeat constructor|done].
        - assert (E : tr' = (tr ++ [(Initialise (j_room r) (x :: evs), Data)])
             ++ [(Initialise (j_room r) (c :: x :: evs), o2)] /\ o = o2) by (by destruct o2; inversion H; subst).
          destruct E as [-> ->]. eexists. split; [done|]. split.
          + rewrite tail_plan_eq. apply (follows_stop [] []); [done|constructor|done].
          + apply (ended_stop []); [constructor|done..]. }
      destruct Hgoal as (t & -> & Hf & He). exists ((Initialise (j_room r) (x :: evs), Data) :: t).
      split; [by rewrite <- app_assoc|]. split.
      * right. exists a, c, b, t. rewrite Es. done.
      * apply ended_room in He as [Hx Hne]. split; [|done]. rewrite <- Hx. rewrite Exists_cons. split.
        -- intros [[_ H3]|H3]; [done|done].
        -- by right.
    + intros [= <- <-]. eexists. split; [done|]. split.
      * left. rewrite Es. split; [|intros _; by apply take_create_none]. rewrite tail_plan_eq.
        destruct H1 as [[]|(_ & Hf & _)]; [done|]. apply (follows_stop [] []); [done|constructor|done].
      * destruct H1 as [[]|(_ & Hf & _)]; [done|]. apply ended_room. apply (ended_stop []); [constructor|done..].
  - intros [= <- <-]. destruct H1 as [[]|(_ & Hf & _)]; [done|]. eexists. split; [done|]. split.
    + left. rewrite Es. split; [|done]. apply (follows_stop [] []); [done|constructor|done].
    + apply ended_room. apply (ended_stop []); [constructor|done..].
  - intros [= <- <-]. destruct H1 as [[]|(_ & Hf & _)]; [done|]. eexists. split; [done|]. split.
    + left. rewrite Es. split; [|done]. apply (follows_stop [] []); [done|constructor|done].
    + apply ended_room. apply (ended_stop []); [constructor|done..].
  - intros [= <- <-]. destruct H1 as [[]|(_ & Hf & Hcr)]; done.
Qed.

Lemma last_spec env tr c tr' o :
  reports c = true -> make env tr c = Some (tr', o) ->
  exists t, tr' = tr ++ t /\ follows [c] t /\ ended t o.
Proof.
  intros Hr H. apply one_spec in H as [-> [[-> Hf]|(Ho & Hf & Hcr)]]; [| |done]; eexists; (split; [done|]).
  - split; left; (split; [done|]); by repeat constructor.
  - split; [apply (follows_stop [] []); [done|constructor|done]|apply (ended_stop []); [constructor|done..]].
Qed.

Lemma leave_room_spec env tr r tr' o :
  leave_room env tr r = Some (tr', o) ->
  exists t, tr' = tr ++ t /\ leave_done r t /\ room_ended t o.
Proof.
  unfold leave_room, leave_done. destruct (l_tl r) as [|x tl].
  { cbn. intros [= <- <-]. exists []. rewrite app_nil_r. split; [done|]. split; [apply follows_nil|].
    apply ended_room. left. split; [done|constructor]. }
  remember (x :: tl) as l eqn:El.
  replace (if_some l (Accumulate (l_room r) l)) with [Accumulate (l_room r) l] by (by rewrite El).
  destruct (make env tr _) as [[tr1 o1]|] eqn:E1; [|done]. apply one_spec in E1 as [-> H1]; [|done].
  destruct H1 as [[-> Hf1]|(Ho & Hf1 & Hcr)].
  - destruct (List.find t_leave l) as [e|].
    + intros H. apply last_spec in H as (t & -> & Hf & He); [|done]. eexists. split; [by rewrite <- app_assoc|].
      split; [apply follows_app; [done|by repeat constructor|done]|].
      apply ended_room. apply ended_ok_app; [by repeat constructor|done].
    + intros [= <- <-]. eexists. split; [done|]. split; [left; split; [done|by repeat constructor]|].
      apply ended_room. left. split; [done|by repeat constructor].
  - intros H. assert (E : tr' = tr ++ [(Accumulate (l_room r) l, o1)] /\ o = o1) by (by destruct o1; inversion H; subst).
    destruct E as [-> ->]. eexists. split; [done|]. split; [apply (follows_stop [] []); [done|constructor|done]|].
    apply ended_room. apply (ended_stop []); [constructor|done..].
Qed.

Lemma invite_spec env tr room tr' o :
  make env tr (OnInvite room) = Some (tr', o) ->
  exists t, tr' = tr ++ t /\ invite_done room t /\ room_ended t o.
Proof.
  intros H. apply last_spec in H as (t & -> & Hf & He); [|reflexivity]. exists t. split; [reflexivity|].
  split; [exact Hf|]. by apply ended_room.
Qed.

Global Instance outcome_dec : EqDecision outcome.
Proof. solve_decision. Defined.

(** The loops. *)
Definition errs_ok (errs : list outcome) : Prop := Forall (fun o => o <> Ok /\ o <> Crash) errs.
Lemma each_spec {A} (f : trace -> A -> option (trace * outcome)) (P : A -> trace -> Prop) (l : list A) :
  (forall tr x tr' o, f tr x = Some (tr', o) -> exists t, tr' = tr ++ t /\ P x t /\ room_ended t o) ->
  forall tr errs tr' errs', each f tr errs l = Some (tr', errs') ->
  exists ts more, tr' = tr ++ concat ts /\ Forall2 P l ts /\ errs' = errs ++ more
    /\ errs_ok more /\ (Exists transient (concat ts) <-> In Fail more).
Proof.
  intros Hf. induction l as [|x l IH]; intros tr errs tr' errs' H; cbn [each] in H.
  { inversion H; subst. exists [], []. rewrite !app_nil_r. repeat split; try constructor; try done.
    intros Hx. by apply Exists_nil in Hx. }
  destruct (f tr x) as [[tr1 o]|] eqn:E; [|done]. apply Hf in E as (t & -> & HP & Hx & Hc).
  assert (Hgen : forall add, (o = Ok -> add = []) -> (o <> Ok -> add = [o]) ->
     each f (tr ++ t) (errs ++ add) l = Some (tr', errs') -> exists ts more, tr' = tr ++ concat ts
       /\ Forall2 P (x :: l) ts /\ errs' = errs ++ more
    /\ errs_ok more /\ (Exists transient (concat ts) <-> In Fail more)).
  { intros add Ha1 Ha2 H'. apply IH in H' as (ts & more & -> & HF & -> & Hok & Hiff).
    exists (t :: ts), (add ++ more). cbn [concat]. rewrite !app_assoc. split; [done|]. split; [by constructor|].
    split; [done|]. split.
    - apply Forall_app. split; [|done]. destruct (decide (o = Ok)) as [Ho|Ho]; [rewrite Ha1 by done; constructor|].
      rewrite Ha2 by done. by repeat constructor.
    - rewrite Exists_app, Hx, Hiff, in_app_iff. destruct (decide (o = Ok)) as [Ho|Ho].
      + rewrite Ha1 by done. subst. cbn. naive_solver.
      + rewrite Ha2 by done. cbn. naive_solver. }
  destruct o; [apply (Hgen []); [done|done|by rewrite app_nil_r]|eapply Hgen; [| |exact H]; done..].
Qed.

Lemma joined_error_spec errs : errs_ok errs ->
  (shouldRetry (joined_error errs) = true <-> In Fail errs).
Proof.
  intros Hok. destruct errs as [|e [|e' errs]].
  - done.
  - cbn. destruct e; cbn; naive_solver.
  - unfold joined_error. destruct (List.filter shouldRetry (e :: e' :: errs)) as [|z zs] eqn:E.
    + split; [done|]. intros Hin. exfalso.
      assert (In Fail (List.filter shouldRetry (e :: e' :: errs))) as H by (apply filter_In; done).
      rewrite E in H. done.
    + split; [|done]. intros _.
      assert (In z (List.filter shouldRetry (e :: e' :: errs))) as H by (rewrite E; by left).
      apply filter_In in H as [Hin Hz]. by destruct z.
Qed.

Lemma rooms_spec env tr res tr' o :
  parseRoomsResponse env tr res = Some (tr', o) ->
  exists t, tr' = tr ++ t /\ rooms_done res t /\ (shouldRetry o = true <-> Exists transient t).
Proof.
  unfold parseRoomsResponse.
  destruct (each (join_room env) tr [] (r_join res)) as [[tr1 errs1]|] eqn:E1; [|done].
  apply (each_spec _ join_done) in E1 as (jt & m1 & -> & F1 & -> & O1 & I1);
    [|intros; by eapply join_room_spec].
  destruct (each (leave_room env) _ _ _) as [[tr2 errs2]|] eqn:E2; [|done].
  apply (each_spec _ leave_done) in E2 as (lt & m2 & -> & F2 & -> & O2 & I2);
    [|intros; by eapply leave_room_spec].
  destruct (each _ _ _ (r_invite res)) as [[tr3 errs3]|] eqn:E3; [|done].
  apply (each_spec _ invite_done) in E3 as (it & m3 & -> & F3 & -> & O3 & I3);
    [|intros; by eapply invite_spec].
  intros [= <- <-]. exists (concat jt ++ concat lt ++ concat it).
  split; [by rewrite <- !app_assoc|]. split; [by exists jt, lt, it|].
  rewrite joined_error_spec by (apply Forall_app_2; [apply Forall_app_2|]; done).
  rewrite !Exists_app, I1, I2, I3, !in_app_iff. cbn. tauto.
Qed.
