(** Lemmas about the loop of a poller. *)
From Verif Require Import Prelude PloopModel PloopSpec.
Open Scope string_scope. Open Scope list_scope. Open Scope Z_scope.

(** Each event of [tr] is as [Q] says of what was before and it. *)
Definition every (Q : list ev -> ev -> Prop) (pre tr : list ev) : Prop :=
  forall a e b, tr = a ++ e :: b -> Q (pre ++ a) e.

Lemma every_nil Q pre : every Q pre [].
Proof. intros a e b E. destruct a; discriminate. Qed.
Lemma every_cons Q pre e tr : every Q pre (e :: tr) <-> Q pre e /\ every Q (pre ++ [e]) tr.
Proof.
  split.
  - intros H. split.
    + specialize (H [] e tr eq_refl). rewrite app_nil_r in H. exact H.
    + intros a e' b ->. specialize (H (e :: a) e' b eq_refl). rewrite <- app_assoc. exact H.
  - intros [H1 H2] a e' b E. destruct a as [|x a]; cbn in E; injection E as -> E.
    + rewrite app_nil_r. exact H1.
    + specialize (H2 a e' b E). rewrite <- app_assoc in H2. exact H2.
Qed.
Lemma every_app Q tr1 : forall pre tr2, every Q pre (tr1 ++ tr2) <-> every Q pre tr1 /\ every Q (pre ++ tr1) tr2.
Proof.
  induction tr1 as [|e tr1 IH]; intros pre tr2; cbn [app].
  - rewrite app_nil_r. split; [intros H; split; [apply every_nil | exact H] | intros [_ H]; exact H].
  - rewrite !every_cons, IH. rewrite <- app_assoc. cbn [app]. tauto.
Qed.
Lemma every_take Q pre tr k : every Q pre tr -> every Q pre (take k tr).
Proof. intros H. rewrite <- (take_drop k tr), every_app in H. exact (proj1 H). Qed.

(** To show something of every event of a loop. *)
Lemma loop_every (Q : list ev -> ev -> Prop) (Inv : list ev -> ploop -> Prop) :
  (forall pre s n s' evs x, Inv pre s -> p_term s || n_stop0 n = false -> poll s n = (s', evs, x) ->
     every Q pre evs /\ match x with
                        | Again => Inv (pre ++ evs) s'
                        | Halt => every Q (pre ++ evs) (finish s')
                        | Panics => Q (pre ++ evs) Terminates
                        end) ->
  (forall pre s, Inv pre s -> every Q pre (finish s)) ->
  forall l pre s, Inv pre s -> every Q pre (loop s l).1.
Proof.
  intros Hstep Hfin l. induction l as [|n l IH]; intros pre s Hi; cbn [loop]; [apply every_nil|].
  destruct (p_term s || n_stop0 n) eqn:Et; [exact (Hfin pre s Hi)|].
  destruct (poll s n) as [[s' evs] x] eqn:Ep. destruct (Hstep _ _ _ _ _ _ Hi Et Ep) as [He Hx]. destruct x.
  - specialize (IH _ _ Hx). destruct (loop s' l) as [more r]. cbn in *. apply every_app. split; assumption.
  - cbn. apply every_app. split; assumption.
  - cbn. apply every_app. split; [exact He|]. apply every_cons. split; [exact Hx | apply every_nil].
Qed.

(** The sections that were handled. *)
Lemma sections_spec l f a evs x : sections l f a = (evs, x) ->
  exists done, evs = map (fun y => Handles y (outcome_in f a y) a) done /\
    match x with
    | Again => done = l /\ Forall (fun y => for_good (outcome_in f a y)) l
    | Halt => exists before y rest, l = before ++ y :: rest /\ done = before ++ [y] /\ Forall (fun y => for_good (outcome_in f a y)) before /\ outcome_in f a y = Retry
    | Panics => exists before y rest, l = before ++ y :: rest /\ done = before ++ [y] /\ Forall (fun y => for_good (outcome_in f a y)) before /\ outcome_in f a y = Panic
    end.
Proof.
  revert evs x. induction l as [|y l IH]; intros evs x E.
  - cbn in E. injection E as <- <-. exists []. split; [reflexivity|]. split; [reflexivity | constructor].
  - cbn [sections] in E. destruct (outcome_in f a y) eqn:Eo.
    + destruct (sections l f a) as [evs' x'] eqn:Es. injection E as <- <-. destruct (IH _ _ eq_refl) as (done & -> & Hx).
      exists (y :: done). split; [cbn [map]; rewrite Eo; reflexivity|]. destruct x'.
      * destruct Hx as [-> Hx]. split; [reflexivity|]. constructor; [left; exact Eo | exact Hx].
      * destruct Hx as (b & z & r & -> & -> & Hb & Ez). exists (y :: b), z, r. split; [reflexivity|]. split; [reflexivity|]. split; [|exact Ez]. constructor; [left; exact Eo | exact Hb].
      * destruct Hx as (b & z & r & -> & -> & Hb & Ez). exists (y :: b), z, r. split; [reflexivity|]. split; [reflexivity|]. split; [|exact Ez]. constructor; [left; exact Eo | exact Hb].
    + injection E as <- <-. exists [y]. split; [cbn [map]; rewrite Eo; reflexivity|]. exists [], y, l. split; [reflexivity|]. split; [reflexivity|]. split; [constructor | exact Eo].
    + destruct (sections l f a) as [evs' x'] eqn:Es. injection E as <- <-. destruct (IH _ _ eq_refl) as (done & -> & Hx).
      exists (y :: done). split; [cbn [map]; rewrite Eo; reflexivity|]. destruct x'.
      * destruct Hx as [-> Hx]. split; [reflexivity|]. constructor; [right; exact Eo | exact Hx].
      * destruct Hx as (b & z & r & -> & -> & Hb & Ez). exists (y :: b), z, r. split; [reflexivity|]. split; [reflexivity|]. split; [|exact Ez]. constructor; [right; exact Eo | exact Hb].
      * destruct Hx as (b & z & r & -> & -> & Hb & Ez). exists (y :: b), z, r. split; [reflexivity|]. split; [reflexivity|]. split; [|exact Ez]. constructor; [right; exact Eo | exact Hb].
    + injection E as <- <-. exists [y]. split; [cbn [map]; rewrite Eo; reflexivity|]. exists [], y, l. split; [reflexivity|]. split; [reflexivity|]. split; [constructor | exact Eo].
Qed.

(** The events of handling some of the sections. *)
Inductive handling (a : answer) : list ev -> next -> Prop :=
| H_all o1 o2 o3 o4 : for_good o1 -> for_good o2 -> for_good o3 -> for_good o4 ->
    handling a [Handles E2EE o1 a; Handles Account o2 a; Handles Rooms o3 a; Handles ToDevice o4 a] Again
| H_1 o1 x : (o1 = Retry /\ x = Halt \/ o1 = Panic /\ x = Panics) -> handling a [Handles E2EE o1 a] x
| H_2 o1 o2 x : for_good o1 -> (o2 = Retry /\ x = Halt \/ o2 = Panic /\ x = Panics) -> handling a [Handles E2EE o1 a; Handles Account o2 a] x
| H_3 o1 o2 o3 x : for_good o1 -> for_good o2 -> (o3 = Retry /\ x = Halt \/ o3 = Panic /\ x = Panics) ->
    handling a [Handles E2EE o1 a; Handles Account o2 a; Handles Rooms o3 a] x
| H_4 o1 o2 o3 o4 x : for_good o1 -> for_good o2 -> for_good o3 -> a_msgs a <> [] -> (o4 = Retry /\ x = Halt \/ o4 = Panic /\ x = Panics) ->
    handling a [Handles E2EE o1 a; Handles Account o2 a; Handles Rooms o3 a; Handles ToDevice o4 a] x.

Lemma sections_handling f a evs x : sections all_sections f a = (evs, x) -> handling a evs x.
Proof.
  unfold all_sections. cbn [sections].
  assert (G : forall o, o = Fine \/ o = Retry \/ o = BadData \/ o = Panic) by (intros []; auto).
  destruct (outcome_in f a E2EE) eqn:E1; [|intros E; injection E as <- <-; apply H_1; auto| |intros E; injection E as <- <-; apply H_1; auto];
  (destruct (outcome_in f a Account) eqn:E2; [|intros E; injection E as <- <-; apply H_2; unfold for_good; auto| |intros E; injection E as <- <-; apply H_2; unfold for_good; auto]);
  (destruct (outcome_in f a Rooms) eqn:E3; [|intros E; injection E as <- <-; apply H_3; unfold for_good; auto| |intros E; injection E as <- <-; apply H_3; unfold for_good; auto]);
  (destruct (outcome_in f a ToDevice) eqn:E4; intros E; injection E as <- <-;
    [apply H_all; unfold for_good; auto | apply H_4; unfold for_good; auto; intros Em; unfold outcome_in in E4; rewrite Em in E4; discriminate
    | apply H_all; unfold for_good; auto | apply H_4; unfold for_good; auto; intros Em; unfold outcome_in in E4; rewrite Em in E4; discriminate]).
Qed.

(** What a round can do. *)
Definition woken (s : ploop) : list ev := if (0 <? p_fails s)%nat then [Sleeps 3000] else [].
Definition asking (s : ploop) : ev := Asks (p_since s) (p_first s) (p_tdonly s).
Inductive rounds (s : ploop) : ploop -> list ev -> next -> Prop :=
| R_worn s' : (1000 < p_fails s)%nat -> p_first s' = p_first s -> rounds s s' [Expires] Halt
| R_stopped s' : (p_fails s <= 1000)%nat -> p_first s' = p_first s -> rounds s s' (woken s) Halt
| R_stopped2 s' : (p_fails s <= 1000)%nat -> p_first s' = p_first s -> rounds s s' (woken s ++ [asking s]) Halt
| R_refused s' code : (p_fails s <= 1000)%nat -> p_first s' = p_first s -> code = 401 \/ code = 403 ->
    rounds s s' (woken s ++ [asking s; Fails code; Expires]) Halt
| R_error now code : (p_fails s <= 1000)%nat -> code <> 401 -> code <> 403 ->
    rounds s (mk_ploop (p_first s) (S (p_fails s)) (p_since s) (p_stored s) false (p_tdonly s) now) (woken s ++ [asking s; Fails code]) Again
| R_panic s' a evs : (p_fails s <= 1000)%nat -> handling a evs Panics ->
    rounds s s' (woken s ++ asking s :: Gets a :: evs) Panics
| R_retry now a evs : (p_fails s <= 1000)%nat -> handling a evs Halt ->
    rounds s (mk_ploop (p_first s) 1 (p_since s) (p_stored s) false false now) (woken s ++ asking s :: Gets a :: evs) Again
| R_done now a evs save ok : (p_fails s <= 1000)%nat -> handling a evs Again ->
    save = (match p_stored s with Some t => 60000 <? now - t | None => true end || (0 <? length (a_msgs a))%nat) ->
    rounds s (mk_ploop false 0 (a_next a) (if save : bool then Some now else p_stored s) false false now)
      (woken s ++ asking s :: Gets a :: evs ++ Advances (a_next a) now :: (if save then [Saves (a_next a) now ok] else []) ++ (if p_first s then [Releases] else [])) Again.

Lemma poll_rounds s n s' evs x : p_term s || n_stop0 n = false -> poll s n = (s', evs, x) -> rounds s s' evs x.
Proof.
  intros Ht. apply orb_false_iff in Ht. destruct Ht as [Ht _]. unfold poll. rewrite Ht.
  destruct ((0 <? p_fails s)%nat && (1000 <? p_fails s)%nat) eqn:Ew.
  { intros E. injection E as <- <- <-. apply andb_true_iff in Ew. apply R_worn; [apply Nat.ltb_lt; exact (proj2 Ew) | reflexivity]. }
  assert (Hle : (p_fails s <= 1000)%nat).
  { apply andb_false_iff in Ew. destruct Ew as [E | E]; apply Nat.ltb_ge in E; lia. }
  fold (woken s). fold (asking s). cbn [orb].
  destruct (n_stop1 n). { intros E. injection E as <- <- <-. apply R_stopped; [exact Hle | reflexivity]. }
  destruct (n_stop2 n). { intros E. injection E as <- <- <-. apply R_stopped2; [exact Hle | reflexivity]. }
  unfold got. cbn [p_first p_fails p_since p_stored p_term p_tdonly p_now].
  destruct (n_http n) as [code | a].
  - destruct ((code =? 401) || (code =? 403)) eqn:Ec.
    + intros E. injection E as <- <- <-. rewrite <- app_assoc. apply R_refused; [exact Hle | reflexivity|].
      apply orb_true_iff in Ec. destruct Ec as [Ec | Ec]; apply Z.eqb_eq in Ec; auto.
    + intros E. injection E as <- <- <-. rewrite <- app_assoc. apply orb_false_iff in Ec. destruct Ec as [E1 E2].
      apply R_error; [exact Hle | apply Z.eqb_neq; exact E1 | apply Z.eqb_neq; exact E2].
  - destruct (sections all_sections (n_outcome n) a) as [evs0 x0] eqn:Es. apply sections_handling in Es. destruct x0.
    + unfold advance. cbn [p_first p_fails p_since p_stored p_term p_tdonly p_now].
      intros E. injection E as <- <- <-. rewrite <- app_assoc. cbn [app]. apply R_done; [exact Hle | exact Es | reflexivity].
    + intros E. injection E as <- <- <-. rewrite <- app_assoc. apply R_retry; [exact Hle | exact Es].
    + intros E. injection E as <- <- <-. rewrite <- app_assoc. apply R_panic; [exact Hle | exact Es].
Qed.

Lemma position_app p a b : position p (a ++ b) = position (position p a) b.
Proof. revert p. induction a as [|e a IH]; intros p; [reflexivity|]. destruct e; cbn; apply IH. Qed.
Lemma stored_app a b : stored (a ++ b) = stored a ++ stored b.
Proof.
  induction a as [|e a IH]; [reflexivity|]. destruct e as [| | | |x o an| | | | |]; cbn; try exact IH.
  destruct x, o; try exact IH. rewrite IH, app_assoc. reflexivity.
Qed.
Lemma saved_app p a b : saved p (a ++ b) = saved (saved p a) b.
Proof. revert p. induction a as [|e a IH]; intros p; [reflexivity|]. destruct e as [| | | | | |s t []| | |]; cbn; apply IH. Qed.
Lemma acked_app pos a b : acked pos (a ++ b) = Nat.max (acked pos a) (acked pos b).
Proof. induction a as [|e a IH]; [reflexivity|]. destruct e; cbn; rewrite ?IH; lia. Qed.
