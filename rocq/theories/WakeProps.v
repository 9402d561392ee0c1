(** C99: a request is answered as soon as there is something to tell. *)
From Verif Require Import Prelude RangeModel OpsModel RoomNameModel ListsModel LiveListModel RequestModel ExtModel ReceiptModel DeviceModel LoopModel LoopProofs WakeModel WakeSpec.
From Verif Require LoopProps.
Open Scope string_scope.
Open Scope list_scope.
Open Scope Z_scope.

(** ** What is enough *)
Lemma list_count_le (l : list (string * resp_list)) : forall n,
  n <= fold_left (fun n (l : string * resp_list) =>
    if 0 <? Z.of_nat (length (p_ops l.2)) then n + Z.of_nat (length (p_ops l.2)) else n) l n.
Proof.
  induction l as [|[k x] l IH]; intros n; cbn [fold_left]; [lia|]. etransitivity; [|apply IH].
  cbn. destruct (Z.ltb_spec 0 (Z.of_nat (length (p_ops x)))); lia.
Qed.
Lemma list_count_pos (l : list (string * resp_list)) : forall n, 0 <= n ->
  (0 < fold_left (fun n (l : string * resp_list) =>
    if 0 <? Z.of_nat (length (p_ops l.2)) then n + Z.of_nat (length (p_ops l.2)) else n) l n <->
  0 < n \/ exists k x o, (k, x) ∈ l /\ o ∈ p_ops x).
Proof.
  induction l as [|[k x] l IH]; intros n Hn; cbn [fold_left].
  { split; [by left|]. intros [H|(k & x & o & H & _)]; [done|by apply elem_of_nil in H]. }
  rewrite IH by (cbn; destruct (Z.ltb_spec 0 (Z.of_nat (length (p_ops x)))); lia).
  cbn [snd]. destruct (p_ops x) as [|o os] eqn:E; cbn [length].
  - cbn. split.
    + intros [H|(k1 & x1 & o & H1 & H2)]; [by left|]. right. exists k1, x1, o. split; [by right|done].
    + intros [H|(k1 & x1 & o & H1 & H2)]; [by left|]. apply elem_of_cons in H1 as [[= -> ->]|H1].
      * rewrite E in H2. by apply elem_of_nil in H2.
      * right. by exists k1, x1, o.
  - destruct (Z.ltb_spec 0 (Z.of_nat (S (length os)))); [|lia]. split; intros _; [|left; lia].
    right. exists k, x, o. rewrite E. split; by left.
Qed.
Lemma ops_tell r : list_count r <> 0 <-> exists key l o, p_lists r !! key = Some l /\ o ∈ p_ops l.
Proof.
  pose proof (list_count_le (map_to_list (p_lists r)) 0) as Hle. pose proof (list_count_pos (map_to_list (p_lists r)) 0 ltac:(lia)) as H.
  fold (list_count r) in Hle, H. split.
  - intros Hne. destruct (proj1 H ltac:(lia)) as [?|(k & x & o & H1 & H2)]; [lia|]. exists k, x, o. by apply elem_of_map_to_list in H1.
  - intros (k & x & o & H1 & H2). assert (0 < list_count r); [|lia]. apply H. right. exists k, x, o. by rewrite elem_of_map_to_list.
Qed.
Lemma size_some {A} (m : gmap string A) : (0 <? Z.of_nat (size m)) = true <-> exists x d, m !! x = Some d.
Proof.
  rewrite Z.ltb_lt. split.
  - intros H. destruct (map_choose m) as (x & d & Hx); [|by exists x, d]. intros ->. rewrite map_size_empty in H. lia.
  - intros (x & d & Hx). destruct (decide (size m = 0%nat)) as [H|H]; [|lia].
    apply map_size_empty_inv in H. subst m. by rewrite lookup_empty in Hx.
Qed.
Lemma length_some {A} (l : list A) : (0 <? Z.of_nat (length l)) = true <-> exists x, x ∈ l.
Proof.
  rewrite Z.ltb_lt. destruct l as [|x l]; cbn; split; [lia|intros [x H]; by apply elem_of_nil in H|intros _; exists x; by left|lia].
Qed.
Lemma e2ee_tells e : HasData false e = true <->
  (exists l, x_lists e = Some l) \/ (exists l, x_fallback e = Some l) \/ exists m k n, x_otk e = Some m /\ m !! k = Some n.
Proof.
  unfold HasData. rewrite !orb_true_iff, !bool_decide_eq_true, negb_true_iff, bool_decide_eq_false. split.
  - intros [[[l H]|[l H]]|H]; [left; by exists l|right; left; by exists l|]. right. right.
    destruct (x_otk e) as [m|]; [|by destruct H]. cbn in H. destruct (map_choose m) as (k & n & Hk); [|by exists m, k, n].
    intros ->. by destruct H.
  - intros [[l H]|[[l H]|(m & k & n & H1 & H2)]]; [left; left; by exists l|left; right; by exists l|]. right. rewrite H1. cbn.
    intros H. apply map_size_empty_inv in H. subst m. by rewrite lookup_empty in H2.
Qed.

Lemma ext_tells r : ext_data false r = true <->
  (exists t m, p_todevice r = Some t /\ m ∈ t_events t) \/
  (exists e, p_e2ee r = Some e /\ ((exists l, x_lists e = Some l) \/ (exists l, x_fallback e = Some l) \/ exists m k n, x_otk e = Some m /\ m !! k = Some n)) \/
  (exists a, p_acct r = Some a /\ ((exists x d, a_rooms a !! x = Some d) \/ exists d, d ∈ a_global a)) \/
  (exists m, p_typing r = Some m /\ exists x d, m !! x = Some d) \/
  (exists m, p_receipts r = Some m /\ exists x d, m !! x = Some d).
Proof.
  unfold ext_data. cbn [existsb id]. rewrite !orb_true_iff. unfold td_data, acct_data, rooms_data.
  destruct (p_todevice r) as [t|]; destruct (p_e2ee r) as [e|]; destruct (p_acct r) as [a|]; destruct (p_typing r) as [ty|]; destruct (p_receipts r) as [rc|];
    rewrite ?e2ee_tells, ?orb_true_iff, ?length_some, ?size_some;
    (split; [intros [H|[H|[H|[H|[H|H]]]]]; try discriminate H; naive_solver|intros [(?&?&?&?)|[(?&?&?)|[(?&?&?)|[(?&?&?)|(?&?&?)]]]]; try discriminate; simplify_eq; naive_solver]).
Qed.

(** C99. A request after the first does not wait exactly if its response tells something. *)
Theorem C99_enough r : enough (false, r) = true <-> tells r.
Proof.
  unfold enough. cbn [fst snd]. rewrite !negb_andb, negb_involutive, !orb_true_iff, !negb_true_iff, !Z.eqb_neq, ops_tell, ext_tells.
  assert (Hs : Z.of_nat (size (p_rooms r)) <> 0 <-> exists x d, p_rooms r !! x = Some d) by (rewrite <-size_some, Z.ltb_lt; lia).
  rewrite Hs. split.
  - intros [[(k & l & o & H1 & H2)|(x & d & H)]|[(t & m & H1 & H2)|[(e & H1 & [[l H]|[[l H]|(m & k & n & H & H')]])|[(a & H1 & [(x & d & H)|[d H]])|[(m & H1 & x & d & H)|(m & H1 & x & d & H)]]]]].
    + by eapply tells_op. + by eapply tells_room. + by eapply tells_message. + by eapply tells_devices. + by eapply tells_fallback.
    + by eapply tells_keys. + by eapply tells_room_data. + by eapply tells_data. + by eapply tells_typing. + by eapply tells_receipts.
  - intros [key l o H1 H2|x d H|t m H1 H2|e l H1 H|e l H1 H|e m k n H1 H H'|a d H1 H|a x d H1 H|m x d H1 H|m x d H1 H].
    + left; left. by exists key, l, o. + left; right. by exists x, d. + right. left. by exists t, m.
    + right. right. left. exists e. split; [done|]. left. by exists l.
    + right. right. left. exists e. split; [done|]. right. left. by exists l.
    + right. right. left. exists e. split; [done|]. right. right. by exists m, k, n.
    + do 3 right. left. exists a. split; [done|]. right. by exists d.
    + do 3 right. left. exists a. split; [done|]. left. by exists x, d.
    + do 4 right. left. exists m. split; [done|]. by exists x, d.
    + do 5 right. exists m. split; [done|]. by exists x, d.
Qed.

(** C99. The first request of a connection does not wait either if one of the extensions
    answers it at all. *)
Theorem C99_enough_first r : enough (true, r) = true <-> tells r \/ opens r.
Proof.
  assert (Hext : ext_data true r = true <-> (exists t m, p_todevice r = Some t /\ m ∈ t_events t) \/ opens r).
  { unfold ext_data, opens. cbn [existsb id HasData]. unfold td_data, acct_data, rooms_data. rewrite !orb_true_iff.
    destruct (p_todevice r) as [t|]; destruct (p_e2ee r) as [e|]; destruct (p_acct r) as [a|]; destruct (p_typing r) as [ty|]; destruct (p_receipts r) as [rc|];
      rewrite ?length_some; unfold is_Some; (split; [intros H; naive_solver|intros [(?&?&?&?)|H]; naive_solver]). }
  split.
  - intros H. destruct (enough (false, r)) eqn:E; [left; by apply C99_enough|]. unfold enough in *. cbn [fst snd] in *.
    destruct ((list_count r =? 0) && (Z.of_nat (size (p_rooms r)) =? 0)); [|done]. cbn in E, H. rewrite negb_involutive in H. apply Hext in H as [(t & m & H1 & H2)|H]; [left; by eapply tells_message|by right].
  - intros [H|H].
    + apply C99_enough in H. unfold enough in *. cbn [fst snd] in *.
      destruct ((list_count r =? 0) && (Z.of_nat (size (p_rooms r)) =? 0)); [|done]. cbn in *. rewrite negb_involutive in *.
      apply Hext. apply ext_tells in H as [H|[(e & H & _)|[(a & H & _)|[(m & H & _)|(m & H & _)]]]]; [by left| | | |]; right; unfold opens; rewrite H; eauto.
    + unfold enough. cbn [fst snd]. assert (Hd : ext_data true r = true) by (apply Hext; by right). by rewrite Hd, andb_false_r.
Qed.

(** ** Waiting, whatever updates do to responses *)
Section wake.
  Context {A : Type}.
  Variable proc : A -> bool * resp -> bool * resp.
  Variable cap : nat.
  Variable wait : Z.
  Notation do := (do proc enough cap wait).
  Notation runs := (runs proc enough cap wait).
  Notation st := (@st A (bool * resp)).

  (** C99. A request that waits has nothing to tell so far, nor has one that ended because
      its time was up. *)
  Theorem C99_waits_with_nothing l (s : st) r t :
    runs l st0 = Some s -> req s = Some r -> r_place r = Select t -> ~ tells (r_resp r).2.
  Proof.
    intros H Hr Hp. destruct (LoopProps.C72_waits proc enough cap wait l s r t H Hr Hp) as [He _]. intros Ht.
    assert (enough (r_resp r) = true); [|congruence]. destruct (r_resp r) as [[|] x]; [apply C99_enough_first; by left|by apply C99_enough].
  Qed.
  Theorem C99_timed_out_with_nothing l (s : st) e :
    runs l st0 = Some s -> In e (results s) -> e_why e = TimedOut -> ~ tells (r_resp (e_req e)).2.
  Proof.
    intros H Hi Hw. pose proof (LoopProps.C72_ends proc enough cap wait l s e H Hi) as He. rewrite Hw in He. destruct He as [He _]. intros Ht.
    assert (enough (r_resp (e_req e)) = true); [|congruence].
    destruct (r_resp (e_req e)) as [[|] x]; [apply C99_enough_first; by left|by apply C99_enough].
  Qed.

  (** The request and its results: if there was something to tell at first, it does not wait. *)
  Definition prompt (s : st) : Prop :=
    (forall r, req s = Some r -> enough (r_first r) = true ->
       match r_place r with Loop => r_resp r = r_first r | Select _ | Inner => False | After | Catch _ => True end) /\
    (forall e, In e (results s) -> enough (r_first (e_req e)) = true -> e_why e = Data).
  Lemma prompt_finish (s : st) r w : prompt s -> req s = Some r -> (enough (r_first r) = true -> w = Data) -> prompt (finish s r w).
  Proof.
    intros [_ H2] Hr Hw. split; [done|]. cbn. intros e He Hf. apply in_app_iff in He as [He|[<-|[]]]; [by apply H2|by apply Hw].
  Qed.
  Lemma prompt_set (s : st) r r' p : prompt s -> req s = Some r -> r_first r' = r_first r -> r_place r' = p ->
    (enough (r_first r) = true -> match p with Loop => r_resp r' = r_first r' | Select _ | Inner => False | After | Catch _ => True end) -> prompt (set_req s r').
  Proof.
    intros [_ H2] Hr Hf Hp H. split; [|done]. cbn. intros r0 [= <-] He. rewrite Hp. apply H. by rewrite <-Hf.
  Qed.
  Lemma prompt_consume (s : st) r p s' : prompt s -> req s = Some r -> consume proc s r p = Some s' ->
    (enough (r_first r) = true -> match p with After | Catch _ => True | _ => False end) -> prompt s'.
  Proof.
    intros [_ H2] Hr Hc H. unfold consume in Hc. destruct (receive _ _) as [[[u q] b]|]; [|done]. injection Hc as <-.
    split; [|done]. cbn. intros r0 [= <-] He. cbn in *. specialize (H He). by destruct p.
  Qed.
  Lemma prompt_do (s s' : st) x : prompt s -> do s x = Some s' -> prompt s'.
  Proof.
    intros Hp Hd. destruct x as [u|i|d| | |ini t r| | | | ]; cbn [LoopModel.do] in Hd.
    - destruct (full s); [|destruct (_ <? _)%nat]; injection Hd as <-; exact Hp.
    - destruct (blocked s !! i) as [[u t]|]; [|done]. destruct (_ <? _); [done|]. injection Hd as <-. exact Hp.
    - destruct (_ <? _); [done|]. injection Hd as <-. exact Hp.
    - destruct (req s) as [r|] eqn:Er; [|done]. injection Hd as <-. destruct Hp as [H1 H2]. split; [|done]. cbn. rewrite <-Er. exact H1.
    - destruct (full s); injection Hd as <-; exact Hp.
    - destruct (req s) as [r0|] eqn:Er; [done|]. destruct (accepted s) as [|n]; [done|]. injection Hd as <-. destruct Hp as [H1 H2].
      split; [|done]. cbn. by intros r0 [= <-] _.
    - destruct (req s) as [r|] eqn:Er; [|done]. pose proof (proj1 Hp r Er) as Hr. destruct (r_place r) as [|t| | |[|k]] eqn:Ep.
      + destruct (enough (r_resp r)) eqn:Ee.
        * injection Hd as <-. by eapply prompt_set.
        * cbn in Hd. assert (Hno : enough (r_first r) <> true) by (intros Hf; rewrite (Hr Hf) in Ee; congruence).
          destruct (_ <? _); injection Hd as <-.
          -- split; [done|]. cbn. intros e He Hf. apply in_app_iff in He as [He|[<-|[]]]; [by apply (proj2 Hp)|]. by destruct Hno.
          -- split; [|exact (proj2 Hp)]. cbn. intros r0 [= <-] Hf. by destruct Hno.
      + done.
      + destruct (_ && _).
        * eapply prompt_consume; [exact Hp|exact Er|exact Hd|]. exact Hr.
        * injection Hd as <-. eapply prompt_set; [exact Hp|exact Er|done|done|]. intros Hf. by destruct (Hr Hf).
      + destruct (_ && _ && _); injection Hd as <-.
        * eapply prompt_set; [exact Hp|exact Er|done|done|done].
        * by eapply prompt_finish.
      + injection Hd as <-. by eapply prompt_finish.
      + eapply prompt_consume; [exact Hp|exact Er|exact Hd|done].
    - destruct (req s) as [r|] eqn:Er; [|done]. pose proof (proj1 Hp r Er) as Hr. destruct (r_place r) eqn:Ep; try done.
      eapply prompt_consume; [exact Hp|exact Er|exact Hd|exact Hr].
    - destruct (req s) as [r|] eqn:Er; [|done]. pose proof (proj1 Hp r Er) as Hr. destruct (r_place r) eqn:Ep; try done. destruct (cancelled s); [|done].
      injection Hd as <-. eapply prompt_finish; [exact Hp|exact Er|]. intros Hf. by destruct (Hr Hf).
    - destruct (req s) as [r|] eqn:Er; [|done]. pose proof (proj1 Hp r Er) as Hr. destruct (r_place r) eqn:Ep; try done. destruct (_ <? _); [done|].
      injection Hd as <-. eapply prompt_finish; [exact Hp|exact Er|]. intros Hf. by destruct (Hr Hf).
  Qed.
  Lemma prompt_runs l : forall s s' : st, prompt s -> runs l s = Some s' -> prompt s'.
  Proof.
    induction l as [|x l IH]; intros s s' Hp H; cbn [LoopModel.runs] in H; [by injection H as <-|].
    destruct (LoopModel.do proc enough cap wait s x) as [s1|] eqn:E; [|done]. eapply IH; [by eapply prompt_do|exact H].
  Qed.
  Lemma prompt_start : prompt st0.
  Proof. split; [done|]. cbn. by intros e []. Qed.

  (** C99. If what a request asks for is something to tell, the request never waits: it is not
      blocked at any time, and it ends with its data, neither timed out nor given up. *)
  Theorem C99_at_once l (s : st) :
    runs l st0 = Some s ->
    (forall r t, req s = Some r -> tells (r_first r).2 -> r_place r <> Select t) /\
    (forall e, In e (results s) -> tells (r_first (e_req e)).2 -> e_why e = Data).
  Proof.
    intros H. destruct (prompt_runs l st0 s prompt_start H) as [H1 H2].
    assert (He : forall x : bool * resp, tells x.2 -> enough x = true).
    { intros [[|] x] Hx; [apply C99_enough_first; by left|by apply C99_enough]. }
    split.
    - intros r t Hr Ht Hp. specialize (H1 r Hr (He _ Ht)). by rewrite Hp in H1.
    - intros e Hi Ht. by apply H2, He.
  Qed.
End wake.

(** ** What is to be told stays *)
Lemma add_data_kept a g rm : exists a' g' , add_data (Some a) g rm = Some a' /\ a_global a' = a_global a ++ g' /\
  forall x l, a_rooms a !! x = Some l -> exists l', a_rooms a' !! x = Some (l ++ l').
Proof.
  unfold add_data. destruct g as [|y g]; destruct rm as [[r d]|]; cbn.
  - eexists _, []. split; [reflexivity|]. cbn. split; [by rewrite app_nil_r|]. intros x l Hx. destruct (decide (r = x)) as [<-|Hne].
    + rewrite lookup_insert, Hx. by exists d.
    + rewrite lookup_insert_ne by done. exists []. by rewrite app_nil_r.
  - exists a, []. split; [reflexivity|]. split; [by rewrite app_nil_r|]. intros x l Hx. exists []. by rewrite app_nil_r.
  - eexists _, (y :: g). split; [reflexivity|]. cbn. split; [done|]. intros x l Hx. destruct (decide (r = x)) as [<-|Hne].
    + rewrite lookup_insert, Hx. by exists d.
    + rewrite lookup_insert_ne by done. exists []. by rewrite app_nil_r.
  - eexists _, (y :: g). split; [reflexivity|]. cbn. split; [done|]. intros x l Hx. exists []. by rewrite app_nil_r.
Qed.

(** C99. Account data that is to be told is told, whatever updates are handled before the
    response is sent: updates only add to it. *)
Theorem C99_account_data_stays e c rows us : forall a,
  exists a' g, foldl (fun res u => acct_live e c rows res u) (Some a) us = Some a' /\ a_global a' = a_global a ++ g /\
    forall x l, a_rooms a !! x = Some l -> exists l', a_rooms a' !! x = Some (l ++ l').
Proof.
  assert (Hone : forall u a, exists a' g, acct_live e c rows (Some a) u = Some a' /\ a_global a' = a_global a ++ g /\
    forall x l, a_rooms a !! x = Some l -> exists l', a_rooms a' !! x = Some (l ++ l')).
  { intros u a. assert (Hsame : exists a' g, Some a = Some a' /\ a_global a' = a_global a ++ g /\
      forall x l, a_rooms a !! x = Some l -> exists l', a_rooms a' !! x = Some (l ++ l')).
    { exists a, []. split; [done|]. split; [by rewrite app_nil_r|]. intros x l Hx. exists []. by rewrite app_nil_r. }
    destruct u as [d|room t d|room t|room t|]; cbn [acct_live].
    - apply add_data_kept.
    - destruct (roomInScope e room c); [apply add_data_kept|exact Hsame].
    - destruct (negb _); [exact Hsame|]. destruct (bool_decide (is_Some _)); [|exact Hsame]. destruct (bool_decide _); [exact Hsame|].
      destruct rows as [rows|]; [|exact Hsame]. destruct (map snd _); [exact Hsame|apply add_data_kept].
    - destruct (negb _); [exact Hsame|]. destruct (bool_decide (is_Some _)); [|exact Hsame]. destruct (bool_decide _); [exact Hsame|].
      destruct rows as [rows|]; [|exact Hsame]. destruct (map snd _); [exact Hsame|apply add_data_kept].
    - exact Hsame. }
  induction us as [|u us IH]; intros a; cbn [foldl].
  - exists a, []. split; [done|]. split; [by rewrite app_nil_r|]. intros x l Hx. exists []. by rewrite app_nil_r.
  - destruct (Hone u a) as (a1 & g1 & -> & Hg1 & Hr1). destruct (IH a1) as (a2 & g2 & -> & Hg2 & Hr2).
    exists a2, (g1 ++ g2). split; [done|]. split; [by rewrite Hg2, Hg1, app_assoc|]. intros x l Hx.
    destruct (Hr1 x l Hx) as [l1 H1]. destruct (Hr2 x _ H1) as [l2 H2]. exists (l1 ++ l2). by rewrite app_assoc.
Qed.

(** C99. So are the rooms in which somebody types or typed; the newest of what is said of a
    room counts. *)
Theorem C99_typing_stays e c us : forall m x, is_Some (m !! x) ->
  exists m', foldl (fun res u => typing_live e c res u) (Some m) us = Some m' /\ is_Some (m' !! x).
Proof.
  induction us as [|u us IH]; intros m x Hx; cbn [foldl]; [by exists m|].
  assert (exists m1, typing_live e c (Some m) u = Some m1 /\ is_Some (m1 !! x)) as (m1 & -> & H1); [|by apply IH].
  unfold typing_live.
  destruct (match u with UTyping room t => Some (room, t) | _ => _ end) as [[room [ev|]]|]; [|by exists m|by exists m].
  destruct (String.eqb room ""); [by exists m|]. destruct (negb (roomInScope e room c)); [by exists m|]. cbn.
  eexists. split; [reflexivity|]. destruct (decide (room = x)) as [<-|Hne]; [rewrite lookup_insert; by eexists|by rewrite lookup_insert_ne].
Qed.

(** ** Examples *)
Definition nothing : resp := mk_resp ∅ ∅ None None None None None.
(** An update says that somebody types in a room. *)
Definition types_in (x : string) (p : bool * resp) : bool * resp :=
  (p.1, mk_resp (p_lists p.2) (p_rooms p.2) (p_todevice p.2) (p_e2ee p.2) (p_acct p.2) (Some (<[x := "typing"]> (default ∅ (p_typing p.2)))) (p_receipts p.2)).
Definition ending (o : option (@st string (bool * resp))) : option (list (why * Z * list (string * string)) * bool) :=
  match o with
  | Some s => Some (map (fun e => (e_why e, e_at e, map_to_list (default ∅ (p_typing (r_resp (e_req e)).2)))) (results s),
                    match req s with Some r => match r_place r with Select _ => true | _ => false end | None => false end)
  | None => None
  end.
(** A request waits until somebody types; one whose room is there at first does not wait; one
    during which nothing happens ends when its time is up. *)
Definition script : list (@step string (bool * resp)) :=
  [LookUp; Begin false 5000 (false, nothing); Go; Tick 700; Call "r"; Take; Go; Go; Go;
   LookUp; Begin false 5000 (false, mk_resp ∅ (<["r" := "room"]> ∅) None None None None None); Go; Go;
   LookUp; Begin false 5000 (false, nothing); Go; Tick 5000; Time].
Example C99_example :
  (ending (runs types_in enough 100 5000 (take 3 script) st0), ending (runs types_in enough 100 5000 script st0)) =
  (Some ([], true), Some ([(Data, 700, [("r", "typing")]); (Data, 700, []); (TimedOut, 5700, [])], false)).
Proof. vm_compute. reflexivity. Qed.
Example C99_example_tells : tells (mk_resp ∅ (<["r" := "room"]> ∅) None None None None None) /\ ~ tells nothing.
Proof.
  split; [apply C99_enough; vm_compute; reflexivity|]. intros H. apply C99_enough in H. revert H. vm_compute. discriminate.
Qed.

(** Somebody types in "r", and account data of "r" and of the user come, before the response is
    sent: what was there is still there. *)
Definition for_r : ext := mk_ext (Some true) None (Some ["r"]) 0 "".
Definition ctx_r : ectx := mk_ectx (<["r" := ["e"]]> ∅) false ∅ [] ["r"].
Definition meanwhile : list update := [UTyping "r" (Some "bob"); URoomData "r" None ["tags"]; UGlobalData ["rules"]; URoom "q" (Some "eve"); UOther].
Example C99_example_stays :
  (match foldl (fun res u => acct_live for_r ctx_r None res u) (Some (mk_aresp ["direct"] (<["r" := ["seen"]]> ∅) ["r"])) meanwhile with
   | Some a => Some (a_global a, map_to_list (a_rooms a)) | None => None end,
   match foldl (fun res u => typing_live for_r ctx_r res u) (Some (<["r" := "alice"]> (<["q" := "carol"]> ∅))) meanwhile with
   | Some m => Some (m !! "r", m !! "q") | None => None end) =
  (Some (["direct"; "rules"], [("r", ["seen"; "tags"])]), Some (Some "bob", Some "carol")).
Proof. vm_compute. reflexivity. Qed.

(** C99 is false of the counts of lists: a room that comes into a list outside the windows
    changes the count, but the request goes on waiting. *)
Definition room (x : string) (ts : Z) : conn_room :=
  mk_conn_room (mk_meta x [] x "" "" 2 0 ts ∅ false None None None ∅) false false false 0 0 "" ∅ ∅ (<["k" := ts]> ∅).
Definition window : req_list := mk_req (Some [(0, 1)]) ["by_recency"] None false.
Definition rooms3 : rlists := mk_rlists (<["a" := room "a" 11]> (<["b" := room "b" 12]> (<["c" := room "c" 13]> ∅))) ∅.
Definition count (s : rlists) : Z := match l_lists s !! "k" with Some fl => Z.of_nat (length (s_ids (fl_rooms fl))) | None => -1 end.
Definition answer (s : rlists) (ops : list list_msg) : resp := mk_resp (<["k" := mk_resp_list ops (count s)]> ∅) ∅ None None None None None.
Theorem C99_count_refuted :
  match list_request id id rooms3 "k" None window false with
  | Some (s, ms, subs) =>
      match live_update id id s (<["k" := window]> ∅) (room "d" 1) with
      | Some (s', out) =>
          (subs, count s, count s', out, enough (false, answer s' (map MOp (concat (map snd out))))) =
          (["c"; "b"], 3, 4, [("k", [])], false)
      | None => False
      end
  | None => False
  end.
Proof. vm_compute. reflexivity. Qed.

(** ... and for the same reason the first request of a client without rooms waits for as
    long as it said, if it does not ask for extensions, though the client does not know yet
    that its lists are empty. *)
Theorem C99_first_refuted :
  match list_request id id (mk_rlists ∅ ∅) "k" None window false with
  | Some (s, ms, subs) => (subs, ms, count s, enough (true, answer s ms)) = ([], [], 0, false)
  | None => False
  end.
Proof. vm_compute. reflexivity. Qed.

Print Assumptions C99_enough.
Print Assumptions C99_enough_first.
Print Assumptions C99_waits_with_nothing.
Print Assumptions C99_timed_out_with_nothing.
Print Assumptions C99_at_once.
Print Assumptions C99_account_data_stays.
Print Assumptions C99_typing_stays.
Print Assumptions C99_count_refuted.
Print Assumptions C99_first_refuted.
