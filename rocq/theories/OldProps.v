(** C58: including old rooms. *)
From Verif Require Import Prelude RequestModel OldModel OldSpec.
Open Scope string_scope. Open Scope list_scope. Open Scope nat_scope.

(** ** One chain *)
Lemma chain_sound env fuel : forall prev l, chain env fuel prev = Some l -> upgrades env prev l.
Proof.
  induction fuel as [|fuel IH]; intros prev l H; [done|]. cbn [chain] in H. destruct prev as [p|]; [|injection H as <-; constructor].
  destruct (o_joined env p) eqn:Hj; cbn [negb] in H; [|injection H as <-; by constructor].
  destruct (o_room env p) as [q|] eqn:Hq.
  - destruct (chain env fuel q) as [l'|] eqn:E; [|done]. injection H as <-. econstructor; eauto.
  - exfalso. clear IH. revert l H. assert (Hnone : chain env fuel (Some p) = None).
    { clear -Hj Hq. induction fuel as [|fuel IH]; [done|]. cbn [chain]. rewrite Hj, Hq. cbn [negb]. by rewrite IH. }
    intros l H. by rewrite Hnone in H.
Qed.
Lemma chain_complete env prev l : upgrades env prev l -> forall fuel, length l < fuel -> chain env fuel prev = Some l.
Proof.
  induction 1 as [|p Hj|p q l Hj Hq Hu IH]; intros fuel Hf; (destruct fuel as [|fuel]; [lia|]); cbn [chain]; [done|by rewrite Hj|].
  rewrite Hj, Hq. cbn [negb]. cbn [length] in Hf. by rewrite IH by lia.
Qed.
Lemma upgrades_det env prev l : upgrades env prev l -> forall l', upgrades env prev l' -> l = l'.
Proof.
  induction 1 as [|p Hj|p q l Hj Hq Hu IH]; intros l' H'; inversion H'; subst; try done; try congruence.
  f_equal. apply IH. congruence.
Qed.
Lemma upgrades_suffix env prev l x : upgrades env prev l -> In x l -> exists l', upgrades env (Some x) (x :: l') /\ length l' < length l.
Proof.
  induction 1 as [|p Hj|p q l Hj Hq Hu IH]; intros Hx; [done..|]. destruct Hx as [<-|Hx].
  - exists l. split; [econstructor; eauto|cbn; lia].
  - destruct (IH Hx) as (l' & H1 & H2). exists l'. split; [done|cbn; lia].
Qed.

(** C58. A finite chain is followed to its end, and a room is in it at most once. *)
Theorem C58_chain_each_once env prev l : upgrades env prev l ->
  NoDup l /\ (forall fuel, length l < fuel -> chain env fuel prev = Some l) /\ (forall x, In x l <-> reaches env prev x).
Proof.
  intros H. split; [|split; [by apply chain_complete|]].
  - induction H as [|p Hj|p q l Hj Hq Hu IH]; [constructor..|]. constructor; [|done].
    intros Hin. apply elem_of_list_In in Hin. destruct (upgrades_suffix _ _ _ _ Hu Hin) as (l' & H1 & H2).
    assert (Hl : p :: l = p :: l') by (eapply upgrades_det; [econstructor; eauto|done]). injection Hl as ->. lia.
  - induction H as [|p Hj|p q l Hj Hq Hu IH]; intros x.
    + split; [done|]. intros H. inversion H.
    + split; [done|]. intros H. inversion H; congruence.
    + cbn [In]. rewrite IH. split.
      * intros [<-|H]; [by constructor|]. econstructor; eauto.
      * intros H. inversion H as [|? q' ? ? Hq' Hr]; subst; [by left|]. right. congruence.
Qed.
Print Assumptions C58_chain_each_once.

(** C58. The loop ends exactly for finite chains in which every joined room is known
    to the connection; the full statement, that it always ends, is refuted below. *)
Theorem C58_terminates_iff_partial env prev :
  (exists fuel l, chain env fuel prev = Some l) <-> exists l, upgrades env prev l.
Proof.
  split.
  - intros (fuel & l & H). exists l. by eapply chain_sound.
  - intros [l H]. exists (S (length l)), l. apply chain_complete; [done|lia].
Qed.
Print Assumptions C58_terminates_iff_partial.

(** C58. If rooms can be ranked so that a room's predecessor ranks lower, as rooms are
    by age when creators tell the truth, and joined rooms are known, every chain is finite. *)
Theorem C58_ranked_terminates_partial env (rank : string -> nat) :
  (forall room, o_joined env room = true -> o_room env room <> None) ->
  (forall room p, o_room env room = Some (Some p) -> rank p < rank room) ->
  forall prev, exists l, upgrades env prev l.
Proof.
  intros Hknown Hrank. assert (H : forall n p, rank p < n -> exists l, upgrades env (Some p) l).
  { induction n as [|n IH]; intros p Hp; [lia|]. destruct (o_joined env p) eqn:Hj; [|exists []; by constructor].
    destruct (o_room env p) as [[q|]|] eqn:Hq.
    - destruct (IH q) as [l Hl]; [apply Hrank in Hq; lia|]. exists (p :: l). econstructor; eauto.
    - exists [p]. econstructor; eauto. constructor.
    - by apply Hknown in Hj. }
  intros [p|]; [|exists []; constructor]. apply (H (S (rank p))). lia.
Qed.
Print Assumptions C58_ranked_terminates_partial.

(** ** The response *)
Lemma old_rooms_sound env fuel rooms : forall l, old_rooms env fuel rooms = Some l ->
  forall x, In x l <-> exists r, In r rooms /\ upgraded_from env r x.
Proof.
  induction rooms as [|r rooms IH]; intros l H x; cbn [old_rooms] in H.
  - injection H as <-. cbn. split; [done|]. by intros (? & ? & _).
  - destruct (chain env fuel _) as [l1|] eqn:E1; [|done]. cbn [mbind option_bind] in H.
    destruct (old_rooms env fuel rooms) as [l2|] eqn:E2; [|done]. injection H as <-.
    assert (Hp : match o_room env r with Some q => q | None => None end = predecessor env r) by (unfold predecessor; by destruct (o_room env r)).
    rewrite Hp in E1. apply chain_sound in E1. rewrite in_app_iff, (IH l2 eq_refl). split.
    + intros [H|(r' & H1 & H2)]; [exists r; split; [by left|by exists l1]|exists r'; split; [by right|done]].
    + intros (r' & [<-|H1] & H2); [|right; by exists r']. left. destruct H2 as (l' & H2 & H3).
      by rewrite (upgrades_det _ _ _ E1 _ H2).
Qed.
Lemma old_rooms_complete env rooms : (forall r, In r rooms -> exists l, upgrades env (predecessor env r) l) ->
  exists n, forall fuel, n <= fuel -> exists l, old_rooms env fuel rooms = Some l.
Proof.
  induction rooms as [|r rooms IH]; intros H; [exists 0; intros fuel _; by exists []|].
  destruct IH as [n IH]; [intros r' Hr; apply H; by right|]. destruct (H r) as [l Hl]; [by left|].
  exists (n + S (length l)). intros fuel Hf. destruct (IH fuel) as [l2 H2]; [lia|]. exists (l ++ l2). cbn [old_rooms].
  assert (Hp : match o_room env r with Some q => q | None => None end = predecessor env r) by (unfold predecessor; by destruct (o_room env r)).
  rewrite Hp, (chain_complete _ _ _ Hl) by lia. cbn [mbind option_bind]. by rewrite H2.
Qed.
Lemma puts_lookup src l : forall res x, fold_left (put src) l res !! x = if bool_decide (x ∈ l) then Some src else res !! x.
Proof.
  induction l as [|y l IH]; intros res x; cbn [fold_left].
  - by rewrite bool_decide_eq_false_2 by apply not_elem_of_nil.
  - rewrite IH. unfold put. destruct (decide (x = y)) as [->|Hne].
    + rewrite (bool_decide_eq_true_2 (y ∈ y :: l)) by (apply elem_of_cons; by left). rewrite lookup_insert. by case_bool_decide.
    + rewrite lookup_insert_ne by done. assert (Hd : bool_decide (x ∈ y :: l) = bool_decide (x ∈ l)); [|by rewrite Hd].
      apply bool_decide_ext. rewrite elem_of_cons. naive_solver.
Qed.

(** The rooms a subscription asks for. *)
Definition asks_for (env : oenv) (bs : room_sub * list string) (x : string) (src : room_sub * bool) : Prop :=
  (In x bs.2 /\ src = (bs.1, false))
  \/ (~ In x bs.2 /\ exists old r, sub_old bs.1 = Some old /\ In r bs.2 /\ upgraded_from env r x /\ src = (old, true)).

(** C58. When the call ends, the response has the rooms of the subscriptions and,
    if asked for, their old rooms the user is joined to, each once; what a room is
    served with is determined by the last subscription that asks for it, and within
    one subscription a room listed itself is not served as an old room. *)
Theorem C58_response env fuel subs res : build_rooms env fuel ∅ subs = Some res ->
  forall x, match res !! x with
    | Some src => exists pre bs post, subs = pre ++ bs :: post /\ asks_for env bs x src
                  /\ (forall bs' s, In bs' post -> ~ asks_for env bs' x s)
    | None => forall bs s, In bs subs -> ~ asks_for env bs x s
    end.
Proof.
  assert (Hone : forall res0 bs res1, build_one env fuel res0 bs = Some res1 -> forall x,
     (exists src, asks_for env bs x src /\ res1 !! x = Some src) \/ ((forall s, ~ asks_for env bs x s) /\ res1 !! x = res0 !! x)).
  { intros res0 [sub ids] res1 H x. unfold build_one in H. cbn [fst snd] in H.
    destruct (decide (x ∈ ids)) as [Hin|Hin].
    - left. pose proof (proj1 (elem_of_list_In _ _) Hin) as Hin'. exists (sub, false). split; [by left|]. destruct (match sub_old sub with Some _ => _ | None => _ end) as [r|]; [|done].
      injection H as <-. rewrite puts_lookup. by rewrite bool_decide_eq_true_2.
    - assert (Hin' : ~ In x ids) by (by rewrite <- elem_of_list_In). destruct (sub_old sub) as [old|] eqn:Eo.
      + destruct (old_rooms env fuel ids) as [l|] eqn:El; [|done]. cbn [mbind option_bind] in H. injection H as <-.
        rewrite puts_lookup, (bool_decide_eq_false_2 (x ∈ ids)) by done. rewrite puts_lookup.
        pose proof (old_rooms_sound _ _ _ _ El x) as Hl. rewrite <- elem_of_list_In in Hl. case_bool_decide as Hx.
        * left. exists (old, true). split; [|done]. right. split; [done|]. apply Hl in Hx as (r & H1 & H2). by exists old, r.
        * right. split; [|done]. intros s [[H _]|(_ & old' & r & _ & H1 & H2 & _)]; [done|]. apply Hx, Hl. by exists r.
      + right. cbn [mbind option_bind] in H. injection H as <-. rewrite puts_lookup, (bool_decide_eq_false_2 (x ∈ ids)) by done.
        split; [|done]. intros s [[H _]|(_ & old' & r & H & _)]; [done|]. cbn in H. congruence. }
  assert (Hgen : forall res0, build_rooms env fuel res0 subs = Some res -> forall x,
    (exists src pre bs post, res !! x = Some src /\ subs = pre ++ bs :: post /\ asks_for env bs x src
                  /\ (forall bs' s, In bs' post -> ~ asks_for env bs' x s))
    \/ (res !! x = res0 !! x /\ forall bs s, In bs subs -> ~ asks_for env bs x s)).
  { clear -Hone. induction subs as [|bs subs IH]; intros res0 H x; cbn [build_rooms] in H.
    - injection H as <-. by right.
    - destruct (build_one env fuel res0 bs) as [res1|] eqn:E; [|done]. cbn [mbind option_bind] in H.
      destruct (IH res1 H x) as [(src & pre & bs' & post & H1 & -> & H2 & H3)|[H1 H2]].
      + left. by exists src, (bs :: pre), bs', post.
      + destruct (Hone _ _ _ E x) as [(src & H3 & H4)|[H3 H4]].
        * left. exists src, [], bs, subs. split; [congruence|]. done.
        * right. split; [congruence|]. intros bs' s [<-|Hin]; [apply H3|by apply H2]. }
  intros H x. destruct (Hgen ∅ H x) as [(src & pre & bs & post & -> & H1 & H2 & H3)|[H1 H2]].
  - by exists pre, bs, post.
  - rewrite H1, lookup_empty. done.
Qed.
Print Assumptions C58_response.

(** C58. The call ends if the chains of the rooms it includes old rooms for are finite. *)
Theorem C58_call_terminates_partial env subs :
  (forall bs r, In bs subs -> sub_old bs.1 <> None -> In r bs.2 -> exists l, upgrades env (predecessor env r) l) ->
  terminates env subs.
Proof.
  intros H. enough (Hn : exists n, forall fuel, n <= fuel -> forall res0, exists res, build_rooms env fuel res0 subs = Some res).
  { destruct Hn as [n Hn]. destruct (Hn n (le_n n) ∅) as [res Hr]. by exists n, res. }
  induction subs as [|bs subs IH]; [exists 0; intros; eexists; done|].
  destruct IH as [n IH]; [intros bs' r Hb; apply H; by right|].
  assert (Hb : exists n', forall fuel, n' <= fuel -> forall res0, exists res, build_one env fuel res0 bs = Some res).
  { unfold build_one. destruct (sub_old bs.1) as [old|] eqn:Eo; [|exists 0; intros; eexists; done].
    destruct (old_rooms_complete env bs.2) as [n' Hn']; [intros r Hr; apply (H bs); [by left|congruence|done]|].
    exists n'. intros fuel Hf res0. destruct (Hn' fuel Hf) as [l ->]. eexists. done. }
  destruct Hb as [n' Hb]. exists (n + n'). intros fuel Hf res0. cbn [build_rooms].
  destruct (Hb fuel) with (res0 := res0) as [res1 ->]; [lia|]. cbn [mbind option_bind]. apply IH. lia.
Qed.
Print Assumptions C58_call_terminates_partial.

(** ** Examples and refutations *)
Definition sub0 : room_sub := mk_sub None 1 None None.
Definition sub_o : room_sub := mk_sub None 20 (Some sub0) None.
Definition env1 : oenv := mk_oenv (fun r => negb (String.eqb r "!1"))
  (fun r => if String.eqb r "!4" then Some (Some "!3") else if String.eqb r "!3" then Some (Some "!2")
            else if String.eqb r "!2" then Some (Some "!1") else if String.eqb r "!1" then Some None else None).
Example C58_example : upgrades env1 (predecessor env1 "!4") ["!3"; "!2"]
  /\ terminates env1 [(sub_o, ["!4"])] /\ chain env1 10 (predecessor env1 "!4") = Some ["!3"; "!2"].
Proof.
  split; [repeat (econstructor; [done..|]); by constructor|]. split; [|done].
  apply C58_call_terminates_partial. intros bs r [<-|[]] _ [<-|[]]. exists ["!3"; "!2"]. repeat (econstructor; [done..|]). by constructor.
Qed.

(** C58 fails for cycles: a room whose m.room.create event names itself, or two rooms
    that name each other, as predecessor keep the request busy forever, appending to
    a slice all the while. The content of the event is up to the room's creator. *)
Theorem C58_cycle_refuted : exists env sub room, o_joined env room = true /\ predecessor env room = Some room
  /\ ~ terminates env [(sub, [room])].
Proof.
  exists (mk_oenv (fun _ => true) (fun r => Some (Some r))), sub_o, "!a". split; [done|]. split; [done|].
  intros (fuel & res & H). cbn in H.
  assert (Hn : forall n, chain (mk_oenv (fun _ => true) (fun r => Some (Some r))) n (Some "!a") = None).
  { induction n as [|n IH]; [done|]. cbn in *. by rewrite IH. }
  by rewrite Hn in H.
Qed.
Print Assumptions C58_cycle_refuted.
Theorem C58_two_cycle_refuted : exists env sub, o_joined env "!a" = true /\ o_joined env "!b" = true
  /\ predecessor env "!a" = Some "!b" /\ predecessor env "!b" = Some "!a" /\ ~ terminates env [(sub, ["!a"])].
Proof.
  set (env := mk_oenv (fun _ => true) (fun r => Some (Some (if String.eqb r "!a" then "!b" else "!a")))).
  exists env, sub_o. do 4 (split; [done|]). intros (fuel & res & H). cbn in H.
  assert (Hn : forall n, chain env n (Some "!a") = None /\ chain env n (Some "!b") = None).
  { induction n as [|n [IH1 IH2]]; [done|]. cbn in *. by rewrite IH1, IH2. }
  destruct (Hn fuel) as [_ H2]. by rewrite H2 in H.
Qed.

(** C58 fails without a cycle too: if the user is joined to the predecessor but the
    connection has no metadata for it yet, the loop stays at this room forever. *)
Theorem C58_unknown_room_refuted : exists env sub, predecessor env "!new" = Some "!old" /\ o_joined env "!old" = true
  /\ o_room env "!old" = None /\ ~ terminates env [(sub, ["!new"])].
Proof.
  set (env := mk_oenv (fun _ => true) (fun r => if String.eqb r "!new" then Some (Some "!old") else None)).
  exists env, sub_o. do 3 (split; [done|]). intros (fuel & res & H). cbn in H.
  assert (Hn : forall n, chain env n (Some "!old") = None).
  { induction n as [|n IH]; [done|]. cbn in *. by rewrite IH. }
  by rewrite Hn in H.
Qed.

(** A room the client asked for is served as an old room, with the smaller limit of
    the old rooms' subscription, if a later subscription has its successor. *)
Theorem C58_listed_room_served_as_old_refuted :
  (forall res, build_rooms env1 10 ∅ [(mk_sub None 50 None None, ["!3"]); (sub_o, ["!4"])] = Some res ->
     res !! "!3" = Some (sub0, true))
  /\ terminates env1 [(mk_sub None 50 None None, ["!3"]); (sub_o, ["!4"])].
Proof.
  split; [|eexists 10, _; reflexivity]. intros res H. vm_compute in H. injection H as <-. vm_compute. reflexivity.
Qed.
