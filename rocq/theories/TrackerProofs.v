From Verif Require Import Prelude TrackerModel TrackerSpec.

Lemma get_set_insert m k s k' :
  get_set (<[k := s]> m) k' = if decide (k' = k) then s else get_set m k'.
Proof.
  unfold get_set. destruct (decide (k' = k)) as [->|Hne].
  - by rewrite lookup_insert.
  - by rewrite lookup_insert_ne.
Qed.

Lemma get_set_empty k : get_set ∅ k = ∅.
Proof. unfold get_set. by rewrite lookup_empty. Qed.

(** Adding a room to several users. *)
Lemma add_room_spec room us rooms u r :
  r ∈ get_set (foldl (fun rooms u => <[u := {[room]} ∪ get_set rooms u]> rooms) rooms us) u <->
  (r = room /\ u ∈ us) \/ r ∈ get_set rooms u.
Proof.
  revert rooms; induction us as [|u' us IH]; intros rooms; cbn.
  - set_solver.
  - rewrite IH, get_set_insert. destruct (decide (u = u')) as [->|]; set_solver.
Qed.

Record tinv (t : tracker) (J I : string -> string -> Prop) : Prop := {
  ti_joined u r : u ∈ get_set (t_joined t) r <-> J u r;
  ti_rooms u r : r ∈ get_set (t_rooms t) u <-> J u r;
  ti_invited u r : u ∈ get_set (t_invited t) r <-> I u r }.

Lemma join_fold_spec us room joined invited rooms j' i' r' :
  foldl (fun '(joined, invited, rooms) u =>
             ({[u]} ∪ joined, invited ∖ {[u]},
              <[u := {[room]} ∪ get_set rooms u]> rooms))
          (joined : gset string, invited : gset string, rooms) us = (j', i', r') ->
  (forall u, u ∈ j' <-> u ∈ us \/ u ∈ joined) /\
  (forall u, u ∈ i' <-> u ∉ us /\ u ∈ invited) /\
  r' = foldl (fun rooms u => <[u := {[room]} ∪ get_set rooms u]> rooms) rooms us.
Proof.
  revert joined invited rooms; induction us as [|u0 us IH]; intros joined invited rooms; cbn.
  - intros [= <- <- <-]. split_and!; [set_solver..|done].
  - intros H. apply IH in H as (H1 & H2 & H3). split_and!; [set_solver|set_solver|done].
Qed.

Lemma tinv_join t J I us room :
  tinv t J I ->
  tinv (users_joined_room t us room).1
       (fun u r => (r = room /\ u ∈ us) \/ J u r)
       (fun u r => ~ (r = room /\ u ∈ us) /\ I u r).
Proof.
  intros [HJ HR HI]. unfold users_joined_room.
  destruct (foldl _ _ us) as [[j' i'] r'] eqn:E.
  apply join_fold_spec in E as (H1 & H2 & ->). split; cbn; intros u r.
  - rewrite get_set_insert. destruct (decide (r = room)) as [->|]; rewrite ?H1, HJ; naive_solver.
  - rewrite add_room_spec, HR. done.
  - rewrite get_set_insert. destruct (decide (r = room)) as [->|]; rewrite ?H2, HI; naive_solver.
Qed.

Lemma tinv_left t J I user room :
  tinv t J I ->
  tinv (user_left_room t user room).1
       (fun u r => ~ (r = room /\ u = user) /\ J u r)
       (fun u r => ~ (r = room /\ u = user) /\ I u r).
Proof.
  intros [HJ HR HI]. split; cbn; intros u r; rewrite get_set_insert.
  - destruct (decide (r = room)) as [->|]; rewrite ?elem_of_difference, HJ; set_solver.
  - destruct (decide (u = user)) as [->|]; rewrite ?elem_of_difference, HR; set_solver.
  - destruct (decide (r = room)) as [->|]; rewrite ?elem_of_difference, HI; set_solver.
Qed.

Lemma add_users_spec (us : list string) (s : gset string) u :
  u ∈ foldl (fun s u => {[u]} ∪ s) s us <-> u ∈ us \/ u ∈ s.
Proof.
  revert s; induction us as [|u0 us IH]; intros s; cbn; [set_solver|]. rewrite IH. set_solver.
Qed.

Lemma tinv_invite t J I us room :
  tinv t J I ->
  tinv (users_invited_to_room t us room) J (fun u r => (r = room /\ u ∈ us) \/ I u r).
Proof.
  intros [HJ HR HI]. split; cbn; intros u r; [done..|].
  rewrite get_set_insert. destruct (decide (r = room)) as [->|]; rewrite ?add_users_spec, HI; naive_solver.
Qed.

Lemma remove_room_spec room (keep : gset string) us rooms u r :
  r ∈ get_set (foldl (fun rooms u => if bool_decide (u ∈ keep) then rooms
                         else <[u := get_set rooms u ∖ {[room]}]> rooms) rooms us) u <->
  ~ (r = room /\ u ∈ us /\ u ∉ keep) /\ r ∈ get_set rooms u.
Proof.
  revert rooms; induction us as [|u' us IH]; intros rooms; cbn; [set_solver|].
  rewrite IH. case_bool_decide.
  - set_solver.
  - rewrite get_set_insert. destruct (decide (u = u')) as [->|]; set_solver.
Qed.

Lemma tinv_reload t J I room js is :
  tinv t J I ->
  tinv (reload_memberships t room js is)
       (fun u r => (r = room /\ u ∈ js) \/ (r <> room /\ J u r))
       (fun u r => (r = room /\ u ∈ is) \/ (r <> room /\ I u r)).
Proof.
  intros [HJ HR HI]. split; cbn; intros u r.
  - rewrite get_set_insert. destruct (decide (r = room)) as [->|].
    + rewrite elem_of_list_to_set. naive_solver.
    + rewrite HJ. naive_solver.
  - rewrite remove_room_spec, add_room_spec, !elem_of_elements, !elem_of_list_to_set, HJ, HR.
    destruct (decide (u ∈ js)); destruct (decide (r = room)) as [->|]; naive_solver.
  - rewrite get_set_insert. destruct (decide (r = room)) as [->|].
    + rewrite elem_of_list_to_set. naive_solver.
    + rewrite HI. naive_solver.
Qed.

Lemma startup_fold m t J I :
  NoDup m.*1 -> (forall u r, r ∈ m.*1 -> ~ J u r) -> tinv t J I ->
  tinv (foldl (fun t '(room, users) =>
            mk_tracker (<[room := list_to_set users]> (t_joined t))
                       (startup_users room users (t_rooms t)) (t_invited t)) t m)
       (fun u r => J u r \/ exists us, (r, us) ∈ m /\ u ∈ us) I.
Proof.
  revert t J; induction m as [|[room us] m IH]; intros t J Hnd Hfresh [HJ HR HI]; cbn.
  - split; intros u r; [rewrite HJ|rewrite HR|by rewrite HI]; set_solver.
  - cbn in Hnd. apply NoDup_cons in Hnd as [Hnotin Hnd].
    assert (Hpre : forall u r, r ∈ m.*1 -> ~ (J u r \/ (r = room /\ u ∈ us))).
    { intros u r Hr [Hj|[-> _]]; [|done]. eapply Hfresh; [|exact Hj]. cbn. set_solver. }
    pose proof (IH (mk_tracker (<[room := list_to_set us]> (t_joined t))
                       (startup_users room us (t_rooms t)) (t_invited t))
                   (fun u r => J u r \/ (r = room /\ u ∈ us)) Hnd Hpre) as Hres.
    feed specialize Hres.
    { split; cbn; intros u r; [|unfold startup_users; rewrite add_room_spec, HR; naive_solver|done].
      rewrite get_set_insert. destruct (decide (r = room)) as [->|].
      - rewrite elem_of_list_to_set. split; [naive_solver|]. intros [Hj|?]; [|naive_solver].
        exfalso. eapply Hfresh; [|exact Hj]. cbn. set_solver.
      - rewrite HJ. naive_solver. }
    destruct Hres as [HJ' HR' HI']. split; intros u r.
    + rewrite HJ'. set_solver.
    + rewrite HR'. set_solver.
    + by rewrite HI'.
Qed.

Lemma tinv_ext t (J J' I I' : string -> string -> Prop) :
  (forall u r, J u r <-> J' u r) -> (forall u r, I u r <-> I' u r) -> tinv t J I -> tinv t J' I'.
Proof. intros HJ HI [H1 H2 H3]. split; intros u r; rewrite <- ?HJ, <- ?HI; done. Qed.

Lemma tstep_inv t o t' hist :
  startup_wf o -> tinv t (says_joined hist) (says_invited hist) -> tstep t o = Some t' ->
  tinv t' (says_joined (o :: hist)) (says_invited (o :: hist)).
Proof.
  intros Hwf HI Hs. destruct o as [m|us r|u r|us r|r js is]; cbn in Hs.
  - unfold startup in Hs. case_bool_decide as Hemp; [|done]. injection Hs as <-.
    destruct Hemp as [He1 He2].
    assert (Hnone : forall u r, ~ says_joined hist u r).
    { intros u r Hj. apply (ti_joined _ _ _ HI) in Hj. rewrite He1, get_set_empty in Hj. set_solver. }
    eapply tinv_ext; [| |apply (startup_fold m t (says_joined hist) (says_invited hist) Hwf); [|exact HI]]; cbn; [|done|].
    + intros u r. specialize (Hnone u r). naive_solver.
    + intros u r _. apply Hnone.
  - injection Hs as <-. by apply tinv_join.
  - injection Hs as <-. by apply tinv_left.
  - injection Hs as <-. by apply tinv_invite.
  - injection Hs as <-. by apply tinv_reload.
Qed.

Lemma trun_inv ops t hist t' :
  Forall startup_wf ops -> tinv t (says_joined hist) (says_invited hist) ->
  trun t ops = Some t' ->
  tinv t' (says_joined (reverse ops ++ hist)) (says_invited (reverse ops ++ hist)).
Proof.
  revert t hist; induction ops as [|o ops IH]; intros t hist Hwf HI Hr; cbn in Hr.
  - injection Hr as <-. done.
  - destruct (tstep t o) as [t1|] eqn:Hs; [|done].
    apply Forall_cons in Hwf as [Hw Hwf].
    rewrite reverse_cons, <- app_assoc. cbn. apply (IH t1); [done| |done].
    by eapply tstep_inv.
Qed.

Lemma tinv_new : tinv new_tracker (says_joined []) (says_invited []).
Proof. split; cbn; intros u r; rewrite get_set_empty; set_solver. Qed.

Lemma tracker_reachable ops t :
  Forall startup_wf ops -> trun new_tracker ops = Some t ->
  tinv t (says_joined (reverse ops)) (says_invited (reverse ops)).
Proof.
  intros Hwf Hr. pose proof (trun_inv ops new_tracker [] t Hwf tinv_new Hr) as H.
  by rewrite app_nil_r in H.
Qed.

(** ** What the query methods return *)
Lemma tracker_joined_spec ops t :
  Forall startup_wf ops -> trun new_tracker ops = Some t ->
  (forall u r, is_user_joined t u r = true <-> says_joined (reverse ops) u r) /\
  (forall u r, r ∈ joined_rooms_for_user t u <-> says_joined (reverse ops) u r) /\
  (forall u, NoDup (joined_rooms_for_user t u)) /\
  (forall r f u, u ∈ (joined_users_for_room t r f).1 <-> f u = true /\ says_joined (reverse ops) u r) /\
  (forall r f, NoDup (joined_users_for_room t r f).1) /\
  (forall r f, (joined_users_for_room t r f).2 = length (joined_users_for_room t r (fun _ => true)).1).
Proof.
  intros Hwf Hr. destruct (tracker_reachable ops t Hwf Hr) as [HJ HR HI].
  split_and!.
  - intros u r. unfold is_user_joined. by rewrite bool_decide_eq_true, HJ.
  - intros u r. unfold joined_rooms_for_user. by rewrite elem_of_elements, HR.
  - intros u. apply NoDup_elements.
  - intros r f u. unfold joined_users_for_room. cbn [fst].
    rewrite <- HJ, elem_of_list_In, filter_In, <- elem_of_list_In, elem_of_elements. naive_solver.
  - intros r f. unfold joined_users_for_room. cbn [fst]. apply NoDup_ListNoDup, List.NoDup_filter.
    apply NoDup_ListNoDup, NoDup_elements.
  - intros r f. unfold joined_users_for_room. cbn [fst snd].
    assert (forall l : list string, List.filter (fun _ => true) l = l) as ->; [|done].
    intros l; induction l as [|x l IH]; cbn; [done|by rewrite IH].
Qed.

Lemma size_is_count (X : gset string) (P : string -> Prop) l :
  (forall u, u ∈ X <-> P u) -> NoDup l -> (forall u, u ∈ l <-> P u) -> size X = length l.
Proof.
  intros HX Hnd Hl.
  assert (X = list_to_set l) as -> by (apply set_eq; intros u; rewrite elem_of_list_to_set, HX, Hl; done).
  by apply size_list_to_set.
Qed.

Lemma tracker_invited_spec ops t r l :
  Forall startup_wf ops -> trun new_tracker ops = Some t ->
  NoDup l -> (forall u, u ∈ l <-> says_invited (reverse ops) u r) ->
  num_invited t r = length l.
Proof.
  intros Hwf Hr Hnd Hl. destruct (tracker_reachable ops t Hwf Hr) as [HJ HR HI].
  unfold num_invited. eapply size_is_count; [|done|exact Hl]. intros u. apply HI.
Qed.

Lemma tracker_returns ops t :
  Forall startup_wf ops -> trun new_tracker ops = Some t ->
  (forall us r, (users_joined_room t us r).2 = true <->
     exists u, u ∈ us /\ ~ says_joined (reverse ops) u r) /\
  (forall u r, (user_left_room t u r).2 = true <->
     says_joined (reverse ops) u r \/ says_invited (reverse ops) u r).
Proof.
  intros Hwf Hr. destruct (tracker_reachable ops t Hwf Hr) as [HJ HR HI]. split.
  - intros us r. unfold users_joined_room. destruct (foldl _ _ us) as [[j i] rm]. cbn.
    rewrite negb_true_iff. split.
    + intros Hf. induction us as [|u us IH]; cbn in Hf; [done|].
      apply andb_false_iff in Hf as [Hf|Hf].
      * exists u. apply bool_decide_eq_false in Hf. rewrite HJ in Hf. set_solver.
      * destruct (IH Hf) as (u' & ? & ?). exists u'. set_solver.
    + intros (u & Hu & Hn). rewrite <- HJ in Hn.
      apply not_true_iff_false. intros Ht. rewrite forallb_forall in Ht.
      specialize (Ht u). rewrite <- elem_of_list_In in Ht. apply Ht in Hu.
      by apply bool_decide_eq_true in Hu.
  - intros u r. cbn. rewrite orb_true_iff, !bool_decide_eq_true, HJ, HI. done.
Qed.

(** Only Startup panics, and only on a tracker which has seen a room or a user. *)
Lemma tracker_panics_only_startup t o :
  tstep t o = None -> exists m, o = TStartup m /\ (t_joined t <> ∅ \/ t_rooms t <> ∅).
Proof.
  destruct o; cbn; try done. intros Hs. exists m. split; [done|].
  unfold startup in Hs. case_bool_decide as Hd; [done|].
  destruct (decide (t_joined t = ∅)); [|by left]. right. naive_solver.
Qed.
