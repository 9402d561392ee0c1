(** Proofs about how the cache of a user learns about spaces. *)
From Verif Require Import Prelude RoomNameModel TrackerModel TrackerProofs DispatchModel DispatchSpec DispatchProofs.
From Verif Require Import UserModel UserSpec UserProofs UserProofs2 SpaceModel SpaceSpec.
Open Scope string_scope. Open Scope list_scope. Open Scope Z_scope.

Section user.
  Variable ord : list string -> list string.
  Hypothesis Hord : forall l, ord l ≡ₚ l.
  Variable user : string.
  Hypothesis Huser : user <> all_users.
  Variable is_space : string -> bool.
  Notation srun := (srun ord user is_space).
  Notation sstep := (sstep ord user is_space).

  Definition dop_of (o : sop) : dop :=
    match o with SEvent e => DEvent (e_room e) (raw e) 0 [] | SRegister => DReg (Reg user 1%nat) end.
  Definition events (l : list sop) : list uevent := flat_map (fun o => match o with SEvent e => [e] | SRegister => [] end) l.
  Definition ops (l : list sop) : list dop := DReg (Reg all_users 0%nat) :: map dop_of l.

  Lemma srun_drun l y : exists cs, drun ord (y_disp y) (map dop_of l) = Some (y_disp (srun l y), cs).
  Proof.
    revert y. induction l as [|o l IH]; intros y. { by exists []. }
    destruct (IH (sstep y o)) as [cs E]. unfold SpaceModel.srun in *. cbn [fold_left map drun].
    destruct o as [e|]; cbn [dop_of dstep].
    - unfold SpaceModel.sstep in *. destruct (on_new_event ord (y_disp y) (e_room e) (raw e) 0 []) as [d c] eqn:Ee. cbn [y_disp] in E. rewrite E. by eexists.
    - cbn [SpaceModel.sstep y_disp] in E. rewrite E. by eexists.
  Qed.
  Lemma srun_ops l : exists cs, drun ord new_dispatcher (ops l) = Some (y_disp (srun l sys0), cs).
  Proof.
    destruct (srun_drun l sys0) as [cs E]. unfold ops. cbn [drun dstep].
    replace (mk_dispatcher (d_jrt new_dispatcher) (reg_step (d_recv new_dispatcher) (Reg all_users 0%nat))) with (y_disp sys0) by reflexivity.
    rewrite E. by eexists.
  Qed.
  Lemma ops_wf l : Forall dop_wf (ops l).
  Proof. apply Forall_cons. split; [exact I|]. apply Forall_map, Forall_forall. by intros []. Qed.

  Lemma joined_snoc room l e :
    joined user room (l ++ [e]) = if own_change user room e then String.eqb (e_membership e) "join" else joined user room l.
  Proof. unfold joined. rewrite rev_app_distr. cbn [rev app List.find]. destruct (own_change user room e); reflexivity. Qed.
  Lemma is_child_snoc space room l e :
    is_child space room (l ++ [e]) = if about space room e then e_via e else is_child space room l.
  Proof. unfold is_child. rewrite rev_app_distr. cbn [rev app List.find]. destruct (about space room e); reflexivity. Qed.

  Lemma h_joined_spec l room : h_joined (reverse (ops l)) user room <-> joined user room (events l) = true.
  Proof.
    unfold ops. induction l as [|o l IH] using rev_ind. { cbn. by split. }
    rewrite map_app, app_comm_cons, reverse_app. cbn [map]. rewrite reverse_singleton. cbn [app].
    unfold events. rewrite flat_map_app. cbn [flat_map]. fold (events l). destruct o as [e|]; cbn [dop_of h_joined].
    2: { rewrite app_nil_r. exact IH. }
    cbn [app]. rewrite joined_snoc. unfold own_change, joined_by, member_change, raw. cbn [ev_type ev_skey ev_membership].
    rewrite (String.eqb_sym room). destruct (String.eqb_spec (e_room e) room) as [Er|N].
    2: { rewrite andb_false_r. cbn [andb]. exact IH. }
    rewrite andb_true_r. destruct (String.eqb (e_type e) "m.room.member"); cbn [andb]; [|exact IH].
    destruct (e_key e) as [k|]; [|rewrite bool_decide_eq_false_2 by done; exact IH].
    unfold is_leave.
    destruct (decide (k = user)) as [->|Nk].
    - rewrite bool_decide_eq_true_2 by done. cbn [andb].
      destruct (String.eqb_spec (e_membership e) "join") as [->|N1]; cbn [orb]. { split; [done|]. intros _. by left. }
      destruct (String.eqb_spec (e_membership e) "leave") as [->|N2]; cbn [orb].
      { split; [|done]. intros [[_ [=]]|[[] _]]; auto. }
      destruct (String.eqb_spec (e_membership e) "ban") as [->|N3].
      { split; [|done]. intros [[_ [=]]|[[] _]]; auto. }
      rewrite <-IH. split; [intros [[_ ?]|[_ ?]]; done|]. intros ?. right. split; [|done]. intros (_ & [?|?]); done.
    - rewrite bool_decide_eq_false_2 by congruence. cbn [andb]. rewrite <-IH. split.
      + intros [[? _]|[_ ?]]; [congruence|done].
      + intros ?. right. split; [|done]. intros [? _]. congruence.
  Qed.
  Lemma tracker_joined l room : is_user_joined (d_jrt (y_disp (srun l sys0))) user room = joined user room (events l).
  Proof.
    destruct (srun_ops l) as [cs E]. apply eq_bool_prop_intro.
    rewrite !Is_true_true. rewrite <-h_joined_spec. exact (dispatcher_membership ord Hord _ _ _ (ops_wf l) E user room).
  Qed.
  Lemma tracker_rooms l room : room ∈ joined_rooms_for_user (d_jrt (y_disp (srun l sys0))) user <-> joined user room (events l) = true.
  Proof.
    destruct (srun_ops l) as [cs E]. unfold joined_rooms_for_user. rewrite elem_of_elements.
    rewrite (ti_rooms _ _ _ (dispatcher_reachable ord Hord _ _ _ (ops_wf l) E)). apply h_joined_spec.
  Qed.
  Lemma children_spec l space room : room ∈ get_set (y_children (srun l sys0)) space <-> is_child space room (events l) = true.
  Proof.
    unfold SpaceModel.srun. induction l as [|o l IH] using rev_ind.
    { cbn. unfold get_set. rewrite lookup_empty. cbn. split; [set_solver|done]. }
    rewrite fold_left_app. cbn [fold_left]. unfold events. rewrite flat_map_app. cbn [flat_map]. fold (events l).
    generalize dependent (fold_left sstep l sys0). intros y IH. destruct o as [e|]; cbn [SpaceModel.sstep].
    2: { cbn [y_children]. rewrite app_nil_r. exact IH. }
    destruct (on_new_event ord (y_disp y) (e_room e) (raw e) 0 []) as [d c]. cbn [y_children app].
    rewrite is_child_snoc. unfold about, set_child.
    destruct (e_key e) as [k|]; [|rewrite bool_decide_eq_false_2 by done; rewrite andb_false_r; exact IH].
    destruct (String.eqb (e_type e) "m.space.child"); cbn [andb]; [|exact IH].
    unfold get_set in *. destruct (String.eqb_spec (e_room e) space) as [->|N]; cbn [andb].
    2: { rewrite lookup_insert_ne by done. exact IH. }
    rewrite lookup_insert. cbn [default].
    destruct (decide (k = room)) as [->|Nk].
    - rewrite bool_decide_eq_true_2 by done. destruct (e_via e); cbn; set_solver.
    - rewrite bool_decide_eq_false_2 by congruence. rewrite <-IH. destruct (e_via e); cbn; set_solver.
  Qed.

  (** What calls say about one space and room. *)
  Notation say := (f_child).
  Definition view (space room : string) (l : list sop) : bool := evs (say space room) (facts user (y_calls (srun l sys0))) false.

  Lemma recv_user l : In SRegister l -> is_Some (d_recv (y_disp (srun l sys0)) !! user).
  Proof.
    unfold SpaceModel.srun. induction l as [|o l IH] using rev_ind; [done|].
    rewrite fold_left_app. cbn [fold_left]. intros [H|[->|[]]]%in_app_or.
    - specialize (IH H). generalize dependent (fold_left sstep l sys0). intros y IH. destruct o as [e|]; cbn [SpaceModel.sstep].
      + destruct (on_new_event ord (y_disp y) (e_room e) (raw e) 0 []) as [d c] eqn:E. cbn [y_disp].
        unfold on_new_event in E. repeat case_match; simplify_eq; exact IH.
      + cbn [y_disp d_recv reg_step]. rewrite lookup_insert. by eexists.
    - cbn [SpaceModel.sstep y_disp d_recv reg_step]. rewrite lookup_insert. by eexists.
  Qed.
  Lemma not_recv_user l : ~ In SRegister l -> d_recv (y_disp (srun l sys0)) !! user = None /\ y_calls (srun l sys0) = [].
  Proof.
    unfold SpaceModel.srun. induction l as [|o l IH] using rev_ind. { intros _. split; [|reflexivity]. unfold sys0. cbn [fold_left y_disp d_recv]. by rewrite lookup_singleton_ne. }
    rewrite fold_left_app. cbn [fold_left]. intros H.
    destruct IH as [I1 I2]. { intros Hi. apply H, in_or_app. by left. }
    generalize dependent (fold_left sstep l sys0). intros y I1 I2.
    destruct o as [e|]; [|exfalso; apply H, in_or_app; right; by left]. cbn [SpaceModel.sstep].
    destruct (on_new_event ord (y_disp y) (e_room e) (raw e) 0 []) as [d c] eqn:E. cbn [y_disp y_calls].
    assert (Hd : d_recv d = d_recv (y_disp y)). { unfold on_new_event in E. repeat case_match; simplify_eq; reflexivity. }
    rewrite Hd, I1, I2. split; [reflexivity|].
    assert (Hn : List.filter (fun c => String.eqb (cl_user c) user) c = []); [|by rewrite Hn].
    destruct (List.filter _ c) as [|x xs] eqn:Ef; [reflexivity|]. exfalso.
    assert (Hx : In x (List.filter (fun c => String.eqb (cl_user c) user) c)) by (rewrite Ef; by left).
    apply filter_In in Hx as [Hx Hu%String.eqb_eq].
    destruct (event_call_In ord Hord _ _ _ _ _ _ _ x E) as [Hr _]; [by apply elem_of_list_In|].
    rewrite Hd, Hu, I1 in Hr. discriminate.
  Qed.

  Lemma srun_snoc l o : srun (l ++ [o]) sys0 = sstep (srun l sys0) o.
  Proof. unfold SpaceModel.srun. by rewrite fold_left_app. Qed.

  (** An event about the space is told to the user if they are joined to the space. *)
  Lemma event_told l e :
    In SRegister l -> e_type e = "m.space.child" ->
    length (List.filter (fun c => String.eqb (cl_user c) user) (on_new_event ord (y_disp (srun l sys0)) (e_room e) (raw e) 0 []).2)
    = if joined user (e_room e) (events l) then 1%nat else 0%nat.
  Proof.
    intros Hr Ht. destruct (srun_ops l) as [cs E].
    destruct (on_new_event ord (y_disp (srun l sys0)) (e_room e) (raw e) 0 []) as [d c] eqn:Ee. cbn [snd].
    assert (Hd : d_recv d = d_recv (y_disp (srun l sys0))). { unfold on_new_event in Ee. repeat case_match; simplify_eq; reflexivity. }
    assert (Hm : member_change (raw e) = None). { unfold member_change, raw. cbn [ev_type]. by rewrite Ht. }
    assert (Hj : h_joined (DEvent (e_room e) (raw e) 0 [] :: reverse (ops l)) user (e_room e) <-> joined user (e_room e) (events l) = true).
    { cbn [h_joined]. rewrite String.eqb_refl. unfold joined_by. rewrite Hm. apply h_joined_spec. }
    pose proof (recv_user l Hr) as Hreg.
    destruct (joined user (e_room e) (events l)) eqn:Ej.
    - apply (events_exactly_once ord Hord _ _ _ _ _ _ _ _ _ user (ops_wf l) E Ee Huser Hreg).
      + by rewrite Hd.
      + left. by apply Hj.
    - destruct (List.filter _ c) as [|x xs] eqn:Ef; [reflexivity|]. exfalso.
      assert (Hx : In x (List.filter (fun c => String.eqb (cl_user c) user) c)) by (rewrite Ef; by left).
      apply filter_In in Hx as [Hx Hu%String.eqb_eq].
      destruct (events_only_to_members ord Hord _ _ _ _ _ _ _ _ _ x (ops_wf l) E Ee) as [H|[H|H]]; [by apply elem_of_list_In|congruence| |].
      + rewrite Hu in H. apply Hj in H. discriminate.
      + destruct H as (m & H & _). rewrite Hm in H. discriminate.
  Qed.

  Lemma facts_about e j space room :
    evs (say space room) (facts1 user (CEvent e j)) = fun b => if about space room e then e_via e else b.
  Proof.
    unfold evs, facts1, about. destruct (e_key e) as [k|] eqn:Ek.
    2: { rewrite bool_decide_eq_false_2 by done. by rewrite andb_false_r. }
    destruct (String.eqb_spec (e_type e) "m.room.member") as [Et|Nt]; cbn [andb].
    { rewrite Et. destruct (String.eqb k user); reflexivity. }
    destruct (String.eqb (e_type e) "m.space.child"); cbn [andb]; [|reflexivity].
    cbn [fold_left]. unfold f_child, sets_child. destruct (String.eqb (e_room e) space); cbn [andb]; [|reflexivity].
    destruct (String.eqb_spec k room) as [->|N].
    - rewrite bool_decide_eq_true_2 by done. reflexivity.
    - rewrite bool_decide_eq_false_2 by congruence. reflexivity.
  Qed.

  Lemma view_event l e space room :
    In SRegister l ->
    view space room (l ++ [SEvent e]) =
      if about space room e && joined user space (events l) then e_via e else view space room l.
  Proof.
    intros Hr. unfold view. rewrite srun_snoc. pose proof (event_told l e Hr) as Ht. generalize dependent (srun l sys0). intros y Ht.
    cbn [SpaceModel.sstep]. destruct (on_new_event ord (y_disp y) (e_room e) (raw e) 0 []) as [d c]. cbn [y_calls snd] in *.
    unfold facts at 1. rewrite flat_map_app, evs_app. fold (facts user (y_calls y)).
    set (b := evs _ (facts user (y_calls y)) false). set (j := match e_key e with Some k => _ | None => _ end).
    generalize dependent (List.filter (fun c => String.eqb (cl_user c) user) c). intros mine Hm.
    destruct (about space room e) eqn:Ea; cbn [andb].
    - assert (Et : e_type e = "m.space.child" /\ e_room e = space).
      { unfold about in Ea. apply andb_prop in Ea as [[E1%String.eqb_eq E2%String.eqb_eq]%andb_prop _]. by split. }
      destruct Et as [Et Er]. specialize (Hm Et). rewrite Er in Hm. destruct (joined user space (events l)).
      + destruct mine as [|x [|]]; [discriminate| |discriminate]. cbn [map flat_map]. rewrite app_nil_r, facts_about, Ea. reflexivity.
      + destruct mine; [reflexivity|discriminate].
    - clear Hm. induction mine as [|x mine IH]; [reflexivity|]. cbn [map flat_map]. rewrite evs_app, facts_about, Ea. exact IH.
  Qed.

  Lemma view_register l space room :
    ~ In SRegister l -> is_space space = true ->
    view space room (l ++ [SRegister]) = joined user space (events l) && is_child space room (events l).
  Proof.
    intros Hn Hs. unfold view. rewrite srun_snoc. cbn [SpaceModel.sstep y_calls]. rewrite (proj2 (not_recv_user l Hn)). cbn [app].
    unfold facts. cbn [flat_map]. rewrite app_nil_r. cbn [facts1]. unfold found.
    set (rooms := joined_rooms_for_user _ user). set (y := srun l sys0).
    assert (Hrooms : forall r, In r rooms <-> joined user r (events l) = true). { intros r. rewrite <-elem_of_list_In. apply tracker_rooms. }
    assert (Hex : forall fs, (forall f, In f fs -> match f with Child _ _ b => b = true | _ => True end) ->
       evs (say space room) fs false = true <-> In (Child space room true) fs).
    { clear. intros fs. induction fs as [|f fs IH] using rev_ind; intros H. { by split. }
      assert (IH' : evs (say space room) fs false = true <-> In (Child space room true) fs).
      { apply IH. intros g Hg. apply H, in_or_app. by left. }
      pose proof (H f) as Hf. rewrite in_app_iff in Hf. specialize (Hf (or_intror (or_introl eq_refl))).
      rewrite evs_app, in_app_iff. revert IH'. generalize (evs (say space room) fs false). intros v IH'. cbn [In]. unfold evs. cbn [fold_left]. unfold f_child, sets_child.
      destruct f as [| | | | | | | |p c b|]; cbn [default]; try (rewrite IH'; split; [by left|intros [|[[=]|[]]]; done]).
      subst b. destruct (String.eqb_spec p space) as [->|N]; cbn [andb].
      2: { cbn [default]. rewrite IH'. split; [by left|]. intros [|[[= <-]|[]]]; done. }
      destruct (String.eqb_spec c room) as [->|N]; cbn [default].
      - split; [intros _; right; by left|done].
      - rewrite IH'. split; [by left|]. intros [|[[= <-]|[]]]; done. }
    apply eq_bool_prop_intro. rewrite !Is_true_true. rewrite Hex.
    2: { intros f. rewrite in_flat_map. intros (j & _ & [Hf|[<-|[]]]%in_app_or); [|exact I]. apply in_map_iff in Hf as (? & <- & _). reflexivity. }
    rewrite andb_true_iff, in_flat_map. rewrite <-Hrooms, <-children_spec. fold y. split.
    - intros (j & Hj & [Hf|[Hf|[]]]%in_app_or); [|discriminate].
      apply in_map_iff in Hf as (k & [= E1 E2] & Hk). apply in_map_iff in Hj as (r & <- & Hr). cbn [j_room j_children] in *. subst r.
      rewrite Hs in Hk. apply in_map_iff in Hk as (k' & <- & Hk). cbn [fst] in E2. subst k'. split; [done|].
      by apply elem_of_elements, elem_of_list_In.
    - intros [Hr Hc]. eexists. split. { apply in_map_iff. exists space. split; [reflexivity|exact Hr]. }
      cbn [j_room j_children]. rewrite Hs. apply in_or_app. left. apply in_map_iff.
      exists (room, is_user_joined (d_jrt (y_disp y)) user room). split; [reflexivity|]. apply in_map_iff. exists room. split; [reflexivity|].
      by apply elem_of_list_In, elem_of_elements.
  Qed.

  Lemma facts_no_own l :
    SpaceSpec.no_own_child (events l) -> UserSpec.no_own_child user (y_calls (srun l sys0)).
  Proof.
    intros H p c b. induction l as [|o l IH] using rev_ind; [done|].
    assert (Hl : SpaceSpec.no_own_child (events l)).
    { intros e He. apply H. unfold events. rewrite flat_map_app. apply in_or_app. by left. }
    specialize (IH Hl). rewrite srun_snoc. intros Hin. destruct o as [e|].
    - assert (He : e_type e = "m.space.child" -> e_key e <> Some (e_room e)).
      { apply H. unfold events. rewrite flat_map_app. apply in_or_app. right. by left. }
      revert Hin. cbn [SpaceModel.sstep]. destruct (on_new_event _ _ _ _ _ _) as [d cs]. cbn [y_calls].
      unfold facts. rewrite flat_map_app. intros [Hin|Hin]%in_app_or; [by apply IH|].
      apply in_flat_map in Hin as (x & Hx & Hf). apply in_map_iff in Hx as (y & <- & _).
      unfold facts1 in Hf. destruct (e_key e) as [k|]; [|done]. destruct (_ && _); [destruct Hf as [[=]|[]]|].
      destruct (String.eqb_spec (e_type e) "m.space.child") as [Et|]; [|done]. destruct Hf as [[= <- <- <-]|[]].
      specialize (He Et). congruence.
    - revert Hin. cbn [SpaceModel.sstep y_calls]. unfold facts. rewrite flat_map_app. intros [Hin|Hin]%in_app_or; [by apply IH|].
      cbn [flat_map] in Hin. rewrite app_nil_r in Hin. cbn [facts1] in Hin. apply in_flat_map in Hin as (j & Hj & [Hf|[Hf|[]]]%in_app_or); [|discriminate].
      apply in_map_iff in Hf as (k & [= <- <- _] & Hk). apply in_map_iff in Hj as (r & <- & Hr). cbn [j_room j_children] in *.
      destruct (is_space r); [|done]. apply in_map_iff in Hk as (k' & <- & Hk). cbn [fst].
      apply elem_of_list_In, elem_of_elements, children_spec in Hk. intros ->. unfold is_child in Hk.
      destruct (List.find _ _) as [e|] eqn:Ef; [|discriminate]. apply List.find_some in Ef as [Ei Ea].
      unfold about in Ea. apply andb_prop in Ea as [[E1%String.eqb_eq E2%String.eqb_eq]%andb_prop E3%bool_decide_eq_true].
      apply (Hl e). { by apply in_rev. } { exact E1. } by rewrite E2.
  Qed.

  Lemma events_map l : events (map SEvent l) = l.
  Proof. induction l as [|e l IH]; [reflexivity|]. cbn. by rewrite <-IH at 2. Qed.
  Lemma events_scene before later : events (map SEvent before ++ SRegister :: map SEvent later) = before ++ later.
  Proof. unfold events. rewrite flat_map_app. cbn [flat_map app]. fold (events (map SEvent before)) (events (map SEvent later)). by rewrite !events_map. Qed.

  Lemma view_scene before later space room :
    is_space space = true ->
    last_told user space room before later (view space room (map SEvent before ++ SRegister :: map SEvent later)).
  Proof.
    intros Hs.
    assert (Hreg : forall later, In SRegister (map SEvent before ++ SRegister :: map SEvent later)) by (intros; apply in_or_app; right; by left).
    assert (Hstep : forall later e, view space room (map SEvent before ++ SRegister :: map SEvent (later ++ [e]))
       = if about space room e && joined user space (before ++ later) then e_via e else view space room (map SEvent before ++ SRegister :: map SEvent later)).
    { intros m e. rewrite map_app. cbn [map]. rewrite app_comm_cons, app_assoc. rewrite view_event by apply Hreg. by rewrite events_scene. }
    split.
    - intros l1 e l2 -> Ha Hj. induction l2 as [|e' l2 IH] using rev_ind; intros Hno.
      + rewrite Hstep, Ha, Hj. reflexivity.
      + replace (l1 ++ e :: l2 ++ [e']) with ((l1 ++ e :: l2) ++ [e']) by (by rewrite <-app_assoc).
        rewrite Hstep. specialize (Hno l2 e' []) as Hlast. destruct (about space room e') eqn:Ea.
        * rewrite Hlast by done. cbn [andb]. apply IH. intros m1 x m2 ->. apply (Hno m1 x (m2 ++ [e'])). by rewrite <-app_assoc.
        * cbn [andb]. apply IH. intros m1 x m2 ->. apply (Hno m1 x (m2 ++ [e'])). by rewrite <-app_assoc.
    - induction later as [|e later IH] using rev_ind; intros Hno.
      + cbn [map]. rewrite view_register; [by rewrite events_map| |exact Hs].
        intros Hi. apply in_map_iff in Hi as (? & [=] & _).
      + rewrite Hstep. destruct (about space room e) eqn:Ea.
        * rewrite (Hno later e []) by done. apply IH. intros l1 x l2 ->. apply (Hno l1 x (l2 ++ [e])). by rewrite <-app_assoc.
        * apply IH. intros l1 x l2 ->. apply (Hno l1 x (l2 ++ [e])). by rewrite <-app_assoc.
  Qed.

  Lemma counts_scene before later space room :
    is_space space = true -> SpaceSpec.no_own_child (before ++ later) ->
    last_told user space room before later (counts_as_in user (scene ord user is_space before later) space room).
  Proof.
    intros Hs Hno. unfold counts_as_in, scene.
    rewrite (proj2 (runs_child user _ space room (facts_no_own _ ltac:(by rewrite events_scene)))).
    exact (view_scene before later space room Hs).
  Qed.
End user.
