(** Proofs about what of a room a user is shown. *)
From Verif Require Import Prelude SeeModel SeeSpec.
Open Scope string_scope. Open Scope list_scope. Open Scope Z_scope.

(** ** Lists *)
Notation of_room r l := (List.filter (in_room r) l).
Lemma elem_of_room r l e : e ∈ of_room r l <-> e ∈ l /\ e_room e = r.
Proof.
  rewrite !elem_of_list_In, List.filter_In. unfold in_room. by rewrite String.eqb_eq.
Qed.
Lemma of_room_app r l1 l2 : of_room r (l1 ++ l2) = of_room r l1 ++ of_room r l2.
Proof. apply List.filter_app. Qed.
Lemma of_room_none r l : (forall e, e ∈ l -> e_room e <> r) -> of_room r l = [].
Proof.
  intros H. destruct (of_room r l) as [|e l'] eqn:E; [done|].
  assert (He : e ∈ of_room r l) by (rewrite E; apply elem_of_list_here).
  apply elem_of_room in He as [H1 H2]. destruct (H _ H1 H2).
Qed.
Lemma in_room_refl r e : in_room r e = true <-> e_room e = r.
Proof. unfold in_room. apply String.eqb_eq. Qed.

(** Events in order of position. *)
Notation ordered l := (StronglySorted Z.lt (map e_nid l)).
Lemma ordered_app l1 l2 : ordered (l1 ++ l2) <->
  ordered l1 /\ ordered l2 /\ (forall a b, a ∈ l1 -> b ∈ l2 -> e_nid a < e_nid b).
Proof.
  induction l1 as [|x l1 IH]; cbn.
  - split; [intros H; repeat split; [constructor|done|]; intros a b Ha; by apply elem_of_nil in Ha|tauto].
  - split.
    + intros H. inversion_clear H as [|? ? H1 H2]. apply IH in H1 as (H3 & H4 & H5).
      rewrite map_app, Forall_app in H2. destruct H2 as [H2 H2']. repeat split; [by constructor|done|].
      intros a b Ha Hb. apply elem_of_cons in Ha as [->|Ha]; [|eauto].
      rewrite Forall_forall in H2'. apply H2'. apply elem_of_list_fmap. eauto.
    + intros (H1 & H2 & H3). inversion_clear H1 as [|? ? H4 H5]. constructor.
      * apply IH. repeat split; [done|done|]. intros a b Ha Hb. apply H3; [by apply elem_of_list_further|done].
      * rewrite map_app, Forall_app. split; [done|]. apply Forall_forall. intros n Hn.
        apply elem_of_list_fmap in Hn as (b & -> & Hb). apply H3; [apply elem_of_list_here|done].
Qed.
Lemma ordered_filter f l : ordered l -> ordered (List.filter f l).
Proof.
  induction l as [|x l IH]; [done|]. cbn. intros H. inversion_clear H as [|? ? H1 H2].
  destruct (f x); [|by apply IH]. cbn. constructor; [by apply IH|].
  apply Forall_forall. intros n Hn. apply elem_of_list_fmap in Hn as (b & -> & Hb).
  rewrite Forall_forall in H2. apply H2, elem_of_list_fmap. exists b. split; [done|].
  apply elem_of_list_In in Hb. apply List.filter_In in Hb as [Hb _]. by apply elem_of_list_In.
Qed.
Lemma ordered_snoc l e : ordered l -> (forall a, a ∈ l -> e_nid a < e_nid e) -> ordered (l ++ [e]).
Proof.
  intros H1 H2. apply ordered_app. repeat split; [done|repeat constructor|].
  intros a b Ha Hb. apply elem_of_list_singleton in Hb as ->. eauto.
Qed.
Lemma ordered_inj l a b : ordered l -> a ∈ l -> b ∈ l -> e_nid a = e_nid b -> a = b.
Proof.
  intros H. induction l as [|x l IH]; [intros Ha; by apply elem_of_nil in Ha|].
  inversion_clear H as [|? ? H1 H2]. rewrite Forall_forall in H2.
  assert (Hx : forall c, c ∈ l -> e_nid x < e_nid c).
  { intros c Hc. apply H2, elem_of_list_fmap. eauto. }
  intros Ha Hb E. apply elem_of_cons in Ha as [->|Ha], Hb as [->|Hb]; [done| | |eauto].
  - specialize (Hx _ Hb). lia.
  - specialize (Hx _ Ha). lia.
Qed.

Lemma latest_snoc l e r : latest (l ++ [e]) r = if in_room r e then Some (e_nid e) else latest l r.
Proof.
  unfold latest. rewrite of_room_app. cbn. destruct (in_room r e).
  - rewrite map_app. cbn. by rewrite last_snoc.
  - by rewrite app_nil_r.
Qed.
Lemma latest_split l r n : latest l r = Some n ->
  exists l1 e, of_room r l = l1 ++ [e] /\ e_nid e = n /\ e_room e = r /\ e ∈ l.
Proof.
  unfold latest. destruct (of_room r l) as [|x l'] eqn:E using rev_ind; [done|].
  rewrite map_app. cbn. rewrite last_snoc. intros [= <-].
  exists l', x. assert (Hx : x ∈ of_room r l) by (rewrite E; set_solver).
  apply elem_of_room in Hx as [H1 H2]. done.
Qed.
Lemma latest_none l r : latest l r = None -> of_room r l = [].
Proof.
  unfold latest. destruct (of_room r l) as [|x l'] using rev_ind; [done|].
  rewrite map_app. cbn. by rewrite last_snoc.
Qed.

(** ** Being in a room *)
Definition cur (l : list ev) : Prop :=
  exists l1 e l2, l = l1 ++ e :: l2 /\ e_own e = Some Join /\ Forall (fun e => ~ departs e) l2.
Lemma cur_nil : ~ cur [].
Proof. intros (l1 & e & l2 & H & _). by destruct l1. Qed.
Lemma cur_snoc l e : cur (l ++ [e]) <-> e_own e = Some Join \/ (cur l /\ ~ departs e).
Proof.
  split.
  - intros (l1 & x & l2 & H & Hj & Hd). destruct l2 as [|y l2 _] using rev_ind.
    + apply app_inj_tail in H as [-> ->]. by left.
    + rewrite app_comm_cons, app_assoc in H. apply app_inj_tail in H as [-> ->].
      apply Forall_app in Hd as [H1 H2]. inversion_clear H2. right. split; [|done]. exists l1, x, l2. done.
  - intros [H|[(l1 & x & l2 & -> & Hj & Hd) Hn]].
    + exists l, e, []. done.
    + exists l1, x, (l2 ++ [e]). split; [by rewrite <- app_assoc|]. split; [done|].
      apply Forall_app. auto.
Qed.

Record base (s : st) : Prop := mk_base {
  b_ord : ordered (s_db s);
  b_pos : Forall (fun e => 0 < e_nid e) (s_db s);
  b_split : forall r, of_room r (s_db s) = of_room r (s_done s) ++ of_room r (s_todo s);
  b_joined : forall r, r ∈ s_joined s <-> cur (of_room r (s_done s));
  b_cache : forall r, u_invite (udata s r) = true -> exists c, u_data (udata s r) = Some c /\ (r, c) ∈ s_invs s;
  b_event : forall e u, UEvent e u ∈ s_buf s ->
    e ∈ s_db s /\ (inside (s_db s) (e_room e) (e_nid e) \/ departs e);
  b_inv : forall r c u, UInvite r c u ∈ s_buf s -> (r, c) ∈ s_invs s;
  b_lp : forall r, default 0 (s_lp s !! r) <= s_anchor s;
  b_anchor : forall r v, r ∈ s_joined s -> latest (s_done s) r = Some v ->
    v <= s_anchor s \/ exists e u, UEvent e u ∈ s_buf s /\ e_room e = r /\ e_nid e = v }.

Section Inside.
Context (s : st) (B : base s).
Lemma done_in_db e : e ∈ s_done s -> e ∈ s_db s.
Proof.
  intros H. assert (H' : e ∈ of_room (e_room e) (s_done s)) by by apply elem_of_room.
  assert (H2 : e ∈ of_room (e_room e) (s_db s)) by (rewrite (b_split s B); set_solver).
  by apply elem_of_room in H2 as [? _].
Qed.
Lemma todo_in_db e : e ∈ s_todo s -> e ∈ s_db s.
Proof.
  intros H. assert (H' : e ∈ of_room (e_room e) (s_todo s)) by by apply elem_of_room.
  assert (H2 : e ∈ of_room (e_room e) (s_db s)) by (rewrite (b_split s B); set_solver).
  by apply elem_of_room in H2 as [? _].
Qed.
Lemma room_ordered r : ordered (of_room r (s_done s) ++ of_room r (s_todo s)).
Proof. rewrite <- (b_split s B). apply ordered_filter, B. Qed.

Lemma inside_latest r n : latest (s_done s) r = Some n ->
  inside (s_db s) r n <-> cur (of_room r (s_done s)).
Proof.
  intros Hn. apply latest_split in Hn as (l0 & z & E & Hz & Hr & Hin). pose proof (room_ordered r) as O.
  assert (Hle : forall a, a ∈ of_room r (s_done s) -> e_nid a <= n).
  { intros a Ha. rewrite E in O, Ha. apply ordered_app in O as (O & _ & _). apply ordered_app in O as (_ & _ & O).
    apply elem_of_app in Ha as [Ha|Ha].
    - specialize (O a z Ha ltac:(set_solver)). lia.
    - apply elem_of_list_singleton in Ha as ->. lia. }
  assert (Hgt : forall a, a ∈ of_room r (s_todo s) -> n < e_nid a).
  { intros a Ha. apply ordered_app in O as (_ & _ & O). specialize (O z a). rewrite E in O.
    rewrite <- Hz. apply O; set_solver. }
  assert (Hdone : forall a, a ∈ s_db s -> e_room a = r -> e_nid a <= n -> a ∈ of_room r (s_done s)).
  { intros a Ha Hra Hna. assert (H : a ∈ of_room r (s_db s)) by by apply elem_of_room.
    rewrite (b_split s B) in H. apply elem_of_app in H as [H|H]; [done|]. specialize (Hgt _ H). lia. }
  split.
  - intros (e & He & Hre & Hj & Hne & Hd). specialize (Hdone e He Hre Hne) as H.
    apply elem_of_list_split in H as (l1 & l2 & El). exists l1, e, l2. split; [done|]. split; [done|].
    apply Forall_forall. intros a Ha Hda.
    assert (Ha' : a ∈ of_room r (s_done s)) by (rewrite El; set_solver).
    apply (Hd a); [apply done_in_db|by apply elem_of_room in Ha' as [_ ?]|done|].
    { by apply elem_of_room in Ha' as [? _]. }
    split; [|by apply Hle]. apply ordered_app in O as (O & _ & _). rewrite El in O.
    change (e :: l2) with ([e] ++ l2) in O. apply ordered_app in O as (_ & O & _).
    apply ordered_app in O as (_ & _ & O). apply O; set_solver.
  - intros (l1 & e & l2 & El & Hj & Hd). assert (He : e ∈ of_room r (s_done s)) by (rewrite El; set_solver).
    exists e. pose proof He as He'. apply elem_of_room in He' as [He1 He2].
    split; [by apply done_in_db|]. split; [done|]. split; [done|]. split; [by apply Hle|].
    intros a Ha Hra Hda [H1 H2]. specialize (Hdone a Ha Hra H2) as H. rewrite El in H.
    apply ordered_app in O as (O & _ & _). rewrite El in O.
    apply elem_of_app in H as [H|H].
    + apply ordered_app in O as (_ & _ & O). specialize (O a e H ltac:(set_solver)). lia.
    + apply elem_of_cons in H as [->|H]; [lia|]. rewrite Forall_forall in Hd. by apply (Hd a).
Qed.
Lemma cur_latest r : cur (of_room r (s_done s)) -> exists n, latest (s_done s) r = Some n.
Proof.
  intros H. destruct (latest (s_done s) r) as [n|] eqn:E; [by exists n|].
  apply latest_none in E. rewrite E in H. by apply cur_nil in H.
Qed.
Lemma joined_is_in r : r ∈ s_joined s <-> is_in s r.
Proof.
  rewrite (b_joined s B). split.
  - intros H. destruct (cur_latest r H) as [n Hn]. exists n. split; [done|]. by apply inside_latest.
  - intros (n & Hn & H). by apply (inside_latest r n Hn).
Qed.
End Inside.

Lemma inside_grows d e r n : (forall a, a ∈ d -> e_nid a < e_nid e) -> (exists a, a ∈ d /\ e_nid a = n) ->
  inside d r n -> inside (d ++ [e]) r n.
Proof.
  intros Hlt (a & Ha & <-) (j & H1 & H2 & H3 & H4 & H5). exists j.
  split; [set_solver|]. split; [done|]. split; [done|]. split; [done|].
  intros e' He' Hr Hd Hn. apply elem_of_app in He' as [He'|He']; [by apply (H5 e')|].
  apply elem_of_list_singleton in He' as ->. specialize (Hlt a Ha). lia.
Qed.

(** ** The invariant holds *)
Lemma lookup_fold_latest d rs r :
  (fold_right (fun r m => match latest d r with Some n => <[r := n]> m | None => m end) ∅ rs : gmap string Z) !! r
  = if bool_decide (r ∈ rs) then latest d r else None.
Proof.
  induction rs as [|x rs IH]; cbn; [done|].
  destruct (decide (r = x)) as [->|N].
  - rewrite bool_decide_eq_true_2 by set_solver. destruct (latest d x) eqn:E; [by rewrite lookup_insert|].
    rewrite IH. by destruct (bool_decide _).
  - transitivity (fold_right (fun r (m : gmap string Z) => match latest d r with Some n => <[r := n]> m | None => m end) ∅ rs !! r).
    { destruct (latest d x); [by rewrite lookup_insert_ne|done]. }
    rewrite IH. by rewrite (bool_decide_ext (r ∈ rs) (r ∈ x :: rs)) by set_solver.
Qed.
Lemma lookup_fold_inv (inv : list (string * string)) r u :
  (fold_right (fun p m => <[p.1 := mk_urd true (Some p.2) false]> m) ∅ inv : gmap string urd) !! r = Some u ->
  exists c, u = mk_urd true (Some c) false /\ (r, c) ∈ inv.
Proof.
  induction inv as [|[r' c] inv IH]; cbn; [done|].
  destruct (decide (r = r')) as [->|N].
  - rewrite lookup_insert. intros [= <-]. exists c. split; [done|set_solver].
  - rewrite lookup_insert_ne by done. intros H. apply IH in H as (c' & ? & ?). exists c'. split; [done|set_solver].
Qed.
Lemma track_cur l ji e r :
  (r ∈ ji.1 <-> cur (of_room r l)) -> (r ∈ (track ji e).1 <-> cur (of_room r (l ++ [e]))).
Proof.
  intros H. rewrite of_room_app. cbn. destruct (in_room r e) eqn:E.
  - apply in_room_refl in E. rewrite cur_snoc, <- H. unfold track, departs.
    destruct (e_own e) as [[]|]; cbn; rewrite <- ?E; set_solver.
  - rewrite app_nil_r, <- H. assert (N : e_room e <> r) by (intros N; apply in_room_refl in N; congruence).
    unfold track. destruct (e_own e) as [[]|]; cbn; set_solver.
Qed.
Lemma fold_track d r : r ∈ (fold_left track d (∅, ∅)).1 <-> cur (of_room r d).
Proof.
  induction d as [|e d IH] using rev_ind.
  - cbn. split; [set_solver|]. intros H. by apply cur_nil in H.
  - rewrite fold_left_app. cbn [fold_left]. by apply track_cur.
Qed.
Lemma latest_le_last d r n : ordered d -> latest d r = Some n -> n <= default 0 (last (map e_nid d)).
Proof.
  intros O H. apply latest_split in H as (_ & e & _ & <- & _ & He).
  destruct d as [|x d _] using rev_ind; [by apply elem_of_nil in He|].
  rewrite map_app. cbn. rewrite last_snoc. cbn. apply ordered_app in O as (_ & _ & O).
  apply elem_of_app in He as [He|He]; [specialize (O e x He ltac:(set_solver)); lia|].
  apply elem_of_list_singleton in He as ->. lia.
Qed.
Lemma last_nonneg d : Forall (fun e => 0 < e_nid e) d -> 0 <= default 0 (last (map e_nid d)).
Proof.
  intros H. destruct d as [|x d _] using rev_ind; [done|]. rewrite map_app. cbn. rewrite last_snoc. cbn.
  apply Forall_app in H as [_ H]. inversion_clear H. lia.
Qed.
Lemma base_connected d inv : stored d -> base (connected d inv).
Proof.
  intros [O P]. split; cbn; try done.
  - intros r. by rewrite app_nil_r.
  - intros r. apply fold_track.
  - intros r. unfold udata. cbn. destruct (_ !! r) as [u|] eqn:E; [|done].
    apply lookup_fold_inv in E as (c & -> & H). cbn. eauto.
  - intros e u H. by apply elem_of_nil in H.
  - intros r c u H. by apply elem_of_nil in H.
  - intros r. rewrite lookup_fold_latest. destruct (bool_decide _); [|by apply last_nonneg].
    destruct (latest d r) as [n|] eqn:E; cbn; [by eapply latest_le_last|by apply last_nonneg].
  - intros r v _ H. left. by eapply latest_le_last.
Qed.

(** Steps that concern only the connection. *)
Lemma udata_cache s s' r : s_cache s = s_cache s' -> udata s r = udata s' r.
Proof. unfold udata. by intros ->. Qed.

Record same (s s' : st) : Prop := mk_same {
  sm_db : s_db s' = s_db s; sm_todo : s_todo s' = s_todo s; sm_done : s_done s' = s_done s;
  sm_joined : s_joined s' = s_joined s; sm_invited : s_invited s' = s_invited s;
  sm_cache : s_cache s' = s_cache s; sm_buf : s_buf s' = s_buf s; sm_invs : s_invs s' = s_invs s }.
Lemma same_refl s : same s s.
Proof. by split. Qed.
Lemma same_trans s1 s2 s3 : same s1 s2 -> same s2 s3 -> same s1 s3.
Proof. intros [] []. split; congruence. Qed.
Lemma same_load pos rs s : same s (load_rooms pos rs s). Proof. by split. Qed.
Lemma same_set_room s x : same s (set_room s x). Proof. by split. Qed.
Lemma same_show_event hu s x : same s (show_event hu s x).
Proof. unfold show_event. destruct (_ && _); by split. Qed.
Lemma same_show_meta s x : same s (show_meta s x).
Proof. unfold show_meta. destruct (bool_decide _); by split. Qed.
Lemma same_process s x wins sub hu pos : same s (process s x wins sub hu pos).
Proof.
  unfold process. destruct (behind s x); [by split|].
  eapply same_trans; [|apply same_show_meta]. eapply same_trans; [|apply same_show_event].
  eapply same_trans; [|apply same_load]. apply same_set_room.
Qed.
Lemma show_event_fields hu s x : s_anchor (show_event hu s x) = s_anchor s /\ s_listed (show_event hu s x) = s_listed s /\
  (s_lp (show_event hu s x) = s_lp s \/ exists e u, x = UEvent e u /\ s_lp (show_event hu s x) = <[e_room e := e_nid e]> (s_lp s)).
Proof. unfold show_event. destruct (_ && _); cbn; [|auto]. destruct x; cbn; eauto 10. Qed.
Lemma show_meta_fields s x : s_anchor (show_meta s x) = s_anchor s /\ s_listed (show_meta s x) = s_listed s /\
  s_lp (show_meta s x) = s_lp s.
Proof. unfold show_meta. by destruct (bool_decide _). Qed.

Lemma lookup_fold_min pos rs a (m : gmap string Z) r :
  fold_right (fun r m => <[r := Z.min (pos r) a]> m) m rs !! r
  = if bool_decide (r ∈ rs) then Some (Z.min (pos r) a) else m !! r.
Proof.
  induction rs as [|x rs IH]; cbn; [done|]. destruct (decide (r = x)) as [->|N].
  - rewrite lookup_insert. by rewrite bool_decide_eq_true_2 by set_solver.
  - rewrite lookup_insert_ne by done. rewrite IH.
    by rewrite (bool_decide_ext (r ∈ rs) (r ∈ x :: rs)) by set_solver.
Qed.
Lemma load_rooms_lp pos rs s r : default 0 (s_lp s !! r) <= s_anchor s ->
  default 0 (s_lp (load_rooms pos rs s) !! r) <= s_anchor s.
Proof. cbn. rewrite lookup_fold_min. destruct (bool_decide _); cbn; [lia|done]. Qed.

Lemma process_anchor s x wins sub hu pos :
  s_anchor s <= s_anchor (process s x wins sub hu pos) /\
  (forall e u, x = UEvent e u -> default 0 (s_lp s !! e_room e) <= s_anchor s -> e_nid e <= s_anchor (process s x wins sub hu pos)) /\
  ((forall r, default 0 (s_lp s !! r) <= s_anchor s) ->
   forall r, default 0 (s_lp (process s x wins sub hu pos) !! r) <= s_anchor (process s x wins sub hu pos)).
Proof.
  unfold process. destruct (behind s x) eqn:Eb.
  - split; [lia|]. split; [|done]. intros e u -> H. cbn in Eb. lia.
  - set (s1 := set_room s x). set (rs := _ ++ _).
    destruct (show_meta_fields (show_event hu (load_rooms pos rs s1) x) x) as (Ea & _ & El). rewrite Ea, El.
    destruct (show_event_fields hu (load_rooms pos rs s1) x) as (Ea' & _ & El'). rewrite Ea'.
    assert (A : s_anchor (load_rooms pos rs s1) = s_anchor s1) by done. rewrite A.
    assert (A1 : s_anchor s <= s_anchor s1) by (cbn; destruct x; lia).
    split; [done|]. split.
    + intros e u -> _. cbn. lia.
    + intros H r. assert (H1 : default 0 (s_lp (load_rooms pos rs s1) !! r) <= s_anchor s1).
      { apply load_rooms_lp. cbn. specialize (H r). cbn in A1. lia. }
      destruct El' as [->|(e & u & -> & ->)]; [done|].
      destruct (decide (r = e_room e)) as [->|N]; [rewrite lookup_insert; cbn; lia|by rewrite lookup_insert_ne].
Qed.

Lemma elem_take_drop {A} n (l : list A) y : y ∈ take n l ++ drop (S n) l -> y ∈ l.
Proof.
  intros H. apply elem_of_app in H as [H|H].
  - apply elem_of_list_lookup in H as [i H]. apply lookup_take_Some in H as [H _]. by eapply elem_of_list_lookup_2.
  - apply elem_of_list_lookup in H as [i H]. rewrite lookup_drop in H. by eapply elem_of_list_lookup_2.
Qed.
Lemma elem_take_drop_inv {A} n (l : list A) x y : l !! n = Some x -> y ∈ l -> y = x \/ y ∈ take n l ++ drop (S n) l.
Proof.
  intros Hx H. rewrite <- (take_drop_middle l n x Hx) in H. set_solver.
Qed.

Lemma base_step s a s' : base s -> step s a = Some s' -> base s'.
Proof.
  intros B. destruct a as [e|n|r c|r kick|r|wins subs pos|n wins sub hu pos]; cbn.
  - (* Store *)
    destruct (forallb _ (s_db s) && _) eqn:E; [|done]. intros [= <-]. apply andb_prop in E as [E E0].
    rewrite forallb_forall in E.
    assert (Hlt : forall a, a ∈ s_db s -> e_nid a < e_nid e).
    { intros a Ha. apply elem_of_list_In in Ha. specialize (E _ Ha). lia. }
    split; cbn; try apply B.
    + apply ordered_snoc; [apply B|done].
    + apply Forall_app. split; [apply B|]. constructor; [lia|constructor].
    + intros r. rewrite !of_room_app, (b_split s B). by rewrite app_assoc.
    + intros e' u H. destruct (b_event s B e' u H) as [H1 H2]. split; [set_solver|].
      destruct H2 as [H2|H2]; [left|by right]. apply inside_grows; eauto.
  - (* Dispatch *)
    destruct (s_todo s !! n) as [e|] eqn:En; [|done]. destruct (forallb _ _) eqn:Ef; [|done]. intros [= <-].
    assert (Htake : forall a, a ∈ take n (s_todo s) -> e_room a <> e_room e).
    { intros a Ha. rewrite forallb_forall in Ef. apply elem_of_list_In in Ha. specialize (Ef _ Ha).
      unfold in_room in Ef. intros N. rewrite N, String.eqb_refl in Ef. done. }
    set (todo := take n (s_todo s) ++ drop (S n) (s_todo s)).
    assert (Hsplit : forall r, of_room r (s_db s) = of_room r (s_done s ++ [e]) ++ of_room r todo).
    { intros r. rewrite (b_split s B), of_room_app, <- app_assoc. f_equal. cbn.
      rewrite <- (take_drop_middle (s_todo s) n e En) at 1. unfold todo. rewrite !of_room_app. cbn.
      destruct (in_room r e) eqn:Er; [|done]. apply in_room_refl in Er.
      rewrite (of_room_none r (take n (s_todo s))); [done|]. rewrite <- Er. done. }
    assert (He : e ∈ s_db s) by (apply (todo_in_db s B); by eapply elem_of_list_lookup_2).
    pose proof (fun r => track_cur (s_done s) (s_joined s, s_invited s) e r (b_joined s B r)) as Hj.
    set (ji := track (s_joined s, s_invited s) e) in *.
    assert (Hin : e_room e ∈ ji.1 -> inside (s_db s) (e_room e) (e_nid e)).
    { intros H. apply Hj in H.
      set (s2 := mk_st (s_db s) todo (s_done s ++ [e]) ji.1 ji.2 ∅ (s_listed s) ∅
              (Z.max 0 (e_nid e)) [] (s_resp s) (s_out s) (s_invs s)).
      (* a state with the same events: only the events matter *)
      assert (B2 : ordered (of_room (e_room e) (s_done s ++ [e]) ++ of_room (e_room e) todo)).
      { rewrite <- Hsplit. apply ordered_filter, B. }
      destruct H as (l1 & j & l2 & El & Hjo & Hd). exists j.
      assert (Hj' : j ∈ of_room (e_room e) (s_done s ++ [e])) by (rewrite El; set_solver).
      assert (Hjdb : j ∈ of_room (e_room e) (s_db s)) by (rewrite Hsplit; set_solver).
      apply elem_of_room in Hjdb as [Hj1 Hj2]. split; [done|]. split; [done|]. split; [done|].
      assert (Hlast : forall a, a ∈ of_room (e_room e) (s_done s ++ [e]) -> e_nid a <= e_nid e).
      { intros a Ha. rewrite of_room_app in Ha, B2. cbn in Ha, B2.
        rewrite (proj2 (in_room_refl (e_room e) e) eq_refl) in Ha, B2.
        apply ordered_app in B2 as (B2 & _ & _). apply ordered_app in B2 as (_ & _ & B2).
        apply elem_of_app in Ha as [Ha|Ha]; [specialize (B2 a e Ha ltac:(set_solver)); lia|].
        apply elem_of_list_singleton in Ha as ->. lia. }
      split; [by apply Hlast|]. intros a Ha Hra Hda [Hn1 Hn2].
      assert (Ha' : a ∈ of_room (e_room e) (s_db s)) by by apply elem_of_room.
      rewrite Hsplit in Ha'. apply elem_of_app in Ha' as [Ha'|Ha'].
      - rewrite El in Ha', B2. apply ordered_app in B2 as (B2 & _ & _). apply elem_of_app in Ha' as [Ha'|Ha'].
        + apply ordered_app in B2 as (_ & _ & B2). specialize (B2 a j Ha' ltac:(set_solver)). lia.
        + apply elem_of_cons in Ha' as [->|Ha']; [lia|]. rewrite Forall_forall in Hd. by apply (Hd a).
      - apply ordered_app in B2 as (_ & _ & B2). specialize (B2 e a).
        rewrite of_room_app in B2. cbn in B2. rewrite (proj2 (in_room_refl (e_room e) e) eq_refl) in B2.
        specialize (B2 ltac:(set_solver) Ha'). lia. }
    assert (Hdep : ~ e_room e ∈ ji.1 -> told (s_joined s) (s_invited s) ji.1 e = true -> departs e).
    { intros N. unfold told. rewrite bool_decide_eq_false_2 by done. cbn. unfold departs.
      destruct (e_own e) as [[]|]; auto; done. }
    assert (Hanch : forall r v, r ∈ ji.1 -> latest (s_done s ++ [e]) r = Some v -> in_room r e = false ->
      v <= s_anchor s \/ exists e' u, UEvent e' u ∈ s_buf s /\ e_room e' = r /\ e_nid e' = v).
    { intros r v Hr Hv Er. rewrite latest_snoc, Er in Hv. apply (b_anchor s B r v); [|done].
      apply (b_joined s B). apply Hj in Hr. rewrite of_room_app in Hr. cbn in Hr. by rewrite Er, app_nil_r in Hr. }
    unfold dispatch. fold ji. destruct (told (s_joined s) (s_invited s) ji.1 e) eqn:Et.
    + split; cbn; try apply B; try done.
      * intros r. unfold udata. cbn. destruct (decide (r = e_room e)) as [->|N].
        -- rewrite lookup_insert. cbn [default from_option id]. fold (udata s (e_room e)). unfold cache_event. destruct (e_own e) as [m|].
           ++ destruct (u_invite (udata s (e_room e))) eqn:Ei; [|by rewrite Ei].
              intros _. by apply (b_cache s B).
           ++ apply (b_cache s B).
        -- rewrite lookup_insert_ne by done. apply (b_cache s B r).
      * intros e' u H. apply elem_of_app in H as [H|H]; [by apply (b_event s B) in H|].
        apply elem_of_list_singleton in H. injection H as -> ->. split; [done|].
        destruct (decide (e_room e ∈ ji.1)) as [D|D]; [left; by apply Hin|right; by apply Hdep].
      * intros r c u H. apply elem_of_app in H as [H|H]; [by apply (b_inv s B) in H|].
        apply elem_of_list_singleton in H. done.
      * intros r v Hr Hv. change (latest (s_done s ++ [e]) r = Some v) in Hv. destruct (in_room r e) eqn:Er.
        -- right. rewrite latest_snoc, Er in Hv. injection Hv as <-. apply in_room_refl in Er.
           eexists e, _. split; [|done]. apply elem_of_app. right. apply elem_of_list_here.
        -- destruct (Hanch r v Hr Hv Er) as [?|(e' & u & H & ?)]; [by left|right].
           exists e', u. split; [|done]. apply elem_of_app. by left.
    + split; cbn; try apply B; try done.
      intros r v Hr Hv. destruct (in_room r e) eqn:Er; [|by apply Hanch].
      apply in_room_refl in Er. subst r. unfold told in Et. rewrite bool_decide_eq_true_2 in Et by done. done.
  - (* Invited *)
    intros [= <-]. split; cbn; try apply B.
    + intros r'. unfold udata. cbn. destruct (decide (r' = r)) as [->|N].
      * rewrite lookup_insert. cbn. intros _. exists c. set_solver.
      * rewrite lookup_insert_ne by done. intros H. apply (b_cache s B r') in H as (c' & ? & ?). exists c'. set_solver.
    + intros e u H. apply elem_of_app in H as [H|H]; [by apply (b_event s B) in H|].
      apply elem_of_list_singleton in H. done.
    + intros r' c' u H. apply elem_of_app in H as [H|H]; [apply (b_inv s B) in H; set_solver|].
      apply elem_of_list_singleton in H. injection H as -> -> ->. set_solver.
    + intros r' v Hr Hv. destruct (b_anchor s B r' v Hr Hv) as [?|(e' & u & H & ?)]; [by left|right].
      exists e', u. split; [|done]. apply elem_of_app. by left.
  - (* Left *)
    intros [= <-]. split; cbn; try apply B.
    + intros r'. unfold udata. cbn. destruct (decide (r' = r)) as [->|N].
      * rewrite lookup_insert. done.
      * rewrite lookup_insert_ne by done. apply (b_cache s B r').
    + intros e u H. apply elem_of_app in H as [H|H]; [by apply (b_event s B) in H|].
      apply elem_of_list_singleton in H. done.
    + intros r' c' u H. apply elem_of_app in H as [H|H]; [by apply (b_inv s B) in H|].
      apply elem_of_list_singleton in H. done.
    + intros r' v Hr Hv. destruct (b_anchor s B r' v Hr Hv) as [?|(e' & u & H & ?)]; [by left|right].
      exists e', u. split; [|done]. apply elem_of_app. by left.
  - (* Note *)
    intros [= <-]. split; cbn; try apply B.
    + intros e u H. apply elem_of_app in H as [H|H]; [by apply (b_event s B) in H|].
      apply elem_of_list_singleton in H. done.
    + intros r' c' u H. apply elem_of_app in H as [H|H]; [by apply (b_inv s B) in H|].
      apply elem_of_list_singleton in H. done.
    + intros r' v Hr Hv. destruct (b_anchor s B r' v Hr Hv) as [?|(e' & u & H & ?)]; [by left|right].
      exists e', u. split; [|done]. apply elem_of_app. by left.
  - (* Request *)
    intros [= <-]. split; cbn; try apply B.
    intros r. rewrite lookup_fold_min. destruct (bool_decide _); cbn; [lia|apply B].
  - (* Deliver *)
    destruct (s_buf s !! n) as [x|] eqn:En; [|done]. destruct (forallb _ _) eqn:Ef; [|done]. intros [= <-].
    set (s0 := set_buf s (take n (s_buf s) ++ drop (S n) (s_buf s))).
    destruct (same_process s0 x wins sub hu pos) as [E1 E2 E3 E4 E5 E6 E7 E8].
    destruct (process_anchor s0 x wins sub hu pos) as (A1 & A2 & A3).
    set (s1 := process s0 x wins sub hu pos) in *.
    assert (Hbuf : forall y, y ∈ s_buf s1 -> y ∈ s_buf s).
    { rewrite E7. intros y Hy. exact (elem_take_drop n (s_buf s) y Hy). }
    split.
    + rewrite E1. apply B.
    + rewrite E1. apply B.
    + rewrite E1, E2, E3. apply B.
    + rewrite E3, E4. apply B.
    + intros r. rewrite (udata_cache s1 s0 r E6), E8. apply (b_cache s B r).
    + rewrite E1. intros e u H. by apply (b_event s B e u), Hbuf.
    + rewrite E8. intros r c u H. by apply (b_inv s B r c u), Hbuf.
    + apply A3. apply (b_lp s B).
    + rewrite E3, E4. intros r v Hr Hv.
      destruct (b_anchor s B r v Hr Hv) as [H|(e & u & H & He & Hn)].
      * left. change (s_anchor s0) with (s_anchor s) in A1. lia.
      * rewrite E7. destruct (elem_take_drop_inv n (s_buf s) x _ En H) as [<-|H'].
        -- left. rewrite <- Hn. apply (A2 e u eq_refl). apply (b_lp s B).
        -- right. exists e, u. done.
Qed.
Lemma base_run l : forall s s', base s -> run s l = Some s' -> base s'.
Proof.
  induction l as [|a l IH]; cbn; intros s s' B H; [by injection H as <-|].
  destruct (step s a) as [s1|] eqn:E; [|done]. cbn in H. eapply IH; [|done]. by eapply base_step.
Qed.

(** ** What is shown *)
(** An item shown is of a position that is in the database. *)
Definition dated (d : list ev) (x : shown) : Prop :=
  match x with
  | ShowEvent r n | ShowMeta r n | ShowState r n => exists a, a ∈ d /\ e_nid a = n
  | _ => True
  end.
Definition fine (s : st) (x : shown) : Prop := may_see (s_db s) (s_invs s) x /\ dated (s_db s) x.

Lemma fine_grows d invs e x : (forall a, a ∈ d -> e_nid a < e_nid e) ->
  may_see d invs x /\ dated d x -> may_see (d ++ [e]) invs x /\ dated (d ++ [e]) x.
Proof.
  intros Hlt [H D]. destruct x as [r n|r n|r n|r c|r]; cbn in *; try done.
  all: split; [|destruct D as (a & ? & ?); exists a; set_solver].
  all: destruct H as [H|(a & ? & ? & ? & ?)]; [left; by apply inside_grows|right; exists a; set_solver].
Qed.

Lemma latest_all_le s r v : ordered (s_db s) -> latest (s_done s) r = Some v -> of_room r (s_db s) = of_room r (s_done s) ->
  v <= s_anchor s -> latest (List.filter (fun e => e_nid e <=? s_anchor s) (s_db s)) r = Some v.
Proof.
  intros O Hv E Hle. rewrite <- Hv. unfold latest. f_equal. f_equal. rewrite <- E.
  apply latest_split in Hv as (l1 & z & El & Hz & _ & _). rewrite <- E in El.
  assert (Hall : forall a, a ∈ of_room r (s_db s) -> e_nid a <= s_anchor s).
  { intros a Ha. pose proof (ordered_filter (in_room r) _ O) as O'. rewrite El in O', Ha.
    apply ordered_app in O' as (_ & _ & O'). apply elem_of_app in Ha as [Ha|Ha].
    - specialize (O' a z Ha ltac:(set_solver)). lia.
    - apply elem_of_list_singleton in Ha as ->. lia. }
  clear -Hall. induction (s_db s) as [|a l IH]; [done|]. cbn.
  destruct (in_room r a) eqn:Er.
  - assert (Ha : e_nid a <= s_anchor s) by (apply Hall; cbn; rewrite Er; set_solver).
    replace (e_nid a <=? s_anchor s) with true by lia. cbn. rewrite Er. f_equal. apply IH.
    intros b Hb. apply Hall. cbn. rewrite Er. set_solver.
  - assert (H : of_room r (List.filter (fun e => e_nid e <=? s_anchor s) l) = of_room r l).
    { apply IH. intros b Hb. apply Hall. cbn. by rewrite Er. }
    destruct (e_nid a <=? s_anchor s); cbn; [by rewrite Er|done].
Qed.

(** Loading a room when it fits. *)
Lemma load_fit s r x : base s -> fit s r -> x ∈ load s r -> fine s x.
Proof.
  intros B F. unfold load. destruct (u_invite (udata s r)) eqn:Ei.
  - destruct (b_cache s B r Ei) as (c & -> & Hc). intros H. apply elem_of_list_singleton in H as ->. done.
  - destruct F as [F|[(v & Hv & Hin) [Q1 Q2]]]; [unfold is_invited in F; congruence|].
    rewrite Hv. pose proof (latest_split _ _ _ Hv) as (l1 & z & El & Hz & Hzr & Hzd).
    assert (Hd : forall w, w = v -> exists a, a ∈ s_db s /\ e_nid a = w).
    { intros w ->. exists z. split; [by apply done_in_db|done]. }
    assert (E : of_room r (s_db s) = of_room r (s_done s)).
    { rewrite (b_split s B). by rewrite (of_room_none r (s_todo s) Q1), app_nil_r. }
    assert (Hle : v <= s_anchor s).
    { destruct (b_anchor s B r v) as [H|(e & u & H & He & _)]; [|done|done|destruct (Q2 _ _ H He)].
      apply (joined_is_in s B). by exists v. }
    rewrite (latest_all_le s r v (b_ord s B) Hv E Hle). intros H.
    repeat (apply elem_of_cons in H as [->|H]; [split; [by left|by apply Hd]|]). by apply elem_of_nil in H.
Qed.
(** Loading a room in which the user is: all but its state. *)
Lemma load_joined s r x : base s -> is_in s r -> x ∈ load s r -> fine s x \/ exists n, x = ShowState r n.
Proof.
  intros B (v & Hv & Hin). unfold load. destruct (u_invite (udata s r)) eqn:Ei.
  - destruct (b_cache s B r Ei) as (c & -> & Hc). intros H. apply elem_of_list_singleton in H as ->. by left.
  - rewrite Hv. pose proof (latest_split _ _ _ Hv) as (l1 & z & El & Hz & Hzr & Hzd).
    intros H. apply elem_of_cons in H as [->|H].
    + left. split; [by left|]. exists z. split; [by apply done_in_db|done].
    + right. destruct (latest (List.filter (fun e => e_nid e <=? s_anchor s) (s_db s)) r) as [w|]; [|by apply elem_of_nil in H].
      apply elem_of_list_singleton in H as ->. by exists w.
Qed.

(** The new items of a step. *)
Lemma load_rooms_out pos rs s : s_out (load_rooms pos rs s) = s_out s ++ concat (map (load s) rs).
Proof. done. Qed.
Lemma elem_loads s rs x : x ∈ concat (map (load s) rs) -> exists r, r ∈ rs /\ x ∈ load s r.
Proof.
  rewrite elem_of_list_In, List.in_concat. intros (l & H & Hx). apply List.in_map_iff in H as (r & <- & Hr).
  exists r. by rewrite !elem_of_list_In.
Qed.
Lemma load_same s s' r : same s s' -> s_anchor s' = s_anchor s -> load s' r = load s r.
Proof.
  intros [] E. unfold load, udata. by rewrite sm_db0, sm_done0, sm_cache0, E.
Qed.
Definition event_item (x : upd) : list shown :=
  match x with UEvent e _ => [ShowEvent (e_room e) (e_nid e)] | _ => [] end.
Definition meta_item (x : upd) : list shown :=
  match x with
  | UEvent e _ => [ShowMeta (e_room e) (e_nid e)]
  | ULeft _ _ _ => []
  | UInvite r c _ => [ShowInvite r c]
  | UNote r v _ => match v with Some n => [ShowMeta r n] | None => [] end
  end.
Lemma show_meta_out s x y : y ∈ s_out (show_meta s x) -> y ∈ s_out s \/ y ∈ meta_item x.
Proof. unfold show_meta. destruct (bool_decide _); cbn [s_out]; [|auto]. intros H. apply elem_of_app in H. by destruct x. Qed.
Lemma show_event_out hu s x y : y ∈ s_out (show_event hu s x) -> y ∈ s_out s \/ y ∈ event_item x.
Proof. unfold show_event. destruct (hu && _); cbn [s_out]; [|auto]. intros H. apply elem_of_app in H. by destruct x. Qed.
Lemma process_out s x wins sub hu pos y : y ∈ s_out (process s x wins sub hu pos) ->
  y ∈ s_out s \/ y ∈ event_item x \/ y ∈ meta_item x \/
  (behind s x = false /\ exists r, y ∈ load (set_room s x) r /\
    ((r ∈ wins /\ (r ∈ s_listed s \/ r ∈ s_listed (set_room s x))) \/
     (sub = true /\ r = upd_room x /\ r ∈ s_joined s))).
Proof.
  unfold process. destruct (behind s x); [auto|]. set (s1 := set_room s x). set (rs := _ ++ _).
  intros H. apply show_meta_out in H as [H|H]; [|auto]. apply show_event_out in H as [H|H]; [|auto].
  rewrite load_rooms_out in H. apply elem_of_app in H as [H|H]; [auto|].
  apply elem_loads in H as (r & Hr & Hy). right. right. right. split; [done|]. exists r. split; [done|].
  unfold rs in Hr. apply elem_of_app in Hr as [Hr|Hr].
  - left. apply elem_of_list_In, List.filter_In in Hr as [Hr Hc]. apply elem_of_list_In in Hr. split; [done|].
    apply orb_prop in Hc as [Hc|Hc]; [right; by apply bool_decide_eq_true in Hc|left].
    apply andb_prop in Hc as [Hc _]. by apply bool_decide_eq_true in Hc.
  - right. destruct sub; cbn in Hr; [|by apply elem_of_nil in Hr].
    destruct (bool_decide (upd_room x ∈ s_joined s)) eqn:Ej; [|by apply elem_of_nil in Hr].
    apply elem_of_list_singleton in Hr as ->. apply bool_decide_eq_true in Ej. done.
Qed.

Lemma process_fields s x wins sub hu pos : behind s x = false ->
  s_listed (process s x wins sub hu pos) = s_listed (set_room s x) /\
  s_anchor (process s x wins sub hu pos) = s_anchor (set_room s x).
Proof.
  intros Hb. unfold process. rewrite Hb. set (rs := _ ++ _). set (s1 := load_rooms pos rs (set_room s x)).
  destruct (show_meta_fields (show_event hu s1 x) x) as (-> & -> & _).
  by destruct (show_event_fields hu s1 x) as (-> & -> & _).
Qed.

(** ** All that is shown, if nothing comes at a bad time *)
Record safe (s : st) : Prop := mk_safe {
  sf_base : base s;
  sf_note : forall r n u, UNote r (Some n) u ∈ s_buf s -> fine s (ShowMeta r n);
  sf_out : forall x, x ∈ s_out s -> fine s x }.
Lemma fit_same s s' r : same s s' -> fit s r <-> fit s' r.
Proof.
  intros []. unfold fit, is_invited, is_in, quiet, udata.
  by rewrite sm_db0, sm_todo0, sm_done0, sm_cache0, sm_buf0.
Qed.
Lemma safe_connected d inv : stored d -> safe (connected d inv).
Proof.
  intros H. split; [by apply base_connected|cbn|cbn]; intros; set_solver.
Qed.
Lemma base_set_room s x : base s -> base (set_room s x).
Proof.
  intros B. split; cbn; try apply B.
  - intros r. pose proof (b_lp s B r). destruct x; lia.
  - intros r v H1 H2. destruct (b_anchor s B r v H1 H2) as [H|H]; [left|by right]. destruct x; lia.
Qed.
Lemma process_fine s a n x wins sub hu pos y : safe s -> a = Deliver n wins sub hu pos -> in_time s a ->
  s_buf s !! n = Some x -> step s a = Some y ->
  forall z, z ∈ s_out y -> fine s z.
Proof.
  intros S -> T En Hs z Hz. pose proof (sf_base s S) as B. cbn in T, Hs. rewrite En in T, Hs.
  destruct (forallb _ _) eqn:Ef; [|done]. specialize (T _ eq_refl). injection Hs as <-.
  set (s0 := set_buf s (take n (s_buf s) ++ drop (Datatypes.S n) (s_buf s))) in *.
  assert (Hx : x ∈ s_buf s) by by eapply elem_of_list_lookup_2.
  apply process_out in Hz as [Hz|[Hz|[Hz|(Hb & r & Hz & Hr)]]].
  - by apply (sf_out s S).
  - destruct x as [e u| | |]; cbn in Hz; try by apply elem_of_nil in Hz.
    apply elem_of_list_singleton in Hz as ->. destruct (b_event s B e u Hx) as [H1 H2].
    split; cbn; [|eauto]. destruct H2; [by left|right]. by exists e.
  - destruct x as [e u| |r c u|r [v|] u]; cbn in Hz; try by apply elem_of_nil in Hz.
    all: apply elem_of_list_singleton in Hz as ->.
    + destruct (b_event s B e u Hx) as [H1 H2]. split; cbn; [|eauto]. destruct H2; [by left|right]. by exists e.
    + split; [|done]. by apply (b_inv s B r c u).
    + by apply (sf_note s S r v u).
  - destruct T as [T1 T2].
    assert (Hsame : same (set_room s0 x) (process s0 x [] false false (fun _ => 0))).
    { destruct (same_process s0 x [] false false (fun _ => 0)), (same_set_room s0 x). split; congruence. }
    destruct (process_fields s0 x [] false false (fun _ => 0) Hb) as [Hlist Hanch].
    assert (F : fit (process s0 x [] false false (fun _ => 0)) r).
    { destruct Hr as [[Hr Hl]|(-> & -> & Hj)].
      - apply T1; [done|]. by rewrite Hlist.
      - apply T2; [done|exists x; done|]. by apply (joined_is_in s B). }
    apply (fit_same _ _ r Hsame) in F.
    (* the buffer without [x] may lack an event of the room, but then the anchor is there *)
    assert (B1 : base (process s0 x [] false false (fun _ => 0))).
    { apply (base_step s (Deliver n [] false false (fun _ => 0))); [done|]. cbn. by rewrite En, Ef. }
    rewrite <- (load_same _ _ r Hsame Hanch) in Hz.
    apply (load_fit _ r z B1) in Hz; [|by apply (fit_same _ _ r Hsame)].
    destruct Hsame as [Ed _ _ _ _ _ _ Ei]. unfold fine in *. rewrite Ed, Ei in Hz. exact Hz.
Qed.
Lemma fine_ext s s' x : s_db s' = s_db s -> s_invs s' = s_invs s -> fine s x -> fine s' x.
Proof. unfold fine. by intros -> ->. Qed.
Lemma safe_step s a s' : safe s -> in_time s a -> step s a = Some s' -> safe s'.
Proof.
  intros S T Hs. pose proof (sf_base s S) as B. split; [by eapply base_step|..].
  - destruct a as [e|n|r c|r kick|r|wins subs pos|n wins sub hu pos]; cbn in Hs.
    + destruct (forallb _ (s_db s) && _) eqn:E; [|done]. injection Hs as <-. apply andb_prop in E as [E E0].
      rewrite forallb_forall in E. intros r n u H. cbn in H. apply fine_grows; [|by apply (sf_note s S r n u)].
      intros a Ha. apply elem_of_list_In in Ha. specialize (E _ Ha). lia.
    + destruct (s_todo s !! n) as [e|]; [|done]. destruct (forallb _ _); [|done]. injection Hs as <-.
      intros r v u. unfold dispatch. destruct (told _ _ _ _); cbn; intros H; [|by apply (sf_note s S r v u)].
      apply elem_of_app in H as [H|H]; [by apply (sf_note s S r v u)|]. by apply elem_of_list_singleton in H.
    + injection Hs as <-. cbn. intros r' v u H. apply elem_of_app in H as [H|H]; [|by apply elem_of_list_singleton in H].
      apply (sf_note s S r' v u H).
    + injection Hs as <-. cbn. intros r' v u H. apply elem_of_app in H as [H|H]; [|by apply elem_of_list_singleton in H].
      apply (sf_note s S r' v u H).
    + injection Hs as <-. cbn. intros r' v u H. apply elem_of_app in H as [H|H]; [apply (sf_note s S r' v u H)|].
      apply elem_of_list_singleton in H. injection H as -> Hv ->. destruct T as (w & Hw & Hin).
      change (Some v = latest (s_done s) r) in Hv. rewrite Hw in Hv. injection Hv as ->.
      pose proof (latest_split _ _ _ Hw) as (l1 & z & _ & Hz & _ & Hzd).
      split; [by left|]. exists z. split; [exact (done_in_db s B z Hzd)|done].
    + injection Hs as <-. cbn. intros r v u H. by apply (sf_note s S r v u).
    + destruct (s_buf s !! n) as [x|] eqn:En; [|done]. destruct (forallb _ _); [|done]. injection Hs as <-.
      destruct (same_process (set_buf s (take n (s_buf s) ++ drop (Datatypes.S n) (s_buf s))) x wins sub hu pos) as [E1 _ _ _ _ _ E7 E8].
      intros r v u H. rewrite E7 in H. cbn in H. apply elem_take_drop in H.
      eapply fine_ext; [exact E1|exact E8|]. by apply (sf_note s S r v u).
  - destruct a as [e|n|r c|r kick|r|wins subs pos|n wins sub hu pos].
    + cbn in Hs. destruct (forallb _ (s_db s) && _) eqn:E; [|done]. injection Hs as <-. apply andb_prop in E as [E E0].
      rewrite forallb_forall in E. intros x H. cbn in H. apply fine_grows; [|by apply (sf_out s S x)].
      intros a Ha. apply elem_of_list_In in Ha. specialize (E _ Ha). lia.
    + cbn in Hs. destruct (s_todo s !! n) as [e|]; [|done]. destruct (forallb _ _); [|done]. injection Hs as <-.
      intros x. unfold dispatch. destruct (told _ _ _ _); cbn; intros H; by apply (sf_out s S x).
    + injection Hs as <-. cbn. intros x H. destruct (sf_out s S x H) as [H1 H2]. split; [|done].
      destruct x; cbn in *; try done. set_solver.
    + injection Hs as <-. cbn. apply (sf_out s S).
    + injection Hs as <-. cbn. apply (sf_out s S).
    + injection Hs as <-. intros x H. unfold request in H. rewrite load_rooms_out in H. cbn [s_out] in H.
      apply elem_of_app in H as [H|H]; [by apply (sf_out s S)|]. apply elem_loads in H as (r & Hr & Hx).
      destruct T as [T1 T2]. assert (F : fit s r).
      { apply elem_of_app in Hr as [Hr|Hr]; apply elem_of_list_In, List.filter_In in Hr as [Hr Hc];
          apply elem_of_list_In in Hr; apply bool_decide_eq_true in Hc; [by apply T1|].
        apply T2; [done|]. by apply (joined_is_in s B). }
      apply (load_fit s r x B F Hx).
    + intros x H. destruct (s_buf s !! n) as [y|] eqn:En; [|cbn in Hs; by rewrite En in Hs].
      pose proof (process_fine s _ n y wins sub hu pos s' S eq_refl T En Hs x H) as F.
      cbn in Hs. rewrite En in Hs. destruct (forallb _ _); [|done]. injection Hs as <-.
      destruct (same_process (set_buf s (take n (s_buf s) ++ drop (Datatypes.S n) (s_buf s))) y wins sub hu pos) as [E1 _ _ _ _ _ E7 E8].
      eapply fine_ext; [exact E1|exact E8|done].
Qed.
Lemma safe_run l : forall s s', safe s -> all_in_time s l -> run s l = Some s' -> safe s'.
Proof.
  induction l as [|a l IH]; cbn; intros s s' S T H; [by injection H as <-|].
  destruct (step s a) as [s1|] eqn:E; [|done]. cbn in H. destruct T as [T1 T2].
  eapply IH; [|by apply T2|done]. by eapply safe_step.
Qed.
