(** Proofs about the updates which listeners are given. *)
From Verif Require Import Prelude RoomNameModel UserModel UserSpec UserProofs.
Open Scope string_scope. Open Scope list_scope. Open Scope Z_scope.

Definition src_ok (room : string) (s : source) (k : kind) (u : urd) : Prop :=
  match k with
  | KInvite => exists i, u_inv u = Some i /\ s = FromInvite (invite_meta room i)
  | KLeave _ _ => s = FromNothing
  | _ => s = FromGlobal
  end.
(** [c'] tells [ks] after [c]; what it says of rooms is what [v] has. *)
Definition grows (v : string -> urd) (c c' : ucache) (ks : list (string * kind)) : Prop :=
  exists ups, c_out c' = c_out c ++ ups /\ map told1 ups = ks
    /\ forall room u s k, In (RoomUp room u s k) ups -> in_update u = in_update (v room) /\ src_ok room s k u.
Lemma grows_refl v c c' : c_out c' = c_out c -> grows v c c' [].
Proof. intros E. exists []. rewrite app_nil_r. split; [exact E|]. split; [reflexivity|]. intros ? ? ? ? []. Qed.
Lemma grows_trans v c c' c'' k k' : grows v c c' k -> grows v c' c'' k' -> grows v c c'' (k ++ k').
Proof.
  intros (u & E & M & A) (u' & E' & M' & A'). exists (u ++ u'). rewrite E', E, app_assoc. split; [reflexivity|].
  rewrite map_app, M, M'. split; [reflexivity|]. intros room w s kk [H|H]%in_app_or; [by apply A|by apply A'].
Qed.
Lemma grows_out v c c' c'' ks : c_out c' = c_out c -> grows v c' c'' ks -> grows v c c'' ks.
Proof. intros E (u & E' & M & A). exists u. by rewrite E', E. Qed.
Lemma out_load c room : c_out (load_urd c room).1 = c_out c.
Proof. unfold load_urd. destruct (c_rooms c !! room); reflexivity. Qed.
Lemma in_update_strip u v : strip u = strip v -> in_update u = in_update v.
Proof. unfold strip, in_update. intros E. injection E as -> -> -> -> -> -> -> _. reflexivity. Qed.
Lemma grows_emit_room (v : string -> urd) c room k :
  match k with KInvite | KLeave _ _ => False | _ => True end -> in_update (sget c room) = in_update (v room) ->
  grows v c (emit_room c room k) [(room, k)].
Proof.
  intros Hk Hv. unfold emit_room. destruct (load_urd c room) as [c' u] eqn:E.
  pose proof (out_load c room) as Ho. rewrite E in Ho. cbn in Ho.
  exists [RoomUp room u FromGlobal k]. cbn. rewrite Ho. split; [reflexivity|]. split; [reflexivity|].
  intros room' w s kk [[= <- <- <- <-]|[]]. split.
  - rewrite <-Hv. apply in_update_strip. pose proof (load_sget c room) as Hs. rewrite E in Hs. cbn in Hs. rewrite Hs. unfold sget. by destruct (default blank (c_rooms c !! room)).
  - destruct k; try reflexivity; contradiction.
Qed.
Lemma strip_idem u : strip (strip u) = strip u.
Proof. reflexivity. Qed.
Lemma strip_sget c room : strip (sget c room) = sget c room.
Proof. unfold sget. apply strip_idem. Qed.
Lemma grows_space (v : string -> urd) c p ch del e j :
  in_update (sget c ch) = in_update (v ch) -> grows v c (on_space c p ch del e j) (if j then [(ch, KEvent e)] else []).
Proof.
  intros Hv. pose proof (sget_space c p ch del e false ch) as Hs. unfold on_space in *.
  destruct (load_urd c ch) as [c' u] eqn:E. pose proof (out_load c ch) as Ho. rewrite E in Ho. cbn in Ho.
  destruct j; [|by apply grows_refl].
  eapply grows_out; [|apply grows_emit_room; [exact I|by rewrite Hs]]. exact Ho.
Qed.
Lemma grows_fold {A} (v : string -> urd) (f : ucache -> A -> ucache) (ks : A -> list (string * kind)) (P : ucache -> Prop) l c :
  P c -> (forall c' a, In a l -> P c' -> grows v c' (f c' a) (ks a) /\ P (f c' a)) ->
  grows v c (fold_left f l c) (flat_map ks l) /\ P (fold_left f l c).
Proof.
  revert c. induction l as [|a l IH]; intros c Hc H; cbn [fold_left flat_map].
  { split; [by apply grows_refl|exact Hc]. }
  destruct (H c a (or_introl eq_refl) Hc) as [H1 H2]. destruct (IH (f c a) H2) as [H3 H4].
  { intros c' b Hb. apply H. by right. }
  split; [|exact H4]. eapply grows_trans; [exact H1|exact H3].
Qed.
Lemma out_direct c l : c_out (on_direct c l) = c_out c.
Proof.
  unfold on_direct. set (c1 := mk_ucache _ _ _ _ _). transitivity (c_out c1); [|reflexivity].
  generalize (List.filter (fun r => match c_rooms c !! r with Some _ => false | None => true end) (remove_dups l)).
  intros news. induction news as [|r news IH] using rev_ind; [reflexivity|]. rewrite fold_left_app. cbn. exact IH.
Qed.
Lemma out_data l c : c_out (fold_left put_tags (map_to_list (fold_left data_step l (c, ∅)).2) (fold_left data_step l (c, ∅)).1) = c_out c.
Proof.
  assert (H : c_out (fold_left data_step l (c, ∅)).1 = c_out c).
  { induction l as [|a l IH] using rev_ind; [reflexivity|]. rewrite fold_left_app. cbn [fold_left].
    destruct (fold_left data_step l (c, ∅)) as [c1 t1]. cbn [fst] in IH. unfold data_step.
    destruct (String.eqb (d_type a) "m.direct"). { cbn. by rewrite out_direct. }
    destruct (String.eqb (d_type a) "m.tag"); [exact IH|].
    destruct (String.eqb (d_type a) "m.ignored_user_list"); [|exact IH].
    destruct (negb (String.eqb (d_room a) "")); [exact IH|]. destruct (d_ignored a); exact IH. }
  destruct (fold_left data_step l (c, ∅)) as [c1 t1]. cbn [fst snd] in *. rewrite <-H.
  generalize (map_to_list t1). intros kvs. induction kvs as [|kv kvs IH] using rev_ind; [reflexivity|]. rewrite fold_left_app. cbn [fold_left].
  unfold put_tags at 1. pose proof (out_load (fold_left put_tags kvs c1) kv.1) as E. destruct (load_urd _ kv.1). cbn in *. congruence.
Qed.
Lemma in_update_get c room : in_update (get c room) = in_update (sget c room).
Proof. apply in_update_strip. by rewrite get_sget, strip_sget. Qed.
Lemma u_high_get c room : u_high (get c room) = u_high (load_urd c room).2.
Proof. unfold get, load_urd. destruct (c_rooms c !! room); reflexivity. Qed.
Lemma u_notif_get c room : u_notif (get c room) = u_notif (load_urd c room).2.
Proof. unfold get, load_urd. destruct (c_rooms c !! room); reflexivity. Qed.
Lemma u_invite_get c room : u_invite (get c room) = u_invite (load_urd c room).2.
Proof. unfold get, load_urd. destruct (c_rooms c !! room); reflexivity. Qed.

Lemma step_tells user c x : grows (get (ucall1 user c x)) c (ucall1 user c x) (tells user c x).
Proof.
  destruct x as [r h n|l o|e j|r s|r e|l|r|r rc]; cbn [ucall1 tells].
  - rewrite u_high_get, u_notif_get. unfold on_unread at 2. destruct (load_urd c r) as [c1 u] eqn:E.
    pose proof (out_load c r) as Ho. rewrite E in Ho. cbn [fst] in Ho. cbn [snd].
    match goal with |- grows _ _ (emit_room ?d r (KUnread ?b)) _ => assert (Eb : b = lower (u_high u) h || lower (u_notif u) n) end.
    { unfold lower. destruct h as [h|], n as [n|]; cbn; try reflexivity; [destruct (h <? u_high u); reflexivity|by rewrite orb_false_r]. }
    rewrite Eb. eapply grows_out; [|apply grows_emit_room; [exact I|]].
    { cbn. exact Ho. }
    rewrite in_update_get. f_equal. unfold on_unread. rewrite E. by rewrite sget_emit_room.
  - unfold on_account at 2. pose proof (out_data l c) as Ho.
    assert (Hg : forall y, sget (on_account c l o) y = sget (fold_left put_tags (map_to_list (fold_left data_step l (c, ∅)).2) (fold_left data_step l (c, ∅)).1) y).
    { intros y. unfold on_account. destruct (fold_left data_step l (c, ∅)) as [c1 t1]. cbn [fst snd]. apply sget_emit_data. }
    set (V := on_account c l o) in *. clearbody V.
    destruct (fold_left data_step l (c, ∅)) as [c1 t1]. cbn [fst snd] in *.
    apply (grows_out _ _ _ _ _ Ho). generalize dependent (fold_left put_tags (map_to_list t1) c1). intros c2 _ Hg.
    assert (Hm : map (fun room => (room, KData (List.filter (fun d => String.eqb (d_room d) room) l))) o
       = flat_map (fun room => [(room, KData (List.filter (fun d => String.eqb (d_room d) room) l))]) o).
    { induction o as [|a o IH]; [reflexivity|]. cbn. by f_equal. }
    rewrite Hm.
    apply (grows_fold (get V) (emit_data l) _ (fun c' => forall y, sget V y = sget c' y)); [exact Hg|].
    intros c' a _ Hc'. unfold emit_data. destruct (String.eqb_spec a "") as [->|N].
    + split; [|exact Hc']. eexists. split; [reflexivity|]. split; [reflexivity|]. intros ? ? ? ? [H|[]]. discriminate.
    + split.
      * apply grows_emit_room; [exact I|]. by rewrite in_update_get, Hc'.
      * intros y. by rewrite sget_emit_room.
  - assert (Hg : forall y, sget (on_event user c e j) y = if String.eqb (e_room e) y then answered (is_own user e) (e_membership e) (sget c (e_room e)) else sget c y)
      by (intros y; apply sget_event).
    assert (Hl : sget (on_event user c e j) (e_room e) = sget (on_event user c e j) (e_room e)) by reflexivity.
    unfold on_event in Hl at 1.
    unfold on_event at 2. set (V := on_event user c e j) in *.
    assert (HV : V = on_event user c e j) by reflexivity. clearbody V.
    destruct (load_urd c (e_room e)) as [c1 u] eqn:E.
    pose proof (out_load c (e_room e)) as Ho. rewrite E in Ho. cbn [fst] in Ho.
    assert (Hc1 : forall y, sget c1 y = sget c y) by (intros y; rewrite <-(sget_load c (e_room e) y), E; reflexivity).
    set (u2 := if u_invite u && _ && _ then _ else u) in *. clearbody u2.
    set (c2 := match e_key e with Some _ => _ | None => c1 end) in *.
    rewrite sget_emit_room in Hl.
    assert (G2 : grows (get V) c c2 match e_key e with Some child => if String.eqb (e_type e) "m.space.child" && j then [(child, KEvent e)] else [] | None => [] end).
    { unfold c2. destruct (e_key e) as [k|] eqn:Ek; [|by apply grows_refl].
      destruct (String.eqb_spec (e_type e) "m.space.child") as [Et|Nt]; [|by apply grows_refl].
      cbn [andb]. apply (grows_out _ _ _ _ _ Ho). apply grows_space. rewrite in_update_get, Hg, Hc1.
      unfold is_own. rewrite Et. change (String.eqb "m.space.child" "m.room.member") with false. cbn [andb]. unfold answered. rewrite andb_false_r. cbn [andb].
      destruct (String.eqb_spec (e_room e) k) as [->|]; reflexivity. }
    eapply grows_trans; [exact G2|]. eapply grows_out; [reflexivity|].
    eapply grows_out; [|apply grows_emit_room; [exact I|]]; [reflexivity|].
    rewrite Hl. by rewrite in_update_get.
  - unfold on_invite at 2. destruct (new_invite user s) as [i|] eqn:Ei; [|by apply grows_refl].
    destruct (load_urd c r) as [c1 u] eqn:E.
    pose proof (out_load c r) as Ho. rewrite E in Ho. cbn [fst] in Ho.
    eexists. split; [cbn; by rewrite Ho|]. split; [reflexivity|]. intros room w sr k [[= <- <- <- <-]|[]]. split; [|by exists i].
    rewrite in_update_get. unfold on_invite. rewrite Ei, E, sget_emit, sget_put, String.eqb_refl. reflexivity.
  - rewrite u_invite_get. unfold on_left at 2. destruct (load_urd c r) as [c1 u] eqn:E.
    pose proof (out_load c r) as Ho. rewrite E in Ho. cbn [fst] in Ho. cbn [snd].
    eexists. split; [cbn; by rewrite Ho|]. split.
    { cbn. unfold removed. destruct (e_key e); reflexivity. }
    intros room w sr k [[= <- <- <- <-]|[]]. split; [|reflexivity].
    rewrite in_update_get. unfold on_left. rewrite E, sget_emit, sget_put, String.eqb_refl. reflexivity.
  - assert (Hg : forall y, in_update (get (on_registered c l) y) = in_update (sget c y)).
    { intros y. rewrite in_update_get, sget_registered. reflexivity. }
    set (V := on_registered c l) in *. unfold on_registered. fold V. assert (HV : V = fold_left on_registered1 l c) by reflexivity. rewrite HV at 2.
    clearbody V. clear HV.
    apply (grows_fold (get V) on_registered1 _ (fun c' => forall y, in_update (sget c' y) = in_update (get V y))); [intros y; by rewrite Hg|].
    intros c' jj _ Hc'.
    assert (G : grows (get V) c' (fold_left (fun c0 ch => on_space c0 (j_room jj) ch.1 false (mk_uevent (j_room jj) "m.space.child" (Some ch.1) "" false "") ch.2) (j_children jj) c')
        (flat_map (fun ch : string * bool => if ch.2 then [(ch.1, KEvent (mk_uevent (j_room jj) "m.space.child" (Some ch.1) "" false ""))] else []) (j_children jj))
       /\ forall y, in_update (sget (fold_left (fun c0 ch => on_space c0 (j_room jj) ch.1 false (mk_uevent (j_room jj) "m.space.child" (Some ch.1) "" false "") ch.2) (j_children jj) c') y) = in_update (get V y)).
    { apply (grows_fold (get V) _ _ (fun c0 => forall y, in_update (sget c0 y) = in_update (get V y))); [exact Hc'|].
      intros c0 ch _ H0. split; [apply grows_space, H0|]. intros y. by rewrite sget_space. }
    destruct G as [G1 G2]. unfold on_registered1.
    set (c2 := fold_left _ (j_children jj) c') in *. clearbody c2.
    pose proof (out_load c2 (j_room jj)) as Ho. destruct (load_urd c2 (j_room jj)) as [c3 u] eqn:E. cbn [fst] in Ho. split.
    + destruct G1 as (ups & E1 & M & A). exists ups. split; [cbn; by rewrite Ho|]. split; [exact M|exact A].
    + intros y. rewrite sget_put. destruct (String.eqb_spec (j_room jj) y) as [<-|N].
      * rewrite <-G2. pose proof (load_sget c2 (j_room jj)) as Hs. rewrite E in Hs. cbn [snd] in Hs. rewrite <-Hs. reflexivity.
      * rewrite <-G2. pose proof (sget_load c2 (j_room jj) y) as Hs. rewrite E in Hs. cbn [fst] in Hs. by rewrite Hs.
  - apply grows_emit_room; [exact I|]. by rewrite in_update_get, sget_emit_room.
  - apply grows_emit_room; [exact I|]. by rewrite in_update_get, sget_emit_room.
Qed.
