(** Lemmas about the metadata of all rooms. *)
From Verif Require Import Prelude RoomNameModel GlobalModel GlobalSpec.
Open Scope string_scope. Open Scope list_scope. Open Scope Z_scope.

Definition room_step (m : room_meta) (e : gevent) : room_meta :=
  set_latest (on_event m e) (g_ts e) (<[g_type e := (g_nid e, g_ts e)]> (m_latest (on_event m e))).
Lemma load_event c e : load_room (on_new_event c e) (g_room e) = room_step (load_room c (g_room e)) e.
Proof. unfold load_room, on_new_event. by rewrite lookup_insert. Qed.
Lemma load_event_ne c e room : g_room e <> room -> load_room (on_new_event c e) room = load_room c room.
Proof. intros H. unfold load_room, on_new_event. by rewrite lookup_insert_ne. Qed.
Lemma load_ephemeral c r room : load_room (on_ephemeral c r) room = load_room c room.
Proof.
  unfold load_room, on_ephemeral. destruct (decide (r = room)) as [->|H].
  - by rewrite lookup_insert.
  - by rewrite lookup_insert_ne.
Qed.
Lemma load_invalidate_ne c r evs room : r <> room -> load_room (on_invalidate c r evs) room = load_room c room.
Proof.
  intros H. unfold load_room, on_invalidate. destruct (c !! r) as [m|]; [|done]. destruct evs as [evs|]; [|done].
  by rewrite lookup_insert_ne.
Qed.
Lemma load_invalidate c evs room : load_room (on_invalidate c room (Some evs)) room
  = match c !! room with Some m => reset_meta m evs | None => new_meta room end.
Proof.
  unfold load_room, on_invalidate. destruct (c !! room) as [m|] eqn:E.
  - by rewrite lookup_insert.
  - by rewrite E.
Qed.
Lemma load_invalidate_none c room : on_invalidate c room None = c.
Proof. unfold on_invalidate. by destruct (c !! room). Qed.

Lemma room_events_cons room s l :
  room_events room (s :: l) = match s with
    | GEvent e => if String.eqb (g_room e) room then e :: room_events room l else room_events room l
    | _ => room_events room l end.
Proof. unfold room_events. by destruct s as [e| |]. Qed.

(** The metadata of a room is what its events make of it. *)
Lemma load_runs room l : forall c, never_reset room l ->
  load_room (gruns c l) room = fold_left room_step (room_events room l) (load_room c room).
Proof.
  induction l as [|s l IH]; intros c H; [done|].
  assert (never_reset room l) as H' by (intros evs X; apply (H evs); by right).
  change (gruns c (s :: l)) with (gruns (gstep1 c s) l). rewrite (IH _ H'), room_events_cons.
  destruct s as [e|r|r evs]; cbn [gstep1].
  - destruct (String.eqb_spec (g_room e) room) as [<-|N]; [by rewrite load_event|by rewrite load_event_ne].
  - by rewrite load_ephemeral.
  - rewrite load_invalidate_ne; [done|]. intros ->. apply (H evs). by left.
Qed.

Section last.
  Context {A : Type} (P : gevent -> Prop) (Hdec : forall e, Decision (P e)) (read : gevent -> A) (f : room_meta -> A).
  Context (Hyes : forall m e, P e -> f (room_step m e) = read e) (Hno : forall m e, ~ P e -> f (room_step m e) = f m).
  Lemma as_latest_fold l : forall m, as_latest P l read (f m) (f (fold_left room_step l m)).
  Proof using Hdec Hyes Hno.
    induction l as [|x l IH] using rev_ind; intros m.
    - split; [|done]. intros e (l1 & l2 & E & _). by destruct l1.
    - rewrite fold_left_app. cbn [fold_left]. destruct (IH m) as (I1 & I2). destruct (decide (P x)) as [Hx|Hx].
      + rewrite (Hyes _ _ Hx). split.
        * intros e (l1 & l2 & E & He & HN). destruct l2 as [|y l2 _] using rev_ind.
          -- apply app_inj_tail in E. destruct E as (_ & ->). done.
          -- rewrite app_comm_cons, app_assoc in E. apply app_inj_tail in E. destruct E as (-> & ->).
             exfalso. apply (HN y); [|done]. apply in_or_app. right. by left.
        * intros HN. exfalso. apply (HN x); [|done]. apply in_or_app. right. by left.
      + rewrite (Hno _ _ Hx). split.
        * intros e (l1 & l2 & E & He & HN). destruct l2 as [|y l2 _] using rev_ind.
          -- apply app_inj_tail in E. destruct E as (_ & ->). done.
          -- rewrite app_comm_cons, app_assoc in E. apply app_inj_tail in E. destruct E as (-> & ->).
             apply I1. exists l1, l2. split_and!; [done|done|]. intros z Hz. apply HN. apply in_or_app. by left.
        * intros HN. apply I2. intros z Hz. apply HN. apply in_or_app. by left.
  Qed.
End last.

Global Instance is_state_dec ty k e : Decision (is_state ty k e).
Proof. unfold is_state. apply _. Defined.


Lemma on_member_shape m u e : exists hs j i, on_member m u e = set_members m hs j i /\
  ((j, i) = if g_change e then (g_joins e, g_invites e) else (m_join m, m_invite m)).
Proof.
  unfold on_member. destruct (g_change e).
  - destruct ((length _ <? 6)%nat && _); do 3 eexists; split; reflexivity.
  - destruct ((length _ <? 6)%nat && _); [do 3 eexists; split; reflexivity|].
    exists (m_heroes m), (m_join m), (m_invite m). split; [by destruct m|done].
Qed.
(** The types one after the other. *)
Ltac types e tac := unfold on_event;
  repeat (match goal with |- context[String.eqb (g_type e) ?t] => let E1 := fresh "E1" in destruct (String.eqb_spec (g_type e) t) as [E1|_] end; [solve [tac]|]);
  try reflexivity.
Ltac branch e := let k := fresh "k" in let E2 := fresh "E2" in destruct (g_key e) as [k|] eqn:E2; [|reflexivity];
  first [ reflexivity
        | destruct k as [|? ?]; [first [reflexivity|exfalso; unfold is_state in *; tauto]|reflexivity]
        | let hs := fresh in let j := fresh in let i := fresh in let E := fresh in
          match goal with |- context[on_member ?m k e] => destruct (on_member_shape m k e) as (hs & j & i & E & _); rewrite E; reflexivity end ].
Lemma on_event_latest m e : m_latest (on_event m e) = m_latest m.
Proof. types e ltac:(branch e). Qed.

(** What each event does to each field. *)
Lemma step_name m e : (is_state "m.room.name" "" e -> m_name (room_step m e) = g_name e)
  /\ (~ is_state "m.room.name" "" e -> m_name (room_step m e) = m_name m).
Proof.
  unfold room_step. cbn [set_latest m_name]. split.
  - intros (Et & Ek). unfold on_event. rewrite Et, Ek. reflexivity.
  - intros H. types e ltac:(branch e).
Qed.
Lemma step_avatar m e : (is_state "m.room.avatar" "" e -> m_avatar (room_step m e) = g_url e)
  /\ (~ is_state "m.room.avatar" "" e -> m_avatar (room_step m e) = m_avatar m).
Proof.
  unfold room_step. cbn [set_latest m_avatar]. split.
  - intros (Et & Ek). unfold on_event. rewrite Et, Ek. reflexivity.
  - intros H. types e ltac:(branch e).
Qed.
Lemma step_alias m e : (is_state "m.room.canonical_alias" "" e -> m_alias (room_step m e) = g_alias e)
  /\ (~ is_state "m.room.canonical_alias" "" e -> m_alias (room_step m e) = m_alias m).
Proof.
  unfold room_step. cbn [set_latest m_alias]. split.
  - intros (Et & Ek). unfold on_event. rewrite Et, Ek. reflexivity.
  - intros H. types e ltac:(branch e).
Qed.
Lemma step_encrypted m e : (is_state "m.room.encryption" "" e -> m_encrypted (room_step m e) = true)
  /\ (~ is_state "m.room.encryption" "" e -> m_encrypted (room_step m e) = m_encrypted m).
Proof.
  unfold room_step. cbn [set_latest m_encrypted]. split.
  - intros (Et & Ek). unfold on_event. rewrite Et, Ek. reflexivity.
  - intros H. types e ltac:(branch e).
Qed.
Lemma step_upgraded m e : (is_state "m.room.tombstone" "" e -> m_upgraded (room_step m e) = non_empty (g_replacement e))
  /\ (~ is_state "m.room.tombstone" "" e -> m_upgraded (room_step m e) = m_upgraded m).
Proof.
  unfold room_step. cbn [set_latest m_upgraded]. split.
  - intros (Et & Ek). unfold on_event. rewrite Et, Ek. reflexivity.
  - intros H. types e ltac:(branch e).
Qed.
Lemma step_created m e :
  (m_type (room_step m e), m_predecessor (room_step m e)) =
  if bool_decide (is_state "m.room.create" "" e) then
    (match g_type_field e with Some t => Some t | None => m_type m end,
     match non_empty (g_predecessor e) with Some p => Some p | None => m_predecessor m end)
  else (m_type m, m_predecessor m).
Proof.
  unfold room_step. cbn [set_latest m_type m_predecessor]. case_bool_decide as H.
  - destruct H as (Et & Ek). unfold on_event. rewrite Et, Ek. reflexivity.
  - types e ltac:(branch e).
Qed.
Lemma step_type m e :
  (is_state "m.room.create" "" e /\ g_type_field e <> None -> m_type (room_step m e) = g_type_field e)
  /\ (~ (is_state "m.room.create" "" e /\ g_type_field e <> None) -> m_type (room_step m e) = m_type m).
Proof.
  pose proof (step_created m e) as E. apply (f_equal fst) in E. cbn [fst] in E. rewrite E. case_bool_decide as H; cbn [fst].
  - destruct (g_type_field e); split; try done; intros X; [exfalso; apply X; done|destruct X; done].
  - split; [tauto|done].
Qed.
Lemma step_predecessor m e :
  (is_state "m.room.create" "" e /\ g_predecessor e <> "" -> m_predecessor (room_step m e) = non_empty (g_predecessor e))
  /\ (~ (is_state "m.room.create" "" e /\ g_predecessor e <> "") -> m_predecessor (room_step m e) = m_predecessor m).
Proof.
  pose proof (step_created m e) as E. apply (f_equal snd) in E. cbn [snd] in E. rewrite E. unfold non_empty. case_bool_decide as H; cbn [snd].
  - destruct (String.eqb_spec (g_predecessor e) ""); split; try done; intros X; [destruct X; done|exfalso; apply X; done].
  - split; [tauto|done].
Qed.
Lemma step_children k m e :
  (is_state "m.space.child" k e -> bool_decide (k ∈ m_children (room_step m e)) = g_via e)
  /\ (~ is_state "m.space.child" k e -> bool_decide (k ∈ m_children (room_step m e)) = bool_decide (k ∈ m_children m)).
Proof.
  unfold room_step. cbn [set_latest m_children]. split.
  - intros (Et & Ek). unfold on_event. rewrite Et, Ek. cbn [String.eqb Ascii.eqb Bool.eqb set_children m_children].
    destruct (g_via e).
    + apply bool_decide_eq_true. apply elem_of_union_l, elem_of_singleton. done.
    + apply bool_decide_eq_false. cbn. rewrite elem_of_difference, elem_of_singleton. tauto.
  - intros H. destruct (String.eqb_spec (g_type e) "m.space.child") as [Et|Et].
    + unfold on_event. rewrite Et. destruct (g_key e) as [k'|] eqn:Ek; [|done].
      assert (k' <> k) as Hk by (intros ->; by apply H).
      apply bool_decide_ext. cbn. destruct (g_via e).
      * rewrite elem_of_union, elem_of_singleton. split; [intros [X|X]; [by subst|done]|tauto].
      * rewrite elem_of_difference, elem_of_singleton. split; [tauto|]. intros X. split; [done|]. intros Y. by subst.
    + f_equal. types e ltac:(first [done|branch e]).
Qed.
Lemma step_counts m e :
  (membership_change e -> (m_join (room_step m e), m_invite (room_step m e)) = (g_joins e, g_invites e))
  /\ (~ membership_change e -> (m_join (room_step m e), m_invite (room_step m e)) = (m_join m, m_invite m)).
Proof.
  unfold room_step. cbn [set_latest m_join m_invite]. split.
  - intros (Et & (u & Ek) & Hc). destruct (on_member_shape m u e) as (hs & j & i & E & E2). rewrite Hc in E2.
    unfold on_event. rewrite Et, Ek. cbn [String.eqb Ascii.eqb Bool.eqb]. rewrite E. cbn [set_members m_join m_invite]. done.
  - intros H. destruct (String.eqb_spec (g_type e) "m.room.member") as [Et|Et].
    + unfold on_event. rewrite Et. cbn [String.eqb Ascii.eqb Bool.eqb]. destruct (g_key e) as [u|] eqn:Ek; [|done].
      destruct (on_member_shape m u e) as (hs & j & i & E & E2). rewrite E. cbn [set_members m_join m_invite].
      destruct (g_change e) eqn:Hc; [|done]. exfalso. apply H. split_and!; [done|by exists u|done].
    + types e ltac:(first [done|branch e]).
Qed.
Lemma step_ts m e : m_last_ts (room_step m e) = g_ts e.
Proof. done. Qed.
Lemma step_latest ty m e :
  (g_type e = ty -> m_latest (room_step m e) !! ty = Some (g_nid e, g_ts e))
  /\ (g_type e <> ty -> m_latest (room_step m e) !! ty = m_latest m !! ty).
Proof.
  unfold room_step. cbn [set_latest m_latest]. rewrite on_event_latest. split.
  - intros <-. by rewrite lookup_insert.
  - intros H. by rewrite lookup_insert_ne.
Qed.
Lemma step_room m e : m_room (room_step m e) = m_room m.
Proof. unfold room_step. cbn [set_latest m_room]. types e ltac:(branch e). Qed.
Global Instance membership_change_dec e : Decision (membership_change e).
Proof.
  unfold membership_change. destruct (g_key e) as [k|].
  - destruct (decide (g_type e = "m.room.member")); [|right; tauto].
    destruct (g_change e); [left; eauto|right; intuition congruence].
  - right. intros (_ & (u & H) & _). done.
Qed.

(** Heroes. *)
Notation ids := (map h_id).
Lemma in_remove_hero u h l : List.NoDup (ids l) -> In h (remove_hero u l) <-> In h l /\ h_id h <> u.
Proof.
  induction l as [|x l IH]; intros ND; cbn [remove_hero]; [cbn [In]; tauto|].
  cbn [map] in ND. apply NoDup_cons_iff in ND. destruct ND as (N & ND). specialize (IH ND).
  destruct (String.eqb_spec (h_id x) u) as [E|E].
  - split.
    + intros H. split; [by right|]. intros E2. apply N. rewrite E, <- E2. by apply in_map.
    + intros ([<-|H] & Hu); [done|done].
  - cbn [In]. rewrite IH. split; [intros [<-|H]; tauto|tauto].
Qed.
Lemma remove_hero_sub u l : sublist (remove_hero u l) l.
Proof.
  induction l as [|x l IH]; cbn [remove_hero]; [constructor|].
  destruct (String.eqb (h_id x) u); [by constructor|by constructor].
Qed.
Lemma remove_hero_nodup u l : List.NoDup (ids l) -> List.NoDup (ids (remove_hero u l)).
Proof.
  induction l as [|x l IH]; intros ND; [constructor|]. cbn [remove_hero]. cbn [map] in ND. apply NoDup_cons_iff in ND.
  destruct ND as (N & ND). destruct (String.eqb (h_id x) u); [done|]. cbn [map]. constructor; [|by apply IH].
  intros X. apply in_map_iff in X. destruct X as (h & E & Hh). apply (in_remove_hero _ _ _ ND) in Hh. apply N. rewrite <- E.
  apply in_map. tauto.
Qed.
Lemma remove_hero_len u l : (length (remove_hero u l) <= length l)%nat.
Proof. apply sublist_length, remove_hero_sub. Qed.
Lemma put_hero_ids h l : ids (put_hero h l) = if bool_decide (h_id h ∈ ids l) then ids l else ids l ++ [h_id h].
Proof.
  induction l as [|x l IH]; cbn [put_hero map]; [by rewrite bool_decide_eq_false_2; [|apply not_elem_of_nil]|].
  destruct (String.eqb_spec (h_id x) (h_id h)) as [E|E].
  - rewrite bool_decide_eq_true_2; [|rewrite E; apply elem_of_list_here]. cbn [map]. by rewrite E.
  - cbn [map]. rewrite IH. destruct (decide (h_id h ∈ ids l)) as [Hi|Hi].
    + rewrite !bool_decide_eq_true_2; [done|by apply elem_of_list_further|done].
    + rewrite !bool_decide_eq_false_2; [done| |done]. rewrite elem_of_cons. intros [X|X]; [by apply E|done].
Qed.
Lemma put_hero_nodup h l : List.NoDup (ids l) -> List.NoDup (ids (put_hero h l)).
Proof.
  intros ND. rewrite put_hero_ids. case_bool_decide as Hi; [done|].
  apply NoDup_ListNoDup, NoDup_app. split_and!; [by apply NoDup_ListNoDup| |apply NoDup_singleton].
  intros x Hx ->%elem_of_list_singleton. done.
Qed.
Lemma put_hero_len h l : (length (put_hero h l) <= S (length l))%nat.
Proof. rewrite <- !(map_length h_id), put_hero_ids. case_bool_decide; [lia|]. rewrite app_length. cbn. lia. Qed.
Lemma in_put_hero h h' l : List.NoDup (ids l) -> In h' (put_hero h l) <-> h' = h \/ (In h' l /\ h_id h' <> h_id h).
Proof.
  induction l as [|x l IH]; intros ND; cbn [put_hero].
  - cbn [In]. split; [intros [->|[]]; by left|intros [->|([] & _)]; by left].
  - cbn [map] in ND. apply NoDup_cons_iff in ND. destruct ND as (N & ND). specialize (IH ND).
    destruct (String.eqb_spec (h_id x) (h_id h)) as [E|E].
    + cbn [In]. split.
      * intros [->|H]; [by left|]. right. split; [by right|]. intros E2. apply N. rewrite E, <- E2. by apply in_map.
      * intros [->|([<-|H] & X)]; [by left|done|by right].
    + cbn [In]. rewrite IH. split.
      * intros [<-|[->|(H & X)]]; [right; split; [by left|done]|by left|right; split; [by right|done]].
      * intros [->|([<-|H] & X)]; [right; by left|by left|right; right; done].
Qed.

(** The heroes of a room after an event. *)
Lemma step_heroes m e : m_heroes (room_step m e) =
  match g_key e with
  | Some u =>
    if String.eqb (g_type e) "m.room.member" then
      let hs := if g_change e && (String.eqb (g_membership e) "leave" || String.eqb (g_membership e) "ban") then remove_hero u (m_heroes m) else m_heroes m in
      if (length hs <? 6)%nat && (String.eqb (g_membership e) "join" || String.eqb (g_membership e) "invite")
      then put_hero (hero_of u e) hs else hs
    else m_heroes m
  | None => m_heroes m
  end.
Proof.
  unfold room_step, on_event. cbn [set_latest m_heroes]. destruct (String.eqb_spec (g_type e) "m.room.member") as [E|E].
  - rewrite E. cbn [String.eqb Ascii.eqb Bool.eqb].
    destruct (g_key e) as [u|]; [|done]. unfold on_member. destruct (g_change e); cbn [andb set_members m_heroes]; by repeat case_match.
  - transitivity (m_heroes m); [|by destruct (g_key e)]. fold (on_event m e). types e ltac:(first [done|branch e]).
Qed.
Definition heroes_ok (l : list hero) : Prop := List.NoDup (ids l) /\ (length l <= 6)%nat.
Lemma step_heroes_ok m e : heroes_ok (m_heroes m) -> heroes_ok (m_heroes (room_step m e)).
Proof.
  intros (ND & L). rewrite step_heroes. destruct (g_key e) as [u|]; [|done]. destruct (String.eqb (g_type e) "m.room.member"); [|done].
  cbn zeta. set (hs := if g_change e && _ then _ else _).
  assert (heroes_ok hs) as (ND2 & L2).
  { unfold hs. case_match; [|done]. split; [by apply remove_hero_nodup|]. pose proof (remove_hero_len u (m_heroes m)). lia. }
  destruct (length hs <? 6)%nat eqn:E; cbn [andb]; [|done]. apply Nat.ltb_lt in E.
  case_match; [|done]. split; [by apply put_hero_nodup|]. pose proof (put_hero_len (hero_of u e) hs). lia.
Qed.

Lemma latest_nil P e : ~ latest P [] e.
Proof. intros (l1 & l2 & E & _). by destruct l1. Qed.
Lemma latest_snoc P l x e : latest P (l ++ [x]) e <-> (P x /\ e = x) \/ (~ P x /\ latest P l e).
Proof.
  split.
  - intros (l1 & l2 & E & He & HN). destruct l2 as [|y l2 _] using rev_ind.
    + apply app_inj_tail in E. destruct E as (_ & ->). by left.
    + rewrite app_comm_cons, app_assoc in E. apply app_inj_tail in E. destruct E as (-> & ->). right. split.
      * apply HN. apply in_or_app. right. by left.
      * exists l1, l2. split_and!; [done|done|]. intros z Hz. apply HN. apply in_or_app. by left.
  - intros [(H & ->)|(H & l1 & l2 & -> & He & HN)].
    + exists l, []. by split_and!.
    + exists l1, (l2 ++ [x]). split_and!; [by rewrite app_comm_cons, app_assoc|done|].
      intros z [Hz|[<-|[]]]%in_app_or; [by apply HN|done].
Qed.

Lemma goes_not_comes e : comes e -> (String.eqb (g_membership e) "leave" || String.eqb (g_membership e) "ban") = false.
Proof. intros [-> | ->]; reflexivity. Qed.
Lemma comes_b e : (String.eqb (g_membership e) "join" || String.eqb (g_membership e) "invite") = true <-> comes e.
Proof. unfold comes. rewrite orb_true_iff, !String.eqb_eq. done. Qed.
Lemma goes_b e : (String.eqb (g_membership e) "leave" || String.eqb (g_membership e) "ban") = true <-> goes e.
Proof. unfold goes. rewrite orb_true_iff, !String.eqb_eq. done. Qed.

(** The cases of an event, for the heroes. *)
Lemma hero_cases m e :
  (exists u, is_member u e /\ comes e /\ (length (m_heroes m) < 6)%nat /\ m_heroes (room_step m e) = put_hero (hero_of u e) (m_heroes m))
  \/ (exists u, is_member u e /\ comes e /\ ~ (length (m_heroes m) < 6)%nat /\ m_heroes (room_step m e) = m_heroes m)
  \/ (exists u, is_member u e /\ ~ comes e /\ g_change e = true /\ goes e /\ m_heroes (room_step m e) = remove_hero u (m_heroes m))
  \/ ((forall u, ~ moves u e) /\ m_heroes (room_step m e) = m_heroes m).
Proof.
  rewrite step_heroes. destruct (g_key e) as [u|] eqn:Ek.
  2:{ right. right. right. split; [|done]. intros u ((_ & X) & _). congruence. }
  destruct (String.eqb_spec (g_type e) "m.room.member") as [Et|Et].
  2:{ right. right. right. split; [|done]. intros v ((X & _) & _). congruence. }
  assert (is_member u e) as Hm by (split; [done|done]).
  cbn zeta. destruct (String.eqb (g_membership e) "join" || String.eqb (g_membership e) "invite") eqn:Ec.
  - apply comes_b in Ec. rewrite (goes_not_comes _ Ec), andb_false_r, andb_true_r.
    destruct (length (m_heroes m) <? 6)%nat eqn:El; [apply Nat.ltb_lt in El; left; eauto 10|apply Nat.ltb_ge in El].
    right. left. exists u. split_and!; [done|done|lia|done].
  - rewrite andb_false_r. assert (~ comes e) as Hc by (rewrite <- comes_b; congruence).
    destruct (g_change e && _) eqn:Eg.
    + apply andb_true_iff in Eg. destruct Eg as (Eg & Eg2). apply goes_b in Eg2. right. right. left. exists u. by split_and!.
    + right. right. right. split; [|done]. intros v (_ & [X|(X & Y)]); [done|]. apply goes_b in Y. rewrite X, Y in Eg. done.
Qed.
Lemma moves_inj u v e : is_member u e -> moves v e -> v = u.
Proof. intros (_ & E) ((_ & E2) & _). congruence. Qed.

Lemma heroes_came l : forall m, m_heroes m = [] -> forall h, In h (m_heroes (fold_left room_step l m)) ->
  exists e, latest (moves (h_id h)) l e /\ comes e.
Proof.
  induction l as [|x l IH] using rev_ind; intros m H0 h Hh.
  - cbn [fold_left] in Hh. rewrite H0 in Hh. done.
  - rewrite fold_left_app in Hh. cbn [fold_left] in Hh. specialize (IH m H0).
    assert (heroes_ok (m_heroes (fold_left room_step l m))) as Hok.
    { assert (heroes_ok (m_heroes m)) as Hm by (rewrite H0; split; [constructor|cbn; lia]).
      clear -Hm. revert m Hm. induction l as [|y l IH]; intros m Hm; [done|]. cbn [fold_left]. apply IH, step_heroes_ok, Hm. }
    set (m' := fold_left room_step l m) in *. destruct Hok as (ND & _).
    assert (forall u, is_member u x -> h_id h <> u -> In h (m_heroes m') -> exists e, latest (moves (h_id h)) (l ++ [x]) e /\ comes e) as Old.
    { intros u Hu Hn Hi. destruct (IH h Hi) as (e & He & Hc). exists e. split; [|done]. apply latest_snoc. right. split; [|done].
      intros Hm. apply Hn. by apply (moves_inj _ _ _ Hu) in Hm. }
    destruct (hero_cases m' x) as [(u & Hu & Hc & Hl & E)|[(u & Hu & Hc & Hl & E)|[(u & Hu & Hc & Hg & Hgo & E)|(HN & E)]]]; rewrite E in Hh.
    + apply (in_put_hero _ _ _ ND) in Hh. destruct Hh as [->|(Hi & Hn)].
      * exists x. split; [|done]. apply latest_snoc. left. split; [|done]. split; [done|by left].
      * by apply (Old u).
    + destruct (string_eq_dec (h_id h) u) as [E2|E2]; [|by apply (Old u)].
      exists x. split; [|done]. apply latest_snoc. left. split; [|done]. split; [by rewrite E2|by left].
    + apply (in_remove_hero _ _ _ ND) in Hh. destruct Hh as (Hi & Hn). by apply (Old u).
    + destruct (IH h Hh) as (e & He & Hc). exists e. split; [|done]. apply latest_snoc. right. split; [apply HN|done].
Qed.

Lemma heroes_exact l : forall m, m_heroes m = [] -> few_users 5 l ->
  forall h, In h (m_heroes (fold_left room_step l m)) <-> exists e, latest (moves (h_id h)) l e /\ comes e /\ h = hero_of (h_id h) e.
Proof.
  intros m H0 (users & Lu & Hus).
  assert (forall e user, In e l -> is_member user e -> comes e -> In user users) as Hus' by done. clear Hus. revert Hus'.
  induction l as [|x l IH] using rev_ind; intros Hus.
  - intros h. cbn [fold_left]. rewrite H0. split; [done|]. intros (e & He & _). by apply latest_nil in He.
  - rewrite fold_left_app. cbn [fold_left].
    assert (forall e user, In e l -> is_member user e -> comes e -> In user users) as Hus1.
    { intros e user He. apply Hus. apply in_or_app. by left. }
    specialize (IH Hus1).
    assert (heroes_ok (m_heroes (fold_left room_step l m))) as Hok.
    { assert (heroes_ok (m_heroes m)) as Hm by (rewrite H0; split; [constructor|cbn; lia]).
      clear -Hm. revert m Hm. induction l as [|y l IH]; intros m Hm; [done|]. cbn [fold_left]. apply IH, step_heroes_ok, Hm. }
    set (m' := fold_left room_step l m) in *. destruct Hok as (ND & _).
    assert (length (m_heroes m') < 6)%nat as Hlen.
    { rewrite <- (map_length h_id). apply Nat.le_lt_trans with (length users); [|lia].
      apply NoDup_incl_length; [done|]. intros u Hu. apply in_map_iff in Hu. destruct Hu as (h & <- & Hh).
      apply IH in Hh. destruct Hh as (e & (l1 & l2 & -> & He & _) & Hc & _).
      apply (Hus1 e); [apply in_or_app; right; by left|by destruct He|done]. }
    assert (forall h u, is_member u x -> h_id h <> u -> (In h (m_heroes m') <->
      exists e, latest (moves (h_id h)) (l ++ [x]) e /\ comes e /\ h = hero_of (h_id h) e)) as Old.
    { intros h u Hu Hn. rewrite IH. split; intros (e & He & Hc).
      - exists e. split; [|done]. apply latest_snoc. right. split; [|done]. intros Hm. apply Hn. by apply (moves_inj _ _ _ Hu) in Hm.
      - exists e. split; [|done]. apply latest_snoc in He. destruct He as [(Hm & _)|(_ & He)]; [|done].
        exfalso. apply Hn. by apply (moves_inj _ _ _ Hu) in Hm. }
    intros h.
    destruct (hero_cases m' x) as [(u & Hu & Hc & Hl & E)|[(u & Hu & Hc & Hl & E)|[(u & Hu & Hc & Hg & Hgo & E)|(HN & E)]]]; rewrite E.
    + rewrite (in_put_hero _ _ _ ND). destruct (string_eq_dec (h_id h) u) as [E2|E2].
      * split.
        -- intros [->|(_ & X)]; [|done]. exists x. split_and!; [|done|done]. apply latest_snoc. left. split; [|done].
           split; [done|by left].
        -- intros (e & He & _ & Eh). left. apply latest_snoc in He. destruct He as [(_ & ->)|(X & _)].
           ++ by rewrite Eh, E2.
           ++ exfalso. apply X. split; [by rewrite E2|by left].
      * rewrite <- (Old h u Hu E2). split; [intros [->|(X & _)]; [done|done]|]. intros X. by right.
    + done.
    + rewrite (in_remove_hero _ _ _ ND). destruct (string_eq_dec (h_id h) u) as [E2|E2].
      * split; [tauto|]. intros (e & He & Hce & _). apply latest_snoc in He. destruct He as [(_ & ->)|(X & _)]; [done|].
        exfalso. apply X. split; [by rewrite E2|by right].
      * rewrite <- (Old h u Hu E2). tauto.
    + rewrite IH. split; intros (e & He & Hc); exists e; (split; [|done]).
      * apply latest_snoc. right. split; [apply HN|done].
      * apply latest_snoc in He. destruct He as [(X & _)|(_ & X)]; [by apply HN in X|done].
Qed.

(** The circular slice. *)
Lemma last_n_snoc {A} (n : nat) (l : list A) x : (0 < n)%nat ->
  last_n n (l ++ [x]) = (if (length l <? n)%nat then last_n n l else tail (last_n n l)) ++ [x].
Proof.
  intros Hn. unfold last_n. rewrite app_length. cbn [length]. case_match eqn:E.
  - apply Nat.ltb_lt in E. replace (length l + 1 - n)%nat with 0%nat by lia. replace (length l - n)%nat with 0%nat by lia. done.
  - apply Nat.ltb_ge in E. rewrite drop_app_le by lia. f_equal.
    replace (length l + 1 - n)%nat with (S (length l - n))%nat by lia.
    generalize (length l - n)%nat. clear. intros k. revert l. induction k as [|k IH]; intros [|y l]; [done|done|done|]. apply IH.
Qed.
Lemma circ_spec {A} (n : nat) (l : list A) : (0 < n)%nat ->
  let s := fold_left (circ_append n) l ([], 0%nat) in
  length s.1 = Nat.min (length l) n /\ (s.2 <= length s.1)%nat /\ ((length s.1 < n)%nat -> s.2 = length s.1)
  /\ last_n n l = drop s.2 s.1 ++ take s.2 s.1.
Proof.
  intros Hn. induction l as [|x l IH] using rev_ind; [done|]. rewrite fold_left_app. cbn [fold_left].
  destruct (fold_left (circ_append n) l ([], 0%nat)) as (vals & i). cbn zeta in *. cbn [fst snd] in IH. destruct IH as (L & Li & Lg & E).
  rewrite last_n_snoc by done. rewrite app_length. cbn [length circ_append]. destruct (length vals <? n)%nat eqn:El.
  - apply Nat.ltb_lt in El. specialize (Lg El). cbn [fst snd]. rewrite app_length. cbn [length].
    split_and!; [lia|lia|lia|]. replace (length l <? n)%nat with true by (symmetry; apply Nat.ltb_lt; lia).
    rewrite E. rewrite Lg, drop_all, take_ge by lia. rewrite drop_ge, take_ge by (rewrite app_length; cbn; lia). done.
  - apply Nat.ltb_ge in El. replace (length l <? n)%nat with false by (symmetry; apply Nat.ltb_ge; lia).
    set (j := if (i =? n)%nat then 0%nat else i).
    assert (j < length vals)%nat as Hj by (unfold j; case_match eqn:X; [lia|apply Nat.eqb_neq in X; lia]).
    assert (last_n n l = drop j vals ++ take j vals) as E2.
    { unfold j. case_match eqn:X; [|done]. apply Nat.eqb_eq in X. rewrite E, drop_ge, take_ge by lia. cbn [app drop take]. by rewrite app_nil_r. }
    cbn [fst snd]. rewrite insert_length. split_and!; [lia|lia|lia|].
    destruct (lookup_lt_is_Some_2 _ _ Hj) as (y & Hy). rewrite E2, (drop_S _ _ _ Hy). cbn [app tail].
    rewrite insert_take_drop by done.
    assert (length (take j vals) = j) as Lt by (rewrite take_length; lia).
    replace (drop (S j) (take j vals ++ x :: drop (S j) vals)) with (drop (S j) vals).
    2:{ rewrite drop_app_ge by lia. rewrite Lt. replace (S j - j)%nat with 1%nat by lia. done. }
    replace (take (S j) (take j vals ++ x :: drop (S j) vals)) with (take j vals ++ [x]).
    2:{ rewrite take_app_ge by lia. rewrite Lt. replace (S j - j)%nat with 1%nat by lia. done. }
    by rewrite app_assoc.
Qed.
Lemma circ_permutation {A} (n : nat) (l : list A) : (0 < n)%nat ->
  Permutation (fold_left (circ_append n) l ([], 0%nat)).1 (last_n n l).
Proof.
  intros Hn. destruct (circ_spec n l Hn) as (_ & _ & _ & E). rewrite E.
  rewrite <- (take_drop (fold_left (circ_append n) l ([], 0%nat)).2 (fold_left (circ_append n) l ([], 0%nat)).1) at 1.
  apply Permutation_app_comm.
Qed.

(** Reloading a room from its snapshot. *)
Definition reset_rest (m m' : room_meta) : Prop :=
  m_room m' = m_room m /\ m_last_ts m' = m_last_ts m /\ m_latest m' = m_latest m /\ m_predecessor m' = m_predecessor m
  /\ m_upgraded m' = m_upgraded m /\ m_type m' = m_type m /\ m_heroes m' = m_heroes m.
Definition key_is (k : string) (e : gevent) : bool := match g_key e with Some x => String.eqb x k | None => false end.
Definition hero_ev (e : gevent) : hero := mk_hero (default "" (g_key e)) (g_displayname e) (g_avatar e).
Lemma reset_one m hs e : reset_selects e = true ->
  let r := reset_event (m, hs) e in
  reset_rest m r.1
  /\ m_children r.1 = m_children m
  /\ m_name r.1 = (if bool_decide (is_state "m.room.name" "" e) then g_name e else m_name m)
  /\ m_avatar r.1 = (if bool_decide (is_state "m.room.avatar" "" e) then g_url e else m_avatar m)
  /\ m_alias r.1 = (if bool_decide (is_state "m.room.canonical_alias" "" e) then g_alias e else m_alias m)
  /\ m_encrypted r.1 = (if bool_decide (is_state "m.room.encryption" "" e) then true else m_encrypted m)
  /\ m_join r.1 = m_join m + Z.of_nat (length (with_membership "join" [e]))
  /\ m_invite r.1 = m_invite m + Z.of_nat (length (with_membership "invite" [e]))
  /\ r.2 = fold_left (circ_append 6) (map hero_ev (joined_or_invited [e])) hs.
Proof.
  intros Hs. unfold reset_selects in Hs. unfold reset_event, with_membership, joined_or_invited. cbn [List.filter].
  apply orb_true_iff in Hs. destruct Hs as [Hs|Hs].
  - apply andb_true_iff in Hs. destruct Hs as (Ht & Hk). destruct (g_key e) as [k|] eqn:Ek; [|done]. apply String.eqb_eq in Hk. subst k.
    rewrite !orb_true_iff, !String.eqb_eq in Ht.
    assert (forall ty, bool_decide (is_state ty "" e) = String.eqb (g_type e) ty) as Hb.
    { intros ty. destruct (String.eqb_spec (g_type e) ty) as [E|E]; [apply bool_decide_eq_true; by split|apply bool_decide_eq_false; intros (X & _); done]. }
    rewrite !Hb. destruct Ht as [[[Ht|Ht]|Ht]|Ht]; rewrite Ht; cbn [String.eqb Ascii.eqb Bool.eqb andb length map fold_left fst snd];
      cbn [set_name set_avatar set_alias set_encrypted m_name m_avatar m_alias m_encrypted m_join m_invite m_children]; rewrite ?Z.add_0_r; by repeat split.
  - apply andb_true_iff in Hs. destruct Hs as (Ht & Hm). apply String.eqb_eq in Ht.
    assert (forall ty, ty <> "m.room.member" -> bool_decide (is_state ty "" e) = false) as Hb.
    { intros ty Hty. apply bool_decide_eq_false. intros (X & _). congruence. }
    rewrite !Hb by done. rewrite Ht. cbn [String.eqb Ascii.eqb Bool.eqb andb]. rewrite Hm. cbn [map fold_left].
    apply orb_true_iff in Hm. rewrite !String.eqb_eq in Hm. destruct Hm as [Hm|Hm]; rewrite Hm; cbn [String.eqb Ascii.eqb Bool.eqb length fst snd];
      cbn [set_members m_name m_avatar m_alias m_encrypted m_join m_invite m_children]; rewrite ?Z.add_0_r; by repeat split.
Qed.
Lemma as_latest_snoc {A} P `{!forall e, Decision (P e)} l (read : gevent -> A) old v x :
  as_latest P l read old v -> as_latest P (l ++ [x]) read old (if bool_decide (P x) then read x else v).
Proof.
  intros (I1 & I2). split.
  - intros e He. apply latest_snoc in He. destruct He as [(Hx & ->)|(Hx & He)].
    + by rewrite bool_decide_eq_true_2.
    + rewrite bool_decide_eq_false_2 by done. by apply I1.
  - intros HN. rewrite bool_decide_eq_false_2; [|apply HN, in_or_app; right; by left].
    apply I2. intros z Hz. apply HN, in_or_app. by left.
Qed.
Lemma as_latest_skip {A} P l (read : gevent -> A) old v x : ~ P x -> as_latest P l read old v -> as_latest P (l ++ [x]) read old v.
Proof.
  intros Hx (I1 & I2). split.
  - intros e He. apply latest_snoc in He. destruct He as [(Hy & _)|(_ & He)]; [done|by apply I1].
  - intros HN. apply I2. intros z Hz. apply HN, in_or_app. by left.
Qed.
Lemma filter_snoc {A} (f : A -> bool) l x : List.filter f (l ++ [x]) = List.filter f l ++ (if f x then [x] else []).
Proof. rewrite List.filter_app. cbn [List.filter]. done. Qed.
Lemma unselected e : reset_selects e = false ->
  ~ is_state "m.room.name" "" e /\ ~ is_state "m.room.avatar" "" e /\ ~ is_state "m.room.canonical_alias" "" e /\ ~ is_state "m.room.encryption" "" e
  /\ with_membership "join" [e] = [] /\ with_membership "invite" [e] = [] /\ joined_or_invited [e] = [].
Proof.
  intros H. unfold reset_selects in H. apply orb_false_iff in H. destruct H as (H1 & H2).
  split_and!; try (intros (X & Y); rewrite X, Y in H1; done).
  - unfold with_membership. cbn [List.filter]. destruct (String.eqb (g_type e) "m.room.member"); [|done]. cbn [andb] in *.
    apply orb_false_iff in H2. destruct H2 as (-> & _). done.
  - unfold with_membership. cbn [List.filter]. destruct (String.eqb (g_type e) "m.room.member"); [|done]. cbn [andb] in *.
    apply orb_false_iff in H2. destruct H2 as (_ & ->). done.
  - unfold joined_or_invited. cbn [List.filter]. by rewrite H2.
Qed.
Lemma reset_fold m evs :
  let r := fold_left reset_event (List.filter reset_selects evs) (m, ([], 0%nat)) in
  reset_rest m r.1 /\ m_children r.1 = m_children m
  /\ as_latest (is_state "m.room.name" "") evs g_name (m_name m) (m_name r.1)
  /\ as_latest (is_state "m.room.avatar" "") evs g_url (m_avatar m) (m_avatar r.1)
  /\ as_latest (is_state "m.room.canonical_alias" "") evs g_alias (m_alias m) (m_alias r.1)
  /\ as_latest (is_state "m.room.encryption" "") evs (fun _ => true) (m_encrypted m) (m_encrypted r.1)
  /\ m_join r.1 = m_join m + Z.of_nat (length (with_membership "join" evs))
  /\ m_invite r.1 = m_invite m + Z.of_nat (length (with_membership "invite" evs))
  /\ r.2 = fold_left (circ_append 6) (map hero_ev (joined_or_invited evs)) ([], 0%nat).
Proof.
  cbn zeta. induction evs as [|x evs IH] using rev_ind.
  - cbn. rewrite !Z.add_0_r. split; [by repeat split|]. split; [done|].
    split_and!; try done; (split; [intros e He; by apply latest_nil in He|done]).
  - rewrite filter_snoc, fold_left_app.
    destruct (fold_left reset_event (List.filter reset_selects evs) (m, ([], 0%nat))) as (m1 & hs1). cbn [fst snd] in IH.
    destruct IH as (R & C & N & Av & Al & En & J & I & H). unfold with_membership, joined_or_invited in *. rewrite !List.filter_app, !app_length, map_app, fold_left_app, <- H.
    fold (with_membership "join" [x]) (with_membership "invite" [x]) (joined_or_invited [x]).
    destruct (reset_selects x) eqn:Hs.
    + cbn [fold_left]. destruct (reset_one m1 hs1 x Hs) as (R1 & C1 & N1 & Av1 & Al1 & En1 & J1 & I1 & H1).
      split.
      { destruct R as (? & ? & ? & ? & ? & ? & ?). destruct R1 as (? & ? & ? & ? & ? & ? & ?). repeat split; congruence. }
      rewrite C1, N1, Av1, Al1, En1, J1, I1, H1. split; [done|]. rewrite J, I.
      split; [by apply as_latest_snoc|]. split; [by apply as_latest_snoc|]. split; [by apply as_latest_snoc|].
      split; [by apply (as_latest_snoc _ _ (fun _ => true))|]. split; [lia|]. split; [lia|]. done.
    + cbn [fold_left fst snd]. destruct (unselected x Hs) as (N1 & Av1 & Al1 & En1 & -> & -> & ->). cbn [length map fold_left].
      rewrite !Nat.add_0_r. split; [done|]. split; [done|]. split_and!; try done; by apply as_latest_skip.
Qed.
Lemma last_n_map {A B} (f : A -> B) n l : last_n n (map f l) = map f (last_n n l).
Proof. unfold last_n. rewrite map_length. symmetry. apply (fmap_drop f). Qed.
Lemma last_n_sub {A} n (l : list A) x : In x (last_n n l) -> In x l.
Proof. unfold last_n. intros H. rewrite <- (take_drop (length l - n) l). apply in_or_app. by right. Qed.
Lemma nodup_drop {A} k (l : list A) : List.NoDup l -> List.NoDup (drop k l).
Proof. intros H. apply NoDup_ListNoDup in H. apply NoDup_ListNoDup. rewrite <- (take_drop k l) in H. apply NoDup_app in H. tauto. Qed.
Lemma joined_ids_nodup evs : snapshot_ok evs -> List.NoDup (map (fun e => default "" (g_key e)) (joined_or_invited evs)).
Proof.
  intros (ND & HF). unfold joined_or_invited. induction evs as [|x evs IH]; [constructor|].
  cbn [map] in ND. apply NoDup_cons_iff in ND. destruct ND as (N & ND). inversion HF as [|? ? Hx HF']. subst.
  specialize (IH ND HF'). cbn [List.filter]. case_match eqn:E; [|done]. cbn [map]. constructor; [|done].
  intros X. apply in_map_iff in X. destruct X as (y & Ey & Hy). apply filter_In in Hy. destruct Hy as (Hy & Et).
  apply N. apply in_map_iff. exists y. split; [|done].
  apply andb_true_iff in E. destruct E as (E & _). apply andb_true_iff in Et. destruct Et as (Et & _).
  apply String.eqb_eq in E. apply String.eqb_eq in Et. f_equal; [congruence|].
  pose proof (proj1 (List.Forall_forall _ _) HF' y Hy) as Hky. cbn in Hky.
  destruct (g_key x), (g_key y); try done. cbn in Ey. congruence.
Qed.
Lemma reset_heroes m evs : Permutation (m_heroes (reset_meta m evs)) (map hero_ev (last_n 6 (joined_or_invited evs))).
Proof.
  unfold reset_meta. pose proof (reset_fold (set_children (set_members m (m_heroes m) 0 0) ∅) evs) as R. cbn zeta in R.
  destruct (fold_left reset_event _ _) as (m1 & hs). cbn [fst snd] in R. destruct R as (_ & _ & _ & _ & _ & _ & _ & _ & ->).
  cbn [set_members m_heroes]. rewrite circ_permutation by lia. by rewrite last_n_map.
Qed.
Lemma reset_heroes_ok m evs : snapshot_ok evs -> heroes_ok (m_heroes (reset_meta m evs)).
Proof.
  intros H. pose proof (reset_heroes m evs) as P. split.
  - assert (Permutation (ids (m_heroes (reset_meta m evs))) (ids (map hero_ev (last_n 6 (joined_or_invited evs))))) as P2 by (by apply Permutation_map).
    eapply Permutation_NoDup; [symmetry; exact P2|]. rewrite map_map. cbn [hero_ev h_id].
    pose proof (joined_ids_nodup evs H) as ND. apply (nodup_drop (length (joined_or_invited evs) - 6)) in ND.
    rewrite <- (fmap_drop (fun e => default "" (g_key e))) in ND. done.
  - rewrite (Permutation_length P), map_length. unfold last_n. rewrite drop_length. lia.
Qed.
Lemma gruns_heroes_ok l : forall c, resets_ok l -> (forall room m, c !! room = Some m -> heroes_ok (m_heroes m)) ->
  forall room m, gruns c l !! room = Some m -> heroes_ok (m_heroes m).
Proof.
  induction l as [|s l IH]; intros c HR Hc; [done|]. change (gruns c (s :: l)) with (gruns (gstep1 c s) l).
  apply IH; [intros room evs X; apply (HR room); by right|].
  assert (heroes_ok []) as H0 by (split; [constructor|cbn; lia]).
  intros room m. destruct s as [e|r|r evs]; cbn [gstep1].
  - unfold on_new_event. intros [(<- & <-)|(_ & X)]%lookup_insert_Some; [|by apply (Hc room)].
    apply (step_heroes_ok (default (new_meta (g_room e)) (c !! g_room e)) e).
    destruct (c !! g_room e) as [m0|] eqn:E; [by apply (Hc _ _ E)|exact H0].
  - unfold on_ephemeral. intros [(<- & <-)|(_ & X)]%lookup_insert_Some; [|by apply (Hc room)].
    destruct (c !! r) as [m0|] eqn:E; [by apply (Hc _ _ E)|exact H0].
  - unfold on_invalidate. destruct (c !! r) as [m0|] eqn:E; [|by apply Hc]. destruct evs as [evs|]; [|by apply Hc].
    intros [(<- & <-)|(_ & X)]%lookup_insert_Some; [|by apply (Hc room)].
    apply reset_heroes_ok. apply (HR r). by left.
Qed.
