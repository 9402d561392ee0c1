(** Proofs about the spaces kept for a user. *)
From Verif Require Import Prelude RoomNameModel UserModel UserSpec UserProofs.
Open Scope string_scope. Open Scope list_scope. Open Scope Z_scope.

(** The maps of different rooms are different, and none has been made yet at the next
    address. *)
Definition hinv (c : ucache) : Prop :=
  (forall r u, c_rooms c !! r = Some u -> (u_spaces u < c_next c)%nat)
  /\ (forall r r' u u', c_rooms c !! r = Some u -> c_rooms c !! r' = Some u' -> r <> r' -> u_spaces u <> u_spaces u').
Lemma hinv0 : hinv ucache0.
Proof. split; intros *; cbn; rewrite lookup_empty; discriminate. Qed.

(** [u] may be stored for [room]. *)
Definition free (c : ucache) (room : string) (u : urd) : Prop :=
  (u_spaces u < c_next c)%nat /\ forall r u', r <> room -> c_rooms c !! r = Some u' -> u_spaces u' <> u_spaces u.
Definition at_addr (c : ucache) (u : urd) : gset string := default ∅ (c_heap c !! u_spaces u).

Lemma load_spec c room c' u :
  hinv c -> load_urd c room = (c', u) ->
  hinv c' /\ (forall x, spaces c' x = spaces c x) /\ free c' room u /\ at_addr c' u = spaces c room
  /\ c_rooms c' = c_rooms c /\ (c_next c <= c_next c')%nat.
Proof.
  intros [H1 H2] E. unfold load_urd in E. destruct (c_rooms c !! room) as [v|] eqn:Ev.
  - injection E as <- <-. unfold spaces. split; [by split|]. split; [reflexivity|]. split.
    { split; [by apply (H1 room)|]. intros r u' Hne Hr. exact (H2 r room u' v Hr Ev Hne). }
    split; [by rewrite Ev|]. split; [reflexivity|lia].
  - injection E as <- <-. unfold hinv, spaces, free, at_addr. cbn. split.
    { split; [intros r u Hr; specialize (H1 r u Hr); lia|exact H2]. }
    split.
    { intros x. destruct (c_rooms c !! x) as [w|] eqn:Ew; [|reflexivity].
      rewrite lookup_insert_ne; [reflexivity|]. specialize (H1 x w Ew). lia. }
    split. { split; [lia|]. intros r u' _ Hr. specialize (H1 r u' Hr). lia. }
    split; [by rewrite lookup_insert, Ev|]. split; [reflexivity|lia].
Qed.
Lemma put_spec c room u :
  hinv c -> free c room u ->
  hinv (put_urd c room u) /\ (forall x, spaces (put_urd c room u) x = if String.eqb room x then at_addr c u else spaces c x).
Proof.
  intros [H1 H2] [F1 F2]. unfold hinv, spaces, put_urd. cbn. split; [split|].
  - intros r v. destruct (decide (room = r)) as [->|N].
    + rewrite lookup_insert. intros [= <-]. exact F1.
    + rewrite lookup_insert_ne by exact N. apply H1.
  - intros r r' v v' Hr Hr' Hne. destruct (decide (room = r)) as [->|N].
    + rewrite lookup_insert in Hr. injection Hr as <-. rewrite lookup_insert_ne in Hr' by exact Hne.
      intros E. apply (F2 r' v'); [congruence|exact Hr'|congruence].
    + rewrite lookup_insert_ne in Hr by exact N. destruct (decide (room = r')) as [->|N'].
      * rewrite lookup_insert in Hr'. injection Hr' as <-. by apply (F2 r v).
      * rewrite lookup_insert_ne in Hr' by exact N'. by apply (H2 r r').
  - intros x. destruct (String.eqb_spec room x) as [->|N].
    + by rewrite lookup_insert.
    + by rewrite lookup_insert_ne.
Qed.
Lemma free_same_addr c room u v : u_spaces u = u_spaces v -> free c room u -> free c room v.
Proof. unfold free. by intros ->. Qed.
Lemma at_same_addr c u v : u_spaces u = u_spaces v -> at_addr c u = at_addr c v.
Proof. unfold at_addr. by intros ->. Qed.
(** Loading and storing with the same map. *)
Lemma load_put_spec c room c' u v :
  hinv c -> load_urd c room = (c', u) -> u_spaces v = u_spaces u ->
  hinv (put_urd c' room v) /\ (forall x, spaces (put_urd c' room v) x = spaces c x).
Proof.
  intros H E Ev. destruct (load_spec _ _ _ _ H E) as (H' & Hs & F & Ha & _).
  destruct (put_spec c' room v H') as [P1 P2]. { eapply free_same_addr; [|exact F]. by symmetry. }
  split; [exact P1|]. intros x. rewrite P2. destruct (String.eqb_spec room x) as [->|]; [|apply Hs].
  rewrite <-Ha. by apply at_same_addr.
Qed.
Lemma emit_spec c u : hinv c -> hinv (emit c u) /\ forall x, spaces (emit c u) x = spaces c x.
Proof. intros H. split; [exact H|reflexivity]. Qed.
Lemma emit_room_spec c room k :
  hinv c -> hinv (emit_room c room k) /\ (forall x, spaces (emit_room c room k) x = spaces c x)
  /\ c_rooms (emit_room c room k) = c_rooms c /\ (c_next c <= c_next (emit_room c room k))%nat
  /\ (forall a, (a < c_next c)%nat -> c_heap (emit_room c room k) !! a = c_heap c !! a).
Proof.
  intros H. unfold emit_room. destruct (load_urd c room) as [c' u] eqn:E.
  destruct (load_spec _ _ _ _ H E) as (H' & Hs & _ & _ & Hr & Hn). split; [exact H'|]. split; [exact Hs|]. split; [exact Hr|]. split; [exact Hn|].
  intros a La. unfold load_urd in E. destruct (c_rooms c !! room); injection E as <- <-; [reflexivity|]. cbn. rewrite lookup_insert_ne; [reflexivity|lia].
Qed.
Lemma space_spec c p ch del e j :
  hinv c ->
  hinv (on_space c p ch del e j)
  /\ (forall x, spaces (on_space c p ch del e j) x
        = if String.eqb ch x then (if del then spaces c ch ∖ {[ p ]} else {[ p ]} ∪ spaces c ch) else spaces c x)
  /\ (forall room u, room <> ch -> free c room u -> free (on_space c p ch del e j) room u /\ at_addr (on_space c p ch del e j) u = at_addr c u).
Proof.
  intros H. unfold on_space. destruct (load_urd c ch) as [c1 u] eqn:E.
  destruct (load_spec _ _ _ _ H E) as (H1 & Hs & F & Ha & Hr & Hn).
  set (new := if del then _ else _). set (c2 := mk_ucache _ _ _ _ _).
  assert (H2 : hinv c2) by exact H1.
  assert (F2 : free c2 ch u) by exact F.
  assert (Hs2 : forall x, x <> ch -> spaces c2 x = spaces c x).
  { intros x N. rewrite <-Hs. unfold spaces, c2. cbn. destruct (c_rooms c1 !! x) as [w|] eqn:Ew; [|reflexivity].
    rewrite lookup_insert_ne; [reflexivity|]. intros Ea. apply (proj2 F x w N Ew). by symmetry. }
  assert (Ha2 : at_addr c2 u = new) by (unfold at_addr, c2; cbn; by rewrite lookup_insert).
  assert (Hnew : new = if del then spaces c ch ∖ {[ p ]} else {[ p ]} ∪ spaces c ch).
  { unfold new. unfold at_addr in Ha. by rewrite Ha. }
  destruct (put_spec c2 ch u H2 F2) as [P1 P2].
  assert (Hq : forall room v, room <> ch -> free c room v -> free (put_urd c2 ch u) room v /\ at_addr (put_urd c2 ch u) v = at_addr c v).
  { intros room v N [Fv1 Fv2].
    assert (Hne : u_spaces u <> u_spaces v).
    { unfold load_urd in E. destruct (c_rooms c !! ch) as [w|] eqn:Ew.
      - injection E as <- <-. by apply (Fv2 ch w); [congruence|].
      - injection E as <- <-. cbn. lia. }
    split; [split|].
    - cbn. lia.
    - intros r v' Nr. cbn. destruct (decide (ch = r)) as [<-|N'].
      + rewrite lookup_insert. intros [= <-]. exact Hne.
      + rewrite lookup_insert_ne by exact N'. rewrite Hr. by apply Fv2.
    - unfold at_addr. cbn. rewrite lookup_insert_ne by exact Hne.
      unfold load_urd in E. destruct (c_rooms c !! ch); injection E as <- <-; [reflexivity|]. cbn. rewrite lookup_insert_ne; [reflexivity|lia]. }
  assert (Hx : forall x, spaces (put_urd c2 ch u) x = if String.eqb ch x then (if del then spaces c ch ∖ {[ p ]} else {[ p ]} ∪ spaces c ch) else spaces c x).
  { intros x. rewrite P2. destruct (String.eqb_spec ch x) as [->|N]; [congruence|]. apply Hs2. congruence. }
  destruct j.
  - destruct (emit_room_spec (put_urd c2 ch u) ch (KEvent e) P1) as (Q1 & Q2 & Q3 & Q4 & Q5). split; [exact Q1|]. split.
    + intros x. by rewrite Q2.
    + intros room v N Fv. destruct (Hq room v N Fv) as [[X1 X2] X3]. split; [split|].
      * lia.
      * intros r v' Nr. rewrite Q3. by apply X2.
      * rewrite <-X3. unfold at_addr. by rewrite Q5.
  - split; [exact P1|]. split; [exact Hx|exact Hq].
Qed.
Lemma direct_spec c l : hinv c -> hinv (on_direct c l) /\ forall x, spaces (on_direct c l) x = spaces c x.
Proof.
  intros H. unfold on_direct.
  set (new := List.filter _ _). set (c1 := mk_ucache _ _ _ _ _).
  assert (H1 : hinv c1 /\ forall x, spaces c1 x = spaces c x).
  { destruct H as [A B]. split; [split|].
    - intros r u. cbn. rewrite map_lookup_imap. destruct (c_rooms c !! r) as [w|] eqn:E; [|discriminate]. intros [= <-]. cbn. by apply (A r).
    - intros r r' u u'. cbn. rewrite !map_lookup_imap. destruct (c_rooms c !! r) as [w|] eqn:E; [|discriminate].
      destruct (c_rooms c !! r') as [w'|] eqn:E'; [|discriminate]. intros [= <-] [= <-] N. cbn. by apply (B r r').
    - intros x. unfold spaces, c1. cbn. rewrite map_lookup_imap. destruct (c_rooms c !! x); reflexivity. }
  assert (Hno : forall r, In r new -> c_rooms c1 !! r = None).
  { intros r Hr. apply filter_In in Hr as [_ Hr]. cbn. rewrite map_lookup_imap. destruct (c_rooms c !! r); [discriminate|reflexivity]. }
  assert (Hnd : List.NoDup new) by (apply List.NoDup_filter, NoDup_ListNoDup, NoDup_remove_dups).
  destruct H1 as [H1 Hs1]. clearbody new c1.
  revert c1 H1 Hs1 Hno Hnd. induction new as [|r new IH]; intros c1 H1 Hs1 Hno Hnd; [by split|].
  cbn [fold_left]. inversion Hnd as [|? ? Hni Hnd']. subst.
  assert (Er : c_rooms c1 !! r = None) by (apply Hno; by left).
  assert (E : load_urd c1 r = new_urd c1) by (unfold load_urd; by rewrite Er).
  destruct (new_urd c1) as [c2 u] eqn:E2.
  assert (Ea : add_dm c1 r = put_urd c2 r (with_dm true u)) by (unfold add_dm; rewrite E2; reflexivity).
  rewrite Ea. destruct (load_put_spec c1 r c2 u (with_dm true u) H1 E eq_refl) as [P1 P2].
  apply IH; [exact P1| | |exact Hnd'].
  - intros x. by rewrite P2.
  - intros r' Hr'. destruct (load_spec _ _ _ _ H1 E) as (_ & _ & _ & _ & Hr & _).
    assert (r <> r') by (intros ->; contradiction). cbn. rewrite lookup_insert_ne by done. rewrite Hr. apply Hno. by right.
Qed.
Lemma account_spec c l order : hinv c -> hinv (on_account c l order) /\ forall x, spaces (on_account c l order) x = spaces c x.
Proof.
  intros H. unfold on_account.
  assert (H1 : hinv (fold_left data_step l (c, ∅)).1 /\ forall x, spaces (fold_left data_step l (c, ∅)).1 x = spaces c x).
  { induction l as [|a l IH] using rev_ind; [by split|]. rewrite fold_left_app. cbn [fold_left].
    destruct (fold_left data_step l (c, ∅)) as [c1 t1]. cbn [fst] in IH. destruct IH as [I1 I2]. unfold data_step.
    destruct (String.eqb (d_type a) "m.direct").
    { cbn [fst]. destruct (direct_spec c1 (d_direct a) I1) as [D1 D2]. split; [exact D1|]. intros x. by rewrite D2. }
    destruct (String.eqb (d_type a) "m.tag"); [by split|].
    destruct (String.eqb (d_type a) "m.ignored_user_list"); [|by split].
    destruct (negb (String.eqb (d_room a) "")); [by split|]. destruct (d_ignored a); by split. }
  destruct (fold_left data_step l (c, ∅)) as [c1 t1]. cbn [fst] in H1. destruct H1 as [I1 I2].
  assert (H2 : hinv (fold_left put_tags (map_to_list t1) c1) /\ forall x, spaces (fold_left put_tags (map_to_list t1) c1) x = spaces c x).
  { generalize (map_to_list t1). intros kvs. induction kvs as [|kv kvs IH] using rev_ind; [by split|]. rewrite fold_left_app. cbn [fold_left].
    destruct IH as [J1 J2]. unfold put_tags at 1 3. destruct (load_urd (fold_left put_tags kvs c1) kv.1) as [c2 u] eqn:E.
    destruct (load_put_spec _ _ _ _ (with_tags u kv.2) J1 E eq_refl) as [P1 P2]. split; [exact P1|]. intros x. by rewrite P2. }
  destruct H2 as [J1 J2]. revert J1 J2. generalize (fold_left put_tags (map_to_list t1) c1). intros c2 J1 J2.
  induction order as [|r order IH] using rev_ind; [by split|]. rewrite fold_left_app. cbn [fold_left]. destruct IH as [K1 K2].
  unfold emit_data at 1 3. destruct (String.eqb r ""); [by split|].
  destruct (emit_room_spec _ r (KData (List.filter (fun d => String.eqb (d_room d) r) l)) K1) as (Q1 & Q2 & _). split; [exact Q1|]. intros x. by rewrite Q2.
Qed.

Definition f_child p ch f := sets_child p ch [] f.
Lemma child_decide (p q : string) (b : bool) (s : gset string) :
  bool_decide (p ∈ (if b then {[ q ]} ∪ s else s ∖ {[ q ]})) = (if String.eqb q p then b else bool_decide (p ∈ s)).
Proof.
  destruct (String.eqb_spec q p) as [->|N]; destruct b.
  - apply bool_decide_eq_true_2. set_solver.
  - apply bool_decide_eq_false_2. set_solver.
  - apply bool_decide_ext. set_solver.
  - apply bool_decide_ext. set_solver.
Qed.
Lemma registered_spec c l p ch :
  hinv c -> (forall j c', In j l -> In c' (j_children j) -> j_room j <> c'.1) ->
  hinv (on_registered c l)
  /\ bool_decide (p ∈ spaces (on_registered c l) ch) = evs (f_child p ch) (facts1 "" (CRegistered l)) (bool_decide (p ∈ spaces c ch)).
Proof.
  intros H Hok. unfold on_registered. induction l as [|j l IH] using rev_ind; [by split|].
  destruct IH as [I1 I2]. { intros j' c' Hj. apply Hok, in_or_app. by left. }
  cbn [facts1] in *. rewrite fold_left_app, flat_map_app, evs_app, <-I2. cbn [fold_left flat_map]. rewrite app_nil_r, evs_app.
  generalize (fold_left on_registered1 l c) I1. clear I1 I2. intros c1 I1. unfold on_registered1.
  set (c2 := fold_left _ (j_children j) c1).
  assert (H2 : hinv c2 /\ bool_decide (p ∈ spaces c2 ch) = evs (f_child p ch) (map (fun ch0 : string * bool => Child (j_room j) ch0.1 true) (j_children j)) (bool_decide (p ∈ spaces c1 ch))).
  { unfold c2. generalize (j_children j). intros chs. induction chs as [|k chs IH] using rev_ind; [by split|].
    rewrite fold_left_app, map_app, evs_app. cbn [fold_left map]. destruct IH as [K1 K2]. rewrite <-K2.
    destruct (space_spec _ (j_room j) k.1 false (mk_uevent (j_room j) "m.space.child" (Some k.1) "" false "") k.2 K1) as (S1 & S2 & _).
    split; [exact S1|]. rewrite S2. unfold evs, f_child. cbn [fold_left sets_child].
    destruct (String.eqb_spec k.1 ch) as [->|N].
    - rewrite (child_decide p (j_room j) true). destruct (String.eqb (j_room j) p); reflexivity.
    - rewrite andb_false_r. reflexivity. }
  destruct H2 as [H2 E2]. destruct (load_urd c2 (j_room j)) as [c3 u] eqn:E.
  destruct (load_put_spec _ _ _ _ (with_timing u (j_timing j)) H2 E eq_refl) as [P1 P2]. split; [exact P1|]. rewrite P2, E2. reflexivity.
Qed.
Lemma facts_registered user l : facts1 user (CRegistered l) = facts1 "" (CRegistered l).
Proof. reflexivity. Qed.
Lemma step_child user c x p ch :
  hinv c -> (forall q k b, In (Child q k b) (facts1 user x) -> q <> k) ->
  hinv (ucall1 user c x)
  /\ bool_decide (p ∈ spaces (ucall1 user c x) ch) = evs (f_child p ch) (facts1 user x) (bool_decide (p ∈ spaces c ch)).
Proof.
  intros H Hok. destruct x as [r h n|l o|e j|r s|r e|l|r|r rc]; cbn [ucall1].
  - unfold on_unread. destruct (load_urd c r) as [c1 u] eqn:E.
    match goal with |- context [put_urd c1 r ?v] => destruct (load_put_spec _ _ _ _ v H E eq_refl) as [P1 P2] end.
    match goal with |- context [emit_room ?d r ?k] => destruct (emit_room_spec d r k P1) as (Q1 & Q2 & _) end.
    split; [exact Q1|]. rewrite Q2, P2. destruct h, n; reflexivity.
  - destruct (account_spec c l o H) as [A1 A2]. split; [exact A1|]. rewrite A2.
    rewrite evs_none; [reflexivity|]. intros f [[? ->]|[(? & ? & ->)|[? ->]]]%data_facts_in; reflexivity.
  - unfold on_event. destruct (load_urd c (e_room e)) as [c1 u] eqn:E.
    set (u2 := if u_invite u && _ && _ then _ else u).
    assert (Eu : u_spaces u2 = u_spaces u) by (unfold u2; destruct (_ && _); [destruct (String.eqb _ _)|]; reflexivity).
    clearbody u2.
    destruct (load_spec _ _ _ _ H E) as (L1 & L2 & F & La & Lr & _).
    assert (Hsame : hinv (emit_room (put_urd c1 (e_room e) u2) (e_room e) (KEvent e))
              /\ forall x, spaces (emit_room (put_urd c1 (e_room e) u2) (e_room e) (KEvent e)) x = spaces c x).
    { destruct (load_put_spec _ _ _ _ u2 H E Eu) as [P1 P2]. destruct (emit_room_spec _ (e_room e) (KEvent e) P1) as (Q1 & Q2 & _).
      split; [exact Q1|]. intros x. by rewrite Q2, P2. }
    cbn [facts1] in *. destruct (e_key e) as [k|].
    2: { destruct Hsame as [S1 S2]. split; [exact S1|]. rewrite S2. reflexivity. }
    destruct (String.eqb_spec (e_type e) "m.space.child") as [Et|Nt].
    2: { destruct Hsame as [S1 S2]. split; [exact S1|]. rewrite S2. destruct (_ && _); reflexivity. }
    assert (Em : String.eqb (e_type e) "m.room.member" = false) by (rewrite Et; reflexivity).
    rewrite Em in *. cbn [andb] in *.
    assert (Nk : e_room e <> k) by (apply (Hok (e_room e) k (e_via e)); by left).
    destruct (space_spec c1 (e_room e) k (negb (e_via e)) e j L1) as (S1 & S2 & S3).
    assert (F2 : free c1 (e_room e) u2) by (eapply free_same_addr; [|exact F]; by symmetry).
    destruct (S3 (e_room e) u2 Nk F2) as [F3 A3].
    destruct (put_spec _ (e_room e) u2 S1 F3) as [P1 P2].
    destruct (emit_room_spec _ (e_room e) (KEvent e) P1) as (Q1 & Q2 & _). split; [exact Q1|]. rewrite Q2, P2.
    unfold evs, f_child. cbn [fold_left sets_child].
    destruct (String.eqb_spec (e_room e) ch) as [E'|N'].
    + rewrite A3, (at_same_addr _ _ _ Eu), La, E'. destruct (String.eqb_spec k ch) as [->|N'']; [congruence|]. rewrite andb_false_r. reflexivity.
    + rewrite S2. destruct (String.eqb_spec k ch) as [->|N''].
      * rewrite !L2. rewrite andb_true_r.
        pose proof (child_decide p (e_room e) (e_via e) (spaces c ch)) as Hc.
        destruct (e_via e); cbn [negb]; rewrite Hc; destruct (String.eqb (e_room e) p); reflexivity.
      * rewrite L2, andb_false_r. reflexivity.
  - unfold on_invite. cbn [facts1]. destruct (new_invite user s) as [i|]; [|by split].
    destruct (load_urd c r) as [c1 u] eqn:E.
    match goal with |- context [put_urd c1 r ?v] => destruct (load_put_spec _ _ _ _ v H E eq_refl) as [P1 P2] end.
    split; [exact P1|]. change (spaces (emit ?d ?v)) with (spaces d). rewrite <-P2. reflexivity.
  - unfold on_left. destruct (load_urd c r) as [c1 u] eqn:E.
    match goal with |- context [put_urd c1 r ?v] => destruct (load_put_spec _ _ _ _ v H E eq_refl) as [P1 P2] end.
    split; [exact P1|]. rewrite <-P2. reflexivity.
  - rewrite facts_registered. apply registered_spec; [exact H|]. intros jj k Hj Hk. apply (Hok (j_room jj) k.1 true).
    cbn. apply in_flat_map. exists jj. split; [exact Hj|]. apply in_or_app. left. apply in_map_iff. by exists k.
  - destruct (emit_room_spec c r KTyping H) as (Q1 & Q2 & _). split; [exact Q1|]. by rewrite Q2.
  - destruct (emit_room_spec c r (KReceipt rc) H) as (Q1 & Q2 & _). split; [exact Q1|]. by rewrite Q2.
Qed.
Lemma runs_child user l p ch :
  no_own_child user l ->
  hinv (ucalls user ucache0 l)
  /\ bool_decide (p ∈ spaces (ucalls user ucache0 l) ch) = evs (f_child p ch) (facts user l) false.
Proof.
  intros Hno. induction l as [|x l IH] using rev_ind.
  { split; [exact hinv0|]. reflexivity. }
  destruct IH as [I1 I2]. { intros q k b Hi. apply (Hno q k b). unfold facts. rewrite flat_map_app. apply in_or_app. by left. }
  unfold ucalls in *. rewrite fold_left_app. cbn [fold_left]. unfold facts. rewrite flat_map_app, evs_app. cbn [flat_map]. rewrite app_nil_r.
  fold (facts user l). rewrite <-I2. apply step_child; [exact I1|].
  intros q k b Hi. apply (Hno q k b). unfold facts. rewrite flat_map_app. apply in_or_app. right. cbn. by rewrite app_nil_r.
Qed.
