(** Proofs about what is kept for a user. *)
From Verif Require Import Prelude RoomNameModel UserModel UserSpec.
Open Scope string_scope. Open Scope list_scope. Open Scope Z_scope.

(** ** Latest facts *)
Definition evald {A} (sets : list fact -> fact -> option A) (l : list fact) (d : A) : A :=
  (fold_left (fun s f => (s.1 ++ [f], default s.2 (sets s.1 f))) l ([], d)).2.
Lemma evald_pre {A} (sets : list fact -> fact -> option A) l p d :
  (fold_left (fun s f => (s.1 ++ [f], default s.2 (sets s.1 f))) l (p, d)).1 = p ++ l.
Proof.
  revert p d. induction l as [|f l IH]; intros p d; cbn. { by rewrite app_nil_r. }
  rewrite IH. by rewrite <-app_assoc.
Qed.
Lemma evald_snoc {A} (sets : list fact -> fact -> option A) l f d :
  evald sets (l ++ [f]) d = default (evald sets l d) (sets l f).
Proof.
  unfold evald. rewrite fold_left_app. cbn. by rewrite evald_pre.
Qed.
Lemma evald_latest {A} (sets : list fact -> fact -> option A) l d : as_latest sets l d (evald sets l d).
Proof.
  split.
  - intros l1 f l2 x -> Hs Hn. revert Hn.
    induction l2 as [|g l2 IH] using rev_ind; intros Hn.
    + rewrite evald_snoc, Hs. reflexivity.
    + replace (l1 ++ f :: l2 ++ [g]) with ((l1 ++ f :: l2) ++ [g]) by (by rewrite <-app_assoc).
      rewrite evald_snoc. rewrite (Hn l2 g []) by reflexivity. cbn. apply IH.
      intros m1 h m2 ->. apply (Hn m1 h (m2 ++ [g])). by rewrite <-app_assoc.
  - induction l as [|g l IH] using rev_ind; intros Hn; [reflexivity|].
    rewrite evald_snoc. rewrite (Hn l g []) by reflexivity. cbn. apply IH.
    intros l1 h l2 ->. apply (Hn l1 h (l2 ++ [g])). by rewrite <-app_assoc.
Qed.
(** The latest fact decides. *)
Lemma latest_unique {A} (sets : list fact -> fact -> option A) l d v : as_latest sets l d v -> v = evald sets l d.
Proof.
  intros [H1 H2].
  assert ((exists l1 f l2 x, l = l1 ++ f :: l2 /\ sets l1 f = Some x
            /\ forall m1 g m2, l2 = m1 ++ g :: m2 -> sets (l1 ++ f :: m1) g = None)
          \/ (forall l1 f l2, l = l1 ++ f :: l2 -> sets l1 f = None)) as [(l1 & f & l2 & x & E & Hs & Hn)|Hn].
  { clear. induction l as [|g l IH] using rev_ind.
    - right. intros l1 f l2 E. destruct l1; discriminate.
    - destruct (sets l g) as [x|] eqn:E.
      + left. exists l, g, [], x. split; [reflexivity|]. split; [exact E|]. intros m1 h m2 E'. destruct m1; discriminate.
      + destruct IH as [(l1 & f & l2 & x & -> & Hs & Hn)|Hn].
        * left. exists l1, f, (l2 ++ [g]), x. split; [by rewrite <-app_assoc|]. split; [exact Hs|].
          intros m1 h m2 E'. destruct m2 as [|y m2 _] using rev_ind.
          -- apply app_inj_tail in E' as [-> ->]. exact E.
          -- rewrite app_comm_cons, app_assoc in E'. apply app_inj_tail in E' as [-> ->]. by apply (Hn m1 h m2).
        * right. intros l1 h l2 E'. destruct l2 as [|y l2 _] using rev_ind.
          -- apply app_inj_tail in E' as [-> ->]. exact E.
          -- rewrite app_comm_cons, app_assoc in E'. apply app_inj_tail in E' as [-> ->]. by apply (Hn l1 h l2). }
  - transitivity x; [by eapply H1|]. symmetry. eapply (proj1 (evald_latest sets l d)); eauto.
  - rewrite H2 by exact Hn. symmetry. by apply (proj2 (evald_latest sets l d)).
Qed.
(** For facts that do not depend on what was said before. *)
Definition evs {A} (f : fact -> option A) (l : list fact) (d : A) : A := fold_left (fun v x => default v (f x)) l d.
Lemma evald_evs {A} (f : fact -> option A) l d : evald (fun _ => f) l d = evs f l d.
Proof.
  induction l as [|g l IH] using rev_ind; [reflexivity|].
  rewrite evald_snoc, IH. unfold evs. by rewrite fold_left_app.
Qed.
Lemma evs_app {A} (f : fact -> option A) l m d : evs f (l ++ m) d = evs f m (evs f l d).
Proof. apply fold_left_app. Qed.

(** ** Everything but the spaces *)
Definition blank : urd := mk_urd false false false 0 0 None 0 ∅ (0, 0).
Definition strip (u : urd) : urd :=
  mk_urd (u_dm u) (u_invite u) (u_left u) (u_notif u) (u_high u) (u_inv u) 0 (u_tags u) (u_timing u).
Definition sget (c : ucache) (room : string) : urd := strip (default blank (c_rooms c !! room)).
Global Arguments sget : simpl never.
Lemma get_sget c room : strip (get c room) = sget c room.
Proof. unfold get, sget, load_urd. destruct (c_rooms c !! room); reflexivity. Qed.

Lemma load_rooms c room : c_rooms (load_urd c room).1 = c_rooms c.
Proof. unfold load_urd. destruct (c_rooms c !! room); reflexivity. Qed.
Lemma load_sget c room : strip (load_urd c room).2 = sget c room.
Proof. unfold load_urd, sget. destruct (c_rooms c !! room); reflexivity. Qed.
Lemma sget_load c room x : sget (load_urd c room).1 x = sget c x.
Proof. unfold sget. by rewrite load_rooms. Qed.
Lemma sget_put c room u x : sget (put_urd c room u) x = if String.eqb room x then strip u else sget c x.
Proof.
  unfold sget, put_urd. cbn. destruct (String.eqb_spec room x) as [->|N].
  - by rewrite lookup_insert.
  - by rewrite lookup_insert_ne.
Qed.
Lemma sget_emit c u x : sget (emit c u) x = sget c x.
Proof. reflexivity. Qed.
Lemma sget_emit_room c room k x : sget (emit_room c room k) x = sget c x.
Proof.
  unfold emit_room. destruct (load_urd c room) as [c' u] eqn:E. rewrite sget_emit.
  rewrite <-(sget_load c room x), E. reflexivity.
Qed.
Lemma sget_space c p ch del e j x : sget (on_space c p ch del e j) x = sget c x.
Proof.
  unfold on_space. destruct (load_urd c ch) as [c' u] eqn:E.
  assert (Hx : sget c' x = sget c x) by (rewrite <-(sget_load c ch x), E; reflexivity).
  assert (Hu : strip u = sget c ch) by (rewrite <-(load_sget c ch), E; reflexivity).
  set (c2 := mk_ucache _ _ _ _ _).
  assert (H2 : sget c2 x = sget c x) by exact Hx.
  assert (H3 : sget (put_urd c2 ch u) x = sget c x).
  { rewrite sget_put. destruct (String.eqb_spec ch x) as [->|]; [exact Hu|exact H2]. }
  destruct j; [rewrite sget_emit_room|]; exact H3.
Qed.
Lemma sget_unread c room h n x :
  sget (on_unread c room h n) x
  = if String.eqb room x then with_counts (sget c room) (default (u_high (sget c room)) h) (default (u_notif (sget c room)) n) else sget c x.
Proof.
  unfold on_unread. destruct (load_urd c room) as [c' u] eqn:E.
  assert (Hx : forall y, sget c' y = sget c y) by (intros y; rewrite <-(sget_load c room y), E; reflexivity).
  assert (Hu : strip u = sget c room) by (rewrite <-(load_sget c room), E; reflexivity).
  rewrite sget_emit_room, sget_put. destruct (String.eqb room x); [|apply Hx].
  rewrite <-Hu. reflexivity.
Qed.
Definition answered (own : bool) (ms : string) (u : urd) : urd :=
  if u_invite u && own && negb (String.eqb ms "invite") then
    mk_urd (u_dm u) false (u_left u) (u_notif u) 0 (u_inv u) (u_spaces u) (u_tags u) (u_timing u)
  else u.
Definition is_own (user : string) (e : uevent) : bool :=
  String.eqb (e_type e) "m.room.member" && match e_key e with Some k => String.eqb k user | None => false end.
Lemma sget_event user c e j x :
  sget (on_event user c e j) x = if String.eqb (e_room e) x then answered (is_own user e) (e_membership e) (sget c (e_room e)) else sget c x.
Proof.
  unfold on_event. destruct (load_urd c (e_room e)) as [c' u] eqn:E.
  assert (Hx : forall y, sget c' y = sget c y) by (intros y; rewrite <-(sget_load c (e_room e) y), E; reflexivity).
  assert (Hu : strip u = sget c (e_room e)) by (rewrite <-(load_sget c (e_room e)), E; reflexivity).
  rewrite sget_emit_room, sget_put. destruct (String.eqb (e_room e) x).
  - rewrite <-Hu. unfold answered, is_own.
    destruct (u_invite u) eqn:Ei, (String.eqb (e_type e) "m.room.member"), (match e_key e with Some k => String.eqb k user | None => false end),
      (String.eqb (e_membership e) "invite"); cbn; rewrite ?Ei; reflexivity.
  - destruct (e_key e) as [ch|]; [|apply Hx].
    destruct (String.eqb (e_type e) "m.space.child"); [rewrite sget_space|]; apply Hx.
Qed.
Lemma sget_invite user c room s x :
  sget (on_invite user c room s) x =
    match new_invite user s with
    | None => sget c x
    | Some i => if String.eqb room x then mk_urd (i_dm i) true false (u_notif (sget c room)) 1 (Some i) 0 (u_tags (sget c room)) (u_timing (sget c room)) else sget c x
    end.
Proof.
  unfold on_invite. destruct (new_invite user s) as [i|]; [|reflexivity].
  destruct (load_urd c room) as [c' u] eqn:E.
  assert (Hx : forall y, sget c' y = sget c y) by (intros y; rewrite <-(sget_load c room y), E; reflexivity).
  assert (Hu : strip u = sget c room) by (rewrite <-(load_sget c room), E; reflexivity).
  rewrite sget_emit, sget_put. destruct (String.eqb room x); [|apply Hx]. rewrite <-Hu. reflexivity.
Qed.
Lemma sget_left c room e x :
  sget (on_left c room e) x =
    if String.eqb room x then mk_urd (u_dm (sget c room)) false true (u_notif (sget c room)) 0 None 0 (u_tags (sget c room)) (u_timing (sget c room)) else sget c x.
Proof.
  unfold on_left. destruct (load_urd c room) as [c' u] eqn:E.
  assert (Hx : forall y, sget c' y = sget c y) by (intros y; rewrite <-(sget_load c room y), E; reflexivity).
  assert (Hu : strip u = sget c room) by (rewrite <-(load_sget c room), E; reflexivity).
  rewrite sget_emit, sget_put. destruct (String.eqb room x); [|apply Hx]. rewrite <-Hu. reflexivity.
Qed.
Lemma sget_add_dm c room x : sget (add_dm c room) x = if String.eqb room x then with_dm true blank else sget c x.
Proof. unfold add_dm. cbn. rewrite sget_put. destruct (String.eqb room x); reflexivity. Qed.
Lemma sget_direct c l x : sget (on_direct c l) x = with_dm (bool_decide (x ∈ l)) (sget c x).
Proof.
  unfold on_direct.
  set (new := List.filter _ _). set (c1 := mk_ucache _ _ _ _ _).
  assert (H1 : sget c1 x = with_dm (match c_rooms c !! x with Some _ => bool_decide (x ∈ l) | None => false end) (sget c x)).
  { unfold sget, c1. cbn. rewrite map_lookup_imap. destruct (c_rooms c !! x) as [u|]; reflexivity. }
  assert (H2 : forall news c2, sget (fold_left add_dm news c2) x = if bool_decide (x ∈ news) then with_dm true blank else sget c2 x).
  { induction news as [|r news IH] using rev_ind; intros c2; [reflexivity|].
    rewrite fold_left_app. cbn [fold_left]. rewrite sget_add_dm, IH.
    destruct (String.eqb_spec r x) as [->|N].
    - rewrite bool_decide_true by (apply elem_of_app; right; by constructor). reflexivity.
    - destruct (decide (x ∈ news)) as [i|i].
      + rewrite !bool_decide_true; [reflexivity| |exact i]. apply elem_of_app. by left.
      + rewrite !bool_decide_false; [reflexivity| |exact i]. intros [|Hr]%elem_of_app; [done|].
        apply elem_of_list_singleton in Hr. congruence. }
  rewrite H2, H1. destruct (decide (x ∈ new)) as [i|i].
  - rewrite bool_decide_true by exact i. apply elem_of_list_In, filter_In in i as [Hi Hn].
    apply elem_of_list_In in Hi. rewrite elem_of_remove_dups in Hi. rewrite bool_decide_true by exact Hi.
    unfold sget. destruct (c_rooms c !! x); [discriminate|]. reflexivity.
  - rewrite bool_decide_false by exact i. destruct (c_rooms c !! x) as [u|] eqn:E; [reflexivity|].
    f_equal. symmetry. apply bool_decide_eq_false_2. intros Hx. apply i. apply elem_of_list_In, filter_In. split.
    + apply elem_of_list_In. by rewrite elem_of_remove_dups.
    + by rewrite E.
Qed.
Lemma sget_put_tags c kv x : sget (put_tags c kv) x = if String.eqb kv.1 x then with_tags (sget c kv.1) kv.2 else sget c x.
Proof.
  unfold put_tags. destruct (load_urd c kv.1) as [c' u] eqn:E.
  assert (Hx : forall y, sget c' y = sget c y) by (intros y; rewrite <-(sget_load c kv.1 y), E; reflexivity).
  assert (Hu : strip u = sget c kv.1) by (rewrite <-(load_sget c kv.1), E; reflexivity).
  rewrite sget_put. destruct (String.eqb kv.1 x); [|apply Hx]. rewrite <-Hu. reflexivity.
Qed.
Lemma sget_put_tags_all m c x :
  sget (fold_left put_tags (map_to_list m) c) x = match m !! x with Some t => with_tags (sget c x) t | None => sget c x end.
Proof.
  assert (H : forall l, NoDup l.*1 ->
    sget (fold_left put_tags l c) x = match (list_to_map l : gmap string (gmap string string)) !! x with Some t => with_tags (sget c x) t | None => sget c x end).
  { induction l as [|[k t] l IH] using rev_ind; intros Hnd; [reflexivity|].
    rewrite fmap_app in Hnd. apply NoDup_app in Hnd as (Hnd & Hd & _).
    rewrite fold_left_app. cbn. rewrite sget_put_tags, IH by exact Hnd. cbn.
    rewrite list_to_map_app.
    destruct (String.eqb_spec k x) as [->|N].
    - assert (Hno : (list_to_map l : gmap string (gmap string string)) !! x = None).
      { apply not_elem_of_list_to_map_1. intros Hi. apply (Hd x Hi). cbn. by constructor. }
      rewrite lookup_union_r by exact Hno. cbn. rewrite lookup_insert.
      rewrite IH by exact Hnd. rewrite Hno. reflexivity.
    - destruct ((list_to_map l : gmap string (gmap string string)) !! x) as [t'|] eqn:E.
      + by rewrite (lookup_union_Some_l _ _ _ _ E).
      + rewrite lookup_union_r by exact E. cbn. rewrite lookup_insert_ne by exact N. by rewrite lookup_empty. }
  rewrite H by apply NoDup_fst_map_to_list. by rewrite list_to_map_to_list.
Qed.
Lemma sget_emit_data l order c x : sget (fold_left (emit_data l) order c) x = sget c x.
Proof.
  induction order as [|r order IH] using rev_ind; [reflexivity|]. rewrite fold_left_app. cbn. unfold emit_data at 1.
  destruct (String.eqb r ""); [rewrite sget_emit|rewrite sget_emit_room]; exact IH.
Qed.
(** The loop over the rows. *)
Definition last_direct (l : list adata) (x : string) (d : bool) : bool :=
  fold_left (fun b a => if String.eqb (d_type a) "m.direct" then bool_decide (x ∈ d_direct a) else b) l d.
Definition is_tag (x : string) (a : adata) : bool := String.eqb (d_type a) "m.tag" && String.eqb (d_room a) x.
Lemma with_dm_same u : with_dm (u_dm u) u = u.
Proof. destruct u; reflexivity. Qed.
Lemma with_tags_same u : with_tags u (u_tags u) = u.
Proof. destruct u; reflexivity. Qed.
Lemma data_loop l c x :
  let s := fold_left data_step l (c, ∅) in
  sget s.1 x = with_dm (last_direct l x (u_dm (sget c x))) (sget c x)
  /\ s.2 !! x = match List.filter (is_tag x) l with [] => None | rows => Some (tags_of (concat (map d_tags rows))) end.
Proof.
  induction l as [|a l IH] using rev_ind.
  { split; [symmetry; apply with_dm_same|apply lookup_empty]. }
  cbn zeta in IH |- *. rewrite fold_left_app. cbn [fold_left].
  destruct (fold_left data_step l (c, ∅)) as [c1 t1]. cbn [fst snd] in IH. destruct IH as [IH1 IH2].
  unfold last_direct in *. rewrite fold_left_app. cbn [fold_left]. rewrite List.filter_app. cbn [List.filter].
  unfold data_step. set (ia := is_tag x a).
  assert (Hia : ia = String.eqb (d_type a) "m.tag" && String.eqb (d_room a) x) by reflexivity. clearbody ia. subst ia.
  destruct (String.eqb_spec (d_type a) "m.direct") as [Ed|Nd].
  { rewrite Ed. cbn [String.eqb Ascii.eqb Bool.eqb andb fst snd]. rewrite sget_direct, IH1, app_nil_r. split; [reflexivity|exact IH2]. }
  destruct (String.eqb_spec (d_type a) "m.tag") as [Et|Nt].
  { cbn [fst snd andb]. split; [exact IH1|].
    destruct (String.eqb_spec (d_room a) x) as [->|N].
    - rewrite lookup_insert. rewrite IH2. f_equal.
      destruct (List.filter (is_tag x) l) as [|r rows].
      + cbn. unfold tags_of, add_tag. by rewrite app_nil_r.
      + cbn [app]. rewrite !app_comm_cons. unfold tags_of. rewrite map_app, concat_app, fold_left_app. cbn. by rewrite app_nil_r.
    - rewrite lookup_insert_ne by exact N. rewrite IH2, app_nil_r. reflexivity. }
  cbn [andb]. rewrite app_nil_r.
  destruct (String.eqb (d_type a) "m.ignored_user_list"); [|exact (conj IH1 IH2)].
  destruct (negb (String.eqb (d_room a) "")); [exact (conj IH1 IH2)|].
  destruct (d_ignored a); [|exact (conj IH1 IH2)]. cbn [fst snd]. split; [|exact IH2]. exact IH1.
Qed.
Lemma sget_account c l order x :
  sget (on_account c l order) x =
    with_dm (last_direct l x (u_dm (sget c x)))
      (with_tags (sget c x) (match List.filter (is_tag x) l with [] => u_tags (sget c x) | rows => tags_of (concat (map d_tags rows)) end)).
Proof.
  unfold on_account. pose proof (data_loop l c x) as H. cbn zeta in H.
  destruct (fold_left data_step l (c, ∅)) as [c1 t1]. cbn [fst snd] in H. destruct H as [H1 H2].
  rewrite sget_emit_data, sget_put_tags_all, H2, H1.
  destruct (List.filter (is_tag x) l); [|reflexivity]. by rewrite with_tags_same.
Qed.
Lemma sget_registered c l x :
  sget (on_registered c l) x =
    with_timing (sget c x) (fold_left (fun t j => if String.eqb (j_room j) x then j_timing j else t) l (u_timing (sget c x))).
Proof.
  unfold on_registered. induction l as [|j l IH] using rev_ind.
  { cbn [fold_left]. generalize (sget c x). intros []; reflexivity. }
  rewrite !fold_left_app. cbn [fold_left]. unfold on_registered1 at 1.
  set (c1 := fold_left _ (j_children j) _).
  assert (H1 : forall y, sget c1 y = sget (fold_left on_registered1 l c) y).
  { intros y. unfold c1. generalize (j_children j). intros chs. induction chs as [|ch chs IHc] using rev_ind; [reflexivity|].
    rewrite fold_left_app. cbn [fold_left]. rewrite sget_space. exact IHc. }
  destruct (load_urd c1 (j_room j)) as [c' u] eqn:E.
  assert (Hx : forall y, sget c' y = sget c1 y) by (intros y; rewrite <-(sget_load c1 (j_room j) y), E; reflexivity).
  assert (Hu : strip u = sget c1 (j_room j)) by (rewrite <-(load_sget c1 (j_room j)), E; reflexivity).
  rewrite sget_put. destruct (String.eqb_spec (j_room j) x) as [E'|N].
  - transitivity (with_timing (strip u) (j_timing j)); [reflexivity|]. rewrite Hu, E', H1, IH. reflexivity.
  - rewrite Hx, H1, IH. reflexivity.
Qed.

(** ** Each field *)
Section Fields.
Context (user : string).
Lemma evs_none {A} (f : fact -> option A) l d : (forall x, In x l -> f x = None) -> evs f l d = d.
Proof.
  unfold evs. revert d. induction l as [|x l IH]; intros d H; [reflexivity|]. cbn. rewrite (H x) by (by left). apply IH. intros y Hy. apply H. by right.
Qed.
Lemma data_facts_in l f : In f (flat_map data_facts l) ->
  (exists rs, f = Direct rs) \/ (exists r t, f = Tagged r t) \/ (exists us, f = Ignored us).
Proof.
  intros Hf. apply in_flat_map in Hf as (a & _ & Ha). unfold data_facts in Ha.
  destruct (String.eqb (d_type a) "m.direct"). { destruct Ha as [<-|[]]. eauto. }
  destruct (String.eqb (d_type a) "m.tag"). { destruct Ha as [<-|[]]. eauto. }
  destruct (_ && _); [|destruct Ha]. destruct (d_ignored a); [|destruct Ha]. destruct Ha as [<-|[]]. eauto.
Qed.
Lemma registered_in (l : list jroom) f : In f (facts1 user (CRegistered l)) -> (exists p c b, f = Child p c b) \/ (exists r t, f = Joined r t).
Proof.
  intros Hf. cbn in Hf. apply in_flat_map in Hf as (j & _ & Hj). apply in_app_or in Hj as [Hj|Hj].
  - apply in_map_iff in Hj as (ch & <- & _). eauto.
  - destruct Hj as [<-|[]]. eauto.
Qed.
Definition f_notif room f := sets_notif room [] f.
Lemma step_notif c x room : u_notif (sget (ucall1 user c x) room) = evs (f_notif room) (facts1 user x) (u_notif (sget c room)).
Proof.
  destruct x as [r h n|l o|e j|r s|r e|l|r|r rc]; cbn [ucall1 facts1].
  - rewrite sget_unread. destruct h, n; cbn; destruct (String.eqb_spec r room) as [->|]; reflexivity.
  - rewrite sget_account. fold (facts1 user (CAccount l o)). rewrite evs_none; [reflexivity|]. intros f [[? ->]|[(? & ? & ->)|[? ->]]]%data_facts_in; reflexivity.
  - rewrite sget_event. transitivity (u_notif (sget c room)).
    { destruct (String.eqb_spec (e_room e) room) as [->|]; [|reflexivity]. unfold answered. destruct (_ && _); reflexivity. }
    destruct (e_key e); [|reflexivity]. destruct (_ && _); [reflexivity|]. destruct (String.eqb _ _); reflexivity.
  - rewrite sget_invite. destruct (new_invite user s); cbn; [|reflexivity].
    destruct (String.eqb_spec r room) as [->|]; reflexivity.
  - rewrite sget_left. cbn. destruct (String.eqb_spec r room) as [->|]; reflexivity.
  - rewrite sget_registered. rewrite (evs_none _ (facts1 user (CRegistered l))); [reflexivity|]. intros f [(? & ? & ? & ->)|(? & ? & ->)]%registered_in; reflexivity.
  - by rewrite sget_emit_room.
  - by rewrite sget_emit_room.
Qed.
Definition f_pending room f := sets_pending room [] f.
Lemma step_pending c x room : u_invite (sget (ucall1 user c x) room) = evs (f_pending room) (facts1 user x) (u_invite (sget c room)).
Proof.
  destruct x as [r h n|l o|e j|r s|r e|l|r|r rc]; cbn [ucall1].
  - rewrite sget_unread. cbn. destruct h, n; cbn; destruct (String.eqb_spec r room) as [->|]; reflexivity.
  - rewrite sget_account. rewrite evs_none; [reflexivity|]. intros f [[? ->]|[(? & ? & ->)|[? ->]]]%data_facts_in; reflexivity.
  - rewrite sget_event. cbn [facts1]. unfold is_own.
    destruct (e_key e) as [k|].
    + destruct (String.eqb (e_type e) "m.room.member" && String.eqb k user).
      * cbn. destruct (String.eqb_spec (e_room e) room) as [->|]; [|reflexivity]. unfold answered. cbn.
        destruct (u_invite (sget c room)) eqn:Ei, (String.eqb (e_membership e) "invite"); cbn; rewrite ?Ei; reflexivity.
      * transitivity (u_invite (sget c room)).
        { destruct (String.eqb_spec (e_room e) room) as [->|]; [|reflexivity]. unfold answered. by rewrite andb_false_r. }
        destruct (String.eqb (e_type e) "m.space.child"); reflexivity.
    + rewrite andb_false_r. cbn. destruct (String.eqb_spec (e_room e) room) as [->|]; [|reflexivity]. unfold answered. by rewrite andb_false_r.
  - rewrite sget_invite. cbn. destruct (new_invite user s); cbn; [|reflexivity].
    destruct (String.eqb_spec r room) as [->|]; reflexivity.
  - rewrite sget_left. cbn. destruct (String.eqb_spec r room) as [->|]; reflexivity.
  - rewrite sget_registered. rewrite evs_none; [reflexivity|]. intros f [(? & ? & ? & ->)|(? & ? & ->)]%registered_in; reflexivity.
  - by rewrite sget_emit_room.
  - by rewrite sget_emit_room.
Qed.
Definition f_left room f := sets_left room [] f.
Lemma step_left c x room : u_left (sget (ucall1 user c x) room) = evs (f_left room) (facts1 user x) (u_left (sget c room)).
Proof.
  destruct x as [r h n|l o|e j|r s|r e|l|r|r rc]; cbn [ucall1].
  - rewrite sget_unread. cbn. destruct h, n; cbn; destruct (String.eqb_spec r room) as [->|]; reflexivity.
  - rewrite sget_account. rewrite evs_none; [reflexivity|]. intros f [[? ->]|[(? & ? & ->)|[? ->]]]%data_facts_in; reflexivity.
  - rewrite sget_event. cbn [facts1]. transitivity (u_left (sget c room)).
    { destruct (String.eqb_spec (e_room e) room) as [->|]; [|reflexivity]. unfold answered. destruct (_ && _); reflexivity. }
    destruct (e_key e); [|reflexivity]. destruct (_ && _); [reflexivity|]. destruct (String.eqb _ _); reflexivity.
  - rewrite sget_invite. cbn. destruct (new_invite user s); cbn; [|reflexivity].
    destruct (String.eqb_spec r room) as [->|]; reflexivity.
  - rewrite sget_left. cbn. destruct (String.eqb_spec r room) as [->|]; reflexivity.
  - rewrite sget_registered. rewrite evs_none; [reflexivity|]. intros f [(? & ? & ? & ->)|(? & ? & ->)]%registered_in; reflexivity.
  - by rewrite sget_emit_room.
  - by rewrite sget_emit_room.
Qed.
Definition f_dm room f := sets_dm room [] f.
Lemma step_dm c x room : u_dm (sget (ucall1 user c x) room) = evs (f_dm room) (facts1 user x) (u_dm (sget c room)).
Proof.
  destruct x as [r h n|l o|e j|r s|r e|l|r|r rc]; cbn [ucall1].
  - rewrite sget_unread. cbn. destruct h, n; cbn; destruct (String.eqb_spec r room) as [->|]; reflexivity.
  - rewrite sget_account. cbn [facts1]. cbn [u_dm with_dm]. generalize (u_dm (sget c room)). induction l as [|a l IH]; intros z; [reflexivity|].
    cbn [flat_map]. rewrite evs_app. rewrite <-IH. unfold last_direct. cbn [fold_left]. f_equal. unfold data_facts.
    destruct (String.eqb (d_type a) "m.direct"); [reflexivity|]. destruct (String.eqb (d_type a) "m.tag"); [reflexivity|].
    destruct (_ && _); [|reflexivity]. destruct (d_ignored a); reflexivity.
  - rewrite sget_event. cbn [facts1]. transitivity (u_dm (sget c room)).
    { destruct (String.eqb_spec (e_room e) room) as [->|]; [|reflexivity]. unfold answered. destruct (_ && _); reflexivity. }
    destruct (e_key e); [|reflexivity]. destruct (_ && _); [reflexivity|]. destruct (String.eqb _ _); reflexivity.
  - rewrite sget_invite. cbn. destruct (new_invite user s); cbn; [|reflexivity].
    destruct (String.eqb_spec r room) as [->|]; reflexivity.
  - rewrite sget_left. cbn. destruct (String.eqb_spec r room) as [->|]; reflexivity.
  - rewrite sget_registered. rewrite evs_none; [reflexivity|]. intros f [(? & ? & ? & ->)|(? & ? & ->)]%registered_in; reflexivity.
  - by rewrite sget_emit_room.
  - by rewrite sget_emit_room.
Qed.
Definition f_tags room f := sets_tags room [] f.
Lemma step_tags c x room :
  match x with CAccount l _ => List.NoDup (map (fun a => (d_room a, d_type a)) l) | _ => True end ->
  u_tags (sget (ucall1 user c x) room) = evs (f_tags room) (facts1 user x) (u_tags (sget c room)).
Proof.
  intros Hok. destruct x as [r h n|l o|e j|r s|r e|l|r|r rc]; cbn [ucall1].
  - rewrite sget_unread. cbn. destruct h, n; cbn; destruct (String.eqb_spec r room) as [->|]; reflexivity.
  - rewrite sget_account. cbn [facts1 with_dm with_tags u_tags]. generalize (u_tags (sget c room)). induction l as [|a l IH]; intros z; [reflexivity|].
    cbn [map] in Hok. inversion Hok as [|? ? Hni Hok']. subst. specialize (IH Hok').
    cbn [flat_map List.filter]. rewrite evs_app. unfold data_facts at 2.
    replace (is_tag room a) with (String.eqb (d_type a) "m.tag" && String.eqb (d_room a) room) by reflexivity.
    destruct (String.eqb_spec (d_type a) "m.direct") as [Ed|Nd].
    { rewrite Ed. apply IH. }
    destruct (String.eqb_spec (d_type a) "m.tag") as [Et|Nt].
    + cbn [andb]. destruct (String.eqb_spec (d_room a) room) as [Er|N].
      * assert (Hno : List.filter (is_tag room) l = []).
        { destruct (List.filter (is_tag room) l) as [|b rows] eqn:Eb; [reflexivity|]. exfalso.
          assert (Hb : In b (List.filter (is_tag room) l)) by (rewrite Eb; by left).
          apply filter_In in Hb as [Hb Ht]. unfold is_tag in Ht. apply andb_prop in Ht as [Ht1 Ht2].
          apply String.eqb_eq in Ht1, Ht2. apply Hni. apply in_map_iff. exists b. split; [|exact Hb]. congruence. }
        rewrite Hno in IH |- *. rewrite <-IH. unfold evs, f_tags. cbn [fold_left sets_tags map concat]. rewrite Er, String.eqb_refl, app_nil_r. reflexivity.
      * rewrite IH. f_equal. unfold evs, f_tags. cbn [fold_left sets_tags]. apply String.eqb_neq in N. by rewrite N.
    + cbn [andb]. rewrite IH. f_equal. destruct (_ && _); [|reflexivity]. destruct (d_ignored a); reflexivity.
  - rewrite sget_event. cbn [facts1]. transitivity (u_tags (sget c room)).
    { destruct (String.eqb_spec (e_room e) room) as [->|]; [|reflexivity]. unfold answered. destruct (_ && _); reflexivity. }
    destruct (e_key e); [|reflexivity]. destruct (_ && _); [reflexivity|]. destruct (String.eqb _ _); reflexivity.
  - rewrite sget_invite. cbn. destruct (new_invite user s); cbn; [|reflexivity].
    destruct (String.eqb_spec r room) as [->|]; reflexivity.
  - rewrite sget_left. cbn. destruct (String.eqb_spec r room) as [->|]; reflexivity.
  - rewrite sget_registered. rewrite evs_none; [reflexivity|]. intros f [(? & ? & ? & ->)|(? & ? & ->)]%registered_in; reflexivity.
  - by rewrite sget_emit_room.
  - by rewrite sget_emit_room.
Qed.
Definition f_timing room f := sets_timing room [] f.
Lemma step_timing c x room : u_timing (sget (ucall1 user c x) room) = evs (f_timing room) (facts1 user x) (u_timing (sget c room)).
Proof.
  destruct x as [r h n|l o|e j|r s|r e|l|r|r rc]; cbn [ucall1].
  - rewrite sget_unread. cbn. destruct h, n; cbn; destruct (String.eqb_spec r room) as [->|]; reflexivity.
  - rewrite sget_account. rewrite evs_none; [reflexivity|]. intros f [[? ->]|[(? & ? & ->)|[? ->]]]%data_facts_in; reflexivity.
  - rewrite sget_event. cbn [facts1]. transitivity (u_timing (sget c room)).
    { destruct (String.eqb_spec (e_room e) room) as [->|]; [|reflexivity]. unfold answered. destruct (_ && _); reflexivity. }
    destruct (e_key e); [|reflexivity]. destruct (_ && _); [reflexivity|]. destruct (String.eqb _ _); reflexivity.
  - rewrite sget_invite. cbn. destruct (new_invite user s); cbn; [|reflexivity].
    destruct (String.eqb_spec r room) as [->|]; reflexivity.
  - rewrite sget_left. cbn. destruct (String.eqb_spec r room) as [->|]; reflexivity.
  - rewrite sget_registered. cbn [facts1 with_timing u_timing]. generalize (u_timing (sget c room)). induction l as [|a l IH]; intros z; [reflexivity|].
    cbn [flat_map fold_left]. rewrite !evs_app. rewrite IH. f_equal. rewrite (evs_none _ (map _ _)).
    + unfold evs, f_timing. cbn [fold_left sets_timing]. destruct (String.eqb (j_room a) room); reflexivity.
    + intros f Hf. apply in_map_iff in Hf as (ch & <- & _). reflexivity.
  - by rewrite sget_emit_room.
  - by rewrite sget_emit_room.
Qed.
(** The highlight count with whether an invite is pending. *)
Definition f_high room (s : bool * Z) (f : fact) : bool * Z :=
  (default s.1 (f_pending room f), default s.2 (sets_high (fun _ => s.1) room [] f)).
Lemma high_none room l s : (forall x, In x l -> f_pending room x = None /\ sets_high (fun _ => true) room [] x = None) -> fold_left (f_high room) l s = s.
Proof.
  induction l as [|x l IH]; intros H; [reflexivity|]. cbn. destruct (H x (or_introl eq_refl)) as [H1 H2].
  unfold f_high at 2. rewrite H1. assert (sets_high (fun _ => s.1) room [] x = None) as ->.
  { destruct x; try exact H2. cbn in *. destruct (_ && _); [discriminate|reflexivity]. }
  destruct s. cbn. apply IH. intros y Hy. apply H. by right.
Qed.
Definition hp (u : urd) : bool * Z := (u_invite u, u_high u).
Lemma step_high c x room : hp (sget (ucall1 user c x) room) = fold_left (f_high room) (facts1 user x) (hp (sget c room)).
Proof.
  destruct x as [r h n|l o|e j|r s|r e|l|r|r rc]; cbn [ucall1].
  - rewrite sget_unread. unfold f_high. destruct h, n; cbn; destruct (String.eqb_spec r room) as [->|]; reflexivity.
  - rewrite sget_account. rewrite high_none; [reflexivity|]. intros f [[? ->]|[(? & ? & ->)|[? ->]]]%data_facts_in; split; reflexivity.
  - rewrite sget_event. cbn [facts1]. unfold is_own.
    destruct (e_key e) as [k|].
    + destruct (String.eqb (e_type e) "m.room.member" && String.eqb k user).
      * cbn. unfold f_high. cbn. destruct (String.eqb_spec (e_room e) room) as [->|]; [|reflexivity]. unfold answered. cbn.
        unfold hp. destruct (u_invite (sget c room)) eqn:Ei, (String.eqb (e_membership e) "invite"); cbn; rewrite ?Ei; reflexivity.
      * transitivity (hp (sget c room)).
        { destruct (String.eqb_spec (e_room e) room) as [->|]; [|reflexivity]. unfold answered. by rewrite andb_false_r. }
        destruct (String.eqb (e_type e) "m.space.child"); reflexivity.
    + rewrite andb_false_r. cbn. destruct (String.eqb_spec (e_room e) room) as [->|]; [|reflexivity]. unfold answered. by rewrite andb_false_r.
  - rewrite sget_invite. cbn. destruct (new_invite user s); cbn; [|reflexivity].
    unfold f_high. cbn. destruct (String.eqb_spec r room) as [->|]; reflexivity.
  - rewrite sget_left. unfold f_high. cbn. destruct (String.eqb_spec r room) as [->|]; reflexivity.
  - rewrite sget_registered. rewrite high_none; [reflexivity|]. intros f [(? & ? & ? & ->)|(? & ? & ->)]%registered_in; split; reflexivity.
  - by rewrite sget_emit_room.
  - by rewrite sget_emit_room.
Qed.

Lemma runs_evs {A} (field : urd -> A) (f : fact -> option A) (ok : ucall -> Prop) room l :
  (forall c x, ok x -> field (sget (ucall1 user c x) room) = evs f (facts1 user x) (field (sget c room))) ->
  (forall x, In x l -> ok x) ->
  field (sget (ucalls user ucache0 l) room) = evs f (facts user l) (field blank).
Proof.
  intros Hs Hok. induction l as [|x l IH] using rev_ind; [reflexivity|].
  unfold ucalls in *. rewrite fold_left_app. cbn [fold_left]. unfold facts. rewrite flat_map_app, evs_app. cbn [flat_map]. rewrite app_nil_r.
  rewrite Hs by (apply Hok, in_or_app; right; by left). f_equal. apply IH. intros y Hy. apply Hok, in_or_app. by left.
Qed.
Lemma runs_high room l : hp (sget (ucalls user ucache0 l) room) = fold_left (f_high room) (facts user l) (false, 0).
Proof.
  induction l as [|x l IH] using rev_ind; [reflexivity|].
  unfold ucalls in *. rewrite fold_left_app. cbn [fold_left]. unfold facts. rewrite flat_map_app, fold_left_app. cbn [flat_map]. rewrite app_nil_r.
  by rewrite step_high, IH.
Qed.
Lemma high_eval isp room l :
  (forall m, isp m = true <-> pending room m) ->
  fold_left (f_high room) l (false, 0) = (isp l, evald (sets_high isp room) l 0).
Proof.
  intros Hp.
  assert (Hisp : forall m, isp m = evald (sets_pending room) m false).
  { intros m. destruct (isp m) eqn:E.
    - apply Hp in E. unfold pending in E. by apply latest_unique in E.
    - destruct (evald (sets_pending room) m false) eqn:E'; [|reflexivity]. exfalso.
      assert (isp m = true); [|congruence]. apply Hp. unfold pending. rewrite <-E'. apply evald_latest. }
  induction l as [|x l IH] using rev_ind.
  { cbn. f_equal. by rewrite Hisp. }
  rewrite fold_left_app. cbn [fold_left]. rewrite IH. unfold f_high. cbn [fst snd]. f_equal.
  - rewrite Hisp, (Hisp (l ++ [x])), evald_snoc. reflexivity.
  - rewrite evald_snoc. destruct x; reflexivity.
Qed.
End Fields.

(** ** Ignored users *)
Lemma ignored_load c room : c_ignored (load_urd c room).1 = c_ignored c.
Proof. unfold load_urd. destruct (c_rooms c !! room); reflexivity. Qed.
Lemma ignored_emit_room c room k : c_ignored (emit_room c room k) = c_ignored c.
Proof. unfold emit_room. pose proof (ignored_load c room). destruct (load_urd c room). exact H. Qed.
Lemma ignored_space c p ch del e j : c_ignored (on_space c p ch del e j) = c_ignored c.
Proof.
  unfold on_space. pose proof (ignored_load c ch). destruct (load_urd c ch). cbn in H.
  destruct j; [rewrite ignored_emit_room|]; exact H.
Qed.
Lemma ignored_direct c l : c_ignored (on_direct c l) = c_ignored c.
Proof.
  unfold on_direct. set (c1 := mk_ucache _ _ _ _ _). transitivity (c_ignored c1); [|reflexivity].
  generalize (List.filter (fun r => match c_rooms c !! r with Some _ => false | None => true end) (remove_dups l)).
  intros news. induction news as [|r news IH] using rev_ind; [reflexivity|]. rewrite fold_left_app. cbn. exact IH.
Qed.
Lemma ignored_account c l order :
  c_ignored (on_account c l order) = evs (sets_ignored []) (flat_map data_facts l) (c_ignored c).
Proof.
  unfold on_account.
  assert (H : c_ignored (fold_left data_step l (c, ∅)).1 = evs (sets_ignored []) (flat_map data_facts l) (c_ignored c)).
  { induction l as [|a l IH] using rev_ind; [reflexivity|]. rewrite fold_left_app, flat_map_app, evs_app. cbn [fold_left flat_map].
    rewrite app_nil_r, <-IH. destruct (fold_left data_step l (c, ∅)) as [c1 t1]. unfold data_step, data_facts.
    destruct (String.eqb_spec (d_type a) "m.direct") as [E|N]. { cbn. apply ignored_direct. }
    destruct (String.eqb_spec (d_type a) "m.tag") as [E|N']; [reflexivity|].
    destruct (String.eqb_spec (d_type a) "m.ignored_user_list") as [E|N'']; [|reflexivity].
    destruct (String.eqb (d_room a) ""); cbn; [|reflexivity]. destruct (d_ignored a); reflexivity. }
  destruct (fold_left data_step l (c, ∅)) as [c1 t1]. cbn in H. rewrite <-H.
  transitivity (c_ignored (fold_left put_tags (map_to_list t1) c1)).
  - generalize (fold_left put_tags (map_to_list t1) c1). intros c2.
    induction order as [|r order IH] using rev_ind; [reflexivity|]. rewrite fold_left_app. cbn. unfold emit_data at 1.
    destruct (String.eqb r ""); [|rewrite ignored_emit_room]; exact IH.
  - generalize (map_to_list t1). intros kvs. induction kvs as [|kv kvs IH] using rev_ind; [reflexivity|]. rewrite fold_left_app. cbn [fold_left].
    unfold put_tags at 1. pose proof (ignored_load (fold_left put_tags kvs c1) kv.1) as E. destruct (load_urd _ kv.1). cbn in *. congruence.
Qed.
Lemma ignored_step user c x : c_ignored (ucall1 user c x) = evs (sets_ignored []) (facts1 user x) (c_ignored c).
Proof.
  destruct x as [r h n|l o|e j|r s|r e|l|r|r rc]; cbn [ucall1].
  - unfold on_unread. pose proof (ignored_load c r) as E. destruct (load_urd c r). rewrite ignored_emit_room. cbn in *. rewrite E. destruct h, n; reflexivity.
  - apply ignored_account.
  - unfold on_event. pose proof (ignored_load c (e_room e)) as E. destruct (load_urd c (e_room e)) as [c1 u]. rewrite ignored_emit_room. cbn [put_urd c_ignored].
    transitivity (c_ignored c).
    + destruct (e_key e); [|exact E]. destruct (String.eqb _ _); [rewrite ignored_space|]; exact E.
    + cbn [facts1]. destruct (e_key e); [|reflexivity]. destruct (_ && _); [reflexivity|]. destruct (String.eqb _ _); reflexivity.
  - unfold on_invite. cbn. destruct (new_invite user s); [|reflexivity]. pose proof (ignored_load c r) as E. destruct (load_urd c r). exact E.
  - unfold on_left. pose proof (ignored_load c r) as E. destruct (load_urd c r). exact E.
  - rewrite (evs_none _ (facts1 user (CRegistered l))).
    2: { intros f [(? & ? & ? & ->)|(? & ? & ->)]%registered_in; reflexivity. }
    unfold on_registered. induction l as [|j l IH] using rev_ind; [reflexivity|]. rewrite fold_left_app. cbn [fold_left]. unfold on_registered1 at 1.
    set (c1 := fold_left _ (j_children j) _).
    assert (E1 : c_ignored c1 = c_ignored c).
    { rewrite <-IH. unfold c1. generalize (j_children j). intros chs. induction chs as [|ch chs IHc] using rev_ind; [reflexivity|].
      rewrite fold_left_app. cbn [fold_left]. rewrite ignored_space. exact IHc. }
    pose proof (ignored_load c1 (j_room j)) as E. destruct (load_urd c1 (j_room j)). cbn in *. congruence.
  - apply ignored_emit_room.
  - apply ignored_emit_room.
Qed.

(** ** An invite that is pending has its data *)
Lemma inv_step user c x :
  (forall room, u_invite (sget c room) = true -> u_inv (sget c room) <> None) ->
  forall room, u_invite (sget (ucall1 user c x) room) = true -> u_inv (sget (ucall1 user c x) room) <> None.
Proof.
  intros Hi room. destruct x as [r h n|l o|e j|r s|r e|l|r|r rc]; cbn [ucall1].
  - rewrite sget_unread. destruct (String.eqb_spec r room) as [->|]; apply Hi.
  - rewrite sget_account. apply Hi.
  - rewrite sget_event. destruct (String.eqb_spec (e_room e) room) as [->|]; [|apply Hi]. unfold answered. destruct (_ && _); [discriminate|]. apply Hi.
  - rewrite sget_invite. destruct (new_invite user s); [|apply Hi]. destruct (String.eqb r room); [discriminate|apply Hi].
  - rewrite sget_left. destruct (String.eqb r room); [discriminate|apply Hi].
  - rewrite sget_registered. apply Hi.
  - rewrite sget_emit_room. apply Hi.
  - rewrite sget_emit_room. apply Hi.
Qed.
Lemma inv_runs user l room : u_invite (sget (ucalls user ucache0 l) room) = true -> u_inv (sget (ucalls user ucache0 l) room) <> None.
Proof.
  revert room. induction l as [|x l IH] using rev_ind; intros room; [discriminate|].
  unfold ucalls in *. rewrite fold_left_app. cbn [fold_left]. by apply inv_step.
Qed.
