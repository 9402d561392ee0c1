(** Proofs about what is shown without any condition, and about which rooms are in lists. *)
From Verif Require Import Prelude SeeModel SeeSpec SeeProofs.
Open Scope string_scope. Open Scope list_scope. Open Scope Z_scope.

(** ** Events and invites *)
Definition plain (s : st) (x : shown) : Prop :=
  match x with
  | ShowEvent _ _ | ShowInvite _ _ => fine s x
  | _ => True
  end.
Record open (s : st) : Prop := mk_open { op_base : base s; op_out : forall x, x ∈ s_out s -> plain s x }.
Lemma load_plain s r x : base s -> x ∈ load s r -> plain s x.
Proof.
  intros B. unfold load. destruct (u_invite (udata s r)) eqn:Ei.
  - destruct (b_cache s B r Ei) as (c & -> & Hc). intros H. apply elem_of_list_singleton in H as ->. done.
  - destruct (latest (s_done s) r); intros H.
    + apply elem_of_cons in H as [->|H]; [done|].
      destruct (latest (List.filter (fun e => e_nid e <=? s_anchor s) (s_db s)) r); [|by apply elem_of_nil in H].
      by apply elem_of_list_singleton in H as ->.
    + by apply elem_of_list_singleton in H as ->.
Qed.
Lemma plain_ext s s' x : s_db s' = s_db s -> s_invs s' = s_invs s -> plain s x -> plain s' x.
Proof. unfold plain, fine. by intros -> ->. Qed.
Lemma plain_load_rooms pos rs s x : base s -> x ∈ s_out (load_rooms pos rs s) -> x ∈ s_out s \/ plain s x.
Proof.
  intros B. rewrite load_rooms_out. intros H. apply elem_of_app in H as [H|H]; [by left|right].
  apply elem_loads in H as (r & _ & H). by apply (load_plain s r).
Qed.
Lemma open_step s a s' : open s -> step s a = Some s' -> open s'.
Proof.
  intros S Hs. pose proof (op_base s S) as B. split; [by eapply base_step|].
  destruct a as [e|n|r c|r kick|r|wins subs pos|n wins sub hu pos]; cbn in Hs.
  - destruct (forallb _ (s_db s) && _) eqn:E; [|done]. injection Hs as <-. apply andb_prop in E as [E E0].
    rewrite forallb_forall in E. intros x H. cbn in H. pose proof (op_out s S x H) as P.
    destruct x; cbn [plain] in *; try done; apply fine_grows; try done;
      intros a Ha; apply elem_of_list_In in Ha; specialize (E _ Ha); lia.
  - destruct (s_todo s !! n) as [e|]; [|done]. destruct (forallb _ _); [|done]. injection Hs as <-.
    intros x. unfold dispatch. destruct (told _ _ _ _); cbn; intros H; by apply (op_out s S x).
  - injection Hs as <-. cbn. intros x H. pose proof (op_out s S x H) as P.
    destruct x; cbn in *; try done. destruct P as [P1 P2]. split; [|done]. cbn in *. set_solver.
  - injection Hs as <-. cbn. apply (op_out s S).
  - injection Hs as <-. cbn. apply (op_out s S).
  - injection Hs as <-. intros x H. unfold request in H. rewrite load_rooms_out in H. cbn [s_out] in H.
    apply elem_of_app in H as [H|H]; [by apply (op_out s S)|]. apply elem_loads in H as (r & Hr & Hx).
    apply (load_plain s r x B Hx).
  - destruct (s_buf s !! n) as [y|] eqn:En; [|done]. destruct (forallb _ _) eqn:Ef; [|done]. injection Hs as <-.
    set (s0 := set_buf s (take n (s_buf s) ++ drop (Datatypes.S n) (s_buf s))).
    destruct (same_process s0 y wins sub hu pos) as [E1 _ _ _ _ _ E7 E8].
    assert (Hy : y ∈ s_buf s) by by eapply elem_of_list_lookup_2.
    intros x H. eapply plain_ext; [exact E1|exact E8|].
    apply process_out in H as [H|[H|[H|(Hb & r & H & Hr)]]].
    + by apply (op_out s S).
    + destruct y as [e u| | |]; cbn in H; try by apply elem_of_nil in H.
      apply elem_of_list_singleton in H as ->. destruct (b_event s B e u Hy) as [H1 H2].
      split; cbn; [|eauto]. destruct H2; [by left|right]. by exists e.
    + destruct y as [e u| |r c u|r [v|] u]; cbn in H; try by apply elem_of_nil in H.
      all: apply elem_of_list_singleton in H as ->; try exact I.
      split; [|done]. by apply (b_inv s B r c u).
    + destruct (u_invite (udata (set_room s0 y) r)) eqn:Ei.
      * unfold load in H. rewrite Ei in H. change (udata (set_room s0 y) r) with (udata s r) in Ei, H.
        destruct (b_cache s B r Ei) as (c & Hc & Hin). rewrite Hc in H. apply elem_of_list_singleton in H as ->. done.
      * unfold load in H. rewrite Ei in H. destruct (latest (s_done (set_room s0 y)) r).
        -- apply elem_of_cons in H as [->|H]; [done|].
           destruct (latest (List.filter (fun e => e_nid e <=? s_anchor (set_room s0 y)) (s_db (set_room s0 y))) r);
             [|by apply elem_of_nil in H].
           by apply elem_of_list_singleton in H as ->.
        -- by apply elem_of_list_singleton in H as ->.
Qed.
Lemma open_run l : forall s s', open s -> run s l = Some s' -> open s'.
Proof.
  induction l as [|a l IH]; cbn; intros s s' S H; [by injection H as <-|].
  destruct (step s a) as [s1|] eqn:E; [|done]. cbn in H. eapply IH; [|done]. by eapply open_step.
Qed.
Lemma open_connected d inv : stored d -> open (connected d inv).
Proof. intros H. split; [by apply base_connected|cbn]. intros x Hx. by apply elem_of_nil in Hx. Qed.

(** ** Rooms in lists while the user stays *)
Definition here (s : st) (r : string) : Prop := r ∈ s_joined s \/ u_invite (udata s r) = true.
Record lists_ok (r : string) (s : st) : Prop := mk_lists_ok {
  lo_base : base s;
  lo_todo : forall e, e ∈ s_todo s -> e_room e = r -> ~ departs e;
  lo_buf : forall x, x ∈ s_buf s -> upd_room x = r -> here s r;
  lo_listed : r ∈ s_listed s -> here s r }.
Lemma here_dispatch s r e todo : (e_room e = r -> ~ departs e) -> here s r -> here (dispatch s e todo) r.
Proof.
  intros Hd [H|H].
  - left. unfold dispatch. assert (H' : r ∈ (track (s_joined s, s_invited s) e).1).
    { unfold track, departs in *. destruct (e_own e) as [[]|]; cbn; try set_solver; destruct (decide (e_room e = r)); try set_solver; exfalso; naive_solver. }
    destruct (told _ _ _ _); exact H'.
  - unfold dispatch. set (ji := track (s_joined s, s_invited s) e). destruct (told (s_joined s) (s_invited s) ji.1 e) eqn:Et.
    + destruct (decide (e_room e = r)) as [E|N].
      * unfold here, udata. cbn. rewrite E, lookup_insert. cbn. unfold cache_event. subst r.
        destruct (decide (e_room e ∈ ji.1)) as [D|D]; [by left|right].
        unfold told in Et. rewrite bool_decide_eq_false_2 in Et by done. cbn in Et. exfalso. apply (Hd eq_refl). unfold departs.
        destruct (e_own e) as [[]|]; auto; done.
      * right. unfold udata. cbn. rewrite lookup_insert_ne by done. exact H.
    + right. exact H.
Qed.
Lemma lists_ok_step r s a s' : lists_ok r s -> stays_in r a -> (a = Note r -> is_in s r) -> step s a = Some s' -> lists_ok r s'.
Proof.
  intros L St Hn Hs. pose proof (lo_base r s L) as B. pose proof (base_step s a s' B Hs) as B'.
  destruct a as [e|n|r0 c|r0 kick|r0|wins subs pos|n wins sub hu pos]; cbn in Hs.
  - destruct (forallb _ (s_db s) && _); [|done]. injection Hs as <-. split; [done|cbn|apply L|apply L].
    intros a Ha. apply elem_of_app in Ha as [Ha|Ha]; [by apply (lo_todo r s L)|].
    apply elem_of_list_singleton in Ha as ->. exact St.
  - destruct (s_todo s !! n) as [e|] eqn:En; [|done]. destruct (forallb _ _); [|done]. injection Hs as <-.
    set (todo := take n (s_todo s) ++ drop (Datatypes.S n) (s_todo s)) in *.
    assert (He : e ∈ s_todo s) by by eapply elem_of_list_lookup_2.
    pose proof (lo_todo r s L e He) as Hd.
    assert (K : here s r -> here (dispatch s e todo) r) by by apply here_dispatch.
    assert (Et : s_todo (dispatch s e todo) = todo) by (unfold dispatch; by destruct (told _ _ _ _)).
    split; [done|..].
    + rewrite Et. intros a Ha. apply (lo_todo r s L). by eapply elem_take_drop.
    + intros x Hx Hr. assert (Hx' : x ∈ s_buf s \/ (exists u, x = UEvent e u) /\ told (s_joined s) (s_invited s) (track (s_joined s, s_invited s) e).1 e = true).
      { unfold dispatch in Hx. destruct (told _ _ _ _); cbn in Hx; [|by left]. apply elem_of_app in Hx as [Hx|Hx]; [by left|].
        apply elem_of_list_singleton in Hx as ->. right. eauto. }
      destruct Hx' as [Hx'|[[u ->] Et']]; [by apply K, (lo_buf r s L x)|]. cbn in Hr.
      left. unfold dispatch. rewrite Et'. cbn. unfold told in Et'.
      apply orb_prop in Et' as [Et'|Et']; [apply bool_decide_eq_true in Et'; by rewrite <- Hr|].
      exfalso. apply (Hd Hr). unfold departs. destruct (e_own e) as [[]|]; auto; done.
    + intros H. apply K. apply (lo_listed r s L). unfold dispatch in H. by destruct (told _ _ _ _).
  - injection Hs as <-. assert (K : here s r \/ r0 = r -> here (on_invite s r0 c) r).
    { intros [[H|H]| ->]; [by left|right|right].
      - unfold udata. cbn. destruct (decide (r0 = r)) as [->|N]; [by rewrite lookup_insert|].
        rewrite lookup_insert_ne by done. exact H.
      - unfold udata. cbn. by rewrite lookup_insert. }
    split; [done|apply L|..].
    + intros x Hx Hr. apply K. cbn in Hx. apply elem_of_app in Hx as [Hx|Hx]; [left; by apply (lo_buf r s L x)|].
      apply elem_of_list_singleton in Hx as ->. by right.
    + intros H. apply K. left. by apply (lo_listed r s L).
  - injection Hs as <-. cbn in St. assert (K : here s r -> here (on_left s r0 kick) r).
    { intros [H|H]; [by left|right]. unfold udata. cbn. by rewrite lookup_insert_ne. }
    split; [done|apply L|..].
    + intros x Hx Hr. cbn in Hx. apply elem_of_app in Hx as [Hx|Hx]; [by apply K, (lo_buf r s L x)|].
      apply elem_of_list_singleton in Hx as ->. done.
    + intros H. by apply K, (lo_listed r s L).
  - injection Hs as <-. split; [done|apply L|..].
    + intros x Hx Hr. cbn in Hx. apply elem_of_app in Hx as [Hx|Hx]; [by apply (lo_buf r s L x)|].
      apply elem_of_list_singleton in Hx as ->. cbn in Hr. subst r0. left. by apply (joined_is_in s B), Hn.
    + apply (lo_listed r s L).
  - injection Hs as <-. split; [done|apply L|apply L|apply L].
  - destruct (s_buf s !! n) as [y|] eqn:En; [|done]. destruct (forallb _ _) eqn:Ef; [|done]. injection Hs as <-.
    set (s0 := set_buf s (take n (s_buf s) ++ drop (Datatypes.S n) (s_buf s))) in *.
    destruct (same_process s0 y wins sub hu pos) as [E1 E2 E3 E4 E5 E6 E7 E8].
    assert (Hy : y ∈ s_buf s) by by eapply elem_of_list_lookup_2.
    assert (K : here s r -> here (process s0 y wins sub hu pos) r).
    { unfold here, udata. rewrite E4, E6. done. }
    split; [done|..].
    + rewrite E2. apply L.
    + rewrite E7. intros x Hx Hr. apply K, (lo_buf r s L x); [|done]. exact (elem_take_drop n _ x Hx).
    + intros H. apply K. destruct (behind s0 y) eqn:Eb.
      * unfold process in H. rewrite Eb in H. by apply (lo_listed r s L).
      * destruct (process_fields s0 y wins sub hu pos Eb) as [El _]. rewrite El in H. cbn in H.
        destruct (decide (upd_room y = r)) as [Er|N]; [by apply (lo_buf r s L y)|].
        apply (lo_listed r s L). destruct (u_left (upd_urd y)); set_solver.
Qed.
Lemma lists_ok_run r l : forall s s', lists_ok r s -> Forall (stays_in r) l -> noted_in_time r s l -> run s l = Some s' -> lists_ok r s'.
Proof.
  induction l as [|a l IH]; cbn; intros s s' L F N H; [by injection H as <-|].
  destruct (step s a) as [s1|] eqn:E; [|done]. cbn in H. inversion_clear F as [|? ? F1 F2]. destruct N as [N1 N2].
  eapply IH; [|done|by apply N2|done]. by eapply lists_ok_step.
Qed.
Lemma lists_ok_connected d inv r : stored d -> lists_ok r (connected d inv).
Proof.
  intros H. split; [by apply base_connected|cbn|cbn|cbn].
  - intros e He. by apply elem_of_nil in He.
  - intros x Hx. by apply elem_of_nil in Hx.
  - intros Hr. apply elem_of_union in Hr as [Hr|Hr]; [by left|right].
    apply elem_of_list_to_set in Hr. unfold udata. cbn. clear H.
    induction inv as [|[r' c] inv IH]; cbn in *; [by apply elem_of_nil in Hr|].
    destruct (decide (r' = r)) as [->|N]; [by rewrite lookup_insert|]. rewrite lookup_insert_ne by done.
    apply IH. apply elem_of_cons in Hr as [->|Hr]; [done|exact Hr].
Qed.

(** ** Leaving *)
Definition gone (x : upd) : Prop := u_left (upd_urd x) = true.
Definition leaving (r : string) (s : st) : Prop :=
  u_left (udata s r) = true /\
  ((exists l1 u l2, s_buf s = l1 ++ ULeft r true u :: l2 /\ u_left u = true /\
      forall x, x ∈ l2 -> upd_room x = r -> gone x) \/
   (r ∉ s_listed s /\ forall x, x ∈ s_buf s -> upd_room x = r -> gone x)).
Lemma leaving_more r s s' y : s_listed s' = s_listed s -> s_buf s' = s_buf s ++ y ->
  (forall x, x ∈ y -> upd_room x = r -> gone x) -> u_left (udata s' r) = true -> leaving r s -> leaving r s'.
Proof.
  intros E1 E2 Hy Hu [_ H]. split; [done|]. rewrite E1, E2. destruct H as [(l1 & u & l2 & -> & H1 & H2)|[H1 H2]].
  - left. exists l1, u, (l2 ++ y). split; [by rewrite <- app_assoc|]. split; [done|].
    intros x Hx. apply elem_of_app in Hx as [Hx|Hx]; auto.
  - right. split; [done|]. intros x Hx. apply elem_of_app in Hx as [Hx|Hx]; auto.
Qed.
Lemma process_listed_other s x wins sub hu pos r : upd_room x <> r \/ gone x ->
  r ∈ s_listed (process s x wins sub hu pos) -> r ∈ s_listed s.
Proof.
  intros Hx. destruct (behind s x) eqn:Eb; [unfold process; by rewrite Eb|].
  destruct (process_fields s x wins sub hu pos Eb) as [-> _]. cbn. unfold gone in Hx.
  destruct (u_left (upd_urd x)); set_solver.
Qed.
Lemma leaving_step r s a s' : leaving r s -> never_invited r a -> step s a = Some s' -> leaving r s'.
Proof.
  intros L Nv Hs. pose proof L as [Hu _].
  destruct a as [e|n|r0 c|r0 kick|r0|wins subs pos|n wins sub hu pos]; cbn in Hs.
  - destruct (forallb _ (s_db s) && _); [|done]. injection Hs as <-.
    apply (leaving_more r s _ []); [done|by rewrite app_nil_r|intros x Hx; by apply elem_of_nil in Hx|exact Hu|done].
  - destruct (s_todo s !! n) as [e|] eqn:En; [|done]. destruct (forallb _ _); [|done]. injection Hs as <-.
    unfold dispatch. destruct (told _ _ _ _).
    + assert (Hu' : e_room e = r -> u_left (cache_event (udata s (e_room e)) e) = true).
      { intros ->. unfold cache_event. destruct (e_own e) as [m|]; [|done]. by destruct (u_invite _). }
      eapply leaving_more; [| | | |exact L]; cbn.
      * done.
      * reflexivity.
      * intros x Hx Hr. apply elem_of_list_singleton in Hx as ->. by apply Hu'.
      * unfold udata. cbn. destruct (decide (e_room e = r)) as [E|N].
        -- rewrite E, lookup_insert. cbn. rewrite E in Hu'. by apply Hu'.
        -- rewrite lookup_insert_ne by done. exact Hu.
    + apply (leaving_more r s _ []); [done|by rewrite app_nil_r|intros x Hx; by apply elem_of_nil in Hx|exact Hu|done].
  - injection Hs as <-. cbn in Nv. eapply leaving_more; [| | | |exact L]; cbn; [done|reflexivity|..].
    + intros x Hx Hr. apply elem_of_list_singleton in Hx as ->. done.
    + unfold udata. cbn. by rewrite lookup_insert_ne.
  - injection Hs as <-. eapply leaving_more; [| | | |exact L]; cbn; [done|reflexivity|..].
    + intros x Hx Hr. by apply elem_of_list_singleton in Hx as ->.
    + unfold udata. cbn. destruct (decide (r0 = r)) as [->|N]; [by rewrite lookup_insert|]. by rewrite lookup_insert_ne.
  - injection Hs as <-. eapply leaving_more; [| | | |exact L]; cbn; [done|reflexivity|..|exact Hu].
    intros x Hx Hr. apply elem_of_list_singleton in Hx as ->. cbn in Hr. by subst r0.
  - injection Hs as <-. apply (leaving_more r s _ []); [done|by rewrite app_nil_r|intros x Hx; by apply elem_of_nil in Hx|exact Hu|done].
  - destruct (s_buf s !! n) as [y|] eqn:En; [|done]. destruct (forallb _ _) eqn:Ef; [|done]. injection Hs as <-.
    set (b := take n (s_buf s) ++ drop (Datatypes.S n) (s_buf s)). set (s0 := set_buf s b).
    destruct (same_process s0 y wins sub hu pos) as [E1 E2 E3 E4 E5 E6 E7 E8].
    rewrite forallb_forall in Ef.
    split; [by rewrite (udata_cache _ s0 r E6)|]. rewrite E7. change (s_buf s0) with b.
    destruct L as [_ [(l1 & u & l2 & El & H1 & H2)|[H1 H2]]].
    + destruct (Nat.lt_trichotomy n (length l1)) as [Hlt|[Heq|Hgt]].
      * left. exists (take n l1 ++ drop (Datatypes.S n) l1), u, l2. split; [|done]. unfold b. rewrite El.
        rewrite take_app_le by lia. rewrite drop_app_le by lia. by rewrite <- app_assoc.
      * right. assert (y = ULeft r true u) as ->.
        { rewrite El, Heq, list_lookup_middle in En by done. by injection En. }
        split.
        -- destruct (process_fields s0 (ULeft r true u) wins sub hu pos) as [-> _]; [done|]. cbn. rewrite H1. set_solver.
        -- intros x Hx Hr. unfold b in Hx. rewrite El, Heq in Hx.
           rewrite take_app in Hx. replace (drop (Datatypes.S (length l1)) (l1 ++ ULeft r true u :: l2)) with l2 in Hx.
           2: { rewrite drop_app_ge by lia. by replace (Datatypes.S (length l1) - length l1)%nat with 1%nat by lia. }
           apply elem_of_app in Hx as [Hx|Hx]; [|by apply H2].
           exfalso. specialize (Ef x). rewrite El, Heq, take_app in Ef. apply elem_of_list_In in Hx. specialize (Ef Hx).
           cbn in Ef. rewrite Hr, String.eqb_refl in Ef. cbn in Ef. by destruct (is_event x).
      * left. exists l1, u, (take (n - length l1 - 1) l2 ++ drop (n - length l1) l2).
        split; [|split; [done|]].
        -- unfold b. rewrite El. rewrite take_app_ge by lia. rewrite drop_app_ge by lia.
           replace (n - length l1)%nat with (Datatypes.S (n - length l1 - 1)) by lia. cbn [take].
           replace (Datatypes.S n - length l1)%nat with (Datatypes.S (Datatypes.S (n - length l1 - 1))) by lia. cbn [drop].
           rewrite <- app_assoc. cbn [app]. by replace (Datatypes.S (n - length l1 - 1) - 1)%nat with (n - length l1 - 1)%nat by lia.
        -- intros x Hx. apply H2. apply elem_of_app in Hx as [Hx|Hx].
           ++ apply elem_of_list_lookup in Hx as [i Hi]. apply lookup_take_Some in Hi as [Hi _]. by eapply elem_of_list_lookup_2.
           ++ apply elem_of_list_lookup in Hx as [i Hi]. rewrite lookup_drop in Hi. by eapply elem_of_list_lookup_2.
    + right. assert (Hy : y ∈ s_buf s) by by eapply elem_of_list_lookup_2. split.
      * intros H. apply H1. change (s_listed s) with (s_listed s0). eapply process_listed_other; [|exact H].
        destruct (decide (upd_room y = r)); [right; by apply H2|by left].
      * intros x Hx. apply H2. by eapply elem_take_drop.
Qed.
Lemma leaving_run r l : forall s s', leaving r s -> Forall (never_invited r) l -> run s l = Some s' -> leaving r s'.
Proof.
  induction l as [|a l IH]; cbn; intros s s' L F H; [by injection H as <-|].
  destruct (step s a) as [s1|] eqn:E; [|done]. cbn in H. inversion_clear F as [|? ? F1 F2].
  eapply IH; [|done|done]. by eapply leaving_step.
Qed.
Lemma leaving_settled r s : leaving r s -> settled s r -> r ∉ s_listed s.
Proof.
  intros [_ [(l1 & u & l2 & El & _)|[H _]]] Hs; [|done].
  exfalso. apply (Hs (ULeft r true u)); [rewrite El; set_solver|done].
Qed.

(** ** Being invited *)
Definition coming (r : string) (s : st) : Prop :=
  u_left (udata s r) = false /\ (forall x, x ∈ s_buf s -> upd_room x = r -> u_left (upd_urd x) = false) /\
  (r ∈ s_listed s \/ exists c u, UInvite r c u ∈ s_buf s).
Lemma coming_step r s a s' : coming r s -> never_left r a -> step s a = Some s' -> coming r s'.
Proof.
  intros (Hu & Hb & Hl) Nv Hs.
  destruct a as [e|n|r0 c|r0 kick|r0|wins subs pos|n wins sub hu pos]; cbn in Hs.
  - destruct (forallb _ (s_db s) && _); [|done]. by injection Hs as <-.
  - destruct (s_todo s !! n) as [e|] eqn:En; [|done]. destruct (forallb _ _); [|done]. injection Hs as <-.
    unfold dispatch. destruct (told _ _ _ _); [|done].
    assert (Hu' : e_room e = r -> u_left (cache_event (udata s (e_room e)) e) = false).
    { intros ->. unfold cache_event. destruct (e_own e) as [m|]; [|done]. by destruct (u_invite _). }
    unfold coming. cbn. split; [|split].
    + unfold udata. cbn. destruct (decide (e_room e = r)) as [E|N].
      * rewrite E, lookup_insert. cbn. rewrite E in Hu'. by apply Hu'.
      * rewrite lookup_insert_ne by done. exact Hu.
    + intros x Hx Hr. apply elem_of_app in Hx as [Hx|Hx]; [by apply Hb|]. apply elem_of_list_singleton in Hx as ->. by apply Hu'.
    + destruct Hl as [Hl|(c & u & Hl)]; [by left|right]. exists c, u. set_solver.
  - injection Hs as <-. unfold coming. cbn. split; [|split].
    + unfold udata. cbn. destruct (decide (r0 = r)) as [->|N]; [by rewrite lookup_insert|by rewrite lookup_insert_ne].
    + intros x Hx Hr. apply elem_of_app in Hx as [Hx|Hx]; [by apply Hb|]. by apply elem_of_list_singleton in Hx as ->.
    + destruct Hl as [Hl|(c' & u & Hl)]; [by left|right]. exists c', u. set_solver.
  - injection Hs as <-. cbn in Nv. unfold coming. cbn. split; [|split].
    + unfold udata. cbn. by rewrite lookup_insert_ne.
    + intros x Hx Hr. apply elem_of_app in Hx as [Hx|Hx]; [by apply Hb|]. by apply elem_of_list_singleton in Hx as ->.
    + destruct Hl as [Hl|(c' & u & Hl)]; [by left|right]. exists c', u. set_solver.
  - injection Hs as <-. unfold coming. cbn. split; [exact Hu|split].
    + intros x Hx Hr. apply elem_of_app in Hx as [Hx|Hx]; [by apply Hb|]. apply elem_of_list_singleton in Hx as ->.
      cbn in Hr. by subst r0.
    + destruct Hl as [Hl|(c' & u & Hl)]; [by left|right]. exists c', u. set_solver.
  - by injection Hs as <-.
  - destruct (s_buf s !! n) as [y|] eqn:En; [|done]. destruct (forallb _ _) eqn:Ef; [|done]. injection Hs as <-.
    set (b := take n (s_buf s) ++ drop (Datatypes.S n) (s_buf s)). set (s0 := set_buf s b).
    destruct (same_process s0 y wins sub hu pos) as [E1 E2 E3 E4 E5 E6 E7 E8].
    assert (Hy : y ∈ s_buf s) by by eapply elem_of_list_lookup_2.
    unfold coming. rewrite (udata_cache _ s0 r E6), E7. change (s_buf s0) with b. split; [done|]. split.
    + intros x Hx. apply Hb. by eapply elem_take_drop.
    + assert (K : r ∈ s_listed s -> r ∈ s_listed (process s0 y wins sub hu pos)).
      { intros H. destruct (behind s0 y) eqn:Eb; [unfold process; by rewrite Eb|].
        destruct (process_fields s0 y wins sub hu pos Eb) as [-> _]. cbn.
        destruct (decide (upd_room y = r)) as [Er|N].
        - rewrite (Hb y Hy Er). set_solver.
        - destruct (u_left (upd_urd y)); set_solver. }
      destruct Hl as [Hl|(c & u & Hl)]; [left; by apply K|].
      destruct (elem_take_drop_inv n (s_buf s) y _ En Hl) as [<-|H].
      * left. destruct (process_fields s0 (UInvite r c u) wins sub hu pos eq_refl) as [-> _]. cbn.
        pose proof (Hb _ Hy eq_refl) as Hu'. cbn in Hu'. rewrite Hu'. set_solver.
      * right. exists c, u. exact H.
Qed.
Lemma coming_run r l : forall s s', coming r s -> Forall (never_left r) l -> run s l = Some s' -> coming r s'.
Proof.
  induction l as [|a l IH]; cbn; intros s s' L F H; [by injection H as <-|].
  destruct (step s a) as [s1|] eqn:E; [|done]. cbn in H. inversion_clear F as [|? ? F1 F2].
  eapply IH; [|done|done]. by eapply coming_step.
Qed.
