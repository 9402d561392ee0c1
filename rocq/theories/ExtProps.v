(** C53: the scope of extensions. *)
From Verif Require Import Prelude RangeModel RangeSpec RangeProofs RangeProps RequestModel ExtModel ExtSpec.
From Verif Require Import ReceiptModel.
Open Scope string_scope. Open Scope list_scope. Open Scope Z_scope.

Lemma existsb_eqb l x : existsb (fun r => String.eqb r x) l = true <-> In x l.
Proof.
  rewrite existsb_exists. split.
  - intros (y & Hy & E). by apply String.eqb_eq in E as ->.
  - intros H. exists x. split; [done|]. apply String.eqb_refl.
Qed.
Lemma names_spec param all x : existsb (fun r => String.eqb r x) (if star param then all else param) = true <-> names param all x.
Proof.
  rewrite existsb_eqb. unfold names, star. destruct param as [|y param]; [done|]. cbn [head].
  destruct (String.eqb_spec y "*") as [->|Hne]; [by rewrite bool_decide_eq_true_2|].
  rewrite bool_decide_eq_false_2; [done|]. by intros [= ->].
Qed.

(** C53. A room is in the scope of an extension exactly if its rooms parameter names
    the room or its lists parameter names a list in which the room is visible. The
    star, as the first element, stands for all subscribed rooms and for all lists. *)
Theorem C53_scope e room c : roomInScope e room c = true <-> in_scope e c room.
Proof.
  unfold roomInScope, in_scope. cbv zeta.
  destruct (existsb (fun r => String.eqb r room) (if star (default [] (e_rooms e)) then x_subs c else default [] (e_rooms e))) eqn:E.
  - split; [|done]. intros _. left. by apply names_spec.
  - assert (Hn : ~ names (default [] (e_rooms e)) (x_subs c) room) by (rewrite <- names_spec; by rewrite E).
    rewrite existsb_exists. split.
    + intros (v & Hv & Hl). right. exists v. split; [done|]. apply names_spec.
      rewrite existsb_exists in Hl |- *. destruct Hl as (l & Hl & Hq). exists l. split; [done|]. by rewrite String.eqb_sym.
    + intros [H|(v & Hv & Hl)]; [done|]. exists v. split; [done|]. apply names_spec in Hl.
      rewrite existsb_exists in Hl |- *. destruct Hl as (l & Hl & Hq). exists l. split; [done|]. by rewrite String.eqb_sym.
Qed.
Print Assumptions C53_scope.

(** ** Visible rooms *)
Lemma mark_all key rooms room l : forall m,
  In l (default [] (fold_left (mark key) rooms m !! room)) <->
  In l (default [] (m !! room)) \/ (l = key /\ In room rooms).
Proof.
  induction rooms as [|x rooms IH]; intros m; cbn [fold_left In].
  - tauto.
  - rewrite IH. unfold mark. destruct (decide (x = room)) as [->|Hne].
    + rewrite lookup_insert. cbn [default from_option id]. rewrite in_app_iff. cbn. naive_solver.
    + rewrite lookup_insert_ne by done. naive_solver.
Qed.

(** C53. The lists in which a room is visible are those that show it: all their
    rooms were requested, or one of their windows covers the room's position. *)
Theorem C53_visible ls : (forall v, In v ls -> valid (v_ranges v) = true) ->
  exists m, listsByVisibleRoomIDs ls = Some m
    /\ forall room l, In l (default [] (m !! room)) <-> exists v, In v ls /\ v_key v = l /\ visible_in v room.
Proof.
  intros Hv. unfold listsByVisibleRoomIDs.
  assert (H : forall m0, exists m, fold_left visible_step ls (Some m0) = Some m
    /\ forall room l, In l (default [] (m !! room)) <->
         In l (default [] (m0 !! room)) \/ exists v, In v ls /\ v_key v = l /\ visible_in v room).
  { induction ls as [|v ls IH]; intros m0; cbn [fold_left].
    - exists m0. split; [done|]. intros. split; [by left|]. intros [H|(? & [] & _)]; done.
    - assert (Hone : exists m1, visible_step (Some m0) v = Some m1 /\ forall room l,
         In l (default [] (m1 !! room)) <-> In l (default [] (m0 !! room)) \/ (l = v_key v /\ visible_in v room)).
      { unfold visible_step, visible_in. cbn [mbind option_bind]. destruct (v_all v).
        - eexists. split; [done|]. intros room l. apply mark_all.
        - pose proof (Hv v (or_introl eq_refl)) as Hvv. rewrite (C04_slices_are_the_windows _ _ _ Hvv). cbn.
          eexists. split; [done|]. intros room l. rewrite mark_all.
          assert (Hin : In room (concat (map (fun sr => omap (fun i => v_rooms v !! Z.to_nat i) (window_positions (length (v_rooms v)) sr))
                           (filter (fun sr : Z * Z => sr.1 < Z.of_nat (length (v_rooms v))) (v_ranges v))))
            <-> exists i, v_rooms v !! Z.to_nat i = Some room /\ 0 <= i /\ covers (v_ranges v) i).
          { pose proof (C04_every_covered_position_once _ _ (v_rooms v) _ Hvv (C04_slices_are_the_windows _ _ _ Hvv)) as Hperm.
            rewrite <- elem_of_list_In. rewrite Hperm. rewrite elem_of_list_omap. unfold covered_positions.
            split.
            - intros (i & Hi & Hl). apply elem_of_list_In, filter_In in Hi as [Hi Hc]. apply in_map_iff in Hi as (n & <- & Hn).
              exists (Z.of_nat n). split; [done|]. split; [lia|]. apply existsb_exists in Hc as (sr & Hsr & Hc).
              exists sr. rewrite elem_of_list_In. split; [done|lia].
            - intros (i & Hl & Hpos & sr & Hsr & Hc). exists i. split; [|done]. apply elem_of_list_In, filter_In. split.
              + apply in_map_iff. exists (Z.to_nat i). split; [lia|]. apply in_seq. apply lookup_lt_Some in Hl. lia.
              + apply existsb_exists. exists sr. rewrite <- elem_of_list_In. split; [done|lia]. }
          tauto. }
      destruct Hone as (m1 & -> & H1). destruct (IH (fun w Hw => Hv w (or_intror Hw)) m1) as (m & Hm & Hiff). exists m. split; [done|].
      intros room l. rewrite Hiff, H1. cbn [In]. naive_solver. }
  destruct (H ∅) as (m & Hm & Hiff). exists m. split; [done|]. intros room l. rewrite Hiff, lookup_empty. cbn. naive_solver.
Qed.
Print Assumptions C53_visible.

(** ** Live updates *)
Lemma enabled_spec r k e : enabled_ext r k = Some e <-> asked r k e.
Proof.
  unfold enabled_ext, asked, enabled. destruct (r k) as [x|]; [|naive_solver].
  destruct (e_enabled x) as [[]|] eqn:E; naive_solver.
Qed.
Lemma enabled_none r k : enabled_ext r k = None <-> forall e, ~ asked r k e.
Proof.
  split.
  - intros H e He. apply enabled_spec in He. congruence.
  - intros H. destruct (enabled_ext r k) as [e|] eqn:E; [|done]. apply enabled_spec in E. by apply H in E.
Qed.

(** C53. After an update a room's typing event in the response is the one the update
    tells, if the extension is enabled and the room is in its scope; otherwise it is
    what it was. *)
Theorem C53_typing_live r c rows res u room : room <> "" ->
  (forall e ev, asked r ETyping e -> in_scope e c room -> typing_news c u room = Some ev ->
     typing_of (handle_live r c rows res u) room = Some ev)
  /\ ((forall e, asked r ETyping e -> ~ in_scope e c room) \/ typing_news c u room = None ->
     typing_of (handle_live r c rows res u) room = typing_of res room).
Proof.
  intros Hroom. unfold typing_of, handle_live. cbn [r_typing].
  assert (Hgen : forall e, typing_live e c (r_typing res) u =
    match (match u with UTyping x t => Some (x, t)
           | _ => match room_update u with Some (x, t) => if bool_decide (is_Some (x_timeline c !! x)) then Some (x, t) else None | None => None end end) with
    | Some (x, Some ev) => if String.eqb x "" then r_typing res else if negb (roomInScope e x c) then r_typing res
        else Some (<[x := ev]> (default ∅ (r_typing res)))
    | _ => r_typing res end) by done.
  assert (Hnews : forall x t, (match u with UTyping x t => Some (x, t)
           | _ => match room_update u with Some (x, t) => if bool_decide (is_Some (x_timeline c !! x)) then Some (x, t) else None | None => None end end) = Some (x, t) ->
     typing_news c u room = if bool_decide (x = room) then t else None).
  { intros x t. unfold typing_news, room_update. destruct u as [d|y s d|y s|y s|]; try done.
    - case_bool_decide as Ht; [|done]. intros [= -> ->]. case_bool_decide as H1; [rewrite bool_decide_eq_true_2; [done|tauto]|].
      rewrite bool_decide_eq_false_2; [done|]. intros ->. by apply H1.
    - by intros [= -> ->].
    - case_bool_decide as Ht; [|done]. intros [= -> ->]. case_bool_decide as H1; [rewrite bool_decide_eq_true_2; [done|tauto]|].
      rewrite bool_decide_eq_false_2; [done|]. intros ->. by apply H1. }
  assert (Hnone : (match u with UTyping x t => Some (x, t)
           | _ => match room_update u with Some (x, t) => if bool_decide (is_Some (x_timeline c !! x)) then Some (x, t) else None | None => None end end) = None ->
     typing_news c u room = None).
  { unfold typing_news, room_update. destruct u as [d|y s d|y s|y s|]; try done.
    - case_bool_decide; [done|]. intros _. rewrite bool_decide_eq_false_2; [done|]. intros [-> ?]. done.
    - case_bool_decide; [done|]. intros _. rewrite bool_decide_eq_false_2; [done|]. intros [-> ?]. done. }
  split.
  - intros e ev He Hs Hn. apply enabled_spec in He as ->. rewrite Hgen.
    destruct (match u with UTyping x t => Some (x, t) | _ => _ end) as [[x t]|] eqn:E.
    + rewrite (Hnews x t eq_refl) in Hn. case_bool_decide; [|done]. subst x t.
      rewrite (proj2 (String.eqb_neq room "")) by done. apply C53_scope in Hs. rewrite Hs. cbn. by rewrite lookup_insert.
    + rewrite (Hnone eq_refl) in Hn. done.
  - intros H. destruct (enabled_ext r ETyping) as [e|] eqn:Ee; [|done]. apply enabled_spec in Ee. rewrite Hgen.
    destruct (match u with UTyping x t => Some (x, t) | _ => _ end) as [[x [ev|]]|] eqn:E; [|done..].
    destruct (String.eqb x ""); [done|]. destruct (roomInScope e x c) eqn:Es; [|done]. cbn [negb mbind option_bind].
    destruct (decide (x = room)) as [->|Hne].
    + exfalso. destruct H as [H|H].
      * apply (H e Ee). by apply C53_scope.
      * rewrite (Hnews room (Some ev) eq_refl), bool_decide_eq_true_2 in H by done. done.
    + rewrite lookup_insert_ne by done. by destruct (r_typing res).
Qed.
Print Assumptions C53_typing_live.

Lemma selectMany_one rows room : map snd (selectMany rows [room]) = data_of rows room.
Proof.
  unfold data_of, selectMany. f_equal. apply List.filter_ext. intros d. apply bool_decide_ext. apply elem_of_list_singleton.
Qed.

(** C53. Likewise an update adds to a room's account data in the response exactly if
    the extension is enabled and the room is in its scope. *)
Theorem C53_data_live r c rows res u room :
  (forall e d, asked r EAccountData e -> in_scope e c room -> data_news c rows (loaded_in res room) u room d ->
     room_data_of (handle_live r c rows res u) room = Some (default [] (room_data_of res room) ++ d))
  /\ ((forall e, asked r EAccountData e -> ~ in_scope e c room) \/ (forall d, ~ data_news c rows (loaded_in res room) u room d) ->
     room_data_of (handle_live r c rows res u) room = room_data_of res room).
Proof.
  unfold room_data_of, handle_live. cbn [r_acct].
  assert (Hadd : forall d x, (a ← add_data (r_acct res) [] (Some (x, d)); a_rooms a !! room) =
     if bool_decide (x = room) then Some (default [] (a ← r_acct res; a_rooms a !! room) ++ d) else a ← r_acct res; a_rooms a !! room).
  { intros d x. unfold add_data. cbn. case_bool_decide as Hx.
    - subst x. rewrite lookup_insert. destruct (r_acct res) as [a|]; cbn; [done|]. by rewrite lookup_empty.
    - rewrite lookup_insert_ne by done. destruct (r_acct res) as [a|]; cbn; [done|]. by rewrite lookup_empty. }
  assert (Hglob : forall d, (a ← add_data (r_acct res) d None; a_rooms a !! room) = a ← r_acct res; a_rooms a !! room).
  { intros d. unfold add_data. destruct d; [done|]. cbn. destruct (r_acct res); cbn; [done|]. by rewrite lookup_empty. }
  assert (Hroom : forall e x t, (acct_live e c rows (r_acct res) (UTyping x t) = acct_live e c rows (r_acct res) (URoom x t))) by done.
  assert (Hstored : forall e x t,
    (forall d, in_scope e c room -> data_news c rows (loaded_in res room) (URoom x t) room d ->
      (a ← acct_live e c rows (r_acct res) (URoom x t); a_rooms a !! room) = Some (default [] (a ← r_acct res; a_rooms a !! room) ++ d))
    /\ (~ in_scope e c room \/ (forall d, ~ data_news c rows (loaded_in res room) (URoom x t) room d) ->
      (a ← acct_live e c rows (r_acct res) (URoom x t); a_rooms a !! room) = a ← r_acct res; a_rooms a !! room)).
  { intros e x t. split.
    - intros d Hs (-> & Ht & Hl & l & -> & -> & Hd). cbn [acct_live]. apply C53_scope in Hs as ->. cbn [negb].
      rewrite bool_decide_eq_true_2 by done. rewrite selectMany_one.
      assert (Hload : match r_acct res with Some a => bool_decide (room ∈ a_loaded a) | None => false end = false).
      { destruct (r_acct res) as [a|] eqn:Ea; [|done]. apply bool_decide_eq_false. intros Hin. apply Hl. exists a. split; [done|].
        by apply elem_of_list_In. }
      rewrite Hload. destruct (data_of l room) as [|d0 dl] eqn:Ed; [done|]. rewrite Hadd. by rewrite bool_decide_eq_true_2.
    - intros H. cbn [acct_live]. destruct (roomInScope e x c) eqn:Es; [|done]. cbn [negb]. case_bool_decide as Ht; [|done].
      destruct (match r_acct res with Some a => bool_decide (x ∈ a_loaded a) | None => false end) eqn:El; [done|].
      destruct rows as [l|]; [|done]. rewrite selectMany_one. destruct (data_of l x) as [|d0 dl] eqn:Ed; [done|].
      rewrite Hadd. case_bool_decide as Hx; [|done]. subst x. exfalso. destruct H as [H|H].
      + apply H. by apply C53_scope.
      + apply (H (d0 :: dl)). split; [done|]. split; [done|]. split; [|by exists l].
        intros (a & Ha & Hin). rewrite Ha in El. apply bool_decide_eq_false in El. apply El. by apply elem_of_list_In. }
  split.
  - intros e d He Hs Hn. apply enabled_spec in He as ->. destruct u as [g|x t d'|x t|x t|]; [done| | | |done].
    + destruct Hn as [-> ->]. cbn [acct_live]. apply C53_scope in Hs as ->. rewrite Hadd. by rewrite bool_decide_eq_true_2.
    + rewrite Hroom. destruct (Hstored e x t) as [H _]. by apply H.
    + destruct (Hstored e x t) as [H _]. by apply H.
  - intros H. destruct (enabled_ext r EAccountData) as [e|] eqn:Ee; [|done]. apply enabled_spec in Ee.
    assert (H' : ~ in_scope e c room \/ (forall d, ~ data_news c rows (loaded_in res room) u room d)).
    { destruct H as [H|H]; [left; by apply H|by right]. }
    destruct u as [g|x t d'|x t|x t|]; [by cbn [acct_live]| | | |done].
    + cbn [acct_live]. destruct (roomInScope e x c) eqn:Es; [|done]. rewrite Hadd. case_bool_decide as Hx; [|done]. subst x.
      exfalso. destruct H' as [H'|H']; [apply H'; by apply C53_scope|]. by apply (H' d').
    + rewrite Hroom. destruct (Hstored e x t) as [_ Hk]. by apply Hk.
    + destruct (Hstored e x t) as [_ Hk]. by apply Hk.
Qed.
Print Assumptions C53_data_live.

(** C53. The global account data of a response is that which it began with and then, if
    the extension is enabled, that of every update, in the order of the updates. *)
Definition global_of (r : eresp) : list string := default [] (a_global <$> r_acct r).
Definition global_news (u : update) : list string := match u with UGlobalData d => d | _ => [] end.
Theorem C53_global_data_live r steps res0 :
  let res := fold_left (fun res s => handle_live r s.1.1 s.1.2 res s.2) steps res0 in
  ((exists e, asked r EAccountData e) -> global_of res = global_of res0 ++ flat_map (fun s => global_news s.2) steps)
  /\ ((forall e, ~ asked r EAccountData e) -> global_of res = global_of res0).
Proof.
  cbv zeta. revert res0. induction steps as [|[[c rows] u] steps IH]; intros res0.
  { cbn [fold_left flat_map]. by rewrite app_nil_r. }
  cbn [fold_left fst snd]. destruct (IH (handle_live r c rows res0 u)) as [IH1 IH2]. split.
  - intros Hex. rewrite (IH1 Hex). destruct Hex as [e He]. apply enabled_spec in He. cbn [flat_map snd]. rewrite app_assoc. f_equal.
    unfold global_of, handle_live. cbn [r_acct]. rewrite He.
    assert (Hadd : forall res room d, default [] (a_global <$> add_data res [] (Some (room, d))) = default [] (a_global <$> res)).
    { intros [a|] room d; cbn; [by rewrite app_nil_r|done]. }
    destruct u as [d|x t d|x t|x t|]; cbn [acct_live global_news]; rewrite ?app_nil_r; try done.
    + unfold add_data. destruct d as [|d0 d]; [by rewrite app_nil_r|]. by destruct (r_acct res0).
    + destruct (roomInScope e x c); [apply Hadd|done].
    + destruct (negb _); [done|]. case_bool_decide; [|done]. destruct (match r_acct res0 with Some a => bool_decide (x ∈ a_loaded a) | None => false end); [done|]. destruct rows as [rows|]; [|done].
      destruct (map snd (selectMany rows [x])); [done|apply Hadd].
    + destruct (negb _); [done|]. case_bool_decide; [|done]. destruct (match r_acct res0 with Some a => bool_decide (x ∈ a_loaded a) | None => false end); [done|]. destruct rows as [rows|]; [|done].
      destruct (map snd (selectMany rows [x])); [done|apply Hadd].
  - intros Hno. rewrite (IH2 Hno). apply enabled_none in Hno. unfold global_of, handle_live. cbn [r_acct]. by rewrite Hno.
Qed.
Print Assumptions C53_global_data_live.

(** C53. However many updates a response collects, it reports on a room only if the
    room was in scope of the enabled extension when one of the updates arrived. *)
Theorem C53_live_only_in_scope r steps room : room <> "" ->
  let res := fold_left (fun res s => handle_live r s.1.1 s.1.2 res s.2) steps (mk_eresp None None) in
  (reports_typing res room -> exists e c rows u, asked r ETyping e /\ In (c, rows, u) steps /\ in_scope e c room)
  /\ (reports_data res room -> exists e c rows u, asked r EAccountData e /\ In (c, rows, u) steps /\ in_scope e c room).
Proof.
  intros Hroom. cbv zeta.
  assert (Ht : forall res, reports_typing res room <-> is_Some (typing_of res room)).
  { intros res. unfold reports_typing, typing_of, is_Some. destruct (r_typing res); cbn; naive_solver. }
  assert (Hd : forall res, reports_data res room <-> is_Some (room_data_of res room)).
  { intros res. unfold reports_data, room_data_of, is_Some. destruct (r_acct res); cbn; naive_solver. }
  rewrite Ht, Hd. clear Ht Hd. induction steps as [|[[c rows] u] steps IH] using rev_ind.
  { cbn. by split; intros [x Hx]. }
  rewrite fold_left_app. cbn [fold_left fst snd]. set (res := fold_left _ steps _) in *. destruct IH as [IH1 IH2]. split.
  - intros H. destruct (C53_typing_live r c rows res u room Hroom) as [_ Hk].
    destruct (enabled_ext r ETyping) as [e|] eqn:Ee.
    + apply enabled_spec in Ee. destruct (roomInScope e room c) eqn:Es.
      * exists e, c, rows, u. split; [done|]. split; [apply in_app_iff; right; by left|]. by apply C53_scope.
      * rewrite Hk in H.
        -- destruct (IH1 H) as (e' & c' & rows' & u' & H1 & H2 & H3). exists e', c', rows', u'. split; [done|]. split; [|done].
           apply in_app_iff. by left.
        -- left. intros e' He' Hs. apply C53_scope in Hs. apply enabled_spec in Ee, He'. congruence.
    + rewrite Hk in H by (left; intros e He; by apply (proj1 (enabled_none r ETyping) Ee) in He).
      destruct (IH1 H) as (e' & c' & rows' & u' & H1 & H2 & H3). exists e', c', rows', u'. split; [done|]. split; [|done].
      apply in_app_iff. by left.
  - intros H. destruct (C53_data_live r c rows res u room) as [_ Hk].
    destruct (enabled_ext r EAccountData) as [e|] eqn:Ee.
    + apply enabled_spec in Ee. destruct (roomInScope e room c) eqn:Es.
      * exists e, c, rows, u. split; [done|]. split; [apply in_app_iff; right; by left|]. by apply C53_scope.
      * rewrite Hk in H.
        -- destruct (IH2 H) as (e' & c' & rows' & u' & H1 & H2 & H3). exists e', c', rows', u'. split; [done|]. split; [|done].
           apply in_app_iff. by left.
        -- left. intros e' He' Hs. apply C53_scope in Hs. apply enabled_spec in Ee, He'. congruence.
    + rewrite Hk in H by (left; intros e He; by apply (proj1 (enabled_none r EAccountData) Ee) in He).
      destruct (IH2 H) as (e' & c' & rows' & u' & H1 & H2 & H3). exists e', c', rows', u'. split; [done|]. split; [|done].
      apply in_app_iff. by left.
Qed.
Print Assumptions C53_live_only_in_scope.

(** C53. Live receipts: a response reports on a room only if it did before or one of
    the receipts is in a room in scope. *)
Theorem C53_receipts_live e c res l res' room :
  append_all (fun r => roomInScope e r c) res l res' -> is_Some (res' !! room) ->
  is_Some (res !! room) \/ (in_scope e c room /\ exists rc, In rc l /\ rc_room rc = room).
Proof.
  intros H. induction H as [res|res r res1 l res2 H1 H2 IH]; intros Hs; [by left|].
  destruct (IH Hs) as [H|(H & rc & Hrc & E)]; [|right; split; [done|]; exists rc; split; [by right|done]].
  assert (Hcase : is_Some (res !! room) \/ (rc_room r = room /\ in_scope e c room)).
  { inversion H1; subst.
    - by left.
    - destruct (decide (rc_room r = room)) as [<-|Hne].
      + right. split; [done|]. by apply C53_scope.
      + left. by rewrite lookup_insert_ne in H by done.
    - destruct (decide (rc_room r = room)) as [<-|Hne].
      + right. split; [done|]. by apply C53_scope.
      + left. by rewrite lookup_insert_ne in H by done. }
  destruct Hcase as [Hc|[E Hc]]; [by left|]. right. split; [done|]. exists r. split; [by left|done].
Qed.
Print Assumptions C53_receipts_live.

(** ** Responses before the live loop *)

(** C53. The typing events of a response are those of its rooms in scope. *)
Theorem C53_typing_initial r c order rows rows' meta room :
  typing_of (handle r c order rows rows' meta) room =
  match enabled_ext r ETyping with
  | Some e => if roomInScope e room c && bool_decide (room ∈ order) then meta room else None
  | None => None
  end.
Proof.
  unfold typing_of, handle. cbn [r_typing]. destruct (enabled_ext r ETyping) as [e|]; [|done].
  unfold typing_initial. cbv zeta. set (f := fun m room => _).
  assert (H : forall order m, fold_left f order m !! room =
     if roomInScope e room c && bool_decide (room ∈ order) then match meta room with Some ev => Some ev | None => m !! room end else m !! room).
  { clear order. induction order as [|x order IH]; intros m; cbn [fold_left].
    - rewrite (bool_decide_eq_false_2 (room ∈ [])) by (intros H; by apply elem_of_nil in H). by rewrite andb_false_r.
    - rewrite IH. unfold f. destruct (decide (x = room)) as [->|Hne].
      + rewrite (bool_decide_eq_true_2 (room ∈ room :: order)) by (apply elem_of_cons; by left). rewrite andb_true_r.
        destruct (meta room) as [ev|]; destruct (roomInScope e room c); cbn [andb];
          try rewrite lookup_insert; try done; by destruct (bool_decide (room ∈ order)).
      + assert (Hm : (match meta x with Some ev => if roomInScope e x c then <[x:=ev]> m else m | None => m end) !! room = m !! room).
        { destruct (meta x); [|done]. destruct (roomInScope e x c); [|done]. by rewrite lookup_insert_ne. }
        rewrite Hm. assert (Hd : bool_decide (room ∈ x :: order) = bool_decide (room ∈ order)).
        { apply bool_decide_ext. rewrite elem_of_cons. naive_solver. }
        by rewrite Hd. }
  specialize (H order ∅). set (m := fold_left f order ∅) in *. rewrite lookup_empty in H.
  assert (Hm : (x ← (if 0 <? Z.of_nat (size m) then Some m else None); x !! room) = m !! room).
  { destruct (0 <? Z.of_nat (size m)) eqn:E; [done|]. assert (Hsz : size m = 0%nat) by lia. apply map_size_empty_inv in Hsz.
    rewrite Hsz. by rewrite lookup_empty. }
  rewrite Hm, H. destruct (roomInScope e room c && bool_decide (room ∈ order)); [|done]. by destruct (meta room).
Qed.
Print Assumptions C53_typing_initial.

Lemma add_rows_lookup l room : forall a, a_rooms (fold_left add_row l a) !! room =
  match data_of l room with [] => a_rooms a !! room | d => Some (default [] (a_rooms a !! room) ++ d) end.
Proof.
  induction l as [|[x v] l IH]; intros a; cbn [fold_left]; [done|]. rewrite IH. unfold data_of. cbn [List.filter fst].
  case_bool_decide as Hx.
  - subst x. cbn [map snd]. unfold add_row. cbn [a_rooms fst snd]. rewrite lookup_insert. cbn [default from_option id].
    match goal with |- context [map snd ?x] => destruct (map snd x) end; [done|]. by rewrite <- app_assoc.
  - unfold add_row. cbn [a_rooms fst snd]. by rewrite lookup_insert_ne.
Qed.

(** C53, for real rooms: the account data of a response is what is stored for its
    rooms in scope.
    Missing: the empty room ID, see below. *)
Theorem C53_data_initial_partial r c order rows rows' meta room : room <> "" ->
  room_data_of (handle r c order (Some rows) rows' meta) room =
  match enabled_ext r EAccountData with
  | Some e => if roomInScope e room c && bool_decide (room ∈ order)
              then match data_of rows room with [] => None | d => Some d end else None
  | None => None
  end.
Proof.
  intros Hroom. unfold room_data_of, handle. cbn [r_acct]. destruct (enabled_ext r EAccountData) as [e|]; [|done].
  unfold acct_initial. cbv zeta.
  set (a1 := if 0 <? Z.of_nat (length (acct_rooms e c order)) then _ else _).
  set (a2 := if x_initial c then _ else a1).
  assert (Ha2 : a_rooms a2 = a_rooms a1) by (unfold a2; destruct (x_initial c); [destruct rows'|]; done).
  assert (Hfin : (a ← (if (0 <? Z.of_nat (size (a_rooms a2))) || (0 <? Z.of_nat (length (a_global a2))) then Some a2 else None); a_rooms a !! room)
     = a_rooms a1 !! room).
  { destruct ((0 <? Z.of_nat (size (a_rooms a2))) || (0 <? Z.of_nat (length (a_global a2)))) eqn:E; cbn; [by rewrite Ha2|].
    apply orb_false_iff in E as [E _]. assert (Hsz : size (a_rooms a2) = 0%nat) by lia. apply map_size_empty_inv in Hsz.
    rewrite <- Ha2, Hsz. by rewrite lookup_empty. }
  rewrite Hfin.
  assert (Hin : room ∈ acct_rooms e c order <-> roomInScope e room c = true /\ room ∈ order).
  { unfold acct_rooms. rewrite elem_of_app, elem_of_replicate, elem_of_list_In, filter_In, <- elem_of_list_In. naive_solver. }
  assert (Hdata : data_of (List.filter (fun d : adata => bool_decide (d.1 ∈ acct_rooms e c order)) rows) room =
     if roomInScope e room c && bool_decide (room ∈ order) then data_of rows room else []).
  { unfold data_of. clear a1 a2 Ha2 Hfin. induction rows as [|[x v] rows IH]; cbn [List.filter fst].
    - by destruct (_ && _).
    - destruct (decide (x = room)) as [->|Hne].
      + destruct (roomInScope e room c && bool_decide (room ∈ order)) eqn:E.
        * apply andb_true_iff in E as [E1 E2]. apply bool_decide_eq_true in E2.
          rewrite (bool_decide_eq_true_2 (room ∈ acct_rooms e c order)) by (by apply Hin). cbn [List.filter fst].
          rewrite bool_decide_eq_true_2 by done. cbn [map snd]. f_equal. exact IH.
        * rewrite (bool_decide_eq_false_2 (room ∈ acct_rooms e c order)); [done|]. intros Hx. apply Hin in Hx as [Hx1 Hx2].
          rewrite Hx1 in E. cbn in E. by apply bool_decide_eq_false in E.
      + rewrite (bool_decide_eq_false_2 (x = room)) by done.
        destruct (bool_decide (x ∈ acct_rooms e c order)); cbn [List.filter fst]; [rewrite (bool_decide_eq_false_2 (x = room)) by done|]; exact IH. }
  unfold a1. destruct (0 <? Z.of_nat (length (acct_rooms e c order))) eqn:El.
  - assert (Hsel : selectMany rows (acct_rooms e c order) = List.filter (fun d : adata => bool_decide (d.1 ∈ acct_rooms e c order)) rows).
    { unfold selectMany. destruct (acct_rooms e c order); [cbn in El; lia|done]. }
    rewrite Hsel, add_rows_lookup, Hdata. cbn [a_rooms aresp0]. rewrite lookup_empty. cbn [default from_option id app].
    by destruct (roomInScope e room c && bool_decide (room ∈ order)).
  - cbn [a_rooms aresp0]. rewrite lookup_empty.
    assert (Hnil : acct_rooms e c order = []) by (apply nil_length_inv; lia).
    destruct (roomInScope e room c && bool_decide (room ∈ order)) eqn:E; [|done]. exfalso.
    apply andb_true_iff in E as [E1 E2]. apply bool_decide_eq_true in E2. assert (Hx : room ∈ acct_rooms e c order) by (by apply Hin).
    rewrite Hnil in Hx. by apply elem_of_nil in Hx.
Qed.
Print Assumptions C53_data_initial_partial.

(** ** Examples and refutations *)
Definition ext1 := mk_ext (Some true) (Some ["l"]) (Some ["!a"]) 0 "".
Definition ctx1 := mk_ectx {[ "!b" := ["$1"]; "!c" := ["$2"] ]} false {[ "!b" := ["l"]; "!c" := ["m"] ]} ["l"; "m"] ["!d"].
Example C53_example :
  map (fun r => roomInScope ext1 r ctx1) ["!a"; "!b"; "!c"; "!d"] = [true; true; false; false]
  /\ map (fun r => roomInScope (mk_ext (Some true) (Some ["*"]) (Some ["*"]) 0 "") r ctx1) ["!a"; "!b"; "!c"; "!d"] = [false; true; true; true].
Proof. split; vm_compute; reflexivity. Qed.
Example C53_visible_example :
  (m ← listsByVisibleRoomIDs [mk_vlist "l" false [(0, 1); (3, 3)] ["!a"; "!b"; "!c"; "!d"]; mk_vlist "m" true [] ["!b"]];
   Some (m !! "!a", m !! "!b", m !! "!c", m !! "!d")) = Some (Some ["l"], Some ["l"; "m"], None, Some ["l"]).
Proof. vm_compute. reflexivity. Qed.

(** C53 fails for a star that is not the first element: it is taken for a room ID. *)
Theorem C53_star_later_refuted :
  exists e c room, e_rooms e = Some ["!a"; "*"] /\ In room (x_subs c) /\ roomInScope e room c = false.
Proof.
  exists (mk_ext (Some true) (Some []) (Some ["!a"; "*"]) 0 ""), ctx1, "!d". split; [done|]. split; [by left|]. vm_compute. reflexivity.
Qed.

(** C53 fails for account data when a room of the response is out of scope: the
    slice of rooms is padded with empty strings, and the empty room ID selects the
    global account data. It is reported as the data of a room "", in every such
    response, not only in the first. *)
Theorem C53_global_data_as_room_refuted :
  exists r c order rows, asked r EAccountData ext1 /\ x_initial c = false /\ (forall room, In room order -> room <> "")
    /\ ~ in_scope ext1 c "" /\ room_data_of (handle r c order (Some rows) (Some rows) (fun _ => None)) "" = Some ["push rules"].
Proof.
  exists (fun _ => Some ext1), ctx1, ["!b"; "!c"], [("", "push rules"); ("!b", "tags")].
  split; [done|]. split; [done|]. split; [intros room [<-|[<-|[]]]; done|]. split; [|vm_compute; reflexivity].
  rewrite <- C53_scope. vm_compute. discriminate.
Qed.
