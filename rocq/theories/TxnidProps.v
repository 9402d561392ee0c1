(** C74: an event's transaction ID is shown to the device that sent it, and to nobody else. *)
From Verif Require Import Prelude TxnidModel TxnidSpec TxnidProofs.
Open Scope string_scope. Open Scope list_scope. Open Scope Z_scope.

(** Nothing but the transaction IDs differs between what is in the tables and what is sent: the
    rooms, the events, their order and all else in them are the same. *)
Theorem C74_only_ids_differ : forall user order rows resp room i,
  (forall e, at_ resp room i e -> exists e', at_ (annotate user order rows resp) room i e' /\ same_but_txn e e') /\
  (forall e', at_ (annotate user order rows resp) room i e' -> exists e, at_ resp room i e /\ same_but_txn e e').
Proof.
  intros user order rows resp room i. split.
  - intros e Ha. eexists. split; [apply annotate_at; exists e; split; [exact Ha | reflexivity] | apply mark_same].
  - intros e' Ha. apply annotate_at in Ha. destruct Ha as (e & Ha & ->). exists e. split; [exact Ha | apply mark_same].
Qed.
Print Assumptions C74_only_ids_differ.

(** What the annotating does to the event at a place. *)
Lemma annotated_cases m ok user dev resp order rows room i e' :
  orders m ok user dev resp order rows -> at_ (annotate user order rows resp) room i e' ->
  exists e, at_ resp room i e /\ same_but_txn e e' /\
    (t_transaction e' = t_transaction e \/
     exists t now, t_transaction e' = Some t /\ m !! (user, dev, t_id e) = Some (t, now) /\ t_sender e = user).
Proof.
  intros [Hp Hr] Ha. apply annotate_at in Ha. destruct Ha as (e & Ha & ->). exists e. split; [exact Ha|]. split; [apply mark_same|].
  destruct (mark_cases (where_is user order) room i rows e) as [E | (r & Hi & Ew & E)]; [left; exact E|]. right.
  destruct (where_is_sound _ _ _ _ _ _ Hp Ew) as (e1 & Ha1 & Ei & Es). pose proof (at_fun _ _ _ _ _ Ha Ha1) as <-.
  apply elem_of_list_In in Hi. rewrite Hr in Hi. destruct ok; [|inversion Hi].
  destruct r as [id t]. apply elem_of_map_to_list in Hi. destruct (select_sound _ _ _ _ _ _ Hi) as [_ [now Em]].
  exists t, now. cbn in Ei, E. rewrite Ei. split; [exact E|]. split; [exact Em | exact Es].
Qed.

(** A transaction ID which anyone is shown is the one with which the event was sent, whatever has
    happened and in whichever order. *)
Theorem C74_never_wrong : forall T l ok user dev resp order rows room i e t,
  Forall (honest T) l -> from_table (truns tstore0 l) resp ->
  orders (s_txns (truns tstore0 l)) ok user dev resp order rows ->
  at_ (annotate user order rows resp) room i e -> t_transaction e = Some t ->
  exists d, by_device T (t_id e) = Some (d, t).
Proof.
  intros T l ok user dev resp order rows room i e t Hl Hf Ho Ha Et.
  destruct (annotated_cases _ _ _ _ _ _ _ _ _ _ Ho Ha) as (e0 & Ha0 & (Ei & _) & [E | (t' & now & E & Em & _)]).
  - rewrite <- Ei. destruct Ha0 as (rl & Er & El).
    pose proof (Hf room rl e0 Er (proj1 (elem_of_list_In _ _) (elem_of_list_lookup_2 _ _ _ El))) as Etab.
    destruct (table_is_first_copy _ _ _ Etab) as (e1 & H1 & Estrip). destruct (first_copy_in _ _ _ H1) as [Hin Ei1].
    destruct (copies_honest T l e1 Hl Hin) as (u & d & _ & H). exists d.
    rewrite <- Ei1. apply (H t). rewrite Et in E. rewrite Estrip in E. cbn in E. congruence.
  - rewrite E in Et. injection Et as ->. rewrite <- Ei. exists dev.
    exact (proj2 (truns_true_rows T l tstore0 Hl (true_rows0 T) _ _ _ _ _ Em)).
Qed.
Print Assumptions C74_never_wrong.

(** No row before the poller is told. *)
Lemma untold_no_row l : forall s user dev id, s_txns s !! (user, dev, id) = None -> ~ told l user dev id ->
  s_txns (truns s l) !! (user, dev, id) = None.
Proof.
  induction l as [|o l IH]; intros s user dev id E Hn; [exact E|].
  apply (IH (tstep s o)).
  - destruct o as [u d evs ok stored now | u d evs stored | b]; cbn [tstep s_txns]; [|exact E|].
    + destruct (ok && _); [|exact E].
      destruct (insert_txns _ _ _ _ _ !! _) as [v|] eqn:Ei; [|reflexivity]. exfalso.
      destruct (insert_txns_sound _ _ _ _ _ _ _ Ei) as [Em | (i & t & Ek & _ & Eids)]; [congruence|].
      injection Ek as -> -> ->. destruct (ids_of_sound _ _ _ Eids) as (e & Hi & Eid & Et). apply Hn.
      exists evs, ok, stored, now, e. split; [left; reflexivity|]. split; [exact Hi|]. split; [exact Eid | congruence].
    + apply map_filter_lookup_None. left. exact E.
  - intros (evs & ok & stored & now & e & Hi & H). apply Hn. exists evs, ok, stored, now, e. split; [right; exact Hi | exact H].
Qed.

(** The device that sent an event is shown its ID. The poller of the device was told the ID in a
    timeline, [now]; the guards that the full claim does not have are that the poller had been
    told the ID of no event in that timeline before, that the database worked, and that the ID
    has not been cleaned since. If the response has more than one copy, one of them has the ID. *)
Theorem C74_sender_is_shown_partial : forall T l1 l2 user dev evs stored now ev t resp order rows room i e,
  Forall (honest T) (l1 ++ Poll user dev evs true stored now :: l2) ->
  In ev evs -> t_transaction ev = Some t ->
  (forall e', In e' evs -> t_transaction e' <> None -> ~ told l1 user dev (t_id e')) ->
  (forall b, In (Clean b) l2 -> b < now) ->
  let s := truns tstore0 (l1 ++ Poll user dev evs true stored now :: l2) in
  from_table s resp -> orders (s_txns s) true user dev resp order rows ->
  at_ resp room i e -> t_id e = t_id ev ->
  exists room' i' e', at_ (annotate user order rows resp) room' i' e' /\ t_id e' = t_id ev /\ t_transaction e' = Some t.
Proof.
  intros T l1 l2 user dev evs stored now ev t resp order rows room i e Hl Hin Et Hfresh Hclean s Hf [Hp Hr] Ha Eid.
  pose proof Hl as Hl'. apply Forall_app in Hl'. destruct Hl' as [Hl1 Hl2]. apply Forall_cons in Hl2. destruct Hl2 as [Hev Hl2]. cbn in Hev.
  (* the row *)
  assert (Erow : s_txns s !! (user, dev, t_id ev) = Some (t, now)).
  { unfold s, truns. rewrite fold_left_app. cbn [fold_left]. fold (truns tstore0 l1).
    apply (truns_row_stays l2).
    - cbn [tstep s_txns]. pose proof (ids_of_honest T user dev evs ev t Hev Hin Et) as Eids.
      assert (Hs : (0 <? Z.of_nat (size (ids_of evs))) = true).
      { apply Z.ltb_lt. destruct (size (ids_of evs)) eqn:Es; [|lia]. apply map_size_empty_inv in Es. rewrite Es, lookup_empty in Eids. discriminate. }
      rewrite Hs. cbn [andb]. apply insert_txns_fresh; [|exact Eids].
      intros id [t' E']. destruct (ids_of_sound _ _ _ E') as (e' & Hi' & <- & Et').
      apply untold_no_row; [apply lookup_empty|]. apply Hfresh; [exact Hi' | congruence].
    - apply Forall_forall. intros o Ho. destruct o; try exact I. apply Hclean. apply elem_of_list_In. exact Ho. }
  (* the sender *)
  assert (Hsend : t_sender e = user).
  { destruct Ha as (rl & Er & El).
    pose proof (Hf room rl e Er (proj1 (elem_of_list_In _ _) (elem_of_list_lookup_2 _ _ _ El))) as Etab.
    destruct (table_is_first_copy _ _ _ Etab) as (e1 & H1 & ->). destruct (first_copy_in _ _ _ H1) as [Hc _].
    destruct (copies_honest T _ e1 Hl Hc) as (u & d & Hs1 & _). cbn in Eid |- *. rewrite Hs1, Eid.
    rewrite Forall_forall in Hev. exact (proj1 (proj2 (Hev ev (proj2 (elem_of_list_In _ _) Hin)) t Et)). }
  destruct (where_is_complete user resp order room i e Hp Ha Hsend) as (room' & i' & Ew). rewrite Eid in Ew.
  destruct (where_is_sound _ _ _ _ _ _ Hp Ew) as (e0 & Ha0 & Ei0 & _).
  assert (Hrow : In (t_id ev, t) rows).
  { apply elem_of_list_In. rewrite Hr. apply elem_of_map_to_list. apply (select_complete _ _ _ _ _ _ now); [|exact Erow].
    apply in_map_iff. exists (t_id ev, (room, i)). split; [reflexivity|].
    apply (in_positions user resp order _ room i Hp). exists e. split; [exact Ha|]. split; assumption. }
  destruct (mark_hit (where_is user order) room' i' rows e0 (t_id ev, t) Hrow Ew) as ([id' t'] & Hi' & Ew' & E').
  exists room', i', (mark (where_is user order) room' i' rows e0). split; [apply annotate_at; exists e0; split; [exact Ha0 | reflexivity]|].
  split; [rewrite <- (proj1 (mark_same _ _ _ _ _)); exact Ei0|].
  rewrite E'. cbn in Ew' |- *.
  destruct (where_is_sound _ _ _ _ _ _ Hp Ew') as (e2 & Ha2 & Ei2 & _). pose proof (at_fun _ _ _ _ _ Ha0 Ha2) as <-.
  apply elem_of_list_In in Hi'. rewrite Hr in Hi'. apply elem_of_map_to_list in Hi'.
  destruct (select_sound _ _ _ _ _ _ Hi') as [_ [n Em]]. rewrite <- Ei2, Ei0, Erow in Em. congruence.
Qed.
Print Assumptions C74_sender_is_shown_partial.

(** So an event that is once in the response has its ID there. *)
Theorem C74_sender_is_shown_once_partial : forall T l1 l2 user dev evs stored now ev t resp order rows room i e,
  Forall (honest T) (l1 ++ Poll user dev evs true stored now :: l2) ->
  In ev evs -> t_transaction ev = Some t ->
  (forall e', In e' evs -> t_transaction e' <> None -> ~ told l1 user dev (t_id e')) ->
  (forall b, In (Clean b) l2 -> b < now) ->
  let s := truns tstore0 (l1 ++ Poll user dev evs true stored now :: l2) in
  from_table s resp -> orders (s_txns s) true user dev resp order rows ->
  (forall room' i' e', at_ resp room' i' e' -> t_id e' = t_id ev -> room' = room /\ i' = i) ->
  at_ (annotate user order rows resp) room i e -> t_id e = t_id ev ->
  t_transaction e = Some t.
Proof.
  intros T l1 l2 user dev evs stored now ev t resp order rows room i e Hl Hin Et Hfresh Hclean s Hf Ho Hone Ha Eid.
  destruct (proj2 (C74_only_ids_differ user order rows resp room i) e Ha) as (e0 & Ha0 & Hsame).
  destruct (C74_sender_is_shown_partial T l1 l2 user dev evs stored now ev t resp order rows room i e0 Hl Hin Et Hfresh Hclean Hf Ho Ha0
    (eq_trans (proj1 Hsame) Eid)) as (room' & i' & e' & Ha' & Ei' & Et').
  destruct (proj2 (C74_only_ids_differ user order rows resp room' i') e' Ha') as (e1 & Ha1 & Hs1).
  destruct (Hone room' i' e1 Ha1 (eq_trans (proj1 Hs1) Ei')) as [-> ->].
  rewrite (at_fun _ _ _ _ _ Ha Ha'). exact Et'.
Qed.
Print Assumptions C74_sender_is_shown_once_partial.

(** A device that did not send the event is shown what the first copy of the event that reached
    the proxy said. *)
Theorem C74_others_see_first_copy : forall T l ok user dev resp order rows room i e e0,
  Forall (honest T) l -> from_table (truns tstore0 l) resp ->
  orders (s_txns (truns tstore0 l)) ok user dev resp order rows ->
  at_ (annotate user order rows resp) room i e -> ~ sent_by T (t_id e) user dev ->
  first_copy l (t_id e) e0 -> t_transaction e = t_transaction e0.
Proof.
  intros T l ok user dev resp order rows room i e e0 Hl Hf Ho Ha Hn Hc.
  destruct (annotated_cases _ _ _ _ _ _ _ _ _ _ Ho Ha) as (e1 & Ha1 & (Ei & _) & [E | (t' & now & E & Em & _)]).
  - destruct Ha1 as (rl & Er & El).
    pose proof (Hf room rl e1 Er (proj1 (elem_of_list_In _ _) (elem_of_list_lookup_2 _ _ _ El))) as Etab.
    rewrite Ei, (table_first_copy _ _ _ Hc) in Etab. injection Etab as <-. exact E.
  - exfalso. apply Hn. rewrite Ei in Em.
    destruct (truns_true_rows T l tstore0 Hl (true_rows0 T) _ _ _ _ _ Em) as [Hu Hd]. split; [exact Hu | eauto].
Qed.
Print Assumptions C74_others_see_first_copy.

(** Nobody else is shown an ID. The guard that the full claim does not have is that the first
    copy of the event came without one, as it does from the poller of another device. *)
Theorem C74_nobody_else_partial : forall T l ok user dev resp order rows room i e e0,
  Forall (honest T) l -> from_table (truns tstore0 l) resp ->
  orders (s_txns (truns tstore0 l)) ok user dev resp order rows ->
  at_ (annotate user order rows resp) room i e -> ~ sent_by T (t_id e) user dev ->
  first_copy l (t_id e) e0 -> t_transaction e0 = None -> t_transaction e = None.
Proof.
  intros T l ok user dev resp order rows room i e e0 Hl Hf Ho Ha Hn Hc E0.
  rewrite (C74_others_see_first_copy T l ok user dev resp order rows room i e e0 Hl Hf Ho Ha Hn Hc). exact E0.
Qed.
Print Assumptions C74_nobody_else_partial.

(* ---- concrete cases ---- *)

(** Alice has the devices A and C; with A they sent $1 and $2. *)
Definition T1 : truth := mk_truth (fun _ => "@alice")
  (fun id => if String.eqb id "$1" then Some ("A", "t1") else if String.eqb id "$2" then Some ("A", "t2") else None).
Definition told1 := mk_tev "$1" "@alice" (Some "t1") None "hi".
Definition told2 := mk_tev "$2" "@alice" (Some "t2") None "ho".
Definition plain1 := mk_tev "$1" "@alice" None None "hi".
Definition plain2 := mk_tev "$2" "@alice" None None "ho".
Definition all_stored (e : tev) := true.
Definition none_stored (e : tev) := false.

Ltac honest_case := cbn [app]; repeat match goal with
  | |- Forall _ (_ :: _) => apply Forall_cons; split
  | |- Forall _ [] => constructor
  | |- honest _ (Clean _) => exact I
  | |- honest _ _ => cbn [honest]
  | |- honest_event _ _ _ _ => split; [reflexivity | intros ? E; cbn in E; first [discriminate E | injection E as <-; split; reflexivity]]
  end.

Lemma at_one room e room' i e' : at_ {[room := [e]]} room' i e' <-> room' = room /\ i = 0%nat /\ e' = e.
Proof.
  unfold at_. split.
  - intros (l & El & Ei). apply lookup_singleton_Some in El. destruct El as [<- <-].
    destruct i; cbn in Ei; [injection Ei as <-; repeat split | discriminate].
  - intros (-> & -> & ->). exists [e]. split; [apply lookup_singleton | reflexivity].
Qed.

(** Bob's poller is first, then Alice's: Alice's device A is shown the ID, Bob and C are not. *)
Definition l_bob_first : list top :=
  [Poll "@bob" "B" [plain1] true all_stored 5] ++ Poll "@alice" "A" [told1] true all_stored 7 :: [Clean 3].
Example C74_ex_bob_first :
  Forall (honest T1) l_bob_first /\
  s_events (truns tstore0 l_bob_first) !! "$1" = Some plain1 /\
  s_txns (truns tstore0 l_bob_first) !! ("@alice", "A", "$1") = Some ("t1", 7) /\
  first_copy l_bob_first "$1" plain1 /\
  (forall e', In e' [told1] -> t_transaction e' <> None -> ~ told [Poll "@bob" "B" [plain1] true all_stored 5] "@alice" "A" (t_id e')).
Proof.
  split; [unfold l_bob_first; honest_case|]. split; [vm_compute; reflexivity|]. split; [vm_compute; reflexivity|]. split.
  - exists [], [told1]. split; [reflexivity|]. split; [reflexivity | constructor].
  - intros e' _ _ (evs & ok & st & now & e & Hi & _). destruct Hi as [E | []]. discriminate E.
Qed.
Example C74_ex_bob_first_shown :
  let m := s_txns (truns tstore0 l_bob_first) in
  let rows dev user := map_to_list (select m user dev (map fst (positions user [("!r", [plain1])]))) in
  annotate "@alice" [("!r", [plain1])] (rows "A" "@alice") {["!r" := [plain1]]} !! "!r" = Some [told1] /\
  annotate "@alice" [("!r", [plain1])] (rows "C" "@alice") {["!r" := [plain1]]} !! "!r" = Some [plain1] /\
  annotate "@bob" [("!r", [plain1])] (rows "B" "@bob") {["!r" := [plain1]]} !! "!r" = Some [plain1].
Proof. split; [vm_compute; reflexivity|]. split; vm_compute; reflexivity. Qed.

(** Alice's poller is first. The ID is in the table of events, since it is unsigned.txn_id that
    is deleted there and not unsigned.transaction_id, and so Bob is shown it, and so is Alice's
    other device. *)
Theorem C74_nobody_else_refuted : exists T l resp, Forall (honest T) l /\ from_table (truns tstore0 l) resp /\
  forall user dev, (user = "@bob" /\ dev = "B") \/ (user = "@alice" /\ dev = "C") ->
  exists order rows room i e, orders (s_txns (truns tstore0 l)) true user dev resp order rows /\
    at_ (annotate user order rows resp) room i e /\ ~ sent_by T (t_id e) user dev /\ t_transaction e = Some "t1".
Proof.
  exists T1, [Poll "@alice" "A" [told1] true all_stored 5; Poll "@bob" "B" [plain1] true all_stored 7], {["!r" := [told1]]}.
  split; [honest_case|]. split.
  - intros room l e El Hi. apply lookup_singleton_Some in El. destruct El as [_ <-]. destruct Hi as [<- | []]. vm_compute. reflexivity.
  - intros user dev Hud. exists [("!r", [told1])], [], "!r", 0%nat, told1.
    split; [split|].
    + rewrite map_to_list_singleton. reflexivity.
    + destruct Hud as [[-> ->] | [-> ->]]; vm_compute; reflexivity.
    + split; [apply (at_one "!r" told1); repeat split|]. split; [|reflexivity].
      intros [Hu [t Ht]]. destruct Hud as [[-> ->] | [-> ->]]; vm_compute in Hu, Ht; discriminate.
Qed.
Print Assumptions C74_nobody_else_refuted.

(** Storing a timeline fails after its IDs were recorded, so the poller gets it again, now with
    one more event. Recording the IDs fails as one is there already; Alice's device is not shown
    the ID of the new event, which Bob's poller had brought. *)
Theorem C74_sender_is_shown_refuted : exists T l1 user dev evs stored now ev t resp order rows e,
  let l := l1 ++ [Poll user dev evs true stored now] in
  let s := truns tstore0 l in
  Forall (honest T) l /\ In ev evs /\ t_transaction ev = Some t /\ ~ told l1 user dev (t_id ev) /\
  from_table s resp /\ orders (s_txns s) true user dev resp order rows /\
  at_ (annotate user order rows resp) "!r" 0 e /\ t_id e = t_id ev /\ sent_by T (t_id e) user dev /\ t_transaction e = None.
Proof.
  exists T1, [Poll "@alice" "A" [told1] true none_stored 5; Poll "@bob" "B" [plain1; plain2] true all_stored 6], "@alice", "A",
    [told1; told2], all_stored, 7, told2, "t2", {["!r" := [plain2]]}, [("!r", [plain2])], [], plain2.
  split; [honest_case|]. split; [right; left; reflexivity|]. split; [reflexivity|]. split.
  { intros (evs & ok & st & now & e & Hi & He & Eid & Et). destruct Hi as [E | [E | []]]; [|discriminate E].
    injection E as <- _ _ _. destruct He as [<- | []]. discriminate Eid. }
  split.
  { intros room l e El Hi. apply lookup_singleton_Some in El. destruct El as [_ <-]. destruct Hi as [<- | []]. vm_compute. reflexivity. }
  split; [split; [rewrite map_to_list_singleton; reflexivity | vm_compute; reflexivity]|].
  split; [apply (at_one "!r" plain2); repeat split|]. split; [reflexivity|]. split; [|reflexivity].
  split; [reflexivity | exists "t2"; reflexivity].
Qed.
Print Assumptions C74_sender_is_shown_refuted.
