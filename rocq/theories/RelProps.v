(** C57, C47: space relations and invites in the event store. *)
From Verif Require Import Prelude AccumModel AccumSpec AccumProofs AccumProofs3 AccumProofs4 AccumProofs5 AccumProofs6 AccumProps RelSpec RelProofs.
Open Scope string_scope.
Open Scope list_scope.
Open Scope Z_scope.

(** * C57: space relations *)
(** Batches of events, each of one room (as all callers have it; the model relies on it),
    given one after the other to HandleSpaceUpdates: a relation is
    stored exactly if the last event about it holds, with the details of that event; one
    which no event is about stays as it was. *)
Theorem C57_batches : forall batches d k s,
  (forall b, b ∈ batches -> exists rm, forall e, e ∈ b -> e_room e = rm) ->
  d_spaces (fold_left space_updates batches d) !! k = Some s <->
  (exists e, last_about (mjoin batches) k e /\ holds e /\ s = details e) \/
  ((forall e, e ∈ mjoin batches -> ~ about k e) /\ d_spaces d !! k = Some s).
Proof.
  intros batches d k s _.
  assert (H : d_spaces (fold_left space_updates batches d) !! k = rel_fold k (mjoin batches) (d_spaces d !! k)).
  { revert d. induction batches as [|b bs IH]; intros d; [done|]. cbn [fold_left]. rewrite IH, updates_lookup.
    change (mjoin (b :: bs)) with (b ++ mjoin bs). by rewrite fold_app. }
  rewrite H. destruct (last_or_none k (mjoin batches)) as [[e He]|Hn].
  - rewrite (fold_last _ _ _ _ He). split.
    + intros Hs. left. exists e. unfold holds. destruct (r_via (e_json e)); [|done]. by simplify_eq.
    + intros [(e' & He' & Hv & ->)|[Hno _]].
      * rewrite <-(fold_last _ _ None _ He), (fold_last _ _ _ _ He'). unfold holds in Hv. by rewrite Hv.
      * destruct He as (pre & post & Heq & Ha & _). exfalso. apply (Hno e); [|done]. rewrite Heq. apply elem_of_app. right.
        apply elem_of_list_here.
  - rewrite fold_none by done. split; [by right|]. intros [(e' & (pre & post & Heq & Ha & _) & _)|[_ ?]]; [|done].
    exfalso. apply (Hn e'); [|done]. rewrite Heq. apply elem_of_app. right. apply elem_of_list_here.
Qed.
Print Assumptions C57_batches.

(** Over every history of state blocks, timelines, clean-ups and invites, the stored
    relations are those whose last stored event holds.  Partial: [steady] asks that
    state blocks do not bring back old space events and that no redaction names one; the
    next two theorems show that it fails otherwise. *)
Theorem C57_stored_relations_partial : forall ord redact ops k s,
  ord_ok ord -> redact_ok redact -> Forall good_op ops -> steady ord redact ops empty_db ->
  let d := runs ord redact ops empty_db in
  d_spaces d !! k = Some s <-> exists e, last_about (d_events d) k e /\ holds e /\ s = details e.
Proof.
  intros ord redact ops k s Ho Hr Hg Hst d.
  assert (Hs : sinv d).
  { apply (runs_sinv ord redact ops Ho Hr true); [apply empty_inv|done|done|apply empty_sinv]. }
  rewrite (Hs k). apply fold_spec.
Qed.
Print Assumptions C57_stored_relations_partial.

Definition child (id to : string) (via : bool) : raw :=
  Raw id (Some "m.space.child") (Some to) "" false "@a" "" via "1" false None None "" "".
Definition parent (id to : string) (via : bool) : raw :=
  Raw id (Some "m.space.parent") (Some to) "" false "@a" "" via "" false None None "" "".
(** A space with two children, one of which is removed. *)
Definition space_ops : list op :=
  [Initialise "!s" [ev "create" "m.room.create" (Some ""); child "c1" "!x" true; parent "p1" "!top" true];
   Accumulate "!s" (Timeline [child "c2" "!y" true; child "c3" "!x" false] false "");
   Initialise "!s" [ev "create" "m.room.create" (Some ""); child "c3" "!x" false; ev "topic" "m.room.topic" (Some "")]].
Example C57_example : steady id keep space_ops empty_db /\
  map fst (map_to_list (d_spaces (runs id keep space_ops empty_db))) = [("!s", "!y", 2); ("!top", "!s", 1)].
Proof.
  split.
  - cbn [steady space_ops]. split; [|split; [|split; [|done]]].
    + split; [cbn; apply NoDup_cons; split; [|apply NoDup_singleton]; intros Hin; apply elem_of_list_singleton in Hin; discriminate|].
      intros r e _ _ He. by apply elem_of_nil in He.
    + intros r Hr Ht. cbn in Hr. apply elem_of_cons in Hr as [-> |Hr]; [done|]. apply elem_of_list_singleton in Hr as ->. done.
    + split; [cbn; apply NoDup_singleton|]. intros r e Hr Hsp He Hid.
      assert (r = child "c3" "!x" false) as ->.
      { apply elem_of_cons in Hr as [-> |Hr]; [done|]. apply elem_of_cons in Hr as [-> |Hr]; [done|].
        apply elem_of_list_singleton in Hr as ->. done. }
      match type of He with e ∈ ?l =>
        let v := eval vm_compute in l in assert (HD : l = v) by (vm_compute; reflexivity); rewrite HD in He |- * end.
      repeat (apply elem_of_cons in He as [He|He]; [try (rewrite He in Hid; discriminate)|]); [|by apply elem_of_nil in He].
      rewrite He. split; [done|]. split; [done|]. exists ("!s", "!x", 2).
      match goal with |- last_about [?a; ?b; ?c; ?x; ?y] _ _ => exists [a; b; c; x], [] end.
      split; [done|]. split; [split; [done|by left]|]. intros x Hx. by apply elem_of_nil in Hx.
  - vm_compute. reflexivity.
Qed.

(** A state block which still has the old event, and something new besides, brings the
    removed child back. *)
Definition stale_ops : list op :=
  [Initialise "!s" [ev "create" "m.room.create" (Some ""); child "c1" "!x" true];
   Accumulate "!s" (Timeline [child "c2" "!x" false] false "");
   Initialise "!s" [ev "create" "m.room.create" (Some ""); child "c1" "!x" true; ev "topic" "m.room.topic" (Some "")]].
Lemma stale_good : Forall good_op stale_ops.
Proof.
  repeat constructor; try (by apply ev_good); try (by apply not_elem_of_nil);
    try (by intros ty [= <-]; apply no_sepb_ok);
    intros Hin; repeat (apply elem_of_cons in Hin as [Hin|Hin]; [discriminate|]); by apply elem_of_nil in Hin.
Qed.
Theorem C57_old_state_block_refuted :
  ~ (forall ord redact ops k s,
  ord_ok ord -> redact_ok redact -> Forall good_op ops ->
  d_spaces (runs ord redact ops empty_db) !! k = Some s ->
  exists e, last_about (d_events (runs ord redact ops empty_db)) k e /\ holds e).
Proof.
  intros H. specialize (H id keep stale_ops ("!s", "!x", 2) (Space "1" false) id_ok keep_ok stale_good).
  destruct H as (e & He & Hh); [vm_compute; reflexivity|].
  assert (Hf : rel_fold ("!s", "!x", 2) (d_events (runs id keep stale_ops empty_db)) None = None) by (vm_compute; reflexivity).
  rewrite (fold_last _ _ _ _ He) in Hf. unfold holds in Hh. rewrite Hh in Hf. clear -Hf. discriminate.
Qed.
Print Assumptions C57_old_state_block_refuted.

(** Redacting the event does not remove the relation, though the stored event no longer
    has a via list. *)
Definition redacted_ops : list op :=
  [Initialise "!s" [ev "create" "m.room.create" (Some ""); child "c1" "!x" true];
   Accumulate "!s" (Timeline [redaction "r" "c1"] false "")].
Lemma redacted_good : Forall good_op redacted_ops.
Proof.
  repeat constructor; try (by apply ev_good); try (by apply not_elem_of_nil);
    try (by intros ty [= <-]; apply no_sepb_ok);
    intros Hin; repeat (apply elem_of_cons in Hin as [Hin|Hin]; [discriminate|]); by apply elem_of_nil in Hin.
Qed.
Theorem C57_redacted_relation_refuted :
  ~ (forall ord redact ops k s,
  ord_ok ord -> redact_ok redact -> Forall good_op ops ->
  (forall rm st, Initialise rm st ∈ ops -> forall rm' st', Initialise rm' st' ∈ ops -> rm = rm' /\ st = st') ->
  d_spaces (runs ord redact ops empty_db) !! k = Some s ->
  exists e, last_about (d_events (runs ord redact ops empty_db)) k e /\ holds e).
Proof.
  intros H. specialize (H id blank redacted_ops ("!s", "!x", 2) (Space "1" false) id_ok blank_ok redacted_good).
  destruct H as (e & He & Hh).
  { intros rm st H1 rm' st' H2. apply elem_of_cons in H1 as [H1|H1]; [|apply elem_of_list_singleton in H1; discriminate].
    apply elem_of_cons in H2 as [H2|H2]; [|apply elem_of_list_singleton in H2; discriminate]. by simplify_eq. }
  { vm_compute; reflexivity. }
  assert (Hf : rel_fold ("!s", "!x", 2) (d_events (runs id blank redacted_ops empty_db)) None = None) by (vm_compute; reflexivity).
  rewrite (fold_last _ _ _ _ He) in Hf. unfold holds in Hh. rewrite Hh in Hf. clear -Hf. discriminate.
Qed.
Print Assumptions C57_redacted_relation_refuted.

(** * C47: invites *)
(** Over every history, an invite is stored exactly if it was received, neither another
    invite nor a withdrawal for that user and room came later, and no later state block
    or timeline brought the news that the user is not invited.  Partial: news which are
    stored already do not count, and news in a state block count even if they are old; the
    two theorems after the example show what goes wrong. *)
Theorem C47_stored_invites_partial : forall ord redact ops u rm i,
  ord_ok ord -> redact_ok redact -> Forall good_op ops ->
  d_invites (runs ord redact ops empty_db) !! (u, rm) = Some i <->
  exists pre post, ops = pre ++ Invite u rm i :: post /\
    (forall i', Invite u rm i' ∉ post) /\ Retire u rm ∉ post /\
    (forall a o b, post = a ++ o :: b ->
       ~ answers ord redact (runs ord redact (pre ++ Invite u rm i :: a) empty_db) o u rm).
Proof.
  intros ord redact ops u rm i Ho Hr. induction ops as [|o ops IH] using rev_ind; intros Hg.
  { cbn. rewrite lookup_empty. split; [done|]. intros ([|] & post & Heq & _); discriminate. }
  apply Forall_app in Hg as [Hg Hgo]. apply Forall_cons in Hgo as [Hgo _]. specialize (IH Hg).
  assert (Hi : exists k, Inv k (runs ord redact ops empty_db)) by (apply (reached_inv ord redact); [done..|by exists ops]).
  destruct Hi as [k Hi]. rewrite runs_app. cbn [runs fold_left].
  change (fold_left (fun d o => run ord redact o d) [o] (runs ord redact ops empty_db)) with (run ord redact o (runs ord redact ops empty_db)).
  destruct (run_invite ord redact k o _ u rm Hi Hgo) as [(i' & -> & ->)|[[-> ->]|(Hni & Hnr & Hans)]].
  - split.
    + intros [= ->]. exists ops, []. split; [done|]. split; [intros ? Hin; by apply elem_of_nil in Hin|].
      split; [intros Hin; by apply elem_of_nil in Hin|]. intros [|] ? ? ?; discriminate.
    + intros (pre & post & Heq & Hno & _). destruct post as [|x post _] using rev_ind.
      * apply app_inj_tail in Heq as [_ [= ->]]. done.
      * rewrite app_comm_cons, app_assoc in Heq. apply app_inj_tail in Heq as [_ <-]. exfalso. apply (Hno i').
        apply elem_of_app. right. apply elem_of_list_here.
  - split; [done|]. intros (pre & post & Heq & _ & Hno & _). destruct post as [|x post _] using rev_ind.
    + apply app_inj_tail in Heq as [_ ?]. done.
    + rewrite app_comm_cons, app_assoc in Heq. apply app_inj_tail in Heq as [_ <-]. exfalso. apply Hno.
      apply elem_of_app. right. apply elem_of_list_here.
  - split.
    + intros Hs. destruct Hans as [[_ Hn]|[Hna Hsame]]; [congruence|]. rewrite Hsame in Hs.
      apply IH in Hs as (pre & post & Heq & H1 & H2 & H3). exists pre, (post ++ [o]). subst ops.
      split; [by rewrite <-app_assoc|]. split; [|split].
      * intros i' Hin. apply elem_of_app in Hin as [Hin|Hin]; [by apply (H1 i')|]. apply elem_of_list_singleton in Hin. by apply (Hni i').
      * intros Hin. apply elem_of_app in Hin as [Hin|Hin]; [by apply H2|]. apply elem_of_list_singleton in Hin. by apply Hnr.
      * intros a x b Hab. destruct b as [|y b _] using rev_ind.
        -- apply app_inj_tail in Hab as [-> ->]. done.
        -- rewrite app_comm_cons, app_assoc in Hab. apply app_inj_tail in Hab as [-> ->]. by eapply H3.
    + intros (pre & post & Heq & H1 & H2 & H3). destruct post as [|x post _] using rev_ind.
      { apply app_inj_tail in Heq as [_ ->]. exfalso. by apply (Hni i). }
      rewrite app_comm_cons, app_assoc in Heq. apply app_inj_tail in Heq as [Heq <-]. subst ops.
      destruct Hans as [[Ha _]|[_ ->]].
      { exfalso. by apply (H3 post o []). }
      apply IH. exists pre, post. split; [done|]. split; [|split].
      * intros i' Hin. apply (H1 i'), elem_of_app. by left.
      * intros Hin. apply H2, elem_of_app. by left.
      * intros a y b ->. apply (H3 a y (b ++ [o])). by rewrite <-app_assoc.
Qed.
Print Assumptions C47_stored_invites_partial.

(** An invite, an answer by another user, and a withdrawal. *)
Definition invite_ops : list op :=
  [Invite "@b" "!r" "old"; Invite "@c" "!r" "inv"; Invite "@b" "!r" "new"; Invite "@d" "!r" "inv";
   Initialise "!r" [ev "create" "m.room.create" (Some ""); mem "jc" "@c" "join"; mem "ib" "@b" "invite"];
   Retire "@d" "!r"; Accumulate "!r" (Timeline [mem "x" "@c" "leave"; ev "m" "m.room.message" None] false "")].
Example C47_example :
  map (fun u => d_invites (runs id keep invite_ops empty_db) !! (u, "!r")) ["@b"; "@c"; "@d"] = [Some "new"; None; None].
Proof. vm_compute. reflexivity. Qed.

Definition last_membership (d : db) (rm u ms : string) : Prop :=
  exists pre e post, d_events d = pre ++ e :: post /\ e_room e = rm /\ e_type e = "m.room.member" /\ e_skey e = u /\ e_member e = ms /\
    forall x, x ∈ post -> e_room x = rm -> e_type x = "m.room.member" -> e_skey x <> u.
(** One device of the user is behind: it delivers the invite after the join is stored, and
    then the join, which changes nothing.  The invite stays although the user has
    joined. *)
Definition late_ops : list op :=
  [Initialise "!r" [ev "create" "m.room.create" (Some ""); mem "ib" "@b" "invite"];
   Accumulate "!r" (Timeline [mem "jb" "@b" "join"] false "");
   Invite "@b" "!r" "inv";
   Initialise "!r" [ev "create" "m.room.create" (Some ""); mem "ib" "@b" "invite"];
   Accumulate "!r" (Timeline [mem "jb" "@b" "join"] false "")].
Theorem C47_late_invite_refuted :
  exists d, reached id keep d /\ last_membership d "!r" "@b" "join" /\
    (exists i, d_invites d !! ("@b", "!r") = Some i) /\
    (exists ops t, d = runs id keep (ops ++ [Invite "@b" "!r" "inv"; t; Accumulate "!r" (Timeline [mem "jb" "@b" "join"] false "")]) empty_db).
Proof.
  exists (runs id keep late_ops empty_db). split; [|split; [|split]].
  - exists late_ops. split; [|done].
    repeat constructor; try (by apply ev_good); try (by apply mem_good); try (by apply not_elem_of_nil);
    intros Hin; repeat (apply elem_of_cons in Hin as [Hin|Hin]; [discriminate|]); by apply elem_of_nil in Hin.
  - unfold last_membership. match goal with |- exists pre e post, ?l = _ /\ _ =>
        let v := eval vm_compute in l in assert (HD : l = v) by (vm_compute; reflexivity); rewrite HD end.
    match goal with |- exists pre e post, [?a; ?b; ?c] = _ /\ _ => exists [a; b], c, [] end. repeat split.
    intros x Hx. by apply elem_of_nil in Hx.
  - exists "inv". vm_compute. reflexivity.
  - eexists (take 2 late_ops), _. unfold late_ops. cbn [take app]. reflexivity.
Qed.
Print Assumptions C47_late_invite_refuted.

(** A state block which is behind withdraws an invite which is still pending. *)
Definition early_ops : list op :=
  [Initialise "!r" [ev "create" "m.room.create" (Some ""); mem "lb" "@b" "leave"];
   Accumulate "!r" (Timeline [mem "ib" "@b" "invite"] false "");
   Invite "@b" "!r" "inv";
   Initialise "!r" [ev "create" "m.room.create" (Some ""); mem "lb" "@b" "leave"; ev "topic" "m.room.topic" (Some "")]].
Theorem C47_invite_lost_refuted :
  exists d, reached id keep d /\ last_membership d "!r" "@b" "invite" /\
    d_invites d !! ("@b", "!r") = None /\
    (exists ops st, d = runs id keep (ops ++ [Invite "@b" "!r" "inv"; Initialise "!r" st]) empty_db).
Proof.
  exists (runs id keep early_ops empty_db). split; [|split; [|split]].
  - exists early_ops. split; [|done].
    repeat constructor; try (by apply ev_good); try (by apply mem_good); try (by apply not_elem_of_nil);
    intros Hin; repeat (apply elem_of_cons in Hin as [Hin|Hin]; [discriminate|]); by apply elem_of_nil in Hin.
  - unfold last_membership. match goal with |- exists pre e post, ?l = _ /\ _ =>
        let v := eval vm_compute in l in assert (HD : l = v) by (vm_compute; reflexivity); rewrite HD end.
    match goal with |- exists pre e post, [?a; ?b; ?c; ?x] = _ /\ _ => exists [a; b], c, [x] end. repeat split.
    intros x Hx. apply elem_of_list_singleton in Hx as ->. done.
  - vm_compute. reflexivity.
  - eexists (take 2 early_ops), _. unfold early_ops. cbn [take app]. reflexivity.
Qed.
Print Assumptions C47_invite_lost_refuted.
