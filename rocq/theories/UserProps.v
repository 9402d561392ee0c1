(** Properties of what is kept for a user about rooms. *)
From Verif Require Import Prelude RoomNameModel UserModel UserSpec UserProofs UserProofs2 UserProofs3.
Open Scope string_scope. Open Scope list_scope. Open Scope Z_scope.

(** After any calls. *)
Definition after (user : string) (l : list ucall) : ucache := ucalls user ucache0 l.

Local Lemma of_evs {A} (sets : list fact -> fact -> option A) (f : fact -> option A) l d v :
  (forall p x, sets p x = f x) -> v = evs f l d -> as_latest sets l d v.
Proof.
  intros Hf ->. rewrite <-evald_evs.
  assert (E : forall m, evald sets m d = evald (fun _ => f) m d).
  { intros m. induction m as [|x m IH] using rev_ind; [reflexivity|]. by rewrite !evald_snoc, Hf, IH. }
  rewrite <-E. apply evald_latest.
Qed.
Local Lemma get_field {A} (g : urd -> A) c room : (forall u, g (strip u) = g u) -> g (get c room) = g (sget c room).
Proof. intros H. by rewrite <-get_sget, H. Qed.

(** ** Counts *)
Theorem C69_notification_count user l room :
  as_latest (sets_notif room) (facts user l) 0 (u_notif (get (after user l) room)).
Proof.
  apply (of_evs _ (f_notif room)). { intros p []; reflexivity. }
  rewrite get_field by done. apply (runs_evs user u_notif (f_notif room) (fun _ => True)); [|done]. intros c x _. apply step_notif.
Qed.
Print Assumptions C69_notification_count.

Theorem C69_highlight_count user l room (is_pending : list fact -> bool) :
  (forall before, is_pending before = true <-> pending room before) ->
  as_latest (sets_high is_pending room) (facts user l) 0 (u_high (get (after user l) room)).
Proof.
  intros Hp. rewrite get_field by done. pose proof (runs_high user room l) as H. rewrite (high_eval is_pending room _ Hp) in H.
  apply (f_equal snd) in H. unfold hp in H. cbn [snd] in H. unfold after. rewrite H. apply evald_latest.
Qed.
Print Assumptions C69_highlight_count.

(** ** Invites *)
Theorem C69_invites user l room :
  (exists u, invites (after user l) !! room = Some u) <-> pending room (facts user l).
Proof.
  assert (E : u_invite (sget (after user l) room) = evs (f_pending room) (facts user l) false).
  { apply (runs_evs user u_invite (f_pending room) (fun _ => True)); [|done]. intros c x _. apply step_pending. }
  assert (Hp : pending room (facts user l) <-> u_invite (sget (after user l) room) = true).
  { unfold pending. split.
    - intros H. apply latest_unique in H. rewrite E, <-evald_evs, H.
      symmetry. clear. generalize (facts user l). intros m. induction m as [|x m IH] using rev_ind; [reflexivity|].
      rewrite !evald_snoc, <-IH. by destruct x.
    - intros H. apply (of_evs _ (f_pending room)). { by intros p []. } congruence. }
  rewrite Hp. unfold invites. pose proof (inv_runs user l room) as Hi. fold (after user l) in Hi.
  unfold sget in *. destruct (c_rooms (after user l) !! room) as [u|] eqn:Eu; cbn in *.
  - split.
    + intros (v & Hv). apply map_filter_lookup_Some in Hv as [Hv [H1 _]]. cbn in H1. congruence.
    + intros H. exists u. apply map_filter_lookup_Some. split; [exact Eu|]. cbn. split; [exact H|by apply Hi].
  - split; [|discriminate]. intros (v & Hv). apply map_filter_lookup_Some in Hv as [Hv _]. congruence.
Qed.
Print Assumptions C69_invites.
(** What is read from the invite when a room is flagged as one is there. *)
Theorem C69_invite_present user l room :
  u_invite (get (after user l) room) = true -> u_inv (get (after user l) room) <> None.
Proof. rewrite !get_field by done. apply inv_runs. Qed.
Print Assumptions C69_invite_present.

Theorem C69_invite_data user state :
  match new_invite user state with
  | None => last_where (mine user) state = None
  | Some i =>
      exists e, last_where (mine user) state = Some e
        /\ i_state i = state /\ i_event i = Some e /\ i_ts i = s_ts e /\ i_dm i = s_direct e
        /\ i_name i = said s_name "" (last_where (of_type "m.room.name") state)
        /\ i_avatar i = said s_url "" (last_where (of_type "m.room.avatar") state)
        /\ i_alias i = said s_alias "" (last_where (of_type "m.room.canonical_alias") state)
        /\ i_type i = said s_roomtype "" (last_where (of_type "m.room.create") state)
        /\ i_enc i = existsb (of_type "m.room.encryption") state
        /\ i_heroes i = map (fun e => mk_hero (s_key e) (s_display e) (s_avatar e)) (List.filter (other user) state)
  end.
Proof.
  unfold new_invite.
  assert (H : forall st, let i := fold_left (invite_step user) st (mk_invite state [] None "" "" "" 0 false false "") in
    i_event i = last_where (mine user) st
    /\ i_state i = state /\ i_ts i = said s_ts 0 (last_where (mine user) st) /\ i_dm i = said s_direct false (last_where (mine user) st)
    /\ i_name i = said s_name "" (last_where (of_type "m.room.name") st)
    /\ i_avatar i = said s_url "" (last_where (of_type "m.room.avatar") st)
    /\ i_alias i = said s_alias "" (last_where (of_type "m.room.canonical_alias") st)
    /\ i_type i = said s_roomtype "" (last_where (of_type "m.room.create") st)
    /\ i_enc i = existsb (of_type "m.room.encryption") st
    /\ i_heroes i = map (fun e => mk_hero (s_key e) (s_display e) (s_avatar e)) (List.filter (other user) st)).
  { intros st. cbv zeta. induction st as [|e st IH] using rev_ind; [by repeat split|].
    rewrite fold_left_app. cbn [fold_left]. revert IH. generalize (fold_left (invite_step user) st (mk_invite state [] None "" "" "" 0 false false "")).
    intros i (I1 & I2 & I3 & I4 & I5 & I6 & I7 & I8 & I9 & I10).
    unfold last_where in *. rewrite rev_app_distr. cbn [rev app List.find]. rewrite existsb_app, List.filter_app, map_app. cbn [existsb List.filter].
    unfold invite_step, mine, other, of_type in *. cbv zeta.
    destruct (String.eqb_spec (s_type e) "m.room.member") as [Et|N1].
    { rewrite ?Et. cbn [String.eqb Ascii.eqb Bool.eqb andb negb orb]. rewrite (String.eqb_sym user).
      destruct (String.eqb_spec (s_key e) user) as [Ek|Nk]; cbn [andb negb i_event i_state i_ts i_dm i_name i_avatar i_alias i_type i_enc i_heroes said].
      - rewrite !orb_false_r, app_nil_r. repeat split; assumption.
      - destruct (String.eqb_spec (s_key e) (s_sender e)); cbn [i_event i_state i_ts i_dm i_name i_avatar i_alias i_type i_enc i_heroes map];
          rewrite !orb_false_r, ?app_nil_r; repeat split; try assumption. by rewrite I10. }
    cbn [andb]. rewrite app_nil_r.
    destruct (String.eqb_spec (s_type e) "m.room.name") as [Et|N2]; [rewrite ?Et; cbn; rewrite ?orb_false_r; repeat split; assumption|].
    destruct (String.eqb_spec (s_type e) "m.room.avatar") as [Et|N3]; [rewrite ?Et; cbn; rewrite ?orb_false_r; repeat split; assumption|].
    destruct (String.eqb_spec (s_type e) "m.room.canonical_alias") as [Et|N4]; [rewrite ?Et; cbn; rewrite ?orb_false_r; repeat split; assumption|].
    destruct (String.eqb_spec (s_type e) "m.room.encryption") as [Et|N5]; [rewrite ?Et; cbn; rewrite ?orb_true_r; repeat split; assumption|].
    destruct (String.eqb_spec (s_type e) "m.room.create") as [Et|N6]; [rewrite ?Et; cbn; rewrite ?orb_false_r; repeat split; assumption|].
    cbn. rewrite !orb_false_r. repeat split; assumption. }
  specialize (H state). cbv zeta in H. destruct H as (H1 & H2 & H3 & H4 & H5 & H6 & H7 & H8 & H9 & H10).
  revert H1 H2 H3 H4 H5 H6 H7 H8 H9 H10. generalize (fold_left (invite_step user) state (mk_invite state [] None "" "" "" 0 false false "")).
  intros i. destruct (i_event i) as [e|] eqn:Ee; intros H1 H2 H3 H4 H5 H6 H7 H8 H9 H10; [|by symmetry].
  exists e. rewrite <-H1 in H3, H4. by repeat split.
Qed.
Print Assumptions C69_invite_data.

(** ** Direct messages, tags, ignored users *)
Theorem C69_direct user l room : as_latest (sets_dm room) (facts user l) false (u_dm (get (after user l) room)).
Proof.
  apply (of_evs _ (f_dm room)). { intros p []; reflexivity. }
  rewrite get_field by done. apply (runs_evs user u_dm (f_dm room) (fun _ => True)); [|done]. intros c x _. apply step_dm.
Qed.
Print Assumptions C69_direct.

Theorem C69_tags user l room : rows_ok l -> as_latest (sets_tags room) (facts user l) ∅ (u_tags (get (after user l) room)).
Proof.
  intros Hok. apply (of_evs _ (f_tags room)). { intros p []; reflexivity. }
  rewrite get_field by done.
  apply (runs_evs user u_tags (f_tags room) (fun x => match x with CAccount l _ => List.NoDup (map (fun a => (d_room a, d_type a)) l) | _ => True end)).
  - intros c x. apply step_tags.
  - intros [] Hx; try exact I. by apply (Hok _ order).
Qed.
Print Assumptions C69_tags.

Theorem C69_ignored user l : as_latest sets_ignored (facts user l) ∅ (c_ignored (after user l))
  /\ forall other, should_ignore (after user l) other = true <-> other ∈ c_ignored (after user l).
Proof.
  split; [|intros o; unfold should_ignore; by rewrite bool_decide_eq_true].
  apply (of_evs _ (sets_ignored [])). { intros p []; reflexivity. }
  unfold after. induction l as [|x l IH] using rev_ind; [reflexivity|].
  unfold ucalls in *. rewrite fold_left_app. cbn [fold_left]. rewrite ignored_step, IH. unfold facts. rewrite flat_map_app, evs_app. cbn [flat_map]. by rewrite app_nil_r.
Qed.
Print Assumptions C69_ignored.

(** ** Having left *)
(** The flag which keeps a room out of lists. *)
Theorem C69_left_flag user l room : as_latest (sets_left room) (facts user l) false (u_left (get (after user l) room)).
Proof.
  apply (of_evs _ (f_left room)). { intros p []; reflexivity. }
  rewrite get_field by done. apply (runs_evs user u_left (f_left room) (fun _ => True)); [|done]. intros c x _. apply step_left.
Qed.
Print Assumptions C69_left_flag.
(** If the user only ever comes back to a room by an invite, it is set exactly when the
    user is out of the room. *)
Theorem C69_left_partial user l room :
  (forall l1 l2, facts user l = l1 ++ Own room "join" :: l2 -> as_latest (sets_left room) l1 false false) ->
  as_latest (sets_out room) (facts user l) false (u_left (get (after user l) room)).
Proof.
  intros Hj. assert (E : u_left (get (after user l) room) = evald (sets_left room) (facts user l) false).
  { symmetry. pose proof (C69_left_flag user l room) as H. by apply latest_unique in H. }
  rewrite E. clear E.
  assert (H : forall m rest, facts user l = m ++ rest -> evald (sets_left room) m false = evald (sets_out room) m false).
  { induction m as [|x m IH] using rev_ind; intros rest Em; [reflexivity|]. rewrite <-app_assoc in Em. specialize (IH _ Em).
    rewrite !evald_snoc, <-IH. destruct x; try reflexivity. cbn. destruct (String.eqb_spec room0 room) as [->|N]; [|reflexivity].
    destruct (String.eqb_spec membership "join") as [->|N]; [|reflexivity]. cbn. specialize (Hj m rest Em). apply latest_unique in Hj. by rewrite <-Hj. }
  rewrite (H (facts user l) []) by (by rewrite app_nil_r). apply evald_latest.
Qed.
Print Assumptions C69_left_partial.
(** A user who leaves a room and joins it again, without an invite, is still taken to have
    left it: the room stays out of the lists. *)
Definition leave : uevent := mk_uevent "!r" "m.room.member" (Some "@a") "leave" false "@a".
Definition join : uevent := mk_uevent "!r" "m.room.member" (Some "@a") "join" false "@a".
Theorem C69_rejoined_refuted :
  let l := [CEvent join false; CLeft "!r" leave; CEvent join false] in
  as_latest (sets_out "!r") (facts "@a" l) false false /\ u_left (get (after "@a" l) "!r") = true.
Proof.
  cbv zeta. split; [|vm_compute; reflexivity].
  apply (of_evs _ (fun f => sets_out "!r" [] f)). { by intros p []. } vm_compute. reflexivity.
Qed.
Print Assumptions C69_rejoined_refuted.

(** ** Direct messages and account data of a room *)
(** Account data of the type m.direct that belongs to a room counts as the list of direct
    messages. *)
Theorem C69_direct_in_room_refuted :
  exists l, (forall d order x, In (CAccount d order) l -> In x d -> d_room x = "" -> d_type x = "m.direct" -> d_direct x = ["!a"])
    /\ In (CAccount [mk_adata "" "m.direct" ["!a"] [] None] [""]) l
    /\ u_dm (get (after "@a" l) "!a") = false.
Proof.
  exists [CAccount [mk_adata "" "m.direct" ["!a"] [] None] [""]; CAccount [mk_adata "!r" "m.direct" [] [] None] ["!r"]].
  split; [|split; [by left|vm_compute; reflexivity]].
  intros d order x [[= <- <-]|[[= <- <-]|[]]] [<-|[]] Hr _; [reflexivity|discriminate].
Qed.
Print Assumptions C69_direct_in_room_refuted.

(** ** Spaces *)
Theorem C69_spaces_partial user l parent child :
  no_own_child user l ->
  as_latest (sets_child parent child) (facts user l) false (bool_decide (parent ∈ spaces (after user l) child)).
Proof.
  intros Hno. apply (of_evs _ (f_child parent child)). { intros p []; reflexivity. }
  exact (proj2 (runs_child user l parent child Hno)).
Qed.
Print Assumptions C69_spaces_partial.
(** A room that names itself as its child, when nothing is known about it yet. *)
Definition own_child : uevent := mk_uevent "!r" "m.space.child" (Some "!r") "" true "@a".
Theorem C69_own_child_refuted :
  let l := [CEvent own_child true] in
  as_latest (sets_child "!r" "!r") (facts "@a" l) false true /\ spaces (after "@a" l) "!r" = ∅.
Proof.
  cbv zeta. split.
  - apply (of_evs _ (f_child "!r" "!r")). { by intros p []. } vm_compute. reflexivity.
  - vm_compute. reflexivity.
Qed.
Print Assumptions C69_own_child_refuted.
(** The map of spaces in an update is the one of the cache: what an update says about the
    spaces of a room changes after the update was made. *)
Definition child_of (p c : string) : uevent := mk_uevent p "m.space.child" (Some c) "" true "@a".
Theorem C69_update_changes_refuted :
  let before := after "@a" [CTyping "!c"; CEvent (child_of "!s" "!c") false; CTyping "!c"] in
  let later := after "@a" [CTyping "!c"; CEvent (child_of "!s" "!c") false; CTyping "!c"; CEvent (child_of "!t" "!c") false] in
  exists u, In (RoomUp "!c" u FromGlobal KTyping) (c_out before)
    /\ elements (default ∅ (c_heap before !! u_spaces u)) = ["!s"]
    /\ elements (default ∅ (c_heap later !! u_spaces u)) = ["!t"; "!s"].
Proof.
  cbv zeta. eexists. split; [|split].
  - vm_compute. right. right. left. reflexivity.
  - vm_compute. reflexivity.
  - vm_compute. reflexivity.
Qed.
Print Assumptions C69_update_changes_refuted.

(** ** When the user joined *)
Theorem C69_join_timing user l room : as_latest (sets_timing room) (facts user l) (0, 0) (u_timing (get (after user l) room)).
Proof.
  apply (of_evs _ (f_timing room)). { intros p []; reflexivity. }
  rewrite get_field by done. apply (runs_evs user u_timing (f_timing room) (fun _ => True)); [|done]. intros c x _. apply step_timing.
Qed.
Print Assumptions C69_join_timing.

(** ** Updates *)
(** Every call tells the listeners exactly what it changed, after what was told before, with
    what is known when the call is done; an invite's update has the metadata of the
    invite itself, and leaving gives nothing away about the room. *)
Theorem C69_updates user l x :
  exists ups, c_out (after user (l ++ [x])) = c_out (after user l) ++ ups
    /\ map told1 ups = tells user (after user l) x
    /\ forall room u s k, In (RoomUp room u s k) ups ->
         in_update u = known (after user (l ++ [x])) room
         /\ match k with
            | KInvite => exists i m, u_inv u = Some i /\ s = FromInvite m /\ of_the_invite room i m
            | KLeave _ _ => s = FromNothing
            | _ => s = FromGlobal
            end.
Proof.
  unfold after, ucalls. rewrite fold_left_app. cbn [fold_left].
  destruct (step_tells user (fold_left (ucall1 user) l ucache0) x) as (ups & E1 & E2 & E3). exists ups. split; [exact E1|]. split; [exact E2|].
  intros room u s k Hin. destruct (E3 room u s k Hin) as [F1 F2]. split; [exact F1|]. destruct k; try exact F2.
  destruct F2 as (i & Ei & ->). exists i, (invite_meta room i). split; [exact Ei|]. split; [reflexivity|]. repeat split.
  cbn. destruct (String.eqb_spec (i_type i) ""); destruct (decide (i_type i = "")); congruence.
Qed.
Print Assumptions C69_updates.

(** ** A case *)
Definition st (ty key sender name display : string) : istate := mk_istate ty key sender name "" "" display "" "" true 7.
Definition invite_st : list istate :=
  [st "m.room.member" "@b" "@b" "" "Bob"; st "m.room.name" "" "@b" "Hello" ""; st "m.room.member" "@a" "@b" "" "Alice"].
Definition some_calls : list ucall :=
  [CRegistered [mk_jroom "!s" [("!c", true)] (3, 4)];
   CAccount [mk_adata "" "m.direct" ["!d"] [] None; mk_adata "!c" "m.tag" [] [("m.favourite", "0.5")] None;
             mk_adata "" "m.ignored_user_list" [] [] (Some ["@mallory"])] [""; "!c"];
   CUnread "!c" (Some 2) (Some 5); CInvite "!i" invite_st; CUnread "!c" None (Some 3); CEvent (child_of "!t" "!c") false;
   CInvite "!j" invite_st; CEvent (mk_uevent "!j" "m.room.member" (Some "@a") "join" false "@a") false;
   CLeft "!d" (mk_uevent "!d" "m.room.member" (Some "@a") "leave" false "@b")].
Example C69_example :
  let c := after "@a" some_calls in
  (u_notif (get c "!c"), u_high (get c "!c"), map_to_list (u_tags (get c "!c"))) = (3, 2, [("m.favourite", "0.5")])
  /\ (u_high (get c "!i"), u_high (get c "!j"), u_dm (get c "!d"), u_left (get c "!d")) = (1, 0, true, true)
  /\ map fst (map_to_list (invites c)) = ["!i"] /\ should_ignore c "@mallory" = true /\ u_timing (get c "!s") = (3, 4)
  /\ elements (spaces c "!c") = ["!t"; "!s"]
  /\ map told1 (drop 4 (c_out c)) = [("!i", KInvite); ("!c", KUnread true); ("!t", KEvent (child_of "!t" "!c")); ("!j", KInvite);
       ("!j", KEvent (mk_uevent "!j" "m.room.member" (Some "@a") "join" false "@a"));
       ("!d", KLeave (mk_uevent "!d" "m.room.member" (Some "@a") "leave" false "@b") true)]
  /\ option_map (fun i => (i_name i, i_heroes i, i_dm i)) (u_inv (get c "!i")) = Some ("Hello", [mk_hero "@b" "Bob" ""], true).
Proof. cbv zeta. do 7 (split; [vm_compute; reflexivity|]). vm_compute. reflexivity. Qed.
Example C69_hypotheses : rows_ok some_calls /\ no_own_child "@a" some_calls.
Proof.
  split.
  - intros d order Hd.
    assert (E : map (fun c => match c with CAccount d _ => map (fun x => (d_room x, d_type x)) d | _ => [] end) some_calls
      = [[]; [("", "m.direct"); ("!c", "m.tag"); ("", "m.ignored_user_list")]; []; []; []; []; []; []; []]) by reflexivity.
    apply (in_map (fun c => match c with CAccount d _ => map (fun x => (d_room x, d_type x)) d | _ => [] end)) in Hd. rewrite E in Hd.
    revert Hd. generalize (map (fun x => (d_room x, d_type x)) d). clear. intros m Hm. cbn in Hm.
    repeat (destruct Hm as [<-|Hm]; [repeat constructor; cbn; intros H; repeat (destruct H as [H|H]; [discriminate|]); exact H|]). destruct Hm.
  - intros p c b Hf.
    assert (E : List.filter (fun f => match f with Child _ _ _ => true | _ => false end) (facts "@a" some_calls) = [Child "!s" "!c" true; Child "!t" "!c" true]) by (vm_compute; reflexivity).
    assert (Hi : In (Child p c b) [Child "!s" "!c" true; Child "!t" "!c" true]) by (rewrite <-E; apply filter_In; by split).
    destruct Hi as [[= <- <- <-]|[[= <- <- <-]|[]]]; discriminate.
Qed.
