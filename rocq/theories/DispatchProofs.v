From Verif Require Import Prelude TrackerModel TrackerSpec TrackerProofs DispatchModel DispatchSpec.
Open Scope string_scope.
Open Scope list_scope.

Section proofs.
  Context (ord : list string -> list string).
  Context (Hord : forall l, ord l ≡ₚ l).

  (** The tracker part of OnNewEvent. *)
  Definition track (t : tracker) (room : string) (ev : rawev) : tracker :=
    match member_change ev with
    | Some (v, m) =>
        if String.eqb m "invite" then users_invited_to_room t [v] room
        else if String.eqb m "join" then (user_joined_room t v room).1
        else if String.eqb m "ban" || String.eqb m "leave" then (user_left_room t v room).1
        else t
    | None => t
    end.

  Definition target_of (ev : rawev) : string :=
    match member_change ev with Some (v, _) => v | None => "" end.
  Definition force_of (t : tracker) (room : string) (ev : rawev) : bool :=
    match member_change ev with
    | Some (v, m) => String.eqb m "join" && (user_joined_room t v room).2
    | None => false
    end.
  Definition left_of (t : tracker) (room : string) (ev : rawev) : bool :=
    match member_change ev with
    | Some (v, m) => (String.eqb m "ban" || String.eqb m "leave") && (user_left_room t v room).2
    | None => false
    end.
  Definition invites_of (t : tracker) (room : string) (ev : rawev) : nat :=
    match member_change ev with
    | Some _ => num_invited (track t room ev) room
    | None => 0
    end.

  Lemma on_new_event_eq d room ev nid mid :
    on_new_event ord d room ev nid mid =
    let t' := track (d_jrt d) room ev in
    let R' := foldl reg_step (d_recv d) mid in
    let users := ord (joined_users_for_room t' room (has_receiver (d_recv d))).1 ++
                 (if left_of (d_jrt d) room ev then [target_of ev] else []) in
    (mk_dispatcher t' R',
     notify_listeners R'
       (mk_edata ev room nid (invites_of (d_jrt d) room ev)
          (joined_users_for_room t' room (has_receiver (d_recv d))).2 false)
       users (target_of ev) (force_of (d_jrt d) room ev)).
  Proof.
    unfold on_new_event, track, target_of, force_of, left_of, invites_of, track, member_change.
    destruct (ev_skey ev) as [v|].
    - destruct (ev_type ev =? "m.room.member")%string; [|cbn; by rewrite app_nil_r].
      destruct (String.eqb_spec (ev_membership ev) "invite") as [->|].
      { cbn. by rewrite app_nil_r. }
      destruct (String.eqb_spec (ev_membership ev) "join") as [->|].
      { destruct (user_joined_room (d_jrt d) v room) as [j new]. cbn. by rewrite app_nil_r. }
      destruct (_ || _) eqn:E.
      + destruct (user_left_room (d_jrt d) v room) as [j was]. cbn.
        destruct was; [done|]. by rewrite app_nil_r.
      + cbn. by rewrite app_nil_r.
    - destruct (ev_type ev =? "m.room.member")%string; cbn; by rewrite app_nil_r.
  Qed.

  Lemma tinv_track t (J I : string -> string -> Prop) room ev :
    tinv t J I ->
    tinv (track t room ev)
      (fun u r => if String.eqb r room then joined_by ev u (J u r) else J u r)
      (fun u r => if String.eqb r room then invited_by ev u (I u r) else I u r).
  Proof.
    intros Hi. unfold track, joined_by, invited_by, is_leave.
    destruct (member_change ev) as [[v m]|].
    2: { eapply tinv_ext; [| |exact Hi]; intros u r; cbn; by destruct (String.eqb r room). }
    destruct (String.eqb_spec m "invite") as [->|H1].
    { eapply tinv_ext; [| |exact (tinv_invite t J I [v] room Hi)]; intros u r; cbn;
        destruct (String.eqb_spec r room) as [->|]; set_solver. }
    destruct (String.eqb_spec m "join") as [->|H2].
    { eapply tinv_ext; [| |exact (tinv_join t J I [v] room Hi)]; intros u r; cbn;
        destruct (String.eqb_spec r room) as [->|]; set_solver. }
    destruct (String.eqb_spec m "ban") as [->|H3]; cbn.
    { eapply tinv_ext; [| |exact (tinv_left t J I v room Hi)]; intros u r; cbn;
        destruct (String.eqb_spec r room) as [->|]; naive_solver. }
    destruct (String.eqb_spec m "leave") as [->|H4]; cbn.
    { eapply tinv_ext; [| |exact (tinv_left t J I v room Hi)]; intros u r; cbn;
        destruct (String.eqb_spec r room) as [->|]; naive_solver. }
    eapply tinv_ext; [| |exact Hi]; intros u r; cbn;
        destruct (String.eqb_spec r room) as [->|]; naive_solver.
  Qed.

  Lemma one_by_one_inv st d room (J I : string -> string -> Prop) :
    tinv (d_jrt d) J I ->
    tinv (d_jrt (events_one_by_one ord d room st).1)
      (fun u r => if String.eqb r room then joined_by_all st u (J u r) else J u r)
      (fun u r => if String.eqb r room then invited_by_all st u (I u r) else I u r).
  Proof.
    revert d J I; induction st as [|ev st IH]; intros d J I Hi; cbn [events_one_by_one].
    - eapply tinv_ext; [| |exact Hi]; intros u r; cbn; by destruct (String.eqb r room).
    - rewrite on_new_event_eq. cbn beta iota zeta.
      match goal with |- context [events_one_by_one ord ?d1 room st] =>
        pose proof (IH d1 _ _ (tinv_track _ J I room ev Hi)) as Hn;
        destruct (events_one_by_one ord d1 room st) as [d2 c2] end.
      cbn [fst] in Hn |- *. eapply tinv_ext; [| |exact Hn]; intros u r; cbn;
        destruct (String.eqb r room); done.
  Qed.

  Lemma members_with_says m st u :
    u ∈ members_with m st <-> state_says st u m.
  Proof.
    unfold members_with, state_says, member_change. rewrite elem_of_list_omap. split.
    - intros (ev & Hin & Hx). exists ev. split; [done|].
      destruct (ev_type ev =? "m.room.member")%string; [|done]. cbn in Hx.
      destruct (String.eqb_spec (ev_membership ev) m) as [->|]; [|done].
      rewrite Hx. done.
    - intros (ev & Hin & Hx). exists ev. split; [done|].
      destruct (ev_type ev =? "m.room.member")%string; [|done]. cbn.
      destruct (ev_skey ev); [|done]. injection Hx as -> ->.
      by rewrite String.eqb_refl.
  Qed.

  Lemma join_count_pos t (J I : string -> string -> Prop) room f :
    tinv t J I ->
    (0 <? (joined_users_for_room t room f).2)%nat = true <-> exists v, J v room.
  Proof.
    intros [HJ _ _]. unfold joined_users_for_room. cbn [snd].
    rewrite Nat.ltb_lt. split.
    - intros Hp. assert (Hne : get_set (t_joined t) room <> ∅).
      { intros He. rewrite He, size_empty in Hp. lia. }
      apply set_choose_L in Hne as [v Hv]. exists v. by apply HJ.
    - intros [v Hv]. apply HJ in Hv.
      destruct (size (get_set (t_joined t) room)) eqn:E; [|lia].
      apply size_empty_iff in E. set_solver.
  Qed.

  Lemma dstep_inv d o d' cs hist :
    dop_wf o -> tinv (d_jrt d) (h_joined hist) (h_invited hist) ->
    dstep ord d o = Some (d', cs) ->
    tinv (d_jrt d') (h_joined (o :: hist)) (h_invited (o :: hist)).
  Proof.
    intros Hwf HI Hs. destruct o as [m|o|room ev nid mid|room st|room raw mid|room raw mid|room js is];
      cbn [dstep] in Hs.
    - destruct (startup (d_jrt d) m) as [t|] eqn:Hst; [|done]. injection Hs as <- <-.
      unfold startup in Hst. case_bool_decide as Hemp; [|done]. injection Hst as <-.
      destruct Hemp as [He1 He2].
      assert (Hnone : forall u r, ~ h_joined hist u r).
      { intros u r Hj. apply (ti_joined _ _ _ HI) in Hj. rewrite He1, get_set_empty in Hj. set_solver. }
      eapply tinv_ext; [| |apply (startup_fold m _ (h_joined hist) (h_invited hist) Hwf); [|exact HI]]; cbn; [|done|].
      + intros u r. specialize (Hnone u r). naive_solver.
      + intros u r _. apply Hnone.
    - injection Hs as <- <-. done.
    - rewrite on_new_event_eq in Hs. injection Hs as <- <-. cbn. by apply tinv_track.
    - injection Hs as Hs. unfold on_new_initial_state in Hs.
      destruct (0 <? _)%nat eqn:E.
      + pose proof (join_count_pos _ _ _ room (fun _ => true) HI) as [Hpos _].
        specialize (Hpos E).
        pose proof (one_by_one_inv st d room _ _ HI) as Hn. rewrite Hs in Hn. cbn [fst] in Hn.
        eapply tinv_ext; [| |exact Hn]; intros u r; cbn;
          destruct (String.eqb_spec r room) as [->|]; naive_solver.
      + assert (Hno : ~ exists v, h_joined hist v room).
        { rewrite <- (join_count_pos _ _ _ room (fun _ => true) HI), E. done. }
        pose proof (tinv_invite _ _ _ (members_with "invite" st) room
                     (tinv_join _ _ _ (members_with "join" st) room HI)) as Hn.
        destruct (users_joined_room (d_jrt d) (members_with "join" st) room) as [t1 force].
        cbn [fst] in Hn.
        injection Hs as <- <-. cbn.
        eapply tinv_ext; [| |exact Hn]; intros u r; cbn; rewrite !members_with_says.
        * destruct (decide (r = room)) as [->|]; [|naive_solver].
          assert (~ h_joined hist u room) by naive_solver. naive_solver.
        * destruct (decide (r = room)) as [->|]; naive_solver.
    - injection Hs as <- <-. done.
    - injection Hs as <- <-. done.
    - injection Hs as <- <-. cbn. by apply tinv_reload.
  Qed.

  Lemma drun_inv ops d hist d' cs :
    Forall dop_wf ops -> tinv (d_jrt d) (h_joined hist) (h_invited hist) ->
    drun ord d ops = Some (d', cs) ->
    tinv (d_jrt d') (h_joined (reverse ops ++ hist)) (h_invited (reverse ops ++ hist)).
  Proof.
    revert d hist d' cs; induction ops as [|o ops IH]; intros d hist d' cs Hwf HI Hr; cbn in Hr.
    - by injection Hr as <- <-.
    - destruct (dstep ord d o) as [[d1 c1]|] eqn:Hs; [|done].
      destruct (drun ord d1 ops) as [[d2 c2]|] eqn:Hr'; [|done]. injection Hr as <- <-.
      apply Forall_cons in Hwf as [Hw Hwf].
      rewrite reverse_cons, <- app_assoc. cbn. eapply (IH d1); [done| |exact Hr'].
      by eapply dstep_inv.
  Qed.

  Lemma dispatcher_reachable ops d cs :
    Forall dop_wf ops -> drun ord new_dispatcher ops = Some (d, cs) ->
    tinv (d_jrt d) (h_joined (reverse ops)) (h_invited (reverse ops)).
  Proof.
    intros Hwf Hr. pose proof (drun_inv ops new_dispatcher [] d cs Hwf tinv_new Hr) as H.
    by rewrite app_nil_r in H.
  Qed.

  (** ** The calls of one event *)
  Lemma call_to_In R u p c :
    c ∈ call_to R u p <-> exists n, R !! u = Some n /\ c = mk_call u n p.
  Proof. unfold call_to. destruct (R !! u); set_solver. Qed.

  Lemma times_called_app u l l' : times_called u (l ++ l') = times_called u l + times_called u l'.
  Proof. unfold times_called. by rewrite List.filter_app, app_length. Qed.

  Lemma times_call_to u R v p :
    times_called u (call_to R v p) =
    if String.eqb v u then (if R !! v then 1 else 0) else 0.
  Proof.
    unfold times_called, call_to. destruct (R !! v) as [n|]; cbn; destruct (String.eqb v u); done.
  Qed.

  Lemma times_called_users u R users p :
    NoDup users ->
    times_called u (concat (map (fun v => call_to R v (p v)) users)) =
    if bool_decide (u ∈ users) then (if R !! u then 1 else 0) else 0.
  Proof.
    induction users as [|v users IH]; intros Hnd; cbn [map concat]; [done|].
    apply NoDup_cons in Hnd as [Hv Hnd]. rewrite times_called_app, times_call_to, (IH Hnd).
    destruct (String.eqb_spec v u) as [->|Hne].
    - rewrite bool_decide_eq_false_2 by done. rewrite bool_decide_eq_true_2 by set_solver.
      destruct (R !! u); lia.
    - case_bool_decide; case_bool_decide; set_solver.
  Qed.

  Lemma joined_users_In t room f u :
    u ∈ (joined_users_for_room t room f).1 <-> f u = true /\ u ∈ get_set (t_joined t) room.
  Proof.
    unfold joined_users_for_room. cbn [fst].
    rewrite elem_of_list_In, filter_In, <- elem_of_list_In, elem_of_elements. naive_solver.
  Qed.
  Lemma joined_users_NoDup t room f : NoDup (joined_users_for_room t room f).1.
  Proof.
    unfold joined_users_for_room. cbn [fst]. apply NoDup_ListNoDup, List.NoDup_filter.
    apply NoDup_ListNoDup, NoDup_elements.
  Qed.

  Lemma has_receiver_true R u : has_receiver R u = true <-> u <> all_users /\ is_Some (R !! u).
  Proof.
    unfold has_receiver. rewrite andb_true_iff, negb_true_iff, bool_decide_eq_true, String.eqb_neq. done.
  Qed.

  Lemma left_of_true t (J I : string -> string -> Prop) room ev :
    tinv t J I ->
    left_of t room ev = true <->
    exists v m, member_change ev = Some (v, m) /\ is_leave m /\ (J v room \/ I v room).
  Proof.
    intros [HJ _ HI]. unfold left_of, is_leave. destruct (member_change ev) as [[v m]|]; [|naive_solver].
    cbn. rewrite andb_true_iff, !orb_true_iff, !bool_decide_eq_true, !String.eqb_eq, HJ, HI.
    naive_solver.
  Qed.

  Definition event_users (d : dispatcher) (room : string) (ev : rawev) : list string :=
    ord (joined_users_for_room (track (d_jrt d) room ev) room (has_receiver (d_recv d))).1 ++
    (if left_of (d_jrt d) room ev then [target_of ev] else []).

  Lemma event_users_In d hist room ev nid mid u :
    tinv (d_jrt d) (h_joined hist) (h_invited hist) ->
    u ∈ event_users d room ev <->
    (u <> all_users /\ is_Some (d_recv d !! u) /\ h_joined (DEvent room ev nid mid :: hist) u room) \/
    own_leave hist room ev u.
  Proof.
    intros Hi. unfold event_users. rewrite elem_of_app, Hord, joined_users_In, has_receiver_true.
    rewrite (ti_joined _ _ _ (tinv_track _ _ _ room ev Hi)). cbn [h_joined].
    rewrite String.eqb_refl.
    pose proof (left_of_true _ _ _ room ev Hi) as Hl. unfold own_leave, target_of.
    destruct (left_of (d_jrt d) room ev).
    - destruct Hl as [Hl _]. destruct (Hl eq_refl) as (v & m & Hm & Hlv & Hk). rewrite Hm.
      rewrite elem_of_list_singleton. naive_solver.
    - rewrite elem_of_nil. assert (~ own_leave hist room ev u).
      { intros (m & Hm & ? & ?). destruct Hl as [_ Hl]. discriminate Hl. eauto. }
      unfold own_leave in *. naive_solver.
  Qed.

  Lemma own_leave_not_joined hist room ev nid mid u :
    own_leave hist room ev u -> ~ h_joined (DEvent room ev nid mid :: hist) u room.
  Proof.
    intros (m & Hm & Hl & _). cbn. rewrite String.eqb_refl. unfold joined_by. rewrite Hm.
    unfold is_leave in *. intros [[_ ->]|[Hn _]]; naive_solver.
  Qed.

  Lemma event_users_NoDup d hist room ev :
    tinv (d_jrt d) (h_joined hist) (h_invited hist) -> NoDup (event_users d room ev).
  Proof.
    intros Hi. unfold event_users. apply NoDup_app. split_and!.
    - rewrite Hord. apply joined_users_NoDup.
    - intros u Hu Hu'.
      pose proof (left_of_true _ _ _ room ev Hi) as Hl.
      destruct (left_of (d_jrt d) room ev); [|set_solver].
      destruct Hl as [Hl _]. destruct (Hl eq_refl) as (v & m & Hm & Hlv & Hk).
      unfold target_of in Hu'. rewrite Hm in Hu'. apply elem_of_list_singleton in Hu' as ->.
      rewrite Hord in Hu. apply joined_users_In in Hu as [_ Hu].
      rewrite (ti_joined _ _ _ (tinv_track _ _ _ room ev Hi)), String.eqb_refl in Hu.
      unfold joined_by in Hu. rewrite Hm in Hu. unfold is_leave in *. naive_solver.
    - destruct (left_of _ _ _); [apply NoDup_singleton|constructor].
  Qed.

  Definition user_call (d : dispatcher) (room : string) (ev : rawev) (nid : Z) (u : string) : payload :=
    let t' := track (d_jrt d) room ev in
    POnEvent (mk_edata ev room nid (invites_of (d_jrt d) room ev) (size (get_set (t_joined t') room))
                (String.eqb (target_of ev) u && force_of (d_jrt d) room ev)).

  Lemma event_calls d room ev nid mid d' cs :
    on_new_event ord d room ev nid mid = (d', cs) ->
    d' = mk_dispatcher (track (d_jrt d) room ev) (foldl reg_step (d_recv d) mid) /\
    cs = call_to (d_recv d') all_users
           (POnEvent (mk_edata ev room nid (invites_of (d_jrt d) room ev)
              (size (get_set (t_joined (d_jrt d')) room)) false)) ++
         concat (map (fun u => call_to (d_recv d') u (user_call d room ev nid u)) (event_users d room ev)).
  Proof.
    rewrite on_new_event_eq. cbn zeta. intros [= <- <-]. split; [done|].
    unfold notify_listeners. cbn [d_jrt d_recv]. f_equal. f_equal. apply map_ext.
    intros u. unfold user_call. destruct (_ && _); done.
  Qed.

  Lemma event_call_In d room ev nid mid d' cs c :
    on_new_event ord d room ev nid mid = (d', cs) -> c ∈ cs ->
    d_recv d' !! cl_user c = Some (cl_recv c) /\
    ((cl_user c = all_users /\ cl_what c = POnEvent (mk_edata ev room nid (invites_of (d_jrt d) room ev)
              (size (get_set (t_joined (d_jrt d')) room)) false)) \/
     (cl_user c ∈ event_users d room ev /\ cl_what c = user_call d room ev nid (cl_user c))).
  Proof.
    intros He Hc. destruct (event_calls _ _ _ _ _ _ _ He) as [Hd ->].
    apply elem_of_app in Hc as [Hc|Hc].
    - apply call_to_In in Hc as (n & Hn & ->). split; [done|]. by left.
    - apply elem_of_list_In, in_concat in Hc as (l & Hl & Hc).
      apply in_map_iff in Hl as (u & <- & Hu). apply elem_of_list_In in Hc, Hu.
      apply call_to_In in Hc as (n & Hn & ->). split; [done|]. right. done.
  Qed.

  (** ** Lemmas behind the theorems *)
  Lemma dispatcher_membership ops d cs :
    Forall dop_wf ops -> drun ord new_dispatcher ops = Some (d, cs) ->
    forall u r, is_user_joined (d_jrt d) u r = true <-> h_joined (reverse ops) u r.
  Proof.
    intros Hwf Hr u r. unfold is_user_joined.
    by rewrite bool_decide_eq_true, (ti_joined _ _ _ (dispatcher_reachable _ _ _ Hwf Hr)).
  Qed.

  Lemma events_only_to_members ops d cs room ev nid mid d' cs' c :
    Forall dop_wf ops -> drun ord new_dispatcher ops = Some (d, cs) ->
    on_new_event ord d room ev nid mid = (d', cs') -> c ∈ cs' ->
    cl_user c = all_users \/
    h_joined (DEvent room ev nid mid :: reverse ops) (cl_user c) room \/
    own_leave (reverse ops) room ev (cl_user c).
  Proof.
    intros Hwf Hr He Hc. pose proof (dispatcher_reachable _ _ _ Hwf Hr) as Hi.
    destruct (event_call_In _ _ _ _ _ _ _ _ He Hc) as [_ [[? _]|[Hu _]]]; [by left|].
    apply (event_users_In d (reverse ops) room ev nid mid) in Hu; [|done]. naive_solver.
  Qed.

  Lemma event_calls_carry_event ops d cs room ev nid mid d' cs' c :
    Forall dop_wf ops -> drun ord new_dispatcher ops = Some (d, cs) ->
    on_new_event ord d room ev nid mid = (d', cs') -> c ∈ cs' ->
    d_recv d' !! cl_user c = Some (cl_recv c) /\
    exists e, cl_what c = POnEvent e /\ ed_ev e = ev /\ ed_room e = room /\ ed_nid e = nid.
  Proof.
    intros Hwf Hr He Hc.
    destruct (event_call_In _ _ _ _ _ _ _ _ He Hc) as [H1 [[_ ->]|[_ ->]]]; (split; [done|]);
      eexists; (split; [reflexivity|]); done.
  Qed.

  Lemma events_exactly_once ops d cs room ev nid mid d' cs' u :
    Forall dop_wf ops -> drun ord new_dispatcher ops = Some (d, cs) ->
    on_new_event ord d room ev nid mid = (d', cs') ->
    u <> all_users -> is_Some (d_recv d !! u) -> is_Some (d_recv d' !! u) ->
    h_joined (DEvent room ev nid mid :: reverse ops) u room \/ own_leave (reverse ops) room ev u ->
    times_called u cs' = 1.
  Proof.
    intros Hwf Hr He Hne HR HR' Hm. pose proof (dispatcher_reachable _ _ _ Hwf Hr) as Hi.
    destruct (event_calls _ _ _ _ _ _ _ He) as [Hd ->].
    rewrite times_called_app, times_call_to, times_called_users by by eapply event_users_NoDup.
    destruct (String.eqb_spec all_users u) as [Heq|Hneq]; [congruence|].
    rewrite bool_decide_eq_true_2.
    - destruct HR' as [n ->]. done.
    - rewrite (event_users_In d (reverse ops) room ev nid mid); [|done]. naive_solver.
  Qed.

  Lemma events_global_first ops d cs room ev nid mid d' cs' g :
    Forall dop_wf ops -> drun ord new_dispatcher ops = Some (d, cs) ->
    on_new_event ord d room ev nid mid = (d', cs') ->
    d_recv d' !! all_users = Some g ->
    exists c rest, cs' = c :: rest /\ cl_user c = all_users /\ cl_recv c = g /\
      ((forall m, member_change ev <> Some (all_users, m)) -> times_called all_users rest = 0).
  Proof.
    intros Hwf Hr He Hg. pose proof (dispatcher_reachable _ _ _ Hwf Hr) as Hi.
    destruct (event_calls _ _ _ _ _ _ _ He) as [Hd ->].
    unfold call_to at 1. rewrite Hg. cbn [app].
    eexists _, _. split; [reflexivity|]. split_and!; [done..|]. intros Ht.
    rewrite times_called_users by by eapply event_users_NoDup.
    rewrite bool_decide_eq_false_2; [done|].
    rewrite (event_users_In d (reverse ops) room ev nid mid); [|done].
    intros [[? _]|(m & Hm & _)]; [done|]. by apply (Ht m).
  Qed.

  Lemma no_leak ops d cs room ev nid mid d' cs' u m :
    Forall dop_wf ops -> drun ord new_dispatcher ops = Some (d, cs) ->
    on_new_event ord d room ev nid mid = (d', cs') ->
    u <> all_users ->
    member_change ev = Some (u, m) -> is_leave m ->
    ~ h_joined (reverse ops) u room -> ~ h_invited (reverse ops) u room ->
    times_called u cs' = 0.
  Proof.
    intros Hwf Hr He Hne Hm Hl Hj Hinv. pose proof (dispatcher_reachable _ _ _ Hwf Hr) as Hi.
    destruct (event_calls _ _ _ _ _ _ _ He) as [Hd ->].
    rewrite times_called_app, times_call_to, times_called_users by by eapply event_users_NoDup.
    destruct (String.eqb_spec all_users u) as [Heq|Hneq]; [congruence|].
    rewrite bool_decide_eq_false_2; [done|].
    rewrite (event_users_In d (reverse ops) room ev nid mid); [|done].
    intros [(_ & _ & Hx)|(m' & Hm' & _ & Hx)]; [|naive_solver].
    cbn in Hx. rewrite String.eqb_refl in Hx. unfold joined_by in Hx. rewrite Hm in Hx.
    unfold is_leave in *. naive_solver.
  Qed.

  Lemma counts_are_sizes ops d cs room ev nid mid d' cs' c e js is :
    Forall dop_wf ops -> drun ord new_dispatcher ops = Some (d, cs) ->
    on_new_event ord d room ev nid mid = (d', cs') -> c ∈ cs' -> cl_what c = POnEvent e ->
    NoDup js -> (forall u, u ∈ js <-> h_joined (DEvent room ev nid mid :: reverse ops) u room) ->
    NoDup is -> (forall u, u ∈ is <-> h_invited (DEvent room ev nid mid :: reverse ops) u room) ->
    ed_joins e = length js /\
    (member_change ev <> None -> ed_invites e = length is).
  Proof.
    intros Hwf Hr He Hc Hw Hndj Hj Hndi Hin. pose proof (dispatcher_reachable _ _ _ Hwf Hr) as Hi.
    destruct (event_calls _ _ _ _ _ _ _ He) as [Hd _].
    pose proof (tinv_track _ _ _ room ev Hi) as [HJ _ HI].
    assert (Hjs : size (get_set (t_joined (d_jrt d')) room) = length js).
    { rewrite Hd. cbn [d_jrt]. eapply size_is_count; [|done|exact Hj]. intros u. rewrite HJ. done. }
    assert (His : member_change ev <> None -> invites_of (d_jrt d) room ev = length is).
    { intros Hm. unfold invites_of. destruct (member_change ev) as [[v m]|] eqn:E; [|done].
      unfold num_invited. eapply size_is_count; [|done|exact Hin]. intros u. rewrite HI. done. }
    rewrite Hd in Hjs. cbn [d_jrt] in Hjs.
    destruct (event_call_In _ _ _ _ _ _ _ _ He Hc) as [_ [[_ Hw']|[_ Hw']]]; rewrite Hw in Hw';
      injection Hw' as ->; cbn [ed_joins ed_invites]; rewrite ?Hd; (split; [exact Hjs|exact His]).
  Qed.

  Lemma force_initial_spec ops d cs room ev nid mid d' cs' c e :
    Forall dop_wf ops -> drun ord new_dispatcher ops = Some (d, cs) ->
    on_new_event ord d room ev nid mid = (d', cs') -> c ∈ cs' -> cl_what c = POnEvent e ->
    cl_user c <> all_users ->
    ed_force e = true <->
    member_change ev = Some (cl_user c, "join") /\ ~ h_joined (reverse ops) (cl_user c) room.
  Proof.
    intros Hwf Hr He Hc Hw Hne. pose proof (dispatcher_reachable _ _ _ Hwf Hr) as Hi.
    destruct (event_call_In _ _ _ _ _ _ _ _ He Hc) as [_ [[? _]|[_ Hw']]]; [done|].
    rewrite Hw in Hw'. injection Hw' as ->. cbn [ed_force].
    unfold target_of, force_of. destruct (member_change ev) as [[v m]|]; [|rewrite andb_false_r; naive_solver].
    rewrite !andb_true_iff, !String.eqb_eq.
    assert (Hret : (user_joined_room (d_jrt d) v room).2 = true <-> ~ h_joined (reverse ops) v room).
    { unfold user_joined_room, users_joined_room. destruct (foldl _ _ [v]) as [[j i] rm]. cbn.
      rewrite negb_true_iff, andb_true_r, bool_decide_eq_false, (ti_joined _ _ _ Hi). done. }
    rewrite Hret. naive_solver.
  Qed.

  (** Ephemeral events and receipts. *)
  Lemma broadcast_only_to_members ops d cs room mid p d' cs' c :
    Forall dop_wf ops -> drun ord new_dispatcher ops = Some (d, cs) ->
    broadcast ord d room mid p = (d', cs') -> c ∈ cs' ->
    cl_what c = p /\ d_recv d' !! cl_user c = Some (cl_recv c) /\
    (cl_user c = all_users \/ h_joined (reverse ops) (cl_user c) room).
  Proof.
    intros Hwf Hr He Hc. pose proof (dispatcher_reachable _ _ _ Hwf Hr) as Hi.
    unfold broadcast in He. apply pair_equal_spec in He as [<- <-]. cbn [d_recv].
    apply elem_of_app in Hc as [Hc|Hc].
    - apply call_to_In in Hc as (n & Hn & ->). cbn. naive_solver.
    - apply elem_of_list_In, in_concat in Hc as (l & Hl & Hc).
      apply in_map_iff in Hl as (u & <- & Hu). apply elem_of_list_In in Hc, Hu.
      apply call_to_In in Hc as (n & Hn & ->). cbn. split_and!; [done..|]. right.
      rewrite Hord in Hu. apply joined_users_In in Hu as [_ Hu]. by apply (ti_joined _ _ _ Hi).
  Qed.

  Lemma broadcast_exactly_once ops d cs room mid p d' cs' u :
    Forall dop_wf ops -> drun ord new_dispatcher ops = Some (d, cs) ->
    broadcast ord d room mid p = (d', cs') ->
    is_Some (d_recv d !! u) -> is_Some (d_recv d' !! u) ->
    u = all_users \/ h_joined (reverse ops) u room ->
    times_called u cs' = 1.
  Proof.
    intros Hwf Hr He HR HR' Hu. pose proof (dispatcher_reachable _ _ _ Hwf Hr) as Hi.
    unfold broadcast in He. apply pair_equal_spec in He as [<- <-]. cbn [d_recv] in HR'.
    rewrite times_called_app, times_call_to, times_called_users.
    2: { rewrite Hord. apply joined_users_NoDup. }
    destruct HR' as [n Hn].
    destruct (String.eqb_spec all_users u) as [<-|Hne].
    - rewrite bool_decide_eq_false_2; [by rewrite Hn|]. rewrite Hord, joined_users_In, has_receiver_true.
      naive_solver.
    - rewrite bool_decide_eq_true_2; [by rewrite Hn|].
      rewrite Hord, joined_users_In, has_receiver_true, (ti_joined _ _ _ Hi). naive_solver.
  Qed.

  (** The initial state path. *)
  Lemma initial_calls d hist room st d' cs' c :
    tinv (d_jrt d) (h_joined hist) (h_invited hist) ->
    on_new_initial_state ord d room st = (d', cs') -> c ∈ cs' ->
    (~ exists v, h_joined hist v room) ->
    (exists e, cl_what c = POnEvent e /\ ed_ev e ∈ st /\ ed_room e = room /\
       ed_joins e = size (get_set (t_joined (d_jrt d')) room) /\
       ed_invites e = size (get_set (t_invited (d_jrt d')) room)) /\
    (cl_user c = all_users \/ state_says st (cl_user c) "join").
  Proof.
    intros Hi He Hc Hno. unfold on_new_initial_state in He.
    pose proof (join_count_pos _ _ _ room (fun _ => true) Hi) as [Hpos _].
    destruct (0 <? _)%nat; [by destruct (Hno (Hpos eq_refl))|]. clear Hpos.
    pose proof (tinv_join _ _ _ (members_with "join" st) room Hi) as Hj.
    destruct (users_joined_room (d_jrt d) (members_with "join" st) room) as [t1 force].
    cbn [fst] in Hj. apply pair_equal_spec in He as [<- <-].
    apply elem_of_list_In, in_concat in Hc as (l & Hl & Hc).
    apply in_map_iff in Hl as (ev & <- & Hev). apply elem_of_list_In in Hc, Hev.
    unfold notify_listeners in Hc. apply elem_of_app in Hc as [Hc|Hc].
    - apply call_to_In in Hc as (n & Hn & ->). cbn. split; [|by left]. eexists. split; [done|]. done.
    - apply elem_of_list_In, in_concat in Hc as (l & Hl & Hc).
      apply in_map_iff in Hl as (u & <- & Hu). apply elem_of_list_In in Hc, Hu.
      apply call_to_In in Hc as (n & Hn & ->). cbn. split.
      + eexists. split; [done|]. destruct (_ && _); done.
      + right. rewrite Hord in Hu. apply joined_users_In in Hu as [_ Hu].
        cbn in Hu. apply (ti_joined _ _ _ Hj) in Hu. rewrite members_with_says in Hu. naive_solver.
  Qed.

  Lemma one_by_one_calls st d hist room d' cs' c :
    tinv (d_jrt d) (h_joined hist) (h_invited hist) ->
    events_one_by_one ord d room st = (d', cs') -> c ∈ cs' ->
    exists pre ev post, st = pre ++ ev :: post /\
      (cl_user c = all_users \/
       h_joined (DEvent room ev 0 [] :: reverse (as_live room pre) ++ hist) (cl_user c) room \/
       own_leave (reverse (as_live room pre) ++ hist) room ev (cl_user c)).
  Proof.
    revert d hist d' cs'; induction st as [|ev st IH]; intros d hist d' cs' Hi He Hc; cbn in He.
    - injection He as <- <-. set_solver.
    - destruct (on_new_event ord d room ev 0 []) as [d1 c1] eqn:E1.
      destruct (events_one_by_one ord d1 room st) as [d2 c2] eqn:E2. injection He as <- <-.
      apply elem_of_app in Hc as [Hc|Hc].
      + exists [], ev, st. split; [done|].
        destruct (event_call_In _ _ _ _ _ _ _ _ E1 Hc) as [_ [[? _]|[Hu _]]]; [by left|].
        apply (event_users_In d hist room ev 0 []) in Hu; [|done]. cbn. naive_solver.
      + destruct (IH d1 (DEvent room ev 0 [] :: hist) d2 c2) as (pre & ev' & post & -> & H); [|done|done|].
        * eapply (dstep_inv d (DEvent room ev 0 [])); [done|exact Hi|cbn; by rewrite E1].
        * exists (ev :: pre), ev', post. split; [done|].
          cbn [as_live map]. rewrite reverse_cons, <- app_assoc. exact H.
  Qed.

  Lemma initial_only_to_members ops d cs room st d' cs' c :
    Forall dop_wf ops -> drun ord new_dispatcher ops = Some (d, cs) ->
    on_new_initial_state ord d room st = (d', cs') -> c ∈ cs' ->
    cl_user c = all_users \/
    ((~ exists v, h_joined (reverse ops) v room) /\ state_says st (cl_user c) "join") \/
    (exists pre ev post, st = pre ++ ev :: post /\
       (h_joined (DEvent room ev 0 [] :: reverse (as_live room pre) ++ reverse ops) (cl_user c) room \/
        own_leave (reverse (as_live room pre) ++ reverse ops) room ev (cl_user c))).
  Proof.
    intros Hwf Hr He Hc. pose proof (dispatcher_reachable _ _ _ Hwf Hr) as Hi.
    pose proof (join_count_pos _ _ _ room (fun _ => true) Hi) as Hpos.
    destruct (0 <? (joined_users_for_room (d_jrt d) room (λ _, true)).2)%nat eqn:E.
    - unfold on_new_initial_state in He. rewrite E in He.
      destruct (one_by_one_calls _ _ _ _ _ _ _ Hi He Hc) as (pre & ev & post & -> & H).
      destruct H as [H|H]; [by left|]. right. right. exists pre, ev, post. done.
    - assert (Hno : ~ exists v, h_joined (reverse ops) v room) by naive_solver.
      destruct (initial_calls _ _ _ _ _ _ _ Hi He Hc Hno) as [_ [H|H]]; [by left|]. right. left. done.
  Qed.

  (** Counts in the bulk path. *)
  Lemma initial_counts ops d cs room st d' cs' c e js is :
    Forall dop_wf ops -> drun ord new_dispatcher ops = Some (d, cs) ->
    (~ exists v, h_joined (reverse ops) v room) ->
    on_new_initial_state ord d room st = (d', cs') -> c ∈ cs' -> cl_what c = POnEvent e ->
    NoDup js -> (forall u, u ∈ js <-> h_joined (DInitial room st :: reverse ops) u room) ->
    NoDup is -> (forall u, u ∈ is <-> h_invited (DInitial room st :: reverse ops) u room) ->
    ed_joins e = length js /\ ed_invites e = length is.
  Proof.
    intros Hwf Hr Hno He Hc Hw Hndj Hj Hndi Hin. pose proof (dispatcher_reachable _ _ _ Hwf Hr) as Hi.
    assert (Hi' : tinv (d_jrt d') (h_joined (DInitial room st :: reverse ops))
                    (h_invited (DInitial room st :: reverse ops))).
    { eapply dstep_inv; [|exact Hi|cbn [dstep]; rewrite He; reflexivity]. done. }
    destruct (initial_calls _ _ _ _ _ _ _ Hi He Hc Hno) as [(e' & He' & _ & _ & H1 & H2) _].
    rewrite Hw in He'. injection He' as <-. rewrite H1, H2. split.
    - eapply size_is_count; [|done|exact Hj]. intros u. apply (ti_joined _ _ _ Hi').
    - eapply size_is_count; [|done|exact Hin]. intros u. apply (ti_invited _ _ _ Hi').
  Qed.

  (** Every joined user with a receiver gets every event of the block once. *)
  Lemma initial_exactly_once ops d cs room st d' cs' u :
    Forall dop_wf ops -> drun ord new_dispatcher ops = Some (d, cs) ->
    (~ exists v, h_joined (reverse ops) v room) ->
    on_new_initial_state ord d room st = (d', cs') ->
    is_Some (d_recv d !! u) -> u = all_users \/ state_says st u "join" ->
    omap (fun c => if String.eqb (cl_user c) u
                   then match cl_what c with POnEvent e => Some (ed_ev e) | _ => None end
                   else None) cs' = st.
  Proof.
    intros Hwf Hr Hno He [n Hn] Hu. pose proof (dispatcher_reachable _ _ _ Hwf Hr) as Hi.
    pose proof (join_count_pos _ _ _ room (fun _ => true) Hi) as [Hpos _].
    unfold on_new_initial_state in He.
    destruct (0 <? _)%nat; [by destruct (Hno (Hpos eq_refl))|]. clear Hpos.
    pose proof (tinv_join _ _ _ (members_with "join" st) room Hi) as Hj.
    destruct (users_joined_room (d_jrt d) (members_with "join" st) room) as [t1 force].
    cbn [fst] in Hj.
    destruct (joined_users_for_room (users_invited_to_room t1 (members_with "invite" st) room) room
      (has_receiver (d_recv d))) as [us js] eqn:Ej.
    apply pair_equal_spec in He as [<- <-].
    set (users := ord us).
    assert (Hnd : NoDup users).
    { unfold users. rewrite Hord. change us with (us, js).1. rewrite <- Ej. apply joined_users_NoDup. }
    assert (Hin : u ∈ users <-> u <> all_users).
    { unfold users. rewrite Hord. change us with (us, js).1. rewrite <- Ej.
      rewrite joined_users_In, has_receiver_true. cbn [users_invited_to_room t_joined].
      rewrite (ti_joined _ _ _ Hj), members_with_says. rewrite Hn.
      split; [naive_solver|]. intros Hne. destruct Hu; naive_solver. }
    clearbody users.
    generalize (num_invited (users_invited_to_room t1 (members_with "invite" st) room) room) as inv.
    intros inv. clear Hj Hu Ej.
    induction st as [|ev st IH]; [done|]. cbn [map concat]. rewrite omap_app, IH.
    clear IH. unfold notify_listeners. rewrite omap_app.
    change (ev :: st) with ([ev] ++ st). f_equal.
    assert (Hus : forall us, NoDup us ->
      omap (fun c => if String.eqb (cl_user c) u
                   then match cl_what c with POnEvent e => Some (ed_ev e) | _ => None end
                   else None)
        (concat (map (λ v, call_to (d_recv d) v
          (POnEvent (if String.eqb "" v && force
                then mk_edata ev room 0 inv js true
                else mk_edata ev room 0 inv js false))) us)) =
      if bool_decide (u ∈ us) then [ev] else []).
    { intros l; induction l as [|v l IH]; intros Hnd';
        [by rewrite bool_decide_eq_false_2 by set_solver|]. apply NoDup_cons in Hnd' as [Hv Hnd'].
      cbn [map concat]. rewrite omap_app, (IH Hnd'). unfold call_to.
      destruct (decide (v = u)) as [->|Hne].
      - rewrite Hn. cbn. rewrite String.eqb_refl. rewrite bool_decide_eq_false_2 by done.
        rewrite bool_decide_eq_true_2 by set_solver. destruct (_ && _); done.
      - assert ((omap (fun c => if String.eqb (cl_user c) u
                   then match cl_what c with POnEvent e => Some (ed_ev e) | _ => None end
                   else None) (match d_recv d !! v with Some n0 => [mk_call v n0 (POnEvent (if String.eqb "" v && force
                then mk_edata ev room 0 inv js true
                else mk_edata ev room 0 inv js false))] | None => [] end)) = []) as ->.
        { destruct (d_recv d !! v); [|done]. cbn. apply String.eqb_neq in Hne. by rewrite Hne. }
        cbn [app]. case_bool_decide; case_bool_decide; set_solver. }
    etrans; [apply (f_equal (app _)); exact (Hus users Hnd)|].
    unfold call_to. destruct (decide (u = all_users)) as [->|Hne].
    - rewrite Hn. rewrite bool_decide_eq_false_2 by naive_solver. done.
    - rewrite bool_decide_eq_true_2 by naive_solver.
      destruct (d_recv d !! all_users); [|done]. cbn [omap list_omap cl_user].
      assert (String.eqb all_users u = false) as -> by (apply String.eqb_neq; congruence). done.
  Qed.
End proofs.
