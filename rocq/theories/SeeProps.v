(** C80: nothing of a room is shown to a user who is not in it. C81: rooms come into and go from a user's
    lists as they are invited and leave. *)
From Verif Require Import Prelude SeeModel SeeSpec SeeProofs SeeProofs2.
Open Scope string_scope. Open Scope list_scope. Open Scope Z_scope.

(** ** C80 *)
(** The whole of what is shown, for histories in which nothing comes at a bad time. *)
Theorem C80_private_partial : forall d inv l s,
  stored d -> all_in_time (connected d inv) l -> run (connected d inv) l = Some s ->
  forall x, x ∈ s_out s -> may_see (s_db s) (s_invs s) x.
Proof.
  intros d inv l s Hd T H x Hx. pose proof (safe_run l _ s (safe_connected d inv Hd) T H) as S.
  by destruct (sf_out s S x Hx).
Qed.

(** Without any condition: events sent as they happen are those of the time the user is in the
    room, and their departure; and an invite's content is that of an invite of theirs. *)
Theorem C80_events : forall d inv l s r n,
  stored d -> run (connected d inv) l = Some s -> ShowEvent r n ∈ s_out s ->
  inside (s_db s) r n \/ departure (s_db s) r n.
Proof.
  intros d inv l s r n Hd H Hx. pose proof (open_run l _ s (open_connected d inv Hd) H) as S.
  by destruct (op_out s S _ Hx).
Qed.
Theorem C80_invites : forall d inv l s r c,
  stored d -> run (connected d inv) l = Some s -> ShowInvite r c ∈ s_out s -> (r, c) ∈ s_invs s.
Proof.
  intros d inv l s r c Hd H Hx. pose proof (open_run l _ s (open_connected d inv Hd) H) as S.
  by destruct (op_out s S _ Hx).
Qed.

Definition about (r : string) (x : shown) : Prop :=
  match x with ShowEvent r' _ | ShowMeta r' _ | ShowState r' _ | ShowInvite r' _ | Crash r' => r' = r end.
Lemma load_about s r x : x ∈ load s r -> about r x.
Proof.
  unfold load. destruct (u_invite (udata s r)).
  - destruct (u_data _); intros H; by apply elem_of_list_singleton in H as ->.
  - destruct (latest (s_done s) r); intros H; [|by apply elem_of_list_singleton in H as ->].
    apply elem_of_cons in H as [->|H]; [done|].
    destruct (latest (List.filter (fun e => e_nid e <=? s_anchor s) (s_db s)) r); [|by apply elem_of_nil in H].
    by apply elem_of_list_singleton in H as ->.
Qed.
(** A room the user is invited to, and has not yet answered, is shown as the invite says
    and not otherwise, whatever brings it into the response. *)
Theorem C80_invited_only : forall d inv l s wins subs pos s' r x,
  stored d -> run (connected d inv) l = Some s -> step s (Request wins subs pos) = Some s' ->
  is_invited s r -> x ∈ s_out s' -> about r x -> x ∈ s_out s \/ exists c, x = ShowInvite r c /\ (r, c) ∈ s_invs s.
Proof.
  intros d inv l s wins subs pos s' r x Hd H Hs Hi Hx Ha.
  pose proof (base_run l _ s (base_connected d inv Hd) H) as B. injection Hs as <-. unfold request in Hx.
  rewrite load_rooms_out in Hx. cbn [s_out] in Hx. apply elem_of_app in Hx as [Hx|Hx]; [by left|right].
  apply elem_loads in Hx as (r' & _ & Hx). pose proof (load_about _ _ _ Hx) as Ha'.
  assert (r' = r) as -> by (destruct x; cbn in *; congruence).
  destruct (b_cache s B r Hi) as (c & Hc & Hin). unfold load in Hx.
  match type of Hx with context [udata ?t r] => change (udata t r) with (udata s r) in Hx end.
  rewrite Hi, Hc in Hx. apply elem_of_list_singleton in Hx as ->. eauto.
Qed.
(** Whatever room a client subscribes to, or asks more of, or gets as a predecessor: it gets
    nothing unless the user is then in the room, and then the name, avatar and counts are
    of a time at which they are. *)
Theorem C80_subscriptions : forall d inv l s subs pos s' x,
  stored d -> run (connected d inv) l = Some s -> step s (Request [] subs pos) = Some s' -> x ∈ s_out s' ->
  x ∈ s_out s \/
  exists r, r ∈ subs /\ is_in s r /\ about r x /\ (may_see (s_db s) (s_invs s) x \/ exists n, x = ShowState r n).
Proof.
  intros d inv l s subs pos s' x Hd H Hs Hx.
  pose proof (base_run l _ s (base_connected d inv Hd) H) as B. injection Hs as <-. unfold request in Hx.
  rewrite load_rooms_out in Hx. cbn [s_out] in Hx. apply elem_of_app in Hx as [Hx|Hx]; [by left|right].
  apply elem_loads in Hx as (r & Hr & Hx). cbn in Hr. apply elem_of_list_In, List.filter_In in Hr as [Hr Hc].
  apply elem_of_list_In in Hr. apply bool_decide_eq_true in Hc. apply (joined_is_in s B) in Hc.
  exists r. split; [done|]. split; [done|]. split; [by apply load_about in Hx|].
  change (x ∈ load s r) in Hx. destruct (load_joined s r x B Hc Hx) as [[F _]|F]; [by left|by right].
Qed.
(** The same for its state if no event of the room is on its way. *)
Theorem C80_state_partial : forall d inv l s subs pos s' x,
  stored d -> run (connected d inv) l = Some s -> step s (Request [] subs pos) = Some s' -> x ∈ s_out s' ->
  (forall r, r ∈ subs -> quiet s r) ->
  x ∈ s_out s \/ may_see (s_db s) (s_invs s) x.
Proof.
  intros d inv l s subs pos s' x Hd H Hs Hx Q.
  pose proof (base_run l _ s (base_connected d inv Hd) H) as B. injection Hs as <-. unfold request in Hx.
  rewrite load_rooms_out in Hx. cbn [s_out] in Hx. apply elem_of_app in Hx as [Hx|Hx]; [by left|right].
  apply elem_loads in Hx as (r & Hr & Hx). cbn in Hr. apply elem_of_list_In, List.filter_In in Hr as [Hr Hc].
  apply elem_of_list_In in Hr. apply bool_decide_eq_true in Hc. apply (joined_is_in s B) in Hc.
  change (x ∈ load s r) in Hx. destruct (load_fit s r x B) as [F _]; [right; auto|done|done].
Qed.
(** A room that the user never leaves is in their lists only while they are in it or invited: then no
    request and no update brings it into view at a time at which they are neither. *)
Theorem C80_listed_partial : forall d inv l s r,
  stored d -> Forall (stays_in r) l -> noted_in_time r (connected d inv) l -> run (connected d inv) l = Some s ->
  r ∈ s_listed s -> is_in s r \/ is_invited s r.
Proof.
  intros d inv l s r Hd F N H Hl. pose proof (lists_ok_run r l _ s (lists_ok_connected d inv r Hd) F N H) as L.
  destruct (lo_listed r s L Hl) as [K|K]; [left|by right]. by apply (joined_is_in s (lo_base r s L)).
Qed.

(** An invite that the user accepted, or that came to an end in another way, is shown no more
    once the server has handed out the event that ended it, unless they are invited again. *)
Definition not_invited (r : string) (s : st) : Prop := u_invite (udata s r) = false.
Lemma not_invited_step r s a s' : not_invited r s -> never_invited r a -> step s a = Some s' -> not_invited r s'.
Proof.
  intros H Hn Hs. destruct a as [e|n|r' c|r' kick|r'|wins subs pos|n wins sub hu pos]; cbn [step] in Hs.
  - destruct (_ && _); [|done]. injection Hs as <-. exact H.
  - destruct (s_todo s !! n) as [e|]; [|done]. destruct (forallb _ _); [|done]. injection Hs as <-. unfold dispatch.
    destruct (told _ _ _ _); [|exact H]. unfold not_invited, udata. cbn [s_cache].
    destruct (decide (e_room e = r)) as [<-|E]; [|by rewrite lookup_insert_ne].
    rewrite lookup_insert. cbn [default from_option id]. unfold cache_event. unfold not_invited, udata in H. rewrite H. by destruct (e_own e).
  - injection Hs as <-. unfold not_invited, udata. cbn [on_invite s_cache]. cbn in Hn. by rewrite lookup_insert_ne.
  - injection Hs as <-. unfold not_invited, udata. cbn [on_left s_cache].
    destruct (decide (r' = r)) as [<-|E]; [by rewrite lookup_insert|by rewrite lookup_insert_ne].
  - injection Hs as <-. exact H.
  - injection Hs as <-. exact H.
  - destruct (s_buf s !! n) as [x|]; [|done]. destruct (forallb _ _); [|done]. injection Hs as <-.
    unfold process. destruct (behind _ _); [exact H|]. unfold show_meta. destruct (bool_decide _); unfold show_event; destruct (_ && _); exact H.
Qed.
Lemma not_invited_run r l : forall s s', not_invited r s -> Forall (never_invited r) l -> run s l = Some s' -> not_invited r s'.
Proof.
  induction l as [|a l IH]; cbn [run]; intros s s' H Hf Hr; [by injection Hr as <-|]. inversion Hf; subst.
  destruct (step s a) as [s1|] eqn:E; [|done]. eapply IH; [by eapply not_invited_step|done|done].
Qed.
Theorem C80_accepted : forall s n e m s1 l s2 wins subs pos s3 c,
  s_todo s !! n = Some e -> e_own e = Some m -> m <> Invite -> m <> Knock ->
  (m = Join \/ e_room e ∈ s_joined s \/ e_room e ∈ s_invited s) ->
  step s (Dispatch n) = Some s1 -> Forall (never_invited (e_room e)) l -> run s1 l = Some s2 ->
  step s2 (Request wins subs pos) = Some s3 ->
  exists new, s_out s3 = s_out s2 ++ new /\ ShowInvite (e_room e) c ∉ new.
Proof.
  intros s n e m s1 l s2 wins subs pos s3 c He Hm Hi Hkn Htold Hs Hf Hr Hq.
  assert (H1 : not_invited (e_room e) s1).
  { cbn [step] in Hs. rewrite He in Hs. destruct (forallb _ _); [|done]. injection Hs as <-. unfold dispatch.
    assert (T : told (s_joined s) (s_invited s) (track (s_joined s, s_invited s) e).1 e = true).
    { unfold told, track. rewrite Hm. destruct m; try done; cbn [fst snd].
      - rewrite bool_decide_eq_true_2; [done|]. set_solver.
      - apply orb_true_iff. right. destruct Htold as [?|[?|?]]; [done| |]; apply orb_true_iff; [left|right]; by apply bool_decide_eq_true.
      - apply orb_true_iff. right. destruct Htold as [?|[?|?]]; [done| |]; apply orb_true_iff; [left|right]; by apply bool_decide_eq_true. }
    rewrite T. unfold not_invited, udata. cbn [s_cache]. rewrite lookup_insert. cbn [default from_option id]. unfold cache_event. rewrite Hm.
    destruct (u_invite (default urd0 _)) eqn:E; [by destruct m|exact E]. }
  pose proof (not_invited_run _ _ _ _ H1 Hf Hr) as H2. injection Hq as <-. eexists. split; [reflexivity|].
  rewrite elem_of_list_In, in_concat. intros (l0 & Hl0 & Hx). apply in_map_iff in Hl0 as (r & <- & _).
  unfold load in Hx. destruct (u_invite (udata _ r)) eqn:E.
  - destruct (u_data _); [|by destruct Hx]. destruct Hx as [[= Hr' _]|[]]. subst r. unfold not_invited in H2. unfold udata in E, H2. cbn in E. by rewrite H2 in E.
  - destruct (latest _ r); [|by destruct Hx as [|[]]]. destruct Hx as [Hx|Hx]; [done|]. destruct (latest _ r); [|done]. by destruct Hx as [|[]].
Qed.

(** ** C81 *)
(** A room from which the user was kicked, or to which they refused an invite, is in no list once the
    updates are there, until they are invited again. *)
Theorem C81_goes_partial : forall d inv l s r kick s1 l' s2,
  stored d -> run (connected d inv) l = Some s ->
  (kick = true \/ is_invited s r) -> step s (Left r kick) = Some s1 ->
  Forall (never_invited r) l' -> run s1 l' = Some s2 -> settled s2 r ->
  r ∉ s_listed s2.
Proof.
  intros d inv l s r kick s1 l' s2 Hd H Hk Hs Fl H2 Hq. injection Hs as <-.
  eapply leaving_settled; [|done]. eapply leaving_run; [|done|done]. split.
  - unfold udata. cbn. by rewrite lookup_insert.
  - left. cbn. assert (E : u_invite (udata s r) || kick = true).
    { destruct Hk as [->|Hk]; [apply orb_true_r|unfold is_invited in Hk; by rewrite Hk]. }
    rewrite E. exists (s_buf s), (mk_urd false None true), []. split; [done|]. split; [done|].
    intros x Hx. by apply elem_of_nil in Hx.
Qed.
(** A room to which the user is invited is in the lists (before filters) once the updates are there,
    until they leave. *)
Theorem C81_invited_partial : forall d inv l s r c s1 l' s2,
  stored d -> run (connected d inv) l = Some s -> settled s r ->
  step s (Invited r c) = Some s1 ->
  Forall (never_left r) l' -> run s1 l' = Some s2 -> settled s2 r ->
  r ∈ s_listed s2.
Proof.
  intros d inv l s r c s1 l' s2 Hd H Hq Hs Fl H2 Hq2. injection Hs as <-.
  assert (K : coming r s2).
  { eapply coming_run; [|done|done]. split; [|split]; cbn.
    - unfold udata. cbn. by rewrite lookup_insert.
    - intros x Hx Hr. apply elem_of_app in Hx as [Hx|Hx]; [by apply Hq in Hr|]. by apply elem_of_list_singleton in Hx as ->.
    - right. eexists c, _. apply elem_of_app. right. apply elem_of_list_here. }
  destruct K as (_ & _ & [K|(c' & u & K)]); [done|]. by destruct (Hq2 _ K).
Qed.

(** ** Examples *)
Definition joins (n : Z) (r : string) : ev := mk_ev n r (Some Join).
Definition leaves (n : Z) (r : string) : ev := mk_ev n r (Some Leave).
Definition other (n : Z) (r : string) : ev := mk_ev n r None.
Definition no_pos (_ : string) : Z := 0.

(** A check for [all_in_time]. *)
Definition fitb (s : st) (r : string) : bool :=
  u_invite (udata s r) ||
  (bool_decide (r ∈ s_joined s) && forallb (fun e => negb (in_room r e)) (s_todo s)
   && forallb (fun x => match x with UEvent e _ => negb (in_room r e) | _ => true end) (s_buf s)).
Lemma fitb_fit s r : base s -> fitb s r = true -> fit s r.
Proof.
  intros B H. apply orb_prop in H as [H|H]; [by left|right].
  apply andb_prop in H as [H H3]. apply andb_prop in H as [H1 H2]. apply bool_decide_eq_true in H1.
  split; [by apply (joined_is_in s B)|]. rewrite forallb_forall in H2, H3. split.
  - intros e He E. apply elem_of_list_In in He. specialize (H2 _ He). apply in_room_refl in E. by rewrite E in H2.
  - intros e u He E. apply elem_of_list_In in He. specialize (H3 _ He). cbn in H3. apply in_room_refl in E. by rewrite E in H3.
Qed.
Definition in_timeb (s : st) (a : act) : bool :=
  match a with
  | Request wins subs _ =>
      forallb (fun r => negb (bool_decide (r ∈ s_listed s)) || fitb s r) wins &&
      forallb (fun r => negb (bool_decide (r ∈ s_joined s)) || fitb s r) subs
  | Deliver n wins sub _ _ =>
      match step s (Deliver n [] false false (fun _ => 0)) with
      | Some s' => forallb (fitb s') wins && negb sub
      | None => true
      end
  | Note r => bool_decide (r ∈ s_joined s)
  | _ => true
  end.
Lemma in_timeb_ok s a : base s -> in_timeb s a = true -> in_time s a.
Proof.
  intros B. destruct a as [e|n|r c|r kick|r|wins subs pos|n wins sub hu pos]; try done.
  - unfold in_timeb, in_time. intros H. apply bool_decide_eq_true in H. by apply (joined_is_in s B).
  - unfold in_timeb, in_time. intros H. apply andb_prop in H as [H1 H2]. rewrite forallb_forall in H1, H2. split.
    + intros r Hr Hl. apply elem_of_list_In in Hr. specialize (H1 _ Hr). rewrite bool_decide_eq_true_2 in H1 by done.
      by apply fitb_fit.
    + intros r Hr Hl. apply (joined_is_in s B) in Hl. apply elem_of_list_In in Hr. specialize (H2 _ Hr).
      rewrite bool_decide_eq_true_2 in H2 by done. by apply fitb_fit.
  - unfold in_timeb, in_time. intros H s' Es. rewrite Es in H. apply andb_prop in H as [H1 H2]. rewrite forallb_forall in H1.
    pose proof (base_step s _ s' B Es) as B'. split.
    + intros r Hr _. apply elem_of_list_In in Hr. by apply fitb_fit, H1.
    + intros r ->. done.
Qed.
Fixpoint all_in_timeb (s : st) (l : list act) : bool :=
  match l with [] => true | a :: l => in_timeb s a && match step s a with Some s' => all_in_timeb s' l | None => true end end.
Lemma all_in_timeb_ok l : forall s, base s -> all_in_timeb s l = true -> all_in_time s l.
Proof.
  induction l as [|a l IH]; [done|]. intros s B H. cbn [all_in_timeb] in H. apply andb_prop in H as [H1 H2].
  split; [by apply in_timeb_ok|]. intros s' Es. rewrite Es in H2. apply IH; [|done]. by eapply base_step.
Qed.
Definition shows (d : list ev) (inv : list (string * string)) (l : list act) : option (list shown) :=
  s_out <$> run (connected d inv) l.

Definition past : list ev := [other 1 "r"; joins 2 "r"; other 3 "r"; other 4 "s"].
Definition story : list act :=
  [ Request ["r"; "i"] [] no_pos; Store (other 5 "r"); Note "r"; Dispatch 0;
    Deliver 0 [] false true no_pos; Deliver 0 ["r"] false true no_pos;
    Store (leaves 6 "r"); Store (other 7 "r"); Dispatch 0; Dispatch 0; Deliver 0 [] false true no_pos;
    Left "r" true; Deliver 0 [] false true no_pos; Request ["r"] ["r"] no_pos ].
Lemma past_stored : stored past.
Proof. split; [repeat constructor|]; repeat constructor. Qed.
(** A connection shows a room and an invite, and then events until the user is kicked; the
    hypotheses hold. *)
Example C80_example :
  stored past /\ all_in_time (connected past [("i", "inv")]) story /\
  shows past [("i", "inv")] story =
    Some [ShowMeta "r" 3; ShowState "r" 3; ShowInvite "i" "inv"; ShowMeta "r" 3;
          ShowMeta "r" 5; ShowState "r" 5; ShowEvent "r" 5; ShowMeta "r" 5; ShowEvent "r" 6; ShowMeta "r" 6].
Proof.
  split; [exact past_stored|]. split.
  - apply all_in_timeb_ok; [apply base_connected, past_stored|]. vm_compute. reflexivity.
  - vm_compute. reflexivity.
Qed.

(** ** Counterexamples *)
(** In this history the client is shown what the user may not see. *)
Definition leaks (d : list ev) (l : list act) (x : shown) : Prop :=
  exists s, stored d /\ run (connected d []) l = Some s /\ x ∈ s_out s /\ ~ may_see (s_db s) (s_invs s) x.
(** Decided. *)
Definition insideb (d : list ev) (r : string) (n : Z) : bool :=
  existsb (fun e => in_room r e && match e_own e with Some Join => true | _ => false end && (e_nid e <=? n)
    && forallb (fun e' => negb (in_room r e' && match e_own e' with Some Leave | Some Ban => true | _ => false end
                                && (e_nid e <? e_nid e') && (e_nid e' <=? n))) d) d.
Definition departureb (d : list ev) (r : string) (n : Z) : bool :=
  existsb (fun e => in_room r e && (e_nid e =? n) && match e_own e with Some Leave | Some Ban => true | _ => false end) d.
Lemma insideb_complete d r n : inside d r n -> insideb d r n = true.
Proof.
  intros (e & H1 & H2 & H3 & H4 & H5). apply existsb_exists. exists e. apply elem_of_list_In in H1. split; [done|].
  rewrite H3, (proj2 (in_room_refl r e) H2). cbn. apply andb_true_intro. split; [lia|].
  apply forallb_forall. intros e' He'. apply elem_of_list_In in He'.
  destruct (in_room r e') eqn:Er; [|done]. apply in_room_refl in Er. cbn.
  destruct (e_own e') as [[]|] eqn:Eo; try done; cbn.
  all: destruct ((e_nid e <? e_nid e') && (e_nid e' <=? n)) eqn:En; [|done].
  all: exfalso; apply (H5 e' He' Er); [unfold departs; auto|lia].
Qed.
Lemma departureb_complete d r n : departure d r n -> departureb d r n = true.
Proof.
  intros (e & H1 & H2 & H3 & H4). apply existsb_exists. exists e. apply elem_of_list_In in H1. split; [done|].
  rewrite (proj2 (in_room_refl r e) H2). cbn. apply andb_true_intro. split; [lia|].
  destruct H4 as [-> | ->]; done.
Qed.
#[local] Instance ev_eq_dec : EqDecision ev.
Proof. assert (EqDecision mship) by solve_decision. solve_decision. Defined.
#[local] Instance shown_eq_dec : EqDecision shown.
Proof. solve_decision. Defined.
Definition ends (d : list ev) (l : list act) (P : st -> bool) : bool :=
  match run (connected d []) l with Some s => P s | None => false end.
Lemma ends_in d l P : ends d l P = true -> exists s, run (connected d []) l = Some s /\ P s = true.
Proof. unfold ends. destruct (run (connected d []) l) as [s|]; [eauto|done]. Qed.
Lemma leaks_by d l r n x : stored d -> (x = ShowMeta r n \/ x = ShowState r n) ->
  ends d l (fun s => bool_decide (x ∈ s_out s) && negb (insideb (s_db s) r n) && negb (departureb (s_db s) r n)) = true ->
  leaks d l x.
Proof.
  intros H1 Hx H. apply ends_in in H as (s & H2 & H). apply andb_prop in H as [H H5]. apply andb_prop in H as [H3 H4].
  apply negb_true_iff in H4, H5.
  exists s. split; [done|]. split; [done|]. apply bool_decide_eq_true in H3. split; [done|].
  assert (~ (inside (s_db s) r n \/ departure (s_db s) r n)) as N.
  { intros [H|H]; [apply insideb_complete in H|apply departureb_complete in H]; congruence. }
  destruct Hx as [-> | ->]; exact N.
Qed.
Ltac leak r n :=
  apply (leaks_by _ _ r n);
  [split; repeat constructor | solve [left; reflexivity | right; reflexivity] | vm_compute; reflexivity ].

(** The user is kicked, and then the room's name is changed. A request that brings the room into a
    window before the connection has got round to the kick is answered with the new name. *)
Theorem C80_window_after_kick_refuted :
  leaks [joins 1 "r"]
    [Store (leaves 2 "r"); Dispatch 0; Store (other 3 "r"); Dispatch 0; Request ["r"] [] no_pos]
    (ShowMeta "r" 3).
Proof. leak "r" 3. Qed.
(** The user was invited to a room they never were in, and refuses. A request that brings it into a
    window before the connection has got round to that is answered with the room's name and its state. *)
Theorem C80_refused_invite_refuted :
  let l := [Invited "r" "inv"; Deliver 0 [] false false no_pos; Left "r" false; Request ["r"] [] no_pos] in
  leaks [other 1 "r"] l (ShowMeta "r" 1) /\ leaks [other 1 "r"] l (ShowState "r" 1).
Proof. split; leak "r" 1. Qed.
(** The same if the server knows nothing else of the room: the request panics. *)
Theorem C80_refused_invite_crash_refuted : exists s,
  run (connected [] []) [Invited "r" "inv"; Deliver 0 [] false false no_pos; Left "r" false; Request ["r"] [] no_pos] = Some s /\
  Crash "r" ∈ s_out s.
Proof.
  destruct (ends_in [] [Invited "r" "inv"; Deliver 0 [] false false no_pos; Left "r" false; Request ["r"] [] no_pos]
    (fun s => bool_decide (Crash "r" ∈ s_out s))) as (s & H1 & H2); [vm_compute; reflexivity|].
  exists s. split; [done|]. by apply bool_decide_eq_true in H2.
Qed.
(** The user is banned. Nothing is outstanding; the room is still in their lists, and a request that brings
    it into a window is answered with what has become of it since. *)
Theorem C80_banned_refuted :
  leaks [joins 1 "r"]
    [Store (mk_ev 2 "r" (Some Ban)); Dispatch 0; Deliver 0 [] false true no_pos;
     Store (other 3 "r"); Dispatch 0; Request ["r"] [] no_pos]
    (ShowMeta "r" 3).
Proof. leak "r" 3. Qed.
(** The user leaves. Nothing is outstanding; the room is still in their lists, and the same happens; with
    its state if other rooms have gone on. *)
Theorem C80_left_refuted :
  let l := [Store (leaves 3 "r"); Dispatch 0; Deliver 0 [] false true no_pos; Left "r" false; Deliver 0 [] false true no_pos;
            Store (other 4 "r"); Dispatch 0; Store (other 5 "q"); Dispatch 0; Deliver 0 [] false true no_pos;
            Request ["r"] [] no_pos] in
  leaks [joins 1 "r"; joins 2 "q"] l (ShowMeta "r" 4) /\ leaks [joins 1 "r"; joins 2 "q"] l (ShowState "r" 4).
Proof. split; leak "r" 4. Qed.
(** A kick and a later event are stored; before they are handed out, an event of another room is, and the
    connection gets it. The client subscribes to the room, and is sent its state after the kick. *)
Theorem C80_overtaken_refuted :
  leaks [joins 1 "r"; joins 2 "q"]
    [Store (leaves 3 "r"); Store (other 4 "r"); Store (other 5 "q"); Dispatch 2;
     Deliver 0 [] false true no_pos; Request [] ["r"] no_pos]
    (ShowState "r" 4).
Proof. leak "r" 4. Qed.
(** The user joins, and subscribes before the connection has got round to the join: they are sent
    the state of the room from before they joined. *)
Theorem C80_before_join_refuted :
  leaks [other 1 "r"] [Store (joins 2 "r"); Dispatch 0; Request [] ["r"] no_pos] (ShowState "r" 1).
Proof. leak "r" 1. Qed.
(** The user is kicked and the room's name is changed; account data of the room from before the kick
    arrives. If all this is in one response, it has the new name. *)
Theorem C80_note_refuted :
  leaks [joins 1 "r"]
    [Store (leaves 2 "r"); Dispatch 0; Store (other 3 "r"); Dispatch 0; Note "r"; Request [] [] no_pos;
     Deliver 0 [] false true no_pos; Deliver 0 [] false true no_pos]
    (ShowMeta "r" 3).
Proof. leak "r" 3. Qed.

(** After everything has arrived, a room the user left of their own accord is still in the lists. *)
Theorem C81_by_choice_refuted : exists s,
  run (connected [joins 1 "r"] [])
    [Store (leaves 2 "r"); Dispatch 0; Deliver 0 [] false true no_pos; Left "r" false; Deliver 0 [] false true no_pos] = Some s /\
  s_todo s = [] /\ s_buf s = [] /\ departure (s_db s) "r" 2 /\ u_left (udata s "r") = true /\ "r" ∈ s_listed s.
Proof.
  destruct (ends_in [joins 1 "r"] [Store (leaves 2 "r"); Dispatch 0; Deliver 0 [] false true no_pos; Left "r" false; Deliver 0 [] false true no_pos]
    (fun s => bool_decide (s_todo s = []) && match s_buf s with [] => true | _ => false end
              && bool_decide (leaves 2 "r" ∈ s_db s) && u_left (udata s "r") && bool_decide ("r" ∈ s_listed s)))
    as (s & H1 & H); [vm_compute; reflexivity|].
  apply andb_prop in H as [H H6]. apply andb_prop in H as [H H5]. apply andb_prop in H as [H H4]. apply andb_prop in H as [H2 H3].
  apply bool_decide_eq_true in H2, H4, H6. exists s. split; [done|]. split; [done|]. split; [by destruct (s_buf s)|].
  split; [|done]. exists (leaves 2 "r"). split; [done|]. split; [done|]. split; [done|]. by left.
Qed.
(** So is a room from which they were banned: nothing more comes. *)
Theorem C81_banned_refuted : exists s,
  run (connected [joins 1 "r"] [])
    [Store (mk_ev 2 "r" (Some Ban)); Dispatch 0; Deliver 0 [] false true no_pos] = Some s /\
  s_todo s = [] /\ s_buf s = [] /\ departure (s_db s) "r" 2 /\ "r" ∈ s_listed s.
Proof.
  destruct (ends_in [joins 1 "r"] [Store (mk_ev 2 "r" (Some Ban)); Dispatch 0; Deliver 0 [] false true no_pos]
    (fun s => bool_decide (s_todo s = []) && match s_buf s with [] => true | _ => false end
              && bool_decide (mk_ev 2 "r" (Some Ban) ∈ s_db s) && bool_decide ("r" ∈ s_listed s)))
    as (s & H1 & H); [vm_compute; reflexivity|].
  apply andb_prop in H as [H H5]. apply andb_prop in H as [H H4]. apply andb_prop in H as [H2 H3].
  apply bool_decide_eq_true in H2, H4, H5. exists s. split; [done|]. split; [done|]. split; [by destruct (s_buf s)|].
  split; [|done]. exists (mk_ev 2 "r" (Some Ban)). split; [done|]. split; [done|]. split; [done|]. by right.
Qed.
(** A kick takes the room from the lists and an invite puts it there. *)
Example C81_example :
  (fun s => (bool_decide ("r" ∈ s_listed s), bool_decide ("i" ∈ s_listed s), s_buf s)) <$>
    run (connected [joins 1 "r"] [])
      [Store (leaves 2 "r"); Dispatch 0; Invited "i" "inv"; Left "r" true;
       Deliver 0 [] false true no_pos; Deliver 0 [] false true no_pos; Deliver 0 [] false true no_pos]
  = Some (false, true, []).
Proof. vm_compute. reflexivity. Qed.

Print Assumptions C80_private_partial.
Print Assumptions C80_events.
Print Assumptions C80_invites.
Print Assumptions C80_invited_only.
Print Assumptions C80_subscriptions.
Print Assumptions C80_state_partial.
Print Assumptions C80_listed_partial.
Print Assumptions C80_window_after_kick_refuted.
Print Assumptions C80_refused_invite_refuted.
Print Assumptions C80_refused_invite_crash_refuted.
Print Assumptions C80_banned_refuted.
Print Assumptions C80_left_refuted.
Print Assumptions C80_overtaken_refuted.
Print Assumptions C80_before_join_refuted.
Print Assumptions C80_note_refuted.
Print Assumptions C81_goes_partial.
Print Assumptions C81_invited_partial.
Print Assumptions C81_by_choice_refuted.
Print Assumptions C81_banned_refuted.
