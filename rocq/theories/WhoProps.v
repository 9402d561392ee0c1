(** C97: a client that asked for heroes knows who they are. *)
From Verif Require Import Prelude RoomNameModel RoomNameSpec RoomNameProofs GlobalModel ListsModel ListsProofs2 RequestModel SubModel ViewModel ViewSpec WhoModel WhoSpec.
Open Scope string_scope.
Open Scope list_scope.
Open Scope Z_scope.

Lemma calculated_iff m : calculated m = true <-> named_after m.
Proof.
  unfold calculated, named_after.
  destruct (name_ok id m 5 (fun l => Permutation_refl l) ltac:(lia)) as (x & b & E & _). rewrite E.
  unfold room_name in E.
  destruct (String.eqb_spec (m_name m) "") as [Hn|Hn]; cbn [negb] in E.
  2: { injection E as _ <-. split; [done|]. by intros (H & _). }
  destruct (String.eqb_spec (m_alias m) "") as [Ha|Ha]; cbn [negb] in E.
  2: { injection E as _ <-. split; [done|]. by intros (_ & H & _). }
  destruct (m_heroes m) as [|h hs] eqn:Hh.
  - cbn [length Nat.eqb andb] in E. destruct (Z.leb_spec (m_join m + m_invite m - 1) 0) as [Hl|Hl].
    + injection E as _ <-. split; [done|]. intros (_ & _ & [H|H]); [done|lia].
    + assert (b = true) as ->; [|split; [intros _; split_and!; [done|done|right; lia]|done]].
      cbn [andb] in E. destruct (Z.leb_spec (m_join m + m_invite m - 1) (Z.of_nat 0)); [lia|].
      destruct (slice_to _ _); [|done]. destruct (1 <? m_join m + m_invite m); by injection E as _ <-.
  - assert (b = true) as ->; [|split; [intros _; split_and!; [done|done|by left]|done]].
    cbn [length Nat.eqb andb] in E.
    destruct (_ <=? Z.of_nat (S (length hs))).
    + destruct (disambiguate id (h :: hs)) as [|x1 [|x2 xs]]; [|by injection E as _ <-|].
      * destruct (slice_to _ _); [|done]. done.
      * destruct (slice_to _ _); [|done]. destruct (last _); [|done].
        destruct (m_join m + m_invite m - 1 <=? 0); by injection E as _ <-.
    + destruct (slice_to _ _); [|done]. destruct (1 <? m_join m + m_invite m); by injection E as _ <-.
Qed.

Lemma same_name_parts m m' : same_room_name m m' = true ->
  m_name m = m_name m' /\ m_alias m = m_alias m' /\ m_join m = m_join m' /\ m_invite m = m_invite m' /\ same_people (m_heroes m) (m_heroes m').
Proof.
  unfold same_room_name. rewrite !andb_true_iff, !String.eqb_eq, !Z.eqb_eq.
  intros (((((_ & Hn) & Ha) & Hj) & Hi) & Hh). split_and!; try done. unfold same_people.
  revert Hh. generalize (m_heroes m) (m_heroes m'). clear. intros l. induction l as [|x l IH]; intros [|y l'] H; cbn in H; try done.
  apply andb_true_iff in H as [H1 H2]. apply andb_true_iff in H1 as [H0 H1]. apply String.eqb_eq in H0, H1.
  cbn. by rewrite H0, H1, (IH l' H2).
Qed.

Lemma as_before_named m m' : as_before m m' -> (calculated m = true <-> calculated m' = true).
Proof. intros (H1 & H2 & H3 & H4 & H5). rewrite !calculated_iff. unfold named_after. by rewrite H1, H2, H3, H4, H5. Qed.

Lemma as_before_trans m1 m2 m3 : as_before m1 m2 -> as_before m2 m3 -> as_before m1 m3.
Proof. intros (H1 & H2 & H3 & H4 & H5) (G1 & G2 & G3 & G4 & G5). unfold as_before. by rewrite H1, H2, H3, H4, H5. Qed.
Lemma as_before_refl m : as_before m m.
Proof. done. Qed.

Lemma wants_should w : wants w -> should_include w = true.
Proof.
  intros [(s & Hs & Hh)|(l & Hl & Hh)]; unfold should_include; apply orb_true_iff.
  - left. rewrite Hs. unfold include_heroes. by rewrite Hh.
  - right. apply existsb_exists. exists l. split; [by apply elem_of_list_In|]. unfold include_heroes. by rewrite Hh.
Qed.

Lemma entry_meta lower me e m u : c_meta (set_entry lower e (entry_of me m u)).1 = without me m.
Proof.
  unfold set_entry, stored_room. cbn [fst l_all]. destruct e as [e|].
  - by rewrite lookup_insert.
  - by rewrite lookup_empty.
Qed.

Lemma entry_name lower me e m u : d_name (set_entry lower (Some e) (entry_of me m u)).2 = negb (same_room_name (c_meta e) (without me m)).
Proof. unfold set_entry, set_room. cbn [snd l_all]. by rewrite lookup_insert. Qed.

(** Whether the room in the response is sent anew. *)
Definition ini (o : option resp_room) : bool := match o with Some r => rr_initial r | None => false end.

Definition msees (i : bool) (sent old : list hero) : list hero := if i then sent else match sent with [] => old | _ => sent end.

Lemma sees_msees w : (s_resp (w_room w) = None -> w_resp w = []) ->
  sees_heroes w = msees (ini (s_resp (w_room w))) (w_resp w) (w_client w).
Proof.
  intros H. unfold sees_heroes, msees, merge_heroes, ini. destruct (s_resp (w_room w)); [done|]. by rewrite H.
Qed.

Definition room_in (fresh inside : bool) (s : state) (up : update) : bool :=
  fresh || (match s_resp s with Some _ => true | None => false end) ||
      (match up_event up with Some _ => inside || s_shown s || fresh | None => false end).

Lemma take_facts lower me inside fresh pos up s : dropped (s_pos s) up = false ->
  let s' := take_update lower me inside fresh pos up s in
  (exists e', s_entry s' = Some e' /\ c_meta e' = without me (up_meta up)) /\
  s_shown s' = s_shown s || fresh /\ s_queue s' = s_queue s /\ s_held s' = s_held s /\ s_meta s' = s_meta s /\
  ini (s_resp s') = fresh || ini (s_resp s) /\ (s_resp s' = None -> room_in fresh inside s up = false).
Proof.
  intros Hd s'. unfold s', take_update. rewrite Hd.
  pose proof (entry_meta lower me (s_entry s) (up_meta up) (up_user up)) as Hm.
  destruct (set_entry lower (s_entry s) (entry_of me (up_meta up) (up_user up))) as [e d]. cbn [fst] in Hm.
  set (r0 := if fresh then _ else _). set (p0 := if fresh then _ else _).
  set (r1 := match up_event up with Some ev => if inside || s_shown s || fresh then (Some (add_event r0 up), if ev_always ev then p0 else ev_nid ev) else (r0, p0) | None => (r0, p0) end).
  assert (Hr1 : ini r1.1 = fresh || ini (s_resp s) /\ (r1.1 = None -> room_in fresh inside s up = false)).
  { unfold r1, r0, room_in. destruct (up_event up) as [ev|].
    - destruct (inside || s_shown s || fresh) eqn:Hin; cbn [fst].
      + split; [|done]. destruct fresh; [done|]. unfold add_event. destruct (s_resp s); done.
      + assert (fresh = false) as -> by (by destruct fresh; rewrite ?orb_true_r in Hin). cbn. by destruct (s_resp s).
    - cbn [fst]. destruct fresh; [done|]. by destruct (s_resp s). }
  destruct r1 as [r1 p1]. cbn [fst] in Hr1. destruct Hr1 as [Hi Hn].
  cbn [s_entry s_shown s_queue s_held s_meta s_resp]. split; [by exists e|]. split_and!; try done.
  - unfold add_counts. destruct (d_highlight d || d_notif d).
    + rewrite <-Hi. by destruct r1.
    + rewrite <-Hi. by destruct r1.
  - unfold add_counts. destruct (d_highlight d || d_notif d); [done|]. intros H. apply Hn. by destruct r1.
Qed.

Record winv (me : string) (w : wstate) : Prop := {
  wi_entry : exists e, s_entry (w_room w) = Some e;
  wi_resp : s_resp (w_room w) = None -> w_resp w = [];
  wi_wants : s_shown (w_room w) = true -> wants w;
  wi_sees : s_shown (w_room w) = true -> forall m, recorded_meta w = Some m -> calculated m = true -> sees_heroes w = m_heroes m;
  wi_last : s_shown (w_room w) = true ->
    match last (pending (w_room w)) with
    | Some up => up_meta up = s_meta (w_room w)
    | None => forall m, recorded_meta w = Some m -> as_before m (without me (s_meta (w_room w)))
    end }.

Lemma start_winv lower me m u pos : winv me (wstart lower me m u pos).
Proof. unfold wstart, start. split; cbn; try done. by eexists. Qed.

Lemma last_pend (q h : list update) : last (q ++ h) = match last h with Some x => Some x | None => last q end.
Proof. destruct (last h) as [x|] eqn:E; [|apply last_None in E as ->; by rewrite app_nil_r].
  apply last_Some in E as (l' & ->). by rewrite app_assoc, last_snoc. Qed.

Lemma included added : added.2 = [] -> sub_heroes added.1 = Some true -> include_heroes (combine_all added.1 added.2) = true.
Proof. intros H1 H2. unfold combine_all. rewrite H1. cbn. unfold include_heroes. by rewrite H2. Qed.

Lemma initial_msees me m added old : added.2 = [] -> sub_heroes added.1 = Some true -> calculated (without me m) = true ->
  msees true (initial_heroes me m added) old = heroes_for me m.
Proof. intros H1 H2 H3. unfold initial_heroes, msees. by rewrite (included _ H1 H2), H3. Qed.

Lemma step_winv lower me w x : winv me w -> calm me w x -> winv me (wstep lower me w x).
Proof.
  intros [[e He] Ir Iw Is Il] Hc. destruct x as [a added|sub lists].
  2: { cbn in Hc. split; cbn; [by exists e|done|done| |].
       - intros Hs m Hm Hcal. by apply (Is Hs m).
       - exact Il. }
  destruct a as [ev m hold|m| |n h|b|k|pos|inside fresh pos| | |]; cbn [wstep step].
  - (* Event *)
    set (up := mk_update (Some ev) m (s_user (w_room w))).
    cbn [s_held set_known]. destruct (hold || negb (length (s_held (w_room w)) =? 0)%nat) eqn:Hh; split; cbn; try (by exists e); try done.
    + intros Hs. unfold pending. cbn. by rewrite app_assoc, last_snoc.
    + intros Hs. unfold pending. cbn.
      assert (s_held (w_room w) = []) as ->.
      { apply orb_false_iff in Hh as [_ Hh]. apply negb_false_iff, Nat.eqb_eq in Hh. by apply nil_length_inv. }
      by rewrite app_nil_r, last_snoc.
  - (* State *)
    cbn in Hc. split; cbn; try (by exists e); try done; intros Hs; congruence.
  - (* Other *)
    split; cbn; try (by exists e); try done.
    intros Hs. specialize (Il Hs). unfold pending in *. cbn. rewrite last_pend in Il |- *.
    destruct (last (s_held (w_room w))); [done|]. by rewrite last_snoc.
  - (* Counts *)
    split; cbn; try (by exists e); try done.
    intros Hs. specialize (Il Hs). unfold pending in *. cbn. rewrite last_pend in Il |- *.
    destruct (last (s_held (w_room w))); [done|]. by rewrite last_snoc.
  - (* Direct *)
    split; cbn; try (by exists e); try done.
  - (* Release *)
    split; cbn; try (by exists e); try done.
    intros Hs. specialize (Il Hs). unfold pending in *. cbn. by rewrite <-app_assoc, take_drop.
  - (* Enter *)
    cbn in Hc. destruct Hc as (H1 & H2 & Hw & Hp & Hb). split; cbn; try (by exists e); try done.
    + intros _ m Hm Hcal. specialize (Hb m Hm).
      assert (calculated (without me (s_meta (w_room w))) = true) as Hc' by (by apply (as_before_named _ _ Hb)).
      unfold sees_heroes. cbn. unfold merge_heroes. cbn. unfold initial_heroes. rewrite (included _ H1 H2), Hc'. cbn [andb].
      destruct Hb as (_ & _ & _ & _ & Hb). by rewrite Hb.
    + intros _. unfold pending in *. cbn. by rewrite Hp.
  - (* Take *)
    cbn in Hc. destruct (s_queue (w_room w)) as [|up q] eqn:Hq.
    { split; cbn; try done. by exists e. }
    specialize (Hc up q eq_refl) as (Hsome & Hfr & Hsh).
    set (s0 := set_queue (w_room w) q (s_held (w_room w))).
    assert (Hp0 : s_pos s0 = s_pos (w_room w)) by done.
    destruct (dropped (s_pos (w_room w)) up) eqn:Hd.
    + (* dropped *)
      assert (fresh = false) as -> by (destruct fresh; [|done]; destruct (Hfr eq_refl) as (_ & _ & _ & _ & _ & Hf & _); done).
      assert (Hst : take_update lower me inside false pos up s0 = s0) by (unfold take_update; rewrite Hp0, Hd; done).
      assert (Hth : take_heroes lower me inside false added up w = w_resp w) by (unfold take_heroes; by rewrite Hd).
      rewrite Hst, Hth. split; cbn; try done; [by exists e|].
      intros Hs. specialize (Il Hs). specialize (Hsh Hs). unfold pending in *. cbn. rewrite Hq in Il.
      change ((up :: q) ++ s_held (w_room w)) with (up :: (q ++ s_held (w_room w))) in Il.
      destruct (q ++ s_held (w_room w)) as [|u1 us] eqn:Hrest; [|exact Il].
      cbn in Il |- *. intros m Hm. rewrite <-Il. destruct (Hsh m Hm) as (_ & Hs2). apply Hs2. by left.
    + assert (Hd0 : dropped (s_pos s0) up = false) by done.
      destruct (take_facts lower me inside fresh pos up s0 Hd0) as ((e' & He' & Hm') & Hshown & Hq' & Hh' & Hmt & Hini & Hnone).
      set (s' := take_update lower me inside fresh pos up s0) in *. clearbody s'.
      cbn [s_shown s_queue s_held s_meta s_resp s0 set_queue] in Hshown, Hq', Hh', Hmt, Hini, Hnone.
      assert (Hrin : room_in fresh inside s0 up = room_in fresh inside (w_room w) up) by done. rewrite Hrin in Hnone.
      set (res := take_heroes lower me inside fresh added up w).
      assert (Hres : res = if room_in fresh inside (w_room w) up && negb (same_room_name (c_meta e) (without me (up_meta up))) && calculated (without me (up_meta up)) && should_include w
                then heroes_for me (up_meta up) else (if fresh then initial_heroes me (s_meta (w_room w)) added else w_resp w)).
      { unfold res, take_heroes. rewrite Hd, He, entry_name. done. }
      assert (Hresp : s_resp s' = None -> res = []).
      { intros Hn. specialize (Hnone Hn). rewrite Hres, Hnone. cbn [andb]. unfold room_in in Hnone.
        apply orb_false_iff in Hnone as [Hnone _]. apply orb_false_iff in Hnone as [-> Hnone].
        apply Ir. by destruct (s_resp (w_room w)). }
      assert (Hrec : forall m, recorded_meta (mk_w s' (w_sub w) (w_lists w) res (w_client w)) = Some m -> m = without me (up_meta up)).
      { intros m Hm. unfold recorded_meta in Hm. cbn in Hm. rewrite He' in Hm. injection Hm as <-. done. }
      split.
      * cbn. by exists e'.
      * exact Hresp.
      * cbn. rewrite Hshown. intros Hs. apply orb_true_iff in Hs as [Hs|Hs]; [by apply Iw|]. destruct (Hfr Hs) as (_ & _ & Hw & _). exact Hw.
      * cbn. rewrite Hshown. intros Hs m Hm Hcal. apply Hrec in Hm as ->.
        rewrite sees_msees by exact Hresp. cbn. rewrite Hini.
        destruct fresh.
        -- destruct (Hfr eq_refl) as (H1 & H2 & Hw & _ & _ & _ & Hmeta). cbn [orb]. rewrite Hres.
           destruct (_ && should_include w); [done|]. rewrite Hmeta in Hcal |- *. by apply initial_msees.
        -- rewrite orb_false_r in Hs. cbn [orb]. specialize (Hsh Hs (c_meta e)).
           assert (Hre : recorded_meta w = Some (c_meta e)) by (unfold recorded_meta; by rewrite He).
           specialize (Hsh Hre) as (Hpic & Hnew). specialize (Is Hs (c_meta e) Hre). specialize (Iw Hs).
           rewrite (sees_msees w Ir) in Is.
           assert (Hkeep : as_before (c_meta e) (without me (up_meta up)) -> res = w_resp w -> msees (ini (s_resp (w_room w))) res (w_client w) = m_heroes (without me (up_meta up))).
           { intros Hb ->. rewrite Is by (by apply (as_before_named _ _ Hb)). by destruct Hb as (_ & _ & _ & _ & ->). }
           destruct (room_in false inside (w_room w) up) eqn:Hri.
           ++ destruct (same_room_name (c_meta e) (without me (up_meta up))) eqn:Hsame.
              ** apply Hkeep; [|by rewrite Hres].
                 destruct (same_name_parts _ _ Hsame) as (E1 & E2 & E3 & E4 & E5). split_and!; try done. by apply Hpic.
              ** rewrite Hres, Hcal, (wants_should w Iw). cbn [andb negb].
                 assert (heroes_for me (up_meta up) <> []) as Hne by (apply Hsome; by apply calculated_iff).
                 unfold heroes_for in *. unfold msees. destruct (ini (s_resp (w_room w))); [done|].
                 change (remove_hero me (m_heroes (up_meta up))) with (m_heroes (without me (up_meta up))).
                 by destruct (m_heroes (without me (up_meta up))).
           ++ apply Hkeep; [|by rewrite Hres].
              unfold room_in in Hri. apply orb_false_iff in Hri as [Hri1 Hri2]. cbn [orb] in Hri1.
              apply Hnew. right. split; [|split; [by destruct (s_resp (w_room w))|done]].
              destruct (up_event up); [|done]. rewrite Hs in Hri2. by rewrite orb_true_r in Hri2.
      * cbn. rewrite Hshown. intros Hs. unfold pending. cbn. rewrite Hq', Hh', Hmt.
        destruct fresh.
        -- destruct (Hfr eq_refl) as (_ & _ & _ & -> & -> & _ & Hmeta). cbn. intros m Hm. apply Hrec in Hm as ->. by rewrite Hmeta.
        -- rewrite orb_false_r in Hs. specialize (Il Hs). unfold pending in Il. rewrite Hq in Il.
           change ((up :: q) ++ s_held (w_room w)) with (up :: (q ++ s_held (w_room w))) in Il.
           destruct (q ++ s_held (w_room w)) as [|u1 us] eqn:Hrest; [|change (last (up :: u1 :: us)) with (last (u1 :: us)) in Il; destruct (last (u1 :: us)) eqn:E; [exact Il|by apply last_None in E]].
           cbn in Il |- *. intros m Hm. apply Hrec in Hm as ->. by rewrite Il.
  - (* Members *)
    split; cbn; try (by exists e); try done.
    intros Hs m Hm Hcal. rewrite <-(Is Hs m Hm Hcal). unfold sees_heroes. cbn. unfold merge_heroes.
    destruct (s_resp (w_room w)) as [r|] eqn:Er; cbn; [done|]. by rewrite Ir.
  - (* Answer *)
    split; cbn; try (by exists e); try done.
  - (* Hide *)
    split; cbn; try (by exists e); try done.
Qed.

Lemma run_winv lower me l w : winv me w -> all_calm lower me w l -> winv me (wrun lower me w l).
Proof.
  revert w. induction l as [|x l IH]; intros w I H; cbn; [done|]. destruct H as [H1 H2].
  apply IH; [by apply step_winv|done].
Qed.

(** * The property *)

(** Once no update is outstanding, the client knows the heroes of a room in view that is named
    after them. *)
Theorem C97_follows_partial lower me m u pos l :
  let w := wrun lower me (wstart lower me m u pos) l in
  all_calm lower me (wstart lower me m u pos) l ->
  s_shown (w_room w) = true -> pending (w_room w) = [] -> named_after (without me (s_meta (w_room w))) ->
  wants w /\ sees_heroes w = heroes_for me (s_meta (w_room w)).
Proof.
  intros w Hc Hs Hp Hn. destruct (run_winv lower me l _ (start_winv lower me m u pos) Hc) as [[e He] Ir Iw Is Il].
  fold w in He, Ir, Iw, Is, Il. split; [by apply Iw|]. specialize (Il Hs). rewrite Hp in Il. cbn in Il.
  assert (Hre : recorded_meta w = Some (c_meta e)) by (unfold recorded_meta; by rewrite He).
  specialize (Il _ Hre). rewrite (Is Hs _ Hre).
  - destruct Il as (_ & _ & _ & _ & Il). exact Il.
  - apply (as_before_named _ _ Il). by apply calculated_iff.
Qed.
Print Assumptions C97_follows_partial.

(** * Witnesses *)
Definition bob := mk_hero "@bob" "Bob" "".
Definition eve := mk_hero "@eve" "Eve" "".
Definition us := mk_hero "@us" "Us" "".
Definition named (h : list hero) (joined : Z) : room_meta :=
  mk_meta "!r" h "" "" "" joined 0 0 ∅ false None None None ∅.
Definition asking := mk_sub None 0 None (Some true).
Definition plain := mk_sub None 0 None None.
Definition nobody := mk_user false 0 0.
Definition message (nid : Z) := mk_event nid false false.
Definition begin_with (h : list hero) (joined : Z) : wstate := wstart id "@us" (named h joined) nobody 10.
Definition alone (s : room_sub) : room_sub * list room_sub := (s, []).

(** The hypotheses are met by a run in which a room of two comes into view and a third joins. *)
Definition joins : list waction :=
  [Asks None [asking]; Do (Enter 10) (alone asking); Do Answer (alone asking);
   Do (Event (message 11) (named [us; bob; eve] 3) false) (alone asking); Do (Take false false 0) (alone asking); Do Answer (alone asking)].
Example C97_follows_example :
  let w := wrun id "@us" (begin_with [us; bob] 2) joins in
  all_calm id "@us" (begin_with [us; bob] 2) joins /\ s_shown (w_room w) = true /\ pending (w_room w) = [] /\
  named_after (without "@us" (s_meta (w_room w))) /\ sees_heroes w = [bob; eve].
Proof.
  cbv zeta. split; [|split; [by vm_compute|split; [by vm_compute|split; [|by vm_compute]]]].
  2: { split; [by vm_compute|split; [by vm_compute|left; by vm_compute]]. }
  assert (Hw : forall s r c, wants (mk_w s None [asking] r c)) by (intros s r c; right; exists asking; split; [apply elem_of_list_singleton; reflexivity|reflexivity]).
  unfold joins. cbn [all_calm]. split_and!; try exact I.
  - intros _. apply Hw.
  - split; [reflexivity|]. split; [reflexivity|]. split; [apply Hw|]. split; [by vm_compute|].
    intros m Hm. vm_compute in Hm. injection Hm as <-. by vm_compute.
  - intros up q Hq. vm_compute in Hq. injection Hq as <- <-. split; [intros _; by vm_compute|]. split; [done|].
    intros _ m Hm. vm_compute in Hm. injection Hm as <-. split; [intros H; by vm_compute in H|].
    intros [H|(H & _)]; by vm_compute in H.
Qed.

(** * C97 is false in general *)

(** Bob changes their picture: the client, which asks for heroes, is not told. *)
Theorem C97_picture_refuted :
  let bob' := mk_hero "@bob" "Bob" "mxc://new" in
  let w := wrun id "@us" (begin_with [us; bob] 2)
     [Asks None [asking]; Do (Enter 10) (alone asking); Do Answer (alone asking);
      Do (Event (message 11) (named [us; bob'] 2) false) (alone asking); Do (Take false false 0) (alone asking); Do Answer (alone asking)] in
  wants w /\ s_shown (w_room w) = true /\ pending (w_room w) = [] /\ named_after (without "@us" (s_meta (w_room w))) /\
  heroes_for "@us" (s_meta (w_room w)) = [bob'] /\ sees_heroes w = [bob] /\ bob <> bob'.
Proof.
  cbv zeta. split; [right; exists asking; split; [apply elem_of_list_singleton; reflexivity|reflexivity]|].
  split; [by vm_compute|]. split; [by vm_compute|]. split; [split; [by vm_compute|split; [by vm_compute|left; by vm_compute]]|].
  split; [by vm_compute|]. split; [by vm_compute|]. unfold bob. intros H. by injection H.
Qed.
Print Assumptions C97_picture_refuted.

(** A client which starts to ask for heroes, of a room it has in view, is told nothing. *)
Theorem C97_switched_on_refuted :
  let w := wrun id "@us" (begin_with [us; bob] 2)
     [Asks None [plain]; Do (Enter 10) (alone plain); Do Answer (alone plain); Asks None [asking];
      Do (Event (message 11) (named [us; bob] 2) false) (alone plain); Do (Take false false 0) (alone plain); Do Answer (alone plain)] in
  wants w /\ s_shown (w_room w) = true /\ pending (w_room w) = [] /\ named_after (without "@us" (s_meta (w_room w))) /\
  heroes_for "@us" (s_meta (w_room w)) = [bob] /\ sees_heroes w = [].
Proof.
  cbv zeta. split; [right; exists asking; split; [apply elem_of_list_singleton; reflexivity|reflexivity]|].
  split; [by vm_compute|]. split; [by vm_compute|]. split; [split; [by vm_compute|split; [by vm_compute|left; by vm_compute]]|].
  split; by vm_compute.
Qed.
Print Assumptions C97_switched_on_refuted.

(** A room which two lists bring into view, both asking for heroes, comes without. *)
Theorem C97_two_lists_refuted :
  let w := wrun id "@us" (begin_with [us; bob] 2)
     [Asks None [asking; asking]; Do (Enter 10) (asking, [asking]); Do Answer (alone asking)] in
  wants w /\ s_shown (w_room w) = true /\ pending (w_room w) = [] /\ named_after (without "@us" (s_meta (w_room w))) /\
  heroes_for "@us" (s_meta (w_room w)) = [bob] /\ sees_heroes w = [].
Proof.
  cbv zeta. split; [right; exists asking; split; [apply elem_of_list_here|reflexivity]|].
  split; [by vm_compute|]. split; [by vm_compute|]. split; [split; [by vm_compute|split; [by vm_compute|left; by vm_compute]]|].
  split; by vm_compute.
Qed.
Print Assumptions C97_two_lists_refuted.

(** When nobody of the heroes is left, though others are still in the room, the client goes on
    with those it had. *)
Theorem C97_emptied_refuted :
  let w := wrun id "@us" (begin_with [us; bob] 3)
     [Asks None [asking]; Do (Enter 10) (alone asking); Do Answer (alone asking);
      Do (Event (message 11) (named [us] 2) false) (alone asking); Do (Take false false 0) (alone asking); Do Answer (alone asking)] in
  wants w /\ s_shown (w_room w) = true /\ pending (w_room w) = [] /\ named_after (without "@us" (s_meta (w_room w))) /\
  heroes_for "@us" (s_meta (w_room w)) = [] /\ sees_heroes w = [bob].
Proof.
  cbv zeta. split; [right; exists asking; split; [apply elem_of_list_singleton; reflexivity|reflexivity]|].
  split; [by vm_compute|]. split; [by vm_compute|]. split; [split; [by vm_compute|split; [by vm_compute|right; by vm_compute]]|].
  split; by vm_compute.
Qed.
Print Assumptions C97_emptied_refuted.
