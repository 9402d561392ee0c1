(** Properties of which rooms count as being in a user's spaces. *)
From Verif Require Import Prelude UserModel UserSpec UserProofs3 DispatchModel DispatchSpec DispatchProofs SpaceModel SpaceSpec SpaceProofs.
From Verif Require FeedModel.
Open Scope string_scope. Open Scope list_scope. Open Scope Z_scope.

(** A room counts as being in a space, for the lists of a user which are filtered by it,
    exactly if that is what the user was last told: the events about it while the user was
    joined to the space count, in order, and what was known when the user was registered. *)
Theorem C71_as_last_told ord user is_space before later space room :
  (forall l, ord l ≡ₚ l) -> user <> all_users -> is_space space = true -> no_own_child (before ++ later) ->
  last_told user space room before later (counts_as_in user (scene ord user is_space before later) space room).
Proof. intros Ho Hu. exact (counts_scene ord Ho user Hu is_space before later space room). Qed.
Print Assumptions C71_as_last_told.

Lemma latest_about space room l :
  (exists l1 e l2, l = l1 ++ e :: l2 /\ about space room e = true /\ forall x, In x l2 -> about space room x = false)
  \/ forall x, In x l -> about space room x = false.
Proof.
  induction l as [|e l IH]; [by right|]. destruct IH as [(l1 & e' & l2 & -> & Ha & Hn)|Hn].
  - left. exists (e :: l1), e', l2. by split.
  - destruct (about space room e) eqn:E; [left; exists [], e, l; by split|]. right. intros x [<-|Hx]; [done|by apply Hn].
Qed.
Lemma find_none_rev {A} (p : A -> bool) l : (forall x, In x l -> p x = false) -> List.find p (rev l) = None.
Proof.
  intros H. destruct (List.find p (rev l)) as [x|] eqn:E; [|reflexivity]. apply List.find_some in E as [Hi Hp].
  apply in_rev in Hi. by rewrite (H x Hi) in Hp.
Qed.
Lemma find_app {A} (p : A -> bool) l m : List.find p (l ++ m) = match List.find p l with Some x => Some x | None => List.find p m end.
Proof. induction l as [|x l IH]; [reflexivity|]. cbn. destruct (p x); [reflexivity|exact IH]. Qed.

(** If the user's membership of the space does not change after they were registered, the
    room counts as being in the space exactly if the user is joined to the space and the
    latest event about the room in the space says that it is a child. *)
Theorem C71_in_space_partial ord user is_space before later space room :
  (forall l, ord l ≡ₚ l) -> user <> all_users -> is_space space = true -> no_own_child (before ++ later) ->
  stays user space before later ->
  counts_as_in user (scene ord user is_space before later) space room
  = joined user space (before ++ later) && is_child space room (before ++ later).
Proof.
  intros Ho Hu Hs Hno Hst. destruct (C71_as_last_told ord user is_space before later space room Ho Hu Hs Hno) as [H1 H2].
  assert (Hj : joined user space (before ++ later) = joined user space before). { apply (Hst later []). by rewrite app_nil_r. }
  rewrite Hj. destruct (joined user space before) eqn:Ej; cbn [andb].
  - destruct (latest_about space room later) as [(l1 & e & l2 & -> & Ha & Hn)|Hn].
    + rewrite (H1 l1 e l2 eq_refl Ha).
      * unfold is_child. rewrite !rev_app_distr. cbn [rev]. rewrite find_app. rewrite find_app. rewrite find_app.
        rewrite (find_none_rev _ l2 Hn). cbn [List.find]. rewrite Ha. reflexivity.
      * rewrite <-Ej. apply (Hst l1 (e :: l2)). reflexivity.
      * intros m1 x m2 -> Hx. rewrite (Hn x) in Hx; [discriminate|]. apply in_or_app. right. by left.
    + rewrite H2.
      * cbn [andb]. unfold is_child. rewrite rev_app_distr, find_app, (find_none_rev _ later Hn). reflexivity.
      * intros l1 e l2 -> Ha. rewrite (Hn e) in Ha; [discriminate|]. apply in_or_app. right. by left.
  - apply H2. intros l1 e l2 -> _. rewrite <-Ej. apply (Hst l1 (e :: l2)). reflexivity.
Qed.
Print Assumptions C71_in_space_partial.

(** The claim is false if the membership changes. A user who joins a space that the server
    knows already, because somebody else is in it, never learns about its children. *)
Definition join (user room : string) : uevent := mk_uevent room "m.room.member" (Some user) "join" false user.
Definition leave (user room : string) : uevent := mk_uevent room "m.room.member" (Some user) "leave" false user.
Definition child (space room : string) (via : bool) : uevent := mk_uevent space "m.space.child" (Some room) "" via "@b".
Theorem C71_joined_later_refuted :
  let before := [join "@b" "!s"; child "!s" "!r" true; join "@a" "!r"] in
  let later := [join "@a" "!s"] in
  joined "@a" "!s" (before ++ later) && is_child "!s" "!r" (before ++ later) = true
  /\ counts_as_in "@a" (scene id "@a" (String.eqb "!s") before later) "!s" "!r" = false.
Proof. vm_compute. split; reflexivity. Qed.
Print Assumptions C71_joined_later_refuted.
(** And for a user who leaves a space its children stay in it, whatever happens to them. *)
Theorem C71_left_later_refuted :
  let before := [join "@a" "!s"; join "@b" "!s"; child "!s" "!r" true; join "@a" "!r"] in
  let later := [leave "@a" "!s"; child "!s" "!r" false] in
  joined "@a" "!s" (before ++ later) = false /\ is_child "!s" "!r" (before ++ later) = false
  /\ counts_as_in "@a" (scene id "@a" (String.eqb "!s") before later) "!s" "!r" = true.
Proof. vm_compute. repeat split; reflexivity. Qed.
Print Assumptions C71_left_later_refuted.

(** A case of the theorem: a child is removed, added again and another one is added, with
    the user's profile changing meanwhile. *)
Example C71_example :
  let before := [join "@a" "!s"; child "!s" "!r" true] in
  let later := [child "!s" "!r" false; join "@a" "!s"; child "!s" "!q" true; child "!s" "!r" true; leave "@b" "!s"] in
  stays "@a" "!s" before later /\ no_own_child (before ++ later)
  /\ counts_as_in "@a" (scene id "@a" (String.eqb "!s") before later) "!s" "!r" = true
  /\ counts_as_in "@a" (scene id "@a" (String.eqb "!s") before later) "!s" "!q" = true
  /\ counts_as_in "@a" (scene id "@a" (String.eqb "!s") before later) "!s" "!z" = false.
Proof.
  cbv zeta. split; [|split; [|vm_compute; repeat split; reflexivity]].
  - intros l1 l2 E. do 5 (destruct l1 as [|? l1]; [reflexivity|injection E as <- E]). destruct l1; [reflexivity|discriminate].
  - intros e He Ht. cbn in He. repeat (destruct He as [<-|He]; [first [discriminate|cbn; congruence]|]). done.
Qed.

(** ** What is told *)
(** When an event arrives, the user's connections are told only about rooms that the user is
    joined to, except that the user's own leave or ban is told in its room. *)
Definition out_of ord user is_space before later := c_out (ucalls user ucache0 (y_calls (scene ord user is_space before later))).
Theorem C71_told_of_joined_rooms ord user is_space before later e :
  (forall l, ord l ≡ₚ l) -> user <> all_users ->
  exists ups, out_of ord user is_space before (later ++ [e]) = out_of ord user is_space before later ++ ups
    /\ forall up, In up ups -> exists room, told1 up = (room, KEvent e)
         /\ (joined user room (before ++ later ++ [e]) = true \/ (room = e_room e /\ own_change user room e = true)).
Proof.
  intros Ho Hu. set (L := map SEvent before ++ SRegister :: map SEvent later).
  assert (EL : map SEvent before ++ SRegister :: map SEvent (later ++ [e]) = L ++ [SEvent e]).
  { unfold L. rewrite map_app, <-app_assoc. reflexivity. }
  unfold out_of, scene. rewrite EL, srun_snoc. fold L. cbn [sstep].
  destruct (on_new_event ord (y_disp (srun ord user is_space L sys0)) (e_room e) (raw e) 0 []) as [d calls] eqn:Ee. cbn [y_calls].
  assert (Hev : events L = before ++ later) by (apply events_scene).
  assert (Hd : d = y_disp (srun ord user is_space (L ++ [SEvent e]) sys0)). { rewrite srun_snoc. cbn [sstep]. by rewrite Ee. }
  assert (Hev' : events (L ++ [SEvent e]) = before ++ later ++ [e]). { unfold events in *. rewrite flat_map_app, Hev. cbn. by rewrite <-app_assoc. }
  set (j := match e_key e with Some k => _ | None => false end).
  assert (Hj : forall k, e_key e = Some k -> j = joined user k (before ++ later ++ [e])).
  { intros k Hk. unfold j. rewrite Hk, Hd, <-Hev'. by apply tracker_joined. }
  assert (Hm : forall c, In c calls -> cl_user c = user ->
     joined user (e_room e) (before ++ later ++ [e]) = true \/ own_change user (e_room e) e = true).
  { intros c Hc Ec. destruct (srun_ops ord user is_space L) as [cs E].
    destruct (events_only_to_members ord Ho _ _ _ _ _ _ _ _ _ c (ops_wf user L) E Ee) as [H|[H|H]]; [by apply elem_of_list_In|congruence| |].
    - left. rewrite <-Hev'. apply (h_joined_spec user). rewrite Ec in H. unfold ops in *. rewrite map_app. cbn [map app dop_of].
      rewrite app_comm_cons, reverse_app, reverse_singleton. exact H.
    - right. destruct H as (m & H & Hl & _). rewrite Ec in H. unfold member_change, raw in H. cbn [ev_type ev_skey ev_membership] in H.
      unfold own_change. destruct (String.eqb (e_type e) "m.room.member"); [|done]. destruct (e_key e) as [k|]; [|done]. injection H as -> ->.
      rewrite String.eqb_refl, bool_decide_eq_true_2 by done. cbn [andb]. destruct Hl as [-> | ->]; reflexivity. }
  clearbody j. clear Ee. generalize (y_calls (srun ord user is_space L sys0)). intros cs0. unfold ucalls. rewrite fold_left_app.
  generalize (fold_left (ucall1 user) cs0 ucache0). intros c0.
  assert (Hm' : forall c, In c (List.filter (fun c => String.eqb (cl_user c) user) calls) ->
     joined user (e_room e) (before ++ later ++ [e]) = true \/ own_change user (e_room e) e = true).
  { intros c [H1 H2%String.eqb_eq]%filter_In. by apply (Hm c). }
  clear Hm. revert Hm' c0. generalize (List.filter (fun c => String.eqb (cl_user c) user) calls). intros mine.
  induction mine as [|x mine IH]; intros Hm c0.
  { exists []. cbn. rewrite app_nil_r. by split. }
  cbn [map fold_left]. destruct (step_tells user c0 (CEvent e j)) as (ups1 & E1 & T1 & _).
  destruct (IH (fun c Hc => Hm c (or_intror Hc)) (ucall1 user c0 (CEvent e j))) as (ups2 & E2 & H2).
  exists (ups1 ++ ups2). rewrite E2, E1, app_assoc. split; [reflexivity|]. intros up [Hup|Hup]%in_app_or; [|by apply H2].
  assert (Ht : In (told1 up) (tells user c0 (CEvent e j))). { rewrite <-T1. by apply in_map. }
  cbn [tells] in Ht. apply in_app_or in Ht as [Ht|[Ht|[]]].
  - destruct (e_key e) as [k|]; [|done]. destruct (String.eqb (e_type e) "m.space.child"); [|done]. cbn [andb] in Ht.
    rewrite (Hj k eq_refl) in Ht. destruct (joined user k (before ++ later ++ [e])) eqn:Ek; [|done]. destruct Ht as [Ht|[]].
    exists k. split; [done|]. by left.
  - exists (e_room e). split; [done|]. destruct (Hm x (or_introl eq_refl)) as [H|H]; [by left|by right].
Qed.
Print Assumptions C71_told_of_joined_rooms.
(** The child of a space is told about if the user is joined to it and not if they are not. *)
Example C71_told_example :
  map told1 (out_of id "@a" (String.eqb "!s") [join "@a" "!s"; join "@a" "!r"] [child "!s" "!r" true; child "!s" "!q" true; leave "@a" "!r"])
  = [("!r", KEvent (child "!s" "!r" true)); ("!s", KEvent (child "!s" "!r" true)); ("!s", KEvent (child "!s" "!q" true));
     ("!r", KEvent (leave "@a" "!r"))].
Proof. vm_compute. reflexivity. Qed.

(** The rooms whose updates carry an event are those which the model of the connection's
    timelines (C65) assumes. *)
Theorem C65_update_rooms user cs0 e (joined_to : string -> bool) :
  exists ups, c_out (ucalls user ucache0 (cs0 ++ [CEvent e (match e_key e with Some k => joined_to k | None => false end)]))
      = c_out (ucalls user ucache0 cs0) ++ ups
    /\ map (fun up => (told1 up).1) ups
       = FeedModel.update_rooms joined_to (e_room e) (if String.eqb (e_type e) "m.space.child" then e_key e else None).
Proof.
  unfold ucalls. rewrite fold_left_app. cbn [fold_left]. generalize (fold_left (ucall1 user) cs0 ucache0). intros c0.
  destruct (step_tells user c0 (CEvent e (match e_key e with Some k => joined_to k | None => false end))) as (ups & E & T & _).
  exists ups. split; [exact E|]. rewrite <-(map_map told1 fst), T. cbn [tells]. unfold FeedModel.update_rooms.
  destruct (e_key e) as [k|]; [|by destruct (String.eqb _ _)]. destruct (String.eqb (e_type e) "m.space.child"); [|reflexivity].
  cbn [andb]. by destruct (joined_to k).
Qed.
Print Assumptions C65_update_rooms.
