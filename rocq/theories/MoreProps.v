(** C98: a client that asks for more about rooms it has in view gets it. *)
From Verif Require Import Prelude RangeModel RangeSpec RangeProofs OpsModel RoomNameModel ListsModel LiveListModel RequestModel RequestSpec RequestProofs SubModel MoreModel MoreSpec MoreProofs.
Open Scope string_scope.
Open Scope list_scope.
Open Scope Z_scope.

(** What one list of the request adds. *)
Lemma one_list lower joined sord lord ord chg m s next m' s' a key n :
  (forall l, lord l ≡ₚ l) -> ask_for lower joined sord lord ord chg m s next = Some (m', s', a) ->
  rq_lists m' !! key = Some n ->
  exists s0 s1 a0, list_adds lower joined (ord key) s0 key (asked m key) n (chg (asked m key) n) = Some (s1, a0) /\
    rooms_of s' key = rooms_of s1 key /\ l_lists s0 !! key = l_lists s !! key /\ forall p, p ∈ a0 -> p ∈ a.
Proof.
  intros Hl H Hn. destruct (ask_lists _ _ _ _ _ _ _ _ _ _ _ _ Hl H) as (cs & a1 & a2 & -> & Hadd & Hnd & Hcs & _).
  assert (Hin : (key, (asked m key, Some n)) ∈ cs) by (by apply Hcs).
  destruct (lists_add_in _ _ _ _ _ _ _ _ _ _ _ Hnd Hadd Hin) as (s0 & s1 & a0 & H1 & H2 & H3 & H4).
  exists s0, s1, a0. split; [done|]. split; [done|]. split; [done|]. intros p Hp. apply elem_of_app. right. by apply H4.
Qed.

Lemma sent_both a n ids x : (list_sub n, ids) ∈ a -> x ∈ ids -> sent_limit a x (rl_limit n) /\ sent_state a x (default [] (rl_state n)).
Proof.
  intros H Hx. destruct (sent_some a (list_sub n, ids) x H Hx) as (s & Hs & H1 & H2).
  split; exists s; (split; [done|]); [exact H1|exact H2].
Qed.

(** C98 (part). If the timeline limit of a list changes, every joined room in its windows is
    sent with at least as many events as the list now asks for, whatever else the request
    changes, and in whatever order the server takes lists and subscriptions. *)
Theorem C98_longer_timeline_partial lower joined sord lord ord chg m s next m' s' a key p n x :
  (forall l, lord l ≡ₚ l) -> ask_for lower joined sord lord ord chg m s next = Some (m', s', a) ->
  asked m key = Some p -> rq_lists m' !! key = Some n -> valid (windows n) = true ->
  rl_limit p <> rl_limit n -> in_windows (windows n) (rooms_of s' key) x -> joined x = true ->
  sent_limit a x (rl_limit n).
Proof.
  intros Hl H Hp Hn Hv Hne Hx Hj. destruct (one_list _ _ _ _ _ _ _ _ _ _ _ _ _ _ Hl H Hn) as (s0 & s1 & a0 & H1 & H2 & H3 & H4).
  rewrite Hp in H1. rewrite H2 in Hx.
  destruct (list_adds_shape _ _ _ _ _ _ _ _ _ _ Hv H1) as (_ & ids & extra & -> & _ & Hin & _).
  specialize (Hin x Hx) as [Ha Hb].
  assert (Hids : x ∈ ids -> sent_limit a x (rl_limit n)).
  { intros Hi. apply (sent_both a n ids x); [apply H4; by left|done]. }
  destruct (decide (default [] (rl_sort p) = default [] (rl_sort n))) as [Hs|Hs]; [|by apply Hids, Ha; left].
  destruct (chg (Some p) n) eqn:Ec; [by apply Hids, Ha; right|].
  destruct (Hb Hs eq_refl Hj) as [Hb1 _]. destruct (Hb1 Hne) as [Hi|(q & Hq & Hxq & Hlim)]; [by apply Hids|].
  destruct (sent_some a q x) as (sb & Hsb & Hle & _); [apply H4; by right|done|].
  exists sb. split; [done|]. lia.
Qed.

(** C98 (part). The same for the state the list requires. *)
Theorem C98_other_state_partial lower joined sord lord ord chg m s next m' s' a key p n x :
  (forall l, lord l ≡ₚ l) -> ask_for lower joined sord lord ord chg m s next = Some (m', s', a) ->
  asked m key = Some p -> rq_lists m' !! key = Some n -> valid (windows n) = true ->
  default [] (rl_state p) <> default [] (rl_state n) -> in_windows (windows n) (rooms_of s' key) x -> joined x = true ->
  sent_state a x (default [] (rl_state n)).
Proof.
  intros Hl H Hp Hn Hv Hne Hx Hj. destruct (one_list _ _ _ _ _ _ _ _ _ _ _ _ _ _ Hl H Hn) as (s0 & s1 & a0 & H1 & H2 & H3 & H4).
  rewrite Hp in H1. rewrite H2 in Hx.
  destruct (list_adds_shape _ _ _ _ _ _ _ _ _ _ Hv H1) as (_ & ids & extra & -> & _ & Hin & _).
  specialize (Hin x Hx) as [Ha Hb].
  assert (Hids : x ∈ ids -> sent_state a x (default [] (rl_state n))).
  { intros Hi. apply (sent_both a n ids x); [apply H4; by left|done]. }
  destruct (decide (default [] (rl_sort p) = default [] (rl_sort n))) as [Hs|Hs]; [|by apply Hids, Ha; left].
  destruct (chg (Some p) n) eqn:Ec; [by apply Hids, Ha; right|].
  destruct (Hb Hs eq_refl Hj) as [_ Hb1]. destruct (Hb1 Hne) as [Hi|(q & Hq & Hxq & Hst)]; [by apply Hids|].
  destruct (sent_some a q x) as (sb & Hsb & _ & Hle); [apply H4; by right|done|].
  exists sb. split; [done|]. intros t Ht. apply Hle. by rewrite Hst.
Qed.

(** C98 (part). A room comes with all its list asks for, timeline and state, if the list is
    new, if its order or filters change, or if the windows are extended over it. Missing: a
    new window of a single position, see C05. *)
Theorem C98_new_rooms_partial lower joined sord lord ord chg m s next m' s' a key n x i :
  (forall l, lord l ≡ₚ l) -> ask_for lower joined sord lord ord chg m s next = Some (m', s', a) ->
  rq_lists m' !! key = Some n -> valid (windows n) = true ->
  covers (windows n) i -> 0 <= i -> rooms_of s' key !! Z.to_nat i = Some x ->
  match asked m key with
  | None => True
  | Some p => rearranged chg p n \/
      rl_ranges p <> None /\ valid (windows p) = true /\ ~ covers (windows p) i /\ ~ lone (windows n) (windows p) i
  end ->
  sent_limit a x (rl_limit n) /\ sent_state a x (default [] (rl_state n)).
Proof.
  intros Hl H Hn Hv Hc H0 Hx Hcase. destruct (one_list _ _ _ _ _ _ _ _ _ _ _ _ _ _ Hl H Hn) as (s0 & s1 & a0 & H1 & H2 & H3 & H4).
  rewrite H2 in Hx. assert (Hw : in_windows (windows n) (rooms_of s1 key) x) by (by exists i).
  destruct (list_adds_shape _ _ _ _ _ _ _ _ _ _ Hv H1) as (_ & ids & extra & -> & _ & Hin & _ & _ & Hnew).
  apply (sent_both a n ids x); [apply H4; by left|]. specialize (Hin x Hw).
  destruct (asked m key) as [p|]; [|done]. destruct Hin as [Ha _].
  destruct (decide (default [] (rl_sort p) = default [] (rl_sort n))) as [Hs|Hs]; [|by apply Ha; left].
  destruct (chg (Some p) n) eqn:Ec; [by apply Ha; right|].
  destruct Hcase as [[Hr|Hr]|(Hr & Hvp & Hnc & Hlone)]; [done|congruence|].
  by eapply Hnew.
Qed.

(** C98 (part). A joined room the client newly subscribes to, or whose subscription asks for
    another number of events or other state, is sent with all of it. *)
Theorem C98_subscribed_partial lower joined sord lord ord chg m s next m' s' a x n :
  (forall l, lord l ≡ₚ l) -> (forall l, sord l ≡ₚ l) ->
  ask_for lower joined sord lord ord chg m s next = Some (m', s', a) ->
  rq_subs m' !! x = Some n -> joined x = true ->
  match subscribed m x with
  | None => True
  | Some p => sub_limit p <> sub_limit n \/ state_of p <> state_of n
  end ->
  sent_limit a x (sub_limit n) /\ sent_state a x (state_of n).
Proof.
  intros Hl Hso H Hn Hj Hcase.
  destruct (ask_lists _ _ _ _ _ _ _ _ _ _ _ _ Hl H) as (cs & a1 & a2 & -> & _ & _ & _ & d & Hd & ->).
  assert (Hx : x ∈ dl_subs d).
  { pose proof (proj1 (apply_new_subs sord m next x Hso)) as Hns. rewrite Hd in Hns. cbn in Hns. apply Hns. exists n.
    split; [done|]. destruct (subscribed m x); [|done]. destruct Hcase; [by right|by left]. }
  assert (Hin : (n, [x]) ∈ subs_add joined (rq_subs m') (dl_subs d) ++ a2).
  { apply elem_of_app. left. apply elem_of_list_omap. exists x. split; [done|]. by rewrite Hj, Hn. }
  destruct (sent_some _ (n, [x]) x Hin) as (sb & Hsb & H1 & H2); [by left|].
  split; exists sb; split; done.
Qed.

(** C98. A request makes the server send only rooms about which something new is asked: a
    subscription that is new or changed, or a list that is new, changed or has other
    windows. *)
Theorem C98_nothing_else lower joined sord lord ord chg m s next m' s' a x sb :
  (forall l, lord l ≡ₚ l) -> (forall l, sord l ≡ₚ l) ->
  ask_for lower joined sord lord ord chg m s next = Some (m', s', a) ->
  (forall key n, rq_lists m' !! key = Some n -> valid (windows n) = true) ->
  (forall key, asked m key <> None -> l_lists s !! key <> None) ->
  sent a x = Some sb ->
  (joined x = true /\ exists n, rq_subs m' !! x = Some n /\
     match subscribed m x with Some p => sub_limit p <> sub_limit n \/ state_of p <> state_of n | None => True end) \/
  (exists key n, rq_lists m' !! key = Some n /\ news joined chg (asked m key) n (rooms_of s' key) x).
Proof.
  intros Hl Hso H Hv Hex Hs.
  destruct (ask_lists _ _ _ _ _ _ _ _ _ _ _ _ Hl H) as (cs & a1 & a2 & -> & Hadd & Hnd & Hcs & d & Hd & ->).
  destruct (sent_none _ _ _ Hs) as (q & Hq & Hxq). apply elem_of_app in Hq as [Hq|Hq].
  - left. apply elem_of_list_omap in Hq as (y & Hy & Hqy). destruct (joined y) eqn:Ej; [|done].
    destruct (rq_subs m' !! y) as [n|] eqn:En; [|done]. injection Hqy as <-. cbn in Hxq. apply elem_of_list_singleton in Hxq as ->.
    split; [done|]. exists n. split; [done|].
    pose proof (proj1 (apply_new_subs sord m next y Hso)) as Hns. rewrite Hd in Hns. cbn in Hns.
    apply Hns in Hy as (n1 & Hn1 & Hy). rewrite En in Hn1. injection Hn1 as <-. destruct (subscribed m y); [|done]. tauto.
  - right. destruct (lists_add_from _ _ _ _ _ _ _ _ _ Hnd Hadd Hq) as (key & prev & n & s0 & s1 & a0 & Hin & Hla & Hr & Hs0 & Hqa).
    apply Hcs in Hin as [Hp Hn]. exists key, n. split; [done|]. rewrite Hp, Hr.
    destruct (list_adds_shape _ _ _ _ _ _ _ _ _ _ (Hv key n Hn) Hla) as (_ & ids & extra & -> & Hids & _ & Hextra & Hnil & _).
    apply elem_of_cons in Hqa as [->|Hqa].
    + cbn in Hxq. pose proof (Hids x Hxq) as Hxr. destruct prev as [p|]; [|done]. cbn.
      destruct (decide (default [] (rl_sort p) = default [] (rl_sort n))) as [Hsrt|Hsrt]; [|left; split; [by left|done]].
      destruct (chg (Some p) n) eqn:Ec; [left; split; [by right|done]|].
      destruct (decide (windows p = windows n)) as [Hw|Hw]; [|by right; right].
      exfalso. rewrite (Hnil p eq_refl Hsrt eq_refl Hw) in Hxq; [by apply elem_of_nil in Hxq|].
      right. rewrite Hs0. apply Hex. by rewrite Hp.
    + destruct (Hextra q x Hqa Hxq) as (p & -> & Hj & Hin & Hc). cbn. right. left. done.
Qed.

(** ** Examples *)
Definition room (x : string) (ts : Z) : conn_room :=
  mk_conn_room (mk_meta x [] x "" "" 2 0 ts ∅ false None None None ∅) false false false 0 0 "" ∅ ∅ (<["k" := ts]> ∅).
Definition three : rlists := mk_rlists (<["a" := room "a" 1]> (<["b" := room "b" 2]> (<["c" := room "c" 3]> ∅))) ∅.
Definition same (_ : option rlist) (_ : rlist) : bool := false.
Definition all_joined (_ : string) : bool := true.
Definition wants (lim : Z) (st : option (list (string * string))) (old : option room_sub) (heroes : option bool)
    (r : option ranges) (all : option bool) : req :=
  mk_rq (<["k" := mk_rlist st lim old heroes r None None all false None]> ∅) ∅ [] (fun _ => None).
Definition subscribes (x : string) (sb : room_sub) : req := mk_rq ∅ (<[x := sb]> ∅) [] (fun _ => None).

(** The requests of a connection, one after the other: the last effective request and lists,
    and which of the rooms the last request made the server send. *)
Definition then_ask (o : option (req * rlists * adds)) (next : req) : option (req * rlists * adds) :=
  match o with
  | Some (m, s, _) => ask_for id all_joined id id (fun _ => id) same (Some m) s next
  | None => None
  end.
Definition first_ask (next : req) : option (req * rlists * adds) := ask_for id all_joined id id (fun _ => id) same None three next.
Definition gets (o : option (req * rlists * adds)) : option (list (option (Z * list (string * string)))) :=
  match o with
  | Some (_, _, a) => Some (map (fun x => (fun sb => (sub_limit sb, state_of sb)) <$> sent a x) ["c"; "b"; "a"])
  | None => None
  end.

(** Two rooms in view; a longer timeline; other state and another room in view; nothing new; a
    subscription; a longer one. *)
Example C98_example :
  let o1 := first_ask (wants 1 None None None (Some [(0, 1)]) None) in
  let o2 := then_ask o1 (wants 5 None None None None None) in
  let o3 := then_ask o2 (wants 0 (Some [("m.room.topic", "")]) None None (Some [(0, 2)]) None) in
  let o4 := then_ask o3 (wants 0 None None None None None) in
  let o5 := then_ask o4 (subscribes "a" (mk_sub None 7 None None)) in
  let o6 := then_ask o5 (subscribes "a" (mk_sub None 9 None None)) in
  (gets o1, gets o2, gets o3, gets o4, gets o5, gets o6) =
  (Some [Some (1, []); Some (1, []); None], Some [Some (5, []); Some (5, []); None],
   Some [Some (0, [("m.room.topic", "")]); Some (0, [("m.room.topic", "")]); Some (5, [("m.room.topic", ""); ("m.room.topic", "")])],
   Some [None; None; None], Some [None; None; Some (7, [])], Some [None; None; Some (9, [])]).
Proof. vm_compute. reflexivity. Qed.

(** The second request meets the hypotheses of [C98_longer_timeline_partial] for room "b". *)
Example C98_example_longer : exists m s next m' s' a p n,
  ask_for id all_joined id id (fun _ => id) same m s next = Some (m', s', a) /\
  asked m "k" = Some p /\ rq_lists m' !! "k" = Some n /\ valid (windows n) = true /\ rl_limit p <> rl_limit n /\
  rooms_of s' "k" = ["c"; "b"; "a"] /\ in_windows (windows n) (rooms_of s' "k") "b".
Proof.
  set (o1 := first_ask (wants 1 None None None (Some [(0, 1)]) None)). set (nx := wants 5 None None None None None).
  assert (exists m s a, o1 = Some (m, s, a)) as (m & s & a & Ho).
  { destruct o1 as [[[m s] a]|] eqn:E; [by exists m, s, a|]. exfalso. revert E. unfold o1. vm_compute. discriminate. }
  assert (exists m' s' a', then_ask o1 nx = Some (m', s', a')) as (m' & s' & a' & Ho2).
  { destruct (then_ask o1 nx) as [[[m' s'] a']|] eqn:E; [by exists m', s', a'|]. exfalso. revert E. unfold o1, nx. vm_compute. discriminate. }
  exists (Some m), s, nx, m', s', a'.
  assert (Hp : asked (Some m) "k" = Some (mk_rlist None 1 None None (Some [(0, 1)]) (Some ["by_recency"]) None None false None)).
  { transitivity (asked ((fun o => o.1.1) <$> o1) "k"); [by rewrite Ho|]. unfold o1. vm_compute. reflexivity. }
  assert (Hn : rq_lists m' !! "k" = Some (mk_rlist None 5 None None (Some [(0, 1)]) (Some ["by_recency"]) None None false None)).
  { transitivity (asked ((fun o => o.1.1) <$> then_ask o1 nx) "k"); [by rewrite Ho2|]. unfold o1, nx. vm_compute. reflexivity. }
  assert (Hr : rooms_of s' "k" = ["c"; "b"; "a"]).
  { transitivity (default [] ((fun o => rooms_of o.1.2 "k") <$> then_ask o1 nx)); [by rewrite Ho2|]. unfold o1, nx. vm_compute. reflexivity. }
  eexists _, _. split; [|split; [exact Hp|split; [exact Hn|]]].
  - rewrite Ho in Ho2. exact Ho2.
  - split; [reflexivity|]. split; [cbn; lia|]. split; [exact Hr|]. rewrite Hr. exists 1. split; [|split; [lia|reflexivity]].
    exists (0, 1). split; [by left|cbn; lia].
Qed.

(** C98 is false of lists that ask for all rooms: they need no windows, and then a longer
    timeline or other state brings nothing. *)
Theorem C98_all_rooms_refuted :
  let o1 := first_ask (wants 1 None None None None (Some true)) in
  let o2 := then_ask o1 (wants 5 (Some [("m.room.topic", "")]) None None None None) in
  gets o1 = Some [Some (1, []); Some (1, []); Some (1, [])] /\ gets o2 = Some [None; None; None].
Proof. vm_compute. split; reflexivity. Qed.

(** C98 is false of heroes and old rooms: asked for later, for rooms in the windows of a list
    or subscribed to, they bring nothing. *)
Theorem C98_heroes_refuted :
  let o1 := first_ask (wants 1 None None None (Some [(0, 2)]) None) in
  let o2 := then_ask o1 (wants 0 None (Some (mk_sub None 1 None None)) (Some true) None None) in
  let o3 := first_ask (subscribes "a" (mk_sub None 1 None None)) in
  let o4 := then_ask o3 (subscribes "a" (mk_sub None 1 (Some (mk_sub None 1 None None)) (Some true))) in
  gets o1 = Some [Some (1, []); Some (1, []); Some (1, [])] /\ gets o2 = Some [None; None; None] /\
  gets o3 = Some [None; None; Some (1, [])] /\ gets o4 = Some [None; None; None].
Proof. vm_compute. split; [reflexivity|]. split; [reflexivity|]. split; reflexivity. Qed.

(** ... and a subscription which only adds them is not taken over at all: the live updates of
    the room go on by the old one. *)
Theorem C98_not_taken_over_refuted :
  let reqs := [(subscribes "a" (mk_sub None 1 None None), all_joined); (subscribes "a" (mk_sub None 1 None (Some true)), all_joined)] in
  let c := sub_requests id reqs in
  (sub_heroes <$> (match sc_muxed c with Some m => rq_subs m | None => ∅ end) !! "a", sub_heroes <$> sc_active c !! "a") = (Some (Some true), Some None).
Proof. vm_compute. reflexivity. Qed.

Print Assumptions C98_longer_timeline_partial.
Print Assumptions C98_other_state_partial.
Print Assumptions C98_new_rooms_partial.
Print Assumptions C98_subscribed_partial.
Print Assumptions C98_nothing_else.
Print Assumptions C98_all_rooms_refuted.
Print Assumptions C98_heroes_refuted.
Print Assumptions C98_not_taken_over_refuted.
