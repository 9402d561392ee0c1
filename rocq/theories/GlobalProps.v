(** C46: the metadata of a room is what its events say. *)
From Verif Require Import Prelude RoomNameModel GlobalModel GlobalSpec GlobalProofs.
Open Scope string_scope. Open Scope list_scope. Open Scope Z_scope.

(** A history in two rooms: a space is made, named, gets members and children, is renamed,
    a child goes, and it is upgraded. *)
Definition ev0 (room type : string) (key : option string) (nid : Z) : gevent :=
  mk_gevent room type key "" "" "" "" None "" false "" false "" "" 0 0 (1000 + nid) nid.
Definition ev_create room nid : gevent := mk_gevent room "m.room.create" (Some "") "" "" "" "" (Some "m.space") "!old" false "" false "" "" 0 0 (1000 + nid) nid.
Definition ev_name room name nid : gevent := mk_gevent room "m.room.name" (Some "") name "" "" "" None "" false "" false "" "" 0 0 (1000 + nid) nid.
Definition ev_avatar room url nid : gevent := mk_gevent room "m.room.avatar" (Some "") "" url "" "" None "" false "" false "" "" 0 0 (1000 + nid) nid.
Definition ev_alias room alias nid : gevent := mk_gevent room "m.room.canonical_alias" (Some "") "" "" "" alias None "" false "" false "" "" 0 0 (1000 + nid) nid.
Definition ev_tombstone room to nid : gevent := mk_gevent room "m.room.tombstone" (Some "") "" "" to "" None "" false "" false "" "" 0 0 (1000 + nid) nid.
Definition ev_child room child via nid : gevent := mk_gevent room "m.space.child" (Some child) "" "" "" "" None "" via "" false "" "" 0 0 (1000 + nid) nid.
Definition ev_member room user ms change name j i nid : gevent := mk_gevent room "m.room.member" (Some user) "" "" "" "" None "" false ms change name "" j i (1000 + nid) nid.
Definition hist : list gstep :=
  [GEvent (ev_create "!s" 1); GEvent (ev_member "!s" "@a" "join" true "Ann" 1 0 2); GEvent (ev_name "!s" "First" 3);
   GEvent (ev_child "!s" "!c1" true 4); GEvent (ev_child "!s" "!c2" true 5); GEvent (ev_name "!r" "Other" 6); GEphemeral "!s";
   GEvent (ev_member "!s" "@b" "invite" true "Bob" 1 1 7); GEvent (ev0 "!s" "m.room.encryption" (Some "") 8);
   GEvent (ev_member "!s" "@a" "join" false "Annie" 1 1 9); GEvent (ev_name "!s" "Second" 10); GEvent (ev_child "!s" "!c1" false 11);
   GEvent (ev_alias "!s" "#s:x" 12); GEvent (ev_avatar "!s" "mxc://x/y" 13); GEvent (ev_member "!s" "@b" "leave" true "" 1 0 14);
   GEvent (ev_tombstone "!s" "!new" 15); GEvent (ev0 "!s" "m.room.message" None 16); GEvent (ev0 "!s" "m.room.name" (Some "x") 17)].
Example hist_ok : never_reset "!s" hist /\ length (room_events "!s" hist) = 16%nat.
Proof. split; [|reflexivity]. intros evs H. repeat (destruct H as [H|H]; [discriminate H|]). exact H. Qed.

(** After any history in which the room is not reloaded, each field is read in the latest
    event which sets it, and stays as it was if there is none. *)
Theorem C46_name_avatar_alias : forall (c : cache) (l : list gstep) (room : string), never_reset room l ->
  let evs := room_events room l in let old := load_room c room in let new := load_room (gruns c l) room in
  as_latest (is_state "m.room.name" "") evs g_name (m_name old) (m_name new)
  /\ as_latest (is_state "m.room.avatar" "") evs g_url (m_avatar old) (m_avatar new)
  /\ as_latest (is_state "m.room.canonical_alias" "") evs g_alias (m_alias old) (m_alias new).
Proof.
  intros c l room H evs old new. unfold new. rewrite load_runs by done.
  split_and!; apply as_latest_fold; first [apply _|intros m e Hp].
  - by apply step_name.
  - by apply step_name.
  - by apply step_avatar.
  - by apply step_avatar.
  - by apply step_alias.
  - by apply step_alias.
Qed.
Print Assumptions C46_name_avatar_alias.
Example C46_name_avatar_alias_used :
  let new := load_room (gruns ∅ hist) "!s" in m_name new = "Second" /\ m_avatar new = "mxc://x/y" /\ m_alias new = "#s:x"
  /\ latest (is_state "m.room.name" "") (room_events "!s" hist) (ev_name "!s" "Second" 10).
Proof.
  split_and!; [reflexivity..|]. exists (take 8 (room_events "!s" hist)), (drop 9 (room_events "!s" hist)).
  split; [vm_compute; reflexivity|]. split; [split; reflexivity|]. intros x Hx (X & Y). vm_compute in Hx.
  repeat (destruct Hx as [<-|Hx]; [first [discriminate X|discriminate Y]|]). exact Hx.
Qed.

Theorem C46_encrypted_upgraded : forall (c : cache) (l : list gstep) (room : string), never_reset room l ->
  let evs := room_events room l in let old := load_room c room in let new := load_room (gruns c l) room in
  as_latest (is_state "m.room.encryption" "") evs (fun _ => true) (m_encrypted old) (m_encrypted new)
  /\ as_latest (is_state "m.room.tombstone" "") evs (fun e => non_empty (g_replacement e)) (m_upgraded old) (m_upgraded new).
Proof.
  intros c l room H evs old new. unfold new. rewrite load_runs by done.
  split; apply as_latest_fold; first [apply _|intros m e Hp].
  - by apply step_encrypted.
  - by apply step_encrypted.
  - by apply step_upgraded.
  - by apply step_upgraded.
Qed.
Print Assumptions C46_encrypted_upgraded.
Example C46_encrypted_upgraded_used :
  let new := load_room (gruns ∅ hist) "!s" in m_encrypted new = true /\ m_upgraded new = Some "!new" /\ m_encrypted (load_room (gruns ∅ hist) "!r") = false.
Proof. by split_and!. Qed.

(** The type and the predecessor of a room are those of the latest creation event which
    has them. *)
Theorem C46_type_predecessor : forall (c : cache) (l : list gstep) (room : string), never_reset room l ->
  let evs := room_events room l in let old := load_room c room in let new := load_room (gruns c l) room in
  as_latest (fun e => is_state "m.room.create" "" e /\ g_type_field e <> None) evs g_type_field (m_type old) (m_type new)
  /\ as_latest (fun e => is_state "m.room.create" "" e /\ g_predecessor e <> "") evs (fun e => Some (g_predecessor e)) (m_predecessor old) (m_predecessor new).
Proof.
  intros c l room H evs old new. unfold new. rewrite load_runs by done.
  assert (forall e, Decision (is_state "m.room.create" "" e /\ g_type_field e <> None)) as D by (intros e; destruct (g_type_field e); apply _).
  split; apply as_latest_fold; try (intros e; apply _); try exact D; intros m e Hp.
  - by apply step_type.
  - by apply step_type.
  - rewrite (proj1 (step_predecessor m e)) by done. unfold non_empty. destruct Hp as (_ & Hp). by destruct (String.eqb_spec (g_predecessor e) "").
  - by apply step_predecessor.
Qed.
Print Assumptions C46_type_predecessor.
Example C46_type_predecessor_used :
  let new := load_room (gruns ∅ hist) "!s" in m_type new = Some "m.space" /\ m_predecessor new = Some "!old".
Proof. by split. Qed.

(** A room is a child of a space if the latest m.space.child event for it has servers. *)
Theorem C46_children : forall (c : cache) (l : list gstep) (room child : string), never_reset room l ->
  let evs := room_events room l in let old := load_room c room in let new := load_room (gruns c l) room in
  (forall e, latest (is_state "m.space.child" child) evs e -> (child ∈ m_children new <-> g_via e = true))
  /\ (none (is_state "m.space.child" child) evs -> (child ∈ m_children new <-> child ∈ m_children old)).
Proof.
  intros c l room child H evs old new.
  assert (as_latest (is_state "m.space.child" child) evs g_via (bool_decide (child ∈ m_children old)) (bool_decide (child ∈ m_children new))) as (H1 & H2).
  { unfold new. rewrite load_runs by done.
    exact (as_latest_fold _ _ _ (fun m : room_meta => bool_decide (child ∈ m_children m))
      (fun m e => proj1 (step_children child m e)) (fun m e => proj2 (step_children child m e)) evs old). }
  split.
  - intros e He. rewrite <- (H1 e He). by rewrite bool_decide_eq_true.
  - intros HN. specialize (H2 HN). rewrite <- (bool_decide_eq_true (child ∈ m_children new)), H2. apply bool_decide_eq_true.
Qed.
Print Assumptions C46_children.
Example C46_children_used :
  let new := load_room (gruns ∅ hist) "!s" in "!c2" ∈ m_children new /\ "!c1" ∉ m_children new.
Proof. split; apply (bool_decide_eq_true_1 _); vm_compute; reflexivity. Qed.

(** The counts are those computed for the latest change of a membership; the time of the
    room and of each type of event are those of the latest event. *)
Theorem C46_counts_times : forall (c : cache) (l : list gstep) (room type : string), never_reset room l ->
  let evs := room_events room l in let old := load_room c room in let new := load_room (gruns c l) room in
  as_latest membership_change evs (fun e => (g_joins e, g_invites e)) (m_join old, m_invite old) (m_join new, m_invite new)
  /\ as_latest (fun _ => True) evs g_ts (m_last_ts old) (m_last_ts new)
  /\ as_latest (fun e => g_type e = type) evs (fun e => Some (g_nid e, g_ts e)) (m_latest old !! type) (m_latest new !! type).
Proof.
  intros c l room type H evs old new. unfold new. rewrite load_runs by done. split_and!.
  - apply (as_latest_fold _ _ (fun e => (g_joins e, g_invites e)) (fun m => (m_join m, m_invite m))); intros m e Hp; by apply step_counts.
  - apply as_latest_fold; [apply _|done|done].
  - apply (as_latest_fold _ _ _ (fun m => m_latest m !! type)); intros m e Hp; by apply step_latest.
Qed.
Print Assumptions C46_counts_times.
Example C46_counts_times_used :
  let new := load_room (gruns ∅ hist) "!s" in m_join new = 1 /\ m_invite new = 0 /\ m_last_ts new = 1017 /\ m_latest new !! "m.room.message" = Some (16, 1016).
Proof. vm_compute. by split_and!. Qed.

(** No step changes another room. *)
Theorem C46_other_rooms : forall (c : cache) (s : gstep) (room : string),
  match s with GEvent e => g_room e <> room | GEphemeral r => True | GInvalidate r _ => r <> room end ->
  load_room (gstep1 c s) room = load_room c room.
Proof.
  intros c s room H. destruct s as [e|r|r evs]; cbn [gstep1].
  - by apply load_event_ne.
  - apply load_ephemeral.
  - by apply load_invalidate_ne.
Qed.
Print Assumptions C46_other_rooms.

(** Heroes are distinct and at most six, whatever happens. *)
Theorem C46_heroes_distinct : forall (l : list gstep) (room : string), resets_ok l ->
  let heroes := m_heroes (load_room (gruns ∅ l) room) in List.NoDup (map h_id heroes) /\ (length heroes <= 6)%nat.
Proof.
  intros l room H heroes. unfold heroes, load_room. destruct (gruns ∅ l !! room) as [m|] eqn:E; [|split; [constructor|cbn; lia]].
  refine (gruns_heroes_ok l ∅ H _ room m E). intros r m0 X. by rewrite lookup_empty in X.
Qed.
Print Assumptions C46_heroes_distinct.
(** A hero is in the room or invited: the latest event by which they came or went is one by
    which they came. *)
Theorem C46_heroes_in_room : forall (c : cache) (l : list gstep) (room : string) (h : hero),
  never_reset room l -> c !! room = None -> In h (m_heroes (load_room (gruns c l) room)) ->
  exists e, latest (moves (h_id h)) (room_events room l) e /\ comes e.
Proof.
  intros c l room h HR H0 Hh. rewrite load_runs in Hh by done. refine (heroes_came _ _ _ h Hh).
  unfold load_room. by rewrite H0.
Qed.
Print Assumptions C46_heroes_in_room.
(** If at most five users ever came, the heroes are precisely those who are in the room or
    invited, with their latest profiles. *)
Theorem C46_heroes_partial : forall (c : cache) (l : list gstep) (room : string) (h : hero),
  never_reset room l -> c !! room = None -> few_users 5 (room_events room l) ->
  In h (m_heroes (load_room (gruns c l) room)) <->
  exists e, latest (moves (h_id h)) (room_events room l) e /\ comes e /\ h = hero_of (h_id h) e.
Proof.
  intros c l room h HR H0 Hf. rewrite load_runs by done. apply heroes_exact; [|done]. unfold load_room. by rewrite H0.
Qed.
Print Assumptions C46_heroes_partial.
Example C46_heroes_used :
  resets_ok hist /\ few_users 5 (room_events "!s" hist) /\ m_heroes (load_room (gruns ∅ hist) "!s") = [mk_hero "@a" "Annie" ""].
Proof.
  split; [|split; [|vm_compute; reflexivity]].
  - intros room evs H. repeat (destruct H as [H|H]; [discriminate H|]). destruct H.
  - exists ["@a"; "@b"]. split; [cbn; lia|]. intros e u He (X & Y) _. vm_compute in He.
    repeat (destruct He as [<-|He]; [first [discriminate X|injection Y as <-; first [by left|right; by left]]|]). destruct He.
Qed.

(** With six heroes a change of profile is not seen: a hero keeps an old name. *)
Definition six : list gstep := map (fun u => GEvent (ev_member "!r" u "join" true u 1 0 1)) ["@a"; "@b"; "@c"; "@d"; "@e"; "@f"].
Theorem C46_hero_profile_refuted : exists (l : list gstep) (h : hero) (e : gevent),
  never_reset "!r" l /\ In h (m_heroes (load_room (gruns ∅ l) "!r"))
  /\ latest (is_member (h_id h)) (room_events "!r" l) e /\ comes e /\ h_name h <> g_displayname e.
Proof.
  exists (six ++ [GEvent (ev_member "!r" "@a" "join" false "New" 6 0 9)]), (mk_hero "@a" "@a" ""), (ev_member "!r" "@a" "join" false "New" 6 0 9).
  split; [|split; [|split; [|split]]].
  - intros evs H. repeat (destruct H as [H|H]; [discriminate H|]). exact H.
  - vm_compute. by left.
  - exists (room_events "!r" six), []. split; [vm_compute; reflexivity|]. split; [split; reflexivity|]. intros x [].
  - by left.
  - discriminate.
Qed.
Print Assumptions C46_hero_profile_refuted.
(** When the first six members go the room has no heroes, though two members who came later
    are there; its name is then wrong. *)
Definition gone : list gstep :=
  six ++ map (fun u => GEvent (ev_member "!r" u "join" true u 8 0 7)) ["@g"; "@h"]
  ++ map (fun u => GEvent (ev_member "!r" u "leave" true "" 2 0 9)) ["@a"; "@b"; "@c"; "@d"; "@e"; "@f"].
Theorem C46_heroes_lost_refuted : exists (l : list gstep) (e1 e2 : gevent),
  never_reset "!r" l /\ latest (moves "@g") (room_events "!r" l) e1 /\ comes e1 /\ latest (moves "@h") (room_events "!r" l) e2 /\ comes e2
  /\ m_join (load_room (gruns ∅ l) "!r") = 2 /\ m_heroes (load_room (gruns ∅ l) "!r") = []
  /\ room_name id (load_room (gruns ∅ l) "!r") 5 = Some (" and 1 others", true).
Proof.
  exists gone, (ev_member "!r" "@g" "join" true "@g" 8 0 7), (ev_member "!r" "@h" "join" true "@h" 8 0 7). split; [|split; [|split; [|split; [|split; [|split; [|split]]]]]].
  - intros evs H. repeat (destruct H as [H|H]; [discriminate H|]). exact H.
  - exists (take 6 (room_events "!r" gone)), (drop 7 (room_events "!r" gone)). split; [vm_compute; reflexivity|].
    split; [split; [split; reflexivity|left; by left]|]. intros x Hx ((X & Y) & _). vm_compute in Hx.
    repeat (destruct Hx as [<-|Hx]; [first [discriminate X|discriminate Y]|]). exact Hx.
  - by left.
  - exists (take 7 (room_events "!r" gone)), (drop 8 (room_events "!r" gone)). split; [vm_compute; reflexivity|].
    split; [split; [split; reflexivity|left; by left]|]. intros x Hx ((X & Y) & _). vm_compute in Hx.
    repeat (destruct Hx as [<-|Hx]; [first [discriminate X|discriminate Y]|]). exact Hx.
  - by left.
  - vm_compute. reflexivity.
  - vm_compute. reflexivity.
  - vm_compute. reflexivity.
Qed.
Print Assumptions C46_heroes_lost_refuted.

(** Reloading a room from its snapshot: what the snapshot has is taken over, the members
    are counted, and the heroes are the last six to have come. *)
Theorem C46_reset : forall (c : cache) (room : string) (evs : list gevent) (old : room_meta),
  c !! room = Some old -> snapshot_ok evs ->
  let new := load_room (on_invalidate c room (Some evs)) room in
  (forall e, In e evs -> is_state "m.room.name" "" e -> m_name new = g_name e)
  /\ (forall e, In e evs -> is_state "m.room.avatar" "" e -> m_avatar new = g_url e)
  /\ (forall e, In e evs -> is_state "m.room.canonical_alias" "" e -> m_alias new = g_alias e)
  /\ (forall e, In e evs -> is_state "m.room.encryption" "" e -> m_encrypted new = true)
  /\ m_join new = Z.of_nat (length (with_membership "join" evs))
  /\ m_invite new = Z.of_nat (length (with_membership "invite" evs))
  /\ Permutation (m_heroes new) (map (fun e => hero_of (default "" (g_key e)) e) (last_n 6 (joined_or_invited evs)))
  /\ m_last_ts new = m_last_ts old /\ m_latest new = m_latest old /\ m_type new = m_type old
  /\ m_predecessor new = m_predecessor old /\ m_upgraded new = m_upgraded old.
Proof.
  intros c room evs old Ec (ND & HF) new. unfold new. rewrite load_invalidate, Ec.
  pose proof (reset_heroes old evs) as Hh.
  unfold reset_meta in *. pose proof (reset_fold (set_children (set_members old (m_heroes old) 0 0) ∅) evs) as R. cbn zeta in R.
  destruct (fold_left reset_event _ _) as (m1 & hs). cbn [fst snd] in R. destruct R as (R & Ch & N & Av & Al & En & J & I & _).
  destruct R as (R1 & R2 & R3 & R4 & R5 & R6 & R7).
  cbn [set_members m_name m_avatar m_alias m_encrypted m_join m_invite m_heroes m_last_ts m_latest m_type m_predecessor m_upgraded fst snd] in *.
  cbn [set_children set_members m_join m_invite] in J, I.
  assert (forall ty e, In e evs -> is_state ty "" e -> latest (is_state ty "") evs e) as HL.
  { intros ty e He Hs. apply in_split in He. destruct He as (l1 & l2 & ->). exists l1, l2. split_and!; [done|done|].
    intros x Hx (X & Y). destruct Hs as (Et & Ek). rewrite map_app in ND. cbn [map] in ND. apply NoDup_remove_2 in ND.
    apply ND. apply in_or_app. right. apply in_map_iff. exists x. split; [congruence|done]. }
  split_and!; try done; try lia.
  - intros e He Hs. by apply N, HL.
  - intros e He Hs. by apply Av, HL.
  - intros e He Hs. by apply Al, HL.
  - intros e He Hs. destruct En as (En & _). by apply (En e), HL.
Qed.
Print Assumptions C46_reset.
Definition snap : list gevent :=
  [ev_create "!s" 1; ev_member "!s" "@a" "join" true "Ann" 1 0 2; ev_member "!s" "@b" "invite" true "Bob" 1 1 7; ev_name "!s" "Third" 20; ev_child "!s" "!c2" true 21].
Example C46_reset_used :
  snapshot_ok snap /\ (exists old, gruns ∅ hist !! "!s" = Some old) /\
  let new := load_room (on_invalidate (gruns ∅ hist) "!s" (Some snap)) "!s" in m_name new = "Third" /\ m_join new = 1 /\ m_invite new = 1 /\ length (m_heroes new) = 2%nat.
Proof.
  split; [split; [|repeat constructor; discriminate]|split; [exists (load_room (gruns ∅ hist) "!s"); vm_compute; reflexivity|vm_compute; by split_and!]].
  repeat (constructor; [intros X; repeat (destruct X as [X|X]; [discriminate X|]); exact X|]). constructor.
Qed.

(** A name which is no longer in the state of the room stays. *)
Theorem C46_reset_name_refuted : exists (c : cache) (evs : list gevent) (old : room_meta),
  c !! "!s" = Some old /\ snapshot_ok evs /\ none (is_state "m.room.name" "") evs
  /\ m_name (load_room (on_invalidate c "!s" (Some evs)) "!s") = "Second".
Proof.
  exists (gruns ∅ hist), (take 3 snap), (load_room (gruns ∅ hist) "!s"). split; [vm_compute; reflexivity|]. split; [|split; [|vm_compute; reflexivity]].
  - split; [|repeat constructor; discriminate].
    repeat (constructor; [intros X; repeat (destruct X as [X|X]; [discriminate X|]); exact X|]). constructor.
  - intros x Hx (X & Y). repeat (destruct Hx as [<-|Hx]; [first [discriminate X|discriminate Y]|]). exact Hx.
Qed.
Print Assumptions C46_reset_name_refuted.
(** Reloading a space takes away all its children, whatever is in its state. *)
Theorem C46_reset_children_refuted :
  (forall (c : cache) (room : string) (evs : list gevent), m_children (load_room (on_invalidate c room (Some evs)) room) = ∅)
  /\ exists (c : cache) (evs : list gevent) (e : gevent), snapshot_ok evs /\ In e evs /\ is_state "m.space.child" "!c2" e /\ g_via e = true
     /\ "!c2" ∈ m_children (load_room c "!s") /\ "!c2" ∉ m_children (load_room (on_invalidate c "!s" (Some evs)) "!s").
Proof.
  assert (forall (c : cache) (room : string) (evs : list gevent), m_children (load_room (on_invalidate c room (Some evs)) room) = ∅) as All.
  { intros c room evs. rewrite load_invalidate. destruct (c !! room) as [m|]; [|done]. unfold reset_meta.
    pose proof (reset_fold (set_children (set_members m (m_heroes m) 0 0) ∅) evs) as R. cbn zeta in R.
    destruct (fold_left reset_event _ _) as (m1 & hs). cbn [fst snd] in R. destruct R as (_ & Ch & _). exact Ch. }
  split; [exact All|]. exists (gruns ∅ hist), snap, (ev_child "!s" "!c2" true 21). split; [|split; [|split; [|split; [|split]]]].
  - exact (proj1 C46_reset_used).
  - cbn. tauto.
  - split; reflexivity.
  - reflexivity.
  - apply (bool_decide_eq_true_1 _). vm_compute. reflexivity.
  - rewrite All. apply not_elem_of_empty.
Qed.
Print Assumptions C46_reset_children_refuted.
