(** Properties of setting up what is kept for a user while updates arrive. *)
From Verif Require Import Prelude SetupModel SetupSpec SetupProofs.
Open Scope string_scope. Open Scope list_scope. Open Scope Z_scope.

(** Every connection of a user knows what is stored about the user, once all notifications
    are handled, whatever was stored, notified and requested in which order: if no
    notification was handled between a request's reading and its storing of the cache,
    and no room was invalidated while a request held a cache without a connection. *)
Theorem C70_connections_know_partial l s :
  runs l st0 = Some s -> always sane l st0 -> always no_lost l st0 -> always no_orphan l st0 -> idle s ->
  forall t k, (section k <= 5)%nat -> conns s !! t <> None -> sees s t k = Some (val (db s) k).
Proof.
  intros H Hsane Hl Ho (W & Q & T & I) t k Hk Hc.
  pose proof (fresh_runs _ _ _ fresh0 Hl Hsane H) as [FL FST _ FM FR _ _ _ _ _].
  pose proof (own_runs _ _ _ own0 Ho H) as [C1 _ _ C4 _ _].
  unfold sees. destruct (conns s !! t) as [c|] eqn:Ec; [|done]. f_equal. fold (cval s c k).
  assert (P : pend s k = []) by (unfold pend; rewrite W, Q; reflexivity).
  destruct (C1 t c Ec) as [[n En]|Es]. { rewrite En in I. discriminate. }
  destruct (decide (section k = 5%nat)) as [E|N].
  - destruct (C4 c Es) as [Ei|[Er|[t' Ht']]].
    + rewrite Ei in I. discriminate.
    + rewrite (FR c k Er E). by apply FM.
    + rewrite T, lookup_empty in Ht'. discriminate.
  - apply FST; [exact Es|lia|exact P].
Qed.
Print Assumptions C70_connections_know_partial.

(** The children of spaces are never missed by a registered cache, in any schedule: what it
    has is what the dispatcher has told so far. *)
Theorem C70_spaces_registered l s c k :
  runs l st0 = Some s -> registered s = Some c -> section k = 5%nat -> val (default ∅ (caches s !! c)) k = val (meta s) k.
Proof.
  intros H Hr Hk. pose proof (reg_runs _ _ _ reg0 H) as F. exact (r_registered _ F c k Hr Hk).
Qed.
Print Assumptions C70_spaces_registered.

(** Requests that set up connections at the same time get the same cache, and it is the
    registered one. *)
Theorem C70_one_cache_partial l s :
  runs l st0 = Some s -> always no_orphan l st0 -> idle s ->
  forall t t' c c', conns s !! t = Some c -> conns s !! t' = Some c' -> c = c' /\ registered s = Some c.
Proof.
  intros H Ho (W & Q & T & I) t t' c c' Hc Hc'.
  pose proof (own_runs _ _ _ own0 Ho H) as [C1 _ _ C4 _ _].
  assert (Hx : forall t c, conns s !! t = Some c -> stored s = Some c).
  { intros t1 c1 H1. destruct (C1 t1 c1 H1) as [[n En]|]; [|done]. rewrite En in I. discriminate. }
  pose proof (Hx _ _ Hc) as E. pose proof (Hx _ _ Hc') as E'. split; [congruence|].
  destruct (C4 c E) as [Ei|[Er|[t1 Ht]]]; [rewrite Ei in I; discriminate|exact Er|]. rewrite T, lookup_empty in Ht. discriminate.
Qed.
Print Assumptions C70_one_cache_partial.

(** Checks for concrete schedules. *)
Definition reading (s : st) : list thread := map snd (map_to_list (threads s)).
Fixpoint states (l : list step) (s : st) : list (step * st) :=
  match l with [] => [] | x :: l => (x, s) :: match next x s with Some s' => states l s' | None => [] end end.
Lemma always_states (P : step -> st -> Prop) l s : (forall x s', In (x, s') (states l s) -> P x s') -> always P l s.
Proof.
  revert s. induction l as [|x l IH]; intros s H; [exact I|]. cbn. split; [apply H; by left|].
  destruct (next x s) eqn:E; [|exact I]. apply IH. intros y s' Hy. apply H. right. by rewrite E.
Qed.
Definition lost_ok (x : step) (s : st) : bool :=
  match x, queue s with
  | Deliver, (k, _) :: _ => forallb (fun t => match t with Reading _ n => (n <=? section k)%nat | _ => true end) (reading s)
  | _, _ => true
  end.
Lemma lost_ok_spec x s : lost_ok x s = true -> no_lost x s.
Proof.
  intros H -> t c n k v q Ht Hq. cbn in H. rewrite Hq in H. rewrite forallb_forall in H.
  assert (Hi : In (Reading c n) (reading s)). { apply in_map_iff. exists (t, Reading c n). split; [done|]. apply elem_of_list_In. by apply elem_of_map_to_list. }
  specialize (H _ Hi). cbn in H. apply Nat.leb_le in H. lia.
Qed.
Definition sane_ok (x : step) (_ : st) : bool := match x with Write k _ => (section k <=? 5)%nat | _ => true end.
Lemma sane_ok_spec x s : sane_ok x s = true -> sane x s.
Proof. destruct x; cbn; try done. apply Nat.leb_le. Qed.
Definition orphan_ok (x : step) (s : st) : bool :=
  match x with
  | Unregister | Delete | Close => forallb (fun t => match t with Reading _ _ => true | _ => false end) (reading s)
  | RegisterFails _ => false
  | _ => true
  end.
Lemma orphan_ok_spec x s : orphan_ok x s = true -> no_orphan x s.
Proof.
  assert (Hx : forallb (fun t => match t with Reading _ _ => true | _ => false end) (reading s) = true ->
    forall t c, threads s !! t <> Some (Registering c) /\ threads s !! t <> Some (Connecting c)).
  { intros H t c. rewrite forallb_forall in H. split; intros Ht.
    - assert (Hi : In (Registering c) (reading s)). { apply in_map_iff. exists (t, Registering c). split; [done|]. apply elem_of_list_In. by apply elem_of_map_to_list. }
      specialize (H _ Hi). discriminate.
    - assert (Hi : In (Connecting c) (reading s)). { apply in_map_iff. exists (t, Connecting c). split; [done|]. apply elem_of_list_In. by apply elem_of_map_to_list. }
      specialize (H _ Hi). discriminate. }
  destruct x; cbn; try done; exact Hx.
Qed.
Lemma always_by (P : step -> st -> Prop) (p : step -> st -> bool) l s :
  (forall x s', p x s' = true -> P x s') -> forallb (fun q => p q.1 q.2) (states l s) = true -> always P l s.
Proof.
  intros Hp H. apply always_states. intros x s' Hx. apply Hp. rewrite forallb_forall in H. exact (H _ Hx).
Qed.
Ltac sane := apply (always_by _ sane_ok _ _ sane_ok_spec); vm_compute; reflexivity.
Ltac losing := apply (always_by _ lost_ok _ _ lost_ok_spec); vm_compute; reflexivity.
Ltac orphan := apply (always_by _ orphan_ok _ _ orphan_ok_spec); vm_compute; reflexivity.

(** A count that changes while the cache of the user is set up is lost: the connection
    shows the old one until the count changes again. *)
Definition counts : key := (0%nat, "!r").
Definition lost : list step :=
  [Write counts 5; Notify; Deliver;
   Start 1; Read 1; Write counts 7; Notify; Deliver; Read 1; Read 1; Read 1; Read 1; Store 1; Register 1; Connect 1]%nat.
Theorem C70_lost_update_refuted :
  exists s, runs lost st0 = Some s /\ always sane lost st0 /\ always no_orphan lost st0 /\ idle s
    /\ sees s 1 counts = Some 5 /\ val (db s) counts = 7.
Proof.
  assert (E : option_map (fun s => (sees s 1 counts, val (db s) counts, writer s, queue s, inval s, map_to_list (threads s))) (runs lost st0)
     = Some (Some 5, 7, None, [], (None, 0%nat), [])) by (vm_compute; reflexivity).
  destruct (runs lost st0) as [s|] eqn:Er; [|discriminate]. exists s. injection E as E1 E2 E3 E4 E5 E6.
  split; [reflexivity|]. split; [|split].
  - sane.
  - orphan.
  - split; [|by split]. split; [exact E3|]. split; [exact E4|]. split; [by apply map_to_list_empty_iff|]. by rewrite E5.
Qed.
Print Assumptions C70_lost_update_refuted.

(** If a room is invalidated while a request is being set up, its connection can be left
    with a cache that is told nothing any more. *)
Definition orphaned : list step :=
  [Start 1; Read 1; Read 1; Read 1; Read 1; Read 1; Store 1; Register 1; Connect 1;
   Start 2; Unregister; Delete; Close; Connect 2; Write counts 7; Notify; Deliver]%nat.
Theorem C70_orphan_refuted :
  exists s, runs orphaned st0 = Some s /\ always sane orphaned st0 /\ always no_lost orphaned st0 /\ idle s
    /\ sees s 2 counts = Some 0 /\ val (db s) counts = 7 /\ stored s = None /\ registered s = None.
Proof.
  assert (E : option_map (fun s => ((sees s 2 counts, val (db s) counts, writer s, queue s, inval s), (map_to_list (threads s), stored s, registered s))) (runs orphaned st0)
     = Some ((Some 0, 7, None, [], (None, 0%nat)), ([], None, None))) by (vm_compute; reflexivity).
  destruct (runs orphaned st0) as [s|] eqn:Er; [|discriminate]. exists s. injection E as E1 E2 E3 E4 E5 E6 E7 E8.
  split; [reflexivity|]. split; [|split; [|split]].
  - sane.
  - losing.
  - split; [exact E3|]. split; [exact E4|]. split; [by apply map_to_list_empty_iff|]. by rewrite E5.
  - by repeat split.
Qed.
Print Assumptions C70_orphan_refuted.

(** If registering fails, a request which found the cache in the meantime keeps it although
    nothing is told to it any more. *)
Definition failed : list step :=
  [Start 1; Read 1; Read 1; Read 1; Read 1; Read 1; Store 1; Start 2; RegisterFails 1; Connect 2; Write counts 7; Notify; Deliver]%nat.
Theorem C70_failed_register_refuted :
  exists s, runs failed st0 = Some s /\ always sane failed st0 /\ idle s
    /\ sees s 2 counts = Some 0 /\ val (db s) counts = 7.
Proof.
  assert (E : option_map (fun s => (sees s 2 counts, val (db s) counts, writer s, queue s, inval s, map_to_list (threads s))) (runs failed st0)
     = Some (Some 0, 7, None, [], (None, 0%nat), [])) by (vm_compute; reflexivity).
  destruct (runs failed st0) as [s|] eqn:Er; [|discriminate]. exists s. injection E as E1 E2 E3 E4 E5 E6.
  split; [reflexivity|]. split; [|split].
  - sane.
  - split; [exact E3|]. split; [exact E4|]. split; [by apply map_to_list_empty_iff|]. by rewrite E5.
  - exact (conj E1 E2).
Qed.
Print Assumptions C70_failed_register_refuted.

(** A case of the theorems: two requests at once, with updates before, in between and after. *)
Definition child : key := (5%nat, "!s").
Definition good : list step :=
  [Write counts 5; Notify; Deliver; Write child 1; Start 1; Start 2; Read 1; Read 1; Read 2; Read 1; Read 1; Read 1; Store 1;
   Read 2; Read 2; Read 2; Notify; Read 2; Store 2; Connect 2; Register 1; Deliver; Connect 1; Write counts 7; Notify; Deliver]%nat.
Example C70_example :
  exists s, runs good st0 = Some s /\ always sane good st0 /\ always no_lost good st0 /\ always no_orphan good st0 /\ idle s
    /\ sees s 1 counts = Some 7 /\ sees s 2 counts = Some 7 /\ sees s 2 child = Some 1.
Proof.
  assert (E : option_map (fun s => ((sees s 1 counts, sees s 2 counts, sees s 2 child), (writer s, queue s, inval s, map_to_list (threads s)))) (runs good st0)
     = Some ((Some 7, Some 7, Some 1), (None, [], (None, 0%nat), []))) by (vm_compute; reflexivity).
  destruct (runs good st0) as [s|] eqn:Er; [|discriminate]. exists s. injection E as E1 E2 E3 E4 E5 E6 E7.
  split; [reflexivity|]. split; [|split; [|split; [|split]]].
  - sane.
  - losing.
  - orphan.
  - split; [exact E4|]. split; [exact E5|]. split; [by apply map_to_list_empty_iff|]. by rewrite E6.
  - exact (conj E1 (conj E2 E3)).
Qed.
