(** Properties of sticky requests and subscriptions (C13, C14). *)
From Verif Require Import Prelude RangeModel RoomNameModel ListsModel RequestModel RequestSpec RequestProofs.
Open Scope string_scope.
Open Scope list_scope.
Open Scope Z_scope.

(** C13. After any sequence of requests, a list exists exactly if the client has
    said something about it since it was last deleted, and then every parameter
    has the value given last. The limit is special: zero means not given. *)
Theorem C13_list_parameters_are_sticky_partial :
  forall ord reqs r key, effective ord reqs = Some r ->
  match said key reqs with
  | None => rq_lists r !! key = None
  | Some ls => exists l, rq_lists r !! key = Some l /\
      rl_state l = last_given rl_state ls /\
      rl_old l = last_given rl_old ls /\
      rl_heroes l = last_given rl_heroes ls /\
      rl_ranges l = last_given rl_ranges ls /\
      rl_filters l = last_given rl_filters ls /\
      rl_all l = last_given rl_all ls /\
      rl_bump l = last_given rl_bump ls /\
      rl_sort l = sort_given ls /\
      rl_limit l = default 0 (last_given (fun l => given_limit (rl_limit l)) ls)
  end.
Proof.
  intros ord reqs r key H. pose proof (effective_lists ord reqs key) as Hl. rewrite H in Hl.
  change (default empty_req (Some r)) with r in Hl.
  destruct (said key reqs) as [ls|]; [|done]. by exists (said_list ls).
Qed.
Print Assumptions C13_list_parameters_are_sticky_partial.

(** C13. The same for extensions. An extension which was never scoped applies to
    all lists and rooms. *)
Theorem C13_extension_parameters_are_sticky :
  forall ord reqs r k, effective ord reqs = Some r ->
  match said_ext k reqs with
  | [] => rq_exts r k = None
  | es => exists e, rq_exts r k = Some e /\
      e_enabled e = last_given e_enabled es /\
      e_lists e = Some (default ["*"] (last_given e_lists es)) /\
      e_rooms e = Some (default ["*"] (last_given e_rooms es)) /\
      e_limit e = default 0 (last_given (fun e => given_limit (e_limit e)) es) /\
      e_since e = default "" (last_given (fun e => given_since (e_since e)) es)
  end.
Proof.
  intros ord reqs r k H. pose proof (effective_exts ord reqs k) as Hl. rewrite H in Hl.
  change (default empty_req (Some r)) with r in Hl.
  destruct (said_ext k reqs) as [|e es]; [done|]. by eexists.
Qed.
Print Assumptions C13_extension_parameters_are_sticky.

(** C13. A list always has a sort order when it is made. *)
Theorem C13_new_lists_are_sorted :
  forall ord r next key l, rq_lists (default empty_req r) !! key = None ->
  rq_lists (apply_delta ord r next).1 !! key = Some l -> exists s rest, rl_sort l = Some (s :: rest).
Proof.
  intros ord r next key l H0 H. rewrite apply_lists, H0 in H.
  destruct (rq_lists next !! key) as [n|]; [|done]. cbn in H. injection H as <-. unfold new_rlist.
  destruct (rl_sort n) as [[|s rest]|] eqn:E; cbn; [by eauto| |by eauto]. rewrite E. by eauto.
Qed.
Print Assumptions C13_new_lists_are_sorted.

Definition list0 : rlist := mk_rlist None 0 None None None None None None false None.
Definition with_limit (n : Z) : rlist := mk_rlist None n None None None None None None false None.
Definition with_ranges (r : ranges) : rlist := mk_rlist None 0 None None (Some r) None None None false None.
Definition with_sort (s : list string) : rlist := mk_rlist None 0 None None None (Some s) None None false None.
Definition with_deleted : rlist := mk_rlist None 0 None None None None None None true None.
Definition on_list (key : string) (l : rlist) : req := mk_rq (<[key := l]> ∅) ∅ [] (fun _ => None).

Example C13_example :
  (fun r => (fun l => (rl_limit l, rl_ranges l, rl_sort l)) <$> rq_lists r !! "a") <$>
    effective id [on_list "a" (with_limit 5); on_list "b" list0; on_list "a" (with_ranges [(0, 9)]);
                  on_list "a" (with_limit 7); on_list "a" (with_sort ["by_name"])]
  = Some (Some (7, Some [(0, 9)], Some ["by_name"])).
Proof. vm_compute. done. Qed.
Example C13_example_deleted_and_made_again :
  (fun r => (fun l => (rl_limit l, rl_ranges l, rl_sort l)) <$> rq_lists r !! "a") <$>
    effective id [on_list "a" (with_limit 5); on_list "a" with_deleted; on_list "a" (with_ranges [(0, 9)])]
  = Some (Some (0, Some [(0, 9)], Some ["by_recency"])).
Proof. vm_compute. done. Qed.

(** C13 is false for a timeline limit of zero: it cannot be set again. *)
Theorem C13_zero_limit_is_ignored_refuted :
  (fun r => rl_limit <$> rq_lists r !! "a") <$> effective id [on_list "a" (with_limit 5); on_list "a" (with_limit 0)]
  = Some (Some 5).
Proof. vm_compute. done. Qed.
Print Assumptions C13_zero_limit_is_ignored_refuted.

(** C14. A list which exists and is marked deleted is gone, and reported as such. *)
Theorem C14_deleted_lists_are_gone_partial :
  forall ord r next key e l, rq_lists r !! key = Some e -> rq_lists next !! key = Some l -> rl_deleted l = true ->
  rq_lists (apply_delta ord (Some r) next).1 !! key = None /\
  dl_lists (apply_delta ord (Some r) next).2 !! key = Some (Some e, None).
Proof.
  intros ord r next key e l He Hl Hd.
  assert (H : rq_lists (apply_delta ord (Some r) next).1 !! key = None).
  { rewrite apply_lists. change (default empty_req (Some r)) with r. rewrite He, Hl. cbn. by rewrite Hd. }
  split; [done|]. rewrite apply_dlists, H. change (default empty_req (Some r)) with r. by rewrite He.
Qed.
Print Assumptions C14_deleted_lists_are_gone_partial.

(** C14. The reported lists are exactly those before and those after. *)
Theorem C14_reported_lists_are_exact :
  forall ord r next key,
  dl_lists (apply_delta ord (Some r) next).2 !! key =
  match rq_lists r !! key, rq_lists (apply_delta ord (Some r) next).1 !! key with
  | None, None => None
  | before, after => Some (before, after)
  end.
Proof. intros ord r next key. by rewrite apply_dlists. Qed.
Print Assumptions C14_reported_lists_are_exact.

(** C14 is false for a list which does not exist: marking it deleted makes it. *)
Theorem C14_deleting_an_unknown_list_makes_it_refuted :
  (fun r => rl_sort <$> rq_lists r !! "a") <$> effective id [on_list "a" with_deleted] = Some (Some (Some ["by_recency"])).
Proof. vm_compute. done. Qed.
Print Assumptions C14_deleting_an_unknown_list_makes_it_refuted.

(** C14. After any requests, a further one leaves a room subscribed exactly if it
    was or is asked for, and is not unsubscribed from; what is asked for counts. *)
Theorem C14_subscribed_rooms :
  forall ord reqs next x,
  subscribed (effective ord (reqs ++ [next])) x =
  if bool_decide (x ∈ rq_unsubs next) then None
  else match rq_subs next !! x with Some s => Some s | None => subscribed (effective ord reqs) x end.
Proof.
  intros ord reqs next x. rewrite effective_snoc. cbn [subscribed]. apply apply_subs, effective_settled.
Qed.
Print Assumptions C14_subscribed_rooms.

(** C14. The reported subscriptions are the rooms whose required state or
    timeline limit differs from before, each once. *)
Theorem C14_reported_subscriptions_partial :
  forall ord reqs next x, (forall l, ord l ≡ₚ l) ->
  let d := (apply_delta ord (effective ord reqs) next).2 in
  NoDup (dl_subs d) /\
  (x ∈ dl_subs d <->
   exists s, subscribed (effective ord (reqs ++ [next])) x = Some s /\
     match subscribed (effective ord reqs) x with
     | Some o => state_of o <> state_of s \/ sub_limit o <> sub_limit s
     | None => True
     end).
Proof.
  intros ord reqs next x Ho. cbn zeta. destruct (apply_new_subs ord (effective ord reqs) next x Ho) as [H1 H2].
  split; [done|]. rewrite H1, effective_snoc. done.
Qed.
Print Assumptions C14_reported_subscriptions_partial.

(** C14. The reported unsubscriptions are the subscribed rooms which the request
    unsubscribes from (and does not also subscribe to), each once. *)
Theorem C14_reported_unsubscriptions_partial :
  forall ord reqs next x,
  let d := (apply_delta ord (effective ord reqs) next).2 in
  NoDup (dl_unsubs d) /\
  (x ∈ dl_unsubs d <->
   x ∈ rq_unsubs next /\ is_Some (subscribed (effective ord reqs) x) /\ rq_subs next !! x = None).
Proof.
  intros ord reqs next x. cbn zeta.
  destruct (apply_unsubs ord (effective ord reqs) next x (effective_settled ord reqs)) as [H1 H2]. done.
Qed.
Print Assumptions C14_reported_unsubscriptions_partial.

(** C14. If every request is plain (see RequestSpec.v), the subscriptions active
    on the connection are always those the client asked for. *)
Theorem C14_active_subscriptions_partial :
  forall ord reqs, (forall l, ord l ≡ₚ l) ->
  (forall pre next joined post, reqs = pre ++ (next, joined) :: post ->
     plain_request (effective ord (map fst pre)) next joined) ->
  forall x, sc_active (sub_requests ord reqs) !! x = subscribed (effective ord (map fst reqs)) x.
Proof. exact active_effective. Qed.
Print Assumptions C14_active_subscriptions_partial.

Definition sub_of (limit : Z) (old : option room_sub) : room_sub := mk_sub (Some [("t", "")]) limit old None.
Definition subscribe (x : string) (s : room_sub) : req := mk_rq ∅ (<[x := s]> ∅) [] (fun _ => None).
Definition subscribe_not (x : string) (s : room_sub) : req := mk_rq ∅ (<[x := s]> ∅) [x] (fun _ => None).
Definition unsubscribe (x : string) : req := mk_rq ∅ ∅ [x] (fun _ => None).
Definition yes : string -> bool := fun _ => true.
Definition no : string -> bool := fun _ => false.
Definition limits (c : sub_conn) (x : string) : option Z * option Z :=
  (sub_limit <$> sc_active c !! x, sub_limit <$> subscribed (sc_muxed c) x).

Example C14_example :
  (map (fun n => limits (sub_requests id (take n
     [(subscribe "a" (sub_of 5 None), yes); (subscribe "b" (sub_of 6 None), yes);
      (subscribe "a" (sub_of 7 None), yes); (unsubscribe "a", yes)])) "a") [1; 2; 3; 4]%nat)
  = [(Some 5, Some 5); (Some 5, Some 5); (Some 7, Some 7); (None, None)].
Proof. vm_compute. done. Qed.
Example C14_example_plain : plain_request None (subscribe "a" (sub_of 5 None)) yes.
Proof. intros x s H. split_and!; [done|cbn; set_solver|done]. Qed.
Example C14_example_plain_again :
  plain_request (effective id [subscribe "a" (sub_of 5 None)]) (subscribe "a" (sub_of 7 None)) yes.
Proof.
  intros x s H. cbn in H. apply lookup_insert_Some in H as [[<- <-]|[_ H]]; [|by rewrite lookup_empty in H].
  split_and!; [done|cbn; set_solver|]. intros o Ho _ Hl. change ([_]) with ([] ++ [subscribe "a" (sub_of 5 None)]) in Ho.
  rewrite C14_subscribed_rooms in Ho. cbn in Ho. injection Ho as <-. done.
Qed.

(** C14 is false when a request both subscribes to and unsubscribes from a room
    it is subscribed to: the client is not subscribed, the connection is. *)
Theorem C14_subscribe_and_unsubscribe_refuted :
  limits (sub_requests id [(subscribe "a" (sub_of 5 None), yes); (subscribe_not "a" (sub_of 6 None), yes)]) "a"
  = (Some 5, None).
Proof. vm_compute. done. Qed.
Print Assumptions C14_subscribe_and_unsubscribe_refuted.

(** C14 is false when only include_old_rooms changes: the old subscription stays. *)
Theorem C14_changed_old_rooms_refuted :
  let c := sub_requests id [(subscribe "a" (sub_of 5 None), yes); (subscribe "a" (sub_of 5 (Some (sub_of 1 None))), yes)] in
  (sub_limit <$> (s ← sc_active c !! "a"; sub_old s), sub_limit <$> (s ← subscribed (sc_muxed c) "a"; sub_old s))
  = (None, Some 1).
Proof. vm_compute. done. Qed.
Print Assumptions C14_changed_old_rooms_refuted.

(** C14 is false for a room joined after it was subscribed to: the subscription
    never becomes active, not even when the client repeats it. *)
Theorem C14_subscribed_before_joining_refuted :
  limits (sub_requests id [(subscribe "a" (sub_of 5 None), no); (subscribe "a" (sub_of 5 None), yes)]) "a"
  = (None, Some 5).
Proof. vm_compute. done. Qed.
Print Assumptions C14_subscribed_before_joining_refuted.
