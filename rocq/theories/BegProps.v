(** C85: polling for a device begins when it is asked for, and as long as requests for the
    device are let through it goes on. *)
From Verif Require Import Prelude PmapModel PmapSpec EnsModel BegModel BegSpec BegProofs.
Open Scope string_scope. Open Scope list_scope. Open Scope nat_scope.

(** Nothing panics at the gate, whatever happens. *)
Theorem C85_no_gate_panic rows boot l :
  every_step unpanicked (start rows boot) l -> exists s, brun (start rows boot) l = Some s.
Proof. intros H. destruct (run_binv l _ H (binv_start rows boot)) as (s & E & _). by exists s. Qed.

(** If the tokens are still stored when the pollers are asked for, and no poller panics,
    then what the server does by itself comes to an end, and then no request waits. *)
Theorem C85_answered_partial rows boot l s :
  brun (start rows boot) l = Some s ->
  every_step token_there (start rows boot) l -> every_step unpanicked (start rows boot) l ->
  (exists bound, forall l', works s l' -> length l' <= bound)
  /\ (idle s -> forall n p, ~ waits s n p).
Proof.
  intros E Ht Hu. destruct (run_flies l _ s Hu Ht E (binv_start rows boot) (flies_start rows boot)) as [Hv Hf].
  split; [|by apply idle_no_wait]. exists (work s). intros l' Hw. by apply works_bound.
Qed.

(** If moreover a poller whose token is refused is announced and terminated at once and
    success is reported truthfully, then a device whose requests are let through has a
    running poller, or it is being stopped, or one is being asked for. *)
Theorem C85_polled_partial rows boot l s p :
  brun (start rows boot) l = Some s ->
  every_step token_there (start rows boot) l -> every_step unpanicked (start rows boot) l ->
  every_step at_once (start rows boot) l -> every_step truthful (start rows boot) l ->
  lets_through s p ->
  polled s p \/ Expired p ∈ b_msgs s \/ (exists i q, i ∈ b_stopping s /\ pm_all (b_map s) !! i = Some q /\ q_pid q = p) \/ exists t, (p, t) ∈ b_asks s.
Proof.
  intros E Ht Hu Ho Htr (ch & Hp). destruct (run_kinv l _ s Hu Ht Ho Htr E (binv_start rows boot) (kinv_start rows boot)) as [Hv Hk].
  destruct (k_in _ Hk p _ Hp eq_refl) as [[H|[H|H]]|H].
  - left. destruct H as (i & q & Hq & Hqp & Hqt). exists i. split; [by exists q|]. exists q. split; [done|]. apply (v_run _ Hv i); [done|by right].
  - right. by left.
  - right. right. by left.
  - right. right. by right.
Qed.
(** Once no messages are on their way: such a device is polled. *)
Theorem C85_settled_partial rows boot l s p :
  brun (start rows boot) l = Some s ->
  every_step token_there (start rows boot) l -> every_step unpanicked (start rows boot) l ->
  every_step at_once (start rows boot) l -> every_step truthful (start rows boot) l ->
  b_msgs s = [] -> b_asks s = [] -> b_stopping s = [] ->
  lets_through s p -> polled s p.
Proof.
  intros E Ht Hu Ho Htr H1 H2 H3 Hl. destruct (C85_polled_partial rows boot l s p E Ht Hu Ho Htr Hl) as [H|[H|[(i & q & H & _)|(t & H)]]]; [done|..].
  - rewrite H1 in H. by apply elem_of_nil in H.
  - rewrite H3 in H. by apply elem_of_nil in H.
  - rewrite H2 in H. by apply elem_of_nil in H.
Qed.

(** ** The hypotheses are met, and what fails without them *)
Definition dv := mk_pid "@a" "D".
(** A device logs in, is polled, its token is refused, it logs in again with another. *)
Definition first : list act := [Login "t" dv ""; Identify "t"; Request 0; Handle true; Polled 0; Answer 0 true; Deliver; Waken 0].
Definition again : list act := first ++ [Refuse 0; Deliver; Login "u" dv ""; Identify "u"; Request 0; Handle true; Polled 1; Answer 1 true; Deliver; Waken 1; Ended 0].
Definition holds_through (P : beg -> act -> bool) : beg -> list act -> bool :=
  fix go s l := match l with [] => true | a :: l' => P s a && match bstep s a with Some s' => go s' l' | None => true end end.
Lemma holds_through_sound (P : beg -> act -> bool) (Q : beg -> act -> Prop) : (forall s a, P s a = true -> Q s a) ->
  forall l s, holds_through P s l = true -> every_step Q s l.
Proof.
  intros H. induction l as [|a l IH]; intros s E; [done|]. cbn in E. apply andb_true_iff in E as [E1 E2]. split; [by apply H|]. intros s' Es. rewrite Es in E2. by apply IH.
Qed.
Definition all_ok (s : beg) (a : act) : bool :=
  match a with
  | Handle ok => match b_asks s with (p, t) :: _ => ok && match b_rows s !! t with Some (p', _) => bool_decide (p' = p) | None => false end | [] => true end
  | Panicked _ | Announce _ | Halt _ => false
  | Answer n report => match pm_calls (b_map s) !! n with Some (WaitOld i) | Some (WaitNew i _) => negb (terminated (b_map s) i) | _ => true end
  | _ => true
  end.
Lemma all_ok_sound l s : holds_through all_ok s l = true ->
  every_step token_there s l /\ every_step unpanicked s l /\ every_step at_once s l /\ every_step truthful s l.
Proof.
  intros H. split; [|split; [|split]]; revert H; apply holds_through_sound; clear; intros s a H; destruct a; try done; cbn in *.
  - destruct (b_asks s) as [|[p t] ?]; [done|]. apply andb_true_iff in H as [-> H]. split; [done|]. destruct (b_rows s !! t) as [[p' since]|]; [|done].
    apply bool_decide_eq_true in H. subst. by exists since.
  - intros i [E|[w E]] _; rewrite E in H; by apply negb_true_iff in H.
Qed.
Definition at_end (l : list act) (boot : list (pid * string * string)) : beg := default (start ∅ boot) (brun (start ∅ boot) l).
Example C85_nonvacuous : exists s, brun (start ∅ []) again = Some s
  /\ (every_step token_there (start ∅ []) again /\ every_step unpanicked (start ∅ []) again /\ every_step at_once (start ∅ []) again /\ every_step truthful (start ∅ []) again)
  /\ lets_through s dv /\ b_msgs s = [] /\ b_asks s = [] /\ b_stopping s = [] /\ g_calls (b_gate s) = [(dv, Finished false); (dv, Finished false)].
Proof.
  exists (at_end again []). split; [vm_compute; reflexivity|]. split; [apply all_ok_sound; vm_compute; reflexivity|].
  split; [exists None; vm_compute; reflexivity|]. split; [vm_compute; reflexivity|]. split; [vm_compute; reflexivity|]. split; vm_compute; reflexivity.
Qed.
(** Work in progress: a request waits, and there is something to do. *)
Fixpoint works_b (s : beg) (l : list act) : bool :=
  match l with
  | [] => true
  | a :: l' => match a with Waken _ | Handle _ | Answer _ _ | Polled _ | Ended _ | Deliver => true | _ => false end
               && match bstep s a with
                  | Some s' => negb (bool_decide (work s' = work s)) && works_b s' l'
                  | None => false end
  end.
Lemma works_sound l : forall s, works_b s l = true -> works s l.
Proof.
  induction l as [|a l IH]; intros s H; [done|]. cbn [works_b] in H. apply andb_true_iff in H as [H1 H2]. destruct (bstep s a) as [s'|] eqn:E; [|done].
  apply andb_true_iff in H2 as [H2 H3]. split; [by destruct a|]. exists s'. split; [done|]. split; [|by apply IH].
  intros ->. rewrite bool_decide_eq_true_2 in H2 by done. done.
Qed.
Example C85_nonvacuous_works : exists s, brun (start ∅ []) (take 3 first) = Some s /\ waits s 0 dv /\ works s (drop 3 first).
Proof.
  exists (at_end (take 3 first) []). split; [vm_compute; reflexivity|]. split; [exists 0; vm_compute; reflexivity|].
  apply works_sound. vm_compute; reflexivity.
Qed.

Lemma settled_dead s p e : binv s -> g_pending (b_gate s) !! p = Some e ->
  b_asks s = [] -> b_boot s = [] -> b_msgs s = [] -> b_stopping s = [] ->
  forallb (fun c => match c with Returned _ _ _ => true | _ => false end) (pm_calls (b_map s)) = true ->
  forallb (fun q => negb (bool_decide (q_pid q = p)) || q_term q) (pm_all (b_map s)) = true -> dead s p e.
Proof.
  intros [V1 V2 V3 V4 V5 V6 V7] He H1 H2 H3 H4 H5 H6. rewrite forallb_forall in H5, H6. split; try done.
  - intros t H. rewrite H1 in H. by apply elem_of_nil in H.
  - intros t x H. rewrite H2 in H. by apply elem_of_nil in H.
  - intros n i [H|[w H]]; apply elem_of_list_lookup_2, elem_of_list_In, H5 in H; done.
  - intros i q Hq Hp. apply elem_of_list_lookup_2, elem_of_list_In, H6 in Hq. rewrite bool_decide_eq_true_2 in Hq by done. done.
  - intros i H. rewrite H4 in H. by apply elem_of_nil in H.
  - intros i H. rewrite H4 in H. by apply elem_of_nil in H.
  - intros x H. rewrite H3 in H. by apply elem_of_nil in H.
Qed.

(** A request is looked up; then its token is refused; then it comes to the gate. The
    token is gone when the poller is asked for, and nobody tells the gate. The request
    waits for ever, and so does every later request for the device, with whatever token,
    until the server is restarted. *)
Definition token_gone : list act := first ++ [Identify "t"; Refuse 0; Deliver; Ended 0; Request 0; Handle true].
Definition calm_ok (_ : beg) (a : act) : bool := match a with Panicked _ => false | _ => true end.
Definition once_ok (_ : beg) (a : act) : bool := match a with Announce _ | Halt _ => false | _ => true end.
Definition true_ok (s : beg) (a : act) : bool :=
  match a with
  | Answer n report => match pm_calls (b_map s) !! n with Some (WaitOld i) | Some (WaitNew i _) => negb report || negb (terminated (b_map s) i) | _ => true end
  | _ => true
  end.
Definition there_ok (s : beg) (a : act) : bool :=
  match a with
  | Handle ok => match b_asks s with (p, t) :: _ => ok && match b_rows s !! t with Some (p', _) => bool_decide (p' = p) | None => false end | [] => true end
  | _ => true
  end.
Lemma calm_sound l s : holds_through calm_ok s l = true -> every_step unpanicked s l.
Proof. apply holds_through_sound. clear. intros s a H. by destruct a. Qed.
Lemma once_sound l s : holds_through once_ok s l = true -> every_step at_once s l.
Proof. apply holds_through_sound. clear. intros s a H. by destruct a. Qed.
Lemma true_sound l s : holds_through true_ok s l = true -> every_step truthful s l.
Proof.
  apply holds_through_sound. clear. intros s a H. destruct a; try done. cbn in *. intros i [E|[w E]] ->; rewrite E in H; cbn in H; by apply negb_true_iff in H.
Qed.
Lemma there_sound l s : holds_through there_ok s l = true -> every_step token_there s l.
Proof.
  apply holds_through_sound. clear. intros s a H. destruct a; try done. cbn in *. destruct (b_asks s) as [|[p t] ?]; [done|]. apply andb_true_iff in H as [-> H].
  split; [done|]. destruct (b_rows s !! t) as [[p' since]|]; [|done]. apply bool_decide_eq_true in H. subst. by exists since.
Qed.

Lemma run_end boot l s : every_step unpanicked (start ∅ boot) l -> brun (start ∅ boot) l = Some s -> binv s.
Proof. intros Hu E. destruct (run_binv _ _ Hu (binv_start ∅ boot)) as (s1 & E1 & Hv). congruence. Qed.
Theorem C85_token_gone_refuted : exists s,
  brun (start ∅ []) token_gone = Some s /\ every_step unpanicked (start ∅ []) token_gone /\ every_step at_once (start ∅ []) token_gone
  /\ every_step truthful (start ∅ []) token_gone
  /\ (* the database always works *) Forall (fun a => a <> Handle false) token_gone
  /\ waits s 1 dv
  /\ forall l s', brun s l = Some s' -> forall m x, 1 <= m -> g_calls (b_gate s') !! m = Some (dv, x) -> waits s' m dv.
Proof.
  assert (Hu : every_step unpanicked (start ∅ []) token_gone) by (apply calm_sound; vm_compute; reflexivity).
  exists (at_end token_gone []). assert (E : brun (start ∅ []) token_gone = Some (at_end token_gone [])) by (vm_compute; reflexivity).
  split; [exact E|]. split; [exact Hu|]. split; [apply once_sound; vm_compute; reflexivity|]. split; [apply true_sound; vm_compute; reflexivity|].
  split; [repeat constructor; discriminate|]. split; [exists 1; vm_compute; reflexivity|].
  intros l s' El. pose proof (run_end _ _ _ Hu E) as Hv.
  assert (D : dead (at_end token_gone []) dv (mk_info false false (Some 1))).
  { apply settled_dead; [exact Hv|vm_compute; reflexivity..]. }
  assert (Hs : stuck (at_end token_gone []) dv 1 1).
  { split; [vm_compute; reflexivity|]. intros m x Hm Hx.
    assert (Ec : g_calls (b_gate (at_end token_gone [])) = [(dv, Finished false); (dv, Waiting 1)]) by (vm_compute; reflexivity).
    rewrite Ec in Hx. destruct m as [|[|m]]; [lia| |discriminate Hx]. injection Hx as <-. reflexivity. }
  destruct (stuck_run l _ s' dv 1 1 El D Hs) as [_ H2]. intros m x Hm Hx. exists 1. rewrite Hx, (H2 m x Hm Hx). reflexivity.
Qed.

(** A poller's token is refused. The gate is told first, the poller terminated afterwards.
    In between a new request asks for a poller and finds the old one. The device's
    requests are let through from then on, and nobody polls for it. *)
Definition orphan : list act :=
  first ++ [Announce 0; Deliver; Login "u" dv ""; Identify "u"; Request 0; Handle true; Answer 1 true; Halt 0; Ended 0; Deliver; Waken 1].
Theorem C85_orphan_refuted : exists s,
  brun (start ∅ []) orphan = Some s /\ every_step unpanicked (start ∅ []) orphan /\ every_step token_there (start ∅ []) orphan
  /\ every_step truthful (start ∅ []) orphan
  /\ g_calls (b_gate s) !! 1 = Some (dv, Finished false)
  /\ forall l s', brun s l = Some s' -> lets_through s' dv /\ ~ polled s' dv.
Proof.
  assert (Hu : every_step unpanicked (start ∅ []) orphan) by (apply calm_sound; vm_compute; reflexivity).
  exists (at_end orphan []). assert (E : brun (start ∅ []) orphan = Some (at_end orphan [])) by (vm_compute; reflexivity).
  split; [exact E|]. split; [exact Hu|]. split; [apply there_sound; vm_compute; reflexivity|]. split; [apply true_sound; vm_compute; reflexivity|].
  split; [vm_compute; reflexivity|]. intros l s' El. pose proof (run_end _ _ _ Hu E) as Hv.
  assert (D : dead (at_end orphan []) dv (mk_info true false None)).
  { apply settled_dead; [exact Hv|vm_compute; reflexivity..]. }
  apply (dead_run l _ s') in D; [|left; reflexivity|exact El]. split; [exists None; exact (d_entry _ _ _ D)|].
  intros (i & Ha & _). apply (dead_not_polled _ _ _ D). exists i. exact Ha.
Qed.

(** The server starts. The token of a device is refused at once; another worker's success
    is reported for it. The device's requests are let through, and nobody polls for it. *)
Definition misreported : list act := [Boot 0; Refuse 0; Ended 0; Answer 0 true; Deliver; Deliver].
Theorem C85_misreported_refuted : exists s,
  brun (start ∅ [(dv, "t", "")]) misreported = Some s /\ every_step unpanicked (start ∅ [(dv, "t", "")]) misreported
  /\ every_step token_there (start ∅ [(dv, "t", "")]) misreported /\ every_step at_once (start ∅ [(dv, "t", "")]) misreported
  /\ forall l s', brun s l = Some s' -> lets_through s' dv /\ ~ polled s' dv.
Proof.
  assert (Hu : every_step unpanicked (start ∅ [(dv, "t", "")]) misreported) by (apply calm_sound; vm_compute; reflexivity).
  exists (at_end misreported [(dv, "t", "")]). assert (E : brun (start ∅ [(dv, "t", "")]) misreported = Some (at_end misreported [(dv, "t", "")])) by (vm_compute; reflexivity).
  split; [exact E|]. split; [exact Hu|]. split; [apply there_sound; vm_compute; reflexivity|]. split; [apply once_sound; vm_compute; reflexivity|].
  intros l s' El. pose proof (run_end _ _ _ Hu E) as Hv.
  assert (D : dead (at_end misreported [(dv, "t", "")]) dv (mk_info true false None)).
  { apply settled_dead; [exact Hv|vm_compute; reflexivity..]. }
  apply (dead_run l _ s') in D; [|left; reflexivity|exact El]. split; [exists None; exact (d_entry _ _ _ D)|].
  intros (i & Ha & _). apply (dead_not_polled _ _ _ D). exists i. exact Ha.
Qed.

Print Assumptions C85_no_gate_panic.
Print Assumptions C85_answered_partial.
Print Assumptions C85_polled_partial.
Print Assumptions C85_settled_partial.
Print Assumptions C85_token_gone_refuted.
Print Assumptions C85_orphan_refuted.
Print Assumptions C85_misreported_refuted.
