(** C86: what happens in a user's rooms is stored, whichever of the user's devices hears of it. *)
From Verif Require Import Prelude SibModel SibSpec SibProofs.
Open Scope string_scope. Open Scope list_scope. Open Scope nat_scope.

(** ** As long as no poller begins by skipping *)
Definition does_not_skip (w : world) (o : op) : Prop := forall d, o = Ensure d false -> ~ skips w d.
Lemma full_run l : forall w, full w -> throughout does_not_skip w l -> full (run w l).
Proof.
  induction l as [|o l IH]; intros w F H; [done|]. cbn [throughout] in H. destruct H as [H1 H2]. cbn [run fold_left].
  apply IH; [by apply full_step|exact H2].
Qed.
(** What is before a position has been stored, whatever ends or crashes. *)
Theorem C86_positions_partial : forall l n, throughout does_not_skip world0 l ->
  position (run world0 l) n -> complete (run world0 l) n.
Proof. intros l n H. apply (f_all _ (full_run l world0 full0 H)). Qed.
Print Assumptions C86_positions_partial.

(** A user with one device is safe. *)
Lemma alone_inv d l : forall w, (forall d' p, w_pollers w !! d' = Some p -> d' = d) -> Forall (fun o => forall d', device_of o = Some d' -> d' = d) l ->
  throughout does_not_skip w l.
Proof.
  induction l as [|o l IH]; intros w H Hl; [done|]. apply Forall_cons in Hl as [Ho Hl]. cbn [throughout]. split.
  - intros d0 ->. specialize (Ho d0 eq_refl). subst d0. unfold skips, ensure. intros (p & Hp & Hs & Hn). revert Hp.
    assert (Ex : otherDevice w d = false).
    { apply not_true_is_false. intros E. apply otherDevice_spec in E as (d' & q & Hne & Hq & _). by apply Hne, (H d' q). }
    case_bool_decide; [|done]. destruct (w_rows w !! d); [|done]. destruct (exists_already w d); [done|]. cbn [w_pollers].
    rewrite lookup_insert, Ex. intros [= <-]. discriminate Hs.
  - apply IH; [|exact Hl]. intros d' p. destruct o as [|d0|d0 b|d0 n save|d0|d0|]; cbn [step login restart w_pollers]; try exact (H d' p).
    + unfold ensure. case_bool_decide; [|exact (H d' p)]. destruct (w_rows w !! d0); [|exact (H d' p)].
      destruct (exists_already w d0); [exact (H d' p)|]. cbn [w_pollers]. intros Hp.
      apply lookup_insert_Some in Hp as [(<- & _) | (_ & Hp)]; [by apply Ho|by apply (H d' p)].
    + unfold poll. destruct (w_pollers w !! d0) as [q|]; [|exact (H d' p)]. destruct (negb (k_term q) && _ && _ && _); [|exact (H d' p)].
      cbn [w_pollers]. intros Hp. apply lookup_insert_Some in Hp as [(<- & _) | (_ & Hp)]; [by apply Ho|by apply (H d' p)].
    + unfold expire. destruct (w_pollers w !! d0) as [q|]; [|exact (H d' p)]. destruct (k_term q); [exact (H d' p)|].
      cbn [w_pollers]. intros Hp. apply lookup_insert_Some in Hp as [(<- & _) | (_ & Hp)]; [by apply Ho|by apply (H d' p)].
    + unfold panic. destruct (w_pollers w !! d0) as [q|]; [|exact (H d' p)].
      cbn [w_pollers]. intros Hp. apply lookup_insert_Some in Hp as [(<- & _) | (_ & Hp)]; [by apply Ho|by apply (H d' p)].
    + intros Hp. by rewrite lookup_empty in Hp.
Qed.
Theorem C86_one_device : forall d l n, (forall o d', In o l -> device_of o = Some d' -> d' = d) ->
  position (run world0 l) n -> complete (run world0 l) n.
Proof.
  intros d l n H. apply C86_positions_partial. apply (alone_inv d).
  - intros d' p Hp. cbn in Hp. by rewrite lookup_empty in Hp.
  - apply List.Forall_forall. intros o Hin d' Hd'. exact (H o d' Hin Hd').
Qed.
Print Assumptions C86_one_device.

(** ** As long as somebody is in charge *)
Lemma guarded_run l : forall w, guarded w -> throughout orderly w l -> guarded (run w l).
Proof.
  induction l as [|o l IH]; intros w F H; [done|]. cbn [throughout] in H. destruct H as [H1 H2]. cbn [run fold_left].
  apply IH; [by apply guarded_step|exact H2].
Qed.
(** Once all devices with a token are up to date, everything is stored. *)
Theorem C86_everything_partial : forall l, throughout orderly world0 l ->
  up_to_date (run world0 l) -> complete (run world0 l) (w_up (run world0 l)).
Proof.
  intros l H. pose proof (guarded_run l world0 guarded0 H) as [B A _]. revert B A. generalize (run world0 l) as w. intros w B A [Hne Hu] k Hk.
  apply set_choose_L in Hne as (d & Hd). pose proof (Hu d Hd) as Hp.
  destruct (A (w_up w) k) as [H1 | (d' & m & (Ht & Hc) & Hm)]; [|exact Hk|exact H1|].
  - left. exists d, (mk_sib (w_up w) false false false). split; [exact Hp|reflexivity].
  - rewrite (Hu d' Ht) in Hc. destruct Hc as (<- & _). cbn [k_since] in Hm. lia.
Qed.
Print Assumptions C86_everything_partial.
(** At any time, what is missing is what a device that is in charge will hear of. *)
Theorem C86_missing_partial : forall l k, throughout orderly world0 l ->
  missing (run world0 l) k -> exists d m, in_charge (run world0 l) d m /\ m < k.
Proof.
  intros l k H (H1 & H2 & n & Hn & Hk). pose proof (guarded_run l world0 guarded0 H) as [B A _].
  destruct (A n k Hn ltac:(lia)) as [H3 | H3]; [contradiction|exact H3].
Qed.
Print Assumptions C86_missing_partial.
(** And the next poll of a device that is in charge stores it. *)
Theorem C86_heard : forall l d m n save k, let w := run world0 l in
  in_charge w d m -> is_Some (w_pollers w !! d) -> m < k <= n -> n <= w_up w -> k ∈ w_stored (step w (Poll d n save)).
Proof.
  intros l d m n save k w (Ht & Hc) [p Hp] Hk Hn. rewrite Hp in Hc. destruct Hc as (<- & Ho & Hterm & Hd).
  cbn [step]. unfold poll. rewrite Hp, Hterm, Hd. cbn [negb andb].
  rewrite (proj2 (Nat.leb_le (k_since p) n)) by lia. rewrite (proj2 (Nat.leb_le n (w_up w))) by lia. cbn [andb w_stored].
  rewrite Ho. apply elem_of_union_l, elem_between. lia.
Qed.
Print Assumptions C86_heard.

(** ** Checking runs *)
Definition charge (w : world) (d : string) : option nat :=
  if bool_decide (d ∈ w_tokens w) then
    match w_pollers w !! d with
    | Some p => if negb (k_only p) && negb (k_term p) && negb (k_dead p) then Some (k_since p) else None
    | None => w_rows w !! d
    end
  else None.
Lemma charge_spec w d m : charge w d = Some m -> in_charge w d m.
Proof.
  unfold charge, in_charge. case_bool_decide as Ht; [|discriminate]. intros H. split; [exact Ht|].
  destruct (w_pollers w !! d) as [p|]; [|exact H]. destruct (k_only p), (k_term p), (k_dead p); cbn in H; try discriminate. by injection H as ->.
Qed.
Definition other_in_charge (w : world) (d : string) (P : nat -> bool) : bool :=
  existsb (fun d' => negb (bool_decide (d' = d)) && match charge w d' with Some m => P m | None => false end) (elements (w_tokens w)).
Lemma other_spec w d P : other_in_charge w d P = true -> exists d' m, d' <> d /\ in_charge w d' m /\ P m = true.
Proof.
  unfold other_in_charge. rewrite existsb_exists. intros (d' & _ & H). apply andb_prop in H as [H1 H2]. apply negb_true_iff, bool_decide_eq_false in H1.
  destruct (charge w d') as [m|] eqn:E; [|discriminate]. exists d', m. split; [exact H1|]. split; [by apply charge_spec|exact H2].
Qed.
Definition skipping (w : world) : bool :=
  existsb (fun e : string * sib => k_only e.2 && negb (k_term e.2) && negb (k_dead e.2)) (map_to_list (w_pollers w)).
Definition spareb (w : world) (d : string) : bool :=
  forallb (fun k => bool_decide (k ∈ w_stored w) || other_in_charge w d (fun m => m <? k)) (seq 1 (w_up w)) &&
  (negb (skipping w) || other_in_charge w d (fun _ => true)).
Lemma spareb_spec w d : base w -> spareb w d = true -> spare w d.
Proof.
  intros B H. apply andb_prop in H as [H1 H2]. split.
  - intros k (Hk & Hs & n & Hn & Hkn). rewrite forallb_forall in H1. pose proof (b_up w B n Hn) as Hup.
    specialize (H1 k). rewrite bool_decide_eq_false_2 in H1 by done. cbn [orb] in H1.
    destruct (other_spec _ _ _ (H1 ltac:(apply in_seq; lia))) as (d' & m & Hne & Hc & Hm). exists d', m.
    apply Nat.ltb_lt in Hm. done.
  - intros (d' & p & Hp & Ho & Ht & Hd). apply orb_prop in H2 as [H2 | H2].
    + apply negb_true_iff in H2. assert (skipping w = true); [|congruence]. unfold skipping. apply existsb_exists. exists (d', p).
      split; [by apply elem_of_list_In, elem_of_map_to_list|]. cbn [snd]. by rewrite Ho, Ht, Hd.
    + destruct (other_spec _ _ _ H2) as (d2 & m & Hne & Hc & _). eauto.
Qed.
Definition orderlyb (w : world) (o : op) : bool :=
  match o with
  | Expire d | Panic d => spareb w d
  | Ensure d false => negb (otherDevice w d) || (spareb w d && other_in_charge w d (fun _ => true)) || exists_already w d
  | _ => true
  end.
Lemma orderlyb_spec w o : base w -> orderlyb w o = true -> orderly w o.
Proof.
  intros B. destruct o as [|d|d b|d n save|d|d|]; cbn [orderlyb orderly]; try done; try (by apply spareb_spec).
  destruct b; [done|]. intros H Hs. apply orb_prop in H as [H | H]; [apply orb_prop in H as [H | H]|].
  - exfalso. apply negb_true_iff in H. destruct Hs as (p & Hp & Ho & Hn). unfold ensure in Hp. revert Hp. case_bool_decide; [|done].
    destruct (w_rows w !! d); [|done]. destruct (exists_already w d); [done|]. cbn [w_pollers]. rewrite lookup_insert, H. intros [= <-]. discriminate Ho.
  - apply andb_prop in H as [H1 H2]. split; [by apply spareb_spec|]. destruct (other_spec _ _ _ H2) as (d' & m & Hne & Hc & _). eauto.
  - exfalso. destruct Hs as (p & Hp & Ho & Hn). unfold ensure in Hp. revert Hp. rewrite H. case_bool_decide; [|done]. destruct (w_rows w !! d); done.
Qed.
Fixpoint throughoutb (w : world) (l : list op) : bool :=
  match l with [] => true | o :: l => orderlyb w o && throughoutb (step w o) l end.
Lemma throughoutb_spec l : forall w, base w -> throughoutb w l = true -> throughout orderly w l.
Proof.
  induction l as [|o l IH]; intros w B H; [done|]. cbn [throughoutb throughout] in *. apply andb_prop in H as [H1 H2].
  split; [by apply orderlyb_spec|]. apply IH; [by apply base_step|exact H2].
Qed.
Definition up_to_dateb (w : world) : bool :=
  negb (bool_decide (w_tokens w = ∅)) &&
  forallb (fun d => match w_pollers w !! d with
                    | Some p => (k_since p =? w_up w) && negb (k_only p) && negb (k_term p) && negb (k_dead p) | None => false end) (elements (w_tokens w)).
Lemma up_to_dateb_spec w : up_to_dateb w = true -> up_to_date w.
Proof.
  intros H. apply andb_prop in H as [H1 H2]. apply negb_true_iff, bool_decide_eq_false in H1. split; [exact H1|].
  intros d Hd. rewrite forallb_forall in H2. specialize (H2 d). rewrite <- elem_of_list_In, elem_of_elements in H2. specialize (H2 Hd).
  destruct (w_pollers w !! d) as [[x o t e]|]; [|discriminate]. cbn in H2.
  apply andb_prop in H2 as [H2 H3]. apply andb_prop in H2 as [H2 H4]. apply andb_prop in H2 as [H2 H5]. apply Nat.eqb_eq in H2. subst x.
  apply negb_true_iff in H3, H4, H5. by subst.
Qed.

(** A second device logs in and skips what the first one has heard of already or will hear of;
    a third one does; there is a restart; the first device logs out when nothing depends on it. *)
Definition an_orderly_run : list op :=
  [Login "A"; Happens; Ensure "A" false; Poll "A" 1 true; Happens; Login "B"; Ensure "B" false; Happens; Poll "B" 3 true;
   Login "C"; Ensure "C" false; Poll "A" 2 false; Poll "C" 3 true; Restart; Ensure "B" true; Ensure "A" true; Ensure "C" true;
   Happens; Poll "A" 4 true; Poll "B" 4 false; Expire "A"; Happens; Poll "C" 5 true; Poll "B" 5 false].
Example C86_everything_example :
  throughout orderly world0 an_orderly_run /\ up_to_date (run world0 an_orderly_run) /\
  w_up (run world0 an_orderly_run) = 5 /\ complete (run world0 an_orderly_run) 5.
Proof.
  assert (H : throughout orderly world0 an_orderly_run) by (apply throughoutb_spec; [exact base0 | vm_compute; reflexivity]).
  assert (Hu : up_to_date (run world0 an_orderly_run)) by (apply up_to_dateb_spec; vm_compute; reflexivity).
  assert (E : w_up (run world0 an_orderly_run) = 5) by (vm_compute; reflexivity).
  split; [exact H|]. split; [exact Hu|]. split; [exact E|]. pose proof (C86_everything_partial _ H Hu) as G. rewrite E in G. exact G.
Qed.
(** In it something is missing for a while. *)
Example C86_missing_example : missing (run world0 (take 9 an_orderly_run)) 2 /\ exists m, in_charge (run world0 (take 9 an_orderly_run)) "A" m /\ m < 2.
Proof.
  split.
  - split; [lia|]. split; [apply (bool_decide_eq_true_1 _); vm_compute; reflexivity|]. exists 3. split; [|lia].
    right. exists "B". vm_compute. reflexivity.
  - exists 1. split; [|lia]. apply charge_spec. vm_compute. reflexivity.
Qed.
Example C86_one_device_example :
  position (run world0 [Login "A"; Happens; Ensure "A" false; Happens; Poll "A" 2 true; Restart; Ensure "A" false; Happens; Poll "A" 3 false; Expire "A"; Login "A"]) 3.
Proof. left. exists "A", (mk_sib 3 false true false). split; vm_compute; reflexivity. Qed.

(** ** What goes wrong *)
Lemma lost_run k l : forall w, lost k w -> (forall o d, In o l -> o <> Login d) -> lost k (run w l).
Proof.
  induction l as [|o l IH]; intros w L H; [done|]. cbn [run fold_left]. apply IH.
  - apply lost_step; [exact L|]. intros d. apply H. by left.
  - intros o' d Hin. apply H. by right.
Qed.
Definition lostb (k : nat) (w : world) : bool :=
  negb (bool_decide (k ∈ w_stored w)) && forallb (fun d => match w_rows w !! d with Some m => k <=? m | None => false end) (elements (w_tokens w)).
Lemma lostb_spec k w : base w -> lostb k w = true -> lost k w.
Proof.
  intros B H. apply andb_prop in H as [H1 H2]. apply negb_true_iff, bool_decide_eq_false in H1. split; [exact B|exact H1|].
  intros d Hd. rewrite forallb_forall in H2. specialize (H2 d). rewrite <- elem_of_list_In, elem_of_elements in H2. specialize (H2 Hd).
  destruct (w_rows w !! d) as [m|]; [|discriminate]. apply Nat.leb_le in H2. eauto.
Qed.

(** The user logs in on a second device and logs out of the first, whose poller has not yet
    heard of the last thing that happened: it is never stored, although the second device is
    up to date, and whatever happens as long as nobody logs in. *)
Definition a_logout : list op :=
  [Login "A"; Happens; Ensure "A" false; Poll "A" 1 true; Happens; Login "B"; Ensure "B" false; Poll "B" 2 true; Expire "A"].
Theorem C86_logout_refuted :
  up_to_date (run world0 a_logout) /\ w_up (run world0 a_logout) = 2 /\
  forall l, (forall o d, In o l -> o <> Login d) -> 2 ∉ w_stored (run world0 (a_logout ++ l)).
Proof.
  split; [apply up_to_dateb_spec; vm_compute; reflexivity|]. split; [vm_compute; reflexivity|].
  intros l Hl. rewrite run_app. apply (l_not 2). apply lost_run; [|exact Hl].
  apply lostb_spec; [exact (base_run a_logout world0 base0)|vm_compute; reflexivity].
Qed.
Print Assumptions C86_logout_refuted.

(** No poller need end for that: after a restart the first device's client may be faster than
    the start of the pollers. *)
Definition a_restart : list op :=
  [Login "A"; Happens; Ensure "A" false; Poll "A" 1 true; Happens; Login "B"; Ensure "B" false; Poll "B" 2 true; Restart;
   Ensure "B" true; Ensure "A" false; Poll "A" 2 true].
Definition ends_poller (o : op) : bool := match o with Expire _ | Panic _ => true | _ => false end.
Theorem C86_restart_refuted :
  existsb ends_poller a_restart = false /\ up_to_date (run world0 a_restart) /\ w_up (run world0 a_restart) = 2 /\
  forall l, (forall o d, In o l -> o <> Login d) -> 2 ∉ w_stored (run world0 (a_restart ++ l)).
Proof.
  split; [reflexivity|]. split; [apply up_to_dateb_spec; vm_compute; reflexivity|]. split; [vm_compute; reflexivity|].
  intros l Hl. rewrite run_app. apply (l_not 2). apply lost_run; [|exact Hl].
  apply lostb_spec; [exact (base_run a_restart world0 base0)|vm_compute; reflexivity].
Qed.
Print Assumptions C86_restart_refuted.

(** The first sync of the only poller there is may not have been answered yet: then the second
    device skips all rooms. *)
Definition a_first_sync : list op :=
  [Happens; Happens; Login "A"; Ensure "A" false; Login "B"; Ensure "B" false; Poll "B" 2 true; Expire "A"].
Theorem C86_first_sync_refuted :
  up_to_date (run world0 a_first_sync) /\ w_up (run world0 a_first_sync) = 2 /\
  forall l, (forall o d, In o l -> o <> Login d) -> 1 ∉ w_stored (run world0 (a_first_sync ++ l)) /\ 2 ∉ w_stored (run world0 (a_first_sync ++ l)).
Proof.
  split; [apply up_to_dateb_spec; vm_compute; reflexivity|]. split; [vm_compute; reflexivity|].
  intros l Hl. rewrite run_app. split.
  - apply (l_not 1). apply lost_run; [|exact Hl]. apply lostb_spec; [exact (base_run a_first_sync world0 base0)|vm_compute; reflexivity].
  - apply (l_not 2). apply lost_run; [|exact Hl]. apply lostb_spec; [exact (base_run a_first_sync world0 base0)|vm_compute; reflexivity].
Qed.
Print Assumptions C86_first_sync_refuted.

Lemma panicked_run l : forall w, base w -> 2 ∉ w_stored w -> (forall d, d ∈ w_tokens w -> d = "A" \/ d = "B") ->
  ("A" ∈ w_tokens w -> exists p, w_pollers w !! "A" = Some p /\ k_dead p = true /\ k_term p = false) ->
  (exists m, w_rows w !! "B" = Some m /\ 2 <= m) ->
  (forall p, w_pollers w !! "A" = Some p -> k_dead p = true \/ k_term p = true) ->
  (forall o, In o l -> o <> Restart /\ forall d, o <> Login d) -> 2 ∉ w_stored (run w l).
Proof.
  induction l as [|o l IH]; intros w B N T A R D Hl; [exact N|].
  cbn [run fold_left]. destruct (Hl o (or_introl eq_refl)) as [Hr Hlg].
  pose proof (base_step w o B) as B'. pose proof (step_stepped w o B) as St. revert B' St. generalize (step w o) as w'. intros w' B' St.
  apply IH; [exact B'|..]; try (intros o' Hin; apply Hl; by right); clear IH Hl.
  - destruct St as [o| |d|d b since Ht Hrr Hterm|d n0 save p m Hpo Hnt Hnd Hle Hn0 Hm|d p Hpo Hnt|d p Hpo|]; try exact N.
    cbn [w_stored]. destruct (k_only p); [done|]. rewrite not_elem_of_union. split; [|done]. rewrite elem_between.
    destruct (T d (b_tok w B d p Hpo Hnt)) as [-> | ->]; [destruct (D p Hpo); congruence|].
    destruct R as (m' & Hm' & Hk). destruct (b_row w B "B" p Hpo) as (m'' & Hm'' & Hle'). assert (m' = m'') by congruence. lia.
  - destruct St as [o| |d|d b since Ht Hrr Hterm|d n0 save p m Hpo Hnt Hnd Hle Hn0 Hm|d p Hpo Hnt|d p Hpo|]; try exact T.
    + by destruct (Hlg d).
    + cbn [w_tokens]. intros d' Hd'. apply T. set_solver.
  - destruct St as [o| |d|d b since Ht Hrr Hterm|d n0 save p m Hpo Hnt Hnd Hle Hn0 Hm|d p Hpo Hnt|d p Hpo|]; try exact A.
    + by destruct (Hlg d).
    + cbn [w_tokens w_pollers]. intros Ha. destruct (A Ha) as (p & Hp & Hd & Htm). destruct (decide (d = "A")) as [-> | Hne].
      * pose proof (Hterm p Hp). congruence.
      * rewrite lookup_insert_ne by congruence. eauto.
    + cbn [w_tokens w_pollers]. intros Ha. destruct (A Ha) as (q & Hq & Hd & Htm). destruct (decide (d = "A")) as [-> | Hne]; [congruence|].
      rewrite lookup_insert_ne by congruence. eauto.
    + cbn [w_tokens w_pollers]. intros Ha. assert (d <> "A") by set_solver. rewrite lookup_insert_ne by congruence. apply A. set_solver.
    + cbn [w_tokens w_pollers]. intros Ha. destruct (A Ha) as (q & Hq & Hd & Htm). destruct (decide (d = "A")) as [-> | Hne].
      * rewrite lookup_insert. eexists. split; [done|]. split; [done|]. cbn. congruence.
      * rewrite lookup_insert_ne by congruence. eauto.
    + done.
  - destruct St as [o| |d|d b since Ht Hrr Hterm|d n0 save p m Hpo Hnt Hnd Hle Hn0 Hm|d p Hpo Hnt|d p Hpo|]; try exact R.
    + by destruct (Hlg d).
    + cbn [w_rows]. destruct R as (m' & Hm' & Hk). destruct save; [|eauto]. destruct (decide (d = "B")) as [-> | Hne].
      * rewrite lookup_insert. exists n0. split; [done|]. destruct (b_row w B "B" p Hpo) as (m'' & Hm'' & Hle'). assert (m' = m'') by congruence. lia.
      * rewrite lookup_insert_ne by congruence. eauto.
  - destruct St as [o| |d|d b since Ht Hrr Hterm|d n0 save p m Hpo Hnt Hnd Hle Hn0 Hm|d p Hpo Hnt|d p Hpo|]; try exact D; cbn [w_pollers].
    + intros q Hq. apply lookup_insert_Some in Hq as [(-> & <-) | (Hne & Hq)]; [|by apply D].
      destruct (A Ht) as (p & Hp & Hd & Htm). pose proof (Hterm p Hp). congruence.
    + intros q Hq. apply lookup_insert_Some in Hq as [(-> & <-) | (Hne & Hq)]; [|by apply D]. destruct (D p Hpo); congruence.
    + intros q Hq. apply lookup_insert_Some in Hq as [(-> & <-) | (Hne & Hq)]; [|by apply D]. by right.
    + intros q Hq. apply lookup_insert_Some in Hq as [(-> & <-) | (Hne & Hq)]; [|by apply D]. by left.
    + done.
Qed.
(** A poller that has panicked still counts as polling: the other devices skip what it will
    never hear of. *)
Definition a_panic : list op :=
  [Login "A"; Happens; Ensure "A" false; Poll "A" 1 true; Panic "A"; Happens; Login "B"; Ensure "B" false; Poll "B" 2 true].
Theorem C86_panic_refuted :
  w_pollers (run world0 a_panic) !! "B" = Some (mk_sib 2 false false false) /\ w_up (run world0 a_panic) = 2 /\
  forall l, (forall o, In o l -> o <> Restart /\ forall d, o <> Login d) -> 2 ∉ w_stored (run world0 (a_panic ++ l)).
Proof.
  split; [vm_compute; reflexivity|]. split; [vm_compute; reflexivity|].
  intros l Hl. rewrite run_app.
  assert (EA : w_pollers (run world0 a_panic) !! "A" = Some (mk_sib 1 false false true)) by (vm_compute; reflexivity).
  apply panicked_run.
  - exact (base_run a_panic world0 base0).
  - apply (bool_decide_eq_true_1 _); vm_compute; reflexivity.
  - assert (J1 : w_tokens (run world0 a_panic) = {[ "A"; "B" ]}) by (apply (bool_decide_eq_true_1 _); vm_compute; reflexivity).
    rewrite J1. intros d Hd. apply elem_of_union in Hd as [Hd | Hd]; apply elem_of_singleton in Hd; [by left|by right].
  - intros _. exists (mk_sib 1 false false true). split; [exact EA|]. split; reflexivity.
  - exists 2. split; [vm_compute; reflexivity|lia].
  - rewrite EA. intros p Hp. apply (inj Some) in Hp. subst p. left. reflexivity.
  - exact Hl.
Qed.
Print Assumptions C86_panic_refuted.
