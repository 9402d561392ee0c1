(** Proofs about setting up what is kept for a user. *)
From Verif Require Import Prelude SetupModel SetupSpec.
Open Scope string_scope. Open Scope list_scope. Open Scope Z_scope.

Definition cval (s : st) (c : nat) (k : key) : Z := val (default ∅ (caches s !! c)) k.
(** Values for [k] that are still to be handled. *)
Definition opt_list {A} (x : option A) : list A := match x with Some a => [a] | None => [] end.
Definition pend (s : st) (k : key) : list Z := map snd (List.filter (fun n : key * Z => bool_decide (n.1 = k)) (queue s ++ opt_list (writer s))).

Record fresh_inv (s : st) : Prop := mk_fresh_inv {
  i_last : forall k v, last (pend s k) = Some v -> v = val (db s) k;
  i_stored : forall c k, stored s = Some c -> (section k < 5)%nat -> pend s k = [] -> cval s c k = val (db s) k;
  i_reading : forall t c n k, threads s !! t = Some (Reading c n) -> (section k < n)%nat -> pend s k = [] -> cval s c k = val (db s) k;
  i_meta : forall k, section k = 5%nat -> pend s k = [] -> val (meta s) k = val (db s) k;
  i_registered : forall c k, registered s = Some c -> section k = 5%nat -> cval s c k = val (meta s) k;
  i_n : forall t c n, threads s !! t = Some (Reading c n) -> (n <= 5)%nat /\ (c < fresh s)%nat;
  i_reg : forall t c, threads s !! t = Some (Registering c) -> (c < fresh s)%nat;
  i_st : forall c, stored s = Some c -> (c < fresh s)%nat;
  i_rd : forall c, registered s = Some c -> (c < fresh s)%nat;
  i_secs : forall n, n ∈ queue s ++ opt_list (writer s) -> (section n.1 <= 5)%nat
}.

Lemma fresh0 : fresh_inv st0.
Proof.
  split; cbn; try discriminate; try (intros *; rewrite lookup_empty; discriminate).
  - reflexivity.
  - intros n Hn. by apply elem_of_nil in Hn.
Qed.
Lemma cval_upd s f c c' k :
  val (default ∅ (upd_cache f c (caches s) !! c')) k = if decide (c = c') then val (f (default ∅ (caches s !! c))) k else cval s c' k.
Proof.
  unfold upd_cache, cval. destruct (decide (c = c')) as [->|N]; [by rewrite lookup_insert|by rewrite lookup_insert_ne].
Qed.
Lemma val_insert m k v k' : val (<[k := v]> m) k' = if decide (k = k') then v else val m k'.
Proof. unfold val. destruct (decide (k = k')) as [->|N]; [by rewrite lookup_insert|by rewrite lookup_insert_ne]. Qed.
Lemma val_read n src dst k : val (read_section n src dst) k = if decide (section k = n) then val src k else val dst k.
Proof.
  unfold val, read_section. rewrite lookup_union.
  destruct (decide (section k = n)) as [E|N].
  - assert ((filter (fun kv : key * Z => section kv.1 <> n) dst) !! k = None) as ->.
    { apply map_filter_lookup_None. right. intros x _ H. by apply H. }
    rewrite right_id by apply _. destruct (src !! k) as [x|] eqn:Ex.
    + assert ((filter (fun kv : key * Z => section kv.1 = n) src) !! k = Some x) as ->; [|reflexivity]. by apply map_filter_lookup_Some.
    + assert ((filter (fun kv : key * Z => section kv.1 = n) src) !! k = None) as ->; [|reflexivity]. apply map_filter_lookup_None. by left.
  - assert ((filter (fun kv : key * Z => section kv.1 = n) src) !! k = None) as ->.
    { apply map_filter_lookup_None. right. intros x _ H. by apply N. }
    rewrite left_id by apply _. destruct (dst !! k) as [x|] eqn:Ex.
    + assert ((filter (fun kv : key * Z => section kv.1 <> n) dst) !! k = Some x) as ->; [|reflexivity]. by apply map_filter_lookup_Some.
    + assert ((filter (fun kv : key * Z => section kv.1 <> n) dst) !! k = None) as ->; [|reflexivity]. apply map_filter_lookup_None. by left.
Qed.
Lemma last_cons_ne {A} (x : A) l v : l <> [] -> last l = Some v -> last (x :: l) = Some v.
Proof. by destruct l. Qed.
Lemma threads_insert (m : gmap nat thread) t x t' y : <[t := x]> m !! t' = Some y -> (t = t' /\ x = y) \/ m !! t' = Some y.
Proof. intros H. apply lookup_insert_Some in H as [H|[_ H]]; [by left|by right]. Qed.
Lemma threads_delete (m : gmap nat thread) t t' y : delete t m !! t' = Some y -> m !! t' = Some y.
Proof. intros H. by apply lookup_delete_Some in H as [_ H]. Qed.

Lemma fresh_step x s s' : fresh_inv s -> no_lost x s -> sane x s -> next x s = Some s' -> fresh_inv s'.
Proof.
  intros [L ST RD ME RG N1 N2 N3 N4 SE] Hno Hsane H. destruct x as [k v| | |t|t|t|t|t|t| | |]; cbn [next] in H.
  - (* Write *)
    destruct (writer s) eqn:Ew; [discriminate|]. injection H as <-.
    assert (P : forall k', pend (mk_st (<[k := v]> (db s)) (Some (k, v)) (queue s) (meta s) (caches s) (fresh s) (stored s) (registered s) (threads s) (conns s) (inval s)) k'
       = pend s k' ++ (if decide (k = k') then [v] else [])).
    { intros k'. unfold pend. cbn. rewrite Ew. cbn. rewrite app_nil_r, List.filter_app, map_app. f_equal. cbn.
      destruct (decide (k = k')) as [E|E]; [rewrite bool_decide_eq_true_2 by exact E|rewrite bool_decide_eq_false_2 by exact E]; reflexivity. }
    split; cbn [db writer queue meta caches fresh stored registered threads conns inval]; try assumption; cbn in *.
    + intros k' v'. rewrite P, val_insert. destruct (decide (k = k')).
      * rewrite last_snoc. congruence.
      * rewrite app_nil_r. apply L.
    + intros c k' Hc Hs. rewrite P, val_insert. destruct (decide (k = k')); [intros [_ ?]%app_eq_nil; discriminate|]. rewrite app_nil_r. by apply ST.
    + intros t c n k' Hc Hs. rewrite P, val_insert. destruct (decide (k = k')); [intros [_ ?]%app_eq_nil; discriminate|]. rewrite app_nil_r. by apply (RD t c n).
    + intros k' Hs. rewrite P, val_insert. destruct (decide (k = k')); [intros [_ ?]%app_eq_nil; discriminate|]. rewrite app_nil_r. by apply ME.
    + intros n [Hn|Hn]%elem_of_app; [apply SE, elem_of_app; by left|]. apply elem_of_list_singleton in Hn as ->. exact Hsane.
  - (* Notify *)
    destruct (writer s) as [nt|] eqn:Ew; [|discriminate]. injection H as <-.
    assert (P : forall k', pend (mk_st (db s) None (queue s ++ [nt]) (meta s) (caches s) (fresh s) (stored s) (registered s) (threads s) (conns s) (inval s)) k' = pend s k').
    { intros k'. unfold pend. cbn. rewrite Ew. cbn. by rewrite app_nil_r. }
    split; cbn [db writer queue meta caches fresh stored registered threads conns inval]; try assumption.
    + intros k' v'. rewrite P. apply L.
    + intros c k' Hc Hs. rewrite P. by apply ST.
    + intros t c n k' Hc Hs. rewrite P. by apply (RD t c n).
    + intros k' Hs. rewrite P. by apply ME.
    + intros n. cbn. rewrite app_nil_r. cbn in SE. apply SE.
  - (* Deliver *)
    destruct (queue s) as [|[k v] q] eqn:Eq; [discriminate|]. destruct (inval s) as [iv [|]] eqn:Ei; [|discriminate].
    assert (P : forall s' k', queue s' = q -> writer s' = writer s -> pend s k' = (if decide (k = k') then [v] else []) ++ pend s' k').
    { intros s1 k' E1 E2. unfold pend. rewrite E1, E2, Eq. cbn [app List.filter fst]. 
      destruct (decide (k = k')) as [E|E]; [rewrite bool_decide_eq_true_2 by exact E|rewrite bool_decide_eq_false_2 by exact E]; reflexivity. }
    assert (Hk : (section k <= 5)%nat) by (apply (SE (k, v)); by left).
    assert (LL : forall s' k' v', queue s' = q -> writer s' = writer s -> last (pend s' k') = Some v' -> v' = val (db s) k').
    { intros s1 k' v' E1 E2 Hl. apply L. rewrite (P s1 k' E1 E2). destruct (decide (k = k')); [|exact Hl]. apply last_cons_ne; [|exact Hl]. by intros E; rewrite E in Hl. }
    assert (LV : forall s', queue s' = q -> writer s' = writer s -> pend s' k = [] -> v = val (db s) k).
    { intros s1 E1 E2 Hl. apply L. rewrite (P s1 k E1 E2), Hl. rewrite decide_True by reflexivity. reflexivity. }
    assert (PN : forall s' k', queue s' = q -> writer s' = writer s -> k <> k' -> pend s' k' = [] -> pend s k' = []).
    { intros s1 k' E1 E2 N Hl. rewrite (P s1 k' E1 E2), Hl. by rewrite decide_False. }
    destruct (Nat.eqb_spec (section k) 5) as [E5|N5]; injection H as <-.
    + split; cbn [db writer queue meta caches fresh stored registered threads conns inval]; try assumption.
      * intros k' v'. by apply LL.
      * intros c k' Hc Hs Hp. assert (k <> k') by (intros ->; lia). unfold cval. cbn [caches].
        transitivity (cval s c k'); [|apply ST; [done..|by eapply PN in Hp]].
        destruct (registered s) as [c'|]; [|reflexivity]. rewrite cval_upd. destruct (decide (c' = c)) as [->|]; [|reflexivity].
        rewrite val_insert, decide_False by done. reflexivity.
      * intros t c n k' Hc Hs Hp. pose proof (proj1 (N1 t c n Hc)). assert (k <> k') by (intros ->; lia). unfold cval. cbn [caches].
        transitivity (cval s c k'); [|apply (RD t c n); [done..|by eapply PN in Hp]].
        destruct (registered s) as [c'|]; [|reflexivity]. rewrite cval_upd. destruct (decide (c' = c)) as [->|]; [|reflexivity].
        rewrite val_insert, decide_False by done. reflexivity.
      * intros k' Hs Hp. rewrite val_insert. destruct (decide (k = k')) as [->|N]; [by eapply LV in Hp|]. apply ME; [done|by eapply PN in Hp].
      * intros c k' Hc Hs. unfold cval. cbn [caches]. rewrite Hc, cval_upd, decide_True by reflexivity. rewrite !val_insert.
        destruct (decide (k = k')); [reflexivity|]. by apply RG.
      * intros n Hn. apply SE. by right.
    + split; cbn [db writer queue meta caches fresh stored registered threads conns inval]; try assumption.
      * intros k' v'. by apply LL.
      * intros c k' Hc Hs Hp. unfold cval. cbn [caches]. rewrite Hc. destruct (decide (k = k')) as [<-|N].
        -- assert (Ev : v = val (db s) k) by (by eapply LV in Hp).
           assert (Ed : deliver_value (db s) k v = Some v).
           { unfold deliver_value. rewrite <-Ev. destruct (_ || _) eqn:Eo; [reflexivity|]. apply orb_false_iff in Eo as [_ ->]. reflexivity. }
           rewrite Ed, cval_upd, decide_True, val_insert, decide_True by reflexivity. exact Ev.
        -- transitivity (cval s c k'); [|apply ST; [done..|by eapply PN in Hp]].
           destruct (deliver_value (db s) k v); [|reflexivity]. rewrite cval_upd, decide_True, val_insert, decide_False by done. reflexivity.
      * intros t c n k' Hc Hs Hp. assert (N : k <> k'). { intros ->. by apply (Hno eq_refl t c n k' v q). }
        unfold cval. cbn [caches]. transitivity (cval s c k'); [|apply (RD t c n); [done..|by eapply PN in Hp]].
        destruct (stored s) as [c'|]; [|reflexivity]. destruct (deliver_value (db s) k v); [|reflexivity].
        rewrite cval_upd. destruct (decide (c' = c)) as [->|]; [|reflexivity]. rewrite val_insert, decide_False by done. reflexivity.
      * intros k' Hs Hp. assert (k <> k') by (intros ->; lia). apply ME; [done|by eapply PN in Hp].
      * intros c k' Hc Hs. assert (k <> k') by (intros ->; lia). rewrite <-(RG c k' Hc Hs). unfold cval. cbn [caches].
        destruct (stored s) as [c'|]; [|reflexivity]. destruct (deliver_value (db s) k v); [|reflexivity].
        rewrite cval_upd. destruct (decide (c' = c)) as [->|]; [|reflexivity]. rewrite val_insert, decide_False by done. reflexivity.
      * intros n Hn. apply SE. by right.
  - (* Start *)
    destruct (threads s !! t) eqn:Et; [discriminate|]. destruct (conns s !! t); [discriminate|]. destruct (stored s) as [c|] eqn:Es; injection H as <-.
    + split; cbn [db writer queue meta caches fresh stored registered threads conns inval]; try assumption.
      * intros t' c' n k [[_ ?]|Hc]%threads_insert; [discriminate|]. by apply (RD t').
      * intros t' c' n [[_ ?]|Hc]%threads_insert; [discriminate|]. by apply (N1 t').
      * intros t' c' [[_ ?]|Hc]%threads_insert; [discriminate|]. by apply (N2 t').
    + assert (Hold : forall c k, (c < fresh s)%nat -> val (default ∅ (<[fresh s := ∅]> (caches s) !! c)) k = cval s c k).
      { intros c k Hc. rewrite lookup_insert_ne by lia. reflexivity. }
      split; cbn [db writer queue meta caches fresh stored registered threads conns inval]; try assumption.
      * intros c' k Hc. congruence.
      * intros t' c' n k [[<- [= <- <-]]|Hc]%threads_insert; [lia|]. intros Hs Hp. unfold cval. cbn [caches].
        rewrite Hold by (by apply (N1 t' c' n)). by apply (RD t' c' n).
      * intros c' k Hc Hs. unfold cval. cbn [caches]. rewrite Hold by (by apply N4). by apply RG.
      * intros t' c' n [[<- [= <- <-]]|Hc]%threads_insert; [lia|]. specialize (N1 t' c' n Hc). lia.
      * intros t' c' [[_ ?]|Hc]%threads_insert; [discriminate|]. specialize (N2 t' c' Hc). lia.
      * intros c' Hc. congruence.
      * intros c' Hc. specialize (N4 c' Hc). lia.
  - (* Read *)
    destruct (threads s !! t) as [[c n|c|c]|] eqn:Et; try discriminate. destruct (n <? 5)%nat eqn:En; [|discriminate]. injection H as <-.
    apply Nat.ltb_lt in En.
    assert (Hc : forall c' k, (section k <> n)%nat \/ c <> c' -> val (default ∅ (upd_cache (read_section n (db s)) c (caches s) !! c')) k = cval s c' k).
    { intros c' k Hk. rewrite cval_upd. destruct (decide (c = c')) as [->|]; [|reflexivity]. destruct Hk as [Hk|]; [|done]. rewrite val_read, decide_False by exact Hk. reflexivity. }
    assert (Hd : forall k, section k = n -> val (default ∅ (upd_cache (read_section n (db s)) c (caches s) !! c)) k = val (db s) k).
    { intros k Hk. rewrite cval_upd, decide_True by reflexivity. rewrite val_read, decide_True by exact Hk. reflexivity. }
    split; cbn [db writer queue meta caches fresh stored registered threads conns inval]; try assumption.
    + intros c' k Hst Hs Hp. unfold cval. cbn [caches]. destruct (decide (section k = n /\ c = c')) as [[E <-]|Nn]; [by apply Hd|].
      rewrite Hc; [by apply ST|]. destruct (decide (section k = n)); [right|by left]. intros ->. by apply Nn.
    + intros t' c' n' k Ht Hs Hp. unfold cval. cbn [caches]. destruct (decide (section k = n /\ c = c')) as [[E <-]|Nn]; [by apply Hd|].
      rewrite Hc by (destruct (decide (section k = n)); [right; intros ->; by apply Nn|by left]).
      apply threads_insert in Ht as [[<- [= <- <-]]|Ht]; [|by apply (RD t' c' n')].
      apply (RD t c n); [done| |done]. assert (section k <> n) by (intros E; by apply Nn). lia.
    + intros c' k Hr Hs. unfold cval. cbn [caches]. rewrite Hc by (left; lia). by apply RG.
    + intros t' c' n' [[<- [= <- <-]]|Ht]%threads_insert; [|by apply (N1 t')]. split; [lia|]. by apply (N1 t c n).
    + intros t' c' [[_ ?]|Ht]%threads_insert; [discriminate|]. by apply (N2 t').
  - (* Store *)
    destruct (threads s !! t) as [[c n|c|c]|] eqn:Et; try discriminate. do 6 (destruct n as [|n]; [try discriminate|]); [|discriminate].
    destruct (stored s) as [c'|] eqn:Es; injection H as <-.
    + split; cbn [db writer queue meta caches fresh stored registered threads conns inval]; try assumption.
      * intros t' c'' n k [[_ ?]|Hc]%threads_insert; [discriminate|]. by apply (RD t').
      * intros t' c'' n [[_ ?]|Hc]%threads_insert; [discriminate|]. by apply (N1 t').
      * intros t' c'' [[_ ?]|Hc]%threads_insert; [discriminate|]. by apply (N2 t').
    + split; cbn [db writer queue meta caches fresh stored registered threads conns inval]; try assumption.
      * intros c'' k [= <-] Hs Hp. by apply (RD t c 5%nat).
      * intros t' c'' n k [[_ ?]|Hc]%threads_insert; [discriminate|]. by apply (RD t').
      * intros t' c'' n [[_ ?]|Hc]%threads_insert; [discriminate|]. by apply (N1 t').
      * intros t' c'' [[_ [= <-]]|Hc]%threads_insert; [|by apply (N2 t')]. by apply (N1 t c 5%nat).
      * intros c'' [= <-]. by apply (N1 t c 5%nat).
  - (* Register *)
    destruct (threads s !! t) as [[c n|c|c]|] eqn:Et; try discriminate. injection H as <-.
    assert (Hc : forall c' k, (section k <> 5)%nat -> val (default ∅ (upd_cache (read_section 5 (meta s)) c (caches s) !! c')) k = cval s c' k).
    { intros c' k Hk. rewrite cval_upd. destruct (decide (c = c')) as [->|]; [|reflexivity]. rewrite val_read, decide_False by exact Hk. reflexivity. }
    split; cbn [db writer queue meta caches fresh stored registered threads conns inval]; try assumption.
    + intros c' k Hst Hs Hp. unfold cval. cbn [caches]. rewrite Hc by lia. by apply ST.
    + intros t' c' n' k [[_ ?]|Ht]%threads_insert; [discriminate|]. intros Hs Hp. unfold cval. cbn [caches]. rewrite Hc by (pose proof (N1 t' c' n' Ht); lia). by apply (RD t' c' n').
    + intros c' k [= <-] Hs. unfold cval. cbn [caches]. rewrite cval_upd, decide_True by reflexivity. by rewrite val_read, decide_True.
    + intros t' c' n' [[_ ?]|Ht]%threads_insert; [discriminate|]. by apply (N1 t').
    + intros t' c' [[_ ?]|Ht]%threads_insert; [discriminate|]. by apply (N2 t').
    + intros c' [= <-]. by apply (N2 t).
  - (* RegisterFails *)
    destruct (threads s !! t) as [[c n|c|c]|] eqn:Et; try discriminate. injection H as <-.
    split; cbn [db writer queue meta caches fresh stored registered threads conns inval]; try assumption; try discriminate.
    + intros t' c' n k Ht%threads_delete. by apply (RD t').
    + intros t' c' n Ht%threads_delete. by apply (N1 t').
    + intros t' c' Ht%threads_delete. by apply (N2 t').
  - (* Connect *)
    destruct (threads s !! t) as [[c n|c|c]|] eqn:Et; try discriminate. injection H as <-.
    split; cbn [db writer queue meta caches fresh stored registered threads conns inval]; try assumption; try discriminate.
    + intros t' c' n k Ht%threads_delete. by apply (RD t').
    + intros t' c' n Ht%threads_delete. by apply (N1 t').
    + intros t' c' Ht%threads_delete. by apply (N2 t').
  - destruct (inval s) as [b [|]]; [|discriminate]. injection H as <-.
    split; cbn [db writer queue meta caches fresh stored registered threads conns inval]; try assumption; try discriminate.
  - destruct (inval s) as [[b|] [|[|]]]; try discriminate. injection H as <-.
    split; cbn [db writer queue meta caches fresh stored registered threads conns inval]; try assumption.
    + intros c k Hc. apply ST. by destruct b.
    + intros c Hc. apply N3. by destruct b.
  - destruct (inval s) as [[b|] [|[|[|]]]]; try discriminate. injection H as <-.
    split; cbn [db writer queue meta caches fresh stored registered threads conns inval]; assumption.
Qed.
Lemma fresh_runs l s s' : fresh_inv s -> always no_lost l s -> always sane l s -> runs l s = Some s' -> fresh_inv s'.
Proof.
  revert s. induction l as [|x l IH]; cbn; intros s Hi Hn Hs H; [by injection H as <-|].
  destruct Hn as [Hn Hn'], Hs as [Hs Hs']. destruct (next x s) as [s1|] eqn:E; [|discriminate].
  apply (IH s1); [by eapply fresh_step|done..].
Qed.

(** ** The children of spaces, in any schedule *)
Record reg_inv (s : st) : Prop := mk_reg_inv {
  r_registered : forall c k, registered s = Some c -> section k = 5%nat -> cval s c k = val (meta s) k;
  r_n : forall t c n, threads s !! t = Some (Reading c n) -> (c < fresh s)%nat;
  r_reg : forall t c, threads s !! t = Some (Registering c) -> (c < fresh s)%nat;
  r_rd : forall c, registered s = Some c -> (c < fresh s)%nat
}.
Lemma reg0 : reg_inv st0.
Proof. split; cbn; try discriminate; intros *; rewrite lookup_empty; discriminate. Qed.
Lemma reg_step x s s' : reg_inv s -> next x s = Some s' -> reg_inv s'.
Proof.
  intros [RG N1 N2 N4] H. destruct x as [k v| | |t|t|t|t|t|t| | |]; cbn [next] in H.
  - destruct (writer s); [discriminate|]. injection H as <-. by split.
  - destruct (writer s); [|discriminate]. injection H as <-. by split.
  - destruct (queue s) as [|[k v] q]; [discriminate|]. destruct (inval s) as [iv [|]]; [|discriminate].
    destruct (Nat.eqb_spec (section k) 5) as [E5|N5]; injection H as <-; (split; [|assumption..]); intros c k' Hc Hs; cbn in Hc; unfold cval; cbn [caches meta].
    + rewrite Hc, cval_upd, decide_True by reflexivity. rewrite !val_insert. destruct (decide (k = k')); [reflexivity|]. by apply RG.
    + rewrite <-(RG c k' Hc Hs). assert (k <> k') by (intros ->; lia).
      destruct (stored s) as [c'|]; [|reflexivity]. destruct (deliver_value (db s) k v); [|reflexivity].
      rewrite cval_upd. destruct (decide (c' = c)) as [->|]; [|reflexivity]. rewrite val_insert, decide_False by done. reflexivity.
  - destruct (threads s !! t); [discriminate|]. destruct (conns s !! t); [discriminate|]. destruct (stored s) as [c|]; injection H as <-.
    + split; cbn; [assumption| | |assumption].
      * intros t' c' n [[_ ?]|Hc]%threads_insert; [discriminate|]. by apply (N1 t' c' n).
      * intros t' c' [[_ ?]|Hc]%threads_insert; [discriminate|]. by apply (N2 t').
    + split; cbn [registered threads fresh].
      * intros c k Hc Hs. unfold cval. cbn [caches meta]. pose proof (N4 c Hc). rewrite lookup_insert_ne by lia. by apply RG.
      * intros t' c' n [[<- [= <- <-]]|Hc]%threads_insert; [lia|]. specialize (N1 t' c' n Hc). lia.
      * intros t' c' [[_ ?]|Hc]%threads_insert; [discriminate|]. specialize (N2 t' c' Hc). lia.
      * intros c' Hc. specialize (N4 c' Hc). lia.
  - destruct (threads s !! t) as [[c n|c|c]|] eqn:Et; try discriminate. destruct (n <? 5)%nat eqn:En; [|discriminate]. injection H as <-.
    apply Nat.ltb_lt in En. split; cbn [registered threads fresh]; [| | |assumption].
    + intros c' k Hc Hs. unfold cval. cbn [caches meta]. rewrite cval_upd. destruct (decide (c = c')) as [->|]; [|by apply RG].
      rewrite val_read, decide_False by lia. by apply RG.
    + intros t' c' n' [[<- [= <- <-]]|Ht]%threads_insert; [by apply (N1 t c n)|by apply (N1 t' c' n')].
    + intros t' c' [[_ ?]|Ht]%threads_insert; [discriminate|]. by apply (N2 t').
  - destruct (threads s !! t) as [[c n|c|c]|] eqn:Et; try discriminate. do 6 (destruct n as [|n]; [try discriminate|]); [|discriminate].
    destruct (stored s) as [c'|]; injection H as <-; (split; cbn [registered threads fresh]; [assumption| | |assumption]).
    + intros t' c'' n [[_ ?]|Hc]%threads_insert; [discriminate|]. by apply (N1 t' c'' n).
    + intros t' c'' [[_ ?]|Hc]%threads_insert; [discriminate|]. by apply (N2 t').
    + intros t' c'' n [[_ ?]|Hc]%threads_insert; [discriminate|]. by apply (N1 t' c'' n).
    + intros t' c'' [[_ [= <-]]|Hc]%threads_insert; [|by apply (N2 t')]. by apply (N1 t c 5%nat).
  - destruct (threads s !! t) as [[c n|c|c]|] eqn:Et; try discriminate. injection H as <-. split; cbn [registered threads fresh].
    + intros c' k [= <-] Hs. unfold cval. cbn [caches meta]. rewrite cval_upd, decide_True by reflexivity. by rewrite val_read, decide_True.
    + intros t' c' n' [[_ ?]|Ht]%threads_insert; [discriminate|]. by apply (N1 t' c' n').
    + intros t' c' [[_ ?]|Ht]%threads_insert; [discriminate|]. by apply (N2 t').
    + intros c' [= <-]. by apply (N2 t).
  - destruct (threads s !! t) as [[c n|c|c]|] eqn:Et; try discriminate. injection H as <-. split; cbn [registered threads fresh]; try discriminate.
    + intros t' c' n Ht%threads_delete. by apply (N1 t' c' n).
    + intros t' c' Ht%threads_delete. by apply (N2 t').
  - destruct (threads s !! t) as [[c n|c|c]|] eqn:Et; try discriminate. injection H as <-. split; cbn [registered threads fresh]; try assumption.
    + intros t' c' n Ht%threads_delete. by apply (N1 t' c' n).
    + intros t' c' Ht%threads_delete. by apply (N2 t').
  - destruct (inval s) as [b [|]]; [|discriminate]. injection H as <-. by split.
  - destruct (inval s) as [[b|] [|[|]]]; try discriminate. injection H as <-. by split.
  - destruct (inval s) as [[b|] [|[|[|]]]]; try discriminate. injection H as <-. by split.
Qed.
Lemma reg_runs l s s' : reg_inv s -> runs l s = Some s' -> reg_inv s'.
Proof.
  revert s. induction l as [|x l IH]; cbn; intros s Hi H; [by injection H as <-|].
  destruct (next x s) as [s1|] eqn:E; [|discriminate]. apply (IH s1); [by eapply reg_step|done].
Qed.

(** ** Connections have the registered cache *)
Definition held (s : st) (c : nat) : Prop := exists t, threads s !! t = Some (Registering c).
Record own_inv (s : st) : Prop := mk_own_inv {
  o_conn : forall t c, conns s !! t = Some c -> (exists n, inval s = (Some true, S n)) \/ stored s = Some c;
  o_connecting : forall t c, threads s !! t = Some (Connecting c) -> stored s = Some c;
  o_registering : forall t c, threads s !! t = Some (Registering c) -> stored s = Some c;
  o_stored : forall c, stored s = Some c -> inval s = (Some true, 1%nat) \/ registered s = Some c \/ held s c;
  o_registered : forall c, registered s = Some c -> stored s = Some c;
  o_inval : inval s = (Some true, 1%nat) -> registered s = None /\ stored s <> None /\ forall c, ~ held s c
}.
Lemma own0 : own_inv st0.
Proof. split; cbn; try discriminate; intros *; rewrite lookup_empty; discriminate. Qed.
Lemma own_step x s s' : own_inv s -> no_orphan x s -> next x s = Some s' -> own_inv s'.
Proof.
  intros [C1 C2 C3 C4 C5 C6] Hno H. destruct x as [k v| | |t|t|t|t|t|t| | |]; cbn [next] in H.
  - destruct (writer s); [discriminate|]. injection H as <-. split; assumption.
  - destruct (writer s); [|discriminate]. injection H as <-. split; assumption.
  - destruct (queue s) as [|[k v] q]; [discriminate|]. destruct (inval s) as [b [|]] eqn:Ei; [|discriminate].
    destruct (section k =? 5)%nat; injection H as <-; split; cbn; try rewrite Ei; assumption.
  - destruct (threads s !! t) eqn:Et; [discriminate|]. destruct (conns s !! t); [discriminate|]. destruct (stored s) as [c|] eqn:Es; injection H as <-.
    + split; cbn [db writer queue meta caches fresh stored registered threads conns inval]; try assumption.
      * intros t' c' [[_ [= <-]]|Ht]%threads_insert; [done|by apply (C2 t')].
      * intros t' c' [[_ ?]|Ht]%threads_insert; [discriminate|by apply (C3 t')].
      * intros c' [= <-]. destruct (C4 c eq_refl) as [?|[?|[t' Ht']]]; [by left|right; by left|]. right. right. exists t'. cbn. rewrite lookup_insert_ne; [done|congruence].
      * intros Hi. destruct (C6 Hi) as (H1 & H2 & H3). split; [done|]. split; [done|]. intros c' [t' [[_ ?]|Ht']%threads_insert]; [discriminate|]. apply (H3 c'). by exists t'.
    + split; cbn [db writer queue meta caches fresh stored registered threads conns inval]; try assumption.
      * intros t' c' [[_ ?]|Ht]%threads_insert; [discriminate|by apply (C2 t')].
      * intros t' c' [[_ ?]|Ht]%threads_insert; [discriminate|by apply (C3 t')].
      * intros c' ?. discriminate.
      * intros Hi. destruct (C6 Hi) as (H1 & H2 & H3). done.
  - destruct (threads s !! t) as [[c n|c|c]|] eqn:Et; try discriminate. destruct (n <? 5)%nat; [|discriminate]. injection H as <-.
    split; cbn [db writer queue meta caches fresh stored registered threads conns inval]; try assumption.
    + intros t' c' [[_ ?]|Ht]%threads_insert; [discriminate|by apply (C2 t')].
    + intros t' c' [[_ ?]|Ht]%threads_insert; [discriminate|by apply (C3 t')].
    + intros c' Hc. destruct (C4 c' Hc) as [?|[?|[t' Ht']]]; [by left|right; by left|]. right. right. exists t'. cbn. rewrite lookup_insert_ne; [done|congruence].
    + intros Hi. destruct (C6 Hi) as (H1 & H2 & H3). split; [done|]. split; [done|]. intros c' [t' [[_ ?]|Ht']%threads_insert]; [discriminate|]. apply (H3 c'). by exists t'.
  - destruct (threads s !! t) as [[c n|c|c]|] eqn:Et; try discriminate. do 6 (destruct n as [|n]; [try discriminate|]); [|discriminate].
    destruct (stored s) as [c'|] eqn:Es; injection H as <-.
    + split; cbn [db writer queue meta caches fresh stored registered threads conns inval]; try assumption.
      * intros t' c'' [[_ [= <-]]|Ht]%threads_insert; [done|by apply (C2 t')].
      * intros t' c'' [[_ ?]|Ht]%threads_insert; [discriminate|by apply (C3 t')].
      * intros c'' [= <-]. destruct (C4 c' eq_refl) as [?|[?|[t' Ht']]]; [by left|right; by left|]. right. right. exists t'. cbn. rewrite lookup_insert_ne; [done|congruence].
      * intros Hi. destruct (C6 Hi) as (H1 & H2 & H3). split; [done|]. split; [done|]. intros c'' [t' [[_ ?]|Ht']%threads_insert]; [discriminate|]. apply (H3 c''). by exists t'.
    + split; cbn [db writer queue meta caches fresh stored registered threads conns inval].
      * intros t' c' Hc. destruct (C1 t' c' Hc) as [?|?]; [by left|discriminate].
      * intros t' c' [[_ ?]|Ht]%threads_insert; [discriminate|]. specialize (C2 t' c' Ht). discriminate.
      * intros t' c' [[_ [= <-]]|Ht]%threads_insert; [done|]. specialize (C3 t' c' Ht). discriminate.
      * intros c' [= <-]. right. right. exists t. cbn. apply lookup_insert.
      * intros c' Hc. specialize (C5 c' Hc). discriminate.
      * intros Hi. destruct (C6 Hi) as (_ & H2 & _). done.
  - destruct (threads s !! t) as [[c n|c|c]|] eqn:Et; try discriminate. injection H as <-.
    pose proof (C3 t c Et) as Es.
    split; cbn [db writer queue meta caches fresh stored registered threads conns inval]; try assumption.
    + intros t' c' [[_ [= <-]]|Ht]%threads_insert; [done|by apply (C2 t')].
    + intros t' c' [[_ ?]|Ht]%threads_insert; [discriminate|by apply (C3 t')].
    + intros c' Hc. right. left. congruence.
    + intros c' [= <-]. exact Es.
    + intros Hi. destruct (C6 Hi) as (_ & _ & H3). exfalso. apply (H3 c). by exists t.
  - destruct Hno.
  - destruct (threads s !! t) as [[c n|c|c]|] eqn:Et; try discriminate. injection H as <-.
    split; cbn [db writer queue meta caches fresh stored registered threads conns inval]; try assumption.
    + intros t' c' [[_ <-]|[_ Hc]]%lookup_insert_Some; [right; by apply (C2 t)|by apply (C1 t')].
    + intros t' c' Ht%threads_delete. by apply (C2 t').
    + intros t' c' Ht%threads_delete. by apply (C3 t').
    + intros c' Hc. destruct (C4 c' Hc) as [?|[?|[t' Ht']]]; [by left|right; by left|]. right. right. exists t'. cbn. rewrite lookup_delete_ne; [done|congruence].
    + intros Hi. destruct (C6 Hi) as (H1 & H2 & H3). split; [done|]. split; [done|]. intros c' [t' Ht'%threads_delete]. apply (H3 c'). by exists t'.
  - destruct (inval s) as [b [|]] eqn:Ei; [|discriminate]. injection H as <-.
    assert (Hr : forall c, ~ held s c) by (intros c [t Ht]; by apply (proj1 (Hno t c))).
    split; cbn [db writer queue meta caches fresh stored registered threads conns inval]; try assumption.
    + intros t c Hc. destruct (C1 t c Hc) as [[n [=]]|Es]. by right.
    + intros c Hc. left. destruct (C4 c Hc) as [[=]|[->|Hh]]; [reflexivity|]. by apply Hr in Hh.
    + intros c ?. discriminate.
    + intros Hi. split; [done|]. split; [|exact Hr]. destruct (registered s) as [c|] eqn:E; [|discriminate]. by rewrite (C5 c eq_refl).
  - destruct (inval s) as [[b|] [|[|]]] eqn:Ei; try discriminate. injection H as <-.
    assert (Hr : forall c, ~ held s c) by (intros c [t Ht]; by apply (proj1 (Hno t c))).
    assert (Hc : forall t c, threads s !! t <> Some (Connecting c)) by (intros t c; exact (proj2 (Hno t c))).
    split; cbn [db writer queue meta caches fresh stored registered threads conns inval]; try assumption.
    + intros t c Ht. destruct b; [left; by exists 1%nat|]. destruct (C1 t c Ht) as [[n [=]]|Es]. by right.
    + intros t c Ht. by apply Hc in Ht.
    + intros t c Ht. exfalso. apply (Hr c). by exists t.
    + intros c. destruct b; [discriminate|]. intros Hs. right. destruct (C4 c Hs) as [[=]|?]. done.
    + intros c. destruct b; [|apply C5]. destruct (C6 eq_refl) as (-> & _). discriminate.
    + intros [=].
  - destruct (inval s) as [[b|] [|[|[|]]]] eqn:Ei; try discriminate. injection H as <-.
    split; cbn [db writer queue meta caches fresh stored registered threads conns inval]; try assumption.
    + intros t c. destruct b; [rewrite lookup_empty; discriminate|]. intros Hc. destruct (C1 t c Hc) as [[n [=]]|Es]. by right.
    + intros c Hs. right. destruct (C4 c Hs) as [[=]|?]. done.
    + intros [=].
Qed.
Lemma own_runs l s s' : own_inv s -> always no_orphan l s -> runs l s = Some s' -> own_inv s'.
Proof.
  revert s. induction l as [|x l IH]; cbn; intros s Hi Hn H; [by injection H as <-|].
  destruct Hn as [Hn Hn']. destruct (next x s) as [s1|] eqn:E; [|discriminate].
  apply (IH s1); [by eapply own_step|done..].
Qed.
