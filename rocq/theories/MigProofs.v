(** Proofs about upgrades of the database. *)
From Verif Require Import Prelude SqlModel SqlSpec AccumModel MigModel MigSpec.
From Verif Require DeviceModel SqlProps.
Open Scope string_scope. Open Scope list_scope. Open Scope Z_scope.

(** *** Goose *)
Section Goose.
Notation migs := (list (Z * (sdb -> option sdb))).
Definition keeps_table (ms : migs) : Prop := Forall (fun m => forall s s', m.2 s = Some s' -> v_applied s' = v_applied s) ms.

Lemma up_mono (ms : migs) : keeps_table ms -> forall k s v, v ∈ v_applied s -> v ∈ v_applied (goose_up k ms s).1.
Proof.
  induction 1 as [|[v f] ms Hf H IH]; intros k s w Hw; cbn [goose_up]; [done|]. case_bool_decide; [by apply IH|].
  destruct k as [|k]; [done|]. destruct (f s) as [s'|] eqn:E; [|done]. apply IH. cbn. rewrite (Hf _ _ E). set_solver.
Qed.
Lemma up_enough (ms : migs) : forall n m s, (length ms <= n)%nat -> (length ms <= m)%nat -> goose_up n ms s = goose_up m ms s.
Proof.
  induction ms as [|[v f] ms IH]; intros n m s Hn Hm; cbn [goose_up]; [done|]. cbn [length] in *. case_bool_decide; [apply IH; lia|].
  destruct n as [|n]; [lia|]. destruct m as [|m]; [lia|]. destruct (f s); [|done]. apply IH; lia.
Qed.
Lemma up_done (ms : migs) : forall k n s s', (length ms <= n)%nat -> goose_up k ms s = (s', true) -> goose_up n ms s = (s', true).
Proof.
  induction ms as [|[v f] ms IH]; intros k n s s' Hn H; cbn [goose_up] in *; [done|]. cbn [length] in *. case_bool_decide; [eapply IH; [lia|done]|].
  destruct k as [|k]; [done|]. destruct n as [|n]; [lia|]. destruct (f s); [|done]. eapply IH; [lia|done].
Qed.
Lemma up_again (ms : migs) : keeps_table ms -> forall k n s, (length ms <= n)%nat -> goose_up n ms (goose_up k ms s).1 = goose_up n ms s.
Proof.
  induction 1 as [|[v f] ms Hf H IH]; intros k n s Hn; [done|]. cbn [length] in Hn. cbn [goose_up]. destruct (decide (v ∈ v_applied s)) as [Hv|Hv].
  - rewrite !(bool_decide_true (v ∈ v_applied s)) by done. rewrite bool_decide_true by (by apply up_mono). apply IH. lia.
  - rewrite !(bool_decide_false (v ∈ v_applied s)) by done. destruct k as [|k]; [cbn; by rewrite bool_decide_false|]. destruct n as [|n]; [lia|].
    destruct (f s) as [s1|] eqn:E; [|cbn; rewrite bool_decide_false by done; by rewrite E].
    rewrite bool_decide_true.
    + rewrite IH by lia. apply up_enough; lia.
    + apply up_mono; [done|]. cbn. set_solver.
Qed.
Lemma up_all (ms : migs) : keeps_table ms -> forall k s s', goose_up k ms s = (s', true) -> forall v, In v (map fst ms) -> v ∈ v_applied s'.
Proof.
  induction 1 as [|[w f] ms Hf H IH]; intros k s s' Hs v Hv; [done|]. cbn [goose_up] in Hs. destruct Hv as [<-|Hv].
  - case_bool_decide as Hw.
    + change s' with ((s', true).1). rewrite <- Hs. by apply up_mono.
    + destruct k as [|k]; [done|]. destruct (f s) as [s1|]; [|done]. change s' with ((s', true).1). rewrite <- Hs. apply up_mono; [done|]. cbn. set_solver.
  - case_bool_decide as Hw; [by eapply IH|]. destruct k as [|k]; [done|]. destruct (f s) as [s1|]; [|done]. by eapply IH.
Qed.
Lemma up_none (ms : migs) k s : (forall v, In v (map fst ms) -> v ∈ v_applied s) -> goose_up k ms s = (s, true).
Proof.
  induction ms as [|[v f] ms IH]; intros H; cbn [goose_up]; [done|]. rewrite bool_decide_true by (apply H; by left). apply IH. intros w Hw. apply H. by right.
Qed.
(** If every migration works on what the earlier ones leave, all of them are run. *)
Lemma up_works (P : list Z -> sdb -> Prop) (ms : migs) : 
  forall before, (forall a v f b s, ms = a ++ (v, f) :: b -> P (before ++ map fst a) s ->
     (v ∈ v_applied s -> P (before ++ map fst a ++ [v]) s) /\
     (v ∉ v_applied s -> exists s', f s = Some s' /\ P (before ++ map fst a ++ [v]) (with_applied s' ({[ v ]} ∪ v_applied s')))) ->
  forall k s, (length ms <= k)%nat -> P before s -> exists s', goose_up k ms s = (s', true) /\ P (before ++ map fst ms) s'.
Proof.
  induction ms as [|[v f] ms IH]; intros before H k s Hk HP; cbn [goose_up length map] in *.
  - exists s. by rewrite app_nil_r.
  - destruct (H [] v f ms s eq_refl) as [H1 H2]; [by rewrite app_nil_r|]. cbn [map app] in H1, H2.
    assert (Hnext : forall a v' f' b s0, ms = a ++ (v', f') :: b -> P ((before ++ [v]) ++ map fst a) s0 ->
     (v' ∈ v_applied s0 -> P ((before ++ [v]) ++ map fst a ++ [v']) s0) /\
     (v' ∉ v_applied s0 -> exists s', f' s0 = Some s' /\ P ((before ++ [v]) ++ map fst a ++ [v']) (with_applied s' ({[ v' ]} ∪ v_applied s')))).
    { intros a v' f' b s0 E Hp. rewrite <- app_assoc in *. apply (H ((v, f) :: a) v' f' b s0); [by rewrite E|done]. }
    rewrite cons_middle, app_assoc. case_bool_decide as Hv.
    + apply (IH (before ++ [v]) Hnext); [lia|by apply H1].
    + destruct k as [|k]; [lia|]. destruct (H2 Hv) as (s' & -> & HP'). apply (IH (before ++ [v]) Hnext); [lia|done].
Qed.
End Goose.

(** *** Filling a column *)
Section Order.
Context (ord : list (string * string * cell) -> list (string * string * cell)) (Hord : forall l, ord l ≡ₚ l)
        (ordm : list (string * Z) -> list (string * Z)) (Hordm : forall l, ordm l ≡ₚ l).

Lemma column_fold (conv : cell -> option cell) l : NoDup (map fst l) -> (forall k c, (k, c) ∈ l -> is_Some (conv c)) -> forall acc : gmap (string * string) cell,
  exists col : gmap (string * string) cell, fold_left (fun acc (kc : string * string * cell) =>
      match acc, conv kc.2 with
      | Some col, Some c => Some (<[kc.1 := c]> col)
      | _, _ => None
      end) l (Some acc) = Some col /\
    forall k, (forall c, (k, c) ∈ l -> col !! k = conv c) /\ ((forall c, (k, c) ∉ l) -> col !! k = acc !! k).
Proof.
  induction l as [|[k c] l IH]; intros Hnd Hc acc; cbn [fold_left].
  - exists acc. split; [done|]. intros k. split; [|done]. intros c Hin. by apply elem_of_nil in Hin.
  - cbn [map fst] in Hnd. apply NoDup_cons in Hnd as [Hk Hnd]. destruct (Hc k c) as [c' Ec]; [by left|]. cbn [snd fst]. rewrite Ec.
    destruct (IH Hnd (fun k' c0 H => Hc k' c0 (elem_of_list_further _ _ _ H)) (<[k := c']> acc)) as (col & E & Hcol). exists col. split; [done|].
    intros k'. destruct (Hcol k') as [H1 H2]. split.
    + intros c0 Hin. apply elem_of_cons in Hin as [Hin|Hin]; [|by apply H1]. injection Hin as -> ->. rewrite H2, lookup_insert; [done|].
      intros c1 Hin. apply Hk. apply elem_of_list_fmap. by exists (k, c1).
    + intros Hno. rewrite H2 by (intros c0 Hin; apply (Hno c0); by right). rewrite lookup_insert_ne; [done|]. intros <-. apply (Hno c). by left.
Qed.
Lemma ord_keys (rows : gmap (string * string) cell) : NoDup (map fst (ord (map_to_list rows))) /\ forall k c, (k, c) ∈ ord (map_to_list rows) <-> rows !! k = Some c.
Proof.
  split.
  - assert (E : map fst (ord (map_to_list rows)) ≡ₚ map fst (map_to_list rows)) by (apply Permutation_map, Hord). rewrite E. apply NoDup_fst_map_to_list.
  - intros k c. rewrite (Hord _). apply elem_of_map_to_list.
Qed.
Lemma column (conv : cell -> option cell) (rows : gmap (string * string) cell) : (forall k c, rows !! k = Some c -> is_Some (conv c)) ->
  exists col, new_column ord conv rows = Some col /\ forall k, col !! k = rows !! k ≫= conv.
Proof.
  intros Hc. destruct (ord_keys rows) as [Hnd Hin]. unfold new_column.
  destruct (column_fold conv (ord (map_to_list rows)) Hnd) with (acc := (fun _ => None) <$> rows : gmap (string * string) cell) as (col & E & Hcol).
  { intros k c H. apply (Hc k). by apply Hin. }
  exists col. split; [done|]. intros k. destruct (Hcol k) as [H1 H2]. destruct (rows !! k) as [c|] eqn:Ek.
  - cbn. apply H1. by apply Hin.
  - cbn. rewrite H2, lookup_fmap, Ek; [done|]. intros c H. apply Hin in H. congruence.
Qed.

(** *** Moving the lists *)
Lemma insert_none rows : fold_left (fun acc (r : string * string * string * Z * Z) =>
      match acc with
      | Some t => if bool_decide (is_Some (t !! r.1)) || (r.2 <? -32768) || (32767 <? r.2)
                  then None else Some (<[r.1 := r.2]> t)
      | None => None
      end) rows (@None (gmap (string * string * string * Z) Z)) = None.
Proof. by induction rows. Qed.
Lemma insert_app a b t : insert_rows (a ++ b) t = (t' ← insert_rows a t; insert_rows b t').
Proof. unfold insert_rows. rewrite fold_left_app. destruct (fold_left _ a (Some t)); [done|]. apply insert_none. Qed.
Lemma insert_chunks chunks : forall t,
  fold_left (fun acc chunk => t ← acc; insert_rows chunk t) chunks (Some t) = insert_rows (concat chunks) t.
Proof.
  assert (Hn : forall chunks, fold_left (fun acc chunk => t ← acc; insert_rows chunk t) chunks None = None) by (by induction chunks0).
  induction chunks as [|c chunks IH]; intros t; [done|]. cbn [fold_left concat mbind option_bind]. rewrite insert_app.
  destruct (insert_rows c t) as [t'|]; [by rewrite IH|]. by rewrite Hn.
Qed.
Lemma insert_ok rows : NoDup (map fst rows) -> forall t, (forall r, r ∈ rows -> t !! r.1 = None /\ -32768 <= r.2 <= 32767) ->
  exists t', insert_rows rows t = Some t' /\ forall k, (forall v, (k, v) ∈ rows -> t' !! k = Some v) /\ ((forall v, (k, v) ∉ rows) -> t' !! k = t !! k).
Proof.
  unfold insert_rows. induction rows as [|[k v] rows IH]; intros Hnd t Hr; cbn [fold_left].
  - exists t. split; [done|]. intros k. split; [|done]. intros v Hin. by apply elem_of_nil in Hin.
  - cbn [map fst] in Hnd. apply NoDup_cons in Hnd as [Hk Hnd]. destruct (Hr (k, v)) as [Hn Hb]; [by left|]. cbn [fst snd] in *.
    rewrite Hn. rewrite bool_decide_false by (by intros [? ?]). destruct (Z.ltb_spec v (-32768)); [lia|]. destruct (Z.ltb_spec 32767 v); [lia|]. cbn [orb].
    destruct (IH Hnd (<[k := v]> t)) as (t' & E & Ht').
    { intros r Hin. destruct (Hr r) as [H1 H2]; [by right|]. split; [|done]. rewrite lookup_insert_ne; [done|]. intros ->. apply Hk. apply elem_of_list_fmap. eauto. }
    exists t'. split; [done|]. intros k'. destruct (Ht' k') as [H1 H2]. split.
    + intros v0 Hin. apply elem_of_cons in Hin as [Hin|Hin]; [|by apply H1]. injection Hin as -> ->. rewrite H2, lookup_insert; [done|].
      intros v1 Hin. apply Hk. apply elem_of_list_fmap. by exists (k, v1).
    + intros Hno. rewrite H2 by (intros v0 Hin; apply (Hno v0); by right). rewrite lookup_insert_ne; [done|]. intros <-. apply (Hno v). by left.
Qed.

Lemma list_rows_in u d o u' d' t b v : (u', d', t, b, v) ∈ list_rows ordm u d o <->
  u' = u /\ d' = d /\ ((b = 1 /\ default ∅ (o_new o) !! t = Some v) \/ (b = 2 /\ default ∅ (o_sent o) !! t = Some v)).
Proof.
  unfold list_rows. rewrite elem_of_app. rewrite !elem_of_list_fmap. split.
  - intros [((t0 & v0) & E & Hin)|((t0 & v0) & E & Hin)]; injection E as -> -> -> -> ->; rewrite (Hordm _) in Hin; apply elem_of_map_to_list in Hin; auto.
  - intros (-> & -> & [[-> H]|[-> H]]); [left|right]; exists (t, v); (split; [done|]); rewrite (Hordm _); by apply elem_of_map_to_list.
Qed.
Lemma list_rows_nodup u d o : NoDup (map fst (list_rows ordm u d o)).
Proof.
  unfold list_rows. rewrite map_app, !map_map. cbn [fst]. apply NoDup_app.
  assert (Hn : forall (b : Z) (m : gmap string Z), NoDup (map (fun kv : string * Z => (u, d, kv.1, b)) (ordm (map_to_list m)))).
  { intros b m. rewrite <- (map_map fst (fun t => (u, d, t, b))). apply (NoDup_fmap_2_strong (fun t => (u, d, t, b))).
    - intros x y _ _ E. by injection E.
    - assert (E : map fst (ordm (map_to_list m)) ≡ₚ map fst (map_to_list m)) by (apply Permutation_map, Hordm). rewrite E. apply NoDup_fst_map_to_list. }
  split; [apply Hn|]. split; [|apply Hn]. intros x H1 H2. apply elem_of_list_fmap in H1 as (kv1 & -> & _). by apply elem_of_list_fmap in H2 as (kv2 & E & _).
Qed.

Definition cleared (o : odata) : odata := mk_odata (o_otk o) (o_fallback o) (Some ∅) (Some ∅) (o_bits o).
Lemma move_one data lists u d o : sensible o -> (forall t b, lists !! (u, d, t, b) = None) ->
  exists data' lists', move_lists ordm (Some (data, lists)) (u, d, Some (Cbor o)) = Some (data', lists') /\
    (data' = <[(u, d) := Some (Cbor (cleared o))]> data \/ (data' = data /\ no_lists o)) /\
    (forall t, lists' !! (u, d, t, 1) = default ∅ (o_new o) !! t) /\ (forall t, lists' !! (u, d, t, 2) = default ∅ (o_sent o) !! t) /\
    (forall k, k.1.1 <> (u, d) -> lists' !! k = lists !! k).
Proof.
  intros [Hotk Hs] Hno. unfold move_lists. cbn [of_cbor].
  assert (Hp : pairs_ok 1000000000 o = true).
  { unfold pairs_ok. destruct (Hs _ (or_introl eq_refl)) as [H1 _]. destruct (Hs _ (or_intror eq_refl)) as [H2 _]. rewrite !andb_true_iff, !Z.leb_le. lia. }
  rewrite Hp. destruct (list_rows ordm u d o) as [|r rows] eqn:Er.
  - assert (Hnl : no_lists o).
    { split; apply map_empty; intros t; apply eq_None_not_Some; intros [v Hv];
        [pose proof (proj2 (list_rows_in u d o u d t 1 v) (conj eq_refl (conj eq_refl (or_introl (conj eq_refl Hv))))) as Hin
        |pose proof (proj2 (list_rows_in u d o u d t 2 v) (conj eq_refl (conj eq_refl (or_intror (conj eq_refl Hv))))) as Hin];
        rewrite Er in Hin; by apply elem_of_nil in Hin. }
    exists data, lists. split; [done|]. split; [by right|]. destruct Hnl as [-> ->]. repeat split; intros; by rewrite Hno, lookup_empty.
  - rewrite <- Er. destruct (SqlProps.C49_chunks_partial 5 65535 (list_rows ordm u d o)) as (chunks & [Hcat _] & Hch); [lia|by rewrite Er|].
    assert (Hcon : concat chunks = list_rows ordm u d o) by exact Hcat.
    rewrite (Hch (S (length (list_rows ordm u d o)))) by lia. rewrite insert_chunks, Hcon.
    destruct (insert_ok (list_rows ordm u d o) (list_rows_nodup u d o) lists) as (t' & Ht & Hl).
    { intros [[[[u' d'] t] b] v] Hin. apply list_rows_in in Hin as (-> & -> & H). split; [apply Hno|]. cbn [snd].
      destruct H as [[_ H]|[_ H]]; [apply (proj2 (Hs _ (or_introl eq_refl))) in H|apply (proj2 (Hs _ (or_intror eq_refl))) in H]; lia. }
    rewrite Ht. exists (<[(u, d) := Some (Cbor (cleared o))]> data), t'. split; [done|]. split; [by left|].
    assert (Hb : forall t b (m : gmap string Z), (forall v, (u, d, t, b, v) ∈ list_rows ordm u d o <-> m !! t = Some v) -> t' !! (u, d, t, b) = m !! t).
    { intros t b m H. destruct (Hl (u, d, t, b)) as [H1 H2]. destruct (m !! t) as [v|] eqn:E; [apply H1; by apply H|].
      rewrite H2, Hno; [done|]. intros v Hin. apply H in Hin. congruence. }
    split; [|split].
    + intros t. apply Hb. intros v. rewrite list_rows_in. split; [intros (_ & _ & [[_ H]|[H _]]); [done|lia]|auto].
    + intros t. apply Hb. intros v. rewrite list_rows_in. split; [intros (_ & _ & [[H _]|[_ H]]); [lia|done]|auto].
    + intros [[[u' d'] t] b] Hk. apply (Hl (u', d', t, b)). intros v Hin. apply list_rows_in in Hin as (-> & -> & _). by apply Hk.
Qed.
Lemma move_all (l : list (string * string * cell)) : NoDup (map fst l) -> (forall u d (c : cell), (u, d, c) ∈ l -> exists o, sensible o /\ c = Some (Cbor o)) -> forall data lists,
  (forall u d t b, (u, d) ∈ map fst l -> lists !! (u, d, t, b) = None) ->
  exists data' lists', fold_left (move_lists ordm) l (Some (data, lists)) = Some (data', lists') /\
    (forall u d o, (u, d, Some (Cbor o)) ∈ l ->
       (data' !! (u, d) = Some (Some (Cbor (cleared o))) \/ (data' !! (u, d) = data !! (u, d) /\ no_lists o)) /\
       (forall t, lists' !! (u, d, t, 1) = default ∅ (o_new o) !! t) /\ (forall t, lists' !! (u, d, t, 2) = default ∅ (o_sent o) !! t)) /\
    (forall u d, (u, d) ∉ map fst l -> data' !! (u, d) = data !! (u, d) /\ forall t b, lists' !! (u, d, t, b) = lists !! (u, d, t, b)).
Proof.
  induction l as [|[[u d] c] l IH]; intros Hnd Hc data lists Hno; cbn [fold_left].
  - exists data, lists. split; [done|]. split; [|done]. intros u d o Hin. by apply elem_of_nil in Hin.
  - cbn [map fst] in Hnd, Hno. apply NoDup_cons in Hnd as [Hk Hnd]. destruct (Hc u d c) as (o & Ho & ->); [by left|].
    destruct (move_one data lists u d o Ho) as (data1 & lists1 & E & H1 & H2 & H3 & H4); [intros t b; apply Hno; by left|].
    destruct (IH Hnd) with (data := data1) (lists := lists1) as (data' & lists' & E' & A & B).
    { intros u' d' c' Hin. apply (Hc u' d'). by right. }
    { intros u' d' t b Hin. rewrite H4; [apply Hno; by right|]. cbn. intros [= -> ->]. done. }
    exists data', lists'. split; [etrans; [|exact E']; f_equal; exact E|]. split.
    + intros u' d' o' Hin. apply elem_of_cons in Hin as [Hin|Hin].
      * injection Hin as -> -> ->. destruct (B u d Hk) as [B1 B2]. rewrite B1. setoid_rewrite B2. split; [|done].
        destruct H1 as [-> |[-> Hn]]; [left; etrans; [exact B1|apply lookup_insert]|by right].
      * destruct (A u' d' o' Hin) as (A1 & A2). split; [|done].
        assert (Hne : (u', d') <> (u, d)). { intros [= -> ->]. apply Hk. apply elem_of_list_fmap. by exists (u, d, Some (Cbor o')). }
        destruct A1 as [A1|[A1 A3]]; [by left|right]. split; [|done]. rewrite A1. destruct H1 as [-> |[-> _]]; [by rewrite lookup_insert_ne|done].
    + intros u' d' Hn. apply not_elem_of_cons in Hn as [Hne Hn]. destruct (B u' d' Hn) as [B1 B2]. split.
      * rewrite B1. destruct H1 as [-> |[-> _]]; [by rewrite lookup_insert_ne|done].
      * intros t b. rewrite B2. apply H4. done.
Qed.

(** *** What is kept *)
Definition same (s s' : sdb) : Prop := forall u d, key_data s' u d = key_data s u d /\
  forall t, unsent s' u d t = unsent s u d t /\ unacknowledged s' u d t = unacknowledged s u d t.

Definition dec (c : option cell) : option odata := match c with Some (Some (Json o)) | Some (Some (Cbor o)) => Some o | _ => None end.
Lemma written_eq s u d c : c_data (v_dev s) !! (u, d) = c -> written s u d = dec c.
Proof. by intros <-. Qed.

Lemma applied_step v w s s' : v_applied s' = {[ w ]} ∪ v_applied s -> applied v s' = bool_decide (v = w) || applied v s.
Proof. intros E. unfold applied. rewrite E. apply eq_true_iff_eq. rewrite orb_true_iff, !bool_decide_eq_true. set_solver. Qed.

Lemma other_step w s s' : v_dev s' = v_dev s -> v_applied s' = {[ w ]} ∪ v_applied s -> w <> to_jsonb -> w <> to_cbor -> w <> to_table ->
  left_by_a_server s -> left_by_a_server s' /\ same s s'.
Proof.
  intros Ed Ea H1 H2 H3 [L1 L2 L3 L4].
  assert (E1 : applied to_jsonb s' = applied to_jsonb s) by (rewrite (applied_step _ _ _ _ Ea); by rewrite bool_decide_false by done).
  assert (E2 : applied to_cbor s' = applied to_cbor s) by (rewrite (applied_step _ _ _ _ Ea); by rewrite bool_decide_false by done).
  assert (E3 : applied to_table s' = applied to_table s) by (rewrite (applied_step _ _ _ _ Ea); by rewrite bool_decide_false by done).
  split.
  - split; rewrite ?E1, ?E2, ?E3, ?Ed; done.
  - intros u d. unfold key_data, unsent, unacknowledged, written, in_table. rewrite E3, Ed. done.
Qed.

Lemma jsonb_step s : left_by_a_server s -> to_jsonb ∉ v_applied s -> exists t, upJSONB ord (v_dev s) = Some t /\
  forall s', s' = with_applied (with_dev s t) ({[ to_jsonb ]} ∪ v_applied s) -> left_by_a_server s' /\ same s s'.
Proof.
  intros [[L0 L1] L2 L3 L4] Hv. assert (A1 : applied to_jsonb s = false) by (by apply bool_decide_false).
  assert (A2 : applied to_cbor s = false) by (destruct (applied to_cbor s); [by rewrite L0 in A1|done]).
  assert (A3 : applied to_table s = false) by (destruct (applied to_table s); [by rewrite L1 in A2|done]).
  rewrite A1, A2 in L2. rewrite A2, A3 in L3. unfold upJSONB. rewrite L2.
  destruct (column (fun c => match c with Some (Cbor _) => None | _ => Some c end) (c_data (v_dev s))) as (col & Ec & Hcol).
  { intros [u d] c Hc. destruct (L3 u d c Hc) as (o & _ & -> & _). eauto. }
  rewrite Ec. eexists. split; [done|]. intros s' ->. set (s' := with_applied _ _).
  assert (Ea : v_applied s' = {[ to_jsonb ]} ∪ v_applied s) by done.
  assert (B1 : applied to_jsonb s' = true) by (by rewrite (applied_step _ _ _ _ Ea)).
  assert (B2 : applied to_cbor s' = false) by (by rewrite (applied_step _ _ _ _ Ea), A2).
  assert (B3 : applied to_table s' = false) by (by rewrite (applied_step _ _ _ _ Ea), A3).
  assert (Hd : forall u d, c_data (v_dev s') !! (u, d) = c_data (v_dev s) !! (u, d)).
  { intros u d. etrans; [exact (Hcol (u, d))|]. destruct (c_data (v_dev s) !! (u, d)) as [c|] eqn:E; [|done]. destruct (L3 u d c E) as (o & _ & -> & _). done. }
  split.
  - split; rewrite ?B1, ?B2, ?B3; try done. { intros u d c Hc. apply (L3 u d). by rewrite <- Hd. } intros _. by apply L4.
  - intros u d. unfold key_data, unsent, unacknowledged, written. rewrite A3, B3, Hd. done.
Qed.

Lemma cbor_step s : left_by_a_server s -> applied to_jsonb s = true -> to_cbor ∉ v_applied s -> exists t, upCborDeviceData ord (v_dev s) = Some t /\
  forall s', s' = with_applied (with_dev s t) ({[ to_cbor ]} ∪ v_applied s) -> left_by_a_server s' /\ same s s'.
Proof.
  intros [[L0 L1] L2 L3 L4] A1 Hv. assert (A2 : applied to_cbor s = false) by (by apply bool_decide_false).
  assert (A3 : applied to_table s = false) by (destruct (applied to_table s); [by rewrite L1 in A2|done]).
  rewrite A1, A2 in L2. rewrite A2, A3 in L3. unfold upCborDeviceData. rewrite L2.
  destruct (column (fun c => o ← of_json c; Some (Some (Cbor o))) (c_data (v_dev s))) as (col & Ec & Hcol).
  { intros [u d] c Hc. destruct (L3 u d c Hc) as (o & _ & -> & _). cbn. eauto. }
  rewrite Ec. eexists. split; [done|]. intros s' ->. set (s' := with_applied _ _).
  assert (Ea : v_applied s' = {[ to_cbor ]} ∪ v_applied s) by done.
  assert (B1 : applied to_jsonb s' = true) by (by rewrite (applied_step _ _ _ _ Ea), A1).
  assert (B2 : applied to_cbor s' = true) by (by rewrite (applied_step _ _ _ _ Ea)).
  assert (B3 : applied to_table s' = false) by (by rewrite (applied_step _ _ _ _ Ea), A3).
  assert (Hd : forall u d, (c_data (v_dev s) !! (u, d) = None /\ c_data (v_dev s') !! (u, d) = None) \/
    exists o, sensible o /\ c_data (v_dev s) !! (u, d) = Some (Some (Json o)) /\ c_data (v_dev s') !! (u, d) = Some (Some (Cbor o))).
  { intros u d. assert (E : c_data (v_dev s') !! (u, d) = c_data (v_dev s) !! (u, d) ≫= (fun c => o ← of_json c; Some (Some (Cbor o)))) by exact (Hcol (u, d)).
    destruct (c_data (v_dev s) !! (u, d)) as [c|] eqn:E'; [right|by left]. destruct (L3 u d c E') as (o & Ho & -> & _). exists o. done. }
  split.
  - split; rewrite ?B1, ?B2, ?B3; try done. { intros u d c Hc. destruct (Hd u d) as [[_ H]|(o & Ho & _ & H)]; apply (eq_trans (eq_sym Hc)) in H; [done|]. exists o. split; [done|]. split; [by apply (inj Some) in H|done]. } intros _. by apply L4.
  - intros u d. unfold key_data, unsent, unacknowledged. rewrite A3, B3. destruct (Hd u d) as [[H H']|(o & _ & H & H')]; rewrite (written_eq _ _ _ _ H), (written_eq _ _ _ _ H'); done.
Qed.

Lemma cleared_sensible o : sensible o -> sensible (cleared o).
Proof.
  intros [H1 H2]. split; [done|]. intros m [-> | ->]; cbn; (split; [rewrite map_size_empty; lia|]); intros t st H; by rewrite lookup_empty in H.
Qed.
Lemma table_step s : left_by_a_server s -> applied to_cbor s = true -> to_table ∉ v_applied s -> exists t, upDeviceListTable ord ordm (v_dev s) = Some t /\
  forall s', s' = with_applied (with_dev s t) ({[ to_table ]} ∪ v_applied s) -> left_by_a_server s' /\ same s s'.
Proof.
  intros [[L0 L1] L2 L3 L4] A2 Hv. assert (A3 : applied to_table s = false) by (by apply bool_decide_false). specialize (L4 A3).
  assert (A1 := L0 A2). rewrite A2 in L2. rewrite A2, A3 in L3. unfold upDeviceListTable. destruct (ord_keys (c_data (v_dev s))) as [Hnd Hin].
  destruct (move_all (ord (map_to_list (c_data (v_dev s)))) Hnd) with (data := c_data (v_dev s)) (lists := default ∅ (c_lists (v_dev s))) as (data' & lists' & E & Hm & Hn).
  { intros u d c H. apply Hin in H. destruct (L3 u d c H) as (o & Ho & -> & _). eauto. }
  { intros u d t b _. by rewrite L4, lookup_empty. }
  rewrite E. eexists. split; [done|]. intros s' ->. set (s' := with_applied _ _).
  assert (Ea : v_applied s' = {[ to_table ]} ∪ v_applied s) by done.
  assert (B1 : applied to_jsonb s' = true) by (by rewrite (applied_step _ _ _ _ Ea), A1).
  assert (B2 : applied to_cbor s' = true) by (by rewrite (applied_step _ _ _ _ Ea), A2).
  assert (B3 : applied to_table s' = true) by (by rewrite (applied_step _ _ _ _ Ea)).
  assert (Hd : forall u d, (c_data (v_dev s) !! (u, d) = None /\ c_data (v_dev s') !! (u, d) = None /\ (forall t b, in_table s' u d t b = None)) \/
    exists o o', sensible o /\ sensible o' /\ no_lists o' /\ o_otk o' = o_otk o /\ o_fallback o' = o_fallback o /\ o_bits o' = o_bits o /\
      c_data (v_dev s) !! (u, d) = Some (Some (Cbor o)) /\ c_data (v_dev s') !! (u, d) = Some (Some (Cbor o')) /\
      (forall t, in_table s' u d t 1 = default ∅ (o_new o) !! t /\ in_table s' u d t 2 = default ∅ (o_sent o) !! t)).
  { intros u d. destruct (c_data (v_dev s) !! (u, d)) as [c|] eqn:E'; [right|left].
    - destruct (L3 u d c E') as (o & Ho & -> & _). destruct (Hm u d o) as (H1 & H2 & H3); [by apply Hin|].
      destruct H1 as [H1|[H1 H4]].
      + exists o, (cleared o). split; [done|]. split; [by apply cleared_sensible|]. do 5 (split; [done|]). split; [exact H1|]. intros t. split; [apply H2|apply H3].
      + exists o, o. split; [done|]. split; [done|]. split; [done|]. do 4 (split; [done|]). split; [exact (eq_trans H1 E')|]. intros t. split; [apply H2|apply H3].
    - destruct (Hn u d) as [H1 H2]. { intros H. apply elem_of_list_fmap in H as ([k c] & Ek & H). apply Hin in H. cbn [fst] in Ek. rewrite <- Ek in H. by rewrite E' in H. }
      split; [done|]. split; [exact (eq_trans H1 E')|]. intros t b. etrans; [exact (H2 t b)|]. by rewrite L4, lookup_empty. }
  split.
  - split; rewrite ?B1, ?B2, ?B3; try done. intros u d c Hc. destruct (Hd u d) as [(_ & H & _)|(o & o' & _ & Ho & Hnl & _ & _ & _ & _ & H & _)]; apply (eq_trans (eq_sym Hc)) in H; [done|].
    exists o'. split; [done|]. split; [by apply (inj Some) in H|done].
  - intros u d. unfold key_data, unsent, unacknowledged. rewrite A3, B3.
    destruct (Hd u d) as [(Hw & Hw' & H)|(o & o' & _ & _ & _ & H1 & H2 & H3 & Hw & Hw' & H)]; rewrite (written_eq _ _ _ _ Hw), (written_eq _ _ _ _ Hw').
    + split; [done|]. intros t. rewrite !H. done.
    + cbn. rewrite H1, H2, H3. split; [done|]. intros t. exact (H t).
Qed.

Lemma same_trans a b c : same a b -> same b c -> same a c.
Proof. intros H1 H2 u d. destruct (H1 u d) as [A B], (H2 u d) as [A' B']. split; [congruence|]. intros t. destruct (B t), (B' t). split; congruence. Qed.

Lemma migrations_keep_table : keeps_table (migrations ord ordm).
Proof.
  unfold migrations. repeat apply Forall_cons_2; [..|apply Forall_nil_2]; cbn [snd]; intros s s' E.
  1,4,5,6,7: by injection E as <-.
  all: by apply fmap_Some in E as (t & _ & ->).
Qed.

Lemma upgrade k s : left_by_a_server s -> (8 <= k)%nat -> exists s', goose_up k (migrations ord ordm) s = (s', true) /\ left_by_a_server s' /\ up_to_date s' /\ same s s'.
Proof.
  intros Hs Hk.
  destruct (up_works (fun before s' => left_by_a_server s' /\ same s s' /\ forall v, In v before -> v ∈ v_applied s') (migrations ord ordm) []) with (k := k) (s := s)
    as (s' & E & H1 & H2 & H3).
  - intros a v f b s1 Ems (H1 & H2 & H3). cbn [app] in *. split.
    + intros Hv. split; [done|]. split; [done|]. intros w Hw. apply in_app_or in Hw as [Hw|[<-|[]]]; auto.
    + intros Hv.
      assert (Hgoal : (exists s', f s1 = Some s' /\ v_applied s' = v_applied s1 /\
                  left_by_a_server (with_applied s' ({[ v ]} ∪ v_applied s1)) /\ same s1 (with_applied s' ({[ v ]} ∪ v_applied s1)))).
      { assert (Hother : forall s', f s1 = Some s' -> v_dev s' = v_dev s1 -> v_applied s' = v_applied s1 -> v <> to_jsonb -> v <> to_cbor -> v <> to_table -> exists s', f s1 = Some s' /\ v_applied s' = v_applied s1 /\
                  left_by_a_server (with_applied s' ({[ v ]} ∪ v_applied s1)) /\ same s1 (with_applied s' ({[ v ]} ∪ v_applied s1))).
        { intros s' Ef Ed Ea N1 N2 N3. exists s'. split; [done|]. split; [done|]. by apply (other_step v). }
        unfold migrations in Ems. destruct a as [|m1 a]; cbn in Ems.
        { injection Ems as <- <- _. by eapply Hother. }
        destruct a as [|m2 a]; cbn in Ems.
        { injection Ems as <- <- <- _. destruct (jsonb_step s1 H1 Hv) as (t & Et & Ht). cbv beta. exists (with_dev s1 t). rewrite Et. split; [done|]. split; [done|]. by apply Ht. }
        destruct a as [|m3 a]; cbn in Ems.
        { injection Ems as <- <- <- <- _. destruct (cbor_step s1 H1) as (t & Et & Ht); [apply bool_decide_true, H3; cbn; auto|done|]. cbv beta. exists (with_dev s1 t). rewrite Et. split; [done|]. split; [done|]. by apply Ht. }
        destruct a as [|m4 a]; cbn in Ems.
        { injection Ems as <- <- <- <- <- _. by eapply Hother. }
        destruct a as [|m5 a]; cbn in Ems.
        { injection Ems as <- <- <- <- <- <- _. by eapply Hother. }
        destruct a as [|m6 a]; cbn in Ems.
        { injection Ems as <- <- <- <- <- <- <- _. by eapply Hother. }
        destruct a as [|m7 a]; cbn in Ems.
        { injection Ems as <- <- <- <- <- <- <- <- _. by eapply Hother. }
        destruct a as [|m8 a]; cbn in Ems.
        { injection Ems as <- <- <- <- <- <- <- <- <- _. destruct (table_step s1 H1) as (t & Et & Ht); [apply bool_decide_true, H3; cbn; auto|done|]. cbv beta. exists (with_dev s1 t). rewrite Et. split; [done|]. split; [done|]. by apply Ht. }
        exfalso. apply (f_equal length) in Ems. cbn in Ems. rewrite app_length in Ems. cbn in Ems. lia. }
      destruct Hgoal as (s' & Ef & Ea & G1 & G2). exists s'. split; [done|]. rewrite Ea. split; [done|]. split; [by eapply same_trans|].
      intros w Hw. cbn. apply in_app_or in Hw as [Hw|[<-|[]]]; [|set_solver]. apply elem_of_union. right. by apply H3.
  - done.
  - split; [done|]. split; [done|]. by intros v [].
  - exists s'. split; [done|]. split; [done|]. split; [|done]. intros v Hv. apply bool_decide_true. by apply H3.
Qed.
End Order.
