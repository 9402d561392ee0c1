(** Proofs about required state and combined subscriptions. *)
From Verif Require Import Prelude RequestModel SubModel SubSpec.
Open Scope string_scope.
Open Scope list_scope.
Open Scope Z_scope.

(** ** Required state *)
Section rsm.
Context (user : string) (Hu : user <> "*").

Lemma key_of_star k : key_of user k = "*" <-> k = "*".
Proof.
  unfold key_of. destruct (String.eqb_spec k "$ME") as [-> |].
  - split; [by intros ?|done].
  - done.
Qed.

(** What the map has collected from the entries. *)
Definition collected (req : list tuple) (m : rsm) : Prop :=
  (r_all m = true <-> ("*", "*") ∈ req) /\
  (forall k, k ∈ r_wild_types m <-> exists k', ("*", k') ∈ req /\ k' <> "*" /\ key_of user k' = k) /\
  (forall t, t ∈ r_wild_keys m <-> t <> "*" /\ (t, "*") ∈ req) /\
  (forall t k, k ∈ default [] (r_exact m !! t) <-> names_key user req t k) /\
  (forall t, r_exact m !! t <> Some []).
Lemma snoc_in (req : list tuple) (t x : tuple) : x ∈ req ++ [t] <-> x ∈ req \/ x = t.
Proof. rewrite elem_of_app, elem_of_list_singleton. done. Qed.
Lemma snoc_eq (req : list tuple) (t x : tuple) : x <> t -> (x ∈ req ++ [t] <-> x ∈ req).
Proof. rewrite snoc_in. tauto. Qed.
(** An entry of another kind changes nothing. *)
Lemma snoc_all req t k : (t, k) <> ("*", "*") -> (("*", "*") ∈ req ++ [(t, k)] <-> ("*", "*") ∈ req).
Proof. intros H. apply snoc_eq. congruence. Qed.
Lemma snoc_types req t k x : t <> "*" \/ k = "*" ->
  (exists k', ("*", k') ∈ req ++ [(t, k)] /\ k' <> "*" /\ key_of user k' = x) <->
  (exists k', ("*", k') ∈ req /\ k' <> "*" /\ key_of user k' = x).
Proof.
  intros H. split; intros (k' & Hin & Hk & He); exists k'; (split; [|done]).
  - apply snoc_in in Hin as [?|[= <- ->]]; [done|]. destruct H; done.
  - apply snoc_in. by left.
Qed.
Lemma snoc_keys req t k x : t = "*" \/ k <> "*" ->
  (x <> "*" /\ (x, "*") ∈ req ++ [(t, k)] <-> x <> "*" /\ (x, "*") ∈ req).
Proof.
  intros H. rewrite snoc_in. split; [|tauto]. intros [Hx [?|[= -> <-]]]; [done|]. destruct H; done.
Qed.
Lemma snoc_names req t k x y : t = "*" \/ k = "*" \/ t <> x ->
  (names_key user (req ++ [(t, k)]) x y <-> names_key user req x y).
Proof.
  intros H. unfold names_key. split; intros (k' & Hin & Hk); exists k'; (split; [|done]).
  - apply snoc_in in Hin as [?|[= -> ->]]; [done|]. destruct Hk as (? & ? & ?). destruct H as [?|[?|?]]; done.
  - apply snoc_in. by left.
Qed.
Lemma rsm_add_collected req m t : collected req m -> collected (req ++ [t]) (rsm_add user m t).
Proof.
  intros (H1 & H2 & H3 & H4 & H5). destruct t as [t k]. unfold rsm_add; cbn [fst snd].
  fold (key_of user k). pose proof (key_of_star k) as Hk.
  destruct (String.eqb_spec t "*") as [-> |Ht]; destruct (String.eqb_spec (key_of user k) "*") as [Hs|Hs].
  - apply Hk in Hs as ->. split_and!; cbn.
    + rewrite snoc_in. tauto.
    + intros x. rewrite snoc_types by tauto. apply H2.
    + intros x. rewrite snoc_keys by tauto. apply H3.
    + intros x y. rewrite snoc_names by tauto. apply H4.
    + done.
  - assert (Hk' : k <> "*") by tauto. split_and!; cbn.
    + rewrite snoc_all by congruence. done.
    + intros x. rewrite elem_of_app, H2, elem_of_list_singleton. split.
      * intros [(k' & Hin & Hr)| ->]; [exists k'; split; [apply snoc_in; by left|done]|].
        exists k. split; [apply snoc_in; by right|done].
      * intros (k' & Hin & Hr & He). apply snoc_in in Hin as [Hin|[= ->]]; [left; by exists k'|by right].
    + intros x. rewrite snoc_keys by tauto. apply H3.
    + intros x y. rewrite snoc_names by tauto. apply H4.
    + done.
  - apply Hk in Hs as ->. split_and!; cbn.
    + rewrite snoc_all by congruence. done.
    + intros x. rewrite snoc_types by tauto. apply H2.
    + intros x. rewrite elem_of_cons, H3, snoc_in. split.
      * intros [-> |[? ?]]; tauto.
      * intros [? [?|[= ->]]]; tauto.
    + intros x y. rewrite snoc_names by tauto. apply H4.
    + done.
  - assert (Hk' : k <> "*") by tauto. split_and!; cbn.
    + rewrite snoc_all by congruence. done.
    + intros x. rewrite snoc_types by tauto. apply H2.
    + intros x. rewrite snoc_keys by tauto. apply H3.
    + intros x y. destruct (decide (x = t)) as [-> |Hne].
      * rewrite lookup_insert. change (default [] (Some ?l)) with l. rewrite elem_of_app, H4, elem_of_list_singleton.
        unfold names_key. split.
        -- intros [(k' & Hin & Hr)| ->]; [exists k'; split; [apply snoc_in; by left|done]|].
           exists k. split; [apply snoc_in; by right|done].
        -- intros (k' & Hin & ? & ? & He). apply snoc_in in Hin as [Hin|[= ->]]; [left; by exists k'|by right].
      * rewrite lookup_insert_ne by done. rewrite snoc_names by (right; right; congruence). apply H4.
    + intros x. destruct (decide (x = t)) as [-> |Hne].
      * rewrite lookup_insert. intros [= He]. by destruct (default [] (r_exact m !! t)).
      * by rewrite lookup_insert_ne.
Qed.
Lemma rsm_lazy_add m t : r_lazy (rsm_add user m t) = r_lazy m.
Proof. unfold rsm_add. by destruct (String.eqb t.1 "*"), (String.eqb _ "*"). Qed.
Lemma rsm_collected req : collected req (required_state_map user req) /\ r_lazy (required_state_map user req) = lazy_members req.
Proof.
  unfold required_state_map. generalize (lazy_members req) as b. intros b.
  induction req as [|t req IH] using rev_ind.
  - cbn. split; [|done]. split_and!; cbn; try (intros; set_solver).
    intros t k. rewrite lookup_empty. cbn. unfold names_key. set_solver.
  - rewrite foldl_app. cbn [foldl]. destruct IH as [IH1 IH2]. split; [by apply rsm_add_collected|].
    by rewrite rsm_lazy_add.
Qed.
Lemma lazy_spec req : lazy_members req = true <-> wants_lazy req.
Proof.
  unfold lazy_members, wants_lazy. rewrite existsb_exists. split.
  - intros ([t k] & Hin & He). cbn in He. apply andb_prop in He as [H1 H2].
    apply String.eqb_eq in H1 as ->. apply String.eqb_eq in H2 as ->. by apply elem_of_list_In.
  - intros Hin. exists ("m.room.member", "$LAZY"). split; [by apply elem_of_list_In|done].
Qed.

Lemma existsb_eqb l x : existsb (fun k => String.eqb k x) l = true <-> x ∈ l.
Proof.
  rewrite existsb_exists. split.
  - intros (y & Hin & He). apply String.eqb_eq in He as ->. by apply elem_of_list_In.
  - intros Hin. exists x. split; [by apply elem_of_list_In|apply String.eqb_refl].
Qed.

Lemma include_spec req ty sk :
  rsm_include (required_state_map user req) ty sk = true <-> wanted user req ty sk.
Proof.
  destruct (rsm_collected req) as [(H1 & H2 & H3 & H4 & H5) _].
  set (m := required_state_map user req) in *. unfold rsm_include, wanted.
  destruct (r_all m) eqn:Ea.
  - rewrite bool_decide_eq_true_2 by tauto.
    destruct (0 <? length (default [] (r_exact m !! ty)))%nat eqn:El.
    + rewrite existsb_eqb, H4. split; [done|]. intros H. apply H.
      destruct (default [] (r_exact m !! ty)) as [|k l] eqn:Ed; [done|]. exists k. rewrite <- H4, Ed. set_solver.
    + split; [|done]. intros _ [k Hk]. rewrite <- H4 in Hk. apply Nat.ltb_ge in El.
      destruct (default [] (r_exact m !! ty)); [set_solver|cbn in El; lia].
  - rewrite bool_decide_eq_false_2 by (intros Hx; apply H1 in Hx; done).
    rewrite !orb_true_iff. rewrite !existsb_eqb, H3, H4. unfold matches. split.
    + intros [[Hw|Hw]|Hw].
      * apply existsb_exists in Hw as (k & Hin & He). apply elem_of_list_In in Hin. rewrite H2 in Hin.
        destruct Hin as (k' & Hin & Hk' & Hkk). exists ("*", k'). cbn. split; [done|]. split; [by left|].
        apply orb_prop in He as [He|He]; apply String.eqb_eq in He; [right; congruence|].
        exfalso. apply Hk'. apply key_of_star. congruence.
      * destruct Hw as [Hne Hin]. exists (ty, "*"). cbn. tauto.
      * destruct Hw as (k & Hin & Hne & Hk & He). exists (ty, k). cbn. tauto.
    + intros ([t k] & Hin & Ht & Hk). cbn in Ht, Hk.
      destruct (decide (t = "*")) as [-> |Hne].
      * destruct (decide (k = "*")) as [-> |Hnk]; [apply H1 in Hin; done|].
        destruct Hk as [Hk|Hk]; [done|]. left. left. apply existsb_exists. exists sk. split.
        -- apply elem_of_list_In. rewrite H2. by exists k.
        -- by rewrite String.eqb_refl.
      * destruct Ht as [?| ->]; [done|]. destruct (decide (k = "*")) as [-> |Hnk].
        -- left. by right.
        -- destruct Hk as [?|Hk]; [done|]. right. exists k. done.
Qed.

(** The query asks for whatever is included. *)
Lemma foldr_insert_lookup (l : list string) (q : gmap string (list string)) ty :
  foldr (fun ty q => <[ty := []]> q) q l !! ty = if bool_decide (ty ∈ l) then Some [] else q !! ty.
Proof.
  induction l as [|x l IH]; cbn [foldr]; [done|].
  destruct (decide (x = ty)) as [-> |Hne].
  - rewrite lookup_insert, bool_decide_eq_true_2 by set_solver. done.
  - rewrite lookup_insert_ne, IH by done. by rewrite (bool_decide_ext (ty ∈ x :: l) (ty ∈ l)) by set_solver.
Qed.
Lemma query_none m : r_all m = true \/ r_wild_types m <> [] -> query_state_map m = ∅.
Proof.
  unfold query_state_map. intros [H|H].
  - by rewrite H.
  - destruct (r_all m); [done|]. by destruct (r_wild_types m).
Qed.
Lemma query_some m ty :
  r_all m = false -> r_wild_types m = [] ->
  query_state_map m !! ty =
  if bool_decide (ty ∈ r_wild_keys m) then Some []
  else (fun ks => if String.eqb ty "m.room.member" && r_lazy m then [] else ks) <$> r_exact m !! ty.
Proof.
  intros Ha Hw. unfold query_state_map. rewrite Ha, Hw. cbn [length Nat.eqb].
  rewrite foldr_insert_lookup. case_bool_decide; [done|]. rewrite map_lookup_imap. by destruct (r_exact m !! ty).
Qed.
Lemma query_superset req ty sk :
  wanted user req ty sk \/ (wants_lazy req /\ ty = "m.room.member") ->
  query_matches (query_state_map (required_state_map user req)) ty sk = true.
Proof.
  intros H. destruct (rsm_collected req) as [(H1 & H2 & H3 & H4 & H5) Hl].
  set (m := required_state_map user req) in *. unfold query_matches.
  destruct (r_all m) eqn:Ea; [rewrite (query_none m) by tauto; by rewrite bool_decide_eq_true_2|].
  destruct (r_wild_types m) as [|w ws] eqn:Ew.
  2:{ rewrite (query_none m); [by rewrite bool_decide_eq_true_2|]. right. by rewrite Ew. }
  apply orb_true_iff. right. rewrite query_some by done.
  case_bool_decide as Hwk; [done|].
  assert (Hlz : wants_lazy req -> "$LAZY" ∈ default [] (r_exact m !! "m.room.member") \/ user = "$LAZY").
  { intros Hw. left. rewrite H4. exists "$LAZY". split_and!; done. }
  destruct H as [H|[H ->]].
  - unfold wanted in H. rewrite bool_decide_eq_false_2 in H by (intros Hx; apply H1 in Hx; done).
    destruct H as ([t k] & Hin & Ht & Hk). cbn in Ht, Hk.
    destruct (decide (t = "*")) as [-> |Hne].
    { destruct (decide (k = "*")) as [-> |Hnk]; [apply H1 in Hin; done|].
      assert (Hx : key_of user k ∈ ([] : list string)) by (rewrite H2; by exists k). set_solver. }
    destruct Ht as [?| ->]; [done|]. destruct (decide (k = "*")) as [-> |Hnk].
    { destruct Hwk. by apply H3. }
    destruct Hk as [?|Hk]; [done|].
    assert (Hx : sk ∈ default [] (r_exact m !! ty)) by (rewrite H4; by exists k).
    destruct (r_exact m !! ty) as [ks|]; [|cbn in Hx; set_solver]. cbn in Hx |- *.
    destruct (_ && _); [done|]. destruct ks; [done|]. by rewrite bool_decide_eq_true_2.
  - assert (Hx : "$LAZY" ∈ default [] (r_exact m !! "m.room.member")).
    { rewrite H4. exists "$LAZY". split_and!; done. }
    destruct (r_exact m !! "m.room.member") as [ks|]; [|cbn in Hx; set_solver].
    cbn. rewrite Hl. apply lazy_spec in H. by rewrite H.
Qed.
Lemma empty_spec req : rsm_empty (required_state_map user req) = true <-> req = [].
Proof.
  destruct (rsm_collected req) as [(H1 & H2 & H3 & H4 & H5) Hl].
  set (m := required_state_map user req) in *. unfold rsm_empty. split.
  - intros H. destruct req as [|[t k] req]; [done|]. exfalso.
    repeat (apply andb_prop in H as [H ?]).
    destruct (r_all m) eqn:Ea; [done|]. destruct (r_wild_types m) eqn:Ew; [|done]. destruct (r_wild_keys m) eqn:Ek; [|done].
    rename select (bool_decide _ = true) into He. apply bool_decide_eq_true in He.
    destruct (decide (t = "*")) as [-> |Hne]; destruct (decide (k = "*")) as [-> |Hnk].
    + assert (false = true) by (apply H1; set_solver). done.
    + assert (Hx : key_of user k ∈ ([] : list string)) by (rewrite H2; exists k; set_solver). set_solver.
    + assert (Hx : t ∈ ([] : list string)) by (rewrite H3; set_solver). set_solver.
    + assert (Hx : key_of user k ∈ default [] (r_exact m !! t)) by (rewrite H4; exists k; set_solver).
      rewrite He, lookup_empty in Hx. cbn in Hx. set_solver.
  - intros ->. subst m. vm_compute. done.
Qed.

Lemma in_concat_el {A} (x : A) (ls : list (list A)) : x ∈ concat ls <-> exists l, x ∈ l /\ l ∈ ls.
Proof.
  rewrite elem_of_list_In, in_concat. split; intros (l & H1 & H2); exists l; by rewrite !elem_of_list_In in *.
Qed.
Lemma load_elem req users evs ev :
  ev ∈ load_room_state (required_state_map user req) users evs <->
  ev ∈ evs /\ (wanted user req (se_type ev) (se_key ev) \/ (wants_lazy req /\ se_key ev ∈ users)).
Proof.
  unfold load_room_state. rewrite in_concat_el. destruct (rsm_collected req) as [_ Hl].
  pose proof (lazy_spec req) as Hz. rewrite <- Hl in Hz.
  split.
  - intros (l & Hev & Hin). apply elem_of_list_fmap in Hin as (e & -> & He).
    destruct (rsm_include _ (se_type e) (se_key e)) eqn:Ei.
    + apply elem_of_list_singleton in Hev as ->. split; [done|]. left. by apply include_spec.
    + destruct (r_lazy _) eqn:El; [|set_solver].
      apply elem_of_list_omap in Hev as (u & Hu' & Hx). destruct (String.eqb_spec (se_key e) u) as [Hk|]; [|done].
      injection Hx as ->. split; [done|]. right. split; [tauto|]. by rewrite Hk.
  - intros [Hin Hw].
    destruct (rsm_include (required_state_map user req) (se_type ev) (se_key ev)) eqn:Ei.
    + exists [ev]. split; [set_solver|]. apply elem_of_list_fmap. exists ev. by rewrite Ei.
    + destruct Hw as [Hw|[Hw Hk]]; [apply include_spec in Hw; congruence|].
      eexists. split; [|apply elem_of_list_fmap; exists ev; split; [reflexivity|done]].
      rewrite Ei. apply Hz in Hw. rewrite Hw. apply elem_of_list_omap. exists (se_key ev). split; [done|].
      by rewrite String.eqb_refl.
Qed.

(** Without wildcard types the query is exact. *)
Lemma query_exact req ty sk :
  req <> [] -> (forall k, ("*", k) ∉ req) ->
  query_matches (query_state_map (required_state_map user req)) ty sk = true ->
  wanted user req ty sk \/ (wants_lazy req /\ ty = "m.room.member").
Proof.
  intros Hne Hno H. destruct (rsm_collected req) as [(H1 & H2 & H3 & H4 & H5) Hl].
  set (m := required_state_map user req) in *.
  assert (Ea : r_all m = false).
  { destruct (r_all m) eqn:E; [|done]. destruct (Hno "*"). by apply H1. }
  assert (Ew : r_wild_types m = []).
  { destruct (r_wild_types m) as [|w ws] eqn:E; [done|]. exfalso.
    assert (Hw : w ∈ w :: ws) by left. apply H2 in Hw as (k' & Hin & _). by apply (Hno k'). }
  unfold wanted. rewrite bool_decide_eq_false_2 by apply Hno.
  unfold query_matches in H. apply orb_prop in H as [H|H].
  - exfalso. apply bool_decide_eq_true in H. destruct req as [|[t k] req]; [done|].
    assert (Ht : t <> "*"). { intros ->. apply (Hno k). left. }
    assert (Hq : query_state_map m !! t = None) by (by rewrite H). rewrite query_some in Hq by done.
    case_bool_decide as Hwk; [done|]. destruct (r_exact m !! t) eqn:Ee; [done|].
    destruct (decide (k = "*")) as [-> |Hk].
    + apply Hwk. apply H3. split; [done|left].
    + assert (Hx : key_of user k ∈ default [] (r_exact m !! t)).
      { apply H4. exists k. split; [left|done]. }
      rewrite Ee in Hx. cbn in Hx. by apply elem_of_nil in Hx.
  - rewrite query_some in H by done. case_bool_decide as Hwk.
    + left. apply H3 in Hwk as [_ Hin]. exists (ty, "*"). unfold matches. cbn. tauto.
    + destruct (r_exact m !! ty) as [ks|] eqn:Ee; [|done]. cbn in H.
      destruct (String.eqb_spec ty "m.room.member") as [-> |Hty]; cbn in H.
      * destruct (r_lazy m) eqn:Er; [right; split; [|done]; apply lazy_spec; congruence|].
        destruct ks as [|k ks]; [by destruct (H5 "m.room.member")|]. apply bool_decide_eq_true in H.
        left. assert (Hx : sk ∈ default [] (r_exact m !! "m.room.member")) by (by rewrite Ee).
        apply H4 in Hx as (k' & Hin & ? & ? & Hk). exists ("m.room.member", k'). unfold matches. cbn. tauto.
      * destruct ks as [|k ks]; [by destruct (H5 ty)|]. apply bool_decide_eq_true in H.
        left. assert (Hx : sk ∈ default [] (r_exact m !! ty)) by (by rewrite Ee).
        apply H4 in Hx as (k' & Hin & ? & ? & Hk). exists (ty, k'). unfold matches. cbn. tauto.
Qed.
Lemma load_state_elem req users evs ev :
  ev ∈ load_state user req users evs <->
  ev ∈ evs /\ (wanted user req (se_type ev) (se_key ev) \/
     (wants_lazy req /\ se_key ev ∈ users /\
      query_matches (query_state_map (required_state_map user req)) (se_type ev) (se_key ev) = true)).
Proof.
  unfold load_state. cbv zeta. destruct (rsm_empty _) eqn:Ee.
  - apply empty_spec in Ee as ->. split; [intros H; by apply elem_of_nil in H|].
    intros [_ [H|[H _]]].
    + destruct H as (t & Hin & _). by apply elem_of_nil in Hin.
    + by apply elem_of_nil in H.
  - rewrite load_elem. rewrite elem_of_list_In, filter_In, <- elem_of_list_In. split.
    + intros [[H1 H2] [H3|[H3 H4]]]; tauto.
    + intros [H1 [H2|(H2 & H3 & H4)]]; [|tauto]. split; [|tauto]. split; [done|].
      apply query_superset. by left.
Qed.
Lemma omap_users (ev : sev) (users : list string) :
  NoDup users ->
  omap (fun u => if String.eqb (se_key ev) u then Some ev else None) users =
  if bool_decide (se_key ev ∈ users) then [ev] else [].
Proof.
  induction users as [|u users IH]; intros Hn; [done|]. apply NoDup_cons in Hn as [Hn1 Hn2].
  cbn [omap list_omap]. rewrite (IH Hn2). destruct (String.eqb_spec (se_key ev) u) as [-> |Hne].
  - rewrite (bool_decide_eq_false_2 _ Hn1). rewrite bool_decide_eq_true_2 by left. done.
  - by rewrite (bool_decide_ext (se_key ev ∈ u :: users) (se_key ev ∈ users)) by (rewrite elem_of_cons; tauto).
Qed.
Lemma load_sublist m users evs : NoDup users -> load_room_state m users evs `sublist_of` evs.
Proof.
  intros Hn. unfold load_room_state. induction evs as [|ev evs IH]; cbn [map concat]; [constructor|].
  destruct (rsm_include m (se_type ev) (se_key ev)); [by apply sublist_skip|].
  destruct (r_lazy m); [|by apply sublist_cons].
  rewrite omap_users by done. case_bool_decide; cbn; [by apply sublist_skip|by apply sublist_cons].
Qed.
Lemma filter_sublist {A} (p : A -> bool) l : List.filter p l `sublist_of` l.
Proof. induction l as [|x l IH]; cbn; [constructor|]. destruct (p x); [by apply sublist_skip|by apply sublist_cons]. Qed.
Lemma load_state_sublist req users evs : NoDup users -> load_state user req users evs `sublist_of` evs.
Proof.
  intros Hn. unfold load_state. cbv zeta. destruct (rsm_empty _); [apply sublist_nil_l|].
  etrans; [by apply load_sublist|]. apply filter_sublist.
Qed.
Lemma load_state_exact req users evs ev :
  (forall k, ("*", k) ∉ req) ->
  ev ∈ load_state user req users evs <->
  ev ∈ evs /\ (wanted user req (se_type ev) (se_key ev) \/
     (wants_lazy req /\ se_type ev = "m.room.member" /\ se_key ev ∈ users)).
Proof.
  intros Hno. rewrite load_state_elem. split.
  - intros [H1 [H2|(H2 & H3 & H4)]]; [tauto|]. split; [done|].
    apply query_exact in H4; [tauto| |done]. intros ->. by apply elem_of_nil in H2.
  - intros [H1 [H2|(H2 & H3 & H4)]]; [tauto|]. split; [done|]. right. split_and!; [done|done|].
    apply query_superset. tauto.
Qed.
End rsm.

(** ** Combining, on values *)
Lemma app_state_default a b : default [] (app_state a b) = default [] a ++ default [] b.
Proof. destruct b as [[|y ys]|]; cbn; by rewrite ?app_nil_r. Qed.
Lemma combine_state a b : state_of (combine a b) = state_of a ++ state_of b.
Proof. apply app_state_default. Qed.
Lemma combine_limit a b : sub_limit (combine a b) = Z.max (sub_limit a) (sub_limit b).
Proof. cbn. destruct (Z.ltb_spec (sub_limit b) (sub_limit a)); lia. Qed.
Lemma combine_all_state s rest : state_of (combine_all s rest) = concat (map state_of (s :: rest)).
Proof.
  unfold combine_all. revert s. induction rest as [|x rest IH]; intros s; cbn [foldl map concat].
  - by rewrite app_nil_r.
  - rewrite IH. cbn [map concat]. by rewrite combine_state, app_assoc.
Qed.
Lemma combine_all_limit s rest :
  (forall x, x ∈ s :: rest -> sub_limit x <= sub_limit (combine_all s rest)) /\
  exists x, x ∈ s :: rest /\ sub_limit (combine_all s rest) = sub_limit x.
Proof.
  unfold combine_all. revert s. induction rest as [|y rest IH]; intros s; cbn [foldl].
  - split; [|exists s; set_solver]. intros x Hx. apply elem_of_list_singleton in Hx as ->. lia.
  - destruct (IH (combine s y)) as [H1 (x & Hx & He)]. split.
    + intros z Hz. assert (Hc : Z.max (sub_limit s) (sub_limit y) <= sub_limit (foldl combine (combine s y) rest)).
      { rewrite <- combine_limit. apply H1. set_solver. }
      apply elem_of_cons in Hz as [-> |Hz]; [lia|]. apply elem_of_cons in Hz as [-> |Hz]; [lia|].
      apply H1. set_solver.
    + apply elem_of_cons in Hx as [-> |Hx]; [|exists x; set_solver].
      rewrite combine_limit in He. destruct (Z.max_spec (sub_limit s) (sub_limit y)) as [[_ Hm]|[_ Hm]].
      * exists y. split; [set_solver|lia].
      * exists s. split; [set_solver|lia].
Qed.

Lemma wanted_perm user r1 r2 ty sk :
  (forall t, t ∈ r1 <-> t ∈ r2) -> wanted user r1 ty sk <-> wanted user r2 ty sk.
Proof.
  intros H. unfold wanted. rewrite (bool_decide_ext (("*", "*") ∈ r1) (("*", "*") ∈ r2)) by apply H.
  assert (Hn : forall k, names_key user r1 ty k <-> names_key user r2 ty k).
  { intros k. unfold names_key. by setoid_rewrite H. }
  case_bool_decide.
  - by setoid_rewrite Hn.
  - by setoid_rewrite H.
Qed.

(** ** Combining and required state *)
Lemma all_state_elem (l : list room_sub) t : t ∈ concat (map state_of l) <-> exists x, x ∈ l /\ t ∈ state_of x.
Proof.
  rewrite in_concat_el. split.
  - intros (r & Ht & Hr). apply elem_of_list_fmap in Hr as (x & -> & Hx). eauto.
  - intros (x & Hx & Ht). exists (state_of x). split; [done|]. apply elem_of_list_fmap. eauto.
Qed.
Lemma combine_all_elem s rest t : t ∈ state_of (combine_all s rest) <-> exists x, x ∈ s :: rest /\ t ∈ state_of x.
Proof. rewrite combine_all_state. apply all_state_elem. Qed.
Lemma combine_all_wanted user s rest ty sk :
  (forall x y, x ∈ s :: rest -> y ∈ s :: rest -> ("*", "*") ∈ state_of x -> forall k, ~ names_key user (state_of y) ty k) ->
  (exists x, x ∈ s :: rest /\ wanted user (state_of x) ty sk) <-> wanted user (state_of (combine_all s rest)) ty sk.
Proof.
  intros H. unfold wanted at 2. case_bool_decide as Hall.
  - apply combine_all_elem in Hall as (x & Hx & Hall). split.
    + intros _ [k Hk]. exfalso. destruct Hk as (k' & Hin & Hr). apply combine_all_elem in Hin as (y & Hy & Hin).
      apply (H x y Hx Hy Hall k). by exists k'.
    + intros _. exists x. split; [done|]. unfold wanted. rewrite bool_decide_eq_true_2 by done.
      intros [k Hk]. by destruct (H x x Hx Hx Hall k).
  - split.
    + intros (x & Hx & Hw). unfold wanted in Hw. rewrite bool_decide_eq_false_2 in Hw.
      * destruct Hw as (t & Ht & Hm). exists t. split; [|done]. apply combine_all_elem. eauto.
      * intros Ha. apply Hall. apply combine_all_elem. eauto.
    + intros (t & Ht & Hm). apply combine_all_elem in Ht as (x & Hx & Ht). exists x. split; [done|].
      unfold wanted. rewrite bool_decide_eq_false_2.
      * eauto.
      * intros Ha. apply Hall. apply combine_all_elem. eauto.
Qed.
Lemma combine_all_perm s1 r1 s2 r2 :
  s1 :: r1 ≡ₚ s2 :: r2 ->
  sub_limit (combine_all s1 r1) = sub_limit (combine_all s2 r2) /\
  (forall t, t ∈ state_of (combine_all s1 r1) <-> t ∈ state_of (combine_all s2 r2)).
Proof.
  intros Hp. split.
  - destruct (combine_all_limit s1 r1) as [A1 (x1 & Hx1 & E1)]. destruct (combine_all_limit s2 r2) as [A2 (x2 & Hx2 & E2)].
    assert (x1 ∈ s2 :: r2) by (by rewrite <- Hp). assert (x2 ∈ s1 :: r1) by (by rewrite Hp).
    specialize (A1 x2). specialize (A2 x1). rewrite E1, E2 in *. apply Z.le_antisymm; auto.
  - intros t. rewrite !combine_all_elem. by setoid_rewrite Hp.
Qed.
Lemma combine_all_old s rest :
  Forall (fun x => is_Some (sub_old x)) (s :: rest) ->
  exists o, sub_old (combine_all s rest) = Some o /\
    (forall t, t ∈ state_of o <-> exists x y, x ∈ s :: rest /\ sub_old x = Some y /\ t ∈ state_of y) /\
    (forall x y, x ∈ s :: rest -> sub_old x = Some y -> sub_limit y <= sub_limit o).
Proof.
  revert s. induction rest as [|r rest IH]; intros s H.
  - apply Forall_cons in H as [[o Ho] _]. exists o. split; [done|]. split.
    + intros t. split.
      * intros Ht. exists s, o. split_and!; [left|done|done].
      * intros (x & y & Hx & Hy & Ht). apply elem_of_list_singleton in Hx as ->. by simplify_eq.
    + intros x y Hx Hy. apply elem_of_list_singleton in Hx as ->. simplify_eq. lia.
  - apply Forall_cons in H as [[o1 Ho1] H]. apply Forall_cons in H as [[o2 Ho2] H].
    assert (Hc : sub_old (combine s r) = Some (combine_flat o1 o2)) by (cbn; by rewrite Ho1, Ho2).
    destruct (IH (combine s r)) as (o & Ho & E1 & E2).
    { constructor; [rewrite Hc; by eexists|done]. }
    exists o. split; [done|]. split.
    + intros t. rewrite E1. split.
      * intros (x & y & Hx & Hy & Ht). apply elem_of_cons in Hx as [-> |Hx].
        -- rewrite Hc in Hy. injection Hy as <-. unfold state_of, combine_flat in Ht. cbn [sub_state] in Ht.
           rewrite app_state_default in Ht. apply elem_of_app in Ht as [Ht|Ht].
           ++ exists s, o1. split_and!; [left|done|done].
           ++ exists r, o2. split_and!; [right; left|done|done].
        -- exists x, y. split_and!; [by do 2 right|done|done].
      * intros (x & y & Hx & Hy & Ht).
        apply elem_of_cons in Hx as [-> |Hx]; [|apply elem_of_cons in Hx as [-> |Hx]].
        -- assert (y = o1) as -> by congruence. exists (combine s r), (combine_flat o1 o2). split_and!; [left|done|].
           unfold state_of, combine_flat. cbn [sub_state]. rewrite app_state_default. apply elem_of_app. by left.
        -- assert (y = o2) as -> by congruence. exists (combine s r), (combine_flat o1 o2). split_and!; [left|done|].
           unfold state_of, combine_flat. cbn [sub_state]. rewrite app_state_default. apply elem_of_app. by right.
        -- exists x, y. split_and!; [by right|done|done].
    + intros x y Hx Hy. pose proof (E2 (combine s r) _ ltac:(left) Hc) as Hm. cbn [combine_flat sub_limit] in Hm.
      apply elem_of_cons in Hx as [-> |Hx]; [|apply elem_of_cons in Hx as [-> |Hx]].
      * assert (y = o1) as -> by congruence. destruct (Z.ltb_spec (sub_limit o2) (sub_limit o1)); lia.
      * assert (y = o2) as -> by congruence. destruct (Z.ltb_spec (sub_limit o2) (sub_limit o1)); lia.
      * apply (E2 x y); [by right|done].
Qed.
