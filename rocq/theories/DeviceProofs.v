(** Lemmas about the device tables. *)
From Verif Require Import Prelude SqlModel SqlSpec SqlProps DeviceModel DeviceSpec.
Open Scope string_scope. Open Scope list_scope. Open Scope Z_scope.

Section foldins.
  Context {K K' : Type} `{Countable K, Countable K'} (f : K -> K').
  Context (Hinj : forall a b, f a = f b -> a = b).

  Lemma fold_ins_in (l : list (K * Z)) : forall (acc : gmap K' Z) k,
    NoDup l.*1 ->
    fold_left (fun t kv => <[f kv.1 := kv.2]> t) l acc !! f k =
    match (list_to_map l : gmap K Z) !! k with Some v => Some v | None => acc !! f k end.
  Proof using Hinj.
    induction l as [|[k0 v0] l IH]; intros acc k Hnd; [reflexivity|].
    cbn [fold_left fst snd]. apply NoDup_cons in Hnd as [Hni Hnd]. rewrite IH by exact Hnd.
    cbn [list_to_map foldr].
    change (match (list_to_map l : gmap K Z) !! k with Some v => Some v
      | None => (<[f k0 := v0]> acc) !! f k end =
      match (<[k0 := v0]> (list_to_map l : gmap K Z)) !! k with Some v => Some v
      | None => acc !! f k end).
    destruct (decide (k0 = k)) as [->|Hne].
    - rewrite (not_elem_of_list_to_map_1 l k) by exact Hni. by rewrite !lookup_insert.
    - rewrite (lookup_insert_ne (list_to_map l)) by done.
      rewrite lookup_insert_ne; [reflexivity|]. intros E. by apply Hinj in E.
  Qed.

  Lemma fold_ins_out (l : list (K * Z)) : forall (acc : gmap K' Z) k',
    (forall k, f k <> k') ->
    fold_left (fun t kv => <[f kv.1 := kv.2]> t) l acc !! k' = acc !! k'.
  Proof using.
    induction l as [|[k0 v0] l IH]; intros acc k' Hn; [reflexivity|].
    cbn [fold_left fst snd]. rewrite IH by exact Hn. by rewrite lookup_insert_ne.
  Qed.
End foldins.

Lemma ord_map (ord : list (string * Z) -> list (string * Z)) (m : gmap string Z) :
  (forall l, ord l ≡ₚ l) ->
  NoDup (ord (map_to_list m)).*1 /\ list_to_map (ord (map_to_list m)) = m.
Proof.
  intros Ho. assert (Hnd : NoDup (ord (map_to_list m)).*1).
  { rewrite (Ho (map_to_list m)). apply NoDup_fst_map_to_list. }
  split; [exact Hnd|]. rewrite <- (list_to_map_to_list m) at 2.
  apply list_to_map_proper; [exact Hnd|apply Ho].
Qed.

Lemma in_bucket_lookup t u d b tgt : in_bucket t u d b !! tgt = t !! (u, d, tgt, b).
Proof.
  unfold in_bucket.
  assert (G : forall (l : list ((string * string * string * Z) * Z)) (acc : gmap string Z),
    NoDup l.*1 ->
    fold_left (fun (m : gmap string Z) (r : (string * string * string * Z) * Z) =>
        let '((u', d', tgt, b'), st) := r in
        if bool_decide (u' = u) && bool_decide (d' = d) && (b' =? b)
        then <[tgt := st]> m else m) l acc !! tgt =
    match (list_to_map l : gmap (string * string * string * Z) Z) !! (u, d, tgt, b) with
    | Some v => Some v | None => acc !! tgt end).
  { induction l as [|[[[[u0 d0] t0] b0] v0] l IH]; intros acc Hnd; [reflexivity|].
    cbn [fold_left]. apply NoDup_cons in Hnd as [Hni Hnd]. rewrite IH by exact Hnd.
    rewrite list_to_map_cons.
    destruct (decide ((u0, d0, t0, b0) = (u, d, tgt, b))) as [E|Hne].
    - injection E as -> -> -> ->. rewrite !bool_decide_true by done.
      rewrite Z.eqb_refl. cbn [andb].
      rewrite (not_elem_of_list_to_map_1 l (u, d, tgt, b)) by exact Hni.
      by rewrite !lookup_insert.
    - rewrite (lookup_insert_ne (list_to_map l)) by done.
      destruct (bool_decide (u0 = u)) eqn:E1; cbn [andb]; [|reflexivity].
      destruct (bool_decide (d0 = d)) eqn:E2; cbn [andb]; [|reflexivity].
      destruct (Z.eqb_spec b0 b) as [->|]; [|reflexivity].
      apply bool_decide_eq_true in E1, E2. subst.
      rewrite lookup_insert_ne; [reflexivity|]. intros ->. by apply Hne. }
  rewrite G by apply NoDup_fst_map_to_list.
  rewrite list_to_map_to_list, lookup_empty. by destruct (t !! _).
Qed.

Section tables.
  Context (ord : list (string * Z) -> list (string * Z)) (Hord : forall l, ord l ≡ₚ l).

  Lemma DLCA_spec (m : gmap string Z) :
    arrays_say (DeviceListChangesArrays ord m).1 (DeviceListChangesArrays ord m).2
      (fun t => m !! t).
  Proof using Hord.
    unfold DeviceListChangesArrays.
    destruct (ord_map ord m Hord) as [Hnd Hm].
    assert (G : forall (l : list (string * Z)) (a b : list string),
      fold_left (fun (acc : list string * list string) (kv : string * Z) =>
        if kv.2 =? DeviceListChanged then (acc.1 ++ [kv.1], acc.2)
        else if kv.2 =? DeviceListLeft then (acc.1, acc.2 ++ [kv.1])
        else acc) l (a, b) =
      (a ++ (List.filter (fun kv : string * Z => kv.2 =? 1) l).*1,
       b ++ (List.filter (fun kv : string * Z => kv.2 =? 2) l).*1)).
    { induction l as [|[k v] l IH]; intros a b; [cbn; by rewrite !app_nil_r|].
      cbn [fold_left List.filter fst snd]. unfold DeviceListChanged, DeviceListLeft in *.
      destruct (Z.eqb_spec v 1) as [->|H1].
      - rewrite IH. cbn. by rewrite <- app_assoc.
      - destruct (Z.eqb_spec v 2) as [->|H2].
        + rewrite IH. cbn. by rewrite <- app_assoc.
        + apply IH. }
    rewrite G. cbn [fst snd app].
    assert (Hf : forall c t, t ∈ (List.filter (fun kv : string * Z => kv.2 =? c)
        (ord (map_to_list m))).*1 <-> m !! t = Some c).
    { intros c t. rewrite elem_of_list_fmap. split.
      - intros ([k v] & -> & Hin). apply elem_of_list_In, filter_In in Hin as [Hin Hv].
        cbn in Hv. apply Z.eqb_eq in Hv as ->. apply elem_of_list_In in Hin.
        rewrite Hord in Hin. by apply elem_of_map_to_list in Hin.
      - intros Hl. exists (t, c). split; [reflexivity|].
        apply elem_of_list_In, filter_In. split; [|apply Z.eqb_refl].
        apply elem_of_list_In. rewrite Hord. by apply elem_of_map_to_list. }
    assert (Hn : forall c, NoDup (List.filter (fun kv : string * Z => kv.2 =? c)
        (ord (map_to_list m))).*1).
    { intros c. revert Hnd. generalize (ord (map_to_list m)). clear.
      induction l as [|[k v] l IH]; intros Hnd; [constructor|].
      apply NoDup_cons in Hnd as [H1 H2]. cbn [List.filter snd].
      destruct (v =? c); [|by apply IH]. cbn [fmap list_fmap fst]. apply NoDup_cons.
      split; [|by apply IH]. intros Hin. apply H1.
      apply elem_of_list_fmap in Hin as (y & E & Hin).
      apply elem_of_list_In, filter_In in Hin as [Hin _]. apply elem_of_list_fmap.
      exists y. split; [exact E|]. by apply elem_of_list_In. }
    repeat split; try apply Hn; try apply Hf.
  Qed.

  (** All chunks together. *)
  Lemma insert_chunks u d (chunks : list (list (string * Z))) :
    (forall c, In c chunks -> c <> []) -> forall t,
    fold_left (fun acc chunk => match acc with
                                | Some t => insert_chunk u d chunk t
                                | None => None
                                end) chunks (Some t) =
    Some (fold_left (fun t kv => <[(u, d, kv.1, BucketNew) := kv.2]> t) (concat chunks) t).
  Proof using.
    induction chunks as [|c chunks IH]; intros Hne t; [reflexivity|].
    cbn [fold_left concat]. rewrite fold_left_app.
    destruct c as [|x c]; [exfalso; apply (Hne []); [by left|reflexivity]|].
    unfold insert_chunk at 2. apply IH. intros c' Hc. apply Hne. by right.
  Qed.

  Lemma UpsertTx_valid t u d (ch : option (gmap string Z)) :
    (forall k st, (default ∅ ch : gmap string Z) !! k = Some st -> st = 1 \/ st = 2) ->
    exists t', UpsertTx ord t u d ch = Some t'
    /\ (forall tgt, t' !! (u, d, tgt, BucketNew) =
         match (default ∅ ch : gmap string Z) !! tgt with
         | Some v => Some v | None => t !! (u, d, tgt, BucketNew) end)
    /\ (forall k, (forall tgt, k <> (u, d, tgt, BucketNew)) -> t' !! k = t !! k).
  Proof using Hord.
    intros Hv. unfold UpsertTx. set (m := default ∅ ch) in *.
    case_bool_decide as Hs.
    - exists t. split; [reflexivity|]. apply map_size_empty_inv in Hs. rewrite Hs.
      split; [intros; by rewrite lookup_empty|done].
    - destruct (ord_map ord m Hord) as [Hnd Hm].
      assert (Hf : List.filter (fun kv : string * Z =>
          (kv.2 =? DeviceListChanged) || (kv.2 =? DeviceListLeft)) (ord (map_to_list m))
          = ord (map_to_list m)).
      { assert (Hall : forall x, In x (ord (map_to_list m)) ->
            ((x.2 =? DeviceListChanged) || (x.2 =? DeviceListLeft)) = true).
        { intros [k v] Hin. apply elem_of_list_In in Hin. rewrite Hord in Hin.
          apply elem_of_map_to_list in Hin. destruct (Hv _ _ Hin) as [-> | ->]; reflexivity. }
        revert Hall. generalize (ord (map_to_list m)). clear.
        induction l as [|x l IH]; intros Hall; [reflexivity|]. cbn [List.filter].
        rewrite Hall by (by left). f_equal. apply IH. intros y Hy. apply Hall. by right. }
      rewrite Hf. set (rows := ord (map_to_list m)) in *.
      assert (Hne : rows <> []).
      { intros E. apply Hs. rewrite <- Hm, E. reflexivity. }
      destruct (C49_chunks_partial 5 65535 rows ltac:(lia) Hne) as (chunks & [Hcat Hch] & Hck).
      rewrite (Hck (S (length rows))) by lia.
      rewrite insert_chunks by (intros c Hc; by apply Hch). rewrite Hcat.
      eexists. split; [reflexivity|]. split.
      + intros tgt.
        pose proof (fold_ins_in (fun k => (u, d, k, BucketNew)) ltac:(by intros ? ? [= ?])
          rows t tgt Hnd) as E. cbn beta in E. rewrite Hm in E. exact E.
      + intros k Hk. apply (fold_ins_out (fun k => (u, d, k, BucketNew))). intros k' E.
        by apply (Hk k').
  Qed.

  Lemma SelectTx_ack t u d :
    let '(t', r) := SelectTx t u d true in
    (forall tgt, r !! tgt = t !! (u, d, tgt, BucketNew))
    /\ (forall tgt, t' !! (u, d, tgt, BucketSent) = t !! (u, d, tgt, BucketNew))
    /\ (forall tgt, t' !! (u, d, tgt, BucketNew) = None)
    /\ (forall u' d' tgt b, (u', d') <> (u, d) -> t' !! (u', d', tgt, b) = t !! (u', d', tgt, b)).
  Proof using.
    unfold SelectTx. cbn [negb].
    set (kept := filter _ t). set (result := in_bucket kept u d BucketNew).
    set (others := filter _ kept).
    assert (Hr : forall tgt, result !! tgt = t !! (u, d, tgt, BucketNew)).
    { intros tgt. unfold result. rewrite in_bucket_lookup. unfold kept.
      destruct (t !! (u, d, tgt, BucketNew)) as [st|] eqn:E.
      - apply map_filter_lookup_Some. split; [exact E|]. cbn. right. right. done.
      - apply map_filter_lookup_None. by left. }
    destruct (ord_map (fun l => l) result ltac:(done)) as [Hnd Hm].
    split; [exact Hr|]. split; [|split].
    - intros tgt.
      pose proof (fold_ins_in (fun k => (u, d, k, BucketSent)) ltac:(by intros ? ? [= ?])
        (map_to_list result) others tgt Hnd) as E. cbn beta in E. rewrite E, Hm, Hr.
      destruct (t !! (u, d, tgt, BucketNew)); [reflexivity|].
      unfold others. apply map_filter_lookup_None. left.
      unfold kept. apply map_filter_lookup_None. right. intros x _. cbn. intros [?|[?|?]]; done.
    - intros tgt. rewrite (fold_ins_out (fun k => (u, d, k, BucketSent))) by done.
      unfold others. apply map_filter_lookup_None. right. intros x _. cbn. intros [?|[?|?]]; done.
    - intros u' d' tgt b Hne.
      rewrite (fold_ins_out (fun k => (u, d, k, BucketSent))) by (intros k E; congruence).
      assert (Hne' : u' <> u \/ d' <> d).
      { destruct (decide (u' = u)) as [->|]; [|by left]. right. intros ->. by apply Hne. }
      assert (H1 : u' <> u \/ d' <> d \/ b <> BucketSent) by tauto.
      assert (H2 : u' <> u \/ d' <> d \/ b <> BucketNew) by tauto.
      destruct (t !! (u', d', tgt, b)) as [st|] eqn:E.
      + apply map_filter_lookup_Some. split; [|exact H2].
        apply map_filter_lookup_Some. split; [exact E|exact H1].
      + apply map_filter_lookup_None. left. apply map_filter_lookup_None. by left.
  Qed.

  (** What the tables hold after a history. *)
  Definition holds (h : list op) (s : ddb) : Prop :=
    forall u d,
      (forall tgt, t_lists s !! (u, d, tgt, BucketNew) = unread h u d tgt)
      /\ (forall tgt, t_lists s !! (u, d, tgt, BucketSent) = in_flight h u d tgt)
      /\ match t_data s !! (u, d) with
         | None => last_otk h u d = None /\ last_fallback h u d = None
                   /\ otk_unread h u d = false /\ fallback_unread h u d = false
                   /\ (forall tgt, unread h u d tgt = None)
                   /\ (forall tgt, in_flight h u d tgt = None)
         | Some kd => k_otk kd = last_otk h u d /\ k_fallback kd = last_fallback h u d
             /\ k_bits kd = (if otk_unread h u d then 1 else 0)
                            + (if fallback_unread h u d then 2 else 0)
         end.

  Lemma after_holds h : Forall valid_op h -> holds h (after ord h).
  Proof using Hord.
    induction h as [|o h IH]; intros Hv.
    - intros u d. cbn. rewrite !lookup_empty. repeat split; try done;
        intros tgt; by rewrite ?lookup_empty.
    - apply Forall_cons in Hv as [Ho Hv]. specialize (IH Hv).
      cbn [after foldr]. fold (after ord h). set (s := after ord h) in *. clearbody s.
      destruct o as [u0 d0 otk fb ch|u0 d0 ack]; cbn [apply_op].
      + unfold Upsert.
        destruct (UpsertTx_valid (t_lists s) u0 d0 ch) as (t' & Ht & HN & HO).
        { intros k st. destruct ch as [m|]; cbn; [apply Ho|by rewrite lookup_empty]. }
        rewrite Ht. cbn [default from_option id]. intros u d. destruct (IH u d) as (H1 & H2 & H3).
        cbn [t_lists t_data unread in_flight last_otk last_fallback otk_unread fallback_unread].
        split; [|split].
        * intros tgt. destruct (decide (u0 = u /\ d0 = d)) as [[-> ->]|Hne].
          -- rewrite HN. destruct (_ !! tgt); [reflexivity|]. apply H1.
          -- rewrite HO by (intros ? [= ? ?]; apply Hne; split; congruence). apply H1.
        * intros tgt. rewrite HO by (intros ? [=]). apply H2.
        * destruct (decide (u0 = u /\ d0 = d)) as [[-> ->]|Hne].
          -- rewrite lookup_insert.
             destruct (t_data s !! (u, d)) as [kd|]; cbn [default from_option id].
             ++ destruct H3 as (Ha & Hb & Hc).
                destruct otk, fb; cbn [k_otk k_fallback k_bits]; rewrite ?Hc;
                  repeat split; try done;
                  destruct (otk_unread h u d), (fallback_unread h u d); reflexivity.
             ++ destruct H3 as (Ha & Hb & Hc & Hd & _). rewrite Ha, Hb, Hc, Hd.
                destruct otk, fb; cbn [k_otk k_fallback k_bits];
                  repeat split; done.
          -- rewrite lookup_insert_ne by (intros [= -> ->]; by apply Hne).
             destruct (t_data s !! (u, d)) as [kd|]; destruct otk, fb; exact H3.
      + intros u d. destruct (IH u0 d0) as (K1 & K2 & K3). destruct (IH u d) as (H1 & H2 & H3).
        cbn [unread in_flight last_otk last_fallback otk_unread fallback_unread].
        unfold Select. destruct (t_data s !! (u0, d0)) as [kd0|] eqn:E0.
        * destruct ack.
          -- pose proof (SelectTx_ack (t_lists s) u0 d0) as Hs.
             destruct (SelectTx (t_lists s) u0 d0 true) as [t' r].
             destruct Hs as (S1 & S2 & S3 & S4).
             destruct (DeviceListChangesArrays ord r) as [ch lf]. cbn [negb].
             assert (G : (forall tgt, t' !! (u, d, tgt, BucketNew) =
                 if decide (u0 = u /\ d0 = d /\ true = true) then None else unread h u d tgt)
               /\ (forall tgt, t' !! (u, d, tgt, BucketSent) =
                 if decide (u0 = u /\ d0 = d /\ true = true) then unread h u d tgt
                 else in_flight h u d tgt)).
             { split; intros tgt; destruct (decide _) as [(-> & -> & _)|Hne].
               - apply S3.
               - rewrite S4 by (intros [= -> ->]; by apply Hne). apply H1.
               - rewrite S2. apply H1.
               - rewrite S4 by (intros [= -> ->]; by apply Hne). apply H2. }
             destruct G as [G1 G2].
             destruct (Z.eqb_spec (k_bits kd0) 0) as [Hb|Hb]; cbn [fst t_lists t_data].
             ++ split; [exact G1|]. split; [exact G2|].
                destruct (decide (u0 = u /\ d0 = d /\ true = true)) as [(-> & -> & _)|Hne].
                ** rewrite E0. rewrite E0 in H3. destruct H3 as (? & ? & Hc).
                   repeat split; [done..|]. rewrite Hb. reflexivity.
                ** destruct (t_data s !! (u, d)) as [kd|]; exact H3.
             ++ split; [exact G1|]. split; [exact G2|].
                destruct (decide (u0 = u /\ d0 = d /\ true = true)) as [(-> & -> & _)|Hne].
                ** rewrite lookup_insert. cbn. rewrite E0 in H3. destruct H3 as (? & ? & Hc).
                   repeat split; done.
                ** rewrite lookup_insert_ne by (intros [= -> ->]; by apply Hne).
                   destruct (t_data s !! (u, d)) as [kd|]; exact H3.
          -- cbn [SelectTx negb]. unfold SelectTx. cbn [negb].
             destruct (DeviceListChangesArrays ord _) as [ch lf]. cbn [fst t_lists t_data].
             destruct (decide (u0 = u /\ d0 = d /\ false = true)) as [(_ & _ & [=])|_].
             split; [exact H1|]. split; [exact H2|exact H3].
        * cbn [fst]. destruct (decide (u0 = u /\ d0 = d /\ ack = true)) as [(-> & -> & ->)|Hne].
          -- rewrite E0 in H3 |- *. destruct H3 as (? & ? & ? & ? & Hn & Hf).
             split; [|split; [|repeat split; done]]; intros tgt.
             ++ rewrite H1. apply Hn.
             ++ rewrite H2, Hf, Hn. reflexivity.
          -- split; [exact H1|]. split; [exact H2|]. exact H3.
  Qed.
End tables.
