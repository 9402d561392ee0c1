(** Properties C32, C33 and C59. *)
From Verif Require Import Prelude SqlModel DeviceModel DeviceSpec DeviceProofs ConnModel.
Open Scope string_scope. Open Scope list_scope. Open Scope Z_scope.

(** * C59 *)

(** Combining two deltas: every user of either is there, with the newer value
    if the newer delta has one, whatever order the maps are walked in. *)
Theorem C59_newer_wins (ord : list (string * Z) -> list (string * Z)) (a b : DeviceLists) :
  (forall l, ord l ≡ₚ l) ->
  forall t : string,
  (default ∅ (dl_new (Combine ord a b)) : gmap string Z) !! t =
    match (default ∅ (dl_new b) : gmap string Z) !! t with
    | Some v => Some v | None => (default ∅ (dl_new a) : gmap string Z) !! t end
  /\ (default ∅ (dl_sent (Combine ord a b)) : gmap string Z) !! t =
    match (default ∅ (dl_sent b) : gmap string Z) !! t with
    | Some v => Some v | None => (default ∅ (dl_sent a) : gmap string Z) !! t end.
Proof.
  intros Ho t.
  assert (G : forall o n : option (gmap string Z), overwrite ord o n !! t =
    match (default ∅ n : gmap string Z) !! t with
    | Some v => Some v | None => (default ∅ o : gmap string Z) !! t end).
  { intros o n. unfold overwrite. destruct (ord_map ord (default ∅ n) Ho) as [Hnd Hm].
    pose proof (fold_ins_in (fun k : string => k) ltac:(done)
      (ord (map_to_list (default ∅ n))) (default ∅ o) t Hnd) as E.
    cbn beta in E. rewrite Hm in E. exact E. }
  split; apply G.
Qed.
Print Assumptions C59_newer_wins.

Lemma to_map_lookup changed lefts (m : gmap string Z) (t : string) :
  ToDeviceListChangesMap changed lefts = Some m ->
  m !! t = if decide (t ∈ lefts) then Some 2 else if decide (t ∈ changed) then Some 1 else None.
Proof.
  unfold ToDeviceListChangesMap. destruct (_ && _); [done|]. intros [= <-].
  assert (G : forall v (l : list string) (acc : gmap string Z),
    fold_left (fun m u => <[u := v]> m) l acc !! t =
    if decide (t ∈ l) then Some v else acc !! t).
  { intros v. induction l as [|x l IH]; intros acc; [by rewrite decide_False by apply not_elem_of_nil|].
    cbn [fold_left]. rewrite IH. destruct (decide (t ∈ l)) as [H|H].
    - by rewrite decide_True by (by right).
    - destruct (decide (x = t)) as [->|Hne].
      + rewrite lookup_insert, decide_True by (by left). reflexivity.
      + rewrite lookup_insert_ne by done. rewrite decide_False; [reflexivity|].
        intros Hin. apply elem_of_cons in Hin as [->|]; done. }
  rewrite G. destruct (decide (t ∈ lefts)); [reflexivity|]. rewrite G.
  destruct (decide (t ∈ changed)); [reflexivity|]. apply lookup_empty.
Qed.

Lemma to_map_None changed lefts :
  ToDeviceListChangesMap changed lefts = None <-> changed = [] /\ lefts = [].
Proof.
  unfold ToDeviceListChangesMap.
  destruct changed, lefts; cbn; split; intros H; try done; by destruct H.
Qed.

(** Splitting a delta into its two arrays and joining them again gives the
    delta back (no delta at all if it was empty). *)
Theorem C59_split_and_join (ord : list (string * Z) -> list (string * Z)) (m : gmap string Z) :
  (forall l, ord l ≡ₚ l) ->
  (forall t v, m !! t = Some v -> v = DeviceListChanged \/ v = DeviceListLeft) ->
  let arrays := DeviceListChangesArrays ord m in
  default ∅ (ToDeviceListChangesMap arrays.1 arrays.2) = m
  /\ (ToDeviceListChangesMap arrays.1 arrays.2 = None <-> m = ∅).
Proof.
  intros Ho Hv arrays. destruct (DLCA_spec ord Ho m) as (_ & _ & Hc & Hl). fold arrays in Hc, Hl.
  assert (E : default ∅ (ToDeviceListChangesMap arrays.1 arrays.2) = m).
  { apply map_eq. intros t.
    destruct (ToDeviceListChangesMap arrays.1 arrays.2) as [m'|] eqn:E; cbn [default from_option id].
    - rewrite (to_map_lookup _ _ _ t E).
      destruct (decide (t ∈ arrays.2)) as [H|H]; [by apply Hl in H|].
      destruct (decide (t ∈ arrays.1)) as [H'|H']; [by apply Hc in H'|].
      destruct (m !! t) as [v|] eqn:Em; [|reflexivity].
      destruct (Hv _ _ Em) as [-> | ->].
      + exfalso. apply H'. by apply Hc.
      + exfalso. apply H. by apply Hl.
    - apply to_map_None in E as [E1 E2]. rewrite E1 in Hc. rewrite E2 in Hl.
      rewrite lookup_empty. destruct (m !! t) as [v|] eqn:Em; [|reflexivity].
      destruct (Hv _ _ Em) as [-> | ->].
      + assert (H : t ∈ @nil string) by (by apply Hc). by apply not_elem_of_nil in H.
      + assert (H : t ∈ @nil string) by (by apply Hl). by apply not_elem_of_nil in H. }
  split; [exact E|]. split.
  - intros H. by rewrite H in E.
  - intros ->. apply to_map_None.
    destruct arrays.1 as [|x l] eqn:E1.
    + destruct arrays.2 as [|x l] eqn:E2; [done|].
      assert (H : x ∈ x :: l) by (by left). apply Hl in H. by rewrite lookup_empty in H.
    + assert (H : x ∈ x :: l) by (by left). apply Hc in H. by rewrite lookup_empty in H.
Qed.
Print Assumptions C59_split_and_join.

(** Joining two arrays and splitting again names the same users; somebody in
    both counts as having left. *)
Theorem C59_join_and_split (ord : list (string * Z) -> list (string * Z)) changed lefts :
  (forall l, ord l ≡ₚ l) ->
  let arrays := DeviceListChangesArrays ord (default ∅ (ToDeviceListChangesMap changed lefts)) in
  NoDup arrays.1 /\ NoDup arrays.2
  /\ (forall t, t ∈ arrays.2 <-> t ∈ lefts)
  /\ (forall t, t ∈ arrays.1 <-> t ∈ changed /\ t ∉ lefts).
Proof.
  intros Ho arrays.
  destruct (DLCA_spec ord Ho (default ∅ (ToDeviceListChangesMap changed lefts)))
    as (H1 & H2 & Hc & Hl). fold arrays in H1, H2, Hc, Hl.
  split; [exact H1|]. split; [exact H2|].
  destruct (ToDeviceListChangesMap changed lefts) as [m|] eqn:E; cbn [default from_option id] in *.
  - pose proof (fun t => to_map_lookup _ _ _ t E) as Hm.
    split; intros t.
    + rewrite Hl, Hm. destruct (decide (t ∈ lefts)); [done|]. destruct (decide (t ∈ changed)); done.
    + rewrite Hc, Hm. destruct (decide (t ∈ lefts)); [split; [done|tauto]|].
      destruct (decide (t ∈ changed)); [split; auto|]. split; [done|tauto].
  - apply to_map_None in E as [-> ->].
    split; intros t; rewrite ?Hl, ?Hc, lookup_empty, ?elem_of_nil; [done|].
    split; [done|tauto].
Qed.
Print Assumptions C59_join_and_split.

Example C59_example :
  (let c := Combine id (mk_dlists (Some {["a" := 1; "b" := 1]}) None)
                       (mk_dlists (Some {["b" := 2; "c" := 1]}) (Some {["z" := 2]})) in
   (map_to_list (default ∅ (dl_new c)), map_to_list (default ∅ (dl_sent c))))
  = ([("b",2);("a",1);("c",1)], [("z",2)])
  /\ DeviceListChangesArrays id (default ∅ (ToDeviceListChangesMap ["a";"b"] ["c";"b"]))
     = (["a"], ["b";"c"]).
Proof. vm_compute. split; reflexivity. Qed.

(** * C32 *)

Lemma unread_valid h u d t st : Forall valid_op h -> unread h u d t = Some st -> st = 1 \/ st = 2.
Proof.
  induction h as [|[u' d' otk fb ch|u' d' ack] h IH]; cbn [unread]; intros Hv; [done| |];
    apply Forall_cons in Hv as [Ho Hv].
  - destruct (decide _) as [_|_]; [|by apply IH].
    destruct ch as [m|]; cbn [default from_option id].
    + destruct (m !! t) as [x|] eqn:E; [intros [= ->]; by apply (Ho t)|by apply IH].
    + rewrite lookup_empty. by apply IH.
  - destruct (decide _); [done|by apply IH].
Qed.
Lemma in_flight_valid h u d t st :
  Forall valid_op h -> in_flight h u d t = Some st -> st = 1 \/ st = 2.
Proof.
  induction h as [|[u' d' otk fb ch|u' d' ack] h IH]; cbn [in_flight]; intros Hv; [done| |];
    apply Forall_cons in Hv as [Ho Hv].
  - by apply IH.
  - destruct (decide _); [by apply unread_valid|by apply IH].
Qed.

Section props.
Context (ord : list (string * Z) -> list (string * Z)) (Hord : forall l, ord l ≡ₚ l).

Lemma arrays_ext changed lefts (f g : string -> option Z) :
  (forall t, f t = g t) -> arrays_say changed lefts f -> arrays_say changed lefts g.
Proof.
  intros E (H1 & H2 & H3 & H4). repeat split; auto; intros;
    [rewrite <- E; by apply H3|apply H3; by rewrite E|rewrite <- E; by apply H4|apply H4; by rewrite E].
Qed.

Lemma arrays_none (f : string -> option Z) : (forall t, f t = None) -> arrays_say [] [] f.
Proof.
  intros H. split; [constructor|]. split; [constructor|].
  split; intros t; rewrite H, elem_of_nil; done.
Qed.

Lemma select_named h u d ack :
  Forall valid_op h ->
  arrays_say (named (Select ord (after ord h) u d ack).2).1
             (named (Select ord (after ord h) u d ack).2).2
             (if ack then unread h u d else in_flight h u d).
Proof using Hord.
  intros Hv. destruct (after_holds ord Hord h Hv u d) as (H1 & H2 & H3).
  unfold Select. destruct (t_data (after ord h) !! (u, d)) as [kd|].
  - destruct ack.
    + pose proof (SelectTx_ack (t_lists (after ord h)) u d) as Hs.
      destruct (SelectTx _ u d true) as [t' r]. destruct Hs as (S1 & _).
      pose proof (DLCA_spec ord Hord r) as Hd.
      destruct (DeviceListChangesArrays ord r) as [ch lf]. cbn [negb].
      destruct (k_bits kd =? 0); cbn [snd named fst dd_changed dd_left] in *;
        (eapply arrays_ext; [|exact Hd]); intros t; cbn beta; rewrite S1; apply H1.
    + unfold SelectTx. cbn [negb].
      pose proof (DLCA_spec ord Hord (in_bucket (t_lists (after ord h)) u d BucketSent)) as Hd.
      destruct (DeviceListChangesArrays ord _) as [ch lf].
      cbn [snd named fst dd_changed dd_left] in *.
      eapply arrays_ext; [|exact Hd]. intros t. cbn beta. rewrite in_bucket_lookup. apply H2.
  - cbn [snd named fst]. destruct H3 as (_ & _ & _ & _ & Hn & Hf).
    apply arrays_none. intros t. destruct ack; [apply Hn|apply Hf].
Qed.

(** C32, at the database: after every history of stores and reads, of any
    devices, in which nothing but "changed" and "left" is stored: an
    acknowledging read names exactly the users something was said about to
    this device since the last such read, each once, with the last thing said;
    any other read names exactly what the last acknowledging read named. *)
Theorem C32_read (h : list op) (u d : string) (ack : bool) :
  Forall valid_op h ->
  let r := (Select ord (after ord h) u d ack).2 in
  arrays_say (named r).1 (named r).2 (if ack then unread h u d else in_flight h u d).
Proof using Hord. apply select_named. Qed.

Lemma process_reported h u d first r0 :
  Forall valid_op h -> reported r0 = ([], []) ->
  exists s', (ProcessInitial ord (after ord h) u d first r0) =
             (s', (ProcessInitial ord (after ord h) u d first r0).2)
  /\ s' = after ord (Read u d (negb first) :: h)
  /\ arrays_say (reported (ProcessInitial ord (after ord h) u d first r0).2).1
                (reported (ProcessInitial ord (after ord h) u d first r0).2).2
                (if first then in_flight h u d else unread h u d).
Proof using Hord.
  intros Hv Hr. pose proof (select_named h u d (negb first) Hv) as Hs.
  unfold ProcessInitial.
  change (after ord (Read u d (negb first) :: h)) with (Select ord (after ord h) u d (negb first)).1.
  destruct (Select ord (after ord h) u d (negb first)) as [s' dd]. cbn [fst snd] in *.
  exists s'.
  assert (Hif : (if negb first then unread h u d else in_flight h u d) =
    (if first then in_flight h u d else unread h u d)) by by destruct first.
  rewrite Hif in Hs. clear Hif.
  destruct dd as [dd|]; cbn [named] in Hs; cbn [fst snd] in Hs.
  - destruct (if bool_decide (is_Some (k_fallback (dd_keys dd))) && _ then _ else None) as [fb|];
      destruct (if bool_decide (is_Some (k_otk (dd_keys dd))) && _ then _ else None) as [otk|];
      case_bool_decide as C1; case_bool_decide as C2; cbn [orb snd reported x_lists default from_option id];
      rewrite ?Hr; cbn [fst snd]; (split; [reflexivity|]); (split; [reflexivity|]); try exact Hs;
      rewrite C1, C2 in Hs; exact Hs.
  - cbn [snd]. rewrite Hr. cbn [fst snd]. auto.
Qed.

Lemma go_on_inv u d evs : forall h s r s' r',
  Forall valid_op h -> Forall (alone u d) evs -> s = after ord h ->
  arrays_say (reported r).1 (reported r).2 (in_flight h u d) ->
  go_on ord u d evs s r = (s', r') ->
  exists h', Forall valid_op h' /\ s' = after ord h'
    /\ arrays_say (reported r').1 (reported r').2 (in_flight h' u d)
    /\ (reported r <> ([], []) -> r' = r).
Proof using Hord.
  induction evs as [|e evs IH]; intros h s r s' r' Hv He Hs Hr Hg.
  - cbn in Hg. injection Hg as <- <-. eauto 6.
  - apply Forall_cons in He as [He Hes]. destruct e as [o|]; cbn [go_on] in Hg.
    + apply (IH (o :: h) (apply_op ord s o) r s' r') in Hg; [exact Hg| | exact Hes| |].
      * constructor; [|exact Hv]. destruct o; [exact He|exact I].
      * by rewrite Hs.
      * destruct o as [u0 d0 otk fb ch|u0 d0 ack]; [exact Hr|].
        eapply arrays_ext; [|exact Hr]. intros t. cbn [in_flight].
        rewrite decide_False; [reflexivity|]. intros (-> & -> & _). by apply He.
    + destruct (AppendLive ord s u d r) as [s1 r1] eqn:E.
      assert (Hcase : (s1, r1) = (s, r) \/
        (reported r = ([], []) /\ ProcessInitial ord s u d false r = (s1, r1))).
      { unfold AppendLive in E. destruct r as [x|].
        - destruct (HasData false x) eqn:Eh; [left; congruence|]. right. split; [|exact E].
          unfold HasData in Eh. apply orb_false_iff in Eh as [Eh _].
          apply orb_false_iff in Eh as [Eh _]. apply bool_decide_eq_false in Eh.
          cbn [reported]. destruct (x_lists x); [|reflexivity]. by destruct Eh.
        - right. split; [reflexivity|exact E]. }
      destruct Hcase as [[= -> ->]|[Hn Hp]].
      * apply (IH h s r s' r'); done.
      * subst s. destruct (process_reported h u d false r Hv Hn) as (s2 & E2 & Hs2 & Ha).
        rewrite Hp in E2, Ha. cbn [snd] in E2, Ha. injection E2 as ->.
        apply (IH (Read u d true :: h) s2 r1 s' r') in Hg.
        -- destruct Hg as (h' & G1 & G2 & G3 & _). exists h'. repeat split; try done.
           all: try apply G3.
        -- constructor; [exact I|exact Hv].
        -- exact Hes.
        -- exact Hs2.
        -- eapply arrays_ext; [|exact Ha]. intros t. cbn [in_flight].
           by rewrite decide_True by done.
Qed.

(** C32, at the API: a request, with whatever happens while it waits. What its
    response names is what the first request of a new connection would be told
    right afterwards, so a lost response is made up for. A request that is not
    the first of its connection names everything that was unread when it came,
    and the first one everything the last such request was told. *)
Theorem C32_response_partial h u d first evs s' r :
  Forall valid_op h -> Forall (alone u d) evs ->
  serve ord u d first evs (after ord h) = (s', r) ->
  let again := (Select ord s' u d false).2 in
  (exists said, arrays_say (reported r).1 (reported r).2 said
     /\ arrays_say (named again).1 (named again).2 said)
  /\ (forall t st, (if first then in_flight h u d t else unread h u d t) = Some st ->
        (st = 1 /\ t ∈ (reported r).1) \/ (st = 2 /\ t ∈ (reported r).2)).
Proof using Hord.
  intros Hv He Hg again. unfold serve in Hg.
  destruct (process_reported h u d first None Hv eq_refl) as (s1 & E1 & Hs1 & Ha).
  rewrite E1 in Hg. set (r1 := (ProcessInitial ord (after ord h) u d first None).2) in *.
  assert (Hv1 : Forall valid_op (Read u d (negb first) :: h)) by (constructor; done).
  assert (Hr1 : arrays_say (reported r1).1 (reported r1).2
    (in_flight (Read u d (negb first) :: h) u d)).
  { eapply arrays_ext; [|exact Ha]. intros t. destruct first; cbn [in_flight negb].
    - by rewrite decide_False by (intros (_ & _ & [=])).
    - by rewrite decide_True by done. }
  destruct (go_on_inv u d evs _ s1 r1 s' r Hv1 He Hs1 Hr1 Hg) as (h' & G1 & G2 & G3 & G4).
  split.
  - exists (in_flight h' u d). split; [exact G3|].
    unfold again. rewrite G2. exact (select_named h' u d false G1).
  - intros t st Hst.
    assert (Hv2 : st = 1 \/ st = 2).
    { destruct first; [exact (in_flight_valid _ _ _ _ _ Hv Hst)|exact (unread_valid _ _ _ _ _ Hv Hst)]. }
    destruct Ha as (_ & _ & Hc & Hl).
    assert (Hst' : (if first then in_flight h u d else unread h u d) t = Some st)
      by (destruct first; exact Hst).
    destruct Hv2 as [-> | ->].
    + left. split; [reflexivity|]. apply Hc in Hst'.
      rewrite G4; [exact Hst'|]. intros E. rewrite E in Hst'. by apply not_elem_of_nil in Hst'.
    + right. split; [reflexivity|]. apply Hl in Hst'.
      rewrite G4; [exact Hst'|]. intros E. rewrite E in Hst'. by apply not_elem_of_nil in Hst'.
Qed.

(** * C33, the client's side *)

Lemma bits_tests (a b : bool) :
  isBitSet ((if a then 1 else 0) + (if b then 2 else 0)) bitOTKCount = a
  /\ isBitSet ((if a then 1 else 0) + (if b then 2 else 0)) bitFallbackKeyTypes = b.
Proof. destruct a, b; split; reflexivity. Qed.

(** C33, at the API: what a request is told about keys when it comes. The first
    request of a connection is told the latest counts and fallback types; any
    other only those stored since the last such request — so once. *)
Theorem C33_client_sees_latest_once h u d first :
  Forall valid_op h ->
  let r := (ProcessInitial ord (after ord h) u d first None).2 in
  (match r with Some x => x_otk x | None => None end)
    = (if first || otk_unread h u d then last_otk h u d else None)
  /\ (match r with Some x => x_fallback x | None => None end)
    = (if first || fallback_unread h u d then last_fallback h u d else None).
Proof using Hord.
  intros Hv r. destruct (after_holds ord Hord h Hv u d) as (_ & _ & H3).
  unfold r, ProcessInitial, Select.
  destruct (t_data (after ord h) !! (u, d)) as [kd|].
  - destruct H3 as (Ha & Hb & Hc).
    destruct (bits_tests (otk_unread h u d) (fallback_unread h u d)) as [B1 B2].
    rewrite <- Hc in B1, B2.
    destruct (SelectTx (t_lists (after ord h)) u d (negb first)) as [t' rr].
    destruct (DeviceListChangesArrays ord rr) as [ch lf].
    rewrite <- Ha, <- Hb.
    destruct first; cbn [negb orb].
    + cbn [dd_keys dd_changed dd_left]. rewrite !orb_true_r, !andb_true_r.
      destruct (k_fallback kd) as [fb|], (k_otk kd) as [otk|]; cbn;
        destruct (bool_decide (ch ≠ []) || bool_decide (lf ≠ [])); split; reflexivity.
    + rewrite <- B1, <- B2.
      destruct (k_bits kd =? 0); cbn [dd_keys dd_changed dd_left]; rewrite !orb_false_r;
        destruct (isBitSet (k_bits kd) bitOTKCount), (isBitSet (k_bits kd) bitFallbackKeyTypes);
        destruct (k_fallback kd) as [fb|], (k_otk kd) as [otk|]; cbn;
        destruct (bool_decide (ch ≠ []) || bool_decide (lf ≠ [])); split; reflexivity.
  - destruct H3 as (-> & -> & _). cbn. by destruct (first || _), (first || _).
Qed.
End props.
Print Assumptions C32_read.
Print Assumptions C32_response_partial.
Print Assumptions C33_client_sees_latest_once.

(** A history with two devices: bob changed, then left, then a read; carol
    changed afterwards; somebody else's device is told about bob. *)
Definition ex_h : list op :=
  [ Stored "@u" "D" None None (Some {["@carol" := 1]});
    Read "@u" "D" true;
    Stored "@u" "D" None (Some ["signed"]) (Some {["@bob" := 2]});
    Stored "@u" "E" None None (Some {["@bob" := 1]});
    Stored "@u" "D" (Some {["a" := 5]}) None (Some {["@bob" := 1; "@dan" := 1]}) ].
Example C32_example :
  named (Select id (after id ex_h) "@u" "D" true).2 = (["@carol"], [])
  /\ named (Select id (after id ex_h) "@u" "D" false).2 = (["@dan"], ["@bob"])
  /\ named (Select id (after id ex_h) "@u" "E" true).2 = (["@bob"], []).
Proof. vm_compute. repeat split. Qed.
Example C32_example_valid : Forall valid_op ex_h.
Proof.
  unfold ex_h. repeat (apply Forall_cons_2); try apply Forall_nil_2; cbn; try exact I; intros t st H;
    repeat (rewrite lookup_insert_Some in H || rewrite lookup_singleton_Some in H);
    intuition.
Qed.

(** A waiting request: nothing at first; then a store and a poke. *)
Example C32_example_request :
  let '(s, r) := serve id "@u" "D" false
      [Poke; Happens (Stored "@u" "D" None None (Some {["@erin" := 1]})); Poke;
       Happens (Stored "@u" "D" None None (Some {["@frank" := 1]})); Poke]
      (after id (Read "@u" "D" true :: ex_h)) in
  reported r = (["@erin"], [])
  /\ named (Select id s "@u" "D" false).2 = (["@erin"], [])
  /\ named (Select id s "@u" "D" true).2 = (["@frank"], []).
Proof. vm_compute. repeat split. Qed.

(** C32 does not hold for the client: a change can be lost for good. The answer
    [2] with the change is lost on its way; the client asks again at position
    [1] with a changed request; the server serves the new request, which
    acknowledges the change, and sends answer [2] once more; that is lost too,
    and the connection expires. The first request of the new connection is told
    what the last acknowledging read gave: nothing. *)
Definition ex_serve (first : bool) (s : ddb) : ddb * (list string * list string) :=
  let '(s', r) := serve id "@u" "D" first [] s in (s', reported r).
Theorem C32_lost_answers_refuted :
  let s0 := after id [Stored "@u" "D" (Some {["a" := 5]}) None None] in
  let '(s1, p1) := ex_serve true s0 in
  let s2 := apply_op id s1 (Stored "@u" "D" None None (Some {["@bob" := 1]})) in
  let '(s3, p2) := ex_serve false s2 in
  let '(s4, p3) := ex_serve false s3 in
  let '(s5, p4) := ex_serve true s4 in
  let '(s6, p5) := ex_serve false s5 in
  let req pos body := mk_request pos "" body 0 in
  let conn1 := run (Body:=nat) 0%nat [(req 0 1%nat, HOk p1 1%nat); (req 1 1%nat, HOk p2 1%nat);
                           (req 1 2%nat, HOk p3 2%nat)] in
  let conn2 := run (Body:=nat) 0%nat [(req 0 1%nat, HOk p4 1%nat); (req 1 1%nat, HOk p5 1%nat)] in
  let answers (c : ConnModel.conn nat (list string * list string) * list (event nat _)) :=
    map (fun e => match o_reply e.2 with RResp r => Some (r_pos r, r_payload r) | _ => None end) c.2 in
  answers conn1 = [Some (1, ([], [])); Some (2, (["@bob"], [])); Some (2, (["@bob"], []))]
  /\ answers conn2 = [Some (1, ([], [])); Some (2, ([], []))].
Proof. vm_compute. split; reflexivity. Qed.
Print Assumptions C32_lost_answers_refuted.

(** The same if the rest of the handler panics after the read: the client gets
    an error, asks again, and is not told on the same connection. *)
Theorem C32_panic_refuted :
  let s0 := after id [Stored "@u" "D" (Some {["a" := 5]}) None None] in
  let '(s1, p1) := ex_serve true s0 in
  let s2 := apply_op id s1 (Stored "@u" "D" None None (Some {["@bob" := 1]})) in
  let '(s3, p2) := ex_serve false s2 in
  let '(s4, p3) := ex_serve false s3 in
  let req pos body := mk_request pos "" body 0 in
  let conn1 := run (Body:=nat) 0%nat [(req 0 1%nat, HOk p1 1%nat); (req 1 1%nat, HPanic 1%nat);
                           (req 1 1%nat, HOk p3 1%nat)] in
  p2 = (["@bob"], [])
  /\ map (fun e : event nat (list string * list string) => match o_reply e.2 with
         | RResp r => inl (r_pos r, r_payload r) | RErr c => inr c | _ => inr 0 end) conn1.2
     = [inl (1, ([], [])); inr 500; inl (2, ([], []))].
Proof. vm_compute. split; reflexivity. Qed.
Print Assumptions C32_panic_refuted.

(** * C33, the poller's side *)

Lemma changed_fallback_spec p res :
  match changed_fallback p res with
  | (fb, set_fb) =>
      forall f, s_fallback res = Some f ->
        (fb = Some f /\ set_fb = true) \/ (m_fallback p = Some f /\ fb = None)
  end.
Proof.
  unfold changed_fallback. destruct (s_fallback res) as [new|]; cbn [default from_option id].
  - destruct (m_fallback p) as [old|]; cbn [default from_option id].
    + case_bool_decide as Hl; cbn [negb]; [|intros f [= ->]; by left].
      case_bool_decide as H0.
      * destruct new; [|done]. destruct old; [|done]. cbn. intros f [= <-]. right. done.
      * destruct (existsb _ _) eqn:E; intros f [= ->]; [by left|right]. split; [|reflexivity].
        f_equal. clear H0. revert f Hl E. induction old as [|x old IH]; intros [|y f] Hl E; try done.
        cbn in E. apply orb_false_iff in E as [E1 E2].
        apply negb_false_iff, bool_decide_eq_true in E1 as ->. f_equal. apply IH; [|exact E2].
        cbn in Hl. lia.
    + case_bool_decide as Hl; cbn [negb]; [|intros f [= ->]; by left].
      destruct new; [|done]. cbn. intros f [= <-]. by left.
  - destruct (negb _); [done|]. case_bool_decide; [|destruct (existsb _ _)]; try done.
    destruct (negb _); done.
Qed.

Lemma changed_fallback_mem p res f :
  (if (changed_fallback p res).2 then s_fallback res else m_fallback p) = Some f ->
  (changed_fallback p res).1 = Some f
  \/ (m_fallback p = Some f /\ (changed_fallback p res).1 = None).
Proof.
  pose proof (changed_fallback_spec p res) as H.
  destruct (changed_fallback p res) as [fb [|]] eqn:E; cbn [fst snd].
  - intros Hf. destruct (H f Hf) as [[-> _]|[? ?]]; auto.
  - intros Hf. right. split; [exact Hf|].
    revert E. unfold changed_fallback.
    destruct (negb _); [done|]. case_bool_decide; [destruct (negb _)|destruct (existsb _ _)];
      intros [= ?]; done.
Qed.

Definition synced_fallback (u d : string) (p : e2ee_mem) (h : list op) : Prop :=
  forall f, m_fallback p = Some f -> last_fallback h u d = Some f.

Lemma parse_parts p res :
  (parseE2EEData p res).2 =
    mk_mem (if negb (bool_decide (size (default ∅ (s_otk res)) = 0%nat)) then s_otk res else m_otk p)
           (if (changed_fallback p res).2 then s_fallback res else m_fallback p)
  /\ match (parseE2EEData p res).1 with
     | Some (otk, fb, ch) => otk = changed_otk p res /\ fb = (changed_fallback p res).1
     | None => changed_otk p res = None /\ (changed_fallback p res).1 = None
     end.
Proof.
  unfold parseE2EEData. destruct (changed_fallback p res) as [fb sb]. cbn [fst snd].
  split; [reflexivity|].
  destruct (ToDeviceListChangesMap _ _), fb, (changed_otk p res); cbn; auto.
Qed.

Lemma polled_keys u d p h res p' h' :
  polled u d p h res p' h' ->
  p' = (parseE2EEData p res).2
  /\ last_fallback h' u d = (match (changed_fallback p res).1 with
                             | Some f => Some f | None => last_fallback h u d end)
  /\ last_otk h' u d = (match changed_otk p res with
                        | Some m => Some m | None => last_otk h u d end)
  /\ otk_unread h' u d = (match changed_otk p res with
                        | Some m => true | None => otk_unread h u d end)
  /\ fallback_unread h' u d = (match (changed_fallback p res).1 with
                        | Some m => true | None => fallback_unread h u d end).
Proof.
  intros Hp. pose proof (parse_parts p res) as [Hm Hc].
  destruct Hp as [p h res p' E|p h res p' otk fb ch E]; rewrite E in *; cbn [fst snd] in *.
  - destruct Hc as [-> ->]. auto.
  - destruct Hc as [-> ->]. split; [reflexivity|].
    cbn [last_fallback last_otk otk_unread fallback_unread].
    destruct (changed_fallback p res).1, (changed_otk p res);
      rewrite ?decide_True by done; auto.
Qed.

Lemma lives_fallback u d known p h : lives u d known p h -> synced_fallback u d p h.
Proof.
  induction 1 as [|p h res p' h' Hl IH Hk Hp|p h Hl IH|p h u' d' ack Hl IH|p h u' d' otk fb ch Hl IH Hne];
    unfold synced_fallback in *.
  - done.
  - intros f Hf. destruct (polled_keys _ _ _ _ _ _ _ Hp) as (-> & E & _).
    destruct (parse_parts p res) as [Hm _]. rewrite Hm in Hf. cbn [m_fallback] in Hf.
    rewrite E. destruct (changed_fallback_mem p res f Hf) as [-> | [H1 ->]]; [reflexivity|].
    by apply IH.
  - done.
  - exact IH.
  - intros f Hf. cbn [last_fallback]. destruct fb; [|by apply IH].
    rewrite decide_False by (intros [-> ->]; by apply Hne). by apply IH.
Qed.

(** C33, fallback keys: in every life of a device, after a response listing
    fallback types was processed, the stored types are those listed, and if
    they are other than those stored before, the client will be told. *)
Theorem C33_fallback_types_stored u d known p h res p' h' f :
  lives u d known p h -> polled u d p h res p' h' -> s_fallback res = Some f ->
  last_fallback h' u d = Some f
  /\ (last_fallback h u d <> Some f -> fallback_unread h' u d = true).
Proof.
  intros Hl Hp Hf. pose proof (lives_fallback _ _ _ _ _ Hl) as Hs.
  destruct (polled_keys _ _ _ _ _ _ _ Hp) as (_ & E & _ & _ & Eu).
  pose proof (changed_fallback_spec p res) as Hc.
  destruct (changed_fallback p res) as [fb sb]. cbn [fst snd] in *.
  destruct (Hc f Hf) as [[-> _]|[H1 ->]].
  - auto.
  - apply Hs in H1. rewrite E. split; [exact H1|done].
Qed.
Print Assumptions C33_fallback_types_stored.

Lemma sub_same_size (m1 m2 : gmap string Z) : m1 ⊆ m2 -> (size m2 <= size m1)%nat -> m1 = m2.
Proof.
  intros H1 H2. apply map_to_list_inj. apply submseteq_Permutation_length_le.
  - exact H2.
  - by apply map_to_list_submseteq.
Qed.

Lemma lives_otk u d p h :
  lives u d (zeros_known u d) p h ->
  forall m, m_otk p = Some m -> last_otk h u d = Some m.
Proof.
  induction 1 as [|p h res p' h' Hl IH Hk Hp|p h Hl IH|p h u' d' ack Hl IH|p h u' d' otk fb ch Hl IH Hne].
  - done.
  - intros m Hm. destruct (polled_keys _ _ _ _ _ _ _ Hp) as (-> & _ & E & _).
    destruct (parse_parts p res) as [Hq _]. rewrite Hq in Hm. cbn [m_otk] in Hm. clear Hq.
    rewrite E. clear E. unfold changed_otk.
    destruct (s_otk res) as [new|] eqn:Es; cbn [default from_option id] in Hm; [|by apply IH].
    revert Hm. case_bool_decide as Hsz; cbn [negb]; intros Hm; [by apply IH|].
    injection Hm as ->. case_bool_decide as Hsame; cbn [negb]; [|reflexivity].
    destruct (m_otk p) as [old|] eqn:Eo; cbn [default from_option id] in Hsame.
    + destruct (existsb _ _) eqn:Ex; [reflexivity|]. specialize (IH old eq_refl). rewrite IH.
      f_equal. symmetry. apply sub_same_size; [|lia].
      apply map_subseteq_spec. intros k v Hkv.
      assert (Hv : v = default 0 (old !! k)).
      { destruct (Z.eqb_spec v (default 0 (old !! k))) as [?|Hn]; [done|]. exfalso.
        assert (Ht : existsb (fun kv : string * Z => negb (kv.2 =? default 0 (old !! kv.1)))
          (map_to_list m) = true); [|congruence].
        apply existsb_exists. exists (k, v). split.
        - apply elem_of_list_In, elem_of_map_to_list, Hkv.
        - cbn. by apply negb_true_iff, Z.eqb_neq. }
      destruct (old !! k) as [w|] eqn:Ek; cbn in Hv; [by subst|]. subst v.
      destruct (Hk m old k Es Hkv IH) as [w Hw]. congruence.
    + exfalso. apply Hsz. rewrite <- Hsame. reflexivity.
  - done.
  - exact IH.
  - intros m Hm. cbn [last_otk]. destruct otk; [|by apply IH].
    rewrite decide_False by (intros [-> ->]; by apply Hne). by apply IH.
Qed.

(** C33, one-time keys, as far as it holds: as long as no response reports zero
    keys for an algorithm that had not been listed, after a response listing
    counts was processed the stored counts are those listed, and if they are
    other than those stored before, the client will be told. *)
Theorem C33_key_counts_stored_partial u d p h res p' h' m :
  lives u d (zeros_known u d) p h -> zeros_known u d h res ->
  polled u d p h res p' h' -> s_otk res = Some m -> m <> ∅ ->
  last_otk h' u d = Some m
  /\ (last_otk h u d <> Some m -> otk_unread h' u d = true).
Proof.
  intros Hl Hk Hp Hm Hne.
  assert (Hl' : lives u d (zeros_known u d) p' h') by (eapply lives_poll; eauto).
  assert (Hp' : m_otk p' = Some m).
  { destruct (polled_keys _ _ _ _ _ _ _ Hp) as (-> & _).
    destruct (parse_parts p res) as [-> _]. cbn [m_otk]. rewrite Hm.
    cbn [default from_option id]. rewrite bool_decide_false; [reflexivity|].
    intros E. by apply map_size_empty_inv in E. }
  split; [by apply (lives_otk _ _ _ _ Hl')|]. intros Hd.
  pose proof (lives_otk _ _ _ _ Hl' m Hp') as E'.
  destruct (polled_keys _ _ _ _ _ _ _ Hp) as (_ & _ & E & Eu & _).
  rewrite E in E'. rewrite Eu. destruct (changed_otk p res); [reflexivity|]. done.
Qed.
Print Assumptions C33_key_counts_stored_partial.

(** The counts go down, then the types are used up. *)
Example C33_example :
  let res1 := mk_res (Some {["a" := 5]}) (Some ["signed"]) [] [] in
  let res2 := mk_res (Some {["a" := 4]}) (Some ["signed"]) [] [] in
  let res3 := mk_res (Some {["a" := 4]}) (Some []) [] ["@bob"] in
  let '(c1, p1) := parseE2EEData mem0 res1 in
  let '(c2, p2) := parseE2EEData p1 res2 in
  let '(c3, p3) := parseE2EEData p2 res3 in
  let '(c4, p4) := parseE2EEData p3 res3 in
  let show (c : option e2ee_call) := match c with
     | Some (a, b, m) => Some (map_to_list <$> a, b, map_to_list <$> m) | None => None end in
  show c1 = Some (Some [("a",5)], Some ["signed"], None)
  /\ show c2 = Some (Some [("a",4)], None, None)
  /\ show c3 = Some (None, Some [], Some [("@bob",2)])
  /\ show c4 = Some (None, None, Some [("@bob",2)]).
Proof. vm_compute. repeat split. Qed.

(** C33 is false for one-time keys: when all keys of one algorithm are used up
    and zero of another are reported instead, or when an empty report says that
    there are none at all, nothing is stored and nobody is told. *)
Theorem C33_key_counts_refuted :
  let res1 := mk_res (Some {["b" := 5]}) None [] [] in
  let res2 := mk_res (Some {["a" := 0]}) None [] [] in
  let res3 := mk_res (Some ∅) None [] [] in
  let '(c1, p1) := parseE2EEData mem0 res1 in
  let '(c2, p2) := parseE2EEData p1 res2 in
  let '(c3, p3) := parseE2EEData p1 res3 in
  let show (c : option e2ee_call) := match c with
     | Some (a, b, m) => Some (map_to_list <$> a, b, map_to_list <$> m) | None => None end in
  show c1 = Some (Some [("b",5)], None, None) /\ show c2 = None /\ show c3 = None.
Proof. vm_compute. repeat split. Qed.
Print Assumptions C33_key_counts_refuted.
