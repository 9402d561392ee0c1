(** C42: the gate in front of new connections. *)
From Verif Require Import Prelude PmapModel EnsModel EnsSpec.
Open Scope string_scope. Open Scope list_scope. Open Scope nat_scope.

(** ** Invariant *)
Definition ginv (g : gate) : Prop :=
  (forall p i, g_pending g !! p = Some i ->
     match i_ch i with
     | Some c => i_done i = false /\ c < g_next g /\ ~ c ∈ g_closed g
     | None => i_done i = true end)
  /\ (forall p p' i i' c, g_pending g !! p = Some i -> g_pending g !! p' = Some i' ->
        i_ch i = Some c -> i_ch i' = Some c -> p = p')
  /\ (forall n p c, g_calls g !! n = Some (p, Waiting c) ->
        c ∈ g_closed g \/ exists i, g_pending g !! p = Some i /\ i_ch i = Some c)
  /\ (forall c, c ∈ g_closed g -> c < g_next g).

Lemma ginv_init : ginv gate0.
Proof.
  split; [|split; [|split]]; cbn.
  - intros p i H. by rewrite lookup_empty in H.
  - intros p p' i i' c H. by rewrite lookup_empty in H.
  - intros n p c H. by rewrite lookup_nil in H.
  - intros c H. by apply elem_of_nil in H.
Qed.

Lemma entry_Some g p i : g_pending g !! p = Some i -> entry g p = i.
Proof. unfold entry. by intros ->. Qed.
Lemma entry_None g p : g_pending g !! p = None -> entry g p = info0.
Proof. unfold entry. by intros ->. Qed.

Lemma app_one_lookup {A} (l : list A) x n y : (l ++ [x]) !! n = Some y -> l !! n = Some y \/ (n = length l /\ y = x).
Proof.
  intros H. apply lookup_app_Some in H as [H|[Hl H]]; [by left|].
  apply list_lookup_singleton_Some in H as [Hn <-]. right. split; [lia|done].
Qed.

(** The outcomes of a call. *)
Lemma call_cases g p : ginv g ->
  (i_done (entry g p) = true /\ i_expired (entry g p) = false
   /\ call g p = Some (mk_gate (g_pending g) (g_next g) (g_closed g) (g_calls g ++ [(p, Finished false)]) (g_asked g)))
  \/ (exists c, g_pending g !! p = Some (mk_info false false (Some c))
      /\ call g p = Some (mk_gate (g_pending g) (g_next g) (g_closed g) (g_calls g ++ [(p, Waiting c)]) (g_asked g)))
  \/ ((g_pending g !! p = None \/ i_expired (entry g p) = true) /\
      exists cl, (match i_ch (entry g p) with None => cl = g_closed g | Some c => ~ c ∈ g_closed g /\ cl = c :: g_closed g end)
      /\ call g p = Some (mk_gate (<[p := mk_info false false (Some (g_next g))]> (g_pending g)) (S (g_next g)) cl
                (g_calls g ++ [(p, Waiting (g_next g))]) (g_asked g ++ [p]))).
Proof.
  intros (H1 & H2 & H3 & H4). unfold call, entry. cbv zeta. destruct (g_pending g !! p) as [[d e ch]|] eqn:E; cbn [default from_option id].
  - pose proof (H1 p _ E) as Hi. cbn in Hi. cbn [i_done i_expired i_ch]. destruct e; cbn [negb andb].
    + right. right. split; [by right|]. destruct ch as [c|].
      * exists (c :: g_closed g). destruct Hi as (_ & _ & Hc). split; [done|]. cbn [close_ch].
        rewrite bool_decide_eq_false_2 by done. cbn. rewrite lookup_delete. cbn. by rewrite insert_delete_insert.
      * exists (g_closed g). split; [done|]. cbn. rewrite lookup_delete. cbn. by rewrite insert_delete_insert.
    + destruct d.
      * left. done.
      * right. left. destruct ch as [c|]; [|done]. exists c. split; [done|]. cbn. rewrite E. done.
  - cbn [i_done i_expired info0 negb andb]. right. right. split; [by left|]. exists (g_closed g). split; [done|].
    cbn. rewrite E. done.
Qed.

Lemma ginv_call g p : ginv g -> exists g', call g p = Some g' /\ ginv g'.
Proof.
  intros Hg. assert (Hg' := Hg). destruct Hg as (H1 & H2 & H3 & H4).
  destruct (call_cases g p Hg') as [(Hd & He & ->)|[(c & Hp & ->)|(_ & cl & Hcl & ->)]]; (eexists; split; [done|]).
  - split; [done|]. split; [done|]. split; [|done]. cbn. intros n p' c H. apply app_one_lookup in H as [H|[_ H]]; [by apply (H3 n)|done].
  - split; [done|]. split; [done|]. split; [|done]. cbn. intros n p' c' H. apply app_one_lookup in H as [H|[_ H]]; [by apply (H3 n)|].
    inversion H; subst. right. eexists. split; [done|done].
  - assert (Hsub : forall c, c ∈ g_closed g -> c ∈ cl).
    { intros c Hc. destruct (i_ch (entry g p)); [destruct Hcl as [_ ->]; by apply elem_of_cons; right|by subst]. }
    assert (Hnew : forall c, c ∈ cl -> c < g_next g /\ (c ∈ g_closed g \/ i_ch (entry g p) = Some c)).
    { intros c Hc. destruct (i_ch (entry g p)) as [c0|] eqn:Ech.
      - destruct Hcl as [_ ->]. apply elem_of_cons in Hc as [->|Hc]; [|split; [by apply H4|by left]].
        split; [|by right]. unfold entry in Ech. destruct (g_pending g !! p) as [i|] eqn:Ep; [|done]. cbn in Ech.
        specialize (H1 p i Ep). rewrite Ech in H1. lia.
      - subst cl. split; [by apply H4|by left]. }
    split; [|split; [|split]]; cbn [g_pending g_next g_closed g_calls].
    + intros p' i Hi. destruct (decide (p = p')) as [<-|Hne].
      * rewrite lookup_insert in Hi. inversion Hi; subst i. cbn. split; [done|]. split; [lia|]. intros Hc.
        apply Hnew in Hc. lia.
      * rewrite lookup_insert_ne in Hi by done. specialize (H1 p' i Hi). destruct (i_ch i) as [c|] eqn:Ec; [|done].
        destruct H1 as (Hd & Hlt & Hc). split; [done|]. split; [lia|]. intros Hc'. apply Hnew in Hc' as [_ [Hc'|Hc']]; [done|].
        unfold entry in Hc'. destruct (g_pending g !! p) as [i0|] eqn:Ep; [|done]. cbn in Hc'.
        apply Hne. by apply (H2 p p' i0 i c).
    + intros p1 p2 i1 i2 c Hi1 Hi2 Hc1 Hc2. destruct (decide (p = p1)) as [<-|Hne1], (decide (p = p2)) as [<-|Hne2]; [done|..].
      * rewrite lookup_insert in Hi1. rewrite lookup_insert_ne in Hi2 by done. inversion Hi1; subst i1. cbn in Hc1.
        inversion Hc1; subst c. specialize (H1 p2 i2 Hi2). rewrite Hc2 in H1. lia.
      * rewrite lookup_insert in Hi2. rewrite lookup_insert_ne in Hi1 by done. inversion Hi2; subst i2. cbn in Hc2.
        inversion Hc2; subst c. specialize (H1 p1 i1 Hi1). rewrite Hc1 in H1. lia.
      * rewrite lookup_insert_ne in Hi1, Hi2 by done. by apply (H2 p1 p2 i1 i2 c).
    + intros n p' c H. apply app_one_lookup in H as [H|[_ H]].
      * destruct (H3 n p' c H) as [Hc|(i & Hi & Hc)]; [left; by apply Hsub|].
        destruct (decide (p = p')) as [<-|Hne].
        -- left. rewrite (entry_Some g p i Hi), Hc in Hcl. destruct Hcl as [_ ->]. apply elem_of_cons. by left.
        -- right. exists i. by rewrite lookup_insert_ne.
      * inversion H; subst. right. eexists. rewrite lookup_insert. split; done.
    + intros c Hc. apply Hnew in Hc. lia.
Qed.

Lemma ginv_step g o : ginv g -> exists g', gstep g o = Some g' /\ ginv g'.
Proof.
  intros Hg. assert (Hg' := Hg). destruct Hg as (H1 & H2 & H3 & H4). destruct o as [p|n|p s|p]; cbn [gstep].
  - by apply ginv_call.
  - eexists. split; [done|]. unfold wake. destruct (g_calls g !! n) as [[p [c|e]]|] eqn:E; [|done..].
    case_bool_decide; [|done]. split; [done|]. split; [done|]. split; [|done]. cbn. intros n' p' c' Hn.
    destruct (decide (n = n')) as [<-|Hne].
    + rewrite list_lookup_insert in Hn by (by apply lookup_lt_Some in E). done.
    + rewrite list_lookup_insert_ne in Hn by done. by apply (H3 n').
  - unfold complete. destruct (g_pending g !! p) as [i|] eqn:Ep.
    + destruct (i_done i) eqn:Ed; [by exists g|]. pose proof (H1 p i Ep) as Hi.
      destruct (i_ch i) as [c|] eqn:Ec; [|congruence]. destruct Hi as (_ & Hlt & Hc). cbn [close_ch].
      rewrite bool_decide_eq_false_2 by done. cbn. eexists. split; [done|].
      split; [|split; [|split]]; cbn [g_pending g_next g_closed g_calls].
      * intros p' i' Hi'. destruct (decide (p = p')) as [<-|Hne].
        -- rewrite lookup_insert in Hi'. inversion Hi'; by subst.
        -- rewrite lookup_insert_ne in Hi' by done. pose proof (H1 p' i' Hi') as Hi1. destruct (i_ch i') as [c'|] eqn:Ec'; [|done].
           destruct Hi1 as (Hd & Hlt' & Hc'). split; [done|]. split; [done|]. rewrite elem_of_cons. intros [->|Hx]; [|done].
           apply Hne. by apply (H2 p p' i i' c).
      * intros p1 p2 i1 i2 c' Hi1 Hi2 Hc1 Hc2. destruct (decide (p = p1)) as [<-|Hne1], (decide (p = p2)) as [<-|Hne2]; [done|..].
        -- rewrite lookup_insert in Hi1. inversion Hi1; by subst.
        -- rewrite lookup_insert in Hi2. inversion Hi2; by subst.
        -- rewrite lookup_insert_ne in Hi1, Hi2 by done. by apply (H2 p1 p2 i1 i2 c').
      * intros n p' c' Hn. rewrite elem_of_cons. destruct (H3 n p' c' Hn) as [Hx|(i' & Hi' & Hc')]; [left; by right|].
        destruct (decide (p = p')) as [<-|Hne].
        -- left. left. congruence.
        -- right. exists i'. by rewrite lookup_insert_ne.
      * intros c'. rewrite elem_of_cons. intros [->|Hx]; [done|by apply H4].
    + eexists. split; [done|]. split; [|split; [|split]]; cbn [g_pending g_next g_closed g_calls]; [| | |done].
      * intros p' i' Hi'. destruct (decide (p = p')) as [<-|Hne].
        -- rewrite lookup_insert in Hi'. inversion Hi'; by subst.
        -- rewrite lookup_insert_ne in Hi' by done. by apply (H1 p').
      * intros p1 p2 i1 i2 c' Hi1 Hi2 Hc1 Hc2. destruct (decide (p = p1)) as [<-|Hne1], (decide (p = p2)) as [<-|Hne2]; [done|..].
        -- rewrite lookup_insert in Hi1. inversion Hi1; by subst.
        -- rewrite lookup_insert in Hi2. inversion Hi2; by subst.
        -- rewrite lookup_insert_ne in Hi1, Hi2 by done. by apply (H2 p1 p2 i1 i2 c').
      * intros n p' c' Hn. destruct (H3 n p' c' Hn) as [Hx|(i' & Hi' & Hc')]; [by left|]. right. exists i'.
        rewrite lookup_insert_ne; [done|]. intros <-. congruence.
  - eexists. split; [done|]. unfold expire. destruct (g_pending g !! p) as [i|] eqn:Ep; [|done].
    split; [|split; [|split]]; cbn [g_pending g_next g_closed g_calls]; [| | |done].
    + intros p' i' Hi'. destruct (decide (p = p')) as [<-|Hne].
      * rewrite lookup_insert in Hi'. inversion Hi'; subst i'. cbn. by apply (H1 p).
      * rewrite lookup_insert_ne in Hi' by done. by apply (H1 p').
    + assert (Hback : forall p0 i0, <[p := mk_info (i_done i) true (i_ch i)]> (g_pending g) !! p0 = Some i0 ->
        exists j, g_pending g !! p0 = Some j /\ i_ch j = i_ch i0).
      { intros p0 i0 Hi0. destruct (decide (p = p0)) as [<-|Hne].
        - rewrite lookup_insert in Hi0. inversion Hi0; subst. by exists i.
        - rewrite lookup_insert_ne in Hi0 by done. by exists i0. }
      intros p1 p2 i1 i2 c Hi1 Hi2 Hc1 Hc2. destruct (Hback _ _ Hi1) as (j1 & Hj1 & E1). destruct (Hback _ _ Hi2) as (j2 & Hj2 & E2).
      apply (H2 p1 p2 j1 j2 c); congruence.
    + intros n p' c' Hn. destruct (H3 n p' c' Hn) as [Hx|(i' & Hi' & Hc')]; [by left|]. right.
      destruct (decide (p = p')) as [<-|Hne].
      * rewrite lookup_insert. eexists. split; [done|]. cbn. congruence.
      * exists i'. by rewrite lookup_insert_ne.
Qed.

Lemma grun_app g os os' : grun g (os ++ os') = (g' ← grun g os; grun g' os').
Proof. revert g. induction os as [|o os IH]; intros g; [done|]. cbn. destruct (gstep g o) as [g'|]; [|done]. cbn. apply IH. Qed.
Lemma ginv_run os : forall g, ginv g -> exists g', grun g os = Some g' /\ ginv g'.
Proof.
  induction os as [|o os IH]; intros g Hg; [by exists g|]. cbn. destruct (ginv_step g o Hg) as (g' & -> & Hg'). cbn. by apply IH.
Qed.

(** C42. The gate never panics, whatever calls and messages come in whatever order:
    no channel is closed twice and no nil channel is closed. *)
Theorem C42_never_panics os : exists g, grun gate0 os = Some g.
Proof. destruct (ginv_run os gate0 ginv_init) as (g & H & _). by exists g. Qed.
Print Assumptions C42_never_panics.

(** ** Calls that do not wait *)

(** What the entry of a device says about the history. *)
Definition told (os : list gop) (g : gate) : Prop :=
  forall p i, g_pending g !! p = Some i -> i_done i = true -> i_expired i = false -> succeeded p os.
Lemma succeeded_snoc p os o : o <> Expire p -> succeeded p os -> succeeded p (os ++ [o]).
Proof.
  intros Ho (a & b & -> & Hb). exists a, (b ++ [o]). split; [by rewrite <- app_assoc|].
  intros H. apply in_app_or in H as [H|[H|[]]]; [done|]. by apply Ho.
Qed.
Lemma told_run os g : grun gate0 os = Some g -> told os g.
Proof.
  revert g. induction os as [|o os IH] using rev_ind; intros g Hr.
  { cbn in Hr. inversion Hr; subst. intros p i H. cbn in H. by rewrite lookup_empty in H. }
  rewrite grun_app in Hr. destruct (grun gate0 os) as [g0|] eqn:E0; [|done]. cbn in Hr.
  assert (Hg0 : ginv g0) by (destruct (ginv_run os gate0 ginv_init) as (g1 & Hr1 & Hg1); rewrite E0 in Hr1; by inversion Hr1; subst).
  specialize (IH g0 eq_refl). destruct (gstep g0 o) as [g'|] eqn:Es; [|done]. cbn in Hr. inversion Hr; subst g'. clear Hr.
  intros p i Hp Hd He. destruct o as [p'|n|p' s|p']; cbn [gstep] in Es.
  - apply succeeded_snoc; [done|]. destruct (call_cases g0 p' Hg0) as [(_ & _ & Hc)|[(c & _ & Hc)|(_ & cl & _ & Hc)]];
      rewrite Hc in Es; inversion Es; subst g; cbn in Hp.
    + by apply (IH p i).
    + by apply (IH p i).
    + destruct (decide (p' = p)) as [->|Hne].
      * rewrite lookup_insert in Hp. inversion Hp; by subst i.
      * rewrite lookup_insert_ne in Hp by done. by apply (IH p i).
  - inversion Es; subst g. apply succeeded_snoc; [done|]. apply (IH p i); [|done..]. unfold wake in Hp.
    destruct (g_calls g0 !! n) as [[q [c|e]]|]; [|done..]. by destruct (bool_decide _).
  - unfold complete in Es. destruct (decide (p' = p)) as [->|Hne].
    + destruct (g_pending g0 !! p) as [j|] eqn:Ej.
      * destruct (i_done j) eqn:Edj.
        -- inversion Es; subst g. apply succeeded_snoc; [done|]. by apply (IH p i).
        -- destruct (close_ch (g_closed g0) (i_ch j)) as [cl|]; [|done]. cbn in Es. inversion Es; subst g. cbn in Hp.
           rewrite lookup_insert in Hp. inversion Hp; subst i. cbn in He. destruct (i_expired j); [done|].
           apply negb_false_iff in He. subst s. exists os, []. split; [done|]. by intros [].
      * inversion Es; subst g. cbn in Hp. rewrite lookup_insert in Hp. inversion Hp; subst i. cbn in He.
        apply negb_false_iff in He. subst s. exists os, []. split; [done|]. by intros [].
    + apply succeeded_snoc; [done|]. apply (IH p i); [|done..]. destruct (g_pending g0 !! p') as [j|] eqn:Ej.
      * destruct (i_done j); [by inversion Es; subst|]. destruct (close_ch (g_closed g0) (i_ch j)) as [cl|]; [|done]. cbn in Es.
        inversion Es; subst g. cbn in Hp. by rewrite lookup_insert_ne in Hp.
      * inversion Es; subst g. cbn in Hp. by rewrite lookup_insert_ne in Hp.
  - inversion Es; subst g. unfold expire in Hp. destruct (decide (p' = p)) as [->|Hne].
    + destruct (g_pending g0 !! p) as [j|] eqn:Ej; [|congruence]. cbn in Hp. rewrite lookup_insert in Hp. inversion Hp; by subst i.
    + apply succeeded_snoc; [congruence|]. apply (IH p i); [|done..]. destruct (g_pending g0 !! p') as [j|] eqn:Ej; [|done].
      cbn in Hp. by rewrite lookup_insert_ne in Hp.
Qed.

Lemma last_call (l : list (pid * cstate)) x : (l ++ [x]) !! length l = Some x.
Proof. by rewrite lookup_app_r, Nat.sub_diag by lia. Qed.

(** C42. The wait is skipped only if the history says that the device's initial
    sync succeeded and its token did not expire since; then success is reported. *)
Theorem C42_never_skips os g p g' e :
  grun gate0 os = Some g -> call g p = Some g' -> g_calls g' !! length (g_calls g) = Some (p, Finished e) ->
  e = false /\ succeeded p os.
Proof.
  intros Hr Hc Hl. assert (Hg : ginv g) by (destruct (ginv_run os gate0 ginv_init) as (g1 & Hr1 & Hg1); rewrite Hr in Hr1; by inversion Hr1; subst).
  destruct (call_cases g p Hg) as [(Hd & He & E)|[(c & _ & E)|(_ & cl & _ & E)]]; rewrite E in Hc; inversion Hc; subst g';
    cbn in Hl; rewrite last_call in Hl; inversion Hl; subst.
  split; [done|]. unfold entry in Hd, He. destruct (g_pending g !! p) as [i|] eqn:Ei; [|done]. cbn in Hd, He.
  by apply (told_run os g Hr p i).
Qed.
Print Assumptions C42_never_skips.

(** ** Calls that wait *)

(** C42. A message that the initial sync is complete, successful or not, releases
    every caller that waits for the device. *)
Theorem C42_complete_releases os g p s n c :
  grun gate0 os = Some g -> g_calls g !! n = Some (p, Waiting c) ->
  exists g', complete g p s = Some g' /\ exists e, g_calls (wake g' n) !! n = Some (p, Finished e).
Proof.
  intros Hr Hn. assert (Hg : ginv g) by (destruct (ginv_run os gate0 ginv_init) as (g1 & Hr1 & Hg1); rewrite Hr in Hr1; by inversion Hr1; subst).
  destruct (ginv_step g (Complete p s) Hg) as (g' & Hs & Hg'). cbn in Hs. exists g'. split; [done|].
  assert (Hc : g_calls g' = g_calls g /\ c ∈ g_closed g').
  { destruct Hg as (H1 & H2 & H3 & H4). unfold complete in Hs. destruct (H3 n p c Hn) as [Hx|(i & Hi & Hx)].
    - destruct (g_pending g !! p) as [i|]; [|inversion Hs; by subst]. destruct (i_done i); [inversion Hs; by subst|].
      unfold close_ch in Hs. destruct (i_ch i) as [c'|]; [|done]. case_bool_decide; [done|]. cbn in Hs. inversion Hs; subst. cbn.
      split; [done|]. apply elem_of_cons. by right.
    - rewrite Hi in Hs. pose proof (H1 p i Hi) as Hj. rewrite Hx in Hj. destruct Hj as (Hd & _ & Hnc). rewrite Hd, Hx in Hs.
      cbn [close_ch] in Hs. rewrite bool_decide_eq_false_2 in Hs by done. cbn in Hs. inversion Hs; subst. cbn. split; [done|].
      apply elem_of_cons. by left. }
  destruct Hc as [E1 Hc]. unfold wake. rewrite E1, Hn, bool_decide_eq_true_2 by done. cbn.
  rewrite list_lookup_insert by (by apply lookup_lt_Some in Hn). by eexists.
Qed.
Print Assumptions C42_complete_releases.

(** Between a call and its return. *)
Lemma first_complete_snoc p b o :
  first_complete p (b ++ [o]) =
  match first_complete p b with Some s => Some s | None => match o with Complete p' s => if decide (p' = p) then Some s else None | _ => None end end.
Proof.
  induction b as [|x b IH]; cbn.
  - by destruct o as [| |p' s|].
  - destruct x as [| |p' s|]; try done. by destruct (decide (p' = p)).
Qed.
Lemma expires_snoc p b o : expires p (b ++ [o]) = expires p b || bool_decide (o = Expire p).
Proof.
  unfold expires. apply Bool.eq_iff_eq_true. rewrite orb_true_iff, !bool_decide_eq_true, elem_of_app, elem_of_list_singleton.
  split; intros [H|H]; [by left|right; congruence|by left|right; congruence].
Qed.

Definition phase (p : pid) (c : nat) (b : list gop) (g : gate) : Prop :=
  match first_complete p b with
  | None => g_pending g !! p = Some (mk_info false (expires p b) (Some c))
  | Some s => g_pending g !! p = Some (mk_info true (negb s || expires p b) None) /\ c ∈ g_closed g
  end.

Lemma phase_step p c b g o g' :
  ginv g -> phase p c b g -> gstep g o = Some g' ->
  (o = Call p -> first_complete p b <> Some false /\ expires p b = false) -> phase p c (b ++ [o]) g'.
Proof.
  intros Hg Hph Hs Hcall. unfold phase in *. rewrite first_complete_snoc, expires_snoc.
  assert (Hclosed : c ∈ g_closed g -> c ∈ g_closed g').
  { intros Hc. destruct o as [p'|n|p' s|p']; cbn [gstep] in Hs.
    - destruct (call_cases g p' Hg) as [(_ & _ & E)|[(c' & _ & E)|(_ & cl & Hcl & E)]]; rewrite E in Hs; inversion Hs; subst g'; cbn; [done..|].
      destruct (i_ch (entry g p')); [destruct Hcl as [_ ->]; apply elem_of_cons; by right|by subst].
    - inversion Hs; subst. unfold wake. destruct (g_calls g !! n) as [[q [c'|e]]|]; [|done..]. by destruct (bool_decide _).
    - unfold complete in Hs. destruct (g_pending g !! p') as [j|]; [|inversion Hs; by subst]. destruct (i_done j); [inversion Hs; by subst|].
      unfold close_ch in Hs. destruct (i_ch j) as [c'|]; [|done]. case_bool_decide; [done|]. cbn in Hs. inversion Hs; subst. cbn.
      apply elem_of_cons. by right.
    - inversion Hs; subst. unfold expire. by destruct (g_pending g !! p'). }
  destruct o as [p'|n|p' s|p']; cbn [gstep] in Hs.
  - rewrite (bool_decide_eq_false_2 (Call p' = Expire p)) by done. rewrite orb_false_r.
    assert (Hp : g_pending g' !! p = g_pending g !! p).
    { destruct (decide (p' = p)) as [->|Hne].
      - destruct (Hcall eq_refl) as [Hf He]. destruct (call_cases g p Hg) as [(_ & _ & E)|[(c' & _ & E)|(Hbad & cl & _ & E)]];
          rewrite E in Hs; inversion Hs; subst g'; [done..|]. exfalso.
        assert (Hx : exists i, g_pending g !! p = Some i /\ i_expired i = false).
        { destruct (first_complete p b) as [s|].
          - destruct Hph as [Hph _]. eexists. split; [done|]. cbn. rewrite He. by destruct s.
          - eexists. split; [done|]. by cbn. }
        destruct Hx as (i & Hi & Hie). destruct Hbad as [Hb|Hb]; [congruence|]. rewrite (entry_Some g p i Hi) in Hb. congruence.
      - destruct (call_cases g p' Hg) as [(_ & _ & E)|[(c' & _ & E)|(Hbad & cl & _ & E)]];
          rewrite E in Hs; inversion Hs; subst g'; cbn; [done..|]. by rewrite lookup_insert_ne. }
    rewrite Hp. destruct (first_complete p b); [|done]. destruct Hph as [H1 H2]. split; [done|by apply Hclosed].
  - rewrite (bool_decide_eq_false_2 (Wake n = Expire p)) by done. rewrite orb_false_r.
    assert (Hp : g_pending g' !! p = g_pending g !! p).
    { inversion Hs; subst. unfold wake. destruct (g_calls g !! n) as [[q [c'|e]]|]; [|done..]. by destruct (bool_decide _). }
    rewrite Hp. destruct (first_complete p b); [|done]. destruct Hph as [H1 H2]. split; [done|by apply Hclosed].
  - rewrite (bool_decide_eq_false_2 (Complete p' s = Expire p)) by done. rewrite orb_false_r.
    destruct (decide (p' = p)) as [->|Hne].
    + destruct (first_complete p b) as [s0|].
      * destruct Hph as [H1 H2]. unfold complete in Hs. rewrite H1 in Hs. cbn in Hs. inversion Hs; by subst.
      * unfold complete in Hs. rewrite Hph in Hs. cbn [i_done i_ch i_expired close_ch] in Hs. case_bool_decide; [done|].
        cbn in Hs. inversion Hs; subst g'. cbn. rewrite lookup_insert. split; [|apply elem_of_cons; by left].
        by destruct (expires p b), s.
    + assert (Hp : g_pending g' !! p = g_pending g !! p).
      { unfold complete in Hs. destruct (g_pending g !! p') as [j|].
        - destruct (i_done j); [inversion Hs; by subst|]. destruct (close_ch (g_closed g) (i_ch j)); [|done]. cbn in Hs.
          inversion Hs; subst. cbn. by rewrite lookup_insert_ne.
        - inversion Hs; subst. cbn. by rewrite lookup_insert_ne. }
      rewrite Hp. destruct (first_complete p b); [|done]. destruct Hph as [H1 H2]. split; [done|by apply Hclosed].
  - inversion Hs; subst g'. destruct (decide (p' = p)) as [->|Hne].
    + rewrite bool_decide_eq_true_2 by done. rewrite !orb_true_r.
      unfold expire. destruct (first_complete p b) as [s0|].
      * destruct Hph as [H1 H2]. rewrite H1. cbn. rewrite lookup_insert, !orb_true_r. done.
      * rewrite Hph. cbn. by rewrite lookup_insert.
    + rewrite (bool_decide_eq_false_2 (Expire p' = Expire p)) by congruence. rewrite orb_false_r.
      assert (Hp : g_pending (expire g p') !! p = g_pending g !! p).
      { unfold expire. destruct (g_pending g !! p'); [|done]. cbn. by rewrite lookup_insert_ne. }
      rewrite Hp. destruct (first_complete p b); [|done]. destruct Hph as [H1 H2]. split; [done|by apply Hclosed].
Qed.

Lemma calls_kept o n x g g' : ginv g -> gstep g o = Some g' -> o <> Wake n -> g_calls g !! n = Some x -> g_calls g' !! n = Some x.
Proof.
  intros Hg Hs Ho Hn. destruct o as [p'|m|p' s|p']; cbn [gstep] in Hs.
  - destruct (call_cases g p' Hg) as [(_ & _ & E)|[(c' & _ & E)|(_ & cl & Hcl & E)]]; rewrite E in Hs; inversion Hs; subst g'; cbn;
      by apply lookup_app_l_Some.
  - inversion Hs; subst. unfold wake. destruct (g_calls g !! m) as [[q [c'|e]]|]; [|done..]. destruct (bool_decide _); [|done]. cbn.
    rewrite list_lookup_insert_ne; [done|congruence].
  - unfold complete in Hs. destruct (g_pending g !! p') as [j|]; [|inversion Hs; by subst]. destruct (i_done j); [inversion Hs; by subst|].
    destruct (close_ch (g_closed g) (i_ch j)); [|done]. cbn in Hs. inversion Hs; by subst.
  - inversion Hs; subst. unfold expire. by destruct (g_pending g !! p').
Qed.

(** C42, for calls during which no other call for the device comes after bad news:
    let a call wait, and let [b] happen after it. The call is still waiting if [b]
    has no message that the initial sync is complete; otherwise it returns, and
    reports an expired token exactly if the first such message said failure or a
    message in [b] said that the token expired.
    Missing: calls that overlap with such a restart, see below. *)
Theorem C42_waits_for_the_verdict_partial a p g g1 b g2 c :
  grun gate0 a = Some g -> call g p = Some g1 -> g_calls g1 !! length (g_calls g) = Some (p, Waiting c) ->
  grun g1 b = Some g2 -> ~ In (Wake (length (g_calls g))) b -> no_restart p b ->
  g_calls (wake g2 (length (g_calls g))) !! length (g_calls g) =
  Some (p, match verdict p b with None => Waiting c | Some expired => Finished expired end).
Proof.
  intros Ha Hc Hl Hb Hw Hnr.
  assert (Hg : ginv g) by (destruct (ginv_run a gate0 ginv_init) as (g0 & Hr0 & Hg0); rewrite Ha in Hr0; by inversion Hr0; subst).
  assert (Hg1 : ginv g1) by (destruct (ginv_call g p Hg) as (g0 & Hr0 & Hg0); rewrite Hc in Hr0; by inversion Hr0; subst).
  assert (Hph0 : phase p c [] g1).
  { unfold phase. cbn. destruct (call_cases g p Hg) as [(_ & _ & E)|[(c' & Hp & E)|(_ & cl & _ & E)]]; rewrite E in Hc;
      inversion Hc; subst g1; cbn in Hl; rewrite last_call in Hl; inversion Hl; subst; cbn; [done|by rewrite lookup_insert]. }
  set (n := length (g_calls g)) in *.
  assert (Hend : phase p c b g2 /\ ginv g2 /\ g_calls g2 !! n = Some (p, Waiting c)).
  { clear Hc Ha Hg. revert g2 Hb Hw Hnr. induction b as [|o b IH] using rev_ind; intros g2 Hb Hw Hnr.
    - cbn in Hb. inversion Hb; by subst.
    - rewrite grun_app in Hb. destruct (grun g1 b) as [g3|] eqn:E3; [|done]. cbn in Hb.
      destruct (gstep g3 o) as [g4|] eqn:E4; [|done]. cbn in Hb. inversion Hb; subst g4. clear Hb.
      destruct (IH g3 eq_refl) as (Hph & Hg3 & Hn).
      { intros H. apply Hw. apply in_or_app. by left. }
      { intros x y ->. eapply (Hnr x (y ++ [o])). by rewrite <- app_assoc. }
      split; [|split].
      + apply (phase_step p c b g3 o g2 Hg3 Hph E4). intros ->. by apply (Hnr b []).
      + destruct (ginv_step g3 o Hg3) as (g5 & Hs5 & Hg5). rewrite E4 in Hs5. by inversion Hs5; subst.
      + apply (calls_kept o n _ g3 g2 Hg3 E4); [|done]. intros ->. apply Hw. apply in_or_app. right. by left. }
  destruct Hend as (Hph & Hg2 & Hn). unfold phase, verdict in *. unfold wake. rewrite Hn.
  destruct (first_complete p b) as [s|].
  - destruct Hph as [Hp Hcl]. rewrite bool_decide_eq_true_2 by done. cbn.
    rewrite list_lookup_insert by (by apply lookup_lt_Some in Hn). by rewrite (entry_Some g2 p _ Hp).
  - destruct Hg2 as (H1 & _). specialize (H1 p _ Hph). cbn in H1. destruct H1 as (_ & _ & Hnc).
    by rewrite bool_decide_eq_false_2.
Qed.
Print Assumptions C42_waits_for_the_verdict_partial.

(** C42. Whoever waits on an open channel has an unanswered request: a call for the
    device asked the pollers, and no completion came since. *)
Theorem C42_asked os g n p c :
  grun gate0 os = Some g -> g_calls g !! n = Some (p, Waiting c) -> ~ c ∈ g_closed g ->
  exists a b ga g1, os = a ++ Call p :: b /\ grun gate0 a = Some ga /\ call ga p = Some g1
    /\ g_asked g1 = g_asked ga ++ [p] /\ first_complete p b = None.
Proof.
  intros Hr Hn Hopen.
  assert (Hg : ginv g) by (destruct (ginv_run os gate0 ginv_init) as (g1 & Hr1 & Hg1); rewrite Hr in Hr1; by inversion Hr1; subst).
  destruct Hg as (_ & _ & H3 & _). destruct (H3 n p c Hn) as [Hc|(i & Hi & Hc)]; [done|]. clear H3 Hn Hopen n.
  revert g Hr i Hi Hc. induction os as [|o os IH] using rev_ind; intros g Hr i Hp Hch.
  { cbn in Hr. inversion Hr; subst. cbn in Hp. by rewrite lookup_empty in Hp. }
  rewrite grun_app in Hr. destruct (grun gate0 os) as [g0|] eqn:E0; [|done]. cbn in Hr.
  assert (Hg0 : ginv g0) by (destruct (ginv_run os gate0 ginv_init) as (g1 & Hr1 & Hg1); rewrite E0 in Hr1; by inversion Hr1; subst).
  destruct (gstep g0 o) as [g1|] eqn:Es; [|done]. cbn in Hr. inversion Hr; subst g1. clear Hr. specialize (IH g0 eq_refl).
  assert (Hold : forall j, g_pending g0 !! p = Some j -> i_ch j = Some c -> (forall s, o <> Complete p s) ->
    exists a b ga g1, os ++ [o] = a ++ Call p :: b /\ grun gate0 a = Some ga /\ call ga p = Some g1
      /\ g_asked g1 = g_asked ga ++ [p] /\ first_complete p b = None).
  { intros j Hj Hcj Hno. destruct (IH j Hj Hcj) as (a & b & ga & g1 & E & H1 & H2 & H3 & H4).
    exists a, (b ++ [o]), ga, g1. split; [by rewrite E, <- app_assoc|]. split; [done|]. split; [done|]. split; [done|].
    rewrite first_complete_snoc, H4. destruct o as [| |p' s|]; try done. rewrite decide_False; [done|]. intros ->. by apply (Hno s). }
  destruct o as [p'|n|p' s|p']; cbn [gstep] in Es.
  - destruct (call_cases g0 p' Hg0) as [(_ & _ & E)|[(c' & _ & E)|(_ & cl & _ & E)]]; rewrite E in Es; inversion Es; subst g; cbn in Hp.
    + by apply (Hold i).
    + by apply (Hold i).
    + destruct (decide (p' = p)) as [->|Hne].
      * exists os, [], g0. eexists. split; [done|]. split; [done|]. split; [exact E|]. done.
      * rewrite lookup_insert_ne in Hp by done. by apply (Hold i).
  - inversion Es; subst g. apply (Hold i); [|done..]. unfold wake in Hp.
    destruct (g_calls g0 !! n) as [[q [c'|e]]|]; [|done..]. by destruct (bool_decide _).
  - destruct (decide (p' = p)) as [->|Hne].
    + exfalso. unfold complete in Es. destruct (g_pending g0 !! p) as [j|] eqn:Ej.
      * destruct (i_done j) eqn:Ed.
        -- inversion Es; subst g. assert (i = j) as -> by congruence. destruct Hg0 as (H1 & _). specialize (H1 p j Ej). rewrite Hch in H1.
           destruct H1 as [H1 _]. congruence.
        -- destruct (close_ch (g_closed g0) (i_ch j)); [|done]. cbn in Es. inversion Es; subst g. cbn in Hp.
           rewrite lookup_insert in Hp. inversion Hp; by subst i.
      * inversion Es; subst g. cbn in Hp. rewrite lookup_insert in Hp. inversion Hp; by subst i.
    + apply (Hold i); [|done|congruence]. unfold complete in Es. destruct (g_pending g0 !! p') as [j|].
      * destruct (i_done j); [inversion Es; by subst|]. destruct (close_ch (g_closed g0) (i_ch j)); [|done]. cbn in Es.
        inversion Es; subst g. cbn in Hp. by rewrite lookup_insert_ne in Hp.
      * inversion Es; subst g. cbn in Hp. by rewrite lookup_insert_ne in Hp.
  - inversion Es; subst g. unfold expire in Hp. destruct (g_pending g0 !! p') as [j|] eqn:Ej; [|by apply (Hold i)]. cbn in Hp.
    destruct (decide (p' = p)) as [->|Hne].
    + rewrite lookup_insert in Hp. inversion Hp; subst i. by apply (Hold j).
    + rewrite lookup_insert_ne in Hp by done. by apply (Hold i).
Qed.
Print Assumptions C42_asked.

(** ** Examples and refutations *)
Definition dev := mk_pid "@a" "D".
(** Two callers wait for one poller, which succeeds; a third does not wait; the
    token expires and a fourth waits again, until the poller fails. *)
Example C42_example :
  let os := [Call dev; Call dev; Complete dev true; Wake 0; Wake 1; Call dev; Expire dev; Call dev; Complete dev false; Wake 3] in
  (g ← grun gate0 os; Some (g_calls g, g_asked g)) =
  Some ([(dev, Finished false); (dev, Finished false); (dev, Finished false); (dev, Finished true)], [dev; dev]).
Proof. vm_compute. reflexivity. Qed.
Example C42_no_restart_example : no_restart dev [Call dev; Wake 1; Complete dev true; Call dev; Expire dev].
Proof.
  intros a b H. destruct a as [|x a]; [done|]. destruct a as [|y a]; [done|]. destruct a as [|z a]; [done|].
  destruct a as [|u a]; [cbn in H; inversion H; subst; by vm_compute|]. destruct a as [|v a]; [done|]. by destruct a.
Qed.

(** C42 fails for a call that overlaps with a restart. The token expires while a
    first call waits; a second call closes the first one's channel and starts over.
    The first call returns success although no initial sync was ever complete. *)
Theorem C42_expiry_while_waiting_refuted :
  exists os, (g ← grun gate0 os; Some (g_calls g)) = Some [(dev, Finished false); (dev, Waiting 1)]
    /\ (forall s, ~ In (Complete dev s) os) /\ In (Expire dev) os.
Proof.
  exists [Call dev; Expire dev; Call dev; Wake 0]. split; [vm_compute; reflexivity|]. split.
  - intros s H. cbn in H. repeat (destruct H as [H|H]; [discriminate|]). done.
  - right. by left.
Qed.

(** Likewise when the poller fails and another call starts over before the first one
    has read the outcome: it reports success although the only news was failure. *)
Theorem C42_failure_forgotten_refuted :
  exists os, (g ← grun gate0 os; Some (g_calls g)) = Some [(dev, Finished false); (dev, Waiting 1)]
    /\ (forall s, In (Complete dev s) os -> s = false).
Proof.
  exists [Call dev; Complete dev false; Call dev; Wake 0]. split; [vm_compute; reflexivity|].
  intros s H. cbn in H. repeat (destruct H as [H|H]; [congruence|]). done.
Qed.
