(** Lemmas about to-device messages. *)
From Verif Require Import Prelude ToDevModel ToDevSpec.
Open Scope string_scope. Open Scope list_scope. Open Scope Z_scope.

Lemma ascending_filter f l : ascending l -> ascending (List.filter f l).
Proof.
  unfold ascending. induction 1 as [|x l Hs IH Hf]; [constructor|].
  cbn [List.filter]. destruct (f x); [|exact IH]. constructor; [exact IH|].
  apply List.Forall_forall. intros y Hy. apply filter_In in Hy as [Hy _].
  rewrite List.Forall_forall in Hf. by apply Hf.
Qed.

Lemma by_position_sorted l : ascending l -> by_position l = l.
Proof.
  unfold ascending, by_position. induction 1 as [|x l Hs IH Hf]; [reflexivity|].
  cbn [foldr]. rewrite IH. destruct l as [|y l]; [reflexivity|]. cbn [place].
  assert (w_pos x < w_pos y) by (rewrite List.Forall_forall in Hf; apply Hf; by left).
  destruct (Z.leb_spec (w_pos x) (w_pos y)); [reflexivity|lia].
Qed.

Lemma ascending_app l1 l2 :
  ascending l1 -> ascending l2 ->
  (forall a b, In a l1 -> In b l2 -> w_pos a < w_pos b) -> ascending (l1 ++ l2).
Proof.
  unfold ascending. induction 1 as [|x l Hs IH Hf]; intros H2 Hc; [exact H2|].
  cbn. constructor.
  - apply IH; [exact H2|]. intros a b Ha Hb. apply Hc; [by right|done].
  - apply List.Forall_forall. intros y Hy. apply in_app_or in Hy as [Hy|Hy].
    + rewrite List.Forall_forall in Hf. by apply Hf.
    + apply Hc; [by left|done].
Qed.

(** The first rows are those up to the last of them. *)
Lemma firstn_upto n l :
  ascending l -> forall dflt,
  (forall r, In r l -> dflt < w_pos r) ->
  let upto := match last (firstn n l) with Some r => w_pos r | None => dflt end in
  (n <> 0%nat -> firstn n l = List.filter (fun r => w_pos r <=? upto) l)
  /\ firstn n l = List.filter (fun r => w_pos r <=? upto) l.
Proof.
  intros Ha dflt Hd upto.
  enough (firstn n l = List.filter (fun r => w_pos r <=? upto) l) by auto.
  revert Hd upto. revert n dflt. induction Ha as [|x l Hs IH Hf]; intros n dflt Hd upto.
  - by rewrite firstn_nil.
  - destruct n as [|n].
    + cbn in upto. subst upto. cbn [firstn].
      assert (G : forall l' : list row, (forall r, In r l' -> dflt < w_pos r) ->
        List.filter (fun r => w_pos r <=? dflt) l' = []).
      { induction l' as [|y l' IHl]; intros Hl; [reflexivity|]. cbn [List.filter].
        destruct (Z.leb_spec (w_pos y) dflt) as [Hy|Hy].
        - specialize (Hl y ltac:(by left)). lia.
        - apply IHl. intros r Hr. apply Hl. by right. }
      symmetry. apply G. exact Hd.
    + cbn [firstn] in upto |- *.
      specialize (IH n (w_pos x)). cbn zeta in IH.
      rewrite List.Forall_forall in Hf. specialize (IH Hf).
      assert (E : upto = match last (firstn n l) with Some r => w_pos r | None => w_pos x end).
      { subst upto. destruct (firstn n l) as [|y l']; [reflexivity|].
        rewrite last_cons. destruct (last (y :: l')) eqn:E; [reflexivity|].
        apply last_None in E. discriminate. }
      rewrite <- E in IH. cbn [List.filter].
      assert (Hx : w_pos x <= upto).
      { rewrite E. destruct (last (firstn n l)) as [r|] eqn:El; [|lia].
        apply last_Some_elem_of in El. apply elem_of_list_In in El.
        assert (In r l). { rewrite <- (firstn_skipn n l). apply in_or_app. by left. }
        specialize (Hf r H). lia. }
      destruct (Z.leb_spec (w_pos x) upto); [|lia]. f_equal. exact IH.
Qed.

Lemma filter_ext_in' (f g : row -> bool) l :
  (forall r, In r l -> f r = g r) -> List.filter f l = List.filter g l.
Proof. apply List.filter_ext_in. Qed.

Lemma filter_filter (f g : row -> bool) l :
  List.filter f (List.filter g l) = List.filter (fun r => f r && g r) l.
Proof.
  induction l as [|x l IH]; [reflexivity|]. cbn [List.filter].
  destruct (g x); cbn [List.filter]; [destruct (f x)|rewrite andb_false_r]; cbn; by rewrite ?IH.
Qed.

Lemma filter_none (f : row -> bool) l : (forall r, In r l -> f r = false) -> List.filter f l = [].
Proof.
  induction l as [|x l IH]; intros H; [reflexivity|]. cbn [List.filter].
  rewrite H by (by left). apply IH. intros r Hr. apply H. by right.
Qed.

(** Numbering. *)
Lemma number_spec u d gap ms : forall i seq,
  let '(rows, seq') := number u d gap i seq ms in
  ascending rows /\ (forall r, In r rows -> seq < w_pos r <= seq')
  /\ seq <= seq'
  /\ map w_msg rows = ms
  /\ (forall r, In r rows -> w_user r = u /\ w_dev r = d /\ w_key r = key_of (w_msg r)
                             /\ w_act r = act_of (w_msg r)).
Proof.
  induction ms as [|m ms IH]; intros i seq; cbn [number].
  - repeat split; try done; try lia; constructor.
  - specialize (IH (S i) (seq + Z.of_nat (gap i) + 1)).
    destruct (number u d gap (S i) (seq + Z.of_nat (gap i) + 1) ms) as [rows seq'].
    destruct IH as (H1 & H2 & H3 & H4 & H5). split; [|split; [|split; [|split]]].
    + constructor; [exact H1|]. apply List.Forall_forall. intros r Hr. cbn.
      specialize (H2 r Hr). lia.
    + intros r [<-|Hr]; [cbn; lia|]. specialize (H2 r Hr). lia.
    + lia.
    + cbn. by rewrite H4.
    + intros r [<-|Hr]; [done|by apply H5].
Qed.

(** The table is well formed. *)
Definition wf (s : tdb) : Prop :=
  ascending (d_rows s) /\ 0 <= d_seq s
  /\ (forall r, In r (d_rows s) -> 0 < w_pos r <= d_seq s /\ w_key r = key_of (w_msg r)
                                 /\ w_act r = act_of (w_msg r)).

Lemma wf_filter s f a : wf s -> wf (mk_tdb (List.filter f (d_rows s)) a (d_seq s)).
Proof.
  intros (H1 & H2 & H3). split; [by apply ascending_filter|]. split; [exact H2|].
  intros r Hr. apply filter_In in Hr as [Hr _]. by apply H3.
Qed.

(** What an insertion does to the rows. *)
Lemma insert_shape s u d msgs gap ok :
  let s' := InsertMessages s u d msgs gap ok in
  let unack := default 0 (d_ack s !! (u, d)) in
  let cancels := keys_with Cancel msgs in
  let hit := omap w_key (List.filter (is_cancelled cancels u d unack) (d_rows s)) in
  (ok = false /\ d_rows s' = d_rows s /\ d_seq s <= d_seq s' /\ d_ack s' = d_ack s)
  \/ (ok = true /\ d_ack s' = d_ack s /\ exists rows,
      d_rows s' = List.filter (fun r => negb (is_cancelled cancels u d unack r)) (d_rows s) ++ rows
      /\ ascending rows /\ (forall r, In r rows -> d_seq s < w_pos r <= d_seq s')
      /\ d_seq s <= d_seq s'
      /\ map w_msg rows =
         List.filter (fun m => negb (left_out hit (keys_with Request msgs) cancels m)) msgs
      /\ (forall r, In r rows -> w_user r = u /\ w_dev r = d /\ w_key r = key_of (w_msg r)
                             /\ w_act r = act_of (w_msg r))).
Proof.
  cbn zeta. unfold InsertMessages. destruct ok; cbn [negb].
  - right. split; [reflexivity|].
    set (cancels := keys_with Cancel msgs). set (unack := default 0 _).
    case_bool_decide as Hc.
    + assert (Hmem : forall k, mem_key k cancels = false).
      { intros [k|]; [|reflexivity]. cbn. rewrite Hc. apply bool_decide_eq_false.
        apply not_elem_of_nil. }
      assert (E1 : List.filter (fun r => negb (is_cancelled cancels u d unack r)) (d_rows s) = d_rows s).
      { assert (G : forall l : list row, List.filter (fun r => negb (is_cancelled cancels u d unack r)) l = l);
          [|apply G].
        induction l as [|x l IH]; [reflexivity|]. cbn [List.filter].
        unfold is_cancelled at 1. rewrite Hmem. cbn. by rewrite IH. }
      assert (E2 : List.filter (is_cancelled cancels u d unack) (d_rows s) = []).
      { apply filter_none. intros r _. unfold is_cancelled. by rewrite Hmem. }
      rewrite E1, E2. cbn [omap list_omap].
      assert (E3 : List.filter (fun m => negb (left_out [] (keys_with Request msgs) cancels m)) msgs = msgs).
      { generalize (keys_with Request msgs). revert Hmem. generalize cancels. clear.
        intros cancels Hmem reqs.
        induction msgs as [|x l IH]; [reflexivity|]. cbn [List.filter].
        unfold left_out at 1. rewrite Hmem, andb_false_r, orb_false_r.
        assert (E : mem_key (key_of x) [] = false).
        { destruct (key_of x); [|reflexivity]. cbn. apply bool_decide_eq_false, not_elem_of_nil. }
        rewrite E. cbn. by rewrite IH. }
      rewrite E3.
      pose proof (number_spec u d gap msgs 0 (d_seq s)) as Hn.
      destruct (number u d gap 0 (d_seq s) msgs) as [rows seq'].
      cbn [d_ack d_rows d_seq]. split; [reflexivity|]. exists rows.
      destruct Hn as (H1 & H2 & H3 & H4 & H5). auto 10.
    + set (hit := omap _ _). set (new := List.filter _ msgs).
      pose proof (number_spec u d gap new 0 (d_seq s)) as Hn.
      destruct (number u d gap 0 (d_seq s) new) as [rows seq'].
      cbn [d_ack d_rows d_seq]. split; [reflexivity|]. exists rows.
      destruct Hn as (H1 & H2 & H3 & H4 & H5). auto 10.
  - left. cbn. repeat split; lia.
Qed.

Lemma insert_wf s u d msgs gap ok : wf s -> wf (InsertMessages s u d msgs gap ok).
Proof.
  intros (H1 & H2 & H3).
  destruct (insert_shape s u d msgs gap ok) as [(-> & Er & Hs & _)|(-> & _ & rows & Er & Ha & Hp & Hs & _ & Hk)].
  - unfold wf. rewrite Er. split; [exact H1|]. split; [lia|].
    intros r Hr. specialize (H3 r Hr). intuition lia.
  - unfold wf. rewrite Er. split; [|split; [lia|]].
    + apply ascending_app; [by apply ascending_filter|exact Ha|].
      intros a b Hx Hy. apply filter_In in Hx as [Hx _].
      specialize (H3 a Hx). specialize (Hp b Hy). lia.
    + intros r Hr. apply in_app_or in Hr as [Hr|Hr].
      * apply filter_In in Hr as [Hr _]. specialize (H3 r Hr). intuition lia.
      * specialize (Hp r Hr). destruct (Hk r Hr) as (_ & _ & ? & ?). repeat split; auto; lia.
Qed.

(** Shape of a sync: first the acknowledged rows go, then rows are read. *)
Lemma process_shape s mem u d since limit w :
  let since' := match mem !! d with None => None | Some _ => since end in
  let from := default 0 since' in
  let '(s', mem', resp) := ProcessInitial s mem u d since limit w in
  exists del : bool,
    d_rows s' = List.filter (fun r => negb (del && bool_decide (w_user r = u)
                               && bool_decide (w_dev r = d) && (w_pos r <=? from))) (d_rows s)
    /\ d_seq s' = d_seq s
    /\ (del = true -> exists f, since' = Some f)
    /\ (forall k, k <> (u, d) -> d_ack s' !! k = d_ack s !! k)
    /\ match resp with
       | None => mem' = mem /\ d_ack s' = d_ack s
       | Some (next, msgs) =>
           mem' = <[d := next]> mem /\ d_ack s' !! (u, d) = Some next
           /\ exists n : nat,
             msgs = firstn n (by_position (List.filter (fun r => bool_decide (w_user r = u)
                       && bool_decide (w_dev r = d) && (from <? w_pos r)) (d_rows s')))
             /\ next = (match last msgs with Some r => w_pos r | None => from end)
             /\ n = Z.to_nat (if limit =? 0 then 100 else limit)
             /\ 0 <= limit
       end.
Proof.
  cbn zeta. unfold ProcessInitial.
  set (since' := match mem !! d with Some _ => since | None => None end).
  set (from := default 0 since').
  set (s1 := match since' with Some f => if ok_delete w then DeleteUpTo s u d f else s | None => s end).
  set (del := match since' with Some f => ok_delete w | None => false end).
  assert (E1 : d_rows s1 = List.filter (fun r => negb (del && bool_decide (w_user r = u)
      && bool_decide (w_dev r = d) && (w_pos r <=? from))) (d_rows s)).
  { subst s1 del from. destruct since' as [f|]; [destruct (ok_delete w)|]; cbn [default from_option id].
    - reflexivity.
    - assert (G : forall l : list row, l = List.filter (fun _ => true) l)
        by (induction l as [|x l IH]; [reflexivity|cbn; by rewrite <- IH]).
      rewrite (G (d_rows s)) at 1. apply filter_ext_in'. done.
    - assert (G : forall l : list row, l = List.filter (fun _ => true) l)
        by (induction l as [|x l IH]; [reflexivity|cbn; by rewrite <- IH]).
      rewrite (G (d_rows s)) at 1. apply filter_ext_in'. done. }
  assert (E2 : d_seq s1 = d_seq s) by (subst s1; destruct since'; [destruct (ok_delete w)|]; reflexivity).
  assert (E3 : d_ack s1 = d_ack s) by (subst s1; destruct since'; [destruct (ok_delete w)|]; reflexivity).
  assert (E4 : del = true -> exists f, since' = Some f) by (subst del; destruct since'; [eauto|discriminate]).
  clearbody s1 del.
  destruct (ok_read w); cbn [negb]; [|exists del; repeat split; auto; intros; by rewrite E3].
  unfold Messages. set (lim := if limit =? 0 then 100 else limit).
  destruct (Z.ltb_spec lim 0) as [Hl|Hl]; [exists del; repeat split; auto; intros; by rewrite E3|].
  destruct (ok_ack w); cbn [negb]; [|exists del; repeat split; auto; intros; by rewrite E3].
  exists del. cbn [SetUnacked d_rows d_seq d_ack].
  split; [exact E1|]. split; [exact E2|]. split; [exact E4|]. split.
  { intros k Hk. by rewrite lookup_insert_ne, E3. }
  split; [reflexivity|]. split; [by rewrite lookup_insert|].
  exists (Z.to_nat lim). split; [reflexivity|]. split; [reflexivity|]. split; [reflexivity|].
  subst lim. destruct (Z.eqb_spec limit 0); lia.
Qed.

Lemma process_wf s mem u d since limit w :
  wf s -> wf (ProcessInitial s mem u d since limit w).1.1.
Proof.
  intros H. pose proof (process_shape s mem u d since limit w) as P. cbn zeta in P.
  destruct (ProcessInitial s mem u d since limit w) as [[s' mem'] resp].
  destruct P as (del & Er & Es & _). cbn. destruct H as (H1 & H2 & H3).
  unfold wf. rewrite Er, Es. split; [by apply ascending_filter|]. split; [exact H2|].
  intros r Hr. apply filter_In in Hr as [Hr _]. by apply H3.
Qed.

Section client.
  Context (u d : string).

  Definition mine (r : row) : bool := bool_decide (w_user r = u) && bool_decide (w_dev r = d).
  Lemma mine_spec r : mine r = true <-> w_user r = u /\ w_dev r = d.
  Proof using. unfold mine. rewrite andb_true_iff, !bool_decide_eq_true. done. Qed.

  (** The log: plain rows ever stored for this client. *)
  Definition inv (v : world) (log : list row) (msgs : list msg) : Prop :=
    wf (v_db v) /\ 0 <= default 0 (v_since v) <= d_seq (v_db v)
    /\ ascending log /\ map w_msg log = msgs
    /\ (forall r, In r log -> mine r = true /\ plain (w_msg r) = true /\ w_pos r <= d_seq (v_db v))
    /\ (forall r, In r (d_rows (v_db v)) -> mine r = true -> plain (w_msg r) = true -> In r log)
    /\ (forall r, In r log -> In r (v_got v) \/
          (In r (d_rows (v_db v)) /\ default 0 (v_since v) < w_pos r)).

  Lemma plain_no_key m : plain m = true -> key_of m = None.
  Proof using.
    unfold plain, key_of. intros H%negb_true_iff. by rewrite H.
  Qed.

  Lemma plain_not_cancelled s r ks u' d' n :
    wf s -> In r (d_rows s) -> plain (w_msg r) = true -> is_cancelled ks u' d' n r = false.
  Proof using.
    intros (_ & _ & H) Hr Hp. destruct (H r Hr) as (_ & Hk & _).
    unfold is_cancelled. rewrite Hk, (plain_no_key _ Hp). reflexivity.
  Qed.

  Lemma plain_filter_left_out hit reqs cancels ms :
    List.filter plain (List.filter (fun m => negb (left_out hit reqs cancels m)) ms)
    = List.filter plain ms.
  Proof using.
    induction ms as [|m ms IH]; [reflexivity|]. cbn [List.filter].
    destruct (plain m) eqn:E.
    - unfold left_out at 1. rewrite (plain_no_key _ E). cbn. rewrite E. by rewrite IH.
    - destruct (negb _); cbn [List.filter]; rewrite ?E; exact IH.
  Qed.

  Lemma map_filter_plain rows :
    map w_msg (List.filter (fun r => plain (w_msg r)) rows) = List.filter plain (map w_msg rows).
  Proof using.
    induction rows as [|r l IH]; [reflexivity|]. cbn. destruct (plain (w_msg r)); cbn; by rewrite IH.
  Qed.

  (** What arrives is added to the log. *)
  Definition arrives (h : happening) : list msg :=
    match h with
    | Arrive u' d' msgs _ true =>
        if decide (u' = u /\ d' = d) then List.filter plain msgs else []
    | _ => [] end.

  Lemma arrive_inv v log ms u' d' msgs gap ok :
    inv v log ms ->
    exists new,
      inv (step u d v (Arrive u' d' msgs gap ok)) (log ++ new)
          (ms ++ arrives (Arrive u' d' msgs gap ok))
      /\ (forall r, In r new -> d_seq (v_db v) < w_pos r)
      /\ (forall r, In r new -> In r (d_rows (v_db (step u d v (Arrive u' d' msgs gap ok)))))
      /\ (forall r, In r (d_rows (v_db v)) -> mine r = true -> plain (w_msg r) = true ->
            In r (d_rows (v_db (step u d v (Arrive u' d' msgs gap ok))))).
  Proof using.
    intros (Hw & Hsi & Ha & Hm & Hl & Hr & Hg). cbn [step v_db].
    pose proof (insert_wf (v_db v) u' d' msgs gap ok Hw) as Hw'.
    pose proof (insert_shape (v_db v) u' d' msgs gap ok) as Hsh. cbn zeta in Hsh.
    set (s' := InsertMessages (v_db v) u' d' msgs gap ok) in *. clearbody s'.
    destruct Hsh as [(-> & Er & Hs & _)|(-> & _ & rows & Er & Has & Hp & Hs & Hmm & Hk)].
    - exists []. rewrite app_nil_r. cbn [arrives]. rewrite app_nil_r.
      split; [|split; [done|split; [done|]]].
      + split; [exact Hw'|]. split; [cbn; lia|]. split; [exact Ha|]. split; [exact Hm|]. cbn. rewrite Er.
        split; [|split; [exact Hr|exact Hg]].
        intros r Hi. destruct (Hl r Hi) as (? & ? & ?). repeat split; auto. lia.
      + intros r Hi _ _. by rewrite Er.
    - cbn [arrives]. set (new := if decide (u' = u /\ d' = d)
        then List.filter (fun r => plain (w_msg r)) rows else []).
      assert (Hkeep : forall r, In r (d_rows (v_db v)) -> plain (w_msg r) = true -> In r (d_rows s')).
      { intros r Hi Hpl. rewrite Er. apply in_or_app. left. apply filter_In. split; [exact Hi|].
        by rewrite (plain_not_cancelled (v_db v)). }
      assert (Hnew : forall r, In r new -> In r rows /\ plain (w_msg r) = true /\ u' = u /\ d' = d).
      { intros r Hi. unfold new in Hi. destruct (decide _) as [[-> ->]|]; [|done].
        apply filter_In in Hi as [? ?]. auto. }
      exists new. split; [|split; [|split]].
      + split; [exact Hw'|]. split; [cbn; lia|]. split; [|split; [|split; [|split]]].
        * apply ascending_app; [exact Ha| |].
          -- unfold new. destruct (decide _); [by apply ascending_filter|constructor].
          -- intros a b Hx Hy. destruct (Hl a Hx) as (_ & _ & ?).
             destruct (Hnew b Hy) as (Hb & _). specialize (Hp b Hb). lia.
        * rewrite map_app, Hm. f_equal. unfold new. destruct (decide _); [|reflexivity].
          rewrite map_filter_plain, Hmm. apply plain_filter_left_out.
        * cbn. intros r Hi. apply in_app_or in Hi as [Hi|Hi].
          -- destruct (Hl r Hi) as (? & ? & ?). repeat split; auto. lia.
          -- destruct (Hnew r Hi) as (Hi' & Hpl & -> & ->). specialize (Hp r Hi').
             destruct (Hk r Hi') as (? & ? & _). repeat split; auto; [|lia]. by apply mine_spec.
        * cbn. intros r Hi Hmi Hpl. rewrite Er in Hi. apply in_or_app.
          apply in_app_or in Hi as [Hi|Hi].
          -- apply filter_In in Hi as [Hi _]. left. by apply Hr.
          -- right. destruct (Hk r Hi) as (E1 & E2 & _). apply mine_spec in Hmi as [M1 M2].
             unfold new. rewrite decide_True by (split; congruence).
             apply filter_In. done.
        * cbn. intros r Hi. apply in_app_or in Hi as [Hi|Hi].
          -- destruct (Hg r Hi) as [?|[Hi' ?]]; [by left|right]. split; [|done].
             apply Hkeep; [done|]. by apply Hl.
          -- right. destruct (Hnew r Hi) as (Hi' & _). split.
             ++ rewrite Er. apply in_or_app. by right.
             ++ specialize (Hp r Hi'). lia.
      + intros r Hi. destruct (Hnew r Hi) as (Hi' & _). specialize (Hp r Hi'). lia.
      + intros r Hi. destruct (Hnew r Hi) as (Hi' & _). rewrite Er. apply in_or_app. by right.
      + intros r Hi _ Hpl. by apply Hkeep.
  Qed.

  (** A sync of another device. *)
  Lemma other_inv v log ms u' d' since limit w :
    (u', d') <> (u, d) -> inv v log ms ->
    inv (step u d v (OtherSync u' d' since limit w)) log ms
    /\ (forall r, mine r = true ->
          (In r (d_rows (v_db (step u d v (OtherSync u' d' since limit w)))) <-> In r (d_rows (v_db v)))).
  Proof using.
    intros Hne (Hw & Hsi & Ha & Hm & Hl & Hr & Hg). cbn [step].
    pose proof (process_shape (v_db v) (v_mem v) u' d' since limit w) as P. cbn zeta in P.
    pose proof (process_wf (v_db v) (v_mem v) u' d' since limit w Hw) as Hw'.
    destruct (ProcessInitial (v_db v) (v_mem v) u' d' since limit w) as [[s' mem'] resp].
    destruct P as (del & Er & Es & _). cbn [fst] in Hw'. unfold inv. cbn [v_db v_since v_got].
    assert (Hin : forall r, mine r = true -> (In r (d_rows s') <-> In r (d_rows (v_db v)))).
    { intros r [M1 M2]%mine_spec. rewrite Er, filter_In. split; [tauto|]. intros Hi.
      split; [exact Hi|]. apply negb_true_iff. rewrite M1, M2.
      destruct (decide (u = u')) as [->|Hu].
      - rewrite (bool_decide_false (d = d')) by (intros ->; by apply Hne).
        by rewrite andb_false_r.
      - rewrite (bool_decide_false (u = u')) by done. by rewrite andb_false_r. }
    split; [|exact Hin].
    split; [exact Hw'|]. rewrite Es. split; [exact Hsi|]. split; [exact Ha|]. split; [exact Hm|].
    split; [exact Hl|]. split.
    - intros r Hi Hmi Hpl. apply Hr; auto. by apply Hin.
    - intros r Hi. destruct (Hg r Hi) as [?|[? ?]]; [by left|right]. split; [|done].
      apply Hin; [|done]. by apply Hl.
  Qed.

  (** What a sync of this client returns. *)
  Lemma ask_reads s mem since limit w s' mem' next msgs :
    wf s -> 0 <= default 0 since ->
    ProcessInitial s mem u d since limit w = (s', mem', Some (next, msgs)) ->
    let from := default 0 (match mem !! d with None => None | Some _ => since end) in
    (forall r, In r msgs <-> In r (d_rows s) /\ mine r = true /\ from < w_pos r <= next)
    /\ ascending msgs /\ from <= next
    /\ msgs = List.filter (fun r => mine r && (from <? w_pos r) && (w_pos r <=? next)) (d_rows s)
    /\ (next <= d_seq s \/ next = from).
  Proof using.
    intros Hw Hs0 E from. pose proof (process_shape s mem u d since limit w) as P. cbn zeta in P.
    rewrite E in P. fold from in P.
    destruct P as (del & Er & Es & Hdel & _ & _ & _ & n & Em & En & _).
    assert (Hf : List.filter (fun r => bool_decide (w_user r = u)
                       && bool_decide (w_dev r = d) && (from <? w_pos r)) (d_rows s')
      = List.filter (fun r => mine r && (from <? w_pos r)) (d_rows s)).
    { rewrite Er, filter_filter. apply filter_ext_in'. intros r _. unfold mine.
      destruct (bool_decide (w_user r = u)), (bool_decide (w_dev r = d)); cbn;
        rewrite ?andb_false_r; try reflexivity.
      destruct del; cbn; [|by rewrite andb_true_r].
      destruct (Z.ltb_spec from (w_pos r)), (Z.leb_spec (w_pos r) from); cbn; lia || reflexivity. }
    rewrite Hf in Em. clear Hf.
    assert (Hasc : ascending (List.filter (fun r => mine r && (from <? w_pos r)) (d_rows s)))
      by (apply ascending_filter, Hw).
    rewrite by_position_sorted in Em by exact Hasc.
    assert (Hfrom : forall r, In r (List.filter (fun r => mine r && (from <? w_pos r)) (d_rows s)) ->
      from < w_pos r).
    { intros r Hi. apply filter_In in Hi as [_ Hi]. apply andb_true_iff in Hi as [_ Hi]. lia. }
    destruct (firstn_upto n _ Hasc from Hfrom) as [_ Hff]. cbn zeta in Hff.
    rewrite <- Em in Hff. rewrite <- En in Hff.
    assert (Hmsgs : msgs = List.filter (fun r => mine r && (from <? w_pos r) && (w_pos r <=? next)) (d_rows s)).
    { rewrite Hff, filter_filter. apply filter_ext_in'. intros r _. apply andb_comm. }
    split; [|split; [|split; [|split]]].
    - intros r. rewrite Hmsgs, filter_In, !andb_true_iff, Z.ltb_lt, Z.leb_le. tauto.
    - rewrite Hmsgs. apply ascending_filter, Hw.
    - rewrite En. destruct (last msgs) as [r|] eqn:El; [|lia].
      apply last_Some_elem_of, elem_of_list_In in El. rewrite Hmsgs in El.
      apply filter_In in El as [_ El]. rewrite !andb_true_iff in El. lia.
    - exact Hmsgs.
    - rewrite En. destruct (last msgs) as [r|] eqn:El; [left|by right].
      apply last_Some_elem_of, elem_of_list_In in El. rewrite Hmsgs in El.
      apply filter_In in El as [El _]. destruct Hw as (_ & _ & H3). by apply H3.
  Qed.

  (** A sync deletes only what was acknowledged. *)
  Lemma ask_deletes s mem since limit w s' mem' resp :
    ProcessInitial s mem u d since limit w = (s', mem', resp) ->
    d_seq s' = d_seq s
    /\ (forall r, In r (d_rows s') -> In r (d_rows s))
    /\ (forall r, In r (d_rows s) -> default 0 since < w_pos r -> In r (d_rows s'))
    /\ (forall r, In r (d_rows s) -> mine r = false -> In r (d_rows s')).
  Proof using.
    intros E. pose proof (process_shape s mem u d since limit w) as P. cbn zeta in P.
    rewrite E in P. destruct P as (del & Er & Es & Hdel & _). rewrite Er. split; [exact Es|].
    split; [|split].
    - intros r Hi. by apply filter_In in Hi as [? _].
    - intros r Hi Hlt. apply filter_In. split; [exact Hi|]. apply negb_true_iff.
      destruct del; [|reflexivity]. destruct (Hdel eq_refl) as [f Hf].
      destruct (mem !! d); [|done]. subst since. cbn [default from_option id] in *.
      destruct (Z.leb_spec (w_pos r) f); [lia|]. by rewrite !andb_false_r.
    - intros r Hi Hmi. apply filter_In. split; [exact Hi|]. apply negb_true_iff.
      unfold mine in Hmi. rewrite <- andb_assoc, <- andb_assoc.
      rewrite (andb_assoc (bool_decide (w_user r = u))), Hmi. by rewrite andb_false_r.
  Qed.

  Lemma ask_inv v log ms limit w received :
    inv v log ms -> inv (step u d v (Ask limit w received)) log ms.
  Proof using.
    intros (Hw & Hsi & Ha & Hm & Hl & Hr & Hg). cbn [step].
    pose proof (process_wf (v_db v) (v_mem v) u d (v_since v) limit w Hw) as Hw'.
    destruct (ProcessInitial (v_db v) (v_mem v) u d (v_since v) limit w) as [[s' mem'] resp] eqn:E.
    cbn [fst] in Hw'. destruct (ask_deletes _ _ _ _ _ _ _ _ E) as (Es & Hsub & Hkeep & _).
    assert (Hlost : inv (mk_world s' mem' (v_since v) (v_got v)) log ms).
    { unfold inv. cbn [v_db v_since v_got]. rewrite Es. repeat (split; [assumption|]).
      split; [intros r Hi; by apply Hr, Hsub|].
      intros r Hi. destruct (Hg r Hi) as [?|[Hi' Hlt]]; [by left|right].
      split; [by apply Hkeep|exact Hlt]. }
    destruct resp as [[next msgs]|]; [|exact Hlost]. destruct received; [|exact Hlost].
    destruct (ask_reads _ _ _ _ _ _ _ _ _ Hw (proj1 Hsi) E) as (Hin & _ & Hn0 & _ & Hn).
    set (from := default 0 (match v_mem v !! d with None => None | Some _ => v_since v end)) in *.
    assert (Hfrom : from = 0 \/ from = default 0 (v_since v)).
    { subst from. destruct (v_mem v !! d); [by right|by left]. }
    unfold inv. cbn [v_db v_since v_got]. rewrite Es. cbn [default from_option id].
    destruct Hw as (Hw1 & Hw2 & Hw3).
    split; [exact Hw'|]. split; [lia|]. repeat (split; [assumption|]).
    split; [intros r Hi; by apply Hr, Hsub|].
    intros r Hi. destruct (Hg r Hi) as [?|[Hi' Hlt]]; [left; apply in_or_app; by left|].
    destruct (Z.le_gt_cases (w_pos r) next) as [Hle|Hgt].
    - left. apply in_or_app. right. apply Hin. split; [exact Hi'|]. split; [by apply Hl|].
      split; [|exact Hle]. specialize (Hw3 r Hi'). lia.
    - right. split; [by apply Hkeep|lia].
  Qed.

  Lemma run_inv hs :
    Forall (other u d) hs -> exists log, inv (run u d hs) log (arrived u d hs).
  Proof using.
    unfold run. induction hs as [|h hs IH] using rev_ind; intros Ho.
    - exists []. cbn. unfold inv, wf. cbn. repeat split; try done; try lia; constructor.
    - apply Forall_app in Ho as [Ho Hh]. apply Forall_cons in Hh as [Hh _].
      destruct (IH Ho) as [log Hi]. rewrite fold_left_app. cbn [fold_left].
      assert (Harr : arrived u d (hs ++ [h]) = arrived u d hs ++ arrives h).
      { unfold arrived. rewrite map_app, concat_app. cbn [map concat]. rewrite app_nil_r.
        reflexivity. }
      rewrite Harr. destruct h as [u' d' msgs gap ok|u' d' since limit w| |limit w received].
      + destruct (arrive_inv _ _ _ u' d' msgs gap ok Hi) as (new & H & _). eauto.
      + exists log. cbn [arrives]. rewrite app_nil_r. by apply other_inv.
      + exists log. cbn [arrives]. rewrite app_nil_r. exact Hi.
      + exists log. cbn [arrives]. rewrite app_nil_r. by apply ask_inv.
  Qed.
End client.
