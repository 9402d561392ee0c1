(** C87: a client that stops reading costs other clients nothing. *)
From Verif Require Import Prelude SlowModel SlowSpec.
Open Scope string_scope. Open Scope list_scope. Open Scope nat_scope.

(** ** What a connection gets *)
Lemma emit_reads size id to : forall cs k c, cs !! k = Some c -> n_reads c = true -> n_full c = false ->
  exists c', (emit size cs id to).1 !! k = Some c' /\ n_reads c' = true /\ n_full c' = false /\
    n_got c' = n_got c ++ map (fun _ => id) (List.filter (fun k' => bool_decide (k' = k)) to).
Proof.
  induction to as [|k0 to IH]; intros cs k c Hc Hr Hf; cbn [emit List.filter map].
  - exists c. by rewrite app_nil_r.
  - destruct (decide (k0 = k)) as [-> | Hne].
    + rewrite bool_decide_eq_true_2 by done. rewrite Hc. unfold onUpdate. rewrite Hf, Hr.
      destruct (emit size (<[ k := mk_conn true (n_fill c) false (n_got c ++ [id]) ]> cs) id to) as [cs' t] eqn:E.
      destruct (IH (<[ k := mk_conn true (n_fill c) false (n_got c ++ [id]) ]> cs) k (mk_conn true (n_fill c) false (n_got c ++ [id]))) as (c' & H1 & H2 & H3 & H4);
        [by rewrite lookup_insert|done|done|]. rewrite E in H1. exists c'. cbn [fst n_got] in *. split; [done|]. split; [done|]. split; [done|].
      rewrite H4. cbn [map]. by rewrite <- app_assoc.
    + rewrite bool_decide_eq_false_2 by done. destruct (cs !! k0) as [c0|] eqn:E0; [|by apply IH].
      destruct (onUpdate size c0 id) as [c1 t1]. destruct (emit size (<[ k0 := c1 ]> cs) id to) as [cs' t] eqn:E. cbn [fst].
      destruct (IH (<[ k0 := c1 ]> cs) k c) as (c' & H1 & H2); [by rewrite lookup_insert_ne|done|done|]. rewrite E in H1. eauto.
Qed.

(** ** How long it takes *)
Lemma silents_insert cs k c c' : cs !! k = Some c ->
  silents (<[ k := c' ]> cs) + (if decide (is_silent (k, c)) then 1 else 0) = silents cs + (if decide (is_silent (k, c')) then 1 else 0).
Proof.
  intros Hc. unfold silents. rewrite <- (insert_id cs k c Hc) at 2. rewrite <- (insert_delete_insert cs k c'), <- (insert_delete_insert cs k c).
  assert (Hd : delete k cs !! k = None) by apply lookup_delete.
  assert (Hf : filter is_silent (delete k cs) !! k = None) by (apply map_filter_lookup_None; by left).
  destruct (decide (is_silent (k, c'))) as [H' | H'], (decide (is_silent (k, c))) as [H | H].
  all: repeat first [rewrite map_filter_insert_True by assumption | rewrite map_filter_insert_False by assumption].
  all: rewrite ?delete_idemp, ?map_size_insert_None by assumption; lia.
Qed.

Lemma emit_time sz id to : forall cs, (emit sz cs id to).2 + BufferWaitTime * silents (emit sz cs id to).1 = BufferWaitTime * silents cs.
Proof.
  induction to as [|k to IH]; intros cs; cbn [emit]; [done|].
  destruct (cs !! k) as [c|] eqn:E; [|apply IH].
  destruct (onUpdate sz c id) as [c' t] eqn:Eu. destruct (emit sz (<[ k := c' ]> cs) id to) as [cs' t'] eqn:Ee. cbn [fst snd].
  specialize (IH (<[ k := c' ]> cs)). rewrite Ee in IH. cbn [fst snd] in IH. pose proof (silents_insert cs k c c' E) as Hs.
  enough (t + BufferWaitTime * silents (<[ k := c' ]> cs) = BufferWaitTime * silents cs) by lia.
  unfold onUpdate in Eu. destruct (n_full c) eqn:Ef.
  { injection Eu as <- <-. by rewrite insert_id. }
  destruct (n_reads c) eqn:Er.
  { injection Eu as <- <-. rewrite (decide_False (P := is_silent (k, c))), (decide_False (P := is_silent (k, _))) in Hs; [|by intros []|intros [H _]; cbn in H; congruence]. nia. }
  assert (S0 : is_silent (k, c)) by done. rewrite (decide_True (P := is_silent (k, c))) in Hs by done.
  destruct (n_fill c <? sz).
  { injection Eu as <- <-. rewrite (decide_True (P := is_silent (k, _))) in Hs by done. nia. }
  injection Eu as <- <-. rewrite (decide_False (P := is_silent (k, _))) in Hs by (by intros [_ H]). nia.
Qed.

(** ** No notification gets lost if handling none takes longer than callers wait *)
Definition seq_inv (room returned : nat) (s : state) : Prop :=
  (forall i x y, s_taken s !! i = Some x -> s_taken s !! S i = Some y -> x <= Nat.max returned (y + 5000)) /\
  (forall i x, s_taken s !! i = Some x -> s_taken s !! S i = None -> x <= returned) /\
  (forall x, s_taken s !! room = Some x -> x <= returned) /\
  match s_taken s with [] => s_free s = 0 | x :: _ => s_free s <= x + 5000 end.

Lemma seq_inv_mono room r r' s : r <= r' -> seq_inv room r s -> seq_inv room r' s.
Proof.
  intros Hr (H1 & H2 & H3 & H4). split; [|split; [|split]]; [| | |exact H4].
  - intros i x y Hx Hy. specialize (H1 i x y Hx Hy). lia.
  - intros i x Hx Hy. specialize (H2 i x Hx Hy). lia.
  - intros x Hx. specialize (H3 x Hx). lia.
Qed.

Lemma seq_step sz room returned s now o : 0 < room -> seq_inv room returned s -> returned <= now ->
  (let '(s', r) := notify sz room s now o in r.2 = true -> s_free s' <= hd 0 (s_taken s') + 5000) ->
  (notify sz room s now o).2.2 = true /\ seq_inv room (notify sz room s now o).2.1 (notify sz room s now o).1.
Proof.
  intros Hroom (H1 & H2 & H3 & H4) Hnow Hq. unfold notify in *.
  assert (Hr : room_at room s <= now + 5000).
  { unfold room_at. destruct (s_taken s !! pred room) as [x|] eqn:E; [|lia].
    destruct (s_taken s !! room) as [y|] eqn:E'.
    - replace room with (S (pred room)) in E' by lia. specialize (H1 _ _ _ E E'). replace (S (pred room)) with room in E' by lia.
      specialize (H3 y eq_refl). lia.
    - replace room with (S (pred room)) in E' by lia. specialize (H2 _ _ E E'). lia. }
  assert (Eb : (now + NotifyWaitTime <? Nat.max now (room_at room s)) = false) by (apply Nat.ltb_ge; unfold NotifyWaitTime; lia).
  rewrite Eb in *. destruct (emit sz (s_conns s) (o_id o) (o_to o)) as [cs t] eqn:Ee. cbn [fst snd s_taken s_free hd] in *.
  split; [done|]. specialize (Hq eq_refl). split; [|split; [|split]]; cbn [s_taken s_free].
  - intros [|i] x y Hx Hy; cbn [lookup list_lookup] in Hx, Hy.
    + apply (inj Some) in Hx. subst x. destruct (s_taken s) as [|z taken]; [discriminate|]. cbn in Hy. apply (inj Some) in Hy. subst z. lia.
    + specialize (H1 i x y Hx Hy). lia.
  - intros [|i] x Hx Hy; cbn [lookup list_lookup] in Hx, Hy.
    + apply (inj Some) in Hx. subst x. destruct (s_taken s) as [|z taken]; [lia|]. discriminate Hy.
    + specialize (H2 i x Hx Hy). lia.
  - intros x Hx. replace room with (S (pred room)) in Hx by lia. cbn [lookup list_lookup] in Hx. change (s_taken s !! pred room = Some x) in Hx.
    unfold room_at. rewrite Hx. lia.
  - lia.
Qed.

Lemma seq_run sz room l : 0 < room -> forall returned s, seq_inv room returned s ->
  one_by_one returned l (run sz room s l).2 -> quick sz room s l -> none_refused (run sz room s l).2.
Proof.
  intros Hroom. induction l as [|[now o] l IH]; intros returned s Hi H1 Hq; [constructor|].
  cbn [run quick] in *. destruct Hq as [Hq1 Hq2].
  destruct (notify sz room s now o) as [s' [t ok]] eqn:En. destruct (run sz room s' l) as [s2 rs] eqn:Er. cbn [fst snd one_by_one] in *.
  destruct H1 as [Hret H1]. pose proof (seq_step sz room returned s now o Hroom Hi Hret) as Hs. rewrite En in Hs. cbn [fst snd] in Hs.
  destruct (Hs Hq1) as [Hok Hi']. apply Forall_cons. split; [done|]. specialize (IH t s' Hi'). rewrite Er in IH. by apply IH.
Qed.

(** What gets in reaches those who read. *)
Lemma reach_run sz room l : forall s k c, s_conns s !! k = Some c -> n_reads c = true -> n_full c = false ->
  none_refused (run sz room s l).2 ->
  exists c', s_conns (run sz room s l).1 !! k = Some c' /\ n_full c' = false /\ n_got c' = n_got c ++ meant_for k l.
Proof.
  induction l as [|[now o] l IH]; intros s k c Hc Hr Hf Hn; cbn [run meant_for] in *.
  - exists c. by rewrite app_nil_r.
  - destruct (notify sz room s now o) as [s' [t ok]] eqn:En. destruct (run sz room s' l) as [s2 rs] eqn:Er. cbn [fst snd] in *.
    apply Forall_cons in Hn as [Hok Hn]. cbn in Hok. subst ok. unfold notify in En.
    destruct (now + NotifyWaitTime <? Nat.max now (room_at room s)); [discriminate|].
    destruct (emit_reads sz (o_id o) (o_to o) (s_conns s) k c Hc Hr Hf) as (c1 & G1 & G2 & G3 & G4).
    destruct (emit sz (s_conns s) (o_id o) (o_to o)) as [cs w] eqn:Ee. cbn [fst] in G1. injection En as <- <-.
    match type of Er with run sz room ?s1 l = _ => destruct (IH s1 k c1) as (c' & I1 & I2 & I3); [exact G1|exact G2|exact G3|by rewrite Er|] end. rewrite Er in I1. exists c'. split; [done|]. split; [done|].
    rewrite I3, G4. by rewrite <- app_assoc.
Qed.

Theorem C87_others_partial : forall size room cs l k c,
  0 < room -> one_by_one 0 l (run size room (state0 cs) l).2 -> quick size room (state0 cs) l ->
  cs !! k = Some c -> n_reads c = true -> n_full c = false -> n_got c = [] ->
  none_refused (run size room (state0 cs) l).2 /\
  exists c', s_conns (run size room (state0 cs) l).1 !! k = Some c' /\ n_full c' = false /\ n_got c' = meant_for k l.
Proof.
  intros sz room cs l k c Hroom H1 Hq Hc Hr Hf Hg.
  assert (Hn : none_refused (run sz room (state0 cs) l).2).
  { apply (seq_run sz room l Hroom 0); [|exact H1|exact Hq]. split; [|split; [|split]]; cbn [state0 s_taken s_free]; try done.
    all: intros *; rewrite ?lookup_nil; try discriminate. }
  split; [exact Hn|]. destruct (reach_run sz room l (state0 cs) k c Hc Hr Hf Hn) as (c' & G1 & G2 & G3). exists c'. by rewrite G3, Hg.
Qed.
Print Assumptions C87_others_partial.

(** ** One connection that is not read does no harm, whoever calls when *)
Definition tot_inv (sz now N : nat) (s : state) : Prop :=
  exists W, W + 5000 * silents (s_conns s) <= N /\ s_free s <= now + W /\ Forall (fun t => t <= now + W) (s_taken s).
Lemma tot_run sz room N l : N <= 5000 -> forall now s, tot_inv sz now N s -> in_order now l -> Forall (fun x => o_work x.2 = 0) l ->
  none_refused (run sz room s l).2.
Proof.
  intros HN. induction l as [|[now' o] l IH]; intros now s Hi Ho Hw; [constructor|]. cbn [run].
  apply Forall_cons in Hw as [Hw0 Hw]. cbn [snd] in Hw0. destruct Ho as [Hle Ho].
  destruct Hi as (W & HW & Hfree & Htk).
  assert (Hr : room_at room s <= now + W).
  { unfold room_at. destruct (s_taken s !! pred room) as [t|] eqn:E; [|lia]. by apply (Forall_lookup_1 _ _ _ _ Htk E). }
  destruct (notify sz room s now' o) as [s' [t ok]] eqn:En. unfold notify in En.
  assert (Eb : (now' + NotifyWaitTime <? Nat.max now' (room_at room s)) = false) by (apply Nat.ltb_ge; unfold NotifyWaitTime; lia).
  rewrite Eb in En. pose proof (emit_time sz (o_id o) (o_to o) (s_conns s)) as Het.
  destruct (emit sz (s_conns s) (o_id o) (o_to o)) as [cs w] eqn:Ee. cbn [fst snd] in Het. injection En as <- <- <-.
  destruct (run sz room _ l) as [s2 rs] eqn:Er. cbn [snd]. apply Forall_cons. split; [done|].
  specialize (IH now' (mk_state (Nat.max (Nat.max now' (room_at room s)) (s_free s) :: s_taken s) (Nat.max (Nat.max now' (room_at room s)) (s_free s) + o_work o + w) cs)).
  rewrite Er in IH. apply IH; [|exact Ho|exact Hw]. exists (W + w). cbn [s_conns s_free s_taken]. unfold BufferWaitTime in Het.
  split; [lia|]. split; [lia|]. apply Forall_cons. split; [lia|]. apply (Forall_impl _ _ _ Htk). intros x Hx. cbn in Hx. lia.
Qed.

Theorem C87_one_silent_partial : forall size room cs l k c,
  (forall k1 k2, silent cs k1 -> silent cs k2 -> k1 = k2) ->
  in_order 0 l -> (forall now o, In (now, o) l -> o_work o = 0) ->
  cs !! k = Some c -> n_reads c = true -> n_full c = false -> n_got c = [] ->
  none_refused (run size room (state0 cs) l).2 /\
  exists c', s_conns (run size room (state0 cs) l).1 !! k = Some c' /\ n_full c' = false /\ n_got c' = meant_for k l.
Proof.
  intros sz room cs l k c Hs Ho Hw Hc Hr Hf Hg.
  assert (Hn1 : silents cs <= 1).
  { unfold silents. destruct (decide (size (filter is_silent cs) <= 1)) as [|Hgt]; [done|exfalso].
    set (m := filter is_silent cs) in *. assert (Hlen : 1 < length (map_to_list m)) by (change (size m) with (length (map_to_list m)) in Hgt; lia).
    pose proof (NoDup_fst_map_to_list m) as Hnd.
    destruct (map_to_list m) as [|[k1 c1] [|[k2 c2] rest]] eqn:E; cbn in Hlen; [lia|lia|].
    assert (M1 : m !! k1 = Some c1) by (apply elem_of_map_to_list; rewrite E; left).
    assert (M2 : m !! k2 = Some c2) by (apply elem_of_map_to_list; rewrite E; right; left).
    apply map_filter_lookup_Some in M1 as [M1 [R1 F1]]. apply map_filter_lookup_Some in M2 as [M2 [R2 F2]].
    assert (Ek : k1 = k2) by (apply Hs; [exists c1|exists c2]; done). subst k2.
    cbn [fmap list_fmap fst] in Hnd. apply NoDup_cons in Hnd as [Hnd _]. apply Hnd. left. }
  assert (Hn : none_refused (run sz room (state0 cs) l).2).
  { apply (tot_run sz room (5000 * silents cs) l ltac:(lia) 0); [|exact Ho|].
    - exists 0. cbn [state0 s_conns s_free s_taken]. split; [lia|]. split; [lia|]. constructor.
    - apply List.Forall_forall. intros [now o] Hin. exact (Hw now o Hin). }
  split; [exact Hn|]. destruct (reach_run sz room l (state0 cs) k c Hc Hr Hf Hn) as (c' & G1 & G2 & G3). exists c'. by rewrite G3, Hg.
Qed.
Print Assumptions C87_one_silent_partial.

(** A connection is waited for once only: altogether, the waiting is at most 5 seconds for each
    connection that is not read. *)
Theorem C87_waits_once : forall size room cs l, waiting size room (state0 cs) l <= 5000 * silents cs.
Proof.
  intros sz room cs l. enough (G : forall s, waiting sz room s l + 5000 * silents (s_conns (run sz room s l).1) <= 5000 * silents (s_conns s)) by (specialize (G (state0 cs)); cbn [state0 s_conns] in G; lia).
  induction l as [|[now o] l IH]; intros s; cbn [waiting run fst]; [lia|].
  pose proof (emit_time sz (o_id o) (o_to o) (s_conns s)) as Het. unfold notify.
  destruct (now + NotifyWaitTime <? Nat.max now (room_at room s)) eqn:Eb.
  - cbn [fst snd]. specialize (IH s). destruct (run sz room s l) as [s2 rs]. cbn [fst] in *. lia.
  - destruct (emit sz (s_conns s) (o_id o) (o_to o)) as [cs' w]. cbn [fst snd] in *. unfold BufferWaitTime in Het.
    match goal with |- context [waiting sz room ?s' l] => specialize (IH s') end. cbn [s_conns] in IH.
    destruct (run sz room _ l) as [s2 rs]. cbn [fst] in *. lia.
Qed.
Print Assumptions C87_waits_once.

(** ** What goes wrong *)
Definition reader : conn := mk_conn true 0 false [].
Definition sleeper (n : nat) : conn := mk_conn false n false [].
Definition everyone : list string := ["a"; "b"; "c"].
Definition says (n : nat) (to : list string) : nat * note := (0, mk_note n 0 to).
Definition two_asleep : gmap string conn := <[ "a" := sleeper 2000 ]> (<[ "b" := sleeper 2000 ]> {[ "c" := reader ]}).
Definition one_asleep : gmap string conn := <[ "a" := sleeper 1999 ]> (<[ "b" := reader ]> {[ "c" := reader ]}).

(** One connection that is not read, whose buffer gets full: the others get everything. *)
Definition busy : list (nat * note) := map (fun n => says n everyone) (seq 0 120).
Example C87_example :
  let r := run 2000 50 (state0 one_asleep) busy in
  none_refused r.2 /\ s_free r.1 = 5000 /\ option_map n_full (s_conns r.1 !! "a") = Some true /\
  option_map n_got (s_conns r.1 !! "c") = Some (seq 0 120).
Proof.
  cbn zeta. split; [|split; [|split]]; [|vm_compute; reflexivity|vm_compute; reflexivity|vm_compute; reflexivity].
  refine (proj1 (C87_one_silent_partial 2000 50 one_asleep busy "c" reader _ _ _ eq_refl eq_refl eq_refl eq_refl)).
  - assert (H : forall k, silent one_asleep k -> k = "a").
    { intros k (c & Hc & Hr & _). unfold one_asleep in Hc. apply lookup_insert_Some in Hc as [[<- _] | [_ Hc]]; [done|].
      apply lookup_insert_Some in Hc as [[_ <-] | [_ Hc]]; [discriminate Hr|]. apply lookup_singleton_Some in Hc as [_ <-]. discriminate Hr. }
    intros k1 k2 H1 H2. by rewrite (H k1 H1), (H k2 H2).
  - vm_compute. repeat split; apply Nat.le_refl.
  - intros now o Hin. unfold busy in Hin. apply in_map_iff in Hin as (n & E & _). unfold says in E. injection E as _ <-. reflexivity.
Qed.

(** Calls that wait for each other, a channel for three, full most of the time, one of the connections not
    read, and four seconds of work for every notification: nothing is refused. *)
Definition slow_work : list (nat * note) := map (fun n => ((n - 4) * 4000, mk_note n 4000 everyone)) (seq 0 9).
Lemma quickb sz room l : forall s, (fix go s l := match l with [] => true | (now, o) :: l =>
    (let '(s', r) := notify sz room s now o in negb r.2 || (s_free s' <=? hd 0 (s_taken s') + 5000)) && go (notify sz room s now o).1 l end) s l = true -> quick sz room s l.
Proof.
  induction l as [|[now o] l IH]; intros s H; [exact I|]. apply andb_prop in H as [H1 H2]. split; [|by apply IH].
  destruct (notify sz room s now o) as [s' r]. intros Hr. rewrite Hr in H1. cbn [negb orb] in H1. by apply Nat.leb_le.
Qed.
Lemma one_by_oneb l : forall returned rs, (fix go returned l rs {struct l} := match l, rs with
    | (now, _) :: l, (t, _) :: rs => (returned <=? now) && go t l rs | _, _ => true end) returned l rs = true -> one_by_one returned l rs.
Proof.
  induction l as [|[now o] l IH]; intros returned rs H; [exact I|]. destruct rs as [|[t ok] rs]; [exact I|].
  apply andb_prop in H as [H1 H2]. split; [by apply Nat.leb_le|]. by apply IH.
Qed.
Definition one_dozing : gmap string conn := <[ "a" := sleeper 0 ]> (<[ "b" := reader ]> {[ "c" := reader ]}).
Example C87_slow_example :
  let r := run 2000 3 (state0 one_dozing) slow_work in
  none_refused r.2 /\ last r.2 = Some (20000, true) /\ option_map n_got (s_conns r.1 !! "c") = Some (seq 0 9).
Proof.
  cbn zeta. split; [|split]; [|vm_compute; reflexivity|vm_compute; reflexivity].
  refine (proj1 (C87_others_partial 2000 3 one_dozing slow_work "c" reader ltac:(lia) _ _ eq_refl eq_refl eq_refl eq_refl)).
  - apply one_by_oneb. vm_compute. reflexivity.
  - apply quickb. vm_compute. reflexivity.
Qed.

(** Two connections that are not read and get full with the same notification: their users are in
    the same rooms. The listener waits for ten seconds, the channel gets full, and the client that
    reads never gets number 51, although the calls come one after the other. *)
Definition burst (n : nat) : list (nat * note) := map (fun n => says n everyone) (seq 0 n).
Theorem C87_two_refuted :
  let r := run 2000 50 (state0 two_asleep) (burst 52) in
  one_by_one 0 (burst 52) r.2 /\ in_order 0 (burst 52) /\
  last r.2 = Some (5000, false) /\
  option_map n_got (s_conns r.1 !! "c") = Some (seq 0 51) /\ meant_for "c" (burst 52) = seq 0 52.
Proof.
  cbn zeta. split; [|split; [|split; [|split]]]; [| |vm_compute; reflexivity|vm_compute; reflexivity|vm_compute; reflexivity].
  - vm_compute. repeat split; apply Nat.le_refl.
  - vm_compute. repeat split; apply Nat.le_refl.
Qed.
Print Assumptions C87_two_refuted.

(** Calls that do not wait for each other (to-device messages, ended pollers and device data are
    not passed through the executor, poller.go:377-392): it is enough that two connections get
    full with different notifications. *)
Definition staggered : list (nat * note) :=
  says 0 ["a"; "c"] :: says 1 ["b"; "c"] :: map (fun n => says n ["c"]) (seq 2 52).
Theorem C87_staggered_refuted :
  let r := run 2000 50 (state0 two_asleep) staggered in
  in_order 0 staggered /\ quick 2000 50 (state0 two_asleep) staggered /\
  option_map n_got (s_conns r.1 !! "c") = Some (seq 0 52) /\ meant_for "c" staggered = seq 0 54.
Proof.
  cbn zeta. split; [|split; [|split]]; [| |vm_compute; reflexivity|vm_compute; reflexivity].
  - vm_compute. repeat split; apply Nat.le_refl.
  - apply quickb. vm_compute. reflexivity.
Qed.
Print Assumptions C87_staggered_refuted.
