(** Proofs about the token table. *)
From Coq Require Import Ascii.
From Verif Require Import Prelude TokModel TokSpec.
Open Scope string_scope. Open Scope list_scope. Open Scope Z_scope.

(** ** Encoding *)
Lemma hex_digit_back n : (n < 16)%nat -> from_hex (hex_digit n) = Some n.
Proof. intros H. do 16 (destruct n as [|n]; [done|]). lia. Qed.
Lemma hex_roundtrip s : hex_decode (hex_encode s) = Some s.
Proof.
  induction s as [|a s IH]; [done|]. cbn [hex_encode hex_decode].
  assert (Ha : (nat_of_ascii a < 256)%nat) by apply nat_ascii_bounded.
  rewrite !hex_digit_back, IH.
  - f_equal. f_equal. rewrite <- (ascii_nat_embedding a) at 3. f_equal. pose proof (Nat.div_mod (nat_of_ascii a) 16). lia.
  - apply Nat.mod_upper_bound. lia.
  - apply Nat.div_lt_upper_bound; lia.
Qed.
Fixpoint spaceless (s : string) : Prop := match s with EmptyString => True | String a s => Ascii.eqb a " " = false /\ spaceless s end.
Lemma hex_digit_space n : (n < 16)%nat -> Ascii.eqb (hex_digit n) " " = false.
Proof. intros H. do 16 (destruct n as [|n]; [done|]). lia. Qed.
Lemma hex_spaceless s : spaceless (hex_encode s).
Proof.
  induction s as [|a s IH]; [done|]. cbn [hex_encode spaceless].
  assert (Ha : (nat_of_ascii a < 256)%nat) by apply nat_ascii_bounded.
  split; [|split; [|done]]; apply hex_digit_space; [apply Nat.div_lt_upper_bound; lia|apply Nat.mod_upper_bound; lia].
Qed.
Lemma split_spaceless s : spaceless s -> split s = [s].
Proof. induction s as [|a s IH]; [done|]. intros [H1 H2]. cbn [split]. rewrite H1. by rewrite (IH H2). Qed.
Lemma split_two s t : spaceless s -> spaceless t -> split (s ++ " " ++ t)%string = [s; t].
Proof.
  intros Hs Ht. induction s as [|a s IH].
  - change (split (String " " t) = [""; t]). cbn [split]. rewrite Ascii.eqb_refl. by rewrite (split_spaceless t Ht).
  - destruct Hs as [H1 H2]. change (split (String a (s ++ " " ++ t)%string) = [String a s; t]). cbn [split]. rewrite H1. by rewrite (IH H2).
Qed.
Lemma decrypt_encrypted cr key key' nonce t : String.length nonce = 12%nat ->
  decrypt cr key (encrypt cr key' nonce t) = match c_open cr key nonce (c_seal cr key' nonce t) with Some t => Plain t | None => Fails end.
Proof.
  intros Hn. unfold decrypt, encrypt. rewrite split_two by apply hex_spaceless. rewrite !hex_roundtrip, Hn. by cbn.
Qed.
Lemma decrypt_own cr key nonce t : opens cr -> String.length nonce = 12%nat -> decrypt cr key (encrypt cr key nonce t) = Plain t.
Proof. intros Ho Hn. rewrite decrypt_encrypted by done. by rewrite Ho. Qed.

(** ** The table over histories *)
Lemma tops_app cr st l1 l2 : tops cr st (l1 ++ l2) = tops cr (tops cr st l1) l2.
Proof. unfold tops. by rewrite fold_left_app. Qed.
Lemma register_tokens cr key st plain user dev now nonce :
  s_tokens (register cr key st plain user dev now nonce).1
  = match s_tokens st !! c_hash cr plain with Some _ => s_tokens st | None => <[c_hash cr plain := mk_trow (encrypt cr key nonce plain) user dev now]> (s_tokens st) end.
Proof.
  unfold register, insert_token. cbv zeta. unfold insert_device. destruct (s_tokens st !! c_hash cr plain); cbn [s_tokens s_devices fst];
    by destruct (s_devices st !! (user, dev)).
Qed.
Lemma register_devices cr key st plain user dev now nonce d :
  s_devices (register cr key st plain user dev now nonce).1 !! d
  = match s_devices st !! d with Some s => Some s | None => if decide (d = (user, dev)) then Some "" else None end.
Proof.
  unfold register, insert_token. cbv zeta. unfold insert_device. destruct (s_tokens st !! c_hash cr plain); cbn [s_tokens s_devices fst];
    destruct (s_devices st !! (user, dev)) eqn:E; cbn [s_devices]; (destruct (decide (d = (user, dev))) as [->|Hne];
    [rewrite ?lookup_insert, ?E; done|rewrite ?lookup_insert_ne by done; by destruct (s_devices st !! d)]).
Qed.
Lemma update_seen_lookup st t now h : s_tokens (update_seen st t now) !! h
  = (fun r => if (now - k_seen t <? day) then r else if decide (h = k_hash t) then mk_trow (r_enc r) (r_user r) (r_dev r) now else r) <$> s_tokens st !! h.
Proof.
  unfold update_seen. destruct (now - k_seen t <? day).
  - by destruct (s_tokens st !! h).
  - cbn [s_tokens]. destruct (decide (h = k_hash t)) as [->|Hne].
    + rewrite lookup_alter. done.
    + rewrite lookup_alter_ne by done. by destruct (s_tokens st !! h).
Qed.

Definition owner (r : trow) : string * string * string := (r_enc r, r_user r, r_dev r).
(** A step keeps the row of a token, unless it deletes it; only its time may change. *)
Lemma top1_keeps cr st o h r : s_tokens st !! h = Some r -> o <> Delete h ->
  exists r', s_tokens (top1 cr st o) !! h = Some r' /\ owner r' = owner r.
Proof.
  intros Hr Ho. destruct o as [key plain user dev now nonce|t now|hash|user dev since]; cbn [top1].
  - rewrite register_tokens. destruct (s_tokens st !! c_hash cr plain) eqn:E; [by exists r|].
    exists r. split; [|done]. rewrite lookup_insert_ne; [done|]. congruence.
  - rewrite update_seen_lookup, Hr. cbn. eexists. split; [done|]. destruct (_ <? _); [done|]. by destruct (decide _).
  - cbn [delete_token s_tokens]. rewrite lookup_delete_ne by congruence. by exists r.
  - by exists r.
Qed.
Lemma tops_keep cr h l : forall st r, s_tokens st !! h = Some r -> ~ In (Delete h) l ->
  exists r', s_tokens (tops cr st l) !! h = Some r' /\ owner r' = owner r.
Proof.
  unfold tops. induction l as [|o l IH]; intros st r Hr Hd; [by exists r|]. cbn [fold_left].
  destruct (top1_keeps cr st o h r Hr) as (r1 & H1 & H2); [intros ->; apply Hd; by left|].
  destruct (IH _ _ H1) as (r2 & H3 & H4); [intros H; apply Hd; by right|]. exists r2. split; [done|]. congruence.
Qed.
(** A step that adds a row registers the token. *)
Lemma top1_adds cr st o h : s_tokens st !! h = None ->
  s_tokens (top1 cr st o) !! h = None \/
  exists key plain user dev now nonce, o = Register key plain user dev now nonce /\ c_hash cr plain = h
    /\ s_tokens (top1 cr st o) !! h = Some (mk_trow (encrypt cr key nonce plain) user dev now).
Proof.
  intros Hn. destruct o as [key plain user dev now nonce|t now|hash|user dev since]; cbn [top1].
  - rewrite register_tokens. destruct (decide (c_hash cr plain = h)) as [<-|Hne].
    + rewrite Hn. right. eexists _, _, _, _, _, _. split; [done|]. split; [done|]. by rewrite lookup_insert.
    + left. destruct (s_tokens st !! c_hash cr plain); [done|]. by rewrite lookup_insert_ne.
  - left. by rewrite update_seen_lookup, Hn.
  - left. cbn [delete_token s_tokens]. apply lookup_delete_None. by right.
  - by left.
Qed.
Lemma no_collision_app cr h1 h2 plain : no_collision cr (h1 ++ h2) plain -> no_collision cr h1 plain.
Proof. intros H key p u d n no Hin. apply (H key p u d n no). apply in_app_iff. by left. Qed.
Lemma not_registered_none cr plain hist : no_collision cr hist plain -> not_registered cr hist plain -> s_tokens (tops cr store0 hist) !! c_hash cr plain = None.
Proof.
  induction hist as [|o hist IH] using rev_ind; [done|]. intros Hc Hn. rewrite tops_app. cbn [tops fold_left].
  assert (Hdel : o = Delete (c_hash cr plain) \/ o <> Delete (c_hash cr plain)).
  { destruct o as [| |hash|]; try (by right). destruct (decide (hash = c_hash cr plain)) as [->|]; [by left|right; congruence]. }
  destruct Hdel as [->|Ho].
  { cbn [top1 delete_token s_tokens]. apply lookup_delete. }
  assert (Hn' : not_registered cr hist plain).
  { intros pre key user dev now nonce post ->. specialize (Hn pre key user dev now nonce (post ++ [o])).
    rewrite <- app_assoc in Hn. specialize (Hn eq_refl). apply in_app_iff in Hn as [?|[?|[]]]; done. }
  specialize (IH (no_collision_app _ _ _ _ Hc) Hn'). fold (tops cr store0 hist). destruct (top1_adds cr (tops cr store0 hist) o _ IH) as [?|(key & p & user & dev & now & nonce & -> & Hh & _)]; [done|].
  exfalso. assert (p = plain) as ->. { apply (Hc key p user dev now nonce); [apply in_app_iff; right; by left|done]. }
  by destruct (Hn hist key user dev now nonce []).
Qed.
Lemma del_dec (h : string) (l : list top) : In (Delete h) l \/ ~ In (Delete h) l.
Proof.
  induction l as [|o l IH]; [right; intros []|]. destruct IH as [IH|IH]; [left; by right|]. destruct o as [| |hash|]; try (right; intros [?|?]; [done|tauto]).
  destruct (decide (hash = h)) as [->|Hne]; [left; by left|]. right. intros [[= ?]|?]; tauto.
Qed.
Lemma register_sets cr st key plain user dev now nonce : exists r, s_tokens (top1 cr st (Register key plain user dev now nonce)) !! c_hash cr plain = Some r
  /\ (s_tokens st !! c_hash cr plain = None -> owner r = (encrypt cr key nonce plain, user, dev)).
Proof.
  cbn [top1]. rewrite register_tokens. destruct (s_tokens st !! c_hash cr plain) eqn:E.
  - rewrite E. eexists. split; [done|]. intros Hx. congruence.
  - rewrite lookup_insert. by eexists.
Qed.
Lemma none_not_registered cr plain hist : s_tokens (tops cr store0 hist) !! c_hash cr plain = None -> not_registered cr hist plain.
Proof.
  intros Hn pre key user dev now nonce post ->. destruct (del_dec (c_hash cr plain) post) as [?|Hd]; [done|exfalso].
  rewrite tops_app in Hn. cbn [tops fold_left] in Hn. destruct (register_sets cr (tops cr store0 pre) key plain user dev now nonce) as (r & Hr & _).
  destruct (tops_keep cr _ post _ _ Hr Hd) as (r' & Hr' & _). unfold tops in Hr', Hn. congruence.
Qed.
Lemma first_registered_row cr hist key plain user dev : no_collision cr hist plain -> first_registered cr hist key plain user dev ->
  exists r nonce, s_tokens (tops cr store0 hist) !! c_hash cr plain = Some r /\ owner r = (encrypt cr key nonce plain, user, dev)
    /\ exists now, In (Register key plain user dev now nonce) hist.
Proof.
  intros Hc (pre & now & nonce & post & -> & Hn & Hd). rewrite tops_app. cbn [tops fold_left].
  pose proof (not_registered_none cr plain pre (no_collision_app _ _ _ _ Hc) Hn) as E.
  destruct (register_sets cr (tops cr store0 pre) key plain user dev now nonce) as (r & Hr & Ho).
  destruct (tops_keep cr _ post _ _ Hr Hd) as (r' & Hr' & Ho'). exists r', nonce. split; [done|]. split; [rewrite Ho'; by apply Ho|].
  exists now. apply in_app_iff. right. by left.
Qed.
Lemma row_first_registered cr hist h r : s_tokens (tops cr store0 hist) !! h = Some r ->
  exists key plain nonce, c_hash cr plain = h /\ first_registered cr hist key plain (r_user r) (r_dev r)
    /\ r_enc r = encrypt cr key nonce plain /\ exists now, In (Register key plain (r_user r) (r_dev r) now nonce) hist.
Proof.
  revert r. induction hist as [|o hist IH] using rev_ind; [done|]. intros r. rewrite tops_app. cbn [tops fold_left]. intros Hr.
  destruct (s_tokens (tops cr store0 hist) !! h) as [r0|] eqn:E.
  - assert (Ho : o <> Delete h). { intros ->. cbn [top1 delete_token s_tokens] in Hr. unfold tops in Hr. rewrite lookup_delete in Hr. done. }
    destruct (top1_keeps cr _ o h r0 E Ho) as (r' & Hr' & Ho'). assert (r' = r) as -> by (unfold tops in *; congruence).
    destruct (IH r0 eq_refl) as (key & plain & nonce & Hh & (pre & now & no & post & -> & Hp & Hd) & He & (now' & Hin)).
    injection Ho' as He' Hu Hv. exists key, plain, nonce. split; [done|]. rewrite He', Hu, Hv. split; [|split; [done|exists now'; apply in_app_iff; by left]].
    exists pre, now, no, (post ++ [o]). split; [by rewrite <- app_assoc|]. split; [done|]. intros Hd'. apply in_app_iff in Hd' as [?|[?|[]]]; [done|]. subst h. done.
  - destruct (top1_adds cr _ o h E) as [Hn|(key & plain & user & dev & now & nonce & -> & Hh & Hs)]; [unfold tops in *; congruence|].
    assert (r = mk_trow (encrypt cr key nonce plain) user dev now) as -> by (unfold tops in *; congruence). cbn [r_user r_dev r_enc].
    exists key, plain, nonce. split; [done|]. split; [|split; [done|exists now; apply in_app_iff; right; by left]].
    exists hist, now, nonce, []. split; [done|]. split; [|intros []]. apply none_not_registered. by rewrite Hh.
Qed.
(** Devices of registered tokens have a row. *)
Lemma devices_stay cr l d : forall st s, s_devices st !! d = Some s -> exists s', s_devices (tops cr st l) !! d = Some s'.
Proof.
  unfold tops. induction l as [|o l IH]; intros st s Hs; [by exists s|]. cbn [fold_left].
  assert (H : exists s', s_devices (top1 cr st o) !! d = Some s'); [|destruct H as [s' H]; by apply IH with s'].
  destruct o as [key plain user dev now nonce|t now|hash|user dev since]; cbn [top1].
  - rewrite register_devices, Hs. by eexists.
  - unfold update_seen. destruct (_ <? _); by exists s.
  - by exists s.
  - cbn [update_since s_devices]. destruct (decide (d = (user, dev))) as [->|Hne].
    + rewrite lookup_alter, Hs. by eexists.
    + rewrite lookup_alter_ne by done. by exists s.
Qed.
Lemma registered_device cr hist key plain user dev now nonce : In (Register key plain user dev now nonce) hist -> exists s, s_devices (tops cr store0 hist) !! (user, dev) = Some s.
Proof.
  intros H. apply in_split in H as (pre & post & ->). rewrite tops_app. cbn [tops fold_left]. fold (tops cr store0 pre).
  assert (Hs : exists s, s_devices (top1 cr (tops cr store0 pre) (Register key plain user dev now nonce)) !! (user, dev) = Some s).
  { cbn [top1]. rewrite register_devices. destruct (s_devices (tops cr store0 pre) !! (user, dev)); [by eexists|]. rewrite decide_True by done. by eexists. }
  destruct Hs as [s Hs]. by apply (devices_stay cr post _ _ s).
Qed.
