(** C56, C66, C67: access tokens, devices in use, and starting pollers. *)
From Coq Require Import Ascii.
From Verif Require Import Prelude TokModel TokSpec TokProofs.
Open Scope string_scope. Open Scope list_scope. Open Scope Z_scope.

(** ** C56 *)

(** C56. At any time, a token resolves to the user and device it was registered with
    first, since its last deletion, and to nothing if there is no such registration. *)
Theorem C56_bound cr hist plain user dev : no_collision cr hist plain ->
  (exists t, find_token cr (tops cr store0 hist) plain = Some t /\ k_user t = user /\ k_dev t = dev)
  <-> exists key, first_registered cr hist key plain user dev.
Proof.
  intros Hc. unfold find_token. split.
  - intros (t & Ht & <- & <-). destruct (s_tokens _ !! _) as [r|] eqn:E; [|done]. injection Ht as <-. cbn [k_user k_dev].
    destruct (row_first_registered _ _ _ _ E) as (key & p & nonce & Hh & Hf & _ & (now & Hin)).
    assert (p = plain) as -> by (by apply (Hc _ _ _ _ _ _ Hin)). by exists key.
  - intros (key & Hf). destruct (first_registered_row _ _ _ _ _ _ Hc Hf) as (r & nonce & Hr & Ho & _). rewrite Hr.
    injection Ho as _ <- <-. eexists. split; [done|]. done.
Qed.
Print Assumptions C56_bound.

(** C56. A poller gets the token itself, if it asks with the right user and device, and
    the secret has not been changed. *)
Theorem C56_token_and_since cr hist key plain user dev :
  opens cr -> good_nonces hist -> no_collision cr hist plain -> first_registered cr hist key plain user dev ->
  exists since, get_token_and_since cr key (tops cr store0 hist) user dev (c_hash cr plain) = GotToken plain since
    /\ s_devices (tops cr store0 hist) !! (user, dev) = Some since.
Proof.
  intros Ho Hg Hc Hf. destruct (first_registered_row _ _ _ _ _ _ Hc Hf) as (r & nonce & Hr & Hrow & (now & Hin)).
  destruct (registered_device cr hist _ _ _ _ _ _ Hin) as [since Hs]. exists since. split; [|done].
  unfold get_token_and_since. rewrite Hr. injection Hrow as -> -> ->. rewrite Hs, !String.eqb_refl. cbn [negb orb].
  rewrite decrypt_own; [done|done|]. by apply (Hg _ _ _ _ _ _ Hin).
Qed.
(** Whatever is asked for, nobody gets a token that was registered for another user or
    device. *)
Theorem C56_never_anothers cr hist key user dev hash p since :
  authentic cr -> good_nonces hist -> get_token_and_since cr key (tops cr store0 hist) user dev hash = GotToken p since ->
  c_hash cr p = hash /\ exists key', first_registered cr hist key' p user dev.
Proof.
  intros Ho Hg. unfold get_token_and_since. destruct (s_tokens _ !! hash) as [r|] eqn:E; [|done].
  destruct (s_devices _ !! _) as [s|]; [|done]. destruct (String.eqb (r_user r) user) eqn:Eu; [|done].
  destruct (String.eqb (r_dev r) dev) eqn:Ed; [|done]. cbn [negb orb]. apply String.eqb_eq in Eu as <-. apply String.eqb_eq in Ed as <-.
  destruct (row_first_registered _ _ _ _ E) as (key' & plain & nonce & Hh & Hf & He & (now & Hin)). rewrite He.
  pose proof (Hg _ _ _ _ _ _ Hin) as Hn. rewrite decrypt_encrypted by done.
  destruct (Ho key key' nonce plain) as [Hx|Hx]; rewrite Hx; [|done]. intros [= -> ->]. split; [done|]. by exists key'.
Qed.
Print Assumptions C56_never_anothers.

(** C56. The user and device that a request is served as are those of the table. *)
Theorem C56_served_as_registered cr key st plain w now nonce st' t :
  identify cr key st plain w now nonce = (st', Known t) ->
  exists t', find_token cr st' plain = Some t' /\ k_user t' = k_user t /\ k_dev t' = k_dev t.
Proof.
  unfold identify. destruct (String.eqb plain ""); [done|]. destruct (find_token cr st plain) as [t0|] eqn:E.
  - intros [= <- <-]. unfold find_token in *. rewrite update_seen_lookup. destruct (s_tokens st !! c_hash cr plain) as [r|]; [|done].
    injection E as <-. cbn. eexists. split; [done|]. destruct (_ <? _); [done|]. by destruct (decide _).
  - destruct w as [user dev| |]; [|done..]. destruct (register cr key st plain user dev now nonce) as [st1 t1] eqn:Er. intros [= <- <-].
    unfold find_token in *. rewrite update_seen_lookup.
    assert (E1 : s_tokens st1 = s_tokens (register cr key st plain user dev now nonce).1) by (by rewrite Er). rewrite E1, register_tokens.
    destruct (s_tokens st !! c_hash cr plain); [done|]. rewrite lookup_insert. cbn [fmap option_fmap option_map].
    assert (Ht : k_user t1 = user /\ k_dev t1 = dev). { unfold register, insert_token in Er. cbv zeta in Er. injection Er as _ <-. done. }
    destruct Ht as [-> ->]. eexists. split; [done|]. destruct (_ <? _); [done|]. by destruct (decide _).
Qed.
(** C56. A request is refused with 401 only if it has no token, or the token is unknown here
    and the homeserver does not accept it; with 502 only if the homeserver cannot be asked
    about a token unknown here; and then nothing is changed. Otherwise it is served. *)
Theorem C56_refused cr key st plain w now nonce :
  let out := identify cr key st plain w now nonce in
  let unknown := plain <> "" /\ find_token cr st plain = None in
  (out.2 = Refused 401 <-> plain = "" \/ (unknown /\ w = Who401))
  /\ (out.2 = Refused 502 <-> unknown /\ w = WhoFails)
  /\ (forall code, out.2 = Refused code -> (code = 401 \/ code = 502) /\ out.1 = st).
Proof.
  cbv zeta. unfold identify. destruct (String.eqb_spec plain "") as [E|N].
  - cbn. split; [split; [by left|done]|]. split; [split; [done|intros [[] _]; done]|]. intros code [= <-]. auto.
  - destruct (find_token cr st plain) as [t|] eqn:Ef.
    + cbn. split; [split; [done|intros [|[[_ ?] _]]; done]|]. split; [split; [done|intros [[_ ?] _]; done]|done].
    + destruct w as [user dev| |].
      * destruct (register cr key st plain user dev now nonce). cbn.
        split; [split; [done|intros [|[_ ?]]; done]|]. split; [split; [done|intros [_ ?]; done]|done].
      * cbn. split; [split; [by right|done]|]. split; [split; [done|intros [_ ?]; done]|]. intros code [= <-]. auto.
      * cbn. split; [split; [done|intros [|[_ ?]]; done]|]. split; [split; [by split|done]|]. intros code [= <-]. auto.
Qed.
Print Assumptions C56_refused.
(** Also when requests with a new token race, provided that the homeserver always names the
    same owner: the one whose registration comes later is told the owner in the table. *)
Theorem C56_racing_registrations cr hist key plain user dev now nonce :
  no_collision cr hist plain ->
  (forall k u d n no, In (Register k plain u d n no) hist -> u = user /\ d = dev) ->
  let st := (register cr key (tops cr store0 hist) plain user dev now nonce).1 in
  let t := (register cr key (tops cr store0 hist) plain user dev now nonce).2 in
  exists t', find_token cr st plain = Some t' /\ k_user t' = k_user t /\ k_dev t' = k_dev t.
Proof.
  intros Hc Hs st t. assert (Ht : k_user t = user /\ k_dev t = dev) by done. destruct Ht as [-> ->].
  unfold find_token, st. rewrite register_tokens. destruct (s_tokens (tops cr store0 hist) !! c_hash cr plain) as [r|] eqn:E.
  - rewrite E. eexists. split; [done|]. cbn [k_user k_dev]. destruct (row_first_registered _ _ _ _ E) as (key' & p & no & Hh & _ & _ & (n & Hin)).
    assert (p = plain) as -> by (by apply (Hc _ _ _ _ _ _ Hin)). by apply (Hs _ _ _ _ _ Hin).
  - rewrite lookup_insert. by eexists.
Qed.
(** Otherwise it is told what the homeserver told it, not what is in the table. *)
Theorem C56_racing_owners_refuted : exists cr key hist t,
  find_token cr (tops cr store0 hist) "tok" = None
  /\ let st := (register cr key (tops cr store0 hist) "tok" "@a" "A" 0 "").1 in
     (register cr key st "tok" "@b" "B" 0 "").2 = t
     /\ k_user t = "@b" /\ (k_user <$> find_token cr (register cr key st "tok" "@b" "B" 0 "").1 "tok") = Some "@a".
Proof.
  exists (mk_crypto id (fun _ _ t => t) (fun _ _ t => Some t)), "", [], (mk_token "tok" "tok" "@b" "B" 0).
  split; [reflexivity|]. cbv zeta. split; [reflexivity|]. split; [reflexivity|]. vm_compute. reflexivity.
Qed.

(** ** C56: starting the pollers *)
Definition fails (cr : crypto) (key : string) (x : row) : bool := match decrypt cr key (r_enc x.1) with Plain _ => false | _ => true end.
Definition last_err (cr : crypto) (key : string) (rows : list row) (err : bool) : bool :=
  match last rows with Some x => fails cr key x | None => err end.
Lemma decrypt_rows_spec cr key rows : forall err,
  Forall (fun x => decrypt cr key (r_enc x.1) <> Panics) rows ->
  exists ts, decrypt_rows cr key rows err = Some (ts, last_err cr key rows err)
    /\ ts = map (fun x => mk_forpoller (match decrypt cr key (r_enc x.1) with Plain t => t | _ => "" end) (r_user x.1) (r_dev x.1) x.2) rows.
Proof.
  induction rows as [|[r since] rows IH]; intros err Hp; [by eexists|]. apply Forall_cons in Hp as [Hr Hp]. cbn [decrypt_rows fst snd map] in *.
  assert (Hlast : last_err cr key ((r, since) :: rows) err = last_err cr key rows (fails cr key (r, since))).
  { unfold last_err. rewrite last_cons. by destruct (@last row rows). }
  rewrite Hlast. unfold fails. cbn [fst]. destruct (decrypt cr key (r_enc r)) as [| |t] eqn:E; [done| |].
  - destruct (IH true Hp) as (ts & -> & ->). eexists. split; [done|]. done.
  - destruct (IH false Hp) as (ts & -> & ->). eexists. split; [done|]. done.
Qed.
(** The stored tokens never make it panic. *)
Lemma no_panics cr key hist rows : good_nonces hist -> (forall x, In x rows -> joined (tops cr store0 hist) x) ->
  Forall (fun x => decrypt cr key (r_enc x.1) <> Panics) rows.
Proof.
  intros Hg Hj. apply List.Forall_forall. intros x Hx. destruct (Hj x Hx) as [[h Hh] _].
  destruct (row_first_registered _ _ _ _ Hh) as (key' & plain & nonce & _ & _ & -> & (now & Hin)).
  rewrite decrypt_encrypted by (by apply (Hg _ _ _ _ _ _ Hin)). by destruct (c_open _ _ _ _).
Qed.
(** C56. Every device whose most recent token can be decrypted gets its poller, with that
    token, once, and no other gets one; provided that the last token of the query can be
    decrypted. *)
Theorem C56_pollers_partial cr key hist rows :
  good_nonces hist -> distinct_on (tops cr store0 hist) rows ->
  (forall x, last rows = Some x -> exists t, decrypt cr key (r_enc x.1) = Plain t) ->
  exists l, to_start cr key rows = Some l
    /\ NoDup (map (fun t => (p_user t, p_dev t)) l)
    /\ forall t user dev since, In (mk_forpoller t user dev since) l <->
         t <> "" /\ exists r, In (r, since) rows /\ r_user r = user /\ r_dev r = dev /\ decrypt cr key (r_enc r) = Plain t.
Proof.
  intros Hg (Hnd & Hj & _) Hl. assert (Hp := no_panics cr key hist rows Hg (fun x Hx => proj1 (Hj x Hx))).
  destruct (decrypt_rows_spec cr key rows false Hp) as (ts & Hts & Hmap). unfold to_start. rewrite Hts.
  assert (He : last_err cr key rows false = false).
  { unfold last_err. destruct (@last row rows) as [x|]; [|done]. unfold fails. by destruct (Hl x eq_refl) as [t ->]. }
  rewrite He. eexists. split; [done|]. split.
  - assert (Hmm : map (fun t => (p_user t, p_dev t)) ts = map row_device rows) by (rewrite Hmap, map_map; by apply map_ext).
    rewrite <- Hmm in Hnd. clear -Hnd. induction ts as [|t ts IH]; [constructor|]. cbn [map] in Hnd. apply NoDup_cons in Hnd as [H1 H2].
    cbn [List.filter]. destruct (negb _); [|by apply IH]. cbn [map]. apply NoDup_cons. split; [|by apply IH].
    rewrite elem_of_list_In, in_map_iff in H1 |- *. intros (y & Hy & Hin). apply H1. exists y. split; [done|]. by apply filter_In in Hin as [? _].
  - intros t user dev since. rewrite filter_In, Hmap, in_map_iff. cbn [p_token]. split.
    + intros [([r s] & [= Ht <- <- <-] & Hin) Hne]. destruct (decrypt cr key (r_enc r)) as [| |t'] eqn:E; subst t; [done..|].
      split; [by intros ->|]. exists r. split; [done|]. split; [done|]. done.
    + intros [Hne (r & Hin & <- & <- & E)]. split.
      * exists (r, since). cbn [fst snd]. split; [by rewrite E|done].
      * apply negb_true_iff, String.eqb_neq. done.
Qed.
Print Assumptions C56_pollers_partial.
(** In any case it does not panic. *)
Theorem C56_no_panic cr key hist rows : good_nonces hist -> distinct_on (tops cr store0 hist) rows -> to_start cr key rows <> None.
Proof.
  intros Hg (_ & Hj & _). assert (Hp := no_panics cr key hist rows Hg (fun x Hx => proj1 (Hj x Hx))).
  destruct (decrypt_rows_spec cr key rows false Hp) as (ts & Hts & _). unfold to_start. rewrite Hts.
  by destruct (last_err cr key rows false).
Qed.

(** A toy cipher to compute with: the key in front of the token. *)
Fixpoint strip (k s : string) : option string :=
  match k, s with
  | EmptyString, s => Some s
  | String a k, String b s => if Ascii.eqb a b then strip k s else None
  | _, _ => None
  end.
Definition toy : crypto := mk_crypto id (fun k _ t => (k ++ t)%string) (fun k _ c => strip k c).
Lemma toy_opens : opens toy.
Proof. intros k n t. cbn. induction k as [|a k IH]; [done|]. change (strip (String a k) (String a (k ++ t)%string) = Some t). cbn [strip]. by rewrite Ascii.eqb_refl. Qed.
(** Two users register; @b's token was stored with another secret. *)
Definition nonce1 := "123456789012".
Definition hist1 : list top :=
  [Register "key" "ta" "@a" "A" 10 nonce1; Register "old" "tb" "@b" "B" 20 nonce1; Since "@a" "A" "s1"].
Definition rowa : row := (mk_trow (encrypt toy "key" nonce1 "ta") "@a" "A" 10, "s1").
Definition rowb : row := (mk_trow (encrypt toy "old" nonce1 "tb") "@b" "B" 20, "").
Lemma hist1_rows : s_tokens (tops toy store0 hist1) = {[ "tb" := rowb.1; "ta" := rowa.1 ]}.
Proof. vm_compute. reflexivity. Qed.
Lemma hist1_joined x : joined (tops toy store0 hist1) x <-> x = rowa \/ x = rowb.
Proof.
  unfold joined. rewrite hist1_rows. split.
  - destruct x as [r s]. cbn [fst snd]. intros [[h Hh] Hs].
    apply lookup_insert_Some in Hh as [[<- <-]|[_ Hh]]; [right|apply lookup_singleton_Some in Hh as [<- <-]; left].
    + assert (E : s_devices (tops toy store0 hist1) !! ("@b", "B") = Some "") by (vm_compute; reflexivity).
      unfold rowb in *. cbn [fst r_user r_dev] in *. congruence.
    + assert (E : s_devices (tops toy store0 hist1) !! ("@a", "A") = Some "s1") by (vm_compute; reflexivity).
      cbn [r_user r_dev] in Hs. unfold rowa in Hs. cbn [fst r_user r_dev] in Hs. unfold rowa. cbn [fst]. congruence.
  - intros [->| ->]; (split; [|vm_compute; reflexivity]).
    + exists "ta". vm_compute. reflexivity.
    + exists "tb". vm_compute. reflexivity.
Qed.
Lemma hist1_distinct rows : rows = [rowa; rowb] \/ rows = [rowb; rowa] -> distinct_on (tops toy store0 hist1) rows.
Proof.
  intros Hr. assert (Hin : forall x, In x rows <-> x = rowa \/ x = rowb).
  { intros x. destruct Hr as [->| ->]; cbn [In]; naive_solver. }
  split; [destruct Hr as [->| ->]; (apply NoDup_cons; split; [set_solver|apply NoDup_singleton])|]. split.
  - intros x Hx. split; [by apply hist1_joined, Hin|]. intros y Hy. apply hist1_joined in Hy. apply Hin in Hx.
    destruct Hx as [->| ->], Hy as [->| ->]; cbn [rowa rowb row_device fst r_user r_dev r_seen]; intros; first [lia|discriminate].
  - intros y Hy. exists y. split; [by apply Hin, hist1_joined|done].
Qed.
Example C56_example : good_nonces hist1 /\ no_collision toy hist1 "ta" /\ first_registered toy hist1 "key" "ta" "@a" "A"
  /\ get_token_and_since toy "key" (tops toy store0 hist1) "@a" "A" "ta" = GotToken "ta" "s1"
  /\ get_token_and_since toy "key" (tops toy store0 hist1) "@b" "B" "ta" = GotError
  /\ to_start toy "key" [rowb; rowa] = Some [mk_forpoller "ta" "@a" "A" "s1"].
Proof.
  split; [|split; [|split; [|vm_compute; done]]].
  - intros key p u d n no [H|[H|[H|[]]]]; [by injection H as _ _ _ _ _ <-..|done].
  - intros key p u d n no _ H. done.
  - exists [], 10, nonce1, (tl hist1). split; [done|]. split; [|by intros [?|[?|[]]]]. intros [|] ? ? ? ? ? ? H; done.
Qed.
(** C56 fails if the last token cannot be decrypted: no poller is started at all, whereas
    with the same tokens in the other order @a's is. The order is that of the user IDs. *)
Theorem C56_last_token_refuted :
  distinct_on (tops toy store0 hist1) [rowa; rowb] /\ decrypt toy "key" (r_enc rowa.1) = Plain "ta"
  /\ to_start toy "key" [rowa; rowb] = Some [].
Proof. split; [apply hist1_distinct; by left|]. split; vm_compute; reflexivity. Qed.
Print Assumptions C56_last_token_refuted.
(** A row that was not written by this program can make it panic. *)
Theorem C56_foreign_row_refuted :
  to_start toy "key" [rowa; (mk_trow "00" "@c" "C" 30, "")] = None
  /\ to_start toy "key" [rowa; (mk_trow "00 00" "@c" "C" 30, "")] = None.
Proof. split; vm_compute; reflexivity. Qed.

(** ** C66: devices in use *)
Lemma identify_row cr key st plain w now nonce t : (identify cr key st plain w now nonce).2 = Known t ->
  exists r, s_tokens (identify cr key st plain w now nonce).1 !! c_hash cr plain = Some r /\ (r_user r, r_dev r) = (k_user t, k_dev t) /\ now - r_seen r < day.
Proof.
  unfold identify. destruct (String.eqb plain ""); [done|]. destruct (find_token cr st plain) as [t0|] eqn:E.
  - intros [= <-]. cbn [fst]. unfold find_token in E. destruct (s_tokens st !! c_hash cr plain) as [r|] eqn:Er; [|done]. injection E as <-.
    rewrite update_seen_lookup, Er. cbn [fmap option_fmap option_map]. eexists. split; [done|]. cbn [k_seen k_hash k_user k_dev].
    destruct (now - r_seen r <? day) eqn:Eb; [split; [done|lia]|]. rewrite decide_True by done. cbn [r_user r_dev r_seen]. split; [done|]. unfold day. lia.
  - destruct w as [user dev| |]; [|done..]. destruct (register cr key st plain user dev now nonce) as [st1 t1] eqn:Er. intros [= <-]. cbn [fst].
    unfold find_token in E. rewrite update_seen_lookup.
    assert (E1 : s_tokens st1 = s_tokens (register cr key st plain user dev now nonce).1) by (by rewrite Er). rewrite E1, register_tokens.
    destruct (s_tokens st !! c_hash cr plain); [done|]. rewrite lookup_insert. cbn [fmap option_fmap option_map].
    assert (Ht : t1 = mk_token plain (c_hash cr plain) user dev now). { unfold register, insert_token in Er. cbv zeta in Er. by injection Er as _ <-. }
    subst t1. cbn [k_seen k_user k_dev k_hash]. eexists. split; [done|]. destruct (now - now <? day); [split; [done|cbn; unfold day; lia]|].
    rewrite decide_True by done. split; [done|cbn; unfold day; lia].
Qed.
Lemma rstep_row cr st s h r : s_tokens st !! h = Some r -> s <> RDelete h ->
  exists r', s_tokens (rstep1 cr st s) !! h = Some r' /\ (r_user r', r_dev r') = (r_user r, r_dev r) /\ r_seen r <= r_seen r'.
Proof.
  intros Hr Hs. destruct s as [key plain w now nonce|hash|user dev since]; cbn [rstep1].
  - unfold identify. destruct (String.eqb plain ""); [exists r; split; [done|split; [done|lia]]|]. destruct (find_token cr st plain) as [t0|] eqn:E.
    + cbn [fst]. unfold find_token in E. destruct (s_tokens st !! c_hash cr plain) as [r0|] eqn:Er; [|done]. injection E as <-.
      rewrite update_seen_lookup, Hr. cbn [fmap option_fmap option_map k_seen k_hash]. eexists. split; [done|].
      destruct (now - r_seen r0 <? day) eqn:Eb; [split; [done|lia]|]. destruct (decide (h = c_hash cr plain)) as [->|]; [|split; [done|lia]].
      assert (r0 = r) as -> by congruence. cbn. split; [done|]. unfold day in Eb. lia.
    + destruct w as [user dev| |]; cbn [fst]; [|exists r; split; [done|split; [done|lia]]..].
      destruct (register cr key st plain user dev now nonce) as [st1 t1] eqn:Er. cbn [fst].
      assert (E1 : s_tokens st1 = s_tokens (register cr key st plain user dev now nonce).1) by (by rewrite Er).
      assert (Ht : t1 = mk_token plain (c_hash cr plain) user dev now). { unfold register, insert_token in Er. cbv zeta in Er. by injection Er as _ <-. }
      rewrite update_seen_lookup, E1, register_tokens. subst t1. cbn [k_seen k_hash].
      assert (Hh : h <> c_hash cr plain). { intros ->. unfold find_token in E. by rewrite Hr in E. }
      destruct (s_tokens st !! c_hash cr plain); [|rewrite lookup_insert_ne by done]; rewrite Hr; cbn [fmap option_fmap option_map];
        (eexists; split; [done|]; destruct (now - now <? day); [split; [done|lia]|]; destruct (decide (h = c_hash cr plain)); [done|split; [done|lia]]).
  - cbn [delete_token s_tokens]. rewrite lookup_delete_ne by congruence. exists r. split; [done|]. split; [done|lia].
  - exists r. split; [done|]. split; [done|lia].
Qed.
Lemma rruns_row cr h l : forall st r, s_tokens st !! h = Some r -> ~ In (RDelete h) l ->
  exists r', s_tokens (rruns cr st l) !! h = Some r' /\ (r_user r', r_dev r') = (r_user r, r_dev r) /\ r_seen r <= r_seen r'.
Proof.
  unfold rruns. induction l as [|s l IH]; intros st r Hr Hd; [exists r; split; [done|split; [done|lia]]|]. cbn [fold_left].
  destruct (rstep_row cr st s h r Hr) as (r1 & H1 & H2 & H3); [intros ->; apply Hd; by left|].
  destruct (IH _ _ H1) as (r2 & H4 & H5 & H6); [intros H; apply Hd; by right|]. exists r2. split; [done|]. split; [congruence|lia].
Qed.
Lemma fold_max_ge l : forall x, x <= fold_left Z.max l x /\ (forall y, In y l -> y <= fold_left Z.max l x).
Proof.
  induction l as [|z l IH]; intros x; cbn [fold_left]; [split; [lia|done]|]. destruct (IH (Z.max x z)) as [H1 H2]. split; [lia|].
  intros y [->|Hy]; [lia|by apply H2].
Qed.
Lemma fold_max_in l : forall x, In (fold_left Z.max l x) (x :: l).
Proof.
  induction l as [|z l IH]; intros x; cbn [fold_left]; [by left|]. destruct (IH (Z.max x z)) as [H|H].
  - rewrite <- H. destruct (Z.max_spec x z) as [[_ ->]|[_ ->]]; [right; by left|by left].
  - right. by right.
Qed.
Lemma is_old_spec st now period d : is_old st now period d = true <->
  (exists h r, s_tokens st !! h = Some r /\ (r_user r, r_dev r) = d)
  /\ forall h r, s_tokens st !! h = Some r -> (r_user r, r_dev r) = d -> r_seen r < now - period.
Proof.
  assert (Hin : forall r, In r (tokens_of st d) <-> exists h, s_tokens st !! h = Some r /\ (r_user r, r_dev r) = d).
  { intros r. unfold tokens_of. rewrite filter_In, in_map_iff, andb_true_iff, !String.eqb_eq. split.
    - intros [([h r'] & <- & Hin) [H1 H2]]. apply elem_of_list_In, elem_of_map_to_list in Hin. exists h. split; [done|]. destruct d; cbn in *; congruence.
    - intros (h & Hr & <-). split; [|done]. exists (h, r). split; [done|]. by apply elem_of_list_In, elem_of_map_to_list. }
  unfold is_old. destruct (tokens_of st d) as [|r0 l] eqn:E.
  - split; [done|]. intros [(h & r & Hr & Hd) _]. exfalso. apply (proj2 (Hin r)). by exists h.
  - rewrite Z.ltb_lt. split.
    + intros Hlt. split.
      * destruct (proj1 (Hin r0) (or_introl eq_refl)) as (h & Hr & Hd). by exists h, r0.
      * intros h r Hr Hd. assert (Hx : In r (r0 :: l)) by (apply Hin; by exists h). destruct (fold_max_ge (map r_seen l) (r_seen r0)) as [H1 H2].
        destruct Hx as [->|Hx]; [lia|]. specialize (H2 (r_seen r) (in_map _ _ _ Hx)). lia.
    + intros [_ Hall]. assert (Hm := fold_max_in (map r_seen l) (r_seen r0)).
      assert (Hr : exists r, In r (r0 :: l) /\ r_seen r = fold_left Z.max (map r_seen l) (r_seen r0)).
      { destruct Hm as [H|H]; [exists r0; split; [by left|done]|]. apply in_map_iff in H as (r & H1 & H2). exists r. split; [by right|done]. }
      destruct Hr as (r & Hr & <-). apply Hin in Hr as (h & Hr & Hd). by apply (Hall h).
Qed.
Lemma old_devices_spec st now period d : In d (old_devices st now period) <-> (exists s, s_devices st !! d = Some s) /\ is_old st now period d = true.
Proof.
  unfold old_devices. rewrite filter_In, in_map_iff. split.
  - intros [([d' s] & <- & Hin) H]. split; [|done]. exists s. by apply elem_of_list_In, elem_of_map_to_list in Hin.
  - intros [[s Hs] H]. split; [|done]. exists (d, s). split; [done|]. by apply elem_of_list_In, elem_of_map_to_list.
Qed.

(** C66. A device that sent a request less than [period - 24h] ago, with a token that was
    not deleted since, is not among the old devices. *)
Theorem C66_in_use_is_kept cr hist d hash time now period :
  requested cr hist d hash time -> now - period + day <= time -> ~ In d (old_devices (rruns cr store0 hist) now period).
Proof.
  intros (pre & key & plain & w & nonce & post & t & -> & <- & Hk & Hd & Hdel) Ht Hin. apply old_devices_spec in Hin as [_ Hin].
  apply is_old_spec in Hin as [_ Hall]. unfold rruns in Hall. rewrite fold_left_app in Hall. cbn [fold_left] in Hall.
  destruct (identify_row _ _ _ _ _ _ _ _ Hk) as (r & Hr & Ho & Hs).
  destruct (rruns_row cr _ post _ _ Hr Hdel) as (r' & Hr' & Ho' & Hs'). specialize (Hall _ r' Hr').
  assert (Hlt : r_seen r' < now - period) by (apply Hall; congruence). lia.
Qed.
Print Assumptions C66_in_use_is_kept.

(** The time in a row is that of a request with the token. *)
Lemma row_requested cr hist h r : s_tokens (rruns cr store0 hist) !! h = Some r ->
  requested cr hist (r_user r, r_dev r) h (r_seen r) /\ exists s, s_devices (rruns cr store0 hist) !! (r_user r, r_dev r) = Some s.
Proof.
  revert r. induction hist as [|s hist IH] using rev_ind; [done|]. intros r. unfold rruns. rewrite fold_left_app. cbn [fold_left]. fold (rruns cr store0 hist).
  assert (Hreq : forall d hash time, requested cr hist d hash time -> s <> RDelete hash -> requested cr (hist ++ [s]) d hash time).
  { intros d hash time (pre & key & plain & w & nonce & post & t & -> & H1 & H2 & H3 & H4) Hs. exists pre, key, plain, w, nonce, (post ++ [s]), t.
    split; [by rewrite <- app_assoc|]. split; [done|]. split; [done|]. split; [done|]. rewrite in_app_iff. intros [?|[?|[]]]; done. }
  assert (Hnew : forall key plain w now nonce t, s = RRequest key plain w now nonce -> (identify cr key (rruns cr store0 hist) plain w now nonce).2 = Known t ->
     requested cr (hist ++ [s]) (k_user t, k_dev t) (c_hash cr plain) now).
  { intros key plain w now nonce t -> Hk. exists hist, key, plain, w, nonce, [], t. split; [done|]. split; [done|]. split; [done|]. split; [done|]. intros []. }
  destruct s as [key plain w now nonce|hash|user dev since]; cbn [rstep1].
  - specialize (Hnew key plain w now nonce). revert Hnew. unfold identify. destruct (String.eqb plain "").
    { intros _ Hr. destruct (IH _ Hr) as [H1 H2]. split; [by apply Hreq|done]. }
    destruct (find_token cr (rruns cr store0 hist) plain) as [t0|] eqn:E.
    + cbn [fst snd]. intros Hnew. specialize (Hnew t0 eq_refl eq_refl). unfold find_token in E.
      destruct (s_tokens (rruns cr store0 hist) !! c_hash cr plain) as [r0|] eqn:Er; [|done]. injection E as <-.
      rewrite update_seen_lookup. cbn [k_seen k_hash k_user k_dev] in *. intros Hr. apply fmap_Some in Hr as (r1 & Hr1 & ->).
      assert (Hdev : s_devices (update_seen (rruns cr store0 hist) (mk_token plain (c_hash cr plain) (r_user r0) (r_dev r0) (r_seen r0)) now) = s_devices (rruns cr store0 hist)).
      { unfold update_seen. by destruct (_ <? _). }
      rewrite Hdev. destruct (IH _ Hr1) as [H1 H2]. destruct (now - r_seen r0 <? day); [split; [by apply Hreq|done]|].
      destruct (decide (h = c_hash cr plain)) as [->|Hne]; [|split; [by apply Hreq|done]]. cbn [r_user r_dev r_seen].
      assert (r1 = r0) as -> by congruence. split; done.
    + destruct w as [user dev| |]; cbn [fst snd]; [|intros _ Hr; destruct (IH _ Hr) as [H1 H2]; split; [by apply Hreq|done]..].
      destruct (register cr key (rruns cr store0 hist) plain user dev now nonce) as [st1 t1] eqn:Er. cbn [fst snd]. intros Hnew. specialize (Hnew t1 eq_refl eq_refl).
      assert (E1 : s_tokens st1 = s_tokens (register cr key (rruns cr store0 hist) plain user dev now nonce).1) by (by rewrite Er).
      assert (E2 : s_devices st1 = s_devices (register cr key (rruns cr store0 hist) plain user dev now nonce).1) by (by rewrite Er).
      assert (Ht : t1 = mk_token plain (c_hash cr plain) user dev now). { unfold register, insert_token in Er. cbv zeta in Er. by injection Er as _ <-. }
      subst t1. cbn [k_user k_dev] in Hnew. intros Hr. rewrite update_seen_lookup in Hr. cbn [k_seen k_hash] in Hr.
      assert (Hdev : s_devices (update_seen st1 (mk_token plain (c_hash cr plain) user dev now) now) = s_devices st1) by (unfold update_seen; by destruct (_ <? _)).
      rewrite Hdev, E2, register_devices. assert (Hz : (now - now <? day) = true) by (unfold day; lia). rewrite Hz in Hr.
      rewrite E1, register_tokens in Hr. unfold find_token in E.
      destruct (s_tokens (rruns cr store0 hist) !! c_hash cr plain) as [r0|] eqn:Er0; [done|].
      apply fmap_Some in Hr as (r1 & Hr1 & ->). apply lookup_insert_Some in Hr1 as [[<- <-]|[Hne Hr1]].
      * cbn [r_user r_dev r_seen]. split; [done|]. destruct (s_devices (rruns cr store0 hist) !! (user, dev)); [by eexists|]. rewrite decide_True by done. by eexists.
      * destruct (IH _ Hr1) as [H1 [s Hs]]. split; [by apply Hreq|]. rewrite Hs. by eexists.
  - cbn [delete_token s_tokens s_devices]. intros Hr. apply lookup_delete_Some in Hr as [Hne Hr]. destruct (IH _ Hr) as [H1 H2]. split; [|done]. apply Hreq; [done|congruence].
  - cbn [update_since s_tokens s_devices]. intros Hr. destruct (IH _ Hr) as [H1 [s Hs]]. split; [by apply Hreq|].
    destruct (decide ((r_user r, r_dev r) = (user, dev))) as [Heq|Hne].
    + rewrite <- Heq, lookup_alter, Hs. by eexists.
    + rewrite lookup_alter_ne by done. by exists s.
Qed.
(** C66. A device that has a token is among the old devices once all requests with its
    tokens are [period] ago. *)
Theorem C66_unused_is_found cr hist d now period :
  (exists hash time, requested cr hist d hash time) ->
  (forall hash time, requested cr hist d hash time -> time < now - period) ->
  In d (old_devices (rruns cr store0 hist) now period).
Proof.
  intros (h0 & t0 & Hreq) Hall. pose proof Hreq as (pre & key & plain & w & nonce & post & t & Hh & Hhash & Hk & Hd & Hdel).
  destruct (identify_row _ _ _ _ _ _ _ _ Hk) as (r & Hr & Ho & Hs).
  destruct (rruns_row cr h0 post (rstep1 cr (rruns cr store0 pre) (RRequest key plain w t0 nonce)) r) as (r' & Hr' & Ho' & Hs'); [cbn [rstep1]; by rewrite <- Hhash|done|].
  assert (E : rruns cr store0 hist = rruns cr (rstep1 cr (rruns cr store0 pre) (RRequest key plain w t0 nonce)) post).
  { rewrite Hh. unfold rruns. by rewrite fold_left_app. }
  rewrite <- E in Hr'. apply old_devices_spec. split.
  - destruct (row_requested _ _ _ _ Hr') as [_ [s Hs2]]. exists s. rewrite <- Hs2. f_equal. congruence.
  - apply is_old_spec. split; [exists h0, r'; split; [done|congruence]|]. intros h r2 Hr2 Hd2. destruct (row_requested _ _ _ _ Hr2) as [Hq _].
    rewrite Hd2 in Hq. by apply (Hall h).
Qed.
Print Assumptions C66_unused_is_found.
Definition month : Z := 30 * day.
Example C66_example :
  let hist := [RRequest "key" "ta" (Whoami "@a" "A") 0 nonce1; RRequest "key" "tb" (Whoami "@b" "B") 0 nonce1; RRequest "key" "ta" WhoFails (2 * day) nonce1; RSince "@a" "A" "s"] in
  requested toy hist ("@a", "A") "ta" (2 * day) /\ old_devices (rruns toy store0 hist) (31 * day) month = [("@b", "B")].
Proof.
  cbv zeta. split; [|vm_compute; reflexivity].
  exists [RRequest "key" "ta" (Whoami "@a" "A") 0 nonce1; RRequest "key" "tb" (Whoami "@b" "B") 0 nonce1], "key", "ta", WhoFails, nonce1, [RSince "@a" "A" "s"], (mk_token "ta" "ta" "@a" "A" 0).
  split; [done|]. split; [done|]. split; [vm_compute; reflexivity|]. split; [done|]. by intros [?|[]].
Qed.

(** ** C67: reports of started pollers *)

(** C67. Every device that has a poller started is reported once, at most. *)
Theorem C67_reported_once l steps :
  let w := wruns (workers0 l) steps in
  map fst (w_reports w) ++ w_busy w ≡ₚ map fst (starts l steps).
Proof.
  assert (H : forall steps w, map fst (w_reports (wruns w steps)) ++ w_busy (wruns w steps) ≡ₚ (map fst (w_reports w) ++ w_busy w) ++ map fst (starts (w_queue w) steps)).
  { clear. induction steps as [|s steps IH]; intros w; cbn [wruns fold_left starts]; [by rewrite app_nil_r|]. fold (wruns (wstep1 w s) steps). rewrite IH.
    destruct s as [failed|n]; cbn [wstep1].
    - destruct (w_queue w) as [|t q] eqn:E; [by rewrite E|]. cbn [w_reports w_busy w_queue map fst]. by rewrite <- !app_assoc.
    - apply Permutation_app; [|by destruct (w_busy w !! n)]. destruct (w_busy w !! n) as [d|] eqn:E; [|done].
      cbn [w_reports w_busy]. rewrite map_app, <- app_assoc. cbn [map fst app]. apply Permutation_app_head. symmetry. by apply delete_Permutation. }
  cbv zeta. rewrite H. done.
Qed.
Print Assumptions C67_reported_once.
(** C67. If every report is made before the next poller is started, each says whether the
    poller of the device was started; also if no poller fails to start. Missing: workers
    that run at the same time. *)
Theorem C67_right_partial l steps : one_by_one steps -> w_reports (wruns (workers0 l) steps) = starts l steps.
Proof.
  assert (H : forall n steps w, (length steps <= n)%nat -> one_by_one steps -> w_busy w = [] ->
     w_reports (wruns w steps) = w_reports w ++ starts (w_queue w) steps).
  { clear. induction n as [|n IH]; intros steps w Hn Ho Hb.
    - destruct steps; [|cbn in Hn; lia]. cbn. by rewrite app_nil_r.
    - destruct steps as [|[failed|] [|[|[|]] steps]]; try done; [cbn; by rewrite app_nil_r|].
      cbn [wruns fold_left]. fold (wruns (wstep1 (wstep1 w (WStarted failed)) (WReport 0)) steps). cbn [one_by_one] in Ho. cbn in Hn.
      destruct (w_queue w) as [|t q] eqn:E.
      + cbn [wstep1]. rewrite E. cbn [wstep1]. rewrite Hb. cbn [lookup list_lookup]. rewrite IH by (done || lia). by rewrite E.
      + cbn [wstep1]. rewrite E, Hb. cbn [wstep1 w_busy app lookup list_lookup w_queue w_err w_reports].
        rewrite IH; [|lia|done|done]. cbn [w_reports w_queue starts]. rewrite <- app_assoc. cbn [app]. done. }
  intros Ho. rewrite (H (length steps)) by done. done.
Qed.
Theorem C67_all_started l steps : Forall (fun s => s <> WStarted true) steps -> Forall (fun x => x.2 = true) (w_reports (wruns (workers0 l) steps)).
Proof.
  assert (H : forall steps w, Forall (fun s => s <> WStarted true) steps -> w_err w = false -> Forall (fun x : string * string * bool => x.2 = true) (w_reports w) ->
     Forall (fun x => x.2 = true) (w_reports (wruns w steps))).
  { clear. induction steps as [|s steps IH]; intros w Hs He Hr; [done|]. apply Forall_cons in Hs as [Hs Hss]. cbn [wruns fold_left]. fold (wruns (wstep1 w s) steps).
    apply IH; [done|..]; destruct s as [[]|n]; cbn [wstep1]; try done.
    - by destruct (w_queue w).
    - by destruct (w_busy w !! n).
    - by destruct (w_queue w).
    - destruct (w_busy w !! n); [|done]. cbn [w_reports]. apply Forall_app. split; [done|]. rewrite He. by constructor. }
  intros Hs. apply H; [done|done|constructor].
Qed.
Print Assumptions C67_right_partial.
Definition two : list forpoller := [mk_forpoller "ta" "@a" "A" ""; mk_forpoller "tb" "@b" "B" ""].
Example C67_example : one_by_one [WStarted true; WReport 0; WStarted false; WReport 0]
  /\ w_reports (wruns (workers0 two) [WStarted true; WReport 0; WStarted false; WReport 0]) = [("@a", "A", false); ("@b", "B", true)].
Proof. done. Qed.
(** C67 fails for workers that run at the same time, as they do: they share the variable
    for the error. @a's poller was refused and @b's was not; the reports say that both were
    started, or that none was, which makes @b's client unauthorised (C42). *)
Theorem C67_shared_error_refuted :
  starts two [WStarted true; WStarted false] = [("@a", "A", false); ("@b", "B", true)]
  /\ w_reports (wruns (workers0 two) [WStarted true; WStarted false; WReport 0; WReport 0]) = [("@a", "A", true); ("@b", "B", true)]
  /\ w_reports (wruns (workers0 (rev two)) [WStarted false; WStarted true; WReport 0; WReport 0]) = [("@b", "B", false); ("@a", "A", false)].
Proof. done. Qed.
Print Assumptions C67_shared_error_refuted.
