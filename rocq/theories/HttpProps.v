(** C88: every request is answered once, and the answer says what was wrong. *)
From Coq Require Import Ascii.
From Verif Require Import Prelude RangeModel RangeSpec RangeProps HttpModel HttpSpec.
Open Scope string_scope. Open Scope list_scope. Open Scope Z_scope.

(** ** Numbers *)
Lemma digit_spec c n : digit c = Some n <-> 0 <= n <= 9 /\ c = ascii_of_nat (48 + Z.to_nat n).
Proof.
  unfold digit. split.
  - destruct ((48 <=? Z.of_nat (nat_of_ascii c)) && (Z.of_nat (nat_of_ascii c) <=? 57)) eqn:E; [|discriminate].
    apply andb_prop in E as [E1 E2]. apply Z.leb_le in E1. apply Z.leb_le in E2. intros [= <-]. split; [lia|].
    replace (48 + Z.to_nat (Z.of_nat (nat_of_ascii c) - 48))%nat with (nat_of_ascii c) by lia. symmetry. apply ascii_nat_embedding.
  - intros [Hn ->]. rewrite nat_ascii_embedding by lia.
    replace ((48 <=? Z.of_nat (48 + Z.to_nat n)) && (Z.of_nat (48 + Z.to_nat n) <=? 57)) with true; [f_equal; lia|].
    symmetry. apply andb_true_intro. split; apply Z.leb_le; lia.
Qed.
Lemma append_nil_r s : s +:+ "" = s.
Proof. induction s as [|c s IH]; [done|]. exact (f_equal (String c) IH). Qed.
Lemma append_assoc s t u : (s +:+ t) +:+ u = s +:+ (t +:+ u).
Proof. induction s as [|c s IH]; [done|]. exact (f_equal (String c) IH). Qed.
Lemma string_snoc_ind (P : string -> Prop) : P "" -> (forall s c, P s -> P (s +:+ String c "")) -> forall s, P s.
Proof.
  intros H0 Hs s. enough (G : forall s p, P p -> P (p +:+ s)) by (apply (G s ""); exact H0).
  clear s. induction s as [|c s IH]; intros p Hp.
  - by rewrite append_nil_r.
  - replace (p +:+ String c s) with ((p +:+ String c "") +:+ s) by (rewrite append_assoc; reflexivity). apply IH, Hs, Hp.
Qed.
Lemma digits_app s c : forall acc, digits acc (s +:+ String c "") =
  match digits acc s with Some m => match digit c with Some d => Some (10 * m + d) | None => None end | None => None end.
Proof. induction s as [|a s IH]; intros acc; [change ("" +:+ String c "") with (String c ""); cbn [digits]; by destruct (digit c)|].
  change (String a s +:+ String c "") with (String a (s +:+ String c "")). cbn [digits]. destruct (digit a); [apply IH|done]. Qed.
Lemma unsigned_spec s n : unsigned s = Some n <-> decimal s n.
Proof.
  split.
  - revert n. induction s as [|s c IH] using string_snoc_ind; intros n H; [discriminate|].
    assert (H' : digits 0 (s +:+ String c "") = Some n) by (destruct s; exact H). rewrite digits_app in H'.
    destruct (digits 0 s) as [m|] eqn:E; [|discriminate]. destruct (digit c) as [d|] eqn:Ed; [|discriminate]. injection H' as <-.
    apply digit_spec in Ed as [Hd Hc]. destruct s as [|a s].
    + cbn in E. injection E as <-. replace (10 * 0 + d) with d by lia. by apply decimal_one.
    + apply decimal_more; [|done|done]. apply IH. exact E.
  - induction 1 as [c n Hn Hc|s c m n Hd IH Hn Hc].
    + unfold unsigned. cbn [digits]. rewrite (proj2 (digit_spec c n) (conj Hn Hc)). f_equal; lia.
    + assert (E : digits 0 s = Some m) by (destruct s; [discriminate|exact IH]).
      transitivity (digits 0 (s +:+ String c "")); [by destruct s|]. rewrite digits_app, E. by rewrite (proj2 (digit_spec c n) (conj Hn Hc)).
Qed.
Lemma in_int64_spec m n : in_int64 m = Some n <-> m = n /\ - 2 ^ 63 <= n < 2 ^ 63.
Proof.
  unfold in_int64. destruct ((- 2 ^ 63 <=? m) && (m <? 2 ^ 63)) eqn:E.
  - apply andb_prop in E as [E1 E2]. apply Z.leb_le in E1. apply Z.ltb_lt in E2. split; [intros [= <-]; done|intros [-> _]; done].
  - split; [discriminate|]. intros [-> [H1 H2]]. apply andb_false_iff in E as [E | E]; [apply Z.leb_gt in E|apply Z.ltb_ge in E]; lia.
Qed.
Lemma ParseInt_spec s n : ParseInt s = Some n <-> integer s n.
Proof.
  unfold integer. setoid_rewrite <- unsigned_spec. destruct s as [|c s]; cbn [ParseInt].
  { split; [discriminate|]. intros [_ [H|[(s & H & _)|(s & H & _)]]]; discriminate. }
  destruct (Ascii.eqb c "+") eqn:E1; [apply Ascii.eqb_eq in E1; subst c|].
  { split.
    - destruct (unsigned s) as [m|] eqn:E; [|discriminate]. intros H. apply in_int64_spec in H as [-> H]. split; [done|]. right. left. by exists s.
    - intros [Hr [H|[(s' & H & H')|(s' & H & H')]]]; [discriminate| |discriminate]. injection H as <-. rewrite H'. by apply in_int64_spec. }
  destruct (Ascii.eqb c "-") eqn:E2; [apply Ascii.eqb_eq in E2; subst c|].
  { split.
    - destruct (unsigned s) as [m|] eqn:E; [|discriminate]. intros H. apply in_int64_spec in H as [<- H]. split; [done|]. right. right. exists s. by rewrite Z.opp_involutive.
    - intros [Hr [H|[(s' & H & H')|(s' & H & H')]]]; [discriminate|discriminate|]. injection H as <-. rewrite H'. apply in_int64_spec. by rewrite Z.opp_involutive. }
  apply Ascii.eqb_neq in E1. apply Ascii.eqb_neq in E2. split.
  - destruct (unsigned (String c s)) as [m|] eqn:E; [|discriminate]. intros H. apply in_int64_spec in H as [-> H]. split; [done|]. by left.
  - intros [Hr [H|[(s' & H & H')|(s' & H & H')]]]; [|injection H as -> _; done|injection H as -> _; done]. rewrite H. by apply in_int64_spec.
Qed.
Lemma number_pos s n : parseIntFromQuery s = Some n <-> number s 0 n.
Proof.
  unfold parseIntFromQuery, number. destruct (String.eqb_spec s "") as [-> | Hne].
  - split; [intros [= <-]; by left|]. intros [[_ ->]|[[]]]; done.
  - rewrite ParseInt_spec. split; [intros H; by right|]. intros [[? _]|[_ H]]; done.
Qed.
Lemma number_timeout s n : (if String.eqb s "" then Some 10000 else parseIntFromQuery s) = Some n <-> number s 10000 n.
Proof.
  unfold parseIntFromQuery, number. destruct (String.eqb_spec s "") as [-> | Hne].
  - split; [intros [= <-]; by left|]. intros [[_ ->]|[[]]]; done.
  - rewrite ParseInt_spec. split; [intros H; by right|]. intros [[? _]|[_ H]]; done.
Qed.

(** ** Tokens and bodies *)
Lemma strip_spec p : forall s t, strip p s = Some t <-> s = p +:+ t.
Proof.
  induction p as [|a p IH]; intros s t; cbn [strip].
  - split; [intros [= ->]; done|]. intros ->. done.
  - destruct s as [|c s]; [split; discriminate|]. destruct (Ascii.eqb_spec a c) as [-> | Hne].
    + rewrite IH. split; [intros ->; done|]. intros H. by injection H.
    + split; [discriminate|]. intros H. injection H as ? _. congruence.
Qed.
Lemma bears_spec q t : bears q t <-> ExtractAccessToken (q_auth q) = Some t /\ t <> "".
Proof.
  unfold bears, ExtractAccessToken. destruct (String.eqb_spec (q_auth q) "") as [E | E].
  - rewrite E. split; [|by intros []]. intros [Hne [H|[H _]]]; [discriminate|congruence].
  - split.
    + intros [Hne [H|[H Hb]]]; (split; [|done]).
      * rewrite (proj2 (strip_spec "Bearer " (q_auth q) t) H). done.
      * destruct (strip "Bearer " (q_auth q)) as [t'|] eqn:Es; [|by rewrite H]. apply strip_spec in Es. exfalso. apply (Hb t'). congruence.
    + intros [H Hne]. split; [done|]. destruct (strip "Bearer " (q_auth q)) as [t'|] eqn:Es; injection H as <-.
      * left. by apply strip_spec.
      * right. split; [done|]. intros t Ht. rewrite (proj2 (strip_spec "Bearer " (q_auth q) t) Ht) in Es. discriminate.
Qed.
Lemma acceptable_spec b : acceptable b <-> Validate b = true /\ forallb (fun l => valid l.2) (b_lists b) = true.
Proof.
  unfold acceptable, Validate. rewrite andb_true_iff, !Nat.leb_le, forallb_forall. split.
  - intros (H1 & H2 & H3). split; [done|]. intros [key r] Hin. apply C04_validation_is_exact. by apply (H3 key).
  - intros [[H1 H2] H3]. split; [done|]. split; [done|]. intros key r Hin. apply C04_validation_is_exact. by apply (H3 (key, r)).
Qed.
Lemma empty_acceptable : acceptable (mk_fields "" "" []).
Proof. by apply acceptable_spec. Qed.
Lemma serve_sent v q b : sent q b -> acceptable b -> serve v q = serve_body v q b.
Proof.
  intros [[H ->]|H] Ha; unfold serve; rewrite H; [done|]. apply acceptable_spec in Ha as [Ha _]. by rewrite Ha.
Qed.
(** Finding out whose token it is. *)
Definition find (v : env) (token : string) : list effect * (string * string + herr) :=
  match v_token v token with
  | Known user dev => ([], inl (user, dev))
  | Unknown => identifyUnknownAccessToken v token
  | TableFails => ([], inr (mk_herr 500 true ""))
  end.
Lemma find_spec v token user dev : identified v token user dev <-> exists es, find v token = (es, inl (user, dev)).
Proof.
  unfold identified, find, identifyUnknownAccessToken, WhoAmI. split.
  - intros [-> | (-> & -> & ->)]; [by eexists|]. cbn. by eexists.
  - intros [es H]. destruct (v_token v token) as [u d| |]; [injection H as _ -> ->; by left| |discriminate].
    right. destruct (v_who v token) as [|st u d]; [discriminate|]. destruct (st =? 200) eqn:E; cbn [negb] in H.
    + apply Z.eqb_eq in E. subst st. destruct (v_insert v); [|discriminate]. injection H as _ -> ->. done.
    + destruct (st =? 401); discriminate.
Qed.
Lemma find_err v token es h : find v token = (es, inr h) -> h_err h = true /\ (h_status h = 401 \/ h_status h = 500 \/ h_status h = 502) /\ h_code h <> "M_UNKNOWN_POS".
Proof.
  unfold find, identifyUnknownAccessToken, WhoAmI. intros H.
  repeat match type of H with context [match ?x with _ => _ end] => destruct x end;
    try discriminate H; injection H as _ <-; cbn; repeat split; first [lia|discriminate].
Qed.
Definition connect (v : env) (q : request) (es : list effect) (user dev : string) (b : fields) : list effect * (connid + herr) :=
  let c := (user, dev, b_conn b) in
  if negb (String.eqb (q_pos q) "") then
    if v_conn v c then (es ++ [Took c], inl c) else (es, inr (mk_herr 400 true "M_UNKNOWN_POS"))
  else if v_expired v user dev then (es ++ [Polled user dev], inr (mk_herr 401 true "M_UNKNOWN_TOKEN"))
  else if v_gone v then (es ++ [Polled user dev], inr (mk_herr 400 true ""))
  else if negb (v_cache v user) then (es ++ [Polled user dev], inr (mk_herr 500 true ""))
  else (es ++ [Polled user dev; Created c], inl c).
Lemma setup_eq v q b : setupConnection v q b =
  match ExtractAccessToken (q_auth q) with
  | None => ([], inr (mk_herr 401 true ""))
  | Some token =>
      if String.eqb token "" then ([], inr (mk_herr 401 false ""))
      else match find v token with (es, inr h) => (es, inr h) | (es, inl (user, dev)) => connect v q es user dev b end
  end.
Proof. reflexivity. Qed.
Lemma setup_bears v q b token : bears q token ->
  setupConnection v q b = match find v token with (es, inr h) => (es, inr h) | (es, inl (user, dev)) => connect v q es user dev b end.
Proof. intros [H Hne]%bears_spec. rewrite setup_eq, H. by destruct (String.eqb_spec token ""). Qed.
Lemma connect_ok v q es user dev b : connected v q (user, dev, b_conn b) -> exists es', connect v q es user dev b = (es', inl (user, dev, b_conn b)).
Proof.
  unfold connected, connect. cbn [fst snd]. intros [[H1 H2]|(H1 & H2 & H3 & H4)].
  - destruct (String.eqb_spec (q_pos q) ""); [done|]. cbn [negb]. rewrite H2. by eexists.
  - rewrite H1. cbn [negb String.eqb]. rewrite H2, H3, H4. by eexists.
Qed.
Lemma connect_inl v q es user dev b es' c : connect v q es user dev b = (es', inl c) -> c = (user, dev, b_conn b) /\ connected v q c.
Proof.
  unfold connected, connect. destruct (String.eqb_spec (q_pos q) "") as [Hp | Hp]; cbn [negb].
  - destruct (v_expired v user dev) eqn:E1; [discriminate|]. destruct (v_gone v) eqn:E2; [discriminate|].
    destruct (v_cache v user) eqn:E3; [|discriminate]. cbn [negb]. intros [= _ <-]. split; [done|]. by right.
  - destruct (v_conn v (user, dev, b_conn b)) eqn:E; [|discriminate]. intros [= _ <-]. split; [done|]. by left.
Qed.
Lemma setup_inl v q b es c : setupConnection v q b = (es, inl c) ->
  exists token user dev, bears q token /\ identified v token user dev /\ c = (user, dev, b_conn b) /\ connected v q c.
Proof.
  rewrite setup_eq. destruct (ExtractAccessToken (q_auth q)) as [token|] eqn:Et; [|discriminate].
  destruct (String.eqb_spec token "") as [-> | Hne]; [discriminate|].
  destruct (find v token) as [es0 [[user dev]|h]] eqn:Ef; [|discriminate]. intros H. apply connect_inl in H as [-> Hc].
  exists token, user, dev. split; [by apply bears_spec|]. split; [apply find_spec; by eexists|]. done.
Qed.

(** ** When a request is answered with a response *)
Theorem C88_served : forall v q r,
  (handle v q).2 = Some [Status 200; Body (Response r)] <-> q_method q = "POST" /\ in_order v q r /\ v_encode v = EncodedOk.
Proof.
  intros v q r. unfold handle. destruct (String.eqb_spec (q_method q) "OPTIONS") as [Ho | Ho].
  { cbn [snd]. rewrite Ho. split; [discriminate|]. intros [? _]. discriminate. }
  unfold ServeHTTP. destruct (String.eqb_spec (q_method q) "POST") as [Hp | Hp]; cbn [negb].
  2:{ cbn [snd]. split; [discriminate|]. intros [? _]. done. }
  split.
  - intros H. split; [done|].
    assert (Hs : exists es, serve v q = (es, [Status 200; Body (Response r)], Some None)).
    { destruct (serve v q) as [[es ws] [[h|]|]]; cbn [snd] in H; [|injection H as ->; by eexists|discriminate].
      destruct (h_err h); [|discriminate]. exfalso. injection H as H. destruct ws as [|w1 [|w2 ws]]; cbn [app] in H.
      - destruct (String.eqb (h_code h) "M_UNKNOWN_POS"); discriminate.
      - injection H as _ H. destruct (String.eqb (h_code h) "M_UNKNOWN_POS"); cbn [app] in H; discriminate.
      - injection H as _ _ H. destruct ws; [|discriminate]. destruct (String.eqb (h_code h) "M_UNKNOWN_POS"); discriminate. }
    destruct Hs as [es Hs].
    assert (Hb : exists b, sent q b /\ acceptable b /\ serve_body v q b = (es, [Status 200; Body (Response r)], Some None)).
    { unfold serve in Hs. destruct (q_body q) as [| |b] eqn:Eb; [|discriminate|].
      - exists (mk_fields "" "" []). split; [by left|]. split; [apply empty_acceptable|]. done.
      - destruct (Validate b) eqn:Ev; [|discriminate]. cbn [negb] in Hs. exists b. split; [by right|].
        split; [|done]. apply acceptable_spec. split; [done|]. unfold serve_body in Hs.
        destruct (forallb (fun l => valid l.2) (b_lists b)); [done|discriminate]. }
    destruct Hb as (b & Hsent & Ha & Hb). unfold serve_body in Hb. pose proof (proj1 (acceptable_spec b) Ha) as [_ Hv].
    rewrite Hv in Hb. cbn [negb] in Hb. destruct (setupConnection v q b) as [es0 [c|h]] eqn:Es.
    2:{ unfold logged in Hb. discriminate. }
    destruct (parseIntFromQuery (q_pos q)) as [pos|] eqn:Epos; [|discriminate].
    destruct (if String.eqb (q_timeout q) "" then Some 10000 else parseIntFromQuery (q_timeout q)) as [timeout|] eqn:Eto; [|discriminate].
    destruct (v_answer v c b pos timeout) as [r'|st code] eqn:Ea; [|discriminate].
    destruct (v_encode v); [|discriminate|discriminate]. injection Hb as _ ->. split; [|done].
    apply setup_inl in Es as (token & user & dev & Hbe & Hid & -> & Hc).
    exists b, token, user, dev, pos, timeout. split; [done|]. split; [done|]. split; [done|]. split; [done|].
    split; [by apply number_pos|]. split; [by apply number_timeout|]. done.
  - intros (_ & (b & token & user & dev & pos & timeout & Hsent & Ha & Hb & Hid & Hpos & Hto & Hc & Hr) & He).
    rewrite (serve_sent v q b Hsent Ha). unfold serve_body. apply acceptable_spec in Ha as [_ Ha]. rewrite Ha. cbn [negb].
    rewrite (setup_bears v q b token Hb). apply find_spec in Hid as [es Hf]. rewrite Hf.
    destruct (connect_ok v q es user dev b Hc) as [es' Hc']. rewrite Hc'.
    apply number_pos in Hpos. rewrite Hpos. apply number_timeout in Hto. rewrite Hto. rewrite Hr, He. done.
Qed.
Print Assumptions C88_served.

(** ** One answer *)
Definition one_answer (ws : list write) : Prop :=
  (exists n, ws = [Status n]) \/ (exists r, ws = [Status 200; Body (Response r)]) \/ exists n code, n <> 200 /\ answered_with ws n code.
Lemma answered n code : (if String.eqb code "M_UNKNOWN_POS" then [] else [Pause]) ++ [Status n; Body (Error n code)] =
  (if decide (code = "M_UNKNOWN_POS") then [] else [Pause]) ++ [Status n; Body (Error n code)].
Proof. destruct (String.eqb_spec code "M_UNKNOWN_POS") as [E | E]; destruct (decide (code = "M_UNKNOWN_POS")); done. Qed.
Lemma setup_err v q b es h : q_auth q <> "Bearer " -> setupConnection v q b = (es, inr h) ->
  h_err h = true /\ (h_status h = 400 \/ h_status h = 401 \/ h_status h = 500 \/ h_status h = 502).
Proof.
  intros Hq. rewrite setup_eq. destruct (ExtractAccessToken (q_auth q)) as [token|] eqn:Et; [|intros [= _ <-]; cbn; auto].
  destruct (String.eqb_spec token "") as [-> | Hne].
  { exfalso. unfold ExtractAccessToken in Et. destruct (String.eqb_spec (q_auth q) "") as [E | E]; [discriminate|].
    destruct (strip "Bearer " (q_auth q)) as [t|] eqn:Es; [|injection Et as Et; done].
    injection Et as ->. apply strip_spec in Es. by apply Hq. }
  destruct (find v token) as [es0 [[user dev]|h0]] eqn:Ef.
  - unfold connect. intros H. repeat match type of H with context [if ?x then _ else _] => destruct x end; try discriminate H; injection H as _ <-; cbn; auto 10.
  - intros [= _ <-]. apply find_err in Ef as (H1 & H2 & _). split; [done|]. tauto.
Qed.

Theorem C88_one_answer_partial : forall v q,
  q_auth q <> "Bearer " -> v_encode v = EncodedOk -> (forall c b pos timeout code, v_answer v c b pos timeout <> Refusal 200 code) ->
  exists ws, (handle v q).2 = Some ws /\ one_answer ws.
Proof.
  intros v q Hq He Hr. unfold handle. destruct (String.eqb (q_method q) "OPTIONS"); [eexists; split; [done|]; left; by eexists|].
  unfold ServeHTTP. destruct (String.eqb (q_method q) "POST"); cbn [negb]; [|eexists; split; [done|]; left; by eexists].
  assert (G : (exists r, (serve v q).1.2 = [Status 200; Body (Response r)] /\ (serve v q).2 = Some None) \/
              (exists h, (serve v q).1.2 = [] /\ (serve v q).2 = Some (Some h) /\ h_err h = true /\ h_status h <> 200)).
  { assert (Gb : forall b, (exists r, (serve_body v q b).1.2 = [Status 200; Body (Response r)] /\ (serve_body v q b).2 = Some None) \/
              (exists h, (serve_body v q b).1.2 = [] /\ (serve_body v q b).2 = Some (Some h) /\ h_err h = true /\ h_status h <> 200)).
    { intros b. unfold serve_body, bad. destruct (negb (forallb (fun l => valid l.2) (b_lists b))); [right; by eexists|].
      destruct (setupConnection v q b) as [es [c|h]] eqn:Es.
      - destruct (parseIntFromQuery (q_pos q)) as [pos|]; [|right; by eexists].
        destruct (if String.eqb (q_timeout q) "" then _ else _) as [timeout|]; [|right; by eexists].
        specialize (Hr c b pos timeout). destruct (v_answer v c b pos timeout) as [r|st code].
        + rewrite He. left. by eexists.
        + right. eexists. cbn. split; [done|]. split; [done|]. cbn. split; [done|]. intros ->. by apply (Hr code).
      - apply (setup_err v q b es h Hq) in Es as [H1 H2]. right. exists h. unfold logged. rewrite H1. cbn. split; [done|]. split; [done|]. split; [done|]. lia. }
    unfold serve, bad. destruct (q_body q) as [| |b]; [apply Gb|right; by eexists|]. destruct (Validate b); [apply Gb|right; by eexists]. }
  destruct (serve v q) as [[es ws] o]. cbn [fst snd] in G. destruct G as [(r & -> & ->)|(h & -> & -> & Hh & Hs)].
  - eexists. split; [done|]. right. left. by eexists.
  - rewrite Hh. cbn [snd app]. eexists. split; [done|]. right. right. exists (h_status h), (h_code h). split; [done|]. apply answered.
Qed.
Print Assumptions C88_one_answer_partial.

(** ** What errors say *)
Lemma handle_post v q : q_method q = "POST" -> handle v q =
  match serve v q with
  | (es, ws, None) => (es, None)
  | (es, ws, Some None) => (es, Some ws)
  | (es, ws, Some (Some h)) =>
      (es, if h_err h then
             Some (ws ++ (if String.eqb (h_code h) "M_UNKNOWN_POS" then [] else [Pause])
                     ++ [Status (h_status h); Body (Error (h_status h) (h_code h))])
           else None)
  end.
Proof. intros H. unfold handle, ServeHTTP. by rewrite H. Qed.
Definition error (o : list effect * option (list write)) (n : Z) (code : string) : Prop := exists ws, o.2 = Some ws /\ answered_with ws n code.

(** A request whose body or token is no good is refused, and nothing is done. *)
Theorem C88_malformed : forall v q,
  (q_method q <> "POST" -> q_method q <> "OPTIONS" -> handle v q = ([], Some [Status 405])) /\
  (q_method q = "POST" ->
   (q_body q = Undecodable \/ (exists b, sent q b /\ ~ acceptable b) -> error (handle v q) 400 "" /\ (handle v q).1 = []) /\
   (forall b, sent q b -> acceptable b -> q_auth q = "" -> error (handle v q) 401 "" /\ (handle v q).1 = [])).
Proof.
  intros v q. split.
  { intros H1 H2. unfold handle, ServeHTTP. destruct (String.eqb_spec (q_method q) "OPTIONS"); [done|]. by destruct (String.eqb_spec (q_method q) "POST"). }
  intros Hp. rewrite (handle_post v q Hp). split.
  - intros Hb. assert (E : serve v q = bad []).
    { unfold serve. destruct Hb as [-> | (b & [[H ->]|H] & Hb)]; [done| |].
      - destruct Hb. apply empty_acceptable.
      - rewrite H. destruct (Validate b) eqn:Ev; [|done]. cbn [negb]. unfold serve_body.
        destruct (forallb (fun l => valid l.2) (b_lists b)) eqn:Ef; [|done]. destruct Hb. by apply acceptable_spec. }
    rewrite E. cbn. split; [|done]. eexists. split; [done|]. apply (answered _ "").
  - intros b Hs Ha Hq. rewrite (serve_sent v q b Hs Ha). unfold serve_body. apply acceptable_spec in Ha as [_ Ha]. rewrite Ha. cbn [negb].
    rewrite setup_eq, Hq. cbn. split; [|done]. eexists. split; [done|]. apply (answered _ "").
Qed.
Print Assumptions C88_malformed.

(** Otherwise the error says what was wrong. *)
Theorem C88_errors : forall v q b token,
  q_method q = "POST" -> sent q b -> acceptable b -> bears q token ->
  (v_token v token = TableFails -> error (handle v q) 500 "") /\
  (forall user dev, v_token v token = Unknown -> v_who v token = Said 401 user dev -> error (handle v q) 401 "M_UNKNOWN_TOKEN") /\
  (v_token v token = Unknown -> v_who v token = NoAnswer \/ (exists st user dev, v_who v token = Said st user dev /\ st <> 200 /\ st <> 401) ->
     error (handle v q) 502 "") /\
  forall user dev, identified v token user dev ->
    (q_pos q <> "" -> v_conn v (user, dev, b_conn b) = false -> error (handle v q) 400 "M_UNKNOWN_POS") /\
    (q_pos q = "" -> v_expired v user dev = true -> error (handle v q) 401 "M_UNKNOWN_TOKEN") /\
    (q_pos q = "" -> v_expired v user dev = false -> v_gone v = false -> v_cache v user = false -> error (handle v q) 500 "") /\
    (connected v q (user, dev, b_conn b) ->
       ((forall pos, ~ number (q_pos q) 0 pos) \/ (forall timeout, ~ number (q_timeout q) 10000 timeout) -> error (handle v q) 400 "") /\
       (forall pos timeout n code, number (q_pos q) 0 pos -> number (q_timeout q) 10000 timeout ->
          v_answer v (user, dev, b_conn b) b pos timeout = Refusal n code -> error (handle v q) n code)).
Proof.
  intros v q b token Hp Hs Ha Hb. rewrite (handle_post v q Hp), (serve_sent v q b Hs Ha). unfold serve_body.
  apply acceptable_spec in Ha as [_ Ha]. rewrite Ha. cbn [negb]. rewrite (setup_bears v q b token Hb).
  assert (Err : forall es n code, error (es, Some ([] ++ (if String.eqb code "M_UNKNOWN_POS" then [] else [Pause]) ++ [Status n; Body (Error n code)])) n code).
  { intros es n code. eexists. split; [done|]. apply answered. }
  split; [|split; [|split]].
  - intros H. unfold find. rewrite H. apply (Err [] 500 "").
  - intros user dev H1 H2. unfold find, identifyUnknownAccessToken, WhoAmI. rewrite H1, H2. apply (Err _ 401 "M_UNKNOWN_TOKEN").
  - intros H1 H2. unfold find, identifyUnknownAccessToken, WhoAmI. rewrite H1. destruct H2 as [-> | (st & user & dev & -> & H2 & H3)].
    + apply (Err _ 502 "").
    + destruct (Z.eqb_spec st 200); [done|]. cbn [negb]. destruct (Z.eqb_spec st 401); [done|]. apply (Err _ 502 "").
  - intros user dev Hid. apply find_spec in Hid as [es Hf]. rewrite Hf. split; [|split; [|split]].
    + intros H1 H2. unfold connect. destruct (String.eqb_spec (q_pos q) ""); [done|]. cbn [negb]. rewrite H2. apply (Err _ 400 "M_UNKNOWN_POS").
    + intros H1 H2. unfold connect. rewrite H1. cbn [negb String.eqb]. rewrite H2. apply (Err _ 401 "M_UNKNOWN_TOKEN").
    + intros H1 H2 H3 H4. unfold connect. rewrite H1. cbn [negb String.eqb]. rewrite H2, H3, H4. apply (Err _ 500 "").
    + intros Hc. destruct (connect_ok v q es user dev b Hc) as [es' Hc']. rewrite Hc'. split.
      * intros Hn. destruct (parseIntFromQuery (q_pos q)) as [pos|] eqn:E1; [|apply (Err _ 400 "")].
        destruct (if String.eqb (q_timeout q) "" then _ else _) as [timeout|] eqn:E2; [|apply (Err _ 400 "")].
        apply number_pos in E1. apply number_timeout in E2. exfalso. destruct Hn as [Hn|Hn]; [by apply (Hn pos)|by apply (Hn timeout)].
      * intros pos timeout n code H1 H2 H3. apply number_pos in H1. apply number_timeout in H2. rewrite H1, H2, H3. apply (Err _ n code).
Qed.
Print Assumptions C88_errors.

(** ** For whom *)
(** Nothing is done for anybody but the one whose token the request bears. *)
Theorem C88_own : forall v q e who,
  In e (handle v q).1 -> done_for e = Some who -> exists token, bears q token /\ identified v token who.1 who.2.
Proof.
  intros v q e who. unfold handle. destruct (String.eqb (q_method q) "OPTIONS"); [by intros []|].
  unfold ServeHTTP. destruct (String.eqb (q_method q) "POST"); cbn [negb]; [|by intros []].
  assert (G : In e (serve v q).1.1 -> done_for e = Some who -> exists token, bears q token /\ identified v token who.1 who.2).
  2:{ destruct (serve v q) as [[es ws] [[h|]|]]; exact G. }
  assert (Gs : forall b es x, setupConnection v q b = (es, x) -> In e es -> done_for e = Some who -> exists token, bears q token /\ identified v token who.1 who.2).
  { intros b es x. rewrite setup_eq. destruct (ExtractAccessToken (q_auth q)) as [token|] eqn:Et; [|intros [= <- _]; by intros []].
    destruct (String.eqb_spec token "") as [-> | Hne]; [intros [= <- _]; by intros []|].
    assert (Hb : bears q token) by by apply bears_spec.
    assert (Gf : forall es0 y, find v token = (es0, y) -> In e es0 -> done_for e = Some who -> identified v token who.1 who.2).
    { intros es0 y Hf. assert (Hi := fun u d => proj2 (find_spec v token u d)). rewrite Hf in Hi. unfold find, identifyUnknownAccessToken, WhoAmI in Hf.
      destruct (v_token v token) as [u d| |]; [injection Hf as <- _; by intros []| |injection Hf as <- _; by intros []].
      destruct (v_who v token) as [|st u d]; [injection Hf as <- _; intros [<-|[]]; discriminate|].
      destruct (negb (st =? 200)); [destruct (st =? 401); injection Hf as <- _; intros [<-|[]]; discriminate|].
      destruct (v_insert v); [|injection Hf as <- _; intros [<-|[]]; discriminate]. injection Hf as <- <-.
      intros [<-|[<-|[]]]; [discriminate|]. intros [= <-]. apply Hi. by eexists. }
    destruct (find v token) as [es0 [[user dev]|h]] eqn:Ef.
    - assert (Hid : identified v token user dev) by (apply find_spec; by eexists). unfold connect. intros H Hin Hd. exists token. split; [done|].
      assert (Hc : In e es0 \/ done_for e = Some (user, dev)).
      { repeat match type of H with context [if ?x then _ else _] => destruct x end; injection H as <- _; rewrite ?in_app_iff in Hin; cbn [In] in Hin;
          repeat match goal with Hin : _ \/ _ |- _ => destruct Hin as [Hin|Hin] end; try done; try (by left); right; by rewrite <- Hin. }
      destruct Hc as [Hc|Hc]; [by apply (Gf es0 _ eq_refl)|]. rewrite Hc in Hd. injection Hd as <-. done.
    - intros [= <- _] Hin Hd. exists token. split; [done|]. by apply (Gf es0 _ eq_refl). }
  assert (Gb : forall b, In e (serve_body v q b).1.1 -> done_for e = Some who -> exists token, bears q token /\ identified v token who.1 who.2).
  { intros b. unfold serve_body, bad, logged. destruct (negb (forallb (fun l => valid l.2) (b_lists b))); [by intros []|].
    destruct (setupConnection v q b) as [es [c|h]] eqn:Es; [|by apply (Gs b es _ Es)].
    destruct (parseIntFromQuery (q_pos q)) as [pos|]; [|by apply (Gs b es _ Es)].
    destruct (if String.eqb (q_timeout q) "" then _ else _) as [timeout|]; [|by apply (Gs b es _ Es)].
    intros Hin. assert (Hin' : In e (es ++ [Ran c pos timeout])) by (destruct (v_answer v c b pos timeout); [destruct (v_encode v)|]; exact Hin).
    apply in_app_iff in Hin' as [Hin'|[<-|[]]]; [by apply (Gs b es _ Es)|]. intros [= <-].
    apply setup_inl in Es as (token & user & dev & Hb & Hid & -> & _). by exists token. }
  unfold serve, bad. destruct (q_body q) as [| |b]; [apply Gb|by intros []|]. destruct (Validate b); [apply Gb|by intros []].
Qed.
Print Assumptions C88_own.

(** ** Examples *)
(** A deployment with one user the table knows, one the homeserver knows, and a connection of the first. *)
Definition env0 : env := {|
  v_token t := if String.eqb t "tokA" then Known "@a:x" "A" else Unknown;
  v_who t := if String.eqb t "tokB" then Said 200 "@b:x" "B" else if String.eqb t "odd" then Said 200 "" "" else if String.eqb t "old" then Said 401 "" ""
             else if String.eqb t "down" then Said 500 "" "" else NoAnswer;
  v_insert := true;
  v_conn c := bool_decide (c = ("@a:x", "A", "main"));
  v_expired u d := String.eqb u "@e:x";
  v_gone := false;
  v_cache u := true;
  v_answer c b pos timeout := if pos =? 7 then Refusal 400 "M_UNKNOWN_POS" else Reply "answer";
  v_encode := EncodedOk |}.
Definition post (auth conn pos timeout : string) : request :=
  {| q_method := "POST"; q_auth := auth; q_body := Decoded (mk_fields conn "t1" [("l", [(0, 9); (20, 29)])]); q_pos := pos; q_timeout := timeout |}.

Example C88_example :
  handle env0 (post "Bearer tokA" "main" "3" "500") =
    ([Took ("@a:x", "A", "main"); Ran ("@a:x", "A", "main") 3 500], Some [Status 200; Body (Response "answer")]) /\
  handle env0 (post "tokB" "new" "" "") =
    ([Asked "tokB"; Stored "tokB" "@b:x" "B"; Polled "@b:x" "B"; Created ("@b:x", "B", "new"); Ran ("@b:x", "B", "new") 0 10000],
     Some [Status 200; Body (Response "answer")]) /\
  (handle env0 (post "Bearer tokA" "main" "7" "")).2 = Some [Status 400; Body (Error 400 "M_UNKNOWN_POS")] /\
  (handle env0 (post "Bearer tokA" "gone" "7" "")).2 = Some [Status 400; Body (Error 400 "M_UNKNOWN_POS")] /\
  (handle env0 (post "Bearer old" "main" "3" "")).2 = Some [Pause; Status 401; Body (Error 401 "M_UNKNOWN_TOKEN")] /\
  (handle env0 (post "Bearer down" "main" "3" "")).2 = Some [Pause; Status 502; Body (Error 502 "")] /\
  (handle env0 (post "" "main" "3" "")).2 = Some [Pause; Status 401; Body (Error 401 "")].
Proof. vm_compute. repeat split. Qed.
(** What the theorems above ask for is met by the first of these. *)
Example C88_hypotheses :
  let q := post "Bearer tokA" "main" "3" "500" in
  in_order env0 q "answer" /\ q_auth q <> "Bearer " /\ (forall c b pos timeout code, v_answer env0 c b pos timeout <> Refusal 200 code).
Proof.
  cbv zeta. split; [|split; [discriminate|]].
  - apply (C88_served env0). vm_compute. reflexivity.
  - intros c b pos timeout code. cbn. by destruct (pos =? 7).
Qed.

(** ** Where it fails *)
(** A token that is there but empty makes the handler panic: the client gets no answer. (The standard library recovers
    from the panic by dropping the connection. A header ending in a space only gets this far over HTTP/2.) *)
Theorem C88_empty_token_refuted : exists v q, q_method q = "POST" /\ v_encode v = EncodedOk /\ (handle v q).2 = None.
Proof. exists env0, (post "Bearer " "main" "3" ""). vm_compute. repeat split. Qed.
(** When the response cannot be encoded, the answer has status 200 and an error in its body. *)
Theorem C88_encoding_refuted : exists v q code, (handle v q).2 = Some [Status 200; Pause; Status 500; Body (Error 500 code)].
Proof.
  exists {| v_token := v_token env0; v_who := v_who env0; v_insert := true; v_conn := v_conn env0; v_expired := v_expired env0;
            v_gone := false; v_cache := v_cache env0; v_answer := v_answer env0; v_encode := EncodeFails |},
    (post "Bearer tokA" "main" "3" ""), "". vm_compute. reflexivity.
Qed.
(** A request refused as malformed may have had effects by then: its connection was replaced, so the client's
    session on it is over. *)
Theorem C88_no_effect_refuted : exists v q c,
  In (Created c) (handle v q).1 /\ v_conn v c = true /\ error (handle v q) 400 "" /\ forall n, ~ number (q_timeout q) 10000 n.
Proof.
  exists env0, (post "Bearer tokA" "main" "" "5s"), ("@a:x", "A", "main"). split; [|split; [|split]].
  - vm_compute. right. left. reflexivity.
  - vm_compute. reflexivity.
  - eexists. split; vm_compute; reflexivity.
  - intros n H. apply number_timeout in H. vm_compute in H. discriminate.
Qed.
(** A position that is no number is reported as a session that ended, if there is no session. *)
Theorem C88_bad_position_refuted : exists v q, (forall n, ~ number (q_pos q) 0 n) /\ error (handle v q) 400 "M_UNKNOWN_POS".
Proof.
  exists env0, (post "Bearer tokA" "gone" "abc" ""). split.
  - intros n H. apply number_pos in H. vm_compute in H. discriminate.
  - eexists. split; vm_compute; reflexivity.
Qed.
(** A homeserver that says yes without saying who makes the token that of a user with no name. *)
Theorem C88_nameless_refuted : exists v q token, bears q token /\ In (Stored token "" "") (handle v q).1 /\
  (handle v q).2 = Some [Status 200; Body (Response "answer")].
Proof.
  exists env0, (post "Bearer odd" "main" "" ""), "odd". split; [|split].
  - split; [discriminate|]. by left.
  - vm_compute. right. left. reflexivity.
  - vm_compute. reflexivity.
Qed.
Print Assumptions C88_empty_token_refuted.
Print Assumptions C88_encoding_refuted.
Print Assumptions C88_no_effect_refuted.
Print Assumptions C88_bad_position_refuted.
Print Assumptions C88_nameless_refuted.
