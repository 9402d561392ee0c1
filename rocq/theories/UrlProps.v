(** C89: the homeserver is asked for what comes after the token it gave, whatever the token is. *)
From Coq Require Import Ascii.
From Verif Require Import Prelude UrlModel UrlSpec.
Open Scope string_scope. Open Scope list_scope. Open Scope nat_scope.

(** ** Escaping *)
Definition safe (c : ascii) : bool := unreserved c || Ascii.eqb c "+" || Ascii.eqb c "%".
Lemma unreserved_plain c : unreserved c = true -> Ascii.eqb c "%" = false /\ Ascii.eqb c "+" = false.
Proof. destruct c as [[] [] [] [] [] [] [] []]; cbv; intros H; try discriminate H; done. Qed.
Lemma safe_plain c : safe c = true -> Ascii.eqb c "&" = false /\ Ascii.eqb c "=" = false /\ Ascii.eqb c "?" = false /\ Ascii.eqb c "#" = false.
Proof. destruct c as [[] [] [] [] [] [] [] []]; cbv; intros H; try discriminate H; done. Qed.
Lemma upperhex_spec n : n < 16 -> hexdigit (upperhex n) = Some n /\ unreserved (upperhex n) = true.
Proof. intros H. do 16 (destruct n as [|n]; [done|]). lia. Qed.
Lemma unescape_escape s : unescape (QueryEscape s) = Some s.
Proof.
  induction s as [|c s IH]; [done|]. cbn [QueryEscape]. destruct (unreserved c) eqn:Eu.
  - apply unreserved_plain in Eu as [E1 E2]. cbn [unescape]. by rewrite E1, E2, IH.
  - destruct (Ascii.eqb_spec c " ") as [-> | Hc].
    + cbn [unescape]. change (Ascii.eqb "+" "%") with false. cbv iota. by rewrite IH.
    + assert (Hn := nat_ascii_bounded c). cbn [unescape]. rewrite Ascii.eqb_refl.
      destruct (upperhex_spec (nat_of_ascii c / 16)) as [-> _]; [apply Nat.div_lt_upper_bound; lia|].
      destruct (upperhex_spec (nat_of_ascii c mod 16)) as [-> _]; [apply Nat.mod_upper_bound; lia|].
      rewrite IH, <- Nat.div_mod by lia. by rewrite ascii_nat_embedding.
Qed.
Fixpoint all (p : ascii -> bool) (s : string) : bool := match s with EmptyString => true | String c s => p c && all p s end.
Lemma all_mono (p q : ascii -> bool) : (forall c, p c = true -> q c = true) -> forall s, all p s = true -> all q s = true.
Proof. intros H s. induction s as [|c s IH]; [done|]. cbn [all]. intros [H1 H2]%andb_prop. rewrite H by done. by apply IH. Qed.
Lemma all_app p s t : all p (s +:+ t) = all p s && all p t.
Proof. induction s as [|c s IH]; [done|]. change (String c s +:+ t) with (String c (s +:+ t)). cbn [all]. by rewrite IH, andb_assoc. Qed.
Lemma escape_safe s : all safe (QueryEscape s) = true.
Proof.
  induction s as [|c s IH]; [done|]. cbn [QueryEscape]. unfold safe in *. destruct (unreserved c) eqn:Eu; [cbn [all]; by rewrite Eu, IH|].
  destruct (Ascii.eqb c " "); [cbn [all]; by rewrite IH|]. assert (Hn := nat_ascii_bounded c). cbn [all].
  destruct (upperhex_spec (nat_of_ascii c / 16)) as [_ ->]; [apply Nat.div_lt_upper_bound; lia|].
  destruct (upperhex_spec (nat_of_ascii c mod 16)) as [_ ->]; [apply Nat.mod_upper_bound; lia|]. by rewrite IH.
Qed.
Definition avoids (c : ascii) : string -> bool := all (fun a => negb (Ascii.eqb a c)).
Lemma escape_avoids c s : c = "&"%char \/ c = "="%char \/ c = "?"%char \/ c = "#"%char -> avoids c (QueryEscape s) = true.
Proof.
  intros Hc. apply (all_mono safe); [|apply escape_safe]. intros a Ha. apply safe_plain in Ha as (H1 & H2 & H3 & H4).
  destruct Hc as [-> |[-> |[-> | ->]]]; by rewrite ?H1, ?H2, ?H3, ?H4.
Qed.
Lemma avoids_spec c s : (forall a b, s <> a +:+ String c b) -> avoids c s = true.
Proof.
  induction s as [|x s IH]; intros H; [done|]. unfold avoids. cbn [all]. destruct (Ascii.eqb_spec x c) as [-> | Hx]; [by destruct (H "" s)|].
  cbn [negb andb]. apply IH. intros a b E. apply (H (String x a) b). by rewrite E.
Qed.

(** ** Taking apart *)
Lemma cut_none c s : avoids c s = true -> cut c s = None.
Proof. induction s as [|x s IH]; [done|]. unfold avoids. cbn [all cut]. destruct (Ascii.eqb x c); [done|]. cbn [negb andb]. intros H. by rewrite IH. Qed.
Lemma cut_app c s t : avoids c s = true -> cut c (s +:+ String c t) = Some (s, t).
Proof.
  induction s as [|x s IH].
  - intros _. change ("" +:+ String c t) with (String c t). cbn [cut]. by rewrite Ascii.eqb_refl.
  - change (String x s +:+ String c t) with (String x (s +:+ String c t)). unfold avoids. cbn [all cut].
    destruct (Ascii.eqb x c); [done|]. cbn [negb andb]. intros H. by rewrite IH.
Qed.
Lemma pieces_one c s : avoids c s = true -> pieces c s = [s].
Proof. induction s as [|x s IH]; [done|]. unfold avoids. cbn [all pieces]. destruct (Ascii.eqb x c); [done|]. cbn [negb andb]. intros H. by rewrite IH. Qed.
Lemma pieces_app c s t : avoids c s = true -> pieces c (s +:+ String c t) = s :: pieces c t.
Proof.
  induction s as [|x s IH].
  - intros _. change ("" +:+ String c t) with (String c t). cbn [pieces]. by rewrite Ascii.eqb_refl.
  - change (String x s +:+ String c t) with (String x (s +:+ String c t)). unfold avoids. cbn [all pieces].
    destruct (Ascii.eqb x c); [done|]. cbn [negb andb]. intros H. by rewrite IH.
Qed.
Lemma sapp_assoc s t u : (s +:+ t) +:+ u = s +:+ (t +:+ u).
Proof. induction s as [|c s IH]; [done|]. exact (f_equal (String c) IH). Qed.
Lemma avoids_app c s t : avoids c (s +:+ t) = avoids c s && avoids c t.
Proof. apply all_app. Qed.
(** The parameter with the name [k] (which has nothing special in it) and the value [v]. *)
Lemma parameter_escaped k v : avoids "=" k = true -> unescape k = Some k -> parameter (k +:+ "=" +:+ QueryEscape v) = Some (k, v).
Proof.
  intros H1 H2. unfold parameter. change ("=" +:+ QueryEscape v) with (String "=" (QueryEscape v)).
  by rewrite (cut_app "=" k _ H1), H2, unescape_escape.
Qed.

(** ** What the homeserver reads *)
Definition asked (since : string) (isFirst toDeviceOnly : bool) : list (string * string) :=
  [("timeout", if isFirst then "0" else "30000")] ++ (if decide (since = "") then [] else [("since", since)]) ++
  [("set_presence", "offline"); ("filter", text (wanted since toDeviceOnly))].
Lemma filter_text since only : filter_json since only = text (wanted since only).
Proof. unfold filter_json, wanted. destruct (String.eqb_spec since ""), (decide (since = "")); try done; destruct only; reflexivity. Qed.
Definition path : string := "/_matrix/client/r0/sync".
Lemma path_avoids : avoids "?" path = true /\ avoids "#" path = true.
Proof. split; reflexivity. Qed.
Lemma parameter_timeout (isFirst : bool) : let t := if isFirst then "timeout=0" else "timeout=30000" in
  parameter t = Some ("timeout", if isFirst then "0" else "30000") /\ avoids "&" t = true /\ avoids "#" t = true.
Proof. destruct isFirst; repeat split. Qed.

Theorem C89_request : forall server since isFirst toDeviceOnly, base server ->
  read (createSyncURL server since isFirst toDeviceOnly) = Some (server +:+ "/_matrix/client/r0/sync", asked since isFirst toDeviceOnly).
Proof.
  intros server since isFirst only Hs. fold path. unfold asked.
  assert (S1 : avoids "?" server = true) by (apply avoids_spec; intros a b; apply Hs).
  assert (S2 : avoids "#" server = true) by (apply avoids_spec; intros a b; apply Hs).
  assert (E : exists t rest, createSyncURL server since isFirst only = (server +:+ path) +:+ String "?" (t +:+ rest) /\
    t = (if isFirst then "timeout=0" else "timeout=30000") /\
    rest = (if decide (since = "") then "" else String "&" ("since=" +:+ QueryEscape since)) +:+
           String "&" ("set_presence=offline" +:+ String "&" ("filter=" +:+ QueryEscape (text (wanted since only))))).
  { eexists _, _. split; [|done]. unfold createSyncURL. rewrite filter_text. generalize (text (wanted since only)). intros g.
    destruct (String.eqb_spec since ""), (decide (since = "")); try done; cbn [negb]; rewrite ?sapp_assoc; reflexivity. }
  generalize dependent (text (wanted since only)). intros f E.
  destruct E as (t & rest & -> & Et & Er). destruct (parameter_timeout isFirst) as (P1 & P2 & P3). rewrite <- Et in P1, P2, P3. clear Et.
  assert (R1 : avoids "#" rest = true).
  { rewrite Er, avoids_app. apply andb_true_intro. split; [destruct (decide (since = "")); [done|]|].
    - change (avoids "#" ("since=" +:+ QueryEscape since) = true). rewrite avoids_app, escape_avoids by auto. done.
    - change (avoids "#" ("set_presence=offline" +:+ String "&" ("filter=" +:+ QueryEscape f)) = true).
      rewrite avoids_app. apply andb_true_intro. split; [done|].
      change (avoids "#" ("filter=" +:+ QueryEscape f) = true). rewrite avoids_app, escape_avoids by auto. done. }
  assert (W : without_fragment ((server +:+ path) +:+ String "?" (t +:+ rest)) = (server +:+ path) +:+ String "?" (t +:+ rest)).
  { unfold without_fragment. rewrite cut_none; [done|]. rewrite !avoids_app, S2, (proj2 path_avoids).
    change (avoids "#" (t +:+ rest) = true). by rewrite avoids_app, P3, R1. }
  unfold read. rewrite W, cut_app by (by rewrite avoids_app, S1, (proj1 path_avoids)).
  assert (Q : pieces "&" (t +:+ rest) = [t] ++ (if decide (since = "") then [] else ["since=" +:+ QueryEscape since]) ++
    ["set_presence=offline"; "filter=" +:+ QueryEscape f]).
  { assert (Q1 : pieces "&" ("set_presence=offline" +:+ String "&" ("filter=" +:+ QueryEscape f)) =
      ["set_presence=offline"; "filter=" +:+ QueryEscape f]).
    { rewrite pieces_app by done. rewrite pieces_one; [done|]. rewrite avoids_app, escape_avoids by auto. done. }
    rewrite Er. destruct (decide (since = "")).
    - change ("" +:+ ?x) with x. rewrite pieces_app by done. by rewrite Q1.
    - change (String "&" ?x +:+ ?y) with (String "&" (x +:+ y)). rewrite pieces_app by done.
      rewrite pieces_app, Q1; [done|]. rewrite avoids_app, escape_avoids by auto. done. }
  unfold parameters. rewrite Q. clear W Q R1 Er rest.
  assert (F : parameter ("filter=" +:+ QueryEscape f) = Some ("filter", f)) by (by apply (parameter_escaped "filter")).
  assert (F' : parameter "set_presence=offline" = Some ("set_presence", "offline")) by reflexivity.
  destruct (decide (since = "")).
  - cbn [app mapM]. rewrite P1, F', F. done.
  - assert (G : parameter ("since=" +:+ QueryEscape since) = Some ("since", since)) by (by apply (parameter_escaped "since")).
    cbn [app mapM]. rewrite P1, G, F', F. done.
Qed.
Print Assumptions C89_request.

(** The poller gets what the homeserver answers to one who asks with that token for what comes after [since]. *)
Theorem C89_poll : forall R (homeserver : bool -> string -> string -> list (string * string) -> answer R) server token since isFirst toDeviceOnly,
  base server ->
  let send first auth url := match read url with Some (p, ps) => homeserver first auth p ps | None => Silence end in
  let said := homeserver isFirst ("Bearer " +:+ token) (server +:+ "/_matrix/client/r0/sync") (asked since isFirst toDeviceOnly) in
  forall r status failed, DoSyncV2 send server token since isFirst toDeviceOnly = (r, status, failed) ->
    (failed = false <-> exists x, said = Status 200 (Some x) /\ r = Some x) /\
    (failed = true <-> r = None) /\
    (status <> 0%Z -> exists body, said = Status status body).
Proof.
  intros R hs server token since isFirst only Hb send said r status failed. unfold DoSyncV2, send. rewrite (C89_request server since isFirst only Hb). fold said.
  destruct said as [|n body].
  - intros [= <- <- <-]. split; [|done]. split; [done|]. by intros (x & ? & _).
  - destruct (Z.eqb_spec n 200) as [-> | Hn]; [destruct body as [x|]|]; intros [= <- <- <-].
    + split; [|split]; [|done|by eexists]. split; [by exists x|done].
    + split; [|done]. split; [done|]. by intros (x & ? & _).
    + split; [|split]; [|done|by eexists]. split; [done|]. intros (x & E & _). congruence.
Qed.
Print Assumptions C89_poll.

(** No two tokens are taken for each other. *)
Theorem C89_tokens_differ : forall server since1 since2 first1 first2 only1 only2, base server ->
  createSyncURL server since1 first1 only1 = createSyncURL server since2 first2 only2 -> since1 = since2 /\ first1 = first2 /\ only1 = only2.
Proof.
  intros server s1 s2 f1 f2 o1 o2 Hb E.
  pose proof (C89_request server s1 f1 o1 Hb) as R1. rewrite E, (C89_request server s2 f2 o2 Hb) in R1. apply (f_equal (fun o => match o with Some x => x.2 | None => [] end)) in R1. cbn [snd] in R1. symmetry in R1.
  assert (G : forall t1 t2, [("timeout", if f1 then "0" else "30000")] ++ (if decide (s1 = "") then [] else [("since", s1)]) ++ [("set_presence", "offline"); ("filter", t1)] =
      [("timeout", if f2 then "0" else "30000")] ++ (if decide (s2 = "") then [] else [("since", s2)]) ++ [("set_presence", "offline"); ("filter", t2)] ->
      s1 = s2 /\ f1 = f2 /\ t1 = t2).
  { intros t1 t2 H. destruct (decide (s1 = "")) as [-> | H1], (decide (s2 = "")) as [-> | H2]; cbn [app] in H.
    - split; [done|]. split; [by destruct f1, f2|congruence].
    - by apply (f_equal (fun l => length l)) in H.
    - by apply (f_equal (fun l => length l)) in H.
    - split; [congruence|]. split; [by destruct f1, f2|congruence]. }
  apply G in R1 as (-> & -> & Et). split; [done|]. split; [done|].
  destruct o1, o2; try done; exfalso; unfold wanted in Et; destruct (decide (s2 = "")); vm_compute in Et; discriminate.
Qed.
Print Assumptions C89_tokens_differ.

(** A token that has everything in it that could be misread. *)
Example C89_example : base "https://hs.example" /\
  createSyncURL "https://hs.example" "s1_2 &since=x%41+#?=~" false false =
    "https://hs.example/_matrix/client/r0/sync?timeout=30000&since=s1_2+%26since%3Dx%2541%2B%23%3F%3D~&set_presence=offline&filter=%7B%22presence%22%3A%7B%22not_types%22%3A%5B%22%2A%22%5D%7D%2C%22room%22%3A%7B%22timeline%22%3A%7B%22limit%22%3A50%7D%7D%7D" /\
  option_map (fun r => nth 1 r.2 ("", "")) (read (createSyncURL "https://hs.example" "s1_2 &since=x%41+#?=~" false true)) = Some ("since", "s1_2 &since=x%41+#?=~").
Proof.
  split; [|split; reflexivity].
  assert (H : avoids "?" "https://hs.example" = true /\ avoids "#" "https://hs.example" = true) by (split; reflexivity).
  intros a b. split; intros E; rewrite E in H; destruct H as [H1 H2]; [rewrite avoids_app in H1|rewrite avoids_app in H2]; unfold avoids in H1, H2; cbn in H1, H2;
    [rewrite andb_false_r in H1|rewrite andb_false_r in H2]; discriminate.
Qed.
