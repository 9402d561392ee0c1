(** Properties C49 and C50. *)
From Verif Require Import Prelude SqlModel SqlSpec.
Open Scope string_scope. Open Scope list_scope. Open Scope Z_scope.

Lemma subslice_app {A} (l : list A) (i j k : Z) :
  0 <= i <= j -> j <= k -> subslice l i j ++ subslice l j k = subslice l i k.
Proof.
  intros H1 H2. unfold subslice.
  replace (Z.to_nat (k - i)) with (Z.to_nat (j - i) + Z.to_nat (k - j))%nat by lia.
  replace (Z.to_nat j) with (Z.to_nat i + Z.to_nat (j - i))%nat by lia.
  rewrite <- drop_drop.
  generalize (drop (Z.to_nat i) l); intros m.
  generalize (Z.to_nat (j - i)), (Z.to_nat (k - j)). clear.
  intros a b. revert m. induction a as [|a IH]; intros m; [reflexivity|].
  destruct m as [|x m]; [cbn; by rewrite firstn_nil|].
  cbn. f_equal. apply IH.
Qed.

Lemma subslice_length {A} (l : list A) (i j : Z) :
  0 <= i <= j -> j <= Z.of_nat (length l) -> Z.of_nat (length (subslice l i j)) = j - i.
Proof. intros H1 H2. unfold subslice. rewrite firstn_length, skipn_length. lia. Qed.

Lemma subslice_all {A} (l : list A) : subslice l 0 (Z.of_nat (length l)) = l.
Proof. unfold subslice. change (drop (Z.to_nat 0) l) with l. rewrite firstn_all2; [reflexivity|lia]. Qed.

Lemma chunk_loop_good {A} (l : list A) num max per :
  0 < num -> num <= max -> per = Z.quot max num ->
  forall (fuel : nat) (i : Z) acc,
    0 <= i ->
    Z.max 0 (Z.of_nat (length l) - i) < Z.of_nat fuel ->
    concat acc = subslice l 0 (Z.min i (Z.of_nat (length l))) ->
    (forall c, In c acc -> c <> [] /\ Z.of_nat (length c) * num <= max) ->
    exists chunks, chunk_loop fuel l per i acc = Some chunks /\ good_chunks num max l chunks.
Proof.
  intros Hn Hm Hper.
  assert (Hq : 1 <= per /\ per * num <= max).
  { subst per. rewrite Z.quot_div_nonneg by lia. split.
    - apply Z.div_le_lower_bound; lia.
    - pose proof (Z.mul_div_le max num Hn). lia. }
  induction fuel as [|fuel IH]; intros i acc Hi Hf Hacc Hin.
  - lia.
  - cbn [chunk_loop]. destruct (Z.ltb_spec i (Z.of_nat (length l))) as [Hlt|Hge].
    + apply IH; [lia|lia| |].
      * rewrite concat_app. cbn [concat]. rewrite app_nil_r, Hacc, Z.min_l by lia.
        destruct (Z.ltb_spec (Z.of_nat (length l)) (i + per)).
        -- rewrite Z.min_r by lia. apply subslice_app; lia.
        -- rewrite Z.min_l by lia. apply subslice_app; lia.
      * intros c Hc. apply in_app_or in Hc as [Hc|Hc]; [by apply Hin|].
        destruct Hc as [<-|[]].
        assert (Hl : Z.of_nat (length (subslice l i (if Z.of_nat (length l) <? i + per
            then Z.of_nat (length l) else i + per))) =
            (if Z.of_nat (length l) <? i + per then Z.of_nat (length l) else i + per) - i).
        { destruct (Z.ltb_spec (Z.of_nat (length l)) (i + per)); apply subslice_length; lia. }
        split.
        -- intros Hnil. rewrite Hnil in Hl. cbn in Hl.
           destruct (Z.ltb_spec (Z.of_nat (length l)) (i + per)); lia.
        -- rewrite Hl. destruct (Z.ltb_spec (Z.of_nat (length l)) (i + per)); nia.
    + exists acc. split; [reflexivity|]. split; [|exact Hin].
      rewrite Hacc, Z.min_r by lia. apply subslice_all.
Qed.

(** C49: for every list of rows, at least one row long, every number of
    parameters per row and every limit that admits one row, the splitting ends
    and yields good chunks. *)
Theorem C49_chunks_partial {A} (num max : Z) (rows : list A) :
  0 < num <= max -> rows <> [] ->
  exists chunks, good_chunks num max rows chunks
    /\ forall fuel, (length rows < fuel)%nat -> Chunkify fuel num max rows = Some chunks.
Proof.
  intros [Hn Hm] Hne. unfold Chunkify.
  destruct (Z.leb_spec (Z.of_nat (length rows) * num) max) as [Hs|Hb].
  - exists [rows]. split; [|reflexivity]. split; [cbn; apply app_nil_r|].
    intros c [<-|[]]. split; [done|lia].
  - destruct (chunk_loop_good rows num max _ Hn Hm eq_refl (S (length rows)) 0 [])
      as (cs & H1 & H2); [lia|lia| |intros ? []|].
    { rewrite Z.min_l by lia. reflexivity. }
    exists cs. split; [exact H2|]. intros fuel Hf. revert H1.
    assert (Hmono : forall f1 f2 i (acc r : list (list A)), (f1 <= f2)%nat ->
      chunk_loop f1 rows (max ÷ num) i acc = Some r ->
      chunk_loop f2 rows (max ÷ num) i acc = Some r).
    { clear. induction f1 as [|f1 IH]; intros f2 i acc r Hle Hr; [discriminate|].
      destruct f2 as [|f2]; [lia|]. cbn [chunk_loop] in *.
      destruct (i <? _); [|exact Hr]. apply IH; [lia|exact Hr]. }
    apply Hmono; lia.
Qed.
Print Assumptions C49_chunks_partial.

(** 7 rows of 3 parameters with at most 6 parameters: four chunks. *)
Example C49_example :
  Chunkify 8 3 6 [1;2;3;4;5;6;7] = Some [[1;2];[3;4];[5;6];[7]].
Proof. reflexivity. Qed.

(** Without rows there is one chunk, and it is empty: sqlx then refuses to
    build the statement. Every caller but DeviceListTable.UpsertTx with only
    invalid states returns before that. *)
Theorem C49_no_rows_refuted {A} (num max : Z) (fuel : nat) :
  0 <= max -> exists c, Chunkify fuel num max (@nil A) = Some [c] /\ c = [].
Proof.
  intros H. exists []. split; [|reflexivity]. unfold Chunkify. cbn [length].
  destruct (Z.leb_spec (Z.of_nat 0 * num) max); [reflexivity|lia].
Qed.
Print Assumptions C49_no_rows_refuted.

(** If a single row needs more parameters than the limit the loop never ends. *)
Theorem C49_wide_rows_never_end_refuted {A} (num max : Z) (rows : list A) :
  0 <= max < num -> rows <> [] -> forall fuel, Chunkify fuel num max rows = None.
Proof.
  intros Hm Hne fuel. unfold Chunkify.
  assert (1 <= Z.of_nat (length rows)) by (destruct rows; [done|cbn; lia]).
  destruct (Z.leb_spec (Z.of_nat (length rows) * num) max) as [Hs|Hb]; [nia|].
  rewrite Z.quot_small by lia.
  assert (G : forall fuel acc, chunk_loop fuel rows 0 0 acc = None); [|apply G].
  clear -H. induction fuel as [|fuel IH]; intros acc; [reflexivity|].
  cbn [chunk_loop]. destruct (Z.ltb_spec 0 (Z.of_nat (length rows))); [apply IH|lia].
Qed.
Print Assumptions C49_wide_rows_never_end_refuted.

(** * C50 *)

Lemma refused_run {db} (b : body db) (view : db) e :
  refused b e <-> run_body b view true = (e, view, true).
Proof.
  split.
  - induction 1; cbn; [reflexivity|done].
  - induction b as [e'|f k IH]; cbn; intros H.
    + injection H as ->. constructor.
    + constructor. by apply IH.
Qed.

Lemma run_aborted {db} (b : body db) (view : db) :
  exists e, run_body b view true = (e, view, true).
Proof. induction b as [e|f k IH]; cbn; eauto. Qed.

Lemma runs_run {db} (b : body db) (d : db) e d' bad :
  runs b d e d' bad <-> run_body b d false = (e, d', bad).
Proof.
  split.
  - induction 1; cbn; [reflexivity| |].
    + by rewrite H.
    + rewrite H. by apply refused_run.
  - revert d. induction b as [e'|f k IH]; cbn; intros d H.
    + injection H as <- <- <-. constructor.
    + destruct (f d) as [d1|] eqn:E.
      * eapply runs_ok; [exact E|]. by apply IH.
      * destruct (run_aborted (k false) d) as [e1 H1].
        rewrite H1 in H. assert (e1 = e /\ d = d' /\ true = bad) as (-> & -> & <-) by by injection H.
        apply runs_bad; [exact E|]. by apply refused_run in H1.
Qed.

Lemma runs_total {db} (b : body db) (d : db) : exists e d' bad, runs b d e d' bad.
Proof.
  destruct (run_body b d false) as [[e d'] bad] eqn:E.
  exists e, d', bad. by apply runs_run.
Qed.

(** C50, effects on success: when the caller gets nil back, the database holds
    everything the body did, the body ended without an error (or with
    panic(nil)) and no statement of it failed. *)
Theorem C50_success_commits_everything {db} (sv : server) (d : db) (fn : body db) :
  (WithTransaction sv d fn).2 = Ret None ->
  exists e d', runs fn d e d' false
    /\ (e = Returned None \/ e = Panicked None)
    /\ (WithTransaction sv d fn).1 = d'.
Proof.
  unfold WithTransaction. destruct (begin_ok sv); cbn [negb]; [|done].
  destruct (run_body fn d false) as [[e view] ab] eqn:E. apply runs_run in E.
  intros H. exists e, view. revert H.
  unfold deferred, Commit, Rollback.
  destruct e as [[err|]|[v|]|], ab, (commit_ok sv), (report_ok sv); cbn; try done;
    intros _; eauto.
Qed.
Print Assumptions C50_success_commits_everything.

(** C50, no effect on failure: when the body returns an error or panics with a
    value the caller gets an error and the database is as before, whatever
    happened on the wire. When a statement failed, or the server does not
    commit, or the transaction never began, likewise, even if the body
    pretends it succeeded. *)
Theorem C50_failure_leaves_no_effect {db} (sv : server) (d : db) (fn : body db) e d' bad :
  runs fn d e d' bad ->
  begin_ok sv = false
  \/ (exists err, e = Returned (Some err)) \/ (exists v, e = Panicked (Some v))
  \/ ((bad = true \/ commit_ok sv = false) /\ e <> Exited) ->
  exists err, WithTransaction sv d fn = (d, Ret (Some err)).
Proof.
  intros Hr H. apply runs_run in Hr. unfold WithTransaction. rewrite Hr.
  unfold deferred, Commit, Rollback.
  destruct H as [->|[[err ->]|[[v ->]|[H Hne]]]]; cbn [negb].
  - eexists; reflexivity.
  - destruct (begin_ok sv), (report_ok sv); eexists; reflexivity.
  - destruct (begin_ok sv), (report_ok sv); eexists; reflexivity.
  - destruct (begin_ok sv); [|eexists; reflexivity].
    destruct H as [-> | ->]; destruct e as [[err|]|[v|]|]; try done;
      try (destruct bad); destruct (report_ok sv); eexists; reflexivity.
Qed.
Print Assumptions C50_failure_leaves_no_effect.

(** C50, nothing in between: the database afterwards is what it was or all the
    body did — also when the answer to COMMIT is lost. *)
Theorem C50_all_or_nothing {db} (sv : server) (d : db) (fn : body db) e d' bad :
  runs fn d e d' bad ->
  (WithTransaction sv d fn).1 = d \/ (bad = false /\ (WithTransaction sv d fn).1 = d').
Proof.
  intros Hr. apply runs_run in Hr. unfold WithTransaction. rewrite Hr.
  unfold deferred, Commit, Rollback.
  destruct (begin_ok sv), e as [[err|]|[v|]|], bad, (commit_ok sv), (report_ok sv);
    cbn; auto.
Qed.
Print Assumptions C50_all_or_nothing.

(** C50, an error means no effect — as long as the answer to COMMIT arrives. *)
Theorem C50_error_means_no_effect_partial {db} (sv : server) (d : db) (fn : body db) err :
  report_ok sv = true ->
  (WithTransaction sv d fn).2 = Ret (Some err) -> (WithTransaction sv d fn).1 = d.
Proof.
  unfold WithTransaction. destruct (begin_ok sv); cbn [negb]; [|done].
  destruct (run_body fn d false) as [[e view] ab].
  unfold deferred, Commit, Rollback.
  destruct e as [[er|]|[v|]|], ab, (commit_ok sv), (report_ok sv); cbn; done.
Qed.
Print Assumptions C50_error_means_no_effect_partial.

(** Two writes; what is left of them under different endings. *)
Definition ex_db := list Z.
Definition ex_sv := Server true true true.
Definition ex_write (n : Z) : ex_db -> option ex_db :=
  fun d => if existsb (Z.eqb n) d then None else Some (d ++ [n]).
Definition ex_body (e : ending) : body ex_db :=
  Stmt (ex_write 1) (fun ok1 => if ok1 then Stmt (ex_write 2) (fun ok2 => End e)
                                else End (Returned (Some "dup"))).
Example C50_example :
  WithTransaction ex_sv [5] (ex_body (Returned None)) = ([5;1;2], Ret None)
  /\ WithTransaction ex_sv [5] (ex_body (Returned (Some "no"))) = ([5], Ret (Some "no"))
  /\ WithTransaction ex_sv [5] (ex_body (Panicked (Some "boom"))) = ([5], Ret (Some "boom"))
  /\ WithTransaction ex_sv [1] (ex_body (Returned None)) = ([1], Ret (Some "dup"))
  /\ WithTransaction ex_sv [2] (ex_body (Returned None)) = ([2], Ret (Some "aborted")).
Proof. repeat split. Qed.

(** C50 is false for a body that panics with nil, or that ends its goroutine,
    half way: the half that was done is committed, and in the first case the
    caller is told all went well. *)
Theorem C50_panic_nil_refuted :
  let half := Stmt (ex_write 1) (fun _ => End (Panicked None)) in
  let exit := Stmt (ex_write 1) (fun _ => End Exited) in
  WithTransaction ex_sv [5] half = ([5;1], Ret None)
  /\ WithTransaction ex_sv [5] exit = ([5;1], GoroutineEnded).
Proof. split; reflexivity. Qed.
Print Assumptions C50_panic_nil_refuted.

(** And when the answer to COMMIT is lost, the caller is told the transaction
    failed although its effects stay. *)
Theorem C50_lost_answer_refuted :
  WithTransaction (Server true true false) [5] (ex_body (Returned None))
  = ([5;1;2], Ret (Some "lost connection")).
Proof. reflexivity. Qed.
Print Assumptions C50_lost_answer_refuted.
