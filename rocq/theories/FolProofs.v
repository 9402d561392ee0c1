(** Proofs about [FolModel]: what is on its way to the client and the client's copy
    together say what is stored. *)
From Verif Require Import Prelude RequestModel ExtModel ExtSpec ExtProps FolModel FolSpec.
Open Scope string_scope. Open Scope list_scope. Open Scope Z_scope.

Ltac fcbn := cbn [f_rows f_pend f_typ f_queue f_held f_exts f_place f_first f_busy f_here f_resp f_global f_data f_typing
  push set_queue set_rows set_typ answer].

Section proofs.
Context (type_of : string -> string).
Notation last_of := (last_of type_of).
Notation stepf := (fstep type_of).

Lemma newer_assoc a b c : newer (newer a b) c = newer a (newer b c).
Proof. by destruct a. Qed.
Lemma last_of_app t a b : last_of t (a ++ b) = newer (last_of t b) (last_of t a).
Proof.
  unfold FolModel.last_of. rewrite List.filter_app. destruct (List.filter _ b) as [|x l] eqn:E.
  - by rewrite app_nil_r.
  - rewrite last_app. by destruct (last (x :: l)) eqn:El; [|apply last_None in El].
Qed.
Lemma last_of_nil t : last_of t [] = None.
Proof. done. Qed.
Lemma last_of_one t d : last_of t [d] = if bool_decide (type_of d = t) then Some d else None.
Proof. unfold FolModel.last_of. cbn. by case_bool_decide. Qed.
Lemma last_of_type t l d : last_of t l = Some d -> type_of d = t.
Proof.
  intros H. unfold FolModel.last_of in H. apply last_Some_elem_of in H. apply elem_of_list_In, filter_In in H as [_ H].
  by apply bool_decide_eq_true in H.
Qed.
Lemma last_of_None t l : last_of t l = None <-> forall d, In d l -> type_of d <> t.
Proof.
  unfold FolModel.last_of. rewrite last_None. split.
  - intros H d Hd Ht. assert (Hi : In d (List.filter (fun d => bool_decide (type_of d = t)) l)) by (apply filter_In; by rewrite bool_decide_eq_true_2).
    by rewrite H in Hi.
  - intros H. destruct (List.filter _ l) as [|x l'] eqn:E; [done|]. exfalso.
    assert (Hi : In x (List.filter (fun d => bool_decide (type_of d = t)) l)) by (rewrite E; by left).
    apply filter_In in Hi as [Hi Ht]. apply bool_decide_eq_true in Ht. by apply (H x).
Qed.

(** ** The table *)
Definition sto (rows : list adata) (room t : string) : option string := last_of t (data_of rows room).

Lemma data_of_app a b room : data_of (a ++ b) room = data_of a room ++ data_of b room.
Proof. unfold data_of. by rewrite List.filter_app, map_app. Qed.
Lemma data_of_In rows room d : In d (data_of rows room) <-> In (room, d) rows.
Proof.
  unfold data_of. rewrite in_map_iff. split.
  - intros ([x y] & E & H). apply filter_In in H as [H1 H2]. apply bool_decide_eq_true in H2. cbn in *. by subst.
  - intros H. exists (room, d). split; [done|]. apply filter_In. by rewrite bool_decide_eq_true_2.
Qed.
Lemma sto_cons x rows room t : sto (x :: rows) room t =
  if bool_decide (x.1 = room /\ type_of x.2 = t) then newer (sto rows room t) (Some x.2) else sto rows room t.
Proof.
  unfold sto. change (x :: rows) with ([x] ++ rows). rewrite data_of_app, last_of_app.
  assert (H : last_of t (data_of [x] room) = if bool_decide (x.1 = room /\ type_of x.2 = t) then Some x.2 else None).
  { unfold data_of. cbn [List.filter]. case_bool_decide as Hx; cbn [map].
    - rewrite last_of_one. case_bool_decide as Ht; [by rewrite bool_decide_eq_true_2|]. rewrite bool_decide_eq_false_2; [done|naive_solver].
    - rewrite bool_decide_eq_false_2; [done|naive_solver]. }
  rewrite H. destruct (bool_decide (x.1 = room ∧ type_of x.2 = t)); [done|]. by destruct (last_of t (data_of rows room)).
Qed.

Lemma sto_filter (P : adata -> bool) rows room t :
  (forall x, In x rows -> x.1 = room -> type_of x.2 = t -> P x = true) ->
  sto (List.filter P rows) room t = sto rows room t.
Proof.
  intros HP. induction rows as [|x rows IH]; [done|]. cbn [List.filter].
  assert (IH' : sto (List.filter P rows) room t = sto rows room t) by (apply IH; intros; apply HP; [by right| |]; done).
  rewrite (sto_cons x rows). destruct (P x) eqn:E.
  - rewrite sto_cons, IH'. done.
  - rewrite IH'. case_bool_decide as Hx; [|done]. exfalso. destruct Hx. rewrite (HP x) in E by (try (by left); done). done.
Qed.
Lemma sto_app a b room t : sto (a ++ b) room t = newer (sto b room t) (sto a room t).
Proof. unfold sto. by rewrite data_of_app, last_of_app. Qed.

Lemma sto_upsert room rows d r t : sto (upsert type_of room rows d) r t =
  if bool_decide (r = room /\ type_of d = t) then Some d else sto rows r t.
Proof.
  unfold upsert. rewrite sto_app. rewrite sto_cons. cbn [fst snd].
  case_bool_decide as Hx.
  - destruct Hx as [-> Ht]. by rewrite bool_decide_eq_true_2.
  - rewrite bool_decide_eq_false_2 by naive_solver. cbn. apply sto_filter.
    intros [x y] _ <- <-. apply negb_true_iff, bool_decide_eq_false. cbn. naive_solver.
Qed.
Lemma sto_insert_all room data : forall rows r t, sto (insert_all type_of rows room data) r t =
  if bool_decide (r = room) then newer (last_of t data) (sto rows r t) else sto rows r t.
Proof.
  unfold insert_all. induction data as [|d data IH]; intros rows r t; cbn [fold_left].
  - by case_bool_decide.
  - rewrite IH. change (d :: data) with ([d] ++ data). rewrite last_of_app, newer_assoc, last_of_one, sto_upsert.
    case_bool_decide as Hr; [|rewrite bool_decide_eq_false_2; [done|naive_solver]]. f_equal.
    case_bool_decide as Ht.
    + rewrite bool_decide_eq_true_2 by naive_solver. done.
    + rewrite bool_decide_eq_false_2 by naive_solver. done.
Qed.

Lemma one_each_upsert room rows d : one_each type_of rows -> one_each type_of (upsert type_of room rows d).
Proof.
  unfold one_each, upsert. intros H. rewrite map_app. cbn [map]. apply NoDup_app. split; [|split].
  - induction rows as [|x rows IH]; cbn [List.filter map]; [constructor|]. apply NoDup_cons in H as [H1 H2].
    destruct (negb _); cbn [map]; [|by apply IH]. apply NoDup_cons. split; [|by apply IH].
    intros Hi. apply H1. apply elem_of_list_In, in_map_iff in Hi as (y & E & Hy). apply filter_In in Hy as [Hy _].
    apply elem_of_list_In, in_map_iff. by exists y.
  - intros x Hx Hy. apply elem_of_list_singleton in Hy as ->. apply elem_of_list_In, in_map_iff in Hx as (y & E & Hy).
    apply filter_In in Hy as [_ Hy]. apply negb_true_iff, bool_decide_eq_false in Hy. apply Hy. cbn in E. by injection E.
  - apply NoDup_singleton.
Qed.
Lemma one_each_insert_all room data : forall rows, one_each type_of rows -> one_each type_of (insert_all type_of rows room data).
Proof.
  unfold insert_all. induction data as [|d data IH]; intros rows H; cbn [fold_left]; [done|]. apply IH. by apply one_each_upsert.
Qed.

Lemma sto_spec rows room t d : one_each type_of rows -> sto rows room t = Some d <-> stored type_of rows room t d.
Proof.
  intros Hn. unfold stored. split.
  - intros H. split; [|by apply last_of_type in H]. unfold sto, FolModel.last_of in H. apply last_Some_elem_of in H.
    apply elem_of_list_In, filter_In in H as [H _]. by apply data_of_In in H.
  - intros [Hi Ht]. induction rows as [|x rows IH]; [done|]. unfold one_each in Hn. cbn [map] in Hn. apply NoDup_cons in Hn as [Hx Hn].
    rewrite sto_cons. destruct Hi as [->|Hi].
    + cbn [fst snd]. rewrite bool_decide_eq_true_2 by done. destruct (sto rows room t) as [y|] eqn:E; [|done]. exfalso. apply Hx. cbn [fst snd].
      assert (Hy : type_of y = t) by (by apply last_of_type in E).
      unfold sto, FolModel.last_of in E. apply last_Some_elem_of, elem_of_list_In, filter_In in E as [E _]. apply data_of_In in E.
      apply elem_of_list_In, in_map_iff. exists (room, y). cbn. by rewrite Hy, Ht.
    + specialize (IH Hn Hi). case_bool_decide as Hc; [by rewrite IH|done].
Qed.
Lemma sto_perm rows rows' room t : one_each type_of rows -> rows' ≡ₚ rows -> sto rows' room t = sto rows room t.
Proof.
  intros Hn Hp. assert (Hn' : one_each type_of rows') by (unfold one_each in *; by rewrite Hp).
  assert (H : forall d, sto rows' room t = Some d <-> sto rows room t = Some d).
  { intros d. rewrite !sto_spec by done. unfold stored. split; intros [H1 H2]; split; try done.
    - apply elem_of_list_In. rewrite <- Hp. by apply elem_of_list_In.
    - apply elem_of_list_In. rewrite Hp. by apply elem_of_list_In. }
  destruct (sto rows room t) as [d|] eqn:E; [by apply H|]. destruct (sto rows' room t) as [d|] eqn:E'; [|done].
  destruct (H d) as [H' _]. by specialize (H' eq_refl).
Qed.
Lemma last_of_select rows room types t : last_of t (select type_of rows room types) = if bool_decide (t ∈ types) then sto rows room t else None.
Proof.
  assert (H : select type_of rows room types = data_of (List.filter (fun x => bool_decide (type_of x.2 ∈ types)) rows) room).
  { unfold select, data_of. f_equal. induction rows as [|x rows IH]; [done|]. cbn [List.filter].
    destruct (bool_decide (type_of x.2 ∈ types)) eqn:E; cbn [List.filter].
    - apply bool_decide_eq_true in E. case_bool_decide as Hc.
      + rewrite bool_decide_eq_true_2 by naive_solver. by f_equal.
      + rewrite bool_decide_eq_false_2 by naive_solver. done.
    - apply bool_decide_eq_false in E. rewrite bool_decide_eq_false_2 by naive_solver. done. }
  rewrite H. case_bool_decide as Ht.
  - apply sto_filter. intros x _ _ <-. by apply bool_decide_eq_true_2.
  - apply last_of_None. intros d Hd He. apply data_of_In, filter_In in Hd as [_ Hd]. apply bool_decide_eq_true in Hd. cbn in Hd. by subst t.
Qed.

(** ** Notifications and updates on their way *)
Definition pendt (s : fstate) (room t : string) : Prop := exists types, In (room, types) (f_pend s) /\ In t types.
Definition gpick (u : update) : list string := match u with UGlobalData d => d | _ => [] end.
Definition rpick (room : string) (u : update) : list string :=
  match u with URoomData x _ d => if bool_decide (x = room) then d else [] | _ => [] end.
Definition nodata (u : update) : Prop := match u with UGlobalData _ | URoomData _ _ _ => False | _ => True end.

Lemma gpick_update typ room d : flat_map gpick (data_update typ room d) = if bool_decide (room = "") then d else [].
Proof.
  unfold data_update. destruct d as [|x d]; [by case_bool_decide|]. destruct (String.eqb_spec room "") as [->|Hne].
  - cbn. by rewrite app_nil_r.
  - by rewrite bool_decide_eq_false_2.
Qed.
Lemma rpick_update r typ room d : r <> "" -> flat_map (rpick r) (data_update typ room d) = if bool_decide (room = r) then d else [].
Proof.
  intros Hr. unfold data_update. destruct d as [|x d]; [by case_bool_decide|]. destruct (String.eqb_spec room "") as [->|Hne].
  - rewrite bool_decide_eq_false_2 by done. done.
  - cbn. case_bool_decide; [|done]. by rewrite app_nil_r.
Qed.

(** What holds whatever was asked for. *)
Record base (pick : update -> list string) (room : string) (s : fstate) : Prop := mk_base {
  b_one : one_each type_of (f_rows s);
  b_sound : forall r types t, In (r, types) (f_pend s) -> In t types -> is_Some (sto (f_rows s) r t);
  b_queue : forall t, pendt s room t \/ last_of t (flat_map pick (f_queue s)) = None
              \/ last_of t (flat_map pick (f_queue s)) = sto (f_rows s) room t;
  b_held : Forall nodata (f_held s);
  b_rest : f_busy s = false -> f_resp s = eresp0;
  b_full : forall x t d, In (URoomData x t d) (f_queue s) -> d <> []
}.
(** What is on its way, then what the client has. *)
Definition coming (pick : update -> list string) (resp : list string) (copy : string -> option string) (s : fstate) (t : string) : option string :=
  newer (last_of t (flat_map pick (f_queue s))) (newer (last_of t resp) (copy t)).

Definition good_pick (pick : update -> list string) (room : string) : Prop :=
  (forall typ x d, flat_map pick (data_update typ x d) = if bool_decide (x = room) then d else [])
  /\ (forall u, nodata u -> pick u = []).
Lemma good_gpick : good_pick gpick "".
Proof. split; [apply gpick_update|by intros []]. Qed.
Lemma good_rpick r : r <> "" -> good_pick (rpick r) r.
Proof. intros Hr. split; [intros; by apply rpick_update|by intros []]. Qed.

Lemma next_held_In room l u rest : next_held room l = Some (u, rest) ->
  room_of u = Some room /\ In u l /\ forall v, In v rest -> In v l.
Proof.
  revert u rest. induction l as [|x l IH]; intros u rest; cbn [next_held]; [done|]. case_bool_decide as Hx.
  - intros [= -> ->]. split; [done|]. split; [by left|]. intros v Hv. by right.
  - destruct (next_held room l) as [[v r]|] eqn:E; cbn; [|done]. intros [= -> <-]. destruct (IH _ _ eq_refl) as (H1 & H2 & H3).
    split; [done|]. split; [by right|]. intros w [->|Hw]; [by left|]. right. by apply H3.
Qed.

Lemma flat_map_nodata pick room l : good_pick pick room -> Forall nodata l -> flat_map pick l = [].
Proof. intros [_ H] Hl. induction Hl as [|u l Hu Hl IH]; [done|]. cbn. by rewrite H, IH. Qed.

Lemma base_push_nodata pick room s l : good_pick pick room -> Forall nodata l -> base pick room s -> base pick room (push s l).
Proof.
  intros Hp Hl [H1 H2 H3 H4 H5 H6]. split; fcbn; try done.
  - intros t. rewrite flat_map_app, (flat_map_nodata _ _ l Hp Hl), app_nil_r. apply H3.
  - intros x t d Hi. apply in_app_iff in Hi as [Hi|Hi]; [by eapply H6|]. rewrite Forall_forall in Hl. apply elem_of_list_In in Hi.
    by apply Hl in Hi.
Qed.

Lemma base_step pick room s a : good_pick pick room -> base pick room s -> base pick room (stepf s a).
Proof.
  intros Hp Hb. pose proof Hb as [H1 H2 H3 H4 H5 H6]. destruct a as [r data|rows| |r ev m|r hold|r|r| |ex p here|p added|]; cbn [fstep].
  - (* Store *)
    destruct data as [|d0 data0] eqn:Ed; [done|]. rewrite <- Ed. clear Ed d0 data0. split; fcbn; try done.
    + by apply one_each_insert_all.
    + intros x types t Hi Ht. rewrite sto_insert_all. apply in_app_iff in Hi as [Hi|[[= <- <-]|[]]].
      * case_bool_decide; [|by eapply H2]. destruct (last_of t data); [by eexists|]. by eapply H2.
      * rewrite bool_decide_eq_true_2 by done. destruct (last_of t data) eqn:E; [by eexists|]. exfalso.
        rewrite last_of_None in E. apply in_map_iff in Ht as (d & <- & Hd). by apply (E d).
    + intros t. destruct (H3 t) as [(types & Hi & Ht)|Hq].
      * left. exists types. split; [fcbn; apply in_app_iff; by left|done].
      * rewrite sto_insert_all. case_bool_decide as Hr; [|by right]. subst r. destruct (last_of t data) as [d|] eqn:E; [|by right].
        left. exists (map type_of data). split; [apply in_app_iff; right; by left|]. apply in_map_iff. exists d.
        split; [by apply last_of_type in E|]. unfold FolModel.last_of in E. apply last_Some_elem_of, elem_of_list_In, filter_In in E. by destruct E.
  - (* Reorder *)
    case_decide as Hr; [|done]. split; fcbn; try done.
    + unfold one_each in *. by rewrite Hr.
    + intros x types t Hi Ht. rewrite (sto_perm _ _ _ _ H1 Hr). by eapply H2.
    + intros t. rewrite (sto_perm _ _ _ _ H1 Hr). apply H3.
  - (* Notified *)
    destruct (f_pend s) as [|[r types] rest] eqn:Ep; [done|]. split; fcbn; try done.
    + intros x ty t Hi Ht. eapply H2; [by right|done].
    + intros t. rewrite flat_map_app. destruct Hp as [Hp _]. rewrite Hp. case_bool_decide as Hr.
      * subst r. rewrite last_of_app, last_of_select. case_bool_decide as Ht.
        -- right. right. destruct (H2 room types t) as [d Hd]; [by left|by apply elem_of_list_In|]. rewrite Hd. done.
        -- cbn [newer]. destruct (H3 t) as [(ty & Hi & Hty)|Hq]; [|by right]. unfold pendt in *. rewrite Ep in Hi. destruct Hi as [[= <-]|Hi].
           ++ exfalso. apply Ht. by apply elem_of_list_In.
           ++ left. by exists ty.
      * rewrite app_nil_r. destruct (H3 t) as [(ty & Hi & Hty)|Hq]; [|by right]. rewrite Ep in Hi. destruct Hi as [[= Hx <-]|Hi]; [done|].
        left. by exists ty.
    + intros x t d Hi. apply in_app_iff in Hi as [Hi|Hi]; [by eapply H6|]. unfold data_update in Hi.
      destruct (select _ _ _ _) as [|d0 ds]; [done|]. destruct (String.eqb r ""); destruct Hi as [Hi|[]]; [done|]. by injection Hi as <- <- <-.
  - (* Typed *)
    case_bool_decide; [done|]. cbv zeta. assert (Hs : base pick room (set_typ s r ev)) by (by split).
    destruct m; [|done]. apply base_push_nodata; [done| |done]. by constructor.
  - (* Event *)
    destruct (_ || _).
    + split; fcbn; try done. apply Forall_app. split; [done|]. by constructor.
    + apply base_push_nodata; [done| |done]. by constructor.
  - (* Release *)
    destruct (next_held r (f_held s)) as [[u rest]|] eqn:E; [|done]. apply next_held_In in E as (_ & Hu & Hrest).
    rewrite Forall_forall in H4. assert (Hn : nodata u) by (apply H4; by apply elem_of_list_In).
    assert (Hbs : base pick room (push s [u])) by (apply base_push_nodata; [done|by constructor|done]).
    destruct Hbs as [G1 G2 G3 G4 G5 G6]. split; fcbn; try done.
    apply Forall_forall. intros v Hv. apply H4, elem_of_list_In, Hrest. by apply elem_of_list_In.
  - apply base_push_nodata; [done| |done]. by constructor.
  - apply base_push_nodata; [done| |done]. by constructor.
  - (* Request *)
    destruct (f_busy s); [done|]. by split.
  - (* Take *)
    destruct (f_busy s) eqn:Eb; cbn [negb]; [|done]. destruct (f_queue s) as [|u q] eqn:Eq; [done|]. split; fcbn; try done.
    + intros t. destruct (H3 t) as [Hq|Hq]; [by left|]. right. change (u :: q) with ([u] ++ q) in Hq. rewrite flat_map_app, last_of_app in Hq.
      destruct (last_of t (flat_map pick q)) as [d|]; [|by left]. right. destruct Hq as [Hq|Hq]; done.
    + intros x t d Hi. by eapply H6; right.
  - (* Answer *)
    destruct (f_busy s); [|done]. by split.
Qed.

(** ** Account data of a room *)
Lemma covered_same k s s' room : f_exts s' = f_exts s -> f_place s' = f_place s -> covered k s' room <-> covered k s room.
Proof. unfold covered. by intros -> ->. Qed.

Definition follows (room : string) (s : fstate) : Prop :=
  covered EAccountData s room ->
  forall t, pendt s room t \/ coming (rpick room) (resp_data (f_resp s) room) (f_data s room) s t = sto (f_rows s) room t.
Definition marked (room : string) (s : fstate) : Prop := loaded_in (f_resp s) room -> resp_data (f_resp s) room <> [].

(** Nothing changes for the room but what is stored, notified and queued. *)
Lemma base_sound_pick pick room s l : good_pick pick room -> Forall nodata l ->
  forall resp copy t, coming pick resp copy (push s l) t = coming pick resp copy s t.
Proof.
  intros Hp Hl resp copy t. unfold coming. fcbn. by rewrite flat_map_app, (flat_map_nodata _ _ _ Hp Hl), app_nil_r.
Qed.

Lemma coming_store pick room s r data resp copy t : good_pick pick room -> base pick room s -> data <> [] ->
  pendt s room t \/ coming pick resp copy s t = sto (f_rows s) room t ->
  let s' := set_rows s (insert_all type_of (f_rows s) r data) (f_pend s ++ [(r, map type_of data)]) in
  pendt s' room t \/ coming pick resp copy s' t = sto (f_rows s') room t.
Proof.
  intros Hp Hb Hd H s'. destruct H as [(types & Hi & Ht)|H].
  { left. exists types. split; [unfold s'; fcbn; apply in_app_iff; by left|done]. }
  unfold s'. fcbn. rewrite sto_insert_all. case_bool_decide as Hr; [|by right]. subst r.
  destruct (last_of t data) as [d|] eqn:E; [|by right]. left. exists (map type_of data). split; [apply in_app_iff; right; by left|].
  apply in_map_iff. exists d. split; [by apply last_of_type in E|].
  unfold FolModel.last_of in E. apply last_Some_elem_of, elem_of_list_In, filter_In in E. by destruct E.
Qed.
Lemma coming_notified pick room s r types rest resp copy t : good_pick pick room -> base pick room s -> f_pend s = (r, types) :: rest ->
  pendt s room t \/ coming pick resp copy s t = sto (f_rows s) room t ->
  let s' := push (set_rows s (f_rows s) rest) (data_update (f_typ s) r (select type_of (f_rows s) r types)) in
  pendt s' room t \/ coming pick resp copy s' t = sto (f_rows s') room t.
Proof.
  intros [Hp _] Hb Ep H s'. unfold s', coming. fcbn. rewrite flat_map_app, Hp. case_bool_decide as Hr.
  - subst r. rewrite last_of_app, last_of_select. case_bool_decide as Ht.
    + right. destruct (b_sound _ _ _ Hb room types t) as [d Hd]; [rewrite Ep; by left|by apply elem_of_list_In|]. by rewrite Hd.
    + cbn [newer]. destruct H as [(ty & Hi & Hty)|Hq]; [|by right]. rewrite Ep in Hi. destruct Hi as [[= <-]|Hi].
      * exfalso. apply Ht. by apply elem_of_list_In.
      * left. by exists ty.
  - rewrite app_nil_r. destruct H as [(ty & Hi & Hty)|Hq]; [|by right]. rewrite Ep in Hi. destruct Hi as [[= Hx <-]|Hi]; [done|].
    left. by exists ty.
Qed.

(** An action that neither begins nor goes on with a response. *)
Lemma coming_quiet pick room s a (resp : eresp -> list string) (copy : fstate -> string -> option string) :
  good_pick pick room -> base pick room s ->
  (forall s s', f_data s = f_data s' -> f_global s = f_global s' -> copy s = copy s') ->
  match a with Request _ _ _ | Take _ _ | Answer => False | _ => True end ->
  (forall t, pendt s room t \/ coming pick (resp (f_resp s)) (copy s) s t = sto (f_rows s) room t) ->
  forall t, pendt (stepf s a) room t \/ coming pick (resp (f_resp (stepf s a))) (copy (stepf s a)) (stepf s a) t = sto (f_rows (stepf s a)) room t.
Proof.
  intros Hp Hb Hc Ha H t. specialize (H t).
  assert (Hpush : forall s0 l, f_resp s0 = f_resp s -> f_rows s0 = f_rows s -> f_pend s0 = f_pend s -> f_data s0 = f_data s -> f_global s0 = f_global s ->
    f_queue s0 = f_queue s -> Forall nodata l ->
    pendt (push s0 l) room t \/ coming pick (resp (f_resp (push s0 l))) (copy (push s0 l)) (push s0 l) t = sto (f_rows (push s0 l)) room t).
  { intros s0 l E1 E2 E3 E4 E5 E6 Hl. rewrite (base_sound_pick _ _ _ _ Hp Hl). rewrite (Hc (push s0 l) s) by done. unfold pendt, coming in *. fcbn.
    by rewrite E1, E2, E3, E6. }
  destruct a as [r data|rows| |r ev m|r hold|r|r| |ex p here|p added|]; cbn [fstep]; try done.
  - destruct data as [|d0 data0] eqn:Ed; [done|]. rewrite <- Ed.
    set (s' := set_rows _ _ _). rewrite (Hc s' s) by done. apply (coming_store pick room s r data _ _ t Hp Hb); [by rewrite Ed|done].
  - case_decide as Hr; [|done]. set (s' := set_rows _ _ _). rewrite (Hc s' s) by done. unfold s', pendt, coming in *. fcbn.
    rewrite (sto_perm _ _ _ _ (b_one _ _ _ Hb) Hr). done.
  - destruct (f_pend s) as [|[r types] rest] eqn:Ep; [done|]. set (s' := push _ _). rewrite (Hc s' s) by done.
    by apply (coming_notified pick room s r types rest _ _ t Hp Hb).
  - case_bool_decide; [done|]. cbv zeta. destruct m.
    + apply Hpush; try done. by constructor.
    + rewrite (Hc (set_typ s r ev) s) by done. done.
  - destruct (_ || _).
    + rewrite (Hc (set_queue _ _ _) s) by done. done.
    + apply Hpush; try done. by constructor.
  - destruct (next_held r (f_held s)) as [[u rest]|] eqn:E; [|done]. apply next_held_In in E as (_ & Hu & _).
    assert (Hn : nodata u). { pose proof (b_held _ _ _ Hb) as Hf. rewrite Forall_forall in Hf. apply Hf. by apply elem_of_list_In. }
    rewrite (Hc (set_queue _ _ _) s) by done. assert (Hx : Forall nodata [u]) by (by constructor). specialize (Hpush s [u] eq_refl eq_refl eq_refl eq_refl eq_refl eq_refl Hx).
    rewrite (Hc (push s [u]) s) in Hpush by done. exact Hpush.
  - apply Hpush; try done. by constructor.
  - apply Hpush; try done. by constructor.
Qed.

Lemma resp_data_spec r room : resp_data r room = default [] (room_data_of r room).
Proof. done. Qed.

Lemma handle_scope_data e p here here' b b' room : in_scope e (ctx_of p here b) room <-> in_scope e (ctx_of p here' b') room.
Proof. done. Qed.
Lemma keys_of_In here room : is_Some (keys_of here !! room) <-> In room here.
Proof.
  unfold keys_of. rewrite <- elem_of_list_In. induction here as [|x here IH]; cbn.
  - rewrite lookup_empty, elem_of_nil. split; [by intros []|done].
  - rewrite elem_of_cons, <- IH. destruct (decide (x = room)) as [->|Hne].
    + rewrite lookup_insert. split; [by left|done].
    + rewrite lookup_insert_ne by done. naive_solver.
Qed.

Lemma data_of_nil_sto rows room t : data_of rows room = [] -> sto rows room t = None.
Proof. unfold sto. by intros ->. Qed.

Lemma loaded_rows l room : forall a, In room (a_loaded (fold_left add_row l a)) <-> In room (a_loaded a) \/ data_of l room <> [].
Proof.
  induction l as [|[x v] l IH]; intros a; cbn [fold_left].
  - split; [by left|intros [H|H]; done].
  - rewrite IH. cbn [add_row a_loaded fst]. unfold data_of. cbn [List.filter fst]. case_bool_decide as Hx.
    + subst x. cbn. split; [intros _; by right|]. intros _. left. by left.
    + cbn. naive_solver.
Qed.

Lemma marked_initial r c order rows rows' meta room : loaded_in (handle r c order (Some rows) rows' meta) room ->
  resp_data (handle r c order (Some rows) rows' meta) room <> [].
Proof.
  intros (a & Ha & Hl). rewrite resp_data_spec. unfold room_data_of. rewrite Ha. cbn.
  unfold handle in Ha. cbn [r_acct] in Ha. destruct (enabled_ext r EAccountData) as [e|]; [|done]. unfold acct_initial in Ha. cbv zeta in Ha.
  set (a1 := if 0 <? Z.of_nat (length (acct_rooms e c order)) then _ else _) in *.
  set (a2 := if x_initial c then _ else a1) in *.
  assert (Ha2 : a_rooms a2 = a_rooms a1 /\ a_loaded a2 = a_loaded a1) by (unfold a2; destruct (x_initial c); [destruct rows'|]; done).
  destruct Ha2 as [Hr2 Hl2]. destruct (_ || _); [|done]. injection Ha as <-. rewrite Hr2. rewrite Hl2 in Hl. unfold a1 in *.
  destruct (0 <? Z.of_nat (length (acct_rooms e c order))); [|done]. apply loaded_rows in Hl as [Hl|Hl]; [done|].
  rewrite add_rows_lookup. destruct (data_of _ room) as [|d ds]; [done|]. cbn. rewrite lookup_empty. done.
Qed.

Lemma add_data_loaded res g rm room : (forall r d, rm = Some (r, d) -> d <> []) ->
  (forall a, res = Some a -> In room (a_loaded a) -> default [] (a_rooms a !! room) <> []) ->
  forall a, add_data res g rm = Some a -> In room (a_loaded a) -> default [] (a_rooms a !! room) <> [].
Proof.
  intros Hrm Hres a Ha Hl. unfold add_data in Ha.
  assert (Hdef : In room (a_loaded (default aresp0 res)) -> default [] (a_rooms (default aresp0 res) !! room) <> []).
  { destruct res as [b|]; [by apply Hres|done]. }
  destruct rm as [[r d]|]; destruct g as [|g0 g]; try (injection Ha as <-); cbn in *; try (by apply Hdef).
  - destruct Hl as [->|Hl].
    + rewrite lookup_insert. cbn. destruct (default [] (a_rooms (default aresp0 res) !! room)); [|done]. by apply (Hrm room).
    + destruct (decide (r = room)) as [->|Hne]; [|rewrite lookup_insert_ne by done; by apply Hdef].
      rewrite lookup_insert. cbn. destruct (default [] (a_rooms (default aresp0 res) !! room)); [|done]. by apply (Hrm room).
  - destruct Hl as [->|Hl].
    + rewrite lookup_insert. cbn. destruct (default [] (a_rooms (default aresp0 res) !! room)); [|done]. by apply (Hrm room).
    + destruct (decide (r = room)) as [->|Hne]; [|rewrite lookup_insert_ne by done; by apply Hdef].
      rewrite lookup_insert. cbn. destruct (default [] (a_rooms (default aresp0 res) !! room)); [|done]. by apply (Hrm room).
  - by apply Hres.
Qed.

Lemma marked_live r c rows res u room : (forall x t d, u = URoomData x t d -> d <> []) ->
  (loaded_in res room -> resp_data res room <> []) ->
  loaded_in (handle_live r c (Some rows) res u) room -> resp_data (handle_live r c (Some rows) res u) room <> [].
Proof.
  intros Hu Hres (a & Ha & Hl). rewrite resp_data_spec. unfold room_data_of. rewrite Ha. cbn.
  assert (Hres' : forall a, r_acct res = Some a -> In room (a_loaded a) -> default [] (a_rooms a !! room) <> []).
  { intros b Hb Hlb. assert (H : loaded_in res room) by (by exists b). apply Hres in H. unfold resp_data in H. by rewrite Hb in H. }
  unfold handle_live in Ha. cbn [r_acct] in Ha. destruct (enabled_ext r EAccountData) as [e|]; [|by apply Hres'].
  assert (Hroom : forall x (k : option aresp), k = (if negb (roomInScope e x c) then r_acct res
      else if bool_decide (is_Some (x_timeline c !! x)) then
        if match r_acct res with Some a => bool_decide (x ∈ a_loaded a) | None => false end then r_acct res
        else match map snd (selectMany rows [x]) with [] => r_acct res | d => add_data (r_acct res) [] (Some (x, d)) end
      else r_acct res) -> k = Some a -> default [] (a_rooms a !! room) <> []).
  { intros x k -> Hk. destruct (negb _); [by apply Hres'|]. destruct (bool_decide _); [|by apply Hres'].
    destruct (match r_acct res with Some a => bool_decide (x ∈ a_loaded a) | None => false end); [by apply Hres'|].
    destruct (map snd (selectMany rows [x])) as [|d ds] eqn:Ed; [by apply Hres'|].
    eapply add_data_loaded; [|exact Hres'|exact Hk|exact Hl]. by intros ? ? [= <- <-]. }
  destruct u as [g|x t d|x t|x t|]; cbn [acct_live] in Ha.
  - eapply add_data_loaded; [|exact Hres'|exact Ha|exact Hl]. done.
  - destruct (roomInScope e x c); [|by apply Hres']. eapply add_data_loaded; [|exact Hres'|exact Ha|exact Hl].
    intros ? ? [= <- <-]. by eapply Hu.
  - by eapply Hroom.
  - by eapply Hroom.
  - by apply Hres'.
Qed.

Lemma covered_dec k s room : covered k s room \/ ~ covered k s room.
Proof.
  unfold covered. destruct (enabled_ext (f_exts s) k) as [e|] eqn:E.
  - pose proof (proj1 (enabled_spec _ _ _) E) as Ha. destruct (roomInScope e room (ctx_of (f_place s) [] false)) eqn:Es.
    + left. exists e. split; [done|]. by apply C53_scope.
    + right. intros (e' & Ha' & Hs). apply enabled_spec in Ha'. rewrite E in Ha'. injection Ha' as <-. apply C53_scope in Hs. by rewrite Es in Hs.
  - right. intros (e & Ha & _). apply enabled_spec in Ha. by rewrite E in Ha.
Qed.

(** What a request loads of a room, and what an update adds. *)
Lemma request_data ex p here b rows meta room : room <> "" ->
  resp_data (handle ex (ctx_of p here b) here (Some rows) (Some rows) meta) room = []
  \/ resp_data (handle ex (ctx_of p here b) here (Some rows) (Some rows) meta) room = data_of rows room.
Proof.
  intros Hroom. rewrite resp_data_spec, C53_data_initial_partial by done. destruct (enabled_ext ex EAccountData); [|by left].
  destruct (_ && _); [|by left]. right. by destruct (data_of rows room).
Qed.
Lemma request_loads ex p here b rows meta room e : room <> "" -> asked ex EAccountData e -> in_scope e (ctx_of p [] false) room -> In room here ->
  resp_data (handle ex (ctx_of p here b) here (Some rows) (Some rows) meta) room = data_of rows room.
Proof.
  intros Hroom Ha Hs Hin. rewrite resp_data_spec, C53_data_initial_partial by done. rewrite (proj2 (enabled_spec _ _ _) Ha).
  assert (Hsc : roomInScope e room (ctx_of p here b) = true) by (by apply C53_scope). rewrite Hsc.
  rewrite (bool_decide_eq_true_2 (room ∈ here)) by (by apply elem_of_list_In). cbn [andb]. by destruct (data_of rows room).
Qed.

Lemma take_data ex p here rows res u room :
  resp_data (handle_live ex (ctx_of p here false) (Some rows) res u) room = resp_data res room
  \/ resp_data (handle_live ex (ctx_of p here false) (Some rows) res u) room = resp_data res room ++ rpick room u
  \/ resp_data (handle_live ex (ctx_of p here false) (Some rows) res u) room = resp_data res room ++ data_of rows room.
Proof.
  destruct (C53_data_live ex (ctx_of p here false) (Some rows) res u room) as [H1 H2]. rewrite !resp_data_spec.
  destruct (enabled_ext ex EAccountData) as [e|] eqn:E.
  - pose proof (proj1 (enabled_spec _ _ _) E) as Ha. destruct (roomInScope e room (ctx_of p here false)) eqn:Es.
    + assert (Hs : in_scope e (ctx_of p here false) room) by (by apply C53_scope).
      assert (Hno : (forall d, ~ data_news (ctx_of p here false) (Some rows) (loaded_in res room) u room d) \/
        (exists d, data_news (ctx_of p here false) (Some rows) (loaded_in res room) u room d /\ (d = rpick room u \/ d = data_of rows room))).
      { destruct u as [g|x t d|x t|x t|]; cbn [data_news rpick].
        - left. by intros d []. 
        - destruct (decide (x = room)) as [->|Hne]; [|left; by intros ? [? _]]. right. exists d. split; [done|]. left. by rewrite bool_decide_eq_true_2.
        - destruct (decide (x = room)) as [->|Hne]; [|left; by intros ? [? _]].
          destruct (decide (is_Some (x_timeline (ctx_of p here false) !! room))) as [Ht|Ht]; [|left; by intros ? (_ & ? & _)].
          destruct (decide (room ∈ default [] (a_loaded <$> r_acct res))) as [Hl|Hl].
          + left. intros d (_ & _ & Hn & _). apply Hn. destruct (r_acct res) as [a|] eqn:Er; [|by apply elem_of_nil in Hl]. exists a.
            split; [done|]. by apply elem_of_list_In.
          + destruct (decide (data_of rows room = [])) as [Hd|Hd].
            * left. intros d (_ & _ & _ & l & [= <-] & -> & Hn). done.
            * right. exists (data_of rows room). split; [|by right]. split; [done|]. split; [done|]. split; [|by exists rows].
              intros (a & Hra & Hi). apply Hl. rewrite Hra. cbn. by apply elem_of_list_In.
        - destruct (decide (x = room)) as [->|Hne]; [|left; by intros ? [? _]].
          destruct (decide (is_Some (x_timeline (ctx_of p here false) !! room))) as [Ht|Ht]; [|left; by intros ? (_ & ? & _)].
          destruct (decide (room ∈ default [] (a_loaded <$> r_acct res))) as [Hl|Hl].
          + left. intros d (_ & _ & Hn & _). apply Hn. destruct (r_acct res) as [a|] eqn:Er; [|by apply elem_of_nil in Hl]. exists a.
            split; [done|]. by apply elem_of_list_In.
          + destruct (decide (data_of rows room = [])) as [Hd|Hd].
            * left. intros d (_ & _ & _ & l & [= <-] & -> & Hn). done.
            * right. exists (data_of rows room). split; [|by right]. split; [done|]. split; [done|]. split; [|by exists rows].
              intros (a & Hra & Hi). apply Hl. rewrite Hra. cbn. by apply elem_of_list_In.
        - left. by intros d []. }
      destruct Hno as [Hno|(d & Hd & Hcase)].
      * left. rewrite H2 by (by right). done.
      * right. rewrite (H1 e d Ha Hs Hd). cbn [default from_option id]. destruct Hcase as [-> | ->]; [by left|by right].
    + left. rewrite H2; [done|]. left. intros e' Ha' Hs. apply enabled_spec in Ha'. rewrite E in Ha'. injection Ha' as <-. apply C53_scope in Hs. by rewrite Es in Hs.
  - left. rewrite H2; [done|]. left. intros e' Ha'. apply enabled_spec in Ha'. by rewrite E in Ha'.
Qed.
Lemma take_own_data ex p here rows res x t d room e : asked ex EAccountData e -> in_scope e (ctx_of p [] false) room -> x = room ->
  resp_data (handle_live ex (ctx_of p here false) (Some rows) res (URoomData x t d)) room = resp_data res room ++ d.
Proof.
  intros Ha Hs ->. destruct (C53_data_live ex (ctx_of p here false) (Some rows) res (URoomData room t d) room) as [H1 _].
  rewrite !resp_data_spec. by rewrite (H1 e d Ha Hs).
Qed.
Lemma take_own_loads ex p here rows res u t room e : asked ex EAccountData e -> in_scope e (ctx_of p [] false) room -> In room here ->
  u = URoom room t \/ u = UTyping room t -> ~ loaded_in res room ->
  resp_data (handle_live ex (ctx_of p here false) (Some rows) res u) room = resp_data res room ++ data_of rows room.
Proof.
  intros Ha Hs Hin Hu Hl. destruct (C53_data_live ex (ctx_of p here false) (Some rows) res u room) as [H1 H2].
  rewrite !resp_data_spec. destruct (decide (data_of rows room = [])) as [Hd|Hd].
  - rewrite Hd, app_nil_r, H2; [done|]. right. intros d. destruct Hu as [-> | ->]; intros (_ & _ & _ & l & [= <-] & -> & Hn); done.
  - rewrite (H1 e (data_of rows room) Ha Hs); [done|].
    assert (Hk : is_Some (x_timeline (ctx_of p here false) !! room)) by (by apply keys_of_In).
    destruct Hu as [-> | ->]; (split; [done|]; split; [done|]; split; [done|]; by exists rows).
Qed.

(** What is not stored is not known to anybody. *)
Definition unknown (room : string) (s : fstate) : Prop :=
  forall t, sto (f_rows s) room t = None ->
    last_of t (flat_map (rpick room) (f_queue s)) = None /\ last_of t (resp_data (f_resp s) room) = None /\ f_data s room t = None.

Lemma unknown_step room s a : room <> "" -> base (rpick room) room s -> unknown room s -> unknown room (stepf s a).
Proof.
  intros Hroom Hb Hu. pose proof (good_rpick room Hroom) as Hp.
  assert (Hpush : forall s0 l, f_resp s0 = f_resp s -> f_rows s0 = f_rows s -> f_data s0 = f_data s ->
    f_queue s0 = f_queue s -> Forall nodata l -> unknown room (push s0 l)).
  { intros s0 l E1 E2 E3 E4 Hl t. fcbn. rewrite E1, E2, E3, E4, flat_map_app, (flat_map_nodata _ _ l Hp Hl), app_nil_r. apply Hu. }
  destruct a as [r data|rows| |r ev m|r hold|r|r| |ex p here|p added|]; cbn [fstep].
  - destruct data as [|d0 data0] eqn:Ed; [done|]. rewrite <- Ed. intros t. fcbn. rewrite sto_insert_all. case_bool_decide; [|apply Hu].
    intros H0. apply Hu. by destruct (last_of t data).
  - case_decide as Hr; [|done]. intros t. fcbn. rewrite (sto_perm _ _ _ _ (b_one _ _ _ Hb) Hr). apply Hu.
  - destruct (f_pend s) as [|[r types] rest] eqn:Ep; [done|]. intros t. fcbn. intros H0. destruct (Hu t H0) as (G1 & G2 & G3).
    split; [|done]. destruct Hp as [Hp _]. rewrite flat_map_app, Hp, last_of_app, G1. case_bool_decide as Hr; [|done]. subst r.
    rewrite last_of_select. case_bool_decide; [by rewrite H0|done].
  - case_bool_decide; [done|]. cbv zeta. destruct m; [|done]. apply Hpush; try done. by constructor.
  - destruct (_ || _); [done|]. apply Hpush; try done. by constructor.
  - destruct (next_held r (f_held s)) as [[u rest]|] eqn:E; [|done]. apply next_held_In in E as (_ & Hin & _).
    assert (Hn : nodata u). { pose proof (b_held _ _ _ Hb) as Hf. rewrite Forall_forall in Hf. apply Hf. by apply elem_of_list_In. }
    assert (Hx : Forall nodata [u]) by (by constructor). exact (Hpush s [u] eq_refl eq_refl eq_refl eq_refl Hx).
  - apply Hpush; try done. by constructor.
  - apply Hpush; try done. by constructor.
  - destruct (f_busy s) eqn:Eb; [done|]. intros t. fcbn. intros H0. destruct (Hu t H0) as (G1 & G2 & G3). split; [done|]. split; [|done].
    destruct (request_data ex p here (f_first s) (f_rows s) (f_typ s) room Hroom) as [-> | ->]; [done|exact H0].
  - destruct (f_busy s) eqn:Eb; cbn [negb]; [|done]. destruct (f_queue s) as [|u q] eqn:Eq; [done|]. intros t. fcbn. intros H0.
    destruct (Hu t H0) as (G1 & G2 & G3). rewrite Eq in G1. change (u :: q) with ([u] ++ q) in G1. rewrite flat_map_app, last_of_app in G1.
    destruct (last_of t (flat_map (rpick room) q)) eqn:E1; [done|]. cbn [newer flat_map] in G1. rewrite app_nil_r in G1. split; [done|]. split; [|done].
    destruct (take_data (f_exts s) p (f_here s ++ added) (f_rows s) (f_resp s) u room) as [-> |[-> | ->]]; [done| |].
    + by rewrite last_of_app, G1.
    + rewrite last_of_app. fold (sto (f_rows s) room t). by rewrite H0.
  - destruct (f_busy s); [|done]. intros t. fcbn. intros H0. destruct (Hu t H0) as (G1 & G2 & G3). split; [done|]. split; [done|].
    by rewrite G2.
Qed.

Lemma loaded_empty s room : marked room s -> resp_data (f_resp s) room = [] -> ~ loaded_in (f_resp s) room.
Proof. intros Hm He Hl. by apply Hm in Hl. Qed.

Lemma follows_step room s a : room <> "" -> base (rpick room) room s -> marked room s -> unknown room s -> enters_with_data type_of room s a ->
  follows room s -> follows room (stepf s a) /\ marked room (stepf s a).
Proof.
  intros Hroom Hb Hm Hk He Hf. pose proof (good_rpick room Hroom) as Hp.
  destruct (match a with Request _ _ _ | Take _ _ | Answer => false | _ => true end) eqn:Eq.
  { assert (Hsame : f_exts (stepf s a) = f_exts s /\ f_place (stepf s a) = f_place s /\ f_resp (stepf s a) = f_resp s).
    { destruct a as [r data|rows| |r ev m|r hold|r|r| |ex p here|p added|]; cbn [fstep]; try done.
      - by destruct data.
      - by case_decide.
      - by destruct (f_pend s) as [|[? ?] ?].
      - case_bool_decide; [done|]. by destruct m.
      - by destruct (_ || _).
      - by destruct (next_held r (f_held s)) as [[? ?]|]. }
    destruct Hsame as (E1 & E2 & E3). split; [|unfold marked in *; by rewrite E3].
    intros Hc. apply (covered_same EAccountData s (stepf s a) room E1 E2) in Hc. specialize (Hf Hc).
    apply (coming_quiet (rpick room) room s a (fun r => resp_data r room) (fun s => f_data s room) Hp Hb); [by intros ? ? -> _|by destruct a|done]. }
  destruct a as [r data|rows| |r ev m|r hold|r|r| |ex p here|p added|]; try done; clear Eq.
  - (* Request *)
    unfold enters_with_data in He. cbn [fstep] in *. destruct (f_busy s) eqn:Eb; [done|]. set (s' := mk_f _ _ _ _ _ _ _ _ _ _ _ _ _ _) in *.
    split; [|unfold marked, s'; fcbn; apply marked_initial].
    intros Hc t. pose proof Hc as (e & Ha & Hs). unfold s' in Ha, Hs. cbn [f_exts f_place] in Ha, Hs.
    assert (Hload : resp_data (f_resp s') room = data_of (f_rows s) room ->
      pendt s' room t \/ coming (rpick room) (resp_data (f_resp s') room) (f_data s' room) s' t = sto (f_rows s') room t).
    { intros ->. unfold coming, s'. fcbn. fold (sto (f_rows s) room t). destruct (b_queue _ _ _ Hb t) as [H|H]; [by left|]. right.
      destruct (sto (f_rows s) room t) as [d|] eqn:Ed; [by destruct H as [-> | ->]|]. destruct (Hk t Ed) as (-> & _ & ->). done. }
    destruct (covered_dec EAccountData s room) as [Hc0|Hc0].
    + destruct (request_data ex p here (f_first s) (f_rows s) (f_typ s) room Hroom) as [Hrd|Hrd]; [|by apply Hload].
      assert (Hrd' : resp_data (f_resp s') room = []) by exact Hrd. specialize (Hf Hc0 t). unfold coming in *. rewrite Hrd'. unfold s'. fcbn.
      rewrite (b_rest _ _ _ Hb Eb) in Hf. exact Hf.
    + apply Hload. unfold s'. fcbn. apply (request_loads ex p here _ _ _ room e Hroom Ha Hs). by apply He.
  - (* Take *)
    unfold enters_with_data in He. cbn [fstep] in *. destruct (f_busy s) eqn:Eb; cbn [negb] in *; [|done].
    destruct (f_queue s) as [|u q] eqn:Eq; [done|]. set (s' := mk_f _ _ _ _ _ _ _ _ _ _ _ _ _ _) in *. split.
    + intros Hc t. pose proof Hc as (e & Ha & Hs). unfold s' in Ha, Hs. cbn [f_exts f_place] in Ha, Hs.
      assert (Hload : resp_data (f_resp s') room = resp_data (f_resp s) room ++ data_of (f_rows s) room ->
        pendt s' room t \/ coming (rpick room) (resp_data (f_resp s') room) (f_data s' room) s' t = sto (f_rows s') room t).
      { intros ->. unfold coming, s'. fcbn. rewrite last_of_app. fold (sto (f_rows s) room t).
        pose proof (b_queue _ _ _ Hb t) as H. rewrite Eq in H. change (u :: q) with ([u] ++ q) in H. rewrite flat_map_app, last_of_app in H.
        destruct H as [H|H]; [by left|]. right.
        destruct (sto (f_rows s) room t) as [d|] eqn:Ed.
        - destruct (last_of t (flat_map (rpick room) q)) as [d'|]; [|done]. cbn in H. by destruct H.
        - destruct (Hk t Ed) as (G1 & -> & ->). rewrite Eq in G1. change (u :: q) with ([u] ++ q) in G1. rewrite flat_map_app, last_of_app in G1.
          by destruct (last_of t (flat_map (rpick room) q)). }
      destruct (covered_dec EAccountData s room) as [Hc0|Hc0].
      * destruct (rpick room u) as [|d0 ds] eqn:Epu.
        -- assert (Hcase : resp_data (f_resp s') room = resp_data (f_resp s) room \/ resp_data (f_resp s') room = resp_data (f_resp s) room ++ data_of (f_rows s) room).
           { unfold s'. fcbn. destruct (take_data (f_exts s) p (f_here s ++ added) (f_rows s) (f_resp s) u room) as [H|[H|H]]; rewrite H; [by left| |by right].
             rewrite Epu, app_nil_r. by left. }
           destruct Hcase as [Hsame|Hl]; [|by apply Hload]. specialize (Hf Hc0 t). unfold coming in *. rewrite Hsame. unfold s'. fcbn.
           rewrite Eq in Hf. cbn [flat_map] in Hf. rewrite Epu in Hf. exact Hf.
        -- destruct u as [g|x tt d|x tt|x tt|]; cbn [rpick] in Epu; try done. destruct (decide (x = room)) as [Hx|Hx]; [|by rewrite bool_decide_eq_false_2 in Epu].
           specialize (Hf Hc0 t). unfold coming in *. unfold s'. fcbn. rewrite (take_own_data _ p _ _ _ x tt d room e Ha Hs Hx).
           rewrite Eq in Hf. change (URoomData x tt d :: q) with ([URoomData x tt d] ++ q) in Hf. rewrite flat_map_app, last_of_app in Hf.
           cbn [flat_map rpick] in Hf. rewrite bool_decide_eq_true_2, app_nil_r in Hf by done. rewrite last_of_app, !newer_assoc in *. exact Hf.
      * destruct (He Hc0 Hc) as (Hin & (tt & q' & Hu) & Hrd). apply Hload. unfold s'. fcbn.
        apply (take_own_loads (f_exts s) p (f_here s ++ added) (f_rows s) (f_resp s) u tt room e Ha Hs Hin).
        -- destruct Hu as [Hu|Hu]; injection Hu as -> _; [by left|by right].
        -- by apply loaded_empty.
    + unfold marked, s'. fcbn. intros Hl. eapply marked_live; [|exact Hm|exact Hl]. intros x tt d ->. apply (b_full _ _ _ Hb x tt d). rewrite Eq. by left.
  - (* Answer *)
    cbn [fstep] in *. destruct (f_busy s) eqn:Eb; [|done]. split; [|by intros (? & ? & _)].
    intros Hc t. assert (Hc0 : covered EAccountData s room) by exact Hc. specialize (Hf Hc0 t). unfold coming in *. fcbn. exact Hf.
Qed.

Lemma base_start pick room rows pend typ : one_each type_of rows -> sound_pend type_of (fstart rows pend typ) -> base pick room (fstart rows pend typ).
Proof.
  intros H1 H2. split; cbn; try done.
  - intros r types t Hi Ht. destruct (H2 r types t Hi Ht) as [d Hd]. exists d. by apply sto_spec.
  - intros t. right. by left.
Qed.

Theorem follows_run room l : forall s, room <> "" -> base (rpick room) room s -> marked room s -> unknown room s -> follows room s ->
  each_step type_of (enters_with_data type_of room) s l ->
  base (rpick room) room (frun type_of s l) /\ follows room (frun type_of s l).
Proof.
  unfold frun. induction l as [|a l IH]; intros s Hroom Hb Hm Hk Hf He; cbn [fold_left]; [done|]. destruct He as [Ha He].
  destruct (follows_step room s a Hroom Hb Hm Hk Ha Hf) as [Hf' Hm'].
  apply IH; try done; [by apply base_step, Hb; apply good_rpick|by apply unknown_step].
Qed.

(** ** Global account data *)
Definition gfollows (s : fstate) : Prop :=
  f_first s = false -> forall t, pendt s "" t \/ coming gpick (resp_global (f_resp s)) (f_global s) s t = sto (f_rows s) "" t.
Definition gon (s : fstate) : Prop := f_first s = false -> exists e, asked (f_exts s) EAccountData e.
Definition gunknown (s : fstate) : Prop :=
  forall t, sto (f_rows s) "" t = None ->
    last_of t (flat_map gpick (f_queue s)) = None /\ last_of t (resp_global (f_resp s)) = None /\ f_global s t = None.

Lemma request_global ex p here b rows meta :
  (forall e, asked ex EAccountData e -> b = true -> resp_global (handle ex (ctx_of p here b) here (Some rows) (Some rows) meta) = data_of rows "")
  /\ (b = false \/ (forall e, ~ asked ex EAccountData e) -> resp_global (handle ex (ctx_of p here b) here (Some rows) (Some rows) meta) = []).
Proof.
  unfold resp_global, handle. cbn [r_acct].
  assert (Hgen : forall e, default [] (a_global <$> acct_initial e (ctx_of p here b) here (Some rows) (Some rows)) = if b then data_of rows "" else []).
  { intros e. unfold acct_initial. cbv zeta. cbn [x_initial ctx_of].
    set (a1 := if 0 <? Z.of_nat (length (acct_rooms e _ here)) then _ else _).
    assert (Ha1 : a_global a1 = []).
    { unfold a1. destruct (0 <? _); [|done]. generalize (selectMany rows (acct_rooms e (ctx_of p here b) here)). intros l.
      assert (H : forall a, a_global a = [] -> a_global (fold_left add_row l a) = []) by (induction l as [|x l IH]; intros a H; [done|]; cbn; by apply IH).
      by apply H. }
    destruct b.
    - cbn [a_rooms a_global]. change (map snd (selectMany rows [])) with (data_of rows "").
      destruct (data_of rows ""); [|by rewrite orb_true_r]. by destruct (_ || _).
    - rewrite Ha1. by destruct (_ || _); cbn. }
  split.
  - intros e Ha ->. rewrite (proj2 (enabled_spec _ _ _) Ha). apply Hgen.
  - intros [->|Hn].
    + destruct (enabled_ext ex EAccountData); [|done]. apply Hgen.
    + destruct (enabled_ext ex EAccountData) as [e|] eqn:E; [|done]. apply enabled_spec in E. by apply Hn in E.
Qed.
Lemma take_global ex p here rows res u :
  (forall e, asked ex EAccountData e -> resp_global (handle_live ex (ctx_of p here false) (Some rows) res u) = resp_global res ++ gpick u)
  /\ ((forall e, ~ asked ex EAccountData e) -> resp_global (handle_live ex (ctx_of p here false) (Some rows) res u) = resp_global res).
Proof.
  destruct (C53_global_data_live ex [(ctx_of p here false, Some rows, u)] res) as [H1 H2]. cbn [fold_left flat_map fst snd] in *. rewrite app_nil_r in H1. split.
  - intros e Ha. apply H1. by exists e.
  - intros Hn. by apply H2.
Qed.

Lemma gunknown_step s a : base gpick "" s -> gunknown s -> gunknown (stepf s a).
Proof.
  intros Hb Hu. pose proof good_gpick as Hp.
  assert (Hpush : forall s0 l, f_resp s0 = f_resp s -> f_rows s0 = f_rows s -> f_global s0 = f_global s ->
    f_queue s0 = f_queue s -> Forall nodata l -> gunknown (push s0 l)).
  { intros s0 l E1 E2 E3 E4 Hl t. fcbn. rewrite E1, E2, E3, E4, flat_map_app, (flat_map_nodata _ _ l Hp Hl), app_nil_r. apply Hu. }
  destruct a as [r data|rows| |r ev m|r hold|r|r| |ex p here|p added|]; cbn [fstep].
  - destruct data as [|d0 data0] eqn:Ed; [done|]. rewrite <- Ed. intros t. fcbn. rewrite sto_insert_all. case_bool_decide; [|apply Hu].
    intros H0. apply Hu. by destruct (last_of t data).
  - case_decide as Hr; [|done]. intros t. fcbn. rewrite (sto_perm _ _ _ _ (b_one _ _ _ Hb) Hr). apply Hu.
  - destruct (f_pend s) as [|[r types] rest] eqn:Ep; [done|]. intros t. fcbn. intros H0. destruct (Hu t H0) as (G1 & G2 & G3).
    split; [|done]. destruct Hp as [Hp _]. rewrite flat_map_app, Hp, last_of_app, G1. case_bool_decide as Hr; [|done]. subst r.
    rewrite last_of_select. case_bool_decide; [by rewrite H0|done].
  - case_bool_decide; [done|]. cbv zeta. destruct m; [|done]. apply Hpush; try done. by constructor.
  - destruct (_ || _); [done|]. apply Hpush; try done. by constructor.
  - destruct (next_held r (f_held s)) as [[u rest]|] eqn:E; [|done]. apply next_held_In in E as (_ & Hin & _).
    assert (Hn : nodata u). { pose proof (b_held _ _ _ Hb) as Hf. rewrite Forall_forall in Hf. apply Hf. by apply elem_of_list_In. }
    assert (Hx : Forall nodata [u]) by (by constructor). exact (Hpush s [u] eq_refl eq_refl eq_refl eq_refl Hx).
  - apply Hpush; try done. by constructor.
  - apply Hpush; try done. by constructor.
  - destruct (f_busy s) eqn:Eb; [done|]. intros t. fcbn. intros H0. destruct (Hu t H0) as (G1 & G2 & G3). split; [done|]. split; [|done].
    destruct (request_global ex p here (f_first s) (f_rows s) (f_typ s)) as [R1 R2].
    destruct (enabled_ext ex EAccountData) as [e|] eqn:E.
    + apply enabled_spec in E. destruct (f_first s); [rewrite (R1 e E eq_refl); exact H0|]. by rewrite R2 by (by left).
    + rewrite R2; [done|]. right. intros e' Ha'. apply enabled_spec in Ha'. by rewrite E in Ha'.
  - destruct (f_busy s) eqn:Eb; cbn [negb]; [|done]. destruct (f_queue s) as [|u q] eqn:Eq; [done|]. intros t. fcbn. intros H0.
    destruct (Hu t H0) as (G1 & G2 & G3). rewrite Eq in G1. change (u :: q) with ([u] ++ q) in G1. rewrite flat_map_app, last_of_app in G1.
    destruct (last_of t (flat_map gpick q)) eqn:E1; [done|]. cbn [newer flat_map] in G1. rewrite app_nil_r in G1. split; [done|]. split; [|done].
    destruct (take_global (f_exts s) p (f_here s ++ added) (f_rows s) (f_resp s) u) as [R1 R2].
    destruct (enabled_ext (f_exts s) EAccountData) as [e|] eqn:E.
    + apply enabled_spec in E. by rewrite (R1 e E), last_of_app, G1.
    + rewrite R2; [done|]. intros e' Ha'. apply enabled_spec in Ha'. by rewrite E in Ha'.
  - destruct (f_busy s); [|done]. intros t. fcbn. intros H0. destruct (Hu t H0) as (G1 & G2 & G3). split; [done|]. split; [done|].
    by rewrite G2.
Qed.

Lemma gfollows_step s a : base gpick "" s -> gunknown s -> always_asked EAccountData s a ->
  gon s -> gfollows s -> gon (stepf s a) /\ gfollows (stepf s a).
Proof.
  intros Hb Hk Hask Hon Hf. pose proof good_gpick as Hp.
  destruct (match a with Request _ _ _ | Take _ _ | Answer => false | _ => true end) eqn:Eq.
  { assert (Hsame : f_exts (stepf s a) = f_exts s /\ f_first (stepf s a) = f_first s).
    { destruct a as [r data|rows| |r ev m|r hold|r|r| |ex p here|p added|]; cbn [fstep]; try done.
      - by destruct data.
      - by case_decide.
      - by destruct (f_pend s) as [|[? ?] ?].
      - case_bool_decide; [done|]. by destruct m.
      - by destruct (_ || _).
      - by destruct (next_held r (f_held s)) as [[? ?]|]. }
    destruct Hsame as (E1 & E2). split; [unfold gon in *; by rewrite E1, E2|].
    intros Hc. rewrite E2 in Hc. specialize (Hf Hc).
    apply (coming_quiet gpick "" s a resp_global f_global Hp Hb); [by intros ? ? _ ->|by destruct a|done]. }
  destruct a as [r data|rows| |r ev m|r hold|r|r| |ex p here|p added|]; try done; clear Eq.
  - cbn [fstep always_asked] in *. destruct (f_busy s) eqn:Eb; [done|]. split; [by intros _|].
    intros _ t. destruct Hask as [e Ha]. destruct (request_global ex p here (f_first s) (f_rows s) (f_typ s)) as [R1 R2].
    unfold coming. fcbn. destruct (f_first s) eqn:Ef.
    + rewrite (R1 e Ha eq_refl). fold (sto (f_rows s) "" t). destruct (b_queue _ _ _ Hb t) as [H|H]; [by left|]. right.
      destruct (sto (f_rows s) "" t) as [d|] eqn:Ed; [by destruct H as [-> | ->]|]. destruct (Hk t Ed) as (-> & _ & ->). done.
    + rewrite R2 by (by left). specialize (Hf Ef t). unfold coming in Hf. rewrite (b_rest _ _ _ Hb Eb) in Hf. exact Hf.
  - cbn [fstep] in *. destruct (f_busy s) eqn:Eb; cbn [negb] in *; [|done]. destruct (f_queue s) as [|u q] eqn:Eq; [done|]. split; [done|].
    intros Hc t. cbn [f_first] in Hc. destruct (Hon Hc) as [e Ha].
    destruct (take_global (f_exts s) p (f_here s ++ added) (f_rows s) (f_resp s) u) as [R1 _]. specialize (Hf Hc t). unfold coming in *. fcbn.
    rewrite (R1 e Ha), last_of_app, newer_assoc. rewrite Eq in Hf. change (u :: q) with ([u] ++ q) in Hf. rewrite flat_map_app, last_of_app in Hf.
    cbn [flat_map] in Hf. rewrite app_nil_r, newer_assoc in Hf. exact Hf.
  - cbn [fstep] in *. destruct (f_busy s) eqn:Eb; [|done]. split; [done|].
    intros Hc t. specialize (Hf Hc t). unfold coming in *. fcbn. exact Hf.
Qed.

Theorem gfollows_run l : forall s, base gpick "" s -> gunknown s -> gon s -> gfollows s ->
  each_step type_of (always_asked EAccountData) s l ->
  base gpick "" (frun type_of s l) /\ gfollows (frun type_of s l).
Proof.
  unfold frun. induction l as [|a l IH]; intros s Hb Hk Ho Hf He; cbn [fold_left]; [done|]. destruct He as [Ha He].
  destruct (gfollows_step s a Hb Hk Ha Ho Hf) as [Ho' Hf'].
  apply IH; try done; [by apply base_step, Hb; apply good_gpick|by apply gunknown_step].
Qed.

(** ** Typing *)
Definition typing_in (room : string) (u : update) : bool :=
  match u with UTyping x _ => bool_decide (x = room) | _ => false end.
Definition carries (room : string) (u : update) : option (option string) :=
  match room_update u with Some (x, t) => if bool_decide (x = room) then Some t else None | None => None end.
(** Every update of the room carries the room's typing event, or a typing update
    comes after it. *)
Fixpoint up_to_date (room : string) (now : option string) (q : list update) : Prop :=
  match q with
  | [] => True
  | u :: q' => (forall t, carries room u = Some t -> t = now \/ existsb (typing_in room) q' = true) /\ up_to_date room now q'
  end.
Record tinv (room : string) (s : fstate) : Prop := mk_tinv {
  t_queue : up_to_date room (f_typ s room) (f_queue s);
  t_held : forall u t, In u (f_held s) -> carries room u = Some t -> t = f_typ s room;
  t_rest : f_busy s = false -> f_resp s = eresp0;
  t_copy : covered ETyping s room -> existsb (typing_in room) (f_queue s) = true \/ f_typ s room = None
             \/ newer (resp_typing (f_resp s) room) (f_typing s room) = f_typ s room
}.

Lemma up_to_date_app room now q l : up_to_date room now q -> (forall u t, In u l -> carries room u = Some t -> t = now) -> up_to_date room now (q ++ l).
Proof.
  intros Hq Hl. induction q as [|u q IH]; cbn [app up_to_date].
  - induction l as [|u l IHl]; [done|]. split; [|apply IHl; intros v t Hv; apply Hl; by right]. intros t Ht. left. apply (Hl u); [by left|done].
  - destruct Hq as [H1 H2]. split; [|by apply IH]. intros t Ht. destruct (H1 t Ht) as [H|H]; [by left|]. right. by rewrite existsb_app, H.
Qed.
Lemma up_to_date_new room ev q : up_to_date room (Some ev) (q ++ [UTyping room (Some ev)]).
Proof.
  induction q as [|u q IH]; cbn [app up_to_date].
  - split; [|done]. intros t. unfold carries. cbn. rewrite bool_decide_eq_true_2 by done. intros [= <-]. by left.
  - split; [|done]. intros t _. right. rewrite existsb_app. cbn. rewrite bool_decide_eq_true_2 by done. by rewrite orb_true_r.
Qed.
Lemma carries_room room u : carries room u = None <-> room_of u <> Some room.
Proof.
  unfold carries, room_of. destruct (room_update u) as [[x t]|]; cbn; [|done]. case_bool_decide as Hx; [by subst|].
  split; [|done]. intros _ [= H]. done.
Qed.

Lemma request_typing ex p here b rows meta room :
  (forall e, asked ex ETyping e -> in_scope e (ctx_of p [] false) room -> In room here ->
     resp_typing (handle ex (ctx_of p here b) here (Some rows) (Some rows) meta) room = meta room)
  /\ (resp_typing (handle ex (ctx_of p here b) here (Some rows) (Some rows) meta) room = None
      \/ resp_typing (handle ex (ctx_of p here b) here (Some rows) (Some rows) meta) room = meta room).
Proof.
  change (resp_typing (handle ex (ctx_of p here b) here (Some rows) (Some rows) meta) room)
    with (typing_of (handle ex (ctx_of p here b) here (Some rows) (Some rows) meta) room). rewrite C53_typing_initial. split.
  - intros e Ha Hs Hin. rewrite (proj2 (enabled_spec _ _ _) Ha).
    assert (Hsc : roomInScope e room (ctx_of p here b) = true) by (by apply C53_scope). rewrite Hsc.
    by rewrite (bool_decide_eq_true_2 (room ∈ here)) by (by apply elem_of_list_In).
  - destruct (enabled_ext ex ETyping); [|by left]. destruct (_ && _); [by right|by left].
Qed.

Lemma take_typing ex p here rows res u room : room <> "" ->
  (forall e t, asked ex ETyping e -> in_scope e (ctx_of p [] false) room -> carries room u = Some (Some t) -> typing_in room u = true \/ In room here ->
     resp_typing (handle_live ex (ctx_of p here false) rows res u) room = Some t)
  /\ (resp_typing (handle_live ex (ctx_of p here false) rows res u) room = resp_typing res room
      \/ exists t, carries room u = Some (Some t) /\ resp_typing (handle_live ex (ctx_of p here false) rows res u) room = Some t).
Proof.
  intros Hroom. destruct (C53_typing_live ex (ctx_of p here false) rows res u room Hroom) as [H1 H2].
  change (resp_typing (handle_live ex (ctx_of p here false) rows res u) room) with (typing_of (handle_live ex (ctx_of p here false) rows res u) room).
  change (resp_typing res room) with (typing_of res room).
  assert (Hnews : forall t, typing_news (ctx_of p here false) u room = Some t -> carries room u = Some (Some t)).
  { intros t. unfold typing_news, carries. destruct u as [g|x tt d|x tt|x tt|]; cbn; try done.
    - case_bool_decide as Hx; [|done]. destruct Hx as [-> _]. rewrite bool_decide_eq_true_2 by done. by intros ->.
    - case_bool_decide as Hx; [|done]. by intros ->.
    - case_bool_decide as Hx; [|done]. destruct Hx as [-> _]. rewrite bool_decide_eq_true_2 by done. by intros ->. }
  split.
  - intros e t Ha Hs Hcar Hin. apply (H1 e t Ha Hs).
    assert (Hk : In room here -> is_Some (keys_of here !! room)) by (by intros; apply keys_of_In).
    unfold typing_news, carries, typing_in in *. destruct u as [g|x tt d|x tt|x tt|]; cbn in *; try done.
    + case_bool_decide as Hx; [|done]. injection Hcar as ->. destruct Hin as [Hin|Hin]; [done|]. by rewrite bool_decide_eq_true_2 by auto.
    + case_bool_decide as Hx; [|done]. by injection Hcar as ->.
    + case_bool_decide as Hx; [|done]. injection Hcar as ->. destruct Hin as [Hin|Hin]; [done|]. by rewrite bool_decide_eq_true_2 by auto.
  - destruct (typing_news (ctx_of p here false) u room) as [t|] eqn:En.
    + destruct (enabled_ext ex ETyping) as [e|] eqn:E.
      * pose proof (proj1 (enabled_spec _ _ _) E) as Ha. destruct (roomInScope e room (ctx_of p here false)) eqn:Es.
        -- right. exists t. split; [by apply Hnews|]. apply (H1 e t Ha); [by apply C53_scope|done].
        -- left. apply H2. left. intros e' Ha' Hs. apply enabled_spec in Ha'. rewrite E in Ha'. injection Ha' as <-. apply C53_scope in Hs. by rewrite Es in Hs.
      * left. apply H2. left. intros e' Ha'. apply enabled_spec in Ha'. by rewrite E in Ha'.
    + left. apply H2. by right.
Qed.

Lemma carries_data_update room typ r d u t : In u (data_update typ r d) -> carries room u = Some t -> t = typ room.
Proof.
  unfold data_update. destruct d; [done|]. destruct (String.eqb r ""); intros [<-|[]]; unfold carries; cbn; [done|].
  case_bool_decide as Hx; [|done]. subst r. by intros [= <-].
Qed.
Lemma carries_other room x now t : carries room (URoom x now) = Some t -> x = room /\ t = now.
Proof. unfold carries. cbn. case_bool_decide; [|done]. by intros [= <-]. Qed.

Lemma tinv_push room s l : tinv room s -> (forall u t, In u l -> carries room u = Some t -> t = f_typ s room) -> tinv room (push s l).
Proof.
  intros [H1 H2 H3 H4] Hl. split; fcbn; try done.
  - by apply up_to_date_app.
  - intros Hc. destruct (H4 Hc) as [H|H]; [left; by rewrite existsb_app, H|by right].
Qed.

Lemma tinv_step room s a : room <> "" -> enters_with_typing type_of room s a -> typing_unheld room s a -> tinv room s -> tinv room (stepf s a).
Proof.
  intros Hroom He Hh Ht. pose proof Ht as [H1 H2 H3 H4].
  destruct a as [r data|rows| |r ev m|r hold|r|r| |ex p here|p added|]; cbn [fstep].
  - destruct data; [done|]. by split.
  - case_decide; [|done]. by split.
  - destruct (f_pend s) as [|[r types] rest]; [done|]. apply (tinv_push room (set_rows s (f_rows s) rest)); [by split|].
    intros u t Hi Hc. by eapply carries_data_update.
  - case_bool_decide as Hsame; [done|]. cbn [typing_unheld] in Hh. cbv zeta. destruct (decide (r = room)) as [->|Hne].
    + destruct (Hh eq_refl) as [-> Hno]. destruct Hno as [Hno|Hno]; [done|]. split; fcbn.
      * rewrite String.eqb_refl. apply up_to_date_new.
      * intros u t Hi Hc. exfalso. apply (Hno u Hi). destruct (decide (room_of u = Some room)) as [E|E]; [done|].
        apply carries_room in E. by rewrite E in Hc.
      * done.
      * intros _. left. rewrite existsb_app. cbn. rewrite bool_decide_eq_true_2 by done. by rewrite orb_true_r.
    + assert (Hs : tinv room (set_typ s r ev)).
      { split; fcbn; rewrite ?(proj2 (String.eqb_neq room r)) by congruence; done. }
      destruct m; [|done]. apply tinv_push; [done|]. intros u t [<-|[]] Hc. unfold carries in Hc. cbn in Hc. by rewrite bool_decide_eq_false_2 in Hc.
  - destruct (_ || _).
    + split; fcbn; try done. intros u t Hi Hc. apply in_app_iff in Hi as [Hi|[<-|[]]]; [by eapply H2|]. by apply carries_other in Hc as [-> ->].
    + apply tinv_push; [done|]. intros u t [<-|[]] Hc. by apply carries_other in Hc as [-> ->].
  - destruct (next_held r (f_held s)) as [[u rest]|] eqn:E; [|done]. apply next_held_In in E as (_ & Hin & Hrest).
    assert (Hs : tinv room (push s [u])). { apply tinv_push; [done|]. intros v t [<-|[]] Hc. by eapply H2. }
    destruct Hs as [G1 G2 G3 G4]. split; fcbn; try done. intros v t Hi Hc. eapply H2; [by apply Hrest|done].
  - apply tinv_push; [done|]. intros u t [<-|[]] Hc. by apply carries_other in Hc as [-> ->].
  - apply tinv_push; [done|]. intros u t [<-|[]] Hc. done.
  - (* Request *)
    unfold enters_with_typing in He. cbn [fstep] in *. destruct (f_busy s) eqn:Eb; [done|]. split; fcbn; try done.
    intros Hc. pose proof Hc as (e & Ha & Hs). cbn [f_exts f_place] in Ha, Hs.
    destruct (request_typing ex p here (f_first s) (f_rows s) (f_typ s) room) as [R1 R2].
    assert (Hload : resp_typing (handle ex (ctx_of p here (f_first s)) here (Some (f_rows s)) (Some (f_rows s)) (f_typ s)) room = f_typ s room ->
      existsb (typing_in room) (f_queue s) = true \/ f_typ s room = None \/
      newer (resp_typing (handle ex (ctx_of p here (f_first s)) here (Some (f_rows s)) (Some (f_rows s)) (f_typ s)) room) (f_typing s room) = f_typ s room).
    { intros ->. right. destruct (f_typ s room); [by right|by left]. }
    destruct (covered_dec ETyping s room) as [Hc0|Hc0].
    + destruct R2 as [R2|R2]; [|by apply Hload]. rewrite R2. specialize (H4 Hc0). rewrite (H3 eq_refl) in H4. exact H4.
    + apply Hload. by apply (R1 e Ha Hs), He.
  - (* Take *)
    unfold enters_with_typing in He. cbn [fstep] in *. destruct (f_busy s) eqn:Eb; cbn [negb] in *; [|done].
    destruct (f_queue s) as [|u q] eqn:Eq; [done|]. cbn [up_to_date] in H1. destruct H1 as [H1 H1'].
    split; fcbn; try done. intros Hc. pose proof Hc as (e & Ha & Hs). cbn [f_exts f_place] in Ha, Hs.
    destruct (take_typing (f_exts s) p (f_here s ++ added) (Some (f_rows s)) (f_resp s) u room Hroom) as [R1 R2].
    destruct (existsb (typing_in room) q) eqn:Eq'; [by left|]. right.
    destruct (f_typ s room) as [now|] eqn:En; [|by left]. right.
    assert (Hload : forall t, carries room u = Some (Some t) -> typing_in room u = true \/ In room (f_here s ++ added) ->
      newer (resp_typing (handle_live (f_exts s) (ctx_of p (f_here s ++ added) false) (Some (f_rows s)) (f_resp s) u) room) (f_typing s room) = Some now).
    { intros t Hcar Hin. rewrite (R1 e t Ha Hs Hcar Hin). cbn. destruct (H1 (Some t) Hcar); [done|]. done. }
    destruct (covered_dec ETyping s room) as [Hc0|Hc0].
    + destruct R2 as [R2|(t & Hcar & R2)].
      * specialize (H4 Hc0). cbn [existsb] in H4. rewrite Eq', orb_false_r in H4. destruct H4 as [H4|[H4|H4]]; [|done|by rewrite R2].
        assert (Hcar : exists tt, carries room u = Some tt).
        { unfold typing_in, carries in *. destruct u; cbn in *; try done. rewrite H4. by eexists. }
        destruct Hcar as [tt Hcar]. destruct (H1 tt Hcar) as [->|]; [|done]. apply (Hload now Hcar). by left.
      * rewrite R2. cbn. by destruct (H1 (Some t) Hcar).
    + destruct (He Hc0 Hc) as (Hin & u' & q' & [= <- <-] & Hro).
      assert (Hcar : exists tt, carries room u = Some tt).
      { destruct (carries room u) eqn:E; [by eexists|]. by apply carries_room in E. }
      destruct Hcar as [tt Hcar]. destruct (H1 tt Hcar) as [->|]; [|done]. apply (Hload now Hcar). by right.
  - (* Answer *)
    destruct (f_busy s) eqn:Eb; [|done]. split; fcbn; try done.
Qed.

Theorem tinv_run room l : forall s, room <> "" -> tinv room s ->
  each_step type_of (fun s a => enters_with_typing type_of room s a /\ typing_unheld room s a) s l -> tinv room (frun type_of s l).
Proof.
  unfold frun. induction l as [|a l IH]; intros s Hroom Ht He; cbn [fold_left]; [done|]. destruct He as [[Ha Hb] He].
  apply IH; try done. by apply tinv_step.
Qed.

(** ** Nothing is invented *)
Record known (H : string -> string -> Prop) (s : fstate) : Prop := mk_known {
  k_rows : forall r d, In (r, d) (f_rows s) -> H r d;
  k_gq : forall d, In d (flat_map gpick (f_queue s)) -> H "" d;
  k_rq : forall r d, r <> "" -> In d (flat_map (rpick r) (f_queue s)) -> H r d;
  k_held : Forall nodata (f_held s);
  k_gr : forall d, In d (resp_global (f_resp s)) -> H "" d;
  k_rr : forall r d, r <> "" -> In d (resp_data (f_resp s) r) -> H r d;
  k_gc : forall t d, f_global s t = Some d -> H "" d;
  k_rc : forall r t d, r <> "" -> f_data s r t = Some d -> H r d
}.
Lemma last_of_In t l d : last_of t l = Some d -> In d l.
Proof. unfold last_of. intros Hl. apply last_Some in Hl as [l' E]. eapply (proj1 (filter_In _ _ _)). rewrite E. apply in_app_iff. right. by left. Qed.
Lemma upsert_In room rows d x : In x (upsert type_of room rows d) -> In x rows \/ x = (room, d).
Proof. unfold upsert. intros [Hx|[Hx|[]]]%in_app_iff; [|by right]. left. by apply filter_In in Hx as [Hx _]. Qed.
Lemma insert_all_In room data : forall rows x, In x (insert_all type_of rows room data) -> In x rows \/ exists d, In d data /\ x = (room, d).
Proof.
  unfold insert_all. induction data as [|d data IH]; intros rows x; cbn [fold_left]; [by left|]. intros Hx.
  apply IH in Hx as [Hx|(d' & Hd & ->)]; [|right; exists d'; split; [by right|done]].
  apply upsert_In in Hx as [Hx| ->]; [by left|]. right. exists d. split; [by left|done].
Qed.
Lemma select_In rows room types d : In d (select type_of rows room types) -> In (room, d) rows.
Proof. unfold select. intros Hd. apply in_map_iff in Hd as ([r d'] & <- & Hx). apply filter_In in Hx as [Hx E]. apply bool_decide_eq_true in E. cbn in E. destruct E as [-> _]. done. Qed.
Lemma known_push H s l : Forall nodata l -> known H s -> known H (push s l).
Proof.
  intros Hl [K1 K2 K3 K4 K5 K6 K7 K8]. split; fcbn; try done.
  - intros d. rewrite flat_map_app, (flat_map_nodata gpick "" l good_gpick Hl), app_nil_r. apply K2.
  - intros r d Hr. rewrite flat_map_app, (flat_map_nodata (rpick r) r l (good_rpick r Hr) Hl), app_nil_r. by apply K3.
Qed.
Lemma known_step (H : string -> string -> Prop) s a : (forall r data d, a = Store r data -> In d data -> H r d) -> known H s -> known H (stepf s a).
Proof.
  intros Ha Hk. pose proof Hk as [K1 K2 K3 K4 K5 K6 K7 K8].
  destruct a as [r data|rows| |r ev m|r hold|r|r| |ex p here|p added|]; cbn [fstep].
  - destruct data as [|d0 data0] eqn:Ed; [done|]. rewrite <- Ed in *. split; fcbn; try done.
    intros r' d Hi. apply insert_all_In in Hi as [Hi|(d' & Hd & [= -> ->])]; [by apply K1|]. by apply (Ha r data).
  - case_decide as Hr; [|done]. split; fcbn; try done. intros r d Hi. apply K1. apply elem_of_list_In. rewrite <- Hr. by apply elem_of_list_In.
  - destruct (f_pend s) as [|[r types] rest] eqn:Ep; [done|]. split; fcbn; try done.
    + intros d. rewrite flat_map_app, (proj1 good_gpick). intros [Hd|Hd]%in_app_iff; [by apply K2|]. case_bool_decide; [|done]. subst r.
      apply select_In in Hd. by apply K1.
    + intros r' d Hr. rewrite flat_map_app, (proj1 (good_rpick r' Hr)). intros [Hd|Hd]%in_app_iff; [by apply K3|]. case_bool_decide; [|done]. subst r'.
      apply select_In in Hd. by apply K1.
  - case_bool_decide; [done|]. cbv zeta. assert (Hs : known H (set_typ s r ev)) by (by split). destruct m; [|done]. apply known_push; [by constructor|done].
  - destruct (_ || _).
    + split; fcbn; try done. apply Forall_app. split; [done|by constructor].
    + apply known_push; [by constructor|done].
  - destruct (next_held r (f_held s)) as [[u rest]|] eqn:E; [|done]. apply next_held_In in E as (_ & Hin & Hrest).
    assert (Hn : nodata u). { rewrite Forall_forall in K4. apply K4. by apply elem_of_list_In. }
    assert (Hp : known H (push s [u])) by (apply known_push; [by constructor|done]). destruct Hp as [P1 P2 P3 P4 P5 P6 P7 P8]. split; fcbn; try done.
    apply Forall_forall. intros v Hv. rewrite Forall_forall in K4. apply K4. apply elem_of_list_In, Hrest. by apply elem_of_list_In.
  - apply known_push; [by constructor|done].
  - apply known_push; [by constructor|done].
  - destruct (f_busy s); [done|]. split; fcbn; try done.
    + intros d. destruct (request_global ex p here (f_first s) (f_rows s) (f_typ s)) as [R1 R2].
      destruct (enabled_ext ex EAccountData) as [e|] eqn:E.
      * apply enabled_spec in E. destruct (f_first s).
        -- rewrite (R1 e E eq_refl). intros Hd. apply data_of_In in Hd. by apply K1.
        -- by rewrite R2 by (by left).
      * rewrite R2; [done|]. right. intros e' Ha'. apply enabled_spec in Ha'. by rewrite E in Ha'.
    + intros r d Hr. destruct (request_data ex p here (f_first s) (f_rows s) (f_typ s) r Hr) as [-> | ->]; [done|]. intros Hd. apply data_of_In in Hd. by apply K1.
  - destruct (f_busy s); cbn [negb]; [|done]. destruct (f_queue s) as [|u q] eqn:Eq; [done|]. cbn [flat_map] in K2, K3. split; fcbn; try done.
    + intros d Hd. apply K2, in_app_iff. by right.
    + intros r d Hr Hd. apply K3, in_app_iff; [done|]. by right.
    + intros d. destruct (take_global (f_exts s) p (f_here s ++ added) (f_rows s) (f_resp s) u) as [R1 R2].
      destruct (enabled_ext (f_exts s) EAccountData) as [e|] eqn:E.
      * apply enabled_spec in E. rewrite (R1 e E). intros [Hd|Hd]%in_app_iff; [by apply K5|]. apply K2, in_app_iff. by left.
      * rewrite R2; [by apply K5|]. intros e' Ha'. apply enabled_spec in Ha'. by rewrite E in Ha'.
    + intros r d Hr. destruct (take_data (f_exts s) p (f_here s ++ added) (f_rows s) (f_resp s) u r) as [-> |[-> | ->]].
      * by apply K6.
      * intros [Hd|Hd]%in_app_iff; [by apply K6|]. apply K3, in_app_iff; [done|]. by left.
      * intros [Hd|Hd]%in_app_iff; [by apply K6|]. apply data_of_In in Hd. by apply K1.
  - destruct (f_busy s); [|done]. split; fcbn; try done.
    + intros t d. destruct (last_of t (resp_global (f_resp s))) eqn:E; cbn; [intros [= ->]; apply last_of_In in E; by apply K5|by apply K7].
    + intros r t d Hr. destruct (last_of t (resp_data (f_resp s) r)) eqn:E; cbn; [intros [= ->]; apply last_of_In in E; by apply K6|by apply K8].
Qed.
Theorem known_run (H : string -> string -> Prop) l : forall s, (forall r data d, In (Store r data) l -> In d data -> H r d) -> known H s -> known H (frun type_of s l).
Proof.
  unfold frun. induction l as [|a l IH]; intros s Hl Hk; cbn [fold_left]; [done|]. apply IH.
  - intros r data d Hi. apply Hl. by right.
  - apply known_step; [|done]. intros r data d -> . apply Hl. by left.
Qed.

Record tknown (H : string -> string -> Prop) (s : fstate) : Prop := mk_tknown {
  tk_typ : forall r t, f_typ s r = Some t -> H r t;
  tk_q : forall r t u, In u (f_queue s) -> carries r u = Some (Some t) -> H r t;
  tk_h : forall r t u, In u (f_held s) -> carries r u = Some (Some t) -> H r t;
  tk_r : forall r t, r <> "" -> resp_typing (f_resp s) r = Some t -> H r t;
  tk_c : forall r t, r <> "" -> f_typing s r = Some t -> H r t
}.
Lemma tknown_push (H : string -> string -> Prop) s l : (forall r t u, In u l -> carries r u = Some (Some t) -> H r t) -> tknown H s -> tknown H (push s l).
Proof. intros Hl [K1 K2 K3 K4 K5]. split; fcbn; try done. intros r t u [Hi|Hi]%in_app_iff; [by apply K2|by apply Hl]. Qed.
Lemma tknown_step (H : string -> string -> Prop) s a : (forall r ev m, a = Typed r ev m -> H r ev) -> tknown H s -> tknown H (stepf s a).
Proof.
  intros Ha Hk. pose proof Hk as [K1 K2 K3 K4 K5].
  assert (Hroom : forall x r t u, In u [URoom x (f_typ s x)] -> carries r u = Some (Some t) -> H r t).
  { intros x r t u [<-|[]] Hc. apply carries_other in Hc as [-> Hc]. by apply K1. }
  destruct a as [r data|rows| |r ev m|r hold|r|r| |ex p here|p added|]; cbn [fstep].
  - destruct data; [done|]. by split.
  - case_decide; [|done]. by split.
  - destruct (f_pend s) as [|[r types] rest]; [done|]. apply tknown_push; [|by split]. intros x t u Hi Hc.
    apply K1. symmetry. by eapply carries_data_update.
  - case_bool_decide; [done|]. cbv zeta. assert (Hs : tknown H (set_typ s r ev)).
    { split; fcbn; try done. intros x t. destruct (String.eqb_spec x r) as [->|]; [|by apply K1]. intros [= <-]. by apply (Ha r ev m). }
    destruct m; [|done]. apply tknown_push; [|done]. intros x t u [<-|[]]. unfold carries. cbn. case_bool_decide; [|done]. subst x. intros [= <-]. by apply (Ha r ev true).
  - destruct (_ || _).
    + split; fcbn; try done. intros x t u [Hi|Hi]%in_app_iff; [by apply K3|by apply (Hroom r)].
    + apply tknown_push; [apply Hroom|done].
  - destruct (next_held r (f_held s)) as [[u rest]|] eqn:E; [|done]. apply next_held_In in E as (_ & Hin & Hrest). split; fcbn; try done.
    + intros x t v [Hi|[<-|[]]]%in_app_iff; [by apply K2|]. by apply K3.
    + intros x t v Hi. by apply K3, Hrest.
  - apply tknown_push; [apply Hroom|done].
  - apply tknown_push; [|done]. by intros x t u [<-|[]].
  - destruct (f_busy s); [done|]. split; fcbn; try done. intros r t Hr.
    destruct (request_typing ex p here (f_first s) (f_rows s) (f_typ s) r) as [_ [-> | ->]]; [done|]. by apply K1.
  - destruct (f_busy s); cbn [negb]; [|done]. destruct (f_queue s) as [|u q] eqn:Eq; [done|]. split; fcbn; try done.
    + intros r t v Hv. apply K2. by right.
    + intros r t Hr. destruct (take_typing (f_exts s) p (f_here s ++ added) (Some (f_rows s)) (f_resp s) u r Hr) as [_ [-> |(t' & Hc & ->)]]; [by apply K4|].
      intros [= <-]. apply (K2 r t' u); [by left|done].
  - destruct (f_busy s); [|done]. split; fcbn; try done. intros r t Hr. destruct (resp_typing (f_resp s) r) eqn:E; cbn; [|by apply K5]. intros [= ->]. by apply K4.
Qed.
Theorem tknown_run (H : string -> string -> Prop) l : forall s, (forall r ev m, In (Typed r ev m) l -> H r ev) -> tknown H s -> tknown H (frun type_of s l).
Proof.
  unfold frun. induction l as [|a l IH]; intros s Hl Hk; cbn [fold_left]; [done|]. apply IH.
  - intros r ev m Hi. apply (Hl r ev m). by right.
  - apply tknown_step; [|done]. intros r ev m ->. apply (Hl r ev m). by left.
Qed.

(** Whether a room is covered, by computation. *)
Definition coveredb (k : ext_kind) (s : fstate) (room : string) : bool :=
  match enabled_ext (f_exts s) k with Some e => roomInScope e room (ctx_of (f_place s) [] false) | None => false end.
Lemma coveredb_spec k s room : coveredb k s room = true <-> covered k s room.
Proof.
  unfold coveredb, covered. split.
  - destruct (enabled_ext (f_exts s) k) as [e|] eqn:E; [|done]. intros Hs. exists e. split; [by apply enabled_spec|by apply C53_scope].
  - intros (e & Ha & Hs). rewrite (proj2 (enabled_spec _ _ _) Ha). by apply C53_scope.
Qed.
End proofs.
