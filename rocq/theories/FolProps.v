(** C82 and C83: a client's copy of account data and of typing events follows the
    server. *)
From Verif Require Import Prelude RangeModel OpsModel RequestModel ExtModel ExtSpec ExtProps FolModel FolSpec FolProofs.
Open Scope string_scope. Open Scope list_scope. Open Scope Z_scope.

(** ** C82 *)

(** C82, rooms: when nothing is outstanding, the client has exactly the account data
    that is stored of a room which the extension covers. Missing: rooms that come into
    its scope in other ways than by a request or an update of their own; see the
    refutations. *)
Theorem C82_rooms_partial (type_of : string -> string) (s : fstate) (l : list faction) (room : string) :
  starts type_of s -> room <> "" ->
  each_step type_of (enters_with_data type_of room) s l ->
  let s' := frun type_of s l in
  settled s' -> covered EAccountData s' room ->
  same_data type_of (f_rows s') room (f_data s' room).
Proof.
  intros (rows & pend & typ & -> & Hone & Hpend) Hroom He s' (Hp & Hq & Hb) Hc.
  destruct (follows_run type_of room l (fstart rows pend typ)) as [Hbase Hf]; try done.
  - by apply base_start.
  - by intros (? & ? & _).
  - intros (e & [He' _] & _). discriminate He'.
  - fold s' in Hbase, Hf. intros t d. rewrite <- (sto_spec type_of _ _ _ _ (b_one _ _ _ _ Hbase)).
    destruct (Hf Hc t) as [(types & Hi & _)|<-]; [by rewrite Hp in Hi|]. unfold coming. rewrite Hq, (b_rest _ _ _ _ Hbase Hb). done.
Qed.

(** C82, global data: the same for data that belongs to no room, for a client that
    asks for account data in all its requests and made one. Missing: clients that ask
    for it later only. *)
Theorem C82_global_partial (type_of : string -> string) (s : fstate) (l : list faction) :
  starts type_of s -> each_step type_of (always_asked EAccountData) s l ->
  let s' := frun type_of s l in
  settled s' -> f_first s' = false ->
  same_data type_of (f_rows s') "" (f_global s').
Proof.
  intros (rows & pend & typ & -> & Hone & Hpend) He s' (Hp & Hq & Hb) Hc.
  destruct (gfollows_run type_of l (fstart rows pend typ)) as [Hbase Hf]; try done.
  - by apply base_start.
  - fold s' in Hbase, Hf. intros t d. rewrite <- (sto_spec type_of _ _ _ _ (b_one _ _ _ _ Hbase)).
    destruct (Hf Hc t) as [(types & Hi & _)|<-]; [by rewrite Hp in Hi|]. unfold coming. rewrite Hq, (b_rest _ _ _ _ Hbase Hb). done.
Qed.

(** C82, without conditions: all the account data that a client is given was stored
    for the user, and for that room. *)
Theorem C82_nothing_invented (type_of : string -> string) (s : fstate) (l : list faction) :
  starts type_of s -> let s' := frun type_of s l in
  (forall room t d, room <> "" -> f_data s' room t = Some d -> ever_stored s l room d)
  /\ (forall t d, f_global s' t = Some d -> ever_stored s l "" d).
Proof.
  intros (rows & pend & typ & -> & Hone & Hpend) s'.
  assert (Hk : known (ever_stored (fstart rows pend typ) l) s').
  { apply known_run.
    - intros r data d Hi Hd. right. by exists data.
    - split; cbn; try done. intros r d Hi. by left. }
  split; [apply (k_rc _ _ Hk)|apply (k_gc _ _ Hk)].
Qed.

(** ** C83 *)

(** C83: when nothing is outstanding, the client has the newest typing event of a room
    which the extension covers. Missing: rooms that come into its scope without an
    update of their own, and rooms with an event that is held back while typing
    changes; see the refutations. *)
Theorem C83_typing_partial (type_of : string -> string) (s : fstate) (l : list faction) (room ev : string) :
  starts type_of s -> room <> "" ->
  each_step type_of (fun s a => enters_with_typing type_of room s a /\ typing_unheld room s a) s l ->
  let s' := frun type_of s l in
  settled s' -> covered ETyping s' room ->
  f_typ s' room = Some ev -> f_typing s' room = Some ev.
Proof.
  intros (rows & pend & typ & -> & Hone & Hpend) Hroom He s' (Hp & Hq & Hb) Hc Hev.
  assert (Ht : tinv room s').
  { apply tinv_run; [done| |done]. split; cbn; try done. intros (e & [He' _] & _). discriminate He'. }
  destruct (t_copy _ _ Ht Hc) as [H|[H|H]].
  - by rewrite Hq in H.
  - by rewrite Hev in H.
  - rewrite (t_rest _ _ Ht Hb) in H. by rewrite Hev in H.
Qed.

(** C83, without conditions: the typing events that a client is given were events of
    that room. *)
Theorem C83_nothing_invented (type_of : string -> string) (s : fstate) (l : list faction) (room ev : string) :
  starts type_of s -> room <> "" -> f_typing (frun type_of s l) room = Some ev -> ever_typed s l room ev.
Proof.
  intros (rows & pend & typ & -> & Hone & Hpend) Hroom.
  assert (Hk : tknown (ever_typed (fstart rows pend typ) l) (frun type_of (fstart rows pend typ) l)).
  { apply tknown_run.
    - intros r e m Hi. right. by exists m.
    - split; cbn; try done. intros r t Hi. by left. }
  by apply (tk_c _ _ Hk).
Qed.

(** ** Examples *)

(** The type of "t1" is "t". *)
Definition ty (d : string) : string := substring 0 1 d.
Definition all_ext : exts := fun _ => Some (mk_ext (Some true) (Some ["*"]) (Some ["*"]) 0 "").
Definition no_ext : exts := fun _ => None.
(** The rooms in view. *)
Definition view (rooms : list string) : place := mk_place (list_to_map (map (fun r => (r, ["l"])) rooms)) ["l"] [].
Definition typ0 (room : string) : option string := if String.eqb room "!y" then Some "A" else None.
Definition s1 : fstate := fstart [("!x", "t1"); ("!y", "a1"); ("", "g1")] [("!y", ["a"])] typ0.
Lemma s1_starts : starts ty s1.
Proof.
  exists [("!x", "t1"); ("!y", "a1"); ("", "g1")], [("!y", ["a"])], typ0. split; [done|]. split.
  - apply (bool_decide_eq_true_1 _). vm_compute. reflexivity.
  - intros room types t [[= <- <-]|[]] [<-|[]]. exists "a1". split; [right; by left|done].
Qed.

(** A room in view from the start, one that comes into view with an event of its own,
    data stored before, between and after. *)
Definition run1 : list faction :=
  [Request all_ext (view ["!x"]) ["!x"]; Store "" ["g2"; "h1"]; Notified; Take (view ["!x"]) []; Answer;
   Store "!x" ["t2"; "u1"]; Notified; Event "!y" true; Release "!y"; Typed "!y" "B" true; Notified;
   Request all_ext (view ["!x"]) []; Take (view ["!x"]) []; Take (view ["!x"; "!y"]) ["!y"]; Take (view ["!x"; "!y"]) [];
   Take (view ["!x"; "!y"]) []; Store "!y" ["a2"]; Notified; Take (view ["!x"; "!y"]) []; Answer].

Ltac run_step := (* one step of a concrete run *)
  first
    [ exact I
    | intros _ _; exact I
    | let H := fresh in let H' := fresh in
      intros H H'; exfalso; first
        [ apply H; apply coveredb_spec; vm_compute; reflexivity
        | apply coveredb_spec in H'; vm_compute in H'; discriminate H' ]
    | let H := fresh in intros _ _; by left ].
Ltac is_settled := split; [|split]; vm_compute; reflexivity.
Ltac is_covered := apply coveredb_spec; vm_compute; reflexivity.

Example C82_example :
  let s' := frun ty s1 run1 in
  each_step ty (enters_with_data ty "!x") s1 run1 /\ each_step ty (enters_with_data ty "!y") s1 run1
  /\ each_step ty (always_asked EAccountData) s1 run1
  /\ settled s' /\ f_first s' = false /\ covered EAccountData s' "!x" /\ covered EAccountData s' "!y"
  /\ map (f_data s' "!x") ["t"; "u"; "a"] = [Some "t2"; Some "u1"; None]
  /\ map (f_data s' "!y") ["t"; "u"; "a"] = [None; None; Some "a2"]
  /\ map (f_global s') ["g"; "h"; "t"] = [Some "g2"; Some "h1"; None].
Proof.
  intros s'. split; [|split; [|split; [|split; [is_settled|split; [vm_compute; reflexivity|split; [is_covered|split; [is_covered|]]]]]]].
  - unfold run1. cbn [each_step]. repeat (split; [run_step|]). exact I.
  - unfold run1. cbn [each_step]. do 13 (split; [run_step|]). split.
    + intros _ _. split; [vm_compute; by left|]. split; [|vm_compute; reflexivity].
      exists (Some "A"), [UTyping "!y" (Some "B"); URoomData "!x" None ["t2"; "u1"]]. left. vm_compute. reflexivity.
    + repeat (split; [run_step|]). exact I.
  - unfold run1. cbn [each_step always_asked]. repeat split; by eexists.
  - split; [|split]; vm_compute; reflexivity.
Qed.

Example C83_example :
  let s' := frun ty s1 run1 in
  each_step ty (fun s a => enters_with_typing ty "!y" s a /\ typing_unheld "!y" s a) s1 run1
  /\ settled s' /\ covered ETyping s' "!y" /\ f_typ s' "!y" = Some "B" /\ f_typing s' "!y" = Some "B".
Proof.
  intros s'. split; [|split; [is_settled|split; [is_covered|split; vm_compute; reflexivity]]].
  unfold run1. cbn [each_step]. do 9 (split; [split; [run_step|exact I]|]). split.
  { split; [run_step|]. intros _. split; [done|]. right. intros u Hu. vm_compute in Hu. destruct Hu. }
  do 3 (split; [split; [run_step|exact I]|]). split.
  { split; [|exact I]. intros _ _. split; [vm_compute; by left|].
    exists (URoom "!y" (Some "A")), [UTyping "!y" (Some "B"); URoomData "!x" None ["t2"; "u1"]]. split; vm_compute; reflexivity. }
  repeat (split; [split; [run_step|exact I]|]). exact I.
Qed.

(** ** Refutations *)

(** C82 and C83 fail for a room which moves into view because another room moves out:
    the room is part of the response, but only the account data and typing of the
    room whose update is processed are looked at. *)
Definition run_shifted : list faction :=
  [Notified; Request all_ext (view ["!x"]) ["!x"]; Take (view ["!x"]) []; Answer; News "!x";
   Request all_ext (view ["!x"]) []; Take (view ["!y"]) ["!y"]; Answer].
(** Such a list, with the window 0-0: "!x" is read and moves down, "!y" is sent. *)
Example run_shifted_example :
  calculate_list_ops [(0, 0)] (fun _ => ["!y"; "!x"]) ["!x"; "!y"] "!x" OpChange
  = Some (["!y"; "!x"], [ODelete 0; OInsert 0 "!y"], ["!y"]).
Proof. vm_compute. reflexivity. Qed.
Theorem C82_shifted_in_refuted :
  let s' := frun ty s1 run_shifted in
  starts ty s1 /\ settled s' /\ covered EAccountData s' "!y"
  /\ stored ty (f_rows s') "!y" "a" "a1" /\ f_data s' "!y" "a" = None.
Proof.
  intros s'. split; [exact s1_starts|]. split; [is_settled|]. split; [is_covered|]. split; [|vm_compute; reflexivity].
  split; [vm_compute; right; by left|done].
Qed.
Theorem C83_shifted_in_refuted :
  let s' := frun ty s1 run_shifted in
  starts ty s1 /\ settled s' /\ covered ETyping s' "!y" /\ f_typ s' "!y" = Some "A" /\ f_typing s' "!y" = None
  /\ each_step ty (typing_unheld "!y") s1 run_shifted.
Proof.
  intros s'. split; [exact s1_starts|]. split; [is_settled|]. split; [is_covered|]. split; [vm_compute; reflexivity|]. split; [vm_compute; reflexivity|].
  unfold run_shifted. cbn [each_step typing_unheld]. tauto.
Qed.

(** C82 fails for a room which comes into view by its own account data, say a tag: only
    the data that changed is sent, not what was stored before. *)
Definition run_tagged : list faction :=
  [Notified; Request all_ext (view []) []; Take (view []) []; Answer; Store "!y" ["t1"]; Notified;
   Request all_ext (view []) []; Take (view ["!y"]) ["!y"]; News "!y"; Take (view ["!y"]) ["!y"]; Answer].
Theorem C82_tagged_in_refuted :
  let s' := frun ty s1 run_tagged in
  starts ty s1 /\ settled s' /\ covered EAccountData s' "!y"
  /\ stored ty (f_rows s') "!y" "a" "a1" /\ f_data s' "!y" "a" = None /\ f_data s' "!y" "t" = Some "t1".
Proof.
  intros s'. split; [exact s1_starts|]. split; [is_settled|]. split; [is_covered|]. split; [|split; vm_compute; reflexivity].
  split; [vm_compute; right; by left|done].
Qed.

(** C82 fails for a room that moves out of view and back within one response, when its
    data changes in between: a response loads the data of a room once. *)
Definition run_back : list faction :=
  [Notified; Request all_ext (view ["!y"]) ["!y"]; Take (view ["!y"]) []; News "!x"; Take (view ["!x"]) ["!x"];
   Store "!y" ["a2"]; Notified; Take (view ["!x"]) []; Event "!y" false; Take (view ["!y"]) ["!y"]; Answer].
Theorem C82_same_response_refuted :
  let s' := frun ty s1 run_back in
  starts ty s1 /\ settled s' /\ covered EAccountData s' "!y"
  /\ stored ty (f_rows s') "!y" "a" "a2" /\ f_data s' "!y" "a" = Some "a1".
Proof.
  intros s'. split; [exact s1_starts|]. split; [is_settled|]. split; [is_covered|]. split; [|vm_compute; reflexivity].
  split; [vm_compute; right; right; by left|done].
Qed.

(** C82 fails for global data when the extension is enabled after the first request:
    it is never sent unless it changes. *)
Definition run_later : list faction :=
  [Notified; Request no_ext (view ["!x"]) ["!x"]; Take (view ["!x"]) []; Answer; Request all_ext (view ["!x"]) ["!x"]; Answer].
Theorem C82_enabled_later_refuted :
  let s' := frun ty s1 run_later in
  starts ty s1 /\ settled s' /\ f_first s' = false /\ (exists e, asked (f_exts s') EAccountData e)
  /\ stored ty (f_rows s') "" "g" "g1" /\ f_global s' "g" = None /\ f_data s' "!x" "t" = Some "t1".
Proof.
  intros s'. split; [exact s1_starts|]. split; [is_settled|]. split; [vm_compute; reflexivity|].
  split; [by exists (mk_ext (Some true) (Some ["*"]) (Some ["*"]) 0 "")|]. split; [|split; vm_compute; reflexivity].
  split; [vm_compute; right; right; by left|done].
Qed.

(** C83 fails when typing changes while an event of the room is held back for its
    transaction ID: the event carries the room's typing event of the time when it
    came, which is sent after the new one and stays. *)
Definition run_held : list faction :=
  [Notified; Request all_ext (view ["!y"]) ["!y"]; Take (view ["!y"]) []; Event "!y" true; Typed "!y" "B" true;
   Take (view ["!y"]) []; Answer; Release "!y"; Request all_ext (view ["!y"]) []; Take (view ["!y"]) ["!y"]; Answer].
Theorem C83_held_refuted :
  let s' := frun ty s1 run_held in
  starts ty s1 /\ settled s' /\ f_held s' = [] /\ covered ETyping s' "!y"
  /\ f_typ s' "!y" = Some "B" /\ f_typing s' "!y" = Some "A"
  /\ each_step ty (enters_with_typing ty "!y") s1 run_held.
Proof.
  intros s'. split; [exact s1_starts|]. split; [is_settled|]. split; [vm_compute; reflexivity|]. split; [is_covered|].
  split; [vm_compute; reflexivity|]. split; [vm_compute; reflexivity|].
  unfold run_held. cbn [each_step]. repeat (split; [run_step|]). exact I.
Qed.

Print Assumptions C82_rooms_partial.
Print Assumptions C82_global_partial.
Print Assumptions C82_nothing_invented.
Print Assumptions C82_shifted_in_refuted.
Print Assumptions C82_tagged_in_refuted.
Print Assumptions C82_same_response_refuted.
Print Assumptions C82_enabled_later_refuted.
Print Assumptions C83_typing_partial.
Print Assumptions C83_nothing_invented.
Print Assumptions C83_shifted_in_refuted.
Print Assumptions C83_held_refuted.
