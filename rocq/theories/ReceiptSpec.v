(** Specification of receipts. *)
From Verif Require Import Prelude ReceiptModel.
Open Scope string_scope. Open Scope list_scope. Open Scope Z_scope.

(** A receipt's place in an event: the event ID, the user, public or private. *)
Definition place : Type := string * string * bool.
Definition place_of (r : receipt) : place := (rc_event r, rc_user r, rc_private r).
(** What an event says at a place. *)
Definition says (e : edu) (k : place) : option info :=
  match e !! k.1.1 with
  | Some c => (if k.2 then c_priv c else c_read c) !! k.1.2
  | None => None
  end.
Definition info_of (r : receipt) : info := mk_info (rc_ts r) (rc_thread r).

(** Which of several receipts for a place counts: the last unthreaded one, or the
    first one if all are threaded. *)
Definition chosen (k : place) (l : list receipt) : option receipt :=
  let here := List.filter (fun r => bool_decide (place_of r = k)) l in
  match last (List.filter (fun r => bool_decide (rc_thread r = "")) here) with
  | Some r => Some r
  | None => head here
  end.

(** A receipt that would change a table. *)
Definition changes (t : rtable) (r : receipt) : bool :=
  negb (bool_decide (fst <$> t !! rkey r = Some (rc_event r))).
