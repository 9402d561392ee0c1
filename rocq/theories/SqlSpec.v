(** Specification of bulk-insert chunking and of transactions, independent of
    the model. *)
From Verif Require Import Prelude SqlModel.
Open Scope list_scope. Open Scope Z_scope.

(** The chunks carry exactly the rows of the input, in order; none is empty;
    each can be sent with at most [max] parameters, [num] per row. *)
Definition good_chunks {A} (num max : Z) (input : list A) (chunks : list (list A)) : Prop :=
  concat chunks = input
  /\ (forall c, In c chunks -> c <> [] /\ Z.of_nat (length c) * num <= max).

(** What a body does when it runs on its own on contents [d]: it ends with
    [e], leaves [d'], and [bad] says whether any statement failed. *)
Inductive runs {db} : body db -> db -> ending -> db -> bool -> Prop :=
  | runs_end e d : runs (End e) d e d false
  | runs_ok f k d d1 e d2 bad :
      f d = Some d1 -> runs (k true) d1 e d2 bad -> runs (Stmt f k) d e d2 bad
  | runs_bad f k d e :
      f d = None -> refused (k false) e -> runs (Stmt f k) d e d true
with refused {db} : body db -> ending -> Prop :=
  | ref_end e : refused (End e) e
  | ref_stmt f k e : refused (k false) e -> refused (Stmt f k) e.
