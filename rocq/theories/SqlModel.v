(** Model of sqlutil/sql.go: [Chunkify] and [WithTransaction].

    Simplifications: Go ints are unbounded [Z]; logging and Sentry are
    dropped; error values are reduced to a string naming their origin. *)
From Verif Require Import Prelude.
Open Scope string_scope. Open Scope list_scope. Open Scope Z_scope.

(** * Chunkify *)

(** [entries.Subslice(i, j)]: implemented by every Chunker in the code as the
    Go slice expression [c[i:j]] (state/device_list_table.go:160-162,
    state/event_table.go, state/to_device_table.go, ...). *)
Definition subslice {A} (l : list A) (i j : Z) : list A :=
  firstn (Z.to_nat (j - i)) (skipn (Z.to_nat i) l).

(** sqlutil/sql.go:73-79: the for loop. [fuel] counts iterations: [None] means
    the loop has not ended after that many of them. *)
Fixpoint chunk_loop {A} (fuel : nat) (entries : list A) (per i : Z)
    (chunks : list (list A)) : option (list (list A)) :=
  match fuel with
  | O => None
  | S fuel' =>
      if i <? Z.of_nat (length entries) then
        let endIndex := i + per in
        let endIndex := if Z.of_nat (length entries) <? endIndex
                        then Z.of_nat (length entries) else endIndex in
        chunk_loop fuel' entries per (i + per)
          (chunks ++ [subslice entries i endIndex])
      else Some chunks
  end.

(** sqlutil/sql.go:63-82: Chunkify. [Z.quot] is Go's [/]. *)
Definition Chunkify {A} (fuel : nat) (numParamsPerStmt maxParamsPerCall : Z)
    (entries : list A) : option (list (list A)) :=
  if Z.of_nat (length entries) * numParamsPerStmt <=? maxParamsPerCall
  then Some [entries]
  else chunk_loop fuel entries (Z.quot maxParamsPerCall numParamsPerStmt) 0 [].

(** * WithTransaction *)

(** How a function ends: it returns an error or nil, it panics (with nil or
    with a value), or it ends the goroutine (runtime.Goexit). *)
Inductive ending :=
  | Returned (err : option string)
  | Panicked (v : option string)
  | Exited.

(** The body [fn]: it runs statements on the transaction one at a time and
    looks at whether each succeeded before it decides how to go on. A statement
    maps the contents of the database to new contents, or fails. *)
Inductive body (db : Type) :=
  | End (e : ending)
  | Stmt (f : db -> option db) (k : bool -> body db).
Arguments End {_} e.
Arguments Stmt {_} f k.

(** Postgres: a transaction works on its own view; once a statement failed the
    transaction is aborted and every further statement fails until it ends. *)
Fixpoint run_body {db} (b : body db) (view : db) (aborted : bool) : ending * db * bool :=
  match b with
  | End e => (e, view, aborted)
  | Stmt f k =>
      if aborted then run_body (k false) view true
      else match f view with
           | Some view' => run_body (k true) view' false
           | None => run_body (k false) view true
           end
  end.

(** What the database server and the connection do. *)
Record server := Server {
  begin_ok : bool;      (* BEGIN succeeds *)
  commit_ok : bool;     (* COMMIT takes effect (a deferred constraint, a lost connection ...) *)
  report_ok : bool;     (* the client hears back from COMMIT or ROLLBACK *)
}.

(** [txn.Commit()]: the contents afterwards and the error. A COMMIT of an
    aborted transaction rolls back, and the driver turns that into an error. *)
Definition Commit {db} (sv : server) (before view : db) (aborted : bool) : db * option string :=
  if aborted then (before, Some "aborted")
  else if commit_ok sv
       then (view, if report_ok sv then None else Some "lost connection")
       else (before, Some "commit failed").

(** [txn.Rollback()]. Whatever the driver reports, an uncommitted transaction
    has no effect. *)
Definition Rollback {db} (sv : server) (before : db) : db * option string :=
  (before, if report_ok sv then None else Some "rollback failed").

(** What the caller of [WithTransaction] sees. *)
Inductive outcome := Ret (err : option string) | GoroutineEnded.

(** sqlutil/sql.go:28-47: the deferred function: [err] is the named result when
    it starts and [panicErr] what recover() returned. *)
Definition deferred {db} (sv : server) (before view : db) (aborted : bool)
    (err panicErr : option string) : db * option string :=
  let err := match err, panicErr with
             | None, Some p => Some p
             | _, _ => err
             end in
  let '(d, txnErr) := match err with
                      | Some _ => Rollback sv before
                      | None => Commit sv before view aborted
                      end in
  (d, match txnErr, err with
      | Some t, None => Some t
      | _, _ => err
      end).

(** sqlutil/sql.go:22-50: WithTransaction. Under [go 1.20] (go.mod:3)
    recover() returns nil after panic(nil), and also while the goroutine is
    ending after runtime.Goexit. *)
Definition WithTransaction {db} (sv : server) (d : db) (fn : body db) : db * outcome :=
  if negb (begin_ok sv) then (d, Ret (Some "WithTransaction.Begin"))
  else
    let '(e, view, aborted) := run_body fn d false in
    match e with
    | Returned err =>
        let '(d', err') := deferred sv d view aborted err None in (d', Ret err')
    | Panicked v =>
        let '(d', err') := deferred sv d view aborted None v in (d', Ret err')
    | Exited =>
        let '(d', _) := deferred sv d view aborted None None in (d', GoroutineEnded)
    end.
