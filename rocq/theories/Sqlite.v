(** One SQLite connection as used through sqlx (db/mod.rs).

    A function of the code that talks to the database is a [prog]: a tree whose nodes are single
    SQL statements and transaction brackets. Running a [prog] yields its result; the list of the
    connection's states between two nodes yields every point at which the process can die. *)
From Verif Require Export Types.

(** Result of one SQL statement. A failing statement changes nothing (SQLite's default ABORT
    conflict resolution undoes a failing statement), hence no database in [SErr]. *)
Inductive sqlres (A : Type) : Type := SOk (a : A) | SErr (e : sql_error).
Global Arguments SOk {A} a.
Global Arguments SErr {A} e.

Definition stmt (R : Set) : Type := db -> sqlres (R * db).

Inductive prog (A : Type) : Type :=
| Ret (a : A)
| Begin (k : option sql_error -> prog A)   (* BEGIN, or SAVEPOINT when nested *)
| Commit (k : option sql_error -> prog A)  (* COMMIT, or RELEASE when nested *)
| Rollback (k : prog A)                    (* ROLLBACK, or ROLLBACK TO + RELEASE when nested *)
| Sql (R : Set) (f : stmt R) (k : sqlres R -> prog A).
Global Arguments Ret {A} a.
Global Arguments Begin {A} k.
Global Arguments Commit {A} k.
Global Arguments Rollback {A} k.
Global Arguments Sql {A} R f k.

Fixpoint bind {A B} (p : prog A) (g : A -> prog B) : prog B :=
  match p with
  | Ret a => g a
  | Begin k => Begin (fun r => bind (k r) g)
  | Commit k => Commit (fun r => bind (k r) g)
  | Rollback k => Rollback (bind k g)
  | Sql R f k => Sql R f (fun r => bind (k r) g)
  end.

(** Connection state: the database as this connection sees it, and the stack of databases to
    return to, one per open BEGIN/SAVEPOINT, innermost first. *)
Record conn : Set := Conn { c_cur : db; c_saved : list db }.
Definition conn_of (d : db) : conn := Conn d [].

(** What is left after a crash: an open transaction is undone entirely when the database file is
    opened again; without one, all finished statements are durable. (A power failure can in
    addition lose the last committed transactions, since db/mod.rs opens the file with
    synchronous=NORMAL in WAL mode; that is a return to an earlier committed database.) *)
Definition durable (c : conn) : db := List.last (c_saved c) (c_cur c).

(** Environment faults: at each node one boolean is consumed; [true] makes the statement fail
    with [OtherSqlError] (disk full, lock, ...). The empty list means no (more) faults. *)
Definition faults := list bool.
Definition next_fault (fs : faults) : bool * faults :=
  match fs with [] => (false, []) | b :: fs' => (b, fs') end.

(** Running a program. A BEGIN that fails opens nothing; a COMMIT that fails is followed by the
    rollback sqlx performs when it drops the transaction. *)
Fixpoint run {A} (p : prog A) (c : conn) (fs : faults) : A * conn * faults :=
  match p with
  | Ret a => (a, c, fs)
  | Begin k =>
      let '(b, fs) := next_fault fs in
      if b : bool then run (k (Some OtherSqlError)) c fs
      else run (k None) (Conn (c_cur c) (c_cur c :: c_saved c)) fs
  | Commit k =>
      let '(b, fs) := next_fault fs in
      match c_saved c with
      | [] => run (k (Some OtherSqlError)) c fs
      | d :: ds =>
          if b : bool then run (k (Some OtherSqlError)) (Conn d ds) fs
          else run (k None) (Conn (c_cur c) ds) fs
      end
  | Rollback k =>
      match c_saved c with
      | [] => run k c fs
      | d :: ds => run k (Conn d ds) fs
      end
  | Sql R f k =>
      let '(b, fs) := next_fault fs in
      if b : bool then run (k (SErr OtherSqlError)) c fs
      else match f (c_cur c) with
           | SOk (r, d) => run (k (SOk r)) (Conn d (c_saved c)) fs
           | SErr e => run (k (SErr e)) c fs
           end
  end.

(** All states of the connection before, between and after the nodes of a run. *)
Fixpoint states {A} (p : prog A) (c : conn) (fs : faults) : list conn :=
  c :: match p with
  | Ret a => []
  | Begin k =>
      let '(b, fs) := next_fault fs in
      if b : bool then states (k (Some OtherSqlError)) c fs
      else states (k None) (Conn (c_cur c) (c_cur c :: c_saved c)) fs
  | Commit k =>
      let '(b, fs) := next_fault fs in
      match c_saved c with
      | [] => states (k (Some OtherSqlError)) c fs
      | d :: ds =>
          if b : bool then states (k (Some OtherSqlError)) (Conn d ds) fs
          else states (k None) (Conn (c_cur c) ds) fs
      end
  | Rollback k =>
      match c_saved c with
      | [] => states k c fs
      | d :: ds => states k (Conn d ds) fs
      end
  | Sql R f k =>
      let '(b, fs) := next_fault fs in
      if b : bool then states (k (SErr OtherSqlError)) c fs
      else match f (c_cur c) with
           | SOk (r, d) => states (k (SOk r)) (Conn d (c_saved c)) fs
           | SErr e => states (k (SErr e)) c fs
           end
  end.

(** Running a whole operation on a fresh connection to database [d]. *)
Definition exec {A} (p : prog A) (d : db) (fs : faults) : A * db :=
  let '(r, c, _) := run p (conn_of d) fs in (r, c_cur c).
(** The databases that can be found after a crash during that run. *)
Definition crash_dbs {A} (p : prog A) (d : db) (fs : faults) : list db :=
  durable <$> states p (conn_of d) fs.

(** A read-only program on a reader connection, outside a transaction, while other connections
    commit: its n-th query sees the n-th database of the given sequence. *)
Fixpoint run_reader {A} (p : prog A) (dbs : nat -> db) (n : nat) : A :=
  match p with
  | Ret a => a
  | Begin k => run_reader (k None) dbs n
  | Commit k => run_reader (k None) dbs n
  | Rollback k => run_reader k dbs n
  | Sql R f k =>
      match f (dbs n) with
      | SOk (r, _) => run_reader (k (SOk r)) dbs (S n)
      | SErr e => run_reader (k (SErr e)) dbs (S n)
      end
  end.

(** Programs with Rust's [Result]; [x <-? p; k] is the [?] operator. *)
Definition M (A : Type) : Type := prog (res A).
Definition ret {A} (a : A) : M A := Ret (Ok a).
Definition err {A} (e : op_error) : M A := Ret (Err e).
Definition tryb {A B} (p : M A) (g : A -> M B) : M B :=
  bind p (fun r => match r with Ok a => g a | Err e => Ret (Err e) | Panicked => Ret Panicked end).
Notation "x <-? p ; k" := (tryb p (fun x => k)) (at level 100, p at next level, right associativity).
Notation "p ;;? k" := (tryb p (fun _ => k)) (at level 100, right associativity).

Definition lift_sql {R : Set} (r : sqlres R) : res R :=
  match r with SOk a => Ok a | SErr e => Err (EDb e) end.
Definition sql {R : Set} (f : stmt R) : M R := Sql R f (fun r => Ret (lift_sql r)).
Definition read {R : Set} (q : db -> R) : M R := sql (fun d => SOk (q d, d)).

(** Connection::transaction, db/mod.rs:125-144 (sqlx's Connection::transaction): commit on Ok,
    roll back on Err; a panic drops the transaction, which rolls it back. *)
Definition transaction {A} (body : M A) : M A :=
  Begin (fun b =>
    match b with
    | Some e => Ret (Err (EDb e))
    | None =>
        bind body (fun r =>
          match r with
          | Ok a => Commit (fun b' => match b' with Some e => Ret (Err (EDb e)) | None => Ret (Ok a) end)
          | Err e => Rollback (Ret (Err e))
          | Panicked => Rollback (Ret Panicked)
          end)
    end).

(** Single statements on one table [m]. *)

(** INSERT ... VALUES (one row). *)
Definition ins {K : Type} `{Countable K} {A} (k : K) (a : A) (m : gmap K A) : sqlres (gmap K A) :=
  match m !! k with None => SOk (<[k := a]> m) | Some _ => SErr UniqueViolation end.
(** INSERT ... VALUES (several rows), one statement. *)
Fixpoint ins_many {K : Type} `{Countable K} {A} (l : list (K * A)) (m : gmap K A) : sqlres (gmap K A) :=
  match l with
  | [] => SOk m
  | (k, a) :: l' => match ins k a m with SOk m' => ins_many l' m' | SErr e => SErr e end
  end.
(** INSERT ... SELECT of the rows [news] (themselves keyed uniquely, as they come from a table). *)
Definition ins_rows {K : Type} `{Countable K} {A} (news m : gmap K A) : sqlres (gmap K A) :=
  if decide (map_Forall (fun k _ => m !! k = None) news) then SOk (news ∪ m) else SErr UniqueViolation.
(** DELETE ... WHERE key = k RETURNING, with [fetch_one]: a missing row is an error. *)
Definition del_one {K : Type} `{Countable K} {A} (k : K) (m : gmap K A) : sqlres (A * gmap K A) :=
  match m !! k with Some a => SOk (a, delete k m) | None => SErr RowNotFound end.

(** Lifting a table statement to the database. *)
Definition on {K : Type} `{Countable K} {A} (get : db -> gmap K A)
    (put : (gmap K A -> gmap K A) -> db -> db) (f : gmap K A -> sqlres (gmap K A)) : stmt unit :=
  fun d => match f (get d) with SOk m => SOk (tt, put (fun _ => m) d) | SErr e => SErr e end.
