(** Times in the database.

    The server records every event (a submission completed, failed or cancelled; a chunk completed
    or failed) with the time of its clock. The columns hold [julianday(..)] of that time: a double,
    the number of days since noon of 24 November 4714 BC. This file computes what becomes of a time
    on its way into such a column and back out. The rest of the model keeps times as whole numbers:
    see [C100_order] for why nothing that the server compares is lost by that.

    Of the libraries (sqlx-sqlite 0.9.0, SQLite 3.46 of libsqlite3-sys 0.30.1; both are outside
    /repo and modelled from their documentation and source as known):
    - sqlx binds a DateTime<Utc> as text with up to nine decimals of the second; SQLite turns the text
      into a whole number of milliseconds, with an error of less than one millisecond (it rounds,
      but never up into the next second). The conversion of the calendar date is taken to be exact.
    - [julianday] divides that number by 86400000.0.
    - A column declared DATETIME has NUMERIC affinity: a double with a whole value is stored as an
      integer.
    - sqlx decodes a DateTime<Utc> by the type of the stored value: a double is a Julian day, an integer is
      a number of seconds since 1970.

    A double m / 2^s is the pair (m, s). Only values that are not negative and less than 2^51 occur, which have
    s >= 0; there are no subnormal numbers among them. *)
From Coq Require Export ZArith.
From Coq Require Import Lia.
Global Set Default Goal Selector "!".
Local Open Scope Z_scope.

Notation double := (Z * Z)%type (only parsing).

(** The whole number nearest to n / d; the even one if there are two (IEEE 754, the default rounding). *)
Definition nearest (n d : Z) : Z :=
  let q := n / d in
  let r := n mod d in
  if 2 * r <? d then q
  else if d <? 2 * r then q + 1
  else if Z.even q then q else q + 1.

(** The double nearest to n / d, for 0 <= n and 0 < d: the result of one operation on doubles whose exact result is
    n / d. 53 bits of n / d are kept. *)
Definition fl (n d : Z) : double :=
  if n =? 0 then (0, 0)
  else
    let s := 52 - (Z.log2 n - Z.log2 d) in
    let s := if n * 2 ^ s <? 2 ^ 52 * d then s + 1 else s in
    (nearest (n * 2 ^ s) d, s).

(** Comparison of doubles (and of integers, taken as doubles). *)
Definition dlt (x y : double) : bool := fst x * 2 ^ snd y <? fst y * 2 ^ snd x.

(** julianday(..) of the time [ms] milliseconds after the start of Julian day 0:
    common/chunk.rs:356,465,615; common/submission.rs:913,947,983,1103-1155. *)
Definition day_ms : Z := 86400000.
Definition julianday (ms : Z) : double := fl ms day_ms.

(** A value in a column declared DATETIME: migrations/20240704100242_submissions.sql:17,27;
    migrations/20240704100449_chunks.sql:16,28; migrations/20260225164600_submissions_cancelled.sql:8. *)
Inductive stored_time : Set :=
  | SInt (z : Z)
  | SReal (x : double).

(** Affinity NUMERIC: a double with a whole value becomes an integer. *)
Definition numeric (x : double) : stored_time :=
  let '(m, s) := x in
  if m mod 2 ^ s =? 0 then SInt (m / 2 ^ s) else SReal x.

(** INSERT INTO .. SELECT .., julianday($1), ..: the lines cited at [julianday]. *)
Definition store (ms : Z) : stored_time := numeric (julianday ms).

(** .. WHERE completed_at < julianday($1): common/submission.rs:1103,1112,1121,1130-1155. SQLite compares
    an integer with a double by value. *)
Definition older (v : stored_time) (cutoff_ms : Z) : bool :=
  match v with
  | SInt z => dlt (z, 0) (julianday cutoff_ms)
  | SReal x => dlt x (julianday cutoff_ms)
  end.

(** Reading the column AS "completed_at: DateTime<Utc>": common/chunk.rs:528,556;
    common/submission.rs:713,748,790. The result is a number of nanoseconds since 1970. [None]: chrono refuses it
    and the query fails. Only for times from 1970 on.

    - An integer: Utc.timestamp_opt(value, 0).
    - A double: timestamp = (value - 2440587.5) * 86400.0; timestamp_opt(timestamp.trunc() as i64,
      (timestamp.fract() * 1E9) as u32). Nanoseconds of 10^9 and more are refused (except as a leap
      second, which is not modelled). *)
Definition load (v : stored_time) : option Z :=
  match v with
  | SInt z => Some (z * 10 ^ 9)
  | SReal (m, s) =>
      let '(m1, s1) := fl (2 * m - 4881175 * 2 ^ s) (2 ^ (s + 1)) in
      let '(m2, s2) := fl (m1 * 86400) (2 ^ s1) in
      let '(m3, s3) := fl ((m2 mod 2 ^ s2) * 10 ^ 9) (2 ^ s2) in
      let nanos := m3 / 2 ^ s3 in
      if nanos <? 10 ^ 9 then Some (m2 / 2 ^ s2 * 10 ^ 9 + nanos) else None
  end.

(** The getters of the Python classes (libs/opsqueue_python/src/common.rs:280-296,485-512, pyo3's conversion of
    DateTime<Utc> to datetime.datetime): whole microseconds. *)
Definition to_python (t : Z) : Z := t / 1000.
