(** Data of the model: ids, rows of the SQLite tables, API records, errors. *)
From stdpp Require Export gmap strings list list_numbers sorting.
From Coq Require Export ZArith NArith.
Global Set Default Goal Selector "!".
Local Open Scope N_scope.

(** SubmissionId is a 63-bit number: common/submission.rs:18-21. Chunk indexes and counts are
    63-bit numbers too: common/chunk.rs:14-47. The model uses unbounded [N]; the 63-bit bound is
    treated separately in Ids.v. *)
Notation sub_id := N (only parsing).
Notation chunk_index := N (only parsing).
(** ChunkId: common/chunk.rs:162-171. *)
Notation chunk_id := (N * N)%type (only parsing).

(** Bytes and strings are both Coq [string] (a sequence of bytes).
    Content = Option<Vec<u8>>: common/chunk.rs:195. *)
Notation content := (option string) (only parsing).
(** StrategicMetadataMap: common/mod.rs:14-15 (values are i64; modelled as unbounded [Z]). *)
Notation strat_map := (gmap string Z) (only parsing).
(** DateTime<Utc>; the SQL side stores julianday(..) doubles. The model keeps exact integers; Julian.v has the
    doubles, and [C100_order] that they compare in the same way. *)
Notation time := Z (only parsing).

(** Table submissions: migrations/20240704100242_submissions.sql:2-9,
    20241122175706 (otel_trace_carrier), 20250416081453 (chunk_size, nullable). The generated
    column random_order (20260803133844) is modelled in Strategy.v. *)
Record sub_row : Set := SubRow {
  sr_prefix : option string; sr_total : N; sr_done : N; sr_meta : option string;
  sr_otel : string; sr_size : option Z }.
(** Table submissions_completed: same migrations, lines 11-18. *)
Record comp_row : Set := CompRow {
  cr_prefix : option string; cr_total : N; cr_meta : option string; cr_at : time;
  cr_otel : string; cr_size : option Z }.
(** Table submissions_failed: same migrations, lines 20-28, and 20260429173300 (chunks_done, nullable). *)
Record fail_row : Set := FailRow {
  fr_prefix : option string; fr_total : N; fr_done : option N; fr_meta : option string;
  fr_at : time; fr_chunk : chunk_index; fr_otel : string; fr_size : option Z }.
(** Table submissions_cancelled: migrations/20260225164600_submissions_cancelled.sql. *)
Record canc_row : Set := CancRow {
  xr_prefix : option string; xr_total : N; xr_done : N; xr_meta : option string; xr_at : time }.
(** Table chunks: migrations/20240704100449_chunks.sql:1-9. *)
Record chunk_row : Set := ChunkRow { ch_input : content; ch_retries : N }.
(** Table chunks_completed: same file, lines 11-19. *)
Record chunk_comp_row : Set := ChunkCompRow { cc_output : content; cc_at : time }.
(** Table chunks_failed: same file, lines 22-32. *)
Record chunk_fail_row : Set := ChunkFailRow {
  cf_input : content; cf_failure : string; cf_at : time; cf_skipped : bool }.

(** The database. Each table is a finite map from its primary key to the other columns, so a
    primary key is unique by construction and an INSERT of an existing key must be refused.
    submissions_metadata has primary key (submission_id, metadata_key):
    migrations/20260717143000_submission_metadata_pk_by_key.up.sql:1-9. *)
Record db : Set := Db {
  t_sub : gmap sub_id sub_row;
  t_comp : gmap sub_id comp_row;
  t_fail : gmap sub_id fail_row;
  t_canc : gmap sub_id canc_row;
  t_meta : gmap (sub_id * string) Z;
  t_chunk : gmap chunk_id chunk_row;
  t_cdone : gmap chunk_id chunk_comp_row;
  t_cfail : gmap chunk_id chunk_fail_row }.

Definition db_empty : db := Db ∅ ∅ ∅ ∅ ∅ ∅ ∅ ∅.

Definition set_sub f d := Db (f (t_sub d)) (t_comp d) (t_fail d) (t_canc d) (t_meta d) (t_chunk d) (t_cdone d) (t_cfail d).
Definition set_comp f d := Db (t_sub d) (f (t_comp d)) (t_fail d) (t_canc d) (t_meta d) (t_chunk d) (t_cdone d) (t_cfail d).
Definition set_fail f d := Db (t_sub d) (t_comp d) (f (t_fail d)) (t_canc d) (t_meta d) (t_chunk d) (t_cdone d) (t_cfail d).
Definition set_canc f d := Db (t_sub d) (t_comp d) (t_fail d) (f (t_canc d)) (t_meta d) (t_chunk d) (t_cdone d) (t_cfail d).
Definition set_meta f d := Db (t_sub d) (t_comp d) (t_fail d) (t_canc d) (f (t_meta d)) (t_chunk d) (t_cdone d) (t_cfail d).
Definition set_chunk f d := Db (t_sub d) (t_comp d) (t_fail d) (t_canc d) (t_meta d) (f (t_chunk d)) (t_cdone d) (t_cfail d).
Definition set_cdone f d := Db (t_sub d) (t_comp d) (t_fail d) (t_canc d) (t_meta d) (t_chunk d) (f (t_cdone d)) (t_cfail d).
Definition set_cfail f d := Db (t_sub d) (t_comp d) (t_fail d) (t_canc d) (t_meta d) (t_chunk d) (t_cdone d) (f (t_cfail d)).

(** Rows of a table keyed by (submission, x) that belong to one submission: what
    "WHERE submission_id = $1" selects. *)
Definition rows_of {K : Type} `{Countable K} {A} (m : gmap (sub_id * K) A) (id : sub_id) : gmap K A :=
  default ∅ (gmap_curry m !! id).

(** API records. Chunk: common/chunk.rs:197-204; ChunkFailed: common/chunk.rs:215-223 (the row's
    [skipped] column is not part of the record); ChunkCompleted: common/chunk.rs:206-213. *)
Record chunk : Set := Chunk {
  c_sub : sub_id; c_index : chunk_index; c_input : content; c_retries : N }.
Record chunk_failed : Set := ChunkFailed {
  kf_sub : sub_id; kf_index : chunk_index; kf_input : content; kf_failure : string; kf_at : time }.
Record chunk_completed : Set := ChunkCompleted {
  kc_sub : sub_id; kc_index : chunk_index; kc_output : content; kc_at : time }.
(** Submission: common/submission.rs:153-164. *)
Record submission : Set := Submission {
  s_id : sub_id; s_prefix : option string; s_total : N; s_done : N; s_size : Z;
  s_meta : option string; s_strat : strat_map; s_otel : string }.
(** SubmissionCompleted: common/submission.rs:171-182. *)
Record submission_completed : Set := SubmissionCompleted {
  sc_id : sub_id; sc_prefix : option string; sc_total : N; sc_size : Z;
  sc_meta : option string; sc_strat : strat_map; sc_at : time; sc_otel : string }.
(** SubmissionFailed: common/submission.rs:184-197. *)
Record submission_failed : Set := SubmissionFailed {
  sf_id : sub_id; sf_prefix : option string; sf_total : N; sf_done : option N; sf_size : Z;
  sf_meta : option string; sf_strat : strat_map; sf_at : time; sf_chunk : chunk_index; sf_otel : string }.
(** SubmissionCancelled: common/submission.rs:203-213. *)
Record submission_cancelled : Set := SubmissionCancelled {
  sx_id : sub_id; sx_prefix : option string; sx_total : N; sx_done : N;
  sx_meta : option string; sx_strat : strat_map; sx_at : time }.
(** SubmissionStatus: common/submission.rs:215-221. *)
Inductive status : Set :=
| InProgress (s : submission)
| Completed (s : submission_completed)
| Failed (s : submission_failed) (c : chunk_failed)
| Cancelled (s : submission_cancelled).

(** sqlx::Error, as far as the code distinguishes it: a row that [fetch_one] did not find, a
    violated primary key, anything else (disk, lock, ...). *)
Inductive sql_error : Set := RowNotFound | UniqueViolation | OtherSqlError.

(** Errors of the db functions. The code nests DatabaseError, SubmissionNotFound and
    SubmissionNotCancellable with the type E (common/errors.rs:19-71); the model uses one flat type. *)
Inductive op_error : Set :=
| EDb (e : sql_error)
| ESubmissionNotFound (id : sub_id)
| ENotCancellable (s : status).

(** Result of an operation. A panic is an explicit value. *)
Inductive res (A : Type) : Type := Ok (a : A) | Err (e : op_error) | Panicked.
Global Arguments Ok {A} a.
Global Arguments Err {A} e.
Global Arguments Panicked {A}.

Definition is_ok {A} (r : res A) : bool := match r with Ok _ => true | _ => false end.
