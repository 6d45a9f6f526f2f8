(** The Python API of producers: what the calls return and raise. libs/opsqueue_python/src/common.rs,
    errors.rs, producer.rs, python/opsqueue/exceptions.py and producer.py. Not modelled: __repr__ and
    __str__, the texts of errors but for the one named below, tracing, the GIL. *)
From Verif Require Export PyLib ProducerClient.
Local Open Scope N_scope.

(** *** Objects: common.rs. Ids are u64 in Python and 63-bit numbers in Rust (Ids.v). *)
(** Submission, 402-410. *)
Record py_submission : Set := PySubmission { ps_id : N; ps_total : N; ps_done : N; ps_meta : option string; ps_strat : strat_map }.
(** SubmissionCompleted, 482-490. *)
Record py_completed : Set := PyCompleted { pc_id : N; pc_total : N; pc_meta : option string; pc_strat : strat_map; pc_at : time }.
(** SubmissionFailed, 492-502. *)
Record py_failed : Set := PyFailed {
  pf_id : N; pf_total : N; pf_done : option N; pf_meta : option string; pf_strat : strat_map; pf_at : time; pf_chunk : N }.
(** SubmissionCancelled, 504-513. *)
Record py_cancelled : Set := PyCancelled {
  px_id : N; px_total : N; px_done : N; px_meta : option string; px_strat : strat_map; px_at : time }.
(** ChunkFailed, 279-286. *)
Record py_chunk_failed : Set := PyChunkFailed { pk_sub : N; pk_index : N; pk_failure : string; pk_at : time }.
(** SubmissionStatus, 353-369. *)
Inductive py_status : Set :=
| PyInProgress (s : py_submission) | PyIsCompleted (s : py_completed) | PyIsFailed (s : py_failed) (c : py_chunk_failed) | PyIsCancelled (s : py_cancelled).
(** SubmissionNotCancellable, 515-530. *)
Inductive py_not_cancellable : Set :=
| NotCancellableCompleted (s : py_completed) | NotCancellableFailed (s : py_failed) (c : py_chunk_failed) | NotCancellableCancelled (s : py_cancelled).

(** From<Submission>, 412-422. *)
Definition of_submission (v : submission) : py_submission :=
  PySubmission (s_id v) (s_total v) (s_done v) (s_meta v) (s_strat v).
(** From<SubmissionCompleted>, 314-324. *)
Definition of_completed (v : submission_completed) : py_completed :=
  PyCompleted (sc_id v) (sc_total v) (sc_meta v) (sc_strat v) (sc_at v).
(** From<SubmissionFailed>, 326-338. *)
Definition of_failed (v : submission_failed) : py_failed :=
  PyFailed (sf_id v) (sf_total v) (sf_done v) (sf_meta v) (sf_strat v) (sf_at v) (sf_chunk v).
(** From<SubmissionCancelled>, 340-351. *)
Definition of_cancelled (v : submission_cancelled) : py_cancelled :=
  PyCancelled (sx_id v) (sx_total v) (sx_done v) (sx_meta v) (sx_strat v) (sx_at v).
(** ChunkFailed::from_internal, 288-298. *)
Definition of_chunk_failed (c : chunk_failed) : py_chunk_failed :=
  PyChunkFailed (kf_sub c) (kf_index c) (kf_failure c) (kf_at c).
(** From<SubmissionStatus>, 371-393. *)
Definition of_status (st : status) : py_status :=
  match st with
  | InProgress s => PyInProgress (of_submission s)
  | Completed s => PyIsCompleted (of_completed s)
  | Failed s c => PyIsFailed (of_failed s) (of_chunk_failed c)
  | Cancelled s => PyIsCancelled (of_cancelled s)
  end.
(** From<SubmissionNotCancellable>, 532-551. In Rust SubmissionNotCancellable (common/errors.rs:46-51)
    has no variant for a submission in progress; here it is a [status], and [None] stands for that. *)
Definition of_not_cancellable (st : status) : option py_not_cancellable :=
  match st with
  | InProgress _ => None
  | Completed s => Some (NotCancellableCompleted (of_completed s))
  | Failed s c => Some (NotCancellableFailed (of_failed s) (of_chunk_failed c))
  | Cancelled s => Some (NotCancellableCancelled (of_cancelled s))
  end.

(** *** Exceptions: exceptions.py *)
(** The classes; those above the blank comment are Python's own. *)
Inductive py_class : Set :=
| BaseException | Exception | TypeError | KeyboardInterrupt
  (* *)
| SubmissionFailedError | SubmissionNotCancellableError
| IncorrectUsageError | TryFromIntError | ChunkNotFoundError | SubmissionNotFoundError | ChunkCountIsZeroError
| NewObjectStoreClientError | SubmissionNotCompletedYetError | TooManyMatchingSubmissionsError
| OpsqueueInternalError | UnexpectedOpsqueueConsumerServerResponseError | ChunkRetrievalError | ChunksStorageError
| ChunkStorageError | InternalConsumerClientError | InternalProducerClientError.
(** The class that a class statement names: 7, 42, 75, 85, 95, 104, 126, 137, 146, 156, 187, 195, 207, 215, 224, 233, 241. *)
Definition parent (c : py_class) : option py_class :=
  match c with
  | BaseException => None
  | Exception | KeyboardInterrupt => Some BaseException
  | TypeError | SubmissionFailedError | SubmissionNotCancellableError | OpsqueueInternalError => Some Exception
  | IncorrectUsageError => Some TypeError
  | TryFromIntError | ChunkNotFoundError | SubmissionNotFoundError | ChunkCountIsZeroError | NewObjectStoreClientError
  | SubmissionNotCompletedYetError | TooManyMatchingSubmissionsError => Some IncorrectUsageError
  | UnexpectedOpsqueueConsumerServerResponseError | ChunkRetrievalError | ChunksStorageError | ChunkStorageError
  | InternalConsumerClientError | InternalProducerClientError => Some OpsqueueInternalError
  end.
(** What "except C" catches. *)
Inductive caught_by : py_class -> py_class -> Prop :=
| caught_self c : caught_by c c
| caught_above c p q : parent c = Some p -> caught_by p q -> caught_by c q.
(** An exception: its class and what its attributes hold; [OnlyText]: nothing but a text. *)
Inductive attributes : Set :=
| OfFailed (submission : py_failed) (chunk : py_chunk_failed) (failure : string)   (* 20-28 *)
| OfNotCancellable (submission : py_not_cancellable) (chunk : option py_chunk_failed) (* 50-57 *)
| OfNotFound (submission_id : N)                                                   (* 112-117 *)
| OfNotCompleted (submission_id : N)
| OfTooMany (max_submissions : N)                                                  (* 167-172 *)
| OnlyText.
Record raised : Set := Raised { x_class : py_class; x_attributes : attributes }.
Definition result (A : Type) : Type := raised + A.

(** From<CError<..>> for PyErr, errors.rs:100-104, 130-148, 150-154, and the E of 216-227, for the
    errors of the client; a definite answer is an error of its own, everything else is an
    InternalProducerClientError. [None]: no such value exists in Rust (see of_not_cancellable). *)
Definition pyerr (e : client_err) : option raised :=
  match e with
  | CHttp _ | CStatus _ | CJson | CUnexpected _ => Some (Raised InternalProducerClientError OnlyText)
  | CNotFound id => Some (Raised SubmissionNotFoundError (OfNotFound id))
  | CNotCancellable st =>
    let c := match st with Failed _ c => Some (of_chunk_failed c) | _ => None end in
    (fun s => Raised SubmissionNotCancellableError (OfNotCancellable s c)) <$> of_not_cancellable st
  | CTooMany max => Some (Raised TooManyMatchingSubmissionsError (OfTooMany max))
  end.
(** A call of the API, given how the call of the Rust client ended; [take] is the type of the answer
    that serde expects. [None]: no such value exists in Rust. *)
Definition finish {A} (take : body -> option A) (r : client_err + body) : option (result A) :=
  match r with inl e => inl <$> pyerr e | inr b => inr <$> take b end.
(** producer.rs:137-160. *)
Definition py_cancel_submission : client_err + body -> option (result unit) := finish (fun b => match b with BNone => Some tt | _ => None end).
(** producer.rs:162-189. *)
Definition py_get_submission_status : client_err + body -> option (result (option py_status)) :=
  finish (fun b => match b with BStatus st => Some (of_status <$> st) | _ => None end).
(** producer.rs:191-213. *)
Definition py_lookup_submission_id_by_prefix : client_err + body -> option (result (option N)) :=
  finish (fun b => match b with BMaybeId id => Some id | _ => None end).
(** producer.rs:215-244. *)
Definition py_lookup_submission_ids_by_strategic_metadata : client_err + body -> option (result (list N)) :=
  finish (fun b => match b with BIds l => Some l | _ => None end).
(** producer.rs:108-127. *)
Definition py_count_submissions : client_err + body -> option (result N) :=
  finish (fun b => match b with BCount n => Some n | _ => None end).

(** maybe_stream_completed_submission, producer.rs:542-571, and try_stream_completed_submission_chunks,
    354-381: what is streamed is the prefix and the number of chunks (see PyLib.v). errors.rs:161-174. *)
Definition py_try_stream (id : N) (r : client_err + body) : option (result (string * N)) :=
  match r with
  | inl e => inl <$> pyerr e
  | inr (BStatus st) =>
    match maybe_stream (Some st) with
    | NotYet => Some (inl (Raised SubmissionNotCompletedYetError (OfNotCompleted id)))
    | Raises s c =>
      let c := of_chunk_failed c in
      Some (inl (Raised SubmissionFailedError (OfFailed (of_failed s) c (pk_failure c))))
    | Streams p n => Some (inr (p, n))
    | ClientError => None
    end
  | inr _ => None
  end.

(** *** Uploading the chunks of a submission *)
(** What the caller's iterator gives: bytes, which are then uploaded somehow; or an exception, which
    next() raises or which comes of an element that is not bytes. *)
Inductive item : Set := Yields (c : string) (u : upload) | Throws (x : py_class).
(** How a call ends that runs the caller's code: it returns; or it raises an exception of its own,
    with a text; or it lets an exception of the caller through. *)
Inductive ending (A : Type) : Type := Returns (a : A) | RaisesOwn (c : py_class) (text : string) | LetsThrough (x : py_class).
Global Arguments Returns {A} a.
Global Arguments RaisesOwn {A} c text.
Global Arguments LetsThrough {A} x.
(** The first part of insert_submission_chunks, producer.rs:308-324, with store_chunks,
    object_store/mod.rs:213-247: the iterator's exception becomes an anyhow::Error (producer.rs:312-317),
    and so does the ChunkStorageError of an upload, by the "?" of mod.rs:228; both end up as the
    source of ChunkContentsEvalError (238-242), of which the exception keeps the text alone
    (mod.rs:93, errors.rs:112-116). *)
Definition eval_error_text : string := "Failed to read chunk element from stream/iterator".
Fixpoint py_upload_from (base prefix : string) (i : N) (l : list item) (o : objects) : ending N * objects :=
  match l with
  | [] => (Returns i, o)
  | Throws _ :: _ => (RaisesOwn ChunksStorageError eval_error_text, o)
  | Yields c u :: l =>
    match store_chunk base prefix i Input c u o with
    | (true, o') => py_upload_from base prefix (i + 1) l o'
    | (false, o') => (RaisesOwn ChunksStorageError eval_error_text, o')
    end
  end.
(** insert_submission_chunks, producer.rs:282-347: the second part is the insert call of the client,
    which is made only if all is uploaded. [attempts]: what happens in that call (ProducerClient.v);
    [None] while it still runs. *)
Definition py_insert_submission_chunks (base prefix : string) (l : list item) (meta : option string) (strat : option strat_map) (size : option Z)
    (attempts : list attempt) (o : objects) (d : db) : option (ending N * objects * db) :=
  match py_upload_from base prefix 0 l o with
  | (Returns n, o') =>
    match call (PInsert (SeeObjectStorage prefix n) meta (default ∅ strat) size) d attempts with
    | None => None
    | Some (inr (BId id), d', _) => Some (Returns id, o', d')
    | Some (_, d', _) => Some (RaisesOwn InternalProducerClientError "", o', d')
    end
  | (RaisesOwn c t, o') => Some (RaisesOwn c t, o', d)
  | (LetsThrough x, o') => Some (LetsThrough x, o', d)
  end.

(** *** Interrupts: run_unless_interrupted and check_signals_in_background, common.rs:560-593 *)
(** Times in milliseconds since the call began. [future]: when the call itself would end, and how,
    if ever. [signal]: when a signal comes whose handler raises. [fair k]: which of the two wins if
    the call ends at the moment of the [k]th check (tokio::select! picks at random). The checks are
    made on the calling thread, which has to be the main thread for Python to run a handler.
    SIGNAL_CHECK_INTERVAL, 20-25, for release builds; the time that a check takes is neglected. *)
Definition signal_check_interval : N := 1000.
Inductive stopped (A : Type) : Type := CallEnded (a : A) | InterruptRaised.
Global Arguments CallEnded {A} a.
Global Arguments InterruptRaised {A}.
(** The end of the call, if it comes before or at the last of the checks [k], ..., [k + fuel - 1]. *)
Fixpoint watch {A} (future : option (N * A)) (signal : option N) (fair : N -> bool) (k : N) (fuel : nat) : option (N * stopped A) :=
  match fuel with
  | O => None
  | S fuel =>
    let now := signal_check_interval * k in
    let pending := match signal with Some s => s <=? now | None => false end in
    match future with
    | Some (t, a) =>
      if (t <? now) || (t =? now) && (fair k || negb pending) then Some (t, CallEnded a)
      else if pending then Some (now, InterruptRaised) else watch future signal fair (k + 1) fuel
    | None => if pending then Some (now, InterruptRaised) else watch future signal fair (k + 1) fuel
    end
  end.
(** The call has ended with this at that time. *)
Definition run_unless_interrupted {A} (future : option (N * A)) (signal : option N) (fair : N -> bool) (t : N) (r : stopped A) : Prop :=
  exists fuel, watch future signal fair 1 fuel = Some (t, r).
