(** The Python library: libs/opsqueue_python. Chunking, waiting for results, fetching the contents
    of reserved chunks, reporting results, and the conversion of strategies. Not modelled: the
    interpreter lock, signals, tracing, exceptions as Python objects, the async variants (which use
    the same functions). *)
From Verif Require Export Server ObjectStore.
Local Open Scope N_scope.

(** *** Chunking: python/opsqueue/producer.py:395-424, common.py:35-50 *)
(** A serialisation format for sequences of values: SerializationFormat. [None]: an exception (or
    the assertion that the decoded value is a sequence fails). *)
Record format (A : Type) : Type := Format { dumps : list A -> string; loads : string -> option (list A) }.
Global Arguments Format {A} dumps loads.
Global Arguments dumps {A} _ _.
Global Arguments loads {A} _ _.
(** itertools.batched: take up to [n] values at a time until there are none. [acc]: the batch being
    collected. *)
Fixpoint batched_from {A} (n : nat) (acc l : list A) : list (list A) :=
  match l with
  | [] => match acc with [] => [] | _ => [acc] end
  | x :: l => if (length (acc ++ [x]) =? n)%nat then (acc ++ [x]) :: batched_from n [] l else batched_from n (acc ++ [x]) l
  end.
Definition batched {A} (n : nat) (l : list A) : list (list A) := batched_from n [] l.
(** _chunk_iterator. [None]: ChunkSizeIsZeroError. *)
Definition chunk_iterator {A} (fmt : format A) (size : Z) (ops : list A) : option (list string) :=
  if (size <=? 0)%Z then None else Some (dumps fmt <$> batched (Z.to_nat size) ops).
(** _unchunk_iterator: what is yielded, and whether the iteration ended without an exception. An
    element [None] is an error while retrieving a chunk. *)
Fixpoint unchunk_iterator {A} (fmt : format A) (l : list (option string)) : list A * bool :=
  match l with
  | [] => ([], true)
  | c :: l =>
    match c ≫= loads fmt with
    | Some ops => let '(r, ok) := unchunk_iterator fmt l in (ops ++ r, ok)
    | None => ([], false)
    end
  end.
(** ConsumerClient.run_each_op, consumer.py:55-108: the raw callback that it installs. [None]: the
    callback or the decoding raised an exception. *)
Definition run_each_op {A B} (fa : format A) (fb : format B) (f : A -> option B) (c : string) : option string :=
  match loads fa c with
  | Some ops => dumps fb <$> mapM f ops
  | None => None
  end.

(** *** Waiting for a submission: src/producer.rs *)
(** maybe_stream_completed_submission, 542-571: not finished, an exception with the failed chunk, or
    a stream of the outputs under a prefix ("" for a submission without one). *)
Inductive poll_result : Set := NotYet | Raises (s : submission_failed) (c : chunk_failed) | Streams (prefix : string) (total : N) | ClientError.
(** [None]: the request failed (InternalProducerClientError). *)
Definition maybe_stream (a : option (option status)) : poll_result :=
  match a with
  | None => ClientError
  | Some (Some (Completed s)) => Streams (default "" (sc_prefix s)) (sc_total s)
  | Some (Some (Failed s c)) => Raises s c
  | Some _ => NotYet
  end.
(** stream_completed_submission_chunks, 510-540: the result after [n] polls, [polls i] being the
    answer to the [i]th. *)
Fixpoint wait_for (polls : nat -> option (option status)) (n : nat) : option poll_result :=
  match n with
  | O => None
  | S n =>
    match wait_for polls n with
    | Some r => Some r
    | None => match maybe_stream (polls n) with NotYet => None | r => Some r end
    end
  end.
(** ... and the pause after the [k]th poll, in ms (521, 535-538; SUBMISSION_POLLING_INTERVAL). *)
Definition polling_interval : N := 5000.
Fixpoint pause (k : nat) : N :=
  match k with
  | O => 10
  | S k => if pause k <? polling_interval then N.min (pause k * 2) polling_interval else pause k
  end.

(** *** Consumers: src/consumer.rs, src/common.rs *)
(** Chunk::from_internal, common.rs:235-267: the content and the prefix, if the content came from
    the object store. [broken]: the object store cannot be read. *)
Inductive fetched_chunk : Set := Content (c : string) (prefix : option string) | RetrievalError | PrefixPanic.
Definition from_internal (base : string) (r : chunk) (s : submission) (broken : bool) (o : objects) : fetched_chunk :=
  match c_input r with
  | Some c => Content c None
  | None =>
    match s_prefix s with
    | None => PrefixPanic
    | Some p => if broken then RetrievalError else match retrieve_chunk base p (c_index r) Input o with Some c => Content c (Some p) | None => RetrievalError end
    end
  end.
(** reserve_and_retrieve_chunks, consumer.rs:338-352, for the chunks that the server gave: all of
    them, or [None] with the first error. [broken i]: the store cannot be read for the [i]th. *)
Fixpoint retrieve_batch (base : string) (l : list (chunk * submission)) (broken : nat -> bool) (o : objects) : option (list (chunk * string * option string)) :=
  match l with
  | [] => Some []
  | (r, s) :: l =>
    match from_internal base r s (broken O) o with
    | Content c p => cons (r, c, p) <$> retrieve_batch base l (fun i => broken (S i)) o
    | _ => None
    end
  end.

(** *** Strategies: src/common.rs:106-206 *)
Inductive py_strategy : Set := PyOldest | PyNewest | PyRandom | PyPreferDistinct (meta_key : string) (underlying : py_strategy).
(** From<strategy::Strategy> for Strategy, 141-161. *)
Fixpoint to_py (s : strategy) : py_strategy :=
  match s with
  | Oldest => PyOldest | Newest => PyNewest | Random => PyRandom
  | PreferDistinct k u => PyPreferDistinct k (to_py u)
  end.
(** From<&Strategy> for strategy::Strategy, 182-200. *)
Fixpoint of_py_ref (s : py_strategy) : strategy :=
  match s with
  | PyOldest => Oldest | PyNewest => Newest | PyRandom => Random
  | PyPreferDistinct k u => PreferDistinct k (of_py_ref u)
  end.
(** From<Strategy> for strategy::Strategy, 162-180: the outermost layer by value, the rest by reference. *)
Definition of_py (s : py_strategy) : strategy :=
  match s with
  | PyOldest => Oldest | PyNewest => Newest | PyRandom => Random
  | PyPreferDistinct k u => PreferDistinct k (of_py_ref u)
  end.
(** PartialEq for Strategy, 202-206. *)
Global Instance strategy_dec : EqDecision strategy.
Proof. solve_decision. Defined.
Definition py_eq (a b : py_strategy) : bool := bool_decide (of_py_ref a = of_py_ref b).
