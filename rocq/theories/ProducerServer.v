(** opsqueue/src/producer/server.rs: the HTTP handlers of the producer API, on top of the database
    operations. Not modelled: routing, JSON, the WAL checkpoint (199-203, no effect on the data)
    and the wake-up of waiting consumers (206, see Server.v). *)
From Verif Require Export History.
Local Open Scope N_scope.

(** The answers; a 200 carries one of several bodies. *)
Inductive body : Set :=
| BNone | BId (id : sub_id) | BMaybeId (id : option sub_id) | BIds (ids : list sub_id)
| BStatus (st : option status) | BCount (n : N).
Inductive response : Set :=
| Http200 (b : body)
| Http400 (max : N)            (* TooManyMatchingSubmissions *)
| Http404 (id : sub_id)        (* SubmissionNotFound *)
| Http409 (st : status)        (* SubmissionNotCancellable *)
| Http500 (e : op_error)
| HttpPanic.                   (* the handler panicked: CatchPanicLayer and handle_panic (server.rs:152-154, 168-193) answer 500 *)

Definition code (r : response) : option N :=
  match r with
  | Http200 _ => Some 200 | Http400 _ => Some 400 | Http404 _ => Some 404 | Http409 _ => Some 409
  | Http500 _ | HttpPanic => Some 500
  end.

(** server.rs:188-195: the request body of an insert. *)
Inductive chunk_contents : Set := Direct (contents : list content) | SeeObjectStorage (prefix : string) (count : N).
Definition contents_of (c : chunk_contents) : option string * list content :=
  match c with
  | Direct l => (None, l)
  | SeeObjectStorage p n => (Some p, replicate (N.to_nat n) None)
  end.

Inductive request : Set :=
| PInsert (c : chunk_contents) (meta : option string) (strat : strat_map) (size : option Z)
| PCancel (id : sub_id) | PStatus (id : sub_id) | PByPrefix (p : string) | PByMeta (m : strat_map)
| PCount | PCountCompleted.

(** 88-116 IntoResponse for ServerError and From<E>: every error of the three query handlers and of
    insert is a 500. *)
Definition or_500 {A} (f : A -> body) (r : res A) : response :=
  match r with Ok a => Http200 (f a) | Err e => Http500 e | Panicked => HttpPanic end.

(** 120-139 cancel_submission. *)
Definition cancel_response (r : res unit) : response :=
  match r with
  | Ok _ => Http200 BNone
  | Err (EDb e) => Http500 (EDb e)
  | Err (ESubmissionNotFound id) => Http404 id
  | Err (ENotCancellable st) => Http409 st
  | Panicked => HttpPanic
  end.
(** 161-181 lookup_submission_ids_by_strategic_metadata. *)
Definition by_meta_response (r : res (list sub_id + N)) : response :=
  match r with
  | Ok (inl ids) => Http200 (BIds ids)
  | Ok (inr max) => Http400 max
  | Err e => Http500 e
  | Panicked => HttpPanic
  end.

(** The handlers. [id], [otel] and the times are what SubmissionId::new(), the tracing context and
    the clock return; ChunkSize::default() is 1 (common/chunk.rs:43-47; server.rs:202). Acquiring
    the connection from the pool (125-129 and so on) is taken to succeed; its failure is a 500
    without effect. *)
Definition handle (max : N) (id : sub_id) (otel : string) (n1 n2 : time) (q : request) : prog response :=
  match q with
  | PInsert c m s z =>
      let '(p, l) := contents_of c in
      bind (insert_submission_from_chunks id p l m s (default 1%Z z) otel n1) (fun r => Ret (or_500 BId r))
  | PCancel i => bind (cancel_submission i n1 n2) (fun r => Ret (cancel_response r))
  | PStatus i => bind (submission_status i) (fun r => Ret (or_500 BStatus r))
  | PByPrefix p => bind (lookup_id_by_prefix p) (fun r => Ret (or_500 BMaybeId r))
  | PByMeta m => bind (lookup_ids_by_strategic_metadata m max) (fun r => Ret (by_meta_response r))
  | PCount => bind count_submissions (fun r => Ret (or_500 BCount r))
  | PCountCompleted => bind count_submissions_completed (fun r => Ret (or_500 BCount r))
  end.
