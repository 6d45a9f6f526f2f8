(** The loop of a Python consumer, ConsumerClient.run_per_chunk (libs/opsqueue_python/src/consumer.rs). *)
From Verif Require Export Types.
Local Open Scope N_scope.

(** What the user's function gives for a chunk: bytes, or an exception, with its formatted text. A
    result that is not bytes is a TypeError (consumer.rs:388-391). [BaseOnly]: a BaseException that
    is no Exception, like KeyboardInterrupt and SystemExit. *)
Inductive exception : Set := Ordinary | SystemError | BaseOnly.
Inductive fun_result : Set := Output (content : string) | Raises (x : exception) (text : string).
(** How sending a message or waiting for chunks may end: done; an error of Rust, like a lost
    connection or an unreadable object store; a Python exception from a signal
    (run_unless_interrupted, common.rs), which is fatal. *)
Inductive sent : Set := Sent | RustError | Interrupted.
(** What the world does in one round of the loop: reserving fails; or the server gives chunks, and
    for each of them the function gives a result and the report ends somehow. The polling every 500
    ms until there are chunks (consumer.rs:258-272) is part of the wait. *)
Inductive round : Set :=
| ReserveFails
| ReserveInterrupted
| Reserved (l : list (chunk_id * fun_result * sent)).
Inductive report : Set := Complete (output : string) | Fail (text : string).
Inductive loop_event : Set :=
| Calls (c : chunk_id) (r : fun_result)      (* the user's function is called, and gives this *)
| Reports (c : chunk_id) (r : report)        (* complete_chunk or fail_chunk is called *)
| LogsProgress (n : N)                       (* "Processed {} chunks" *)
| LoopEnds.                                  (* run_per_chunk raises the exception *)
(** usize on the 64-bit machines it is built for. *)
Definition usize_max : N := 2^64 - 1.
Definition saturating_add (a b : N) : N := N.min (a + b) usize_max.
(** How compute_chunk_outcome ends: Ok(count), CError(L) or CError(R). *)
Inductive outcome : Set := Done (count : N) | Fatal | Failed.
(** The loop over the chunks of compute_chunk_outcome, consumer.rs:378-465. *)
Fixpoint batch (done : N) (l : list (chunk_id * fun_result * sent)) : list loop_event * outcome :=
  match l with
  | [] => ([], Done done)
  | (c, r, s) :: l =>
    let next :=
      let done := saturating_add done 1 in
      let '(es, o) := batch done l in
      ((if done mod 50 =? 0 then [LogsProgress done] else []) ++ es, o) in
    match r with
    | Output content =>
      match s with
      | Sent => ([Calls c r; Reports c (Complete content)] ++ next.1, next.2)
      | RustError => ([Calls c r; Reports c (Complete content)], Failed)
      | Interrupted => ([Calls c r; Reports c (Complete content)], Fatal)
      end
    | Raises x text =>
      match s with
      | Sent =>
        match x with
        | Ordinary => ([Calls c r; Reports c (Fail text)] ++ next.1, next.2)
        | SystemError | BaseOnly => ([Calls c r; Reports c (Fail text)], Fatal)
        end
      | RustError => ([Calls c r; Reports c (Fail text)], Failed)
      | Interrupted => ([Calls c r; Reports c (Fail text)], Fatal)
      end
    end
  end.
(** compute_chunk_outcome, consumer.rs:355-466. *)
Definition compute_chunk_outcome (done : N) (r : round) : list loop_event * outcome :=
  match r with
  | ReserveFails => ([], Failed)
  | ReserveInterrupted => ([], Fatal)
  | Reserved l => batch done l
  end.
(** The loop of run_per_chunk, consumer.rs:192-219: what it does in the rounds, up to its end or,
    if it does not end, for as many rounds as are given. *)
Fixpoint run_loop (done : N) (rs : list round) : list loop_event :=
  match rs with
  | [] => []
  | r :: rs =>
    let '(es, o) := compute_chunk_outcome done r in
    match o with
    | Done d => es ++ run_loop (saturating_add done d) rs
    | Fatal => es ++ [LoopEnds]
    | Failed => es ++ run_loop done rs
    end
  end.
Definition run_per_chunk (rs : list round) : list loop_event := run_loop 0 rs.
