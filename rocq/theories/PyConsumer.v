(** The Python consumer (libs/opsqueue_python/src/consumer.rs and python/opsqueue/consumer.py): what
    a reserve call makes of its arguments, when it notices a signal, and which of the chunks that
    the server reserved for it the consumer hands on, reports on, gives back or keeps. *)
From Verif Require Export Spec PyApi RunLoop.
Local Open Scope N_scope.

(** *** Arguments of reserve_chunks *)
(** A Python value, as far as the extraction of arguments can tell: an int; an object of the class
    Strategy; one of the classes Strategy.Oldest, Strategy.Newest, Strategy.Random and
    Strategy.PreferDistinct themselves, whose objects are made by calling them (pyo3(constructor),
    src/common.rs:106-119); anything else. *)
Inductive py_value : Set :=
| PyInt (z : Z) | PyStrategyObject (s : py_strategy) | PyStrategyClass (name : string) | PyOtherValue.
(** Exceptions of pyo3 itself, or of the Opsqueue client ([Refused], see below). *)
Inductive extraction_error : Set := ExtractTypeError | ExtractOverflowError.
(** pyo3: FromPyObject for usize on a 64-bit machine. *)
Definition extract_usize (v : py_value) : extraction_error + N :=
  match v with
  | PyInt z => if ((z <? 0) || (2^64 <=? z))%Z then inl ExtractOverflowError else inr (Z.to_N z)
  | _ => inl ExtractTypeError
  end.
(** pyo3: &Strategy, an object of the class. *)
Definition extract_strategy (v : py_value) : extraction_error + py_strategy :=
  match v with PyStrategyObject s => inr s | _ => inl ExtractTypeError end.
(** def reserve_chunks(self, max: int = 1, strategy: Strategy = Strategy.Newest), consumer.py:124-126,
    and the extraction at src/consumer.rs:100-106: the limit and strategy that are asked for.
    [None]: the argument is left out. *)
Definition reserve_arguments (max strategy : option py_value) : extraction_error + (N * Strategy.strategy) :=
  match extract_usize (default (PyInt 1) max) with
  | inl e => inl e
  | inr m =>
    match extract_strategy (default (PyStrategyClass "Newest") strategy) with
    | inl e => inl e
    | inr s => inr (m, of_py_ref s)
    end
  end.

(** *** When a waiting reserve call notices a signal *)
(** How one attempt to reserve and retrieve chunks ends (reserve_and_retrieve_chunks,
    consumer.rs:338-352): with an error, or with that many chunks. *)
Inductive try_result : Set := TryError | TryChunks (n : N).
(** The time between attempts, POLL_INTERVAL: consumer.rs:258. *)
Definition poll_interval : N := 500.
Inductive reserve_end : Set := EndChunks (n : N) | EndError | EndInterrupt.
(** reserve_chunks_gilless, consumer.rs:247-273. [attempt i]: how long the [i]th attempt would take and
    how it would end, if ever. [signal]: when a signal comes whose handler raises. Every attempt and
    every pause is a call of run_unless_interrupted of its own (226-244), with its own checks for
    signals. [waits now i t r]: a call that begins its [i]th attempt at [now] ends at [t] with [r]. *)
Inductive waits (attempt : nat -> option (N * try_result)) (signal : option N) (fair : N -> bool) : N -> nat -> N -> reserve_end -> Prop :=
| waits_interrupted now i dt :
    run_unless_interrupted (attempt i) ((fun s => s - now) <$> signal) fair dt InterruptRaised ->
    waits attempt signal fair now i (now + dt) EndInterrupt
| waits_error now i dt :
    run_unless_interrupted (attempt i) ((fun s => s - now) <$> signal) fair dt (CallEnded TryError) ->
    waits attempt signal fair now i (now + dt) EndError
| waits_chunks now i dt n :
    run_unless_interrupted (attempt i) ((fun s => s - now) <$> signal) fair dt (CallEnded (TryChunks n)) -> n <> 0 ->
    waits attempt signal fair now i (now + dt) (EndChunks n)
| waits_pause_interrupted now i dt dp :
    run_unless_interrupted (attempt i) ((fun s => s - now) <$> signal) fair dt (CallEnded (TryChunks 0)) ->
    run_unless_interrupted (Some (poll_interval, tt)) ((fun s => s - (now + dt)) <$> signal) fair dp InterruptRaised ->
    waits attempt signal fair now i (now + dt + dp) EndInterrupt
| waits_again now i dt dp t r :
    run_unless_interrupted (attempt i) ((fun s => s - now) <$> signal) fair dt (CallEnded (TryChunks 0)) ->
    run_unless_interrupted (Some (poll_interval, tt)) ((fun s => s - (now + dt)) <$> signal) fair dp (CallEnded tt) ->
    waits attempt signal fair (now + dt + dp) (S i) t r ->
    waits attempt signal fair now i t r.

(** *** What becomes of the chunks *)
(** How getting the content of a chunk ends (Chunk::from_internal, src/common.rs:235-267): with the
    content; with an error of the object store; or the call is interrupted before it ends. *)
Inductive fetch_end : Set := Fetched (content : string) | FetchFails | FetchCut.
(** How one attempt goes. *)
Inductive attempt_t : Set :=
| NoAnswer                                         (* the connection fails before the server has reserved anything *)
| LostAnswer (l : list chunk_id)                   (* the server reserves [l], but the connection fails before the answer comes *)
| UsageError                                       (* the server answers that the limit is zero *)
| CutWaiting (l : list chunk_id)                   (* an interrupt while waiting for the answer; later the answer comes, with [l] *)
| CutAnswered (l : list chunk_id)                  (* an interrupt when the answer is in the channel of the call, but not yet taken out *)
| CutPausing                                       (* an interrupt during the pause before this attempt *)
| AnswerOf (l : list (chunk_id * fetch_end)).        (* the answer comes, and its contents are fetched *)
Inductive consumer_event : Set :=
| Gives (c : chunk_id)                             (* the server reserves the chunk for this consumer *)
| GivesBack (c : chunk_id)                         (* FailChunk "Requester disappeared" reaches the server *)
| TimesOut (c : chunk_id)                          (* the reservation expires *)
| Disconnects                                      (* the connection is closed; the server releases what was reserved on it *)
| Works (c : chunk_id) (r : fun_result)            (* the user's function is called for the chunk, and gives this *)
| CompletesChunk (c : chunk_id) (output : string)  (* CompleteChunk reaches the server; [output] is in the message or the object store *)
| FailsChunk (c : chunk_id) (failure : string)     (* FailChunk reaches the server *)
| LoopStops.                                       (* run_per_chunk raises *)
Inductive reserve_result : Set :=
| StillWaiting
| Returned (l : list (chunk_id * string))
| RaisedError
| RaisedInterrupt.
(** stream::iter(chunks).then(..).try_collect(), consumer.rs:347-351: one after the other, up to the
    first that fails. *)
Fixpoint collect (l : list (chunk_id * fetch_end)) : reserve_result :=
  match l with
  | [] => Returned []
  | (c, Fetched s) :: l => match collect l with Returned r => Returned ((c, s) :: r) | r => r end
  | (_, FetchFails) :: _ => RaisedError
  | (_, FetchCut) :: _ => RaisedInterrupt
  end.
(** reserve_chunks_gilless and reserve_and_retrieve_chunks, 247-273, 338-352, with the client they use:
    any error of the client empties its slot, which closes the connection (client.rs:91-93, 253); an
    answer nobody waits for any more is given back by the background task (client.rs:378-401), but
    one that has been put into the channel is not. The attempts as far as they have come. *)
Fixpoint reserve_call (l : list attempt_t) : list consumer_event * reserve_result :=
  match l with
  | [] => ([], StillWaiting)
  | NoAnswer :: _ | UsageError :: _ => ([Disconnects], RaisedError)
  | LostAnswer cs :: _ => ((Gives <$> cs) ++ [Disconnects], RaisedError)
  | CutWaiting cs :: _ => ((Gives <$> cs) ++ (GivesBack <$> cs), RaisedInterrupt)
  | CutAnswered cs :: _ => (Gives <$> cs, RaisedInterrupt)
  | CutPausing :: _ => ([], RaisedInterrupt)
  | AnswerOf [] :: l => reserve_call l
  | AnswerOf cs :: _ => (Gives <$> cs.*1, collect cs)
  end.
(** How reporting on a chunk goes, complete_chunk_gilless and fail_chunk_gilless, 275-336. With a
    prefix the output is first stored in the object store; a failure needs no object store. *)
Inductive told : Set :=
| Told
| NotSent                  (* the message cannot be sent *)
| UploadFails              (* the object store fails *)
| CutUnsent | CutSent.     (* an interrupt, before or after the message was sent *)
Definition report_of (r : fun_result) (c : chunk_id) : consumer_event :=
  match r with Output s => CompletesChunk c s | Raises _ text => FailsChunk c text end.
Definition tell (r : fun_result) (c : chunk_id) (t : told) : list consumer_event * sent :=
  match t with
  | Told => ([report_of r c], Sent)
  | NotSent => ([Disconnects], RustError)
  | UploadFails => match r with Output _ => ([], RustError) | Raises _ _ => ([report_of r c], Sent) end
  | CutUnsent => ([], Interrupted)
  | CutSent => ([report_of r c], Interrupted)
  end.
(** The chunks of one round of run_per_chunk: compute_chunk_outcome, consumer.rs:378-465. [works]: what
    the function gives and how the report goes, as far as it has come. The result tells whether the
    loop goes on: [Some true], ends: [Some false], or is not yet done with the chunks: [None]. *)
Fixpoint work_on (l : list (chunk_id * string)) (works : list (fun_result * told)) : list consumer_event * option bool :=
  match l, works with
  | [], _ => ([], Some true)
  | _ :: _, [] => ([], None)
  | (c, _) :: l, (r, t) :: works =>
    let '(es, s) := tell r c t in
    let first := Works c r :: es in
    match s with
    | RustError => (first, Some true)
    | Interrupted => (first, Some false)
    | Sent =>
      match r with
      | Raises SystemError _ | Raises BaseOnly _ => (first, Some false)
      | _ => let '(es', o) := work_on l works in (first ++ es', o)
      end
    end
  end.
Inductive round_t : Set :=
| Round (attempts : list attempt_t) (works : list (fun_result * told))
| TimePasses (c : chunk_id).     (* between rounds the reservation of a chunk expires *)
(** run_per_chunk, consumer.rs:170-220. *)
Fixpoint consume (l : list round_t) : list consumer_event :=
  match l with
  | [] => []
  | TimePasses c :: l => TimesOut c :: consume l
  | Round attempts works :: l =>
    let '(es, r) := reserve_call attempts in
    match r with
    | StillWaiting => es
    | RaisedInterrupt => es ++ [LoopStops]
    | RaisedError => es ++ consume l
    | Returned cs =>
      let '(es', o) := work_on cs works in
      es ++ es' ++ match o with Some true => consume l | Some false => [LoopStops] | None => [] end
    end
  end.

(** *** Specification *)
(** The chunks that the server keeps for the consumer, and for nobody else, after these events. *)
Definition keep (h : list chunk_id) (e : consumer_event) : list chunk_id :=
  match e with
  | Gives c => h ++ [c]
  | GivesBack c | TimesOut c | CompletesChunk c _ | FailsChunk c _ => base.filter (.≠ c) h
  | Disconnects => []
  | Works _ _ | LoopStops => h
  end.
Definition reserved_after (es : list consumer_event) : list chunk_id := foldl keep [] es.
(** No chunk is reserved that is already kept for this consumer: C34. *)
Definition fair_server (es : list consumer_event) : Prop :=
  forall es1 c es2, es = es1 ++ Gives c :: es2 -> c ∉ reserved_after es1.
(** run_per_chunk asks for one chunk (consumer.rs:371), and the server gives no more than is asked
    for: C27. *)
Definition one_each (r : round_t) : Prop :=
  match r with
  | TimePasses _ => True
  | Round attempts _ =>
    Forall (fun a => match a with
      | LostAnswer cs | CutWaiting cs | CutAnswered cs => (length cs <= 1)%nat
      | AnswerOf cs => (length cs <= 1)%nat
      | _ => True end) attempts
  end.
(** The object store gives every content asked for and takes every output. *)
Definition store_works (r : round_t) : Prop :=
  match r with
  | TimePasses _ => True
  | Round attempts works =>
    Forall (fun a => match a with AnswerOf cs => Forall (fun x => x.2 <> FetchFails) cs | _ => True end) attempts /\
    Forall (fun w => match w with (Output _, UploadFails) => False | _ => True end) works
  end.
(** What a FailChunk "Requester disappeared" (client.rs:392-395) is to the server: a failed attempt,
    handled like any other (consumer/server/state.rs, fail_chunk). [mx]: the number of attempts
    that the server is configured with. *)
Definition given_back (mx : N) (now : time) (es : list consumer_event) : history :=
  omap (fun e => match e with GivesBack c => Some (quiet (OFail c "Requester disappeared" mx now now now)) | _ => None end) es.
(** The rounds as RunLoop.v sees them (C70 to C72): how reserving ended, and for each chunk the
    result of the function and how the report was sent. [finished]: nothing of it is outstanding. *)
Definition loop_round (r : round_t) : option round :=
  match r with
  | TimePasses _ => None
  | Round attempts works =>
    match (reserve_call attempts).2 with
    | StillWaiting => None
    | RaisedError => Some ReserveFails
    | RaisedInterrupt => Some ReserveInterrupted
    | Returned cs => Some (Reserved (zip_with (fun c w => (c.1, w.1, (tell w.1 c.1 w.2).2)) cs works))
    end
  end.
Definition finished (r : round_t) : Prop :=
  match r with
  | TimePasses _ => True
  | Round attempts works =>
    match (reserve_call attempts).2 with StillWaiting => False | Returned cs => (length cs <= length works)%nat | _ => True end
  end.
(** The calls of the function and the end of the loop. *)
Definition seen_event (e : consumer_event) : option (option (chunk_id * fun_result)) :=
  match e with Works c r => Some (Some (c, r)) | LoopStops => Some None | _ => None end.
Definition seen_loop_event (e : loop_event) : option (option (chunk_id * fun_result)) :=
  match e with Calls c r => Some (Some (c, r)) | LoopEnds => Some None | _ => None end.
