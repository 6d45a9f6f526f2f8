(** The iterators over the results of a completed submission (PyChunksIter, PyChunksAsyncIter), used by any number of
    threads or asyncio tasks. libs/opsqueue_python/src/producer.rs:573-668.

    Every call of __next__ or __anext__ starts a task that locks the stream of the results, takes its
    next element and ends; the caller waits for the task. An asyncio caller can be cancelled
    meanwhile (e.g. by asyncio.wait_for); a thread cannot. *)
From Verif Require Export ObjectStore.
Local Open Scope N_scope.

(** What a call gives: the element of index [i] ([None]: it could not be retrieved, an exception is raised),
    StopIteration or StopAsyncIteration, or a panic. *)
Inductive got : Set := Element (i : N) (c : option string) | Stop | Panic.
Inductive job : Set := Queued | Fetching | Finished (g : got).
(** [t_next], [t_ended]: the stream (object_store/mod.rs:309-327, stream::unfold). [t_jobs]: the tasks, by the number of their call. *)
Record stream : Set := Stream { t_next : N; t_ended : bool; t_lock : option N; t_jobs : gmap N job; t_callers : gset N }.
Definition stream_new : stream := Stream 0 false None ∅ ∅.

Inductive slabel : Set :=
| SCall (k : N)
| SLock (k : N)
| SFetch (k : N) (o : objects)    (* the task is through; [o]: the object store meanwhile *)
| SReturn (k : N)
| SCancel (k : N).

(** Element of the stream: object_store/mod.rs:309-327. A stream made by [unfold] panics when it is asked again after
    its end (futures-util); nothing catches it but the task's end (producer.rs:612-614, 657-659). *)
Definition stream_step (base prefix : string) (total : N) (o : objects) (next : N) (ended : bool) : got * N * bool :=
  if ended then (Panic, next, true)
  else if total <=? next then (Stop, next, true)
  else (Element next (retrieve_chunk base prefix next Output o), next + 1, false).

Definition snext (base prefix : string) (total : N) (l : slabel) (s : stream) : option (stream * list (N * got)) :=
  let '(Stream next ended lock jobs callers) := s in
  match l with
  (* producer.rs:602-617, 645-668: the task is started at once *)
  | SCall k =>
    match jobs !! k with None => Some (Stream next ended lock (<[k := Queued]> jobs) ({[k]} ∪ callers), []) | Some _ => None end
  (* stream.lock(): tasks get the lock in the order in which they ask, which is any order *)
  | SLock k =>
    match lock, jobs !! k with
    | None, Some Queued => Some (Stream next ended (Some k) (<[k := Fetching]> jobs) callers, [])
    | _, _ => None
    end
  | SFetch k o =>
    if bool_decide (lock = Some k) then
      let '(g, next', ended') := stream_step base prefix total o next ended in
      Some (Stream next' ended' None (<[k := Finished g]> jobs) callers, [])
    else None
  | SReturn k =>
    match jobs !! k with
    | Some (Finished g) => if bool_decide (k ∈ callers) then Some (Stream next ended lock jobs (callers ∖ {[k]}), [(k, g)]) else None
    | _ => None
    end
  (* the awaiting future is dropped; the task it has spawned is not *)
  | SCancel k => if bool_decide (k ∈ callers) then Some (Stream next ended lock jobs (callers ∖ {[k]}), []) else None
  end.
(** The last list: what the calls returned, in the order in which they did. *)
Inductive srun (base prefix : string) (total : N) (ok : stream -> slabel -> Prop) : list slabel -> list (N * got) -> stream -> Prop :=
| srun_nil : srun base prefix total ok [] [] stream_new
| srun_snoc tr out s l s' o : srun base prefix total ok tr out s -> ok s l -> snext base prefix total l s = Some (s', o) ->
    srun base prefix total ok (tr ++ [l]) (out ++ o) s'.

(** *** Vocabulary *)
Definition anything (s : stream) (l : slabel) : Prop := True.
(** Threads: no call is cancelled. *)
Definition not_cancelled (s : stream) (l : slabel) : Prop := match l with SCancel _ => False | _ => True end.
(** One call after the other. *)
Definition one_by_one (s : stream) (l : slabel) : Prop := match l with SCall _ => t_callers s = ∅ | _ => True end.
(** ... while the object store is [o]. *)
Definition plain_loop (o : objects) (s : stream) (l : slabel) : Prop :=
  one_by_one s l /\ not_cancelled s l /\ match l with SFetch _ o' => o' = o | _ => True end.
(** The indices of the results that were returned. *)
Definition indices (out : list (N * got)) : list N := omap (fun x => match x.2 with Element i _ => Some i | _ => None end) out.
Definition cancelled (tr : list slabel) : list N := omap (fun l => match l with SCancel k => Some k | _ => None end) tr.
