(** The whole system: the server, an object store, producers and consumers that use the Python
    library. Every consumer runs the same callback [work] on the content of a chunk.

    Producers upload the chunks of a submission one by one under a new prefix and then insert the
    submission (insert_submission_chunks, libs/opsqueue_python/src/producer.rs:290-347), possibly
    more than once when an answer gets lost. Inserts with inline contents, cancellations, cleanups
    and all else that the server does happen at any time. *)
From Verif Require Export PyLib.
Local Open Scope N_scope.

(** A producer's prefix: chunks are being uploaded; an upload or the producer's iterator failed and
    the call ended with an error; the submission has been sent to the server. *)
Inductive upload_state : Set := Uploading (l : list string) | Abandoned | Submitted (l : list string).
(** A batch of chunks whose contents a consumer is fetching (consumer.rs:338-352): still to fetch,
    and fetched. *)
Record batch : Set := Batch { b_todo : list (chunk * submission); b_got : list (chunk * string * option string) }.
(** A chunk that the callback is to run on, or whose result is to be reported
    (compute_chunk_outcome, consumer.rs:355-466). *)
Inductive job : Set := ToRun (r : chunk) (c : string) (prefix : option string) | ToReport (r : chunk) (rep : report).
Record world : Set := World {
  w_server : state; w_objects : gmap string string; w_uploads : gmap string upload_state;
  w_batches : list batch; w_jobs : list job }.
Definition world_start (now : N) : world := World (server_start [] now) ∅ ∅ [] [].

Inductive wlabel : Set :=
| WServer (l : label)                          (* the server acts, or a request or connection reaches it *)
| WBegin (p : string)                          (* a producer picks a prefix: a new UUID *)
| WUpload (p c : string) (u : upload)          (* ... and uploads the next chunk *)
| WGiveUp (p : string)                         (* the producer's iterator fails *)
| WFetch (b : nat) (broken : bool)             (* a consumer fetches the next content of a batch *)
| WDeliver (b : nat)                           (* the batch is complete: reserve_chunks returns it *)
| WRun (j : nat) (u : upload)                  (* the callback runs and its result is uploaded *)
| WReport (j : nat) (c : N)                    (* the result is reported on some connection *)
| WFail (c : N) (k : chunk_id) (f : string).   (* a consumer reports a failure on its own *)

(** The prefix and the number of chunks that an event inserts, if its contents are in the object store. *)
Definition insert_prefix (e : event) : option (string * list content) :=
  match e_op e with OInsert _ (Some p) l _ _ _ _ _ => Some (p, l) | _ => None end.
(** Which event a label of the server writes. *)
Definition event_of (l : label) : option event :=
  match l with LProducer e => Some e | LCrash (Some e) => Some e | _ => None end.
(** An insert that refers to the object store is sent by a producer that has uploaded its chunks
    and says how many they are (producer.rs:320-334). *)
Definition submit (e : option event) (us : gmap string upload_state) : option (gmap string upload_state) :=
  match e ≫= insert_prefix with
  | None => Some us
  | Some (p, l) =>
    match us !! p with
    | Some (Uploading cs) => if bool_decide (l = replicate (length cs) None) then Some (<[p := Submitted cs]> us) else None
    | Some (Submitted cs) => if bool_decide (l = replicate (length cs) None) then Some us else None
    | _ => None
    end
  end.
(** The chunks that the server hands out in a step. *)
Definition handed_out (o : list out) : list batch := omap (fun x => match x with Given _ _ l => Some (Batch l []) | _ => None end) o.

(** One step; [None]: it cannot be taken. *)
Definition wnext (cfg : config) (base : string) (work : string -> option string) (l : wlabel) (w : world) : option world :=
  match l with
  | WServer l =>
    match l with
    | LReport _ _ _ => None
    | _ =>
      match next cfg l (w_server w), submit (event_of l) (w_uploads w) with
      | Some (s, o), Some us => Some (World s (w_objects w) us (w_batches w ++ handed_out o) (w_jobs w))
      | _, _ => None
      end
    end
  | WBegin p =>
    match w_uploads w !! p with
    | None => Some (World (w_server w) (w_objects w) (<[p := Uploading []]> (w_uploads w)) (w_batches w) (w_jobs w))
    | Some _ => None
    end
  | WUpload p c u =>
    match w_uploads w !! p with
    | Some (Uploading cs) =>
      let '(ok, o) := store_chunk base p (N.of_nat (length cs)) Input c u (w_objects w) in
      Some (World (w_server w) o (<[p := if ok : bool then Uploading (cs ++ [c]) else Abandoned]> (w_uploads w)) (w_batches w) (w_jobs w))
    | _ => None
    end
  | WGiveUp p =>
    match w_uploads w !! p with
    | Some (Uploading cs) => Some (World (w_server w) (w_objects w) (<[p := Abandoned]> (w_uploads w)) (w_batches w) (w_jobs w))
    | _ => None
    end
  (* an error or a panic ends the call; the whole batch is forgotten *)
  | WFetch b broken =>
    match w_batches w !! b with
    | Some (Batch ((r, s) :: todo) got) =>
      let bs :=
        match from_internal base r s broken (w_objects w) with
        | Content c p => <[b := Batch todo (got ++ [(r, c, p)])]> (w_batches w)
        | _ => delete b (w_batches w)
        end in
      Some (World (w_server w) (w_objects w) (w_uploads w) bs (w_jobs w))
    | _ => None
    end
  | WDeliver b =>
    match w_batches w !! b with
    | Some (Batch [] got) =>
      Some (World (w_server w) (w_objects w) (w_uploads w) (delete b (w_batches w)) (w_jobs w ++ ((fun g => ToRun g.1.1 g.1.2 g.2) <$> got)))
    | _ => None
    end
  (* consumer.rs:388-435; complete_chunk_gilless, 275-314: the output goes to the object store if
     the input came from there, else into the report. An upload that fails ends the job. *)
  | WRun j u =>
    match w_jobs w !! j with
    | Some (ToRun r c p) =>
      match work c with
      | None => Some (World (w_server w) (w_objects w) (w_uploads w) (w_batches w) (<[j := ToReport r (Fail "exception")]> (w_jobs w)))
      | Some out =>
        match p with
        | None => Some (World (w_server w) (w_objects w) (w_uploads w) (w_batches w) (<[j := ToReport r (Complete (Some out))]> (w_jobs w)))
        | Some p =>
          let '(ok, o) := store_chunk base p (c_index r) Output out u (w_objects w) in
          Some (World (w_server w) o (w_uploads w) (w_batches w) (if ok : bool then <[j := ToReport r (Complete None)]> (w_jobs w) else delete j (w_jobs w)))
        end
      end
    | _ => None
    end
  (* The job stays: a report may get lost with its connection, or be sent again. *)
  | WReport j c =>
    match w_jobs w !! j with
    | Some (ToReport r rep) =>
      match next cfg (LReport c (cid_of r) rep) (w_server w) with
      | Some (s, _) => Some (World s (w_objects w) (w_uploads w) (w_batches w) (w_jobs w))
      | None => None
      end
    | _ => None
    end
  | WFail c k f =>
    match next cfg (LReport c k (Fail f)) (w_server w) with
    | Some (s, _) => Some (World s (w_objects w) (w_uploads w) (w_batches w) (w_jobs w))
    | None => None
    end
  end.
(** Prefixes are UUIDs: not empty and without a slash. *)
Definition wallowed (cfg : config) (l : wlabel) (w : world) : Prop :=
  match l with
  | WServer l => allowed cfg l (w_server w)
  | WBegin p => p <> "" /\ forall a b, p <> a +:+ "/" +:+ b
  | _ => True
  end.
(** Runs and the steps taken. *)
Inductive wrun (cfg : config) (base : string) (work : string -> option string) (w : world) : list wlabel -> world -> Prop :=
| wrun_nil : wrun cfg base work w [] w
| wrun_snoc tr w1 l w2 : wrun cfg base work w tr w1 -> wallowed cfg l w1 -> wnext cfg base work l w1 = Some w2 -> wrun cfg base work w (tr ++ [l]) w2.
(** The chunks that were uploaded under a prefix, in order. *)
Definition uploaded (p : string) (tr : list wlabel) : list string :=
  omap (fun l => match l with WUpload p' c Uploaded => if bool_decide (p' = p) then Some c else None | _ => None end) tr.
(** What a producer gets that streams the outputs of a completed submission (PyChunksIter, producer.rs:583-596):
    [at_ i] is the world when the chunk of index [i] is read. *)
Definition stream_outputs (base : string) (s : submission_completed) (at_ : N -> world) : list (option string) :=
  retrieve_chunks base (default "" (sc_prefix s)) (sc_total s) Output (fun i => w_objects (at_ i)).
