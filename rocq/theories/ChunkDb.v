(** opsqueue/src/common/chunk.rs, module db: every function, statement by statement.

    Simplifications common to this file and SubmissionDb.v: metrics and tracing are dropped;
    each [Utc::now()] is a parameter; SAVEPOINT/RELEASE inside a multi-statement query string
    (chunk.rs:461,469,611,619; submission.rs:943,951) are not repeated, because these functions
    only run inside a transaction whose COMMIT/ROLLBACK subsumes them. *)
From Verif Require Export Sqlite.
Local Open Scope N_scope.

(** The rows "SELECT ... FROM chunks WHERE submission_id = .. AND chunk_index = .." as a table. *)
Definition one_row {K : Type} `{Countable K} {A B} (k : K) (f : A -> B) (m : gmap K A) : gmap K B :=
  match m !! k with Some a => {[ k := f a ]} | None => ∅ end.

(** chunk.rs:293-304 insert_chunk. *)
Definition insert_chunk (c : chunk) : M unit :=
  sql (on t_chunk set_chunk (ins (c_sub c, c_index c) (ChunkRow (c_input c) 0))).

(** chunk.rs:346-389 complete_chunk_raw: INSERT INTO chunks_completed SELECT (355-357);
    DELETE FROM chunks RETURNING, fetch_one (359-370); UPDATE submissions SET chunks_done =
    chunks_done + 1 RETURNING chunk_size, fetch_one (382-388). *)
Definition complete_chunk_raw (cid : chunk_id) (out : content) (now : time) : M (option Z) :=
  sql (fun d => match ins_rows (one_row cid (fun _ => ChunkCompRow out now) (t_chunk d)) (t_cdone d) with
                | SOk m => SOk (tt, set_cdone (fun _ => m) d) | SErr e => SErr e end) ;;?
  sql (fun d => match del_one cid (t_chunk d) with
                | SOk (_, m) => SOk (tt, set_chunk (fun _ => m) d) | SErr e => SErr e end) ;;?
  sql (fun d => match t_sub d !! cid.1 with
                | Some s => SOk (sr_size s,
                    set_sub (fun m => <[cid.1 := SubRow (sr_prefix s) (sr_total s) (sr_done s + 1)
                                        (sr_meta s) (sr_otel s) (sr_size s)]> m) d)
                | None => SErr RowNotFound end).

(** chunk.rs:450-482 move_chunk_to_failed_chunks ([skipped] takes its column default, false). *)
Definition move_chunk_to_failed_chunks (cid : chunk_id) (failure : string) (now : time) : M unit :=
  sql (fun d => match ins_rows (one_row cid (fun c => ChunkFailRow (ch_input c) failure now false) (t_chunk d)) (t_cfail d) with
                | SOk m => SOk (tt, set_cfail (fun _ => m) d) | SErr e => SErr e end) ;;?
  sql (fun d => match del_one cid (t_chunk d) with
                | SOk (_, m) => SOk (tt, set_chunk (fun _ => m) d) | SErr e => SErr e end).

(** chunk.rs:490-509 get_chunk. *)
Definition get_chunk (cid : chunk_id) : M chunk :=
  sql (fun d => match t_chunk d !! cid with
                | Some c => SOk (Chunk cid.1 cid.2 (ch_input c) (ch_retries c), d)
                | None => SErr RowNotFound end).
(** chunk.rs:517-536 get_chunk_completed. *)
Definition get_chunk_completed (cid : chunk_id) : M chunk_completed :=
  sql (fun d => match t_cdone d !! cid with
                | Some c => SOk (ChunkCompleted cid.1 cid.2 (cc_output c) (cc_at c), d)
                | None => SErr RowNotFound end).
(** chunk.rs:544-564 get_chunk_failed. *)
Definition get_chunk_failed (cid : chunk_id) : M chunk_failed :=
  sql (fun d => match t_cfail d !! cid with
                | Some c => SOk (ChunkFailed cid.1 cid.2 (cf_input c) (cf_failure c) (cf_at c), d)
                | None => SErr RowNotFound end).

(** chunk.rs:576 ROWS_PER_QUERY. *)
Definition rows_per_query : nat := 1000.

(** chunk.rs:572-596 insert_many_chunks: take 1000 chunks at a time until the iterator is
    exhausted, one INSERT per batch. [fuel] bounds the while loop; one unit per iteration, and
    each iteration consumes at least one chunk, so [length chunks] units always suffice
    (proved in ChunkProofs: the out-of-fuel branch is unreachable). *)
Definition chunk_rows (l : list chunk) : list (chunk_id * chunk_row) :=
  (fun c => ((c_sub c, c_index c), ChunkRow (c_input c) 0)) <$> l.
Fixpoint insert_many_loop (fuel : nat) (l : list chunk) : M unit :=
  match l with
  | [] => ret tt
  | _ :: _ =>
      match fuel with
      | O => Ret Panicked
      | S fuel' =>
          sql (on t_chunk set_chunk (ins_many (chunk_rows (take rows_per_query l)))) ;;?
          insert_many_loop fuel' (drop rows_per_query l)
      end
  end.
Definition insert_many_chunks (l : list chunk) : M unit := insert_many_loop (length l) l.

(** chunk.rs:604-628 skip_remaining_chunks. *)
Definition of_submission {A} (id : sub_id) (m : gmap chunk_id A) : gmap chunk_id A :=
  filter (fun p => p.1.1 = id) m.
Definition not_of_submission {A} (id : sub_id) (m : gmap chunk_id A) : gmap chunk_id A :=
  filter (fun p => p.1.1 <> id) m.
Definition skip_remaining_chunks (id : sub_id) (now : time) : M unit :=
  sql (fun d => match ins_rows ((fun c => ChunkFailRow (ch_input c) "" now true) <$> of_submission id (t_chunk d)) (t_cfail d) with
                | SOk m => SOk (tt, set_cfail (fun _ => m) d) | SErr e => SErr e end) ;;?
  sql (fun d => SOk (tt, set_chunk (not_of_submission id) d)).

(** chunk.rs:636-670 count_chunks, count_chunks_completed, count_chunks_failed. *)
Definition count_chunks : M N := read (fun d => N.of_nat (size (t_chunk d))).
Definition count_chunks_completed : M N := read (fun d => N.of_nat (size (t_cdone d))).
Definition count_chunks_failed : M N := read (fun d => N.of_nat (size (t_cfail d))).
(** chunk.rs:681-683 count_ops_in_backlog_estimate: sum over chunks joined with submissions of
    chunk_size (NULL sizes do not contribute). The code sums doubles; the model sums integers. *)
Definition count_ops_in_backlog_estimate : M Z :=
  read (fun d => map_fold (fun (cid : chunk_id) _ acc =>
    match t_sub d !! cid.1 with
    | Some s => (default 0%Z (sr_size s) + acc)%Z
    | None => acc end) 0%Z (t_chunk d)).
