(** opsqueue/src/common/submission.rs, module db, and the two functions of chunk.rs that call
    into it (complete_chunk, retry_or_fail_chunk). *)
From Verif Require Export ChunkDb.
Local Open Scope N_scope.

(** ChunkSize decodes from a nullable column as 1 when NULL: common/chunk.rs:49-69. *)
Definition size_of (z : option Z) : Z := default 1%Z z.

(** "( SELECT json_group_object(metadata_key, metadata_value) FROM submissions_metadata
      WHERE submission_id = .. )": submission.rs:517-520 and the other status queries. *)
Definition strat_of (d : db) (id : sub_id) : strat_map := rows_of (t_meta d) id.

Definition submission_of (d : db) (id : sub_id) (r : sub_row) : submission :=
  Submission id (sr_prefix r) (sr_total r) (sr_done r) (size_of (sr_size r)) (sr_meta r)
    (strat_of d id) (sr_otel r).
Definition completed_of (d : db) (id : sub_id) (r : comp_row) : submission_completed :=
  SubmissionCompleted id (cr_prefix r) (cr_total r) (size_of (cr_size r)) (cr_meta r)
    (strat_of d id) (cr_at r) (cr_otel r).
Definition failed_of (d : db) (id : sub_id) (r : fail_row) : submission_failed :=
  SubmissionFailed id (fr_prefix r) (fr_total r) (fr_done r) (size_of (fr_size r)) (fr_meta r)
    (strat_of d id) (fr_at r) (fr_chunk r) (fr_otel r).
Definition cancelled_of (d : db) (id : sub_id) (r : canc_row) : submission_cancelled :=
  SubmissionCancelled id (xr_prefix r) (xr_total r) (xr_done r) (xr_meta r)
    (strat_of d id) (xr_at r).

(** submission.rs:345-366 insert_submission_raw. *)
Definition insert_submission_raw (s : submission) : M unit :=
  sql (on t_sub set_sub (ins (s_id s)
    (SubRow (s_prefix s) (s_total s) (s_done s) (s_meta s) (s_otel s) (Some (s_size s))))).

(** submission.rs:373-397 insert_submission_metadata_raw: one INSERT per pair. The code iterates
    a hash map in an unspecified order; the model uses the order of [map_to_list]. *)
Fixpoint insert_metadata_loop (id : sub_id) (l : list (string * Z)) : M unit :=
  match l with
  | [] => ret tt
  | (k, v) :: l' => sql (on t_meta set_meta (ins (id, k) v)) ;;? insert_metadata_loop id l'
  end.
Definition insert_submission_metadata_raw (s : submission) (m : strat_map) : M unit :=
  insert_metadata_loop (s_id s) (map_to_list m).

(** submission.rs:400-431 insert_submission. *)
Definition insert_submission (s : submission) (chunks : list chunk) : M unit :=
  transaction (
    insert_submission_raw s ;;?
    insert_submission_metadata_raw s (s_strat s) ;;?
    insert_many_chunks chunks).

(** submission.rs:505-541 get_submission. *)
Definition get_submission (id : sub_id) : M submission :=
  r <-? read (R := option submission) (fun d => submission_of d id <$> t_sub d !! id);
  match r with Some s => ret s | None => err (ESubmissionNotFound id) end.

(** submission.rs:550-567 get_submission_strategic_metadata. *)
Definition get_submission_strategic_metadata (id : sub_id) : M strat_map :=
  read (fun d => strat_of d id).

(** submission.rs:936-969 complete_submission_raw. The INSERT names neither chunk_size nor
    otel_trace_carrier, so these columns take their defaults NULL and "{}" (migrations
    20250416081453, 20241122175706). A missing row for the DELETE becomes SubmissionNotFound. *)
Definition complete_submission_raw (id : sub_id) (now : time) : M unit :=
  sql (fun d => match ins_rows (one_row id (fun s => CompRow (sr_prefix s) (sr_total s) (sr_meta s) now "{}" None) (t_sub d)) (t_comp d) with
                | SOk m => SOk (tt, set_comp (fun _ => m) d) | SErr e => SErr e end) ;;?
  bind (sql (fun d => match del_one id (t_sub d) with
                | SOk (_, m) => SOk (tt, set_sub (fun _ => m) d) | SErr e => SErr e end))
       (fun r => match r with Err (EDb RowNotFound) => err (ESubmissionNotFound id) | r => Ret r end).

(** submission.rs:822-839 maybe_complete_submission. *)
Definition maybe_complete_submission (id : sub_id) (now : time) : M bool :=
  transaction (
    s <-? get_submission id;
    if s_done s =? s_total s then complete_submission_raw id now ;;? ret true
    else ret false).

(** submission.rs:445-497 insert_submission_from_chunks. [id] is SubmissionId::new() (453), [otel]
    is current_context_to_json() (455), [now] is the clock reading in complete_submission_raw. The
    conversions of lengths and indexes to 63 bits (454, 471) cannot fail for lists that fit in
    memory and are not modelled. *)
Definition number_chunks (id : sub_id) (contents : list content) : list chunk :=
  imap (fun i x => Chunk id (N.of_nat i) x 0) contents.
Definition insert_submission_from_chunks (id : sub_id) (prefix : option string)
    (contents : list content) (meta : option string) (strat : strat_map) (size : Z)
    (otel : string) (now : time) : M sub_id :=
  let len := N.of_nat (length contents) in
  insert_submission (Submission id prefix len 0 size meta strat otel) (number_chunks id contents) ;;?
  if len =? 0 then
    bind (maybe_complete_submission id now) (fun r =>
      match r with
      | Err (EDb e) => err (EDb e)
      | Err _ => ret id
      | Ok _ => ret id
      | Panicked => Ret Panicked
      end)
  else ret id.

(** chunk.rs:312-338 complete_chunk. The result of the transaction is bound to an unused variable
    (317) and the function returns Ok(()) in any case (337). [now1] is the clock reading of
    complete_chunk_raw, [now2] that of complete_submission_raw. *)
Definition complete_chunk_tx (cid : chunk_id) (out : content) (now1 now2 : time) : M Z :=
  transaction (
    sz <-? complete_chunk_raw cid out now1;
    maybe_complete_submission cid.1 now2 ;;?
    ret (size_of sz)).
Definition complete_chunk (cid : chunk_id) (out : content) (now1 now2 : time) : M unit :=
  bind (complete_chunk_tx cid out now1 now2) (fun _ => ret tt).

(** submission.rs:972-1000 fail_submission_raw (same omission of chunk_size and
    otel_trace_carrier). *)
Definition fail_submission_raw (id : sub_id) (failed_chunk : chunk_index) (now : time) : M unit :=
  sql (fun d => match ins_rows (one_row id (fun s => FailRow (sr_prefix s) (sr_total s) (Some (sr_done s)) (sr_meta s) now failed_chunk "{}" None) (t_sub d)) (t_fail d) with
                | SOk m => SOk (tt, set_fail (fun _ => m) d) | SErr e => SErr e end) ;;?
  sql (fun d => match del_one id (t_sub d) with
                | SOk (_, m) => SOk (tt, set_sub (fun _ => m) d) | SErr e => SErr e end).

(** submission.rs:1027-1042 fail_submission_notx. Three clock readings, in this order. *)
Definition fail_submission_notx (id : sub_id) (ix : chunk_index) (failure : string)
    (now1 now2 now3 : time) : M unit :=
  fail_submission_raw id ix now1 ;;?
  move_chunk_to_failed_chunks (id, ix) failure now2 ;;?
  skip_remaining_chunks id now3.

(** submission.rs:1008-1020 fail_submission. *)
Definition fail_submission (id : sub_id) (ix : chunk_index) (failure : string)
    (now1 now2 now3 : time) : M unit :=
  transaction (fail_submission_notx id ix failure now1 now2 now3).

(** chunk.rs:397-442 retry_or_fail_chunk. *)
Definition retry_or_fail_chunk (cid : chunk_id) (failure : string) (max_retries : N)
    (now1 now2 now3 : time) : M bool :=
  transaction (
    retries <-? sql (fun d => match t_chunk d !! cid with
        | Some c => SOk (ch_retries c + 1,
            set_chunk (fun m => <[cid := ChunkRow (ch_input c) (ch_retries c + 1)]> m) d)
        | None => SErr RowNotFound end);
    if max_retries <=? retries then
      fail_submission_notx cid.1 cid.2 failure now1 now2 now3 ;;? ret true
    else ret false).

(** submission.rs:660-811 submission_status: up to five separate queries, in this order. *)
Definition submission_status (id : sub_id) : M (option status) :=
  r <-? read (R := option submission) (fun d => submission_of d id <$> t_sub d !! id);
  match r with
  | Some s => ret (Some (InProgress s))
  | None =>
  r <-? read (R := option submission_completed) (fun d => completed_of d id <$> t_comp d !! id);
  match r with
  | Some s => ret (Some (Completed s))
  | None =>
  r <-? read (R := option submission_failed) (fun d => failed_of d id <$> t_fail d !! id);
  match r with
  | Some s => c <-? get_chunk_failed (id, sf_chunk s); ret (Some (Failed s c))
  | None =>
  r <-? read (R := option submission_cancelled) (fun d => cancelled_of d id <$> t_canc d !! id);
  match r with
  | Some s => ret (Some (Cancelled s))
  | None => ret None
  end end end end.

(** submission.rs:903-932 cancel_submission_raw. *)
Definition cancel_submission_raw (id : sub_id) (now : time) : M unit :=
  sql (fun d => match ins_rows (one_row id (fun s => CancRow (sr_prefix s) (sr_total s) (sr_done s) (sr_meta s) now) (t_sub d)) (t_canc d) with
                | SOk m => SOk (tt, set_canc (fun _ => m) d) | SErr e => SErr e end) ;;?
  r <-? sql (fun d => SOk (t_sub d !! id, set_sub (delete id) d));
  match r with None => err (ESubmissionNotFound id) | Some _ => ret tt end.

(** submission.rs:893-900 cancel_submission_notx. *)
Definition cancel_submission_notx (id : sub_id) (now1 now2 : time) : M unit :=
  cancel_submission_raw id now1 ;;?
  skip_remaining_chunks id now2.

(** submission.rs:853-886 cancel_submission. *)
Definition cancel_submission (id : sub_id) (now1 now2 : time) : M unit :=
  transaction (
    bind (cancel_submission_notx id now1 now2) (fun r =>
      match r with
      | Ok _ => ret tt
      | Err (ESubmissionNotFound _) =>
          st <-? submission_status id;
          match st with
          | None => err (ESubmissionNotFound id)
          | Some (InProgress _) => Ret Panicked
          | Some s => err (ENotCancellable s)
          end
      | Err e => err e
      | Panicked => Ret Panicked
      end)).

(** submission.rs:1050-1081 count_submissions, count_submissions_completed, count_submissions_failed. *)
Definition count_submissions : M N := read (fun d => N.of_nat (size (t_sub d))).
Definition count_submissions_completed : M N := read (fun d => N.of_nat (size (t_comp d))).
Definition count_submissions_failed : M N := read (fun d => N.of_nat (size (t_fail d))).

(** submission.rs:1092-1168 cleanup_old: eight DELETE statements in one transaction. *)
Definition older {A} (at_ : A -> time) (cutoff : time) (r : option A) : bool :=
  match r with Some r => (at_ r <? cutoff)%Z | None => false end.
Definition cleanup_old (cutoff : time) : M unit :=
  transaction (
    sql (fun d => SOk (tt, set_meta (filter (fun p => older cr_at cutoff (t_comp d !! p.1.1) = false)) d)) ;;?
    sql (fun d => SOk (tt, set_meta (filter (fun p => older fr_at cutoff (t_fail d !! p.1.1) = false)) d)) ;;?
    sql (fun d => SOk (tt, set_meta (filter (fun p => older xr_at cutoff (t_canc d !! p.1.1) = false)) d)) ;;?
    sql (fun d => SOk (tt, set_comp (filter (fun p => (cr_at p.2 <? cutoff)%Z = false)) d)) ;;?
    sql (fun d => SOk (tt, set_fail (filter (fun p => (fr_at p.2 <? cutoff)%Z = false)) d)) ;;?
    sql (fun d => SOk (tt, set_canc (filter (fun p => (xr_at p.2 <? cutoff)%Z = false)) d)) ;;?
    sql (fun d => SOk (tt, set_cdone (filter (fun p => (cc_at p.2 <? cutoff)%Z = false)) d)) ;;?
    sql (fun d => SOk (tt, set_cfail (filter (fun p => (cf_at p.2 <? cutoff)%Z = false)) d))).

(** Ids of a table in increasing order: what a scan over an index ordered by id yields. *)
Definition sorted_ids {A} (m : gmap sub_id A) : list sub_id := merge_sort N.le (map_to_list m).*1.

(** submission.rs:575-592 lookup_id_by_prefix: first row of a UNION ALL over submissions,
    submissions_completed, submissions_failed. Each part is read through its index (prefix, id)
    (migrations/20241117104740), hence by increasing id. *)
Definition ids_with_prefix {A} (get : A -> option string) (p : string) (m : gmap sub_id A) : list sub_id :=
  sorted_ids (filter (fun kv => get kv.2 = Some p) m).
Definition lookup_id_by_prefix (p : string) : M (option sub_id) :=
  read (fun d => head (ids_with_prefix sr_prefix p (t_sub d) ++
                       ids_with_prefix cr_prefix p (t_comp d) ++
                       ids_with_prefix fr_prefix p (t_fail d))).

(** submission.rs:599-651 lookup_ids_by_strategic_metadata. The inner joins keep the submissions
    that have a row for every requested pair; ORDER BY id; LIMIT max + 1. The result TooMany is
    an [inr]. [max] is a MaxSubmissions (common/mod.rs:17-36). Since (submission_id,
    metadata_key) is a primary key, each join contributes at most one row per submission. SQLite
    joins at most 64 tables (SqlQuery.v, C75): with more than 63 pairs the query fails. *)
Definition has_pair (d : db) (id : sub_id) (kv : string * Z) : Prop := t_meta d !! (id, kv.1) = Some kv.2.
Definition matching_ids (m : strat_map) (d : db) : list sub_id :=
  if decide (m = ∅) then sorted_ids (t_sub d)
  else filter (fun id => Forall (fun kv => t_meta d !! (id, kv.1) = Some kv.2) (map_to_list m)) (sorted_ids (t_sub d)).
Definition lookup_ids_by_strategic_metadata (m : strat_map) (max : N) : M (list sub_id + N) :=
  ids <-? sql (fun d => if Nat.leb (size m) 63 then SOk (take (N.to_nat (max + 1)) (matching_ids m d), d) else SErr OtherSqlError);
  if max <? N.of_nat (length ids) then ret (inr max) else ret (inl ids).
