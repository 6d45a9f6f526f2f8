(** The Prometheus counters that the database functions increment (chunk.rs, submission.rs; their
    meaning is described in prometheus.rs:46-170). The functions of ChunkDb.v and SubmissionDb.v
    again, with the increments. MetricsProofs.v shows that leaving the increments out gives the
    functions of those files back. The histograms are not modelled here, nor is the gauge
    CHUNKS_BACKLOG_GAUGE (recomputed every five seconds: Backlog.v, ScalingLoop.v). *)
From Verif Require Export History.
Local Open Scope N_scope.

(** prometheus.rs:18-32. *)
Inductive counter : Set :=
| SubmissionsTotal | SubmissionsCompleted | SubmissionsFailed | SubmissionsCancelled
| ChunksTotal | ChunksCompleted | ChunksFailed | ChunksRetried | ChunksSkipped.
Global Instance counter_eq_dec : EqDecision counter.
Proof. solve_decision. Defined.

(** A program that increments counters: they are global variables, which no rollback undoes. *)
Definition increments := list (counter * N).
Definition W (A : Type) : Type := prog (increments * res A).
Definition silent {A} (p : M A) : W A := bind p (fun r => Ret ([], r)).
Definition wret {A} (a : A) : W A := Ret ([], Ok a).
Definition count (c : counter) (n : N) : W unit := Ret ([(c, n)], Ok tt).
Definition wbind {A B} (p : W A) (g : res A -> W B) : W B :=
  bind p (fun x => bind (g x.2) (fun y => Ret (x.1 ++ y.1, y.2))).
Definition wtry {A B} (p : W A) (g : A -> W B) : W B :=
  wbind p (fun r => match r with Ok a => g a | Err e => Ret ([], Err e) | Panicked => Ret ([], Panicked) end).
Notation "x <-! p ; k" := (wtry p (fun x => k)) (at level 100, p at next level, right associativity).
Notation "p ;;! k" := (wtry p (fun _ => k)) (at level 100, right associativity).
(** db/mod.rs:125-144, as [transaction]. *)
Definition wtransaction {A} (body : W A) : W A :=
  Begin (fun b =>
    match b with
    | Some e => Ret ([], Err (EDb e))
    | None =>
        bind body (fun x =>
          match x.2 with
          | Ok a => Commit (fun b' => match b' with Some e => Ret (x.1, Err (EDb e)) | None => Ret (x.1, Ok a) end)
          | Err e => Rollback (Ret (x.1, Err e))
          | Panicked => Rollback (Ret (x.1, Panicked))
          end)
    end).

Section instrumented.
(** What sqlx gives as rows_affected() for the four statements of skip_remaining_chunks
    (chunk.rs:610-624) when they move [n] chunks. *)
Context (affected : nat -> N).

(** chunk.rs:604-628 skip_remaining_chunks; 626 is the counter. *)
Definition w_skip_remaining_chunks (id : sub_id) (now : time) : W unit :=
  silent (sql (fun d => match ins_rows ((fun c => ChunkFailRow (ch_input c) "" now true) <$> of_submission id (t_chunk d)) (t_cfail d) with
                | SOk m => SOk (tt, set_cfail (fun _ => m) d) | SErr e => SErr e end)) ;;!
  n <-! silent (sql (fun d => SOk (size (of_submission id (t_chunk d)), set_chunk (not_of_submission id) d)));
  count ChunksSkipped (affected n).
(** submission.rs:936-969 complete_submission_raw; 963 is the counter. *)
Definition w_complete_submission_raw (id : sub_id) (now : time) : W unit :=
  silent (complete_submission_raw id now) ;;! count SubmissionsCompleted 1.
(** submission.rs:822-839. *)
Definition w_maybe_complete_submission (id : sub_id) (now : time) : W bool :=
  wtransaction (
    s <-! silent (get_submission id);
    if s_done s =? s_total s then w_complete_submission_raw id now ;;! wret true else wret false).
(** submission.rs:400-431 insert_submission: the counters (428-429) come after the transaction,
    whatever its result. *)
Definition w_insert_submission (s : submission) (chunks : list chunk) : W unit :=
  wbind (silent (insert_submission s chunks)) (fun r =>
    Ret ([(SubmissionsTotal, 1); (ChunksTotal, s_total s)], r)).
(** submission.rs:445-497. *)
Definition w_insert_submission_from_chunks (id : sub_id) (prefix : option string)
    (contents : list content) (meta : option string) (strat : strat_map) (size : Z)
    (otel : string) (now : time) : W sub_id :=
  let len := N.of_nat (length contents) in
  w_insert_submission (Submission id prefix len 0 size meta strat otel) (number_chunks id contents) ;;!
  if len =? 0 then
    wbind (w_maybe_complete_submission id now) (fun r =>
      match r with
      | Err (EDb e) => Ret ([], Err (EDb e))
      | Err _ => wret id
      | Ok _ => wret id
      | Panicked => Ret ([], Panicked)
      end)
  else wret id.
(** chunk.rs:312-338 complete_chunk: the counter (336) comes after the transaction, whatever its
    result. *)
Definition w_complete_chunk (cid : chunk_id) (out : content) (now1 now2 : time) : W unit :=
  wbind (wtransaction (
    sz <-! silent (complete_chunk_raw cid out now1);
    w_maybe_complete_submission cid.1 now2 ;;!
    wret (size_of sz))) (fun _ => count ChunksCompleted 1).
(** submission.rs:972-1000 fail_submission_raw; 994 is the counter. *)
Definition w_fail_submission_raw (id : sub_id) (ix : chunk_index) (now : time) : W unit :=
  silent (fail_submission_raw id ix now) ;;! count SubmissionsFailed 1.
(** chunk.rs:450-482 move_chunk_to_failed_chunks; 479 is the counter. *)
Definition w_move_chunk_to_failed_chunks (cid : chunk_id) (failure : string) (now : time) : W unit :=
  silent (move_chunk_to_failed_chunks cid failure now) ;;! count ChunksFailed 1.
(** submission.rs:1027-1042. *)
Definition w_fail_submission_notx (id : sub_id) (ix : chunk_index) (failure : string) (now1 now2 now3 : time) : W unit :=
  w_fail_submission_raw id ix now1 ;;!
  w_move_chunk_to_failed_chunks (id, ix) failure now2 ;;!
  w_skip_remaining_chunks id now3.
(** submission.rs:1008-1020. *)
Definition w_fail_submission (id : sub_id) (ix : chunk_index) (failure : string) (now1 now2 now3 : time) : W unit :=
  wtransaction (w_fail_submission_notx id ix failure now1 now2 now3).
(** chunk.rs:397-442 retry_or_fail_chunk; 433 is the counter. *)
Definition w_retry_or_fail_chunk (cid : chunk_id) (failure : string) (max_retries : N) (now1 now2 now3 : time) : W bool :=
  wtransaction (
    retries <-! silent (sql (fun d => match t_chunk d !! cid with
        | Some c => SOk (ch_retries c + 1,
            set_chunk (fun m => <[cid := ChunkRow (ch_input c) (ch_retries c + 1)]> m) d)
        | None => SErr RowNotFound end));
    if max_retries <=? retries then
      w_fail_submission_notx cid.1 cid.2 failure now1 now2 now3 ;;! wret true
    else count ChunksRetried 1 ;;! wret false).
(** submission.rs:903-932 cancel_submission_raw; 926 is the counter. *)
Definition w_cancel_submission_raw (id : sub_id) (now : time) : W unit :=
  silent (cancel_submission_raw id now) ;;! count SubmissionsCancelled 1.
(** submission.rs:893-900. *)
Definition w_cancel_submission_notx (id : sub_id) (now1 now2 : time) : W unit :=
  w_cancel_submission_raw id now1 ;;! w_skip_remaining_chunks id now2.
(** submission.rs:853-886. *)
Definition w_cancel_submission (id : sub_id) (now1 now2 : time) : W unit :=
  wtransaction (
    wbind (w_cancel_submission_notx id now1 now2) (fun r =>
      match r with
      | Ok _ => wret tt
      | Err (ESubmissionNotFound _) =>
          st <-! silent (submission_status id);
          match st with
          | None => Ret ([], Err (ESubmissionNotFound id))
          | Some (InProgress _) => Ret ([], Panicked)
          | Some s => Ret ([], Err (ENotCancellable s))
          end
      | Err e => Ret ([], Err e)
      | Panicked => Ret ([], Panicked)
      end)).

(** The operations (History.v) with their counters. *)
Definition answering {A} (f : res A -> answer) (p : W A) : prog (increments * answer) :=
  bind p (fun x => Ret (x.1, f x.2)).
Definition w_op_prog (o : op) : prog (increments * answer) :=
  match o with
  | OInsert id p l m s z o n => answering AInsert (w_insert_submission_from_chunks id p l m s z o n)
  | OComplete cid out n1 n2 => answering AComplete (w_complete_chunk cid out n1 n2)
  | OFail cid f mx n1 n2 n3 => answering AFail (w_retry_or_fail_chunk cid f mx n1 n2 n3)
  | OCancel id n1 n2 => answering ACancel (w_cancel_submission id n1 n2)
  | OFailSubmission id ix f n1 n2 n3 => answering AFailSubmission (w_fail_submission id ix f n1 n2 n3)
  | OCleanup c => answering ACleanup (silent (cleanup_old c))
  end.

Definition counted (c : counter) (l : increments) : N :=
  foldr (fun x n => (if decide (x.1 = c) then x.2 else 0) + n) 0 l.
(** The value of counter [c] after the events [h] from database [d], counted from zero. *)
Fixpoint tally_from (d : db) (h : history) (c : counter) : N :=
  match h with
  | [] => 0
  | e :: h' => counted c (exec (w_op_prog (e_op e)) d (e_faults e)).1.1 + tally_from (step d e) h' c
  end.
Definition tally (h : history) (c : counter) : N := tally_from db_empty h c.
End instrumented.

(** *** Vocabulary of the theorems *)
(** No statement failed and the process did not die: since a restart sets the counters to zero. *)
Definition undisturbed (e : event) : Prop := e_faults e = [] /\ e_crash e = None.
Definition is_fail_submission (o : op) : Prop := match o with OFailSubmission _ _ _ _ _ _ => True | _ => False end.
(** Reports of completion for a chunk that is not waiting: a second report, or one for a submission
    that has failed or was cancelled meanwhile. *)
Fixpoint stale_from (d : db) (h : history) : N :=
  match h with
  | [] => 0
  | e :: h' =>
      match e_op e with
      | OComplete cid _ _ _ => match waiting d cid with Some _ => 0 | None => 1 end
      | _ => 0
      end + stale_from (step d e) h'
  end.
Definition stale_reports (h : history) : N := stale_from db_empty h.
(** Chunks submitted; failed attempts after which the chunk is to be tried again. *)
Definition chunks_submitted (h : history) : N :=
  foldr (fun e n => match e_op e with OInsert _ _ l _ _ _ _ _ => N.of_nat (length l) | _ => 0 end + n) 0 h.
Fixpoint retries_from (d : db) (h : history) : N :=
  match h with
  | [] => 0
  | e :: h' => match answer_of d e with Some (AFail (Ok false)) => 1 | _ => 0 end + retries_from (step d e) h'
  end.
Definition retries (h : history) : N := retries_from db_empty h.
