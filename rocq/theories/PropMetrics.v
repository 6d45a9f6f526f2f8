(** C65: the Prometheus counters. Vocabulary: Metrics.v ([tally affected h c] is the value of the
    counter [c] after the history [h]; [affected] is what the database library reports for the
    statements that skip chunks), History.v. *)
From Verif Require Export MetricsProofs.
From Verif Require Import AnswerProofs PropQueue.
Local Open Scope N_scope.

(** ** C65. The model with the counters is the model without them. *)
Theorem C65_same_program : forall affected o d fs,
  exec (op_prog o) d fs =
  ((exec (w_op_prog affected o) d fs).1.2, (exec (w_op_prog affected o) d fs).2).
Proof. exact w_op_sim. Qed.
Print Assumptions C65_same_program.

(** The two totals count what was asked for, whatever becomes of it. *)
Theorem C65_totals_count_requests : forall affected h,
  tally affected h SubmissionsTotal = N.of_nat (length (inserted_ids h)) /\
  tally affected h ChunksTotal = chunks_submitted h.
Proof. exact tally_submitted. Qed.
Print Assumptions C65_totals_count_requests.

(** Submissions in progress = total - completed - failed - cancelled, if no statement failed. *)
Theorem C65_submissions_partial : forall affected h,
  fresh_ids h -> Forall undisturbed h -> Forall (fun e => ~ is_fail_submission (e_op e)) h ->
  exists n, fst (exec count_submissions (after h) []) = Ok n /\
    tally affected h SubmissionsTotal =
    n + tally affected h SubmissionsCompleted + tally affected h SubmissionsFailed + tally affected h SubmissionsCancelled.
Proof. intros affected h Hf Hq Hn. exists (rows (t_sub (after h))). split; [done|]. by apply balance_after. Qed.
Print Assumptions C65_submissions_partial.

(** The counters of finished submissions count the finished submissions. *)
Theorem C65_finished_submissions_partial : forall affected h,
  fresh_ids h -> Forall undisturbed h -> Forall (fun e => ~ is_fail_submission (e_op e)) h -> Forall (fun e => ~ is_cleanup e) h ->
  fst (exec count_submissions_completed (after h) []) = Ok (tally affected h SubmissionsCompleted) /\
  fst (exec count_submissions_failed (after h) []) = Ok (tally affected h SubmissionsFailed).
Proof.
  intros affected h Hf Hq Hn Hc. destruct (kept_after affected h Hf Hq Hn Hc) as (E1 & E2 & _).
  rewrite <- E1, <- E2. done.
Qed.
Print Assumptions C65_finished_submissions_partial.

(** Waiting chunks = total - completed - failed - skipped, up to the reports of completion that came
    for chunks no longer waiting, which are counted as completions. *)
Theorem C65_chunks_partial : forall h,
  fresh_ids h -> Forall undisturbed h -> Forall (fun e => ~ is_fail_submission (e_op e)) h ->
  exists n, fst (exec count_chunks (after h) []) = Ok n /\
    tally N.of_nat h ChunksTotal + stale_reports h =
    n + tally N.of_nat h ChunksCompleted + tally N.of_nat h ChunksFailed + tally N.of_nat h ChunksSkipped.
Proof.
  intros h Hf Hq Hn. exists (rows (t_chunk (after h))). split; [done|].
  apply (balance_after N.of_nat h Hf Hq Hn). done.
Qed.
Print Assumptions C65_chunks_partial.

Theorem C65_finished_chunks_partial : forall h,
  fresh_ids h -> Forall undisturbed h -> Forall (fun e => ~ is_fail_submission (e_op e)) h -> Forall (fun e => ~ is_cleanup e) h ->
  (exists n, fst (exec count_chunks_completed (after h) []) = Ok n /\ tally N.of_nat h ChunksCompleted = n + stale_reports h) /\
  fst (exec count_chunks_failed (after h) []) = Ok (tally N.of_nat h ChunksFailed + tally N.of_nat h ChunksSkipped).
Proof.
  intros h Hf Hq Hn Hc. destruct (kept_after N.of_nat h Hf Hq Hn Hc) as (_ & _ & _ & E4 & E5). split.
  - exists (rows (t_cdone (after h))). split; [done|]. by rewrite E4.
  - rewrite <- E5 by done. done.
Qed.
Print Assumptions C65_finished_chunks_partial.

Theorem C65_retried_partial : forall affected h,
  fresh_ids h -> Forall undisturbed h -> tally affected h ChunksRetried = retries h.
Proof. exact tally_retries. Qed.
Print Assumptions C65_retried_partial.

(** Even if statements fail, what is in the database was counted: the counters are never too low
    (unless the process is restarted, which sets them to zero). *)
Theorem C65_never_too_low : forall h,
  fresh_ids h -> Forall (fun e => e_crash e = None) h -> Forall (fun e => ~ is_fail_submission (e_op e)) h ->
  exists nc nf kc kf,
    fst (exec count_submissions_completed (after h) []) = Ok nc /\ nc <= tally N.of_nat h SubmissionsCompleted /\
    fst (exec count_submissions_failed (after h) []) = Ok nf /\ nf <= tally N.of_nat h SubmissionsFailed /\
    fst (exec count_chunks_completed (after h) []) = Ok kc /\ kc <= tally N.of_nat h ChunksCompleted /\
    fst (exec count_chunks_failed (after h) []) = Ok kf /\ kf <= tally N.of_nat h ChunksFailed + tally N.of_nat h ChunksSkipped.
Proof.
  intros h Hf Hq Hn. destruct (covered_after N.of_nat h Hf Hq Hn) as (E1 & E2 & _ & E4 & E5).
  exists (rows (t_comp (after h))), (rows (t_fail (after h))), (rows (t_cdone (after h))), (rows (t_cfail (after h))).
  do 3 (split; [reflexivity|]; split; [assumption|]). split; [reflexivity|]. by apply E5.
Qed.
Print Assumptions C65_never_too_low.

(** The history of PropQueue.v: four submissions with seven chunks; one submission in progress, one
    completed, one failed, one cancelled; chunk (1, 0) is reported twice. *)
Definition ex_metrics : history := ex_h ++ [quiet (OComplete (1, 0) (Some "x") 7 7)].
Example C65_example :
  fresh_ids ex_metrics /\ Forall undisturbed ex_metrics /\ Forall (fun e => ~ is_fail_submission (e_op e)) ex_metrics /\
  Forall (fun e => ~ is_cleanup e) ex_metrics /\
  (tally N.of_nat ex_metrics <$> [SubmissionsTotal; SubmissionsCompleted; SubmissionsFailed; SubmissionsCancelled]) = [4; 1; 1; 1] /\
  (tally N.of_nat ex_metrics <$> [ChunksTotal; ChunksCompleted; ChunksFailed; ChunksSkipped; ChunksRetried]) = [7; 3; 1; 2; 1] /\
  fst (exec count_submissions (after ex_metrics) []) = Ok 1 /\ fst (exec count_chunks (after ex_metrics) []) = Ok 2 /\
  stale_reports ex_metrics = 1 /\ retries ex_metrics = 1.
Proof.
  split; [apply fresh_by; by vm_compute|].
  split; [unfold ex_metrics, ex_h; repeat constructor|].
  split; [unfold ex_metrics, ex_h; repeat constructor; intros []|].
  split; [unfold ex_metrics, ex_h; repeat constructor; intros []|].
  repeat (split; [by vm_compute|]). by vm_compute.
Qed.

(** Refuted: "total - completed - failed - skipped" is not the number of chunks in the backlog, which
    the comment on the chunk counters promises: a second report is counted. *)
Theorem C65_backlog_refuted : exists h n, fresh_ids h /\ Forall undisturbed h /\
  fst (exec count_chunks (after h) []) = Ok n /\
  tally N.of_nat h ChunksTotal < n + tally N.of_nat h ChunksCompleted + tally N.of_nat h ChunksFailed + tally N.of_nat h ChunksSkipped.
Proof.
  exists [ex_insert 1 [None; None]; quiet (OComplete (1, 0) None 2 2); quiet (OComplete (1, 0) None 3 3)], 1.
  split; [apply fresh_by; by vm_compute|]. split; [repeat constructor|]. split; by vm_compute.
Qed.
Print Assumptions C65_backlog_refuted.

(** Refuted: an insert that fails is counted as a submission. *)
Theorem C65_failed_insert_refuted : exists e, answer_of db_empty e = Some (AInsert (Err (EDb OtherSqlError))) /\
  fst (exec count_submissions (after [e]) []) = Ok 0 /\ e_crash e = None /\
  tally N.of_nat [e] SubmissionsTotal = 1 /\
  Forall (fun c => tally N.of_nat [e] c = 0) [SubmissionsCompleted; SubmissionsFailed; SubmissionsCancelled].
Proof.
  exists (Event (e_op (ex_insert 1 [None])) [false; false; true] None).
  split; [by vm_compute|]. split; [by vm_compute|]. split; [done|]. split; [by vm_compute|]. by repeat constructor.
Qed.
Print Assumptions C65_failed_insert_refuted.
