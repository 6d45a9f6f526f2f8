(** Programs that never panic. *)
From Verif Require Import ProducerServer.
Local Open Scope N_scope.

(** Whatever the statements of a program give, its result satisfies [P]. *)
Inductive leads {A} (P : A -> Prop) : prog A -> Prop :=
| leads_ret a : P a -> leads P (Ret a)
| leads_begin k : (forall r, leads P (k r)) -> leads P (Begin k)
| leads_commit k : (forall r, leads P (k r)) -> leads P (Commit k)
| leads_rollback k : leads P k -> leads P (Rollback k)
| leads_sql R f k : (forall r, leads P (k r)) -> leads P (Sql R f k).
Definition fine {A} (r : res A) : Prop := r <> Panicked.
Notation safe := (leads fine).
Lemma leads_run {A} (P : A -> Prop) p : leads P p -> forall c fs, P (fst (fst (run p c fs))).
Proof.
  induction 1 as [a Ha|k _ IH|k _ IH|k _ IH|R f k _ IH]; intros c fs; cbn [run].
  - done.
  - destruct (next_fault fs) as [[] fs']; apply IH.
  - destruct (next_fault fs) as [b fs'], (c_saved c); [apply IH|]. destruct b; apply IH.
  - destruct (c_saved c); apply IH.
  - destruct (next_fault fs) as [[] fs']; [apply IH|]. destruct (f (c_cur c)) as [[]|]; apply IH.
Qed.
Lemma leads_exec {A} (P : A -> Prop) p d fs : leads P p -> P (fst (exec p d fs)).
Proof. intros H. unfold exec. pose proof (leads_run P p H (conn_of d) fs) as K. by destruct (run p (conn_of d) fs) as [[]]. Qed.
Lemma leads_reader {A} (P : A -> Prop) p : leads P p -> forall dbs n, P (run_reader p dbs n).
Proof. induction 1 as [a Ha|k _ IH|k _ IH|k _ IH|R f k _ IH]; intros dbs n; cbn [run_reader]; [done|apply IH..|]. destruct (f (dbs n)) as [[]|]; apply IH. Qed.
Lemma leads_bind {A B} (P : A -> Prop) (Q : B -> Prop) p g : leads P p -> (forall a, P a -> leads Q (g a)) -> leads Q (bind p g).
Proof. intros H Hg. induction H as [a Ha|k _ IH|k _ IH|k _ IH|R f k _ IH]; cbn [bind]; [by apply Hg|constructor; auto..]. Qed.
Lemma safe_tryb {A B} (p : M A) (g : A -> M B) : safe p -> (forall a, safe (g a)) -> safe (tryb p g).
Proof. intros H Hg. eapply leads_bind; [exact H|]. intros [a|e|] Hr; [apply Hg|by constructor|done]. Qed.
Lemma safe_sql {R : Set} (f : stmt R) : safe (sql f).
Proof. constructor. intros [a|e]; by constructor. Qed.
Lemma safe_read {R : Set} (f : db -> R) : safe (read f).
Proof. apply safe_sql. Qed.
Lemma safe_ret {A} (a : A) : safe (ret a).
Proof. by constructor. Qed.
Lemma safe_err {A} e : safe (err e : M A).
Proof. by constructor. Qed.
Lemma safe_tx {A} (p : M A) : safe p -> safe (transaction p).
Proof.
  intros H. constructor. intros [e|]; [by constructor|]. eapply leads_bind; [exact H|]. intros [a|e|] Hr; [|by repeat constructor|done].
  constructor. intros [e|]; by constructor.
Qed.
Ltac plain := repeat first [done|apply safe_ret|apply safe_err|apply safe_sql|apply safe_read|apply safe_tx|apply safe_tryb; [|intros ?]|progress case_match].
Lemma safe_many l : safe (insert_many_chunks l).
Proof.
  unfold insert_many_chunks. enough (K : forall n l, (length l <= n)%nat -> safe (insert_many_loop n l)) by (by apply K). clear l.
  induction n as [|n IH]; intros [|x l] Hl; cbn [insert_many_loop length] in *; try apply safe_ret; [lia|].
  apply safe_tryb; [apply safe_sql|]. intros _. apply IH. rewrite drop_length. unfold rows_per_query. cbn [length]. lia.
Qed.
Lemma safe_metadata id l : safe (insert_metadata_loop id l).
Proof. induction l as [|[k v] l IH]; cbn [insert_metadata_loop]; [apply safe_ret|]. apply safe_tryb; [apply safe_sql|done]. Qed.
Lemma safe_finish id now : safe (maybe_complete_submission id now).
Proof.
  unfold maybe_complete_submission, get_submission, complete_submission_raw. apply safe_tx, safe_tryb; [plain|]. intros s. case_match; [|apply safe_ret].
  apply safe_tryb; [|intros _; apply safe_ret]. apply safe_tryb; [apply safe_sql|]. intros _. eapply leads_bind; [apply safe_sql|].
  intros [a|[]|] Hr; try done; try by constructor. case_match; by constructor.
Qed.
Lemma safe_insert id p l m s z ot now : safe (insert_submission_from_chunks id p l m s z ot now).
Proof.
  unfold insert_submission_from_chunks, insert_submission, insert_submission_raw, insert_submission_metadata_raw.
  apply safe_tryb; [apply safe_tx; apply safe_tryb; [apply safe_sql|intros _]; apply safe_tryb; [apply safe_metadata|intros _]; apply safe_many|].
  intros _. case_match; [|apply safe_ret]. eapply leads_bind; [apply safe_finish|]. intros [a|[]|] Hr; try done; by constructor.
Qed.
Lemma safe_complete cid out n1 n2 : safe (complete_chunk_tx cid out n1 n2).
Proof. unfold complete_chunk_tx, complete_chunk_raw. apply safe_tx, safe_tryb; [plain|]. intros z. apply safe_tryb; [apply safe_finish|]. intros _. apply safe_ret. Qed.
Lemma safe_fail cid f mx n1 n2 n3 : safe (retry_or_fail_chunk cid f mx n1 n2 n3).
Proof. unfold retry_or_fail_chunk, fail_submission_notx, fail_submission_raw, move_chunk_to_failed_chunks, skip_remaining_chunks. plain. Qed.
Lemma safe_status id : safe (submission_status id).
Proof. unfold submission_status, get_chunk_failed. plain. Qed.
Lemma leads_500 {A} (f : A -> body) p : safe p -> leads (fun r => r <> HttpPanic) (bind p (fun r => Ret (or_500 f r))).
Proof. intros H. eapply leads_bind; [exact H|]. intros [a|e|] Hr; [by constructor..|done]. Qed.
Lemma leads_request max id ot n1 n2 q : (forall i, q <> PCancel i) -> leads (fun r => r <> HttpPanic) (handle max id ot n1 n2 q).
Proof.
  intros Hq. destruct q as [c m s z|i|i|p|m| |]; cbn [handle].
  - destruct (contents_of c) as [p l]. apply leads_500, safe_insert.
  - by destruct (Hq i).
  - apply leads_500, safe_status.
  - apply leads_500. unfold lookup_id_by_prefix. plain.
  - eapply leads_bind with (P := fine); [unfold lookup_ids_by_strategic_metadata; plain|]. intros [[]|e|] Hr; [by constructor..|done].
  - apply leads_500. unfold count_submissions. plain.
  - apply leads_500. unfold count_submissions_completed. plain.
Qed.
