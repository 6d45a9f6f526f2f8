(** Without faults from outside, no statement fails for a reason other than a missing row or a
    row that is already there. *)
From Verif Require Export SqlRefine.
From Verif Require Import SqliteProofs DbProofs.
Local Open Scope N_scope.

Definition calm {A} (p : M A) : Prop := forall d, fst (exec p d []) <> Err (EDb OtherSqlError).
Definition calm_stmt {R : Set} (f : stmt R) : Prop := forall d, f d <> SErr OtherSqlError.
Lemma calm_sql {R : Set} (f : stmt R) : calm_stmt f -> calm (sql f).
Proof. intros Hf d. rewrite exec_sql. specialize (Hf d). destruct (f d) as [[]|e]; cbn; congruence. Qed.
Lemma calm_read {R : Set} (q : db -> R) : calm (read q).
Proof. by apply calm_sql. Qed.
Lemma calm_ret {A} (a : A) : calm (ret a). Proof. done. Qed.
Lemma calm_end {A} (a : res A) : a <> Err (EDb OtherSqlError) -> calm (Ret a).
Proof. intros H d. exact H. Qed.
Lemma calm_tryb {A B} (p : M A) (g : A -> M B) : good p -> calm p -> (forall a, calm (g a)) -> calm (tryb p g).
Proof.
  intros Hp Hc Hg d. rewrite exec_tryb by done. specialize (Hc d). destruct (exec p d []) as [[a|e|] d']; cbn in *; [apply Hg|congruence|done].
Qed.
Lemma calm_bind {A B} (p : M A) (g : res A -> M B) : good p -> calm p -> (forall a, a <> Err (EDb OtherSqlError) -> calm (g a)) -> calm (bind p g).
Proof. intros [_ Hl _] Hc Hg d. rewrite exec_bind by done. apply Hg, Hc. Qed.
Lemma calm_tx {A} (p : M A) : good p -> calm p -> calm (transaction p).
Proof. intros Hp Hc d. rewrite exec_tx by done. specialize (Hc d). by destruct (exec p d []) as [[a|e|] d']. Qed.
Lemma ins_calm {K : Type} `{Countable K} {A} (k : K) (a : A) m : ins k a m <> SErr OtherSqlError.
Proof. unfold ins. by destruct (m !! k). Qed.
Lemma ins_many_calm {K : Type} `{Countable K} {A} (l : list (K * A)) m : ins_many l m <> SErr OtherSqlError.
Proof. revert m. induction l as [|[k a] l IH]; intros m; [done|]. cbn. unfold ins. destruct (m !! k); [done|apply IH]. Qed.
Lemma ins_rows_calm {K : Type} `{Countable K} {A} (news m : gmap K A) : ins_rows news m <> SErr OtherSqlError.
Proof. unfold ins_rows. by destruct (decide _). Qed.
Lemma del_one_calm {K : Type} `{Countable K} {A} (k : K) (m : gmap K A) : del_one k m <> SErr OtherSqlError.
Proof. unfold del_one. by destruct (m !! k). Qed.
Lemma on_calm {K : Type} `{Countable K} {A} (get : db -> gmap K A) put f : (forall m, f m <> SErr OtherSqlError) -> calm_stmt (on get put f).
Proof. intros Hf d. unfold on. specialize (Hf (get d)). destruct (f (get d)); congruence. Qed.
Ltac calm_one :=
  match goal with
  | |- calm_stmt (on _ _ (ins _ _)) => apply on_calm; intros; apply ins_calm
  | |- calm_stmt (on _ _ (ins_many _)) => apply on_calm; intros; apply ins_many_calm
  | |- calm_stmt _ => let d := fresh "d" in intros d; cbv beta;
      repeat match goal with
      | |- context [match ins_rows ?a ?b with _ => _ end] => let H := fresh in pose proof (ins_rows_calm a b) as H; destruct (ins_rows a b) as [?|[]]
      | |- context [match del_one ?a ?b with _ => _ end] => let H := fresh in pose proof (del_one_calm a b) as H; destruct (del_one a b) as [[]|[]]
      | |- context [match ?m !! ?k with _ => _ end] => destruct (m !! k)
      end; congruence
  end.
Ltac calm_tac :=
  repeat first
  [ progress intros
  | solve [eauto with calm]
  | apply calm_ret | apply calm_read
  | apply calm_sql; calm_one
  | apply calm_tx; [solve_good|]
  | apply calm_tryb; [solve [solve_good]| |]
  | match goal with |- calm (match ?x with _ => _ end) => destruct x end
  | match goal with |- calm (if ?x then _ else _) => destruct x end
  | match goal with |- calm (let '(_, _) := ?x in _) => destruct x end
  | apply calm_end; discriminate
  | progress unfold err ].
Create HintDb calm.
Lemma calm_many n l : calm (insert_many_loop n l).
Proof. revert l. induction n as [|n IH]; intros [|c l]; cbn [insert_many_loop]; calm_tac. Qed.
Lemma calm_meta id l : calm (insert_metadata_loop id l).
Proof. induction l as [|[k v] l IH]; cbn [insert_metadata_loop]; calm_tac. Qed.
Lemma calm_insert s l : calm (insert_submission s l).
Proof. unfold insert_submission, insert_submission_raw, insert_submission_metadata_raw, insert_many_chunks. pose proof calm_many. pose proof calm_meta.
  apply calm_tx; [fold (insert_submission_raw s); fold (insert_submission_metadata_raw s (s_strat s)); fold (insert_many_chunks l); solve_good|].
  apply calm_tryb; [apply good_sql|apply calm_sql; calm_one|]. intros _. apply calm_tryb; [apply good_insert_metadata_loop|apply calm_meta|]. intros _. apply calm_many. Qed.
Lemma calm_get_submission id : calm (get_submission id).
Proof. unfold get_submission. calm_tac. Qed.
Global Hint Resolve calm_insert calm_get_submission : calm.
Lemma calm_complete_raw id now : calm (complete_submission_raw id now).
Proof.
  unfold complete_submission_raw. apply calm_tryb; [apply good_sql|apply calm_sql; calm_one|]. intros _.
  apply calm_bind; [apply good_sql|apply calm_sql; calm_one|]. intros [a|[[]| |]|] Ha; first [contradiction|apply calm_end; discriminate].
Qed.
Global Hint Resolve calm_complete_raw : calm.
Lemma calm_maybe id now : calm (maybe_complete_submission id now).
Proof. unfold maybe_complete_submission. calm_tac. Qed.
Global Hint Resolve calm_maybe : calm.
Lemma calm_insert_from id p l m s z o n : calm (insert_submission_from_chunks id p l m s z o n).
Proof.
  unfold insert_submission_from_chunks. apply calm_tryb; [solve_good|calm_tac|]. intros _. destruct (_ =? _); [|calm_tac].
  apply calm_bind; [solve_good|calm_tac|]. intros [a|[[]| |]|] Ha; first [contradiction|apply calm_end; discriminate].
Qed.
Lemma calm_complete_tx cid out n1 n2 : calm (complete_chunk_tx cid out n1 n2).
Proof. unfold complete_chunk_tx, complete_chunk_raw. apply calm_tx; [apply good_tryb; [apply good_complete_chunk_raw|solve_good]|]. calm_tac. Qed.
Lemma calm_complete cid out n1 n2 : calm (complete_chunk cid out n1 n2).
Proof. intros d. unfold complete_chunk. rewrite exec_bind; [done|]. apply good_complete_chunk_tx. Qed.
Lemma calm_skip id n : calm (skip_remaining_chunks id n).
Proof. unfold skip_remaining_chunks. calm_tac. Qed.
Lemma calm_move cid f n : calm (move_chunk_to_failed_chunks cid f n).
Proof. unfold move_chunk_to_failed_chunks. calm_tac. Qed.
Lemma calm_fail_raw id ix n : calm (fail_submission_raw id ix n).
Proof. unfold fail_submission_raw. calm_tac. Qed.
Global Hint Resolve calm_skip calm_move calm_fail_raw : calm.
Lemma calm_fail_notx id ix f n1 n2 n3 : calm (fail_submission_notx id ix f n1 n2 n3).
Proof. unfold fail_submission_notx. calm_tac. Qed.
Global Hint Resolve calm_fail_notx : calm.
Lemma calm_fail id ix f n1 n2 n3 : calm (fail_submission id ix f n1 n2 n3).
Proof. unfold fail_submission. calm_tac. Qed.
Lemma calm_retry cid f mx n1 n2 n3 : calm (retry_or_fail_chunk cid f mx n1 n2 n3).
Proof. unfold retry_or_fail_chunk. calm_tac. Qed.
Lemma calm_status id : calm (submission_status id).
Proof. unfold submission_status, get_chunk_failed. calm_tac. Qed.
Global Hint Resolve calm_status : calm.
Lemma calm_cancel_raw id n : calm (cancel_submission_raw id n).
Proof. unfold cancel_submission_raw. calm_tac. Qed.
Global Hint Resolve calm_cancel_raw : calm.
Lemma calm_cancel id n1 n2 : calm (cancel_submission id n1 n2).
Proof.
  unfold cancel_submission. apply calm_tx; [apply good_cancel_body|]. apply calm_bind; [solve_good|unfold cancel_submission_notx; calm_tac|].
  intros [a|[e| |]|] Ha; [calm_tac|apply calm_end; congruence|calm_tac|calm_tac|calm_tac].
Qed.
Lemma calm_cleanup c : calm (cleanup_old c).
Proof. intros d. by rewrite exec_cleanup. Qed.
Lemma answers_calm d o : match fst (exec (op_prog o) d []) with
  | AInsert r => r <> Err (EDb OtherSqlError) | AComplete r => r <> Err (EDb OtherSqlError) | AFail r => r <> Err (EDb OtherSqlError)
  | ACancel r => r <> Err (EDb OtherSqlError) | AFailSubmission r => r <> Err (EDb OtherSqlError) | ACleanup r => r <> Err (EDb OtherSqlError)
  end.
Proof.
  destruct o; cbn [op_prog]; (rewrite exec_bind; [rewrite exec_ret; cbn [fst]|]).
  - apply calm_insert_from.
  - by apply good_insert_from_chunks.
  - apply calm_complete.
  - apply local_bind; [apply good_complete_chunk_tx|intros; apply local_ret].
  - apply calm_retry.
  - apply good_retry_or_fail.
  - apply calm_cancel.
  - apply good_cancel.
  - apply calm_fail.
  - apply good_fail_submission.
  - apply calm_cleanup.
  - apply good_cleanup.
Qed.
