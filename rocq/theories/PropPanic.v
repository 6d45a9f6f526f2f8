(** C111: no request and no report makes the server panic. *)
From Verif Require Import AnswerProofs ProducerServer PanicProofs Spec.
Local Open Scope N_scope.

(** ** C111 *)
(** No request of a producer makes its handler panic, whatever is in the database and whatever fails. *)
Theorem C111_requests : forall max id otel n1 n2 q d fs, fst (exec (handle max id otel n1 n2 q) d fs) <> HttpPanic.
Proof.
  intros max id otel n1 n2 q d fs. destruct q as [c m s z|i|i|p|m| |]; try by apply (leads_exec (fun r => r <> HttpPanic)), leads_request.
  apply cancel_never_panics.
Qed.
Print Assumptions C111_requests.
(** Nor does a query, while others write between its statements. *)
Theorem C111_queries : forall max id otel n1 n2 q dbs n, match q with PInsert _ _ _ _ | PCancel _ => False | _ => True end ->
  run_reader (handle max id otel n1 n2 q) dbs n <> HttpPanic.
Proof. intros max id otel n1 n2 q dbs n Hq. apply (leads_reader (fun r => r <> HttpPanic)), leads_request. by intros i ->. Qed.
Print Assumptions C111_queries.
(** No report makes the completer panic, which handles those of all consumers and is not started
    again, and no cleanup the task of the cleanups. *)
Theorem C111_reports : forall d fs cid,
  (forall out n1 n2, fst (exec (complete_chunk_tx cid out n1 n2) d fs) <> Panicked) /\
  (forall failure max n1 n2 n3, fst (exec (retry_or_fail_chunk cid failure max n1 n2 n3) d fs) <> Panicked) /\
  (forall cutoff, fst (exec (cleanup_old cutoff) d fs) <> Panicked).
Proof.
  intros d fs cid. split_and!; intros; apply (leads_exec fine); [apply safe_complete|apply safe_fail|]. unfold cleanup_old. plain.
Qed.
Print Assumptions C111_reports.
(** The call that comes closest: cancelling a submission that is no longer in progress looks for it
    again, and would panic if it then were. *)
Example C111_example :
  let h := [quiet (OInsert 1 None [Some "x"%string] None ∅ 1 "{}" 5); quiet (OComplete (1, 0) (Some "y"%string) 6 7)] in
  (exists s, fst (exec (handle 10 2 "{}" 8 9 (PCancel 1)) (after h) []) = Http409 (Completed s)) /\
  fst (exec (handle 10 2 "{}" 8 9 (PCancel 3)) (after h) []) = Http404 3 /\
  (exists e, fst (exec (handle 10 2 "{}" 8 9 (PCancel 1)) (after h) [false; false; true]) = Http500 e).
Proof. split_and!; [eexists|..|eexists]; vm_compute; reflexivity. Qed.
