(** Histories of the database: any sequence of write operations, each of which may meet
    environment faults and may be cut short by a crash of the server process. *)
From Verif Require Export SubmissionDb.
Local Open Scope N_scope.

(** The write operations the server performs: producer/server.rs:120-139 (cancel), 184-215
    (insert); consumer/server/mod.rs:226-309 (complete, fail); submission.rs:1008-1020
    (fail_submission, public); submission.rs:1170-1185 (periodic cleanup). The id of an insert is
    what SubmissionId::new() returned (submission.rs:453). Clock readings are arbitrary. *)
Inductive op : Set :=
| OInsert (id : sub_id) (prefix : option string) (contents : list content) (meta : option string)
    (strat : strat_map) (size : Z) (otel : string) (now : time)
| OComplete (cid : chunk_id) (out : content) (now1 now2 : time)
| OFail (cid : chunk_id) (failure : string) (max_retries : N) (now1 now2 now3 : time)
| OCancel (id : sub_id) (now1 now2 : time)
| OFailSubmission (id : sub_id) (ix : chunk_index) (failure : string) (now1 now2 now3 : time)
| OCleanup (cutoff : time).

(** What the caller of an operation gets. *)
Inductive answer : Set :=
| AInsert (r : res sub_id) | AComplete (r : res unit) | AFail (r : res bool)
| ACancel (r : res unit) | AFailSubmission (r : res unit) | ACleanup (r : res unit).

Definition op_prog (o : op) : prog answer :=
  match o with
  | OInsert id p l m s z o n => bind (insert_submission_from_chunks id p l m s z o n) (fun r => Ret (AInsert r))
  | OComplete cid out n1 n2 => bind (complete_chunk cid out n1 n2) (fun r => Ret (AComplete r))
  | OFail cid f mx n1 n2 n3 => bind (retry_or_fail_chunk cid f mx n1 n2 n3) (fun r => Ret (AFail r))
  | OCancel id n1 n2 => bind (cancel_submission id n1 n2) (fun r => Ret (ACancel r))
  | OFailSubmission id ix f n1 n2 n3 => bind (fail_submission id ix f n1 n2 n3) (fun r => Ret (AFailSubmission r))
  | OCleanup c => bind (cleanup_old c) (fun r => Ret (ACleanup r))
  end.

(** One event: an operation, the faults it meets, and, if the process dies during the operation,
    after how many of its steps. A server that restarts opens a fresh connection on what was
    durable. *)
Record event : Set := Event { e_op : op; e_faults : faults; e_crash : option nat }.

Definition finished (e : event) (d : db) : answer * db := exec (op_prog (e_op e)) d (e_faults e).
Definition step (d : db) (e : event) : db :=
  match e_crash e with
  | None => snd (finished e d)
  | Some k => default (snd (finished e d)) (crash_dbs (op_prog (e_op e)) d (e_faults e) !! k)
  end.
(** The answer, if the process lived long enough to give one. *)
Definition answer_of (d : db) (e : event) : option answer :=
  match e_crash e with None => Some (fst (finished e d)) | Some _ => None end.

Definition history := list event.
Definition run_from (d : db) (h : history) : db := fold_left step h d.
Definition after (h : history) : db := run_from db_empty h.

(** Inserts use ids that were never used before (the snowflake generator; see C45). *)
Definition insert_id (e : event) : option sub_id :=
  match e_op e with OInsert id _ _ _ _ _ _ _ => Some id | _ => None end.
Definition inserted_ids (h : history) : list sub_id := omap insert_id h.
Definition fresh_ids (h : history) : Prop := NoDup (inserted_ids h).

Definition is_cleanup (e : event) : Prop := match e_op e with OCleanup _ => True | _ => False end.

(** *** Observations: what a client can ask *)

(** Answer of the status query on a quiet database. *)
Definition status_of (d : db) (id : sub_id) : res (option status) := fst (exec (submission_status id) d []).
Definition reports (d : db) (id : sub_id) (st : status) : Prop := status_of d id = Ok (Some st).
Definition unknown (d : db) (id : sub_id) : Prop := status_of d id = Ok None.
(** A chunk is waiting to be worked on when get_chunk finds it. *)
Definition waiting (d : db) (cid : chunk_id) : option chunk :=
  match fst (exec (get_chunk cid) d []) with Ok c => Some c | _ => None end.
Definition completed_chunk (d : db) (cid : chunk_id) : option chunk_completed :=
  match fst (exec (get_chunk_completed cid) d []) with Ok c => Some c | _ => None end.
Definition failed_chunk (d : db) (cid : chunk_id) : option chunk_failed :=
  match fst (exec (get_chunk_failed cid) d []) with Ok c => Some c | _ => None end.
Definition status_id (st : status) : sub_id :=
  match st with
  | InProgress s => s_id s | Completed s => sc_id s | Failed s _ => sf_id s | Cancelled s => sx_id s end.
Definition terminal (st : status) : Prop := match st with InProgress _ => False | _ => True end.
(** The time at which a submission reached its terminal state. *)
Definition finished_at (st : status) : option time :=
  match st with
  | InProgress _ => None | Completed s => Some (sc_at s) | Failed s _ => Some (sf_at s)
  | Cancelled s => Some (sx_at s) end.
(** The clock readings within one operation do not go backwards. *)
Definition clock_ok (o : op) : Prop :=
  match o with
  | OFail _ _ _ n1 n2 n3 => (n1 <= n2 <= n3)%Z
  | OFailSubmission _ _ _ n1 n2 n3 => (n1 <= n2 <= n3)%Z
  | OCancel _ n1 n2 => (n1 <= n2)%Z
  | OComplete _ _ n1 n2 => (n1 <= n2)%Z
  | _ => True
  end.
