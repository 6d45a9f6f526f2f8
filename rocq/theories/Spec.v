(** Small vocabulary for the statements of the database properties. Nothing here is part of the
    model of the code; it only names what a client observes over a history. *)
From Verif Require Export History.
Local Open Scope N_scope.

Global Instance chunk_completed_eq_dec : EqDecision chunk_completed.
Proof. solve_decision. Defined.
Global Instance chunk_eq_dec : EqDecision chunk.
Proof. solve_decision. Defined.

(** Event [e] on database [d] successfully completes chunk [cid]: it is a completion of that
    chunk, the chunk was waiting before, and afterwards it is recorded as completed with the
    output and time of this event. *)
Definition acknowledges (d : db) (e : event) (cid : chunk_id) : bool :=
  match e_op e with
  | OComplete cid' out now1 _ =>
      bool_decide (cid' = cid) && bool_decide (is_Some (waiting d cid)) &&
      bool_decide (completed_chunk (step d e) cid = Some (ChunkCompleted cid.1 cid.2 out now1))
  | _ => false
  end.
(** How often chunk [cid] was successfully completed in a history. *)
Fixpoint acks_from (d : db) (h : history) (cid : chunk_id) : nat :=
  match h with
  | [] => 0
  | e :: h' => ((if acknowledges d e cid then 1 else 0) + acks_from (step d e) h' cid)%nat
  end.
Definition acks (h : history) (cid : chunk_id) : nat := acks_from db_empty h cid.

(** The arguments a submission was inserted with. *)
Record insert_args : Set := InsertArgs {
  ia_prefix : option string; ia_contents : list content; ia_meta : option string;
  ia_strat : strat_map; ia_size : Z; ia_otel : string }.
Definition inserted_with (h : history) (id : sub_id) (a : insert_args) : Prop :=
  exists e n, e ∈ h /\
    e_op e = OInsert id (ia_prefix a) (ia_contents a) (ia_meta a) (ia_strat a) (ia_size a) (ia_otel a) n.

(** No clock reading within one operation precedes an earlier one. *)
Definition clocks_ok (h : history) : Prop := Forall (fun e => clock_ok (e_op e)) h.

(** No cleanup in [h] has a cutoff after [t]. *)
Definition no_cleanup_after (t : time) (h : history) : Prop :=
  Forall (fun e => match e_op e with OCleanup c => (c <= t)%Z | _ => True end) h.
Definition no_cleanup (h : history) : Prop := Forall (fun e => ~ is_cleanup e) h.

(** Strategic metadata as the server reports it. *)
Definition strategic_metadata (d : db) (id : sub_id) : strat_map :=
  match fst (exec (get_submission_strategic_metadata id) d []) with Ok m => m | _ => ∅ end.

(** Everything a client can see about one submission is the same in both databases. *)
Definition same_for_clients (id : sub_id) (d d' : db) : Prop :=
  status_of d id = status_of d' id /\
  (forall i, waiting d (id, i) = waiting d' (id, i)) /\
  (forall i, completed_chunk d (id, i) = completed_chunk d' (id, i)) /\
  (forall i, failed_chunk d (id, i) = failed_chunk d' (id, i)) /\
  strategic_metadata d id = strategic_metadata d' id.

(** The submission an operation is about; cleanup is about none in particular. *)
Definition about (o : op) : option sub_id :=
  match o with
  | OInsert id _ _ _ _ _ _ _ => Some id
  | OComplete cid _ _ _ => Some cid.1
  | OFail cid _ _ _ _ _ => Some cid.1
  | OCancel id _ _ => Some id
  | OFailSubmission id _ _ _ _ _ => Some id
  | OCleanup _ => None
  end.

(** An event without faults and crash. *)
Definition quiet (o : op) : event := Event o [] None.

Definition status_total (st : status) : N :=
  match st with InProgress s => s_total s | Completed s => sc_total s | Failed s _ => sf_total s | Cancelled s => sx_total s end.
Definition status_prefix (st : status) : option string :=
  match st with InProgress s => s_prefix s | Completed s => sc_prefix s | Failed s _ => sf_prefix s | Cancelled s => sx_prefix s end.
Definition status_meta (st : status) : option string :=
  match st with InProgress s => s_meta s | Completed s => sc_meta s | Failed s _ => sf_meta s | Cancelled s => sx_meta s end.
Definition status_strat (st : status) : strat_map :=
  match st with InProgress s => s_strat s | Completed s => sc_strat s | Failed s _ => sf_strat s | Cancelled s => sx_strat s end.
(** Chunk size and tracing carrier; a cancelled status has neither field. *)
Definition status_size (st : status) : option Z :=
  match st with InProgress s => Some (s_size s) | Completed s => Some (sc_size s) | Failed s _ => Some (sf_size s) | Cancelled _ => None end.
Definition status_otel (st : status) : option string :=
  match st with InProgress s => Some (s_otel s) | Completed s => Some (sc_otel s) | Failed s _ => Some (sf_otel s) | Cancelled _ => None end.

(** Exactly the elements satisfying [P] are listed, each once. *)
Definition enumerates {A} (l : list A) (P : A -> Prop) : Prop := NoDup l /\ forall x, x ∈ l <-> P x.

(** The states of a submission. *)
Inductive kind : Set := KInProgress | KCompleted | KFailed | KCancelled.
Definition kind_of (st : status) : kind :=
  match st with InProgress _ => KInProgress | Completed _ => KCompleted | Failed _ _ => KFailed | Cancelled _ => KCancelled end.
(** The states under which the database holds a record of the submission. *)
Definition stored_as (d : db) (id : sub_id) (k : kind) : Prop :=
  match k with
  | KInProgress => is_Some (t_sub d !! id) | KCompleted => is_Some (t_comp d !! id)
  | KFailed => is_Some (t_fail d !! id) | KCancelled => is_Some (t_canc d !! id)
  end.

(** Event [e] on database [d] counts as a failure of chunk [cid]: it is a failure report for that
    chunk and it has an effect on the waiting chunk (retry counter or removal). *)
Definition counts_failure (d : db) (e : event) (cid : chunk_id) : bool :=
  match e_op e with
  | OFail cid' _ _ _ _ _ => bool_decide (cid' = cid) && bool_decide (waiting d cid <> waiting (step d e) cid)
  | _ => false
  end.
Fixpoint failures_from (d : db) (h : history) (cid : chunk_id) : nat :=
  match h with
  | [] => 0
  | e :: h' => ((if counts_failure d e cid then 1 else 0) + failures_from (step d e) h' cid)%nat
  end.
(** How often a failure of chunk [cid] was counted in a history. *)
Definition failures (h : history) (cid : chunk_id) : nat := failures_from db_empty h cid.
(** Every failure report uses the configured maximum [mx]; nobody fails submissions directly. *)
Definition retry_limit (mx : N) (h : history) : Prop :=
  Forall (fun e => match e_op e with OFail _ _ m _ _ _ => m = mx | OFailSubmission _ _ _ _ _ _ => False | _ => True end) h.

Definition answer_ok (a : answer) : bool :=
  match a with
  | AInsert r => is_ok r | AComplete r => is_ok r | AFail r => is_ok r | ACancel r => is_ok r
  | AFailSubmission r => is_ok r | ACleanup r => is_ok r
  end.

(** A submission in progress carries the given key/value pairs. *)
Definition carries (d : db) (m : strat_map) (id : sub_id) : Prop :=
  exists s, reports d id (InProgress s) /\ m ⊆ s_strat s.
(** Result of the lookup by prefix. *)
Definition prefix_found (d : db) (p : string) : option sub_id :=
  match fst (exec (lookup_id_by_prefix p) d []) with Ok r => r | _ => None end.
Definition not_cancelled (st : status) : Prop := match st with Cancelled _ => False | _ => True end.
Definition sum_N (l : list N) : N := foldr N.add 0 l.

(** Histories that observers see at successive moments: each extends the one before. *)
Definition grows (hs : nat -> history) : Prop := forall k, hs k `prefix_of` hs (S k).
