(** The two connection pools of the server and the tasks that use them at the same time
    (db/mod.rs:186-361, 412-494). Tasks are interleaved statement by statement, in any order. *)
From Verif Require Export Backlog.
Local Open Scope N_scope.

(** What a task does with the writer connection: the operations of History.v (producer/server.rs:120-139,
    184-215; consumer/server/mod.rs:226-309; submission.rs:1170-1185), the health check (db/mod.rs:207-226)
    and the checkpoint (db/mod.rs:323-343; it moves data within SQLite's files, see Durability.v, and
    changes no row, so the one after an insert on the same connection, producer/server.rs:209-212, is left out). *)
Inductive job : Set := Write (o : op) | Health | Checkpoint.
Inductive outcome : Set := Wrote (a : answer) | Checked (ok : bool) | Checkpointed (ok : bool).
Definition job_prog (j : job) : prog outcome :=
  match j with
  | Write o => bind (op_prog o) (fun a => Ret (Wrote a))
  | Health => bind (transaction (n <-? count_submissions; ret tt)) (fun r => Ret (Checked (is_ok r)))
  | Checkpoint => bind (read (fun _ => tt)) (fun r => Ret (Checkpointed (is_ok r)))
  end.

(** What a task does with a reader connection: producer/server.rs:141-182, 217-235 and prometheus.rs:212-223.
    (Reservations read as well: Server.v.) *)
Inductive query : Set :=
| QStatus (id : sub_id) | QPrefix (p : string) | QMeta (m : strat_map) (max : N)
| QCount | QCountCompleted | QScaling.
Inductive reply : Set :=
| RStatus (r : res (option status)) | RPrefix (r : res (option sub_id)) | RMeta (r : res (list sub_id + N))
| RCount (r : res N) | RScaling (r : res (N * Z)).
Definition query_prog (q : query) : prog reply :=
  match q with
  | QStatus id => bind (submission_status id) (fun r => Ret (RStatus r))
  | QPrefix p => bind (lookup_id_by_prefix p) (fun r => Ret (RPrefix r))
  | QMeta m max => bind (lookup_ids_by_strategic_metadata m max) (fun r => Ret (RMeta r))
  | QCount => bind count_submissions (fun r => Ret (RCount r))
  | QCountCompleted => bind count_submissions_completed (fun r => Ret (RCount r))
  | QScaling => bind scaling_metrics (fun r => Ret (RScaling r))
  end.

(** One node of a program on a connection, as in Sqlite.v's [run]; [fails] is the fault. *)
Definition one_node {A} (p : prog A) (c : conn) (fails : bool) : option (prog A * conn) :=
  match p with
  | Ret _ => None
  | Begin k => Some (if fails then (k (Some OtherSqlError), c) else (k None, Conn (c_cur c) (c_cur c :: c_saved c)))
  | Commit k =>
      Some match c_saved c with
           | [] => (k (Some OtherSqlError), c)
           | d :: ds => if fails then (k (Some OtherSqlError), Conn d ds) else (k None, Conn (c_cur c) ds)
           end
  | Rollback k => Some (k, match c_saved c with [] => c | d :: ds => Conn d ds end)
  | Sql R f k =>
      Some (if fails then (k (SErr OtherSqlError), c)
            else match f (c_cur c) with
                 | SOk (r, d) => (k (SOk r), Conn d (c_saved c))
                 | SErr e => (k (SErr e), c)
                 end)
  end.
(** One node of a reader, on the database [d] that is committed at that moment: in WAL mode a
    statement outside a transaction sees what was committed when it started. *)
Definition one_look {A} (p : prog A) (d : db) (fails : bool) : option (prog A) :=
  match p with
  | Ret _ => None
  | Begin k => Some (k (if fails then Some OtherSqlError else None))
  | Commit k => Some (k (if fails then Some OtherSqlError else None))
  | Rollback k => Some k
  | Sql R f k =>
      Some (if fails then k (SErr OtherSqlError)
            else match f d with SOk (r, _) => k (SOk r) | SErr e => k (SErr e) end)
  end.

(** The writer pool has one connection (db/mod.rs:484-494): one task at most has it. Tasks are numbered
    in the order in which they come. *)
Record owner : Type := Owner { w_task : N; w_left : prog outcome }.
Record pool : Type := Pool {
  p_conn : conn; p_owner : option owner; p_waiting : gmap N job; p_readers : gmap N (prog reply); p_next : N }.
Definition pool_start : pool := Pool (conn_of db_empty) None ∅ ∅ 0.
(** What is in the database for everybody but the owner of the writer connection. *)
Definition committed (s : pool) : db := durable (p_conn s).

Inductive act : Set :=
| Arrive (j : job)           (* a task asks for the writer connection, [acquire().await] *)
| Acquire (t : N)            (* it gets it. sqlx serves tasks in order; here any may be next *)
| Node (fails : bool)        (* the next statement of the task that has it *)
| Release                    (* the task is through and gives its answer *)
| Leave (t : N)              (* a task is given up: its client hangs up or it waited too long for the connection *)
| Ask (q : query)            (* a task that reads *)
| Look (t : N) (fails : bool) (* its next query *)
| Tell (t : N)               (* it is through and gives its answer *)
| Crash.                     (* the process dies and is started again *)
Inductive sight : Set :=
| Arrived (t : N) (j : job) | Answered (t : N) (a : outcome) | Left (t : N)
| Asked (t : N) (q : query) | Told (t : N) (r : reply) | Crashed.

(** A connection that is given up in the middle is rolled back before somebody else gets it (sqlx,
    Transaction::drop), and an open transaction is lost in a crash. *)
Definition dropped (c : conn) : conn := conn_of (durable c).

Definition does (a : act) (s : pool) : option (pool * list sight) :=
  let '(Pool c o w r n) := s in
  match a with
  | Arrive j => Some (Pool c o (<[n := j]> w) r (n + 1), [Arrived n j])
  | Acquire t =>
      match o, w !! t with
      | None, Some j => Some (Pool c (Some (Owner t (job_prog j))) (delete t w) r n, [])
      | _, _ => None
      end
  | Node fails =>
      match o with
      | Some (Owner t p) =>
          match one_node p c fails with
          | Some (p', c') => Some (Pool c' (Some (Owner t p')) w r n, [])
          | None => None
          end
      | None => None
      end
  | Release =>
      match o with
      | Some (Owner t (Ret a)) => Some (Pool c None w r n, [Answered t a])
      | _ => None
      end
  | Leave t =>
      match w !! t, r !! t, o with
      | Some _, _, _ => Some (Pool c o (delete t w) r n, [Left t])
      | None, Some _, _ => Some (Pool c o w (delete t r) n, [Left t])
      | None, None, Some (Owner t' _) => if t =? t' then Some (Pool (dropped c) None w r n, [Left t]) else None
      | _, _, _ => None
      end
  | Ask q => Some (Pool c o w (<[n := query_prog q]> r) (n + 1), [Asked n q])
  | Look t fails =>
      match r !! t with
      | Some p => match one_look p (durable c) fails with
                  | Some p' => Some (Pool c o w (<[t := p']> r) n, [])
                  | None => None
                  end
      | None => None
      end
  | Tell t =>
      match r !! t with
      | Some (Ret a) => Some (Pool c o w (delete t r) n, [Told t a])
      | _ => None
      end
  | Crash => Some (Pool (dropped c) None ∅ ∅ n, [Crashed])
  end.
Fixpoint go_from (s : pool) (l : list act) : option (pool * list sight) :=
  match l with
  | [] => Some (s, [])
  | a :: l' =>
      match does a s with
      | Some (s1, o1) => match go_from s1 l' with Some (s2, o2) => Some (s2, o1 ++ o2) | None => None end
      | None => None
      end
  end.
Definition go (l : list act) : option (pool * list sight) := go_from pool_start l.

(** *** Vocabulary *)
(** Task [t] is through: it was answered, it was given up, or the process died. *)
Definition over (t : N) (o : list sight) : Prop :=
  (exists a, Answered t a ∈ o) \/ Left t ∈ o \/ exists o1 o2 j, o = o1 ++ Crashed :: o2 /\ Arrived t j ∈ o1.
(** Task [t] was asked [q] and is not answered before the end of [acts]: a moment of its query. *)
Definition moment (acts : list act) (t : N) (q : query) (l : list act) (d : db) : Prop :=
  l `prefix_of` acts /\ exists s1 o1, go l = Some (s1, o1) /\ Asked t q ∈ o1 /\ committed s1 = d.
(** No two tasks insert a submission under the same id (the generator of ids, C43, C57), and clocks do not go backwards within an
    operation. *)
Definition inserts (j : job) (id : sub_id) : Prop := match j with Write (OInsert id' _ _ _ _ _ _ _) => id' = id | _ => False end.
Definition usual (outs : list sight) : Prop :=
  (forall t t' j j' id, Arrived t j ∈ outs -> Arrived t' j' ∈ outs -> inserts j id -> inserts j' id -> t = t') /\
  (forall t o, Arrived t (Write o) ∈ outs -> clock_ok o).
(** [evs] puts the operations of a run in an order, as if one were handled after the other. *)
Record serial (outs : list sight) (evs : list (N * event)) : Prop := {
  (* each task occurs once at most, with the operation it came for *)
  se_once : NoDup evs.*1;
  se_came : forall t e, (t, e) ∈ evs -> Arrived t (Write (e_op e)) ∈ outs;
  (* every answer is the one that the operation gets at its place in the order *)
  se_answer : forall t a, Answered t (Wrote a) ∈ outs ->
    exists i e, evs !! i = Some (t, e) /\ answer_of (after (take i evs).*2) e = Some a;
  (* what was over before something else came goes before it *)
  se_order : forall o1 o2 t t' j i i' e e', outs = o1 ++ o2 -> over t o1 -> Arrived t' j ∈ o2 ->
    evs !! i = Some (t, e) -> evs !! i' = Some (t', e') -> (i < i')%nat }.
