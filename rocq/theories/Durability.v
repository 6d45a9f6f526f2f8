(** Power failures. db/mod.rs:424-441 opens the file in WAL mode with synchronous=NORMAL: a commit
    appends to the log without waiting for the disk; the disk is waited for only at a checkpoint.
    WAL auto-checkpoints are off (439); perform_explicit_wal_checkpoint (337-343) runs every 100 ms
    from periodically_checkpoint_wal (260-268). When the machine (not just the process) dies, SQLite
    restores some prefix of the transactions committed since the last checkpoint.

    Simplification: a checkpoint is one step; one that fails or is cut short is no step at all. *)
From Verif Require Export Spec.
Local Open Scope N_scope.

Inductive pevent : Set :=
| POp (e : event)      (* an operation, maybe cut short by a crash of the process *)
| PCheckpoint          (* PRAGMA wal_checkpoint(RESTART) *)
| PPower (k : nat).    (* the machine loses power; the [k]-th committed database is what is found
                          (the latest one if there are no more than [k]) *)

(** The database, and the databases committed since the last checkpoint, oldest first (the first is
    what the checkpoint wrote). *)
Record disk : Set := Disk { dk_db : db; dk_log : list db }.
Definition disk_empty : disk := Disk db_empty [db_empty].
(** The committed databases that an event passes through. *)
Definition commits (d : db) (e : event) : list db :=
  match e_crash e with
  | None => crash_dbs (op_prog (e_op e)) d (e_faults e)
  | Some k => take (S k) (crash_dbs (op_prog (e_op e)) d (e_faults e))
  end.
Definition pstep (s : disk) (p : pevent) : disk :=
  match p with
  | POp e => Disk (step (dk_db s) e) (dk_log s ++ commits (dk_db s) e)
  | PCheckpoint => Disk (dk_db s) [dk_db s]
  | PPower k => let d := default (dk_db s) (dk_log s !! k) in Disk d [d]
  end.
Definition prun (s : disk) (ps : list pevent) : disk := fold_left pstep ps s.
Definition pafter (ps : list pevent) : db := dk_db (prun disk_empty ps).

(** The operations asked for, in order. *)
Definition pop (p : pevent) : option op := match p with POp e => Some (e_op e) | _ => None end.
Definition ops_of (ps : list pevent) : list op := omap pop ps.
(** No id is used by two inserts. *)
Definition op_insert_id (o : op) : option sub_id :=
  match o with OInsert id _ _ _ _ _ _ _ => Some id | _ => None end.
Definition pfresh (ps : list pevent) : Prop := NoDup (omap op_insert_id (ops_of ps)).
