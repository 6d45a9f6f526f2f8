(** The functions of common/chunk.rs and common/submission.rs (modules db) once more, with the text
    of their SQL statements: what is sent to SQLite, with which parameters, and how the rows that
    come back are decoded. ChunkDb.v and SubmissionDb.v say what these statements do; SqlProofs.v
    proves that they do it, on every database that the migrations can have made.

    Not repeated here: the two lookups (their ORDER BY and UNION ALL) and the queries of the
    strategies (Strategy.v models these directly). *)
From Verif Require Export Migrations History.
Local Open Scope string_scope.
Local Open Scope list_scope.

(** *** Parameters (sqlx::Encode) *)
(** 63-bit numbers are sent as i64: chunk.rs:249-267, submission.rs:300-317. *)
Definition v_n (n : N) : value := VInt (Z.of_N n).
Definition v_blob (c : option string) : value := match c with Some s => VBlob s | None => VNull end.
Definition v_text (c : option string) : value := match c with Some s => VText s | None => VNull end.
Definition v_int (z : option Z) : value := match z with Some z => VInt z | None => VNull end.
Definition v_optn (n : option N) : value := match n with Some n => v_n n | None => VNull end.
Definition v_bool (b : bool) : value := VInt (if b then 1 else 0).

(** *** Columns (sqlx::Decode); [None] is a decoding error *)
(** chunk.rs:278-286, submission.rs:319-327: negative numbers are refused. *)
Definition as_n (v : value) : option N := match v with VInt z => if (0 <=? z)%Z then Some (Z.to_N z) else None | _ => None end.
Definition as_optn (v : value) : option (option N) := match v with VNull => Some None | _ => Some <$> as_n v end.
Definition as_blob (v : value) : option (option string) := match v with VBlob s => Some (Some s) | VNull => Some None | _ => None end.
Definition as_opttext (v : value) : option (option string) := match v with VText s => Some (Some s) | VNull => Some None | _ => None end.
Definition as_text (v : value) : option string := match v with VText s => Some s | _ => None end.
Definition as_time (v : value) : option time := match v with VTime t => Some t | _ => None end.
Definition as_optint (v : value) : option (option Z) := match v with VInt z => Some (Some z) | VNull => Some None | _ => None end.
(** ChunkSize: chunk.rs:61-69. *)
Definition as_size (v : value) : option Z := size_of <$> as_optint v.
(** Json<StrategicMetadataMap>. *)
Definition as_strat (v : value) : option strat_map := match v with VObj l => Some (list_to_map l) | _ => None end.
(** A row of which nothing is used. *)
Definition ignored (r : list value) : option unit := Some tt.

(** "c" and "t.c" and "$n". *)
Definition col (c : string) : expr := ECol None c.
Definition tcol (t c : string) : expr := ECol (Some t) c.
Definition par (n : nat) : expr := EParam n.

(** "t.submission_id = $i AND t.chunk_index = $j". *)
Definition is_chunk (q : option string) (i j : nat) : expr :=
  EAnd (EEq (ECol q "submission_id") (par i)) (EEq (ECol q "chunk_index") (par j)).

(** *** chunk.rs *)
(** chunk.rs:293-304. *)
Definition t_insert_chunk (c : chunk) : T unit :=
  execute (TInsert "chunks" ["submission_id"; "chunk_index"; "input_content"] [[par 1; par 2; par 3]])
    [v_n (c_sub c); v_n (c_index c); v_blob (c_input c)].
(** chunk.rs:346-389. *)
Definition t_complete_chunk_raw (cid : chunk_id) (out : content) (now : time) : T (option Z) :=
  let ps := [v_blob out; VTime now; v_n cid.1; v_n cid.2; v_n cid.1; v_n cid.2] in
  execute (TInsertSelect "chunks_completed" ["submission_id"; "chunk_index"; "output_content"; "completed_at"]
             [col "submission_id"; col "chunk_index"; par 1; EJulian (par 2)] "chunks" (is_chunk (Some "chunks") 3 4)) ps ;;$
  fetch_one ignored (TDelete "chunks" (is_chunk (Some "chunks") 5 6) [col "submission_id"; col "chunk_index"]) ps ;;$
  fetch_one (fun r => match r with [z] => as_optint z | _ => None end)
    (TUpdate "submissions" "chunks_done" (EAdd (col "chunks_done") (ELit (VInt 1))) (EEq (tcol "submissions" "id") (par 1)) [tcol "submissions" "chunk_size"])
    [v_n cid.1].
(** chunk.rs:450-482; the columns of "RETURNING *" are not used. *)
Definition t_move_chunk_to_failed_chunks (cid : chunk_id) (failure : string) (now : time) : T unit :=
  let ps := [VText failure; VTime now; v_n cid.1; v_n cid.2; v_n cid.1; v_n cid.2] in
  execute (TInsertSelect "chunks_failed" ["submission_id"; "chunk_index"; "input_content"; "failure"; "failed_at"]
             [col "submission_id"; col "chunk_index"; col "input_content"; par 1; EJulian (par 2)] "chunks" (is_chunk (Some "chunks") 3 4)) ps ;;$
  fetch_one ignored (TDelete "chunks" (is_chunk (Some "chunks") 5 6) [col "submission_id"; col "chunk_index"; col "input_content"; col "retries"; col "random_order"]) ps.
(** chunk.rs:490-509. *)
Definition t_get_chunk (cid : chunk_id) : T chunk :=
  fetch_one (fun r => match r with
      | [a; b; c; d] => a ← as_n a; b ← as_n b; c ← as_blob c; d ← as_n d; Some (Chunk a b c d)
      | _ => None end)
    (TSelect [col "submission_id"; col "chunk_index"; col "input_content"; col "retries"] "chunks" (is_chunk None 1 2)) [v_n cid.1; v_n cid.2].
(** chunk.rs:517-536. *)
Definition t_get_chunk_completed (cid : chunk_id) : T chunk_completed :=
  fetch_one (fun r => match r with
      | [a; b; c; d] => a ← as_n a; b ← as_n b; c ← as_blob c; d ← as_time d; Some (ChunkCompleted a b c d)
      | _ => None end)
    (TSelect [col "submission_id"; col "chunk_index"; col "output_content"; col "completed_at"] "chunks_completed" (is_chunk None 1 2)) [v_n cid.1; v_n cid.2].
(** chunk.rs:544-564. *)
Definition t_get_chunk_failed (cid : chunk_id) : T chunk_failed :=
  fetch_one (fun r => match r with
      | [a; b; c; d; e] => a ← as_n a; b ← as_n b; c ← as_blob c; d ← as_text d; e ← as_time e; Some (ChunkFailed a b c d e)
      | _ => None end)
    (TSelect [col "submission_id"; col "chunk_index"; col "input_content"; col "failure"; col "failed_at"] "chunks_failed" (is_chunk None 1 2)) [v_n cid.1; v_n cid.2].
(** chunk.rs:572-596: "VALUES (?, ?, ?), (?, ?, ?), ...". *)
Definition t_insert_many_stmt (n : nat) : statement :=
  TInsert "chunks" ["submission_id"; "chunk_index"; "input_content"] ((fun i => [par (3 * i + 1); par (3 * i + 2); par (3 * i + 3)]) <$> seq 0 n).
Definition t_chunk_params (l : list chunk) : list value := concat ((fun c => [v_n (c_sub c); v_n (c_index c); v_blob (c_input c)]) <$> l).
Fixpoint t_insert_many_loop (fuel : nat) (l : list chunk) : T unit :=
  match l with
  | [] => tret tt
  | _ :: _ =>
      match fuel with
      | O => TRet Panicked
      | S fuel' =>
          execute (t_insert_many_stmt (length (take rows_per_query l))) (t_chunk_params (take rows_per_query l)) ;;$
          t_insert_many_loop fuel' (drop rows_per_query l)
      end
  end.
Definition t_insert_many_chunks (l : list chunk) : T unit := t_insert_many_loop (length l) l.
(** chunk.rs:604-628. *)
Definition t_skip_remaining_chunks (id : sub_id) (now : time) : T unit :=
  let ps := [VTime now; v_n id; v_n id] in
  execute (TInsertSelect "chunks_failed" ["submission_id"; "chunk_index"; "input_content"; "failure"; "skipped"; "failed_at"]
             [col "submission_id"; col "chunk_index"; col "input_content"; ELit (VText ""); ELit (VInt 1); EJulian (par 1)] "chunks"
             (EEq (tcol "chunks" "submission_id") (par 2))) ps ;;$
  execute (TDelete "chunks" (EEq (tcol "chunks" "submission_id") (par 3)) []) ps.
(** chunk.rs:636-670, submission.rs:1050-1081. *)
Definition t_count (t : string) : T N := fetch_one (fun r => match r with [a] => as_n a | _ => None end) (TCount t) [].

(** *** submission.rs *)
(** submission.rs:345-366. *)
Definition t_insert_submission_raw (s : submission) : T unit :=
  execute (TInsert "submissions" ["id"; "prefix"; "chunks_total"; "chunks_done"; "metadata"; "otel_trace_carrier"; "chunk_size"] [[par 1; par 2; par 3; par 4; par 5; par 6; par 7]])
    [v_n (s_id s); v_text (s_prefix s); v_n (s_total s); v_n (s_done s); v_blob (s_meta s); VText (s_otel s); VInt (s_size s)].
(** submission.rs:373-397. *)
Fixpoint t_insert_metadata_loop (id : sub_id) (l : list (string * Z)) : T unit :=
  match l with
  | [] => tret tt
  | (k, v) :: l' =>
      execute (TInsert "submissions_metadata" ["submission_id"; "metadata_key"; "metadata_value"] [[par 1; par 2; par 3]]) [v_n id; VText k; VInt v] ;;$
      t_insert_metadata_loop id l'
  end.
(** submission.rs:400-431. *)
Definition t_insert_submission (s : submission) (chunks : list chunk) : T unit :=
  ttransaction (t_insert_submission_raw s ;;$ t_insert_metadata_loop (s_id s) (map_to_list (s_strat s)) ;;$ t_insert_many_chunks chunks).
(** "( SELECT json_group_object(metadata_key, metadata_value) FROM submissions_metadata WHERE submission_id = t.id )". *)
Definition strategic (t : string) : expr :=
  EJson (col "metadata_key") (col "metadata_value") "submissions_metadata" (EEq (col "submission_id") (tcol t "id")).
(** submission.rs:509-541, 667-699. *)
Definition t_find_submission (id : sub_id) : T (option submission) :=
  fetch_optional (fun r => match r with
      | [a; b; c; d; e; f; g; h] =>
          a ← as_n a; b ← as_opttext b; c ← as_n c; d ← as_n d; e ← as_size e; f ← as_blob f; g ← as_strat g; h ← as_text h;
          Some (Submission a b c d e f g h)
      | _ => None end)
    (TSelect [col "id"; col "prefix"; col "chunks_total"; col "chunks_done"; col "chunk_size"; col "metadata"; strategic "submissions"; col "otel_trace_carrier"]
       "submissions" (EEq (col "id") (par 1))) [v_n id].
(** submission.rs:701-732. *)
Definition t_find_completed (id : sub_id) : T (option submission_completed) :=
  fetch_optional (fun r => match r with
      | [a; b; c; d; e; f; g; h] =>
          a ← as_n a; b ← as_opttext b; c ← as_n c; d ← as_size d; e ← as_blob e; f ← as_strat f; g ← as_time g; h ← as_text h;
          Some (SubmissionCompleted a b c d e f g h)
      | _ => None end)
    (TSelect [col "id"; col "prefix"; col "chunks_total"; col "chunk_size"; col "metadata"; strategic "submissions_completed"; col "completed_at"; col "otel_trace_carrier"]
       "submissions_completed" (EEq (col "id") (par 1))) [v_n id].
(** submission.rs:734-769. *)
Definition t_find_failed (id : sub_id) : T (option submission_failed) :=
  fetch_optional (fun r => match r with
      | [a; b; c; d; e; f; g; h; i; j] =>
          a ← as_n a; b ← as_opttext b; c ← as_n c; d ← as_optn d; e ← as_size e; f ← as_blob f; g ← as_strat g; h ← as_time h; i ← as_n i; j ← as_text j;
          Some (SubmissionFailed a b c d e f g h i j)
      | _ => None end)
    (TSelect [col "id"; col "prefix"; col "chunks_total"; col "chunks_done"; col "chunk_size"; col "metadata"; strategic "submissions_failed"; col "failed_at";
              col "failed_chunk_id"; col "otel_trace_carrier"] "submissions_failed" (EEq (col "id") (par 1))) [v_n id].
(** submission.rs:778-807. *)
Definition t_find_cancelled (id : sub_id) : T (option submission_cancelled) :=
  fetch_optional (fun r => match r with
      | [a; b; c; d; e; f; g] =>
          a ← as_n a; b ← as_opttext b; c ← as_n c; d ← as_n d; e ← as_blob e; f ← as_strat f; g ← as_time g;
          Some (SubmissionCancelled a b c d e f g)
      | _ => None end)
    (TSelect [col "id"; col "prefix"; col "chunks_total"; col "chunks_done"; col "metadata"; strategic "submissions_cancelled"; col "cancelled_at"]
       "submissions_cancelled" (EEq (col "id") (par 1))) [v_n id].
(** submission.rs:505-541. *)
Definition t_get_submission (id : sub_id) : T submission :=
  r <-$ t_find_submission id;
  match r with Some s => tret s | None => terr (ESubmissionNotFound id) end.
(** submission.rs:550-567. *)
Definition t_get_submission_strategic_metadata (id : sub_id) : T strat_map :=
  l <-$ fetch_all (fun r => match r with [k; v] => v_pair k v | _ => None end)
    (TSelect [col "metadata_key"; col "metadata_value"] "submissions_metadata" (EEq (col "submission_id") (par 1))) [v_n id];
  tret (list_to_map l).
(** submission.rs:936-969. *)
Definition t_complete_submission_raw (id : sub_id) (now : time) : T unit :=
  let ps := [VTime now; v_n id; v_n id] in
  execute (TInsertSelect "submissions_completed" ["id"; "chunks_total"; "prefix"; "metadata"; "completed_at"]
             [col "id"; col "chunks_total"; col "prefix"; col "metadata"; EJulian (par 1)] "submissions" (EEq (col "id") (par 2))) ps ;;$
  tbind (fetch_one ignored (TDelete "submissions" (EEq (col "id") (par 3)) [col "id"; col "prefix"; col "chunks_total"; col "chunks_done"; col "metadata";
             col "otel_trace_carrier"; col "chunk_size"; col "random_order"]) ps)
        (fun r => match r with Err (EDb RowNotFound) => terr (ESubmissionNotFound id) | r => TRet r end).
(** submission.rs:822-839. *)
Definition t_maybe_complete_submission (id : sub_id) (now : time) : T bool :=
  ttransaction (
    s <-$ t_get_submission id;
    if (s_done s =? s_total s)%N then t_complete_submission_raw id now ;;$ tret true else tret false).
(** submission.rs:445-497. *)
Definition t_insert_submission_from_chunks (id : sub_id) (prefix : option string)
    (contents : list content) (meta : option string) (strat : strat_map) (size : Z)
    (otel : string) (now : time) : T sub_id :=
  let len := N.of_nat (length contents) in
  t_insert_submission (Submission id prefix len 0 size meta strat otel) (number_chunks id contents) ;;$
  if (len =? 0)%N then
    tbind (t_maybe_complete_submission id now) (fun r =>
      match r with
      | Err (EDb e) => terr (EDb e)
      | Err _ => tret id
      | Ok _ => tret id
      | Panicked => TRet Panicked
      end)
  else tret id.
(** chunk.rs:312-338. *)
Definition t_complete_chunk_tx (cid : chunk_id) (out : content) (now1 now2 : time) : T Z :=
  ttransaction (
    sz <-$ t_complete_chunk_raw cid out now1;
    t_maybe_complete_submission cid.1 now2 ;;$
    tret (size_of sz)).
Definition t_complete_chunk (cid : chunk_id) (out : content) (now1 now2 : time) : T unit :=
  tbind (t_complete_chunk_tx cid out now1 now2) (fun _ => tret tt).
(** submission.rs:972-1000. *)
Definition t_fail_submission_raw (id : sub_id) (failed_chunk : chunk_index) (now : time) : T unit :=
  let ps := [VTime now; v_n failed_chunk; v_n id; v_n id] in
  execute (TInsertSelect "submissions_failed" ["id"; "chunks_total"; "chunks_done"; "prefix"; "metadata"; "failed_at"; "failed_chunk_id"]
             [col "id"; col "chunks_total"; col "chunks_done"; col "prefix"; col "metadata"; EJulian (par 1); par 2] "submissions" (EEq (col "id") (par 3))) ps ;;$
  fetch_one ignored (TDelete "submissions" (EEq (col "id") (par 4)) [col "id"; col "prefix"; col "chunks_total"; col "chunks_done"; col "metadata";
             col "otel_trace_carrier"; col "chunk_size"; col "random_order"]) ps.
(** submission.rs:1027-1042. *)
Definition t_fail_submission_notx (id : sub_id) (ix : chunk_index) (failure : string) (now1 now2 now3 : time) : T unit :=
  t_fail_submission_raw id ix now1 ;;$
  t_move_chunk_to_failed_chunks (id, ix) failure now2 ;;$
  t_skip_remaining_chunks id now3.
(** submission.rs:1008-1020. *)
Definition t_fail_submission (id : sub_id) (ix : chunk_index) (failure : string) (now1 now2 now3 : time) : T unit :=
  ttransaction (t_fail_submission_notx id ix failure now1 now2 now3).
(** chunk.rs:397-442. *)
Definition t_retry_or_fail_chunk (cid : chunk_id) (failure : string) (max_retries : N) (now1 now2 now3 : time) : T bool :=
  ttransaction (
    retries <-$ fetch_one (fun r => match r with [n] => as_n n | _ => None end)
      (TUpdate "chunks" "retries" (EAdd (col "retries") (ELit (VInt 1))) (is_chunk None 1 2) [col "retries"]) [v_n cid.1; v_n cid.2];
    if (max_retries <=? retries)%N then
      t_fail_submission_notx cid.1 cid.2 failure now1 now2 now3 ;;$ tret true
    else tret false).
(** submission.rs:660-811. *)
Definition t_submission_status (id : sub_id) : T (option status) :=
  r <-$ t_find_submission id;
  match r with
  | Some s => tret (Some (InProgress s))
  | None =>
  r <-$ t_find_completed id;
  match r with
  | Some s => tret (Some (Completed s))
  | None =>
  r <-$ t_find_failed id;
  match r with
  | Some s => c <-$ t_get_chunk_failed (id, sf_chunk s); tret (Some (Failed s c))
  | None =>
  r <-$ t_find_cancelled id;
  match r with
  | Some s => tret (Some (Cancelled s))
  | None => tret None
  end end end end.
(** submission.rs:903-932. *)
Definition t_cancel_submission_raw (id : sub_id) (now : time) : T unit :=
  let ps := [VTime now; v_n id; v_n id] in
  execute (TInsertSelect "submissions_cancelled" ["id"; "chunks_total"; "prefix"; "metadata"; "cancelled_at"; "chunks_done"]
             [col "id"; col "chunks_total"; col "prefix"; col "metadata"; EJulian (par 1); col "chunks_done"] "submissions" (EEq (col "id") (par 2))) ps ;;$
  r <-$ fetch_optional ignored (TDelete "submissions" (EEq (col "id") (par 3)) [col "id"; col "prefix"; col "chunks_total"; col "chunks_done"; col "metadata";
             col "otel_trace_carrier"; col "chunk_size"; col "random_order"]) ps;
  match r with None => terr (ESubmissionNotFound id) | Some _ => tret tt end.
(** submission.rs:893-900. *)
Definition t_cancel_submission_notx (id : sub_id) (now1 now2 : time) : T unit :=
  t_cancel_submission_raw id now1 ;;$ t_skip_remaining_chunks id now2.
(** submission.rs:853-886. *)
Definition t_cancel_submission (id : sub_id) (now1 now2 : time) : T unit :=
  ttransaction (
    tbind (t_cancel_submission_notx id now1 now2) (fun r =>
      match r with
      | Ok _ => tret tt
      | Err (ESubmissionNotFound _) =>
          st <-$ t_submission_status id;
          match st with
          | None => terr (ESubmissionNotFound id)
          | Some (InProgress _) => TRet Panicked
          | Some s => terr (ENotCancellable s)
          end
      | Err e => terr e
      | Panicked => TRet Panicked
      end)).
(** submission.rs:1092-1168. *)
Definition t_delete_metadata (t at_ : string) (cutoff : time) : T unit :=
  execute (TDelete "submissions_metadata" (EIn (col "submission_id") (col "id") t (ELt (col at_) (EJulian (par 1)))) []) [VTime cutoff].
Definition t_delete_old (t at_ : string) (cutoff : time) : T unit :=
  execute (TDelete t (ELt (col at_) (EJulian (par 1))) []) [VTime cutoff].
Definition t_cleanup_old (cutoff : time) : T unit :=
  ttransaction (
    t_delete_metadata "submissions_completed" "completed_at" cutoff ;;$
    t_delete_metadata "submissions_failed" "failed_at" cutoff ;;$
    t_delete_metadata "submissions_cancelled" "cancelled_at" cutoff ;;$
    t_delete_old "submissions_completed" "completed_at" cutoff ;;$
    t_delete_old "submissions_failed" "failed_at" cutoff ;;$
    t_delete_old "submissions_cancelled" "cancelled_at" cutoff ;;$
    t_delete_old "chunks_completed" "completed_at" cutoff ;;$
    t_delete_old "chunks_failed" "failed_at" cutoff).

(** *** Operations and histories, as in History.v *)
Definition t_op_prog (o : op) : tprog answer :=
  match o with
  | OInsert id p l m s z o n => tbind (t_insert_submission_from_chunks id p l m s z o n) (fun r => TRet (AInsert r))
  | OComplete cid out n1 n2 => tbind (t_complete_chunk cid out n1 n2) (fun r => TRet (AComplete r))
  | OFail cid f mx n1 n2 n3 => tbind (t_retry_or_fail_chunk cid f mx n1 n2 n3) (fun r => TRet (AFail r))
  | OCancel id n1 n2 => tbind (t_cancel_submission id n1 n2) (fun r => TRet (ACancel r))
  | OFailSubmission id ix f n1 n2 n3 => tbind (t_fail_submission id ix f n1 n2 n3) (fun r => TRet (AFailSubmission r))
  | OCleanup c => tbind (t_cleanup_old c) (fun r => TRet (ACleanup r))
  end.
Definition t_finished (e : event) (D : sdb) : answer * sdb := texec (t_op_prog (e_op e)) D (e_faults e).
Definition t_step (D : sdb) (e : event) : sdb :=
  match e_crash e with
  | None => snd (t_finished e D)
  | Some k => default (snd (t_finished e D)) (tcrash_dbs (t_op_prog (e_op e)) D (e_faults e) !! k)
  end.
Definition t_answer_of (D : sdb) (e : event) : option answer :=
  match e_crash e with None => Some (fst (t_finished e D)) | Some _ => None end.
(** What the program finds in a database file in which a new server was started and did [h]. *)
Definition t_after (h : history) : sdb := fold_left t_step h sdb_new.

(** *** What a database file stands for *)
(** The stored columns of a row, in the order of the table's columns. *)
Definition enc_sub (x : sub_id * sub_row) : list value :=
  let '(id, r) := x in [v_n id; v_text (sr_prefix r); v_n (sr_total r); v_n (sr_done r); v_blob (sr_meta r); VText (sr_otel r); v_int (sr_size r)].
Definition enc_comp (x : sub_id * comp_row) : list value :=
  let '(id, r) := x in [v_n id; v_text (cr_prefix r); v_n (cr_total r); v_blob (cr_meta r); VTime (cr_at r); VText (cr_otel r); v_int (cr_size r)].
Definition enc_fail (x : sub_id * fail_row) : list value :=
  let '(id, r) := x in [v_n id; v_text (fr_prefix r); v_n (fr_total r); v_blob (fr_meta r); v_n (fr_chunk r); VTime (fr_at r); VText (fr_otel r);
    v_int (fr_size r); v_optn (fr_done r)].
Definition enc_canc (x : sub_id * canc_row) : list value :=
  let '(id, r) := x in [v_n id; v_text (xr_prefix r); v_n (xr_total r); v_n (xr_done r); v_blob (xr_meta r); VTime (xr_at r)].
Definition enc_meta (x : sub_id * string * Z) : list value := let '(id, k, v) := x in [v_n id; VText k; VInt v].
Definition enc_chunk (x : chunk_id * chunk_row) : list value :=
  let '(id, ix, r) := x in [v_n id; v_n ix; v_blob (ch_input r); v_n (ch_retries r)].
Definition enc_cdone (x : chunk_id * chunk_comp_row) : list value :=
  let '(id, ix, r) := x in [v_n id; v_n ix; v_blob (cc_output r); VTime (cc_at r)].
Definition enc_cfail (x : chunk_id * chunk_fail_row) : list value :=
  let '(id, ix, r) := x in [v_n id; v_n ix; v_blob (cf_input r); VText (cf_failure r); VTime (cf_at r); v_bool (cf_skipped r)].
(** The file has the tables that the migrations make, and in each of them the rows of [d] in some
    order. *)
Record stands_for (D : sdb) (d : db) : Prop := StandsFor {
  sf_heads : s_head D = heads;
  sf_subs : rows_in D "submissions" ≡ₚ enc_sub <$> map_to_list (t_sub d);
  sf_comps : rows_in D "submissions_completed" ≡ₚ enc_comp <$> map_to_list (t_comp d);
  sf_fails : rows_in D "submissions_failed" ≡ₚ enc_fail <$> map_to_list (t_fail d);
  sf_cancs : rows_in D "submissions_cancelled" ≡ₚ enc_canc <$> map_to_list (t_canc d);
  sf_metas : rows_in D "submissions_metadata" ≡ₚ enc_meta <$> map_to_list (t_meta d);
  sf_chunks : rows_in D "chunks" ≡ₚ enc_chunk <$> map_to_list (t_chunk d);
  sf_cdones : rows_in D "chunks_completed" ≡ₚ enc_cdone <$> map_to_list (t_cdone d);
  sf_cfails : rows_in D "chunks_failed" ≡ₚ enc_cfail <$> map_to_list (t_cfail d) }.
