(** What each database operation does, as one equation per operation. *)
From Verif Require Export SqliteProofs SubmissionDb.
Local Open Scope N_scope.

(** *** Tables *)
Section tables.
  Context {K : Type} `{Countable K} {A : Type}.
  Implicit Types m : gmap K A.
  Lemma ins_rows_one {B} (k : K) (f : A -> B) m (m' : gmap K B) :
    ins_rows (one_row k f m) m' =
    match m !! k with
    | None => SOk m'
    | Some a => match m' !! k with None => SOk (<[k := f a]> m') | Some _ => SErr UniqueViolation end
    end.
  Proof.
    unfold ins_rows, one_row. destruct (m !! k) as [a|] eqn:E.
    - destruct (decide (map_Forall _ _)) as [Hd|Hd].
      + rewrite map_Forall_singleton in Hd. rewrite Hd. f_equal. symmetry. apply insert_union_singleton_l.
      + destruct (m' !! k) eqn:E'; [done|]. exfalso. apply Hd. by apply map_Forall_singleton.
    - destruct (decide (map_Forall _ _)) as [Hd|Hd]; [by rewrite (left_id_L ∅ (∪))|].
      exfalso; apply Hd, map_Forall_empty.
  Qed.

  Lemma ins_many_app (l1 l2 : list (K * A)) m :
    ins_many (l1 ++ l2) m = match ins_many l1 m with SOk m' => ins_many l2 m' | SErr e => SErr e end.
  Proof.
    revert m. induction l1 as [|[k a] l1 IH]; intros m; simpl; [done|].
    unfold ins. destruct (m !! k); [done|]. apply IH.
  Qed.

  Lemma ins_many_fresh (l : list (K * A)) m :
    NoDup l.*1 -> (forall k, k ∈ l.*1 -> m !! k = None) ->
    ins_many l m = SOk (list_to_map l ∪ m).
  Proof.
    revert m. induction l as [|[k a] l IH]; intros m Hnd Hf; simpl.
    - by rewrite (left_id_L ∅ (∪)).
    - simpl in Hnd. apply NoDup_cons in Hnd as [Hk Hnd]. unfold ins.
      rewrite (Hf k) by (simpl; left). rewrite IH; [|done|].
      + f_equal. rewrite <- insert_union_l. rewrite insert_union_r; [done|].
        by apply not_elem_of_list_to_map.
      + intros k' Hk'. rewrite lookup_insert_ne by (intros ->; done). apply Hf. simpl. by right.
  Qed.
End tables.

Section rows_of.
  Context {K : Type} `{Countable K} {A : Type}.
  Implicit Types m : gmap (sub_id * K) A.
  Lemma lookup_rows_of m id k : rows_of m id !! k = m !! (id, k).
  Proof.
    unfold rows_of. rewrite <- (lookup_gmap_curry m id k). destruct (gmap_curry m !! id); [done|].
    simpl. by rewrite lookup_empty.
  Qed.
  Lemma rows_of_eq m m' id id' : (forall k, m !! (id, k) = m' !! (id', k)) -> rows_of m id = rows_of m' id'.
  Proof. intros E. apply map_eq. intros k. rewrite !lookup_rows_of. apply E. Qed.
  Lemma rows_of_insert m id k a : rows_of (<[(id, k) := a]> m) id = <[k := a]> (rows_of m id).
  Proof.
    apply map_eq. intros k'. rewrite lookup_rows_of. destruct (decide (k = k')) as [->|Hne].
    - by rewrite !lookup_insert.
    - rewrite !lookup_insert_ne by congruence. by rewrite lookup_rows_of.
  Qed.
  Lemma rows_of_insert_ne m id id' k a : id' <> id -> rows_of (<[(id', k) := a]> m) id = rows_of m id.
  Proof. intros Hne. apply rows_of_eq. intros k'. by rewrite lookup_insert_ne by congruence. Qed.
  Lemma rows_of_delete m id k : rows_of (delete (id, k) m) id = delete k (rows_of m id).
  Proof.
    apply map_eq. intros k'. rewrite lookup_rows_of. destruct (decide (k = k')) as [->|Hne].
    - by rewrite !lookup_delete.
    - rewrite !lookup_delete_ne by congruence. by rewrite lookup_rows_of.
  Qed.
  Lemma rows_of_delete_ne m id id' k : id' <> id -> rows_of (delete (id', k) m) id = rows_of m id.
  Proof. intros Hne. apply rows_of_eq. intros k'. by rewrite lookup_delete_ne by congruence. Qed.
  Lemma rows_of_empty id : rows_of (∅ : gmap (sub_id * K) A) id = ∅.
  Proof. apply map_eq. intros k. by rewrite lookup_rows_of, !lookup_empty. Qed.
  Lemma rows_of_none m id : (forall k, m !! (id, k) = None) -> rows_of m id = ∅.
  Proof. intros E. apply map_eq. intros k. by rewrite lookup_rows_of, lookup_empty. Qed.
End rows_of.

Lemma lookup_of_submission {A} (id : sub_id) (m : gmap chunk_id A) (cid : chunk_id) :
  of_submission id m !! cid = if decide (cid.1 = id) then m !! cid else None.
Proof.
  unfold of_submission. destruct (decide _) as [E|E].
  - destruct (m !! cid) eqn:Em.
    + by apply map_filter_lookup_Some.
    + apply map_filter_lookup_None. by left.
  - apply map_filter_lookup_None. right. intros x _. simpl. done.
Qed.
Lemma lookup_not_of_submission {A} (id : sub_id) (m : gmap chunk_id A) (cid : chunk_id) :
  not_of_submission id m !! cid = if decide (cid.1 = id) then None else m !! cid.
Proof.
  unfold not_of_submission. destruct (decide _) as [E|E].
  - apply map_filter_lookup_None. right. intros x _. simpl. tauto.
  - destruct (m !! cid) eqn:Em.
    + by apply map_filter_lookup_Some.
    + apply map_filter_lookup_None. by left.
Qed.

(** *** Every operation is a good program *)
Lemma good_insert_many_loop n l : good (insert_many_loop n l).
Proof. revert l. induction n as [|n IH]; intros [|c l]; simpl; solve_good. Qed.
Lemma good_insert_many_chunks l : good (insert_many_chunks l).
Proof. apply good_insert_many_loop. Qed.
Lemma good_insert_metadata_loop id l : good (insert_metadata_loop id l).
Proof. induction l as [|[k v] l IH]; simpl; solve_good. Qed.
Lemma good_insert_metadata s m : good (insert_submission_metadata_raw s m).
Proof. apply good_insert_metadata_loop. Qed.
Global Hint Resolve good_insert_many_chunks good_insert_metadata : good.
Lemma good_insert_raw s : good (insert_submission_raw s).
Proof. apply good_sql. Qed.
Global Hint Resolve good_insert_raw : good.
Lemma good_insert_submission s l : good (insert_submission s l).
Proof. unfold insert_submission. solve_good. Qed.
Global Hint Resolve good_insert_submission : good.
Lemma good_get_submission id : good (get_submission id).
Proof. unfold get_submission. solve_good. Qed.
Global Hint Resolve good_get_submission : good.
Lemma good_complete_submission_raw id now : good (complete_submission_raw id now).
Proof.
  unfold complete_submission_raw. apply good_tryb; [apply good_sql|]. intros _.
  apply good_bind; [apply good_sql| |done].
  intros [a|[[]| |]|]; solve_good.
Qed.
Global Hint Resolve good_complete_submission_raw : good.
Lemma good_maybe_complete id now : good (maybe_complete_submission id now).
Proof. unfold maybe_complete_submission. solve_good. Qed.
Global Hint Resolve good_maybe_complete : good.
Lemma good_complete_chunk_raw cid out now : good (complete_chunk_raw cid out now).
Proof. unfold complete_chunk_raw. solve_good. Qed.
Global Hint Resolve good_complete_chunk_raw : good.
Lemma good_complete_chunk_tx cid out n1 n2 : good (complete_chunk_tx cid out n1 n2).
Proof. unfold complete_chunk_tx. solve_good. Qed.
Global Hint Resolve good_complete_chunk_tx : good.
Lemma good_fail_submission_raw id ix n : good (fail_submission_raw id ix n).
Proof. unfold fail_submission_raw. solve_good. Qed.
Lemma good_move_chunk cid f n : good (move_chunk_to_failed_chunks cid f n).
Proof. unfold move_chunk_to_failed_chunks. solve_good. Qed.
Lemma good_skip id n : good (skip_remaining_chunks id n).
Proof. unfold skip_remaining_chunks. solve_good. Qed.
Global Hint Resolve good_fail_submission_raw good_move_chunk good_skip : good.
Lemma good_fail_notx id ix f n1 n2 n3 : good (fail_submission_notx id ix f n1 n2 n3).
Proof. unfold fail_submission_notx. solve_good. Qed.
Global Hint Resolve good_fail_notx : good.
Lemma good_fail_submission id ix f n1 n2 n3 : good (fail_submission id ix f n1 n2 n3).
Proof. unfold fail_submission. solve_good. Qed.
Lemma good_retry_or_fail cid f mx n1 n2 n3 : good (retry_or_fail_chunk cid f mx n1 n2 n3).
Proof. unfold retry_or_fail_chunk. solve_good. Qed.
Global Hint Resolve good_fail_submission good_retry_or_fail : good.
Lemma good_get_chunk_failed cid : good (get_chunk_failed cid).
Proof. apply good_sql. Qed.
Global Hint Resolve good_get_chunk_failed : good.
Lemma good_status id : good (submission_status id).
Proof. unfold submission_status. solve_good. Qed.
Global Hint Resolve good_status : good.
Lemma good_cancel_raw id n : good (cancel_submission_raw id n).
Proof. unfold cancel_submission_raw. solve_good. Qed.
Global Hint Resolve good_cancel_raw : good.
Lemma good_cancel_notx id n1 n2 : good (cancel_submission_notx id n1 n2).
Proof. unfold cancel_submission_notx. solve_good. Qed.
Global Hint Resolve good_cancel_notx : good.
Lemma good_cancel_body id n1 n2 : good (bind (cancel_submission_notx id n1 n2) (fun r =>
      match r with
      | Ok _ => ret tt
      | Err (ESubmissionNotFound _) =>
          st <-? submission_status id;
          match st with
          | None => err (ESubmissionNotFound id)
          | Some (InProgress _) => Ret Panicked
          | Some s => err (ENotCancellable s)
          end
      | Err e => err e
      | Panicked => Ret Panicked
      end)).
Proof. apply good_bind; [apply good_cancel_notx| |done]. solve_good. Qed.
Lemma good_cancel id n1 n2 : good (cancel_submission id n1 n2).
Proof. apply good_transaction, good_cancel_body. Qed.
Global Hint Resolve good_cancel : good.
Lemma good_cleanup c : good (cleanup_old c).
Proof. unfold cleanup_old. solve_good. Qed.
Global Hint Resolve good_cleanup : good.
Lemma good_insert_from_chunks id p l m s z o n : good (insert_submission_from_chunks id p l m s z o n).
Proof.
  unfold insert_submission_from_chunks. apply good_tryb; [auto with good|]. intros _.
  destruct (_ =? _); [|apply good_ret].
  apply good_bind; [auto with good| |done].
  intros [a|[]|]; solve_good.
Qed.
Global Hint Resolve good_insert_from_chunks : good.

(** *** Equations *)
Ltac ex := rewrite ?exec_tx, ?exec_tryb, ?exec_sql, ?exec_read, ?exec_ret by auto with good.

Lemma exec_get_submission id d :
  exec (get_submission id) d [] =
  (match t_sub d !! id with Some r => Ok (submission_of d id r) | None => Err (ESubmissionNotFound id) end, d).
Proof. unfold get_submission. ex. destruct (t_sub d !! id); done. Qed.

Lemma exec_complete_submission_raw id now d :
  exec (complete_submission_raw id now) d [] =
  match t_sub d !! id with
  | None => (Err (ESubmissionNotFound id), d)
  | Some s =>
      match t_comp d !! id with
      | Some _ => (Err (EDb UniqueViolation), d)
      | None => (Ok tt, set_sub (delete id) (set_comp (insert id (CompRow (sr_prefix s) (sr_total s) (sr_meta s) now "{}" None)) d))
      end
  end.
Proof.
  unfold complete_submission_raw. ex. rewrite ins_rows_one.
  destruct (t_sub d !! id) as [s|] eqn:E.
  - destruct (t_comp d !! id) eqn:Ec; [done|]. simpl.
    rewrite exec_bind by apply local_sql. ex. simpl. unfold del_one. rewrite E. simpl. done.
  - simpl. rewrite exec_bind by apply local_sql. ex. simpl. unfold del_one. rewrite E. simpl.
    destruct d; done.
Qed.

Lemma exec_maybe_complete id now d :
  exec (maybe_complete_submission id now) d [] =
  match t_sub d !! id with
  | None => (Err (ESubmissionNotFound id), d)
  | Some s =>
      if sr_done s =? sr_total s then
        match t_comp d !! id with
        | Some _ => (Err (EDb UniqueViolation), d)
        | None => (Ok true, set_sub (delete id) (set_comp (insert id (CompRow (sr_prefix s) (sr_total s) (sr_meta s) now "{}" None)) d))
        end
      else (Ok false, d)
  end.
Proof.
  unfold maybe_complete_submission. rewrite exec_tx by solve_good. ex. rewrite exec_get_submission.
  destruct (t_sub d !! id) as [s|] eqn:E; [|done]. simpl.
  destruct (_ =? _); [|done]. ex. rewrite exec_complete_submission_raw, E.
  destruct (t_comp d !! id); done.
Qed.

Definition done_plus (s : sub_row) : sub_row :=
  SubRow (sr_prefix s) (sr_total s) (sr_done s + 1) (sr_meta s) (sr_otel s) (sr_size s).

(** The database after recording a completed chunk, before the submission is looked at. *)
Definition after_chunk (cid : chunk_id) (out : content) (n1 : time) (s : sub_row) (d : db) : db :=
  set_sub (insert cid.1 (done_plus s)) (set_chunk (delete cid) (set_cdone (insert cid (ChunkCompRow out n1)) d)).

Lemma exec_complete_chunk_tx cid out n1 n2 d :
  exec (complete_chunk_tx cid out n1 n2) d [] =
  match t_chunk d !! cid with
  | None => (Err (EDb RowNotFound), d)
  | Some _ =>
      match t_cdone d !! cid with
      | Some _ => (Err (EDb UniqueViolation), d)
      | None =>
          match t_sub d !! cid.1 with
          | None => (Err (EDb RowNotFound), d)
          | Some s =>
              if sr_done s + 1 =? sr_total s then
                match t_comp d !! cid.1 with
                | Some _ => (Err (EDb UniqueViolation), d)
                | None => (Ok (size_of (sr_size s)),
                    set_sub (delete cid.1) (set_comp (insert cid.1 (CompRow (sr_prefix s) (sr_total s) (sr_meta s) n2 "{}" None))
                      (after_chunk cid out n1 s d)))
                end
              else (Ok (size_of (sr_size s)), after_chunk cid out n1 s d)
          end
      end
  end.
Proof.
  unfold complete_chunk_tx. rewrite exec_tx by solve_good. ex. unfold complete_chunk_raw at 1.
  rewrite exec_tryb by solve_good. ex. rewrite ins_rows_one.
  destruct (t_chunk d !! cid) as [c|] eqn:Ec.
  - destruct (t_cdone d !! cid) eqn:Ed; [done|]. ex. simpl. unfold del_one. rewrite Ec. simpl. ex. simpl.
    destruct (t_sub d !! cid.1) as [s|] eqn:Es; [|done]. simpl. ex. rewrite exec_maybe_complete. simpl.
    rewrite lookup_insert. simpl. destruct (_ =? _); [|done].
    destruct (t_comp d !! cid.1); done.
  - ex. simpl. unfold del_one. rewrite Ec. done.
Qed.

Lemma complete_chunk_exec cid out n1 n2 d fs :
  exec (complete_chunk cid out n1 n2) d fs = (Ok tt, snd (exec (complete_chunk_tx cid out n1 n2) d fs)).
Proof.
  unfold complete_chunk, exec. rewrite run_bind. destruct (run _ _ _) as [[r c'] fs']. done.
Qed.
Lemma complete_chunk_faults cid out n1 n2 d fs :
  exec (complete_chunk cid out n1 n2) d fs = (Ok tt, d) \/
  exec (complete_chunk cid out n1 n2) d fs = (Ok tt, snd (exec (complete_chunk_tx cid out n1 n2) d [])).
Proof.
  rewrite complete_chunk_exec. unfold complete_chunk_tx.
  match goal with |- context[transaction ?b] => pose proof (exec_tx_faults b d fs ltac:(solve_good)) as [-> | ->] end; auto.
Qed.

(** Permanent failure. *)
Definition fail_row_of (s : sub_row) (ix : chunk_index) (n : time) : fail_row :=
  FailRow (sr_prefix s) (sr_total s) (Some (sr_done s)) (sr_meta s) n ix "{}" None.
Definition skipped_rows (id : sub_id) (n : time) (m : gmap chunk_id chunk_row) : gmap chunk_id chunk_fail_row :=
  (fun c => ChunkFailRow (ch_input c) "" n true) <$> of_submission id m.

Lemma exec_skip id n d :
  exec (skip_remaining_chunks id n) d [] =
  match ins_rows (skipped_rows id n (t_chunk d)) (t_cfail d) with
  | SOk m => (Ok tt, set_chunk (not_of_submission id) (set_cfail (fun _ => m) d))
  | SErr e => (Err (EDb e), d)
  end.
Proof.
  unfold skip_remaining_chunks. ex. change (_ <$> of_submission id (t_chunk d)) with (skipped_rows id n (t_chunk d)).
  destruct (ins_rows _ _) eqn:E; [|done]. ex. done.
Qed.

Lemma exec_fail_notx id ix f n1 n2 n3 d :
  fst (exec (fail_submission_notx id ix f n1 n2 n3) d []) <> Panicked /\
  (forall u, fst (exec (fail_submission_notx id ix f n1 n2 n3) d []) = Ok u ->
   exists s c m, t_sub d !! id = Some s /\ t_fail d !! id = None /\ t_chunk d !! (id, ix) = Some c /\
     t_cfail d !! (id, ix) = None /\
     ins_rows (skipped_rows id n3 (delete (id, ix) (t_chunk d)))
       (<[(id, ix) := ChunkFailRow (ch_input c) f n2 false]> (t_cfail d)) = SOk m /\
     snd (exec (fail_submission_notx id ix f n1 n2 n3) d []) =
       Db (delete id (t_sub d)) (t_comp d) (<[id := fail_row_of s ix n1]> (t_fail d)) (t_canc d) (t_meta d)
          (not_of_submission id (t_chunk d)) (t_cdone d) m) /\
  (forall s c m, t_sub d !! id = Some s -> t_fail d !! id = None -> t_chunk d !! (id, ix) = Some c ->
     t_cfail d !! (id, ix) = None ->
     ins_rows (skipped_rows id n3 (delete (id, ix) (t_chunk d)))
       (<[(id, ix) := ChunkFailRow (ch_input c) f n2 false]> (t_cfail d)) = SOk m ->
     fst (exec (fail_submission_notx id ix f n1 n2 n3) d []) = Ok tt).
Proof.
  assert (Hdel : not_of_submission id (delete (id, ix) (t_chunk d)) = not_of_submission id (t_chunk d)).
  { apply map_eq. intros cid. rewrite !lookup_not_of_submission. destruct (decide _); [done|].
    rewrite lookup_delete_ne; [done|]. intros <-. done. }
  unfold fail_submission_notx. ex. unfold fail_submission_raw. ex. rewrite ins_rows_one.
  destruct (t_sub d !! id) as [s|] eqn:Es.
  2:{ ex. simpl. unfold del_one. rewrite Es. simpl. split; [done|]. split; [done|]. intros; congruence. }
  destruct (t_fail d !! id) eqn:Ef.
  { simpl. split; [done|]. split; [done|]. intros; congruence. }
  ex. simpl. unfold del_one. rewrite Es. simpl. ex.
  unfold move_chunk_to_failed_chunks. ex. simpl. rewrite ins_rows_one.
  destruct (t_chunk d !! (id, ix)) as [c|] eqn:Ec.
  2:{ ex. simpl. unfold del_one. rewrite Ec. simpl. split; [done|]. split; [done|]. intros; congruence. }
  destruct (t_cfail d !! (id, ix)) eqn:Ecf.
  { simpl. split; [done|]. split; [done|]. intros; congruence. }
  ex. simpl. unfold del_one. rewrite Ec. simpl. rewrite exec_skip. simpl.
  destruct (ins_rows _ _) as [m|e] eqn:Ei.
  - simpl. split; [done|]. split; [|done]. intros _ _. exists s, c, m.
    repeat split; try done. rewrite <- Hdel. unfold set_chunk, set_cfail, set_fail, set_sub; simpl. done.
  - simpl. split; [done|]. split; [done|]. intros s' c' m' E1 _ E2 _. injection E1 as <-. injection E2 as <-.
    rewrite Ei. done.
Qed.

Lemma exec_status id d :
  exec (submission_status id) d [] =
  (match t_sub d !! id with
   | Some r => Ok (Some (InProgress (submission_of d id r)))
   | None => match t_comp d !! id with
   | Some r => Ok (Some (Completed (completed_of d id r)))
   | None => match t_fail d !! id with
   | Some r => match t_cfail d !! (id, fr_chunk r) with
       | Some c => Ok (Some (Failed (failed_of d id r) (ChunkFailed id (fr_chunk r) (cf_input c) (cf_failure c) (cf_at c))))
       | None => Err (EDb RowNotFound) end
   | None => match t_canc d !! id with
   | Some r => Ok (Some (Cancelled (cancelled_of d id r)))
   | None => Ok None
   end end end end, d).
Proof.
  unfold submission_status. rewrite exec_tryb, exec_read by solve_good.
  destruct (t_sub d !! id) as [r|]; simpl; [done|]. rewrite exec_tryb, exec_read by solve_good.
  destruct (t_comp d !! id) as [r|]; simpl; [done|]. rewrite exec_tryb, exec_read by solve_good.
  destruct (t_fail d !! id) as [r|]; simpl.
  - rewrite exec_tryb by solve_good. unfold get_chunk_failed. rewrite exec_sql. simpl.
    destruct (t_cfail d !! (id, fr_chunk r)); done.
  - rewrite exec_tryb, exec_read by solve_good. destruct (t_canc d !! id) as [r|]; done.
Qed.

Definition canc_row_of (s : sub_row) (n : time) : canc_row :=
  CancRow (sr_prefix s) (sr_total s) (sr_done s) (sr_meta s) n.

Lemma exec_cancel id n1 n2 d :
  exec (cancel_submission id n1 n2) d [] =
  match t_sub d !! id with
  | Some s =>
      match t_canc d !! id with
      | Some _ => (Err (EDb UniqueViolation), d)
      | None =>
          match ins_rows (skipped_rows id n2 (t_chunk d)) (t_cfail d) with
          | SOk m => (Ok tt, Db (delete id (t_sub d)) (t_comp d) (t_fail d) (<[id := canc_row_of s n1]> (t_canc d))
                          (t_meta d) (not_of_submission id (t_chunk d)) (t_cdone d) m)
          | SErr e => (Err (EDb e), d)
          end
      end
  | None =>
      (match fst (exec (submission_status id) d []) with
       | Ok None => Err (ESubmissionNotFound id)
       | Ok (Some (InProgress _)) => Panicked
       | Ok (Some s) => Err (ENotCancellable s)
       | Err e => Err e
       | Panicked => Panicked
       end, d)
  end.
Proof.
  unfold cancel_submission. rewrite exec_tx by apply good_cancel_body.
  rewrite exec_bind by apply good_cancel_notx.
  unfold cancel_submission_notx. rewrite exec_tryb by auto with good.
  unfold cancel_submission_raw. rewrite exec_tryb by auto with good. rewrite exec_sql, ins_rows_one.
  destruct (t_sub d !! id) as [s|] eqn:Es.
  - destruct (t_canc d !! id) eqn:Ec; [done|]. rewrite exec_tryb by auto with good. rewrite exec_sql.
    simpl. rewrite Es. unfold ret. rewrite exec_ret, exec_skip. simpl.
    destruct (ins_rows _ _); done.
  - rewrite exec_tryb by auto with good. rewrite exec_sql. simpl. rewrite Es. unfold err. rewrite exec_ret. simpl.
    rewrite exec_tryb by auto with good.
    replace (set_sub (delete id) _) with d.
    2:{ unfold set_canc, set_sub; simpl. rewrite delete_notin by done. destruct d; done. }
    pose proof (exec_status id d) as Est.
    destruct (exec (submission_status id) d []) as [r d']; simpl in *. injection Est as _ ->.
    destruct r as [[[]|]| |]; done.
Qed.

(** Inserting. *)
Lemma exec_insert_many_loop n l d : (length l <= n)%nat ->
  match ins_many (chunk_rows l) (t_chunk d) with
  | SOk m => exec (insert_many_loop n l) d [] = (Ok tt, set_chunk (fun _ => m) d)
  | SErr e => fst (exec (insert_many_loop n l) d []) = Err (EDb e)
  end.
Proof.
  revert l d. induction n as [|n IH]; intros [|c l] d Hlen; [| simpl in Hlen; lia | |].
  - simpl. destruct d; done.
  - simpl. destruct d; done.
  - change (insert_many_loop (S n) (c :: l)) with
      (sql (on t_chunk set_chunk (ins_many (chunk_rows (take rows_per_query (c :: l))))) ;;?
          insert_many_loop n (drop rows_per_query (c :: l))).
    set (l0 := c :: l) in *.
    rewrite exec_tryb by auto with good. rewrite exec_sql. unfold on.
    assert (chunk_rows l0 = chunk_rows (take rows_per_query l0) ++ chunk_rows (drop rows_per_query l0)) as ->.
    { unfold chunk_rows. rewrite <- fmap_app. f_equal. symmetry. apply take_drop. }
    rewrite ins_many_app.
    destruct (ins_many (chunk_rows (take rows_per_query l0)) (t_chunk d)) as [m|e]; [|done].
    specialize (IH (drop rows_per_query l0) (set_chunk (fun _ => m) d)).
    feed specialize IH. { rewrite drop_length. unfold rows_per_query. subst l0. simpl in *. lia. }
    simpl in IH. unfold chunk_rows in IH. destruct (ins_many _ m); done.
Qed.

Lemma exec_insert_metadata_loop id l d :
  match ins_many ((fun kv => ((id, kv.1), kv.2)) <$> l) (t_meta d) with
  | SOk m => exec (insert_metadata_loop id l) d [] = (Ok tt, set_meta (fun _ => m) d)
  | SErr e => fst (exec (insert_metadata_loop id l) d []) = Err (EDb e)
  end.
Proof.
  revert d. induction l as [|[k v] l IH]; intros d; simpl.
  - destruct d; done.
  - rewrite exec_tryb by (auto using good_insert_metadata_loop with good). rewrite exec_sql. unfold on.
    destruct (ins (id, k) v (t_meta d)) as [m|e]; [|done].
    specialize (IH (set_meta (fun _ => m) d)). simpl in IH. destruct (ins_many _ m); done.
Qed.

Definition numbered_rows (id : sub_id) (contents : list content) : list (chunk_id * chunk_row) :=
  imap (fun i x => ((id, N.of_nat i), ChunkRow x 0)) contents.
Definition chunk_table (id : sub_id) (contents : list content) : gmap chunk_id chunk_row :=
  list_to_map (numbered_rows id contents).
Definition meta_table (id : sub_id) (strat : strat_map) : gmap (sub_id * string) Z :=
  list_to_map ((fun kv => ((id, kv.1), kv.2)) <$> map_to_list strat).

Lemma chunk_rows_number id contents : chunk_rows (number_chunks id contents) = numbered_rows id contents.
Proof. unfold chunk_rows, number_chunks, numbered_rows. rewrite fmap_imap. done. Qed.

Lemma numbered_keys id contents : (numbered_rows id contents).*1 = (fun i => (id, N.of_nat i)) <$> seq 0 (length contents).
Proof.
  unfold numbered_rows. rewrite fmap_imap. unfold compose; simpl.
  assert (forall (l : list content) n, imap (fun i _ => (id, N.of_nat (n + i))) l = (fun i => (id, N.of_nat i)) <$> seq n (length l)) as Hgen.
  { induction l as [|x l IH]; intros n; simpl; [done|]. f_equal.
    - by rewrite Nat.add_0_r.
    - rewrite <- IH. apply imap_ext. intros i y _. simpl. do 2 f_equal. lia. }
  rewrite <- Hgen. done.
Qed.

Lemma numbered_nodup id contents : NoDup (numbered_rows id contents).*1.
Proof.
  rewrite numbered_keys. apply NoDup_fmap_2; [|apply NoDup_seq].
  intros i j E. injection E as E. lia.
Qed.

Lemma lookup_chunk_table id contents id' i :
  chunk_table id contents !! (id', i) =
  if decide (id' = id) then (fun x => ChunkRow x 0) <$> contents !! N.to_nat i else None.
Proof.
  unfold chunk_table. destruct (decide (id' = id)) as [->|Hne].
  - destruct (contents !! N.to_nat i) as [x|] eqn:E; simpl.
    + apply elem_of_list_to_map; [apply numbered_nodup|].
      apply elem_of_list_lookup. exists (N.to_nat i). unfold numbered_rows. rewrite list_lookup_imap, E.
      simpl. by rewrite N2Nat.id.
    + apply not_elem_of_list_to_map. rewrite numbered_keys. intros Hin.
      apply elem_of_list_fmap in Hin as [j [Ej Hj]]. injection Ej as ->.
      apply elem_of_seq in Hj. rewrite Nat2N.id in E. apply lookup_ge_None in E. lia.
  - apply not_elem_of_list_to_map. rewrite numbered_keys. intros Hin.
    apply elem_of_list_fmap in Hin as [j [Ej Hj]]. congruence.
Qed.

Lemma meta_keys_nodup (id : sub_id) (strat : strat_map) :
  NoDup ((fun kv : string * Z => ((id, kv.1), kv.2)) <$> map_to_list strat).*1.
Proof.
  rewrite <- list_fmap_compose. unfold compose; simpl.
  change (fun x : string * Z => (id, x.1)) with (@compose (string * Z) string (N * string) (pair id) fst).
  rewrite list_fmap_compose. apply NoDup_fmap_2; [intros ?? E; congruence|].
  apply NoDup_fst_map_to_list.
Qed.

Lemma lookup_meta_table id strat id' k :
  meta_table id strat !! (id', k) = if decide (id' = id) then strat !! k else None.
Proof.
  unfold meta_table. destruct (decide (id' = id)) as [->|Hne].
  - destruct (strat !! k) as [v|] eqn:E.
    + apply elem_of_list_to_map; [apply meta_keys_nodup|].
      apply elem_of_list_fmap. exists (k, v). split; [done|]. by apply elem_of_map_to_list.
    + apply not_elem_of_list_to_map. intros Hin. rewrite <- list_fmap_compose in Hin.
      apply elem_of_list_fmap in Hin as [[k' v] [Ej Hj]]. simpl in Ej. injection Ej as ->.
      apply elem_of_map_to_list in Hj. congruence.
  - apply not_elem_of_list_to_map. intros Hin. rewrite <- list_fmap_compose in Hin.
    apply elem_of_list_fmap in Hin as [[k' v] [Ej Hj]]. simpl in Ej. congruence.
Qed.

(** Database after a successful insert. *)
Definition inserted (id : sub_id) (prefix : option string) (contents : list content) (meta : option string)
    (strat : strat_map) (size : Z) (otel : string) (d : db) : db :=
  Db (<[id := SubRow prefix (N.of_nat (length contents)) 0 meta otel (Some size)]> (t_sub d))
     (t_comp d) (t_fail d) (t_canc d) (meta_table id strat ∪ t_meta d)
     (chunk_table id contents ∪ t_chunk d) (t_cdone d) (t_cfail d).

(** No row mentions [id] in the three tables the insert writes. *)
Definition insertable (id : sub_id) (d : db) : Prop :=
  t_sub d !! id = None /\ (forall k, t_meta d !! (id, k) = None) /\ (forall i, t_chunk d !! (id, i) = None).

Lemma exec_insert id prefix contents meta strat size otel d : insertable id d ->
  exec (insert_submission (Submission id prefix (N.of_nat (length contents)) 0 size meta strat otel)
          (number_chunks id contents)) d [] =
  (Ok tt, inserted id prefix contents meta strat size otel d).
Proof.
  intros (Hs & Hm & Hc). unfold insert_submission. rewrite exec_tx by solve_good.
  rewrite exec_tryb by solve_good. unfold insert_submission_raw. rewrite exec_sql. unfold on, ins; simpl.
  rewrite Hs. rewrite exec_tryb by auto with good.
  set (d1 := set_sub _ d). unfold insert_submission_metadata_raw; simpl.
  pose proof (exec_insert_metadata_loop id (map_to_list strat) d1) as H1.
  rewrite ins_many_fresh in H1.
  2:{ apply meta_keys_nodup. }
  2:{ intros [id' k] Hk. rewrite <- list_fmap_compose in Hk. apply elem_of_list_fmap in Hk as [x [E _]].
      simpl in E. injection E as -> _. apply Hm. }
  rewrite H1. unfold insert_many_chunks.
  set (d2 := set_meta _ d1).
  pose proof (exec_insert_many_loop (length (number_chunks id contents)) (number_chunks id contents) d2) as H2.
  feed specialize H2; [done|]. rewrite chunk_rows_number, ins_many_fresh in H2.
  2:{ apply numbered_nodup. }
  2:{ intros [id' k] Hk. rewrite numbered_keys in Hk. apply elem_of_list_fmap in Hk as [x [E _]].
      injection E as -> _. apply Hc. }
  rewrite H2. done.
Qed.

Lemma exec_insert_from_chunks id prefix contents meta strat size otel now d : insertable id d ->
  t_comp d !! id = None ->
  exec (insert_submission_from_chunks id prefix contents meta strat size otel now) d [] =
  (Ok id, match contents with
          | [] => set_sub (delete id) (set_comp (insert id (CompRow prefix 0 meta now "{}" None))
                   (inserted id prefix [] meta strat size otel d))
          | _ => inserted id prefix contents meta strat size otel d
          end).
Proof.
  intros Hi Hc. unfold insert_submission_from_chunks. rewrite exec_tryb by auto with good.
  rewrite exec_insert by done. destruct contents as [|x contents]; [|done].
  simpl. rewrite exec_bind by apply good_maybe_complete. rewrite exec_maybe_complete. simpl.
  rewrite lookup_insert. simpl. rewrite Hc. done.
Qed.

(** Cleanup. *)
Definition cleaned (cutoff : time) (d : db) : db :=
  Db (t_sub d)
     (filter (fun p => (cr_at p.2 <? cutoff)%Z = false) (t_comp d))
     (filter (fun p => (fr_at p.2 <? cutoff)%Z = false) (t_fail d))
     (filter (fun p => (xr_at p.2 <? cutoff)%Z = false) (t_canc d))
     (filter (fun p => older xr_at cutoff (t_canc d !! p.1.1) = false)
       (filter (fun p => older fr_at cutoff (t_fail d !! p.1.1) = false)
         (filter (fun p => older cr_at cutoff (t_comp d !! p.1.1) = false) (t_meta d))))
     (t_chunk d)
     (filter (fun p => (cc_at p.2 <? cutoff)%Z = false) (t_cdone d))
     (filter (fun p => (cf_at p.2 <? cutoff)%Z = false) (t_cfail d)).
Lemma exec_cleanup cutoff d : exec (cleanup_old cutoff) d [] = (Ok tt, cleaned cutoff d).
Proof.
  unfold cleanup_old. rewrite exec_tx by solve_good.
  repeat (rewrite exec_tryb by solve_good; rewrite exec_sql; simpl). done.
Qed.
