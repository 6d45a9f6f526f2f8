(** What the counters of Metrics.v say about the database. *)
From Verif Require Export Metrics InvProofs.
Local Open Scope N_scope.

(** *** Leaving the increments out *)
Definition sim {A} (p : W A) (q : M A) : Prop :=
  forall c fs, run q c fs = (((run p c fs).1.1).2, (run p c fs).1.2, (run p c fs).2).
Lemma sim_silent {A} (p : M A) : sim (silent p) p.
Proof. intros c fs. unfold silent. rewrite run_bind. destruct (run p c fs) as [[r c'] fs']. done. Qed.
Lemma sim_ret {A} ms (r : res A) : sim (Ret (ms, r)) (Ret r).
Proof. intros c fs. done. Qed.
Lemma sim_wbind {A B} (p : W A) q (g : res A -> W B) h : sim p q -> (forall r, sim (g r) (h r)) ->
  sim (wbind p g) (bind q h).
Proof.
  intros Hp Hg c fs. unfold wbind. rewrite !run_bind. rewrite (Hp c fs).
  destruct (run p c fs) as [[[ms r] c'] fs']. simpl. rewrite run_bind, (Hg r c' fs').
  destruct (run (g r) c' fs') as [[[ms' r'] c''] fs'']. done.
Qed.
Lemma sim_wtry {A B} (p : W A) q (g : A -> W B) h : sim p q -> (forall a, sim (g a) (h a)) ->
  sim (wtry p g) (tryb q h).
Proof.
  intros Hp Hg. refine (sim_wbind p q _ _ Hp _). intros [a|e|]; [apply Hg|apply sim_ret|apply sim_ret].
Qed.
Lemma sim_wtransaction {A} (p : W A) q : sim p q -> sim (wtransaction p) (transaction q).
Proof.
  intros Hp c fs.
  assert (Hrun : forall B (k : option sql_error -> prog B), run (Begin k) c fs =
    if (next_fault fs).1 : bool then run (k (Some OtherSqlError)) c (next_fault fs).2
    else run (k None) (Conn (c_cur c) (c_cur c :: c_saved c)) (next_fault fs).2).
  { intros B k. destruct fs as [|[] fs]; reflexivity. }
  unfold wtransaction, transaction. rewrite !Hrun. destruct (next_fault fs) as [[] fs']; cbn [fst snd]; [done|].
  rewrite !run_bind, (Hp _ fs'). destruct (run p _ fs') as [[[ms r] c'] fs'']. cbn [fst snd].
  destruct c' as [cu [|dd ds]], r as [a|e|]; try done; destruct fs'' as [|[] fs'']; done.
Qed.
(** A counter after a program without a result. *)
Lemma sim_count (p : M unit) c n : sim (silent p ;;! count c n) p.
Proof.
  intros cn fs. unfold wtry, wbind, silent. rewrite !run_bind.
  destruct (run p cn fs) as [[r c'] fs']. simpl. destruct r as [[]|e|]; done.
Qed.
Lemma sim_keep {A} (p : W A) q c n : sim p q ->
  sim (wbind p (fun _ => count c n)) (bind q (fun _ => ret tt)).
Proof. intros Hp. refine (sim_wbind p q _ _ Hp _). intros r. apply sim_ret. Qed.

Section sim.
Context (affected : nat -> N).
Lemma sim_skip id n : sim (w_skip_remaining_chunks affected id n) (skip_remaining_chunks id n).
Proof.
  unfold w_skip_remaining_chunks, skip_remaining_chunks. apply sim_wtry; [apply sim_silent|]. intros _ c fs.
  destruct fs as [|[] fs]; reflexivity.
Qed.
Lemma sim_maybe_complete id n : sim (w_maybe_complete_submission id n) (maybe_complete_submission id n).
Proof.
  apply sim_wtransaction, sim_wtry; [apply sim_silent|]. intros s. destruct (_ =? _); [|apply sim_ret].
  apply sim_wtry; [apply sim_count|]. intros _. apply sim_ret.
Qed.
Lemma sim_insert_from_chunks id p l m s z o n :
  sim (w_insert_submission_from_chunks id p l m s z o n) (insert_submission_from_chunks id p l m s z o n).
Proof.
  unfold w_insert_submission_from_chunks, insert_submission_from_chunks. cbv zeta.
  apply sim_wtry.
  - unfold w_insert_submission. set (q := insert_submission _ _). intros c fs. unfold wbind, silent.
    rewrite !run_bind. destruct (run q c fs) as [[r c'] fs']. done.
  - intros _. destruct (_ =? _); [|apply sim_ret].
    apply sim_wbind; [apply sim_maybe_complete|]. intros [a|[]|]; apply sim_ret.
Qed.
Lemma sim_complete_chunk cid out n1 n2 : sim (w_complete_chunk cid out n1 n2) (complete_chunk cid out n1 n2).
Proof.
  apply sim_keep, sim_wtransaction, sim_wtry; [apply sim_silent|]. intros sz.
  apply sim_wtry; [apply sim_maybe_complete|]. intros _. apply sim_ret.
Qed.
Lemma sim_fail_notx id ix f n1 n2 n3 :
  sim (w_fail_submission_notx affected id ix f n1 n2 n3) (fail_submission_notx id ix f n1 n2 n3).
Proof.
  apply sim_wtry; [apply sim_count|]. intros _. apply sim_wtry; [apply sim_count|]. intros _. apply sim_skip.
Qed.
Lemma sim_retry_or_fail cid f mx n1 n2 n3 :
  sim (w_retry_or_fail_chunk affected cid f mx n1 n2 n3) (retry_or_fail_chunk cid f mx n1 n2 n3).
Proof.
  apply sim_wtransaction, sim_wtry; [apply sim_silent|]. intros r. destruct (_ <=? _).
  - apply sim_wtry; [apply sim_fail_notx|]. intros _. apply sim_ret.
  - intros c fs. done.
Qed.
Lemma sim_cancel id n1 n2 : sim (w_cancel_submission affected id n1 n2) (cancel_submission id n1 n2).
Proof.
  apply sim_wtransaction, sim_wbind.
  - apply sim_wtry; [apply sim_count|]. intros _. apply sim_skip.
  - intros [u|[]|]; try apply sim_ret. apply sim_wtry; [apply sim_silent|].
    intros [[]|]; apply sim_ret.
Qed.

(** The instrumented operation gives the answer and the database of the operation. *)
Lemma answering_sim {A} (f : res A -> answer) p q d fs : sim p q ->
  exec (bind q (fun r => Ret (f r))) d fs =
  ((exec (answering f p) d fs).1.2, (exec (answering f p) d fs).2).
Proof.
  intros Hp. unfold exec, answering. rewrite !run_bind, (Hp _ fs).
  destruct (run p _ fs) as [[[ms r] c'] fs']. done.
Qed.
Lemma w_op_sim o d fs :
  exec (op_prog o) d fs = ((exec (w_op_prog affected o) d fs).1.2, (exec (w_op_prog affected o) d fs).2).
Proof.
  destruct o; cbn [op_prog w_op_prog]; apply answering_sim.
  - apply sim_insert_from_chunks.
  - apply sim_complete_chunk.
  - apply sim_retry_or_fail.
  - apply sim_cancel.
  - apply sim_wtransaction, sim_fail_notx.
  - apply sim_silent.
Qed.
End sim.

(** *** The increments of a run without faults *)
Lemma local_silent {A} (p : M A) : good p -> local (silent p).
Proof. intros []. apply local_bind; [done|]. intros; apply local_ret. Qed.
Lemma local_wbind {A B} (p : W A) (g : res A -> W B) : local p -> (forall r, local (g r)) -> local (wbind p g).
Proof. intros Hp Hg. apply local_bind; [done|]. intros x. apply local_bind; [done|]. intros; apply local_ret. Qed.
Lemma local_wtry {A B} (p : W A) (g : A -> W B) : local p -> (forall r, local (g r)) -> local (wtry p g).
Proof. intros Hp Hg. apply local_wbind; [done|]. intros [a|e|]; [done|apply local_ret|apply local_ret]. Qed.
Definition closing {A} (x : increments * res A) : W A :=
  match x.2 with
  | Ok a => Commit (fun b' => match b' with Some e => Ret (x.1, Err (EDb e)) | None => Ret (x.1, Ok a) end)
  | Err e => Rollback (Ret (x.1, Err e))
  | Panicked => Rollback (Ret (x.1, Panicked))
  end.
Lemma run_wtx {A} (body : W A) d ds :
  run (wtransaction body) (Conn d ds) [] = run (bind body closing) (Conn d (d :: ds)) [].
Proof. reflexivity. Qed.
Lemma exec_wtx {A} (body : W A) d : local body ->
  exec (wtransaction body) d [] =
  (fst (exec body d []), match snd (fst (exec body d [])) with Ok _ => snd (exec body d []) | _ => d end).
Proof.
  intros Hb. unfold exec at 1, conn_of. rewrite run_wtx, run_bind, Hb.
  destruct (exec body d []) as [[ms [a|e|]] d']; done.
Qed.
Lemma local_wtx {A} (body : W A) : local body -> local (wtransaction body).
Proof.
  intros Hb d ds. rewrite exec_wtx by done. rewrite run_wtx, run_bind, Hb.
  destruct (exec body d []) as [[ms [a|e|]] d']; done.
Qed.
Lemma exec_silent {A} (p : M A) d : good p ->
  exec (silent p) d [] = (([], fst (exec p d [])), snd (exec p d [])).
Proof. intros []. unfold silent. rewrite exec_bind by done. done. Qed.
Lemma exec_wbind {A B} (p : W A) (g : res A -> W B) d : local p -> (forall r, local (g r)) ->
  exec (wbind p g) d [] =
  let x := exec p d [] in let y := exec (g (snd (fst x))) (snd x) [] in
  ((fst (fst x) ++ fst (fst y), snd (fst y)), snd y).
Proof.
  intros Hp Hg. unfold wbind. rewrite exec_bind by done.
  destruct (exec p d []) as [[ms r] d']. simpl. rewrite exec_bind by done. done.
Qed.
Lemma exec_wtry {A B} (p : W A) (g : A -> W B) d : local p -> (forall r, local (g r)) ->
  exec (wtry p g) d [] =
  match exec p d [] with
  | ((ms, Ok a), d') => ((ms ++ fst (fst (exec (g a) d' [])), snd (fst (exec (g a) d' []))), snd (exec (g a) d' []))
  | ((ms, Err e), d') => ((ms ++ [], Err e), d')
  | ((ms, Panicked), d') => ((ms ++ [], Panicked), d')
  end.
Proof.
  intros Hp Hg. unfold wtry. rewrite exec_wbind; [|done|intros [a|e|]; [apply Hg|apply local_ret..]].
  destruct (exec p d []) as [[ms [a|e|]] d']; done.
Qed.
Ltac solve_local :=
  repeat first
    [ apply local_ret | apply local_wtx | apply local_wtry; [|intros ?] | apply local_wbind; [|intros ?]
    | apply local_silent; solve [auto with good | solve_good]
    | progress intros
    | match goal with |- local (if ?b then _ else _) => destruct b end
    | match goal with |- local (match ?b with _ => _ end) => destruct b end
    | match goal with |- local (?f _ _) => unfold f end
    | match goal with |- local (?f _ _ _) => unfold f end
    | match goal with |- local (?f _ _ _ _) => unfold f end ].
Lemma exec_sim {A} (p : W A) q d : sim p q ->
  exec p d [] = ((fst (fst (exec p d [])), fst (exec q d [])), snd (exec q d [])).
Proof.
  intros Hs. unfold exec. rewrite (Hs (conn_of d) []). destruct (run p _ _) as [[[ms r] c] fs]. done.
Qed.
Ltac wx := rewrite ?exec_wtx, ?exec_wtry, ?exec_wbind, ?exec_silent, ?exec_ret by (solve [auto with good | solve_good | solve_local]).

Definition mc_incs (id : sub_id) (d : db) : increments :=
  match t_sub d !! id with
  | Some s => if sr_done s =? sr_total s then
      match t_comp d !! id with None => [(SubmissionsCompleted, 1)] | Some _ => [] end else []
  | None => []
  end.
Lemma exec_w_maybe_complete id n d :
  exec (w_maybe_complete_submission id n) d [] =
  ((mc_incs id d, fst (exec (maybe_complete_submission id n) d [])), snd (exec (maybe_complete_submission id n) d [])).
Proof.
  rewrite (exec_sim _ (maybe_complete_submission id n)) by apply sim_maybe_complete.
  do 2 f_equal. unfold w_maybe_complete_submission. rewrite exec_wtx by solve_local. cbn [fst].
  rewrite exec_wtry by solve_local. wx. rewrite exec_get_submission. unfold mc_incs.
  destruct (t_sub d !! id) as [s|] eqn:E; [|done]. simpl. destruct (_ =? _); [|done].
  unfold w_complete_submission_raw. wx. rewrite exec_complete_submission_raw, E.
  destruct (t_comp d !! id); done.
Qed.

Lemma incs_complete_chunk cid out n1 n2 U d : inv U d ->
  fst (fst (exec (w_complete_chunk cid out n1 n2) d [])) =
  match t_chunk d !! cid, t_sub d !! cid.1 with
  | Some _, Some s => if sr_done s + 1 =? sr_total s then [(SubmissionsCompleted, 1)] else []
  | _, _ => []
  end ++ [(ChunksCompleted, 1)].
Proof.
  intros HI. unfold w_complete_chunk. rewrite exec_wbind by solve_local. cbv zeta. rewrite exec_wtx by solve_local.
  cbn [fst snd count]. f_equal.
  rewrite exec_wtry by solve_local. wx. unfold complete_chunk_raw at 1 2. rewrite exec_tryb by solve_good. ex.
  rewrite ins_rows_one. destruct (t_chunk d !! cid) as [c|] eqn:Ec.
  - destruct (t_cdone d !! cid) eqn:Ed.
    { destruct cid as [id i]. pose proof (inv_cdone _ _ HI _ _ _ Ed) as (_ & H & _). congruence. }
    ex. simpl. unfold del_one. rewrite Ec. simpl. ex. simpl.
    destruct (t_sub d !! cid.1) as [s|] eqn:Es; [|done]. simpl. rewrite exec_wtry by solve_local.
    rewrite exec_w_maybe_complete. rewrite exec_maybe_complete. unfold mc_incs. simpl. rewrite lookup_insert. simpl.
    destruct (_ =? _) eqn:E; [|done].
    pose proof (inv_sub _ _ HI _ _ Es) as (_ & -> & _). done.
  - ex. simpl. unfold del_one. rewrite Ec. done.
Qed.

Section incs.
Context (affected : nat -> N).

Lemma exec_w_skip id n d :
  exec (w_skip_remaining_chunks affected id n) d [] =
  match ins_rows (skipped_rows id n (t_chunk d)) (t_cfail d) with
  | SOk m => (([(ChunksSkipped, affected (size (of_submission id (t_chunk d))))], Ok tt),
              set_chunk (not_of_submission id) (set_cfail (fun _ => m) d))
  | SErr e => (([], Err (EDb e)), d)
  end.
Proof.
  unfold w_skip_remaining_chunks. rewrite exec_wtry by solve_local. wx. ex.
  change (_ <$> of_submission id (t_chunk d)) with (skipped_rows id n (t_chunk d)).
  destruct (ins_rows _ _) eqn:E; [|done]. simpl. wx. ex. done.
Qed.

Lemma skipped_ok (id : sub_id) (n : time) (U : sub_id -> Prop) (d : db) (m : gmap chunk_id chunk_fail_row) (t : gmap chunk_id chunk_row) : inv U d -> is_Some (t_sub d !! id) ->
  (forall i, t !! (id, i) <> None -> m !! (id, i) = t_cfail d !! (id, i)) ->
  exists m', ins_rows (skipped_rows id n t) m = SOk m'.
Proof.
  intros HI [s Hs] Ht. unfold ins_rows. destruct (decide _) as [H|H]; [eauto|]. exfalso. apply H.
  intros [id' i] r Hr. unfold skipped_rows in Hr. rewrite lookup_fmap in Hr.
  destruct (of_submission id t !! (id', i)) as [c|] eqn:E; [|done].
  unfold of_submission in E. apply map_filter_lookup_Some in E as [E1 E2]. simpl in E2. subst id'.
  rewrite Ht by congruence. destruct (t_cfail d !! (id, i)) as [x|] eqn:Ex; [|done].
  pose proof (inv_cfail _ _ HI _ _ _ Ex) as [_ H2]. congruence.
Qed.

Lemma incs_fail_notx id ix f n1 n2 n3 U d c : inv U d -> t_chunk d !! (id, ix) = Some c ->
  exists m, exec (w_fail_submission_notx affected id ix f n1 n2 n3) d [] =
  (([(SubmissionsFailed, 1); (ChunksFailed, 1); (ChunksSkipped, affected (size (of_submission id (delete (id, ix) (t_chunk d)))))], Ok tt),
   Db (delete id (t_sub d)) (t_comp d) m (t_canc d) (t_meta d) (not_of_submission id (delete (id, ix) (t_chunk d))) (t_cdone d)
     (snd (exec (fail_submission_notx id ix f n1 n2 n3) d [])).(t_cfail)) /\ exists r, m = <[id := r]> (t_fail d).
Proof.
  intros HI Hc. destruct (inv_chunk _ _ HI _ _ _ Hc) as (s & Es & _).
  pose proof (inv_sub _ _ HI _ _ Es) as (_ & _ & Ef & _).
  assert (Ecf : t_cfail d !! (id, ix) = None).
  { destruct (t_cfail d !! (id, ix)) eqn:E; [|done]. destruct (inv_cfail _ _ HI _ _ _ E). congruence. }
  destruct (skipped_ok id n3 U d (<[(id, ix) := ChunkFailRow (ch_input c) f n2 false]> (t_cfail d))
              (delete (id, ix) (t_chunk d)) HI) as [m' Hm'].
  { eauto. }
  { intros i Hi. destruct (decide (i = ix)) as [->|Hne]; [rewrite lookup_delete in Hi; done|].
    rewrite lookup_insert_ne by congruence. done. }
  destruct (exec_fail_notx id ix f n1 n2 n3 d) as (_ & H1 & H2).
  specialize (H2 s c m' Es Ef Hc Ecf Hm'). destruct (H1 tt H2) as (s' & c' & m & Es' & _ & Hc' & _ & Hm & ->).
  cbn [t_cfail]. assert (s' = s) as -> by congruence. assert (c' = c) as -> by congruence.
  exists (<[id := fail_row_of s ix n1]> (t_fail d)). split; [|eauto].
  unfold w_fail_submission_notx. rewrite exec_wtry by solve_local.
  unfold w_fail_submission_raw. rewrite exec_wtry by solve_local. wx. unfold fail_submission_raw. ex.
  rewrite ins_rows_one, Es, Ef. ex. simpl. unfold del_one. rewrite Es. simpl.
  rewrite exec_wtry by solve_local. unfold w_move_chunk_to_failed_chunks. rewrite exec_wtry by solve_local. wx.
  unfold move_chunk_to_failed_chunks. ex. simpl. rewrite ins_rows_one, Hc, Ecf. ex. simpl. unfold del_one. rewrite Hc.
  simpl. rewrite exec_w_skip. simpl. rewrite Hm. done.
Qed.

Lemma incs_retry_or_fail cid f mx n1 n2 n3 U d : inv U d ->
  fst (fst (exec (w_retry_or_fail_chunk affected cid f mx n1 n2 n3) d [])) =
  match t_chunk d !! cid with
  | None => []
  | Some c => if mx <=? ch_retries c + 1
      then [(SubmissionsFailed, 1); (ChunksFailed, 1); (ChunksSkipped, affected (size (of_submission cid.1 (delete cid (t_chunk d)))))]
      else [(ChunksRetried, 1)]
  end.
Proof.
  intros HI. unfold w_retry_or_fail_chunk. rewrite exec_wtx by solve_local. cbn [fst].
  rewrite exec_wtry by solve_local. wx. rewrite exec_sql. destruct (t_chunk d !! cid) as [c|] eqn:Ec; [|done].
  simpl. destruct (mx <=? _); [|done]. destruct cid as [id ix].
  rewrite exec_wtry by solve_local. simpl.
  pose proof (inv_retry _ _ (id, ix) c (ChunkRow (ch_input c) (ch_retries c + 1)) HI Ec) as HI1.
  match goal with |- context[exec (w_fail_submission_notx _ _ _ _ _ _ _) ?dd []] =>
    change dd with (set_chunk (insert (id, ix) (ChunkRow (ch_input c) (ch_retries c + 1))) d) end.
  destruct (incs_fail_notx id ix f n1 n2 n3 U _ (ChunkRow (ch_input c) (ch_retries c + 1)) HI1) as (m & -> & _).
  { simpl. apply lookup_insert. }
  simpl. by rewrite delete_insert_delete.
Qed.

Lemma incs_cancel id n1 n2 U d : inv U d ->
  fst (fst (exec (w_cancel_submission affected id n1 n2) d [])) =
  match t_sub d !! id with
  | None => []
  | Some _ => [(SubmissionsCancelled, 1); (ChunksSkipped, affected (size (of_submission id (t_chunk d))))]
  end.
Proof.
  intros HI. unfold w_cancel_submission. rewrite exec_wtx by solve_local. cbn [fst].
  rewrite exec_wbind by solve_local. cbv zeta. cbn [fst].
  unfold w_cancel_submission_notx. rewrite !exec_wtry by solve_local.
  unfold w_cancel_submission_raw. rewrite !exec_wtry by solve_local. wx.
  unfold cancel_submission_raw. rewrite exec_tryb by auto with good. rewrite exec_sql, ins_rows_one.
  destruct (t_sub d !! id) as [s|] eqn:Es.
  - pose proof (inv_sub _ _ HI _ _ Es) as (_ & _ & _ & ->).
    rewrite exec_tryb by auto with good. rewrite exec_sql. simpl. rewrite Es. unfold ret. rewrite exec_ret. simpl.
    rewrite exec_w_skip. simpl.
    destruct (skipped_ok id n2 U d (t_cfail d) (t_chunk d) HI) as [m ->]; [eauto|done|]. done.
  - rewrite exec_tryb by auto with good. rewrite exec_sql. simpl. rewrite Es. unfold err. rewrite exec_ret. simpl.
    rewrite exec_wtry by solve_local. wx.
    destruct (fst (exec (submission_status id) _ [])) as [[[]|]|e|]; done.
Qed.
End incs.

Lemma incs_insert id p l m s z ot n d : insertable id d -> t_comp d !! id = None ->
  fst (fst (exec (w_insert_submission_from_chunks id p l m s z ot n) d [])) =
  [(SubmissionsTotal, 1); (ChunksTotal, N.of_nat (length l))] ++
  match l with [] => [(SubmissionsCompleted, 1)] | _ :: _ => [] end.
Proof.
  intros Hi Hc. unfold w_insert_submission_from_chunks. cbv zeta. rewrite exec_wtry by solve_local.
  unfold w_insert_submission. rewrite exec_wbind by solve_local. wx. cbv zeta. cbn [fst snd]. rewrite exec_insert by done.
  cbn [fst snd]. rewrite exec_ret. cbn [fst snd app]. destruct l as [|x l]; [|done].
  simpl. rewrite exec_wbind by solve_local. cbv zeta. rewrite exec_w_maybe_complete. rewrite exec_maybe_complete.
  unfold mc_incs. simpl. rewrite lookup_insert. simpl. rewrite Hc. done.
Qed.

(** *** Sizes of tables *)
Definition rows {K : Type} `{Countable K} {A} (m : gmap K A) : N := N.of_nat (size m).
Section rows.
  Context {K : Type} `{Countable K} {A : Type}.
  Implicit Types m : gmap K A.
  Lemma rows_insert m k a : m !! k = None -> rows (<[k := a]> m) = rows m + 1.
  Proof. intros E. unfold rows. rewrite map_size_insert_None by done. lia. Qed.
  Lemma rows_replace m k a : is_Some (m !! k) -> rows (<[k := a]> m) = rows m.
  Proof. intros E. unfold rows. by rewrite map_size_insert_Some. Qed.
  Lemma rows_delete m k : is_Some (m !! k) -> rows (delete k m) + 1 = rows m.
  Proof.
    intros [a E]. rewrite <- (fin_maps.insert_id m k a E) at 2. rewrite <- insert_delete_insert.
    rewrite rows_insert by apply lookup_delete. done.
  Qed.
  Lemma rows_union (m1 m2 : gmap K A) : m1 ##ₘ m2 -> rows (m1 ∪ m2) = rows m1 + rows m2.
  Proof. intros E. unfold rows. rewrite map_size_disj_union by done. lia. Qed.
  Lemma rows_fmap {B} (f : A -> B) m : rows (f <$> m) = rows m.
  Proof. unfold rows. by rewrite map_size_fmap. Qed.
  Lemma rows_filter (P : K * A -> Prop) `{!forall x, Decision (P x)} m : rows (filter P m) <= rows m.
  Proof.
    assert (E : filter P m ∪ filter (fun x => ~ P x) m = m).
    { apply map_eq. intros k. apply option_eq. intros a. rewrite lookup_union_Some_raw, !map_filter_lookup_Some, map_filter_lookup_None.
      destruct (decide (P (k, a))); naive_solver. }
    rewrite <- E at 2. rewrite rows_union; [lia|]. apply map_disjoint_spec. intros k a b H1 H2.
    apply map_filter_lookup_Some in H1 as [H1 H3]. apply map_filter_lookup_Some in H2 as [H2 H4]. congruence.
  Qed.
End rows.
Lemma rows_split {A} (id : sub_id) (m : gmap chunk_id A) : rows (not_of_submission id m) + rows (of_submission id m) = rows m.
Proof.
  rewrite <- rows_union.
  - f_equal. unfold not_of_submission, of_submission. apply map_eq. intros cid. apply option_eq. intros a.
    rewrite lookup_union_Some_raw, !map_filter_lookup_Some, map_filter_lookup_None. simpl.
    destruct (decide (cid.1 = id)); naive_solver.
  - apply map_disjoint_spec. intros cid a b H1 H2. unfold not_of_submission, of_submission in *.
    apply map_filter_lookup_Some in H1 as [_ H1]. apply map_filter_lookup_Some in H2 as [_ H2]. done.
Qed.
Lemma rows_ins_rows {K : Type} `{Countable K} {A} (n m m' : gmap K A) : ins_rows n m = SOk m' -> rows m' = rows n + rows m.
Proof.
  unfold ins_rows. destruct (decide _) as [Hd|]; [|done]. injection 1 as <-. apply rows_union.
  apply map_disjoint_spec. intros k a b H1 H2. pose proof (Hd k a H1) as H3. simpl in H3. congruence.
Qed.
Lemma rows_chunk_table id contents : rows (chunk_table id contents) = N.of_nat (length contents).
Proof.
  unfold rows, chunk_table. unfold size, map_size. rewrite map_to_list_to_map by apply numbered_nodup.
  unfold numbered_rows. by rewrite imap_length.
Qed.

(** *** One operation *)
(** A report of completion for a chunk that is not waiting. *)
Definition stale (o : op) (d : db) : N :=
  match o with OComplete cid _ _ _ => match t_chunk d !! cid with Some _ => 0 | None => 1 end | _ => 0 end.

Lemma incs_answering {A} (f : res A -> answer) (p : W A) d fs :
  fst (fst (exec (answering f p) d fs)) = fst (fst (exec p d fs)).
Proof. unfold answering. rewrite exec_map. done. Qed.

Section balance.
Context (affected : nat -> N).
Definition exact_rows : Prop := forall n, affected n = N.of_nat n.
Record balanced (ms : increments) (d d' : db) (st : N) : Prop := Balanced {
  b_sub : counted SubmissionsTotal ms + rows (t_sub d) = rows (t_sub d') + counted SubmissionsCompleted ms + counted SubmissionsFailed ms + counted SubmissionsCancelled ms;
  b_chunk : exact_rows -> counted ChunksTotal ms + st + rows (t_chunk d) = rows (t_chunk d') + counted ChunksCompleted ms + counted ChunksFailed ms + counted ChunksSkipped ms }.
Record kept (ms : increments) (d d' : db) (st : N) : Prop := Kept {
  k_comp : rows (t_comp d') = rows (t_comp d) + counted SubmissionsCompleted ms;
  k_fail : rows (t_fail d') = rows (t_fail d) + counted SubmissionsFailed ms;
  k_canc : rows (t_canc d') = rows (t_canc d) + counted SubmissionsCancelled ms;
  k_cdone : rows (t_cdone d') + st = rows (t_cdone d) + counted ChunksCompleted ms;
  k_cfail : exact_rows -> rows (t_cfail d') = rows (t_cfail d) + counted ChunksFailed ms + counted ChunksSkipped ms }.

Lemma balance U d o : inv U d -> (forall id, op_ids o id -> ~ U id) -> ~ is_fail_submission o ->
  balanced (fst (fst (exec (w_op_prog affected o) d []))) d (snd (exec (op_prog o) d [])) (stale o d) /\
  ((forall c, o <> OCleanup c) ->
   kept (fst (fst (exec (w_op_prog affected o) d []))) d (snd (exec (op_prog o) d [])) (stale o d)).
Proof.
  intros HI Hf Hn. destruct o as [id p l m s z ot n|cid out n1 n2|cid f mx n1 n2 n3|id n1 n2| |c];
    cbn [w_op_prog op_prog]; rewrite incs_answering, exec_map; cbn [snd]; [| | | |done|].
  - specialize (Hf id eq_refl). destruct (inv_insertable _ _ _ HI Hf) as [Hi Hc].
    rewrite incs_insert, exec_insert_from_chunks by done. destruct Hi as (Hs & Hm & Hch).
    assert (Hrows : rows (chunk_table id l ∪ t_chunk d) = N.of_nat (length l) + rows (t_chunk d)).
    { rewrite rows_union; [by rewrite rows_chunk_table|]. apply map_disjoint_spec. intros [id' i] a b H1 H2.
      rewrite lookup_chunk_table in H1. destruct (decide _) as [->|]; [|done]. congruence. }
    destruct l as [|x l]; cbn [snd].
    + split; [split|intros _; split]; simpl; intros; rewrite ?delete_insert by done; rewrite ?rows_insert by done; try lia.
      simpl in Hrows. lia.
    + split; [split|intros _; split]; simpl; intros; rewrite ?rows_insert by done; try lia.
      simpl in Hrows. lia.
  - rewrite incs_complete_chunk with (U := U) by done. rewrite complete_chunk_exec, exec_complete_chunk_tx. cbn [snd]. unfold stale.
    destruct (t_chunk d !! cid) as [c|] eqn:Ec.
    2:{ cbn [snd]. split; [split|intros _; split]; simpl; intros; lia. }
    destruct cid as [id i]. destruct (inv_chunk _ _ HI _ _ _ Ec) as (s & Es & _). cbn [fst]. rewrite Es.
    destruct (t_cdone d !! (id, i)) eqn:Ed.
    { pose proof (inv_cdone _ _ HI _ _ _ Ed) as (_ & H & _). congruence. }
    pose proof (inv_sub _ _ HI _ _ Es) as (_ & Eco & _). rewrite Eco.
    pose proof (rows_delete (t_chunk d) (id, i) ltac:(eauto)) as Hd.
    pose proof (rows_delete (t_sub d) id ltac:(eauto)) as Hds.
    destruct (_ =? _); cbn [snd]; (split; [split|intros _; split]); simpl; intros;
      rewrite ?delete_insert_delete, ?rows_insert by done; rewrite ?rows_replace by eauto; lia.
  - rewrite incs_retry_or_fail with (U := U) by done. rewrite exec_retry_or_fail. cbn [stale].
    destruct (t_chunk d !! cid) as [c|] eqn:Ec.
    2:{ cbn [snd]. split; [split|intros _; split]; simpl; intros; lia. }
    cbv zeta. destruct cid as [id ix]. cbn [fst snd].
    pose proof (inv_retry _ _ (id, ix) c (ChunkRow (ch_input c) (ch_retries c + 1)) HI Ec) as HI1.
    destruct (mx <=? _).
    2:{ cbn [snd]. split; [split|intros _; split]; simpl; intros; rewrite ?rows_replace by eauto; lia. }
    set (d1 := set_chunk _ d) in *.
    destruct (inv_chunk _ _ HI _ _ _ Ec) as (s & Es & _).
    pose proof (inv_sub _ _ HI _ _ Es) as (_ & _ & Ef & _).
    assert (Hc1 : t_chunk d1 !! (id, ix) = Some (ChunkRow (ch_input c) (ch_retries c + 1))) by apply lookup_insert.
    destruct (incs_fail_notx affected id ix f n1 n2 n3 U d1 _ HI1 Hc1) as (mf & Hex & r & Hmf).
    pose proof (sim_fail_notx affected id ix f n1 n2 n3) as Hsim. apply (exec_sim _ _ d1) in Hsim. rewrite Hsim in Hex.
    injection Hex as _ Hr Hd'.
    destruct (exec_fail_notx id ix f n1 n2 n3 d1) as (_ & H1 & _). destruct (H1 tt Hr) as (s' & c' & m & _ & _ & Hc' & Hcf & Hm & Hd2).
    destruct (exec (fail_submission_notx id ix f n1 n2 n3) d1 []) as [r2 d2]. cbn [fst snd] in *. subst r2. cbn [snd].
    assert (Hch : rows (not_of_submission id (t_chunk d)) + rows (of_submission id (delete (id, ix) (t_chunk d))) + 1 = rows (t_chunk d)).
    { rewrite <- (rows_delete (t_chunk d) (id, ix)) by eauto. rewrite <- (rows_split id (delete (id, ix) (t_chunk d))).
      do 3 f_equal. apply map_eq. intros cid. rewrite !lookup_not_of_submission. destruct (decide _) as [|Hne]; [done|].
      rewrite lookup_delete_ne; [done|]. intros <-. done. }
    assert (Hch1 : not_of_submission id (t_chunk d1) = not_of_submission id (t_chunk d)).
    { apply map_eq. intros cid. rewrite !lookup_not_of_submission. destruct (decide _) as [|Hne]; [done|].
      simpl. rewrite lookup_insert_ne; [done|]. intros <-. done. }
    assert (Hof1 : delete (id, ix) (t_chunk d1) = delete (id, ix) (t_chunk d)) by apply delete_insert_delete.
    apply rows_ins_rows in Hm. unfold skipped_rows in Hm. rewrite rows_fmap, Hof1, rows_insert in Hm by done.
    pose proof (rows_delete (t_sub d) id ltac:(eauto)) as Hds.
    rewrite Hd2. unfold rows in Hch, Hm, Hds |- *. rewrite Hch1.
    split; [split|intros _; split]; simpl; intros; unfold rows; rewrite ?map_size_insert_None by done; try lia.
    + rewrite H. lia.
    + rewrite H. simpl in Hm. lia.
  - rewrite incs_cancel with (U := U) by done. rewrite exec_cancel. cbn [stale].
    destruct (t_sub d !! id) as [s|] eqn:Es.
    2:{ cbn [snd]. split; [split|intros _; split]; simpl; intros; lia. }
    pose proof (inv_sub _ _ HI _ _ Es) as (_ & _ & _ & Ex). rewrite Ex.
    destruct (skipped_ok id n2 U d (t_cfail d) (t_chunk d) HI) as [m Hm]; [eauto|done|]. rewrite Hm. cbn [snd].
    apply rows_ins_rows in Hm. unfold skipped_rows in Hm. rewrite rows_fmap in Hm.
    pose proof (rows_split id (t_chunk d)) as Hch. pose proof (rows_delete (t_sub d) id ltac:(eauto)) as Hds.
    unfold rows in Hch, Hm, Hds |- *.
    split; [split|intros _; split]; simpl; intros; unfold rows; rewrite ?map_size_insert_None by done; try lia.
    + rewrite H. lia.
    + rewrite H. lia.
  - rewrite exec_silent by auto with good. rewrite exec_cleanup. cbn [fst snd stale]. split; [split|congruence]; simpl; intros; lia.
Qed.
End balance.

(** *** Histories *)
Lemma counted_app c ms1 ms2 : counted c (ms1 ++ ms2) = counted c ms1 + counted c ms2.
Proof. induction ms1 as [|x ms1 IH]; [done|]. cbn [app]. unfold counted in *. cbn [foldr]. rewrite IH. lia. Qed.
Lemma waiting_stale d o :
  match o with OComplete cid _ _ _ => match waiting d cid with Some _ => 0 | None => 1 end | _ => 0 end = stale o d.
Proof.
  destruct o as [|cid| | | |]; try done. unfold stale, waiting, get_chunk. rewrite exec_sql. by destruct (t_chunk d !! cid).
Qed.
Section histories.
Context (affected : nat -> N).
Definition step_incs (d : db) (e : event) : increments := fst (fst (exec (w_op_prog affected (e_op e)) d (e_faults e))).
Lemma tally_from_snoc d h e c :
  tally_from affected d (h ++ [e]) c = tally_from affected d h c + counted c (step_incs (run_from d h) e).
Proof.
  revert d. induction h as [|x h IH]; intros d; cbn [app tally_from]; [change (run_from d []) with d; unfold step_incs; lia|].
  rewrite IH. change (run_from d (x :: h)) with (run_from (step d x) h). lia.
Qed.
Lemma tally_snoc h e c : tally affected (h ++ [e]) c = tally affected h c + counted c (step_incs (after h) e).
Proof. apply tally_from_snoc. Qed.
Lemma stale_from_snoc d h e : stale_from d (h ++ [e]) = stale_from d h + stale (e_op e) (run_from d h).
Proof.
  revert d. induction h as [|x h IH]; intros d; cbn [app stale_from].
  - change (run_from d []) with d. rewrite waiting_stale. lia.
  - rewrite IH. change (run_from d (x :: h)) with (run_from (step d x) h). lia.
Qed.
Lemma stale_snoc h e : stale_reports (h ++ [e]) = stale_reports h + stale (e_op e) (after h).
Proof. apply stale_from_snoc. Qed.

Lemma balance_after h : fresh_ids h -> Forall undisturbed h -> Forall (fun e => ~ is_fail_submission (e_op e)) h ->
  let d := after h in let t := tally affected h in
  t SubmissionsTotal = rows (t_sub d) + t SubmissionsCompleted + t SubmissionsFailed + t SubmissionsCancelled /\
  (exact_rows affected -> t ChunksTotal + stale_reports h = rows (t_chunk d) + t ChunksCompleted + t ChunksFailed + t ChunksSkipped).
Proof.
  cbv zeta. induction h as [|e h IH] using rev_ind; [done|]. intros Hf [Hq [[He1 He2] _]%Forall_cons]%Forall_app [Hn [Hn1 _]%Forall_cons]%Forall_app.
  apply fresh_ids_app in Hf as [Hf He]. specialize (IH Hf Hq Hn) as [IH1 IH2].
  destruct (balance affected _ _ _ (inv_after h Hf) He Hn1) as [[B1 B2] _].
  rewrite after_snoc, !tally_snoc, stale_snoc. unfold step_incs, step, finished. rewrite He1, He2.
  split; [lia|]. intros Hx. specialize (IH2 Hx). specialize (B2 Hx). lia.
Qed.
Lemma kept_after h : fresh_ids h -> Forall undisturbed h -> Forall (fun e => ~ is_fail_submission (e_op e)) h ->
  Forall (fun e => ~ is_cleanup e) h ->
  let d := after h in let t := tally affected h in
  rows (t_comp d) = t SubmissionsCompleted /\ rows (t_fail d) = t SubmissionsFailed /\ rows (t_canc d) = t SubmissionsCancelled /\
  rows (t_cdone d) + stale_reports h = t ChunksCompleted /\
  (exact_rows affected -> rows (t_cfail d) = t ChunksFailed + t ChunksSkipped).
Proof.
  cbv zeta. induction h as [|e h IH] using rev_ind; [done|]. intros Hf [Hq [[He1 He2] _]%Forall_cons]%Forall_app [Hn [Hn1 _]%Forall_cons]%Forall_app
    [Hc [Hc1 _]%Forall_cons]%Forall_app.
  apply fresh_ids_app in Hf as [Hf He]. specialize (IH Hf Hq Hn Hc) as (IH1 & IH2 & IH3 & IH4 & IH5).
  destruct (balance affected _ _ _ (inv_after h Hf) He Hn1) as [_ B].
  destruct B as [K1 K2 K3 K4 K5]. { intros c Ec. apply Hc1. unfold is_cleanup. by rewrite Ec. }
  rewrite after_snoc, !tally_snoc, stale_snoc. unfold step_incs, step, finished. rewrite He1, He2.
  repeat split; try lia. intros Hx. specialize (IH5 Hx). specialize (K5 Hx). lia.
Qed.
End histories.

(** *** Which counters an operation can touch, whatever fails *)
Definition emits {A} (P : counter -> Prop) (p : prog (increments * A)) : Prop :=
  forall c fs, Forall (fun x => P x.1) (fst (fst (fst (run p c fs)))).
Section emits.
  Context (P : counter -> Prop).
  Lemma emits_ret {A} ms (a : A) : Forall (fun x => P x.1) ms -> emits P (Ret (ms, a)).
  Proof. intros H c fs. done. Qed.
  Lemma emits_silent {A} (p : M A) : emits P (silent p).
  Proof. intros c fs. unfold silent. rewrite run_bind. destruct (run p c fs) as [[r c'] fs']. constructor. Qed.
  Lemma emits_wbind {A B} (p : W A) (g : res A -> W B) : emits P p -> (forall r, emits P (g r)) -> emits P (wbind p g).
  Proof.
    intros Hp Hg c fs. specialize (Hp c fs). unfold wbind. rewrite run_bind. destruct (run p c fs) as [[[ms r] c'] fs'].
    specialize (Hg r c' fs'). rewrite run_bind. cbn [fst snd]. destruct (run (g r) c' fs') as [[[ms' r'] c''] fs''].
    apply Forall_app. done.
  Qed.
  Lemma emits_wtry {A B} (p : W A) (g : A -> W B) : emits P p -> (forall a, emits P (g a)) -> emits P (wtry p g).
  Proof. intros Hp Hg. apply emits_wbind; [done|]. intros [a|e|]; [done|apply emits_ret; constructor..]. Qed.
  Lemma emits_count c n : P c -> emits P (count c n).
  Proof. intros H. apply emits_ret. by repeat constructor. Qed.
  Lemma emits_wtx {A} (p : W A) : emits P p -> emits P (wtransaction p).
  Proof.
    intros Hp c fs.
    assert (Hrun : forall B (k : option sql_error -> prog B), run (Begin k) c fs =
      if (next_fault fs).1 : bool then run (k (Some OtherSqlError)) c (next_fault fs).2
      else run (k None) (Conn (c_cur c) (c_cur c :: c_saved c)) (next_fault fs).2).
    { intros B k. destruct fs as [|[] fs]; reflexivity. }
    unfold wtransaction. rewrite Hrun. destruct (next_fault fs) as [[] fs']; cbn [fst snd]; [constructor|].
    rewrite run_bind. specialize (Hp (Conn (c_cur c) (c_cur c :: c_saved c)) fs').
    destruct (run p _ fs') as [[[ms r] c'] fs'']. cbn [fst snd] in *.
    destruct c' as [cu [|dd ds]], r as [a|e|]; try done; destruct fs'' as [|[] fs'']; done.
  Qed.
  Lemma emits_answering {A} (f : res A -> answer) (p : W A) : emits P p -> emits P (answering f p).
  Proof.
    intros Hp c fs. specialize (Hp c fs). unfold answering. rewrite run_bind. destruct (run p c fs) as [[[ms r] c'] fs']. done.
  Qed.
  Lemma emits_counted {A} (p : prog (increments * A)) d fs c : emits P p -> ~ P c ->
    counted c (fst (fst (exec p d fs))) = 0.
  Proof.
    intros Hp Hc. specialize (Hp (conn_of d) fs). unfold exec. destruct (run p _ fs) as [[[ms r] c'] fs']. cbn [fst snd] in *.
    induction Hp as [|x ms Hx _ IH]; [done|]. unfold counted in *. cbn [foldr].
    rewrite IH, decide_False; [done|]. intros <-. done.
  Qed.
End emits.
Ltac solve_emits :=
  repeat first
    [ apply emits_silent | apply emits_ret; solve [repeat constructor; simpl; tauto]
    | apply emits_wtx | apply emits_wtry; [|intros ?] | apply emits_wbind; [|intros ?]
    | match goal with |- emits _ (if ?b then _ else _) => destruct b end
    | match goal with |- emits _ (match ?b with _ => _ end) => destruct b end
    | match goal with |- emits _ (?f _ _) => unfold f end
    | match goal with |- emits _ (?f _ _ _) => unfold f end
    | match goal with |- emits _ (?f _ _ _ _) => unfold f end
    | match goal with |- emits _ (?f _ _ _ _ _) => unfold f end
    | match goal with |- emits _ (?f _ _ _ _ _ _) => unfold f end
    | match goal with |- emits _ (?f _ _ _ _ _ _ _) => unfold f end ].
Section touches.
Context (affected : nat -> N).
Lemma emits_complete cid out n1 n2 :
  emits (fun c => c = SubmissionsCompleted \/ c = ChunksCompleted) (w_complete_chunk cid out n1 n2).
Proof. solve_emits. Qed.
Lemma emits_fail cid f mx n1 n2 n3 :
  emits (fun c => c = SubmissionsFailed \/ c = ChunksFailed \/ c = ChunksSkipped \/ c = ChunksRetried) (w_retry_or_fail_chunk affected cid f mx n1 n2 n3).
Proof. solve_emits. Qed.
Lemma emits_cancel id n1 n2 :
  emits (fun c => c = SubmissionsCancelled \/ c = ChunksSkipped) (w_cancel_submission affected id n1 n2).
Proof. solve_emits. Qed.
Lemma emits_fail_submission id ix f n1 n2 n3 :
  emits (fun c => c = SubmissionsFailed \/ c = ChunksFailed \/ c = ChunksSkipped) (w_fail_submission affected id ix f n1 n2 n3).
Proof. solve_emits. Qed.
Lemma emits_mc id n : emits (fun c => c = SubmissionsCompleted) (w_maybe_complete_submission id n).
Proof. solve_emits. Qed.
End touches.

(** The counters of attempts. *)
Lemma counted_wtry_rest {A B} (p : W A) (g : A -> W B) c d fs : (forall a, emits (fun x => x <> c) (g a)) ->
  counted c (fst (fst (exec (wtry p g) d fs))) = counted c (fst (fst (exec p d fs))).
Proof.
  intros Hg. unfold wtry, wbind, exec. rewrite run_bind. destruct (run p _ fs) as [[[ms r] c'] fs']. cbn [fst snd].
  rewrite run_bind. destruct r as [a|e|]; [|by change (counted c (ms ++ []) = counted c ms); rewrite app_nil_r..].
  specialize (Hg a c' fs'). destruct (run (g a) c' fs') as [[[ms' r'] c''] fs'']. cbn [fst snd run] in *.
  change (counted c (ms ++ ms') = counted c ms). rewrite counted_app. replace (counted c ms') with 0; [lia|]. symmetry.
  induction Hg as [|x ms' Hx _ IH]; [done|]. unfold counted in *. cbn [foldr]. by rewrite IH, decide_False.
Qed.
Lemma emits_mono {A} (P Q : counter -> Prop) (p : prog (increments * A)) : (forall c, P c -> Q c) -> emits P p -> emits Q p.
Proof. intros H Hp c fs. eapply Forall_impl; [apply Hp|]. intros x Hx. by apply H. Qed.

Section attempts.
Context (affected : nat -> N).
Lemma counted_insert id p l m s z ot n d fs c : c <> SubmissionsCompleted ->
  counted c (fst (fst (exec (w_insert_submission_from_chunks id p l m s z ot n) d fs))) =
  counted c [(SubmissionsTotal, 1); (ChunksTotal, N.of_nat (length l))].
Proof.
  intros Hc. unfold w_insert_submission_from_chunks. cbv zeta. rewrite counted_wtry_rest.
  - unfold w_insert_submission, wbind, silent, exec. rewrite !run_bind.
    destruct (run (insert_submission _ _) _ fs) as [[r c'] fs']. done.
  - intros _. destruct (_ =? _); [|apply emits_ret; constructor]. apply emits_wbind.
    + eapply emits_mono; [|apply emits_mc]. simpl. congruence.
    + intros [a|[]|]; apply emits_ret; constructor.
Qed.
Lemma counted_complete cid out n1 n2 d fs :
  counted ChunksCompleted (fst (fst (exec (w_complete_chunk cid out n1 n2) d fs))) = 1.
Proof.
  unfold w_complete_chunk, wbind, exec. rewrite run_bind.
  assert (He : emits (fun c => c <> ChunksCompleted) (wtransaction (sz <-! silent (complete_chunk_raw cid out n1);
    w_maybe_complete_submission cid.1 n2 ;;! wret (size_of sz)))).
  { apply emits_wtx, emits_wtry; [apply emits_silent|]. intros sz. apply emits_wtry; [|intros; apply emits_ret; constructor].
    eapply emits_mono; [|apply emits_mc]. simpl. congruence. }
  specialize (He (conn_of d) fs). destruct (run (wtransaction _) _ fs) as [[[ms r] c'] fs']. cbn [fst snd] in He.
  change (counted ChunksCompleted (ms ++ [(ChunksCompleted, 1)]) = 1). rewrite counted_app. replace (counted ChunksCompleted ms) with 0; [done|]. symmetry.
  induction He as [|x ms Hx _ IH]; [done|]. unfold counted in *. cbn [foldr]. by rewrite IH, decide_False.
Qed.

Definition attempt (c : counter) (o : op) : N :=
  match c, o with
  | SubmissionsTotal, OInsert _ _ _ _ _ _ _ _ => 1
  | ChunksTotal, OInsert _ _ l _ _ _ _ _ => N.of_nat (length l)
  | ChunksCompleted, OComplete _ _ _ _ => 1
  | _, _ => 0
  end.
Lemma attempt_counted o d fs c : c = SubmissionsTotal \/ c = ChunksTotal \/ c = ChunksCompleted ->
  counted c (fst (fst (exec (w_op_prog affected o) d fs))) = attempt c o.
Proof.
  intros Hc. destruct o; cbn [w_op_prog]; rewrite incs_answering.
  - rewrite counted_insert by naive_solver. destruct Hc as [->|[->| ->]]; simpl; lia.
  - destruct Hc as [->|[->| ->]]; simpl; try apply counted_complete;
      (eapply emits_counted; [apply emits_complete|naive_solver]).
  - replace (attempt c (OFail cid failure max_retries now1 now2 now3)) with 0 by (by destruct c).
    eapply emits_counted; [apply emits_fail|naive_solver].
  - replace (attempt c _) with 0 by (by destruct c). eapply emits_counted; [apply emits_cancel|naive_solver].
  - replace (attempt c _) with 0 by (by destruct c). eapply emits_counted; [apply emits_fail_submission|naive_solver].
  - replace (attempt c _) with 0 by (by destruct c). eapply emits_counted with (P := fun _ => False); [apply emits_silent|naive_solver].
Qed.
Lemma tally_attempts h c : c = SubmissionsTotal \/ c = ChunksTotal \/ c = ChunksCompleted ->
  tally affected h c = foldr (fun e n => attempt c (e_op e) + n) 0 h.
Proof.
  intros Hc. unfold tally. generalize db_empty. induction h as [|e h IH]; intros d; [done|].
  cbn [tally_from foldr]. by rewrite attempt_counted, IH.
Qed.
Lemma tally_submitted h : tally affected h SubmissionsTotal = N.of_nat (length (inserted_ids h)) /\
  tally affected h ChunksTotal = chunks_submitted h.
Proof.
  rewrite !tally_attempts by auto. unfold inserted_ids, chunks_submitted. split.
  - induction h as [|e h IH]; [done|]. cbn [foldr]. rewrite IH. destruct e as [[] fs k]; cbn; lia.
  - induction h as [|e h IH]; [done|]. cbn [foldr]. rewrite IH. by destruct (e_op e).
Qed.

Lemma tally_retries h : fresh_ids h -> Forall undisturbed h -> tally affected h ChunksRetried = retries h.
Proof.
  intros Hf Hq. unfold tally, retries.
  assert (Hgen : forall d U, inv U d -> (forall id, id ∈ inserted_ids h -> ~ U id) ->
    tally_from affected d h ChunksRetried = retries_from d h); [|apply (Hgen _ _ inv_empty); intros id _ []].
  induction h as [|e h IH]; intros d U HI HU; [done|]. cbn [tally_from retries_from].
  apply Forall_cons in Hq as [[He1 He2] Hq]. 
  assert (Hids : forall id, op_ids (e_op e) id -> ~ U id).
  { intros id Hid. apply HU. apply insert_id_ops in Hid. unfold inserted_ids. cbn. rewrite Hid. left. }
  assert (Hf2 : fresh_ids h). { unfold fresh_ids, inserted_ids in *. cbn in Hf. destruct (insert_id e); [by apply NoDup_cons in Hf as [_ ?]|done]. }
  erewrite IH; [|done|done|by apply (inv_step U d e HI Hids)|].
  2:{ intros id Hid [Hu|Hu].
      - eapply HU; [|exact Hu]. unfold inserted_ids in *. cbn. destruct (insert_id e); [by right|done].
      - apply insert_id_ops in Hu. unfold fresh_ids, inserted_ids in Hf, Hid. cbn in Hf. rewrite Hu in Hf. by apply NoDup_cons in Hf as [? _]. }
  f_equal. unfold answer_of, finished. rewrite He1, He2. cbn [fst snd].
  destruct (e_op e) as [id p l m s z ot n|cid out n1 n2|cid f mx n1 n2 n3|id n1 n2|id ix f n1 n2 n3|c];
    cbn [w_op_prog op_prog]; rewrite incs_answering, exec_map; cbn [fst].
  - by rewrite counted_insert.
  - eapply emits_counted; [apply emits_complete|naive_solver].
  - rewrite incs_retry_or_fail with (U := U) by done. rewrite exec_retry_or_fail.
    destruct (t_chunk d !! cid) as [c|]; [|done]. cbv zeta. destruct (mx <=? _); [|done].
    destruct (exec (fail_submission_notx _ _ _ _ _ _) _ []) as [[] ?]; done.
  - eapply emits_counted; [apply emits_cancel|naive_solver].
  - eapply emits_counted; [apply emits_fail_submission|naive_solver].
  - eapply emits_counted with (P := fun _ => False); [apply emits_silent|naive_solver].
Qed.
End attempts.

(** *** Under faults *)
Definition wstrict {A} (p : W A) : Prop :=
  forall c fs, snd (fst (fst (run p c fs))) = Err (EDb OtherSqlError) \/ fst (run p c fs) = fst (run p c []).
Lemma wstrict_ret {A} ms (r : res A) : wstrict (Ret (ms, r)).
Proof. intros c fs. by right. Qed.
Lemma wstrict_silent {A} (p : M A) : good p -> wstrict (silent p).
Proof.
  intros [_ _ Hp] c fs. unfold silent. rewrite !run_bind. pose proof (Hp c fs) as H.
  destruct (run p c fs) as [[r c'] fs'], (run p c []) as [[r0 c0] fs0]. cbn [fst snd run] in *.
  destruct H as [->|H]; [by left|right]. injection H as -> ->. done.
Qed.
Lemma wstrict_wtry {A B} (p : W A) (g : A -> W B) : wstrict p -> (forall a, wstrict (g a)) -> wstrict (wtry p g).
Proof.
  intros Hp Hg c fs. unfold wtry, wbind. rewrite !run_bind. pose proof (Hp c fs) as H. pose proof (run_nil_faults p c) as Hn.
  destruct (run p c fs) as [[[ms r] c'] fs'], (run p c []) as [[[ms0 r0] c0] fs0]. cbn [fst snd] in *. subst fs0.
  destruct H as [->|H].
  { left. reflexivity. }
  injection H as -> -> ->. rewrite !run_bind. destruct r0 as [a|e|]; [|by right..].
  pose proof (Hg a c0 fs') as H. destruct (run (g a) c0 fs') as [[[ms1 r1] c1] fs1], (run (g a) c0 []) as [[[ms2 r2] c2] fs2].
  cbn [fst snd run] in *. destruct H as [->|H]; [by left|right]. injection H as -> -> ->. done.
Qed.
Lemma wstrict_wbind {A B} (p : W A) (g : res A -> W B) : wstrict p -> (forall a, wstrict (g a)) ->
  (forall c fs, snd (fst (fst (run (g (Err (EDb OtherSqlError))) c fs))) = Err (EDb OtherSqlError)) -> wstrict (wbind p g).
Proof.
  intros Hp Hg He c fs. unfold wbind. rewrite !run_bind. pose proof (Hp c fs) as H. pose proof (run_nil_faults p c) as Hn.
  destruct (run p c fs) as [[[ms r] c'] fs'], (run p c []) as [[[ms0 r0] c0] fs0]. cbn [fst snd] in *. subst fs0.
  destruct H as [->|H].
  { left. specialize (He c' fs'). rewrite run_bind. destruct (run (g _) c' fs') as [[[ms1 r1] c1] fs1]. done. }
  injection H as -> -> ->. rewrite !run_bind.
  pose proof (Hg r0 c0 fs') as H. destruct (run (g r0) c0 fs') as [[[ms1 r1] c1] fs1], (run (g r0) c0 []) as [[[ms2 r2] c2] fs2].
  cbn [fst snd run] in *. destruct H as [->|H]; [by left|right]. injection H as -> -> ->. done.
Qed.
Lemma wstrict_wtx {A} (p : W A) q : sim p q -> keeps q -> wstrict p -> wstrict (wtransaction p).
Proof.
  intros Hs Hk Hp c fs.
  assert (Hrun : forall fs B (k : option sql_error -> prog B), run (Begin k) c fs =
    if (next_fault fs).1 : bool then run (k (Some OtherSqlError)) c (next_fault fs).2
    else run (k None) (Conn (c_cur c) (c_cur c :: c_saved c)) (next_fault fs).2).
  { intros fs0 B k. destruct fs0 as [|[] fs0]; reflexivity. }
  unfold wtransaction. rewrite !Hrun. destruct (next_fault fs) as [[] fs']; cbn [fst snd]; [by left|].
  cbn [next_fault fst snd]. rewrite !run_bind. set (c1 := Conn (c_cur c) (c_cur c :: c_saved c)).
  pose proof (Hp c1 fs') as H. pose proof (run_nil_faults p c1) as Hn. pose proof (Hk c1 fs') as [Hk1 _].
  rewrite (Hs c1 fs') in Hk1. destruct (run p c1 fs') as [[[ms r] c'] fs''], (run p c1 []) as [[[ms0 r0] c0] fs0]. cbn [fst snd] in *.
  subst fs0. destruct c' as [cu sv]. cbn in Hk1. subst sv. destruct H as [->|H]; [by left|].
  injection H as -> -> <-. destruct r0 as [a|e|]; [|by right..]. destruct fs'' as [|[] fs'']; [by right|by left|by right].
Qed.

Lemma wtx_faults {A} (b : W A) q d fs : sim b q -> good q -> wstrict b ->
  snd (exec (wtransaction b) d fs) = d \/ exec (wtransaction b) d fs = exec (wtransaction b) d [].
Proof.
  intros Hs [Hk _ _] Hb. pose proof (wstrict_wtx b q Hs Hk Hb (conn_of d) fs) as H.
  pose proof (sim_wtransaction b q Hs (conn_of d) fs) as Hx.
  pose proof (transaction_not_ok q (conn_of d) fs Hk) as Hn. rewrite Hx in Hn.
  unfold exec. destruct (run (wtransaction b) (conn_of d) fs) as [[[ms r] c] fs1], (run (wtransaction b) (conn_of d) []) as [[[ms0 r0] c0] fs0].
  cbn [fst snd] in *. destruct H as [->|H]; [left|right; congruence]. rewrite Hn by done. done.
Qed.

Record covered (affected : nat -> N) (ms : increments) (d d' : db) : Prop := Covered {
  v_comp : rows (t_comp d') <= rows (t_comp d) + counted SubmissionsCompleted ms;
  v_fail : rows (t_fail d') <= rows (t_fail d) + counted SubmissionsFailed ms;
  v_canc : rows (t_canc d') <= rows (t_canc d) + counted SubmissionsCancelled ms;
  v_cdone : rows (t_cdone d') <= rows (t_cdone d) + counted ChunksCompleted ms;
  v_cfail : exact_rows affected -> rows (t_cfail d') <= rows (t_cfail d) + counted ChunksFailed ms + counted ChunksSkipped ms }.
Lemma covered_same affected ms d : covered affected ms d d.
Proof. split; intros; lia. Qed.
Lemma kept_covered affected ms d d' st : kept affected ms d d' st -> covered affected ms d d'.
Proof. intros [? ? ? ? Hx]. split; try lia. intros Ha. specialize (Hx Ha). lia. Qed.

Lemma wstrict_mc_body id n : wstrict (s <-! silent (get_submission id);
    if s_done s =? s_total s then w_complete_submission_raw id n ;;! wret true else wret false).
Proof.
  apply wstrict_wtry; [apply wstrict_silent; auto with good|]. intros s. destruct (_ =? _); [|apply wstrict_ret].
  apply wstrict_wtry; [|intros; apply wstrict_ret]. apply wstrict_wtry; [apply wstrict_silent; auto with good|]. intros. apply wstrict_ret.
Qed.
Lemma sim_mc_body id n : sim (s <-! silent (get_submission id);
    if s_done s =? s_total s then w_complete_submission_raw id n ;;! wret true else wret false)
  (s <-? get_submission id; if s_done s =? s_total s then complete_submission_raw id n ;;? ret true else ret false).
Proof.
  apply sim_wtry; [apply sim_silent|]. intros s. destruct (_ =? _); [|apply sim_ret].
  apply sim_wtry; [apply sim_count|]. intros _. apply sim_ret.
Qed.
Lemma wstrict_mc id n : wstrict (w_maybe_complete_submission id n).
Proof. eapply wstrict_wtx; [apply sim_mc_body| |apply wstrict_mc_body]. apply good_keeps. solve_good. Qed.

Section faults.
Context (affected : nat -> N).
Lemma wstrict_skip id n : wstrict (w_skip_remaining_chunks affected id n).
Proof.
  apply wstrict_wtry; [apply wstrict_silent; auto with good|]. intros _.
  apply wstrict_wtry; [apply wstrict_silent; auto with good|]. intros. apply wstrict_ret.
Qed.
Lemma wstrict_fail_notx id ix f n1 n2 n3 : wstrict (w_fail_submission_notx affected id ix f n1 n2 n3).
Proof.
  apply wstrict_wtry.
  { apply wstrict_wtry; [apply wstrict_silent; auto with good|]. intros. apply wstrict_ret. }
  intros _. apply wstrict_wtry.
  { apply wstrict_wtry; [apply wstrict_silent; auto with good|]. intros. apply wstrict_ret. }
  intros _. apply wstrict_skip.
Qed.

Lemma covered_op U d o fs : inv U d -> (forall id, op_ids o id -> ~ U id) -> ~ is_fail_submission o ->
  covered affected (fst (fst (exec (w_op_prog affected o) d fs))) d (snd (exec (op_prog o) d fs)).
Proof.
  intros HI Hf Hn.
  assert ((exists c, o = OCleanup c) \/ (forall c, o <> OCleanup c)) as [[c ->]|Hc].
  { destruct o as [| | | | |c]; [by right..|left; by exists c]. }
  { cbn [op_prog]. rewrite exec_map. cbn [snd].
    assert (snd (exec (cleanup_old c) d fs) = d \/ snd (exec (cleanup_old c) d fs) = cleaned c d) as [-> | ->].
    { pose proof (exec_cleanup c d) as E. unfold cleanup_old in *. match goal with |- context[transaction ?b] => set (tx := b) in * end.
      destruct (exec_tx_faults tx d fs) as [-> | ->]; [subst tx; solve_good|by left|right]. by rewrite E. }
    - apply covered_same.
    - split; intros; cbn [cleaned t_comp t_fail t_canc t_cdone t_cfail];
        (match goal with |- rows (filter ?P ?m) <= _ => pose proof (rows_filter P m) end); lia. }
  pose proof (balance affected U d o HI Hf Hn) as [_ Hk]. specialize (Hk Hc). apply kept_covered in Hk.
  rewrite (w_op_sim affected o d fs). rewrite (w_op_sim affected o d []) in Hk. cbn [snd] in *.
  destruct o as [id p l m s z ot n|cid out n1 n2|cid f mx n1 n2 n3|id n1 n2|id ix f n1 n2 n3|c]; [| | | |done|by destruct (Hc c)]; cbn [w_op_prog] in *.
  - specialize (Hf id eq_refl). destruct (inv_insertable _ _ _ HI Hf) as [Hi Hcomp].
    unfold answering in *. rewrite exec_map in *. cbn [fst snd] in *.
    unfold w_insert_submission_from_chunks in *. cbv zeta in *.
    set (s0 := Submission id p (N.of_nat (length l)) 0 z m s ot) in *.
    (* the first transaction *)
    assert (Hgi : good (insert_submission s0 (number_chunks id l))) by auto with good.
    pose proof (good_strict _ Hgi (conn_of d) fs) as Hst. pose proof (run_nil_faults (insert_submission s0 (number_chunks id l)) (conn_of d)) as Hnf.
    pose proof (exec_insert id p l m s z ot d Hi) as Hex. fold s0 in Hex.
    set (rest := fun _ : unit => if N.of_nat (length l) =? 0 then _ else _) in *.
    assert (Hrun : forall fs, run (wtry (w_insert_submission s0 (number_chunks id l)) rest) (conn_of d) fs =
       let '(r, c, fs') := run (insert_submission s0 (number_chunks id l)) (conn_of d) fs in
       match r with
       | Ok u => let '(x, c', fs'') := run (rest u) c fs' in
            (((SubmissionsTotal, 1) :: (ChunksTotal, N.of_nat (length l)) :: x.1, x.2), c', fs'')
       | Err e => (([(SubmissionsTotal, 1); (ChunksTotal, N.of_nat (length l))], Err e), c, fs')
       | Panicked => (([(SubmissionsTotal, 1); (ChunksTotal, N.of_nat (length l))], Panicked), c, fs')
       end).
    { intros fs0. unfold w_insert_submission, wtry, wbind, silent. rewrite !run_bind.
      destruct (run (insert_submission s0 (number_chunks id l)) (conn_of d) fs0) as [[r c] fs'].
      destruct r as [u|e|]; [|reflexivity..].
      change (run (bind (rest u) (fun y => Ret ([(SubmissionsTotal, 1); (ChunksTotal, s_total s0)] ++ y.1, y.2))) c fs' =
        let '(x, c', fs'') := run (rest u) c fs' in
            (((SubmissionsTotal, 1) :: (ChunksTotal, N.of_nat (length l)) :: x.1, x.2), c', fs'')).
      rewrite run_bind. destruct (run (rest u) c fs') as [[[ms r] c'] fs'']. done. }
    unfold exec in Hex, Hk |- *. rewrite Hrun in Hk. rewrite Hrun. 
    assert (Hno : is_ok (fst (fst (run (insert_submission s0 (number_chunks id l)) (conn_of d) fs))) = false ->
       snd (fst (run (insert_submission s0 (number_chunks id l)) (conn_of d) fs)) = conn_of d).
    { apply transaction_not_ok. apply good_keeps. solve_good. }
    assert (Hsaved : c_saved (snd (fst (run (insert_submission s0 (number_chunks id l)) (conn_of d) []))) = []).
    { apply (good_keeps _ Hgi). }
    destruct (run (insert_submission s0 (number_chunks id l)) (conn_of d) fs) as [[r c] fs'] eqn:E1.
    destruct (run (insert_submission s0 (number_chunks id l)) (conn_of d) []) as [[r0 c0] fs0] eqn:E2. cbn [fst snd] in *. subst fs0.
    injection Hex as -> Hc0. destruct c0 as [d0 sv0]. cbn in Hc0, Hsaved. subst d0 sv0.
    destruct Hst as [->|Hst]. { rewrite Hno by done. apply covered_same. }
    injection Hst as -> ->. clear Hno Hrun.
    subst rest. cbv beta in *. destruct l as [|x l].
    2:{ cbn in Hk |- *. exact Hk. }
    change (N.of_nat (length (@nil content)) =? 0) with true in *. cbn iota in *.
    set (dd := inserted id p [] m s z ot d) in *.
    pose proof (wtx_faults _ _ dd fs' (sim_mc_body id n) ltac:(solve_good) (wstrict_mc_body id n)) as Hw.
    fold (w_maybe_complete_submission id n) in Hw. unfold exec, conn_of in Hw.
    match goal with |- context[wbind (w_maybe_complete_submission id n) ?k] => set (K := k) in * end.
    assert (HK : forall r c fs, exists r', run (K r) c fs = (([], r'), c, fs)).
    { intros [b|[]|] c1 fs1; eexists; reflexivity. }
    unfold wbind in Hk |- *. rewrite run_bind in Hk. rewrite run_bind.
    destruct (run (w_maybe_complete_submission id n) (Conn dd []) fs') as [[[ms r] c] fs''],
      (run (w_maybe_complete_submission id n) (Conn dd []) []) as [[[ms0 r0] c0] fs0]. cbn [fst snd] in *.
    rewrite run_bind in Hk. rewrite run_bind.
    destruct (HK r c fs'') as [r' Hr']. destruct (HK r0 c0 fs0) as [r0' Hr0']. rewrite Hr'. rewrite Hr0' in Hk. cbn [run fst snd] in *.
    destruct Hw as [Hw|Hw].
    + change (covered affected ((SubmissionsTotal, 1) :: (ChunksTotal, 0) :: ms ++ []) d (c_cur c)). rewrite Hw.
      split; intros; subst dd; cbn [inserted t_comp t_fail t_canc t_cdone t_cfail]; lia.
    + injection Hw as -> _ Hw. change (covered affected ((SubmissionsTotal, 1) :: (ChunksTotal, 0) :: ms0 ++ []) d (c_cur c)).
      rewrite Hw. exact Hk.
  - unfold answering in *. rewrite exec_map in *. cbn [fst snd] in *. unfold w_complete_chunk in *.
    set (tx := sz <-! silent (complete_chunk_raw cid out n1); w_maybe_complete_submission cid.1 n2 ;;! wret (size_of sz)) in *.
    assert (Hw : snd (exec (wtransaction tx) d fs) = d \/ exec (wtransaction tx) d fs = exec (wtransaction tx) d []).
    { eapply wtx_faults with (q := (sz <-? complete_chunk_raw cid out n1; maybe_complete_submission cid.1 n2 ;;? ret (size_of sz))).
      - apply sim_wtry; [apply sim_silent|]. intros sz. apply sim_wtry; [apply sim_maybe_complete|]. intros _. apply sim_ret.
      - solve_good.
      - apply wstrict_wtry; [apply wstrict_silent; auto with good|]. intros sz. apply wstrict_wtry; [apply wstrict_mc|]. intros. apply wstrict_ret. }
    unfold wbind, exec in *. rewrite run_bind in *. 
    destruct (run (wtransaction tx) (conn_of d) fs) as [[[ms r] c] fs1], (run (wtransaction tx) (conn_of d) []) as [[[ms0 r0] c0] fs0].
    cbn [fst snd] in *. destruct Hw as [Hw|Hw].
    + change (covered affected (ms ++ [(ChunksCompleted, 1)]) d (c_cur c)). rewrite Hw. apply covered_same.
    + injection Hw as -> _ Hw. change (covered affected (ms0 ++ [(ChunksCompleted, 1)]) d (c_cur c)). rewrite Hw. exact Hk.
  - unfold answering in *. rewrite exec_map in *. cbn [fst snd] in *.
    unfold w_retry_or_fail_chunk in *. match goal with |- context[wtransaction ?b] => set (tx := b) in * end.
    assert (Hw : snd (exec (wtransaction tx) d fs) = d \/ exec (wtransaction tx) d fs = exec (wtransaction tx) d []).
    { eapply wtx_faults with (q := (retries <-? sql (fun d => match t_chunk d !! cid with
        | Some c => SOk (ch_retries c + 1,
            set_chunk (fun m => <[cid := ChunkRow (ch_input c) (ch_retries c + 1)]> m) d)
        | None => SErr RowNotFound end);
        if mx <=? retries then fail_submission_notx cid.1 cid.2 f n1 n2 n3 ;;? ret true else ret false)).
      - apply sim_wtry; [apply sim_silent|]. intros r. destruct (_ <=? _).
        + apply sim_wtry; [apply sim_fail_notx|]. intros _. apply sim_ret.
        + intros c1 fs1. done.
      - solve_good.
      - apply wstrict_wtry; [apply wstrict_silent; auto with good|]. intros r. destruct (_ <=? _).
        + apply wstrict_wtry; [apply wstrict_fail_notx|]. intros _. apply wstrict_ret.
        + apply wstrict_wtry; [apply wstrict_ret|]. intros _. apply wstrict_ret. }
    destruct Hw as [-> | ->]; [apply covered_same|exact Hk].
  - unfold answering in *. rewrite exec_map in *. cbn [fst snd] in *.
    unfold w_cancel_submission in *. match goal with |- context[wtransaction ?b] => set (tx := b) in * end.
    assert (Hw : snd (exec (wtransaction tx) d fs) = d \/ exec (wtransaction tx) d fs = exec (wtransaction tx) d []).
    { eapply wtx_faults; [|apply (good_cancel_body id n1 n2)|].
      - apply sim_wbind.
        + apply sim_wtry; [apply sim_count|]. intros _. apply sim_skip.
        + intros [u|[]|]; try apply sim_ret. apply sim_wtry; [apply sim_silent|]. intros [[]|]; apply sim_ret.
      - apply wstrict_wbind.
        + apply wstrict_wtry; [|intros; apply wstrict_skip].
          apply wstrict_wtry; [apply wstrict_silent; auto with good|]. intros. apply wstrict_ret.
        + intros [u|[]|]; try apply wstrict_ret. apply wstrict_wtry; [apply wstrict_silent; auto with good|].
          intros [[]|]; apply wstrict_ret.
        + done. }
    destruct Hw as [-> | ->]; [apply covered_same|exact Hk].
Qed.

Lemma covered_after h : fresh_ids h -> Forall (fun e => e_crash e = None) h -> Forall (fun e => ~ is_fail_submission (e_op e)) h ->
  let d := after h in let t := tally affected h in
  rows (t_comp d) <= t SubmissionsCompleted /\ rows (t_fail d) <= t SubmissionsFailed /\ rows (t_canc d) <= t SubmissionsCancelled /\
  rows (t_cdone d) <= t ChunksCompleted /\
  (exact_rows affected -> rows (t_cfail d) <= t ChunksFailed + t ChunksSkipped).
Proof.
  cbv zeta. induction h as [|e h IH] using rev_ind; [done|]. intros Hf [Hq [He2 _]%Forall_cons]%Forall_app [Hn [Hn1 _]%Forall_cons]%Forall_app.
  apply fresh_ids_app in Hf as [Hf He]. specialize (IH Hf Hq Hn) as (IH1 & IH2 & IH3 & IH4 & IH5).
  destruct (covered_op _ _ (e_op e) (e_faults e) (inv_after h Hf) He Hn1) as [K1 K2 K3 K4 K5].
  rewrite after_snoc, !tally_snoc. unfold step_incs, step, finished. rewrite He2.
  repeat split; try lia. intros Hx. specialize (IH5 Hx). specialize (K5 Hx). lia.
Qed.
End faults.
