(** Idempotence of completions and the retry limit. *)
From Verif Require Export FateProofs.
Local Open Scope N_scope.

Lemma waiting_none d cid : waiting d cid = None -> t_chunk d !! cid = None.
Proof.
  unfold waiting, get_chunk. rewrite exec_sql. by destruct (t_chunk d !! cid).
Qed.
Lemma waiting_some d cid c : waiting d cid = Some c -> exists r, t_chunk d !! cid = Some r /\
  c = Chunk cid.1 cid.2 (ch_input r) (ch_retries r).
Proof.
  unfold waiting, get_chunk. rewrite exec_sql. destruct (t_chunk d !! cid) as [r|]; [|done].
  intros [= <-]. by exists r.
Qed.

Lemma atomic_op o : (forall id, ~ op_ids o id) -> atomic (op_prog o).
Proof.
  intros Ho. destruct o; simpl op_prog; [by destruct (Ho id)|..]; unfold complete_chunk; repeat apply atomic_map; apply atomic_tx.
  - solve_good.
  - solve_good.
  - apply good_cancel_body.
  - solve_good.
  - solve_good.
Qed.

Lemma complete_not_waiting d cid out n1 n2 fs k : waiting d cid = None -> step d (Event (OComplete cid out n1 n2) fs k) = d.
Proof.
  intros Hw. apply waiting_none in Hw.
  destruct (atomic_step d (OComplete cid out n1 n2) fs k) as [E|E]; [apply atomic_op; by intros ? []|exact E|].
  rewrite E. unfold op_prog. rewrite exec_map. simpl. rewrite complete_chunk_exec. simpl.
  by rewrite exec_complete_chunk_tx, Hw.
Qed.
Lemma fail_not_waiting d cid f mx n1 n2 n3 fs k : waiting d cid = None -> step d (Event (OFail cid f mx n1 n2 n3) fs k) = d.
Proof.
  intros Hw. apply waiting_none in Hw.
  destruct (atomic_step d (OFail cid f mx n1 n2 n3) fs k) as [E|E]; [apply atomic_op; by intros ? []|exact E|].
  rewrite E. unfold op_prog. rewrite exec_map. simpl. by rewrite exec_retry_or_fail, Hw.
Qed.

Global Instance chunk_row_eq_dec : EqDecision chunk_row.
Proof. solve_decision. Defined.

(** *** Counting failures *)
Lemma failures_from_app d h1 h2 cid : failures_from d (h1 ++ h2) cid = (failures_from d h1 cid + failures_from (run_from d h1) h2 cid)%nat.
Proof. revert d. induction h1 as [|e h1 IH]; intros d; simpl; [done|]. rewrite IH. unfold run_from. simpl. lia. Qed.
Lemma failures_snoc h e cid : failures (h ++ [e]) cid = (failures h cid + if counts_failure (after h) e cid then 1 else 0)%nat.
Proof. unfold failures. rewrite failures_from_app. simpl. unfold after. lia. Qed.

Record fghost (mx : N) (F : N -> nat) (v : view) : Prop := FGhost {
  fg_wait : forall i c, v_chunks v !! i = Some c -> ch_retries c = N.of_nat (F i);
  fg_limit : forall i c, v_chunks v !! i = Some c -> N.of_nat (F i) < N.max mx 1;
  fg_fail : forall r, v_fail v = Some r -> N.of_nat (F (fr_chunk r)) = N.max mx 1 }.

Definition limited (mx : N) (o : op) : Prop :=
  match o with OFail _ _ m _ _ _ => m = mx | OFailSubmission _ _ _ _ _ _ => False | _ => True end.

Lemma fghost_change mx F F' o id v v' :
  vinv v -> limited mx o ->
  (forall i p l m st z ot n, o = OInsert id p l m st z ot n -> F i = 0%nat) ->
  (forall i, F' i = (F i + match o with OFail cid _ _ _ _ _ => if bool_decide (cid = (id, i)) && bool_decide (v_chunks v !! i <> v_chunks v' !! i) then 1 else 0 | _ => 0 end)%nat) ->
  change o id v v' -> fghost mx F v -> fghost mx F' v'.
Proof.
  intros Hv Hl Hnew HF Hc Hg. destruct Hc; simpl in *.
  - assert (HF' : forall i, F' i = F i).
    { intros i. rewrite HF. destruct o; try lia. rewrite (bool_decide_eq_false_2 (v_chunks v !! i <> _)) by naive_solver.
      rewrite andb_false_r. lia. }
    destruct Hg. split; setoid_rewrite HF'; auto.
  - assert (HF' : forall i, F' i = 0%nat). { intros i. rewrite HF. rewrite (Hnew i p l m st z ot n eq_refl). lia. }
    split; simpl; try done; intros i c; rewrite lookup_number_rows, HF'; destruct (l !! _); simpl; try done; intros [= <-]; simpl; lia.
  - by split.
  - assert (HF' : forall i, F' i = F i) by (intros i; rewrite HF; lia).
    destruct Hg. split; simpl in *; setoid_rewrite HF'; auto; intros i c' [_ ?]%lookup_delete_Some; eauto.
  - by split.
  - assert (Hne : forall i, i <> ix -> F' i = F i).
    { intros i Hi. rewrite HF. rewrite bool_decide_eq_false_2 by congruence. simpl. lia. }
    assert (Hix : F' ix = S (F ix)).
    { rewrite HF. rewrite (bool_decide_eq_true_2 (_ = _)) by done. rewrite lookup_insert, H.
      rewrite bool_decide_eq_true_2; [simpl; lia|]. intros E. injection E as E. apply (f_equal ch_retries) in E. simpl in E. lia. }
    subst mx0. destruct Hg; simpl in *. split; simpl; try done; intros i c'; rewrite lookup_insert_Some; intros [[<- <-]|[Hi Hl']];
      rewrite ?Hix, ?(Hne i) by done; simpl; try (by eauto).
    + rewrite (fg_wait0 _ _ H). lia.
    + rewrite (fg_wait0 _ _ H) in H1. lia.
  - assert (Hix : F' ix = S (F ix)).
    { rewrite HF. rewrite (bool_decide_eq_true_2 (_ = _)) by done. rewrite lookup_empty, H.
      rewrite bool_decide_eq_true_2; [simpl; lia|done]. }
    subst mx0. destruct Hg; simpl in *. split; simpl; try done. intros r [= <-]. simpl. rewrite Hix.
    pose proof (fg_wait0 _ _ H). pose proof (fg_limit0 _ _ H). lia.
  - done.
  - by split.
  - assert (HF' : forall i, F' i = F i) by (intros i; rewrite HF; lia).
    destruct Hg. split; simpl; setoid_rewrite HF'; try done. intros r Hr%drop_old_Some. auto.
Qed.

Lemma counts_failure_view h e id i : counts_failure (after h) e (id, i) =
  match e_op e with
  | OFail cid _ _ _ _ _ => bool_decide (cid = (id, i)) &&
      bool_decide (v_chunks (view_of (after h) id) !! i <> v_chunks (view_of (after (h ++ [e])) id) !! i)
  | _ => false end.
Proof.
  unfold counts_failure. destruct (e_op e); try done. f_equal. rewrite <- after_snoc, !waiting_view.
  apply bool_decide_ext. destruct (v_chunks (view_of (after h) id) !! i) as [[a b]|], (v_chunks (view_of (after (h ++ [e])) id) !! i) as [[a' b']|];
    simpl; split; intros Hne E; apply Hne; congruence.
Qed.

Lemma failures_new h id i : fresh_ids h -> id ∉ inserted_ids h -> failures h (id, i) = 0%nat.
Proof.
  induction h as [|e h IH] using rev_ind; intros Hf Hid; [done|].
  pose proof (fresh_ids_app _ _ Hf) as [Hf0 He].
  assert (id ∉ inserted_ids h) by (rewrite inserted_ids_app in Hid; set_solver).
  rewrite failures_snoc, IH by done. rewrite counts_failure_view, !view_fresh by done.
  destruct (e_op e); simpl; try done. by rewrite andb_false_r.
Qed.

Lemma fghost_after mx h id : fresh_ids h -> retry_limit mx h ->
  fghost mx (fun i => failures h (id, i)) (view_of (after h) id).
Proof.
  induction h as [|e h IH] using rev_ind; intros Hf Hl.
  { split; unfold view_of, after; simpl; intros; rewrite ?rows_of_empty, ?lookup_empty in *; done. }
  unfold retry_limit in Hl. rewrite Forall_app in Hl. destruct Hl as [Hl Hle]. inversion Hle as [|? ? Hx _]; subst.
  pose proof (fresh_ids_app _ _ Hf) as [Hf0 He].
  eapply fghost_change; [by apply vinv_after|exact Hx| | |by apply change_after|by apply IH].
  - intros i p l m st z ot n Eo. apply failures_new; [done|]. apply He. by rewrite Eo.
  - intros i. simpl. rewrite failures_snoc, counts_failure_view. destruct (e_op e); try lia. done.
Qed.

(** The counter alone, for arbitrary retry limits. *)
Record cghost (F : N -> nat) (v : view) : Prop := CGhost {
  cg_wait : forall i c, v_chunks v !! i = Some c -> ch_retries c = N.of_nat (F i) }.
Lemma cghost_change F F' o id v v' :
  vinv v ->
  (forall i p l m st z ot n, o = OInsert id p l m st z ot n -> F i = 0%nat) ->
  (forall i, F' i = (F i + match o with OFail cid _ _ _ _ _ => if bool_decide (cid = (id, i)) && bool_decide (v_chunks v !! i <> v_chunks v' !! i) then 1 else 0 | _ => 0 end)%nat) ->
  change o id v v' -> cghost F v -> cghost F' v'.
Proof.
  intros Hv Hnew HF Hc [Hg]. destruct Hc; simpl in *; try (by split; simpl).
  - split. intros i c Hi. rewrite (Hg i c) by done. rewrite HF. destruct o; try (f_equal; lia).
    rewrite (bool_decide_eq_false_2 (v_chunks v !! i <> _)) by naive_solver. rewrite andb_false_r. f_equal. lia.
  - split. simpl. intros i c. rewrite lookup_number_rows, HF, (Hnew i p l m st z ot n eq_refl).
    destruct (l !! _); simpl; [|done]. intros [= <-]. done.
  - split. simpl. intros i c' [_ ?]%lookup_delete_Some. rewrite HF, Nat.add_0_r. eauto.
  - split. simpl. intros i c'. rewrite lookup_insert_Some. intros [[<- <-]|[Hi Hl']]; rewrite HF.
    + rewrite (bool_decide_eq_true_2 (_ = _)) by done. rewrite lookup_insert, H.
      rewrite bool_decide_eq_true_2; [simpl; rewrite (Hg _ _ H); lia|].
      intros E. injection E as E. apply (f_equal ch_retries) in E. simpl in E. lia.
    + rewrite bool_decide_eq_false_2 by congruence. simpl. rewrite Nat.add_0_r. eauto.
  - split. simpl. intros i c Hi. rewrite HF, Nat.add_0_r. eauto.
Qed.
Lemma cghost_after h id : fresh_ids h -> cghost (fun i => failures h (id, i)) (view_of (after h) id).
Proof.
  induction h as [|e h IH] using rev_ind; intros Hf.
  { split; unfold view_of, after; simpl; intros; rewrite ?rows_of_empty, ?lookup_empty in *; done. }
  pose proof (fresh_ids_app _ _ Hf) as [Hf0 He].
  eapply cghost_change; [by apply vinv_after| | |by apply change_after|by apply IH].
  - intros i p l m st z ot n Eo. apply failures_new; [done|]. apply He. by rewrite Eo.
  - intros i. simpl. rewrite failures_snoc, counts_failure_view. destruct (e_op e); try lia. done.
Qed.

Lemma retries_count h cid c : fresh_ids h -> waiting (after h) cid = Some c -> c_retries c = N.of_nat (failures h cid).
Proof.
  intros Hf Hw. destruct cid as [id i]. rewrite waiting_view in Hw.
  destruct (v_chunks _ !! i) as [r|] eqn:E; [|done]. injection Hw as <-. simpl.
  by apply (cg_wait _ _ (cghost_after h id Hf)).
Qed.
Lemma retries_limit mx h : fresh_ids h -> retry_limit mx h ->
  (forall cid, is_Some (waiting (after h) cid) -> N.of_nat (failures h cid) < N.max mx 1) /\
  (forall id s c, reports (after h) id (Failed s c) -> N.of_nat (failures h (id, sf_chunk s)) = N.max mx 1).
Proof.
  intros Hf Hl. split.
  - intros [id i] Hw. rewrite waiting_view in Hw. apply fmap_is_Some in Hw as [r E].
    by apply (fg_limit _ _ _ (fghost_after mx h id Hf Hl) _ _ E).
  - intros id s c (r & k & _ & _ & Hr & _ & -> & _)%reports_failed. simpl.
    by apply (fg_fail _ _ _ (fghost_after mx h id Hf Hl)).
Qed.

(** *** What a failure report does *)
Lemma fail_report_retry h id ix c f mx n1 n2 n3 : fresh_ids h -> waiting (after h) (id, ix) = Some c ->
  c_retries c + 1 < mx ->
  let e := quiet (OFail (id, ix) f mx n1 n2 n3) in
  answer_of (after h) e = Some (AFail (Ok false)) /\
  waiting (after (h ++ [e])) (id, ix) = Some (Chunk id ix (c_input c) (c_retries c + 1)) /\
  status_of (after (h ++ [e])) id = status_of (after h) id /\
  (forall i, i <> ix -> waiting (after (h ++ [e])) (id, i) = waiting (after h) (id, i)) /\
  (forall i, completed_chunk (after (h ++ [e])) (id, i) = completed_chunk (after h) (id, i)) /\
  (forall i, failed_chunk (after (h ++ [e])) (id, i) = failed_chunk (after h) (id, i)).
Proof.
  intros Hf Hw Hlt e. apply waiting_some in Hw as (r & Hr & ->). simpl in *.
  destruct (view_fail_ok _ _ (inv_after h Hf) id ix r f mx n1 n2 n3 Hr) as (s & mt & ch & cd & Ev & Ec & Hix & Ea & Ev').
  assert ((mx <=? ch_retries r + 1) = false) as E by (apply N.leb_gt; lia). rewrite E in *.
  assert (Ev2 : view_of (after (h ++ [e])) id = View (Some s) None None None mt (<[ix := ChunkRow (ch_input r) (ch_retries r + 1)]> ch) cd ∅).
  { unfold e. rewrite after_quiet. unfold op_prog. rewrite exec_map. exact Ev'. }
  split; [|split; [|split; [|split; [|split]]]].
  - unfold answer_of, finished; simpl. unfold op_prog. rewrite exec_map. simpl. by rewrite Ea.
  - rewrite waiting_view, Ev2. simpl. by rewrite lookup_insert.
  - by rewrite !status_of_view, Ev, Ev2.
  - intros i Hi. rewrite !waiting_view, Ev, Ev2. simpl. by rewrite lookup_insert_ne.
  - intros i. by rewrite !completed_chunk_view, Ev, Ev2.
  - intros i. by rewrite !failed_chunk_view, Ev, Ev2.
Qed.

Lemma fail_report_final h id ix c f mx n1 n2 n3 : fresh_ids h -> waiting (after h) (id, ix) = Some c ->
  mx <= c_retries c + 1 ->
  let e := quiet (OFail (id, ix) f mx n1 n2 n3) in
  answer_of (after h) e = Some (AFail (Ok true)) /\
  exists s, reports (after h) id (InProgress s) /\
  reports (after (h ++ [e])) id
    (Failed (SubmissionFailed id (s_prefix s) (s_total s) (Some (s_done s)) 1 (s_meta s) (s_strat s) n1 ix "{}")
            (ChunkFailed id ix (c_input c) f n2)) /\
  (forall i, waiting (after (h ++ [e])) (id, i) = None) /\
  (forall i c', i <> ix -> waiting (after h) (id, i) = Some c' ->
     t_cfail (after (h ++ [e])) !! (id, i) = Some (ChunkFailRow (c_input c') "" n3 true)) /\
  (forall i, i <> ix -> waiting (after h) (id, i) = None -> failed_chunk (after (h ++ [e])) (id, i) = None) /\
  (forall i, completed_chunk (after (h ++ [e])) (id, i) = completed_chunk (after h) (id, i)).
Proof.
  intros Hf Hw Hlt e. apply waiting_some in Hw as (r & Hr & ->). simpl in *.
  destruct (view_fail_ok _ _ (inv_after h Hf) id ix r f mx n1 n2 n3 Hr) as (s & mt & ch & cd & Ev & Ec & Hix & Ea & Ev').
  assert ((mx <=? ch_retries r + 1) = true) as E by (apply N.leb_le; lia). rewrite E in *.
  assert (Ev2 : view_of (after (h ++ [e])) id = View None None (Some (fail_row_of s ix n1)) None mt ∅ cd
             (<[ix := ChunkFailRow (ch_input r) f n2 false]> (skipped n3 (delete ix ch)))).
  { unfold e. rewrite after_quiet. unfold op_prog. rewrite exec_map. exact Ev'. }
  split.
  - unfold answer_of, finished; simpl. unfold op_prog. rewrite exec_map. simpl. by rewrite Ea.
  - exists (Submission id (sr_prefix s) (sr_total s) (sr_done s) (size_of (sr_size s)) (sr_meta s) mt (sr_otel s)).
    split; [|split; [|split; [|split; [|split]]]].
    + apply reports_in_progress. exists s. by rewrite Ev.
    + unfold reports. rewrite status_of_view, Ev2. unfold status_v; simpl. by rewrite lookup_insert.
    + intros i. by rewrite waiting_view, Ev2.
    + intros i c' Hi. rewrite waiting_view, Ev. simpl. destruct (ch !! i) as [x|] eqn:Ex; [|done]. intros [= <-]. simpl.
      rewrite <- lookup_rows_of. change (rows_of _ id) with (v_cfail (view_of (after (h ++ [e])) id)). rewrite Ev2. simpl.
      rewrite lookup_insert_ne, lookup_skipped_view, lookup_delete_ne, Ex by done. done.
    + intros i Hi. rewrite waiting_view, failed_chunk_view, Ev, Ev2. simpl. intros Hn. apply fmap_None in Hn.
      rewrite lookup_insert_ne, lookup_skipped_view, lookup_delete_ne, Hn by done. done.
    + intros i. by rewrite !completed_chunk_view, Ev, Ev2.
Qed.
