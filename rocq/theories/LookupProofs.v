(** Empty submissions, racing readers, cleanup, lookups and counters. *)
From Verif Require Export OpProofs.
From Coq Require Import Sorted.
Local Open Scope N_scope.

(** *** Submissions without chunks *)
Lemma good_ok {A} (p : M A) d fs : good p -> is_ok (fst (exec p d fs)) = true -> exec p d fs = exec p d [].
Proof.
  intros [_ _ Hs]. specialize (Hs (conn_of d) fs). unfold exec.
  destruct (run p (conn_of d) fs) as [[r c] fs1], (run p (conn_of d) []) as [[r' c'] fs2]. simpl in *.
  intros Hok. destruct Hs as [->|[= -> ->]]; done.
Qed.
Lemma insert_answered h e id p l m st z ot n r : fresh_ids (h ++ [e]) -> e_op e = OInsert id p l m st z ot n ->
  answer_of (after h) e = Some (AInsert (Ok r)) -> after (h ++ [e]) = after (h ++ [quiet (e_op e)]).
Proof.
  intros Hf Eo. rewrite after_quiet, after_snoc. unfold answer_of, step, finished. destruct (e_crash e); [done|].
  rewrite Eo. unfold op_prog. rewrite !exec_map. cbn [fst snd]. intros [= Ha].
  rewrite good_ok; [done|apply good_insert_from_chunks|]. by rewrite Ha.
Qed.
Lemma insert_quiet h id p l m st z ot n : fresh_ids (h ++ [quiet (OInsert id p l m st z ot n)]) ->
  let e := quiet (OInsert id p l m st z ot n) in
  answer_of (after h) e = Some (AInsert (Ok id)) /\
  match l with
  | [] => reports (after (h ++ [e])) id (Completed (SubmissionCompleted id p 0 1 m st n "{}"))
  | _ => reports (after (h ++ [e])) id (InProgress (Submission id p (N.of_nat (length l)) 0 z m st ot))
  end /\
  forall i, waiting (after (h ++ [e])) (id, i) = (fun x => Chunk id i x 0) <$> l !! N.to_nat i.
Proof.
  intros Hf e. pose proof (fresh_ids_app _ _ Hf) as [Hf0 He].
  assert (Hid : id ∉ inserted_ids h) by (apply He; done).
  destruct (inv_insertable _ _ id (inv_after h Hf0) Hid) as [Hi Hc].
  assert (Ha : answer_of (after h) e = Some (AInsert (Ok id))).
  { unfold answer_of, finished, e, quiet; simpl. rewrite exec_map, exec_insert_from_chunks by done. done. }
  split; [done|]. destruct (accepted_known h e id p l m st z ot n Hf eq_refl ltac:(by eexists)) as [_ Hk].
  assert (Hne : l = [] -> t_comp (after (h ++ [e])) !! id <> None).
  { intros ->. unfold e. rewrite after_quiet. unfold op_prog. rewrite exec_map, exec_insert_from_chunks by done. simpl.
    by rewrite lookup_insert. }
  destruct (insert_outcomes h e id p l m st z ot n Hf eq_refl) as [E|[[H1 H2]|(-> & H1 & H2)]].
  - exfalso. rewrite E in Hk. apply Hk. apply unknown_view. by rewrite view_fresh.
  - split; [|done]. destruct l; [|done]. exfalso. apply Hne; [done|].
    assert (fresh_ids (h ++ [e])) as Hf' by done. apply reports_in_progress in H1 as (r & Hr & _).
    by destruct (vi_sub _ (vinv_after _ id Hf') _ Hr) as (? & _).
  - split; [done|]. intros i. rewrite H2. done.
Qed.
Lemma empty_completes h e id p m st z ot n r : fresh_ids (h ++ [e]) -> e_op e = OInsert id p [] m st z ot n ->
  answer_of (after h) e = Some (AInsert (Ok r)) ->
  reports (after (h ++ [e])) id (Completed (SubmissionCompleted id p 0 1 m st n "{}")).
Proof.
  intros Hf Eo Ha. rewrite (insert_answered h e id p [] m st z ot n r Hf Eo Ha).
  assert (Hf' : fresh_ids (h ++ [quiet (e_op e)])).
  { unfold fresh_ids in *. rewrite inserted_ids_app in *. done. }
  rewrite Eo in *. by apply (insert_quiet h id p [] m st z ot n).
Qed.
Lemma empty_stuck h h' id s : fresh_ids (h ++ h') -> reports (after h) id (InProgress s) -> s_total s = 0 ->
  Forall (fun e => forall n1 n2, e_op e <> OCancel id n1 n2) h' ->
  reports (after (h ++ h')) id (InProgress s).
Proof.
  induction h' as [|e h' IH] using rev_ind; intros Hf Hs H0 Hn; [by rewrite app_nil_r|].
  rewrite app_assoc in *. apply Forall_app in Hn as [Hn He]. inversion He as [|? ? Hne _]; subst.
  pose proof (fresh_prefix _ _ Hf) as Hf1. specialize (IH Hf1 Hs H0 Hn).
  apply reports_in_progress in IH as (r & Hr & ->). cbn [s_total] in *. apply reports_in_progress. exists r.
  pose proof (change_after (h ++ h') e id Hf) as Hc. pose proof (vinv_after _ id Hf1) as Hv.
  assert (Hnw : forall i c, v_chunks (view_of (after (h ++ h')) id) !! i = Some c -> False).
  { intros i c Hi. destruct (vi_chunk _ Hv _ _ Hi) as (r' & Hr' & Hlt). assert (r' = r) by congruence. subst. lia. }
  remember (e_op e) as o eqn:Eo.
  remember (view_of (after (h ++ h')) id) as v eqn:Ev. remember (view_of (after ((h ++ h') ++ [e])) id) as v' eqn:Ev'. clear Ev Ev'.
  destruct Hc; simpl in *; try done; try (by exfalso; eapply Hnw).
  - exfalso. subst. by eapply (Hnw ix), lookup_singleton.
  - exfalso. by eapply (Hne n1 n2).
  - destruct (vi_sub _ Hv _ Hr) as (-> & -> & -> & _). simpl. done.
Qed.

(** *** A reader that races with writers *)
Lemma prefix_seq (hs : nat -> history) n : (forall k, hs k `prefix_of` hs (S k)) -> forall k, exists l, hs (n + k)%nat = hs n ++ l.
Proof.
  intros Hp k. induction k as [|k [l IH]].
  - exists []. by rewrite Nat.add_0_r, app_nil_r.
  - destruct (Hp (n + k)%nat) as [l' E]. exists (l ++ l'). by rewrite Nat.add_succ_r, E, IH, app_assoc.
Qed.
Lemma settled_reader (hs : nat -> history) id st j k : (j <= k)%nat -> (forall k, hs k `prefix_of` hs (S k)) ->
  (forall k, fresh_ids (hs k)) -> (forall k, clocks_ok (hs k)) ->
  reports (after (hs j)) id st -> terminal st -> reports (after (hs k)) id st \/ unknown (after (hs k)) id.
Proof.
  intros Hle Hp Hf Hk Hst Ht. destruct (prefix_seq hs j Hp (k - j)) as [l El].
  replace (j + (k - j))%nat with k in El by lia. rewrite El.
  destruct (terminal_forever (hs j) l id st) as [H|[_ H]]; auto.
  - rewrite <- El. apply Hf.
  - left. rewrite <- El. apply Hk.
Qed.
Lemma unknown_reader (hs : nat -> history) id j k : (j <= k)%nat -> (forall k, hs k `prefix_of` hs (S k)) ->
  (forall k, fresh_ids (hs k)) -> id ∈ inserted_ids (hs j) -> unknown (after (hs j)) id -> unknown (after (hs k)) id.
Proof.
  intros Hle Hp Hf Hin Hu. destruct (prefix_seq hs j Hp (k - j)) as [l El].
  replace (j + (k - j))%nat with k in El by lia. specialize (Hf k). rewrite El in *. clear El.
  induction l as [|e l IH] using rev_ind; [by rewrite app_nil_r|].
  rewrite app_assoc in *. pose proof (fresh_prefix _ _ Hf). apply unknown_step; [done| |by apply IH].
  rewrite inserted_ids_app. set_solver.
Qed.

(** A submission that was inserted and is not in progress: only cleanup touches its failed chunks. *)
Lemma cfail_forever h h' id i c : fresh_ids (h ++ h') -> id ∈ inserted_ids h -> v_sub (view_of (after h) id) = None ->
  v_cfail (view_of (after (h ++ h')) id) !! i = Some c ->
  v_sub (view_of (after (h ++ h')) id) = None /\ v_cfail (view_of (after h) id) !! i = Some c.
Proof.
  intros Hf Hin Hs. cut (v_sub (view_of (after (h ++ h')) id) = None /\ forall c, v_cfail (view_of (after (h ++ h')) id) !! i = Some c ->
    v_cfail (view_of (after h) id) !! i = Some c).
  { naive_solver. }
  clear c. induction h' as [|e h' IH] using rev_ind; [by rewrite app_nil_r|].
  rewrite app_assoc in *. pose proof (fresh_prefix _ _ Hf) as Hf1. destruct (IH Hf1) as [IH1 IH2]. clear IH.
  pose proof (change_after (h ++ h') e id Hf) as Hc. pose proof (fresh_ids_app _ _ Hf) as [_ He].
  assert (Hin' : id ∈ inserted_ids (h ++ h')) by (rewrite inserted_ids_app; set_solver).
  remember (view_of (after (h ++ h')) id) as v eqn:Ev. remember (view_of (after ((h ++ h') ++ [e])) id) as v' eqn:Ev'. clear Ev Ev'.
  remember (e_op e) as o eqn:Eo. destruct Hc; simpl in *; try done; try (exfalso; by apply (He id)).
  split; [done|]. intros c [Hl _]%map_filter_lookup_Some. auto.
Qed.

Lemma reader_status (hs : nat -> history) id :
  (forall k, hs k `prefix_of` hs (S k)) -> (forall k, fresh_ids (hs k)) -> (forall k, clocks_ok (hs k)) ->
  match run_reader (submission_status id) (fun k => after (hs k)) 0 with
  | Ok (Some st) => exists k, (k <= 3)%nat /\ reports (after (hs k)) id st
  | Ok None => unknown (after (hs 0%nat)) id \/ unknown (after (hs 3%nat)) id
  | Err e => unknown (after (hs 3%nat)) id /\ exists s c, reports (after (hs 2%nat)) id (Failed s c)
  | Panicked => False
  end.
Proof.
  intros Hp Hf Hk. simpl.
  destruct (t_sub (after (hs 0%nat)) !! id) as [r0|] eqn:E0; simpl.
  { exists 0%nat. split; [lia|]. apply reports_in_progress. exists r0. done. }
  assert (Hpast : forall k, (k <= 3)%nat -> forall st, reports (after (hs 0%nat)) id st -> reports (after (hs k)) id st \/ unknown (after (hs 3%nat)) id).
  { intros k Hle st Hst. pose proof (status_terminal _ _ _ E0 Hst) as Ht.
    destruct (settled_reader hs id st 0 k ltac:(lia) Hp Hf Hk Hst Ht) as [H|H]; [by left|right].
    apply (unknown_reader hs id k 3); try done. eapply (reports_inserted _ _ st) in Hst; [|apply Hf].
    destruct (prefix_seq hs 0 Hp k) as [l El]. simpl in El. rewrite El, inserted_ids_app. set_solver. }
  destruct (t_comp (after (hs 1%nat)) !! id) as [r1|] eqn:E1; simpl.
  { exists 1%nat. split; [lia|]. unfold reports. rewrite status_of_view. unfold status_v, view_of; simpl.
    pose proof (vinv_after _ id (Hf 1%nat)) as Hv. destruct (t_sub (after (hs 1%nat)) !! id) eqn:Es.
    - destruct (vi_sub _ Hv _ Es) as (? & _). unfold view_of in *; simpl in *. congruence.
    - rewrite E1. done. }
  destruct (t_fail (after (hs 2%nat)) !! id) as [r2|] eqn:E2; simpl.
  { pose proof (vinv_after _ id (Hf 2%nat)) as Hv. pose proof (times_after _ id (Hf 2%nat) (Hk 2%nat)) as Ht.
    destruct (tm_fail _ Ht r2 E2) as (c2 & Hc2 & _).
    assert (Hs2 : t_sub (after (hs 2%nat)) !! id = None).
    { destruct (t_sub (after (hs 2%nat)) !! id) eqn:Es; [|done]. destruct (vi_sub _ Hv _ Es) as (_ & ? & _).
      unfold view_of in *; simpl in *. congruence. }
    assert (Hcm2 : t_comp (after (hs 2%nat)) !! id = None).
    { destruct (t_comp (after (hs 2%nat)) !! id) eqn:Es; [|done]. destruct (vi_comp _ Hv _ Es) as (? & _).
      unfold view_of in *; simpl in *. congruence. }
    assert (Hr2 : reports (after (hs 2%nat)) id (Failed (failed_of (after (hs 2%nat)) id r2) (ChunkFailed id (fr_chunk r2) (cf_input c2) (cf_failure c2) (cf_at c2)))).
    { unfold reports. rewrite status_of_view. unfold status_v, view_of in *; simpl in *. rewrite Hs2, Hcm2, E2, Hc2. done. }
    destruct (settled_reader hs id _ 2 3 ltac:(lia) Hp Hf Hk Hr2 I) as [H3|H3].
    - apply reports_failed in H3 as (r3 & k3 & _ & _ & Hr3 & Hc3 & Es & Ec). unfold view_of in Hc3; simpl in Hc3.
      rewrite lookup_rows_of in Hc3. unfold failed_of in Es. injection Es as Ep Et Ed Ez Em Eme Ea Ech Eo. rewrite <- Ech in Hc3.
      rewrite Hc3. simpl. exists 2%nat. split; [lia|]. unfold reports in Hr2 |- *; rewrite Hr2. do 3 f_equal. injection Ec as E1' E2' E3' E4'. congruence.
    - destruct (t_cfail (after (hs 3%nat)) !! (id, fr_chunk r2)) as [c3|] eqn:E3; simpl.
      + exists 2%nat. split; [lia|]. unfold reports in Hr2 |- *; rewrite Hr2. do 3 f_equal.
        destruct (prefix_seq hs 2 Hp 1) as [l El]. simpl in El.
        pose proof (Hf 3%nat) as Hf3. rewrite El in Hf3, E3.
        destruct (cfail_forever (hs 2%nat) l id (fr_chunk r2) c3 Hf3) as [_ Hc].
        { eapply reports_inserted; [apply Hf|exact Hr2]. }
        { done. }
        { unfold view_of; simpl. by rewrite lookup_rows_of. }
        congruence.
      + split; [done|]. eauto. }
  destruct (t_canc (after (hs 3%nat)) !! id) as [r3|] eqn:E3; simpl.
  { exists 3%nat. split; [lia|]. pose proof (vinv_after _ id (Hf 3%nat)) as Hv. unfold reports. rewrite status_of_view. unfold status_v, view_of; simpl.
    destruct (t_sub (after (hs 3%nat)) !! id) eqn:Es.
    { destruct (vi_sub _ Hv _ Es) as (_ & _ & ? & _). unfold view_of in *; simpl in *. congruence. }
    destruct (t_comp (after (hs 3%nat)) !! id) eqn:Ec.
    { destruct (vi_comp _ Hv _ Ec) as (_ & ?). unfold view_of in *; simpl in *. congruence. }
    destruct (t_fail (after (hs 3%nat)) !! id) eqn:Ef.
    { pose proof (vi_fail _ Hv _ Ef). unfold view_of in *; simpl in *. congruence. }
    rewrite E3. done. }
  destruct (status_stored _ id (Hf 0%nat) (Hk 0%nat)) as [(st & Hst & _)|[Hu _]]; [|by left].
  right. pose proof (status_terminal _ _ _ E0 Hst) as Ht. destruct st as [s|s|s c|s]; [done|..].
  - destruct (Hpast 1%nat ltac:(lia) _ Hst) as [H|H]; [|done]. apply reports_completed in H as (r & _ & Hr & _).
    unfold view_of in Hr; simpl in Hr. congruence.
  - destruct (Hpast 2%nat ltac:(lia) _ Hst) as [H|H]; [|done]. apply reports_failed in H as (r & k & _ & _ & Hr & _).
    unfold view_of in Hr; simpl in Hr. congruence.
  - destruct (Hpast 3%nat ltac:(lia) _ Hst) as [H|H]; [|done]. apply reports_cancelled in H as (r & _ & _ & _ & Hr & _).
    unfold view_of in Hr; simpl in Hr. congruence.
Qed.
