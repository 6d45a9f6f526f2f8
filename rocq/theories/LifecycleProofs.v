(** Ghost invariants over histories and the lifecycle theorems. *)
From Verif Require Export ViewProofs Spec.
Local Open Scope N_scope.

(** *** Observations in terms of views *)
Definition status_v (id : sub_id) (v : view) : res (option status) :=
  match v_sub v with
  | Some r => Ok (Some (InProgress (Submission id (sr_prefix r) (sr_total r) (sr_done r) (size_of (sr_size r)) (sr_meta r) (v_meta v) (sr_otel r))))
  | None => match v_comp v with
  | Some r => Ok (Some (Completed (SubmissionCompleted id (cr_prefix r) (cr_total r) (size_of (cr_size r)) (cr_meta r) (v_meta v) (cr_at r) (cr_otel r))))
  | None => match v_fail v with
  | Some r => match v_cfail v !! fr_chunk r with
      | Some c => Ok (Some (Failed (SubmissionFailed id (fr_prefix r) (fr_total r) (fr_done r) (size_of (fr_size r)) (fr_meta r) (v_meta v) (fr_at r) (fr_chunk r) (fr_otel r))
                                   (ChunkFailed id (fr_chunk r) (cf_input c) (cf_failure c) (cf_at c))))
      | None => Err (EDb RowNotFound) end
  | None => match v_canc v with
  | Some r => Ok (Some (Cancelled (SubmissionCancelled id (xr_prefix r) (xr_total r) (xr_done r) (xr_meta r) (v_meta v) (xr_at r))))
  | None => Ok None
  end end end end.

Lemma status_of_view d id : status_of d id = status_v id (view_of d id).
Proof.
  unfold status_of. rewrite exec_status. unfold status_v, view_of; simpl.
  destruct (t_sub d !! id); [done|]. destruct (t_comp d !! id); [done|].
  destruct (t_fail d !! id) as [r|]; [|done]. by rewrite lookup_rows_of.
Qed.
Lemma waiting_view d id i : waiting d (id, i) = (fun c => Chunk id i (ch_input c) (ch_retries c)) <$> v_chunks (view_of d id) !! i.
Proof.
  unfold waiting, get_chunk. rewrite exec_sql. unfold view_of; simpl. rewrite lookup_rows_of.
  by destruct (t_chunk d !! (id, i)).
Qed.
Lemma completed_chunk_view d id i : completed_chunk d (id, i) = (fun c => ChunkCompleted id i (cc_output c) (cc_at c)) <$> v_cdone (view_of d id) !! i.
Proof.
  unfold completed_chunk, get_chunk_completed. rewrite exec_sql. unfold view_of; simpl. rewrite lookup_rows_of.
  by destruct (t_cdone d !! (id, i)).
Qed.
Lemma failed_chunk_view d id i : failed_chunk d (id, i) = (fun c => ChunkFailed id i (cf_input c) (cf_failure c) (cf_at c)) <$> v_cfail (view_of d id) !! i.
Proof.
  unfold failed_chunk, get_chunk_failed. rewrite exec_sql. unfold view_of; simpl. rewrite lookup_rows_of.
  by destruct (t_cfail d !! (id, i)).
Qed.
Lemma strategic_metadata_view d id : strategic_metadata d id = v_meta (view_of d id).
Proof. done. Qed.

Lemma same_view_same d d' id : view_of d id = view_of d' id -> same_for_clients id d d'.
Proof.
  intros E. split; [by rewrite !status_of_view, E|].
  split; [intros; by rewrite !waiting_view, E|].
  split; [intros; by rewrite !completed_chunk_view, E|].
  split; [intros; by rewrite !failed_chunk_view, E|].
  by rewrite !strategic_metadata_view, E.
Qed.

(** What the invariant says about a view. *)
Record vinv (v : view) : Prop := VInv {
  vi_chunk : forall i c, v_chunks v !! i = Some c -> exists s, v_sub v = Some s /\ i < sr_total s;
  vi_count : forall s, v_sub v = Some s -> sr_done s + N.of_nat (size (v_chunks v)) = sr_total s;
  vi_open : forall s, v_sub v = Some s -> sr_done s < sr_total s \/ sr_total s = 0;
  vi_sub : forall s, v_sub v = Some s -> v_comp v = None /\ v_fail v = None /\ v_canc v = None /\ v_cfail v = ∅;
  vi_comp : forall r, v_comp v = Some r -> v_fail v = None /\ v_canc v = None;
  vi_fail : forall r, v_fail v = Some r -> v_canc v = None;
  vi_cdone : forall i r, v_cdone v !! i = Some r -> v_chunks v !! i = None /\ v_cfail v !! i = None }.

Lemma inv_vinv U d id : inv U d -> vinv (view_of d id).
Proof.
  intros HI. unfold view_of. split; simpl.
  - intros i c. rewrite lookup_rows_of. apply (inv_chunk _ _ HI).
  - intros s. apply (inv_count _ _ HI).
  - intros s. apply (inv_open _ _ HI).
  - intros s Es. destruct (inv_sub _ _ HI _ _ Es) as (_ & H1 & H2 & H3). repeat split; try done.
    apply rows_of_none. intros k. destruct (t_cfail d !! _) eqn:E; [|done].
    destruct (inv_cfail _ _ HI _ _ _ E). congruence.
  - intros r Er. destruct (inv_comp _ _ HI _ _ Er). naive_solver.
  - intros r Er. destruct (inv_fail _ _ HI _ _ Er). naive_solver.
  - intros i r. rewrite !lookup_rows_of. intros E. destruct (inv_cdone _ _ HI _ _ _ E). naive_solver.
Qed.
Lemma vinv_after h id : fresh_ids h -> vinv (view_of (after h) id).
Proof. intros Hf. eapply inv_vinv. by apply inv_after. Qed.

(** Changes along a history. *)
Lemma change_after h e id : fresh_ids (h ++ [e]) ->
  change (e_op e) id (view_of (after h) id) (view_of (after (h ++ [e])) id).
Proof.
  intros Hf. apply fresh_ids_app in Hf as [Hf He]. rewrite after_snoc.
  eapply step_change; [by apply inv_after|done].
Qed.
Lemma view_fresh h id : fresh_ids h -> id ∉ inserted_ids h -> view_of (after h) id = View None None None None ∅ ∅ ∅ ∅.
Proof. intros Hf Hid. eapply view_unused; [by apply inv_after|done]. Qed.

(** *** Acknowledgements *)
Lemma acks_from_app d h1 h2 cid : acks_from d (h1 ++ h2) cid = (acks_from d h1 cid + acks_from (run_from d h1) h2 cid)%nat.
Proof. revert d. induction h1 as [|e h1 IH]; intros d; simpl; [done|]. rewrite IH. unfold run_from. simpl. lia. Qed.
Lemma acks_snoc h e cid : acks (h ++ [e]) cid = (acks h cid + if acknowledges (after h) e cid then 1 else 0)%nat.
Proof. unfold acks. rewrite acks_from_app. simpl. unfold after. lia. Qed.

(** [A i]: how often chunk [i] of the submission was acknowledged. *)
Record ghost (A : N -> nat) (v : view) : Prop := Ghost {
  g_wait : forall i c, v_chunks v !! i = Some c -> A i = 0%nat;
  g_sub : forall s i, v_sub v = Some s -> i < sr_total s -> v_chunks v !! i = None -> A i = 1%nat;
  g_comp : forall r i, v_comp v = Some r -> i < cr_total r -> A i = 1%nat;
  g_fail : forall r, v_fail v = Some r -> fr_chunk r < fr_total r /\ A (fr_chunk r) = 0%nat;
  g_canc : forall r, v_canc v = Some r -> xr_total r = 0 \/ exists i, i < xr_total r /\ A i = 0%nat;
  g_done : forall i r, v_cdone v !! i = Some r -> A i = 1%nat;
  g_one : forall i, (A i <= 1)%nat }.

(** An event acknowledges a chunk exactly when the view changes that way. *)
Lemma acknowledges_spec h e id i : fresh_ids (h ++ [e]) ->
  acknowledges (after h) e (id, i) = true ->
  is_Some (v_chunks (view_of (after h) id) !! i) /\
  (exists out n1 n2, e_op e = OComplete (id, i) out n1 n2) /\
  is_Some (v_cdone (view_of (after (h ++ [e])) id) !! i).
Proof.
  intros Hf. unfold acknowledges. destruct (e_op e) as [|cid out n1 n2| | | |] eqn:Eo; try done.
  rewrite !andb_true_iff, !bool_decide_eq_true. intros [[-> Hw] Hc]. split.
  - rewrite waiting_view in Hw. destruct (v_chunks _ !! i); [by eexists|]. simpl in Hw. by destruct Hw.
  - split; [by eauto|]. rewrite <- after_snoc, completed_chunk_view in Hc.
    destruct (v_cdone _ !! i); [by eexists|done].
Qed.

Lemma acks_new h id i : fresh_ids h -> id ∉ inserted_ids h -> acks h (id, i) = 0%nat.
Proof.
  induction h as [|e h IH] using rev_ind; intros Hf Hid; [done|].
  pose proof (fresh_ids_app _ _ Hf) as [Hf0 He].
  assert (id ∉ inserted_ids h) by (rewrite inserted_ids_app in Hid; set_solver).
  rewrite acks_snoc, IH by done. destruct (acknowledges _ _ _) eqn:Ea; [|done].
  apply acknowledges_spec in Ea as ([c Hc] & _); [|done]. by rewrite view_fresh in Hc.
Qed.

Lemma ghost_ext A A' v : (forall i, A i = A' i) -> ghost A v -> ghost A' v.
Proof. intros E []. split; setoid_rewrite <- E; auto. Qed.

Lemma drop_old_Some {X} (at_ : X -> time) cutoff r x : drop_old at_ cutoff r = Some x -> r = Some x.
Proof. unfold drop_old. destruct r as [y|]; [|done]. by destruct (at_ y <? cutoff)%Z. Qed.

(** Changes that acknowledge nothing. *)
Lemma ghost_change_other A o id v v' :
  vinv v -> (forall i p l m st z ot n, o = OInsert id p l m st z ot n -> A i = 0%nat) ->
  (forall i out n1 n2, o = OComplete (id, i) out n1 n2 -> v' = v) ->
  change o id v v' -> ghost A v -> ghost A v'.
Proof.
  intros Hv Hnew Hno Hc Hg. destruct Hc.
  - done.
  - destruct Hg. split; simpl; try done.
    + intros. by eapply Hnew.
    + intros s i [= <-]; simpl. intros Hi Hl. exfalso. rewrite lookup_number_rows in Hl. apply fmap_None in Hl.
      apply lookup_ge_None in Hl. lia.
  - destruct Hg. split; simpl; try done. intros r i [= <-]; simpl. lia.
  - exfalso. specialize (Hno ix out n1 n2 eq_refl). injection Hno as E _ _. apply (f_equal sr_done) in E. simpl in E. lia.
  - exfalso. by specialize (Hno ix out n1 n2 eq_refl).
  - destruct Hg. simpl in *. split; simpl; try done.
    + intros i c'. destruct (decide (i = ix)) as [->|Hi]; [intros _; by eapply g_wait0|].
      rewrite lookup_insert_ne by done. apply g_wait0.
    + intros s' i Es Hi. rewrite lookup_insert_None. intros [Hl _]. by eapply g_sub0.
  - destruct Hg. simpl in *. split; simpl; try done. intros r [= <-]. simpl. split; [done|]. by eapply g_wait0.
  - destruct Hg. simpl in *. split; simpl; try done. intros r [= <-]. simpl. split; [done|]. by eapply g_wait0.
  - destruct Hg. simpl in *. split; simpl; try done. intros r [= <-]. simpl.
    destruct (decide (ch = ∅)) as [Hch|(i & c & Hi)%map_choose].
    + left. destruct (vi_open _ Hv s eq_refl) as [Ho|Ho]; [|done].
      pose proof (vi_count _ Hv s eq_refl) as Hn. simpl in Hn. subst ch. rewrite map_size_empty in Hn. lia.
    + right. exists i. destruct (vi_chunk _ Hv i c Hi) as (s' & [= <-] & Hlt). split; [done|]. by eapply g_wait0.
  - destruct Hg. split; simpl; try done.
    + intros r i Hr%drop_old_Some. by apply g_comp0.
    + intros r Hr%drop_old_Some. by apply g_fail0.
    + intros r Hr%drop_old_Some. by apply g_canc0.
    + intros i r [Hr _]%map_filter_lookup_Some. by eapply g_done0.
Qed.

(** Changes that acknowledge chunk [ix]. *)
Lemma ghost_change_ack A A' id ix out n1 n2 v v' :
  A' ix = S (A ix) -> (forall i, i <> ix -> A' i = A i) -> is_Some (v_chunks v !! ix) -> v' <> v ->
  vinv v -> change (OComplete (id, ix) out n1 n2) id v v' -> ghost A v -> ghost A' v'.
Proof.
  intros Hix Hne [c0 Hw] Hdiff Hv Hc Hg. inversion Hc; subst; simpl in *; [done| |].
  - destruct Hg; simpl in *. rewrite (g_wait0 _ _ Hw) in Hix. split; simpl; try done.
    + intros i c'. rewrite lookup_delete_Some. intros [Hi Hc']. rewrite Hne by done. by eapply g_wait0.
    + intros s' i [= <-]. simpl. intros Hi. destruct (decide (i = ix)) as [->|Hni]; [done|].
      rewrite lookup_delete_ne by done. rewrite Hne by done. by eapply g_sub0.
    + intros i r. destruct (decide (i = ix)) as [->|Hni]; [done|]. rewrite lookup_insert_ne by done.
      rewrite Hne by done. apply g_done0.
    + intros i. destruct (decide (i = ix)) as [->|Hni]; [lia|]. rewrite Hne by done. auto.
  - destruct Hg; simpl in *. rewrite (g_wait0 _ _ Hw) in Hix. split; simpl; try done.
    + intros r i [= <-]. simpl. intros Hi. destruct (decide (i = ix)) as [->|Hni]; [done|].
      rewrite Hne by done. eapply g_sub0; [done|done|]. by rewrite lookup_singleton_ne.
    + intros i r. destruct (decide (i = ix)) as [->|Hni]; [done|]. rewrite lookup_insert_ne by done.
      rewrite Hne by done. apply g_done0.
    + intros i. destruct (decide (i = ix)) as [->|Hni]; [lia|]. rewrite Hne by done. auto.
Qed.

Lemma change_complete id i out n1 n2 v v' : change (OComplete (id, i) out n1 n2) id v v' ->
  v' = v \/ is_Some (v_chunks v !! i) /\ v_cdone v' !! i = Some (ChunkCompRow out n1).
Proof.
  intros Hc. inversion Hc; subst; simpl; [by left|right|right].
  - split; [by eexists|by rewrite lookup_insert].
  - split; [rewrite lookup_singleton; by eexists|by rewrite lookup_insert].
Qed.
Lemma ghost_after h id : fresh_ids h -> ghost (fun i => acks h (id, i)) (view_of (after h) id).
Proof.
  induction h as [|e h IH] using rev_ind; intros Hf.
  - split; unfold acks, view_of, after; simpl; intros; try done; try lia.
    all: rewrite ?rows_of_empty, ?lookup_empty in *; done.
  - pose proof (fresh_ids_app _ _ Hf) as [Hf0 He]. specialize (IH Hf0).
    pose proof (change_after h e id Hf) as Hc. pose proof (vinv_after h id Hf0) as Hv.
    destruct (e_op e) as [|[id0 ix] out n1 n2| | | |] eqn:Eo.
    2: destruct (decide (id0 = id)) as [->|Hid].
    2: destruct (acknowledges (after h) e (id, ix)) eqn:Ea.
    2: { eapply ghost_change_ack; [..|exact Hc|exact IH]; try done.
      * cbn beta. rewrite acks_snoc, Ea. lia.
      * intros i Hi. cbn beta. rewrite acks_snoc. unfold acknowledges. rewrite Eo, bool_decide_eq_false_2 by congruence. simpl. lia.
      * by apply acknowledges_spec in Ea as [? _].
      * apply acknowledges_spec in Ea as ([c H1] & _ & [r H2]); [|done]. intros E. rewrite E in H2.
        destruct (vi_cdone _ Hv _ _ H2). congruence. }
    all: apply (ghost_ext (fun i => acks h (id, i)));
      [intros i; rewrite acks_snoc; unfold acknowledges; rewrite Eo; try lia |
       eapply ghost_change_other; [done| | |exact Hc|done] ].
    all: try (intros; simplify_eq; fail).
    1: { intros i p l m st z ot n [= -> -> -> -> -> -> -> ->]. apply acks_new; [done|]. by apply He. }
    + destruct (decide (i = ix)) as [->|Hi]; [|by rewrite bool_decide_eq_false_2 by congruence; simpl; lia].
      unfold acknowledges in Ea. rewrite Eo in Ea. rewrite Ea. lia.
    + intros i out' n1' n2' [= <- <- <- <-]. destruct (change_complete _ _ _ _ _ _ _ Hc) as [E|[H1 H2]]; [done|].
      exfalso. unfold acknowledges in Ea. rewrite Eo in Ea. rewrite !bool_decide_eq_true_2 in Ea; try done.
      * by rewrite <- after_snoc, completed_chunk_view, H2.
      * rewrite waiting_view. destruct H1 as [c ->]. by eexists.
    + rewrite bool_decide_eq_false_2 by congruence. simpl. lia.
Qed.
