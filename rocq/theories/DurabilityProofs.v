(** Proofs about power failures. *)
From Verif Require Export Durability OpProofs.
Local Open Scope N_scope.

Lemma crash_dbs_head {A} (p : prog A) d fs : crash_dbs p d fs !! 0%nat = Some d.
Proof. unfold crash_dbs. by destruct p. Qed.

(** A database passed through by an event is the result of the same event with another crash point. *)
Lemma commits_step d e x : x ∈ commits d e -> exists k, x = step d (Event (e_op e) (e_faults e) (Some k)).
Proof.
  unfold commits. intros Hx.
  assert (x ∈ crash_dbs (op_prog (e_op e)) d (e_faults e)) as H.
  { destruct (e_crash e); [|done]. by eapply elem_of_take in Hx as (i & Hx & _); apply elem_of_list_lookup_2 in Hx. }
  apply elem_of_list_lookup_1 in H as [k Hk]. exists k. unfold step. simpl. by rewrite Hk.
Qed.

(** [x] can be obtained from [d] by some of the operations [os], in this order. *)
Definition from (os : list op) (d x : db) : Prop :=
  exists h, (e_op <$> h) `sublist_of` os /\ x = run_from d h.

Lemma from_refl os d : from os d d.
Proof. exists []. split; [apply sublist_nil_l|done]. Qed.
Lemma from_snoc os d x e : from os d x -> from (os ++ [e_op e]) d (step x e).
Proof.
  intros (h & Hs & ->). exists (h ++ [e]). split.
  - rewrite fmap_app. by apply sublist_app.
  - unfold run_from. by rewrite fold_left_app.
Qed.
Lemma from_more os d x o : from os d x -> from (os ++ [o]) d x.
Proof. intros (h & Hs & ->). exists h. split; [|done]. by apply sublist_inserts_r. Qed.

Lemma prun_snoc s ps p : prun s (ps ++ [p]) = pstep (prun s ps) p.
Proof. unfold prun. by rewrite fold_left_app. Qed.
Lemma prun_app s ps qs : prun s (ps ++ qs) = prun (prun s ps) qs.
Proof. unfold prun. by rewrite fold_left_app. Qed.
Lemma ops_of_app ps qs : ops_of (ps ++ qs) = ops_of ps ++ ops_of qs.
Proof. unfold ops_of. by rewrite omap_app. Qed.

Lemma prun_from d ps :
  from (ops_of ps) d (dk_db (prun (Disk d [d]) ps)) /\
  Forall (from (ops_of ps) d) (dk_log (prun (Disk d [d]) ps)).
Proof.
  induction ps as [|p ps [IH1 IH2]] using rev_ind.
  { simpl. split; [apply from_refl|]. constructor; [apply from_refl|constructor]. }
  rewrite prun_snoc, ops_of_app. destruct p as [e| |k]; simpl.
  - split; [by apply from_snoc|]. apply Forall_app. split.
    + eapply Forall_impl; [exact IH2|]. intros x. apply from_more.
    + apply Forall_forall. intros x Hx. apply commits_step in Hx as [j ->].
      by apply (from_snoc _ _ _ (Event (e_op e) (e_faults e) (Some j))).
  - rewrite app_nil_r. split; [done|]. by constructor.
  - rewrite app_nil_r. destruct (dk_log _ !! k) as [x|] eqn:E; simpl; [|by repeat constructor].
    pose proof (Forall_lookup_1 _ _ _ _ IH2 E). by repeat constructor.
Qed.

Lemma insert_id_op e : insert_id e = op_insert_id (e_op e).
Proof. done. Qed.
Lemma inserted_ids_ops h : inserted_ids h = omap op_insert_id (e_op <$> h).
Proof. unfold inserted_ids. induction h as [|e h IH]; [done|]. cbn [omap list_omap fmap list_fmap]. rewrite insert_id_op. destruct (op_insert_id (e_op e)); [f_equal|]; exact IH. Qed.
Lemma omap_sublist {A B} (f : A -> option B) (l k : list A) : l `sublist_of` k -> omap f l `sublist_of` omap f k.
Proof.
  induction 1 as [|x l k H IH|x l k H IH]; simpl; [constructor|..].
  - destruct (f x); [by constructor|done].
  - destruct (f x); [by constructor|done].
Qed.

Lemma NoDup_sublist {A} (l k : list A) : l `sublist_of` k -> NoDup k -> NoDup l.
Proof.
  induction 1 as [|x l k H IH|x l k H IH]; intros Hk; [done|..]; apply NoDup_cons in Hk as [H1 H2].
  - apply NoDup_cons. split; [|auto]. intros Hx. apply H1. eapply elem_of_submseteq; [exact Hx|]. by apply sublist_submseteq.
  - auto.
Qed.

(** After any power failures the database is one that some of the operations lead to. *)
Lemma power_history ps : pfresh ps ->
  exists h, fresh_ids h /\ (e_op <$> h) `sublist_of` ops_of ps /\ pafter ps = after h.
Proof.
  intros Hf. destruct (prun_from db_empty ps) as [(h & Hs & Hx) _]. exists h. split; [|by split].
  unfold fresh_ids. rewrite inserted_ids_ops. eapply NoDup_sublist; [|exact Hf]. by apply omap_sublist.
Qed.
(** Nothing done before the last checkpoint is lost. *)
Lemma power_checkpoint ps qs :
  exists h, (e_op <$> h) `sublist_of` ops_of qs /\ pafter (ps ++ PCheckpoint :: qs) = run_from (pafter ps) h.
Proof. unfold pafter. rewrite prun_app. simpl. apply prun_from. Qed.

(** Without a power failure in between, everything is there. *)
Definition no_power (ps : list pevent) : Prop := Forall (fun p => match p with PPower _ => False | _ => True end) ps.
Definition pevents (ps : list pevent) : history := omap (fun p => match p with POp e => Some e | _ => None end) ps.
Lemma no_power_all s ps : no_power ps -> dk_db (prun s ps) = run_from (dk_db s) (pevents ps).
Proof.
  intros H. revert s. induction H as [|p ps Hp _ IH]; intros s; [done|].
  change (prun s (p :: ps)) with (prun (pstep s p) ps). rewrite IH. by destruct p.
Qed.

(** What clients conclude from a status is still right. *)
Lemma acked_op d h cid : acks_from d h cid <> 0%nat -> exists e out n1 n2, e ∈ h /\ e_op e = OComplete cid out n1 n2.
Proof.
  revert d. induction h as [|e h IH]; intros d; simpl; [done|]. intros H.
  destruct (acknowledges d e cid) eqn:E.
  - unfold acknowledges in E. destruct (e_op e) eqn:Eo; try discriminate E.
    apply andb_true_iff in E as [[E%bool_decide_eq_true _]%andb_true_iff _]. subst.
    do 4 eexists. split; [|exact Eo]. left.
  - apply IH in H as (e' & out & n1 & n2 & Hin & He). exists e', out, n1, n2. split; [by right|done].
Qed.
Lemma power_completed ps id s : pfresh ps -> reports (pafter ps) id (Completed s) ->
  forall i, i < sc_total s -> exists out n1 n2, OComplete (id, i) out n1 n2 ∈ ops_of ps.
Proof.
  intros Hf Hr i Hi. destruct (power_history ps Hf) as (h & Hfh & Hs & E). rewrite E in Hr.
  pose proof (completed_acked h id s Hfh Hr i Hi) as Ha.
  destruct (acked_op db_empty h (id, i)) as (e & out & n1 & n2 & Hin & He); [unfold acks in Ha; lia|].
  exists out, n1, n2. eapply elem_of_submseteq; [|by apply sublist_submseteq].
  rewrite <- He. by apply elem_of_list_fmap_1.
Qed.

(** A power failure goes back to one point of the past, after the last checkpoint: all operations
    before it are there and none after it; the operation at that point may be there in part, as after
    a crash of the process. *)
Definition is_op (p : pevent) : Prop := match p with POp _ => True | _ => False end.
Definition goes_back (ps : list pevent) (d : db) : Prop :=
  exists ps1 ps2, ps = ps1 ++ ps2 /\ Forall is_op ps2 /\
    (d = pafter ps1 \/
     exists e ps3 k, ps2 = POp e :: ps3 /\ d = step (pafter ps1) (Event (e_op e) (e_faults e) (Some k))).
Lemma goes_back_log ps : Forall (goes_back ps) (dk_log (prun disk_empty ps)).
Proof.
  assert (Hnow : forall ps, goes_back ps (pafter ps)) by (intros ps'; exists ps', []; rewrite app_nil_r; split; [done|split; [constructor|by left]]).
  induction ps as [|p ps IH] using rev_ind.
  { simpl. constructor; [|constructor]. apply (Hnow []). }
  pose proof (Hnow (ps ++ [p])) as Hn. unfold pafter in Hn. rewrite prun_snoc in *. destruct p as [e| |k]; simpl in *.
  - apply Forall_app. split.
    + eapply Forall_impl; [exact IH|]. intros x (ps1 & ps2 & -> & H2 & Hx). exists ps1, (ps2 ++ [POp e]). split; [by rewrite <- app_assoc|].
      split; [apply Forall_app; split; [done|by repeat constructor]|]. destruct Hx as [->|(e' & ps3 & k & -> & ->)]; [by left|right]. exists e', (ps3 ++ [POp e]), k. done.
    + apply Forall_forall. intros x [k ->]%commits_step. exists ps, [POp e]. split; [done|]. split; [by repeat constructor|]. right. by exists e, [], k.
  - by repeat constructor.
  - by repeat constructor.
Qed.
Lemma power_prefix ps k : goes_back ps (pafter (ps ++ [PPower k])).
Proof.
  unfold pafter. rewrite prun_snoc. simpl. destruct (dk_log (prun disk_empty ps) !! k) as [d|] eqn:E; simpl.
  - exact (Forall_lookup_1 _ _ _ _ (goes_back_log ps) E).
  - exists ps, []. rewrite app_nil_r. split; [done|]. split; [constructor|by left].
Qed.

(** A terminal state recorded at a checkpoint is permanent, whatever power failures follow. *)
Lemma checkpointed_kept ps qs id st : pfresh (ps ++ PCheckpoint :: qs) ->
  Forall (fun o => forall c, o <> OCleanup c) (ops_of qs) ->
  reports (pafter ps) id st -> terminal st -> reports (pafter (ps ++ PCheckpoint :: qs)) id st.
Proof.
  intros Hf Hq Hr Ht. destruct (power_checkpoint ps qs) as (h & Hs & ->).
  assert (Hx : exists h0, fresh_ids (h0 ++ h) /\ pafter ps = after h0).
  { destruct (prun_from db_empty ps) as [(h0 & Hs0 & Hx0) _]. exists h0. split; [|exact Hx0]. unfold fresh_ids. rewrite inserted_ids_ops. eapply NoDup_sublist; [|exact Hf].
    apply omap_sublist. rewrite fmap_app, ops_of_app. by apply sublist_app. }
  destruct Hx as (h0 & Hf0 & E). rewrite E in *. assert (Ea : run_from (after h0) h = after (h0 ++ h)) by (unfold after, run_from; by rewrite fold_left_app). rewrite Ea.
  eapply terminal_no_cleanup; [exact Hf0|exact Hr|exact Ht|]. apply Forall_forall. intros e He Hc.
  assert (Hin : e_op e ∈ ops_of qs). { eapply elem_of_submseteq; [|by apply sublist_submseteq]. apply elem_of_list_fmap. by exists e. }
  rewrite Forall_forall in Hq. pose proof (Hq _ Hin) as Hno. unfold is_cleanup in Hc. destruct (e_op e) as [| | | | |c]; try done. by apply (Hno c).
Qed.
