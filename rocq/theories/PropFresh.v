(** C108: ids of submissions and restarts of the server. *)
From Verif Require Import ServerFacts PropQueue IdsProofs Spec.
Local Open Scope N_scope.

(** ** C108 *)
(** [lives]: for each life of the server process, in order, what the clock showed when it made ids.
    The generator is a static of the process (submission.rs:16): every life starts with a new one,
    [Gen 0 0], that knows nothing of the ids made before or of the database. [idss]: the ids made. *)
Definition made (lives : list (list N)) (idss : list (list sub_id)) : Prop :=
  Forall2 (fun clock ids => new_ids clock (Gen 0 0) = Some (COk <$> ids)) lives idss.
(** A later life only sees later times. (Within a life the generator itself refuses to go back.) *)
Definition forward (lives : list (list N)) : Prop := StronglySorted (fun a b => forall t u, t ∈ a -> u ∈ b -> t < u) lives.

Lemma made_life clock ids : new_ids clock (Gen 0 0) = Some (COk <$> ids) -> StronglySorted N.lt ids /\ snowflake_ts <$> ids = clock.
Proof.
  intros H. destruct (new_ids_spec clock (Gen 0 0) _ ltac:(done) H) as [H1 H2].
  destruct H1 as (ids' & E & Hs & Ht & _).
  - apply Forall_lookup. intros i t Hi. destruct (N.lt_ge_cases t (2 ^ 41)) as [|Hge]; [done|]. specialize (H2 i t Hi Hge).
    rewrite list_lookup_fmap in H2. destruct (ids !! i); done.
  - assert (ids = ids') as <- by (clear -E; revert ids' E; induction ids as [|x ids IH]; intros [|y ids'] E; try done; injection E as -> E; f_equal; by apply IH). apply StronglySorted_inv in Hs as [Hs _]. by split.
Qed.
Lemma ts_lt x y : snowflake_ts x < snowflake_ts y -> x < y.
Proof. unfold snowflake_ts. rewrite !N.shiftr_div_pow2. intros H. apply N.lt_nge. intros Hle. apply (N.div_le_mono _ _ (2 ^ 22)) in Hle; [lia|done]. Qed.
Lemma sorted_app (l1 l2 : list N) : StronglySorted N.lt l1 -> StronglySorted N.lt l2 -> (forall x y, x ∈ l1 -> y ∈ l2 -> x < y) -> StronglySorted N.lt (l1 ++ l2).
Proof.
  intros H1 H2 H. induction H1 as [|x l1 H1 IH Hx]; [done|]. cbn. constructor.
  - apply IH. intros a b Ha. apply H. by right.
  - apply Forall_app. split; [done|]. apply Forall_forall. intros y Hy. apply H; [left|done].
Qed.
Lemma made_sorted lives idss : made lives idss -> forward lives -> StronglySorted N.lt (concat idss).
Proof.
  intros Hm. induction Hm as [|clock ids lives idss Hc Hm IH]; intros Hf; [constructor|]. apply StronglySorted_inv in Hf as [Hf Hall]. cbn.
  destruct (made_life _ _ Hc) as [Hs Ht]. apply sorted_app; [done|by apply IH|]. intros x y Hx Hy. apply ts_lt.
  apply elem_of_list_In, in_concat in Hy as (ids' & Hin & Hy). apply elem_of_list_In in Hin, Hy.
  destruct (elem_of_list_lookup_1 _ _ Hin) as [i Hi]. destruct (Forall2_lookup_r _ _ _ _ _ Hm Hi) as (clock' & Hi' & Hc').
  destruct (made_life _ _ Hc') as [_ Ht']. rewrite Forall_forall in Hall. apply (Hall clock').
  - by eapply elem_of_list_lookup_2.
  - rewrite <- Ht. apply elem_of_list_fmap. eauto.
  - rewrite <- Ht'. apply elem_of_list_fmap. eauto.
Qed.
Lemma sorted_nodup (l : list N) : StronglySorted N.lt l -> NoDup l.
Proof.
  induction 1 as [|x l _ IH Hx]; constructor; [|done]. rewrite Forall_forall in Hx. intros Hin. specialize (Hx x Hin). lia.
Qed.
(** Full statement: without [forward]. Inserts use ids that were made, each at most once, in any
    order (the writer lock is taken after the id was made). Then no two inserts have the same id, which is what the
    theorems on histories ask for; and ids sort by age across restarts. *)
Theorem C108_own_id_partial : forall lives idss, made lives idss -> forward lives ->
  StronglySorted N.lt (concat idss) /\ forall h, inserted_ids h ⊆+ concat idss -> fresh_ids h.
Proof.
  intros lives idss Hm Hf. pose proof (made_sorted _ _ Hm Hf) as Hs. split; [done|]. intros h Hh. unfold fresh_ids.
  apply submseteq_Permutation in Hh as [k Hk]. pose proof (sorted_nodup _ Hs) as Hn. rewrite Hk in Hn. by apply NoDup_app in Hn as [Hn _].
Qed.
Print Assumptions C108_own_id_partial.
(** The hypotheses are met: two ids in the same millisecond, then a restart. *)
Example C108_example : made [[1700000000000; 1700000000000]; [1700000000001]] [[7130316800000000000; 7130316800000000001]; [7130316800004194304]] /\
  forward [[1700000000000; 1700000000000]; [1700000000001]].
Proof.
  split.
  - repeat constructor; by vm_compute.
  - repeat constructor. intros t u Ht Hu. set_solver by lia.
Qed.

(** The clock is set back while the server restarts, by as much as has passed since a submission was
    made. The next submission gets the id of the earlier one. The earlier one is completed, so that
    the insert is accepted (its row has left the table whose key would be violated); its status is
    replaced by that of the new one. The new one stays in progress however often its chunk is completed, every
    time with success, and once it is cancelled the producer that asks for it is told that it is completed. *)
Definition reused : sub_id := 7130316800000000000.
Definition earlier : history :=
  [quiet (OInsert reused None [Some "x"%string] None ∅ 1 "{}" 1700000000000); quiet (OComplete (reused, 0) (Some "X"%string) 1700000000500 1700000000500)].
Definition again : event := quiet (OInsert reused None [Some "y"%string] (Some "m"%string) ∅ 1 "{}" 1700000000000).
Lemma again_stuck : let d := after (earlier ++ [again]) in forall out t1 t2,
  answer_of d (quiet (OComplete (reused, 0) out t1 t2)) = Some (AComplete (Ok tt)) /\ step d (quiet (OComplete (reused, 0) out t1 t2)) = d.
Proof. intros d out t1 t2. split; by vm_compute. Qed.
Theorem C108_refuted : exists lives idss id h e s1 s2,
  made lives idss /\ concat idss = [id; id] /\ inserted_ids (h ++ [e]) = [id; id] /\
  reports (after h) id (Completed s1) /\ answer_of (after h) e = Some (AInsert (Ok id)) /\
  reports (after (h ++ [e])) id (InProgress s2) /\ s_total s2 = 1 /\
  (forall l, reports (after ((h ++ [e]) ++ ((fun p => quiet (OComplete (id, 0) p.1 p.2 p.2)) <$> l))) id (InProgress s2)) /\
  reports (after (h ++ [e; quiet (OCancel id 5 5)])) id (Completed s1).
Proof.
  exists [[1700000000000]; [1700000000000]], [[reused]; [reused]], reused, earlier, again. eexists _, _. split_and!.
  - repeat constructor; by vm_compute.
  - done.
  - done.
  - by vm_compute.
  - by vm_compute.
  - by vm_compute.
  - done.
  - intros l. assert (E : after ((earlier ++ [again]) ++ ((fun p => quiet (OComplete (reused, 0) p.1 p.2 p.2)) <$> l)) = after (earlier ++ [again])).
    { unfold after, run_from. rewrite fold_left_app. fold (run_from db_empty (earlier ++ [again])). change (run_from db_empty (earlier ++ [again])) with (after (earlier ++ [again])).
      induction l as [|p l IH]; [done|]. rewrite fmap_cons. cbn [fold_left]. rewrite (proj2 (again_stuck p.1 p.2 p.2)). exact IH. }
    rewrite E. by vm_compute.
  - by vm_compute.
Qed.
Print Assumptions C108_refuted.
