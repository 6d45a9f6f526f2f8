(** Proofs about the in-flight counters. *)
From Verif Require Export MetaState.
Local Open Scope N_scope.

(** The counter of one value after a log, a decrement of zero being without effect. *)
Definition bump (o : mop) (k : string) (v : Z) (c : N) : N :=
  match o with
  | MInc k' v' => if bool_decide (k' = k /\ v' = v) then c + 1 else c
  | MDec k' v' => if bool_decide (k' = k /\ v' = v) then c - 1 else c
  end.
Definition replay (l : list mop) (k : string) (v : Z) : N := foldl (fun c o => bump o k v c) 0 l.
Lemma replay_snoc l o k v : replay (l ++ [o]) k v = bump o k v (replay l k v).
Proof. unfold replay. by rewrite foldl_app. Qed.

(** Every stored count is positive. *)
Definition positive (m : metastate) : Prop := forall k f v, m !! k = Some f -> f !! v <> Some 0.

Lemma count_insert m k f k' v : count (<[k := f]> m) k' v = if bool_decide (k = k') then default 0 (f !! v) else count m k' v.
Proof.
  unfold count, field_get. case_bool_decide; simplify_map_eq; done.
Qed.
Lemma increment_spec k v m : positive m -> positive (increment k v m) /\
  forall k' v', count (increment k v m) k' v' = bump (MInc k v) k' v' (count m k' v').
Proof.
  intros Hp. assert (Hf : forall f, field_increment v f !! v = Some (default 0 (f !! v) + 1) /\ forall v', v' <> v -> field_increment v f !! v' = f !! v').
  { intros f. unfold field_increment. destruct (f !! v) eqn:E; simpl; (split; [by simplify_map_eq|]); intros; by simplify_map_eq. }
  assert (Hg : forall f k' f' v', <[k := field_increment v f]> m !! k' = Some f' -> (forall v'', f !! v'' <> Some 0) -> f' !! v' <> Some 0).
  { intros f k' f' v' H Hz. destruct (decide (k' = k)) as [->|Hne]; simplify_map_eq; [|by eapply Hp].
    destruct (Hf f) as [H1 H2]. destruct (decide (v' = v)) as [->|]; [rewrite H1; intros [=]; lia|]. rewrite H2; auto. }
  unfold increment. destruct (m !! k) as [f|] eqn:E.
  - split. { intros k' f' v' H. eapply Hg; [exact H|]. intros v''. by eapply Hp. }
    intros k' v'. rewrite count_insert. unfold bump. destruct (Hf f) as [H1 H2].
    repeat case_bool_decide; destruct_and?; subst; try tauto.
    + rewrite H1. unfold count, field_get. by rewrite E.
    + rewrite H2 by naive_solver. unfold count, field_get. by rewrite E.
  - split. { intros k' f' v' H. eapply Hg; [exact H|]. intros v''. rewrite lookup_empty. done. }
    intros k' v'. rewrite count_insert. unfold bump. destruct (Hf ∅) as [H1 H2].
    repeat case_bool_decide; destruct_and?; subst; try tauto.
    + rewrite H1. unfold count, field_get. by rewrite E, lookup_empty.
    + rewrite H2 by naive_solver. unfold count, field_get. by rewrite E.
Qed.
Lemma field_decrement_spec v f : (forall v', f !! v' <> Some 0) ->
  exists f', field_decrement v f = Some f' /\ (forall v', f' !! v' <> Some 0) /\
  forall v', default 0 (f' !! v') = if bool_decide (v = v') then default 0 (f !! v') - 1 else default 0 (f !! v').
Proof.
  intros Hp. unfold field_decrement. destruct (f !! v) as [c|] eqn:E.
  - destruct c as [|c']; [by destruct (Hp v)|]. set (c := Npos c') in *.
    eexists. split; [reflexivity|]. destruct (N.eqb_spec (c - 1) 0) as [E0|E0].
    + split. { intros v'. destruct (decide (v = v')); simplify_map_eq; [done|apply Hp]. }
      intros v'. case_bool_decide; simplify_map_eq; [|done]. simpl. lia.
    + split. { intros v'. destruct (decide (v = v')); simplify_map_eq; [intros [=]; lia|apply Hp]. }
      intros v'. case_bool_decide; simplify_map_eq; done.
  - exists f. split; [done|]. split; [done|]. intros v'. case_bool_decide; [|done]. subst. rewrite E. done.
Qed.
Lemma decrement_field_spec k v m : positive m -> exists m', decrement_field k v m = Some m' /\ positive m' /\
  (forall k' v', count m' k' v' = bump (MDec k v) k' v' (count m k' v')) /\ (forall k', k' <> k -> m' !! k' = m !! k').
Proof.
  intros Hp. unfold decrement_field. destruct (m !! k) as [f|] eqn:E.
  - destruct (field_decrement_spec v f) as (f' & -> & Hf & Hc). { intros v'. by eapply Hp. }
    simpl. eexists. split; [done|]. split; [|split].
    + intros k' f'' v'. destruct (decide (k' = k)) as [->|]; intros; simplify_map_eq; [done|]. by eapply Hp.
    + intros k' v'. rewrite count_insert, Hc. unfold bump, count, field_get.
      repeat case_bool_decide; destruct_and?; subst; try tauto; by rewrite E.
    + intros k' Hk. by simplify_map_eq.
  - exists m. split; [done|]. split; [done|]. split; [|done]. intros k' v'. unfold bump. case_bool_decide as H; [|done].
    destruct H as [-> ->]. unfold count. by rewrite E.
Qed.
Lemma remove_if_empty_spec k m : positive m -> positive (remove_if_empty k m) /\
  (forall k' v', count (remove_if_empty k m) k' v' = count m k' v') /\
  remove_if_empty k m !! k <> Some ∅ /\ (forall k', k' <> k -> remove_if_empty k m !! k' = m !! k').
Proof.
  intros Hp. unfold remove_if_empty, ripe, field_is_empty. destruct (m !! k) as [f|] eqn:E.
  - case_bool_decide as Hf; simpl.
    + subst f. split; [|split; [|split]].
      * intros k' f v H. apply lookup_delete_Some in H as [_ H]. by eapply Hp.
      * intros k' v'. unfold count, field_get. destruct (decide (k = k')) as [->|]; by simplify_map_eq.
      * by simplify_map_eq.
      * intros k' Hk. by simplify_map_eq.
    + repeat split; try done. rewrite E. naive_solver.
  - repeat split; try done. by rewrite E.
Qed.

(** *** The invariant of the threads *)
Definition on_key (t : mthread) (k : string) : Prop := mt_pc t = AtTest k \/ mt_pc t = AtRemove k.
Record minv (s : mstate) : Prop := {
  mi_table : exists m, ms_table s = Some m /\ positive m /\
    (forall k v, count m k v = replay (ms_log s) k v) /\
    (forall k, m !! k = Some ∅ -> Exists (fun t => on_key t k) (ms_threads s)) }.
Lemma minv_start progs : minv (mstart progs).
Proof.
  constructor. exists ∅. split; [done|]. split; [by intros ???|]. split.
  - intros k v. by unfold count.
  - intros k H. done.
Qed.
Lemma exists_keep i t t' ts k : ts !! i = Some t -> Exists (fun t => on_key t k) ts -> (on_key t k -> on_key t' k) ->
  Exists (fun t => on_key t k) (<[i := t']> ts).
Proof.
  intros Hi (u & [j Hj]%elem_of_list_lookup & Hu)%Exists_exists H. apply Exists_exists.
  destruct (decide (i = j)) as [->|Hne].
  - exists t'. split; [|apply H; congruence]. apply elem_of_list_lookup. exists j. apply list_lookup_insert. by eapply lookup_lt_Some.
  - exists u. split; [|done]. apply elem_of_list_lookup. exists j. by rewrite list_lookup_insert_ne.
Qed.
Lemma minv_step i s : minv s -> minv (mstep i s).
Proof.
  intros [(m & Em & Hp & Hc & He)]. unfold mstep. rewrite Em.
  destruct (ms_threads s !! i) as [t|] eqn:Et; [|by constructor; exists m].
  destruct (mt_pc t) as [|k|k] eqn:Epc.
  - destruct (mt_todo t) as [|[k v|k v] l] eqn:El; [by constructor; exists m|..].
    + destruct (increment_spec k v m Hp) as [Hp' Hc']. constructor. simpl. eexists. split; [done|]. split; [done|]. split.
      * intros k' v'. by rewrite Hc', replay_snoc, Hc.
      * intros k' H. destruct (decide (k' = k)) as [->|Hne].
        -- exfalso. pose proof (Hc' k v) as H1. unfold count in H1. rewrite H in H1. simpl in H1. unfold field_get in H1.
           rewrite lookup_empty in H1. simpl in H1. rewrite bool_decide_eq_true_2 in H1 by done. lia.
        -- apply (exists_keep i t); [done| |by intros [H1|H1]; congruence]. apply He.
           unfold increment in H. destruct (m !! k); by simplify_map_eq.
    + destruct (decrement_field_spec k v m Hp) as (m' & Hm' & Hp' & Hc' & Ho'). constructor. simpl. rewrite Hm'. eexists. split; [done|].
      split; [done|]. split.
      * intros k' v'. by rewrite Hc', replay_snoc, Hc.
      * intros k' H. destruct (decide (k' = k)) as [->|Hne].
        -- apply Exists_exists. exists (MThread (AtTest k) l). split; [|by left].
           apply elem_of_list_lookup. exists i. apply list_lookup_insert. by eapply lookup_lt_Some.
        -- apply (exists_keep i t); [done| |by intros [H1|H1]; congruence]. apply He. by rewrite <- Ho'.
  - constructor. simpl. exists m. repeat split; [done..|]. intros k' H. apply (exists_keep i t); [done|by apply He|].
    intros [H1|H1]; [|congruence]. right. simpl. assert (k' = k) as -> by congruence. unfold ripe. rewrite H. unfold field_is_empty.
    by rewrite bool_decide_eq_true_2.
  - destruct (remove_if_empty_spec k m Hp) as (Hp' & Hc' & Hn & Ho). constructor. simpl. eexists. split; [done|]. split; [done|]. split.
    + intros k' v'. by rewrite Hc', Hc.
    + intros k' H. assert (k' <> k) by (intros ->; done). apply (exists_keep i t); [done| |].
      * apply He. by rewrite <- Ho.
      * intros [H1|H1]; congruence.
Qed.
Lemma minv_run sched progs : minv (mrun sched (mstart progs)).
Proof.
  unfold mrun. assert (H : minv (mstart progs)) by apply minv_start. revert H. generalize (mstart progs).
  induction sched as [|i l IH]; intros s H; [done|]. simpl. apply IH. by apply minv_step.
Qed.

(** *** Counting *)
Lemma incs_snoc l o k v : incs (l ++ [o]) k v = (incs l k v + if bool_decide (o = MInc k v) then 1 else 0)%nat.
Proof. unfold incs. rewrite filter_app, app_length. f_equal. rewrite filter_cons. case_bool_decide; case_decide; done. Qed.
Lemma decs_snoc l o k v : decs (l ++ [o]) k v = (decs l k v + if bool_decide (o = MDec k v) then 1 else 0)%nat.
Proof. unfold decs. rewrite filter_app, app_length. f_equal. rewrite filter_cons. case_bool_decide; case_decide; done. Qed.
Lemma matched_prefix l1 l2 : matched (l1 ++ l2) -> matched l1.
Proof. intros H a b -> k v. apply (H a (b ++ l2)). by rewrite app_assoc. Qed.
Lemma replay_matched l k v : matched l -> replay l k v = N.of_nat (incs l k v - decs l k v).
Proof.
  induction l as [|o l IH] using rev_ind; intros H; [done|].
  rewrite replay_snoc, IH by (by eapply matched_prefix). pose proof (H l [o] eq_refl k v) as H0.
  pose proof (H (l ++ [o]) [] ltac:(by rewrite app_nil_r) k v) as H1. rewrite incs_snoc, decs_snoc in *.
  destruct o as [k' v'|k' v']; simpl; repeat case_bool_decide; destruct_and?; simplify_eq; try tauto; try lia.
Qed.
(** An unmatched decrement loses at most itself: the counter is never below the balance. *)
Lemma replay_lower l k v : N.of_nat (incs l k v) <= replay l k v + N.of_nat (decs l k v) /\ replay l k v <= N.of_nat (incs l k v).
Proof.
  induction l as [|o l IH] using rev_ind; [done|]. rewrite replay_snoc, incs_snoc, decs_snoc.
  destruct o as [k' v'|k' v']; simpl; repeat case_bool_decide; destruct_and?; simplify_eq; try tauto; try lia.
Qed.

(** *** The theorems *)
Lemma counters_bag progs sched : let s := mrun sched (mstart progs) in
  exists m, ms_table s = Some m /\
  (matched (ms_log s) -> forall k v, count m k v = N.of_nat (incs (ms_log s) k v - decs (ms_log s) k v)) /\
  (forall k v, N.of_nat (incs (ms_log s) k v) <= count m k v + N.of_nat (decs (ms_log s) k v) /\ count m k v <= N.of_nat (incs (ms_log s) k v)) /\
  (forall k f v, m !! k = Some f -> f !! v <> Some 0) /\
  (quiescent s -> forall k, is_Some (m !! k) <-> exists v, 0 < count m k v).
Proof.
  intros s. destruct (minv_run sched progs) as [(m & Em & Hp & Hc & He)]. exists m. split; [done|].
  split. { intros H k v. rewrite Hc. by apply replay_matched. }
  split. { intros k v. rewrite Hc. apply replay_lower. }
  split; [done|]. intros Hq k. split.
  - intros [f Hf]. destruct (decide (f = ∅)) as [->|Hne].
    + pose proof (He k Hf) as (u & Hu & Ho)%Exists_exists. unfold quiescent in Hq. rewrite Forall_forall in Hq.
      specialize (Hq _ Hu). destruct Ho; congruence.
    + apply map_choose in Hne as (v & c & Hv). exists v. unfold count, field_get. rewrite Hf. simpl. rewrite Hv. simpl.
      pose proof (Hp k f v Hf) as H0. destruct c; [by rewrite Hv in H0|lia].
  - intros [v Hv]. unfold count in Hv. destruct (m !! k); [by eexists|simpl in Hv; lia].
Qed.
Lemma balanced_empty progs sched : let s := mrun sched (mstart progs) in
  quiescent s -> matched (ms_log s) -> (forall k v, incs (ms_log s) k v = decs (ms_log s) k v) -> ms_table s = Some ∅.
Proof.
  intros s Hq Hm Hb. destruct (counters_bag progs sched) as (m & Em & H1 & _ & _ & H2). fold s in Em, H1, H2. rewrite Em. f_equal.
  apply map_empty. intros k. destruct (m !! k) eqn:E; [|done]. destruct (H2 Hq k) as [[v Hv] _]; [by eexists|].
  rewrite H1, Hb in Hv by done. lia.
Qed.
(** *** Sequential use, for the server model *)
Lemma count_increment k v m k' v' : positive m -> count (increment k v m) k' v' = bump (MInc k v) k' v' (count m k' v').
Proof. intros H. by apply increment_spec. Qed.
Lemma decrement_spec k v m : positive m -> exists m', decrement k v m = Some m' /\ positive m' /\
  forall k' v', count m' k' v' = bump (MDec k v) k' v' (count m k' v').
Proof.
  intros Hp. unfold decrement. destruct (decrement_field_spec k v m Hp) as (m1 & -> & Hp1 & Hc1 & _).
  destruct (remove_if_empty_spec k m1 Hp1) as (Hp2 & Hc2 & _). simpl. eexists. split; [done|].
  destruct (ripe k m1); [|done]. split; [done|]. intros k' v'. by rewrite Hc2, Hc1.
Qed.
Lemma positive_empty : positive ∅.
Proof. by intros ???. Qed.
Lemma bumps_list (mk : string -> Z -> mop) (g : string * Z -> metastate -> metastate) (l : list (string * Z)) m :
  (forall k v m, positive m -> positive (g (k, v) m) /\ forall k' v', count (g (k, v) m) k' v' = bump (mk k v) k' v' (count m k' v')) ->
  positive m -> positive (foldr g m l) /\
  forall k' v', count (foldr g m l) k' v' = foldr (fun kv => bump (mk kv.1 kv.2) k' v') (count m k' v') l.
Proof.
  intros Hg Hp. induction l as [|[k v] l [IH1 IH2]]; [done|]. simpl. destruct (Hg k v _ IH1) as [H1 H2]. split; [done|].
  intros k' v'. by rewrite H2, IH2.
Qed.
Lemma foldr_bump (mk : string -> Z -> mop) (st : strat_map) k v c :
  (forall k' v', (k' <> k \/ v' <> v) -> forall c, bump (mk k' v') k v c = c) ->
  foldr (fun kv => bump (mk kv.1 kv.2) k v) c (map_to_list st) = if bool_decide (st !! k = Some v) then bump (mk k v) k v c else c.
Proof.
  intros Hne. induction st as [|k' v' st Hk IH] using map_ind; [by rewrite map_to_list_empty|].
  rewrite (foldr_permutation (=) (fun kv : string * Z => bump (mk kv.1 kv.2) k v) c _ ((k', v') :: map_to_list st)).
  2: { intros _ [a b] _ [a' b'] x _ _ _. simpl. destruct (decide (a = k /\ b = v)) as [[-> ->]|H1].
       - destruct (decide (a' = k /\ b' = v)) as [[-> ->]|H2]; [done|]. by rewrite !(Hne a' b') by (destruct (decide (a' = k)); [right|left]; tauto).
       - by rewrite !(Hne a b) by (destruct (decide (a = k)); [right|left]; tauto). }
  2: { by apply map_to_list_insert. }
  simpl. rewrite IH. destruct (decide (k' = k)) as [->|Hkk].
  - rewrite lookup_insert. rewrite Hk. rewrite (bool_decide_eq_false_2 (None = Some v)) by done.
    destruct (decide (v' = v)) as [->|Hv]; [by rewrite bool_decide_eq_true_2|]. rewrite bool_decide_eq_false_2 by congruence. apply Hne. by right.
  - rewrite lookup_insert_ne by done. apply Hne. by left.
Qed.
Lemma insert_metadata_spec st m : positive m -> positive (insert_metadata st m) /\
  forall k v, count (insert_metadata st m) k v = count m k v + if bool_decide (st !! k = Some v) then 1 else 0.
Proof.
  intros Hp. unfold insert_metadata.
  destruct (bumps_list MInc (fun kv => increment kv.1 kv.2) (map_to_list st) m) as [H1 H2]; [|done|].
  { intros k v m' Hp'. simpl. by apply increment_spec. }
  split; [done|]. intros k v. rewrite H2, foldr_bump.
  - simpl. rewrite (bool_decide_eq_true_2 (k = k /\ v = v)) by done. case_bool_decide; lia.
  - intros k' v' Hne c. simpl. rewrite bool_decide_eq_false_2; [done|]. intros [-> ->]. tauto.
Qed.
Lemma remove_metadata_spec st m : positive m -> positive (remove_metadata st m) /\
  forall k v, count (remove_metadata st m) k v = count m k v - if bool_decide (st !! k = Some v) then 1 else 0.
Proof.
  intros Hp. unfold remove_metadata.
  destruct (bumps_list MDec (fun kv m => default m (decrement kv.1 kv.2 m)) (map_to_list st) m) as [H1 H2]; [|done|].
  { intros k v m' Hp'. simpl. destruct (decrement_spec k v m' Hp') as (m2 & -> & ? & ?). done. }
  split; [done|]. intros k v. rewrite H2, foldr_bump.
  - simpl. rewrite (bool_decide_eq_true_2 (k = k /\ v = v)) by done. case_bool_decide; lia.
  - intros k' v' Hne c. simpl. rewrite bool_decide_eq_false_2; [done|]. intros [-> ->]. tauto.
Qed.
