(** Facts about the Python library: chunking, waiting, fetching a batch, strategies. *)
From Verif Require Export PyLib ObjectStoreProofs FateProofs.
Local Open Scope N_scope.

(** *** Chunking *)
Section chunking.
Context {A : Type}.
Implicit Types (acc l : list A).
Lemma batched_concat n : forall l acc, concat (batched_from n acc l) = acc ++ l.
Proof.
  induction l as [|x l IH]; intros acc; simpl.
  - destruct acc; simpl; [done|]. by rewrite !app_nil_r.
  - destruct (_ =? _)%nat; simpl; rewrite IH; [by rewrite <- app_assoc|by rewrite <- app_assoc].
Qed.
Lemma batched_sizes n : forall l acc, (0 < n)%nat -> (length acc < n)%nat -> forall i b, batched_from n acc l !! i = Some b ->
  (0 < length b <= n)%nat /\ ((S i < length (batched_from n acc l))%nat -> length b = n).
Proof.
  induction l as [|x l IH]; intros acc Hn Ha i b; simpl.
  - destruct acc as [|y acc]; simpl; [done|]. destruct i as [|i]; simpl; [|done]. intros [= <-]. simpl in *. split; lia.
  - destruct (length (acc ++ [x]) =? n)%nat eqn:E.
    + apply Nat.eqb_eq in E. destruct i as [|i]; simpl.
      * intros [= <-]. rewrite E. split; lia.
      * intros Hb. destruct (IH [] Hn Hn i b Hb) as [H1 H2]. split; [done|]. intros Hi. apply H2. lia.
    + apply Nat.eqb_neq in E. apply IH; [done|]. rewrite app_length in *. simpl in *. lia.
Qed.
Lemma unchunk_dumps (fmt : format A) (cs : list (list A)) : (forall c, c ∈ cs -> loads fmt (dumps fmt c) = Some c) ->
  unchunk_iterator fmt (Some <$> (dumps fmt <$> cs)) = (concat cs, true).
Proof.
  induction cs as [|c cs IH]; intros H; [done|]. cbn [unchunk_iterator fmap list_fmap mbind option_bind concat].
  change (list_fmap _ _ Some (list_fmap _ _ (dumps fmt) cs)) with (Some <$> (dumps fmt <$> cs)).
  rewrite H by left. rewrite IH; [done|]. intros c' Hc'. apply H. by right.
Qed.
End chunking.

(** *** Waiting *)
Lemma wait_more polls n m r : wait_for polls n = Some r -> (n <= m)%nat -> wait_for polls m = Some r.
Proof. intros H. induction 1 as [|m _ IH]; [done|]. simpl. by rewrite IH. Qed.
Lemma wait_source polls n r : wait_for polls n = Some r -> r <> NotYet /\ exists i, (i < n)%nat /\ r = maybe_stream (polls i).
Proof.
  induction n as [|n IH]; simpl; [done|]. destruct (wait_for polls n) as [r'|].
  - intros [= <-]. destruct (IH eq_refl) as (H & i & Hi & ->). split; [done|]. exists i. split; [lia|done].
  - destruct (maybe_stream (polls n)) eqn:E; intros [= <-]; (split; [done|]; exists n; split; [lia|done]).
Qed.
Lemma wait_answered polls n : maybe_stream (polls n) <> NotYet -> is_Some (wait_for polls (S n)).
Proof. intros H. simpl. destruct (wait_for polls n); [done|]. destruct (maybe_stream (polls n)); done. Qed.
Lemma wait_never polls : (forall n, maybe_stream (polls n) = NotYet) -> forall n, wait_for polls n = None.
Proof. intros H n. induction n as [|n IH]; [done|]. simpl. by rewrite IH, H. Qed.
Lemma grows_le hs i j : grows hs -> (i <= j)%nat -> hs i `prefix_of` hs j.
Proof. intros Hg. induction 1 as [|j _ IH]; [done|]. etrans; [exact IH|apply Hg]. Qed.
Lemma pause_max k : pause k <= polling_interval.
Proof. induction k as [|k IH]; simpl; [done|]. destruct (_ <? _) eqn:E; [apply N.le_min_r|done]. Qed.
Lemma pause_grows k : pause k <= pause (S k).
Proof. simpl. destruct (_ <? _) eqn:E; [|done]. apply N.ltb_lt in E. apply N.min_glb; lia. Qed.
Lemma pause_le j k : (j <= k)%nat -> pause j <= pause k.
Proof. induction 1 as [|k _ IH]; [done|]. pose proof (pause_grows k). lia. Qed.

(** *** Fetching a batch *)
Lemma retrieve_batch_some base o l : forall broken l', retrieve_batch base l broken o = Some l' ->
  (fun x => x.1.1) <$> l' = l.*1 /\
  Forall2 (fun p x => from_internal base p.1 p.2 false o = Content x.1.2 x.2) l l'.
Proof.
  induction l as [|[r s] l IH]; intros broken l'; simpl; [by intros [= <-]|].
  destruct (from_internal base r s (broken 0%nat) o) as [c p| |] eqn:E; [|done|done].
  intros (l1 & H1 & ->)%fmap_Some. destruct (IH _ _ H1) as [H2 H3]. simpl. split; [f_equal; exact H2|].
  constructor; [|done]. simpl. unfold from_internal in *. destruct (c_input r); [done|]. destruct (s_prefix s); [|done]. by destruct (broken 0%nat).
Qed.
Lemma retrieve_batch_all base o l : forall broken, (forall i r s, l !! i = Some (r, s) -> exists c p, from_internal base r s (broken i) o = Content c p) ->
  is_Some (retrieve_batch base l broken o).
Proof.
  induction l as [|[r s] l IH]; intros broken H; simpl; [done|].
  destruct (H 0%nat r s eq_refl) as (c & p & ->). apply fmap_is_Some. apply IH. intros i r' s' Hi. by apply (H (S i)).
Qed.

(** *** Strategies *)
Lemma of_to s : of_py_ref (to_py s) = s.
Proof. by induction s as [| | |k u IH]; simpl; rewrite ?IH. Qed.
Lemma to_of s : to_py (of_py_ref s) = s.
Proof. by induction s as [| | |k u IH]; simpl; rewrite ?IH. Qed.
Lemma of_py_both s : of_py s = of_py_ref s.
Proof. by destruct s. Qed.
