(** The gauges are what they are said to be. *)
From Verif Require Export Backlog AnswerProofs AttrProofs.
Local Open Scope N_scope.

Lemma waiting_row d cid : is_Some (waiting d cid) <-> is_Some (t_chunk d !! cid).
Proof. destruct cid as [id i]. rewrite waiting_view, fmap_is_Some. unfold view_of. simpl. by rewrite lookup_rows_of. Qed.

Lemma enumerates_waiting d : enumerates (map_to_list (t_chunk d)).*1 (fun cid => is_Some (waiting d cid)).
Proof.
  split; [apply NoDup_fst_map_to_list|]. intros cid. rewrite waiting_row, elem_of_list_fmap. split.
  - intros ([k x] & -> & H). apply elem_of_map_to_list in H. by eexists.
  - intros [x Hx]. exists (cid, x). split; [done|]. by apply elem_of_map_to_list.
Qed.

Lemma reports_waiting h id i : fresh_ids h -> is_Some (waiting (after h) (id, i)) ->
  exists s r, reports (after h) id (InProgress s) /\ i < s_total s /\ t_sub (after h) !! id = Some r /\ sr_size r = Some (s_size s).
Proof.
  intros Hf [c Hc]%waiting_row. destruct (inv_chunk _ _ (inv_after h Hf) _ _ _ Hc) as (r & Hr & Hi).
  destruct (stored_inserted h id Hf) as [a Ha]; [unfold view_of; rewrite Hr; done|].
  pose proof (at_sub _ _ (attrs_after h id a Hf Ha) r Hr) as (_ & _ & _ & Hz & _).
  eexists _, r. split; [apply reports_in_progress; by exists r|]. simpl. rewrite Hz. done.
Qed.

Lemma backlog_estimate h size : fresh_ids h ->
  (forall id s, reports (after h) id (InProgress s) -> size id = s_size s) ->
  exists ws, enumerates ws (fun cid => is_Some (waiting (after h) cid)) /\
  fst (exec count_chunks (after h) []) = Ok (N.of_nat (length ws)) /\
  fst (exec count_ops_in_backlog_estimate (after h) []) = Ok (sum_Z ((fun cid => size cid.1) <$> ws)).
Proof.
  intros Hf Hsize. pose proof (enumerates_waiting (after h)) as He. eexists. split; [exact He|]. split.
  { unfold count_chunks, read. rewrite exec_sql. cbn [fst]. by rewrite fmap_length. }
  unfold count_ops_in_backlog_estimate, read. rewrite exec_sql. cbn [fst]. f_equal. unfold map_fold.
  assert (H : forall kv, kv ∈ map_to_list (t_chunk (after h)) -> exists r, t_sub (after h) !! kv.1.1 = Some r /\ sr_size r = Some (size kv.1.1)).
  { intros [[id i] x] Hx%elem_of_map_to_list. destruct (reports_waiting h id i Hf) as (s & r & H1 & _ & H2 & H3); [apply waiting_row; by eexists|].
    exists r. split; [done|]. simpl. by rewrite (Hsize id s H1). }
  revert H. clear. cbn. generalize (map_to_list (t_chunk (after h))). intros l. induction l as [|[[id i] x] l IH]; intros H; [done|].
  cbn. destruct (H ((id, i), x)) as (r & Hr & Hz); [left|]. cbn in Hr, Hz. rewrite Hr, Hz. cbn. f_equal. apply IH. intros kv Hkv. apply H. by right.
Qed.

Lemma exec_reader {A : Set} (q : db -> A) dbs n : run_reader (read q) dbs n = Ok (q (dbs n)).
Proof. done. Qed.
Lemma scaling hs size0 size1 :
  (forall k, fresh_ids (hs k)) ->
  (forall id s, reports (after (hs 0%nat)) id (InProgress s) -> size0 id = s_size s) ->
  (forall id s, reports (after (hs 1%nat)) id (InProgress s) -> size1 id = s_size s) ->
  exists ws0 ws1,
    enumerates ws0 (fun cid => is_Some (waiting (after (hs 0%nat)) cid)) /\
    enumerates ws1 (fun cid => is_Some (waiting (after (hs 1%nat)) cid)) /\
    run_reader scaling_metrics (fun k => after (hs k)) 0 =
      Ok (N.of_nat (length ws0), sum_Z ((fun cid => size1 cid.1) <$> ws1)).
Proof.
  intros Hf H0 H1. destruct (backlog_estimate (hs 0%nat) size0 (Hf _) H0) as (ws0 & E0 & C0 & _).
  destruct (backlog_estimate (hs 1%nat) size1 (Hf _) H1) as (ws1 & E1 & _ & C1). exists ws0, ws1. split; [done|]. split; [done|].
  unfold count_chunks, count_ops_in_backlog_estimate, read in C0, C1. rewrite exec_sql in C0. rewrite exec_sql in C1. cbn [fst] in C0, C1.
  injection C0 as C0. injection C1 as C1. rewrite <- C0, <- C1. done.
Qed.

(** How far the estimate is off. *)
Lemma sum_Z_le {A} (f g : A -> Z) l : (forall x, x ∈ l -> (f x <= g x)%Z) -> (sum_Z (f <$> l) <= sum_Z (g <$> l))%Z.
Proof. induction l as [|x l IH]; intros H; [done|]. cbn. fold (sum_Z (f <$> l)) (sum_Z (g <$> l)). pose proof (H x ltac:(left)). enough (sum_Z (f <$> l) <= sum_Z (g <$> l))%Z by lia. apply IH. intros y Hy. apply H. by right. Qed.
Lemma sum_Z_ext {A} (f g : A -> Z) l : (forall x, x ∈ l -> f x = g x) -> sum_Z (f <$> l) = sum_Z (g <$> l).
Proof. induction l as [|x l IH]; intros H; [done|]. cbn. rewrite (H x ltac:(left)). f_equal. apply IH. intros y Hy. apply H. by right. Qed.
Lemma sum_Z_plus {A} (f g : A -> Z) l : sum_Z ((fun x => f x + g x)%Z <$> l) = (sum_Z (f <$> l) + sum_Z (g <$> l))%Z.
Proof. induction l as [|x l IH]; [done|]. cbn. fold (sum_Z (f <$> l)) (sum_Z (g <$> l)) (sum_Z ((fun x => f x + g x)%Z <$> l)). rewrite IH. lia. Qed.
(** Summands that vanish but for one chunk of each submission. *)
Lemma sum_Z_nonneg {A} (f : A -> Z) l : (forall x, x ∈ l -> (0 <= f x)%Z) -> (0 <= sum_Z (f <$> l))%Z.
Proof. intros H. rewrite <- (sum_Z_le (fun _ => 0%Z) f l H). clear. induction l as [|x l IH]; [done|]. exact IH. Qed.
Lemma sum_Z_perm l k : l ≡ₚ k -> sum_Z l = sum_Z k.
Proof. induction 1; cbn in *; unfold sum_Z in *; try lia. Qed.
Lemma sum_Z_submseteq {A} (f : A -> Z) l k : l ⊆+ k -> (forall x, x ∈ k -> (0 <= f x)%Z) -> (sum_Z (f <$> l) <= sum_Z (f <$> k))%Z.
Proof.
  intros [m Hm]%submseteq_Permutation H.
  assert (E : sum_Z (f <$> k) = sum_Z (f <$> l ++ m)).
  { apply sum_Z_perm. by rewrite Hm. }
  rewrite E, fmap_app. unfold sum_Z. rewrite foldr_app. fold (sum_Z (f <$> m)).
  assert (Hp : (0 <= sum_Z (f <$> m))%Z). { apply sum_Z_nonneg. intros x Hx. apply H. rewrite Hm. apply elem_of_app. by right. }
  revert Hp. generalize (sum_Z (f <$> m)). clear. intros z Hz. induction l as [|x l IH]; cbn; [done|]. lia.
Qed.
Lemma sum_one_each (last : N -> N) (f : N -> Z) (l : list chunk_id) (ids : list N) :
  NoDup l -> (forall id, id ∈ ids -> (0 <= f id)%Z) -> (forall cid, cid ∈ l -> cid.1 ∈ ids) ->
  (sum_Z ((fun cid => if decide (cid.2 = last cid.1) then f cid.1 else 0%Z) <$> l) <= sum_Z (f <$> ids))%Z.
Proof.
  intros Hl Hpos Hin. set (P := fun cid : chunk_id => cid.2 = last cid.1).
  assert (E : sum_Z ((fun cid : chunk_id => if decide (cid.2 = last cid.1) then f cid.1 else 0%Z) <$> l) = sum_Z (f <$> (filter P l).*1)).
  { clear. induction l as [|x l IH]; [done|]. rewrite filter_cons. cbn [fmap list_fmap]. cbn [sum_Z foldr]. unfold P at 1. destruct (decide (x.2 = last x.1)); [|exact IH].
    unfold sum_Z in *. cbn [fmap list_fmap foldr]. f_equal. exact IH. }
  rewrite E. apply sum_Z_submseteq; [|done]. apply NoDup_submseteq.
  - apply NoDup_fmap_2_strong; [|by apply NoDup_filter]. intros [i x] [j y] [Hx _]%elem_of_list_filter [Hy _]%elem_of_list_filter. unfold P in *. cbn in *. congruence.
  - intros id Hid. apply elem_of_list_fmap in Hid as (cid & -> & [_ Hc]%elem_of_list_filter). by apply Hin.
Qed.
Lemma estimate_off h (len : chunk_id -> Z) ws : fresh_ids h ->
  enumerates ws (fun cid => is_Some (waiting (after h) cid)) ->
  (forall id s, reports (after h) id (InProgress s) -> (1 <= s_size s)%Z) ->
  (forall id s i, reports (after h) id (InProgress s) -> i < s_total s ->
     (1 <= len (id, i) <= s_size s)%Z /\ (i + 1 < s_total s -> len (id, i) = s_size s)) ->
  exists ss z, enumerates ss (fun s => reports (after h) (s_id s) (InProgress s)) /\
    fst (exec count_ops_in_backlog_estimate (after h) []) = Ok z /\
    (sum_Z (len <$> ws) <= z <= sum_Z (len <$> ws) + sum_Z ((fun s => s_size s - 1)%Z <$> ss))%Z.
Proof.
  intros Hf [Hn Hw] Hpos Hlen. destruct (chunk_count h Hf) as (ss & [Hs Hss] & _).
  set (row := fun id => match t_sub (after h) !! id with Some r => (size_of (sr_size r), sr_total r) | None => (0%Z, 0) end).
  assert (Hrow : forall id s, reports (after h) id (InProgress s) -> row id = (s_size s, s_total s)).
  { intros id s (r & Hr & ->)%reports_in_progress. unfold row. unfold view_of in Hr. cbn in Hr. by rewrite Hr. }
  destruct (backlog_estimate h (fun id => (row id).1) Hf) as (ws' & [Hn' Hw'] & _ & E).
  { intros id s Hr. by rewrite (Hrow _ _ Hr). }
  assert (Hp : ws' ≡ₚ ws) by (apply NoDup_Permutation; [done|done|]; intros cid; by rewrite Hw, Hw').
  assert (Ep : sum_Z ((fun cid => (row cid.1).1) <$> ws') = sum_Z ((fun cid => (row cid.1).1) <$> ws)).
  { apply sum_Z_perm. by rewrite Hp. }
  assert (Hc : forall cid, cid ∈ ws -> exists s, reports (after h) cid.1 (InProgress s) /\ cid.2 < s_total s).
  { intros [id i] Hin%Hw. destruct (reports_waiting h id i Hf Hin) as (s & r & H1 & H2 & _). by exists s. }
  exists ss, (sum_Z ((fun cid => (row cid.1).1) <$> ws)). split; [done|]. split; [by rewrite E, Ep|]. split.
  - apply sum_Z_le. intros cid (s & Hr & Hi)%Hc. rewrite (Hrow _ _ Hr). destruct cid as [id i]. apply (Hlen _ _ _ Hr Hi).
  - assert (Hid : forall s, s ∈ ss -> row (s_id s) = (s_size s, s_total s)) by (intros s Hin%Hss; by apply Hrow).
    etrans; [apply (sum_Z_le _ (fun cid => len cid + if decide (cid.2 = ((row cid.1).2 - 1)%N) then (row cid.1).1 - 1 else 0)%Z)|].
    + intros cid (s & Hr & Hi)%Hc. rewrite (Hrow _ _ Hr). destruct cid as [id i]. cbn in *. destruct (Hlen _ _ _ Hr Hi) as [H1 H2]. destruct (decide (i = s_total s - 1)) as [|Hne]; [lia|]. rewrite H2 by lia. lia.
    + rewrite sum_Z_plus. apply Z.add_le_mono_l. rewrite (sum_one_each (fun id => (row id).2 - 1) (fun id => (row id).1 - 1)%Z ws (s_id <$> ss)).
      * rewrite <- list_fmap_compose. apply Z.eq_le_incl. apply sum_Z_ext. intros s Hin. cbn. by rewrite Hid.
      * done.
      * intros id (s & -> & Hin)%elem_of_list_fmap. rewrite Hid by done. cbn. apply Hss in Hin. pose proof (Hpos _ s Hin). lia.
      * intros cid (s & Hr & _)%Hc. apply elem_of_list_fmap. exists s. assert (Es : s_id s = cid.1) by (by apply reports_in_progress in Hr as (r & _ & ->)).
        split; [done|]. apply Hss. by rewrite Es.
Qed.
