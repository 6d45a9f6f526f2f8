(** Cleanup, lookups, attributes and counters. *)
From Verif Require Export LookupProofs.
From Coq Require Import Sorted.
Local Open Scope N_scope.

(** *** Cleanup *)
Lemma after_cleanup h c : after (h ++ [quiet (OCleanup c)]) = cleaned c (after h).
Proof. rewrite after_quiet. unfold op_prog. by rewrite exec_map, exec_cleanup. Qed.

Lemma cleanup_in_progress h c id s : fresh_ids h -> reports (after h) id (InProgress s) ->
  reports (after (h ++ [quiet (OCleanup c)])) id (InProgress s) /\
  forall i, waiting (after (h ++ [quiet (OCleanup c)])) (id, i) = waiting (after h) (id, i).
Proof.
  intros Hf (r & Hr & ->)%reports_in_progress. rewrite after_cleanup. split.
  - apply reports_in_progress. exists r. rewrite view_cleaned.
    destruct (vi_sub _ (vinv_after h id Hf) _ Hr) as (-> & -> & -> & _). cbn [v_sub v_meta older orb]. done.
  - intros i. by rewrite !waiting_view, view_cleaned.
Qed.
Lemma cleanup_terminal h c id st t : fresh_ids h -> clocks_ok h -> reports (after h) id st -> finished_at st = Some t ->
  ((c <= t)%Z -> reports (after (h ++ [quiet (OCleanup c)])) id st) /\
  ((t < c)%Z -> unknown (after (h ++ [quiet (OCleanup c)])) id /\ strategic_metadata (after (h ++ [quiet (OCleanup c)])) id = ∅).
Proof.
  intros Hf Hk Hst Hfin. rewrite after_cleanup. unfold reports, unknown in *. rewrite status_of_view in *. rewrite strategic_metadata_view.
  pose proof (vinv_after h id Hf) as Hv. pose proof (times_after h id Hf Hk) as Ht.
  rewrite view_cleaned. remember (view_of (after h) id) as v eqn:Ev. clear Ev.
  split; intros Hle.
  - apply (status_cleanup id v st c t Hv Ht Hst Hfin); [constructor|done].
  - unfold status_v in *; simpl.
    destruct (v_sub v) as [s|] eqn:Es; [by injection Hst as <-|].
    destruct (v_comp v) as [r|] eqn:Ec.
    { destruct (vi_comp _ Hv _ Ec) as [Ef Ex]. rewrite Ef, Ex. injection Hst as <-. simpl in Hfin. injection Hfin as <-.
      rewrite drop_old_gone by done. simpl. rewrite (proj2 (Z.ltb_lt _ _) Hle). done. }
    destruct (v_fail v) as [r|] eqn:Ef.
    { rewrite (vi_fail _ Hv _ Ef). destruct (tm_fail _ Ht _ Ef) as (k & Hkk & _). rewrite Hkk in Hst.
      injection Hst as <-. simpl in Hfin. injection Hfin as <-.
      rewrite drop_old_gone by done. simpl. rewrite (proj2 (Z.ltb_lt _ _) Hle). done. }
    destruct (v_canc v) as [r|] eqn:Ex; [|done].
    injection Hst as <-. simpl in Hfin. injection Hfin as <-.
    rewrite drop_old_gone by done. simpl. rewrite (proj2 (Z.ltb_lt _ _) Hle). done.
Qed.

(** *** Status of failed submissions *)
Lemma status_readable h id : fresh_ids h -> clocks_ok h \/ no_cleanup h -> exists r, status_of (after h) id = Ok r.
Proof.
  intros Hf [Hk|Hn].
  - destruct (status_stored h id Hf Hk) as [(st & H & _)|[H _]]; eauto.
  - rewrite status_of_view. unfold status_v. destruct (v_sub _); [by eexists|]. destruct (v_comp _); [by eexists|].
    destruct (v_fail _) as [r|] eqn:E; [|destruct (v_canc _); by eexists].
    destruct (failed_row_after h id r Hf Hn E) as [c ->]. by eexists.
Qed.

(** *** Lookup by metadata *)
Lemma elem_sorted_ids {A} (m : gmap sub_id A) id : id ∈ sorted_ids m <-> is_Some (m !! id).
Proof.
  unfold sorted_ids. rewrite merge_sort_Permutation, elem_of_list_fmap. split.
  - intros ([k x] & -> & H). apply elem_of_map_to_list in H. by eexists.
  - intros [x Hx]. exists (id, x). split; [done|]. by apply elem_of_map_to_list.
Qed.
Lemma NoDup_sorted_ids {A} (m : gmap sub_id A) : NoDup (sorted_ids m).
Proof. unfold sorted_ids. rewrite merge_sort_Permutation. apply NoDup_fst_map_to_list. Qed.
Lemma length_sorted_ids {A} (m : gmap sub_id A) : length (sorted_ids m) = size m.
Proof. unfold sorted_ids. rewrite merge_sort_Permutation, fmap_length. done. Qed.
Lemma le_sorted_lt (l : list N) : StronglySorted N.le l -> NoDup l -> StronglySorted N.lt l.
Proof.
  induction 1 as [|x l Hl IH Hx]; intros Hn; [constructor|]. apply NoDup_cons in Hn as [Hx' Hn].
  constructor; [auto|]. rewrite Forall_forall in *. intros y Hy. specialize (Hx y Hy).
  assert (x <> y) by set_solver. lia.
Qed.
Lemma sorted_ids_lt {A} (m : gmap sub_id A) : StronglySorted N.lt (sorted_ids m).
Proof.
  apply le_sorted_lt; [|apply NoDup_sorted_ids]. unfold sorted_ids. apply Sorted_StronglySorted; [intros ???; lia|].
  apply (Sorted_merge_sort N.le).
Qed.
Lemma StronglySorted_filter {A} (R : A -> A -> Prop) (P : A -> Prop) `{!forall x, Decision (P x)} l :
  StronglySorted R l -> StronglySorted R (filter P l).
Proof.
  induction 1 as [|x l Hl IH Hx]; [constructor|]. rewrite filter_cons. destruct (decide (P x)); [|done].
  constructor; [done|]. rewrite Forall_forall in *. intros y [_ Hy]%elem_of_list_filter. auto.
Qed.

Lemma elem_matching d m id : id ∈ matching_ids m d <-> carries d m id.
Proof.
  assert (Hsub : forall (mm : strat_map), mm ⊆ rows_of (t_meta d) id <-> Forall (fun kv => t_meta d !! (id, kv.1) = Some kv.2) (map_to_list mm)).
  { intros mm. rewrite map_subseteq_spec, Forall_forall. split.
    - intros H [k x] Hkx. apply elem_of_map_to_list in Hkx. simpl. rewrite <- lookup_rows_of. by apply H.
    - intros H k x Hkx. rewrite lookup_rows_of. apply (H (k, x)). by apply elem_of_map_to_list. }
  assert (E : id ∈ matching_ids m d <-> is_Some (t_sub d !! id) /\ Forall (fun kv => t_meta d !! (id, kv.1) = Some kv.2) (map_to_list m)).
  { unfold matching_ids. destruct (decide (m = ∅)) as [->|Hne].
    - rewrite elem_sorted_ids, map_to_list_empty. split; [intros H; split; [done|constructor]|tauto].
    - rewrite elem_of_list_filter, elem_sorted_ids. tauto. }
  rewrite E, <- Hsub. unfold carries. setoid_rewrite reports_in_progress. unfold view_of; simpl. split.
  - intros [[r Hr] Hm]. eexists. split; [by exists r|]. done.
  - intros (s & (r & Hr & ->) & Hm). split; [by eexists|done].
Qed.
Lemma NoDup_matching d m : NoDup (matching_ids m d).
Proof. unfold matching_ids. destruct (decide _); [|apply NoDup_filter]; apply NoDup_sorted_ids. Qed.
Lemma sorted_matching d m : StronglySorted N.lt (matching_ids m d).
Proof. unfold matching_ids. destruct (decide _); [|apply StronglySorted_filter]; apply sorted_ids_lt. Qed.

Lemma lookup_meta d m max : (size m <= 63)%nat ->
  exists all, enumerates all (carries d m) /\ StronglySorted N.lt all /\
  exec (lookup_ids_by_strategic_metadata m max) d [] =
    (Ok (if max <? N.of_nat (length all) then inr max else inl all), d).
Proof.
  intros Hm%Nat.leb_le. exists (matching_ids m d). split; [split; [apply NoDup_matching|apply elem_matching]|]. split; [apply sorted_matching|].
  unfold lookup_ids_by_strategic_metadata. rewrite exec_tryb by solve_good. rewrite exec_sql, Hm. cbn [fst snd].
  rewrite take_length. destruct (max <? N.of_nat (length (matching_ids m d))) eqn:E.
  - apply N.ltb_lt in E. rewrite (proj2 (N.ltb_lt _ _)) by lia. done.
  - apply N.ltb_ge in E. rewrite (proj2 (N.ltb_ge _ _)) by lia. rewrite take_ge by lia. done.
Qed.

Lemma lookup_meta_many d m max : (63 < size m)%nat -> exec (lookup_ids_by_strategic_metadata m max) d [] = (Err (EDb OtherSqlError), d).
Proof.
  intros Hm%Nat.leb_gt. unfold lookup_ids_by_strategic_metadata. rewrite exec_tryb by solve_good. by rewrite exec_sql, Hm.
Qed.

(** *** Lookup by prefix *)
Lemma elem_with_prefix {A} (get : A -> option string) p (m : gmap sub_id A) id :
  id ∈ ids_with_prefix get p m <-> exists r, m !! id = Some r /\ get r = Some p.
Proof.
  unfold ids_with_prefix. rewrite elem_sorted_ids. split.
  - intros [r [Hr Hp]%map_filter_lookup_Some]. eauto.
  - intros (r & Hr & Hp). exists r. by apply map_filter_lookup_Some.
Qed.

Definition row_with_prefix (d : db) (p : string) (id : sub_id) : Prop :=
  (exists r, t_sub d !! id = Some r /\ sr_prefix r = Some p) \/
  (exists r, t_comp d !! id = Some r /\ cr_prefix r = Some p) \/
  (exists r, t_fail d !! id = Some r /\ fr_prefix r = Some p).
Lemma row_prefix h p id : fresh_ids h -> clocks_ok h -> row_with_prefix (after h) p id ->
  exists st, reports (after h) id st /\ not_cancelled st /\ status_prefix st = Some p.
Proof.
  intros Hf Hk Hh. pose proof (vinv_after h id Hf) as Hv. pose proof (times_after h id Hf Hk) as Ht.
  unfold reports. setoid_rewrite status_of_view. unfold status_v.
  destruct Hh as [(r & Hr & Hp)|[(r & Hr & Hp)|(r & Hr & Hp)]].
  - change (t_sub (after h) !! id) with (v_sub (view_of (after h) id)) in Hr. rewrite Hr. eexists. split; [done|]. done.
  - change (t_comp (after h) !! id) with (v_comp (view_of (after h) id)) in Hr.
    destruct (v_sub (view_of (after h) id)) eqn:Es. { destruct (vi_sub _ Hv _ Es) as (? & _). congruence. }
    rewrite Hr. eexists. split; [done|]. done.
  - change (t_fail (after h) !! id) with (v_fail (view_of (after h) id)) in Hr.
    destruct (v_sub (view_of (after h) id)) eqn:Es. { destruct (vi_sub _ Hv _ Es) as (_ & ? & _). congruence. }
    destruct (v_comp (view_of (after h) id)) eqn:Ec. { destruct (vi_comp _ Hv _ Ec) as (? & _). congruence. }
    rewrite Hr. destruct (tm_fail _ Ht _ Hr) as (c & Hc & _). rewrite Hc. eexists. split; [done|]. done.
Qed.
Lemma prefix_sound h p id : fresh_ids h -> clocks_ok h -> prefix_found (after h) p = Some id ->
  exists st, reports (after h) id st /\ not_cancelled st /\ status_prefix st = Some p.
Proof.
  intros Hf Hk. unfold prefix_found, lookup_id_by_prefix, read. rewrite exec_sql. cbn [fst].
  intros Hh. apply head_Some_elem_of in Hh. rewrite !elem_of_app, !elem_with_prefix in Hh. by apply row_prefix.
Qed.
Lemma prefix_complete d p id st : reports d id st -> not_cancelled st -> status_prefix st = Some p -> is_Some (prefix_found d p).
Proof.
  intros Hst Hn Hp. unfold prefix_found, lookup_id_by_prefix, read. rewrite exec_sql. cbn [fst].
  assert (Hin : id ∈ ids_with_prefix sr_prefix p (t_sub d) ++ ids_with_prefix cr_prefix p (t_comp d) ++ ids_with_prefix fr_prefix p (t_fail d)).
  { rewrite !elem_of_app, !elem_with_prefix. destruct st as [s|s|s c|s]; [| | |done]; simpl in Hp.
    - apply reports_in_progress in Hst as (r & Hr & ->). left. eauto.
    - apply reports_completed in Hst as (r & _ & Hr & ->). right; left. eauto.
    - apply reports_failed in Hst as (r & k & _ & _ & Hr & _ & -> & _). right; right. eauto. }
  destruct (_ ++ _); [by apply elem_of_nil in Hin|]. by eexists.
Qed.

(** *** Attributes *)
Lemma attributes h id a st : fresh_ids h -> inserted_with h id a -> reports (after h) id st ->
  status_id st = id /\ status_total st = N.of_nat (length (ia_contents a)) /\ status_prefix st = ia_prefix a /\
  status_meta st = ia_meta a /\ status_strat st = ia_strat a /\
  match st with
  | InProgress s => s_size s = ia_size a /\ s_otel s = ia_otel a
  | Failed s c => ia_contents a !! N.to_nat (sf_chunk s) = Some (kf_input c)
  | _ => True end.
Proof.
  intros Hf Ha Hst. pose proof (attrs_after h id a Hf Ha) as [H1 H2 H3 H4 _ H6]. destruct st as [s|s|s c|s].
  - apply reports_in_progress in Hst as (r & Hr & ->). destruct (H1 r Hr) as (? & ? & ? & Hz & ? & ?). cbn. rewrite Hz. done.
  - apply reports_completed in Hst as (r & _ & Hr & ->). destruct (H2 r Hr) as (? & ? & ? & ? & _). done.
  - apply reports_failed in Hst as (r & k & _ & _ & Hr & Hk & -> & ->). destruct (H3 r Hr) as (? & ? & ? & ? & _).
    cbn. repeat split; try done. by apply H6.
  - apply reports_cancelled in Hst as (r & _ & _ & _ & Hr & ->). destruct (H4 r Hr) as (? & ? & ? & ?). done.
Qed.
Lemma waiting_content h id a i c : fresh_ids h -> inserted_with h id a -> waiting (after h) (id, i) = Some c ->
  ia_contents a !! N.to_nat i = Some (c_input c).
Proof.
  intros Hf Ha. rewrite waiting_view. destruct (v_chunks _ !! i) as [r|] eqn:E; [|done]. intros [= <-].
  by apply (at_chunk _ _ (attrs_after h id a Hf Ha)).
Qed.

(** *** Completion of a waiting chunk *)
Lemma complete_waiting h id ix c out n1 n2 : fresh_ids h -> waiting (after h) (id, ix) = Some c ->
  completed_chunk (after (h ++ [quiet (OComplete (id, ix) out n1 n2)])) (id, ix) = Some (ChunkCompleted id ix out n1).
Proof.
  intros Hf (r & Hr & _)%waiting_some. rewrite after_quiet. unfold op_prog. rewrite exec_map. cbn [snd].
  rewrite complete_chunk_exec. cbn [snd]. destruct (exec_complete_ok _ _ (inv_after h Hf) id ix r out n1 n2 Hr) as [_ Hd].
  unfold completed_chunk, get_chunk_completed. rewrite exec_sql. by rewrite Hd.
Qed.

(** *** Counters *)
Lemma enumerates_sorted {A} (m : gmap sub_id A) P : (forall id, is_Some (m !! id) <-> P id) ->
  enumerates (sorted_ids m) P /\ length (sorted_ids m) = size m.
Proof.
  intros H. split; [split; [apply NoDup_sorted_ids|]|apply length_sorted_ids]. intros id. by rewrite elem_sorted_ids.
Qed.
Lemma reports_kind h id : fresh_ids h -> clocks_ok h ->
  (is_Some (t_sub (after h) !! id) <-> exists s, reports (after h) id (InProgress s)) /\
  (is_Some (t_comp (after h) !! id) <-> exists s, reports (after h) id (Completed s)) /\
  (is_Some (t_fail (after h) !! id) <-> exists s c, reports (after h) id (Failed s c)) /\
  (is_Some (t_canc (after h) !! id) <-> exists s, reports (after h) id (Cancelled s)).
Proof.
  intros Hf Hk. destruct (status_stored h id Hf Hk) as [(st & Hst & Hs)|[Hu Hs]].
  - assert (Hone : forall k, stored_as (after h) id k <-> k = kind_of st).
    { intros k. split; [intros H; by apply (one_state h id)|by intros ->]. }
    assert (Hrep : forall st', reports (after h) id st' <-> st' = st).
    { intros st'. unfold reports in *. rewrite Hst. split; [by intros [= ->]|by intros ->]. }
    split; [|split; [|split]].
    + rewrite (Hone KInProgress). setoid_rewrite Hrep. destruct st; simpl; split; try done; try (intros [? ?]; done). eauto.
    + rewrite (Hone KCompleted). setoid_rewrite Hrep. destruct st; simpl; split; try done; try (intros [? ?]; done). eauto.
    + rewrite (Hone KFailed). setoid_rewrite Hrep. destruct st; simpl; split; try done; try (intros (? & ? & ?); done). eauto.
    + rewrite (Hone KCancelled). setoid_rewrite Hrep. destruct st; simpl; split; try done; try (intros [? ?]; done). eauto.
  - unfold unknown, reports in *. rewrite Hu. pose proof (Hs KInProgress). pose proof (Hs KCompleted). pose proof (Hs KFailed). pose proof (Hs KCancelled).
    simpl in *. naive_solver.
Qed.

(** Number of rows of a two-key table, summed per first key. *)
Lemma size_rows_of {A} (m : gmap chunk_id A) id : size (rows_of m id) = length (filter (fun kv => kv.1.1 = id) (map_to_list m)).
Proof.
  rewrite <- (fmap_length (fun kv : chunk_id * A => (kv.1.2, kv.2))).
  unfold size, map_size. apply Permutation_length, NoDup_Permutation.
  - apply NoDup_map_to_list.
  - apply NoDup_fmap_2_strong; [|apply NoDup_filter, NoDup_map_to_list].
    intros [[i k] x] [[i' k'] x'] [Hi _]%elem_of_list_filter [Hi' _]%elem_of_list_filter. simpl in *. congruence.
  - intros [k x]. rewrite elem_of_map_to_list, lookup_rows_of, elem_of_list_fmap. split.
    + intros H. exists ((id, k), x). split; [done|]. apply elem_of_list_filter. split; [done|]. by apply elem_of_map_to_list.
    + intros ([[i k'] x'] & [= -> ->] & [Hi H]%elem_of_list_filter). simpl in *. subst. by apply elem_of_map_to_list in H.
Qed.
Lemma sum_cons x l : sum_N (x :: l) = x + sum_N l.
Proof. done. Qed.
Lemma sum_zero (L : list N) (f : N -> N) : (forall x, x ∈ L -> f x = 0) -> sum_N (f <$> L) = 0.
Proof.
  induction L as [|y L IH]; intros H; [done|]. rewrite ?fmap_cons, ?sum_cons. rewrite IH; [|set_solver]. rewrite (H y) by set_solver. done.
Qed.
Lemma sum_plus (L : list N) (f g : N -> N) : sum_N ((fun x => f x + g x) <$> L) = sum_N (f <$> L) + sum_N (g <$> L).
Proof. induction L as [|y L IH]; [done|]. rewrite ?fmap_cons, ?sum_cons. rewrite IH. lia. Qed.
Lemma sum_single (L : list N) y : NoDup L -> y ∈ L -> sum_N ((fun x => if decide (y = x) then 1 else 0) <$> L) = 1.
Proof.
  induction 1 as [|z L Hz HL IH]; intros Hy; [by apply elem_of_nil in Hy|]. rewrite ?fmap_cons, ?sum_cons. destruct (decide (y = z)) as [->|Hne].
  - rewrite sum_zero; [done|]. intros x Hx. destruct (decide (z = x)); [congruence|done].
  - rewrite IH; [done|set_solver].
Qed.
Lemma sum_ext (L : list N) (f g : N -> N) : (forall x, x ∈ L -> f x = g x) -> sum_N (f <$> L) = sum_N (g <$> L).
Proof.
  induction L as [|y L IH]; intros H; [done|]. rewrite ?fmap_cons, ?sum_cons. rewrite IH; [|set_solver]. rewrite (H y) by set_solver. done.
Qed.
Lemma count_split {B} (f : B -> N) (L : list N) (l : list B) : NoDup L -> (forall x, x ∈ l -> f x ∈ L) ->
  N.of_nat (length l) = sum_N ((fun id => N.of_nat (length (filter (fun x => f x = id) l))) <$> L).
Proof.
  intros HL. induction l as [|x l IH]; intros Hin.
  - rewrite sum_zero; [done|]. intros; done.
  - rewrite (sum_ext _ _ (fun id => (if decide (f x = id) then 1 else 0) + N.of_nat (length (filter (fun x => f x = id) l)))).
    + rewrite sum_plus, <- IH by set_solver. rewrite sum_single by set_solver. simpl. lia.
    + intros id _. rewrite filter_cons. destruct (decide (f x = id)); simpl; lia.
Qed.
Lemma size_sum {A} (m : gmap chunk_id A) (L : list N) : NoDup L -> (forall id i, is_Some (m !! (id, i)) -> id ∈ L) ->
  N.of_nat (size m) = sum_N ((fun id => N.of_nat (size (rows_of m id))) <$> L).
Proof.
  intros HL Hin. change (size m) with (length (map_to_list m)). rewrite (count_split (fun kv => kv.1.1) L).
  - apply sum_ext. intros id _. by rewrite size_rows_of.
  - done.
  - intros [[id i] x] Hx%elem_of_map_to_list. apply (Hin id i). by eexists.
Qed.
Lemma chunk_count h : fresh_ids h ->
  exists ss, enumerates ss (fun s => reports (after h) (s_id s) (InProgress s)) /\
  fst (exec count_chunks (after h) []) = Ok (sum_N ((fun s => s_total s - s_done s) <$> ss)).
Proof.
  intros Hf. set (d := after h).
  exists (omap (fun id => submission_of d id <$> t_sub d !! id) (sorted_ids (t_sub d))). split; [split|].
  - apply (NoDup_fmap_1 s_id).
    assert (E : s_id <$> omap (fun id => submission_of d id <$> t_sub d !! id) (sorted_ids (t_sub d)) = sorted_ids (t_sub d)).
    { assert (H : forall id, id ∈ sorted_ids (t_sub d) -> is_Some (t_sub d !! id)) by (intros id; apply elem_sorted_ids).
      revert H. generalize (sorted_ids (t_sub d)) as L. induction L as [|id L IH]; intros H; [done|].
      simpl. destruct (H id) as [r Hr]; [set_solver|]. rewrite Hr. simpl. f_equal. apply IH. set_solver. }
    rewrite E. apply NoDup_sorted_ids.
  - intros s. rewrite elem_of_list_omap. split.
    + intros (id & Hid & Hs). destruct (t_sub d !! id) as [r|] eqn:Er; [|done]. injection Hs as <-.
      apply reports_in_progress. exists r. done.
    + intros (r & Hr & Hs)%reports_in_progress. exists (s_id s). change (t_sub d !! s_id s = Some r) in Hr. split.
      * apply elem_sorted_ids. by eexists.
      * rewrite Hr. simpl. f_equal. symmetry. exact Hs.
  - unfold count_chunks, read. rewrite exec_sql. cbn [fst]. f_equal.
    pose proof (inv_after h Hf) as HI. rewrite (size_sum _ (sorted_ids (t_sub d))).
    + assert (H : forall id, id ∈ sorted_ids (t_sub d) -> is_Some (t_sub d !! id)) by (intros id; apply elem_sorted_ids).
      revert H. generalize (sorted_ids (t_sub d)) as L. induction L as [|id L IH]; intros H; [done|].
      simpl omap. rewrite fmap_cons, sum_cons. destruct (H id) as [r Hr]; [set_solver|]. rewrite Hr. cbn [fmap option_fmap option_map]. rewrite fmap_cons, sum_cons. rewrite IH by set_solver. f_equal. cbn.
      pose proof (inv_count _ _ HI _ _ Hr) as Hc. unfold d in *. lia.
    + apply NoDup_sorted_ids.
    + intros id i [c Hc]. apply elem_sorted_ids. destruct (inv_chunk _ _ HI _ _ _ Hc) as (s & Hs & _). by eexists.
Qed.

(** *** Remaining lemmas quoted by PropQueue.v *)
Lemma accepted_stays_known h e h' id p l m st z ot n r :
  fresh_ids (h ++ [e] ++ h') -> clocks_ok (h ++ [e] ++ h') ->
  e_op e = OInsert id p l m st z ot n -> answer_of (after h) e = Some (AInsert (Ok r)) ->
  no_cleanup h' -> r = id /\ exists s, reports (after (h ++ [e] ++ h')) id s.
Proof.
  intros Hf Hk Eo Ha Hn. rewrite app_assoc in *. pose proof (fresh_prefix _ _ Hf) as Hf1.
  destruct (accepted_known h e id p l m st z ot n Hf1 Eo ltac:(by eexists)) as [Ha' Hu]. split; [congruence|].
  pose proof (known_forever _ _ id Hf Hn Hu) as Hkn.
  destruct (status_stored _ id Hf Hk) as [(s & Hs & _)|[H _]]; [by eexists|done].
Qed.
Lemma duplicate_completion h cid out n1 n2 fs k :
  fresh_ids h -> (1 <= acks h cid)%nat ->
  after (h ++ [Event (OComplete cid out n1 n2) fs k]) = after h /\ acks h cid = 1%nat.
Proof.
  intros Hf Ha. destruct cid as [id i]. pose proof (ghost_after h id Hf) as Hg. split.
  - rewrite after_snoc. apply complete_not_waiting. rewrite waiting_view.
    destruct (v_chunks _ !! i) as [c|] eqn:E; [|done]. pose proof (g_wait _ _ Hg _ _ E) as H0. simpl in H0. lia.
  - pose proof (g_one _ _ Hg i) as H1. simpl in H1. lia.
Qed.
Lemma cancel_never_panics d fs max i ot n1 n2 id : fst (exec (handle max i ot n1 n2 (PCancel id)) d fs) <> HttpPanic.
Proof.
  simpl handle. rewrite exec_map. cbn [fst]. pose proof (cancel_never_panics d fs id n1 n2) as H.
  destruct (fst (exec (cancel_submission id n1 n2) d fs)) as [|[]|]; done.
Qed.
Lemma isolation_lookups h e id :
  fresh_ids (h ++ [e]) -> about (e_op e) <> Some id -> ~ is_cleanup e ->
  same_for_clients id (after h) (after (h ++ [e])) /\
  (forall m, carries (after h) m id <-> carries (after (h ++ [e])) m id).
Proof.
  intros Hf Ha Hn. pose proof (isolation h e id Hf Ha Hn) as H. split; [done|].
  intros m. unfold carries, reports. destruct H as (E & _). by rewrite E.
Qed.
Lemma ids_with_prefix_ext {A} (get : A -> option string) p (m m' : gmap sub_id A) :
  (forall id, m !! id = m' !! id \/
     (forall r, m !! id = Some r -> get r <> Some p) /\ (forall r, m' !! id = Some r -> get r <> Some p)) ->
  ids_with_prefix get p m = ids_with_prefix get p m'.
Proof.
  intros H. unfold ids_with_prefix. f_equal. apply map_eq. intros id. rewrite !map_filter_lookup.
  destruct (H id) as [-> | [H1 H2]]; [done|].
  destruct (m !! id) as [r|]; simpl; [rewrite option_guard_False by (simpl; by apply H1)|];
    (destruct (m' !! id) as [r'|]; simpl; [rewrite option_guard_False by (simpl; by apply H2)|]); done.
Qed.
Lemma isolation_prefix h e p :
  fresh_ids (h ++ [e]) -> clocks_ok (h ++ [e]) -> ~ is_cleanup e ->
  (forall id st, about (e_op e) = Some id -> reports (after h) id st \/ reports (after (h ++ [e])) id st ->
     status_prefix st <> Some p) ->
  prefix_found (after (h ++ [e])) p = prefix_found (after h) p.
Proof.
  intros Hf Hk Hn Hp. pose proof (fresh_prefix _ _ Hf) as Hf0.
  assert (Hk0 : clocks_ok h) by (by apply Forall_app in Hk as [? _]).
  assert (Ho : forall id, view_of (after (h ++ [e])) id = view_of (after h) id \/
     ~ row_with_prefix (after (h ++ [e])) p id /\ ~ row_with_prefix (after h) p id).
  { intros id. destruct (decide (about (e_op e) = Some id)) as [E|E]; [|left; by apply view_other].
    right. split; intros Hr.
    - destruct (row_prefix _ p id Hf Hk Hr) as (st & Hs & _ & Ep). exact (Hp id st E (or_intror Hs) Ep).
    - destruct (row_prefix _ p id Hf0 Hk0 Hr) as (st & Hs & _ & Ep). exact (Hp id st E (or_introl Hs) Ep). }
  unfold prefix_found, lookup_id_by_prefix, read. rewrite !exec_sql. cbn [fst].
  f_equal; f_equal; [|f_equal]; apply ids_with_prefix_ext; intros id;
    (destruct (Ho id) as [E|[H1 H2]]; [left|right; split; intros r Hr Er; [apply H1|apply H2]; unfold row_with_prefix; eauto]).
  - change (v_sub (view_of (after (h ++ [e])) id) = v_sub (view_of (after h) id)). by rewrite E.
  - change (v_comp (view_of (after (h ++ [e])) id) = v_comp (view_of (after h) id)). by rewrite E.
  - change (v_fail (view_of (after (h ++ [e])) id) = v_fail (view_of (after h) id)). by rewrite E.
Qed.
Lemma insert_refused h e id p l m st z ot n a :
  fresh_ids (h ++ [e]) -> e_op e = OInsert id p l m st z ot n -> 0 < N.of_nat (length l) ->
  answer_of (after h) e = Some (AInsert a) -> (is_ok a = false <-> after (h ++ [e]) = after h).
Proof.
  intros Hf Eo Hl Ha. destruct a as [r|er|].
  - split; [done|]. intros E. destruct (accepted_known h e id p l m st z ot n Hf Eo ltac:(by eexists)) as [_ Hk].
    exfalso. apply Hk. rewrite E. pose proof (fresh_ids_app _ _ Hf) as [Hf0 He]. apply unknown_view. rewrite view_fresh; [done|done|].
    apply He. by rewrite Eo.
  - split; [intros _|done]. rewrite after_snoc. unfold answer_of, step, finished in *. destruct (e_crash e); [done|].
    rewrite Eo in *. simpl in *. rewrite exec_map in *. simpl in *. injection Ha as Ha. revert Ha.
    unfold insert_submission_from_chunks. destruct l as [|x l]; [simpl in Hl; lia|].
    simpl length. replace (N.of_nat (S (length l)) =? 0) with false by (symmetry; apply N.eqb_neq; lia).
    unfold exec, tryb. rewrite run_bind. unfold insert_submission.
    match goal with |- context[transaction ?b] => set (body := b); assert (Hb : good body) by (subst body; solve_good);
      pose proof (tx_err body (after h) (e_faults e) Hb) as Ht end.
    unfold exec in Ht. destruct (run (transaction body) _ _) as [[[r0|e0|] c0] fs0]; simpl in *; [done|..]; intros; auto.
  - split; [intros _|done]. exfalso. unfold answer_of, finished in *. destruct (e_crash e); [done|].
    rewrite Eo in *. simpl in *. rewrite exec_map in *. simpl in *. injection Ha as Ha.
    pose proof (good_insert_from_chunks id p l m st z ot n) as [_ _ Hs]. specialize (Hs (conn_of (after h)) (e_faults e)).
    pose proof (fresh_ids_app _ _ Hf) as [Hf0 He]. destruct (inv_insertable _ _ id (inv_after h Hf0) ltac:(apply He; by rewrite Eo)) as [Hi Hc].
    pose proof (exec_insert_from_chunks id p l m st z ot n (after h) Hi Hc) as E. unfold exec in *.
    destruct (run _ _ (e_faults e)) as [[r1 c1] ?], (run _ _ []) as [[r2 c2] ?]. simpl in *. injection E as -> _.
    destruct Hs as [->|[= -> _]]; done.
Qed.
Lemma empty_stuck_witness : exists e id, (exists p m st z ot n, e_op e = OInsert id p [] m st z ot n) /\
  forall h', fresh_ids ([e] ++ h') -> Forall (fun e' => forall n1 n2, e_op e' <> OCancel id n1 n2) h' ->
  exists s, reports (after ([e] ++ h')) id (InProgress s) /\ s_total s = 0.
Proof.
  exists (Event (OInsert 1 None [] None ∅ 1 "" 1) [] (Some 3%nat)), 1. split; [by repeat eexists|].
  intros h' Hf Hn. set (e := Event _ _ _) in *.
  assert (H : match status_of (after [e]) 1 with Ok (Some (InProgress s)) => s_total s =? 0 | _ => false end = true) by (by vm_compute).
  destruct (status_of (after [e]) 1) as [[[s| | |]|]| |] eqn:E; try done. apply N.eqb_eq in H.
  exists s. split; [|done]. by apply empty_stuck.
Qed.
Lemma reader_known hs id :
  grows hs -> (forall k, fresh_ids (hs k)) -> (forall k, clocks_ok (hs k)) ->
  ~ unknown (after (hs 0%nat)) id -> ~ unknown (after (hs 3%nat)) id ->
  exists st k, run_reader (submission_status id) (fun k => after (hs k)) 0 = Ok (Some st) /\
    (k <= 3)%nat /\ reports (after (hs k)) id st.
Proof.
  intros Hp Hf Hk H0 H3. pose proof (reader_status hs id Hp Hf Hk) as H.
  destruct (run_reader _ _ _) as [[st|]| |]; [|tauto|tauto|done]. destruct H as (k & Hk' & Hr). eauto.
Qed.
Lemma cleanup_exact h c id st :
  fresh_ids h -> clocks_ok h -> reports (after h) id st ->
  let h' := h ++ [quiet (OCleanup c)] in
  match finished_at st with
  | None => reports (after h') id st /\ forall i, waiting (after h') (id, i) = waiting (after h) (id, i)
  | Some t => ((c <= t)%Z -> reports (after h') id st) /\
              ((t < c)%Z -> unknown (after h') id /\ strategic_metadata (after h') id = ∅)
  end.
Proof.
  intros Hf Hk Hst h'. destruct (finished_at st) as [t|] eqn:E.
  - by apply cleanup_terminal.
  - destruct st; try done. by apply cleanup_in_progress.
Qed.
Lemma prefix_lookup h p : fresh_ids h -> clocks_ok h ->
  (forall id, prefix_found (after h) p = Some id ->
     exists st, reports (after h) id st /\ not_cancelled st /\ status_prefix st = Some p) /\
  (forall id st, reports (after h) id st -> not_cancelled st -> status_prefix st = Some p ->
     (forall id' st', reports (after h) id' st' -> not_cancelled st' -> status_prefix st' = Some p -> id' = id) ->
     prefix_found (after h) p = Some id) /\
  (prefix_found (after h) p = None ->
     forall id st, reports (after h) id st -> not_cancelled st -> status_prefix st <> Some p).
Proof.
  intros Hf Hk. split; [intros id; by apply prefix_sound|]. split.
  - intros id st H1 H2 H3 Hu. destruct (prefix_complete _ _ _ _ H1 H2 H3) as [id' E]. rewrite E. f_equal.
    destruct (prefix_sound h p id' Hf Hk E) as (st' & ? & ? & ?). by apply (Hu id' st').
  - intros E id st H1 H2 H3. destruct (prefix_complete _ _ _ _ H1 H2 H3) as [id' E']. congruence.
Qed.
Lemma submission_counters h : fresh_ids h -> clocks_ok h ->
  exists ip cp fl,
    enumerates ip (fun id => exists s, reports (after h) id (InProgress s)) /\
    enumerates cp (fun id => exists s, reports (after h) id (Completed s)) /\
    enumerates fl (fun id => exists s c, reports (after h) id (Failed s c)) /\
    fst (exec count_submissions (after h) []) = Ok (N.of_nat (length ip)) /\
    fst (exec count_submissions_completed (after h) []) = Ok (N.of_nat (length cp)) /\
    fst (exec count_submissions_failed (after h) []) = Ok (N.of_nat (length fl)).
Proof.
  intros Hf Hk.
  destruct (enumerates_sorted (t_sub (after h)) (fun id => exists s, reports (after h) id (InProgress s))) as [H1 L1].
  { intros id. apply (reports_kind h id Hf Hk). }
  destruct (enumerates_sorted (t_comp (after h)) (fun id => exists s, reports (after h) id (Completed s))) as [H2 L2].
  { intros id. apply (reports_kind h id Hf Hk). }
  destruct (enumerates_sorted (t_fail (after h)) (fun id => exists s c, reports (after h) id (Failed s c))) as [H3 L3].
  { intros id. apply (reports_kind h id Hf Hk). }
  exists (sorted_ids (t_sub (after h))), (sorted_ids (t_comp (after h))), (sorted_ids (t_fail (after h))).
  unfold count_submissions, count_submissions_completed, count_submissions_failed, read. rewrite !exec_sql, L1, L2, L3. done.
Qed.
Lemma insert_request h max id ot n1 n2 c m s z :
  fresh_ids h -> id ∉ inserted_ids h ->
  let r := exec (handle max id ot n1 n2 (PInsert c m s z)) (after h) [] in
  fst r = Http200 (BId id) /\
  match c with
  | Direct l => snd r = after (h ++ [quiet (OInsert id None l m s (default 1%Z z) ot n1)])
  | SeeObjectStorage p k => snd r = after (h ++ [quiet (OInsert id (Some p) (replicate (N.to_nat k) None) m s (default 1%Z z) ot n1)])
  end.
Proof.
  intros Hf Hid r. unfold r. clear r. destruct (inv_insertable _ _ id (inv_after h Hf) Hid) as [Hi Hc].
  destruct c as [l|p k]; simpl handle; rewrite exec_map; cbn [fst snd]; rewrite exec_insert_from_chunks by done;
    (split; [done|]); rewrite after_quiet; unfold op_prog; rewrite exec_map, exec_insert_from_chunks by done; done.
Qed.
