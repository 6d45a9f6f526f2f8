(** C75: the SQL queries that read work, look submissions up and sum the backlog. Vocabulary:
    SqlQuery.v (what a query may yield, [yields reserved counts params file query columns rows]; the
    queries as the code builds them), SqlText.v ([t_after h]: the file after the history [h]),
    Strategy.v ([offers]: what a strategy promises), History.v. *)
From Verif Require Export SqlLookupProofs.
From Verif Require Import SubmissionDb History SqliteProofs StrategyProofs PropQueue PropDispatch.
Local Open Scope N_scope.
Local Opaque heads.

(** The rows of an answer, read into chunks (or ids), all of them. *)
Definition chunks_read (rows : list srow) : option (list chunk) := mapM (dec_chunk chunk_cols) rows.
Definition ids_read (rows : list srow) : option (list sub_id) := mapM dec_id rows.
Lemma read_chunks l : chunks_read (out_c <$> l) = Some l.
Proof. unfold chunks_read. apply mapM_Some. apply Forall2_fmap_l, Forall_Forall2_diag, Forall_forall. intros c _. apply dec_out. Qed.
Lemma read_ids l : ids_read (out_id <$> l) = Some l.
Proof. unfold ids_read. apply mapM_Some. apply Forall2_fmap_l, Forall_Forall2_diag, Forall_forall. intros c _. unfold dec_id, out_id. apply as_v_n. Qed.

(** The generated column random_order is computed with 64-bit integers: what the strategies say about
    positions holds below these bounds, which ids reach in the 22nd century (C45). *)
Definition rows_small (d : db) : Prop :=
  (forall id ix, is_Some (t_chunk d !! (id, ix)) -> id < 2 ^ 62 /\ ix < 2 ^ 61) /\ (forall id, is_Some (t_sub d !! id) -> id < 2 ^ 62).
Lemma small_fit d : rows_small d -> ids_fit d.
Proof.
  intros [H1 H2]. split.
  - intros c Hc. unfold all_chunks in Hc. apply elem_of_list_fmap in Hc as ([[id ix] r] & -> & Hc). apply elem_of_map_to_list in Hc. apply H1. by eexists.
  - intros id Hid. unfold all_subs in Hid. apply elem_of_list_fmap in Hid as ([id' r] & -> & Hid). apply elem_of_map_to_list in Hid. apply H2. by eexists.
Qed.

(** ** C75. After every history, the query that the code builds for a strategy can be prepared, and the
    lists of chunks that it may yield are exactly those that the strategy may offer. Full statement:
    for every strategy. It holds up to 63 preferences. *)
Theorem C75_strategies_partial : forall h s off rsv m, rows_small (after h) -> (preferences s <= 63)%nat ->
  let '(q, params) := build_query s off in
  let may_yield := yields (ask_reserved rsv) (ask_counts m) params (t_after h) q chunk_cols in
  (forall rows, may_yield rows -> exists l, chunks_read rows = Some l /\ offers s off (after h) m rsv l) /\
  (forall l, offers s off (after h) m rsv l -> exists rows, may_yield rows /\ chunks_read rows = Some l).
Proof.
  intros h s off rsv m Hs Hk. rewrite <- preferences_keys in Hk. destruct (build_query s off) as [q params] eqn:Eq. cbv zeta.
  pose proof (fun rows => query_offers rsv m (t_after h) (after h) (r_after h) s off rows (small_fit _ Hs) Hk) as H. rewrite Eq in H. cbn [fst snd] in H. split.
  - intros rows Hy. apply (proj1 (H rows)) in Hy as (l & Hl & ->). exists l. split; [apply read_chunks|exact Hl].
  - intros l Hl. exists (out_c <$> l). split; [refine (proj2 (H _) _); exists l; split; [exact Hl|reflexivity]|apply read_chunks].
Qed.
Print Assumptions C75_strategies_partial.
(** With more, the query joins more tables than SQLite joins, and yields nothing but an error. *)
Theorem C75_preferences_refuted : forall file s off rsv m cols rows, (63 < preferences s)%nat ->
  let '(q, params) := build_query s off in ~ yields (ask_reserved rsv) (ask_counts m) params file q cols rows.
Proof.
  intros file s off rsv m cols rows Hk. pose proof (joins_built s off) as Hj. destruct (build_query s off) as [q params]. cbn [fst] in Hj.
  intros [H _]. rewrite H in Hj. symmetry in Hj. apply Nat.leb_le in Hj. rewrite preferences_keys in Hj. lia.
Qed.
Print Assumptions C75_preferences_refuted.

(** A submission, in whatever state, that carries a prefix. *)
Definition has_prefix (d : db) (p : string) (id : sub_id) : Prop :=
  (exists r, t_sub d !! id = Some r /\ sr_prefix r = Some p) \/ (exists r, t_comp d !! id = Some r /\ cr_prefix r = Some p) \/
  (exists r, t_fail d !! id = Some r /\ fr_prefix r = Some p).
Lemma with_prefix_in {A : Set} (get : A -> option string) p (mm : gmap sub_id A) id : id ∈ ids_with_prefix get p mm <-> exists r, mm !! id = Some r /\ get r = Some p.
Proof.
  unfold ids_with_prefix, sorted_ids. rewrite merge_sort_Permutation, elem_of_list_fmap. split.
  - intros ([id' r] & -> & H). apply elem_of_map_to_list, map_filter_lookup_Some in H as [H1 H2]. by exists r.
  - intros (r & H1 & H2). exists (id, r). split; [done|]. apply elem_of_map_to_list, map_filter_lookup_Some. done.
Qed.
Lemma head_in {A} (l : list A) x : head l = Some x -> x ∈ l.
Proof. destruct l as [|y l]; [done|]. intros [= ->]. by left. Qed.
(** The lookup by prefix: its first row, if any, carries the prefix, and is of an unfinished submission
    if one carries it. No row means no submission carries it. With one submission for the prefix the
    answer is the one of SubmissionDb.v; that one is possible in any case. *)
Theorem C75_prefix : forall h p rsv m,
  let may_yield := yields (ask_reserved rsv) (ask_counts m) [VText p] (t_after h) q_by_prefix ["id"] in
  (forall rows, may_yield rows -> exists ids, ids_read rows = Some ids /\
     (forall id, head ids = Some id -> has_prefix (after h) p id) /\
     (forall id id' r, head ids = Some id -> t_sub (after h) !! id' = Some r -> sr_prefix r = Some p -> is_Some (t_sub (after h) !! id)) /\
     (head ids = None -> forall id, ~ has_prefix (after h) p id) /\
     ((forall id id', has_prefix (after h) p id -> has_prefix (after h) p id' -> id = id') -> fst (exec (lookup_id_by_prefix p) (after h) []) = Ok (head ids))) /\
  (exists rows ids, may_yield rows /\ ids_read rows = Some ids /\ fst (exec (lookup_id_by_prefix p) (after h) []) = Ok (head ids)).
Proof.
  intros h p rsv m. cbv zeta. pose proof (fun rows => query_by_prefix rsv m (t_after h) (after h) (r_after h) p rows) as H. set (d := after h) in *.
  assert (El : fst (exec (lookup_id_by_prefix p) d []) = Ok (head (ids_with_prefix sr_prefix p (t_sub d) ++ ids_with_prefix cr_prefix p (t_comp d) ++ ids_with_prefix fr_prefix p (t_fail d)))).
  { unfold lookup_id_by_prefix, read. by rewrite exec_sql. }
  assert (Hin : forall id, has_prefix d p id <-> id ∈ ids_with_prefix sr_prefix p (t_sub d) ++ ids_with_prefix cr_prefix p (t_comp d) ++ ids_with_prefix fr_prefix p (t_fail d)).
  { intros id. rewrite !elem_of_app, !with_prefix_in. done. }
  split.
  - intros rows Hy. apply (proj1 (H rows)) in Hy as (a & b & c & Ha & Hb & Hc & ->). exists (a ++ b ++ c). split; [apply read_ids|].
    assert (Hin' : forall id, has_prefix d p id <-> id ∈ a ++ b ++ c) by (intros id; by rewrite Hin, !elem_of_app, Ha, Hb, Hc). split_and!.
    + intros id Hh. apply Hin'. by apply head_in.
    + intros id id' r Hh Hr Hp. assert (Hid : id' ∈ a) by (rewrite Ha; apply with_prefix_in; by exists r). destruct a as [|x a]; [by apply elem_of_nil in Hid|].
      injection Hh as ->. assert (Hx : id ∈ ids_with_prefix sr_prefix p (t_sub d)) by (rewrite <- Ha; by left). apply with_prefix_in in Hx as (r' & Hx & _). by exists r'.
    + intros Hh id Hc'. apply Hin' in Hc'. destruct (a ++ b ++ c); [by apply elem_of_nil in Hc'|done].
    + intros Hu. rewrite El. f_equal. assert (Hp : a ++ b ++ c ≡ₚ ids_with_prefix sr_prefix p (t_sub d) ++ ids_with_prefix cr_prefix p (t_comp d) ++ ids_with_prefix fr_prefix p (t_fail d)) by (by rewrite Ha, Hb, Hc).
      destruct (head (a ++ b ++ c)) as [x|] eqn:Ex; destruct (head (_ ++ _ ++ _)) as [y|] eqn:Ey at 1.
      * f_equal. apply Hu; [apply Hin|apply Hin']; by apply head_in.
      * exfalso. apply head_in in Ex. rewrite Hp in Ex. destruct (_ ++ _ ++ _) in Ex, Ey; [by apply elem_of_nil in Ex|done].
      * exfalso. apply head_in in Ey. rewrite <- Hp in Ey. destruct (_ ++ _ ++ _) in Ex, Ey; [by apply elem_of_nil in Ey|done].
      * done.
  - eexists _, _. split; [refine (proj2 (H _) _); eexists _, _, _; split; [reflexivity|split; [reflexivity|split; [reflexivity|reflexivity]]]|]. split; [apply read_ids|exact El].
Qed.
Print Assumptions C75_prefix.

(** The lookup by metadata, with the constraints in any order (that of a hash map): up to 63 of them, it
    answers like SubmissionDb.v, of which C16 speaks. Full statement: for any number. *)
Theorem C75_metadata_partial : forall h (wanted : strat_map) constraints max rsv m, constraints ≡ₚ map_to_list wanted -> (size wanted <= 63)%nat ->
  let '(q, params) := b_by_metadata constraints (max + 1) in
  let may_yield := yields (ask_reserved rsv) (ask_counts m) params (t_after h) q ["id"] in
  (exists rows, may_yield rows) /\
  forall rows, may_yield rows -> exists ids, ids_read rows = Some ids /\
    fst (exec (lookup_ids_by_strategic_metadata wanted max) (after h) []) = Ok (if max <? N.of_nat (length ids) then inr max else inl ids).
Proof.
  intros h wanted cs max rsv m Hc Hk. assert (Hl : (length cs <= 63)%nat) by (by rewrite Hc). apply Nat.leb_le in Hk. destruct (b_by_metadata cs (max + 1)) as [q params] eqn:Eq. cbv zeta.
  pose proof (fun rows => query_by_metadata rsv m (t_after h) (after h) (r_after h) wanted cs (max + 1) rows Hc Hl) as H. rewrite Eq in H. cbn [fst snd] in H. split.
  - eexists. refine (proj2 (H _) _). reflexivity.
  - intros rows Hy. apply (proj1 (H rows)) in Hy as ->. exists (take (N.to_nat (max + 1)) (matching_ids wanted (after h))). split; [apply read_ids|].
    unfold lookup_ids_by_strategic_metadata. rewrite exec_tryb by solve_good. rewrite exec_sql, Hk. cbn [fst snd lift_sql]. by destruct (max <? _).
Qed.
Print Assumptions C75_metadata_partial.
(** With more, it fails (the producer gets an answer with status 500). *)
Theorem C75_constraints_refuted : forall file (wanted : strat_map) constraints max rsv m cols rows, constraints ≡ₚ map_to_list wanted -> (63 < size wanted)%nat ->
  let '(q, params) := b_by_metadata constraints (max + 1) in ~ yields (ask_reserved rsv) (ask_counts m) params file q cols rows.
Proof.
  intros file wanted cs max rsv m cols rows Hc Hk. pose proof (joins_by_metadata cs (max + 1)) as Hj. destruct (b_by_metadata cs (max + 1)) as [q params]. cbn [fst] in Hj.
  intros [H _]. rewrite H in Hj. symmetry in Hj. apply Nat.leb_le in Hj. assert (length cs = size wanted) by (by rewrite Hc). lia.
Qed.
Print Assumptions C75_constraints_refuted.

(** The sum of the backlog. *)
Theorem C75_backlog : forall h rsv m,
  let may_yield := yields (ask_reserved rsv) (ask_counts m) [] (t_after h) q_backlog ["count"] in
  (exists rows, may_yield rows) /\
  forall rows, may_yield rows -> exists z, rows = [[VInt z]] /\ fst (exec count_ops_in_backlog_estimate (after h) []) = Ok z.
Proof.
  intros h rsv m. cbv zeta. pose proof (fun rows => query_backlog rsv m (t_after h) (after h) (r_after h) rows) as H. split.
  - eexists. refine (proj2 (H _) _). reflexivity.
  - intros rows Hy. apply (proj1 (H rows)) in Hy as ->. eexists. split; [reflexivity|]. apply backlog_sum.
Qed.
Print Assumptions C75_backlog.

(** The file of [ex_h2] (PropDispatch.v): what the query of a nested preference yields. *)
Example C75_example : rows_small (after ex_h2) /\
  let '(q, params) := build_query (PreferDistinct "k" Random) 30000 in
  exists rows l, yields (ask_reserved ex_rsv) (ask_counts ex_m) params (t_after ex_h2) q chunk_cols rows /\
    chunks_read rows = Some l /\ ids l = [(3, 0); (3, 1); (2, 0); (1, 0); (1, 1)].
Proof.
  assert (Hs : rows_small (after ex_h2)).
  { split.
    - intros id ix [r Hr]. assert (H : map_Forall (fun k (_ : chunk_row) => k.1 < 2 ^ 62 /\ k.2 < 2 ^ 61) (t_chunk (after ex_h2))) by (apply (bool_decide_unpack _); by vm_compute). exact (H _ _ Hr).
    - intros id [r Hr]. assert (H : map_Forall (fun k (_ : sub_row) => k < 2 ^ 62) (t_sub (after ex_h2))) by (apply (bool_decide_unpack _); by vm_compute). exact (H _ _ Hr). }
  split; [exact Hs|]. pose proof (C75_strategies_partial ex_h2 (PreferDistinct "k" Random) 30000 ex_rsv ex_m Hs ltac:(cbn; lia)) as H.
  destruct (build_query _ _) as [q params]. destruct C23_example as (l & Hl & El). destruct (proj2 H l Hl) as (rows & Hy & Hr). exists rows, l. split; [exact Hy|]. split; [exact Hr|exact El].
Qed.
(** 63 preferences are not too many, 64 are. *)
Example C75_example_limit :
  let s := Nat.iter 63 (PreferDistinct "k") Oldest in
  preferences s = 63%nat /\ q_joins (build_query s 0).1 = true /\ q_joins (build_query (PreferDistinct "k" s) 0).1 = false.
Proof. by vm_compute. Qed.
