(** C61-C64: running the server: power failures, retention, gauges. Vocabulary: History.v, Spec.v,
    Durability.v, Retention.v, Backlog.v. *)
From Verif Require Export DurabilityProofs RetentionProofs BacklogProofs.
From Verif Require Import PropQueue.
Local Open Scope N_scope.

(** ** C61. A power failure takes the database back to one point of its past, not before the last
    checkpoint ([ps2] contains only operations): everything before that point is there, nothing after
    it. *)
Theorem C61_back_to_one_point : forall ps k, exists ps1 ps2,
  ps = ps1 ++ ps2 /\ Forall is_op ps2 /\
  (pafter (ps ++ [PPower k]) = pafter ps1 \/
   exists e ps3 j, ps2 = POp e :: ps3 /\
     pafter (ps ++ [PPower k]) = step (pafter ps1) (Event (e_op e) (e_faults e) (Some j))).
Proof. exact power_prefix. Qed.
Print Assumptions C61_back_to_one_point.

(** Whatever power failures there were, the database is one that a history without any leads to, so
    that all theorems about histories hold of it. *)
Theorem C61_every_property_of_histories : forall ps, pfresh ps ->
  exists h, fresh_ids h /\ (e_op <$> h) `sublist_of` ops_of ps /\ pafter ps = after h.
Proof. exact power_history. Qed.
Print Assumptions C61_every_property_of_histories.

Theorem C61_checkpoint_kept : forall ps qs,
  exists h, (e_op <$> h) `sublist_of` ops_of qs /\ pafter (ps ++ PCheckpoint :: qs) = run_from (pafter ps) h.
Proof. exact power_checkpoint. Qed.
Print Assumptions C61_checkpoint_kept.

Theorem C61_completed_means_reported : forall ps id s, pfresh ps ->
  reports (pafter ps) id (Completed s) ->
  forall i, i < sc_total s -> exists out n1 n2, OComplete (id, i) out n1 n2 ∈ ops_of ps.
Proof. exact power_completed. Qed.
Print Assumptions C61_completed_means_reported.

Theorem C61_no_power_failure_no_loss : forall ps, no_power ps -> pafter ps = after (pevents ps).
Proof. exact (no_power_all disk_empty). Qed.
Print Assumptions C61_no_power_failure_no_loss.

(** Two submissions, a checkpoint between them; submission 1 completes, and so does 2. *)
Definition ex_power : list pevent :=
  [POp (ex_insert 1 [None]); PCheckpoint; POp (ex_insert 2 [None]); POp (quiet (OComplete (1, 0) None 2 2));
   POp (quiet (OComplete (2, 0) None 3 3))].
Definition ex_kind (d : db) (id : sub_id) : option kind :=
  match status_of d id with Ok (Some st) => Some (kind_of st) | _ => None end.
Example C61_example : pfresh ex_power /\ pfresh (ex_power ++ [PPower 20]) /\
  ex_kind (pafter ex_power) 1 = Some KCompleted /\ ex_kind (pafter ex_power) 2 = Some KCompleted /\
  ex_kind (pafter (ex_power ++ [PPower 20])) 1 = Some KCompleted /\ ex_kind (pafter (ex_power ++ [PPower 20])) 2 = Some KInProgress /\
  ex_kind (pafter (ex_power ++ [PPower 0])) 1 = Some KInProgress /\ ex_kind (pafter (ex_power ++ [PPower 0])) 2 = None /\
  no_power ex_power.
Proof. split; [apply (bool_decide_unpack _); by vm_compute|]. split; [apply (bool_decide_unpack _); by vm_compute|]. do 6 (split; [by vm_compute|]). unfold no_power, ex_power. by repeat constructor. Qed.

(** ** C62. Refuted: an answer may be given before the disk has what it is about. *)
Theorem C62_refuted : exists e id k, answer_of db_empty e = Some (AInsert (Ok id)) /\ unknown (pafter [POp e; PPower k]) id.
Proof. exists (ex_insert 1 [None]), 1, 0%nat. split; [by vm_compute|]. unfold unknown. by vm_compute. Qed.
Print Assumptions C62_refuted.
(** What was answered before a checkpoint survives. *)
Theorem C62_checkpointed_partial : forall ps qs id st, pfresh (ps ++ PCheckpoint :: qs) ->
  Forall (fun o => forall c, o <> OCleanup c) (ops_of qs) ->
  reports (pafter ps) id st -> terminal st -> reports (pafter (ps ++ PCheckpoint :: qs)) id st.
Proof. exact checkpointed_kept. Qed.
Print Assumptions C62_checkpointed_partial.
Example C62_example : let ps := ex_power in let qs := [POp (ex_insert 3 [None]); PPower 0; POp (quiet (OCancel 2 9 9))] in
  pfresh (ps ++ PCheckpoint :: qs) /\
  Forall (fun o => forall c, o <> OCleanup c) (ops_of qs) /\ ex_kind (pafter ps) 2 = Some KCompleted.
Proof.
  split; [apply (bool_decide_unpack _); by vm_compute|]. split; [|by vm_compute]. unfold ops_of. cbn. by repeat constructor.
Qed.

(** ** C63. A finished submission is kept for max_age and removed soon after. The finishing time [t]
    is the one the server reports. [h'] is what happens afterwards; its cleanups are those of the loop,
    whose rounds read the clock at [rs]. *)
Theorem C63_kept_for_max_age : forall h h' id st t max_age rs,
  fresh_ids (h ++ h') -> clocks_ok (h ++ h') -> reports (after h) id st -> finished_at st = Some t ->
  cleanups h' = round max_age <$> rs -> Forall (fun r => (r <= t + max_age)%Z) rs ->
  reports (after (h ++ h')) id st.
Proof. exact loop_keeps. Qed.
Print Assumptions C63_kept_for_max_age.

(** The first round after t + max_age comes within a minute and the time [lag] that a round may take;
    if it succeeds the submission is gone for good. *)
Theorem C63_removed_in_time : forall h h' id st t max_age start costs lag,
  fresh_ids (h ++ h') -> clocks_ok (h ++ h') -> reports (after h) id st -> finished_at st = Some t ->
  cleanups h' = round max_age <$> rounds start costs -> Forall (fun c => 0 <= c <= lag)%Z costs ->
  (start <= t + max_age + 60000 + lag)%Z -> Exists (fun r => t + max_age < r)%Z (rounds start costs) ->
  exists h1 e h2 r, h' = h1 ++ e :: h2 /\ e_op e = round max_age r /\
    (t + max_age < r <= t + max_age + 60000 + lag)%Z /\
    reports (after (h ++ h1)) id st /\
    (answer_of (after (h ++ h1)) e = Some (ACleanup (Ok tt)) -> unknown (after (h ++ h')) id).
Proof. exact loop_removes. Qed.
Print Assumptions C63_removed_in_time.
(** Submission 3 of the example was completed at time 4; max_age is 100000. *)
Example C63_example : let h' := (fun r => quiet (round 100000 r)) <$> rounds 10 [0; 5; 0]%Z in
  fresh_ids (ex_h ++ h') /\ clocks_ok (ex_h ++ h') /\
  (exists s, reports (after ex_h) 3 (Completed s) /\ finished_at (Completed s) = Some 4%Z) /\
  cleanups h' = round 100000 <$> rounds 10 [0; 5; 0]%Z /\ rounds 10 [0; 5; 0]%Z = [10; 60010; 120015; 180015]%Z /\
  unknown (after (ex_h ++ h')) 3.
Proof.
  split; [apply fresh_by; by vm_compute|]. split.
  { unfold clocks_ok. apply Forall_app. split; [apply ex_clocks|]. by repeat constructor. }
  split.
  { by_status (after ex_h) 3 (fun st => match st with Completed s => bool_decide (finished_at (Completed s) = Some 4%Z) | _ => false end) Hst. destruct Hst as ([| s | |] & Hs & E); try discriminate E. apply bool_decide_eq_true in E. eauto. }
  split; [done|]. split; [done|]. unfold unknown. by vm_compute.
Qed.

(** ** C64. The gauges for autoscaling. The two queries may see the databases after different
    histories. [size] gives the chunk size of each submission in progress. *)
Theorem C64_gauges : forall hs size0 size1,
  (forall k, fresh_ids (hs k)) ->
  (forall id s, reports (after (hs 0%nat)) id (InProgress s) -> size0 id = s_size s) ->
  (forall id s, reports (after (hs 1%nat)) id (InProgress s) -> size1 id = s_size s) ->
  exists ws0 ws1,
    enumerates ws0 (fun cid => is_Some (waiting (after (hs 0%nat)) cid)) /\
    enumerates ws1 (fun cid => is_Some (waiting (after (hs 1%nat)) cid)) /\
    run_reader scaling_metrics (fun k => after (hs k)) 0 =
      Ok (N.of_nat (length ws0), sum_Z ((fun cid => size1 cid.1) <$> ws1)).
Proof. exact scaling. Qed.
Print Assumptions C64_gauges.

(** The number of operations is over-estimated by less than one chunk per submission: [len] is the
    number of operations of each chunk, only last chunks are not full. *)
Theorem C64_estimate_error : forall h (len : chunk_id -> Z) ws, fresh_ids h ->
  enumerates ws (fun cid => is_Some (waiting (after h) cid)) ->
  (forall id s, reports (after h) id (InProgress s) -> (1 <= s_size s)%Z) ->
  (forall id s i, reports (after h) id (InProgress s) -> i < s_total s ->
     (1 <= len (id, i) <= s_size s)%Z /\ (i + 1 < s_total s -> len (id, i) = s_size s)) ->
  exists ss z, enumerates ss (fun s => reports (after h) (s_id s) (InProgress s)) /\
    fst (exec count_ops_in_backlog_estimate (after h) []) = Ok z /\
    (sum_Z (len <$> ws) <= z <= sum_Z (len <$> ws) + sum_Z ((fun s => s_size s - 1)%Z <$> ss))%Z.
Proof. exact estimate_off. Qed.
Print Assumptions C64_estimate_error.
(** Submission 1 has three chunks of size 10, the last with 4 operations; one is completed. *)
Example C64_example : let h := [ex_insert 1 [None; None; None]; quiet (OComplete (1, 0) None 2 2)] in
  let len := fun cid : chunk_id => if bool_decide (cid = (1, 2)) then 4%Z else 10%Z in
  fresh_ids h /\ enumerates [(1, 1); (1, 2)] (fun cid => is_Some (waiting (after h) cid)) /\
  (forall id s, reports (after h) id (InProgress s) -> (1 <= s_size s)%Z) /\
  (forall id s i, reports (after h) id (InProgress s) -> i < s_total s ->
     (1 <= len (id, i) <= s_size s)%Z /\ (i + 1 < s_total s -> len (id, i) = s_size s)) /\
  fst (exec scaling_metrics (after h) []) = Ok (2, 20%Z).
Proof.
  intros h len. assert (Hf : fresh_ids h) by (apply fresh_by; by vm_compute).
  assert (Hr : forall id s, reports (after h) id (InProgress s) -> id = 1 /\ s_size s = 10%Z /\ s_total s = 3).
  { intros id s Hs. assert (id ∈ inserted_ids h) as Hid by (by eapply reports_inserted).
    assert (E : inserted_ids h = [1]) by (by vm_compute). rewrite E in Hid. apply elem_of_list_singleton in Hid as ->. split; [done|].
    assert (H : match status_of (after h) 1 with Ok (Some (InProgress s)) => bool_decide (s_size s = 10%Z /\ s_total s = 3) | _ => false end = true) by (by vm_compute).
    unfold reports in Hs. rewrite Hs in H. by apply bool_decide_eq_true in H. }
  split; [done|]. split; [|split; [|split]].
  - destruct (enumerates_waiting (after h)) as [H1 H2].
    assert (E : bool_decide ((map_to_list (t_chunk (after h))).*1 = [(1, 1); (1, 2)] \/ (map_to_list (t_chunk (after h))).*1 = [(1, 2); (1, 1)]) = true) by (by vm_compute).
    apply bool_decide_eq_true in E. split; [apply (bool_decide_unpack _); by vm_compute|]. intros cid. rewrite <- H2. destruct E as [->| ->]; set_solver.
  - intros id s Hs. destruct (Hr id s Hs) as (_ & -> & _). lia.
  - intros id s i Hs Hi. destruct (Hr id s Hs) as (-> & -> & Et). rewrite Et in *. unfold len. split.
    + case_bool_decide; lia.
    + intros Hi'. rewrite bool_decide_eq_false_2; [done|]. intros [= ->]. lia.
  - by vm_compute.
Qed.
