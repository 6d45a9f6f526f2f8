(** C66, C67: the SQL statements and the migrations. Vocabulary: SqlLang.v (what SQL statements
    mean), SqlText.v (the functions with the text of their statements: names [t_...]; [stands_for D d]:
    the rows in the tables of the file [D] are those of the database [d]), Migrations.v (the scripts),
    Upgrade.v ([stood_for k D d]: the same for a file to which only the first [k] scripts were
    applied), History.v. *)
From Verif Require Export UpgradeExamples.
From Verif Require Import SqliteProofs DbProofs Strategy SqlQueryProofs PropQueue.
Local Open Scope N_scope.

(** ** C66. The statements, executed on the tables that the migrations make, do what ChunkDb.v and
    SubmissionDb.v say, in every history, with faults and crashes: the same answers, the same rows. *)
Theorem C66_statements : forall h,
  stands_for (t_after h) (after h) /\
  (forall e, t_answer_of (t_after h) e = answer_of (after h) e) /\
  (forall e, stands_for (t_step (t_after h) e) (step (after h) e)).
Proof. intros h. split; [apply r_after|]. split; intros e; by apply r_step, r_after. Qed.
Print Assumptions C66_statements.

(** The queries, too. *)
Definition t_read {A} (q : T A) (D : sdb) : res A := fst (texec q D []).
Theorem C66_queries : forall h id cid,
  t_read (t_submission_status id) (t_after h) = status_of (after h) id /\
  t_read (t_get_submission id) (t_after h) = fst (exec (get_submission id) (after h) []) /\
  t_read (t_get_chunk cid) (t_after h) = fst (exec (get_chunk cid) (after h) []) /\
  t_read (t_get_chunk_completed cid) (t_after h) = fst (exec (get_chunk_completed cid) (after h) []) /\
  t_read (t_get_chunk_failed cid) (t_after h) = fst (exec (get_chunk_failed cid) (after h) []) /\
  t_read (t_get_submission_strategic_metadata id) (t_after h) = Ok (strat_of (after h) id) /\
  t_read (t_count "submissions") (t_after h) = fst (exec count_submissions (after h) []) /\
  t_read (t_count "submissions_completed") (t_after h) = fst (exec count_submissions_completed (after h) []) /\
  t_read (t_count "submissions_failed") (t_after h) = fst (exec count_submissions_failed (after h) []) /\
  t_read (t_count "chunks") (t_after h) = fst (exec count_chunks (after h) []) /\
  t_read (t_count "chunks_completed") (t_after h) = fst (exec count_chunks_completed (after h) []) /\
  t_read (t_count "chunks_failed") (t_after h) = fst (exec count_chunks_failed (after h) []).
Proof.
  intros h id cid. assert (H : forall A (p : M A) q, sims eq p q -> t_read q (t_after h) = fst (exec p (after h) [])).
  { intros A p q Hpq. symmetry. exact (proj1 (sims_exec p q _ _ [] Hpq (r_after h))). }
  split_and!.
  - apply H, r_submission_status.
  - apply H, r_get_submission.
  - apply H, r_get_chunk.
  - apply H, r_get_chunk_completed.
  - apply H, r_get_chunk_failed.
  - exact (H _ _ _ (r_strategic_metadata id)).
  - exact (H _ _ _ (stmt_count tb_sub)).
  - exact (H _ _ _ (stmt_count tb_comp)).
  - exact (H _ _ _ (stmt_count tb_fail)).
  - exact (H _ _ _ (stmt_count tb_chunk)).
  - exact (H _ _ _ (stmt_count tb_cdone)).
  - exact (H _ _ _ (stmt_count tb_cfail)).
Qed.
Print Assumptions C66_queries.

(** Unless the database itself fails, no statement is refused because of a table or column that does
    not exist or a NULL where none is allowed, and no row that comes back is one that cannot be
    decoded. (The answer to a completed chunk hides the result of its transaction, hence the second
    clause.) *)
Theorem C66_never_refused : forall h,
  (forall e a, e_faults e = [] -> t_answer_of (t_after h) e = Some a ->
    match a with
    | AInsert r => r <> Err (EDb OtherSqlError) | AComplete r => r <> Err (EDb OtherSqlError) | AFail r => r <> Err (EDb OtherSqlError)
    | ACancel r => r <> Err (EDb OtherSqlError) | AFailSubmission r => r <> Err (EDb OtherSqlError) | ACleanup r => r <> Err (EDb OtherSqlError)
    end) /\
  (forall cid out n1 n2, t_read (t_complete_chunk_tx cid out n1 n2) (t_after h) <> Err (EDb OtherSqlError)) /\
  (forall id, t_read (t_submission_status id) (t_after h) <> Err (EDb OtherSqlError)).
Proof.
  intros h. split_and!.
  - intros e a He Ha. rewrite (proj2 (r_step _ _ e (r_after h))) in Ha. unfold answer_of, finished in Ha. rewrite He in Ha.
    destruct (e_crash e); [done|]. injection Ha as <-. apply answers_calm.
  - intros cid out n1 n2. unfold t_read. rewrite <- (proj1 (sims_exec _ _ _ _ [] (r_complete_chunk_tx cid out n1 n2) (r_after h))). apply calm_complete_tx.
  - intros id. unfold t_read. rewrite <- (proj1 (sims_exec _ _ _ _ [] (r_submission_status id) (r_after h))). apply calm_status.
Qed.
Print Assumptions C66_never_refused.

(** A file stands for one database at most: no two databases look the same in the file. *)
Lemma perm_maps {K : Type} `{Countable K} {A : Type} (enc : K * A -> srow) (m m' : gmap K A) :
  (forall x y, enc x = enc y -> x = y) -> enc <$> map_to_list m ≡ₚ enc <$> map_to_list m' -> m = m'.
Proof.
  intros Hi Hp. assert (Hx : forall k a, m !! k = Some a <-> m' !! k = Some a).
  { intros k a. rewrite <- !elem_of_map_to_list. assert (E : forall n : gmap K A, (k, a) ∈ map_to_list n <-> enc (k, a) ∈ enc <$> map_to_list n).
    { intros n. rewrite elem_of_list_fmap. split; [intros; by exists (k, a)|]. intros (y & Hy & Hin). by apply Hi in Hy as ->. }
    by rewrite !E, Hp. }
  apply map_eq. intros k. apply option_eq. apply Hx.
Qed.
Lemma v_n_inj a b : v_n a = v_n b -> a = b. Proof. intros [= E]. lia. Qed.
Lemma v_text_inj a b : v_text a = v_text b -> a = b. Proof. destruct a, b; cbn; congruence. Qed.
Lemma v_blob_inj a b : v_blob a = v_blob b -> a = b. Proof. destruct a, b; cbn; congruence. Qed.
Lemma v_int_inj a b : v_int a = v_int b -> a = b. Proof. destruct a, b; cbn; congruence. Qed.
Lemma v_optn_inj a b : v_optn a = v_optn b -> a = b. Proof. destruct a, b; cbn; intros E; [f_equal; by apply v_n_inj|discriminate..|done]. Qed.
Lemma v_bool_inj a b : v_bool a = v_bool b -> a = b. Proof. destruct a, b; cbn; intros E; by simplify_eq. Qed.
Ltac enc_inj := repeat match goal with
  | H : Z.of_N _ = Z.of_N _ |- _ => apply N2Z.inj in H
  | H : v_n _ = v_n _ |- _ => apply v_n_inj in H | H : v_text _ = v_text _ |- _ => apply v_text_inj in H
  | H : v_blob _ = v_blob _ |- _ => apply v_blob_inj in H | H : v_int _ = v_int _ |- _ => apply v_int_inj in H
  | H : v_optn _ = v_optn _ |- _ => apply v_optn_inj in H | H : v_bool _ = v_bool _ |- _ => apply v_bool_inj in H
  | H : (if ?b then 1%Z else 0%Z) = (if ?c then 1%Z else 0%Z) |- _ => assert (b = c) by (destruct b, c; done); clear H end; by subst.
Theorem C66_file_determines_database : forall D d d', stands_for D d -> stands_for D d' -> d = d'.
Proof.
  intros D [] [] [_ H1 H2 H3 H4 H5 H6 H7 H8] [_ G1 G2 G3 G4 G5 G6 G7 G8]. cbn [Types.t_sub Types.t_comp Types.t_fail Types.t_canc Types.t_meta Types.t_chunk Types.t_cdone Types.t_cfail] in *. f_equal.
  - apply (perm_maps enc_sub); [|by rewrite <- H1]. intros [? []] [? []]; cbn -[v_n v_text v_blob v_int v_optn v_bool]; intros E; injection E; clear E; intros; enc_inj.
  - apply (perm_maps enc_comp); [|by rewrite <- H2]. intros [? []] [? []]; cbn -[v_n v_text v_blob v_int v_optn v_bool]; intros E; injection E; clear E; intros; enc_inj.
  - apply (perm_maps enc_fail); [|by rewrite <- H3]. intros [? []] [? []]; cbn -[v_n v_text v_blob v_int v_optn v_bool]; intros E; injection E; clear E; intros; enc_inj.
  - apply (perm_maps enc_canc); [|by rewrite <- H4]. intros [? []] [? []]; cbn -[v_n v_text v_blob v_int v_optn v_bool]; intros E; injection E; clear E; intros; enc_inj.
  - apply (perm_maps enc_meta); [|by rewrite <- H5]. intros x y; apply enc_meta_inj.
  - apply (perm_maps enc_chunk); [|by rewrite <- H6]. intros [[] []] [[] []]; cbn -[v_n v_text v_blob v_int v_optn v_bool]; intros E; injection E; clear E; intros; enc_inj.
  - apply (perm_maps enc_cdone); [|by rewrite <- H7]. intros [[] []] [[] []]; cbn -[v_n v_text v_blob v_int v_optn v_bool]; intros E; injection E; clear E; intros; enc_inj.
  - apply (perm_maps enc_cfail); [|by rewrite <- H8]. intros [[] []] [[] []]; cbn -[v_n v_text v_blob v_int v_optn v_bool]; intros E; injection E; clear E; intros; enc_inj.
Qed.
Print Assumptions C66_file_determines_database.

(** The generated columns hold the numbers by which Strategy.v orders (for ids below 2^62: those of
    the next hundred years; see C45). *)
Theorem C66_random_order : forall id ix r s, id < 2 ^ 62 -> ix < 2 ^ 61 ->
  cell h_chunks (enc_chunk (id, ix, r)) "random_order" = Some (v_n (chunk_random_order id ix)) /\
  cell h_submissions (enc_sub (id, s)) "random_order" = Some (v_n (sub_random_order id)).
Proof. exact random_cells. Qed.
Print Assumptions C66_random_order.

(** The history of PropQueue.v, in SQL: the rows that are in the file in the end. *)
Example C66_example :
  rows_in (t_after ex_h) "submissions" = [[VInt 1; VText "p"; VInt 3; VInt 1; VBlob "m"; VText "o"; VInt 10]] /\
  rows_in (t_after ex_h) "chunks" = [[VInt 1; VInt 2; VBlob "b"; VInt 0]; [VInt 1; VInt 1; VNull; VInt 1]] /\
  rows_in (t_after ex_h) "chunks_failed" = [[VInt 4; VInt 1; VNull; VText ""; VTime 6; VInt 1];
    [VInt 4; VInt 0; VBlob "z"; VText "boom"; VTime 5; VInt 0]; [VInt 2; VInt 0; VNull; VText ""; VTime 3; VInt 1]] /\
  rows_in (t_after ex_h) "submissions_failed" = [[VInt 4; VText "p"; VInt 2; VBlob "m"; VInt 0; VTime 5; VText "{}"; VNull; VInt 0]] /\
  cell h_chunks (enc_chunk (1, 2, ChunkRow None 0)) "random_order" = Some (VInt 55973).
Proof. split_and!; apply (bool_decide_unpack _); vm_cast_no_check I. Qed.

(** ** C67. A file of any earlier version is brought to the present one without an error, whatever is
    in it, and then stands for the same database: every submission and chunk has the status it had.
    What follows is what would follow had the database been made by this version. *)
Theorem C67_upgrade : forall k D d, (k <= 13)%nat -> stood_for k D d ->
  exists D', migrate k D = Some D' /\ stands_for D' d /\
    (forall id, t_read (t_submission_status id) D' = status_of d id) /\
    (forall h, stands_for (fold_left t_step h D') (run_from d h)).
Proof.
  intros k D d Hk HD. destruct (upgrade k D d Hk HD) as (D' & E & H). exists D'. split_and!; [exact E|exact H| |].
  - intros id. unfold t_read. rewrite <- (proj1 (sims_exec _ _ _ _ [] (r_submission_status id) H)). reflexivity.
  - intros h. apply r_run. exact H.
Qed.
Print Assumptions C67_upgrade.

(** If the upgrade is interrupted after [j] scripts (each script is one transaction), the file is one
    of a later version with the same content, and the next start completes the upgrade. *)
Theorem C67_interrupted : forall k j D d, (k + j <= 13)%nat -> stood_for k D d ->
  exists D1, run_all (take j (drop k migrations.*1)) D = Some D1 /\ stood_for (k + j) D1 d /\ migrate (k + j) D1 = migrate k D.
Proof.
  intros k j. revert k. induction j as [|j IH]; intros k D d Hk HD.
  - exists D. rewrite Nat.add_0_r. split_and!; [reflexivity|exact HD|reflexivity].
  - destruct (step_up k D d) as (D1 & E1 & H1); [lia|exact HD|]. destruct (IH (S k) D1 d) as (D2 & E2 & H2 & E3); [lia|exact H1|].
    exists D2. rewrite migrations_script by lia. cbn [take run_all]. rewrite E1. cbn [mbind option_bind]. replace (k + S j)%nat with (S k + j)%nat by lia.
    split_and!; [exact E2|exact H2|]. rewrite E3. unfold migrate. rewrite (migrations_script k) by lia. cbn [run_all]. rewrite E1. reflexivity.
Qed.
Print Assumptions C67_interrupted.

(** A new file: all scripts are run, and the database is empty. *)
Theorem C67_new_file : stood_for 0 sdb_empty db_empty /\ migrate 0 sdb_empty = Some sdb_new.
Proof.
  split; [|exact (proj1 sdb_new_ok)].
  assert (Hno : rows_in sdb_empty "submissions_metadata" = []) by reflexivity.
  constructor.
  - apply (bool_decide_unpack _). vm_cast_no_check I.
  - apply held_b_ok. vm_cast_no_check (eq_refl true).
  - apply held_b_ok. vm_cast_no_check (eq_refl true).
  - apply held_b_ok. vm_cast_no_check (eq_refl true).
  - apply held_b_ok. vm_cast_no_check (eq_refl true).
  - apply held_b_ok. vm_cast_no_check (eq_refl true).
  - apply held_b_ok. vm_cast_no_check (eq_refl true).
  - apply held_b_ok. vm_cast_no_check (eq_refl true).
  - rewrite Hno. intros r Hr. exfalso. exact (not_elem_of_nil _ Hr).
  - intros _. exact Hno.
  - rewrite Hno. constructor.
  - unfold pk_by_key. lia.
  - intros id key z. unfold says. rewrite Hno. cbn [Types.t_meta db_empty]. rewrite lookup_empty. split; [discriminate|]. intros [H _]. exfalso. exact (not_elem_of_nil _ H).
Qed.
Print Assumptions C67_new_file.

(** Columns that an old file did not have: a submission from before April 2025 has chunk size 1, one
    from before November 2024 the trace context "{}", and one that failed before April 2026 has no
    number of completed chunks. *)
Lemma column_since k t n : (k < n)%nat -> (n <= 13)%nat -> forall c h D d L enc (x : sub_id) r, heads !! t = Some h -> c ∈ h_cols h ->
  forallb (fun k => negb (existsb (String.eqb (co_name c)) (columns_at k t))) (seq 0 n) = true ->
  held k t D (enc <$> map_to_list (L : gmap sub_id d)) -> L !! x = Some r -> stored h (enc (x, r)) (co_name c) = Some (co_default c).
Proof.
  intros Hk Hn c h D d L enc x r Eh Hc Hno (_ & Hdef & _) Hr. assert (Hin : enc (x, r) ∈ enc <$> map_to_list L) by (apply elem_of_list_fmap_1, elem_of_map_to_list; exact Hr).
  specialize (Hdef _ Hin). unfold since_default in Hdef. rewrite Eh in Hdef. apply Hdef; [exact Hc|]. intros Hx. apply existsb_elem in Hx.
  rewrite forallb_forall in Hno. specialize (Hno k ltac:(apply in_seq; lia)). rewrite Hx in Hno. discriminate.
Qed.
Theorem C67_old_columns : forall k D d, stood_for k D d ->
  ((k < 7)%nat -> forall id s, reports d id (InProgress s) -> s_size s = 1%Z) /\
  ((k < 5)%nat -> forall id s, reports d id (InProgress s) -> s_otel s = "{}") /\
  ((k < 10)%nat -> forall id s c, reports d id (Failed s c) -> sf_done s = None).
Proof.
  intros k D d HD.
  assert (Hs : forall id s, reports d id (InProgress s) -> exists r, Types.t_sub d !! id = Some r /\ s = submission_of d id r).
  { intros id s H. unfold reports, status_of in H. rewrite exec_status in H. cbn [fst] in H. destruct (Types.t_sub d !! id) as [r|].
    - injection H as <-. by exists r.
    - destruct (Types.t_comp d !! id); [discriminate|]. destruct (Types.t_fail d !! id) as [r|]; [by destruct (Types.t_cfail d !! _)|]. by destruct (Types.t_canc d !! id). }
  assert (Hf : forall id s c, reports d id (Failed s c) -> exists r, Types.t_fail d !! id = Some r /\ s = failed_of d id r).
  { intros id s c H. unfold reports, status_of in H. rewrite exec_status in H. cbn [fst] in H. destruct (Types.t_sub d !! id) as [r|]; [discriminate|].
    destruct (Types.t_comp d !! id); [discriminate|]. destruct (Types.t_fail d !! id) as [r|]; [|by destruct (Types.t_canc d !! id)].
    destruct (Types.t_cfail d !! _); [|discriminate]. injection H as <- _. by exists r. }
  split_and!.
  - intros Hk id s H. destruct (Hs id s H) as (r & Hr & ->).
    pose proof (column_since k "submissions" 7 Hk ltac:(lia) (opt "chunk_size") h_submissions D _ (Types.t_sub d) enc_sub id r heads_subs) as Hd.
    specialize (Hd ltac:(by repeat constructor) ltac:(vm_cast_no_check (eq_refl true)) (of_subs _ _ _ HD) Hr). cbn in Hd. cbn. by destruct (sr_size r).
  - intros Hk id s H. destruct (Hs id s H) as (r & Hr & ->).
    pose proof (column_since k "submissions" 5 Hk ltac:(lia) (dfl "otel_trace_carrier" (VText "{}")) h_submissions D _ (Types.t_sub d) enc_sub id r heads_subs) as Hd.
    specialize (Hd ltac:(by repeat constructor) ltac:(vm_cast_no_check (eq_refl true)) (of_subs _ _ _ HD) Hr). cbn in Hd. cbn. by injection Hd as ->.
  - intros Hk id s c H. destruct (Hf id s c H) as (r & Hr & ->).
    pose proof (column_since k "submissions_failed" 10 Hk ltac:(lia) (opt "chunks_done") h_failed D _ (Types.t_fail d) enc_fail id r heads_fails) as Hd.
    specialize (Hd ltac:(by repeat constructor) ltac:(vm_cast_no_check (eq_refl true)) (of_fails _ _ _ HD) Hr). cbn in Hd. cbn. by destruct (fr_done r).
Qed.
Print Assumptions C67_old_columns.

(** The scripts for going back: tables, columns, keys and indexes are then those of before. *)
Theorem C67_going_back : forall k up down, migrations !! k = Some (up, Some down) -> schema_run down (schema_at (S k)) = Some (schema_at k).
Proof.
  assert (H : forallb (fun k => match migrations !! k with Some (_, Some down) => bool_decide (schema_run down (schema_at (S k)) = Some (schema_at k)) | _ => true end)
    (seq 0 13) = true) by vm_cast_no_check (eq_refl true).
  intros k up down E. rewrite forallb_forall in H. assert (Hk : (k < 13)%nat) by (apply lookup_lt_Some in E; exact E).
  specialize (H k ltac:(apply in_seq; lia)). rewrite E in H. by apply bool_decide_eq_true in H.
Qed.
Print Assumptions C67_going_back.

(** A file of version 6 with a submission that has two values for one key. After the upgrade the
    larger one is left, the submission is in progress with chunk size 1 - and its waiting chunk counts
    nothing in the estimate of the backlog, since NULL is stored for that size. *)
Example C67_example :
  stood_for old_version old_file old_db /\
  (exists D', migrate old_version old_file = Some D' /\ rows_in D' "submissions_metadata" = [[VInt 7; VText "tenant"; VInt 9]] /\
     rows_in D' "submissions" = [[VInt 7; VText "p"; VInt 2; VInt 1; VNull; VText "{}"; VNull]]) /\
  (exists s, reports old_db 7 (InProgress s) /\ s_size s = 1%Z /\ s_strat s = {[ "tenant" := 9%Z ]}) /\
  fst (exec count_ops_in_backlog_estimate old_db []) = Ok 0%Z.
Proof.
  split; [exact old_stood|]. split.
  - destruct (migrate old_version old_file) as [D'|] eqn:E.
    + exists D'. split; [reflexivity|].
      assert (H : (fun D => (rows_in D "submissions_metadata", rows_in D "submissions")) <$> migrate old_version old_file =
        Some ([[VInt 7; VText "tenant"; VInt 9]], [[VInt 7; VText "p"; VInt 2; VInt 1; VNull; VText "{}"; VNull]])) by (apply (bool_decide_unpack _); vm_cast_no_check I).
      rewrite E in H. cbn [fmap option_fmap option_map] in H. injection H as H1 H2. split; [exact H1|exact H2].
    + exfalso. destruct (C67_upgrade old_version old_file old_db) as (D' & E' & _); [unfold old_version; lia|exact old_stood|]. rewrite E in E'. discriminate.
  - split; [|by vm_compute].
    destruct (reports_by old_db 7 (fun st => match st with InProgress s => bool_decide (s_size s = 1%Z /\ s_strat s = {[ "tenant" := 9%Z ]}) | _ => false end)) as ([s| | |] & Hr & Hb);
      [by vm_compute| |discriminate..].
    apply bool_decide_eq_true in Hb as [H1 H2]. by exists s.
Qed.
