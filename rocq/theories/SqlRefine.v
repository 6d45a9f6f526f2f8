(** Each function of SqlText.v against the function of ChunkDb.v or SubmissionDb.v. *)
From Verif Require Export SqlStatements.
From Verif Require Import DbProofs.
Local Open Scope string_scope.
Local Open Scope list_scope.

Ltac fits := vm_compute; reflexivity.
(** Conditions on keys. *)
Lemma by_sub_id ps n id : ps !! Nat.pred n = Some (v_n id) -> by_key tb_sub ps (EEq (col "id") (par n)) id.
Proof. intros Hp D [k r]. unfold ev, par. cbn [eval]. rewrite Hp. exact (holds_n k id). Qed.
Lemma by_sub_qid ps n id : ps !! Nat.pred n = Some (v_n id) -> by_key tb_sub ps (EEq (tcol "submissions" "id") (par n)) id.
Proof. intros Hp D [k r]. unfold ev, par. cbn [eval]. rewrite Hp. exact (holds_n k id). Qed.
Lemma by_comp_id ps n id : ps !! Nat.pred n = Some (v_n id) -> by_key tb_comp ps (EEq (col "id") (par n)) id.
Proof. intros Hp D [k r]. unfold ev, par. cbn [eval]. rewrite Hp. exact (holds_n k id). Qed.
Lemma by_fail_id ps n id : ps !! Nat.pred n = Some (v_n id) -> by_key tb_fail ps (EEq (col "id") (par n)) id.
Proof. intros Hp D [k r]. unfold ev, par. cbn [eval]. rewrite Hp. exact (holds_n k id). Qed.
Lemma by_canc_id ps n id : ps !! Nat.pred n = Some (v_n id) -> by_key tb_canc ps (EEq (col "id") (par n)) id.
Proof. intros Hp D [k r]. unfold ev, par. cbn [eval]. rewrite Hp. exact (holds_n k id). Qed.
Lemma by_chunk_id ps q i j (cid : chunk_id) : q = None \/ q = Some "chunks" -> ps !! Nat.pred i = Some (v_n cid.1) -> ps !! Nat.pred j = Some (v_n cid.2) ->
  by_key tb_chunk ps (is_chunk q i j) cid.
Proof. intros Hq Hi Hj D [[k1 k2] r]. unfold ev, is_chunk, par. cbn [eval]. rewrite Hi, Hj. destruct Hq as [-> | ->]; exact (holds_pair (k1, k2) cid). Qed.
Lemma by_cdone_id ps i j (cid : chunk_id) : ps !! Nat.pred i = Some (v_n cid.1) -> ps !! Nat.pred j = Some (v_n cid.2) ->
  by_key tb_cdone ps (is_chunk None i j) cid.
Proof. intros Hi Hj D [[k1 k2] r]. unfold ev, is_chunk, par. cbn [eval]. rewrite Hi, Hj. exact (holds_pair (k1, k2) cid). Qed.
Lemma by_cfail_id ps i j (cid : chunk_id) : ps !! Nat.pred i = Some (v_n cid.1) -> ps !! Nat.pred j = Some (v_n cid.2) ->
  by_key tb_cfail ps (is_chunk None i j) cid.
Proof. intros Hi Hj D [[k1 k2] r]. unfold ev, is_chunk, par. cbn [eval]. rewrite Hi, Hj. exact (holds_pair (k1, k2) cid). Qed.

(** *** chunk.rs *)
Lemma ins_one {K : Type} `{Countable K} {A} (k : K) (a : A) m : ins k a m = ins_many [(k, a)] m.
Proof. cbn. by destruct (ins k a m). Qed.
Lemma r_insert_chunk c : sims eq (insert_chunk c) (t_insert_chunk c).
Proof.
  refine (stmt_insert tb_chunk _ _ _ [((c_sub c, c_index c), ChunkRow (c_input c) 0)] (ins (c_sub c, c_index c) (ChunkRow (c_input c) 0)) _ _ _); [fits|done|].
  intros m. apply ins_one.
Qed.
Lemma r_complete_chunk_raw cid out now : sims eq (complete_chunk_raw cid out now) (t_complete_chunk_raw cid out now).
Proof.
  apply sims_try_eq; [|intros _; apply sims_try_eq; [|intros _]].
  - refine (stmt_insert_select tb_cdone tb_chunk _ _ _ _ (fun d => one_row cid (fun _ => ChunkCompRow out now) (t_chunk d)) _ _); [fits|].
    intros D d HD. refine (table_one_row enc_chunk enc_cdone _ _ _ cid _ _ _ _ (sf_chunks _ _ HD)).
    + match goal with |- context [ev tb_chunk ?ps] => exact (by_chunk_id ps (Some "chunks") 3 4 cid (or_intror eq_refl) eq_refl eq_refl D) end.
    + intros a. by destruct cid.
  - refine (stmt_delete_one tb_chunk _ _ _ cid _ _); [fits|]. by apply by_chunk_id; [right|..].
  - refine (stmt_update tb_sub _ _ _ _ _ _ cid.1 (fun s => SubRow (sr_prefix s) (sr_total s) (sr_done s + 1) (sr_meta s) (sr_otel s) (sr_size s)) sr_size _ _ _ _); [fits|by apply by_sub_qid| |].
    + intros D a. unfold set_cell. cbn -[Z.of_N N.add Z.add]. repeat f_equal. unfold v_n. f_equal. lia.
    + intros D a. cbn. by destruct (sr_size a).
Qed.
Lemma r_move_chunk cid failure now : sims eq (move_chunk_to_failed_chunks cid failure now) (t_move_chunk_to_failed_chunks cid failure now).
Proof.
  apply sims_try_eq; [|intros _].
  - refine (stmt_insert_select tb_cfail tb_chunk _ _ _ _ (fun d => one_row cid (fun c => ChunkFailRow (ch_input c) failure now false) (t_chunk d)) _ _); [fits|].
    intros D d HD. refine (table_one_row enc_chunk enc_cfail _ _ _ cid _ _ _ _ (sf_chunks _ _ HD)).
    + match goal with |- context [ev tb_chunk ?ps] => exact (by_chunk_id ps (Some "chunks") 3 4 cid (or_intror eq_refl) eq_refl eq_refl D) end.
    + intros a. by destruct cid.
  - refine (stmt_delete_one tb_chunk _ _ _ cid _ _); [fits|]. by apply by_chunk_id; [right|..].
Qed.
Lemma as_v_blob b : as_blob (v_blob b) = Some b. Proof. by destruct b. Qed.
Lemma as_v_text b : as_opttext (v_text b) = Some b. Proof. by destruct b. Qed.
Lemma as_v_optn b : as_optn (v_optn b) = Some b. Proof. destruct b; [|done]. cbn [v_optn as_optn]. unfold v_n. fold (v_n n). unfold as_optn. cbn [v_n]. change (VInt (Z.of_N n)) with (v_n n). by rewrite as_v_n. Qed.
Lemma as_v_size b : as_size (v_int b) = Some (size_of b). Proof. by destruct b. Qed.
Lemma r_get_chunk cid : sims eq (get_chunk cid) (t_get_chunk cid).
Proof.
  refine (stmt_select_one tb_chunk _ _ _ _ cid (fun _ c => Chunk cid.1 cid.2 (ch_input c) (ch_retries c)) _ _ _); [fits|by apply by_chunk_id; [left|..]|].
  intros D d a _ _. destruct cid as [id ix]. cbn -[as_n as_blob v_n v_blob]. by rewrite !as_v_n, as_v_blob.
Qed.
Lemma r_get_chunk_completed cid : sims eq (get_chunk_completed cid) (t_get_chunk_completed cid).
Proof.
  refine (stmt_select_one tb_cdone _ _ _ _ cid (fun _ c => ChunkCompleted cid.1 cid.2 (cc_output c) (cc_at c)) _ _ _); [fits|by apply by_cdone_id|].
  intros D d a _ _. destruct cid as [id ix]. cbn -[as_n as_blob v_n v_blob]. by rewrite !as_v_n, as_v_blob.
Qed.
Lemma r_get_chunk_failed cid : sims eq (get_chunk_failed cid) (t_get_chunk_failed cid).
Proof.
  refine (stmt_select_one tb_cfail _ _ _ _ cid (fun _ c => ChunkFailed cid.1 cid.2 (cf_input c) (cf_failure c) (cf_at c)) _ _ _); [fits|by apply by_cfail_id|].
  intros D d a _ _. destruct cid as [id ix]. cbn -[as_n as_blob v_n v_blob]. by rewrite !as_v_n, as_v_blob.
Qed.

(** VALUES (?, ?, ?), (?, ?, ?), ... *)
Lemma many_fits n : stmt_ok heads (t_insert_many_stmt n) = true.
Proof.
  unfold t_insert_many_stmt, stmt_ok. rewrite heads_chunks. apply andb_true_intro. split; [fits|]. apply forallb_forall. intros v Hv.
  apply in_map_iff in Hv as (i & <- & _). reflexivity.
Qed.
Lemma fmap_seq_lookup {A B} (f : nat -> B) (g : A -> B) (l : list A) j : (forall i c, l !! i = Some c -> f (j + i) = g c) -> f <$> seq j (length l) = g <$> l.
Proof.
  revert j. induction l as [|x l IH]; intros j Hf; [done|]. cbn [length seq fmap list_fmap]. f_equal.
  - rewrite <- (Nat.add_0_r j) at 1. by apply (Hf 0%nat x).
  - apply IH. intros i c Hi. rewrite Nat.add_succ_comm. by apply (Hf (S i) c).
Qed.
Lemma params_lookup l i c : l !! i = Some c ->
  t_chunk_params l !! (3 * i)%nat = Some (v_n (c_sub c)) /\ t_chunk_params l !! (3 * i + 1)%nat = Some (v_n (c_index c)) /\ t_chunk_params l !! (3 * i + 2)%nat = Some (v_blob (c_input c)).
Proof.
  revert i. induction l as [|x l IH]; intros [|i] Hi; try done.
  - by injection Hi as ->.
  - destruct (IH i Hi) as (H1 & H2 & H3). unfold t_chunk_params in *. cbn [fmap list_fmap concat].
    replace (3 * S i)%nat with (S (S (S (3 * i)))) by lia. by repeat split.
Qed.
Lemma r_insert_batch l : sims eq (sql (on t_chunk set_chunk (ins_many (chunk_rows l)))) (execute (t_insert_many_stmt (length l)) (t_chunk_params l)).
Proof.
  refine (stmt_insert tb_chunk _ _ _ (chunk_rows l) (ins_many (chunk_rows l)) (many_fits (length l)) _ _); [|done].
  intros D. unfold chunk_rows. rewrite <- !list_fmap_compose. apply fmap_seq_lookup. intros i c Hi. unfold compose. rewrite Nat.add_0_l.
  destruct (params_lookup l i c Hi) as (H1 & H2 & H3). cbn [fmap list_fmap]. unfold par. cbn [eval].
  replace (Nat.pred (3 * i + 1)) with (3 * i)%nat by lia. replace (Nat.pred (3 * i + 2)) with (3 * i + 1)%nat by lia. replace (Nat.pred (3 * i + 3)) with (3 * i + 2)%nat by lia.
  rewrite H1, H2, H3. reflexivity.
Qed.
Lemma r_insert_many_loop fuel : forall l, sims eq (insert_many_loop fuel l) (t_insert_many_loop fuel l).
Proof.
  induction fuel as [|fuel IH]; intros [|c l]; try (by constructor). cbn [insert_many_loop t_insert_many_loop].
  apply sims_try_eq; [apply r_insert_batch|]. intros _. apply IH.
Qed.
Lemma r_insert_many_chunks l : sims eq (insert_many_chunks l) (t_insert_many_chunks l).
Proof. apply r_insert_many_loop. Qed.

Lemma neg_decide (P : Prop) `{Decision P} : negb (bool_decide P) = bool_decide (~ P).
Proof. by rewrite bool_decide_not. Qed.
Lemma r_skip_remaining_chunks id now : sims eq (skip_remaining_chunks id now) (t_skip_remaining_chunks id now).
Proof.
  apply sims_try_eq; [|intros _].
  - refine (stmt_insert_select tb_cfail tb_chunk _ _ _ _ (fun d => (fun c => ChunkFailRow (ch_input c) "" now true) <$> of_submission id (t_chunk d)) _ _); [fits|].
    intros D d HD. refine (table_fmap enc_chunk enc_cfail _ _ _ _ _ _).
    + intros [k1 k2] a. reflexivity.
    + refine (table_filter _ _ (fun x : chunk_id * chunk_row => x.1.1 = id) _ _ _ (sf_chunks _ _ HD)). intros [[k1 k2] a]. exact (holds_n k1 id).
  - refine (stmt_delete tb_chunk _ _ (fun _ x => x.1.1 <> id) _ _); [fits|].
    intros D d [[k1 k2] a] _. change (negb (holds (v_eq (v_n k1) (v_n id))) = bool_decide (k1 <> id)). by rewrite holds_n, neg_decide.
Qed.

(** *** submission.rs *)
Lemma r_insert_submission_raw s : sims eq (insert_submission_raw s) (t_insert_submission_raw s).
Proof.
  refine (stmt_insert tb_sub _ _ _ [(s_id s, SubRow (s_prefix s) (s_total s) (s_done s) (s_meta s) (s_otel s) (Some (s_size s)))] (ins (s_id s) _) _ _ _); [fits|done|].
  intros m. apply ins_one.
Qed.
Lemma r_insert_metadata_loop id l : sims eq (insert_metadata_loop id l) (t_insert_metadata_loop id l).
Proof.
  induction l as [|[k v] l IH]; [by constructor|]. cbn [insert_metadata_loop t_insert_metadata_loop]. apply sims_try_eq; [|done].
  refine (stmt_insert tb_meta _ _ _ [((id, k), v)] (ins (id, k) v) _ _ _); [fits|done|]. intros m. apply ins_one.
Qed.
Lemma r_insert_submission s l : sims eq (insert_submission s l) (t_insert_submission s l).
Proof.
  apply sims_transaction. apply sims_try_eq; [apply r_insert_submission_raw|]. intros _.
  apply sims_try_eq; [apply r_insert_metadata_loop|]. intros _. apply r_insert_many_chunks.
Qed.
(** json_group_object. *)
Lemma omap_filter {A B} (G : A -> option B) (P : A -> Prop) `{forall x, Decision (P x)} (g : A -> B) (L : list A) :
  (forall x, P x -> G x = Some (g x)) -> (forall x, ~ P x -> G x = None) -> omap G L = g <$> filter P L.
Proof.
  intros H1 H2. induction L as [|x L IH]; [done|]. rewrite filter_cons. cbn [omap list_omap]. destruct (decide (P x)) as [HP|HP].
  - rewrite (H1 x HP). cbn [fmap list_fmap]. f_equal. exact IH.
  - rewrite (H2 x HP). exact IH.
Qed.
Lemma meta_rows (m : gmap (sub_id * string) Z) id : (fun kv : sub_id * string * Z => (kv.1.2, kv.2)) <$> filter (fun kv => kv.1.1 = id) (map_to_list m) ≡ₚ map_to_list (rows_of m id).
Proof.
  symmetry. apply NoDup_Permutation.
  - apply NoDup_map_to_list.
  - apply NoDup_fmap_2_strong; [|apply NoDup_filter, NoDup_map_to_list].
    intros [[i k] x] [[i' k'] x'] [Hi _]%elem_of_list_filter [Hi' _]%elem_of_list_filter. simpl in *. congruence.
  - intros [k x]. rewrite elem_of_map_to_list, lookup_rows_of, elem_of_list_fmap. split.
    + intros H. exists ((id, k), x). split; [done|]. apply elem_of_list_filter. split; [done|]. by apply elem_of_map_to_list.
    + intros ([[i k'] x'] & [= -> ->] & [Hi H]%elem_of_list_filter). simpl in *. subst. by apply elem_of_map_to_list in H.
Qed.
Lemma omap_perm {A B} (G : A -> option B) (l l' : list A) : l ≡ₚ l' -> omap G l ≡ₚ omap G l'.
Proof. intros H. by rewrite H. Qed.
Lemma omap_fmap {A B C} (f : A -> B) (G : B -> option C) (l : list A) : omap G (f <$> l) = omap (fun x => G (f x)) l.
Proof. induction l as [|x l IH]; [done|]. cbn. destruct (G (f x)); [f_equal|]; exact IH. Qed.
Lemma ev_strategic ps D d t sc id : t <> "submissions_metadata" -> stands_for D d -> resolve sc (Some t) "id" = v_n id ->
  as_strat (eval no_callback ps heads (rows_in D) sc (strategic t)) = Some (strat_of d id).
Proof.
  intros Ht HD Hid. unfold strategic. cbn [eval]. rewrite heads_metas. cbn [as_strat]. f_equal. symmetry. apply list_to_map_flip.
  rewrite (omap_perm _ _ _ (sf_metas _ _ HD)).
  rewrite omap_fmap, (omap_filter _ (fun kv : sub_id * string * Z => kv.1.1 = id) (fun kv => (kv.1.2, kv.2))); [symmetry; apply meta_rows| |].
  - intros [[i k] v] Hi. cbn in Hi. subst i. unfold tcol. cbn [eval].
    replace (resolve _ (Some t) "id") with (v_n id).
    + change (holds _) with (holds (v_eq (v_n id) (v_n id))). rewrite holds_n, bool_decide_eq_true_2 by done. reflexivity.
    + symmetry. cbn [resolve]. destruct (String.eqb_spec "submissions_metadata" t); [by subst|]. exact Hid.
  - intros [[i k] v] Hi. cbn in Hi. unfold tcol. cbn [eval].
    replace (resolve _ (Some t) "id") with (v_n id).
    + change (holds _) with (holds (v_eq (v_n i) (v_n id))). by rewrite holds_n, bool_decide_eq_false_2.
    + symmetry. cbn [resolve]. destruct (String.eqb_spec "submissions_metadata" t); [by subst|]. exact Hid.
Qed.
Lemma r_find_submission id : sims eq (read (R := option submission) (fun d => submission_of d id <$> t_sub d !! id)) (t_find_submission id).
Proof.
  refine (stmt_select_optional tb_sub _ _ _ _ id (fun d r => submission_of d id r) _ _ _); [fits|by apply by_sub_id|].
  intros D d a HD _. pose proof (ev_strategic [v_n id] D d "submissions" [("submissions", (h_submissions, enc_sub (id, a)))] id ltac:(discriminate) HD eq_refl) as Hj.
  change (eval no_callback [v_n id] heads (rows_in D) [("submissions", (h_submissions, enc_sub (id, a)))]) with (ev tb_sub [v_n id] D (tb_enc tb_sub (id, a))) in Hj.
  cbn [fmap list_fmap]. revert Hj. generalize (ev tb_sub [v_n id] D (tb_enc tb_sub (id, a)) (strategic "submissions")). intros j Hj.
  cbn -[as_n as_blob as_opttext as_size as_strat as_text v_n v_blob v_text v_int size_of strat_of].
  rewrite !as_v_n, as_v_text, as_v_size, as_v_blob, Hj. reflexivity.
Qed.
Lemma r_find_completed id : sims eq (read (R := option submission_completed) (fun d => completed_of d id <$> t_comp d !! id)) (t_find_completed id).
Proof.
  refine (stmt_select_optional tb_comp _ _ _ _ id (fun d r => completed_of d id r) _ _ _); [fits|by apply by_comp_id|].
  intros D d a HD _. pose proof (ev_strategic [v_n id] D d "submissions_completed" [("submissions_completed", (h_completed, enc_comp (id, a)))] id ltac:(discriminate) HD eq_refl) as Hj.
  change (eval no_callback [v_n id] heads (rows_in D) [("submissions_completed", (h_completed, enc_comp (id, a)))]) with (ev tb_comp [v_n id] D (tb_enc tb_comp (id, a))) in Hj.
  cbn [fmap list_fmap]. revert Hj. generalize (ev tb_comp [v_n id] D (tb_enc tb_comp (id, a)) (strategic "submissions_completed")). intros j Hj.
  cbn -[as_n as_blob as_opttext as_size as_strat as_text v_n v_blob v_text v_int size_of strat_of].
  rewrite !as_v_n, as_v_text, as_v_size, as_v_blob, Hj. reflexivity.
Qed.
Lemma r_find_failed id : sims eq (read (R := option submission_failed) (fun d => failed_of d id <$> t_fail d !! id)) (t_find_failed id).
Proof.
  refine (stmt_select_optional tb_fail _ _ _ _ id (fun d r => failed_of d id r) _ _ _); [fits|by apply by_fail_id|].
  intros D d a HD _. pose proof (ev_strategic [v_n id] D d "submissions_failed" [("submissions_failed", (h_failed, enc_fail (id, a)))] id ltac:(discriminate) HD eq_refl) as Hj.
  change (eval no_callback [v_n id] heads (rows_in D) [("submissions_failed", (h_failed, enc_fail (id, a)))]) with (ev tb_fail [v_n id] D (tb_enc tb_fail (id, a))) in Hj.
  cbn [fmap list_fmap]. revert Hj. generalize (ev tb_fail [v_n id] D (tb_enc tb_fail (id, a)) (strategic "submissions_failed")). intros j Hj.
  cbn -[as_n as_optn as_blob as_opttext as_size as_strat as_text v_n v_optn v_blob v_text v_int size_of strat_of].
  rewrite !as_v_n, as_v_text, as_v_optn, as_v_size, as_v_blob, Hj. reflexivity.
Qed.
Lemma r_find_cancelled id : sims eq (read (R := option submission_cancelled) (fun d => cancelled_of d id <$> t_canc d !! id)) (t_find_cancelled id).
Proof.
  refine (stmt_select_optional tb_canc _ _ _ _ id (fun d r => cancelled_of d id r) _ _ _); [fits|by apply by_canc_id|].
  intros D d a HD _. pose proof (ev_strategic [v_n id] D d "submissions_cancelled" [("submissions_cancelled", (h_cancelled, enc_canc (id, a)))] id ltac:(discriminate) HD eq_refl) as Hj.
  change (eval no_callback [v_n id] heads (rows_in D) [("submissions_cancelled", (h_cancelled, enc_canc (id, a)))]) with (ev tb_canc [v_n id] D (tb_enc tb_canc (id, a))) in Hj.
  cbn [fmap list_fmap]. revert Hj. generalize (ev tb_canc [v_n id] D (tb_enc tb_canc (id, a)) (strategic "submissions_cancelled")). intros j Hj.
  cbn -[as_n as_blob as_opttext as_size as_strat as_text v_n v_blob v_text v_int size_of strat_of].
  rewrite !as_v_n, as_v_text, as_v_blob, Hj. reflexivity.
Qed.
Lemma r_get_submission id : sims eq (get_submission id) (t_get_submission id).
Proof. apply sims_try_eq; [apply r_find_submission|]. intros [s|]; by constructor. Qed.
Lemma r_complete_submission_raw id now : sims eq (complete_submission_raw id now) (t_complete_submission_raw id now).
Proof.
  apply sims_try_eq; [|intros _].
  - refine (stmt_insert_select tb_comp tb_sub _ _ _ _ (fun d => one_row id (fun s => CompRow (sr_prefix s) (sr_total s) (sr_meta s) now "{}" None) (t_sub d)) _ _); [fits|].
    intros D d HD. refine (table_one_row enc_sub enc_comp _ _ _ id _ _ _ _ (sf_subs _ _ HD)); [|done].
    match goal with |- context [ev tb_sub ?ps] => exact (by_sub_id ps 2 id eq_refl D) end.
  - eapply sims_bind.
    + refine (stmt_delete_one tb_sub _ _ _ id _ _); [fits|]. by apply by_sub_id.
    + intros r ? <-. destruct r as [|[[]| |]|]; by constructor.
Qed.
Lemma r_maybe_complete_submission id now : sims eq (maybe_complete_submission id now) (t_maybe_complete_submission id now).
Proof.
  apply sims_transaction, sims_try_eq; [apply r_get_submission|]. intros s. destruct (s_done s =? s_total s)%N; [|by constructor].
  apply sims_try_eq; [apply r_complete_submission_raw|]. intros _. by constructor.
Qed.
Lemma r_insert_submission_from_chunks id p l m st z o n :
  sims eq (insert_submission_from_chunks id p l m st z o n) (t_insert_submission_from_chunks id p l m st z o n).
Proof.
  apply sims_try_eq; [apply r_insert_submission|]. intros _. destruct (N.of_nat (length l) =? 0)%N; [|by constructor].
  eapply sims_bind; [apply r_maybe_complete_submission|]. intros r ? <-. destruct r as [|[]|]; by constructor.
Qed.
Lemma r_complete_chunk_tx cid out n1 n2 : sims eq (complete_chunk_tx cid out n1 n2) (t_complete_chunk_tx cid out n1 n2).
Proof.
  apply sims_transaction, sims_try_eq; [apply r_complete_chunk_raw|]. intros sz.
  apply sims_try_eq; [apply r_maybe_complete_submission|]. intros _. by constructor.
Qed.
Lemma r_complete_chunk cid out n1 n2 : sims eq (complete_chunk cid out n1 n2) (t_complete_chunk cid out n1 n2).
Proof. apply (sims_bind eq); [apply r_complete_chunk_tx|intros r ? <-; by constructor]. Qed.
Lemma r_fail_submission_raw id ix now : sims eq (fail_submission_raw id ix now) (t_fail_submission_raw id ix now).
Proof.
  apply sims_try_eq; [|intros _].
  - refine (stmt_insert_select tb_fail tb_sub _ _ _ _ (fun d => one_row id (fun s => FailRow (sr_prefix s) (sr_total s) (Some (sr_done s)) (sr_meta s) now ix "{}" None) (t_sub d)) _ _); [fits|].
    intros D d HD. refine (table_one_row enc_sub enc_fail _ _ _ id _ _ _ _ (sf_subs _ _ HD)); [|done].
    match goal with |- context [ev tb_sub ?ps] => exact (by_sub_id ps 3 id eq_refl D) end.
  - refine (stmt_delete_one tb_sub _ _ _ id _ _); [fits|]. by apply by_sub_id.
Qed.
Lemma r_fail_submission_notx id ix f n1 n2 n3 : sims eq (fail_submission_notx id ix f n1 n2 n3) (t_fail_submission_notx id ix f n1 n2 n3).
Proof.
  apply sims_try_eq; [apply r_fail_submission_raw|]. intros _. apply sims_try_eq; [apply r_move_chunk|]. intros _. apply r_skip_remaining_chunks.
Qed.
Lemma r_fail_submission id ix f n1 n2 n3 : sims eq (fail_submission id ix f n1 n2 n3) (t_fail_submission id ix f n1 n2 n3).
Proof. apply sims_transaction, r_fail_submission_notx. Qed.
Lemma r_retry_or_fail_chunk cid f mx n1 n2 n3 : sims eq (retry_or_fail_chunk cid f mx n1 n2 n3) (t_retry_or_fail_chunk cid f mx n1 n2 n3).
Proof.
  apply sims_transaction, sims_try_eq.
  - refine (stmt_update tb_chunk _ _ _ _ _ _ cid (fun c => ChunkRow (ch_input c) (ch_retries c + 1)) (fun c => (ch_retries c + 1)%N) _ _ _ _); [fits|by apply by_chunk_id; [left|..]| |].
    + intros D a. destruct cid as [id ix]. unfold set_cell. cbn -[Z.of_N N.add Z.add]. repeat f_equal. unfold v_n. f_equal. lia.
    + intros D a. destruct cid as [id ix]. cbn -[as_n v_n]. apply as_v_n.
  - intros n. destruct (mx <=? n)%N; [|by constructor]. apply sims_try_eq; [apply r_fail_submission_notx|]. intros _. by constructor.
Qed.
Lemma r_submission_status id : sims eq (submission_status id) (t_submission_status id).
Proof.
  apply sims_try_eq; [apply r_find_submission|]. intros [s|]; [by constructor|].
  apply sims_try_eq; [apply r_find_completed|]. intros [s|]; [by constructor|].
  apply sims_try_eq; [apply r_find_failed|]. intros [s|].
  { apply sims_try_eq; [apply r_get_chunk_failed|]. intros c. by constructor. }
  apply sims_try_eq; [apply r_find_cancelled|]. intros [s|]; by constructor.
Qed.
Lemma r_cancel_submission_raw id now : sims eq (cancel_submission_raw id now) (t_cancel_submission_raw id now).
Proof.
  apply sims_try_eq; [|intros _].
  - refine (stmt_insert_select tb_canc tb_sub _ _ _ _ (fun d => one_row id (fun s => CancRow (sr_prefix s) (sr_total s) (sr_done s) (sr_meta s) now) (t_sub d)) _ _); [fits|].
    intros D d HD. refine (table_one_row enc_sub enc_canc _ _ _ id _ _ _ _ (sf_subs _ _ HD)); [|done].
    match goal with |- context [ev tb_sub ?ps] => exact (by_sub_id ps 2 id eq_refl D) end.
  - eapply sims_try; [done|done| |].
    + refine (stmt_delete_optional tb_sub _ _ _ id _ _); [fits|]. by apply by_sub_id.
    + intros [a|] [b|] Hab; try (by constructor).
      * discriminate (proj2 Hab eq_refl).
      * discriminate (proj1 Hab eq_refl).
Qed.
Lemma r_cancel_submission id n1 n2 : sims eq (cancel_submission id n1 n2) (t_cancel_submission id n1 n2).
Proof.
  apply sims_transaction. eapply sims_bind.
  - apply sims_try_eq; [apply r_cancel_submission_raw|]. intros _. apply r_skip_remaining_chunks.
  - intros r ? <-. destruct r as [|[]|]; try (by constructor). apply sims_try_eq; [apply r_submission_status|].
    intros [[]|]; by constructor.
Qed.
(** "DELETE FROM submissions_metadata WHERE submission_id IN (SELECT id FROM t WHERE at < ..)". *)
Lemma existsb_key {A : Set} (m : gmap sub_id A) (at_ : A -> time) cutoff k :
  existsb (fun x : sub_id * A => (at_ x.2 <? cutoff)%Z && bool_decide (k = x.1)) (map_to_list m) = older at_ cutoff (m !! k).
Proof.
  apply Bool.eq_iff_eq_true. rewrite existsb_exists. split.
  - intros ([k' a] & Hin & Hb). apply andb_prop in Hb as [H1 H2]. apply bool_decide_eq_true in H2. cbn in H1, H2. subst k'.
    apply elem_of_list_In, elem_of_map_to_list in Hin. unfold older. by rewrite Hin.
  - unfold older. destruct (m !! k) as [a|] eqn:E; [|done]. intros Hlt. exists (k, a). split; [by apply elem_of_list_In, elem_of_map_to_list|].
    cbn. by rewrite Hlt, bool_decide_eq_true_2.
Qed.
Lemma bool_negb_false (b : bool) : negb b = bool_decide (b = false).
Proof. by destruct b. Qed.
Lemma holds_truth b : holds (truth b) = b. Proof. by destruct b. Qed.
Lemma r_delete_metadata {A : Set} (tb : table sub_id A) (at_ : string) (get : A -> time) cutoff :
  stmt_ok heads (TDelete "submissions_metadata" (EIn (col "submission_id") (col "id") (tb_name tb) (ELt (col at_) (EJulian (par 1)))) []) = true ->
  (forall ps D r' x, eval no_callback ps heads (rows_in D) [(tb_name tb, (tb_head tb, tb_enc tb x)); ("submissions_metadata", (h_metadata, r'))] (col "id") = v_n x.1) ->
  (forall ps D r' x, eval no_callback ps heads (rows_in D) [(tb_name tb, (tb_head tb, tb_enc tb x)); ("submissions_metadata", (h_metadata, r'))] (col at_) = VTime (get x.2)) ->
  sims eq (sql (fun d => SOk (tt, set_meta (filter (fun p => older get cutoff (tb_get tb d !! p.1.1) = false)) d))) (t_delete_metadata (tb_name tb) at_ cutoff).
Proof.
  intros Hok Hid Hat. refine (stmt_delete tb_meta _ _ (fun d p => older get cutoff (tb_get tb d !! p.1.1) = false) Hok _).
  intros D d [[k key] v] HD. rewrite bool_negb_false. apply bool_decide_ext. cbn [fst]. rewrite <- existsb_key.
  unfold ev. cbn [eval]. rewrite (tb_heads tb). rewrite holds_truth. erewrite (table_existsb (tb_enc tb)); [done| |exact (tb_rows tb _ _ HD)].
  intros x. rewrite (Hat _ _ _ x), (Hid _ _ _ x). f_equal; [exact (holds_truth (get x.2 <? cutoff)%Z)|]. exact (holds_n k x.1).
Qed.
Lemma r_delete_old {K : Type} `{Countable K} {A : Set} (tb : table K A) (at_ : string) (get : A -> time) cutoff :
  stmt_ok heads (TDelete (tb_name tb) (ELt (col at_) (EJulian (par 1))) []) = true ->
  (forall ps D x, ev tb ps D (tb_enc tb x) (col at_) = VTime (get x.2)) ->
  sims eq (sql (fun d => SOk (tt, tb_put tb (filter (fun p => (get p.2 <? cutoff)%Z = false) (tb_get tb d)) d))) (t_delete_old (tb_name tb) at_ cutoff).
Proof.
  intros Hok Hat. refine (stmt_delete tb _ _ (fun d p => (get p.2 <? cutoff)%Z = false) Hok _).
  intros D d x HD. rewrite bool_negb_false. apply bool_decide_ext. pose proof (Hat [VTime cutoff] D x) as E. unfold ev in *. cbn [eval] in *.
  change (resolve _ None at_) with (eval no_callback [VTime cutoff] heads (rows_in D) [(tb_name tb, (tb_head tb, tb_enc tb x))] (col at_)). rewrite E.
  by rewrite <- (holds_truth (get x.2 <? cutoff)%Z).
Qed.
Lemma r_cleanup_old cutoff : sims eq (cleanup_old cutoff) (t_cleanup_old cutoff).
Proof.
  apply sims_transaction.
  apply sims_try_eq; [|intros _; apply sims_try_eq; [|intros _; apply sims_try_eq; [|intros _; apply sims_try_eq; [|intros _; apply sims_try_eq; [|intros _; apply sims_try_eq; [|intros _; apply sims_try_eq; [|intros _]]]]]]].
  - refine (r_delete_metadata tb_comp "completed_at" cr_at cutoff _ _ _); [fits|by intros ? ? ? []..].
  - refine (r_delete_metadata tb_fail "failed_at" fr_at cutoff _ _ _); [fits|by intros ? ? ? []..].
  - refine (r_delete_metadata tb_canc "cancelled_at" xr_at cutoff _ _ _); [fits|by intros ? ? ? []..].
  - refine (r_delete_old tb_comp "completed_at" cr_at cutoff _ _); [fits|by intros ? ? []].
  - refine (r_delete_old tb_fail "failed_at" fr_at cutoff _ _); [fits|by intros ? ? []].
  - refine (r_delete_old tb_canc "cancelled_at" xr_at cutoff _ _); [fits|by intros ? ? []].
  - refine (r_delete_old tb_cdone "completed_at" cc_at cutoff _ _); [fits|by intros ? ? [[]]].
  - refine (r_delete_old tb_cfail "failed_at" cf_at cutoff _ _); [fits|by intros ? ? [[]]].
Qed.

(** SELECT metadata_key, metadata_value ... WHERE submission_id = ... *)
Lemma mapM_all {A B C} (f : A -> B) (g : B -> option C) (h : A -> C) (l : list A) : (forall x, g (f x) = Some (h x)) -> mapM g (f <$> l) = Some (h <$> l).
Proof. intros H. induction l as [|x l IH]; [done|]. cbn [fmap list_fmap mapM]. rewrite H. cbn. by rewrite IH. Qed.
Lemma r_strategic_metadata id : sims eq (get_submission_strategic_metadata id) (t_get_submission_strategic_metadata id).
Proof.
  change (get_submission_strategic_metadata id) with (bind (read (fun d => strat_of d id)) Ret).
  unfold t_get_submission_strategic_metadata, ttry. 
  apply (sims_bind (fun a b => match a, b with Ok m, Ok l => m = list_to_map l | Err e, Err e' => e = e' | _, _ => False end)).
  2:{ intros [m|e|] [l|e'|] H; cbn in H; try done; subst; by constructor. }
  apply sims_one; [done|]. intros d D HD. unfold sql_next, tsql_next.
  rewrite (do_select _ "submissions_metadata" h_metadata _ [v_n id] D (sf_heads _ _ HD) heads_metas) by fits. cbn [fst snd]. split; [done|].
  cbn [lift_sql]. pose proof (table_filter enc_meta (fun r => holds (eval no_callback [v_n id] heads (rows_in D) [("submissions_metadata", (h_metadata, r))] (EEq (col "submission_id") (par 1))))
    (fun p : sub_id * string * Z => p.1.1 = id) (rows_in D "submissions_metadata") (t_meta d)) as Hf.
  specialize (Hf ltac:(intros [[i k] v]; exact (holds_n i id)) (sf_metas _ _ HD)). unfold table_of in Hf. rewrite map_filter_list in Hf.
  destruct (Permutation_map_inv _ _ Hf) as (L & HL & HP). change (map enc_meta L) with (enc_meta <$> L) in HL. rewrite HL, <- list_fmap_compose.
  rewrite (mapM_all _ _ (fun kv : sub_id * string * Z => (kv.1.2, kv.2))) by (by intros [[]]).
  unfold strat_of. apply list_to_map_flip. by rewrite <- meta_rows, <- HP.
Qed.

(** *** Operations and histories *)
Lemma r_op o : sims eq (op_prog o) (t_op_prog o).
Proof.
  destruct o; (apply (sims_bind eq); [|intros r ? <-; by constructor]).
  - apply r_insert_submission_from_chunks.
  - apply r_complete_chunk.
  - apply r_retry_or_fail_chunk.
  - apply r_cancel_submission.
  - apply r_fail_submission.
  - apply r_cleanup_old.
Qed.
Lemma r_new : stands_for sdb_new db_empty.
Proof. constructor; [apply sdb_new_ok|..]; rewrite sdb_new_rows; reflexivity. Qed.
Lemma r_step D d e : stands_for D d -> stands_for (t_step D e) (step d e) /\ t_answer_of D e = answer_of d e.
Proof.
  intros HD. destruct (sims_exec _ _ d D (e_faults e) (r_op (e_op e)) HD) as (H1 & H2 & H3).
  unfold t_step, step, t_answer_of, answer_of, t_finished, finished. destruct (e_crash e) as [k|].
  - split; [|done]. destruct (crash_dbs _ d _ !! k) as [d'|] eqn:E.
    + destruct (Forall2_lookup_r _ _ _ _ _ H3 E) as (D' & -> & HD'). done.
    + rewrite (proj2 (lookup_ge_None _ _)); [done|].
      apply lookup_ge_None in E. by rewrite (Forall2_length _ _ _ H3).
  - split; [done|]. by rewrite H1.
Qed.
Lemma r_run h : forall D d, stands_for D d -> stands_for (fold_left t_step h D) (run_from d h).
Proof. induction h as [|e h IH]; intros D d HD; [done|]. apply IH. by apply r_step. Qed.
Lemma r_after h : stands_for (t_after h) (after h).
Proof. apply r_run, r_new. Qed.
