(** Lemmas about single operations: cancellation, isolation, atomicity, empty submissions. *)
From Verif Require Export RetryProofs ProducerServer.
Local Open Scope N_scope.

(** *** Completion *)
Lemma completed_acked h id s : fresh_ids h -> reports (after h) id (Completed s) ->
  forall i, i < sc_total s -> acks h (id, i) = 1%nat.
Proof.
  intros Hf (r & _ & Hr & ->)%reports_completed i Hi. simpl in Hi.
  by apply (g_comp _ _ (ghost_after h id Hf) r).
Qed.
Lemma in_progress_open h id s : fresh_ids h -> reports (after h) id (InProgress s) ->
  s_total s = 0 \/ exists i, i < s_total s /\ acks h (id, i) = 0%nat /\ is_Some (waiting (after h) (id, i)).
Proof.
  intros Hf (r & Hr & ->)%reports_in_progress. simpl. pose proof (vinv_after h id Hf) as Hv.
  destruct (vi_open _ Hv _ Hr) as [Ho|Ho]; [|by left]. right. pose proof (vi_count _ Hv _ Hr) as Hc.
  destruct (decide (v_chunks (view_of (after h) id) = ∅)) as [E|E].
  { rewrite E, map_size_empty in Hc. lia. }
  apply map_choose in E as (i & c & Hi). destruct (vi_chunk _ Hv _ _ Hi) as (s' & Es & Hlt).
  exists i. split; [congruence|]. split; [by apply (g_wait _ _ (ghost_after h id Hf) _ c)|].
  rewrite waiting_view, Hi. by eexists.
Qed.
Lemma last_ack_completes h e id s : fresh_ids (h ++ [e]) -> reports (after h) id (InProgress s) -> 0 < s_total s ->
  (forall i, i < s_total s -> acks (h ++ [e]) (id, i) = 1%nat) ->
  exists c, reports (after (h ++ [e])) id (Completed c) /\ sc_total c = s_total s.
Proof.
  intros Hf Hs Hpos Hall. pose proof (fresh_prefix _ _ Hf) as Hf0.
  pose proof (ghost_after _ id Hf) as Hg. pose proof (change_after h e id Hf) as Hc.
  pose proof (fun s' => in_progress_open (h ++ [e]) id s' Hf) as Hop.
  apply reports_in_progress in Hs as (r & Hr & ->). cbn [s_total] in *.
  assert (Hip : forall r', v_sub (view_of (after (h ++ [e])) id) = Some r' -> sr_total r' = sr_total r -> False).
  { intros r' Hr' Et.
    destruct (Hop (Submission id (sr_prefix r') (sr_total r') (sr_done r') (size_of (sr_size r')) (sr_meta r')
       (v_meta (view_of (after (h ++ [e])) id)) (sr_otel r'))) as [H0|(i & Hi & Ha & _)].
    - apply reports_in_progress. by exists r'.
    - simpl in H0. lia.
    - simpl in Hi. rewrite Hall in Ha by lia. done. }
  setoid_rewrite status_of_view || unfold reports. setoid_rewrite status_of_view.
  remember (view_of (after h) id) as v eqn:Ev. remember (view_of (after (h ++ [e])) id) as v' eqn:Ev'.
  clear Hop Ev Ev'. destruct Hc; simpl in *; try done.
  - exfalso; by apply (Hip r).
  - injection Hr as ->. exfalso; by apply (Hip (done_plus r)).
  - injection Hr as ->. eexists. split; [done|]. done.
  - injection Hr as ->. exfalso; by apply (Hip r).
  - injection Hr as ->. exfalso. destruct (g_fail _ _ Hg _ eq_refl) as [Hlt HA]. simpl in *. rewrite Hall in HA by done. done.
  - injection Hr as ->. exfalso. destruct (g_fail _ _ Hg _ eq_refl) as [Hlt HA]. simpl in *. rewrite Hall in HA by done. done.
  - injection Hr as ->. exfalso. destruct (g_canc _ _ Hg _ eq_refl) as [Hlt|(i & Hi & HA)]; simpl in *; [lia|].
    rewrite Hall in HA by done. done.
  - exfalso; by apply (Hip r).
Qed.

(** *** Cancellation *)
Lemma cancel_in_progress h id s n1 n2 : fresh_ids h -> reports (after h) id (InProgress s) ->
  let e := quiet (OCancel id n1 n2) in
  answer_of (after h) e = Some (ACancel (Ok tt)) /\
  reports (after (h ++ [e])) id (Cancelled (SubmissionCancelled id (s_prefix s) (s_total s) (s_done s) (s_meta s) (s_strat s) n1)) /\
  (forall i, waiting (after (h ++ [e])) (id, i) = None) /\
  (forall i, completed_chunk (after (h ++ [e])) (id, i) = completed_chunk (after h) (id, i)) /\
  (forall i c, waiting (after h) (id, i) = Some c -> t_cfail (after (h ++ [e])) !! (id, i) = Some (ChunkFailRow (c_input c) "" n2 true)).
Proof.
  intros Hf (r & Hr & ->)%reports_in_progress e. cbn [s_prefix s_total s_done s_meta s_strat].
  assert (Es : t_sub (after h) !! id = Some r) by done.
  destruct (exec_cancel_ok _ _ (inv_after h Hf) id r n1 n2 Es) as [Ea _].
  destruct (view_cancel_ok _ _ (inv_after h Hf) id r n1 n2 Es) as (mt & ch & cd & Ev & Ev').
  assert (Ev2 : view_of (after (h ++ [e])) id = View None None None (Some (canc_row_of r n1)) mt ∅ cd (skipped n2 ch)).
  { unfold e. rewrite after_quiet. unfold op_prog. rewrite exec_map. exact Ev'. }
  split; [|split; [|split; [|split]]].
  - unfold answer_of, finished; simpl. unfold op_prog. rewrite exec_map. simpl. by rewrite Ea.
  - unfold reports. rewrite status_of_view, Ev2, Ev. done.
  - intros i. by rewrite waiting_view, Ev2.
  - intros i. by rewrite !completed_chunk_view, Ev, Ev2.
  - intros i c. rewrite waiting_view, Ev. simpl. destruct (ch !! i) as [x|] eqn:Ex; [|done]. intros [= <-]. simpl.
    rewrite <- lookup_rows_of. change (rows_of _ id) with (v_cfail (view_of (after (h ++ [e])) id)). rewrite Ev2. simpl.
    by rewrite lookup_skipped_view, Ex.
Qed.

Lemma exec_cancel_not_open d id n1 n2 : t_sub d !! id = None ->
  exec (cancel_submission id n1 n2) d [] =
  (match status_of d id with
   | Ok None => Err (ESubmissionNotFound id) | Ok (Some s) => Err (ENotCancellable s)
   | Err e => Err e | Panicked => Panicked end, d).
Proof.
  intros Hs. rewrite exec_cancel, Hs. fold (status_of d id). f_equal. rewrite status_of_view. unfold status_v, view_of; simpl.
  rewrite Hs. destruct (t_comp d !! id); [done|]. destruct (t_fail d !! id); [by destruct (rows_of _ _ !! _)|].
  by destruct (t_canc d !! id).
Qed.
Lemma status_never_panics d id : status_of d id <> Panicked.
Proof.
  rewrite status_of_view. unfold status_v, view_of; simpl.
  destruct (t_sub d !! id); [done|]. destruct (t_comp d !! id); [done|].
  destruct (t_fail d !! id); [by destruct (rows_of _ _ !! _)|]. by destruct (t_canc d !! id).
Qed.
Lemma status_terminal d id st : t_sub d !! id = None -> reports d id st -> terminal st.
Proof.
  intros Hs. unfold reports. rewrite status_of_view. unfold status_v, view_of; simpl. rewrite Hs.
  destruct (t_comp d !! id); [by intros [= <-]|].
  destruct (t_fail d !! id); [destruct (rows_of _ _ !! _); [by intros [= <-]|done]|].
  destruct (t_canc d !! id); [by intros [= <-]|done].
Qed.
Lemma cancel_never_panics d fs id n1 n2 : fst (exec (cancel_submission id n1 n2) d fs) <> Panicked.
Proof.
  unfold cancel_submission.
  match goal with |- context[transaction ?b] => pose proof (exec_tx_faults b d fs (good_cancel_body id n1 n2)) as [-> | ->] end; [done|].
  fold (cancel_submission id n1 n2). destruct (t_sub d !! id) as [s|] eqn:Es.
  - rewrite exec_cancel, Es. destruct (t_canc d !! id); [done|]. by destruct (ins_rows _ _).
  - rewrite exec_cancel_not_open by done. pose proof (status_never_panics d id) as H.
    destruct (status_of d id) as [[]| |]; done.
Qed.

Lemma cancel_table h q id ot n1 n2 max : fresh_ids h -> clocks_ok h -> q = PCancel id ->
  let r := exec (handle max id ot n1 n2 q) (after h) [] in
  (fst r = Http200 BNone <-> exists s, reports (after h) id (InProgress s)) /\
  (fst r = Http404 id <-> unknown (after h) id) /\
  (forall st, fst r = Http409 st <-> reports (after h) id st /\ terminal st) /\
  (fst r = Http200 BNone \/ fst r = Http404 id \/ exists st, fst r = Http409 st) /\
  (fst r <> Http200 BNone -> snd r = after h) /\
  snd r = after (h ++ [quiet (OCancel id n1 n2)]).
Proof.
  intros Hf Hk -> r. unfold r. clear r. simpl handle. rewrite exec_map. cbn [fst snd].
  rewrite after_quiet. unfold op_prog. rewrite exec_map. cbn [snd].
  destruct (t_sub (after h) !! id) as [s|] eqn:Es.
  - destruct (exec_cancel_ok _ _ (inv_after h Hf) id s n1 n2 Es) as [Ea _]. rewrite Ea. simpl.
    assert (Hr : reports (after h) id (InProgress (Submission id (sr_prefix s) (sr_total s) (sr_done s) (size_of (sr_size s)) (sr_meta s) (v_meta (view_of (after h) id)) (sr_otel s)))).
    { apply reports_in_progress. by exists s. }
    split; [split; [by eauto|done]|]. split; [split; [done|unfold unknown, reports in *; congruence]|].
    split; [intros st; split; [done|intros [Hst Ht]; unfold reports in *; rewrite Hr in Hst; by injection Hst as <-]|]. split; [by left|]. done.
  - rewrite exec_cancel_not_open by done. cbn [fst snd].
    destruct (status_stored h id Hf Hk) as [(st & Hst & _)|[Hu _]].
    + pose proof (status_terminal _ _ _ Es Hst) as Ht. assert (Hst2 := Hst). unfold reports in Hst2. rewrite Hst2. cbn [cancel_response].
      split; [split; [done|intros [s Hs]; unfold reports in *; rewrite Hst in Hs; injection Hs as ->; done]|].
      split; [split; [done|unfold unknown, reports in *; congruence]|].
      split; [intros st'; split; [intros [= ->]; done|intros [Hst' _]; unfold reports in *; congruence]|].
      split; [right; right; by eexists|]. done.
    + assert (Hu2 := Hu). unfold unknown in Hu2. rewrite Hu2. cbn [cancel_response].
      split; [split; [done|intros [s Hs]; unfold reports, unknown in *; congruence]|].
      split; [done|]. split; [intros st'; split; [done|intros [Hst' _]; unfold reports, unknown in *; congruence]|].
      split; [by right; left|]. done.
Qed.

(** *** Isolation *)
Lemma change_other o id v v' : about o <> Some id -> (forall c, o <> OCleanup c) -> change o id v v' -> v' = v.
Proof. intros Ha Hc Hch. destruct Hch; simpl in *; try done. by destruct (Hc cutoff). Qed.
Lemma view_other h e id : fresh_ids (h ++ [e]) -> about (e_op e) <> Some id -> ~ is_cleanup e ->
  view_of (after (h ++ [e])) id = view_of (after h) id.
Proof.
  intros Hf Ha Hn. eapply change_other; [exact Ha| |by apply change_after].
  intros c E. apply Hn. unfold is_cleanup. by rewrite E.
Qed.
Lemma isolation h e id : fresh_ids (h ++ [e]) -> about (e_op e) <> Some id -> ~ is_cleanup e ->
  same_for_clients id (after h) (after (h ++ [e])).
Proof. intros Hf Ha Hn. apply same_view_same. symmetry. by apply view_other. Qed.

(** *** Atomicity *)
Lemma not_insert_atomic o d fs k : (forall id, ~ op_ids o id) ->
  step d (Event o fs k) = d \/ step d (Event o fs k) = step d (quiet o).
Proof. intros Ho. apply (atomic_step d o fs k). by apply atomic_op. Qed.

Lemma tx_err {A} (body : M A) d fs : good body -> is_ok (fst (exec (transaction body) d fs)) = false ->
  snd (exec (transaction body) d fs) = d.
Proof.
  intros Hg. destruct (exec_tx_faults body d fs Hg) as [-> | ->]; [done|].
  rewrite exec_tx by done. destruct (exec body d []) as [[]]; done.
Qed.
Lemma tx_ok {A} (body : M A) d fs : good body -> is_ok (fst (exec (transaction body) d fs)) = true ->
  exec (transaction body) d fs = exec (transaction body) d [].
Proof. intros Hg. by destruct (exec_tx_faults body d fs Hg) as [-> | ->]. Qed.

Lemma error_unchanged o d fs a : (forall id, ~ op_ids o id) -> answer_of d (Event o fs None) = Some a -> answer_ok a = false ->
  step d (Event o fs None) = d.
Proof.
  intros Ho. unfold answer_of, step, finished; simpl. intros [= <-].
  destruct o; simpl; [by destruct (Ho id)|..]; rewrite exec_map; simpl; try (by rewrite complete_chunk_exec).
  - apply tx_err. solve_good.
  - apply tx_err. apply good_cancel_body.
  - apply tx_err. solve_good.
  - apply tx_err. solve_good.
Qed.
Lemma ok_whole o d fs a : (forall id, ~ op_ids o id) -> (forall cid out n1 n2, o <> OComplete cid out n1 n2) ->
  answer_of d (Event o fs None) = Some a -> answer_ok a = true ->
  step d (Event o fs None) = step d (quiet o) /\ answer_of d (quiet o) = Some a.
Proof.
  intros Ho Hc. unfold answer_of, step, quiet, finished; simpl. intros [= <-].
  destruct o; simpl; [by destruct (Ho id)|by destruct (Hc cid out now1 now2)|..]; rewrite !exec_map; simpl; intros H.
  - unfold retry_or_fail_chunk in *. rewrite tx_ok; [done|solve_good|exact H].
  - unfold cancel_submission in *. rewrite tx_ok; [done|apply good_cancel_body|exact H].
  - unfold fail_submission in *. rewrite tx_ok; [done|solve_good|exact H].
  - unfold cleanup_old in *. rewrite tx_ok; [done|solve_good|exact H].
Qed.

(** *** Insert *)
Lemma insert_outcomes h e id p l m st z ot n : fresh_ids (h ++ [e]) -> e_op e = OInsert id p l m st z ot n ->
  after (h ++ [e]) = after h \/
  (reports (after (h ++ [e])) id (InProgress (Submission id p (N.of_nat (length l)) 0 z m st ot)) /\
   forall i, waiting (after (h ++ [e])) (id, i) = (fun x => Chunk id i x 0) <$> l !! N.to_nat i) \/
  (l = [] /\ reports (after (h ++ [e])) id (Completed (SubmissionCompleted id p 0 1 m st n "{}")) /\
   forall i, waiting (after (h ++ [e])) (id, i) = None).
Proof.
  intros Hf Eo. pose proof (fresh_ids_app _ _ Hf) as [Hf0 He].
  assert (Hid : id ∉ inserted_ids h) by (apply He; by rewrite Eo).
  rewrite after_snoc. destruct e as [o fs k]. simpl in Eo. subst o.
  destruct (inv_insertable _ _ id (inv_after h Hf0) Hid) as [Hi Hc].
  destruct (insert_event id p l m st z ot n (after h) fs k Hi Hc) as [E|[E|E]]; [by left|right; left|].
  - rewrite E. pose proof (change_inserted _ _ (inv_after h Hf0) id p l m st z ot n id Hid) as Hch.
    rewrite (view_unused _ _ (inv_after h Hf0) id Hid) in Hch. simpl insert_base.
    assert (Hs : v_sub (view_of (inserted id p l m st z ot (after h)) id) = Some (SubRow p (N.of_nat (length l)) 0 m ot (Some z))).
    { unfold view_of; simpl. by rewrite lookup_insert. }
    unfold reports. rewrite status_of_view. setoid_rewrite waiting_view.
    remember (view_of (inserted _ _ _ _ _ _ _ _) id) as v eqn:Ev. clear Ev E. inversion Hch; subst; simpl in *; [congruence|idtac|congruence].
    split; [done|]. intros i. rewrite lookup_number_rows. by destruct (l !! _).
  - rewrite E. unfold op_prog. rewrite exec_map. cbn [snd]. rewrite exec_insert_from_chunks by done. cbn [snd].
    pose proof (change_inserted _ _ (inv_after h Hf0) id p l m st z ot n id Hid) as Hch.
    rewrite (view_unused _ _ (inv_after h Hf0) id Hid) in Hch.
    assert (Hs : v_sub (view_of (inserted id p l m st z ot (after h)) id) = Some (SubRow p (N.of_nat (length l)) 0 m ot (Some z))).
    { unfold view_of; simpl. by rewrite lookup_insert. }
    destruct l as [|x l].
    + right; right. split; [done|]. unfold reports. rewrite status_of_view. setoid_rewrite waiting_view.
      assert (Hv : view_of (set_sub (delete id) (set_comp (insert id (CompRow p 0 m n "{}" None)) (inserted id p [] m st z ot (after h)))) id
        = View None (Some (CompRow p 0 m n "{}" None)) None None st ∅ ∅ ∅).
      { pose proof (view_unused _ _ (inv_after h Hf0) id Hid) as Hv. injection Hv as V1 V2 V3 V4 V5 V6 V7 V8.
        destruct Hi as (Hi1 & Hi2 & Hi3).
        unfold view_of, inserted; simpl. rewrite lookup_delete, lookup_insert, V3, V4, V7, V8.
        rewrite !rows_of_union_l by done. rewrite rows_chunk_table, rows_meta_table. done. }
      rewrite Hv. done.
    + right; left. unfold reports. rewrite status_of_view. setoid_rewrite waiting_view.
      remember (view_of (inserted _ _ _ _ _ _ _ _) id) as v eqn:Ev. clear Ev E. inversion Hch; subst; simpl in *; [congruence|idtac].
      split; [done|]. intros i. rewrite lookup_number_rows. by destruct ((x :: l) !! _).
Qed.
