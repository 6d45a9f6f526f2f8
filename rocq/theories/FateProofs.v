(** Terminal states, removal, and status queries that race with writers. *)
From Verif Require Export QueueProofs.
Local Open Scope N_scope.

Lemma drop_old_keep {X} (at_ : X -> time) cutoff x : (cutoff <= at_ x)%Z -> drop_old at_ cutoff (Some x) = Some x.
Proof. intros H. simpl. destruct (at_ x <? cutoff)%Z eqn:E; [lia|done]. Qed.
Lemma drop_old_gone {X} (at_ : X -> time) cutoff x : (at_ x < cutoff)%Z -> drop_old at_ cutoff (Some x) = None.
Proof. intros H. simpl. destruct (at_ x <? cutoff)%Z eqn:E; [done|lia]. Qed.
Lemma older_keep {X} (at_ : X -> time) cutoff x : (cutoff <= at_ x)%Z -> older at_ cutoff (Some x) = false.
Proof. intros H. simpl. destruct (at_ x <? cutoff)%Z eqn:E; [lia|done]. Qed.

(** One change applied to a submission that is not in progress. *)
Lemma change_settled o id v v' : vinv v -> v_sub v = None ->
  (v_comp v <> None \/ v_fail v <> None \/ v_canc v <> None) ->
  change o id v v' -> (exists c, o = OCleanup c) \/ v' = v.
Proof. intros Hv Hs Hr Hc. destruct Hc; simpl in *; try done; eauto; naive_solver. Qed.

Lemma status_settled v id st : status_v id v = Ok (Some st) -> terminal st ->
  v_sub v = None /\ (v_comp v <> None \/ v_fail v <> None \/ v_canc v <> None).
Proof.
  unfold status_v. destruct (v_sub v) eqn:E; [by intros [= <-]|]. intros H _. split; [done|].
  destruct (v_comp v); [by left|]. destruct (v_fail v); [by right; left|]. destruct (v_canc v); [by right; right|done].
Qed.

Lemma status_cleanup id v st c t : vinv v -> (times v) -> status_v id v = Ok (Some st) -> finished_at st = Some t ->
  forall v', change (OCleanup c) id v v' ->
  ((c <= t)%Z -> status_v id v' = Ok (Some st)) /\
  ((t < c)%Z -> status_v id v' = Ok (Some st) \/ status_v id v' = Ok None /\ v_meta v' = ∅).
Proof.
  intros Hv Ht Hst Hfin v' Hc. inversion Hc; subst; [split; auto|]. clear Hc.
  unfold status_v in *; simpl. destruct (v_sub v) as [s|] eqn:Es; [by injection Hst as <-|].
  destruct (v_comp v) as [r|] eqn:Ec.
  { destruct (vi_comp _ Hv _ Ec) as [Ef Ex]. rewrite Ef, Ex. injection Hst as <-. simpl in Hfin. injection Hfin as <-.
    split; intros Hle.
    - by rewrite drop_old_keep, older_keep by done.
    - right. rewrite drop_old_gone by done. simpl. rewrite (proj2 (Z.ltb_lt _ _) Hle). done. }
  destruct (v_fail v) as [r|] eqn:Ef.
  { rewrite (vi_fail _ Hv _ Ef). destruct (tm_fail _ Ht _ Ef) as (k & Hk & Hle & _). rewrite Hk in Hst.
    injection Hst as <-. simpl in Hfin. injection Hfin as <-. split; intros Hcl.
    - rewrite drop_old_keep, older_keep by done. simpl.
      assert (filter (fun p : N * chunk_fail_row => (cf_at p.2 <? c)%Z = false) (v_cfail v) !! fr_chunk r = Some k) as ->; [|done].
      apply map_filter_lookup_Some. split; [done|]. simpl. lia.
    - right. rewrite drop_old_gone by done. simpl. rewrite (proj2 (Z.ltb_lt _ _) Hcl). done. }
  destruct (v_canc v) as [r|] eqn:Ex; [|done].
  injection Hst as <-. simpl in Hfin. injection Hfin as <-. split; intros Hle.
  - by rewrite drop_old_keep, older_keep by done.
  - right. rewrite drop_old_gone by done. simpl. rewrite (proj2 (Z.ltb_lt _ _) Hle). done.
Qed.

Lemma terminal_finished st : terminal st -> exists t, finished_at st = Some t.
Proof. destruct st; simpl; [done|eauto..]. Qed.

(** One event. *)
Lemma terminal_step h e id st : fresh_ids (h ++ [e]) -> clocks_ok h \/ ~ is_cleanup e ->
  reports (after h) id st -> terminal st ->
  reports (after (h ++ [e])) id st \/
  (exists c t, e_op e = OCleanup c /\ finished_at st = Some t /\ (t < c)%Z /\ unknown (after (h ++ [e])) id).
Proof.
  intros Hf Hk Hst Ht. pose proof (fresh_prefix _ _ Hf) as Hf0. pose proof (change_after h e id Hf) as Hc.
  unfold reports, unknown in *. rewrite status_of_view in Hst. setoid_rewrite status_of_view.
  pose proof (vinv_after h id Hf0) as Hv. destruct (status_settled _ _ _ Hst Ht) as [Hs Hr].
  destruct (change_settled _ _ _ _ Hv Hs Hr Hc) as [[c Ec]|E].
  - destruct Hk as [Hk|Hk]; [|unfold is_cleanup in Hk; rewrite Ec in Hk; done].
    rewrite Ec in Hc. destruct (terminal_finished st Ht) as [t Hfin].
    destruct (status_cleanup _ _ _ _ _ Hv (times_after h id Hf0 Hk) Hst Hfin _ Hc) as [H1 H2].
    destruct (Z.le_gt_cases c t) as [Hle|Hlt]; [by left; apply H1|].
    destruct (H2 Hlt) as [H|[H _]]; [by left|right]. exists c, t. done.
  - left. by rewrite E.
Qed.

Lemma unknown_step h e id : fresh_ids (h ++ [e]) -> id ∈ inserted_ids h -> unknown (after h) id -> unknown (after (h ++ [e])) id.
Proof.
  intros Hf Hin. rewrite !unknown_view. intros (H1 & H2 & H3 & H4). pose proof (change_after h e id Hf) as Hc.
  pose proof (fresh_ids_app _ _ Hf) as [_ He].
  remember (view_of (after h) id) as v eqn:Ev. remember (view_of (after (h ++ [e])) id) as v' eqn:Ev'. clear Ev Ev'.
  remember (e_op e) as o eqn:Eo. destruct Hc; simpl in *; try done.
  - exfalso. by apply (He id).
  - exfalso. by apply (He id).
  - rewrite H1, H2, H3, H4. done.
Qed.

Lemma clocks_ok_app h h' : clocks_ok (h ++ h') -> clocks_ok h.
Proof. unfold clocks_ok. rewrite Forall_app. tauto. Qed.

Lemma reports_inserted h id st : fresh_ids h -> reports (after h) id st -> id ∈ inserted_ids h.
Proof.
  intros Hf Hst. destruct (decide (id ∈ inserted_ids h)) as [|Hn]; [done|exfalso].
  unfold reports in Hst. rewrite status_of_view, view_fresh in Hst by done. done.
Qed.

(** After a terminal state: the same report until a cleanup with a later cutoff, then nothing. *)
Lemma terminal_forever h h' id st : fresh_ids (h ++ h') -> clocks_ok (h ++ h') \/ no_cleanup h' ->
  reports (after h) id st -> terminal st ->
  reports (after (h ++ h')) id st \/
  ((exists c t, Exists (fun e => e_op e = OCleanup c) h' /\ finished_at st = Some t /\ (t < c)%Z) /\
   unknown (after (h ++ h')) id).
Proof.
  induction h' as [|e h' IH] using rev_ind; intros Hf Hk Hst Ht; [rewrite app_nil_r; by left|].
  rewrite app_assoc in *. pose proof (fresh_prefix _ _ Hf) as Hf1.
  destruct IH as [IH|[(c & t & IH1 & IH2 & IH3) IH4]]; try done.
  - destruct Hk as [Hk|Hk]; [left; by apply clocks_ok_app in Hk|right].
    unfold no_cleanup in Hk. rewrite Forall_app in Hk. tauto.
  - destruct (terminal_step (h ++ h') e id st Hf) as [H|(c & t & H1 & H2 & H3 & H4)]; try done; [|by left|right].
    + destruct Hk as [Hk|Hk]; [left; by apply clocks_ok_app in Hk|right].
      unfold no_cleanup in Hk. rewrite Forall_app in Hk. destruct Hk as [_ Hk]. by inversion Hk.
    + split; [|done]. exists c, t. split; [|done]. apply Exists_app. right. by constructor.
  - right. split.
    + exists c, t. split; [|done]. apply Exists_app. by left.
    + apply unknown_step; [done| |done]. rewrite inserted_ids_app, elem_of_app. left. eapply reports_inserted; [|exact Hst].
      by eapply fresh_prefix.
Qed.

Lemma terminal_kept h h' id st t : fresh_ids (h ++ h') -> clocks_ok (h ++ h') -> reports (after h) id st ->
  finished_at st = Some t -> no_cleanup_after t h' -> reports (after (h ++ h')) id st.
Proof.
  intros Hf Hk Hst Ht Hn.
  destruct (terminal_forever h h' id st Hf (or_introl Hk) Hst) as [H|[(c & t' & H1 & H2 & H3) _]]; [by destruct st|done|].
  exfalso. rewrite Ht in H2. injection H2 as <-. unfold no_cleanup_after in Hn. apply Exists_exists in H1 as (e & He & Ee).
  rewrite Forall_forall in Hn. specialize (Hn e He). simpl in Hn. rewrite Ee in Hn. lia.
Qed.

Lemma terminal_no_cleanup h h' id st : fresh_ids (h ++ h') -> reports (after h) id st -> terminal st ->
  no_cleanup h' -> reports (after (h ++ h')) id st.
Proof.
  intros Hf Hst Ht Hn.
  destruct (terminal_forever h h' id st Hf (or_intror Hn) Hst Ht) as [H|[(c & t' & H1 & _) _]]; [done|].
  exfalso. apply Exists_exists in H1 as (e & He & Ee). unfold no_cleanup in Hn. rewrite Forall_forall in Hn.
  apply (Hn e He). unfold is_cleanup. by rewrite Ee.
Qed.

(** *** One state at a time *)
Lemma one_state h id k k' : fresh_ids h -> stored_as (after h) id k -> stored_as (after h) id k' -> k = k'.
Proof.
  intros Hf. pose proof (vinv_after h id Hf) as Hv. destruct Hv as [_ _ _ H1 H2 H3 _]. unfold view_of in *; simpl in *.
  destruct k, k'; simpl; try done; intros [x Hx] [y Hy]; exfalso; naive_solver.
Qed.

Lemma status_stored h id : fresh_ids h -> clocks_ok h ->
  (exists st, reports (after h) id st /\ stored_as (after h) id (kind_of st)) \/
  unknown (after h) id /\ forall k, ~ stored_as (after h) id k.
Proof.
  intros Hf Hk. pose proof (times_after h id Hf Hk) as Ht.
  unfold reports, unknown. rewrite status_of_view. unfold status_v.
  destruct (v_sub _) as [r|] eqn:E1. { left. eexists. split; [done|]. by exists r. }
  destruct (v_comp _) as [r|] eqn:E2. { left. eexists. split; [done|]. by exists r. }
  destruct (v_fail _) as [r|] eqn:E3.
  { destruct (tm_fail _ Ht _ E3) as (c & Hc & _). rewrite Hc. left. eexists. split; [done|]. by exists r. }
  destruct (v_canc _) as [r|] eqn:E4. { left. eexists. split; [done|]. by exists r. }
  right. split; [done|]. unfold view_of in *; simpl in *. intros []; simpl; intros [x Hx]; congruence.
Qed.

(** An accepted insert makes the submission known. *)
Lemma exec_insert_ok_faults id p l m st z ot n d fs : insertable id d -> t_comp d !! id = None ->
  is_ok (fst (exec (insert_submission_from_chunks id p l m st z ot n) d fs)) = true ->
  is_Some (t_sub (snd (exec (insert_submission_from_chunks id p l m st z ot n) d fs)) !! id) \/
  is_Some (t_comp (snd (exec (insert_submission_from_chunks id p l m st z ot n) d fs)) !! id).
Proof.
  intros Hi Hc. pose proof (insert_event id p l m st z ot n d fs None Hi Hc) as He. cbv zeta in He.
  unfold step, finished in He. simpl in He. rewrite !exec_map in He. simpl in He.
  rewrite exec_insert_from_chunks in He by done. simpl in He.
  pose proof (good_insert_from_chunks id p l m st z ot n) as [_ _ Hs].
  specialize (Hs (conn_of d) fs).
  destruct (exec (insert_submission_from_chunks id p l m st z ot n) d fs) as [r d'] eqn:E. simpl in *.
  intros Hok. destruct He as [E'|[E'|E']].
  - exfalso. unfold exec in E. destruct (run _ (conn_of d) fs) as [[r0 c0] fs0] eqn:Er. simpl in Hs.
    injection E as -> E. destruct Hs as [Hs|Hs]; [subst r; done|].
    pose proof (exec_insert_from_chunks id p l m st z ot n d Hi Hc) as E2. unfold exec in E2.
    destruct (run _ (conn_of d) []) as [[r1 c1] fs1]. simpl in Hs. injection Hs as -> ->.
    injection E2 as _ E2. rewrite E in E2. subst d'. destruct Hi as (Hi & _).
    destruct l; rewrite E' in E2.
    + apply (f_equal t_comp) in E2. simpl in E2. apply (f_equal (fun m => m !! id)) in E2.
      rewrite lookup_insert, Hc in E2. done.
    + apply (f_equal t_sub) in E2. simpl in E2. apply (f_equal (fun m => m !! id)) in E2.
      rewrite lookup_insert, Hi in E2. done.
  - subst d'. simpl. left. rewrite lookup_insert. by eexists.
  - subst d'. destruct l; simpl.
    + right. rewrite lookup_insert. by eexists.
    + left. rewrite lookup_insert. by eexists.
Qed.

Lemma accepted_known h e id p l m st z ot n : fresh_ids (h ++ [e]) ->
  e_op e = OInsert id p l m st z ot n ->
  (exists r, answer_of (after h) e = Some (AInsert (Ok r))) ->
  answer_of (after h) e = Some (AInsert (Ok id)) /\ ~ unknown (after (h ++ [e])) id.
Proof.
  intros Hf Eo (r & Ha). pose proof (fresh_ids_app _ _ Hf) as [Hf0 He].
  assert (Hid : id ∉ inserted_ids h) by (apply He; by rewrite Eo).
  destruct (inv_insertable _ _ id (inv_after h Hf0) Hid) as [Hi Hc].
  rewrite after_snoc. unfold answer_of, step, finished in *. destruct (e_crash e) as [k|]; [done|].
  rewrite Eo in *. simpl in *. rewrite exec_map in *. simpl in *. injection Ha as Ha.
  pose proof (exec_insert_ok_faults id p l m st z ot n (after h) (e_faults e) Hi Hc) as Hk. rewrite Ha in Hk.
  specialize (Hk eq_refl). split.
  - do 2 f_equal. pose proof (good_insert_from_chunks id p l m st z ot n) as [_ _ Hs].
    specialize (Hs (conn_of (after h)) (e_faults e)).
    pose proof (exec_insert_from_chunks id p l m st z ot n (after h) Hi Hc) as E2.
    unfold exec in Ha, E2 |- *.
    destruct (run _ (conn_of (after h)) (e_faults e)) as [[r0 c0] fs0]. destruct (run _ (conn_of (after h)) []) as [[r1 c1] fs1].
    simpl in *. destruct Hs as [Hs|Hs]; [congruence|]. injection Hs as -> ->. by injection E2 as -> _.
  - intros Hu. apply unknown_view in Hu. unfold view_of in Hu; simpl in Hu. destruct Hu as (H1 & H2 & _).
    destruct Hk as [[x Hx]|[x Hx]]; congruence.
Qed.

Lemma known_step h e id : fresh_ids (h ++ [e]) -> ~ is_cleanup e -> ~ unknown (after h) id -> ~ unknown (after (h ++ [e])) id.
Proof.
  intros Hf Hn. rewrite !unknown_view. intros Hk. pose proof (change_after h e id Hf) as Hc.
  remember (view_of (after h) id) as v eqn:Ev. remember (view_of (after (h ++ [e])) id) as v' eqn:Ev'. clear Ev Ev'.
  unfold is_cleanup in Hn. remember (e_op e) as o eqn:Eo. destruct Hc; simpl in *; naive_solver.
Qed.
Lemma known_forever h h' id : fresh_ids (h ++ h') -> no_cleanup h' -> ~ unknown (after h) id -> ~ unknown (after (h ++ h')) id.
Proof.
  induction h' as [|e h' IH] using rev_ind; intros Hf Hn Hk; [by rewrite app_nil_r|].
  rewrite app_assoc in *. unfold no_cleanup in Hn. rewrite Forall_app in Hn. destruct Hn as [Hn He].
  apply known_step; [done|by inversion He|]. apply IH; [by eapply fresh_prefix|done|done].
Qed.
