(** Lemmas behind the theorems of Prop_Queue.v. *)
From Verif Require Export AttrProofs.
Local Open Scope N_scope.

(** *** Runs without faults *)
Lemma after_quiet h o : after (h ++ [quiet o]) = snd (exec (op_prog o) (after h) []).
Proof. by rewrite after_snoc. Qed.
Lemma fresh_quiet h o : fresh_ids h -> (forall id, op_ids o id -> id ∉ inserted_ids h) -> fresh_ids (h ++ [quiet o]).
Proof.
  intros Hf Ho. unfold fresh_ids. rewrite inserted_ids_app. apply NoDup_app. split; [done|].
  assert (Hin : forall id, id ∈ inserted_ids [quiet o] -> op_ids o id).
  { intros id Hid. unfold inserted_ids in Hid. simpl in Hid. destruct (insert_id (quiet o)) eqn:E; [|by apply elem_of_nil in Hid].
    apply elem_of_list_singleton in Hid as ->. by apply insert_id_ops in E. }
  split.
  - intros id H1 H2. apply (Ho id); auto.
  - unfold inserted_ids. simpl. destruct (insert_id (quiet o)); [apply NoDup_singleton|constructor].
Qed.
Lemma fresh_prefix h h' : fresh_ids (h ++ h') -> fresh_ids h.
Proof. unfold fresh_ids. rewrite inserted_ids_app, NoDup_app. tauto. Qed.
Lemma no_insert_fresh h o : (forall id, ~ op_ids o id) -> fresh_ids h -> fresh_ids (h ++ [quiet o]).
Proof. intros Ho Hf. apply fresh_quiet; [done|]. intros id Hid. by destruct (Ho id). Qed.

Section quiet.
  Context (U : sub_id -> Prop) (d : db) (HI : inv U d).

  Lemma exec_complete_ok id ix c out n1 n2 : t_chunk d !! (id, ix) = Some c ->
    is_ok (fst (exec (complete_chunk_tx (id, ix) out n1 n2) d [])) = true /\
    t_cdone (snd (exec (complete_chunk_tx (id, ix) out n1 n2) d [])) !! (id, ix) = Some (ChunkCompRow out n1).
  Proof.
    intros Ec. rewrite exec_complete_chunk_tx, Ec.
    destruct (t_cdone d !! (id, ix)) eqn:Ed. { destruct (inv_cdone _ _ HI _ _ _ Ed) as (_ & ? & _). congruence. }
    destruct (inv_chunk _ _ HI _ _ _ Ec) as (s & Es & Hix). simpl. rewrite Es.
    destruct (inv_sub _ _ HI _ _ Es) as (_ & E1 & _).
    destruct (sr_done s + 1 =? sr_total s); [rewrite E1|]; simpl; split; try done; by rewrite lookup_insert.
  Qed.

  Lemma exec_fail_notx_ok d1 id ix c f n1 n2 n3 :
    (d1 = d \/ exists c', d1 = set_chunk (insert (id, ix) c') d) ->
    t_chunk d !! (id, ix) = Some c ->
    fst (exec (fail_submission_notx id ix f n1 n2 n3) d1 []) = Ok tt.
  Proof.
    intros Hd1 Ec. destruct (exec_fail_notx id ix f n1 n2 n3 d1) as (_ & _ & Hok).
    destruct (inv_chunk _ _ HI _ _ _ Ec) as (s & Es & Hix). destruct (inv_sub _ _ HI _ _ Es) as (_ & E1 & E2 & E3).
    assert (Hcf : forall i, t_cfail d !! (id, i) = None).
    { intros i. destruct (t_cfail d !! (id, i)) eqn:E; [|done]. destruct (inv_cfail _ _ HI _ _ _ E). congruence. }
    assert (Hs : t_sub d1 = t_sub d /\ t_fail d1 = t_fail d /\ t_cfail d1 = t_cfail d /\ is_Some (t_chunk d1 !! (id, ix))).
    { destruct Hd1 as [->|(c' & ->)]; simpl; rewrite ?lookup_insert, ?Ec; eauto. }
    destruct Hs as (S1 & S2 & S3 & [c1 Hc1]).
    destruct (ins_rows_ok (skipped_rows id n3 (delete (id, ix) (t_chunk d1)))
       (<[(id, ix) := ChunkFailRow (ch_input c1) f n2 false]> (t_cfail d1))) as [m Hm].
    { intros [id' i] x. rewrite lookup_skipped. simpl. destruct (decide (id' = id)) as [->|]; [|done].
      destruct (decide (i = ix)) as [->|Hne]; [by rewrite lookup_delete|]. intros _.
      rewrite lookup_insert_ne by congruence. rewrite S3. apply Hcf. }
    eapply Hok; [by rewrite S1|by rewrite S2|done|by rewrite S3|done].
  Qed.

  Lemma exec_cancel_ok id s n1 n2 : t_sub d !! id = Some s ->
    fst (exec (cancel_submission id n1 n2) d []) = Ok tt /\
    t_canc (snd (exec (cancel_submission id n1 n2) d [])) !! id = Some (canc_row_of s n1).
  Proof.
    intros Es. rewrite exec_cancel, Es. destruct (inv_sub _ _ HI _ _ Es) as (_ & E1 & E2 & E3). rewrite E3.
    destruct (ins_rows_ok (skipped_rows id n2 (t_chunk d)) (t_cfail d)) as [m ->].
    { intros [id' i] x. rewrite lookup_skipped. simpl. destruct (decide (id' = id)) as [->|]; [|done]. intros _.
      destruct (t_cfail d !! (id, i)) eqn:E; [|done]. destruct (inv_cfail _ _ HI _ _ _ E). congruence. }
    simpl. split; [done|]. by rewrite lookup_insert.
  Qed.

  (** Exact effect on the submission, for a waiting chunk. *)
  Lemma view_complete_ok id ix c out n1 n2 : t_chunk d !! (id, ix) = Some c ->
    exists s mt ch cd, view_of d id = View (Some s) None None None mt ch cd ∅ /\ ch !! ix = Some c /\ ix < sr_total s /\
    view_of (snd (exec (complete_chunk_tx (id, ix) out n1 n2) d [])) id =
      if sr_done s + 1 =? sr_total s
      then View None (Some (CompRow (sr_prefix s) (sr_total s) (sr_meta s) n2 "{}" None)) None None mt ∅
             (<[ix := ChunkCompRow out n1]> cd) ∅
      else View (Some (done_plus s)) None None None mt (delete ix ch) (<[ix := ChunkCompRow out n1]> cd) ∅.
  Proof.
    intros Ec. pose proof (ViewProofs.change_complete _ _ HI (id, ix) out n1 n2 id) as Hc.
    destruct (exec_complete_ok id ix c out n1 n2 Ec) as [_ Hd].
    assert (Hd' : v_cdone (view_of (snd (exec (complete_chunk_tx (id, ix) out n1 n2) d [])) id) !! ix = Some (ChunkCompRow out n1)).
    { unfold view_of; simpl. by rewrite lookup_rows_of. }
    assert (Hw : v_chunks (view_of d id) !! ix = Some c). { unfold view_of; simpl. by rewrite lookup_rows_of. }
    pose proof (inv_vinv _ _ id HI) as Hv.
    remember (view_of d id) as v eqn:Ev. remember (view_of (snd _) id) as v' eqn:Ev'. clear Ev Ev' Hd.
    inversion Hc; subst; simpl in *.
    - destruct (vi_cdone _ Hv _ _ Hd'). congruence.
    - exists s, mt, ch, cd. repeat split; try done. destruct (N.eqb_spec (sr_done s + 1) (sr_total s)); [lia|done].
    - assert (c0 = c) as -> by (rewrite lookup_singleton in Hw; congruence). exists s, mt, {[ix := c]}, cd. repeat split; try done. destruct (N.eqb_spec (sr_done s + 1) (sr_total s)); [done|lia].
  Qed.

  Lemma view_fail_ok id ix c f mx n1 n2 n3 : t_chunk d !! (id, ix) = Some c ->
    exists s mt ch cd, view_of d id = View (Some s) None None None mt ch cd ∅ /\ ch !! ix = Some c /\ ix < sr_total s /\
    fst (exec (retry_or_fail_chunk (id, ix) f mx n1 n2 n3) d []) = Ok (mx <=? ch_retries c + 1) /\
    view_of (snd (exec (retry_or_fail_chunk (id, ix) f mx n1 n2 n3) d [])) id =
      if mx <=? ch_retries c + 1
      then View None None (Some (fail_row_of s ix n1)) None mt ∅ cd
             (<[ix := ChunkFailRow (ch_input c) f n2 false]> (skipped n3 (delete ix ch)))
      else View (Some s) None None None mt (<[ix := ChunkRow (ch_input c) (ch_retries c + 1)]> ch) cd ∅.
  Proof.
    intros Ec. pose proof (change_fail _ _ HI (id, ix) f mx n1 n2 n3 id) as Hc.
    rewrite exec_retry_or_fail, Ec in *. cbv zeta in *. cbn [fst snd] in *.
    set (d1 := set_chunk (insert (id, ix) (ChunkRow (ch_input c) (ch_retries c + 1))) d) in *.
    assert (Hok := exec_fail_notx_ok d1 id ix c f n1 n2 n3 ltac:(right; by eexists) Ec).
    assert (Hw : v_chunks (view_of d id) !! ix = Some c). { unfold view_of; simpl. by rewrite lookup_rows_of. }
    destruct (inv_chunk _ _ HI _ _ _ Ec) as (s & Es & Hix).
    destruct (mx <=? ch_retries c + 1) eqn:Emx.
    - destruct (exec (fail_submission_notx id ix f n1 n2 n3) d1 []) as [r d2] eqn:Ex. simpl in Hok. subst r.
      assert (Hd' : t_fail d2 !! id = Some (fail_row_of s ix n1)).
      { destruct (exec_fail_notx id ix f n1 n2 n3 d1) as (_ & Hs & _). rewrite Ex in Hs.
        destruct (Hs tt eq_refl) as (s' & c' & m & Es' & _ & _ & _ & _ & E). simpl in E. subst d2. simpl.
        rewrite lookup_insert. simpl in Es'. congruence. }
      simpl in Hc. assert (Hf' : v_fail (view_of d2 id) = Some (fail_row_of s ix n1)) by done.
      assert (Hs' : v_sub (view_of d id) = Some s) by done. pose proof (inv_vinv _ _ id HI) as Hv.
      simpl. remember (view_of d id) as v eqn:Ev. remember (view_of d2 id) as v' eqn:Ev'. clear Ev Ev' Hd' Ex.
      inversion Hc; subst; simpl in *.
      + destruct (vi_sub _ Hv _ Hs') as (_ & ? & _). congruence.
      + done.
      + injection Hs' as ->. assert (c0 = c) as -> by congruence. exists s, mt, ch, cd. done.
    - cbn [fst snd] in *. assert (Hr : v_chunks (view_of d1 id) !! ix = Some (ChunkRow (ch_input c) (ch_retries c + 1))).
      { unfold view_of; simpl. rewrite lookup_rows_of. by rewrite lookup_insert. }
      remember (view_of d id) as v eqn:Ev. remember (view_of d1 id) as v' eqn:Ev'. clear Ev Ev'.
      inversion Hc; subst; simpl in *.
      + rewrite Hw in Hr. injection Hr as Hr. apply (f_equal ch_retries) in Hr. simpl in Hr. lia.
      + assert (c0 = c) as -> by congruence. exists s0, mt, ch, cd. done.
      + done.
  Qed.

  Lemma view_cancel_ok id s n1 n2 : t_sub d !! id = Some s ->
    exists mt ch cd, view_of d id = View (Some s) None None None mt ch cd ∅ /\
    view_of (snd (exec (cancel_submission id n1 n2) d [])) id = View None None None (Some (canc_row_of s n1)) mt ∅ cd (skipped n2 ch).
  Proof.
    intros Es. pose proof (change_cancel _ _ HI id n1 n2 id) as Hc.
    destruct (exec_cancel_ok id s n1 n2 Es) as [_ Hd].
    assert (Hd' : v_canc (view_of (snd (exec (cancel_submission id n1 n2) d [])) id) = Some (canc_row_of s n1)) by done.
    assert (Hs' : v_sub (view_of d id) = Some s) by done. pose proof (inv_vinv _ _ id HI) as Hv.
    remember (view_of d id) as v eqn:Ev. remember (view_of (snd _) id) as v' eqn:Ev'. clear Ev Ev' Hd.
    inversion Hc; subst; simpl in *.
    - destruct (vi_sub _ Hv _ Hs') as (_ & _ & ? & _). congruence.
    - injection Hs' as ->. exists mt, ch, cd. done.
  Qed.
End quiet.

(** *** Reading statuses off views *)
Lemma reports_in_progress d id s : reports d id (InProgress s) <->
  exists r, v_sub (view_of d id) = Some r /\
    s = Submission id (sr_prefix r) (sr_total r) (sr_done r) (size_of (sr_size r)) (sr_meta r) (v_meta (view_of d id)) (sr_otel r).
Proof.
  unfold reports. rewrite status_of_view. unfold status_v.
  destruct (v_sub _) as [r|] eqn:E.
  - split; [intros [= <-]; by exists r|]. intros (r' & [= <-] & ->). done.
  - split; [|by intros (r' & ? & _)].
    destruct (v_comp _); [done|]. destruct (v_fail _) as [r|]; [by destruct (v_cfail _ !! _)|]. by destruct (v_canc _).
Qed.
Lemma reports_completed d id s : reports d id (Completed s) ->
  exists r, v_sub (view_of d id) = None /\ v_comp (view_of d id) = Some r /\
    s = SubmissionCompleted id (cr_prefix r) (cr_total r) (size_of (cr_size r)) (cr_meta r) (v_meta (view_of d id)) (cr_at r) (cr_otel r).
Proof.
  unfold reports. rewrite status_of_view. unfold status_v.
  destruct (v_sub _) as [r|] eqn:E; [done|]. destruct (v_comp _) as [r|] eqn:E2; [intros [= <-]; by exists r|].
  destruct (v_fail _) as [r|]; [by destruct (v_cfail _ !! _)|]. by destruct (v_canc _).
Qed.
Lemma reports_failed d id s c : reports d id (Failed s c) ->
  exists r k, v_sub (view_of d id) = None /\ v_comp (view_of d id) = None /\ v_fail (view_of d id) = Some r /\
    v_cfail (view_of d id) !! fr_chunk r = Some k /\
    s = SubmissionFailed id (fr_prefix r) (fr_total r) (fr_done r) (size_of (fr_size r)) (fr_meta r) (v_meta (view_of d id)) (fr_at r) (fr_chunk r) (fr_otel r) /\
    c = ChunkFailed id (fr_chunk r) (cf_input k) (cf_failure k) (cf_at k).
Proof.
  unfold reports. rewrite status_of_view. unfold status_v.
  destruct (v_sub _) as [r|] eqn:E; [done|]. destruct (v_comp _) as [r|] eqn:E2; [done|].
  destruct (v_fail _) as [r|] eqn:E3.
  - destruct (v_cfail _ !! _) as [k|] eqn:E4; [|done]. intros [= <- <-]. by exists r, k.
  - by destruct (v_canc _).
Qed.
Lemma reports_cancelled d id s : reports d id (Cancelled s) ->
  exists r, v_sub (view_of d id) = None /\ v_comp (view_of d id) = None /\ v_fail (view_of d id) = None /\
    v_canc (view_of d id) = Some r /\
    s = SubmissionCancelled id (xr_prefix r) (xr_total r) (xr_done r) (xr_meta r) (v_meta (view_of d id)) (xr_at r).
Proof.
  unfold reports. rewrite status_of_view. unfold status_v.
  destruct (v_sub _) as [r|] eqn:E; [done|]. destruct (v_comp _) as [r|] eqn:E2; [done|].
  destruct (v_fail _) as [r|] eqn:E3; [by destruct (v_cfail _ !! _)|].
  destruct (v_canc _) as [r|] eqn:E4; [|done]. intros [= <-]. by exists r.
Qed.
Lemma unknown_view d id : unknown d id <->
  v_sub (view_of d id) = None /\ v_comp (view_of d id) = None /\ v_fail (view_of d id) = None /\ v_canc (view_of d id) = None.
Proof.
  unfold unknown. rewrite status_of_view. unfold status_v.
  destruct (v_sub _) as [r|] eqn:E; [naive_solver|]. destruct (v_comp _) as [r|] eqn:E2; [naive_solver|].
  destruct (v_fail _) as [r|] eqn:E3. { destruct (v_cfail _ !! _); naive_solver. }
  destruct (v_canc _); naive_solver.
Qed.

(** *** Numbers of chunks *)
Lemma enumerates_dom {A} (m : gmap N A) : enumerates (map_to_list m).*1 (fun i => is_Some (m !! i)) /\ length (map_to_list m).*1 = size m.
Proof.
  split; [split|].
  - apply NoDup_fst_map_to_list.
  - intros i. rewrite elem_of_list_fmap. split.
    + intros ([k x] & -> & H). apply elem_of_map_to_list in H. by eexists.
    + intros [x Hx]. exists (i, x). split; [done|]. by apply elem_of_map_to_list.
  - by rewrite fmap_length.
Qed.

Lemma enumerates_length {A} (l l' : list A) P : enumerates l P -> enumerates l' P -> length l = length l'.
Proof.
  intros [H1 H2] [H3 H4]. apply Permutation_length, NoDup_Permutation; [done|done|]. intros x. by rewrite H2, H4.
Qed.

Definition below (n : N) : list N := N.of_nat <$> seq 0 (N.to_nat n).
Lemma elem_of_below n i : i ∈ below n <-> i < n.
Proof.
  unfold below. rewrite elem_of_list_fmap. split.
  - intros (k & -> & Hk%elem_of_seq). lia.
  - intros Hi. exists (N.to_nat i). rewrite N2Nat.id. split; [done|]. apply elem_of_seq. lia.
Qed.
Lemma NoDup_below n : NoDup (below n).
Proof. apply NoDup_fmap_2; [intros ?? ?; lia|apply NoDup_seq]. Qed.
Lemma length_below n : length (below n) = N.to_nat n.
Proof. unfold below. by rewrite fmap_length, seq_length. Qed.

Lemma conservation h id s : fresh_ids h -> reports (after h) id (InProgress s) ->
  exists ws ds, enumerates ws (fun i => is_Some (waiting (after h) (id, i))) /\
    enumerates ds (fun i => i < s_total s /\ acks h (id, i) = 1%nat) /\
    (forall i, i ∈ ws -> i < s_total s /\ acks h (id, i) = 0%nat) /\
    (forall i, i < s_total s -> i ∈ ws \/ i ∈ ds) /\
    N.of_nat (length ds) = s_done s /\ N.of_nat (length ws) + s_done s = s_total s /\ s_done s <= s_total s.
Proof.
  intros Hf (r & Hr & ->)%reports_in_progress. simpl.
  pose proof (vinv_after h id Hf) as Hv. pose proof (ghost_after h id Hf) as Hg.
  set (v := view_of (after h) id) in *.
  destruct (enumerates_dom (v_chunks v)) as [[Hn1 Hn2] Hlen].
  pose proof (vi_count _ Hv _ Hr) as Hcnt.
  assert (Hlt : forall i, is_Some (v_chunks v !! i) -> i < sr_total r).
  { intros i [c Hc]. destruct (vi_chunk _ Hv _ _ Hc) as (s & Es & Hi). congruence. }
  set (ds := filter (fun i => v_chunks v !! i = None) (below (sr_total r))).
  assert (Hds : forall i, i ∈ ds <-> i < sr_total r /\ v_chunks v !! i = None).
  { intros i. unfold ds. rewrite elem_of_list_filter, elem_of_below. tauto. }
  assert (Hperm : below (sr_total r) ≡ₚ (map_to_list (v_chunks v)).*1 ++ ds).
  { apply NoDup_Permutation; [apply NoDup_below| |].
    - apply NoDup_app. split; [done|]. split; [|apply NoDup_filter, NoDup_below].
      intros i Hi Hi'. apply Hn2 in Hi as [c Hc]. apply Hds in Hi' as [_ Hi']. congruence.
    - intros i. rewrite elem_of_app, elem_of_below, Hn2, Hds. split.
      + intros Hi. destruct (v_chunks v !! i) eqn:E; [left; by eexists|by right].
      + intros [Hi|[Hi _]]; auto. }
  pose proof (Permutation_length Hperm) as Hl. rewrite length_below, app_length, Hlen in Hl.
  exists (map_to_list (v_chunks v)).*1, ds. split; [|split; [|split; [|split; [|split; [|split]]]]].
  - split; [done|]. intros i. rewrite Hn2, waiting_view. fold v. by rewrite fmap_is_Some.
  - split; [apply NoDup_filter, NoDup_below|]. intros i. rewrite Hds. split; intros [Hi Hx]; (split; [done|]).
    + by eapply (g_sub _ _ Hg).
    + destruct (v_chunks v !! i) as [c|] eqn:E; [|done]. pose proof (g_wait _ _ Hg _ _ E) as H0. simpl in H0. lia.
  - intros i Hi%Hn2. split; [auto|]. destruct Hi as [c Hc]. by apply (g_wait _ _ Hg _ _ Hc).
  - intros i Hi. apply elem_of_below in Hi. rewrite Hperm in Hi. by apply elem_of_app in Hi.
  - lia.
  - rewrite Hlen. lia.
  - lia.
Qed.
