(** How much work is left (C42), and what stays true of a chunk that is no longer waiting (C40). *)
From Verif Require Export AnswerProofs.
Local Open Scope N_scope.

Lemma sum_N_app l1 l2 : sum_N (l1 ++ l2) = sum_N l1 + sum_N l2.
Proof. unfold sum_N. induction l1 as [|a l1 IH]; cbn; [done|]. rewrite IH. lia. Qed.
Section sums.
Context {A K : Type} `{EqDecision K} (key : A -> K) (f : A -> N).
Lemma sum_split l1 x l2 : sum_N (f <$> l1 ++ x :: l2) = f x + sum_N (f <$> l1 ++ l2).
Proof. rewrite !fmap_app, !sum_N_app. cbn. fold (sum_N (f <$> l2)). lia. Qed.
Lemma sum_le l' : forall l, NoDup (key <$> l') -> (forall x', x' ∈ l' -> exists x, x ∈ l /\ key x = key x' /\ f x' <= f x) ->
  sum_N (f <$> l') <= sum_N (f <$> l).
Proof.
  induction l' as [|x' l' IH]; intros l Hnd Hall; [cbn; lia|]. apply NoDup_cons in Hnd as [Hx Hnd].
  destruct (Hall x') as (x & Hin & Hk & Hle); [left|]. apply elem_of_list_split in Hin as (l1 & l2 & ->). rewrite sum_split.
  cbn. fold (sum_N (f <$> l')). enough (sum_N (f <$> l') <= sum_N (f <$> l1 ++ l2)) by lia.
  apply IH; [done|]. intros y' Hy'. destruct (Hall y') as (y & Hy & Hky & Hley); [by right|]. exists y. split; [|done].
  apply elem_of_app in Hy as [Hy|Hy]; [apply elem_of_app; by left|]. apply elem_of_cons in Hy as [->|Hy]; [|apply elem_of_app; by right].
  exfalso. apply Hx. apply elem_of_list_fmap. exists y'. split; [congruence|done].
Qed.
Lemma sum_lt l l' x : NoDup (key <$> l') -> x ∈ l -> (forall x', x' ∈ l' -> exists x, x ∈ l /\ key x = key x' /\ f x' <= f x) ->
  (forall x', x' ∈ l' -> key x' = key x -> f x' < f x) -> 0 < f x -> sum_N (f <$> l') < sum_N (f <$> l).
Proof.
  intros Hnd Hin Hall Hlt Hpos. apply elem_of_list_split in Hin as (l1 & l2 & ->). rewrite sum_split.
  assert (Hother : forall l0 : list A, (forall y, y ∈ l0 -> y ∈ l' /\ key y <> key x) ->
    forall y', y' ∈ l0 -> exists y, y ∈ l1 ++ l2 /\ key y = key y' /\ f y' <= f y).
  { intros l0 Hsub y' Hy'. destruct (Hsub _ Hy') as [Hl Hne]. destruct (Hall y' Hl) as (y & Hy & Hk & Hle). exists y. split; [|done].
    apply elem_of_app in Hy as [Hy|Hy]; [apply elem_of_app; by left|]. apply elem_of_cons in Hy as [->|Hy]; [|apply elem_of_app; by right].
    congruence. }
  destruct (decide (key x ∈ key <$> l')) as [Hx|Hno].
  - apply elem_of_list_fmap in Hx as (x' & Hk & Hx'). pose proof (Hlt x' Hx' (eq_sym Hk)) as Hf.
    apply elem_of_list_split in Hx' as (k1 & k2 & ->). rewrite sum_split.
    assert (Hperm : key <$> k1 ++ x' :: k2 ≡ₚ key x' :: (key <$> k1 ++ k2)) by (by rewrite <- Permutation_middle).
    rewrite Hperm in Hnd. apply NoDup_cons in Hnd as [Hx' Hnd].
    enough (sum_N (f <$> k1 ++ k2) <= sum_N (f <$> l1 ++ l2)) by lia. apply sum_le; [done|]. apply Hother.
    intros y Hy. split; [set_solver|]. intros E. apply Hx'. apply elem_of_list_fmap. exists y. split; [congruence|done].
  - enough (sum_N (f <$> l') <= sum_N (f <$> l1 ++ l2)) by lia. apply sum_le; [done|]. apply Hother.
    intros y Hy. split; [done|]. intros E. apply Hno. apply elem_of_list_fmap. by exists y.
Qed.
End sums.

(** *** The effect of a report on the waiting chunks *)
(** How many reports a chunk can still take: a completion ends it, and so does the last failure. *)
Definition reports_left (mx : N) (r : chunk) : N := N.max 1 (mx - c_retries r).
Definition worked (mx : N) (k : chunk_id) (e : event) : Prop :=
  (exists out n1 n2, e = quiet (OComplete k out n1 n2)) \/ (exists f n1 n2 n3, e = quiet (OFail k f mx n1 n2 n3)).
Lemma worked_fresh mx k e h : worked mx k e -> fresh_ids h -> fresh_ids (h ++ [e]).
Proof.
  intros Hw Hf. unfold fresh_ids, inserted_ids. rewrite omap_app.
  destruct Hw as [(? & ? & ? & ->)|(? & ? & ? & ? & ->)]; cbn; by rewrite app_nil_r.
Qed.
Lemma worked_waiting mx h k r e : fresh_ids h -> waiting (after h) k = Some r -> worked mx k e ->
  forall k' r', waiting (after (h ++ [e])) k' = Some r' ->
  exists r0, waiting (after h) k' = Some r0 /\ reports_left mx r' <= reports_left mx r0 /\ (k' = k -> reports_left mx r' < reports_left mx r0).
Proof.
  intros Hf Hw He k' r' Hr'. pose proof (worked_fresh _ _ _ h He Hf) as Hf'.
  destruct (decide (k'.1 = k.1)) as [Ek|Ek].
  2: { destruct (isolation h e k'.1 Hf') as (_ & H2 & _).
    - destruct He as [(? & ? & ? & ->)|(? & ? & ? & ? & ->)]; cbn; congruence.
    - destruct He as [(? & ? & ? & ->)|(? & ? & ? & ? & ->)]; cbn; by intros [].
    - exists r'. rewrite <- Hr'. split; [destruct k'; apply H2|]. split; [lia|]. intros ->. done. }
  destruct k as [id ix], k' as [id' i]. cbn in Ek. subst id'. destruct He as [(out & n1 & n2 & ->)|(f & n1 & n2 & n3 & ->)].
  - pose proof (complete_waiting h id ix r out n1 n2 Hf Hw) as Hc. rewrite waiting_view in Hw, Hr' |- *. rewrite completed_chunk_view in Hc.
    apply fmap_Some in Hc as (rc & Hc & _). pose proof (vi_cdone _ (vinv_after _ id Hf') _ _ Hc) as [Hno _].
    assert (i <> ix) by (intros ->; by rewrite Hno in Hr').
    exists r'. split; [|split; [lia|congruence]]. pose proof (change_after h _ id Hf') as Hch. revert Hch Hr' Hno.
    generalize (view_of (after h) id). generalize (view_of (after (h ++ [quiet (OComplete (id, ix) out n1 n2)])) id). intros v' v Hch.
    inversion Hch; subst; cbn; intros Hr' Hno; try done. by rewrite lookup_delete_ne in Hr' by done.
  - destruct (decide (c_retries r + 1 < mx)) as [Hlt|Hge].
    + destruct (fail_report_retry h id ix r f mx n1 n2 n3 Hf Hw Hlt) as (_ & H1 & _ & H2 & _).
      destruct (decide (i = ix)) as [->|Hne].
      * rewrite Hr' in H1. injection H1 as ->. exists r. split; [done|]. unfold reports_left. cbn. split; [lia|]. intros _. lia.
      * exists r'. rewrite <- (H2 i Hne). split; [done|]. split; [lia|]. congruence.
    + destruct (fail_report_final h id ix r f mx n1 n2 n3 Hf Hw ltac:(lia)) as (_ & s & _ & _ & H1 & _). rewrite H1 in Hr'. done.
Qed.
(** [l] lists the waiting chunks. *)
Definition lists_waiting (d : db) (l : list chunk) : Prop := enumerates l (fun r => waiting d (c_sub r, c_index r) = Some r).
Definition work_left (mx : N) (l : list chunk) : N := sum_N (reports_left mx <$> l).
Lemma waiting_key d k r : waiting d k = Some r -> (c_sub r, c_index r) = k.
Proof. intros (c & _ & ->)%waiting_some. by destruct k. Qed.
Lemma lists_nodup d l : lists_waiting d l -> NoDup ((fun r => (c_sub r, c_index r)) <$> l).
Proof.
  intros [Hnd Hl]. apply NoDup_fmap_2_strong; [|done]. intros x y Hx%Hl Hy%Hl E. rewrite E in Hx. congruence.
Qed.
Lemma work_decreases mx h k e l l' : fresh_ids h -> is_Some (waiting (after h) k) -> worked mx k e ->
  lists_waiting (after h) l -> lists_waiting (after (h ++ [e])) l' -> work_left mx l' < work_left mx l.
Proof.
  intros Hf [r Hw] He Hl Hl'. unfold work_left. pose proof (worked_waiting mx h k r e Hf Hw He) as Hall.
  apply (sum_lt (fun r => (c_sub r, c_index r)) (reports_left mx) l l' r).
  - by eapply lists_nodup.
  - apply Hl. by rewrite (waiting_key _ _ _ Hw).
  - intros x' Hx'. apply Hl' in Hx'. destruct (Hall _ _ Hx') as (r0 & H0 & Hle & _). exists r0.
    pose proof (waiting_key _ _ _ H0) as Hk. split; [apply Hl; by rewrite Hk|done].
  - intros x' Hx' Hk. apply Hl' in Hx'. rewrite (waiting_key _ _ _ Hw) in Hk. destruct (Hall _ _ Hx') as (r0 & H0 & _ & Hlt).
    rewrite Hk, Hw in H0. injection H0 as <-. by apply Hlt.
  - unfold reports_left. lia.
Qed.
(** Consumers work: each event is a report on a chunk that is waiting then. *)
Fixpoint working (mx : N) (h : history) (es : list event) : Prop :=
  match es with [] => True | e :: es => (exists k, is_Some (waiting (after h) k) /\ worked mx k e) /\ working mx (h ++ [e]) es end.
Lemma lists_exists d : exists l, lists_waiting d l.
Proof.
  exists ((fun p => Chunk p.1.1 p.1.2 (ch_input p.2) (ch_retries p.2)) <$> map_to_list (t_chunk d)).
  assert (Hw : forall k, waiting d k = (fun c => Chunk k.1 k.2 (ch_input c) (ch_retries c)) <$> t_chunk d !! k).
  { intros k. unfold waiting, get_chunk. rewrite exec_sql. by destruct (t_chunk d !! k). }
  split.
  - apply NoDup_fmap_2_strong; [|apply NoDup_map_to_list]. intros [[a b] c] [[a' b'] c'] H1%elem_of_map_to_list H2%elem_of_map_to_list E. cbn in E.
    injection E as <- <- _ _. rewrite H1 in H2. by injection H2 as <-.
  - intros r. rewrite elem_of_list_fmap, Hw. split.
    + intros ([[a b] c] & -> & Hin%elem_of_map_to_list). cbn. by rewrite Hin.
    + intros H. apply fmap_Some in H as (c & Hc & E). exists ((c_sub r, c_index r), c). split; [exact E|]. by apply elem_of_map_to_list.
Qed.
Lemma working_bounded mx es : forall h l, fresh_ids h -> working mx h es -> lists_waiting (after h) l -> N.of_nat (length es) <= work_left mx l.
Proof.
  induction es as [|e es IH]; intros h l Hf Hw Hl; [cbn; lia|]. destruct Hw as [(k & Hk & He) Hw].
  destruct (lists_exists (after (h ++ [e]))) as [l' Hl']. pose proof (work_decreases mx h k e l l' Hf Hk He Hl Hl').
  specialize (IH (h ++ [e]) l' (worked_fresh _ _ _ _ He Hf) Hw Hl'). cbn [length]. lia.
Qed.
Lemma working_fresh mx es : forall h, fresh_ids h -> working mx h es -> fresh_ids (h ++ es).
Proof.
  induction es as [|e es IH]; intros h Hf Hw; [by rewrite app_nil_r|]. destruct Hw as [(k & Hk & He) Hw].
  specialize (IH (h ++ [e]) (worked_fresh _ _ _ _ He Hf) Hw). by rewrite <- app_assoc in IH.
Qed.
Lemma working_no_cleanup mx es : forall h, working mx h es -> no_cleanup es.
Proof.
  induction es as [|e es IH]; intros h Hw; [constructor|]. destruct Hw as [(k & Hk & He) Hw]. constructor; [|by eapply IH].
  destruct He as [(? & ? & ? & ->)|(? & ? & ? & ? & ->)]; cbn; by intros [].
Qed.

(** *** A chunk of a known submission that is not waiting never waits again *)
Lemma not_waiting_step h e id i : fresh_ids (h ++ [e]) -> id ∈ inserted_ids h -> waiting (after h) (id, i) = None -> waiting (after (h ++ [e])) (id, i) = None.
Proof.
  intros Hf Hid. rewrite !waiting_view. pose proof (change_after h e id Hf) as Hc. apply fresh_ids_app in Hf as [Hf Hi].
  remember (e_op e) as op eqn:Eop. revert Hc. generalize (view_of (after h) id) (view_of (after (h ++ [e])) id). intros v v' Hc.
  inversion Hc; subst; cbn; try done.
  - exfalso. destruct (Hi id); [|done]. unfold History.insert_id. by rewrite <- H.
  - intros Hn%fmap_None. apply fmap_None. rewrite lookup_delete_None. auto.
  - intros Hn%fmap_None. destruct (decide (i = ix)) as [->|Hne]; [congruence|]. by rewrite lookup_insert_ne, Hn.
Qed.
Lemma not_waiting_forever h h' id i : fresh_ids (h ++ h') -> id ∈ inserted_ids h -> waiting (after h) (id, i) = None -> waiting (after (h ++ h')) (id, i) = None.
Proof.
  intros Hf Hid Hw. induction h' as [|e h' IH] using rev_ind; [by rewrite app_nil_r|]. rewrite app_assoc in *.
  apply not_waiting_step; [done| |].
  - unfold inserted_ids. rewrite omap_app. apply elem_of_app. by left.
  - apply IH. by eapply fresh_prefix.
Qed.
Lemma completed_not_waiting h k c : fresh_ids h -> completed_chunk (after h) k = Some c -> waiting (after h) k = None.
Proof.
  intros Hf. destruct k as [id i]. rewrite completed_chunk_view, waiting_view. intros (r & Hr & _)%fmap_Some.
  by destruct (vi_cdone _ (vinv_after h id Hf) _ _ Hr) as [-> _].
Qed.
Lemma waiting_inserted h k r : fresh_ids h -> waiting (after h) k = Some r -> k.1 ∈ inserted_ids h.
Proof.
  intros Hf Hw. destruct k as [id i]. destruct (decide (id ∈ inserted_ids h)); [done|]. by rewrite waiting_view, view_fresh in Hw.
Qed.
(** After a completion that met no fault, a failure report has no effect. *)
Lemma failure_after_completion h1 h2 k out n1 n2 f mx t1 t2 t3 fs x :
  fresh_ids (h1 ++ [quiet (OComplete k out n1 n2)] ++ h2) -> k.1 ∈ inserted_ids h1 ->
  after ((h1 ++ [quiet (OComplete k out n1 n2)] ++ h2) ++ [Event (OFail k f mx t1 t2 t3) fs x]) = after (h1 ++ [quiet (OComplete k out n1 n2)] ++ h2).
Proof.
  intros Hf Hid. rewrite after_snoc. apply fail_not_waiting. rewrite app_assoc in *. pose proof (fresh_prefix _ _ Hf) as Hf1. pose proof (fresh_prefix _ _ Hf1) as Hf0.
  destruct k as [id i]. apply not_waiting_forever; [done| |].
  - unfold inserted_ids. rewrite omap_app. apply elem_of_app. by left.
  - destruct (waiting (after h1) (id, i)) as [r|] eqn:Ew.
    + eapply completed_not_waiting; [done|]. by eapply complete_waiting.
    + by apply not_waiting_step.
Qed.

Lemma failures_not_waiting h h' k : fresh_ids (h ++ h') -> k.1 ∈ inserted_ids h -> waiting (after h) k = None -> failures (h ++ h') k = failures h k.
Proof.
  intros Hf Hid Hw. induction h' as [|e h' IH] using rev_ind; [by rewrite app_nil_r|]. rewrite app_assoc in *. pose proof (fresh_prefix _ _ Hf) as Hf1.
  rewrite <- IH by done. rewrite failures_snoc.
  assert (H1 : waiting (after (h ++ h')) k = None) by (destruct k; by apply not_waiting_forever).
  assert (H2 : waiting (step (after (h ++ h')) e) k = None).
  { rewrite <- after_snoc. destruct k. apply not_waiting_step; [done| |done]. unfold inserted_ids. rewrite omap_app. apply elem_of_app. by left. }
  replace (counts_failure (after (h ++ h')) e k) with false; [lia|]. unfold counts_failure. destruct (e_op e); try done.
  rewrite H1, H2. symmetry. apply andb_false_iff. right. apply bool_decide_eq_false_2; intros Hx; by apply Hx.
Qed.
Lemma complete_ends h k out n1 n2 : fresh_ids h -> k.1 ∈ inserted_ids h -> waiting (after (h ++ [quiet (OComplete k out n1 n2)])) k = None.
Proof.
  intros Hf Hid. assert (Hf1 : fresh_ids (h ++ [quiet (OComplete k out n1 n2)])).
  { unfold fresh_ids, inserted_ids. rewrite omap_app. cbn. by rewrite app_nil_r. }
  destruct k as [id i]. destruct (waiting (after h) (id, i)) as [r|] eqn:Ew.
  - eapply completed_not_waiting; [done|]. by eapply complete_waiting.
  - by apply not_waiting_step.
Qed.
Lemma completed_no_cleanup h h' k c : fresh_ids (h ++ h') -> no_cleanup h' -> completed_chunk (after h) k = Some c -> completed_chunk (after (h ++ h')) k = Some c.
Proof.
  intros Hf Hn Hc. induction h' as [|e h' IH] using rev_ind; [by rewrite app_nil_r|]. rewrite app_assoc in *. unfold no_cleanup in Hn. rewrite Forall_app in Hn. destruct Hn as [Hn He].
  specialize (IH (fresh_prefix _ _ Hf) Hn). apply Forall_cons_1 in He as [He _]. revert IH. destruct k as [id i]. rewrite !completed_chunk_view.
  pose proof (change_after _ e id Hf) as Hch. remember (e_op e) as op eqn:Eop. revert Hch. generalize (view_of (after (h ++ h')) id) (view_of (after ((h ++ h') ++ [e])) id). intros v v' Hch.
  inversion Hch; subst; cbn; try done.
  - intros Hl. rewrite lookup_insert_ne; [done|]. intros ->. match goal with Hx : cd !! _ = None |- _ => by rewrite Hx in Hl end.
  - intros Hl. rewrite lookup_insert_ne; [done|]. intros ->. match goal with Hx : cd !! _ = None |- _ => by rewrite Hx in Hl end.
  - exfalso. apply He. unfold is_cleanup. match goal with E : _ = e_op e |- _ => by rewrite <- E end.
Qed.

(** *** Where working leads *)
Definition moved (id : sub_id) (total : N) (es : list event) (v : view) : Prop :=
  (exists r, v_sub v = Some r /\ sr_total r = total) \/
  (v_sub v = None /\ is_Some (v_comp v)) \/
  (v_sub v = None /\ v_comp v = None /\ is_Some (v_fail v) /\ Exists (fun e => exists ix f mx n1 n2 n3, e_op e = OFail (id, ix) f mx n1 n2 n3) es).
Lemma moved_step id total es e o v v' :
  (exists k out n1 n2, o = OComplete k out n1 n2) \/ (exists k f mx n1 n2 n3, o = OFail k f mx n1 n2 n3) ->
  e_op e = o -> change o id v v' -> moved id total es v -> moved id total (es ++ [e]) v'.
Proof.
  intros Ho He Hc Hm. assert (Hm' : moved id total (es ++ [e]) v).
  { destruct Hm as [Hm|[Hm|(H1 & H2 & H3 & Hm)]]; [by left|by right; left|]. right. right. split_and!; try done. apply Exists_app. by left. }
  clear Hm. destruct Hc; try done.
  - destruct Ho as [(? & ? & ? & ? & Ho)|(? & ? & ? & ? & ? & ? & Ho)]; discriminate Ho.
  - destruct Ho as [(? & ? & ? & ? & Ho)|(? & ? & ? & ? & ? & ? & Ho)]; discriminate Ho.
  - destruct Hm' as [(r & [= <-] & Hr)|[[? _]|[? _]]]; [|done|done]. left. eexists. split; [done|]. exact Hr.
  - right. left. cbn. eauto.
  - destruct Hm' as [(r & [= <-] & Hr)|[[? _]|[? _]]]; [|done|done]. right. right. cbn. split_and!; eauto. apply Exists_app. right. left. naive_solver.
  - destruct Ho as [(? & ? & ? & ? & Ho)|(? & ? & ? & ? & ? & ? & Ho)]; discriminate Ho.
  - destruct Ho as [(? & ? & ? & ? & Ho)|(? & ? & ? & ? & ? & ? & Ho)]; discriminate Ho.
  - destruct Ho as [(? & ? & ? & ? & Ho)|(? & ? & ? & ? & ? & ? & Ho)]; discriminate Ho.
Qed.
Lemma worked_op mx k e : worked mx k e ->
  (exists k out n1 n2, e_op e = OComplete k out n1 n2) \/ (exists k f mx n1 n2 n3, e_op e = OFail k f mx n1 n2 n3).
Proof. intros [(? & ? & ? & ->)|(? & ? & ? & ? & ->)]; cbn; [left|right]; repeat eexists. Qed.
Lemma moved_run mx id total es : forall h es0, fresh_ids h -> working mx h es -> moved id total es0 (view_of (after h) id) -> moved id total (es0 ++ es) (view_of (after (h ++ es)) id).
Proof.
  induction es as [|e es IH]; intros h es0 Hf Hw Hm; [by rewrite !app_nil_r|]. destruct Hw as [(k & Hk & He) Hw].
  pose proof (worked_fresh mx k e h He Hf) as Hf'. specialize (IH (h ++ [e]) (es0 ++ [e]) Hf' Hw). rewrite <- !app_assoc in IH. apply IH.
  by eapply moved_step; [by eapply worked_op|done|apply change_after|].
Qed.
Lemma working_ends mx h es id s :
  fresh_ids h -> clocks_ok (h ++ es) \/ no_cleanup h -> working mx h es -> (forall i, waiting (after (h ++ es)) (id, i) = None) ->
  reports (after h) id (InProgress s) -> 0 < s_total s ->
  (exists c, reports (after (h ++ es)) id (Completed c)) \/
  (exists f c, reports (after (h ++ es)) id (Failed f c) /\ Exists (fun e => exists ix m mx' n1 n2 n3, e_op e = OFail (id, ix) m mx' n1 n2 n3) es).
Proof.
  intros Hf Hk Hw Hall Hs Hpos. pose proof (working_fresh _ _ _ Hf Hw) as Hf'.
  assert (Hr : exists r, status_of (after (h ++ es)) id = Ok r).
  { apply status_readable; [done|]. destruct Hk as [Hk|Hn]; [by left|right]. apply Forall_app. split; [done|]. by eapply working_no_cleanup. }
  destruct (proj1 (reports_in_progress _ _ _) Hs) as (r & Hr0 & Es).
  assert (Hm : moved id (s_total s) [] (view_of (after h) id)) by (left; exists r; rewrite Es; done).
  apply (moved_run mx id (s_total s) es h [] Hf Hw) in Hm. cbn [app] in Hm.
  destruct Hm as [(r' & Hr' & Ht)|[[Hn [c Hc]]|(Hn & Hn' & [c Hc] & He)]].
  - exfalso. assert (Hp : reports (after (h ++ es)) id (InProgress (Submission id (sr_prefix r') (sr_total r') (sr_done r') (size_of (sr_size r')) (sr_meta r') (v_meta (view_of (after (h ++ es)) id)) (sr_otel r')))).
    { apply reports_in_progress. by exists r'. }
    destruct (in_progress_open _ _ _ Hf' Hp) as [H0|(i & _ & _ & [w Hi])]; [cbn in H0; lia|]. by rewrite Hall in Hi.
  - left. unfold reports. rewrite status_of_view. unfold status_v. rewrite Hn, Hc. by eexists.
  - right. destruct Hr as [st Hr]. unfold reports. rewrite Hr. rewrite status_of_view in Hr. unfold status_v in Hr. rewrite Hn, Hn', Hc in Hr.
    destruct (v_cfail _ !! _); [|done]. injection Hr as <-. by eexists _, _.
Qed.
(** Working can always go on until nothing is left, by completions alone. *)
Definition completing (e : event) : Prop := exists k out n, e = quiet (OComplete k out n n).
Lemma completing_all mx h : fresh_ids h -> exists es, working mx h es /\ Forall completing es /\ forall k, waiting (after (h ++ es)) k = None.
Proof.
  intros Hf. destruct (lists_exists (after h)) as [l Hl]. remember (work_left mx l) as n eqn:En. revert h Hf l Hl En.
  induction (N.lt_wf_0 n) as [n _ IH]. intros h Hf l Hl ->. destruct l as [|r l].
  - exists []. rewrite app_nil_r. split; [done|]. split; [done|]. intros k. destruct (waiting (after h) k) as [r|] eqn:Ew; [|done].
    assert (Hr : r ∈ []) by (apply Hl; by rewrite (waiting_key _ _ _ Ew)). by apply elem_of_nil in Hr.
  - assert (Hw : waiting (after h) (c_sub r, c_index r) = Some r) by (apply Hl; left).
    set (e := quiet (OComplete (c_sub r, c_index r) None 0 0)).
    assert (He : worked mx (c_sub r, c_index r) e) by (left; by eexists _, _, _).
    destruct (lists_exists (after (h ++ [e]))) as [l' Hl'].
    pose proof (work_decreases mx h _ e _ l' Hf ltac:(by eexists) He Hl Hl') as Hlt.
    destruct (IH _ Hlt (h ++ [e]) (worked_fresh _ _ _ _ He Hf) l' Hl' eq_refl) as (es & H1 & H2 & H3).
    exists (e :: es). split; [|split].
    + split; [|done]. exists (c_sub r, c_index r). split; [by eexists|done].
    + constructor; [|done]. by eexists _, _, _.
    + intros k. rewrite cons_middle, app_assoc. apply H3.
Qed.
