(** Lemmas for PropPyStream.v. *)
From Verif Require Export PyStream.
Local Open Scope N_scope.

Section proofs.
Context (base prefix : string) (total : N).
Notation srun := (srun base prefix total).
Notation snext := (snext base prefix total).

Record sinv (s : stream) (out : list (N * got)) : Prop := {
  si_below : forall k i c, t_jobs s !! k = Some (Finished (Element i c)) -> i < t_next s;
  si_once : forall k k' i c c', t_jobs s !! k = Some (Finished (Element i c)) -> t_jobs s !! k' = Some (Finished (Element i c')) -> k = k';
  si_all : forall i, i < t_next s -> exists k c, t_jobs s !! k = Some (Finished (Element i c));
  si_total : t_next s <= total;
  si_stop : forall k, t_jobs s !! k = Some (Finished Stop) -> t_ended s = true;
  si_stop_once : forall k k', t_jobs s !! k = Some (Finished Stop) -> t_jobs s !! k' = Some (Finished Stop) -> k = k';
  si_ended : t_ended s = true -> t_next s = total;
  si_lock : forall k, t_lock s = Some k -> t_jobs s !! k = Some Fetching;
  si_callers : forall k, k ∈ t_callers s -> is_Some (t_jobs s !! k);
  si_out : forall k g, (k, g) ∈ out -> t_jobs s !! k = Some (Finished g) /\ k ∉ t_callers s;
  si_nodup : NoDup out.*1 }.
Lemma sinv_new : sinv stream_new [].
Proof. split; cbn; try done; try (intros; set_solver); try lia; intros *; try rewrite lookup_empty; try done; try lia. constructor. Qed.
Lemma sinv_step l s s' o out : sinv s out -> snext l s = Some (s', o) -> sinv s' (out ++ o).
Proof.
  intros [I1 I2 I3 I4 I5 I6 I7 I8 I9 I10 I11] H. destruct s as [next ended lock jobs callers]. cbn in *. destruct l; cbn in H.
  - destruct (jobs !! k) eqn:E; [done|]. simplify_eq. rewrite app_nil_r.
    assert (Hf : forall k' g, <[k := Queued]> jobs !! k' = Some (Finished g) -> jobs !! k' = Some (Finished g)).
    { intros k' g Hk. destruct (decide (k' = k)) as [->|]; [by rewrite lookup_insert in Hk|by rewrite lookup_insert_ne in Hk]. }
    split; cbn; eauto.
    + intros i Hi. destruct (I3 i Hi) as (k' & c & Hk). exists k', c. rewrite lookup_insert_ne; [done|]. intros ->. congruence.
    + intros k' Hk. apply I8 in Hk. rewrite lookup_insert_ne; [done|]. intros ->. congruence.
    + intros k' Hk. destruct (decide (k' = k)) as [->|]; [rewrite lookup_insert; eauto|]. rewrite lookup_insert_ne by done. apply I9. set_solver.
    + intros k' g Hk. destruct (I10 _ _ Hk) as [Hk1 Hk2]. assert (k' <> k) by congruence. rewrite lookup_insert_ne by done. split; [done|set_solver].
  - destruct lock; [done|]. destruct (jobs !! k) as [[]|] eqn:E; try done. simplify_eq. rewrite app_nil_r.
    assert (Hf : forall k' g, <[k := Fetching]> jobs !! k' = Some (Finished g) -> jobs !! k' = Some (Finished g)).
    { intros k' g Hk. destruct (decide (k' = k)) as [->|]; [by rewrite lookup_insert in Hk|by rewrite lookup_insert_ne in Hk]. }
    split; cbn; eauto.
    + intros i Hi. destruct (I3 i Hi) as (k' & c & Hk). exists k', c. rewrite lookup_insert_ne; [done|]. intros ->. congruence.
    + intros k' [= <-]. by rewrite lookup_insert.
    + intros k' Hk. destruct (decide (k' = k)) as [->|]; [rewrite lookup_insert; eauto|]. rewrite lookup_insert_ne by done. by apply I9.
    + intros k' g Hk. destruct (I10 _ _ Hk) as [Hk1 Hk2]. assert (k' <> k) by congruence. by rewrite lookup_insert_ne by done.
  - destruct (bool_decide (lock = Some k)) eqn:E; [|done]. apply bool_decide_eq_true in E. subst lock. pose proof (I8 k eq_refl) as Hk0.
    destruct (stream_step base prefix total o0 next ended) as [[g next'] ended'] eqn:Es. simplify_eq. rewrite app_nil_r. unfold stream_step in Es.
    assert (Hn : forall k' g', jobs !! k' = Some (Finished g') -> k' <> k) by (intros k' g' Hk ->; congruence).
    assert (Hc : forall k', k' ∈ callers -> is_Some (<[k := Finished g]> jobs !! k')).
    { intros k' Hk. destruct (decide (k' = k)) as [->|]; [rewrite lookup_insert; eauto|]. rewrite lookup_insert_ne by done. by apply I9. }
    assert (Ho : forall k' g', (k', g') ∈ out -> <[k := Finished g]> jobs !! k' = Some (Finished g') /\ k' ∉ callers).
    { intros k' g' Hk. destruct (I10 _ _ Hk) as [Hk1 Hk2]. rewrite lookup_insert_ne; [done|]. intros <-. by apply (Hn _ _ Hk1). }
    assert (Hf : forall k' g', <[k := Finished g]> jobs !! k' = Some (Finished g') -> k' = k /\ g' = g \/ k' <> k /\ jobs !! k' = Some (Finished g')).
    { intros k' g' Hk. destruct (decide (k' = k)) as [->|]; [rewrite lookup_insert in Hk; left; split; congruence|rewrite lookup_insert_ne in Hk by done; by right]. }
    assert (Ha : forall i, i < next -> exists k' c, <[k := Finished g]> jobs !! k' = Some (Finished (Element i c))).
    { intros i Hi. destruct (I3 i Hi) as (k' & c & Hk). exists k', c. rewrite lookup_insert_ne; [done|]. intros <-. by apply (Hn _ _ Hk). }
    destruct ended.
    + simplify_eq. split; cbn; eauto.
      * intros k' i c Hk. apply Hf in Hk as [[_ ?]|[_ Hk]]; [done|eauto].
      * intros k1 k2 i c c' H1 H2. apply Hf in H1 as [[_ ?]|[_ H1]]; [done|]. apply Hf in H2 as [[_ ?]|[_ H2]]; [done|]. eauto.
      * intros k1 k2 H1 H2. apply Hf in H1 as [[_ ?]|[_ H1]]; [done|]. apply Hf in H2 as [[_ ?]|[_ H2]]; [done|]. eauto.
      * done.
    + assert (Hs : forall k', jobs !! k' <> Some (Finished Stop)) by (intros k' Hk; by apply I5 in Hk).
      destruct (total <=? next) eqn:El; simplify_eq.
      * apply N.leb_le in El. split; cbn; eauto; try done.
        -- intros k' i c Hk. apply Hf in Hk as [[_ ?]|[_ Hk]]; [done|eauto].
        -- intros k1 k2 i c c' H1 H2. apply Hf in H1 as [[_ ?]|[_ H1]]; [done|]. apply Hf in H2 as [[_ ?]|[_ H2]]; [done|]. eauto.
        -- intros k1 k2 H1 H2. apply Hf in H1 as [[-> _]|[_ H1]]; [|by apply Hs in H1]. apply Hf in H2 as [[-> _]|[_ H2]]; [done|by apply Hs in H2].
        -- lia.
      * apply N.leb_gt in El. split; cbn; eauto; try done; try lia.
        -- intros k' i c Hk. apply Hf in Hk as [[_ Hg]|[_ Hk]]; [simplify_eq; lia|]. apply I1 in Hk. lia.
        -- intros k1 k2 i c c' H1 H2. apply Hf in H1 as [[-> Hg1]|[_ H1]]; apply Hf in H2 as [[-> Hg2]|[_ H2]]; simplify_eq; try done; eauto.
           ++ apply I1 in H2. lia.
           ++ apply I1 in H1. lia.
        -- intros i Hi. destruct (decide (i = next)) as [->|]; [|apply Ha; lia]. eexists k, _. by rewrite lookup_insert.
        -- intros k' Hk. apply Hf in Hk as [[_ ?]|[_ Hk]]; [done|]. by apply Hs in Hk.
        -- intros k1 k2 H1 _. apply Hf in H1 as [[_ ?]|[_ H1]]; [done|]. by apply Hs in H1.
  - destruct (jobs !! k) as [[| |g]|] eqn:E; try done. destruct (bool_decide (k ∈ callers)) eqn:Eb; [|done]. apply bool_decide_eq_true in Eb. simplify_eq.
    split; cbn; eauto.
    + intros k' Hk. apply I9. set_solver.
    + intros k' g' Hk. apply elem_of_app in Hk as [Hk|Hk].
      * destruct (I10 _ _ Hk). split; [done|set_solver].
      * apply elem_of_list_singleton in Hk. simplify_eq. split; [done|set_solver].
    + rewrite fmap_app. apply NoDup_app. split; [done|]. split; [|apply NoDup_singleton]. intros k' Hk Hk'. apply elem_of_list_singleton in Hk'. cbn in Hk'. subst k'.
      apply elem_of_list_fmap in Hk as ([k' g'] & -> & Hk). by destruct (I10 _ _ Hk).
  - destruct (bool_decide (k ∈ callers)) eqn:Eb; [|done]. simplify_eq. rewrite app_nil_r. split; cbn; eauto.
    + intros k' Hk. apply I9. set_solver.
    + intros k' g Hk. destruct (I10 _ _ Hk). split; [done|set_solver].
Qed.
Lemma sinv_run ok tr out s : srun ok tr out s -> sinv s out.
Proof. induction 1; [apply sinv_new|by eapply sinv_step]. Qed.

Lemma indices_elem i out : i ∈ indices out <-> exists k c, (k, Element i c) ∈ out.
Proof.
  unfold indices. rewrite elem_of_list_omap. split.
  - intros ([k g] & H & E). destruct g; cbn in E; simplify_eq. eauto.
  - intros (k & c & H). by exists (k, Element i c).
Qed.
Lemma indices_once ok tr out s : srun ok tr out s -> NoDup (indices out) /\ Forall (fun i => i < total) (indices out).
Proof.
  intros Hr. apply sinv_run in Hr as [I1 I2 I3 I4 I5 I6 I7 I8 I9 I10 I11]. split.
  - clear - I2 I10 I11. induction out as [|[k g] out IH]; [constructor|]. cbn in I11. apply NoDup_cons in I11 as [Hk I11].
    assert (IH' : NoDup (indices out)) by (apply IH; [intros k' g' H; apply I10; by right|done]).
    unfold indices. cbn. destruct g; try done. fold (indices out). apply NoDup_cons. split; [|done]. rewrite indices_elem. intros (k' & c' & Hin).
    destruct (I10 k (Element i c) ltac:(by left)) as [H1 _]. destruct (I10 k' (Element i c') ltac:(by right)) as [H2 _].
    pose proof (I2 _ _ _ _ _ H1 H2) as ->. apply Hk, elem_of_list_fmap. by exists (k', Element i c').
  - apply Forall_forall. intros i Hi. apply indices_elem in Hi as (k & c & Hin). apply I10 in Hin as [Hin _]. apply I1 in Hin. lia.
Qed.
Lemma stop_once ok tr out s k k' : srun ok tr out s -> (k, Stop) ∈ out -> (k', Stop) ∈ out -> k = k'.
Proof. intros Hr H1 H2. apply sinv_run in Hr. apply (si_out _ _ Hr) in H1 as [H1 _], H2 as [H2 _]. by eapply si_stop_once. Qed.

(** Without cancellations every task has a caller. *)
Lemma asked_run tr out s (ok : stream -> slabel -> Prop) : (forall s l, ok s l -> not_cancelled s l) -> srun ok tr out s ->
  forall k, is_Some (t_jobs s !! k) -> k ∈ t_callers s \/ k ∈ out.*1.
Proof.
  intros Hok. induction 1 as [|tr out s l s' o Hr IH Ho Hst]; [intros k [j Hj]; cbn in Hj; by rewrite lookup_empty in Hj|].
  apply Hok in Ho. intros k Hk. destruct s as [next ended lock jobs callers]. cbn in *.
  assert (Hi : forall k' j, is_Some (<[k' := j]> jobs !! k) -> k = k' \/ is_Some (jobs !! k)).
  { intros k' j. destruct (decide (k = k')) as [->|]; [by left|]. rewrite lookup_insert_ne by done. by right. }
  destruct l; cbn in Hst, Ho.
  - destruct (jobs !! k0) eqn:E; [done|]. simplify_eq. rewrite app_nil_r. cbn in *. apply Hi in Hk as [->|Hk]; [set_solver|]. destruct (IH _ Hk); set_solver.
  - destruct lock; [done|]. destruct (jobs !! k0) as [[]|] eqn:E; try done. simplify_eq. rewrite app_nil_r. cbn in *. apply Hi in Hk as [->|Hk]; [apply IH; eauto|by apply IH].
  - destruct (bool_decide (lock = Some k0)) eqn:E; [|done]. apply bool_decide_eq_true in E. pose proof (sinv_run _ _ _ _ Hr) as Hi'.
    destruct (stream_step _ _ _ _ _ _) as [[g next'] ended']. simplify_eq. rewrite app_nil_r. cbn in *. apply Hi in Hk as [->|Hk]; [apply IH|by apply IH].
    pose proof (si_lock _ _ Hi' k0 eq_refl) as HL. cbn in HL. rewrite HL. eauto.
  - destruct (jobs !! k0) as [[| |g]|] eqn:E; try done. destruct (bool_decide _) eqn:Eb; [|done]. simplify_eq. cbn in *. rewrite fmap_app. cbn.
    destruct (decide (k = k0)) as [->|]; [right; set_solver|]. destruct (IH _ Hk); set_solver.
  - done.
Qed.
Lemma none_lost tr out s (ok : stream -> slabel -> Prop) k i : (forall s l, ok s l -> not_cancelled s l) -> srun ok tr out s ->
  t_callers s = ∅ -> (k, Stop) ∈ out -> i < total -> i ∈ indices out.
Proof.
  intros Hok Hr Hc Hs Hi. pose proof (sinv_run _ _ _ _ Hr) as I. apply (si_out _ _ I) in Hs as [Hs _]. apply (si_stop _ _ I) in Hs. apply (si_ended _ _ I) in Hs.
  destruct (si_all _ _ I i) as (k' & c & Hk); [lia|]. apply indices_elem. exists k', c.
  destruct (asked_run _ _ _ _ Hok Hr k') as [Hin|Hin]; [eauto|set_solver|]. apply elem_of_list_fmap in Hin as ([k2 g] & E & Hin). cbn in E. subst k2.
  pose proof (si_out _ _ I _ _ Hin) as [Hk' _]. rewrite Hk in Hk'. by simplify_eq.
Qed.

(** One call after the other *)
Definition outcome (o : objects) (i : nat) : got := Element (N.of_nat i) (retrieve_chunk base prefix (N.of_nat i) Output o).
Definition outcomes (o : objects) (n : nat) : list got := outcome o <$> seq 0 n.
Lemma outcomes_S o n : outcomes o (S n) = outcomes o n ++ [outcome o n].
Proof. unfold outcomes. by rewrite seq_S, fmap_app. Qed.
Definition protocol (o : objects) (n : N) (ended : bool) (p : nat) : list got :=
  outcomes o (N.to_nat n) ++ (if ended then Stop :: replicate p Panic else []).
Definition looping (o : objects) (s : stream) (out : list (N * got)) : Prop :=
  exists p, (forall k j, t_jobs s !! k = Some j -> (j = Queued \/ j = Fetching) -> t_callers s = {[k]}) /\
    (t_callers s = ∅ /\ out.*2 = protocol o (t_next s) (t_ended s) p \/
     exists k j, t_callers s = {[k]} /\ t_jobs s !! k = Some j /\
       out.*2 ++ (match j with Finished g => [g] | _ => [] end) = protocol o (t_next s) (t_ended s) p).
Lemma loop_step o l s s' out x : sinv s out -> looping o s out -> plain_loop o s l -> snext l s = Some (s', x) -> looping o s' (out ++ x).
Proof.
  intros I (p & Hw & Hp) (Hl1 & Hl2 & Hl3) H. pose proof (si_lock _ _ I) as HL. destruct s as [next ended lock jobs callers]. cbn in *. destruct l; cbn in *.
  - destruct (jobs !! k) eqn:E; [done|]. simplify_eq. rewrite app_nil_r. exists p. cbn.
    replace ({[k]} ∪ ∅) with ({[k]} : gset N) by set_solver. split.
    + intros k' j Hk Hj. destruct (decide (k' = k)) as [->|]; [done|]. rewrite lookup_insert_ne in Hk by done. pose proof (Hw _ _ Hk Hj). set_solver.
    + destruct Hp as [[_ Hp]|(k' & j & Hc & _)]; [|set_solver]. right. exists k, Queued. rewrite lookup_insert, app_nil_r. done.
  - destruct lock; [done|]. destruct (jobs !! k) as [[]|] eqn:E; try done. simplify_eq. rewrite app_nil_r. exists p. cbn.
    pose proof (Hw _ _ E ltac:(by left)) as Hc. split.
    + intros k' j Hk Hj. destruct (decide (k' = k)) as [->|]; [done|]. rewrite lookup_insert_ne in Hk by done. by apply (Hw k' j).
    + destruct Hp as [[Hp _]|(k' & j & Hc' & Hj & Hp)]; [set_solver|]. assert (k' = k) as -> by set_solver. rewrite E in Hj. simplify_eq.
      right. exists k, Fetching. by rewrite lookup_insert.
  - destruct (bool_decide (lock = Some k)) eqn:E; [|done]. apply bool_decide_eq_true in E. subst. pose proof (HL k eq_refl) as Hk.
    pose proof (Hw _ _ Hk ltac:(by right)) as Hc. destruct Hp as [[Hp _]|(k' & j & Hc' & Hj & Hp)]; [set_solver|]. assert (k' = k) as -> by set_solver. rewrite Hk in Hj. simplify_eq.
    rewrite app_nil_r in Hp. unfold stream_step in H.
    assert (HW : forall g k' j, <[k := Finished g]> jobs !! k' = Some j -> j = Queued \/ j = Fetching -> ({[k]} : gset N) = {[k']}).
    { intros g k' j Hk' Hj. destruct (decide (k' = k)) as [->|]; [done|]. rewrite lookup_insert_ne in Hk' by done. by apply (Hw k' j). }
    destruct ended; [|destruct (total <=? next) eqn:El]; simplify_eq; rewrite app_nil_r.
    + exists (S p). cbn. split; [apply HW|]. right. exists k, (Finished Panic). rewrite lookup_insert. split; [done|]. split; [done|].
      rewrite Hp. unfold protocol. rewrite <- app_assoc. cbn. by rewrite <- replicate_cons_app.
    + exists 0%nat. cbn. split; [apply HW|]. right. eexists k, _. rewrite lookup_insert. split; [done|]. split; [done|]. cbn. rewrite Hp. unfold protocol. by rewrite app_nil_r.
    + exists 0%nat. cbn. split; [apply HW|]. right. eexists k, _. rewrite lookup_insert. split; [done|]. split; [done|]. cbn. rewrite Hp. unfold protocol. rewrite !app_nil_r.
      replace (N.to_nat (next + 1)) with (S (N.to_nat next)) by lia. rewrite outcomes_S. unfold outcome. by rewrite N2Nat.id.
  - destruct (jobs !! k) as [[| |g]|] eqn:E; try done. destruct (bool_decide (k ∈ callers)) eqn:Eb; [|done]. apply bool_decide_eq_true in Eb. simplify_eq.
    exists p. cbn. destruct Hp as [[Hp _]|(k' & j & Hc' & Hj & Hp)]; [set_solver|]. assert (k' = k) as -> by set_solver. rewrite E in Hj. simplify_eq. split.
    + intros k' j Hk Hj. pose proof (Hw _ _ Hk Hj). assert (k' = k) as -> by set_solver. rewrite E in Hk. by destruct Hj; simplify_eq.
    + left. split; [set_solver|]. by rewrite fmap_app.
  - done.
Qed.
Lemma loop_run o tr out s : srun (plain_loop o) tr out s -> looping o s out.
Proof.
  induction 1 as [|tr out s l s' x Hr IH Ho Hst].
  - exists 0%nat. cbn. split; [intros k j; by rewrite lookup_empty|]. by left.
  - eapply loop_step; [by eapply sinv_run|done|done|done].
Qed.
Lemma outcomes_all o : (outcomes o (N.to_nat total)) = (fun x => Element x.1 x.2) <$> (zip (N.of_nat <$> seq 0 (N.to_nat total)) (retrieve_chunks base prefix total Output (fun _ => o))).
Proof.
  unfold outcomes, retrieve_chunks. generalize (seq 0 (N.to_nat total)). intros l. induction l as [|i l IH]; [done|]. cbn. f_equal. apply IH.
Qed.
Lemma outcomes_take o n m : (n <= m)%nat -> outcomes o n = take n (outcomes o m).
Proof.
  intros Hn. unfold outcomes. rewrite <- fmap_take. f_equal. replace m with (n + (m - n))%nat by lia. rewrite seq_app, take_app_alt; [done|]. by rewrite seq_length.
Qed.
Lemma loop_prefix o tr out s : srun (plain_loop o) tr out s -> exists p, out.*2 `prefix_of` (outcomes o (N.to_nat total) ++ Stop :: replicate p Panic).
Proof.
  intros Hr. pose proof (sinv_run _ _ _ _ Hr) as I. destruct (loop_run _ _ _ _ Hr) as (p & _ & H).
  assert (Hp : out.*2 `prefix_of` protocol o (t_next s) (t_ended s) p).
  { destruct H as [[_ ->]|(k & j & _ & _ & <-)]; [done|by eexists]. }
  exists p. etrans; [exact Hp|]. unfold protocol. destruct (t_ended s) eqn:E.
  - by rewrite (si_ended _ _ I E).
  - rewrite app_nil_r. rewrite (outcomes_take o (N.to_nat (t_next s)) (N.to_nat total)); [|pose proof (si_total _ _ I); lia].
    exists (drop (N.to_nat (t_next s)) (outcomes o (N.to_nat total)) ++ Stop :: replicate p Panic). by rewrite app_assoc, take_drop.
Qed.

(** Runs that exist *)
Definition ready (n : N) (ended : bool) (c : N) (s : stream) : Prop :=
  t_next s = n /\ t_ended s = ended /\ t_lock s = None /\ t_callers s = ∅ /\ forall k, c <= k -> t_jobs s !! k = None.
Lemma call_once o (ok : stream -> slabel -> Prop) n e c tr out s : (forall s l, plain_loop o s l -> ok s l) -> srun ok tr out s -> ready n e c s ->
  exists tr' s', srun ok (tr ++ tr') (out ++ [(c, (stream_step base prefix total o n e).1.1)]) s' /\
    ready (stream_step base prefix total o n e).1.2 (stream_step base prefix total o n e).2 (c + 1) s' /\ Forall (fun l => match l with SCancel _ => False | _ => True end) tr'.
Proof.
  intros Hok Hr (H1 & H2 & H3 & H4 & H5). destruct s as [next ended lock jobs callers]. cbn in *. subst.
  destruct (stream_step base prefix total o n e) as [[g n'] e'] eqn:Es. cbn.
  exists [SCall c; SLock c; SFetch c o; SReturn c], (Stream n' e' None (<[c := Finished g]> (<[c := Fetching]> (<[c := Queued]> jobs))) (({[c]} ∪ ∅) ∖ {[c]})). split; [|split].
  - replace (tr ++ [SCall c; SLock c; SFetch c o; SReturn c]) with ((((tr ++ [SCall c]) ++ [SLock c]) ++ [SFetch c o]) ++ [SReturn c]) by (by rewrite <- !app_assoc).
    replace (out ++ [(c, g)]) with (((((out ++ []) ++ []) ++ [])) ++ [(c, g)]) by (by rewrite !app_nil_r).
    econstructor; [econstructor; [econstructor; [econstructor; [exact Hr| |]| |]| |]| |].
    + by apply Hok.
    + cbn. rewrite (H5 c) by lia. reflexivity.
    + by apply Hok.
    + cbn. rewrite lookup_insert. reflexivity.
    + by apply Hok.
    + cbn. rewrite bool_decide_eq_true_2 by done. rewrite Es. reflexivity.
    + by apply Hok.
    + cbn. rewrite lookup_insert. rewrite bool_decide_eq_true_2 by set_solver. reflexivity.
  - split_and!; cbn; try done; [set_solver|]. intros k Hk. rewrite !lookup_insert_ne by lia. apply H5. lia.
  - repeat constructor.
Qed.
Lemma call_many o (ok : stream -> slabel -> Prop) n c m tr out s : (forall s l, plain_loop o s l -> ok s l) -> srun ok tr out s -> ready n false c s -> n + N.of_nat m <= total ->
  exists tr' s' out', srun ok (tr ++ tr') (out ++ out') s' /\ ready (n + N.of_nat m) false (c + N.of_nat m) s' /\ Forall (fun l => match l with SCancel _ => False | _ => True end) tr' /\
    out'.*2 = outcome o <$> seq (N.to_nat n) m.
Proof.
  intros Hok. revert n c tr out s. induction m as [|m IH]; intros n c tr out s Hr Hs Hm.
  - exists [], s, []. rewrite !app_nil_r. replace (n + N.of_nat 0) with n by lia. replace (c + N.of_nat 0) with c by lia. split_and!; done.
  - destruct (call_once o ok n false c tr out s Hok Hr Hs) as (tr1 & s1 & Hr1 & Hs1 & Hc1). unfold stream_step in *.
    destruct (total <=? n) eqn:El; [apply N.leb_le in El; lia|]. cbn in Hr1, Hs1.
    destruct (IH (n + 1) (c + 1) _ _ _ Hr1 Hs1 ltac:(lia)) as (tr2 & s2 & out2 & Hr2 & Hs2 & Hc2 & Ho2).
    exists (tr1 ++ tr2), s2, ((c, Element n (retrieve_chunk base prefix n Output o)) :: out2). rewrite <- !app_assoc in Hr2. cbn in Hr2. split; [done|].
    assert (n + N.of_nat (S m) = n + 1 + N.of_nat m) as -> by lia. assert (c + N.of_nat (S m) = c + 1 + N.of_nat m) as -> by lia. split; [exact Hs2|].
    split; [by apply Forall_app|]. cbn. rewrite Ho2. f_equal; [unfold outcome; by rewrite N2Nat.id|]. by replace (N.to_nat (n + 1)) with (S (N.to_nat n)) by lia.
Qed.
Lemma ready_new : ready 0 false 0 stream_new.
Proof. split_and!; try done. Qed.
End proofs.
