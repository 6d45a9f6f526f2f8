(** A reserve request that nobody interferes with. *)
From Verif Require Export ServerProofs StrategyProofs.
From Verif Require Import QueueProofs RetryProofs.
Local Open Scope N_scope.

Lemma nodup_sublist {A} (l1 l2 : list A) : NoDup l2 -> sublist l1 l2 -> NoDup l1.
Proof.
  intros Hn Hs. induction Hs as [|x l1 l2 Hs IH|x l1 l2 Hs IH]; [done| |].
  - apply NoDup_cons in Hn as [Hx Hn]. apply NoDup_cons. split; [|auto]. intros Hin. apply Hx. by eapply elem_of_submseteq, sublist_submseteq.
  - apply NoDup_cons in Hn as [_ Hn]. auto.
Qed.
(** Leaving reserved chunks out of the rows afterwards is the same as asking for unreserved ones. *)
Lemma sorted_filter {A} (R : relation A) (P : A -> Prop) `{forall a, Decision (P a)} l : StronglySorted R l -> StronglySorted R (filter P l).
Proof.
  induction 1 as [|a l Hs IH Ha]; [constructor|]. rewrite filter_cons. destruct (decide (P a)); [|done]. constructor; [done|].
  rewrite Forall_forall in Ha |- *. intros b [_ Hb]%elem_of_list_filter. auto.
Qed.
Lemma filter_perm {A} (P : A -> Prop) `{forall a, Decision (P a)} (l l' : list A) : l ≡ₚ l' -> filter P l ≡ₚ filter P l'.
Proof. intros E. by rewrite E. Qed.
Lemma filter_swap {A} (P Q : A -> Prop) `{forall a, Decision (P a)} `{forall a, Decision (Q a)} (l : list A) : filter P (filter Q l) = filter Q (filter P l).
Proof. rewrite !list_filter_filter. apply list_filter_iff. intros a. tauto. Qed.
Lemma offers_filter s off d m rsv l : offers s off d m (fun _ => false) l ->
  offers s off d m rsv (filter (fun c => rsv (c_sub c, c_index c) = false) l).
Proof.
  assert (Ha : available d rsv = filter (fun c => rsv (c_sub c, c_index c) = false) (available d (fun _ => false))).
  { unfold available. rewrite list_filter_filter. apply list_filter_iff. intros c. tauto. }
  destruct s; cbn [offers].
  - intros [Hp Hs]. rewrite Ha. split; [by apply filter_perm|by apply sorted_filter].
  - intros [Hp Hs]. rewrite Ha. split; [by apply filter_perm|by apply sorted_filter].
  - intros (l1 & l2 & -> & H1 & H2). rewrite Ha. exists (filter (fun c => rsv (c_sub c, c_index c) = false) l1), (filter (fun c => rsv (c_sub c, c_index c) = false) l2).
    rewrite filter_app. split_and!; [done| |].
    + rewrite filter_swap. by apply filter_perm.
    + rewrite filter_swap. by apply filter_perm.
  - intros (ids & groups & Hq & Hg & ->). exists ids, (filter (fun c => rsv (c_sub c, c_index c) = false) <$> groups). split_and!; [done| |].
    + rewrite Ha. apply Forall2_fmap_r. eapply Forall2_impl; [exact Hg|]. cbn. intros id g Hp. rewrite filter_swap. by apply filter_perm.
    + clear Hg Hq. induction groups as [|g groups IH]; [done|]. cbn. by rewrite filter_app, IH.
Qed.

Lemma joined_stored d r : joined_submission d r = submission_of d (c_sub r) <$> t_sub d !! c_sub r.
Proof. unfold joined_submission. rewrite exec_get_submission. by destruct (t_sub d !! c_sub r). Qed.
Lemma joined_reports d r sub : joined_submission d r = Some sub <-> reports d (c_sub r) (InProgress sub).
Proof.
  rewrite joined_stored. unfold reports, status_of. rewrite exec_status.
  destruct (t_sub d !! c_sub r) as [sr|]; cbn; [split; intros [= ->]; done|]. split; [done|].
  destruct (t_comp d !! c_sub r); cbn; [done|]. destruct (t_fail d !! c_sub r); cbn; [|by destruct (t_canc d !! c_sub r)].
  by destruct (t_cfail d !! _).
Qed.
Lemma waiting_joined h r c : fresh_ids h -> waiting (after h) (cid_of r) = Some c -> exists sub, joined_submission (after h) r = Some sub.
Proof.
  intros Hf Hw. assert (He : Chunk (c_sub r) (c_index r) (c_input c) (c_retries c) = c).
  { apply waiting_some in Hw as (row & _ & ->). done. }
  destruct (reachable_have_sub h Hf c) as [sr Hs].
  { apply elem_all_chunks. rewrite <- He in Hw |- *. done. }
  rewrite <- He in Hs. cbn in Hs. rewrite joined_stored, Hs. cbn. eauto.
Qed.

Lemma deliver_fwd ns : forall cs c x, cs !! c = Some x ->
  exists rx, foldl deliver cs ns !! c = Some (Peer (c_open x) (c_set x) rx (c_fetch x) (c_spawned x) (c_waiting x) (c_retry x)).
Proof.
  induction ns as [|n ns IH]; intros cs c x Hx; cbn [foldl].
  - exists (c_rx x). rewrite Hx. by destruct x.
  - unfold deliver at 2. destruct (cs !! n.1) as [y|] eqn:Ey; [|by eauto]. destruct (c_open y) eqn:Eo; [|by eauto].
    destruct (decide (n.1 = c)) as [Heq|Hne].
    + rewrite Heq in *. assert (y = x) as -> by congruence. destruct (IH (<[c := Peer true (c_set x) (c_rx x ++ [n.2]) (c_fetch x) (c_spawned x) (c_waiting x) (c_retry x)]> cs) c (Peer true (c_set x) (c_rx x ++ [n.2]) (c_fetch x) (c_spawned x) (c_waiting x) (c_retry x))) as (rx & Hrx); [apply lookup_insert|].
      exists rx. rewrite Hrx. cbn. by rewrite Eo.
    + apply IH. by rewrite lookup_insert_ne.
Qed.

Section fetch.
Context (cfg : config).
Notation ttl := (cf_ttl cfg).

(** The steps of a reserve request of connection [c] between its start and its reply. *)
Definition fetch_only (c : N) (tr : trace) (s : state) (l : label) : Prop :=
  l = LRow c \/ (exists i, l = LSkip c i) \/ l = LJoin c false.

Section one.
Context (s : state) (c : N) (q : req) (rows : list chunk) (Hf : fresh_ids (s_hist s)).
Context (Hnd : NoDup ((fun r => cid_of r) <$> rows)).
Context (Hw : forall r, r ∈ rows -> waiting (s_db s) (cid_of r) = Some r).
Notation free := (fun r : chunk => is_reserved ttl (s_now s) (cid_of r) (s_res s) = false).
Notation opt j := (match j with Some r => [r] | None => [] end).

Record finv (s' : state) (rest : list chunk) (got : list (chunk * submission)) (j : option chunk) : Prop := {
  fi_conn : exists x, s_conns s' !! c = Some x /\ c_fetch x = Some (Fetch q rest got j);
  fi_now : s_now s' = s_now s;
  fi_hist : s_hist s' = s_hist s;
  fi_rows : got.*1 ++ opt j ++ filter free rest = filter free rows;
  fi_nd : NoDup ((fun r => cid_of r) <$> (got.*1 ++ opt j ++ rest));
  fi_wait : forall r, r ∈ rest -> r ∈ rows;
  fi_join : forall r, j = Some r -> r ∈ rows;
  fi_res : forall k, r_entries (s_res s') !! k = if bool_decide (k ∈ (fun r => cid_of r) <$> (got.*1 ++ opt j)) then Some (Entry c (s_now s)) else r_entries (s_res s) !! k;
  fi_sub : Forall (fun p => joined_submission (s_db s) p.1 = Some p.2) got;
  fi_len : N.of_nat (length got) <= q_max q /\ (j <> None -> N.of_nat (length got) < q_max q) }.

Lemma entry_live : 0 < ttl -> is_live ttl (s_now s) (Entry c (s_now s)) = true.
Proof. intros H. unfold is_live. cbn. apply N.ltb_lt. lia. Qed.
(** A row that is ahead is reserved now iff it was at the start. *)
Lemma finv_reserved s' rest got j r : finv s' rest got j -> r ∈ rest ->
  get_live ttl (s_now s') (cid_of r) (s_res s') = get_live ttl (s_now s) (cid_of r) (s_res s).
Proof.
  intros I Hr. unfold get_live. rewrite (fi_now _ _ _ _ I), (fi_res _ _ _ _ I). rewrite bool_decide_eq_false_2; [done|].
  pose proof (fi_nd _ _ _ _ I) as Hn. rewrite app_assoc, fmap_app in Hn. apply NoDup_app in Hn as (_ & Hn & _).
  intros Hin. apply (Hn _ Hin). apply elem_of_list_fmap. eauto.
Qed.

Lemma finv_step s' rest got j l s2 o tr : finv s' rest got j -> fetch_only c tr s' l -> step_to cfg s' l s2 o ->
  o = [] /\ exists rest2 got2 j2, finv s2 rest2 got2 j2.
Proof.
  intros I Hl [_ Hn]. destruct (fi_conn _ _ _ _ I) as (x & Hx & Hfx). destruct Hl as [->|[[i ->]| ->]]; unfold next in Hn; rewrite Hx, Hfx in Hn.
  - destruct rest as [|r rest]; [done|]. destruct j; [done|]. destruct (_ <? _) eqn:El; [|done]. apply N.ltb_lt in El.
    unfold try_reserve in Hn. rewrite (finv_reserved _ _ _ _ r I) in Hn by left.
    destruct (get_live ttl (s_now s) (cid_of r) (s_res s)) as [e|] eqn:Eg; injection Hn as <- <-; (split; [done|]).
    + assert (Hfr : ~ free r) by (unfold is_reserved; rewrite Eg; done).
      exists rest, got, None. destruct I. constructor; try done.
      * cbn. eexists. rewrite lookup_insert. done.
      * rewrite <- fi_rows0. f_equal. cbn [app]. by rewrite filter_cons_False.
      * cbn [app] in *. rewrite fmap_app, fmap_cons in fi_nd0. rewrite fmap_app. eapply nodup_sublist; [exact fi_nd0|]. apply sublist_app; [done|]. by apply sublist_cons.
      * intros r' Hr'. apply fi_wait0. by right.
    + assert (Hfr : free r) by (unfold is_reserved; by rewrite Eg).
      exists rest, got, (Some r). destruct I. constructor; try done.
      * cbn. match goal with |- context [foldl deliver ?cs ?ns] => destruct (deliver_fwd ns cs c (with_fetch (Some (Fetch q rest got (Some r))) x)) as (rx & Hrx); [apply lookup_insert|] end.
        eexists. split; [exact Hrx|]. done.
      * rewrite <- fi_rows0. f_equal. cbn [app]. by rewrite filter_cons_True.
      * intros r' Hr'. apply fi_wait0. by right.
      * intros r' [= <-]. apply fi_wait0. by left.
      * intros k. cbn [s_res with_res fst r_entries]. rewrite fi_now0. destruct (decide (k = cid_of r)) as [->|Hne].
        -- rewrite lookup_insert, bool_decide_eq_true_2; [done|]. rewrite fmap_app, elem_of_app. right. by left.
        -- rewrite lookup_insert_ne by done. rewrite fi_res0. cbn [app]. rewrite app_nil_r.
           apply (f_equal (fun b : bool => if b then _ else _)). apply bool_decide_ext. rewrite fmap_app, elem_of_app. cbn. set_solver.
      * split; [lia|done].
  - destruct (rest !! i) as [r|] eqn:Ei; [|done]. destruct (is_reserved _ _ _ _) eqn:Er; [|done]. injection Hn as <- <-. split; [done|].
    assert (Hfr : ~ free r).
    { unfold is_reserved in Er |- *. rewrite (finv_reserved _ _ _ _ r I) in Er by (by eapply elem_of_list_lookup_2). by destruct (get_live _ _ _ _). }
    exists (delete i rest), got, j. destruct I. constructor; try done.
    + cbn. eexists. rewrite lookup_insert. done.
    + rewrite <- fi_rows0. f_equal. f_equal. rewrite delete_take_drop. rewrite <- (take_drop_middle _ _ _ Ei) at 3.
      rewrite !filter_app, filter_cons_False by done. done.
    + rewrite !fmap_app in *. rewrite !app_assoc in *. eapply nodup_sublist; [exact fi_nd0|]. apply sublist_app; [done|].
      apply fmap_sublist. apply sublist_delete.
    + intros r' Hr'. apply fi_wait0. eapply elem_of_submseteq; [exact Hr'|]. apply sublist_submseteq, sublist_delete.
  - destruct j as [r|]; [|done]. assert (Hr : r ∈ rows) by (by apply (fi_join _ _ _ _ I)).
    destruct (waiting_joined (s_hist s) r r Hf (Hw r Hr)) as (sub & Hsub).
    assert (Hdb : s_db s' = s_db s) by (unfold s_db; by rewrite (fi_hist _ _ _ _ I)).
    rewrite Hdb in Hn. change (after (s_hist s)) with (s_db s) in Hsub. rewrite Hsub in Hn. injection Hn as <- <-. split; [done|].
    exists rest, (got ++ [(r, sub)]), None. destruct I. constructor; try done.
    + cbn. eexists. rewrite lookup_insert. done.
    + rewrite (fmap_app fst got), <- app_assoc. exact fi_rows0.
    + rewrite (fmap_app fst got), <- app_assoc. exact fi_nd0.
    + intros k. cbn [s_res set_conn]. rewrite fi_res0. rewrite (fmap_app fst got). cbn [fmap list_fmap fst]. by rewrite app_nil_r.
    + apply Forall_app. split; [done|]. by apply Forall_singleton.
    + rewrite app_length. cbn [length]. destruct fi_len0 as [? Hlt]. specialize (Hlt ltac:(done)). split; [lia|done].
Qed.

Lemma finv_run s1 tr s2 rest got j : finv s1 rest got j -> run_to cfg (fetch_only c) s1 tr s2 ->
  Forall (fun lo => lo.2 = []) tr /\ exists rest2 got2 j2, finv s2 rest2 got2 j2.
Proof.
  intros I. induction 1 as [|tr s2 l s3 o Hr (IH & rest2 & got2 & j2 & I2) Hl Hs]; [eauto 10|].
  destruct (finv_step _ _ _ _ _ _ _ _ I2 Hl Hs) as [-> ?]. split; [|done]. apply Forall_app. split; [done|]. by apply Forall_singleton.
Qed.

(** It comes to its end. *)
Lemma finv_progress s' rest got j : finv s' rest got j -> q_max q <> 0 ->
  (exists s2 o, step_to cfg s' (LReply c) s2 o) \/
  (exists l s2 rest2 got2 j2, (forall tr, fetch_only c tr s' l) /\ step_to cfg s' l s2 [] /\ finv s2 rest2 got2 j2 /\
     (2 * length rest2 + length (opt j2) < 2 * length rest + length (opt j))%nat).
Proof.
  intros I Hq. destruct (fi_conn _ _ _ _ I) as (x & Hx & Hfx). destruct j as [r|].
  - right. exists (LJoin c false).
    assert (Hr : r ∈ rows) by (by apply (fi_join _ _ _ _ I)). destruct (waiting_joined (s_hist s) r r Hf (Hw r Hr)) as (sub & Hsub).
    assert (Hs : exists s2, next cfg (LJoin c false) s' = Some (s2, []) /\ exists y, s_conns s2 !! c = Some y /\ c_fetch y = Some (Fetch q rest (got ++ [(r, sub)]) None)).
    { unfold next. rewrite Hx, Hfx. unfold s_db. rewrite (fi_hist _ _ _ _ I), Hsub. eexists. split; [done|]. cbn. rewrite lookup_insert. eauto. }
    destruct Hs as (s2 & Hs & y & Hy & Hfy). destruct (finv_step _ _ _ _ (LJoin c false) s2 [] [] I) as (_ & rest2 & got2 & j2 & I2); [by right; right|by split|].
    destruct (fi_conn _ _ _ _ I2) as (y' & Hy' & Hfy'). simplify_eq. exists s2. eexists _, _, _. split_and!; [by right; right|by split|exact I2|cbn; lia].
  - destruct rest as [|r rest].
    + left. unfold step_to, next. rewrite Hx, Hfx. cbn. destruct got; eauto.
    + destruct (N.ltb_spec (N.of_nat (length got)) (q_max q)) as [Hl|Hl].
      * right. exists (LRow c).
        assert (Hs : exists s2 ok, next cfg (LRow c) s' = Some (s2, []) /\ exists y, s_conns s2 !! c = Some y /\ c_fetch y = Some (Fetch q rest got ok)).
        { unfold next. rewrite Hx, Hfx. apply N.ltb_lt in Hl. rewrite Hl. destruct (try_reserve _ _ _ _ _) as [[ok res] ns]. eexists _, _. split; [done|].
          cbn. match goal with |- context [foldl deliver ?cs ?ns] => destruct (deliver_fwd ns cs c (with_fetch (Some (Fetch q rest got (if ok then Some r else None))) x)) as (rx & Hrx); [apply lookup_insert|] end.
          eexists. split; [exact Hrx|]. done. }
        destruct Hs as (s2 & ok & Hs & y & Hy & Hfy). destruct (finv_step _ _ _ _ (LRow c) s2 [] [] I) as (_ & rest2 & got2 & j2 & I2); [by left|by split|].
        destruct (fi_conn _ _ _ _ I2) as (y' & Hy' & Hfy'). simplify_eq. exists s2. eexists _, _, _. split_and!; [by left|by split|exact I2|]. cbn [length]. case_match; cbn; lia.
      * left. unfold step_to, next. rewrite Hx, Hfx. apply N.leb_le in Hl. rewrite Hl, orb_true_r. destruct got; (eexists _, _; split; [done|reflexivity]).
Qed.
Lemma run_cons (ok : trace -> state -> label -> Prop) s1 l s2 o tr s3 : ok [] s1 l -> step_to cfg s1 l s2 o -> run_to cfg (fun tr => ok ((l, o) :: tr)) s2 tr s3 -> run_to cfg ok s1 ((l, o) :: tr) s3.
Proof.
  intros H1 H2. induction 1 as [|tr s3 l' s4 o' Hr IH Hok Hs].
  - apply (run_snoc cfg ok s1 [] s1 l s2 o); [constructor|done|done].
  - change ((l, o) :: tr ++ [(l', o')]) with (((l, o) :: tr) ++ [(l', o')]). by econstructor.
Qed.
Lemma finv_ends n : forall s' rest got j, (2 * length rest + length (opt j) < n)%nat -> finv s' rest got j -> q_max q <> 0 ->
  exists tr s2 s3 o, run_to cfg (fetch_only c) s' tr s2 /\ step_to cfg s2 (LReply c) s3 o.
Proof.
  induction n as [|n IH]; intros s' rest got j Hn I Hq; [lia|].
  destruct (finv_progress _ _ _ _ I Hq) as [(s2 & o & Hs)|(l & s2 & rest2 & got2 & j2 & Hok & Hs & I2 & Hlt)].
  - exists [], s', s2, o. split; [constructor|done].
  - destruct (IH s2 rest2 got2 j2) as (tr & s3 & s4 & o & Hr & Hrep); [lia|done|done|].
    exists ((l, []) :: tr), s3, s4, o. split; [|done]. eapply run_cons; [apply Hok|exact Hs|exact Hr].
Qed.
(** Its reply. *)
Lemma finv_reply s' rest got j s2 o : finv s' rest got j -> step_to cfg s' (LReply c) s2 o ->
  got.*1 = take (N.to_nat (q_max q)) (filter free rows) /\ j = None /\
  o = (match got with [] => [] | _ => [Given c (q_nonce q) got] end) /\ s_res s2 = s_res s' /\ s_hist s2 = s_hist s' /\ s_now s2 = s_now s'.
Proof.
  intros I [_ Hn]. destruct (fi_conn _ _ _ _ I) as (x & Hx & Hfx). unfold next in Hn. rewrite Hx, Hfx in Hn. destruct j; [done|].
  destruct (_ || _) eqn:Eb; [|done]. split.
  - rewrite <- (fi_rows _ _ _ _ I). cbn [app]. destruct (fi_len _ _ _ _ I) as [Hle _]. apply orb_true_iff in Eb as [->%bool_decide_eq_true_1|Hge%N.leb_le].
    + cbn. rewrite app_nil_r. symmetry. apply take_ge. rewrite fmap_length. lia.
    + symmetry. apply take_app_alt. rewrite fmap_length. lia.
  - destruct got; injection Hn as <- <-; done.
Qed.
End one.

(** A fetch for [q] has just started in [s1] and nothing else has changed since [s]. *)
Definition just_started (s : state) (c : N) (q : req) (off : N) (rows : list chunk) (s1 : state) : Prop :=
  (exists x, s_conns s1 !! c = Some x /\ c_fetch x = Some (Fetch q rows [] None)) /\ q_max q <> 0 /\
  s_now s1 = s_now s /\ s_hist s1 = s_hist s /\ s_res s1 = s_res s /\
  offers (q_strategy q) off (s_db s) (s_counts s) (fun _ => false) rows.
Lemma started_finv s c q off rows s1 : fresh_ids (s_hist s) -> just_started s c q off rows s1 ->
  NoDup ((fun r => cid_of r) <$> rows) /\ (forall r, r ∈ rows -> waiting (s_db s) (cid_of r) = Some r) /\ finv s c q rows s1 rows [] None.
Proof.
  intros Hf (Hx & Hq & Hn & Hh & Hr & Ho). destruct (offers_exact _ _ _ _ _ _ Hf Ho) as [Hnd Hel].
  split; [done|]. split; [intros r Hr'; by apply Hel|]. constructor; try done.
  - intros k. by rewrite Hr.
  - cbn. split; [lia|done].
Qed.
Lemma quiet_fetch s c q off rows s1 tr s2 s3 o : fresh_ids (s_hist s) ->
  just_started s c q off rows s1 -> run_to cfg (fetch_only c) s1 tr s2 -> step_to cfg s2 (LReply c) s3 o ->
  let reserved k := is_reserved ttl (s_now s) k (s_res s) in
  exists l got, offers (q_strategy q) off (s_db s) (s_counts s) reserved l /\
    got.*1 = take (N.to_nat (q_max q)) l /\ Forall (fun p => reports (s_db s) (c_sub p.1) (InProgress p.2)) got /\
    Forall (fun lo => lo.2 = []) tr /\ o = (match got with [] => [] | _ => [Given c (q_nonce q) got] end) /\
    s_hist s3 = s_hist s /\ s_now s3 = s_now s /\
    (forall k, r_entries (s_res s3) !! k = if bool_decide (k ∈ ids_of got) then Some (Entry c (s_now s)) else r_entries (s_res s) !! k).
Proof.
  intros Hf Hst Hr Hs reserved. pose proof Hst as (_ & _ & _ & _ & _ & Ha). destruct (started_finv _ _ _ _ _ _ Hf Hst) as (Hnd & Hw & I).
  destruct (finv_run s c q rows Hf Hnd Hw _ _ _ _ _ _ I Hr) as (Ho & rest & got & j & I2).
  destruct (finv_reply _ _ _ _ _ _ _ _ _ _ I2 Hs) as (H1 & -> & -> & Hres & Hh & Hnw).
  exists (filter (fun r => reserved (cid_of r) = false) rows), got. split_and!; try done.
  - by apply offers_filter.
  - eapply Forall_impl; [apply (fi_sub _ _ _ _ _ _ _ _ I2)|]. intros p. apply joined_reports.
  - rewrite Hh. apply (fi_hist _ _ _ _ _ _ _ _ I2).
  - rewrite Hnw. apply (fi_now _ _ _ _ _ _ _ _ I2).
  - intros k. rewrite Hres, (fi_res _ _ _ _ _ _ _ _ I2). cbn [app]. rewrite app_nil_r.
    apply (f_equal (fun b : bool => if b then _ else _)). apply bool_decide_ext. unfold ids_of. rewrite elem_of_list_to_set.
    by rewrite <- list_fmap_compose.
Qed.
Lemma quiet_fetch_ends s c q off rows s1 : fresh_ids (s_hist s) -> just_started s c q off rows s1 ->
  exists tr s2 s3 o, run_to cfg (fetch_only c) s1 tr s2 /\ step_to cfg s2 (LReply c) s3 o.
Proof.
  intros Hf Hst. pose proof Hst as (_ & Hq & _). destruct (started_finv _ _ _ _ _ _ Hf Hst) as (Hnd & Hw & I).
  exact (finv_ends s c q rows Hf Hnd Hw _ _ _ _ _ (Nat.lt_succ_diag_r _) I Hq).
Qed.
Lemma reserve_starts s c q off rows s1 o1 : q_max q <> 0 -> can_ask (q_strategy q) = true -> step_to cfg s (LReserve c q off rows) s1 o1 -> o1 = [] /\ just_started s c q off rows s1.
Proof.
  intros Hq Hc [Ha Hn]. unfold next in Hn. destruct (s_conns s !! c) as [x|] eqn:Ex; [|done]. destruct (c_open x); [|done]. destruct (c_fetch x); [done|].
  pose proof Hq as Hq'. apply N.eqb_neq in Hq. rewrite Hq, Hc in Hn. injection Hn as <- <-. split; [done|]. split_and!; try done.
  cbn. eexists. rewrite lookup_insert. done.
Qed.
Lemma retry_starts s c x q rest off rows s1 o1 : s_conns s !! c = Some x -> c_retry x = q :: rest -> q_max q <> 0 -> can_ask (q_strategy q) = true ->
  step_to cfg s (LRetry c off rows) s1 o1 -> o1 = [] /\ just_started s c q off rows s1.
Proof.
  intros Ex Er Hq Hc [Ha Hn]. unfold next in Hn. rewrite Ex, Er in Hn. destruct (c_open x); [|done]. destruct (c_fetch x); [done|].
  pose proof Hq as Hq'. apply N.eqb_neq in Hq. rewrite Hq, Hc in Hn. injection Hn as <- <-. split; [done|].
  destruct Ha as (x' & q' & rest' & Ex' & Er' & Ho). assert (x' = x) as -> by congruence. assert (q' = q) as -> by congruence. split_and!; try done.
  cbn. eexists. rewrite lookup_insert. done.
Qed.
End fetch.
