(** Facts about single steps of the server, for PropServer.v. *)
From Verif Require Export FetchProofs.
From Verif Require Export WorkProofs.
Local Open Scope N_scope.
Lemma waiting_cid d k r : waiting d k = Some r -> cid_of r = k.
Proof. intros (c & _ & ->)%waiting_some. by destruct k. Qed.

(** *** What one event can do to a chunk *)
Lemma completed_stays h e k c : fresh_ids (h ++ [e]) -> completed_chunk (after h) k = Some c ->
  completed_chunk (after (h ++ [e])) k = Some c \/ exists cutoff, e_op e = OCleanup cutoff /\ (kc_at c < cutoff)%Z.
Proof.
  intros Hf. destruct k as [id i]. rewrite !completed_chunk_view. pose proof (change_after h e id Hf) as Hc. revert Hc.
  generalize (view_of (after h) id) (view_of (after (h ++ [e])) id). intros v v' Hc. inversion Hc; subst; cbn; try (by left); try done.
  - intros Hl. left. rewrite lookup_insert_ne; [done|]. intros ->. match goal with Hx : cd !! _ = None |- _ => by rewrite Hx in Hl end.
  - intros Hl. left. rewrite lookup_insert_ne; [done|]. intros ->. match goal with Hx : cd !! _ = None |- _ => by rewrite Hx in Hl end.
  - intros Hl. apply fmap_Some in Hl as (r & Hr & ->). cbn. destruct (cc_at r <? cutoff)%Z eqn:E.
    + right. exists cutoff. split; [done|]. by apply Z.ltb_lt.
    + left. assert (Hx : filter (fun p : N * chunk_comp_row => (cc_at p.2 <? cutoff)%Z = false) (v_cdone v) !! i = Some r) by (by apply map_filter_lookup_Some). by rewrite Hx.
Qed.
Lemma waiting_stays h e k r : fresh_ids (h ++ [e]) -> waiting (after h) k = Some r ->
  waiting (after (h ++ [e])) k = Some r \/ (about (e_op e) = Some k.1 /\ after (h ++ [e]) = after (h ++ [quiet (e_op e)])).
Proof.
  intros Hf Hw. destruct (decide (about (e_op e) = Some k.1)) as [Ha|Ha].
  - destruct (e_op e) eqn:Eo; try done.
    + (* an insert of the same submission *) left. injection Ha as ->. apply fresh_ids_app in Hf as [Hf Hi].
      exfalso. destruct k as [id i]. rewrite waiting_view, (view_fresh h id Hf) in Hw; [done|]. apply (Hi id). unfold History.insert_id. by rewrite Eo.
    + destruct (not_insert_atomic (e_op e) (after h) (e_faults e) (e_crash e)) as [E|E]; [rewrite Eo; by intros ? []|left|right].
      * rewrite after_snoc. destruct e; cbn in *. by rewrite E.
      * split; [done|]. rewrite !after_snoc. rewrite <- Eo, <- E. by destruct e.
    + destruct (not_insert_atomic (e_op e) (after h) (e_faults e) (e_crash e)) as [E|E]; [rewrite Eo; by intros ? []|left|right].
      * rewrite after_snoc. destruct e; cbn in *. by rewrite E.
      * split; [done|]. rewrite !after_snoc. rewrite <- Eo, <- E. by destruct e.
    + destruct (not_insert_atomic (e_op e) (after h) (e_faults e) (e_crash e)) as [E|E]; [rewrite Eo; by intros ? []|left|right].
      * rewrite after_snoc. destruct e; cbn in *. by rewrite E.
      * split; [done|]. rewrite !after_snoc. rewrite <- Eo, <- E. by destruct e.
    + destruct (not_insert_atomic (e_op e) (after h) (e_faults e) (e_crash e)) as [E|E]; [rewrite Eo; by intros ? []|left|right].
      * rewrite after_snoc. destruct e; cbn in *. by rewrite E.
      * split; [done|]. rewrite !after_snoc. rewrite <- Eo, <- E. by destruct e.
  - left. destruct k as [id i]. rewrite waiting_view in Hw |- *. pose proof (change_after h e id Hf) as Hc.
    remember (e_op e) as op eqn:Eo. revert Hc Hw. generalize (view_of (after h) id) (view_of (after (h ++ [e])) id). intros v v' Hc.
    inversion Hc; subst; cbn in *; try done; exfalso; apply Ha; match goal with E : _ = e_op e |- _ => by rewrite <- E end.
Qed.
Section facts.
Context (cfg : config).
Notation ttl := (cf_ttl cfg).

(** *** The end of a connection *)
Lemma close_entries c x s k : r_entries (s_res (close cfg c x s)) !! k = if bool_decide (k ∈ c_set x) then None else r_entries (s_res s) !! k.
Proof.
  unfold close. cbn. destruct (seq_removes ttl (s_now s) (elements (c_set x)) (s_res s) k) as (He & _ & _). unfold finish_reservation_sync. rewrite He.
  by rewrite (bool_decide_ext (k ∈ elements (c_set x)) (k ∈ c_set x)) by apply elem_of_elements.
Qed.
Lemma close_pending c x s : r_pending (s_res (close cfg c x s)) = r_pending (s_res s).
Proof. unfold close. cbn. apply (seq_removes ttl (s_now s) (elements (c_set x)) (s_res s) (0, 0)). Qed.
Lemma close_conn c x s : s_conns (close cfg c x s) !! c = Some (Peer false (c_set x) [] None [] [] []).
Proof. unfold close. cbn. by rewrite lookup_insert. Qed.
Lemma close_others c x s c' y : c' <> c -> s_conns s !! c' = Some y ->
  exists rx, s_conns (close cfg c x s) !! c' = Some (Peer (c_open y) (c_set y) rx (c_fetch y) (c_spawned y) (c_waiting y) (c_retry y)).
Proof.
  intros Hne Hy. unfold close. cbn. rewrite lookup_insert_ne by done.
  apply deliver_fwd. rewrite lookup_insert_ne by done. done.
Qed.
Lemma disconnects s c s' o : next cfg (LDisconnect c) s = Some (s', o) ->
  exists x, s_conns s !! c = Some x /\ c_open x = true /\ c_fetch x = None /\ s' = close cfg c x s /\ o = [Closed c].
Proof.
  cbn. intros H. destruct (s_conns s !! c) as [x|]; [|done]. destruct (c_open x) eqn:Eo; [|done]. destruct (c_fetch x) eqn:Ef; [done|].
  injection H as <- <-. eauto 10.
Qed.

(** *** Time and history only grow *)
Lemma next_now l s s' o : next cfg l s = Some (s', o) -> s_now s <= s_now s'.
Proof.
  intros Hn. destruct l; unfold next in Hn; repeat case_match; simplify_eq; cbn; lia.
Qed.

(** *** A finished reservation that is kept for a while *)
Section kept.
Context (k : chunk_id) (e : entry) (t0 : N).
Record kept (s : state) : Prop := {
  kp_entry : r_entries (s_res s) !! k = Some e;
  kp_pending : forall t, (k, t) ∈ r_pending (s_res s) -> t0 + removal_delay <= t;
  kp_fetch : forall c x, s_conns s !! c = Some x -> k ∉ fetched x;
  kp_now : t0 <= s_now s }.
Definition undisturbed (tr : trace) (s : state) (l : label) : Prop :=
  (forall m, l = LFinish -> s_phase s = Written m false -> m_chunk m <> k) /\
  (forall s' o c x, next cfg l s = Some (s', o) -> Closed c ∈ o -> s_conns s !! c = Some x -> k ∉ c_set x) /\
  (forall oe, l <> LCrash oe).
Lemma kept_close s c x : kept s -> k ∉ c_set x -> kept (close cfg c x s).
Proof.
  intros [K1 K2 K3 K4] Hin. constructor; [|by rewrite close_pending| |exact K4].
  - rewrite close_entries. by rewrite bool_decide_eq_false_2.
  - intros c' y Hy. unfold close in Hy. cbn in Hy. apply lookup_insert_Some in Hy as [[<- <-]|[Hne Hy]]; [cbn; by apply not_elem_of_nil|].
    apply deliver_some in Hy as (z & Hz & rx & ->). rewrite lookup_insert_ne in Hz by done. exact (K3 _ _ Hz).
Qed.
Lemma kept_conn s c x' s' : kept s -> s_conns s' = <[c := x']> (s_conns s) -> k ∉ fetched x' -> s_res s' = s_res s -> s_now s' = s_now s -> kept s'.
Proof.
  intros [K1 K2 K3 K4] Ec Hf Er En. constructor; rewrite ?Er, ?En; try done.
  intros c' y Hy. rewrite Ec in Hy. apply lookup_insert_Some in Hy as [[<- <-]|[_ Hy]]; [done|eauto].
Qed.
Lemma fetched_some x q rows got j : c_fetch x = Some (Fetch q rows got j) ->
  fetched x = ((fun p => cid_of p.1) <$> got) ++ match j with Some r => [cid_of r] | None => [] end.
Proof. intros E. unfold fetched. by rewrite E. Qed.
Lemma kept_step tr s l s' o : kept s -> undisturbed tr s l -> s_now s < t0 + removal_delay -> is_live ttl (s_now s) e = true ->
  next cfg l s = Some (s', o) -> kept s' /\ forall c n g, Given c n g ∈ o -> k ∉ ids_of g.
Proof.
  intros K (U1 & U2 & U3) Ht Hlive Hn. pose proof K as [K1 K2 K3 K4]. pose proof (fun c x => U2 s' o c x Hn) as Hcl. clear U2.
  assert (Hnil : forall c n g, Given c n g ∈ ([] : list out) -> k ∉ ids_of g) by (intros c n g Hin; by apply elem_of_nil in Hin).
  destruct l; unfold next in Hn.
  - destruct (is_producer_op _); [|done]. injection Hn as <- <-. split; [|done]. by constructor.
  - destruct (s_notifies s) as [|n]; [done|]. injection Hn as <- <-. split; [|done]. constructor; try done.
    cbn. intros c x Hx. rewrite lookup_fmap in Hx. apply fmap_Some in Hx as (y & Hy & ->). exact (K3 _ _ Hy).
  - destruct (s_conns s !! c) eqn:Ec; [done|]. injection Hn as <- <-. split; [|done]. eapply (kept_conn s c); try done. cbn. by apply not_elem_of_nil.
  - destruct (s_conns s !! c) as [x|] eqn:Ec; [|done]. destruct (c_open x) eqn:Eo; [|done].
    destruct (c_fetch x); [done|]. injection Hn as <- <-. split; [apply kept_close; [done|]; apply (Hcl c); [left|done]|].
    intros c' n g Hin. apply elem_of_list_singleton in Hin. discriminate Hin.
  - destruct (s_conns s !! c) as [x|] eqn:Ec; [|done]. destruct (c_open x) eqn:Eo; [|done].
    destruct (c_fetch x) eqn:Ef; [done|]. destruct (q_max q =? 0); [|destruct (can_ask _); cbn [negb] in Hn]; injection Hn as <- <-.
    + split; [done|]. intros c' n g Hin. apply elem_of_list_singleton in Hin. discriminate Hin.
    + split; [|done]. eapply (kept_conn s c); try done. cbn. by apply not_elem_of_nil.
    + split; [done|]. intros c' n g Hin. apply elem_of_list_singleton in Hin. injection Hin as -> -> ->. unfold ids_of. set_solver.
  - destruct (s_conns s !! c) as [x|] eqn:Ec; [|done]. destruct (c_open x) eqn:Eo; [|done].
    destruct (c_fetch x) eqn:Ef; [done|]. destruct (c_retry x) as [|q rest]; [done|]. destruct (q_max q =? 0); [|destruct (can_ask _); cbn [negb] in Hn]; injection Hn as <- <-.
    + split; [eapply (kept_conn s c); try done; cbn; by apply not_elem_of_nil|]. intros c' n g Hin. apply elem_of_list_singleton in Hin. discriminate Hin.
    + split; [|done]. eapply (kept_conn s c); try done. cbn. by apply not_elem_of_nil.
    + split; [eapply (kept_conn s c); try done; cbn; by apply not_elem_of_nil|]. intros c' n g Hin. apply elem_of_list_singleton in Hin.
      injection Hin as -> -> ->. unfold ids_of. set_solver.
  - destruct (s_conns s !! c) as [x|] eqn:Ec; [|done].
    destruct (c_fetch x) as [[q [|r rows] got [?|]]|] eqn:Ef; try done. destruct (_ <? _); [|done].
    pose proof (K3 _ _ Ec) as Hkx. rewrite (fetched_some _ _ _ _ _ Ef) in Hkx. cbn in Hkx. rewrite app_nil_r in Hkx.
    destruct (try_reserve ttl (s_now s) (cid_of r) c (s_res s)) as [[ok res] ns] eqn:Er. injection Hn as <- <-. split; [|done].
    unfold try_reserve in Er. destruct (get_live ttl (s_now s) (cid_of r) (s_res s)) as [e'|] eqn:Eg; injection Er as <- <- <-.
    + constructor; try done. intros c' y Hy. cbn in Hy. apply lookup_insert_Some in Hy as [[<- <-]|[_ Hy]]; [|eauto].
      cbn. by rewrite app_nil_r.
    + assert (Hne : cid_of r <> k). { intros E. unfold get_live in Eg. by rewrite E, K1, Hlive in Eg. }
      constructor; try done.
      * cbn. by rewrite lookup_insert_ne.
      * intros c' y Hy. cbn in Hy. apply deliver_some in Hy as (z & Hz & rx & ->). apply lookup_insert_Some in Hz as [[<- <-]|[_ Hz]].
        -- cbn. rewrite not_elem_of_app, elem_of_list_singleton. split; [done|congruence].
        -- exact (K3 _ _ Hz).
  - destruct (s_conns s !! c) as [x|] eqn:Ec; [|done]. destruct (c_fetch x) as [[q rows got j]|] eqn:Ef; [|done].
    destruct (rows !! i); [|done]. destruct (is_reserved _ _ _ _); [|done]. injection Hn as <- <-. split; [|done].
    eapply (kept_conn s c); try done. pose proof (K3 _ _ Ec) as Hkx. rewrite (fetched_some _ _ _ _ _ Ef) in Hkx. exact Hkx.
  - destruct (s_conns s !! c) as [x|] eqn:Ec; [|done]. destruct (c_fetch x) as [[q rows got [r|]]|] eqn:Ef; [|done|done].
    pose proof (K3 _ _ Ec) as Hkx. rewrite (fetched_some _ _ _ _ _ Ef) in Hkx.
    destruct (if fault then None else joined_submission (s_db s) r) as [sub|]; injection Hn as <- <-.
    + split; [|done]. eapply (kept_conn s c); try done. cbn. rewrite fmap_app, app_nil_r. exact Hkx.
    + split; [apply kept_close; [done|]; apply (Hcl c); [left|done]|]. intros c' n g Hin. apply elem_of_list_singleton in Hin. discriminate Hin.
  - destruct (s_conns s !! c) as [x|] eqn:Ec; [|done]. destruct (c_fetch x) as [[q rows got j]|] eqn:Ef; [|done].
    injection Hn as <- <-. split; [eapply (kept_conn s c); try done; cbn; by apply not_elem_of_nil|].
    intros c' n g Hin. apply elem_of_list_singleton in Hin. injection Hin as -> -> ->. unfold ids_of. cbn. set_solver.
  - destruct (s_conns s !! c) as [x|] eqn:Ec; [|done]. destruct (c_fetch x) as [[q rows got [r|]]|] eqn:Ef; [done| |done].
    pose proof (K3 _ _ Ec) as Hkx. rewrite (fetched_some _ _ _ _ _ Ef) in Hkx. rewrite app_nil_r in Hkx.
    destruct (_ || _); [|done]. destruct got as [|g got]; injection Hn as <- <-.
    + split; [|done]. eapply (kept_conn s c); try done; cbn; by apply not_elem_of_nil.
    + split; [eapply (kept_conn s c); try done; cbn; by apply not_elem_of_nil|].
      intros c' n g' Hin. apply elem_of_list_singleton in Hin. injection Hin as -> -> ->. unfold ids_of. by rewrite elem_of_list_to_set.
  - destruct (s_conns s !! c) as [x|] eqn:Ec; [|done]. destruct (c_spawned x) as [|q rest]; [done|]. injection Hn as <- <-. split; [|done].
    eapply (kept_conn s c); try done. exact (K3 _ _ Ec).
  - destruct (s_conns s !! c) as [x|] eqn:Ec; [|done]. destruct (c_open x) eqn:Eo; [|done].
    destruct (c_fetch x) eqn:Ef; [done|]. injection Hn as <- <-. split; [|done]. eapply (kept_conn s c); try done. cbn. by apply not_elem_of_nil.
  - destruct (s_phase s) eqn:Ep; [|done|done]. destruct (s_mail s) as [|m rest] eqn:Em; [done|]. injection Hn as <- <-. split; [|done]. by constructor.
  - destruct (s_phase s) eqn:Ep; [|done|done]. destruct (s_mail s) as [|m rest] eqn:Em; [done|]. injection Hn as <- <-. split; [|done]. by constructor.
  - destruct (s_phase s) as [|m delayed|] eqn:Ep; [done| |done].
    destruct (finish_reservation ttl (s_now s) (m_chunk m) delayed (s_res s)) as [[at_ res] ns] eqn:Er. injection Hn as <- <-. split; [|done].
    assert (Hres : r_entries res !! k = Some e /\ forall t, (k, t) ∈ r_pending res -> t0 + removal_delay <= t).
    { unfold finish_reservation in Er. destruct (get_live ttl (s_now s) (m_chunk m) (s_res s)); [|by injection Er as <- <- <-].
      destruct delayed.
      - injection Er as <- <- <-. cbn. split; [done|]. intros t Ht'. apply elem_of_app in Ht' as [?|Ht']; [eauto|].
        apply elem_of_list_singleton in Ht'. injection Ht' as _ ->. lia.
      - rewrite remove_spec in Er. injection Er as <- <- <-. cbn. rewrite lookup_delete_ne; [done|]. by apply U1. }
    destruct Hres as [R1 R2]. constructor; try done.
    intros c' y Hy. cbn in Hy. apply deliver_some in Hy as (z & Hz & rx & ->).
    apply lookup_alter_Some in Hz as [[<- (w & Hw & ->)]|[_ Hz]]; [exact (K3 _ _ Hw)|exact (K3 _ _ Hz)].
  - destruct (s_phase s) as [| |m] eqn:Ep; [done|done|]. injection Hn as <- <-. split; [|done]. by constructor.
  - injection Hn as <- <-. split; [|done]. constructor; try done. cbn. lia.
  - destruct (r_pending (s_res s) !! i) as [[k' t]|] eqn:Ep; [|done]. destruct (t <=? s_now s) eqn:El; [|done]. rewrite remove_spec in Hn. injection Hn as <- <-.
    apply N.leb_le in El. split; [|done]. apply elem_of_list_lookup_2 in Ep as Hin.
    assert (k' <> k) by (intros ->; specialize (K2 _ Hin); lia).
    constructor; try done.
    + cbn. by rewrite lookup_delete_ne.
    + cbn. intros t' Ht'. apply K2. eapply elem_of_submseteq; [exact Ht'|]. apply sublist_submseteq, sublist_delete.
    + intros c' y Hy. cbn in Hy. apply deliver_some in Hy as (z & Hz & rx & ->). exact (K3 _ _ Hz).
  - destruct (r_entries (s_res s) !! k0) as [e'|] eqn:Ee; [|done]. destruct (is_live ttl (s_now s) e') eqn:El; [done|].
    rewrite remove_spec in Hn. injection Hn as <- <-. split; [|done]. assert (k0 <> k) by congruence.
    constructor; try done.
    + cbn. by rewrite lookup_delete_ne.
    + intros c' y Hy. cbn in Hy. apply deliver_some in Hy as (z & Hz & rx & ->). exact (K3 _ _ Hz).
  - destruct (s_conns s !! c) as [x|] eqn:Ec; [|done]. destruct (c_fetch x) eqn:Ef; [done|]. destruct (c_rx x) as [|k' rest]; [done|].
    injection Hn as <- <-. split; [eapply (kept_conn s c); try done; cbn; by apply not_elem_of_nil|].
    intros c' n g Hin. apply elem_of_list_singleton in Hin. discriminate Hin.
  - by destruct (U3 e0).
Qed.
Lemma run_now ok s tr s' : run_to cfg ok s tr s' -> s_now s <= s_now s'.
Proof. induction 1 as [|tr s1 l s2 o Hr IH Hok [_ Hn]]; [lia|]. apply next_now in Hn. lia. Qed.
Lemma kept_run s tr s' : kept s -> run_to cfg undisturbed s tr s' -> s_now s' < t0 + removal_delay -> is_live ttl (s_now s') e = true ->
  kept s' /\ forall l o c n g, (l, o) ∈ tr -> Given c n g ∈ o -> k ∉ ids_of g.
Proof.
  intros K Hr. induction Hr as [|tr s1 l s2 o Hr IH Hok [_ Hn]]; intros Ht Hl.
  - split; [done|]. intros l o c n g Hin. by apply elem_of_nil in Hin.
  - pose proof (next_now _ _ _ _ Hn) as Hle. unfold is_live in *. apply N.ltb_lt in Hl.
    destruct IH as [K1 H1]; [lia|apply N.ltb_lt; lia|].
    destruct (kept_step tr s1 l s2 o K1 Hok) as [K2 H2]; [lia|apply N.ltb_lt; lia|done|]. split; [done|].
    intros l' o' c n g Hin. apply elem_of_app in Hin as [Hin|Hin]; [eauto|]. apply elem_of_list_singleton in Hin. injection Hin as -> ->. eauto.
Qed.
End kept.

(** Who is disconnected was connected, and is dealt with by [close]. *)
Lemma closed_was l s s' o c : next cfg l s = Some (s', o) -> Closed c ∈ o ->
  exists x, s_conns s !! c = Some x /\ (c_open x = true \/ c_fetch x <> None) /\ s' = close cfg c x s.
Proof.
  intros Hn Hin. destruct l; unfold next in Hn;
    try (repeat case_match; simplify_eq; first [by apply elem_of_nil in Hin|apply elem_of_list_singleton in Hin; discriminate Hin]).
  - destruct (s_conns s !! c0) as [x|] eqn:Ec; [|done]. destruct (c_open x) eqn:Eo; [|done]. destruct (c_fetch x) eqn:Ef; [done|].
    injection Hn as <- <-. apply elem_of_list_singleton in Hin. injection Hin as ->. exists x. eauto.
  - destruct (s_conns s !! c0) as [x|] eqn:Ec; [|done]. destruct (c_fetch x) as [[q rows got [r|]]|] eqn:Ef; [|done|done].
    destruct (if fault then None else joined_submission (s_db s) r); injection Hn as <- <-; [by apply elem_of_nil in Hin|].
    apply elem_of_list_singleton in Hin. injection Hin as ->. exists x. split_and!; [done| |done]. right. by rewrite Ef.
Qed.

(** In orderly runs a completed chunk is left alone. *)
Section settled.
Context (m : mail) (e : entry) (t0 : N).
Notation k := (m_chunk m).
Definition settling (s : state) : Prop := s_phase s = Written m true \/ k ∈ (r_pending (s_res s)).*1.
Lemma settling_undisturbed tr s l : sinv tr s -> settling s -> orderly cfg tr s l -> (forall oe, l <> LCrash oe) -> undisturbed k tr s l.
Proof.
  intros [I Hop] Hs (Ht & _ & Ho) Hnc. split_and!; [| |done].
  - intros m' -> Hp E. destruct Hs as [Hs|Hs]; [congruence|]. destruct (i_pend _ _ _ _ _ I _ Hs) as [_ Hno].
    destruct (i_mail _ _ _ _ _ I (m_conn m') (m_chunk m')) as [(x & Hx & Hox & Hin) _].
    { apply elem_of_list_fmap. exists m'. split; [done|]. unfold inbox. rewrite Hp. left. }
    destruct (Hno _ _ Hx Hox) as [Hn _]. by rewrite E in Hin.
  - intros s' o c x Hn Hin Hx Hkx. destruct (closed_was _ _ _ _ _ Hn Hin) as (x' & Hx' & Hox & _). rewrite Hx in Hx'. injection Hx' as <-.
    assert (Hopen : c_open x = true). { destruct (c_open x) eqn:Eo; [done|]. destruct Hox as [?|Hox]; [done|]. by rewrite (Hop _ _ Hx Eo) in Hox. }
    destruct Hs as [Hs|Hs].
    + assert (Him : m ∈ inbox s) by (unfold inbox; rewrite Hs; left).
      destruct (i_mail _ _ _ _ _ I (m_conn m) k) as [(y & Hy & Hoy & Hky) _]; [apply elem_of_list_fmap; by exists m|].
      apply (Ho _ _ c m Hn Hin Him). eapply mine_inj; [exact (i_set _ _ _ _ _ I _ _ _ Hy Hoy Hky)|].
      exact (i_set _ _ _ _ _ I _ _ _ (cores_lookup _ _ _ Hx) Hopen Hkx).
    + destruct (i_pend _ _ _ _ _ I _ Hs) as [_ Hno]. by destruct (Hno _ _ (cores_lookup _ _ _ Hx) Hopen).
Qed.
Lemma settling_step tr s l s' o : sinv tr s -> kept k e t0 s -> settling s -> orderly cfg tr s l -> (forall oe, l <> LCrash oe) ->
  s_now s < t0 + removal_delay -> next cfg l s = Some (s', o) -> settling s'.
Proof.
  intros [I Hop] K Hs (Ht & _ & _) Hnc Hnow Hn.
  assert (Hsame : s_phase s' = s_phase s -> r_pending (s_res s') = r_pending (s_res s) -> settling s').
  { intros E1 E2. unfold settling. by rewrite E1, E2. }
  destruct l; unfold next in Hn; try (repeat case_match; simplify_eq; apply Hsame; first [done|apply close_pending]).
  - (* LRow *) destruct (s_conns s !! c) as [x|] eqn:Ec; [|done].
    destruct (c_fetch x) as [[q [|r rows] got [?|]]|] eqn:Ef; try done. destruct (_ <? _); [|done].
    destruct (try_reserve ttl (s_now s) (cid_of r) c (s_res s)) as [[ok res] ns] eqn:Er. injection Hn as <- <-. apply Hsame; [done|].
    unfold try_reserve in Er. by destruct (get_live ttl (s_now s) (cid_of r) (s_res s)); injection Er as <- <- <-.
  - (* LWrite *) destruct (s_phase s) eqn:Ep; [|done|done]. destruct (s_mail s); [done|]. injection Hn as <- <-.
    destruct Hs as [Hs|Hs]; [congruence|]. by right.
  - (* LFinish *) destruct (s_phase s) as [|m' delayed|] eqn:Ep; [done| |done].
    destruct (finish_reservation ttl (s_now s) (m_chunk m') delayed (s_res s)) as [[at_ res] ns] eqn:Er. injection Hn as <- <-.
    right. cbn. unfold finish_reservation in Er. destruct Hs as [Hs|Hs].
    + rewrite Ep in Hs. injection Hs as -> ->. unfold get_live in Er. rewrite (kp_entry _ _ _ _ K) in Er.
      rewrite (Ht _ _ (kp_entry _ _ _ _ K)) in Er.
      * injection Er as <- <- <-. cbn. rewrite fmap_app. apply elem_of_app. right. left.
      * apply used_cores. destruct (i_mail _ _ _ _ _ I (m_conn m) k) as [(y & Hy & Hoy & Hky) _].
        { apply elem_of_list_fmap. exists m. split; [done|]. unfold inbox. rewrite Ep. left. }
        left. exists (m_conn m), y. auto.
    + destruct (get_live ttl (s_now s) (m_chunk m') (s_res s)); [|by injection Er as <- <- <-]. destruct delayed.
      * injection Er as <- <- <-. cbn. rewrite fmap_app. apply elem_of_app. by left.
      * rewrite remove_spec in Er. by injection Er as <- <- <-.
  - (* LCounters *) destruct (s_phase s) as [| |m'] eqn:Ep; [done|done|]. injection Hn as <- <-. destruct Hs as [Hs|Hs]; [congruence|]. by right.
  - (* LPurge *) destruct (r_pending (s_res s) !! i) as [[k' t]|] eqn:Ep; [|done]. destruct (t <=? s_now s) eqn:El; [|done]. rewrite remove_spec in Hn. injection Hn as <- <-.
    destruct Hs as [Hs|Hs]; [by left|]. right. cbn. apply N.leb_le in El.
    apply elem_of_list_fmap in Hs as ([k2 t2] & E2 & Hs). cbn in E2. subst k2. apply elem_of_list_lookup in Hs as [j Hj].
    assert (j <> i). { intros ->. rewrite Ep in Hj. injection Hj as -> ->. apply elem_of_list_lookup_2 in Ep. specialize (kp_pending _ _ _ _ K _ Ep). lia. }
    apply elem_of_list_fmap. exists (k, t2). split; [done|]. rewrite delete_take_drop. apply elem_of_app.
    destruct (decide (j < i)%nat).
    + left. apply elem_of_list_lookup. exists j. by rewrite lookup_take.
    + right. apply elem_of_list_lookup. exists (j - S i)%nat. rewrite lookup_drop. by replace (S i + (j - S i))%nat with j by lia.
  - (* LCrash *) by destruct (Hnc e0).
Qed.
End settled.

(** *** Without reports nothing happens to the database *)
Definition no_reports (tr : trace) (s : state) (l : label) : Prop :=
  match l with LReport _ _ _ | LProducer _ | LCrash (Some _) => False | _ => True end.
Lemma silent_step s l s' o : inbox s = [] -> no_reports [] s l -> next cfg l s = Some (s', o) -> inbox s' = [] /\ s_hist s' = s_hist s.
Proof.
  intros Hi Hok Hn. unfold inbox in Hi. apply app_eq_nil in Hi as [Hp Hm].
  assert (Hsame : s_phase s' = s_phase s -> s_mail s' = s_mail s -> s_hist s' = s_hist s -> inbox s' = [] /\ s_hist s' = s_hist s).
  { intros E1 E2 E3. split; [|done]. unfold inbox. by rewrite E1, E2, Hp, Hm. }
  destruct l; try done; unfold next in Hn; try (apply Hsame; repeat case_match; simplify_eq; done).
  - (* LCounters *) destruct (s_phase s) as [| |m]; try done. injection Hn as <- <-. unfold inbox. cbn. by rewrite Hm.
  - (* LCrash *) destruct e; [done|]. by injection Hn as <- <-.
Qed.
Lemma silent_run s tr s' : inbox s = [] -> run_to cfg no_reports s tr s' -> inbox s' = [] /\ s_hist s' = s_hist s.
Proof.
  intros Hi Hr. induction Hr as [|tr s1 l s2 o Hr [IH1 IH2] Hok [_ Hn]]; [done|].
  destruct (silent_step _ _ _ _ IH1 Hok Hn) as [H1 H2]. by rewrite H2.
Qed.

(** *** Reports are dealt with in the order in which they arrive *)
Definition sent (tr : trace) : list mail := omap (fun lo => match lo.1 with LReport c k r => Some (Mail c k r) | _ => None end) tr.
Definition reliable (tr : trace) (s : state) (l : label) : Prop :=
  match l with LCrash _ | LLost => False | LWrite fs _ _ _ => fs = [] | _ => True end.
Definition by_consumer (e : event) : Prop := is_producer_op (e_op e) = false.
Global Instance by_consumer_dec e : Decision (by_consumer e).
Proof. unfold by_consumer. apply _. Defined.
Definition write_of (m : mail) (e : event) : Prop := exists n1 n2 n3, e = quiet (mail_op cfg m n1 n2 n3).
Lemma fifo h0 now tr s : run_to cfg reliable (server_start h0 now) tr s ->
  exists es done, s_hist s = h0 ++ es /\ sent tr = done ++ s_mail s /\ Forall2 write_of done (filter by_consumer es).
Proof.
  intros Hr. induction Hr as [|tr s1 l s2 o Hr (es & dn & IH1 & IH2 & IH3) Hok [_ Hn]].
  - exists [], []. cbn. rewrite app_nil_r. split_and!; [done|done|constructor].
  - unfold sent in *. rewrite omap_app, IH2.
    assert (Hsame : s_hist s2 = s_hist s1 -> s_mail s2 = s_mail s1 -> (forall c k r, l <> LReport c k r) ->
      exists es done, s_hist s2 = h0 ++ es /\ (dn ++ s_mail s1) ++ omap (fun lo => match lo.1 with LReport c k r => Some (Mail c k r) | _ => None end) [(l, o)] = done ++ s_mail s2 /\
        Forall2 write_of done (filter by_consumer es)).
    { intros E1 E2 E3. exists es, dn. split_and!; [congruence| |done]. rewrite E2. destruct l; cbn; try (by rewrite app_nil_r). by destruct (E3 c cid r). }
    destruct l; try done; unfold next in Hn; try (apply Hsame; [repeat case_match; simplify_eq; done|repeat case_match; simplify_eq; done|done]).
    + (* LProducer *) destruct (is_producer_op (e_op e)) eqn:Eop; [|done]. injection Hn as <- <-.
      exists (es ++ [e]), dn. cbn. rewrite IH1, app_assoc, app_nil_r. split_and!; [done|done|]. rewrite filter_app, filter_cons_False, app_nil_r; [done|].
      unfold by_consumer. congruence.
    + (* LReport *) destruct (s_conns s1 !! c) as [x|] eqn:Ec; [|done]. destruct (c_open x) eqn:Eo; [|done]. destruct (c_fetch x) eqn:Ef; [done|].
      injection Hn as <- <-. exists es, dn. cbn. by rewrite app_assoc.
    + (* LWrite *) cbn in Hok. subst fs. destruct (s_phase s1) eqn:Ep; try done. destruct (s_mail s1) as [|m rest] eqn:Em; [done|]. injection Hn as <- <-.
      eexists (es ++ [_]), (dn ++ [m]). cbn. rewrite IH1, <- !app_assoc, app_nil_r. split_and!; [done|done|].
      rewrite filter_app. apply Forall2_app; [done|]. rewrite filter_cons_True.
      * constructor; [|constructor]. by eexists _, _, _.
      * unfold by_consumer. unfold mail_op. cbn. by destruct (m_report m).
Qed.

(** *** Parts of runs *)
Lemma run_snoc_inv ok s0 tr l o s : run_to cfg ok s0 (tr ++ [(l, o)]) s -> exists s1, run_to cfg ok s0 tr s1 /\ ok tr s1 l /\ step_to cfg s1 l s o.
Proof.
  intros Hr. inversion Hr as [E|tr' s1 l' s2 o' Hr' Hok Hst E]; [by destruct tr|]. apply app_inj_tail in E as [-> [= -> ->]]. subst. eauto.
Qed.
Lemma run_split ok s0 tr1 tr2 s : run_to cfg ok s0 (tr1 ++ tr2) s -> exists s1, run_to cfg ok s0 tr1 s1 /\ run_to cfg (fun tr => ok (tr1 ++ tr)) s1 tr2 s.
Proof.
  revert s. induction tr2 as [|[l o] tr2 IH] using rev_ind; intros s Hr.
  - rewrite app_nil_r in Hr. exists s. split; [done|constructor].
  - rewrite app_assoc in Hr. apply run_snoc_inv in Hr as (s1 & Hr & Hok & Hst). destruct (IH _ Hr) as (s0' & H1 & H2). exists s0'. split; [done|].
    by econstructor.
Qed.
Lemma hist_grows l s s' o : next cfg l s = Some (s', o) -> s_hist s `prefix_of` s_hist s'.
Proof.
  intros Hn. destruct l; unfold next in Hn; try (repeat case_match; simplify_eq; done).
  - destruct (is_producer_op _); [|done]. injection Hn as <- <-. by eexists.
  - repeat case_match; simplify_eq; by eexists.
  - injection Hn as <- <-. destruct e; [by eexists|done].
Qed.
Lemma run_hist ok s tr s' : run_to cfg ok s tr s' -> s_hist s `prefix_of` s_hist s'.
Proof. induction 1 as [|tr s1 l s2 o Hr IH Hok [_ Hn]]; [done|]. etrans; [exact IH|]. by eapply hist_grows. Qed.

(** *** Consumers are only given chunks of known submissions *)
Definition rows_known (ids : list sub_id) (f : fetch) : Prop :=
  forall r, r ∈ f_rows f \/ r ∈ (f_got f).*1 \/ f_join f = Some r -> c_sub r ∈ ids.
Definition fetches_known (s : state) : Prop :=
  forall c x f, s_conns s !! c = Some x -> c_fetch x = Some f -> rows_known (inserted_ids (s_hist s)) f.
Lemma inserted_prefix h h' id : h `prefix_of` h' -> id ∈ inserted_ids h -> id ∈ inserted_ids h'.
Proof. intros [h2 ->] H. unfold inserted_ids. rewrite omap_app. apply elem_of_app. by left. Qed.
Lemma fresh_prefix_of h h' : h `prefix_of` h' -> fresh_ids h' -> fresh_ids h.
Proof. intros [h2 ->]. apply fresh_prefix. Qed.
Lemma known_mono s c x s' : fetches_known s -> s_hist s `prefix_of` s_hist s' -> (forall c' x', s_conns s' !! c' = Some x' -> (c' = c /\ c_fetch x' = c_fetch x) \/ exists y, s_conns s !! c' = Some y /\ c_fetch x' = c_fetch y) ->
  (forall f, c_fetch x = Some f -> rows_known (inserted_ids (s_hist s')) f) -> fetches_known s'.
Proof.
  intros K Hp Hc Hx c' x' f Hx' Hf. destruct (Hc _ _ Hx') as [[-> E]|(y & Hy & E)].
  - apply Hx. congruence.
  - rewrite E in Hf. intros r Hr. eapply inserted_prefix; [done|]. by eapply (K _ _ _ Hy Hf).
Qed.
Lemma known_conn s c x s' : fetches_known s -> s_hist s' = s_hist s -> s_conns s' = <[c := x]> (s_conns s) ->
  (forall f, c_fetch x = Some f -> rows_known (inserted_ids (s_hist s)) f) -> fetches_known s'.
Proof.
  intros K Hp Hc Hx. eapply (known_mono s c x); [done|by rewrite Hp| |by rewrite Hp].
  intros c' x' Hl. rewrite Hc in Hl. apply lookup_insert_Some in Hl as [[<- <-]|[_ Hl]]; eauto.
Qed.
Lemma offers_known q off h m l : fresh_ids h -> offers q off (after h) m (fun _ => false) l -> forall r, r ∈ l -> c_sub r ∈ inserted_ids h.
Proof.
  intros Hf Ho r Hr. destruct (offers_exact _ _ _ _ _ _ Hf Ho) as [_ Hel]. apply Hel in Hr as [Hw _]. by apply (waiting_inserted _ _ _ Hf) in Hw.
Qed.
Lemma fetches_known_step s l s' o : fresh_ids (s_hist s) -> fetches_known s -> step_to cfg s l s' o -> fetches_known s' /\
  forall c n g, Given c n g ∈ o -> forall k, k ∈ ids_of g -> k.1 ∈ inserted_ids (s_hist s).
Proof.
  intros Hf K [Ha Hn]. pose proof (hist_grows _ _ _ _ Hn) as Hp.
  assert (Hnil : forall c n g, Given c n g ∈ ([] : list out) -> forall k, k ∈ ids_of g -> k.1 ∈ inserted_ids (s_hist s)) by (intros c n g Hin; by apply elem_of_nil in Hin).
  assert (Hone : forall y, (forall c n g, Given c n g <> y) -> forall c n g, Given c n g ∈ [y] -> forall k, k ∈ ids_of g -> k.1 ∈ inserted_ids (s_hist s)).
  { intros y Hy c n g Hin. apply elem_of_list_singleton in Hin. by destruct (Hy c n g). }
  assert (Hempty : forall d m, forall c n g, Given c n g ∈ [Given d m []] -> forall k, k ∈ ids_of g -> k.1 ∈ inserted_ids (s_hist s)).
  { intros d m c n g Hin. apply elem_of_list_singleton in Hin. injection Hin as -> -> ->. intros k Hk. unfold ids_of in Hk. cbn in Hk. set_solver. }
  assert (Hsame : s_conns s' = s_conns s -> fetches_known s').
  { intros E c x f Hx Hfx r Hr. rewrite E in Hx. eapply inserted_prefix; [done|]. by eapply (K _ _ _ Hx Hfx). }
  assert (Hdel : forall ns cs, s_conns s' = foldl deliver cs ns -> (forall c x f, cs !! c = Some x -> c_fetch x = Some f -> rows_known (inserted_ids (s_hist s)) f) -> fetches_known s').
  { intros ns cs E Hcs c x f Hx Hfx r Hr. rewrite E in Hx. apply deliver_some in Hx as (y & Hy & rx & ->). eapply inserted_prefix; [done|]. by eapply (Hcs _ _ _ Hy Hfx). }
  assert (Hclose : forall c x, s' = close cfg c x s -> fetches_known s').
  { intros c x -> c' x' f Hx' Hfx. unfold close in Hx'. cbn in Hx'. apply lookup_insert_Some in Hx' as [[<- <-]|[Hne Hx']]; [done|].
    apply deliver_some in Hx' as (y & Hy & rx & ->). rewrite lookup_insert_ne in Hy by done. exact (K _ _ _ Hy Hfx). }
  destruct l; unfold next in Hn.
  - destruct (is_producer_op _); [|done]. injection Hn as <- <-. split; [by apply Hsame|done].
  - destruct (s_notifies s) as [|n]; [done|]. injection Hn as <- <-. split; [|done]. intros c x f Hx Hfx. cbn in Hx. rewrite lookup_fmap in Hx.
    apply fmap_Some in Hx as (y & Hy & ->). exact (K _ _ _ Hy Hfx).
  - destruct (s_conns s !! c) eqn:Ec; [done|]. injection Hn as <- <-. split; [|done]. by eapply (known_conn s c peer_new).
  - destruct (s_conns s !! c) as [x|] eqn:Ec; [|done]. destruct (c_open x) eqn:Eo; [|done]. destruct (c_fetch x); [done|]. injection Hn as <- <-.
    split; [by eapply Hclose|by apply Hone].
  - destruct (s_conns s !! c) as [x|] eqn:Ec; [|done]. destruct (c_open x) eqn:Eo; [|done]. destruct (c_fetch x) eqn:Ef; [done|].
    destruct (q_max q =? 0); [|destruct (can_ask _); cbn [negb] in Hn]; injection Hn as <- <-; [split; [by apply Hsame|by apply Hone]| |split; [by apply Hsame|by apply Hempty]]. split; [|done]. eapply (known_conn s c); try done.
    cbn. intros f [= <-] r [Hr|[Hr|Hr]]; cbn in Hr; [|by apply elem_of_nil in Hr|done]. eapply offers_known; [exact Hf|exact Ha|exact Hr].
  - destruct (s_conns s !! c) as [x|] eqn:Ec; [|done]. destruct (c_open x) eqn:Eo; [|done]. destruct (c_fetch x) eqn:Ef; [done|].
    destruct (c_retry x) as [|q rest] eqn:Er; [done|]. destruct (q_max q =? 0); [|destruct (can_ask _); cbn [negb] in Hn]; injection Hn as <- <-; [| |split; [by eapply (known_conn s c)|by apply Hempty]].
    + split; [by eapply (known_conn s c)|by apply Hone].
    + split; [|done]. eapply (known_conn s c); try done. destruct Ha as (x' & q' & rest' & Hx' & Hr' & Ha). rewrite Ec in Hx'. injection Hx' as <-.
      rewrite Er in Hr'. injection Hr' as <- <-.
      cbn. intros f [= <-] r [Hr|[Hr|Hr]]; cbn in Hr; [|by apply elem_of_nil in Hr|done]. eapply offers_known; [exact Hf|exact Ha|exact Hr].
  - destruct (s_conns s !! c) as [x|] eqn:Ec; [|done]. destruct (c_fetch x) as [[q [|r rows] got [?|]]|] eqn:Ef; try done. destruct (_ <? _); [|done].
    destruct (try_reserve ttl (s_now s) (cid_of r) c (s_res s)) as [[ok res] ns] eqn:Er. injection Hn as <- <-. split; [|done].
    eapply (Hdel ns); [done|]. intros c' x' f Hl Hfx. cbn in Hl. apply lookup_insert_Some in Hl as [[<- <-]|[_ Hl]]; [|exact (K _ _ _ Hl Hfx)].
    cbn in Hfx. injection Hfx as <-. intros r' Hr'. cbn in Hr'. apply (K _ _ _ Ec Ef). cbn. destruct Hr' as [Hr'|[Hr'|Hr']].
    + left. by right.
    + by right; left.
    + destruct ok; [|done]. injection Hr' as <-. left. left.
  - destruct (s_conns s !! c) as [x|] eqn:Ec; [|done]. destruct (c_fetch x) as [[q rows got j]|] eqn:Ef; [|done].
    destruct (rows !! i); [|done]. destruct (is_reserved _ _ _ _); [|done]. injection Hn as <- <-. split; [|done]. eapply (known_conn s c); try done.
    cbn. intros f [= <-] r Hr. apply (K _ _ _ Ec Ef). cbn in Hr |- *. destruct Hr as [Hr|Hr]; [left|by right].
    eapply elem_of_submseteq; [exact Hr|]. apply sublist_submseteq, sublist_delete.
  - destruct (s_conns s !! c) as [x|] eqn:Ec; [|done]. destruct (c_fetch x) as [[q rows got [r|]]|] eqn:Ef; [|done|done].
    destruct (if fault then None else joined_submission (s_db s) r) as [sub|]; injection Hn as <- <-; [|split; [by eapply Hclose|by apply Hone]].
    split; [|done]. eapply (known_conn s c); try done.
    cbn. intros f [= <-] r' Hr. apply (K _ _ _ Ec Ef). cbn in Hr |- *. destruct Hr as [Hr|[Hr|Hr]]; [by left| |done].
    rewrite fmap_app in Hr. apply elem_of_app in Hr as [Hr|Hr]; [by right; left|]. apply elem_of_list_singleton in Hr. cbn in Hr. subst r'. by right; right.
  - destruct (s_conns s !! c) as [x|] eqn:Ec; [|done]. destruct (c_fetch x) as [[q rows got j]|] eqn:Ef; [|done].
    injection Hn as <- <-. split; [by eapply (known_conn s c)|]. intros c' n g Hin. apply elem_of_list_singleton in Hin. injection Hin as -> -> ->. intros k Hk. unfold ids_of in Hk. cbn in Hk. set_solver.
  - destruct (s_conns s !! c) as [x|] eqn:Ec; [|done]. destruct (c_fetch x) as [[q rows got [r|]]|] eqn:Ef; [done| |done].
    destruct (_ || _); [|done]. destruct got as [|g got]; injection Hn as <- <-; [split; [by eapply (known_conn s c)|done]|].
    split; [by eapply (known_conn s c)|]. intros c' n g' Hin. apply elem_of_list_singleton in Hin. injection Hin as -> -> ->.
    intros k Hk. unfold ids_of in Hk. rewrite elem_of_list_to_set in Hk. apply elem_of_list_fmap in Hk as (p & -> & Hp'). cbn.
    apply (K _ _ _ Ec Ef). right. left. apply elem_of_list_fmap. by exists p.
  - destruct (s_conns s !! c) as [x|] eqn:Ec; [|done]. destruct (c_spawned x) as [|q rest]; [done|]. injection Hn as <- <-. split; [|done].
    eapply (known_conn s c); try done. cbn. intros f Hfx. exact (K _ _ _ Ec Hfx).
  - destruct (s_conns s !! c) as [x|] eqn:Ec; [|done]. destruct (c_open x) eqn:Eo; [|done]. destruct (c_fetch x) eqn:Ef; [done|].
    injection Hn as <- <-. split; [|done]. by eapply (known_conn s c).
  - repeat case_match; simplify_eq; (split; [by apply Hsame|done]).
  - repeat case_match; simplify_eq; (split; [by apply Hsame|done]).
  - destruct (s_phase s) as [|m delayed|] eqn:Ep; [done| |done].
    destruct (finish_reservation ttl (s_now s) (m_chunk m) delayed (s_res s)) as [[at_ res] ns] eqn:Er. injection Hn as <- <-. split; [|done].
    eapply (Hdel ns); [done|]. intros c' x' f Hl Hfx. cbn in Hl. apply lookup_alter_Some in Hl as [[<- (w & Hw & ->)]|[_ Hl]]; [exact (K _ _ _ Hw Hfx)|exact (K _ _ _ Hl Hfx)].
  - repeat case_match; simplify_eq; (split; [by apply Hsame|done]).
  - injection Hn as <- <-. split; [by apply Hsame|done].
  - destruct (r_pending (s_res s) !! i) as [[k' t]|] eqn:Ep; [|done]. destruct (t <=? s_now s) eqn:El; [|done]. rewrite remove_spec in Hn. injection Hn as <- <-.
    split; [|done]. by eapply (Hdel _ (s_conns s)).
  - destruct (r_entries (s_res s) !! k) as [e'|] eqn:Ee; [|done]. destruct (is_live ttl (s_now s) e') eqn:El; [done|].
    rewrite remove_spec in Hn. injection Hn as <- <-. split; [|done]. by eapply (Hdel _ (s_conns s)).
  - destruct (s_conns s !! c) as [x|] eqn:Ec; [|done]. destruct (c_fetch x) eqn:Ef; [done|]. destruct (c_rx x) as [|k' rest]; [done|].
    injection Hn as <- <-. split; [by eapply (known_conn s c)|by apply Hone].
  - injection Hn as <- <-. split; [|done]. intros c x f Hx; cbn in Hx; by rewrite lookup_empty in Hx.
Qed.
Lemma given_known ok h now tr s : run_to cfg ok (server_start h now) tr s -> fresh_ids (s_hist s) -> fetches_known s /\
  forall l o c n g k, (l, o) ∈ tr -> Given c n g ∈ o -> k ∈ ids_of g -> k.1 ∈ inserted_ids (s_hist s).
Proof.
  induction 1 as [|tr s1 l s2 o Hr IH Hok Hst]; intros Hf.
  - split; [intros c x f Hx; cbn in Hx; by rewrite lookup_empty in Hx|]. intros l o c n g k Hin. by apply elem_of_nil in Hin.
  - pose proof Hst as [_ Hn]. pose proof (hist_grows _ _ _ _ Hn) as Hp. pose proof (fresh_prefix_of _ _ Hp Hf) as Hf1.
    destruct (IH Hf1) as [K G]. destruct (fetches_known_step _ _ _ _ Hf1 K Hst) as [K2 G2]. split; [done|].
    intros l' o' c n g k Hin Hg Hk. eapply inserted_prefix; [done|]. apply elem_of_app in Hin as [Hin|Hin]; [by eapply G|].
    apply elem_of_list_singleton in Hin. injection Hin as -> ->. by eapply G2.
Qed.
Lemma holding_given tr c k : k ∈ holding tr c -> exists l o n g, (l, o) ∈ tr /\ Given c n g ∈ o /\ k ∈ ids_of g.
Proof.
  induction tr as [|[l o] tr IH] using rev_ind; [intros Hk; by apply elem_of_empty in Hk|]. rewrite holding_snoc. unfold hold_step. cbn [fst snd].
  set (k0 := match l with LReport c' cid _ => _ | LCrash _ => ∅ | _ => _ end). intros Hk.
  assert (Hfold : forall o' k0, k ∈ foldl (hold_out c) k0 o' -> k ∈ k0 \/ exists n g, Given c n g ∈ o' /\ k ∈ ids_of g).
  { clear. induction o' as [|y o' IH]; intros k0 Hk; cbn in Hk; [by left|]. apply IH in Hk as [Hk|(n & g & H1 & H2)].
    - destruct y as [c' n g| | |c']; cbn in Hk; try (by left).
      + case_bool_decide as Hc; [|by left]. subst c'. apply elem_of_union in Hk as [Hk|Hk]; [by left|]. right. exists n, g. split; [left|done].
      + case_bool_decide; [set_solver|by left].
    - right. exists n, g. split; [by right|done]. }
  apply Hfold in Hk as [Hk|(n & g & H1 & H2)].
  - assert (k ∈ holding tr c). { subst k0. destruct l; try done. case_bool_decide; [set_solver|done]. }
    destruct IH as (l' & o' & n & g & H1 & H2); [done|]. exists l', o', n, g. split; [apply elem_of_app; by left|done].
  - exists l, o, n, g. split; [apply elem_of_app; right; left|done].
Qed.
End facts.
Lemma filter_split {A} (P : A -> Prop) `{forall x, Decision (P x)} l a x b : filter P l = a ++ x :: b -> exists u v, l = u ++ x :: v /\ filter P u = a /\ filter P v = b.
Proof.
  revert a. induction l as [|y l IH]; intros a E; [by destruct a|]. rewrite filter_cons in E. case_decide as Hy.
  - destruct a as [|z a].
    + injection E as <- E. by exists [], l.
    + injection E as <- E. destruct (IH _ E) as (u & v & -> & H1 & H2). exists (y :: u), v. rewrite filter_cons, decide_True by done. by rewrite H1.
  - destruct (IH _ E) as (u & v & -> & H1 & H2). exists (y :: u), v. rewrite filter_cons, decide_False by done. done.
Qed.
