(** The in-flight counters of the running server (C32). *)
From Verif Require Export LeakProofs MetaStateProofs.
Local Open Scope N_scope.

(** *** The metadata of a known submission does not change without cleanup *)
Lemma meta_stays h e id : fresh_ids (h ++ [e]) -> id ∈ inserted_ids h -> ~ is_cleanup e ->
  strategic_metadata (after (h ++ [e])) id = strategic_metadata (after h) id.
Proof.
  intros Hf Hid Hn. rewrite !strategic_metadata_view. pose proof (change_after h e id Hf) as Hc. apply fresh_ids_app in Hf as [Hf Hi].
  remember (e_op e) as op eqn:Eop. revert Hc. generalize (view_of (after h) id) (view_of (after (h ++ [e])) id). intros v v' Hc.
  inversion Hc; subst; cbn; try done.
  - exfalso. destruct (Hi id); [|done]. unfold History.insert_id. match goal with E : _ = e_op e |- _ => by rewrite <- E end.
  - exfalso. destruct (Hi id); [|done]. unfold History.insert_id. match goal with E : _ = e_op e |- _ => by rewrite <- E end.
  - exfalso. apply Hn. unfold is_cleanup. match goal with E : _ = e_op e |- _ => by rewrite <- E end.
Qed.

(** *** Lists of chunks per connection *)
Definition flat (H : gmap N (list chunk_id)) : list chunk_id := concat (map_to_list H).*2.
Lemma flat_lookup H c a : H !! c = Some a -> flat H ≡ₚ a ++ flat (delete c H).
Proof.
  intros E. unfold flat. rewrite <- (insert_delete H c a E) at 1. rewrite map_to_list_insert by apply lookup_delete. done.
Qed.
Lemma flat_insert H c a : flat (<[c := a]> H) ≡ₚ a ++ flat (delete c H).
Proof. rewrite (flat_lookup (<[c := a]> H) c a) by apply lookup_insert. by rewrite delete_insert_delete. Qed.
Lemma flat_update H c a a' : H !! c = Some a -> exists rest, flat H ≡ₚ a ++ rest /\ flat (<[c := a']> H) ≡ₚ a' ++ rest.
Proof. intros E. exists (flat (delete c H)). split; [by apply flat_lookup|apply flat_insert]. Qed.
Lemma elem_flat H k : k ∈ flat H <-> exists c a, H !! c = Some a /\ k ∈ a.
Proof.
  unfold flat. rewrite elem_of_list_In, in_concat. split.
  - intros (a & Ha & Hk). apply elem_of_list_In, elem_of_list_fmap in Ha as ([c a'] & -> & Hin). apply elem_of_map_to_list in Hin. exists c, a'. split; [done|]. by apply elem_of_list_In.
  - intros (c & a & E & Hk). exists a. split; [|by apply elem_of_list_In]. apply elem_of_list_In, elem_of_list_fmap. exists (c, a). split; [done|]. by apply elem_of_map_to_list.
Qed.
Lemma nodup_flat H : (forall c a, H !! c = Some a -> NoDup a) ->
  (forall c c' a a' k, H !! c = Some a -> H !! c' = Some a' -> k ∈ a -> k ∈ a' -> c = c') -> NoDup (flat H).
Proof.
  induction H as [|c a H Hc IH] using map_ind; intros H1 H2; [unfold flat; rewrite map_to_list_empty; constructor|].
  rewrite flat_insert, delete_notin by done. apply NoDup_app. split_and!.
  - apply (H1 c). by rewrite lookup_insert.
  - intros k Hk (c' & a' & E & Hk')%elem_flat. assert (c = c'); [|congruence]. eapply (H2 c c' a a' k); try done; [by rewrite lookup_insert|].
    rewrite lookup_insert_ne by congruence. done.
  - apply IH.
    + intros c' a' E. apply (H1 c'). rewrite lookup_insert_ne by congruence. done.
    + intros c1 c2 a1 a2 k E1 E2. apply H2; by rewrite lookup_insert_ne by congruence.
Qed.

(** *** The chunks in flight *)
(** Those that a connection has been given or has collected for a running request. *)
Definition collected (x : peer) : list chunk_id := match c_fetch x with Some f => (fun p => cid_of p.1) <$> f_got f | None => [] end.
Definition has (x : peer) : list chunk_id := if c_open x then elements (c_set x) ++ collected x else [].
Definition finishing (s : state) : list chunk_id := match s_phase s with Finished m => [m_chunk m] | _ => [] end.
Definition flight (s : state) : list chunk_id := flat (has <$> s_conns s) ++ finishing s.
Definition carrying (d : db) (key : string) (v : Z) (l : list chunk_id) : nat := length (filter (fun k : chunk_id => strategic_metadata d k.1 !! key = Some v) l).
Lemma carrying_app d key v l1 l2 : carrying d key v (l1 ++ l2) = (carrying d key v l1 + carrying d key v l2)%nat.
Proof. unfold carrying. by rewrite filter_app, app_length. Qed.
Lemma carrying_perm d key v l1 l2 : l1 ≡ₚ l2 -> carrying d key v l1 = carrying d key v l2.
Proof. intros E. unfold carrying. by rewrite E. Qed.
Lemma carrying_one d key v k : carrying d key v [k] = if bool_decide (strategic_metadata d k.1 !! key = Some v) then 1%nat else 0%nat.
Proof. unfold carrying. rewrite filter_cons. case_decide; case_bool_decide; done. Qed.
Lemma carrying_same d d' key v l : (forall k, k ∈ l -> strategic_metadata d' k.1 = strategic_metadata d k.1) -> carrying d' key v l = carrying d key v l.
Proof.
  intros H. unfold carrying. f_equal. induction l as [|a l IH]; [done|]. rewrite !filter_cons. rewrite (H a) by left.
  rewrite IH; [done|]. intros k Hk. apply H. by right.
Qed.

(** What C32 asks of a run: it is orderly, nothing gets lost to errors of the database, there is no
    cleanup, and consumers disconnect only when they hold nothing. *)
Definition steady (cfg : config) (tr : trace) (s : state) (l : label) : Prop :=
  orderly cfg tr s l /\ careful cfg tr s l /\ l <> LCounters false /\ (forall c, l = LDisconnect c -> holding tr c = ∅) /\ (forall e, l = LProducer e -> ~ is_cleanup e).

Record cinv (s : state) : Prop := {
  ci_pos : positive (s_counts s);
  ci_count : forall key v, count (s_counts s) key v = N.of_nat (carrying (s_db s) key v (flight s));
  ci_known : forall k, k ∈ flight s -> k.1 ∈ inserted_ids (s_hist s) }.

Lemma has_deliver ns : forall cs, has <$> foldl deliver cs ns = has <$> cs.
Proof.
  induction ns as [|n ns IH]; intros cs; [done|]. cbn [foldl]. rewrite IH. unfold deliver.
  destruct (cs !! n.1) as [x|] eqn:E; [|done]. destruct (c_open x) eqn:Eo; [|done].
  rewrite fmap_insert. apply fin_maps.insert_id. rewrite lookup_fmap, E. cbn. f_equal. unfold has, collected. cbn. by rewrite Eo.
Qed.

(** The chunks in flight stay the same. *)
Lemma cinv_same s s' : cinv s -> s_counts s' = s_counts s -> s_hist s' = s_hist s -> flight s' ≡ₚ flight s -> cinv s'.
Proof.
  intros [C1 C2 C3] Ec Eh Ef. constructor.
  - by rewrite Ec.
  - intros key v. unfold s_db. rewrite Ec, Eh, C2. f_equal. symmetry. by apply carrying_perm.
  - intros k. rewrite Ef, Eh. apply C3.
Qed.
Lemma cinv_write s s' e : cinv s -> s_counts s' = s_counts s -> s_hist s' = s_hist s ++ [e] -> flight s' = flight s -> fresh_ids (s_hist s') -> ~ is_cleanup e -> cinv s'.
Proof.
  intros [C1 C2 C3] Ec Eh Ef Hf Hn. constructor.
  - by rewrite Ec.
  - intros key v. unfold s_db. rewrite Ec, Eh, C2, Ef. f_equal. symmetry. apply carrying_same. intros k Hk. apply meta_stays; [by rewrite <- Eh|by apply C3|done].
  - intros k. rewrite Ef, Eh. intros Hk. eapply inserted_prefix; [by apply prefix_app_r|]. by apply C3.
Qed.
Lemma flight_conn s s' c x x' : s_conns s !! c = Some x -> s_conns s' = <[c := x']> (s_conns s) -> has x' = has x -> s_phase s' = s_phase s -> flight s' ≡ₚ flight s.
Proof.
  intros Hx Ec Eh Ep. unfold flight, finishing. rewrite Ec, Ep, fmap_insert, Eh. rewrite fin_maps.insert_id; [done|]. by rewrite lookup_fmap, Hx.
Qed.
Lemma flight_deliver s s' cs ns : s_conns s' = foldl deliver cs ns -> has <$> cs = has <$> s_conns s -> s_phase s' = s_phase s -> flight s' = flight s.
Proof. intros Ec Eh Ep. unfold flight, finishing. by rewrite Ec, Ep, has_deliver, Eh. Qed.

Section count.
Context (cfg : config).
Notation ttl := (cf_ttl cfg).
Lemma cinv_step tr s l s' o : steady cfg tr s l -> step_to cfg s l s' o -> sinv tr s -> linv cfg tr s -> fetches_known s -> fresh_ids (s_hist s') -> cinv s -> cinv s'.
Proof.
  intros (Hord & Hcar & S1 & S2 & S3) [_ Hn] [I Hop] [B O F] K Hfr C. pose proof Hord as (_ & _ & Hcl).
  assert (Hopen : forall c x f, s_conns s !! c = Some x -> c_fetch x = Some f -> c_open x = true).
  { intros c x f Hx Hf. destruct (c_open x) eqn:Eo; [done|]. by rewrite (F _ _ Hx Eo) in Hf. }
  destruct l; unfold next in Hn.
  - destruct (is_producer_op _); [|done]. injection Hn as <- <-. apply (cinv_write s _ e); try done. by apply S3.
  - destruct (s_notifies s) as [|n]; [done|]. injection Hn as <- <-. apply (cinv_same s); try done. unfold flight, finishing. cbn.
    rewrite <- map_fmap_compose. erewrite (map_fmap_ext (has ∘ _) has); [done|]. done.
  - destruct (s_conns s !! c) eqn:Ec; [done|]. injection Hn as <- <-. apply (cinv_same s); try done. unfold flight, finishing. cbn.
    rewrite fmap_insert, flat_insert, delete_notin by (by rewrite lookup_fmap, Ec). done.
  - destruct (s_conns s !! c) as [x|] eqn:Ec; [|done]. destruct (c_open x) eqn:Eo; [|done]. destruct (c_fetch x) eqn:Ef; [done|].
    assert (Hcs : forall m, m ∈ inbox s -> m_conn m <> c). { intros m. apply (Hcl s' o); [unfold next; by rewrite Ec, Eo, Ef|]. injection Hn as <- <-. left. }
    injection Hn as <- <-. apply (cinv_same s); try done.
    assert (Hset : c_set x = ∅).
    { apply set_eq. intros k. split; [|set_solver]. intros Hk. destruct (O _ _ _ Ec Eo Hk) as [Hh|(m & Hm & H1 & _)]; [by rewrite (S2 c eq_refl) in Hh|]. by destruct (Hcs m). }
    unfold flight, finishing. cbn. rewrite fmap_insert, flat_insert, <- fmap_delete. rewrite (flat_lookup (has <$> s_conns s) c []); [|rewrite lookup_fmap, Ec; cbn; f_equal; unfold has, collected; by rewrite Eo, Ef, Hset, elements_empty].
    cbn [has c_open app]. rewrite fmap_delete, has_deliver, fmap_insert, delete_insert_delete. done.
  - destruct (s_conns s !! c) as [x|] eqn:Ec; [|done]. destruct (c_open x) eqn:Eo; [|done]. destruct (c_fetch x) eqn:Ef; [done|].
    destruct (q_max q =? 0); [|destruct (can_ask _); cbn [negb] in Hn]; injection Hn as <- <-; [done| |done]. apply (cinv_same s); try done. eapply (flight_conn s _ c x); try done. unfold has, collected. cbn. by rewrite Ef.
  - destruct (s_conns s !! c) as [x|] eqn:Ec; [|done]. destruct (c_open x) eqn:Eo; [|done]. destruct (c_fetch x) eqn:Ef; [done|].
    destruct (c_retry x) as [|q rest]; [done|]. destruct (q_max q =? 0); [|destruct (can_ask _); cbn [negb] in Hn]; injection Hn as <- <-; (apply (cinv_same s); try done); (eapply (flight_conn s _ c x); try done); unfold has, collected; cbn; by rewrite Eo, Ef.
  - destruct (s_conns s !! c) as [x|] eqn:Ec; [|done]. destruct (c_fetch x) as [[q [|r rows] got [?|]]|] eqn:Ef; try done. destruct (_ <? _); [|done].
    destruct (try_reserve ttl (s_now s) (cid_of r) c (s_res s)) as [[ok res] ns] eqn:Er. injection Hn as <- <-. apply (cinv_same s); try done.
    erewrite (flight_deliver s); [done|done| |done]. cbn. rewrite fmap_insert. apply fin_maps.insert_id. rewrite lookup_fmap, Ec. cbn. f_equal. unfold has, collected. cbn. by rewrite Ef.
  - destruct (s_conns s !! c) as [x|] eqn:Ec; [|done]. destruct (c_fetch x) as [[q rows got j]|] eqn:Ef; [|done].
    destruct (rows !! i); [|done]. destruct (is_reserved _ _ _ _); [|done]. injection Hn as <- <-. apply (cinv_same s); try done.
    eapply (flight_conn s _ c x); try done. unfold has, collected. cbn. by rewrite Ef.
  - destruct (s_conns s !! c) as [x|] eqn:Ec; [|done]. destruct (c_fetch x) as [[q rows got [r|]]|] eqn:Ef; [|done|done].
    destruct Hcar as (_ & _ & C3). specialize (C3 c fault s' o eq_refl). unfold next in C3. rewrite Ec, Ef in C3.
    destruct (if fault then None else joined_submission (s_db s) r) as [sub|].
    + injection Hn as <- <-. destruct C as [C1 C2 C4]. destruct (insert_metadata_spec (metadata_of (s_db s) (c_sub r)) _ C1) as [D1 D2].
      assert (Hfl : forall s0, s_conns s0 = <[c := with_fetch (Some (Fetch q rows (got ++ [(r, sub)]) None)) x]> (s_conns s) -> s_phase s0 = s_phase s -> flight s0 ≡ₚ cid_of r :: flight s).
      { intros s0 E1 E2. unfold flight, finishing. rewrite E1, E2, fmap_insert. destruct (flat_update (has <$> s_conns s) c (has x) (has (with_fetch (Some (Fetch q rows (got ++ [(r, sub)]) None)) x))) as (rest & -> & ->); [by rewrite lookup_fmap, Ec|].
        unfold has, collected. cbn. rewrite (Hopen _ _ _ Ec Ef), Ef. cbn. rewrite fmap_app. cbn. rewrite (Permutation_app_comm _ [cid_of r]), Permutation_middle || idtac.
        solve_Permutation || (rewrite !app_assoc; rewrite <- !(app_assoc _ [_]); cbn; rewrite <- !app_assoc; rewrite <- Permutation_middle; rewrite <- Permutation_middle; done). }
      constructor.
      * exact D1.
      * intros key v. rewrite D2, C2. match goal with |- _ = N.of_nat (carrying ?d _ _ (flight ?s0)) => rewrite (carrying_perm d key v _ _ (Hfl s0 eq_refl eq_refl)); change d with (s_db s) end. change (cid_of r :: flight s) with ([cid_of r] ++ flight s). rewrite carrying_app, carrying_one. cbn [fst]. change (metadata_of (s_db s) (c_sub r)) with (strategic_metadata (s_db s) (c_sub r)).
        case_bool_decide; lia.
      * intros k Hk. rewrite Hfl in Hk by done. cbn. apply elem_of_cons in Hk as [->|Hk]; [|by apply C4]. apply (K _ _ _ Ec Ef). by right; right.
    + exfalso. apply C3; [exact Hn|]. injection Hn as <- <-. left.
  - destruct Hcar as (_ & C2 & _). by destruct (C2 c).
  - destruct (s_conns s !! c) as [x|] eqn:Ec; [|done]. destruct (c_fetch x) as [[q rows got [r|]]|] eqn:Ef; [done| |done]. pose proof (Hopen _ _ _ Ec Ef) as Eo.
    destruct (_ || _); [|done]. destruct got as [|g got]; injection Hn as <- <-.
    + apply (cinv_same s); try done. eapply (flight_conn s _ c x); try done. unfold has, collected. cbn. by rewrite Ef.
    + apply (cinv_same s); try done. unfold flight, finishing. cbn [s_conns set_conn s_phase]. rewrite fmap_insert.
      match goal with |- context [<[c := has ?y]> _] => set (x' := y) end.
      destruct (flat_update (has <$> s_conns s) c (has x) (has x')) as (rest & -> & ->); [by rewrite lookup_fmap, Ec|].
      apply Permutation_app_tail, Permutation_app_tail. unfold has, collected, x'. cbn [c_open c_set c_fetch]. rewrite Eo, Ef. cbn [f_got]. rewrite app_nil_r.
      pose proof (fetched_some _ _ _ _ _ Ef) as Efx. cbn [app] in Efx. rewrite app_nil_r in Efx.
      rewrite elements_disj_union.
      * apply Permutation_app_head. refine (elements_list_to_set (C := gset chunk_id) ((fun p => cid_of p.1) <$> g :: got) _). rewrite <- Efx. apply (i_fetch_nd _ _ _ _ _ I c (core_of x)). by apply cores_lookup.
      * intros k Hk Hk'. change (k ∈ (list_to_set ((fun p => cid_of p.1) <$> g :: got) : gset chunk_id)) in Hk'. rewrite elem_of_list_to_set in Hk'. rewrite <- Efx in Hk'. destruct (i_fetch _ _ _ _ _ I c (core_of x) k) as (_ & Hno & _); [by apply cores_lookup|done|]. done.
  - destruct (s_conns s !! c) as [x|] eqn:Ec; [|done]. destruct (c_spawned x) as [|q rest]; [done|]. injection Hn as <- <-. apply (cinv_same s); try done. by eapply (flight_conn s _ c x).
  - destruct (s_conns s !! c) as [x|] eqn:Ec; [|done]. destruct (c_open x) eqn:Eo; [|done]. destruct (c_fetch x) eqn:Ef; [done|]. injection Hn as <- <-. apply (cinv_same s); try done.
    eapply (flight_conn s _ c x); try done. unfold has, collected. cbn. by rewrite Eo, Ef.
  - destruct (s_phase s) eqn:Ep; [|done|done]. destruct (s_mail s) as [|m rest] eqn:Em; [done|]. injection Hn as <- <-. eapply (cinv_write s); try done.
    + unfold flight, finishing. cbn. by rewrite Ep.
    + unfold is_cleanup, mail_op. cbn. destruct (m_report m); by intros [].
  - destruct Hcar as [C1 _]. done.
  - destruct (s_phase s) as [|m delayed|] eqn:Ep; [done| |done].
    destruct (finish_reservation ttl (s_now s) (m_chunk m) delayed (s_res s)) as [[at_ res] ns] eqn:Er. injection Hn as <- <-. apply (cinv_same s); try done.
    assert (Hin : (m_conn m, m_chunk m) ∈ parcel <$> inbox s). { unfold inbox. rewrite Ep. left. }
    destruct (i_mail _ _ _ _ _ I _ _ Hin) as [(kx & Hkx & Ho & Hset) _]. unfold cores_of in Hkx. rewrite lookup_fmap in Hkx. apply fmap_Some in Hkx as (x & Hx & ->). cbn in Ho, Hset.
    unfold flight, finishing. rewrite Ep. cbn [s_phase with_res s_conns snd]. rewrite has_deliver.
    set (f := fun x => Peer _ (c_set x ∖ {[ m_chunk m ]}) _ _ _ _ _).
    assert (Ea : has <$> alter f (m_conn m) (s_conns s) = <[m_conn m := has (f x)]> (has <$> s_conns s)).
    { apply map_eq. intros j. rewrite lookup_fmap. destruct (decide (j = m_conn m)) as [->|Hne].
      - by rewrite lookup_alter, lookup_insert, Hx.
      - by rewrite lookup_alter_ne, lookup_insert_ne, lookup_fmap by done. }
    rewrite Ea. destruct (flat_update (has <$> s_conns s) (m_conn m) (has x) (has (f x))) as (rest & -> & ->); [by rewrite lookup_fmap, Hx|].
    rewrite app_nil_r. unfold has, f, collected. cbn. rewrite Ho.
    assert (Ee : elements (c_set x) ≡ₚ m_chunk m :: elements (c_set x ∖ {[ m_chunk m ]})).
    { rewrite <- elements_union_singleton by set_solver. f_equiv. apply set_equiv. intros k. destruct (decide (k = m_chunk m)); set_solver. }
    rewrite Ee. cbn. rewrite (Permutation_app_comm _ [m_chunk m]). done.
  - destruct (s_phase s) as [| |m] eqn:Ep; [done|done|]. destruct ok; [|done]. injection Hn as <- <-. destruct C as [C1 C2 C4].
    destruct (remove_metadata_spec (metadata_of (s_db s) (m_chunk m).1) _ C1) as [D1 D2].
    assert (Hfl : flight s = flat (has <$> s_conns s) ++ [m_chunk m]) by (unfold flight, finishing; by rewrite Ep). constructor.
    + exact D1.
    + intros key v. cbn [s_counts]. rewrite D2, C2, Hfl, carrying_app, carrying_one. unfold flight, finishing. cbn [s_phase s_conns]. rewrite app_nil_r.
      unfold metadata_of, strategic_metadata, s_db. cbn [s_hist]. case_bool_decide; lia.
    + intros k Hk. cbn. apply C4. rewrite Hfl. unfold flight, finishing in Hk. cbn in Hk. rewrite app_nil_r in Hk. apply elem_of_app. by left.
  - injection Hn as <- <-. by apply (cinv_same s).
  - destruct (r_pending (s_res s) !! i) as [[k t]|] eqn:Ep; [|done]. destruct (t <=? s_now s); [|done]. rewrite remove_spec in Hn. injection Hn as <- <-. apply (cinv_same s); try done.
    by erewrite (flight_deliver s).
  - destruct (r_entries (s_res s) !! k) as [e|] eqn:Ee; [|done]. destruct (is_live ttl (s_now s) e) eqn:El; [done|]. rewrite remove_spec in Hn. injection Hn as <- <-. apply (cinv_same s); try done.
    by erewrite (flight_deliver s).
  - destruct (s_conns s !! c) as [x|] eqn:Ec; [|done]. destruct (c_fetch x) eqn:Ef; [done|]. destruct (c_rx x) as [|k rest]; [done|]. injection Hn as <- <-. apply (cinv_same s); try done.
    eapply (flight_conn s _ c x); try done. unfold has, collected. cbn. by rewrite Ef.
  - injection Hn as <- <-. constructor.
    + intros k f v E. cbn in E. by rewrite lookup_empty in E.
    + intros key v. cbn. done.
    + intros k Hk. unfold flight in Hk. cbn in Hk. rewrite fmap_empty in Hk. unfold flat in Hk. rewrite map_to_list_empty in Hk. by apply elem_of_nil in Hk.
Qed.
Lemma cinv_run h now tr s : run_to cfg (steady cfg) (server_start h now) tr s -> fresh_ids (s_hist s) -> sinv tr s /\ linv cfg tr s /\ cinv s.
Proof.
  induction 1 as [|tr s1 l s2 o Hr IH Hok Hst]; intros Hf.
  - split; [apply sinv_start|]. split; [apply linv_start|]. constructor.
    + intros k f v E. cbn in E. by rewrite lookup_empty in E.
    + done.
    + intros k Hk. unfold flight in Hk. cbn in Hk. rewrite fmap_empty in Hk. unfold flat in Hk. rewrite map_to_list_empty in Hk. by apply elem_of_nil in Hk.
  - pose proof Hst as [_ Hn]. pose proof (fresh_prefix_of _ _ (hist_grows cfg _ _ _ _ Hn) Hf) as Hf1. destruct (IH Hf1) as (I & L & C).
    destruct (given_known cfg _ _ _ _ _ Hr Hf1) as [K _]. split; [|split].
    + eapply sinv_step; [apply Hok|exact Hst|exact I].
    + eapply linv_step; [apply Hok|exact Hst|exact L].
    + by eapply cinv_step.
Qed.
End count.
