(** The invariant of HoldProofs.v holds along orderly runs of the server. *)
From Verif Require Export HoldProofs.
Local Open Scope N_scope.

Definition core_of (x : peer) : core := Core (c_open x) (c_set x) (fetched x).
Definition cores_of (s : state) : gmap N core := core_of <$> s_conns s.
Definition parcel (m : mail) : N * chunk_id := (m_conn m, m_chunk m).
Record sinv (tr : trace) (s : state) : Prop := {
  si_hold : hinv (holding tr) (cores_of s) (r_entries (s_res s)) (r_pending (s_res s)).*1 (parcel <$> inbox s);
  si_open : forall c x, s_conns s !! c = Some x -> c_open x = false -> c_fetch x = None }.

Lemma holding_snoc tr l o c : holding (tr ++ [(l, o)]) c = hold_step c (holding tr c) (l, o).
Proof. unfold holding. by rewrite foldl_app. Qed.
Lemma deliver_cores ns : forall cs, core_of <$> foldl deliver cs ns = core_of <$> cs.
Proof.
  induction ns as [|n ns IH]; intros cs; [done|]. cbn [foldl]. rewrite IH. unfold deliver.
  destruct (cs !! n.1) as [x|] eqn:E; [|done]. destruct (c_open x) eqn:Eo; [|done].
  rewrite fmap_insert. apply insert_id. rewrite lookup_fmap, E. cbn. f_equal. unfold core_of, fetched. cbn. by rewrite Eo.
Qed.
Lemma deliver_some ns : forall cs c x', foldl deliver cs ns !! c = Some x' ->
  exists x, cs !! c = Some x /\ exists rx, x' = Peer (c_open x) (c_set x) rx (c_fetch x) (c_spawned x) (c_waiting x) (c_retry x).
Proof.
  induction ns as [|n ns IH]; intros cs c x' Hx; cbn [foldl] in Hx.
  - exists x'. split; [done|]. exists (c_rx x'). by destruct x'.
  - destruct (IH _ _ _ Hx) as (x & E & rx & ->). unfold deliver in E. destruct (cs !! n.1) as [y|] eqn:Ey; [|by eauto].
    destruct (c_open y) eqn:Eo; [|by eauto]. apply lookup_insert_Some in E as [[<- <-]|[Hne E]]; [|by eauto].
    exists y. split; [done|]. exists rx. cbn. by rewrite Eo.
Qed.
Lemma cores_with_res rn s : cores_of (with_res rn s) = cores_of s.
Proof. unfold cores_of, with_res. cbn. apply deliver_cores. Qed.
Lemma cores_set c x s : cores_of (set_conn c x s) = <[c := core_of x]> (cores_of s).
Proof. unfold cores_of, set_conn. cbn. by rewrite fmap_insert. Qed.
Lemma cores_lookup s c x : s_conns s !! c = Some x -> cores_of s !! c = Some (core_of x).
Proof. intros E. unfold cores_of. by rewrite lookup_fmap, E. Qed.
Lemma cores_same s c x : s_conns s !! c = Some x -> <[c := core_of x]> (cores_of s) = cores_of s.
Proof. intros E. apply insert_id. by apply cores_lookup. Qed.
Lemma used_cores s k : used s k <-> used_by (cores_of s) (r_pending (s_res s)).*1 k.
Proof.
  unfold used, used_by. split; (intros [(c & x & Hc & Ho & Hk)|Hk]; [left|by right]).
  - exists c, (core_of x). split; [by apply cores_lookup|]. done.
  - unfold cores_of in Hc. rewrite lookup_fmap in Hc. apply fmap_Some in Hc as (y & Hy & ->). exists c, y. done.
Qed.

(** [Peer] with a new list of requests or notices has the same core. *)
Lemma core_same x o rs f rx sp wa re : o = c_open x -> rs = c_set x -> f = c_fetch x -> core_of (Peer o rs rx f sp wa re) = core_of x.
Proof. by intros -> -> ->. Qed.

Lemma hold_none l o c k : (forall c' cid r, l <> LReport c' cid r) -> (forall e, l <> LCrash e) -> o = [] -> hold_step c k (l, o) = k.
Proof. intros H1 H2 ->. unfold hold_step. cbn. destruct l; try done; [by destruct (H1 c0 cid r)|by destruct (H2 e)]. Qed.

Section step.
Context (cfg : config).
Notation ttl := (cf_ttl cfg).

Lemma timely_in_time s : timely cfg s -> in_time (fun e => is_live ttl (s_now s) e = true) (cores_of s) (r_entries (s_res s)) (r_pending (s_res s)).*1.
Proof. intros Ht k e He Hu. apply (Ht k e He). by apply used_cores. Qed.

Ltac recore t := match goal with |- context [core_of ?y] => replace (core_of y) with t; [|symmetry] end.
Ltac no_hold := eapply hinv_ext; [intros ?; rewrite holding_snoc; apply hold_none; done|].

Lemma sinv_close tr l s c x : sinv tr s -> s_conns s !! c = Some x -> c_open x = true ->
  (forall m, m ∈ inbox s -> m_conn m <> c) ->
  (forall c' cid r, l <> LReport c' cid r) -> (forall e, l <> LCrash e) ->
  sinv (tr ++ [(l, [Closed c])]) (close cfg c x s).
Proof.
  intros [I Hop] Hc Ho Hm H1 H2. set (x' := Peer false (c_set x) [] None [] [] []).
  set (rn := seq_notices (fun r k => finish_reservation_sync ttl (s_now s) k r) (s_res s) (elements (c_set x))).
  pose proof (fun k => seq_removes ttl (s_now s) (elements (c_set x)) (s_res s) k) as Hr.
  constructor.
  - unfold close. rewrite cores_set, cores_with_res, cores_set, insert_insert.
    assert (Hp : r_pending (fst rn) = r_pending (s_res s)) by apply (Hr (0, 0)).
    cbn [s_res set_conn with_res]. fold rn. rewrite Hp. change (inbox (set_conn _ _ _)) with (inbox s).
    eapply (hinv_close (holding tr) _ (cores_of s) (r_entries (s_res s)) (r_entries (fst rn)) _ _ c (core_of x)).
    + by apply cores_lookup.
    + done.
    + intros k. destruct (Hr k) as (He & _ & _). unfold rn, finish_reservation_sync. rewrite He. cbn.
      by rewrite (bool_decide_ext (k ∈ elements (c_set x)) (k ∈ c_set x)) by apply elem_of_elements.
    + intros k (m & E & Hin)%elem_of_list_fmap. apply (Hm m Hin). unfold parcel in E. congruence.
    + rewrite holding_snoc. unfold hold_step. destruct l; cbn; rewrite bool_decide_eq_true_2; done.
    + intros c' Hne. rewrite holding_snoc. unfold hold_step. cbn [fst snd foldl hold_out]. rewrite bool_decide_eq_false_2 by done.
      destruct l; try done; [by destruct (H1 c0 cid r)|by destruct (H2 e)].
    + done.
  - intros c' y Hy Hcl. unfold close in Hy. cbn in Hy. apply lookup_insert_Some in Hy as [[<- <-]|[Hne Hy]]; [done|].
    apply deliver_some in Hy as (z & Hz & rx & ->). apply lookup_insert_Some in Hz as [[<- <-]|[_ Hz]]; [done|]. exact (Hop _ _ Hz Hcl).
Qed.

(** Steps that only touch parts of one connection outside its core. *)
Lemma sinv_conn tr l o s s' c x x' : sinv tr s -> s_conns s !! c = Some x ->
  s_conns s' = <[c := x']> (s_conns s) -> core_of x' = core_of x -> (c_open x = false -> c_fetch x' = c_fetch x) ->
  s_res s' = s_res s -> inbox s' = inbox s ->
  (forall c, holding (tr ++ [(l, o)]) c = holding tr c) -> sinv (tr ++ [(l, o)]) s'.
Proof.
  intros [I Hop] Hc Ec Ecore Ef Er Ei Hh. constructor.
  - eapply hinv_ext; [exact Hh|]. unfold cores_of. rewrite Ec, fmap_insert, Ecore, Er, Ei. unfold cores_of in I.
    rewrite insert_id; [exact I|]. by rewrite lookup_fmap, Hc.
  - intros c' y Hy Hcl. rewrite Ec in Hy. apply lookup_insert_Some in Hy as [[<- <-]|[_ Hy]]; [|eauto].
    assert (c_open x = false) by (pose proof (f_equal k_open Ecore) as E; cbn in E; congruence). rewrite Ef by done. eauto.
Qed.

Lemma sinv_step tr s l s' o : orderly cfg tr s l -> step_to cfg s l s' o -> sinv tr s -> sinv (tr ++ [(l, o)]) s'.
Proof.
  intros (Ht & Hrep & Hcl) [_ Hn] SI. pose proof SI as [I Hop]. pose proof (timely_in_time s Ht) as HT.
  assert (Hcl' : forall c, Closed c ∈ o -> forall m, m ∈ inbox s -> m_conn m <> c) by (intros c H m; by apply (Hcl _ _ c m Hn)).
  clear Hcl. destruct l; cbn [next] in Hn; unfold next in Hn.
  - (* LProducer *) destruct (is_producer_op _); [|done]. injection Hn as <- <-. constructor; [|exact Hop]. no_hold. exact I.
  - (* LNotify *) destruct (s_notifies s) as [|n]; [done|]. injection Hn as <- <-. constructor.
    + no_hold. unfold cores_of. cbn [s_conns s_res]. rewrite <- map_fmap_compose. erewrite map_fmap_ext; [exact I|]. done.
    + cbn. intros c x Hx Hcl. rewrite lookup_fmap in Hx. apply fmap_Some in Hx as (y & Hy & ->). exact (Hop _ _ Hy Hcl).
  - (* LConnect *) destruct (s_conns s !! c) eqn:Ec; [done|]. injection Hn as <- <-. constructor.
    + no_hold. rewrite cores_set. apply hinv_connect; [|exact I]. unfold cores_of. by rewrite lookup_fmap, Ec.
    + intros c' x Hx Hcl. cbn in Hx. apply lookup_insert_Some in Hx as [[<- <-]|[_ Hx]]; [done|eauto].
  - (* LDisconnect *) destruct (s_conns s !! c) as [x|] eqn:Ec; [|done]. destruct (c_open x) eqn:Eo; [|done].
    destruct (c_fetch x); [done|]. injection Hn as <- <-. apply sinv_close; try done. apply Hcl'. left.
  - (* LReserve *) destruct (s_conns s !! c) as [x|] eqn:Ec; [|done]. destruct (c_open x) eqn:Eo; [|done].
    destruct (c_fetch x) eqn:Ef; [done|]. destruct (q_max q =? 0).
    + injection Hn as <- <-. constructor; [|done]. eapply hinv_ext; [intros ?; by rewrite holding_snoc|]. exact I.
    + destruct (can_ask (q_strategy q)); cbn [negb] in Hn; injection Hn as <- <-.
      2: { constructor; [|done]. eapply hinv_ext; [intros ?; rewrite holding_snoc; cbn; case_bool_decide; [apply right_id_L, _|done]|]. exact I. }
      eapply (sinv_conn _ _ _ s _ c x); try done.
      * unfold core_of, fetched. cbn. by rewrite Ef.
      * cbn. congruence.
      * intros ?. rewrite holding_snoc. by apply hold_none.
  - (* LRetry *) destruct (s_conns s !! c) as [x|] eqn:Ec; [|done]. destruct (c_open x) eqn:Eo; [|done].
    destruct (c_fetch x) eqn:Ef; [done|]. destruct (c_retry x) as [|q rest]; [done|].
    destruct (q_max q =? 0); [|destruct (can_ask (q_strategy q)); cbn [negb] in Hn]; injection Hn as <- <-; (eapply (sinv_conn _ _ _ s _ c x); try done).
    * unfold core_of, fetched. cbn. by rewrite Ef, Eo.
    * intros ?. by rewrite holding_snoc.
    * unfold core_of, fetched. cbn. by rewrite Ef, Eo.
    * cbn. congruence.
    * intros ?. rewrite holding_snoc. by apply hold_none.
    * unfold core_of, fetched. cbn. by rewrite Ef, Eo.
    * intros ?. rewrite holding_snoc. cbn. case_bool_decide; [apply right_id_L, _|done].
  - (* LRow *) destruct (s_conns s !! c) as [x|] eqn:Ec; [|done].
    destruct (c_fetch x) as [[q [|r rows] got [?|]]|] eqn:Ef; try done.
    assert (Eo : c_open x = true) by (destruct (c_open x) eqn:Eo; [done|]; by rewrite (Hop _ _ Ec Eo) in Ef).
    destruct (_ <? _); [|done]. destruct (try_reserve ttl (s_now s) (cid_of r) c (s_res s)) as [[ok res] ns] eqn:Er. injection Hn as <- <-.
    unfold try_reserve in Er. constructor.
    + no_hold. rewrite cores_with_res, cores_set. cbn [s_res with_res fst]. change (inbox (with_res _ _)) with (inbox s).
      destruct (get_live ttl (s_now s) (cid_of r) (s_res s)) as [e|] eqn:Eg.
      * injection Er as <- <- <-. recore (core_of x); [rewrite cores_same by done; exact I|].
        unfold core_of, fetched. cbn. by rewrite Ef.
      * injection Er as <- <- <-. cbn [r_entries r_pending].
        recore (Core true (k_set (core_of x)) (k_fetch (core_of x) ++ [cid_of r])).
        -- eapply (hinv_reserve (fun e => is_live ttl (s_now s) e = true)); [by apply cores_lookup|done|exact HT| |exact I].
           intros e He. unfold get_live in Eg. rewrite He in Eg. by destruct (is_live ttl (s_now s) e).
        -- unfold core_of, fetched. cbn. rewrite Ef, Eo. cbn. by rewrite app_nil_r.
    + intros c' y Hy Hcl. cbn in Hy. apply deliver_some in Hy as (z & Hz & rx & ->). apply lookup_insert_Some in Hz as [[<- <-]|[_ Hz]].
      * cbn in Hcl. congruence.
      * exact (Hop _ _ Hz Hcl).
  - (* LSkip *) destruct (s_conns s !! c) as [x|] eqn:Ec; [|done]. destruct (c_fetch x) as [[q rows got j]|] eqn:Ef; [|done].
    destruct (rows !! i); [|done]. destruct (is_reserved _ _ _ _); [|done]. injection Hn as <- <-.
    assert (Eo : c_open x = true) by (destruct (c_open x) eqn:Eo; [done|]; by rewrite (Hop _ _ Ec Eo) in Ef).
    eapply (sinv_conn _ _ _ s _ c x); try done.
    * unfold core_of, fetched. cbn. by rewrite Ef.
    * cbn. congruence.
    * intros ?. rewrite holding_snoc. by apply hold_none.
  - (* LJoin *) destruct (s_conns s !! c) as [x|] eqn:Ec; [|done]. destruct (c_fetch x) as [[q rows got [r|]]|] eqn:Ef; [|done|done].
    assert (Eo : c_open x = true) by (destruct (c_open x) eqn:Eo; [done|]; by rewrite (Hop _ _ Ec Eo) in Ef).
    destruct (if fault then None else joined_submission (s_db s) r) as [sub|].
    + injection Hn as <- <-. eapply (sinv_conn _ _ _ s _ c x); try done.
      * unfold core_of, fetched. cbn. rewrite Ef. cbn. by rewrite fmap_app, app_nil_r.
      * cbn. congruence.
      * intros ?. rewrite holding_snoc. by apply hold_none.
    + injection Hn as <- <-. apply sinv_close; try done. apply Hcl'. left.
  - (* LFetchError *) destruct (s_conns s !! c) as [x|] eqn:Ec; [|done]. destruct (c_fetch x) as [[q rows got j]|] eqn:Ef; [|done].
    assert (Eo : c_open x = true) by (destruct (c_open x) eqn:Eo; [done|]; by rewrite (Hop _ _ Ec Eo) in Ef).
    injection Hn as <- <-. constructor.
    + eapply hinv_ext; [intros c'; rewrite holding_snoc; unfold hold_step; cbn; case_bool_decide; [apply union_empty_r_L|done]|].
      rewrite cores_set. apply (hinv_nofetch _ _ _ _ _ c (core_of x)); [by apply cores_lookup|exact I].
    + intros c' y Hy Hcl. cbn in Hy. apply lookup_insert_Some in Hy as [[<- <-]|[_ Hy]]; [done|eauto].
  - (* LReply *) destruct (s_conns s !! c) as [x|] eqn:Ec; [|done]. destruct (c_fetch x) as [[q rows got [r|]]|] eqn:Ef; [done| |done].
    assert (Eo : c_open x = true) by (destruct (c_open x) eqn:Eo; [done|]; by rewrite (Hop _ _ Ec Eo) in Ef).
    destruct (_ || _); [|done]. destruct got as [|g got].
    + injection Hn as <- <-. constructor.
      * no_hold. rewrite cores_set. apply (hinv_nofetch _ _ _ _ _ c (core_of x)); [by apply cores_lookup|exact I].
      * intros c' y Hy Hcl. cbn in Hy. apply lookup_insert_Some in Hy as [[<- <-]|[_ Hy]]; [done|eauto].
    + injection Hn as <- <-. constructor.
      * rewrite cores_set.
        assert (Efx : fetched x = (fun p => cid_of p.1) <$> g :: got) by (unfold fetched; rewrite Ef; cbn; by rewrite app_nil_r).
        recore (Core true (k_set (core_of x) ∪ list_to_set (k_fetch (core_of x))) []).
        -- eapply (hinv_reply (holding tr)); [by apply cores_lookup|done| | |exact I].
           ++ rewrite holding_snoc. unfold hold_step. cbn [fst snd foldl hold_out]. rewrite bool_decide_eq_true_2 by done.
              cbn [core_of k_fetch]. by rewrite Efx.
           ++ intros c' Hne. rewrite holding_snoc. unfold hold_step. cbn [fst snd foldl hold_out]. by rewrite bool_decide_eq_false_2 by done.
        -- unfold core_of. cbn [k_set k_fetch]. rewrite Efx, Eo. done.
      * intros c' y Hy Hcl. cbn in Hy. apply lookup_insert_Some in Hy as [[<- <-]|[_ Hy]]; [cbn in Hcl; congruence|eauto].
  - (* LRegister *) destruct (s_conns s !! c) as [x|] eqn:Ec; [|done]. destruct (c_spawned x) as [|q rest]; [done|]. injection Hn as <- <-.
    eapply (sinv_conn _ _ _ s _ c x); try done. intros ?. rewrite holding_snoc. by apply hold_none.
  - (* LReport *) destruct (s_conns s !! c) as [x|] eqn:Ec; [|done]. destruct (c_open x) eqn:Eo; [|done].
    destruct (c_fetch x) eqn:Ef; [done|]. injection Hn as <- <-. constructor.
    + unfold cores_of. cbn [s_conns s_res]. cbn [set_conn s_conns s_res]. rewrite fmap_insert.
      recore (core_of x); [|unfold core_of, fetched; cbn; by rewrite Eo, Ef].
      fold (cores_of s). rewrite cores_same by done.
      match goal with |- context [inbox ?y] => replace (inbox y) with (inbox s ++ [Mail c cid r]); [|unfold inbox; cbn; by rewrite app_assoc] end.
      rewrite fmap_app. eapply (hinv_report (holding tr)); [by apply (Hrep c cid r)| | |exact I].
      * rewrite holding_snoc. unfold hold_step. cbn. by rewrite bool_decide_eq_true_2.
      * intros c' Hne. rewrite holding_snoc. unfold hold_step. cbn. by rewrite bool_decide_eq_false_2.
    + intros c' y Hy Hcl. cbn in Hy. apply lookup_insert_Some in Hy as [[<- <-]|[_ Hy]]; [done|eauto].
  - (* LWrite *) destruct (s_phase s) eqn:Ep; [|done|done]. destruct (s_mail s) as [|m rest] eqn:Em; [done|]. injection Hn as <- <-.
    constructor; [|exact Hop]. no_hold. unfold inbox in *. cbn [s_phase s_mail]. rewrite Ep, Em in I. exact I.
  - (* LLost *) destruct (s_phase s) eqn:Ep; [|done|done]. destruct (s_mail s) as [|m rest] eqn:Em; [done|]. injection Hn as <- <-.
    constructor; [|exact Hop]. no_hold. unfold inbox in *. cbn [s_phase s_mail]. rewrite Ep, Em in I. cbn in I |- *.
    eapply hinv_mail_sub; [| |exact I]; [intros b Hb; by right|]. pose proof (i_mail_nd _ _ _ _ _ I) as Hnd. by apply NoDup_cons in Hnd as [_ ?].
  - (* LFinish *) destruct (s_phase s) as [|m delayed|] eqn:Ep; [done| |done].
    destruct (finish_reservation ttl (s_now s) (m_chunk m) delayed (s_res s)) as [[at_ res] ns] eqn:Er. injection Hn as <- <-.
    assert (Ei : inbox s = m :: s_mail s) by (unfold inbox; by rewrite Ep).
    rewrite Ei in I. rewrite fmap_cons in I. change (parcel m) with (m_conn m, m_chunk m) in I.
    destruct (i_mail _ _ _ _ _ I (m_conn m) (m_chunk m)) as [(k & Hk & Ho & Hin) Hnh]; [left|].
    unfold cores_of in Hk. rewrite lookup_fmap in Hk. apply fmap_Some in Hk as (x & Hx & ->).
    destruct (i_set _ _ _ _ _ I (m_conn m) (core_of x) (m_chunk m)) as (e & He & Hh); [by apply cores_lookup|done|done|].
    assert (Hlive : is_live ttl (s_now s) e = true).
    { apply (Ht (m_chunk m) e He). left. exists (m_conn m), x. cbn in Ho, Hin. split_and!; [done|done|by left]. }
    unfold finish_reservation, get_live in Er. rewrite He, Hlive in Er.
    set (f := fun x => Peer _ (c_set x ∖ {[ m_chunk m ]}) _ _ _ _ _) in *.
    assert (Ecores : core_of <$> alter f (m_conn m) (s_conns s) =
                     <[m_conn m := Core (k_open (core_of x)) (k_set (core_of x) ∖ {[ m_chunk m ]}) (k_fetch (core_of x))]> (cores_of s)).
    { apply map_eq. intros j. rewrite lookup_fmap. destruct (decide (j = m_conn m)) as [->|Hne].
      - rewrite lookup_alter, Hx, lookup_insert. done.
      - rewrite lookup_alter_ne, lookup_insert_ne by done. unfold cores_of. by rewrite lookup_fmap. }
    constructor.
    + no_hold. rewrite cores_with_res. unfold cores_of at 1. cbn [s_conns s_res with_res fst]. rewrite Ecores.
      change (inbox _) with ([] ++ s_mail s). cbn [app]. destruct delayed.
      * injection Er as <- <- <-. cbn [r_entries r_pending]. rewrite fmap_app. apply (hinv_finish_later _ _ _ _ [] _ (m_conn m)); [|exact I]. by apply cores_lookup.
      * rewrite remove_spec in Er. injection Er as <- <- <-. cbn [r_entries r_pending]. apply (hinv_finish_now _ _ _ _ [] _ (m_conn m)); [|exact I]. by apply cores_lookup.
    + intros c' y Hy Hcl. cbn in Hy. apply deliver_some in Hy as (z & Hz & rx & ->). cbn. cbn in Hcl.
      apply lookup_alter_Some in Hz as [[<- (w & Hw & ->)]|[_ Hz]]; cbn in *; eauto.
  - (* LCounters *) destruct (s_phase s) as [| |m] eqn:Ep; [done|done|]. injection Hn as <- <-. constructor; [|exact Hop]. no_hold.
    unfold inbox in *. rewrite Ep in I. exact I.
  - (* LTime *) injection Hn as <- <-. constructor; [|exact Hop]. no_hold. exact I.
  - (* LPurge *) destruct (r_pending (s_res s) !! i) as [[k t]|] eqn:Ep; [|done]. destruct (t <=? s_now s); [|done]. rewrite remove_spec in Hn. injection Hn as <- <-.
    constructor.
    + no_hold. rewrite cores_with_res. cbn [s_res with_res fst r_entries r_pending]. change (inbox (with_res _ _)) with (inbox s).
      rewrite delete_take_drop, fmap_app. apply hinv_purge.
      replace ((take i (r_pending (s_res s))).*1 ++ k :: (drop (S i) (r_pending (s_res s))).*1) with (r_pending (s_res s)).*1; [exact I|].
      rewrite <- (take_drop_middle _ _ _ Ep) at 1. by rewrite fmap_app, fmap_cons.
    + intros c' y Hy Hcl. cbn in Hy. apply deliver_some in Hy as (z & Hz & rx & ->). exact (Hop _ _ Hz Hcl).
  - (* LEvict *) destruct (r_entries (s_res s) !! k) as [e|] eqn:Ee; [|done]. destruct (is_live ttl (s_now s) e) eqn:El; [done|].
    rewrite remove_spec in Hn. injection Hn as <- <-. constructor.
    + no_hold. rewrite cores_with_res. cbn [s_res with_res fst r_entries r_pending]. change (inbox (with_res _ _)) with (inbox s).
      apply hinv_drop; [|exact I]. intros Hu. specialize (HT _ _ Ee Hu). cbn in HT. congruence.
    + intros c' y Hy Hcl. cbn in Hy. apply deliver_some in Hy as (z & Hz & rx & ->). exact (Hop _ _ Hz Hcl).
  - (* LNotice *) destruct (s_conns s !! c) as [x|] eqn:Ec; [|done]. destruct (c_fetch x) eqn:Ef; [done|]. destruct (c_rx x) as [|k rest]; [done|].
    injection Hn as <- <-. eapply (sinv_conn _ _ _ s _ c x); try done.
    * unfold core_of, fetched. cbn. by rewrite Ef.
    * intros ?. by rewrite holding_snoc.
  - (* LCrash *) injection Hn as <- <-. constructor.
    + unfold cores_of. cbn. rewrite fmap_empty. apply hinv_start. intros c. rewrite holding_snoc. done.
    + intros c x. cbn. by rewrite lookup_empty.
Qed.

Lemma sinv_start h now : sinv [] (server_start h now).
Proof.
  constructor.
  - unfold cores_of. cbn. rewrite fmap_empty. by apply hinv_start.
  - intros c x. cbn. by rewrite lookup_empty.
Qed.
Lemma sinv_run h now tr s : run_to cfg (orderly cfg) (server_start h now) tr s -> sinv tr s.
Proof. induction 1; [apply sinv_start|]. by eapply sinv_step. Qed.
End step.
