(** Every reservation is accounted for (C36), and so is every chunk in a connection's set. *)
From Verif Require Export ServerFacts.
Local Open Scope N_scope.

(** What leaves a reservation behind: a request whose connection breaks down or that meets a
    database error, and a report that gets lost. *)
Definition careful (cfg : config) (tr : trace) (s : state) (l : label) : Prop :=
  l <> LLost /\ (forall c, l <> LFetchError c) /\ (forall c f s' o, l = LJoin c f -> next cfg l s = Some (s', o) -> Closed c ∉ o).

Section leak.
Context (cfg : config).
Notation ttl := (cf_ttl cfg).

(** A live reservation belongs to an open connection that has the chunk in its set or is fetching
    it, or it waits for its delayed removal. *)
Definition backed (s : state) : Prop := forall k e, r_entries (s_res s) !! k = Some e -> is_live ttl (s_now s) e = true ->
  (exists x, s_conns s !! e_holder e = Some x /\ c_open x = true /\ (k ∈ c_set x \/ k ∈ fetched x)) \/ k ∈ (r_pending (s_res s)).*1.
(** What an open connection has in its set its consumer holds or has reported. *)
Definition owned (tr : trace) (s : state) : Prop := forall c x k, s_conns s !! c = Some x -> c_open x = true -> k ∈ c_set x ->
  k ∈ holding tr c \/ exists m, m ∈ inbox s /\ m_conn m = c /\ m_chunk m = k.
Definition fetch_open (s : state) : Prop := forall c x, s_conns s !! c = Some x -> c_open x = false -> c_fetch x = None.
Record linv (tr : trace) (s : state) : Prop := { li_backed : backed s; li_owned : owned tr s; li_open : fetch_open s }.

Lemma live_before now now' e : now <= now' -> is_live ttl now' e = true -> is_live ttl now e = true.
Proof. unfold is_live. rewrite !N.ltb_lt. lia. Qed.
Lemma hold_keeps tr l o c : (forall c' cid r, l <> LReport c' cid r) -> (forall e, l <> LCrash e) -> (forall c', Closed c' ∈ o -> c' <> c) ->
  holding tr c ⊆ holding (tr ++ [(l, o)]) c.
Proof.
  intros H1 H2 H3. rewrite holding_snoc. unfold hold_step. cbn [fst snd].
  replace (match l with LReport c' cid _ => _ | LCrash _ => ∅ | _ => _ end) with (holding tr c) by (destruct l; try done; [by destruct (H1 c0 cid r)|by destruct (H2 e)]).
  clear H1 H2. revert H3. generalize (holding tr c). induction o as [|y o IH]; intros k0 H3; [done|]. cbn [foldl].
  assert (Hy : k0 ⊆ hold_out c k0 y).
  { destruct y; cbn; try done; case_bool_decide as Hc; try set_solver. }
  etrans; [exact Hy|]. apply IH. intros c' Hc. apply H3. by right.
Qed.

(** A connection changes and keeps what it has. *)
Lemma linv_conn tr l o s s' c x x' : linv tr s -> s_conns s !! c = Some x ->
  s_conns s' = <[c := x']> (s_conns s) -> c_open x' = c_open x -> c_set x' = c_set x -> fetched x' = fetched x ->
  (c_open x = false -> c_fetch x' = c_fetch x) ->
  s_res s' = s_res s -> s_now s' = s_now s -> inbox s' = inbox s ->
  (forall c, holding tr c ⊆ holding (tr ++ [(l, o)]) c) -> linv (tr ++ [(l, o)]) s'.
Proof.
  intros [B O F] Hc Ec E1 E2 E3 E4 Er En Ei Hh. constructor.
  - intros k e He Hl. rewrite Er in *. rewrite En in Hl. destruct (B k e He Hl) as [(y & Hy & Hyo & Hk)|]; [left|by right]. rewrite Ec.
    destruct (decide (e_holder e = c)) as [E|Hne].
    + rewrite E in *. rewrite Hc in Hy. injection Hy as <-. exists x'. rewrite lookup_insert, E1, E2, E3. done.
    + exists y. by rewrite lookup_insert_ne.
  - intros c' y k Hy Hyo Hk. rewrite Ei. rewrite Ec in Hy. apply lookup_insert_Some in Hy as [[<- <-]|[_ Hy]].
    + rewrite E1 in Hyo. rewrite E2 in Hk. destruct (O _ _ _ Hc Hyo Hk) as [|]; [left; by apply Hh|by right].
    + destruct (O _ _ _ Hy Hyo Hk) as [|]; [left; by apply Hh|by right].
  - intros c' y Hy Hyo. rewrite Ec in Hy. apply lookup_insert_Some in Hy as [[<- <-]|[_ Hy]]; [|by eapply F]. rewrite E1 in Hyo. rewrite E4 by done. by eapply F.
Qed.
(** Neither connections nor reservations change. *)
Lemma linv_same tr l o s s' : linv tr s -> s_conns s' = s_conns s -> s_res s' = s_res s -> s_now s <= s_now s' -> inbox s' = inbox s ->
  (forall c, holding tr c ⊆ holding (tr ++ [(l, o)]) c) -> linv (tr ++ [(l, o)]) s'.
Proof.
  intros [B O F] Ec Er En Ei Hh. constructor.
  - intros k e He Hl. rewrite Er, Ec in *. apply (B k e He). by eapply live_before.
  - intros c y k Hy Hyo Hk. rewrite Ec in Hy. rewrite Ei. destruct (O _ _ _ Hy Hyo Hk) as [|]; [left; by apply Hh|by right].
  - intros c y Hy. rewrite Ec in Hy. by eapply F.
Qed.
(** Reservations go away. *)
Lemma linv_less tr l s r ns : linv tr s -> (forall k e, r_entries r !! k = Some e -> r_entries (s_res s) !! k = Some e) ->
  (forall k, is_Some (r_entries r !! k) -> k ∈ (r_pending (s_res s)).*1 -> k ∈ (r_pending r).*1) ->
  (forall c, holding tr c ⊆ holding (tr ++ [(l, [])]) c) -> linv (tr ++ [(l, [])]) (with_res (r, ns) s).
Proof.
  intros [B O F] He Hp Hh. constructor.
  - intros k e Hk Hl. cbn in Hk, Hl. destruct (B k e (He _ _ Hk) Hl) as [(y & Hy & Hyo & Hin)|Hin].
    + left. cbn. destruct (deliver_fwd ns _ _ _ Hy) as [rx Hx]. eexists. split; [exact Hx|]. done.
    + right. cbn. apply Hp; [by eexists|done].
  - intros c y k Hy Hyo Hk. cbn in Hy. apply deliver_some in Hy as (z & Hz & rx & ->). change (inbox (with_res _ _)) with (inbox s).
    destruct (O _ _ _ Hz Hyo Hk) as [|]; [left; by apply Hh|by right].
  - intros c y Hy Hyo. cbn in Hy. apply deliver_some in Hy as (z & Hz & rx & ->). exact (F _ _ Hz Hyo).
Qed.

Lemma linv_step tr s l s' o : careful cfg tr s l -> step_to cfg s l s' o -> linv tr s -> linv (tr ++ [(l, o)]) s'.
Proof.
  intros (C1 & C2 & C3) [_ Hn] SI. pose proof SI as [B O F].
  assert (Hone : forall l y c, (forall c' cid r, l <> LReport c' cid r) -> (forall e, l <> LCrash e) -> (forall c', Closed c' <> y) -> holding tr c ⊆ holding (tr ++ [(l, [y])]) c).
  { intros l0 y c H1 H2 H3. apply hold_keeps; try done. intros c' Hin. apply elem_of_list_singleton in Hin. by destruct (H3 c'). }
  assert (Hnil : forall l c, (forall c' cid r, l <> LReport c' cid r) -> (forall e, l <> LCrash e) -> holding tr c ⊆ holding (tr ++ [(l, [])]) c).
  { intros l0 c H1 H2. apply hold_keeps; try done. intros c' Hin. by apply elem_of_nil in Hin. }
  assert (Hopen : forall c x f, s_conns s !! c = Some x -> c_fetch x = Some f -> c_open x = true).
  { intros c x f Hx Hf. destruct (c_open x) eqn:Eo; [done|]. by rewrite (F _ _ Hx Eo) in Hf. }
  destruct l; unfold next in Hn.
  - (* LProducer *) destruct (is_producer_op _); [|done]. injection Hn as <- <-. apply (linv_same tr _ _ s); try done; try (cbn; lia). intros c. by apply Hnil.
  - (* LNotify *) destruct (s_notifies s) as [|n]; [done|]. injection Hn as <- <-. constructor.
    + intros k e He Hl. destruct (B k e He Hl) as [(y & Hy & Hyo & Hk)|]; [left|by right]. cbn. rewrite lookup_fmap, Hy. cbn. eexists. done.
    + intros c y k Hy Hyo Hk. cbn in Hy. rewrite lookup_fmap in Hy. apply fmap_Some in Hy as (z & Hz & ->). destruct (O _ _ _ Hz Hyo Hk) as [|]; [left; by apply Hnil|by right].
    + intros c y Hy Hyo. cbn in Hy. rewrite lookup_fmap in Hy. apply fmap_Some in Hy as (z & Hz & ->). exact (F _ _ Hz Hyo).
  - (* LConnect *) destruct (s_conns s !! c) eqn:Ec; [done|]. injection Hn as <- <-. constructor.
    + intros k e He Hl. destruct (B k e He Hl) as [(y & Hy & Hyo & Hk)|]; [left|by right]. cbn. rewrite lookup_insert_ne by congruence. eauto.
    + intros c' y k Hy Hyo Hk. cbn in Hy. apply lookup_insert_Some in Hy as [[<- <-]|[_ Hy]]; [set_solver|].
      destruct (O _ _ _ Hy Hyo Hk) as [|]; [left; by apply Hnil|by right].
    + intros c' y Hy Hyo. cbn in Hy. apply lookup_insert_Some in Hy as [[<- <-]|[_ Hy]]; [done|]. by eapply F.
  - (* LDisconnect *) destruct (s_conns s !! c) as [x|] eqn:Ec; [|done]. destruct (c_open x) eqn:Eo; [|done].
    destruct (c_fetch x) eqn:Ef; [done|]. injection Hn as <- <-. constructor.
    + intros k e He Hl. rewrite close_entries in He. rewrite close_pending. case_bool_decide as Hk; [done|].
      destruct (B k e He Hl) as [(y & Hy & Hyo & Hin)|]; [left|by right]. destruct (decide (e_holder e = c)) as [E|Hne].
      * exfalso. rewrite E, Ec in Hy. injection Hy as <-. destruct Hin as [|Hin]; [done|]. unfold fetched in Hin. rewrite Ef in Hin. by apply elem_of_nil in Hin.
      * destruct (close_others cfg c x s _ y Hne Hy) as [rx Hx]. eexists. split; [exact Hx|]. done.
    + intros c' y k Hy Hyo Hk. destruct (decide (c' = c)) as [->|Hne]; [rewrite close_conn in Hy; by injection Hy as <-|].
      unfold close in Hy. cbn in Hy. rewrite lookup_insert_ne in Hy by done. apply deliver_some in Hy as (z & Hz & rx & ->). rewrite lookup_insert_ne in Hz by done.
      destruct (O _ _ _ Hz Hyo Hk) as [Hin|]; [left|by right]. revert Hin. apply hold_keeps; try done. intros c'' Hin. apply elem_of_list_singleton in Hin. congruence.
    + intros c' y Hy Hyo. destruct (decide (c' = c)) as [->|Hne]; [rewrite close_conn in Hy; by injection Hy as <-|].
      unfold close in Hy. cbn in Hy. rewrite lookup_insert_ne in Hy by done. apply deliver_some in Hy as (z & Hz & rx & ->). rewrite lookup_insert_ne in Hz by done.
      exact (F _ _ Hz Hyo).
  - (* LReserve *) destruct (s_conns s !! c) as [x|] eqn:Ec; [|done]. destruct (c_open x) eqn:Eo; [|done].
    destruct (c_fetch x) eqn:Ef; [done|]. destruct (q_max q =? 0); [|destruct (can_ask _); cbn [negb] in Hn]; injection Hn as <- <-; [| |apply (linv_same tr _ _ s); try done; intros c'; by apply Hone].
    + apply (linv_same tr _ _ s); try done. intros c'. by apply Hone.
    + apply (linv_conn tr _ _ s _ c x (with_fetch (Some (Fetch q rows [] None)) x)); try done.
      * unfold fetched. cbn. by rewrite Ef.
      * cbn. congruence.
      * intros c'. by apply Hnil.
  - (* LRetry *) destruct (s_conns s !! c) as [x|] eqn:Ec; [|done]. destruct (c_open x) eqn:Eo; [|done].
    destruct (c_fetch x) eqn:Ef; [done|]. destruct (c_retry x) as [|q rest]; [done|]. destruct (q_max q =? 0); [|destruct (can_ask _); cbn [negb] in Hn]; injection Hn as <- <-.
    + eapply (linv_conn tr _ _ s _ c x); try done.
      * unfold fetched. cbn. by rewrite Ef.
      * intros c'. by apply Hone.
    + eapply (linv_conn tr _ _ s _ c x); try done.
      * unfold fetched. cbn. by rewrite Ef.
      * cbn. congruence.
      * intros c'. by apply Hnil.
    + eapply (linv_conn tr _ _ s _ c x); try done.
      * unfold fetched. cbn. by rewrite Ef.
      * intros c'. by apply Hone.
  - (* LRow *) destruct (s_conns s !! c) as [x|] eqn:Ec; [|done].
    destruct (c_fetch x) as [[q [|r rows] got [?|]]|] eqn:Ef; try done. pose proof (Hopen _ _ _ Ec Ef) as Eo.
    destruct (_ <? _); [|done]. destruct (try_reserve ttl (s_now s) (cid_of r) c (s_res s)) as [[ok res] ns] eqn:Er. injection Hn as <- <-.
    unfold try_reserve in Er. destruct (get_live ttl (s_now s) (cid_of r) (s_res s)) as [e0|] eqn:Eg; injection Er as <- <- <-.
    + eapply (linv_conn tr _ _ s _ c x); try done.
      * rewrite (fetched_some _ _ _ _ _ Ef). done.
      * cbn. congruence.
      * intros c'. by apply Hnil.
    + set (x' := with_fetch (Some (Fetch q rows got (Some r))) x).
      assert (Hfx : fetched x' = fetched x ++ [cid_of r]) by (unfold x', fetched; cbn; rewrite Ef; cbn; by rewrite app_nil_r).
      constructor.
      * intros k e He Hl. cbn in He, Hl. cbn [s_conns with_res set_conn snd s_res fst r_pending].
        assert (Hc : (exists y, <[c:=x']> (s_conns s) !! e_holder e = Some y /\ c_open y = true /\ (k ∈ c_set y \/ k ∈ fetched y)) \/ k ∈ (r_pending (s_res s)).*1).
        { apply lookup_insert_Some in He as [[<- <-]|[Hne He]].
          - left. exists x'. cbn [e_holder]. rewrite lookup_insert. split; [done|]. split; [done|]. right. rewrite Hfx. apply elem_of_app. right. left.
          - destruct (B k e He Hl) as [(y & Hy & Hyo & Hk)|]; [left|by right]. destruct (decide (e_holder e = c)) as [E|Hne'].
            + rewrite E, Ec in Hy. injection Hy as <-. exists x'. rewrite E, lookup_insert. split; [done|]. split; [done|]. destruct Hk as [|Hk]; [by left|right]. rewrite Hfx. apply elem_of_app. by left.
            + exists y. by rewrite lookup_insert_ne. }
        destruct Hc as [(y & Hy & Hyo & Hk)|]; [left|by right]. match goal with |- context [foldl deliver _ ?ns] => destruct (deliver_fwd ns _ _ _ Hy) as [rx Hx] end.
        eexists. split; [exact Hx|]. done.
      * intros c' y k Hy Hyo Hk. cbn in Hy. apply deliver_some in Hy as (z & Hz & rx & ->). cbn in Hyo, Hk. apply lookup_insert_Some in Hz as [[<- <-]|[_ Hz]].
        -- destruct (O _ _ _ Ec Eo Hk) as [|]; [left; by apply Hnil|by right].
        -- destruct (O _ _ _ Hz Hyo Hk) as [|]; [left; by apply Hnil|by right].
      * intros c' y Hy Hyo. cbn in Hy. apply deliver_some in Hy as (z & Hz & rx & ->). cbn in Hyo. apply lookup_insert_Some in Hz as [[<- <-]|[_ Hz]]; [cbn in Hyo; congruence|]. exact (F _ _ Hz Hyo).
  - (* LSkip *) destruct (s_conns s !! c) as [x|] eqn:Ec; [|done]. destruct (c_fetch x) as [[q rows got j]|] eqn:Ef; [|done]. pose proof (Hopen _ _ _ Ec Ef) as Eo.
    destruct (rows !! i); [|done]. destruct (is_reserved _ _ _ _); [|done]. injection Hn as <- <-.
    eapply (linv_conn tr _ _ s _ c x); try done.
    * rewrite (fetched_some _ _ _ _ _ Ef). done.
    * cbn. congruence.
    * intros c'. by apply Hnil.
  - (* LJoin *) destruct (s_conns s !! c) as [x|] eqn:Ec; [|done]. destruct (c_fetch x) as [[q rows got [r|]]|] eqn:Ef; [|done|done]. pose proof (Hopen _ _ _ Ec Ef) as Eo.
    specialize (C3 c fault s' o eq_refl). unfold next in C3. rewrite Ec, Ef in C3.
    destruct (if fault then None else joined_submission (s_db s) r) as [sub|].
    + injection Hn as <- <-. eapply (linv_conn tr _ _ s _ c x); try done.
      * rewrite (fetched_some _ _ _ _ _ Ef). unfold fetched. cbn. by rewrite fmap_app, app_nil_r.
      * cbn. congruence.
      * intros c'. by apply Hnil.
    + exfalso. injection Hn as <- <-. apply (C3 eq_refl). left.
  - (* LFetchError *) by destruct (C2 c).
  - (* LReply *) destruct (s_conns s !! c) as [x|] eqn:Ec; [|done]. destruct (c_fetch x) as [[q rows got [r|]]|] eqn:Ef; [done| |done]. pose proof (Hopen _ _ _ Ec Ef) as Eo.
    pose proof (fetched_some _ _ _ _ _ Ef) as Efx. cbn in Efx. rewrite app_nil_r in Efx.
    destruct (_ || _); [|done]. destruct got as [|g got].
    + injection Hn as <- <-. eapply (linv_conn tr _ _ s _ c x); try done.
      * cbn. congruence.
      * intros c'. by apply Hnil.
    + injection Hn as <- <-. constructor.
      * intros k e He Hl. destruct (B k e He Hl) as [(y & Hy & Hyo & Hk)|]; [left|by right]. cbn [s_conns set_conn]. destruct (decide (e_holder e = c)) as [E|Hne].
        -- rewrite E, Ec in Hy. injection Hy as <-. rewrite E, lookup_insert. eexists. split; [done|]. split; [done|]. left. cbn [c_set]. apply elem_of_union.
           destruct Hk as [|Hk]; [by left|right]. rewrite Efx in Hk. change (k ∈ (list_to_set ((fun p => cid_of p.1) <$> g :: got) : gset chunk_id)). apply elem_of_list_to_set. exact Hk.
        -- exists y. by rewrite lookup_insert_ne.
      * intros c' y k Hy Hyo Hk. cbn in Hy. change (inbox _) with (inbox s). apply lookup_insert_Some in Hy as [[<- <-]|[_ Hy]].
        -- cbn [c_set] in Hk. apply elem_of_union in Hk as [Hk|Hk].
           ++ destruct (O _ _ _ Ec Eo Hk) as [|]; [left; by apply Hone|by right].
           ++ left. rewrite holding_snoc. unfold hold_step. cbn [fst snd foldl hold_out]. rewrite bool_decide_eq_true_2 by done. apply elem_of_union. by right.
        -- destruct (O _ _ _ Hy Hyo Hk) as [|]; [left; by apply Hone|by right].
      * intros c' y Hy Hyo. cbn in Hy. apply lookup_insert_Some in Hy as [[<- <-]|[_ Hy]]; [done|]. by eapply F.
  - (* LRegister *) destruct (s_conns s !! c) as [x|] eqn:Ec; [|done]. destruct (c_spawned x) as [|q rest]; [done|]. injection Hn as <- <-.
    eapply (linv_conn tr _ _ s _ c x); try done. intros c'. by apply Hnil.
  - (* LReport *) destruct (s_conns s !! c) as [x|] eqn:Ec; [|done]. destruct (c_open x) eqn:Eo; [|done].
    destruct (c_fetch x) eqn:Ef; [done|]. injection Hn as <- <-.
    assert (Ex : Peer true (c_set x) (c_rx x) None (c_spawned x) (c_waiting x) (c_retry x) = x) by (destruct x; cbn in *; congruence).
    constructor.
    + intros k e He Hl. destruct (B k e He Hl) as [(y & Hy & Hyo & Hk)|]; [left|by right]. cbn. rewrite Ex. rewrite fin_maps.insert_id by done. eauto.
    + intros c' y k Hy Hyo Hk. cbn in Hy. rewrite Ex in Hy; rewrite fin_maps.insert_id in Hy by done. destruct (decide ((c', k) = (c, cid))) as [[= -> ->]|Hne].
      * right. exists (Mail c cid r). split; [|done]. unfold inbox. cbn. apply elem_of_app. right. apply elem_of_app. right. left.
      * destruct (O _ _ _ Hy Hyo Hk) as [Hin|(m & Hm & H1)].
        -- left. rewrite holding_snoc. unfold hold_step. cbn. case_bool_decide as Hcc; [|done]. subst c'. apply elem_of_difference. split; [done|].
           rewrite elem_of_singleton. congruence.
        -- right. exists m. split; [|done]. unfold inbox in *. cbn. apply elem_of_app in Hm as [Hm|Hm]; apply elem_of_app; [by left|right]. apply elem_of_app. by left.
    + intros c' y Hy Hyo. cbn in Hy. rewrite Ex in Hy; rewrite fin_maps.insert_id in Hy by done. by eapply F.
  - (* LWrite *) destruct (s_phase s) eqn:Ep; [|done|done]. destruct (s_mail s) as [|m rest] eqn:Em; [done|]. injection Hn as <- <-.
    apply (linv_same tr _ _ s); try done; [unfold inbox; cbn; by rewrite Ep, Em|]. intros c. by apply Hnil.
  - (* LLost *) done.
  - (* LFinish *) destruct (s_phase s) as [|m delayed|] eqn:Ep; [done| |done].
    destruct (finish_reservation ttl (s_now s) (m_chunk m) delayed (s_res s)) as [[at_ res] ns] eqn:Er. injection Hn as <- <-.
    assert (Ei : inbox s = m :: s_mail s) by (unfold inbox; by rewrite Ep).
    set (f := fun x => Peer _ (c_set x ∖ {[ m_chunk m ]}) _ _ _ _ _) in *.
    assert (Hcore : forall c y, s_conns s !! c = Some y -> exists z, alter f (m_conn m) (s_conns s) !! c = Some z /\ c_open z = c_open y /\ fetched z = fetched y /\ c_set y ∖ {[ m_chunk m ]} ⊆ c_set z).
    { intros c y Hy. destruct (decide (c = m_conn m)) as [->|Hne].
      - rewrite lookup_alter, Hy. cbn. eexists. split; [done|]. done.
      - rewrite lookup_alter_ne by done. exists y. split; [done|]. split; [done|]. split; [done|]. set_solver. }
    assert (Hres : forall k e, r_entries res !! k = Some e -> r_entries (s_res s) !! k = Some e).
    { unfold finish_reservation in Er. destruct (get_live _ _ _ _) as [e0|]; [|by injection Er as <- <- <-]. destruct delayed; [by injection Er as <- <- <-|].
      rewrite remove_spec in Er. injection Er as <- <- <-. cbn. intros k e [_ He]%lookup_delete_Some. done. }
    assert (Hpend : forall k, k ∈ (r_pending (s_res s)).*1 -> k ∈ (r_pending res).*1).
    { unfold finish_reservation in Er. destruct (get_live _ _ _ _) as [e0|]; [|by injection Er as <- <- <-]. destruct delayed.
      - injection Er as <- <- <-. cbn. intros k Hk. rewrite fmap_app. apply elem_of_app. by left.
      - rewrite remove_spec in Er. by injection Er as <- <- <-. }
    assert (Hthis : forall e, r_entries res !! m_chunk m = Some e -> is_live ttl (s_now s) e = true -> m_chunk m ∈ (r_pending res).*1).
    { intros e He Hl. pose proof (Hres _ _ He) as He'. unfold finish_reservation, get_live in Er. rewrite He', Hl in Er. destruct delayed.
      - injection Er as <- <- <-. cbn. rewrite fmap_app. apply elem_of_app. right. left.
      - rewrite remove_spec in Er. injection Er as <- <- <-. cbn in He. by rewrite lookup_delete in He. }
    constructor.
    + intros k e He Hl. cbn in He, Hl. cbn [s_res with_res fst s_conns]. destruct (decide (k = m_chunk m)) as [->|Hne]; [right; by eapply Hthis|].
      destruct (B k e (Hres _ _ He) Hl) as [(y & Hy & Hyo & Hk)|]; [left|right; by apply Hpend]. destruct (Hcore _ _ Hy) as (z & Hz & Z1 & Z2 & Z3).
      destruct (deliver_fwd ns _ _ _ Hz) as [rx Hx]. eexists. split; [exact Hx|]. split; [by rewrite <- Hyo, <- Z1|]. destruct Hk as [Hk|Hk]; [left|right].
      * cbn. apply Z3. set_solver.
      * change (k ∈ fetched z). by rewrite Z2.
    + intros c' y k Hy Hyo Hk. cbn in Hy. apply deliver_some in Hy as (z & Hz & rx & ->). cbn in Hyo, Hk. change (inbox _) with (s_mail s).
      apply lookup_alter_Some in Hz as [[<- (w & Hw & ->)]|[Hne Hz]].
      * cbn in Hyo, Hk. apply elem_of_difference in Hk as [Hk Hne]. rewrite elem_of_singleton in Hne. destruct (O _ _ _ Hw Hyo Hk) as [|(m' & Hm' & H1 & H2)]; [left; by apply Hnil|].
        right. exists m'. split; [|done]. rewrite Ei in Hm'. apply elem_of_cons in Hm' as [->|]; [congruence|done].
      * destruct (O _ _ _ Hz Hyo Hk) as [|(m' & Hm' & H1 & H2)]; [left; by apply Hnil|].
        right. exists m'. split; [|done]. rewrite Ei in Hm'. apply elem_of_cons in Hm' as [->|]; [congruence|done].
    + intros c' y Hy Hyo. cbn in Hy. apply deliver_some in Hy as (z & Hz & rx & ->). cbn in Hyo |- *.
      apply lookup_alter_Some in Hz as [[<- (w & Hw & ->)]|[Hne Hz]]; cbn in *; by eapply F.
  - (* LCounters *) destruct (s_phase s) as [| |m] eqn:Ep; [done|done|]. injection Hn as <- <-.
    apply (linv_same tr _ _ s); try done; [unfold inbox; cbn; by rewrite Ep|]. intros c. by apply Hnil.
  - (* LTime *) injection Hn as <- <-. apply (linv_same tr _ _ s); try done; try (cbn; lia). intros c. by apply Hnil.
  - (* LPurge *) destruct (r_pending (s_res s) !! i) as [[k t]|] eqn:Ep; [|done]. destruct (t <=? s_now s); [|done]. rewrite remove_spec in Hn. injection Hn as <- <-.
    apply linv_less; try done.
    + cbn. intros k' e [_ He]%lookup_delete_Some. done.
    + cbn. intros k' [e [Hne He]%lookup_delete_Some] Hk. rewrite delete_take_drop, fmap_app. rewrite <- (take_drop_middle _ _ _ Ep) in Hk. rewrite fmap_app, fmap_cons in Hk.
      apply elem_of_app. apply elem_of_app in Hk as [Hk|Hk]; [by left|]. apply elem_of_cons in Hk as [->|Hk]; [done|by right].
    + intros c. by apply Hnil.
  - (* LEvict *) destruct (r_entries (s_res s) !! k) as [e|] eqn:Ee; [|done]. destruct (is_live ttl (s_now s) e) eqn:El; [done|].
    rewrite remove_spec in Hn. injection Hn as <- <-. apply linv_less; try done.
    + cbn. intros k' e' [_ He]%lookup_delete_Some. done.
    + intros c. by apply Hnil.
  - (* LNotice *) destruct (s_conns s !! c) as [x|] eqn:Ec; [|done]. destruct (c_fetch x) eqn:Ef; [done|]. destruct (c_rx x) as [|k rest]; [done|].
    injection Hn as <- <-. eapply (linv_conn tr _ _ s _ c x); try done.
    * unfold fetched. cbn. by rewrite Ef.
    * intros c'. by apply Hone.
  - (* LCrash *) injection Hn as <- <-. constructor.
    + intros k e0 He. cbn in He. by rewrite lookup_empty in He.
    + intros c y k Hy. cbn in Hy. by rewrite lookup_empty in Hy.
    + intros c y Hy. cbn in Hy. by rewrite lookup_empty in Hy.
Qed.
Lemma linv_start h now : linv [] (server_start h now).
Proof.
  constructor.
  - intros k e He. cbn in He. by rewrite lookup_empty in He.
  - intros c y k Hy. cbn in Hy. by rewrite lookup_empty in Hy.
  - intros c y Hy. cbn in Hy. by rewrite lookup_empty in Hy.
Qed.
Lemma linv_run (ok : trace -> state -> label -> Prop) h now tr s : (forall tr s l, ok tr s l -> careful cfg tr s l) ->
  run_to cfg ok (server_start h now) tr s -> linv tr s.
Proof. intros Hok. induction 1; [apply linv_start|]. eapply linv_step; eauto. Qed.
End leak.
