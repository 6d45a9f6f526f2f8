(** C107: the gauge of reserved chunks. *)
From Verif Require Import ServerMetricsProofs ReserverProofs PropServer.
Local Open Scope N_scope.

(** ** C107: vocabulary *)
(** A consumer has been given the chunk and has not reported on it. *)
Definition worked_on (tr : trace) (k : chunk_id) : Prop := exists c, k ∈ holding tr c.
(** Its consumer has reported on it, and the server has not dealt with the report. *)
Definition report_waits (s : state) (k : chunk_id) : Prop := exists m, m ∈ inbox s /\ m_chunk m = k.
(** A request for chunks that is still being answered has picked it. *)
Definition picked (s : state) (k : chunk_id) : Prop := exists c x, s_conns s !! c = Some x /\ c_open x = true /\ k ∈ fetched x.
(** The server has dealt with the report on it less than a second before [now], and for good: it is
    complete, or it has failed and is not to be tried again, or its submission is over. *)
Definition just_settled (cfg : config) (s0 : state) (tr : trace) (now : N) (k : chunk_id) : Prop :=
  exists ok tr1 o tr2 s1 m, tr = tr1 ++ (LFinish, o) :: tr2 /\ run_to cfg ok s0 tr1 s1 /\
    s_phase s1 = Written m true /\ m_chunk m = k /\ now < s_now s1 + 1000.
(** Nothing goes wrong on the way: C34's and C36's conditions. *)
Definition smooth (cfg : config) (tr : trace) (s : state) (l : label) : Prop := orderly cfg tr s l /\ careful cfg tr s l.

Lemma smooth_run cfg h now tr s : run_to cfg (smooth cfg) (server_start h now) tr s -> sinv tr s /\ linv cfg tr s.
Proof.
  intros Hr. split; [|eapply linv_run; [|exact Hr]; by intros ? ? ? []].
  induction Hr as [|tr s1 l s2 o Hr IH [H1 H2] Hs]; [apply sinv_start|]. by eapply sinv_step.
Qed.
(** Delayed removals are only ordered when the completer finishes a report. *)
Lemma pending_step cfg l s s' o k t : next cfg l s = Some (s', o) -> (k, t) ∈ r_pending (s_res s') ->
  (k, t) ∈ r_pending (s_res s) \/ (l = LFinish /\ t = s_now s + 1000 /\ exists m, s_phase s = Written m true /\ m_chunk m = k).
Proof.
  intros Hn Hk. destruct l; unfold next in Hn; try (repeat case_match; simplify_eq; by left).
  - destruct (s_conns s !! c) as [x|] eqn:Ec; [|done]. destruct (c_open x) eqn:Eo; [|done]. destruct (c_fetch x); [done|]. injection Hn as <- <-. rewrite close_pending in Hk. by left.
  - destruct (s_conns s !! c) as [x|] eqn:Ec; [|done]. destruct (c_fetch x) as [[q [|r rows] got [j|]]|] eqn:Ef; try done. destruct (_ <? _); [|done].
    unfold try_reserve in Hn. destruct (get_live _ _ _ _) eqn:Eg; injection Hn as <- <-; by left.
  - destruct (s_conns s !! c) as [x|] eqn:Ec; [|done]. destruct (c_fetch x) as [[q rows got [r|]]|] eqn:Ef; try done.
    destruct (if fault then None else _) as [sub|] eqn:Ej; injection Hn as <- <-; [by left|]. rewrite close_pending in Hk. by left.
  - destruct (s_phase s) as [|m b|] eqn:Ep; try done. unfold finish_reservation in Hn. destruct (get_live _ _ _ _); [|injection Hn as <- <-; by left]. destruct b; injection Hn as <- <-; [|by left]. cbn in Hk.
    apply elem_of_app in Hk as [Hk|Hk%elem_of_list_singleton]; [by left|]. right. injection Hk as -> ->. split_and!; eauto.
  - destruct (r_pending _ !! i) as [[k' t']|]; [|done]. destruct (t' <=? _); [|done]. injection Hn as <- <-. cbn in Hk. left. apply elem_of_list_lookup in Hk as [j Hj].
    destruct (decide (j < i)%nat); [rewrite lookup_delete_lt in Hj by done|rewrite lookup_delete_ge in Hj by lia]; by apply elem_of_list_lookup_2 in Hj.
  - injection Hn as <- <-. cbn in Hk. by apply elem_of_nil in Hk.
Qed.
Lemma pending_past cfg ok h t0 tr s : run_to cfg ok (server_start h t0) tr s -> forall k t now, (k, t) ∈ r_pending (s_res s) -> now < t ->
  just_settled cfg (server_start h t0) tr now k.
Proof.
  induction 1 as [|tr s1 l s2 o Hr IH Hok [_ Hn]]; intros k t now Hk Ht; [cbn in Hk; by apply elem_of_nil in Hk|].
  destruct (pending_step _ _ _ _ _ _ _ Hn Hk) as [H|(-> & -> & m & Hm & Hc)].
  - destruct (IH k t now H Ht) as (ok' & tr1 & o1 & tr2 & s1' & m & -> & H1 & H2 & H3 & H4). exists ok', tr1, o1, (tr2 ++ [(l, o)]), s1', m.
    split_and!; try done. by rewrite <- app_assoc.
  - exists ok, tr, o, [], s1, m. by split_and!.
Qed.

(** ** C107 *)
Lemma gauge_counts cfg h now tr s : run_to cfg (smooth cfg) (server_start h now) tr s -> timely cfg s ->
  exists ks, NoDup ks /\ reserved_gauge (cf_ttl cfg) (s_now s) (s_res s) = N.of_nat (length ks) /\
    forall k, k ∈ ks <-> worked_on tr k \/ report_waits s k \/ picked s k \/ exists t, (k, t) ∈ r_pending (s_res s) /\ s_now s < t.
Proof.
  intros Hr Ht. destruct (smooth_run _ _ _ _ _ Hr) as [[I _] [B O F]].
  set (E := r_entries (fst (run_pending_tasks (cf_ttl cfg) (s_now s) (s_res s)))).
  exists (map_to_list E).*1. split; [apply NoDup_fst_map_to_list|]. split.
  { unfold reserved_gauge. fold E. f_equal. by rewrite fmap_length. }
  intros k. destruct (run_spec (cf_ttl cfg) (s_now s) (s_res s) k) as (Hspec & _ & _). fold E in Hspec.
  assert (Hk : k ∈ (map_to_list E).*1 <-> is_Some (E !! k)).
  { rewrite elem_of_list_fmap. split.
    - intros ([k' e] & -> & H%elem_of_map_to_list). eauto.
    - intros [e He]. exists (k, e). split; [done|]. by apply elem_of_map_to_list. }
  assert (Hset : forall c x, s_conns s !! c = Some x -> c_open x = true -> k ∈ c_set x \/ k ∈ fetched x -> is_Some (E !! k)).
  { intros c x Hx Ho Hin. assert (Hc : cores_of s !! c = Some (core_of x)) by (unfold cores_of; by rewrite lookup_fmap, Hx).
    assert (Hm : mine (r_entries (s_res s)) c k).
    { destruct Hin as [Hin|Hin]; [by eapply (i_set _ _ _ _ _ I)|]. by destruct (i_fetch _ _ _ _ _ I c _ k Hc Hin) as (_ & _ & Hm). }
    destruct Hm as (e & He & _). rewrite Hspec. unfold due. rewrite bool_decide_eq_false_2.
    - unfold get_live. rewrite He. rewrite (Ht k e He); [eauto|]. left. by exists c, x.
    - intros Hd. apply elem_of_list_fmap in Hd as ([k' t] & -> & Hd). apply elem_of_list_filter in Hd as [_ Hd]. cbn in *.
      assert (Hp : k' ∈ (r_pending (s_res s)).*1) by (apply elem_of_list_fmap; by exists (k', t)).
      destruct (i_pend _ _ _ _ _ I k' Hp) as [_ Hn]. destruct (Hn c _ Hc Ho) as [N1 N2]. cbn in N1, N2. tauto. }
  rewrite Hk. split.
  - intros [e He]. rewrite Hspec in He. destruct (due (s_now s) (s_res s) k) eqn:Ed; [done|]. unfold due in Ed. apply bool_decide_eq_false_1 in Ed.
    unfold get_live in He. destruct (r_entries (s_res s) !! k) as [e'|] eqn:Ee; [|done]. destruct (is_live _ _ e') eqn:El; [|done].
    destruct (B k e' Ee El) as [(x & Hx & Ho & [Hin|Hin])|Hp].
    + destruct (O _ _ _ Hx Ho Hin) as [Hh|(m & Hm & _ & H2)]; [left; by exists (e_holder e')|right; left; by exists m].
    + right; right; left. by exists (e_holder e'), x.
    + do 3 right. apply elem_of_list_fmap in Hp as ([k' t] & -> & Hp). cbn in *. exists t. split; [done|]. apply N.lt_nge. intros Hle. apply Ed.
      apply elem_of_list_fmap. exists (k', t). split; [done|]. apply elem_of_list_filter. by split.
  - intros [[c Hc]|[(m & Hm & <-)|[(c & x & Hx & Ho & Hin)|(t & Hp & Hlt)]]].
    + destruct (i_held _ _ _ _ _ I c k Hc) as (y & Hy & Ho & Hin). unfold cores_of in Hy. rewrite lookup_fmap in Hy.
      destruct (s_conns s !! c) as [x|] eqn:Ex; [|done]. injection Hy as <-. apply (Hset c x); [done|done|by left].
    + assert (Hpm : parcel m ∈ parcel <$> inbox s) by (apply elem_of_list_fmap; by exists m).
      destruct (i_mail _ _ _ _ _ I (m_conn m) (m_chunk m) Hpm) as [(y & Hy & Ho & Hin) _]. unfold cores_of in Hy. rewrite lookup_fmap in Hy.
      destruct (s_conns s !! m_conn m) as [x|] eqn:Ex; [|done]. injection Hy as <-. apply (Hset (m_conn m) x); [done|done|by left].
    + apply (Hset c x); [done|done|by right].
    + assert (Hp' : k ∈ (r_pending (s_res s)).*1) by (apply elem_of_list_fmap; by exists (k, t)).
      destruct (i_pend _ _ _ _ _ I k Hp') as [[e He] _]. rewrite Hspec. unfold due. rewrite bool_decide_eq_false_2.
      * unfold get_live. rewrite He. rewrite (Ht k e He); [eauto|]. by right.
      * intros Hd. apply elem_of_list_fmap in Hd as ([k' t'] & -> & Hd). apply elem_of_list_filter in Hd as [Hle Hd]. cbn in *.
        pose proof (i_pend_nd _ _ _ _ _ I) as Hnd. assert (t = t'); [|lia].
        apply elem_of_list_lookup in Hp as [i Hi]. apply elem_of_list_lookup in Hd as [j Hj].
        assert (i = j); [|congruence]. eapply (NoDup_lookup _ i j k' Hnd); by rewrite list_lookup_fmap, ?Hi, ?Hj.
Qed.
(** Full statement, from the description of the metric (prometheus.rs:130-134): the gauge is the
    number of chunks being worked on by the consumers. Proved: as long as nothing goes wrong, every
    such chunk is counted, and once only, and so are the chunks whose report waits and those that a
    request has just picked; nothing else is counted but chunks settled less than a second before.
    Nothing going wrong includes that the first attempt to listen succeeded. *)
Theorem C107_counts_partial : forall cfg h now tr s i v,
  run_to cfg (smooth cfg) (server_start h now) tr s -> timely cfg s -> gauge_set_by (cf_ttl cfg) (s_now s) 0 (s_res s) i = Some v ->
  exists ks, NoDup ks /\ v = N.of_nat (length ks) /\
    (forall k, worked_on tr k \/ report_waits s k \/ picked s k -> k ∈ ks) /\
    (forall k, k ∈ ks -> worked_on tr k \/ report_waits s k \/ picked s k \/ just_settled cfg (server_start h now) tr (s_now s) k).
Proof.
  intros cfg h now tr s i v Hr Ht Hv. destruct (gauge_counts _ _ _ _ _ Hr Ht) as (ks & H1 & H2 & H3). exists ks.
  assert (v = reserved_gauge (cf_ttl cfg) (s_now s) (s_res s)) as -> by (unfold gauge_set_by, maintained in Hv; destruct i as [|[|i]]; [by injection Hv as <-|done..]).
  split_and!; try done.
  - intros k Hk. apply H3. tauto.
  - intros k Hk. apply H3 in Hk as [|[|[|(t & Hp & Hl)]]]; [tauto..|]. do 3 right. by eapply pending_past.
Qed.
Print Assumptions C107_counts_partial.
(** So, when the server is at rest, the description is right: no request is being answered, no report
    waits, and the last chunk was settled a second ago or longer. *)
Theorem C107_at_rest_partial : forall cfg h now tr s i v,
  run_to cfg (smooth cfg) (server_start h now) tr s -> timely cfg s -> gauge_set_by (cf_ttl cfg) (s_now s) 0 (s_res s) i = Some v ->
  (forall k, ~ report_waits s k /\ ~ picked s k /\ ~ just_settled cfg (server_start h now) tr (s_now s) k) ->
  exists ks, NoDup ks /\ v = N.of_nat (length ks) /\ forall k, k ∈ ks <-> worked_on tr k.
Proof.
  intros cfg h now tr s i v Hr Ht Hv Hq. destruct (C107_counts_partial _ _ _ _ _ _ _ Hr Ht Hv) as (ks & H1 & H2 & H3 & H4). exists ks. split_and!; try done.
  intros k. destruct (Hq k) as (Q1 & Q2 & Q3). split; [intros Hk; destruct (H4 k Hk) as [|[|[]]]; tauto|]. intros Hk. apply H3. by left.
Qed.
Print Assumptions C107_at_rest_partial.

Definition smooth_b (cfg : config) (tr : trace) (s : state) (l : label) : bool :=
  orderly_b cfg tr s l &&
  match l with
  | LLost | LFetchError _ | LJoin _ true => false
  | LJoin _ false => match next cfg l s with Some (_, []) => true | _ => false end
  | _ => true
  end.
Lemma smooth_by cfg tr s l : smooth_b cfg tr s l = true -> smooth cfg tr s l.
Proof.
  unfold smooth_b. intros [H1 H2]%andb_true_iff. split; [by apply orderly_by|]. split; [by intros ->|]; split; [by intros c ->|].
  intros c f s' o -> Hn Hc. destruct f; [done|]. rewrite Hn in H2. destruct o; [by apply elem_of_nil in Hc|done].
Qed.
(** The description is not right in general: a consumer has completed its only chunk, the server has
    dealt with the report, nobody works on anything, and the gauge says one. *)
Theorem C107_refuted : exists cfg h now tr s,
  run_to cfg (smooth cfg) (server_start h now) tr s /\ timely cfg s /\ fresh_ids (s_hist s) /\
  (forall k, ~ worked_on tr k /\ ~ report_waits s k /\ ~ picked s k) /\ gauge_set_by (cf_ttl cfg) (s_now s) 0 (s_res s) 0 = Some 1.
Proof.
  destruct (by_play ex_cfg (smooth_b ex_cfg) (smooth ex_cfg) ex_srv 0
    (does [LConnect 1] ++ get_one 1 ++ does [LReport 1 (1, 0) (Complete None); LWrite [] 5 5 5; LFinish; LCounters true; LTime 500])
    (fun tr s => all_live ex_cfg s && bool_decide (fresh_ids (s_hist s)) && bool_decide (dom (s_conns s) = {[ 1 ]}) && bool_decide (holding tr 1 = ∅) &&
       bool_decide (length (inbox s) = 0%nat) && bool_decide ((fetched <$> s_conns s !! 1) = Some []) && bool_decide (reserved_gauge 60000 (s_now s) (s_res s) = 1)))
    as (tr & s & Hr & Hp); [apply smooth_by|by vm_compute|].
  repeat (apply andb_true_iff in Hp as [Hp ?]). repeat match goal with H : bool_decide _ = true |- _ => apply bool_decide_eq_true_1 in H end.
  assert (Hl : timely ex_cfg s) by by apply all_live_timely.
  exists ex_cfg, ex_srv, 0, tr, s. split_and!; try done; [|unfold gauge_set_by, maintained; cbn -[reserved_gauge]; by rewrite H]. intros k. split_and!.
  - intros [c Hc]. destruct (smooth_run _ _ _ _ _ Hr) as [[I _] _]. destruct (i_held _ _ _ _ _ I c k Hc) as (y & Hy & _ & _).
    unfold cores_of in Hy. rewrite lookup_fmap in Hy. destruct (s_conns s !! c) as [x|] eqn:Ex; [|done].
    apply elem_of_dom_2 in Ex as Hd. rewrite H3 in Hd. apply elem_of_singleton in Hd as ->. rewrite H2 in Hc. by apply elem_of_empty in Hc.
  - intros (m & Hm & _). destruct (inbox s); [by apply elem_of_nil in Hm|done].
  - intros (c & x & Hx & Ho & Hin). apply elem_of_dom_2 in Hx as Hd. rewrite H3 in Hd. apply elem_of_singleton in Hd as ->.
    rewrite Hx in H0. injection H0 as E. rewrite E in Hin. by apply elem_of_nil in Hin.
Qed.
Print Assumptions C107_refuted.
(** The hypotheses are met: consumer 1 works on a chunk, consumer 2 has completed one a second ago
    and is about to be given another; the gauge says two. *)
Example C107_example : exists tr s, run_to ex_cfg (smooth ex_cfg) (server_start ex_srv 0) tr s /\ timely ex_cfg s /\
  worked_on tr (1, 0) /\ picked s (2, 0) /\ gauge_set_by 60000 (s_now s) 0 (s_res s) 0 = Some 2.
Proof.
  destruct (by_play ex_cfg (smooth_b ex_cfg) (smooth ex_cfg) ex_srv 0
    (does [LConnect 1; LConnect 2] ++ get_one 1 ++ get_second 2 ++ does [LReport 2 (1, 1) (Complete None); LWrite [] 5 5 5; LFinish; LCounters true; LTime 1000] ++
     [ask 2 1] ++ does [LSkip 2 0; LRow 2])
    (fun tr s => all_live ex_cfg s && bool_decide ((1, 0) ∈ holding tr 1) && bool_decide ((fun x => (c_open x, fetched x)) <$> s_conns s !! 2 = Some (true, [(2, 0)])) && bool_decide (reserved_gauge 60000 (s_now s) (s_res s) = 2)))
    as (tr & s & Hr & Hp); [apply smooth_by|by vm_compute|].
  repeat (apply andb_true_iff in Hp as [Hp ?]). repeat match goal with H : bool_decide _ = true |- _ => apply bool_decide_eq_true_1 in H end.
  exists tr, s. split_and!; try done; [by apply all_live_timely|by exists 1| |unfold gauge_set_by, maintained; cbn -[reserved_gauge]; by rewrite H]. destruct (s_conns s !! 2) as [x|] eqn:Ex; [|done]. injection H0 as E1 E2.
  exists 2, x. split_and!; try done. rewrite E2. left.
Qed.
(** If an attempt to listen had failed before, the loop of that attempt sets the gauge to zero again
    and again, every 10 ms, whatever the consumers work on: here on one chunk. *)
Lemma gauge_set_idle : forall ttl now failed r i, (i < failed)%nat -> gauge_set_by ttl now failed r i = Some 0.
Proof.
  intros ttl now failed r i Hi. unfold gauge_set_by, maintained.
  rewrite lookup_app_l by (by rewrite replicate_length). rewrite lookup_replicate_2 by done. done.
Qed.
Theorem C107_retried_refuted : exists cfg h now tr s k,
  run_to cfg (smooth cfg) (server_start h now) tr s /\ timely cfg s /\ worked_on tr k /\
  forall failed i, (i < failed)%nat -> gauge_set_by (cf_ttl cfg) (s_now s) failed (s_res s) i = Some 0.
Proof.
  destruct C107_example as (tr & s & Hr & Ht & Hw & _). exists ex_cfg, ex_srv, 0, tr, s, (1, 0). split_and!; try done.
  intros failed i Hi. by apply gauge_set_idle.
Qed.
Print Assumptions C107_retried_refuted.
