(** C80-C82: what the metrics of the consumers' side of the server say. *)
From Verif Require Import ServerMetricsProofs PropServer.
Local Open Scope N_scope.

(** ** C80 *)
(** The gauge counts the connected consumers and, in addition, every connection whose task has
    broken down since the server was started. *)
Theorem C80_gauge_law : forall cfg ok h t0 tr s, run_to cfg ok (server_start h t0) tr s ->
  consumers_connected (meters_after cfg (server_start h t0) tr) = (Z.of_nat (size (online tr)) + Z.of_nat (breakdowns tr))%Z.
Proof. intros cfg ok h t0 tr s Hr. by destruct (gauge_law _ _ _ _ _ _ Hr). Qed.
Print Assumptions C80_gauge_law.
(** Full statement: without the hypothesis. It fails: below. *)
Theorem C80_gauge_partial : forall cfg ok h t0 tr s, run_to cfg ok (server_start h t0) tr s -> breakdowns tr = 0%nat ->
  consumers_connected (meters_after cfg (server_start h t0) tr) = Z.of_nat (size (online tr)).
Proof. intros cfg ok h t0 tr s Hr Hb. rewrite (C80_gauge_law _ _ _ _ _ _ Hr), Hb. lia. Qed.
Print Assumptions C80_gauge_partial.
(** A submission is cancelled at the moment at which a consumer is about to be given one of its
    chunks. The consumer's connection breaks down; nobody is connected any more, but the gauge says
    one, and it stays too high until the server is restarted. Nothing else goes wrong in this run. *)
Definition gauge_leak : list (state -> label) :=
  does [LConnect 1; LConnect 2] ++ [ask 1 1] ++ does [LRow 1; LProducer (quiet (OCancel 1 5 5)); LJoin 1 false; LDisconnect 2].
Theorem C80_gauge_refuted : exists cfg h t0 tr s,
  fresh_ids h /\ run_to cfg (orderly cfg) (server_start h t0) tr s /\
  online tr = ∅ /\ consumers_connected (meters_after cfg (server_start h t0) tr) = 1%Z /\
  forall ok tr' s', run_to cfg ok (server_start h t0) (tr ++ tr') s' -> (forall e o, (LCrash e, o) ∉ tr') ->
    (Z.of_nat (size (online (tr ++ tr'))) < consumers_connected (meters_after cfg (server_start h t0) (tr ++ tr')))%Z.
Proof.
  destruct (by_play ex_cfg (orderly_b ex_cfg) (orderly ex_cfg) ex_srv 0 gauge_leak
    (fun tr s => bool_decide (online tr = ∅) && bool_decide (breakdowns tr = 1%nat) && bool_decide (consumers_connected (meters_after ex_cfg (server_start ex_srv 0) tr) = 1%Z))) as (tr & s & Hr & Hp).
  - intros. by apply orderly_by.
  - by vm_compute.
  - apply andb_true_iff in Hp as [Hp P3]. apply andb_true_iff in Hp as [P1 P2]. apply bool_decide_eq_true_1 in P1, P2, P3.
    exists ex_cfg, ex_srv, 0, tr, s. split_and!; try done; [exact ex_srv_fresh|]. intros ok tr' s' Hr' Hc. rewrite (C80_gauge_law _ _ _ _ _ _ Hr').
    assert (1 <= breakdowns (tr ++ tr'))%nat; [|lia]. clear Hr'. induction tr' as [|[l o] tr' IH] using rev_ind; [rewrite app_nil_r; lia|].
    rewrite app_assoc. unfold breakdowns in *. rewrite foldl_snoc.
    assert (1 <= foldl breaks_step 0 (tr ++ tr'))%nat by (apply IH; intros e o' Hin; apply (Hc e o'); apply elem_of_app; by left).
    destruct l; cbn; try lia; [destruct o as [|[] o]; lia|]. exfalso. apply (Hc e o), elem_of_app. right. left.
Qed.
Print Assumptions C80_gauge_refuted.
(** The hypotheses of the partial theorem are met: consumers come and go. *)
Example C80_example : exists tr s, run_to ex_cfg (orderly ex_cfg) (server_start ex_srv 0) tr s /\
  bool_decide (breakdowns tr = 0%nat /\ online tr = {[ 2; 3 ]} /\ consumers_connected (meters_after ex_cfg (server_start ex_srv 0) tr) = 2%Z) = true.
Proof.
  apply (by_play ex_cfg (orderly_b ex_cfg) _ _ _ (does [LConnect 1; LConnect 2] ++ get_one 1 ++ does [LDisconnect 1; LConnect 3])
    (fun tr s => bool_decide (breakdowns tr = 0%nat /\ online tr = {[ 2; 3 ]} /\ consumers_connected (meters_after ex_cfg (server_start ex_srv 0) tr) = 2%Z))).
  - intros. by apply orderly_by.
  - by vm_compute.
Qed.

(** ** C81 *)
(** No recorded duration reaches the expiration time. *)
Theorem C81_below_expiration : forall cfg ok h t0 tr s d, run_to cfg ok (server_start h t0) tr s ->
  let m := meters_after cfg (server_start h t0) tr in
  d ∈ durations_completed m \/ d ∈ durations_failed m -> d < cf_ttl cfg.
Proof.
  intros cfg ok h t0 tr s d Hr m Hd. pose proof (durations_below _ _ _ _ _ _ Hr) as F. rewrite Forall_forall in F. apply F. unfold durations. by apply elem_of_app.
Qed.
Print Assumptions C81_below_expiration.
(** In an orderly run every report adds one sample to the histogram of its kind: the time since the
    reporting consumer's request for the chunk was being dealt with, that is, at least the time since
    the request was answered and at most the time since it was received. Full statement: for every
    run. It fails: below. *)
Theorem C81_duration_partial : forall cfg h t0 tr o s r b s',
  run_to cfg (orderly cfg) (server_start h t0) (tr ++ [(LFinish, o)]) s' ->
  run_to cfg (orderly cfg) (server_start h t0) tr s -> s_phase s = Written r b ->
  let m := meters_after cfg (server_start h t0) tr in let m' := meters_after cfg (server_start h t0) (tr ++ [(LFinish, o)]) in
  exists received answered d, handed t0 tr (m_conn r) (m_chunk r) = Some (received, answered) /\
    s_now s - answered <= d <= s_now s - received /\
    match m_report r with
    | Complete _ => durations_completed m' = durations_completed m ++ [d] /\ durations_failed m' = durations_failed m
    | Fail _ => durations_completed m' = durations_completed m /\ durations_failed m' = durations_failed m ++ [d]
    end.
Proof.
  intros cfg h t0 tr o s r b s' Hr' Hr Hp m m'. destruct (run_snoc_inv _ _ _ _ _ _ _ Hr') as (s1 & Hr1 & (Ht & _ & _) & [_ Hn]).
  assert (s1 = s) as -> by exact (run_to_det _ _ _ _ _ _ _ Hr1 Hr).
  destruct (duration_sample cfg t0 h tr s r b s' o Hr Hp Ht Hn) as (a & g & d & Hh & Hd & Hm). exists a, g, d. split_and!; try done; try apply Hd.
  subst m m'. destruct (meters_after cfg (server_start h t0) tr) as [n sc fl cs fs] eqn:E. rewrite (Hm _ _ _ _ _ eq_refl). by destruct (m_report r).
Qed.
Print Assumptions C81_duration_partial.
(** Consumer 1 is given a chunk at time 0 and works on it past the expiration time. Consumer 2 is
    given the same chunk at 60000. The report of consumer 1, dealt with at 60001, is recorded as one
    millisecond of work. *)
Definition short_sample : list (state -> label) :=
  does [LConnect 1; LConnect 2] ++ get_one 1 ++ does [LTime 60000] ++ get_one 2 ++ does [LTime 1; LReport 1 (1, 0) (Complete None); LWrite [] 2 2 2].
Theorem C81_duration_refuted : exists cfg h t0 tr s r b s' o k,
  fresh_ids h /\ run_to cfg reports_held (server_start h t0) tr s /\ s_phase s = Written r b /\ run_to cfg reports_held (server_start h t0) (tr ++ [(LFinish, o)]) s' /\
  r = Mail 1 k (Complete None) /\ completed_chunk (s_db s) k <> None /\
  handed t0 tr 1 k = Some (0, 0) /\ s_now s = 60001 /\
  durations_completed (meters_after cfg (server_start h t0) tr) = [] /\
  durations_completed (meters_after cfg (server_start h t0) (tr ++ [(LFinish, o)])) = [1].
Proof.
  exists ex_cfg, ex_srv, 0.
  destruct (by_play2 ex_cfg (fun tr s l => reports_held_b tr l) reports_held ex_srv 0 short_sample (does [LFinish])
    (fun tr s tr2 s' => match s_phase s, tr2 with Written (Mail 1 (1, 0) (Complete None)) _, [(LFinish, _)] => true | _, _ => false end &&
       bool_decide (handed 0 tr 1 (1, 0) = Some (0, 0) /\ s_now s = 60001) && bool_decide (is_Some (completed_chunk (s_db s) (1, 0))) &&
       bool_decide (durations_completed (meters_after ex_cfg (server_start ex_srv 0) tr) = [] /\ durations_completed (meters_after ex_cfg (server_start ex_srv 0) (tr ++ tr2)) = [1]))) as (tr & s & tr2 & s' & H1 & H2 & Hp).
  - intros tr s l. apply reports_held_by.
  - by vm_compute.
  - apply andb_true_iff in Hp as [Hp P4]. apply andb_true_iff in Hp as [Hp P3]. apply andb_true_iff in Hp as [P1 P2]. apply bool_decide_eq_true_1 in P2, P3, P4.
    destruct (s_phase s) as [|[c k r] b|] eqn:Ep; try discriminate P1. destruct c as [|[]]; try discriminate P1. destruct k as [[|[]] []]; try discriminate P1. destruct r as [[]|]; try discriminate P1.
    destruct tr2 as [|[l o] tr2]; [discriminate P1|]. destruct l; try discriminate P1. destruct tr2; [|discriminate P1].
    exists tr, s, (Mail 1 (1, 0) (Complete None)), b, s', o, (1, 0). destruct P3 as [x Hx]. rewrite Hx. split_and!; try assumption; try apply P2; try apply P4; try done. exact ex_srv_fresh.
Qed.
Print Assumptions C81_duration_refuted.
(** A chunk that is completed after its reservation has expired is not recorded at all. *)
Definition no_sample : list (state -> label) := does [LConnect 1] ++ get_one 1 ++ does [LTime 60000; LReport 1 (1, 0) (Complete None); LWrite [] 2 2 2; LFinish; LCounters true].
Theorem C81_recorded_refuted : exists cfg h t0 tr s k,
  fresh_ids h /\ run_to cfg reports_held (server_start h t0) tr s /\ completed_chunk (s_db s) k <> None /\ inbox s = [] /\
  durations_completed (meters_after cfg (server_start h t0) tr) = [].
Proof.
  exists ex_cfg, ex_srv, 0.
  destruct (by_play ex_cfg (fun tr s l => reports_held_b tr l) reports_held ex_srv 0 no_sample
    (fun tr s => bool_decide (is_Some (completed_chunk (s_db s) (1, 0))) && bool_decide (length (inbox s) = 0%nat) && bool_decide (durations_completed (meters_after ex_cfg (server_start ex_srv 0) tr) = []))) as (tr & s & H1 & Hp).
  - intros tr s l. apply reports_held_by.
  - by vm_compute.
  - apply andb_true_iff in Hp as [Hp P3]. apply andb_true_iff in Hp as [P1 P2]. apply bool_decide_eq_true_1 in P1, P2, P3. apply nil_length_inv in P2. destruct P1 as [x Hx].
    exists tr, s, (1, 0). rewrite Hx. split_and!; try assumption; try done. exact ex_srv_fresh.
Qed.
Print Assumptions C81_recorded_refuted.
(** The hypotheses of the partial theorem are met: a chunk is asked for at 0, answered at 5 and completed at 25. *)
Example C81_example : exists tr s tr2 s', run_to ex_cfg (orderly ex_cfg) (server_start ex_srv 0) tr s /\ run_to ex_cfg (orderly ex_cfg) (server_start ex_srv 0) (tr ++ tr2) s' /\
  (match s_phase s, tr2 with Written _ _, [(LFinish, _)] => true | _, _ => false end && bool_decide (handed 0 tr 1 (1, 0) = Some (0, 5)) &&
   bool_decide (durations_completed (meters_after ex_cfg (server_start ex_srv 0) (tr ++ tr2)) = [22])) = true.
Proof.
  apply (by_play2 ex_cfg (orderly_b ex_cfg) (orderly ex_cfg) ex_srv 0
    (does [LConnect 1] ++ [ask 1 1] ++ does [LTime 3; LRow 1; LTime 2; LJoin 1 false; LReply 1; LTime 20; LReport 1 (1, 0) (Complete None); LWrite [] 2 2 2]) (does [LFinish])
    (fun tr s tr2 s' => match s_phase s, tr2 with Written _ _, [(LFinish, _)] => true | _, _ => false end && bool_decide (handed 0 tr 1 (1, 0) = Some (0, 5)) &&
       bool_decide (durations_completed (meters_after ex_cfg (server_start ex_srv 0) (tr ++ tr2)) = [22]))).
  - intros. by apply orderly_by.
  - by vm_compute.
Qed.

(** ** C82 *)
(** Every chunk that was given out is counted as a successful reservation. *)
Theorem C82_counts_given : forall cfg ok h t0 tr s, run_to cfg ok (server_start h t0) tr s ->
  N.of_nat (chunks_given tr) <= reservations_succeeded (meters_after cfg (server_start h t0) tr).
Proof. intros cfg ok h t0 tr s Hr. pose proof (reserved_law _ _ _ _ _ _ Hr). lia. Qed.
Print Assumptions C82_counts_given.
(** And nothing else is, as long as no request meets a database error or breaks down. Full
    statement: without that condition. It fails: below. *)
Theorem C82_counts_only_given_partial : forall cfg h t0 tr s, run_to cfg (careful cfg) (server_start h t0) tr s -> no_requests s ->
  reservations_succeeded (meters_after cfg (server_start h t0) tr) = N.of_nat (chunks_given tr).
Proof. intros cfg h t0 tr s Hr Hn. pose proof (reserved_careful _ _ _ _ _ Hr) as H. rewrite (running_none _ Hn) in H. cbn in H. lia. Qed.
Print Assumptions C82_counts_only_given_partial.
(** A request that meets a database error after it has reserved a chunk. *)
Theorem C82_counts_only_given_refuted : exists cfg h t0 tr s,
  fresh_ids h /\ run_to cfg (orderly cfg) (server_start h t0) tr s /\ no_requests s /\ chunks_given tr = 0%nat /\
  reservations_succeeded (meters_after cfg (server_start h t0) tr) = 1.
Proof.
  exists ex_cfg, ex_srv, 0.
  destruct (by_play ex_cfg (orderly_b ex_cfg) (orderly ex_cfg) ex_srv 0 (does [LConnect 1] ++ [ask 1 1] ++ does [LRow 1; LFetchError 1])
    (fun tr s => forallb (fun p => match c_fetch p.2 with None => true | Some _ => false end) (map_to_list (s_conns s)) && bool_decide (chunks_given tr = 0%nat) &&
       bool_decide (reservations_succeeded (meters_after ex_cfg (server_start ex_srv 0) tr) = 1))) as (tr & s & Hr & Hp).
  - intros. by apply orderly_by.
  - by vm_compute.
  - apply andb_true_iff in Hp as [Hp P3]. apply andb_true_iff in Hp as [P1 P2]. apply bool_decide_eq_true_1 in P2, P3. exists tr, s. split_and!; try assumption; [exact ex_srv_fresh|].
    intros c x Hx. rewrite forallb_forall in P1. specialize (P1 (c, x) ltac:(apply elem_of_list_In; by apply elem_of_map_to_list)). cbn in P1. by destruct (c_fetch x).
Qed.
Print Assumptions C82_counts_only_given_refuted.
(** The hypotheses of the partial theorem are met: three chunks in two answers, and one reservation that fails. *)
Example C82_example : exists tr s, run_to ex_cfg (careful ex_cfg) (server_start ex_srv 0) tr s /\
  (forallb (fun p => match c_fetch p.2 with None => true | Some _ => false end) (map_to_list (s_conns s)) &&
   bool_decide (chunks_given tr = 3%nat /\ reservations_succeeded (meters_after ex_cfg (server_start ex_srv 0) tr) = 3 /\ reservations_failed (meters_after ex_cfg (server_start ex_srv 0) tr) = 1)) = true.
Proof.
  apply (by_play ex_cfg (fun tr s l => match l with LLost | LFetchError _ | LJoin _ true => false | LJoin _ false => match next ex_cfg l s with Some (_, []) => true | _ => false end | _ => true end) (careful ex_cfg) _ _
    (does [LConnect 1; LConnect 2] ++ [ask 1 1; ask 2 2] ++ does [LRow 1; LRow 2; LJoin 1 false; LRow 2; LJoin 2 false; LReply 1; LRow 2; LJoin 2 false; LReply 2])
    (fun tr s => forallb (fun p => match c_fetch p.2 with None => true | Some _ => false end) (map_to_list (s_conns s)) &&
       bool_decide (chunks_given tr = 3%nat /\ reservations_succeeded (meters_after ex_cfg (server_start ex_srv 0) tr) = 3 /\ reservations_failed (meters_after ex_cfg (server_start ex_srv 0) tr) = 1))).
  - intros tr s l Hl. split; [by intros ->|]. split; [by intros c ->|]. intros c f s' o -> Hn Hc. destruct f; [done|]. rewrite Hn in Hl. destruct o; [by apply elem_of_nil in Hc|done].
  - by vm_compute.
Qed.
