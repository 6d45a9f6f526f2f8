(** C109: how old the gauges for autoscaling are. *)
From Verif Require Import ScalingLoop.
Local Open Scope N_scope.

(** ** C109 *)
(** [backlog t]: the number of chunks in the database at time [t]; [ds]: when chunks fail for good.
    The metric says what the backlog was at some moment at most [age] ms before. *)
Definition up_to_date (backlog : N -> N) (age : N) (l : list setting) (ds : list N) (t : N) : Prop :=
  exists r, chunks_gauge backlog l ds t = Some (Z.of_N (backlog r)) /\ r <= t <= r + age.
(** No errors, and no round takes more than [d] ms besides its 5 s of sleep. *)
Definition swift (d : N) (rs : list round) : Prop := Forall (fun r => i_error r = false /\ i_late r + i_read r + i_set r + i_rest r <= d) rs.

Lemma shows_app l1 l2 t : gauge_shows (l1 ++ l2) t = match gauge_shows l2 t with Some s => Some s | None => gauge_shows l1 t end.
Proof.
  unfold gauge_shows. rewrite filter_app. rewrite last_app. done.
Qed.
Lemma read_before rs : forall t0 s, s ∈ (scaling_loop t0 rs).1 -> g_read s <= g_when s.
Proof.
  induction rs as [|r rs IH]; intros t0 s Hs; cbn in Hs; [by apply elem_of_nil in Hs|].
  specialize (IH (over t0 r) s). destruct (scaling_loop (over t0 r) rs) as [l t']. cbn in *. apply elem_of_app in Hs as [Hs|Hs]; [|by apply IH].
  unfold set_by in Hs. destruct (i_error r); [by apply elem_of_nil in Hs|]. apply elem_of_list_singleton in Hs as ->. cbn. lia.
Qed.
Lemma swift_shows d rs : swift d rs -> forall t0 t, t <= (scaling_loop t0 rs).2 ->
  (forall s, gauge_shows (scaling_loop t0 rs).1 t = Some s -> g_read s <= t <= g_read s + (5000 + 2 * d)) /\
  (t0 + 5000 + d <= t -> is_Some (gauge_shows (scaling_loop t0 rs).1 t)).
Proof.
  induction 1 as [|r rs [He Hd] Hs IH]; intros t0 t Ht; cbn [scaling_loop] in Ht |- *.
  - cbn in Ht |- *. split; [done|]. intros. lia.
  - specialize (IH (over t0 r) t). destruct (scaling_loop (over t0 r) rs) as [l t'] eqn:El. cbn [fst snd] in Ht, IH |- *. destruct (IH Ht) as [I1 I2].
    rewrite shows_app. unfold set_by. rewrite He. destruct (gauge_shows l t) as [s|] eqn:Es.
    + split; [|eauto]. intros s' [= <-]. by apply I1.
    + assert (Hlt : t < over t0 r + 5000 + d). { apply N.lt_nge. intros Hge. destruct (I2 Hge) as [? ?]. congruence. }
      unfold over, awake, metrics_interval in *. unfold gauge_shows. rewrite filter_cons. cbn [g_when]. destruct (decide _) as [Hw|Hw].
      * rewrite filter_nil. split; [|eauto]. intros s Hls. injection Hls as <-. cbn [g_read g_when] in *. lia.
      * split; [done|]. intros. lia.
Qed.
(** Full statement: at every moment of the life of the server, for some bound. Proved: as long as
    nothing fails and a round takes no longer than [d], from 5 s and [d] after the start on, the
    metric says what the backlog was at most 5 s and twice [d] before, less some of the chunks that
    have failed for good since. *)
Theorem C109_fresh_partial : forall backlog ds d t0 rs t,
  swift d rs -> t0 + 5000 + d <= t -> t <= (scaling_loop t0 rs).2 ->
  exists r n, chunks_gauge backlog (scaling_loop t0 rs).1 ds t = Some (Z.of_N (backlog r) - Z.of_nat n)%Z /\
    r <= t <= r + (5000 + 2 * d) /\ (n <= lowered ds r t)%nat.
Proof.
  intros backlog ds d t0 rs t Hs H1 H2. destruct (swift_shows d rs Hs t0 t H2) as [I1 I2]. destruct (I2 H1) as [s Es].
  exists (g_read s), (lowered ds (g_when s) t). unfold chunks_gauge. rewrite Es. split; [done|]. split; [by apply I1|].
  assert (Hr : g_read s <= g_when s). { apply (read_before rs t0). unfold gauge_shows in Es. rewrite last_lookup in Es. apply elem_of_list_lookup_2, elem_of_list_filter in Es as [_ Es]. done. }
  unfold lowered. clear -Hr. induction ds as [|x ds IH]; [done|]. rewrite !filter_cons. destruct (decide _) as [Ha|Ha], (decide (g_read s <= x /\ x <= t)) as [Hb|Hb]; cbn; lia.
Qed.
Print Assumptions C109_fresh_partial.
(** So it is up to date if no chunk has failed for good in this time. *)
Theorem C109_no_failures_partial : forall backlog ds d t0 rs t,
  swift d rs -> t0 + 5000 + d <= t -> t <= (scaling_loop t0 rs).2 -> (forall x, x ∈ ds -> x <= t -> x + (5000 + 2 * d) < t) ->
  up_to_date backlog (5000 + 2 * d) (scaling_loop t0 rs).1 ds t.
Proof.
  intros backlog ds d t0 rs t Hs H1 H2 Hd. destruct (C109_fresh_partial backlog ds d t0 rs t Hs H1 H2) as (r & n & E & Hr & Hn). exists r.
  assert (n = 0%nat) as ->.
  { assert (lowered ds r t = 0%nat); [|lia]. unfold lowered. destruct (filter _ ds) as [|x l] eqn:Ef; [done|].
    assert (Hx : x ∈ filter (fun d => r <= d /\ d <= t) ds) by (rewrite Ef; left). apply elem_of_list_filter in Hx as [[X1 X2] X3]. specialize (Hd x X3 X2). lia. }
  rewrite E. split; [f_equal; lia|done].
Qed.
Print Assumptions C109_no_failures_partial.
(** For the first 5 s after every start there is no metric, whatever is in the database; or, if a
    chunk has failed for good meanwhile, the number of those that have with a minus sign. *)
Lemma set_late rs : forall t0 s, s ∈ (scaling_loop t0 rs).1 -> t0 + 5000 <= g_when s.
Proof.
  induction rs as [|r rs IH]; intros t0 s Hs; cbn in Hs; [by apply elem_of_nil in Hs|].
  specialize (IH (over t0 r) s). destruct (scaling_loop (over t0 r) rs) as [l t']. cbn in *. apply elem_of_app in Hs as [Hs|Hs].
  - unfold set_by in Hs. destruct (i_error r); [by apply elem_of_nil in Hs|]. apply elem_of_list_singleton in Hs as ->. unfold awake, metrics_interval. cbn. lia.
  - specialize (IH Hs). unfold over, awake, metrics_interval in IH. lia.
Qed.
Lemma none_yet t0 rs t : t < t0 + 5000 -> gauge_shows (scaling_loop t0 rs).1 t = None.
Proof.
  intros Ht. unfold gauge_shows. destruct (last (filter _ _)) as [s|] eqn:E; [|done]. rewrite last_lookup in E.
  apply elem_of_list_lookup_2, elem_of_list_filter in E as [H1 H2]. apply set_late in H2. lia.
Qed.
Theorem C109_start_refuted : forall backlog t0 rs t, t < t0 + 5000 -> chunks_gauge backlog (scaling_loop t0 rs).1 [] t = None.
Proof. intros backlog t0 rs t Ht. unfold chunks_gauge. by rewrite none_yet. Qed.
Print Assumptions C109_start_refuted.
Theorem C109_negative_refuted : forall backlog t0 rs t d, t0 <= d <= t -> t < t0 + 5000 ->
  chunks_gauge backlog (scaling_loop t0 rs).1 [d] t = Some (-1)%Z.
Proof. intros backlog t0 rs t d [Hd1 Hd2] Ht. unfold chunks_gauge. rewrite none_yet by done. unfold lowered. rewrite filter_cons. rewrite decide_True by lia. done. Qed.
Print Assumptions C109_negative_refuted.
(** When the query fails from some moment on, the metric goes on to say what it said, however long
    that lasts and whatever the backlog has become. *)
Lemma errors_loop n : forall t, scaling_loop t (replicate n (Round 0 true 0 0 0)) = ([], t + N.of_nat n * 5000).
Proof.
  induction n as [|n IH]; intros t; cbn [replicate scaling_loop]; [f_equal; lia|]. unfold over, awake. cbn [i_late i_read i_set i_rest].
  rewrite IH. unfold set_by. cbn [i_error app]. f_equal. unfold metrics_interval. lia.
Qed.
Theorem C109_error_refuted : forall age, exists backlog rs t,
  t <= (scaling_loop 0 rs).2 /\ chunks_gauge backlog (scaling_loop 0 rs).1 [] t = Some 0%Z /\
  (forall r, r <= t <= r + age -> backlog r = 1000) /\ ~ up_to_date backlog age (scaling_loop 0 rs).1 [] t.
Proof.
  intros age. set (t := 5001 + (age + 1) * 5000).
  set (rs := Round 0 false 0 0 0 :: replicate (N.to_nat (age + 2)) (Round 0 true 0 0 0)).
  assert (Hl : scaling_loop 0 rs = ([Setting 5000 5000], 5000 + (age + 2) * 5000)).
  { unfold rs. cbn [scaling_loop]. unfold over, awake, metrics_interval. cbn [i_late i_read i_set i_rest]. rewrite errors_loop. rewrite N2Nat.id. unfold set_by. cbn [i_error app].
    unfold awake, metrics_interval. cbn [i_late i_read i_set]. f_equal. }
  assert (Hm : forall b, chunks_gauge b (scaling_loop 0 rs).1 [] t = Some (Z.of_N (b 5000))).
  { intros b. rewrite Hl. unfold chunks_gauge, gauge_shows. cbn [fst]. rewrite filter_cons. cbn [g_when]. rewrite decide_True by (unfold t; lia).
    cbn [filter list_filter last g_read g_when]. unfold lowered. cbn [filter list_filter length]. f_equal. lia. }
  exists (fun r => if r <=? 5000 then 0 else 1000), rs, t. rewrite Hm. split_and!; try done.
  - rewrite Hl. cbn [snd]. unfold t. lia.
  - intros r [H1 H2]. destruct (N.leb_spec r 5000); [unfold t in *; lia|done].
  - intros (r & H1 & H2 & H3). rewrite Hm in H1. destruct (N.leb_spec r 5000); [unfold t in *; lia|]. by destruct (5000 <=? 5000) eqn:E.
Qed.
Print Assumptions C109_error_refuted.
(** The hypotheses are met: rounds of a few milliseconds; chunks come in, and one fails for good. *)
Example C109_example : let rs := [Round 1 false 2 1 4; Round 0 false 3 1 3] in
  swift 10 rs /\ (scaling_loop 0 rs).2 = 10015 /\
  chunks_gauge (fun t => t / 1000) (scaling_loop 0 rs).1 [7000] 6999 = Some 5%Z /\ chunks_gauge (fun t => t / 1000) (scaling_loop 0 rs).1 [7000] 10010 = Some 4%Z /\
  chunks_gauge (fun t => t / 1000) (scaling_loop 0 rs).1 [7000] 10012 = Some 10%Z.
Proof. split_and!; [repeat constructor; done|by vm_compute..]. Qed.
