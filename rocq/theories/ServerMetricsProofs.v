(** What the metrics of ServerMetrics.v measure. *)
From Verif Require Export ServerMetrics.
Local Open Scope N_scope.

(** *** Values along runs *)
Lemma metered_app cfg ok s tr s1 : run_to cfg ok s tr s1 -> forall tr2 m, metered_from cfg s (tr ++ tr2) m = metered_from cfg s1 tr2 (metered_from cfg s tr m).
Proof.
  induction 1 as [|tr s1 l s2 o _ IH _ [_ Hn]]; intros tr2 m; [done|]. rewrite <- app_assoc, !IH. cbn. by rewrite Hn.
Qed.
Lemma meters_snoc cfg ok s tr s1 l s2 o : run_to cfg ok s tr s1 -> next cfg l s1 = Some (s2, o) ->
  meters_after cfg s (tr ++ [(l, o)]) = metered cfg s1 l (meters_after cfg s tr).
Proof. intros H Hn. unfold meters_after. rewrite (metered_app _ _ _ _ _ H). cbn. by rewrite Hn. Qed.

(** *** Who is connected *)
Definition openness (s : state) : gmap N bool := c_open <$> s_conns s.
Lemma openness_cores s s' : cores_of s' = cores_of s -> openness s' = openness s.
Proof.
  intros E. unfold openness, cores_of in *. apply map_eq. intros c. rewrite !lookup_fmap.
  pose proof (f_equal (fun m => k_open <$> m !! c) E) as Ec. cbn in Ec. rewrite !lookup_fmap in Ec. rewrite <- !option_fmap_compose in Ec. exact Ec.
Qed.
Lemma openness_set c x x' s : s_conns s !! c = Some x -> c_open x' = c_open x -> openness (set_conn c x' s) = openness s.
Proof. intros Hc Ho. unfold openness. cbn. rewrite fmap_insert, Ho. apply fin_maps.insert_id. by rewrite lookup_fmap, Hc. Qed.
Lemma openness_with_res rn s : openness (with_res rn s) = openness s.
Proof. apply openness_cores, cores_with_res. Qed.
Lemma openness_close cfg c x s : openness (close cfg c x s) = <[c := false]> (openness s).
Proof.
  unfold close. unfold openness at 1. cbn [s_conns set_conn]. rewrite fmap_insert. cbn [c_open].
  change (c_open <$> s_conns (with_res ?r ?t)) with (openness (with_res r t)). rewrite openness_with_res. unfold openness. cbn. by rewrite fmap_insert, insert_insert.
Qed.
Lemma open_step cfg l s s' o : idle_closed s -> next cfg l s = Some (s', o) ->
  (exists c, l = LConnect c /\ o = [] /\ openness s !! c = None /\ openness s' = <[c := true]> (openness s)) \/
  (exists c, (l = LDisconnect c \/ exists f, l = LJoin c f) /\ o = [Closed c] /\ openness s !! c = Some true /\ openness s' = <[c := false]> (openness s)) \/
  (exists e, l = LCrash e /\ o = [] /\ openness s' = ∅) \/
  ((forall c, Closed c ∉ o) /\ (forall c, l <> LConnect c) /\ (forall c, l <> LDisconnect c) /\ (forall e, l <> LCrash e) /\ openness s' = openness s).
Proof.
  intros Hi Hn.
  assert (Hnil : forall c, Closed c ∉ ([] : list out)) by (intros c H; by apply elem_of_nil in H).
  assert (Hone : forall y, (forall c, Closed c <> y) -> forall c, Closed c ∉ [y]) by (intros y H c Hin; apply elem_of_list_singleton in Hin; by destruct (H c)).
  destruct l; unfold next in Hn.
  - destruct (is_producer_op _); [|done]. injection Hn as <- <-. do 3 right. done.
  - destruct (s_notifies s); [done|]. injection Hn as <- <-. do 3 right. split_and!; try done. unfold openness. cbn. rewrite <- map_fmap_compose. done.
  - destruct (s_conns s !! c) eqn:Ec; [done|]. injection Hn as <- <-. left. exists c. split_and!; try done; unfold openness; [by rewrite lookup_fmap, Ec|]. cbn. by rewrite fmap_insert.
  - destruct (s_conns s !! c) as [x|] eqn:Ec; [|done]. destruct (c_open x) eqn:Eo; [|done]. destruct (c_fetch x); [done|]. injection Hn as <- <-. right. left.
    exists c. split_and!; [by left|done|unfold openness; rewrite lookup_fmap, Ec; cbn; by rewrite Eo|apply openness_close].
  - destruct (s_conns s !! c) as [x|] eqn:Ec; [|done]. destruct (c_open x) eqn:Eo; [|done]. destruct (c_fetch x); [done|]. destruct (q_max q =? 0); [|destruct (can_ask _); cbn [negb] in Hn]; injection Hn as <- <-; do 3 right; split_and!; try done; first [by apply Hone|by eapply openness_set].
  - destruct (s_conns s !! c) as [x|] eqn:Ec; [|done]. destruct (c_open x) eqn:Eo; [|done]. destruct (c_fetch x); [done|]. destruct (c_retry x) as [|q rest]; [done|]. destruct (q_max q =? 0); [|destruct (can_ask _); cbn [negb] in Hn]; injection Hn as <- <-; do 3 right; split_and!; try done; first [by apply Hone|by eapply openness_set].
  - destruct (s_conns s !! c) as [x|] eqn:Ec; [|done]. destruct (c_fetch x) as [[q [|r rows] got [j|]]|]; try done. destruct (_ <? _); [|done].
    destruct (try_reserve _ _ _ _ _) as [[ok res] ns]. injection Hn as <- <-. do 3 right. split_and!; try done. rewrite openness_with_res. by eapply openness_set.
  - destruct (s_conns s !! c) as [x|] eqn:Ec; [|done]. destruct (c_fetch x) as [[q rows got j]|]; try done. destruct (rows !! i); [|done]. destruct (is_reserved _ _ _ _); [|done].
    injection Hn as <- <-. do 3 right. split_and!; try done. by eapply openness_set.
  - destruct (s_conns s !! c) as [x|] eqn:Ec; [|done]. destruct (c_fetch x) as [[q rows got [r|]]|] eqn:Ef; try done.
    destruct (if fault then None else _) as [sub|]; injection Hn as <- <-.
    + do 3 right. split_and!; try done. exact (openness_set c x (with_fetch (Some (Fetch q rows (got ++ [(r, sub)]) None)) x) s Ec eq_refl).
    + right. left. exists c. split_and!; [by right; exists fault|done| |apply openness_close]. unfold openness. rewrite lookup_fmap, Ec. cbn. f_equal.
      destruct (c_open x) eqn:Eo; [done|]. pose proof (Hi c x Ec Eo). congruence.
  - destruct (s_conns s !! c) as [x|] eqn:Ec; [|done]. destruct (c_fetch x) as [[q rows got j]|]; try done. injection Hn as <- <-. do 3 right. split_and!; try done; [by apply Hone|by eapply openness_set].
  - destruct (s_conns s !! c) as [x|] eqn:Ec; [|done]. destruct (c_fetch x) as [[q rows got [r|]]|]; try done. destruct (_ || _); [|done].
    destruct got; injection Hn as <- <-; do 3 right; split_and!; try done; try (by eapply openness_set). by apply Hone.
  - destruct (s_conns s !! c) as [x|] eqn:Ec; [|done]. destruct (c_spawned x); [done|]. injection Hn as <- <-. do 3 right. split_and!; try done. by eapply openness_set.
  - destruct (s_conns s !! c) as [x|] eqn:Ec; [|done]. destruct (c_open x) eqn:Eo; [|done]. destruct (c_fetch x); [done|]. injection Hn as <- <-. do 3 right. split_and!; try done.
    by apply (openness_set c x (Peer true (c_set x) (c_rx x) None (c_spawned x) (c_waiting x) (c_retry x)) s Ec).
  - destruct (s_phase s); try done. destruct (s_mail s); [done|]. injection Hn as <- <-. do 3 right. done.
  - destruct (s_phase s); try done. destruct (s_mail s); [done|]. injection Hn as <- <-. do 3 right. done.
  - destruct (s_phase s) as [|m b|]; try done. destruct (finish_reservation _ _ _ _ _) as [[r res] ns]. injection Hn as <- <-. do 3 right. split_and!; try done.
    rewrite openness_with_res. unfold openness. cbn. apply map_eq. intros c. rewrite !lookup_fmap. destruct (decide (c = m_conn m)) as [->|Hne].
    + rewrite lookup_alter. by destruct (s_conns s !! m_conn m).
    + by rewrite lookup_alter_ne.
  - destruct (s_phase s); try done. injection Hn as <- <-. do 3 right. done.
  - injection Hn as <- <-. do 3 right. done.
  - destruct (r_pending _ !! i) as [[k t]|]; [|done]. destruct (t <=? _); [|done]. injection Hn as <- <-. do 3 right. split_and!; try done. apply (openness_with_res _ s).
  - destruct (r_entries _ !! k); [|done]. destruct (is_live _ _ _); [done|]. injection Hn as <- <-. do 3 right. split_and!; try done. apply (openness_with_res _ s).
  - destruct (s_conns s !! c) as [x|] eqn:Ec; [|done]. destruct (c_fetch x); [done|]. destruct (c_rx x); [done|]. injection Hn as <- <-. do 3 right. split_and!; try done; [by apply Hone|by eapply openness_set].
  - injection Hn as <- <-. do 2 right. left. eexists. split_and!; try done. unfold openness. cbn. apply fmap_empty.
Qed.

Lemma idle_start h t : idle_closed (server_start h t).
Proof. intros c x Hx. cbn in Hx. by rewrite lookup_empty in Hx. Qed.
Lemma idle_run cfg ok s tr s' : idle_closed s -> run_to cfg ok s tr s' -> idle_closed s'.
Proof. intros Hi. induction 1 as [|tr s1 l s2 o _ IH _ [_ Hn]]; [done|]. by eapply idle_step. Qed.

Lemma outs_online o : (forall c, Closed c ∉ o) -> forall on, foldl (fun (on : gset N) o => match o with Closed c => on ∖ {[ c ]} | _ => on end) on o = on.
Proof.
  induction o as [|a o IH]; intros H on; [done|]. cbn. destruct a; try (apply IH; intros c' Hc; apply (H c'); by right).
  exfalso. apply (H c). left.
Qed.
Lemma gauge_law cfg ok h t0 tr s : run_to cfg ok (server_start h t0) tr s ->
  (forall c, c ∈ online tr <-> openness s !! c = Some true) /\
  consumers_connected (meters_after cfg (server_start h t0) tr) = (Z.of_nat (size (online tr)) + Z.of_nat (breakdowns tr))%Z.
Proof.
  induction 1 as [|tr s1 l s2 o Hr IH _ [_ Hn]].
  { split; [|done]. intros c. unfold openness. cbn. rewrite fmap_empty, lookup_empty. split; [|done]. intros H. by apply elem_of_empty in H. }
  destruct IH as [IH1 IH2]. pose proof (idle_run _ _ _ _ _ (idle_start h t0) Hr) as Hi.
  rewrite (meters_snoc _ _ _ _ _ _ _ _ Hr Hn). revert IH2. unfold online, breakdowns in *. rewrite !foldl_snoc. generalize dependent (foldl online_step ∅ tr). generalize (foldl breaks_step 0%nat tr).
  destruct (meters_after cfg (server_start h t0) tr) as [n sc fl cs fs]. cbn [consumers_connected]. intros bd on IH1 IH2. clear Hr.
  destruct (open_step _ _ _ _ _ Hi Hn) as [(c & -> & -> & E1 & E2)|[(c & Hl & -> & E1 & E2)|[(e & -> & -> & E2)|(H1 & H2 & H3 & H4 & E2)]]]; rewrite E2.
  - cbn. split.
    + intros c'. rewrite elem_of_union, elem_of_singleton, IH1. destruct (decide (c' = c)) as [->|Hne]; [rewrite lookup_insert; tauto|]. rewrite lookup_insert_ne by done. tauto.
    + rewrite size_union, size_singleton; [lia|]. intros c' Hc ->%elem_of_singleton. apply IH1 in Hc. congruence.
  - assert (Hon : forall c', c' ∈ on ∖ {[ c ]} <-> <[c := false]> (openness s1) !! c' = Some true).
    { intros c'. rewrite elem_of_difference, elem_of_singleton, IH1. destruct (decide (c' = c)) as [->|Hne]; [rewrite lookup_insert; naive_solver|]. rewrite lookup_insert_ne by done. tauto. }
    assert (Hsz : (size on = S (size (on ∖ {[ c ]})))%nat).
    { rewrite size_difference; [rewrite size_singleton|].
      - assert (size on <> 0%nat); [|lia]. intros E%size_empty_iff. assert (c ∈ on) by by apply IH1. set_solver.
      - intros c' ->%elem_of_singleton. by apply IH1. }
    destruct Hl as [->|[f ->]]; cbn; (split; [done|lia]).
  - cbn. split; [|done]. intros c. rewrite lookup_empty. split; [|done]. intros H. by apply elem_of_empty in H.
  - unfold online_step. cbn [fst snd]. rewrite outs_online by done.
    replace (match l with LConnect c => _ | LCrash _ => ∅ | _ => on end) with on by (destruct l; try done; [by destruct (H2 c)|by destruct (H4 e)]).
    split; [done|]. replace (breaks_step bd (l, o)) with bd.
    + rewrite <- IH2. destruct l; try done; cbn; [by destruct (H2 c)|by destruct (H3 c)| | |by destruct (H4 e)].
      * by repeat case_match; simplify_eq.
      * by repeat case_match; simplify_eq.
    + destruct l; try done; [|by destruct (H4 e)]. destruct o as [|[] o]; try done. exfalso. apply (H1 c0). left.
Qed.

(** *** The counters of reservations *)
Definition running (s : state) : list chunk_id := flat (fetched <$> s_conns s).
Lemma running_cores s s' : cores_of s' = cores_of s -> running s' = running s.
Proof.
  intros E. unfold running. f_equal. unfold cores_of in *. apply map_eq. intros c. rewrite !lookup_fmap.
  pose proof (f_equal (fun m => k_fetch <$> m !! c) E) as Ec. cbn in Ec. rewrite !lookup_fmap in Ec. rewrite <- !option_fmap_compose in Ec. exact Ec.
Qed.
Lemma running_conns s' s : s_conns s' = s_conns s -> running s' = running s.
Proof. unfold running. by intros ->. Qed.
Lemma running_with_res rn s : running (with_res rn s) = running s.
Proof. apply running_cores, cores_with_res. Qed.
Lemma running_set c x x' s s' : s_conns s !! c = Some x -> s_conns s' = <[c := x']> (s_conns s) ->
  (length (running s') + length (fetched x) = length (running s) + length (fetched x'))%nat.
Proof.
  intros Hc E. destruct (flat_update (fetched <$> s_conns s) c (fetched x) (fetched x')) as (rest & E1 & E2); [by rewrite lookup_fmap, Hc|].
  unfold running. rewrite E, fmap_insert. rewrite E1, E2, !app_length. lia.
Qed.
Lemma running_same c x x' s s' : s_conns s !! c = Some x -> s_conns s' = <[c := x']> (s_conns s) -> length (fetched x') = length (fetched x) ->
  length (running s') = length (running s).
Proof. intros Hc E Hl. pose proof (running_set c x x' s s' Hc E). lia. Qed.
Lemma running_close cfg c x s : s_conns s !! c = Some x -> (length (running (close cfg c x s)) + length (fetched x) = length (running s))%nat.
Proof.
  intros Hc. unfold close. set (x0 := Peer false _ _ _ _ _ _). set (rn := seq_notices _ _ _).
  assert (E : running (set_conn c x0 (with_res rn (set_conn c x0 s))) = running (set_conn c x0 s)).
  { apply running_cores. rewrite cores_set, cores_with_res, cores_set. by rewrite insert_insert. }
  rewrite E. pose proof (running_set c x x0 s (set_conn c x0 s) Hc eq_refl) as H. cbn in H. lia.
Qed.
Definition given_in (o : list out) : nat := sum_list ((fun a => match a with Given _ _ g => length g | _ => 0%nat end) <$> o).
Lemma given_outs o : forall n, foldl (fun n o => match o with Given _ _ g => n + length g | _ => n end)%nat n o = (n + given_in o)%nat.
Proof. unfold given_in. induction o as [|a o IH]; intros n; cbn; [lia|]. rewrite IH. destruct a; lia. Qed.
Lemma reserved_step cfg tr l s s' o m : next cfg l s = Some (s', o) -> (forall e, l <> LCrash e) ->
  exists lost, (length (running s') + given_in o + lost + N.to_nat (reservations_succeeded m) =
    length (running s) + N.to_nat (reservations_succeeded (metered cfg s l m)))%nat /\ (careful cfg tr s l -> lost = 0%nat).
Proof.
  intros Hn Hl. assert (Hn0 := Hn). destruct m as [n ok no comp fail]. unfold given_in. destruct l; unfold next in Hn; try (by destruct (Hl e)).
  - destruct (is_producer_op _); [|done]. injection Hn as <- <-. exists 0%nat. split; [|done]. erewrite (running_conns _ s); [cbn; lia|done].
  - destruct (s_notifies s); [done|]. injection Hn as <- <-. exists 0%nat. cbn. split; [|done].
    match goal with |- (length (running ?t) + _ + _ + _)%nat = _ => replace (running t) with (running s); [lia|] end.
    unfold running. cbn. by rewrite <- map_fmap_compose.
  - destruct (s_conns s !! c) eqn:Ec; [done|]. injection Hn as <- <-. exists 0%nat. cbn. split; [|done]. unfold running. cbn. rewrite fmap_insert, flat_insert, delete_notin by (by rewrite lookup_fmap, Ec).
    rewrite app_length. cbn. lia.
  - destruct (s_conns s !! c) as [x|] eqn:Ec; [|done]. destruct (c_open x) eqn:Eo; [|done]. destruct (c_fetch x) eqn:Ef; [done|]. injection Hn as <- <-. exists 0%nat. split; [|done].
    pose proof (running_close cfg c x s Ec). unfold fetched in *. rewrite Ef in *. cbn in *. lia.
  - destruct (s_conns s !! c) as [x|] eqn:Ec; [|done]. destruct (c_open x) eqn:Eo; [|done]. destruct (c_fetch x) eqn:Ef; [done|]. exists 0%nat. split; [|done]. destruct (q_max q =? 0); [|destruct (can_ask _); cbn [negb] in Hn]; injection Hn as <- <-; [cbn; lia| |cbn; lia].
    erewrite (running_same c x _ s); [cbn; lia|exact Ec|done|]. unfold fetched. by rewrite Ef.
  - destruct (s_conns s !! c) as [x|] eqn:Ec; [|done]. destruct (c_open x) eqn:Eo; [|done]. destruct (c_fetch x) eqn:Ef; [done|]. destruct (c_retry x) as [|q rest]; [done|]. exists 0%nat. split; [|done].
    destruct (q_max q =? 0); [|destruct (can_ask _); cbn [negb] in Hn]; injection Hn as <- <-; (erewrite (running_same c x _ s); [cbn; lia|exact Ec|done|]; unfold fetched; by rewrite Ef).
  - destruct (s_conns s !! c) as [[xo xs xr xf x1 x2 x3]|] eqn:Ec; [|done]. cbn [c_fetch] in Hn. destruct xf as [[q [|r rows] got [j|]]|] eqn:Ef; try done. destruct (_ <? _); [|done].
    exists 0%nat. split; [|done]. unfold metered. rewrite Ec. destruct (try_reserve _ _ _ _ _) as [[b res] ns] eqn:Et. injection Hn as <- <-. cbn [fst].
    rewrite running_with_res. match goal with |- context [set_conn c ?y s] => pose proof (running_set c _ y s (set_conn c y s) Ec eq_refl) as Hr end.
    unfold fetched in Hr. cbn in Hr |- *. rewrite !app_length in Hr. destruct b; cbn in Hr |- *; lia.
  - destruct (s_conns s !! c) as [x|] eqn:Ec; [|done]. destruct (c_fetch x) as [[q rows got j]|] eqn:Ef; try done. destruct (rows !! i); [|done]. destruct (is_reserved _ _ _ _); [|done].
    injection Hn as <- <-. exists 0%nat. split; [|done]. erewrite (running_same c x _ s); [cbn; lia|exact Ec|done|]. unfold fetched. by rewrite Ef.
  - destruct (s_conns s !! c) as [x|] eqn:Ec; [|done]. destruct (c_fetch x) as [[q rows got [r|]]|] eqn:Ef; try done.
    destruct (if fault then None else _) as [sub|] eqn:Ej.
    + injection Hn as <- <-. exists 0%nat. split; [|done]. erewrite (running_same c x _ s); [cbn; lia|exact Ec|done|]. unfold fetched. rewrite Ef. cbn. rewrite fmap_app, !app_length. cbn. lia.
    + injection Hn as <- <-. exists (length (fetched x)). split; [pose proof (running_close cfg c x s Ec); cbn; lia|]. intros (_ & _ & C). exfalso. apply (C c fault _ _ eq_refl Hn0). left.
  - destruct (s_conns s !! c) as [x|] eqn:Ec; [|done]. destruct (c_fetch x) as [[q rows got j]|] eqn:Ef; try done. injection Hn as <- <-. exists (length (fetched x)). split.
    + pose proof (running_set c x (with_fetch None x) s (set_conn c (with_fetch None x) s) Ec eq_refl) as Hr. cbn in *. lia.
    + intros (_ & C & _). by destruct (C c).
  - destruct (s_conns s !! c) as [x|] eqn:Ec; [|done]. destruct (c_fetch x) as [[q rows got [r|]]|] eqn:Ef; try done. destruct (_ || _); [|done].
    exists 0%nat. split; [|done]. destruct got as [|g got]; injection Hn as <- <-.
    + erewrite (running_same c x _ s); [cbn; lia|exact Ec|done|]. unfold fetched. by rewrite Ef.
    + match goal with |- context [set_conn c ?y s] => pose proof (running_set c x y s (set_conn c y s) Ec eq_refl) as Hr end.
      unfold fetched in Hr. rewrite Ef in Hr. cbn in *. rewrite app_nil_r, fmap_length in Hr. lia.
  - destruct (s_conns s !! c) as [x|] eqn:Ec; [|done]. destruct (c_spawned x); [done|]. injection Hn as <- <-. exists 0%nat. split; [|done]. erewrite (running_same c x _ s); [cbn; lia|exact Ec|done|done].
  - destruct (s_conns s !! c) as [x|] eqn:Ec; [|done]. destruct (c_open x) eqn:Eo; [|done]. destruct (c_fetch x) eqn:Ef; [done|]. injection Hn as <- <-. exists 0%nat. split; [|done].
    erewrite (running_same c x _ s); [cbn; lia|exact Ec|done|]. unfold fetched. by rewrite Ef.
  - destruct (s_phase s); try done. destruct (s_mail s); [done|]. injection Hn as <- <-. exists 0%nat. split; [|done]. erewrite (running_conns _ s); [cbn; lia|done].
  - destruct (s_phase s); try done. destruct (s_mail s); [done|]. injection Hn as <- <-. exists 0%nat. split; [|done]. erewrite (running_conns _ s); [cbn; lia|done].
  - destruct (s_phase s) as [|r b|] eqn:Ep; try done. exists 0%nat. split; [|done]. unfold metered. rewrite Ep. destruct (finish_reservation _ _ _ _ _) as [[at_ res] ns] eqn:Ef. injection Hn as <- <-. cbn [fst].
    rewrite running_with_res. assert (E : reservations_succeeded match at_ with Some a => match m_report r with Complete _ => Meters n ok no (comp ++ [s_now s - a]) fail | Fail _ => Meters n ok no comp (fail ++ [s_now s - a]) end | None => Meters n ok no comp fail end = ok)
      by (destruct at_; [destruct (m_report r)|]; done). rewrite E.
    match goal with |- (length (running ?t) + _ + _ + _)%nat = _ => replace (running t) with (running s); [cbn; lia|] end.
    unfold running. cbn. f_equal. apply map_eq. intros c. rewrite !lookup_fmap. destruct (decide (c = m_conn r)) as [->|Hne]; [rewrite lookup_alter|by rewrite lookup_alter_ne]. by destruct (s_conns s !! m_conn r).
  - destruct (s_phase s); try done. injection Hn as <- <-. exists 0%nat. split; [|done]. erewrite (running_conns _ s); [cbn; lia|done].
  - injection Hn as <- <-. exists 0%nat. split; [|done]. erewrite (running_conns _ s); [cbn; lia|done].
  - destruct (r_pending _ !! i) as [[k t]|]; [|done]. destruct (t <=? _); [|done]. injection Hn as <- <-. exists 0%nat. split; [|done]. rewrite (running_with_res _ s). cbn. lia.
  - destruct (r_entries _ !! k); [|done]. destruct (is_live _ _ _); [done|]. injection Hn as <- <-. exists 0%nat. split; [|done]. rewrite (running_with_res _ s). cbn. lia.
  - destruct (s_conns s !! c) as [x|] eqn:Ec; [|done]. destruct (c_fetch x) eqn:Ef; [done|]. destruct (c_rx x); [done|]. injection Hn as <- <-. exists 0%nat. split; [|done]. erewrite (running_same c x _ s); [cbn; lia|exact Ec|done|]. unfold fetched. by rewrite Ef.
Qed.
Lemma running_none s : no_requests s -> running s = [].
Proof.
  intros H. destruct (running s) as [|k l] eqn:E; [done|]. assert (Hk : k ∈ running s) by (rewrite E; left). unfold running in Hk. apply elem_flat in Hk as (c & a & Hc & Hk).
  rewrite lookup_fmap in Hc. apply fmap_Some in Hc as (x & Hx & ->). unfold fetched in Hk. rewrite (H _ _ Hx) in Hk. by apply elem_of_nil in Hk.
Qed.
Lemma running_start h t : running (server_start h t) = [].
Proof. apply running_none. intros c x Hx. cbn in Hx. by rewrite lookup_empty in Hx. Qed.
Lemma reserved_law cfg ok h t0 tr s : run_to cfg ok (server_start h t0) tr s ->
  (chunks_given tr + length (running s) <= N.to_nat (reservations_succeeded (meters_after cfg (server_start h t0) tr)))%nat.
Proof.
  induction 1 as [|tr s1 l s2 o Hr IH _ [_ Hn]]; [by rewrite running_start|]. rewrite (meters_snoc _ _ _ _ _ _ _ _ Hr Hn). unfold chunks_given in *. rewrite foldl_snoc.
  unfold given_step at 1. cbn [fst snd]. rewrite given_outs. assert ((exists e, l = LCrash e) \/ forall e, l <> LCrash e) as [[e ->]|Hc'] by (destruct l; first [by right|by left; eexists]).
  - unfold next in Hn. injection Hn as <- <-. rewrite running_start. cbn. destruct (meters_after _ _ _). cbn. lia.
  - destruct (reserved_step cfg tr l s1 s2 o (meters_after cfg (server_start h t0) tr) Hn Hc') as (lost & E & _).
    replace (match l with LCrash _ => 0%nat | _ => _ end) with (foldl given_step 0%nat tr) by (destruct l; try done; by destruct (Hc' e)). lia.
Qed.
Lemma reserved_careful cfg h t0 tr s : run_to cfg (careful cfg) (server_start h t0) tr s ->
  (chunks_given tr + length (running s) = N.to_nat (reservations_succeeded (meters_after cfg (server_start h t0) tr)))%nat.
Proof.
  induction 1 as [|tr s1 l s2 o Hr IH Hok [_ Hn]]; [by rewrite running_start|]. rewrite (meters_snoc _ _ _ _ _ _ _ _ Hr Hn). unfold chunks_given in *. rewrite foldl_snoc.
  unfold given_step at 1. cbn [fst snd]. rewrite given_outs. assert ((exists e, l = LCrash e) \/ forall e, l <> LCrash e) as [[e ->]|Hc'] by (destruct l; first [by right|by left; eexists]).
  - unfold next in Hn. injection Hn as <- <-. rewrite running_start. cbn. destruct (meters_after _ _ _). cbn. lia.
  - destruct (reserved_step cfg tr l s1 s2 o (meters_after cfg (server_start h t0) tr) Hn Hc') as (lost & E & Hlost). specialize (Hlost Hok).
    replace (match l with LCrash _ => 0%nat | _ => _ end) with (foldl given_step 0%nat tr) by (destruct l; try done; by destruct (Hc' e)). lia.
Qed.

(** *** How long chunks were reserved *)
Lemma entries_step cfg l s s' o k e : next cfg l s = Some (s', o) -> r_entries (s_res s') !! k = Some e ->
  r_entries (s_res s) !! k = Some e \/
  (exists c x q r rows got, l = LRow c /\ s_conns s !! c = Some x /\ c_fetch x = Some (Fetch q (r :: rows) got None) /\ cid_of r = k /\
     e = Entry c (s_now s) /\ get_live (cf_ttl cfg) (s_now s) k (s_res s) = None).
Proof.
  intros Hn He. destruct l; unfold next in Hn; try (repeat case_match; simplify_eq; by left).
  - destruct (s_conns s !! c) as [x|] eqn:Ec; [|done]. destruct (c_open x) eqn:Eo; [|done]. destruct (c_fetch x); [done|]. injection Hn as <- <-. rewrite close_entries in He. case_bool_decide; [done|by left].
  - destruct (s_conns s !! c) as [x|] eqn:Ec; [|done]. destruct (c_fetch x) as [[q [|r rows] got [j|]]|] eqn:Ef; try done. destruct (_ <? _); [|done].
    unfold try_reserve in Hn. destruct (get_live _ _ _ _) eqn:Eg; injection Hn as <- <-; [by left|]. cbn in He. apply lookup_insert_Some in He as [[<- <-]|[_ He]]; [|by left].
    right. by exists c, x, q, r, rows, got.
  - destruct (s_conns s !! c) as [x|] eqn:Ec; [|done]. destruct (c_fetch x) as [[q rows got [r|]]|] eqn:Ef; try done.
    destruct (if fault then None else _) as [sub|] eqn:Ej; injection Hn as <- <-; [by left|]. rewrite close_entries in He. case_bool_decide; [done|by left].
  - destruct (s_phase s) as [|m b|]; try done. unfold finish_reservation in Hn. destruct (get_live _ _ _ _); [|injection Hn as <- <-; by left]. destruct b; injection Hn as <- <-; [by left|]. cbn in He.
    apply lookup_delete_Some in He as [_ He]. by left.
  - destruct (r_pending _ !! i) as [[k' t]|]; [|done]. destruct (t <=? _); [|done]. injection Hn as <- <-. cbn in He. apply lookup_delete_Some in He as [_ He]. by left.
  - destruct (r_entries _ !! k0); [|done]. destruct (is_live _ _ _); [done|]. injection Hn as <- <-. cbn in He. apply lookup_delete_Some in He as [_ He]. by left.
Qed.
Lemma entry_past cfg ok h t0 tr s : run_to cfg ok (server_start h t0) tr s -> forall k e, r_entries (s_res s) !! k = Some e -> e_at e <= s_now s.
Proof.
  induction 1 as [|tr s1 l s2 o Hr IH _ [_ Hn]]; intros k e He; [cbn in He; by rewrite lookup_empty in He|]. pose proof (next_now _ _ _ _ _ Hn) as Hle.
  destruct (entries_step _ _ _ _ _ _ _ Hn He) as [H|(c & x & q & r & rows & got & _ & _ & _ & _ & -> & _)]; [specialize (IH _ _ H); lia|cbn; lia].
Qed.
Definition durations (m : meters) : list N := durations_completed m ++ durations_failed m.
Lemma durations_below cfg ok h t0 tr s : run_to cfg ok (server_start h t0) tr s -> Forall (fun d => d < cf_ttl cfg) (durations (meters_after cfg (server_start h t0) tr)).
Proof.
  induction 1 as [|tr s1 l s2 o Hr IH _ [_ Hn]]; [constructor|]. rewrite (meters_snoc _ _ _ _ _ _ _ _ Hr Hn). pose proof (entry_past _ _ _ _ _ _ Hr) as Hp. unfold durations in *.
  destruct (meters_after cfg (server_start h t0) tr) as [n sc fl cs fs]. cbn in IH. destruct l; cbn; try done.
  - by repeat case_match.
  - destruct (s_phase s1) as [|r b|]; try done. destruct (finish_reservation _ _ _ _ _) as [[[at_|] res] ns] eqn:Ef; cbn [fst]; [|done].
    assert (s_now s1 - at_ < cf_ttl cfg).
    { unfold finish_reservation, get_live in Ef. destruct (r_entries (s_res s1) !! m_chunk r) as [e|] eqn:Ee; [|done]. destruct (is_live _ _ _) eqn:El; [|done]. apply N.ltb_lt in El.
      specialize (Hp _ _ Ee). assert (at_ = e_at e) by (unfold cache_remove in Ef; destruct b; congruence). subst. lia. }
    apply Forall_app in IH as [F1 F2]. destruct (m_report r); cbn; rewrite ?Forall_app, ?Forall_singleton; done.
Qed.

Lemma handed_fst t0 tr : (foldl (handed_step t0) ([], ∅) tr).1 = tr.
Proof. induction tr as [|lo tr IH] using rev_ind; [done|]. rewrite foldl_snoc. cbn. by rewrite IH. Qed.
Lemma handed_snoc t0 tr l o c k : handed t0 (tr ++ [(l, o)]) c k =
  foldl (fun (m : gmap (N * chunk_id) (N * N)) o => match o with
     | Given c _ g => foldr (fun x m => <[(c, cid_of x.1) := (asked t0 tr c, (foldl tick (t0, ∅) tr).1)]> m) m g
     | _ => m end) (foldl (handed_step t0) ([], ∅) tr).2 o !! (c, k).
Proof. unfold handed. rewrite foldl_snoc. unfold handed_step at 1. cbn [snd fst]. by rewrite handed_fst. Qed.
Lemma handed_not t0 tr l o c k : (forall n g, Given c n g ∈ o -> k ∉ ids_of g) -> handed t0 (tr ++ [(l, o)]) c k = handed t0 tr c k.
Proof.
  intros H. rewrite handed_snoc. unfold handed. generalize ((foldl (handed_step t0) ([], ∅) tr).2) as m. induction o as [|a o IH]; intros m; [done|]. cbn [foldl].
  rewrite IH; [|intros n g Hg; apply (H n g); by right]. destruct a as [c' n g| | |]; try done. assert (Hg : c' = c -> k ∉ ids_of g) by (intros ->; apply (H n g); left). clear H IH.
  induction g as [|[r sub] g IHg]; [done|]. cbn [foldr]. rewrite lookup_insert_ne.
  - apply IHg. intros E. specialize (Hg E). unfold ids_of in *. cbn in Hg. set_solver.
  - intros E. injection E as -> E. apply Hg; [done|]. unfold ids_of. cbn. rewrite <- E. set_solver.
Qed.
Lemma handed_now t0 tr l c n g k : k ∈ ids_of g -> handed t0 (tr ++ [(l, [Given c n g])]) c k = Some (asked t0 tr c, (foldl tick (t0, ∅) tr).1).
Proof.
  intros H. rewrite handed_snoc. cbn [foldl]. generalize ((foldl (handed_step t0) ([], ∅) tr).2) as m. intros m. unfold ids_of in H. induction g as [|[r sub] g IH]; [cbn in H; set_solver|]. cbn [foldr].
  cbn [fst]. destruct (decide (cid_of r = k)) as [<-|Hne]; [by rewrite lookup_insert|]. rewrite lookup_insert_ne by congruence. apply IH. cbn in H. set_solver.
Qed.

(** Where the chunks in the sets and fetches of connections come from. *)
Lemma fetched_nofetch x : c_fetch x = None -> fetched x = [].
Proof. intros E. unfold fetched. by rewrite E. Qed.
Definition set_from (cfg : config) (l : label) (s : state) (o : list out) (c : N) (k : chunk_id) : Prop :=
  (exists x, s_conns s !! c = Some x /\ c_open x = true /\ k ∈ c_set x) \/
  (exists x n g, l = LReply c /\ s_conns s !! c = Some x /\ o = [Given c n g] /\ k ∈ ids_of g /\ k ∈ fetched x).
Definition fetch_from (cfg : config) (l : label) (s s' : state) (c : N) (k : chunk_id) : Prop :=
  (exists x, s_conns s !! c = Some x /\ k ∈ fetched x /\ (forall q off rows, l <> LReserve c q off rows) /\ (forall off rows, l <> LRetry c off rows)) \/
  (l = LRow c /\ r_entries (s_res s') !! k = Some (Entry c (s_now s))).
Lemma sets_step cfg l s s' o c x' k : next cfg l s = Some (s', o) -> s_conns s' !! c = Some x' ->
  (c_open x' = true -> k ∈ c_set x' -> set_from cfg l s o c k) /\ (k ∈ fetched x' -> fetch_from cfg l s s' c k).
Proof.
  intros Hn Hx'.
  (* a connection that is as before *)
  assert (Hsame : forall y, s_conns s !! c = Some y -> c_open x' = c_open y -> c_set x' ⊆ c_set y -> c_fetch x' = c_fetch y ->
    (c_fetch y <> None -> (forall q off rows, l <> LReserve c q off rows) /\ (forall off rows, l <> LRetry c off rows)) ->
    (c_open x' = true -> k ∈ c_set x' -> set_from cfg l s o c k) /\ (k ∈ fetched x' -> fetch_from cfg l s s' c k)).
  { intros y Hy E1 E2 E3 Hl. split.
    - intros Ho Hk. left. exists y. split_and!; [done|congruence|by apply E2].
    - intros Hk. left. exists y. unfold fetched in Hk |- *. rewrite E3 in Hk. destruct (c_fetch y) eqn:E; [|by apply elem_of_nil in Hk]. destruct (Hl ltac:(done)). done. }
  (* a connection whose fetch has nothing *)
  assert (Hidle : forall y, s_conns s !! c = Some y -> c_open x' = c_open y -> c_set x' ⊆ c_set y -> fetched x' = [] ->
    (c_open x' = true -> k ∈ c_set x' -> set_from cfg l s o c k) /\ (k ∈ fetched x' -> fetch_from cfg l s s' c k)).
  { intros y Hy E1 E2 E3. split.
    - intros Ho Hk. left. exists y. split_and!; [done|congruence|by apply E2].
    - intros Hk. rewrite E3 in Hk. by apply elem_of_nil in Hk. }
  (* a connection that has ended *)
  assert (Hclosed : c_open x' = false -> fetched x' = [] -> (c_open x' = true -> k ∈ c_set x' -> set_from cfg l s o c k) /\ (k ∈ fetched x' -> fetch_from cfg l s s' c k)).
  { intros E1 E2. split; [congruence|]. intros Hk. rewrite E2 in Hk. by apply elem_of_nil in Hk. }
  destruct l; unfold next in Hn.
  - destruct (is_producer_op _); [|done]. injection Hn as <- <-. by apply (Hsame x').
  - destruct (s_notifies s); [done|]. injection Hn as <- <-. cbn in Hx'. rewrite lookup_fmap in Hx'. apply fmap_Some in Hx' as (y & Hy & ->). by apply (Hsame y).
  - destruct (s_conns s !! c0) eqn:Ec; [done|]. injection Hn as <- <-. cbn in Hx'. apply lookup_insert_Some in Hx' as [[<- <-]|[_ Hx']]; [|by apply (Hsame x')].
    cbn. split; [intros _ Hk; by apply elem_of_empty in Hk|intros Hk; by apply elem_of_nil in Hk].
  - destruct (s_conns s !! c0) as [x|] eqn:Ec; [|done]. destruct (c_open x) eqn:Eo; [|done]. destruct (c_fetch x); [done|]. injection Hn as <- <-. cbn in Hx'.
    apply lookup_insert_Some in Hx' as [[<- <-]|[Hne Hx']]; [by apply Hclosed|]. apply deliver_some in Hx' as (y & Hy & rx & ->). rewrite lookup_insert_ne in Hy by done. by apply (Hsame y).
  - destruct (s_conns s !! c0) as [x|] eqn:Ec; [|done]. destruct (c_open x) eqn:Eo; [|done]. destruct (c_fetch x) eqn:Ef; [done|]. destruct (q_max q =? 0); [|destruct (can_ask _); cbn [negb] in Hn]; injection Hn as <- <-; cbn in Hx'; [|apply lookup_insert_Some in Hx' as [[<- <-]|[Hne Hx']]; [by apply (Hidle x)|]; apply (Hsame x'); try done; intros _; split; [congruence|done]|].
    + apply (Hsame x'); try done. intros Hf. split; [|done]. intros q' off' rows' E. injection E as <- _ _ _. rewrite Hx' in Ec. congruence.
    + apply (Hsame x'); try done. intros Hf. split; [|done]. intros q' off' rows' E. injection E as <- _ _ _. rewrite Hx' in Ec. congruence.
  - destruct (s_conns s !! c0) as [x|] eqn:Ec; [|done]. destruct (c_open x) eqn:Eo; [|done]. destruct (c_fetch x) eqn:Ef; [done|]. destruct (c_retry x) as [|q rest]; [done|].
    destruct (q_max q =? 0); [|destruct (can_ask _); cbn [negb] in Hn]; injection Hn as <- <-; cbn in Hx';
    (apply lookup_insert_Some in Hx' as [[<- <-]|[Hne Hx']]; [by apply (Hidle x)|]; apply (Hsame x'); try done; intros _; split; [done|congruence]).
  - destruct (s_conns s !! c0) as [x|] eqn:Ec; [|done]. destruct (c_fetch x) as [[q [|r rows] got [j|]]|] eqn:Ef; try done. destruct (_ <? _); [|done].
    destruct (try_reserve _ _ _ _ _) as [[ok res] ns] eqn:Et. injection Hn as <- <-. cbn in Hx'. apply deliver_some in Hx' as (y & Hy & rx & ->).
    apply lookup_insert_Some in Hy as [[<- <-]|[Hne Hy]]; [|by apply (Hsame y)]. split.
    + intros Ho Hk. left. by exists x.
    + intros Hk. unfold fetched in Hk. cbn in Hk. assert (Hold : k ∈ ((λ p : chunk * submission, cid_of p.1) <$> got) -> fetch_from cfg (LRow c0) s (with_res (res, ns) (set_conn c0 (with_fetch (Some (Fetch q rows got (if ok then Some r else None))) x) s)) c0 k).
      { intros H. left. exists x. split_and!; try done. unfold fetched. rewrite Ef. cbn. by rewrite app_nil_r. }
      destruct ok; cbn in Hk; [|rewrite app_nil_r in Hk; by apply Hold]. apply elem_of_app in Hk as [Hk|Hk]; [by apply Hold|]. apply elem_of_list_singleton in Hk as ->.
      right. split; [done|]. unfold try_reserve in Et. destruct (get_live _ _ _ _); [done|]. injection Et as <- _. cbn. apply lookup_insert.
  - destruct (s_conns s !! c0) as [x|] eqn:Ec; [|done]. destruct (c_fetch x) as [[q rows got j]|] eqn:Ef; try done. destruct (rows !! i); [|done]. destruct (is_reserved _ _ _ _); [|done].
    injection Hn as <- <-. cbn in Hx'. apply lookup_insert_Some in Hx' as [[<- <-]|[Hne Hx']]; [|by apply (Hsame x')]. split; [intros Ho Hk; left; by exists x|].
    intros Hk. left. exists x. split_and!; try done. unfold fetched in *. by rewrite Ef.
  - destruct (s_conns s !! c0) as [x|] eqn:Ec; [|done]. destruct (c_fetch x) as [[q rows got [r|]]|] eqn:Ef; try done.
    destruct (if fault then None else _) as [sub|] eqn:Ej; injection Hn as <- <-; cbn in Hx'.
    + apply lookup_insert_Some in Hx' as [[<- <-]|[Hne Hx']]; [|by apply (Hsame x')]. split; [intros Ho Hk; left; by exists x|].
      intros Hk. left. exists x. split_and!; try done. unfold fetched in *. rewrite Ef. cbn in *. rewrite fmap_app, app_nil_r in Hk. exact Hk.
    + apply lookup_insert_Some in Hx' as [[<- <-]|[Hne Hx']]; [by apply Hclosed|]. apply deliver_some in Hx' as (y & Hy & rx & ->). rewrite lookup_insert_ne in Hy by done. by apply (Hsame y).
  - destruct (s_conns s !! c0) as [x|] eqn:Ec; [|done]. destruct (c_fetch x) as [[q rows got j]|] eqn:Ef; try done. injection Hn as <- <-. cbn in Hx'.
    apply lookup_insert_Some in Hx' as [[<- <-]|[Hne Hx']]; [|by apply (Hsame x')]. by apply (Hidle x).
  - destruct (s_conns s !! c0) as [x|] eqn:Ec; [|done]. destruct (c_fetch x) as [[q rows got [r|]]|] eqn:Ef; try done. destruct (_ || _); [|done].
    destruct got as [|g got]; injection Hn as <- <-; cbn in Hx'; (apply lookup_insert_Some in Hx' as [[<- <-]|[Hne Hx']]; [|by apply (Hsame x')]).
    + by apply (Hidle x).
    + cbn [c_open c_set]. split; [|intros Hk; by apply elem_of_nil in Hk]. intros Ho Hk. apply elem_of_union in Hk as [Hk|Hk]; [left; by exists x|]. right.
      assert (Hids : k ∈ ids_of (g :: got)) by exact Hk. exists x, (q_nonce q), (g :: got). split_and!; try done. unfold fetched. rewrite Ef. cbn [f_got f_join]. rewrite app_nil_r. by apply elem_of_list_to_set in Hids.
  - destruct (s_conns s !! c0) as [x|] eqn:Ec; [|done]. destruct (c_spawned x); [done|]. injection Hn as <- <-. cbn in Hx'. apply lookup_insert_Some in Hx' as [[<- <-]|[Hne Hx']]; [by apply (Hsame x)|by apply (Hsame x')].
  - destruct (s_conns s !! c0) as [x|] eqn:Ec; [|done]. destruct (c_open x) eqn:Eo; [|done]. destruct (c_fetch x) eqn:Ef; [done|]. injection Hn as <- <-. cbn in Hx'. apply lookup_insert_Some in Hx' as [[<- <-]|[Hne Hx']]; [by apply (Hidle x)|by apply (Hsame x')].
  - destruct (s_phase s); try done. destruct (s_mail s); [done|]. injection Hn as <- <-. by apply (Hsame x').
  - destruct (s_phase s); try done. destruct (s_mail s); [done|]. injection Hn as <- <-. by apply (Hsame x').
  - destruct (s_phase s) as [|m b|]; try done. destruct (finish_reservation _ _ _ _ _) as [[r res] ns]. injection Hn as <- <-. cbn in Hx'. apply deliver_some in Hx' as (y & Hy & rx & ->).
    apply lookup_alter_Some in Hy as [[<- (z & Hz & ->)]|[_ Hy]]; [|by apply (Hsame y)]. apply (Hsame z); try done. cbn. set_solver.
  - destruct (s_phase s); try done. injection Hn as <- <-. by apply (Hsame x').
  - injection Hn as <- <-. by apply (Hsame x').
  - destruct (r_pending _ !! i) as [[k' t]|]; [|done]. destruct (t <=? _); [|done]. injection Hn as <- <-. cbn in Hx'. apply deliver_some in Hx' as (y & Hy & rx & ->). by apply (Hsame y).
  - destruct (r_entries _ !! k0); [|done]. destruct (is_live _ _ _); [done|]. injection Hn as <- <-. cbn in Hx'. apply deliver_some in Hx' as (y & Hy & rx & ->). by apply (Hsame y).
  - destruct (s_conns s !! c0) as [x|] eqn:Ec; [|done]. destruct (c_fetch x) eqn:Ef; [done|]. destruct (c_rx x); [done|]. injection Hn as <- <-. cbn in Hx'. apply lookup_insert_Some in Hx' as [[<- <-]|[Hne Hx']]; [by apply (Hidle x)|by apply (Hsame x')].
  - injection Hn as <- <-. cbn in Hx'. by rewrite lookup_empty in Hx'.
Qed.
(** What is given out was fetched. *)
Lemma given_from cfg l s s' o c n g k : next cfg l s = Some (s', o) -> Given c n g ∈ o -> k ∈ ids_of g -> exists x, s_conns s !! c = Some x /\ k ∈ fetched x.
Proof.
  intros Hn Hg Hk. destruct l; unfold next in Hn; try (repeat case_match; simplify_eq; first [by apply elem_of_nil in Hg|by apply elem_of_list_singleton in Hg|apply elem_of_list_singleton in Hg; injection Hg as -> -> ->; unfold ids_of in Hk; cbn in Hk; by apply elem_of_empty in Hk]).
  - destruct (s_conns s !! c0) as [x|] eqn:Ec; [|done]. destruct (c_fetch x) as [[q rows got [r|]]|] eqn:Ef; try done. destruct (_ || _); [|done]. destruct got as [|g' got]; injection Hn as <- <-; [by apply elem_of_nil in Hg|].
    apply elem_of_list_singleton in Hg. injection Hg as -> -> ->. exists x. split; [done|]. unfold fetched. rewrite Ef. cbn [f_got f_join]. rewrite app_nil_r. by apply elem_of_list_to_set in Hk.
Qed.

Section times.
Context (cfg : config) (t0 : N).
Notation ttl := (cf_ttl cfg).
Record tinv (tr : trace) (s : state) : Prop := {
  t_clock : (foldl tick (t0, ∅) tr).1 = s_now s;
  t_asked : forall c, asked t0 tr c <= s_now s;
  t_set : forall c x k e, s_conns s !! c = Some x -> c_open x = true -> k ∈ c_set x -> r_entries (s_res s) !! k = Some e ->
    exists a g, handed t0 tr c k = Some (a, g) /\ a <= e_at e <= g;
  t_fetch : forall c x k e, s_conns s !! c = Some x -> k ∈ fetched x -> r_entries (s_res s) !! k = Some e -> asked t0 tr c <= e_at e }.
Lemma tinv_step tr s l s' o : orderly cfg tr s l -> step_to cfg s l s' o -> sinv tr s -> (forall k e, r_entries (s_res s) !! k = Some e -> e_at e <= s_now s) ->
  tinv tr s -> tinv (tr ++ [(l, o)]) s'.
Proof.
  intros (Ht & _ & _) [_ Hn] [I Hop] Hpast [T1 T2 T3 T4].
  assert ((exists e, l = LCrash e) \/ forall e, l <> LCrash e) as [[oe ->]|Hc] by (destruct l; first [by right|by left; eexists]).
  { unfold next in Hn. injection Hn as <- <-. constructor.
    - rewrite tick_snoc. exact T1.
    - intros c. unfold asked. rewrite tick_snoc. exact (T2 c).
    - intros c x k e Hx. cbn in Hx. by rewrite lookup_empty in Hx.
    - intros c x k e Hx. cbn in Hx. by rewrite lookup_empty in Hx. }
  assert (Hlive : forall k e, used s k -> r_entries (s_res s) !! k = Some e -> get_live ttl (s_now s) k (s_res s) = Some e).
  { intros k e Hu He. unfold get_live. rewrite He. by rewrite (Ht k e He Hu). }
  constructor.
  - by eapply clock_step.
  - intros c. by eapply asked_step.
  - intros c x k e Hx Ho Hk He. destruct (sets_step cfg l s s' o c x k Hn Hx) as [HS _]. destruct (HS Ho Hk) as [(y & Hy & Hyo & Hyk)|(y & n & g & -> & Hy & -> & Hkg & Hyk)].
    + destruct (i_set _ _ _ _ _ I c (core_of y) k (cores_lookup _ _ _ Hy) Hyo Hyk) as (e0 & He0 & Hh).
      assert (He1 : r_entries (s_res s) !! k = Some e).
      { destruct (entries_step _ _ _ _ _ _ _ Hn He) as [H|(c1 & x1 & q & r & rows & got & _ & _ & _ & _ & _ & Hg)]; [done|].
        rewrite (Hlive k e0) in Hg; [done| |done]. left. exists c, y. split_and!; try done. by left. }
      rewrite handed_not; [by eapply T3|]. intros n g Hg Hkg. destruct (given_from _ _ _ _ _ _ _ _ _ Hn Hg Hkg) as (y' & Hy' & Hkf). rewrite Hy in Hy'. injection Hy' as <-.
      destruct (i_fetch _ _ _ _ _ I c (core_of y) k (cores_lookup _ _ _ Hy) Hkf) as (_ & Hno & _). done.
    + destruct (entries_step _ _ _ _ _ _ _ Hn He) as [H|(c1 & x1 & q & r & rows & got & E & _)]; [|done].
      rewrite handed_now by done. eexists _, _. split; [done|]. split; [by eapply T4|]. rewrite T1. by apply (Hpast k).
  - intros c x k e Hx Hk He. destruct (sets_step cfg l s s' o c x k Hn Hx) as [_ HF]. destruct (HF Hk) as [(y & Hy & Hyk & Hq1 & Hq2)|[-> E]].
    + destruct (i_fetch _ _ _ _ _ I c (core_of y) k (cores_lookup _ _ _ Hy) Hyk) as (Hyo & _ & e0 & He0 & Hh).
      rewrite asked_same by done. apply (T4 c y k); try done.
      destruct (entries_step _ _ _ _ _ _ _ Hn He) as [H|(c1 & x1 & q & r & rows & got & _ & _ & _ & _ & _ & Hg)]; [done|].
      rewrite (Hlive k e0) in Hg; [done| |done]. left. exists c, y. split_and!; try done. by right.
    + rewrite E in He. injection He as <-. cbn. rewrite asked_same by done. apply T2.
Qed.
Lemma tinv_run h tr s : run_to cfg (orderly cfg) (server_start h t0) tr s -> sinv tr s /\ tinv tr s.
Proof.
  intros H. induction H as [|tr s1 l s2 o Hr [IH1 IH2] Hok Hst].
  - split; [apply sinv_start|]. constructor; try done.
  - split; [by eapply sinv_step|]. eapply tinv_step; try done. by eapply entry_past.
Qed.
(** A report that is dealt with in an orderly run adds one sample. *)
Lemma duration_sample h tr s r b s' o : run_to cfg (orderly cfg) (server_start h t0) tr s -> s_phase s = Written r b -> timely cfg s -> next cfg LFinish s = Some (s', o) ->
  exists a g d, handed t0 tr (m_conn r) (m_chunk r) = Some (a, g) /\ s_now s - g <= d <= s_now s - a /\
    forall n sc fl cs fs, meters_after cfg (server_start h t0) tr = Meters n sc fl cs fs ->
      meters_after cfg (server_start h t0) (tr ++ [(LFinish, o)]) =
      match m_report r with Complete _ => Meters n sc fl (cs ++ [d]) fs | Fail _ => Meters n sc fl cs (fs ++ [d]) end.
Proof.
  intros Hr Hp Ht Hn. destruct (tinv_run _ _ _ Hr) as [[I Hop] [T1 T2 T3 T4]].
  destruct (i_mail _ _ _ _ _ I (m_conn r) (m_chunk r)) as [(y & Hy & Hyo & Hyk) _].
  { apply elem_of_list_fmap. exists r. split; [done|]. unfold inbox. rewrite Hp. left. }
  destruct (i_set _ _ _ _ _ I _ _ _ Hy Hyo Hyk) as (e & He & _). unfold cores_of in Hy. rewrite lookup_fmap in Hy. apply fmap_Some in Hy as (x & Hx & ->).
  assert (Hl : is_live ttl (s_now s) e = true) by (apply (Ht (m_chunk r) e He); left; exists (m_conn r), x; split_and!; [done|done|by left]).
  destruct (T3 _ _ _ _ Hx Hyo Hyk He) as (a & g & Hh & Ha & Hg). exists a, g, (s_now s - e_at e). split_and!; [done|lia|lia|].
  intros n sc fl cs fs E. rewrite (meters_snoc _ _ _ _ _ _ _ _ Hr Hn), E. cbn [metered]. rewrite Hp. unfold finish_reservation, get_live. rewrite He, Hl. destruct b; cbn; by destruct (m_report r).
Qed.
End times.
Lemma run_to_det cfg ok ok' s tr s1 s2 : run_to cfg ok s tr s1 -> run_to cfg ok' s tr s2 -> s1 = s2.
Proof.
  intros H. revert s2. induction H as [|tr s1 l s1' o _ IH _ [_ Hn]]; intros s2 H2.
  - inversion H2 as [|tr' s' l' s2' o' _ _ _ E]; [done|]. by destruct tr'.
  - destruct (run_snoc_inv _ _ _ _ _ _ _ H2) as (s' & H' & _ & [_ Hn']). rewrite (IH _ H') in Hn. congruence.
Qed.
