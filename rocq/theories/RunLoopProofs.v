(** Proofs about the loop of Python consumers. *)
From Verif Require Export RunLoop.
Local Open Scope N_scope.

(** What is to be reported for a result of the function. *)
Definition report_of (r : fun_result) : report := match r with Output o => Complete o | Raises _ t => Fail t end.
(** The calls among the events. *)
Definition call_of (e : loop_event) : option (chunk_id * fun_result) := match e with Calls c r => Some (c, r) | _ => None end.
(** The chunks reserved in a round, with what the function gives for them. *)
Definition reserved (r : round) : list (chunk_id * fun_result) := match r with Reserved l => l.*1 | _ => [] end.
(** A round that ends the loop: a signal while waiting or sending; or an exception of the function
    that is no Exception, or a SystemError, if the failure could be reported. *)
Definition ending (x : chunk_id * fun_result * sent) : Prop :=
  match x with
  | (_, _, Interrupted) => True
  | (_, Raises BaseOnly _, Sent) | (_, Raises SystemError _, Sent) => True
  | _ => False
  end.
(** Rounds as the server gives them: it gives at most the one chunk that is asked for, and the
    client waits until there is one. *)
Definition one_chunk (r : round) : Prop := match r with Reserved l => length l = 1%nat | _ => True end.
Definition ends_loop (r : round) : Prop :=
  match r with ReserveFails => False | ReserveInterrupted => True | Reserved l => Exists ending l end.

(** Alternating calls and reports. *)
Fixpoint paired (es : list loop_event) : Prop :=
  match es with
  | [] => True
  | Calls c r :: Reports c' p :: es => c' = c /\ p = report_of r /\ paired es
  | Calls _ _ :: _ | Reports _ _ :: _ => False
  | _ :: es => paired es
  end.
Lemma paired_app es es' : paired es -> paired es' -> paired (es ++ es').
Proof.
  intros H H'. assert (G : forall n es, (length es <= n)%nat -> paired es -> paired (es ++ es')).
  { clear es H. induction n as [|n IH]; intros es L H; [by destruct es; [|simpl in L; lia]|].
    destruct es as [|[c r|c p|m|] es]; [done| |done|simpl; apply IH; [simpl in L; lia|done]|simpl; apply IH; [simpl in L; lia|done]].
    destruct es as [|[c' r'|c' p'|m|] es]; try done. destruct H as (-> & -> & H). simpl. split_and!; [done|done|]. apply IH; [simpl in L; lia|done]. }
  by apply (G (length es)).
Qed.
Lemma batch_paired l k : paired (batch k l).1.
Proof.
  revert k. induction l as [|[[c r] s] l IH]; intros k; [done|]. simpl.
  assert (N : forall d, paired ((if d mod 50 =? 0 then [LogsProgress d] else []) ++ (batch d l).1)).
  { intros d. apply paired_app; [by case_match|apply IH]. }
  specialize (N (saturating_add k 1)). destruct (batch (saturating_add k 1) l) as [es o] eqn:E. simpl in N.
  destruct r as [content|[| |] text], s; simpl; (split_and!; [done|done|done]).
Qed.
Lemma loop_paired rs k : paired (run_loop k rs).
Proof.
  revert k. induction rs as [|r rs IH]; intros k; [done|]. simpl.
  assert (P : paired (compute_chunk_outcome k r).1) by (destruct r; [done|done|apply batch_paired]).
  destruct (compute_chunk_outcome k r) as [es o]. destruct o; apply paired_app; done || apply IH.
Qed.
Lemma paired_next es i c r : paired es -> es !! i = Some (Calls c r) -> es !! S i = Some (Reports c (report_of r)).
Proof.
  revert i. assert (G : forall n es, (length es <= n)%nat -> forall i, paired es -> es !! i = Some (Calls c r) -> es !! S i = Some (Reports c (report_of r))).
  { clear es. induction n as [|n IH]; intros es L i H E; [by destruct es; [|simpl in L; lia]|].
    destruct es as [|[c1 r1|c1 p1|m|] es]; [done| |done| |].
    - destruct es as [|[c' r'|c' p'|m|] es]; try done. destruct H as (-> & -> & H). destruct i as [|[|i]]; [by injection E as -> ->|done|].
      apply (IH es) in E; [done|simpl in L; lia|done].
    - destruct i as [|i]; [done|]. by apply (IH es) in E; [|simpl in L; lia|].
    - destruct i as [|i]; [done|]. by apply (IH es) in E; [|simpl in L; lia|]. }
  intros i. by apply (G (length es)).
Qed.
Lemma paired_before es j c p : paired es -> es !! j = Some (Reports c p) -> exists i r, j = S i /\ es !! i = Some (Calls c r).
Proof.
  revert j. assert (G : forall n es, (length es <= n)%nat -> forall j, paired es -> es !! j = Some (Reports c p) -> exists i r, j = S i /\ es !! i = Some (Calls c r)).
  { clear es. induction n as [|n IH]; intros es L i H E; [by destruct es; [|simpl in L; lia]|].
    destruct es as [|[c1 r1|c1 p1|m|] es]; [done| |done| |].
    - destruct es as [|[c' r'|c' p'|m|] es]; try done. destruct H as (-> & -> & H). destruct i as [|[|i]]; [done|injection E as -> <-; by exists 0%nat, r1|].
      apply (IH es) in E as (k & r & -> & E); [|simpl in L; lia|done]. by exists (S (S k)), r.
    - destruct i as [|i]; [done|]. apply (IH es) in E as (k & r & -> & E); [|simpl in L; lia|done]. by exists (S k), r.
    - destruct i as [|i]; [done|]. apply (IH es) in E as (k & r & -> & E); [|simpl in L; lia|done]. by exists (S k), r. }
  intros j. by apply (G (length es)).
Qed.

(** What a batch calls and how it ends. *)
Lemma batch_one k x : let '(es, o) := batch k [x] in
  omap call_of es = [x.1] /\ (o = Fatal <-> ending x) /\ (forall d, o = Done d -> d = saturating_add k 1) /\
  (LoopEnds ∉ es) /\ (forall n, LogsProgress n ∈ es -> n = saturating_add k 1 /\ n mod 50 = 0).
Proof.
  destruct x as [[c r] s]. simpl.
  destruct (saturating_add k 1 mod 50 =? 0) eqn:E; destruct r as [content|[| |] text], s; simpl; split_and!; try done;
    try (intros d [= <-]; done); try (intros H; repeat (apply elem_of_cons in H as [H|H]; [discriminate|]); by apply elem_of_nil in H);
    intros n H; repeat (apply elem_of_cons in H as [H|H]; [try discriminate H; try (injection H as ->; split; [done|by apply N.eqb_eq])|]); by apply elem_of_nil in H.
Qed.
Lemma omap_call_app es es' : omap call_of (es ++ es') = omap call_of es ++ omap call_of es'.
Proof. apply omap_app. Qed.
Lemma outcome_one k r : one_chunk r -> let '(es, o) := compute_chunk_outcome k r in
  omap call_of es = reserved r /\ (o = Fatal <-> ends_loop r) /\ (forall d, o = Done d -> d = saturating_add k 1) /\
  LoopEnds ∉ es /\ (forall n, LogsProgress n ∈ es -> n = saturating_add k 1 /\ n mod 50 = 0).
Proof.
  destruct r as [| |l]; simpl; [intros _; split_and!; try done; set_solver|intros _; split_and!; try done; set_solver|].
  destruct l as [|x [|? ?]]; try done. intros _. pose proof (batch_one k x) as H. destruct (batch k [x]) as [es o].
  destruct H as (H1 & H2 & H3 & H4 & H5). split_and!; try done. rewrite H2, Exists_cons, Exists_nil. naive_solver.
Qed.
Lemma loop_calls k rs : Forall one_chunk rs -> (forall r, r ∈ rs -> ~ ends_loop r) ->
  omap call_of (run_loop k rs) = concat (reserved <$> rs) /\ LoopEnds ∉ run_loop k rs.
Proof.
  intros H. revert k. induction H as [|r rs Hr H IH]; intros k N; [split; [done|set_solver]|]. simpl.
  pose proof (outcome_one k r Hr) as O. destruct (compute_chunk_outcome k r) as [es o]. destruct O as (O1 & O2 & O3 & O4 & _).
  destruct o as [d| |].
  - destruct (IH (saturating_add k d)) as [I1 I2]; [intros x Hx; apply N; by right|]. rewrite omap_call_app, O1, I1. split; [done|]. set_solver.
  - exfalso. apply (N r); [by left|by apply O2].
  - destruct (IH k) as [I1 I2]; [intros x Hx; apply N; by right|]. rewrite omap_call_app, O1, I1. split; [done|]. set_solver.
Qed.
Lemma loop_stops k rs1 r rs2 : Forall one_chunk (rs1 ++ [r]) -> (forall x, x ∈ rs1 -> ~ ends_loop x) -> ends_loop r ->
  exists es, run_loop k (rs1 ++ r :: rs2) = es ++ [LoopEnds] /\ LoopEnds ∉ es /\ omap call_of es = concat (reserved <$> rs1 ++ [r]).
Proof.
  revert k. induction rs1 as [|x rs1 IH]; intros k H N E; simpl in *.
  - apply Forall_cons in H as [Hr _]. pose proof (outcome_one k r Hr) as O. destruct (compute_chunk_outcome k r) as [es o].
    destruct O as (O1 & O2 & O3 & O4 & _). apply O2 in E as ->. exists es. rewrite app_nil_r. done.
  - apply Forall_cons in H as [Hx H]. pose proof (outcome_one k x Hx) as O. destruct (compute_chunk_outcome k x) as [es o].
    destruct O as (O1 & O2 & O3 & O4 & _). destruct o as [d| |].
    + destruct (IH (saturating_add k d)) as (es' & -> & I1 & I2); [done|intros y Hy; apply N; by right|done|].
      exists (es ++ es'). rewrite app_assoc, omap_call_app, O1, I2. split; [done|]. split; [set_solver|done].
    + exfalso. apply (N x); [by left|by apply O2].
    + destruct (IH k) as (es' & -> & I1 & I2); [done|intros y Hy; apply N; by right|done|].
      exists (es ++ es'). rewrite app_assoc, omap_call_app, O1, I2. split; [done|]. split; [set_solver|done].
Qed.

(** The count is 2^j - 1. *)
Lemma count_next j : (j <= 64)%nat -> let k := 2^N.of_nat j - 1 in
  saturating_add k 1 mod 50 <> 0 /\ exists j', (j' <= 64)%nat /\ saturating_add k (saturating_add k 1) = 2^N.of_nat j' - 1.
Proof.
  intros Hj. apply Nat.le_lteq in Hj as [Hj| ->].
  - split; [|exists (S j); split; [lia|]]; do 64 (destruct j as [|j]; [by vm_compute|]); lia.
  - split; [by vm_compute|]. exists 64%nat. split; [lia|]. by vm_compute.
Qed.
Lemma no_progress rs n : Forall one_chunk rs -> LogsProgress n ∉ run_per_chunk rs.
Proof.
  unfold run_per_chunk. intros H. cut (forall j, (j <= 64)%nat -> LogsProgress n ∉ run_loop (2^N.of_nat j - 1) rs).
  { intros G. exact (G 0%nat ltac:(lia)). }
  induction H as [|r rs Hr H IH]; intros j Hj; [set_solver|]. simpl.
  pose proof (outcome_one (2^N.of_nat j - 1) r Hr) as O. destruct (count_next j Hj) as (M & j' & Hj' & E).
  destruct (compute_chunk_outcome _ r) as [es o]. destruct O as (_ & _ & O3 & _ & O5).
  assert (Ne : LogsProgress n ∉ es) by (intros [-> ?]%O5; done).
  destruct o as [d| |]; rewrite elem_of_app; (intros [?|G]; [done|]).
  - rewrite (O3 d eq_refl), E in G. by apply (IH j' Hj').
  - apply elem_of_list_singleton in G. done.
  - by apply (IH j Hj).
Qed.
Lemma first_end rs : (forall r, r ∈ rs -> ~ ends_loop r) \/
  exists rs1 r rs2, rs = rs1 ++ r :: rs2 /\ (forall x, x ∈ rs1 -> ~ ends_loop x) /\ ends_loop r.
Proof.
  assert (D : forall x, ending x \/ ~ ending x) by (intros [[c [?|[| |] ?]] [| |]]; simpl; tauto).
  assert (D' : forall r, ends_loop r \/ ~ ends_loop r).
  { intros [| |l]; simpl; [tauto|tauto|]. induction l as [|x l [IH|IH]].
    - right. rewrite Exists_nil. tauto.
    - left. by apply Exists_cons; right.
    - destruct (D x) as [?|?]; [left; by apply Exists_cons; left|right]. rewrite Exists_cons. tauto. }
  induction rs as [|r rs IH]; [left; set_solver|]. destruct (D' r) as [Hr|Hr].
  - right. exists [], r, rs. split_and!; [done|set_solver|done].
  - destruct IH as [IH|(rs1 & x & rs2 & -> & H1 & H2)].
    + left. intros x [->|Hx]%elem_of_cons; [done|by apply IH].
    + right. exists (r :: rs1), x, rs2. split_and!; [done| |done]. intros y [->|Hy]%elem_of_cons; [done|by apply H1].
Qed.
