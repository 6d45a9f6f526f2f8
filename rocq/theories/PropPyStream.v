(** C92: the iterators over the results of a submission. *)
From Verif Require Import PyStreamProofs.
Local Open Scope N_scope.

(** However many threads or tasks use an iterator and whichever calls are cancelled: no result is returned twice, and only those
    of the submission's chunks are. *)
Theorem C92_once base prefix total tr out s :
  srun base prefix total anything tr out s -> NoDup (indices out) /\ Forall (fun i => i < total) (indices out).
Proof. apply indices_once. Qed.

(** A loop (one call after the other, no cancellation) gets the results in order, each of which is what is stored as the
    output of its chunk, and then the end. *)
Theorem C92_in_order_partial base prefix total o tr out s :
  srun base prefix total (plain_loop o) tr out s ->
  exists panics, out.*2 `prefix_of`
    ((fun x => Element x.1 x.2) <$> zip (N.of_nat <$> seq 0 (N.to_nat total)) (retrieve_chunks base prefix total Output (fun _ => o))) ++
    Stop :: replicate panics Panic.
Proof. rewrite <- outcomes_all. apply loop_prefix. Qed.

(** Threads that share an iterator get, between them, every result. *)
Theorem C92_threads_partial base prefix total tr out s k i :
  srun base prefix total not_cancelled tr out s ->
  t_callers s = ∅ -> (k, Stop) ∈ out -> i < total -> i ∈ indices out.
Proof. intros Hr. by eapply none_lost. Qed.

(** What is missing is false. If a call is cancelled while its task runs (asyncio.wait_for), the task takes the next result
    all the same and nobody gets it: the iteration goes on after it and ends as usual. *)
Theorem C92_cancel_refuted base prefix total o i : i < total ->
  exists tr out s k, srun base prefix total one_by_one tr out s /\
    cancelled tr = [i] /\
    t_callers s = ∅ /\ (k, Stop) ∈ out /\
    indices out = N.of_nat <$> (seq 0 (N.to_nat i) ++ seq (S (N.to_nat i)) (N.to_nat total - S (N.to_nat i))) /\
    Forall (fun x => x.2 <> Panic) out /\
    SFetch i o ∈ tr.
Proof.
  intros Hi. assert (Hok : forall s l, plain_loop o s l -> one_by_one s l) by (intros s l H; apply H).
  destruct (call_many base prefix total o one_by_one 0 0 (N.to_nat i) [] [] stream_new Hok ltac:(constructor) ready_new ltac:(lia)) as (tr1 & s1 & out1 & Hr1 & Hs1 & Hc1 & Ho1).
  rewrite N2Nat.id in Hs1. replace (0 + i) with i in Hs1 by lia. cbn [app] in Hr1.
  assert (Hr2 : exists s2, srun base prefix total one_by_one (((((tr1 ++ [SCall i]) ++ [SLock i]) ++ [SCancel i]) ++ [SFetch i o])) out1 s2 /\ ready (i + 1) false (i + 1) s2).
  { destruct Hs1 as (H1 & H2 & H3 & H4 & H5). destruct s1 as [next ended lock jobs callers]. cbn in *. subst.
    exists (Stream (i + 1) false None (<[i := Finished (Element i (retrieve_chunk base prefix i Output o))]> (<[i := Fetching]> (<[i := Queued]> jobs))) (({[i]} ∪ ∅) ∖ {[i]})). split.
    - replace out1 with ((((out1 ++ []) ++ []) ++ []) ++ []) by (by rewrite !app_nil_r).
      econstructor; [econstructor; [econstructor; [econstructor; [exact Hr1|done|]|done|]|done|]|done|].
      + cbn. rewrite (H5 i) by lia. reflexivity.
      + cbn. rewrite lookup_insert. reflexivity.
      + cbn. rewrite bool_decide_eq_true_2 by set_solver. reflexivity.
      + cbn. rewrite bool_decide_eq_true_2 by done. unfold stream_step. destruct (total <=? i) eqn:E; [apply N.leb_le in E; lia|]. reflexivity.
    - split_and!; cbn; try done; [set_solver|]. intros k Hk. rewrite !lookup_insert_ne by lia. apply H5. lia. }
  destruct Hr2 as (s2 & Hr2 & Hs2).
  destruct (call_many base prefix total o one_by_one _ _ (N.to_nat total - S (N.to_nat i)) _ _ _ Hok Hr2 Hs2 ltac:(lia)) as (tr3 & s3 & out3 & Hr3 & Hs3 & Hc3 & Ho3).
  destruct (call_once base prefix total o one_by_one _ _ _ _ _ _ Hok Hr3 Hs3) as (tr4 & s4 & Hr4 & Hs4 & Hc4).
  assert (El : total <=? i + 1 + N.of_nat (N.to_nat total - S (N.to_nat i)) = true) by (apply N.leb_le; lia).
  unfold stream_step in Hr4. rewrite El in Hr4. cbn [fst snd] in Hr4.
  eexists _, _, s4, _. split; [exact Hr4|].
  assert (Hnone : forall tr', Forall (fun l => match l with SCancel _ => False | _ => True end) tr' -> cancelled tr' = []).
  { intros tr'. induction 1 as [|l tr' Hl _ IH]; [done|]. unfold cancelled. cbn. by destruct l. }
  assert (Hidx : forall (l : list (N * got)) q, l.*2 = outcome base prefix o <$> q -> indices l = N.of_nat <$> q).
  { intros l q. revert l. induction q as [|a q IH]; intros [|[k g] l] E; try done. cbn in E. simplify_eq. unfold indices. cbn. f_equal. by apply IH. }
  assert (Hnp : forall (l : list (N * got)) q, l.*2 = outcome base prefix o <$> q -> Forall (fun x => x.2 <> Panic) l).
  { intros l q. revert l. induction q as [|a q IH]; intros [|[k g] l] E; try done. cbn in E. simplify_eq. constructor; [done|]. by apply IH. }
  split; [|split; [|split; [|split; [|split]]]].
  - unfold cancelled. rewrite !omap_app. fold (cancelled tr1) (cancelled tr3) (cancelled tr4). by rewrite (Hnone _ Hc1), (Hnone _ Hc3), (Hnone _ Hc4).
  - apply Hs4.
  - apply elem_of_app. right. by left.
  - unfold indices. rewrite !omap_app. fold (indices out1) (indices out3). rewrite (Hidx _ _ Ho1), (Hidx _ _ Ho3). cbn. rewrite app_nil_r, fmap_app.
    by replace (N.to_nat (i + 1)) with (S (N.to_nat i)) by lia.
  - apply Forall_app. split; [apply Forall_app; split; by eapply Hnp|]. by repeat constructor.
  - rewrite !elem_of_app. left. left. right. by left.
Qed.

(** Nor is the end told more than once: every call after it panics, ... *)
Theorem C92_after_end_refuted base prefix total o :
  exists tr out s, srun base prefix total (plain_loop o) tr out s /\
    out.*2 = ((fun x => Element x.1 x.2) <$> zip (N.of_nat <$> seq 0 (N.to_nat total)) (retrieve_chunks base prefix total Output (fun _ => o))) ++ [Stop; Panic].
Proof.
  assert (Hok : forall s l, plain_loop o s l -> plain_loop o s l) by done.
  destruct (call_many base prefix total o (plain_loop o) 0 0 (N.to_nat total) [] [] stream_new Hok ltac:(constructor) ready_new ltac:(lia)) as (tr1 & s1 & out1 & Hr1 & Hs1 & _ & Ho1).
  destruct (call_once base prefix total o (plain_loop o) _ _ _ _ _ _ Hok Hr1 Hs1) as (tr2 & s2 & Hr2 & Hs2 & _).
  assert (El : total <=? 0 + N.of_nat (N.to_nat total) = true) by (apply N.leb_le; lia).
  unfold stream_step in Hr2, Hs2. rewrite El in Hr2, Hs2. cbn [fst snd] in Hr2, Hs2.
  destruct (call_once base prefix total o (plain_loop o) _ _ _ _ _ _ Hok Hr2 Hs2) as (tr3 & s3 & Hr3 & Hs3 & _). cbn [stream_step fst snd] in Hr3.
  eexists _, _, _. split; [exact Hr3|]. rewrite <- outcomes_all. rewrite !fmap_app. cbn [app fmap list_fmap snd]. rewrite Ho1. unfold outcomes. cbn. by rewrite <- app_assoc.
Qed.
(** ... so of threads that share an iterator only one comes to a regular end. *)
Theorem C92_one_end base prefix total tr out s k k' :
  srun base prefix total anything tr out s -> (k, Stop) ∈ out -> (k', Stop) ∈ out -> k = k'.
Proof. apply stop_once. Qed.

(** Two threads, three results of which the second is missing in the object store. *)
Definition ex_store : objects := <[ "b/p/0-out.bin" := "x" ]> (<[ "b/p/2-out.bin" := "z" ]> ∅).
Fixpoint sall (tr : list slabel) (s : stream) (out : list (N * got)) : option (stream * list (N * got)) :=
  match tr with [] => Some (s, out) | l :: tr => match snext "b" "p" 3 l s with Some (s', o) => sall tr s' (out ++ o) | None => None end end.
Example C92_example :
  match sall [SCall 1; SCall 2; SLock 2; SFetch 2 ex_store; SLock 1; SFetch 1 ex_store; SReturn 1; SCall 3; SReturn 2; SLock 3; SCall 4; SFetch 3 ex_store; SReturn 3;
              SLock 4; SFetch 4 ex_store; SReturn 4] stream_new [] with
  | Some (s, out) => out = [(1, Element 1 None); (2, Element 0 (Some "x")); (3, Element 2 (Some "z")); (4, Stop)] /\ bool_decide (t_callers s = ∅) = true
  | None => False
  end.
Proof. by vm_compute. Qed.

Print Assumptions C92_once.
Print Assumptions C92_in_order_partial.
Print Assumptions C92_threads_partial.
Print Assumptions C92_cancel_refuted.
Print Assumptions C92_after_end_refuted.
Print Assumptions C92_one_end.
