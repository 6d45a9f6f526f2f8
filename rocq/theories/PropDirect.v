(** C102: submissions sent with the contents of their chunks, through the Python API. *)
From Verif Require Import Ids PyDirect ProducerClientProofs LookupProofs PropQueue PropClients PyApiProofs.
From Verif Require Import ChunkDb.
Local Open Scope N_scope.

(** An insert call that fails, no reply being lost, has stored nothing. *)
Lemma insert_call_fails c m st z : (0 < length (contents_of c).2)%nat -> forall n l h e d' k,
  call_from (PInsert c m st z) n (after h) l = Some (inl e, d', k) ->
  fresh_ids (h ++ attempt_events (insert_op c m st z) (take k l)) -> Forall replied (take k l) ->
  exists h0, d' = after (h ++ h0) /\ fresh_ids (h ++ h0) /\
    (forall id', id' ∈ inserted_ids h0 -> id' ∈ inserted_ids (attempt_events (insert_op c m st z) (take k l))) /\
    forall id', id' ∈ attempt_ids (take k l) -> id' ∉ inserted_ids (h ++ h0).
Proof.
  intros Hlen n l. revert n. induction l as [|a l IH]; intros n h e d' k H Hf Hr; [done|].
  destruct k as [|k]; [apply call_spec in H as ([H _] & _); lia|]. cbn [take] in *.
  apply Forall_cons in Hr as [Hra Hr]. rewrite attempt_events_cons in Hf. cbn [call_from] in H.
  assert (Hstop : d' = after h -> attempt_ids (a :: take k l) = [] ->
    exists h0, d' = after (h ++ h0) /\ fresh_ids (h ++ h0) /\
    (forall id', id' ∈ inserted_ids h0 -> id' ∈ inserted_ids (attempt_events (insert_op c m st z) (a :: take k l))) /\
    forall id', id' ∈ attempt_ids (a :: take k l) -> id' ∉ inserted_ids (h ++ h0)).
  { intros -> Ha. exists []. rewrite app_nil_r. split; [done|]. split; [by eapply fresh_prefix|]. split.
    - intros id' Hid. by apply elem_of_nil in Hid.
    - rewrite Ha. intros id' Hid. by apply elem_of_nil in Hid. }
  destruct a as [e0|c0|s].
  - cbn [attempt_run outcome] in H. destruct (is_ephemeral (CHttp e0)).
    + destruct n as [|n]; [injection H as _ <- <-; apply Hstop; [done|by cbn; rewrite take_0]|].
      destruct (call_from _ n (after h) l) as [[[r0 d0] k0]|] eqn:Ec; [|done]. injection H as -> -> ->. cbn [app] in Hf.
      exact (IH n h e d' k Ec Hf Hr).
    + injection H as _ <- <-. apply Hstop; [done|by cbn; rewrite take_0].
  - cbn [attempt_run outcome] in H.
    destruct (if (400 <=? c0) && (c0 <? 600) then inl (CStatus c0) else _) as [x|x] eqn:Ex; [|done].
    destruct (is_ephemeral x).
    + destruct n as [|n]; [injection H as _ <- <-; apply Hstop; [done|by cbn; rewrite take_0]|].
      destruct (call_from _ n (after h) l) as [[[r0 d0] k0]|] eqn:Ec; [|done]. injection H as -> -> ->. cbn [app] in Hf.
      exact (IH n h e d' k Ec Hf Hr).
    + injection H as _ <- <-. apply Hstop; [done|by cbn; rewrite take_0].
  - destruct (insert_attempt c m st z s (after h) Hra) as (r & Ha & E). rewrite E in H. rewrite insert_outcome in H by eauto.
    rewrite run_after in *. set (ev := Event (insert_op c m st z s) (sv_faults s) (sv_crash s)) in *.
    assert (Hfe : fresh_ids ((h ++ sv_others s) ++ [ev])).
    { rewrite !app_assoc in Hf. by eapply fresh_prefix. }
    assert (Hnot : forall h1 h2, fresh_ids (h1 ++ [ev] ++ h2) -> sv_id s ∉ inserted_ids h1 /\ sv_id s ∉ inserted_ids h2).
    { clear. intros h1 h2. unfold fresh_ids, inserted_ids. rewrite !omap_app, !NoDup_app. intros (_ & H1 & _ & H2 & _).
      split; [intros Hx; apply (H1 _ Hx); rewrite elem_of_app; left; left|apply H2; left]. }
    destruct (match r with Ok _ => true | _ => false end) eqn:Eok; [by destruct r|].
    assert (E0 : after ((h ++ sv_others s) ++ [ev]) = after (h ++ sv_others s)).
    { apply (insert_refused _ ev (sv_id s) _ _ _ _ _ _ _ r Hfe eq_refl); [lia|done|by destruct r]. }
    assert (E1 : match r with Ok id => inr (BId id) | Err _ | Panicked => inl (CStatus 500) end = (inl (CStatus 500) : client_err + body)) by (by destruct r).
    rewrite E1 in H. cbn [is_ephemeral] in H. change ((500 <=? 500) && (500 <? 600)) with true in H.
    rewrite <- after_snoc, E0 in H.
    destruct n as [|n].
    + injection H as _ <- <-. exists (sv_others s). split; [done|]. split; [by eapply fresh_prefix|]. split.
      * intros id' Hid. rewrite attempt_events_cons. unfold inserted_ids in *. rewrite !omap_app. rewrite !elem_of_app. by left; left.
      * rewrite take_0. cbn [attempt_ids omap list_omap]. intros id' ->%elem_of_list_singleton.
        apply (Hnot (h ++ sv_others s) []). by rewrite app_nil_r.
    + destruct (call_from _ n (after (h ++ sv_others s)) l) as [[[r0 d0] k0]|] eqn:Ec; [|done]. injection H as -> -> ->.
      assert (Hf' : fresh_ids ((h ++ sv_others s) ++ attempt_events (insert_op c m st z) (take k l))).
      { apply (fresh_drop _ ev). rewrite <- !app_assoc in *. exact Hf. }
      destruct (IH n (h ++ sv_others s) e d' k Ec Hf' Hr) as (h0 & H1 & H2 & H3 & H4).
      exists (sv_others s ++ h0). rewrite app_assoc. split; [done|]. split; [done|]. split.
      { intros id' Hid. rewrite attempt_events_cons. unfold inserted_ids in *. rewrite !omap_app in *. rewrite !elem_of_app in *.
        destruct Hid as [Hid|Hid]; [by left; left|]. right. by apply H3. }
      cbn [attempt_ids omap list_omap]. intros id' [->|Hid]%elem_of_cons; [|by apply H4].
      destruct (Hnot (h ++ sv_others s) (attempt_events (insert_op c m st z) (take k l))) as [N1 N2]; [rewrite <- !app_assoc in *; exact Hf|].
      unfold inserted_ids. rewrite omap_app, elem_of_app. intros [Hin|Hin]; [by apply N1|]. by apply N2, H3.
Qed.

(** An insert call that succeeds returns an id. *)
Lemma insert_call_id c m st z : forall n l h b d' k, Forall replied (take k l) ->
  call_from (PInsert c m st z) n (after h) l = Some (inr b, d', k) -> exists id, b = BId id.
Proof.
  intros n l. revert n. induction l as [|a l IH]; intros n h b d' k Hr H; [done|].
  destruct k as [|k]; [apply call_spec in H as ([H _] & _); lia|]. cbn [take] in Hr. apply Forall_cons in Hr as [Hra Hr]. cbn [call_from] in H.
  destruct a as [e0|c0|s].
  - cbn [attempt_run outcome] in H. destruct (is_ephemeral (CHttp e0)); [|done]. destruct n as [|n]; [done|].
    destruct (call_from _ n (after h) l) as [[[r0 d0] k0]|] eqn:Ec; [|done]. injection H as -> -> ->. exact (IH n h b d' k Hr Ec).
  - cbn [attempt_run outcome] in H. destruct (if (400 <=? c0) && (c0 <? 600) then inl (CStatus c0) else _) as [x|x] eqn:Ex; [|by destruct ((400 <=? c0) && (c0 <? 600))].
    destruct (is_ephemeral x); [|done]. destruct n as [|n]; [done|].
    destruct (call_from _ n (after h) l) as [[[r0 d0] k0]|] eqn:Ec; [|done]. injection H as -> -> ->. exact (IH n h b d' k Hr Ec).
  - destruct (insert_attempt c m st z s (after h) Hra) as (r & Ha & E). rewrite E in H. rewrite insert_outcome in H by eauto.
    destruct r as [id0|er|]; [injection H as <- _ _; by exists id0|..].
    all: cbn [is_ephemeral] in H; change ((500 <=? 500) && (500 <? 600)) with true in H; destruct n as [|n]; [done|].
    all: rewrite run_after, <- after_snoc in H.
    all: destruct (call_from _ n _ l) as [[[r0 d0] k0]|] eqn:Ec; [|done]; injection H as -> -> ->; exact (IH n _ b d' k Hr Ec).
Qed.
(** The ids do not depend on the size. *)
Lemma attempt_inserted c m st z l : inserted_ids (attempt_events (insert_op c m st z) l) =
  (a ← l; match a with NotServed _ | Intercepted _ => [] | Served s => inserted_ids (sv_others s) ++ [sv_id s] end).
Proof.
  induction l as [|a l IH]; [done|]. rewrite attempt_events_cons, bind_cons. unfold inserted_ids in *. rewrite omap_app, IH.
  destruct a as [e0|c0|s]; [done..|]. rewrite omap_app. done.
Qed.
Lemma attempt_ids_inserted c m st z l id : id ∈ attempt_ids l -> id ∈ inserted_ids (attempt_events (insert_op c m st z) l).
Proof.
  rewrite attempt_inserted. unfold attempt_ids. rewrite elem_of_list_omap. intros (a & Ha & E). apply elem_of_list_bind. exists a. split; [|done].
  destruct a as [e0|c0|s]; [done..|]. injection E as <-. apply elem_of_app. right. by apply elem_of_list_singleton.
Qed.

(** ** C102 *)
(** The events of the server in a call with the given arguments. *)
Definition direct_events (contents : list content) (meta : option string) (strat : option strat_map) (size : option N) (attempts : list attempt) : history :=
  attempt_events (insert_op (Direct contents) meta (default ∅ strat) (Z.of_N <$> size)) attempts.
(** If the call returns an id, that submission is in progress with the contents, metadata and size that
    were given (1 if none), and its chunks wait for consumers with the contents in order: provided
    that the size is below 2^63 and that no reply gets lost (see C43). *)
Theorem C102_stored_partial : forall h contents meta strat size attempts id d', contents <> [] ->
  (forall n, size = Some n -> n < 2 ^ 63) -> Forall replied attempts ->
  fresh_ids (h ++ direct_events contents meta strat size attempts) ->
  py_insert_submission_direct contents meta strat size attempts (after h) = Some (Returns id, d') ->
  (exists ot, reports d' id (InProgress (Submission id None (N.of_nat (length contents)) 0 (Z.of_N (default 1 size)) meta (default ∅ strat) ot))) /\
  forall i, waiting d' (id, i) = (fun x => Chunk id i x 0) <$> contents !! N.to_nat i.
Proof.
  intros h contents meta strat size attempts id d' Hne Hsz Hr Hf H. unfold py_insert_submission_direct in H.
  assert (Ez : cast_signed <$> size = Z.of_N <$> size).
  { destruct size as [n|]; [|done]. cbn. unfold cast_signed. by rewrite (proj2 (N.ltb_lt _ _) (Hsz n eq_refl)). }
  rewrite Ez in H. destruct (call _ _ _) as [[[[e|b] d1] k]|] eqn:Ec; [done| |done]. destruct b; try done. injection H as -> ->.
  set (c := Direct contents) in *. set (st := default ∅ strat) in *. set (z := Z.of_N <$> size) in *.
  assert (Hlen : (0 < length (contents_of c).2)%nat) by (cbn; destruct contents; [done|cbn; lia]).
  assert (Hf' : fresh_ids (h ++ attempt_events (insert_op c meta st z) (take k attempts))).
  { unfold direct_events in Hf. fold c st z in Hf. rewrite <- (take_drop k attempts) in Hf. unfold attempt_events in *.
    rewrite bind_app, app_assoc in Hf. by eapply fresh_prefix. }
  assert (Hr' : Forall replied (take k attempts)) by by apply Forall_take.
  destruct (insert_call c meta st z Hlen _ _ _ _ _ _ Ec Hf' Hr') as (h0 & e & s & -> & Hf0 & Eo & Es & Ha & _).
  rewrite app_assoc in Hf0 |- *. unfold insert_op in Eo. rewrite Es in Eo.
  rewrite (insert_answered _ _ _ _ _ _ _ _ _ _ _ Hf0 Eo Ha). rewrite Eo.
  assert (Hq : fresh_ids ((h ++ h0) ++ [quiet (OInsert id (contents_of c).1 (contents_of c).2 meta st (default 1%Z z) (sv_otel s) (sv_n1 s))])).
  { unfold fresh_ids, inserted_ids in *. rewrite omap_app in *. simpl in *. unfold History.insert_id in Hf0. rewrite Eo in Hf0. done. }
  destruct (insert_quiet _ _ _ _ _ _ _ _ _ Hq) as (_ & H & Hw). split; [|exact Hw]. exists (sv_otel s).
  replace (Z.of_N (default 1 size)) with (default 1%Z z) by (by destruct size). by destruct contents.
Qed.
Print Assumptions C102_stored_partial.
(** If the call raises, the exception is an internal error, and nothing was stored: the ids that
    the server drew are unknown. *)
Theorem C102_nothing_stored : forall h contents meta strat size attempts x text d', contents <> [] ->
  Forall replied attempts -> fresh_ids (h ++ direct_events contents meta strat size attempts) ->
  py_insert_submission_direct contents meta strat size attempts (after h) = Some (RaisesOwn x text, d') ->
  caught_by x OpsqueueInternalError /\ forall id, id ∈ attempt_ids attempts -> unknown d' id.
Proof.
  intros h contents meta strat size attempts x text d' Hne Hr Hf H. unfold py_insert_submission_direct in H.
  set (c := Direct contents) in *. set (st := default ∅ strat) in *. set (z := cast_signed <$> size) in *.
  destruct (call (PInsert c meta st z) (after h) attempts) as [[[r d1] k]|] eqn:Ec; [|done].
  assert (Hr' : Forall replied (take k attempts)) by by apply Forall_take.
  assert (Hx : x = InternalProducerClientError /\ d1 = d' /\ exists e, r = inl e).
  { destruct r as [e|b]; [injection H as <- _ <-; eauto|]. destruct (insert_call_id c meta st z _ _ _ _ _ _ Hr' Ec) as [id ->]. done. }
  destruct Hx as (-> & -> & e & ->). split; [by rewrite caught_by_b|].
  assert (Hlen : (0 < length (contents_of c).2)%nat) by (cbn; destruct contents; [done|cbn; lia]).
  assert (Hall : NoDup (inserted_ids h ++ inserted_ids (attempt_events (insert_op c meta st z) attempts))).
  { unfold fresh_ids, direct_events in Hf. fold c st in Hf. unfold inserted_ids in Hf at 1. rewrite omap_app in Hf.
    fold (inserted_ids h) in Hf. fold (inserted_ids (attempt_events (insert_op c meta st (Z.of_N <$> size)) attempts)) in Hf.
    rewrite attempt_inserted in Hf. by rewrite attempt_inserted. }
  assert (Hsplit : inserted_ids (attempt_events (insert_op c meta st z) attempts) =
    inserted_ids (attempt_events (insert_op c meta st z) (take k attempts)) ++ inserted_ids (attempt_events (insert_op c meta st z) (drop k attempts))).
  { rewrite !attempt_inserted, <- bind_app. by rewrite take_drop. }
  assert (Hf' : fresh_ids (h ++ attempt_events (insert_op c meta st z) (take k attempts))).
  { unfold fresh_ids, inserted_ids. rewrite omap_app. rewrite Hsplit, app_assoc in Hall. by apply NoDup_app in Hall as (Hall & _). }
  destruct (insert_call_fails c meta st z Hlen _ _ _ _ _ _ Ec Hf' Hr') as (h0 & -> & Hf0 & Hsub & Hno).
  intros id Hid. apply unknown_view. rewrite view_fresh; [done|done|].
  rewrite <- (take_drop k attempts) in Hid. unfold attempt_ids in Hid. rewrite omap_app, elem_of_app in Hid. destruct Hid as [Hid|Hid]; [by apply Hno|].
  apply (attempt_ids_inserted c meta st z) in Hid. rewrite Hsplit, app_assoc in Hall. apply NoDup_app in Hall as (_ & Hd & _).
  intros Hin. apply (Hd id); [|done]. unfold inserted_ids in Hin. rewrite omap_app, elem_of_app in Hin. apply elem_of_app.
  destruct Hin as [Hin|Hin]; [by left|right; by apply Hsub].
Qed.
Print Assumptions C102_nothing_stored.
(** What is missing is false: a size of 2^63 or more is stored as a negative number, *)
Theorem C102_size_refuted : forall h contents meta strat n attempts id d', contents <> [] -> 2 ^ 63 <= n < 2 ^ 64 ->
  Forall replied attempts -> fresh_ids (h ++ direct_events contents meta strat (Some n) attempts) ->
  py_insert_submission_direct contents meta strat (Some n) attempts (after h) = Some (Returns id, d') ->
  exists s, reports d' id (InProgress s) /\ (s_size s < 0)%Z.
Proof.
  intros h contents meta strat n attempts id d' Hne Hn Hr Hf H. unfold py_insert_submission_direct in H.
  set (c := Direct contents) in *. set (st := default ∅ strat) in *. cbn [fmap option_fmap option_map] in H.
  destruct (call _ _ _) as [[[[e|b] d1] k]|] eqn:Ec; [done| |done]. destruct b; try done. injection H as -> ->.
  assert (Hlen : (0 < length (contents_of c).2)%nat) by (cbn; destruct contents; [done|cbn; lia]).
  assert (Hf' : fresh_ids (h ++ attempt_events (insert_op c meta st (Some (cast_signed n))) (take k attempts))).
  { unfold fresh_ids, direct_events in *. fold c st in Hf. unfold inserted_ids in *. rewrite omap_app in *.
    fold (inserted_ids (attempt_events (insert_op c meta st (Z.of_N <$> Some n)) attempts)) in Hf.
    fold (inserted_ids (attempt_events (insert_op c meta st (Some (cast_signed n))) (take k attempts))).
    rewrite attempt_inserted in *. rewrite <- (take_drop k attempts), bind_app, app_assoc in Hf. by apply NoDup_app in Hf as (Hf & _). }
  destruct (C43_one_submission_partial h c meta st _ attempts id d' k Hlen Ec Hf' (Forall_take _ _ _ Hr)) as ((ot & Hrep) & _).
  eexists. split; [exact Hrep|]. cbn. unfold cast_signed. rewrite (proj2 (N.ltb_ge _ _) (proj1 Hn)). lia.
Qed.
Print Assumptions C102_size_refuted.
(** and the estimate of the backlog, which the autoscaler reads, is negative. *)
Theorem C102_backlog_refuted : exists attempts id d' z,
  py_insert_submission_direct [Some "x"%string] None None (Some (2 ^ 63)) attempts (after []) = Some (Returns id, d') /\
  fst (exec count_ops_in_backlog_estimate d' []) = Ok z /\ (z < 0)%Z.
Proof.
  exists [Served (Serving [] 10 1 "o" 5 5 [] None None None)], 1. eexists _, (- 2 ^ 63)%Z. split; [by vm_compute|]. by vm_compute.
Qed.
Print Assumptions C102_backlog_refuted.
(** Two attempts, of which the first cannot connect; and an attempt that the server's database refuses,
    after which the call cannot connect to the end. *)
Example C102_example :
  let l := [NotServed NConnect; Served (Serving [] 10 2 "o" 6 6 [] None None None)] in
  let l' := Served (Serving [] 10 1 "o" 5 5 [false; true] None None None) :: replicate 100 (NotServed NConnect) in
  let contents := [Some "x"; None; Some "y"]%string in
  (exists d', py_insert_submission_direct contents None None (Some 7) l (after []) = Some (Returns 2, d')) /\
  Forall replied l /\ fresh_ids ([] ++ direct_events contents None None (Some 7) l) /\
  (exists x text d', py_insert_submission_direct contents None None (Some 7) l' (after []) = Some (RaisesOwn x text, d')) /\
  Forall replied l' /\ fresh_ids ([] ++ direct_events contents None None (Some 7) l').
Proof.
  cbn zeta. split; [eexists; by vm_compute|]. split; [repeat (apply Forall_cons; split; [done|]); by apply Forall_nil|].
  split; [apply (bool_decide_unpack _); by vm_compute|]. split; [eexists _, _, _; by vm_compute|].
  split; [apply Forall_cons; split; [done|]; by apply Forall_replicate|]. apply (bool_decide_unpack _); by vm_compute.
Qed.
