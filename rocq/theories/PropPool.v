(** C87, C88: requests that are handled at the same time. Vocabulary: Pool.v, History.v. *)
From Verif Require Import SqliteProofs AnswerProofs PoolProofs.
Local Open Scope N_scope.

Lemma goes_serial l s o g : goes l s o g -> serial o (evs g).
Proof.
  intros Hg. pose proof (goes_tinv _ _ _ _ Hg) as HT. constructor.
  - apply HT.
  - apply HT.
  - intros t a Ha. destruct (ti_ans _ _ _ HT _ _ Ha) as (i & e & H1 & H2). exists i, e. unfold evs. split; [by apply lookup_app_l_Some|].
    rewrite take_app_le; [done|]. apply lookup_lt_Some in H1. lia.
  - intros o1 o2 t t' j i i' e e' -> Hov Hin Hi Hi'. destruct (goes_cut _ _ _ _ o1 Hg) as (l1 & s1 & g1 & Hl & Hg1 & HL); [by eexists|].
    pose proof (goes_tinv _ _ _ _ Hg1) as HT1. destruct (ti_over _ _ _ HT1 _ Hov) as (Ht & Hw & _).
    destruct (la_gone _ _ _ _ _ _ HL t Ht Hw) as [_ Hgone].
    assert (H1 : t ∈ (evs g1).*1) by (apply Hgone, elem_of_list_fmap; exists (t, e); split; [done|by eapply elem_of_list_lookup_2]).
    assert (H2 : t' ∉ (evs g1).*1).
    { intros H. apply elem_of_list_fmap in H as ([t0 e0] & -> & H). apply HT1, (ti_out _ _ _ HT1) in H.
      destruct (la_out _ _ _ _ _ _ HL) as (x & Ex & Hx). apply app_inv_head in Ex as <-. apply Hx in Hin. simpl in *. lia. }
    apply elem_of_list_lookup in H1 as [n Hn]. assert (Hp : (evs g1).*1 `prefix_of` (evs g).*1).
    { rewrite <- !shape_tasks. destruct (la_shape _ _ _ _ _ _ HL) as [x ->]. rewrite fmap_app. by eexists. }
    pose proof (prefix_lookup _ _ _ _ Hn Hp) as Hn'.
    assert (Hit : (evs g).*1 !! i = Some t) by (by rewrite list_lookup_fmap, Hi). assert (Hit' : (evs g).*1 !! i' = Some t') by (by rewrite list_lookup_fmap, Hi').
    assert (n = i) as -> by (eapply NoDup_lookup; [apply HT|done|done]).
    destruct (Nat.lt_ge_cases i i') as [|Hge]; [done|exfalso]. apply H2. apply lookup_lt_Some in Hn.
    destruct (lookup_lt_is_Some_2 (evs g1).*1 i' ltac:(lia)) as [y Hy]. pose proof (prefix_lookup _ _ _ _ Hy Hp) as Hy'.
    assert (y = t') as -> by congruence. by eapply elem_of_list_lookup_2.
Qed.
Lemma usual_evs l s o g : goes l s o g -> usual o -> fresh_ids (evs g).*2 /\ clocks_ok (evs g).*2.
Proof.
  intros Hg [Hu Hk]. pose proof (goes_tinv _ _ _ _ Hg) as HT. split.
  - unfold fresh_ids. rewrite shape_inserted. apply shape_fresh; [rewrite shape_tasks; apply HT|].
    intros t t' x x' id H1 H2 H3 H4. apply shape_evs in H1 as (e & H1 & <-). apply shape_evs in H2 as (e' & H2 & <-).
    apply HT in H1, H2. eapply (Hu _ _ _ _ id H1 H2); simpl; [by destruct (e_op e)|by destruct (e_op e')].
  - apply Forall_forall. intros e ([t e'] & -> & He)%elem_of_list_fmap. simpl. eapply Hk, (ti_evs _ _ _ HT). exact He.
Qed.

(** ** C87 *)
(** Whatever the order in which tasks come, get the writer connection, run their statements, fail, are
    given up or are lost in a crash: there is an order of their operations, one after the other, that
    explains every answer and the rows in the database, and it respects who was through before whom.
    With ids and clocks as usual it is a history in the sense of History.v, so everything that the
    other properties say about [after h] holds for the database of a run. *)
Theorem C87_serializable : forall acts s outs, go acts = Some (s, outs) ->
  exists evs, serial outs evs /\ committed s = after evs.*2 /\ (usual outs -> fresh_ids evs.*2 /\ clocks_ok evs.*2).
Proof.
  intros acts s outs H. destruct (go_goes _ _ _ H) as [g Hg]. exists (evs g). split; [by eapply goes_serial|].
  split; [apply committed_evs; by eapply goes_pinv|]. by eapply usual_evs.
Qed.
Print Assumptions C87_serializable.
Corollary C87_histories : forall (P : db -> Prop) acts s outs, (forall h, fresh_ids h -> clocks_ok h -> P (after h)) ->
  go acts = Some (s, outs) -> usual outs -> P (committed s).
Proof. intros P acts s outs HP H Hu. destruct (C87_serializable _ _ _ H) as (evs & _ & -> & Hf). apply HP; by apply Hf. Qed.
Print Assumptions C87_histories.

(** The task that has the writer connection is through after finitely many statements, whichever of
    them fail, and the next one can have it. *)
Theorem C87_connection_returns : forall acts s outs t p (faults : list bool -> bool),
  go acts = Some (s, outs) -> p_owner s = Some (Owner t p) ->
  exists fs a s', go (acts ++ (Node <$> fs) ++ [Release]) = Some (s', outs ++ [Answered t a]) /\ p_owner s' = None /\
    forall i b, fs !! i = Some b -> b = faults (take i fs).
Proof.
  intros acts s outs t p faults H Ho. destruct (comes_back p s t faults [] Ho) as (fs & a & s' & H1 & H2 & H3).
  exists fs, a, s'. split; [|done]. unfold go in *. by rewrite go_from_app, H, H1.
Qed.
Print Assumptions C87_connection_returns.

(** Two inserts, a completion and a health check: the client of the first insert hangs up after the first
    statements, the completion waits for the second insert, and the process dies in the middle of the
    next completion. *)
Definition ex_insert (id : sub_id) : op := OInsert id (Some "p") [Some "a"; Some "b"] None ∅ 1%Z "{}" 100%Z.
Definition ex_acts : list act :=
  [Arrive (Write (ex_insert 5)); Arrive (Write (ex_insert 6)); Acquire 0; Node false; Node false; Leave 0;
   Arrive (Write (OComplete (6, 0) (Some "A") 110%Z 111%Z)); Acquire 1] ++ repeat (Node false) 4 ++
  [Arrive Health; Release; Acquire 3] ++ repeat (Node false) 3 ++ [Release; Acquire 2] ++ repeat (Node false) 8 ++
  [Release; Arrive (Write (OComplete (6, 1) (Some "B") 120%Z 121%Z)); Acquire 4; Node false; Node false; Node false; Crash].
Definition ex_outs : list sight :=
  [Arrived 0 (Write (ex_insert 5)); Arrived 1 (Write (ex_insert 6)); Left 0; Arrived 2 (Write (OComplete (6, 0) (Some "A") 110%Z 111%Z));
   Arrived 3 Health; Answered 1 (Wrote (AInsert (Ok 6))); Answered 3 (Checked true); Answered 2 (Wrote (AComplete (Ok tt)));
   Arrived 4 (Write (OComplete (6, 1) (Some "B") 120%Z 121%Z)); Crashed].
Example C87_example : (exists s, go ex_acts = Some (s, ex_outs) /\ unknown (committed s) 5 /\
    match status_of (committed s) 6 with Ok (Some (InProgress x)) => s_done x = 1 | _ => False end) /\ usual ex_outs.
Proof.
  split.
  - assert (H : (match go ex_acts with Some (s, o) => (o, match status_of (committed s) 5 with Ok None => true | _ => false end,
      match status_of (committed s) 6 with Ok (Some (InProgress x)) => s_done x =? 1 | _ => false end) | None => ([], false, false) end) = (ex_outs, true, true)) by (by vm_compute).
    destruct (go ex_acts) as [[s o]|]; [|done]. exists s.
    assert (o = ex_outs) as -> by congruence. split; [done|]. unfold unknown. split.
    + by destruct (status_of (committed s) 5) as [[?|]|?|].
    + destruct (status_of (committed s) 6) as [[[x|?|? ?|?]|]|?|]; try done. apply N.eqb_eq. congruence.
  - split.
    + assert (Hid : forall t j id, Arrived t j ∈ ex_outs -> inserts j id -> id = t + 5).
      { intros t j id H. unfold ex_outs in H. rewrite !elem_of_cons in H. destruct_or! H; simplify_eq; simpl; try done; try (by intros <-).
        by apply elem_of_nil in H. }
      intros t t' j j' id H1 H2 H3 H4. pose proof (Hid _ _ _ H1 H3). pose proof (Hid _ _ _ H2 H4). lia.
    + intros t o H. unfold ex_outs in H. rewrite !elem_of_cons in H. destruct_or! H; simplify_eq; simpl; try done; try lia.
      by apply elem_of_nil in H.
Qed.

(** ** C88 *)
(** A status query runs up to four queries one after the other, while others change the database. Its
    answer is right for a moment between the request and the answer. It is an error only if a query
    fails, or if the submission was failed at one moment and gone at a later one. *)
Theorem C88_status : forall acts s outs t id r,
  go (acts ++ [Tell t]) = Some (s, outs ++ [Told t (RStatus r)]) -> Asked t (QStatus id) ∈ outs -> usual outs ->
  match r with
  | Ok (Some st) => exists l d, moment acts t (QStatus id) l d /\ reports d id st
  | Ok None => exists l d, moment acts t (QStatus id) l d /\ unknown d id
  | Err _ => Look t true ∈ acts \/
      exists l d l' d' sf c, moment acts t (QStatus id) l d /\ reports d id (Failed sf c) /\
        moment acts t (QStatus id) l' d' /\ unknown d' id /\ l `prefix_of` l'
  | Panicked => False
  end.
Proof.
  intros acts s outs t id r H Hq Hu. destruct (told_log _ _ _ _ _ H) as (s0 & Hacts & _).
  destruct (go_goes _ _ _ Hacts) as [g Hg]. destruct (usual_evs _ _ _ _ Hg Hu) as [Hf Hk].
  destruct (told_status _ _ _ _ _ _ _ _ H Hq Hg Hf Hk) as (ms & H1 & H2 & H3).
  assert (Hm : forall k, moment acts t (QStatus id) (ms k) (db_at (ms k))).
  { intros k. destruct (H2 k) as (Hp & s1 & o1 & E1 & E2 & E3). split; [done|]. by exists s1, o1. }
  destruct r as [[st|]|e|]; [destruct H3 as [k H3]; by exists (ms k), (db_at (ms k))|destruct H3 as [k H3]; by exists (ms k), (db_at (ms k))| |done].
  destruct H3 as [H3|[(sf & c & H3) H4]]; [by left|right]. exists (ms 2%nat), (db_at (ms 2%nat)), (ms 3%nat), (db_at (ms 3%nat)), sf, c.
  split_and!; try done; try apply Hm. 
Qed.
Print Assumptions C88_status.
(** So a submission that is there all the time is found. *)
Corollary C88_found : forall acts s outs t id r,
  go (acts ++ [Tell t]) = Some (s, outs ++ [Told t (RStatus r)]) -> Asked t (QStatus id) ∈ outs -> usual outs ->
  (forall l d, moment acts t (QStatus id) l d -> ~ unknown d id) -> Look t true ∉ acts -> exists st, r = Ok (Some st).
Proof.
  intros acts s outs t id r H Hq Hu Hk Hl. pose proof (C88_status _ _ _ _ _ _ H Hq Hu) as Hr. destruct r as [[st|]|e|].
  - by exists st.
  - destruct Hr as (l & d & Hm & Hn). by destruct (Hk _ _ Hm).
  - destruct Hr as [Hr|(l & d & l' & d' & sf & c & _ & _ & Hm & Hn & _)]; [done|by destruct (Hk _ _ Hm)].
  - done.
Qed.
Print Assumptions C88_found.
(** The lookups and the counts are one query each: they answer for one moment. (What is right for a
    database: C16, C17, C65.) *)
Theorem C88_single : forall acts s outs t q r,
  go (acts ++ [Tell t]) = Some (s, outs ++ [Told t r]) -> Asked t q ∈ outs ->
  match q with QStatus _ | QScaling => False | _ => True end ->
  reply_failed r /\ Look t true ∈ acts \/
  exists l d, moment acts t q l d /\
    match q, r with
    | QPrefix p, RPrefix x => x = fst (exec (lookup_id_by_prefix p) d [])
    | QMeta m max, RMeta x => x = fst (exec (lookup_ids_by_strategic_metadata m max) d [])
    | QCount, RCount x => x = fst (exec count_submissions d [])
    | QCountCompleted, RCount x => x = fst (exec count_submissions_completed d [])
    | _, _ => False
    end.
Proof.
  intros acts s outs t q r H Hq Hs. destruct (told_answers _ _ _ _ _ _ H Hq) as [Hr|(ms & H1 & H2 & H3)]; [by left|right].
  destruct (H2 0%nat) as (Hp & s1 & o1 & E1 & E2 & E3). exists (ms 0%nat), (committed s1). split; [split; [done|by exists s1, o1]|].
  rewrite <- H3, <- E3. destruct q as [id|p|m max| | |]; try done; unfold query_prog; rewrite run_reader_map; cbn [fst]; try done.
  unfold lookup_ids_by_strategic_metadata. rewrite exec_tryb by solve_good. rewrite exec_sql. cbn [fst snd]. destruct (size m <=? 63)%nat; [|done]. simpl. by destruct (max <? _).
Qed.
Print Assumptions C88_single.
(** The two gauges for scaling are read one after the other: each is right for a moment, not both for one. *)
Theorem C88_scaling : forall acts s outs t r,
  go (acts ++ [Tell t]) = Some (s, outs ++ [Told t (RScaling r)]) -> Asked t QScaling ∈ outs ->
  reply_failed (RScaling r) /\ Look t true ∈ acts \/
  exists l d l' d' n z, moment acts t QScaling l d /\ moment acts t QScaling l' d' /\ l `prefix_of` l' /\ r = Ok (n, z) /\
    fst (exec count_chunks d []) = Ok n /\ fst (exec count_ops_in_backlog_estimate d' []) = Ok z.
Proof.
  intros acts s outs t r H Hq. destruct (told_answers _ _ _ _ _ _ H Hq) as [Hr|(ms & H1 & H2 & H3)]; [by left|right].
  assert (Hm : forall k, moment acts t QScaling (ms k) (db_at (ms k))).
  { intros k. destruct (H2 k) as (Hp & s1 & o1 & E1 & E2 & E3). split; [done|]. by exists s1, o1. }
  unfold query_prog in H3. rewrite run_reader_map in H3. injection H3 as <-.
  exists (ms 0%nat), (db_at (ms 0%nat)), (ms 1%nat), (db_at (ms 1%nat)). eexists _, _. split; [apply Hm|]. split; [apply Hm|]. split; [apply H1|].
  split; [reflexivity|]. unfold count_chunks, count_ops_in_backlog_estimate, read. rewrite !exec_sql. done.
Qed.
Print Assumptions C88_scaling.

(** A submission is asked for while it is in progress; its last chunk is completed before the first of the
    queries, so the answer is given by the second. Another status query of an unknown submission fails. *)
Definition ex_asks : list act :=
  [Arrive (Write (OInsert 6 None [Some "a"] None ∅ 1%Z "{}" 100%Z)); Acquire 0] ++ repeat (Node false) 4 ++ [Release; Ask (QStatus 6); Ask (QStatus 9);
   Arrive (Write (OComplete (6, 0) None 110%Z 111%Z)); Acquire 3; Node false; Look 2 false; Node false; Look 2 true; Tell 2] ++ repeat (Node false) 8 ++ [Release; Look 1 false; Look 1 false].
Definition ex_asks_outs : list sight :=
  [Arrived 0 (Write (OInsert 6 None [Some "a"] None ∅ 1%Z "{}" 100%Z)); Answered 0 (Wrote (AInsert (Ok 6))); Asked 1 (QStatus 6); Asked 2 (QStatus 9);
   Arrived 3 (Write (OComplete (6, 0) None 110%Z 111%Z)); Told 2 (RStatus (Err (EDb OtherSqlError))); Answered 3 (Wrote (AComplete (Ok tt)))].
Lemma go_outs l o' : (match go l with Some (_, o1) => o1 | None => [] end) = o' -> o' <> [] -> exists s, go l = Some (s, o').
Proof. intros <-. destruct (go l) as [[s o1]|]; [by exists s|done]. Qed.
Example C88_example : (exists s, go (ex_asks ++ [Tell 1]) = Some (s, ex_asks_outs ++ [Told 1 (RStatus (Ok (Some (Completed (SubmissionCompleted 6 None 1 1%Z None ∅ 111%Z "{}")))))])) /\
  Asked 1 (QStatus 6) ∈ ex_asks_outs /\ usual ex_asks_outs.
Proof.
  split; [|split; [|split]].
  - apply go_outs; [vm_compute; reflexivity|discriminate].
  - unfold ex_asks_outs. rewrite !elem_of_cons. tauto.
  - assert (Hid : forall t j id, Arrived t j ∈ ex_asks_outs -> inserts j id -> t = 0).
    { intros t j id Hin. unfold ex_asks_outs in Hin. rewrite !elem_of_cons in Hin. destruct_or! Hin; simplify_eq; simpl; try done. by apply elem_of_nil in Hin. }
    intros t t' j j' id H1 H2 H3 H4. rewrite (Hid _ _ _ H1 H3), (Hid _ _ _ H2 H4). done.
  - intros t op Hin. unfold ex_asks_outs in Hin. rewrite !elem_of_cons in Hin. destruct_or! Hin; simplify_eq; simpl; try done; try lia. by apply elem_of_nil in Hin.
Qed.

(** ** C89 *)
(** Others see an operation not at all or as a whole: what is committed at any moment of the run is
    what the first [n] operations of the order make; except that a submission without chunks is in
    progress for a moment before it is completed, since this takes two transactions. *)
Theorem C89_whole_partial : forall acts s outs, go acts = Some (s, outs) -> usual outs ->
  exists evs, serial outs evs /\ committed s = after evs.*2 /\
  forall acts1 s1 outs1, acts1 `prefix_of` acts -> go acts1 = Some (s1, outs1) -> exists n,
    committed s1 = after (take n evs).*2 \/
    exists t e id p m st z ot now sub, evs !! n = Some (t, e) /\ e_op e = OInsert id p [] m st z ot now /\
      unknown (after (take n evs).*2) id /\ reports (committed s1) id (InProgress sub) /\
      forall id', id' <> id -> same_for_clients id' (committed s1) (after (take n evs).*2).
Proof.
  intros acts s outs H Hu. destruct (go_goes _ _ _ H) as [g Hg]. exists (evs g). split; [by eapply goes_serial|].
  split; [apply committed_evs; by eapply goes_pinv|]. destruct (usual_evs _ _ _ _ Hg Hu) as [Hf _].
  intros acts1 s1 outs1 Hp Hgo1. destruct (goes_prefix _ _ _ _ acts1 Hg Hp) as (s1' & o1 & g1 & Hg1 & HL).
  pose proof (goes_go _ _ _ _ Hg1) as E. assert (s1' = s1) as -> by congruence. assert (o1 = outs1) as -> by congruence. clear E.
  pose proof (la_same _ _ _ _ _ _ HL _ (Nat.le_refl _)) as Hsame. pose proof (fresh_shape _ _ (la_shape _ _ _ _ _ _ HL) Hf) as Hf1.
  exists (whole s1 g1). destruct (committed_whole _ _ (goes_pinv _ _ _ _ Hg1) Hf1) as [E|(t & id0 & p & m & st & z & ot & n & fs & k & Ec & Ew & E)].
  { left. rewrite E, <- Hsame. done. }
  right. rewrite Ew in *. assert (Ed : finish (take (length (g_done g1)) (evs g)) = finish (g_done g1)).
  { rewrite Hsame. unfold evs. by rewrite take_app. }
  destruct (la_shape _ _ _ _ _ _ HL) as [l2 El]. unfold shape in El. unfold evs at 2 in El. rewrite Ec in El.
  assert (Hn : exists e, evs g !! length (g_done g1) = Some (t, e) /\ e_op e = OInsert id0 p [] m st z ot n).
  { assert (Hx : ((fun x : N * event => (x.1, e_op x.2)) <$> evs g) !! length (g_done g1) = Some (t, OInsert id0 p [] m st z ot n)).
    { rewrite El, fmap_app, <- app_assoc. rewrite lookup_app_r by (rewrite fmap_length; lia). rewrite fmap_length, Nat.sub_diag. done. }
    rewrite list_lookup_fmap in Hx. destruct (evs g !! length (g_done g1)) as [[t' e]|]; [|done]. injection Hx as -> Hx. by exists e. }
  destruct Hn as (e & He & Heo). exists t, e, id0, p, m, st, z, ot, n.
  assert (Hid : id0 ∉ inserted_ids (take (length (g_done g1)) (evs g)).*2 /\ fresh_ids (take (length (g_done g1)) (evs g)).*2).
  { clear -He Heo Hf. rewrite <- (take_drop_middle _ _ _ He) in Hf. rewrite fmap_app in Hf. simpl in Hf.
    rewrite cons_middle, app_assoc in Hf. apply fresh_prefix in Hf. apply fresh_ids_app in Hf as [Hf1 Hf]. split; [apply Hf; by rewrite Heo|done]. }
  destruct Hid as [Hid Hfd]. pose proof (view_fresh _ _ Hfd Hid) as Hv.
  eexists. split; [done|]. split; [done|]. split; [|split].
  - apply unknown_view. by rewrite Hv.
  - apply reports_in_progress. rewrite E. unfold inserted. eexists. split; [apply lookup_insert|]. reflexivity.
  - intros id' Hne. rewrite E. unfold finish in Ed |- *. rewrite <- Ed.
    pose proof (view_inserted_other id0 p [] m st z ot (after (take (length (g_done g1)) (evs g)).*2) id' Hne) as Hvo.
    by apply same_view_same.
Qed.
Print Assumptions C89_whole_partial.
(** What is missing: the moment between the two transactions. One task inserts a submission without
    chunks; somebody who asks in between is told that it is in progress. *)
Definition ex_empty : op := OInsert 7 (Some "p") [] None ∅ 1%Z "{}" 100%Z.
Theorem C89_whole_refuted : exists acts rest s s' sub sub',
  go acts = Some (s, [Arrived 0 (Write ex_empty)]) /\
  go (acts ++ rest) = Some (s', [Arrived 0 (Write ex_empty); Answered 0 (Wrote (AInsert (Ok 7)))]) /\
  reports (committed s) 7 (InProgress sub) /\ s_total sub = 0 /\ reports (committed s') 7 (Completed sub').
Proof.
  pose (acts := [Arrive (Write ex_empty); Acquire 0] ++ repeat (Node false) 4). pose (rest := repeat (Node false) 4 ++ [Release]).
  exists acts, rest.
  assert (H : (match go acts with Some (s, o) => (o, match status_of (committed s) 7 with Ok (Some (InProgress x)) => Some (s_total x) | _ => None end) | None => ([], None) end) =
    ([Arrived 0 (Write ex_empty)], Some 0)) by (by vm_compute).
  assert (H' : (match go (acts ++ rest) with Some (s, o) => (o, match status_of (committed s) 7 with Ok (Some (Completed x)) => true | _ => false end) | None => ([], false) end) =
    ([Arrived 0 (Write ex_empty); Answered 0 (Wrote (AInsert (Ok 7)))], true)) by (by vm_compute).
  destruct (go acts) as [[s o]|]; [|done]. destruct (go (acts ++ rest)) as [[s' o']|]; [|done]. exists s, s'. unfold reports.
  destruct (status_of (committed s) 7) as [[[x|?|? ?|?]|]|?|]; try done. destruct (status_of (committed s') 7) as [[[?|x'|? ?|?]|]|?|]; try done.
  exists x, x'. split_and!; try done; congruence.
Qed.
Print Assumptions C89_whole_refuted.
