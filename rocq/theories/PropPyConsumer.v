(** The theorems about the Python consumer: C93 - C96. See properties.jsonl for the English
    statements, and PyConsumer.v, "Specification", for the vocabulary. *)
From Verif Require Import PropQueue.
From Verif Require Import PyConsumerProofs.
Local Open Scope N_scope.

(** ** C93. Missing: attempts that end soon without chunks. The server answers so when its database
    fails (consumer/server/conn.rs:225). [t]: when the call ends, [s]: when a signal comes whose
    handler raises, in milliseconds. *)
Theorem C93_interrupts_partial : forall attempt signal fair t r s, waits attempt signal fair 0 0 t r -> signal = Some s ->
  ((forall i dt, attempt i <> Some (dt, TryChunks 0)) -> t <= s + 1000) /\
  ((forall i dt, attempt i = Some (dt, TryChunks 0) -> 1000 < dt) -> t <= s + 2500).
Proof.
  intros attempt signal fair t r s H Hs. split; intros Ha.
  - apply (waits_first attempt signal fair s 0 0 t r Hs Ha H). lia.
  - apply (waits_late attempt signal fair s 0 0 t r Hs Ha H). lia.
Qed.
Print Assumptions C93_interrupts_partial.
Theorem C93_ends_partial : forall attempt signal fair, is_Some signal ->
  (forall i dt, attempt i = Some (dt, TryChunks 0) -> 1000 < dt) -> exists t r, waits attempt signal fair 0 0 t r.
Proof. intros attempt signal fair [s Hs] Ha. by apply (waits_some_end _ _ _ s). Qed.
Print Assumptions C93_ends_partial.
(** It raises only if a signal came. *)
Theorem C93_not_without_signal : forall attempt signal fair t, waits attempt signal fair 0 0 t EndInterrupt -> exists s, signal = Some s /\ s <= t.
Proof. intros attempt signal fair t H. by apply (waits_spurious attempt signal fair _ _ _ _ H). Qed.
Print Assumptions C93_not_without_signal.
(** While every attempt ends in less than a second without chunks the call never ends, whatever
    signals come and whenever. *)
Theorem C93_refuted : forall attempt signal fair, (forall i, exists dt, dt < 1000 /\ attempt i = Some (dt, TryChunks 0)) ->
  ~ exists t r, waits attempt signal fair 0 0 t r.
Proof. intros attempt signal fair H (t & r & Hw). exact (waits_never attempt signal fair H 0 0%nat t r Hw). Qed.
Print Assumptions C93_refuted.
Definition ex_attempt (i : nat) : option (N * try_result) := match i with O => Some (1300, TryChunks 0) | _ => None end.
(** The first attempt ends after 1.3 s without chunks, the next begins at 1.8 s and would wait forever. *)
Example C93_example : forall fair,
  waits ex_attempt (Some 1200) fair 0 0 2800 EndInterrupt /\
  waits ex_attempt (Some 700) fair 0 0 1000 EndInterrupt /\
  (forall i dt, ex_attempt i = Some (dt, TryChunks 0) -> 1000 < dt) /\
  (exists attempt : nat -> option (N * try_result), forall i, exists dt, dt < 1000 /\ attempt i = Some (dt, TryChunks 0)).
Proof.
  intros fair. split; [|split; [|split]].
  - eapply (waits_again _ _ _ 0 0 1300 500); [by exists 2%nat|by exists 1%nat|]. apply (waits_interrupted _ _ _ 1800 1 1000). by exists 1%nat.
  - apply (waits_interrupted _ _ _ 0 0 1000). by exists 1%nat.
  - intros [|i] dt H; [by injection H as <-|done].
  - exists (fun _ => Some (3, TryChunks 0)). intros i. by exists 3.
Qed.

(** ** C94. Missing: object stores that fail. *)
Theorem C94_one_partial : forall l es1 es2, Forall one_each l -> Forall store_works l -> consume l = es1 ++ es2 ->
  (length (reserved_after es1) <= 1)%nat.
Proof. intros l es1 es2 H1 H2 E. by apply (consume_careful l H1 H2 es1 es2). Qed.
Print Assumptions C94_one_partial.
(** The function is only ever called for a chunk that is reserved for the consumer. *)
Theorem C94_own : forall l es1 c r es2, Forall one_each l -> consume l = es1 ++ Works c r :: es2 -> c ∈ reserved_after es1.
Proof. intros l es1 c r es2 H E. by apply (consume_own l H [] es1 c r es2). Qed.
Print Assumptions C94_own.
(** Every report follows at once on the call of the function for the same chunk, and tells what it gave. *)
Theorem C94_reports : forall l es1 e es2, consume l = es1 ++ e :: es2 ->
  match e with
  | CompletesChunk c output => last es1 = Some (Works c (Output output))
  | FailsChunk c text => exists x, last es1 = Some (Works c (Raises x text))
  | _ => True
  end.
Proof. intros l es1 e es2 E. by apply (consume_reports l es1 e es2). Qed.
Print Assumptions C94_reports.
(** The function is called, and the loop ends, as in the loop of RunLoop.v, so that C70 to C72 hold
    for these runs. *)
Theorem C94_same_loop : forall l, Forall finished l ->
  omap seen_event (consume l) = omap seen_loop_event (run_per_chunk (omap loop_round l)).
Proof. intros l H. by apply consume_loop. Qed.
Print Assumptions C94_same_loop.
(** A consumer that cannot read from the object store takes every chunk there is, one after the
    other, and keeps them all until the reservations expire; nobody works on them. *)
Theorem C94_unreadable_refuted : forall chunks : list chunk_id, NoDup chunks ->
  let l := (fun c => Round [AnswerOf [(c, FetchFails)]] []) <$> chunks in
  Forall one_each l /\ fair_server (consume l) /\ consume l = Gives <$> chunks /\ reserved_after (consume l) = chunks.
Proof.
  intros chunks Hd l. assert (E : consume l = Gives <$> chunks).
  { unfold l. clear Hd l. induction chunks as [|c chunks IH]; [done|]. cbn. f_equal. exact IH. }
  rewrite E. split; [|split; [by apply gives_fair|split; [done|]]].
  - apply Forall_fmap, Forall_true. intros c. cbn. repeat constructor.
  - unfold reserved_after. by rewrite keep_gives.
Qed.
Print Assumptions C94_unreadable_refuted.
(** One that cannot write to it works on every chunk and keeps them all likewise; nothing is
    completed or failed. *)
Theorem C94_unwritable_refuted : forall (chunks : list chunk_id) input output, NoDup chunks ->
  let l := (fun c => Round [AnswerOf [(c, Fetched input)]] [(Output output, UploadFails)]) <$> chunks in
  Forall one_each l /\ fair_server (consume l) /\
  consume l = mjoin ((fun c => [Gives c; Works c (Output output)]) <$> chunks) /\ reserved_after (consume l) = chunks.
Proof.
  intros chunks input output Hd l.
  assert (E : consume l = mjoin ((fun c => [Gives c; Works c (Output output)]) <$> chunks)).
  { unfold l. clear Hd l. induction chunks as [|c chunks IH]; [done|]. cbn. do 2 f_equal. exact IH. }
  assert (Hk : forall h cs, foldl keep h (mjoin ((fun c => [Gives c; Works c (Output output)]) <$> cs)) = h ++ cs).
  { intros h cs. revert h. induction cs as [|c cs IH]; intros h; cbn; [by rewrite app_nil_r|]. rewrite IH, <- app_assoc. done. }
  rewrite E. split; [|split; [|split; [done|apply Hk]]].
  - apply Forall_fmap, Forall_true. intros c. cbn. repeat constructor.
  - clear E l. intros es1 c es2 E. assert (Hg : exists cs1 cs2, chunks = cs1 ++ c :: cs2 /\ es1 = mjoin ((fun c => [Gives c; Works c (Output output)]) <$> cs1)).
    { clear Hd Hk. revert es1 E. induction chunks as [|d chunks IH]; intros es1 E; [by destruct es1|]. cbn in E.
      destruct es1 as [|e1 [|e2 es1]].
      - injection E as <- _. by exists [], chunks.
      - discriminate E.
      - injection E as <- <- E. destruct (IH es1 E) as (cs1 & cs2 & -> & ->). by exists (d :: cs1), cs2. }
    destruct Hg as (cs1 & cs2 & -> & ->). unfold reserved_after. rewrite Hk. cbn. apply NoDup_app in Hd as (_ & Hd & _). intros Hc. apply (Hd c Hc). left.
Qed.
Print Assumptions C94_unwritable_refuted.
(** Two chunks are worked on, then the connection is lost, then the consumer is interrupted while it
    waits, and the chunk of the late answer is given back. *)
Definition ex_rounds : list round_t :=
  [Round [AnswerOf []; AnswerOf [((1, 0), Fetched "a")]] [(Output "A", Told)];
   Round [AnswerOf [((1, 1), Fetched "b")]] [(Raises Ordinary "no", NotSent)];
   TimePasses (2, 0);
   Round [LostAnswer [(1, 1)]] [];
   Round [CutWaiting [(1, 1)]] []].
Example C94_example : Forall one_each ex_rounds /\ Forall store_works ex_rounds /\ Forall finished ex_rounds /\
  consume ex_rounds = [Gives (1, 0); Works (1, 0) (Output "A"); CompletesChunk (1, 0) "A"; Gives (1, 1); Works (1, 1) (Raises Ordinary "no"); Disconnects;
    TimesOut (2, 0); Gives (1, 1); Disconnects; Gives (1, 1); GivesBack (1, 1); LoopStops].
Proof. split; [|split; [|split; [|done]]]; unfold ex_rounds; repeat (first [apply Forall_cons; split|apply Forall_nil|split]; cbn; try done; try lia). Qed.

(** ** C95. Missing: interrupts after the answer, and object stores that fail. *)
Theorem C95_accounted_partial : forall l es r, reserve_call l = (es, r) ->
  (forall cs, CutAnswered cs ∈ l -> cs = []) -> (forall cs c f, AnswerOf cs ∈ l -> (c, f) ∈ cs -> exists content, f = Fetched content) ->
  reserved_after es = match r with Returned l' => l'.*1 | _ => [] end.
Proof.
  intros l es r E H1 H2. apply (call_accounts l es r); [|done]. apply Forall_forall. intros a Ha. destruct a as [|cs| |cs|cs| |cs]; try done.
  - by rewrite (H1 cs Ha).
  - apply Forall_forall. intros [c f] Hx. by apply (H2 cs c f Ha).
Qed.
Print Assumptions C95_accounted_partial.
(** A call that returns gives all the chunks that were reserved for it, in their order, and never none. *)
Theorem C95_returned : forall l es l', reserve_call l = (es, Returned l') -> es = Gives <$> l'.*1 /\ reserved_after es = l'.*1 /\ l' <> [].
Proof. intros l es l' E. destruct (call_returned l es l' E) as [-> Hn]. split; [done|]. split; [|done]. unfold reserved_after. by rewrite keep_gives. Qed.
Print Assumptions C95_returned.
(** An interrupt after the answer, before or while the contents are fetched, leaves all its chunks
    reserved, however many they are. *)
Theorem C95_interrupt_refuted : forall chunks : list chunk_id, chunks <> [] ->
  (exists es, reserve_call [CutAnswered chunks] = (es, RaisedInterrupt) /\ reserved_after es = chunks) /\
  (exists es, reserve_call [AnswerOf ((fun c => (c, FetchCut)) <$> chunks)] = (es, RaisedInterrupt) /\ reserved_after es = chunks).
Proof.
  intros [|c chunks] Hn; [done|]. split; (eexists; split; [done|]); unfold reserved_after; rewrite keep_gives; [done|].
  cbn. f_equal. rewrite <- list_fmap_compose. apply list_fmap_id.
Qed.
Print Assumptions C95_interrupt_refuted.
(** What is given back counts as a failed attempt: interrupted calls alone, as many as there may be
    attempts, make the submission fail, although nobody ever worked on it. *)
Theorem C95_retries_refuted : forall mx, 1 <= mx ->
  let call := reserve_call [CutWaiting [(1, 0)]] in
  let h := ex_insert 1 [None] :: mjoin (replicate (N.to_nat mx) (given_back mx 1 call.1)) in
  call.2 = RaisedInterrupt /\ exists s c, reports (after h) 1 (Types.Failed s c) /\ kf_failure c = "Requester disappeared"%string.
Proof.
  intros mx Hmx call h. split; [done|].
  set (e := quiet (OFail (1, 0) "Requester disappeared" mx 1 1 1)).
  assert (Ej : forall n, mjoin (replicate n (given_back mx 1 call.1)) = replicate n e).
  { intros n. induction n as [|n IH]; [done|]. cbn [replicate]. change (mjoin (?a :: ?l)) with (a ++ mjoin l). rewrite IH. done. }
  assert (Hf : forall n, fresh_ids (ex_insert 1 [None] :: replicate n e)).
  { intros n. induction n as [|n IH]; [by apply fresh_by|]. rewrite replicate_S_end. change (?a :: ?l ++ ?k) with ((a :: l) ++ k). apply no_insert_fresh; [|done]. intros id Hid. destruct Hid. }
  assert (Hw : forall n, N.of_nat n < mx -> waiting (after (ex_insert 1 [None] :: replicate n e)) (1, 0) = Some (Chunk 1 0 None (N.of_nat n))).
  { intros n. induction n as [|n IH]; intros Hn; [by vm_compute|]. rewrite replicate_S_end. change (?a :: ?l ++ ?k) with ((a :: l) ++ k).
    destruct (C06_report_below_limit _ 1 0 _ "Requester disappeared" mx 1 1 1 (Hf n) (IH ltac:(lia)) ltac:(cbn; lia)) as (_ & H & _).
    etransitivity; [exact H|]. cbn. do 2 f_equal. lia. }
  unfold h. rewrite Ej. destruct (N.to_nat mx) as [|n] eqn:En; [lia|]. rewrite replicate_S_end. change (?a :: ?l ++ ?k) with ((a :: l) ++ k).
  destruct (C07_permanent_failure _ 1 0 _ "Requester disappeared" mx 1 1 1 (Hf n) (Hw n ltac:(lia)) ltac:(cbn; lia)) as (_ & s & _ & H & _).
  eexists _, _. split; [exact H|]. done.
Qed.
Print Assumptions C95_retries_refuted.
Example C95_example :
  reserve_call [AnswerOf []; AnswerOf [((1, 0), Fetched "a"); ((2, 5), Fetched "b")]] = ([Gives (1, 0); Gives (2, 5)], Returned [((1, 0), "a"%string); ((2, 5), "b"%string)]) /\
  reserve_call [AnswerOf []; CutWaiting [(1, 0); (2, 5)]] = ([Gives (1, 0); Gives (2, 5); GivesBack (1, 0); GivesBack (2, 5)], RaisedInterrupt).
Proof. done. Qed.

(** ** C96. Missing: calls that leave out the strategy, and limits that are negative or too large. *)
(** Which limits and strategies are asked for: those given, for a limit of at least 0. *)
Theorem C96_asks_partial : forall max strategy m s, reserve_arguments max strategy = inr (m, s) <->
  (max = Some (PyInt (Z.of_N m)) \/ max = None /\ m = 1) /\ m < 2^64 /\ strategy = Some (PyStrategyObject (to_py s)).
Proof.
  intros max strategy m s. unfold reserve_arguments. split.
  - intros H. assert (Hs : forall p, of_py_ref p = s -> p = to_py s) by (intros p <-; by rewrite to_of).
    destruct (extract_usize (default (PyInt 1) max)) as [e|m'] eqn:Em; [done|].
    destruct strategy as [[z|p|n|]|]; cbn in H; try discriminate H. injection H as <- Hp. rewrite (Hs p Hp).
    destruct max as [[z|p'|n|]|]; unfold default, id, extract_usize in Em; try discriminate Em.
    + destruct (z <? 0)%Z eqn:E1; [done|]. destruct (2^64 <=? z)%Z eqn:E2; [done|]. cbn [orb] in Em. injection Em as <-. apply Z.ltb_ge in E1. apply Z.leb_gt in E2.
      split; [left; by rewrite Z2N.id by lia|]. split; [lia|done].
    + injection Em as <-. split; [by right|]. done.
  - intros (Hm & Hlt & ->). cbn. assert (extract_usize (default (PyInt 1) max) = inr m) as ->.
    { destruct Hm as [->|[-> ->]]; [|done]. unfold default, id, extract_usize. rewrite (proj2 (Z.ltb_ge (Z.of_N m) 0)) by lia.
      rewrite (proj2 (Z.leb_gt (2^64)%Z (Z.of_N m))) by lia. cbn. by rewrite N2Z.id. }
    by rewrite of_to.
Qed.
Print Assumptions C96_asks_partial.
(** reserve_chunks() and reserve_chunks(n) never reach the server: the default is a class, no strategy. *)
Theorem C96_default_refuted : forall max, exists e, reserve_arguments max None = inl e.
Proof. intros max. unfold reserve_arguments. destruct (extract_usize _); cbn; eauto. Qed.
Print Assumptions C96_default_refuted.
(** A limit that is not positive raises an OverflowError unless it is 0. *)
Theorem C96_negative_refuted : forall z s, (z < 0)%Z -> reserve_arguments (Some (PyInt z)) (Some (PyStrategyObject s)) = inl ExtractOverflowError.
Proof. intros z s Hz. unfold reserve_arguments, default, id, extract_usize. by rewrite (proj2 (Z.ltb_lt z 0)). Qed.
Print Assumptions C96_negative_refuted.
(** A call that is refused for its limit of 0 ends all reservations made before. *)
Theorem C96_zero_refuted : forall es, exists es', reserve_call [UsageError] = (es', RaisedError) /\ reserved_after (es ++ es') = [].
Proof. intros es. eexists. split; [done|]. by rewrite reserved_app. Qed.
Print Assumptions C96_zero_refuted.
Example C96_example : reserve_arguments (Some (PyInt 5)) (Some (PyStrategyObject (PyPreferDistinct "user" PyRandom))) = inr (5, PreferDistinct "user" Random).
Proof. done. Qed.
