(** Lemmas for the theorems of PropPyConsumer.v. *)
From Verif Require Export PyApiProofs PyConsumer.
Local Open Scope N_scope.

(** *** Interrupts *)
Lemma watch_known A (t : N) (a : A) signal fair fuel : forall k t' r, 1 <= k -> watch (Some (t, a)) signal fair k fuel = Some (t', r) ->
  match r with CallEnded a' => a' = a /\ t' = t | InterruptRaised => t' <= t /\ 1000 <= t' end.
Proof.
  induction fuel as [|n IH]; intros k t' r Hk H; [done|]. cbn [watch] in H. unfold signal_check_interval in H.
  destruct (_ || _) eqn:E; [by injection H as <- <-|].
  apply orb_false_iff in E as [E _]. apply N.ltb_ge in E.
  assert (Hgo : watch (Some (t, a)) signal fair (k + 1) n = Some (t', r) -> match r with CallEnded a' => a' = a /\ t' = t | InterruptRaised => t' <= t /\ 1000 <= t' end).
  { apply (IH (k + 1)). lia. }
  destruct signal as [s|]; [|exact (Hgo H)]. destruct (s <=? 1000 * k); [|exact (Hgo H)]. assert (t' = 1000 * k /\ r = InterruptRaised) as [-> ->] by (split; congruence). split; lia.
Qed.
Lemma rui_known A (t : N) (a : A) signal fair t' r : run_unless_interrupted (Some (t, a)) signal fair t' r ->
  match r with CallEnded a' => a' = a /\ t' = t | InterruptRaised => t' <= t /\ 1000 <= t' end.
Proof. intros [fuel H]. by apply (watch_known _ _ _ _ _ _ _ _ _ (N.le_refl 1) H). Qed.
Lemma rui_sound A (future : option (N * A)) signal fair t r : run_unless_interrupted future signal fair t r ->
  match r with CallEnded a => future = Some (t, a) | InterruptRaised => exists s, signal = Some s /\ s <= t end.
Proof. intros [fuel H]. by apply (watch_spec _ _ _ _ _ _ _ H). Qed.
Lemma rui_bound A (future : option (N * A)) signal fair t r s : run_unless_interrupted future signal fair t r -> signal = Some s -> t <= s + 1000.
Proof. intros [fuel H] Hs. apply (watch_bound _ _ _ _ _ _ _ s (N.le_refl 1) H Hs). cbn. lia. Qed.
Lemma rui_ends A (future : option (N * A)) signal fair : is_Some future \/ is_Some signal -> exists t r, run_unless_interrupted future signal fair t r.
Proof.
  intros H. destruct (watch_ends future signal fair (N.to_nat (match future with Some (t, _) => t | None => 0 end + match signal with Some s => s | None => 0 end)) 1) as (t & r & E).
  { unfold signal_check_interval. destruct H as [[[t a] ->]|[s ->]]; [right; exists t, a|left; exists s]; (split; [done|lia]). }
  exists t, r. by eexists.
Qed.
(** A call that would take more than a second does not outlive a signal that is already there. *)
Lemma rui_pending A (future : option (N * A)) fair t a : run_unless_interrupted future (Some 0) fair t (CallEnded a) -> t <= 1000.
Proof. intros H. apply (rui_bound _ _ _ _ _ _ 0 H). done. Qed.

Section waiting.
Variables (attempt : nat -> option (N * try_result)) (signal : option N) (fair : N -> bool).
Lemma waits_spurious now i t r : waits attempt signal fair now i t r -> now <= t /\ (r = EndInterrupt -> exists s, signal = Some s /\ s <= t).
Proof.
  induction 1 as [now i dt H|now i dt H|now i dt n H Hn|now i dt dp H1 H2|now i dt dp t r H1 H2 H3 [IH1 IH2]]; (split; [lia|]); intros E; try discriminate E.
  - apply rui_sound in H as (s & Hs & Hle). destruct signal as [s0|]; [|done]. injection Hs as <-. exists s0. split; [done|lia].
  - apply rui_sound in H2 as (s & Hs & Hle). destruct signal as [s0|]; [|done]. injection Hs as <-. exists s0. split; [done|lia].
  - auto.
Qed.
Lemma waits_first s now i t r : signal = Some s -> (forall j dt, attempt j <> Some (dt, TryChunks 0)) -> waits attempt signal fair now i t r -> now <= s -> t <= s + 1000.
Proof.
  intros Hs Hne H Hn. inversion H as [? ? dt H1|? ? dt H1|? ? dt n H1 Hn0|? ? dt dp H1 H2|? ? dt dp ? ? H1 H2 H3]; subst.
  - apply (rui_bound _ _ _ _ _ _ (s - now)) in H1; [lia|done].
  - apply (rui_bound _ _ _ _ _ _ (s - now)) in H1; [lia|done].
  - apply (rui_bound _ _ _ _ _ _ (s - now)) in H1; [lia|done].
  - apply rui_sound in H1. by apply Hne in H1.
  - apply rui_sound in H1. by apply Hne in H1.
Qed.
Lemma waits_late s now i t r : signal = Some s -> (forall j dt, attempt j = Some (dt, TryChunks 0) -> 1000 < dt) -> waits attempt signal fair now i t r -> now <= s + 1500 -> t <= s + 2500.
Proof.
  intros Hs Hslow. induction 1 as [now i dt H|now i dt H|now i dt n H Hn|now i dt dp H1 H2|now i dt dp t r H1 H2 H3 IH]; intros Hnow.
  - rewrite Hs in H. apply (rui_bound _ _ _ _ _ _ (s - now)) in H; [lia|done].
  - rewrite Hs in H. apply (rui_bound _ _ _ _ _ _ (s - now)) in H; [lia|done].
  - rewrite Hs in H. apply (rui_bound _ _ _ _ _ _ (s - now)) in H; [lia|done].
  - apply rui_known in H2. unfold poll_interval in H2. lia.
  - apply IH. pose proof (Hslow i dt (rui_sound _ _ _ _ _ _ H1)) as Hlong.
    rewrite Hs in H1. apply (rui_bound _ _ _ _ _ _ (s - now)) in H1; [|done].
    apply rui_known in H2 as [_ ->]. unfold poll_interval. lia.
Qed.
Lemma waits_some_end s : signal = Some s -> (forall j dt, attempt j = Some (dt, TryChunks 0) -> 1000 < dt) ->
  forall now i, exists t r, waits attempt signal fair now i t r.
Proof.
  intros Hs Hslow now i. remember (N.to_nat (s + 1 - now)) as m eqn:Em. revert now i Em. induction m as [m IH] using lt_wf_ind. intros now i ->.
  destruct (rui_ends _ (attempt i) ((fun s => s - now) <$> signal) fair) as (dt & [a|] & H).
  { right. rewrite Hs. by eexists. }
  - destruct a as [|n]; [eexists _, _; by eapply waits_error|]. destruct (decide (n = 0)) as [->|Hn]; [|eexists _, _; by eapply waits_chunks].
    pose proof (Hslow i dt (rui_sound _ _ _ _ _ _ H)) as Hlong.
    destruct (rui_ends _ (Some (poll_interval, tt)) ((fun s => s - (now + dt)) <$> signal) fair) as (dp & [[]|] & H2); [by left; eexists| |].
    + pose proof (rui_bound _ _ _ _ _ _ (s - now) H) as Hb. rewrite Hs in Hb. specialize (Hb eq_refl).
      destruct (IH (N.to_nat (s + 1 - (now + dt + dp))) ltac:(lia) (now + dt + dp) (S i) eq_refl) as (t & r & H3).
      exists t, r. by eapply waits_again.
    + eexists _, _. by eapply waits_pause_interrupted.
  - eexists _, _. by eapply waits_interrupted.
Qed.
Lemma waits_never : (forall j, exists dt, dt < 1000 /\ attempt j = Some (dt, TryChunks 0)) -> forall now i t r, ~ waits attempt signal fair now i t r.
Proof.
  intros Hq now i t r. induction 1 as [now i dt H|now i dt H|now i dt n H Hn|now i dt dp H1 H2|now i dt dp t r H1 H2 H3 IH].
  - destruct (Hq i) as (d & Hd & E). rewrite E in H. apply rui_known in H. lia.
  - destruct (Hq i) as (d & Hd & E). apply rui_sound in H. congruence.
  - destruct (Hq i) as (d & Hd & E). apply rui_sound in H. congruence.
  - apply rui_known in H2. unfold poll_interval in H2. lia.
  - done.
Qed.
End waiting.

(** *** What is reserved_after *)
Lemma reserved_app es1 es2 : reserved_after (es1 ++ es2) = foldl keep (reserved_after es1) es2.
Proof. unfold reserved_after. by rewrite foldl_app. Qed.
Lemma keep_gives h l : foldl keep h (Gives <$> l) = h ++ l.
Proof. revert h. induction l as [|c l IH]; intros h; cbn; [by rewrite app_nil_r|]. rewrite IH, <- app_assoc. done. Qed.
Lemma keep_back l : forall h, (forall x, x ∈ h -> x ∈ l) -> foldl keep h (GivesBack <$> l) = [].
Proof.
  induction l as [|c l IH]; intros h H; cbn.
  - destruct h as [|x h]; [done|]. exfalso. apply (not_elem_of_nil x), H. left.
  - apply IH. intros x Hx. apply elem_of_list_filter in Hx as [Hx Hh]. apply H, elem_of_cons in Hh as [->|Hh]; [by destruct Hx|done].
Qed.
Lemma collect_returned l l' : collect l = Returned l' -> l.*1 = l'.*1.
Proof.
  revert l'. induction l as [|[c [s| |]] l IH]; intros l' H; cbn in H; try discriminate H.
  - by injection H as <-.
  - destruct (collect l) as [|r| |] eqn:E; try discriminate H. injection H as <-. cbn. by rewrite (IH r).
Qed.
Lemma collect_all l : Forall (fun x => exists s, x.2 = Fetched s) l -> exists l', collect l = Returned l'.
Proof.
  induction 1 as [|[c f] l [s Hs] _ [l' E]]; [by eexists|]. cbn in Hs. subst f. cbn. rewrite E. by eexists.
Qed.
Lemma collect_not_waiting l : collect l <> StillWaiting.
Proof. induction l as [|[c [s| |]] l IH]; cbn; try done. by destruct (collect l). Qed.
Lemma call_returned l es l' : reserve_call l = (es, Returned l') -> es = Gives <$> l'.*1 /\ l' <> [].
Proof.
  induction l as [|a l IH]; intros H; [done|]. destruct a as [|cs| |cs|cs| |[|x cs]]; cbn [reserve_call] in H; try discriminate H; [auto|].
  assert (es = Gives <$> (x :: cs).*1) as -> by congruence. assert (Hc : collect (x :: cs) = Returned l') by congruence.
  pose proof (collect_returned _ _ Hc) as E. rewrite E. split; [done|]. intros ->. done.
Qed.
(** Nothing of the kind that leaves a chunk behind: an error of the object store, an interrupt after
    the answer. *)
Lemma call_accounts l es r :
  Forall (fun a => match a with CutAnswered (_ :: _) => False | AnswerOf cs => Forall (fun x => exists s, x.2 = Fetched s) cs | _ => True end) l ->
  reserve_call l = (es, r) -> reserved_after es = match r with Returned l' => l'.*1 | _ => [] end.
Proof.
  intros H. revert es r. induction H as [|a l Ha _ IH]; intros es r E; [by injection E as <- <-|].
  destruct a as [|cs| |cs|cs| |[|x cs]]; cbn [reserve_call] in E.
  - by injection E as <- <-.
  - injection E as <- <-. by rewrite reserved_app.
  - by injection E as <- <-.
  - injection E as <- <-. rewrite reserved_app. unfold reserved_after. rewrite keep_gives. by apply keep_back.
  - destruct cs; [|done]. by injection E as <- <-.
  - by injection E as <- <-.
  - auto.
  - destruct (collect_all _ Ha) as [l' El]. rewrite El in E. assert (es = Gives <$> (x :: cs).*1) as -> by congruence. assert (r = Returned l') as -> by congruence. unfold reserved_after. rewrite keep_gives. by apply collect_returned.
Qed.

(** *** The loop *)
(** Bounds at every moment of a list of events, from a given start. *)
Definition never_more (h : list chunk_id) (es : list consumer_event) : Prop :=
  forall es1 es2, es = es1 ++ es2 -> (length (foldl keep h es1) <= 1)%nat.
Lemma never_more_app h es es' : never_more h es -> never_more (foldl keep h es) es' -> never_more h (es ++ es').
Proof.
  intros H H' es1 es2 E. apply app_eq_inv in E as [(k & -> & ->)|(k & -> & ->)].
  - by apply (H es1 k).
  - rewrite foldl_app. by apply (H' k es2).
Qed.
Lemma never_more_nil h : (length h <= 1)%nat -> never_more h [].
Proof. intros H es1 es2 E. symmetry in E. apply app_nil in E as [-> _]. done. Qed.
Lemma never_more_cons h e es : (length h <= 1)%nat -> never_more (keep h e) es -> never_more h (e :: es).
Proof. intros Hh H [|e' es1] es2 E; [done|]. injection E as <- E. cbn. by apply (H es1 es2). Qed.
Lemma keep_shrinks h e : (forall c, e <> Gives c) -> (length (keep h e) <= length h)%nat.
Proof. intros He. destruct e as [c|c|c| |c r|c o|c f|]; cbn; try apply filter_length; try lia. by destruct (He c). Qed.
Lemma never_more_shrink h es : (length h <= 1)%nat -> Forall (fun e => forall c, e <> Gives c) es -> never_more h es.
Proof.
  intros Hh H. revert h Hh. induction H as [|e es He _ IH]; intros h Hh; [by apply never_more_nil|].
  apply never_more_cons; [done|]. apply IH. etransitivity; [by apply keep_shrinks|done].
Qed.
Lemma never_more_gives cs : (length cs <= 1)%nat -> never_more [] (Gives <$> cs).
Proof.
  destruct cs as [|c [|? ?]]; cbn; intros H; [|apply never_more_cons; cbn; [lia|]|lia]; apply never_more_nil; cbn; lia.
Qed.
Lemma call_careful l es r :
  Forall (fun a => match a with
    | LostAnswer cs | CutWaiting cs | CutAnswered cs => (length cs <= 1)%nat
    | AnswerOf cs => (length cs <= 1)%nat /\ Forall (fun x => x.2 <> FetchFails) cs
    | _ => True end) l ->
  reserve_call l = (es, r) ->
  never_more [] es /\ match r with RaisedError => reserved_after es = [] | Returned l' => reserved_after es = l'.*1 /\ (length l' <= 1)%nat | _ => True end.
Proof.
  intros H. revert es r. induction H as [|a l Ha _ IH]; intros es r E.
  { injection E as <- <-. split; [|done]. apply never_more_nil. cbn. lia. }
  assert (Hd : never_more [] [Disconnects]) by (apply never_more_shrink; [cbn; lia|by repeat constructor]).
  destruct a as [|cs| |cs|cs| |[|x cs]]; cbn [reserve_call] in E.
  - injection E as <- <-. done.
  - injection E as <- <-. split; [|by rewrite reserved_app]. apply never_more_app; [by apply never_more_gives|].
    apply never_more_shrink; [by rewrite keep_gives|by repeat constructor].
  - injection E as <- <-. done.
  - injection E as <- <-. split; [|done]. apply never_more_app; [by apply never_more_gives|].
    apply never_more_shrink; [by rewrite keep_gives|]. apply Forall_fmap, Forall_true. done.
  - injection E as <- <-. split; [|done]. by apply never_more_gives.
  - injection E as <- <-. split; [|done]. apply never_more_nil. cbn. lia.
  - auto.
  - destruct Ha as [Hl Hx]. assert (es = Gives <$> (x :: cs).*1) as -> by congruence. assert (collect (x :: cs) = r) as <- by congruence.
    split; [apply never_more_gives; by rewrite fmap_length|]. destruct (collect (x :: cs)) as [|l'| |] eqn:Ec; try done.
    + pose proof (collect_returned _ _ Ec) as E1. rewrite <- E1. split; [unfold reserved_after; by rewrite keep_gives|].
      rewrite <- (fmap_length fst l'), <- E1, fmap_length. done.
    + exfalso. destruct cs as [|y cs]; [|cbn in Hl; lia]. destruct x as [c f]. apply Forall_cons in Hx as [Hx _]. cbn in *. destruct f; done.
Qed.
Lemma careful_attempts l : Forall (fun a => match a with
    | LostAnswer cs | CutWaiting cs | CutAnswered cs => (length cs <= 1)%nat
    | AnswerOf cs => (length cs <= 1)%nat
    | _ => True end) l -> Forall (fun a => match a with AnswerOf cs => Forall (fun x => x.2 <> FetchFails) cs | _ => True end) l ->
  Forall (fun a => match a with
    | LostAnswer cs | CutWaiting cs | CutAnswered cs => (length cs <= 1)%nat
    | AnswerOf cs => (length cs <= 1)%nat /\ Forall (fun x => x.2 <> FetchFails) cs
    | _ => True end) l.
Proof. rewrite !Forall_forall. intros H1 H2 a Ha. specialize (H1 a Ha). specialize (H2 a Ha). destruct a; auto. Qed.
Lemma consume_careful l : Forall one_each l -> Forall store_works l -> never_more [] (consume l).
Proof.
  induction l as [|r l IH]; [by intros _ _; apply never_more_nil; cbn; lia|].
  intros [Hr0 Hl0]%Forall_cons [Hr1 Hl1]%Forall_cons. specialize (IH Hl0 Hl1).
  destruct r as [attempts works|c]; cbn [consume]; [|by apply never_more_cons; cbn; [lia|]].
  destruct Hr1 as [Hr1 Hw]. pose proof (careful_attempts _ Hr0 Hr1) as Ha. destruct (reserve_call attempts) as [es r] eqn:E. destruct (call_careful _ _ _ Ha E) as [H1 H2].
  assert (Hstop : forall h, (length h <= 1)%nat -> never_more h [LoopStops]) by (intros h Hh; apply never_more_shrink; [done|by repeat constructor]).
  assert (Hend : (length (foldl keep [] es) <= 1)%nat) by (apply (H1 es []); by rewrite app_nil_r).
  destruct r as [|cs| |]; [done| | |by apply never_more_app; auto].
  2: { apply never_more_app; [done|]. change (foldl keep [] es) with (reserved_after es). by rewrite H2. }
  destruct H2 as [H2 Hl]. destruct (work_on cs works) as [es' o] eqn:Ew.
  apply never_more_app; [done|]. change (foldl keep [] es) with (reserved_after es) in *. rewrite H2 in *. clear H1 E.
  destruct cs as [|[c s] [|? ?]]; [|clear Hl|cbn in Hl; lia].
  { injection Ew as <- <-. done. }
  cbn [fmap list_fmap fst] in *. destruct works as [|[f t] works]; [injection Ew as <- <-; by apply never_more_nil|].
  apply Forall_cons in Hw as [Hw _]. cbn [work_on] in Ew.
  assert (Hf : base.filter (.≠ c) [c] = []) by (rewrite filter_cons_False by (intros Hc; by apply Hc); done).
  assert (Hr : forall f', foldl keep [c] [Works c f'; report_of f c] = []) by (intros f'; destruct f; cbn; exact Hf).
  assert (Hg : forall es0, never_more [c] (Works c f :: es0 ++ [LoopStops]) -> never_more [c] ((Works c f :: es0) ++ [LoopStops])) by done.
  assert (Hs : Forall (fun e => forall c0, e <> Gives c0) [Works c f; report_of f c]) by (destruct f; by repeat constructor).
  assert (Hnm : never_more [c] [Works c f; report_of f c]) by (by apply never_more_shrink).
  assert (Hgo : never_more [c] ([Works c f; report_of f c] ++ consume l)) by (apply never_more_app; [done|]; by rewrite Hr).
  assert (Hno : never_more [c] ([Works c f; report_of f c] ++ [LoopStops])) by (apply never_more_app; [done|]; rewrite Hr; apply Hstop; cbn; lia).
  destruct t; cbn [tell] in Ew.
  - destruct f as [out|[] text]; injection Ew as <- <-; done.
  - injection Ew as <- <-. apply never_more_app; [by apply never_more_shrink; [|repeat constructor]|]. done.
  - destruct f as [out|[] text]; [done|..]; injection Ew as <- <-; done.
  - injection Ew as <- <-. apply never_more_app; [by apply never_more_shrink; [|repeat constructor]|]. by apply Hstop.
  - injection Ew as <- <-. done.
Qed.

(** *** The function is called for chunks that are reserved *)
Definition works_own (h : list chunk_id) (es : list consumer_event) : Prop :=
  forall es1 c r es2, es = es1 ++ Works c r :: es2 -> c ∈ foldl keep h es1.
Lemma works_own_app h es es' : works_own h es -> works_own (foldl keep h es) es' -> works_own h (es ++ es').
Proof.
  intros H H' es1 c r es2 E. apply app_eq_inv in E as [(k & -> & E)|(k & -> & E)].
  - rewrite foldl_app in H'. destruct k as [|e k]; cbn in E.
    + rewrite <- E in H'. by apply (H' [] c r es2).
    + injection E as <- ->. by apply (H es1 c r k).
  - rewrite foldl_app. by apply (H' k c r es2).
Qed.
Lemma works_own_none h es : Forall (fun e => forall c r, e <> Works c r) es -> works_own h es.
Proof.
  intros H es1 c r es2 ->. apply Forall_app in H as [_ H]. apply Forall_cons in H as [H _]. by destruct (H c r).
Qed.
Lemma call_no_works l es r : reserve_call l = (es, r) -> Forall (fun e => forall c r, e <> Works c r) es.
Proof.
  assert (Hg : forall cs : list chunk_id, Forall (fun e => forall c r, e <> Works c r) (Gives <$> cs)) by (intros cs; apply Forall_fmap, Forall_true; done).
  assert (Hb : forall cs : list chunk_id, Forall (fun e => forall c r, e <> Works c r) (GivesBack <$> cs)) by (intros cs; apply Forall_fmap, Forall_true; done).
  revert es r. induction l as [|a l IH]; intros es r E; [by injection E as <- <-|].
  destruct a as [|cs| |cs|cs| |[|x cs]]; cbn [reserve_call] in E.
  7: by eapply IH.
  7: { assert (es = Gives <$> (x :: cs).*1) as -> by congruence. apply Hg. }
  - injection E as <- <-. by repeat constructor.
  - injection E as <- <-. apply Forall_app. split; [apply Hg|by repeat constructor].
  - injection E as <- <-. by repeat constructor.
  - injection E as <- <-. apply Forall_app. split; [apply Hg|apply Hb].
  - injection E as <- <-. apply Hg.
  - injection E as <- <-. by constructor.
Qed.
Lemma works_own_nil h : works_own h [].
Proof. apply works_own_none. constructor. Qed.
Lemma works_own_stop h : works_own h [LoopStops].
Proof. apply works_own_none. by repeat constructor. Qed.
Lemma consume_own l : Forall one_each l -> forall h, works_own h (consume l).
Proof.
  induction 1 as [|r l Hr _ IH]; intros h; [apply works_own_nil|].
  destruct r as [attempts works|c]; cbn [consume].
  2: { apply (works_own_app h [TimesOut c]); [apply works_own_none; by repeat constructor|apply IH]. }
  destruct (reserve_call attempts) as [es r] eqn:E. pose proof (call_no_works _ _ _ E) as Hn.
  destruct r as [|cs| |].
  - by apply works_own_none.
  - destruct (work_on cs works) as [es' o] eqn:Ew. apply works_own_app; [by apply works_own_none|].
    assert (Hl : (length cs <= 1)%nat). { clear -Hr E. cbn in Hr. revert es cs E. induction Hr as [|a l Ha _ IH]; intros es cs E; [done|].
      destruct a as [|ds| |ds|ds| |[|x ds]]; cbn [reserve_call] in E; try discriminate E; [by eapply IH|].
      assert (Hc : collect (x :: ds) = Returned cs) by congruence. apply collect_returned in Hc. rewrite <- (fmap_length fst cs), <- Hc, fmap_length. done. }
    apply call_returned in E as [-> _]. rewrite keep_gives.
    assert (Hrest : forall h', works_own h' (match o with Some true => consume l | Some false => [LoopStops] | None => [] end)).
    { intros h'. destruct o as [[]|]; [apply IH|apply works_own_stop|apply works_own_nil]. }
    apply works_own_app; [|done]. destruct cs as [|[c s] [|? ?]]; [| |cbn in Hl; lia].
    { injection Ew as <- <-. apply works_own_nil. }
    destruct works as [|[f t] works]; [injection Ew as <- <-; apply works_own_nil|].
    assert (exists es0, es' = Works c f :: es0 /\ Forall (fun e => forall c r, e <> Works c r) es0) as (es0 & -> & H0).
    { cbn [work_on] in Ew. destruct (tell f c t) as [et s'] eqn:Et.
      assert (Ht : Forall (fun e => forall c r, e <> Works c r) et). { destruct t, f; injection Et as <- <-; repeat constructor; done. }
      exists et. split; [|done]. destruct s'; [|congruence..]. destruct f as [out|[] text]; try congruence; injection Ew as <- <-; by rewrite app_nil_r. }
    intros [|e es1] c' r' es2 E'.
    + injection E' as <- <- <-. cbn. apply elem_of_app. right. left.
    + injection E' as <- ->. exfalso. apply Forall_app in H0 as [_ H0]. apply Forall_cons in H0 as [H0 _]. by destruct (H0 c' r').
  - apply works_own_app; [by apply works_own_none|apply IH].
  - apply works_own_app; [by apply works_own_none|apply works_own_stop].
Qed.
(** The chunks of a list, each given and kept. *)
Lemma gives_fair l : NoDup l -> fair_server (Gives <$> l).
Proof.
  intros Hd es1 c es2 E. apply fmap_app_inv in E as (l1 & l2 & -> & E2 & ->).
  destruct l2 as [|c' l2]; [done|]. injection E2 as <- _. unfold reserved_after. rewrite keep_gives. cbn.
  apply NoDup_app in Hd as (_ & Hd & _). intros Hc. apply (Hd c Hc). left.
Qed.

(** *** Reports *)
(** A report follows at once on the call of the function for its chunk, and says what it gave. *)
Definition reports_true (es : list consumer_event) : Prop :=
  forall es1 e es2, es = es1 ++ e :: es2 ->
    match e with
    | CompletesChunk c out => last es1 = Some (Works c (Output out))
    | FailsChunk c text => exists x, last es1 = Some (Works c (Raises x text))
    | _ => True
    end.
Lemma reports_true_app es es' : reports_true es -> reports_true es' -> reports_true (es ++ es').
Proof.
  intros H H' es1 e es2 E. apply app_eq_inv in E as [(k & -> & E)|(k & -> & E)].
  - destruct k as [|e' k]; cbn in E.
    + specialize (H' [] e es2 (eq_sym E)). destruct e; try done. by destruct H' as [? ?].
    + injection E as <- ->. by apply (H es1 e k).
  - specialize (H' k e es2 E). destruct e; try done; rewrite last_app; [by rewrite H'|]. destruct H' as [x H']. exists x. by rewrite H'.
Qed.
Lemma reports_true_none es : Forall (fun e => match e with CompletesChunk _ _ | FailsChunk _ _ => False | _ => True end) es -> reports_true es.
Proof. intros H es1 e es2 ->. apply Forall_app in H as [_ H]. apply Forall_cons in H as [H _]. by destruct e. Qed.
Lemma call_no_reports l es r : reserve_call l = (es, r) -> reports_true es.
Proof.
  assert (Hg : forall cs : list chunk_id, reports_true (Gives <$> cs)) by (intros cs; apply reports_true_none, Forall_fmap, Forall_true; done).
  assert (Hb : forall cs : list chunk_id, reports_true (GivesBack <$> cs)) by (intros cs; apply reports_true_none, Forall_fmap, Forall_true; done).
  assert (Hd : reports_true [Disconnects]) by (apply reports_true_none; by repeat constructor).
  assert (Hn : reports_true []) by (apply reports_true_none; constructor).
  revert es r. induction l as [|a l IH]; intros es r E; [by injection E as <- <-|].
  destruct a as [|cs| |cs|cs| |[|x cs]]; cbn [reserve_call] in E.
  7: by eapply IH.
  7: { assert (es = Gives <$> (x :: cs).*1) as -> by congruence. apply Hg. }
  all: injection E as <- <-; auto using reports_true_app.
Qed.
Lemma work_reports l : forall works es o, work_on l works = (es, o) -> reports_true es.
Proof.
  assert (Hn : reports_true []) by (apply reports_true_none; constructor).
  induction l as [|[c s] l IH]; intros works es o E; [by injection E as <- <-|]. destruct works as [|[f t] works]; [by injection E as <- <-|].
  assert (Hr : reports_true [Works c f; report_of f c]).
  { intros [|e1 [|e2 es1]] e es2 Ee; [by injection Ee as <- <-| |by destruct es1].
    injection Ee as <- <- <-. destruct f; cbn; [done|by eexists]. }
  assert (Hw : forall es, es = [] \/ es = [Disconnects] -> reports_true (Works c f :: es)).
  { intros es' [->| ->]; apply reports_true_none; by repeat constructor. }
  cbn [work_on] in E. destruct (tell f c t) as [et s'] eqn:Et.
  assert (Ht : reports_true (Works c f :: et)).
  { destruct t; cbn [tell] in Et; [|..|]; try (injection Et as <- <-; by auto). destruct f; injection Et as <- <-; auto. }
  destruct s'; [|by injection E as <- <-..]. destruct (work_on l works) as [es' o'] eqn:Ew.
  assert (He : reports_true ((Works c f :: et) ++ es')) by (apply reports_true_app; [done|by eapply IH]).
  destruct f as [out|[] text]; by injection E as <- <-.
Qed.
Lemma consume_reports l : reports_true (consume l).
Proof.
  assert (Hn : reports_true []) by (apply reports_true_none; constructor).
  assert (Hs : reports_true [LoopStops]) by (apply reports_true_none; by repeat constructor).
  induction l as [|r l IH]; [done|]. destruct r as [attempts works|c]; cbn [consume].
  2: { apply (reports_true_app [TimesOut c]); [apply reports_true_none; by repeat constructor|done]. }
  destruct (reserve_call attempts) as [es r] eqn:E. apply call_no_reports in E. destruct r as [|cs| |]; auto using reports_true_app.
  destruct (work_on cs works) as [es' o] eqn:Ew. apply work_reports in Ew. repeat apply reports_true_app; [done..|]. by destruct o as [[]|].
Qed.

(** *** The loop of RunLoop.v *)
Lemma work_batch cs : forall works done es o, (length cs <= length works)%nat -> work_on cs works = (es, o) ->
  let '(es', o') := batch done (zip_with (fun c w => (c.1, w.1, (tell w.1 c.1 w.2).2)) cs works) in
  omap seen_event es = omap seen_loop_event es' /\
  match o' with Done _ => o = Some true | RunLoop.Failed => o = Some true | Fatal => o = Some false end.
Proof.
  induction cs as [|[c k] cs IH]; intros works dn es o Hl E; [destruct works; by injection E as <- <-|].
  destruct works as [|[f t] works]; [cbn in Hl; lia|]. cbn [length] in Hl. cbn [work_on] in E. destruct (tell f c t) as [et s] eqn:Et.
  assert (Hn : omap seen_event et = []).
  { destruct t; cbn [tell] in Et; try (by injection Et as <- <-; destruct f). destruct f; by injection Et as <- <-. }
  cbn [zip_with batch fst snd]. rewrite Et. cbn [snd].
  destruct (work_on cs works) as [es1 o1] eqn:Ew.
  specialize (IH works (saturating_add dn 1) es1 o1 ltac:(lia) Ew).
  destruct (batch (saturating_add dn 1) _) as [es2 o2] eqn:Eb. destruct IH as [IH1 IH2].
  assert (Hp : omap seen_loop_event ((if saturating_add dn 1 mod 50 =? 0 then [LogsProgress (saturating_add dn 1)] else []) ++ es2) = omap seen_event es1).
  { rewrite omap_app, IH1. by destruct (_ =? 0). }
  assert (Hf : omap seen_event (Works c f :: et ++ es1) = Some (c, f) :: omap seen_event es1).
  { cbn [app omap list_omap seen_event]. by rewrite omap_app, Hn. }
  destruct f as [out|x text], s; try destruct x; injection E as <- <-; cbn [fst snd];
    first [ split; [rewrite Hf; cbn [app omap list_omap seen_loop_event]; by rewrite Hp|done]
          | split; [cbn [omap list_omap seen_event seen_loop_event]; by rewrite Hn|done] ].
Qed.
Lemma reserve_unseen attempts : omap seen_event (reserve_call attempts).1 = [].
Proof.
  assert (H1 : forall cs, omap seen_event (Gives <$> cs) = []) by (induction cs as [|c cs IH]; [done|exact IH]).
  assert (H2 : forall cs, omap seen_event (GivesBack <$> cs) = []) by (induction cs as [|c cs IH]; [done|exact IH]).
  induction attempts as [|a l IH]; [done|]. destruct a as [|cs| |cs|cs| |[|x cs]]; cbn [reserve_call fst]; try done.
  - by rewrite omap_app, H1.
  - by rewrite omap_app, H1, H2.
Qed.
Lemma consume_loop l : Forall finished l -> forall dn, omap seen_event (consume l) = omap seen_loop_event (run_loop dn (omap loop_round l)).
Proof.
  induction 1 as [|r l Hr Hl IH]; intros dn; [done|]. destruct r as [attempts works|c]; [|apply IH].
  cbn [consume omap list_omap loop_round finished] in *. pose proof (reserve_unseen attempts) as Hu. destruct (reserve_call attempts) as [es r]. cbn [fst snd] in *.
  destruct r as [|cs| |]; [done| | |].
  - destruct (work_on cs works) as [es' o] eqn:Ew. pose proof (work_batch cs works dn es' o Hr Ew) as H.
    cbn [run_loop compute_chunk_outcome]. destruct (batch dn _) as [es2 o2]. destruct H as [H1 H2].
    rewrite !omap_app, Hu, H1. destruct o2; subst o; rewrite omap_app; cbn [app]; f_equal; by auto.
  - cbn [run_loop compute_chunk_outcome]. rewrite omap_app, Hu. apply IH.
  - cbn [run_loop compute_chunk_outcome]. by rewrite omap_app, Hu.
Qed.
