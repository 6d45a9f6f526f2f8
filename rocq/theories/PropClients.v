(** C38, C39, C43, C44, C58, C59: the clients of producers and consumers.
    Vocabulary: ProducerClient.v, ConsumerClient.v, History.v, Spec.v. *)
From Coq Require Import Ascii.
From Verif Require Import AnswerProofs ProducerClientProofs ConsumerClientProofs.
Local Open Scope N_scope.

(** ** C38 *)
(** A connection is closed for missed heartbeats if and only if m+2 ticks followed each other
    without a message between them. *)
Theorem C38_heartbeats : forall m l, beats m l = None <-> exists l1 l2, l = l1 ++ replicate (N.to_nat (m + 2)) Tick ++ l2.
Proof. exact beats_closed_iff. Qed.
Print Assumptions C38_heartbeats.
(** With the clock: the messages that come at the times [messages] since the connection was set up
    are heard until the first gap that is too long. The connection is closed [(m + 2) * period] after
    the last message that was heard, and without any at [(m + 1) * period]; it is always closed in
    the end, if the messages end. *)
Theorem C38_time : forall m period messages,
  exists heard rest closed, messages = heard ++ rest /\
    (forall T, (exists fuel, closes_at m period 0 0 messages fuel = Some T) <-> T = closed) /\
    closed = match last heard with Some t => t + (m + 2) * period | None => (m + 1) * period end /\
    (forall t, head heard = Some t -> t < (m + 1) * period) /\
    (forall i t t', heard !! i = Some t -> heard !! S i = Some t' -> t' < t + (m + 2) * period) /\
    (forall t, head rest = Some t -> closed <= t).
Proof.
  intros m p ts. destruct (lasts_spec m p ts ((m + 1) * p)) as (heard & rest & E & H1 & H2 & H3 & H4).
  exists heard, rest, (lasts_until m p ((m + 1) * p) ts). split; [done|]. split; [|done].
  assert (G : forall fuel T, closes_at m p 0 0 ts fuel = Some T -> T = lasts_until m p ((m + 1) * p) ts).
  { intros fuel T H. apply closes_lasts in H; [|lia]. rewrite H. f_equal. lia. }
  intros T. split; [intros [fuel H]; by eapply G|]. intros ->. destruct (closes_enough m p ts 0 0 ltac:(lia)) as (fuel & T & H).
  exists fuel. by rewrite <- (G _ _ H).
Qed.
Print Assumptions C38_time.
Example C38_example :
  beats 1 [Tick; Tick; Message; Tick; Tick] = Some 2 /\ beats 1 [Tick; Tick; Message; Tick; Tick; Tick; Message] = None /\
  closes_at 1 10 0 0 [5; 12] 20 = Some 42.
Proof. by vm_compute. Qed.

(** ** C39 *)
(** An answer that a caller gets is a response to the caller's own request, and the only one. *)
Theorem C39_own_answer : forall l s k n a, Answered k n a ∈ then_does l s ->
  s = Respond n a /\ Requested k n ∈ effects l /\ forall e, e ∈ effects l -> ~ returned k e.
Proof. exact answered_by. Qed.
Print Assumptions C39_own_answer.
(** While the background task runs, each response reaches the call that waits for it, and nothing else. *)
Theorem C39_delivered : forall l k n a, task_after l = Running -> waiting_call l k n -> then_does l (Respond n a) = [Answered k n a].
Proof. exact response_delivered. Qed.
Print Assumptions C39_delivered.
(** Calls that wait have different nonces, and the nonces of all messages that ever left on the
    connection, fire-and-forget or not, are different. *)
Theorem C39_nonces : forall l,
  (forall k k' n, waiting_call l k n -> waiting_call l k' n -> k = k') /\
  (task_after l = Running -> NoDup (omap nonce_sent (effects l))).
Proof.
  intros l. split; [intros k k' n; by apply pending_distinct|]. intros Ht. exact (ci_nodup _ _ _ (cinv_run l) Ht).
Qed.
Print Assumptions C39_nonces.
(** A caller that went away: each chunk of the response to it is handed back, in order. *)
Theorem C39_handed_back : forall l1 l2 k n cs,
  let l := l1 ++ GiveUp k :: l2 in
  task_after l = Running -> Requested k n ∈ effects l1 -> (forall a, Respond n a ∉ l) ->
  exists n0, then_does l (Respond n (Some cs)) = imap (fun i c => GaveBack (n0 + N.of_nat i) c) cs.
Proof.
  intros l1 l2 k n cs l Ht Hr Hno. exists (cl_counter (fst (client_run client_new l))).
  rewrite (response_given_back l k n cs Ht); [|by apply effects_app_incl|done|by exists l1, l2].
  generalize (cl_counter (fst (client_run client_new l))). clear. induction cs as [|c cs IH]; intros n; [done|].
  cbn [give_back imap]. f_equal; [f_equal; lia|]. rewrite IH. apply imap_ext. intros i c' _. simpl. f_equal. lia.
Qed.
Print Assumptions C39_handed_back.
(** No response of a server that answers each request once makes the background task panic. *)
Theorem C39_no_panic : forall l, proper_server l -> TaskPanicked ∉ effects l.
Proof. exact no_panic. Qed.
Print Assumptions C39_no_panic.
Definition ex_calls : list cstep := [Request true; Notify; Request true; GiveUp 0; Request true; Respond 3 (Some [(7, 0)])].
Example C39_example :
  effects ex_calls = [Requested 0 0; Notified 1; Requested 1 2; Requested 2 3; Answered 2 3 (Some [(7, 0)])] /\
  task_after ex_calls = Running /\ waiting_call ex_calls 1 2 /\
  then_does ex_calls (Respond 0 (Some [(5, 1); (5, 2)])) = [GaveBack 4 (5, 1); GaveBack 5 (5, 2)].
Proof.
  assert (E : effects ex_calls = [Requested 0 0; Notified 1; Requested 1 2; Requested 2 3; Answered 2 3 (Some [(7, 0)])]) by (by vm_compute).
  split; [done|]. split; [done|]. split; [|by vm_compute]. unfold waiting_call. rewrite E.
  split; [do 2 apply elem_of_list_further; apply elem_of_list_here|]. split.
  - unfold ex_calls. rewrite !not_elem_of_cons. repeat (split; [done|]). apply not_elem_of_nil.
  - intros e He Hr. repeat (apply elem_of_cons in He as [->|He]; [unret|]); [done|by apply elem_of_nil in He].
Qed.

(** ** C43 *)
(** If no reply gets lost, an insert call that succeeds has created its submission and no other:
    the ids that the server drew for the other attempts are unknown. *)
Theorem C43_one_submission_partial : forall h c m st z l id d' k,
  (0 < length (contents_of c).2)%nat ->
  call (PInsert c m st z) (after h) l = Some (inr (BId id), d', k) ->
  fresh_ids (h ++ attempt_events (insert_op c m st z) (take k l)) -> Forall replied (take k l) ->
  (exists ot, reports d' id (InProgress (Submission id (contents_of c).1 (N.of_nat (length (contents_of c).2)) 0 (default 1%Z z) m st ot))) /\
  id ∈ attempt_ids (take k l) /\ forall id', id' ∈ attempt_ids (take k l) -> id' <> id -> unknown d' id'.
Proof.
  intros h c m st z l id d' k Hlen Hc Hf Hr.
  destruct (insert_call c m st z Hlen _ _ _ _ _ _ Hc Hf Hr) as (h0 & e & s & -> & Hf' & Eo & Es & Ha & Hid & _ & Hother).
  split; [|split; [done|]].
  - exists (sv_otel s). rewrite app_assoc in Hf' |- *. unfold insert_op in Eo. rewrite Es in Eo.
    rewrite (insert_answered _ _ _ _ _ _ _ _ _ _ _ Hf' Eo Ha). rewrite Eo.
    assert (Hq : fresh_ids ((h ++ h0) ++ [quiet (OInsert id (contents_of c).1 (contents_of c).2 m st (default 1%Z z) (sv_otel s) (sv_n1 s))])).
    { unfold fresh_ids, inserted_ids in *. rewrite omap_app in *. simpl in *. unfold History.insert_id in Hf'. rewrite Eo in Hf'. done. }
    destruct (insert_quiet _ _ _ _ _ _ _ _ _ Hq) as (_ & H & _). by destruct (contents_of c).2; [simpl in Hlen; lia|].
  - intros id' Hin Hne. apply unknown_view. rewrite view_fresh; [done|done|]. by apply Hother.
Qed.
Print Assumptions C43_one_submission_partial.
(** What is missing is false: when a reply gets lost, the retry creates a second submission. *)
Theorem C43_one_submission_refuted : exists c m st z l id id' d' k s s',
  call (PInsert c m st z) db_empty l = Some (inr (BId id), d', k) /\ others l = [] /\ id' ∈ attempt_ids (take k l) /\ id' <> id /\
  reports d' id (InProgress s) /\ reports d' id' (InProgress s') /\ waiting d' (id, 0) <> None /\ waiting d' (id', 0) <> None.
Proof.
  pose (l := [Served (Serving [] 10 1 "o" 5 5 [] None (Some NTimeout) None); Served (Serving [] 10 2 "o" 6 6 [] None None None)]).
  pose (r := call (PInsert (Direct [Some "x"%string]) None ∅ None) db_empty l).
  assert (E : exists d', r = Some (inr (BId 2), d', 2%nat) /\
    status_of d' 2 = Ok (Some (InProgress (Submission 2 None 1 0 1 None ∅ "o"))) /\ status_of d' 1 = Ok (Some (InProgress (Submission 1 None 1 0 1 None ∅ "o"))) /\
    waiting d' (2, 0) <> None /\ waiting d' (1, 0) <> None).
  { eexists. split; [by vm_compute|]. by vm_compute. }
  destruct E as (d' & Hc & H2 & H1 & W2 & W1).
  exists (Direct [Some "x"%string]), None, ∅, None, l, 2, 1, d', 2%nat, (Submission 2 None 1 0 1 None ∅ "o"), (Submission 1 None 1 0 1 None ∅ "o").
  repeat (split; [done || apply elem_of_list_here|]). done.
Qed.
Print Assumptions C43_one_submission_refuted.
Example C43_example :
  let l := [NotServed NConnect; Served (Serving [] 10 1 "o" 5 5 [false; true] None None None); Served (Serving [] 10 2 "o" 6 6 [] None None None)] in
  let q := PInsert (Direct [Some "x"%string]) None ∅ None in
  (exists d', call q db_empty l = Some (inr (BId 2), d', 3%nat)) /\ Forall replied (take 3 l) /\
  fresh_ids ([] ++ attempt_events (insert_op (Direct [Some "x"%string]) None ∅ None) (take 3 l)).
Proof.
  split; [eexists; by vm_compute|]. split; [repeat (apply Forall_cons; split; [done|]); by apply Forall_nil|].
  apply (bool_decide_unpack _). by vm_compute.
Qed.

(** ** C44 *)
(** Attempts [0 .. k-1] were made, at most 101; all but the last failed in a way that may go away;
    the last gives the result, and if it failed in such a way too, all 101 attempts were used up. *)
Theorem C44_retries : forall q d l r d' k, call q d l = Some (r, d', k) ->
  (0 < k <= 101)%nat /\ (k <= length l)%nat /\
  (forall i, (S i < k)%nat -> exists x, exchanges q d l !! i = Some x /\ transient q x) /\
  exists x, exchanges q d l !! (k - 1)%nat = Some x /\ r = outcome q x /\ (transient q x -> k = 101%nat).
Proof. intros q d l r d' k. apply call_spec. Qed.
Print Assumptions C44_retries.
(** A call goes on only as long as all attempts failed in such a way, and 100 at most. *)
Theorem C44_goes_on : forall q d l, call q d l = None -> (length l <= 100)%nat /\ Forall (transient q) (exchanges q d l).
Proof. intros q d l. apply call_pending. Qed.
Print Assumptions C44_goes_on.
Example C44_example :
  let ok := Served (Serving [] 10 2 "o" 6 6 [] None None None) in
  (exists d', call PCount db_empty [NotServed NConnect; NotServed NTimeout; ok] = Some (inr (BCount 0), d', 3%nat)) /\
  (exists d', call (PCancel 9) db_empty [ok; ok] = Some (inl (CNotFound 9), d', 1%nat)) /\
  (exists d', call PCount db_empty [Intercepted 503; Intercepted 599; Intercepted 499; ok] = Some (inl (CStatus 499), d', 3%nat)) /\
  (exists d', call PCount db_empty (replicate 200 (NotServed NConnect)) = Some (inl (CHttp NConnect), d', 101%nat)).
Proof. repeat (split; [eexists; by vm_compute|]). eexists; by vm_compute. Qed.

(** ** C59 *)
(** If no reply gets lost, the result of a cancel call tells what it did: success, and it has cancelled
    a submission that was in progress; or a refusal, the submission being finished (or unknown)
    without its doing, and nothing has changed. [h ++ others (take k l)] is what others did. *)
Theorem C59_told_partial : forall h id l r d' k,
  call (PCancel id) (after h) l = Some (r, d', k) -> Forall replied (take k l) ->
  let h1 := h ++ others (take k l) in
  fresh_ids h1 -> clocks_ok h1 ->
  match r with
  | inr _ => (exists st, reports (after h1) id (InProgress st)) /\ exists n1 n2, d' = after (h1 ++ [quiet (OCancel id n1 n2)])
  | inl (CNotCancellable st) => reports (after h1) id st /\ terminal st /\ d' = after h1
  | inl (CNotFound id') => id' = id /\ unknown (after h1) id /\ d' = after h1
  | inl (CUnexpected _) | inl (CHttp _) => True
  | inl _ => False
  end.
Proof. intros h id l r d' k Hc Hr h1 Hf Hk. exact (cancel_call id _ _ _ _ _ _ Hc Hr Hf Hk). Qed.
Print Assumptions C59_told_partial.
(** What is missing is false: the call itself cancels, the reply is lost, and the retry is refused. *)
Theorem C59_told_refuted : exists h id l st d' k s,
  fresh_ids h /\ call (PCancel id) (after h) l = Some (inl (CNotCancellable st), d', k) /\ others l = [] /\
  reports (after h) id (InProgress s) /\ reports d' id st /\ ~ not_cancelled st.
Proof.
  pose (h := [quiet (OInsert 1 None [None] None ∅ 1 "o" 1)]).
  pose (l := [Served (Serving [] 10 0 "o" 5 5 [] None (Some NTimeout) None); Served (Serving [] 10 0 "o" 6 6 [] None None None)]).
  assert (E : exists d' st, call (PCancel 1) (after h) l = Some (inl (CNotCancellable st), d', 2%nat) /\ status_of d' 1 = Ok (Some st) /\ ~ not_cancelled st).
  { eexists _, _. split; [by vm_compute|]. split; [by vm_compute|]. intros []. }
  destruct E as (d' & st & Hc & Hs & Hn). exists h, 1, l, st, d', 2%nat, (Submission 1 None 1 0 1 None ∅ "o").
  split; [apply (bool_decide_unpack _); by vm_compute|]. split; [done|]. split; [done|]. split; [by vm_compute|]. done.
Qed.
Print Assumptions C59_told_refuted.
Example C59_example :
  let h := [quiet (OInsert 1 None [None] None ∅ 1 "o" 1)] in
  let l := [NotServed NConnect; Served (Serving [] 10 0 "o" 5 5 [] None None None)] in
  exists d', call (PCancel 1) (after h) l = Some (inr BNone, d', 2%nat).
Proof. eexists. by vm_compute. Qed.

(** ** C58 *)
(** When the background task ends because the connection was lost, every reserve call that waits
    at that time returns with an error. *)
Theorem C58_pending_fail_partial : forall l k n,
  task_after l = Clearing -> waiting_call l k n -> CallFailed k ∈ then_does l LoseEnd.
Proof. exact lost_fails. Qed.
Print Assumptions C58_pending_fail_partial.
(** What is missing is false: a call that comes after that, on a socket that still takes messages
    (the task also ends when a message cannot be read, e.g. because it is too large), never returns,
    whatever happens. *)
Theorem C58_later_calls_refuted : exists l k n, task_after l = Ended /\ waiting_call l k n /\
  forall l' e, e ∈ effects (l ++ l') -> ~ returned k e.
Proof.
  exists [LoseBegin; LoseEnd; Request true], 0, 0. split; [done|].
  assert (E : effects [LoseBegin; LoseEnd; Request true] = [Requested 0 0]) by (by vm_compute).
  assert (Hno : forall e, e ∈ effects [LoseBegin; LoseEnd; Request true] -> ~ returned 0 e).
  { rewrite E. intros e ->%elem_of_list_singleton H. unret. }
  split.
  - unfold waiting_call. split; [rewrite E; apply elem_of_list_here|]. split; [|done].
    rewrite !not_elem_of_cons. repeat (split; [done|]). apply not_elem_of_nil.
  - intros l'. apply ended_forever; [done|by vm_compute|done].
Qed.
Print Assumptions C58_later_calls_refuted.
Example C58_example : task_after [Request true; LoseBegin] = Clearing /\ then_does [Request true; LoseBegin] LoseEnd = [CallFailed 0].
Proof. by vm_compute. Qed.
