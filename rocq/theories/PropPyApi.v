(** The theorems about the Python API of producers: C76 - C79. See properties.jsonl for the English
    statements, and PyApiProofs.v, "Specification", for [shows] and [shows_refusal]. *)
From Verif Require Import PyApiProofs PropClients.
Local Open Scope N_scope.

(** ** C76 *)
(** [h ++ others (take k l)]: everything that was done on the server up to the moment of the attempt
    that gave the result. *)
Theorem C76_status : forall h id l r d' k, call (PStatus id) (after h) l = Some (r, d', k) ->
  let h1 := h ++ others (take k l) in
  d' = after h1 /\
  match py_get_submission_status r with
  | Some (inr (Some o)) => exists st, reports (after h1) id st /\ shows st o
  | Some (inr None) => unknown (after h1) id
  | Some (inl x) => x = internal_error
  | None => False
  end.
Proof.
  intros h id l r d' k H h1. destruct (status_call id h l r d' k H) as [Hd [(st & -> & Hst)|[[-> Hu]|[Hn Hp]]]]; (split; [done|]).
  - cbn. exists st. split; [done|apply of_status_shows].
  - done.
  - destruct r as [e|b]; [|done]. unfold py_get_submission_status, finish. rewrite Hp. done.
Qed.
Print Assumptions C76_status.
Theorem C76_prefix : forall h p l r d' k, call (PByPrefix p) (after h) l = Some (r, d', k) ->
  let h1 := h ++ others (take k l) in
  d' = after h1 /\
  match py_lookup_submission_id_by_prefix r with
  | Some (inr o) => o = prefix_found (after h1) p
  | Some (inl x) => x = internal_error
  | None => False
  end.
Proof.
  intros h p l r d' k H h1. destruct (prefix_call p h l r d' k H) as [Hd [->|[Hn Hp]]]; (split; [done|]).
  - done.
  - destruct r as [e|b]; [|done]. unfold py_lookup_submission_id_by_prefix, finish. rewrite Hp. done.
Qed.
Print Assumptions C76_prefix.
(** [all]: the submissions in progress that carry the given pairs, in ascending order. *)
Theorem C76_metadata : forall h m l r d' k, call (PByMeta m) (after h) l = Some (r, d', k) ->
  let h1 := h ++ others (take k l) in
  d' = after h1 /\
  exists all, enumerates all (carries (after h1) m) /\ StronglySorted N.lt all /\
  match py_lookup_submission_ids_by_strategic_metadata r with
  | Some (inr ids) => ids = all /\ exists max, is_max l max /\ N.of_nat (length all) <= max
  | Some (inl (Raised TooManyMatchingSubmissionsError (OfTooMany max))) => is_max l max /\ max < N.of_nat (length all)
  | Some (inl x) => x = internal_error
  | None => False
  end.
Proof.
  intros h m l r d' k H h1. destruct (decide (size m <= 63)%nat) as [Hm|Hm].
  2: { destruct (metadata_many m h l r d' k ltac:(lia) H) as (Hd & Hn & Hp). split; [done|]. exists (matching_ids m (after h1)).
    split; [split; [apply NoDup_matching|apply elem_matching]|]. split; [apply sorted_matching|].
    destruct r as [e|b]; [|done]. unfold py_lookup_submission_ids_by_strategic_metadata, finish. rewrite Hp. done. }
  destruct (metadata_call m h l r d' k Hm H) as (Hd & all & He & Hs & Hr). split; [done|].
  exists all. split; [done|]. split; [done|]. destruct Hr as [(max & H1 & H2 & ->)|[(max & H1 & H2 & ->)|[Hn Hp]]].
  - cbn. eauto.
  - done.
  - destruct r as [e|b]; [|done]. unfold py_lookup_submission_ids_by_strategic_metadata, finish. rewrite Hp. done.
Qed.
Print Assumptions C76_metadata.
Theorem C76_count : forall h l r d' k, call PCount (after h) l = Some (r, d', k) ->
  let h1 := h ++ others (take k l) in fresh_ids h1 -> clocks_ok h1 ->
  d' = after h1 /\
  exists in_progress, enumerates in_progress (fun id => exists s, reports (after h1) id (InProgress s)) /\
  match py_count_submissions r with
  | Some (inr n) => n = N.of_nat (length in_progress)
  | Some (inl x) => x = internal_error
  | None => False
  end.
Proof.
  intros h l r d' k H h1 Hf Hk. destruct (count_call h l r d' k H Hf Hk) as (Hd & ip & He & Hr). split; [done|].
  exists ip. split; [done|]. destruct Hr as [->|[Hn Hp]]; [done|].
  destruct r as [e|b]; [|done]. unfold py_count_submissions, finish. rewrite Hp. done.
Qed.
Print Assumptions C76_count.
(** A query whose last attempt meets with no trouble does not raise an internal error: provided that
    the status can be read at all (see C15), and that fewer than 2^32 submissions are counted. *)
Theorem C76_answered : forall q h l s r d', query q -> untroubled s ->
  call q (after h) (l ++ [Served s]) = Some (r, d', S (length l)) ->
  let h1 := h ++ others (l ++ [Served s]) in
  match q with
  | PStatus id => exists o, status_of (after h1) id = Ok o
  | PCount => fresh_ids h1 /\ clocks_ok h1 /\ forall ip, enumerates ip (fun id => exists s, reports (after h1) id (InProgress s)) -> N.of_nat (length ip) < 2 ^ 32
  | PByMeta m => (size m <= 63)%nat
  | _ => True
  end ->
  match q with
  | PStatus _ => exists o, py_get_submission_status r = Some (inr o)
  | PByPrefix _ => exists o, py_lookup_submission_id_by_prefix r = Some (inr o)
  | PByMeta _ => (exists ids, py_lookup_submission_ids_by_strategic_metadata r = Some (inr ids)) \/
      exists max, py_lookup_submission_ids_by_strategic_metadata r = Some (inl (Raised TooManyMatchingSubmissionsError (OfTooMany max)))
  | PCount => exists n, py_count_submissions r = Some (inr n)
  | _ => True
  end.
Proof.
  intros q h l s r d' Hq Hu H h1 Hc. pose proof (served_well q s Hq Hu l _ _ _ _ H) as Er. fold h1 in Er. clear H. subst r.
  destruct q; try done; cbn [handle]; rewrite exec_map; cbn [fst].
  - destruct Hc as [o Ho]. unfold status_of in Ho. rewrite Ho. cbn. eauto.
  - assert (E : exists o, fst (exec (lookup_id_by_prefix p) (after h1) []) = Ok o) by (unfold lookup_id_by_prefix, read; rewrite exec_sql; cbn; eauto).
    destruct E as [o ->]. cbn. eauto.
  - destruct (lookup_meta (after h1) m (sv_max s) Hc) as (all & _ & _ & E). rewrite E. cbn. case_match; cbn; eauto.
  - destruct Hc as (Hf & Hk & Hn). destruct (submission_counters h1 Hf Hk) as (ip & _ & _ & He & _ & _ & E & _). rewrite E.
    cbn -[N.pow N.ltb]. rewrite (proj2 (N.ltb_lt _ _) (Hn ip He)). cbn. eauto.
Qed.
Print Assumptions C76_answered.
Example C76_example :
  let h := [quiet (OInsert 1 (Some "p") [None] (Some "m") {[ "k" := 5%Z ]} 1 "o" 1)]%string in
  let s := Serving [quiet (OInsert 3 None [None; None] None ∅ 1 "o" 1)] 10 0 "o" 5 5 [] None None None in
  let l := [NotServed NConnect; Served s] in
  untroubled s /\
  (exists d', call (PStatus 3) (after h) l = Some (inr (BStatus (Some (InProgress (Submission 3 None 2 0 1 None ∅ "o")))), d', 2%nat)) /\
  (exists d', call (PByPrefix "p") (after h) l = Some (inr (BMaybeId (Some 1)), d', 2%nat)) /\
  (exists d', call (PByMeta {[ "k" := 5%Z ]}) (after h) l = Some (inr (BIds [1]), d', 2%nat)) /\
  (exists d', call PCount (after h) l = Some (inr (BCount 2), d', 2%nat)).
Proof. split; [done|]. repeat (split; [eexists; by vm_compute|]). eexists; by vm_compute. Qed.

(** ** C77 *)
(** A refused cancellation raises the exception that tells why, with the right attributes. What is
    missing is what C59_told_refuted refutes: if a reply is lost, the refusal may be due to the call itself. *)
Theorem C77_cancel_partial : forall h id l r d' k,
  call (PCancel id) (after h) l = Some (r, d', k) -> Forall replied (take k l) ->
  let h1 := h ++ others (take k l) in
  fresh_ids h1 -> clocks_ok h1 ->
  match py_cancel_submission r with
  | Some (inr tt) => (exists s, reports (after h1) id (InProgress s)) /\ exists n1 n2, d' = after (h1 ++ [quiet (OCancel id n1 n2)])
  | Some (inl (Raised SubmissionNotFoundError a)) => a = OfNotFound id /\ unknown (after h1) id /\ d' = after h1
  | Some (inl (Raised SubmissionNotCancellableError a)) => exists st o c,
      a = OfNotCancellable o c /\ reports (after h1) id st /\ shows_refusal st o c /\ d' = after h1
  | Some (inl x) => x = internal_error
  | None => False
  end.
Proof.
  intros h id l r d' k Hc Hr h1 Hf Hk.
  assert (Hb : forall b, r = inr b -> b = BNone).
  { intros b ->. apply call_spec in Hc as (_ & _ & _ & x & _ & Ex & _). destruct x as [e|rs lost|c]; cbn in Ex; [done| |].
    - destruct rs, lost; cbn in Ex; by simplify_eq.
    - repeat case_match; by simplify_eq. }
  pose proof (cancel_call id _ _ _ _ _ _ Hc Hr Hf Hk) as H. fold h1 in H. destruct r as [e|b].
  - unfold py_cancel_submission, finish. destruct e as [| | | |i|st|]; cbn; try done.
    + by destruct H as (-> & ? & ?).
    + destruct H as (H1 & H2 & H3). destruct st as [s|s|s c|s]; cbn in *; try done; eexists _, _, _; done.
  - rewrite (Hb b eq_refl). done.
Qed.
Print Assumptions C77_cancel_partial.
(** try_stream_completed_submission_chunks: chunks are streamed of a completed submission and of no
    other; a failed one raises with the chunk that failed, and why. *)
Theorem C77_stream : forall h id l r d' k, call (PStatus id) (after h) l = Some (r, d', k) ->
  let h1 := h ++ others (take k l) in
  match py_try_stream id r with
  | Some (inr (prefix, n)) => exists s, reports (after h1) id (Completed s) /\ prefix = default "" (sc_prefix s) /\ n = sc_total s
  | Some (inl (Raised SubmissionFailedError a)) => exists s c o oc,
      a = OfFailed o oc (kf_failure c) /\ reports (after h1) id (Failed s c) /\ shows_failed s c o oc
  | Some (inl (Raised SubmissionNotCompletedYetError a)) => a = OfNotCompleted id /\
      (unknown (after h1) id \/ exists st, reports (after h1) id st /\ match st with InProgress _ | Cancelled _ => True | _ => False end)
  | Some (inl x) => x = internal_error
  | None => False
  end.
Proof.
  intros h id l r d' k H h1. destruct (status_call id h l r d' k H) as [_ [(st & -> & Hst)|[[-> Hu]|[Hn Hp]]]].
  - cbn. destruct st as [s|s|s c|s]; cbn.
    + split; [done|]. right. by exists (InProgress s).
    + by exists s.
    + eexists s, c, _, _. split; [done|]. split; [done|]. done.
    + split; [done|]. right. by exists (Cancelled s).
  - split; [done|]. by left.
  - destruct r as [e|b]; [|done]. unfold py_try_stream. rewrite Hp. done.
Qed.
Print Assumptions C77_stream.
(** What the handlers of a caller catch: every exception of the library is an Exception; an internal
    error is no usage error, and the errors that tell something definite are none. *)
Theorem C77_classes :
  (forall e x, pyerr e = Some x -> caught_by (x_class x) Exception /\
     (caught_by (x_class x) OpsqueueInternalError <-> x = internal_error) /\
     (caught_by (x_class x) IncorrectUsageError <-> x_class x = SubmissionNotFoundError \/ x_class x = TooManyMatchingSubmissionsError)) /\
  (forall c, caught_by c OpsqueueInternalError -> caught_by c Exception /\ ~ caught_by c IncorrectUsageError /\ ~ caught_by c TypeError) /\
  (forall c, caught_by c IncorrectUsageError -> caught_by c TypeError) /\
  (forall c, caught_by c SubmissionNotCancellableError -> c = SubmissionNotCancellableError) /\
  (forall c, caught_by c SubmissionFailedError -> c = SubmissionFailedError).
Proof.
  repeat split.
  1: { rewrite caught_by_b. intros. destruct e as [| | | |i|st|]; cbn in H; [..|destruct st|]; cbn in H; by simplify_eq. }
  all: try (intros c; rewrite ?caught_by_b; destruct c; by vm_compute).
  all: try (rename H into Hc; rewrite ?caught_by_b in *; destruct c; by vm_compute in Hc |- *).
  - destruct e as [| | | |i|st|]; cbn in H; [..|destruct st|]; cbn in H; simplify_eq; cbn; rewrite caught_by_b; by vm_compute.
  - intros ->. rewrite caught_by_b. done.
  - destruct e as [| | | |i|st|]; cbn in H; [..|destruct st|]; cbn in H; simplify_eq; cbn; rewrite caught_by_b; vm_compute; auto; done.
  - rewrite caught_by_b. by intros [->| ->].
Qed.
Print Assumptions C77_classes.
(** Everything is caught by "except BaseException", and by "except Exception" everything but that itself and KeyboardInterrupt. *)
Theorem C77_everything : forall c, caught_by c BaseException /\ (caught_by c Exception <-> c <> BaseException /\ c <> KeyboardInterrupt).
Proof. intros c. rewrite !caught_by_b. destruct c; vm_compute; split; try done; split; try done; intros [? ?]; congruence. Qed.
Print Assumptions C77_everything.
Example C77_example :
  let h := [quiet (OInsert 1 (Some "p") [None] None ∅ 1 "o" 1); quiet (OFail (1, 0) "boom" 1 1 5 6)]%string in
  let l := [Served (Serving [] 10 0 "o" 7 7 [] None None None)] in
  let k := PyChunkFailed 1 0 "boom" 5 in
  fresh_ids h /\
  (exists r d', call (PCancel 1) (after h) l = Some (r, d', 1%nat) /\ exists s,
     py_cancel_submission r = Some (inl (Raised SubmissionNotCancellableError (OfNotCancellable (NotCancellableFailed s k) (Some k))))) /\
  (exists r d', call (PStatus 1) (after h) l = Some (r, d', 1%nat) /\ exists s,
     py_try_stream 1 r = Some (inl (Raised SubmissionFailedError (OfFailed s k "boom")))).
Proof.
  split; [apply (bool_decide_unpack _); by vm_compute|]. split; (eexists _, _; split; [by vm_compute|]; eexists; by vm_compute).
Qed.

(** ** C78 *)
(** An element that the iterator gives and that is uploaded. *)
Definition uploads (x : item) : Prop := match x with Yields _ Uploaded => True | _ => False end.
(** If the caller's iterator raises, or an upload fails, nothing is submitted and the call raises a
    ChunksStorageError, which is an internal error. What is missing: which of the two it was. *)
Theorem C78_raises_partial : forall base prefix l meta strat size attempts o d, ~ Forall uploads l ->
  (exists text o', py_insert_submission_chunks base prefix l meta strat size attempts o d = Some (RaisesOwn ChunksStorageError text, o', d)) /\
  caught_by ChunksStorageError OpsqueueInternalError.
Proof.
  intros base prefix l meta strat size attempts o d Hl. split; [|by rewrite caught_by_b].
  destruct (upload_raises base prefix l 0 o Hl) as (text & o' & E). exists text, o'. unfold py_insert_submission_chunks. by rewrite E.
Qed.
Print Assumptions C78_raises_partial.
(** If the call returns, every element of the iterator was uploaded to its place, and a submission of
    that many chunks is in progress on the server: provided that no reply gets lost (see C43). *)
Theorem C78_returns : forall base prefix l meta strat size attempts o h id o' d', (forall a b, prefix <> a +:+ "/" +:+ b) -> l <> [] ->
  py_insert_submission_chunks base prefix l meta strat size attempts o (after h) = Some (Returns id, o', d') ->
  Forall uploads l /\
  (forall i c u, l !! i = Some (Yields c u) -> retrieve_chunk base prefix (N.of_nat i) Input o' = Some c) /\
  exists k, call (PInsert (SeeObjectStorage prefix (N.of_nat (length l))) meta (default ∅ strat) size) (after h) attempts = Some (inr (BId id), d', k) /\
    (Forall replied (take k attempts) ->
    fresh_ids (h ++ attempt_events (insert_op (SeeObjectStorage prefix (N.of_nat (length l))) meta (default ∅ strat) size) (take k attempts)) ->
    exists ot, reports d' id (InProgress (Submission id (Some prefix) (N.of_nat (length l)) 0 (default 1%Z size) meta (default ∅ strat) ot))).
Proof.
  intros base prefix l meta strat size attempts o h id o' d' Hp Hl H. unfold py_insert_submission_chunks in H.
  destruct (py_upload_from base prefix 0 l o) as [[n|c t|x] o1] eqn:Eu; [|done|done].
  destruct (upload_returns base prefix l 0 o n o1 Hp Eu) as (Hn & Hall & Hget).
  destruct (call _ _ _) as [[[[e|b] d1] k]|] eqn:Ec; [done| |done]. destruct b; try done. injection H as -> -> ->.
  split; [done|]. split; [intros i c u Hi; rewrite <- (N.add_0_l (N.of_nat i)); by apply (Hget i c u)|].
  replace n with (N.of_nat (length l)) in Ec by lia. exists k. split; [done|]. intros Hr Hf.
  set (cc := SeeObjectStorage prefix (N.of_nat (length l))) in *.
  assert (Hlen : length (contents_of cc).2 = length l) by (cbn; rewrite replicate_length; lia).
  assert (Hpos : (0 < length (contents_of cc).2)%nat) by (rewrite Hlen; by destruct l; [|cbn; lia]).
  destruct (C43_one_submission_partial h cc meta (default ∅ strat) size attempts id d' k Hpos Ec Hf Hr) as ((ot & Hrep) & _). exists ot. rewrite Hlen in Hrep. exact Hrep.
Qed.
Print Assumptions C78_returns.
(** What is missing is false: no exception of the caller's iterator is ever let through. A
    KeyboardInterrupt, which no "except Exception" is to catch, becomes an exception that it does catch;
    and a caller cannot tell from it whether their own code failed or the object store. *)
Theorem C78_cause_refuted :
  (forall base prefix l meta strat size attempts o d x o' d', py_insert_submission_chunks base prefix l meta strat size attempts o d <> Some (LetsThrough x, o', d')) /\
  (~ caught_by KeyboardInterrupt Exception /\ caught_by ChunksStorageError Exception) /\
  (forall base prefix meta strat size attempts o d x c, exists text,
     py_insert_submission_chunks base prefix [Throws x] meta strat size attempts o d = Some (RaisesOwn ChunksStorageError text, o, d) /\
     py_insert_submission_chunks base prefix [Yields c NotUploaded] meta strat size attempts o d = Some (RaisesOwn ChunksStorageError text, o, d)).
Proof.
  split; [|split].
  - intros base prefix l meta strat size attempts o d x o' d'. unfold py_insert_submission_chunks.
    destruct (py_upload_from base prefix 0 l o) as [[n|c t|y] o1] eqn:Eu; [|done|].
    + destruct (call _ _ _) as [[[[e|b] d1] k]|]; [done| |done]. by destruct b.
    + exfalso. by apply (upload_lets_nothing_through base prefix l 0 o y o1).
  - rewrite !caught_by_b. by vm_compute.
  - intros. by eexists.
Qed.
Print Assumptions C78_cause_refuted.
Example C78_example :
  let l := [Yields "a" Uploaded; Yields "b" Uploaded]%string in
  let attempts := [Served (Serving [] 10 7 "o" 5 5 [] None None None)] in
  (exists o' d', py_insert_submission_chunks "base" "p" l None None None attempts ∅ (after []) = Some (Returns 7, o', d') /\ o' !! "base/p/1-in.bin" = Some "b") /\
  (exists o', py_insert_submission_chunks "base" "p" (l ++ [Throws KeyboardInterrupt]) None None None attempts ∅ (after []) =
     Some (RaisesOwn ChunksStorageError eval_error_text, o', after [])).
Proof. split; [eexists _, _; split; [by vm_compute|by vm_compute]|]. eexists; by vm_compute. Qed.

(** ** C79 *)
(** [t]: when the call ends, in milliseconds; [s]: when a signal comes whose handler raises. *)
Theorem C79_interrupts : forall A (future : option (N * A)) signal fair t r,
  run_unless_interrupted future signal fair t r ->
  match r with
  | CallEnded a => future = Some (t, a)
  | InterruptRaised => exists s, signal = Some s /\ s <= t
  end /\
  (forall s, signal = Some s -> t <= s + 1000) /\
  (forall ft a, future = Some (ft, a) -> (forall s, signal = Some s -> ft < s) -> r = CallEnded a).
Proof.
  intros A future signal fair t r [fuel H]. split; [by apply (watch_spec _ _ _ _ _ _ _ H)|]. split.
  - intros s Hs. apply (watch_bound _ _ _ _ _ _ _ s (N.le_refl 1) H Hs). cbn. lia.
  - intros ft a Hf Hb. refine (watch_first _ _ _ _ 1 t r _ H _ ft a Hf Hb); [done|]. intros s _. cbn. lia.
Qed.
Print Assumptions C79_interrupts.
(** The call goes on forever only if it would by itself and no signal comes; and it ends in one way. *)
Theorem C79_ends : forall A (future : option (N * A)) signal fair,
  (is_Some future \/ is_Some signal) <-> exists t r, run_unless_interrupted future signal fair t r.
Proof.
  intros A future signal fair. split.
  - intros H. destruct (watch_ends future signal fair (N.to_nat (match future with Some (t, _) => t | None => 0 end + match signal with Some s => s | None => 0 end)) 1) as (t & r & E).
    { unfold signal_check_interval. destruct H as [[[t a] ->]|[s ->]]; [right; exists t, a|left; exists s]; (split; [done|lia]). }
    exists t, r. by eexists.
  - intros (t & r & fuel & H). apply watch_spec in H. destruct r; [left; by eexists|]. destruct H as (s & -> & _). right. by eexists.
Qed.
Print Assumptions C79_ends.
Example C79_example :
  run_unless_interrupted (Some (5300, "answer"%string)) (Some 2400) (fun _ => true) 3000 InterruptRaised /\
  run_unless_interrupted (Some (2500, "answer"%string)) (Some 2400) (fun _ => true) 2500 (CallEnded "answer"%string) /\
  run_unless_interrupted (Some (5300, "answer"%string)) None (fun _ => true) 5300 (CallEnded "answer"%string).
Proof. split; [|split]; by exists 9%nat. Qed.
