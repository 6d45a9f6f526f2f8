(** C01-C21: theorems about the database layer, over all histories of operations with arbitrary
    faults and crash points. Each theorem is closed by a lemma of the proof files; beside it stands
    an example that meets its hypotheses. Vocabulary: History.v (operations, answers, events,
    histories, what clients observe) and Spec.v. *)
From Verif Require Import AnswerProofs.
From Coq Require Import Sorted.
Local Open Scope N_scope.

(** *** Examples used below *)
Definition ex_insert (id : sub_id) (l : list content) : event :=
  quiet (OInsert id (Some "p") l (Some "m") {[ "k" := 5%Z ]} 10 "o" 1).
(** Submission 1 has three chunks: one completed, one failed once, one untouched; 2 is cancelled;
    3 is completed; 4 has failed. *)
Definition ex_h : history :=
  [ex_insert 1 [Some "a"; None; Some "b"]; ex_insert 2 [None]; ex_insert 3 [None]; ex_insert 4 [Some "z"; None];
   quiet (OComplete (1, 0) (Some "x") 2 2); quiet (OFail (1, 1) "err" 3 2 2 2); quiet (OCancel 2 3 3);
   quiet (OComplete (3, 0) None 4 4); quiet (OFail (4, 0) "boom" 1 5 5 6)].
Lemma ex_fresh : fresh_ids ex_h.
Proof. apply (bool_decide_unpack _). by vm_compute. Qed.
Lemma ex_clocks : clocks_ok ex_h.
Proof. unfold clocks_ok, ex_h. repeat (apply Forall_cons; split; [simpl; try lia; done|]). by apply Forall_nil. Qed.
Lemma fresh_by h : bool_decide (NoDup (inserted_ids h)) = true -> fresh_ids h.
Proof. intros H. by apply bool_decide_eq_true in H. Qed.

(** A status computed by evaluation. *)
Lemma reports_by d id (f : status -> bool) :
  match status_of d id with Ok (Some st) => f st | _ => false end = true -> exists st, reports d id st /\ f st = true.
Proof. unfold reports. destruct (status_of d id) as [[st|]| |]; try done. eauto. Qed.
Ltac by_status d id f H :=
  assert (H : match status_of d id with Ok (Some st) => f st | _ => false end = true) by (by vm_compute);
  apply (reports_by d id f) in H.
Definition in_progress_with (total done : N) (st : status) : bool :=
  match st with InProgress s => (s_total s =? total) && (s_done s =? done) | _ => false end.
Lemma in_progress_by d id total done :
  match status_of d id with Ok (Some st) => in_progress_with total done st | _ => false end = true ->
  exists s, reports d id (InProgress s) /\ s_total s = total /\ s_done s = done.
Proof.
  intros H. apply reports_by in H as ([s| | |] & Hs & E); try discriminate E.
  simpl in E. apply andb_true_iff in E as [E1%N.eqb_eq E2%N.eqb_eq]. eauto.
Qed.
Lemma ex_1 : exists s, reports (after ex_h) 1 (InProgress s) /\ s_total s = 3 /\ s_done s = 1.
Proof. apply in_progress_by. by vm_compute. Qed.
Lemma ex_3 : exists s, reports (after ex_h) 3 (Completed s) /\ sc_total s = 1.
Proof.
  by_status (after ex_h) 3 (fun st => match st with Completed s => sc_total s =? 1 | _ => false end) Hst. destruct Hst as ([| s | |] & Hs & E); try discriminate E.
  apply N.eqb_eq in E. eauto.
Qed.
Lemma ex_4 : exists s c, reports (after ex_h) 4 (Failed s c) /\ sf_chunk s = 0 /\ kf_failure c = "boom"%string.
Proof.
  by_status (after ex_h) 4 (fun st => match st with Failed s c => (sf_chunk s =? 0) && bool_decide (kf_failure c = "boom"%string) | _ => false end) Hst. destruct Hst as ([| |s c|] & Hs & E); try discriminate E.
  apply andb_true_iff in E as [E1%N.eqb_eq E2%bool_decide_eq_true]. eauto.
Qed.

(** ** C01 *)
Theorem C01_conservation : forall h id s,
  fresh_ids h -> reports (after h) id (InProgress s) ->
  exists ws ds,
    enumerates ws (fun i => is_Some (waiting (after h) (id, i))) /\
    enumerates ds (fun i => i < s_total s /\ acks h (id, i) = 1%nat) /\
    (forall i, i ∈ ws -> i < s_total s /\ acks h (id, i) = 0%nat) /\
    (forall i, i < s_total s -> i ∈ ws \/ i ∈ ds) /\
    N.of_nat (length ds) = s_done s /\ N.of_nat (length ws) + s_done s = s_total s /\ s_done s <= s_total s.
Proof. exact conservation. Qed.
Print Assumptions C01_conservation.
Example C01_example : fresh_ids ex_h /\ exists s, reports (after ex_h) 1 (InProgress s) /\ s_total s = 3 /\ s_done s = 1.
Proof. exact (conj ex_fresh ex_1). Qed.

(** ** C02 *)
Theorem C02_one_state : forall h id k k', fresh_ids h ->
  stored_as (after h) id k -> stored_as (after h) id k' -> k = k'.
Proof. exact one_state. Qed.
Print Assumptions C02_one_state.

Theorem C02_status_is_the_state : forall h id, fresh_ids h -> clocks_ok h ->
  (exists st, reports (after h) id st /\ stored_as (after h) id (kind_of st)) \/
  unknown (after h) id /\ forall k, ~ stored_as (after h) id k.
Proof. exact status_stored. Qed.
Print Assumptions C02_status_is_the_state.

Theorem C02_accepted_stays_known : forall h e h' id p l m st z ot n r,
  fresh_ids (h ++ [e] ++ h') -> clocks_ok (h ++ [e] ++ h') ->
  e_op e = OInsert id p l m st z ot n -> answer_of (after h) e = Some (AInsert (Ok r)) ->
  no_cleanup h' ->
  r = id /\ exists s, reports (after (h ++ [e] ++ h')) id s.
Proof. exact accepted_stays_known. Qed.
Print Assumptions C02_accepted_stays_known.
Example C02_example : fresh_ids ex_h /\ clocks_ok ex_h /\
  stored_as (after ex_h) 1 KInProgress /\ stored_as (after ex_h) 2 KCancelled /\
  stored_as (after ex_h) 3 KCompleted /\ stored_as (after ex_h) 4 KFailed /\
  answer_of (after []) (ex_insert 1 [Some "a"; None]) = Some (AInsert (Ok 1)).
Proof.
  split; [exact ex_fresh|]. split; [exact ex_clocks|].
  repeat split; vm_compute; try done; by eexists.
Qed.

(** ** C03 *)
Theorem C03_completed_means_all_acknowledged : forall h id s,
  fresh_ids h -> reports (after h) id (Completed s) -> forall i, i < sc_total s -> acks h (id, i) = 1%nat.
Proof. exact completed_acked. Qed.
Print Assumptions C03_completed_means_all_acknowledged.

Theorem C03_last_acknowledgement_completes : forall h e id s,
  fresh_ids (h ++ [e]) -> reports (after h) id (InProgress s) -> 0 < s_total s ->
  (forall i, i < s_total s -> acks (h ++ [e]) (id, i) = 1%nat) ->
  exists c, reports (after (h ++ [e])) id (Completed c) /\ sc_total c = s_total s.
Proof. exact last_ack_completes. Qed.
Print Assumptions C03_last_acknowledgement_completes.

Theorem C03_in_progress_has_open_chunk : forall h id s,
  fresh_ids h -> reports (after h) id (InProgress s) ->
  s_total s = 0 \/ exists i, i < s_total s /\ acks h (id, i) = 0%nat /\ is_Some (waiting (after h) (id, i)).
Proof. exact in_progress_open. Qed.
Print Assumptions C03_in_progress_has_open_chunk.

Definition ex_two : history := [ex_insert 1 [None; None]; quiet (OComplete (1, 1) None 2 2)].
Example C03_example :
  (exists s, reports (after ex_h) 3 (Completed s) /\ sc_total s = 1) /\
  (let e := quiet (OComplete (1, 0) (Some "r") 3 3) in
   fresh_ids (ex_two ++ [e]) /\ (exists s, reports (after ex_two) 1 (InProgress s) /\ s_total s = 2 /\ s_done s = 1) /\
   forall i, i < 2 -> acks (ex_two ++ [e]) (1, i) = 1%nat).
Proof.
  split; [exact ex_3|]. split; [by apply fresh_by|]. split; [by apply in_progress_by|].
  intros i Hi. assert (i = 0 \/ i = 1) as [-> | ->] by lia; by vm_compute.
Qed.

(** ** C04 *)
Theorem C04_terminal_permanent : forall h h' id st,
  fresh_ids (h ++ h') -> reports (after h) id st -> terminal st -> no_cleanup h' ->
  reports (after (h ++ h')) id st.
Proof. exact terminal_no_cleanup. Qed.
Print Assumptions C04_terminal_permanent.

Theorem C04_only_a_later_cleanup_removes : forall h h' id st,
  fresh_ids (h ++ h') -> clocks_ok (h ++ h') \/ no_cleanup h' -> reports (after h) id st -> terminal st ->
  reports (after (h ++ h')) id st \/
  ((exists c t, Exists (fun e => e_op e = OCleanup c) h' /\ finished_at st = Some t /\ (t < c)%Z) /\
   unknown (after (h ++ h')) id).
Proof. exact terminal_forever. Qed.
Print Assumptions C04_only_a_later_cleanup_removes.
Example C04_example : fresh_ids (ex_h ++ [quiet (OFail (4, 1) "again" 3 7 7 7); quiet (OComplete (4, 0) None 8 8); quiet (OCancel 4 9 9)]) /\
  exists s c, reports (after ex_h) 4 (Failed s c) /\ sf_chunk s = 0 /\ kf_failure c = "boom"%string.
Proof. split; [by apply fresh_by|exact ex_4]. Qed.

(** ** C05. [d] is any database, reachable or not. *)
Theorem C05_not_waiting_no_effect : forall d cid out n1 n2 fs k,
  waiting d cid = None -> step d (Event (OComplete cid out n1 n2) fs k) = d.
Proof. exact complete_not_waiting. Qed.
Print Assumptions C05_not_waiting_no_effect.

Theorem C05_duplicate_completion : forall h cid out n1 n2 fs k,
  fresh_ids h -> (1 <= acks h cid)%nat ->
  after (h ++ [Event (OComplete cid out n1 n2) fs k]) = after h /\ acks h cid = 1%nat.
Proof. exact duplicate_completion. Qed.
Print Assumptions C05_duplicate_completion.
Example C05_example : waiting (after ex_h) (1, 0) = None /\ acks ex_h (1, 0) = 1%nat /\
  completed_chunk (after ex_h) (1, 0) = Some (ChunkCompleted 1 0 (Some "x") 2).
Proof. by vm_compute. Qed.

(** ** C06 *)
Theorem C06_retry_counter : forall h cid c,
  fresh_ids h -> waiting (after h) cid = Some c -> c_retries c = N.of_nat (failures h cid).
Proof. exact retries_count. Qed.
Print Assumptions C06_retry_counter.

Theorem C06_retry_limit : forall mx h, fresh_ids h -> retry_limit mx h ->
  (forall cid, is_Some (waiting (after h) cid) -> N.of_nat (failures h cid) < N.max mx 1) /\
  (forall id s c, reports (after h) id (Failed s c) -> N.of_nat (failures h (id, sf_chunk s)) = N.max mx 1).
Proof. exact retries_limit. Qed.
Print Assumptions C06_retry_limit.

Theorem C06_report_below_limit : forall h id ix c f mx n1 n2 n3,
  fresh_ids h -> waiting (after h) (id, ix) = Some c -> c_retries c + 1 < mx ->
  let e := quiet (OFail (id, ix) f mx n1 n2 n3) in
  answer_of (after h) e = Some (AFail (Ok false)) /\
  waiting (after (h ++ [e])) (id, ix) = Some (Chunk id ix (c_input c) (c_retries c + 1)) /\
  status_of (after (h ++ [e])) id = status_of (after h) id /\
  (forall i, i <> ix -> waiting (after (h ++ [e])) (id, i) = waiting (after h) (id, i)) /\
  (forall i, completed_chunk (after (h ++ [e])) (id, i) = completed_chunk (after h) (id, i)) /\
  (forall i, failed_chunk (after (h ++ [e])) (id, i) = failed_chunk (after h) (id, i)).
Proof. exact fail_report_retry. Qed.
Print Assumptions C06_report_below_limit.

(** ** C07 (and the last report of C06). The stored flag of a skipped chunk is not part of the
    API, hence the table [t_cfail] in the statement. *)
Theorem C07_permanent_failure : forall h id ix c f mx n1 n2 n3,
  fresh_ids h -> waiting (after h) (id, ix) = Some c -> mx <= c_retries c + 1 ->
  let e := quiet (OFail (id, ix) f mx n1 n2 n3) in
  answer_of (after h) e = Some (AFail (Ok true)) /\
  exists s, reports (after h) id (InProgress s) /\
  reports (after (h ++ [e])) id
    (Failed (SubmissionFailed id (s_prefix s) (s_total s) (Some (s_done s)) 1 (s_meta s) (s_strat s) n1 ix "{}")
            (ChunkFailed id ix (c_input c) f n2)) /\
  (forall i, waiting (after (h ++ [e])) (id, i) = None) /\
  (forall i c', i <> ix -> waiting (after h) (id, i) = Some c' ->
     t_cfail (after (h ++ [e])) !! (id, i) = Some (ChunkFailRow (c_input c') "" n3 true)) /\
  (forall i, i <> ix -> waiting (after h) (id, i) = None -> failed_chunk (after (h ++ [e])) (id, i) = None) /\
  (forall i, completed_chunk (after (h ++ [e])) (id, i) = completed_chunk (after h) (id, i)).
Proof. exact fail_report_final. Qed.
Print Assumptions C07_permanent_failure.
Example C06_C07_example : waiting (after ex_h) (1, 1) = Some (Chunk 1 1 None 1) /\ failures ex_h (1, 1) = 1%nat /\
  is_Some (waiting (after ex_h) (1, 2)) /\ completed_chunk (after ex_h) (1, 0) <> None.
Proof. vm_compute. split; [done|]. split; [done|]. split; [by eexists|done]. Qed.
Definition ex_limit : history := [ex_insert 1 [None; None]; quiet (OFail (1, 0) "a" 2 1 1 1); quiet (OFail (1, 1) "b" 2 1 1 1); quiet (OFail (1, 0) "c" 2 1 1 1)].
Example C06_limit_example : fresh_ids ex_limit /\ retry_limit 2 ex_limit /\
  (exists s c, reports (after ex_limit) 1 (Failed s c) /\ sf_chunk s = 0) /\ failures ex_limit (1, 0) = 2%nat.
Proof.
  split; [by apply fresh_by|]. split. { unfold retry_limit, ex_limit. repeat (apply Forall_cons; split; [done|]). by apply Forall_nil. }
  split; [|by vm_compute].
  by_status (after ex_limit) 1 (fun st => match st with Failed s c => (sf_chunk s =? 0) | _ => false end) Hst. destruct Hst as ([| |s c|] & Hs & E); try discriminate E.
  apply N.eqb_eq in E. eauto.
Qed.

(** ** C08 *)
Theorem C08_cancel_decision_table : forall h q id ot n1 n2 max,
  fresh_ids h -> clocks_ok h -> q = PCancel id ->
  let r := exec (handle max id ot n1 n2 q) (after h) [] in
  (fst r = Http200 BNone <-> exists s, reports (after h) id (InProgress s)) /\
  (fst r = Http404 id <-> unknown (after h) id) /\
  (forall st, fst r = Http409 st <-> reports (after h) id st /\ terminal st) /\
  (fst r = Http200 BNone \/ fst r = Http404 id \/ exists st, fst r = Http409 st) /\
  (fst r <> Http200 BNone -> snd r = after h) /\
  snd r = after (h ++ [quiet (OCancel id n1 n2)]).
Proof. exact cancel_table. Qed.
Print Assumptions C08_cancel_decision_table.

Theorem C08_cancel_effect : forall h id s n1 n2,
  fresh_ids h -> reports (after h) id (InProgress s) ->
  let e := quiet (OCancel id n1 n2) in
  answer_of (after h) e = Some (ACancel (Ok tt)) /\
  reports (after (h ++ [e])) id (Cancelled (SubmissionCancelled id (s_prefix s) (s_total s) (s_done s) (s_meta s) (s_strat s) n1)) /\
  (forall i, waiting (after (h ++ [e])) (id, i) = None) /\
  (forall i, completed_chunk (after (h ++ [e])) (id, i) = completed_chunk (after h) (id, i)) /\
  (forall i c, waiting (after h) (id, i) = Some c -> t_cfail (after (h ++ [e])) !! (id, i) = Some (ChunkFailRow (c_input c) "" n2 true)).
Proof. exact cancel_in_progress. Qed.
Print Assumptions C08_cancel_effect.

(** For any database and any faults. *)
Theorem C08_cancel_never_panics : forall d fs max i ot n1 n2 id,
  fst (exec (handle max i ot n1 n2 (PCancel id)) d fs) <> HttpPanic.
Proof. exact cancel_never_panics. Qed.
Print Assumptions C08_cancel_never_panics.
Example C08_example : fresh_ids ex_h /\ clocks_ok ex_h /\
  code (fst (exec (handle 10 9 "o" 7 7 (PCancel 1)) (after ex_h) [])) = Some 200 /\
  code (fst (exec (handle 10 9 "o" 7 7 (PCancel 2)) (after ex_h) [])) = Some 409 /\
  code (fst (exec (handle 10 9 "o" 7 7 (PCancel 3)) (after ex_h) [])) = Some 409 /\
  code (fst (exec (handle 10 9 "o" 7 7 (PCancel 4)) (after ex_h) [])) = Some 409 /\
  code (fst (exec (handle 10 9 "o" 7 7 (PCancel 5)) (after ex_h) [])) = Some 404.
Proof. split; [exact ex_fresh|]. split; [exact ex_clocks|]. by vm_compute. Qed.

(** ** C09 *)
Theorem C09_isolation : forall h e id,
  fresh_ids (h ++ [e]) -> about (e_op e) <> Some id -> ~ is_cleanup e ->
  same_for_clients id (after h) (after (h ++ [e])) /\
  (forall m, carries (after h) m id <-> carries (after (h ++ [e])) m id).
Proof. exact isolation_lookups. Qed.
Print Assumptions C09_isolation.
(** Lookups by prefix: only those for the prefix of the submission concerned can be affected. *)
Theorem C09_prefix_lookup : forall h e p,
  fresh_ids (h ++ [e]) -> clocks_ok (h ++ [e]) -> ~ is_cleanup e ->
  (forall id st, about (e_op e) = Some id -> reports (after h) id st \/ reports (after (h ++ [e])) id st ->
     status_prefix st <> Some p) ->
  prefix_found (after (h ++ [e])) p = prefix_found (after h) p.
Proof. exact isolation_prefix. Qed.
Print Assumptions C09_prefix_lookup.
Definition ex_q : event := quiet (OInsert 9 (Some "q") [None] None ∅ 1 "o" 1).
Example C09_prefix_example : fresh_ids (ex_h ++ [ex_q]) /\ clocks_ok (ex_h ++ [ex_q]) /\ ~ is_cleanup ex_q /\
  (forall id st, about (e_op ex_q) = Some id -> reports (after ex_h) id st \/ reports (after (ex_h ++ [ex_q])) id st ->
     status_prefix st <> Some "p") /\
  prefix_found (after ex_h) "p" = Some 1 /\ prefix_found (after (ex_h ++ [ex_q])) "q" = Some 9.
Proof.
  split; [by apply fresh_by|]. split; [apply Forall_app; split; [exact ex_clocks|]; apply Forall_cons; split; [simpl; try lia; done|by apply Forall_nil]|].
  split; [by intros []|]. split; [|split; by vm_compute].
  intros id st [= <-] Hr. destruct Hr as [Hr|Hr].
  - assert (E : match status_of (after ex_h) 9 with Ok (Some _) => false | _ => true end = true) by (by vm_compute).
    unfold reports in Hr. rewrite Hr in E. discriminate E.
  - assert (E : match status_of (after (ex_h ++ [ex_q])) 9 with Ok (Some st) => bool_decide (status_prefix st = Some "q"%string) | _ => false end = true) by (by vm_compute).
    unfold reports in Hr. rewrite Hr in E. apply bool_decide_eq_true in E. rewrite E. discriminate.
Qed.
(** With the same prefix the lookup can move on to another submission. *)
Example C09_prefix_same : exists h e, fresh_ids (h ++ [e]) /\ about (e_op e) = Some 1 /\
  prefix_found (after h) "p" = Some 1 /\ prefix_found (after (h ++ [e])) "p" = Some 3.
Proof.
  exists [ex_insert 1 [None]; ex_insert 3 [None]], (quiet (OCancel 1 3 3)). split; [by apply fresh_by|]. split; [done|]. split; by vm_compute.
Qed.
Example C09_example : fresh_ids (ex_h ++ [quiet (OFail (1, 1) "err" 2 7 7 7)]) /\
  about (e_op (quiet (OFail (1, 1) "err" 2 7 7 7))) <> Some 3 /\ ~ is_cleanup (quiet (OFail (1, 1) "err" 2 7 7 7)).
Proof. split; [by apply fresh_by|]. split; [by intros [=]|]. by intros []. Qed.

(** ** C10: whatever faults the insert meets and wherever the process dies. *)
Theorem C10_insert_all_or_nothing : forall h e id p l m st z ot n,
  fresh_ids (h ++ [e]) -> e_op e = OInsert id p l m st z ot n ->
  after (h ++ [e]) = after h \/
  (reports (after (h ++ [e])) id (InProgress (Submission id p (N.of_nat (length l)) 0 z m st ot)) /\
   forall i, waiting (after (h ++ [e])) (id, i) = (fun x => Chunk id i x 0) <$> l !! N.to_nat i) \/
  (l = [] /\ reports (after (h ++ [e])) id (Completed (SubmissionCompleted id p 0 1 m st n "{}")) /\
   forall i, waiting (after (h ++ [e])) (id, i) = None).
Proof. exact insert_outcomes. Qed.
Print Assumptions C10_insert_all_or_nothing.

Theorem C10_insert_refused_leaves_nothing : forall h e id p l m st z ot n a,
  fresh_ids (h ++ [e]) -> e_op e = OInsert id p l m st z ot n -> 0 < N.of_nat (length l) ->
  answer_of (after h) e = Some (AInsert a) -> (is_ok a = false <-> after (h ++ [e]) = after h).
Proof. exact insert_refused. Qed.
Print Assumptions C10_insert_refused_leaves_nothing.
Example C10_example : forall k, fresh_ids (ex_h ++ [Event (OInsert 7 None [None; Some "q"] None ∅ 1 "o" 1) [false; true] k]).
Proof. intros k. by apply fresh_by. Qed.
(** Both outcomes occur: dying after one statement, dying at the end. *)
Example C10_both : exists k k',
  bool_decide (waiting (after [Event (OInsert 7 None [None; Some "q"] None ∅ 1 "o" 1) [] (Some k)]) (7, 1) = None) = true /\
  bool_decide (waiting (after [Event (OInsert 7 None [None; Some "q"] None ∅ 1 "o" 1) [] (Some k')]) (7, 1) = Some (Chunk 7 1 (Some "q") 0)) = true.
Proof. exists 2%nat, 4%nat. by vm_compute. Qed.

(** ** C11: for any database, any faults, any crash point. *)
Theorem C11_all_or_nothing : forall o d fs k, (forall id, ~ op_ids o id) ->
  step d (Event o fs k) = d \/ step d (Event o fs k) = step d (quiet o).
Proof. exact not_insert_atomic. Qed.
Print Assumptions C11_all_or_nothing.

Theorem C11_error_means_unchanged : forall o d fs a, (forall id, ~ op_ids o id) ->
  answer_of d (Event o fs None) = Some a -> answer_ok a = false -> step d (Event o fs None) = d.
Proof. exact error_unchanged. Qed.
Print Assumptions C11_error_means_unchanged.

Theorem C11_ok_means_whole_effect : forall o d fs a, (forall id, ~ op_ids o id) ->
  (forall cid out n1 n2, o <> OComplete cid out n1 n2) ->
  answer_of d (Event o fs None) = Some a -> answer_ok a = true ->
  step d (Event o fs None) = step d (quiet o) /\ answer_of d (quiet o) = Some a.
Proof. exact ok_whole. Qed.
Print Assumptions C11_ok_means_whole_effect.
Example C11_example : (forall id, ~ op_ids (OCancel 1 7 7) id) /\
  option_map answer_ok (answer_of (after ex_h) (Event (OCancel 1 7 7) [] None)) = Some true /\
  option_map answer_ok (answer_of (after ex_h) (Event (OCancel 1 7 7) [false; false; true] None)) = Some false.
Proof. split; [by intros ? []|]. by vm_compute. Qed.

(** ** C12. An answered insert of no chunks leaves a completed submission. Missing: when the
    server dies between the two transactions of the insert, the submission stays in progress for
    ever unless it is cancelled (refutation below). *)
Theorem C12_empty_completes_partial : forall h e id p m st z ot n r,
  fresh_ids (h ++ [e]) -> e_op e = OInsert id p [] m st z ot n ->
  answer_of (after h) e = Some (AInsert (Ok r)) ->
  reports (after (h ++ [e])) id (Completed (SubmissionCompleted id p 0 1 m st n "{}")).
Proof. exact empty_completes. Qed.
Print Assumptions C12_empty_completes_partial.
Example C12_example : answer_of (after ex_h) (ex_insert 9 []) = Some (AInsert (Ok 9)).
Proof. by vm_compute. Qed.

Theorem C12_refuted : exists e id, (exists p m st z ot n, e_op e = OInsert id p [] m st z ot n) /\
  forall h', fresh_ids ([e] ++ h') -> Forall (fun e' => forall n1 n2, e_op e' <> OCancel id n1 n2) h' ->
  exists s, reports (after ([e] ++ h')) id (InProgress s) /\ s_total s = 0.
Proof. exact empty_stuck_witness. Qed.
Print Assumptions C12_refuted.

(** ** C13: the status handler runs up to four queries, each on a later committed database. *)
Theorem C13_racing_status : forall hs id,
  grows hs -> (forall k, fresh_ids (hs k)) -> (forall k, clocks_ok (hs k)) ->
  match run_reader (submission_status id) (fun k => after (hs k)) 0 with
  | Ok (Some st) => exists k, (k <= 3)%nat /\ reports (after (hs k)) id st
  | Ok None => unknown (after (hs 0%nat)) id \/ unknown (after (hs 3%nat)) id
  | Err e => unknown (after (hs 3%nat)) id /\ exists s c, reports (after (hs 2%nat)) id (Failed s c)
  | Panicked => False
  end.
Proof. exact reader_status. Qed.
Print Assumptions C13_racing_status.

Theorem C13_known_is_found : forall hs id,
  grows hs -> (forall k, fresh_ids (hs k)) -> (forall k, clocks_ok (hs k)) ->
  ~ unknown (after (hs 0%nat)) id -> ~ unknown (after (hs 3%nat)) id ->
  exists st k, run_reader (submission_status id) (fun k => after (hs k)) 0 = Ok (Some st) /\
    (k <= 3)%nat /\ reports (after (hs k)) id st.
Proof. exact reader_known. Qed.
Print Assumptions C13_known_is_found.
(** The submission moves from in progress to failed while the query runs. *)
Example C13_example : let hs := fun k => take (k + 5) ex_h in grows hs /\ (forall k, fresh_ids (hs k)) /\
  ~ unknown (after (hs 0%nat)) 4 /\ ~ unknown (after (hs 3%nat)) 4.
Proof.
  cbv zeta. split; [|split; [|by vm_compute]].
  - intros k. exists (take 1 (drop (k + 5) ex_h)). rewrite take_take_drop. f_equal. lia.
  - intros k. pose proof ex_fresh as H. rewrite <- (take_drop (k + 5) ex_h) in H. by eapply fresh_prefix.
Qed.

(** ** C14. Missing: "leaves submissions in progress untouched" fails for the rows of completed
    chunks (refutation below); their status and waiting chunks are untouched. *)
Theorem C14_cleanup_removes_exactly_the_old_partial : forall h c id st,
  fresh_ids h -> clocks_ok h -> reports (after h) id st ->
  let h' := h ++ [quiet (OCleanup c)] in
  match finished_at st with
  | None => reports (after h') id st /\ forall i, waiting (after h') (id, i) = waiting (after h) (id, i)
  | Some t => ((c <= t)%Z -> reports (after h') id st) /\
              ((t < c)%Z -> unknown (after h') id /\ strategic_metadata (after h') id = ∅)
  end.
Proof. exact cleanup_exact. Qed.
Print Assumptions C14_cleanup_removes_exactly_the_old_partial.
Example C14_example : fresh_ids ex_h /\ clocks_ok ex_h /\ exists s, reports (after ex_h) 3 (Completed s) /\ sc_total s = 1.
Proof. exact (conj ex_fresh (conj ex_clocks ex_3)). Qed.

Theorem C14_refuted : exists h c id s x, fresh_ids h /\ clocks_ok h /\
  reports (after (h ++ [quiet (OCleanup c)])) id (InProgress s) /\
  completed_chunk (after h) (id, 0) = Some x /\ completed_chunk (after (h ++ [quiet (OCleanup c)])) (id, 0) = None.
Proof.
  pose proof ex_1 as (s & Hs & _). destruct (cleanup_in_progress ex_h 3 1 s ex_fresh Hs) as [H _].
  exists ex_h, 3%Z, 1, s, (ChunkCompleted 1 0 (Some "x") 2).
  split; [exact ex_fresh|]. split; [exact ex_clocks|]. split; [exact H|]. clear. by vm_compute.
Qed.
Print Assumptions C14_refuted.

(** ** C15. Missing: a clock that runs backwards within one operation (refutation below). *)
Theorem C15_status_readable_partial : forall h id,
  fresh_ids h -> clocks_ok h \/ no_cleanup h -> exists r, status_of (after h) id = Ok r.
Proof. exact status_readable. Qed.
Print Assumptions C15_status_readable_partial.
Example C15_example : let h := ex_h ++ [quiet (OCleanup 5)] in fresh_ids h /\ clocks_ok h /\
  match status_of (after h) 4 with Ok (Some (Failed _ _)) => true | _ => false end = true.
Proof.
  cbv zeta. split; [by apply fresh_by|]. split; [|by vm_compute].
  unfold clocks_ok. apply Forall_app. split; [exact ex_clocks|]. by repeat constructor.
Qed.

Theorem C15_refuted : exists h id, fresh_ids h /\ status_of (after h) id = Err (EDb RowNotFound).
Proof.
  exists [ex_insert 1 [None]; quiet (OFail (1, 0) "f" 1 10 5 10); quiet (OCleanup 7)], 1.
  split; [by apply fresh_by|]. by vm_compute.
Qed.
Print Assumptions C15_refuted.

(** ** C16: any database; [all] is the exact set of matching submissions. Full statement: for any number
    of pairs; it holds up to 63. *)
Theorem C16_metadata_lookup_partial : forall d m max, (size m <= 63)%nat ->
  exists all, enumerates all (carries d m) /\ StronglySorted N.lt all /\
  exec (lookup_ids_by_strategic_metadata m max) d [] =
    (Ok (if max <? N.of_nat (length all) then inr max else inl all), d).
Proof. exact lookup_meta. Qed.
Print Assumptions C16_metadata_lookup_partial.
(** With more, every lookup fails. *)
Theorem C16_many_refuted : forall d m max, (63 < size m)%nat ->
  exec (lookup_ids_by_strategic_metadata m max) d [] = (Err (EDb OtherSqlError), d).
Proof. exact lookup_meta_many. Qed.
Print Assumptions C16_many_refuted.
Example C16_example :
  fst (exec (lookup_ids_by_strategic_metadata {[ "k" := 5%Z ]} 2) (after [ex_insert 3 [None]; ex_insert 1 [None]]) []) = Ok (inl [1; 3]) /\
  fst (exec (lookup_ids_by_strategic_metadata {[ "k" := 5%Z ]} 1) (after [ex_insert 3 [None]; ex_insert 1 [None]]) []) = Ok (inr 1) /\
  fst (exec (lookup_ids_by_strategic_metadata {[ "k" := 6%Z ]} 1) (after [ex_insert 3 [None]; ex_insert 1 [None]]) []) = Ok (inl []).
Proof. by vm_compute. Qed.

(** ** C17. Missing: cancelled submissions are not searched (refutation below). *)
Theorem C17_prefix_lookup_partial : forall h p, fresh_ids h -> clocks_ok h ->
  (forall id, prefix_found (after h) p = Some id ->
     exists st, reports (after h) id st /\ not_cancelled st /\ status_prefix st = Some p) /\
  (forall id st, reports (after h) id st -> not_cancelled st -> status_prefix st = Some p ->
     (forall id' st', reports (after h) id' st' -> not_cancelled st' -> status_prefix st' = Some p -> id' = id) ->
     prefix_found (after h) p = Some id) /\
  (prefix_found (after h) p = None ->
     forall id st, reports (after h) id st -> not_cancelled st -> status_prefix st <> Some p).
Proof. exact prefix_lookup. Qed.
Print Assumptions C17_prefix_lookup_partial.
Example C17_example : fresh_ids ex_h /\ clocks_ok ex_h /\ prefix_found (after ex_h) "p" = Some 1 /\ prefix_found (after ex_h) "q" = None.
Proof. split; [exact ex_fresh|]. split; [exact ex_clocks|]. by vm_compute. Qed.

Theorem C17_refuted : exists h id s p, fresh_ids h /\ reports (after h) id (Cancelled s) /\
  sx_prefix s = Some p /\ prefix_found (after h) p = None.
Proof.
  exists [ex_insert 1 [None]; quiet (OCancel 1 2 2)], 1.
  by_status (after [ex_insert 1 [None]; quiet (OCancel 1 2 2)]) 1
    (fun st => match st with Cancelled s => bool_decide (sx_prefix s = Some "p"%string) | _ => false end) Hst. destruct Hst as ([| | |s] & Hs & E); try discriminate E.
  exists s, "p"%string. split; [by apply fresh_by|]. split; [exact Hs|]. split; [by apply bool_decide_eq_true in E|]. clear. by vm_compute.
Qed.
Print Assumptions C17_refuted.

(** ** C18. Missing: chunk size and tracing carrier are lost when a submission completes or fails
    (refutation below). *)
Theorem C18_attributes_partial : forall h id a st,
  fresh_ids h -> inserted_with h id a -> reports (after h) id st ->
  status_id st = id /\ status_total st = N.of_nat (length (ia_contents a)) /\ status_prefix st = ia_prefix a /\
  status_meta st = ia_meta a /\ status_strat st = ia_strat a /\
  match st with
  | InProgress s => s_size s = ia_size a /\ s_otel s = ia_otel a
  | Failed s c => ia_contents a !! N.to_nat (sf_chunk s) = Some (kf_input c)
  | _ => True
  end.
Proof. exact attributes. Qed.
Print Assumptions C18_attributes_partial.
Theorem C18_chunk_contents : forall h id a i c,
  fresh_ids h -> inserted_with h id a -> waiting (after h) (id, i) = Some c ->
  ia_contents a !! N.to_nat i = Some (c_input c).
Proof. exact waiting_content. Qed.
Print Assumptions C18_chunk_contents.
Definition ex_args (l : list content) : insert_args := InsertArgs (Some "p"%string) l (Some "m"%string) {[ "k" := 5%Z ]} 10 "o".
Example C18_example : inserted_with ex_h 1 (ex_args [Some "a"; None; Some "b"]%string) /\
  waiting (after ex_h) (1, 2) = Some (Chunk 1 2 (Some "b") 0).
Proof.
  split; [|by vm_compute]. exists (ex_insert 1 [Some "a"; None; Some "b"]%string), 1%Z. split; [|done].
  left.
Qed.

Theorem C18_refuted : exists h id a s, fresh_ids h /\ inserted_with h id a /\ reports (after h) id (Completed s) /\
  sc_size s <> ia_size a /\ sc_otel s <> ia_otel a.
Proof.
  exists ex_h, 3, (ex_args [None]).
  by_status (after ex_h) 3 (fun st => match st with Completed s => (sc_size s =? 1)%Z && bool_decide (sc_otel s = "{}"%string) | _ => false end) Hst. destruct Hst as ([| s | |] & Hs & E); try discriminate E.
  apply andb_true_iff in E as [E1%Z.eqb_eq E2%bool_decide_eq_true].
  exists s. split; [exact ex_fresh|]. split. { exists (ex_insert 3 [None]), 1%Z. split; [|done]. unfold ex_h. clear. do 2 right. left. }
  split; [exact Hs|]. rewrite E1, E2. clear. done.
Qed.
Print Assumptions C18_refuted.

(** ** C19. Missing: the answer is Ok also when nothing was recorded (refutation below). *)
Theorem C19_waiting_chunk_is_recorded_partial : forall h id ix c out n1 n2,
  fresh_ids h -> waiting (after h) (id, ix) = Some c ->
  completed_chunk (after (h ++ [quiet (OComplete (id, ix) out n1 n2)])) (id, ix) = Some (ChunkCompleted id ix out n1).
Proof. exact complete_waiting. Qed.
Print Assumptions C19_waiting_chunk_is_recorded_partial.
Example C19_example : is_Some (waiting (after ex_h) (1, 2)).
Proof. vm_compute. by eexists. Qed.

Theorem C19_refuted :
  (exists d e cid out n1 n2, e_op e = OComplete cid out n1 n2 /\ answer_of d e = Some (AComplete (Ok tt)) /\
     completed_chunk (step d e) cid = None) /\
  (exists h e cid out n1 n2, fresh_ids (h ++ [e]) /\ e_op e = OComplete cid out n1 n2 /\ is_Some (waiting (after h) cid) /\
     answer_of (after h) e = Some (AComplete (Ok tt)) /\ after (h ++ [e]) = after h /\ completed_chunk (after (h ++ [e])) cid = None).
Proof.
  split.
  - exists db_empty, (quiet (OComplete (1, 0) None 1 1)), (1, 0), None, 1%Z, 1%Z. by vm_compute.
  - exists ex_h, (Event (OComplete (1, 2) None 1 1) [true] None), (1, 2), None, 1%Z, 1%Z.
    split; [by apply fresh_by|]. split; [done|]. split; [vm_compute; by eexists|]. by vm_compute.
Qed.
Print Assumptions C19_refuted.

(** ** C20 *)
Theorem C20_submission_counters : forall h, fresh_ids h -> clocks_ok h ->
  exists ip cp fl,
    enumerates ip (fun id => exists s, reports (after h) id (InProgress s)) /\
    enumerates cp (fun id => exists s, reports (after h) id (Completed s)) /\
    enumerates fl (fun id => exists s c, reports (after h) id (Failed s c)) /\
    fst (exec count_submissions (after h) []) = Ok (N.of_nat (length ip)) /\
    fst (exec count_submissions_completed (after h) []) = Ok (N.of_nat (length cp)) /\
    fst (exec count_submissions_failed (after h) []) = Ok (N.of_nat (length fl)).
Proof. exact submission_counters. Qed.
Print Assumptions C20_submission_counters.
Theorem C20_chunk_counter : forall h, fresh_ids h ->
  exists ss, enumerates ss (fun s => reports (after h) (s_id s) (InProgress s)) /\
  fst (exec count_chunks (after h) []) = Ok (sum_N ((fun s => s_total s - s_done s) <$> ss)).
Proof. exact chunk_count. Qed.
Print Assumptions C20_chunk_counter.
Example C20_example : fresh_ids ex_h /\ clocks_ok ex_h /\ fst (exec count_submissions (after ex_h) []) = Ok 1 /\
  fst (exec count_submissions_completed (after ex_h) []) = Ok 1 /\ fst (exec count_submissions_failed (after ex_h) []) = Ok 1 /\
  fst (exec count_chunks (after ex_h) []) = Ok 2.
Proof. split; [exact ex_fresh|]. split; [exact ex_clocks|]. by vm_compute. Qed.

(** ** C21: any number of chunks, although the code writes them in batches of 1000. *)
Theorem C21_insert_stores_every_chunk : forall h id p l m st z ot n,
  fresh_ids (h ++ [quiet (OInsert id p l m st z ot n)]) ->
  let e := quiet (OInsert id p l m st z ot n) in
  answer_of (after h) e = Some (AInsert (Ok id)) /\
  match l with
  | [] => reports (after (h ++ [e])) id (Completed (SubmissionCompleted id p 0 1 m st n "{}"))
  | _ => reports (after (h ++ [e])) id (InProgress (Submission id p (N.of_nat (length l)) 0 z m st ot))
  end /\
  forall i, waiting (after (h ++ [e])) (id, i) = (fun x => Chunk id i x 0) <$> l !! N.to_nat i.
Proof. exact insert_quiet. Qed.
Print Assumptions C21_insert_stores_every_chunk.

Theorem C21_insert_request : forall h max id ot n1 n2 c m s z,
  fresh_ids h -> id ∉ inserted_ids h ->
  let r := exec (handle max id ot n1 n2 (PInsert c m s z)) (after h) [] in
  fst r = Http200 (BId id) /\
  match c with
  | Direct l => snd r = after (h ++ [quiet (OInsert id None l m s (default 1%Z z) ot n1)])
  | SeeObjectStorage p k => snd r = after (h ++ [quiet (OInsert id (Some p) (replicate (N.to_nat k) None) m s (default 1%Z z) ot n1)])
  end.
Proof. exact insert_request. Qed.
Print Assumptions C21_insert_request.
(** A single chunk (used by tests of the code only). *)
Theorem C21_single_chunk : forall d c,
  let cid := (c_sub c, c_index c) in let d' := snd (exec (insert_chunk c) d []) in
  match waiting d cid with
  | Some _ => fst (exec (insert_chunk c) d []) = Err (EDb UniqueViolation) /\ d' = d
  | None => fst (exec (insert_chunk c) d []) = Ok tt /\
      waiting d' cid = Some (Chunk (c_sub c) (c_index c) (c_input c) 0) /\
      forall cid', cid' <> cid -> waiting d' cid' = waiting d cid'
  end.
Proof.
  intros d c cid d'. subst d'. unfold insert_chunk. rewrite exec_sql. unfold on, ins. fold cid. unfold waiting, get_chunk.
  rewrite !exec_sql. destruct (t_chunk d !! cid) as [r|] eqn:E; cbn [fst snd]; [done|]. split; [done|].
  split; [by cbn; rewrite lookup_insert|].
  intros cid' Hne. rewrite !exec_sql. cbn [set_chunk t_chunk]. rewrite lookup_insert_ne by congruence. by destruct (t_chunk d !! cid').
Qed.
Print Assumptions C21_single_chunk.
Example C21_single_chunk_example :
  waiting (after ex_h) (1, 9) = None /\ waiting (after ex_h) (1, 1) = Some (Chunk 1 1 None 1).
Proof. split; by vm_compute. Qed.

Example C21_example : fresh_ids (ex_h ++ [ex_insert 9 [None; Some "t"]]) /\
  waiting (after (ex_h ++ [ex_insert 9 [None; Some "t"]])) (9, 1) = Some (Chunk 9 1 (Some "t") 0).
Proof. split; [by apply fresh_by|]. by vm_compute. Qed.
