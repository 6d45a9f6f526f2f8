(** Lemmas about PyApi.v. *)
From Verif Require Export PyApi ProducerClientProofs AnswerProofs PyProofs.
Local Open Scope N_scope.

(** *** Queries change nothing *)
Lemma run_Sql {A} (R : Set) (f : stmt R) (k : sqlres R -> prog A) c fs : run (Sql R f k) c fs =
  let '(b, fs) := next_fault fs in
  if b : bool then run (k (SErr OtherSqlError)) c fs
  else match f (c_cur c) with SOk (r, d) => run (k (SOk r)) (Conn d (c_saved c)) fs | SErr e => run (k (SErr e)) c fs end.
Proof. reflexivity. Qed.
Lemma states_Sql {A} (R : Set) (f : stmt R) (k : sqlres R -> prog A) c fs : states (Sql R f k) c fs =
  c :: let '(b, fs) := next_fault fs in
  if b : bool then states (k (SErr OtherSqlError)) c fs
  else match f (c_cur c) with SOk (r, d) => states (k (SOk r)) (Conn d (c_saved c)) fs | SErr e => states (k (SErr e)) c fs end.
Proof. reflexivity. Qed.
Fixpoint reads {A} (p : prog A) : Prop :=
  match p with
  | Ret _ => True
  | Sql R f k => (forall d r d', f d = SOk (r, d') -> d' = d) /\ forall r, reads (k r)
  | _ => False
  end.
Lemma reads_bind {A B} (p : prog A) (g : A -> prog B) : reads p -> (forall a, reads (g a)) -> reads (bind p g).
Proof. induction p as [a|k IH|k IH|k IH|R f k IH]; cbn; [by intros _ Hg; apply Hg|done|done|done|]. intros [H1 H2] Hg. split; [done|]. intros r. by apply IH. Qed.
Lemma reads_read {R : Set} (q : db -> R) : reads (read q).
Proof. cbn. split; [|done]. intros d r d' [= <- <-]. done. Qed.
Lemma reads_tryb {A B} (p : M A) (g : A -> M B) : reads p -> (forall a, reads (g a)) -> reads (tryb p g).
Proof. intros Hp Hg. apply reads_bind; [done|]. by intros [a|e|]; cbn. Qed.
Lemma reads_run {A} (p : prog A) : reads p -> forall c fs, snd (fst (run p c fs)) = c.
Proof.
  induction p as [a|k IH|k IH|k IH|R f k IH]; try done. intros [H1 H2] c fs. rewrite run_Sql. destruct (next_fault fs) as [[] fs']; [by apply IH|].
  destruct (f (c_cur c)) as [[r d]|e] eqn:E; [|by apply IH]. apply H1 in E as ->. rewrite IH by done. by destruct c.
Qed.
Lemma reads_exec {A} (p : prog A) d fs : reads p -> snd (exec p d fs) = d.
Proof. intros H. unfold exec. pose proof (reads_run p H (conn_of d) fs) as E. destruct (run p (conn_of d) fs) as [[r c] fs']. cbn in *. by subst c. Qed.
Lemma reads_states {A} (p : prog A) : reads p -> forall c fs x, x ∈ states p c fs -> x = c.
Proof.
  induction p as [a|k IH|k IH|k IH|R f k IH]; try done.
  - intros _ c fs x ->%elem_of_list_singleton. done.
  - intros [H1 H2] c fs x. rewrite states_Sql. intros [->|H]%elem_of_cons; [done|]. destruct (next_fault fs) as [[] fs']; [by apply (IH _ (H2 _)) in H|].
    destruct (f (c_cur c)) as [[r d]|e] eqn:E; [|by apply (IH _ (H2 _)) in H]. apply H1 in E as ->. apply (IH _ (H2 _)) in H as ->. by destruct c.
Qed.
Lemma reads_crash {A} (p : prog A) d fs k x : reads p -> crash_dbs p d fs !! k = Some x -> x = d.
Proof.
  intros H E. unfold crash_dbs in E. rewrite list_lookup_fmap in E. destruct (states p (conn_of d) fs !! k) as [c|] eqn:Ec; [|done].
  apply elem_of_list_lookup_2, (reads_states p H) in Ec as ->. by injection E as <-.
Qed.
Lemma reads_status id : reads (submission_status id).
Proof.
  unfold submission_status, get_chunk_failed. repeat (apply reads_tryb; [apply reads_read|]; intros [?|]; [try done|]); try done.
  apply reads_tryb; [|done]. cbn. split; [|by intros [|]]. intros d r d'. by case_match; intros [=].
Qed.

(** The requests that only ask. *)
Definition query (q : request) : Prop := match q with PInsert _ _ _ _ | PCancel _ => False | _ => True end.
Definition query_reads max id ot n1 n2 q : query q -> reads (handle max id ot n1 n2 q).
Proof.
  destruct q; cbn [query]; try done; intros _; cbn [handle]; (apply reads_bind; [|done]).
  - apply reads_status.
  - apply reads_read.
  - apply reads_tryb; [|intros ids; by case_match]. cbn. split; [|by intros [|]]. intros d r d'. by case_match; intros [=].
  - apply reads_read.
  - apply reads_read.
Qed.
(** With faults a query gives the same answer or an error. *)
Lemma query_faults max id ot n1 n2 q d fs : query q ->
  fst (exec (handle max id ot n1 n2 q) d fs) = fst (exec (handle max id ot n1 n2 q) d []) \/
  (exists e, fst (exec (handle max id ot n1 n2 q) d fs) = Http500 e) \/ fst (exec (handle max id ot n1 n2 q) d fs) = HttpPanic.
Proof.
  assert (H : forall A (p : M A) (f : res A -> response), good p -> (forall e, f (Err e) = Http500 e) -> f Panicked = HttpPanic ->
    fst (exec (bind p (fun r => Ret (f r))) d fs) = fst (exec (bind p (fun r => Ret (f r))) d []) \/
    (exists e, fst (exec (bind p (fun r => Ret (f r))) d fs) = Http500 e) \/ fst (exec (bind p (fun r => Ret (f r))) d fs) = HttpPanic).
  { intros A p f Hg He Hp. rewrite !exec_map. cbn [fst]. destruct (fst (exec p d fs)) as [a|e|] eqn:E.
    - left. rewrite <- E. rewrite (good_ok p d fs Hg); [done|by rewrite E].
    - right. left. eauto.
    - by right; right. }
  destruct q; cbn [query]; try done; intros _; cbn [handle]; apply H; try done; try apply good_read; try apply good_sql.
  - apply good_status.
  - apply good_tryb; [apply good_sql|]. intros ids. case_match; apply good_ret.
Qed.

(** What a query call gives is what the server answers at one moment of the call. *)
Lemma query_outcome q r lost : query q ->
  match outcome q (XResp r lost) with
  | inr b => r = Http200 b
  | inl (CTooMany m) => r = Http400 m
  | inl (CNotFound _) | inl (CNotCancellable _) => False
  | inl (CHttp _) | inl (CStatus _) | inl CJson | inl (CUnexpected _) => True
  end.
Proof.
  destruct q; cbn [query]; try done; intros _; destruct r, lost; cbn; try done.
  all: repeat case_match; try done; by simplify_eq.
Qed.
Definition definite (r : client_err + body) : option response :=
  match r with inr b => Some (Http200 b) | inl (CTooMany m) => Some (Http400 m) | _ => None end.
Lemma query_call q : query q -> forall n l h r d' k,
  call_from q n (after h) l = Some (r, d', k) ->
  let h1 := h ++ others (take k l) in
  d' = after h1 /\
  match r with inl (CNotFound _) | inl (CNotCancellable _) => False | _ => True end /\
  forall a, definite r = Some a -> exists s, Served s ∈ take k l /\
    fst (exec (handle (sv_max s) (sv_id s) (sv_otel s) (sv_n1 s) (sv_n2 s) q) (after h1) []) = a.
Proof.
  intros Hq n l. revert n. induction l as [|a l IH]; intros n h r d' k H; [done|].
  destruct k as [|k]; [apply call_spec in H as ([H _] & _); lia|]. cbn [take call_from] in *.
  assert (Hd : exists x, attempt_run q (after h) a = (after (h ++ others [a]), x)).
  { destruct a as [e|c|s]; cbn [attempt_run].
    - change (others [NotServed e]) with (@nil event). rewrite app_nil_r. eauto.
    - change (others [Intercepted c]) with (@nil event). rewrite app_nil_r. eauto.
    - change (others [Served s]) with (sv_others s ++ []). rewrite app_nil_r, run_after.
      pose proof (query_reads (sv_max s) (sv_id s) (sv_otel s) (sv_n1 s) (sv_n2 s) q Hq) as Hr.
      rewrite (reads_exec _ _ _ Hr). destruct (sv_crash s) as [j|]; [|eauto].
      destruct (crash_dbs _ _ _ !! j) as [x|] eqn:E; cbn; [apply reads_crash in E as ->; eauto|eauto]. }
  destruct Hd as [x Hx]. rewrite Hx in H.
  assert (Ho : forall l', others (a :: l') = others [a] ++ others l') by (intros l'; unfold others; by rewrite <- bind_app).
  assert (Hlast : forall b, r = outcome q x -> definite r = Some b -> exists s, a = Served s /\
    fst (exec (handle (sv_max s) (sv_id s) (sv_otel s) (sv_n1 s) (sv_n2 s) q) (after (h ++ others [a])) []) = b).
  { intros b -> Hb. destruct a as [e|c|s].
    - injection Hx as _ <-. done.
    - injection Hx as _ <-. exfalso. destruct q; cbn in Hb, Hq; try done; repeat case_match; done.
    - exists s. split; [done|]. change (others [Served s]) with (sv_others s ++ []). rewrite app_nil_r. cbn [attempt_run] in Hx. rewrite run_after in Hx.
      destruct (sv_crash s); [injection Hx as _ <-; done|]. destruct (sv_lost s); [injection Hx as _ <-; done|]. injection Hx as _ <-.
      match type of Hb with definite (outcome q (XResp ?r0 ?l0)) = _ => pose proof (query_outcome q r0 l0 Hq) as Hoc end.
      destruct (outcome _ _) as [[]|]; cbn in Hb; try done; injection Hb as <-;
      destruct (query_faults (sv_max s) (sv_id s) (sv_otel s) (sv_n1 s) (sv_n2 s) q (after (h ++ sv_others s)) (sv_faults s) Hq) as [E|[[e E]|E]];
        rewrite E in Hoc; try done. }
  assert (Hdef : match outcome q x with inl (CNotFound _) | inl (CNotCancellable _) => False | _ => True end).
  { destruct a as [e|c|s].
    - injection Hx as _ <-. done.
    - injection Hx as _ <-. destruct q; cbn in Hq |- *; try done; by repeat case_match.
    - cbn [attempt_run] in Hx. destruct (sv_crash s); [injection Hx as _ <-; done|]. destruct (sv_lost s); [injection Hx as _ <-; done|]. injection Hx as _ <-.
      match goal with |- match outcome q (XResp ?r0 ?l0) with _ => _ end => pose proof (query_outcome q r0 l0 Hq) as Hoc end.
      by destruct (outcome _ _) as [[]|]. }
  assert (Hstop : Some (outcome q x, after (h ++ others [a]), 1%nat) = Some (r, d', S k) -> r = outcome q x /\ d' = after (h ++ others [a]) /\ k = 0%nat) by (by intros [= <- <- <-]).
  assert (Hfin : r = outcome q x -> d' = after (h ++ others [a]) -> k = 0%nat ->
    d' = after (h ++ others (a :: take k l)) /\ match r with inl (CNotFound _) | inl (CNotCancellable _) => False | _ => True end /\
    forall b, definite r = Some b -> exists s, Served s ∈ a :: take k l /\
    fst (exec (handle (sv_max s) (sv_id s) (sv_otel s) (sv_n1 s) (sv_n2 s) q) (after (h ++ others (a :: take k l))) []) = b).
  { intros Er -> ->. rewrite take_0. split; [done|]. split; [by rewrite Er|]. intros b Hb. destruct (Hlast b Er Hb) as (s & -> & E). exists s. split; [by left|done]. }
  destruct (outcome q x) as [e|b] eqn:Eo.
  - destruct (is_ephemeral e).
    + destruct n as [|n]; [apply Hstop in H as (? & ? & ?); by apply Hfin|].
      destruct (call_from q n (after (h ++ others [a])) l) as [[[r0 d0] k0]|] eqn:Ec; [|done]. injection H as -> -> ->.
      destruct (IH n (h ++ others [a]) r d' k Ec) as (H1 & H2 & H3). rewrite <- app_assoc, <- Ho in H1, H3. split; [done|]. split; [done|].
      intros b Hb. destruct (H3 b Hb) as (s & Hs & E). exists s. split; [by right|done].
    + apply Hstop in H as (? & ? & ?); by apply Hfin.
  - apply Hstop in H as (? & ? & ?); by apply Hfin.
Qed.

(** *** Specification *)
(** The Python object says of a submission what the server does, but for its prefix, its chunk size and
    its trace carrier, which it does not have. *)
Definition shows_completed (s : submission_completed) (p : py_completed) : Prop :=
  pc_id p = sc_id s /\ pc_total p = sc_total s /\ pc_meta p = sc_meta s /\ pc_strat p = sc_strat s /\ pc_at p = sc_at s.
Definition shows_failed (s : submission_failed) (c : chunk_failed) (p : py_failed) (k : py_chunk_failed) : Prop :=
  pf_id p = sf_id s /\ pf_total p = sf_total s /\ pf_done p = sf_done s /\ pf_meta p = sf_meta s /\ pf_strat p = sf_strat s /\
  pf_at p = sf_at s /\ pf_chunk p = sf_chunk s /\
  pk_sub k = kf_sub c /\ pk_index k = kf_index c /\ pk_failure k = kf_failure c /\ pk_at k = kf_at c.
Definition shows_cancelled (s : submission_cancelled) (p : py_cancelled) : Prop :=
  px_id p = sx_id s /\ px_total p = sx_total s /\ px_done p = sx_done s /\ px_meta p = sx_meta s /\ px_strat p = sx_strat s /\ px_at p = sx_at s.
Definition shows (st : status) (o : py_status) : Prop :=
  match st, o with
  | InProgress s, PyInProgress p => ps_id p = s_id s /\ ps_total p = s_total s /\ ps_done p = s_done s /\ ps_meta p = s_meta s /\ ps_strat p = s_strat s
  | Completed s, PyIsCompleted p => shows_completed s p
  | Failed s c, PyIsFailed p k => shows_failed s c p k
  | Cancelled s, PyIsCancelled p => shows_cancelled s p
  | _, _ => False
  end.
(** ... and so does a SubmissionNotCancellableError, whose attribute [chunk] is there for failed
    submissions and for no others. *)
Definition shows_refusal (st : status) (o : py_not_cancellable) (chunk : option py_chunk_failed) : Prop :=
  match st, o with
  | Completed s, NotCancellableCompleted p => shows_completed s p /\ chunk = None
  | Failed s c, NotCancellableFailed p k => shows_failed s c p k /\ chunk = Some k
  | Cancelled s, NotCancellableCancelled p => shows_cancelled s p /\ chunk = None
  | _, _ => False
  end.
Definition internal_error : raised := Raised InternalProducerClientError OnlyText.

Lemma of_status_shows st : shows st (of_status st).
Proof. by destruct st. Qed.

(** *** The classes of exceptions *)
Lemma caught_up c q : caught_by c q <-> c = q \/ exists p, parent c = Some p /\ caught_by p q.
Proof.
  split.
  - intros [|c' p q' H1 H2]; [by left|right; eauto].
  - intros [->|(p & H1 & H2)]; [constructor|by econstructor].
Qed.
Global Instance py_class_dec : EqDecision py_class.
Proof. solve_decision. Defined.
Fixpoint caught_b (n : nat) (c q : py_class) : bool :=
  match n with
  | O => false
  | S n => bool_decide (c = q) || match parent c with Some p => caught_b n p q | None => false end
  end.
(** No chain of classes is longer than five. *)
Lemma caught_by_b c q : caught_by c q <-> caught_b 5 c q = true.
Proof.
  split.
  - intros H. induction H as [c|c p q Hp _ IH]; [by destruct c|].
    destruct c; cbn in Hp; simplify_eq; destruct q; vm_compute in IH |- *; congruence.
  - generalize 5%nat. intros n. revert c. induction n as [|n IH]; intros c H; [done|].
    cbn in H. apply orb_true_iff in H as [H|H]; [apply bool_decide_eq_true in H as ->; constructor|].
    destruct (parent c) as [p|] eqn:Hp; [|done]. by econstructor; [|apply IH].
Qed.

(** *** What the calls give *)
Lemma status_call id h l r d' k : call (PStatus id) (after h) l = Some (r, d', k) ->
  let h1 := h ++ others (take k l) in
  d' = after h1 /\
  ((exists st, r = inr (BStatus (Some st)) /\ reports (after h1) id st) \/ (r = inr (BStatus None) /\ unknown (after h1) id) \/
   (definite r = None /\ pyerr (match r with inl e => e | inr _ => CJson end) = Some internal_error)).
Proof.
  intros H h1. destruct (query_call (PStatus id) I _ _ _ _ _ _ H) as (Hd & Hn & Ha). split; [done|].
  destruct r as [e|b].
  - destruct e as [| | | | | |m]; try done; try (right; right; split; reflexivity).
    destruct (Ha (Http400 m) eq_refl) as (s & _ & Hs). cbn [handle] in Hs. rewrite exec_map in Hs. cbn [fst] in Hs. by destruct (fst (exec _ _ _)).
  - destruct (Ha (Http200 b) eq_refl) as (s & _ & Hs). cbn [handle] in Hs. rewrite exec_map in Hs. cbn [fst] in Hs.
    fold h1 in Hs. unfold reports, unknown, status_of. destruct (fst (exec (submission_status id) (after h1) [])) as [[st|]|e|]; try done; injection Hs as <-; eauto.
Qed.
Lemma prefix_call p h l r d' k : call (PByPrefix p) (after h) l = Some (r, d', k) ->
  let h1 := h ++ others (take k l) in
  d' = after h1 /\
  (r = inr (BMaybeId (prefix_found (after h1) p)) \/ (definite r = None /\ pyerr (match r with inl e => e | inr _ => CJson end) = Some internal_error)).
Proof.
  intros H h1. destruct (query_call (PByPrefix p) I _ _ _ _ _ _ H) as (Hd & Hn & Ha). split; [done|].
  destruct r as [e|b].
  - destruct e as [| | | | | |m]; try done; try (right; split; reflexivity).
    destruct (Ha (Http400 m) eq_refl) as (s & _ & Hs). cbn [handle] in Hs. rewrite exec_map in Hs. cbn [fst] in Hs. by destruct (fst (exec _ _ _)).
  - left. destruct (Ha (Http200 b) eq_refl) as (s & _ & Hs). cbn [handle] in Hs. rewrite exec_map in Hs. cbn [fst] in Hs.
    fold h1 in Hs. unfold prefix_found. destruct (fst (exec (lookup_id_by_prefix p) (after h1) [])) as [o|e|]; try done; by injection Hs as <-.
Qed.
(** A server that served the call was set to return no more than that many ids. *)
Definition is_max (l : list attempt) (max : N) : Prop := exists s, Served s ∈ l /\ sv_max s = max.
Lemma sorted_unique (P : N -> Prop) l1 l2 : enumerates l1 P -> enumerates l2 P -> StronglySorted N.lt l1 -> StronglySorted N.lt l2 -> l1 = l2.
Proof.
  intros [N1 E1] [N2 E2] S1 S2. assert (AntiSymm eq N.lt) by (intros x y H1 H2; lia). apply (StronglySorted_unique N.lt); [done|done|].
  apply NoDup_Permutation; [done|done|]. intros x. by rewrite E1, E2.
Qed.
Lemma count_call h l r d' k : call PCount (after h) l = Some (r, d', k) ->
  let h1 := h ++ others (take k l) in
  fresh_ids h1 -> clocks_ok h1 ->
  d' = after h1 /\ exists ip, enumerates ip (fun id => exists s, reports (after h1) id (InProgress s)) /\
  (r = inr (BCount (N.of_nat (length ip))) \/ (definite r = None /\ pyerr (match r with inl e => e | inr _ => CJson end) = Some internal_error)).
Proof.
  intros H h1 Hf Hk. destruct (query_call PCount I _ _ _ _ _ _ H) as (Hd & Hn & Ha). split; [done|].
  destruct (submission_counters h1 Hf Hk) as (ip & _ & _ & He & _ & _ & Hc & _). exists ip. split; [done|].
  destruct (definite r) as [a|] eqn:Ea.
  - destruct (Ha a eq_refl) as (s & _ & E). cbn [handle] in E. rewrite exec_map in E. cbn [fst] in E. fold h1 in E. rewrite Hc in E. cbn in E. subst a.
    left. destruct r as [[]|]; try done. by injection Ea as ->.
  - right. split; [done|]. by destruct r as [[]|].
Qed.
Lemma metadata_many m h l r d' k : (63 < size m)%nat -> call (PByMeta m) (after h) l = Some (r, d', k) ->
  d' = after (h ++ others (take k l)) /\ definite r = None /\ pyerr (match r with inl e => e | inr _ => CJson end) = Some internal_error.
Proof.
  intros Hm H. destruct (query_call (PByMeta m) I _ _ _ _ _ _ H) as (Hd & Hn & Ha). split; [done|].
  destruct (definite r) as [a|] eqn:Ea.
  - exfalso. destruct (Ha a eq_refl) as (s & Hin & E). cbn [handle] in E. rewrite exec_map in E. cbn [fst] in E. rewrite lookup_meta_many in E by done.
    cbn in E. subst a. by destruct r as [[]|].
  - split; [done|]. by destruct r as [[]|].
Qed.
Lemma metadata_call m h l r d' k : (size m <= 63)%nat -> call (PByMeta m) (after h) l = Some (r, d', k) ->
  let h1 := h ++ others (take k l) in
  d' = after h1 /\ exists all, enumerates all (carries (after h1) m) /\ StronglySorted N.lt all /\
  ((exists max, is_max l max /\ N.of_nat (length all) <= max /\ r = inr (BIds all)) \/
   (exists max, is_max l max /\ max < N.of_nat (length all) /\ r = inl (CTooMany max)) \/
   (definite r = None /\ pyerr (match r with inl e => e | inr _ => CJson end) = Some internal_error)).
Proof.
  intros Hm H h1. destruct (query_call (PByMeta m) I _ _ _ _ _ _ H) as (Hd & Hn & Ha). split; [done|].
  destruct (lookup_meta (after h1) m 0 Hm) as (all & He & Hs & _). exists all. split; [done|]. split; [done|].
  assert (Hany : forall max, exec (lookup_ids_by_strategic_metadata m max) (after h1) [] = (Ok (if max <? N.of_nat (length all) then inr max else inl all), after h1)).
  { intros max. destruct (lookup_meta (after h1) m max Hm) as (all' & He' & Hs' & ->). by rewrite (sorted_unique _ _ _ He He' Hs Hs'). }
  destruct (definite r) as [a|] eqn:Ea.
  - destruct (Ha a eq_refl) as (s & Hin & E). cbn [handle] in E. rewrite exec_map in E. cbn [fst] in E. fold h1 in E. rewrite Hany in E.
    assert (Hmx : is_max l (sv_max s)) by (exists s; split; [|done]; apply elem_of_take in Hin as (j & Hj & _); by apply elem_of_list_lookup_2 in Hj).
    cbn in E. destruct (sv_max s <? N.of_nat (length all)) eqn:El; cbn in E; subst a.
    + right. left. exists (sv_max s). apply N.ltb_lt in El. split; [done|]. split; [done|]. destruct r as [[]|]; try done. by injection Ea as ->.
    + left. exists (sv_max s). apply N.ltb_ge in El. split; [done|]. split; [done|]. destruct r as [[]|]; try done. by injection Ea as ->.
  - right. right. split; [done|]. by destruct r as [[]|].
Qed.

(** An attempt that meets with no trouble. *)
Definition untroubled (s : serving) : Prop := sv_faults s = [] /\ sv_crash s = None /\ sv_lost s = None /\ sv_body_lost s = None.
Lemma served_well q s : query q -> untroubled s -> forall l n h r d',
  call_from q n (after h) (l ++ [Served s]) = Some (r, d', S (length l)) ->
  r = outcome q (XResp (fst (exec (handle (sv_max s) (sv_id s) (sv_otel s) (sv_n1 s) (sv_n2 s) q) (after (h ++ others (l ++ [Served s]))) [])) None).
Proof.
  intros Hq (U1 & U2 & U3 & U4). induction l as [|a l IH]; intros n h r d' H.
  - change (others ([] ++ [Served s])) with (sv_others s ++ []). rewrite app_nil_r. cbn [app call_from attempt_run] in H.
    rewrite U1, U2, U3, U4, run_after in H. destruct (outcome _ _) as [e|b]; [|by injection H].
    destruct (is_ephemeral e); [destruct n|]; by simplify_eq/=.
  - cbn [app call_from] in H.
    assert (Hd : exists x, attempt_run q (after h) a = (after (h ++ others [a]), x)).
    { destruct a as [e|c|t]; cbn [attempt_run].
      - change (others [NotServed e]) with (@nil event). rewrite app_nil_r. eauto.
      - change (others [Intercepted c]) with (@nil event). rewrite app_nil_r. eauto.
      - change (others [Served t]) with (sv_others t ++ []). rewrite app_nil_r, run_after.
        pose proof (query_reads (sv_max t) (sv_id t) (sv_otel t) (sv_n1 t) (sv_n2 t) q Hq) as Hr.
        rewrite (reads_exec _ _ _ Hr). destruct (sv_crash t) as [j|]; [|eauto].
        destruct (crash_dbs _ _ _ !! j) as [x|] eqn:E; cbn; [apply reads_crash in E as ->; eauto|eauto]. }
    destruct Hd as [x Hx]. rewrite Hx in H.
    assert (Ho : others ((a :: l) ++ [Served s]) = others [a] ++ others (l ++ [Served s])) by (unfold others; by rewrite <- bind_app).
    rewrite Ho, app_assoc. destruct (outcome q x) as [e|b]; [|by injection H].
    destruct (is_ephemeral e); [|by injection H]. destruct n as [|n]; [by injection H|].
    destruct (call_from q n _ _) as [[[r0 d0] k0]|] eqn:Ec; [|done]. injection H as -> -> ->. by eapply IH.
Qed.

(** *** Interrupts *)
Section watching.
Context {A : Type} (future : option (N * A)) (signal : option N) (fair : N -> bool).
(** The first check at or after a time. *)
Lemma watch_spec fuel : forall k t r, watch future signal fair k fuel = Some (t, r) ->
  match r with
  | CallEnded a => future = Some (t, a)
  | InterruptRaised => exists s, signal = Some s /\ s <= t
  end.
Proof.
  induction fuel as [|n IH]; intros k t r H; [done|]. cbn [watch] in H.
  assert (Hp : match signal with Some s => s <=? signal_check_interval * k | None => false end = true -> (signal_check_interval * k, InterruptRaised) = (t, r) ->
    match r with CallEnded a => future = Some (t, a) | InterruptRaised => exists s, signal = Some s /\ s <= t end).
  { intros E [= <- <-]. destruct signal as [s|]; [|done]. exists s. split; [done|]. by apply N.leb_le. }
  destruct future as [[ft fa]|] eqn:Ef.
  - destruct (_ || _); [by injection H as <- <-|]. destruct (match signal with Some _ => _ | None => _ end); [apply Hp; [done|by injection H as <- <-]|].
    by apply (IH (k + 1)).
  - destruct (match signal with Some _ => _ | None => _ end); [apply Hp; [done|by injection H as <- <-]|]. by apply (IH (k + 1)).
Qed.
(** It ends no later than the first check after the signal. *)
Lemma watch_bound fuel : forall k t r s, (1 <= k) -> watch future signal fair k fuel = Some (t, r) -> signal = Some s ->
  signal_check_interval * (k - 1) <= s -> t <= s + signal_check_interval.
Proof.
  unfold signal_check_interval. induction fuel as [|n IH]; intros k t r s Hk H -> Hs; [done|]. cbn [watch] in H. unfold signal_check_interval in H.
  assert (Hgo : watch future (Some s) fair (k + 1) n = Some (t, r) -> 1000 * k < s -> t <= s + 1000).
  { intros H' Hlt. apply (IH (k + 1) t r s); [lia|done|done|lia]. }
  destruct future as [[ft fa]|].
  - destruct ((ft <? 1000 * k) || (ft =? 1000 * k) && (fair k || negb (s <=? 1000 * k))) eqn:E.
    + injection H as <- <-. apply orb_true_iff in E as [E%N.ltb_lt|[E%N.eqb_eq _]%andb_true_iff]; lia.
    + destruct (s <=? 1000 * k) eqn:El; [assert (t = 1000 * k) as -> by congruence; lia|]. apply Hgo; [done|]. by apply N.leb_gt in El.
  - destruct (s <=? 1000 * k) eqn:El; [assert (t = 1000 * k) as -> by congruence; lia|]. apply Hgo; [done|]. by apply N.leb_gt in El.
Qed.
(** It does end: with enough fuel. *)
Lemma watch_ends m : forall k, (exists s, signal = Some s /\ s <= signal_check_interval * (k + N.of_nat m)) \/
  (exists t a, future = Some (t, a) /\ t < signal_check_interval * (k + N.of_nat m)) -> exists t r, watch future signal fair k (S m) = Some (t, r).
Proof.
  induction m as [|m IH]; intros k H.
  - rewrite N.add_0_r in H. cbn [watch]. destruct H as [(s & -> & Hs)|(t & a & -> & Ht)].
    + rewrite (proj2 (N.leb_le _ _) Hs). destruct future as [[ft fa]|]; [case_match|]; eauto.
    + rewrite (proj2 (N.ltb_lt _ _) Ht). cbn. eauto.
  - assert (Hn : exists t r, watch future signal fair (k + 1) (S m) = Some (t, r)).
    { apply IH. replace (k + 1 + N.of_nat m) with (k + N.of_nat (S m)) by lia. done. }
    remember (S m) as m'. cbn [watch]. destruct Hn as (t & r & ->). destruct future as [[ft fa]|]; repeat case_match; eauto.
Qed.
Lemma watch_first fuel : forall k t r, 1 <= k -> watch future signal fair k fuel = Some (t, r) ->
  (forall s, signal = Some s -> signal_check_interval * (k - 1) <= s) ->
  (forall ft fa, future = Some (ft, fa) -> (forall s, signal = Some s -> ft < s) -> r = CallEnded fa).
Proof.
  unfold signal_check_interval. induction fuel as [|n IH]; intros k t r Hk H Hs ft fa Ef Hb; [done|]. cbn [watch] in H. unfold signal_check_interval in H. rewrite Ef in H.
  destruct ((ft <? 1000 * k) || _) eqn:E; [by injection H as _ <-|].
  destruct (match signal with Some s => s <=? 1000 * k | None => false end) eqn:Ep.
  - exfalso. destruct signal as [s|]; [|done]. apply N.leb_le in Ep. pose proof (Hb s eq_refl).
    apply orb_false_iff in E as [E%N.ltb_ge _]. lia.
  - rewrite <- Ef in H. apply (IH (k + 1) t r) with (ft := ft); [lia|done| |done|done].
    intros s ->. apply N.leb_gt in Ep. lia.
Qed.
End watching.

(** *** Uploads *)
(** py_upload_from is store_chunks (ObjectStore.v) with the exceptions of Python. *)
Definition as_element (x : item) : option string * upload := match x with Yields c u => (Some c, u) | Throws _ => (None, Uploaded) end.
Lemma upload_store base p l : forall i o, py_upload_from base p i l o =
  let '(r, o') := store_chunks_from base p Input i (as_element <$> l) o in
  (match r with Some n => Returns n | None => RaisesOwn ChunksStorageError eval_error_text end, o').
Proof. induction l as [|[c u|x] l IH]; intros i o; [done| |done]. cbn. destruct u; cbn; [apply IH|done|done]. Qed.
Lemma upload_lets_nothing_through base p l i o x o' : py_upload_from base p i l o <> (LetsThrough x, o').
Proof. rewrite upload_store. by destruct (store_chunks_from _ _ _ _ _ _) as [[n|] o1]. Qed.
Lemma upload_raises base p l : forall i o, ~ Forall (fun x => match x with Yields _ Uploaded => True | _ => False end) l ->
  exists text o', py_upload_from base p i l o = (RaisesOwn ChunksStorageError text, o').
Proof.
  induction l as [|[c u|x] l IH]; intros i o H; [by destruct H| |cbn; eauto]. cbn. destruct u; cbn; [|eauto|eauto].
  apply IH. intros Hl. apply H. by constructor.
Qed.
Lemma upload_returns base p l i o n o' : (forall a b, p <> a +:+ "/" +:+ b) -> py_upload_from base p i l o = (Returns n, o') ->
  n = i + N.of_nat (length l) /\ Forall (fun x => match x with Yields _ Uploaded => True | _ => False end) l /\
  forall j c u, l !! j = Some (Yields c u) -> retrieve_chunk base p (i + N.of_nat j) Input o' = Some c.
Proof.
  intros Hp H. split_and!.
  - rewrite upload_store in H. destruct (store_chunks_from _ _ _ _ _ _) as [[m|] o1] eqn:E; [|done]. injection H as <- <-.
    destruct (store_chunks_result _ _ _ _ _ _ _ _ E Hp) as [-> _]. by rewrite fmap_length.
  - revert i o H. clear. induction l as [|[c u|x] l IH]; intros i o H; [done| |done]. cbn in H.
    destruct u; cbn in H; [|done|done]. constructor; [done|]. by eapply IH.
  - intros j c u Hj. rewrite upload_store in H. destruct (store_chunks_from _ _ _ _ _ _) as [[m|] o1] eqn:E; [|done]. injection H as <- <-.
    destruct (store_chunks_result _ _ _ _ _ _ _ _ E Hp) as [_ Hg]. apply (Hg j (Some c) u). by rewrite list_lookup_fmap, Hj.
Qed.
