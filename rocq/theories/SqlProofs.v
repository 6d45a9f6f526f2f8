(** The statements of SqlText.v do what ChunkDb.v and SubmissionDb.v say. *)
From Verif Require Export SqlTable.
From Verif Require Import DbProofs.
Local Open Scope string_scope.
Local Open Scope list_scope.

(** *** Simulation of programs *)
Definition sql_next {R : Set} {A} (f : stmt R) (k : sqlres R -> A) (d : db) : A * db :=
  match f d with SOk (r, d') => (k (SOk r), d') | SErr e => (k (SErr e), d) end.
Definition tsql_next {A} (s : statement) (ps : list value) (k : sqlres (list srow) -> A) (D : sdb) : A * sdb :=
  match exec_stmt no_callback s ps D with SOk (r, D') => (k (SOk r), D') | SErr e => (k (SErr e), D) end.

Inductive sims {A B} (Q : A -> B -> Prop) : prog A -> tprog B -> Prop :=
| sims_ret a b : Q a b -> sims Q (Ret a) (TRet b)
| sims_begin k k' : (forall r, sims Q (k r) (k' r)) -> sims Q (Begin k) (TBegin k')
| sims_commit k k' : (forall r, sims Q (k r) (k' r)) -> sims Q (Commit k) (TCommit k')
| sims_rollback k k' : sims Q k k' -> sims Q (Rollback k) (TRollback k')
| sims_sql (R : Set) (f : stmt R) k s ps k' :
    (forall e, sims Q (k (SErr e)) (k' (SErr e))) ->
    (forall d D, stands_for D d -> stands_for (snd (tsql_next s ps k' D)) (snd (sql_next f k d))) ->
    (forall d D, stands_for D d -> sims Q (fst (sql_next f k d)) (fst (tsql_next s ps k' D))) ->
    sims Q (Sql R f k) (TSql s ps k').

Definition conn_for (C : tconn) (c : conn) : Prop := stands_for (tc_cur C) (c_cur c) /\ Forall2 stands_for (tc_saved C) (c_saved c).

Lemma sims_bind {A B A' B'} (Q : A -> B -> Prop) (Q' : A' -> B' -> Prop) p q g g' :
  sims Q p q -> (forall a b, Q a b -> sims Q' (g a) (g' b)) -> sims Q' (bind p g) (tbind q g').
Proof.
  intros Hp Hg. induction Hp as [a b Hab|k k' _ IH|k k' _ IH|k k' _ IH|R f k s ps k' _ IHe Hdb _ IH]; simpl.
  - by apply Hg.
  - by constructor.
  - by constructor.
  - by constructor.
  - constructor; [done| |].
    + intros d D HD. specialize (Hdb d D HD). revert Hdb. unfold sql_next, tsql_next.
      destruct (f d) as [[r d']|e]; destruct (exec_stmt _ _ _ _) as [[r' D']|e']; done.
    + intros d D HD. specialize (IH d D HD). revert IH. unfold sql_next, tsql_next.
      destruct (f d) as [[r d']|e]; destruct (exec_stmt _ _ _ _) as [[r' D']|e']; done.
Qed.

Lemma run_sql {A} (R : Set) (f : stmt R) (k : sqlres R -> prog A) c fs : run (Sql R f k) c fs =
  if (next_fault fs).1 then run (k (SErr OtherSqlError)) c (next_fault fs).2
  else run (fst (sql_next f k (c_cur c))) (Conn (snd (sql_next f k (c_cur c))) (c_saved c)) (next_fault fs).2.
Proof.
  destruct c as [d ds], fs as [|[] fs]; [|reflexivity|].
  - transitivity (match f d with SOk (r, d') => run (k (SOk r)) (Conn d' ds) [] | SErr e => run (k (SErr e)) (Conn d ds) [] end); [reflexivity|]; unfold sql_next; cbn [c_cur tc_cur c_saved tc_saved next_fault fst snd]; destruct (f d) as [[]|]; reflexivity.
  - transitivity (match f d with SOk (r, d') => run (k (SOk r)) (Conn d' ds) fs | SErr e => run (k (SErr e)) (Conn d ds) fs end); [reflexivity|]; unfold sql_next; cbn [c_cur tc_cur c_saved tc_saved next_fault fst snd]; destruct (f d) as [[]|]; reflexivity.
Qed.
Lemma trun_sql {A} s ps (k : sqlres (list srow) -> tprog A) c fs : trun (TSql s ps k) c fs =
  if (next_fault fs).1 then trun (k (SErr OtherSqlError)) c (next_fault fs).2
  else trun (fst (tsql_next s ps k (tc_cur c))) (Tconn (snd (tsql_next s ps k (tc_cur c))) (tc_saved c)) (next_fault fs).2.
Proof.
  destruct c as [d ds], fs as [|[] fs]; [|reflexivity|].
  - transitivity (match exec_stmt no_callback s ps d with SOk (r, d') => trun (k (SOk r)) (Tconn d' ds) [] | SErr e => trun (k (SErr e)) (Tconn d ds) [] end); [reflexivity|]; unfold tsql_next; cbn [c_cur tc_cur c_saved tc_saved next_fault fst snd]; destruct (exec_stmt no_callback s ps d) as [[]|]; reflexivity.
  - transitivity (match exec_stmt no_callback s ps d with SOk (r, d') => trun (k (SOk r)) (Tconn d' ds) fs | SErr e => trun (k (SErr e)) (Tconn d ds) fs end); [reflexivity|]; unfold tsql_next; cbn [c_cur tc_cur c_saved tc_saved next_fault fst snd]; destruct (exec_stmt no_callback s ps d) as [[]|]; reflexivity.
Qed.
Lemma states_sql {A} (R : Set) (f : stmt R) (k : sqlres R -> prog A) c fs : states (Sql R f k) c fs =
  c :: if (next_fault fs).1 then states (k (SErr OtherSqlError)) c (next_fault fs).2
  else states (fst (sql_next f k (c_cur c))) (Conn (snd (sql_next f k (c_cur c))) (c_saved c)) (next_fault fs).2.
Proof.
  destruct c as [d ds], fs as [|[] fs]; [|reflexivity|].
  - transitivity (Conn d ds :: match f d with SOk (r, d') => states (k (SOk r)) (Conn d' ds) [] | SErr e => states (k (SErr e)) (Conn d ds) [] end); [reflexivity|]; unfold sql_next; cbn [c_cur tc_cur c_saved tc_saved next_fault fst snd]; destruct (f d) as [[]|]; reflexivity.
  - transitivity (Conn d ds :: match f d with SOk (r, d') => states (k (SOk r)) (Conn d' ds) fs | SErr e => states (k (SErr e)) (Conn d ds) fs end); [reflexivity|]; unfold sql_next; cbn [c_cur tc_cur c_saved tc_saved next_fault fst snd]; destruct (f d) as [[]|]; reflexivity.
Qed.
Lemma tstates_sql {A} s ps (k : sqlres (list srow) -> tprog A) c fs : tstates (TSql s ps k) c fs =
  c :: if (next_fault fs).1 then tstates (k (SErr OtherSqlError)) c (next_fault fs).2
  else tstates (fst (tsql_next s ps k (tc_cur c))) (Tconn (snd (tsql_next s ps k (tc_cur c))) (tc_saved c)) (next_fault fs).2.
Proof.
  destruct c as [d ds], fs as [|[] fs]; [|reflexivity|].
  - transitivity (Tconn d ds :: match exec_stmt no_callback s ps d with SOk (r, d') => tstates (k (SOk r)) (Tconn d' ds) [] | SErr e => tstates (k (SErr e)) (Tconn d ds) [] end); [reflexivity|]; unfold tsql_next; cbn [c_cur tc_cur c_saved tc_saved next_fault fst snd]; destruct (exec_stmt no_callback s ps d) as [[]|]; reflexivity.
  - transitivity (Tconn d ds :: match exec_stmt no_callback s ps d with SOk (r, d') => tstates (k (SOk r)) (Tconn d' ds) fs | SErr e => tstates (k (SErr e)) (Tconn d ds) fs end); [reflexivity|]; unfold tsql_next; cbn [c_cur tc_cur c_saved tc_saved next_fault fst snd]; destruct (exec_stmt no_callback s ps d) as [[]|]; reflexivity.
Qed.

Lemma sims_run {A B} (Q : A -> B -> Prop) p q : sims Q p q -> forall c C fs, conn_for C c ->
  Q (run p c fs).1.1 (trun q C fs).1.1 /\ conn_for (trun q C fs).1.2 (run p c fs).1.2 /\ (run p c fs).2 = (trun q C fs).2 /\
  Forall2 conn_for (tstates q C fs) (states p c fs).
Proof.
  intros Hp. induction Hp as [a b Hab|k k' _ IH|k k' _ IH|k k' _ IH|R f k s ps k' _ IHe Hdb _ IH]; intros [d ds] [D Ds] fs HC;
    pose proof HC as [H1 H2]; cbn in H1, H2.
  - simpl. split_and!; [done..|]. constructor; [done|constructor].
  - assert (HC' : conn_for (Tconn D (D :: Ds)) (Conn d (d :: ds))) by (split; [done|by constructor]).
    destruct fs as [|[] fs]; cbn [run trun states tstates next_fault tc_cur tc_saved c_cur c_saved].
    + destruct (IH None _ _ [] HC') as (? & ? & ? & ?). split_and!; [done..|by constructor].
    + destruct (IH (Some OtherSqlError) _ _ fs HC) as (? & ? & ? & ?). split_and!; [done..|by constructor].
    + destruct (IH None _ _ fs HC') as (? & ? & ? & ?). split_and!; [done..|by constructor].
  - destruct H2 as [|D' d' Ds ds HD' HDs].
    + destruct fs as [|b fs]; cbn [run trun states tstates next_fault tc_cur tc_saved c_cur c_saved].
      * destruct (IH (Some OtherSqlError) _ _ [] HC) as (? & ? & ? & ?). split_and!; [done..|by constructor].
      * destruct (IH (Some OtherSqlError) _ _ fs HC) as (? & ? & ? & ?). split_and!; [done..|by constructor].
    + assert (HC1 : conn_for (Tconn D' Ds) (Conn d' ds)) by (by split).
      assert (HC2 : conn_for (Tconn D Ds) (Conn d ds)) by (by split).
      destruct fs as [|[] fs]; cbn [run trun states tstates next_fault tc_cur tc_saved c_cur c_saved].
      * destruct (IH None _ _ [] HC2) as (? & ? & ? & ?). split_and!; [done..|by constructor].
      * destruct (IH (Some OtherSqlError) _ _ fs HC1) as (? & ? & ? & ?). split_and!; [done..|by constructor].
      * destruct (IH None _ _ fs HC2) as (? & ? & ? & ?). split_and!; [done..|by constructor].
  - destruct H2 as [|D' d' Ds ds HD' HDs]; cbn [run trun states tstates next_fault tc_cur tc_saved c_cur c_saved].
    + destruct (IH _ _ fs HC) as (? & ? & ? & ?). split_and!; [done..|by constructor].
    + assert (HC1 : conn_for (Tconn D' Ds) (Conn d' ds)) by (by split).
      destruct (IH _ _ fs HC1) as (? & ? & ? & ?). split_and!; [done..|by constructor].
  - assert (Hne : forall fs', Q (run (fst (sql_next f k d)) (Conn (snd (sql_next f k d)) ds) fs').1.1
                     (trun (fst (tsql_next s ps k' D)) (Tconn (snd (tsql_next s ps k' D)) Ds) fs').1.1 /\
              conn_for (trun (fst (tsql_next s ps k' D)) (Tconn (snd (tsql_next s ps k' D)) Ds) fs').1.2
                       (run (fst (sql_next f k d)) (Conn (snd (sql_next f k d)) ds) fs').1.2 /\
              (run (fst (sql_next f k d)) (Conn (snd (sql_next f k d)) ds) fs').2 =
                (trun (fst (tsql_next s ps k' D)) (Tconn (snd (tsql_next s ps k' D)) Ds) fs').2 /\
              Forall2 conn_for (tstates (fst (tsql_next s ps k' D)) (Tconn (snd (tsql_next s ps k' D)) Ds) fs')
                       (states (fst (sql_next f k d)) (Conn (snd (sql_next f k d)) ds) fs')).
    { intros fs'. apply IH; [done|]. split; [|done]. by apply Hdb. }
    rewrite run_sql, trun_sql, states_sql, tstates_sql. destruct (next_fault fs) as [[] fs']; cbn [fst snd c_cur c_saved tc_cur tc_saved].
    + destruct (IHe OtherSqlError _ _ fs' HC) as (? & ? & ? & ?). split_and!; [done..|by constructor].
    + destruct (Hne fs') as (? & ? & ? & ?). split_and!; [done..|by constructor].
Qed.

Lemma sims_exec {A} (p : prog A) (q : tprog A) d D fs : sims eq p q -> stands_for D d ->
  fst (exec p d fs) = fst (texec q D fs) /\ stands_for (snd (texec q D fs)) (snd (exec p d fs)) /\
  Forall2 stands_for (tcrash_dbs q D fs) (crash_dbs p d fs).
Proof.
  intros Hp HD. destruct (sims_run eq p q Hp (conn_of d) (Tconn D []) fs) as (H1 & H2 & _ & H3); [by split; [|constructor]|].
  unfold exec, texec, crash_dbs, tcrash_dbs. destruct (run p _ fs) as [[a c] fs1], (trun q _ fs) as [[b C] fs2]. cbn in *.
  split_and!; [done|apply H2|]. clear -H3. apply Forall2_fmap. eapply Forall2_impl; [exact H3|]. intros C c [Hc Hs]. unfold tdurable, durable.
  revert Hs. generalize (tc_saved C), (c_saved c). intros Ds ds Hs. induction Hs as [|D' d' Ds ds HD' Hs IH]; [done|].
  destruct Hs; [done|]. exact IH.
Qed.

(** *** Programs with results *)
Lemma sims_try {A B A' B'} (Q : A -> B -> Prop) (Q' : res A' -> res B' -> Prop) (p : M A) (q : T B) g g' :
  (forall e, Q' (Err e) (Err e)) -> Q' Panicked Panicked ->
  sims (fun a b => match a, b with Ok a, Ok b => Q a b | Err e, Err e' => e = e' | Panicked, Panicked => True | _, _ => False end) p q ->
  (forall a b, Q a b -> sims Q' (g a) (g' b)) -> sims Q' (tryb p g) (ttry q g').
Proof.
  intros He Hp Hpq Hg. unfold tryb, ttry. eapply sims_bind; [exact Hpq|]. intros [a|e|] [b|e'|] Hab; cbn in Hab; try done.
  - by apply Hg.
  - subst. by constructor.
  - by constructor.
Qed.
Lemma sims_try_eq {A A'} (p : M A) (q : T A) (g : A -> M A') g' : sims eq p q -> (forall a, sims eq (g a) (g' a)) -> sims eq (tryb p g) (ttry q g').
Proof.
  intros Hpq Hg. unfold tryb, ttry. eapply sims_bind; [exact Hpq|]. intros r ? <-. destruct r; [apply Hg|by constructor..].
Qed.
Lemma sims_transaction {A} (p : M A) (q : T A) : sims eq p q -> sims eq (transaction p) (ttransaction q).
Proof.
  intros Hpq. constructor. intros [e|]; [by constructor|]. eapply sims_bind; [exact Hpq|]. intros r ? <-.
  destruct r; [constructor; intros [?|]; by constructor|by repeat constructor..].
Qed.

(** *** One statement *)
Lemma sims_one {R : Set} {A B} (Q : A -> B -> Prop) (f : stmt R) (k : sqlres R -> A) s ps (k' : sqlres (list srow) -> B) :
  (forall e, Q (k (SErr e)) (k' (SErr e))) ->
  (forall d D, stands_for D d -> stands_for (snd (tsql_next s ps k' D)) (snd (sql_next f k d)) /\ Q (fst (sql_next f k d)) (fst (tsql_next s ps k' D))) ->
  sims Q (Sql R f (fun r => Ret (k r))) (TSql s ps (fun r => TRet (k' r))).
Proof.
  intros He H. constructor.
  - intros e. by constructor.
  - intros d D HD. destruct (H d D HD) as [H1 _]. revert H1. unfold sql_next, tsql_next. by destruct (f d) as [[]|], (exec_stmt _ _ _ _) as [[]|].
  - intros d D HD. destruct (H d D HD) as [_ H1]. revert H1. unfold sql_next, tsql_next. destruct (f d) as [[]|], (exec_stmt _ _ _ _) as [[]|]; intros; by constructor.
Qed.

Lemma do_insert t h cols vals ps D : s_head D = heads -> heads !! t = Some h -> stmt_ok heads (TInsert t cols vals) = true ->
  exec_stmt no_callback (TInsert t cols vals) ps D =
  match insert_rows h ((fun v => make_row h cols (eval no_callback ps heads (rows_in D) [] <$> v)) <$> vals) (rows_in D t) with
  | SOk l => SOk ([], put_rows t l D) | SErr e => SErr e end.
Proof. intros HD Hh Hok. unfold exec_stmt. by rewrite HD, Hok, Hh. Qed.
Lemma do_insert_select t h cols outs from hf w ps D : s_head D = heads -> heads !! t = Some h -> heads !! from = Some hf ->
  stmt_ok heads (TInsertSelect t cols outs from w) = true ->
  exec_stmt no_callback (TInsertSelect t cols outs from w) ps D =
  match insert_rows h ((fun r => make_row h cols (eval no_callback ps heads (rows_in D) [(from, (hf, r))] <$> outs)) <$>
      List.filter (fun r => holds (eval no_callback ps heads (rows_in D) [(from, (hf, r))] w)) (rows_in D from)) (rows_in D t) with
  | SOk l => SOk ([], put_rows t l D) | SErr e => SErr e end.
Proof. intros HD Hh Hf Hok. unfold exec_stmt. by rewrite HD, Hok, Hh, Hf. Qed.
Lemma do_update t h c e w ret ps D : s_head D = heads -> heads !! t = Some h -> stmt_ok heads (TUpdate t c e w ret) = true ->
  exec_stmt no_callback (TUpdate t c e w ret) ps D =
  SOk ((fun r => eval no_callback ps heads (rows_in D) [(t, (h, r))] <$> ret) <$>
         ((fun r => set_cell h c (eval no_callback ps heads (rows_in D) [(t, (h, r))] e) r) <$>
            List.filter (fun r => holds (eval no_callback ps heads (rows_in D) [(t, (h, r))] w)) (rows_in D t)),
       put_rows t ((fun r => if holds (eval no_callback ps heads (rows_in D) [(t, (h, r))] w)
                             then set_cell h c (eval no_callback ps heads (rows_in D) [(t, (h, r))] e) r else r) <$> rows_in D t) D).
Proof. intros HD Hh Hok. unfold exec_stmt. by rewrite HD, Hok, Hh. Qed.
Lemma do_delete t h w ret ps D : s_head D = heads -> heads !! t = Some h -> stmt_ok heads (TDelete t w ret) = true ->
  exec_stmt no_callback (TDelete t w ret) ps D =
  SOk ((fun r => eval no_callback ps heads (rows_in D) [(t, (h, r))] <$> ret) <$>
         List.filter (fun r => holds (eval no_callback ps heads (rows_in D) [(t, (h, r))] w)) (rows_in D t),
       put_rows t (List.filter (fun r => negb (holds (eval no_callback ps heads (rows_in D) [(t, (h, r))] w))) (rows_in D t)) D).
Proof. intros HD Hh Hok. unfold exec_stmt. by rewrite HD, Hok, Hh. Qed.
Lemma do_select outs t h w ps D : s_head D = heads -> heads !! t = Some h -> stmt_ok heads (TSelect outs t w) = true ->
  exec_stmt no_callback (TSelect outs t w) ps D =
  SOk ((fun r => eval no_callback ps heads (rows_in D) [(t, (h, r))] <$> outs) <$>
         List.filter (fun r => holds (eval no_callback ps heads (rows_in D) [(t, (h, r))] w)) (rows_in D t), D).
Proof. intros HD Hh Hok. unfold exec_stmt. by rewrite HD, Hok, Hh. Qed.
Lemma do_count t h ps D : s_head D = heads -> heads !! t = Some h ->
  exec_stmt no_callback (TCount t) ps D = SOk ([[VInt (Z.of_nat (length (rows_in D t)))]], D).
Proof. intros HD Hh. unfold exec_stmt, stmt_ok. rewrite HD, Hh. cbn [is_Some]. by rewrite bool_decide_eq_true_2. Qed.

Lemma rows_put t l D : rows_in (put_rows t l D) t = l.
Proof. unfold rows_in, put_rows. cbn. by rewrite lookup_insert. Qed.
Lemma rows_put_ne t t' l D : t <> t' -> rows_in (put_rows t l D) t' = rows_in D t'.
Proof. intros H. unfold rows_in, put_rows. cbn. by rewrite lookup_insert_ne. Qed.

Lemma heads_subs : heads !! "submissions" = Some h_submissions. Proof. by vm_compute. Qed.
Lemma heads_comps : heads !! "submissions_completed" = Some h_completed. Proof. by vm_compute. Qed.
Lemma heads_fails : heads !! "submissions_failed" = Some h_failed. Proof. by vm_compute. Qed.
Lemma heads_cancs : heads !! "submissions_cancelled" = Some h_cancelled. Proof. by vm_compute. Qed.
Lemma heads_metas : heads !! "submissions_metadata" = Some h_metadata. Proof. by vm_compute. Qed.
Lemma heads_chunks : heads !! "chunks" = Some h_chunks. Proof. by vm_compute. Qed.
Lemma heads_cdones : heads !! "chunks_completed" = Some h_chunks_completed. Proof. by vm_compute. Qed.
Lemma heads_cfails : heads !! "chunks_failed" = Some h_chunks_failed. Proof. by vm_compute. Qed.

(** The other tables are untouched. *)
Ltac table_goal tac :=
  match goal with
  | |- _ ≡ₚ _ => first [rewrite rows_put_ne by discriminate; assumption | rewrite rows_put; tac | assumption]
  | _ => assumption
  end.
Ltac put_goal H tac := destruct H; constructor; [cbn; assumption|..]; cbn [t_sub t_comp t_fail t_canc t_meta t_chunk t_cdone t_cfail set_sub set_comp set_fail set_canc set_meta set_chunk set_cdone set_cfail] in *; table_goal tac.

(** *** Comparisons of ids *)
Lemma holds_n a b : holds (v_eq (v_n a) (v_n b)) = bool_decide (a = b).
Proof.
  unfold v_eq, v_n. destruct (decide (a = b)) as [->|Hne]; [by rewrite !bool_decide_eq_true_2|].
  rewrite !bool_decide_eq_false_2; [done..|]. intros [= E]. apply Hne. lia.
Qed.
Lemma holds_and a b : holds (v_and a b) = holds a && holds b.
Proof. unfold v_and, truth. by destruct (holds a && holds b). Qed.
Lemma holds_pair (x y : chunk_id) : holds (v_and (v_eq (v_n x.1) (v_n y.1)) (v_eq (v_n x.2) (v_n y.2))) = bool_decide (x = y).
Proof.
  rewrite holds_and, !holds_n. destruct x, y; cbn. rewrite <- bool_decide_and. apply bool_decide_ext. naive_solver.
Qed.
Lemma as_v_n n : as_n (v_n n) = Some n.
Proof. unfold as_n, v_n. rewrite (proj2 (Z.leb_le 0 (Z.of_N n))) by lia. by rewrite N2Z.id. Qed.

(** *** Keys *)
Definition key1 (k : sub_id) : list (option value) := [Some (v_n k)].
Definition key2 (k : chunk_id) : list (option value) := [Some (v_n k.1); Some (v_n k.2)].
Definition keym (k : sub_id * string) : list (option value) := [Some (v_n k.1); Some (VText k.2)].
Lemma key1_inj k k' : key1 k = key1 k' -> k = k'. Proof. intros [= E]. lia. Qed.
Lemma key2_inj k k' : key2 k = key2 k' -> k = k'. Proof. destruct k, k'. intros [= E1 E2]. f_equal; lia. Qed.
Lemma keym_inj k k' : keym k = keym k' -> k = k'. Proof. destruct k, k'. intros [= E1 E2]. f_equal; [lia|done]. Qed.
Lemma sub_key k a : key_of h_submissions (enc_sub (k, a)) = key1 k. Proof. done. Qed.
Lemma comp_key k a : key_of h_completed (enc_comp (k, a)) = key1 k. Proof. done. Qed.
Lemma fail_key k a : key_of h_failed (enc_fail (k, a)) = key1 k. Proof. done. Qed.
Lemma canc_key k a : key_of h_cancelled (enc_canc (k, a)) = key1 k. Proof. done. Qed.
Lemma meta_key k a : key_of h_metadata (enc_meta (k, a)) = keym k. Proof. by destruct k. Qed.
Lemma chunk_key k a : key_of h_chunks (enc_chunk (k, a)) = key2 k. Proof. by destruct k. Qed.
Lemma cdone_key k a : key_of h_chunks_completed (enc_cdone (k, a)) = key2 k. Proof. by destruct k. Qed.
Lemma cfail_key k a : key_of h_chunks_failed (enc_cfail (k, a)) = key2 k. Proof. by destruct k. Qed.
Lemma sub_nn x : nulls_ok h_submissions (enc_sub x) = true. Proof. by destruct x. Qed.
Lemma comp_nn x : nulls_ok h_completed (enc_comp x) = true. Proof. by destruct x. Qed.
Lemma fail_nn x : nulls_ok h_failed (enc_fail x) = true. Proof. by destruct x. Qed.
Lemma canc_nn x : nulls_ok h_cancelled (enc_canc x) = true. Proof. by destruct x. Qed.
Lemma meta_nn x : nulls_ok h_metadata (enc_meta x) = true. Proof. by destruct x as [[]]. Qed.
Lemma chunk_nn x : nulls_ok h_chunks (enc_chunk x) = true. Proof. by destruct x as [[]]. Qed.
Lemma cdone_nn x : nulls_ok h_chunks_completed (enc_cdone x) = true. Proof. by destruct x as [[]]. Qed.
Lemma cfail_nn x : nulls_ok h_chunks_failed (enc_cfail x) = true. Proof. by destruct x as [[]]. Qed.
