(** General facts about programs: stack discipline, faults, crash atomicity, composition. *)
From Verif Require Export Sqlite.

Lemma next_fault_nil : next_fault [] = (false, []).
Proof. reflexivity. Qed.

(** Stack discipline: a program leaves the stack as it found it and never looks below it. *)
Definition keeps {A} (p : prog A) : Prop :=
  forall c fs, c_saved (snd (fst (run p c fs))) = c_saved c /\
    Forall (fun st => exists pre, c_saved st = pre ++ c_saved c) (states p c fs).
(** A run without faults does not depend on the stack. *)
Definition local {A} (p : prog A) : Prop :=
  forall d ds, run p (Conn d ds) [] = (fst (exec p d []), Conn (snd (exec p d [])) ds, []).
(** A fault either surfaces as a database error or has no effect. *)
Definition strict {A} (p : M A) : Prop :=
  forall c fs, fst (fst (run p c fs)) = Err (EDb OtherSqlError) \/
    fst (run p c fs) = fst (run p c []).

Record good {A} (p : M A) : Prop := Good { good_keeps : keeps p; good_local : local p; good_strict : strict p }.

Lemma run_bind {A B} (p : prog A) (g : A -> prog B) c fs :
  run (bind p g) c fs = let '(a, c', fs') := run p c fs in run (g a) c' fs'.
Proof.
  revert c fs. induction p as [a|k IH|k IH|k IH|R f k IH]; intros c fs; simpl; try done.
  - destruct (next_fault fs) as [[] fs']; apply IH.
  - destruct (next_fault fs) as [b fs'], (c_saved c); [apply IH|]. destruct b; apply IH.
  - destruct (c_saved c); apply IH.
  - destruct (next_fault fs) as [[] fs']; [apply IH|].
    destruct (f (c_cur c)) as [[r d]|e]; apply IH.
Qed.

Lemma states_head {A} (p : prog A) c fs : exists l, states p c fs = c :: l.
Proof. destruct p; simpl; eauto. Qed.

Lemma states_bind {A B} (p : prog A) (g : A -> prog B) c fs st :
  In st (states (bind p g) c fs) ->
  In st (states p c fs) \/
  In st (states (g (fst (fst (run p c fs)))) (snd (fst (run p c fs))) (snd (run p c fs))).
Proof.
  revert c fs. induction p as [a|k IH|k IH|k IH|R f k IH]; intros c fs; simpl.
  - intros H; right; exact H.
  - destruct (next_fault fs) as [[] fs']; (intros [->|H]; [auto|]; apply IH in H; tauto).
  - destruct (next_fault fs) as [b fs'], (c_saved c) as [|d ds].
    + intros [->|H]; [auto|]. apply IH in H; tauto.
    + destruct b; (intros [->|H]; [auto|]; apply IH in H; tauto).
  - destruct (c_saved c); (intros [->|H]; [auto|]; apply IH in H; tauto).
  - destruct (next_fault fs) as [[] fs'].
    + intros [->|H]; [auto|]. apply IH in H; tauto.
    + destruct (f (c_cur c)) as [[r d]|e]; (intros [->|H]; [auto|]; apply IH in H; tauto).
Qed.

(** Closure of [keeps]. *)
Lemma keeps_ret {A} (a : A) : keeps (Ret a).
Proof. intros c fs; simpl; split; [done|]. repeat constructor. by exists []. Qed.

Lemma keeps_sql {R : Set} (f : stmt R) : keeps (sql f).
Proof.
  intros c fs. unfold sql; simpl. destruct (next_fault fs) as [[] fs']; simpl.
  - split; [done|]. repeat constructor; by exists [].
  - destruct (f (c_cur c)) as [[r d]|e]; simpl; (split; [done|]; repeat constructor; by exists []).
Qed.

Lemma keeps_bind {A B} (p : prog A) (g : A -> prog B) :
  keeps p -> (forall a, keeps (g a)) -> keeps (bind p g).
Proof.
  intros Hp Hg c fs. rewrite run_bind. pose proof (Hp c fs) as [H1 H2].
  destruct (run p c fs) as [[a c'] fs'] eqn:E; simpl in *.
  pose proof (Hg a c' fs') as [H3 H4]. split; [congruence|].
  apply List.Forall_forall. intros st Hin. apply states_bind in Hin. rewrite E in Hin; simpl in Hin.
  destruct Hin as [Hin|Hin].
  - by eapply List.Forall_forall in H2; [|exact Hin].
  - eapply List.Forall_forall in H4; [|exact Hin]. rewrite H1 in H4. exact H4.
Qed.

Lemma keeps_tryb {A B} (p : M A) (g : A -> M B) :
  keeps p -> (forall a, keeps (g a)) -> keeps (tryb p g).
Proof. intros Hp Hg. apply keeps_bind; [done|]. intros [a|e|]; [apply Hg|apply keeps_ret|apply keeps_ret]. Qed.

Lemma keeps_transaction {A} (body : M A) : keeps body -> keeps (transaction body).
Proof.
  intros Hb c fs. unfold transaction; simpl.
  destruct (next_fault fs) as [[] fs']; simpl.
  { split; [done|]. repeat constructor; by exists []. }
  set (c1 := Conn (c_cur c) (c_cur c :: c_saved c)).
  rewrite run_bind. pose proof (Hb c1 fs') as [H1 H2].
  match goal with |- context[states (bind body ?g) c1 fs'] => set (gg := g) end.
  assert (Hst : forall st, In st (states (bind body gg) c1 fs') -> exists pre, c_saved st = pre ++ c_saved c).
  { intros st Hin. apply states_bind in Hin as [Hin|Hin].
    - eapply List.Forall_forall in H2; [|exact Hin]. destruct H2 as [pre ->].
      exists (pre ++ [c_cur c]). simpl. by rewrite <- app_assoc.
    - destruct (run body c1 fs') as [[r c2] fs2]; simpl in *. subst gg. simpl in Hin.
      destruct r as [a|e|]; simpl in Hin; rewrite ?H1 in Hin.
      + destruct (next_fault fs2) as [[] fs3]; simpl in Hin.
        * destruct Hin as [<-|[<-|[]]]; [exists [c_cur c]; by rewrite H1|by exists []].
        * destruct Hin as [<-|[<-|[]]]; [exists [c_cur c]; by rewrite H1|by exists []].
      + destruct Hin as [<-|[<-|[]]]; [exists [c_cur c]; by rewrite H1|by exists []].
      + destruct Hin as [<-|[<-|[]]]; [exists [c_cur c]; by rewrite H1|by exists []]. }
  split.
  - destruct (run body c1 fs') as [[r c2] fs2]; simpl in *.
    destruct r as [a|e|]; simpl; rewrite ?H1; try done.
    destruct (next_fault fs2) as [[] fs3]; done.
  - constructor; [by exists []|]. apply List.Forall_forall. exact Hst.
Qed.

(** A transaction that does not return Ok changes nothing, whatever fails. *)
Lemma transaction_not_ok {A} (body : M A) c fs : keeps body ->
  is_ok (fst (fst (run (transaction body) c fs))) = false ->
  snd (fst (run (transaction body) c fs)) = c.
Proof.
  intros Hb. unfold transaction; simpl. destruct (next_fault fs) as [[] fs']; simpl; [done|].
  rewrite run_bind. set (c1 := Conn (c_cur c) (c_cur c :: c_saved c)).
  pose proof (Hb c1 fs') as [H1 _].
  destruct (run body c1 fs') as [[r c2] fs2]; simpl in *.
  destruct r as [a|e|]; simpl; rewrite ?H1; destruct c; simpl; try done.
  destruct (next_fault fs2) as [[] fs3]; done.
Qed.

Lemma last_app {X} (pre l : list X) (x y : X) : l <> [] -> List.last (pre ++ l) x = List.last l y.
Proof.
  intros Hl. induction pre as [|z pre IH]; simpl.
  - destruct l as [|a l]; [done|]. clear Hl. revert a. induction l as [|b l IH]; intros a; [done|].
    change (List.last (b :: l) x = List.last (b :: l) y). apply IH.
  - destruct (pre ++ l) eqn:E; [|exact IH]. apply app_eq_nil in E as [_ ->]. done.
Qed.

(** Crash atomicity: at every point of an outermost transaction, what survives a crash is the
    database from before or the database from after. *)
Lemma transaction_atomic {A} (body : M A) d fs d' : keeps body ->
  In d' (crash_dbs (transaction body) d fs) ->
  d' = d \/ d' = snd (exec (transaction body) d fs).
Proof.
  intros Hb. unfold crash_dbs, exec, transaction, conn_of; simpl.
  destruct (next_fault fs) as [[] fs']; simpl.
  { intros [<-|[<-|[]]]; auto. }
  rewrite run_bind. set (c1 := Conn d [d]).
  pose proof (Hb c1 fs') as [H1 H2].
  intros [<-|Hin]; [by left|].
  apply in_map_iff in Hin as [st [<- Hin]]. apply states_bind in Hin as [Hin|Hin].
  - left. eapply List.Forall_forall in H2; [|exact Hin]. destruct H2 as [pre E].
    unfold durable. rewrite E. simpl. rewrite (last_app _ [d] _ d); done.
  - destruct (run body c1 fs') as [[r c2] fs2]; simpl in *.
    destruct r as [a|e|]; simpl in *; rewrite ?H1 in *.
    + destruct (next_fault fs2) as [[] fs3]; simpl in Hin;
        destruct Hin as [<-|[<-|[]]]; simpl; unfold durable; rewrite ?H1; simpl; auto.
    + destruct Hin as [<-|[<-|[]]]; simpl; unfold durable; rewrite ?H1; simpl; auto.
    + destruct Hin as [<-|[<-|[]]]; simpl; unfold durable; rewrite ?H1; simpl; auto.
Qed.

(** Closure of [local]. *)
Lemma local_ret {A} (a : A) : local (Ret a).
Proof. intros d ds; done. Qed.
Lemma local_sql {R : Set} (f : stmt R) : local (sql f).
Proof. intros d ds. unfold exec, sql; simpl. destruct (f d) as [[r d']|e]; done. Qed.
Lemma exec_bind {A B} (p : prog A) (g : A -> prog B) d : local p ->
  exec (bind p g) d [] = exec (g (fst (exec p d []))) (snd (exec p d [])) [].
Proof.
  intros Hp. unfold exec at 1. rewrite run_bind. unfold conn_of. rewrite Hp. unfold exec at 3, conn_of.
  destruct (run _ _ _) as [[? ?] ?]; done.
Qed.
Lemma local_bind {A B} (p : prog A) (g : A -> prog B) : local p -> (forall a, local (g a)) -> local (bind p g).
Proof.
  intros Hp Hg d ds. rewrite run_bind, Hp, Hg, exec_bind by done. done.
Qed.
Lemma local_tryb {A B} (p : M A) (g : A -> M B) : local p -> (forall a, local (g a)) -> local (tryb p g).
Proof. intros Hp Hg. apply local_bind; [done|]. intros [a|e|]; [apply Hg|apply local_ret|apply local_ret]. Qed.

Lemma exec_transaction {A} (body : M A) d : local body ->
  exec (transaction body) d [] =
  match fst (exec body d []) with
  | Ok a => (Ok a, snd (exec body d []))
  | Err e => (Err e, d)
  | Panicked => (Panicked, d)
  end.
Proof.
  intros Hb. unfold exec at 1, transaction; simpl. rewrite run_bind, Hb.
  destruct (fst (exec body d [])); done.
Qed.
Lemma local_transaction {A} (body : M A) : local body -> local (transaction body).
Proof.
  intros Hb d ds. rewrite exec_transaction by done. unfold transaction; simpl. rewrite run_bind, Hb.
  destruct (fst (exec body d [])); done.
Qed.

(** Closure of [strict]. *)
Lemma run_nil_faults {A} (p : prog A) c : snd (run p c []) = [].
Proof.
  revert c. induction p as [a|k IH|k IH|k IH|R f k IH]; intros c; simpl.
  - done.
  - apply IH.
  - destruct (c_saved c); apply IH.
  - destruct (c_saved c); apply IH.
  - destruct (f (c_cur c)) as [[r d]|e]; apply IH.
Qed.
Lemma strict_ret {A} (a : res A) : strict (Ret a).
Proof. intros c fs; right; done. Qed.
Lemma strict_sql {R : Set} (f : stmt R) : strict (sql f).
Proof.
  intros c fs. unfold sql; simpl. destruct (next_fault fs) as [[] fs']; simpl; [by left|right].
  destruct (f (c_cur c)) as [[r d]|e]; done.
Qed.
Lemma strict_bind {A B} (p : M A) (g : res A -> M B) :
  strict p -> (forall a, strict (g a)) ->
  (forall c fs, fst (fst (run (g (Err (EDb OtherSqlError))) c fs)) = Err (EDb OtherSqlError)) ->
  strict (bind p g).
Proof.
  intros Hp Hg He c fs. rewrite !run_bind.
  pose proof (run_nil_faults p c) as Hn. pose proof (Hp c fs) as [H|H].
  - left. destruct (run p c fs) as [[r c'] fs']; simpl in *. subst r. apply He.
  - destruct (run p c fs) as [[r c'] fs'], (run p c []) as [[r0 c0] fs0]; simpl in *.
    injection H as -> ->. subst fs0. apply Hg.
Qed.
Lemma strict_tryb {A B} (p : M A) (g : A -> M B) :
  strict p -> (forall a, strict (g a)) -> strict (tryb p g).
Proof. intros Hp Hg. apply strict_bind; [done| |done]. intros [a|e|]; [apply Hg|apply strict_ret|apply strict_ret]. Qed.
Lemma strict_transaction {A} (body : M A) : keeps body -> strict body -> strict (transaction body).
Proof.
  intros Hk Hb c fs. unfold transaction; simpl. destruct (next_fault fs) as [[] fs']; simpl; [by left|].
  rewrite !run_bind. set (c1 := Conn (c_cur c) (c_cur c :: c_saved c)).
  pose proof (run_nil_faults body c1) as Hn. pose proof (Hk c1 fs') as [Hk1 _].
  pose proof (Hb c1 fs') as [H|H].
  - left. destruct (run body c1 fs') as [[r c2] fs2]; simpl in *. subst r. simpl. rewrite Hk1. done.
  - destruct (run body c1 fs') as [[r c2] fs2], (run body c1 []) as [[r0 c0] fs0]; simpl in *.
    injection H as -> ->. subst fs0.
    destruct r0 as [a|e|]; simpl; rewrite Hk1; simpl; [|by right|by right].
    destruct (next_fault fs2) as [[] fs3]; [by left|by right].
Qed.

Lemma good_ret {A} (a : res A) : good (Ret a : M A).
Proof. split; [apply keeps_ret|apply local_ret|apply strict_ret]. Qed.
Lemma good_sql {R : Set} (f : stmt R) : good (sql f).
Proof. split; [apply keeps_sql|apply local_sql|apply strict_sql]. Qed.
Lemma good_tryb {A B} (p : M A) (g : A -> M B) : good p -> (forall a, good (g a)) -> good (tryb p g).
Proof.
  intros [] Hg. split; [apply keeps_tryb|apply local_tryb|apply strict_tryb]; try done;
    intros a; destruct (Hg a); done.
Qed.
Lemma good_bind {A B} (p : M A) (g : res A -> M B) : good p -> (forall a, good (g a)) ->
  (forall c fs, fst (fst (run (g (Err (EDb OtherSqlError))) c fs)) = Err (EDb OtherSqlError)) ->
  good (bind p g).
Proof.
  intros [] Hg He. split; [apply keeps_bind|apply local_bind|apply strict_bind]; try done;
    intros a; destruct (Hg a); done.
Qed.
Lemma good_transaction {A} (body : M A) : good body -> good (transaction body).
Proof. intros []. split; [apply keeps_transaction|apply local_transaction|apply strict_transaction]; done. Qed.
Lemma good_read {R : Set} (q : db -> R) : good (read q).
Proof. apply good_sql. Qed.

(** Rewriting rules for runs without faults. *)
Lemma exec_ret {A} (a : A) d fs : exec (Ret a) d fs = (a, d).
Proof. done. Qed.
Lemma exec_sql {R : Set} (f : stmt R) d :
  exec (sql f) d [] = match f d with SOk (r, d') => (Ok r, d') | SErr e => (Err (EDb e), d) end.
Proof. unfold exec, sql; simpl. destruct (f d) as [[r d']|e]; done. Qed.
Lemma exec_read {R : Set} (q : db -> R) d : exec (read q) d [] = (Ok (q d), d).
Proof. done. Qed.
Lemma exec_tryb {A B} (p : M A) (g : A -> M B) d : good p ->
  exec (tryb p g) d [] =
  match exec p d [] with
  | (Ok a, d') => exec (g a) d' []
  | (Err e, d') => (Err e, d')
  | (Panicked, d') => (Panicked, d')
  end.
Proof.
  intros []. unfold tryb. rewrite exec_bind by done.
  destruct (exec p d []) as [[a|e|] d']; done.
Qed.
Lemma exec_tx {A} (body : M A) d : good body ->
  exec (transaction body) d [] =
  match exec body d [] with
  | (Ok a, d') => (Ok a, d')
  | (Err e, _) => (Err e, d)
  | (Panicked, _) => (Panicked, d)
  end.
Proof. intros []. rewrite exec_transaction by done. destruct (exec body d []) as [[]]; done. Qed.

(** A transaction under faults: unchanged with a database error, or as without faults. *)
Lemma exec_tx_faults {A} (body : M A) d fs : good body ->
  exec (transaction body) d fs = (Err (EDb OtherSqlError), d) \/
  exec (transaction body) d fs = exec (transaction body) d [].
Proof.
  intros Hb. pose proof (good_transaction body Hb) as [_ _ Hs]. destruct Hb as [Hk _ _].
  unfold exec. pose proof (Hs (conn_of d) fs) as [H|H].
  - left. pose proof (transaction_not_ok body (conn_of d) fs Hk) as Hn.
    destruct (run (transaction body) (conn_of d) fs) as [[r c] fs']; simpl in *. subst r.
    rewrite Hn by done. done.
  - right. destruct (run (transaction body) (conn_of d) fs) as [[r c] fs'],
      (run (transaction body) (conn_of d) []) as [[r0 c0] fs0]; simpl in *. congruence.
Qed.
Lemma exec_tx_crash {A} (body : M A) d fs d' : good body ->
  In d' (crash_dbs (transaction body) d fs) -> d' = d \/ d' = snd (exec (transaction body) d []).
Proof.
  intros Hb H. pose proof Hb as [Hk _ _]. apply transaction_atomic in H; [|done].
  destruct (exec_tx_faults body d fs Hb) as [E|E]; rewrite E in H; simpl in H; tauto.
Qed.

(** Tactic: a program built from the combinators is good. *)
Global Create HintDb good discriminated.
Global Hint Resolve good_ret good_sql good_read : good.
Ltac solve_good :=
  repeat first
    [ progress intros
    | solve [eauto with good]
    | apply good_ret | apply good_sql | apply good_read
    | apply good_transaction | apply good_tryb
    | progress unfold ret, err
    | match goal with |- good (match ?x with _ => _ end) => destruct x end ].

Global Arguments bind : simpl never.
Global Arguments exec : simpl never.
Global Arguments sql : simpl never.
Global Arguments read : simpl never.
Global Arguments tryb : simpl never.
Global Arguments transaction : simpl never.
Global Arguments run : simpl never.
Global Arguments states : simpl never.
Lemma run_ret {A} (a : A) c fs : run (Ret a) c fs = (a, c, fs).
Proof. done. Qed.
Lemma states_ret {A} (a : A) c fs : states (Ret a) c fs = [c].
Proof. done. Qed.

(** Operations that happen entirely or not at all, whatever fails and wherever they are cut. *)
Definition atomic {A} (p : prog A) : Prop :=
  keeps p /\ forall d fs,
    (snd (exec p d fs) = d \/ snd (exec p d fs) = snd (exec p d [])) /\
    forall d', In d' (crash_dbs p d fs) -> d' = d \/ d' = snd (exec p d []).

Lemma exec_map {A B} (p : prog A) (f : A -> B) d fs :
  exec (bind p (fun r => Ret (f r))) d fs = (f (fst (exec p d fs)), snd (exec p d fs)).
Proof. unfold exec. rewrite run_bind. destruct (run _ _ _) as [[r c] fs']. done. Qed.
Lemma crash_map {A B} (p : prog A) (f : A -> B) d fs d' :
  keeps p ->
  In d' (crash_dbs (bind p (fun r => Ret (f r))) d fs) ->
  In d' (crash_dbs p d fs) \/ d' = snd (exec p d fs).
Proof.
  intros Hk H. unfold crash_dbs in H. apply in_map_iff in H as [st [<- H]].
  apply states_bind in H as [H|H].
  - left. by apply in_map.
  - right. rewrite states_ret in H. destruct H as [<-|[]]. unfold exec.
    pose proof (Hk (conn_of d) fs) as [Hs _].
    destruct (run p (conn_of d) fs) as [[r c] fs']; simpl in *. unfold durable. by rewrite Hs.
Qed.
Lemma atomic_tx {A} (body : M A) : good body -> atomic (transaction body).
Proof.
  intros Hb. split; [apply keeps_transaction; by destruct Hb|]. intros d fs. split.
  - destruct (exec_tx_faults body d fs Hb) as [->| ->]; auto.
  - intros d'. by apply exec_tx_crash.
Qed.
Lemma atomic_map {A B} (p : prog A) (f : A -> B) : atomic p -> atomic (bind p (fun r => Ret (f r))).
Proof.
  intros [Hk Ha]. split; [apply keeps_bind; [done|intros; apply keeps_ret]|]. intros d fs.
  destruct (Ha d fs) as [H1 H2]. rewrite !exec_map. simpl. split; [done|].
  intros d' Hin. apply crash_map in Hin as [Hin| ->]; [auto|done|done].
Qed.
