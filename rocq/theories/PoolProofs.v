(** Proofs for Pool.v. *)
From Verif Require Import SqliteProofs AnswerProofs.
From Verif Require Export Pool.
Local Open Scope N_scope.

(** *** Where in a run the committed database changes *)
Lemma states_cons {A} (p : prog A) c fs : exists l, states p c fs = c :: l.
Proof. destruct p; unfold states; simpl; eauto. Qed.
Lemma removelast_cons {A} (x y : A) l : removelast (x :: y :: l) = x :: removelast (y :: l).
Proof. done. Qed.
Lemma states_bind_app {A B} (p : prog A) (g : A -> prog B) c fs :
  states (bind p g) c fs = removelast (states p c fs) ++ (let '(a, c', fs') := run p c fs in states (g a) c' fs').
Proof.
  revert c fs. induction p as [a|k IH|k IH|k IH|R f k IH]; intros c fs; unfold states, run; simpl; fold (@states A) (@states B) (@run A).
  - done.
  - destruct (next_fault fs) as [[] fs']; rewrite IH; (match goal with |- context[states ?q ?x ?y] => destruct (states_cons q x y) as [l ->] end); done.
  - destruct (next_fault fs) as [b fs'], (c_saved c) as [|d ds]; [|destruct b]; rewrite IH; (match goal with |- context[states ?q ?x ?y] => destruct (states_cons q x y) as [l ->] end); done.
  - destruct (c_saved c) as [|d ds]; rewrite IH; (match goal with |- context[states ?q ?x ?y] => destruct (states_cons q x y) as [l ->] end); done.
  - destruct (next_fault fs) as [[] fs']; [|destruct (f (c_cur c)) as [[r d]|e]]; rewrite IH; (match goal with |- context[states ?q ?x ?y] => destruct (states_cons q x y) as [l ->] end); done.
Qed.
Lemma states_last {A} (p : prog A) c fs : states p c fs = removelast (states p c fs) ++ [snd (fst (run p c fs))].
Proof.
  revert c fs. induction p as [a|k IH|k IH|k IH|R f k IH]; intros c fs; unfold states, run; simpl; fold (@states A) (@run A).
  - done.
  - destruct (next_fault fs) as [[] fs']; rewrite IH at 1; (match goal with |- context[states ?q ?x ?y] => destruct (states_cons q x y) as [l ->] end); done.
  - destruct (next_fault fs) as [b fs'], (c_saved c) as [|d ds]; [|destruct b]; rewrite IH at 1; (match goal with |- context[states ?q ?x ?y] => destruct (states_cons q x y) as [l ->] end); done.
  - destruct (c_saved c) as [|d ds]; rewrite IH at 1; (match goal with |- context[states ?q ?x ?y] => destruct (states_cons q x y) as [l ->] end); done.
  - destruct (next_fault fs) as [[] fs']; [|destruct (f (c_cur c)) as [[r d]|e]]; rewrite IH at 1; (match goal with |- context[states ?q ?x ?y] => destruct (states_cons q x y) as [l ->] end); done.
Qed.
Lemma states_map {A B} (p : prog A) (g : A -> prog B) c fs : (forall a, exists b, g a = Ret b) -> states (bind p g) c fs = states p c fs.
Proof.
  intros Hg. rewrite states_bind_app. pose proof (states_last p c fs) as E. destruct (run p c fs) as [[a c'] fs'].
  destruct (Hg a) as [b ->]. by symmetry.
Qed.
Lemma in_removelast {A} (x : A) l : In x (removelast l) -> In x l.
Proof. induction l as [|y [|z l] IH]; [done|done|]. rewrite removelast_cons. intros [->|H]; [by left|right; auto]. Qed.

(** The committed database changes at the very end only. *)
Definition changes_last {A} (p : prog A) : Prop := forall d fs k c,
  states p (conn_of d) fs !! k = Some c -> durable c = d \/ S k = length (states p (conn_of d) fs).
Lemma changes_last_map {A B} (p : prog A) (g : A -> prog B) : (forall a, exists b, g a = Ret b) -> changes_last p -> changes_last (bind p g).
Proof. intros Hg H d fs k c. rewrite states_map by done. apply H. Qed.
Lemma changes_last_ret {A} (a : A) : changes_last (Ret a).
Proof. intros d fs [|k] c; [by right|]. unfold states; simpl. by rewrite lookup_nil. Qed.
Lemma durable_under pre cur d : durable (Conn cur (pre ++ [d])) = d.
Proof. unfold durable; simpl. by rewrite List.last_last. Qed.
Lemma changes_last_transaction {A} (body : M A) : keeps body -> changes_last (transaction body).
Proof.
  intros Hb d fs k c. unfold transaction. unfold states at 1 2; simpl; fold (@states (res A)).
  destruct (next_fault fs) as [[] fs'].
  { destruct k as [|[|k]]; [by intros [= <-]; left|by intros [= <-]; left|done]. }
  destruct k as [|k]; [by intros [= <-]; left|]. simpl. set (c1 := Conn d [d]).
  rewrite states_bind_app, app_length. pose proof (Hb c1 fs') as [H1 H2].
  destruct (run body c1 fs') as [[r c2] fs2] eqn:Er. simpl in H1.
  assert (Hd : forall x, In x (states body c1 fs') -> durable x = d).
  { intros x Hx. eapply List.Forall_forall in H2; [|exact Hx]. destruct H2 as [pre E]. destruct x as [cur sv]. simpl in E. subst sv. apply durable_under. }
  intros H. apply lookup_app_Some in H as [H|[Hle H]].
  { left. apply Hd, in_removelast. apply elem_of_list_In. by eapply elem_of_list_lookup_2. }
  assert (Hc2 : durable c2 = d) by (destruct c2; simpl in H1; subst; done).
  assert (Hsv : c_saved c2 = [d]) by done.
  set (j := (k - length (removelast (states body c1 fs')))%nat) in *.
  assert (Hk : k = (length (removelast (states body c1 fs')) + j)%nat) by lia. rewrite Hk.
  destruct r as [a|e|]; unfold states in H |- *; simpl in H |- *; fold (@states (res A)) in H |- *.
  - destruct (next_fault fs2) as [b fs3]. rewrite Hsv in *. destruct b; (destruct j as [|[|j]]; [injection H as <-; by left|right; simpl; lia|done]).
  - rewrite Hsv in *. destruct j as [|[|j]]; [injection H as <-; by left|right; simpl; lia|done].
  - rewrite Hsv in *. destruct j as [|[|j]]; [injection H as <-; by left|right; simpl; lia|done].
Qed.
Lemma changes_twice {A B} (p : prog A) (g : A -> prog B) d fs k c : keeps p -> changes_last p -> (forall a, changes_last (g a)) ->
  states (bind p g) (conn_of d) fs !! k = Some c ->
  durable c = d \/ durable c = snd (exec p d fs) \/ S k = length (states (bind p g) (conn_of d) fs).
Proof.
  intros Hp Hl Hg. rewrite states_bind_app, app_length. pose proof (Hp (conn_of d) fs) as [H1 _]. pose proof (states_last p (conn_of d) fs) as Hs.
  unfold exec. destruct (run p (conn_of d) fs) as [[a c'] fs'] eqn:Er. simpl in *. destruct c' as [d' sv]. simpl in H1. subst sv.
  intros H. apply lookup_app_Some in H as [H|[Hle H]].
  - left. destruct (Hl d fs k c) as [H'|H']; [|done|].
    + rewrite Hs. by apply lookup_app_l_Some.
    + exfalso. rewrite Hs, app_length in H'. simpl in H'. apply lookup_lt_Some in H. lia.
  - destruct (Hg a d' fs' _ c H) as [H'|H']; [by right; left|right; right]. change (Conn d' []) with (conn_of d') in *. lia.
Qed.

(** *** The operations *)
Lemma keeps_op o : keeps (op_prog o).
Proof.
  assert (H : forall A B (p : M A) (f : res A -> B), keeps p -> keeps (bind p (fun r => Ret (f r)))).
  { intros A B p f Hk. apply keeps_bind; [done|]. intros; apply keeps_ret. }
  destruct o; unfold op_prog; apply H; try (solve [apply good_keeps; solve_good]).
  apply keeps_bind; [apply good_keeps; solve_good|]. intros; apply keeps_ret.
Qed.
Lemma op_changes_last o : (forall id, ~ op_ids o id) -> changes_last (op_prog o).
Proof.
  intros Ho. destruct o; [by destruct (Ho id)|..]; unfold op_prog, complete_chunk;
    repeat (apply changes_last_map; [by eauto|]); apply changes_last_transaction, good_keeps; try (solve [solve_good]).
  apply good_cancel_body.
Qed.
Lemma insert_changes id p l m st z ot n d fs k c : insertable id d ->
  states (op_prog (OInsert id p l m st z ot n)) (conn_of d) fs !! k = Some c ->
  durable c = d \/ S k = length (states (op_prog (OInsert id p l m st z ot n)) (conn_of d) fs) \/
  durable c = inserted id p l m st z ot d.
Proof.
  intros Hi. unfold op_prog. rewrite states_map by eauto. unfold insert_submission_from_chunks, tryb.
  set (s0 := Submission id p (N.of_nat (length l)) 0 z m st ot).
  assert (Hgi : good (insert_submission s0 (number_chunks id l))) by auto with good.
  intros H. apply changes_twice in H.
  - destruct H as [H|[H|H]]; [by left| |by right; left].
    assert (E : snd (exec (insert_submission s0 (number_chunks id l)) d []) = inserted id p l m st z ot d).
    { subst s0. rewrite exec_insert by done. done. }
    unfold insert_submission in H, E. match type of H with context[transaction ?b] => assert (Hb : good b) by solve_good; destruct (exec_tx_faults b d fs Hb) as [E'|E'] end.
    + left. rewrite H. by rewrite E'.
    + right; right. rewrite H, E'. exact E.
  - by destruct Hgi.
  - apply changes_last_transaction, good_keeps. solve_good.
  - intros [a|e|]; [|apply changes_last_ret|apply changes_last_ret]. destruct (_ =? 0); [|apply changes_last_ret].
    apply changes_last_map; [|apply changes_last_transaction, good_keeps; solve_good].
    intros [|[]|]; unfold ret, err; by eexists.
Qed.
Lemma harmless j : (forall o, j <> Write o) ->
  keeps (job_prog j) /\ forall d fs, snd (exec (job_prog j) d fs) = d /\ forall c, In c (states (job_prog j) (conn_of d) fs) -> durable c = d.
Proof.
  intros Hj. destruct j as [o| |]; [by destruct (Hj o)|..]; simpl job_prog.
  - assert (Hb : good (n <-? count_submissions; ret tt)) by (unfold count_submissions; solve_good).
    assert (E : forall d, snd (exec (transaction (n <-? count_submissions; ret tt)) d []) = d).
    { intros d. rewrite exec_tx by done. unfold count_submissions. rewrite exec_tryb by apply good_read. unfold read. rewrite exec_sql. simpl. done. }
    destruct (atomic_tx _ Hb) as [Hk Ha].
    split; [apply keeps_bind; [done|intros; apply keeps_ret]|]. intros d fs. destruct (Ha d fs) as [H1 H2]. rewrite E in H1. split.
    + rewrite exec_map. simpl. naive_solver.
    + intros c. rewrite states_map by eauto. intros Hc.
      assert (Hc' : In (durable c) (crash_dbs (transaction (n <-? count_submissions; ret tt)) d fs)) by (by apply in_map).
      apply H2 in Hc'. rewrite E in Hc'. naive_solver.
  - split; [apply keeps_bind; [apply keeps_sql|intros; apply keeps_ret]|]. intros d fs. split.
    + rewrite exec_map. simpl. unfold read, sql, exec, run; simpl. by destruct (next_fault fs) as [[] ?].
    + intros c. rewrite states_map by eauto. unfold read, sql, states; simpl. destruct (next_fault fs) as [[] ?]; simpl; intros [<-|[<-|[]]]; done.
Qed.

(** *** Following a program node by node *)
Definition tracks {A} (p0 : prog A) (d : db) (fs : faults) (k : nat) (left : prog A) (c : conn) : Prop :=
  forall fs', run p0 (conn_of d) (fs ++ fs') = run left c fs' /\ drop k (states p0 (conn_of d) (fs ++ fs')) = states left c fs'.
Definition consumes {A} (p : prog A) : bool := match p with Ret _ | Rollback _ => false | _ => true end.
Lemma tracks_start {A} (p0 : prog A) d : tracks p0 d [] 0 p0 (conn_of d).
Proof. intros fs'. done. Qed.
Lemma drop_S_tail {A} (l : list A) k x r : drop k l = x :: r -> drop (S k) l = r.
Proof. revert k. induction l as [|y l IH]; intros [|k]; simpl; try done; [rewrite drop_0; congruence|apply IH]. Qed.
Lemma tracks_node {A} (p0 : prog A) d fs k left c b left' c' : tracks p0 d fs k left c -> one_node left c b = Some (left', c') ->
  tracks p0 d (if consumes left then fs ++ [b] else fs) (S k) left' c'.
Proof.
  intros H Hn fs'. destruct (consumes left) eqn:Ec.
  - rewrite <- app_assoc. destruct (H ([b] ++ fs')) as [H1 H2]. destruct left as [a|q|q|q|R f q]; try done; simpl in Hn, H1, H2;
      unfold run in H1 at 2; unfold states in H2 at 2; simpl in H1, H2; fold (@run A) in H1; fold (@states A) in H2;
      injection Hn as Hn; apply drop_S_tail in H2.
    + destruct b; injection Hn as <- <-; done.
    + destruct (c_saved c) as [|x xs]; [|destruct b]; injection Hn as <- <-; done.
    + destruct b; [|destruct (f (c_cur c)) as [[r y]|y]]; injection Hn as <- <-; done.
  - destruct (H fs') as [H1 H2]. destruct left as [a|q|q|q|R f q]; try done; simpl in Hn, H1, H2.
    unfold run in H1 at 2; unfold states in H2 at 2; simpl in H1, H2; fold (@run A) in H1; fold (@states A) in H2;
      injection Hn as <- Hn; apply drop_S_tail in H2. destruct (c_saved c); subst c'; done.
Qed.
Lemma tracks_now {A} (p0 : prog A) d fs k left c fs' : tracks p0 d fs k left c -> states p0 (conn_of d) (fs ++ fs') !! k = Some c.
Proof.
  intros H. destruct (H fs') as [_ E]. destruct (states_cons left c fs') as [l El]. rewrite El in E.
  replace k with (k + 0)%nat by lia. rewrite <- lookup_drop, E. done.
Qed.
Lemma tracks_end {A} (p0 : prog A) d fs k a c : tracks p0 d fs k (Ret a) c -> keeps p0 ->
  c = conn_of (c_cur c) /\ exec p0 d fs = (a, c_cur c).
Proof.
  intros H Hk. destruct (H []) as [E _]. rewrite app_nil_r, run_ret in E. pose proof (Hk (conn_of d) fs) as [Hs _]. rewrite E in Hs. simpl in Hs.
  unfold exec. rewrite E. split; [|done]. destruct c. simpl in *. by subst.
Qed.
Lemma tracks_last {A} (p0 : prog A) d fs k left c : tracks p0 d fs k left c -> S k = length (states p0 (conn_of d) fs) -> exists a, left = Ret a.
Proof.
  intros H Hl. destruct (H []) as [_ E]. rewrite app_nil_r in E.
  assert (Hd : length (states left c []) = 1%nat) by (rewrite <- E, drop_length; lia).
  destruct left as [a|q|q|q|R f q]; [by eexists|..]; exfalso; unfold states in Hd; simpl in Hd; fold (@states A) in Hd.
  - destruct (states_cons (q None) (Conn (c_cur c) (c_cur c :: c_saved c)) []) as [l El]. rewrite El in Hd. done.
  - destruct (c_saved c) as [|x xs]; match type of Hd with context[states ?q ?x ?y] => destruct (states_cons q x y) as [l El]; rewrite El in Hd end; done.
  - destruct (c_saved c) as [|x xs]; match type of Hd with context[states ?q ?x ?y] => destruct (states_cons q x y) as [l El]; rewrite El in Hd end; done.
  - destruct (f (c_cur c)) as [[r y]|y]; match type of Hd with context[states ?q ?x ?y] => destruct (states_cons q x y) as [l El]; rewrite El in Hd end; done.
Qed.

(** *** The events that a run stands for *)
Record ghost : Type := Ghost { g_done : list (N * event); g_cur : option (N * op * faults * nat) }.
Definition cur_event (x : N * op * faults * nat) : N * event := let '(t, o, fs, k) := x in (t, Event o fs (Some k)).
Definition evs (g : ghost) : list (N * event) := g_done g ++ match g_cur g with Some x => [cur_event x] | None => [] end.
Definition gstep (s : pool) (a : act) (g : ghost) : ghost :=
  match a with
  | Acquire t => match p_waiting s !! t with Some (Write o) => Ghost (g_done g) (Some (t, o, [], 0%nat)) | _ => g end
  | Node b =>
      match p_owner s, g_cur g with
      | Some (Owner _ p), Some (t, o, fs, k) => Ghost (g_done g) (Some (t, o, if consumes p then fs ++ [b] else fs, S k))
      | _, _ => g
      end
  | Release => match g_cur g with Some (t, o, fs, k) => Ghost (g_done g ++ [(t, Event o fs None)]) None | None => g end
  | Leave t => match p_waiting s !! t, p_readers s !! t with None, None => Ghost (evs g) None | _, _ => g end
  | Crash => Ghost (evs g) None
  | _ => g
  end.
Inductive goes : list act -> pool -> list sight -> ghost -> Prop :=
| goes_nil : goes [] pool_start [] (Ghost [] None)
| goes_snoc l s o g a s' o' : goes l s o g -> does a s = Some (s', o') -> goes (l ++ [a]) s' (o ++ o') (gstep s a g).
Lemma go_from_app s l1 l2 : go_from s (l1 ++ l2) =
  match go_from s l1 with
  | Some (s1, o1) => match go_from s1 l2 with Some (s2, o2) => Some (s2, o1 ++ o2) | None => None end
  | None => None
  end.
Proof.
  revert s. induction l1 as [|a l1 IH]; intros s; simpl.
  - by destruct (go_from s l2) as [[]|].
  - destruct (does a s) as [[s1 o1]|]; [|done]. rewrite IH. destruct (go_from s1 l1) as [[s2 o2]|]; [|done].
    destruct (go_from s2 l2) as [[s3 o3]|]; [|done]. by rewrite app_assoc.
Qed.
Lemma go_goes l s o : go l = Some (s, o) -> exists g, goes l s o g.
Proof.
  revert s o. induction l as [|a l IH] using rev_ind; intros s o.
  - intros [= <- <-]. eexists. constructor.
  - unfold go. rewrite go_from_app. fold (go l). destruct (go l) as [[s1 o1]|]; [|done]. simpl.
    destruct (does a s1) as [[s2 o2]|] eqn:E; [|done]. intros [= <- <-]. destruct (IH _ _ eq_refl) as [g Hg]. eexists. rewrite app_nil_r. by eapply goes_snoc.
Qed.
Lemma goes_go l s o g : goes l s o g -> go l = Some (s, o).
Proof.
  induction 1 as [|l s o g a s' o' H IH E]; [done|]. unfold go. rewrite go_from_app. fold (go l). rewrite IH. simpl. rewrite E. by rewrite app_nil_r.
Qed.

(** *** The invariant of a run *)
Definition finish (p : list (N * event)) : db := after p.*2.
Definition pinv (s : pool) (g : ghost) : Prop :=
  match p_owner s with
  | None => g_cur g = None /\ p_conn s = conn_of (finish (g_done g))
  | Some (Owner t rest) =>
      match g_cur g with
      | Some (t', o, fs, k) => t' = t /\ tracks (job_prog (Write o)) (finish (g_done g)) fs k rest (p_conn s)
      | None => exists j fs k, (forall o, j <> Write o) /\ tracks (job_prog j) (finish (g_done g)) fs k rest (p_conn s)
      end
  end.
Lemma write_states o c fs : states (job_prog (Write o)) c fs = states (op_prog o) c fs.
Proof. unfold job_prog. apply states_map. eauto. Qed.
Lemma finish_snoc l t e : finish (l ++ [(t, e)]) = step (finish l) e.
Proof. unfold finish. rewrite fmap_app. simpl. apply after_snoc. Qed.
Lemma keeps_job j : keeps (job_prog j).
Proof.
  destruct j as [o| |]; [|by apply harmless|by apply harmless]. unfold job_prog. apply keeps_bind; [apply keeps_op|]. intros; apply keeps_ret.
Qed.
Lemma cut_step d o fs k left c : tracks (job_prog (Write o)) d fs k left c -> durable c = step d (Event o fs (Some k)).
Proof.
  intros H. apply (tracks_now _ _ _ _ _ _ []) in H. rewrite app_nil_r, write_states in H.
  unfold step, crash_dbs; simpl. rewrite list_lookup_fmap, H. done.
Qed.
Lemma quiet_durable j d fs k left c : (forall o, j <> Write o) -> tracks (job_prog j) d fs k left c -> durable c = d.
Proof.
  intros Hj H. apply (tracks_now _ _ _ _ _ _ []) in H. destruct (harmless j Hj) as [_ Hd]. destruct (Hd d (fs ++ [])) as [_ H2]. apply H2.
  apply elem_of_list_In. by eapply elem_of_list_lookup_2.
Qed.
Lemma committed_evs s g : pinv s g -> committed s = finish (evs g).
Proof.
  unfold pinv, committed, evs. destruct (p_owner s) as [[t rest]|].
  - destruct (g_cur g) as [[[[t' o] fs] k]|].
    + intros [_ H]. simpl. rewrite finish_snoc. by apply (cut_step _ _ _ _ rest).
    + intros (j & fs & k & Hj & H). rewrite app_nil_r. by eapply quiet_durable.
  - intros [-> ->]. by rewrite app_nil_r.
Qed.
Lemma ended_answer o d fs k a c : tracks (job_prog (Write o)) d fs k (Ret a) c ->
  c = conn_of (step d (Event o fs None)) /\ exists x, a = Wrote x /\ answer_of d (Event o fs None) = Some x.
Proof.
  intros H. apply tracks_end in H as [H1 H2]; [|apply keeps_job]. unfold job_prog in H2. rewrite exec_map in H2. injection H2 as H2 H3.
  unfold step, finished; simpl. rewrite H3. split; [done|]. eexists. split; [by symmetry|]. done.
Qed.
Lemma pinv_step s g a s' o' : pinv s g -> does a s = Some (s', o') -> pinv s' (gstep s a g).
Proof.
  intros Hi. pose proof (committed_evs s g Hi) as Hc. destruct s as [c o w r n]. unfold pinv, committed in *. simpl in Hi, Hc.
  destruct a as [j|t|b| |t|q|t b|t|]; simpl.
  - by intros [= <- <-].
  - destruct o as [?|]; [done|]. destruct (w !! t) as [j|] eqn:Ew; [|done]. intros [= <- <-]. destruct Hi as [H1 H2]. simpl.
    destruct j as [o| |].
    + simpl. split; [done|]. rewrite H2. apply tracks_start.
    + rewrite H1. exists Health, [], 0%nat. split; [done|]. rewrite H2. apply tracks_start.
    + rewrite H1. exists Checkpoint, [], 0%nat. split; [done|]. rewrite H2. apply tracks_start.
  - destruct o as [[t p]|]; [|done]. destruct (one_node p c b) as [[p' c']|] eqn:E; [|done]. intros [= <- <-]. simpl.
    destruct (g_cur g) as [[[[t' o] fs] k]|] eqn:Eg; simpl; [|rewrite Eg; destruct Hi as (j & fs & k & Hj & Hi); exists j, (if consumes p then fs ++ [b] else fs), (S k); split; [done|by eapply tracks_node]].
    destruct Hi as [-> Hi]. split; [done|]. by eapply tracks_node.
  - destruct o as [[t [a|k|k|k|R f k]]|]; try done. intros [= <- <-]. simpl. destruct (g_cur g) as [[[[t' o] fs] k]|] eqn:Eg; simpl.
    + split; [done|]. destruct Hi as [-> Hi]. apply ended_answer in Hi as [-> _]. by rewrite finish_snoc.
    + split; [done|]. destruct Hi as (j & fs & k & Hj & Hi). apply tracks_end in Hi as [-> H2]; [|apply keeps_job].
      destruct (harmless j Hj) as [_ Hd]. destruct (Hd (finish (g_done g)) fs) as [Hd' _]. rewrite H2 in Hd'. simpl in Hd'. by rewrite Hd'.
  - destruct (w !! t) as [j|]; [by intros [= <- <-]|]. destruct (r !! t) as [j|]; [by intros [= <- <-]|].
    destruct o as [[t' p]|]; [|done]. destruct (t =? t'); [|done]. intros [= <- <-]. simpl. split; [done|]. unfold dropped. by rewrite Hc.
  - by intros [= <- <-].
  - destruct (r !! t) as [p|]; [|done]. destruct (one_look p (durable c) b); [|done]. by intros [= <- <-].
  - destruct (r !! t) as [[a|k|k|k|R f k]|]; try done. by intros [= <- <-].
  - intros [= <- <-]. simpl. split; [done|]. unfold dropped. by rewrite Hc.
Qed.
Lemma goes_pinv l s o g : goes l s o g -> pinv s g.
Proof. induction 1; [by split|]. by eapply pinv_step. Qed.

(** *** Tasks *)
Lemma over_app t o o' : over t o -> over t (o ++ o').
Proof.
  intros [[a H]|[H|(o1 & o2 & j & -> & H)]]; [left; exists a|right; left|right; right]; try (apply elem_of_app; by left).
  exists o1, (o2 ++ o'), j. by rewrite <- app_assoc.
Qed.
Lemma over_snoc t o x : over t (o ++ [x]) -> over t o \/ (exists a, x = Answered t a) \/ x = Left t \/ x = Crashed /\ exists j, Arrived t j ∈ o.
Proof.
  intros [[a H]|[H|(o1 & o2 & j & E & H)]].
  - apply elem_of_app in H as [H|H%elem_of_list_singleton]; [left; left; by eexists|right; left; by eexists].
  - apply elem_of_app in H as [H|H%elem_of_list_singleton]; [left; right; by left|right; right; by left].
  - destruct o2 as [|y o2 _] using rev_ind.
    + apply app_inj_tail in E as [-> ->]. right; right; right. eauto.
    + rewrite app_comm_cons, app_assoc in E. apply app_inj_tail in E as [-> ->]. left; right; right. eauto.
Qed.
Record tinv (s : pool) (o : list sight) (g : ghost) : Prop := {
  ti_out : forall t j, Arrived t j ∈ o -> t < p_next s;
  ti_wait : forall t j, p_waiting s !! t = Some j -> Arrived t j ∈ o /\ t ∉ (evs g).*1;
  ti_own : forall t p, p_owner s = Some (Owner t p) -> t < p_next s /\ p_waiting s !! t = None /\ p_readers s !! t = None;
  ti_read : forall t p, p_readers s !! t = Some p -> t < p_next s /\ p_waiting s !! t = None;
  ti_evs : forall t e, (t, e) ∈ evs g -> Arrived t (Write (e_op e)) ∈ o;
  ti_nodup : NoDup (evs g).*1;
  ti_ans : forall t a, Answered t (Wrote a) ∈ o -> exists i e, g_done g !! i = Some (t, e) /\ answer_of (finish (take i (g_done g))) e = Some a;
  ti_over : forall t, over t o -> t < p_next s /\ p_waiting s !! t = None /\ forall p, p_owner s <> Some (Owner t p) }.
Definition shape (g : ghost) : list (N * op) := (fun x => (x.1, e_op x.2)) <$> evs g.
Lemma shape_tasks g : (shape g).*1 = (evs g).*1.
Proof. unfold shape. rewrite <- list_fmap_compose. done. Qed.
Lemma shape_step s g a s' o' : does a s = Some (s', o') -> pinv s g ->
  shape (gstep s a g) = shape g \/ exists t o, shape (gstep s a g) = shape g ++ [(t, o)] /\ p_waiting s !! t = Some (Write o) /\ a = Acquire t /\ g_cur g = None.
Proof.
  destruct s as [c o w r n]. intros H Hi. destruct a as [j|t|b| |t|q|t b|t|]; simpl in *; try (by left).
  - destruct o as [?|]; [done|]. destruct (w !! t) as [[o| |]|] eqn:Ew; try (by left). right. exists t, o. unfold pinv in Hi. simpl in Hi. destruct Hi as [Hg _].
    split; [|done]. unfold shape, evs. rewrite Hg. simpl. by rewrite app_nil_r, fmap_app.
  - left. destruct o as [[t p]|]; [|done]. unfold shape, evs. destruct (g_cur g) as [[[[t' o] fs] k]|] eqn:Eg; simpl; [by rewrite !fmap_app|by rewrite Eg].
  - left. unfold shape, evs. destruct (g_cur g) as [[[[t' o1] fs] k]|] eqn:Eg; simpl; [|by rewrite Eg]. by rewrite app_nil_r, !fmap_app.
  - left. destruct (w !! t); [done|]. destruct (r !! t); [done|]. unfold shape, evs; simpl. by rewrite app_nil_r.
  - left. unfold shape, evs; simpl. by rewrite app_nil_r.
Qed.
Lemma evs_of_shape g t e : (t, e) ∈ evs g -> (t, e_op e) ∈ shape g.
Proof. intros H. unfold shape. apply elem_of_list_fmap. by exists (t, e). Qed.
Lemma shape_evs g t o : (t, o) ∈ shape g -> exists e, (t, e) ∈ evs g /\ e_op e = o.
Proof. unfold shape. intros ([t' e] & [= -> ->] & H)%elem_of_list_fmap. eauto. Qed.
Lemma done_prefix s a g : g_done g `prefix_of` g_done (gstep s a g).
Proof.
  destruct a as [j|t|b| |t|q|t b|t|]; simpl; try done.
  - by destruct (p_waiting s !! t) as [[]|].
  - destruct (p_owner s) as [[]|]; [|done]. by destruct (g_cur g) as [[[[]]]|].
  - destruct (g_cur g) as [[[[]]]|]; [|done]. by eexists.
  - destruct (p_waiting s !! t); [done|]. destruct (p_readers s !! t); [done|]. by eexists.
  - by eexists.
Qed.
Lemma tinv_step s o g a s' o' : tinv s o g -> pinv s g -> does a s = Some (s', o') -> tinv s' (o ++ o') (gstep s a g).
Proof.
  intros [T1 T2 T3 T4 T5 T6 T7 T8] Hi Hd.
  assert (Hs : forall t, t ∈ (evs (gstep s a g)).*1 -> t ∈ (evs g).*1 \/ a = Acquire t).
  { intros t. rewrite <- !shape_tasks. destruct (shape_step s g a s' o' Hd Hi) as [->|(t' & o1 & -> & _ & -> & _)]; [by left|].
    rewrite fmap_app, elem_of_app. intros [H|H]; [by left|]. simpl in H. apply elem_of_list_singleton in H as ->. by right. }
  assert (Hnext : p_next s <= p_next s').
  { clear -Hd. destruct s as [c ow w r n], a; simpl in *; repeat (case_match; try done); simplify_eq; simpl; lia. }
  assert (Hlen : o' = [] \/ exists x, o' = [x]).
  { clear -Hd. destruct s as [c ow w r n], a; simpl in *; repeat (case_match; try done); simplify_eq; eauto. }
  assert (Hout : forall t j, Arrived t j ∈ o' -> t = p_next s /\ p_next s' = p_next s + 1).
  { clear -Hd. intros t j Hin. destruct s as [c ow w r n], a; simpl in *; repeat (case_match; try done); simplify_eq; try set_solver.
    }
  assert (T1' : forall t j, Arrived t j ∈ o ++ o' -> t < p_next s').
  { intros t j [H|H]%elem_of_app; [apply T1 in H; lia|]. apply Hout in H as [-> ->]. lia. }
  assert (Hk : forall t, t ∈ (evs g).*1 -> t < p_next s).
  { intros t ([t' e] & -> & H)%elem_of_list_fmap. by eapply T1, T5. }
  assert (T5' : forall t e, (t, e) ∈ evs (gstep s a g) -> Arrived t (Write (e_op e)) ∈ o ++ o').
  { intros t e H%evs_of_shape. apply elem_of_app; left. destruct (shape_step s g a s' o' Hd Hi) as [E|(t' & o1 & E & Hw & _)]; rewrite E in H.
    - apply shape_evs in H as (e' & H & <-). by apply T5.
    - apply elem_of_app in H as [H|H%elem_of_list_singleton].
      + apply shape_evs in H as (e' & H & <-). by apply T5.
      + injection H as -> ->. by apply T2. }
  assert (T6' : NoDup (evs (gstep s a g)).*1).
  { rewrite <- shape_tasks in *. destruct (shape_step s g a s' o' Hd Hi) as [->|(t' & o1 & -> & Hw & _)]; [done|].
    rewrite fmap_app. apply NoDup_app. split; [done|]. split; [|apply NoDup_singleton].
    intros t Ht Hx. simpl in Hx. apply elem_of_list_singleton in Hx as ->. apply T2 in Hw as [_ Hw]. done. }
  assert (T7' : forall t a0, Answered t (Wrote a0) ∈ o ++ o' -> exists i e, g_done (gstep s a g) !! i = Some (t, e) /\ answer_of (finish (take i (g_done (gstep s a g)))) e = Some a0).
  { intros t a0 [H|H]%elem_of_app.
    - destruct (T7 _ _ H) as (i & e & H1 & H2). exists i, e. destruct (done_prefix s a g) as [l El]. rewrite El.
      split; [by apply lookup_app_l_Some|]. rewrite take_app_le; [done|]. apply lookup_lt_Some in H1. lia.
    - assert (exists k, a = Release /\ p_owner s = Some (Owner t k) /\ k = Ret (Wrote a0)) as (k & -> & Ho & ->).
      { clear -Hd H. destruct s as [c ow w r n], a; simpl in *; repeat (case_match; try done); simplify_eq; try set_solver.
      }
      unfold pinv in Hi. rewrite Ho in Hi. simpl. destruct (g_cur g) as [[[[t' o1] fs] k]|].
      + destruct Hi as [-> Hi]. apply ended_answer in Hi as (_ & x & [= <-] & Hx). exists (length (g_done g)), (Event o1 fs None). simpl.
        rewrite list_lookup_middle by done. split; [done|]. by rewrite take_app.
      + exfalso. destruct Hi as (j & fs & k & Hj & Hi). apply tracks_end in Hi as [_ Hi]; [|apply keeps_job].
        destruct j as [o1| |]; [by destruct (Hj o1)|..]; unfold job_prog in Hi; rewrite exec_map in Hi; done. }
  remember (gstep s a g) as g' eqn:Eg'. clear Eg'. constructor; try done.
  - clear -Hd T2 Hs Hk Hi T1. intros t j Hw. split.
    + apply elem_of_app. destruct s as [c ow w r n], a as [j0|t0|b| |t0|q|t0 b|t0|]; simpl in *; repeat (case_match; try done); simplify_eq; simpl in *;
        try (left; by eapply T2); try (by rewrite lookup_empty in Hw).
      * destruct (decide (t = n)) as [->|Hne]; [rewrite lookup_insert in Hw; simplify_eq; right; set_solver|]. rewrite lookup_insert_ne in Hw by done. left. by eapply T2.
      * apply lookup_delete_Some in Hw as [_ Hw]. left. by eapply T2.
      * apply lookup_delete_Some in Hw as [_ Hw]. left. by eapply T2.
    + intros Ht. apply Hs in Ht as [Ht| ->].
      * pose proof (Hk _ Ht) as Hlt. destruct s as [c ow w r n], a as [j0|t0|b| |t0|q|t0 b|t0|]; simpl in *; repeat (case_match; try done); simplify_eq; simpl in *;
        try (by eapply T2); try (by rewrite lookup_empty in Hw).
        -- rewrite lookup_insert_ne in Hw by lia. by eapply T2.
        -- apply lookup_delete_Some in Hw as [_ Hw]. by eapply T2.
        -- apply lookup_delete_Some in Hw as [_ Hw]. by eapply T2.
      * destruct s as [c ow w r n]; simpl in *; repeat (case_match; try done); simplify_eq; simpl in *. by rewrite lookup_delete in Hw.
  - clear -Hd T1 T2 T3 T4. intros t p Ho. destruct s as [c ow w r n], a as [j0|t0|b| |t0|q|t0 b|t0|]; simpl in *; repeat (case_match; try done); simplify_eq; simpl in *; try (by eapply T3); try (match goal with H : Some (Owner ?x _) = Some (Owner t _) |- _ => assert (t = x) as -> by congruence; clear H end; by eapply T3).
    + edestruct T3 as (? & ? & ?); [first [eassumption|reflexivity]|]. rewrite lookup_insert_ne by lia. split; [lia|done].
    + assert (t = t0) as -> by congruence. match goal with H : w !! _ = Some _ |- _ => pose proof (T2 _ _ H) as [Ha _] end. apply T1 in Ha. split; [done|]. split; [apply lookup_delete|].
      match goal with |- r !! ?x = _ => destruct (r !! x) eqn:Er end; [|done]. apply T4 in Er as [_ Er]. congruence.
    + edestruct T3 as (? & ? & ?); [first [eassumption|reflexivity]|]. by rewrite lookup_delete_None; auto.
    + edestruct T3 as (? & ? & ?); [first [eassumption|reflexivity]|]. by rewrite lookup_delete_None; auto.
    + edestruct T3 as (? & ? & ?); [first [eassumption|reflexivity]|]. rewrite lookup_insert_ne by lia. split; [lia|done].
    + edestruct T3 as (? & ? & Hr); [first [eassumption|reflexivity]|]. split; [done|]. split; [done|]. apply lookup_insert_None. split; [done|]. congruence.
    + edestruct T3 as (? & ? & ?); [first [eassumption|reflexivity]|]. by rewrite lookup_delete_None; auto.
  - clear -Hd T4 T1 T2. intros t p Ho. destruct s as [c ow w r n], a as [j0|t0|b| |t0|q|t0 b|t0|]; simpl in *; repeat (case_match; try done); simplify_eq; simpl in *; try (by eapply T4); try (by rewrite lookup_empty in Ho).
    + destruct (T4 _ _ Ho). rewrite lookup_insert_ne by lia. split; [lia|done].
    + destruct (T4 _ _ Ho). rewrite lookup_delete_None. auto.
    + destruct (T4 _ _ Ho). rewrite lookup_delete_None. auto.
    + apply lookup_delete_Some in Ho as [_ Ho]. by eapply T4.
    + apply lookup_insert_Some in Ho as [[<- <-]|[Hne Ho]].
      * split; [lia|]. destruct (w !! n) eqn:Ew; [|done]. apply T2 in Ew as [Ew _]. apply T1 in Ew. lia.
      * destruct (T4 _ _ Ho). split; [lia|done].
    + apply lookup_insert_Some in Ho as [[<- <-]|[Hne Ho]]; by eapply T4.
    + apply lookup_delete_Some in Ho as [_ Ho]. by eapply T4.
  - intros t Ho. assert (Ho' : over t o \/ exists x, o' = [x] /\ ((exists a0, x = Answered t a0) \/ x = Left t \/ x = Crashed /\ exists j, Arrived t j ∈ o)).
    { destruct Hlen as [->|[x ->]]; [left; by rewrite app_nil_r in Ho|]. apply over_snoc in Ho as [H|H]; [by left|right]. by exists x. }
    clear Ho. destruct Ho' as [H|(x & -> & Hx)].
    + pose proof (T8 _ H) as (Ht & Hw & Hown). clear -Ht Hw Hown Hd. split; [|split].
      * destruct s as [c ow w r n], a as [j0|t0|b| |t0|q|t0 b|t0|]; simpl in *; repeat (case_match; try done); simplify_eq; simpl in *; lia.
      * destruct s as [c ow w r n], a as [j0|t0|b| |t0|q|t0 b|t0|]; simpl in *; repeat (case_match; try done); simplify_eq; simpl in *; try done.
        -- rewrite lookup_insert_ne by lia. done.
        -- apply lookup_delete_None. auto.
        -- apply lookup_delete_None. auto.
      * destruct s as [c ow w r n], a as [j0|t0|b| |t0|q|t0 b|t0|]; simpl in *; repeat (case_match; try done); simplify_eq; simpl in *; try done.
        -- intros p [= -> _]. congruence.
        -- intros p [= -> _]. by eapply Hown.
    + clear -Hx Hd T1 T2 T3 T4. destruct s as [c ow w r n], a as [j0|t0|b| |t0|q|t0 b|t0|]; simpl in *; repeat (case_match; try done); simplify_eq; simpl in *;
        try (destruct Hx as [[? ?]|[?|[? _]]]; congruence).
      * assert (t = w_task) by (destruct Hx as [[? ?]|[?|[? _]]]; congruence). subst. edestruct T3 as (? & ? & ?); [first [eassumption|reflexivity]|]. done.
      * assert (t = t0) by (destruct Hx as [[? ?]|[?|[? _]]]; congruence). subst. pose proof (T2 _ _ H) as [Ha _]. split; [by eapply T1|]. split; [apply lookup_delete|].
        intros pp ->. edestruct T3 as (? & ? & ?); [first [eassumption|reflexivity]|]. congruence.
      * assert (t = t0) by (destruct Hx as [[? ?]|[?|[? _]]]; congruence). subst. destruct (T4 _ _ H0) as [? ?]. split; [done|]. split; [done|].
        intros pp ->. edestruct T3 as (? & ? & ?); [first [eassumption|reflexivity]|]. congruence.
      * assert (t = t0) by (destruct Hx as [[? ?]|[?|[? _]]]; congruence). subst. match goal with H : (_ =? _) = true |- _ => apply N.eqb_eq in H as -> end. edestruct T3 as (? & ? & ?); [first [eassumption|reflexivity]|]. done.
      * destruct Hx as [[? ?]|[?|[_ [j Hj]]]]; [done|done|]. split; [by eapply T1|]. split; [apply lookup_empty|done].
Qed.
Lemma goes_tinv l s o g : goes l s o g -> tinv s o g.
Proof.
  induction 1 as [|l s o g a s' o' H IH E].
  - constructor; simpl; try (by intros; set_solver). { constructor. }
    intros t [[a H]|[H|(o1 & o2 & j & E & H)]]; [by apply elem_of_nil in H|by apply elem_of_nil in H|by destruct o1].
  - eapply tinv_step; eauto. by eapply goes_pinv.
Qed.

(** *** Two moments of a run *)
Definition whole (s : pool) (g : ghost) : nat :=
  (length (g_done g) + match p_owner s, g_cur g with Some (Owner _ (Ret _)), Some _ => 1 | _, _ => 0 end)%nat.
Record later (s1 : pool) (o1 : list sight) (g1 : ghost) (s : pool) (o : list sight) (g : ghost) : Prop := {
  la_whole : (whole s1 g1 <= whole s g)%nat;
  la_same : forall n, (n <= whole s1 g1)%nat -> finish (take n (evs g)) = finish (take n (evs g1));
  la_shape : shape g1 `prefix_of` shape g;
  la_next : p_next s1 <= p_next s;
  la_gone : forall t, t < p_next s1 -> p_waiting s1 !! t = None -> p_waiting s !! t = None /\ (t ∈ (evs g).*1 -> t ∈ (evs g1).*1);
  la_out : exists o2, o = o1 ++ o2 /\ forall t j, Arrived t j ∈ o2 -> p_next s1 <= t }.
Lemma later_refl s o g : later s o g s o g.
Proof. constructor; try done. exists []. split; [by rewrite app_nil_r|]. intros t j H. by apply elem_of_nil in H. Qed.
Lemma whole_step s g a s' o' : pinv s g -> does a s = Some (s', o') ->
  (whole s g <= whole s' (gstep s a g))%nat /\ forall n, (n <= whole s g)%nat -> finish (take n (evs (gstep s a g))) = finish (take n (evs g)).
Proof.
  intros Hi Hd. unfold whole. destruct (done_prefix s a g) as [l El].
  assert (Hdone : forall n, (n <= length (g_done g))%nat -> finish (take n (evs (gstep s a g))) = finish (take n (evs g))).
  { intros n Hn. unfold evs. rewrite El, <- app_assoc, !(take_app_le (g_done g)) by lia. done. }
  destruct (p_owner s) as [[t p]|] eqn:Eo; [|split; [|intros; apply Hdone; lia]].
  2:{ rewrite El, app_length. lia. }
  assert (Hlen : (length (g_done g) <= length (g_done (gstep s a g)))%nat) by (rewrite El, app_length; lia).
  destruct p as [x|k|k|k|R f k]; try (split; [lia|intros; apply Hdone; lia]).
  destruct (g_cur g) as [[[[t' o] fs] k]|] eqn:Eg; [|split; [lia|intros; apply Hdone; lia]].
  unfold pinv in Hi. rewrite Eo, Eg in Hi. destruct Hi as [-> Hi].
  assert (Hcl : forall z, (z = None \/ z = Some k) -> gstep s a g = Ghost (g_done g ++ [(t, Event o fs z)]) None ->
    (length (g_done g) + 1 <= length (g_done (gstep s a g)) + match p_owner s' with Some (Owner _ (Ret _)) => match g_cur (gstep s a g) with Some _ => 1 | None => 0 end | _ => 0 end)%nat /\
    forall n, (n <= length (g_done g) + 1)%nat -> finish (take n (evs (gstep s a g))) = finish (take n (evs g))).
  { intros z Hz E. split; [rewrite E; simpl; rewrite app_length; simpl; lia|]. intros n Hn.
    destruct (Nat.le_gt_cases n (length (g_done g))) as [|Hgt]; [by apply Hdone|].
    assert (n = length (g_done g) + 1)%nat as -> by lia. unfold evs. rewrite E, Eg. simpl.
    rewrite !take_ge by (rewrite ?app_nil_r, app_length; simpl; lia). rewrite app_nil_r, !finish_snoc.
    destruct Hz as [-> | ->]; [|done]. rewrite <- (cut_step _ _ _ _ _ _ Hi). apply ended_answer in Hi as [-> _]. done. }
  assert (Hsame : gstep s a g = g -> p_owner s' = p_owner s ->
    (length (g_done g) + 1 <= length (g_done (gstep s a g)) + match p_owner s' with Some (Owner _ (Ret _)) => match g_cur (gstep s a g) with Some _ => 1 | None => 0 end | _ => 0 end)%nat /\
    forall n, (n <= length (g_done g) + 1)%nat -> finish (take n (evs (gstep s a g))) = finish (take n (evs g))).
  { intros -> ->. rewrite Eo, Eg. done. }
  clear Hdone Hlen El. destruct s as [c ow w r n]; simpl in Eo; subst ow. destruct a as [j0|t0|b| |t0|q|t0 b|t0|]; simpl in Hd.
  - injection Hd as <- <-. by apply Hsame.
  - done.
  - done.
  - injection Hd as <- <-. eapply (Hcl None); [by left|]. simpl. by rewrite Eg.
  - destruct (w !! t0) as [j|] eqn:Ew.
    { injection Hd as <- <-. apply Hsame; [|done]. simpl. by rewrite Ew. }
    destruct (r !! t0) as [j|] eqn:Er.
    { injection Hd as <- <-. apply Hsame; [|done]. simpl. by rewrite Ew, Er. }
    destruct (t0 =? t) eqn:Et; [|done]. injection Hd as <- <-. eapply (Hcl (Some k)); [by right|]. simpl. rewrite Ew, Er. unfold evs. by rewrite Eg.
  - injection Hd as <- <-. by apply Hsame.
  - destruct (r !! t0) as [p|]; [|done]. destruct (one_look p (durable c) b); [|done]. injection Hd as <- <-. by apply Hsame.
  - destruct (r !! t0) as [[?|?|?|?|? ? ?]|]; try done. injection Hd as <- <-. by apply Hsame.
  - injection Hd as <- <-. eapply (Hcl (Some k)); [by right|]. simpl. unfold evs. by rewrite Eg.
Qed.
Lemma later_step s1 o1 g1 s o g a s' o' : later s1 o1 g1 s o g -> pinv s g -> does a s = Some (s', o') -> later s1 o1 g1 s' (o ++ o') (gstep s a g).
Proof.
  intros [L1 L2 L3 L4 L5 L6] Hi Hd. destruct (whole_step s g a s' o' Hi Hd) as [W1 W2].
  assert (Hnext : p_next s <= p_next s').
  { clear -Hd. destruct s as [c ow w r n], a; simpl in *; repeat (case_match; try done); simplify_eq; simpl; lia. }
  constructor.
  - lia.
  - intros n Hn. rewrite W2 by lia. by apply L2.
  - etransitivity; [exact L3|]. destruct (shape_step s g a s' o' Hd Hi) as [->|(t & x & -> & _)]; [done|by eexists].
  - lia.
  - intros t Ht Hw. destruct (L5 t Ht Hw) as [Hw' Hg]. split.
    + clear -Hw' Hd Ht L4. destruct s as [c ow w r n], a as [j0|t0|b| |t0|q|t0 b|t0|]; simpl in *; repeat (case_match; try done); simplify_eq; simpl in *; try done.
      * rewrite lookup_insert_ne by lia. done.
      * apply lookup_delete_None. auto.
      * apply lookup_delete_None. auto.
    + rewrite <- shape_tasks. destruct (shape_step s g a s' o' Hd Hi) as [->|(t' & x & -> & Hx & _)]; [by rewrite shape_tasks|].
      rewrite fmap_app, elem_of_app, shape_tasks. intros [H|H%elem_of_list_singleton]; [by apply Hg|]. simpl in H. congruence.
  - destruct L6 as (o2 & -> & Ho). exists (o2 ++ o'). split; [by rewrite app_assoc|]. intros t j [H|H]%elem_of_app; [by eapply Ho|].
    enough (t = p_next s) by lia. clear -H Hd. destruct s as [c ow w r n], a; simpl in *; repeat (case_match; try done); simplify_eq; set_solver.
Qed.
Lemma goes_prefix l s o g l1 : goes l s o g -> l1 `prefix_of` l -> exists s1 o1 g1, goes l1 s1 o1 g1 /\ later s1 o1 g1 s o g.
Proof.
  induction 1 as [|l s o g a s' o' H IH E]; intros Hp.
  - assert (l1 = []) as -> by (by apply prefix_nil_inv). eexists _, _, _. split; [constructor|apply later_refl].
  - destruct Hp as [l2 El]. destruct l2 as [|b l2 _] using rev_ind.
    + rewrite app_nil_r in El. subst l1. eexists _, _, _. split; [by eapply goes_snoc|apply later_refl].
    + rewrite app_assoc in El. apply app_inj_tail in El as [-> <-]. destruct IH as (s1 & o1 & g1 & H1 & H2); [by eexists|].
      exists s1, o1, g1. split; [done|]. eapply later_step; eauto. by eapply goes_pinv.
Qed.
Lemma goes_cut l s o g o1 : goes l s o g -> o1 `prefix_of` o -> exists l1 s1 g1, l1 `prefix_of` l /\ goes l1 s1 o1 g1 /\ later s1 o1 g1 s o g.
Proof.
  induction 1 as [|l s o g a s' o' H IH E]; intros Hp.
  - assert (o1 = []) as -> by (by apply prefix_nil_inv). eexists _, _, _. split; [done|]. split; [constructor|apply later_refl].
  - destruct Hp as [o2 Eo]. destruct o2 as [|x o2 _] using rev_ind.
    { rewrite app_nil_r in Eo. subst o1. eexists _, _, _. split; [done|]. split; [by eapply goes_snoc|apply later_refl]. }
    destruct IH as (l1 & s1 & g1 & Hl & H1 & H2).
    + assert (Hlen : o' = [] \/ exists x, o' = [x]).
      { clear -E. destruct s as [c ow w r n], a; simpl in *; repeat (case_match; try done); simplify_eq; eauto. }
      destruct Hlen as [->|[y ->]]; [rewrite app_nil_r in Eo; by eexists|]. rewrite app_assoc in Eo. apply app_inj_tail in Eo as [-> _]. by eexists.
    + exists l1, s1, g1. split; [by apply prefix_app_r|]. split; [done|]. eapply later_step; eauto. by eapply goes_pinv.
Qed.

(** *** What is committed at a moment *)
Lemma insert_changes_last id p x l m st z ot n : changes_last (op_prog (OInsert id p (x :: l) m st z ot n)).
Proof.
  unfold op_prog. apply changes_last_map; [by eauto|]. unfold insert_submission_from_chunks, tryb.
  replace (N.of_nat (length (x :: l)) =? 0) with false by (symmetry; apply N.eqb_neq; simpl; lia).
  apply changes_last_map; [intros [a|e|]; by eexists|]. apply changes_last_transaction, good_keeps. solve_good.
Qed.
Lemma committed_whole s g : pinv s g -> fresh_ids (evs g).*2 ->
  committed s = finish (take (whole s g) (evs g)) \/
  exists t id p m st z ot n fs k, g_cur g = Some (t, OInsert id p [] m st z ot n, fs, k) /\ whole s g = length (g_done g) /\
    committed s = inserted id p [] m st z ot (finish (g_done g)).
Proof.
  intros Hi Hf. pose proof (committed_evs _ _ Hi) as Hc. unfold pinv, whole in *. destruct (p_owner s) as [[t rest]|].
  2:{ destruct Hi as [Hg _]. left. rewrite Hc. unfold evs. rewrite Hg, app_nil_r, Nat.add_0_r, firstn_all. done. }
  destruct (g_cur g) as [[[[t' o] fs] k]|] eqn:Eg.
  2:{ left. rewrite Hc. unfold evs. rewrite Eg, app_nil_r. f_equal. symmetry. apply take_ge. lia. }
  destruct Hi as [-> Hi].
  assert (Hr : (exists a, rest = Ret a) \/ forall a, rest <> Ret a) by (destruct rest; [left; by eexists|by right..]).
  destruct Hr as [[a ->]|Hr].
  { left. rewrite Hc. f_equal. symmetry. apply take_ge. unfold evs. rewrite Eg, app_length. simpl. lia. }
  assert (Hw : match rest with Ret _ => 1%nat | _ => 0%nat end = 0%nat) by (destruct rest as [a|?|?|?|? ? ?]; [by destruct (Hr a)|done..]).
  rewrite Hw, Nat.add_0_r. pose proof (tracks_now _ _ _ _ _ _ [] Hi) as Hn. rewrite app_nil_r, write_states in Hn.
  assert (Hnl : S k <> length (states (op_prog o) (conn_of (finish (g_done g))) fs)).
  { rewrite <- write_states. intros Hl. destruct (tracks_last _ _ _ _ _ _ Hi Hl) as [a ->]. by destruct (Hr a). }
  assert (Hcl : changes_last (op_prog o) -> committed s = finish (take (length (g_done g)) (evs g))).
  { intros H. unfold evs. rewrite take_app. destruct (H _ _ _ _ Hn) as [H'|H']; [exact H'|done]. }
  destruct o as [id p [|x l] m st z ot n|? ? ? ?|? ? ? ? ? ?|? ? ?|? ? ? ? ? ?|?];
    try (left; apply Hcl, op_changes_last; by intros ? []); try (left; by apply Hcl, insert_changes_last).
  unfold evs in Hf. rewrite Eg, fmap_app in Hf. simpl in Hf. apply fresh_ids_app in Hf as [Hf0 Hid].
  destruct (inv_insertable _ _ id (inv_after _ Hf0)) as [Hin _]; [by apply Hid|].
  destruct (insert_changes _ _ _ _ _ _ _ _ _ _ _ _ Hin Hn) as [H|[H|H]]; [|done|].
  - left. unfold evs. by rewrite take_app.
  - right. exists t, id, p, m, st, z, ot, n, fs, k. done.
Qed.
Lemma shape_inserted g : inserted_ids (evs g).*2 = omap (fun x => match x.2 with OInsert id _ _ _ _ _ _ _ => Some id | _ => None end) (shape g).
Proof. unfold inserted_ids, shape. induction (evs g) as [|[t e] l IH]; [done|]. destruct e as [[] f c]; simpl; first [done|by f_equal]. Qed.
Lemma shape_fresh (l : list (N * op)) : NoDup l.*1 ->
  (forall t t' o o' id, (t, o) ∈ l -> (t', o') ∈ l -> op_ids o id -> op_ids o' id -> t = t') ->
  NoDup (omap (fun x => match x.2 with OInsert id _ _ _ _ _ _ _ => Some id | _ => None end) l).
Proof.
  induction l as [|[t o] l IH]; intros Hn Hu; [constructor|]. apply NoDup_cons in Hn as [Hn1 Hn2].
  assert (IH' : NoDup (omap (fun x => match x.2 with OInsert id _ _ _ _ _ _ _ => Some id | _ => None end) l)).
  { apply IH; [done|]. intros t1 t2 o1 o2 id H1 H2. apply Hu; by apply elem_of_list_further. }
  simpl. destruct o as [id p c m st z ot n|? ? ? ?|? ? ? ? ? ?|? ? ?|? ? ? ? ? ?|?]; try done.
  constructor; [|done]. intros ([t' o'] & H1 & H2)%elem_of_list_omap. simpl in H2. destruct o' as [id' p' c' m' st' z' ot' n'|? ? ? ?|? ? ? ? ? ?|? ? ?|? ? ? ? ? ?|?]; try done.
  injection H2 as ->. assert (t = t') as <- by (eapply (Hu t t' _ _ id); [by constructor|constructor 2; exact H1|done|done]).
  apply Hn1. exact (elem_of_list_fmap_1 fst _ _ H1).
Qed.

(** *** Readers *)
Fixpoint looks {A} (p : prog A) (l : list (option db)) : option (prog A) :=
  match l with
  | [] => Some p
  | x :: l' => match one_look p (default db_empty x) (bool_decide (x = None)) with Some p' => looks p' l' | None => None end
  end.
Lemma looks_snoc {A} (p : prog A) l x p' p'' : looks p l = Some p' -> one_look p' (default db_empty x) (bool_decide (x = None)) = Some p'' -> looks p (l ++ [x]) = Some p''.
Proof.
  revert p. induction l as [|y l IH]; intros p; simpl; [by intros [= ->] ->|].
  destruct (one_look p _ _); [apply IH|done].
Qed.
(** The queries of task [t], each with the acts before it: they come one after the other between [l0] and [acts]. *)
Fixpoint chain (t : N) (l0 : list act) (ks : list (list act * option db)) (acts : list act) : Prop :=
  match ks with
  | [] => l0 `prefix_of` acts
  | (l1, x) :: ks' =>
      l0 `prefix_of` l1 /\
      (exists s1 o1, go l1 = Some (s1, o1) /\ (x = Some (committed s1) \/ x = None /\ (l1 ++ [Look t true]) `prefix_of` acts)) /\
      chain t l1 ks' acts
  end.
Lemma chain_more t l0 ks acts a : chain t l0 ks acts -> chain t l0 ks (acts ++ [a]).
Proof.
  revert l0. induction ks as [|[l1 x] ks IH]; intros l0; simpl; [intros; by apply prefix_app_r|].
  intros (H1 & (s1 & o1 & H2 & H3) & H4). split; [done|]. split; [|by apply IH]. exists s1, o1. split; [done|].
  destruct H3 as [?|[? ?]]; [by left|right]. split; [done|by apply prefix_app_r].
Qed.
Lemma chain_look t l0 ks acts (b : bool) s o : chain t l0 ks acts -> go acts = Some (s, o) ->
  chain t l0 (ks ++ [(acts, if b then None else Some (committed s))]) (acts ++ [Look t b]).
Proof.
  intros Hc Hg. revert l0 Hc. induction ks as [|[l1 x] ks IH]; intros l0; simpl.
  - intros H. split; [done|]. split; [|by eexists]. exists s, o. split; [done|]. destruct b; [by right|by left].
  - intros (H1 & (s1 & o1 & H2 & H3) & H4). split; [done|]. split; [|by apply IH]. exists s1, o1. split; [done|].
    destruct H3 as [?|[? ?]]; [by left|right]. split; [done|by apply prefix_app_r].
Qed.
Definition reader_log (acts : list act) (t : N) (p : prog reply) : Prop :=
  exists q l0 s0 o0 ks, go l0 = Some (s0, o0) /\ Asked t q ∈ o0 /\ looks (query_prog q) ks.*2 = Some p /\ chain t l0 ks acts.
Record rinv (acts : list act) (s : pool) (o : list sight) : Prop := {
  ri_next : forall t q, Asked t q ∈ o -> t < p_next s;
  ri_one : forall t q q', Asked t q ∈ o -> Asked t q' ∈ o -> q = q';
  ri_log : forall t p, p_readers s !! t = Some p -> reader_log acts t p }.
Lemma reader_log_more acts t p a : reader_log acts t p -> reader_log (acts ++ [a]) t p.
Proof. intros (q & l0 & s0 & o0 & ks & H1 & H2 & H3 & H4). exists q, l0, s0, o0, ks. split_and!; try done. by apply chain_more. Qed.
Lemma goes_rinv l s o g : goes l s o g -> rinv l s o.
Proof.
  induction 1 as [|l s o g a s' o' H [R1 R2 R3] E]; [constructor; simpl; set_solver|].
  pose proof (goes_go _ _ _ _ H) as Hgo.
  assert (Hnext : p_next s <= p_next s').
  { clear -E. destruct s as [c ow w r n], a; simpl in *; repeat (case_match; try done); simplify_eq; simpl; lia. }
  assert (Hnew : forall t q, Asked t q ∈ o' -> t = p_next s /\ p_next s' = p_next s + 1 /\ o' = [Asked t q]).
  { clear -E. intros t q Hin. destruct s as [c ow w r n], a; simpl in *; repeat (case_match; try done); simplify_eq; set_solver. }
  constructor.
  - intros t q [Hq|Hq]%elem_of_app; [apply R1 in Hq; lia|]. apply Hnew in Hq as (-> & -> & _). lia.
  - intros t q q' [Hq|Hq]%elem_of_app [Hq'|Hq']%elem_of_app.
    + by eapply R2.
    + apply R1 in Hq. apply Hnew in Hq' as (-> & _). lia.
    + apply R1 in Hq'. apply Hnew in Hq as (-> & _). lia.
    + apply Hnew in Hq as (_ & _ & ->). apply elem_of_list_singleton in Hq'. congruence.
  - intros t p Hp. pose proof (goes_snoc _ _ _ _ _ _ _ H E) as Hg'. apply goes_go in Hg'.
    assert (Hc : p_readers s !! t = Some p \/ (exists q, a = Ask q /\ o' = [Asked t q] /\ p = query_prog q) \/
      exists b p0, a = Look t b /\ p_readers s !! t = Some p0 /\ one_look p0 (committed s) b = Some p).
    { clear -Hp E. destruct s as [c ow w r n], a as [j0|t0|b| |t0|q|t0 b|t0|]; simpl in *; repeat (case_match; try done); simplify_eq; simpl in *; try (by left); try (by rewrite lookup_empty in Hp).
      - apply lookup_delete_Some in Hp as [_ Hp]. by left.
      - apply lookup_insert_Some in Hp as [[<- <-]|[_ Hp]]; [right; left; by eexists|by left].
      - apply lookup_insert_Some in Hp as [[<- <-]|[_ Hp]]; [right; right; by eexists _, _|by left].
      - apply lookup_delete_Some in Hp as [_ Hp]. by left. }
    destruct Hc as [Hc|[(q & -> & -> & ->)|(b & p0 & -> & Hp0 & Hl)]].
    + by apply reader_log_more, R3.
    + exists q, (l ++ [Ask q]), s', (o ++ [Asked t q]), []. split; [done|]. split; [set_solver|]. split; [done|]. simpl. done.
    + destruct (R3 _ _ Hp0) as (q & l0 & s0 & o0 & ks & H1 & H2 & H3 & H4).
      exists q, l0, s0, o0, (ks ++ [(l, if b then None else Some (committed s))]). split_and!; try done.
      * rewrite fmap_app. simpl. eapply looks_snoc; [exact H3|]. by destruct b.
      * by eapply chain_look.
Qed.
Lemma told_log acts s outs t r : go (acts ++ [Tell t]) = Some (s, outs ++ [Told t r]) ->
  exists s0, go acts = Some (s0, outs) /\ reader_log acts t (Ret r).
Proof.
  unfold go. rewrite go_from_app. fold (go acts). destruct (go acts) as [[s1 o1]|] eqn:E; [|done]. simpl.
  destruct s1 as [c ow w rd n]. simpl. destruct (rd !! t) as [[a|?|?|?|? ? ?]|] eqn:Er; simpl; try done.
  intros [= <- Eo]. apply app_inj_tail in Eo as [-> [= ->]]. eexists. split; [done|]. destruct (go_goes _ _ _ E) as [g Hg].
  by eapply ri_log; [eapply goes_rinv|].
Qed.

(** *** The status query, whose queries see different moments *)
Definition sees (id : sub_id) (h : history) (d : db) : Prop :=
  view_of d id = view_of (after h) id \/
  id ∉ inserted_ids h /\ is_Some (v_sub (view_of d id)) /\ v_comp (view_of d id) = None /\ v_fail (view_of d id) = None /\
  v_canc (view_of d id) = None /\ v_cfail (view_of d id) = ∅.
Lemma sees_reports id h d st : fresh_ids h -> sees id h d -> reports (after h) id st -> reports d id st.
Proof.
  intros Hf [E|(Hn & _)] H; [unfold reports in *; rewrite status_of_view in *; by rewrite E|].
  by apply (reports_inserted _ _ _ Hf) in H.
Qed.
Lemma racing_status dbs hs id : grows hs -> (forall k, fresh_ids (hs k)) -> (forall k, clocks_ok (hs k)) -> (forall k, sees id (hs k) (dbs k)) ->
  match run_reader (submission_status id) dbs 0 with
  | Ok (Some st) => exists k, (k <= 3)%nat /\ reports (dbs k) id st
  | Ok None => exists k, (k <= 3)%nat /\ unknown (dbs k) id
  | Err e => (exists s c, reports (dbs 2%nat) id (Failed s c)) /\ unknown (dbs 3%nat) id
  | Panicked => False
  end.
Proof.
  intros Hg Hf Hk Hs. destruct (t_sub (dbs 0%nat) !! id) as [r0|] eqn:E0.
  { simpl. rewrite E0. simpl. exists 0%nat. split; [lia|]. apply reports_in_progress. by exists r0. }
  assert (H0 : view_of (dbs 0%nat) id = view_of (after (hs 0%nat)) id).
  { destruct (Hs 0%nat) as [H|(_ & [r Hr] & _)]; [done|]. simpl in Hr. congruence. }
  assert (Hin : forall j k, (j <= k)%nat -> forall x, x ∈ inserted_ids (hs j) -> x ∈ inserted_ids (hs k)).
  { intros j k Hle x Hx. destruct (prefix_seq hs j Hg (k - j)) as [l El]. replace (j + (k - j))%nat with k in El by lia.
    rewrite El, inserted_ids_app. set_solver. }
  assert (Hr : run_reader (submission_status id) dbs 0 = run_reader (submission_status id) (fun k => after (hs k)) 0).
  { simpl. assert (Hv : forall k, (view_of (dbs k) id = view_of (after (hs k)) id) \/
      v_comp (view_of (dbs k) id) = None /\ v_fail (view_of (dbs k) id) = None /\ v_canc (view_of (dbs k) id) = None /\ v_cfail (view_of (dbs k) id) = ∅ /\
      view_of (after (hs k)) id = View None None None None ∅ ∅ ∅ ∅).
    { intros k. destruct (Hs k) as [H|(H1 & _ & H2 & H3 & H4 & H5)]; [by left|right]. split_and!; try done. by apply view_fresh. }
    assert (Hq0 : t_sub (after (hs 0%nat)) !! id = None) by (change (v_sub (view_of (after (hs 0%nat)) id) = None); rewrite <- H0; done).
    rewrite E0, Hq0. simpl.
    assert (Hq1 : completed_of (dbs 1%nat) id <$> t_comp (dbs 1%nat) !! id = completed_of (after (hs 1%nat)) id <$> t_comp (after (hs 1%nat)) !! id).
    { destruct (Hv 1%nat) as [H|(H1 & _ & _ & _ & H2)].
      - injection H as _ Hc _ _ Hm _ _ _. rewrite Hc. unfold completed_of, strat_of. by rewrite Hm.
      - simpl in H1. rewrite H1. injection H2 as _ -> _ _ _ _ _ _. done. }
    rewrite Hq1. clear Hq1. destruct (completed_of _ _ <$> _); [done|]. simpl.
    assert (Hq2 : failed_of (dbs 2%nat) id <$> t_fail (dbs 2%nat) !! id = failed_of (after (hs 2%nat)) id <$> t_fail (after (hs 2%nat)) !! id).
    { destruct (Hv 2%nat) as [H|(_ & H1 & _ & _ & H2)].
      - injection H as _ _ Hc _ Hm _ _ _. rewrite Hc. unfold failed_of, strat_of. by rewrite Hm.
      - simpl in H1. rewrite H1. injection H2 as _ _ -> _ _ _ _ _. done. }
    rewrite Hq2. clear Hq2. destruct (failed_of _ _ <$> _) as [sf|]; simpl.
    - assert (Hq3 : forall i, t_cfail (dbs 3%nat) !! (id, i) = t_cfail (after (hs 3%nat)) !! (id, i)).
      { intros i. rewrite <- !lookup_rows_of. destruct (Hv 3%nat) as [H|(_ & _ & _ & H1 & H2)].
        - injection H as _ _ _ _ _ _ _ Hc. by rewrite Hc.
        - simpl in H1. rewrite H1. injection H2 as _ _ _ _ _ _ _ ->. done. }
      rewrite Hq3. by destruct (t_cfail (after (hs 3%nat)) !! (id, sf_chunk sf)).
    - assert (Hq3 : cancelled_of (dbs 3%nat) id <$> t_canc (dbs 3%nat) !! id = cancelled_of (after (hs 3%nat)) id <$> t_canc (after (hs 3%nat)) !! id).
      { destruct (Hv 3%nat) as [H|(_ & _ & H1 & _ & H2)].
        - injection H as _ _ _ Hc Hm _ _ _. rewrite Hc. unfold cancelled_of, strat_of. by rewrite Hm.
        - simpl in H1. rewrite H1. injection H2 as _ _ _ -> _ _ _ _. done. }
      rewrite Hq3. by destruct (t_canc (after (hs 3%nat)) !! id). }
  rewrite Hr. clear Hr. pose proof (reader_status hs id Hg Hf Hk) as H.
  destruct (run_reader (submission_status id) (fun k => after (hs k)) 0) as [[st|]|e|].
  - destruct H as (k & Hle & H). exists k. split; [done|]. eapply sees_reports; eauto.
  - assert (Hu0 : unknown (after (hs 0%nat)) id -> unknown (dbs 0%nat) id) by (unfold unknown; rewrite !status_of_view, H0; done).
    destruct H as [H|H]; [exists 0%nat; split; [lia|by apply Hu0]|]. destruct (Hs 3%nat) as [E|(Hn & _)].
    + exists 3%nat. split; [lia|]. unfold unknown in *. rewrite status_of_view in *. by rewrite E.
    + exists 0%nat. split; [lia|]. apply Hu0, unknown_view. rewrite view_fresh; [done|done|]. intros Hx. apply Hn. eapply Hin; [|exact Hx]. lia.
  - destruct H as [H3 (s & c & H2)]. split; [exists s, c; by eapply sees_reports|]. destruct (Hs 3%nat) as [E|(Hn & _)].
    + unfold unknown in *. rewrite status_of_view in *. by rewrite E.
    + exfalso. apply Hn. eapply Hin; [|by eapply reports_inserted]. lia.
  - done.
Qed.

(** From the looks of a reader to [run_reader]. *)
Fixpoint only_reads {A} (p : prog A) : Prop :=
  match p with Ret _ => True | Sql R f k => forall r, only_reads (k r) | _ => False end.
Lemma looks_reader {A} (p : prog A) ds dbs n a : only_reads p -> looks p (Some <$> ds) = Some (Ret a) ->
  (forall i d, ds !! i = Some d -> dbs (n + i)%nat = d) -> run_reader p dbs n = a.
Proof.
  revert p n. induction ds as [|d ds IH]; intros p n Hp Hl Hd; simpl in Hl; [injection Hl as ->; done|].
  destruct p as [x|k|k|k|R f k]; try done. simpl in *. specialize (Hd 0%nat d eq_refl) as Hd0. rewrite Nat.add_0_r in Hd0. rewrite Hd0.
  destruct (f d) as [[r y]|e]; (apply IH; [apply Hp|done|]; intros i d' Hi; rewrite Nat.add_succ_comm; by apply Hd).
Qed.
Lemma only_reads_bind {A B} (p : prog A) (g : A -> prog B) : only_reads p -> (forall a, only_reads (g a)) -> only_reads (bind p g).
Proof. intros Hp Hg. induction p as [a|k IH|k IH|k IH|R f k IH]; try done; [apply Hg|]. simpl in *. intros r. by apply IH. Qed.
Lemma only_reads_read {R : Set} (f : db -> R) : only_reads (read f).
Proof. simpl. by intros []. Qed.
Lemma only_reads_tryb {A B} (p : M A) (g : A -> M B) : only_reads p -> (forall a, only_reads (g a)) -> only_reads (tryb p g).
Proof. intros Hp Hg. apply only_reads_bind; [done|]. intros [a|e|]; [apply Hg|done|done]. Qed.
Lemma only_reads_sql {R : Set} f : only_reads (@sql R f).
Proof. simpl. by intros []. Qed.
Lemma only_reads_query q : only_reads (query_prog q).
Proof.
  destruct q as [id|p|m max| | |]; unfold query_prog; (apply only_reads_bind; [|done]).
  - unfold submission_status. apply only_reads_tryb; [apply only_reads_read|]. intros [s|]; [done|].
    apply only_reads_tryb; [apply only_reads_read|]. intros [s|]; [done|].
    apply only_reads_tryb; [apply only_reads_read|]. intros [s|].
    { apply only_reads_tryb; [apply only_reads_sql|done]. }
    apply only_reads_tryb; [apply only_reads_read|]. by intros [s|].
  - apply only_reads_read.
  - apply only_reads_tryb; [apply only_reads_sql|]. intros ids. by destruct (_ <? _).
  - apply only_reads_read.
  - apply only_reads_read.
  - apply only_reads_tryb; [apply only_reads_read|]. intros n. apply only_reads_tryb; [apply only_reads_read|]. done.
Qed.

(** *** The moments of a reader *)
Fixpoint grun_from (s : pool) (g : ghost) (l : list act) : option (pool * ghost) :=
  match l with
  | [] => Some (s, g)
  | a :: l' => match does a s with Some (s1, _) => grun_from s1 (gstep s a g) l' | None => None end
  end.
Definition grun (l : list act) : option (pool * ghost) := grun_from pool_start (Ghost [] None) l.
Lemma grun_from_app s g l1 l2 : grun_from s g (l1 ++ l2) = match grun_from s g l1 with Some (s1, g1) => grun_from s1 g1 l2 | None => None end.
Proof. revert s g. induction l1 as [|a l1 IH]; intros s g; simpl; [done|]. destruct (does a s) as [[s1 o1]|]; [apply IH|done]. Qed.
Lemma goes_grun l s o g : goes l s o g -> grun l = Some (s, g).
Proof. induction 1 as [|l s o g a s' o' H IH E]; [done|]. unfold grun. rewrite grun_from_app. fold (grun l). rewrite IH. simpl. by rewrite E. Qed.
Definition count_at (l : list act) : nat := match grun l with Some (s, g) => whole s g | None => 0%nat end.
Definition db_at (l : list act) : db := match grun l with Some (s, _) => committed s | None => db_empty end.
Lemma goes_det l s o g s' o' g' : goes l s o g -> goes l s' o' g' -> s = s' /\ o = o' /\ g = g'.
Proof.
  intros H H'. pose proof (goes_go _ _ _ _ H). pose proof (goes_go _ _ _ _ H'). pose proof (goes_grun _ _ _ _ H). pose proof (goes_grun _ _ _ _ H'). naive_solver congruence.
Qed.
Lemma count_mono l s o g l1 l2 : goes l s o g -> l1 `prefix_of` l2 -> l2 `prefix_of` l -> (count_at l1 <= count_at l2)%nat.
Proof.
  intros Hg H1 H2. destruct (goes_prefix _ _ _ _ l2 Hg H2) as (s2 & o2 & g2 & Hg2 & _).
  destruct (goes_prefix _ _ _ _ l1 Hg2 H1) as (s1 & o1 & g1 & Hg1 & HL). unfold count_at.
  rewrite (goes_grun _ _ _ _ Hg1), (goes_grun _ _ _ _ Hg2). apply HL.
Qed.
Lemma fresh_shape g1 g : shape g1 `prefix_of` shape g -> fresh_ids (evs g).*2 -> fresh_ids (evs g1).*2.
Proof. intros [l E]. unfold fresh_ids. rewrite !shape_inserted, E, omap_app, NoDup_app. tauto. Qed.
Lemma view_inserted_other id p l m st z ot d id' : id' <> id -> view_of (inserted id p l m st z ot d) id' = view_of d id'.
Proof.
  intros Hne. symmetry. apply view_eq; simpl; try done.
  - by rewrite lookup_insert_ne.
  - intros k. rewrite lookup_union, lookup_meta_table, decide_False by done. by destruct (t_meta d !! _).
  - intros k. rewrite lookup_union, lookup_chunk_table, decide_False by done. by destruct (t_chunk d !! _).
Qed.
Lemma moment_sees l s o g l1 id : goes l s o g -> fresh_ids (evs g).*2 -> l1 `prefix_of` l -> sees id (take (count_at l1) (evs g)).*2 (db_at l1).
Proof.
  intros Hg Hf Hp. destruct (goes_prefix _ _ _ _ l1 Hg Hp) as (s1 & o1 & g1 & Hg1 & HL). unfold count_at, db_at. rewrite (goes_grun _ _ _ _ Hg1).
  pose proof (la_same _ _ _ _ _ _ HL _ (Nat.le_refl _)) as Hsame. pose proof (fresh_shape _ _ (la_shape _ _ _ _ _ _ HL) Hf) as Hf1.
  destruct (committed_whole _ _ (goes_pinv _ _ _ _ Hg1) Hf1) as [E|(t & id0 & p & m & st & z & ot & n & fs & k & Ec & Ew & E)].
  { left. rewrite E, <- Hsame. done. }
  rewrite Ew in *. assert (Ed : finish (take (length (g_done g1)) (evs g)) = finish (g_done g1)).
  { rewrite Hsame. unfold evs. by rewrite take_app. }
  destruct (decide (id = id0)) as [->|Hne].
  2:{ left. rewrite E, view_inserted_other by done. unfold finish in Ed. by rewrite Ed. }
  right. assert (Hid : id0 ∉ inserted_ids (take (length (g_done g1)) (evs g)).*2).
  { destruct (la_shape _ _ _ _ _ _ HL) as [l2 El]. unfold shape in El. unfold evs at 2 in El. rewrite Ec in El.
    assert (Hn : exists e, evs g !! length (g_done g1) = Some (t, e) /\ e_op e = OInsert id0 p [] m st z ot n).
    { assert (Hx : ((fun x : N * event => (x.1, e_op x.2)) <$> evs g) !! length (g_done g1) = Some (t, OInsert id0 p [] m st z ot n)).
      { rewrite El, fmap_app, <- app_assoc. rewrite lookup_app_r by (rewrite fmap_length; lia). rewrite fmap_length, Nat.sub_diag. done. }
      rewrite list_lookup_fmap in Hx. destruct (evs g !! length (g_done g1)) as [[t' e]|]; [|done]. injection Hx as -> Hx. by exists e. }
    destruct Hn as (e & He & Heo). rewrite <- (take_drop_middle _ _ _ He) in Hf. rewrite fmap_app in Hf. simpl in Hf.
    rewrite cons_middle, app_assoc in Hf. apply fresh_prefix in Hf. apply fresh_ids_app in Hf as [_ Hf]. apply Hf. by rewrite Heo. }
  assert (Hfd : fresh_ids (take (length (g_done g1)) (evs g)).*2).
  { rewrite <- (take_drop (length (g_done g1)) (evs g)), fmap_app in Hf. by eapply fresh_prefix. }
  pose proof (view_fresh _ _ Hfd Hid) as Hv. unfold finish in Ed. rewrite Ed in Hv. split; [done|]. rewrite E.
  unfold view_of, inserted in *; simpl in *. injection Hv as H1 H2 H3 H4 H5 H6 H7 H8. unfold finish. rewrite lookup_insert, H2, H3, H4, H8. done.
Qed.
Lemma chain_moments t l0 ks acts : chain t l0 ks acts -> exists ms : nat -> list act,
  (forall k, l0 `prefix_of` ms k /\ ms k `prefix_of` ms (S k) /\ ms k `prefix_of` acts) /\ forall i l x, ks !! i = Some (l, x) -> ms i = l.
Proof.
  revert l0. induction ks as [|[l1 x] ks IH]; intros l0; simpl.
  - intros H. exists (fun _ => l0). done.
  - intros (H1 & _ & H2). destruct (IH _ H2) as (ms & Hm & Hi).
    assert (Hl1 : l1 `prefix_of` acts) by (etransitivity; apply (Hm 0%nat)).
    exists (fun k => match k with O => l1 | S k' => ms k' end). split.
    + intros [|k]; [split_and!; [done|apply (Hm 0%nat)|done]|]. destruct (Hm k) as (H3 & H4 & H5). split_and!; [by etransitivity|done|done].
    + intros [|i] l y; simpl; [by intros [= -> _]|apply Hi].
Qed.
Lemma chain_dbs t l0 ks acts i l1 d : chain t l0 ks acts -> ks !! i = Some (l1, Some d) -> exists s1 o1, go l1 = Some (s1, o1) /\ d = committed s1.
Proof.
  revert l0 i. induction ks as [|[l x] ks IH]; intros l0 [|i]; simpl; try done.
  - intros (_ & (s1 & o1 & H1 & H2) & _) [= -> ->]. exists s1, o1. split; [done|]. destruct H2 as [H2|[H2 _]]; congruence.
  - intros (_ & _ & H) Hi. by eapply IH.
Qed.
Lemma chain_fault t l0 ks acts : chain t l0 ks acts -> None ∈ ks.*2 -> Look t true ∈ acts.
Proof.
  revert l0. induction ks as [|[l x] ks IH]; intros l0; simpl; [by intros _ H%elem_of_nil|].
  intros (_ & (s1 & o1 & H1 & H2) & H3) [H|H]%elem_of_cons; [|by eapply IH].
  destruct H2 as [H2|[_ [l2 ->]]]; [congruence|]. set_solver.
Qed.
Lemma run_reader_map {A B} (p : prog A) (f : A -> B) dbs n : run_reader (bind p (fun r => Ret (f r))) dbs n = f (run_reader p dbs n).
Proof.
  revert n. induction p as [a|k IH|k IH|k IH|R h k IH]; intros n; simpl; try apply IH; [done|]. destruct (h (dbs n)) as [[r d]|e]; apply IH.
Qed.
(** A failing query ends the reader, with an error. *)
Fixpoint fails_fast {A} (bad : A -> Prop) (p : prog A) : Prop :=
  match p with
  | Ret _ => True
  | Sql R f k => (forall r, fails_fast bad (k r)) /\ exists a, k (SErr OtherSqlError) = Ret a /\ bad a
  | _ => False
  end.
Lemma looks_faults {A} (bad : A -> Prop) (p : prog A) l a : fails_fast bad p -> looks p l = Some (Ret a) ->
  (exists ds, l = Some <$> ds) \/ None ∈ l /\ bad a.
Proof.
  revert p. induction l as [|x l IH]; intros p Hp Hl; [left; by exists []|]. simpl in Hl.
  destruct p as [y|k|k|k|R f k]; try done. simpl in Hp. destruct Hp as [Hk (b & Hb & Hbad)]. destruct x as [d|]; simpl in Hl.
  - assert (Hx : exists r, looks (k r) l = Some (Ret a)) by (destruct (f d) as [[r y]|e]; eauto).
    destruct Hx as [r Hr]. destruct (IH _ (Hk r) Hr) as [[ds ->]|[Hn Ha]]; [left; by exists (d :: ds)|right]. split; [set_solver|done].
  - right. split; [set_solver|]. rewrite Hb in Hl. destruct l; simpl in Hl; [by injection Hl as <-|done].
Qed.
Definition reply_failed (r : reply) : Prop :=
  match r with RStatus (Err _) | RPrefix (Err _) | RMeta (Err _) | RCount (Err _) | RScaling (Err _) => True | _ => False end.
Lemma fails_fast_bind {A B} (bad : A -> Prop) (bad' : B -> Prop) (p : prog A) (g : A -> prog B) :
  fails_fast bad p -> (forall a, fails_fast bad' (g a)) -> (forall a, bad a -> exists b, g a = Ret b /\ bad' b) -> fails_fast bad' (bind p g).
Proof.
  intros Hp Hg Hb. induction p as [a|k IH|k IH|k IH|R f k IH]; try done; [apply Hg|]. simpl in *. destruct Hp as [Hk (a & Ha & Hbad)].
  split; [intros r; by apply IH|]. rewrite Ha. simpl. by apply Hb.
Qed.
Definition res_failed {A} (r : res A) : Prop := match r with Err _ => True | _ => False end.
Lemma fails_fast_sql {R : Set} f : fails_fast res_failed (@sql R f).
Proof. simpl. split; [by intros []|by eexists]. Qed.
Lemma fails_fast_tryb {A B} (p : M A) (g : A -> M B) : fails_fast res_failed p -> (forall a, fails_fast res_failed (g a)) -> fails_fast res_failed (tryb p g).
Proof. intros Hp Hg. eapply fails_fast_bind; [exact Hp|intros [a|e|]; [apply Hg|done|done]|]. intros [a|e|] H; try done. by eexists. Qed.
Lemma fails_fast_query q : fails_fast reply_failed (query_prog q).
Proof.
  destruct q as [id|p|m max| | |]; unfold query_prog; (eapply (fails_fast_bind res_failed); [|done|intros [a|e|] H; try done; by eexists]).
  - unfold submission_status. apply fails_fast_tryb; [apply fails_fast_sql|]. intros [s|]; [done|].
    apply fails_fast_tryb; [apply fails_fast_sql|]. intros [s|]; [done|].
    apply fails_fast_tryb; [apply fails_fast_sql|]. intros [s|].
    { apply fails_fast_tryb; [apply fails_fast_sql|done]. }
    apply fails_fast_tryb; [apply fails_fast_sql|]. by intros [s|].
  - apply fails_fast_sql.
  - apply fails_fast_tryb; [apply fails_fast_sql|]. intros ids. by destruct (_ <? _).
  - apply fails_fast_sql.
  - apply fails_fast_sql.
  - apply fails_fast_tryb; [apply fails_fast_sql|]. intros n. apply fails_fast_tryb; [apply fails_fast_sql|]. done.
Qed.

Lemma told_answers acts s outs t r q : go (acts ++ [Tell t]) = Some (s, outs ++ [Told t r]) -> Asked t q ∈ outs ->
  reply_failed r /\ Look t true ∈ acts \/
  exists ms : nat -> list act, (forall k, ms k `prefix_of` ms (S k)) /\
    (forall k, ms k `prefix_of` acts /\ exists s1 o1, go (ms k) = Some (s1, o1) /\ Asked t q ∈ o1 /\ db_at (ms k) = committed s1) /\
    run_reader (query_prog q) (fun k => db_at (ms k)) 0 = r.
Proof.
  intros Hgo Hq. destruct (told_log _ _ _ _ _ Hgo) as (s0 & Hacts & q' & l0 & s00 & o0 & ks & Hl0 & Hq' & Hlooks & Hc).
  destruct (go_goes _ _ _ Hacts) as [g Hg]. destruct (chain_moments _ _ _ _ Hc) as (ms & Hms & Hi).
  assert (Hl0p : l0 `prefix_of` acts) by (etransitivity; apply (Hms 0%nat)).
  assert (Hmore : forall l2, l0 `prefix_of` l2 -> l2 `prefix_of` acts -> exists s1 o1 g1, goes l2 s1 o1 g1 /\ Asked t q' ∈ o1 /\ forall x, x ∈ o1 -> x ∈ outs).
  { intros l2 H1 H2. destruct (goes_prefix _ _ _ _ l2 Hg H2) as (s1 & o1 & g1 & Hg1 & HL1). exists s1, o1, g1. split; [done|].
    destruct (goes_prefix _ _ _ _ l0 Hg1 H1) as (s2 & o2 & g2 & Hg2 & HL2). apply goes_go in Hg2. assert (o2 = o0) as -> by congruence.
    destruct (la_out _ _ _ _ _ _ HL1) as (x1 & -> & _). destruct (la_out _ _ _ _ _ _ HL2) as (x2 & -> & _). split; set_solver. }
  assert (q' = q) as ->.
  { destruct (Hmore l0) as (s1 & o1 & g1 & _ & H1 & H2); [done|done|]. eapply (ri_one _ _ _ (goes_rinv _ _ _ _ Hg)); eauto. }
  destruct (looks_faults reply_failed _ _ _ (fails_fast_query q) Hlooks) as [[ds Eds]|[Hn Hr]]; [right|left; split; [done|by eapply chain_fault]].
  assert (Hm : forall k, ms k `prefix_of` acts /\ exists s1 o1, go (ms k) = Some (s1, o1) /\ Asked t q ∈ o1 /\ db_at (ms k) = committed s1).
  { intros k. destruct (Hms k) as (H1 & _ & H2). split; [done|]. destruct (Hmore _ H1 H2) as (s1 & o1 & g1 & Hg1 & Ha & _).
    exists s1, o1. split; [by eapply goes_go|]. split; [done|]. unfold db_at. by rewrite (goes_grun _ _ _ _ Hg1). }
  exists ms. split; [intros k; apply Hms|]. split; [done|]. rewrite Eds in Hlooks. eapply looks_reader; [apply only_reads_query|exact Hlooks|].
  intros i d Hd. simpl. assert (Hk : ks.*2 !! i = Some (Some d)) by (by rewrite Eds, list_lookup_fmap, Hd).
  rewrite list_lookup_fmap in Hk. destruct (ks !! i) as [[l1 x]|] eqn:Ek; [|done]. injection Hk as ->.
  destruct (chain_dbs _ _ _ _ _ _ _ Hc Ek) as (s1 & o1 & H1 & ->). rewrite (Hi _ _ _ Ek).
  destruct (Hm i) as (_ & s2 & o2 & H2 & _ & H3). rewrite (Hi _ _ _ Ek) in H2, H3. rewrite H3. congruence.
Qed.
Lemma told_status acts s outs t r id g s0 : go (acts ++ [Tell t]) = Some (s, outs ++ [Told t (RStatus r)]) -> Asked t (QStatus id) ∈ outs ->
  goes acts s0 outs g -> fresh_ids (evs g).*2 -> clocks_ok (evs g).*2 ->
  exists ms : nat -> list act, (forall k, ms k `prefix_of` ms (S k)) /\
    (forall k, ms k `prefix_of` acts /\ exists s1 o1, go (ms k) = Some (s1, o1) /\ Asked t (QStatus id) ∈ o1 /\ db_at (ms k) = committed s1) /\
  match r with
  | Ok (Some st) => exists k, reports (db_at (ms k)) id st
  | Ok None => exists k, unknown (db_at (ms k)) id
  | Err _ => Look t true ∈ acts \/ (exists s c, reports (db_at (ms 2%nat)) id (Failed s c)) /\ unknown (db_at (ms 3%nat)) id
  | Panicked => False
  end.
Proof.
  intros Hgo Hq Hg Hf Hk. destruct (told_answers _ _ _ _ _ _ Hgo Hq) as [[Hr Hx]|(ms & H1 & H2 & H3)].
  - destruct r as [[st|]|e|]; try done. destruct (go_goes _ _ _ (goes_go _ _ _ _ Hg)) as [g' Hg'].
    destruct (told_log _ _ _ _ _ Hgo) as (s1 & Hacts & q' & l0 & s00 & o0 & ks & Hl0 & Hq' & Hlooks & Hc).
    exists (fun _ => acts). split; [done|]. split; [|by left]. intros _. split; [done|]. exists s0, outs. split; [by eapply goes_go|]. split; [done|].
    unfold db_at. by rewrite (goes_grun _ _ _ _ Hg).
  - exists ms. split; [done|]. split; [done|]. unfold query_prog in H3. rewrite run_reader_map in H3.
    assert (H4 : run_reader (submission_status id) (fun k => db_at (ms k)) 0 = r) by congruence. clear H3. rename H4 into H3.
    pose proof (racing_status (fun k => db_at (ms k)) (fun k => (take (count_at (ms k)) (evs g)).*2) id) as H.
    rewrite H3 in H.
    assert (Hgr : grows (fun k => (take (count_at (ms k)) (evs g)).*2)).
    { intros k. pose proof (count_mono _ _ _ _ _ _ Hg (H1 k) (proj1 (H2 (S k)))) as Hle.
      exists (take (count_at (ms (S k)) - count_at (ms k)) (drop (count_at (ms k)) (evs g))).*2. rewrite <- fmap_app. f_equal.
      rewrite take_take_drop. f_equal. lia. }
    assert (Htk : forall n, fresh_ids (take n (evs g)).*2 /\ clocks_ok (take n (evs g)).*2).
    { intros n. rewrite <- (take_drop n (evs g)), fmap_app in Hf, Hk. split; [by eapply fresh_prefix|]. unfold clocks_ok in *. by apply Forall_app in Hk as [? _]. }
    specialize (H Hgr (fun k => proj1 (Htk _)) (fun k => proj2 (Htk _)) (fun k => moment_sees _ _ _ _ _ id Hg Hf (proj1 (H2 k)))).
    destruct r as [[st|]|e|]; [destruct H as (k & _ & H); by exists k|destruct H as (k & _ & H); by exists k|by right|done].
Qed.

(** *** The writer connection comes back *)
Lemma comes_back (p : prog outcome) : forall s t (faults : list bool -> bool) pre, p_owner s = Some (Owner t p) ->
  exists fs a s', go_from s ((Node <$> fs) ++ [Release]) = Some (s', [Answered t a]) /\ p_owner s' = None /\
    forall i b, fs !! i = Some b -> b = faults (pre ++ take i fs).
Proof.
  induction p as [a|k IH|k IH|k IH|R f k IH]; intros [c ow w r n] t faults pre Ho; simpl in Ho; subst ow.
  - exists [], a. eexists. split; [done|]. split; [done|]. by intros [].
  - assert (Hn : exists p' c', one_node (Begin k) c (faults (pre ++ [])) = Some (p', c') /\ exists x, p' = k x) by (simpl; destruct (faults (pre ++ [])); eauto).
    destruct Hn as (p' & c' & Hn & x & ->). destruct (IH x (Pool c' (Some (Owner t (k x))) w r n) t faults (pre ++ [faults (pre ++ [])]) eq_refl) as (fs & a & s' & H1 & H2 & H3).
    exists (faults (pre ++ []) :: fs), a, s'. split; [|split; [done|]].
    + rewrite fmap_cons, <- app_comm_cons. cbn [go_from does]. rewrite Hn, H1. done.
    + intros [|i] b; simpl; [by intros [= <-]|]. intros Hb. apply H3 in Hb. by rewrite <- app_assoc in Hb.
  - assert (Hn : exists p' c', one_node (Commit k) c (faults (pre ++ [])) = Some (p', c') /\ exists x, p' = k x) by (simpl; destruct (c_saved c), (faults (pre ++ [])); eauto).
    destruct Hn as (p' & c' & Hn & x & ->). destruct (IH x (Pool c' (Some (Owner t (k x))) w r n) t faults (pre ++ [faults (pre ++ [])]) eq_refl) as (fs & a & s' & H1 & H2 & H3).
    exists (faults (pre ++ []) :: fs), a, s'. split; [|split; [done|]].
    + rewrite fmap_cons, <- app_comm_cons. cbn [go_from does]. rewrite Hn, H1. done.
    + intros [|i] b; simpl; [by intros [= <-]|]. intros Hb. apply H3 in Hb. by rewrite <- app_assoc in Hb.
  - destruct (IH (Pool (match c_saved c with [] => c | d :: ds => Conn d ds end) (Some (Owner t k)) w r n) t faults (pre ++ [faults (pre ++ [])]) eq_refl) as (fs & a & s' & H1 & H2 & H3).
    exists (faults (pre ++ []) :: fs), a, s'. split; [|split; [done|]].
    + rewrite fmap_cons, <- app_comm_cons. cbn [go_from does one_node]. rewrite H1. done.
    + intros [|i] b; simpl; [by intros [= <-]|]. intros Hb. apply H3 in Hb. by rewrite <- app_assoc in Hb.
  - assert (Hn : exists p' c', one_node (Sql R f k) c (faults (pre ++ [])) = Some (p', c') /\ exists x, p' = k x) by (simpl; destruct (faults (pre ++ [])), (f (c_cur c)) as [[? ?]|?]; eauto).
    destruct Hn as (p' & c' & Hn & x & ->). destruct (IH x (Pool c' (Some (Owner t (k x))) w r n) t faults (pre ++ [faults (pre ++ [])]) eq_refl) as (fs & a & s' & H1 & H2 & H3).
    exists (faults (pre ++ []) :: fs), a, s'. split; [|split; [done|]].
    + rewrite fmap_cons, <- app_comm_cons. cbn [go_from does]. rewrite Hn, H1. done.
    + intros [|i] b; simpl; [by intros [= <-]|]. intros Hb. apply H3 in Hb. by rewrite <- app_assoc in Hb.
Qed.
