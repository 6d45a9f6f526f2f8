(** The effect of one event on the database, under faults and crashes. *)
From Verif Require Export DbProofs History.
Local Open Scope N_scope.

(** *** One event, as seen by the database *)
(** The insert before its second transaction. *)
Definition insert_base (o : op) (d : db) : db :=
  match o with
  | OInsert id p l m s z ot n => inserted id p l m s z ot d
  | _ => d
  end.

Definition op_ready (o : op) (d : db) : Prop :=
  match o with OInsert id _ _ _ _ _ _ _ => insertable id d /\ t_comp d !! id = None | _ => True end.

Lemma atomic_step d o fs k : atomic (op_prog o) ->
  step d (Event o fs k) = d \/ step d (Event o fs k) = snd (exec (op_prog o) d []).
Proof.
  intros [_ Ha]. destruct (Ha d fs) as [H1 H2]. unfold step, finished; simpl.
  destruct k as [k|]; [|done]. destruct (crash_dbs _ d fs !! k) as [x|] eqn:E; simpl; [|done].
  apply elem_of_list_lookup_2, elem_of_list_In in E. auto.
Qed.

Lemma insert_event id p l m s z ot n d fs k : insertable id d -> t_comp d !! id = None ->
  let o := OInsert id p l m s z ot n in
  let d' := step d (Event o fs k) in
  d' = d \/ d' = insert_base o d \/ d' = snd (exec (op_prog o) d []).
Proof.
  intros Hi Hc. cbv zeta. unfold step, finished, e_op, e_faults, e_crash, op_prog. rewrite !exec_map.
  rewrite exec_insert_from_chunks by done. cbn [snd].
  set (final := match l with [] => _ | _ => _ end).
  set (s0 := Submission id p (N.of_nat (length l)) 0 z m s ot).
  set (rest := if N.of_nat (length l) =? 0 then
        bind (maybe_complete_submission id n) (fun r =>
          match r with
          | Err (EDb e) => err (EDb e)
          | Err _ => ret id
          | Ok _ => ret id
          | Panicked => Ret Panicked
          end) else ret id).
  assert (E0 : insert_submission_from_chunks id p l m s z ot n = tryb (insert_submission s0 (number_chunks id l)) (fun _ => rest)) by done.
  (* the state of the connection after the first transaction, with its remaining faults *)
  assert (Hgi : good (insert_submission s0 (number_chunks id l))) by auto with good.
  assert (Hrest : forall d1 fs1, d1 = insert_base (OInsert id p l m s z ot n) d ->
     let c := snd (fst (run rest (conn_of d1) fs1)) in
     c_saved c = [] /\ (c_cur c = d1 \/ c_cur c = final) /\
     forall st, In st (states rest (conn_of d1) fs1) -> durable st = d1 \/ durable st = final).
  { intros d1 fs1 Hd1. subst rest. destruct l as [|x l].
    2:{ simpl. split; [done|]. split; [auto|]. intros st [<-|[]]. auto. }
    change (N.of_nat (length (@nil content)) =? 0) with true.
    repeat match goal with |- context[if true then ?a else ?b] => change (if true then a else b) with a end.
    rewrite run_bind.
    assert (Hmc : snd (exec (maybe_complete_submission id n) d1 []) = final).
    { rewrite exec_maybe_complete, Hd1. simpl. rewrite lookup_insert. simpl. rewrite Hc. done. }
    assert (Hgb : good (maybe_complete_submission id n)) by auto with good.
    unfold maybe_complete_submission in Hmc, Hgb |- *.
    match goal with |- context[transaction ?b] => set (body := b) in * end.
    assert (Hb : good body) by (subst body; solve_good).
    pose proof (good_keeps _ Hgb (conn_of d1) fs1) as [Hs _].
    assert (Hf : snd (exec (transaction body) d1 fs1) = d1 \/ snd (exec (transaction body) d1 fs1) = final).
    { destruct (exec_tx_faults body d1 fs1 Hb) as [->| ->]; auto. }
    unfold exec in Hf.
    destruct (run (transaction body) (conn_of d1) fs1) as [[r c] fs2] eqn:Er. simpl in Hs, Hf.
    assert (Hk : forall (r : res bool) fs, run (match r with
          | Err (EDb e) => err (EDb e) | Err _ => ret id | Ok _ => ret id | Panicked => Ret Panicked end) c fs
          = (fst (fst (run (match r with
          | Err (EDb e) => err (EDb e) | Err _ => ret id | Ok _ => ret id | Panicked => Ret Panicked end) c fs)), c, fs)).
    { intros [|[]|] ?; done. }
    rewrite Hk. cbn [fst snd]. split; [done|]. split; [done|].
    intros st Hin. apply states_bind in Hin as [Hin|Hin].
    - assert (In (durable st) (crash_dbs (transaction body) d1 fs1)) as Hc1 by (by apply in_map).
      apply exec_tx_crash in Hc1; [|done]. rewrite Hmc in Hc1. exact Hc1.
    - rewrite Er in Hin. simpl in Hin.
      assert (st = c) as ->. { destruct r as [|[]|]; simpl in Hin; destruct Hin as [<-|[]]; done. }
      unfold durable. rewrite Hs. simpl. exact Hf. }
  assert (Hins : snd (exec (insert_submission s0 (number_chunks id l)) d []) = insert_base (OInsert id p l m s z ot n) d).
  { subst s0. rewrite exec_insert by done. done. }
  assert (Hfin : snd (exec (insert_submission_from_chunks id p l m s z ot n) d fs) = d \/
     snd (exec (insert_submission_from_chunks id p l m s z ot n) d fs) = insert_base (OInsert id p l m s z ot n) d \/
     snd (exec (insert_submission_from_chunks id p l m s z ot n) d fs) = final).
  { rewrite E0. unfold exec, tryb. rewrite run_bind.
    unfold insert_submission in Hins, Hgi |- *.
    match goal with |- context[transaction ?b] => set (body := b) in * end.
    assert (Hb : good body) by (subst body; solve_good).
    pose proof (good_keeps _ Hgi (conn_of d) fs) as [Hs _].
    pose proof (exec_tx_faults body d fs Hb) as Hf. unfold exec in Hf at 1 2.
    rewrite (surjective_pairing (exec (transaction body) d [])), Hins in Hf.
    destruct (run (transaction body) (conn_of d) fs) as [[r c] fs'] eqn:Er. simpl in Hs.
    destruct Hf as [Hf|Hf]; injection Hf as H1 H2.
    - subst r. simpl. rewrite H2. auto.
    - destruct c as [cc cs]; simpl in *. subst cc cs. destruct r as [a|e|]; simpl; auto.
      pose proof (Hrest _ fs' eq_refl) as (_ & H3 & _).
      unfold conn_of in H3. destruct (run rest _ _) as [[r2 c2] fs2]; simpl in *. tauto. }
  destruct k as [k|]; [|exact Hfin].
  destruct (crash_dbs _ d fs !! k) as [x|] eqn:E; [|exact Hfin]. simpl.
  apply elem_of_list_lookup_2, elem_of_list_In in E.
  apply crash_map in E; [|apply good_insert_from_chunks]. destruct E as [E| ->]; [|exact Hfin].
  apply in_map_iff in E as [st [<- Hin]]. rewrite E0 in Hin. unfold tryb in Hin.
  apply states_bind in Hin.
  unfold insert_submission in Hins, Hgi, Hin |- *.
  match type of Hgi with good (transaction ?b) => set (body := b) in * end.
  assert (Hb : good body) by (subst body; solve_good).
  destruct Hin as [Hin|Hin].
  - assert (In (durable st) (crash_dbs (transaction body) d fs)) as Hc1 by (by apply in_map).
    apply exec_tx_crash in Hc1; [|done]. rewrite Hins in Hc1. tauto.
  - pose proof (good_keeps _ Hgi (conn_of d) fs) as [Hs _].
    pose proof (exec_tx_faults body d fs Hb) as Hf. unfold exec in Hf at 1 2.
    rewrite (surjective_pairing (exec (transaction body) d [])), Hins in Hf.
    destruct (run (transaction body) (conn_of d) fs) as [[r c] fs'] eqn:Er. simpl in Hs, Hin.
    destruct Hf as [Hf|Hf]; injection Hf as H1 H2.
    + subst r. simpl in Hin. destruct Hin as [<-|[]]. unfold durable. rewrite Hs, H2. auto.
    + destruct c as [cc cs]; simpl in *. subst cc cs. destruct r as [a|e|]; simpl in Hin.
      * pose proof (Hrest _ fs' eq_refl) as (_ & _ & H3). apply H3 in Hin. tauto.
      * destruct Hin as [<-|[]]. unfold durable. simpl. auto.
      * destruct Hin as [<-|[]]. unfold durable. simpl. auto.
Qed.

(** An event leaves the database unchanged, or does what the operation does without faults and
    crash; the one exception is an insert cut between its two transactions. *)
Lemma step_cases d e : op_ready (e_op e) d ->
  step d e = d \/ step d e = insert_base (e_op e) d \/ step d e = snd (exec (op_prog (e_op e)) d []).
Proof.
  destruct e as [o fs k]. simpl e_op. intros Hr.
  assert (Ha : atomic (op_prog o) \/ exists id p l m s z ot n, o = OInsert id p l m s z ot n).
  { destruct o; simpl op_prog; [right; eauto 10|left..]; unfold complete_chunk; repeat apply atomic_map; apply atomic_tx.
    - solve_good.
    - solve_good.
    - apply good_cancel_body.
    - solve_good.
    - solve_good. }
  destruct Ha as [Ha|(id & p & l & m & s & z & ot & n & ->)].
  - apply (atomic_step d o fs k) in Ha. tauto.
  - destruct Hr as [Hi Hc]. by apply insert_event.
Qed.

