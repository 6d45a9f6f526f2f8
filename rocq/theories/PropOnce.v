(** C114: every reserve request is answered once. *)
From Verif Require Import Server PropServer.
Local Open Scope N_scope.

(** ** Vocabulary *)
(** The nonces of the requests that arrived on connection [c] (a restart begins anew) ... *)
Definition asks (c : N) (tr : trace) : list N :=
  foldl (fun k lo => match lo.1 with LReserve c' q _ _ => if bool_decide (c' = c) then k ++ [q_nonce q] else k | LCrash _ => [] | _ => k end) [] tr.
(** ... and those of the replies that were sent on it, be they chunks, an empty list or a refusal. *)
Definition reply_to (c : N) (y : out) : option N :=
  match y with Given c' n _ | Refused c' n => if bool_decide (c' = c) then Some n else None | _ => None end.
Definition replies (c : N) (tr : trace) : list N :=
  foldl (fun k lo => match lo.1 with LCrash _ => [] | _ => k ++ omap (reply_to c) lo.2 end) [] tr.
(** The requests that the server is at or keeps for later. *)
Definition open_requests (x : peer) : list N :=
  q_nonce <$> (match c_fetch x with Some f => [f_req f] | None => [] end ++ c_spawned x ++ c_waiting x ++ c_retry x).

(** ** Proofs *)
Definition look (cs : gmap N peer) (c : N) : option (bool * list N) := (fun x => (c_open x, open_requests x)) <$> cs !! c.
Lemma look_deliver ns : forall cs c, look (foldl deliver cs ns) c = look cs c.
Proof.
  induction ns as [|n ns IH]; intros cs c; [done|]. cbn [foldl]. rewrite IH. unfold deliver, look.
  destruct (cs !! n.1) as [x|] eqn:E; [|done]. destruct (c_open x) eqn:Eo; [|done].
  destruct (decide (n.1 = c)) as [<-|Hne]; [|by rewrite lookup_insert_ne]. rewrite lookup_insert, E. cbn. by rewrite Eo.
Qed.
Lemma look_insert cs c x d : look (<[c := x]> cs) d = if bool_decide (d = c) then Some (c_open x, open_requests x) else look cs d.
Proof.
  unfold look. case_bool_decide as E; [subst; by rewrite lookup_insert|]. by rewrite lookup_insert_ne.
Qed.
Definition fair (v : option (bool * list N)) (a b : list N) : Prop :=
  match v with
  | None => a = [] /\ b = []
  | Some (true, p) => a ≡ₚ b ++ p
  | Some (false, p) => p = [] /\ b ⊆+ a
  end.
Definition step_asks (c : N) (l : label) (k : list N) : list N :=
  match l with LReserve c' q _ _ => if bool_decide (c' = c) then k ++ [q_nonce q] else k | LCrash _ => [] | _ => k end.
Definition step_replies (c : N) (l : label) (o : list out) (k : list N) : list N :=
  match l with LCrash _ => [] | _ => k ++ omap (reply_to c) o end.
Lemma asks_snoc c tr l o : asks c (tr ++ [(l, o)]) = step_asks c l (asks c tr).
Proof. unfold asks. by rewrite foldl_app. Qed.
Lemma replies_snoc c tr l o : replies c (tr ++ [(l, o)]) = step_replies c l o (replies c tr).
Proof. unfold replies. by rewrite foldl_app. Qed.
Lemma fair_perm b p p' a r : p ≡ₚ p' -> fair (Some (b, p)) a r -> fair (Some (b, p')) a r.
Proof. intros E. destruct b; cbn; [by rewrite E|]. intros [-> H]. apply Permutation_nil_l in E as ->. done. Qed.
Lemma fair_step cfg l s s' o c a b : next cfg l s = Some (s', o) -> fair (look (s_conns s) c) a b ->
  fair (look (s_conns s') c) (step_asks c l a) (step_replies c l o b).
Proof.
  intros Hn F.
  assert (Same : s_conns s' = s_conns s -> o = [] -> (forall k, step_asks c l k = k) -> (forall k, step_replies c l o k = k ++ omap (reply_to c) o) ->
    fair (look (s_conns s') c) (step_asks c l a) (step_replies c l o b)).
  { intros -> -> -> ->. cbn. by rewrite app_nil_r. }
  assert (Closes : forall d x, s_conns s !! d = Some x -> s' = close cfg d x s -> o = [Closed d] -> (forall k, step_asks c l k = k) -> (forall k, step_replies c l o k = k ++ omap (reply_to c) o) ->
    fair (look (s_conns s') c) (step_asks c l a) (step_replies c l o b)).
  { intros d x Hx -> -> -> ->. unfold close. cbn [s_conns set_conn with_res]. rewrite look_insert. cbn [omap list_omap reply_to]. rewrite app_nil_r.
    case_bool_decide as E.
    - subst d. cbn. split; [done|]. unfold look in F. rewrite Hx in F. cbn in F. destruct (c_open x); cbn in F; [rewrite F; by apply submseteq_inserts_r|by destruct F].
    - rewrite look_deliver, look_insert. by rewrite bool_decide_eq_false_2. }
  assert (Upd : forall d x x', s_conns s !! d = Some x -> (forall e, look (s_conns s') e = look (<[d := x']> (s_conns s)) e) ->
    (c <> d -> step_asks c l a = a /\ step_replies c l o b = b) ->
    (c = d -> fair (Some (c_open x, open_requests x)) a b -> fair (Some (c_open x', open_requests x')) (step_asks c l a) (step_replies c l o b)) ->
    fair (look (s_conns s') c) (step_asks c l a) (step_replies c l o b)).
  { intros d x x' Hx E H1 H2. rewrite E, look_insert. case_bool_decide as D.
    - apply H2; [done|]. subst d. unfold look in F. by rewrite Hx in F.
    - destruct (H1 D) as [-> ->]. done. }
  assert (Other : forall d n g, c <> d -> omap (reply_to c) [Given d n g] = [] /\ omap (reply_to c) [Refused d n] = []).
  { intros d n g D. cbn. by rewrite !bool_decide_eq_false_2 by done. }
  destruct l as [e| |d|d|d q off rows|d off rows|d|d i|d fault|d|d|d|d k r|fs n1 n2 n3| | |ok|dt|i|k|d|oe]; unfold next in Hn;
    try (destruct (s_conns s !! d) as [x|] eqn:Ex; [|try done]).
  - destruct (is_producer_op _); [|done]. injection Hn as <- <-. by apply Same.
  - destruct (s_notifies s); [done|]. injection Hn as <- <-. cbn [s_conns step_asks step_replies omap list_omap]. rewrite app_nil_r.
    unfold look in *. rewrite lookup_fmap. destruct (s_conns s !! c) as [x|]; [|done]. cbn [fmap option_fmap option_map] in *.
    refine (fair_perm _ _ _ _ _ _ F). unfold open_requests. cbn [c_fetch c_spawned c_waiting c_retry]. apply fmap_Permutation. solve_Permutation.
  - done.
  - injection Hn as <- <-. cbn [s_conns set_conn step_asks step_replies omap list_omap]. rewrite app_nil_r, look_insert. case_bool_decide as D; [|done].
    subst d. unfold look in F. rewrite Ex in F. destruct F as [-> ->]. exact (Permutation_refl []).
  - destruct (c_open x); [|done]. destruct (c_fetch x); [done|]. injection Hn as <- <-. by eapply Closes.
  - destruct (c_open x) eqn:Eo; [|done]. destruct (c_fetch x) eqn:Ef; [done|]. 
    assert (Now : s' = s -> (forall e, step_replies e (LReserve d q off rows) o b = if bool_decide (d = e) then b ++ [q_nonce q] else b) -> fair (look (s_conns s') c) (step_asks c (LReserve d q off rows) a) (step_replies c (LReserve d q off rows) o b)).
    { intros -> E. rewrite E. cbn [step_asks]. case_bool_decide as D; [|done]. subst d. unfold look in *. rewrite Ex in *. cbn in *. rewrite Eo in *. rewrite F. solve_Permutation. }
    destruct (q_max q =? 0); [|destruct (can_ask _); cbn [negb] in Hn]; injection Hn as <- <-.
    + apply Now; [done|]. intros e. cbn. case_bool_decide; [done|apply app_nil_r].
    + eapply Upd; [done|done| |].
      * intros D. cbn. rewrite bool_decide_eq_false_2 by done. by rewrite app_nil_r.
      * intros ->. cbn. rewrite bool_decide_eq_true_2 by done. rewrite Eo, app_nil_r. unfold open_requests. rewrite Ef. cbn. intros ->. solve_Permutation.
    + apply Now; [done|]. intros e. cbn. case_bool_decide; [done|apply app_nil_r].
  - destruct (c_open x) eqn:Eo; [|done]. destruct (c_fetch x) eqn:Ef; [done|]. destruct (c_retry x) as [|q rest] eqn:Er; [done|].
    destruct (q_max q =? 0); [|destruct (can_ask _); cbn [negb] in Hn]; injection Hn as <- <-; (eapply Upd; [done|done| |]).
    + intros D. cbn. rewrite bool_decide_eq_false_2 by done. by rewrite app_nil_r.
    + intros ->. cbn. rewrite bool_decide_eq_true_2 by done. rewrite Eo. unfold open_requests. rewrite Ef, Er. cbn. intros ->. rewrite !fmap_app. cbn. solve_Permutation.
    + intros D. cbn. by rewrite app_nil_r.
    + intros ->. cbn. rewrite Eo, app_nil_r. unfold open_requests. rewrite Ef, Er. cbn. intros ->. rewrite !fmap_app. cbn. solve_Permutation.
    + intros D. cbn. rewrite bool_decide_eq_false_2 by done. by rewrite app_nil_r.
    + intros ->. cbn. rewrite bool_decide_eq_true_2 by done. rewrite Eo. unfold open_requests. rewrite Ef, Er. cbn. intros ->. rewrite !fmap_app. cbn. solve_Permutation.
  - destruct (c_fetch x) as [[q [|r rows] got [j|]]|] eqn:Ef; try done. destruct (_ <? _); [|done]. destruct (try_reserve _ _ _ _ _) as [[ok res] ns].
    injection Hn as <- <-. eapply Upd; [done|intros e; apply look_deliver| |]; [intros _|intros _ H]; cbn [step_asks step_replies omap list_omap]; rewrite app_nil_r; [done|].
    unfold open_requests in *. rewrite Ef in H. exact H.
  - destruct (c_fetch x) as [[q rows got j]|] eqn:Ef; [|done]. destruct (rows !! i); [|done]. destruct (is_reserved _ _ _ _); [|done]. injection Hn as <- <-.
    eapply Upd; [done|done| |]; [intros _|intros _ H]; cbn [step_asks step_replies omap list_omap]; rewrite app_nil_r; [done|].
    unfold open_requests in *. rewrite Ef in H. exact H.
  - destruct (c_fetch x) as [[q rows got [r|]]|] eqn:Ef; try done. destruct (if fault then None else _).
    + injection Hn as <- <-. eapply Upd; [done|done| |]; [intros _|intros _ H]; cbn [step_asks step_replies omap list_omap]; rewrite app_nil_r; [done|].
      unfold open_requests in *. rewrite Ef in H. exact H.
    + injection Hn as <- <-. by eapply Closes.
  - destruct (c_fetch x) as [[q rows got j]|] eqn:Ef; [|done]. injection Hn as <- <-. eapply Upd; [done|done| |].
    + intros D. cbn. rewrite bool_decide_eq_false_2 by done. by rewrite app_nil_r.
    + intros ->. cbn. rewrite bool_decide_eq_true_2 by done. unfold open_requests. rewrite Ef. cbn. destruct (c_open x); cbn; [intros ->; solve_Permutation|by intros [? _]].
  - destruct (c_fetch x) as [[q rows got [j|]]|] eqn:Ef; try done. destruct (_ || _); [|done]. destruct got as [|g got]; injection Hn as <- <-; (eapply Upd; [done|done| |]).
    + intros D. cbn. by rewrite app_nil_r.
    + intros ->. cbn. rewrite app_nil_r. apply fair_perm. unfold open_requests. rewrite Ef. cbn. rewrite !fmap_app. cbn. solve_Permutation.
    + intros D. cbn. rewrite bool_decide_eq_false_2 by done. by rewrite app_nil_r.
    + intros ->. cbn. rewrite bool_decide_eq_true_2 by done. unfold open_requests. rewrite Ef. cbn. destruct (c_open x); cbn; [intros ->; solve_Permutation|by intros [? _]].
  - destruct (c_spawned x) as [|q rest] eqn:Es; [done|]. injection Hn as <- <-. eapply Upd; [done|done| |].
    + intros D. cbn. by rewrite app_nil_r.
    + intros ->. cbn. rewrite app_nil_r. apply fair_perm. unfold open_requests. rewrite Es. cbn. rewrite !fmap_app. cbn. rewrite !fmap_app. cbn. solve_Permutation.
  - destruct (c_open x) eqn:Eo; [|done]. destruct (c_fetch x) eqn:Ef; [done|]. injection Hn as <- <-. eapply Upd; [done|done| |]; [intros _|intros _ H]; cbn [step_asks step_replies omap list_omap]; rewrite app_nil_r; [done|].
    unfold open_requests in *. rewrite Ef, Eo in H. exact H.
  - destruct (s_phase s); try done. destruct (s_mail s); [done|]. injection Hn as <- <-. by apply Same.
  - destruct (s_phase s); try done. destruct (s_mail s); [done|]. injection Hn as <- <-. by apply Same.
  - destruct (s_phase s) as [|m delayed|]; try done. destruct (finish_reservation _ _ _ _ _) as [[? res] ns]. injection Hn as <- <-.
    cbn [s_conns with_res step_asks step_replies omap list_omap fst snd]. rewrite app_nil_r, look_deliver. unfold look in *. destruct (decide (c = m_conn m)) as [->|D].
    + rewrite lookup_alter. destruct (s_conns s !! m_conn m); exact F.
    + by rewrite lookup_alter_ne by done.
  - destruct (s_phase s); try done. injection Hn as <- <-. by apply Same.
  - injection Hn as <- <-. by apply Same.
  - destruct (_ !! i) as [[k t]|]; [|done]. destruct (_ <=? _); [|done]. injection Hn as <- <-. cbn [s_conns with_res step_asks step_replies omap list_omap]. by rewrite app_nil_r, look_deliver.
  - destruct (_ !! k); [|done]. destruct (is_live _ _ _); [done|]. injection Hn as <- <-. cbn [s_conns with_res step_asks step_replies omap list_omap]. by rewrite app_nil_r, look_deliver.
  - destruct (c_fetch x) eqn:Ef; [done|]. destruct (c_rx x) as [|k rest]; [done|]. injection Hn as <- <-. eapply Upd; [done|done| |]; [intros _|intros _ H]; cbn [step_asks step_replies omap list_omap reply_to]; rewrite app_nil_r; [done|].
    unfold open_requests in *. rewrite Ef in H. exact H.
  - injection Hn as <- <-. done.
Qed.
Lemma fair_run cfg ok h now tr s c : run_to cfg ok (server_start h now) tr s -> fair (look (s_conns s) c) (asks c tr) (replies c tr).
Proof.
  induction 1 as [|tr s1 l s2 o Hr IH Hok [_ Hn]]; [done|]. rewrite asks_snoc, replies_snoc. by eapply fair_step.
Qed.

(** ** Theorems *)
(** As long as the connection is open: each request that arrived on it has been answered, with its
    own nonce and once, or the server still has it, once. *)
Theorem C114_answered_or_kept cfg h now tr s c x : run_to cfg anything (server_start h now) tr s -> s_conns s !! c = Some x -> c_open x = true ->
  asks c tr ≡ₚ replies c tr ++ open_requests x.
Proof. intros Hr Hx Ho. pose proof (fair_run _ _ _ _ _ _ c Hr) as F. unfold look in F. rewrite Hx in F. cbn in F. by rewrite Ho in F. Qed.
Print Assumptions C114_answered_or_kept.
(** At any time, also when the connection has ended: no reply without a request, and no second one. *)
Theorem C114_at_most_once cfg h now tr s c : run_to cfg anything (server_start h now) tr s -> replies c tr ⊆+ asks c tr.
Proof.
  intros Hr. pose proof (fair_run _ _ _ _ _ _ c Hr) as F. destruct (look (s_conns s) c) as [[[] p]|]; cbn in F.
  - rewrite F. by apply submseteq_inserts_r.
  - by destruct F.
  - by destruct F as [-> ->].
Qed.
Print Assumptions C114_at_most_once.
(** With nonces that differ, as those of the client do (C39_nonces): at most one reply to each. *)
Theorem C114_nonces cfg h now tr s c : run_to cfg anything (server_start h now) tr s -> NoDup (asks c tr) -> NoDup (replies c tr).
Proof.
  intros Hr. destruct (submseteq_Permutation _ _ (C114_at_most_once _ _ _ _ _ c Hr)) as [k ->]. by intros [H _]%NoDup_app.
Qed.
Print Assumptions C114_nonces.
(** One request finds nothing and waits, another one is refused meanwhile; then a submission comes. *)
Example C114_example :
  let wants q : state -> label := fun s => LReserve 1 q 0 (rows_now q 0 s) in
  exists tr1 s1 tr2 s2, run_to ex_cfg anything (server_start [] 0) tr1 s1 /\ run_to ex_cfg anything (server_start [] 0) (tr1 ++ tr2) s2 /\
    asks 1 tr1 = [4; 5] /\ replies 1 tr1 = [5] /\ (open_requests <$> s_conns s1 !! 1) = Some [4] /\
    asks 1 (tr1 ++ tr2) = [4; 5] /\ replies 1 (tr1 ++ tr2) = [5; 4] /\ (open_requests <$> s_conns s2 !! 1) = Some [].
Proof.
  intros wants.
  destruct (by_play2 ex_cfg (fun _ _ _ => true) anything [] 0
    (does [LConnect 1] ++ [wants (Req 4 1 Oldest)] ++ does [LReply 1; LRegister 1] ++ [wants (Req 5 0 Oldest)])
    (does [LProducer (quiet (OInsert 1 None [None] None ∅ 10 "o" 1)); LNotify] ++ [fun s => LRetry 1 0 (rows_now (Req 4 1 Oldest) 0 s)] ++ does [LRow 1; LJoin 1 false; LReply 1])
    (fun tr1 s1 tr2 s2 => bool_decide (asks 1 tr1 = [4; 5]) && bool_decide (replies 1 tr1 = [5]) && bool_decide ((open_requests <$> s_conns s1 !! 1) = Some [4]) &&
      bool_decide (asks 1 (tr1 ++ tr2) = [4; 5]) && bool_decide (replies 1 (tr1 ++ tr2) = [5; 4]) && bool_decide ((open_requests <$> s_conns s2 !! 1) = Some [])))
    as (tr1 & s1 & tr2 & s2 & H1 & H2 & H); [done|by vm_compute|].
  rewrite !andb_true_iff, !bool_decide_eq_true in H. exists tr1, s1, tr2, s2. tauto.
Qed.
