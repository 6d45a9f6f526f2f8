(** C115: what is in a reply. *)
From Verif Require Import Server ServerFacts StrategyProofs PropServer.
Local Open Scope N_scope.

(** ** Vocabulary *)
(** The requests that arrived on connection [c] since the server was started. *)
Definition requests (c : N) (tr : trace) : list req :=
  foldl (fun k lo => match lo.1 with LReserve c' q _ _ => if bool_decide (c' = c) then k ++ [q] else k | LCrash _ => [] | _ => k end) [] tr.
(** At some moment of the run [tr] the search for request [q] could find the rows [rows], in this order. *)
Definition searched (cfg : config) (h : history) (now : N) (tr : trace) (q : req) (rows : list chunk) : Prop :=
  exists tr0 s0 off, tr0 `prefix_of` tr /\ run_to cfg anything (server_start h now) tr0 s0 /\
    offers (q_strategy q) off (s_db s0) (s_counts s0) (fun _ => false) rows.

(** ** Proofs *)
Notation rest_of x := (c_spawned x ++ c_waiting x ++ c_retry x).
Definition vw (cs : gmap N peer) (c : N) : option (option fetch * list req) := (fun x => (c_fetch x, rest_of x)) <$> cs !! c.
Definition joining (f : fetch) : list chunk := match f_join f with Some r => [r] | None => [] end.
Definition fetch_ok (P : req -> list chunk -> Prop) (R : list req) (f : fetch) : Prop :=
  f_req f ∈ R /\ N.of_nat (length (f_got f) + length (joining f)) <= q_max (f_req f) /\
  exists rows, P (f_req f) rows /\ (f_got f).*1 ++ joining f ++ f_rows f `sublist_of` rows.
Definition view_ok (P : req -> list chunk -> Prop) (R : list req) (v : option (option fetch * list req)) : Prop :=
  match v with Some (f, qs) => (forall q, q ∈ qs -> q ∈ R) /\ (forall g, f = Some g -> fetch_ok P R g) | None => True end.
Definition reply_ok (P : req -> list chunk -> Prop) (R : N -> list req) (y : out) : Prop :=
  match y with
  | Given c n l => exists q, q ∈ R c /\ q_nonce q = n /\ N.of_nat (length l) <= q_max q /\ (l = [] \/ exists rows, P q rows /\ l.*1 `sublist_of` rows)
  | _ => True
  end.
Lemma vw_deliver ns : forall cs c, vw (foldl deliver cs ns) c = vw cs c.
Proof.
  induction ns as [|n ns IH]; intros cs c; [done|]. cbn [foldl]. rewrite IH. unfold deliver, vw.
  destruct (cs !! n.1) as [x|] eqn:E; [|done]. destruct (c_open x) eqn:Eo; [|done].
  destruct (decide (n.1 = c)) as [<-|Hne]; [|by rewrite lookup_insert_ne]. by rewrite lookup_insert, E.
Qed.
Lemma vw_insert cs c x d : vw (<[c := x]> cs) d = if bool_decide (d = c) then Some (c_fetch x, rest_of x) else vw cs d.
Proof. unfold vw. case_bool_decide as E; [subst; by rewrite lookup_insert|]. by rewrite lookup_insert_ne. Qed.
Definition reqs_step (c : N) (l : label) (k : list req) : list req :=
  match l with LReserve c' q _ _ => if bool_decide (c' = c) then k ++ [q] else k | LCrash _ => [] | _ => k end.
Lemma requests_snoc c tr l o : requests c (tr ++ [(l, o)]) = reqs_step c l (requests c tr).
Proof. unfold requests. by rewrite foldl_app. Qed.

Section Step.
  Context (cfg : config) (P : req -> list chunk -> Prop) (R : N -> list req).
  Lemma limit_step l s s' o :
    next cfg l s = Some (s', o) ->
    (forall c q off rows, l = LReserve c q off rows -> P q rows) ->
    (forall c off rows x q rest, l = LRetry c off rows -> s_conns s !! c = Some x -> c_retry x = q :: rest -> P q rows) ->
    (forall c, view_ok P (R c) (vw (s_conns s) c)) ->
    (forall c, view_ok P (reqs_step c l (R c)) (vw (s_conns s') c)) /\ Forall (reply_ok P (fun c => reqs_step c l (R c))) o.
  Proof.
    intros Hn Hres Hret I.
    assert (At : forall d x, s_conns s !! d = Some x -> (forall q, q ∈ rest_of x -> q ∈ R d) /\ (forall g, c_fetch x = Some g -> fetch_ok P (R d) g)).
    { intros d x Hx. specialize (I d). unfold vw in I. by rewrite Hx in I. }
    assert (Same : (forall c, vw (s_conns s') c = vw (s_conns s) c) -> (forall c k, reqs_step c l k = k) -> o = [] ->
      (forall c, view_ok P (reqs_step c l (R c)) (vw (s_conns s') c)) /\ Forall (reply_ok P (fun c => reqs_step c l (R c))) o).
    { intros E1 E2 ->. split; [intros c; rewrite E1, E2; apply I|done]. }
    assert (Upd : forall d x', (forall e, vw (s_conns s') e = vw (<[d := x']> (s_conns s)) e) -> (forall c k, reqs_step c l k = k) ->
      (forall q, q ∈ rest_of x' -> q ∈ R d) -> (forall g, c_fetch x' = Some g -> fetch_ok P (R d) g) ->
      forall c, view_ok P (reqs_step c l (R c)) (vw (s_conns s') c)).
    { intros d x' E1 E2 H1 H2 c. rewrite E1, E2, vw_insert. case_bool_decide as D; [|apply I]. subst. done. }
    assert (Shut : forall d x, s' = close cfg d x s -> (forall c k, reqs_step c l k = k) -> forall c, view_ok P (reqs_step c l (R c)) (vw (s_conns s') c)).
    { intros d x -> E2 c. rewrite E2. unfold close. cbn [s_conns set_conn with_res]. rewrite vw_insert. case_bool_decide as D.
      - cbn. split; [intros q Hq; by apply elem_of_nil in Hq|done].
      - rewrite vw_deliver, vw_insert. by rewrite bool_decide_eq_false_2. }
    destruct l as [e| |d|d|d q off rows|d off rows|d|d i|d fault|d|d|d|d k r|fs n1 n2 n3| | |ok|dt|i|k|d|oe]; unfold next in Hn;
      try (destruct (s_conns s !! d) as [x|] eqn:Ex; [|try done]); try (destruct (At d x Ex) as [A1 A2]).
    - destruct (is_producer_op _); [|done]. injection Hn as <- <-. by apply Same.
    - destruct (s_notifies s); [done|]. injection Hn as <- <-. split; [|constructor]. intros c. specialize (I c). cbn [reqs_step s_conns]. unfold vw in *.
      rewrite lookup_fmap. destruct (s_conns s !! c) as [x|]; [|done]. cbn in *. destruct I as [I1 I2]. split; [|done]. intros q Hq. apply I1. set_solver.
    - done.
    - injection Hn as <- <-. split; [|constructor]. intros c. cbn [reqs_step s_conns set_conn]. rewrite vw_insert. case_bool_decide; [|apply I]. split; [intros q Hq; by apply elem_of_nil in Hq|done].
    - destruct (c_open x); [|done]. destruct (c_fetch x); [done|]. injection Hn as <- <-. split; [by eapply Shut|by repeat constructor].
    - destruct (c_open x); [|done]. destruct (c_fetch x) eqn:Ef; [done|].
      assert (Mono : forall c g, view_ok P (R c) g -> view_ok P (reqs_step c (LReserve d q off rows) (R c)) g).
      { intros c [[f qs]|]; [|done]. cbn. case_bool_decide; [|done]. intros [H1 H2]. split; [intros p Hp; apply elem_of_app; left; by apply H1|].
        intros g Hg. destruct (H2 g Hg) as (G1 & G2 & G3). split; [apply elem_of_app; by left|done]. }
      assert (Mine : q ∈ reqs_step d (LReserve d q off rows) (R d)). { cbn. rewrite bool_decide_eq_true_2 by done. apply elem_of_app. right. by left. }
      destruct (q_max q =? 0) eqn:Eq; [|destruct (can_ask _); cbn [negb] in Hn]; injection Hn as <- <-.
      + split; [intros c; apply Mono, I|by repeat constructor].
      + split; [|constructor]. intros c. cbn [s_conns set_conn]. rewrite vw_insert. case_bool_decide as D; [|apply Mono, I]. subst d.
        split; [intros p Hp; apply (Mono c (Some (None, rest_of x))); [split; [exact A1|done]|exact Hp]|]. intros g [= <-]. split; [exact Mine|]. cbn. apply N.eqb_neq in Eq. split; [lia|].
        exists rows. split; [by eapply Hres|done].
      + split; [intros c; apply Mono, I|]. constructor; [|constructor]. exists q. split; [exact Mine|]. split; [done|]. split; [cbn; lia|by left].
    - destruct (c_open x); [|done]. destruct (c_fetch x) eqn:Ef; [done|]. destruct (c_retry x) as [|q rest] eqn:Er; [done|].
      assert (Hq : q ∈ R d) by (apply A1; set_solver).
      assert (Hrest : forall p, p ∈ c_spawned x ++ c_waiting x ++ rest -> p ∈ R d) by (intros p Hp; apply A1; set_solver).
      destruct (q_max q =? 0) eqn:Eq; [|destruct (can_ask _); cbn [negb] in Hn]; injection Hn as <- <-; (split; [eapply Upd; [done|done|exact Hrest|]|]).
      + done.
      + by repeat constructor.
      + intros g [= <-]. split; [done|]. cbn. apply N.eqb_neq in Eq. split; [lia|]. exists rows. split; [by eapply Hret|done].
      + constructor.
      + done.
      + constructor; [|constructor]. exists q. split; [done|]. split; [done|]. split; [cbn; lia|by left].
    - destruct (c_fetch x) as [[q [|r rows] got [j|]]|] eqn:Ef; try done. destruct (_ <? _) eqn:El; [|done]. destruct (try_reserve _ _ _ _ _) as [[ok res] ns].
      injection Hn as <- <-. split; [|constructor]. eapply Upd; [intros e; apply vw_deliver|done|exact A1|]. intros g [= <-].
      destruct (A2 _ eq_refl) as (G1 & G2 & rs & G3 & G4). apply N.ltb_lt in El. split; [done|]. cbn in *. split; [destruct ok; cbn; lia|]. exists rs. split; [done|].
      destruct ok; cbn; [done|]. etrans; [|exact G4]. apply sublist_app; [done|]. by constructor.
    - destruct (c_fetch x) as [[q rows got j]|] eqn:Ef; [|done]. destruct (rows !! i) as [r|] eqn:Ei; [|done]. destruct (is_reserved _ _ _ _); [|done]. injection Hn as <- <-.
      split; [|constructor]. eapply Upd; [done|done|exact A1|]. intros g [= <-]. destruct (A2 _ eq_refl) as (G1 & G2 & rs & G3 & G4). split; [done|]. split; [done|].
      exists rs. split; [done|]. cbn in *. etrans; [|exact G4]. apply sublist_app; [done|]. apply sublist_app; [done|]. apply sublist_delete.
    - destruct (c_fetch x) as [[q rows got [r|]]|] eqn:Ef; try done. destruct (if fault then None else _) as [sub|].
      + injection Hn as <- <-. split; [|constructor]. eapply Upd; [done|done|exact A1|]. intros g [= <-]. destruct (A2 _ eq_refl) as (G1 & G2 & rs & G3 & G4).
        split; [done|]. cbn in *. rewrite app_length. cbn. split; [lia|]. exists rs. split; [done|]. rewrite fmap_app. cbn. rewrite <- (assoc_L (++)). exact G4.
      + injection Hn as <- <-. split; [by eapply Shut|by repeat constructor].
    - destruct (c_fetch x) as [[q rows got j]|] eqn:Ef; [|done]. injection Hn as <- <-. split; [eapply Upd; [done|done|exact A1|done]|].
      constructor; [|constructor]. destruct (A2 _ eq_refl) as (G1 & _). exists q. split; [done|]. split; [done|]. split; [cbn; lia|by left].
    - destruct (c_fetch x) as [[q rows got [j|]]|] eqn:Ef; try done. destruct (_ || _); [|done]. destruct (A2 _ eq_refl) as (G1 & G2 & rs & G3 & G4). cbn in *.
      destruct got as [|g got]; injection Hn as <- <-.
      + split; [|constructor]. eapply Upd; [done|done| |done]. cbn. intros p Hp. assert (p = q \/ p ∈ rest_of x) as [-> |Hp'] by set_solver; [done|by apply A1].
      + split; [eapply Upd; [done|done|exact A1|done]|]. constructor; [|constructor]. exists q. split; [done|]. split; [done|]. split; [cbn in *; lia|]. right. exists rs. split; [done|].
        etrans; [|exact G4]. apply (sublist_inserts_r rows). done.
    - destruct (c_spawned x) as [|q rest] eqn:Es; [done|]. injection Hn as <- <-. split; [|constructor]. eapply Upd; [done|done| |exact A2]. cbn. intros p Hp. apply A1. set_solver.
    - destruct (c_open x) eqn:Eo; [|done]. destruct (c_fetch x) eqn:Ef; [done|]. injection Hn as <- <-. split; [|constructor]. eapply Upd; [done|done|exact A1|done].
    - destruct (s_phase s); try done. destruct (s_mail s); [done|]. injection Hn as <- <-. by apply Same.
    - destruct (s_phase s); try done. destruct (s_mail s); [done|]. injection Hn as <- <-. by apply Same.
    - destruct (s_phase s) as [|m delayed|]; try done. destruct (finish_reservation _ _ _ _ _) as [[? res] ns]. injection Hn as <- <-. apply Same; [|done|done].
      intros c. cbn [s_conns with_res fst snd]. rewrite vw_deliver. unfold vw. destruct (decide (c = m_conn m)) as [->|D].
      + rewrite lookup_alter. by destruct (s_conns s !! m_conn m).
      + by rewrite lookup_alter_ne by done.
    - destruct (s_phase s); try done. injection Hn as <- <-. by apply Same.
    - injection Hn as <- <-. by apply Same.
    - destruct (_ !! i) as [[k t]|]; [|done]. destruct (_ <=? _); [|done]. injection Hn as <- <-. apply Same; [|done|done]. intros c. apply vw_deliver.
    - destruct (_ !! k); [|done]. destruct (is_live _ _ _); [done|]. injection Hn as <- <-. apply Same; [|done|done]. intros c. apply vw_deliver.
    - destruct (c_fetch x) eqn:Ef; [done|]. destruct (c_rx x) as [|k rest]; [done|]. injection Hn as <- <-. split; [|by repeat constructor]. eapply Upd; [done|done|exact A1|done].
    - injection Hn as <- <-. split; [done|constructor].
  Qed.
End Step.
Lemma searched_mono cfg h now tr tr' q rows : tr `prefix_of` tr' -> searched cfg h now tr q rows -> searched cfg h now tr' q rows.
Proof. intros Hp (tr0 & s0 & off & H1 & H2 & H3). exists tr0, s0, off. split; [by etrans|done]. Qed.
Lemma view_ok_mono (P P' : req -> list chunk -> Prop) R v : (forall q rows, P q rows -> P' q rows) -> view_ok P R v -> view_ok P' R v.
Proof.
  intros H. destruct v as [[f qs]|]; [|done]. intros [H1 H2]. split; [done|]. intros g Hg. destruct (H2 g Hg) as (G1 & G2 & rows & G3 & G4).
  split; [done|]. split; [done|]. exists rows. split; [by apply H|done].
Qed.
Definition found (cfg : config) (h : history) (now : N) (tr : trace) (q : req) (rows : list chunk) : Prop :=
  searched cfg h now tr q rows /\ NoDup ((fun r => cid_of r) <$> rows).
Lemma limit_both cfg h now tr s l s' o : fresh_ids (s_hist s) ->
  run_to cfg anything (server_start h now) tr s -> step_to cfg s l s' o -> (forall c, view_ok (found cfg h now tr) (requests c tr) (vw (s_conns s) c)) ->
  (forall c, view_ok (found cfg h now (tr ++ [(l, o)])) (requests c (tr ++ [(l, o)])) (vw (s_conns s') c)) /\
  Forall (reply_ok (found cfg h now (tr ++ [(l, o)])) (fun c => requests c (tr ++ [(l, o)]))) o.
Proof.
  intros Hf Hr [Ha Hn] I.
  destruct (limit_step cfg (found cfg h now (tr ++ [(l, o)])) (fun c => requests c tr) l s s' o Hn) as [H1 H2].
  - intros c q off rows ->. split; [|by apply (offers_exact _ _ _ _ _ _ Hf Ha)]. exists tr, s, off. split; [by eexists|]. split; [done|]. exact Ha.
  - intros c off rows x q rest -> Hx Hq. destruct Ha as (x' & q' & rest' & Hx' & Hq' & Ha). rewrite Hx in Hx'. injection Hx' as <-. rewrite Hq in Hq'. injection Hq' as <- <-.
    split; [|by apply (offers_exact _ _ _ _ _ _ Hf Ha)]. exists tr, s, off. split; [by eexists|done].
  - intros c. eapply view_ok_mono; [|apply I]. intros q rows [H1 H2]. split; [|done]. eapply searched_mono; [|exact H1]. by eexists.
  - split.
    + intros c. rewrite requests_snoc. apply H1.
    + rewrite Forall_forall in *. intros y Hy. specialize (H2 y Hy). destruct y; try done. cbn in *. by rewrite requests_snoc.
Qed.
Lemma limit_run cfg h now tr s : run_to cfg anything (server_start h now) tr s -> fresh_ids (s_hist s) -> forall c, view_ok (found cfg h now tr) (requests c tr) (vw (s_conns s) c).
Proof.
  induction 1 as [|tr s1 l s2 o Hr IH _ Hst]; intros Hf; [done|]. pose proof Hst as [_ Hn].
  pose proof (fresh_prefix_of _ _ (hist_grows _ _ _ _ _ Hn) Hf) as Hf1. by destruct (limit_both _ _ _ _ _ _ _ _ Hf1 Hr Hst (IH Hf1)).
Qed.

Lemma nodup_sub {A} (l k : list A) : l `sublist_of` k -> NoDup k -> NoDup l.
Proof. intros H%sublist_submseteq. destruct (submseteq_Permutation _ _ H) as [r ->]. by intros [? _]%NoDup_app. Qed.
Lemma fmap_sub {A B} (f : A -> B) (l k : list A) : l `sublist_of` k -> f <$> l `sublist_of` f <$> k.
Proof. induction 1; cbn; by constructor. Qed.

(** ** Theorems *)
(** Whatever goes on meanwhile: a reply carries the number of a request that arrived on the same
    connection, has no more chunks than that request asked for, and no chunk twice. *)
Theorem C115_limit cfg h now tr s l s' o c n got : run_to cfg anything (server_start h now) tr s -> step_to cfg s l s' o -> fresh_ids (s_hist s) ->
  Given c n got ∈ o ->
  NoDup ((fun p => cid_of p.1) <$> got) /\
  exists q, q ∈ requests c (tr ++ [(l, o)]) /\ q_nonce q = n /\ N.of_nat (length got) <= q_max q.
Proof.
  intros Hr Hst Hf Hg. destruct (limit_both _ _ _ _ _ _ _ _ Hf Hr Hst (limit_run _ _ _ _ _ Hr Hf)) as [_ H]. rewrite Forall_forall in H.
  destruct (H _ Hg) as (q & H1 & H2 & H3 & H4). split; [|by exists q]. destruct H4 as [->|(rows & [_ Hnd] & Hs)]; [constructor|].
  eapply nodup_sub; [|exact Hnd].
  change ((fun p : chunk * submission => cid_of p.1) <$> got) with (((fun r => cid_of r) ∘ fst) <$> got). rewrite list_fmap_compose. by apply fmap_sub.
Qed.
Print Assumptions C115_limit.
(** Its chunks are in the order of the strategy of that request, as the database and the in-flight
    counters were at some moment before the reply. *)
Theorem C115_order cfg h now tr s l s' o c n got : run_to cfg anything (server_start h now) tr s -> step_to cfg s l s' o -> fresh_ids (s_hist s) ->
  Given c n got ∈ o -> got <> [] ->
  exists q rows, q ∈ requests c (tr ++ [(l, o)]) /\ q_nonce q = n /\ searched cfg h now (tr ++ [(l, o)]) q rows /\ got.*1 `sublist_of` rows.
Proof.
  intros Hr Hst Hf Hg Hne. destruct (limit_both _ _ _ _ _ _ _ _ Hf Hr Hst (limit_run _ _ _ _ _ Hr Hf)) as [_ H]. rewrite Forall_forall in H.
  destruct (H _ Hg) as (q & H1 & H2 & H3 & [H4|(rows & [H4 _] & H5)]); [done|]. by exists q, rows.
Qed.
Print Assumptions C115_order.
(** While the search of one consumer goes on another one takes the first of its rows: it gets the other two. *)
Example C115_example : exists tr s s' got, run_to ex_cfg anything (server_start ex_srv 0) tr s /\ step_to ex_cfg s (LReply 1) s' [Given 1 77 got] /\
  fresh_ids (s_hist s) /\ ((fun p => cid_of p.1) <$> got) = [(1, 1); (2, 0)] /\ ((fun q => (q_nonce q, q_max q)) <$> requests 1 (tr ++ [(LReply 1, [Given 1 77 got])])) = [(77, 2)].
Proof.
  destruct (by_play ex_cfg (fun _ _ _ => true) anything ex_srv 0
    (does [LConnect 1; LConnect 2] ++ [ask 1 2] ++ get_one 2 ++ does [LRow 1; LRow 1; LJoin 1 false; LRow 1; LJoin 1 false])
    (fun tr s => bool_decide (NoDup (inserted_ids (s_hist s))) && bool_decide (((fun q => (q_nonce q, q_max q)) <$> requests 1 tr) = [(77, 2)]) &&
       match next ex_cfg (LReply 1) s with Some (_, [Given c n got]) => bool_decide (c = 1) && bool_decide (n = 77) && bool_decide (((fun p => cid_of p.1) <$> got) = [(1, 1); (2, 0)]) | _ => false end))
    as (tr & s & Hr & H); [done|by vm_compute|].
  apply andb_true_iff in H as [[H1%bool_decide_eq_true_1 H2%bool_decide_eq_true_1]%andb_true_iff H3].
  destruct (next ex_cfg (LReply 1) s) as [[s' [|[c n got| | |] [|]]]|] eqn:En; try done.
  apply andb_true_iff in H3 as [[->%bool_decide_eq_true_1 ->%bool_decide_eq_true_1]%andb_true_iff H3%bool_decide_eq_true_1].
  exists tr, s, s', got. split; [done|]. split; [by split|]. split; [exact H1|]. split; [done|].
  rewrite requests_snoc. exact H2.
Qed.
