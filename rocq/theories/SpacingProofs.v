(** How often a chunk can be given out when nobody reports on it: once per expiration time. *)
From Verif Require Export ServerFacts.
Local Open Scope N_scope.

(** *** Vocabulary *)
(** The time at which the request that connection [c] makes was received, as seen from the steps
    taken since [t0] ([t0] if it was received before). *)
Definition tick (p : N * gmap N N) (lo : label * list out) : N * gmap N N :=
  match lo.1 with
  | LTime dt => (p.1 + dt, p.2)
  | LReserve c _ _ _ | LRetry c _ _ => (p.1, <[c := p.1]> p.2)
  | _ => p
  end.
Definition asked (t0 : N) (tr : trace) (c : N) : N := default t0 ((foldl tick (t0, ∅) tr).2 !! c).
(** A connection that has ended fetches nothing. *)
Definition idle_closed (s : state) : Prop := forall c x, s_conns s !! c = Some x -> c_open x = false -> c_fetch x = None.
(** No connection has chunk [k], no fetch has reserved it and no report on it is on the way. (An old
    reservation may still be there.) *)
Definition untouched (k : chunk_id) (s : state) : Prop :=
  (forall c x, s_conns s !! c = Some x -> k ∉ c_set x /\ k ∉ fetched x) /\
  (forall m, m ∈ inbox s -> m_chunk m <> k) /\ k ∉ (r_pending (s_res s)).*1 /\ idle_closed s.
(** Nobody reports on chunk [k], no connection that was given it ends, and the server does not crash. *)
Definition calm (cfg : config) (k : chunk_id) (tr : trace) (s : state) (l : label) : Prop :=
  (forall c r, l <> LReport c k r) /\ (forall oe, l <> LCrash oe) /\
  (forall s' o c, next cfg l s = Some (s', o) -> Closed c ∈ o -> k ∉ holding tr c).

Section spacing.
Context (cfg : config) (k : chunk_id) (t0 : N).
Notation ttl := (cf_ttl cfg).
(** The reservations made so far: by whom, when, and whether they have been given out. *)
Notation log := (list (N * N * bool)) (only parsing).
Record J (tr : trace) (s : state) (R : list (N * N * bool)) : Prop := {
  j_clock : (foldl tick (t0, ∅) tr).1 = s_now s;
  j_asked : forall c, asked t0 tr c <= s_now s;
  j_mail : forall m, m ∈ inbox s -> m_chunk m <> k;
  j_pend : k ∉ (r_pending (s_res s)).*1;
  j_set : forall c x, s_conns s !! c = Some x -> c_open x = true -> k ∈ c_set x -> k ∈ holding tr c;
  j_fetch : forall c x, s_conns s !! c = Some x -> k ∈ fetched x -> exists i T, R !! i = Some (c, T, false) /\ asked t0 tr c <= T;
  j_time : forall i c T b, R !! i = Some (c, T, b) -> T <= s_now s;
  j_space : forall i j c T b c' T' b', R !! i = Some (c, T, b) -> R !! j = Some (c', T', b') -> (i < j)%nat -> T + ttl <= T';
  j_last : forall c T b, last R = Some (c, T, b) -> r_entries (s_res s) !! k = Some (Entry c T) \/ T + ttl <= s_now s }.

Lemma idle_set s c x : idle_closed s -> (c_open x = false -> c_fetch x = None) -> idle_closed (set_conn c x s).
Proof. intros H H1 c' x' Hx. cbn in Hx. apply lookup_insert_Some in Hx as [[<- <-]|[_ Hx]]; [done|by eapply H]. Qed.
Lemma idle_keep s s' : idle_closed s -> (forall c x', s_conns s' !! c = Some x' -> exists x, s_conns s !! c = Some x /\ c_open x' = c_open x /\ c_fetch x' = c_fetch x) -> idle_closed s'.
Proof. intros H H1 c x' Hx Ho. destruct (H1 c x' Hx) as (x & Hx0 & E1 & E2). rewrite E2. eapply H; [done|congruence]. Qed.
Lemma idle_step l s s' o : idle_closed s -> next cfg l s = Some (s', o) -> idle_closed s'.
Proof.
  intros H Hn. assert (Hcl : forall c x, idle_closed (close cfg c x s)).
  { intros c x c' y Hy Ho. unfold close in Hy. cbn in Hy. apply lookup_insert_Some in Hy as [[<- <-]|[Hne Hy]]; [done|].
    apply deliver_some in Hy as (z & Hz & rx & ->). rewrite lookup_insert_ne in Hz by done. exact (H _ _ Hz Ho). }
  assert (Hcf : forall c x f, s_conns s !! c = Some x -> c_fetch x = Some f -> c_open x = true).
  { intros c x f Hx Hf. destruct (c_open x) eqn:E; [done|]. specialize (H c x Hx E). congruence. }
  destruct l; unfold next in Hn.
  - destruct (is_producer_op _); [|done]. by injection Hn as <- <-.
  - destruct (s_notifies s); [done|]. injection Hn as <- <-. eapply idle_keep; [exact H|]. cbn. intros c x Hx. rewrite lookup_fmap in Hx. apply fmap_Some in Hx as (y & Hy & ->). by exists y.
  - destruct (s_conns s !! c) eqn:Ec; [done|]. injection Hn as <- <-. by apply idle_set.
  - destruct (s_conns s !! c) as [x|] eqn:Ec; [|done]. destruct (c_open x) eqn:Eo; [|done]. destruct (c_fetch x); [done|]. injection Hn as <- <-. apply Hcl.
  - destruct (s_conns s !! c) as [x|] eqn:Ec; [|done]. destruct (c_open x) eqn:Eo; [|done]. destruct (c_fetch x) eqn:Ef; [done|].
    destruct (q_max q =? 0); [|destruct (can_ask _); cbn [negb] in Hn]; injection Hn as <- <-; [done| |done]. apply idle_set; [done|]. cbn. congruence.
  - destruct (s_conns s !! c) as [x|] eqn:Ec; [|done]. destruct (c_open x) eqn:Eo; [|done]. destruct (c_fetch x) eqn:Ef; [done|].
    destruct (c_retry x) as [|q rest]; [done|]. destruct (q_max q =? 0); [|destruct (can_ask _); cbn [negb] in Hn]; injection Hn as <- <-; apply idle_set; try done; cbn; congruence.
  - destruct (s_conns s !! c) as [x|] eqn:Ec; [|done]. destruct (c_fetch x) as [[q [|r rows] got [?|]]|] eqn:Ef; try done. destruct (_ <? _); [|done].
    destruct (try_reserve ttl (s_now s) (cid_of r) c (s_res s)) as [[ok res] ns]. injection Hn as <- <-. pose proof (Hcf _ _ _ Ec Ef) as Eo.
    eapply (idle_keep (set_conn c (with_fetch (if ok then Some (Fetch q rows got (Some r)) else Some (Fetch q rows got None)) x) s)).
    + apply idle_set; [done|]. cbn. congruence.
    + intros c' y Hy. cbn in Hy. apply deliver_some in Hy as (z & Hz & rx & ->). exists z. split; [|done]. by destruct ok.
  - destruct (s_conns s !! c) as [x|] eqn:Ec; [|done]. destruct (c_fetch x) as [[q rows got j]|] eqn:Ef; [|done]. pose proof (Hcf _ _ _ Ec Ef) as Eo.
    destruct (rows !! i); [|done]. destruct (is_reserved _ _ _ _); [|done]. injection Hn as <- <-. apply idle_set; [done|]. cbn. congruence.
  - destruct (s_conns s !! c) as [x|] eqn:Ec; [|done]. destruct (c_fetch x) as [[q rows got [r|]]|] eqn:Ef; [|done|done]. pose proof (Hcf _ _ _ Ec Ef) as Eo.
    destruct (if fault then None else joined_submission (s_db s) r) as [sub|]; injection Hn as <- <-; [|apply Hcl]. apply idle_set; [done|]. cbn. congruence.
  - destruct (s_conns s !! c) as [x|] eqn:Ec; [|done]. destruct (c_fetch x) as [[q rows got j]|] eqn:Ef; [|done].
    injection Hn as <- <-. by apply idle_set.
  - destruct (s_conns s !! c) as [x|] eqn:Ec; [|done]. destruct (c_fetch x) as [[q rows got [r|]]|] eqn:Ef; [done| |done].
    destruct (_ || _); [|done]. destruct got as [|g got]; injection Hn as <- <-; by apply idle_set.
  - destruct (s_conns s !! c) as [x|] eqn:Ec; [|done]. destruct (c_spawned x) as [|q rest]; [done|]. injection Hn as <- <-. apply idle_set; [done|]. exact (H _ _ Ec).
  - destruct (s_conns s !! c) as [x|] eqn:Ec; [|done]. destruct (c_open x) eqn:Eo; [|done].
    destruct (c_fetch x) eqn:Ef; [done|]. injection Hn as <- <-. apply (idle_set s); done.
  - destruct (s_phase s); [|done|done]. destruct (s_mail s); [done|]. by injection Hn as <- <-.
  - destruct (s_phase s); [|done|done]. destruct (s_mail s); [done|]. by injection Hn as <- <-.
  - destruct (s_phase s) as [|m delayed|]; [done| |done].
    destruct (finish_reservation ttl (s_now s) (m_chunk m) delayed (s_res s)) as [[at_ res] ns]. injection Hn as <- <-.
    eapply idle_keep; [exact H|]. intros c' y Hy. cbn in Hy. apply deliver_some in Hy as (z & Hz & rx & ->).
    apply lookup_alter_Some in Hz as [[<- (w & Hw & ->)]|[_ Hz]]; [by exists w|by exists z].
  - destruct (s_phase s); [done|done|]. by injection Hn as <- <-.
  - by injection Hn as <- <-.
  - destruct (r_pending (s_res s) !! i) as [[k' t]|]; [|done]. destruct (t <=? s_now s); [|done]. rewrite remove_spec in Hn. injection Hn as <- <-.
    eapply idle_keep; [exact H|]. intros c' y Hy. cbn in Hy. apply deliver_some in Hy as (z & Hz & rx & ->). by exists z.
  - destruct (r_entries (s_res s) !! k0) as [e'|] eqn:Ee; [|done]. destruct (is_live ttl (s_now s) e'); [done|]. rewrite remove_spec in Hn. injection Hn as <- <-.
    eapply idle_keep; [exact H|]. intros c' y Hy. cbn in Hy. apply deliver_some in Hy as (z & Hz & rx & ->). by exists z.
  - destruct (s_conns s !! c) as [x|] eqn:Ec; [|done]. destruct (c_fetch x) eqn:Ef; [done|]. destruct (c_rx x) as [|k' rest]; [done|].
    injection Hn as <- <-. by apply idle_set.
  - injection Hn as <- <-. intros c x Hx. cbn in Hx. done.
Qed.
Lemma tick_snoc tr l o : foldl tick (t0, ∅) (tr ++ [(l, o)]) = tick (foldl tick (t0, ∅) tr) (l, o).
Proof. by rewrite foldl_app. Qed.
Lemma hold_keep tr l o c : (forall r, l <> LReport c k r) -> (forall oe, l <> LCrash oe) -> Closed c ∉ o ->
  k ∈ holding tr c -> k ∈ holding (tr ++ [(l, o)]) c.
Proof.
  intros H1 H2 Hc Hk. rewrite holding_snoc. unfold hold_step. cbn [fst snd].
  assert (Hk' : k ∈ match l with LReport c' cid _ => if bool_decide (c' = c) then holding tr c ∖ {[cid]} else holding tr c | LCrash _ => ∅ | _ => holding tr c end).
  { destruct l; try done; [|by destruct (H2 e)]. case_bool_decide; [|done]. subst. rewrite elem_of_difference, elem_of_singleton. split; [done|]. intros ->. by apply (H1 r). }
  revert Hk' Hc. generalize (match l with LReport c' cid _ => if bool_decide (c' = c) then holding tr c ∖ {[cid]} else holding tr c | LCrash _ => ∅ | _ => holding tr c end).
  induction o as [|a o IH]; intros X HX Hc; [done|]. cbn. apply IH; [|set_solver]. destruct a; cbn; try done.
  - case_bool_decide; [|done]. set_solver.
  - case_bool_decide; [|done]. subst. exfalso. apply Hc. left.
Qed.
Lemma asked_same tr l o c : (forall q off rows, l <> LReserve c q off rows) -> (forall off rows, l <> LRetry c off rows) ->
  asked t0 (tr ++ [(l, o)]) c = asked t0 tr c.
Proof.
  intros H1 H2. unfold asked. rewrite tick_snoc. destruct l; cbn; try done.
  - rewrite lookup_insert_ne; [done|]. intros ->. by eapply H1.
  - rewrite lookup_insert_ne; [done|]. intros ->. by eapply H2.
Qed.
Lemma clock_step tr l o s s' : (forall oe, l <> LCrash oe) -> next cfg l s = Some (s', o) ->
  (foldl tick (t0, ∅) tr).1 = s_now s -> (foldl tick (t0, ∅) (tr ++ [(l, o)])).1 = s_now s'.
Proof.
  intros Hc Hn E. rewrite tick_snoc. destruct l; unfold next in Hn; repeat case_match; simplify_eq; cbn; rewrite ?E; try done; by destruct (Hc e).
Qed.
Lemma asked_step tr l o s s' c : (forall oe, l <> LCrash oe) -> next cfg l s = Some (s', o) ->
  (foldl tick (t0, ∅) tr).1 = s_now s -> asked t0 tr c <= s_now s -> asked t0 (tr ++ [(l, o)]) c <= s_now s'.
Proof.
  intros Hc Hn E Ha. pose proof (next_now _ _ _ _ _ Hn) as Hle. unfold asked in *. rewrite tick_snoc. destruct l; cbn; try (by etrans).
  - destruct (decide (c0 = c)) as [->|Hne]; [rewrite lookup_insert; cbn; lia|rewrite lookup_insert_ne by done; lia].
  - destruct (decide (c0 = c)) as [->|Hne]; [rewrite lookup_insert; cbn; lia|rewrite lookup_insert_ne by done; lia].
Qed.

(** A step that makes no new reservation of [k] and gives [k] to nobody. *)
Definition from_old (l : label) (s : state) (c : N) (x' : peer) : Prop :=
  ((c_open x' = true -> k ∉ c_set x') /\ k ∉ fetched x') \/
  exists x, s_conns s !! c = Some x /\ (c_open x' = true -> k ∈ c_set x' -> c_open x = true /\ k ∈ c_set x) /\
    (k ∈ fetched x' -> k ∈ fetched x /\ (forall q off rows, l <> LReserve c q off rows) /\ (forall off rows, l <> LRetry c off rows)).
Lemma J_boring tr l o s s' R : J tr s R -> calm cfg k tr s l -> next cfg l s = Some (s', o) ->
  (r_entries (s_res s') !! k = r_entries (s_res s) !! k \/ (forall e, r_entries (s_res s) !! k = Some e -> e_at e + ttl <= s_now s')) ->
  k ∉ (r_pending (s_res s')).*1 -> (forall m, m ∈ inbox s' -> m_chunk m <> k) ->
  (forall c x', s_conns s' !! c = Some x' -> Closed c ∈ o -> c_open x' = false) ->
  (forall c x', s_conns s' !! c = Some x' -> from_old l s c x') ->
  J (tr ++ [(l, o)]) s' R.
Proof.
  intros HJ (C1 & C2 & C3) Hn He Hp Hm Hcl Hold. pose proof (next_now _ _ _ _ _ Hn) as Hle. destruct HJ. constructor; try done.
  - by eapply clock_step.
  - intros c. by eapply asked_step.
  - intros c x' Hx Ho Hk. destruct (Hold c x' Hx) as [[H1 _]|(x & Hx0 & H1 & _)]; [by destruct (H1 Ho)|].
    destruct (H1 Ho Hk) as [Ho' Hk']. apply hold_keep; [done|done| |by eapply j_set0]. intros Hc. specialize (Hcl c x' Hx Hc). congruence.
  - intros c x' Hx Hk. destruct (Hold c x' Hx) as [[_ H1]|(x & Hx0 & _ & H1)]; [done|]. destruct (H1 Hk) as (Hk' & H2 & H3).
    rewrite asked_same by done. by eapply j_fetch0.
  - intros i c T b Hi. specialize (j_time0 i c T b Hi). lia.
  - intros c T b Hl. destruct (j_last0 c T b Hl) as [H1|H1]; [|right; lia]. destruct He as [He|He]; [left; congruence|]. right. exact (He _ H1).
Qed.

Definition ext (R R' : list (N * N * bool)) : Prop :=
  forall i c T b, R !! i = Some (c, T, b) -> exists b', R' !! i = Some (c, T, b') /\ (b = true -> b' = true).
Lemma ext_refl R : ext R R.
Proof. intros i c T b H. eauto. Qed.
Lemma ext_trans R1 R2 R3 : ext R1 R2 -> ext R2 R3 -> ext R1 R3.
Proof. intros H1 H2 i c T b H. destruct (H1 _ _ _ _ H) as (b' & Hb & ?). destruct (H2 _ _ _ _ Hb) as (b'' & ? & ?). eauto. Qed.
Definition consume (c : N) (R : list (N * N * bool)) : list (N * N * bool) :=
  (fun r => (r.1.1, r.1.2, bool_decide (r.1.1 = c) || r.2)) <$> R.
Lemma consume_lookup c R i c' T b' : consume c R !! i = Some (c', T, b') ->
  exists b, R !! i = Some (c', T, b) /\ b' = bool_decide (c' = c) || b.
Proof.
  unfold consume. rewrite list_lookup_fmap. destruct (R !! i) as [[[c1 T1] b]|]; [|done]. cbn. intros [= <- <- <-]. eauto.
Qed.
Lemma lookup_consume c R i c' T b : R !! i = Some (c', T, b) -> consume c R !! i = Some (c', T, bool_decide (c' = c) || b).
Proof. intros H. unfold consume. rewrite list_lookup_fmap, H. done. Qed.
Lemma ext_consume c R : ext R (consume c R).
Proof. intros i c' T b H. eexists. split; [by apply lookup_consume|]. intros ->. apply orb_true_r. Qed.
Lemma ext_snoc R r : ext R (R ++ [r]).
Proof. intros i c T b H. exists b. split; [|done]. by apply lookup_app_l_Some. Qed.

Definition gives_logged (tr : trace) (R R' : list (N * N * bool)) (o : list out) : Prop :=
  forall c n g, Given c n g ∈ o -> k ∈ ids_of g ->
    exists i T, R !! i = Some (c, T, false) /\ asked t0 tr c <= T /\ R' !! i = Some (c, T, true).
Lemma no_gives tr R R' o : (forall c n g, Given c n g ∉ o) -> gives_logged tr R R' o.
Proof. intros H c n g Hin. by destruct (H c n g). Qed.
Ltac nogive := intros ? ? ? Hg; first [by apply elem_of_nil in Hg | apply elem_of_list_singleton in Hg; first [discriminate Hg|injection Hg as -> -> ->; unfold ids_of; set_solver]].

Lemma J_reserve tr s R c x q r rows got : J tr s R -> calm cfg k tr s (LRow c) ->
  s_conns s !! c = Some x -> c_fetch x = Some (Fetch q (r :: rows) got None) -> cid_of r = k -> get_live ttl (s_now s) k (s_res s) = None ->
  forall s', next cfg (LRow c) s = Some (s', []) -> J (tr ++ [(LRow c, [])]) s' (R ++ [(c, s_now s, false)]).
Proof.
  intros HJ (C1 & C2 & C3) Hc Hf Hr Hg s' Hn.
  assert (Eclock := clock_step tr (LRow c) [] s s' C2 Hn (j_clock _ _ _ HJ)).
  assert (Easked := fun c' => asked_step tr (LRow c) [] s s' c' C2 Hn (j_clock _ _ _ HJ) (j_asked _ _ _ HJ c')).
  assert (Hpast : forall i c' T b, R !! i = Some (c', T, b) -> T + ttl <= s_now s).
  { assert (Hl : forall c' T b, last R = Some (c', T, b) -> T + ttl <= s_now s).
    { intros c' T b Hl. destruct (j_last _ _ _ HJ _ _ _ Hl) as [He|?]; [|done]. unfold get_live in Hg. rewrite He in Hg. unfold is_live in Hg. cbn in Hg.
      destruct (s_now s <? T + ttl) eqn:E; [done|]. by apply N.ltb_ge in E. }
    intros i c' T b Hi. destruct (last R) as [[[c1 T1] b1]|] eqn:El; [|apply last_None in El as ->; done].
    specialize (Hl _ _ _ eq_refl). rewrite last_lookup in El. destruct (decide (i = pred (length R))) as [->|Hne]; [congruence|].
    assert (i < pred (length R))%nat by (apply lookup_lt_Some in Hi; lia). pose proof (j_space _ _ _ HJ _ _ _ _ _ _ _ _ Hi El ltac:(done)) as H1. lia. }
  cbn [next] in Hn. rewrite Hc, Hf in Hn. destruct (_ <? _); [|done]. unfold try_reserve in Hn. rewrite Hr, Hg in Hn. injection Hn as <-.
  destruct HJ. constructor; cbn in *.
  - done.
  - done.
  - done.
  - done.
  - intros c' x' Hx Ho Hk. apply hold_keep; [done|done|by apply not_elem_of_nil|].
    apply deliver_some in Hx as (z & Hz & rx & ->). cbn in *. apply lookup_insert_Some in Hz as [[<- <-]|[_ Hz]]; [|by eapply j_set0]. cbn in *. by eapply j_set0.
  - intros c' x' Hx Hk. rewrite asked_same by done. apply deliver_some in Hx as (z & Hz & rx & ->). apply lookup_insert_Some in Hz as [[<- <-]|[_ Hz]].
    + exists (length R), (s_now s). rewrite lookup_app_r, Nat.sub_diag by done. split; [done|]. apply j_asked0.
    + destruct (j_fetch0 _ _ Hz Hk) as (i & T & Hi & HT). exists i, T. split; [|done]. by apply lookup_app_l_Some.
  - intros i c' T b Hi. apply lookup_app_Some in Hi as [Hi|[_ Hi]]; [by eapply j_time0|]. apply list_lookup_singleton_Some in Hi as [_ [= <- <- <-]]. done.
  - intros i j c1 T1 b1 c2 T2 b2 Hi Hj Hlt. apply lookup_app_Some in Hj as [Hj|[Hj1 Hj2]].
    + apply lookup_app_Some in Hi as [Hi|[Hi1 Hi2]]; [by eapply j_space0|]. apply lookup_lt_Some in Hj. lia.
    + apply list_lookup_singleton_Some in Hj2 as [Hj2 [= <- <- <-]]. apply lookup_app_Some in Hi as [Hi|[Hi1 Hi2]]; [by eapply Hpast|]. lia.
  - intros c' T b Hl. rewrite last_snoc in Hl. injection Hl as <- <- <-. left. by rewrite lookup_insert.
Qed.

Lemma J_give tr s R c x q rows got n : J tr s R -> calm cfg k tr s (LReply c) ->
  s_conns s !! c = Some x -> c_fetch x = Some (Fetch q rows got None) ->
  forall s', s' = set_conn c (Peer (c_open x) (c_set x ∪ list_to_set ((fun p => cid_of p.1) <$> got)) (c_rx x) None (c_spawned x) (c_waiting x) (c_retry x)) s ->
  next cfg (LReply c) s = Some (s', [Given c n got]) ->
  J (tr ++ [(LReply c, [Given c n got])]) s' (consume c R) /\ gives_logged tr R (consume c R) [Given c n got].
Proof.
  intros HJ (C1 & C2 & C3) Hc Hf s' Es Hn.
  assert (Eclock := clock_step tr _ _ s s' C2 Hn (j_clock _ _ _ HJ)).
  assert (Easked := fun c' => asked_step tr _ _ s s' c' C2 Hn (j_clock _ _ _ HJ) (j_asked _ _ _ HJ c')). clear Hn. subst s'.
  destruct HJ. split; [constructor; cbn in *|].
  - done.
  - done.
  - done.
  - done.
  - intros c' x' [[<- <-]|[Hne Hx]]%lookup_insert_Some Ho Hk; cbn in *.
    + apply elem_of_union in Hk as [Hk|Hk].
      * apply hold_keep; [done|done| |by eapply j_set0]. intros Hin. apply elem_of_list_singleton in Hin. discriminate Hin.
      * rewrite holding_snoc. unfold hold_step. cbn. rewrite bool_decide_eq_true_2 by done. apply elem_of_union. by right.
    + apply hold_keep; [done|done| |by eapply j_set0]. intros Hin. apply elem_of_list_singleton in Hin. discriminate Hin.
  - intros c' x' [[<- <-]|[Hne Hx]]%lookup_insert_Some Hk; cbn in *; [by apply elem_of_nil in Hk|]. rewrite asked_same by done.
    destruct (j_fetch0 _ _ Hx Hk) as (i & T & Hi & HT). exists i, T. split; [|done]. rewrite (lookup_consume c _ _ _ _ _ Hi), bool_decide_eq_false_2 by congruence. done.
  - intros i c' T b (b0 & Hi & _)%consume_lookup. by eapply j_time0.
  - intros i j c1 T1 b1 c2 T2 b2 (b3 & Hi & _)%consume_lookup (b4 & Hj & _)%consume_lookup. by eapply j_space0.
  - intros c' T b Hl. rewrite last_lookup in Hl. apply consume_lookup in Hl as (b0 & Hl & _). unfold consume in Hl. rewrite fmap_length in Hl. rewrite <- last_lookup in Hl. by eapply j_last0.
  - intros c' n' g Hin Hk. apply elem_of_list_singleton in Hin. injection Hin as -> -> ->.
    assert (Hkf : k ∈ fetched x). { rewrite (fetched_some _ _ _ _ _ Hf), app_nil_r. unfold ids_of in Hk. by apply elem_of_list_to_set in Hk. }
    destruct (j_fetch0 _ _ Hc Hkf) as (i & T & Hi & HT). exists i, T. split; [done|]. split; [done|]. rewrite (lookup_consume c _ _ _ _ _ Hi), bool_decide_eq_true_2 by done. done.
Qed.

Lemma old_conn l s c x x' : s_conns s !! c = Some x ->
  ((c_open x' = true -> k ∈ c_set x' -> c_open x = true /\ k ∈ c_set x)) ->
  (k ∈ fetched x' -> k ∈ fetched x /\ (forall q off rows, l <> LReserve c q off rows) /\ (forall off rows, l <> LRetry c off rows)) ->
  forall c' y, <[c := x']> (s_conns s) !! c' = Some y ->
  (forall c'' q off rows, l = LReserve c'' q off rows -> c'' = c) -> (forall c'' off rows, l = LRetry c'' off rows -> c'' = c) -> from_old l s c' y.
Proof.
  intros Hx H1 H2 c' y [[<- <-]|[Hne Hy]]%lookup_insert_Some H3 H4; right; [by exists x|]. exists y. split; [done|]. split; [done|].
  intros Hk. split; [done|]. split; [intros q off rows E|intros off rows E]; [apply H3 in E|apply H4 in E]; congruence.
Qed.
Lemma same_conn l s c y : s_conns s !! c = Some y -> (forall c'' q off rows, l <> LReserve c'' q off rows) -> (forall c'' off rows, l <> LRetry c'' off rows) -> from_old l s c y.
Proof. intros Hy H1 H2. right. exists y. split; [done|]. split; [done|]. intros Hk. split; [done|]. split; [apply H1|apply H2]. Qed.

(** A connection ends. *)
Lemma J_close tr l s R c x : J tr s R -> calm cfg k tr s l -> s_conns s !! c = Some x -> (c_open x = true -> k ∉ c_set x) -> c_open x = true ->
  (forall c'' q off rows, l <> LReserve c'' q off rows) -> (forall c'' off rows, l <> LRetry c'' off rows) ->
  next cfg l s = Some (close cfg c x s, [Closed c]) -> J (tr ++ [(l, [Closed c])]) (close cfg c x s) R.
Proof.
  intros HJ Hcalm Hx Hk Ho L1 L2 Hn. eapply J_boring; [exact HJ|exact Hcalm|exact Hn| | | | |].
  - left. rewrite close_entries. rewrite bool_decide_eq_false_2; [done|auto].
  - rewrite close_pending. apply (j_pend _ _ _ HJ).
  - exact (j_mail _ _ _ HJ).
  - intros c' x' Hx' Hin. apply elem_of_list_singleton in Hin. injection Hin as ->. rewrite close_conn in Hx'. by injection Hx' as <-.
  - intros c' y Hy. unfold close in Hy. cbn in Hy. apply lookup_insert_Some in Hy as [[<- <-]|[Hne Hy]]; [left; cbn; split; [done|by apply not_elem_of_nil]|].
    apply deliver_some in Hy as (z & Hz & rx & ->). rewrite lookup_insert_ne in Hz by done. right. exists z. split; [done|]. split; [done|]. intros Hf. split; [done|]. split; [apply L1|apply L2].
Qed.

Lemma J_step tr s l s' o R : idle_closed s -> J tr s R -> calm cfg k tr s l -> step_to cfg s l s' o ->
  exists R', ext R R' /\ J (tr ++ [(l, o)]) s' R' /\ gives_logged tr R R' o.
Proof.
  intros HI HJ Hcalm [_ Hn]. pose proof Hcalm as (C1 & C2 & C3). pose proof HJ as [J1 J2 J3 J4 J5 J6 J7 J8 J9].
  pose proof (fun c => C3 s' o c Hn) as Hcl. clear C3.
  assert (Hboring : (forall c n g, Given c n g ∈ o -> k ∉ ids_of g) -> J (tr ++ [(l, o)]) s' R -> exists R', ext R R' /\ J (tr ++ [(l, o)]) s' R' /\ gives_logged tr R R' o).
  { intros H1 H2. exists R. split; [apply ext_refl|]. split; [done|]. intros c n g Hin Hk. by destruct (H1 c n g Hin). }
  assert (Hsc : forall c y, s_conns s !! c = Some y -> (forall c'' q off rows, l <> LReserve c'' q off rows) -> (forall c'' off rows, l <> LRetry c'' off rows) -> from_old l s c y) by (intros; by apply same_conn).
  assert (Hnc : forall c : N, Closed c ∈ ([] : list out) -> False) by (intros c Hin; by apply elem_of_nil in Hin).
  pose proof Hn as Hn0. destruct l; unfold next in Hn.
  - (* LProducer *) destruct (is_producer_op _); [|done]. injection Hn as <- <-. apply Hboring; [nogive|]. eapply J_boring; try done; [by left|..].
    + intros c x' _ H. by apply Hnc in H.
    + intros c x' Hx. by apply Hsc.
  - (* LNotify *) destruct (s_notifies s) as [|n]; [done|]. injection Hn as <- <-. apply Hboring; [nogive|]. eapply J_boring; try done; [by left|..].
    + intros c x' _ H. by apply Hnc in H.
    + intros c x Hx. cbn in Hx. rewrite lookup_fmap in Hx. apply fmap_Some in Hx as (y & Hy & ->). right. exists y. done.
  - (* LConnect *) destruct (s_conns s !! c) eqn:Ec; [done|]. injection Hn as <- <-. apply Hboring; [nogive|]. eapply J_boring; try done; [by left|..].
    + intros c' x' _ H. by apply Hnc in H.
    + intros c' x Hx. cbn in Hx. apply lookup_insert_Some in Hx as [[<- <-]|[Hne Hx]]; [|by apply Hsc]. left. cbn. split; [set_solver|by apply not_elem_of_nil].
  - (* LDisconnect *) destruct (s_conns s !! c) as [x|] eqn:Ec; [|done]. destruct (c_open x) eqn:Eo; [|done].
    destruct (c_fetch x); [done|]. injection Hn as <- <-. apply Hboring; [nogive|]. eapply J_close; try done.
    intros _ Hk. apply (Hcl c); [left|]. by eapply J5.
  - (* LReserve *) destruct (s_conns s !! c) as [x|] eqn:Ec; [|done]. destruct (c_open x) eqn:Eo; [|done].
    destruct (c_fetch x) eqn:Ef; [done|]. destruct (q_max q =? 0); [|destruct (can_ask _); cbn [negb] in Hn]; injection Hn as <- <-; (apply Hboring; [nogive|]); eapply J_boring; try done; try (by left).
    + intros c' x' _ H. apply elem_of_list_singleton in H. discriminate H.
    + intros c' y Hy. destruct (decide (c' = c)) as [->|Hne]; [|right; exists y; split; [done|]; split; [done|]; intros Hk; split; [done|]; split; [intros ? ? ? [= <-]; congruence|done]].
      assert (y = x) by congruence. subst y. right. exists x. split; [done|]. split; [done|]. unfold fetched. rewrite Ef. intros Hk. by apply elem_of_nil in Hk.
    + intros c' x' _ H. by apply Hnc in H.
    + intros c' y Hy. cbn in Hy; refine (old_conn _ _ c _ _ Ec _ _ _ _ Hy _ _); try done.
      * unfold fetched at 1. cbn. rewrite ?Ef. intros Hk. by apply elem_of_nil in Hk.
      * by intros ? ? ? ? [= <-].
    + intros c' x' _ H. apply elem_of_list_singleton in H. discriminate H.
    + intros c' y Hy. destruct (decide (c' = c)) as [->|Hne]; [|right; exists y; split; [done|]; split; [done|]; intros Hk; split; [done|]; split; [intros ? ? ? [= <-]; congruence|done]].
      assert (y = x) by congruence. subst y. right. exists x. split; [done|]. split; [done|]. unfold fetched. rewrite Ef. intros Hk. by apply elem_of_nil in Hk.
  - (* LRetry *) destruct (s_conns s !! c) as [x|] eqn:Ec; [|done]. destruct (c_open x) eqn:Eo; [|done].
    destruct (c_fetch x) eqn:Ef; [done|]. destruct (c_retry x) as [|q rest]; [done|]. destruct (q_max q =? 0); [|destruct (can_ask _); cbn [negb] in Hn]; injection Hn as <- <-; (apply Hboring; [nogive|]); eapply J_boring; try done; try (by left).
    + intros c' x' _ H. apply elem_of_list_singleton in H. discriminate H.
    + intros c' y Hy. cbn in Hy; refine (old_conn _ _ c _ _ Ec _ _ _ _ Hy _ _); try done.
      * unfold fetched at 1. cbn. rewrite ?Ef. intros Hk. by apply elem_of_nil in Hk.
      * by intros ? ? ? [= <-].
    + intros c' x' _ H. by apply Hnc in H.
    + intros c' y Hy. cbn in Hy; refine (old_conn _ _ c _ _ Ec _ _ _ _ Hy _ _); try done.
      * unfold fetched at 1. cbn. rewrite ?Ef. intros Hk. by apply elem_of_nil in Hk.
      * by intros ? ? ? [= <-].
    + intros c' x' _ H. apply elem_of_list_singleton in H. discriminate H.
    + intros c' y Hy. cbn in Hy; refine (old_conn _ _ c _ _ Ec _ _ _ _ Hy _ _); try done.
      * unfold fetched at 1. cbn. rewrite ?Ef. intros Hk. by apply elem_of_nil in Hk.
      * by intros ? ? ? [= <-].
  - (* LRow *) destruct (s_conns s !! c) as [x|] eqn:Ec; [|done].
    destruct (c_fetch x) as [[q [|r rows] got [?|]]|] eqn:Ef; try done. destruct (_ <? _) eqn:Elt; [|done].
    destruct (try_reserve ttl (s_now s) (cid_of r) c (s_res s)) as [[ok res] ns] eqn:Er. injection Hn as <- <-.
    unfold try_reserve in Er. destruct (get_live ttl (s_now s) (cid_of r) (s_res s)) as [e'|] eqn:Eg; injection Er as <- <- <-.
    + apply Hboring; [nogive|]. eapply J_boring; try done; try (by left).
      * intros c' x' _ H. by apply Hnc in H.
      * intros c' y Hy. cbn in Hy. cbn in Hy; refine (old_conn _ _ c _ _ Ec _ _ _ _ Hy _ _); try done. rewrite (fetched_some _ _ _ _ _ Ef). cbn. done.
    + destruct (decide (cid_of r = k)) as [Hk|Hne].
      * exists (R ++ [(c, s_now s, false)]). split; [apply ext_snoc|]. split; [|apply no_gives; intros c' n g Hin; by apply elem_of_nil in Hin].
        eapply J_reserve; try done. by rewrite Hk in Eg.
      * apply Hboring; [nogive|]. eapply J_boring; try done.
        -- left. cbn. by rewrite lookup_insert_ne.
        -- intros c' x' _ H. by apply Hnc in H.
        -- intros c' y Hy. cbn in Hy. apply deliver_some in Hy as (z & Hz & rx & ->).
           assert (Ho : from_old (LRow c) s c' z).
           { refine (old_conn _ _ c _ _ Ec _ _ _ _ Hz _ _); try done. rewrite (fetched_some _ _ _ _ _ Ef). cbn. rewrite app_nil_r. intros Hin. apply elem_of_app in Hin as [Hin|Hin]; [done|]. apply elem_of_list_singleton in Hin. congruence. }
           exact Ho.
  - (* LSkip *) destruct (s_conns s !! c) as [x|] eqn:Ec; [|done]. destruct (c_fetch x) as [[q rows got j]|] eqn:Ef; [|done].
    destruct (rows !! i); [|done]. destruct (is_reserved _ _ _ _); [|done]. injection Hn as <- <-. apply Hboring; [nogive|]. eapply J_boring; try done; [by left|..].
    + intros c' x' _ H. by apply Hnc in H.
    + intros c' y Hy. cbn in Hy; refine (old_conn _ _ c _ _ Ec _ _ _ _ Hy _ _); try done. rewrite (fetched_some _ _ _ _ _ Ef). cbn. done.
  - (* LJoin *) destruct (s_conns s !! c) as [x|] eqn:Ec; [|done]. destruct (c_fetch x) as [[q rows got [r|]]|] eqn:Ef; [|done|done].
    destruct (if fault then None else joined_submission (s_db s) r) as [sub|] eqn:Ej; injection Hn as <- <-; (apply Hboring; [nogive|]).
    + eapply J_boring; try done; [by left|..].
      * intros c' x' _ H. by apply Hnc in H.
      * intros c' y Hy. cbn in Hy; refine (old_conn _ _ c _ _ Ec _ _ _ _ Hy _ _); try done. rewrite (fetched_some _ _ _ _ _ Ef). cbn. rewrite fmap_app, app_nil_r. done.
    + destruct (c_open x) eqn:Eo; [eapply J_close; try done; intros _ Hk; apply (Hcl c); [left|]; by eapply J5|].
      exfalso. specialize (HI c x Ec Eo). congruence.
  - (* LFetchError *) destruct (s_conns s !! c) as [x|] eqn:Ec; [|done]. destruct (c_fetch x) as [[q rows got j]|] eqn:Ef; [|done].
    injection Hn as <- <-. apply Hboring.
    { intros c' n g Hin. apply elem_of_list_singleton in Hin. injection Hin as -> -> ->. unfold ids_of. cbn. set_solver. }
    eapply J_boring; try done; [by left|..].
    + intros c' x' _ H. apply elem_of_list_singleton in H. discriminate H.
    + intros c' y Hy. cbn in Hy; refine (old_conn _ _ c _ _ Ec _ _ _ _ Hy _ _); try done. cbn. intros Hk. by apply elem_of_nil in Hk.
  - (* LReply *) destruct (s_conns s !! c) as [x|] eqn:Ec; [|done]. destruct (c_fetch x) as [[q rows got [r|]]|] eqn:Ef; [done| |done].
    destruct (_ || _) eqn:Eend; [|done]. destruct got as [|g got]; injection Hn as <- <-.
    + apply Hboring; [nogive|]. eapply J_boring; try done; [by left|..].
      * intros c' x' _ H. by apply Hnc in H.
      * intros c' y Hy. cbn in Hy; refine (old_conn _ _ c _ _ Ec _ _ _ _ Hy _ _); try done. cbn. intros Hk. by apply elem_of_nil in Hk.
    + exists (consume c R). split; [apply ext_consume|]. eapply J_give; try done.
  - (* LRegister *) destruct (s_conns s !! c) as [x|] eqn:Ec; [|done]. destruct (c_spawned x) as [|q rest]; [done|]. injection Hn as <- <-. apply Hboring; [nogive|].
    eapply J_boring; try done; [by left|..].
    + intros c' x' _ H. by apply Hnc in H.
    + intros c' y Hy. cbn in Hy; refine (old_conn _ _ c _ _ Ec _ _ _ _ Hy _ _); try done.
  - (* LReport *) destruct (s_conns s !! c) as [x|] eqn:Ec; [|done]. destruct (c_open x) eqn:Eo; [|done].
    destruct (c_fetch x) eqn:Ef; [done|]. injection Hn as <- <-. apply Hboring; [nogive|]. eapply J_boring; try done; [by left|..].
    + intros m Hm. unfold inbox in Hm. cbn in Hm. rewrite app_assoc in Hm. apply elem_of_app in Hm as [Hm|Hm]; [by apply J3|].
      apply elem_of_list_singleton in Hm as ->. cbn. intros ->. by apply (C1 c r).
    + intros c' x' _ H. by apply Hnc in H.
    + intros c' y Hy. cbn in Hy; refine (old_conn _ _ c _ _ Ec _ _ _ _ Hy _ _); try done. cbn. intros Hk. by apply elem_of_nil in Hk.
  - (* LWrite *) destruct (s_phase s) eqn:Ep; [|done|done]. destruct (s_mail s) as [|m rest] eqn:Em; [done|]. injection Hn as <- <-. apply Hboring; [nogive|].
    eapply J_boring; try done; [by left|..].
    + intros m' Hm. apply J3. unfold inbox in *. cbn in Hm. rewrite Ep, Em. done.
    + intros c' x' _ H. by apply Hnc in H.
    + intros c' y Hy. by apply Hsc.
  - (* LLost *) destruct (s_phase s) eqn:Ep; [|done|done]. destruct (s_mail s) as [|m rest] eqn:Em; [done|]. injection Hn as <- <-. apply Hboring; [nogive|].
    eapply J_boring; try done; [by left|..].
    + intros m' Hm. apply J3. unfold inbox in *. cbn in Hm. rewrite Ep, Em. cbn. by right.
    + intros c' x' _ H. by apply Hnc in H.
    + intros c' y Hy. by apply Hsc.
  - (* LFinish *) destruct (s_phase s) as [|m delayed|] eqn:Ep; [done| |done].
    assert (Hm : m_chunk m <> k) by (apply J3; unfold inbox; rewrite Ep; left).
    destruct (finish_reservation ttl (s_now s) (m_chunk m) delayed (s_res s)) as [[at_ res] ns] eqn:Er. injection Hn as <- <-. apply Hboring; [nogive|].
    assert (Hres : r_entries res !! k = r_entries (s_res s) !! k /\ k ∉ (r_pending res).*1).
    { unfold finish_reservation in Er. destruct (get_live ttl (s_now s) (m_chunk m) (s_res s)); [|by injection Er as <- <- <-].
      destruct delayed.
      - injection Er as <- <- <-. cbn. split; [done|]. rewrite fmap_app, not_elem_of_app. split; [done|]. cbn. rewrite elem_of_list_singleton. congruence.
      - rewrite remove_spec in Er. injection Er as <- <- <-. cbn. by rewrite lookup_delete_ne. }
    destruct Hres as [R1 R2]. eapply J_boring; try done; [by left|..].
    + intros m' Hm'. apply J3. unfold inbox in *. cbn in Hm'. rewrite Ep. cbn. by right.
    + intros c' x' _ H. by apply Hnc in H.
    + intros c' y Hy. cbn in Hy. apply deliver_some in Hy as (z & Hz & rx & ->).
      apply lookup_alter_Some in Hz as [[<- (w & Hw & ->)]|[_ Hz]]; [|by apply (Hsc _ _ Hz)]. right. exists w. split; [done|]. cbn. split; [|done]. intros H1 H2. split; [done|]. by apply elem_of_difference in H2 as [H2 _].
  - (* LCounters *) destruct (s_phase s) as [| |m] eqn:Ep; [done|done|]. injection Hn as <- <-. apply Hboring; [nogive|].
    eapply J_boring; try done; [by left|..].
    + intros m' Hm. apply J3. unfold inbox in *. cbn in Hm. rewrite Ep. done.
    + intros c' x' _ H. by apply Hnc in H.
    + intros c' y Hy. by apply Hsc.
  - (* LTime *) injection Hn as <- <-. apply Hboring; [nogive|]. eapply J_boring; try done; [by left|..].
    + intros c' x' _ H. by apply Hnc in H.
    + intros c' y Hy. by apply Hsc.
  - (* LPurge *) destruct (r_pending (s_res s) !! i) as [[k' t]|] eqn:Ep; [|done]. destruct (t <=? s_now s) eqn:El; [|done]. rewrite remove_spec in Hn. injection Hn as <- <-. apply Hboring; [nogive|].
    apply elem_of_list_lookup_2 in Ep as Hin.
    assert (k' <> k) by (intros ->; apply J4; apply elem_of_list_fmap; by exists (k, t)).
    eapply J_boring; try done.
    + left. cbn. by rewrite lookup_delete_ne.
    + cbn. intros Hk. apply J4. apply elem_of_list_fmap in Hk as ([k1 t1] & -> & Hk). apply elem_of_list_fmap. exists (k1, t1). split; [done|].
      eapply elem_of_submseteq; [exact Hk|]. apply sublist_submseteq, sublist_delete.
    + intros c' x' _ H1. by apply Hnc in H1.
    + intros c' y Hy. cbn in Hy. apply deliver_some in Hy as (z & Hz & rx & ->). by apply (Hsc _ _ Hz).
  - (* LEvict *) destruct (r_entries (s_res s) !! k0) as [e'|] eqn:Ee; [|done]. destruct (is_live ttl (s_now s) e') eqn:El; [done|].
    rewrite remove_spec in Hn. injection Hn as <- <-. apply Hboring; [nogive|]. eapply J_boring; try done.
    + destruct (decide (k0 = k)) as [->|Hne]; [|left; cbn; by rewrite lookup_delete_ne].
      right. intros e He. assert (e = e') by congruence. subst e. unfold is_live in El. apply N.ltb_ge in El. exact El.
    + intros c' x' _ H1. by apply Hnc in H1.
    + intros c' y Hy. cbn in Hy. apply deliver_some in Hy as (z & Hz & rx & ->). by apply (Hsc _ _ Hz).
  - (* LNotice *) destruct (s_conns s !! c) as [x|] eqn:Ec; [|done]. destruct (c_fetch x) eqn:Ef; [done|]. destruct (c_rx x) as [|k' rest]; [done|].
    injection Hn as <- <-. apply Hboring; [nogive|]. eapply J_boring; try done; [by left|..].
    + intros c' x' _ H. apply elem_of_list_singleton in H. discriminate H.
    + intros c' y Hy. cbn in Hy; refine (old_conn _ _ c _ _ Ec _ _ _ _ Hy _ _); try done. cbn. intros Hk. by apply elem_of_nil in Hk.
  - by destruct (C2 e).
Qed.
Lemma idle_run ok s tr s' : run_to cfg ok s tr s' -> idle_closed s -> idle_closed s'.
Proof. induction 1 as [|tr s1 l s2 o Hr IH Hok [_ Hn]]; [done|]. intros H. eapply idle_step; [|exact Hn]. auto. Qed.
Lemma J_run tr0 s1 tr s2 R : idle_closed s1 -> J tr0 s1 R -> run_to cfg (fun tr => calm cfg k (tr0 ++ tr)) s1 tr s2 ->
  exists R', ext R R' /\ J (tr0 ++ tr) s2 R'.
Proof.
  intros HI HJ Hr. induction Hr as [|tr s1' l s2 o Hr IH Hok Hst].
  - exists R. rewrite app_nil_r. split; [apply ext_refl|done].
  - destruct IH as (R1 & E1 & J1). destruct (J_step (tr0 ++ tr) s1' l s2 o R1) as (R2 & E2 & J2 & _); [by eapply idle_run|done|done|done|].
    exists R2. split; [by eapply ext_trans|]. by rewrite app_assoc.
Qed.
End spacing.

Lemma J_start cfg k s0 : untouched k s0 -> J cfg k (s_now s0) [] s0 [].
Proof.
  intros (U1 & U2 & U3 & _). constructor; try done.
  - intros c x Hx _ Hk. by destruct (U1 c x Hx).
  - intros c x Hx Hk. by destruct (U1 c x Hx).
Qed.
Lemma spaced cfg s0 tr1 l1 o1 tr2 l2 o2 s c n g c' n' g' k : untouched k s0 ->
  run_to cfg (calm cfg k) s0 (tr1 ++ [(l1, o1)] ++ tr2 ++ [(l2, o2)]) s ->
  Given c n g ∈ o1 -> k ∈ ids_of g -> Given c' n' g' ∈ o2 -> k ∈ ids_of g' ->
  s_now s < asked (s_now s0) (tr1 ++ [(l1, o1)] ++ tr2) c' + cf_ttl cfg ->
  asked (s_now s0) tr1 c + cf_ttl cfg <= s_now s.
Proof.
  intros HU Hr G1 K1 G2 K2 Hin. pose proof (J_start cfg k s0 HU) as J0. assert (HI : idle_closed s0) by apply HU.
  set (t0 := s_now s0) in *.
  replace (tr1 ++ [(l1, o1)] ++ tr2 ++ [(l2, o2)]) with (((tr1 ++ [(l1, o1)]) ++ tr2) ++ [(l2, o2)]) in Hr by (by rewrite <- !app_assoc).
  apply run_snoc_inv in Hr as (s3 & Hr & C3 & St3). apply run_split in Hr as (s2 & Hr & Hr2). apply run_snoc_inv in Hr as (s1 & Hr & C1 & St1).
  destruct (J_run cfg k t0 [] s0 tr1 s1 [] HI J0 Hr) as (R1 & _ & J1). cbn in J1.
  pose proof (idle_run _ _ _ _ _ Hr HI) as HI1.
  destruct (J_step cfg k t0 tr1 s1 l1 s2 o1 R1 HI1 J1 C1 St1) as (R2 & E2 & J2 & L2).
  assert (HI2 : idle_closed s2) by (eapply idle_step; [exact HI1|apply St1]).
  destruct (J_run cfg k t0 _ s2 tr2 s3 R2 HI2 J2 Hr2) as (R3 & E3 & J3).
  pose proof (idle_run _ _ _ _ _ Hr2 HI2) as HI3.
  destruct (J_step cfg k t0 _ s3 l2 s o2 R3 HI3 J3 C3 St3) as (R4 & E4 & J4 & L4).
  destruct (L2 c n g G1 K1) as (i & T & _ & Ha & Hi). destruct (L4 c' n' g' G2 K2) as (j & T' & Hj & Hb & _).
  destruct (E3 _ _ _ _ Hi) as (b & Hi3 & Hbt). rewrite (Hbt eq_refl) in Hi3.
  assert (Hne : i <> j) by (intros ->; congruence).
  pose proof (j_time _ _ _ _ _ _ J3 _ _ _ _ Hi3) as HT. pose proof (j_time _ _ _ _ _ _ J3 _ _ _ _ Hj) as HT'.
  assert (Hle : s_now s3 <= s_now s) by (eapply next_now, St3).
  rewrite <- app_assoc in Hb.
  destruct (decide (i < j)%nat) as [Hlt|Hge].
  - pose proof (j_space _ _ _ _ _ _ J3 _ _ _ _ _ _ _ _ Hi3 Hj Hlt). lia.
  - pose proof (j_space _ _ _ _ _ _ J3 _ _ _ _ _ _ _ _ Hj Hi3 ltac:(lia)). lia.
Qed.
