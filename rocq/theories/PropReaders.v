(** C90: requests and the connections they read with. Vocabulary: Readers.v (the last part). *)
From Verif Require Import PropDispatch ServerFacts SpacingProofs ReadersProofs.
Local Open Scope N_scope.

(** ** C90 *)
(** Full claim: every request and every query is answered without waiting for others to give up.
    Missing: as many reserve requests at the same time as connections block each other and everybody
    else. *)
(** What consumers see is what they see from the server of C27-C42: the pool only delays it and adds errors. *)
Theorem C90_same_server : forall cfg cap ok h now tr s,
  rrun cfg cap ok (readers_start h now) tr s ->
  exists tr', run_to cfg anything (server_start h now) tr' (rd_server s) /\ concat tr'.*2 = sent (rsent tr).
Proof. intros cfg cap ok h now tr s H. exact (rrun_server cfg cap ok _ _ _ (rinv_start cap h now) H). Qed.
Print Assumptions C90_same_server.
(** The pool never lends more connections than it has. *)
Theorem C90_capacity : forall cfg cap ok h now tr s, rrun cfg cap ok (readers_start h now) tr s ->
  N.of_nat (size (filter (fun p => has_one p.2 = true) (rd_stage s)) + size (filter (fun p => has_second p.2 = true) (rd_stage s)) +
            size (filter (fun p => runs p.2 = true) (rd_queries s))) <= cap.
Proof. intros cfg cap ok h now tr s H. rewrite <- in_use_counts. by destruct (rrun_rinv _ _ _ _ _ _ (rinv_start cap h now) H). Qed.
Print Assumptions C90_capacity.
(** Nobody waits for a connection for more than 30 seconds: by then there is an error or (for a reservation) an empty list. *)
Theorem C90_wait_bound : forall cfg cap ok h now tr s, rrun cfg cap ok (readers_start h now) tr s ->
  (forall c q since, rd_stage s !! c = Some (WaitsFirst q since) \/ rd_stage s !! c = Some (WaitsSecond since) -> s_now (rd_server s) <= since + 30000) /\
  (forall t since, rd_queries s !! t = Some (Some since) -> s_now (rd_server s) <= since + 30000).
Proof.
  intros cfg cap ok h now tr s H. apply patient_run in H as [H1 H2]. split.
  - intros c q since [E|E]; by apply (H1 c _ E).
  - intros t since E. apply (H2 t _ E).
Qed.
Print Assumptions C90_wait_bound.

(** While fewer requests run at the same time than there are connections, everybody is served: whatever
    the order, some step is possible until all are, after a bounded number of steps all are and no time has to pass. An
    empty list is given only to a request whose query SQLite cannot prepare (C75, C27_preferences_refuted). *)
Theorem C90_goes_on_partial : forall cfg cap ok h now tr s,
  rrun cfg cap ok (readers_start h now) tr s -> fresh_ids (s_hist (rd_server s)) ->
  N.of_nat (size (rd_stage s)) < cap ->
  exists n, forall tr' s', rrun cfg cap goes_on s tr' s' ->
    (length tr' <= n)%nat /\
    (settled s' \/ exists l s'' o, goes_on l /\ rstep_to cfg cap s' l s'' o) /\
    (forall c k l, Sent (Given c k l) ∈ rsent tr' -> l <> [] \/ exists q, asks s c q /\ q_nonce q = k /\ (63 < preferences (q_strategy q))%nat) /\
    (settled s' -> (forall c, is_Some (rd_stage s !! c) -> PReply c ∈ tr'.*1 \/ Sent (Closed c) ∈ rsent tr' \/ exists k, Sent (Given c k []) ∈ rsent tr') /\
                   (forall t, is_Some (rd_queries s !! t) -> QueryAnswered t ∈ rsent tr')).
Proof.
  intros cfg cap ok h now tr s Hr Hfr Hs. pose proof (rrun_rinv _ _ _ _ _ _ (rinv_start cap h now) Hr) as HI.
  exists (measure (length (all_chunks (s_db (rd_server s)))) s). intros tr' s' Hr'.
  destruct (goes_on_run _ _ _ _ _ HI Hfr Hr') as (H1 & _ & H3 & H4 & H5 & _). split_and!; [lia| | |].
  - destruct (decide (rd_stage s' = ∅)) as [E1|E1].
    + destruct (decide (rd_queries s' = ∅)) as [E2|E2]; [by left|right]. eapply progress; [by eapply rrun_rinv|lia|]. intros [_ ?]. done.
    + right. eapply progress; [by eapply rrun_rinv|lia|]. intros [? _]. done.
  - intros c k l Hin. destruct (H5 _ _ _ Hin) as [|(q & Hq & Hn & Hc)]; [by left|right]. exists q. split_and!; try done.
    unfold can_ask in Hc. apply Nat.leb_gt in Hc. by rewrite preferences_keys in Hc.
  - intros [E1 E2]. split.
    + intros c Hc. destruct (goes_on_stages _ _ _ _ _ c HI Hr' Hc) as [[? Hx]|Hx]; [|done]. by rewrite E1, lookup_empty in Hx.
    + intros t Ht. destruct (H4 t Ht) as [[? Hx]|Hx]; [|done]. by rewrite E2, lookup_empty in Hx.
Qed.
Print Assumptions C90_goes_on_partial.
(** It is enough that the pool is larger than the number of connected consumers. *)
Theorem C90_enough_partial : forall cfg cap ok h now tr s,
  rrun cfg cap ok (readers_start h now) tr s ->
  N.of_nat (size (filter (fun p => c_open p.2 = true) (s_conns (rd_server s)))) < cap ->
  settled s \/ exists l s' o, goes_on l /\ rstep_to cfg cap s l s' o.
Proof.
  intros cfg cap ok h now tr s Hr Hs. pose proof (rrun_rinv _ _ _ _ _ _ (rinv_start cap h now) Hr) as HI. 
  destruct (rrun_server _ _ _ _ _ _ (rinv_start cap h now) Hr) as (tr' & Hrun & _).
  assert (Hidle : idle_closed (rd_server s)).
  { eapply idle_run; [exact Hrun|]. intros c x Hx. cbn in Hx. by rewrite lookup_empty in Hx. }
  pose proof (stages_open _ _ HI Hidle).
  destruct (decide (rd_stage s = ∅)) as [E1|E1].
  - destruct (decide (rd_queries s = ∅)) as [E2|E2]; [by left|right]. apply progress; [done|lia|]. intros [_ ?]. done.
  - right. apply progress; [done|lia|]. intros [? _]. done.
Qed.
Print Assumptions C90_enough_partial.

(** Everything else does not wait for the pool, even if it is exhausted: writes by producers, reports of
    finished chunks, the completer, expiries, and consumers that connect, disconnect or are told about
    an expiry. Only while a connection handles a reserve request it does nothing else. *)
Definition apart (s : readers) (l : label) : Prop :=
  match l with
  | LReserve _ _ _ _ | LRetry _ _ _ | LRow _ | LJoin _ _ | LFetchError _ | LReply _ | LTime _ => False
  | LDisconnect c | LReport c _ _ | LNotice c => rd_stage s !! c = None
  | _ => True
  end.
Theorem C90_apart : forall cfg cap s l srv o, apart s l -> step_to cfg (rd_server s) l srv o ->
  exists s', rstep_to cfg cap s (PServer l) s' (Sent <$> o) /\ rd_server s' = srv.
Proof.
  intros cfg cap [srv0 st qs] l srv o Ha [Hal Hn]. cbn [rd_server] in *.
  assert (Hp : plain l (Readers srv0 st qs) = true) by (destruct l; try done; cbn in Ha |- *; by rewrite Ha).
  eexists. split; [split; [exact Hal|]|]; [unfold rnext; rewrite Hp, Hn; reflexivity|]. by destruct l.
Qed.
Print Assumptions C90_apart.

(** With a pool of one connection, which is a permitted configuration, no consumer is ever given a chunk. *)
Theorem C90_one_connection_refuted : forall cfg ok h now tr s c n l,
  rrun cfg 1 ok (readers_start h now) tr s -> Sent (Given c n l) ∈ rsent tr -> l = [].
Proof.
  intros cfg ok h now tr s c n l Hr Hin. assert (Hn : nothing_got (readers_start h now)).
  { split; [|intros c'; cbn; by rewrite lookup_empty]. intros c' f Hf. unfold fetch_of in Hf. cbn in Hf. by rewrite lookup_empty in Hf. }
  destruct (rrun_nothing _ _ _ _ _ (rinv_start 1 h now) Hn Hr) as [H _]. eauto.
Qed.
Print Assumptions C90_one_connection_refuted.
(** Whatever the size of the pool: if that many consumers, each of which asks for one chunk, come at the same time and
    there are enough chunks for all, the server can get to a point from which, as long as less than 30
    seconds pass, nobody is answered, whatever happens (unless the database fails or the server is
    restarted), neither consumers nor those who ask anything else. *)
Theorem C90_stall_refuted : forall cfg cap h ks,
  0 < cf_ttl cfg -> fresh_ids h -> N.of_nat (length ks) = cap -> NoDup ks -> (forall k, k ∈ ks -> is_Some (waiting (after h) k)) ->
  exists tr s, rrun cfg cap calm (readers_start h 0) tr s /\ s_now (rd_server s) = 0 /\
    (forall c, c < cap -> PRequest c (Req 0 1 Oldest) ∈ tr.*1) /\ (forall c, is_Some (s_conns (rd_server s) !! c) <-> c < cap) /\
    rsent tr = [] /\
    forall tr' s', rrun cfg cap calm s tr' s' -> s_now (rd_server s') < 30000 ->
      forall o, o ∈ rsent tr' -> match o with Sent (Given _ _ _) | QueryAnswered _ => False | _ => True end.
Proof.
  intros cfg cap h ks Httl Hfr Hcap Hnd Hks. destruct (C23_every_strategy_answers Oldest 0 (after h) ∅ (fun _ => false)) as [rows Hrows].
  destruct (C23_offers_available_once _ _ _ _ _ _ Hfr Hrows) as [Hnd' Hin].
  assert (Hlen : (length ks <= length rows)%nat).
  { rewrite <- (fmap_length (fun c => (c_sub c, c_index c)) rows). apply submseteq_length, NoDup_submseteq; [done|]. intros k Hk.
    destruct (Hks k Hk) as [c Hc]. pose proof (waiting_cid _ _ _ Hc) as Hid.
    apply elem_of_list_fmap. exists c. split; [done|]. apply Hin. by rewrite Hid. }
  destruct (stall_from cfg cap h rows Httl Hrows Hnd' (length ks)) as (tr & es & cs & sg & R & Ro & _ & _ & Hcs & Hsg & _ & Ht & Hreq); [lia|done|].
  eexists tr, _. split; [exact R|]. split; [done|]. split; [intros c Hc; apply Hreq; lia|]. split.
  { intros c. cbn. specialize (Hcs c). destruct (cs !! c); [split; [|by eexists]|split; [by intros [? ?]|]]; intros Hc.
    - apply N.nle_gt. intros ?. assert (Some p = None) as Hx by (apply Hcs; lia). done.
    - assert (N.of_nat (length ks) <= c) by (by apply Hcs). lia. }
  split; [done|]. intros tr' s' R' Hnow o Ho.
  destruct (stuck_run cfg cap 0 (Readers (server_with h es cs) sg ∅) tr' s') as [_ H].
  - eapply rrun_rinv; [apply rinv_start|exact R].
  - split; cbn [rd_stage rd_queries rd_server].
    + lia.
    + intros c st Hst. rewrite Hsg in Hst. case_decide; [|done]. simplify_eq. cbn. lia.
    + apply map_Forall_empty.
    + cbn. lia.
  - done.
  - done.
  - specialize (H o Ho). destruct o as [[]| |]; cbn in H; tauto.
Qed.
Print Assumptions C90_stall_refuted.

(** *** A pool of two *)
(** Play a list of steps; the rows of a query are those that [scan] chooses. *)
Definition rplay_ok (l : rlabel) (s : readers) : bool :=
  match l with
  | PFirst c off rows =>
    match rd_stage s !! c with
    | Some (WaitsFirst (Some q) _) => bool_decide (rows = scan (q_strategy q) off (s_db (rd_server s)) (s_counts (rd_server s)) (fun _ => false))
    | _ => false
    end
  | PServer (LReserve _ _ _ _) | PServer (LRetry _ _ _) | PServer (LCrash (Some _)) => false
  | _ => true
  end.
Fixpoint rplay (cfg : config) (cap : N) (ls : list (readers -> rlabel)) (tr : list (rlabel * list rout)) (s : readers) : option (list (rlabel * list rout) * readers) :=
  match ls with
  | [] => Some (tr, s)
  | f :: ls =>
    if rplay_ok (f s) s then match rnext cfg cap (f s) s with Some (s', o) => rplay cfg cap ls (tr ++ [(f s, o)]) s' | None => None end
    else None
  end.
Lemma rplay_run cfg cap s0 : forall ls tr s tr' s', rplay cfg cap ls tr s = Some (tr', s') ->
  rrun cfg cap (fun _ => True) s0 tr s -> rrun cfg cap (fun _ => True) s0 tr' s'.
Proof.
  induction ls as [|f ls IH]; intros tr s tr' s' Hp Hr; cbn [rplay] in Hp; [by injection Hp as <- <-|].
  destruct (rplay_ok (f s) s) eqn:Eb; [|done]. destruct (rnext cfg cap (f s) s) as [[s2 o]|] eqn:En; [|done]. apply (IH _ _ _ _ Hp).
  eapply rrun_snoc; [exact Hr|done|]. split; [|done]. destruct (f s) as [| |c off rows| | | | | | | | | | | | |l]; try done; cbn -[allowed] in *.
  - destruct (rd_stage s !! c) as [[[q|] t| | |]|]; try done. apply bool_decide_eq_true_1 in Eb as ->. apply scan_offers.
  - destruct l as [| | | | | | | | | | | | | | | | | | | | |[e|]]; done.
Qed.
Definition scanned (c : N) (s : readers) : rlabel :=
  PFirst c 0 (scan Oldest 0 (s_db (rd_server s)) (s_counts (rd_server s)) (fun _ => false)).
Definition ex_connect (c : N) : list (readers -> rlabel) := (fun l (_ : readers) => l) <$> [PServer (LConnect c); PRequest c (Req c 1 Oldest)].
(** Two consumers and a producer's query at a pool of two connections: after half a minute both consumers get an empty
    list and the query an error; both chunks are still reserved. The third consumer, alone, is served. *)
Example C90_example_stall :
  match rplay (Config 60000 10) 2
          (ex_connect 1 ++ ex_connect 2 ++ [scanned 1; scanned 2; fun _ => PRow 1; fun _ => PRow 2; fun _ => PRow 2; fun _ => PAsk 9;
             fun _ => PTime 30000; fun _ => PTimeout 1; fun _ => PTimeout 2; fun _ => PGiveUp 9] ++
           ex_connect 3 ++ [scanned 3; fun _ => PRow 3; fun _ => PRow 3; fun _ => PRow 3; fun _ => PSecond 3; fun _ => PJoin 3 false; fun _ => PReply 3])
          [] (readers_start ex_h2 0) with
  | Some (tr, s) =>
      match rsent tr with
      | [Sent (Given 1 1 []); Sent (Given 2 2 []); QueryFailed 9; Sent (Given 3 3 [(c, _)])] =>
          bool_decide ((c_sub c, c_index c) = (2, 0)) && bool_decide (map_to_list (e_at <$> r_entries (s_res (rd_server s))) ≡ₚ [((1, 0), 0); ((1, 1), 0); ((2, 0), 30000)])
      | _ => false
      end
  | None => false
  end = true.
Proof. by vm_compute. Qed.
(** One request and one query at a pool of two: the hypotheses of [C90_goes_on_partial], and the end of it. *)
Example C90_example :
  fresh_ids ex_h2 /\
  match rplay (Config 60000 10) 2 (ex_connect 1 ++ [scanned 1; fun _ => PAsk 9; fun _ => PGet 9; fun _ => PRow 1]) [] (readers_start ex_h2 0) with
  | Some (tr, s) =>
      bool_decide (N.of_nat (size (rd_stage s)) < 2) && bool_decide (in_use s = 2%nat) &&
      match rnext (Config 60000 10) 2 (PSecond 1) s with None => true | Some _ => false end &&
      match rplay (Config 60000 10) 2 [fun _ => PAnswer 9; fun _ => PSecond 1; fun _ => PJoin 1 false; fun _ => PReply 1] [] s with
      | Some (tr', s') =>
          match rsent tr' with [QueryAnswered 9; Sent (Given 1 1 [_])] => true | _ => false end && bool_decide (rd_stage s' = ∅) && bool_decide (rd_queries s' = ∅)
      | None => false
      end
  | None => false
  end = true.
Proof. split; [apply ex_fresh2|]. by vm_compute. Qed.
(** The hypotheses of [C90_stall_refuted]. *)
Example C90_example_hypotheses : NoDup [(1, 0); (3, 1)] /\ forall k, k ∈ [(1, 0); (3, 1)] -> is_Some (waiting (after ex_h2) k).
Proof.
  split; [apply (bool_decide_unpack _); by vm_compute|]. intros k Hk. apply elem_of_cons in Hk as [->|Hk]; [|apply elem_of_list_singleton in Hk as ->]; apply (bool_decide_unpack _); by vm_compute.
Qed.
(** Two requests block each other, and a report and an insert go on. *)
Example C90_example_apart :
  match rplay (Config 60000 10) 2 (ex_connect 1 ++ ex_connect 2 ++ [scanned 1; scanned 2; fun _ => PRow 1; fun _ => PRow 2; fun _ => PRow 2;
          fun _ => PServer (LConnect 3); fun _ => PServer (LReport 3 (1, 0) (Complete None)); fun _ => PServer (LProducer (quiet (OInsert 7 None [None] None ∅ 1 "o" 1)))])
          [] (readers_start ex_h2 0) with
  | Some (tr, s) => bool_decide (rd_stage s !! 3 = None) && bool_decide (is_Some (waiting (s_db (rd_server s)) (7, 0))) && bool_decide (in_use s = 2%nat)
  | None => false
  end = true.
Proof. by vm_compute. Qed.
