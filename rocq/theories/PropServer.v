(** C27, C30, C32-C37, C40-C42, C55: the server as consumers see it. Vocabulary: Server.v (the last
    part), Spec.v, Strategy.v, Reserver.v. *)
From Verif Require Import AnswerProofs PropQueue SpacingProofs LeakProofs CountProofs.
Local Open Scope N_scope.

(** *** Concrete runs for the examples *)
(** The rows of a query in the order that [scan] chooses. *)
Definition rows_now (q : req) (off : N) (s : state) : list chunk := scan (q_strategy q) off (s_db s) (s_counts s) (fun _ => false).
Definition allowed_b (l : label) (s : state) : bool :=
  match l with
  | LReserve c q off rows => bool_decide (rows = rows_now q off s)
  | LRetry c off rows =>
    match s_conns s !! c with Some x => match c_retry x with q :: _ => bool_decide (rows = rows_now q off s) | [] => false end | None => false end
  | LCrash (Some _) => false
  | _ => true
  end.
Fixpoint play (cfg : config) (okb : trace -> state -> label -> bool) (ls : list (state -> label)) (tr : trace) (s : state) : option (trace * state) :=
  match ls with
  | [] => Some (tr, s)
  | f :: ls =>
    if allowed_b (f s) s && okb tr s (f s) then
      match next cfg (f s) s with Some (s', o) => play cfg okb ls (tr ++ [(f s, o)]) s' | None => None end
    else None
  end.
Lemma play_run cfg okb (ok : trace -> state -> label -> Prop) s0 : (forall tr s l, okb tr s l = true -> ok tr s l) -> forall ls tr s tr' s',
  play cfg okb ls tr s = Some (tr', s') -> run_to cfg ok s0 tr s -> run_to cfg ok s0 tr' s'.
Proof.
  intros Hok. induction ls as [|f ls IH]; intros tr s tr' s' Hp Hr; cbn in Hp; [by injection Hp as <- <-|].
  destruct (allowed_b (f s) s && okb tr s (f s)) eqn:Eb; [|done]. apply andb_true_iff in Eb as [E1 E2].
  destruct (next cfg (f s) s) as [[s2 o]|] eqn:En; [|done]. apply (IH _ _ _ _ Hp). eapply run_snoc; [exact Hr|by apply Hok|]. split; [|done].
  destruct (f s) as [| | | |c q off rows|c off rows| | | | | | | | | | | | | | | |[e|]]; try done; cbn in E1.
  - apply bool_decide_eq_true_1 in E1 as ->. apply scan_offers.
  - destruct (s_conns s !! c) as [x|] eqn:Ex; [|done]. destruct (c_retry x) as [|q rest] eqn:Er; [done|]. apply bool_decide_eq_true_1 in E1 as ->. exists x, q, rest. split; [done|]. split; [done|]. apply scan_offers.
Qed.
Lemma by_play cfg okb (ok : trace -> state -> label -> Prop) h now ls (P : trace -> state -> bool) : (forall tr s l, okb tr s l = true -> ok tr s l) ->
  match play cfg okb ls [] (server_start h now) with Some (tr, s) => P tr s | None => false end = true ->
  exists tr s, run_to cfg ok (server_start h now) tr s /\ P tr s = true.
Proof.
  intros Hok Hp. destruct (play cfg okb ls [] (server_start h now)) as [[tr s]|] eqn:E; [|done]. exists tr, s. split; [|done].
  eapply play_run; [exact Hok|exact E|constructor].
Qed.
Lemma play_extends cfg okb : forall ls tr s tr' s', play cfg okb ls tr s = Some (tr', s') -> exists tr2, tr' = tr ++ tr2.
Proof.
  induction ls as [|f ls IH]; intros tr s tr' s' Hp; cbn in Hp; [injection Hp as <- <-; exists []; by rewrite app_nil_r|].
  destruct (allowed_b (f s) s && okb tr s (f s)); [|done]. destruct (next cfg (f s) s) as [[s2 o]|]; [|done].
  apply IH in Hp as [tr2 ->]. exists ((f s, o) :: tr2). by rewrite <- app_assoc.
Qed.
(** The same with a stop on the way. *)
Lemma by_play2 cfg okb (ok : trace -> state -> label -> Prop) h now ls1 ls2 (P : trace -> state -> trace -> state -> bool) :
  (forall tr s l, okb tr s l = true -> ok tr s l) ->
  match play cfg okb ls1 [] (server_start h now) with
  | Some (tr1, s1) => match play cfg okb ls2 tr1 s1 with Some (tr, s2) => P tr1 s1 (drop (length tr1) tr) s2 | None => false end
  | None => false end = true ->
  exists tr1 s1 tr2 s2, run_to cfg ok (server_start h now) tr1 s1 /\ run_to cfg ok (server_start h now) (tr1 ++ tr2) s2 /\ P tr1 s1 tr2 s2 = true.
Proof.
  intros Hok Hp. destruct (play cfg okb ls1 [] (server_start h now)) as [[tr1 s1]|] eqn:E1; [|done].
  destruct (play cfg okb ls2 tr1 s1) as [[tr s2]|] eqn:E2; [|done]. destruct (play_extends _ _ _ _ _ _ _ E2) as [tr2 ->].
  rewrite drop_app in Hp. exists tr1, s1, tr2, s2.
  assert (run_to cfg ok (server_start h now) tr1 s1) by (eapply play_run; [exact Hok|exact E1|constructor]).
  split_and!; [done| |done]. eapply play_run; [exact Hok|exact E2|done].
Qed.
(** Nothing at all has expired. *)
Definition all_live (cfg : config) (s : state) : bool := forallb (fun p => is_live (cf_ttl cfg) (s_now s) p.2) (map_to_list (r_entries (s_res s))).
Lemma all_live_timely cfg s : all_live cfg s = true -> timely cfg s.
Proof.
  intros H k e He _. unfold all_live in H. rewrite forallb_forall in H. apply (H (k, e)). apply elem_of_list_In. by apply elem_of_map_to_list.
Qed.
(** Consumers report only chunks that they hold. *)
Definition reports_held (tr : trace) (s : state) (l : label) : Prop := forall c cid r, l = LReport c cid r -> cid ∈ holding tr c.
Definition reports_held_b (tr : trace) (l : label) : bool := match l with LReport c cid _ => bool_decide (cid ∈ holding tr c) | _ => true end.
Lemma reports_held_by tr s l : reports_held_b tr l = true -> reports_held tr s l.
Proof. intros H c cid r ->. by apply bool_decide_eq_true_1 in H. Qed.
Definition closes_b (cfg : config) (l : label) (s : state) : bool :=
  match next cfg l s with
  | Some (_, o) => forallb (fun x => match x with Closed c => forallb (fun m => negb (m_conn m =? c)) (inbox s) | _ => true end) o
  | None => false
  end.
Definition orderly_b (cfg : config) (tr : trace) (s : state) (l : label) : bool := all_live cfg s && reports_held_b tr l && closes_b cfg l s.
Lemma orderly_by cfg tr s l : orderly_b cfg tr s l = true -> orderly cfg tr s l.
Proof.
  unfold orderly_b. intros [[H1 H2]%andb_true_iff H3]%andb_true_iff. split; [by apply all_live_timely|]. split; [by apply (reports_held_by tr s)|].
  intros s' o c m Hn Hc Hm <-. unfold closes_b in H3. rewrite Hn in H3. rewrite forallb_forall in H3. specialize (H3 (Closed (m_conn m)) ltac:(by apply elem_of_list_In)).
  rewrite forallb_forall in H3. specialize (H3 m ltac:(by apply elem_of_list_In)). rewrite N.eqb_refl in H3. done.
Qed.

(** Two submissions, of two chunks (with "k" = 5) and of one. *)
Definition ex_srv : history := [quiet (OInsert 1 None [None; None] None {[ "k" := 5%Z ]} 10 "o" 1); quiet (OInsert 2 None [None] None ∅ 10 "o" 1)].
Lemma ex_srv_fresh : fresh_ids ex_srv.
Proof. apply fresh_by. by vm_compute. Qed.
Definition ex_cfg : config := Config 60000 10.
(** A request for up to [n] of the oldest chunks, answered without interruption. *)
Definition ask (c n : N) : state -> label := fun s => LReserve c (Req 77 n Oldest) 0 (rows_now (Req 77 n Oldest) 0 s).
Definition get_one (c : N) : list (state -> label) := [ask c 1; fun _ => LRow c; fun _ => LJoin c false; fun _ => LReply c].
(** The same when the first row is found reserved. *)
Definition get_second (c : N) : list (state -> label) := [ask c 1; fun _ => LSkip c 0; fun _ => LRow c; fun _ => LJoin c false; fun _ => LReply c].
Definition do (l : label) : state -> label := fun _ => l.
Definition does (ls : list label) : list (state -> label) := do <$> ls.

(** ** C27 *)
(** A request that nobody interferes with. [l]: the available chunks in the strategy's order. When
    there are none the request waits. Full statement: for every strategy; it holds up to 63 preferences. *)
Theorem C27_gets_what_is_available_partial : forall cfg s c q off rows s1 o1 tr s2 s3 o,
  fresh_ids (s_hist s) -> q_max q <> 0 -> (preferences (q_strategy q) <= 63)%nat ->
  step_to cfg s (LReserve c q off rows) s1 o1 -> run_to cfg (fetch_only c) s1 tr s2 -> step_to cfg s2 (LReply c) s3 o ->
  let reserved s k := is_reserved (cf_ttl cfg) (s_now s) k (s_res s) in
  exists l got,
    NoDup l /\ (forall r, r ∈ l <-> waiting (s_db s) (c_sub r, c_index r) = Some r /\ reserved s (c_sub r, c_index r) = false) /\
    offers (q_strategy q) off (s_db s) (s_counts s) (reserved s) l /\
    got.*1 = take (N.to_nat (q_max q)) l /\ Forall (fun p => reports (s_db s) (c_sub p.1) (InProgress p.2)) got /\
    o1 = [] /\ Forall (fun lo => lo.2 = []) tr /\ o = (match got with [] => [] | _ => [Given c (q_nonce q) got] end) /\
    s_db s3 = s_db s /\
    (0 < cf_ttl cfg -> forall k, reserved s3 k = true <-> reserved s k = true \/ k ∈ ids_of got).
Proof.
  intros cfg s c q off rows s1 o1 tr s2 s3 o Hf Hq Hp%can_ask_few H1 H2 H3 reserved. destruct (reserve_starts _ _ _ _ _ _ _ _ Hq Hp H1) as [-> Hst].
  destruct (quiet_fetch cfg _ _ _ _ _ _ _ _ _ _ Hf Hst H2 H3) as (l & got & Ho & Hg & Hsub & Htr & -> & Hh & Hn & Hr).
  destruct (offers_exact _ _ _ _ _ _ Hf Ho) as [Hnd Hel]. exists l, got. split_and!; try done.
  - by apply NoDup_fmap_1 in Hnd.
  - unfold s_db. by rewrite Hh.
  - intros Httl k. unfold reserved, is_reserved, get_live. rewrite Hr, Hn. case_bool_decide as Hk.
    + unfold is_live at 1. cbn. rewrite (proj2 (N.ltb_lt _ _)) by lia. tauto.
    + tauto.
Qed.
Print Assumptions C27_gets_what_is_available_partial.
(** Such a request can always be made by an open connection that is not busy, and it comes to its end. *)
Theorem C27_can_be_asked_partial : forall cfg s c x q off,
  fresh_ids (s_hist s) -> q_max q <> 0 -> (preferences (q_strategy q) <= 63)%nat -> s_conns s !! c = Some x -> c_open x = true -> c_fetch x = None ->
  exists rows s1, step_to cfg s (LReserve c q off rows) s1 [] /\
  exists tr s2 s3 o, run_to cfg (fetch_only c) s1 tr s2 /\ step_to cfg s2 (LReply c) s3 o.
Proof.
  intros cfg s c x q off Hf Hq Hp%can_ask_few Hx Ho Hfx.
  assert (H : exists s1, step_to cfg s (LReserve c q off (rows_now q off s)) s1 []).
  { eexists. split; [apply scan_offers|]. unfold next. rewrite Hx, Ho, Hfx. apply N.eqb_neq in Hq. by rewrite Hq, Hp. }
  destruct H as (s1 & H). exists (rows_now q off s), s1. split; [done|]. destruct (reserve_starts _ _ _ _ _ _ _ _ Hq Hp H) as [_ Hst].
  exact (quiet_fetch_ends cfg _ _ _ _ _ _ Hf Hst).
Qed.
Print Assumptions C27_can_be_asked_partial.
(** A request with more preferences is always answered with an empty list, whatever is available. *)
Theorem C27_preferences_refuted : forall cfg s c q off rows s1 o1,
  q_max q <> 0 -> (63 < preferences (q_strategy q))%nat -> step_to cfg s (LReserve c q off rows) s1 o1 -> s1 = s /\ o1 = [Given c (q_nonce q) []].
Proof.
  intros cfg s c q off rows s1 o1 Hq Hp%can_ask_many [_ Hn]. unfold next in Hn. destruct (s_conns s !! c) as [x|]; [|done]. destruct (c_open x); [|done].
  destruct (c_fetch x); [done|]. apply N.eqb_neq in Hq. rewrite Hq, Hp in Hn. by injection Hn as <- <-.
Qed.
Print Assumptions C27_preferences_refuted.
Theorem C27_zero_refused : forall cfg s c q off rows s1 o1,
  q_max q = 0 -> step_to cfg s (LReserve c q off rows) s1 o1 -> s1 = s /\ o1 = [Refused c (q_nonce q)].
Proof.
  intros cfg s c q off rows s1 o1 Hq [_ Hn]. unfold next in Hn. destruct (s_conns s !! c) as [x|]; [|done]. destruct (c_open x); [|done].
  destruct (c_fetch x); [done|]. rewrite Hq in Hn. by injection Hn as <- <-.
Qed.
Print Assumptions C27_zero_refused.
Example C27_example : exists tr s,
  run_to ex_cfg (orderly ex_cfg) (server_start ex_srv 100) tr s /\
  match last tr with Some (LReply 2, [Given 2 77 [(r, sub)]]) => bool_decide (cid_of r = (1, 1)) && bool_decide (s_total sub = 2) | _ => false end = true.
Proof.
  apply (by_play ex_cfg (orderly_b ex_cfg) _ _ _ (does [LConnect 1; LConnect 2] ++ get_one 1 ++ get_second 2)
    (fun tr s => match last tr with Some (LReply 2, [Given 2 77 [(r, sub)]]) => bool_decide (cid_of r = (1, 1)) && bool_decide (s_total sub = 2) | _ => false end)).
  - intros. by apply orderly_by.
  - by vm_compute.
Qed.

(** ** C34 *)
(** Full statement: without the third condition of [orderly] (no connection ends while a report
    it sent is still to be dealt with). It fails: see below. *)
Theorem C34_exclusive_partial : forall cfg h now tr s c c' k,
  run_to cfg (orderly cfg) (server_start h now) tr s -> k ∈ holding tr c -> k ∈ holding tr c' -> c = c'.
Proof. intros cfg h now tr s c c' k Hr. destruct (sinv_run _ _ _ _ _ Hr) as [I _]. by apply (hinv_exclusive _ _ _ _ _ _ _ _ I). Qed.
Print Assumptions C34_exclusive_partial.
(** Consumer 1 reports a failure and disconnects, which returns the chunk; consumer 2 gets it; then
    the completer handles the report and removes the reservation of consumer 2. *)
Definition ex_late_report : list (state -> label) :=
  does [LConnect 1; LConnect 2; LConnect 3] ++ get_one 1 ++ does [LReport 1 (1, 0) (Fail "x"); LDisconnect 1] ++
  get_one 2 ++ does [LWrite [] 2 2 2; LFinish; LCounters true] ++ get_one 3.
Theorem C34_exclusive_refuted : exists cfg h now tr s k,
  fresh_ids h /\ run_to cfg (fun tr s l => timely cfg s /\ reports_held tr s l) (server_start h now) tr s /\
  k ∈ holding tr 2 /\ k ∈ holding tr 3.
Proof.
  exists ex_cfg, ex_srv, 0.
  destruct (by_play ex_cfg (fun tr s l => all_live ex_cfg s && reports_held_b tr l) (fun tr s l => timely ex_cfg s /\ reports_held tr s l) ex_srv 0 ex_late_report
    (fun tr s => bool_decide ((1, 0) ∈ holding tr 2 /\ (1, 0) ∈ holding tr 3))) as (tr & s & Hr & Hk).
  - intros tr s l [H1 H2]%andb_true_iff. split; [by apply all_live_timely|by apply reports_held_by].
  - by vm_compute.
  - exists tr, s, (1, 0). apply bool_decide_eq_true_1 in Hk. split; [exact ex_srv_fresh|]. done.
Qed.
Print Assumptions C34_exclusive_refuted.
(** An orderly run in which a chunk is given, fails, is returned by a disconnect, and is given again. *)
Example C34_example : exists tr s,
  run_to ex_cfg (orderly ex_cfg) (server_start ex_srv 100) tr s /\
  bool_decide (holding tr 1 = ∅ /\ holding tr 2 = {[ (1, 0) ]} /\ holding tr 3 = {[ (1, 1) ]}) = true.
Proof.
  apply (by_play ex_cfg (orderly_b ex_cfg) _ _ _
    (does [LConnect 1; LConnect 2; LConnect 3] ++ get_one 1 ++ does [LReport 1 (1, 0) (Fail "x"); LWrite [] 2 2 2; LFinish; LTime 10; LCounters true] ++
     get_one 1 ++ does [LDisconnect 1] ++ get_one 2 ++ does [LTime 30] ++ get_second 3)
    (fun tr s => bool_decide (holding tr 1 = ∅ /\ holding tr 2 = {[ (1, 0) ]} /\ holding tr 3 = {[ (1, 1) ]}))).
  - intros. by apply orderly_by.
  - by vm_compute.
Qed.

(** ** C33 *)
(** With expirations: consumer 1 lets its reservation expire, consumer 2 is given the chunk, consumer
    1 answers the expiry notice with a failure (as the client library does), which removes the
    reservation of consumer 2; consumer 3 is given the chunk at the very time at which consumer 2
    was. [tr1] ends when the chunk is given to consumer 2. *)
Definition ex_expiry1 : list (state -> label) := does [LConnect 1; LConnect 2; LConnect 3] ++ get_one 1 ++ does [LTime 60000] ++ get_one 2.
Definition ex_expiry2 : list (state -> label) :=
  does [LNotice 1; LReport 1 (1, 0) (Fail "expired"); LWrite [] 2 2 2; LFinish; LCounters true] ++ get_one 3.
Definition given_last (tr : trace) : option (N * N * list chunk_id) :=
  match last tr with Some (LReply c, [Given c' n l]) => if bool_decide (c = c') then Some (c, n, (fun p => cid_of p.1) <$> l) else None | _ => None end.
Theorem C33_exclusive_refuted : exists cfg h now tr1 s1 tr2 s2 n l k,
  fresh_ids h /\ run_to cfg reports_held (server_start h now) tr1 s1 /\ run_to cfg reports_held (server_start h now) (tr1 ++ tr2) s2 /\
  last tr1 = Some (LReply 2, [Given 2 n l]) /\ k ∈ ids_of l /\ s_now s2 < s_now s1 + cf_ttl cfg /\
  k ∈ holding (tr1 ++ tr2) 2 /\ k ∈ holding (tr1 ++ tr2) 3 /\ (LNotice 1, [Expired 1 k]) ∈ tr2.
Proof.
  exists ex_cfg, ex_srv, 0.
  destruct (by_play2 ex_cfg (fun tr s l => reports_held_b tr l) reports_held ex_srv 0 ex_expiry1 ex_expiry2
    (fun tr1 s1 tr2 s2 => bool_decide (given_last tr1 = Some (2, 77, [(1, 0)])) && (s_now s2 <? s_now s1 + 60000) &&
       bool_decide ((1, 0) ∈ holding (tr1 ++ tr2) 2 /\ (1, 0) ∈ holding (tr1 ++ tr2) 3) &&
       match tr2 with (LNotice c, [Expired c' k]) :: _ => bool_decide ((c, c', k) = (1, 1, (1, 0))) | _ => false end)) as (tr1 & s1 & tr2 & s2 & H1 & H2 & Hp).
  - intros tr s l. apply reports_held_by.
  - by vm_compute.
  - apply andb_true_iff in Hp as [Hp P4]. apply andb_true_iff in Hp as [Hp P3]. apply andb_true_iff in Hp as [P1 P2].
    apply bool_decide_eq_true_1 in P1, P3. apply N.ltb_lt in P2.
    unfold given_last in P1. destruct (last tr1) as [[l o]|] eqn:El; [|discriminate P1]. destruct l; try discriminate P1.
    destruct o as [|[c' n g| | |] [|]]; try discriminate P1. case_bool_decide as Hc; [|discriminate P1]. subst c'. injection P1 as -> -> Hg. exists tr1, s1, tr2, s2, 77, g, (1, 0). split_and!; try exact H1; try exact H2; try exact P2; try apply P3.
    + exact ex_srv_fresh.
    + exact El.
    + unfold ids_of. rewrite Hg. set_solver.
    + destruct tr2 as [|[x y] tr2]; [discriminate P4|]. destruct x; try discriminate P4. destruct y as [|[| |c' k|] [|]]; try discriminate P4.
      apply bool_decide_eq_true_1 in P4. injection P4 as -> -> ->. left.
Qed.
Print Assumptions C33_exclusive_refuted.
(** What does hold with expirations: as long as nobody reports on a chunk, no connection that was
    given it ends and the server runs on, the chunk is given out again only when the expiration time
    has passed since the request with which it was given out before had been received. Missing: the
    second request is assumed to be answered within the expiration time (a request that takes longer
    loses its own reservation before it is answered), and reports on the chunk are left out (the
    theorem above shows what they do). *)
Theorem C33_spacing_partial : forall cfg s0 tr1 l1 o1 tr2 l2 o2 s c n g c' n' g' k,
  untouched k s0 ->
  run_to cfg (calm cfg k) s0 (tr1 ++ [(l1, o1)] ++ tr2 ++ [(l2, o2)]) s ->
  Given c n g ∈ o1 -> k ∈ ids_of g -> Given c' n' g' ∈ o2 -> k ∈ ids_of g' ->
  s_now s < asked (s_now s0) (tr1 ++ [(l1, o1)] ++ tr2) c' + cf_ttl cfg ->
  asked (s_now s0) tr1 c + cf_ttl cfg <= s_now s.
Proof. exact spaced. Qed.
Print Assumptions C33_spacing_partial.
(** A run of this kind: chunk (1, 0) is given to consumer 1 at time 0 and to consumer 2 at time 60000. *)
Definition calm_b (cfg : config) (k : chunk_id) (tr : trace) (s : state) (l : label) : bool :=
  match l with LReport _ k' _ => negb (bool_decide (k' = k)) | LCrash _ => false | _ => true end &&
  match next cfg l s with Some (_, o) => forallb (fun a => match a with Closed c => bool_decide (k ∉ holding tr c) | _ => true end) o | None => true end.
Lemma calm_by cfg k tr s l : calm_b cfg k tr s l = true -> calm cfg k tr s l.
Proof.
  intros [H1 H2]%andb_true_iff. split_and!.
  - intros c r ->. apply negb_true_iff, bool_decide_eq_false_1 in H1. done.
  - by intros oe ->.
  - intros s' o c Hn Hc. rewrite Hn in H2. rewrite forallb_forall in H2. apply elem_of_list_In in Hc. specialize (H2 _ Hc). by apply bool_decide_eq_true_1 in H2.
Qed.
Example C33_spacing_example : untouched (1, 0) (server_start ex_srv 0) /\ exists tr1 s1 tr2 s2,
  run_to ex_cfg (calm ex_cfg (1, 0)) (server_start ex_srv 0) tr1 s1 /\ run_to ex_cfg (calm ex_cfg (1, 0)) (server_start ex_srv 0) (tr1 ++ tr2) s2 /\
  bool_decide (given_last tr1 = Some (1, 77, [(1, 0)])) && bool_decide (given_last tr2 = Some (2, 77, [(1, 0)])) &&
    (s_now s2 =? 60000) && (asked 0 tr1 1 =? 0) && (asked 0 (tr1 ++ tr2) 2 =? 60000) = true.
Proof.
  split.
  - split_and!; [done|intros m Hm; by apply elem_of_nil in Hm|by apply not_elem_of_nil|done].
  - apply (by_play2 ex_cfg (calm_b ex_cfg (1, 0)) (calm ex_cfg (1, 0)) ex_srv 0 (does [LConnect 1; LConnect 2] ++ get_one 1)
      (does [LTime 60000] ++ get_one 2)
      (fun tr1 s1 tr2 s2 => bool_decide (given_last tr1 = Some (1, 77, [(1, 0)])) && bool_decide (given_last tr2 = Some (2, 77, [(1, 0)])) &&
        (s_now s2 =? 60000) && (asked 0 tr1 1 =? 0) && (asked 0 (tr1 ++ tr2) 2 =? 60000))).
    + intros. by apply calm_by.
    + by vm_compute.
Qed.

(** ** C35 *)
(** Full statement: without [orderly]. It fails once a reservation has expired: see below. The
    chunks that were still waiting are offered to whoever asks next. *)
Theorem C35_disconnect_returns_partial : forall cfg h now tr s c s' o,
  run_to cfg (orderly cfg) (server_start h now) tr s -> step_to cfg s (LDisconnect c) s' o ->
  let reserved k := is_reserved (cf_ttl cfg) (s_now s') k (s_res s') in
  holding (tr ++ [(LDisconnect c, o)]) c = ∅ /\
  (forall k, k ∈ holding tr c -> reserved k = false) /\
  (forall k r q off l, k ∈ holding tr c -> waiting (s_db s') k = Some r -> fresh_ids (s_hist s') ->
     offers q off (s_db s') (s_counts s') reserved l -> r ∈ l) /\
  s_hist s' = s_hist s /\
  (forall c' k, c' <> c -> k ∈ holding tr c' -> r_entries (s_res s') !! k = r_entries (s_res s) !! k) /\
  (forall k e, r_entries (s_res s) !! k = Some e -> e_holder e <> c -> r_entries (s_res s') !! k = Some e) /\
  (forall c' x, c' <> c -> s_conns s !! c' = Some x -> exists x', s_conns s' !! c' = Some x' /\ c_open x' = c_open x /\ c_set x' = c_set x /\ c_fetch x' = c_fetch x).
Proof.
  intros cfg h now tr s c s' o Hr [_ Hn] reserved. destruct (sinv_run _ _ _ _ _ Hr) as [I _].
  destruct (disconnects _ _ _ _ _ Hn) as (x & Hx & Ho & Hf & -> & ->).
  assert (Hset : forall k, k ∈ holding tr c -> k ∈ c_set x).
  { intros k Hk. destruct (i_held _ _ _ _ _ I c k Hk) as (y & Hy & _ & Hin). unfold cores_of in Hy. rewrite lookup_fmap, Hx in Hy. injection Hy as <-. exact Hin. }
  assert (Hres : forall k, k ∈ holding tr c -> reserved k = false).
  { intros k Hk. unfold reserved, is_reserved, get_live. rewrite close_entries, bool_decide_eq_true_2 by auto. done. }
  assert (Hkeep : forall k e, r_entries (s_res s) !! k = Some e -> e_holder e <> c -> r_entries (s_res (close cfg c x s)) !! k = Some e).
  { intros k e He Hne. rewrite close_entries. case_bool_decide as Hin; [|done]. exfalso. apply Hne.
    destruct (i_set _ _ _ _ _ I c (core_of x) k) as (e' & He' & <-); [by apply cores_lookup|done|done|]. congruence. }
  split_and!; try done.
  - rewrite holding_snoc. unfold hold_step. cbn. by rewrite bool_decide_eq_true_2.
  - intros k r q off l Hk Hw Hfr Hof. destruct (offers_exact _ _ _ _ _ _ Hfr Hof) as [_ Hel]. apply Hel.
    rewrite (waiting_cid _ _ _ Hw). auto.
  - intros c' k Hne Hk. destruct (i_held _ _ _ _ _ I c' k Hk) as (y & Hy & Hoy & Hin). destruct (i_set _ _ _ _ _ I c' y k Hy Hoy Hin) as (e & He & Hh).
    rewrite He. apply Hkeep; [done|congruence].
  - intros c' y Hne Hy. destruct (close_others cfg c x s c' y Hne Hy) as [rx ->]. by eexists.
Qed.
Print Assumptions C35_disconnect_returns_partial.
(** Consumer 1 lets its reservation expire, consumer 2 is given the chunk; then consumer 1
    disconnects, which takes the reservation of consumer 2 away: consumer 3 is given the chunk. *)
Theorem C35_disconnect_returns_refuted : exists cfg h now tr1 s1 tr2 s2 k e,
  fresh_ids h /\ run_to cfg reports_held (server_start h now) tr1 s1 /\ run_to cfg reports_held (server_start h now) (tr1 ++ tr2) s2 /\
  r_entries (s_res s1) !! k = Some e /\ e_holder e = 2 /\ is_live (cf_ttl cfg) (s_now s1) e = true /\ k ∈ holding tr1 2 /\
  tr2 = [(LDisconnect 1, [Closed 1])] /\ r_entries (s_res s2) !! k = None /\ s_now s2 = s_now s1.
Proof.
  exists ex_cfg, ex_srv, 0.
  destruct (by_play2 ex_cfg (fun tr s l => reports_held_b tr l) reports_held ex_srv 0 ex_expiry1 [do (LDisconnect 1)]
    (fun tr1 s1 tr2 s2 => bool_decide ((e_holder <$> r_entries (s_res s1) !! (1, 0)) = Some 2) &&
       bool_decide ((is_live 60000 (s_now s1) <$> r_entries (s_res s1) !! (1, 0)) = Some true) && bool_decide ((1, 0) ∈ holding tr1 2) &&
       match tr2 with [(LDisconnect c, [Closed c'])] => (c =? 1) && (c' =? 1) | _ => false end &&
       bool_decide ((e_holder <$> r_entries (s_res s2) !! (1, 0)) = None) && (s_now s2 =? s_now s1))) as (tr1 & s1 & tr2 & s2 & H1 & H2 & Hp).
  - intros tr s l. apply reports_held_by.
  - by vm_compute.
  - apply andb_true_iff in Hp as [Hp P6]. apply andb_true_iff in Hp as [Hp P5]. apply andb_true_iff in Hp as [Hp P4].
    apply andb_true_iff in Hp as [Hp P3]. apply andb_true_iff in Hp as [P1 P2]. apply bool_decide_eq_true_1 in P1, P2, P3, P5. apply N.eqb_eq in P6.
    apply fmap_Some in P1 as (e & He & Hh). rewrite He in P2. injection P2 as P2. apply fmap_None in P5.
    exists tr1, s1, tr2, s2, (1, 0), e. split_and!; try assumption; [exact ex_srv_fresh|by symmetry|].
    destruct tr2 as [|[x y] [|]]; try discriminate P4; destruct x; try discriminate P4; destruct y as [|[| | |c'] [|]]; try discriminate P4.
    apply andb_true_iff in P4 as [->%N.eqb_eq ->%N.eqb_eq]. done.
Qed.
Print Assumptions C35_disconnect_returns_refuted.
Example C35_example : exists tr s,
  run_to ex_cfg (orderly ex_cfg) (server_start ex_srv 100) tr s /\
  bool_decide (holding tr 1 = {[ (1, 0) ]} /\ holding tr 2 = {[ (1, 1) ]}) && match next ex_cfg (LDisconnect 1) s with Some _ => true | None => false end = true.
Proof.
  apply (by_play ex_cfg (orderly_b ex_cfg) _ _ _ (does [LConnect 1; LConnect 2] ++ get_one 1 ++ get_second 2)
    (fun tr s => bool_decide (holding tr 1 = {[ (1, 0) ]} /\ holding tr 2 = {[ (1, 1) ]}) && match next ex_cfg (LDisconnect 1) s with Some _ => true | None => false end)).
  - intros. by apply orderly_by.
  - by vm_compute.
Qed.

(** ** C30 *)
(** From the moment at which the completion is in the database, in any state in which the chunk is
    reserved, no other request has got it already and no other removal of its reservation is due.
    [undisturbed k]: nobody reports a failure of the chunk, no connection whose set still has it
    ends, and the server does not crash. *)
Theorem C30_not_given_again : forall cfg s m e tr s',
  s_phase s = Written m true -> r_entries (s_res s) !! m_chunk m = Some e ->
  (forall t, (m_chunk m, t) ∉ r_pending (s_res s)) -> (forall c x, s_conns s !! c = Some x -> m_chunk m ∉ fetched x) ->
  run_to cfg (undisturbed cfg (m_chunk m)) s tr s' -> s_now s' < s_now s + 1000 -> s_now s' < e_at e + cf_ttl cfg ->
  forall l o c n g, (l, o) ∈ tr -> Given c n g ∈ o -> m_chunk m ∉ ids_of g.
Proof.
  intros cfg s m e tr s' Hp He Hpend Hf Hr H1 H2. eapply (kept_run cfg (m_chunk m) e (s_now s)).
  - constructor; [done| |done|lia]. intros t Ht. by destruct (Hpend t).
  - exact Hr.
  - exact H1.
  - by apply N.ltb_lt.
Qed.
Print Assumptions C30_not_given_again.
(** In an orderly run all of this is the case: after a completion by the holder nobody is given the
    chunk within a second, in particular not by a request that was under way. *)
Theorem C30_orderly : forall cfg h now tr s m tr2 s2,
  run_to cfg (orderly cfg) (server_start h now) tr s -> s_phase s = Written m true ->
  run_to cfg (fun tr2 s l => orderly cfg (tr ++ tr2) s l /\ forall oe, l <> LCrash oe) s tr2 s2 -> s_now s2 < s_now s + 1000 ->
  forall l o c n g, (l, o) ∈ tr2 -> Given c n g ∈ o -> m_chunk m ∉ ids_of g.
Proof.
  intros cfg h now tr s m tr2 s2 Hr Hp Hr2. pose proof (sinv_run _ _ _ _ _ Hr) as SI. pose proof SI as [I _].
  assert (Him : parcel m ∈ parcel <$> inbox s) by (apply elem_of_list_fmap; exists m; split; [done|]; unfold inbox; rewrite Hp; left).
  destruct (i_mail _ _ _ _ _ I (m_conn m) (m_chunk m) Him) as [(x & Hx & Ho & Hin) _].
  pose proof (i_set _ _ _ _ _ I _ _ _ Hx Ho Hin) as Hmine. pose proof Hmine as (e & He & Hh).
  assert (K : kept (m_chunk m) e (s_now s) s).
  { constructor; [done| | |lia].
    - intros t Ht. destruct (i_pend _ _ _ _ _ I (m_chunk m)) as [_ Hno]; [apply elem_of_list_fmap; by exists (m_chunk m, t)|].
      by destruct (Hno _ _ Hx Ho).
    - intros c y Hy Hk. destruct (i_fetch _ _ _ _ _ I c (core_of y) (m_chunk m)) as (Hoy & Hns & Hm); [by apply cores_lookup|done|].
      assert (c = m_conn m) as -> by (by eapply mine_inj). rewrite (cores_lookup _ _ _ Hy) in Hx. injection Hx as <-. done. }
  assert (Hall : s_now s2 < s_now s + 1000 -> sinv (tr ++ tr2) s2 /\ kept (m_chunk m) e (s_now s) s2 /\ settling m s2 /\
    forall l o c n g, (l, o) ∈ tr2 -> Given c n g ∈ o -> m_chunk m ∉ ids_of g).
  { induction Hr2 as [|tr2 s1 l s2 o Hr2 IH [Hok Hnc] Hst]; intros Hnow.
    - rewrite app_nil_r. split_and!; [done|done|by left|]. intros l o c n g Hl. by apply elem_of_nil in Hl.
    - pose proof Hst as [_ Hn]. pose proof (next_now _ _ _ _ _ Hn) as Hle. destruct IH as (SI1 & K1 & S1 & H1); [lia|].
      pose proof (settling_undisturbed cfg m _ _ _ SI1 S1 Hok Hnc) as Hun.
      assert (Hlive : is_live (cf_ttl cfg) (s_now s1) e = true).
      { destruct Hok as [Ht _]. apply (Ht _ _ (kp_entry _ _ _ _ K1)). apply used_cores. destruct S1 as [S1|S1]; [|by right].
        destruct SI1 as [I1 _]. destruct (i_mail _ _ _ _ _ I1 (m_conn m) (m_chunk m)) as [(y & Hy & Hoy & Hky) _].
        { apply elem_of_list_fmap. exists m. split; [done|]. unfold inbox. rewrite S1. left. }
        left. exists (m_conn m), y. auto. }
      destruct (kept_step cfg (m_chunk m) e (s_now s) _ s1 l s2 o K1 Hun) as [K2 H2]; [unfold removal_delay; lia|done|done|].
      split_and!; [|done| |].
      + rewrite app_assoc. by eapply sinv_step.
      + eapply (settling_step cfg m e (s_now s)); try done. unfold removal_delay. lia.
      + intros l' o' c n g Hl. apply elem_of_app in Hl as [Hl|Hl]; [eauto|]. apply elem_of_list_singleton in Hl. injection Hl as -> ->. eauto. }
  intros Hnow. apply Hall. exact Hnow.
Qed.
Print Assumptions C30_orderly.
(** Consumer 2 starts a request, consumer 1 completes the first chunk, and consumer 2 reaches the row
    of that chunk 999 ms later: it passes over it and is given the second chunk. *)
Definition ex_slow1 : list (state -> label) :=
  does [LConnect 1; LConnect 2] ++ get_one 1 ++ [ask 2 1] ++ does [LReport 1 (1, 0) (Complete None); LWrite [] 2 2 2].
Definition ex_slow2 : list (state -> label) := does [LFinish; LTime 999; LRow 2; LRow 2; LJoin 2 false; LReply 2].
Example C30_example : exists tr1 s1 tr2 s2,
  run_to ex_cfg (fun tr s l => orderly ex_cfg tr s l /\ forall oe, l <> LCrash oe) (server_start ex_srv 0) tr1 s1 /\
  run_to ex_cfg (fun tr s l => orderly ex_cfg tr s l /\ forall oe, l <> LCrash oe) (server_start ex_srv 0) (tr1 ++ tr2) s2 /\
  match s_phase s1 with Written m true => bool_decide (m_chunk m = (1, 0)) | _ => false end &&
  (s_now s2 =? s_now s1 + 999) && bool_decide (given_last tr2 = Some (2, 77, [(1, 1)])) = true.
Proof.
  apply (by_play2 ex_cfg (fun tr s l => orderly_b ex_cfg tr s l && match l with LCrash _ => false | _ => true end)
    (fun tr s l => orderly ex_cfg tr s l /\ forall oe, l <> LCrash oe) ex_srv 0 ex_slow1 ex_slow2
    (fun tr1 s1 tr2 s2 => match s_phase s1 with Written m true => bool_decide (m_chunk m = (1, 0)) | _ => false end &&
  (s_now s2 =? s_now s1 + 999) && bool_decide (given_last tr2 = Some (2, 77, [(1, 1)])))).
  - intros tr s l [H1 H2]%andb_true_iff. split; [by apply orderly_by|]. intros oe ->. done.
  - by vm_compute.
Qed.

(** ** C55 *)
(** The documentation says that a crashed consumer's chunks count as failed. The end of a connection
    changes no retry counter: neither at once, nor by any later step of the server, however often
    consumers take the chunk and vanish, unless someone reports on a chunk ([no_reports]). Here
    consumer 1 is given a chunk and vanishes. *)
Theorem C55_refuted : exists cfg h now tr s1 s2 k r,
  fresh_ids h /\ run_to cfg (orderly cfg) (server_start h now) tr s1 /\ k ∈ holding tr 1 /\ waiting (s_db s1) k = Some r /\
  step_to cfg s1 (LDisconnect 1) s2 [Closed 1] /\
  forall tr' s', run_to cfg no_reports s2 tr' s' -> waiting (s_db s') k = Some r.
Proof.
  exists ex_cfg, ex_srv, 0.
  destruct (by_play ex_cfg (orderly_b ex_cfg) (orderly ex_cfg) ex_srv 0 (does [LConnect 1] ++ get_one 1)
    (fun tr s => bool_decide ((1, 0) ∈ holding tr 1) && bool_decide (waiting (s_db s) (1, 0) = Some (Chunk 1 0 None 0)) &&
       bool_decide (length (inbox s) = 0%nat) && match next ex_cfg (LDisconnect 1) s with Some _ => true | None => false end)) as (tr & s1 & Hr & Hp).
  - intros. by apply orderly_by.
  - by vm_compute.
  - apply andb_true_iff in Hp as [Hp P4]. apply andb_true_iff in Hp as [Hp P3]. apply andb_true_iff in Hp as [P1 P2].
    apply bool_decide_eq_true_1 in P1, P2, P3. apply nil_length_inv in P3.
    destruct (next ex_cfg (LDisconnect 1) s1) as [[s2 o]|] eqn:En; [|discriminate P4].
    destruct (disconnects _ _ _ _ _ En) as (x & _ & _ & _ & -> & ->).
    exists tr, s1, (close ex_cfg 1 x s1), (1, 0), (Chunk 1 0 None 0). split_and!; [exact ex_srv_fresh|exact Hr|exact P1|exact P2|split; [exact Logic.I|exact En]|].
    intros tr' s' Hr'. destruct (silent_run ex_cfg (close ex_cfg 1 x s1) tr' s' P3 Hr') as [_ Hh].
    unfold s_db. rewrite Hh. exact P2.
Qed.
Print Assumptions C55_refuted.
(** In general: *)
Theorem C55_disconnect_counts_nothing : forall cfg s c s' o, step_to cfg s (LDisconnect c) s' o -> s_hist s' = s_hist s /\ s_mail s' = s_mail s.
Proof. intros cfg s c s' o [_ Hn]. destruct (disconnects _ _ _ _ _ Hn) as (x & _ & _ & _ & -> & ->). done. Qed.
Print Assumptions C55_disconnect_counts_nothing.

(** ** C41 *)
(** After a crash at any point no chunk is reserved: whatever is waiting is offered. *)
Theorem C41_everything_offered : forall cfg s oe s' o,
  step_to cfg s (LCrash oe) s' o ->
  let reserved k := is_reserved (cf_ttl cfg) (s_now s') k (s_res s') in
  (forall k, reserved k = false) /\
  forall q off l, fresh_ids (s_hist s') -> offers q off (s_db s') (s_counts s') reserved l ->
    forall k r, waiting (s_db s') k = Some r -> r ∈ l.
Proof.
  intros cfg s oe s' o [_ Hn] reserved. injection Hn as <- <-.
  assert (Hres : forall k, reserved k = false) by (intros k; unfold reserved, is_reserved, get_live; cbn; by rewrite lookup_empty).
  split; [done|]. intros q off l Hf Ho k r Hw. destruct (offers_exact _ _ _ _ _ _ Hf Ho) as [_ Hel]. apply Hel. by rewrite (waiting_cid _ _ _ Hw).
Qed.
Print Assumptions C41_everything_offered.
(** A crash between writes changes no data. A crash during the write [e] leaves every waiting chunk
    as it was, unless [e] is about its submission and took its whole effect; and every completion
    that was recorded, unless [e] is a cleanup of older data. *)
Theorem C41_crash_between_writes : forall cfg s s' o, step_to cfg s (LCrash None) s' o -> s_db s' = s_db s.
Proof. intros cfg s s' o [_ Hn]. by injection Hn as <- <-. Qed.
Print Assumptions C41_crash_between_writes.
Theorem C41_crash_during_write : forall cfg s e s' o,
  step_to cfg s (LCrash (Some e)) s' o -> fresh_ids (s_hist s') ->
  (forall k r, waiting (s_db s) k = Some r ->
     waiting (s_db s') k = Some r \/ (about (e_op e) = Some k.1 /\ s_db s' = after (s_hist s ++ [quiet (e_op e)]))) /\
  (forall k c, completed_chunk (s_db s) k = Some c ->
     completed_chunk (s_db s') k = Some c \/ exists cutoff, e_op e = OCleanup cutoff /\ (kc_at c < cutoff)%Z).
Proof.
  intros cfg s e s' o [_ Hn] Hf. injection Hn as <- <-. split.
  - intros k r Hw. by apply waiting_stays.
  - intros k c Hc. by apply completed_stays.
Qed.
Print Assumptions C41_crash_during_write.
Example C41_example : exists tr s,
  run_to ex_cfg (orderly ex_cfg) (server_start ex_srv 100) tr s /\
  bool_decide (holding tr 1 = {[ (1, 0) ]}) && bool_decide (is_Some (waiting (s_db s) (1, 0))) && bool_decide (completed_chunk (s_db s) (1, 1) = Some (ChunkCompleted 1 1 (Some "y"%string) 5)) = true.
Proof.
  apply (by_play ex_cfg (orderly_b ex_cfg) _ _ _ (does [LConnect 1; LConnect 2] ++ get_one 1 ++ get_second 2 ++ does [LReport 2 (1, 1) (Complete (Some "y"%string)); LWrite [] 5 5 5])
    (fun tr s => bool_decide (holding tr 1 = {[ (1, 0) ]}) && bool_decide (is_Some (waiting (s_db s) (1, 0))) && bool_decide (completed_chunk (s_db s) (1, 1) = Some (ChunkCompleted 1 1 (Some "y"%string) 5)))).
  - intros. by apply orderly_by.
  - by vm_compute.
Qed.

(** ** C40 *)
(** [reliable]: no crash, and the database serves the completer. The reports may come from one
    consumer or from two. The last condition: the failure report has been dealt with. *)
Theorem C40_success_wins : forall cfg h now tr1 c k out o1 tr2 c' f o2 tr3 s,
  run_to cfg reliable (server_start h now) (tr1 ++ [(LReport c k (Complete out), o1)] ++ tr2 ++ [(LReport c' k (Fail f), o2)] ++ tr3) s ->
  fresh_ids (s_hist s) -> k ∈ holding tr1 c -> (length (s_mail s) <= length (sent tr3))%nat ->
  exists h1 h2 h3 n1 n2 t1 t2 t3,
    let before := h1 ++ [quiet (OComplete k out n1 n2)] ++ h2 in
    let failure := quiet (OFail k f (cf_retries cfg) t1 t2 t3) in
    s_hist s = before ++ [failure] ++ h3 /\
    after (before ++ [failure]) = after before /\ waiting (s_db s) k = None /\ failures (before ++ [failure] ++ h3) k = failures h1 k /\
    (is_Some (waiting (after h1) k) -> no_cleanup (h2 ++ [failure] ++ h3) ->
       completed_chunk (s_db s) k = Some (ChunkCompleted k.1 k.2 out n1)).
Proof.
  intros cfg h now tr1 c k out o1 tr2 c' f o2 tr3 s Hr Hf Hk Hlen.
  destruct (run_split _ _ _ _ _ _ Hr) as (s1 & Hr1 & Hr2). apply run_hist in Hr2 as Hpre.
  destruct (fifo _ _ _ _ _ Hr) as (es & dn & E1 & E2 & E3). destruct (fifo _ _ _ _ _ Hr1) as (es1 & dn1 & F1 & F2 & F3).
  destruct (given_known _ _ _ _ _ _ Hr1 (fresh_prefix_of _ _ Hpre Hf)) as [_ Hgk].
  destruct (holding_given _ _ _ Hk) as (l & o & n & g & G1 & G2 & G3). pose proof (Hgk _ _ _ _ _ _ G1 G2 G3) as Hid. clear Hgk G1 G2 G3 l o n g.
  unfold sent in E2. rewrite !omap_app in E2. cbn in E2. fold (sent tr1) (sent tr2) (sent tr3) in E2.
  set (mC := Mail c k (Complete out)) in *. set (mF := Mail c' k (Fail f)) in *.
  assert (HX : exists X, dn = sent tr1 ++ mC :: sent tr2 ++ mF :: X).
  { replace (sent tr1 ++ mC :: sent tr2 ++ mF :: sent tr3) with ((sent tr1 ++ mC :: sent tr2 ++ [mF]) ++ sent tr3) in E2
      by (rewrite <- app_assoc; cbn; by rewrite <- app_assoc).
    apply app_eq_inv in E2 as [(x & Ea & Eb)|(x & -> & Eb)].
    - destruct x; [|rewrite Eb, app_length in Hlen; cbn in Hlen; lia]. rewrite app_nil_r in Ea. exists []. by rewrite <- Ea.
    - exists x. rewrite <- app_assoc. cbn. by rewrite <- app_assoc. }
  destruct HX as [X ->]. apply Forall2_app_inv_l in E3 as (a & r & Ha & Hr0 & E3). inversion Hr0 as [|? ec ? r' HC Hr3]; subst. clear Hr0.
  apply Forall2_app_inv_l in Hr3 as (b & r & Hb & Hr0 & ->). inversion Hr0 as [|? ef ? x HF Hx]; subst. clear Hr0.
  destruct HC as (n1 & n2 & n3 & ->). destruct HF as (t1 & t2 & t3 & ->). cbn in E3.
  apply filter_split in E3 as (u & v & -> & Hu & Hv). apply filter_split in Hv as (v1 & v2 & -> & Hv1 & Hv2).
  assert (Hpu : es1 `prefix_of` u).
  { rewrite E1, F1 in Hpre. apply prefix_app_inv in Hpre as [es2 Hes]. symmetry in Hes.
    apply app_eq_inv in Hes as [(y & -> & Hy)|(y & -> & _)]; [|by eexists]. destruct y as [|z y]; [rewrite app_nil_r; done|]. exfalso.
    injection Hy as <- _. apply Forall2_length in F3, Ha. rewrite filter_app, filter_cons_True, app_length in F3 by done.
    assert (length (sent tr1) = length (dn1 ++ s_mail s1)) as Hl by (by rewrite F2). rewrite app_length in Hl. cbn in F3. rewrite Hu in F3. lia. }
  assert (Hid1 : k.1 ∈ inserted_ids (h ++ u)).
  { eapply inserted_prefix; [|exact Hid]. rewrite F1. by apply prefix_app. }
  exists (h ++ u), v1, v2, n1, n2, t1, t2, t3. cbn zeta.
  set (ec := quiet (OComplete k out n1 n2)). set (ef := quiet (OFail k f (cf_retries cfg) t1 t2 t3)).
  assert (Eh : s_hist s = ((h ++ u) ++ [ec] ++ v1) ++ [ef] ++ v2) by (rewrite E1, <- !app_assoc; done).
  rewrite Eh in Hf. pose proof (fresh_prefix _ _ Hf) as Hf1. pose proof Hf1 as Hf2. rewrite app_assoc in Hf2. apply fresh_prefix in Hf2 as Hf3. apply fresh_prefix in Hf3 as Hf4.
  assert (Hw : waiting (after ((h ++ u) ++ [ec])) k = None) by (by apply complete_ends).
  assert (Hid2 : k.1 ∈ inserted_ids ((h ++ u) ++ [ec])) by (eapply inserted_prefix; [by apply prefix_app_r|exact Hid1]).
  assert (Eh2 : ((h ++ u) ++ [ec] ++ v1) ++ [ef] ++ v2 = ((h ++ u) ++ [ec]) ++ (v1 ++ [ef] ++ v2)) by (rewrite <- !app_assoc; done).
  split_and!.
  - exact Eh.
  - by apply failure_after_completion.
  - unfold s_db. rewrite Eh, Eh2. rewrite Eh2 in Hf. destruct k. by apply not_waiting_forever.
  - rewrite Eh2 in Hf |- *. rewrite failures_not_waiting by done. rewrite failures_snoc. cbn. lia.
  - intros [r Hr'] Hn. unfold s_db. rewrite Eh, Eh2. rewrite Eh2 in Hf. apply completed_no_cleanup; [done|done|]. destruct k as [id i]. by eapply complete_waiting.
Qed.
Print Assumptions C40_success_wins.
Example C40_example : exists tr s,
  run_to ex_cfg reliable (server_start ex_srv 100) tr s /\
  bool_decide ((1, 0) ∈ holding (take 5 tr) 1) && bool_decide (length (s_mail s) = 0%nat) &&
  match drop 5 tr with (LReport 1 (1, 0) (Complete _), _) :: (LReport 1 (1, 0) (Fail _), _) :: _ => true | _ => false end &&
  bool_decide (completed_chunk (s_db s) (1, 0) = Some (ChunkCompleted 1 0 None 5)) = true.
Proof.
  apply (by_play ex_cfg (fun tr s l => match l with LCrash _ | LLost => false | LWrite fs _ _ _ => bool_decide (fs = []) | _ => true end) reliable _ _
    (does [LConnect 1] ++ get_one 1 ++ does [LReport 1 (1, 0) (Complete None); LReport 1 (1, 0) (Fail "expired"); LTime 5;
       LWrite [] 5 5 5; LFinish; LCounters true; LWrite [] 6 6 6; LFinish])
    (fun tr s => bool_decide ((1, 0) ∈ holding (take 5 tr) 1) && bool_decide (length (s_mail s) = 0%nat) &&
  match drop 5 tr with (LReport 1 (1, 0) (Complete _), _) :: (LReport 1 (1, 0) (Fail _), _) :: _ => true | _ => false end &&
  bool_decide (completed_chunk (s_db s) (1, 0) = Some (ChunkCompleted 1 0 None 5)))).
  - intros tr s l. destruct l; try done. apply bool_decide_eq_true_1.
  - by vm_compute.
Qed.

(** ** C42 *)
(** Consumers work ([working]): each event is a report, completion or failure, on a chunk that is
    waiting at that time. [work_left] of the waiting chunks decreases with each report, *)
Theorem C42_work_decreases : forall mx h k e l l',
  fresh_ids h -> is_Some (waiting (after h) k) -> worked mx k e ->
  lists_waiting (after h) l -> lists_waiting (after (h ++ [e])) l' -> work_left mx l' < work_left mx l.
Proof. exact work_decreases. Qed.
Print Assumptions C42_work_decreases.
(** so that there are at most that many reports; *)
Theorem C42_reports_bounded : forall mx h es l,
  fresh_ids h -> working mx h es -> lists_waiting (after h) l -> N.of_nat (length es) <= work_left mx l.
Proof. intros mx h es l. apply working_bounded. Qed.
Print Assumptions C42_reports_bounded.
(** as long as a submission with chunks is in progress there is something to report on; *)
Theorem C42_in_progress_has_work : forall mx h id s,
  fresh_ids h -> reports (after h) id (InProgress s) -> 0 < s_total s ->
  exists k e, k.1 = id /\ is_Some (waiting (after h) k) /\ worked mx k e.
Proof.
  intros mx h id s Hf Hs Hpos. destruct (in_progress_open h id s Hf Hs) as [?|(i & _ & _ & Hw)]; [lia|].
  exists (id, i), (quiet (OComplete (id, i) None 0 0)). split; [done|]. split; [done|]. left. by eexists _, _, _.
Qed.
Print Assumptions C42_in_progress_has_work.
(** and when there is nothing left, every such submission has reached its end: completed unless a
    failure was reported on it. *)
Theorem C42_all_finished : forall mx h es id s,
  fresh_ids h -> clocks_ok (h ++ es) \/ no_cleanup h -> working mx h es -> (forall k, waiting (after (h ++ es)) k = None) ->
  reports (after h) id (InProgress s) -> 0 < s_total s ->
  (exists c, reports (after (h ++ es)) id (Completed c)) \/
  (exists f c, reports (after (h ++ es)) id (Failed f c) /\ Exists (fun e => exists ix m mx' n1 n2 n3, e_op e = OFail (id, ix) m mx' n1 n2 n3) es).
Proof. intros mx h es id s Hf Hk Hw Hall. apply (working_ends mx); try done. Qed.
Print Assumptions C42_all_finished.
(** From every state completions alone lead there. *)
Theorem C42_can_finish : forall mx h, fresh_ids h -> clocks_ok h \/ no_cleanup h ->
  exists es, working mx h es /\ Forall completing es /\ (forall k, waiting (after (h ++ es)) k = None) /\
  forall id s, reports (after h) id (InProgress s) -> 0 < s_total s -> exists c, reports (after (h ++ es)) id (Completed c).
Proof.
  intros mx h Hf Hk. destruct (completing_all mx h Hf) as (es & H1 & H2 & H3). exists es. split_and!; try done.
  intros id s Hs Hpos. destruct (working_ends mx h es id s) as [|(f & c & _ & He)]; try done.
  - destruct Hk as [Hk|]; [left|by right]. apply Forall_app. split; [done|]. eapply Forall_impl; [exact H2|]. intros e (k & out & n & ->). cbn. lia.
  - exfalso. apply Exists_exists in He as (e & Hin & ix & m & mx' & n1 & n2 & n3 & He). rewrite Forall_forall in H2.
    destruct (H2 _ Hin) as (? & ? & ? & ->). discriminate He.
Qed.
Print Assumptions C42_can_finish.
(** A request to a server without reservations gets a chunk, if there is one. Full statement: for every
    strategy (C27_preferences_refuted). *)
Theorem C42_request_gets_work_partial : forall cfg s c q off rows s1 o1 tr s2 s3 o k,
  fresh_ids (s_hist s) -> q_max q <> 0 -> (preferences (q_strategy q) <= 63)%nat -> is_Some (waiting (s_db s) k) ->
  (forall k, is_reserved (cf_ttl cfg) (s_now s) k (s_res s) = false) ->
  step_to cfg s (LReserve c q off rows) s1 o1 -> run_to cfg (fetch_only c) s1 tr s2 -> step_to cfg s2 (LReply c) s3 o ->
  exists l, o = [Given c (q_nonce q) l] /\ l <> [] /\ forall r sub, (r, sub) ∈ l -> waiting (s_db s3) (c_sub r, c_index r) = Some r /\ reports (s_db s3) (c_sub r) (InProgress sub).
Proof.
  intros cfg s c q off rows s1 o1 tr s2 s3 o k Hf Hq Hp [r Hw] Hno H1 H2 H3.
  destruct (C27_gets_what_is_available_partial _ _ _ _ _ _ _ _ _ _ _ _ Hf Hq Hp H1 H2 H3) as (l & got & Hnd & Hl & _ & Hg & Hsub & _ & _ & -> & Hdb & _).
  assert (Hr : r ∈ l) by (apply Hl; rewrite (waiting_key _ _ _ Hw); done).
  destruct got as [|p got]; [exfalso|].
  - cbn in Hg. symmetry in Hg. apply take_nil_inv in Hg || idtac. destruct (N.to_nat (q_max q)) eqn:E; [lia|]. destruct l as [|a l]; [by apply elem_of_nil in Hr|]. discriminate Hg.
  - exists (p :: got). split_and!; [done|done|]. intros r' sub Hin. rewrite Hdb. rewrite Forall_forall in Hsub. split; [|apply (Hsub _ Hin)].
    apply Hl. apply (elem_of_list_fmap_1 fst) in Hin. cbn [fst] in Hin. rewrite Hg in Hin. by eapply elem_of_take in Hin as (i & Hi & _); apply elem_of_list_lookup_2 in Hi.
Qed.
Print Assumptions C42_request_gets_work_partial.
Example C42_example :
  let h := ex_srv ++ [quiet (OFail (1, 0) "x" 2 5 5 5)] in
  fresh_ids h /\ working 2 h [quiet (OComplete (1, 1) None 6 6); quiet (OFail (1, 0) "y" 2 7 7 7)] /\
  exists f c, reports (after (h ++ [quiet (OComplete (1, 1) None 6 6); quiet (OFail (1, 0) "y" 2 7 7 7)])) 1 (Failed f c).
Proof.
  intros h. split; [|split].
  - apply fresh_by. by vm_compute.
  - split; [|split; [|done]].
    + exists (1, 1). split; [by vm_compute; eexists|]. left. by eexists _, _, _.
    + exists (1, 0). split; [by vm_compute; eexists|]. right. by eexists _, _, _, _.
  - by_status (after (h ++ [quiet (OComplete (1, 1) None 6 6); quiet (OFail (1, 0) "y" 2 7 7 7)])) 1 (fun st => match st with Failed _ _ => true | _ => false end) Hst.
    destruct Hst as ([| |f c|] & Hs & E); try discriminate E. eauto.
Qed.

(** ** C32 *)
(** Full statement: the in-flight count of a value is the number of chunks being worked on whose
    submissions carry it. Proved for the runs in which no reservation expires, nothing gets lost to a
    database error, no old submissions are cleaned up, and consumers disconnect only when they hold
    nothing ([steady]), at every moment but one: between the removal of a chunk's reservation and the
    update of the counters just after it. [l] lists the chunks being worked on: those held by a
    consumer, those whose report is still to be dealt with, and those just collected for a request
    that is still running. *)
Theorem C32_counts_partial : forall cfg h now tr s l key v,
  run_to cfg (steady cfg) (server_start h now) tr s -> fresh_ids (s_hist s) -> (forall m, s_phase s <> Finished m) ->
  NoDup l ->
  (forall k, k ∈ l <-> (exists c, k ∈ holding tr c) \/ (exists m, m ∈ inbox s /\ m_chunk m = k) \/
     (exists c x f, s_conns s !! c = Some x /\ c_fetch x = Some f /\ exists p, p ∈ f_got f /\ (c_sub p.1, c_index p.1) = k)) ->
  count (s_counts s) key v = N.of_nat (length (filter (fun k : chunk_id => strategic_metadata (s_db s) k.1 !! key = Some v) l)).
Proof.
  intros cfg h now tr s l key v Hr Hf Hph Hnd Hl. destruct (cinv_run cfg h now tr s Hr Hf) as ([I Hop] & [B O F] & [C1 C2 C3]).
  rewrite C2. f_equal. change (carrying (s_db s) key v (flight s) = carrying (s_db s) key v l). apply carrying_perm.
  unfold flight, finishing. replace (match s_phase s with Finished m => [m_chunk m] | _ => [] end) with (@nil chunk_id) by (destruct (s_phase s); [done|done|by destruct (Hph m)]).
  rewrite app_nil_r.
  assert (Hopen : forall c x f, s_conns s !! c = Some x -> c_fetch x = Some f -> c_open x = true).
  { intros c x f Hx Hf0. destruct (c_open x) eqn:Eo; [done|]. by rewrite (F _ _ Hx Eo) in Hf0. }
  assert (Hcol : forall x k, k ∈ collected x -> k ∈ fetched x).
  { intros x k. unfold collected, fetched. destruct (c_fetch x); [|done]. rewrite elem_of_app. tauto. }
  assert (Hmine : forall c x k, s_conns s !! c = Some x -> k ∈ has x -> mine (r_entries (s_res s)) c k).
  { intros c x k Hx Hk. unfold has in Hk. destruct (c_open x) eqn:Eo; [|by apply elem_of_nil in Hk]. apply elem_of_app in Hk as [Hk|Hk].
    - eapply (i_set _ _ _ _ _ I); [by apply cores_lookup|done|]. by apply elem_of_elements.
    - eapply (i_fetch _ _ _ _ _ I c (core_of x)); [by apply cores_lookup|]. by apply Hcol. }
  apply NoDup_Permutation; [|done|].
  - apply nodup_flat.
    + intros c a. rewrite lookup_fmap. intros (x & Hx & ->)%fmap_Some. unfold has. destruct (c_open x) eqn:Eo; [|constructor]. apply NoDup_app. split_and!.
      * apply NoDup_elements.
      * intros k Hk Hk'. apply elem_of_elements in Hk. destruct (i_fetch _ _ _ _ _ I c (core_of x) k) as (_ & Hno & _); [by apply cores_lookup|by apply Hcol|]. done.
      * pose proof (i_fetch_nd _ _ _ _ _ I c (core_of x) ltac:(by apply cores_lookup)) as Hn. cbn in Hn. unfold fetched in Hn. unfold collected.
        destruct (c_fetch x); [|constructor]. by apply NoDup_app in Hn as [? _].
    + intros c c' a a' k. rewrite !lookup_fmap. intros (x & Hx & ->)%fmap_Some (x' & Hx' & ->)%fmap_Some H1 H2. eapply mine_inj; eauto.
  - intros k. rewrite Hl, elem_flat. split.
    + intros (c & a & E & Hk). rewrite lookup_fmap in E. apply fmap_Some in E as (x & Hx & ->). unfold has in Hk. destruct (c_open x) eqn:Eo; [|by apply elem_of_nil in Hk].
      apply elem_of_app in Hk as [Hk|Hk].
      * apply elem_of_elements in Hk. destruct (O _ _ _ Hx Eo Hk) as [|(m & Hm & _ & E)]; eauto.
      * right. right. unfold collected in Hk. destruct (c_fetch x) as [f|] eqn:Ef; [|by apply elem_of_nil in Hk]. apply elem_of_list_fmap in Hk as (p & -> & Hp). exists c, x, f. eauto.
    + assert (Hset : forall c kx, cores_of s !! c = Some kx -> k_open kx = true -> k ∈ k_set kx -> exists c a, (has <$> s_conns s) !! c = Some a /\ k ∈ a).
      { intros c kx Hkx Ho Hk. unfold cores_of in Hkx. rewrite lookup_fmap in Hkx. apply fmap_Some in Hkx as (x & Hx & ->). cbn in Ho, Hk. exists c, (has x).
        rewrite lookup_fmap, Hx. split; [done|]. unfold has. rewrite Ho. apply elem_of_app. left. by apply elem_of_elements. }
      intros [(c & Hh)|[(m & Hm & Ek)|(c & x & f & Hx & Hfe & p & Hp & <-)]].
      * destruct (i_held _ _ _ _ _ I _ _ Hh) as (kx & H1 & H2 & H3). eauto.
      * destruct (i_mail _ _ _ _ _ I (m_conn m) (m_chunk m)) as [(kx & H1 & H2 & H3) _]; [apply elem_of_list_fmap; by exists m|]. subst k. eauto.
      * exists c, (has x). rewrite lookup_fmap, Hx. split; [done|]. unfold has, collected. rewrite (Hopen _ _ _ Hx Hfe), Hfe. apply elem_of_app. right. apply elem_of_list_fmap. eauto.
Qed.
Print Assumptions C32_counts_partial.
(** A consumer that disconnects while it holds a chunk leaves the counters behind: nobody holds
    anything, no request is running, nothing is left to be dealt with, and the count is one. *)
Theorem C32_refuted : exists cfg h now tr s,
  run_to cfg (orderly cfg) (server_start h now) tr s /\ fresh_ids (s_hist s) /\
  (forall c, holding tr c = ∅) /\ (forall c x, s_conns s !! c = Some x -> c_fetch x = None) /\
  inbox s = [] /\ s_phase s = Ready /\ (forall k, is_reserved (cf_ttl cfg) (s_now s) k (s_res s) = false) /\
  count (s_counts s) "k" 5%Z = 1.
Proof.
  exists ex_cfg, ex_srv, 0.
  destruct (by_play ex_cfg (orderly_b ex_cfg) (orderly ex_cfg) ex_srv 0 (does [LConnect 1] ++ get_one 1 ++ does [LDisconnect 1])
    (fun tr s => bool_decide (NoDup (inserted_ids (s_hist s))) && bool_decide (length (inbox s) = 0%nat) &&
       match s_phase s with Ready => true | _ => false end && bool_decide (length (map_to_list (r_entries (s_res s))) = 0%nat) && (count (s_counts s) "k" 5%Z =? 1) &&
       forallb (fun p => negb (c_open p.2) && match c_fetch p.2 with None => true | Some _ => false end) (map_to_list (s_conns s)))) as (tr & s & Hr & Hp).
  - intros. by apply orderly_by.
  - by vm_compute.
  - apply andb_true_iff in Hp as [Hp P6]. apply andb_true_iff in Hp as [Hp P5].
    apply andb_true_iff in Hp as [Hp P4]. apply andb_true_iff in Hp as [Hp P3]. apply andb_true_iff in Hp as [P1 P2].
    apply bool_decide_eq_true_1 in P2, P4. apply nil_length_inv in P2, P4. apply N.eqb_eq in P5. apply map_to_list_empty_iff in P4.
    assert (Hx : forall c x, s_conns s !! c = Some x -> c_open x = false /\ c_fetch x = None).
    { intros c x Hx. rewrite forallb_forall in P6. specialize (P6 (c, x) ltac:(by apply elem_of_list_In, elem_of_map_to_list)). cbn in P6.
      destruct (c_open x); [done|]. by destruct (c_fetch x). }
    exists tr, s. split_and!; try assumption; [by apply fresh_by| |by intros; eapply Hx| |].
    + intros c. apply set_eq. intros k. split; [|set_solver]. intros Hk. destruct (sinv_run _ _ _ _ _ Hr) as [I _].
      destruct (i_held _ _ _ _ _ I _ _ Hk) as (kx & Hkx & Ho & _). unfold cores_of in Hkx. rewrite lookup_fmap in Hkx. apply fmap_Some in Hkx as (x & E & ->).
      cbn in Ho. destruct (Hx _ _ E) as [E' _]. congruence.
    + by destruct (s_phase s).
    + intros k. unfold is_reserved, get_live. by rewrite P4, lookup_empty.
Qed.
Print Assumptions C32_refuted.
(** The hypotheses of the partial theorem are met: both chunks of a submission have been given to
    consumers and one has been reported; both count, until the report has been dealt with. *)
Definition steady_b (cfg : config) (tr : trace) (s : state) (l : label) : bool :=
  orderly_b cfg tr s l &&
  match l with
  | LLost | LFetchError _ | LJoin _ true | LCounters false | LProducer _ => false
  | LJoin _ false => match next cfg l s with Some (_, []) => true | _ => false end
  | LDisconnect c => bool_decide (holding tr c = ∅)
  | _ => true
  end.
Lemma steady_by cfg tr s l : steady_b cfg tr s l = true -> steady cfg tr s l.
Proof.
  unfold steady_b. intros [H1 H2]%andb_true_iff. split; [by apply orderly_by|]. split; [split; [by intros ->|]; split; [by intros c ->|]|split; [by intros ->|split; [|by intros e ->]]].
  - intros c f s' o -> Hn Hc. destruct f; [done|]. rewrite Hn in H2. destruct o; [by apply elem_of_nil in Hc|done].
  - intros c ->. by apply bool_decide_eq_true_1 in H2.
Qed.
Example C32_example : exists tr s,
  run_to ex_cfg (steady ex_cfg) (server_start ex_srv 0) tr s /\
  bool_decide (holding tr 1 = ∅) && bool_decide (holding tr 2 = {[ (1, 1) ]}) && bool_decide (m_chunk <$> inbox s = [(1, 0)]) && (count (s_counts s) "k" 5%Z =? 2) = true.
Proof.
  apply (by_play ex_cfg (steady_b ex_cfg) (steady ex_cfg) _ _ (does [LConnect 1; LConnect 2] ++ get_one 1 ++ get_second 2 ++ does [LReport 1 (1, 0) (Complete None)])
    (fun tr s => bool_decide (holding tr 1 = ∅) && bool_decide (holding tr 2 = {[ (1, 1) ]}) && bool_decide (m_chunk <$> inbox s = [(1, 0)]) && (count (s_counts s) "k" 5%Z =? 2))).
  - apply steady_by.
  - by vm_compute.
Qed.
Example C32_example_done : exists tr s,
  run_to ex_cfg (steady ex_cfg) (server_start ex_srv 0) tr s /\
  bool_decide (holding tr 1 = ∅) && bool_decide (holding tr 2 = {[ (1, 1) ]}) && (count (s_counts s) "k" 5%Z =? 1) && match s_phase s with Ready => true | _ => false end = true.
Proof.
  apply (by_play ex_cfg (steady_b ex_cfg) (steady ex_cfg) _ _ (does [LConnect 1; LConnect 2] ++ get_one 1 ++ get_second 2 ++ does [LReport 1 (1, 0) (Complete None); LWrite [] 5 5 5; LFinish; LCounters true])
    (fun tr s => bool_decide (holding tr 1 = ∅) && bool_decide (holding tr 2 = {[ (1, 1) ]}) && (count (s_counts s) "k" 5%Z =? 1) && match s_phase s with Ready => true | _ => false end)).
  - apply steady_by.
  - by vm_compute.
Qed.

(** ** C36 *)
(** Full statement: a request is always answered, and whatever it reserved is handed out. Proved:
    as long as the submission of the chunk at hand is still in progress, a running request can take
    a step towards its answer ([todo] decreases), and the answer hands out all that it collected;
    the request for no chunks is refused at once (C27_zero_refused). *)
Definition todo (f : fetch) : nat := 2 * length (f_rows f) + match f_join f with Some _ => 1 | None => 0 end.
Theorem C36_answered_partial : forall cfg s c x f,
  s_conns s !! c = Some x -> c_fetch x = Some f ->
  (forall r, f_join f = Some r -> exists sub, reports (s_db s) (c_sub r) (InProgress sub)) ->
  exists l s' o x', (l = LRow c \/ l = LJoin c false \/ l = LReply c) /\ step_to cfg s l s' o /\ s_conns s' !! c = Some x' /\ c_open x' = c_open x /\
    ((o = [] /\ exists f', c_fetch x' = Some f' /\ f_req f' = f_req f /\ (todo f' < todo f)%nat) \/
     (c_fetch x' = None /\ f_got f <> [] /\ o = [Given c (q_nonce (f_req f)) (f_got f)] /\ ids_of (f_got f) ⊆ c_set x') \/
     (c_fetch x' = None /\ f_got f = [] /\ o = [] /\ f_req f ∈ c_spawned x')).
Proof.
  intros cfg s c x [q rows got j] Hx Hf Hj. cbn [f_join f_got f_req] in *. destruct j as [r|].
  - destruct (Hj r eq_refl) as [sub Hs]. apply joined_reports in Hs. eexists (LJoin c false), _, _, _. split; [tauto|]. unfold step_to, next. rewrite Hx, Hf, Hs.
    split_and!; [done|done|cbn; by rewrite lookup_insert|done|]. left. split; [done|]. eexists. split; [done|]. split; [done|]. unfold todo. cbn. lia.
  - destruct (bool_decide (rows = []) || (q_max q <=? N.of_nat (length got))) eqn:Eb.
    + destruct got as [|g got].
      * eexists (LReply c), _, _, _. split; [tauto|]. unfold step_to, next. rewrite Hx, Hf, Eb. split_and!; [done|done|cbn; by rewrite lookup_insert|done|].
        right. right. cbn. set_solver.
      * eexists (LReply c), _, _, _. split; [tauto|]. unfold step_to, next. rewrite Hx, Hf, Eb. split_and!; [done|done|cbn; by rewrite lookup_insert|done|].
        right. left. split; [done|]. split; [done|]. split; [done|]. cbn [c_set]. apply union_subseteq_r.
    + apply orb_false_iff in Eb as [E1 E2]. apply bool_decide_eq_false_1 in E1. apply N.leb_gt in E2. destruct rows as [|r rows]; [done|].
      destruct (try_reserve (cf_ttl cfg) (s_now s) (cid_of r) c (s_res s)) as [[ok res] ns] eqn:Er.
      assert (Hl : <[c := with_fetch (Some (Fetch q rows got (if ok then Some r else None))) x]> (s_conns s) !! c = Some (with_fetch (Some (Fetch q rows got (if ok then Some r else None))) x)) by apply lookup_insert.
      destruct (deliver_fwd ns _ _ _ Hl) as [rx Hd].
      eexists (LRow c), _, _, _. split; [tauto|]. unfold step_to, next. rewrite Hx, Hf, (proj2 (N.ltb_lt _ _) E2), Er. split_and!; [done|done|exact Hd|done|].
      left. split; [done|]. eexists. split; [done|]. split; [done|]. unfold todo. cbn. destruct ok; cbn; lia.
Qed.
Print Assumptions C36_answered_partial.
(** A connection ends, other than from outside between two requests, only when a request of its own
    has reserved a chunk and finds its submission no longer in progress (or a database error). *)
Theorem C36_ends_only_partial : forall cfg s l s' o c,
  step_to cfg s l s' o -> Closed c ∈ o ->
  exists x, s_conns s !! c = Some x /\
    (l = LDisconnect c /\ c_fetch x = None \/
     exists f r fault, l = LJoin c fault /\ c_fetch x = Some f /\ f_join f = Some r /\
       (fault = true \/ forall sub, ~ reports (s_db s) (c_sub r) (InProgress sub))).
Proof.
  intros cfg s l s' o c [_ Hn] Hc. destruct l; unfold next in Hn;
    try (repeat case_match; simplify_eq; (by apply elem_of_nil in Hc) || (apply elem_of_list_singleton in Hc; discriminate Hc)).
  - destruct (s_conns s !! c0) as [x|] eqn:Ec; [|done]. destruct (c_open x); [|done]. destruct (c_fetch x) eqn:Ef; [done|].
    injection Hn as <- <-. apply elem_of_list_singleton in Hc. injection Hc as ->. exists x. split; [done|]. by left.
  - destruct (s_conns s !! c0) as [x|] eqn:Ec; [|done]. destruct (c_fetch x) as [[q rows got [r|]]|] eqn:Ef; [|done|done].
    destruct (if fault then None else joined_submission (s_db s) r) as [sub|] eqn:Ej; injection Hn as <- <-; [by apply elem_of_nil in Hc|].
    apply elem_of_list_singleton in Hc. injection Hc as ->. exists x. split; [done|]. right. exists (Fetch q rows got (Some r)), r, fault. split_and!; try done.
    destruct fault; [by left|right]. intros sub Hs. apply joined_reports in Hs. congruence.
Qed.
Print Assumptions C36_ends_only_partial.
(** If that does not happen, and no report and no fetch is lost to a database error ([careful]),
    every reservation is accounted for: some consumer has been given the chunk and has not reported
    on it, or its report is still to be dealt with, or a running request has just reserved it, or it
    was finished and its delayed removal is to come. *)
Theorem C36_nothing_left_partial : forall cfg h now tr s k,
  run_to cfg (careful cfg) (server_start h now) tr s -> is_reserved (cf_ttl cfg) (s_now s) k (s_res s) = true ->
  (exists c, k ∈ holding tr c) \/ (exists m, m ∈ inbox s /\ m_chunk m = k) \/
  (exists c x, s_conns s !! c = Some x /\ c_open x = true /\ k ∈ fetched x) \/ k ∈ (r_pending (s_res s)).*1.
Proof.
  intros cfg h now tr s k Hr Hk. destruct (linv_run cfg (careful cfg) h now tr s) as [B O F]; [done|exact Hr|].
  unfold is_reserved, get_live in Hk. destruct (r_entries (s_res s) !! k) as [e|] eqn:Ee; [|done]. destruct (is_live _ _ e) eqn:El; [|done].
  destruct (B k e Ee El) as [(x & Hx & Ho & [Hin|Hin])|]; [|eauto 10|by eauto].
  destruct (O _ _ _ Hx Ho Hin) as [|(m & Hm & _ & H2)]; eauto 10.
Qed.
Print Assumptions C36_nothing_left_partial.
(** Consumer 1 asks for two chunks. The first, of submission 1, is reserved and collected; the second,
    of submission 2, is reserved; then submission 2 is cancelled. The connection breaks down although
    nothing failed, and the first chunk stays reserved although nobody has been given it. *)
Definition ask_three (c : N) : list (state -> label) := [fun s => LReserve c (Req 7 3 Oldest) 0 (rows_now (Req 7 3 Oldest) 0 s)].
Definition cancel_race : list (state -> label) :=
  does [LConnect 1] ++ ask_three 1 ++
  does [LRow 1; LJoin 1 false; LRow 1; LJoin 1 false; LRow 1; LProducer (quiet (OCancel 2 5 5)); LJoin 1 false].
Theorem C36_refuted : exists cfg h now tr s k r,
  fresh_ids h /\ run_to cfg (orderly cfg) (server_start h now) tr s /\
  last tr = Some (LJoin 1 false, [Closed 1]) /\
  waiting (s_db s) k = Some r /\ is_reserved (cf_ttl cfg) (s_now s) k (s_res s) = true /\
  (forall l o c n g, (l, o) ∈ tr -> Given c n g ∉ o) /\ inbox s = [] /\ r_pending (s_res s) = [].
Proof.
  exists ex_cfg, ex_srv, 0.
  destruct (by_play ex_cfg (orderly_b ex_cfg) (orderly ex_cfg) ex_srv 0 cancel_race
    (fun tr s => match last tr with Some (LJoin 1 false, [Closed 1]) => true | _ => false end &&
       bool_decide (waiting (s_db s) (1, 0) = Some (Chunk 1 0 None 0)) && is_reserved 60000 (s_now s) (1, 0) (s_res s) &&
       forallb (fun lo => forallb (fun y => match y with Given _ _ _ => false | _ => true end) lo.2) tr &&
       bool_decide (length (inbox s) = 0%nat) && bool_decide (length (r_pending (s_res s)) = 0%nat))) as (tr & s & Hr & Hp).
  - intros. by apply orderly_by.
  - by vm_compute.
  - apply andb_true_iff in Hp as [Hp P6]. apply andb_true_iff in Hp as [Hp P5]. apply andb_true_iff in Hp as [Hp P4].
    apply andb_true_iff in Hp as [Hp P3]. apply andb_true_iff in Hp as [P1 P2]. apply bool_decide_eq_true_1 in P2, P5, P6. apply nil_length_inv in P5, P6.
    exists tr, s, (1, 0), (Chunk 1 0 None 0). split_and!; try assumption; [exact ex_srv_fresh| |].
    + destruct (last tr) as [[l o]|]; [|discriminate P1]. destruct l as [| | | | | | | |c f| | | | | | | | | | | | |]; try discriminate P1.
      destruct c as [|[]], f; try discriminate P1.
      destruct o as [|y o]; [discriminate P1|]. destruct y as [| | |c']; try discriminate P1. destruct c' as [|[]]; try discriminate P1. destruct o; [|discriminate P1]. done.
    + intros l o c n g Hin Hg. rewrite forallb_forall in P4. apply elem_of_list_In in Hin. specialize (P4 _ Hin). cbn in P4.
      rewrite forallb_forall in P4. apply elem_of_list_In in Hg. by specialize (P4 _ Hg).
Qed.
Print Assumptions C36_refuted.
(** The hypotheses of the partial theorems are met: a careful run with a request under way. *)
Example C36_example : exists tr s,
  run_to ex_cfg (careful ex_cfg) (server_start ex_srv 0) tr s /\
  bool_decide ((fetched <$> s_conns s !! 1) = Some [(1, 0); (1, 1)]) && is_reserved 60000 (s_now s) (1, 0) (s_res s) = true.
Proof.
  apply (by_play ex_cfg (fun tr s l => match l with LLost | LFetchError _ | LJoin _ true => false | LJoin _ false => match next ex_cfg l s with Some (_, []) => true | _ => false end | _ => true end) (careful ex_cfg) _ _
    (does [LConnect 1] ++ ask_three 1 ++ does [LRow 1; LJoin 1 false; LRow 1])
    (fun tr s => bool_decide ((fetched <$> s_conns s !! 1) = Some [(1, 0); (1, 1)]) && is_reserved 60000 (s_now s) (1, 0) (s_res s))).
  - intros tr s l Hl. split; [by intros ->|]. split; [by intros c ->|]. intros c f s' o -> Hn Hc. destruct f; [done|]. rewrite Hn in Hl. destruct o; [by apply elem_of_nil in Hc|done].
  - by vm_compute.
Qed.

(** ** C37 *)
(** Full statement: whenever a chunk becomes available while a consumer's request waits, the consumer
    is given one. Proved: an insert that happens once the request is registered leads to a retry of
    the request. An accepted insert is followed by a wake-up call, *)
Theorem C37_insert_calls_partial : forall cfg s e s' o id,
  step_to cfg s (LProducer e) s' o -> answer_of (s_db s) e = Some (AInsert (Ok id)) ->
  s_notifies s' = S (s_notifies s) /\ exists s2, step_to cfg s' LNotify s2 [].
Proof.
  intros cfg s e s' o id [_ Hn] Ha. unfold next in Hn. destruct (is_producer_op _); [|done]. injection Hn as <- <-. unfold wakes. rewrite Ha. cbn. split; [done|].
  eexists. split; [exact Logic.I|]. unfold next. cbn. done.
Qed.
Print Assumptions C37_insert_calls_partial.
(** which takes every registered request of every connection, *)
Theorem C37_call_wakes_partial : forall cfg s s' o c x,
  step_to cfg s LNotify s' o -> s_conns s !! c = Some x ->
  exists x', s_conns s' !! c = Some x' /\ c_retry x' = c_retry x ++ c_waiting x /\ c_open x' = c_open x /\ c_fetch x' = c_fetch x.
Proof.
  intros cfg s s' o c x [_ Hn] Hx. unfold next in Hn. destruct (s_notifies s); [done|]. injection Hn as <- <-. cbn. rewrite lookup_fmap, Hx. cbn. eauto.
Qed.
Print Assumptions C37_call_wakes_partial.
(** a woken request is not forgotten until it is tried again (or the connection or the server ends), *)
Theorem C37_woken_stays_partial : forall cfg s c x tr s',
  run_to cfg (fun tr s l => (forall oe, l <> LCrash oe) /\ (forall off rows, l <> LRetry c off rows) /\
                            forall s' o, next cfg l s = Some (s', o) -> Closed c ∉ o) s tr s' ->
  s_conns s !! c = Some x -> exists x' more, s_conns s' !! c = Some x' /\ c_open x' = c_open x /\ c_retry x' = c_retry x ++ more.
Proof.
  intros cfg s c x tr s' Hr Hx. induction Hr as [|tr s1 l s2 o Hr IH (K1 & K2 & K3) [_ Hn]]; [exists x, []; by rewrite app_nil_r|].
  destruct IH as (y & more & Hy & Eo & Er). specialize (K3 _ _ Hn).
  enough (exists z more', s_conns s2 !! c = Some z /\ c_open z = c_open y /\ c_retry z = c_retry y ++ more') as (z & more' & Hz & Ez & Erz).
  { exists z, (more ++ more'). split; [done|]. split; [congruence|]. by rewrite Erz, Er, app_assoc. }
  assert (Hset : forall c0 x0 x1 s0, s_conns s0 = <[c0 := x1]> (s_conns s1) -> s_conns s1 !! c0 = Some x0 -> c_open x1 = c_open x0 -> c_retry x1 = c_retry x0 ->
    exists z more', s_conns s0 !! c = Some z /\ c_open z = c_open y /\ c_retry z = c_retry y ++ more').
  { intros c0 x0 x1 s0 -> H0 E1 E2. destruct (decide (c0 = c)) as [->|Hne].
    - exists x1, []. rewrite lookup_insert, app_nil_r. split; [done|]. rewrite Hy in H0. injection H0 as <-. done.
    - exists y, []. rewrite lookup_insert_ne, app_nil_r by done. done. }
  assert (Hsame : s_conns s2 = s_conns s1 -> exists z more', s_conns s2 !! c = Some z /\ c_open z = c_open y /\ c_retry z = c_retry y ++ more').
  { intros ->. exists y, []. by rewrite app_nil_r. }
  assert (Hdel : forall ns cs, s_conns s2 = foldl deliver cs ns -> (exists z more', cs !! c = Some z /\ c_open z = c_open y /\ c_retry z = c_retry y ++ more') ->
    exists z more', s_conns s2 !! c = Some z /\ c_open z = c_open y /\ c_retry z = c_retry y ++ more').
  { intros ns cs -> (z & more' & Hz & E1 & E2). destruct (deliver_fwd ns _ _ _ Hz) as [rx Hd]. eexists _, more'. split; [exact Hd|]. done. }
  destruct l; unfold next in Hn.
  - destruct (is_producer_op _); [|done]. injection Hn as <- <-. by apply Hsame.
  - destruct (s_notifies s1) as [|n]; [done|]. injection Hn as <- <-. cbn. rewrite lookup_fmap, Hy. cbn. by eexists _, _.
  - destruct (s_conns s1 !! c0) eqn:Ec; [done|]. injection Hn as <- <-. cbn. exists y, []. rewrite lookup_insert_ne, app_nil_r by congruence. done.
  - destruct (s_conns s1 !! c0) as [x0|] eqn:Ec; [|done]. destruct (c_open x0) eqn:E0; [|done]. destruct (c_fetch x0); [done|]. injection Hn as <- <-.
    assert (Hne : c <> c0) by (intros ->; apply K3; left). destruct (close_others cfg c0 x0 s1 c y Hne Hy) as [rx Hd]. eexists _, []. split; [exact Hd|]. by rewrite app_nil_r.
  - destruct (s_conns s1 !! c0) as [x0|] eqn:Ec; [|done]. destruct (c_open x0) eqn:E0; [|done]. destruct (c_fetch x0); [done|].
    destruct (q_max q =? 0); [|destruct (can_ask _); cbn [negb] in Hn]; injection Hn as <- <-; [by apply Hsame| |by apply Hsame]. by eapply (Hset c0 x0).
  - destruct (decide (c0 = c)) as [->|Hne]; [by destruct (K2 off rows)|]. destruct (s_conns s1 !! c0) as [x0|] eqn:Ec; [|done]. destruct (c_open x0) eqn:E0; [|done]. destruct (c_fetch x0); [done|].
    destruct (c_retry x0) as [|q rest]; [done|]. destruct (q_max q =? 0); [|destruct (can_ask _); cbn [negb] in Hn]; injection Hn as <- <-; cbn; exists y, []; rewrite lookup_insert_ne, app_nil_r by done; done.
  - destruct (s_conns s1 !! c0) as [x0|] eqn:Ec; [|done]. destruct (c_fetch x0) as [[q [|r rows] got [?|]]|] eqn:Ef; try done. destruct (_ <? _); [|done].
    destruct (try_reserve (cf_ttl cfg) (s_now s1) (cid_of r) c0 (s_res s1)) as [[ok res] ns] eqn:Et. injection Hn as <- <-.
    eapply (Hdel ns); [done|]. by eapply (Hset c0 x0 _ (set_conn c0 _ s1)).
  - destruct (s_conns s1 !! c0) as [x0|] eqn:Ec; [|done]. destruct (c_fetch x0) as [[q rows got j]|] eqn:Ef; [|done].
    destruct (rows !! i); [|done]. destruct (is_reserved _ _ _ _); [|done]. injection Hn as <- <-. by eapply (Hset c0 x0).
  - destruct (s_conns s1 !! c0) as [x0|] eqn:Ec; [|done]. destruct (c_fetch x0) as [[q rows got [r|]]|] eqn:Ef; [|done|done].
    destruct (if fault then None else joined_submission (s_db s1) r) as [sub|]; injection Hn as <- <-; [by eapply (Hset c0 x0)|].
    assert (Hne : c <> c0) by (intros ->; apply K3; left). destruct (close_others cfg c0 x0 s1 c y Hne Hy) as [rx Hd]. eexists _, []. split; [exact Hd|]. by rewrite app_nil_r.
  - destruct (s_conns s1 !! c0) as [x0|] eqn:Ec; [|done]. destruct (c_fetch x0) as [[q rows got j]|] eqn:Ef; [|done].
    injection Hn as <- <-. by eapply (Hset c0 x0).
  - destruct (s_conns s1 !! c0) as [x0|] eqn:Ec; [|done]. destruct (c_fetch x0) as [[q rows got [r|]]|] eqn:Ef; [done| |done].
    destruct (_ || _); [|done]. destruct got as [|g got]; injection Hn as <- <-; by eapply (Hset c0 x0).
  - destruct (s_conns s1 !! c0) as [x0|] eqn:Ec; [|done]. destruct (c_spawned x0) as [|q rest]; [done|]. injection Hn as <- <-. by eapply (Hset c0 x0).
  - destruct (s_conns s1 !! c0) as [x0|] eqn:Ec; [|done]. destruct (c_open x0) eqn:E0; [|done]. destruct (c_fetch x0) eqn:Ef; [done|]. injection Hn as <- <-. by eapply (Hset c0 x0).
  - repeat case_match; simplify_eq; by apply Hsame.
  - repeat case_match; simplify_eq; by apply Hsame.
  - destruct (s_phase s1) as [|m delayed|] eqn:Ep; [done| |done].
    destruct (finish_reservation (cf_ttl cfg) (s_now s1) (m_chunk m) delayed (s_res s1)) as [[at_ res] ns] eqn:Et. injection Hn as <- <-.
    eapply (Hdel ns); [done|]. cbn. destruct (decide (c = m_conn m)) as [->|Hne].
    + rewrite lookup_alter, Hy. cbn. eexists _, []. rewrite app_nil_r. done.
    + rewrite lookup_alter_ne by done. exists y, []. by rewrite app_nil_r.
  - repeat case_match; simplify_eq; by apply Hsame.
  - injection Hn as <- <-. by apply Hsame.
  - destruct (r_pending (s_res s1) !! i) as [[k t]|] eqn:Ep; [|done]. destruct (t <=? s_now s1); [|done]. rewrite remove_spec in Hn. injection Hn as <- <-.
    eapply (Hdel _ (s_conns s1)); [done|]. exists y, []. by rewrite app_nil_r.
  - destruct (r_entries (s_res s1) !! k) as [e|] eqn:Ee; [|done]. destruct (is_live _ _ e) eqn:El; [done|]. rewrite remove_spec in Hn. injection Hn as <- <-.
    eapply (Hdel _ (s_conns s1)); [done|]. exists y, []. by rewrite app_nil_r.
  - destruct (s_conns s1 !! c0) as [x0|] eqn:Ec; [|done]. destruct (c_fetch x0) eqn:Ef; [done|]. destruct (c_rx x0) as [|k rest]; [done|]. injection Hn as <- <-. by eapply (Hset c0 x0).
  - by destruct (K1 e).
Qed.
Print Assumptions C37_woken_stays_partial.
(** it can be tried again as soon as its connection is not busy, and then, if nobody interferes, it
    is answered with what is available (compare C27). *)
Theorem C37_retry_answers_partial : forall cfg s c x q rest off,
  fresh_ids (s_hist s) -> q_max q <> 0 -> (preferences (q_strategy q) <= 63)%nat -> s_conns s !! c = Some x -> c_open x = true -> c_fetch x = None -> c_retry x = q :: rest ->
  (exists rows s1 tr s2 s3 o, step_to cfg s (LRetry c off rows) s1 [] /\ run_to cfg (fetch_only c) s1 tr s2 /\ step_to cfg s2 (LReply c) s3 o) /\
  forall rows s1 o1 tr s2 s3 o, step_to cfg s (LRetry c off rows) s1 o1 -> run_to cfg (fetch_only c) s1 tr s2 -> step_to cfg s2 (LReply c) s3 o ->
  let reserved s k := is_reserved (cf_ttl cfg) (s_now s) k (s_res s) in
  exists l got, NoDup l /\ (forall r, r ∈ l <-> waiting (s_db s) (c_sub r, c_index r) = Some r /\ reserved s (c_sub r, c_index r) = false) /\
    offers (q_strategy q) off (s_db s) (s_counts s) (reserved s) l /\
    got.*1 = take (N.to_nat (q_max q)) l /\ o = (match got with [] => [] | _ => [Given c (q_nonce q) got] end).
Proof.
  intros cfg s c x q rest off Hf Hq Hp%can_ask_few Hx Ho Hfx Hre. split.
  - assert (H : exists s1, step_to cfg s (LRetry c off (rows_now q off s)) s1 []).
    { eexists. split; [exists x, q, rest; split; [done|]; split; [done|]; apply scan_offers|]. unfold next. rewrite Hx, Ho, Hfx, Hre. apply N.eqb_neq in Hq. by rewrite Hq, Hp. }
    destruct H as (s1 & H). destruct (retry_starts _ _ _ _ _ _ _ _ _ _ Hx Hre Hq Hp H) as [_ Hst].
    destruct (quiet_fetch_ends cfg _ _ _ _ _ _ Hf Hst) as (tr & s2 & s3 & o & H2 & H3). by exists (rows_now q off s), s1, tr, s2, s3, o.
  - intros rows s1 o1 tr s2 s3 o H1 H2 H3 reserved. destruct (retry_starts _ _ _ _ _ _ _ _ _ _ Hx Hre Hq Hp H1) as [-> Hst].
    destruct (quiet_fetch cfg _ _ _ _ _ _ _ _ _ _ Hf Hst H2 H3) as (l & got & Hof & Hg & Hsub & Htr & -> & _).
    destruct (offers_exact _ _ _ _ _ _ Hf Hof) as [Hnd Hel]. exists l, got. split_and!; try done. by apply NoDup_fmap_1 in Hnd.
Qed.
Print Assumptions C37_retry_answers_partial.
(** Nobody inserts any more, and consumer [c] does not ask again. *)
Definition only_waits (c : N) (tr : trace) (s : state) (l : label) : Prop := (forall e, l <> LProducer e) /\ (forall q off rows, l <> LReserve c q off rows).
Definition asleep (c : N) (s : state) : Prop := s_notifies s = 0%nat /\ forall x, s_conns s !! c = Some x -> c_fetch x = None /\ c_retry x = [].
Lemma asleep_step cfg c tr s l s' o : asleep c s -> only_waits c tr s l -> next cfg l s = Some (s', o) -> asleep c s' /\ forall n g, Given c n g ∉ o.
Proof.
  intros [Hz Ha] [K1 K2] Hn.
  assert (Hnil : forall n g, Given c n g ∉ ([] : list out)) by (intros n g Hin; by apply elem_of_nil in Hin).
  assert (Hset : forall c0 x1 s0, s_conns s0 = <[c0 := x1]> (s_conns s) -> (c0 = c -> c_fetch x1 = None /\ c_retry x1 = []) -> s_notifies s0 = s_notifies s -> asleep c s0).
  { intros c0 x1 s0 E2 E1 E3. split; [congruence|]. intros x. rewrite E2. intros [[-> <-]|[_ Hx]]%lookup_insert_Some; [by apply E1|by apply Ha]. }
  assert (Hdel : forall ns cs s0, s_conns s0 = foldl deliver cs ns -> s_notifies s0 = 0%nat -> (forall x, cs !! c = Some x -> c_fetch x = None /\ c_retry x = []) -> asleep c s0).
  { intros ns cs s0 E1 E2 Hcs. split; [done|]. intros x. rewrite E1. intros Hd. apply deliver_some in Hd as (z & Hd & rx & ->). exact (Hcs _ Hd). }
  assert (Hclose : forall c0 x0, asleep c (close cfg c0 x0 s)).
  { intros c0 x0. split; [done|]. intros x. unfold close. cbn. intros [[-> <-]|[Hne Hx]]%lookup_insert_Some; [done|]. apply deliver_some in Hx as (z & Hd & rx & ->). rewrite lookup_insert_ne in Hd by done. exact (Ha _ Hd). }
  assert (Hone : forall y, (forall n g, Given c n g <> y) -> forall n g, Given c n g ∉ [y]) by (intros y Hy n g Hin; apply elem_of_list_singleton in Hin; by eapply Hy).
  destruct l; unfold next in Hn.
  - by destruct (K1 e).
  - by rewrite Hz in Hn.
  - destruct (s_conns s !! c0) eqn:Ec; [done|]. injection Hn as <- <-. split; [|done]. by eapply Hset.
  - destruct (s_conns s !! c0) as [x0|] eqn:Ec; [|done]. destruct (c_open x0) eqn:E0; [|done]. destruct (c_fetch x0); [done|]. injection Hn as <- <-.
    split; [apply Hclose|by apply Hone].
  - destruct (decide (c0 = c)) as [->|Hne]; [by destruct (K2 q off rows)|]. destruct (s_conns s !! c0) as [x0|] eqn:Ec; [|done]. destruct (c_open x0) eqn:E0; [|done]. destruct (c_fetch x0); [done|].
    destruct (q_max q =? 0); [|destruct (can_ask _); cbn [negb] in Hn]; injection Hn as <- <-; [split; [done|by apply Hone]| |split; [done|apply Hone; by intros n g [=]]]. split; [|done]. by eapply Hset.
  - destruct (s_conns s !! c0) as [x0|] eqn:Ec; [|done]. destruct (decide (c0 = c)) as [->|Hne].
    { destruct (Ha _ Ec) as [_ Er]. rewrite Er in Hn. repeat case_match; done. }
    destruct (c_open x0) eqn:E0; [|done]. destruct (c_fetch x0); [done|].
    destruct (c_retry x0) as [|q rest]; [done|]. destruct (q_max q =? 0); [|destruct (can_ask _); cbn [negb] in Hn]; injection Hn as <- <-; (split; [by eapply Hset|]); [by apply Hone|done|apply Hone; by intros n g [=]].
  - destruct (s_conns s !! c0) as [x0|] eqn:Ec; [|done]. destruct (c_fetch x0) as [[q [|r rows] got [?|]]|] eqn:Ef; try done. destruct (_ <? _); [|done].
    destruct (try_reserve (cf_ttl cfg) (s_now s) (cid_of r) c0 (s_res s)) as [[ok res] ns] eqn:Et. injection Hn as <- <-. split; [|done].
    eapply (Hdel ns); [done|done|]. cbn. intros x [[-> <-]|[_ Hx]]%lookup_insert_Some; [|by apply Ha]. destruct (Ha _ Ec) as [Ef' _]. congruence.
  - destruct (s_conns s !! c0) as [x0|] eqn:Ec; [|done]. destruct (c_fetch x0) as [[q rows got j]|] eqn:Ef; [|done].
    destruct (rows !! i); [|done]. destruct (is_reserved _ _ _ _); [|done]. injection Hn as <- <-. split; [|done]. eapply Hset; [done| |done].
    intros ->. destruct (Ha _ Ec) as [Ef' _]. congruence.
  - destruct (s_conns s !! c0) as [x0|] eqn:Ec; [|done]. destruct (c_fetch x0) as [[q rows got [r|]]|] eqn:Ef; [|done|done].
    destruct (if fault then None else joined_submission (s_db s) r) as [sub|]; injection Hn as <- <-.
    + split; [|done]. eapply Hset; [done| |done]. intros ->. destruct (Ha _ Ec) as [Ef' _]. congruence.
    + split; [apply Hclose|by apply Hone].
  - destruct (s_conns s !! c0) as [x0|] eqn:Ec; [|done]. destruct (c_fetch x0) as [[q rows got j]|] eqn:Ef; [|done].
    assert (Hne : c0 <> c) by (intros ->; destruct (Ha _ Ec) as [Ef' _]; congruence).
    injection Hn as <- <-. split; [by eapply Hset|apply Hone; congruence].
  - destruct (s_conns s !! c0) as [x0|] eqn:Ec; [|done]. destruct (c_fetch x0) as [[q rows got [r|]]|] eqn:Ef; [done| |done].
    assert (Hne : c0 <> c) by (intros ->; destruct (Ha _ Ec) as [Ef' _]; congruence).
    destruct (_ || _); [|done]. destruct got as [|g got]; injection Hn as <- <-; (split; [by eapply Hset|]); [done|apply Hone; congruence].
  - destruct (s_conns s !! c0) as [x0|] eqn:Ec; [|done]. destruct (c_spawned x0) as [|q rest]; [done|]. injection Hn as <- <-. split; [|done].
    eapply Hset; [done| |done]. intros ->. exact (Ha _ Ec).
  - destruct (s_conns s !! c0) as [x0|] eqn:Ec; [|done]. destruct (c_open x0) eqn:E0; [|done]. destruct (c_fetch x0) eqn:Ef; [done|]. injection Hn as <- <-. split; [|done].
    eapply Hset; [done| |done]. intros ->. split; [done|]. exact (proj2 (Ha _ Ec)).
  - repeat case_match; simplify_eq; done.
  - repeat case_match; simplify_eq; done.
  - destruct (s_phase s) as [|m delayed|] eqn:Ep; [done| |done].
    destruct (finish_reservation (cf_ttl cfg) (s_now s) (m_chunk m) delayed (s_res s)) as [[at_ res] ns] eqn:Et. injection Hn as <- <-. split; [|done].
    eapply (Hdel ns); [done|done|]. cbn. intros x [[<- (w & Hw & ->)]|[_ Hx]]%lookup_alter_Some; [exact (Ha _ Hw)|by apply Ha].
  - repeat case_match; simplify_eq; done.
  - injection Hn as <- <-. done.
  - destruct (r_pending (s_res s) !! i) as [[k t]|] eqn:Ep; [|done]. destruct (t <=? s_now s); [|done]. rewrite remove_spec in Hn. injection Hn as <- <-.
    split; [|done]. by eapply (Hdel _ (s_conns s)).
  - destruct (r_entries (s_res s) !! k) as [e|] eqn:Ee; [|done]. destruct (is_live _ _ e) eqn:El; [done|]. rewrite remove_spec in Hn. injection Hn as <- <-.
    split; [|done]. by eapply (Hdel _ (s_conns s)).
  - destruct (s_conns s !! c0) as [x0|] eqn:Ec; [|done]. destruct (c_fetch x0) eqn:Ef; [done|]. destruct (c_rx x0) as [|k rest]; [done|]. injection Hn as <- <-.
    split; [|by apply Hone]. eapply Hset; [done| |done]. intros ->. split; [done|]. exact (proj2 (Ha _ Ec)).
  - injection Hn as <- <-. split; [|done]. split; [done|]. intros x Hx. cbn in Hx. by rewrite lookup_empty in Hx.
Qed.
Lemma asleep_run cfg c s tr s' : asleep c s -> run_to cfg (only_waits c) s tr s' -> asleep c s' /\ forall l o n g, (l, o) ∈ tr -> Given c n g ∉ o.
Proof.
  intros Ha. induction 1 as [|tr s1 l s2 o Hr [IH1 IH2] Hok [_ Hn]].
  - split; [done|]. intros l o n g Hin. by apply elem_of_nil in Hin.
  - destruct (asleep_step _ _ _ _ _ _ _ IH1 Hok Hn) as [H1 H2]. split; [done|]. intros l' o' n g [Hin|Hin]%elem_of_app; [by eapply IH2|].
    apply elem_of_list_singleton in Hin. injection Hin as -> ->. apply H2.
Qed.
Definition is_asleep (c : N) (s : state) : bool :=
  bool_decide (s_notifies s = 0%nat) && match s_conns s !! c with Some x => match c_fetch x, c_retry x with None, [] => true | _, _ => false end | None => true end.
Lemma is_asleep_spec c s : is_asleep c s = true -> asleep c s.
Proof.
  unfold is_asleep. intros [H1 H2]%andb_true_iff. apply bool_decide_eq_true_1 in H1. split; [done|]. intros x Hx. rewrite Hx in H2.
  destruct (c_fetch x); [done|]. by destruct (c_retry x).
Qed.
(** A consumer asks while there is nothing to do. Before its request is registered, a submission is
    inserted and the wake-up call made. From then on a chunk is available, but the consumer is never
    given one unless someone inserts again or it asks again. *)
Definition lost_call : list (state -> label) :=
  [do (LConnect 1); ask 1 1; do (LReply 1); do (LProducer (quiet (OInsert 5 None [None] None ∅ 10 "o" 1))); do LNotify; do (LRegister 1)].
Definition waits_for (c : N) (s : state) : bool := match s_conns s !! c with Some x => c_open x && (0 <? N.of_nat (length (c_waiting x))) | None => false end.
Theorem C37_lost_call_refuted : exists cfg now tr s x q k r,
  run_to cfg (orderly cfg) (server_start [] now) tr s /\ fresh_ids (s_hist s) /\
  s_conns s !! 1 = Some x /\ c_open x = true /\ q ∈ c_waiting x /\ waiting (s_db s) k = Some r /\ (forall k', is_reserved (cf_ttl cfg) (s_now s) k' (s_res s) = false) /\
  forall tr' s', run_to cfg (only_waits 1) s tr' s' -> forall l o n g, (l, o) ∈ tr' -> Given 1 n g ∉ o.
Proof.
  exists ex_cfg, 0.
  destruct (by_play ex_cfg (orderly_b ex_cfg) (orderly ex_cfg) [] 0 lost_call
    (fun tr s => is_asleep 1 s && waits_for 1 s && bool_decide (waiting (s_db s) (5, 0) = Some (Chunk 5 0 None 0)) && bool_decide (length (map_to_list (r_entries (s_res s))) = 0%nat) &&
       bool_decide (NoDup (inserted_ids (s_hist s))))) as (tr & s & Hr & Hp).
  - intros. by apply orderly_by.
  - by vm_compute.
  - apply andb_true_iff in Hp as [Hp P5]. apply andb_true_iff in Hp as [Hp P4]. apply andb_true_iff in Hp as [Hp P3]. apply andb_true_iff in Hp as [P1 P2].
    apply bool_decide_eq_true_1 in P3, P4, P5. apply is_asleep_spec in P1. unfold waits_for in P2. destruct (s_conns s !! 1) as [x|] eqn:Ex; [|discriminate P2].
    apply andb_true_iff in P2 as [P2 P2']. destruct (c_waiting x) as [|q rest] eqn:Ew; [discriminate P2'|].
    exists tr, s, x, q, (5, 0), (Chunk 5 0 None 0). split_and!; try assumption; [rewrite Ew; left| |].
    + intros k'. unfold is_reserved, get_live. apply nil_length_inv, map_to_list_empty_iff in P4. by rewrite P4, lookup_empty.
    + intros tr' s' Hr'. apply (asleep_run ex_cfg 1 s tr' s' P1 Hr').
Qed.
Print Assumptions C37_lost_call_refuted.
(** Consumer 1 has been given the only chunk; the request of consumer 2 waits, registered. Consumer 1
    disconnects, so that the chunk is available again: nobody tells consumer 2. The same happens when
    a failed chunk is to be retried. *)
Definition returned_unseen : list (state -> label) :=
  does [LConnect 1; LConnect 2] ++ get_one 1 ++ [ask 2 1; do (LSkip 2 0); do (LReply 2); do (LRegister 2)].
Definition came_back (retry : bool) (tr : trace) : bool :=
  match tr with
  | (LReport c k (Fail f), []) :: _ => if retry then bool_decide ((c, k, f) = (1, (5, 0), "x"%string)) else false
  | (LDisconnect c, [Closed c']) :: _ => if retry then false else (c =? 1) && (c' =? 1)
  | _ => false
  end.
Theorem C37_returned_chunk_refuted : forall retry : bool, exists cfg h now tr s x q k r,
  run_to cfg (orderly cfg) (server_start h now) tr s /\ fresh_ids (s_hist s) /\
  (if retry then (LReport 1 k (Fail "x"), []) ∈ tr else (LDisconnect 1, [Closed 1]) ∈ tr) /\
  s_conns s !! 2 = Some x /\ c_open x = true /\ q ∈ c_waiting x /\ waiting (s_db s) k = Some r /\ (forall k', is_reserved (cf_ttl cfg) (s_now s) k' (s_res s) = false) /\
  forall tr' s', run_to cfg (only_waits 2) s tr' s' -> forall l o n g, (l, o) ∈ tr' -> Given 2 n g ∉ o.
Proof.
  intros retry. exists ex_cfg, [quiet (OInsert 5 None [None] None ∅ 10 "o" 1)], 0.
  destruct (by_play ex_cfg (orderly_b ex_cfg) (orderly ex_cfg) [quiet (OInsert 5 None [None] None ∅ 10 "o" 1)] 0
    (returned_unseen ++ if retry then does [LReport 1 (5, 0) (Fail "x"); LWrite [] 5 5 5; LFinish; LCounters true] else does [LDisconnect 1])
    (fun tr s => is_asleep 2 s && waits_for 2 s && bool_decide (waiting (s_db s) (5, 0) = Some (Chunk 5 0 None (if retry then 1 else 0))) && bool_decide (length (map_to_list (r_entries (s_res s))) = 0%nat) &&
       bool_decide (NoDup (inserted_ids (s_hist s))) &&
       came_back retry (drop 10 tr))) as (tr & s & Hr & Hp).
  - intros. by apply orderly_by.
  - destruct retry; by vm_compute.
  - apply andb_true_iff in Hp as [Hp P6]. apply andb_true_iff in Hp as [Hp P5]. apply andb_true_iff in Hp as [Hp P4]. apply andb_true_iff in Hp as [Hp P3]. apply andb_true_iff in Hp as [P1 P2].
    apply bool_decide_eq_true_1 in P3, P4, P5. apply is_asleep_spec in P1. unfold waits_for in P2. destruct (s_conns s !! 2) as [x|] eqn:Ex; [|discriminate P2].
    apply andb_true_iff in P2 as [P2 P2']. destruct (c_waiting x) as [|q rest] eqn:Ew; [discriminate P2'|].
    exists tr, s, x, q, (5, 0), (Chunk 5 0 None (if retry then 1 else 0)). split_and!; try assumption; [|rewrite Ew; left| |].
    + unfold came_back in P6. destruct (drop 10 tr) as [|[l o] tl] eqn:Ed; [discriminate P6|].
      assert (Hin : (l, o) ∈ tr). { rewrite <- (take_drop 10 tr), Ed. apply elem_of_app. right. left. }
      destruct l; try discriminate P6.
      * destruct o as [|[| | |c'] [|]]; try discriminate P6. destruct retry; [discriminate P6|]. apply andb_true_iff in P6 as [->%N.eqb_eq ->%N.eqb_eq]. done.
      * destruct r as [|f]; [discriminate P6|]. destruct o; [|discriminate P6]. destruct retry; [|discriminate P6]. apply bool_decide_eq_true_1 in P6. injection P6 as -> -> ->. done.
    + intros k'. unfold is_reserved, get_live. apply nil_length_inv, map_to_list_empty_iff in P4. by rewrite P4, lookup_empty.
    + intros tr' s' Hr'. apply (asleep_run ex_cfg 2 s tr' s' P1 Hr').
Qed.
Print Assumptions C37_returned_chunk_refuted.
(** A registered request is answered after the next insert. *)
Example C37_example : exists tr s,
  run_to ex_cfg (orderly ex_cfg) (server_start [] 0) tr s /\ bool_decide (given_last tr = Some (1, 77, [(5, 0)])) && bool_decide (holding tr 1 = {[ (5, 0) ]}) = true.
Proof.
  apply (by_play ex_cfg (orderly_b ex_cfg) _ _ _
    ([do (LConnect 1); ask 1 1; do (LReply 1); do (LRegister 1); do (LProducer (quiet (OInsert 5 None [None] None ∅ 10 "o" 1))); do LNotify;
      fun s => LRetry 1 0 (rows_now (Req 77 1 Oldest) 0 s); do (LRow 1); do (LJoin 1 false); do (LReply 1)])
    (fun tr s => bool_decide (given_last tr = Some (1, 77, [(5, 0)])) && bool_decide (holding tr 1 = {[ (5, 0) ]}))).
  - intros. by apply orderly_by.
  - by vm_compute.
Qed.
