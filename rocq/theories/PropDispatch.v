(** C23-C26, C28, C29, C31, C56: the order in which chunks are offered, reservations, and the
    in-flight counters. Vocabulary: Strategy.v, Reserver.v, MetaState.v. *)
From Verif Require Import AnswerProofs StrategyProofs ReserverProofs MetaStateProofs PropQueue.
Local Open Scope N_scope.

(** *** Examples used below *)
Definition ex_insert_k (id : sub_id) (meta : strat_map) : event := quiet (OInsert id None [None; None] None meta 10 "o" 1).
(** Three submissions of two chunks; the third carries no value for "k". *)
Definition ex_h2 : history := [ex_insert_k 1 {[ "k" := 5%Z ]}; ex_insert_k 2 {[ "k" := 7%Z ]}; ex_insert_k 3 ∅].
Lemma ex_fresh2 : fresh_ids ex_h2.
Proof. apply fresh_by. by vm_compute. Qed.
(** Two chunks with k = 5 and one with k = 7 are in flight. *)
Definition ex_m : metastate := {[ "k" := {[ 5%Z := 2; 7%Z := 1 ]} ]}.
(** The second chunk of submission 2 is reserved. *)
Definition ex_rsv (cid : chunk_id) : bool := bool_decide (cid = (2, 1)).
Notation ids l := ((fun c => (c_sub c, c_index c)) <$> l).

(** ** C23 *)
(** The rows of any strategy's query are exactly the waiting chunks that are not reserved, each once. *)
Theorem C23_offers_available_once : forall h s off m rsv l,
  fresh_ids h -> offers s off (after h) m rsv l ->
  NoDup (ids l) /\
  (forall c, c ∈ l <-> waiting (after h) (c_sub c, c_index c) = Some c /\ rsv (c_sub c, c_index c) = false).
Proof. exact offers_exact. Qed.
Print Assumptions C23_offers_available_once.
(** Every strategy has an answer on every database. *)
Theorem C23_every_strategy_answers : forall s off d m rsv, exists l, offers s off d m rsv l.
Proof. intros. eexists. apply scan_offers. Qed.
Print Assumptions C23_every_strategy_answers.
Example C23_example : exists l,
  offers (PreferDistinct "k" Random) 30000 (after ex_h2) ex_m ex_rsv l /\ ids l = [(3, 0); (3, 1); (2, 0); (1, 0); (1, 1)].
Proof. eexists. split; [apply scan_offers|]. by vm_compute. Qed.

(** ** C24 *)
Theorem C24_oldest : forall off d m rsv l i j a b,
  offers Oldest off d m rsv l -> l !! i = Some a -> l !! j = Some b -> (i < j)%nat -> c_sub a <= c_sub b.
Proof. intros off d m rsv l i j a b [_ Hs] Hi Hj Hij. exact (sorted_lookup _ _ _ _ _ _ Hs Hi Hj Hij). Qed.
Print Assumptions C24_oldest.
Theorem C24_newest : forall off d m rsv l i j a b,
  offers Newest off d m rsv l -> l !! i = Some a -> l !! j = Some b -> (i < j)%nat -> c_sub b <= c_sub a.
Proof. intros off d m rsv l i j a b [_ Hs] Hi Hj Hij. exact (sorted_lookup _ _ _ _ _ _ Hs Hi Hj Hij). Qed.
Print Assumptions C24_newest.
Example C24_example :
  (exists l, offers Oldest 0 (after ex_h2) ex_m ex_rsv l /\ ids l = [(1, 0); (1, 1); (2, 0); (3, 0); (3, 1)]) /\
  (exists l, offers Newest 0 (after ex_h2) ex_m ex_rsv l /\ ids l = [(3, 1); (3, 0); (2, 0); (1, 1); (1, 0)]).
Proof. split; (eexists; split; [apply scan_offers|]; by vm_compute). Qed.

(** ** C25 *)
(** Nothing from before the offset is offered ahead of something from after it ... *)
Theorem C25_random_cut : forall off d m rsv l i j a b,
  offers Random off d m rsv l -> l !! i = Some a -> l !! j = Some b -> (i < j)%nat ->
  off <= chunk_random_order (c_sub b) (c_index b) -> off <= chunk_random_order (c_sub a) (c_index a).
Proof. intros off d m rsv l i j a b. exact (random_query_order c_random off _ l i j a b). Qed.
Print Assumptions C25_random_cut.
(** ... positions of one submission's chunks are spread without collision ... *)
Theorem C25_positions_differ : forall id i j, i < j -> j - i < 65536 -> chunk_random_order id i <> chunk_random_order id j.
Proof. exact random_distinct. Qed.
Print Assumptions C25_positions_differ.
Theorem C25_positions_in_range : forall id i, chunk_random_order id i < 65536.
Proof. intros. by apply N.mod_lt. Qed.
Print Assumptions C25_positions_in_range.
(** ... and the offset only says where the cycle starts: there is one order of the chunks by
    position such that every offset may offer a rotation of it, cut at the offset. *)
Theorem C25_rotation : forall d m rsv, exists deck,
  deck ≡ₚ available d rsv /\ StronglySorted (fun a b => c_random a <= c_random b) deck /\
  forall off, exists l1 l2, deck = l1 ++ l2 /\ offers Random off d m rsv (l2 ++ l1) /\
    Forall (fun c => c_random c < off) l1 /\ Forall (fun c => off <= c_random c) l2.
Proof. intros. eexists. apply random_rotation. Qed.
Print Assumptions C25_rotation.
Example C25_example :
  (exists l, offers Random 0 (after ex_h2) ex_m ex_rsv l /\ ids l = [(1, 1); (2, 0); (3, 1); (1, 0); (3, 0)]) /\
  chunk_random_order 1 0 <> chunk_random_order 1 1.
Proof. split; [eexists; split; [apply scan_offers|]; by vm_compute|by vm_compute]. Qed.

(** ** C26 *)
(** For keys without NUL characters (see C56). The submissions come in lexicographic order of the
    counts, ties in the order [inner] of the innermost strategy, and a submission's chunks together. *)
Theorem C26_prefer_distinct : forall k u off d m rsv l,
  let s := PreferDistinct k u in
  Forall (fun key => forall i c, String.get i key = Some c -> c <> Ascii.zero) (meta_keys s) -> offers s off d m rsv l ->
  exists inner, query_inner (innermost s) off d inner /\
  forall i j a b, l !! i = Some a -> l !! j = Some b -> (i < j)%nat -> c_sub a = c_sub b \/
    match cmp_counts (in_flight d m (c_sub a) <$> meta_keys s) (in_flight d m (c_sub b) <$> meta_keys s) with
    | Lt => True | Eq => before inner (c_sub a) (c_sub b) | Gt => False
    end.
Proof.
  intros k u off d m rsv l s Hk. apply prefer_distinct_order. eapply Forall_impl; [exact Hk|]. intros key. apply cstr_id.
Qed.
Print Assumptions C26_prefer_distinct.
Example C26_example : exists l,
  offers (PreferDistinct "k" Newest) 0 (after ex_h2) ex_m (fun _ => false) l /\
  ids l = [(3, 0); (3, 1); (2, 0); (2, 1); (1, 0); (1, 1)].
Proof. eexists. split; [apply scan_offers|]. by vm_compute. Qed.

(** ** C56 *)
(** Full statement: the theorem below for every key. It holds for the keys without a NUL character:
    a chunk whose submission has more chunks in flight under this very key never comes before one
    whose submission has fewer (or none), whatever the keys further inside contain. *)
Theorem C56_whole_key_partial : forall k u off d m rsv l i j a b,
  (forall n c, String.get n k = Some c -> c <> Ascii.zero) -> offers (PreferDistinct k u) off d m rsv l ->
  l !! i = Some a -> l !! j = Some b -> (i < j)%nat -> c_sub a <> c_sub b ->
  default 0 (in_flight d m (c_sub a) k) <= default 0 (in_flight d m (c_sub b) k).
Proof.
  intros k u off d m rsv l i j a b Hk Ho Ha Hb Hij Hne.
  destruct (prefer_distinct_outermost k u off d m rsv l i j a b (cstr_id k Hk) Ho Ha Hb Hij) as [H|H]; [|done].
  destruct (in_flight d m (c_sub a) k) as [x|], (in_flight d m (c_sub b) k) as [y|]; simpl in H |- *; try lia; try done.
Qed.
Print Assumptions C56_whole_key_partial.
(** A key that contains a NUL character is counted under what precedes the NUL, so that a busy
    submission is taken for an idle one. *)
Definition ex_nul : string := String.append "k" (String Ascii.zero EmptyString).
Definition ex_h3 : history := [ex_insert_k 1 {[ ex_nul := 5%Z ]}; ex_insert_k 2 {[ ex_nul := 7%Z ]}].
Theorem C56_whole_key_refuted : exists h m l i j a b,
  fresh_ids h /\ offers (PreferDistinct ex_nul Oldest) 0 (after h) m (fun _ => false) l /\
  l !! i = Some a /\ l !! j = Some b /\ (i < j)%nat /\
  in_flight (after h) m (c_sub a) ex_nul = Some 3 /\ in_flight (after h) m (c_sub b) ex_nul = None.
Proof.
  exists ex_h3, {[ ex_nul := {[ 5%Z := 3 ]} ]}, (scan (PreferDistinct ex_nul Oldest) 0 (after ex_h3) {[ ex_nul := {[ 5%Z := 3 ]} ]} (fun _ => false)), 0%nat, 2%nat.
  eexists _, _. split; [apply fresh_by; by vm_compute|]. split; [apply scan_offers|].
  split; [vm_compute; reflexivity|]. split; [vm_compute; reflexivity|]. split; [lia|]. by vm_compute.
Qed.
Print Assumptions C56_whole_key_refuted.
Example C56_example : exists l a b,
  offers (PreferDistinct "k" (PreferDistinct ex_nul Newest)) 0 (after ex_h2) ex_m (fun _ => false) l /\
  l !! 0%nat = Some a /\ l !! 5%nat = Some b /\ c_sub a <> c_sub b /\
  in_flight (after ex_h2) ex_m (c_sub a) "k" = None /\ in_flight (after ex_h2) ex_m (c_sub b) "k" = Some 2.
Proof. eexists _, _, _. split; [apply scan_offers|]. by vm_compute. Qed.

(** ** C28 *)
(** Full statement: as below without the hypothesis on [r_pending]. It fails because a delayed
    removal that belongs to an earlier reservation of the same key also ends the current one. *)
Theorem C28_exclusive_partial : forall ttl r k holder t ops t',
  fst (fst (try_reserve ttl t k holder r)) = true ->
  (forall d, (k, d) ∉ r_pending r) ->
  Forall (fun o => o.1 < t + ttl /\ ~ removes_now k o.2) ops ->
  (forall l1 now l2 u, ops = l1 ++ (now, RRun) :: l2 -> (u, RFinish k true) ∈ l1 -> now < u + removal_delay) ->
  t' < t + ttl ->
  let r' := rrun ttl (snd (fst (try_reserve ttl t k holder r))) ops in
  is_reserved ttl t' k r' = true /\ forall other, fst (fst (try_reserve ttl t' k other r')) = false.
Proof.
  intros ttl r k holder t ops t' H1 Hp Hf Hd Ht r'. unfold try_reserve in H1, r'. destruct (get_live ttl t k r); [done|]. cbn [fst snd] in r'.
  assert (He : r_entries r' !! k = Some (Entry holder t)).
  { apply exclusive; [apply lookup_insert|done|]. intros l1 now l2 E. split; [|by intros u; apply (Hd l1 now l2 u)].
    intros d Hin. by destruct (Hp d). }
  by apply (live_reserved ttl t' k r' _ He).
Qed.
Print Assumptions C28_exclusive_partial.
(** Connection 1 reserves and completes (delayed removal), the same chunk is released by a second
    report, connection 2 reserves it, and the removal meant for 1 lets 3 in. *)
Theorem C28_exclusive_refuted : exists ttl ops k t t',
  Forall (fun o => o.1 < t + ttl /\ ~ removes_now k o.2) [(t', RRun)] /\ t' < t + ttl /\
  let r := rrun ttl reserver_new ops in
  fst (fst (try_reserve ttl t k 2 r)) = true /\
  fst (fst (try_reserve ttl t' k 3 (rrun ttl (snd (fst (try_reserve ttl t k 2 r))) [(t', RRun)]))) = true.
Proof.
  exists 60000, [(0, RTry (7, 0) 1); (500, RFinish (7, 0) true); (600, RFinish (7, 0) false)], (7, 0), 700, 1500.
  split; [apply Forall_singleton; split; [cbn; lia|by intros [|]]|]. split; [lia|]. by vm_compute.
Qed.
Print Assumptions C28_exclusive_refuted.
Example C28_example :
  let r := rrun 60000 reserver_new [(0, RTry (7, 0) 1); (10, RTry (7, 1) 2)] in
  fst (fst (try_reserve 60000 20 (7, 2) 1 r)) = true /\ (forall d, ((7, 2), d) ∉ r_pending r) /\
  Forall (fun o => o.1 < 20 + 60000 /\ ~ removes_now (7, 2) o.2) [(30, RTry (7, 2) 2); (40, RFinish (7, 2) true); (50, RRun); (60, RFinishSync (7, 0))].
Proof.
  split; [by vm_compute|]. split; [intros d H; by apply elem_of_nil in H|].
  repeat (apply Forall_cons; split; [split; [cbn; lia|intros [H|H]; discriminate H]|]). by apply Forall_nil.
Qed.

(** ** C29 *)
(** No reservation outlives its time. *)
Theorem C29_gone_after_ttl : forall ttl r k e now holder,
  r_entries r !! k = Some e -> e_at e + ttl <= now ->
  is_reserved ttl now k r = false /\ fst (fst (try_reserve ttl now k holder r)) = true.
Proof. intros ttl r k e now holder. exact (expired_free ttl now k r e holder). Qed.
Print Assumptions C29_gone_after_ttl.
(** What becomes of a reservation made at time [t] by [holder]. Either it is still there, nobody
    was told anything about it, and no maintenance has run since it expired. Or one call ended it:
    the calls before gave no notice about it, and that call gives notice, once and to the holder,
    exactly if the time was up. Nothing is left of it then: a later notice about the same key is
    about a later reservation. *)
Theorem C29_notice : forall ttl r k holder t ops,
  fst (fst (try_reserve ttl t k holder r)) = true ->
  let r0 := snd (fst (try_reserve ttl t k holder r)) in
  (r_entries (rrun ttl r0 ops) !! k = Some (Entry holder t) /\ about_key k (rnotices ttl r0 ops) = [] /\
   forall now, (now, RRun) ∈ ops -> now < t + ttl) \/
  (exists ops1 o ops2, ops = ops1 ++ o :: ops2 /\
     r_entries (rrun ttl r0 ops1) !! k = Some (Entry holder t) /\ about_key k (rnotices ttl r0 ops1) = [] /\
     (r_entries (rrun ttl r0 (ops1 ++ [o])) !! k = None \/
      exists h, o.2 = RTry k h /\ t + ttl <= o.1 /\ r_entries (rrun ttl r0 (ops1 ++ [o])) !! k = Some (Entry h o.1)) /\
     about_key k (snd (rstep ttl (rrun ttl r0 ops1) o)) = (if o.1 <? t + ttl then [] else [(holder, k)])).
Proof.
  intros ttl r k holder t ops H r0. apply (reservation_life ttl ops r0 k (Entry holder t)).
  unfold try_reserve in H, r0. destruct (get_live ttl t k r); [done|]. apply lookup_insert.
Qed.
Print Assumptions C29_notice.
(** A maintenance run after the time is up does give notice, once. *)
Theorem C29_maintenance_tells : forall ttl r k e now,
  r_entries r !! k = Some e -> e_at e + ttl <= now ->
  about_key k (snd (run_pending_tasks ttl now r)) = [(e_holder e, k)] /\ r_entries (fst (run_pending_tasks ttl now r)) !! k = None.
Proof.
  intros ttl r k e now He Ht. destruct (run_spec ttl now r k) as (H1 & H2 & _). rewrite H1, H2, He. unfold get_live. rewrite He.
  cbn [entry_notices]. unfold listener, is_live. apply N.ltb_ge in Ht. rewrite Ht. split; [done|]. by destruct (due now r k).
Qed.
Print Assumptions C29_maintenance_tells.
Example C29_example :
  rnotices 1000 reserver_new [(0, RTry (7, 0) 1); (10, RTry (7, 1) 2); (900, RFinish (7, 1) false); (990, RRun); (1000, RRun); (1010, RRun)] = [(1, (7, 0))].
Proof. by vm_compute. Qed.

(** ** C31 *)
Theorem C31_bag : forall progs sched, let s := mrun sched (mstart progs) in
  exists m, ms_table s = Some m /\
  (matched (ms_log s) -> forall k v, count m k v = N.of_nat (incs (ms_log s) k v - decs (ms_log s) k v)) /\
  (forall k v, N.of_nat (incs (ms_log s) k v) <= count m k v + N.of_nat (decs (ms_log s) k v) /\ count m k v <= N.of_nat (incs (ms_log s) k v)) /\
  (forall k f v, m !! k = Some f -> f !! v <> Some 0) /\
  (quiescent s -> forall k, is_Some (m !! k) <-> exists v, 0 < count m k v).
Proof. exact counters_bag. Qed.
Print Assumptions C31_bag.
Theorem C31_balanced_empty : forall progs sched, let s := mrun sched (mstart progs) in
  quiescent s -> matched (ms_log s) -> (forall k v, incs (ms_log s) k v = decs (ms_log s) k v) -> ms_table s = Some ∅.
Proof. exact balanced_empty. Qed.
Print Assumptions C31_balanced_empty.
(** Two threads, whose steps interleave: the second increments between the test and the removal
    of the first, and its count survives. *)
Example C31_example :
  let s := mrun [0; 0; 0; 1; 0; 1; 1; 1]%nat (mstart [[MInc "k" 1; MDec "k" 1]; [MInc "k" 1; MInc "k" 2; MDec "k" 2]]) in
  quiescent s /\ option_map (fun m => (count m "k" 1, count m "k" 2, counts_of m "k")) (ms_table s) = Some (1, 0, [(1%Z, 1)]).
Proof.
  split; [|by vm_compute]. vm_compute. by repeat constructor.
Qed.
