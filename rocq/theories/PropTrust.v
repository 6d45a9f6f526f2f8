(** C103, C104: whose reports count, and what a consumer can do to others. *)
From Verif Require Import AnswerProofs PropQueue SpacingProofs LeakProofs CountProofs PropServer.
From Verif Require Import Bytes Frames WireProofs PropWire.
Local Open Scope N_scope.

(** *** Vocabulary *)
(** The reports that the server received, and those that it wrote to the database, in order. *)
Definition reported (tr : trace) : list (chunk_id * report) := omap (fun lo => match lo.1 with LReport _ k r => Some (k, r) | _ => None end) tr.
Definition written (h : history) : list (chunk_id * report) :=
  omap (fun e => match e_op e with OComplete k out _ _ => Some (k, Complete out) | OFail k f _ _ _ _ => Some (k, Fail f) | _ => None end) h.
(** Connection [c] was sent chunk [k]. *)
Definition was_given (tr : trace) (c : N) (k : chunk_id) : Prop := exists lo n l, lo ∈ tr /\ Given c n l ∈ lo.2 /\ k ∈ ids_of l.

(** *** Proofs *)
Lemma mail_written cfg m n1 n2 n3 fs cr : written [Event (mail_op cfg m n1 n2 n3) fs cr] = [(m_chunk m, m_report m)].
Proof. unfold mail_op. by destruct m as [c k [out|f]]. Qed.
Lemma producer_written e : is_producer_op (e_op e) = true -> written [e] = [].
Proof. unfold written. cbn. by destruct (e_op e). Qed.
Lemma written_app h1 h2 : written (h1 ++ h2) = written h1 ++ written h2.
Proof. apply omap_app. Qed.
Definition inbox_of (s : state) : list (chunk_id * report) := (fun m => (m_chunk m, m_report m)) <$> s_mail s.
Lemma written_run cfg ok h now tr s : run_to cfg ok (server_start h now) tr s ->
  exists new, s_hist s = h ++ new /\ written new ++ inbox_of s `sublist_of` reported tr.
Proof.
  intros Hr. remember (server_start h now) as s0 eqn:E0. induction Hr as [|tr s1 l s2 o Hr IH Hok [Ha Hn]].
  { subst s0. exists []. split; [cbn; by rewrite app_nil_r|]. apply sublist_nil_l. }
  destruct IH as (new & Hh & Hs). clear E0 Hr.
  assert (Hmono : forall x, x `sublist_of` reported tr -> x `sublist_of` reported (tr ++ [(l, o)])).
  { intros x Hx. unfold reported. rewrite omap_app. by apply sublist_inserts_r. }
  assert (Hsame : s_hist s2 = s_hist s1 -> s_mail s2 = s_mail s1 -> exists new, s_hist s2 = h ++ new /\ written new ++ inbox_of s2 `sublist_of` reported (tr ++ [(l, o)])).
  { intros E1 E2. exists new. unfold inbox_of. rewrite E1, E2. auto. }
  destruct l; unfold next in Hn; try (apply Hsame; repeat case_match; simplify_eq; done).
  - (* LProducer *) destruct (is_producer_op (e_op e)) eqn:Ep; [|done]. injection Hn as <- <-. exists (new ++ [e]). cbn. rewrite Hh, app_assoc. split; [done|].
    rewrite written_app, producer_written, app_nil_r by done. auto.
  - (* LReport *) destruct (s_conns s1 !! c) as [x|]; [|done]. destruct (c_open x); [|done]. destruct (c_fetch x); [done|]. injection Hn as <- <-.
    exists new. split; [done|]. unfold inbox_of. cbn. rewrite fmap_app, app_assoc. unfold reported. rewrite omap_app. by apply sublist_app.
  - (* LWrite *) destruct (s_phase s1); [|done..]. destruct (s_mail s1) as [|m rest] eqn:Em; [done|]. injection Hn as <- <-.
    exists (new ++ [Event (mail_op cfg m n1 n2 n3) fs None]). cbn. rewrite Hh, app_assoc. split; [done|]. apply Hmono.
    rewrite written_app, mail_written, <- app_assoc. unfold inbox_of in *. by rewrite Em in Hs.
  - (* LLost *) destruct (s_phase s1); [|done..]. destruct (s_mail s1) as [|m rest] eqn:Em; [done|]. injection Hn as <- <-.
    exists new. cbn. split; [done|]. apply Hmono. etrans; [|exact Hs]. apply sublist_app; [done|]. unfold inbox_of. rewrite Em. cbn. by apply sublist_cons.
  - (* LCrash *) injection Hn as <- <-. destruct e as [e|].
    + exists (new ++ [e]). cbn. rewrite Hh, app_assoc. split; [done|]. apply Hmono. unfold inbox_of. cbn. rewrite app_nil_r, written_app.
      destruct Ha as [_ [Hp|(_ & m & rest & n1 & n2 & n3 & Em & Eo)]].
      * rewrite producer_written, app_nil_r by done. etrans; [|exact Hs]. by apply sublist_inserts_r.
      * destruct e as [op fs cr]. cbn in Eo. subst op. rewrite mail_written. etrans; [|exact Hs]. apply sublist_app; [done|]. unfold inbox_of. rewrite Em. cbn.
        apply sublist_skip, sublist_nil_l.
    + exists new. cbn. split; [done|]. apply Hmono. rewrite app_nil_r. etrans; [|exact Hs]. by apply sublist_inserts_r.
Qed.

(** ** C103 *)
(** Every write of a completion or failure goes back to a report that a consumer sent: they are written at
    most once each, in the order in which they came. *)
Theorem C103_reports : forall cfg h now tr s, run_to cfg anything (server_start h now) tr s ->
  exists new, s_hist s = h ++ new /\ written new `sublist_of` reported tr.
Proof.
  intros cfg h now tr s Hr. destruct (written_run _ _ _ _ _ _ Hr) as (new & Hh & Hs). exists new. split; [done|].
  etrans; [|exact Hs]. by apply sublist_inserts_r.
Qed.
Print Assumptions C103_reports.
Lemma acks_written k : forall new d, acks_from d new k <> 0%nat -> exists out, (k, Complete out) ∈ written new.
Proof.
  induction new as [|e new IH]; intros d H; [done|]. cbn [acks_from] in H. change (e :: new) with ([e] ++ new). rewrite written_app.
  destruct (acknowledges d e k) eqn:Ea.
  - unfold acknowledges in Ea. unfold written. cbn. destruct (e_op e); try done. case_bool_decide; [|done]. subst. eexists. left.
  - destruct (IH _ H) as [out Hin]. exists out. apply elem_of_app. by right.
Qed.
Lemma acks_app h k : forall d new, acks_from d (h ++ new) k = (acks_from d h k + acks_from (run_from d h) new k)%nat.
Proof. induction h as [|e h IH]; intros d new; [done|]. cbn [acks_from app]. rewrite IH. change (run_from d (e :: h)) with (run_from (step d e) h). lia. Qed.
(** A submission is completed only by reports on each of its chunks that were still to be done. *)
Theorem C103_completed : forall cfg h now tr s id sub i, run_to cfg anything (server_start h now) tr s -> fresh_ids (s_hist s) ->
  reports (s_db s) id (Completed sub) -> i < sc_total sub -> acks h (id, i) = 0%nat -> exists c out o, (LReport c (id, i) (Complete out), o) ∈ tr.
Proof.
  intros cfg h now tr s id sub i Hr Hf Hrep Hi Ha. destruct (C103_reports _ _ _ _ _ Hr) as (new & Hh & Hs).
  pose proof (C03_completed_means_all_acknowledged _ _ _ Hf Hrep i Hi) as H1. rewrite Hh in H1. unfold acks in *. rewrite acks_app, Ha in H1.
  destruct (acks_written (id, i) new (run_from db_empty h) ltac:(lia)) as [out Hin].
  pose proof (elem_of_submseteq _ _ _ Hin (sublist_submseteq _ _ Hs)) as Hin'. unfold reported in Hin'. apply elem_of_list_omap in Hin' as ([l o] & Hl & E). cbn in E.
  destruct l; try done. injection E as -> ->. eauto.
Qed.
Print Assumptions C103_completed.

(** A chunk is in hand only if it was given. *)
Lemma held_given tr c k : k ∈ holding tr c -> was_given tr c k.
Proof.
  induction tr as [|[l o] tr IH] using rev_ind; [intros H; by apply elem_of_empty in H|]. unfold holding. rewrite foldl_app. fold (holding tr c). cbn [foldl]. unfold hold_step. cbn [fst snd].
  set (k0 := match l with LReport c' cid _ => if bool_decide (c' = c) then holding tr c ∖ {[cid]} else holding tr c | LCrash _ => ∅ | _ => holding tr c end).
  assert (H0 : k0 ⊆ holding tr c) by (subst k0; destruct l; try case_bool_decide; set_solver).
  assert (Hf : forall o' x, k ∈ foldl (hold_out c) x o' -> k ∈ x \/ exists n l, Given c n l ∈ o' /\ k ∈ ids_of l).
  { induction o' as [|y o' IHo]; intros x Hk; [by left|]. cbn [foldl] in Hk. apply IHo in Hk as [Hk|(n & l0 & Hin & Hk)]; [|right; exists n, l0; split; [by right|done]].
    destruct y as [c' n l0|c' n|c' k'|c']; cbn in Hk; try (by left); case_bool_decide; try (by left).
    subst c'. apply elem_of_union in Hk as [Hk|Hk]; [by left|]. right. exists n, l0. split; [left|done]. }
  intros Hk. apply Hf in Hk as [Hk|(n & l0 & Hin & Hk)].
  - destruct (IH (H0 _ Hk)) as (lo & n & l0 & Hlo & H1 & H2). exists lo, n, l0. split; [apply elem_of_app; by left|done].
  - exists (l, o), n, l0. split; [apply elem_of_app; right; by apply elem_of_list_singleton|done].
Qed.
Lemma run_ok cfg ok s0 tr s : run_to cfg ok s0 tr s -> forall tr1 l o tr2, tr = tr1 ++ (l, o) :: tr2 -> exists s1, ok tr1 s1 l.
Proof.
  induction 1 as [|tr s1 l s2 o Hr IH Hok Hs]; intros tr1 l0 o0 tr2 E; [by destruct tr1|].
  destruct tr2 as [|y tr2 _] using rev_ind.
  - apply app_inj_tail in E as [-> E]. injection E as -> ->. eauto.
  - rewrite app_comm_cons, app_assoc in E. apply app_inj_tail in E as [E _]. eauto.
Qed.
Lemma run_any cfg ok s0 tr s : run_to cfg ok s0 tr s -> run_to cfg anything s0 tr s.
Proof. induction 1; [constructor|]. by econstructor. Qed.
(** If consumers report on nothing but what they hold, what is written was reported by a consumer to which the
    chunk had been given before. *)
Theorem C103_given_partial : forall cfg h now tr s, run_to cfg reports_held (server_start h now) tr s ->
  exists new, s_hist s = h ++ new /\ forall k r, (k, r) ∈ written new ->
    exists tr1 c o tr2, tr = tr1 ++ (LReport c k r, o) :: tr2 /\ was_given tr1 c k.
Proof.
  intros cfg h now tr s Hr. destruct (C103_reports cfg h now tr s (run_any _ _ _ _ _ Hr)) as (new & Hh & Hs). exists new. split; [done|]. intros k r Hin.
  pose proof (elem_of_submseteq _ _ _ Hin (sublist_submseteq _ _ Hs)) as Hin'. unfold reported in Hin'. apply elem_of_list_omap in Hin' as ([l o] & Hl & E). cbn in E.
  destruct l; try done. injection E as -> ->. apply elem_of_list_split in Hl as (tr1 & tr2 & ->). exists tr1, c, o, tr2. split; [done|].
  destruct (run_ok _ _ _ _ _ Hr tr1 _ o tr2 eq_refl) as [s1 Hok]. apply held_given. by eapply Hok.
Qed.
Print Assumptions C103_given_partial.
(** What is missing is false: the server does not ask who reports. Consumer 2, which was given nothing, completes the
    submission that consumer 1 works on. *)
Definition ex_one : history := [quiet (OInsert 2 None [None] None ∅ 10 "o" 1)].
Definition gives (c : N) (lo : label * list out) : bool := existsb (fun y => match y with Given c' _ _ => c' =? c | _ => false end) lo.2.
Definition completes_by (c : N) (lo : label * list out) : bool := match lo.1 with LReport c' _ (Complete _) => c' =? c | _ => true end.
Theorem C103_stranger_refuted : exists cfg h now tr s sub,
  fresh_ids (s_hist s) /\ run_to cfg anything (server_start h now) tr s /\ reports (s_db s) 2 (Completed sub) /\ sc_total sub = 1 /\
  acks h (2, 0) = 0%nat /\ (2, 0) ∈ holding tr 1 /\ (forall k, ~ was_given tr 2 k) /\ forall c k out o, (LReport c k (Complete out), o) ∈ tr -> c = 2.
Proof.
  destruct (by_play ex_cfg (fun _ _ _ => true) anything ex_one 0
    (does [LConnect 1; LConnect 2] ++ get_one 1 ++ does [LReport 2 (2, 0) (Complete (Some "forged"%string)); LWrite [] 5 5 5])
    (fun tr s => bool_decide ((2, 0) ∈ holding tr 1) && forallb (fun lo => negb (gives 2 lo)) tr && forallb (completes_by 2) tr &&
       bool_decide (fresh_ids (s_hist s)) &&
       match status_of (s_db s) 2 with Ok (Some (Completed sub)) => sc_total sub =? 1 | _ => false end)) as (tr & s & Hr & HP); [done|by vm_compute|].
  rewrite !andb_true_iff, !forallb_forall in HP. destruct HP as ((((H1 & H2) & H3) & H4) & H5). apply bool_decide_eq_true_1 in H1, H4.
  destruct (status_of (s_db s) 2) as [[[|sub| |]|]|e|] eqn:Es; try done. apply N.eqb_eq in H5.
  exists ex_cfg, ex_one, 0, tr, s, sub. split_and!; try done.
  - intros k (lo & n & l & Hlo & Hg & _). apply elem_of_list_In, H2 in Hlo. unfold gives in Hlo. apply negb_true_iff in Hlo.
    assert (E : existsb (fun y => match y with Given c' _ _ => c' =? 2 | _ => false end) lo.2 = true); [|congruence].
    apply existsb_exists. exists (Given 2 n l). split; [by apply elem_of_list_In|done].
  - intros c k out o Hin. apply elem_of_list_In, H3 in Hin. by apply N.eqb_eq in Hin.
Qed.
Print Assumptions C103_stranger_refuted.
(** A run of honest consumers in which a submission is completed. *)
Example C103_example : exists tr s sub, run_to ex_cfg reports_held (server_start ex_one 0) tr s /\ fresh_ids (s_hist s) /\
  reports (s_db s) 2 (Completed sub) /\ sc_total sub = 1 /\ acks ex_one (2, 0) = 0%nat.
Proof.
  destruct (by_play ex_cfg (fun tr _ l => reports_held_b tr l) reports_held ex_one 0
    (does [LConnect 1; LConnect 2] ++ get_one 1 ++ does [LReport 1 (2, 0) (Complete (Some "y"%string)); LWrite [] 5 5 5])
    (fun tr s => bool_decide (fresh_ids (s_hist s)) &&
       match status_of (s_db s) 2 with Ok (Some (Completed sub)) => sc_total sub =? 1 | _ => false end)) as (tr & s & Hr & HP); [intros; by apply reports_held_by|by vm_compute|].
  apply andb_true_iff in HP as [H4 H5]. apply bool_decide_eq_true_1 in H4.
  destruct (status_of (s_db s) 2) as [[[|sub| |]|]|e|] eqn:Es; try done. apply N.eqb_eq in H5. by exists tr, s, sub.
Qed.

(** ** C104 *)
(** A frame that is not a message of the protocol. *)
Definition nonsense (f : frame) : Prop :=
  match f with
  | FText | FBroken | FBinary None => True
  | FBinary (Some w) => dec_to_server cbor_depth w = None
  | FPing | FPong | FClose => False
  end.
(** The connection with some more notices of expired reservations to be passed on. *)
Definition with_notices (ks : list chunk_id) (x : peer) : peer :=
  Peer (c_open x) (c_set x) (c_rx x ++ ks) (c_fetch x) (c_spawned x) (c_waiting x) (c_retry x).
Definition addressee (y : out) : N := match y with Given c _ _ | Refused c _ | Expired c _ | Closed c => c end.
Lemma deliver_others ns : forall cs c, exists ks, foldl deliver cs ns !! c = with_notices ks <$> cs !! c.
Proof.
  induction ns as [|[c' k] ns IH]; intros cs c; cbn [foldl].
  - exists []. destruct (cs !! c) as [[]|]; [|done]. unfold with_notices. cbn. by rewrite app_nil_r.
  - destruct (IH (deliver cs (c', k)) c) as [ks ->]. unfold deliver. cbn [fst snd]. destruct (cs !! c') as [x|] eqn:Ex; [|by exists ks].
    destruct (c_open x) eqn:Eo; [|by exists ks]. destruct (decide (c' = c)) as [->|Hne]; [|rewrite lookup_insert_ne by done; by exists ks].
    rewrite lookup_insert, Ex. exists (k :: ks). cbn. unfold with_notices. cbn. by rewrite Eo, <- app_assoc.
Qed.
Lemma keeps_others (o : option peer) : exists ks, o = with_notices ks <$> o.
Proof. exists []. destruct o as [[]|]; [|done]. unfold with_notices. cbn. by rewrite app_nil_r. Qed.
(** The connection that a step is about. *)
Definition of_conn (l : label) : option N :=
  match l with
  | LDisconnect c | LReserve c _ _ _ | LRetry c _ _ | LRow c | LSkip c _ | LJoin c _ | LFetchError c | LReply c | LRegister c
  | LReport c _ _ | LNotice c => Some c
  | _ => None
  end.
Lemma starts_conn c f l : starts c f l \/ serves c l -> of_conn l = Some c.
Proof.
  intros [H|H].
  - unfold starts in H. destruct (react f) as [|[n [max s|k out|k x]]|]; [done| |by subst l..]. by destruct H as (off & rows & ->).
  - destruct l; cbn in *; by try subst.
Qed.
Lemma conn_isolated cfg c l s s' o : of_conn l = Some c -> next cfg l s = Some (s', o) ->
  s_hist s' = s_hist s /\ Forall (fun y => addressee y = c) o /\
  (exists ms, s_mail s' = s_mail s ++ ms /\ Forall (fun m => m_conn m = c) ms) /\
  forall c', c' <> c -> exists ks, s_conns s' !! c' = with_notices ks <$> s_conns s !! c'.
Proof.
  intros Hl Hn.
  assert (Hmail : s_mail s' = s_mail s -> exists ms, s_mail s' = s_mail s ++ ms /\ Forall (fun m => m_conn m = c) ms).
  { intros ->. exists []. rewrite app_nil_r. by split; [|apply Forall_nil]. }
  assert (Hset : forall x, s' = set_conn c x s -> Forall (fun y => addressee y = c) o -> s_hist s' = s_hist s /\ Forall (fun y => addressee y = c) o /\
    (exists ms, s_mail s' = s_mail s ++ ms /\ Forall (fun m => m_conn m = c) ms) /\ forall c', c' <> c -> exists ks, s_conns s' !! c' = with_notices ks <$> s_conns s !! c').
  { intros x E Ho. split; [by subst|]. split; [done|]. split; [apply Hmail; by subst|]. intros c' Hne. subst. cbn. rewrite lookup_insert_ne by done. apply keeps_others. }
  assert (Hclose : forall x, s' = close cfg c x s -> o = [Closed c] -> s_hist s' = s_hist s /\ Forall (fun y => addressee y = c) o /\
    (exists ms, s_mail s' = s_mail s ++ ms /\ Forall (fun m => m_conn m = c) ms) /\ forall c', c' <> c -> exists ks, s_conns s' !! c' = with_notices ks <$> s_conns s !! c').
  { intros x E ->. split; [by subst|]. split; [by repeat constructor|]. split; [apply Hmail; by subst|]. intros c' Hne. subst. unfold close. cbn.
    rewrite lookup_insert_ne by done. match goal with |- context[foldl deliver ?cs ?ns] => destruct (deliver_others ns cs c') as [ks ->] end.
    rewrite lookup_insert_ne by done. by exists ks. }
  destruct l; try done; cbn in Hl; injection Hl as ->; unfold next in Hn; destruct (s_conns s !! c) as [x|] eqn:Ex; try done.
  - destruct (c_open x); [|done]. destruct (c_fetch x); [done|]. injection Hn as <- <-. by eapply Hclose.
  - destruct (c_open x); [|done]. destruct (c_fetch x); [done|]. destruct (q_max q =? 0); [|destruct (can_ask _); cbn [negb] in Hn]; injection Hn as <- <-.
    + apply (Hset x); [|by repeat constructor]. unfold set_conn. rewrite insert_id by done. by destruct s.
    + eapply Hset; [done|constructor].
    + apply (Hset x); [|by repeat constructor]. unfold set_conn. rewrite insert_id by done. by destruct s.
  - destruct (c_open x); [|done]. destruct (c_fetch x); [done|]. destruct (c_retry x) as [|q rest]; [done|].
    destruct (q_max q =? 0); [|destruct (can_ask _); cbn [negb] in Hn]; injection Hn as <- <-; (eapply Hset; [done|by repeat constructor]).
  - destruct (c_fetch x) as [[q [|r rows] got [j|]]|]; try done. destruct (_ <? _); [|done]. destruct (try_reserve _ _ _ _ _) as [[ok res] ns].
    injection Hn as <- <-. split; [done|]. split; [constructor|]. split; [by apply Hmail|]. intros c' Hne. cbn.
    match goal with |- context[foldl deliver ?cs ?ns] => destruct (deliver_others ns cs c') as [ks ->] end. rewrite lookup_insert_ne by done. by exists ks.
  - destruct (c_fetch x) as [[q rows got j]|]; [|done]. destruct (rows !! i); [|done]. destruct (is_reserved _ _ _ _); [|done]. injection Hn as <- <-. eapply Hset; [done|constructor].
  - destruct (c_fetch x) as [[q rows got [r|]]|]; try done. destruct (if fault then None else _).
    + injection Hn as <- <-. split; [done|]. split; [constructor|]. split; [by apply Hmail|]. intros c' Hne. cbn. rewrite lookup_insert_ne by done. apply keeps_others.
    + injection Hn as <- <-. by eapply Hclose.
  - destruct (c_fetch x) as [[q rows got j]|]; [|done]. injection Hn as <- <-. eapply Hset; [done|by repeat constructor].
  - destruct (c_fetch x) as [[q rows got [r|]]|]; try done. destruct (_ || _); [|done]. destruct got; injection Hn as <- <-; (eapply Hset; [done|by repeat constructor]).
  - destruct (c_spawned x); [done|]. injection Hn as <- <-. eapply Hset; [done|constructor].
  - destruct (c_open x); [|done]. destruct (c_fetch x); [done|]. injection Hn as <- <-. split; [done|]. split; [constructor|]. split.
    + eexists. split; [done|]. by repeat constructor.
    + intros c' Hne. cbn. rewrite lookup_insert_ne by done. apply keeps_others.
  - destruct (c_fetch x); [done|]. destruct (c_rx x); [done|]. injection Hn as <- <-. eapply Hset; [done|by repeat constructor].
Qed.
(** Whatever frame a consumer sends, and whatever the server does to serve it: the database stays as it is, nothing is
    sent to anybody else, and every other connection stays as it is but for notices of expired reservations.
    What the consumer reports is put into the queue of reports as its own. *)
Theorem C104_isolated : forall cfg c f l s s' o, starts c f l \/ serves c l -> next cfg l s = Some (s', o) ->
  s_hist s' = s_hist s /\ Forall (fun y => addressee y = c) o /\
  (exists ms, s_mail s' = s_mail s ++ ms /\ Forall (fun m => m_conn m = c) ms) /\
  forall c', c' <> c -> exists ks, s_conns s' !! c' = with_notices ks <$> s_conns s !! c'.
Proof. intros cfg c f l s s' o H. apply conn_isolated. by eapply starts_conn. Qed.
Print Assumptions C104_isolated.
(** A frame that is no message ends the connection that it came from, if the server is not busy with a request of it;
    a message that can be read, as the client sends it, does not: it starts what it asks for, and nothing else. Pings
    start nothing. *)
Definition asks_for (c : N) (e : client_envelope) (l : label) : Prop :=
  match e_msg e, l with
  | WantToReserve max st, LReserve c' (Req n' max' st') _ _ => c' = c /\ n' = e_nonce e /\ max' = max /\ st' = st
  | CompleteMsg k out, LReport c' k' (Complete out') => c' = c /\ k' = k /\ out' = out
  | FailMsg k f, LReport c' k' (Fail f') => c' = c /\ k' = k /\ f' = f
  | _, _ => False
  end.
Theorem C104_ends : forall cfg c s x, s_conns s !! c = Some x -> c_open x = true -> c_fetch x = None ->
  (forall f, nonsense f -> forall l, starts c f l <-> l = LDisconnect c) /\
  (exists s', next cfg (LDisconnect c) s = Some (s', [Closed c])) /\
  (forall e, u64_ok (e_nonce e) -> client_msg_ok (e_msg e) -> (msg_nesting (e_msg e) <= 256)%nat ->
    forall l, starts c (FBinary (Some (enc_to_server e))) l <-> asks_for c e l) /\
  forall f, f = FPing \/ f = FPong -> forall l, ~ starts c f l.
Proof.
  intros cfg c s x Hx Ho Hf. split_and!.
  - intros f Hn l. unfold starts. destruct f as [| | |[w|]| |]; try done. cbn in *. by rewrite Hn.
  - eexists. unfold next. by rewrite Hx, Ho, Hf.
  - intros [n m] H1 H2 H3 l. unfold starts, react. rewrite (proj1 C85_messages (ToServer n m) cbor_depth) by done. unfold asks_for. cbn in *.
    destruct m as [max st|k out|k f].
    + split; [by intros (? & ? & ->)|]. destruct l; try done. destruct q. intros (-> & -> & -> & ->). eauto.
    + split; [by intros ->|]. destruct l; try done. destruct r; [|done]. by intros (-> & -> & ->).
    + split; [by intros ->|]. destruct l; try done. destruct r; [done|]. by intros (-> & -> & ->).
  - intros f [->| ->] l H; exact H.
Qed.
Print Assumptions C104_ends.
(** Two consumers with a chunk each. The first sends a text; its chunk goes to the second, which completes both. *)
Definition ex_two : history := [quiet (OInsert 2 None [None; None] None ∅ 10 "o" 1)].
Example C104_example : starts 1 FText (LDisconnect 1) /\ nonsense FText /\
  exists tr1 s1 tr2 s sub, run_to ex_cfg anything (server_start ex_two 0) tr1 s1 /\ (2, 0) ∈ holding tr1 1 /\ (2, 1) ∈ holding tr1 2 /\
    run_to ex_cfg anything (server_start ex_two 0) (tr1 ++ (LDisconnect 1, [Closed 1]) :: tr2) s /\
    (forall c k out o, (LReport c k (Complete out), o) ∈ tr2 -> c = 2) /\ fresh_ids (s_hist s) /\ reports (s_db s) 2 (Completed sub) /\ sc_total sub = 2.
Proof.
  split; [done|]. split; [done|].
  destruct (by_play2 ex_cfg (fun _ _ _ => true) anything ex_two 0
    (does [LConnect 1; LConnect 2] ++ get_one 1 ++ get_second 2)
    (does [LDisconnect 1] ++ get_one 2 ++
       does [LReport 2 (2, 0) (Complete (Some "a"%string)); LWrite [] 5 5 5; LFinish; LCounters true; LReport 2 (2, 1) (Complete (Some "b"%string)); LWrite [] 5 5 5])
    (fun tr1 _ t s => bool_decide ((2, 0) ∈ holding tr1 1) && bool_decide ((2, 1) ∈ holding tr1 2) &&
       match t with (LDisconnect 1, [Closed 1]) :: tr2 => forallb (completes_by 2) tr2 | _ => false end && bool_decide (fresh_ids (s_hist s)) &&
       match status_of (s_db s) 2 with Ok (Some (Completed sub)) => sc_total sub =? 2 | _ => false end)) as (tr1 & s1 & t & s & Hr1 & Hr & HP); [done|by vm_compute|].
  rewrite !andb_true_iff in HP. destruct HP as ((((H1 & H2) & H3) & H4) & H5). apply bool_decide_eq_true_1 in H1, H2, H4.
  destruct (status_of (s_db s) 2) as [[[|sub| |]|]|e|] eqn:Es; try done. apply N.eqb_eq in H5.
  destruct t as [|[l o] tr2]; [done|]. destruct l; try done. destruct c as [|[]]; try done.
  destruct o as [|[| | |c] [|]]; try done; destruct c as [|[]]; try done.
  exists tr1, s1, tr2, s, sub. split_and!; try done.
  intros c k out o Hin. rewrite forallb_forall in H3. apply elem_of_list_In, H3 in Hin. by apply N.eqb_eq in Hin.
Qed.
