(** Proofs about reservations. *)
From Verif Require Export Reserver.
Local Open Scope N_scope.

Section with_ttl.
Context (ttl : N).

Definition entry_notices (now : N) (k : chunk_id) (oe : option entry) : list notice :=
  match oe with Some e => listener ttl now k e | None => [] end.

Lemma remove_spec now k r : cache_remove ttl now k r = (Reserver (delete k (r_entries r)) (r_pending r), entry_notices now k (r_entries r !! k)).
Proof. done. Qed.
Lemma about_key_app k l1 l2 : about_key k (l1 ++ l2) = about_key k l1 ++ about_key k l2.
Proof. apply filter_app. Qed.
Lemma about_entry now k k' oe : about_key k (entry_notices now k' oe) = if bool_decide (k = k') then entry_notices now k' oe else [].
Proof.
  unfold entry_notices, listener, about_key. destruct oe as [e|]; [|by case_bool_decide].
  destruct (is_live ttl now e); [by case_bool_decide|]. rewrite filter_cons. simpl.
  case_bool_decide as H; [rewrite decide_True by done; done|rewrite decide_False by congruence; done].
Qed.

(** A sequence of removals: the keys in it leave the map; a key is reported once, if it was there
    and expired. *)
Lemma seq_removes now l r : forall k,
  r_entries (fst (seq_notices (fun r k => cache_remove ttl now k r) r l)) !! k = (if bool_decide (k ∈ l) then None else r_entries r !! k) /\
  r_pending (fst (seq_notices (fun r k => cache_remove ttl now k r) r l)) = r_pending r /\
  about_key k (snd (seq_notices (fun r k => cache_remove ttl now k r) r l)) =
    (if bool_decide (k ∈ l) then entry_notices now k (r_entries r !! k) else []).
Proof.
  unfold seq_notices. set (f := fun '(r, ns) a => _).
  assert (H : forall l r ns k, r_entries (fst (foldl f (r, ns) l)) !! k = (if bool_decide (k ∈ l) then None else r_entries r !! k) /\
    r_pending (fst (foldl f (r, ns) l)) = r_pending r /\
    about_key k (snd (foldl f (r, ns) l)) = about_key k ns ++ (if bool_decide (k ∈ l) then entry_notices now k (r_entries r !! k) else [])).
  2: { intros k. by destruct (H l r [] k) as (H1 & H2 & H3). }
  clear l r. induction l as [|a l IH]; intros r ns k.
  - cbn [foldl fst snd]. rewrite bool_decide_eq_false_2 by (by apply not_elem_of_nil). by rewrite app_nil_r.
  - simpl foldl. destruct (IH (Reserver (delete a (r_entries r)) (r_pending r)) (ns ++ entry_notices now a (r_entries r !! a)) k) as (H1 & H2 & H3).
    fold (entry_notices now a (r_entries r !! a)). split; [|split].
    + rewrite H1. cbn [r_entries]. destruct (decide (k = a)) as [->|Hne].
      * rewrite lookup_delete, (bool_decide_eq_true_2 (a ∈ a :: l)) by left. by case_bool_decide.
      * rewrite lookup_delete_ne by done. rewrite (bool_decide_ext (k ∈ a :: l) (k ∈ l)); [done|]. rewrite elem_of_cons. tauto.
    + exact H2.
    + rewrite H3. cbn [r_entries]. rewrite about_key_app, about_entry, <- app_assoc. f_equal. destruct (decide (k = a)) as [->|Hne].
      * rewrite (bool_decide_eq_true_2 (a = a)) by done. rewrite (bool_decide_eq_true_2 (a ∈ a :: l)) by left. rewrite lookup_delete.
        case_bool_decide; by rewrite app_nil_r.
      * rewrite (bool_decide_eq_false_2 (k = a)) by done. rewrite lookup_delete_ne by done. simpl.
        rewrite (bool_decide_ext (k ∈ a :: l) (k ∈ l)); [done|]. rewrite elem_of_cons. tauto.
Qed.

Definition due (now : N) (r : reserver) (k : chunk_id) : bool := bool_decide (k ∈ (filter (fun p => p.2 <= now) (r_pending r)).*1).
Lemma elem_expired now r k : k ∈ expired_keys ttl now r <-> exists e, r_entries r !! k = Some e /\ is_live ttl now e = false.
Proof.
  unfold expired_keys. rewrite elem_of_list_fmap. split.
  - intros ([k' e] & -> & H%elem_of_map_to_list). apply map_filter_lookup_Some in H. eauto.
  - intros (e & H1 & H2). exists (k, e). split; [done|]. apply elem_of_map_to_list. by apply map_filter_lookup_Some.
Qed.
(** What a maintenance run does to one key. *)
Lemma run_spec now r k :
  r_entries (fst (run_pending_tasks ttl now r)) !! k = (if due now r k then None else get_live ttl now k r) /\
  about_key k (snd (run_pending_tasks ttl now r)) = entry_notices now k (r_entries r !! k) /\
  r_pending (fst (run_pending_tasks ttl now r)) = filter (fun p => now < p.2) (r_pending r).
Proof.
  unfold run_pending_tasks, purge_pending_removals, evict_expired.
  set (r0 := Reserver (r_entries r) (filter (fun p => now < p.2) (r_pending r))).
  set (l := (filter (fun p => p.2 <= now) (r_pending r)).*1).
  change (purge_one ttl now) with (fun r k => cache_remove ttl now k r).
  destruct (seq_removes now l r0 k) as (H1 & H2 & H3).
  destruct (seq_notices _ r0 l) as [r1 ns1]. cbn [fst snd] in *.
  destruct (seq_removes now (expired_keys ttl now r1) r1 k) as (H4 & H5 & H6).
  pose proof (elem_expired now r1 k) as Hx. rewrite H1 in Hx.
  destruct (seq_notices _ r1 _) as [r2 ns2]. cbn [fst snd] in *. rewrite H4, H1, about_key_app, H3, H6, H1, H5, H2. subst r0. cbn [r_entries r_pending].
  unfold due. fold l. cbn [r_entries] in Hx. split; [|split; [|done]].
  - destruct (bool_decide (k ∈ l)); [by case_bool_decide|]. unfold get_live. destruct (r_entries r !! k) as [e|] eqn:E.
    + destruct (is_live ttl now e) eqn:El.
      * rewrite bool_decide_eq_false_2; [done|]. rewrite Hx. intros (e' & [= <-] & ?). congruence.
      * rewrite bool_decide_eq_true_2; [done|]. apply Hx. eauto.
    + by case_bool_decide.
  - destruct (bool_decide (k ∈ l)).
    + case_bool_decide; by rewrite app_nil_r.
    + simpl. case_bool_decide as H; [done|]. destruct (r_entries r !! k) as [e|] eqn:E; [|done]. unfold entry_notices, listener.
      destruct (is_live ttl now e) eqn:El; [done|]. destruct H. apply Hx. eauto.
Qed.

(** *** What any call does to one key: the entry stays and nothing is reported, or the entry goes
    and its holder is told exactly if it had expired. *)
Lemma rstep_key r o k e :
  r_entries r !! k = Some e ->
  (r_entries (fst (rstep ttl r o)) !! k = Some e /\ about_key k (snd (rstep ttl r o)) = []) \/
  ((r_entries (fst (rstep ttl r o)) !! k = None \/ exists h, r_entries (fst (rstep ttl r o)) !! k = Some (Entry h o.1) /\ o.2 = RTry k h /\ is_live ttl o.1 e = false) /\
   about_key k (snd (rstep ttl r o)) = listener ttl o.1 k e).
Proof.
  intros He. destruct o as [now o]. unfold rstep. cbn [fst snd]. destruct o as [k' h|k' b|k'|].
  - unfold try_reserve. destruct (get_live ttl now k' r) as [e'|] eqn:El; cbn [fst snd]; [by left|].
    change (match r_entries r !! k' with Some e0 => listener ttl now k' e0 | None => [] end) with (entry_notices now k' (r_entries r !! k')).
    cbn [r_entries]. rewrite about_entry. destruct (decide (k = k')) as [<-|Hne].
    + right. rewrite lookup_insert, bool_decide_eq_true_2 by done. rewrite He. split; [|done]. right. exists h. split; [done|]. split; [done|].
      unfold get_live in El. rewrite He in El. by destruct (is_live ttl now e).
    + left. rewrite lookup_insert_ne by done. by rewrite bool_decide_eq_false_2.
  - unfold finish_reservation. destruct (get_live ttl now k' r) as [e'|] eqn:El; [|by left]. destruct b; [by left|].
    rewrite remove_spec. cbn [fst snd r_entries]. rewrite about_entry. destruct (decide (k = k')) as [<-|Hne].
    + right. rewrite lookup_delete, bool_decide_eq_true_2 by done. rewrite He. split; [by left|done].
    + left. rewrite lookup_delete_ne by done. by rewrite bool_decide_eq_false_2.
  - unfold finish_reservation_sync. rewrite remove_spec. cbn [fst snd r_entries]. rewrite about_entry. destruct (decide (k = k')) as [<-|Hne].
    + right. rewrite lookup_delete, bool_decide_eq_true_2 by done. rewrite He. split; [by left|done].
    + left. rewrite lookup_delete_ne by done. by rewrite bool_decide_eq_false_2.
  - destruct (run_spec now r k) as (H1 & H2 & _). rewrite H1, H2. unfold get_live. rewrite He. unfold entry_notices, listener.
    destruct (due now r k); [right; by split; [left|]|]. destruct (is_live ttl now e); [by left|right]. split; [by left|done].
Qed.
Lemma run_evicts r now k e : r_entries r !! k = Some e -> is_live ttl now e = false -> r_entries (fst (rstep ttl r (now, RRun))) !! k = None.
Proof.
  intros He Hl. unfold rstep. cbn [fst snd]. destruct (run_spec now r k) as (H1 & _). rewrite H1. unfold get_live. rewrite He, Hl. by destruct (due now r k).
Qed.

Lemma rrun_app r l1 l2 : rrun ttl r (l1 ++ l2) = rrun ttl (rrun ttl r l1) l2.
Proof. apply foldl_app. Qed.
(** *** Life of one reservation *)
Lemma reservation_life ops : forall r k e, r_entries r !! k = Some e ->
  (r_entries (rrun ttl r ops) !! k = Some e /\ about_key k (rnotices ttl r ops) = [] /\
   forall now, (now, RRun) ∈ ops -> now < e_at e + ttl) \/
  (exists ops1 o ops2, ops = ops1 ++ o :: ops2 /\ r_entries (rrun ttl r ops1) !! k = Some e /\ about_key k (rnotices ttl r ops1) = [] /\
     (r_entries (rrun ttl r (ops1 ++ [o])) !! k = None \/
      exists h, o.2 = RTry k h /\ e_at e + ttl <= o.1 /\ r_entries (rrun ttl r (ops1 ++ [o])) !! k = Some (Entry h o.1)) /\
     about_key k (snd (rstep ttl (rrun ttl r ops1) o)) = (if o.1 <? e_at e + ttl then [] else [(e_holder e, k)])).
Proof.
  induction ops as [|o ops IH]; intros r k e He.
  - left. split; [done|]. split; [done|]. intros now H. by apply elem_of_nil in H.
  - destruct (rstep_key r o k e He) as [[H1 H2]|[H1 H2]].
    + destruct (IH _ k e H1) as [(H3 & H4 & H5)|(ops1 & o' & ops2 & -> & H3 & H4 & H5 & H6)].
      * left. split; [exact H3|]. split; [cbn [rnotices]; by rewrite about_key_app, H2, H4|].
        intros now [Eo|H]%elem_of_cons; [|by apply H5]. subst o. destruct (is_live ttl now e) eqn:El.
        -- unfold is_live in El. by apply N.ltb_lt.
        -- rewrite (run_evicts _ _ _ _ He El) in H1. done.
      * right. exists (o :: ops1), o', ops2. split; [done|]. split; [exact H3|]. split; [cbn [rnotices]; by rewrite about_key_app, H2, H4|].
        split; [exact H5|exact H6].
    + right. exists [], o, ops. split; [done|]. split; [done|]. split; [done|]. cbn [app rrun foldl]. split.
      * destruct H1 as [H1|(h & H1 & H3 & H4)]; [by left|right]. exists h. split; [done|]. split; [|done].
        unfold is_live in H4. by apply N.ltb_ge in H4.
      * rewrite H2. unfold listener, is_live. done.
Qed.

(** *** Exclusiveness *)
Definition removes_now (k : chunk_id) (o : rop) : Prop := o = RFinish k false \/ o = RFinishSync k.
(** No delayed removal of [k] is due at a maintenance run in [ops]: neither one already pending
    nor one of a finish in [ops]. *)
Definition no_due_removal (k : chunk_id) (pending : list (chunk_id * N)) (ops : list (N * rop)) : Prop :=
  forall l1 now l2, ops = l1 ++ (now, RRun) :: l2 ->
    (forall d, (k, d) ∈ pending -> now < d) /\ (forall u, (u, RFinish k true) ∈ l1 -> now < u + removal_delay).
Lemma exclusive ops : forall r k e,
  r_entries r !! k = Some e -> Forall (fun o => o.1 < e_at e + ttl /\ ~ removes_now k o.2) ops ->
  no_due_removal k (r_pending r) ops -> r_entries (rrun ttl r ops) !! k = Some e.
Proof.
  induction ops as [|o ops IH]; intros r k e He Hf Hd; [done|]. apply Forall_cons in Hf as [[Ht Hn] Hf].
  assert (Hl : is_live ttl o.1 e = true) by (by apply N.ltb_lt). apply IH; [|done|].
  - destruct o as [now o]. cbn [fst snd] in *. destruct o as [k' h|k' b|k'|]; unfold rstep; cbn [fst snd].
    + unfold try_reserve. destruct (get_live ttl now k' r) as [e'|] eqn:El; [done|]. cbn [r_entries fst].
      destruct (decide (k = k')) as [<-|Hne]; [|by rewrite lookup_insert_ne]. unfold get_live in El. by rewrite He, Hl in El.
    + unfold finish_reservation. destruct (get_live ttl now k' r) as [e'|] eqn:El; [|done]. destruct b; [done|].
      rewrite remove_spec. cbn [r_entries fst]. rewrite lookup_delete_ne; [done|]. intros ->. apply Hn. by left.
    + unfold finish_reservation_sync. rewrite remove_spec. cbn [r_entries fst]. rewrite lookup_delete_ne; [done|]. intros ->. apply Hn. by right.
    + destruct (run_spec now r k) as (H1 & _). rewrite H1. unfold due. rewrite bool_decide_eq_false_2.
      * unfold get_live. by rewrite He, Hl.
      * intros ([k' d] & -> & [H2 H3]%elem_of_list_filter)%elem_of_list_fmap. destruct (Hd [] now ops eq_refl) as [H4 _]. simpl in *.
        specialize (H4 d H3). lia.
  - intros l1 now l2 ->. destruct (Hd (o :: l1) now l2 eq_refl) as [H1 H2]. split; [|intros u Hu; apply H2; by right].
    intros d Hin. destruct o as [u o]. unfold rstep in Hin. cbn [fst snd] in *. destruct o as [k' h|k' b|k'|].
    + unfold try_reserve in Hin. destruct (get_live ttl u k' r); by apply H1.
    + unfold finish_reservation in Hin. destruct (get_live ttl u k' r) as [e'|]; [|by apply H1]. destruct b; [|by apply H1].
      cbn [r_pending fst] in Hin. apply elem_of_app in Hin as [Hin|Hin]; [by apply H1|]. apply elem_of_list_singleton in Hin as [= <- ->].
      apply H2. left.
    + by apply H1.
    + destruct (run_spec u r k) as (_ & _ & Hp). rewrite Hp in Hin. apply elem_of_list_filter in Hin as [_ Hin]. by apply H1.
Qed.
Lemma live_reserved now k r e : r_entries r !! k = Some e -> now < e_at e + ttl -> is_reserved ttl now k r = true /\ forall h, fst (fst (try_reserve ttl now k h r)) = false.
Proof.
  intros He Hl. apply N.ltb_lt in Hl. unfold is_reserved, try_reserve, get_live. rewrite He. unfold is_live. rewrite Hl. done.
Qed.
Lemma expired_free now k r e h : r_entries r !! k = Some e -> e_at e + ttl <= now ->
  is_reserved ttl now k r = false /\ fst (fst (try_reserve ttl now k h r)) = true.
Proof.
  intros He Hl. apply N.ltb_ge in Hl. unfold is_reserved, try_reserve, get_live. rewrite He. unfold is_live. rewrite Hl. done.
Qed.
(** An entry never carries a later time than the last call. *)
Lemma rstep_dom r o k e : r_entries (fst (rstep ttl r o)) !! k = Some e -> r_entries r !! k = Some e \/ exists h, o.2 = RTry k h /\ e = Entry h o.1.
Proof.
  destruct (r_entries r !! k) as [e'|] eqn:E.
  - destruct (rstep_key r o k e' E) as [[H1 _]|[[H1|(h & H1 & H2 & _)] _]]; intros H; rewrite H1 in H; [left; congruence|done|].
    right. exists h. split; [done|]. congruence.
  - destruct o as [now o]. unfold rstep. cbn [fst snd]. destruct o as [k' h|k' b|k'|].
    + unfold try_reserve. destruct (get_live ttl now k' r); cbn [fst snd r_entries]; [rewrite E; done|].
      rewrite lookup_insert_Some. intros [[<- <-]|[_ H]]; [right; eauto|congruence].
    + unfold finish_reservation. destruct (get_live ttl now k' r); [|cbn; rewrite E; done]. destruct b; cbn [fst snd r_entries cache_remove]; [rewrite E; done|].
      rewrite lookup_delete_Some. intros [_ H]. congruence.
    + unfold finish_reservation_sync. cbn [fst snd r_entries cache_remove]. rewrite lookup_delete_Some. intros [_ H]. congruence.
    + destruct (run_spec now r k) as (H1 & _). rewrite H1. unfold get_live. rewrite E. by destruct (due now r k).
Qed.
End with_ttl.
