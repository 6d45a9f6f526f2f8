(** Who holds what: an invariant of the server's reservations, first on an abstract view. *)
From Verif Require Export Server ReserverProofs.
Local Open Scope N_scope.

(** What matters of a connection: whether it is open, its set, and the chunks that a running fetch
    has reserved. *)
Record core : Set := Core { k_open : bool; k_set : gset chunk_id; k_fetch : list chunk_id }.
Notation cores := (gmap N core) (only parsing).
Section abstract.
Context (Live : entry -> Prop).
Implicit Types (H : N -> gset chunk_id) (K : gmap N core) (E : gmap chunk_id entry) (P : list chunk_id) (B : list (N * chunk_id)).

Definition used_by K P (k : chunk_id) : Prop :=
  (exists c x, K !! c = Some x /\ k_open x = true /\ (k ∈ k_set x \/ k ∈ k_fetch x)) \/ k ∈ P.
Definition in_time K E P : Prop := forall k e, E !! k = Some e -> used_by K P k -> Live e.
Definition mine E (c : N) (k : chunk_id) : Prop := exists e, E !! k = Some e /\ e_holder e = c.

Record hinv H K E P B : Prop := {
  i_set : forall c x k, K !! c = Some x -> k_open x = true -> k ∈ k_set x -> mine E c k;
  i_fetch : forall c x k, K !! c = Some x -> k ∈ k_fetch x -> k_open x = true /\ k ∉ k_set x /\ mine E c k;
  i_fetch_nd : forall c x, K !! c = Some x -> NoDup (k_fetch x);
  i_pend : forall k, k ∈ P -> is_Some (E !! k) /\ forall c x, K !! c = Some x -> k_open x = true -> k ∉ k_set x /\ k ∉ k_fetch x;
  i_pend_nd : NoDup P;
  i_held : forall c k, k ∈ H c -> exists x, K !! c = Some x /\ k_open x = true /\ k ∈ k_set x;
  i_mail : forall c k, (c, k) ∈ B -> (exists x, K !! c = Some x /\ k_open x = true /\ k ∈ k_set x) /\ k ∉ H c;
  i_mail_nd : NoDup B }.

Lemma mine_inj E c c' k : mine E c k -> mine E c' k -> c = c'.
Proof. intros (e & H1 & <-) (e' & H2 & <-). congruence. Qed.
Lemma hinv_exclusive H K E P B c c' k : hinv H K E P B -> k ∈ H c -> k ∈ H c' -> c = c'.
Proof.
  intros I H1 H2. destruct (i_held _ _ _ _ _ I _ _ H1) as (x & ? & ? & ?). destruct (i_held _ _ _ _ _ I _ _ H2) as (x' & ? & ? & ?).
  eapply mine_inj; eapply (i_set _ _ _ _ _ I); eauto.
Qed.

Lemma hinv_start H : (forall c, H c = ∅) -> hinv H ∅ ∅ [] [].
Proof.
  intros HH. constructor; try (intros *; rewrite lookup_empty; discriminate); try apply NoDup_nil_2.
  - intros k Hk. by apply elem_of_nil in Hk.
  - intros c k Hk. rewrite HH in Hk. by apply elem_of_empty in Hk.
  - intros c k Hk. by apply elem_of_nil in Hk.
Qed.
Lemma hinv_ext H H' K E P B : (forall c, H' c = H c) -> hinv H K E P B -> hinv H' K E P B.
Proof.
  intros HH I. destruct I. constructor; auto.
  - intros c k. rewrite HH. auto.
  - intros c k. rewrite HH. auto.
Qed.
(** A new connection. *)
Lemma hinv_connect H K E P B c : K !! c = None -> hinv H K E P B -> hinv H (<[c := Core true ∅ []]> K) E P B.
Proof.
  intros Hc I. destruct I. constructor; auto.
  - intros c' x k [[<- <-]|[Hne Hl]]%lookup_insert_Some; [|eauto]. cbn. set_solver.
  - intros c' x k [[<- <-]|[Hne Hl]]%lookup_insert_Some; [|eauto]. cbn. set_solver.
  - intros c' x [[<- <-]|[Hne Hl]]%lookup_insert_Some; [|eauto]. cbn. constructor.
  - intros k Hk. destruct (i_pend0 k Hk) as [H1 H2]. split; [done|].
    intros c' x [[<- <-]|[Hne Hl]]%lookup_insert_Some; [|eauto]. cbn. set_solver.
  - intros c' k Hk. destruct (i_held0 _ _ Hk) as (x & Hx & ?). exists x. rewrite lookup_insert_ne by congruence. done.
  - intros c' k Hk. destruct (i_mail0 _ _ Hk) as [(x & Hx & ?) ?]. split; [|done]. exists x. rewrite lookup_insert_ne by congruence. done.
Qed.
(** A connection ends: its chunks leave the table. No report of it is on the way. *)
Lemma hinv_close H H' K E E' P B c x : K !! c = Some x -> k_open x = true ->
  (forall k, E' !! k = if bool_decide (k ∈ k_set x) then None else E !! k) ->
  (forall k, (c, k) ∉ B) -> H' c = ∅ -> (forall c', c' <> c -> H' c' = H c') ->
  hinv H K E P B -> hinv H' (<[c := Core false (k_set x) []]> K) E' P B.
Proof.
  intros Hc Ho HE HB H1 H2 I. pose proof (i_set _ _ _ _ _ I c x) as Hset. destruct I.
  assert (Hm : forall c' k, c' <> c -> mine E c' k -> mine E' c' k).
  { intros c' k Hne Hmine. pose proof Hmine as (e & He & Hh). exists e. split; [|done]. rewrite HE. case_bool_decide as Hin; [|done].
    exfalso. apply Hne. eapply mine_inj; [done|]. eauto. }
  constructor; auto.
  - intros c' x' k [[<- <-]|[Hne Hl]]%lookup_insert_Some; [done|]. intros. apply Hm; eauto.
  - intros c' x' k [[<- <-]|[Hne Hl]]%lookup_insert_Some; [cbn; set_solver|]. intros Hk.
    destruct (i_fetch0 _ _ _ Hl Hk) as (? & ? & ?). split_and!; auto.
  - intros c' x' [[<- <-]|[Hne Hl]]%lookup_insert_Some; [|eauto]. cbn. constructor.
  - intros k Hk. destruct (i_pend0 k Hk) as [H3 H4]. split.
    + rewrite HE. destruct (H4 _ _ Hc Ho). by rewrite bool_decide_eq_false_2.
    + intros c' x' [[<- <-]|[Hne Hl]]%lookup_insert_Some; [done|eauto].
  - intros c' k Hk. destruct (decide (c' = c)) as [->|Hne]; [rewrite H1 in Hk; set_solver|]. rewrite H2 in Hk by done.
    destruct (i_held0 _ _ Hk) as (x' & Hx & ?). exists x'. rewrite lookup_insert_ne by congruence. done.
  - intros c' k Hk. destruct (i_mail0 _ _ Hk) as [(x' & Hx & ?) ?]. assert (c' <> c) by (intros ->; by destruct (HB k)).
    rewrite H2 by done. split; [|done]. exists x'. rewrite lookup_insert_ne by congruence. done.
Qed.
(** A fetch that has reserved nothing starts, or one is given up. *)
Lemma hinv_nofetch H K E P B c x : K !! c = Some x -> hinv H K E P B -> hinv H (<[c := Core (k_open x) (k_set x) []]> K) E P B.
Proof.
  intros Hc I. destruct I. constructor; auto.
  - intros c' x' k [[<- <-]|[Hne Hl]]%lookup_insert_Some; eauto.
  - intros c' x' k [[<- <-]|[Hne Hl]]%lookup_insert_Some; [|eauto]. cbn. set_solver.
  - intros c' x' [[<- <-]|[Hne Hl]]%lookup_insert_Some; [|eauto]. cbn. constructor.
  - intros k Hk. destruct (i_pend0 k Hk) as [H1 H2]. split; [done|].
    intros c' x' [[<- <-]|[Hne Hl]]%lookup_insert_Some; [|eauto]. cbn. intros. split; [|set_solver]. by apply (H2 c x).
  - intros c' k Hk. destruct (i_held0 _ _ Hk) as (x' & Hx & ?). destruct (decide (c' = c)) as [->|Hne].
    + eexists. split; [apply lookup_insert|]. cbn. by simplify_eq.
    + exists x'. by rewrite lookup_insert_ne.
  - intros c' k Hk. destruct (i_mail0 _ _ Hk) as [(x' & Hx & ?) ?]. split; [|done]. destruct (decide (c' = c)) as [->|Hne].
    + eexists. split; [apply lookup_insert|]. cbn. by simplify_eq.
    + exists x'. by rewrite lookup_insert_ne.
Qed.
(** A running fetch reserves a chunk. *)
Lemma hinv_reserve H K E P B c x k now : K !! c = Some x -> k_open x = true ->
  in_time K E P -> (forall e, E !! k = Some e -> ~ Live e) ->
  hinv H K E P B -> hinv H (<[c := Core true (k_set x) (k_fetch x ++ [k])]> K) (<[k := Entry c now]> E) P B.
Proof.
  intros Hc Ho Ht Hfree I.
  assert (Hnu : ~ used_by K P k).
  { intros Hu. assert (is_Some (E !! k)) as [e He].
    { destruct Hu as [(c' & x' & Hx & Ho' & [Hk|Hk])|Hk].
      - destruct (i_set _ _ _ _ _ I _ _ _ Hx Ho' Hk) as (e & ? & _). eauto.
      - destruct (i_fetch _ _ _ _ _ I _ _ _ Hx Hk) as (_ & _ & e & ? & _). eauto.
      - by destruct (i_pend _ _ _ _ _ I _ Hk). }
    exact (Hfree e He (Ht _ _ He Hu)). }
  assert (Hm : forall c' k', k' <> k -> mine E c' k' -> mine (<[k := Entry c now]> E) c' k').
  { intros c' k' Hne (e & He & ?). exists e. by rewrite lookup_insert_ne. }
  assert (Hnk : forall c' x', K !! c' = Some x' -> k_open x' = true -> k ∉ k_set x' /\ k ∉ k_fetch x').
  { intros c' x' Hx Ho'. split; intros Hk; apply Hnu; left; eauto 10. }
  destruct I. constructor; auto.
  - intros c' x' k' [[<- <-]|[Hne Hl]]%lookup_insert_Some Ho' Hk; cbn in *; apply Hm; eauto; intros ->.
    + by destruct (Hnk c x).
    + by destruct (Hnk c' x').
  - intros c' x' k' [[<- <-]|[Hne Hl]]%lookup_insert_Some Hk; cbn in *.
    + apply elem_of_app in Hk as [Hk| ->%elem_of_list_singleton].
      * destruct (i_fetch0 _ _ _ Hc Hk) as (? & ? & ?). split_and!; auto. apply Hm; [|done]. intros ->. by destruct (Hnk c x).
      * split_and!; [done|by apply (Hnk c x)|]. eexists. by rewrite lookup_insert.
    + destruct (i_fetch0 _ _ _ Hl Hk) as (? & ? & ?). split_and!; auto. apply Hm; [|done]. intros ->. by destruct (Hnk c' x').
  - intros c' x' [[<- <-]|[Hne Hl]]%lookup_insert_Some; [|eauto]. cbn. apply NoDup_app. split_and!; [eauto| |apply NoDup_singleton].
    intros y Hy ->%elem_of_list_singleton. by destruct (Hnk c x).
  - intros k' Hk. destruct (i_pend0 k' Hk) as [H1 H2]. assert (k' <> k) by (intros ->; apply Hnu; by right). split.
    + by rewrite lookup_insert_ne.
    + intros c' x' [[<- <-]|[Hne Hl]]%lookup_insert_Some; [|eauto]. cbn. intros _. destruct (H2 c x Hc Ho).
      split; [done|]. rewrite elem_of_app, elem_of_list_singleton. tauto.
  - intros c' k' Hk. destruct (i_held0 _ _ Hk) as (x' & Hx & ?). destruct (decide (c' = c)) as [->|Hne].
    + eexists. split; [apply lookup_insert|]. cbn. simplify_eq. split; [done|tauto].
    + exists x'. by rewrite lookup_insert_ne.
  - intros c' k' Hk. destruct (i_mail0 _ _ Hk) as [(x' & Hx & ?) ?]. split; [|done]. destruct (decide (c' = c)) as [->|Hne].
    + eexists. split; [apply lookup_insert|]. cbn. simplify_eq. split; [done|tauto].
    + exists x'. by rewrite lookup_insert_ne.
Qed.
(** What was fetched is given to the consumer. *)
Lemma hinv_reply H H' K E P B c x : K !! c = Some x -> k_open x = true ->
  H' c = H c ∪ list_to_set (k_fetch x) -> (forall c', c' <> c -> H' c' = H c') ->
  hinv H K E P B -> hinv H' (<[c := Core true (k_set x ∪ list_to_set (k_fetch x)) []]> K) E P B.
Proof.
  intros Hc Ho H1 H2 I. destruct I. constructor; auto.
  - intros c' x' k [[<- <-]|[Hne Hl]]%lookup_insert_Some; [|eauto]. cbn. intros _ [Hk|Hk%elem_of_list_to_set]%elem_of_union; [eauto|].
    by apply (i_fetch0 _ _ _ Hc Hk).
  - intros c' x' k [[<- <-]|[Hne Hl]]%lookup_insert_Some; [|eauto]. cbn. set_solver.
  - intros c' x' [[<- <-]|[Hne Hl]]%lookup_insert_Some; [|eauto]. cbn. constructor.
  - intros k Hk. destruct (i_pend0 k Hk) as [H3 H4]. split; [done|].
    intros c' x' [[<- <-]|[Hne Hl]]%lookup_insert_Some; [|eauto]. cbn. intros _. destruct (H4 c x Hc Ho) as [H5 H6].
    split; [|set_solver]. rewrite elem_of_union, elem_of_list_to_set. tauto.
  - intros c' k Hk. destruct (decide (c' = c)) as [->|Hne].
    + eexists. split; [apply lookup_insert|]. cbn. split; [done|]. rewrite H1 in Hk. apply elem_of_union in Hk as [Hk|Hk].
      * destruct (i_held0 _ _ Hk) as (x' & Hx & ? & ?). simplify_eq. set_solver.
      * set_solver.
    + rewrite H2 in Hk by done. destruct (i_held0 _ _ Hk) as (x' & Hx & ?). exists x'. by rewrite lookup_insert_ne.
  - intros c' k Hk. destruct (i_mail0 _ _ Hk) as [(x' & Hx & Ho' & Hin) Hnh]. destruct (decide (c' = c)) as [->|Hne].
    + simplify_eq. split.
      * eexists. split; [apply lookup_insert|]. cbn. split; [done|]. set_solver.
      * rewrite H1, elem_of_union, elem_of_list_to_set. intros [?|Hf]; [done|]. by destruct (i_fetch0 _ _ _ Hc Hf) as (_ & ? & _).
    + rewrite H2 by done. split; [|done]. exists x'. by rewrite lookup_insert_ne.
Qed.
(** A consumer reports a chunk that it holds. *)
Lemma hinv_report H H' K E P B c k : k ∈ H c -> H' c = H c ∖ {[ k ]} -> (forall c', c' <> c -> H' c' = H c') ->
  hinv H K E P B -> hinv H' K E P (B ++ [(c, k)]).
Proof.
  intros Hk H1 H2 I. destruct I. constructor; auto.
  - intros c' k' Hk'. destruct (decide (c' = c)) as [->|Hne]; [|rewrite H2 in Hk' by done; eauto]. rewrite H1 in Hk'. set_solver.
  - intros c' k' [Hb|[= -> ->]%elem_of_list_singleton]%elem_of_app.
    + destruct (i_mail0 _ _ Hb) as [? Hn]. split; [done|]. destruct (decide (c' = c)) as [->|Hne]; [|by rewrite H2]. rewrite H1. set_solver.
    + split; [eauto|]. rewrite H1. set_solver.
  - apply NoDup_app. split_and!; [done| |apply NoDup_singleton]. intros b Hb ->%elem_of_list_singleton.
    by destruct (i_mail0 _ _ Hb) as [_ Hn].
Qed.
Lemma hinv_mail_sub H K E P B B' : (forall b, b ∈ B' -> b ∈ B) -> NoDup B' -> hinv H K E P B -> hinv H K E P B'.
Proof. intros H1 H2 I. destruct I. constructor; eauto. Qed.
(** A reported chunk leaves the set of its connection; its reservation is removed now ... *)
Lemma hinv_finish_now H K E P B1 B2 c k x : K !! c = Some x ->
  hinv H K E P (B1 ++ (c, k) :: B2) ->
  hinv H (<[c := Core (k_open x) (k_set x ∖ {[ k ]}) (k_fetch x)]> K) (delete k E) P (B1 ++ B2).
Proof.
  intros Hc I.
  assert (Hb : (c, k) ∈ B1 ++ (c, k) :: B2) by (rewrite elem_of_app, elem_of_cons; tauto).
  destruct (i_mail _ _ _ _ _ I _ _ Hb) as [(x' & Hx & Ho & Hin) Hnh]. simplify_eq.
  assert (Hmine := i_set _ _ _ _ _ I _ _ _ Hc Ho Hin).
  assert (Hother : forall c' k', mine E c' k' -> (c' = c -> k' <> k) -> mine (delete k E) c' k').
  { intros c' k' Hm Hne. pose proof Hm as (e & He & ?). exists e. split; [|done]. destruct (decide (k' = k)) as [->|]; [|by rewrite lookup_delete_ne].
    exfalso. apply Hne; [|done]. by eapply mine_inj. }
  pose proof (i_mail_nd _ _ _ _ _ I) as Hnd. apply NoDup_app in Hnd as (Hnd1 & Hnd2 & Hnd3). apply NoDup_cons in Hnd3 as [Hnd3 Hnd4].
  destruct I. constructor; auto.
  - intros c' x' k' [[<- <-]|[Hne Hl]]%lookup_insert_Some; cbn; intros Ho' Hk'; apply Hother; eauto; set_solver.
  - intros c' x' k' [[<- <-]|[Hne Hl]]%lookup_insert_Some; cbn; intros Hk'.
    + destruct (i_fetch0 _ _ _ Hc Hk') as (? & ? & ?). split_and!; [done|set_solver|]. apply Hother; [done|]. intros _ ->. done.
    + destruct (i_fetch0 _ _ _ Hl Hk') as (? & ? & ?). split_and!; [done|done|]. by apply Hother.
  - intros c' x' [[<- <-]|[Hne Hl]]%lookup_insert_Some; [|eauto]. cbn. eauto.
  - intros k' Hk'. destruct (i_pend0 k' Hk') as [H1 H2]. destruct (H2 _ _ Hc Ho) as [H3 H4]. split.
    + rewrite lookup_delete_ne; [done|]. by intros ->.
    + intros c' x' [[<- <-]|[Hne Hl]]%lookup_insert_Some; [|eauto]. cbn. intros _. split; [set_solver|done].
  - intros c' k' Hk'. destruct (i_held0 _ _ Hk') as (x' & Hx & Ho' & Hin'). destruct (decide (c' = c)) as [->|Hne].
    + simplify_eq. eexists. split; [apply lookup_insert|]. cbn. split; [done|]. assert (k' <> k) by (by intros ->). set_solver.
    + exists x'. by rewrite lookup_insert_ne.
  - intros c' k' Hk'. assert (Hk2 : (c', k') ∈ B1 ++ (c, k) :: B2) by (apply elem_of_app in Hk' as [?|?]; rewrite elem_of_app, elem_of_cons; tauto).
    destruct (i_mail0 _ _ Hk2) as [(x' & Hx & Ho' & Hin') Hnh']. split; [|done]. destruct (decide (c' = c)) as [->|Hne].
    + simplify_eq. eexists. split; [apply lookup_insert|]. cbn. split; [done|].
      assert (k' <> k). { intros ->. apply elem_of_app in Hk' as [Hk'|Hk']; [|done]. eapply Hnd2; [exact Hk'|left]. }
      set_solver.
    + exists x'. by rewrite lookup_insert_ne.
  - apply NoDup_app. split_and!; [done| |done]. intros b Hb1 Hb2. apply (Hnd2 b Hb1). by right.
Qed.
(** ... or later. *)
Lemma hinv_finish_later H K E P B1 B2 c k x : K !! c = Some x ->
  hinv H K E P (B1 ++ (c, k) :: B2) ->
  hinv H (<[c := Core (k_open x) (k_set x ∖ {[ k ]}) (k_fetch x)]> K) E (P ++ [k]) (B1 ++ B2).
Proof.
  intros Hc I.
  assert (Hb : (c, k) ∈ B1 ++ (c, k) :: B2) by (rewrite elem_of_app, elem_of_cons; tauto).
  destruct (i_mail _ _ _ _ _ I _ _ Hb) as [(x' & Hx & Ho & Hin) Hnh]. simplify_eq.
  assert (Hmine := i_set _ _ _ _ _ I _ _ _ Hc Ho Hin).
  pose proof (i_mail_nd _ _ _ _ _ I) as Hnd. apply NoDup_app in Hnd as (Hnd1 & Hnd2 & Hnd3). apply NoDup_cons in Hnd3 as [Hnd3 Hnd4].
  destruct I. constructor; auto.
  - intros c' x' k' [[<- <-]|[Hne Hl]]%lookup_insert_Some; cbn; intros Ho' Hk'; eauto. set_solver.
  - intros c' x' k' [[<- <-]|[Hne Hl]]%lookup_insert_Some; cbn; intros Hk'; [|eauto].
    destruct (i_fetch0 _ _ _ Hc Hk') as (? & ? & ?). split_and!; [done|set_solver|done].
  - intros c' x' [[<- <-]|[Hne Hl]]%lookup_insert_Some; [|eauto]. cbn. eauto.
  - intros k' [Hk'| ->%elem_of_list_singleton]%elem_of_app.
    + destruct (i_pend0 k' Hk') as [H1 H2]. destruct (H2 _ _ Hc Ho) as [H3 H4]. split; [done|].
      intros c' x' [[<- <-]|[Hne Hl]]%lookup_insert_Some; [|eauto]. cbn. intros _. split; [set_solver|done].
    + split; [destruct Hmine as (e & ? & _); eauto|].
      intros c' x' [[<- <-]|[Hne Hl]]%lookup_insert_Some; cbn; intros Ho'.
      * split; [set_solver|]. intros Hf. by destruct (i_fetch0 _ _ _ Hc Hf) as (_ & ? & _).
      * split; intros Hk'.
        -- apply Hne. eapply mine_inj; [exact Hmine|eauto].
        -- destruct (i_fetch0 _ _ _ Hl Hk') as (_ & _ & ?). apply Hne. by eapply mine_inj.
  - apply NoDup_app. split_and!; [done| |apply NoDup_singleton]. intros k' Hk' ->%elem_of_list_singleton.
    destruct (i_pend0 k Hk') as [_ H2]. by destruct (H2 _ _ Hc Ho).
  - intros c' k' Hk'. destruct (i_held0 _ _ Hk') as (x' & Hx & Ho' & Hin'). destruct (decide (c' = c)) as [->|Hne].
    + simplify_eq. eexists. split; [apply lookup_insert|]. cbn. split; [done|]. assert (k' <> k) by (by intros ->). set_solver.
    + exists x'. by rewrite lookup_insert_ne.
  - intros c' k' Hk'. assert (Hk2 : (c', k') ∈ B1 ++ (c, k) :: B2) by (apply elem_of_app in Hk' as [?|?]; rewrite elem_of_app, elem_of_cons; tauto).
    destruct (i_mail0 _ _ Hk2) as [(x' & Hx & Ho' & Hin') Hnh']. split; [|done]. destruct (decide (c' = c)) as [->|Hne].
    + simplify_eq. eexists. split; [apply lookup_insert|]. cbn. split; [done|].
      assert (k' <> k). { intros ->. apply elem_of_app in Hk' as [Hk'|Hk']; [|done]. eapply Hnd2; [exact Hk'|left]. }
      set_solver.
    + exists x'. by rewrite lookup_insert_ne.
  - apply NoDup_app. split_and!; [done| |done]. intros b Hb1 Hb2. apply (Hnd2 b Hb1). by right.
Qed.
(** A reservation that nobody uses goes away. *)
Lemma hinv_drop H K E P B k : ~ used_by K P k -> hinv H K E P B -> hinv H K (delete k E) P B.
Proof.
  intros Hnu I.
  assert (Hm : forall c' k', k' <> k -> mine E c' k' -> mine (delete k E) c' k').
  { intros c' k' Hne (e & He & ?). exists e. by rewrite lookup_delete_ne. }
  destruct I. constructor; auto.
  - intros c x k' Hc Ho Hk. apply Hm; [|eauto]. intros ->. apply Hnu. left. eauto 10.
  - intros c x k' Hc Hk. destruct (i_fetch0 _ _ _ Hc Hk) as (? & ? & ?). split_and!; auto. apply Hm; [|done].
    intros ->. apply Hnu. left. eauto 10.
  - intros k' Hk. destruct (i_pend0 k' Hk). split; [|done]. rewrite lookup_delete_ne; [done|]. intros ->. apply Hnu. by right.
Qed.
(** A delayed removal. *)
Lemma hinv_purge H K E P1 P2 B k : hinv H K E (P1 ++ k :: P2) B -> hinv H K (delete k E) (P1 ++ P2) B.
Proof.
  intros I. pose proof (i_pend_nd _ _ _ _ _ I) as Hnd. apply NoDup_app in Hnd as (Hnd1 & Hnd2 & Hnd3). apply NoDup_cons in Hnd3 as [Hnd3 Hnd4].
  destruct (i_pend _ _ _ _ _ I k) as [_ Hk]; [rewrite elem_of_app, elem_of_cons; tauto|].
  apply hinv_drop.
  { intros [(c & x & Hx & Ho & Hin)|Hin]; [by destruct (Hk _ _ Hx Ho), Hin|]. apply elem_of_app in Hin as [Hin|Hin]; [|done].
    apply (Hnd2 k Hin). left. }
  destruct I. constructor; auto.
  - intros k' Hk'. apply i_pend0. apply elem_of_app in Hk' as [?|?]; rewrite elem_of_app, elem_of_cons; tauto.
  - apply NoDup_app. split_and!; [done| |done]. intros b Hb1 Hb2. apply (Hnd2 b Hb1). by right.
Qed.
End abstract.
