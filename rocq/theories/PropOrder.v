(** C101: in which order the chunks of one submission are offered. Vocabulary: Strategy.v. *)
From Verif Require Import AnswerProofs StrategyProofs PropQueue PropDispatch.
Local Open Scope N_scope.

(** *** Specification *)
(** The promise of strategy.rs:23-25: the chunks of a submission "are ordered by chunk_index". *)
Definition by_index (l : list chunk) : Prop :=
  forall i j a b, l !! i = Some a -> l !! j = Some b -> (i < j)%nat -> c_sub a = c_sub b -> c_index a < c_index b.
(** The opposite. *)
Definition against_index (l : list chunk) : Prop :=
  forall i j a b, l !! i = Some a -> l !! j = Some b -> (i < j)%nat -> c_sub a = c_sub b -> c_index b < c_index a.

(** *** Lemmas *)
Definition up (a b : chunk) : Prop := c_sub a = c_sub b -> c_index a < c_index b.
Lemma sorted_strict (R S : relation chunk) l :
  StronglySorted R l -> NoDup (ids l) -> (forall a b, R a b -> (c_sub a, c_index a) <> (c_sub b, c_index b) -> S a b) -> StronglySorted S l.
Proof.
  intros Hs Hn HR. induction Hs as [|x l Hs IH Hx]; [constructor|]. rewrite fmap_cons in Hn. apply NoDup_cons in Hn as [Hx' Hn].
  constructor; [by apply IH|]. rewrite Forall_forall in Hx |- *. intros y Hy. apply HR; [by apply Hx|].
  intros E. apply Hx'. rewrite E. apply elem_of_list_fmap. by exists y.
Qed.
Lemma NoDup_sorted (R : relation chunk) `{!RelDecision R} d rsv : NoDup (ids (merge_sort R (available d rsv))).
Proof.
  rewrite merge_sort_Permutation. unfold available. pose proof (NoDup_all_chunks d) as H. revert H. generalize (all_chunks d) as l.
  induction l as [|c l IH]; intros H; [constructor|]. rewrite fmap_cons in H. apply NoDup_cons in H as [Hc H]. rewrite filter_cons.
  case_decide; [|by apply IH]. rewrite fmap_cons. apply NoDup_cons. split; [|by apply IH].
  intros Hi. apply Hc. apply elem_of_list_fmap in Hi as (y & E & Hy). apply elem_of_list_fmap. exists y. split; [done|].
  apply elem_of_list_filter in Hy. tauto.
Qed.
Lemma sorted_filter {A} (R : relation A) (P : A -> Prop) `{!forall x, Decision (P x)} l : StronglySorted R l -> StronglySorted R (filter P l).
Proof.
  intros Hs. induction Hs as [|x l Hs IH Hx]; [constructor|]. rewrite filter_cons. case_decide; [|done]. constructor; [done|].
  rewrite Forall_forall in Hx |- *. intros y Hy. apply Hx. apply elem_of_list_filter in Hy. tauto.
Qed.
Lemma sorted_app {A} (R : relation A) l1 l2 :
  StronglySorted R l1 -> StronglySorted R l2 -> (forall x y, x ∈ l1 -> y ∈ l2 -> R x y) -> StronglySorted R (l1 ++ l2).
Proof.
  intros H1 H2 HR. induction H1 as [|x l Hs IH Hx]; [done|]. simpl. constructor.
  - apply IH. intros a b Ha. apply HR. by right.
  - rewrite Forall_forall in Hx |- *. intros y [Hy|Hy]%elem_of_app; [by apply Hx|]. apply HR; [left|done].
Qed.
Lemma sorted_groups (ids : list sub_id) (l : list chunk) : NoDup ids -> StronglySorted up l ->
  StronglySorted up (id ← ids; filter (fun c => c_sub c = id) l).
Proof.
  intros Hn Hl. induction Hn as [|x ids Hx Hn IH]; [constructor|]. rewrite bind_cons. apply sorted_app; [by apply sorted_filter|done|].
  intros a b [Ha _]%elem_of_list_filter Hb E. exfalso. apply elem_of_list_bind in Hb as (y & [Hb _]%elem_of_list_filter & Hy).
  apply Hx. by rewrite <- Ha, E, Hb.
Qed.
Lemma scan_le d rsv : StronglySorted chunk_le (merge_sort chunk_le (available d rsv)).
Proof. apply StronglySorted_merge_sort; [intros [] [] []|intros [] []]; unfold chunk_le; simpl; lia. Qed.
Lemma scan_ge d rsv : StronglySorted chunk_ge (merge_sort chunk_ge (available d rsv)).
Proof. apply StronglySorted_merge_sort; [intros [] [] []|intros [] []]; unfold chunk_ge; simpl; lia. Qed.
Lemma scan_up d rsv : StronglySorted up (merge_sort chunk_le (available d rsv)).
Proof.
  apply (sorted_strict chunk_le); [apply scan_le|apply NoDup_sorted|]. unfold chunk_le, up. intros a b H Hne E.
  destruct (decide (c_index a = c_index b)) as [Ei|Ei]; [|lia]. exfalso. apply Hne. by rewrite E, Ei.
Qed.
Lemma swap_sorted {A} (R : relation A) (l1 l2 : list A) a b :
  StronglySorted R (l1 ++ a :: b :: l2) -> R b a -> StronglySorted R (l1 ++ b :: a :: l2).
Proof.
  induction l1 as [|x l1 IH]; simpl; intros Hs Hba.
  - apply StronglySorted_inv in Hs as [Hs Ha]. apply StronglySorted_inv in Hs as [Hs Hb]. inversion Ha; subst.
    constructor; [by constructor|]. by constructor.
  - apply StronglySorted_inv in Hs as [Hs Hx]. constructor; [by apply IH|]. rewrite Forall_forall in Hx |- *. intros y Hy. apply Hx.
    rewrite !elem_of_app, !elem_of_cons in *. tauto.
Qed.

(** ** C101 *)
(** Full statement: every answer of every strategy without [Random] at the top has [by_index].
    The rows in the order of the table's primary key (which SQLite reads it in) have it, for
    [Oldest] and for every [PreferDistinct], whatever is underneath. *)
Theorem C101_key_order_partial : forall s off d m rsv,
  s = Oldest \/ (exists key u, s = PreferDistinct key u) ->
  offers s off d m rsv (scan s off d m rsv) /\ by_index (scan s off d m rsv).
Proof.
  intros s off d m rsv Hs. split; [apply scan_offers|]. intros i j a b Ha Hb Hij E.
  assert (H : StronglySorted up (scan s off d m rsv)); [|exact (sorted_lookup _ _ _ _ _ _ H Ha Hb Hij E)].
  destruct Hs as [->|(key & u & ->)]; [apply scan_up|]. simpl scan. set (s := PreferDistinct key u). apply sorted_groups; [|apply scan_up].
  rewrite merge_sort_Permutation, fst_pd_rows, (query_inner_perm (innermost u) off d); [apply NoDup_all_subs|].
  apply scan_inner_ok, innermost_idem.
Qed.
Print Assumptions C101_key_order_partial.
(** Read in the order of that key, the answer of [Newest] has the chunks of a submission backwards. *)
Theorem C101_newest_refuted : forall off d m rsv,
  offers Newest off d m rsv (scan Newest off d m rsv) /\ against_index (scan Newest off d m rsv).
Proof.
  intros off d m rsv. split; [apply scan_offers|]. intros i j a b Ha Hb Hij E.
  assert (H : StronglySorted (fun a b => c_sub a = c_sub b -> c_index b < c_index a) (scan Newest off d m rsv)).
  { apply (sorted_strict chunk_ge); [apply scan_ge|apply NoDup_sorted|]. unfold chunk_ge. intros x y H Hne E'.
    destruct (decide (c_index x = c_index y)) as [Ei|Ei]; [|lia]. exfalso. apply Hne. by rewrite E', Ei. }
  exact (sorted_lookup _ _ _ _ _ _ H Ha Hb Hij E).
Qed.
Print Assumptions C101_newest_refuted.
(** The queries do not ask for any order of them: two neighbours of one submission may be swapped. *)
Theorem C101_not_asked_refuted : forall s off d m rsv l1 l2 a b,
  s = Oldest \/ s = Newest -> c_sub a = c_sub b ->
  offers s off d m rsv (l1 ++ a :: b :: l2) -> offers s off d m rsv (l1 ++ b :: a :: l2).
Proof.
  intros s off d m rsv l1 l2 a b [-> | ->] E [Hp Hs]; (split; [rewrite <- Hp; solve_Permutation|]); apply swap_sorted; try done; lia.
Qed.
Print Assumptions C101_not_asked_refuted.
(** All the three, on a queue with two chunks in one submission. *)
Example C101_example :
  by_index (scan Oldest 0 (after ex_h2) ex_m ex_rsv) /\
  ids (scan Oldest 0 (after ex_h2) ex_m ex_rsv) = [(1, 0); (1, 1); (2, 0); (3, 0); (3, 1)] /\
  ids (scan (PreferDistinct "k" Newest) 0 (after ex_h2) ex_m ex_rsv) = [(3, 0); (3, 1); (2, 0); (1, 0); (1, 1)] /\
  (exists l, offers Newest 0 (after ex_h2) ex_m ex_rsv l /\ ~ by_index l) /\
  (exists l, offers Oldest 0 (after ex_h2) ex_m ex_rsv l /\ ~ by_index l).
Proof.
  split; [apply (C101_key_order_partial Oldest); by left|]. split; [by vm_compute|]. split; [by vm_compute|]. split.
  - exists (scan Newest 0 (after ex_h2) ex_m ex_rsv). split; [apply scan_offers|]. intros H.
    specialize (H 0%nat 1%nat (Chunk 3 1 None 0) (Chunk 3 0 None 0)). assert (1 < 0); [|lia]. apply H; by vm_compute || lia.
  - pose proof (scan_offers Oldest 0 (after ex_h2) ex_m ex_rsv) as Ho.
    assert (E : scan Oldest 0 (after ex_h2) ex_m ex_rsv = [] ++ Chunk 1 0 None 0 :: Chunk 1 1 None 0 :: drop 2 (scan Oldest 0 (after ex_h2) ex_m ex_rsv)) by by vm_compute.
    rewrite E in Ho. apply C101_not_asked_refuted in Ho; [|by left|done]. eexists. split; [exact Ho|]. intros H.
    specialize (H 0%nat 1%nat (Chunk 1 1 None 0) (Chunk 1 0 None 0) eq_refl eq_refl). simpl in H. lia.
Qed.
