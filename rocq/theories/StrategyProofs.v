(** Proofs about the order in which chunks are offered. *)
From Verif Require Export Strategy.
From Verif Require Import RetryProofs.
Local Open Scope N_scope.

(** *** Rows *)
Lemma NoDup_all_chunks d : NoDup ((fun c => (c_sub c, c_index c)) <$> all_chunks d).
Proof.
  unfold all_chunks. rewrite <- list_fmap_compose.
  rewrite (list_fmap_ext _ fst); [apply NoDup_fst_map_to_list|]. by intros ? [[a b] r].
Qed.
Lemma NoDup_all_chunks' d : NoDup (all_chunks d).
Proof. eapply NoDup_fmap_1. apply NoDup_all_chunks. Qed.
Lemma elem_all_chunks d c : c ∈ all_chunks d <-> waiting d (c_sub c, c_index c) = Some c.
Proof.
  unfold all_chunks. rewrite elem_of_list_fmap. split.
  - intros ([[id ix] r] & -> & H%elem_of_map_to_list). cbn [c_sub c_index]. unfold waiting, get_chunk. rewrite exec_sql. by rewrite H.
  - intros (r & Hr & E)%waiting_some. exists (c_sub c, c_index c, r). split; [exact E|]. by apply elem_of_map_to_list.
Qed.
Lemma elem_available d rsv c : c ∈ available d rsv <-> waiting d (c_sub c, c_index c) = Some c /\ rsv (c_sub c, c_index c) = false.
Proof. unfold available. rewrite elem_of_list_filter, elem_all_chunks. tauto. Qed.
Lemma NoDup_available d rsv : NoDup (available d rsv).
Proof. apply NoDup_filter, NoDup_all_chunks'. Qed.
Lemma NoDup_all_subs d : NoDup (all_subs d).
Proof. apply NoDup_fst_map_to_list. Qed.
Lemma elem_all_subs d id : id ∈ all_subs d <-> is_Some (t_sub d !! id).
Proof.
  unfold all_subs. rewrite elem_of_list_fmap. split.
  - intros ([? r] & -> & H%elem_of_map_to_list). by eexists.
  - intros [r Hr]. exists (id, r). split; [done|]. by apply elem_of_map_to_list.
Qed.

(** *** Random *)
Lemma random_query_perm {A} (pos : A -> N) off rows l : random_query pos off rows l -> l ≡ₚ rows.
Proof.
  intros (l1 & l2 & -> & H1 & H2). rewrite H1, H2. clear.
  induction rows as [|a rows IH]; [done|]. rewrite !filter_cons.
  destruct (decide (off <= pos a)), (decide (pos a < off)); try lia; simpl; [by rewrite IH|]. by rewrite <- Permutation_middle, IH.
Qed.
Lemma cut_random_query {A} (pos : A -> N) off rows l : l ≡ₚ rows -> random_query pos off rows (cut pos off l).
Proof. intros H. unfold cut. eexists _, _. split; [done|]. by rewrite H. Qed.
Lemma random_query_order {A} (pos : A -> N) off rows l i j a b :
  random_query pos off rows l -> l !! i = Some a -> l !! j = Some b -> (i < j)%nat -> off <= pos b -> off <= pos a.
Proof.
  intros (l1 & l2 & -> & H1 & H2) Hi Hj Hij Hb.
  assert (Hj1 : (j < length l1)%nat).
  { destruct (decide (j < length l1)%nat); [done|]. rewrite lookup_app_r in Hj by lia. apply elem_of_list_lookup_2 in Hj.
    rewrite H2, elem_of_list_filter in Hj. lia. }
  rewrite lookup_app_l in Hi by lia. apply elem_of_list_lookup_2 in Hi. rewrite H1, elem_of_list_filter in Hi. tauto.
Qed.
(** Multiplication by an odd number permutes the residues; the inverse of 40503 modulo 65536 is 30599. *)
Lemma spread_inj x y : x < 65536 -> y < 65536 -> (x * 40503) mod 65536 = (y * 40503) mod 65536 -> x = y.
Proof.
  intros Hx Hy H.
  assert (Hi : forall z, z < 65536 -> (((z * 40503) mod 65536) * 30599) mod 65536 = z).
  { intros z Hz. rewrite N.mul_mod_idemp_l by done. rewrite <- N.mul_assoc. change (40503 * 30599) with (18911 * 65536 + 1).
    rewrite N.mul_add_distr_l, N.mul_1_r, N.mul_assoc, N.add_comm, N.mod_add by done. by apply N.mod_small. }
  rewrite <- (Hi x Hx), <- (Hi y Hy). by rewrite H.
Qed.
Lemma random_distinct id i j : i < j -> j - i < 65536 -> chunk_random_order id i <> chunk_random_order id j.
Proof.
  intros Hij Hd H. unfold chunk_random_order in H. apply spread_inj in H; [|by apply N.mod_lt..].
  set (b := id + N.shiftr id 22) in *. clearbody b.
  pose proof (N.div_mod (b + i) 65536 ltac:(done)) as E1. pose proof (N.div_mod (b + j) 65536 ltac:(done)) as E2.
  rewrite H in E1. assert (65536 * ((b + j) / 65536) = 65536 * ((b + i) / 65536) + (j - i)) as E by lia.
  remember ((b + j) / 65536) as q. remember ((b + i) / 65536) as p. clear - E Hij Hd. nia.
Qed.

(** *** PreferDistinct: the join yields one row per submission *)
Lemma omap_lookup_pairs (f : gmap Z N) (x : option Z) :
  omap (fun '(v, n) => if bool_decide (x = Some v) then Some n else None) (map_to_list f) =
  match x with Some v => option_list (f !! v) | None => [] end.
Proof.
  destruct x as [v|].
  - assert (H : forall l : list (Z * N), NoDup l.*1 ->
      omap (fun '(v', n) => if bool_decide (Some v = Some v') then Some n else None) l = option_list (list_to_map (M := gmap Z N) l !! v)).
    { set (f1 := fun '(v', n) => _). assert (Hc : forall x l, omap f1 (x :: l) = match f1 x with Some y => y :: omap f1 l | None => omap f1 l end) by done.
      induction l as [|[v' n] l IH]; intros Hn; [done|]. rewrite Hc. apply NoDup_cons in Hn as [Hni Hn]. rewrite IH by done. subst f1.
      cbn beta iota. rewrite list_to_map_cons. destruct (decide (v = v')) as [->|Hne].
      - rewrite bool_decide_eq_true_2, lookup_insert by done. cbn [fst] in Hni. rewrite not_elem_of_list_to_map_1 by done. done.
      - rewrite bool_decide_eq_false_2, lookup_insert_ne by congruence. done. }
    rewrite H by apply NoDup_fst_map_to_list. by rewrite list_to_map_to_list.
  - induction (map_to_list f) as [|[v n] l IH]; [done|]. exact IH.
Qed.
(** Like [in_flight], with the key as the callback sees it. *)
Definition in_flight_c (d : db) (m : metastate) (id : sub_id) (key : string) : option N :=
  v ← t_meta d !! (id, key); f ← m !! cstr key; f !! v.
Lemma left_join_count d m k id : left_join (count_rows d m k id) = [in_flight_c d m id k].
Proof.
  unfold count_rows, counts_of. rewrite omap_lookup_pairs. unfold in_flight_c.
  destruct (t_meta d !! (id, k)) as [v|]; [|done]. simpl. destruct (m !! cstr k) as [f|]; simpl; [|by rewrite lookup_empty].
  by destruct (f !! v).
Qed.
Lemma joined_one d m keys id : joined d m keys id = [in_flight_c d m id <$> keys].
Proof. induction keys as [|k ks IH]; [done|]. cbn [joined]. rewrite left_join_count, IH. done. Qed.
Lemma pd_rows_eq d m keys inner : pd_rows d m keys inner = imap (fun row id => (id, (in_flight_c d m id <$> keys, row))) inner.
Proof.
  unfold pd_rows. transitivity (concat (imap (fun row id => [(id, (in_flight_c d m id <$> keys, row))]) inner)).
  { f_equal. apply imap_ext. intros i x _. by rewrite joined_one. }
  assert (H : forall f : nat -> sub_id -> sub_id * (list (option N) * nat), concat (imap (fun row id => [f row id]) inner) = imap f inner).
  { clear. induction inner as [|x l IH]; intros f; [done|]. rewrite !imap_cons. simpl. f_equal. apply (IH (f ∘ S)). }
  apply (H (fun row id => (id, (in_flight_c d m id <$> keys, row)))).
Qed.
Lemma fst_pd_rows d m keys inner : (pd_rows d m keys inner).*1 = inner.
Proof. rewrite pd_rows_eq, fmap_imap. transitivity (imap (fun _ x => x) inner); [by apply imap_ext|]. clear. induction inner as [|x l IH]; [done|].
  rewrite imap_cons. f_equal. exact IH. Qed.
Lemma elem_pd_rows d m keys inner x cs r :
  (x, (cs, r)) ∈ pd_rows d m keys inner <-> inner !! r = Some x /\ cs = in_flight_c d m x <$> keys.
Proof.
  rewrite pd_rows_eq, elem_of_lookup_imap. split.
  - intros (i & y & E & H). injection E as -> -> ->. done.
  - intros [H ->]. by exists r, x.
Qed.
Lemma cstr_id k : (forall i c, String.get i k = Some c -> c <> Ascii.zero) -> cstr k = k.
Proof.
  induction k as [|c k IH]; intros H; [done|]. simpl. rewrite bool_decide_eq_false_2 by (by apply (H 0%nat)). f_equal. apply IH.
  intros i c' Hc. by apply (H (S i)).
Qed.
Lemma query_inner_perm s off d l : query_inner s off d l -> l ≡ₚ all_subs d.
Proof. destruct s; simpl; [tauto|tauto|apply random_query_perm|done]. Qed.
Lemma query_subs_perm s off d m l : query_subs s off d m l -> l ≡ₚ all_subs d.
Proof.
  destruct s; [apply (query_inner_perm Oldest off)|apply (query_inner_perm Newest off)|apply (query_inner_perm Random off)|].
  intros (inner & rows & Hi & Hr & _ & ->). rewrite Hr, fst_pd_rows. by eapply query_inner_perm.
Qed.

(** *** Every strategy offers the available chunks *)
Definition chunks_have_sub (d : db) : Prop := forall c, c ∈ all_chunks d -> is_Some (t_sub d !! c_sub c).
Lemma groups_perm ids groups (avail : list chunk) :
  Forall2 (fun id g => g ≡ₚ filter (fun c => c_sub c = id) avail) ids groups -> NoDup ids ->
  concat groups ≡ₚ filter (fun c => c_sub c ∈ ids) avail.
Proof.
  intros H. induction H as [|id g ids groups Hg _ IH]; intros Hn.
  - simpl. symmetry. apply Permutation_nil_r. clear. induction avail; [done|]. rewrite filter_cons_False; [done|]. by apply not_elem_of_nil.
  - apply NoDup_cons in Hn as [Hni Hn]. simpl. rewrite Hg, IH by done. clear Hg IH.
    induction avail as [|c l IH]; [done|]. rewrite !filter_cons.
    destruct (decide (c_sub c = id)) as [E|E].
    + rewrite (decide_True (P := c_sub c ∈ id :: ids)) by (rewrite E; left). rewrite decide_False by (by rewrite E).
      simpl. by rewrite IH.
    + destruct (decide (c_sub c ∈ ids)).
      * rewrite (decide_True (P := c_sub c ∈ id :: ids)) by (by right). rewrite <- Permutation_middle. by rewrite IH.
      * rewrite (decide_False (P := c_sub c ∈ id :: ids)) by (rewrite elem_of_cons; tauto). done.
Qed.
Lemma offers_perm s off d m rsv l : chunks_have_sub d -> offers s off d m rsv l -> l ≡ₚ available d rsv.
Proof.
  intros Hd. destruct s; [intros [? _]; done..|apply random_query_perm|].
  intros (ids & groups & Hq & Hg & ->). apply query_subs_perm in Hq.
  rewrite (groups_perm _ _ _ Hg). 2: { rewrite Hq. apply NoDup_all_subs. }
  clear groups Hg. assert (H : forall c, c ∈ available d rsv -> c_sub c ∈ ids).
  { intros c Hc. rewrite Hq, elem_all_subs. apply Hd. unfold available in Hc. apply elem_of_list_filter in Hc. tauto. }
  induction (available d rsv) as [|c l IH]; [done|]. rewrite filter_cons_True by (apply H; left).
  rewrite IH; [done|]. intros c' Hc'. apply H. by right.
Qed.
Lemma reachable_have_sub h : fresh_ids h -> chunks_have_sub (after h).
Proof.
  intros Hf c Hc. apply elem_all_chunks in Hc. apply waiting_some in Hc as (r & Hr & _).
  destruct (inv_after h Hf) as [Hi]. destruct (Hi _ _ _ Hr) as (s & Hs & _). by eexists.
Qed.
Lemma offers_exact h s off m rsv l : fresh_ids h -> offers s off (after h) m rsv l ->
  NoDup ((fun c => (c_sub c, c_index c)) <$> l) /\
  (forall c, c ∈ l <-> waiting (after h) (c_sub c, c_index c) = Some c /\ rsv (c_sub c, c_index c) = false).
Proof.
  intros Hf Ho. apply offers_perm in Ho; [|by apply reachable_have_sub]. split.
  - rewrite Ho. unfold available. eapply NoDup_fmap_2_strong; [|apply NoDup_available].
    intros a b Ha Hb E. apply elem_of_list_filter in Ha as [_ Ha], Hb as [_ Hb].
    apply elem_all_chunks in Ha, Hb. congruence.
  - intros c. rewrite Ho. apply elem_available.
Qed.

(** *** The order of PreferDistinct *)
Lemma sorted_lookup {A} (R : relation A) l i j a b :
  StronglySorted R l -> l !! i = Some a -> l !! j = Some b -> (i < j)%nat -> R a b.
Proof.
  intros Hs. revert i j. induction Hs as [|x l Hs IH Hx]; intros i j Hi Hj Hij; [done|].
  destruct j as [|j]; [lia|]. destruct i as [|i]; simpl in *.
  - injection Hi as ->. rewrite Forall_forall in Hx. apply Hx. by apply elem_of_list_lookup_2 in Hj.
  - eapply IH; [done..|lia].
Qed.
Lemma groups_order ids groups (avail : list chunk) i j a b :
  Forall2 (fun id g => g ≡ₚ filter (fun c => c_sub c = id) avail) ids groups ->
  concat groups !! i = Some a -> concat groups !! j = Some b -> (i < j)%nat -> c_sub a = c_sub b \/ before ids (c_sub a) (c_sub b).
Proof.
  intros H. revert i j. induction H as [|id g ids groups Hg H IH]; intros i j Hi Hj Hij; [done|]. simpl in *.
  assert (Hin : forall k c, concat groups !! k = Some c -> c_sub c ∈ ids).
  { clear - H. induction H as [|id g ids groups Hg H IH]; intros k c Hk; [done|]. simpl in Hk.
    apply lookup_app_Some in Hk as [Hk|[_ Hk]].
    - apply elem_of_list_lookup_2 in Hk. rewrite Hg, elem_of_list_filter in Hk. destruct Hk as [-> _]. left.
    - right. by eapply IH. }
  assert (Hg' : forall k c, g !! k = Some c -> c_sub c = id).
  { intros k c Hk. apply elem_of_list_lookup_2 in Hk. rewrite Hg, elem_of_list_filter in Hk. tauto. }
  apply lookup_app_Some in Hi as [Hi|[Hli Hi]], Hj as [Hj|[Hlj Hj]].
  - left. by rewrite (Hg' _ _ Hi), (Hg' _ _ Hj).
  - right. rewrite (Hg' _ _ Hi). apply Hin in Hj. apply elem_of_list_lookup in Hj as [q Hq]. exists 0%nat, (S q). split; [done|]. split; [done|lia].
  - apply lookup_lt_Some in Hj. lia.
  - destruct (IH (i - length g)%nat (j - length g)%nat Hi Hj ltac:(lia)) as [E|(p & q & Hp & Hq & Hpq)]; [by left|].
    right. exists (S p), (S q). split; [done|]. split; [done|lia].
Qed.
Lemma prefer_distinct_order_c k u off d m rsv l :
  let s := PreferDistinct k u in offers s off d m rsv l ->
  exists inner, query_inner (innermost s) off d inner /\
  forall i j a b, l !! i = Some a -> l !! j = Some b -> (i < j)%nat -> c_sub a = c_sub b \/
    match cmp_counts (in_flight_c d m (c_sub a) <$> meta_keys s) (in_flight_c d m (c_sub b) <$> meta_keys s) with
    | Lt => True | Eq => before inner (c_sub a) (c_sub b) | Gt => False
    end.
Proof.
  intros s (ids & groups & (inner & rows & Hi & Hr & Hs & ->) & Hg & ->). fold s in Hi, Hr. exists inner. split; [done|].
  intros i j a b Ha Hb Hij. destruct (groups_order _ _ _ i j a b Hg Ha Hb Hij) as [E|(p & q & Hp & Hq & Hpq)]; [by left|].
  destruct (decide (c_sub a = c_sub b)) as [E|Hne]; [by left|right].
  apply list_lookup_fmap_Some in Hp as ([x [cx rx]] & Hp & E1). apply list_lookup_fmap_Some in Hq as ([y [cy ry]] & Hq & E2).
  rewrite E1, E2 in *. cbn [fst snd] in *. clear E1 E2.
  pose proof (sorted_lookup _ _ _ _ _ _ Hs Hp Hq Hpq) as Hle. cbn [fst snd] in Hle.
  apply elem_of_list_lookup_2 in Hp, Hq. rewrite Hr, elem_pd_rows in Hp, Hq. destruct Hp as [Hp ->], Hq as [Hq ->].
  unfold row_le in Hle. cbn [fst snd] in Hle. destruct (cmp_counts _ _); try done.
  exists rx, ry. split; [done|]. split; [done|]. assert (rx <> ry) by congruence. lia.
Qed.
Lemma in_flight_c_id d m z key : cstr key = key -> in_flight_c d m z key = in_flight d m z key.
Proof. intros H. unfold in_flight_c, in_flight. by rewrite H. Qed.
Lemma prefer_distinct_order k u off d m rsv l :
  let s := PreferDistinct k u in
  Forall (fun key => cstr key = key) (meta_keys s) -> offers s off d m rsv l ->
  exists inner, query_inner (innermost s) off d inner /\
  forall i j a b, l !! i = Some a -> l !! j = Some b -> (i < j)%nat -> c_sub a = c_sub b \/
    match cmp_counts (in_flight d m (c_sub a) <$> meta_keys s) (in_flight d m (c_sub b) <$> meta_keys s) with
    | Lt => True | Eq => before inner (c_sub a) (c_sub b) | Gt => False
    end.
Proof.
  intros s Hk Ho. destruct (prefer_distinct_order_c k u off d m rsv l Ho) as (inner & Hi & H). exists inner. split; [exact Hi|].
  intros i j a b Ha Hb Hij. specialize (H i j a b Ha Hb Hij).
  assert (Hc : forall z, in_flight_c d m z <$> meta_keys s = in_flight d m z <$> meta_keys s).
  { intros z. apply list_fmap_ext. intros ? key Hkey. rewrite Forall_lookup in Hk. by apply in_flight_c_id, (Hk _ _ Hkey). }
  by rewrite !Hc in H.
Qed.
(** The outermost key decides first, whatever the other keys contain. *)
Lemma prefer_distinct_outermost k u off d m rsv l i j a b :
  cstr k = k -> offers (PreferDistinct k u) off d m rsv l -> l !! i = Some a -> l !! j = Some b -> (i < j)%nat ->
  cmp_count (in_flight d m (c_sub a) k) (in_flight d m (c_sub b) k) <> Gt \/ c_sub a = c_sub b.
Proof.
  intros Hk Ho Ha Hb Hij. destruct (prefer_distinct_order_c k u off d m rsv l Ho) as (inner & _ & H).
  destruct (H i j a b Ha Hb Hij) as [E|E]; [by right|]. left. cbn [meta_keys fmap list_fmap cmp_counts] in E.
  rewrite !(in_flight_c_id _ _ _ k Hk) in E. intros Hg. by rewrite Hg in E.
Qed.

(** *** The order of the indexes is one of the allowed orders *)
Lemma cmp_count_spec a b : cmp_count a b = ((match a with None => 0 | Some x => x + 1 end) ?= (match b with None => 0 | Some x => x + 1 end)).
Proof.
  destruct a as [x|], b as [y|]; simpl; try done.
  - destruct (N.compare_spec x y), (N.compare_spec (x + 1) (y + 1)); try done; lia.
  - destruct x; done.
  - destruct y; done.
Qed.
Lemma cmp_counts_refl a : cmp_counts a a = Eq.
Proof. induction a as [|x a IH]; [done|]. simpl. by rewrite cmp_count_spec, N.compare_refl. Qed.
Lemma cmp_counts_antisym a b : cmp_counts b a = CompOpp (cmp_counts a b).
Proof.
  revert b. induction a as [|x a IH]; intros [|y b]; try done. simpl. rewrite !cmp_count_spec, (N.compare_antisym).
  destruct (_ ?= _); simpl; [apply IH|done|done].
Qed.
Lemma cmp_counts_eq a b : cmp_counts a b = Eq -> a = b.
Proof.
  revert b. induction a as [|x a IH]; intros [|y b]; try done. simpl. rewrite cmp_count_spec.
  match goal with |- context[?p ?= ?q] => destruct (N.compare_spec p q) as [E|E|E] end; try done.
  intros H. f_equal; [|by apply IH]. destruct x, y; try done; try lia. f_equal. lia.
Qed.
Lemma cmp_counts_trans a b c : cmp_counts a b = Lt -> cmp_counts b c = Lt -> cmp_counts a c = Lt.
Proof.
  revert b c. induction a as [|x a IH]; intros [|y b] [|z c]; try done. simpl. rewrite !cmp_count_spec.
  repeat match goal with |- context[?p ?= ?q] => destruct (N.compare_spec p q) end; try done; try lia. eauto.
Qed.
Global Instance row_le_total : Total row_le.
Proof.
  intros a b. unfold row_le. rewrite (cmp_counts_antisym a.1 b.1). destruct (cmp_counts a.1 b.1); simpl; auto. lia.
Qed.
Global Instance row_le_trans : Transitive row_le.
Proof.
  intros a b c. unfold row_le. destruct (cmp_counts a.1 b.1) eqn:E1; [|..|done]; intros H1; (destruct (cmp_counts b.1 c.1) eqn:E2; [|..|done]); intros H2.
  - apply cmp_counts_eq in E1 as ->. rewrite E2. lia.
  - apply cmp_counts_eq in E1 as ->. by rewrite E2.
  - apply cmp_counts_eq in E2 as <-. by rewrite E1.
  - by rewrite (cmp_counts_trans _ _ _ E1 E2).
Qed.
Lemma sorted_map_le {A} (R R' : relation A) l : (forall a b, R a b -> R' a b) -> StronglySorted R l -> StronglySorted R' l.
Proof. intros H Hs. induction Hs as [|x l Hs IH Hx]; constructor; [done|]. eapply Forall_impl; [exact Hx|auto]. Qed.
Lemma scan_inner_ok s off d : s = innermost s -> query_inner s off d (scan_inner s off d).
Proof.
  destruct s as [| | |k u]; simpl; intros E.
  - split; [apply merge_sort_Permutation|]. apply StronglySorted_merge_sort; [intros ???; lia|intros a b; lia].
  - split; [apply merge_sort_Permutation|]. apply StronglySorted_merge_sort; unfold flip; [intros ???; simpl; lia|intros a b; simpl; lia].
  - apply cut_random_query, merge_sort_Permutation.
  - exfalso. clear - E. assert (H : forall u k', innermost u <> PreferDistinct k' u).
    { assert (Hn : forall u k' u', innermost u <> PreferDistinct k' u') by (clear; induction u as [| | |k u IH]; intros k' u'; [done..|apply IH]). intros; apply Hn. }
    by apply (H u k).
Qed.
Lemma innermost_idem s : innermost s = innermost (innermost s).
Proof. induction s as [| | |k u IH]; [done..|exact IH]. Qed.
Lemma bind_concat {A B} (f : A -> list B) (l : list A) : l ≫= f = concat (f <$> l).
Proof. induction l as [|x l IH]; [done|]. rewrite bind_cons, IH. done. Qed.
Lemma preferences_keys s : length (meta_keys s) = preferences s.
Proof. induction s as [| | |k u IH]; [done..|]. cbn. by rewrite IH. Qed.
Lemma can_ask_few s : (preferences s <= 63)%nat -> can_ask s = true.
Proof. rewrite <- preferences_keys. apply Nat.leb_le. Qed.
Lemma can_ask_many s : (63 < preferences s)%nat -> can_ask s = false.
Proof. rewrite <- preferences_keys. apply Nat.leb_gt. Qed.
Lemma scan_offers s off d m rsv : offers s off d m rsv (scan s off d m rsv).
Proof.
  destruct s as [| | |k u].
  - split; [apply merge_sort_Permutation|]. apply (sorted_map_le chunk_le); [intros a b [?|[? _]]; lia|].
    apply StronglySorted_merge_sort; [intros [] [] []|intros [] []]; unfold chunk_le; simpl; lia.
  - split; [apply merge_sort_Permutation|]. apply (sorted_map_le chunk_ge); [intros a b [?|[? _]]; lia|].
    apply StronglySorted_merge_sort; [intros [] [] []|intros [] []]; unfold chunk_ge; simpl; lia.
  - apply cut_random_query, merge_sort_Permutation.
  - set (s := PreferDistinct k u). simpl scan. fold s.
    set (rows := merge_sort (fun a b => row_le a.2 b.2) (pd_rows d m (meta_keys s) (scan_inner (innermost s) off d))).
    exists (rows.*1), ((fun id => filter (fun c => c_sub c = id) (merge_sort chunk_le (available d rsv))) <$> rows.*1). split; [|split].
    + exists (scan_inner (innermost s) off d), rows. split; [apply scan_inner_ok, innermost_idem|]. split; [apply merge_sort_Permutation|]. split; [|done].
      apply StronglySorted_merge_sort; [intros a b c; apply row_le_trans|intros a b; apply row_le_total].
    + rewrite Forall2_fmap_r. apply Forall_Forall2_diag. apply Forall_forall. intros id _. unfold compose. by rewrite merge_sort_Permutation.
    + apply (bind_concat (fun id => filter (fun c => c_sub c = id) (merge_sort chunk_le (available d rsv))) (rows.*1)).
Qed.

(** *** Cutting the deck *)
Lemma filter_sorted_split {A} (pos : A -> N) off (l : list A) :
  StronglySorted (fun a b => pos a <= pos b) l -> l = filter (fun a => pos a < off) l ++ filter (fun a => off <= pos a) l.
Proof.
  intros Hs. induction Hs as [|x l Hs IH Hx]; [done|]. rewrite !filter_cons.
  destruct (decide (pos x < off)) as [H1|H1], (decide (off <= pos x)) as [H2|H2]; try lia.
  - simpl. f_equal. exact IH.
  - assert (E : filter (fun a => pos a < off) l = []).
    { rewrite Forall_forall in Hx. clear - Hx H2. induction l as [|y l IHl]; [done|].
      rewrite filter_cons_False; [apply IHl; intros z Hz; apply Hx; by right|]. specialize (Hx y ltac:(left)). lia. }
    rewrite E in *. simpl in *. by f_equal.
Qed.
(** The rows in the order of their positions. *)
Definition deck (d : db) (rsv : chunk_id -> bool) : list chunk := merge_sort random_le (available d rsv).
Lemma random_rotation d m rsv : deck d rsv ≡ₚ available d rsv /\ StronglySorted (fun a b => c_random a <= c_random b) (deck d rsv) /\
  forall off, exists l1 l2, deck d rsv = l1 ++ l2 /\ offers Random off d m rsv (l2 ++ l1) /\
    Forall (fun c => c_random c < off) l1 /\ Forall (fun c => off <= c_random c) l2.
Proof.
  split; [apply merge_sort_Permutation|].
  assert (Hs : StronglySorted (fun a b => c_random a <= c_random b) (deck d rsv)).
  { apply (sorted_map_le random_le); [intros a b [?|[? _]]; lia|].
    apply StronglySorted_merge_sort; [intros a b c|intros a b]; unfold random_le, chunk_le; lia. }
  split; [done|]. intros off. exists (filter (fun a => c_random a < off) (deck d rsv)), (filter (fun a => off <= c_random a) (deck d rsv)).
  split; [by apply filter_sorted_split|]. split; [apply (scan_offers Random)|].
  split; apply Forall_forall; intros c Hc; apply elem_of_list_filter in Hc; tauto.
Qed.
