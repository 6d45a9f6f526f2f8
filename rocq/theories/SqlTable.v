(** One table: how the statements of SqlLang.v act on rows that stand for a finite map. *)
From Verif Require Export SqlText.
Local Open Scope Z_scope.

Lemma list_filter_eq {A} (q : A -> bool) (l : list A) : List.filter q l = filter (fun x => q x = true) l.
Proof.
  induction l as [|x l IH]; [done|]. rewrite filter_cons. cbn [List.filter]. rewrite IH. destruct (q x) eqn:E; [by rewrite decide_True|by rewrite decide_False].
Qed.
Lemma filter_perm {A} (q : A -> bool) (l l' : list A) : l ≡ₚ l' -> List.filter q l ≡ₚ List.filter q l'.
Proof. intros H. rewrite !list_filter_eq. by rewrite H. Qed.
Lemma existsb_perm {A} (q : A -> bool) (l l' : list A) : l ≡ₚ l' -> existsb q l = existsb q l'.
Proof. induction 1; simpl; [done|congruence| |congruence]. destruct (q x), (q y); done. Qed.
Lemma perm_single {A} (l : list A) x : l ≡ₚ [x] -> l = [x].
Proof. intros H. by apply Permutation_singleton_r. Qed.

Section table.
Context {K : Type} `{Countable K} {A : Type} (enc : K * A -> list value) (h : header) (keyv : K -> list (option value)).
Context (Hkey : forall k a, key_of h (enc (k, a)) = keyv k) (Hinj : forall k k', keyv k = keyv k' -> k = k').
Context (Hnn : forall x, nulls_ok h (enc x) = true).
Definition table_of (l : list (list value)) (m : gmap K A) : Prop := l ≡ₚ enc <$> map_to_list m.

Lemma filter_enc (q : list value -> bool) (P : K * A -> Prop) `{forall x, Decision (P x)} (L : list (K * A)) :
  (forall x, q (enc x) = bool_decide (P x)) -> List.filter q (enc <$> L) = enc <$> filter P L.
Proof.
  intros Hq. induction L as [|x L IH]; [done|]. rewrite filter_cons. cbn [fmap list_fmap List.filter]. rewrite Hq, IH.
  destruct (decide (P x)); [by rewrite bool_decide_eq_true_2|by rewrite bool_decide_eq_false_2].
Qed.
Lemma map_filter_list (P : K * A -> Prop) `{forall x, Decision (P x)} (m : gmap K A) : map_to_list (filter P m) ≡ₚ filter P (map_to_list m).
Proof.
  rewrite map_filter_alt, map_to_list_to_map; [done|].
  assert (Hn : NoDup (map_to_list m).*1) by apply NoDup_fst_map_to_list. revert Hn. generalize (map_to_list m). intros L.
  induction L as [|x L IH]; [done|]. rewrite filter_cons. cbn [fmap list_fmap]. intros [Hx HL]%NoDup_cons. destruct (decide (P x)); [|auto].
  cbn [fmap list_fmap]. apply NoDup_cons. split; [|auto]. intros Hin. apply Hx. apply elem_of_list_fmap in Hin as (y & -> & Hy).
  apply elem_of_list_fmap. exists y. split; [done|]. by apply elem_of_list_filter in Hy as [_ ?].
Qed.
(** WHERE. *)
Lemma table_filter (q : list value -> bool) (P : K * A -> Prop) `{forall x, Decision (P x)} l m :
  (forall x, q (enc x) = bool_decide (P x)) -> table_of l m -> table_of (List.filter q l) (filter P m).
Proof. intros Hq Hl. unfold table_of. rewrite (filter_perm q _ _ Hl), (filter_enc q P) by done. by rewrite map_filter_list. Qed.
Lemma table_existsb (q : list value -> bool) (f : K * A -> bool) l m :
  (forall x, q (enc x) = f x) -> table_of l m -> existsb q l = existsb f (map_to_list m).
Proof.
  intros Hq Hl. rewrite (existsb_perm q _ _ Hl). induction (map_to_list m) as [|x L IH]; [done|]. cbn [fmap list_fmap existsb]. by rewrite Hq, IH.
Qed.
Lemma table_has l m k : table_of l m -> existsb (fun x => bool_decide (key_of h x = keyv k)) l = bool_decide (is_Some (m !! k)).
Proof.
  intros Hl. rewrite (table_existsb _ (fun x => bool_decide (x.1 = k)) l m); [|intros [k' a]; rewrite Hkey; cbn [fst]; apply bool_decide_ext; split; [apply Hinj|congruence]|done].
  apply Bool.eq_iff_eq_true. rewrite existsb_exists, bool_decide_eq_true. split.
  - intros ([k' a] & Hin & Hk). apply bool_decide_eq_true in Hk. cbn in Hk. subst k'. apply elem_of_list_In, elem_of_map_to_list in Hin. by eexists.
  - intros [a Ha]. exists (k, a). split; [by apply elem_of_list_In, elem_of_map_to_list|]. by apply bool_decide_eq_true.
Qed.
Lemma table_insert l m k a : table_of l m -> m !! k = None -> table_of (enc (k, a) :: l) (<[k := a]> m).
Proof. intros Hl Hm. unfold table_of. rewrite map_to_list_insert by done. cbn [fmap list_fmap]. by rewrite Hl. Qed.
(** INSERT ... VALUES. *)
Lemma table_ins_many (news : list (K * A)) : forall l m, table_of l m ->
  match ins_many news m with
  | SOk m' => exists l', insert_rows h (enc <$> news) l = SOk l' /\ table_of l' m'
  | SErr e => insert_rows h (enc <$> news) l = SErr e
  end.
Proof.
  induction news as [|[k a] news IH]; intros l m Hl; [by exists l|]. cbn [ins_many fmap list_fmap insert_rows]. rewrite Hnn. cbn [negb].
  rewrite Hkey, (table_has _ _ _ Hl). unfold ins. destruct (m !! k) as [b|] eqn:E; [done|]. cbn.
  apply IH, table_insert; done.
Qed.
Lemma table_ins k a l m : table_of l m ->
  match ins k a m with
  | SOk m' => exists l', insert_rows h [enc (k, a)] l = SOk l' /\ table_of l' m'
  | SErr e => insert_rows h [enc (k, a)] l = SErr e
  end.
Proof.
  intros Hl. pose proof (table_ins_many [(k, a)] l m Hl) as Hm. cbn [ins_many] in Hm. destruct (ins k a m); exact Hm.
Qed.
Lemma ins_many_perm (L : list (K * A)) (news m : gmap K A) : L ≡ₚ map_to_list news -> ins_many L m = ins_rows news m.
Proof.
  intros HL. unfold ins_rows. destruct (decide _) as [Hf|Hf].
  - assert (Hn : NoDup L.*1) by (rewrite HL; apply NoDup_fst_map_to_list).
    assert (E : news = list_to_map L) by (apply list_to_map_flip; by symmetry).
    assert (Hfr : forall k a, (k, a) ∈ L -> m !! k = None).
    { intros k a Hin. rewrite HL, elem_of_map_to_list in Hin. exact (Hf k a Hin). }
    clear HL Hf. subst news. revert m Hn Hfr. induction L as [|[k a] L IH]; intros m Hn Hfr; [simpl; by rewrite (left_id_L ∅ (∪))|].
    cbn [ins_many]. unfold ins. rewrite (Hfr k a) by left. cbn in Hn. apply NoDup_cons in Hn as [Hk Hn]. rewrite IH; [|done|].
    + f_equal. cbn [list_to_map foldr]. change (list_to_map ((k, a) :: L) : gmap K A) with (<[k := a]> (list_to_map L : gmap K A)).
      assert (Hlk : (list_to_map L : gmap K A) !! k = None) by (by apply not_elem_of_list_to_map).
      rewrite <- insert_union_r by done. by rewrite <- insert_union_l.
    + intros k' a' Hin. assert (k' <> k). { intros ->. apply Hk. apply elem_of_list_fmap. by exists (k, a'). }
      rewrite lookup_insert_ne by done. apply (Hfr k' a'). by right.
  - assert (Hex : exists k a, (k, a) ∈ L /\ m !! k <> None).
    { apply map_not_Forall in Hf; [|apply _]. destruct Hf as (k & a & Hk & Hm). exists k, a. split; [by rewrite HL, elem_of_map_to_list|done]. }
    clear HL Hf. destruct Hex as (k & a & Hin & Hm). revert m Hm. induction L as [|[k' a'] L IH]; intros m Hm; [by apply elem_of_nil in Hin|].
    cbn [ins_many]. unfold ins. destruct (m !! k') as [b|] eqn:E; [done|]. apply elem_of_cons in Hin as [[= -> ->]|Hin]; [done|].
    apply IH; [done|]. destruct (decide (k = k')) as [->|Hne]; [by rewrite lookup_insert|by rewrite lookup_insert_ne].
Qed.
(** INSERT ... SELECT. *)
Lemma table_ins_rows (rows : list (list value)) (news : gmap K A) l m : table_of rows news -> table_of l m ->
  match ins_rows news m with
  | SOk m' => exists l', insert_rows h rows l = SOk l' /\ table_of l' m'
  | SErr e => insert_rows h rows l = SErr e
  end.
Proof.
  intros Hr Hl. unfold table_of in Hr. apply Permutation_map_inv in Hr as (L & -> & HL).
  rewrite <- (ins_many_perm L news m) by done. change (map enc L) with (enc <$> L). by apply table_ins_many.
Qed.
(** WHERE key = ... *)
Lemma table_key (q : list value -> bool) k l m : (forall x, q (enc x) = bool_decide (x.1 = k)) -> table_of l m ->
  List.filter q l = match m !! k with Some a => [enc (k, a)] | None => [] end.
Proof.
  intros Hq Hl. pose proof (table_filter q (fun x => x.1 = k) l m Hq Hl) as Ht. unfold table_of in Ht.
  assert (E : filter (fun x : K * A => x.1 = k) m = match m !! k with Some a => {[ k := a ]} | None => ∅ end).
  { apply map_eq. intros i. rewrite map_filter_lookup. destruct (m !! i) as [a|] eqn:Ei; cbn.
    - destruct (decide (i = k)) as [->|Hne]; [rewrite option_guard_True by done; by rewrite Ei, lookup_singleton|].
      rewrite option_guard_False by done. destruct (m !! k); by rewrite ?lookup_singleton_ne, ?lookup_empty.
    - destruct (decide (i = k)) as [->|Hne]; [by rewrite Ei|]. destruct (m !! k); by rewrite ?lookup_singleton_ne, ?lookup_empty. }
  rewrite E in Ht. destruct (m !! k) as [a|].
  - rewrite map_to_list_singleton in Ht. by apply perm_single.
  - rewrite map_to_list_empty in Ht. by apply Permutation_nil_r.
Qed.
Lemma table_not_key (q : list value -> bool) k l m : (forall x, q (enc x) = bool_decide (x.1 = k)) -> table_of l m ->
  table_of (List.filter (fun r => negb (q r)) l) (delete k m).
Proof.
  intros Hq Hl. assert (E : delete k m = filter (fun x : K * A => x.1 <> k) m).
  { apply map_eq. intros i. rewrite map_filter_lookup. destruct (decide (i = k)) as [->|Hne].
    - rewrite lookup_delete. destruct (m !! k); [|done]. cbn. by rewrite option_guard_False by naive_solver.
    - rewrite lookup_delete_ne by done. destruct (m !! i); [|done]. cbn. by rewrite option_guard_True. }
  rewrite E. apply table_filter; [|done]. intros x. rewrite Hq. destruct (decide (x.1 = k)).
  - by rewrite bool_decide_eq_true_2, bool_decide_eq_false_2 by naive_solver.
  - by rewrite bool_decide_eq_false_2, bool_decide_eq_true_2.
Qed.
(** UPDATE ... WHERE key = ... *)
Lemma table_update (q : list value -> bool) (u : list value -> list value) k a a' l m :
  (forall x, q (enc x) = bool_decide (x.1 = k)) -> table_of l m -> m !! k = Some a -> u (enc (k, a)) = enc (k, a') ->
  table_of ((fun r => if q r then u r else r) <$> l) (<[k := a']> m).
Proof.
  intros Hq Hl Hm Hu. unfold table_of in *. rewrite Hl.
  rewrite <- (fin_maps.insert_id m k a) at 1 by done. rewrite <- (insert_delete_insert m k a), <- (insert_delete_insert m k a').
  rewrite !map_to_list_insert by apply lookup_delete. cbn [fmap list_fmap]. rewrite Hq, bool_decide_eq_true_2, Hu by done.
  apply perm_skip. rewrite <- list_fmap_compose. erewrite list_fmap_ext; [reflexivity|]. intros i [k' b] Hi. cbn [compose].
  apply elem_of_list_lookup_2, elem_of_map_to_list in Hi. unfold compose. rewrite Hq, bool_decide_eq_false_2; [done|]. cbn. intros ->. by rewrite lookup_delete in Hi.
Qed.
(** Nothing to update. *)
Lemma table_update_none (q : list value -> bool) (u : list value -> list value) k l m :
  (forall x, q (enc x) = bool_decide (x.1 = k)) -> table_of l m -> m !! k = None -> table_of ((fun r => if q r then u r else r) <$> l) m.
Proof.
  intros Hq Hl Hm. unfold table_of in *. rewrite Hl at 1. rewrite <- list_fmap_compose. erewrite list_fmap_ext; [reflexivity|].
  intros i [k' b] Hi. apply elem_of_list_lookup_2, elem_of_map_to_list in Hi. unfold compose. rewrite Hq, bool_decide_eq_false_2; [done|]. cbn. intros ->. congruence.
Qed.
Lemma table_length l m : table_of l m -> length l = size m.
Proof. intros Hl. unfold table_of in Hl. rewrite Hl, fmap_length. done. Qed.
End table.

(** INSERT ... SELECT ... WHERE key = ..., as one table's rows for another's. *)
Lemma table_one_row {K : Type} `{Countable K} {A B} (enc : K * A -> list value) (enc' : K * B -> list value) (q : list value -> bool)
  (g : list value -> list value) (f : A -> B) k l m :
  (forall x, q (enc x) = bool_decide (x.1 = k)) -> (forall a, g (enc (k, a)) = enc' (k, f a)) -> table_of enc l m ->
  table_of enc' (g <$> List.filter q l) (one_row k f m).
Proof.
  intros Hq Hg Hl. rewrite (table_key enc q k l m Hq Hl). unfold one_row, table_of. destruct (m !! k) as [a|].
  - rewrite map_to_list_singleton. cbn. by rewrite Hg.
  - by rewrite map_to_list_empty.
Qed.
Lemma table_fmap {K : Type} `{Countable K} {A B} (enc : K * A -> list value) (enc' : K * B -> list value)
  (g : list value -> list value) (f : A -> B) l (m : gmap K A) :
  (forall k a, g (enc (k, a)) = enc' (k, f a)) -> table_of enc l m -> table_of enc' (g <$> l) (f <$> m).
Proof.
  intros Hg Hl. unfold table_of in *. rewrite map_to_list_fmap, Hl, <- !list_fmap_compose. erewrite list_fmap_ext; [reflexivity|].
  intros i [k a] _. unfold compose. by rewrite Hg.
Qed.
