(** Proofs about the shared consumer client and the addresses of the clients. *)
From Coq Require Import Ascii.
From Verif Require Export SharedClient.
Local Open Scope N_scope.

Lemma moves_snoc l m :
  moves (l ++ [m]) = ((move_step (after l) m).1, sights l ++ (move_step (after l) m).2).
Proof. unfold moves, after, sights. by rewrite foldl_app. Qed.
Lemma after_snoc l m : after (l ++ [m]) = (move_step (after l) m).1.
Proof. unfold after at 1. by rewrite moves_snoc. Qed.
Lemma sights_snoc l m : sights (l ++ [m]) = sights l ++ (move_step (after l) m).2.
Proof. unfold sights at 1. by rewrite moves_snoc. Qed.
Lemma sights_app l1 l2 : exists es, sights (l1 ++ l2) = sights l1 ++ es.
Proof.
  induction l2 as [|m l2 [es IH]] using rev_ind; [exists []; by rewrite !app_nil_r|].
  rewrite app_assoc, sights_snoc, IH. eexists. by rewrite <- app_assoc.
Qed.

(** What holds after every list of moves. *)
Record sinv (s : shared) (es : list seen) : Prop := SInv {
  si_slot : forall c, sh_slot s = Some c -> c < sh_conns s;
  si_call : forall k p, sh_calls s !! k = Some p -> k < sh_count s;
  si_using : forall k c, sh_calls s !! k = Some (Using c) -> c < sh_conns s /\ Uses k c ∈ es;
  si_sick : forall c, c ∈ sh_sick s <-> Sickened c ∈ es;
  si_uses : forall k c, Uses k c ∈ es -> c < sh_conns s /\ k < sh_count s;
  si_fin : forall k c ok, Finished k c ok ∈ es -> c < sh_conns s /\ k < sh_count s /\ sh_calls s !! k = None;
  si_started : forall k p, sh_calls s !! k = Some p -> Started k ∈ es;
  si_ready : forall k, sh_calls s !! k = Some Ready -> sh_slot s = None ->
    exists es1 es2 k' c, es = es1 ++ Started k :: es2 /\ Finished k' c false ∈ es2 /\ k' <> k }.
Lemma elem_of_snoc {A} (x y : A) l : x ∈ l ++ [y] <-> x ∈ l \/ x = y.
Proof. by rewrite elem_of_app, elem_of_list_singleton. Qed.
Lemma sinv_run l : sinv (after l) (sights l).
Proof.
  induction l as [|m l IH] using rev_ind.
  { split; unfold after, sights; simpl; try (intros; done); try (intros; set_solver). }
  rewrite after_snoc, sights_snoc. set (s := after l) in *. set (es := sights l) in *.
  destruct IH as [I1 I2 I3 I4 I5 I6 I7 I8].
  destruct m as [|k|k|k ok|c]; simpl.
  - split; simpl.
    + done.
    + intros k p. destruct (decide (k = sh_count s)) as [->|N]; [lia|]. rewrite lookup_insert_ne by done. intros H%I2. lia.
    + intros k c. destruct (decide (k = sh_count s)) as [->|N]; [rewrite lookup_insert; by destruct (healthy s)|].
      rewrite lookup_insert_ne by done. intros [? ?]%I3. split; [done|]. apply elem_of_app. by left.
    + intros c. rewrite I4, elem_of_snoc. split; [by left|]. by intros [?|?].
    + intros k c. rewrite elem_of_snoc. intros [[? ?]%I5|?]; [split; [done|lia]|done].
    + intros k c ok. rewrite elem_of_snoc. intros [(? & ? & ?)%I6|?]; [|done]. split_and!; [done|lia|].
      rewrite lookup_insert_ne; [done|lia].
    + intros k p. rewrite elem_of_snoc. destruct (decide (k = sh_count s)) as [->|N]; [by right|].
      rewrite lookup_insert_ne by done. intros H%I7. by left.
    + intros k. destruct (decide (k = sh_count s)) as [->|N].
      * rewrite lookup_insert. unfold healthy. intros H1 H2. by rewrite H2 in H1.
      * rewrite lookup_insert_ne by done. intros H1 H2. destruct (I8 k H1 H2) as (es1 & es2 & k' & c & E & F & Ne).
        exists es1, (es2 ++ [Started (sh_count s)]), k', c. rewrite E, <- app_assoc. split_and!; [done| |done]. apply elem_of_app. by left.
  - destruct (sh_calls s !! k) as [[| |?]|] eqn:Hk; simpl; rewrite ?app_nil_r; try (by split).
    split; simpl.
    + intros c [= <-]. lia.
    + intros k' p. destruct (decide (k' = k)) as [->|N]; [intros _; by eapply I2|]. rewrite lookup_insert_ne by done. apply I2.
    + intros k' c. destruct (decide (k' = k)) as [->|N]; [by rewrite lookup_insert|]. rewrite lookup_insert_ne by done.
      intros [? ?]%I3. split; [lia|done].
    + apply I4.
    + intros k' c [? ?]%I5. split; [lia|done].
    + intros k' c ok H%I6. destruct H as (? & ? & H). split_and!; [lia|done|]. rewrite lookup_insert_ne; [done|]. intros ->. congruence.
    + intros k' p. destruct (decide (k' = k)) as [->|N]; [intros _; by eapply I7|]. rewrite lookup_insert_ne by done. apply I7.
    + done.
  - destruct (sh_calls s !! k) as [[| |?]|] eqn:Hk; simpl; rewrite ?app_nil_r; try (by split).
    destruct (sh_slot s) as [c|] eqn:Hs; simpl.
    + split; simpl.
      * intros c' Hc. by apply I1.
      * intros k' p. destruct (decide (k' = k)) as [->|N]; [intros _; by eapply I2|]. rewrite lookup_insert_ne by done. apply I2.
      * intros k' c'. rewrite elem_of_snoc. destruct (decide (k' = k)) as [->|N].
        { rewrite lookup_insert. intros [= <-]. split; [by apply I1|by right]. }
        rewrite lookup_insert_ne by done. intros [? ?]%I3. split; [done|by left].
      * intros c'. rewrite I4, elem_of_snoc. split; [by left|]. by intros [?|?].
      * intros k' c'. rewrite elem_of_snoc. intros [?|[= -> ->]]; [by apply I5|]. split; [by apply I1|by eapply I2].
      * intros k' c' ok. rewrite elem_of_snoc. intros [(? & ? & ?)%I6|?]; [|done]. split_and!; [done|done|].
        rewrite lookup_insert_ne; [done|]. intros ->. congruence.
      * intros k' p. rewrite elem_of_snoc. destruct (decide (k' = k)) as [->|N]; [intros _; left; by eapply I7|].
        rewrite lookup_insert_ne by done. intros H%I7. by left.
      * done.
    + split; simpl.
      * done.
      * intros k' p [_ ?]%lookup_delete_Some. by eapply I2.
      * intros k' c' [_ H]%lookup_delete_Some. rewrite elem_of_snoc. apply I3 in H as [? ?]. split; [done|by left].
      * intros c'. rewrite I4, elem_of_snoc. split; [by left|]. by intros [?|?].
      * intros k' c'. rewrite elem_of_snoc. intros [?|?]; [by apply I5|done].
      * intros k' c' ok. rewrite elem_of_snoc. intros [(? & ? & ?)%I6|?]; [|done]. split_and!; [done|done|].
        apply lookup_delete_None. by right.
      * intros k' p [_ ?]%lookup_delete_Some. rewrite elem_of_snoc. left. by eapply I7.
      * intros k' [_ H1]%lookup_delete_Some H2. destruct (I8 k' H1 eq_refl) as (es1 & es2 & k'' & c & E & F & Ne).
        exists es1, (es2 ++ [CallPanics k]), k'', c. rewrite E, <- app_assoc. split_and!; [done| |done]. apply elem_of_app. by left.
  - destruct (sh_calls s !! k) as [[| |c]|] eqn:Hk; simpl; rewrite ?app_nil_r; try (by split).
    split; simpl.
    + intros c'. destruct ok; [apply I1|done].
    + intros k' p [_ ?]%lookup_delete_Some. by eapply I2.
    + intros k' c' [_ H]%lookup_delete_Some. rewrite elem_of_snoc. apply I3 in H as [? ?]. split; [done|by left].
    + intros c'. rewrite I4, elem_of_snoc. split; [by left|]. by intros [?|?].
    + intros k' c'. rewrite elem_of_snoc. intros [?|?]; [by apply I5|done].
    + intros k' c' ok'. rewrite elem_of_snoc. intros [(? & ? & ?)%I6|[= -> -> ->]].
      * split_and!; [done|done|]. apply lookup_delete_None. by right.
      * split_and!; [by eapply I3|by eapply I2|apply lookup_delete].
    + intros k' p [_ ?]%lookup_delete_Some. rewrite elem_of_snoc. left. by eapply I7.
    + intros k' [Ne H1]%lookup_delete_Some H2. destruct ok.
      * destruct (I8 k' H1 H2) as (es1 & es2 & k'' & c' & E & F & Ne').
        exists es1, (es2 ++ [Finished k c true]), k'', c'. rewrite E, <- app_assoc. split_and!; [done| |done]. apply elem_of_app. by left.
      * destruct (elem_of_list_split _ _ (I7 _ _ H1)) as (es1 & es2 & E).
        exists es1, (es2 ++ [Finished k c false]), k, c. rewrite E, <- app_assoc. split_and!; [done| |done]. apply elem_of_app. right. by left.
  - destruct (c <? sh_conns s) eqn:Hc; simpl; rewrite ?app_nil_r; [|by split].
    split; simpl; try done.
    + intros k' c' H. rewrite elem_of_snoc. apply I3 in H as [? ?]. split; [done|by left].
    + intros c'. rewrite elem_of_snoc, elem_of_union, elem_of_singleton, I4. split; [intros [->|?]; [by right|by left]|].
      intros [?|[= ->]]; [by right|by left].
    + intros k' c'. rewrite elem_of_snoc. intros [?|?]; [by apply I5|done].
    + intros k' c' ok. rewrite elem_of_snoc. intros [?|?]; [by eapply I6|done].
    + intros k' p H. rewrite elem_of_snoc. left. by eapply I7.
    + intros k' H1 H2. destruct (I8 k' H1 H2) as (es1 & es2 & k'' & c' & E & F & Ne).
      exists es1, (es2 ++ [Sickened c]), k'', c'. rewrite E, <- app_assoc. split_and!; [done| |done]. apply elem_of_app. by left.
Qed.

(** A call panics only after an error of another call that came while it was going on. *)
Lemma panics_after l k : CallPanics k ∈ sights l ->
  exists es1 es2 es3 k' c, sights l = es1 ++ Started k :: es2 ++ CallPanics k :: es3 /\ Finished k' c false ∈ es2 /\ k' <> k.
Proof.
  induction l as [|m l IH] using rev_ind; [intros H; by inversion H|]. rewrite sights_snoc, elem_of_app.
  intros [H|H].
  { destruct (IH H) as (es1 & es2 & es3 & k' & c & E & F & Ne). exists es1, es2, (es3 ++ (move_step (after l) m).2), k', c.
    rewrite E. split_and!; [|done|done]. rewrite <- app_assoc. simpl. by rewrite <- app_assoc. }
  destruct (sinv_run l) as [_ _ _ _ _ _ _ I8].
  destruct m as [|j|j|j ok|c]; simpl in H.
  - by apply elem_of_list_singleton in H.
  - destruct (sh_calls (after l) !! j) as [[| |?]|]; by inversion H.
  - destruct (sh_calls (after l) !! j) as [[| |?]|] eqn:Hk; simpl in H; try (by inversion H).
    destruct (sh_slot (after l)) as [c|] eqn:Hs; simpl in H; apply elem_of_list_singleton in H; [done|].
    injection H as ->. destruct (I8 _ Hk eq_refl) as (es1 & es2 & k' & c & E & F & Ne).
    exists es1, es2, [], k', c. split_and!; [|done|done]. simpl. rewrite Hk, Hs. simpl. rewrite E, <- app_assoc. done.
  - destruct (sh_calls (after l) !! j) as [[| |?]|]; simpl in H; try (by inversion H). by apply elem_of_list_singleton in H.
  - destruct (c <? sh_conns (after l)); simpl in H; [by apply elem_of_list_singleton in H|by inversion H].
Qed.

(** Without errors, a healthy connection stays, and all calls use it. *)
Lemma stays l1 c l2 : quiet (after l1) -> sh_slot (after l1) = Some c ->
  (forall k c', Finished k c' false ∈ sights (l1 ++ l2) -> Finished k c' false ∈ sights l1) ->
  Sickened c ∉ sights (l1 ++ l2) ->
  sh_slot (after (l1 ++ l2)) = Some c /\
  (forall k p, sh_calls (after (l1 ++ l2)) !! k = Some p -> p <> Connecting /\ forall c', p = Using c' -> c' = c) /\
  (forall es, sights (l1 ++ l2) = sights l1 ++ es -> (forall k c', Uses k c' ∈ es -> c' = c) /\ (forall k, CallPanics k ∉ es)).
Proof.
  intros Q S. induction l2 as [|m l2 IH] using rev_ind.
  { intros _ _. rewrite app_nil_r. split_and!; [done|intros k p; by rewrite Q|].
    intros es E. assert (es = []) as -> by (apply (app_inv_head (sights l1)); by rewrite app_nil_r). set_solver. }
  rewrite app_assoc. set (l := l1 ++ l2) in *. rewrite after_snoc, sights_snoc. intros F NS.
  destruct IH as (IH1 & IH2 & IH3).
  { intros k c' H. apply F. apply elem_of_app. by left. }
  { intros H. apply NS. apply elem_of_app. by left. }
  destruct (sights_app l1 l2) as [es0 E0]. fold l in E0. specialize (IH3 es0 E0) as [IH3 IH4].
  assert (HS : c ∉ sh_sick (after l)).
  { intros H%(si_sick _ _ (sinv_run l)). apply NS. apply elem_of_app. by left. }
  assert (T : forall new, (forall k c', Uses k c' ∈ new -> c' = c) -> (forall k, CallPanics k ∉ new) ->
    forall es, sights l ++ new = sights l1 ++ es -> (forall k c', Uses k c' ∈ es -> c' = c) /\ (forall k, CallPanics k ∉ es)).
  { intros new N1 N2 es E. rewrite E0, <- app_assoc in E. apply app_inv_head in E as <-. split.
    - intros k c' [H|H]%elem_of_app; [by eapply IH3|by eapply N1].
    - intros k [H|H]%elem_of_app; [by eapply IH4|by eapply N2]. }
  destruct m as [|k|k|k ok|c']; simpl.
  - split_and!; [done| |apply T; intros ? **; set_solver]. intros k p. unfold healthy. rewrite IH1, bool_decide_true by done.
    destruct (decide (k = sh_count (after l))) as [->|N]; [rewrite lookup_insert; by intros [= <-]|].
    rewrite lookup_insert_ne by done. apply IH2.
  - destruct (sh_calls (after l) !! k) as [[| |?]|] eqn:Hk; simpl; [exfalso; by apply (IH2 _ _ Hk)| | |];
      (split_and!; [done|done|apply T; intros ? **; set_solver]).
  - destruct (sh_calls (after l) !! k) as [[| |?]|] eqn:Hk; simpl; try (by (split_and!; [done|done|apply T; intros ? **; set_solver])).
    rewrite IH1. simpl. split_and!; [done| |apply T; intros ? **; set_solver]. intros k' p.
    destruct (decide (k' = k)) as [->|N]; [rewrite lookup_insert; intros [= <-]; split; [done|by intros c' [= <-]]|].
    rewrite lookup_insert_ne by done. apply IH2.
  - destruct (sh_calls (after l) !! k) as [[| |c']|] eqn:Hk; simpl; try (by (split_and!; [done|done|apply T; intros ? **; set_solver])).
    destruct ok.
    + split_and!; [done| |apply T; intros ? **; set_solver]. intros k' p [_ H]%lookup_delete_Some. by eapply IH2.
    + exfalso. assert (H : Finished k c' false ∈ sights l1).
      { apply F. apply elem_of_app. right. simpl. rewrite Hk. by left. }
      rewrite <- (app_nil_r l1) in H.
      assert (H' : Finished k c' false ∈ sights l) by (rewrite E0, app_nil_r in *; apply elem_of_app; by left).
      apply (si_fin _ _ (sinv_run l)) in H' as (_ & _ & H'). congruence.
  - destruct (c' <? sh_conns (after l)) eqn:Hc; simpl; split_and!; try done; (apply T; intros ? **; set_solver).
Qed.

(** One call at a time. *)
Fixpoint alone_from (s : shared) (l : list move) : Prop :=
  match l with
  | [] => True
  | m :: l => (m = Enter -> quiet s) /\ alone_from (move_step s m).1 l
  end.
(** Each call starts when no other is going on. *)
Definition one_at_a_time (l : list move) : Prop := alone_from shared_new l.
Lemma alone_app s l1 l2 : alone_from s (l1 ++ l2) -> alone_from s l1.
Proof. revert s. induction l1 as [|m l1 IH]; intros s; simpl; [done|]. intros [? ?]. split; [done|]. by apply IH. Qed.
Lemma alone_last s l m : alone_from s (l ++ [m]) -> m = Enter -> quiet (foldl (fun x m => (move_step x m).1) s l).
Proof. revert s. induction l as [|m' l IH]; intros s; simpl; [intros [? _]; done|]. intros [_ H]. by apply IH. Qed.
Lemma after_foldl l : after l = foldl (fun x m => (move_step x m).1) shared_new l.
Proof. induction l as [|m l IH] using rev_ind; [done|]. by rewrite after_snoc, foldl_app, IH. Qed.
Lemma one_snoc l m : one_at_a_time (l ++ [m]) -> one_at_a_time l /\ (m = Enter -> quiet (after l)).
Proof. intros H. split; [by eapply alone_app|]. intros E. rewrite after_foldl. by eapply alone_last. Qed.

(** At most one call, and the slot holds the connection it uses. *)
Record ainv (s : shared) : Prop := AInv {
  ai_one : forall j j' p p', sh_calls s !! j = Some p -> sh_calls s !! j' = Some p' -> j = j';
  ai_ready : forall j, sh_calls s !! j = Some Ready -> sh_slot s <> None;
  ai_using : forall j c, sh_calls s !! j = Some (Using c) -> sh_slot s = Some c }.
Lemma ainv_run l : one_at_a_time l -> ainv (after l).
Proof.
  induction l as [|m l IH] using rev_ind.
  { intros _. split; unfold after; simpl; by intros. }
  intros [H Q]%one_snoc. destruct (IH H) as [A1 A2 A3]. clear IH. rewrite after_snoc.
  destruct m as [|k|k|k ok|c]; simpl.
  - specialize (Q eq_refl). rewrite Q in *. split; simpl.
    + intros j j' p p' [[? _]|[_ ?]]%lookup_insert_Some [[? _]|[_ ?]]%lookup_insert_Some; by subst.
    + intros j [[_ E]|[_ ?]]%lookup_insert_Some; [|done]. unfold healthy in E. by destruct (sh_slot (after l)).
    + intros j c [[_ E]|[_ ?]]%lookup_insert_Some; [|done]. by destruct (healthy (after l)).
  - destruct (sh_calls (after l) !! k) as [[| |?]|] eqn:Hk; simpl; try (by split). split; simpl.
    + intros j j' p p'. destruct (decide (j = k)) as [->|N], (decide (j' = k)) as [->|N']; rewrite ?lookup_insert, ?lookup_insert_ne by done; try done; intros; by eapply A1.
    + done.
    + intros j c. destruct (decide (j = k)) as [->|N]; [by rewrite lookup_insert|]. rewrite lookup_insert_ne by done. intros E.
      exfalso. by apply N, (A1 _ _ _ _ E Hk).
  - destruct (sh_calls (after l) !! k) as [[| |?]|] eqn:Hk; simpl; try (by split).
    destruct (sh_slot (after l)) as [c|] eqn:Hs; [|exfalso; by eapply A2]. split; simpl.
    + intros j j' p p'. destruct (decide (j = k)) as [->|N], (decide (j' = k)) as [->|N']; rewrite ?lookup_insert, ?lookup_insert_ne by done; try done; intros; by eapply A1.
    + done.
    + intros j c'. destruct (decide (j = k)) as [->|N]; [rewrite lookup_insert; congruence|]. rewrite lookup_insert_ne by done. apply A3.
  - destruct (sh_calls (after l) !! k) as [[| |c]|] eqn:Hk; simpl; try (by split). split; simpl.
    + intros j j' p p' [_ ?]%lookup_delete_Some [_ ?]%lookup_delete_Some. by eapply A1.
    + intros j [N E]%lookup_delete_Some. exfalso. by apply N, (A1 _ _ _ _ Hk E).
    + intros j c' [N E]%lookup_delete_Some. exfalso. by apply N, (A1 _ _ _ _ Hk E).
  - destruct (c <? sh_conns (after l)); by split.
Qed.
(** What one move shows. *)
Definition then_sees (l : list move) (m : move) : list seen := (move_step (after l) m).2.
Lemma no_panic l k : one_at_a_time l -> CallPanics k ∉ sights l.
Proof.
  induction l as [|m l IH] using rev_ind; [intros _ H; by inversion H|]. intros [H Q]%one_snoc. rewrite sights_snoc. intros [G|G]%elem_of_app; [by apply IH|].
  destruct (ainv_run l H) as [A1 A2 A3]. destruct m as [|j|j|j ok|c]; simpl in G.
  - by apply elem_of_list_singleton in G.
  - destruct (sh_calls (after l) !! j) as [[| |?]|]; by inversion G.
  - destruct (sh_calls (after l) !! j) as [[| |?]|] eqn:Hk; simpl in G; try (by inversion G).
    destruct (sh_slot (after l)) as [c|] eqn:Hs; simpl in G; [by apply elem_of_list_singleton in G|]. by eapply A2.
  - destruct (sh_calls (after l) !! j) as [[| |?]|]; simpl in G; try (by inversion G). by apply elem_of_list_singleton in G.
  - destruct (c <? sh_conns (after l)); simpl in G; [by apply elem_of_list_singleton in G|by inversion G].
Qed.
Lemma after_return l k ok c : one_at_a_time l -> then_sees l (Returns k ok) = [Finished k c ok] ->
  quiet (after (l ++ [Returns k ok])) /\ sh_slot (after (l ++ [Returns k ok])) = (if ok then Some c else None).
Proof.
  intros H. destruct (ainv_run l H) as [A1 A2 A3]. unfold then_sees. simpl. rewrite after_snoc. simpl.
  destruct (sh_calls (after l) !! k) as [[| |c0]|] eqn:Hk; simpl; try done. intros [= ->]. split.
  - unfold quiet. simpl. apply map_empty. intros j. destruct (decide (j = k)) as [->|N]; [apply lookup_delete|].
    rewrite lookup_delete_ne by done. destruct (sh_calls (after l) !! j) eqn:E; [|done]. exfalso. by apply N, (A1 _ _ _ _ E Hk).
  - destruct ok; [|done]. by eapply A3.
Qed.
Lemma finished_uses l k c ok : Finished k c ok ∈ sights l -> Uses k c ∈ sights l.
Proof.
  induction l as [|m l IH] using rev_ind; [intros H; by inversion H|]. rewrite sights_snoc, !elem_of_app. intros [G|G]; [left; by apply IH|].
  destruct m as [|j|j|j b|c']; simpl in G.
  - by apply elem_of_list_singleton in G.
  - destruct (sh_calls (after l) !! j) as [[| |?]|]; by inversion G.
  - destruct (sh_calls (after l) !! j) as [[| |?]|] eqn:Hk; simpl in G; try (by inversion G).
    destruct (sh_slot (after l)) as [c'|] eqn:Hs; simpl in G; by apply elem_of_list_singleton in G.
  - destruct (sh_calls (after l) !! j) as [[| |c']|] eqn:Hk; simpl in G; try (by inversion G). apply elem_of_list_singleton in G.
    injection G as -> -> ->. left. by apply (si_using _ _ (sinv_run l)).
  - destruct (c' <? sh_conns (after l)); simpl in G; [by apply elem_of_list_singleton in G|by inversion G].
Qed.

(** The call that comes next after one that ended on a sick connection or in an error. *)
Lemma replaced l c l2 : quiet (after l) -> (sh_slot (after l) = None \/ sh_slot (after l) = Some c /\ Sickened c ∈ sights l) ->
  (forall es, sights (l ++ l2) = sights l ++ es -> forall j c', Uses j c' ∉ es) ->
  let s := after (l ++ l2) in
  sh_conns (after l) <= sh_conns s /\ (forall j c', sh_calls s !! j <> Some (Using c')) /\
  ((healthy s = false /\ forall j, sh_calls s !! j <> Some Ready) \/ exists c', sh_slot s = Some c' /\ sh_conns (after l) <= c').
Proof.
  intros Q S. induction l2 as [|m l2 IH] using rev_ind.
  { intros _. rewrite app_nil_r. simpl. split_and!; [lia|intros j c'; by rewrite Q|]. left. split; [|intros j; by rewrite Q].
    unfold healthy. destruct S as [->|[-> S]]; [done|]. apply bool_decide_false. intros N. by apply N, (si_sick _ _ (sinv_run l)). }
  rewrite app_assoc. set (l0 := l ++ l2) in *. rewrite after_snoc, sights_snoc. intros U.
  destruct (sights_app l l2) as [es0 E0]. fold l0 in E0.
  destruct IH as (C & U' & D).
  { intros es E j c' H. apply (U (es0 ++ (move_step (after l0) m).2) ltac:(by rewrite E0, <- app_assoc) j c'). apply elem_of_app. left.
    rewrite E0 in E. by apply app_inv_head in E as ->. }
  simpl in D. clear Q S. destruct m as [|k|k|k ok|c']; simpl.
  - split_and!; [done| |].
    + intros j c'. destruct (decide (j = sh_count (after l0))) as [->|N]; [rewrite lookup_insert; by destruct (healthy (after l0))|]. by rewrite lookup_insert_ne.
    + destruct D as [[D1 D2]|D]; [|by right]. left. split; [done|]. intros j. rewrite D1.
      destruct (decide (j = sh_count (after l0))) as [->|N]; [by rewrite lookup_insert|]. by rewrite lookup_insert_ne.
  - destruct (sh_calls (after l0) !! k) as [[| |?]|] eqn:Hk; simpl; try done. split_and!; [lia| |].
    + intros j c'. destruct (decide (j = k)) as [->|N]; [by rewrite lookup_insert|]. by rewrite lookup_insert_ne.
    + right. eauto.
  - destruct (sh_calls (after l0) !! k) as [[| |?]|] eqn:Hk; simpl; try done.
    destruct (sh_slot (after l0)) as [c'|] eqn:Hs; simpl.
    + exfalso. apply (U (es0 ++ [Uses k c'])) with k c'.
      { rewrite E0, <- app_assoc. simpl. by rewrite Hk, Hs. }
      apply elem_of_snoc. by right.
    + destruct D as [[_ D]|(? & ? & _)]; [by apply D in Hk|done].
  - destruct (sh_calls (after l0) !! k) as [[| |c']|] eqn:Hk; simpl; try done; by apply U' in Hk.
  - destruct (c' <? sh_conns (after l0)); simpl; [|done]. split_and!; [done|done|]. destruct D as [[D1 D2]|D]; [left|by right].
    split; [|done]. unfold healthy in *. simpl. destruct (sh_slot (after l0)) as [x|]; [|done]. apply bool_decide_eq_false in D1.
    apply bool_decide_false. set_solver.
Qed.

(** *** Addresses *)
Lemma prefix_app u v : String.prefix u (u +:+ v)%string = true.
Proof. induction u as [|a u IH]; [by destruct v|]. simpl. destruct (Ascii.ascii_dec a a); done. Qed.
Lemma prefix_some u v : String.prefix u v = true -> exists y, v = (u +:+ y)%string.
Proof.
  revert v. induction u as [|b u IHu]; intros v H; [by exists v|]. destruct v as [|b' v]; [done|]. simpl in H.
  destruct (Ascii.ascii_dec b b') as [->|]; [|done]. destruct (IHu v H) as [y ->]. by exists y.
Qed.
Lemma scheme_some s x : scheme_of s = Some x -> exists y, s = (x +:+ "://" +:+ y)%string.
Proof.
  revert x. induction s as [|a s IH]; intros x; [done|]. cbn [scheme_of].
  destruct (String.prefix "://" (String a s)) eqn:P.
  - intros [= <-]. destruct (prefix_some _ _ P) as [y E]. exists y. exact E.
  - destruct (scheme_of s) as [z|]; [|done]. intros [= <-]. destruct (IH z eq_refl) as [y ->]. by exists y.
Qed.
Lemma scheme_there x y : scheme_of (x +:+ "://" +:+ y)%string <> None.
Proof.
  induction x as [|a x IH]; [by destruct y|].
  change (scheme_of (String a (x +:+ "://" +:+ y)%string) <> None). cbn [scheme_of].
  destruct (String.prefix _ _); [done|]. by destruct (scheme_of (x +:+ "://" +:+ y)%string).
Qed.
(** Contains the character. *)
Fixpoint has_char (c : ascii) (s : string) : Prop := match s with EmptyString => False | String a s => a = c \/ has_char c s end.
Lemma scheme_first x y : ~ has_char ":" x -> scheme_of (x +:+ "://" +:+ y)%string = Some x.
Proof.
  induction x as [|a x IH]; intros N; [by destruct y|].
  change (scheme_of (String a (x +:+ "://" +:+ y)%string) = Some (String a x)). cbn [scheme_of].
  rewrite IH by (intros H; apply N; by right). destruct (String.prefix _ _) eqn:P; [|done].
  apply prefix_some in P as [z P]. change (String a (x +:+ "://" +:+ y)%string = String ":" ("//" +:+ z)%string) in P.
  injection P as -> _. exfalso. apply N. by left.
Qed.
(** A URL: its scheme, the server (with port, if any) and the rest. *)
Definition url (scheme server path u : string) : Prop :=
  u = (scheme +:+ "://" +:+ server +:+ path)%string /\ ~ has_char ":" scheme /\ ~ has_char "/" server /\
  (path = EmptyString \/ exists r, path = String "/" r).
Lemma cut_unique s p s' p' : ~ has_char "/" s -> ~ has_char "/" s' -> (p = EmptyString \/ exists r, p = String "/" r) ->
  (p' = EmptyString \/ exists r, p' = String "/" r) -> (s +:+ p = s' +:+ p')%string -> s = s' /\ p = p'.
Proof.
  revert s'. induction s as [|a s IH]; intros [|a' s'] H H' P P' E; simpl in *.
  - done.
  - change (p = String a' (s' +:+ p')%string) in E. subst p. destruct P as [?|[r P]]; [done|]. exfalso. apply H'. left. by injection P.
  - change (String a (s +:+ p)%string = p') in E. subst p'. destruct P' as [?|[r P']]; [done|]. exfalso. apply H. left. by injection P'.
  - change (String a (s +:+ p)%string = String a' (s' +:+ p')%string) in E. injection E as -> E.
    destruct (IH s') as [-> ->]; try done; [intros ?; apply H; by right|intros ?; apply H'; by right].
Qed.
Lemma url_unique u c s p c' s' p' : url c s p u -> url c' s' p' u -> c = c' /\ s = s' /\ p = p'.
Proof.
  intros (-> & C & S & P) (E & C' & S' & P').
  assert (c = c') as ->.
  { assert (Some c = Some c') by (rewrite <- (scheme_first c (s +:+ p) C), E; by apply scheme_first). congruence. }
  split; [done|]. apply cut_unique; try done.
  clear -E. induction c' as [|a c' IH]; [by injection E|]. apply IH.
  change (String a (c' +:+ "://" +:+ s +:+ p)%string = String a (c' +:+ "://" +:+ s' +:+ p')%string) in E. by injection E.
Qed.
Lemma append_assoc (a b c : string) : ((a +:+ b) +:+ c = a +:+ b +:+ c)%string.
Proof. induction a as [|x a IH]; [done|]. change (String x ((a +:+ b) +:+ c) = String x (a +:+ b +:+ c))%string. by rewrite IH. Qed.
Lemma path_app p q : (p = EmptyString \/ exists r, p = String "/" r) -> (exists r, q = String "/" r) ->
  (p +:+ q = EmptyString \/ exists r, p +:+ q = String "/" r)%string.
Proof. intros [->|[r ->]] [r' ->]; right; [by exists r'|by exists (r +:+ String "/" r')%string]. Qed.
Lemma plain_addresses server path :
  (forall x y, server +:+ path <> x +:+ "://" +:+ y)%string -> ~ has_char "/" server -> (path = EmptyString \/ exists r, path = String "/" r) ->
  (exists u, producer_base (server +:+ path) = Some u /\ url "http" server (path +:+ "/producer") u) /\
  url "ws" server (path +:+ "/consumer") (consumer_url (server +:+ path)).
Proof.
  intros N S P. split.
  - unfold producer_base. destruct (scheme_of (server +:+ path)%string) as [x|] eqn:E.
    { exfalso. apply scheme_some in E as [y E]. by apply N in E. }
    eexists. split; [done|]. split; [by rewrite append_assoc|]. split; [|split; [done|apply path_app; [done|by eexists]]].
    simpl. intros [?|[?|[?|[?|?]]]]; done.
  - unfold consumer_url. destruct (String.prefix "ws://" _) eqn:E1.
    { exfalso. apply prefix_some in E1 as [y E]. by apply (N "ws"%string y) in E. }
    destruct (String.prefix "wss://" _) eqn:E2.
    { exfalso. apply prefix_some in E2 as [y E]. by apply (N "wss"%string y) in E. }
    simpl. split; [by rewrite append_assoc|]. split; [|split; [done|apply path_app; [done|by eexists]]].
    simpl. intros [?|[?|?]]; done.
Qed.
(** An address with a scheme that the producer's client takes. *)
Lemma scheme_addresses scheme rest : ~ has_char ":" scheme ->
  (producer_base (scheme +:+ "://" +:+ rest) <> None <-> scheme = "http"%string \/ scheme = "https"%string) /\
  (scheme = "http"%string \/ scheme = "https"%string ->
   exists p, url "ws" (scheme +:+ ":") p (consumer_url (scheme +:+ "://" +:+ rest))).
Proof.
  intros N. split.
  - unfold producer_base. rewrite scheme_first by done. case_bool_decide; [|]; naive_solver.
  - intros [-> | ->]; (exists ("//" +:+ rest +:+ "/consumer")%string; split; [done|split; [|split; [|right; by eexists]]]);
      simpl; intros H; repeat (destruct H as [H|H]; [done|]); done.
Qed.

(** *** One call after the other, in terms of what is seen *)
Lemma sees_one l m : then_sees l m = [] \/ exists e, then_sees l m = [e].
Proof.
  unfold then_sees. destruct m as [|j|j|j ok|c]; simpl; repeat case_match; simpl; eauto.
Qed.
Lemma sights_split l es1 e es2 : sights l = es1 ++ e :: es2 ->
  exists l1 m l2, l = l1 ++ m :: l2 /\ sights l1 = es1 /\ then_sees l1 m = [e].
Proof.
  revert es2. induction l as [|m l IH] using rev_ind; intros es2.
  { intros E. destruct es1; discriminate. }
  rewrite sights_snoc. fold (then_sees l m). intros E.
  destruct (sees_one l m) as [N|[e' N]]; rewrite N in E.
  - rewrite app_nil_r in E. destruct (IH _ E) as (l1 & m' & l2 & -> & ? & ?). exists l1, m', (l2 ++ [m]). by rewrite <- app_assoc.
  - destruct es2 as [|e2 es2 _] using rev_ind.
    + apply app_inj_tail in E as [<- <-]. exists l, m, []. done.
    + rewrite app_comm_cons, app_assoc in E. apply app_inj_tail in E as [E _].
      destruct (IH _ E) as (l1 & m' & l2 & -> & ? & ?). exists l1, m', (l2 ++ [m]). by rewrite <- app_assoc.
Qed.
Lemma sees_returns l m k c ok : then_sees l m = [Finished k c ok] -> m = Returns k ok.
Proof. unfold then_sees. destruct m; simpl; repeat case_match; simpl; intros; simplify_eq; done. Qed.
Lemma sees_loads l m k c : then_sees l m = [Uses k c] -> m = Loads k /\ sh_slot (after l) = Some c /\ sh_calls (after l) !! k = Some Ready.
Proof. unfold then_sees. destruct m; simpl; repeat case_match; simpl; intros; simplify_eq; done. Qed.
Lemma one_app l1 l2 : one_at_a_time (l1 ++ l2) -> one_at_a_time l1.
Proof. apply alone_app. Qed.

Lemma no_use l l2 es : quiet (after l) -> sights (l ++ l2) = sights l ++ es -> (forall j c, Uses j c ∉ es) ->
  (forall j c ok, Finished j c ok ∉ es) /\ forall j c, sh_calls (after (l ++ l2)) !! j <> Some (Using c).
Proof.
  intros Q. revert es. induction l2 as [|m l2 IH] using rev_ind; intros es.
  { rewrite app_nil_r. intros E U. assert (es = []) as -> by (apply (app_inv_head (sights l)); by rewrite app_nil_r).
    split; [intros; set_solver|]. intros j c. by rewrite Q. }
  rewrite app_assoc, sights_snoc, after_snoc. destruct (sights_app l l2) as [es0 E0]. rewrite E0. intros E U.
  rewrite <- app_assoc in E. apply app_inv_head in E as <-.
  destruct (IH es0 E0) as [F G]; [intros j c H; apply (U j c), elem_of_app; by left|].
  assert (U' : forall j c, Uses j c ∉ (move_step (after (l ++ l2)) m).2) by (intros j c H; apply (U j c), elem_of_app; by right).
  split.
  - intros j c ok [H|H]%elem_of_app; [by apply F in H|]. destruct m as [|i|i|i b|x]; simpl in H.
    + by apply elem_of_list_singleton in H.
    + repeat case_match; by inversion H.
    + repeat case_match; simpl in H; try (by inversion H); by apply elem_of_list_singleton in H.
    + destruct (sh_calls (after (l ++ l2)) !! i) as [[| |y]|] eqn:Hi; simpl in H; try (by inversion H). by apply G in Hi.
    + case_match; simpl in H; [by apply elem_of_list_singleton in H|by inversion H].
  - intros j c H. destruct m as [|i|i|i b|x]; simpl in H.
    + destruct (decide (j = sh_count (after (l ++ l2)))) as [->|N].
      * rewrite lookup_insert in H. by destruct (healthy _).
      * rewrite lookup_insert_ne in H by done. by apply G in H.
    + repeat case_match; simpl in H; try (by apply G in H). destruct (decide (j = i)) as [->|N]; [by rewrite lookup_insert in H|].
      rewrite lookup_insert_ne in H by done. by apply G in H.
    + destruct (sh_calls (after (l ++ l2)) !! i) as [[| |y]|] eqn:Hi; simpl in H; try (by apply G in H).
      destruct (sh_slot (after (l ++ l2))) as [y|] eqn:Hs; simpl in H.
      * apply (U' i y). simpl. rewrite Hi, Hs. by left.
      * apply lookup_delete_Some in H as [_ H]. by apply G in H.
    + destruct (sh_calls (after (l ++ l2)) !! i) as [[| |y]|]; simpl in H; try (by apply G in H). apply lookup_delete_Some in H as [_ H]. by apply G in H.
    + repeat case_match; simpl in H; by apply G in H.
Qed.

Lemma one_after_another l es1 k c ok es2 k' c' es3 : one_at_a_time l ->
  sights l = es1 ++ Finished k c ok :: es2 ++ Uses k' c' :: es3 -> (forall j x, Uses j x ∉ es2) ->
  (ok = true -> Sickened c ∉ es1 ++ es2 -> c' = c) /\
  (ok = false \/ Sickened c ∈ es1 -> forall j, Uses j c' ∉ es1).
Proof.
  intros H E U. rewrite app_comm_cons, app_assoc in E.
  destruct (sights_split _ _ _ _ E) as (la & m & lb & -> & Ea & Em). apply sees_loads in Em as (-> & Hs & Hk).
  destruct (sights_split _ _ _ _ Ea) as (l1 & m & l2 & -> & E1 & Em). pose proof (sees_returns _ _ _ _ _ Em) as ->.
  assert (H1 : one_at_a_time l1) by (do 2 apply one_app in H; done).
  destruct (after_return l1 k ok c H1 Em) as [Q S].
  set (l := l1 ++ [Returns k ok]) in *. assert (El : l1 ++ Returns k ok :: l2 = l ++ l2) by (unfold l; by rewrite <- app_assoc).
  rewrite El in *. assert (Sl : sights l = es1 ++ [Finished k c ok]).
  { unfold l. rewrite sights_snoc, E1. f_equal. exact Em. }
  assert (Se : sights (l ++ l2) = sights l ++ es2) by (rewrite Ea, Sl, <- app_assoc; done).
  split.
  - intros -> NS. destruct (stays l c l2 Q S) as (S2 & _).
    + intros j x F. rewrite Se in F. apply elem_of_app in F as [F|F]; [done|]. exfalso. by apply (no_use l l2 es2 Q Se U) in F.
    + rewrite Se, Sl. rewrite !elem_of_app, elem_of_list_singleton. rewrite elem_of_app in NS. intros [[?|?]|?]; naive_solver.
    + congruence.
  - intros B j Hj. destruct (replaced l c l2 Q) as (_ & _ & D).
    + destruct ok; [right|by left]. split; [done|]. destruct B as [?|B]; [done|]. rewrite Sl. apply elem_of_app. by left.
    + intros es Ees. rewrite Se in Ees. apply app_inv_head in Ees as <-. exact U.
    + destruct D as [[_ D]|(x & Hx & Lx)]; [by apply D in Hk|].
      assert (x = c') as -> by congruence.
      destruct (sinv_run l) as [_ _ _ _ I5 _ _ _]. assert (Hu : Uses j c' ∈ sights l) by (rewrite Sl; apply elem_of_app; by left).
      apply I5 in Hu as [Hu _]. lia.
Qed.
