(** Attributes given at insert, and the times of failures, along histories. *)
From Verif Require Export LifecycleProofs.
Local Open Scope N_scope.

(** Everything stored about a submission agrees with the arguments of its insert. *)
Record attrs (a : insert_args) (v : view) : Prop := Attrs {
  at_sub : forall r, v_sub v = Some r -> sr_prefix r = ia_prefix a /\ sr_total r = N.of_nat (length (ia_contents a)) /\
    sr_meta r = ia_meta a /\ sr_size r = Some (ia_size a) /\ sr_otel r = ia_otel a /\ v_meta v = ia_strat a;
  at_comp : forall r, v_comp v = Some r -> cr_prefix r = ia_prefix a /\ cr_total r = N.of_nat (length (ia_contents a)) /\
    cr_meta r = ia_meta a /\ v_meta v = ia_strat a /\ cr_size r = None /\ cr_otel r = "{}"%string;
  at_fail : forall r, v_fail v = Some r -> fr_prefix r = ia_prefix a /\ fr_total r = N.of_nat (length (ia_contents a)) /\
    fr_meta r = ia_meta a /\ v_meta v = ia_strat a /\ fr_size r = None /\ fr_otel r = "{}"%string;
  at_canc : forall r, v_canc v = Some r -> xr_prefix r = ia_prefix a /\ xr_total r = N.of_nat (length (ia_contents a)) /\
    xr_meta r = ia_meta a /\ v_meta v = ia_strat a;
  at_chunk : forall i c, v_chunks v !! i = Some c -> ia_contents a !! N.to_nat i = Some (ch_input c);
  at_cfail : forall i c, v_cfail v !! i = Some c -> ia_contents a !! N.to_nat i = Some (cf_input c) }.

Lemma lookup_skipped_view n m i : skipped n m !! i = (fun c => ChunkFailRow (ch_input c) "" n true) <$> m !! i.
Proof. unfold skipped. by rewrite lookup_fmap. Qed.

Lemma attrs_cfail a ix c f n2 n3 ch :
  (forall i c, ch !! i = Some c -> ia_contents a !! N.to_nat i = Some (ch_input c)) -> ch !! ix = Some c ->
  forall i r, <[ix := ChunkFailRow (ch_input c) f n2 false]> (skipped n3 (delete ix ch)) !! i = Some r ->
  ia_contents a !! N.to_nat i = Some (cf_input r).
Proof.
  intros H Hc i r. rewrite lookup_insert_Some. intros [[<- <-]|[Hi Hr]]; [by apply H|].
  rewrite lookup_skipped_view, lookup_delete_ne in Hr by done. destruct (ch !! i) eqn:E; [|done].
  injection Hr as <-. by apply H.
Qed.

Lemma drop_old_None {X} (at_ : X -> time) cutoff r x : drop_old at_ cutoff r = Some x -> older at_ cutoff r = false.
Proof. unfold drop_old, older. destruct r as [y|]; [|done]. by destruct (at_ y <? cutoff)%Z. Qed.

Lemma attrs_change a o id v v' : vinv v -> (forall id' p l m st z ot n, o = OInsert id' p l m st z ot n -> id' <> id) ->
  change o id v v' -> attrs a v -> attrs a v'.
Proof.
  intros Hv Hno Hc Ha. destruct Hc.
  - done.
  - exfalso. by eapply Hno.
  - exfalso. by eapply Hno.
  - destruct Ha; simpl in *. split; simpl; try done.
    + intros r [= <-]. simpl. by apply at_sub0.
    + intros i c'. rewrite lookup_delete_Some. intros [_ ?]. by apply at_chunk0.
  - destruct Ha; simpl in *. split; simpl; try done.
    intros r [= <-]. simpl. destruct (at_sub0 s); naive_solver.
  - destruct Ha; simpl in *. split; simpl; try done.
    intros i c'. rewrite lookup_insert_Some. intros [[<- <-]|[_ ?]]; simpl; by apply at_chunk0.
  - destruct Ha; simpl in *. split; simpl; try done.
    + intros r [= <-]. simpl. destruct (at_sub0 s); naive_solver.
    + by apply attrs_cfail.
  - destruct Ha; simpl in *. split; simpl; try done.
    + intros r [= <-]. simpl. destruct (at_sub0 s); naive_solver.
    + by apply attrs_cfail.
  - destruct Ha; simpl in *. split; simpl; try done.
    + intros r [= <-]. simpl. destruct (at_sub0 s); naive_solver.
    + intros i c'. rewrite lookup_skipped_view. destruct (ch !! i) eqn:E; [|done]. intros [= <-]. by apply at_chunk0.
  - destruct Ha; simpl in *.
    assert (Hm : forall r, v_sub v = Some r -> older cr_at cutoff (v_comp v) || older fr_at cutoff (v_fail v) || older xr_at cutoff (v_canc v) = false).
    { intros r Hr. destruct (vi_sub _ Hv r Hr) as (-> & -> & -> & _). done. }
    split; simpl; try done.
    + intros r Hr. rewrite (Hm r) by done. by apply at_sub0.
    + intros r Hr. pose proof (drop_old_Some _ _ _ _ Hr) as Hr'.
      destruct (vi_comp _ Hv _ Hr') as (E1 & E2). rewrite (drop_old_None _ _ _ _ Hr), E1, E2. simpl. by apply at_comp0.
    + intros r Hr. pose proof (drop_old_Some _ _ _ _ Hr) as Hr'.
      assert (v_comp v = None) as E1. { destruct (v_comp v) eqn:E; [|done]. destruct (vi_comp _ Hv _ E). congruence. }
      rewrite (drop_old_None _ _ _ _ Hr), E1, (vi_fail _ Hv _ Hr'). simpl. by apply at_fail0.
    + intros r Hr. pose proof (drop_old_Some _ _ _ _ Hr) as Hr'.
      assert (v_comp v = None) as E1. { destruct (v_comp v) eqn:E; [|done]. destruct (vi_comp _ Hv _ E). congruence. }
      assert (v_fail v = None) as E2. { destruct (v_fail v) eqn:E; [|done]. pose proof (vi_fail _ Hv _ E). congruence. }
      rewrite (drop_old_None _ _ _ _ Hr), E1, E2. simpl. by apply at_canc0.
    + intros i c [? _]%map_filter_lookup_Some. by apply at_cfail0.
Qed.

Lemma inserted_with_ids h id a : inserted_with h id a -> id ∈ inserted_ids h.
Proof.
  intros (e & n & He & Eo). unfold inserted_ids. apply elem_of_list_omap. exists e. split; [done|].
  unfold insert_id. by rewrite Eo.
Qed.
Lemma inserted_ids_with h id : id ∈ inserted_ids h -> exists a, inserted_with h id a.
Proof.
  unfold inserted_ids. rewrite elem_of_list_omap. intros (e & He & Ei). unfold insert_id in Ei.
  destruct (e_op e) eqn:Eo; try done. injection Ei as ->.
  exists (InsertArgs prefix contents meta strat size otel). exists e, now. by rewrite Eo.
Qed.

Lemma attrs_empty a : attrs a (View None None None None ∅ ∅ ∅ ∅).
Proof. by split; simpl. Qed.

Lemma attrs_after h id a : fresh_ids h -> inserted_with h id a -> attrs a (view_of (after h) id).
Proof.
  induction h as [|e h IH] using rev_ind; intros Hf (e0 & n & Hin & Eo).
  { by apply elem_of_nil in Hin. }
  pose proof (fresh_ids_app _ _ Hf) as [Hf0 He]. pose proof (change_after h e id Hf) as Hc.
  apply elem_of_app in Hin as [Hin|Hin%elem_of_list_singleton].
  - eapply attrs_change; [by apply vinv_after| |exact Hc|apply IH; [done|by exists e0, n]].
    intros id' p l m st z ot n' E ->. apply (He id); [by rewrite E|].
    eapply inserted_with_ids. exists e0, n. done.
  - subst e0. assert (Hid : id ∉ inserted_ids h). { apply He. by rewrite Eo. }
    rewrite (view_fresh h id Hf0 Hid) in Hc. rewrite Eo in Hc. remember (view_of (after (h ++ [e])) id) as v' eqn:Ev. clear Ev. inversion Hc; subst.
    + apply attrs_empty.
    + split; simpl; try done.
      * by intros r [= <-].
      * intros i c. rewrite lookup_number_rows. destruct (ia_contents a !! N.to_nat i) eqn:E; [|done]. by intros [= <-].
    + split; simpl; try done. intros r [= <-]. simpl. repeat split; try done; match goal with H : [] = ia_contents a |- _ => by rewrite <- H end.
Qed.

(** Whatever is stored was inserted. *)
Lemma stored_inserted h id : fresh_ids h -> view_of (after h) id <> View None None None None ∅ ∅ ∅ ∅ -> exists a, inserted_with h id a.
Proof.
  intros Hf Hv. apply inserted_ids_with. destruct (decide (id ∈ inserted_ids h)) as [|Hn]; [done|].
  exfalso. apply Hv. by apply view_fresh.
Qed.

(** *** Times *)
Record times (v : view) : Prop := Times {
  tm_fail : forall r, v_fail v = Some r -> exists c, v_cfail v !! fr_chunk r = Some c /\ (fr_at r <= cf_at c)%Z /\ cf_skipped c = false }.

Lemma times_change o id v v' : clock_ok o -> change o id v v' -> times v -> times v'.
Proof.
  intros Hk Hc [Hf]. destruct Hc; try done; simpl in *; try (split; simpl; done).
  - split; simpl. intros r [= <-]. simpl. rewrite lookup_insert. eexists. split; [done|]. simpl. split; [lia|done].
  - split; simpl. intros r [= <-]. simpl. rewrite lookup_insert. eexists. split; [done|]. simpl. split; [lia|done].
  - split; simpl. intros r Hr. pose proof (drop_old_Some _ _ _ _ Hr) as Hr'. destruct (Hf r Hr') as (c & Hl & Hle & Hs).
    exists c. split; [|done]. apply map_filter_lookup_Some. split; [done|]. simpl.
    unfold drop_old in Hr. rewrite Hr' in Hr. destruct (fr_at r <? cutoff)%Z eqn:E; [done|]. lia.
Qed.
Lemma times_after h id : fresh_ids h -> clocks_ok h -> times (view_of (after h) id).
Proof.
  induction h as [|e h IH] using rev_ind; intros Hf Hk; [by split|].
  pose proof (fresh_ids_app _ _ Hf) as [Hf0 He]. apply Forall_app in Hk as [Hk Hke].
  eapply times_change; [by inversion Hke|by apply change_after|by apply IH].
Qed.
(** Without cleanup the failed chunk is there whatever the clock does. *)
Lemma failed_row_after h id r : fresh_ids h -> no_cleanup h -> v_fail (view_of (after h) id) = Some r ->
  is_Some (v_cfail (view_of (after h) id) !! fr_chunk r).
Proof.
  intros Hf. revert r. induction h as [|e h IH] using rev_ind; intros r Hn Hr; [done|].
  pose proof (fresh_ids_app _ _ Hf) as [Hf0 He]. apply Forall_app in Hn as [Hn Hne].
  specialize (IH Hf0). pose proof (change_after h e id Hf) as Hc.
  remember (view_of (after h) id) as v. remember (view_of (after (h ++ [e])) id) as v'. clear Heqv Heqv'.
  inversion Hne as [|? ? Hx _]; subst. unfold is_cleanup in Hx.
  destruct Hc; simpl in *; try done; auto.
  - injection Hr as <-. simpl. rewrite lookup_insert. by eexists.
  - injection Hr as <-. simpl. rewrite lookup_insert. by eexists.
Qed.
